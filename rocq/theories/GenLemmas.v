(** Generated methods as updates of the number [sval s]. *)
From Coq Require Import ZArith List Bool Lia String.
From Verif Require Import RustInt Syntax GenInt GenArr Gen Spec BitsLemmas CoreLemmas.
Import ListNotations.
Open Scope Z_scope.
Ltac Zify.zify_post_hook ::= Z.to_euclidean_division_equations.

Definition in_range (bf : bitfield) (v : Z) : Prop := 0 <= v < 2 ^ ty_size (b_ty bf).

Lemma has_setter_t f : has_setter f = true <-> writable f.
Proof. unfold has_setter, writable. destruct (f_reserved f), (f_access f); intuition discriminate. Qed.
Lemma has_setter_f f : has_setter f = false <-> ~ writable f.
Proof. rewrite <- has_setter_t. destruct (has_setter f); intuition discriminate. Qed.
Lemma has_read_t f : has_read_access f = true <-> readable f.
Proof. unfold has_read_access, readable. destruct (f_access f); intuition discriminate. Qed.
Lemma has_read_f f : has_read_access f = false <-> ~ readable f.
Proof. rewrite <- has_read_t. destruct (has_read_access f); intuition discriminate. Qed.

(** The number an internal operand stands for. *)
Definition praw (f : field) (p : pval) : Z :=
  match p with
  | PInt z => z
  | PBool b => if b then 1 else 0
  | PCustom c => user_into f c
  | PArr l => le_val l
  end.
(** What [set_x(a)] stores (before reduction): custom values go through
    [from_bits] once more. *)
Definition senc (f : field) (a : fval) : Z :=
  match a with
  | VCustom t => user_into f (user_from f (user_into f t mod 2 ^ f_bits f))
  | _ => encode f a
  end.
(** What an internal assignment stores. *)
Definition aenc (f : field) (p : pval) : Z :=
  match p with
  | PCustom t =>
      if has_setter f then user_into f (user_from f (user_into f t mod 2 ^ f_bits f))
      else user_into f t
  | _ => praw f p
  end.
(** Result of extracting the bits [r]. *)
Definition raw_pval (bf : bitfield) (f : field) (r : Z) : pval :=
  match f_ty f with
  | DArray len => if is_integer_backed bf then PInt r else PArr (le_bytes (Z.to_nat len) r)
  | _ => PInt r
  end.

Ltac inv_ok :=
  repeat match goal with
  | H : field_ok _ _ |- _ =>
      let Hb := fresh "Hb" in let Ho := fresh "Ho" in let He := fresh "He" in
      let Hw := fresh "Hw" in let Hd := fresh "Hd" in
      destruct H as (Hb & Ho & He & Hw & Hd)
  end.

Ltac destb bf t n Et :=
  destruct (b_ty bf) as [t|n|] eqn:Et; rewrite ?Et in *; cbn [ty_size backing_ok] in *;
  [| |match goal with H : False |- _ => contradiction H end].
(** Case analysis on the type of a field, also in the hypotheses. *)
Ltac destf f t n Et :=
  destruct (f_ty f) as [t|n|] eqn:Et; rewrite ?Et in *.

Lemma array_n_range bf n : b_ty bf = DArray n -> backing_ok (b_ty bf) -> 0 < n /\ 8 * n < 2 ^ 32.
Proof. intros ->. exact (fun H => H). Qed.

Lemma put_ok m bf f p v :
  backing_ok (b_ty bf) -> field_ok bf f -> in_range bf v -> pval_ok bf f p ->
  put m bf f p (store_of bf v) = Val (store_of bf (splice v (f_off f) (f_bits f) (praw f p))).
Proof.
  intros Hbk Hf Hv Hp. inv_ok. unfold put, store_of, in_range in *.
  destb bf t n Et.
  - rewrite (put_int_ok m (ity_bits t) f) with (bf := bf) (t := t) by assumption || lia || reflexivity.
    cbn [bind]. reflexivity.
  - idtac.
    rewrite (put_arr_ok m (Z.to_nat n) f) with (bf := bf) (n := n) by assumption || lia.
    reflexivity.
Qed.

Lemma extract_src_ok m bf f inv v :
  backing_ok (b_ty bf) -> field_ok bf f -> in_range bf v ->
  extract_src m bf f inv (store_of bf v) =
  Val (raw_pval bf f (if inv then 2 ^ f_bits f - 1 - slice v (f_off f) (f_bits f)
                      else slice v (f_off f) (f_bits f))).
Proof.
  intros Hbk Hf Hv. inv_ok. unfold extract_src, store_of, in_range, raw_pval, is_integer_backed, width_ok in *.
  destb bf t n Et.
  - rewrite extract_src_int_ok by lia. cbn [bind]. destruct (f_ty f); reflexivity.
  - idtac. unfold extract_src_arr. destf f t' len Ef.
    + rewrite extract_src_arr_num_ok; try lia. 1: reflexivity. destruct t'; cbn in *; lia.
    + rewrite extract_src_arr_bytes_ok by lia. reflexivity.
    + rewrite extract_src_arr_num_ok by (unfold is_integer_backed in *; rewrite ?Et in *; intuition lia). reflexivity.
Qed.

Lemma slice_bool_cases bf f v :
  field_ok bf f -> f_ty f = DInteger TBool ->
  slice v (f_off f) (f_bits f) = 0 \/ slice v (f_off f) (f_bits f) = 1.
Proof.
  intros Hf E. inv_ok. unfold width_ok in *. rewrite E in *.
  pose proof (slice_bound v (f_off f) (f_bits f)). replace (f_bits f) with 1 in * by lia. lia.
Qed.

Lemma value_variable_ok bf f r :
  field_ok bf f -> 0 <= r < 2 ^ f_bits f ->
  pval_ok bf f (value_variable f (raw_pval bf f r)) /\
  praw f (value_variable f (raw_pval bf f r)) mod 2 ^ f_bits f =
  match f_ty f with DCustom => user_into f (user_from f r) mod 2 ^ f_bits f | _ => r end.
Proof.
  intros Hf Hr. inv_ok. unfold pval_ok, value_variable, raw_pval, width_ok in *.
  destf f t' len Ef.
  - destruct t'; cbn [praw]; (split; [exact I|]); try (apply Z.mod_small; lia).
    replace (f_bits f) with 1 in * by lia. destruct (Z.eqb_spec r 0); cbn; lia.
  - destruct (is_integer_backed bf) eqn:Ei; cbn [praw].
    + split; [reflexivity|]. apply Z.mod_small; lia.
    + rewrite le_bytes_length. split; [split; [reflexivity|split; [lia|apply le_bytes_bytes]]|].
      rewrite le_val_bytes, pow256 by lia. rewrite mod_mod_pow2 by lia. apply Z.mod_small; lia.
  - cbn [praw]. split; [exact I|reflexivity].
Qed.

(** ** Setters *)

Lemma cast_bit t x i : t <> TBool -> 0 <= i < ity_bits t -> Z.testbit (cast t x) i = Z.testbit x i.
Proof.
  intros Ht Hi. pose proof (cast_mod t (ity_bits t) x Ht ltac:(lia)) as E.
  apply (f_equal (fun z => Z.testbit z i)) in E. rewrite !mod_pow2_spec in E by lia.
  destruct (Z.ltb_spec i (ity_bits t)); [exact E|lia].
Qed.

Lemma land_cast_mask t z n : t <> TBool -> 1 <= n <= ity_bits t ->
  Z.land z (cast t (umax n)) mod 2 ^ n = z mod 2 ^ n.
Proof.
  intros Ht Hn. bitext i Hi. repeat bits1. destruct (Z.ltb_spec i n); [|reflexivity].
  rewrite cast_bit by (assumption || lia). rewrite umax_spec by lia.
  destruct (Z.ltb_spec i n); [|lia]. btriv.
Qed.

(** The number compared with the mask by the emitted overflow check. *)
Definition checked_num (bf : bitfield) (f : field) (a : fval) : Z :=
  match b_ty bf with
  | DInteger t => encode f a mod 2 ^ ity_bits t
  | _ => match f_ty f with DCustom => encode f a mod 2 ^ 128 | _ => encode f a end
  end.

Lemma extract_cast_ok m bf f a :
  backing_ok (b_ty bf) -> field_ok bf f -> has_type f a ->
  exists bits mask p,
    extract_cast m bf f a = Val (bits, mask, p) /\
    pval_ok bf f (value_variable f p) /\
    praw f (value_variable f p) mod 2 ^ f_bits f = senc f a mod 2 ^ f_bits f /\
    (has_post_check f = true -> mask = 2 ^ f_bits f - 1 /\ bits = checked_num bf f a).
Proof.
  intros Hbk Hf Ha. inv_ok.
  assert (Hpow : 0 < 2 ^ f_bits f) by (apply pow2_pos; lia).
  unfold extract_cast, has_type, checked_num, width_ok, has_post_check, value_variable, pval_ok in *.
  destb bf tb na Eb.
  - (* integer backing *)
    assert (Hi : is_integer_backed bf = true) by (unfold is_integer_backed; rewrite Eb; reflexivity).
    unfold extract_cast_int. rewrite mask_int_in by lia. cbn [bind].
    unfold cast_arg_int. destf f t' len Ef.
    + assert (Hgen : forall z, Z.land (ucast (ity_bits tb) z) (umax (f_bits f)) mod 2 ^ f_bits f
                          = z mod 2 ^ f_bits f).
      { intros z. rewrite land_umax by lia. rewrite Zmod_mod. apply ucast_mod; lia. }
      destruct t', a; try contradiction; cbn [bind];
        do 3 eexists; (split; [reflexivity|]); (split; [exact I|]);
        (split; [cbn [praw senc encode]; try apply Hgen|
                 intros _; split; [reflexivity|cbn [encode]; reflexivity] || discriminate]).
      replace (f_bits f) with 1 in * by lia. destruct b; reflexivity.
    + destruct a; try contradiction. destruct Ha as [Hl Hbytes].
      destruct Hw as [Hle Hw]. destruct (Hw Hi) as [Hm8 H16].
      unfold pack_len. rewrite Z.min_l by lia.
      assert (Ep : pack_int m (ity_bits tb) (f_bits f / 8) l = Val (le_val l mod 2 ^ (8 * (f_bits f / 8)))).
      { transitivity (pack_int m (ity_bits tb) (f_bits f / 8) (le_bytes (Z.to_nat len) (le_val l))).
        - f_equal. rewrite (bytes_as_le l Hbytes) at 1. f_equal. lia.
        - apply pack_int_ok; try lia. destruct tb; cbn; lia. }
      rewrite Ep.
      cbn [bind]. do 3 eexists; (split; [reflexivity|]). split; [exact Hi|]. split; [|discriminate].
      cbn [praw senc encode]. rewrite land_umax by lia. rewrite Zmod_mod.
      rewrite mod_mod_pow2 by lia. reflexivity.
    + destruct a; try contradiction. cbn [bind]. do 3 eexists; (split; [reflexivity|]).
      split; [exact I|]. split.
      * cbn [praw senc]. change (into_custom f t) with (user_into f t).
        change (from_custom f) with (user_from f). rewrite land_umax by lia.
        rewrite ucast_mod by lia. reflexivity.
      * intros _. split; [reflexivity|]. reflexivity.
  - (* array backing *)
    assert (Hi : is_integer_backed bf = false) by (unfold is_integer_backed; rewrite Eb; reflexivity).
    unfold extract_cast_arr. destf f t' len Ef.
    + destruct t', a; try contradiction; cbn [ity_bits] in *; try (rewrite mask_arr_in by lia); cbn [bind];
        do 3 eexists; (split; [reflexivity|]); (split; [exact I|]);
        (split; [cbn [praw senc encode]; try (apply land_cast_mask; [discriminate|cbn; lia])|
                 intros HH; first [discriminate HH | split;
                 [apply cast_id; unfold in_ity; cbn [ity_unsigned ity_bits] in *; unfold umax;
                  (match goal with |- _ <= _ < 2 ^ ?k => pose proof (pow2_le (f_bits f) k) end); lia
                 |reflexivity]]]).
      replace (f_bits f) with 1 in * by lia. destruct b; reflexivity.
    + destruct a; try contradiction. do 3 eexists; (split; [reflexivity|]). cbn.
      split; [tauto|]. split; [reflexivity|discriminate].
    + destruct a; try contradiction. rewrite mask_arr_in by (specialize (Hw Hi); lia). cbn [bind].
      do 3 eexists; (split; [reflexivity|]). split; [exact I|]. split.
      * cbn [praw senc]. change (into_custom f t) with (user_into f t).
        change (from_custom f) with (user_from f). rewrite land_umax by lia.
        rewrite ucast_mod by (specialize (Hw Hi); lia). reflexivity.
      * intros _. split; reflexivity.
Qed.

Lemma set_field_ok m bf f a v :
  backing_ok (b_ty bf) -> field_ok bf f -> in_range bf v -> has_type f a ->
  set_field m bf f a (store_of bf v) = Val (store_of bf (splice v (f_off f) (f_bits f) (senc f a))).
Proof.
  intros Hbk Hf Hv Ha. unfold set_field, assign_arg. cbn [andb].
  destruct (extract_cast_ok m bf f a Hbk Hf Ha) as (bits & mask & p & E & Hp & Hr & _).
  rewrite E. cbn [bind]. rewrite put_ok by assumption. cbn [bind fst]. do 2 f_equal.
  apply splice_ext. exact Hr.
Qed.

(** Whether [checked_set_x] rejects. *)
Definition reject (bf : bitfield) (f : field) (a : fval) : bool :=
  match f_ty f with
  | DInteger TBool => false
  | DInteger t =>
      if ity_unsigned t then 2 ^ f_bits f <=? checked_num bf f a
      else (encode f a <? - 2 ^ (f_bits f - 1)) || (2 ^ (f_bits f - 1) <=? encode f a)
  | DArray _ => false
  | DCustom => 2 ^ f_bits f <=? checked_num bf f a
  end.

Lemma pow2_half n : 1 <= n -> 2 ^ n = 2 * 2 ^ (n - 1).
Proof. intros. rewrite <- Z.pow_succ_r by lia. f_equal. lia. Qed.

Lemma checked_set_field_ok m bf f a v :
  backing_ok (b_ty bf) -> field_ok bf f -> in_range bf v -> has_type f a ->
  checked_set_field m bf f a (store_of bf v) =
  if reject bf f a then Val (store_of bf v, Err msg_too_big)
  else Val (store_of bf (splice v (f_off f) (f_bits f) (senc f a)), Ok tt).
Proof.
  intros Hbk Hf Hv Ha. unfold checked_set_field, assign_arg. cbn [andb].
  destruct (extract_cast_ok m bf f a Hbk Hf Ha) as (bits & mask & p & E & Hp & Hr & Hc).
  rewrite E. cbn [bind]. rewrite put_ok by assumption. cbn [bind].
  assert (Hsp : splice v (f_off f) (f_bits f) (praw f (value_variable f p)) =
                splice v (f_off f) (f_bits f) (senc f a)) by (apply splice_ext; exact Hr).
  rewrite Hsp. clear Hsp Hr E Hp.
  assert (Hpost : has_post_check f = true -> (mask <? bits) = (2 ^ f_bits f <=? checked_num bf f a)).
  { intros HH. destruct (Hc HH) as [-> ->].
    destruct (Z.ltb_spec (2 ^ f_bits f - 1) (checked_num bf f a)),
      (Z.leb_spec (2 ^ f_bits f) (checked_num bf f a)); lia. }
  clear Hc. inv_ok. unfold reject, has_post_check, dt_unsigned, signed_too_big, width_ok, has_type in *.
  destf f t' len Ef.
  - destruct (ity_unsigned t') eqn:Eu.
    + destruct t'; try discriminate Eu; cbn [negb andb];
        try (rewrite Hpost by reflexivity; reflexivity). reflexivity.
    + assert (Ht : t' <> TBool) by (intros ->; discriminate).
      destruct a; try (destruct t'; contradiction).
      replace (match t' with TBool => false | _ => false end) with false by (destruct t'; reflexivity).
      replace (match t' with TBool => false | _ => (encode f (VInt z) <? - 2 ^ (f_bits f - 1)) || (2 ^ (f_bits f - 1) <=? encode f (VInt z)) end)
        with ((encode f (VInt z) <? - 2 ^ (f_bits f - 1)) || (2 ^ (f_bits f - 1) <=? encode f (VInt z)))
        by (destruct t'; congruence).
      assert (Hz : in_ity t' z) by (destruct t'; try exact Ha; congruence).
      assert (Hwt : f_bits f <= ity_bits t') by (destruct t'; try exact Hw; congruence).
      cbn [negb andb encode].
      assert (Hs : (if ity_bits t' <=? f_bits f then false
         else (cast t' (2 ^ (f_bits f - 1) - 1) <? z) || (z <? - cast t' (2 ^ (f_bits f - 1)))) =
        (z <? - 2 ^ (f_bits f - 1)) || (2 ^ (f_bits f - 1) <=? z)).
      { unfold in_ity in Hz. rewrite Eu in Hz.
        destruct (Z.leb_spec (ity_bits t') (f_bits f)).
        - replace (f_bits f) with (ity_bits t') by lia.
          destruct (Z.ltb_spec z (- 2 ^ (ity_bits t' - 1))), (Z.leb_spec (2 ^ (ity_bits t' - 1)) z);
            try lia; reflexivity.
        - assert (0 < 2 ^ (f_bits f - 1)) by (apply pow2_pos; lia).
          assert (2 ^ (f_bits f - 1) < 2 ^ (ity_bits t' - 1)) by (apply pow2_lt; lia).
          rewrite !cast_id by (unfold in_ity; rewrite Eu; lia).
          destruct (Z.ltb_spec (2 ^ (f_bits f - 1) - 1) z), (Z.ltb_spec z (- 2 ^ (f_bits f - 1))),
            (Z.leb_spec (2 ^ (f_bits f - 1)) z); try lia; reflexivity. }
      rewrite Hs. destruct ((z <? - 2 ^ (f_bits f - 1)) || (2 ^ (f_bits f - 1) <=? z)); [reflexivity|].
      replace (match t' with TBool => false | _ => ity_unsigned t' end) with false
        by (destruct t'; congruence).
      reflexivity.
  - cbn [negb andb]. reflexivity.
  - cbn [negb andb]. rewrite Hpost by reflexivity. reflexivity.
Qed.

Lemma aenc_setter bf f p :
  field_ok bf f -> pval_ok bf f p -> has_setter f = true -> forall m,
  exists a, setter_call_arg m bf f p = Val a /\ has_type f a /\
            senc f a mod 2 ^ f_bits f = aenc f p mod 2 ^ f_bits f.
Proof.
  intros Hf Hp Hs m. inv_ok. unfold setter_call_arg, pval_ok, width_ok, has_type in *.
  destf f t' len Ef.
  - destruct t', p; try contradiction; eexists; (split; [reflexivity|]);
      try (split; [apply cast_in_ity|cbn [senc aenc encode praw]; apply cast_mod; [discriminate|cbn in *; lia]]).
    split; [exact I|reflexivity].
  - destruct p; try contradiction.
    + rewrite Hp. destruct Hw as [Hle Hw]. destruct (Hw Hp) as [H8 H16].
      rewrite unpack_int_ok by lia. cbn [bind]. eexists; (split; [reflexivity|]). split.
      * rewrite le_bytes_length. split; [lia|apply le_bytes_bytes].
      * cbn [senc aenc encode praw]. rewrite le_val_bytes, pow256 by lia.
        rewrite mod_mod_pow2 by lia. apply ucast_mod. lia.
    + destruct Hp as (-> & Hl & Hby). eexists; (split; [reflexivity|]). split; [auto|reflexivity].
  - destruct p; try contradiction. eexists; (split; [reflexivity|]). split; [exact I|].
    cbn [senc aenc]. rewrite Hs. reflexivity.
Qed.

Lemma assign_ok m bf f p v :
  backing_ok (b_ty bf) -> field_ok bf f -> in_range bf v -> pval_ok bf f p ->
  assign m bf f p (store_of bf v) = Val (store_of bf (splice v (f_off f) (f_bits f) (aenc f p))).
Proof.
  intros Hbk Hf Hv Hp. unfold assign. destruct (has_setter f) eqn:Hs.
  - destruct (aenc_setter bf f p Hf Hp Hs m) as (a & E & Ha & Hr). rewrite E. cbn [bind].
    rewrite set_field_ok by assumption. do 2 f_equal. apply splice_ext; exact Hr.
  - rewrite put_ok by assumption. do 2 f_equal. apply splice_ext.
    destruct p; cbn [aenc praw]; rewrite ?Hs; reflexivity.
Qed.

Lemma in_range_splice bf f v x : field_ok bf f -> in_range bf v -> in_range bf (splice v (f_off f) (f_bits f) x).
Proof. intros Hf Hv. inv_ok. apply splice_bound; try lia; assumption. Qed.

(** ** Getters *)

Lemma sign_extend_num w n r : 1 <= n <= w -> 0 <= r < 2 ^ n ->
  Z.shiftr (scast w (Z.shiftl (scast w r) (w - n))) (w - n) = signed_of n r.
Proof.
  intros Hn Hr. rewrite signed_of_scast by lia.
  set (k := w - n).
  assert (Hpk : 0 < 2 ^ k) by (apply pow2_pos; lia).
  assert (E : scast w (Z.shiftl (scast w r) k) = scast n r * 2 ^ k).
  { transitivity (scast w (scast n r * 2 ^ k)).
    - assert (Hm : Z.shiftl (scast w r) k mod 2 ^ w = (scast n r * 2 ^ k) mod 2 ^ w).
      { rewrite <- (Z.shiftl_mul_pow2 (scast n r)) by lia. bitext i Hi. repeat bits1.
        destruct (Z.ltb_spec i w); [|reflexivity]. cbn [andb].
        destruct (Z_lt_ge_dec i k); [rewrite !Z.testbit_neg_r by lia; reflexivity|].
        assert (Hb : forall x, Z.testbit (x mod 2 ^ n) (i - k) = Z.testbit x (i - k)).
        { intros. rewrite mod_pow2_spec by lia. destruct (Z.ltb_spec (i - k) n); [reflexivity|lia]. }
        rewrite <- (Hb (scast w r)), <- (Hb (scast n r)). rewrite !scast_mod by lia. reflexivity. }
      unfold scast at 1 3. f_equal.
      rewrite <- Zplus_mod_idemp_l, Hm, Zplus_mod_idemp_l. reflexivity.
    - apply scast_id; [lia|]. pose proof (scast_range n r ltac:(lia)).
      replace (2 ^ (w - 1)) with (2 ^ (n - 1) * 2 ^ k); [nia|].
      rewrite <- Z.pow_add_r by lia. f_equal. lia. }
  rewrite E. rewrite Z.shiftr_div_pow2 by lia. apply Z.div_mul. lia.
Qed.

Lemma get_field_ok m bf f v :
  backing_ok (b_ty bf) -> field_ok bf f -> in_range bf v ->
  get_field m bf f (store_of bf v) = Val (decode f (slice v (f_off f) (f_bits f))).
Proof.
  intros Hbk Hf Hv. unfold get_field. rewrite extract_src_ok by assumption. cbn [bind].
  inv_ok.
  pose proof (slice_bound v (f_off f) (f_bits f) ltac:(lia)) as Hr.
  set (r := slice v (f_off f) (f_bits f)) in *. clearbody r.
  unfold raw_pval, sign_extend, value_return, decode, width_ok in *.
  destf f t' len Ef.
  - destruct (ity_unsigned t') eqn:Eu.
    + cbn [bind]. destruct t'; try discriminate; try reflexivity; do 2 f_equal;
        apply cast_id; unfold in_ity; cbn [ity_unsigned ity_bits] in *;
        match goal with |- _ <= _ < 2 ^ ?k => pose proof (pow2_le (f_bits f) k) end; lia.
    + assert (Hwt : f_bits f <= ity_bits t') by (destruct t'; try discriminate; assumption).
      assert (Hc : cast t' r = scast (ity_bits t') r) by (unfold cast; rewrite Eu; reflexivity).
      rewrite usub_in by lia. cbn [bind]. unfold sshl, sshr.
      destruct (Z.ltb_spec (ity_bits t' - f_bits f) (ity_bits t')); [|lia]. cbn [bind].
      rewrite Hc, sign_extend_num by lia.
      pose proof (signed_of_range (f_bits f) r ltac:(lia) Hr) as Hs.
      assert (2 ^ (f_bits f - 1) <= 2 ^ (ity_bits t' - 1)) by (apply pow2_le; lia).
      destruct t'; try discriminate; do 2 f_equal; apply cast_id; unfold in_ity;
        cbn [ity_unsigned ity_bits] in *; lia.
  - destruct (is_integer_backed bf) eqn:Ei; cbn [bind]; [|reflexivity].
    rewrite unpack_int_ok by (destruct Hw as [? Hw]; specialize (Hw ltac:(first [reflexivity|assumption])); lia).
    cbn [bind]. do 2 f_equal. apply le_bytes_inj_bits. intros i Hi.
    rewrite ucast_spec by lia. destruct (Z.ltb_spec i 128); [reflexivity|].
    rewrite (testbit_small r (f_bits f)) by lia. reflexivity.
  - cbn [bind]. reflexivity.
Qed.

(** Conversion of inverted bits into a value: unsigned reading. *)
Lemma value_to_field_ok m bf f r :
  field_ok bf f -> 0 <= r < 2 ^ f_bits f ->
  value_to_field m f (raw_pval bf f r) =
  Val (match f_ty f with
       | DInteger TBool => VBool (negb (r =? 0))
       | DInteger t => VInt (cast t r)
       | DArray len => VArr (le_bytes (Z.to_nat len) r)
       | DCustom => VCustom (user_from f r)
       end).
Proof.
  intros Hf Hr. inv_ok. unfold value_to_field, raw_pval, width_ok in *.
  destf f t' len Ef.
  - destruct t'; reflexivity.
  - destruct (is_integer_backed bf) eqn:Ei; [|reflexivity].
    rewrite unpack_int_ok by (destruct Hw as [? Hw]; specialize (Hw ltac:(first [reflexivity|assumption])); lia).
    cbn [bind]. do 2 f_equal. apply le_bytes_inj_bits. intros i Hi.
    rewrite ucast_spec by lia. destruct (Z.ltb_spec i 128); [reflexivity|].
    rewrite (testbit_small r (f_bits f)) by lia. reflexivity.
  - reflexivity.
Qed.

Lemma inverted_has_type bf f r :
  field_ok bf f -> 0 <= r < 2 ^ f_bits f ->
  has_type f (match f_ty f with
       | DInteger TBool => VBool (negb (r =? 0))
       | DInteger t => VInt (cast t r)
       | DArray len => VArr (le_bytes (Z.to_nat len) r)
       | DCustom => VCustom (user_from f r)
       end).
Proof.
  intros Hf Hr. inv_ok. unfold has_type, width_ok in *. destf f t' len Ef.
  - destruct t'; try apply cast_in_ity; exact I.
  - rewrite le_bytes_length. split; [lia|apply le_bytes_bytes].
  - exact I.
Qed.

Lemma lossless_eq f r : lossless f -> f_ty f = DCustom -> 0 <= r < 2 ^ f_bits f ->
  user_into f (user_from f r) mod 2 ^ f_bits f = r.
Proof. unfold lossless. intros H E. rewrite E in H. apply H. Qed.

(** Storing the value read (or inverted) stores the same bits. *)
Lemma senc_value bf f r :
  field_ok bf f -> lossless f -> 0 <= r < 2 ^ f_bits f ->
  senc f (match f_ty f with
       | DInteger TBool => VBool (negb (r =? 0))
       | DInteger t => VInt (cast t r)
       | DArray len => VArr (le_bytes (Z.to_nat len) r)
       | DCustom => VCustom (user_from f r)
       end) mod 2 ^ f_bits f = r.
Proof.
  intros Hf Hl Hr. inv_ok. unfold width_ok in *. destf f t' len Ef.
  - destruct t'; cbn [senc encode];
      try (rewrite cast_mod by (try discriminate; cbn in *; lia); apply Z.mod_small; lia).
    replace (f_bits f) with 1 in * by lia. destruct (Z.eqb_spec r 0); cbn; lia.
  - cbn [senc encode]. rewrite le_val_bytes, pow256 by lia. rewrite mod_mod_pow2 by lia.
    apply Z.mod_small; lia.
  - cbn [senc]. rewrite (lossless_eq f r) by assumption. apply lossless_eq; assumption.
Qed.

Lemma senc_decode bf f r :
  field_ok bf f -> lossless f -> 0 <= r < 2 ^ f_bits f -> senc f (decode f r) mod 2 ^ f_bits f = r.
Proof.
  intros Hf Hl Hr. pose proof Hf as Hf0. destruct Hf0 as (Hb & _). unfold decode. destf f t' len Ef.
  - pose proof (senc_value bf f r Hf Hl Hr) as E. rewrite Ef in E.
    destruct (ity_unsigned t') eqn:Eu.
    + destruct t'; try discriminate; try exact E; cbn [senc encode]; apply Z.mod_small; lia.
    + destruct t'; try discriminate; cbn [senc encode]; apply signed_of_mod; lia.
  - pose proof (senc_value bf f r Hf Hl Hr) as E. rewrite Ef in E. exact E.
  - pose proof (senc_value bf f r Hf Hl Hr) as E. rewrite Ef in E. exact E.
Qed.

(** Storing extracted bits. *)
Lemma aenc_value bf f r :
  field_ok bf f -> lossless f -> 0 <= r < 2 ^ f_bits f ->
  aenc f (value_variable f (raw_pval bf f r)) mod 2 ^ f_bits f = r.
Proof.
  intros Hf Hl Hr. destruct (value_variable_ok bf f r Hf Hr) as [_ E].
  unfold value_variable, raw_pval in *. destf f t' len Ef.
  - destruct t'; exact E.
  - destruct (is_integer_backed bf); exact E.
  - cbn [aenc]. change (from_custom f) with (user_from f). destruct (has_setter f).
    + rewrite (lossless_eq f r) by assumption. apply lossless_eq; assumption.
    + apply lossless_eq; assumption.
Qed.

(** ** Sequences of field assignments *)

Definition upd (g : field -> Z) (fs : list field) (v : Z) : Z :=
  fold_left (fun v f => splice v (f_off f) (f_bits f) (g f)) fs v.

Lemma upd_cons g f fs v : upd g (f :: fs) v = upd g fs (splice v (f_off f) (f_bits f) (g f)).
Proof. reflexivity. Qed.

Lemma run_all_upd bf (step : field -> store -> outcome store) (g : field -> Z) fs v :
  Forall (field_ok bf) fs -> in_range bf v ->
  (forall f v, In f fs -> in_range bf v ->
     step f (store_of bf v) = Val (store_of bf (splice v (f_off f) (f_bits f) (g f)))) ->
  run_all step fs (store_of bf v) = Val (store_of bf (upd g fs v)) /\ in_range bf (upd g fs v).
Proof.
  intros Hok. revert v. induction Hok as [|f fs Hf Hok IH]; intros v Hv Hstep; cbn.
  - auto.
  - rewrite Hstep by (auto; left; reflexivity). cbn [bind].
    apply IH.
    + apply in_range_splice; assumption.
    + intros; apply Hstep; auto. right; assumption.
Qed.

Definition disj (f g : field) : Prop :=
  f_off f + f_bits f <= f_off g \/ f_off g + f_bits g <= f_off f.

Lemma partition_disjoint bf fs :
  Forall (field_ok bf) fs -> partition (ty_size (b_ty bf)) fs -> ForallOrdPairs disj fs.
Proof.
  intros Hok Hp.
  assert (H : forall i j f g, (i < j)%nat -> nth_error fs i = Some f -> nth_error fs j = Some g -> disj f g).
  { intros i j f g Hij Hf Hg.
    assert (Hfo : field_ok bf f) by (eapply Forall_forall; [exact Hok|eapply nth_error_In; eassumption]).
    assert (Hgo : field_ok bf g) by (eapply Forall_forall; [exact Hok|eapply nth_error_In; eassumption]).
    inv_ok. unfold disj.
    destruct (Z_le_gt_dec (f_off f + f_bits f) (f_off g)); [left; lia|].
    destruct (Z_le_gt_dec (f_off g + f_bits g) (f_off f)); [right; lia|]. exfalso.
    destruct (Hp (Z.max (f_off f) (f_off g))) as [k [_ Hu]]; [lia|].
    assert (k = i) by (apply Hu; exists f; unfold covers; split; [assumption|lia]).
    assert (k = j) by (apply Hu; exists g; unfold covers; split; [assumption|lia]).
    lia. }
  clear Hok Hp. induction fs as [|f fs IH]; constructor.
  - apply Forall_forall. intros g Hg. apply In_nth_error in Hg. destruct Hg as [j Hj].
    apply (H 0%nat (S j)); auto. lia.
  - apply IH. intros i j a b Hij Ha Hb. apply (H (S i) (S j)); auto. lia.
Qed.

Lemma FOP_filter {A} (R : A -> A -> Prop) p l : ForallOrdPairs R l -> ForallOrdPairs R (filter p l).
Proof.
  induction 1; cbn; [constructor|]. destruct (p a); [|assumption]. constructor; [|assumption].
  apply Forall_forall. intros x Hx. apply filter_In in Hx.
  eapply Forall_forall in H; [exact H|tauto].
Qed.

Lemma Forall_filter {A} (P : A -> Prop) p l : Forall P l -> Forall P (filter p l).
Proof. induction 1; cbn; [constructor|]. destruct (p x); auto. Qed.

Lemma upd_bit_out bf g fs v i :
  Forall (field_ok bf) fs -> 0 <= i -> (forall f, In f fs -> ~ covers f i) ->
  Z.testbit (upd g fs v) i = Z.testbit v i.
Proof.
  intros Hok Hi. revert v. induction Hok as [|f fs Hf Hok IH]; intros v Hn; [reflexivity|].
  rewrite upd_cons, IH by (intros; apply Hn; right; assumption).
  inv_ok. rewrite splice_spec by lia.
  assert (~ covers f i) by (apply Hn; left; reflexivity). unfold covers in *.
  cases_bool; btriv.
Qed.

Lemma upd_bit_in bf g fs v f i :
  Forall (field_ok bf) fs -> ForallOrdPairs disj fs -> In f fs -> covers f i -> 
  Z.testbit (upd g fs v) i = Z.testbit (g f) (i - f_off f).
Proof.
  intros Hok Hd Hin Hc. revert v. induction Hd as [|a fs Ha Hd IH]; intros v; [contradiction|].
  inversion Hok; subst. rewrite upd_cons.
  destruct Hin as [->|Hin].
  - inv_ok. unfold covers in Hc. rewrite (upd_bit_out bf); [|assumption|lia|].
    + rewrite splice_spec by lia. cases_bool; btriv.
    + intros h Hh. eapply Forall_forall in Ha; [|exact Hh]. unfold disj, covers in *. lia.
  - apply IH; assumption.
Qed.

Lemma upd_slice_in bf g fs v f :
  Forall (field_ok bf) fs -> ForallOrdPairs disj fs -> In f fs ->
  slice (upd g fs v) (f_off f) (f_bits f) = g f mod 2 ^ f_bits f.
Proof.
  intros Hok Hd Hin. assert (Hf : field_ok bf f) by (eapply Forall_forall; eassumption).
  inv_ok. bitext i Hi. rewrite slice_spec, mod_pow2_spec by lia.
  destruct (Z.ltb_spec i (f_bits f)); cbn [andb]; [|reflexivity].
  rewrite (upd_bit_in bf g fs v f) by (assumption || (unfold covers; lia)). f_equal. lia.
Qed.

Lemma upd_slice_out bf g fs v f :
  Forall (field_ok bf) fs -> field_ok bf f -> (forall h, In h fs -> disj h f) ->
  slice (upd g fs v) (f_off f) (f_bits f) = slice v (f_off f) (f_bits f).
Proof.
  intros Hok Hf Hd. inv_ok. bitext i Hi. rewrite !slice_spec by lia.
  destruct (Z.ltb_spec i (f_bits f)); cbn [andb]; [|reflexivity].
  apply (upd_bit_out bf); [assumption|lia|]. intros h Hh. specialize (Hd h Hh).
  unfold disj, covers in *. lia.
Qed.

(** Facts about well-formed bitfields. *)
Lemma bf_ok_field bf f : bf_ok bf -> In f (b_fields bf) -> field_ok bf f.
Proof. intros (_ & H & _) Hin. eapply Forall_forall; eassumption. Qed.
Lemma bf_ok_disj bf : bf_ok bf -> ForallOrdPairs disj (b_fields bf).
Proof. intros (_ & H & Hp). eapply partition_disjoint; eassumption. Qed.
Lemma bf_ok_owner bf i : bf_ok bf -> 0 <= i < ty_size (b_ty bf) ->
  exists f, In f (b_fields bf) /\ covers f i.
Proof.
  intros (_ & _ & Hp) Hi. destruct (Hp i Hi) as [k [[f [Hk Hc]] _]].
  exists f. split; [eapply nth_error_In; eassumption|assumption].
Qed.

Lemma disj_sym f g : disj f g -> disj g f.
Proof. unfold disj. tauto. Qed.

Lemma FOP_In {A} (R : A -> A -> Prop) l a b :
  ForallOrdPairs R l -> In a l -> In b l -> a = b \/ R a b \/ R b a.
Proof.
  induction 1; intros Ha Hb; [contradiction|]. rewrite Forall_forall in H.
  destruct Ha as [->|Ha], Hb as [->|Hb]; auto.
Qed.

(** States are determined by the bits of their fields. *)
Lemma slices_determine bf v v' :
  bf_ok bf -> in_range bf v -> in_range bf v' ->
  (forall f, In f (b_fields bf) -> slice v (f_off f) (f_bits f) = slice v' (f_off f) (f_bits f)) ->
  v = v'.
Proof.
  intros Hok Hv Hv' H. unfold in_range in *. bitext i Hi.
  destruct (Z_lt_ge_dec i (ty_size (b_ty bf))).
  - destruct (bf_ok_owner bf i Hok ltac:(lia)) as (f & Hin & Hc). specialize (H f Hin).
    pose proof (bf_ok_field bf f Hok Hin). inv_ok.
    apply (f_equal (fun z => Z.testbit z (i - f_off f))) in H. unfold covers in Hc.
    rewrite !slice_spec in H by lia. destruct (Z.ltb_spec (i - f_off f) (f_bits f)); [|lia].
    cbn [andb] in H. replace (i - f_off f + f_off f) with i in H by lia. exact H.
  - rewrite (testbit_small v (ty_size (b_ty bf))), (testbit_small v' (ty_size (b_ty bf))) by lia.
    reflexivity.
Qed.

Lemma in_range_0 bf : backing_ok (b_ty bf) -> in_range bf 0.
Proof. intros H. unfold in_range. split; [lia|]. apply pow2_pos. apply ty_size_pos in H. lia. Qed.

Lemma init_store_of bf : backing_ok (b_ty bf) -> init_store bf = store_of bf 0.
Proof.
  unfold init_store, store_of. destruct (b_ty bf); intros H; [reflexivity| |contradiction].
  f_equal. apply zeros_le_bytes.
Qed.

Lemma set_default_ok m bf f p v :
  backing_ok (b_ty bf) -> field_ok bf f -> in_range bf v -> f_default f = Some p ->
  set_default m bf f (store_of bf v) = Val (store_of bf (splice v (f_off f) (f_bits f) (aenc f p))).
Proof.
  intros Hbk Hf Hv Hd. unfold set_default. rewrite Hd. apply assign_ok; auto.
  inv_ok. unfold default_ok in *. rewrite Hd in *. assumption.
Qed.

(** The number stored for the default of a field. *)
Definition denc (f : field) : Z := match f_default f with Some p => aenc f p | None => 0 end.

Lemma zero_value_ok bf f : field_ok bf f -> pval_ok bf f (zero_value bf f).
Proof.
  intros Hf. inv_ok. unfold pval_ok, zero_value, width_ok in *. destf f t' len Ef.
  - destruct t'; exact I.
  - destruct (is_integer_backed bf); [reflexivity|]. rewrite zeros_le_bytes, le_bytes_length.
    split; [reflexivity|]. split; [lia|apply le_bytes_bytes].
  - exact I.
Qed.

Definition zenc (bf : bitfield) (f : field) : Z := aenc f (zero_value bf f).

Lemma le_bytes_0_val n : le_val (le_bytes n 0) = 0.
Proof. rewrite le_val_bytes. apply Z.mod_0_l. apply Z.pow_nonzero; lia. Qed.

Lemma zenc_0 bf f : field_ok bf f -> lossless f -> zenc bf f mod 2 ^ f_bits f = 0.
Proof.
  intros Hf Hl. inv_ok. unfold zenc, zero_value. destf f t' len Ef.
  - destruct t'; reflexivity.
  - destruct (is_integer_backed bf); cbn [aenc praw]; [reflexivity|].
    rewrite zeros_le_bytes, le_bytes_0_val. reflexivity.
  - assert (0 < 2 ^ f_bits f) by (apply pow2_pos; lia).
    cbn [aenc]. change (from_custom f) with (user_from f). destruct (has_setter f).
    + rewrite (lossless_eq f 0) by (assumption || lia). apply lossless_eq; (assumption || lia).
    + apply lossless_eq; (assumption || lia).
Qed.

Lemma set_defaults_ok m bf v :
  bf_ok bf -> in_range bf v ->
  set_defaults m bf (store_of bf v) =
    Val (store_of bf (upd denc (filter has_default (b_fields bf)) v)) /\
  in_range bf (upd denc (filter has_default (b_fields bf)) v).
Proof.
  intros (Hbk & Hok & _) Hv. unfold set_defaults.
  apply run_all_upd; [apply Forall_filter; assumption|assumption|].
  intros f v' Hin Hv'. apply filter_In in Hin. destruct Hin as [Hin Hd].
  unfold has_default in Hd. unfold denc. destruct (f_default f) as [p|] eqn:E; [|discriminate].
  apply set_default_ok; auto. eapply Forall_forall; eassumption.
Qed.

Lemma copy_fields_ok m bf sel b v :
  bf_ok bf -> in_range bf b -> in_range bf v ->
  let g := fun f => aenc f (value_variable f (raw_pval bf f (slice b (f_off f) (f_bits f)))) in
  copy_fields m bf sel (store_of bf b) (store_of bf v) =
    Val (store_of bf (upd g (filter sel (b_fields bf)) v)) /\
  in_range bf (upd g (filter sel (b_fields bf)) v).
Proof.
  intros (Hbk & Hok & _) Hb Hv g. unfold copy_fields.
  apply run_all_upd; [apply Forall_filter; assumption|assumption|].
  intros f v' Hin Hv'. apply filter_In in Hin. destruct Hin as [Hin _].
  assert (Hf : field_ok bf f) by (eapply Forall_forall; eassumption).
  rewrite extract_src_ok by assumption. cbn [bind].
  apply assign_ok; auto. apply value_variable_ok; [assumption|].
  apply slice_bound. inv_ok. lia.
Qed.

Definition new_num (bf : bitfield) (defaults : bool) (v : Z) : Z :=
  let v1 := upd (zenc bf) (filter (fun f => negb (defaults && has_default f)) (b_fields bf)) v in
  if defaults then upd denc (filter has_default (b_fields bf)) v1
  else upd denc (filter (fun f => f_reserved f && has_default f) (b_fields bf)) v1.

Lemma new_impl_ok m bf defaults v :
  bf_ok bf -> in_range bf v ->
  new_impl m bf defaults (store_of bf v) = Val (store_of bf (new_num bf defaults v)) /\
  in_range bf (new_num bf defaults v).
Proof.
  intros Hbf Hv. pose proof Hbf as (Hbk & Hok & _). unfold new_impl, new_num.
  destruct (run_all_upd bf (set_zero m bf) (zenc bf)
     (filter (fun f => negb (defaults && has_default f)) (b_fields bf)) v) as [E1 R1].
  { apply Forall_filter; assumption. } { assumption. }
  { intros f v' Hin Hv'. apply filter_In in Hin. destruct Hin as [Hin _].
    assert (Hf : field_ok bf f) by (eapply Forall_forall; eassumption).
    apply assign_ok; auto. apply zero_value_ok; assumption. }
  rewrite E1. cbn [bind]. destruct defaults; cbn [bind].
  - destruct (set_defaults_ok m bf _ Hbf R1) as [E2 R2].
    rewrite E2. cbn [bind]. split; [reflexivity|assumption].
  - apply run_all_upd; [apply Forall_filter; assumption|assumption|].
    intros f v' Hin Hv'. apply filter_In in Hin. destruct Hin as [Hin Hd].
    apply andb_true_iff in Hd. destruct Hd as [_ Hd].
    unfold has_default in Hd. unfold denc. destruct (f_default f) as [p|] eqn:E; [|discriminate].
    apply set_default_ok; auto. eapply Forall_forall; eassumption.
Qed.

Lemma invert_field_ok m bf f v :
  backing_ok (b_ty bf) -> field_ok bf f -> in_range bf v ->
  let r' := 2 ^ f_bits f - 1 - slice v (f_off f) (f_bits f) in
  exists a, inverted_field m bf f (store_of bf v) = Val a /\ has_type f a /\
    (lossless f -> senc f a mod 2 ^ f_bits f = r') /\
    invert_field m bf f (store_of bf v) = Val (store_of bf (splice v (f_off f) (f_bits f) (senc f a))).
Proof.
  intros Hbk Hf Hv r'. unfold invert_field, inverted_field.
  rewrite extract_src_ok by assumption. cbn [bind]. fold r'.
  assert (Hr : 0 <= r' < 2 ^ f_bits f).
  { inv_ok. unfold r'. pose proof (slice_bound v (f_off f) (f_bits f)). lia. }
  rewrite value_to_field_ok by assumption. eexists. split; [reflexivity|].
  split; [apply (inverted_has_type bf); assumption|]. split.
  - intros Hl. apply (senc_value bf); assumption.
  - cbn [bind]. apply set_field_ok; auto. apply (inverted_has_type bf); assumption.
Qed.
