(** Core refinement lemmas: the emitted field code is [slice] / [splice]. *)
From Coq Require Import ZArith List Bool Lia.
From Verif Require Import RustInt Syntax GenInt GenArr Gen Spec BitsLemmas.
Import ListNotations.
Open Scope Z_scope.
Ltac Zify.zify_post_hook ::= Z.to_euclidean_division_equations.

(** The storage of a given value. *)
Definition store_of (bf : bitfield) (v : Z) : store :=
  match b_ty bf with
  | DArray n => StA (le_bytes (Z.to_nat n) v)
  | _ => StI v
  end.

Lemma store_of_sval bf s : store_ok bf s -> s = store_of bf (sval s).
Proof.
  unfold store_ok, store_of. destruct (b_ty bf), s; cbn; try contradiction; try reflexivity.
  intros [E H]. f_equal. rewrite <- E, Nat2Z.id. apply bytes_as_le; assumption.
Qed.

Lemma sval_store_of bf v : backing_ok (b_ty bf) -> 0 <= v < 2 ^ ty_size (b_ty bf) -> sval (store_of bf v) = v.
Proof.
  unfold store_of, backing_ok. destruct (b_ty bf); cbn [sval ty_size]; intros H Hv; auto.
  rewrite le_val_bytes, pow256 by lia. rewrite Z2Nat.id by lia. apply Z.mod_small; lia.
Qed.

Lemma store_of_ok bf v : backing_ok (b_ty bf) -> 0 <= v < 2 ^ ty_size (b_ty bf) -> store_ok bf (store_of bf v).
Proof.
  unfold store_of, store_ok, backing_ok. destruct (b_ty bf); cbn [ty_size]; intros H Hv; auto.
  rewrite le_bytes_length. split; [lia|apply le_bytes_bytes].
Qed.

Lemma sval_bound bf s : backing_ok (b_ty bf) -> store_ok bf s -> 0 <= sval s < 2 ^ ty_size (b_ty bf).
Proof.
  unfold store_ok, backing_ok. destruct (b_ty bf), s; cbn [sval ty_size]; try contradiction; auto.
  intros H [E F]. apply le_val_bound in F. rewrite pow256 in F by lia. rewrite E in F. lia.
Qed.

Lemma ty_size_pos d : backing_ok d -> 0 < ty_size d.
Proof.
  destruct d as [t|n|]; cbn [backing_ok ty_size]; intros; [|lia|contradiction].
  destruct t; cbn; lia.
Qed.

Lemma bf_size_eq bf : bf_size bf = ty_size (b_ty bf).
Proof. unfold bf_size. destruct (b_ty bf); cbn [ty_size]; lia. Qed.

(** ** Fixed-width operations in range *)

Lemma shr_in m w x n : 0 <= n < w -> shr m w x n = Val (Z.shiftr x n).
Proof. intros. unfold shr. destruct (Z.ltb_spec n w); [reflexivity|lia]. Qed.
Lemma shl_in m w x n : 0 <= n < w -> shl m w x n = Val (Z.shiftl x n mod 2 ^ w).
Proof. intros. unfold shl. destruct (Z.ltb_spec n w); [reflexivity|lia]. Qed.
Lemma usub_in m w a b : b <= a -> usub m w a b = Val (a - b).
Proof. intros. unfold usub. destruct (Z.leb_spec b a); [reflexivity|lia]. Qed.
Lemma uadd_in m w a b : a + b < 2 ^ w -> uadd m w a b = Val (a + b).
Proof. intros. unfold uadd. destruct (Z.ltb_spec (a + b) (2 ^ w)); [reflexivity|lia]. Qed.
Lemma umul_in m w a b : a * b < 2 ^ w -> umul m w a b = Val (a * b).
Proof. intros. unfold umul. destruct (Z.ltb_spec (a * b) (2 ^ w)); [reflexivity|lia]. Qed.

Lemma shiftr_umax w n : 0 <= n <= w -> Z.shiftr (umax w) n = umax (w - n).
Proof.
  intros. apply Z.bits_inj'. intros i Hi.
  rewrite Z.shiftr_spec, !umax_spec by lia.
  destruct (Z.ltb_spec (i + n) w), (Z.ltb_spec i (w - n)); lia || reflexivity.
Qed.

Lemma mask_int_in m w b : 1 <= b <= w -> mask_int m w b = Val (umax b).
Proof.
  intros. unfold mask_int. rewrite usub_in by lia. cbn [bind].
  rewrite shr_in by lia. rewrite shiftr_umax by lia. do 2 f_equal. lia.
Qed.

(** Bit-level rewriting. *)
Ltac bits1 :=
  first
    [ rewrite Z.lor_spec | rewrite Z.land_spec | rewrite Z.lxor_spec | rewrite Z.ldiff_spec
    | rewrite splice_spec by lia | rewrite slice_spec by lia
    | rewrite unot_spec by lia | rewrite umax_spec by lia | rewrite ucast_spec by lia
    | rewrite mod_pow2_spec by lia | rewrite Z.shiftl_spec by lia | rewrite Z.shiftr_spec by lia
    | rewrite testbit_pow2 by lia | rewrite Z.bits_0 ].
Ltac cases_bool :=
  repeat match goal with
  | |- context [?a <? ?b] => destruct (Z.ltb_spec a b); try lia
  | |- context [?a <=? ?b] => destruct (Z.leb_spec a b); try lia
  | |- context [?a =? ?b] => destruct (Z.eqb_spec a b); try lia
  end; cbn [andb orb xorb negb].
Ltac btriv :=
  repeat match goal with
  | |- context [Z.testbit ?a ?i] => let b := fresh "b" in set (b := Z.testbit a i); clearbody b; try destruct b
  end; try reflexivity.
Ltac bitext i Hi := apply Z.bits_inj'; intros i Hi.

(** ** Integer backing *)

Section IntBacking.
Variables (m : mode) (w : Z) (f : field).
Hypothesis Hb : 1 <= f_bits f.
Hypothesis Ho : 0 <= f_off f.
Hypothesis He : f_off f + f_bits f <= w.

Lemma extract_src_int_ok inv v :
  extract_src_int m w f inv v =
  Val (if inv then 2 ^ f_bits f - 1 - slice v (f_off f) (f_bits f) else slice v (f_off f) (f_bits f)).
Proof.
  unfold extract_src_int. rewrite mask_int_in by lia. cbn [bind].
  rewrite shr_in by lia. cbn [bind]. f_equal. destruct inv.
  - assert (E : 2 ^ f_bits f - 1 - slice v (f_off f) (f_bits f) =
                Z.ldiff (umax (f_bits f)) (slice v (f_off f) (f_bits f))).
    { unfold umax. apply Z.sub_nocarry_ldiff. fold (umax (f_bits f)). bitext i Hi.
      repeat bits1. cases_bool; btriv. }
    rewrite E. bitext i Hi. repeat bits1. cases_bool; btriv.
  - bitext i Hi. repeat bits1. cases_bool; btriv.
Qed.

Lemma hole_ok v x :
  hole <- shl m w (umax (f_bits f)) (f_off f) ;;
  new <- shl m w (Z.land x (umax (f_bits f))) (f_off f) ;;
  Val (Z.lor (Z.land v (unot w hole)) new)
  = if (0 <=? v) && (v <? 2 ^ w) then Val (splice v (f_off f) (f_bits f) x)
    else (hole <- shl m w (umax (f_bits f)) (f_off f) ;;
  new <- shl m w (Z.land x (umax (f_bits f))) (f_off f) ;;
  Val (Z.lor (Z.land v (unot w hole)) new)).
Proof.
  destruct ((0 <=? v) && (v <? 2 ^ w)) eqn:E; [|reflexivity].
  assert (0 <= v < 2 ^ w) by lia. clear E.
  rewrite !shl_in by lia. cbn [bind]. f_equal. bitext i Hi.
  repeat bits1.
  destruct (Z_lt_ge_dec i w).
  - destruct (Z_lt_ge_dec i (f_off f)).
    + rewrite (Z.testbit_neg_r x) by lia. rewrite (Z.testbit_neg_r (umax _)) by lia.
      cases_bool; btriv.
    + repeat bits1. cases_bool; btriv.
  - rewrite (testbit_small v w) by lia. cases_bool; btriv.
Qed.

Lemma put_int_ok bf t v p :
  b_ty bf = DInteger t -> w = ity_bits t -> width_ok bf f ->
  0 <= v < 2 ^ w -> pval_ok bf f p ->
  put_int m w f p v =
  Val (splice v (f_off f) (f_bits f)
    match p with PInt z => z | PBool b => if b then 1 else 0
               | PCustom c => user_into f c | PArr l => le_val l end).
Proof.
  intros Hty Hw Hwid Hv Hp. unfold put_int, pval_ok, width_ok in *.
  assert (Hin : (0 <=? v) && (v <? 2 ^ w) = true) by lia.
  assert (Hint : forall z, mask <- mask_int m w (f_bits f) ;;
      hole <- shl m w mask (f_off f) ;;
      new <- shl m w (Z.land z mask) (f_off f) ;;
      Val (Z.lor (Z.land v (unot w hole)) new) = Val (splice v (f_off f) (f_bits f) z)).
  { intros z. rewrite mask_int_in by lia. cbn [bind]. rewrite hole_ok, Hin. reflexivity. }
  destruct (f_ty f) as [t'|len|] eqn:Et.
  - destruct t'; destruct p; try contradiction; try (apply Hint).
    (* bool *)
    assert (H1 : forall i, 0 <= i -> Z.testbit 1 (i - f_off f) = (i =? f_off f)).
    { intros i Hi. destruct (Z.eqb_spec i (f_off f)); [subst; rewrite Z.sub_diag; reflexivity|].
      destruct (Z_lt_ge_dec i (f_off f)); [rewrite Z.testbit_neg_r by lia; reflexivity|].
      apply (testbit_small 1 1); lia. }
    destruct b; (rewrite shl_in by lia); cbn [bind]; f_equal; bitext i Hi; repeat bits1; rewrite ?H1 by lia;
      (destruct (Z_lt_ge_dec i w); [|rewrite (testbit_small v w) by lia]); cases_bool; btriv.
  - destruct p; try contradiction; [apply Hint|].
    destruct Hp as [Hp _]. unfold is_integer_backed in Hp. rewrite Hty in Hp. discriminate.
  - destruct p; try contradiction.
    rewrite mask_int_in by lia. cbn [bind]. rewrite hole_ok, Hin.
    f_equal. apply splice_ext. change (into_custom f t0) with (user_into f t0).
    apply ucast_mod; lia.
Qed.

(** Packing an array argument. *)
Lemma pack_int_ok n len z : 0 <= n -> n <= len -> n * 8 <= w -> w < 2 ^ 64 ->
  pack_int m w n (le_bytes (Z.to_nat len) z) = Val (z mod 2 ^ (8 * n)).
Proof.
  intros Hn Hl Hw' Hww. unfold pack_int.
  apply while_lt_eq with (g := fun i => z mod 2 ^ (8 * i)); auto.
  - rewrite Z.mod_1_r. reflexivity.
  - intros i Hi. rewrite arr_get_le_bytes by lia. cbn [bind].
    rewrite umul_in by lia. cbn [bind]. rewrite shl_in by lia. cbn [bind]. f_equal.
    bitext j Hj. repeat bits1.
    destruct (Z_lt_ge_dec j (i * 8)).
    + rewrite (Z.testbit_neg_r _ (j - i * 8)) by lia. cases_bool; btriv.
    + repeat bits1. replace (j - i * 8 + 8 * i) with j by lia. cases_bool; btriv.
Qed.

End IntBacking.

Lemma unpack_int_ok m len v : 0 <= len <= 16 ->
  unpack_int m len v = Val (le_bytes (Z.to_nat len) v).
Proof.
  intros Hl. unfold unpack_int.
  apply while_lt_eq with (g := fun i => le_bytes (Z.to_nat len) (v mod 2 ^ (8 * i))); try lia.
  - cbn. rewrite Z.mod_1_r. apply zeros_le_bytes.
  - apply le_bytes_inj_bits. intros i Hi. repeat bits1. cases_bool; btriv.
  - intros i Hi. rewrite umul_in by lia. cbn [bind]. rewrite shr_in by lia. cbn [bind].
    rewrite arr_set_le_bytes.
    + f_equal. apply le_bytes_inj_bits. intros j Hj. change 255 with (umax 8).
      repeat bits1. destruct (Z_lt_ge_dec j (8 * i)).
      * cases_bool; btriv.
      * repeat bits1. replace (j - 8 * i + i * 8) with j by lia. cases_bool; btriv.
    + lia.
    + unfold is_byte. change 255 with (umax 8). rewrite land_umax by lia.
      apply Z.mod_pos_bound; lia.
Qed.

(** ** Array backing *)

Definition b2z (b : bool) : Z := if b then 1 else 0.

Lemma b2z_bit b i : 0 <= i -> Z.testbit (b2z b) i = (i =? 0) && b.
Proof.
  intros. destruct b; cbn [b2z].
  - rewrite (testbit_pow2 0) by lia. destruct (Z.eqb_spec i 0), (Z.eqb_spec 0 i); try lia; reflexivity.
  - rewrite Z.bits_0. destruct (i =? 0); reflexivity.
Qed.

Lemma land_1 x : Z.land x 1 = b2z (Z.testbit x 0).
Proof.
  bitext i Hi. rewrite Z.land_spec, b2z_bit by lia.
  change 1 with (2 ^ 0). rewrite testbit_pow2 by lia.
  destruct (Z.eqb_spec 0 i), (Z.eqb_spec i 0); try lia; subst; btriv; apply andb_comm.
Qed.

Lemma b2z_eq1 b : (b2z b =? 1) = b.
Proof. destruct b; reflexivity. Qed.
Lemma b2z_ne0 b : negb (b2z b =? 0) = b.
Proof. destruct b; reflexivity. Qed.

Lemma mask_arr_in m b : 1 <= b <= 128 -> mask_arr m b = Val (umax b).
Proof.
  intros. unfold mask_arr. destruct (Z.eqb_spec b 128).
  - subst; reflexivity.
  - rewrite shl_in by lia. cbn [bind].
    rewrite Z.shiftl_mul_pow2, Z.mul_1_l by lia.
    assert (0 < 2 ^ b) by (apply pow2_pos; lia). assert (2 ^ b < 2 ^ 128) by (apply pow2_lt; lia).
    rewrite Z.mod_small by lia. rewrite usub_in by lia. reflexivity.
Qed.

Lemma compl_ldiff n x : 0 <= n -> 0 <= x < 2 ^ n -> 2 ^ n - 1 - x = Z.ldiff (umax n) x.
Proof.
  intros. fold (umax n). apply Z.sub_nocarry_ldiff. bitext i Hi. repeat bits1.
  destruct (Z.ltb_spec i n); [btriv|]. rewrite (testbit_small x n) by lia. reflexivity.
Qed.

Section ArrBacking.
Variables (m : mode) (N : nat).

Lemma get_bit_arr z i : 0 <= i < 8 * Z.of_nat N ->
  b <- arr_get (le_bytes N z) (i / 8) ;; x <- shr m 8 b (i mod 8) ;; Val (Z.land x 1)
  = Val (b2z (Z.testbit z i)).
Proof.
  intros. rewrite arr_get_le_bytes by lia. cbn [bind]. rewrite shr_in by lia. cbn [bind].
  rewrite land_1. do 2 f_equal. repeat bits1. destruct (Z.ltb_spec (0 + i mod 8) 8); [|lia].
  cbn [andb]. f_equal. lia.
Qed.

Lemma write_bit_ok z i b : 0 <= i < 8 * Z.of_nat N ->
  write_bit m (i / 8) (i mod 8) b (le_bytes N z) = Val (le_bytes N (splice z i 1 (b2z b))).
Proof.
  intros. unfold write_bit. rewrite shl_in by lia. cbn [bind].
  rewrite arr_get_le_bytes by lia. cbn [bind].
  assert (Hone : forall j, 0 <= j -> Z.testbit (Z.shiftl 1 (i mod 8) mod 2 ^ 8) j = (j =? i mod 8)).
  { intros j Hj. repeat bits1. change 1 with (b2z true).
    destruct (Z_lt_ge_dec j (i mod 8)).
    - rewrite Z.testbit_neg_r by lia. cases_bool; btriv.
    - rewrite b2z_bit by lia. cases_bool; btriv. }
  set (one := Z.shiftl 1 (i mod 8) mod 2 ^ 8) in *. clearbody one.
  rewrite arr_set_le_bytes.
  - f_equal. apply le_bytes_inj_bits. intros j Hj. repeat bits1.
    destruct (Z.leb_spec (8 * (i / 8)) j), (Z.ltb_spec j (8 * (i / 8) + 8)); cbn [andb];
      try (cases_bool; btriv; fail).
    destruct b; cbn [b2z]; repeat bits1; rewrite ?Hone by lia;
      replace (j - 8 * (i / 8) + 8 * (i / 8)) with j by lia.
    + destruct (Z.leb_spec i j), (Z.ltb_spec j (i + 1)); cbn [andb]; try lia.
      * replace (j - i) with 0 by lia. change (Z.testbit 1 0) with true. cases_bool; btriv.
      * cases_bool; btriv.
      * cases_bool; btriv.
    + cases_bool; btriv.
  - lia.
  - unfold is_byte. change 256 with (2 ^ 8). apply bound_of_bits; [lia|].
    intros j Hj. destruct b; repeat bits1; rewrite ?Hone by lia; cases_bool; btriv.
Qed.

Lemma splice_one z off k x : 0 <= off -> 0 <= k ->
  splice (splice z off k x) (off + k) 1 (b2z (Z.testbit x k)) = splice z off (k + 1) x.
Proof.
  intros. bitext j Hj. repeat bits1.
  destruct (Z.leb_spec (off + k) j), (Z.ltb_spec j (off + k + 1)); cbn [andb].
  - replace j with (off + k) by lia. rewrite Z.sub_diag. rewrite b2z_bit by lia. cbn.
    cases_bool. f_equal. lia.
  - cases_bool; btriv.
  - cases_bool; btriv.
  - cases_bool; btriv.
Qed.

Lemma splice_0 z off x : 0 <= off -> splice z off 0 x = z.
Proof. intros. bitext j Hj. repeat bits1. cases_bool; btriv. Qed.

Lemma src_bit_ok off i z : 0 <= off -> 0 <= i -> off + i < 8 * Z.of_nat N -> 8 * Z.of_nat N < 2 ^ 32 ->
  src_bit m off i (le_bytes N z) = Val (b2z (Z.testbit z (off + i))).
Proof.
  intros. unfold src_bit. rewrite uadd_in by lia. cbn [bind]. apply get_bit_arr. lia.
Qed.

Variable f : field.
Hypothesis Hb : 1 <= f_bits f.
Hypothesis Ho : 0 <= f_off f.
Hypothesis He : f_off f + f_bits f <= 8 * Z.of_nat N.
Hypothesis HN : 8 * Z.of_nat N < 2 ^ 32.

Lemma put_arr_loop (src : Z -> outcome bool) x z :
  (forall i, 0 <= i < f_bits f -> src i = Val (Z.testbit x i)) ->
  while_lt (f_bits f) (fun i s =>
      bit_index <- uadd m 32 (f_off f) i ;;
      b <- src i ;;
      write_bit m (bit_index / 8) (bit_index mod 8) b s) (le_bytes N z)
  = Val (le_bytes N (splice z (f_off f) (f_bits f) x)).
Proof.
  intros Hsrc.
  apply while_lt_eq with (g := fun i => le_bytes N (splice z (f_off f) i x)); auto; try lia.
  - rewrite splice_0 by lia. reflexivity.
  - intros i Hi. rewrite uadd_in by lia. cbn [bind]. rewrite Hsrc by lia. cbn [bind].
    rewrite write_bit_ok by lia. rewrite splice_one by lia. reflexivity.
Qed.

Lemma while_lt_ext {S} n (b1 b2 : Z -> S -> outcome S) s :
  (forall i s, b1 i s = b2 i s) -> while_lt n b1 s = while_lt n b2 s.
Proof.
  intros H. unfold while_lt. generalize 0. revert s.
  induction (Z.to_nat n); intros; cbn; [reflexivity|].
  rewrite H. destruct (b2 z s); cbn; auto.
Qed.

Lemma put_arr_num_ok x z : f_bits f <= 128 ->
  while_lt (f_bits f) (fun i s =>
      bit_index <- uadd m 32 (f_off f) i ;;
      y <- shr m 128 x i ;;
      write_bit m (bit_index / 8) (bit_index mod 8) (Z.land y 1 =? 1) s) (le_bytes N z)
  = Val (le_bytes N (splice z (f_off f) (f_bits f) x)).
Proof.
  intros Hle.
  erewrite while_lt_ext; [apply (put_arr_loop (fun i => y <- shr m 128 x i ;; Val (Z.land y 1 =? 1)))|].
  - intros i Hi. rewrite shr_in by lia. cbn [bind]. rewrite land_1, b2z_eq1. f_equal.
    rewrite Z.shiftr_spec by lia. f_equal.
  - intros i s. cbn. destruct (uadd m 32 (f_off f) i); cbn; [|reflexivity].
    destruct (shr m 128 x i); reflexivity.
Qed.

Lemma put_arr_ok bf n z p :
  b_ty bf = DArray n -> width_ok bf f -> pval_ok bf f p ->
  put_arr m f p (le_bytes N z) =
  Val (le_bytes N (splice z (f_off f) (f_bits f)
    match p with PInt x => x | PBool b => if b then 1 else 0
               | PCustom c => user_into f c | PArr l => le_val l end)).
Proof.
  intros Hty Hw Hp. unfold put_arr, pval_ok, width_ok in *.
  assert (Hni : is_integer_backed bf = false) by (unfold is_integer_backed; rewrite Hty; reflexivity).
  destruct (f_ty f) as [t'|len|] eqn:Et.
  - assert (Hint : t' <> TBool -> forall x, Val (le_bytes N (splice z (f_off f) (f_bits f) (ucast 128 x)))
       = Val (le_bytes N (splice z (f_off f) (f_bits f) x))).
    { intros Ht x. do 2 f_equal. apply splice_ext. apply ucast_mod. destruct t'; cbn in *; try congruence; lia. }
    assert (Hbits : f_bits f <= 128) by (destruct t'; cbn in *; lia).
    destruct t'; destruct p; try contradiction;
      rewrite put_arr_num_ok by lia; try (apply Hint; discriminate).
    reflexivity.
  - destruct p; try contradiction; [congruence|].
    destruct Hp as (_ & Hlen & Hbytes).
    erewrite while_lt_ext.
    1: apply (put_arr_loop (fun i => b <- arr_get l (i / 8) ;; y <- shr m 8 b (i mod 8) ;; Val (Z.land y 1 =? 1))).
    + intros i Hi.
      rewrite (bytes_as_le l Hbytes) at 1.
      rewrite arr_get_le_bytes by lia. cbn [bind]. rewrite shr_in by lia. cbn [bind].
      rewrite land_1, b2z_eq1. f_equal. repeat bits1.
      destruct (Z.ltb_spec (0 + i mod 8) 8); [|lia]. cbn [andb]. f_equal. lia.
    + intros i s. cbn. destruct (uadd m 32 (f_off f) i); cbn; [|reflexivity].
      destruct (arr_get l (i / 8)); cbn; [|reflexivity].
      destruct (shr m 8 a0 (i mod 8)); reflexivity.
  - destruct p; try contradiction. rewrite put_arr_num_ok by auto.
    do 2 f_equal. apply splice_ext. change (into_custom f t) with (user_into f t).
    apply ucast_mod. specialize (Hw Hni). lia.
Qed.

Lemma extract_src_arr_num_ok inv z : f_bits f <= 128 ->
  extract_src_arr_num m f inv (le_bytes N z) =
  Val (if inv then 2 ^ f_bits f - 1 - slice z (f_off f) (f_bits f) else slice z (f_off f) (f_bits f)).
Proof.
  intros Hle. unfold extract_src_arr_num.
  erewrite while_lt_eq with (g := fun i => slice z (f_off f) i); [|lia| |reflexivity|].
  - cbn [bind]. destruct inv; [|reflexivity]. rewrite mask_arr_in by lia. cbn [bind].
    f_equal. rewrite compl_ldiff by (try apply slice_bound; lia).
    bitext i Hi. repeat bits1. cases_bool; btriv.
  - bitext i Hi. repeat bits1. cases_bool; btriv.
  - intros i Hi. rewrite src_bit_ok by lia. cbn [bind]. rewrite shl_in by lia. cbn [bind].
    f_equal. bitext j Hj. repeat bits1.
    destruct (Z_lt_ge_dec j i).
    + rewrite (Z.testbit_neg_r _ (j - i)) by lia. cases_bool; btriv.
    + rewrite b2z_bit by lia. destruct (Z.eqb_spec (j - i) 0).
      * replace j with i by lia. replace (f_off f + i) with (i + f_off f) by lia. cases_bool; btriv.
      * cases_bool; btriv.
Qed.

Lemma lxor_b2z b : Z.lxor (b2z b) 1 = b2z (negb b).
Proof. destruct b; reflexivity. Qed.

Lemma extract_src_arr_bytes_ok len inv z : f_bits f <= 8 * len ->
  extract_src_arr_bytes m f len inv (le_bytes N z) =
  Val (le_bytes (Z.to_nat len)
    (if inv then 2 ^ f_bits f - 1 - slice z (f_off f) (f_bits f) else slice z (f_off f) (f_bits f))).
Proof.
  intros Hle. unfold extract_src_arr_bytes.
  set (zz := if inv then Z.lnot z else z).
  assert (Hres : (if inv then 2 ^ f_bits f - 1 - slice z (f_off f) (f_bits f)
                  else slice z (f_off f) (f_bits f)) = slice zz (f_off f) (f_bits f)).
  { unfold zz. destruct inv; [|reflexivity]. rewrite compl_ldiff by (try apply slice_bound; lia).
    bitext i Hi. repeat bits1. rewrite Z.lnot_spec by lia. cases_bool; btriv. }
  rewrite Hres.
  apply while_lt_eq with (g := fun i => le_bytes (Z.to_nat len) (slice zz (f_off f) i)); auto; try lia.
  - rewrite zeros_le_bytes. f_equal. bitext i Hi. repeat bits1. cases_bool; btriv.
  - intros i Hi. rewrite src_bit_ok by lia. cbn [bind].
    replace (if inv then Z.lxor (b2z (Z.testbit z (f_off f + i))) 1 else b2z (Z.testbit z (f_off f + i)))
      with (b2z (Z.testbit zz (f_off f + i))).
    2:{ unfold zz. destruct inv; [|reflexivity]. rewrite lxor_b2z, Z.lnot_spec by lia. reflexivity. }
    rewrite shl_in by lia. cbn [bind].
    rewrite arr_get_le_bytes by lia. cbn [bind].
    assert (Hx : forall j, 0 <= j -> Z.testbit (Z.shiftl (b2z (Z.testbit zz (f_off f + i))) (i mod 8) mod 2 ^ 8) j
             = (j =? i mod 8) && Z.testbit zz (f_off f + i)).
    { intros j Hj. repeat bits1.
      destruct (Z_lt_ge_dec j (i mod 8)).
      - rewrite (Z.testbit_neg_r (b2z _)) by lia. cases_bool; btriv.
      - rewrite b2z_bit by lia. cases_bool; btriv. }
    set (x := Z.shiftl _ _ mod _) in *. clearbody x.
    rewrite arr_set_le_bytes.
    + f_equal. apply le_bytes_inj_bits. intros j Hj. repeat bits1.
      destruct (Z.leb_spec (8 * (i / 8)) j), (Z.ltb_spec j (8 * (i / 8) + 8)); cbn [andb];
        try (repeat bits1; cases_bool; btriv; fail).
      repeat bits1. rewrite Hx by lia.
      replace (j - 8 * (i / 8) + 8 * (i / 8)) with j by lia.
      destruct (Z.eqb_spec (j - 8 * (i / 8)) (i mod 8)).
      * replace (f_off f + i) with (j + f_off f) by lia. cases_bool; btriv.
      * cases_bool; btriv.
    + lia.
    + unfold is_byte. change 256 with (2 ^ 8). apply bound_of_bits; [lia|].
      intros j Hj. repeat bits1. rewrite Hx by lia. cases_bool; btriv.
Qed.

End ArrBacking.
