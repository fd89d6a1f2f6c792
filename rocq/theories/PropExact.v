(** Exact behaviour behind claims that hold only in part: C07, C33, C42, C49, C58.

    Each of these claims is false as it stands (see the [_refuted] theorems); the
    theorems here say, for every input, what the code does instead, and hence
    precisely when the claim holds. *)
From Coq Require Import ZArith List Bool String Ascii Lia.
From Verif Require Import RustInt Syntax ConstExpr Parser Bitflag GenInt GenArr Gen Spec SpecDecl BitsLemmas CoreLemmas
  GenLemmas ConvLemmas BitOpLemmas Examples PropFields PropConv PropLit ParserLemmas ParserLoop PropArgs PropParse
  PropDefault PropBitflag.
Import ListNotations.
Open Scope Z_scope.
Ltac Zify.zify_post_hook ::= Z.to_euclidean_division_equations.

(** ** C07: what the checked setter checks *)

(** The number of bits of the value the check looks at; [None]: all of them. *)
Definition seen_bits (bf : bitfield) (f : field) : option Z :=
  match b_ty bf with
  | DInteger tb => Some (ity_bits tb)
  | _ => match f_ty f with DCustom => Some 128 | _ => None end
  end.
(** Values let through: every bool and byte array; signed integers that fit;
    other values whose low [seen_bits] bits are a number that fits. *)
Definition passes (bf : bitfield) (f : field) (a : fval) : Prop :=
  match f_ty f, a with
  | DInteger TBool, _ => True
  | DArray _, _ => True
  | DInteger t, VInt z =>
      if ity_unsigned t then
        match seen_bits bf f with Some w => z mod 2 ^ w < 2 ^ f_bits f | None => z < 2 ^ f_bits f end
      else - 2 ^ (f_bits f - 1) <= z < 2 ^ (f_bits f - 1)
  | DCustom, VCustom k =>
      match seen_bits bf f with
      | Some w => user_into f k mod 2 ^ w < 2 ^ f_bits f
      | None => user_into f k < 2 ^ f_bits f
      end
  | _, _ => False
  end.

Lemma reject_passes bf f a : has_type f a -> (reject bf f a = false <-> passes bf f a).
Proof.
  unfold reject, passes, has_type, checked_num, seen_bits, encode. destruct (f_ty f) as [t|len|] eqn:Et.
  - destruct a as [z|b|l|k]; destruct t; try contradiction; cbn [ity_unsigned]; intro H;
      try tauto; try (rewrite orb_false_iff, Z.ltb_ge, Z.leb_gt; lia);
      destruct (b_ty bf); rewrite Z.leb_gt; lia.
  - tauto.
  - destruct a as [z|b|l|k]; try contradiction. intros _. destruct (b_ty bf); rewrite Z.leb_gt; unfold user_into; reflexivity.
Qed.

(** For every field and every value of its type: the setter accepts and behaves
    like [set_x], or rejects and changes nothing, as [passes] says. *)
Theorem C07_exact m bf f a s :
  bf_ok bf -> In f (b_fields bf) -> store_ok bf s -> has_type f a ->
  (passes bf f a -> exists s', set_field m bf f a s = Val s' /\ checked_set_field m bf f a s = Val (s', Ok tt)) /\
  (~ passes bf f a ->
     checked_set_field m bf f a s = Val (s, Err "Value is too big to fit within the field bits."%string)).
Proof.
  intros Hbf Hin Hs Ha. pose proof (reject_passes bf f a Ha) as Hr.
  use_store s v. pose proof (bf_ok_field bf f Hbf Hin) as Hf. pose proof Hbf as (Hbk & _).
  rewrite checked_set_field_ok by assumption. split; intro Hp.
  - apply Hr in Hp. rewrite Hp. eexists. split; [|reflexivity]. apply set_field_ok; assumption.
  - destruct (reject bf f a); [reflexivity|]. exfalso. apply Hp, Hr. reflexivity.
Qed.

(** Values that fit are always let through. *)
Theorem C07_fits_passes bf f a :
  bf_ok bf -> In f (b_fields bf) -> has_type f a -> fits f a -> passes bf f a.
Proof.
  intros Hbf Hin Ha Hfit. pose proof (bf_ok_field bf f Hbf Hin) as (Hb & Ho & He & Hw & _).
  unfold passes, fits, has_type, seen_bits, encode, ty_size in *.
  assert (Hsmall : forall z w, 0 <= z < 2 ^ f_bits f -> f_bits f <= w -> z mod 2 ^ w < 2 ^ f_bits f).
  { intros z w Hz Hw'. pose proof (pow2_le (f_bits f) w ltac:(lia)). rewrite Z.mod_small by lia. lia. }
  destruct (f_ty f) as [t|len|] eqn:Et; [| exact I |].
  - destruct a as [z|b|l|k]; destruct t; try contradiction; cbn [ity_unsigned] in *; try exact I; try lia;
      (destruct (b_ty bf); [apply Hsmall; lia|lia|lia]).
  - destruct a as [z|b|l|k]; try contradiction. unfold width_ok in Hw. rewrite Et in Hw.
    unfold is_integer_backed in Hw. destruct (b_ty bf); apply Hsmall; try lia; specialize (Hw eq_refl); lia.
Qed.

(** C07 holds of a field of integer, bool or array type exactly if its type is
    [checkable]: its unsigned integer type is no wider than the type of an integer
    bitfield, or it is an array that uses all its bits. *)
Theorem C07_holds_iff m bf f :
  bf_ok bf -> In f (b_fields bf) -> f_ty f <> DCustom ->
  ((forall a s s', store_ok bf s -> has_type f a ->
      checked_set_field m bf f a s = Val (s', Ok tt) -> fits f a) <-> checkable bf f).
Proof.
  intros Hbf Hin Hc. pose proof (bf_ok_field bf f Hbf Hin) as (Hb & Ho & He & Hw & _). pose proof Hbf as (Hbk & _).
  split.
  - intro H. assert (Hz : in_range bf 0) by (unfold in_range; pose proof (pow2_pos (ty_size (b_ty bf)) ltac:(lia)); lia).
    assert (K : forall a, has_type f a -> passes bf f a -> fits f a).
    { intros a Ha Hp. destruct (C07_exact m bf f a (store_of bf 0) Hbf Hin (of_ok bf 0 Hbf Hz) Ha) as [H1 _].
      destruct (H1 Hp) as (s' & _ & E). exact (H a _ s' (of_ok bf 0 Hbf Hz) Ha E). }
    clear H Hz. unfold checkable, has_type, passes, fits, width_ok, seen_bits, encode, ty_size in *.
    destruct (f_ty f) as [t|len|] eqn:Et; [| |congruence].
    + destruct (b_ty bf) as [tb|n|] eqn:Eb; [|destruct t; exact I|destruct t; exact I].
      assert (G : ity_unsigned t = true -> t <> TBool -> ity_bits t <= ity_bits tb).
      { intros Eu Hb'. destruct (Z_le_gt_dec (ity_bits t) (ity_bits tb)) as [L|L]; [exact L|exfalso].
        assert (Hp : forall n, 0 <= n -> 0 < 2 ^ n) by (intros; apply pow2_pos; lia).
        pose proof (pow2_lt (ity_bits tb) (ity_bits t) ltac:(lia)) as Hlt.
        pose proof (pow2_le (f_bits f) (ity_bits tb) ltac:(lia)) as Hle.
        specialize (K (VInt (2 ^ ity_bits tb))).
        pose proof (Hp (f_bits f) ltac:(lia)). pose proof (Z_mod_same_full (2 ^ ity_bits tb)) as Em.
        destruct t; try discriminate; try congruence; cbn [ity_unsigned] in *;
          specialize (K ltac:(unfold in_ity; cbn [ity_unsigned]; lia) ltac:(lia)); lia. }
      destruct t; try exact I; intro Eu; apply G; congruence.
    + destruct Hw as [Hw _]. destruct (Z_le_gt_dec (8 * len) (f_bits f)) as [L|L]; [lia|exfalso].
      specialize (K (VArr (le_bytes (Z.to_nat len) (2 ^ f_bits f)))). cbv beta iota in K.
      rewrite le_bytes_length, Z2Nat.id, le_val_bytes, Z2Nat.id in K by lia.
      assert (E : 256 ^ len = 2 ^ (8 * len)) by (rewrite Z.pow_mul_r by lia; reflexivity).
      pose proof (pow2_lt (f_bits f) (8 * len) ltac:(lia)).
      rewrite E, Z.mod_small in K by (pose proof (pow2_pos (f_bits f) ltac:(lia)); lia).
      specialize (K (conj eq_refl (le_bytes_bytes _ _)) I). lia.
  - intros Hk a s s' Hs Ha E. destruct (C06_checked_set m bf f a s Hbf Hin Hs Ha Hk) as [_ H2].
    pose proof (reject_fits bf f a Hbf Hin Ha Hk) as R. destruct (reject bf f a) eqn:Er; [|apply R; reflexivity].
    rewrite H2 in E; [discriminate|]. intro X. apply R in X. discriminate.
Qed.

(** 256 and 0 pass the check of the 4-bit [u32] field of a [u8] bitfield, 255 does not. *)
Example C07_ex :
  bf_ok c07_bf /\ In c07_f (b_fields c07_bf) /\ f_ty c07_f <> DCustom /\ ~ checkable c07_bf c07_f /\
  passes c07_bf c07_f (VInt 256) /\ ~ passes c07_bf c07_f (VInt 255) /\
  has_type c07_f (VInt 255) /\ has_type c07_f (VInt 256) /\ checkable ex_int ex_a.
Proof.
  split; [apply bf_okb_ok; vm_compute; reflexivity|]. split; [left; reflexivity|]. split; [discriminate|].
  split; [intro H; specialize (H eq_refl); vm_compute in H; apply H; reflexivity|].
  repeat split; vm_compute; congruence.
Qed.

(** ** C42: the value returned by [x_inverted] of a signed field *)

(** For a signed field of any width that reads [z]: [x_inverted] is [-z-1] if [z]
    is negative or the field has the full width of its type, and otherwise the
    complement of the bits read as an unsigned number.  [invert_x] stores [-z-1]
    in every case. *)
Theorem C42_exact m bf f t s z :
  bf_ok bf -> In f (b_fields bf) -> store_ok bf s ->
  f_ty f = DInteger t -> ity_unsigned t = false -> get_field m bf f s = Val (VInt z) ->
  (f_bits f = ity_bits t \/ z < 0 -> inverted_field m bf f s = Val (VInt (- z - 1))) /\
  (f_bits f < ity_bits t -> 0 <= z -> inverted_field m bf f s = Val (VInt (2 ^ f_bits f - 1 - z))) /\
  exists s', invert_field m bf f s = Val s' /\ get_field m bf f s' = Val (VInt (- z - 1)).
Proof.
  intros Hbf Hin Hs Et Eu. rewrite C05_get_is_decode by assumption. unfold decode. rewrite Et, Eu.
  intros E. assert (Ez : z = signed_of (f_bits f) (raw s f))
    by (destruct t; try discriminate; inversion E; reflexivity). clear E.
  pose proof (bf_ok_field bf f Hbf Hin) as Hf. pose proof Hbf as (Hbk & _).
  destruct (C21_invert_is_set_inverted m bf f s Hbf Hin Hs) as (a & Ea & Ha & Einv).
  unfold raw in Ez. use_store s v. rewrite sval_of in Ez by assumption.
  pose proof (slice_in bf f v Hf) as Hsl. set (r := slice v (f_off f) (f_bits f)) in *.
  assert (Ei : inverted_field m bf f (store_of bf v) = Val (VInt (cast t (2 ^ f_bits f - 1 - r)))).
  { unfold inverted_field. rewrite extract_src_ok by assumption. cbn [bind].
    rewrite value_to_field_ok by (assumption || lia). rewrite Et. destruct t; try discriminate; reflexivity. }
  assert (Hw : f_bits f <= ity_bits t)
    by (destruct Hf as (_ & _ & _ & Hw & _); unfold width_ok in Hw; rewrite Et in Hw; destruct t; try discriminate; exact Hw).
  assert (Hb : 1 <= f_bits f) by apply Hf.
  pose proof (pow2_half (f_bits f) Hb) as Hh.
  assert (Hzr : z < 0 /\ z = r - 2 ^ f_bits f /\ 2 ^ (f_bits f - 1) <= r \/ 0 <= z /\ z = r /\ r < 2 ^ (f_bits f - 1)).
  { rewrite Ez. unfold signed_of. destruct (Z.ltb_spec r (2 ^ (f_bits f - 1))); lia. }
  assert (Hfull : f_bits f = ity_bits t -> cast t (2 ^ f_bits f - 1 - r) = - z - 1).
  { intro Hfull. unfold cast. rewrite Eu, <- Hfull. rewrite <- signed_of_scast by lia.
    unfold signed_of. destruct (Z.ltb_spec (2 ^ f_bits f - 1 - r) (2 ^ (f_bits f - 1))); lia. }
  assert (Hneg : z < 0 -> cast t (2 ^ f_bits f - 1 - r) = - z - 1).
  { intro Hn. rewrite cast_id; [lia|]. unfold in_ity. rewrite Eu.
    pose proof (pow2_le (f_bits f - 1) (ity_bits t - 1) ltac:(lia)). lia. }
  assert (Hpos : f_bits f < ity_bits t -> 0 <= z -> cast t (2 ^ f_bits f - 1 - r) = 2 ^ f_bits f - 1 - z).
  { intros Hn Hz. rewrite cast_id; [lia|]. unfold in_ity. rewrite Eu.
    pose proof (pow2_le (f_bits f) (ity_bits t - 1) ltac:(lia)). lia. }
  split; [intros [H'|H']; rewrite Ei, ?Hfull, ?Hneg by assumption; reflexivity|].
  split; [intros H1 H2; rewrite Ei, Hpos by assumption; reflexivity|].
  rewrite Ei in Ea. injection Ea as <-.
  assert (Hl : lossless f) by (unfold lossless; rewrite Et; destruct t; exact I).
  destruct (C03_set_get_lossless m bf f (VInt (cast t (2 ^ f_bits f - 1 - r))) (store_of bf v) Hbf Hin Hs Ha Hl)
    as (s' & E1 & _ & E2).
  exists s'. split; [rewrite Einv; exact E1|]. rewrite E2. unfold reduced. rewrite Et, Eu.
  assert (Hc : cast t (2 ^ f_bits f - 1 - r) = - z - 1 \/ cast t (2 ^ f_bits f - 1 - r) = - z - 1 + 1 * 2 ^ f_bits f).
  { destruct Hzr as [[Hn _]|[Hn _]]; [left; auto|].
    destruct (Z.eq_dec (f_bits f) (ity_bits t)); [left; auto|right; rewrite Hpos by lia; lia]. }
  assert (Em : cast t (2 ^ f_bits f - 1 - r) mod 2 ^ f_bits f = (- z - 1) mod 2 ^ f_bits f)
    by (destruct Hc as [-> | ->]; [reflexivity|apply Z_mod_plus_full]).
  rewrite Em.
  assert (Es : signed_of (f_bits f) ((- z - 1) mod 2 ^ f_bits f) = - z - 1).
  { destruct Hzr as [(Hn & -> & Hr)|(Hn & -> & Hr)].
    - rewrite Z.mod_small by lia. unfold signed_of.
      destruct (Z.ltb_spec (- (r - 2 ^ f_bits f) - 1) (2 ^ (f_bits f - 1))); lia.
    - rewrite <- (Z_mod_plus_full _ 1), Z.mod_small by lia. unfold signed_of.
      destruct (Z.ltb_spec (- r - 1 + 1 * 2 ^ f_bits f) (2 ^ (f_bits f - 1))); lia. }
  rewrite Es. destruct t; try discriminate; reflexivity.
Qed.

(** A 4-bit [i8] field: 0 is inverted to 15, -3 to 2. *)
Example C42_exact_ex :
  bf_ok ex_int /\ In ex_b (b_fields ex_int) /\ f_ty ex_b = DInteger I8 /\ f_bits ex_b = 4 /\
  get_field Checked ex_int ex_b (StI 0) = Val (VInt 0) /\
  inverted_field Checked ex_int ex_b (StI 0) = Val (VInt 15) /\
  get_field Checked ex_int ex_b (StI 0x1a0) = Val (VInt (-3)) /\
  inverted_field Checked ex_int ex_b (StI 0x1a0) = Val (VInt 2).
Proof. split; [exact ex_int_ok|]. split; [right; left; reflexivity|]. repeat split; vm_compute; reflexivity. Qed.

(** ** C33: what an accepted literal default becomes *)

(** The range check of the macro. *)
Lemma accepted_range m F d bf k r f t l :
  parse_bitfield m F d = POk bf -> fits_u32 m bf -> bf_ok bf ->
  nth_error (active d) k = Some r -> nth_error (b_fields bf) k = Some f ->
  f_ty f = DInteger t -> t <> TBool ->
  last_arg "default" r = Some (literal_text l) -> literal_ok l -> magnitude l < 2 ^ 128 ->
  - 2 ^ 127 <= literal_value l ->
  if ity_unsigned t then 0 <= literal_value l < 2 ^ f_bits f
  else - 2 ^ (f_bits f - 1) <= literal_value l < 2 ^ f_bits f.
Proof.
  intros H Hfit Hok Hr Hf Ht Htb Hd Hl Hm Hneg.
  pose proof (parse_inv m F d bf H Hfit) as (_ & _ & _ & _ & _ & _ & _ & _ & Hacc & _).
  pose proof (Forall2_nth _ _ _ Hacc _ _ _ Hr Hf) as Ha. clear Hacc H Hfit.
  destruct Ha as [Hattr Hmatch _ Hw Hhold Hdef _]. rewrite Ht in Hhold, Hdef.
  assert (Hnf : ~ float_like l).
  { intro Hc. apply float_like_rejected in Hc; [|exact Hl].
    unfold attr_ok in Hattr. unfold last_arg, attr_args in Hd.
    destruct (r_attr r) as [| |b args]; try discriminate.
    destruct Hattr as [_ Hargs]. apply last_of_In in Hd. rewrite Forall_forall in Hargs.
    apply Hargs in Hd. destruct Hd as [[Hk _]|[[Hk _]|[_ [c Hk]]]]; [discriminate Hk|discriminate Hk|].
    cbn [snd] in Hk. congruence. }
  destruct (C44_literal_value l Hl Hm Hnf) as (n & neg & Ec & En & Eneg).
  destruct (Hdef _ _ _ Hd Ec) as [Hda Hnn].
  pose proof (magnitude_nonneg l) as Hmag.
  pose proof (nth_error_In _ _ Hf) as Hin. pose proof (bf_ok_field bf f Hok Hin) as (Hb & _).
  unfold literal_value in *. unfold default_accepted, default_in_range in Hda.
  assert (P : 0 < 2 ^ (f_bits f - 1)) by (apply Z.pow_pos_nonneg; lia).
  assert (P1 : 0 < 2 ^ f_bits f) by (apply Z.pow_pos_nonneg; lia).
  destruct (l_minus l) eqn:El.
  - assert (neg = true) by (apply Eneg; reflexivity). subst neg.
    destruct (Hnn eq_refl) as [Hu _]. rewrite Hu.
    assert (Hn : n = magnitude l) by lia.
    destruct Hda as [[_ Hda]|[_ Hda]]; lia.
  - destruct neg; [destruct Eneg as [Eneg _]; discriminate (Eneg eq_refl)|].
    assert (Hn : n = magnitude l) by lia.
    destruct Hda as [Hda|[Hda _]]; [|discriminate Hda].
    destruct (ity_unsigned t); lia.
Qed.

Lemma emitted_spec bf f l z : backing_ok (b_ty bf) -> emitted_literal bf f l = Some z ->
  in_type (literal_type bf f l) z /\ (z - literal_value l) mod 2 ^ snd (literal_type bf f l) = 0.
Proof.
  intros Hbk E. pose proof (literal_type_width bf f l Hbk) as Hw.
  unfold emitted_literal in E. destruct (_ && _)%bool; [discriminate|].
  assert (Hz : z = truncate (literal_type bf f l) (literal_value l)).
  { destruct (has_setter f), (b_ty bf), (l_suffix l); try (injection E as <-; reflexivity).
    destruct (_ && _)%bool; [injection E as <-; reflexivity|discriminate]. }
  subst z. unfold truncate, in_type. destruct (literal_type bf f l) as [sg w]. cbn [fst snd] in *.
  assert (P : 0 < 2 ^ w) by (apply pow2_pos; lia).
  destruct sg.
  - split; [apply scast_range; lia|]. rewrite Zminus_mod, scast_mod by lia. rewrite Z.sub_diag. apply Z.mod_0_l. lia.
  - unfold ucast. split; [apply Z.mod_pos_bound; lia|]. rewrite Zminus_mod, Z.mod_mod by lia.
    rewrite Z.sub_diag. apply Z.mod_0_l. lia.
Qed.

Lemma mod_0_divide a n : 0 < n -> (a mod n = 0 <-> exists q, a = q * n).
Proof.
  intro Hn. rewrite Z.mod_divide by lia. unfold Z.divide. reflexivity.
Qed.

(** Every accepted integer literal default: [new()] stores the number rustc makes
    of the literal, reduced to the width of the field.  It is the literal given iff
    the literal is kept (see [literal_kept]) or, its type being signed, lies less
    than half the range of that type below 2^n. *)
Theorem C33_exact m F d bf k r f t l mg z :
  parse_bitfield m F d = POk bf -> fits_u32 m bf -> bf_ok bf ->
  nth_error (active d) k = Some r -> nth_error (b_fields bf) k = Some f ->
  f_ty f = DInteger t -> t <> TBool ->
  last_arg "default" r = Some (literal_text l) ->
  literal_ok l -> magnitude l < 2 ^ 128 -> - 2 ^ 127 <= literal_value l ->
  emitted_literal bf f l = Some z -> r_value r = PInt z ->
  in_type (literal_type bf f l) z /\ (z - literal_value l) mod 2 ^ snd (literal_type bf f l) = 0 /\
  exists s v, new_bf mg bf = Val s /\ get_field mg bf f s = Val (VInt v) /\
    (if ity_unsigned t then 0 <= v < 2 ^ f_bits f else - 2 ^ (f_bits f - 1) <= v < 2 ^ (f_bits f - 1)) /\
    (v - z) mod 2 ^ f_bits f = 0 /\
    ((v - literal_value l) mod 2 ^ f_bits f = 0 <->
     literal_kept bf f l \/
     fst (literal_type bf f l) = true /\ 2 ^ f_bits f - 2 ^ (snd (literal_type bf f l) - 1) <= literal_value l).
Proof.
  intros H Hfit Hok Hr Hf Ht Htb Hd Hl Hm Hneg Hem Hv.
  pose proof (accepted_range m F d bf k r f t l H Hfit Hok Hr Hf Ht Htb Hd Hl Hm Hneg) as Hrange.
  pose proof Hok as (Hbk & _).
  destruct (emitted_spec bf f l z Hbk Hem) as [Hin1 Hin2]. split; [exact Hin1|]. split; [exact Hin2|].
  pose proof (parse_inv m F d bf H Hfit) as (_ & _ & _ & _ & _ & _ & _ & _ & Hacc & _).
  pose proof (Forall2_nth _ _ _ Hacc _ _ _ Hr Hf) as Ha. clear Hacc H Hfit.
  destruct Ha as [_ Hmatch _ _ _ _ _].
  destruct Hmatch as (_ & _ & _ & _ & _ & _ & Hfd & _). rewrite Hd, Hv in Hfd.
  pose proof (nth_error_In _ _ Hf) as Hin. pose proof (bf_ok_field bf f Hok Hin) as (Hb & _).
  destruct (C11_new mg bf Hok) as (s & Es & Hs & Hraw). destruct (Hraw f Hin) as [Hdb _].
  assert (P1 : 0 < 2 ^ f_bits f) by (apply pow2_pos; lia).
  assert (Eraw : raw s f = z mod 2 ^ f_bits f).
  { rewrite Hdb; [unfold default_bits; rewrite Hfd; reflexivity|rewrite Hfd; discriminate|].
    unfold default_canonical. rewrite Hfd. exact I. }
  pose proof (Z.mod_pos_bound z (2 ^ f_bits f) P1) as Hmb.
  set (v := if ity_unsigned t then raw s f else signed_of (f_bits f) (raw s f)).
  assert (Hvz : v mod 2 ^ f_bits f = z mod 2 ^ f_bits f).
  { unfold v. rewrite Eraw. destruct (ity_unsigned t); [apply Z.mod_mod; lia|apply signed_of_mod; lia]. }
  exists s, v. split; [exact Es|]. split.
  { rewrite (C05_get_is_decode mg bf f s Hok Hin Hs). unfold decode. rewrite Ht.
    destruct t; try congruence; reflexivity. }
  split.
  { unfold v. rewrite Eraw. destruct (ity_unsigned t); [lia|apply signed_of_range; lia]. }
  split; [rewrite Zminus_mod, Hvz, Z.sub_diag; apply Z.mod_0_l; lia|].
  rewrite Zminus_mod, Hvz, <- Zminus_mod, mod_0_divide by lia.
  pose proof (literal_type_width bf f l Hbk) as Hw.
  assert (Hcong : forall n, 0 <= n <= snd (literal_type bf f l) -> exists q, z - literal_value l = q * 2 ^ n).
  { intros n Hn. apply mod_0_divide in Hin2 as [q Hq]; [|apply pow2_pos; lia].
    exists (q * 2 ^ (snd (literal_type bf f l) - n)). rewrite Hq, <- Z.mul_assoc, <- Z.pow_add_r by lia. do 2 f_equal. lia. }
  unfold literal_kept. unfold in_type in *. destruct (literal_type bf f l) as [sg w]. cbn [fst snd] in *.
  set (lv := literal_value l) in *. clearbody lv v. set (n := f_bits f) in *. clearbody n.
  assert (Hlv : - 2 ^ (n - 1) <= lv < 2 ^ n).
  { pose proof (pow2_pos (n - 1) ltac:(lia)). destruct (ity_unsigned t); lia. }
  pose proof (pow2_half n Hb) as Hhn. pose proof (pow2_half w ltac:(lia)) as Hhw.
  split.
  - intros [q Hq]. destruct (Z_le_gt_dec n w) as [L|L]; [left; right; exact L|].
    pose proof (pow2_le w (n - 1) ltac:(lia)) as Hwn. pose proof (pow2_pos w ltac:(lia)) as Pw.
    assert (Hq' : q = 0 \/ q = -1 \/ q = 1 \/ q <= -2 \/ 2 <= q) by lia.
    destruct Hq' as [->|[->|[->|[Hq'|Hq']]]].
    + left. left. replace lv with z by lia. exact Hin1.
    + right. destruct sg; [split; [reflexivity|lia]|lia].
    + destruct sg; lia.
    + assert (q * 2 ^ n <= -2 * 2 ^ n) by (apply Z.mul_le_mono_nonneg_r; lia). destruct sg; lia.
    + assert (2 * 2 ^ n <= q * 2 ^ n) by (apply Z.mul_le_mono_nonneg_r; lia). destruct sg; lia.
  - intros [[K|K]|[K1 K2]].
    + exists 0. destruct (Hcong w ltac:(lia)) as [q Hq].
      assert (q = 0); [|subst q; lia].
      assert (Hq' : q = 0 \/ q <= -1 \/ 1 <= q) by lia. destruct Hq' as [Hq'|[Hq'|Hq']]; [exact Hq'|exfalso|exfalso].
      * assert (q * 2 ^ w <= -1 * 2 ^ w) by (apply Z.mul_le_mono_nonneg_r; lia). destruct sg; lia.
      * assert (1 * 2 ^ w <= q * 2 ^ w) by (apply Z.mul_le_mono_nonneg_r; lia). destruct sg; lia.
    + apply Hcong. lia.
    + subst sg. destruct (Z_le_gt_dec n w) as [L|L]; [apply Hcong; lia|]. exists (-1).
      destruct (Hcong w ltac:(lia)) as [q Hq].
      assert (En : 2 ^ n = 2 ^ (n - w) * 2 ^ w) by (rewrite <- Z.pow_add_r by lia; f_equal; lia).
      assert (q = - 2 ^ (n - w)); [|subst q; lia].
      assert (Hq' : q = - 2 ^ (n - w) \/ q + 2 ^ (n - w) <= -1 \/ 1 <= q + 2 ^ (n - w)) by lia.
      destruct Hq' as [Hq'|[Hq'|Hq']]; [exact Hq'|exfalso|exfalso].
      * assert ((q + 2 ^ (n - w)) * 2 ^ w <= -1 * 2 ^ w) by (apply Z.mul_le_mono_nonneg_r; lia). lia.
      * assert (1 * 2 ^ w <= (q + 2 ^ (n - w)) * 2 ^ w) by (apply Z.mul_le_mono_nonneg_r; lia). lia.
Qed.

(** 2^40-1 as the default of a settable 40-bit [u64] field does not fit [i32], yet is
    read back: it becomes -1, whose low 40 bits are all set.  2^32 is not. *)
Definition lit_40 : literal := mkLit false false Hex (repeat (LDigit 15 true) 10) None.
Example C33_exact_ex : exists bf r f,
  parse_bitfield Checked no_feature (large_decl (literal_text lit_40) (-1)) = POk bf /\ bf_ok bf /\
  nth_error (active (large_decl (literal_text lit_40) (-1))) 0 = Some r /\ nth_error (b_fields bf) 0 = Some f /\
  f_ty f = DInteger U64 /\ last_arg "default" r = Some (literal_text lit_40) /\ literal_ok lit_40 /\
  literal_value lit_40 = 2 ^ 40 - 1 /\ emitted_literal bf f lit_40 = Some (-1) /\ r_value r = PInt (-1) /\
  ~ literal_kept bf f lit_40 /\ literal_type bf f lit_40 = (true, 32) /\ 2 ^ f_bits f - 2 ^ 31 <= literal_value lit_40 /\
  ~ literal_kept bf f lit_2_32 /\ literal_value lit_2_32 < 2 ^ f_bits f - 2 ^ 31.
Proof.
  do 3 eexists. split; [vm_compute; reflexivity|]. split; [apply bf_okb_ok; vm_compute; reflexivity|].
  split; [vm_compute; reflexivity|]. split; [reflexivity|]. split; [reflexivity|]. split; [vm_compute; reflexivity|].
  split; [repeat constructor|]. do 3 (split; [vm_compute; reflexivity|]).
  split; [intros [[_ H]|H]; vm_compute in H; congruence|]. split; [reflexivity|]. split; [vm_compute; congruence|].
  split; [intros [[_ H]|H]; vm_compute in H; congruence|]. vm_compute. reflexivity.
Qed.

(** ** C49: what the macro makes of any default text *)

(** A number written in base [b]: an optional plus sign and at least one digit,
    below 2^128. *)
Definition digit_char (b d : Z) (c : ascii) : Prop :=
  0 <= d < b /\
  (nth_error (chars "0123456789abcdef") (Z.to_nat d) = Some c \/ nth_error (chars "0123456789ABCDEF") (Z.to_nat d) = Some c).
Definition digits_value (b : Z) (ds : list Z) : Z := fold_left (fun a d => a * b + d) ds 0.
Definition numeral (b : Z) (s : str) (v : Z) : Prop :=
  exists plus ds cs, s = plus ++ cs /\ (plus = [] \/ plus = ["+"%char]) /\ ds <> [] /\
    Forall2 (digit_char b) ds cs /\ v = digits_value b ds /\ v < 2 ^ 128.

Lemma to_digit_spec b c d : In b [2; 8; 10; 16] -> (to_digit b c = Some d <-> digit_char b d c).
Proof.
  intro Hb. unfold digit_char. split.
  - intro H. assert (Hd : 0 <= d < b).
    { unfold to_digit in H. pose proof (Nat2Z.is_nonneg (nat_of_ascii c)).
      destruct (Z.leb_spec 48 (Z.of_nat (nat_of_ascii c))), (Z.leb_spec (Z.of_nat (nat_of_ascii c)) 57),
        (Z.leb_spec 97 (Z.of_nat (nat_of_ascii c))), (Z.leb_spec (Z.of_nat (nat_of_ascii c)) 122),
        (Z.leb_spec 65 (Z.of_nat (nat_of_ascii c))), (Z.leb_spec (Z.of_nat (nat_of_ascii c)) 90); cbn [andb] in H;
        match type of H with (if ?x <? b then _ else _) = _ => destruct (Z.ltb_spec x b); [injection H as <-|discriminate] end;
        try lia; cbn in Hb; lia. }
    split; [exact Hd|].
    cbn in Hb. destruct Hb as [<-|[<-|[<-|[<-|[]]]]];
      destruct c as [[] [] [] [] [] [] [] []]; vm_compute in H; try discriminate H; injection H as <-; vm_compute; auto.
  - intros [Hd H].
    assert (Hn : (Z.to_nat d < 16)%nat) by (cbn in Hb; lia).
    remember (Z.to_nat d) as k eqn:Ek. assert (d = Z.of_nat k) by lia. subst d. clear Ek.
    do 16 (destruct k as [|k]; [destruct H as [H|H]; injection H as <-; cbn in Hb;
      destruct Hb as [<-|[<-|[<-|[<-|[]]]]]; try (vm_compute; reflexivity); exfalso; clear -Hd; lia|]). lia.
Qed.

Lemma parse_digits_spec b s : In b [2; 8; 10; 16] -> forall acc v, 0 <= acc -> acc < 2 ^ 128 ->
  (parse_digits b acc s = Some v <->
   exists ds, Forall2 (digit_char b) ds s /\ v = fold_left (fun a d => a * b + d) ds acc /\ v < 2 ^ 128).
Proof.
  intro Hb. assert (B : 2 <= b) by (cbn in Hb; lia).
  assert (Mono : forall ds acc, 0 <= acc -> Forall (fun d => 0 <= d) ds -> acc <= fold_left (fun a d => a * b + d) ds acc).
  { induction ds as [|d ds IH]; intros acc Ha Hd; cbn [fold_left]; [lia|]. inversion_clear Hd as [|? ? Hd1 Hd2].
    assert (acc <= acc * b) by nia. etransitivity; [|apply IH; [lia|exact Hd2]]. lia. }
  assert (Pos : forall ds cs, Forall2 (digit_char b) ds cs -> Forall (fun d => 0 <= d) ds).
  { intros ds cs HF. induction HF as [|? ? ? ? [Hd _]]; constructor; [lia|assumption]. }
  induction s as [|c s IH]; intros acc v Ha Hlt; cbn [parse_digits].
  - split.
    + intro E. injection E as <-. exists []. split; [constructor|]. split; [reflexivity|exact Hlt].
    + intros (ds & HF & -> & _). inversion HF; subst. reflexivity.
  - destruct (to_digit b c) as [d|] eqn:Ed.
    + apply to_digit_spec in Ed; [|exact Hb]. assert (Hd : 0 <= d < b) by apply Ed.
      destruct (Z.ltb_spec (acc * b + d) (2 ^ 128)) as [L|L].
      * rewrite IH by (nia || assumption). split.
        -- intros (ds & HF & E & Hv). exists (d :: ds). split; [constructor; assumption|]. cbn [fold_left]. auto.
        -- intros (ds & HF & E & Hv). inversion HF as [|d' c' ds' cs' Hd' HF']; subst.
           apply to_digit_spec in Ed, Hd'; try exact Hb. rewrite Ed in Hd'. injection Hd' as <-.
           exists ds'. cbn [fold_left] in *. auto.
      * split; [discriminate|]. intros (ds & HF & E & Hv). exfalso. inversion HF as [|d' c' ds' cs' Hd' HF']; subst.
        apply to_digit_spec in Ed, Hd'; try exact Hb. rewrite Ed in Hd'. injection Hd' as <-. cbn [fold_left] in Hv.
        pose proof (Mono ds' (acc * b + d) ltac:(nia) (Pos _ _ HF')). lia.
    + split; [discriminate|]. intros (ds & HF & _). inversion HF as [|d' c' ds' cs' Hd' HF']; subst.
      apply to_digit_spec in Hd'; [congruence|exact Hb].
Qed.

Lemma from_str_radix_spec b s v : In b [2; 8; 10; 16] -> (from_str_radix b s = Some v <-> numeral b s v).
Proof.
  intro Hb. assert (G : forall cs, cs <> [] -> (parse_digits b 0 cs = Some v <->
    exists ds, ds <> [] /\ Forall2 (digit_char b) ds cs /\ v = digits_value b ds /\ v < 2 ^ 128)).
  { intros cs Hcs. rewrite parse_digits_spec by (assumption || lia). split; intros (ds & H).
    - destruct H as (HF & E & Hv). exists ds. split; [intros ->; inversion HF; congruence|]. auto.
    - destruct H as (_ & HF & E & Hv). exists ds. auto. }
  unfold from_str_radix, numeral. split.
  - destruct s as [|c s]; [discriminate|]. destruct (Ascii.eqb_spec c "+").
    + subst c. destruct s as [|c' s]; [discriminate|]. intro H. apply G in H as (ds & H1 & H2 & H3); [|discriminate].
      exists ["+"%char], ds, (c' :: s). repeat split; try assumption; try apply H3. right; reflexivity.
    + intro H. apply G in H as (ds & H1 & H2 & H3); [|discriminate].
      exists [], ds, (c :: s). repeat split; try assumption; try apply H3. left; reflexivity.
  - intros (plus & ds & cs & -> & Hp & Hds & HF & E & Hv).
    assert (Hcs : cs <> []) by (intros ->; inversion HF; congruence).
    assert (K : parse_digits b 0 cs = Some v) by (apply G; [exact Hcs|exists ds; auto]).
    destruct Hp as [-> | ->]; cbn [app].
    + destruct cs as [|c cs]; [congruence|]. destruct (Ascii.eqb_spec c "+"); [|exact K]. subst c.
      exfalso. inversion HF as [|d ? ? ? Hd _]; subst. apply to_digit_spec in Hd; [|exact Hb].
      cbn in Hb. destruct Hb as [<-|[<-|[<-|[<-|[]]]]]; vm_compute in Hd; discriminate Hd.
    + cbn [Ascii.eqb]. destruct cs; [congruence|]. exact K.
Qed.

(** How a text [s] (white space and underscores removed, lower case) is read. *)
Definition begins (p : string) (s : str) : Prop := exists r, s = chars p ++ r.
Definition ends (p : string) (s : str) : Prop := exists r, s = r ++ chars p.
Definition int_suffixes : list string :=
  ["u8"; "u16"; "u32"; "u64"; "u128"; "usize"; "i8"; "i16"; "i32"; "i64"; "i128"; "isize"]%string.
(** Reported as a float. *)
Definition looks_float (s : str) : Prop :=
  ~ begins "0x" s /\ (In "."%char s \/ ends "f32" s \/ ends "f64" s).
(** [u] is [s] without its type suffix, if it has one. *)
Definition unsuffixed (s u : str) : Prop :=
  (exists suf, In suf int_suffixes /\ s = u ++ chars suf) \/
  (u = s /\ forall suf, In suf int_suffixes -> ~ ends suf s).
(** [s] is [p] repeated [k] times, then [t], which does not begin with [p]. *)
Definition stripped (p : string) (k : nat) (s t : str) : Prop :=
  s = List.concat (repeat (chars p) k) ++ t /\ ~ begins p t.

Inductive reads (s : str) : pres unit cexpr -> Prop :=
| reads_float : looks_float s -> reads s (PErr tt)
| reads_true : s = chars "true" -> reads s (POk (CLit 1 false))
| reads_false : s = chars "false" -> reads s (POk (CLit 0 false))
| reads_number u k t v : ~ looks_float s -> unsuffixed s u -> stripped "-" k u t ->
    ~ begins "0x" t -> ~ begins "0b" t -> ~ begins "0o" t -> numeral 10 t v ->
    reads s (POk (CLit v (negb (Nat.eqb k 0))))
| reads_prefixed u k t p b j w v : ~ looks_float s -> unsuffixed s u -> stripped "-" k u t ->
    In (p, b) [("0x"%string, 16); ("0b"%string, 2); ("0o"%string, 8)] -> stripped p (S j) t w ->
    numeral b w v -> reads s (POk (CLit v (negb (Nat.eqb k 0))))
| reads_panic u k t p b j w : ~ looks_float s -> unsuffixed s u -> stripped "-" k u t ->
    In (p, b) [("0x"%string, 16); ("0b"%string, 2); ("0o"%string, 8)] -> stripped p (S j) t w ->
    (forall v, ~ numeral b w v) -> reads s PPanic
| reads_other u k t : ~ looks_float s -> s <> chars "true" -> s <> chars "false" ->
    unsuffixed s u -> stripped "-" k u t ->
    ~ begins "0x" t -> ~ begins "0b" t -> ~ begins "0o" t -> (forall v, ~ numeral 10 t v) ->
    reads s (POk CPath).

Lemma starts_with_spec p s : reflect (begins p s) (starts_with (chars p) s).
Proof.
  destruct (starts_with (chars p) s) eqn:E; constructor.
  - now apply starts_with_true.
  - intros [r ->]. now rewrite starts_with_app in E.
Qed.
Lemma ends_with_spec p s : reflect (ends p s) (ends_with (chars p) s).
Proof.
  destruct (ends_with (chars p) s) eqn:E; constructor.
  - now apply ends_with_true.
  - intros [r ->]. now rewrite ends_with_app in E.
Qed.
Lemma float_rejected_spec s : reflect (looks_float s) (float_rejected s).
Proof.
  unfold float_rejected, looks_float, hex_prefix. cbn [float_identifiers existsb].
  destruct (starts_with_spec "0x" s) as [H|H]; cbn [negb andb]; [constructor; tauto|].
  destruct (existsb (Ascii.eqb ".") s) eqn:E.
  - constructor. apply existsb_exists in E as (c & Hc & Ec). apply Ascii.eqb_eq in Ec. subst c. tauto.
  - assert (Hd : ~ In "."%char s).
    { intro Hd. enough (existsb (Ascii.eqb ".") s = true) by congruence. apply existsb_exists.
      exists "."%char. split; [exact Hd|reflexivity]. }
    destruct (ends_with_spec "f32" s), (ends_with_spec "f64" s); constructor; tauto.
Qed.
Lemma suffix_unique a b r1 r2 : In a int_suffixes -> In b int_suffixes -> r1 ++ chars a = r2 ++ chars b -> a = b /\ r1 = r2.
Proof.
  intros Ha Hb E. enough (a = b) by (subst b; split; [reflexivity|eapply app_inv_tail; exact E]).
  apply (f_equal (@rev ascii)) in E. rewrite !rev_app_distr in E. unfold int_suffixes in *. cbn [In] in Ha, Hb.
  repeat (destruct Ha as [<-|Ha]; [repeat (destruct Hb as [<-|Hb]; [try reflexivity; discriminate E|]); destruct Hb|]).
  destruct Ha.
Qed.
Lemma strip_integer_suffix_spec s u : unsuffixed s u <-> strip_integer_suffix s = u.
Proof.
  assert (Eids : integer_identifiers = map chars int_suffixes) by reflexivity.
  assert (G : unsuffixed s (strip_integer_suffix s)).
  { unfold strip_integer_suffix. rewrite Eids. destruct (find _ _) as [id|] eqn:E.
    - apply find_some in E as [Hid He]. apply in_map_iff in Hid as (suf & <- & Hs).
      apply ends_with_true in He as [r ->]. rewrite strip_suffix_app. left. exists suf. auto.
    - right. split; [unfold strip_suffix; cbn [rev strip_prefix]; now rewrite rev_involutive|].
      intros suf Hs [r Hr]. apply (find_none _ _) with (x := chars suf) in E; [|now apply in_map].
      subst s. now rewrite ends_with_app in E. }
  split; [|intros <-; exact G].
  intro H. destruct H as [(a & Ha & H)|[H1 H2]], G as [(b & Hb & G)|[G1 G2]].
  - rewrite G in H at 1. symmetry in H. destruct (suffix_unique _ _ _ _ Ha Hb H) as [_ ->]. reflexivity.
  - exfalso. apply (G2 a Ha). exists u. exact H.
  - exfalso. apply (H2 b Hb). eexists. exact G.
  - congruence.
Qed.
Lemma trim_spec p k s t : chars p <> [] -> stripped p k s t -> trim_start_matches (chars p) s = t.
Proof.
  intros Hp [-> Hn]. unfold trim_start_matches.
  assert (L : forall n, (k <= n)%nat -> trim_start_n n (chars p) (List.concat (repeat (chars p) k) ++ t) = t).
  { induction k as [|k IH]; intros n Hk.
    - cbn [repeat List.concat app]. destruct n; [reflexivity|]. cbn [trim_start_n].
      destruct (strip_prefix (chars p) t) eqn:E; [|reflexivity]. apply strip_prefix_some in E. exfalso. apply Hn. eexists; exact E.
    - destruct n as [|n]; [lia|]. cbn [repeat List.concat trim_start_n]. rewrite <- app_assoc, strip_prefix_app. apply IH. lia. }
  apply L. rewrite app_length. enough (k <= List.length (List.concat (repeat (chars p) k)))%nat by lia. clear -Hp.
  induction k as [|k IH]; [lia|]. cbn [repeat List.concat]. rewrite app_length. destruct (chars p); [congruence|]. cbn [List.length] in *. lia.
Qed.
Lemma stripped_exists p s : chars p <> [] -> exists k t, stripped p k s t.
Proof.
  intro Hp. remember (List.length s) as n eqn:En. assert (Hn : (List.length s <= n)%nat) by lia. clear En. revert s Hn.
  induction n as [|n IH]; intros s Hn.
  - exists O, s. split; [reflexivity|]. intros [r Hr]. destruct s; [|cbn in Hn; lia]. destruct (chars p); [congruence|discriminate].
  - destruct (starts_with_spec p s) as [[r ->]|H].
    + destruct (IH r) as (k & t & E & Ht); [rewrite app_length in Hn; destruct (chars p); [congruence|cbn in Hn; lia]|].
      exists (S k), t. split; [cbn [repeat List.concat]; rewrite <- app_assoc; now f_equal|exact Ht].
    + exists O, s. split; [reflexivity|exact H].
Qed.
Lemma stripped_begins p j s t : stripped p (S j) s t -> begins p s.
Proof. intros [-> _]. cbn [repeat List.concat]. rewrite <- app_assoc. eexists. reflexivity. Qed.

Lemma begins_conflict p q s : begins p s -> begins q s -> In p ["0x"; "0b"; "0o"; "-"]%string ->
  In q ["0x"; "0b"; "0o"; "-"]%string -> p = q.
Proof.
  intros [r1 ->] [r2 E] Hp Hq. cbn [In] in Hp, Hq.
  repeat (destruct Hp as [<-|Hp]; [repeat (destruct Hq as [<-|Hq]; [try reflexivity; discriminate E|]); destruct Hq|]).
  destruct Hp.
Qed.
Lemma not_bool_number b t v : In b [2; 8; 10; 16] -> numeral b t v -> ~ In "r"%char t /\ ~ In "l"%char t.
Proof.
  intros Hb (plus & ds & cs & -> & Hp & _ & HF & _).
  assert (G : forall c, c = "r"%char \/ c = "l"%char -> ~ In c (plus ++ cs)).
  { intros c Hc Hin. apply in_app_or in Hin as [Hin|Hin].
    - destruct Hp as [-> | ->]; [destruct Hin|]. destruct Hin as [<-|[]]. destruct Hc; discriminate.
    - clear Hp plus. induction HF as [|d c' ds cs Hd HF IH]; [destruct Hin|]. destruct Hin as [->|Hin]; [|auto].
      apply to_digit_spec in Hd; [|exact Hb]. cbn in Hb.
      destruct Hc as [-> | ->], Hb as [<-|[<-|[<-|[<-|[]]]]]; discriminate Hd. }
  split; apply G; auto.
Qed.
Lemma bool_unsuffixed s u : (s = chars "true" \/ s = chars "false") -> unsuffixed s u -> u = s.
Proof. intros Hs H. apply strip_integer_suffix_spec in H. subst u. destruct Hs as [-> | ->]; reflexivity. Qed.
Lemma bool_stripped s k t : (s = chars "true" \/ s = chars "false") -> stripped "-" k s t -> k = O /\ t = s.
Proof.
  intros Hs H. destruct k as [|k].
  - destruct H as [-> _]. auto.
  - apply stripped_begins in H as [r Hr]. destruct Hs; subst s; discriminate Hr.
Qed.
Lemma numeral_dec b s : In b [2; 8; 10; 16] -> (exists v, numeral b s v) \/ (forall v, ~ numeral b s v).
Proof.
  intro Hb. destruct (from_str_radix b s) as [v|] eqn:E.
  - left. exists v. now apply from_str_radix_spec.
  - right. intros v Hv. apply from_str_radix_spec in Hv; [congruence|exact Hb].
Qed.
Lemma radix_none b s : In b [2; 8; 10; 16] -> (forall v, ~ numeral b s v) -> from_str_radix b s = None.
Proof.
  intros Hb H. destruct (from_str_radix b s) as [v|] eqn:E; [|reflexivity].
  exfalso. apply (H v). now apply from_str_radix_spec.
Qed.

Definition bases : list (string * Z) := [("0x", 16); ("0b", 2); ("0o", 8)]%string.
Lemma bases_in p b : In (p, b) bases -> In b [2; 8; 10; 16] /\ In p ["0x"; "0b"; "0o"; "-"]%string /\ chars p <> [].
Proof.
  cbn. intros [E|[E|[E|[]]]]; injection E as <- <-; (split; [auto 6|]; split; [auto 6|discriminate]).
Qed.
(** The number read after suffix and sign are removed. *)
Lemma helper_prefixed p b j t w : In (p, b) bases -> stripped p (S j) t w ->
  parse_integer_helper t = match from_str_radix b w with Some n => Val (Some n) | None => Panic end.
Proof.
  intros Hp Hs. destruct (bases_in p b Hp) as (_ & Hpl & Hne). pose proof (stripped_begins _ _ _ _ Hs) as Hbg.
  pose proof (trim_spec p (S j) t w Hne Hs) as Ht.
  unfold parse_integer_helper, parse_prefixed, hex_prefix, binary_prefix, octal_prefix.
  destruct Hp as [E|[E|[E|[]]]]; injection E as <- <-.
  - destruct (starts_with_spec "0x" t); [|contradiction]. now rewrite Ht.
  - destruct (starts_with_spec "0x" t) as [B|_].
    { exfalso. pose proof (begins_conflict _ _ _ B Hbg ltac:(cbn; auto) ltac:(cbn; auto)). discriminate. }
    destruct (starts_with_spec "0b" t); [|contradiction]. now rewrite Ht.
  - destruct (starts_with_spec "0x" t) as [B|_].
    { exfalso. pose proof (begins_conflict _ _ _ B Hbg ltac:(cbn; auto) ltac:(cbn; auto)). discriminate. }
    destruct (starts_with_spec "0b" t) as [B|_].
    { exfalso. pose proof (begins_conflict _ _ _ B Hbg ltac:(cbn; auto) ltac:(cbn; auto)). discriminate. }
    destruct (starts_with_spec "0o" t); [|contradiction]. now rewrite Ht.
Qed.
Lemma helper_plain t : ~ begins "0x" t -> ~ begins "0b" t -> ~ begins "0o" t ->
  parse_integer_helper t = Val (from_str_radix 10 t).
Proof.
  intros H1 H2 H3. unfold parse_integer_helper, hex_prefix, binary_prefix, octal_prefix.
  destruct (starts_with_spec "0x" t), (starts_with_spec "0b" t), (starts_with_spec "0o" t); try contradiction. reflexivity.
Qed.
Lemma is_negative_spec k u t : stripped "-" k u t -> is_negative u = negb (Nat.eqb k 0).
Proof.
  intro H. unfold is_negative. destruct (starts_with_spec "-" u) as [B|B], k as [|k]; try reflexivity; exfalso.
  - destruct H as [-> H]. contradiction.
  - apply B. eapply stripped_begins. exact H.
Qed.
Lemma parse_integer_spec s u k t : unsuffixed s u -> stripped "-" k u t ->
  parse_integer s = (r <- parse_integer_helper t ;;
    Val (match r with Some n => Some (CLit n (negb (Nat.eqb k 0))) | None => None end)).
Proof.
  intros Hu Hk. apply strip_integer_suffix_spec in Hu. unfold parse_integer. rewrite Hu.
  unfold strip_negative_sign. rewrite (trim_spec "-" k u t) by (discriminate || exact Hk).
  now rewrite (is_negative_spec k u t Hk).
Qed.

(** [parse_boolean] *)
Lemma parse_boolean_none s : s <> chars "true" -> s <> chars "false" -> parse_boolean s = None.
Proof.
  intros H1 H2. unfold parse_boolean. destruct (str_eqb s (chars "true")) eqn:E1; [apply str_eqb_true in E1; contradiction|].
  destruct (str_eqb s (chars "false")) eqn:E2; [apply str_eqb_true in E2; contradiction|]. reflexivity.
Qed.
Lemma bool_plain s u k t : (s = chars "true" \/ s = chars "false") -> unsuffixed s u -> stripped "-" k u t ->
  ~ begins "0x" t /\ ~ begins "0b" t /\ ~ begins "0o" t /\ forall v, ~ numeral 10 t v.
Proof.
  intros Hs Hu Hk. pose proof (bool_unsuffixed s u Hs Hu). subst u.
  destruct (bool_stripped s k t Hs Hk) as [_ ->].
  do 3 (split; [intros [r Hr]; destruct Hs; subst s; discriminate Hr|]).
  intros v Hv. destruct (not_bool_number 10 s v ltac:(cbn; auto) Hv) as [H1 H2].
  destruct Hs; subst s; cbn in H1, H2; tauto.
Qed.
Lemma bool_cases s : s = chars "true" \/ s = chars "false" \/ (s <> chars "true" /\ s <> chars "false").
Proof.
  destruct (list_eq_dec Ascii.ascii_dec s (chars "true")); [auto|].
  destruct (list_eq_dec Ascii.ascii_dec s (chars "false")); auto.
Qed.

Lemma new_reads (text : string) (x : pres unit cexpr) :
  const_expr_new text = x <-> reads (normalise text) x.
Proof.
  set (s := normalise text).
  assert (Sound : forall x, reads s x -> const_expr_new text = x).
  { intros y Hy. unfold const_expr_new. fold s.
    assert (Hbase : forall u k t, unsuffixed s u -> stripped "-" k u t ->
      (begins "0x" t \/ begins "0b" t \/ begins "0o" t \/ exists v, numeral 10 t v) -> parse_boolean s = None).
    { intros u k t Hu Hk Hc. destruct (bool_cases s) as [Hb|[Hb|[Hb1 Hb2]]]; [| |now apply parse_boolean_none];
        exfalso; destruct (bool_plain s u k t ltac:(auto) Hu Hk) as (B1 & B2 & B3 & B4);
        destruct Hc as [Hc|[Hc|[Hc|[v Hc]]]]; try contradiction; exact (B4 v Hc). }
    assert (Hpre : forall t p b j w, In (p, b) bases -> stripped p (S j) t w ->
       begins "0x" t \/ begins "0b" t \/ begins "0o" t \/ exists v, numeral 10 t v).
    { intros t p b j w Hp Hs. apply stripped_begins in Hs.
      destruct Hp as [E|[E|[E|[]]]]; injection E as <- <-; auto. }
    destruct Hy as [Hf|E|E|u k t v Hf Hu Hk B1 B2 B3 Hv|u k t p b j w v Hf Hu Hk Hp Hw Hv|u k t p b j w Hf Hu Hk Hp Hw Hv
                   |u k t Hf N1 N2 Hu Hk B1 B2 B3 Hv].
    - destruct (float_rejected_spec s); [reflexivity|contradiction].
    - rewrite E. reflexivity.
    - rewrite E. reflexivity.
    - destruct (float_rejected_spec s); [contradiction|].
      rewrite (Hbase u k t Hu Hk) by eauto 6.
      rewrite (parse_integer_spec s u k t Hu Hk), (helper_plain t B1 B2 B3).
      apply from_str_radix_spec in Hv; [|cbn; auto]. rewrite Hv. reflexivity.
    - destruct (float_rejected_spec s); [contradiction|].
      rewrite (Hbase u k t Hu Hk) by eauto.
      rewrite (parse_integer_spec s u k t Hu Hk), (helper_prefixed p b j t w Hp Hw).
      apply from_str_radix_spec in Hv; [|now destruct (bases_in p b Hp)]. rewrite Hv. reflexivity.
    - destruct (float_rejected_spec s); [contradiction|].
      rewrite (Hbase u k t Hu Hk) by eauto.
      rewrite (parse_integer_spec s u k t Hu Hk), (helper_prefixed p b j t w Hp Hw).
      rewrite radix_none; [reflexivity|now destruct (bases_in p b Hp)|exact Hv].
    - destruct (float_rejected_spec s); [contradiction|].
      rewrite parse_boolean_none by assumption.
      rewrite (parse_integer_spec s u k t Hu Hk), (helper_plain t B1 B2 B3).
      rewrite radix_none; [reflexivity|cbn; auto|exact Hv]. }
  split; [|apply Sound]. intros <-.
  enough (exists y, reads s y) as [y Hy] by (rewrite (Sound y Hy); exact Hy).
  destruct (float_rejected_spec s) as [Hf|Hf]; [eexists; now apply reads_float|].
  destruct (bool_cases s) as [Hb|[Hb|[Hb1 Hb2]]]; [eexists; now apply reads_true|eexists; now apply reads_false|].
  pose proof (proj2 (strip_integer_suffix_spec s _) eq_refl) as Hu. set (u := strip_integer_suffix s) in Hu.
  destruct (stripped_exists "-" u ltac:(discriminate)) as (k & t & Hk).
  assert (Pre : forall p b, In (p, b) bases -> begins p t -> exists y, reads s y).
  { intros p b Hp Hbg. destruct (bases_in p b Hp) as (Hb & _ & Hne).
    destruct (stripped_exists p t Hne) as (j & w & Hw). destruct j as [|j]; [destruct Hw as [-> Hw]; contradiction|].
    destruct (numeral_dec b w Hb) as [[v Hv]|Hv]; [eexists; eapply reads_prefixed; eassumption|].
    eexists; eapply reads_panic; eassumption. }
  destruct (starts_with_spec "0x" t) as [B1|B1]; [apply (Pre "0x"%string 16); cbn; auto|].
  destruct (starts_with_spec "0b" t) as [B2|B2]; [apply (Pre "0b"%string 2); cbn; auto|].
  destruct (starts_with_spec "0o" t) as [B3|B3]; [apply (Pre "0o"%string 8); cbn; auto|].
  destruct (numeral_dec 10 t ltac:(cbn; auto)) as [[v Hv]|Hv]; [eexists; eapply reads_number; eassumption|].
  eexists; eapply reads_other; eassumption.
Qed.

(** What is read is the text without white space at its ends, without blanks and
    underscores, in lower case. *)
Definition white (c : ascii) : Prop := In (nat_of_ascii c) [9; 10; 11; 12; 13; 32]%nat.
Definition lower_case (c d : ascii) : Prop :=
  (exists k, nth_error (chars "ABCDEFGHIJKLMNOPQRSTUVWXYZ") k = Some c /\ nth_error (chars "abcdefghijklmnopqrstuvwxyz") k = Some d) \/
  ~ In c (chars "ABCDEFGHIJKLMNOPQRSTUVWXYZ") /\ d = c.
Inductive squeezed : str -> str -> Prop :=
| squeezed_nil : squeezed [] []
| squeezed_drop c s t : In c [" "; "_"]%char -> squeezed s t -> squeezed (c :: s) t
| squeezed_keep c d s t : ~ In c [" "; "_"]%char -> lower_case c d -> squeezed s t -> squeezed (c :: s) (d :: t).
Definition normal_text (text : string) (t : str) : Prop :=
  exists lead s trail, chars text = lead ++ s ++ trail /\ Forall white lead /\ Forall white trail /\
    (forall c r, s = c :: r -> ~ white c) /\ (forall c r, s = r ++ [c] -> ~ white c) /\ squeezed s t.

Lemma white_spec c : is_space c = true <-> white c.
Proof.
  unfold white, is_space. cbn [In]. rewrite orb_true_iff, andb_true_iff, Nat.leb_le, Nat.leb_le, Nat.eqb_eq. lia.
Qed.
Lemma lower_spec c d : lower_case c d <-> d = lower c.
Proof.
  split.
  - intros [(k & H1 & H2)|[H ->]].
    + assert (Hk : (k < 26)%nat) by (apply (nth_error_Some (chars "ABCDEFGHIJKLMNOPQRSTUVWXYZ")); congruence).
      do 26 (destruct k as [|k]; [injection H1 as <-; injection H2 as <-; reflexivity|]). lia.
    + destruct c as [[] [] [] [] [] [] [] []]; try reflexivity; exfalso; apply H; cbn; tauto.
  - intros ->. destruct (in_dec Ascii.ascii_dec c (chars "ABCDEFGHIJKLMNOPQRSTUVWXYZ")) as [H|H].
    + left. cbn in H. do 26 (destruct H as [<-|H]; [solve [eexists; match goal with |- nth_error ?l _ = Some ?x /\ _ =>
        let rec go n := first [instantiate (1 := n); split; reflexivity | go (S n)] in go O end]|]). destruct H.
    + right. split; [exact H|]. destruct c as [[] [] [] [] [] [] [] []]; try reflexivity; exfalso; apply H; cbn; tauto.
Qed.
Lemma squeezed_spec s : forall t, squeezed s t <-> t = lowercase (unspaced s).
Proof.
  assert (D : forall c, (Ascii.eqb c " " || Ascii.eqb c "_")%bool = true <-> In c [" "; "_"]%char).
  { intro c. rewrite orb_true_iff, !Ascii.eqb_eq. cbn. split; [intros [->| ->]; auto|intros [H|[H|[]]]; auto]. }
  induction s as [|c s IH]; intro t.
  - split; [inversion 1; reflexivity|]. intros ->. constructor.
  - unfold unspaced, lowercase in *. cbn [filter]. destruct (Ascii.eqb c " " || Ascii.eqb c "_")%bool eqn:E; cbn [negb].
    + split.
      * inversion 1 as [|? ? ? ? Hs|? ? ? ? Hc]; subst; [now apply IH|apply D in E; contradiction].
      * intros ->. apply squeezed_drop; [now apply D|]. now apply IH.
    + assert (Hn : ~ In c [" "; "_"]%char) by (rewrite <- D; congruence). cbn [map]. split.
      * inversion 1 as [|? ? ? Hc Hs|? d ? ? Hc Hd Hs]; subst; [contradiction|]. apply lower_spec in Hd. subst d. f_equal. now apply IH.
      * intros ->. apply squeezed_keep; [exact Hn|now apply lower_spec|now apply IH].
Qed.
Lemma drop_lead lead s : Forall white lead -> drop_spaces (lead ++ s) = drop_spaces s.
Proof. induction 1 as [|c l Hc _ IH]; [reflexivity|]. cbn [app drop_spaces]. apply white_spec in Hc. now rewrite Hc. Qed.
Lemma drop_keep s r : (forall c t, s = c :: t -> ~ white c) -> s <> [] -> drop_spaces (s ++ r) = s ++ r.
Proof.
  destruct s as [|c t]; [congruence|]. intros H _. cbn [app drop_spaces].
  destruct (is_space c) eqn:E; [|reflexivity]. apply white_spec in E. now elim (H c t eq_refl).
Qed.
Lemma drop_split s : exists lead, s = lead ++ drop_spaces s /\ Forall white lead /\ forall c t, drop_spaces s = c :: t -> ~ white c.
Proof.
  induction s as [|c s (lead & E & Hl & Hs)]; [exists []; split; [reflexivity|]; split; [constructor|discriminate]|].
  cbn [drop_spaces]. destruct (is_space c) eqn:Ec.
  - exists (c :: lead). split; [cbn [app]; congruence|]. split; [constructor; [now apply white_spec|exact Hl]|exact Hs].
  - exists []. split; [reflexivity|]. split; [constructor|]. intros d t E'. injection E' as <- <-. rewrite <- white_spec. congruence.
Qed.
Lemma trim_ends lead s trail : Forall white lead -> Forall white trail ->
  (forall c r, s = c :: r -> ~ white c) -> (forall c r, s = r ++ [c] -> ~ white c) -> trim (lead ++ s ++ trail) = s.
Proof.
  intros Hl Ht H1 H2. unfold trim. rewrite drop_lead by exact Hl. destruct s as [|c r].
  - cbn [app]. replace (drop_spaces trail) with (@nil ascii); [reflexivity|].
    rewrite <- (app_nil_r trail), drop_lead by exact Ht. reflexivity.
  - rewrite drop_keep by (exact H1 || discriminate). rewrite rev_app_distr, drop_lead by now apply Forall_rev.
    rewrite <- (app_nil_r (rev (c :: r))), drop_keep; [rewrite app_nil_r; apply rev_involutive| |intro E; apply (f_equal (@rev ascii)) in E; rewrite rev_involutive in E; discriminate].
    intros d t E. apply (H2 d (rev t)). rewrite <- (rev_involutive (c :: r)), E. reflexivity.
Qed.
Lemma normal_text_spec text t : normal_text text t <-> t = normalise text.
Proof.
  unfold normalise. split.
  - intros (lead & s & trail & E & Hl & Ht & H1 & H2 & Hs). rewrite E, (trim_ends _ _ _ Hl Ht H1 H2). now apply squeezed_spec.
  - intros ->. destruct (drop_split (chars text)) as (lead & E & Hl & H1).
    destruct (drop_split (rev (drop_spaces (chars text)))) as (trail & E' & Ht & H2).
    exists lead, (trim (chars text)), (rev trail). apply (f_equal (@rev ascii)) in E'. rewrite rev_involutive, rev_app_distr in E'.
    fold (trim (chars text)) in E'. split; [rewrite <- E'; exact E|]. split; [exact Hl|]. split; [now apply Forall_rev|].
    split; [|split; [|now apply squeezed_spec]].
    + intros c r Ec. apply (H1 c (r ++ rev trail)). rewrite E', Ec. reflexivity.
    + intros c r Ec. apply (H2 c (rev r)). apply (f_equal (@rev ascii)) in Ec. unfold trim in Ec.
      rewrite rev_involutive, rev_app_distr in Ec. exact Ec.
Qed.

(** For every text: it is reported as a float, makes the macro panic, is taken for
    the literal it spells, or is left to rustc, exactly as [reads] says. *)
Theorem C49_exact (text : string) (x : pres unit cexpr) :
  const_expr_new text = x <-> exists t, normal_text text t /\ reads t x.
Proof.
  rewrite new_reads. split.
  - intro H. exists (normalise text). split; [now apply normal_text_spec|exact H].
  - intros (t & Ht & H). apply normal_text_spec in Ht. now subst.
Qed.

(** A run of signs and of prefixes is read like one. *)
Example C49_exact_ex :
  const_expr_new " - - 0B0b1_01 u8 " = POk (CLit 5 true) /\
  normal_text " - - 0B0b1_01 u8 " (chars "--0b0b101u8") /\ reads (chars "--0b0b101u8") (POk (CLit 5 true)) /\
  reads (chars "0xff|1") PPanic /\ reads (chars "x.y") (PErr tt) /\ reads (chars "x+1") (POk CPath).
Proof.
  split; [reflexivity|]. split; [now apply normal_text_spec|].
  split; [apply (new_reads "--0b0b101u8"); reflexivity|]. split; [apply (new_reads "0xff|1"); reflexivity|].
  split; [apply (new_reads "x.y"); reflexivity|apply (new_reads "x+1"); reflexivity].
Qed.

(** ** C57: which variants survive in a field *)

Lemma fallback_unique F e g x y : parse_bitflag F e = POk g ->
  fallback (g_variants g) x -> fallback (g_variants g) y -> x = y.
Proof.
  unfold parse_bitflag. intro H. pinv H a Ha. pinv H xs Hxs. pinv H u Hu. injection H as <-. cbn [g_variants].
  unfold check_base in Hu. destruct (Nat.ltb_spec 1 (List.length (filter x_base xs))) as [L|L]; [discriminate|]. clear Hu.
  intros [[Hx Bx]|(Nx & pre & post & E & Dx & Px)] [[Hy By]|(Ny & pre' & post' & E' & Dy & Py)].
  - assert (Ix : In x (filter x_base xs)) by (apply filter_In; auto). assert (Iy : In y (filter x_base xs)) by (apply filter_In; auto).
    destruct (filter x_base xs) as [|a' [|b' l]]; [destruct Ix| |cbn in L; lia].
    destruct Ix as [<-|[]], Iy as [<-|[]]. reflexivity.
  - rewrite Forall_forall in Ny. rewrite (Ny x Hx) in Bx. discriminate.
  - rewrite Forall_forall in Nx. rewrite (Nx y Hy) in By. discriminate.
  - rewrite E in E'. clear - E' Dx Dy Px Py. revert pre' E' Py.
    induction pre as [|p pre IH]; intros [|q pre'] E' Py; cbn [app] in E'.
    + congruence.
    + injection E' as <- _. inversion Py; congruence.
    + injection E' as -> _. inversion Px; congruence.
    + injection E' as _ E'. inversion_clear Px; inversion_clear Py. eapply IH; eassumption.
Qed.

(** A variant with raw value [z], set in a field of any width, is read back iff [z]
    fits, or it is the fallback and the bits that remain of [z] are the raw value
    of no variant. *)
Theorem C57_exact F e g t k x z m bf f s :
  parse_bitflag F e = POk g -> flag_compiles g t -> fa_from (g_args g) = fa_into (g_args g) ->
  nth_error (g_variants g) k = Some x ->
  bf_ok bf -> In f (b_fields bf) -> store_ok bf s -> f_ty f = DCustom -> f_codec f = flag_codec g t ->
  ordered (fa_into (g_args g)) t (x_value x) z ->
  exists s' k', set_field m bf f (VCustom (Z.of_nat k)) s = Val s' /\
    get_field m bf f s' = Val (VCustom (Z.of_nat k')) /\ (k' < List.length (g_variants g))%nat /\
    (k' = k <-> z < 2 ^ f_bits f \/
      fallback (g_variants g) x /\
      forall y zy, In y (g_variants g) -> ordered (fa_into (g_args g)) t (x_value y) zy -> zy <> z mod 2 ^ f_bits f).
Proof.
  intros Hp Hc He Hx Hbf Hf Hs Hty Hcd Ho.
  pose proof (bf_ok_field bf f Hbf Hf) as (Hb1 & _).
  assert (P : 0 < 2 ^ f_bits f) by (apply pow2_pos; lia).
  pose proof Hc as (_ & Ht & Hnd & Hnm & Hval). rewrite Forall_forall in Hval.
  set (E := fa_into (g_args g)) in *.
  assert (Hraw : forall y zy, In y (g_variants g) -> ordered E t (x_value y) zy ->
    zy = convert_bits E t (x_value y) /\ 0 <= zy < 2 ^ ity_bits t).
  { intros y zy Hy Hoy. pose proof (convert_ordered E t _ _ Ht Hoy). subst zy.
    split; [reflexivity|]. now apply convert_is_ordered; auto. }
  (* reading: which variant a raw value stands for *)
  assert (From : forall r, 0 <= r < 2 ^ ity_bits t -> exists j y, nth_error (g_variants g) j = Some y /\
     flag_from_bits g r = Val (x_name y) /\ (convert_bits E t (x_value y) = r \/
       fallback (g_variants g) y /\ forall y', In y' (g_variants g) -> convert_bits E t (x_value y') <> r)).
  { intros r Hr. destruct (convert_is_ordered E t r Ht Hr) as [H1 H2].
    destruct (C30_from_bits F e g t r (convert_bits E t r) Hp Hc Hr) as [L U]; [rewrite He; exact H1|].
    destruct (in_dec Z.eq_dec (convert_bits E t r) (map x_value (g_variants g))) as [I|I].
    - apply in_map_iff in I as (y & Ey & Hy). pose proof (L y Hy Ey) as Hl. apply In_nth_error in Hy as [j Hj].
      exists j, y. split; [exact Hj|]. split; [exact Hl|]. left. rewrite Ey. now apply convert_convert.
    - destruct U as (y & Fy & Hl); [intros y Hy Ey; apply I; rewrite <- Ey; now apply in_map|].
      assert (Hy : In y (g_variants g)) by (destruct Fy as [[Hy _]|(_ & pre & post & -> & _)]; [exact Hy|apply in_elt]).
      apply In_nth_error in Hy as [j Hj]. exists j, y. split; [exact Hj|]. split; [exact Hl|]. right. split; [exact Fy|].
      intros y' Hy' Ey'. apply I. rewrite <- Ey', convert_convert by auto. now apply in_map. }
  assert (Into : forall j y, nth_error (g_variants g) j = Some y -> user_into f (Z.of_nat j) = convert_bits E t (x_value y) /\
     0 <= convert_bits E t (x_value y) < 2 ^ ity_bits t).
  { intros j y Hj. pose proof (nth_error_In _ _ Hj) as Hy. destruct (convert_is_ordered E t (x_value y) Ht (Hval y Hy)) as [H1 H2].
    split; [|exact H2]. unfold user_into. rewrite Hcd. cbn [flag_codec cd_into cd_into_ty].
    rewrite Nat2Z.id, Hj, (C30_into_bits g t y _ Hc Hy H1). now apply uint_cast. }
  assert (Ufrom : forall r, 0 <= r < 2 ^ ity_bits t -> exists j y, nth_error (g_variants g) j = Some y /\
     user_from f r = Z.of_nat j /\ (convert_bits E t (x_value y) = r \/
       fallback (g_variants g) y /\ forall y', In y' (g_variants g) -> convert_bits E t (x_value y') <> r)).
  { intros r Hr. destruct (From r Hr) as (j & y & Hj & Hl & Hcase). exists j, y. split; [exact Hj|]. split; [|exact Hcase].
    unfold user_from. rewrite Hcd. cbn [flag_codec cd_from cd_from_ty]. rewrite uint_cast by assumption. rewrite Hl.
    f_equal. apply position_nth; assumption. }
  assert (Hmod : forall a, 0 <= a < 2 ^ ity_bits t -> 0 <= a mod 2 ^ f_bits f < 2 ^ ity_bits t).
  { intros a Ha. pose proof (Z.mod_pos_bound a _ P). pose proof (Z.mod_le a (2 ^ f_bits f) ltac:(lia) P). lia. }
  pose proof (nth_error_In _ _ Hx) as Hin.
  destruct (Hraw x z Hin Ho) as [Ez Hz]. destruct (Into k x Hx) as [Ik Rk]. rewrite <- Ez in Ik, Rk.
  assert (Inj : forall y y', In y (g_variants g) -> In y' (g_variants g) ->
    convert_bits E t (x_value y) = convert_bits E t (x_value y') -> y = y').
  { intros y y' Hy Hy' Eq. eapply NoDup_map_inj; [exact Hnd|exact Hy|exact Hy'|].
    rewrite <- (convert_convert E t (x_value y)), <- (convert_convert E t (x_value y')) by auto. now rewrite Eq. }
  assert (Idx : forall j j' y, nth_error (g_variants g) j = Some y -> nth_error (g_variants g) j' = Some y -> j = j').
  { intros j j' y Hj Hj'. rewrite <- (position_nth _ j y Hnm Hj), <- (position_nth _ j' y Hnm Hj'). reflexivity. }
  destruct (C03_set_get m bf f (VCustom (Z.of_nat k)) s Hbf Hf Hs) as (s' & E1 & _ & E2).
  { unfold has_type. rewrite Hty. exact I. }
  unfold reduced in E2. rewrite Hty, Ik in E2.
  destruct (Ufrom (z mod 2 ^ f_bits f) (Hmod z Hz)) as (k1 & x1 & Hk1 & F1 & C1). rewrite F1 in E2.
  destruct (Into k1 x1 Hk1) as [I1 R1]. rewrite I1 in E2.
  destruct (Ufrom _ (Hmod _ R1)) as (k2 & x2 & Hk2 & F2 & C2). rewrite F2 in E2.
  exists s', k2. split; [exact E1|]. split; [exact E2|]. split; [apply nth_error_Some; congruence|].
  pose proof (nth_error_In _ _ Hk1) as Hin1. pose proof (nth_error_In _ _ Hk2) as Hin2.
  pose proof (Z.mod_pos_bound z _ P) as Hzm.
  split.
  - intros ->. assert (x2 = x) by congruence. subst x2. destruct (Z_lt_ge_dec z (2 ^ f_bits f)) as [L|L]; [left; exact L|right].
    rewrite <- Ez in C2. destruct C2 as [C2|[Fx Un]].
    { pose proof (Z.mod_pos_bound (convert_bits E t (x_value x1)) _ P). lia. }
    split; [exact Fx|]. intros y zy Hy Hoy Eq. destruct (Hraw y zy Hy Hoy) as [Ezy _].
    destruct C1 as [C1|[_ C1]].
    + apply (Un x1 Hin1). rewrite C1, Z.mod_mod by lia. reflexivity.
    + apply (C1 y Hy). congruence.
  - intros [L|[Fx Un]].
    + rewrite Z.mod_small in * by lia.
      assert (x1 = x).
      { destruct C1 as [C1|[_ C1]]; [apply Inj; auto; congruence|exfalso; exact (C1 x Hin (eq_sym Ez))]. }
      subst x1. rewrite <- Ez, Z.mod_small in C2 by lia.
      assert (x2 = x); [|subst x2; eapply Idx; eassumption].
      destruct C2 as [C2|[_ C2]]; [apply Inj; auto; congruence|exfalso; exact (C2 x Hin (eq_sym Ez))].
    + assert (Un' : forall y, In y (g_variants g) -> convert_bits E t (x_value y) <> z mod 2 ^ f_bits f)
        by (intros y Hy; apply (Un y _ Hy); now apply convert_is_ordered; auto).
      destruct C1 as [C1|[F1' C1]]; [exfalso; exact (Un' x1 Hin1 C1)|].
      assert (x1 = x) by (eapply fallback_unique; eassumption). subst x1.
      rewrite <- Ez in C2. destruct C2 as [C2|[F2' C2]]; [exfalso; exact (Un' x2 Hin2 C2)|].
      assert (x2 = x) by (eapply fallback_unique; eassumption). subst x2. eapply Idx; eassumption.
Qed.

(** ** C58: when the generated [match] is valid *)
Theorem C58_exact F e g t :
  parse_bitflag F e = POk g -> flag_compiles g t ->
  (match_ok g <-> forall v, In v (e_variants e) -> marked "base" v \/ v_form v <> FOther).
Proof.
  intros Hp Hc. split; [|eapply C58_match_partial; eassumption].
  intros (arms & w & Hm & _ & Har & _) v Hv.
  destruct (cases_shape F e g Hp) as (w' & _ & _ & Hm'). rewrite Hm in Hm'. injection Hm' as Hm'.
  apply app_inj_tail in Hm' as [-> _].
  destruct (C30_descriptor F e g Hp) as (_ & _ & _ & HF & _).
  assert (G : exists x, In x (g_variants g) /\ variant_matches v x).
  { clear -HF Hv. induction HF as [|v' x vs xs Hx HF IH]; [destruct Hv|]. destruct Hv as [<-|Hv]; [exists x; split; [left; reflexivity|exact Hx]|].
    destruct (IH Hv) as (y & Hy & Hm). exists y. split; [right; exact Hy|exact Hm]. }
  destruct G as (x & Hx & (_ & _ & Ef & Bx & _)).
  destruct (x_base x) eqn:Eb; [left; now apply Bx|right]. rewrite Forall_forall in Har.
  specialize (Har (PVal (x_value x) (x_form x), x_name x)). destruct Har as [Har _].
  { apply in_map_iff. exists x. split; [reflexivity|]. apply filter_In. rewrite Eb. auto. }
  cbn [fst pattern_ok] in Har. rewrite <- Ef. destruct (x_form x); [discriminate|discriminate|destruct Har].
Qed.

(** In a 4-bit field, with variants Off = 0 and On = 1: the base variant 0x12 is read
    back (its low bits 2 are unlisted), the base variant 0x11 is read as On. *)
Definition wide_enum (z : Z) : renum :=
  mkREnum VisPublic "P" (Some (RPath "u8")) [] [var "Off" [] "0" 0; var "On" [] "1" 1; var "Other" ["base"] "0x12" z]%string.
Definition wide_bf (z : Z) : bitfield :=
  mkBitfield VisPublic "B" (DInteger U8)
    [mkField VisPublic "p" DCustom 4 0 false ReadWrite None false (flag_codec (flag_of (wide_enum z)) U8);
     mkField VisPublic "rest" (DInteger U8) 4 4 false ReadWrite None false (f_codec ex_a)] [] default_args.
Example C57_exact_ex :
  (forall z, In z [0x11; 0x12] -> parse_bitflag no_features (wide_enum z) = POk (flag_of (wide_enum z)) /\
     flag_compiles (flag_of (wide_enum z)) U8 /\ bf_ok (wide_bf z)) /\
  (s <- set_field Checked (wide_bf 0x12) (flag_field (wide_bf 0x12)) (VCustom 2) (StI 0) ;;
   get_field Checked (wide_bf 0x12) (flag_field (wide_bf 0x12)) s) = Val (VCustom 2) /\
  (s <- set_field Checked (wide_bf 0x11) (flag_field (wide_bf 0x11)) (VCustom 2) (StI 0) ;;
   get_field Checked (wide_bf 0x11) (flag_field (wide_bf 0x11)) s) = Val (VCustom 1).
Proof.
  split; [|split; vm_compute; reflexivity].
  assert (Hn : NoDup ["Off"; "On"; "Other"]%string) by (repeat constructor; cbn; intuition discriminate).
  intros z [<-|[<-|[]]]; (split; [vm_compute; reflexivity|]); (split; [|apply bf_okb_ok; vm_compute; reflexivity]);
    (split; [reflexivity|]); (split; [left; reflexivity|]);
    (split; [vm_compute; repeat constructor; cbn; intuition discriminate|]); (split; [exact Hn|]);
    vm_compute; repeat constructor; discriminate.
Qed.
Example C58_exact_ex : match_ok (flag_of (wide_enum 0x12)) /\ ~ match_ok (flag_of shift_enum).
Proof.
  split.
  - apply (C58_exact no_features (wide_enum 0x12) _ U8); [vm_compute; reflexivity|apply C57_exact_ex; cbn; auto|].
    intros v Hv. right. cbn in Hv. destruct Hv as [<-|[<-|[<-|[]]]]; discriminate.
  - intro H. destruct C58_expression_refuted as (g & Hg & Hc & Hn). 
    assert (g = flag_of shift_enum) by (vm_compute in Hg |- *; congruence). subst g. contradiction.
Qed.
