(** Theorems about field accessors: C03, C04, C05, C06, C07, C21, C42, C43, C47. *)
From Coq Require Import ZArith List Bool Lia String.
From Verif Require Import RustInt Syntax GenInt GenArr Gen Spec BitsLemmas CoreLemmas GenLemmas
  ConvLemmas BitOpLemmas Examples.
Import ListNotations.
Open Scope Z_scope.
Ltac Zify.zify_post_hook ::= Z.to_euclidean_division_equations.

Lemma store_inv bf s : bf_ok bf -> store_ok bf s ->
  exists v, s = store_of bf v /\ in_range bf v /\ sval (store_of bf v) = v.
Proof.
  intros (Hbk & _) Hs. exists (sval s). rewrite <- store_of_sval by assumption.
  pose proof (sval_bound bf s Hbk Hs). auto.
Qed.
Lemma sval_of bf v : bf_ok bf -> in_range bf v -> sval (store_of bf v) = v.
Proof. intros (Hbk & _) Hv. apply sval_store_of; assumption. Qed.
Lemma of_ok bf v : bf_ok bf -> in_range bf v -> store_ok bf (store_of bf v).
Proof. intros (Hbk & _) Hv. apply store_of_ok; assumption. Qed.

Ltac use_store s v :=
  match goal with
  | Hbf : bf_ok ?bf, Hs : store_ok ?bf s |- _ =>
      let E := fresh "E" in
      destruct (store_inv bf s Hbf Hs) as (v & E & ? & ?); subst s
  end.

(** ** C03 *)

Lemma reduced_senc bf f a : field_ok bf f -> has_type f a ->
  decode f (senc f a mod 2 ^ f_bits f) = reduced f (reduced f a).
Proof.
  intros (Hb & Ho & He & Hw & Hd) Ha.
  assert (0 < 2 ^ f_bits f) by (apply pow2_pos; lia).
  unfold decode, reduced, has_type, width_ok in *. destf f t len Et.
  - assert (Hcase : t = TBool \/ t <> TBool) by (destruct t; auto; right; discriminate).
    destruct Hcase as [->|Ht].
    + destruct a; try contradiction. cbn [senc encode]. rewrite Hw. destruct b; reflexivity.
    + destruct a as [z| | |]; try (destruct t; contradiction).
      assert (Hm := Z.mod_pos_bound z (2 ^ f_bits f) ltac:(lia)).
      assert (E1 : (z mod 2 ^ f_bits f) mod 2 ^ f_bits f = z mod 2 ^ f_bits f) by apply Zmod_mod.
      assert (E2 : signed_of (f_bits f) (z mod 2 ^ f_bits f) mod 2 ^ f_bits f = z mod 2 ^ f_bits f)
        by (apply signed_of_mod; lia).
      destruct t; try congruence; cbn [senc encode ity_unsigned]; congruence.
  - destruct a; try contradiction. cbn [senc encode]. do 2 f_equal.
    rewrite le_val_bytes, pow256 by lia. rewrite mod_mod_pow2 by lia. symmetry. apply Zmod_mod.
  - destruct a; try contradiction. reflexivity.
Qed.

Lemma reduced_twice bf f a : field_ok bf f -> has_type f a -> lossless f ->
  reduced f (reduced f a) = reduced f a.
Proof.
  intros Hf Ha Hl. rewrite <- (reduced_senc bf) by assumption. pose proof Hf as (Hb & Ho & He & Hw & Hd).
  assert (0 < 2 ^ f_bits f) by (apply pow2_pos; lia).
  unfold decode, reduced, has_type, width_ok in *. destf f t len Et.
  - destruct t, a; try contradiction; try reflexivity. cbn [senc encode]. rewrite Hw. destruct b; reflexivity.
  - destruct a; try contradiction. reflexivity.
  - destruct a; try contradiction. cbn [senc]. rewrite lossless_eq; try assumption; [reflexivity|].
    apply Z.mod_pos_bound; lia.
Qed.

(** After [set_x(a)] the getter returns [a] reduced to the range of the field.
    For a custom type the value goes twice through the user's conversions
    (once in the setter, once in the getter). *)
Theorem C03_set_get m bf f a s :
  bf_ok bf -> In f (b_fields bf) -> store_ok bf s -> has_type f a ->
  exists s', set_field m bf f a s = Val s' /\ store_ok bf s' /\
             get_field m bf f s' = Val (reduced f (reduced f a)).
Proof.
  intros Hbf Hin Hs Ha. use_store s v. pose proof (bf_ok_field bf f Hbf Hin) as Hf.
  pose proof Hbf as (Hbk & _).
  eexists. split; [apply set_field_ok; assumption|].
  pose proof (in_range_splice bf f v (senc f a) Hf H) as Hr.
  split; [apply of_ok; assumption|].
  rewrite get_field_ok by assumption. f_equal.
  rewrite slice_splice_same by (destruct Hf; lia). eapply reduced_senc; eassumption.
Qed.

(** For every type except a lossy custom one a single reduction is enough. *)
Theorem C03_set_get_lossless m bf f a s :
  bf_ok bf -> In f (b_fields bf) -> store_ok bf s -> has_type f a -> lossless f ->
  exists s', set_field m bf f a s = Val s' /\ store_ok bf s' /\
             get_field m bf f s' = Val (reduced f a).
Proof.
  intros Hbf Hin Hs Ha Hl. destruct (C03_set_get m bf f a s) as (s' & E1 & E2 & E3); try assumption.
  exists s'. repeat split; try assumption.
  rewrite E3. f_equal. eapply reduced_twice; try eassumption. eapply bf_ok_field; eassumption.
Qed.

(** Representable values are returned unchanged. *)
Theorem C03_representable m bf f a s :
  bf_ok bf -> In f (b_fields bf) -> store_ok bf s -> has_type f a -> fits f a ->
  f_ty f <> DCustom ->
  exists s', set_field m bf f a s = Val s' /\ get_field m bf f s' = Val a.
Proof.
  intros Hbf Hin Hs Ha Hfit Hc.
  assert (Hl : lossless f) by (unfold lossless; destruct (f_ty f); auto; congruence).
  destruct (C03_set_get_lossless m bf f a s) as (s' & E1 & E2 & E3); try assumption.
  exists s'. split; [assumption|]. rewrite E3. f_equal.
  pose proof (bf_ok_field bf f Hbf Hin) as (Hb & _).
  unfold reduced, fits, has_type in *. destruct (f_ty f) as [t|len|]; [| |congruence].
  - destruct (ity_unsigned t) eqn:Eu.
    + destruct t; try discriminate Eu; destruct a; try contradiction; cbn [encode] in *;
        try reflexivity; f_equal; apply Z.mod_small; lia.
    + destruct t; try discriminate Eu; destruct a; try contradiction; cbn [encode] in *;
        f_equal; apply signed_of_inv; lia.
  - destruct a; try contradiction. cbn [encode] in *. rewrite Z.mod_small by lia. f_equal.
    destruct Ha as [<- Hby]. rewrite Nat2Z.id. apply le_bytes_val; assumption.
Qed.

(** A custom value that survives the user's own round trip is returned
    unchanged, lossless or not. *)
Theorem C03_custom_roundtrip m bf f t s :
  bf_ok bf -> In f (b_fields bf) -> store_ok bf s -> f_ty f = DCustom ->
  user_from f (user_into f t mod 2 ^ f_bits f) = t ->
  exists s', set_field m bf f (VCustom t) s = Val s' /\ get_field m bf f s' = Val (VCustom t).
Proof.
  intros Hbf Hin Hs Et Hrt.
  destruct (C03_set_get m bf f (VCustom t) s) as (s' & E1 & E2 & E3); try assumption.
  { unfold has_type. rewrite Et. exact I. }
  exists s'. split; [assumption|]. rewrite E3. unfold reduced. rewrite Et, !Hrt. reflexivity.
Qed.

(** Non-vacuity: 37 in a 5-bit field reads back as 5; -5 survives in 4 bits. *)
Example C03_ex :
  set_field Checked ex_int ex_a (VInt 37) (StI 0) = Val (StI 5) /\
  get_field Checked ex_int ex_a (StI 5) = Val (VInt 5) /\
  reduced ex_a (VInt 37) = VInt 5 /\
  fits ex_b (VInt (-5)) /\ has_type ex_b (VInt (-5)) /\
  (s <- set_field Checked ex_int ex_b (VInt (-5)) (StI 0) ;; get_field Checked ex_int ex_b s) = Val (VInt (-5)) /\
  In ex_a (b_fields ex_int) /\ store_ok ex_int (StI 0).
Proof. repeat split; vm_compute; auto; discriminate. Qed.

(** ** C04 *)

(** A setter changes no bit outside its field ... *)
Theorem C04_set_other_bits m bf f a s :
  bf_ok bf -> In f (b_fields bf) -> store_ok bf s -> has_type f a ->
  exists s', set_field m bf f a s = Val s' /\
    forall i, 0 <= i -> ~ covers f i -> sbit s' i = sbit s i.
Proof.
  intros Hbf Hin Hs Ha. use_store s v. pose proof (bf_ok_field bf f Hbf Hin) as Hf.
  pose proof Hbf as (Hbk & _). pose proof (in_range_splice bf f v (senc f a) Hf H) as Hr.
  eexists. split; [apply set_field_ok; assumption|].
  intros i Hi Hc. unfold sbit. rewrite !sval_of by assumption.
  destruct Hf as (Hb & Ho & _). rewrite splice_spec by lia. unfold covers in Hc. cases_bool; reflexivity.
Qed.

(** ... so every other field reads as before. *)
Theorem C04_set_other_fields m m' bf f g a s :
  bf_ok bf -> In f (b_fields bf) -> In g (b_fields bf) -> f <> g ->
  store_ok bf s -> has_type f a ->
  exists s', set_field m bf f a s = Val s' /\ get_field m' bf g s' = get_field m' bf g s.
Proof.
  intros Hbf Hin Hg Hne Hs Ha. use_store s v. pose proof (bf_ok_field bf f Hbf Hin) as Hf.
  pose proof (bf_ok_field bf g Hbf Hg) as Hgok.
  pose proof Hbf as (Hbk & _). pose proof (in_range_splice bf f v (senc f a) Hf H) as Hr.
  eexists. split; [apply set_field_ok; assumption|].
  rewrite !get_field_ok by assumption. do 2 f_equal.
  destruct Hf as (Hb & Ho & _), Hgok as (Hb' & Ho' & _).
  apply slice_splice_other; try lia.
  destruct (FOP_In disj (b_fields bf) f g (bf_ok_disj bf Hbf) Hin Hg) as [E|[D|D]]; [congruence| |];
    unfold disj in D; lia.
Qed.

Example C04_ex :
  ex_a <> ex_b /\
  (s <- set_field Checked ex_int ex_a (VInt 255) (StI 0) ;; get_field Checked ex_int ex_b s) = Val (VInt 0).
Proof. split; [discriminate|]. vm_compute. reflexivity. Qed.

(** ** C05 *)

Theorem C05_get_is_decode m bf f s :
  bf_ok bf -> In f (b_fields bf) -> store_ok bf s ->
  get_field m bf f s = Val (decode f (raw s f)).
Proof.
  intros Hbf Hin Hs. use_store s v. unfold raw. rewrite sval_of by assumption.
  apply get_field_ok; try assumption; [apply Hbf|eapply bf_ok_field; eassumption].
Qed.

Theorem C05_get_depends_only m bf f s s' :
  bf_ok bf -> In f (b_fields bf) -> store_ok bf s -> store_ok bf s' ->
  (forall i, covers f i -> sbit s i = sbit s' i) ->
  get_field m bf f s = get_field m bf f s'.
Proof.
  intros Hbf Hin Hs Hs' H. rewrite !C05_get_is_decode by assumption. do 2 f_equal.
  unfold raw. pose proof (bf_ok_field bf f Hbf Hin) as (Hb & Ho & _).
  bitext i Hi. rewrite !slice_spec by lia. destruct (Z.ltb_spec i (f_bits f)); [|reflexivity].
  cbn [andb]. apply (H (i + f_off f)). unfold covers; lia.
Qed.

Theorem C05_signed_range m bf f t s z :
  bf_ok bf -> In f (b_fields bf) -> store_ok bf s -> f_ty f = DInteger t -> ity_unsigned t = false ->
  get_field m bf f s = Val (VInt z) -> - 2 ^ (f_bits f - 1) <= z < 2 ^ (f_bits f - 1).
Proof.
  intros Hbf Hin Hs Et Eu. rewrite C05_get_is_decode by assumption. unfold decode. rewrite Et, Eu.
  pose proof (bf_ok_field bf f Hbf Hin) as (Hb & Ho & _).
  pose proof (slice_bound (sval s) (f_off f) (f_bits f) ltac:(lia)).
  pose proof (signed_of_range (f_bits f) (raw s f) ltac:(lia) H).
  destruct t; try discriminate; intros E; inversion E; subst; assumption.
Qed.

(** An unsigned getter returns a value below [2^n]. *)
Theorem C05_unsigned_range m bf f t s z :
  bf_ok bf -> In f (b_fields bf) -> store_ok bf s -> f_ty f = DInteger t -> ity_unsigned t = true ->
  get_field m bf f s = Val (VInt z) -> 0 <= z < 2 ^ f_bits f.
Proof.
  intros Hbf Hin Hs Et Eu. rewrite C05_get_is_decode by assumption. unfold decode. rewrite Et, Eu.
  pose proof (bf_ok_field bf f Hbf Hin) as (Hb & Ho & _).
  pose proof (slice_bound (sval s) (f_off f) (f_bits f) ltac:(lia)).
  destruct t; try discriminate; intros E; inversion E; subst; assumption.
Qed.

Example C05_ex :
  get_field Wrapping ex_int ex_b (StI 0xffff) = Val (VInt (-1)) /\
  get_field Wrapping ex_arr ax_c (StA [0; 0; 0x18]) = Val (VInt (-2)) /\
  store_ok ex_arr (StA [0; 0; 0x18]).
Proof. repeat split; try (vm_compute; reflexivity). repeat constructor; cbn; discriminate. Qed.

(** ** C06, C07 *)

Lemma reject_fits bf f a : bf_ok bf -> In f (b_fields bf) -> has_type f a -> checkable bf f ->
  (reject bf f a = false <-> fits f a).
Proof.
  intros Hbf Hin Ha Hc. pose proof (bf_ok_field bf f Hbf Hin) as (Hb & Ho & He & Hw & _).
  pose proof Hbf as (Hbk & _).
  assert (Hp : 0 < 2 ^ f_bits f) by (apply pow2_pos; lia).
  unfold reject, fits, has_type, checkable, width_ok in *. destf f t len Et.
  - destruct (ity_unsigned t) eqn:Eu.
    + assert (Hcase : t = TBool \/ t <> TBool) by (destruct t; auto; right; discriminate).
      destruct Hcase as [->|Ht]; [tauto|].
      destruct a as [z| | |]; try (destruct t; contradiction).
      assert (Hz : in_ity t z) by (destruct t; try exact Ha; congruence).
      assert (Hcn : checked_num bf f (VInt z) = z).
      { unfold checked_num, in_ity in *. rewrite Eu in Hz. rewrite Et. destb bf tb n Eb; [|reflexivity].
        cbn [encode]. apply Z.mod_small.
        assert (ity_bits t <= ity_bits tb) by (destruct t; try (apply Hc; reflexivity); congruence).
        assert (2 ^ ity_bits t <= 2 ^ ity_bits tb) by (apply pow2_le; destruct t; cbn in *; lia). lia. }
      rewrite Hcn. cbn [encode]. unfold in_ity in Hz. rewrite Eu in Hz.
      assert (Hg : (2 ^ f_bits f <=? z) = false <-> 0 <= z < 2 ^ f_bits f)
        by (rewrite Z.leb_gt; lia).
      destruct t; try congruence; exact Hg.
    + assert (Hg : (encode f a <? - 2 ^ (f_bits f - 1)) || (2 ^ (f_bits f - 1) <=? encode f a) = false <->
        - 2 ^ (f_bits f - 1) <= encode f a < 2 ^ (f_bits f - 1)).
      { rewrite orb_false_iff, Z.ltb_ge, Z.leb_gt. lia. }
      destruct t; try discriminate; exact Hg.
  - destruct a; try contradiction. split; [intros _|reflexivity]. cbn [encode]. destruct Ha as [Hl Hby].
    apply le_val_bound in Hby. rewrite pow256 in Hby by lia. rewrite Hl in Hby. rewrite Hc. exact Hby.
  - destruct a; try contradiction. destruct Hc as [Hu Hc].
    assert (Hz : in_ity (cd_into_ty (f_codec f)) (user_into f t)) by apply cast_in_ity.
    unfold in_ity in Hz. rewrite Hu in Hz.
    assert (Hcn : checked_num bf f (VCustom t) = user_into f t).
    { unfold checked_num. rewrite Et. destb bf tb n Eb; cbn [encode]; apply Z.mod_small.
      - assert (2 ^ ity_bits (cd_into_ty (f_codec f)) <= 2 ^ ity_bits tb)
          by (apply pow2_le; destruct (cd_into_ty (f_codec f)); cbn in *; lia). lia.
      - assert (2 ^ ity_bits (cd_into_ty (f_codec f)) <= 2 ^ 128)
          by (apply pow2_le; destruct (cd_into_ty (f_codec f)); cbn in *; lia). lia. }
    rewrite Hcn. cbn [encode]. rewrite Z.leb_gt. lia.
Qed.

(** A checked setter succeeds exactly on the representable values, with the
    effect of the plain setter; otherwise it returns the error and leaves the
    bitfield as it was. *)
Theorem C06_checked_set m bf f a s :
  bf_ok bf -> In f (b_fields bf) -> store_ok bf s -> has_type f a -> checkable bf f ->
  (fits f a -> exists s', set_field m bf f a s = Val s' /\
                          checked_set_field m bf f a s = Val (s', Ok tt)) /\
  (~ fits f a -> checked_set_field m bf f a s =
                 Val (s, Err "Value is too big to fit within the field bits."%string)).
Proof.
  intros Hbf Hin Hs Ha Hc. pose proof (reject_fits bf f a Hbf Hin Ha Hc) as Hrf.
  use_store s v. pose proof (bf_ok_field bf f Hbf Hin) as Hf. pose proof Hbf as (Hbk & _).
  rewrite checked_set_field_ok by assumption. split.
  - intros Hfit. apply Hrf in Hfit. rewrite Hfit. eexists. split; [|reflexivity].
    apply set_field_ok; assumption.
  - intros Hfit. destruct (reject bf f a); [reflexivity|]. exfalso. apply Hfit, Hrf. reflexivity.
Qed.

(** After a successful checked setter the getter returns the given value. *)
Theorem C06_checked_set_get m bf f a s s' :
  bf_ok bf -> In f (b_fields bf) -> store_ok bf s -> has_type f a -> checkable bf f ->
  f_ty f <> DCustom ->
  checked_set_field m bf f a s = Val (s', Ok tt) -> get_field m bf f s' = Val a.
Proof.
  intros Hbf Hin Hs Ha Hc Hn E.
  destruct (C06_checked_set m bf f a s) as [H1 H2]; try assumption.
  assert (Hd : fits f a \/ ~ fits f a).
  { pose proof (reject_fits bf f a Hbf Hin Ha Hc) as R. destruct (reject bf f a); [right|left].
    - intros X. apply R in X. discriminate.
    - apply R. reflexivity. }
  destruct Hd as [Hd|Hd].
  - destruct (C03_representable m bf f a s) as (s2 & E2 & E3); try assumption.
    destruct (H1 Hd) as (s3 & E4 & E5). rewrite E5 in E. inversion E; subst.
    rewrite E2 in E4. inversion E4; subst. assumption.
  - rewrite (H2 Hd) in E. discriminate.
Qed.

Example C06_ex :
  checkable ex_int ex_a /\ checkable ex_int ex_b /\ checkable ex_int ex_d /\ checkable ex_arr ax_a /\
  checked_set_field Checked ex_int ex_a (VInt 32) (StI 7) = Val (StI 7, Err msg_too_big) /\
  checked_set_field Checked ex_int ex_a (VInt 31) (StI 7) = Val (StI 31, Ok tt) /\
  checked_set_field Checked ex_int ex_b (VInt (-9)) (StI 7) = Val (StI 7, Err msg_too_big) /\
  checked_set_field Checked ex_arr ax_b (VInt 1024) (StA [1;2;3]) = Val (StA [1;2;3], Err msg_too_big).
Proof. repeat split; vm_compute; auto; discriminate. Qed.

(** C07 is false: a 4-bit [u32] field of a [u8] bitfield accepts 256. *)
Definition c07_f : field := rw "x" (DInteger U32) 4 0.
Definition c07_bf : bitfield :=
  mkBitfield VisPublic "B" (DInteger U8) [c07_f; rw "y" (DInteger U8) 4 4] [] default_args.
Theorem C07_refuted :
  exists bf f a s s',
    bf_ok bf /\ In f (b_fields bf) /\ store_ok bf s /\ has_type f a /\ ~ fits f a /\
    checked_set_field Checked bf f a s = Val (s', Ok tt) /\
    get_field Checked bf f s' <> Val a.
Proof.
  exists c07_bf, c07_f, (VInt 256), (StI 0x0f), (StI 0).
  split; [apply bf_okb_ok; vm_compute; reflexivity|].
  split; [left; reflexivity|]. split; [cbn; lia|]. split; [cbn; lia|].
  split; [cbn; lia|]. split; vm_compute; [reflexivity|discriminate].
Qed.

(** The same for an array field that does not use all bits of its type. *)
Definition c07_g : field := rw "x" (DArray 2) 12 0.
Definition c07_bf2 : bitfield :=
  mkBitfield VisPublic "B" (DArray 2) [c07_g; rw "y" (DInteger U8) 4 12] [] default_args.
Theorem C07_array_field_refuted :
  exists bf f a s s',
    bf_ok bf /\ In f (b_fields bf) /\ store_ok bf s /\ has_type f a /\ ~ fits f a /\
    checked_set_field Checked bf f a s = Val (s', Ok tt) /\
    get_field Checked bf f s' <> Val a.
Proof.
  exists c07_bf2, c07_g, (VArr [255; 255]), (StA [0; 0]), (StA [255; 15]).
  split; [apply bf_okb_ok; vm_compute; reflexivity|].
  split; [left; reflexivity|].
  assert (Hb : forall a b, 0 <= a < 256 -> 0 <= b < 256 -> Forall is_byte [a; b]).
  { intros. repeat constructor; unfold is_byte; lia. }
  split; [split; [reflexivity|apply Hb; lia]|]. split; [split; [reflexivity|apply Hb; lia]|].
  split; [cbn; lia|]. split; vm_compute; [reflexivity|discriminate].
Qed.

(** ** C43 *)

Theorem C43_set_commute m bf f g a b s :
  bf_ok bf -> In f (b_fields bf) -> In g (b_fields bf) -> f <> g -> store_ok bf s ->
  has_type f a -> has_type g b ->
  (s1 <- set_field m bf f a s ;; set_field m bf g b s1) =
  (s1 <- set_field m bf g b s ;; set_field m bf f a s1).
Proof.
  intros Hbf Hin Hg Hne Hs Ha Hb. use_store s v. pose proof (bf_ok_field bf f Hbf Hin) as Hf.
  pose proof (bf_ok_field bf g Hbf Hg) as Hgok. pose proof Hbf as (Hbk & _).
  rewrite !set_field_ok by assumption. cbn [bind].
  rewrite !set_field_ok by (try assumption; apply in_range_splice; assumption).
  do 2 f_equal. destruct Hf as (Hb1 & Ho1 & _), Hgok as (Hb2 & Ho2 & _).
  apply splice_comm; try lia.
  destruct (FOP_In disj (b_fields bf) f g (bf_ok_disj bf Hbf) Hin Hg) as [E|[D|D]]; [congruence| |];
    unfold disj in D; lia.
Qed.

Theorem C43_set_overwrite m bf f a b s :
  bf_ok bf -> In f (b_fields bf) -> store_ok bf s -> has_type f a -> has_type f b ->
  (s1 <- set_field m bf f a s ;; set_field m bf f b s1) = set_field m bf f b s.
Proof.
  intros Hbf Hin Hs Ha Hb. use_store s v. pose proof (bf_ok_field bf f Hbf Hin) as Hf.
  pose proof Hbf as (Hbk & _).
  rewrite !set_field_ok by assumption. cbn [bind].
  rewrite !set_field_ok by (try assumption; apply in_range_splice; assumption).
  do 2 f_equal. destruct Hf as (Hb1 & Ho1 & _). apply splice_splice; lia.
Qed.

(** Writing back what was read changes nothing. *)
Theorem C43_set_get_same m bf f s a :
  bf_ok bf -> In f (b_fields bf) -> store_ok bf s -> lossless f ->
  get_field m bf f s = Val a -> set_field m bf f a s = Val s.
Proof.
  intros Hbf Hin Hs Hl. use_store s v. pose proof (bf_ok_field bf f Hbf Hin) as Hf.
  pose proof Hbf as (Hbk & _). rewrite get_field_ok by assumption. intros E. inversion E; subst a.
  pose proof (slice_in bf f v Hf) as Hr.
  assert (Ht : has_type f (decode f (slice v (f_off f) (f_bits f)))).
  { destruct Hf as (Hb & Ho & He & Hw & Hd). unfold has_type, decode, width_ok in *.
    set (r := slice v (f_off f) (f_bits f)) in *. clearbody r. destf f t len Et.
    - destruct (ity_unsigned t) eqn:Eu.
      + destruct t; try discriminate Eu; try exact I; unfold in_ity; cbn [ity_unsigned ity_bits] in *;
          (match goal with |- _ <= _ < 2 ^ ?k => pose proof (pow2_le (f_bits f) k) end); lia.
      + pose proof (signed_of_range (f_bits f) r ltac:(lia) Hr).
        assert (f_bits f <= ity_bits t) by (destruct t; try discriminate Eu; assumption).
        assert (2 ^ (f_bits f - 1) <= 2 ^ (ity_bits t - 1)) by (apply pow2_le; lia).
        destruct t; try discriminate Eu; unfold in_ity; cbn [ity_unsigned ity_bits] in *; lia.
    - rewrite le_bytes_length. split; [lia|apply le_bytes_bytes].
    - exact I. }
  rewrite set_field_ok by assumption. do 2 f_equal.
  rewrite <- (splice_slice v (f_off f) (f_bits f)) at 3 by (destruct Hf as (? & ? & _); lia).
  apply splice_ext. rewrite (senc_decode bf) by assumption. symmetry. apply Z.mod_small; assumption.
Qed.

Example C43_ex :
  (s <- set_field Checked ex_int ex_a (VInt 3) (StI 0) ;; set_field Checked ex_int ex_b (VInt (-1)) s)
  = Val (StI 0x1e3).
Proof. vm_compute. reflexivity. Qed.

(** ** C47 *)

Theorem C47_fields_determine bf s s' :
  bf_ok bf -> store_ok bf s -> store_ok bf s' ->
  (forall f, In f (b_fields bf) -> raw s f = raw s' f) -> s = s'.
Proof.
  intros Hbf Hs Hs' H. rewrite (store_of_sval bf s), (store_of_sval bf s') by assumption. f_equal.
  pose proof Hbf as (Hbk & _).
  apply (slices_determine bf); try assumption; apply sval_bound; assumption.
Qed.

Theorem C47_getters_determine m bf s s' :
  bf_ok bf -> store_ok bf s -> store_ok bf s' ->
  (forall f, In f (b_fields bf) -> exists t, f_ty f = DInteger t) ->
  (forall f, In f (b_fields bf) -> get_field m bf f s = get_field m bf f s') ->
  s = s' /\ forall m v, into_data m bf v s = into_data m bf v s'.
Proof.
  intros Hbf Hs Hs' Ht H.
  assert (E : s = s').
  { apply (C47_fields_determine bf); try assumption. intros f Hin. specialize (H f Hin).
    rewrite !C05_get_is_decode in H by assumption. destruct (Ht f Hin) as [t Et].
    pose proof (bf_ok_field bf f Hbf Hin) as (Hb & Ho & He & Hw & _). unfold width_ok in Hw.
    pose proof (slice_bound (sval s) (f_off f) (f_bits f) ltac:(lia)) as B1.
    pose proof (slice_bound (sval s') (f_off f) (f_bits f) ltac:(lia)) as B2.
    fold (raw s f) in B1. fold (raw s' f) in B2. unfold decode in H. rewrite Et in *.
    destruct (ity_unsigned t) eqn:Eu.
    - destruct t; try discriminate Eu; try (inversion H; reflexivity).
      rewrite Hw in *. inversion H as [H0].
      destruct (Z.eqb_spec (raw s f) 0), (Z.eqb_spec (raw s' f) 0); try discriminate H0; lia.
    - assert (Hs2 : signed_of (f_bits f) (raw s f) = signed_of (f_bits f) (raw s' f))
        by (destruct t; try discriminate Eu; inversion H; reflexivity).
      rewrite <- (signed_of_mod (f_bits f) (raw s f)), <- (signed_of_mod (f_bits f) (raw s' f)) by lia.
      rewrite Hs2. reflexivity. }
  subst. auto.
Qed.

Example C47_ex : raw (StI 0x5a5) ex_a = 5 /\ raw (StI 0x5a5) ex_b = 0xd /\ raw (StI 0x5a5) ex_d = 1.
Proof. repeat split. Qed.

(** ** C21, C42 *)

(** [invert_x()] flips exactly the bits of [x] ... *)
Theorem C21_invert_field m bf f s :
  bf_ok bf -> In f (b_fields bf) -> store_ok bf s -> lossless f ->
  exists s', invert_field m bf f s = Val s' /\ store_ok bf s' /\
    forall i, 0 <= i < ty_size (b_ty bf) ->
      (covers f i -> sbit s' i = negb (sbit s i)) /\ (~ covers f i -> sbit s' i = sbit s i).
Proof.
  intros Hbf Hin Hs Hl. use_store s v. pose proof (bf_ok_field bf f Hbf Hin) as Hf.
  pose proof Hbf as (Hbk & _).
  destruct (invert_field_ok m bf f v) as (a & E1 & Ha & Hsenc & E2); try assumption.
  pose proof (in_range_splice bf f v (senc f a) Hf H) as Hr.
  eexists. split; [exact E2|]. split; [apply of_ok; assumption|].
  intros i Hi. unfold sbit. rewrite !sval_of by assumption.
  pose proof (slice_in bf f v Hf) as Hsl.
  destruct Hf as (Hb & Ho & _). rewrite splice_spec by lia. unfold covers. split; intros Hc.
  - destruct (Z.leb_spec (f_off f) i), (Z.ltb_spec i (f_off f + f_bits f)); try lia. cbn [andb].
    transitivity (Z.testbit (senc f a mod 2 ^ f_bits f) (i - f_off f)).
    { rewrite mod_pow2_spec by lia. destruct (Z.ltb_spec (i - f_off f) (f_bits f)); [reflexivity|lia]. }
    rewrite (Hsenc Hl), compl_ldiff by (assumption || lia). repeat bits1.
    destruct (Z.ltb_spec (i - f_off f) (f_bits f)); [|lia]. cbn [andb].
    replace (i - f_off f + f_off f) with i by lia. reflexivity.
  - cases_bool; reflexivity.
Qed.

(** ... [x_inverted()] of an unsigned field is the complement within [n] bits ... *)
Theorem C21_inverted_unsigned m bf f t s z :
  bf_ok bf -> In f (b_fields bf) -> store_ok bf s ->
  f_ty f = DInteger t -> ity_unsigned t = true -> t <> TBool ->
  get_field m bf f s = Val (VInt z) ->
  inverted_field m bf f s = Val (VInt (2 ^ f_bits f - 1 - z)).
Proof.
  intros Hbf Hin Hs Et Eu Hn. rewrite C05_get_is_decode by assumption. unfold decode. rewrite Et, Eu.
  intros E. assert (z = raw s f) by (destruct t; try congruence; inversion E; reflexivity). subst z. clear E.
  unfold raw. use_store s v. rewrite sval_of by assumption.
  pose proof (bf_ok_field bf f Hbf Hin) as Hf. pose proof Hbf as (Hbk & _).
  unfold inverted_field. rewrite extract_src_ok by assumption. cbn [bind].
  pose proof (slice_in bf f v Hf) as Hsl.
  rewrite value_to_field_ok by (assumption || lia). rewrite Et.
  assert (Hc : cast t (2 ^ f_bits f - 1 - slice v (f_off f) (f_bits f)) =
               2 ^ f_bits f - 1 - slice v (f_off f) (f_bits f)).
  { apply cast_id. unfold in_ity. rewrite Eu. destruct Hf as (Hb & Ho & He & Hw & _).
    unfold width_ok in Hw. rewrite Et in Hw.
    assert (2 ^ f_bits f <= 2 ^ ity_bits t) by (apply pow2_le; destruct t; try congruence; lia). lia. }
  rewrite Hc. destruct t; congruence.
Qed.

(** ... and [invert_x()] stores the value [x_inverted()] returns. *)
Theorem C21_invert_is_set_inverted m bf f s :
  bf_ok bf -> In f (b_fields bf) -> store_ok bf s ->
  exists a, inverted_field m bf f s = Val a /\ has_type f a /\
            invert_field m bf f s = set_field m bf f a s.
Proof.
  intros Hbf Hin Hs. use_store s v. pose proof (bf_ok_field bf f Hbf Hin) as Hf.
  pose proof Hbf as (Hbk & _).
  destruct (invert_field_ok m bf f v) as (a & E1 & Ha & Hsenc & E2); try assumption.
  exists a. split; [assumption|]. split; [assumption|]. rewrite E2. symmetry. apply set_field_ok; assumption.
Qed.

(** Inverting a field twice restores the state. *)
Theorem C21_invert_twice m bf f s :
  bf_ok bf -> In f (b_fields bf) -> store_ok bf s -> lossless f ->
  (s1 <- invert_field m bf f s ;; invert_field m bf f s1) = Val s.
Proof.
  intros Hbf Hin Hs Hl.
  destruct (C21_invert_field m bf f s) as (s1 & E1 & Hs1 & H1); try assumption.
  destruct (C21_invert_field m bf f s1) as (s2 & E2 & Hs2 & H2); try assumption.
  rewrite E1. cbn [bind]. rewrite E2. f_equal.
  rewrite (store_of_sval bf s2), (store_of_sval bf s) by assumption. f_equal.
  pose proof Hbf as (Hbk & _).
  pose proof (sval_bound bf s Hbk Hs). pose proof (sval_bound bf s2 Hbk Hs2).
  bitext i Hi. destruct (Z_lt_ge_dec i (ty_size (b_ty bf))).
  - specialize (H1 i ltac:(lia)). specialize (H2 i ltac:(lia)). unfold sbit in *.
    destruct (coversb f i) eqn:Ec.
    + apply coversb_spec in Ec. rewrite (proj1 H2), (proj1 H1), negb_involutive by assumption. reflexivity.
    + assert (Hnc : ~ covers f i) by (rewrite <- coversb_spec; congruence).
      rewrite (proj2 H2), (proj2 H1) by assumption. reflexivity.
  - rewrite !(testbit_small _ (ty_size (b_ty bf))) by (assumption || lia). reflexivity.
Qed.

Example C21_ex :
  invert_field Checked ex_int ex_a (StI 0xff06) = Val (StI 0xff19) /\
  inverted_field Checked ex_int ex_a (StI 6) = Val (VInt 25).
Proof. split; vm_compute; reflexivity. Qed.

(** C42 is false: [x_inverted] of a signed field narrower than its type is not
    sign extended.  A 4-bit [i8] field holding 0 is inverted to 15, not -1. *)
Theorem C42_refuted :
  exists m bf f s z z' s',
    bf_ok bf /\ In f (b_fields bf) /\ store_ok bf s /\ f_ty f = DInteger I8 /\
    get_field m bf f s = Val (VInt z) /\
    inverted_field m bf f s = Val (VInt z') /\ z' <> - z - 1 /\
    invert_field m bf f s = Val s' /\ get_field m bf f s' <> Val (VInt z').
Proof.
  exists Checked, ex_int, ex_b, (StI 0), 0, 15, (StI 0x1e0).
  split; [exact ex_int_ok|]. split; [right; left; reflexivity|]. split; [cbn; lia|].
  repeat split; vm_compute; congruence.
Qed.

(** What holds: it is the complement of the raw bits, and the documented value
    exactly when the field has the full width of its type. *)
Theorem C42_signed_partial m bf f t s z :
  bf_ok bf -> In f (b_fields bf) -> store_ok bf s ->
  f_ty f = DInteger t -> ity_unsigned t = false -> f_bits f = ity_bits t ->
  get_field m bf f s = Val (VInt z) -> inverted_field m bf f s = Val (VInt (- z - 1)).
Proof.
  intros Hbf Hin Hs Et Eu Hfull. rewrite C05_get_is_decode by assumption. unfold decode. rewrite Et, Eu.
  intros E. assert (Ez : z = signed_of (f_bits f) (raw s f))
    by (destruct t; try discriminate; inversion E; reflexivity). clear E.
  unfold raw in Ez. use_store s v. rewrite sval_of in Ez by assumption.
  pose proof (bf_ok_field bf f Hbf Hin) as Hf. pose proof Hbf as (Hbk & _).
  unfold inverted_field. rewrite extract_src_ok by assumption. cbn [bind].
  pose proof (slice_in bf f v Hf) as Hsl.
  rewrite value_to_field_ok by (assumption || lia). rewrite Et.
  set (r := slice v (f_off f) (f_bits f)) in *. clearbody r.
  assert (Hn : 0 < ity_bits t) by (destruct t; cbn; lia).
  assert (Hc : cast t (2 ^ f_bits f - 1 - r) = - z - 1).
  { unfold cast. rewrite Eu, <- Hfull. rewrite <- signed_of_scast by lia. rewrite Ez.
    unfold signed_of. pose proof (pow2_half (f_bits f) ltac:(lia)).
    destruct (Z.ltb_spec r (2 ^ (f_bits f - 1))), (Z.ltb_spec (2 ^ f_bits f - 1 - r) (2 ^ (f_bits f - 1))); lia. }
  rewrite Hc. destruct t; try discriminate; reflexivity.
Qed.
