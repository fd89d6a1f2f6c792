(** C64: operation histories for arbitrary conversion functions.

    C26 describes histories of bitfields whose custom types lose nothing.  Here
    the conversion functions [from_bits] / [into_bits] of custom types are
    arbitrary (in particular those of a bitflag enum, which map every unlisted
    number to one variant), and checked setters are allowed on every field. *)
From Coq Require Import ZArith List Bool Lia String.
From Verif Require Import RustInt Syntax GenInt GenArr Gen Spec BitsLemmas CoreLemmas GenLemmas
  ConvLemmas BitOpLemmas Examples PropFields PropConv PropBits Hist PropHist PropRefine
  ConstExpr SpecDecl Parser Bitflag PropBitflag PropExact PropCompose.
Import ListNotations.
Open Scope Z_scope.
Ltac Zify.zify_post_hook ::= Z.to_euclidean_division_equations.

(** ** Specification *)

(** The bits that come back when a field's bits are converted to its type and
    back. *)
Definition pass (f : field) (r : Z) : Z :=
  match f_ty f with DCustom => user_into f (user_from f r) mod 2 ^ f_bits f | _ => r end.
(** A value the generated code assigns itself goes through the setter if the
    field has one, and is stored directly otherwise; the setter converts it once
    more. *)
Definition stored (f : field) (r : Z) : Z := if writableb f then pass f r else r.

(** Values the checked setter lets through (see C07_exact). *)
Definition seen (bf : bitfield) (f : field) (z : Z) : Z :=
  match b_ty bf, f_ty f with
  | DInteger tb, _ => z mod 2 ^ ity_bits tb
  | _, DCustom => z mod 2 ^ 128
  | _, _ => z
  end.
Definition acceptedb (bf : bitfield) (f : field) (a : fval) : bool :=
  match f_ty f, a with
  | DInteger TBool, _ | DArray _, _ => true
  | DInteger t, VInt z =>
      if ity_unsigned t then seen bf f z <? 2 ^ f_bits f
      else (- 2 ^ (f_bits f - 1) <=? z) && (z <? 2 ^ (f_bits f - 1))
  | DCustom, VCustom k => seen bf f (user_into f k) <? 2 ^ f_bits f
  | _, _ => false
  end.

Definition take (r : amap) (sel : field -> bool) (V : Z) : amap :=
  fun f => if sel f then stored f (pass f (slice V (f_off f) (f_bits f))) else r f.
Definition to_defaults (r : amap) : amap :=
  fun f => match f_default f with Some _ => stored f (default_bits f) | None => r f end.
Definition anew (defaults : bool) : amap :=
  fun f => match f_default f with
           | Some _ => if defaults || f_reserved f then stored f (default_bits f) else stored f (pass f 0)
           | None => stored f (pass f 0)
           end.

(** Calls not listed convert nothing on the way into the storage; for them the
    specification is that of C26. *)
Definition full_step (bf : bitfield) (o : op) (r : amap) : amap * obs :=
  match o with
  | OSet f a => (aset r f (pass f (encode f a mod 2 ^ f_bits f)), BNone)
  | OCheckedSet f a =>
      if acceptedb bf f a then (aset r f (pass f (encode f a mod 2 ^ f_bits f)), BRes (Ok tt))
      else (r, BRes (Err too_big))
  | OInvert f => (aset r f (pass f (pass f (2 ^ f_bits f - 1 - r f))), BNone)
  | OClear f => (aset r f (stored f (pass f 0)), BNone)
  | OClearDefault f => (aset r f (stored f (default_bits f)), BNone)
  | OClearAll d | ONew d => (anew d, BNone)
  | OInvertAll =>
      (fun f => stored f (pass f (if writableb f then 2 ^ f_bits f - 1 - r f else r f)), BNone)
  | OWrite v d b =>
      let r' := take r writableb (writing_view bf (endian_of (a_write_endian (b_args bf)) v) b) in
      (if d then to_defaults r' else r', BNone)
  | OWriteDefaults => (to_defaults r, BNone)
  | ODefault => (if a_new (b_args bf) then anew true else to_defaults (fun _ => 0), BNone)
  | OFrom v d b =>
      let r' := take r (fun _ => true) (from_into_view bf (endian_of (a_from_endian (b_args bf)) v) b) in
      (if d then to_defaults r' else r', BNone)
  | OTraitFrom b => (take r (fun _ => true) (from_into_view bf (a_from_endian (b_args bf)) b), BNone)
  | _ => spec_step bf o r
  end.
Fixpoint full_run (bf : bitfield) (os : list op) (r : amap) : amap * list obs :=
  match os with
  | [] => (r, [])
  | o :: t =>
      let '(r1, b) := full_step bf o r in
      let '(r2, bs) := full_run bf t r1 in
      (r2, b :: bs)
  end.

(** ** What internal assignments store *)

Lemma pass_range bf f r : field_ok bf f -> 0 <= r < 2 ^ f_bits f -> 0 <= pass f r < 2 ^ f_bits f.
Proof.
  intros (Hb & _) Hr. unfold pass. destruct (f_ty f); try assumption.
  apply Z.mod_pos_bound, pow2_pos; lia.
Qed.

Lemma aenc_stored bf f p : field_ok bf f -> pval_ok bf f p ->
  aenc f p mod 2 ^ f_bits f = stored f (praw f p mod 2 ^ f_bits f).
Proof.
  intros Hf Hp. unfold stored, pass. rewrite writableb_eq. unfold pval_ok in Hp.
  destruct (f_ty f) as [t|len|] eqn:Et; destruct p; try contradiction; cbn [aenc praw];
    try (destruct t; contradiction); destruct (has_setter f); try reflexivity.
Qed.

Lemma cenc_stored bf f r : field_ok bf f -> 0 <= r < 2 ^ f_bits f ->
  cenc bf f r mod 2 ^ f_bits f = stored f (pass f r).
Proof.
  intros Hf Hr. unfold cenc. rewrite (aenc_stored bf) by (try assumption; apply value_variable_ok; assumption).
  f_equal. pose proof Hf as (Hb & Ho & He & Hw & _). unfold width_ok in Hw.
  unfold pass, raw_pval, value_variable. destruct (f_ty f) as [t|len|] eqn:Et.
  - destruct t; cbn [praw]; try (apply Z.mod_small; assumption). rewrite Hw in *.
    change (2 ^ 1) with 2 in *. assert (Hc : r = 0 \/ r = 1) by lia. destruct Hc as [-> | ->]; reflexivity.
  - destruct (is_integer_backed bf); cbn [praw]; [apply Z.mod_small; assumption|].
    rewrite le_val_bytes, pow256 by lia. rewrite mod_mod_pow2 by lia. apply Z.mod_small; assumption.
  - reflexivity.
Qed.

Lemma zenc_stored bf f : field_ok bf f -> zenc bf f mod 2 ^ f_bits f = stored f (pass f 0).
Proof.
  intros Hf. unfold zenc. rewrite (aenc_stored bf) by (try assumption; apply zero_value_ok; assumption).
  f_equal. unfold pass, zero_value. destruct (f_ty f) as [t|len|] eqn:Et.
  - destruct t; reflexivity.
  - destruct (is_integer_backed bf); [reflexivity|]. cbn [praw]. rewrite zeros_le_bytes, le_bytes_0_val. reflexivity.
  - reflexivity.
Qed.

Lemma denc_stored bf f p : field_ok bf f -> f_default f = Some p ->
  aenc f p mod 2 ^ f_bits f = stored f (default_bits f).
Proof.
  intros Hf Ed. pose proof Hf as (Hb & Ho & He & Hw & Hd). unfold default_ok in Hd. rewrite Ed in Hd.
  rewrite (aenc_stored bf) by assumption. f_equal. unfold default_bits. rewrite Ed.
  destruct p; cbn [praw]; try reflexivity.
  unfold pval_ok, width_ok in *. destruct (f_ty f) as [i| |]; try contradiction. destruct i; try contradiction.
  rewrite Hw. destruct b; reflexivity.
Qed.

Lemma senc_pass bf f a : field_ok bf f -> has_type f a ->
  senc f a mod 2 ^ f_bits f = pass f (encode f a mod 2 ^ f_bits f).
Proof.
  intros Hf Ha. unfold pass, has_type in *.
  destruct a; cbn [senc encode]; destruct (f_ty f) as [i| |]; try contradiction; try reflexivity;
    destruct i; contradiction.
Qed.

Lemma reject_accepted bf f a : has_type f a -> reject bf f a = negb (acceptedb bf f a).
Proof.
  unfold reject, acceptedb, has_type, seen, checked_num, encode. destruct (f_ty f) as [t|len|] eqn:Et.
  - destruct a as [z|b|l|k]; destruct t; try contradiction; cbn [ity_unsigned]; intros H; try reflexivity;
      try (rewrite negb_andb, <- Z.ltb_antisym, <- Z.leb_antisym; reflexivity);
      destruct (b_ty bf); rewrite ?Et; apply Z.leb_antisym.
  - reflexivity.
  - destruct a; try contradiction. intros _. destruct (b_ty bf); rewrite ?Et; unfold user_into; apply Z.leb_antisym.
Qed.

Lemma rep_to_defaults bf v r : bf_ok bf -> rep bf v r -> rep bf (defaults_num bf v) (to_defaults r).
Proof.
  intros Hbf H f Hin. unfold defaults_num. rewrite upd_raw by assumption.
  pose proof (bf_ok_field bf f Hbf Hin) as Hf. unfold to_defaults, has_default, denc.
  destruct (f_default f) as [p|] eqn:Ed; [apply (denc_stored bf); assumption|apply H; assumption].
Qed.

Lemma rep_take_any bf sel b v r : bf_ok bf -> rep bf v r -> rep bf (copy_num bf sel b v) (take r sel b).
Proof.
  intros Hbf H f Hin. unfold copy_num, take. rewrite upd_raw by assumption.
  pose proof (bf_ok_field bf f Hbf Hin) as Hf. destruct (sel f); [|apply H; assumption].
  apply cenc_stored; [assumption|]. apply (slice_in bf); assumption.
Qed.

Lemma rep_anew bf d v : bf_ok bf -> rep bf (new_num bf d v) (anew d).
Proof.
  intros Hbf f Hin. rewrite new_raw by assumption. pose proof (bf_ok_field bf f Hbf Hin) as Hf.
  unfold anew, has_default, denc. destruct (f_default f) as [p|] eqn:Ed.
  - destruct (d || f_reserved f); cbn [andb]; [apply (denc_stored bf); assumption|apply zenc_stored; assumption].
  - rewrite andb_false_r. apply zenc_stored; assumption.
Qed.

Lemma copy_ext bf sel sel' b v : (forall f, sel f = sel' f) -> copy_num bf sel b v = copy_num bf sel' b v.
Proof. intros H. unfold copy_num. f_equal. apply filter_ext. assumption. Qed.

Lemma inv_slice bf v f : bf_ok bf -> in_range bf v -> In f (b_fields bf) ->
  slice (inv_num bf v) (f_off f) (f_bits f) =
  if writableb f then 2 ^ f_bits f - 1 - slice v (f_off f) (f_bits f) else slice v (f_off f) (f_bits f).
Proof.
  intros Hbf Hv Hin. pose proof (bf_ok_field bf f Hbf Hin) as Hf. rewrite writableb_eq.
  pose proof (slice_in bf f v Hf) as Hsl. destruct Hf as (Hb & Ho & He & _).
  destruct (has_setter f) eqn:Es.
  - rewrite compl_ldiff by (assumption || lia). bitext i Hi. rewrite slice_spec, inv_bit by (assumption || lia).
    repeat bits1. destruct (Z.ltb_spec i (f_bits f)); [|reflexivity]. cbn [andb].
    rewrite (guard_owner bf no_setter f) by (try assumption; unfold covers; lia).
    unfold no_setter. rewrite Es. cases_bool. reflexivity.
  - bitext i Hi. rewrite !slice_spec, inv_bit by (assumption || lia).
    destruct (Z.ltb_spec i (f_bits f)); [|reflexivity]. cbn [andb].
    rewrite (guard_owner bf no_setter f) by (try assumption; unfold covers; lia).
    unfold no_setter. rewrite Es. cbn [negb]. rewrite andb_false_r. reflexivity.
Qed.

(** ** One step *)

Lemma full_refines m bf o v r :
  bf_ok bf -> op_ok bf o -> in_range bf v -> rep bf v r ->
  exists v', in_range bf v' /\ step m bf o (store_of bf v) = Val (store_of bf v', snd (full_step bf o r)) /\
    rep bf v' (fst (full_step bf o r)).
Proof.
  intros Hbf Ho Hv Hr.
  destruct (converting o) eqn:Hcv;
    [|destruct o; try discriminate Hcv; cbn [full_step]; apply step_plain; assumption].
  pose proof Hbf as (Hbk & _). pose proof (in_range_0 bf Hbk) as H0.
  assert (HF : forall f, In f (b_fields bf) -> field_ok bf f) by (intros; eapply bf_ok_field; eassumption).
  assert (Hz : rep bf 0 (fun _ => 0)).
  { intros f Hin. destruct (HF f Hin) as (? & ? & _). unfold slice. rewrite Z.div_0_l by (apply Z.pow_nonzero; lia).
    apply Z.mod_0_l. apply Z.pow_nonzero; lia. }
  destruct o; try discriminate Hcv; clear Hcv; cbn [step op_ok full_step] in *; unfold ret, retr.
  - (* OSet *) destruct Ho as [Hin Ha]. rewrite set_field_ok by auto. start.
    + apply in_range_splice; auto.
    + apply rep_set; try assumption. apply (senc_pass bf); auto.
  - (* OCheckedSet *) destruct Ho as [Hin Ha]. rewrite checked_set_field_ok by auto.
    rewrite reject_accepted by assumption.
    destruct (acceptedb bf f a); cbn [negb bind fst snd].
    + start; [apply in_range_splice; auto|]. apply rep_set; try assumption. apply (senc_pass bf); auto.
    + start; assumption.
  - (* OInvert *)
    pose proof (HF f Ho) as Hf.
    pose proof (slice_in bf f v Hf) as Hsl. pose proof (Hr f Ho) as Er.
    destruct (inverted_field_eq m bf f v Hbf Ho Hv) as [E Ht].
    replace (invert_field m bf f (store_of bf v)) with
      (a <- inverted_field m bf f (store_of bf v) ;; set_field m bf f a (store_of bf v))
      by (unfold invert_field, inverted_field; destruct (extract_src m bf f true (store_of bf v)); reflexivity).
    rewrite E. cbn [bind]. rewrite set_field_ok by auto. start; [apply in_range_splice; auto|].
    apply rep_set; try assumption. rewrite (senc_pass bf) by assumption. rewrite Er in *.
    f_equal. unfold inverted_value, pass. pose proof Hf as (Hb & _ & _ & Hw & _). unfold width_ok in Hw.
    destruct (f_ty f) as [t|len|]; [| |reflexivity].
    + destruct t; cbn [encode];
        try (rewrite cast_mod by (discriminate || (cbn in *; lia)); apply Z.mod_small; lia).
      rewrite Hw in *. change (2 ^ 1) with 2 in *.
      assert (Hc : r f = 0 \/ r f = 1) by lia. destruct Hc as [-> | ->]; reflexivity.
    + cbn [encode]. rewrite le_val_bytes, pow256 by lia. rewrite mod_mod_pow2 by lia. apply Z.mod_small; lia.
  - (* OClear *) unfold clear_field, set_zero. rewrite assign_ok by auto using zero_value_ok. start.
    + apply in_range_splice; auto.
    + apply rep_set; try assumption. apply zenc_stored; auto.
  - (* OClearDefault *) destruct Ho as [Hin Hd]. destruct (f_default f) as [p|] eqn:Ed; [|congruence].
    unfold clear_field_to_default. rewrite (set_default_ok m bf f p) by auto. start.
    + apply in_range_splice; auto.
    + apply rep_set; try assumption. apply (denc_stored bf); auto.
  - (* OClearAll *) unfold clear_all. rewrite (proj1 (new_impl_ok m bf defaults v Hbf Hv)). start.
    + apply new_range; assumption.
    + apply rep_anew; assumption.
  - (* OInvertAll *) rewrite invert_all_ok by assumption. start; [auto using copy_range, inv_range|].
    eapply rep_ext; [apply rep_take_any; eassumption|]. intros f Hin. unfold take.
    rewrite inv_slice, (Hr f Hin) by assumption. reflexivity.
  - (* OWrite *) rewrite write_data_ok by assumption. start; [apply write_range; assumption|].
    unfold write_num. rewrite variant_endian_eq, writing_view_eq. cbn [fst].
    set (V := writing_view bf _ b).
    rewrite (copy_ext bf has_setter writableb) by (intros; symmetry; apply writableb_eq).
    destruct defaults; [apply rep_to_defaults; [assumption|]|]; apply rep_take_any; assumption.
  - unfold write_defaults. rewrite defaults_ok by assumption. start; [apply defaults_range; assumption|].
    apply rep_to_defaults; assumption.
  - (* ONew *) unfold new_bf, new_without_defaults. rewrite init_store_of by assumption.
    exists (new_num bf defaults 0). split; [apply new_range; assumption|].
    split; [destruct defaults; rewrite (proj1 (new_impl_ok m bf _ 0 Hbf H0)); reflexivity|].
    apply rep_anew; assumption.
  - (* ODefault *) unfold default_bf, new_bf. rewrite init_store_of by assumption.
    destruct (a_new (b_args bf)).
    + rewrite (proj1 (new_impl_ok m bf _ 0 Hbf H0)). start; [apply new_range; assumption|]. apply rep_anew; assumption.
    + rewrite defaults_ok by assumption. start; [apply defaults_range; assumption|].
      apply rep_to_defaults; assumption.
  - (* OFrom *) rewrite from_data_ok by assumption. start; [apply from_range; assumption|].
    unfold from_num. rewrite variant_endian_eq, from_into_view_eq. cbn [fst].
    set (V := from_into_view bf _ b).
    assert (Hc : rep bf (copy_num bf (fun _ => true) V 0) (take r (fun _ => true) V))
      by (eapply rep_ext; [apply rep_take_any; eassumption|reflexivity]).
    destruct defaults; [apply rep_to_defaults; assumption|assumption].
  - rewrite trait_from_ok by assumption. start; [apply from_range; assumption|].
    unfold from_num. rewrite from_into_view_eq. cbn [fst].
    eapply rep_ext; [apply rep_take_any; eassumption|reflexivity].
Qed.

Lemma run_full m bf os : bf_ok bf -> Forall (op_ok bf) os ->
  forall v r, in_range bf v -> rep bf v r ->
  exists v', in_range bf v' /\ run m bf os (store_of bf v) = Val (store_of bf v', snd (full_run bf os r)) /\
    rep bf v' (fst (full_run bf os r)).
Proof.
  intros Hbf Hos. induction Hos as [|o os Ho Hos IH]; intros v r Hv Hr; cbn [run full_run].
  - eexists. split; [eassumption|]. split; [reflexivity|assumption].
  - destruct (full_refines m bf o v r Hbf Ho Hv Hr) as (v1 & Hv1 & E1 & Hr1).
    destruct (full_step bf o r) as [r1 b] eqn:Es. cbn [fst snd] in *.
    destruct (IH v1 r1 Hv1 Hr1) as (v2 & Hv2 & E2 & Hr2).
    rewrite E1. cbn [bind fst snd]. rewrite E2. cbn [bind fst snd].
    destruct (full_run bf os r1) as [r2 bs] eqn:Er. cbn [fst snd] in *.
    exists v2. split; [assumption|]. split; [reflexivity|assumption].
Qed.

(** ** C64 *)

Theorem C64_refines m bf os s r :
  bf_ok bf -> Forall (op_ok bf) os -> store_ok bf s ->
  (forall f, In f (b_fields bf) -> raw s f = r f) ->
  exists s', run m bf os s = Val (s', snd (full_run bf os r)) /\ store_ok bf s' /\
    (forall f, In f (b_fields bf) -> raw s' f = fst (full_run bf os r) f) /\
    (forall f, In f (b_fields bf) -> get_field m bf f s' = Val (decode f (fst (full_run bf os r) f))).
Proof.
  intros Hbf Hos Hs Hr. use_store s v. rename H into Hv.
  assert (Hr' : rep bf v r)
    by (intros f Hin; rewrite <- (Hr f Hin); unfold raw; rewrite sval_of by assumption; reflexivity).
  destruct (run_full m bf os Hbf Hos v r Hv Hr') as (v' & Hv' & E & Hrep).
  exists (store_of bf v'). split; [exact E|]. split; [apply of_ok; assumption|]. split.
  - intros f Hin. unfold raw. rewrite sval_of by assumption. apply Hrep; assumption.
  - intros f Hin. destruct Hbf as (Hbk & Hfs & Hp). rewrite get_field_ok; try assumption.
    + rewrite (Hrep f Hin). reflexivity.
    + rewrite Forall_forall in Hfs. apply Hfs; assumption.
Qed.

(** The specification of C26 is the special case of custom types that lose
    nothing. *)
Theorem C64_lossless bf os s r :
  bf_ok bf -> all_lossless bf -> Forall (op_ok bf) os -> Forall (checked_ok bf) os -> store_ok bf s ->
  (forall f, In f (b_fields bf) -> raw s f = r f) ->
  snd (full_run bf os r) = snd (spec_run bf os r) /\
  forall f, In f (b_fields bf) -> fst (full_run bf os r) f = fst (spec_run bf os r) f.
Proof.
  intros Hbf Hl Hos Hck Hs Hr.
  destruct (C26_refines Checked bf os s r Hbf Hl Hos Hck Hs Hr) as (s1 & E1 & _ & R1 & _).
  destruct (C64_refines Checked bf os s r Hbf Hos Hs Hr) as (s2 & E2 & _ & R2 & _).
  rewrite E1 in E2. injection E2 as <- E. split; [symmetry; exact E|].
  intros f Hin. rewrite <- R1, <- R2 by assumption. reflexivity.
Qed.

(** *** Stored bits and values *)

(** Converting to the type and back a second time changes nothing more. *)
Definition settled (f : field) : Prop := forall r, 0 <= r < 2 ^ f_bits f -> pass f (pass f r) = pass f r.

(** Calls that do not write bits behind the back of the conversion functions:
    no bit or range writes, and no [Default] of a declaration without [new()]
    (which leaves the bits 0 in fields without a default, see C11). *)
Definition by_conversion (bf : bitfield) (o : op) : Prop :=
  match o with
  | OSetBit _ _ | OCheckedSetBit _ _ | OSetRange _ _ _ | OCheckedSetRange _ _ _ => False
  | ODefault => a_new (b_args bf) = true
  | _ => True
  end.

Lemma default_bits_range bf f : field_ok bf f -> 0 <= default_bits f < 2 ^ f_bits f.
Proof.
  intros (Hb & _ & _ & Hw & Hd). assert (Hp : 0 < 2 ^ f_bits f) by (apply pow2_pos; lia).
  unfold default_bits, default_ok, pval_ok, width_ok in *.
  destruct (f_default f) as [[z|b|l|t]|]; try (apply Z.mod_pos_bound; assumption); [|lia].
  destruct (f_ty f) as [i| |]; try contradiction. destruct i; try contradiction.
  rewrite Hw. change (2 ^ 1) with 2. destruct b; lia.
Qed.

Lemma full_step_keeps bf o r f :
  bf_ok bf -> In f (b_fields bf) -> settled f -> default_canonical f -> by_conversion bf o -> op_ok bf o ->
  0 <= r f < 2 ^ f_bits f -> pass f (r f) = r f ->
  let r' := fst (full_step bf o r) in 0 <= r' f < 2 ^ f_bits f /\ pass f (r' f) = r' f.
Proof.
  intros Hbf Hin Hse Hdc Hby Hop Hr Hp. pose proof (bf_ok_field bf f Hbf Hin) as Hf.
  assert (Hpos : 0 < 2 ^ f_bits f) by (destruct Hf as (Hb & _); apply pow2_pos; lia).
  set (good := fun x => 0 <= x < 2 ^ f_bits f /\ pass f x = x).
  assert (Gp : forall x, 0 <= x < 2 ^ f_bits f -> good (pass f x)).
  { intros x Hx. split; [apply (pass_range bf); assumption|apply Hse; assumption]. }
  assert (Gs : forall x, good x -> good (stored f x)).
  { intros x Hx. unfold stored. destruct (writableb f); [|assumption]. apply Gp, Hx. }
  assert (Gd : f_default f <> None -> good (stored f (default_bits f))).
  { intros Hd0. unfold stored. destruct (writableb f) eqn:Ew; [apply Gp, (default_bits_range bf); assumption|].
    split; [apply (default_bits_range bf); assumption|]. unfold pass, default_bits. pose proof Hf as (_ & _ & _ & _ & Hd).
    unfold default_ok, pval_ok, default_canonical, canonical in *.
    destruct (f_default f) as [[z|b|l|t]|] eqn:Ed; destruct (f_ty f) as [i| |]; try reflexivity; try contradiction;
      try (destruct i; contradiction); try exact Hdc. }
  assert (Gz : good (stored f (pass f 0))) by (apply Gs, Gp; lia).
  assert (Gc : forall V, good (stored f (pass f (slice V (f_off f) (f_bits f)))))
    by (intros V; apply Gs, Gp, (slice_in bf); assumption).
  assert (Gr : good (r f)) by (split; assumption).
  assert (Ga : forall g x, In g (b_fields bf) -> (same_field f g = true -> f = g -> good x) -> good (aset r g x f)).
  { intros g x Hg Hx. unfold aset. destruct (same_field f g) eqn:E; [|assumption].
    apply Hx; [reflexivity|]. apply (same_field_eq bf); assumption. }
  assert (Gt : forall q, good (q f) -> good (to_defaults q f)).
  { intros q Hq. unfold to_defaults. destruct (f_default f); [apply Gd; discriminate|exact Hq]. }
  assert (Gn : forall d, good (anew d f)).
  { intros d. unfold anew. destruct (f_default f); [|exact Gz]. destruct (d || f_reserved f); [apply Gd; discriminate|exact Gz]. }
  change (let r' := fst (full_step bf o r) in good (r' f)). cbv zeta.
  destruct o; cbn [by_conversion op_ok full_step spec_step fst] in *; try contradiction; try exact Gr; try apply Gn.
  - destruct Hop as [Hg Ha]. apply Ga; [assumption|]. intros _ <-. apply Gp, Z.mod_pos_bound; assumption.
  - destruct Hop as [Hg Ha]. destruct (acceptedb bf f0 a); cbn [fst]; [|exact Gr].
    apply Ga; [assumption|]. intros _ <-. apply Gp, Z.mod_pos_bound; assumption.
  - apply Ga; [assumption|]. intros _ <-. apply Gp, (pass_range bf); [assumption|lia].
  - apply Ga; [assumption|]. intros _ <-. exact Gz.
  - destruct Hop as [Hg Ha]. apply Ga; [assumption|]. intros _ <-. exact (Gd Ha).
  - apply Gs, Gp. destruct (writableb f); lia.
  - assert (G : good (take r writableb (writing_view bf (endian_of (a_write_endian (b_args bf)) v) b) f)).
    { unfold take. destruct (writableb f); [apply Gc|exact Gr]. }
    destruct defaults; [apply Gt|]; exact G.
  - apply Gt, Gr.
  - rewrite Hby. apply Gn.
  - destruct defaults; [apply Gt|]; apply Gc.
  - apply Gc.
Qed.

(** A field whose stored bits are what its value is encoded as stays such a field
    in every history without direct bit writes. *)
Theorem C64_settled m bf os s f :
  bf_ok bf -> Forall (op_ok bf) os -> Forall (by_conversion bf) os -> store_ok bf s ->
  In f (b_fields bf) -> f_ty f = DCustom -> settled f -> default_canonical f ->
  user_into f (user_from f (raw s f)) mod 2 ^ f_bits f = raw s f ->
  exists s' bs t, run m bf os s = Val (s', bs) /\ get_field m bf f s' = Val (VCustom t) /\
    raw s' f = user_into f t mod 2 ^ f_bits f.
Proof.
  intros Hbf Hos Hby Hs Hin Hty Hse Hdc Hc.
  destruct (C64_refines m bf os s (raw s) Hbf Hos Hs ltac:(reflexivity)) as (s' & E & _ & R & G).
  assert (K : forall r, 0 <= r f < 2 ^ f_bits f -> pass f (r f) = r f ->
     pass f (fst (full_run bf os r) f) = fst (full_run bf os r) f).
  { clear - Hbf Hos Hby Hin Hse Hdc. induction os as [|o os IH]; intros r Hr Hp; cbn [full_run]; [exact Hp|].
    inversion Hos as [|? ? Ho Hos']; subst. inversion Hby as [|? ? Hb Hby']; subst.
    destruct (full_step_keeps bf o r f Hbf Hin Hse Hdc Hb Ho Hr Hp) as [H1 H2].
    destruct (full_step bf o r) as [r1 b]. cbn [fst] in *. specialize (IH Hos' Hby' r1 H1 H2).
    destruct (full_run bf os r1). exact IH. }
  exists s', (snd (full_run bf os (raw s))), (user_from f (fst (full_run bf os (raw s)) f)).
  split; [exact E|]. split; [rewrite G by assumption; unfold decode; rewrite Hty; reflexivity|].
  rewrite R by assumption. symmetry. specialize (K (raw s)). unfold pass in K. rewrite Hty in K. apply K; [|exact Hc].
  unfold raw. apply (slice_in bf). eapply bf_ok_field; eassumption.
Qed.

(** ** C64 for bitflag enums *)

(** [z] is what [into_bits()] of the variant [x] returns. *)
Definition raw_of (g : bitflag) (t : ity) (x : Bitflag.variant) (z : Z) : Prop :=
  In x (g_variants g) /\ ordered (fa_into (g_args g)) t (x_value x) z.

(** A bitflag all of whose variants fit in the field: bits that are the raw value
    of a variant are kept, all others become the raw value of the fallback. *)
Theorem C64_bitflag F e g t f r :
  parse_bitflag F e = POk g -> flag_compiles g t -> fa_from (g_args g) = fa_into (g_args g) ->
  f_ty f = DCustom -> f_codec f = flag_codec g t -> 1 <= f_bits f <= ity_bits t ->
  (forall x z, raw_of g t x z -> z < 2 ^ f_bits f) -> 0 <= r < 2 ^ f_bits f ->
  exists k x, nth_error (g_variants g) k = Some x /\ user_from f r = Z.of_nat k /\ raw_of g t x (pass f r) /\
    (pass f r = r \/ fallback (g_variants g) x /\ forall y, ~ raw_of g t y r) /\ pass f (pass f r) = pass f r.
Proof.
  intros Hp Hc He Hty Hcd Hw Hfit.
  pose proof Hc as (_ & Ht & Hnd & Hnm & Hval). rewrite Forall_forall in Hval. unfold raw_of in *.
  set (E := fa_into (g_args g)) in *.
  assert (Hpw : 2 ^ f_bits f <= 2 ^ ity_bits t) by (apply Z.pow_le_mono_r; lia).
  assert (Into : forall j y, nth_error (g_variants g) j = Some y -> user_into f (Z.of_nat j) = convert_bits E t (x_value y) /\
     ordered E t (x_value y) (convert_bits E t (x_value y)) /\ 0 <= convert_bits E t (x_value y) < 2 ^ f_bits f).
  { intros j y Hj. pose proof (nth_error_In _ _ Hj) as Hy. destruct (convert_is_ordered E t (x_value y) Ht (Hval y Hy)) as [H1 H2].
    split; [|split; [exact H1|split; [lia|apply (Hfit y); split; assumption]]].
    unfold user_into. rewrite Hcd. cbn [flag_codec cd_into cd_into_ty].
    rewrite Nat2Z.id, Hj, (C30_into_bits g t y _ Hc Hy H1). now apply uint_cast. }
  assert (From : forall r, 0 <= r < 2 ^ f_bits f -> exists j y, nth_error (g_variants g) j = Some y /\
     user_from f r = Z.of_nat j /\ (convert_bits E t (x_value y) = r \/
       fallback (g_variants g) y /\ forall y', In y' (g_variants g) -> ~ ordered E t (x_value y') r)).
  { clear r. intros r Hr. assert (Hr' : 0 <= r < 2 ^ ity_bits t) by lia.
    destruct (convert_is_ordered E t r Ht Hr') as [H1 H2].
    assert (Uf : forall j y, nth_error (g_variants g) j = Some y -> flag_from_bits g r = Val (x_name y) -> user_from f r = Z.of_nat j).
    { intros j y Hj Hl. unfold user_from. rewrite Hcd. cbn [flag_codec cd_from cd_from_ty].
      rewrite uint_cast by assumption. rewrite Hl. f_equal. apply position_nth; assumption. }
    destruct (C30_from_bits F e g t r (convert_bits E t r) Hp Hc Hr') as [L U]; [rewrite He; exact H1|].
    destruct (in_dec Z.eq_dec (convert_bits E t r) (map x_value (g_variants g))) as [I|I].
    - apply in_map_iff in I as (y & Ey & Hy). pose proof (L y Hy Ey) as Hl. apply In_nth_error in Hy as [j Hj].
      exists j, y. split; [exact Hj|]. split; [exact (Uf j y Hj Hl)|]. left. rewrite Ey. now apply convert_convert.
    - destruct U as (y & Fy & Hl); [intros y Hy Ey; apply I; rewrite <- Ey; now apply in_map|].
      assert (Hy : In y (g_variants g)) by (destruct Fy as [[Hy _]|(_ & pre & post & -> & _)]; [exact Hy|apply in_elt]).
      apply In_nth_error in Hy as [j Hj]. exists j, y. split; [exact Hj|]. split; [exact (Uf j y Hj Hl)|]. right. split; [exact Fy|].
      intros y' Hy' Ey'. apply I. apply (convert_ordered E t _ _ Ht) in Ey'. rewrite <- Ey', convert_convert by auto. now apply in_map. }
  assert (Pass : forall r, 0 <= r < 2 ^ f_bits f -> exists j y, nth_error (g_variants g) j = Some y /\
     user_from f r = Z.of_nat j /\ pass f r = convert_bits E t (x_value y) /\ (convert_bits E t (x_value y) = r \/
       fallback (g_variants g) y /\ forall y', In y' (g_variants g) -> ~ ordered E t (x_value y') r)).
  { clear r. intros r Hr. destruct (From r Hr) as (j & y & Hj & Hu & Hcase). exists j, y. split; [exact Hj|]. split; [exact Hu|].
    split; [|exact Hcase]. unfold pass. rewrite Hty, Hu. destruct (Into j y Hj) as (-> & _ & Hb). apply Z.mod_small; exact Hb. }
  intros Hr. destruct (Pass r Hr) as (k & x & Hk & Hu & Hpa & Hcase). exists k, x.
  pose proof (nth_error_In _ _ Hk) as Hx. destruct (Into k x Hk) as (_ & Ho & Hb).
  split; [exact Hk|]. split; [exact Hu|]. split; [rewrite Hpa; split; assumption|]. split.
  - destruct Hcase as [Eq|[Fb No]]; [left; congruence|]. right. split; [exact Fb|]. intros y [Hy Hoy]. exact (No y Hy Hoy).
  - rewrite Hpa. destruct (Pass _ Hb) as (k1 & x1 & Hk1 & _ & -> & [Eq|[_ No]]); [exact Eq|]. exfalso. exact (No x Hx Ho).
Qed.

(** So in a history without direct bit writes the field always holds the raw
    value of the variant that is read from it. *)
Theorem C64_bitflag_history F e g t m bf os s f :
  parse_bitflag F e = POk g -> flag_compiles g t -> fa_from (g_args g) = fa_into (g_args g) ->
  bf_ok bf -> In f (b_fields bf) -> f_ty f = DCustom -> f_codec f = flag_codec g t -> f_bits f <= ity_bits t ->
  (forall x z, raw_of g t x z -> z < 2 ^ f_bits f) -> default_canonical f ->
  Forall (op_ok bf) os -> Forall (by_conversion bf) os -> store_ok bf s -> (exists x, raw_of g t x (raw s f)) ->
  exists s' bs k x, run m bf os s = Val (s', bs) /\ nth_error (g_variants g) k = Some x /\
    get_field m bf f s' = Val (VCustom (Z.of_nat k)) /\ raw_of g t x (raw s' f).
Proof.
  intros Hp Hc He Hbf Hin Hty Hcd Hw Hfit Hdc Hos Hby Hs (x0 & Hx0).
  pose proof (bf_ok_field bf f Hbf Hin) as Hf. pose proof Hf as (Hb & _).
  pose proof (fun r => C64_bitflag F e g t f r Hp Hc He Hty Hcd (conj Hb Hw) Hfit) as B.
  destruct (C64_settled m bf os s f Hbf Hos Hby Hs Hin Hty) as (s' & bs & tv & E & G & R).
  - intros r Hr. destruct (B r Hr) as (_ & _ & _ & _ & _ & _ & H). exact H.
  - exact Hdc.
  - destruct (B (raw s f)) as (k & x & _ & _ & _ & [H|[_ H]] & _); [apply (slice_in bf); assumption| |].
    + unfold pass in H. rewrite Hty in H. exact H.
    + exfalso. exact (H x0 Hx0).
  - destruct (C64_refines m bf os s (raw s) Hbf Hos Hs ltac:(reflexivity)) as (s2 & E2 & Hs2 & _ & G2).
    rewrite E in E2. injection E2 as <- _.
    assert (Hraw : get_field m bf f s' = Val (VCustom (user_from f (raw s' f)))).
    { rewrite C05_get_is_decode by assumption. unfold decode. rewrite Hty. reflexivity. }
    rewrite G in Hraw. injection Hraw as ->.
    destruct (B (raw s' f)) as (k & x & Hk & Hu & Ho & _ & _); [apply (slice_in bf); assumption|].
    exists s', bs, k, x. split; [exact E|]. split; [exact Hk|]. split; [rewrite <- Hu; exact G|].
    unfold pass in Ho. rewrite Hty, <- R in Ho. exact Ho.
Qed.

(** ** C64 over bytes and over integers *)

Lemma full_run_same bi ba os : ty_size (b_ty bi) = ty_size (b_ty ba) -> b_fields bi = b_fields ba ->
  b_args bi = b_args ba -> Forall common os ->
  (forall o f a, In o os -> o = OCheckedSet f a -> acceptedb bi f a = acceptedb ba f a) ->
  forall r, full_run bi os r = full_run ba os r.
Proof.
  intros Hs Hf Ha Hc. induction Hc as [|o os Ho Hos IH]; intros Hac r; cbn [full_run]; [reflexivity|].
  assert (E : full_step bi o r = full_step ba o r).
  { destruct o; cbn [full_step]; try (apply spec_step_same; assumption); try contradiction Ho;
      unfold writing_view, num_reversed; rewrite ?Hs, ?Ha; try reflexivity.
    rewrite (Hac _ f a (or_introl eq_refl) eq_refl). reflexivity. }
  rewrite E. destruct (full_step ba o r). rewrite IH; [reflexivity|]. intros o' f' a' Hin. apply Hac. right; exact Hin.
Qed.

(** C29 for arbitrary conversion functions: checked setters only where the two
    checks agree. *)
Theorem C64_same_histories m bi ba os si sa :
  bf_ok bi -> bf_ok ba -> ty_size (b_ty bi) = ty_size (b_ty ba) ->
  b_fields bi = b_fields ba -> b_args bi = b_args ba ->
  Forall (op_ok bi) os -> Forall (op_ok ba) os -> Forall common os ->
  (forall o f a, In o os -> o = OCheckedSet f a -> acceptedb bi f a = acceptedb ba f a) ->
  store_ok bi si -> store_ok ba sa -> sval si = sval sa ->
  exists si' sa' bs, run m bi os si = Val (si', bs) /\ run m ba os sa = Val (sa', bs) /\
    sval si' = sval sa' /\ forall f, In f (b_fields bi) -> get_field m bi f si' = get_field m ba f sa'.
Proof.
  intros Hbi Hba Hs Hf Ha Hoi Hoa Hc Hac Hsi Hsa He.
  destruct (C64_refines m bi os si (raw si) Hbi Hoi Hsi ltac:(reflexivity)) as (si' & Ei & Hi & Ri & Gi).
  destruct (C64_refines m ba os sa (raw si) Hba Hoa Hsa) as (sa' & Ea & Hi' & Ra & Ga).
  { intros f _. unfold raw. rewrite He. reflexivity. }
  rewrite (full_run_same bi ba) in * by assumption.
  exists si', sa'. eexists. split; [exact Ei|]. split; [exact Ea|]. split.
  - use_store si' vi. use_store sa' va. rewrite !sval_of in * by assumption.
    apply (slices_determine bi); try assumption.
    + unfold in_range in *. rewrite Hs. assumption.
    + intros f Hin. pose proof (Ri f Hin) as R1. rewrite Hf in Hin. pose proof (Ra f Hin) as R2.
      unfold raw in R1, R2. rewrite sval_of in R1, R2 by assumption. congruence.
  - intros f Hin. rewrite Gi by assumption. symmetry. apply Ga. rewrite <- Hf. assumption.
Qed.

(** *** Examples *)

(** A read-write and a read-only field of a type with the values 1 and 2 only
    (everything else reads as 1), and a flag of four bits. *)
Definition ly_a : field := mkField VisPublic "a" DCustom 2 0 false ReadWrite (Some (PCustom 2)) false lossy_codec.
Definition ly_b : field := mkField VisPublic "b" DCustom 2 2 false ReadOnly (Some (PCustom 3)) false lossy_codec.
Definition ly_s : field :=
  mkField VisPublic "s" DCustom 4 4 false ReadWrite None false (flag_codec (flag_of (state_enum "u16" [])) U16).
Definition ly_bf (ty : dtype) : bitfield := mkBitfield VisPublic "Ly" ty [ly_a; ly_b; ly_s] [] default_args.
Definition ly_ops : list op :=
  [ONew true; OGet ly_b; OSet ly_s (VCustom 1); OGet ly_s; OInvert ly_a; OWrite AsBe false 0xff;
   OGet ly_s; OCheckedSet ly_a (VCustom 7); OInvertAll; OClearAll false].

Example C64_ex :
  bf_ok (ly_bf (DInteger U8)) /\ bf_ok (ly_bf (DArray 1)) /\ ~ lossless ly_a /\ ~ lossless ly_s /\
  Forall (op_ok (ly_bf (DInteger U8))) ly_ops /\ Forall (by_conversion (ly_bf (DInteger U8))) ly_ops /\
  settled ly_a /\ pass ly_a 3 = 1 /\ stored ly_b (default_bits ly_b) = 3 /\
  run Checked (ly_bf (DInteger U8)) ly_ops (StI 0) =
    Val (StI 0x75, [BNone; BVal (VCustom 1); BNone; BVal (VCustom 1); BNone; BNone; BVal (VCustom 2);
                   BRes (Err too_big); BNone; BNone]).
Proof.
  split; [apply bf_okb_ok; vm_compute; reflexivity|]. split; [apply bf_okb_ok; vm_compute; reflexivity|].
  split. { intros H. specialize (H 0 ltac:(cbn; lia)). vm_compute in H. discriminate H. }
  split. { intros H. specialize (H 5 ltac:(cbn; lia)). vm_compute in H. discriminate H. }
  split; [unfold ly_ops; opok|]. split. { repeat constructor. }
  split. { intros r Hr. change (2 ^ f_bits ly_a) with 4 in Hr.
           assert (Hc : r = 0 \/ r = 1 \/ r = 2 \/ r = 3) by lia. destruct Hc as [->|[->|[->| ->]]]; vm_compute; reflexivity. }
  split; [vm_compute; reflexivity|]. split; [vm_compute; reflexivity|]. vm_compute. reflexivity.
Qed.

(** A flag with two variants in a field of four bits. *)
Definition po_f : field :=
  mkField VisPublic "p" DCustom 4 0 false ReadWrite (Some (PCustom 1)) false (flag_codec (flag_of on_off) U8).
Definition po_bf : bitfield := mkBitfield VisPublic "Po" (DInteger U8) [po_f; rw "q" (DInteger U8) 4 4] [] default_args.
Definition po_ops : list op := [OSet po_f (VCustom 1); OInvertAll; OGet po_f; OFrom AsBe false 0xf9; OClearDefault po_f; OInvert po_f].
Example C64_bitflag_ex :
  (forall x z, raw_of (flag_of on_off) U8 x z -> z < 2 ^ f_bits po_f) /\ default_canonical po_f /\
  Forall (op_ok po_bf) po_ops /\ Forall (by_conversion po_bf) po_ops /\
  (exists x, raw_of (flag_of on_off) U8 x (raw (StI 0x20) po_f)) /\
  pass po_f 1 = 1 /\ pass po_f 14 = 0 /\
  exists s' bs k x, run Checked po_bf po_ops (StI 0x20) = Val (s', bs) /\ nth_error (g_variants (flag_of on_off)) k = Some x /\
    get_field Checked po_bf po_f s' = Val (VCustom (Z.of_nat k)) /\ raw_of (flag_of on_off) U8 x (raw s' po_f).
Proof.
  assert (H1 : forall x z, raw_of (flag_of on_off) U8 x z -> z < 2 ^ f_bits po_f).
  { intros x z [Hin Ho]. change (z = x_value x) in Ho. subst z. vm_compute in Hin.
    destruct Hin as [<-|[<-|[]]]; vm_compute; reflexivity. }
  assert (H2 : default_canonical po_f) by (vm_compute; reflexivity).
  assert (H3 : Forall (op_ok po_bf) po_ops).
  { unfold po_ops. opok. }
  assert (H4 : Forall (by_conversion po_bf) po_ops) by repeat constructor.
  assert (H5 : exists x, raw_of (flag_of on_off) U8 x (raw (StI 0x20) po_f)).
  { exists (nth 0 (g_variants (flag_of on_off)) (mkVariant "" [] 0 FLit false false)). split; [vm_compute; auto|vm_compute; reflexivity]. }
  split; [exact H1|]. split; [exact H2|]. split; [exact H3|]. split; [exact H4|]. split; [exact H5|].
  split; [vm_compute; reflexivity|]. split; [vm_compute; reflexivity|].
  apply (C64_bitflag_history no_features on_off (flag_of on_off) U8); try assumption; try reflexivity.
  - vm_compute. repeat apply conj; auto; repeat constructor; cbn; intuition discriminate.
  - apply bf_okb_ok. vm_compute. reflexivity.
  - left. reflexivity.
  - vm_compute. discriminate.
  - vm_compute. split; [discriminate|reflexivity].
Qed.
