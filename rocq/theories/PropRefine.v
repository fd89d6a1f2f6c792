(** C26: histories refine assignments on an independent map from fields to
    numbers ([spec_run], Hist.v). *)
From Coq Require Import ZArith List Bool Lia String.
From Verif Require Import RustInt Syntax GenInt GenArr Gen Spec BitsLemmas CoreLemmas GenLemmas
  ConvLemmas BitOpLemmas Examples PropFields PropConv PropBits Hist PropHist.
Import ListNotations.
Open Scope Z_scope.
Ltac Zify.zify_post_hook ::= Z.to_euclidean_division_equations.

(** The map [r] describes the number [v]. *)
Definition rep (bf : bitfield) (v : Z) (r : amap) : Prop :=
  forall f, In f (b_fields bf) -> slice v (f_off f) (f_bits f) = r f.

(** ** The number made of all fields *)

Lemma add_disjoint a b : Z.land a b = 0 -> forall i, Z.testbit (a + b) i = Z.testbit a i || Z.testbit b i.
Proof.
  intros H i. rewrite Z.add_nocarry_lxor by assumption. rewrite Z.lxor_spec.
  apply (f_equal (fun z => Z.testbit z i)) in H. rewrite Z.land_spec, Z.bits_0 in H.
  destruct (Z.testbit a i), (Z.testbit b i); try discriminate; reflexivity.
Qed.

Lemma fold_bit (r : amap) fs :
  Forall (fun f => 1 <= f_bits f /\ 0 <= f_off f /\ 0 <= r f < 2 ^ f_bits f) fs ->
  ForallOrdPairs disj fs -> forall i, 0 <= i ->
  Z.testbit (fold_right (fun f acc => r f * 2 ^ f_off f + acc) 0 fs) i =
  existsb (fun f => coversb f i && Z.testbit (r f) (i - f_off f)) fs.
Proof.
  intros Hf Hd. induction Hd as [|f fs Hfd Hd IH]; intros i Hi; cbn [fold_right existsb].
  - apply Z.bits_0.
  - inversion Hf as [|? ? (Hb & Ho & Hr) Hf']; subst. specialize (IH Hf').
    assert (Hbit : forall j, 0 <= j -> Z.testbit (r f * 2 ^ f_off f) j = coversb f j && Z.testbit (r f) (j - f_off f)).
    { intros j Hj. rewrite <- Z.shiftl_mul_pow2, Z.shiftl_spec by lia. unfold coversb.
      destruct (Z.leb_spec (f_off f) j); cbn [andb]; [|apply Z.testbit_neg_r; lia].
      destruct (Z.ltb_spec j (f_off f + f_bits f)); cbn [andb]; [reflexivity|].
      apply (testbit_small _ (f_bits f)); lia. }
    rewrite add_disjoint; [rewrite Hbit, IH by lia; reflexivity|].
    apply Z.bits_inj_0. intros j. rewrite Z.land_spec.
    destruct (Z.lt_ge_cases j 0); [rewrite Z.testbit_neg_r by lia; reflexivity|].
    rewrite Hbit, IH by lia. destruct (coversb f j) eqn:Ec; [|reflexivity]. cbn [andb].
    replace (existsb _ fs) with false; [apply andb_false_r|]. symmetry.
    apply not_true_iff_false. rewrite existsb_exists. intros (f' & Hg & Hc).
    apply andb_true_iff in Hc. destruct Hc as [Hc _]. apply coversb_spec in Ec, Hc.
    rewrite Forall_forall in Hfd. specialize (Hfd f' Hg). unfold disj, covers in *. lia.
Qed.

Lemma whole_bit bf r i : bf_ok bf -> (forall f, In f (b_fields bf) -> 0 <= r f < 2 ^ f_bits f) ->
  0 <= i -> Z.testbit (whole bf r) i =
  existsb (fun f => coversb f i && Z.testbit (r f) (i - f_off f)) (b_fields bf).
Proof.
  intros Hbf Hr Hi. apply fold_bit; [|apply bf_ok_disj; assumption|assumption].
  apply Forall_forall. intros f Hin. destruct (bf_ok_field bf f Hbf Hin) as (Hb & Ho & _). auto.
Qed.

Lemma whole_owner bf r f i : bf_ok bf -> (forall f, In f (b_fields bf) -> 0 <= r f < 2 ^ f_bits f) ->
  In f (b_fields bf) -> covers f i -> Z.testbit (whole bf r) i = Z.testbit (r f) (i - f_off f).
Proof.
  intros Hbf Hr Hin Hc. pose proof (bf_ok_field bf f Hbf Hin) as (Hb & Ho & _).
  rewrite whole_bit by (try assumption; unfold covers in Hc; lia).
  apply eq_true_iff_eq. rewrite existsb_exists. split.
  - intros (g & Hg & H). apply andb_true_iff in H. destruct H as [H1 H2]. apply coversb_spec in H1.
    rewrite (owner_unique bf f g i); assumption.
  - intros H. exists f. split; [assumption|]. rewrite H, andb_true_r. apply coversb_spec; assumption.
Qed.

Lemma whole_high bf r i : bf_ok bf -> (forall f, In f (b_fields bf) -> 0 <= r f < 2 ^ f_bits f) ->
  ty_size (b_ty bf) <= i -> Z.testbit (whole bf r) i = false.
Proof.
  intros Hbf Hr Hi. pose proof Hbf as (Hbk & _). apply ty_size_pos in Hbk.
  rewrite whole_bit by (try assumption; lia).
  apply not_true_iff_false. rewrite existsb_exists. intros (f & Hin & H). apply andb_true_iff in H.
  destruct H as [H _]. apply coversb_spec in H. destruct (bf_ok_field bf f Hbf Hin) as (? & ? & ? & _).
  unfold covers in H. lia.
Qed.

Lemma rep_range bf v r f : bf_ok bf -> rep bf v r -> In f (b_fields bf) -> 0 <= r f < 2 ^ f_bits f.
Proof.
  intros Hbf H Hin. rewrite <- (H f Hin). apply (slice_in bf). apply bf_ok_field; assumption.
Qed.

Lemma rep_bit bf v r f i : bf_ok bf -> rep bf v r -> In f (b_fields bf) -> covers f i ->
  Z.testbit v i = Z.testbit (r f) (i - f_off f).
Proof.
  intros Hbf H Hin Hc. destruct (bf_ok_field bf f Hbf Hin) as (Hb & Ho & _). unfold covers in Hc.
  rewrite <- (H f Hin), slice_spec by lia. replace (i - f_off f + f_off f) with i by lia.
  destruct (Z.ltb_spec (i - f_off f) (f_bits f)); [reflexivity|lia].
Qed.

Lemma whole_rep bf v r : bf_ok bf -> in_range bf v -> rep bf v r -> whole bf r = v.
Proof.
  intros Hbf Hv H. pose proof Hbf as (Hbk & _). apply ty_size_pos in Hbk.
  assert (Hr : forall f, In f (b_fields bf) -> 0 <= r f < 2 ^ f_bits f) by (eauto using rep_range).
  apply Z.bits_inj'. intros i Hi. destruct (Z_lt_ge_dec i (ty_size (b_ty bf))).
  - destruct (bf_ok_owner bf i Hbf) as (f & Hin & Hc); [lia|].
    rewrite (whole_owner bf r f), (rep_bit bf v r f) by assumption. reflexivity.
  - rewrite whole_high by (assumption || lia). symmetry. apply (testbit_small _ (ty_size (b_ty bf))); [|lia].
    exact Hv.
Qed.

(** ** The booleans of the specification *)

Lemma writableb_eq f : writableb f = has_setter f.
Proof.
  apply eq_true_iff_eq. rewrite has_setter_t. unfold writableb, writable.
  destruct (f_reserved f), (f_access f); cbn [negb andb]; intuition discriminate.
Qed.
Lemma readableb_eq f : readableb f = has_read_access f.
Proof.
  apply eq_true_iff_eq. rewrite has_read_t. unfold readableb, readable.
  destruct (f_access f); intuition discriminate.
Qed.
Lemma allowed_owner bf p f i : bf_ok bf -> In f (b_fields bf) -> covers f i -> bit_allowed bf p i = p f.
Proof.
  intros Hbf Hin Hc. unfold bit_allowed. apply eq_true_iff_eq. rewrite existsb_exists. split.
  - intros (g & Hg & H). rewrite !andb_true_iff in H. destruct H as [[H1 H2] H3].
    rewrite (owner_unique bf f g i); try assumption. unfold covers. lia.
  - intros H. exists f. unfold covers in Hc. rewrite !andb_true_iff. repeat split; try assumption; lia.
Qed.
Lemma allowed_write bf i : bf_ok bf -> 0 <= i < ty_size (b_ty bf) ->
  bit_allowed bf writableb i = negb (access_guard bf no_setter i).
Proof.
  intros Hbf Hi. destruct (bf_ok_owner bf i Hbf Hi) as (f & Hin & Hc).
  rewrite (allowed_owner bf _ f), (guard_owner bf _ f), writableb_eq by assumption.
  unfold no_setter. rewrite negb_involutive. reflexivity.
Qed.
Lemma allowed_read bf i : bf_ok bf -> 0 <= i < ty_size (b_ty bf) ->
  bit_allowed bf readableb i = negb (access_guard bf no_read i).
Proof.
  intros Hbf Hi. destruct (bf_ok_owner bf i Hbf Hi) as (f & Hin & Hc).
  rewrite (allowed_owner bf _ f), (guard_owner bf _ f), readableb_eq by assumption.
  unfold no_read. rewrite negb_involutive. reflexivity.
Qed.
Lemma range_allowed_eq bf p prot off len :
  (forall i, 0 <= i < ty_size (b_ty bf) -> bit_allowed bf p i = negb (access_guard bf prot i)) ->
  0 <= off -> 0 <= len -> off + len <= ty_size (b_ty bf) ->
  range_allowed bf p off len = negb (range_guard bf prot off len).
Proof.
  intros H Ho Hl He. apply eq_true_iff_eq. unfold range_allowed. rewrite forallb_forall, negb_true_iff.
  rewrite <- not_true_iff_false, range_guard_true by assumption. split.
  - intros Ha (i & Hi & Hg). specialize (Ha (Z.to_nat (i - off))). rewrite in_seq in Ha.
    replace (off + Z.of_nat (Z.to_nat (i - off))) with i in Ha by lia.
    rewrite H, Hg in Ha by lia. discriminate Ha. lia.
  - intros Ha k Hk. apply in_seq in Hk. rewrite H by lia. apply negb_true_iff, not_true_iff_false.
    intros Hg. apply Ha. exists (off + Z.of_nat k). split; [lia|assumption].
Qed.

Lemma fitsb_eq f a : fitsb f a = true <-> fits f a.
Proof.
  unfold fitsb, fits. destruct (f_ty f) as [t|len|];
    rewrite ?andb_true_iff, ?Z.leb_le, ?Z.ltb_lt; [|tauto|tauto].
  destruct t; cbn [ity_unsigned]; rewrite ?andb_true_iff, ?Z.leb_le, ?Z.ltb_lt; tauto.
Qed.

(** ** Assignments *)

Lemma same_field_eq bf f g : bf_ok bf -> In f (b_fields bf) -> In g (b_fields bf) ->
  same_field f g = true <-> f = g.
Proof.
  intros Hbf Hf Hg. unfold same_field. rewrite Z.eqb_eq. split; [|intros ->; reflexivity].
  intros E. destruct (bf_ok_field bf f Hbf Hf) as (? & ? & _), (bf_ok_field bf g Hbf Hg) as (? & ? & _).
  apply (owner_unique bf f g (f_off f)); try assumption; unfold covers; lia.
Qed.

Lemma rep_set bf v r f x y : bf_ok bf -> rep bf v r -> In f (b_fields bf) ->
  x mod 2 ^ f_bits f = y -> rep bf (splice v (f_off f) (f_bits f) x) (aset r f y).
Proof.
  intros Hbf H Hin <- g Hg. unfold aset.
  destruct (bf_ok_field bf f Hbf Hin) as (? & ? & _). destruct (bf_ok_field bf g Hbf Hg) as (? & ? & _).
  destruct (same_field g f) eqn:E.
  - apply (same_field_eq bf) in E; try assumption. subst g. apply slice_splice_same; lia.
  - rewrite slice_splice_other; try lia; [apply H; assumption|].
    destruct (FOP_In disj (b_fields bf) f g (bf_ok_disj bf Hbf) Hin Hg) as [->|[Hd|Hd]];
      [|unfold disj in Hd; lia..].
    rewrite (proj2 (same_field_eq bf g g Hbf Hg Hg) eq_refl) in E. discriminate.
Qed.

Lemma rep_take bf v v' V r : bf_ok bf -> rep bf v r ->
  (forall i, 0 <= i < ty_size (b_ty bf) ->
     Z.testbit v' i = if access_guard bf no_setter i then Z.testbit v i else Z.testbit V i) ->
  rep bf v' (take_writable r V).
Proof.
  intros Hbf H Hb f Hin. unfold take_writable. pose proof (bf_ok_field bf f Hbf Hin) as (Hb1 & Ho & He & _).
  transitivity (if has_setter f then slice V (f_off f) (f_bits f) else slice v (f_off f) (f_bits f)).
  - bitext i Hi. destruct (has_setter f) eqn:Es; rewrite !slice_spec by lia;
      (destruct (Z.ltb_spec i (f_bits f)); [|reflexivity]); cbn [andb];
      rewrite Hb by lia; rewrite (guard_owner bf _ f) by (try assumption; unfold covers; lia);
      unfold no_setter; rewrite Es; reflexivity.
  - rewrite writableb_eq, (H f Hin). reflexivity.
Qed.

Lemma rep_fresh bf d v : bf_ok bf -> all_lossless bf -> rep bf (new_num bf d v) (fresh d).
Proof.
  intros Hbf Hl f Hin. rewrite new_raw by assumption. pose proof (bf_ok_field bf f Hbf Hin) as Hf.
  pose proof Hf as (Hb & _). specialize (Hl f Hin).
  assert (Hp : 0 < 2 ^ f_bits f) by (apply pow2_pos; lia).
  unfold fresh. destruct ((d || f_reserved f)) eqn:E; cbn [andb].
  - destruct (has_default f) eqn:Ed.
    + apply (denc_bits bf); try assumption. unfold default_canonical, canonical. unfold lossless in Hl.
      pose proof Hf as (_ & _ & _ & _ & Hdo). unfold default_ok, pval_ok in Hdo.
      destruct (f_default f) as [[]|]; auto. destruct (f_ty f) as [t0| |] eqn:Et; try contradiction;
        [destruct t0; contradiction|]. apply Hl. apply Z.mod_pos_bound; assumption.
    + rewrite zenc_bits; try assumption.
      * unfold has_default in Ed. unfold default_bits. destruct (f_default f); [discriminate|reflexivity].
      * unfold zero_canonical, lossless in *. destruct (f_ty f); auto. apply Hl. lia.
  - rewrite zenc_bits; try assumption; [reflexivity|].
    unfold zero_canonical, lossless in *. destruct (f_ty f); auto. apply Hl. lia.
Qed.

Lemma default_canonical_l bf f : field_ok bf f -> lossless f -> default_canonical f.
Proof.
  intros Hf Hl. unfold default_canonical, canonical, lossless in *.
  pose proof Hf as (Hb & _ & _ & _ & Hdo). unfold default_ok, pval_ok in Hdo.
  assert (Hp : 0 < 2 ^ f_bits f) by (apply pow2_pos; lia).
  destruct (f_default f) as [[]|]; auto. destruct (f_ty f) as [t0| |] eqn:Et; try contradiction;
    [destruct t0; contradiction|]. apply Hl. apply Z.mod_pos_bound; assumption.
Qed.

Lemma rep_defaults bf v r : bf_ok bf -> all_lossless bf -> rep bf v r ->
  rep bf (defaults_num bf v) (with_default r).
Proof.
  intros Hbf Hl H f Hin. unfold defaults_num. rewrite upd_raw by assumption.
  pose proof (bf_ok_field bf f Hbf Hin) as Hf. unfold with_default.
  destruct (has_default f) eqn:Ed.
  - rewrite (denc_bits bf) by (eauto using default_canonical_l).
    unfold has_default in Ed. destruct (f_default f); [reflexivity|discriminate].
  - unfold has_default in Ed. destruct (f_default f); [discriminate|]. apply H; assumption.
Qed.

Lemma rep_copy bf sel b v r : bf_ok bf -> all_lossless bf -> rep bf v r ->
  rep bf (copy_num bf sel b v) (fun f => if sel f then slice b (f_off f) (f_bits f) else r f).
Proof.
  intros Hbf Hl H f Hin. unfold copy_num. rewrite upd_raw by assumption.
  pose proof (bf_ok_field bf f Hbf Hin) as Hf.
  destruct (sel f); [|apply H; assumption].
  apply cenc_lossless; auto. apply (slice_in bf); assumption.
Qed.

Lemma senc_lossless bf f a : field_ok bf f -> lossless f -> has_type f a ->
  senc f a mod 2 ^ f_bits f = encode f a mod 2 ^ f_bits f.
Proof.
  intros (Hb & _) Hl Ha. destruct a; try reflexivity. cbn [senc encode]. unfold has_type, lossless in *.
  assert (Hp : 0 < 2 ^ f_bits f) by (apply pow2_pos; lia).
  destruct (f_ty f) as [t0| |]; try contradiction; [destruct t0; contradiction|].
  apply Hl. apply Z.mod_pos_bound; assumption.
Qed.

Lemma variant_endian_eq cfg v : variant_endian cfg v = endian_of cfg v.
Proof. destruct v; reflexivity. Qed.
Lemma from_into_view_eq bf e x : cflip bf (fi_flip bf e) x = from_into_view bf e x.
Proof. unfold cflip, fi_flip, from_into_view. destruct e, (is_integer_backed bf); reflexivity. Qed.
Lemma writing_view_eq bf e x : cflip bf (w_flip e) x = writing_view bf e x.
Proof. destruct e; reflexivity. Qed.

(** A checked setter is only covered on fields whose check is complete (C07). *)
Definition checked_ok (bf : bitfield) (o : op) : Prop :=
  match o with OCheckedSet f _ => checkable bf f | _ => True end.

(** ** One step *)

Ltac found := do 2 eexists; split; [|split; [|split; [reflexivity|split; reflexivity]]].
Ltac start := eexists; split; [|split; [reflexivity|]].

Lemma rep_ext bf v r r' : rep bf v r -> (forall f, In f (b_fields bf) -> r f = r' f) -> rep bf v r'.
Proof. intros H E f Hin. rewrite <- E by assumption. apply H; assumption. Qed.

(** Calls that pass values through the conversion functions of fields on the way
    into the storage. *)
Definition converting (o : op) : bool :=
  match o with
  | OGet _ | OInverted _ | OSetBit _ _ | OCheckedSetBit _ _ | OGetBit _ | OCheckedGetBit _
  | OSetRange _ _ _ | OCheckedSetRange _ _ _ | OGetRange _ _ | OCheckedGetRange _ _ | OInto _ | OTraitInto => false
  | _ => true
  end.

Lemma step_plain m bf o v r :
  bf_ok bf -> converting o = false -> op_ok bf o -> in_range bf v -> rep bf v r ->
  exists v', in_range bf v' /\ step m bf o (store_of bf v) = Val (store_of bf v', snd (spec_step bf o r)) /\
    rep bf v' (fst (spec_step bf o r)).
Proof.
  intros Hbf Hnc Ho Hv Hr. pose proof Hbf as (Hbk & _). pose proof (in_range_0 bf Hbk) as H0.
  pose proof (whole_rep bf v r Hbf Hv Hr) as Hwh.
  assert (HF : forall f, In f (b_fields bf) -> field_ok bf f) by (intros; eapply bf_ok_field; eassumption).
  assert (Hsv : forall w, in_range bf w -> sval (store_of bf w) = w) by (intros; apply sval_of; assumption).
  destruct o; try discriminate Hnc; clear Hnc; cbn [step op_ok spec_step] in *; unfold ret, retr.
  - (* OGet *) rewrite get_field_ok by auto. cbn [bind]. rewrite (Hr f Ho). start; assumption.
  - (* OInverted *) destruct (inverted_field_eq m bf f v Hbf Ho Hv) as [E Ht]. rewrite E. cbn [bind].
    rewrite (Hr f Ho). start; assumption.
  - (* OSetBit *) unfold set_bit. rewrite bf_size_eq, Hwh.
    destruct (Z.leb_spec (ty_size (b_ty bf)) i), (Z.ltb_spec i (ty_size (b_ty bf))); try lia.
    { start; assumption. }
    destruct (access_guard bf no_setter i) eqn:Eg; cbn [bind].
    + start; [assumption|]. eapply rep_take; try eassumption. intros j Hj.
      destruct (access_guard bf no_setter j) eqn:Ej; [reflexivity|]. rewrite splice_spec by lia.
      destruct (Z.eq_dec i j) as [->|]; [congruence|]. cases_bool; reflexivity.
    + rewrite set_bit_body_ok by (assumption || lia). start; [apply splice_bound; try lia; assumption|].
      eapply rep_take; try eassumption. intros j Hj.
      destruct (access_guard bf no_setter j) eqn:Ej; [|destruct b; reflexivity]. rewrite splice_spec by lia.
      destruct (Z.eq_dec i j) as [->|]; [congruence|]. cases_bool; reflexivity.
  - unfold checked_set_bit. rewrite bf_size_eq, Hwh.
    destruct (Z.leb_spec (ty_size (b_ty bf)) i); [start; assumption|].
    rewrite allowed_write by (assumption || lia).
    destruct (access_guard bf no_setter i) eqn:Eg; cbn [bind negb]; [start; assumption|].
    rewrite set_bit_body_ok by (assumption || lia). start; [apply splice_bound; try lia; assumption|].
    eapply rep_take; try eassumption. intros j Hj.
    destruct (access_guard bf no_setter j) eqn:Ej; [|destruct b; reflexivity]. rewrite splice_spec by lia.
    destruct (Z.eq_dec i j) as [->|]; [congruence|]. cases_bool; reflexivity.
  - unfold get_bit. rewrite bf_size_eq, Hwh.
    destruct (Z.leb_spec (ty_size (b_ty bf)) i), (Z.ltb_spec i (ty_size (b_ty bf))); try lia.
    { start; assumption. }
    rewrite allowed_read by (assumption || lia).
    destruct (access_guard bf no_read i) eqn:Eg; cbn [bind negb andb]; [start; assumption|].
    rewrite get_bit_body_ok by (assumption || lia). start; assumption.
  - unfold checked_get_bit. rewrite bf_size_eq, Hwh.
    destruct (Z.leb_spec (ty_size (b_ty bf)) i); [start; assumption|].
    rewrite allowed_read by (assumption || lia).
    destruct (access_guard bf no_read i) eqn:Eg; cbn [bind negb andb]; [start; assumption|].
    rewrite get_bit_body_ok by (assumption || lia). start; assumption.
  - (* OSetRange *) destruct Ho as [Hra Hx]. apply range_args_inv in Hra. rewrite Hwh.
    destruct Hra as [H1 [H2|(H2 & Hg & [H3|H3])]].
    + destruct (Z.leb_spec (ty_size (b_ty bf)) off); [|lia]. cbn [orb].
      rewrite (proj1 (proj1 (C17_out_of_range m bf off len (store_of bf x) (store_of bf v) Hbf H1) H2)).
      start; assumption.
    + destruct (Z.leb_spec (ty_size (b_ty bf)) off), (Z.ltb_spec (ty_size (b_ty bf)) (off + len)); try lia.
      cbn [orb]. rewrite set_range_ok by auto using good_len_ok. apply good_len_ok in Hg. destruct Hg as [Hg _].
      assert (Hw : in_range bf (wmask bf no_setter off len)) by (apply wmask_range; (assumption || lia)).
      start; [apply merge_range; assumption|].
      eapply rep_take; try eassumption. intros i Hi.
      rewrite merge_bit, wmask_bit, splice_spec by (assumption || lia).
      destruct (access_guard bf no_setter i); cbn [negb]; [rewrite andb_false_r; reflexivity|].
      rewrite andb_true_r, Z.shiftl_spec by lia. reflexivity.
    + destruct (Z.leb_spec (ty_size (b_ty bf)) off), (Z.ltb_spec (ty_size (b_ty bf)) (off + len)); try lia.
      cbn [orb].
      rewrite (proj1 (proj2 (C17_out_of_range m bf off len (store_of bf x) (store_of bf v) Hbf H1) ltac:(lia) ltac:(lia))).
      start; assumption.
  - destruct Ho as [Hra Hx]. apply range_args_inv in Hra. rewrite Hwh.
    destruct Hra as [H1 [H2|(H2 & Hg & [H3|H3])]].
    + destruct (Z.leb_spec (ty_size (b_ty bf)) off); [|lia].
      rewrite (proj2 (proj1 (C17_out_of_range m bf off len (store_of bf x) (store_of bf v) Hbf H1) H2)).
      start; assumption.
    + destruct (Z.leb_spec (ty_size (b_ty bf)) off), (Z.ltb_spec (ty_size (b_ty bf)) (off + len)); try lia.
      rewrite checked_set_range_ok by auto using good_len_ok. apply good_len_ok in Hg. destruct Hg as [Hg _].
      rewrite (range_allowed_eq bf writableb no_setter) by (try lia; intros; apply allowed_write; assumption).
      destruct (range_guard bf no_setter off len) eqn:E; cbn [negb bind fst snd]; [start; assumption|].
      start; [apply splice_bound; try lia; assumption|].
      eapply rep_take; try eassumption. intros i Hi. rewrite splice_spec by lia.
      destruct (access_guard bf no_setter i) eqn:Eg; [|reflexivity].
      destruct (Z.leb_spec off i), (Z.ltb_spec i (off + len)); try reflexivity. exfalso.
      apply not_true_iff_false in E. apply E. apply range_guard_true; [assumption|]. exists i. auto.
    + destruct (Z.leb_spec (ty_size (b_ty bf)) off), (Z.ltb_spec (ty_size (b_ty bf)) (off + len)); try lia.
      rewrite (proj2 (proj2 (C17_out_of_range m bf off len (store_of bf x) (store_of bf v) Hbf H1) ltac:(lia) ltac:(lia))).
      start; assumption.
  - (* OGetRange *) apply range_args_inv in Ho. destruct Ho as [H1 [H2|(H2 & Hg & [H3|H3])]].
    + unfold get_range. rewrite bf_size_eq.
      destruct (Z.leb_spec (ty_size (b_ty bf)) off); [|lia]. cbn [bind orb fst snd].
      rewrite init_store_of, Hsv by assumption. start; assumption.
    + destruct (Z.leb_spec (ty_size (b_ty bf)) off), (Z.ltb_spec (ty_size (b_ty bf)) (off + len)); try lia.
      cbn [orb fst snd]. rewrite get_range_ok by auto using good_len_ok. apply good_len_ok in Hg. destruct Hg as [Hg _].
      cbn [bind]. exists v. split; [assumption|]. split; [|assumption].
      do 3 f_equal.
      assert (Hrr : in_range bf (rget bf off len v)).
      { unfold in_range. apply bound_of_bits; [lia|]. intros i Hi. rewrite rget_bit by (assumption || lia).
        destruct (Z.ltb_spec i len); [lia|reflexivity]. }
      rewrite Hsv by assumption. bitext i Hi. rewrite rget_bit, slice_spec by (assumption || lia).
      destruct (Z.ltb_spec i len); [|reflexivity]. cbn [andb].
      destruct (bf_ok_owner bf (i + off) Hbf) as (f & Hin & Hc); [lia|].
      rewrite (whole_owner bf _ f); try assumption.
      * rewrite (guard_owner bf _ f) by assumption. unfold no_read. rewrite (negb_involutive (has_read_access f)), (readableb_eq f).
        rewrite (rep_bit bf v r f) by assumption.
        destruct (has_read_access f); [apply andb_true_r|]. rewrite Z.bits_0. apply andb_false_r.
      * intros g Hgin. pose proof (rep_range bf v r g Hbf Hr Hgin).
        destruct (readableb g); lia.
    + unfold get_range. rewrite bf_size_eq.
      destruct (Z.leb_spec (ty_size (b_ty bf)) off), (Z.ltb_spec (ty_size (b_ty bf)) (off + len)); try lia.
      rewrite length_guard_out by lia. cbn [bind orb fst snd]. rewrite init_store_of, Hsv by assumption.
      start; assumption.
  - apply range_args_inv in Ho. rewrite Hwh. destruct Ho as [H1 [H2|(H2 & Hg & [H3|H3])]].
    + unfold checked_get_range. rewrite bf_size_eq.
      destruct (Z.leb_spec (ty_size (b_ty bf)) off); [|lia]. start; assumption.
    + destruct (Z.leb_spec (ty_size (b_ty bf)) off), (Z.ltb_spec (ty_size (b_ty bf)) (off + len)); try lia.
      rewrite checked_get_range_ok by auto using good_len_ok. apply good_len_ok in Hg. destruct Hg as [Hg _].
      rewrite (range_allowed_eq bf readableb no_read) by (try lia; intros; apply allowed_read; assumption).
      destruct (range_guard bf no_read off len) eqn:E; cbn [negb bind fst snd res_map]; [start; assumption|].
      rewrite Hsv; [start; assumption|].
      unfold in_range. apply bound_of_bits; [lia|]. intros i Hi. rewrite slice_spec by lia.
      destruct (Z.ltb_spec i len); [lia|reflexivity].
    + unfold checked_get_range. rewrite bf_size_eq.
      destruct (Z.leb_spec (ty_size (b_ty bf)) off), (Z.ltb_spec (ty_size (b_ty bf)) (off + len)); try lia.
      rewrite length_guard_out by lia. start; assumption.
  - (* OInto *) rewrite into_data_ok by assumption. cbn [bind fst snd].
    rewrite Hsv by (apply cflip_range; assumption). rewrite variant_endian_eq, from_into_view_eq, Hwh.
    start; assumption.
  - rewrite trait_into_ok by assumption. cbn [bind fst snd].
    rewrite Hsv by (apply cflip_range; assumption). rewrite from_into_view_eq, Hwh.
    start; assumption.
Qed.

Lemma step_refines m bf o v r :
  bf_ok bf -> all_lossless bf -> op_ok bf o -> checked_ok bf o -> in_range bf v -> rep bf v r ->
  exists v', in_range bf v' /\ step m bf o (store_of bf v) = Val (store_of bf v', snd (spec_step bf o r)) /\
    rep bf v' (fst (spec_step bf o r)).
Proof.
  intros Hbf Hl Ho Hck Hv Hr.
  destruct (converting o) eqn:Hcv; [|apply step_plain; assumption].
  pose proof Hbf as (Hbk & _). pose proof (in_range_0 bf Hbk) as H0.
  pose proof (whole_rep bf v r Hbf Hv Hr) as Hwh.
  assert (HF : forall f, In f (b_fields bf) -> field_ok bf f) by (intros; eapply bf_ok_field; eassumption).
  assert (Hsv : forall w, in_range bf w -> sval (store_of bf w) = w) by (intros; apply sval_of; assumption).
  destruct o; try discriminate Hcv; clear Hcv; cbn [step op_ok checked_ok spec_step] in *; unfold ret, retr.
  - (* OSet *) destruct Ho as [Hin Ha]. rewrite set_field_ok by auto. start.
    + apply in_range_splice; auto.
    + apply rep_set; try assumption. apply (senc_lossless bf); auto.
  - (* OCheckedSet *) destruct Ho as [Hin Ha]. rewrite checked_set_field_ok by auto.
    pose proof (reject_fits bf f a Hbf Hin Ha Hck) as Hrf. rewrite <- fitsb_eq in Hrf.
    destruct (reject bf f a), (fitsb f a); try (intuition discriminate); cbn [bind fst snd].
    + start; assumption.
    + start; [apply in_range_splice; auto|]. apply rep_set; try assumption. apply (senc_lossless bf); auto.
  - (* OInvert *)
    pose proof (HF f Ho) as Hf.
    pose proof (slice_in bf f v Hf) as Hsl. pose proof (Hr f Ho) as Er.
    destruct (inverted_field_eq m bf f v Hbf Ho Hv) as [E Ht].
    replace (invert_field m bf f (store_of bf v)) with
      (a <- inverted_field m bf f (store_of bf v) ;; set_field m bf f a (store_of bf v))
      by (unfold invert_field, inverted_field; destruct (extract_src m bf f true (store_of bf v)); reflexivity).
    rewrite E. cbn [bind]. rewrite set_field_ok by auto. start; [apply in_range_splice; auto|].
    apply rep_set; try assumption. rewrite Er in *.
    pose proof (senc_value bf f (2 ^ f_bits f - 1 - r f) Hf (Hl f Ho) ltac:(lia)) as Hs.
    etransitivity; [|exact Hs]. f_equal. f_equal. unfold inverted_value.
    pose proof Hf as (Hb & _ & _ & Hw & _). unfold width_ok in Hw.
    destruct (f_ty f) as [t|len|]; try reflexivity. destruct t; try reflexivity.
    rewrite Hw in *. f_equal. change (2 ^ 1) with 2 in *.
    destruct (Z.eqb_spec (2 - 1 - r f) 0), (Z.eqb_spec (r f) 0); try reflexivity; lia.
  - (* OClear *) unfold clear_field, set_zero. rewrite assign_ok by auto using zero_value_ok. start.
    + apply in_range_splice; auto.
    + apply rep_set; try assumption. apply zenc_bits; auto.
      pose proof (Hl f Ho) as Hlf. destruct (HF f Ho) as (Hb & _).
      unfold zero_canonical, lossless in *. destruct (f_ty f); auto. apply Hlf.
      split; [lia|apply pow2_pos; lia].
  - (* OClearDefault *) destruct Ho as [Hin Hd]. destruct (f_default f) as [p|] eqn:Ed; [|congruence].
    unfold clear_field_to_default. rewrite (set_default_ok m bf f p) by auto. start.
    + apply in_range_splice; auto.
    + apply rep_set; try assumption. pose proof (HF f Hin) as Hf.
      pose proof (denc_bits bf f Hf) as Hdb. unfold denc in Hdb. rewrite Ed in Hdb. apply Hdb.
      * unfold has_default. rewrite Ed. reflexivity.
      * eapply default_canonical_l; eauto.
  - (* OClearAll *) unfold clear_all. rewrite (proj1 (new_impl_ok m bf defaults v Hbf Hv)). start.
    + apply new_range; assumption.
    + apply rep_fresh; assumption.
  - (* OInvertAll *)
    destruct (invert_fieldwise m bf (store_of bf v) Hbf ltac:(apply of_ok; assumption)) as (s' & E & Hok & H).
    use_store s' v'. rewrite E. start; [assumption|].
    intros f Hin. specialize (H f Hin (Hl f Hin)). unfold raw in H. rewrite !Hsv in H by assumption.
    cbn [fst]. rewrite H, writableb_eq, (Hr f Hin). reflexivity.
  - (* OWrite *) rewrite write_data_ok by assumption. start; [apply write_range; assumption|].
    unfold write_num. rewrite variant_endian_eq, writing_view_eq. cbn [fst].
    set (V := writing_view bf _ b).
    assert (Hrc : rep bf (copy_num bf has_setter V v) (take_writable r V)).
    { eapply rep_ext; [apply rep_copy; eassumption|]. intros f Hin. cbn beta. unfold take_writable.
      rewrite writableb_eq. reflexivity. }
    destruct defaults; [apply rep_defaults; assumption|assumption].
  - unfold write_defaults. rewrite defaults_ok by assumption. start; [apply defaults_range; assumption|].
    apply rep_defaults; assumption.
  - (* ONew *) unfold new_bf, new_without_defaults. rewrite init_store_of by assumption.
    exists (new_num bf defaults 0). split; [apply new_range; assumption|].
    split; [destruct defaults; rewrite (proj1 (new_impl_ok m bf _ 0 Hbf H0)); reflexivity|].
    apply rep_fresh; assumption.
  - (* ODefault *) rewrite C11_default_trait; try assumption.
    + unfold new_bf. rewrite init_store_of by assumption.
      rewrite (proj1 (new_impl_ok m bf _ 0 Hbf H0)). start; [apply new_range; assumption|].
      apply rep_fresh; assumption.
    + intros f Hin _. pose proof (Hl f Hin) as Hlf. destruct (HF f Hin) as (Hb & _).
      unfold zero_canonical, lossless in *. destruct (f_ty f); auto. apply Hlf.
      split; [lia|apply pow2_pos; lia].
  - (* OFrom *) rewrite from_data_ok by assumption. start; [apply from_range; assumption|].
    unfold from_num. rewrite variant_endian_eq, from_into_view_eq. cbn [fst].
    set (V := from_into_view bf _ b).
    assert (Hrc : rep bf (copy_num bf (fun _ => true) V 0) (take_all V)).
    { eapply rep_ext; [apply (rep_copy bf _ V 0 (fun f => slice 0 (f_off f) (f_bits f))); try assumption|].
      - intros f Hin. reflexivity.
      - intros f Hin. reflexivity. }
    destruct defaults; [apply rep_defaults; assumption|assumption].
  - rewrite trait_from_ok by assumption. start; [apply from_range; assumption|].
    unfold from_num. rewrite from_into_view_eq. cbn [fst].
    set (V := from_into_view bf _ b).
    eapply rep_ext; [apply (rep_copy bf _ V 0 (fun f => slice 0 (f_off f) (f_bits f))); try assumption|].
    + intros f Hin. reflexivity.
    + intros f Hin. reflexivity.
Qed.

Lemma run_refines m bf os : bf_ok bf -> all_lossless bf -> Forall (op_ok bf) os -> Forall (checked_ok bf) os ->
  forall v r, in_range bf v -> rep bf v r ->
  exists v', in_range bf v' /\ run m bf os (store_of bf v) = Val (store_of bf v', snd (spec_run bf os r)) /\
    rep bf v' (fst (spec_run bf os r)).
Proof.
  intros Hbf Hl Hos Hck. induction Hos as [|o os Ho Hos IH]; intros v r Hv Hr; cbn [run spec_run].
  - eexists. split; [eassumption|]. split; [reflexivity|assumption].
  - inversion Hck as [|? ? Hc Hck']; subst.
    destruct (step_refines m bf o v r Hbf Hl Ho Hc Hv Hr) as (v1 & Hv1 & E1 & Hr1).
    destruct (spec_step bf o r) as [r1 b] eqn:Es. cbn [fst snd] in *.
    destruct (IH Hck' v1 r1 Hv1 Hr1) as (v2 & Hv2 & E2 & Hr2).
    rewrite E1. cbn [bind fst snd]. rewrite E2. cbn [bind fst snd].
    destruct (spec_run bf os r1) as [r2 bs] eqn:Er. cbn [fst snd] in *.
    exists v2. split; [assumption|]. split; [reflexivity|assumption].
Qed.

(** ** C26 *)

(** Any history, run from any state, returns on every call what the abstract
    history returns, and leaves in every field what the abstract one leaves. *)
Theorem C26_refines m bf os s r :
  bf_ok bf -> all_lossless bf -> Forall (op_ok bf) os -> Forall (checked_ok bf) os -> store_ok bf s ->
  (forall f, In f (b_fields bf) -> raw s f = r f) ->
  exists s', run m bf os s = Val (s', snd (spec_run bf os r)) /\ store_ok bf s' /\
    (forall f, In f (b_fields bf) -> raw s' f = fst (spec_run bf os r) f) /\
    (forall f, In f (b_fields bf) -> get_field m bf f s' = Val (decode f (fst (spec_run bf os r) f))).
Proof.
  intros Hbf Hl Hos Hck Hs Hr. use_store s v. rename H into Hv.
  assert (Hr' : rep bf v r)
    by (intros f Hin; rewrite <- (Hr f Hin); unfold raw; rewrite sval_of by assumption; reflexivity).
  destruct (run_refines m bf os Hbf Hl Hos Hck v r Hv Hr') as (v' & Hv' & E & Hrep).
  exists (store_of bf v'). split; [exact E|]. split; [apply of_ok; assumption|]. split.
  - intros f Hin. unfold raw. rewrite sval_of by assumption. apply Hrep; assumption.
  - intros f Hin. destruct Hbf as (Hbk & Hfs & Hp). rewrite get_field_ok; try assumption.
    + rewrite (Hrep f Hin). reflexivity.
    + rewrite Forall_forall in Hfs. apply Hfs; assumption.
Qed.

(** The abstract states of a refinement step determine the concrete state, so
    two histories with the same abstract effect end in the same bits. *)
Theorem C26_same_effect m bf os1 os2 s r :
  bf_ok bf -> all_lossless bf -> Forall (op_ok bf) os1 -> Forall (op_ok bf) os2 ->
  Forall (checked_ok bf) os1 -> Forall (checked_ok bf) os2 -> store_ok bf s ->
  (forall f, In f (b_fields bf) -> raw s f = r f) ->
  (forall f, In f (b_fields bf) -> fst (spec_run bf os1 r) f = fst (spec_run bf os2 r) f) ->
  exists s' bs1 bs2, run m bf os1 s = Val (s', bs1) /\ run m bf os2 s = Val (s', bs2).
Proof.
  intros Hbf Hl Ho1 Ho2 Hc1 Hc2 Hs Hr He.
  destruct (C26_refines m bf os1 s r Hbf Hl Ho1 Hc1 Hs Hr) as (s1 & E1 & Hs1 & Hr1 & _).
  destruct (C26_refines m bf os2 s r Hbf Hl Ho2 Hc2 Hs Hr) as (s2 & E2 & Hs2 & Hr2 & _).
  assert (s1 = s2).
  { apply (C47_fields_determine bf); try assumption. intros f Hin. rewrite Hr1, Hr2 by assumption. auto. }
  subst s2. eauto.
Qed.

Example C26_ex :
  let os := [OSet ex_a (VInt 200); OCheckedSet ex_b (VInt 9); OSetRange 3 20 7; OSetRange 3 10 0x155; OInvertAll;
             OGet ex_b; OGetRange 2 5; OWrite AsLe false 0x1234; OInto AsBe] in
  Forall (op_ok ex_int) os /\ Forall (checked_ok ex_int) os /\
  (forall f, In f (b_fields ex_int) -> raw (StI 0) f = (fun _ => 0) f) /\
  run Checked ex_int os (StI 0) =
  Val (StI 0x412, [BNone; BRes (Err too_big); BNone; BNone; BNone; BVal (VInt (-6)); BNum 21; BNone; BNum 0x412]) /\
  snd (spec_run ex_int os (fun _ => 0)) =
  [BNone; BRes (Err too_big); BNone; BNone; BNone; BVal (VInt (-6)); BNum 21; BNone; BNum 0x412].
Proof.
  cbv zeta. split; [opok|]. split; [repeat constructor; cbn; lia|].
  split. { intros f Hin. unfold raw, slice. cbn [sval]. rewrite Zdiv_0_l, Zmod_0_l. reflexivity. }
  split; vm_compute; reflexivity.
Qed.
