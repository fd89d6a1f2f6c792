(** Protection of fields over histories: C27, C46. *)
From Coq Require Import ZArith List Bool Lia String.
From Verif Require Import RustInt Syntax GenInt GenArr Gen Spec BitsLemmas CoreLemmas GenLemmas
  ConvLemmas BitOpLemmas Examples PropFields PropConv PropBits Hist PropHist PropRefine.
Import ListNotations.
Open Scope Z_scope.
Ltac Zify.zify_post_hook ::= Z.to_euclidean_division_equations.

(** The field an operation names, if it writes to it. *)
Definition target (o : op) : option field :=
  match o with
  | OSet f _ | OCheckedSet f _ | OInvert f | OClear f | OClearDefault f => Some f
  | _ => None
  end.
Definition is_from (o : op) : bool :=
  match o with OFrom _ _ _ | OTraitFrom _ => true | _ => false end.

(** What an operation not naming the non-writable field [g] makes of its bits [r]. *)
Definition after (bf : bitfield) (o : op) (g : field) (r : Z) : Z :=
  match o with
  | OClearAll d | ONew d =>
      (if (d || f_reserved g) && has_default g then denc g else zenc bf g) mod 2 ^ f_bits g
  | ODefault =>
      if a_new (b_args bf) then (if has_default g then denc g else zenc bf g) mod 2 ^ f_bits g
      else if has_default g then denc g mod 2 ^ f_bits g else 0
  | OWrite _ true _ | OWriteDefaults => if has_default g then denc g mod 2 ^ f_bits g else r
  | OInvertAll => cenc bf g r mod 2 ^ f_bits g
  | _ => r
  end.

Lemma slice_other bf f g v x : bf_ok bf -> In f (b_fields bf) -> In g (b_fields bf) -> f <> g ->
  slice (splice v (f_off f) (f_bits f) x) (f_off g) (f_bits g) = slice v (f_off g) (f_bits g).
Proof.
  intros Hbf Hf Hg Hne. destruct (bf_ok_field bf f Hbf Hf) as (? & ? & _), (bf_ok_field bf g Hbf Hg) as (? & ? & _).
  apply slice_splice_other; try lia.
  destruct (FOP_In disj (b_fields bf) f g (bf_ok_disj bf Hbf) Hf Hg) as [E|[Hd|Hd]];
    [congruence|unfold disj in Hd; lia..].
Qed.

Lemma slice_guarded bf v v' g : bf_ok bf -> In g (b_fields bf) -> has_setter g = false ->
  (forall i, 0 <= i < ty_size (b_ty bf) -> access_guard bf no_setter i = true -> Z.testbit v' i = Z.testbit v i) ->
  slice v' (f_off g) (f_bits g) = slice v (f_off g) (f_bits g).
Proof.
  intros Hbf Hg Hs H. destruct (bf_ok_field bf g Hbf Hg) as (? & ? & ? & _).
  bitext i Hi. rewrite !slice_spec by lia. destruct (Z.ltb_spec i (f_bits g)); [|reflexivity].
  cbn [andb]. apply H; [lia|]. rewrite (guard_owner bf _ g) by (try assumption; unfold covers; lia).
  unfold no_setter. rewrite Hs. reflexivity.
Qed.

Ltac given := eexists; eexists; split; [|split; [reflexivity|]].

Lemma step_nonwritable m bf o v g :
  bf_ok bf -> op_ok bf o -> in_range bf v -> In g (b_fields bf) -> has_setter g = false ->
  target o <> Some g -> is_from o = false ->
  exists v' b, in_range bf v' /\ step m bf o (store_of bf v) = Val (store_of bf v', b) /\
    slice v' (f_off g) (f_bits g) = after bf o g (slice v (f_off g) (f_bits g)).
Proof.
  intros Hbf Ho Hv Hg Hns Ht Hnf. pose proof Hbf as (Hbk & _). pose proof (in_range_0 bf Hbk) as H0.
  assert (HF : forall f, In f (b_fields bf) -> field_ok bf f) by (intros; eapply bf_ok_field; eassumption).
  assert (Hot : forall f x, In f (b_fields bf) -> f <> g ->
    slice (splice v (f_off f) (f_bits f) x) (f_off g) (f_bits g) = slice v (f_off g) (f_bits g))
    by (intros; apply (slice_other bf); assumption).
  assert (Hdef : forall w, in_range bf w -> slice (defaults_num bf w) (f_off g) (f_bits g) =
    if has_default g then denc g mod 2 ^ f_bits g else slice w (f_off g) (f_bits g))
    by (intros; unfold defaults_num; apply upd_raw; assumption).
  destruct o; cbn [step op_ok target after is_from] in *; unfold ret, retr; try discriminate Hnf.
  - destruct Ho as [Hin Ha]. rewrite set_field_ok by auto. given; [apply in_range_splice; auto|].
    apply Hot; congruence.
  - destruct Ho as [Hin Ha]. rewrite checked_set_field_ok by auto.
    destruct (reject bf f a); cbn [bind fst snd]; given; try assumption; try reflexivity.
    + apply in_range_splice; auto.
    + apply Hot; congruence.
  - rewrite get_field_ok by auto. given; [assumption|reflexivity].
  - destruct (inverted_field_eq m bf f v Hbf Ho Hv) as [E Hty].
    replace (invert_field m bf f (store_of bf v)) with
      (a <- inverted_field m bf f (store_of bf v) ;; set_field m bf f a (store_of bf v))
      by (unfold invert_field, inverted_field; destruct (extract_src m bf f true (store_of bf v)); reflexivity).
    rewrite E. cbn [bind]. rewrite set_field_ok by auto. given; [apply in_range_splice; auto|].
    apply Hot; congruence.
  - destruct (inverted_field_eq m bf f v Hbf Ho Hv) as [E Hty]. rewrite E. given; [assumption|reflexivity].
  - unfold clear_field, set_zero. rewrite assign_ok by auto using zero_value_ok. given; [apply in_range_splice; auto|].
    apply Hot; congruence.
  - destruct Ho as [Hin Hd]. destruct (f_default f) as [p|] eqn:Ed; [|congruence].
    unfold clear_field_to_default. rewrite (set_default_ok m bf f p) by auto. given; [apply in_range_splice; auto|].
    apply Hot; congruence.
  - unfold clear_all. rewrite (proj1 (new_impl_ok m bf defaults v Hbf Hv)). given; [apply new_range; assumption|].
    apply new_raw; assumption.
  - rewrite invert_all_ok by assumption. given; [auto using copy_range, inv_range|].
    unfold copy_num. rewrite upd_raw by assumption. do 2 f_equal.
    apply slice_guarded with (bf := bf); try assumption. intros i Hi Hgd.
    rewrite inv_bit by (assumption || lia). rewrite Hgd. cbn [negb]. rewrite andb_false_r, ?andb_true_r.
    destruct (Z.testbit v i); reflexivity.
  - unfold set_bit. rewrite bf_size_eq. destruct (Z.leb_spec (ty_size (b_ty bf)) i); cbn [bind];
      [given; [assumption|reflexivity]|].
    destruct (access_guard bf no_setter i) eqn:Eg; cbn [bind]; [given; [assumption|reflexivity]|].
    rewrite set_bit_body_ok by (assumption || lia). given; [apply splice_bound; try lia; assumption|].
    apply slice_guarded with (bf := bf); try assumption. intros j Hj Hgd. rewrite splice_spec by lia.
    destruct (Z.eq_dec i j) as [->|]; [congruence|]. cases_bool; reflexivity.
  - unfold checked_set_bit. rewrite bf_size_eq. destruct (Z.leb_spec (ty_size (b_ty bf)) i); cbn [bind];
      [given; [assumption|reflexivity]|].
    destruct (access_guard bf no_setter i) eqn:Eg; cbn [bind]; [given; [assumption|reflexivity]|].
    rewrite set_bit_body_ok by (assumption || lia). given; [apply splice_bound; try lia; assumption|].
    apply slice_guarded with (bf := bf); try assumption. intros j Hj Hgd. rewrite splice_spec by lia.
    destruct (Z.eq_dec i j) as [->|]; [congruence|]. cases_bool; reflexivity.
  - destruct (step_total bf (OGetBit i) v Hbf Ho Hv) as (v' & b & _ & E). specialize (E m). cbn [step] in E.
    destruct (get_bit m bf i (store_of bf v)); [|discriminate]. given; [assumption|reflexivity].
  - destruct (step_total bf (OCheckedGetBit i) v Hbf Ho Hv) as (v' & b & _ & E). specialize (E m). cbn [step] in E.
    destruct (checked_get_bit m bf i (store_of bf v)); [|discriminate]. given; [assumption|reflexivity].
  - destruct Ho as [Hra Hx]. apply range_args_inv in Hra. destruct Hra as [H1 [H2|(H2 & Hl & [H3|H3])]].
    + rewrite (proj1 (proj1 (C17_out_of_range m bf off len (store_of bf x) (store_of bf v) Hbf H1) H2)).
      given; [assumption|reflexivity].
    + rewrite set_range_ok by auto using good_len_ok. apply good_len_ok in Hl. destruct Hl as [Hl _].
      given; [apply merge_range; try assumption; apply wmask_range; (assumption || lia)|].
      apply slice_guarded with (bf := bf); try assumption. intros i Hi Hgd.
      rewrite merge_bit, wmask_bit, Hgd by (assumption || lia). cbn [negb]. rewrite andb_false_r. reflexivity.
    + rewrite (proj1 (proj2 (C17_out_of_range m bf off len (store_of bf x) (store_of bf v) Hbf H1) ltac:(lia) ltac:(lia))).
      given; [assumption|reflexivity].
  - destruct Ho as [Hra Hx]. apply range_args_inv in Hra. destruct Hra as [H1 [H2|(H2 & Hl & [H3|H3])]].
    + rewrite (proj2 (proj1 (C17_out_of_range m bf off len (store_of bf x) (store_of bf v) Hbf H1) H2)).
      given; [assumption|reflexivity].
    + rewrite checked_set_range_ok by auto using good_len_ok. apply good_len_ok in Hl. destruct Hl as [Hl _].
      destruct (range_guard bf no_setter off len) eqn:E; cbn [bind fst snd]; [given; [assumption|reflexivity]|].
      given; [apply splice_bound; try lia; assumption|].
      apply slice_guarded with (bf := bf); try assumption. intros i Hi Hgd. rewrite splice_spec by lia.
      destruct (Z.leb_spec off i), (Z.ltb_spec i (off + len)); try reflexivity. exfalso.
      apply not_true_iff_false in E. apply E. apply range_guard_true; [assumption|]. exists i. auto.
    + rewrite (proj2 (proj2 (C17_out_of_range m bf off len (store_of bf x) (store_of bf v) Hbf H1) ltac:(lia) ltac:(lia))).
      given; [assumption|reflexivity].
  - destruct (step_total bf (OGetRange off len) v Hbf Ho Hv) as (v' & b & _ & E). specialize (E m). cbn [step] in E.
    destruct (get_range m bf off len (store_of bf v)); [|discriminate]. given; [assumption|reflexivity].
  - destruct (step_total bf (OCheckedGetRange off len) v Hbf Ho Hv) as (v' & b & _ & E). specialize (E m). cbn [step] in E.
    destruct (checked_get_range m bf off len (store_of bf v)); [|discriminate]. given; [assumption|reflexivity].
  - rewrite write_data_ok by assumption. given; [apply write_range; assumption|].
    unfold write_num.
    assert (Hc : forall V, slice (copy_num bf has_setter V v) (f_off g) (f_bits g) = slice v (f_off g) (f_bits g))
      by (intros; unfold copy_num; rewrite upd_raw, Hns by assumption; reflexivity).
    destruct defaults; [|apply Hc].
    rewrite Hdef by (apply copy_range; try assumption; apply cflip_range; assumption). rewrite Hc. reflexivity.
  - unfold write_defaults. rewrite defaults_ok by assumption. given; [apply defaults_range; assumption|]. auto.
  - rewrite into_data_ok by assumption. given; [assumption|reflexivity].
  - rewrite trait_into_ok by assumption. given; [assumption|reflexivity].
  - unfold new_bf, new_without_defaults. rewrite init_store_of by assumption.
    exists (new_num bf defaults 0), BNone. split; [apply new_range; assumption|].
    split; [destruct defaults; rewrite (proj1 (new_impl_ok m bf _ 0 Hbf H0)); reflexivity|].
    apply new_raw; assumption.
  - unfold default_bf, new_bf. rewrite init_store_of by assumption. destruct (a_new (b_args bf)).
    + rewrite (proj1 (new_impl_ok m bf _ 0 Hbf H0)). given; [apply new_range; assumption|].
      rewrite new_raw by assumption. reflexivity.
    + rewrite defaults_ok by assumption. given; [apply defaults_range; assumption|].
      rewrite Hdef by assumption. destruct (has_default g); [reflexivity|].
      unfold slice. rewrite Zdiv_0_l. apply Zmod_0_l.
Qed.

(** ** C27 *)

(** The operations of the claim, called as the generated API allows (the
    setter family exists only for writable fields, C34). *)
Definition protective (o : op) : Prop :=
  match o with
  | OSet f _ | OCheckedSet f _ | OInvert f | OClear f | OClearDefault f => writable f
  | OWrite _ d _ => d = false
  | OClearAll _ | OWriteDefaults | ONew _ | ODefault | OFrom _ _ _ | OTraitFrom _ => False
  | _ => True
  end.

Theorem C27_protected m bf os s g :
  bf_ok bf -> Forall (op_ok bf) os -> Forall protective os -> store_ok bf s ->
  In g (b_fields bf) -> ~ writable g -> (In OInvertAll os -> lossless g) ->
  exists s' bs, run m bf os s = Val (s', bs) /\ store_ok bf s' /\ raw s' g = raw s g.
Proof.
  intros Hbf Hos Hp Hs Hg Hw Hl. use_store s v. rename H into Hv. apply has_setter_f in Hw.
  assert (H : exists v' bs, in_range bf v' /\ run m bf os (store_of bf v) = Val (store_of bf v', bs) /\
    slice v' (f_off g) (f_bits g) = slice v (f_off g) (f_bits g)).
  { clear - Hbf Hos Hp Hg Hw Hl Hv. revert v Hv. induction Hos as [|o os Ho Hos IH]; intros v Hv; cbn [run].
    - do 2 eexists. split; [|split; reflexivity]. assumption.
    - inversion Hp as [|? ? Hpo Hp']; subst.
      assert (Hl' : In OInvertAll os -> lossless g) by (intros; apply Hl; right; assumption).
      destruct (step_nonwritable m bf o v g Hbf Ho Hv Hg Hw) as (v1 & b & Hv1 & E1 & S1).
      + intros E. destruct o; cbn [target protective] in *; try discriminate; inversion E; subst;
          apply has_setter_t in Hpo; congruence.
      + destruct o; cbn [protective is_from] in *; try reflexivity; contradiction.
      + destruct (IH Hp' Hl' v1 Hv1) as (v2 & bs & Hv2 & E2 & S2).
        exists v2. eexists. split; [assumption|]. rewrite E1. cbn [bind fst snd]. rewrite E2. cbn [bind fst snd].
        split; [reflexivity|]. rewrite S2, S1.
        destruct o; cbn [protective after] in *; try reflexivity; try contradiction.
        * apply cenc_lossless; [apply bf_ok_field; assumption|apply Hl; left; reflexivity|].
          apply (slice_in bf), bf_ok_field; assumption.
        * subst defaults. reflexivity. }
  destruct H as (v' & bs & Hv' & E & S). exists (store_of bf v'), bs.
  split; [assumption|]. split; [apply of_ok; assumption|].
  unfold raw. rewrite !sval_of by assumption. assumption.
Qed.

(** The same for bits. *)
Theorem C27_protected_bits m bf os s i :
  bf_ok bf -> Forall (op_ok bf) os -> Forall protective os -> store_ok bf s ->
  0 <= i < ty_size (b_ty bf) -> ~ bit_writable bf i -> (In OInvertAll os -> all_lossless bf) ->
  exists s' bs, run m bf os s = Val (s', bs) /\ sbit s' i = sbit s i.
Proof.
  intros Hbf Hos Hp Hs Hi Hw Hl. destruct (bf_ok_owner bf i Hbf Hi) as (g & Hg & Hc).
  destruct (C27_protected m bf os s g Hbf Hos Hp Hs Hg) as (s' & bs & E & Hs' & R).
  - intros H. apply Hw. exists g. auto.
  - intros H. apply Hl; assumption.
  - exists s', bs. split; [assumption|]. unfold sbit, raw in *.
    destruct (bf_ok_field bf g Hbf Hg) as (? & ? & _). unfold covers in Hc.
    apply (f_equal (fun z => Z.testbit z (i - f_off g))) in R. rewrite !slice_spec in R by lia.
    destruct (Z.ltb_spec (i - f_off g) (f_bits g)); [|lia]. cbn [andb] in R.
    replace (i - f_off g + f_off g) with i in R by lia. exact R.
Qed.

Example C27_ex :
  let os := [OSet ex_a (VInt 31); OSetRange 0 16 0xffff; OCheckedSetRange 10 6 0; OWrite AsBe false 0;
             OInvertAll; OSetBit 14 true; OClear ex_b] in
  Forall (op_ok ex_int) os /\ Forall protective os /\ ~ writable ex_e /\ ~ bit_writable ex_int 12 /\
  run Checked ex_int os (StI 0x6000) =
  Val (StI 0x6e1f, [BNone; BNone; BRes (Err not_writable); BNone; BNone; BNone; BNone]).
Proof.
  cbv zeta. split; [opok|]. split; [repeat constructor; auto; right; reflexivity|].
  split. { apply has_setter_f. reflexivity. }
  split. { apply (guard_not_writable ex_int 12 ex_int_ok); [cbn; lia|vm_compute; reflexivity]. }
  vm_compute. reflexivity.
Qed.

(** invert_bits copies every field through its type, so a read-only field of a
    type that does not decode every pattern is changed. *)
Definition c27_f : field := mkField VisPublic "x" DCustom 2 0 false ReadOnly None false lossy_codec.
Definition c27_bf : bitfield :=
  mkBitfield VisPublic "B" (DInteger U8) [c27_f; rw "y" (DInteger U8) 6 2] [] default_args.
Theorem C27_lossy_refuted :
  exists m s s', bf_ok c27_bf /\ store_ok c27_bf s /\ ~ writable c27_f /\
    invert_all m c27_bf s = Val s' /\ raw s' c27_f <> raw s c27_f.
Proof.
  exists Checked, (StI 3), (StI 253). split; [apply bf_okb_ok; vm_compute; reflexivity|].
  split; [cbn; lia|]. split; [apply has_setter_f; reflexivity|].
  split; [vm_compute; reflexivity|vm_compute; discriminate].
Qed.

(** ** C46 *)

(** The custom type (if any) of the field keeps what the constructors store. *)
Definition keeps_init (g : field) : Prop :=
  default_canonical g /\ (f_default g = None -> zero_canonical g).
Definition starting (o : op) : Prop :=
  match o with ONew _ | ODefault => True | _ => False end.
Definition later (o : op) : Prop :=
  is_from o = false /\ match target o with Some f => f_reserved f = false | None => True end.

Lemma reserved_no_setter g : f_reserved g = true -> has_setter g = false.
Proof. intros H. apply has_setter_f. unfold writable. intros [H1 _]. congruence. Qed.

Lemma default_bits_range bf g : field_ok bf g -> 0 <= default_bits g < 2 ^ f_bits g.
Proof.
  intros (Hb & _). assert (Hp : 0 < 2 ^ f_bits g) by (apply pow2_pos; lia).
  assert (Hp1 : 2 ^ 1 <= 2 ^ f_bits g) by (apply Z.pow_le_mono_r; lia). change (2 ^ 1) with 2 in Hp1.
  unfold default_bits. destruct (f_default g) as [[]|]; try (apply Z.mod_pos_bound; assumption); [|lia].
  destruct b; lia.
Qed.

Lemma cenc_default bf g : field_ok bf g -> f_reserved g = true -> keeps_init g ->
  cenc bf g (default_bits g) mod 2 ^ f_bits g = default_bits g.
Proof.
  intros Hf Hr [Hc Hz]. pose proof (default_bits_range bf g Hf) as Hd. apply reserved_no_setter in Hr.
  destruct (f_ty g) as [t0|len|] eqn:Et.
  - apply cenc_lossless; try assumption. unfold lossless. rewrite Et. exact I.
  - apply cenc_lossless; try assumption. unfold lossless. rewrite Et. exact I.
  - unfold cenc, raw_pval, value_variable. rewrite Et. cbn [aenc]. rewrite Hr.
    change (from_custom g) with (user_from g).
    pose proof Hf as (_ & _ & _ & _ & Hdo).
    unfold default_bits, default_canonical, canonical, zero_canonical, default_ok, pval_ok in *. rewrite Et in *.
    destruct (f_default g) as [[]|]; try contradiction; auto.
Qed.

Lemma after_default bf o g r : field_ok bf g -> f_reserved g = true -> keeps_init g -> starting o ->
  after bf o g r = default_bits g.
Proof.
  intros Hf Hr [Hc Hz] Ho. unfold keeps_init in *.
  assert (Hd : has_default g = true -> denc g mod 2 ^ f_bits g = default_bits g)
    by (intros; apply (denc_bits bf); assumption).
  assert (Hn : has_default g = false -> zenc bf g mod 2 ^ f_bits g = default_bits g /\ default_bits g = 0).
  { intros E. unfold has_default in E. unfold default_bits. destruct (f_default g); [discriminate|].
    split; [apply zenc_bits; auto|reflexivity]. }
  destruct o; cbn [starting after] in *; try contradiction.
  - rewrite Hr, orb_true_r. cbn [andb]. destruct (has_default g); [auto|apply Hn; reflexivity].
  - destruct (a_new (b_args bf)), (has_default g); auto; [apply Hn|symmetry; apply Hn]; reflexivity.
Qed.

Lemma after_keeps bf o g : field_ok bf g -> f_reserved g = true -> keeps_init g ->
  is_from o = false -> after bf o g (default_bits g) = default_bits g.
Proof.
  intros Hf Hr Hk Ho. assert (Hd : has_default g = true -> denc g mod 2 ^ f_bits g = default_bits g)
    by (intros; apply (denc_bits bf); try assumption; apply Hk).
  destruct o; try discriminate Ho; cbn [after]; try reflexivity.
  - apply (after_default bf (ONew defaults) g 0); try assumption. exact I.
  - apply cenc_default; assumption.
  - destruct defaults; [|reflexivity]. destruct (has_default g); auto.
  - destruct (has_default g); auto.
  - apply (after_default bf (ONew defaults) g 0); try assumption. exact I.
  - apply (after_default bf ODefault g 0); try assumption. exact I.
Qed.

(** From any constructor, through any history without from-conversions, a
    reserved field holds its default (0 without one). *)
Theorem C46_reserved m bf o os s g :
  bf_ok bf -> starting o -> Forall (op_ok bf) os -> Forall later os -> store_ok bf s ->
  In g (b_fields bf) -> f_reserved g = true -> keeps_init g ->
  exists s' bs, run m bf (o :: os) s = Val (s', bs) /\ store_ok bf s' /\ raw s' g = default_bits g.
Proof.
  intros Hbf Ho Hos Hla Hs Hg Hr Hk. use_store s v. rename H into Hv.
  pose proof (bf_ok_field bf g Hbf Hg) as Hf. pose proof (reserved_no_setter g Hr) as Hns.
  assert (H : forall v, in_range bf v -> slice v (f_off g) (f_bits g) = default_bits g ->
    exists v' bs, in_range bf v' /\ run m bf os (store_of bf v) = Val (store_of bf v', bs) /\
    slice v' (f_off g) (f_bits g) = default_bits g).
  { clear - Hbf Hos Hla Hg Hr Hk Hf Hns. induction Hos as [|o os Ho Hos IH]; intros v Hv Hd; cbn [run].
    - do 2 eexists. split; [|split; [reflexivity|]]; assumption.
    - inversion Hla as [|? ? [Hlo Hlt] Hla']; subst.
      destruct (step_nonwritable m bf o v g Hbf Ho Hv Hg Hns) as (v1 & b & Hv1 & E1 & S1); try assumption.
      { intros E. rewrite E in Hlt. congruence. }
      rewrite Hd, after_keeps in S1 by assumption.
      destruct (IH Hla' v1 Hv1 S1) as (v2 & bs & Hv2 & E2 & S2).
      exists v2. eexists. split; [assumption|]. rewrite E1. cbn [bind fst snd]. rewrite E2. cbn [bind fst snd].
      split; [reflexivity|assumption]. }
  destruct (step_nonwritable m bf o v g Hbf) as (v1 & b & Hv1 & E1 & S1); try assumption.
  { destruct o; try contradiction; exact I. }
  { destruct o; try contradiction; discriminate. }
  { destruct o; try contradiction; reflexivity. }
  rewrite after_default in S1 by assumption.
  destruct (H v1 Hv1 S1) as (v2 & bs & Hv2 & E2 & S2).
  exists (store_of bf v2). eexists. cbn [run]. rewrite E1. cbn [bind fst snd]. rewrite E2. cbn [bind fst snd].
  split; [reflexivity|]. split; [apply of_ok; assumption|]. unfold raw. rewrite sval_of by assumption. assumption.
Qed.

(** Only from-conversions load other bits. *)
Example C46_ex :
  keeps_init ex_r /\ f_reserved ex_r = true /\ default_bits ex_r = 1 /\
  run Checked ex_int [ONew false; OWrite AsBe true 0xffff; OInvertAll; OSetRange 0 16 0; OClearAll false] (StI 0xffff) =
    Val (StI 0x4000, [BNone; BNone; BNone; BNone; BNone]) /\
  raw (StI 0x4000) ex_r = 1 /\
  run Checked ex_int [OFrom AsBe false 0xffff] (StI 0) = Val (StI 0xffff, [BNone]).
Proof.
  split. { split; [exact I|discriminate]. }
  repeat split; vm_compute; reflexivity.
Qed.
