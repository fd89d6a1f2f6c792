(** Builder (C22), array against integer backing (C29), nesting (C38). *)
From Coq Require Import ZArith List Bool Lia String.
From Verif Require Import RustInt Syntax GenInt GenArr Gen Spec BitsLemmas CoreLemmas GenLemmas
  ConvLemmas BitOpLemmas Examples PropFields PropConv PropBits Hist PropHist PropRefine PropAccess.
From Verif Require PropExact.
Import ListNotations.
Open Scope Z_scope.
Ltac Zify.zify_post_hook ::= Z.to_euclidean_division_equations.

(** ** C22 *)

(** A link of a builder chain: [.with_x(a)] or [.checked_with_x(a)?]. *)
Inductive link := LWith (f : field) (a : fval) | LChecked (f : field) (a : fval).
Definition link_field (l : link) : field := match l with LWith f _ | LChecked f _ => f end.
Definition link_arg (l : link) : fval := match l with LWith _ a | LChecked _ a => a end.

(** The chain on the storage of the builder; [.build()] returns it
    (builder_feature.rs:183-189). *)
Fixpoint chain (m : mode) (bf : bitfield) (ls : list link) (s : store) : outcome (res store) :=
  match ls with
  | [] => Val (Ok s)
  | LWith f a :: t => s' <- with_field m bf f a s ;; chain m bf t s'
  | LChecked f a :: t =>
      r <- checked_with_field m bf f a s ;;
      match r with Ok s' => chain m bf t s' | Err e => Val (Err e) end
  end.

(** The calls type check; checked calls are on fields whose check is complete. *)
Definition link_ok (bf : bitfield) (l : link) : Prop :=
  In (link_field l) (b_fields bf) /\ has_type (link_field l) (link_arg l) /\
  match l with LChecked f _ => checkable bf f | _ => True end.
Definition link_fits (l : link) : Prop :=
  match l with LChecked f a => fits f a | _ => True end.
(** The same for any field: the calls type check, and the values are those the
    check lets through (C07_exact). *)
Definition link_typed (bf : bitfield) (l : link) : Prop :=
  In (link_field l) (b_fields bf) /\ has_type (link_field l) (link_arg l).
Definition link_passes (bf : bitfield) (l : link) : Prop :=
  match l with LChecked f a => PropExact.passes bf f a | _ => True end.
Definition as_sets (ls : list link) : list op := map (fun l => OSet (link_field l) (link_arg l)) ls.

Lemma builder_arg_id f a : has_type f a -> builder_arg f a = a.
Proof.
  unfold builder_arg, has_type. destruct (f_ty f) as [t| |]; try reflexivity.
  destruct t; try reflexivity; destruct a; try contradiction; intros H; rewrite cast_id by assumption; reflexivity.
Qed.
Lemma with_field_set m bf f a s : has_type f a -> with_field m bf f a s = set_field m bf f a s.
Proof. intros H. unfold with_field. rewrite builder_arg_id by assumption. destruct (has_setter f); reflexivity. Qed.
Lemma checked_with_field_set m bf f a s : has_type f a ->
  checked_with_field m bf f a s =
  (r <- checked_set_field m bf f a s ;; match snd r with Ok _ => Val (Ok (fst r)) | Err e => Val (Err e) end).
Proof.
  intros H. unfold checked_with_field. rewrite builder_arg_id by assumption. destruct (has_setter f); reflexivity.
Qed.

Lemma chain_num m bf ls : bf_ok bf -> Forall (link_typed bf) ls -> forall v, in_range bf v ->
  (Forall (link_passes bf) ls ->
     exists v' bs, in_range bf v' /\ chain m bf ls (store_of bf v) = Val (Ok (store_of bf v')) /\
       run m bf (as_sets ls) (store_of bf v) = Val (store_of bf v', bs)) /\
  (Exists (fun l => ~ link_passes bf l) ls -> chain m bf ls (store_of bf v) = Val (Err too_big)).
Proof.
  intros Hbf Hls. induction Hls as [|l ls (Hin & Ht) Hls IH]; intros v Hv; cbn [chain as_sets map run].
  - split; [intros _; do 2 eexists; split; [|split; reflexivity]; assumption|].
    intros H. inversion H.
  - pose proof Hbf as (Hbk & _). pose proof (bf_ok_field bf _ Hbf Hin) as Hf.
    pose proof (in_range_splice bf (link_field l) v (senc (link_field l) (link_arg l)) Hf Hv) as Hv1.
    destruct (IH _ Hv1) as [IH1 IH2].
    pose proof (set_field_ok m bf _ _ v Hbk Hf Hv Ht) as Es.
    pose proof (checked_set_field_ok m bf _ _ v Hbk Hf Hv Ht) as Ec.
    assert (Hrun : forall v' bs, run m bf (as_sets ls) (store_of bf (splice v (f_off (link_field l)) (f_bits (link_field l))
         (senc (link_field l) (link_arg l)))) = Val (store_of bf v', bs) ->
       (r <- step m bf (OSet (link_field l) (link_arg l)) (store_of bf v) ;;
        q <- run m bf (as_sets ls) (fst r) ;; Val (fst q, snd r :: snd q)) = Val (store_of bf v', BNone :: bs)).
    { intros v' bs E. cbn [step]. unfold ret. rewrite Es. cbn [bind fst snd]. rewrite E. reflexivity. }
    destruct l as [f a|f a]; cbn [link_field link_arg] in *.
    + rewrite with_field_set, Es by assumption. cbn [bind]. split.
      * intros H. inversion H; subst. destruct IH1 as (v' & bs & Hv' & E1 & E2); [assumption|].
        exists v'. eexists. split; [assumption|]. split; [assumption|]. apply Hrun. eassumption.
      * intros H. inversion H as [? ? Hn|]; subst; [exfalso; apply Hn; exact I|]. apply IH2; assumption.
    + rewrite checked_with_field_set, Ec by assumption.
      pose proof (PropExact.reject_passes bf f a Ht) as Hrf.
      destruct (reject bf f a) eqn:Er; cbn [bind fst snd].
      * split; [|reflexivity]. intros H. inversion H as [|? ? Hfit]; subst. apply Hrf in Hfit. discriminate.
      * split.
        -- intros H. inversion H; subst. destruct IH1 as (v' & bs & Hv' & E1 & E2); [assumption|].
           exists v'. eexists. split; [assumption|]. split; [assumption|]. apply Hrun. eassumption.
        -- intros H. inversion H as [? ? Hn|]; subst; [exfalso; apply Hn, Hrf; reflexivity|]. apply IH2; assumption.
Qed.

Lemma link_ok_typed bf ls : bf_ok bf -> Forall (link_ok bf) ls ->
  Forall (link_typed bf) ls /\ (Forall link_fits ls <-> Forall (link_passes bf) ls) /\
  (Exists (fun l => ~ link_fits l) ls <-> Exists (fun l => ~ link_passes bf l) ls).
Proof.
  intros Hbf Hls.
  assert (K : forall l, link_ok bf l -> (link_fits l <-> link_passes bf l)).
  { intros [f a|f a] (Hin & Ht & Hck); cbn [link_fits link_passes link_field link_arg] in *; [tauto|].
    rewrite <- (reject_fits bf f a Hbf Hin Ht Hck). apply PropExact.reject_passes, Ht. }
  split; [eapply Forall_impl; [|exact Hls]; intros l (H1 & H2 & _); split; assumption|].
  rewrite !Forall_forall, !Exists_exists. rewrite Forall_forall in Hls.
  split; split; [intros H l Hl; apply K; auto|intros H l Hl; apply K; auto| |];
    intros (l & Hl & Hn); exists l; (split; [exact Hl|]); intro H; apply Hn, K; auto.
Qed.

(** The chain on a new builder gives [new()] with the assignments in order, or
    the error of a checked value that the check does not let through. *)
Theorem C22_exact m bf d ls :
  bf_ok bf -> Forall (link_typed bf) ls ->
  exists s0, builder_new m bf d = Val s0 /\ (if d then new_bf m bf else new_without_defaults m bf) = Val s0 /\
    store_ok bf s0 /\
    (Forall (link_passes bf) ls ->
       exists s' bs, chain m bf ls s0 = Val (Ok s') /\ run m bf (as_sets ls) s0 = Val (s', bs) /\ store_ok bf s') /\
    (Exists (fun l => ~ link_passes bf l) ls ->
       chain m bf ls s0 = Val (Err "Value is too big to fit within the field bits."%string)).
Proof.
  intros Hbf Hls. pose proof Hbf as (Hbk & _). pose proof (in_range_0 bf Hbk) as H0.
  destruct (C11_builder_new m bf) as [B1 B2].
  assert (Hn : (if d then new_bf m bf else new_without_defaults m bf) = Val (store_of bf (new_num bf d 0))).
  { unfold new_bf, new_without_defaults. rewrite init_store_of by assumption.
    destruct d; apply (new_impl_ok m bf _ 0 Hbf H0). }
  assert (Hr : in_range bf (new_num bf d 0)) by (apply new_range; assumption).
  exists (store_of bf (new_num bf d 0)). split; [destruct d; congruence|]. split; [exact Hn|].
  split; [apply of_ok; assumption|].
  destruct (chain_num m bf ls Hbf Hls _ Hr) as [H1 H2]. split; [|exact H2].
  intros Hf. destruct (H1 Hf) as (v' & bs & Hv' & E1 & E2). exists (store_of bf v'), bs.
  split; [assumption|]. split; [assumption|apply of_ok; assumption].
Qed.

(** On fields whose check is complete these are the values that fit. *)
Theorem C22_builder m bf d ls :
  bf_ok bf -> Forall (link_ok bf) ls ->
  exists s0, builder_new m bf d = Val s0 /\ (if d then new_bf m bf else new_without_defaults m bf) = Val s0 /\
    store_ok bf s0 /\
    (Forall link_fits ls ->
       exists s' bs, chain m bf ls s0 = Val (Ok s') /\ run m bf (as_sets ls) s0 = Val (s', bs) /\ store_ok bf s') /\
    (Exists (fun l => ~ link_fits l) ls ->
       chain m bf ls s0 = Val (Err "Value is too big to fit within the field bits."%string)).
Proof.
  intros Hbf Hls. destruct (link_ok_typed bf ls Hbf Hls) as (Ht & H1 & H2). 
  destruct (C22_exact m bf d ls Hbf Ht) as (s0 & E & N & S & K1 & K2). rewrite <- H1 in K1. rewrite <- H2 in K2. eauto 8.
Qed.

(** Whether a chain succeeds does not depend on the state of the builder. *)
Theorem C22_fails_iff m bf ls s :
  bf_ok bf -> Forall (link_ok bf) ls -> store_ok bf s ->
  ((exists s', chain m bf ls s = Val (Ok s')) <-> Forall link_fits ls).
Proof.
  intros Hbf Hls Hs. use_store s v. rename H into Hv.
  destruct (link_ok_typed bf ls Hbf Hls) as (Ht & K1 & K2).
  destruct (chain_num m bf ls Hbf Ht v Hv) as [H1 H2]. rewrite <- K1 in H1. rewrite <- K2 in H2. split.
  - intros (s' & E). apply Forall_forall. intros l Hin.
    assert (Hdec : link_fits l \/ ~ link_fits l).
    { destruct l as [f a|f a]; [left; exact I|]. cbn [link_fits]. rewrite <- fitsb_eq.
      destruct (fitsb f a); [left; reflexivity|right; discriminate]. }
    destruct Hdec as [|Hn]; [assumption|]. exfalso. rewrite H2 in E; [discriminate|].
    apply Exists_exists. eauto.
  - intros Hf. destruct (H1 Hf) as (v' & bs & _ & E & _). eauto.
Qed.

(** Fields not named by the chain (reserved fields have no [with_x], C34) keep
    what the constructor stored. *)
Theorem C22_other_fields m bf d ls g s' :
  bf_ok bf -> Forall (link_typed bf) ls -> In g (b_fields bf) ->
  Forall (fun l => link_field l <> g) ls ->
  (s0 <- builder_new m bf d ;; chain m bf ls s0) = Val (Ok s') ->
  exists s0, builder_new m bf d = Val s0 /\ raw s' g = raw s0 g.
Proof.
  intros Hbf Hls Hg Hne E. destruct (C22_exact m bf d ls Hbf Hls) as (s0 & E0 & _ & Hs0 & _).
  exists s0. split; [assumption|]. rewrite E0 in E. cbn [bind] in E. clear E0.
  use_store s0 v. rename H into Hv. unfold raw at 2. rewrite sval_of by assumption.
  clear - Hbf Hls Hg Hne E Hv. revert v Hv E.
  induction Hls as [|l ls (Hin & Ht) Hls IH]; intros v Hv E; cbn [chain] in E.
  - inversion E; subst. unfold raw. rewrite sval_of by assumption. reflexivity.
  - inversion Hne as [|? ? Hl Hne']; subst.
    pose proof Hbf as (Hbk & _). pose proof (bf_ok_field bf _ Hbf Hin) as Hf.
    pose proof (in_range_splice bf (link_field l) v (senc (link_field l) (link_arg l)) Hf Hv) as Hv1.
    pose proof (slice_other bf (link_field l) g v (senc (link_field l) (link_arg l)) Hbf Hin Hg Hl) as So.
    destruct l as [f a|f a]; cbn [link_field link_arg] in *.
    + rewrite with_field_set, set_field_ok in E by assumption. cbn [bind] in E.
      rewrite (IH Hne' _ Hv1 E). exact So.
    + rewrite checked_with_field_set, checked_set_field_ok in E by assumption.
      destruct (reject bf f a); cbn [bind fst snd] in E; [discriminate|].
      rewrite (IH Hne' _ Hv1 E). exact So.
Qed.

(** A [u32] value with zero low bits passes the check of a field of a [u8]
    bitfield (C07). *)
Example C22_exact_ex :
  link_typed c07_bf (LChecked c07_f (VInt 256)) /\ link_passes c07_bf (LChecked c07_f (VInt 256)) /\
  ~ link_fits (LChecked c07_f (VInt 256)) /\ chain Checked c07_bf [LChecked c07_f (VInt 256)] (StI 0x0f) = Val (Ok (StI 0)).
Proof.
  split; [split; [left; reflexivity|vm_compute; split; [discriminate|reflexivity]]|].
  split; [vm_compute; reflexivity|]. split; [intros [_ H]; vm_compute in H; discriminate H|]. vm_compute. reflexivity.
Qed.
Example C22_ex :
  let ls := [LWith ex_a (VInt 9); LChecked ex_b (VInt (-8)); LWith ex_e (VInt 3)] in
  Forall (link_ok ex_int) ls /\ Forall link_fits ls /\
  chain Checked ex_int ls (StI 0x61a0) = Val (Ok (StI 0x7109)) /\
  chain Checked ex_int [LChecked ex_b (VInt 8); LWith ex_a (VInt 1)] (StI 0x61a0) = Val (Err too_big).
Proof.
  cbv zeta. split.
  { repeat constructor; cbn; auto; unfold in_ity; cbn; lia. }
  split; [repeat constructor; cbn; lia|].
  split; vm_compute; reflexivity.
Qed.

(** ** C29 *)

(** Operations whose arguments and results do not mention the backing type's
    byte order. *)
Definition common (o : op) : Prop :=
  match o with OInto _ | OTraitInto | OFrom _ _ _ | OTraitFrom _ => False | _ => True end.

Lemma spec_step_same bi ba o r : ty_size (b_ty bi) = ty_size (b_ty ba) -> b_fields bi = b_fields ba ->
  b_args bi = b_args ba -> common o -> spec_step bi o r = spec_step ba o r.
Proof.
  intros Hs Hf Ha Hc.
  destruct o; cbn [common] in Hc; try contradiction; cbn [spec_step];
    unfold whole, bit_allowed, range_allowed, bit_allowed, writing_view, num_reversed;
    rewrite ?Hs, ?Hf, ?Ha; reflexivity.
Qed.
Lemma spec_run_same bi ba os : ty_size (b_ty bi) = ty_size (b_ty ba) -> b_fields bi = b_fields ba ->
  b_args bi = b_args ba -> Forall common os -> forall r, spec_run bi os r = spec_run ba os r.
Proof.
  intros Hs Hf Ha Hc. induction Hc as [|o os Ho Hos IH]; intros r; cbn [spec_run]; [reflexivity|].
  rewrite (spec_step_same bi ba) by assumption. destruct (spec_step ba o r). rewrite IH. reflexivity.
Qed.

(** The same declaration over an integer and over as many bytes: the same
    history of common operations returns the same values and ends in the same
    number. *)
Theorem C29_same_histories m bi ba os si sa :
  bf_ok bi -> bf_ok ba -> all_lossless bi ->
  is_integer_backed bi = true -> is_integer_backed ba = false -> ty_size (b_ty bi) = ty_size (b_ty ba) ->
  b_fields bi = b_fields ba -> b_args bi = b_args ba ->
  Forall (op_ok bi) os -> Forall (op_ok ba) os -> Forall (checked_ok bi) os -> Forall (checked_ok ba) os ->
  Forall common os -> store_ok bi si -> store_ok ba sa -> sval si = sval sa ->
  exists si' sa' bs, run m bi os si = Val (si', bs) /\ run m ba os sa = Val (sa', bs) /\
    sval si' = sval sa' /\ forall f, In f (b_fields bi) -> get_field m bi f si' = get_field m ba f sa'.
Proof.
  intros Hbi Hba Hl _ _ Hs Hf Ha Hoi Hoa Hci Hca Hc Hsi Hsa He.
  assert (Hla : all_lossless ba) by (unfold all_lossless in *; rewrite <- Hf; assumption).
  destruct (C26_refines m bi os si (raw si) Hbi Hl Hoi Hci Hsi ltac:(reflexivity)) as (si' & Ei & Hi & Ri & Gi).
  destruct (C26_refines m ba os sa (raw si) Hba Hla Hoa Hca Hsa) as (sa' & Ea & Hi' & Ra & Ga).
  { intros f _. unfold raw. rewrite He. reflexivity. }
  rewrite (spec_run_same bi ba) in * by assumption.
  exists si', sa'. eexists. split; [exact Ei|]. split; [exact Ea|]. split.
  - use_store si' vi. use_store sa' va. rewrite !sval_of in * by assumption.
    apply (slices_determine bi); try assumption.
    + unfold in_range in *. rewrite Hs. assumption.
    + intros f Hin. pose proof (Ri f Hin) as R1. rewrite Hf in Hin. pose proof (Ra f Hin) as R2.
      unfold raw in R1, R2. rewrite sval_of in R1, R2 by assumption. congruence.
  - intros f Hin. rewrite Gi by assumption. symmetry. apply Ga. rewrite <- Hf. assumption.
Qed.

Lemma from_view_eq bi ba sel V : b_fields bi = b_fields ba ->
  ty_size (b_ty bi) = ty_size (b_ty ba) -> bf_ok bi -> bf_ok ba -> all_lossless bi -> in_range bi V ->
  copy_num bi sel V 0 = copy_num ba sel V 0.
Proof.
  intros Hf Hs Hbi Hba Hl HV. pose proof Hbi as (Hki & _). pose proof Hba as (Hka & _).
  assert (HVa : in_range ba V) by (unfold in_range in *; rewrite <- Hs; assumption).
  pose proof (copy_range ba sel V 0 Hba HVa (in_range_0 ba Hka)) as Hra.
  apply (slices_determine bi); try assumption.
  - apply copy_range; auto using in_range_0.
  - unfold in_range in *. rewrite Hs. assumption.
  - intros f Hin. unfold copy_num. rewrite upd_raw by assumption.
    assert (Hina : In f (b_fields ba)) by (rewrite <- Hf; assumption).
    rewrite upd_raw by assumption. destruct (sel f); [|reflexivity].
    pose proof (bf_ok_field bi f Hbi Hin) as Hfi. pose proof (bf_ok_field ba f Hba Hina) as Hfa.
    rewrite !cenc_lossless; auto; apply (slice_in bi); assumption.
Qed.

(** Conversions: the bytes of [into_le_bytes] are the little-endian, those of
    [into_be_bytes] the big-endian bytes of [into_be_bits]. *)
Theorem C29_into_bytes m bi ba n si sa :
  bf_ok bi -> bf_ok ba -> is_integer_backed bi = true -> b_ty ba = DArray n ->
  ty_size (b_ty bi) = ty_size (b_ty ba) -> store_ok bi si -> store_ok ba sa -> sval si = sval sa ->
  exists x, into_data m bi AsBe si = Val (StI x) /\
    into_data m ba AsLe sa = Val (StA (le_bytes (Z.to_nat n) x)) /\
    into_data m ba AsBe sa = Val (StA (rev (le_bytes (Z.to_nat n) x))).
Proof.
  intros Hbi Hba Hi Hn Hs Hsi Hsa He. pose proof Hbi as (Hki & _). pose proof Hba as (Hka & _).
  use_store si x. use_store sa y. rewrite !sval_of in He by assumption. subst y.
  rewrite !into_data_ok by assumption. cbn [variant_endian fi_flip]. rewrite Hi. cbn [negb cflip].
  replace (is_integer_backed ba) with false by (unfold is_integer_backed; rewrite Hn; reflexivity).
  cbn [negb cflip]. exists x. unfold store_of. rewrite Hn.
  unfold is_integer_backed in Hi. destruct (b_ty bi); try discriminate.
  split; [reflexivity|]. split; [reflexivity|]. do 2 f_equal.
  assert (Hpos : 0 < n) by (rewrite Hn in Hka; apply Hka).
  rewrite (nbytes_arr ba n Hn Hpos). symmetry. apply rev_bytes.
Qed.

(** Likewise for the from-conversions. *)
Theorem C29_from_bytes m bi ba n d x :
  bf_ok bi -> bf_ok ba -> all_lossless bi -> is_integer_backed bi = true -> b_ty ba = DArray n ->
  ty_size (b_ty bi) = ty_size (b_ty ba) -> b_fields bi = b_fields ba ->
  store_ok bi (StI x) ->
  exists si sl sb, from_data m bi AsBe d (StI x) = Val si /\
    from_data m ba AsLe d (StA (le_bytes (Z.to_nat n) x)) = Val sl /\
    from_data m ba AsBe d (StA (rev (le_bytes (Z.to_nat n) x))) = Val sb /\
    sval sl = sval si /\ sval sb = sval si.
Proof.
  intros Hbi Hba Hl Hi Hn Hs Hf Hx. pose proof Hbi as (Hki & _). pose proof Hba as (Hka & _).
  assert (Hla : all_lossless ba) by (unfold all_lossless in *; rewrite <- Hf; assumption).
  destruct (store_inv bi (StI x) Hbi Hx) as (v & E & Hv & Hsx). rewrite <- E in Hsx. cbn [sval] in Hsx. subst v.
  assert (Hva : in_range ba x) by (unfold in_range in *; rewrite <- Hs; assumption).
  assert (Hpos : 0 < n) by (rewrite Hn in Hka; apply Hka).
  assert (Hia : is_integer_backed ba = false) by (unfold is_integer_backed; rewrite Hn; reflexivity).
  assert (E1 : StA (le_bytes (Z.to_nat n) x) = store_of ba x) by (unfold store_of; rewrite Hn; reflexivity).
  assert (E2 : StA (rev (le_bytes (Z.to_nat n) x)) = store_of ba (cflip ba true x)).
  { rewrite rev_bytes. unfold store_of, cflip. rewrite Hn, (nbytes_arr ba n Hn Hpos). reflexivity. }
  assert (Hrv : in_range ba (cflip ba true x)) by (apply cflip_range; assumption).
  rewrite E, E1, E2, !from_data_ok by assumption.
  do 3 eexists. split; [reflexivity|]. split; [reflexivity|]. split; [reflexivity|].
  rewrite !sval_of by (try assumption; apply from_range; assumption).
  unfold from_num. cbn [variant_endian fi_flip]. rewrite Hi, Hia. cbn [negb].
  replace (cflip ba true (cflip ba true x)) with x by (symmetry; apply cflip_cflip; assumption).
  cbn [cflip]. rewrite <- (from_view_eq bi ba) by assumption.
  unfold defaults_num. rewrite Hf. split; reflexivity.
Qed.

Definition c29_arr : bitfield := mkBitfield VisPublic "ExInt" (DArray 2) (b_fields ex_int) [] default_args.
Example C29_ex :
  bf_ok c29_arr /\ b_fields c29_arr = b_fields ex_int /\
  run Checked ex_int [ONew true; OSet ex_a (VInt 3); OInvertAll; OWrite AsLe false 0x1234; OGetRange 1 9] (StI 0) =
    Val (StI 0x6412, [BNone; BNone; BNone; BNone; BNum 0x9]) /\
  run Checked c29_arr [ONew true; OSet ex_a (VInt 3); OInvertAll; OWrite AsLe false 0x1234; OGetRange 1 9] (StA [0; 0]) =
    Val (StA [0x12; 0x64], [BNone; BNone; BNone; BNone; BNum 0x9]).
Proof.
  split; [apply bf_okb_ok; vm_compute; reflexivity|]. repeat split; vm_compute; reflexivity.
Qed.

(** ** C38 *)

(** An integer backed bitfield as the type of a field: its [from_bits] and
    [into_bits] are the conversions of the custom type (GH:321-336, 588-628
    call [Ty::from_bits(x as _)] and [x.into_bits() as _]).  A value of the
    type is the number it stores. *)
Definition inner_codec (m : mode) (bf : bitfield) (t : ity) : codec :=
  mkCodec t (fun z => match from_data m bf Configured false (StI z) with Val s => sval s | Panic => 0 end)
          t (fun z => match into_data m bf Configured (StI z) with Val s => sval s | Panic => 0 end).

Lemma inner_num m bf t r : bf_ok bf -> all_lossless bf -> b_ty bf = DInteger t -> in_range bf r ->
  a_from_endian (b_args bf) = a_into_endian (b_args bf) ->
  exists s, from_data m bf Configured false (StI r) = Val (StI s) /\ in_range bf s /\
    into_data m bf Configured (StI s) = Val (StI r) /\ (a_from_endian (b_args bf) = Big -> s = r).
Proof.
  intros Hbf Hl Ht Hr He.
  destruct (C08_into_from m bf Configured (StI r) Hbf Hl) as (s & E & Hs & E').
  { unfold store_ok. rewrite Ht. unfold in_range in Hr. rewrite Ht in Hr. exact Hr. }
  { intros _. exact He. }
  use_store s v. rewrite E. unfold store_of in *. rewrite Ht in *. exists v. split; [reflexivity|].
  split; [assumption|]. split; [assumption|]. intros HB.
  pose proof (into_data_ok m bf Configured v Hbf H) as Ei. unfold store_of in Ei. rewrite Ht in Ei.
  rewrite Ei in E'. cbn [variant_endian fi_flip] in E'. rewrite <- He, HB in E'. cbn [fi_flip] in E'.
  unfold is_integer_backed in E'. rewrite Ht in E'. cbn [negb cflip] in E'. congruence.
Qed.

Theorem C38_nested_lossless m bf t f :
  bf_ok bf -> all_lossless bf -> b_ty bf = DInteger t ->
  a_from_endian (b_args bf) = a_into_endian (b_args bf) ->
  f_ty f = DCustom -> f_codec f = inner_codec m bf t -> 0 <= f_bits f <= ity_bits t -> lossless f.
Proof.
  intros Hbf Hl Ht He Hf Hc Hn. unfold lossless. rewrite Hf. intros r Hr.
  pose proof Hbf as (Hbk & _). rewrite Ht in Hbk. cbn [backing_ok] in Hbk. destruct Hbk as [Hu Hnb].
  assert (Hp : 2 ^ f_bits f <= 2 ^ ity_bits t) by (apply Z.pow_le_mono_r; lia).
  assert (Hcr : forall z, 0 <= z < 2 ^ ity_bits t -> cast t z = z)
    by (intros; apply cast_id; unfold in_ity; rewrite Hu; lia).
  unfold user_into, user_from. rewrite Hc. cbn [cd_from cd_into cd_from_ty cd_into_ty inner_codec].
  assert (Hir : in_range bf r) by (unfold in_range; rewrite Ht; cbn [ty_size]; lia).
  destruct (inner_num m bf t r Hbf Hl Ht Hir He) as (s & E1 & Hs & E2 & _).
  rewrite (Hcr r) by lia. rewrite E1. cbn [sval]. rewrite E2. cbn [sval].
  rewrite (Hcr r) by lia. apply Z.mod_small. lia.
Qed.

(** Setting the outer field and reading it back gives the same inner value;
    with big-endian conversions (the default) the inner getters read the
    corresponding bits of the outer bitfield. *)
Theorem C38_nested_set_get m bf t bo f z s :
  bf_ok bf -> all_lossless bf -> b_ty bf = DInteger t ->
  a_from_endian (b_args bf) = a_into_endian (b_args bf) ->
  bf_ok bo -> In f (b_fields bo) -> f_ty f = DCustom -> f_codec f = inner_codec m bf t ->
  f_bits f = ity_bits t -> store_ok bf (StI z) -> store_ok bo s ->
  exists s', set_field m bo f (VCustom z) s = Val s' /\ store_ok bo s' /\
    get_field m bo f s' = Val (VCustom z) /\
    (a_from_endian (b_args bf) = Big ->
     forall g, In g (b_fields bf) ->
       get_field m bf g (StI z) = Val (decode g (slice (sval s') (f_off f + f_off g) (f_bits g)))).
Proof.
  intros Hbf Hl Ht He Hbo Hin Hf Hc Hn Hz Hs.
  pose proof Hbf as (Hbk & _). pose proof Hbo as (Hbko & _).
  pose proof Hbk as Hbt. rewrite Ht in Hbt. cbn [backing_ok] in Hbt. destruct Hbt as [Hu Hnb].
  pose proof (bf_ok_field bo f Hbo Hin) as Hfo.
  destruct (store_inv bf (StI z) Hbf Hz) as (z' & Ez & Hzr & Hzv). rewrite <- Ez in Hzv. cbn [sval] in Hzv. subst z'.
  assert (Hzr2 : 0 <= z < 2 ^ ity_bits t) by (unfold in_range in Hzr; rewrite Ht in Hzr; exact Hzr).
  assert (Hll : lossless f) by (apply (C38_nested_lossless m bf t); auto; destruct Hfo as (? & _); lia).
  assert (Hcr : forall z, 0 <= z < 2 ^ ity_bits t -> cast t z = z)
    by (intros; apply cast_id; unfold in_ity; rewrite Hu; lia).
  (* into_bits of z *)
  pose proof (into_data_ok m bf Configured z Hbf Hzr) as Ei.
  set (w := cflip bf (fi_flip bf (variant_endian (a_into_endian (b_args bf)) Configured)) z) in *.
  assert (Hw : in_range bf w) by (apply cflip_range; assumption).
  assert (Hw2 : 0 <= w < 2 ^ ity_bits t) by (unfold in_range in Hw; rewrite Ht in Hw; exact Hw).
  assert (Hui : user_into f z = w).
  { unfold user_into. rewrite Hc. cbn [cd_into cd_into_ty inner_codec]. rewrite Ez, Ei.
    unfold store_of. rewrite Ht. cbn [sval]. apply Hcr; assumption. }
  assert (Huf : user_from f w = z).
  { unfold user_from. rewrite Hc. cbn [cd_from cd_from_ty inner_codec]. rewrite (Hcr w) by assumption.
    destruct (inner_num m bf t w Hbf Hl Ht Hw He) as (x & E1 & Hx & E2 & _). rewrite E1. cbn [sval].
    pose proof (into_data_ok m bf Configured x Hbf Hx) as Ex.
    unfold store_of in Ex. rewrite Ht in Ex. rewrite Ex in E2.
    assert (E3 : cflip bf (fi_flip bf (variant_endian (a_into_endian (b_args bf)) Configured)) x = w) by congruence.
    unfold w in E3. apply (f_equal (cflip bf (fi_flip bf (variant_endian (a_into_endian (b_args bf)) Configured)))) in E3.
    rewrite !cflip_cflip in E3 by assumption. assumption. }
  use_store s v. rename H into Hv.
  assert (Hty : has_type f (VCustom z)) by (unfold has_type; rewrite Hf; exact I).
  rewrite set_field_ok by assumption.
  assert (Hse : senc f (VCustom z) = w).
  { cbn [senc]. rewrite Hui, Z.mod_small by (rewrite Hn; lia). rewrite Huf. exact Hui. }
  rewrite Hse.
  pose proof (in_range_splice bo f v w Hfo Hv) as Hv'.
  eexists. split; [reflexivity|]. split; [apply of_ok; assumption|].
  pose proof Hfo as (Hb1 & Ho1 & _).
  split.
  - rewrite get_field_ok by assumption. rewrite slice_splice_same by lia.
    rewrite Z.mod_small by (rewrite Hn; lia). unfold decode. rewrite Hf, Huf. reflexivity.
  - intros HB g Hg. rewrite Ez. pose proof (bf_ok_field bf g Hbf Hg) as Hfg.
    rewrite get_field_ok by assumption. rewrite sval_of by assumption. do 2 f_equal.
    assert (Hwz : w = z).
    { unfold w. rewrite <- He, HB. cbn [variant_endian fi_flip]. unfold is_integer_backed. rewrite Ht.
      reflexivity. }
    rewrite Hwz. destruct Hfg as (Hb2 & Ho2 & He2 & _). rewrite Ht in He2. cbn [ty_size] in He2.
    bitext i Hi. rewrite !slice_spec, splice_spec by lia. destruct (Z.ltb_spec i (f_bits g)); [|reflexivity].
    cbn [andb]. destruct (Z.leb_spec (f_off f) (i + (f_off f + f_off g))); [|lia].
    destruct (Z.ltb_spec (i + (f_off f + f_off g)) (f_off f + f_bits f)); [|lia]. cbn [andb].
    f_equal. lia.
Qed.

(** [ex_int] (16 bits) as the middle field of a u32 bitfield. *)
Definition c38_f : field := mkField VisPublic "inner" DCustom 16 8 false ReadWrite None false (inner_codec Checked ex_int U16).
Definition c38_bf : bitfield :=
  mkBitfield VisPublic "Outer" (DInteger U32) [rw "lo" (DInteger U8) 8 0; c38_f; rw "hi" (DInteger U8) 8 24] [] default_args.
Example C38_ex :
  bf_ok c38_bf /\ In c38_f (b_fields c38_bf) /\
  set_field Checked c38_bf c38_f (VCustom 0x1234) (StI 0xff0000ff) = Val (StI 0xff1234ff) /\
  get_field Checked c38_bf c38_f (StI 0xff1234ff) = Val (VCustom 0x1234) /\
  get_field Checked ex_int ex_b (StI 0x1234) = Val (VInt 1).
Proof.
  split; [apply bf_okb_ok; vm_compute; reflexivity|]. split; [cbn; auto|].
  repeat split; vm_compute; reflexivity.
Qed.
