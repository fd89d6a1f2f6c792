(** Histories: C23, C24, C25, C26, C27, C46. *)
From Coq Require Import ZArith List Bool Lia String.
From Verif Require Import RustInt Syntax GenInt GenArr Gen Spec BitsLemmas CoreLemmas GenLemmas
  ConvLemmas BitOpLemmas Examples PropFields PropConv PropBits Hist.
Import ListNotations.
Open Scope Z_scope.
Ltac Zify.zify_post_hook ::= Z.to_euclidean_division_equations.

(** ** Every well-formed call has a result independent of the overflow mode *)

Lemma range_args_inv bf off len : range_args bf off len ->
  0 <= off /\ (ty_size (b_ty bf) <= off \/
    off < ty_size (b_ty bf) /\ good_len bf len /\
    (off + len <= ty_size (b_ty bf) \/ ty_size (b_ty bf) < off + len < 2 ^ 32)).
Proof.
  unfold range_args. fold (good_len bf len). intros [H1 H2]. split; [assumption|].
  destruct (Z.le_gt_cases (ty_size (b_ty bf)) off); [left; assumption|].
  right. destruct H2 as [|[Hl He]]; [lia|]. split; [lia|]. split; [assumption|]. lia.
Qed.

Lemma inverted_field_eq m bf f v : bf_ok bf -> In f (b_fields bf) -> in_range bf v ->
  inverted_field m bf f (store_of bf v) = Val (inverted_value f (slice v (f_off f) (f_bits f))) /\
  has_type f (inverted_value f (slice v (f_off f) (f_bits f))).
Proof.
  intros Hbf Hin Hv. pose proof (bf_ok_field bf f Hbf Hin) as Hf. pose proof Hbf as (Hbk & _).
  pose proof (slice_in bf f v Hf) as Hsl.
  assert (Hr : 0 <= 2 ^ f_bits f - 1 - slice v (f_off f) (f_bits f) < 2 ^ f_bits f) by lia.
  pose proof (inverted_has_type bf f _ Hf Hr) as Ht.
  unfold inverted_field. rewrite extract_src_ok by assumption. cbn [bind].
  rewrite value_to_field_ok by assumption. unfold inverted_value.
  destruct (f_ty f) as [t|len|] eqn:Et; try (split; [reflexivity|assumption]).
  destruct t; try (split; [reflexivity|assumption]).
  destruct Hf as (Hb & Ho & He & Hw & _). unfold width_ok in Hw. rewrite Et in Hw. rewrite Hw in *.
  split; [|unfold has_type; rewrite Et; exact I].
  do 2 f_equal. change (2 ^ 1) with 2 in *. set (r := slice v (f_off f) 1) in *.
  destruct (Z.eqb_spec (2 - 1 - r) 0), (Z.eqb_spec r 0); try reflexivity; lia.
Qed.

Ltac same := do 2 eexists; split; [|intros ?m; cbn [bind]; reflexivity]; eassumption.

Lemma step_total bf o v : bf_ok bf -> op_ok bf o -> in_range bf v ->
  exists v' b, in_range bf v' /\ forall m, step m bf o (store_of bf v) = Val (store_of bf v', b).
Proof.
  intros Hbf Ho Hv. pose proof Hbf as (Hbk & _). pose proof (in_range_0 bf Hbk) as H0.
  assert (HF : forall f, In f (b_fields bf) -> field_ok bf f) by (intros; eapply bf_ok_field; eassumption).
  destruct o; cbn [step op_ok] in *; unfold ret, retr.
  - (* OSet *) destruct Ho as [Hin Ha]. do 2 eexists. split; [|intros m; rewrite set_field_ok by auto; reflexivity].
    apply in_range_splice; auto.
  - (* OCheckedSet *) destruct Ho as [Hin Ha].
    destruct (reject bf f a) eqn:E; do 2 eexists; (split; [|intros m; rewrite checked_set_field_ok, E by auto; reflexivity]).
    + assumption.
    + apply in_range_splice; auto.
  - (* OGet *) do 2 eexists. split; [|intros m; rewrite get_field_ok by auto; reflexivity]. assumption.
  - (* OInvert *) destruct (inverted_field_eq Checked bf f v Hbf Ho Hv) as [_ Ht].
    do 2 eexists. split; [|intros m].
    2:{ destruct (inverted_field_eq m bf f v Hbf Ho Hv) as [E _].
        replace (invert_field m bf f (store_of bf v)) with
          (a <- inverted_field m bf f (store_of bf v) ;; set_field m bf f a (store_of bf v)).
        - rewrite E. cbn [bind]. rewrite set_field_ok by auto. reflexivity.
        - unfold invert_field, inverted_field. destruct (extract_src m bf f true (store_of bf v)); reflexivity. }
    apply in_range_splice; auto.
  - (* OInverted *) destruct (inverted_field_eq Checked bf f v Hbf Ho Hv) as [_ Ht].
    do 2 eexists. split; [|intros m; destruct (inverted_field_eq m bf f v Hbf Ho Hv) as [-> _]; reflexivity].
    assumption.
  - (* OClear *) do 2 eexists. split; [|intros m; unfold clear_field, set_zero; rewrite assign_ok by auto using zero_value_ok; reflexivity].
    apply in_range_splice; auto.
  - (* OClearDefault *) destruct Ho as [Hin Hd]. destruct (f_default f) as [p|] eqn:Ed; [|congruence].
    do 2 eexists. split; [|intros m; unfold clear_field_to_default; rewrite (set_default_ok m bf f p) by auto; reflexivity].
    apply in_range_splice; auto.
  - (* OClearAll *) do 2 eexists. split; [|intros m; unfold clear_all; rewrite (proj1 (new_impl_ok m bf defaults v Hbf Hv)); reflexivity].
    apply new_range; assumption.
  - (* OInvertAll *) do 2 eexists. split; [|intros m; rewrite invert_all_ok by assumption; reflexivity].
    auto using copy_range, inv_range.
  - (* OSetBit *) unfold set_bit. rewrite bf_size_eq. destruct (Z.leb_spec (ty_size (b_ty bf)) i); [same|].
    destruct (access_guard bf no_setter i); [same|].
    do 2 eexists. split; [|intros m; rewrite set_bit_body_ok by (assumption || lia); reflexivity].
    apply splice_bound; try lia; assumption.
  - unfold checked_set_bit. rewrite bf_size_eq. destruct (Z.leb_spec (ty_size (b_ty bf)) i); [same|].
    destruct (access_guard bf no_setter i); [same|].
    do 2 eexists. split; [|intros m; rewrite set_bit_body_ok by (assumption || lia); reflexivity].
    apply splice_bound; try lia; assumption.
  - unfold get_bit. rewrite bf_size_eq. destruct (Z.leb_spec (ty_size (b_ty bf)) i); [same|].
    destruct (access_guard bf no_read i); [same|].
    do 2 eexists. split; [|intros m; rewrite get_bit_body_ok by (assumption || lia); reflexivity]. assumption.
  - unfold checked_get_bit. rewrite bf_size_eq. destruct (Z.leb_spec (ty_size (b_ty bf)) i); [same|].
    destruct (access_guard bf no_read i); [same|].
    do 2 eexists. split; [|intros m; rewrite get_bit_body_ok by (assumption || lia); reflexivity]. assumption.
  - (* OSetRange *) destruct Ho as [Hr Hx]. apply range_args_inv in Hr. destruct Hr as [H1 [H2|(H2 & Hl & [H3|H3])]].
    + exists v, BNone. split; [assumption|]. intros m.
      rewrite (proj1 (proj1 (C17_out_of_range m bf off len (store_of bf x) (store_of bf v) Hbf H1) H2)). reflexivity.
    + do 2 eexists. split; [|intros m; rewrite set_range_ok by auto using good_len_ok; reflexivity].
      apply good_len_ok in Hl. destruct Hl as [Hl _].
      apply merge_range; try assumption. apply wmask_range; (assumption || lia).
    + exists v, BNone. split; [assumption|]. intros m.
      rewrite (proj1 (proj2 (C17_out_of_range m bf off len (store_of bf x) (store_of bf v) Hbf H1) ltac:(lia) ltac:(lia))).
      reflexivity.
  - destruct Ho as [Hr Hx]. apply range_args_inv in Hr. destruct Hr as [H1 [H2|(H2 & Hl & [H3|H3])]].
    + do 2 eexists. split; [|intros m;
      rewrite (proj2 (proj1 (C17_out_of_range m bf off len (store_of bf x) (store_of bf v) Hbf H1) H2)); reflexivity].
      assumption.
    + destruct (range_guard bf no_setter off len) eqn:E; do 2 eexists;
        (split; [|intros m; rewrite checked_set_range_ok, E by auto using good_len_ok; reflexivity]).
      * assumption.
      * apply good_len_ok in Hl. destruct Hl as [Hl _]. apply splice_bound; try lia; assumption.
    + do 2 eexists. split; [|intros m;
      rewrite (proj2 (proj2 (C17_out_of_range m bf off len (store_of bf x) (store_of bf v) Hbf H1) ltac:(lia) ltac:(lia)));
      reflexivity]. assumption.
  - (* OGetRange *) apply range_args_inv in Ho. unfold get_range. rewrite bf_size_eq.
    destruct Ho as [H1 [H2|(H2 & Hl & [H3|H3])]].
    + destruct (Z.leb_spec (ty_size (b_ty bf)) off); [|lia]. same.
    + exists v. eexists. split; [assumption|]. intros m.
      pose proof (get_range_ok m bf off len v Hbf Hv ltac:(lia) (good_len_ok bf len Hl) H3) as E.
      unfold get_range in E. rewrite bf_size_eq in E. rewrite E. reflexivity.
    + destruct (Z.leb_spec (ty_size (b_ty bf)) off); [lia|]. do 2 eexists. split; [exact Hv|].
      intros m. rewrite length_guard_out by lia. reflexivity.
  - apply range_args_inv in Ho. unfold checked_get_range. rewrite bf_size_eq.
    destruct Ho as [H1 [H2|(H2 & Hl & [H3|H3])]].
    + destruct (Z.leb_spec (ty_size (b_ty bf)) off); [|lia]. same.
    + exists v. eexists. split; [assumption|]. intros m.
      pose proof (checked_get_range_ok m bf off len v Hbf Hv ltac:(lia) (good_len_ok bf len Hl) H3) as E.
      unfold checked_get_range in E. rewrite bf_size_eq in E. rewrite E. reflexivity.
    + destruct (Z.leb_spec (ty_size (b_ty bf)) off); [lia|]. do 2 eexists. split; [exact Hv|].
      intros m. rewrite length_guard_out by lia. reflexivity.
  - (* OWrite *) do 2 eexists. split; [|intros m; rewrite write_data_ok by assumption; reflexivity].
    apply write_range; assumption.
  - do 2 eexists. split; [|intros m; unfold write_defaults; rewrite defaults_ok by assumption; reflexivity].
    apply defaults_range; assumption.
  - (* OInto *) do 2 eexists. split; [|intros m; rewrite into_data_ok by assumption; reflexivity]. assumption.
  - do 2 eexists. split; [|intros m; rewrite trait_into_ok by assumption; reflexivity]. assumption.
  - (* ONew *) unfold new_bf, new_without_defaults. rewrite init_store_of by assumption.
    exists (new_num bf defaults 0), BNone. split; [apply new_range; assumption|].
    intros m. destruct defaults; rewrite (proj1 (new_impl_ok m bf _ 0 Hbf H0)); reflexivity.
  - (* ODefault *) unfold default_bf, new_bf. rewrite init_store_of by assumption.
    destruct (a_new (b_args bf)).
    + exists (new_num bf true 0), BNone. split; [apply new_range; assumption|].
      intros m. rewrite (proj1 (new_impl_ok m bf _ 0 Hbf H0)); reflexivity.
    + do 2 eexists. split; [|intros m; rewrite defaults_ok by assumption; reflexivity].
      apply defaults_range; assumption.
  - (* OFrom *) do 2 eexists. split; [|intros m; rewrite from_data_ok by assumption; reflexivity].
    apply from_range; assumption.
  - do 2 eexists. split; [|intros m; rewrite trait_from_ok by assumption; reflexivity].
    apply from_range; assumption.
Qed.

Lemma run_total bf os v : bf_ok bf -> Forall (op_ok bf) os -> in_range bf v ->
  exists v' bs, in_range bf v' /\ forall m, run m bf os (store_of bf v) = Val (store_of bf v', bs).
Proof.
  intros Hbf Hos. revert v. induction Hos as [|o os Ho Hos IH]; intros v Hv; cbn [run]; [eauto|].
  destruct (step_total bf o v Hbf Ho Hv) as (v1 & b & Hv1 & E1).
  destruct (IH v1 Hv1) as (v2 & bs & Hv2 & E2).
  exists v2, (b :: bs). split; [assumption|]. intros m. rewrite E1. cbn [bind fst snd]. rewrite E2. reflexivity.
Qed.

(** ** C23, C24, C25 *)

(** No well-formed call panics, in either overflow mode. *)
Theorem C23_no_panic m bf os s : bf_ok bf -> Forall (op_ok bf) os -> store_ok bf s ->
  run m bf os s <> Panic.
Proof.
  intros Hbf Hos Hs. use_store s v. destruct (run_total bf os v Hbf Hos H) as (v' & bs & _ & E).
  rewrite E. discriminate.
Qed.

(** Debug and release builds agree, in the final state and in every value
    returned on the way. *)
Theorem C24_modes_agree bf os s : bf_ok bf -> Forall (op_ok bf) os -> store_ok bf s ->
  run Checked bf os s = run Wrapping bf os s.
Proof.
  intros Hbf Hos Hs. use_store s v. destruct (run_total bf os v Hbf Hos H) as (v' & bs & _ & E).
  rewrite !E. reflexivity.
Qed.

(** The storage stays a value of the backing type. *)
Theorem C25_storage_in_range m bf os s : bf_ok bf -> Forall (op_ok bf) os -> store_ok bf s ->
  exists s' bs, run m bf os s = Val (s', bs) /\ store_ok bf s' /\ 0 <= sval s' < 2 ^ ty_size (b_ty bf).
Proof.
  intros Hbf Hos Hs. use_store s v. destruct (run_total bf os v Hbf Hos H) as (v' & bs & Hv' & E).
  exists (store_of bf v'), bs. split; [apply E|]. split; [apply of_ok; assumption|].
  rewrite sval_of by assumption. exact Hv'.
Qed.

(** The same from the constructors, without assumption on a state. *)
Theorem C25_from_constructors m bf c os : bf_ok bf -> Forall (op_ok bf) os ->
  In c [new_bf m bf; new_without_defaults m bf; default_bf m bf; builder_new m bf true; builder_new m bf false] ->
  exists s s' bs, c = Val s /\ store_ok bf s /\ run m bf os s = Val (s', bs) /\ store_ok bf s'.
Proof.
  intros Hbf Hos Hc. pose proof Hbf as (Hbk & _). pose proof (in_range_0 bf Hbk) as H0.
  assert (Hs : exists s, c = Val s /\ store_ok bf s).
  { destruct (C11_builder_new m bf) as [B1 B2]. rewrite B1, B2 in Hc.
    unfold new_bf, new_without_defaults, default_bf, new_bf in Hc. rewrite init_store_of in Hc by assumption.
    destruct (new_impl_ok m bf true 0 Hbf H0) as [E1 R1].
    destruct (new_impl_ok m bf false 0 Hbf H0) as [E2 R2].
    rewrite E1, E2, defaults_ok in Hc by assumption.
    assert (K1 : exists s, Val (store_of bf (new_num bf true 0)) = Val s /\ store_ok bf s)
      by (eexists; split; [reflexivity|apply of_ok; assumption]).
    assert (K2 : exists s, Val (store_of bf (new_num bf false 0)) = Val s /\ store_ok bf s)
      by (eexists; split; [reflexivity|apply of_ok; assumption]).
    assert (K3 : exists s, Val (store_of bf (defaults_num bf 0)) = Val s /\ store_ok bf s)
      by (eexists; split; [reflexivity|apply of_ok; auto using defaults_range]).
    cbn [In] in Hc. destruct Hc as [<-|[<-|[Hc|[<-|[<-|[]]]]]]; try assumption.
    destruct (a_new (b_args bf)); subst c; assumption. }
  destruct Hs as (s & E & Hs). destruct (C25_storage_in_range m bf os s Hbf Hos Hs) as (s' & bs & E2 & Hs' & _).
  exists s, s', bs. auto.
Qed.

(** The side conditions of C23 are needed: see C19_refuted for ranges, and the
    following for field widths that the macro accepts but [bf_ok] excludes.
    A 9-bit field of type [u8; 1] in an array backed bitfield panics. *)
Definition c23_wide : field := rw "x" (DArray 1) 9 0.
Definition c23_bf : bitfield :=
  mkBitfield VisPublic "B" (DArray 2) [c23_wide; rw "y" (DInteger U8) 7 9] [] default_args.
Theorem C23_wide_array_refuted :
  exists m, get_field m c23_bf c23_wide (StA [0; 0]) = Panic /\
            set_field m c23_bf c23_wide (VArr [1]) (StA [0; 0]) = Panic.
Proof. exists Wrapping. split; vm_compute; reflexivity. Qed.
(** A custom field of 129 bits in an array backed bitfield panics. *)
Definition c23_cust : field := mkField VisPublic "x" DCustom 136 0 false ReadWrite None false enum_codec.
Definition c23_bf2 : bitfield := mkBitfield VisPublic "B" (DArray 17) [c23_cust] [] default_args.
Theorem C23_wide_custom_refuted :
  get_field Checked c23_bf2 c23_cust (StA (zeros 17)) = Panic.
Proof. vm_compute. reflexivity. Qed.
(** A 12-bit [u8; 2] field of a [u16] bitfield loses its top bits. *)
Definition c23_part : field := rw "x" (DArray 2) 12 0.
Definition c23_bf3 : bitfield :=
  mkBitfield VisPublic "B" (DInteger U16) [c23_part; rw "y" (DInteger U8) 4 12] [] default_args.
Theorem C03_partial_byte_array_refuted :
  exists m s, set_field m c23_bf3 c23_part (VArr [255; 15]) (StI 0) = Val s /\
    has_type c23_part (VArr [255; 15]) /\ fits c23_part (VArr [255; 15]) /\
    get_field m c23_bf3 c23_part s = Val (VArr [255; 0]).
Proof.
  exists Checked. destruct (set_field Checked c23_bf3 c23_part (VArr [255; 15]) (StI 0)) as [s|] eqn:E;
    [|vm_compute in E; discriminate].
  exists s. split; [reflexivity|].
  split; [split; [reflexivity|repeat constructor; unfold is_byte; lia]|].
  split; [cbn; lia|]. vm_compute in E. injection E as <-. vm_compute. reflexivity.
Qed.

Ltac opok :=
  repeat (apply Forall_cons || apply Forall_nil); cbn [op_ok];
  repeat match goal with
    | |- True => exact I
    | |- range_args _ _ _ =>
        split; [lia|]; (left; vm_compute; discriminate) || (right; split; [left; lia|lia])
    | |- num_arg _ _ => unfold num_arg; cbn; lia
    | |- has_type _ _ => unfold has_type, in_ity; cbn; (exact I || lia)
    | |- _ /\ _ => split
    | |- In _ _ => solve [left; reflexivity | repeat (right; try (left; reflexivity))]
    | |- _ <> _ => discriminate
    | |- _ => lia
    end.

Example C23_ex :
  Forall (op_ok ex_int)
    [OSet ex_a (VInt 200); OCheckedSet ex_b (VInt 9); OSetRange 3 20 7; OInvertAll; OGetRange 2 5; OClearAll true] /\
  run Checked ex_int
    [OSet ex_a (VInt 200); OCheckedSet ex_b (VInt 9); OSetRange 3 20 7; OInvertAll; OGetRange 2 5; OClearAll true] (StI 0)
  = Val (StI 0x61a0, [BNone; BRes (Err msg_too_big); BNone; BNone; BNum 0x1d; BNone]).
Proof.
  split; [|vm_compute; reflexivity]. opok.
Qed.
