(** Whole-value conversions, constructors, clear and write operations:
    C08, C09, C10, C11, C12, C13, C14, C28, C37, C40. *)
From Coq Require Import ZArith List Bool Lia String.
From Verif Require Import RustInt Syntax GenInt GenArr Gen Spec BitsLemmas CoreLemmas GenLemmas
  ConvLemmas BitOpLemmas Examples PropFields.
Import ListNotations.
Open Scope Z_scope.
Ltac Zify.zify_post_hook ::= Z.to_euclidean_division_equations.

Lemma byte_reversed_of bf v : bf_ok bf -> in_range bf v ->
  byte_reversed bf (store_of bf v) = store_of bf (cflip bf true v).
Proof.
  intros (Hbk & _) Hv. pose proof (nbytes_arr bf) as Hn.
  unfold byte_reversed, store_of, cflip, nbytes, brev in *. destb bf t n Et; [reflexivity|].
  f_equal. rewrite (Hn n) by (auto || lia). apply rev_bytes.
Qed.
Lemma reversed_range bf v : bf_ok bf -> in_range bf v -> in_range bf (cflip bf true v).
Proof. intros (Hbk & _) Hv. apply cflip_range; assumption. Qed.
Lemma reversed_ok bf s : bf_ok bf -> store_ok bf s -> store_ok bf (byte_reversed bf s).
Proof.
  intros Hbf Hs. use_store s v. rewrite byte_reversed_of by assumption.
  apply of_ok; auto using reversed_range.
Qed.

(** ** C08 *)

(** Both endians agree (always the case for the suffixed functions). *)
Definition same_endian (bf : bitfield) (v : variant) : Prop :=
  v = Configured -> a_from_endian (b_args bf) = a_into_endian (b_args bf).
Lemma same_endian_eq bf v : same_endian bf v ->
  variant_endian (a_from_endian (b_args bf)) v = variant_endian (a_into_endian (b_args bf)) v.
Proof. intros H. destruct v; cbn [variant_endian]; auto. Qed.

Theorem C08_into_from m bf v b :
  bf_ok bf -> all_lossless bf -> store_ok bf b -> same_endian bf v ->
  exists s, from_data m bf v false b = Val s /\ store_ok bf s /\ into_data m bf v s = Val b.
Proof.
  intros Hbf Hl Hb He. use_store b x. pose proof Hbf as (Hbk & _). apply same_endian_eq in He.
  rewrite from_data_ok by assumption. eexists. split; [reflexivity|].
  rewrite He. unfold from_num.
  rewrite copy_all_lossless; auto using cflip_range, in_range_0.
  split; [apply of_ok; auto using cflip_range|].
  rewrite into_data_ok by auto using cflip_range. rewrite cflip_cflip by assumption. reflexivity.
Qed.

Theorem C08_from_into m bf v s :
  bf_ok bf -> all_lossless bf -> store_ok bf s -> same_endian bf v ->
  exists b, into_data m bf v s = Val b /\ store_ok bf b /\ from_data m bf v false b = Val s.
Proof.
  intros Hbf Hl Hs He. use_store s x. pose proof Hbf as (Hbk & _). apply same_endian_eq in He.
  rewrite into_data_ok by assumption. eexists. split; [reflexivity|].
  split; [apply of_ok; auto using cflip_range|].
  rewrite from_data_ok by auto using cflip_range. rewrite He. unfold from_num.
  rewrite cflip_cflip by assumption.
  rewrite copy_all_lossless; auto using in_range_0.
Qed.

(** Without the lossless condition the bits still arrive in every field whose
    type is not a lossy custom type.  ([from_be_bits] of integers and
    [from_le_bytes] of arrays take the bytes as they are, see C09_identity.) *)
Theorem C08_fieldwise m bf b :
  bf_ok bf -> store_ok bf b ->
  exists s, from_data m bf (if is_integer_backed bf then AsBe else AsLe) false b = Val s /\
    forall f, In f (b_fields bf) -> lossless f -> raw s f = raw b f.
Proof.
  intros Hbf Hb. use_store b x. pose proof Hbf as (Hbk & _).
  rewrite from_data_ok by assumption. eexists. split; [reflexivity|].
  intros f Hin Hl. unfold raw. rewrite !sval_of by auto using from_range.
  unfold from_num, copy_num. rewrite upd_raw by assumption.
  replace (cflip bf _ x) with x
    by (unfold cflip, fi_flip; destruct (is_integer_backed bf); reflexivity).
  apply cenc_lossless; try assumption.
  - eapply bf_ok_field; eassumption.
  - apply (slice_in bf). eapply bf_ok_field; eassumption.
Qed.

Example C08_ex :
  same_endian ex_int AsLe /\ same_endian ex_int Configured /\
  from_data Checked ex_int AsLe false (StI 0x1234) = Val (StI 0x3412) /\
  into_data Checked ex_int AsLe (StI 0x3412) = Val (StI 0x1234) /\
  from_data Checked ex_arr AsBe false (StA [1;2;3]) = Val (StA [3;2;1]).
Proof. repeat split; vm_compute; try reflexivity; discriminate. Qed.

(** The lossless condition is needed. *)
Definition lossy_f : field := mkField VisPublic "x" DCustom 2 0 false ReadWrite None false lossy_codec.
Definition lossy_bf : bitfield :=
  mkBitfield VisPublic "B" (DInteger U8) [lossy_f; rw "y" (DInteger U8) 6 2] [] default_args.
Theorem C08_lossy_refuted :
  exists m bf b s, bf_ok bf /\ store_ok bf b /\ from_data m bf AsBe false b = Val s /\
    into_data m bf AsBe s <> Val b.
Proof.
  exists Checked, lossy_bf, (StI 3).
  destruct (from_data Checked lossy_bf AsBe false (StI 3)) as [s|] eqn:E; [|vm_compute in E; discriminate].
  exists s. split; [apply bf_okb_ok; vm_compute; reflexivity|]. split; [cbn; lia|]. split; [reflexivity|].
  vm_compute in E. injection E as <-. vm_compute. discriminate.
Qed.

(** ** C09 *)

Theorem C09_reversal_involutive bf b : bf_ok bf -> store_ok bf b ->
  byte_reversed bf (byte_reversed bf b) = b.
Proof.
  intros Hbf Hb. use_store b x. rewrite !byte_reversed_of by auto using reversed_range.
  rewrite cflip_cflip by (assumption || apply Hbf). reflexivity.
Qed.

Theorem C09_from_le_be m bf d b : bf_ok bf -> store_ok bf b ->
  from_data m bf AsLe d b = from_data m bf AsBe d (byte_reversed bf b).
Proof.
  intros Hbf Hb. use_store b x. rewrite byte_reversed_of by assumption.
  rewrite !from_data_ok by auto using reversed_range. cbn [variant_endian].
  do 2 f_equal. unfold from_num.
  replace (cflip bf (fi_flip bf Big) (cflip bf true x)) with (cflip bf (fi_flip bf Little) x); [reflexivity|].
  unfold fi_flip. destruct (is_integer_backed bf); cbn [negb]; [reflexivity|].
  rewrite cflip_cflip by (assumption || apply Hbf). reflexivity.
Qed.

Theorem C09_into_le_be m bf s : bf_ok bf -> store_ok bf s ->
  exists b, into_data m bf AsBe s = Val b /\ into_data m bf AsLe s = Val (byte_reversed bf b).
Proof.
  intros Hbf Hs. use_store s x. pose proof Hbf as (Hbk & _). rewrite !into_data_ok by assumption.
  eexists. split; [reflexivity|]. rewrite byte_reversed_of by auto using cflip_range.
  do 2 f_equal. cbn [variant_endian]. unfold fi_flip. destruct (is_integer_backed bf); cbn [negb].
  - reflexivity.
  - rewrite cflip_cflip by assumption. reflexivity.
Qed.

(** The stored value itself is what [into_be_bits] (integers) and
    [into_le_bytes] (arrays) return. *)
Theorem C09_identity m bf s : bf_ok bf -> store_ok bf s ->
  into_data m bf (if is_integer_backed bf then AsBe else AsLe) s = Val s.
Proof.
  intros Hbf Hs. use_store s x. rewrite into_data_ok by assumption.
  unfold fi_flip. destruct (is_integer_backed bf); reflexivity.
Qed.

Theorem C09_configured m bf d b s :
  from_data m bf Configured d b =
    from_data m bf (match a_from_endian (b_args bf) with Little => AsLe | Big => AsBe end) d b /\
  into_data m bf Configured s =
    into_data m bf (match a_into_endian (b_args bf) with Little => AsLe | Big => AsBe end) s.
Proof.
  unfold from_data, into_data. destruct (a_from_endian (b_args bf)), (a_into_endian (b_args bf)); split; reflexivity.
Qed.

Example C09_ex :
  byte_reversed ex_int (StI 0x1234) = StI 0x3412 /\
  into_data Checked ex_int AsLe (StI 0x1234) = Val (StI 0x3412) /\
  into_data Checked ex_arr AsBe (StA [1;2;3]) = Val (StA [3;2;1]) /\
  into_data Wrapping ex_arr AsLe (StA [1;2;3]) = Val (StA [1;2;3]).
Proof. repeat split; vm_compute; reflexivity. Qed.

(** ** C40 *)

Theorem C40_trait_from m bf b : bf_ok bf -> store_ok bf b ->
  trait_from m bf b = from_data m bf Configured false b.
Proof.
  intros Hbf Hb. use_store b x. rewrite trait_from_ok, from_data_ok by assumption. reflexivity.
Qed.
Theorem C40_trait_into m bf s : bf_ok bf -> store_ok bf s ->
  trait_into m bf s = into_data m bf Configured s.
Proof.
  intros Hbf Hs. use_store s x. rewrite trait_into_ok, into_data_ok by assumption. reflexivity.
Qed.
Example C40_ex :
  trait_from Checked ex_arr (StA [1;2;3]) = from_data Checked ex_arr Configured false (StA [1;2;3]) /\
  trait_into Checked ex_int (StI 0x1234) = Val (StI 0x1234).
Proof. split; vm_compute; reflexivity. Qed.

(** ** Defaults *)

Lemma denc_bits bf f : field_ok bf f -> has_default f = true -> default_canonical f ->
  denc f mod 2 ^ f_bits f = default_bits f.
Proof.
  intros (Hb & Ho & He & Hw & Hd) Hdef Hc.
  unfold denc, default_bits, has_default, default_canonical, default_ok, pval_ok, width_ok in *.
  destruct (f_default f) as [p|]; [|discriminate]. destruct p; cbn [aenc praw]; try reflexivity.
  - destf f t len Et; try contradiction.
    destruct t; try contradiction. rewrite Hw. destruct b; reflexivity.
  - destruct (has_setter f); [exact Hc|reflexivity].
Qed.

Lemma zenc_bits bf f : field_ok bf f -> zero_canonical f -> zenc bf f mod 2 ^ f_bits f = 0.
Proof.
  intros Hf Hc. unfold zenc, zero_value, zero_canonical in *. destf f t' len Ef.
  - destruct t'; reflexivity.
  - destruct (is_integer_backed bf); cbn [aenc praw]; [reflexivity|].
    rewrite zeros_le_bytes, le_bytes_0_val. reflexivity.
  - cbn [aenc]. replace (from_custom f 0) with (user_from f 0) by reflexivity.
    destruct (has_setter f); [|assumption]. rewrite Hc, Hc. reflexivity.
Qed.

(** ** C10 *)

Theorem C10_from_with_defaults m bf v b :
  bf_ok bf -> store_ok bf b ->
  exists s s', from_data m bf v false b = Val s /\ from_data m bf v true b = Val s' /\
    forall f, In f (b_fields bf) ->
      (f_default f = None -> raw s' f = raw s f) /\
      (f_default f <> None -> default_canonical f -> raw s' f = default_bits f).
Proof.
  intros Hbf Hb. use_store b x. rewrite !from_data_ok by assumption.
  do 2 eexists. split; [reflexivity|]. split; [reflexivity|].
  intros f Hin. pose proof (bf_ok_field bf f Hbf Hin) as Hf.
  unfold raw. rewrite !sval_of by auto using from_range.
  unfold from_num at 1 3. unfold defaults_num. rewrite upd_raw by assumption.
  split; intros Hd.
  - unfold has_default. rewrite Hd. reflexivity.
  - intros Hc. assert (Hhd : has_default f = true)
      by (unfold has_default; destruct (f_default f); congruence).
    rewrite Hhd. apply (denc_bits bf); assumption.
Qed.

Example C10_ex :
  default_canonical ex_b /\ f_default ex_b <> None /\ default_bits ex_b = 13 /\
  from_data Checked ex_int AsBe false (StI 0xffff) = Val (StI 0xffff) /\
  from_data Checked ex_int AsBe true (StI 0xffff) = Val (StI 0x6fbf).
Proof. repeat split; vm_compute; try reflexivity; discriminate. Qed.

(** ** C11 *)

Lemma new_range bf d v : bf_ok bf -> in_range bf v -> in_range bf (new_num bf d v).
Proof. intros. apply (new_impl_ok Checked); assumption. Qed.

Lemma new_raw bf d v f : bf_ok bf -> In f (b_fields bf) ->
  slice (new_num bf d v) (f_off f) (f_bits f) =
  (if (d || f_reserved f) && has_default f then denc f else zenc bf f) mod 2 ^ f_bits f.
Proof.
  intros Hbf Hin. unfold new_num. destruct d; rewrite !upd_raw by assumption; cbn [orb andb negb].
  - destruct (has_default f); reflexivity.
  - destruct (f_reserved f && has_default f); reflexivity.
Qed.

Lemma new_indep bf d v v' : bf_ok bf -> in_range bf v -> in_range bf v' ->
  new_num bf d v = new_num bf d v'.
Proof.
  intros Hbf Hv Hv'. apply (slices_determine bf); auto using new_range.
  intros f Hin. rewrite !new_raw by assumption. reflexivity.
Qed.

(** [d = true]: [new()]; [d = false]: [new_without_defaults()]. *)
Lemma new_spec m bf d s : bf_ok bf -> store_ok bf s ->
  exists s', new_impl m bf d s = Val s' /\ store_ok bf s' /\
    forall f, In f (b_fields bf) ->
      (f_default f <> None -> d = true \/ f_reserved f = true -> default_canonical f ->
         raw s' f = default_bits f) /\
      (f_default f = None \/ (d = false /\ f_reserved f = false) -> zero_canonical f -> raw s' f = 0).
Proof.
  intros Hbf Hs. use_store s x. destruct (new_impl_ok m bf d x Hbf H) as [E R].
  eexists. split; [exact E|]. split; [apply of_ok; assumption|].
  intros f Hin. pose proof (bf_ok_field bf f Hbf Hin) as Hf.
  unfold raw. rewrite sval_of by assumption. rewrite new_raw by assumption. split.
  - intros Hd Hdr Hc.
    assert (Hhd : has_default f = true) by (unfold has_default; destruct (f_default f); congruence).
    rewrite Hhd. replace (d || f_reserved f) with true
      by (destruct Hdr as [-> | ->]; [|rewrite orb_true_r]; reflexivity).
    cbn [andb]. apply (denc_bits bf); assumption.
  - intros Hd Hc. replace ((d || f_reserved f) && has_default f) with false.
    + apply zenc_bits; assumption.
    + unfold has_default. destruct Hd as [-> | [-> ->]]; [rewrite andb_false_r|]; reflexivity.
Qed.

Lemma init_ok bf : bf_ok bf -> store_ok bf (init_store bf).
Proof.
  intros Hbf. pose proof Hbf as (Hbk & _). rewrite init_store_of by assumption.
  apply of_ok; auto using in_range_0.
Qed.

Theorem C11_new m bf : bf_ok bf ->
  exists s, new_bf m bf = Val s /\ store_ok bf s /\
    forall f, In f (b_fields bf) ->
      (f_default f <> None -> default_canonical f -> raw s f = default_bits f) /\
      (f_default f = None -> zero_canonical f -> raw s f = 0).
Proof.
  intros Hbf. destruct (new_spec m bf true (init_store bf) Hbf (init_ok bf Hbf)) as (s & E & Hs & H).
  exists s. split; [exact E|]. split; [assumption|]. intros f Hin. destruct (H f Hin) as [H1 H2]. auto.
Qed.

Theorem C11_new_without_defaults m bf : bf_ok bf ->
  exists s, new_without_defaults m bf = Val s /\ store_ok bf s /\
    forall f, In f (b_fields bf) ->
      (f_reserved f = true -> f_default f <> None -> default_canonical f -> raw s f = default_bits f) /\
      (f_reserved f = false \/ f_default f = None -> zero_canonical f -> raw s f = 0).
Proof.
  intros Hbf. destruct (new_spec m bf false (init_store bf) Hbf (init_ok bf Hbf)) as (s & E & Hs & H).
  exists s. split; [exact E|]. split; [assumption|]. intros f Hin. destruct (H f Hin) as [H1 H2].
  split; [auto|]. intros [Hr|Hd]; auto.
Qed.

(** [Default::default()] and the builder agree with [new()] whether or not
    [new] is generated, provided the custom types without default encode 0
    canonically. *)
Theorem C11_default_trait m bf : bf_ok bf ->
  (forall f, In f (b_fields bf) -> f_default f = None -> zero_canonical f) ->
  default_bf m bf = new_bf m bf.
Proof.
  intros Hbf Hz. pose proof Hbf as (Hbk & _). unfold default_bf.
  destruct (a_new (b_args bf)); [reflexivity|]. unfold new_bf. rewrite init_store_of by assumption.
  pose proof (in_range_0 bf Hbk) as H0.
  destruct (set_defaults_ok m bf 0 Hbf H0) as [E1 R1]. destruct (new_impl_ok m bf true 0 Hbf H0) as [E2 R2].
  rewrite E1, E2. do 2 f_equal. apply (slices_determine bf); try assumption.
  intros f Hin. rewrite new_raw, upd_raw by assumption. cbn [orb andb].
  destruct (has_default f) eqn:Hd; [reflexivity|].
  rewrite zenc_bits.
  - unfold slice. rewrite Z.div_0_l by (apply Z.pow_nonzero; pose proof (bf_ok_field bf f Hbf Hin) as (? & ? & _); lia).
    apply Z.mod_0_l. apply Z.pow_nonzero; pose proof (bf_ok_field bf f Hbf Hin) as (? & ? & _); lia.
  - eapply bf_ok_field; eassumption.
  - apply Hz; [assumption|]. unfold has_default in Hd. destruct (f_default f); congruence.
Qed.

Theorem C11_builder_new m bf :
  builder_new m bf true = new_bf m bf /\ builder_new m bf false = new_without_defaults m bf.
Proof. unfold builder_new. destruct (a_new (b_args bf)); split; reflexivity. Qed.

Example C11_ex :
  new_bf Checked ex_int = Val (StI 0x61a0) /\ new_without_defaults Checked ex_int = Val (StI 0x4000) /\
  new_bf Checked ex_arr = Val (StA [0; 5; 0x9a]) /\ default_bits ax_c = 6 /\ zero_canonical ex_d.
Proof. repeat split; vm_compute; reflexivity. Qed.

(** Without that condition [Default] (with [new = false]) and [new()] differ:
    the custom type below decodes 0 to a value that is encoded as 1. *)
Definition zero_codec : codec := mkCodec U8 (fun z => if z =? 0 then 1 else z) U8 (fun t => t).
Definition c11_bf (new : bool) : bitfield :=
  mkBitfield VisPublic "B" (DInteger U8)
    [mkField VisPublic "x" DCustom 2 0 false ReadWrite None false zero_codec; rw "y" (DInteger U8) 6 2] []
    (mkArgs Lsb Big Big Big new true true true true true true true true false true false true false
       true false true false true).
Theorem C11_default_refuted :
  exists bf m, bf_ok bf /\ default_bf m bf <> new_bf m bf.
Proof.
  exists (c11_bf false), Checked. split; [apply bf_okb_ok; vm_compute; reflexivity|].
  vm_compute. discriminate.
Qed.

(** ** C12 *)

Theorem C12_clear_all m bf s : bf_ok bf -> store_ok bf s ->
  clear_all m bf false s = new_without_defaults m bf /\ clear_all m bf true s = new_bf m bf.
Proof.
  intros Hbf Hs. use_store s x. pose proof Hbf as (Hbk & _). pose proof (in_range_0 bf Hbk) as H1.
  unfold clear_all, new_bf, new_without_defaults. rewrite init_store_of by assumption.
  split; rewrite (proj1 (new_impl_ok m bf _ x Hbf H)), (proj1 (new_impl_ok m bf _ 0 Hbf H1));
    do 2 f_equal; apply new_indep; assumption.
Qed.

Lemma assign_spec m bf f p s r : bf_ok bf -> In f (b_fields bf) -> store_ok bf s -> pval_ok bf f p ->
  aenc f p mod 2 ^ f_bits f = r ->
  exists s', assign m bf f p s = Val s' /\ store_ok bf s' /\ raw s' f = r /\
    forall i, 0 <= i -> ~ covers f i -> sbit s' i = sbit s i.
Proof.
  intros Hbf Hin Hs Hp <-. use_store s x. pose proof (bf_ok_field bf f Hbf Hin) as Hf.
  pose proof Hbf as (Hbk & _). pose proof (in_range_splice bf f x (aenc f p) Hf H) as Hr.
  eexists. split; [apply assign_ok; assumption|]. split; [apply of_ok; assumption|].
  unfold raw, sbit. rewrite !sval_of by assumption. destruct Hf as (Hb & Ho & _).
  split; [apply slice_splice_same; lia|]. intros i Hi Hc. rewrite splice_spec by lia.
  unfold covers in Hc. cases_bool; reflexivity.
Qed.

Theorem C12_clear_field m bf f s : bf_ok bf -> In f (b_fields bf) -> store_ok bf s -> zero_canonical f ->
  exists s', clear_field m bf f s = Val s' /\ store_ok bf s' /\ raw s' f = 0 /\
    forall i, 0 <= i -> ~ covers f i -> sbit s' i = sbit s i.
Proof.
  intros Hbf Hin Hs Hc. pose proof (bf_ok_field bf f Hbf Hin) as Hf.
  apply assign_spec; auto using zero_value_ok. apply zenc_bits; assumption.
Qed.

Theorem C12_clear_field_to_default m bf f s :
  bf_ok bf -> In f (b_fields bf) -> store_ok bf s -> f_default f <> None -> default_canonical f ->
  exists s', clear_field_to_default m bf f s = Val s' /\ store_ok bf s' /\ raw s' f = default_bits f /\
    forall i, 0 <= i -> ~ covers f i -> sbit s' i = sbit s i.
Proof.
  intros Hbf Hin Hs Hd Hc. pose proof (bf_ok_field bf f Hbf Hin) as Hf.
  assert (Hhd : has_default f = true) by (unfold has_default; destruct (f_default f); congruence).
  pose proof (denc_bits bf f Hf Hhd Hc) as E. unfold denc in E.
  unfold clear_field_to_default, set_default. destruct Hf as (_ & _ & _ & _ & Hdo).
  unfold default_ok in Hdo. destruct (f_default f) as [p|]; [|congruence].
  apply assign_spec; assumption.
Qed.

Example C12_ex :
  clear_field Checked ex_int ex_a (StI 0xffff) = Val (StI 0xffe0) /\
  clear_field_to_default Checked ex_int ex_b (StI 0xffff) = Val (StI 0xffbf) /\
  clear_all Checked ex_int false (StI 0xffff) = Val (StI 0x4000) /\
  clear_all Checked ex_int true (StI 0xffff) = Val (StI 0x61a0).
Proof. repeat split; vm_compute; reflexivity. Qed.

(** ** C13, C14 *)

(** The argument of [write_*] after the endian conversion. *)
Definition write_view (bf : bitfield) (v : variant) (b : store) : store :=
  match v, a_write_endian (b_args bf) with
  | AsLe, _ | Configured, Little => byte_reversed bf b
  | AsBe, _ | Configured, Big => b
  end.

Lemma write_view_sval bf v x : bf_ok bf -> in_range bf x ->
  sval (write_view bf v (store_of bf x)) =
  cflip bf (w_flip (variant_endian (a_write_endian (b_args bf)) v)) x.
Proof.
  intros Hbf Hx. unfold write_view. destruct v, (a_write_endian (b_args bf)); cbn [variant_endian w_flip];
    (apply sval_of; assumption) ||
    (rewrite byte_reversed_of by assumption; apply sval_of; auto using reversed_range).
Qed.

Theorem C13_write m bf v b s : bf_ok bf -> store_ok bf b -> store_ok bf s ->
  exists s', write_data m bf v false b s = Val s' /\ store_ok bf s' /\
    forall f, In f (b_fields bf) ->
      (writable f -> lossless f -> raw s' f = raw (write_view bf v b) f) /\
      (~ writable f -> raw s' f = raw s f).
Proof.
  intros Hbf Hb Hs. use_store b x. use_store s y. rewrite write_data_ok by assumption.
  eexists. split; [reflexivity|]. split; [apply of_ok; auto using write_range|].
  intros f Hin. pose proof (bf_ok_field bf f Hbf Hin) as Hf. unfold raw.
  rewrite write_view_sval, !sval_of by auto using write_range.
  unfold write_num, copy_num. rewrite upd_raw by assumption.
  split; intros Hw; [apply has_setter_t in Hw|apply has_setter_f in Hw]; rewrite Hw; [|reflexivity].
  intros Hl. apply cenc_lossless; auto. apply (slice_in bf); assumption.
Qed.

(** In terms of bits: nothing outside the writable fields changes. *)
Theorem C13_write_protected_bits m bf v b s : bf_ok bf -> store_ok bf b -> store_ok bf s ->
  exists s', write_data m bf v false b s = Val s' /\
    forall f i, In f (b_fields bf) -> ~ writable f -> covers f i -> sbit s' i = sbit s i.
Proof.
  intros Hbf Hb Hs. destruct (C13_write m bf v b s Hbf Hb Hs) as (s' & E & _ & H).
  exists s'. split; [assumption|]. intros f i Hin Hns Hc.
  destruct (H f Hin) as [_ H2]. specialize (H2 Hns). unfold raw in H2.
  apply (f_equal (fun z => Z.testbit z (i - f_off f))) in H2.
  pose proof (bf_ok_field bf f Hbf Hin) as (Hb1 & Ho & _). unfold covers in Hc.
  rewrite !slice_spec in H2 by lia. replace (i - f_off f + f_off f) with i in H2 by lia.
  destruct (Z.ltb_spec (i - f_off f) (f_bits f)); [|lia]. exact H2.
Qed.

Theorem C14_write_defaults m bf s : bf_ok bf -> store_ok bf s ->
  exists s', write_defaults m bf s = Val s' /\ store_ok bf s' /\
    forall f, In f (b_fields bf) ->
      (f_default f = None -> raw s' f = raw s f) /\
      (f_default f <> None -> default_canonical f -> raw s' f = default_bits f).
Proof.
  intros Hbf Hs. use_store s x. unfold write_defaults. rewrite defaults_ok by assumption.
  eexists. split; [reflexivity|]. split; [apply of_ok; auto using defaults_range|].
  intros f Hin. pose proof (bf_ok_field bf f Hbf Hin) as Hf.
  unfold raw. rewrite !sval_of by auto using defaults_range. unfold defaults_num.
  rewrite upd_raw by assumption. split; intros Hd.
  - unfold has_default. rewrite Hd. reflexivity.
  - intros Hc. assert (Hhd : has_default f = true)
      by (unfold has_default; destruct (f_default f); congruence).
    rewrite Hhd. apply (denc_bits bf); assumption.
Qed.

Theorem C14_write_with_defaults m bf v b s :
  bf_ok bf -> store_ok bf b -> store_ok bf s ->
  exists s1 s2, write_data m bf v false b s = Val s1 /\ write_defaults m bf s1 = Val s2 /\
    write_data m bf v true b s = Val s2.
Proof.
  intros Hbf Hb Hs. use_store b x. use_store s y. rewrite !write_data_ok by assumption.
  do 2 eexists. split; [reflexivity|]. unfold write_defaults. rewrite defaults_ok by auto using write_range.
  split; reflexivity.
Qed.

Example C13_ex :
  write_data Checked ex_int AsBe false (StI 0xffff) (StI 0) = Val (StI 0x0fff) /\
  write_data Checked ex_int AsLe false (StI 0x00ff) (StI 0) = Val (StI 0x0f00) /\
  write_data Checked ex_int AsBe true (StI 0xffff) (StI 0) = Val (StI 0x6fbf) /\
  write_defaults Checked ex_int (StI 0xffff) = Val (StI 0x6fbf) /\
  write_data Checked ex_arr AsBe false (StA [0xff;0xff;0xff]) (StA [0;0;0]) = Val (StA [0xff;0xff;0x63]).
Proof. repeat split; vm_compute; reflexivity. Qed.

(** ** C37 *)

(** Integer backing: writing equals building from the same bits. *)
Theorem C37_integer m bf v b s :
  bf_ok bf -> all_lossless bf -> store_ok bf b -> store_ok bf s ->
  is_integer_backed bf = true ->
  (forall f, In f (b_fields bf) -> writable f) ->
  (v = Configured -> a_write_endian (b_args bf) = a_from_endian (b_args bf)) ->
  write_data m bf v false b s = from_data m bf v false b.
Proof.
  intros Hbf Hl Hb Hs Hi Hw He. use_store b x. use_store s y. pose proof Hbf as (Hbk & _).
  rewrite write_data_ok, from_data_ok by assumption. do 2 f_equal.
  replace (variant_endian (a_from_endian (b_args bf)) v) with (variant_endian (a_write_endian (b_args bf)) v)
    by (destruct v; cbn [variant_endian]; auto).
  set (e := variant_endian _ v). unfold write_num, from_num.
  replace (fi_flip bf e) with (w_flip e) by (unfold fi_flip; rewrite Hi; destruct e; reflexivity).
  apply (slices_determine bf); auto using copy_range, cflip_range, in_range_0.
  intros f Hin. unfold copy_num. rewrite !upd_raw by assumption. rewrite (proj2 (has_setter_t f) (Hw f Hin)). reflexivity.
Qed.

(** Array backing: the two are exchanged; [write_le_bytes] has the effect of
    [from_be_bytes]. *)
Theorem C37_array_swapped m bf b s :
  bf_ok bf -> all_lossless bf -> store_ok bf b -> store_ok bf s ->
  is_integer_backed bf = false ->
  (forall f, In f (b_fields bf) -> writable f) ->
  write_data m bf AsLe false b s = from_data m bf AsBe false b /\
  write_data m bf AsBe false b s = from_data m bf AsLe false b.
Proof.
  intros Hbf Hl Hb Hs Hi Hw. use_store b x. use_store s y. pose proof Hbf as (Hbk & _).
  rewrite !write_data_ok, !from_data_ok by assumption. cbn [variant_endian].
  unfold write_num, from_num, fi_flip. rewrite Hi. cbn [negb w_flip].
  split; do 2 f_equal; (apply (slices_determine bf); auto using copy_range, cflip_range, in_range_0;
    intros f Hin; unfold copy_num; rewrite !upd_raw by assumption;
    rewrite (proj2 (has_setter_t f) (Hw f Hin)); reflexivity).
Qed.

(** So C37 is false for arrays, in the default configuration too. *)
Definition c37_bf : bitfield :=
  mkBitfield VisPublic "B" (DArray 2) [rw "x" (DInteger U16) 16 0] [] default_args.
Theorem C37_refuted :
  exists m bf b s s', bf_ok bf /\ all_lossless bf /\ store_ok bf b /\ store_ok bf s /\
    (forall f, In f (b_fields bf) -> writable f) /\
    b_args bf = default_args /\
    write_data m bf AsLe false b s <> from_data m bf AsLe false b /\
    write_data m bf Configured false b s = Val s' /\ into_data m bf Configured s' <> Val b.
Proof.
  assert (Hok : forall a b, 0 <= a < 256 -> 0 <= b < 256 -> store_ok c37_bf (StA [a; b])).
  { intros. split; [reflexivity|]. repeat constructor; unfold is_byte; lia. }
  exists Checked, c37_bf, (StA [1;2]), (StA [0;0]).
  destruct (write_data Checked c37_bf Configured false (StA [1;2]) (StA [0;0])) as [s'|] eqn:E;
    [|vm_compute in E; discriminate].
  exists s'. split; [apply bf_okb_ok; vm_compute; reflexivity|].
  split; [intros f [<-|[]]; exact I|]. split; [apply Hok; lia|]. split; [apply Hok; lia|].
  split; [intros f [<-|[]]; split; auto|]. split; [reflexivity|].
  split; [vm_compute; discriminate|]. split; [reflexivity|].
  vm_compute in E. injection E as <-. vm_compute. discriminate.
Qed.

(** ** C28 *)

(** The first [N] bytes of the slice, padded with zeros. *)
Definition padded (n : Z) (sl : list Z) : list Z :=
  firstn (Z.to_nat n) (sl ++ repeat 0 (Z.to_nat n)).

Lemma padded_copy n sl : 0 < n ->
  copy_bytes (copy_len sl n) sl (zeros n) = Val (padded n sl).
Proof.
  intros Hn. unfold copy_len. unfold zeros, padded.
  rewrite copy_bytes_ok by (rewrite ?repeat_length; destruct (Z.ltb_spec (Z.of_nat (List.length sl)) n); lia).
  f_equal. rewrite firstn_app. destruct (Z.ltb_spec (Z.of_nat (List.length sl)) n) as [Hl|Hl].
  - rewrite Nat2Z.id. rewrite firstn_all. rewrite firstn_all2 by lia. f_equal.
    assert (G : forall k j : nat, (j <= k)%nat -> skipn j (repeat 0 k) = firstn (k - j) (repeat 0 k)).
    { clear. intros k j H.
      assert (G1 : forall k j : nat, skipn j (repeat 0 k) = repeat 0 (k - j)).
      { clear. induction k; intros [|j]; cbn [repeat skipn Nat.sub]; auto. }
      assert (G2 : forall k j : nat, (j <= k)%nat -> firstn j (repeat 0 k) = repeat 0 j).
      { clear. induction k; intros [|j] H; cbn [repeat firstn]; try reflexivity; [lia|].
        rewrite IHk by lia. reflexivity. }
      rewrite G1, G2 by lia. reflexivity. }
    apply G. lia.
  - replace (Z.to_nat n - List.length sl)%nat with 0%nat by lia. cbn [firstn].
    rewrite skipn_all2 by (rewrite repeat_length; lia). reflexivity.
Qed.

Lemma Forall_firstn {A} (P : A -> Prop) k l : Forall P l -> Forall P (firstn k l).
Proof. intros H. revert k. induction H; intros [|k]; cbn [firstn]; constructor; auto. Qed.

Lemma padded_ok bf n sl : b_ty bf = DArray n -> 0 < n -> Forall is_byte sl -> store_ok bf (StA (padded n sl)).
Proof.
  intros Et Hn Hb. unfold store_ok. rewrite Et. unfold padded. split.
  - rewrite firstn_length, app_length, repeat_length. lia.
  - apply Forall_firstn. apply Forall_app. split; [assumption|]. apply Forall_forall.
    intros x Hx. apply repeat_spec in Hx. subst. unfold is_byte; lia.
Qed.

Theorem C28_from_slice m bf n v d sl :
  bf_ok bf -> b_ty bf = DArray n -> Forall is_byte sl ->
  store_ok bf (StA (padded n sl)) /\
  from_slice m bf v d sl = from_data m bf v d (StA (padded n sl)).
Proof.
  intros Hbf Et Hb. pose proof Hbf as (Hbk & _). rewrite Et in Hbk. cbn [backing_ok] in Hbk.
  split; [apply padded_ok; (assumption || lia)|].
  unfold from_slice. rewrite Et. rewrite padded_copy by lia. reflexivity.
Qed.

Theorem C28_checked_from_slice m bf n v d sl :
  bf_ok bf -> b_ty bf = DArray n -> Forall is_byte sl ->
  (Z.of_nat (List.length sl) < n ->
     checked_from_slice m bf v d sl = Val (Err "Slice is too small to fill the bitfield."%string)) /\
  (n <= Z.of_nat (List.length sl) ->
     exists s, from_slice m bf v d sl = Val s /\ checked_from_slice m bf v d sl = Val (Ok s)).
Proof.
  intros Hbf Et Hb. pose proof Hbf as (Hbk & _). rewrite Et in Hbk. cbn [backing_ok] in Hbk.
  unfold checked_from_slice. rewrite Et. split; intros Hl.
  - destruct (Z.ltb_spec (Z.of_nat (List.length sl)) n); [reflexivity|lia].
  - destruct (Z.ltb_spec (Z.of_nat (List.length sl)) n); [lia|].
    pose proof (padded_copy n sl ltac:(lia)) as Hp. unfold copy_len in Hp.
    destruct (Z.ltb_spec (Z.of_nat (List.length sl)) n); [lia|]. rewrite Hp. cbn [bind].
    destruct (C28_from_slice m bf n v d sl Hbf Et Hb) as [Hs E]. rewrite E.
    unfold from_data. set (q := padded n sl) in *. clearbody q.
    set (st := StA q) in *. clearbody st. use_store st x.
    pose proof Hbf as (Hbk' & _). rewrite convert_from_into_ok by assumption. cbn [bind].
    rewrite build_from_ok by auto using cflip_range. cbn [bind]. eauto.
Qed.

Theorem C28_into_slice m bf n v s sl :
  bf_ok bf -> b_ty bf = DArray n -> store_ok bf s ->
  let k := Z.to_nat (Z.min n (Z.of_nat (List.length sl))) in
  exists l, into_data m bf v s = Val (StA l) /\ Z.of_nat (List.length l) = n /\
    into_slice m bf v s sl = Val (firstn k l ++ skipn k sl) /\
    (Z.of_nat (List.length sl) < n ->
       checked_into_slice m bf v s sl = Val (sl, Err "Slice is too small to hold the bitfield."%string)) /\
    (n <= Z.of_nat (List.length sl) ->
       checked_into_slice m bf v s sl = Val (l ++ skipn (Z.to_nat n) sl, Ok tt)).
Proof.
  intros Hbf Et Hs k. use_store s x. pose proof Hbf as (Hbk & _). rewrite into_data_ok by assumption.
  unfold into_slice, checked_into_slice. rewrite Et.
  rewrite !convert_from_into_ok by assumption. cbn [bind].
  pose proof (cflip_range bf (fi_flip bf (variant_endian (a_into_endian (b_args bf)) v)) x Hbk H) as Hr.
  set (y := cflip bf _ x) in *. clearbody y.
  rewrite Et in Hbk. cbn [backing_ok] in Hbk. unfold store_of. rewrite Et.
  set (l := le_bytes (Z.to_nat n) y).
  assert (Hl : Z.of_nat (List.length l) = n) by (unfold l; rewrite le_bytes_length; lia).
  exists l. split; [reflexivity|]. split; [assumption|]. split; [|split; intros Hc].
  - unfold copy_len. subst k. destruct (Z.ltb_spec (Z.of_nat (List.length sl)) n);
      rewrite copy_bytes_ok by lia; do 3 f_equal; lia.
  - destruct (Z.ltb_spec (Z.of_nat (List.length sl)) n); [reflexivity|lia].
  - destruct (Z.ltb_spec (Z.of_nat (List.length sl)) n); [lia|].
    rewrite copy_bytes_ok by lia. cbn [bind]. rewrite firstn_all2 by lia. reflexivity.
Qed.

Example C28_ex :
  padded 3 [1;2] = [1;2;0] /\ padded 3 [1;2;3;4] = [1;2;3] /\
  from_slice Checked ex_arr AsLe false [1;2] = Val (StA [1;2;0]) /\
  from_slice Checked ex_arr AsBe false [1;2] = Val (StA [0;2;1]) /\
  checked_from_slice Checked ex_arr AsLe false [1;2] = Val (Err msg_fill) /\
  into_slice Checked ex_arr AsLe (StA [1;2;3]) [9;9] = Val [1;2] /\
  into_slice Checked ex_arr AsLe (StA [1;2;3]) [9;9;9;9] = Val [1;2;3;9] /\
  checked_into_slice Checked ex_arr AsLe (StA [1;2;3]) [9;9] = Val ([9;9], Err msg_hold).
Proof. repeat split; vm_compute; reflexivity. Qed.
