(** Theorems about the declarations the macro accepts (C01, C02, C31, C32, C45,
    C48). *)
From Coq Require Import ZArith List Bool String Ascii Lia.
From Verif Require Import RustInt Syntax ConstExpr Parser Spec SpecDecl ParserLemmas ParserLoop PropArgs PropLit.
Import ListNotations.
Open Scope Z_scope.

(** ** A declaration used beside the theorems *)
Definition ex_cd : codec := mkCodec U16 (fun z => z) U16 (fun z => z).
Definition no_feature : features := fun _ => false.
Definition fld (name : string) (a : rattr) (ty : rtype) (v : pval) : rfield :=
  mkRField name VisPrivate a ty v ex_cd.
Definition ex_fields : list rfield :=
  [fld "a" ANone (RPath "u8") (PInt 0);
   fld "b" (AList (RBits 3 "") [("default", "0b1_01")]) (RPath "u16") (PInt 5);
   fld "skip" (AList RNoBits [("ignore", "true")]) (RPath "Thing") (PInt 0);
   fld "c" (AList (RBits 4 "") [("access", "rw"); ("default", "-3")]) (RPath "i8") (PInt (-3));
   fld "flag" (AList RNoBits [("access", "ro"); ("default", "true")]) (RPath "bool") (PBool true);
   fld "_r" (AList (RBits 6 "") [("default", "0x3F")]) (RPath "u8") (PInt 63);
   fld "e" (AList (RBits 2 "") [("access", "wo")]) (RPath "Kind") (PInt 0);
   fld "_r" ANone (RArray (RPath "u8") (LenLit 1)) (PInt 0)]%string.
Definition ex_decl (args : list (string * string)) : rdecl :=
  mkRDecl true VisPublic "Ex" (Some (RPath "u32")) args ex_fields.
Definition offsets (x : pr bitfield) : list (string * Z * Z) :=
  match x with POk bf => map (fun f => (f_name f, f_off f, f_bits f)) (b_fields bf) | _ => [] end.

(** ** Helpers *)
Lemma parse_core m F d bf : parse_bitfield m F d = POk bf ->
  Forall2 (fun r f => exists f0, core m (d_vis d) r = POk f0 /\ ignoredb r = false /\ f = with_off f0 (f_off f))
    (active d) (b_fields bf).
Proof.
  intro H. apply parse_iff in H as (ty & args & fs0 & new & _ & _ & _ & H1 & H2 & _ & ->). cbn [b_fields].
  apply active_cores in H1. fold (active d) in H1. revert H1 H2. generalize (active d) (filter nonign fs0).
  intros rs fs H. generalize (@nil field). revert new. induction H as [|r f rs fs [Hc Hi] _ IH]; intros [|f' new] prev Ho;
    cbn [offs] in Ho; try contradiction; [constructor|].
  destruct Ho as (_ & Hf & Ho). constructor; [eauto|]. eapply IH, Ho.
Qed.
Lemma Forall2_nth {A B} (R : A -> B -> Prop) l l' : Forall2 R l l' ->
  forall k a b, nth_error l k = Some a -> nth_error l' k = Some b -> R a b.
Proof.
  induction 1 as [|x y l l' Hxy _ IH]; intros k a b Ha Hb; destruct k; try discriminate; cbn in Ha, Hb.
  - injection Ha as <-. injection Hb as <-. exact Hxy.
  - eauto.
Qed.
Lemma Forall2_in_l {A B} (R : A -> B -> Prop) l l' a : Forall2 R l l' -> In a l -> exists b, In b l' /\ R a b.
Proof. induction 1 as [|x y l l' Hxy _ IH]; intros []; [subst; eauto using in_eq|]. destruct IH as (b & ? & ?); eauto using in_cons. Qed.
Lemma Forall2_in_r {A B} (R : A -> B -> Prop) l l' b : Forall2 R l l' -> In b l' -> exists a, In a l /\ R a b.
Proof. induction 1 as [|x y l l' Hxy _ IH]; intros []; [subst; eauto using in_eq|]. destruct IH as (a & ? & ?); eauto using in_cons. Qed.
Lemma active_in d r : In r (active d) <-> In r (d_fields d) /\ ignoredb r = false.
Proof. unfold active. rewrite filter_In, negb_true_iff. reflexivity. Qed.
Lemma active_core m F d bf r : parse_bitfield m F d = POk bf -> In r (d_fields d) -> ignoredb r = false ->
  exists f, core m (d_vis d) r = POk f.
Proof.
  intros H Hr Hi. apply parse_core in H.
  destruct (Forall2_in_l _ _ _ r H) as (f & _ & f0 & Hc & _); [apply active_in; auto|]. eauto.
Qed.
Lemma not_ignored r : ~ ignored_decl r -> ignoredb r = false.
Proof. intro H. apply not_true_iff_false. intro E. apply H. now apply ignoredb_true. Qed.

(** ** C01 *)

(** If the macro accepts a struct then every bit position of the backing type
    belongs to exactly one field, every field is at least one bit wide and inside
    the backing type. *)
Theorem C01_partition m F d bf : parse_bitfield m F d = POk bf -> fits_u32 m bf ->
  partition (ty_size (b_ty bf)) (b_fields bf) /\
  Forall (fun f => 1 <= f_bits f /\ 0 <= f_off f /\ f_off f + f_bits f <= ty_size (b_ty bf)) (b_fields bf).
Proof.
  intros H Hfit. pose proof (inv_pos m F d bf H Hfit) as Hpos.
  apply (parse_inv m F d bf H) in Hfit as (_ & _ & _ & _ & _ & _ & _ & _ & _ & Hz & _ & Hl).
  split.
  - intros i Hi. unfold layout in Hl. destruct (a_order (b_args bf)).
    + apply (lsb_cover _ 0 i Hpos Hl). lia.
    + apply (msb_cover _ (ty_size (b_ty bf)) i Hpos Hl). lia.
  - apply Forall_forall. intros f Hf. unfold zpos in Hpos. rewrite Forall_forall in Hpos.
    apply in_split in Hf as (l1 & l2 & E). rewrite E in Hz. unfold widths in Hz.
    rewrite map_app, zsum_app in Hz. cbn [map zsum fold_right] in Hz. fold (zsum (map f_bits l2)) in Hz.
    assert (H1 : 0 <= zsum (map f_bits l1)).
    { apply zsum_nonneg, Forall_map, Forall_forall. intros g Hg.
      assert (1 <= f_bits g); [|lia]. apply Hpos. rewrite E. apply in_or_app. auto. }
    assert (H2 : 0 <= zsum (map f_bits l2)).
    { apply zsum_nonneg, Forall_map, Forall_forall. intros g Hg.
      assert (1 <= f_bits g); [|lia]. apply Hpos. rewrite E. apply in_or_app. right. now right. }
    assert (H3 : 1 <= f_bits f) by (apply Hpos; rewrite E; apply in_or_app; right; now left).
    unfold layout in Hl. destruct (a_order (b_args bf)).
    + rewrite (lsb_split _ _ _ _ _ Hl E). unfold widths. lia.
    + rewrite (msb_split _ _ _ _ _ Hl E). unfold widths. lia.
Qed.
(** No side condition when the macro is built with overflow checks. *)
Theorem C01_checked F d bf : parse_bitfield Checked F d = POk bf ->
  partition (ty_size (b_ty bf)) (b_fields bf) /\
  Forall (fun f => 1 <= f_bits f /\ 0 <= f_off f /\ f_off f + f_bits f <= ty_size (b_ty bf)) (b_fields bf).
Proof. intro H. apply (C01_partition Checked F d bf H). exact I. Qed.

(** Nothing else is needed for the theorems about generated code except that the
    backing type is not bool, that array and custom fields have a usable width, and
    that the defaults have the type of their field. *)
Theorem C01_descriptor_ok m F d bf : parse_bitfield m F d = POk bf -> fits_u32 m bf ->
  b_ty bf <> DInteger TBool ->
  Forall (fun f => match f_ty f with DInteger _ => True | _ => width_ok bf f end) (b_fields bf) ->
  Forall (default_ok bf) (b_fields bf) ->
  bf_ok bf.
Proof.
  intros H Hfit Hb Hw Hd. pose proof (C01_partition m F d bf H Hfit) as [Hp Hf].
  apply (parse_inv m F d bf H) in Hfit as ((t & _ & Ht) & Hc & Hu & _ & _ & _ & _ & _ & Hacc & _ & Hs & _).
  split; [|split; [|exact Hp]].
  - unfold backing_ok. destruct (b_ty bf) as [i|n|]; [split; [exact Hu|congruence]| |congruence].
    cbn in Ht. destruct Ht as (k & _ & -> & Hk). cbn [ty_size] in Hs. lia.
  - rewrite Forall_forall in *. intros f Hin. specialize (Hf f Hin). specialize (Hw f Hin).
    unfold field_ok. repeat split; try tauto; [|apply Hd; exact Hin].
    destruct (Forall2_in_r _ _ _ f Hacc Hin) as (r & _ & Hr). pose proof (acc_hold _ _ _ Hr) as Hh.
    unfold width_ok in *. destruct (f_ty f) as [i|n|]; [|exact Hw|exact Hw].
    destruct i; cbn in *; lia.
Qed.

Example C01_ex :
  (exists bf, parse_bitfield Wrapping no_feature (ex_decl []) = POk bf /\ fits_u32 Wrapping bf /\
     b_ty bf <> DInteger TBool /\ List.length (b_fields bf) = 7%nat) /\
  offsets (parse_bitfield Checked no_feature (ex_decl [])) =
    [("a", 0, 8); ("b", 8, 3); ("c", 11, 4); ("flag", 15, 1); ("_r", 16, 6); ("e", 22, 2); ("_r", 24, 8)]%string.
Proof.
  split; [|vm_compute; reflexivity]. eexists. split; [vm_compute; reflexivity|].
  split; [|split; [discriminate|reflexivity]]. cbn [fits_u32 b_ty b_fields]. split; [reflexivity|].
  split; [reflexivity|]. repeat constructor.
Qed.

(** Without overflow checks in the macro the u32 sum can wrap: three fields of
    2^31, 2^31 and 8 bits are accepted for one byte, and overlap. *)
Definition wrap_decl : rdecl :=
  mkRDecl true VisPublic "W" (Some (RPath "u8")) []
    [fld "a" (AList (RBits 2147483648 "") []) (RPath "Kind") (PInt 0);
     fld "b" (AList (RBits 2147483648 "") []) (RPath "Kind") (PInt 0);
     fld "c" ANone (RPath "u8") (PInt 0)]%string.
Theorem C01_wrapping_refuted : exists bf,
  parse_bitfield Wrapping no_feature wrap_decl = POk bf /\
  ~ partition (ty_size (b_ty bf)) (b_fields bf) /\
  Exists (fun f => ty_size (b_ty bf) < f_off f + f_bits f) (b_fields bf) /\
  parse_bitfield Checked no_feature wrap_decl = PPanic.
Proof.
  eexists. split; [vm_compute; reflexivity|]. split; [|split; [|vm_compute; reflexivity]].
  - intro H. destruct (H 0) as (k & _ & Hu); [cbn; lia|].
    assert (k = 0%nat) by (apply Hu; eexists; split; [reflexivity|unfold covers; cbn; lia]).
    assert (k = 2%nat) by (apply Hu; eexists; split; [reflexivity|unfold covers; cbn; lia]). congruence.
  - apply Exists_cons_hd. cbn. lia.
Qed.

(** ** C02 *)

(** The fields are those declared, in order, and a field starts where the
    documentation says: with lsb order after the fields before it, with msb order
    below them. *)
Theorem C02_offsets m F d bf l1 f l2 : parse_bitfield m F d = POk bf -> fits_u32 m bf ->
  b_fields bf = l1 ++ f :: l2 ->
  (a_order (b_args bf) = Lsb -> f_off f = zsum (map f_bits l1)) /\
  (a_order (b_args bf) = Msb -> f_off f = ty_size (b_ty bf) - zsum (map f_bits (l1 ++ [f])) /\
                                f_off f = zsum (map f_bits l2)).
Proof.
  intros H Hfit E. apply (parse_inv m F d bf H) in Hfit as (_ & _ & _ & _ & _ & _ & _ & _ & _ & Hz & _ & Hl).
  rewrite E in Hz. unfold widths in Hz. rewrite map_app, zsum_app in Hz. cbn [map zsum fold_right] in Hz.
  fold (zsum (map f_bits l2)) in Hz. split; intro Ho; unfold layout in Hl; rewrite Ho in Hl.
  - rewrite (lsb_split _ _ _ _ _ Hl E). unfold widths. lia.
  - pose proof (msb_split _ _ _ _ _ Hl E) as Hx. unfold widths in Hx.
    rewrite map_app, zsum_app. cbn [map zsum fold_right]. lia.
Qed.

(** The descriptor lists the non-ignored declared fields with the declared name,
    type, width, access, default and visibility. *)
Theorem C02_fields_declared m F d bf : parse_bitfield m F d = POk bf -> fits_u32 m bf ->
  Forall2 (decl_matches (d_vis d)) (active d) (b_fields bf).
Proof.
  intros H Hfit. apply (parse_inv m F d bf H) in Hfit as (_ & _ & _ & _ & _ & _ & _ & _ & Hacc & _).
  induction Hacc as [|r f rs fs Hr _ IH]; constructor; [apply Hr|exact IH].
Qed.
(** ... and the order is the one asked for. *)
Theorem C02_order m F d bf : parse_bitfield m F d = POk bf -> args_match F (d_args d) (b_args bf).
Proof.
  intro H. apply parse_iff in H as (ty & args & fs0 & new & Ha & _ & _ & _ & _ & _ & ->).
  apply attribute_inv in Ha as (_ & _ & _ & Ha). apply C50_values in Ha. apply Ha.
Qed.

Lemma fold_args_app {A} (g : A -> string * string -> pr A) l x : forall a,
  fold_args g a (l ++ [x]) = b <~ fold_args g a l ;; g b x.
Proof.
  induction l as [|y l IH]; intro a; cbn [app fold_args].
  - cbn [pbind]. now destruct (g a x).
  - destruct (g a y); cbn [pbind]; [apply IH|reflexivity|reflexivity].
Qed.
Lemma order_arg F args a s o : parse_bitfield_args F args = POk (a, false) -> order_text s o ->
  exists a', parse_bitfield_args F (args ++ [("order"%string, s)]) = POk (a', false) /\ a_order a' = o.
Proof.
  intros H Ho. apply order_iff in Ho.
  assert (Hok : Forall bitfield_arg_ok (args ++ [("order"%string, s)])).
  { apply Forall_app. split; [apply (C50_accepted F); eauto|]. constructor; [|constructor].
    left. split; [reflexivity|]. exists o. now apply order_iff. }
  unfold parse_bitfield_args in *. rewrite bitfield_keys_complete by exact Hok. pinv H u Hu. cbn [pbind].
  rewrite fold_args_app, H. cbn [pbind]. destruct a. cbn. rewrite Ho. cbn. eauto.
Qed.

Lemma msb_rev fs : forall top, msb_layout top fs -> lsb_layout (top - zsum (widths fs)) (rev fs).
Proof.
  assert (Happ : forall l f base, lsb_layout base l -> f_off f = base + zsum (widths l) -> lsb_layout base (l ++ [f])).
  { induction l as [|g l IH]; intros f base Hl Hf; cbn [app lsb_layout].
    - cbn in Hf. split; [lia|exact I].
    - destruct Hl as [Hg Hl]. split; [exact Hg|]. apply IH; [exact Hl|].
      unfold widths in *. cbn [map zsum fold_right] in Hf. fold (zsum (map f_bits l)) in Hf. lia. }
  assert (Hrev : forall l, zsum (widths (rev l)) = zsum (widths l)).
  { induction l as [|g l IH]; [reflexivity|]. cbn [rev]. unfold widths in *. rewrite map_app, zsum_app, IH.
    cbn [map zsum fold_right]. fold (zsum (map f_bits l)). lia. }
  induction fs as [|f t IH]; intros top H; [exact I|]. destruct H as [Hf H]. cbn [rev].
  unfold widths. cbn [map zsum fold_right]. fold (zsum (map f_bits t)). apply Happ.
  - specialize (IH _ H). unfold widths in IH. now replace (top - (f_bits f + zsum (map f_bits t))) with
      (top - f_bits f - zsum (map f_bits t)) by lia.
  - rewrite Hrev. unfold widths. lia.
Qed.

Definition moved (f0 f : field) : Prop := f = with_off f0 (f_off f).
Lemma offs_moved m o ty fs0 : forall prev new, offs m o ty prev fs0 new -> Forall2 moved fs0 new.
Proof.
  induction fs0 as [|f0 t IH]; intros prev [|f new] H; cbn [offs] in H; try contradiction; constructor.
  - apply H.
  - eapply IH, H.
Qed.
Lemma moved_unique fs0 : forall a b base, Forall2 moved fs0 a -> Forall2 moved fs0 b ->
  lsb_layout base a -> lsb_layout base b -> a = b.
Proof.
  induction fs0 as [|f0 t IH]; intros a b base Ha Hb La Lb; inversion Ha; inversion Hb; subst; [reflexivity|].
  cbn [lsb_layout] in La, Lb. destruct La as [Oa La]. destruct Lb as [Ob Lb].
  match goal with H1 : moved f0 ?x, H2 : moved f0 ?y |- ?x :: _ = ?y :: _ =>
    assert (x = y) by (rewrite H1, H2; congruence) end.
  subst. f_equal. eapply IH; eassumption.
Qed.
Lemma filter_rev {A} (p : A -> bool) l : filter p (rev l) = rev (filter p l).
Proof.
  induction l as [|x l IH]; [reflexivity|]. cbn [rev filter]. rewrite filter_app, IH. cbn [filter].
  destruct (p x); [reflexivity|]. now rewrite app_nil_r.
Qed.
Lemma Forall2_rev {A B} (R : A -> B -> Prop) l l' : Forall2 R l l' -> Forall2 R (rev l) (rev l').
Proof.
  induction 1 as [|x y l l' Hxy _ IH]; [constructor|]. cbn [rev]. apply Forall2_app; [exact IH|]. now constructor.
Qed.
Lemma zsum_perm_rev l : zsum (rev l) = zsum l.
Proof. induction l as [|x l IH]; [reflexivity|]. cbn [rev]. rewrite zsum_app, IH. cbn [zsum fold_right]. fold (zsum l). lia. Qed.

(** Declaring with msb order gives the same layout as declaring the fields in
    reverse with lsb order. *)
Theorem C02_msb_is_reversed_lsb m F d bf : parse_bitfield m F d = POk bf -> fits_u32 m bf ->
  a_order (b_args bf) = Msb -> names_ok (rev (d_fields d)) ->
  exists bf', parse_bitfield m F (reversed "lsb" d) = POk bf' /\
    b_fields bf' = rev (b_fields bf) /\ b_ty bf' = b_ty bf /\ a_order (b_args bf') = Lsb.
Proof.
  intros H Hfit Ho Hn. pose proof (inv_pos m F d bf H Hfit) as Hpos.
  pose proof (parse_inv m F d bf H Hfit) as (Ht & Hc & Hu & Ha & Hnm & _ & _ & _ & _ & Hz & Hs & Hl).
  apply parse_iff in H as (ty & args & fs0 & new & _ & _ & _ & H1 & H2 & H3 & ->).
  cbn [b_ty b_args b_fields] in *.
  destruct (order_arg F (d_args d) args "lsb" Lsb Ha eq_refl) as (args' & Ha' & Ho').
  destruct Ht as (t & Ht & Hty).
  assert (Hw : widths new = widths (filter nonign fs0)) by (eapply offs_bits, H2).
  assert (Hnew : Forall (Z.le 0) (widths new)).
  { unfold widths. apply Forall_map. eapply Forall_impl; [|exact Hpos]. cbn. intros. lia. }
  assert (Hrw : zsum (widths (rev (filter nonign fs0))) = ty_size ty).
  { unfold widths in *. rewrite map_rev, zsum_perm_rev. congruence. }
  assert (Hrn : Forall (Z.le 0) (widths (rev (filter nonign fs0)))).
  { unfold widths in *. rewrite map_rev. apply Forall_rev. now rewrite <- Hw. }
  destruct (offs_exists m Lsb ty (rev (filter nonign fs0)) Hc Hs Hrn []) as [new' Hnew'].
  - constructor.
  - rewrite Hrw. cbn. lia.
  - pose proof (offs_bits _ _ _ _ _ _ Hnew') as Hw'.
    assert (E : new' = rev new).
    { apply (moved_unique (rev (filter nonign fs0)) new' (rev new) 0).
      - eapply offs_moved, Hnew'.
      - apply Forall2_rev. eapply offs_moved, H2.
      - apply (offs_lsb m ty _ [] new' Hnew'); [constructor|now rewrite Hw'|].
        right. rewrite Hw', Hrw. cbn. lia.
      - unfold layout in Hl. rewrite Ho in Hl. apply msb_rev in Hl. now rewrite Hz, Z.sub_diag in Hl. }
    exists (mkBitfield (d_vis d) (d_name d) ty new' (filter f_ignored (rev fs0)) args').
    split; [|split; [exact E|split; [reflexivity|exact Ho']]].
    apply parse_iff. exists ty, args', (rev fs0), new'.
    cbn [reversed d_named d_vis d_name d_type d_args d_fields].
    rewrite filter_rev, Ho'. repeat apply conj; try assumption; try reflexivity.
    + eapply attribute_complete; try eassumption.
    + now apply Forall2_rev.
    + apply check_fit_ok; try assumption; rewrite Hw'; assumption.
Qed.
Example C02_ex :
  (exists bf, parse_bitfield Checked no_feature (ex_decl [("order", "MSB")]%string) = POk bf /\
     a_order (b_args bf) = Msb /\ names_ok (rev ex_fields)) /\
  offsets (parse_bitfield Checked no_feature (ex_decl [("order", "MSB")]%string)) =
    [("a", 24, 8); ("b", 21, 3); ("c", 17, 4); ("flag", 16, 1); ("_r", 10, 6); ("e", 8, 2); ("_r", 0, 8)]%string /\
  offsets (parse_bitfield Checked no_feature (reversed "lsb" (ex_decl [("order", "MSB")]%string))) =
    [("_r", 0, 8); ("e", 8, 2); ("_r", 10, 6); ("flag", 16, 1); ("c", 17, 4); ("b", 21, 3); ("a", 24, 8)]%string.
Proof.
  split; [|split; vm_compute; reflexivity]. eexists. split; [vm_compute; reflexivity|]. split; [reflexivity|].
  assert (H : exists bf, parse_bitfield Checked no_feature (reversed "lsb" (ex_decl [("order", "MSB")]%string)) = POk bf)
    by (eexists; vm_compute; reflexivity).
  destruct H as [bf H]. apply parse_iff in H as (? & ? & ? & ? & _ & _ & Hn & _). exact Hn.
Qed.

(** ** C31 *)
Lemma cores_exist m bv rs : (forall r, In r rs -> exists f, core m bv r = POk f) ->
  exists fs, Forall2 (fun r f => core m bv r = POk f) rs fs.
Proof.
  induction rs as [|r t IH]; intro H; [exists []; constructor|].
  destruct (H r) as [f Hf]; [now left|]. destruct IH as [fs Hfs]; [intros; apply H; now right|].
  exists (f :: fs). now constructor.
Qed.
Lemma cores_widths m bv rs : forall fs ds,
  Forall2 (fun r f => core m bv r = POk f /\ ignoredb r = false) rs fs ->
  Forall2 field_valid rs ds -> (forall r, In r rs -> no_i128_min r) ->
  widths fs = map (fun p => width (fst p) (snd p)) (combine rs ds) /\ Forall (Z.le 0) (widths fs).
Proof.
  induction rs as [|r t IH]; intros fs ds H1 H2 H3; inversion H1 as [|? f ? fs' [Hc Hi] Ht]; inversion H2 as [|? dd ? ds' Hv Hvs]; subst.
  - split; [reflexivity|constructor].
  - destruct (core_complete m bv r dd Hv) as (f' & Hc' & _ & Hb); [apply H3; now left|exact Hi|].
    assert (f' = f) by congruence. subst f'. destruct (IH fs' ds' Ht Hvs) as [E En]; [intros; apply H3; now right|].
    unfold widths in *. cbn [map combine fst snd]. rewrite E, Hb. split; [reflexivity|].
    constructor; [|now rewrite <- E]. destruct Hv as (_ & _ & _ & Hw & _). lia.
Qed.
Lemma backing_facts ty : backing_type ty -> ty <> DCustom /\ dt_unsigned ty = true.
Proof.
  destruct ty as [t|n|]; cbn; [|split; [discriminate|reflexivity]|contradiction].
  intro H. split; [discriminate|]. repeat destruct H as [<-|H]; try reflexivity. contradiction.
Qed.

(** A struct with a valid attribute and individually valid fields is accepted
    exactly when the widths of the non-ignored fields add up to the size of the
    backing type (sizes being u32 numbers). *)
Theorem C31_accept_iff m F d ty ds :
  attribute_valid d ty -> fields_valid d ds -> (forall r, In r (active d) -> no_i128_min r) ->
  m = Checked \/ zsum (decl_widths d ds) < 2 ^ 32 /\ ty_size ty < 2 ^ 32 ->
  ((exists bf, parse_bitfield m F d = POk bf) <->
   zsum (decl_widths d ds) = ty_size ty /\ ty_size ty < 2 ^ 32).
Proof.
  intros (Hnm & (t & Ht & Hty) & Hback & Hargs & Hfp) (Hv & Hign & Hn) Hmin Hm.
  apply backing_facts in Hback as [Hc Hu].
  assert (Ha : exists args, parse_bitfield_args F (d_args d) = POk (args, false)).
  { apply (C50_accepted F) in Hargs as (a & fp & E). exists a. rewrite E. do 2 f_equal.
    apply C50_values in E as [_ E]. rewrite E. unfold switch_value.
    destruct (last_of "force_panic" (d_args d)) as [s|]; [|reflexivity].
    apply String.eqb_neq. congruence. }
  destruct Ha as [args Ha].
  assert (Hattr : parse_bitfield_attribute F d = POk (ty, (args, false))) by (eapply attribute_complete; eassumption).
  split.
  - intros [bf H]. apply parse_iff in H as (ty' & args' & fs0 & new & Hat & _ & _ & H1 & H2 & H3 & _).
    rewrite Hattr in Hat. injection Hat as <- <-.
    apply active_cores in H1. fold (active d) in H1.
    destruct (cores_widths _ _ _ _ _ H1 Hv Hmin) as [E En].
    apply offs_bits in H2. fold (decl_widths d ds) in E. rewrite <- E in Hm |- *.
    rewrite <- H2 in Hm |- *. apply (check_fit_inv m ty new H3); [now rewrite H2|exact Hm].
  - intros [Hz Hs].
    destruct (cores_exist m (d_vis d) (d_fields d)) as [fs0 H1].
    { intros r Hr. destruct (ignoredb r) eqn:Ei.
      - destruct (Hign r Hr) as (Hok & dd & Hdd); [now apply ignoredb_true|].
        destruct (core_ignored_complete m (d_vis d) r dd Hok Ei Hdd) as [f Hf]. eauto.
      - assert (Hra : In r (active d)) by (apply active_in; auto).
        destruct (Forall2_in_l _ _ _ r Hv Hra) as (dd & _ & Hdd).
        destruct (core_complete m (d_vis d) r dd Hdd (Hmin r Hra) Ei) as (f & Hf & _). eauto. }
    pose proof (active_cores _ _ _ _ H1) as H1'. fold (active d) in H1'.
    destruct (cores_widths _ _ _ _ _ H1' Hv Hmin) as [E En]. fold (decl_widths d ds) in E.
    destruct (offs_exists m (a_order args) ty (filter nonign fs0) Hc Hs En []) as [new Hnew].
    { constructor. } { rewrite E. cbn. lia. }
    eexists. apply parse_iff. exists ty, args, fs0, new. repeat apply conj; try eassumption; try reflexivity.
    pose proof (offs_bits _ _ _ _ _ _ Hnew) as Hw.
    apply check_fit_ok; try assumption; rewrite Hw; [exact En|congruence].
Qed.
(** Over- and under-full structs are rejected. *)
Theorem C31_wrong_sum_rejected F d ty ds :
  attribute_valid d ty -> fields_valid d ds -> (forall r, In r (active d) -> no_i128_min r) ->
  zsum (decl_widths d ds) <> ty_size ty -> rejected Checked F d.
Proof.
  intros Ha Hf Hm Hz bf H. apply Hz.
  apply (C31_accept_iff Checked F d ty ds Ha Hf Hm (or_introl eq_refl)). eauto.
Qed.


(** Acceptance implies validity: with C31_accept_iff this is the exact set of
    accepted declarations.  [moderate]: no negative literal below -2^127 (those
    are misread, C32_huge_negative_refuted). *)
Definition moderate (r : rfield) : Prop :=
  forall text n, last_arg "default" r = Some text -> const_expr_new text = POk (CLit n true) -> n <= 2 ^ 127.
Lemma accepted_valid bv r f : accepted bv r f -> moderate r -> field_valid r (f_ty f).
Proof.
  intros [H1 H2 H3 H4 H5 H6 H7] Hq. destruct H2 as (_ & Ht & Hb & _).
  unfold field_valid. rewrite <- Hb. repeat apply conj; try assumption; try lia.
  unfold default_valid. destruct (f_ty f) as [t|n|]; auto. rewrite <- Hb.
  intros text number negative Hl Hc. destruct (H6 text number negative Hl Hc) as [[Hr|[-> Hr]] Hn]; [exact Hr|].
  specialize (Hq _ _ Hl Hc). lia.
Qed.
Lemma core_ign m bv r f : core m bv r = POk f -> ignoredb r = true -> attr_ok r /\ exists t, type_is (r_ty r) t.
Proof.
  unfold core. intros H Hi. pinv H a Ha. rewrite (ignored_spec r a Ha), Hi in H.
  apply parse_ignored_fields in H as (_ & _ & _ & Ht). split; [|eauto]. now apply attr_sound in Ha.
Qed.
Theorem C31_accepted_valid m F d bf : parse_bitfield m F d = POk bf -> fits_u32 m bf ->
  (forall r, In r (active d) -> moderate r) ->
  attribute_valid d (b_ty bf) /\ fields_valid d (map f_ty (b_fields bf)) /\
  zsum (decl_widths d (map f_ty (b_fields bf))) = ty_size (b_ty bf).
Proof.
  intros H Hfit Hq.
  pose proof (parse_inv m F d bf H Hfit) as (Ht & Hc & Hu & Ha & Hnm & Hn & _ & _ & Hacc & Hz & _ & _).
  split; [|split].
  - repeat apply conj; try assumption.
    + unfold backing_type. destruct (b_ty bf) as [[]|n|]; try discriminate; try congruence; cbn; tauto.
    + apply (C50_accepted F). eauto.
    + apply C50_values in Ha as [_ Ha]. unfold switch_value in Ha. intro E. rewrite E in Ha. discriminate.
  - repeat apply conj; try assumption.
    + clear Hz. induction Hacc as [|r f rs fs Hr _ IH]; [constructor|]. cbn [map]. constructor.
      * eapply accepted_valid; [exact Hr|]. apply Hq. now left.
      * apply IH. intros r' Hr'. apply Hq. now right.
    + intros r Hr Hi. apply ignoredb_true in Hi.
      apply parse_iff in H as (ty & args & fs0 & new & _ & _ & _ & H1 & _).
      destruct (Forall2_in_l _ _ _ r H1 Hr) as (f & _ & Hf). eapply core_ign; eassumption.
  - rewrite <- Hz. f_equal. unfold decl_widths, widths. clear - Hacc.
    induction Hacc as [|r f rs fs Hr _ IH]; [reflexivity|]. cbn [map combine fst snd]. rewrite IH.
    destruct (acc_match _ _ _ Hr) as (_ & _ & -> & _). reflexivity.
Qed.

Ltac in_list H := repeat destruct H as [H|H]; try contradiction.
Lemma ex_defaults r : In r (active (ex_decl [])) -> moderate r /\ no_i128_min r.
Proof.
  intro H. cbn in H. in_list H; subst r; (split; [intros text n Hl|intros text Hl]).
  all: vm_compute in Hl; try discriminate; injection Hl as <-.
  all: match goal with |- context [const_expr_new ?t] =>
         let v := eval vm_compute in (const_expr_new t) in
         replace (const_expr_new t) with v by (vm_compute; reflexivity) end.
  all: try discriminate.
  intro E. injection E as <-. lia.
Qed.
Example C31_ex : exists ds,
  attribute_valid (ex_decl []) (DInteger U32) /\ fields_valid (ex_decl []) ds /\
  (forall r, In r (active (ex_decl [])) -> no_i128_min r) /\
  zsum (decl_widths (ex_decl []) ds) = ty_size (DInteger U32) /\
  rejected Checked no_feature (mkRDecl true VisPublic "Ex" (Some (RPath "u64")) [] ex_fields).
Proof.
  assert (Hp : exists bf, parse_bitfield Checked no_feature (ex_decl []) = POk bf /\ b_ty bf = DInteger U32)
    by (eexists; split; vm_compute; reflexivity).
  destruct Hp as (bf & Hp & Hty). exists (map f_ty (b_fields bf)).
  destruct (C31_accepted_valid _ _ _ _ Hp I) as (H1 & H2 & H3); [intros r Hr; now apply ex_defaults|].
  rewrite Hty in *. repeat apply conj; try assumption; try apply H2; try apply H1.
  - intros r Hr. now apply ex_defaults.
  - intros b Hb. vm_compute in Hb. discriminate.
Qed.

(** The default -2^127 of an i128 field is valid, but the macro panics. *)
Definition min_decl : rdecl :=
  mkRDecl true VisPublic "M" (Some (RPath "u128")) []
    [fld "a" (AList RNoBits [("default", "-170141183460469231731687303715884105728")]) (RPath "i128")
       (PInt (- 2 ^ 127))]%string.
Theorem C31_i128_min_refuted :
  attribute_valid min_decl (DInteger U128) /\ fields_valid min_decl [DInteger I128] /\
  zsum (decl_widths min_decl [DInteger I128]) = ty_size (DInteger U128) /\
  forall m, parse_bitfield m no_feature min_decl = PPanic.
Proof.
  split; [|split; [|split; [reflexivity|intros []; vm_compute; reflexivity]]].
  - split; [reflexivity|]. split; [exists (RPath "u128"); split; reflexivity|]. split; [cbn; tauto|].
    split; [constructor|discriminate].
  - split; [|split].
    + cbn. constructor; [|constructor]. repeat apply conj; try reflexivity; try discriminate.
      * constructor; [|constructor]. right. right. split; [reflexivity|]. eexists. vm_compute. reflexivity.
      * intros text number negative H. vm_compute in H. injection H as <-. intro Hc.
        match type of Hc with const_expr_new ?t = _ =>
          let v := eval vm_compute in (const_expr_new t) in
          replace (const_expr_new t) with v in Hc by (vm_compute; reflexivity) end.
        injection Hc as <- <-. split; [reflexivity|]. cbn. lia.
    + intros r [<-|[]] Hi. discriminate.
    + intros i j ri rj Hij Hi Hj. destruct j as [|[|j]]; [lia|discriminate|discriminate].
Qed.
(** An array of 2^29 bytes is too large: the macro panics. *)
Definition huge_decl : rdecl :=
  mkRDecl true VisPublic "H" (Some (RArray (RPath "u8") (LenLit 536870912))) []
    [fld "a" (AList (RBits 2147483648 "") []) (RPath "Kind") (PInt 0);
     fld "b" (AList (RBits 2147483648 "") []) (RPath "Kind") (PInt 0)]%string.
Theorem C31_huge_refuted :
  zsum (decl_widths huge_decl [DCustom; DCustom]) = ty_size (DArray 536870912) /\
  parse_bitfield Checked no_feature huge_decl = PPanic.
Proof. split; [reflexivity|vm_compute; reflexivity]. Qed.

(** ** C32: what is rejected *)
Theorem C32_zero_width m F d r : In r (d_fields d) -> ~ ignored_decl r ->
  attr_bits r = Some 0 -> rejected m F d.
Proof.
  intros Hr Hi Hz bf H. apply not_ignored in Hi. destruct (active_core m F d bf r H Hr Hi) as [f Hc].
  assert (Hacc : accepted (d_vis d) r f) by (eapply core_sound; [exact Hc|exact Hi|right; left; congruence]).
  pose proof (acc_width _ _ _ Hacc) as Hw. destruct (acc_match _ _ _ Hacc) as (_ & _ & Hb & _).
  unfold width in Hb. rewrite Hz in Hb. lia.
Qed.
Lemma int_accepted m F d bf r t : parse_bitfield m F d = POk bf -> In r (d_fields d) -> ignoredb r = false ->
  type_is (r_ty r) (DInteger t) -> exists f, accepted (d_vis d) r f /\ f_ty f = DInteger t /\ f_bits f = width r (DInteger t).
Proof.
  intros H Hr Hi Ht. destruct (active_core m F d bf r H Hr Hi) as [f Hc].
  destruct (core_any _ _ _ _ Hc Hi) as (_ & Ht' & _). pose proof (type_is_inj _ _ _ Ht Ht') as E.
  assert (Hacc : accepted (d_vis d) r f).
  { eapply core_sound; [exact Hc|exact Hi|]. right. right. rewrite <- E. destruct t; reflexivity. }
  exists f. destruct (acc_match _ _ _ Hacc) as (_ & _ & Hb & _). rewrite <- E in Hb. auto.
Qed.
Theorem C32_too_wide m F d r t : In r (d_fields d) -> ~ ignored_decl r ->
  type_is (r_ty r) (DInteger t) -> ity_bits t < width r (DInteger t) -> rejected m F d.
Proof.
  intros Hr Hi Ht Hw bf H. apply not_ignored in Hi.
  destruct (int_accepted m F d bf r t H Hr Hi Ht) as (f & Hacc & Ef & Hb).
  pose proof (acc_hold _ _ _ Hacc) as Hh. rewrite Ef in Hh. lia.
Qed.
Theorem C32_custom_without_width m F d r : In r (d_fields d) -> ~ ignored_decl r ->
  type_is (r_ty r) DCustom -> attr_bits r = None -> rejected m F d.
Proof.
  intros Hr Hi Ht Hw bf H. apply not_ignored in Hi. destruct (active_core m F d bf r H Hr Hi) as [f Hc].
  destruct (core_any _ _ _ _ Hc Hi) as (_ & Ht' & Hx & _). apply Hx; [|exact Hw]. eapply type_is_inj; eassumption.
Qed.
Theorem C32_unsupported_type m F d r : In r (d_fields d) -> (forall t, ~ type_is (r_ty r) t) -> rejected m F d.
Proof.
  intros Hr Ht bf H. apply parse_iff in H as (ty & args & fs0 & new & _ & _ & _ & H1 & _).
  destruct (Forall2_in_l _ _ _ r H1 Hr) as (f & _ & Hc). destruct (ignoredb r) eqn:Ei.
  - destruct (core_ign _ _ _ _ Hc Ei) as (_ & t & Hx). exact (Ht t Hx).
  - destruct (core_any _ _ _ _ Hc Ei) as (_ & Hx & _). exact (Ht _ Hx).
Qed.
Theorem C32_bad_attribute m F d r : In r (d_fields d) -> ~ attr_ok r -> rejected m F d.
Proof.
  intros Hr Ha bf H. apply parse_iff in H as (ty & args & fs0 & new & _ & _ & _ & H1 & _).
  destruct (Forall2_in_l _ _ _ r H1 Hr) as (f & _ & Hc). destruct (ignoredb r) eqn:Ei.
  - destruct (core_ign _ _ _ _ Hc Ei) as (Hx & _). contradiction.
  - destruct (core_any _ _ _ _ Hc Ei) as (Hx & _). contradiction.
Qed.
(** Two fields with the same name, the first one not reserved. *)
Theorem C32_duplicate_name m F d i j ri rj : (i < j)%nat ->
  nth_error (d_fields d) i = Some ri -> nth_error (d_fields d) j = Some rj ->
  r_name ri = r_name rj -> ~ reserved_decl ri -> rejected m F d.
Proof.
  intros Hij Hi Hj Hn Hres bf H. apply parse_iff in H as (ty & args & fs0 & new & _ & _ & Hnames & _).
  destruct (Hnames i j ri rj Hij Hi Hj Hn). contradiction.
Qed.
Theorem C32_reserved_access m F d r text : In r (d_fields d) -> ~ ignored_decl r ->
  reserved_decl r -> last_arg "access" r = Some text -> rejected m F d.
Proof.
  intros Hr Hi Hres Hl bf H. apply not_ignored in Hi. destruct (active_core m F d bf r H Hr Hi) as [f Hc].
  destruct (core_any _ _ _ _ Hc Hi) as (_ & _ & _ & _ & Hx & _). rewrite (Hx Hres) in Hl. discriminate.
Qed.
(** A literal default outside the range of the field: unsigned and bool fields
    hold [0 .. 2^n - 1], signed fields are checked against [-2^(n-1) .. 2^n - 1]. *)
Theorem C32_default_out_of_range m F d r t l : In r (d_fields d) -> ~ ignored_decl r ->
  type_is (r_ty r) (DInteger t) -> last_arg "default" r = Some (literal_text l) ->
  literal_ok l -> magnitude l < 2 ^ 128 -> ~ float_like l ->
  (2 ^ width r (DInteger t) <= literal_value l) \/
  (ity_unsigned t = true /\ literal_value l < 0) \/
  (literal_value l < - 2 ^ (width r (DInteger t) - 1) /\ - 2 ^ 127 <= literal_value l) ->
  rejected m F d.
Proof.
  intros Hr Hi Ht Hl Hok Hmag Hfl Hout bf H. apply not_ignored in Hi.
  destruct (int_accepted m F d bf r t H Hr Hi Ht) as (f & Hacc & Ef & Hb).
  pose proof (acc_default _ _ _ Hacc) as Hd. pose proof (acc_width _ _ _ Hacc) as Hw. rewrite Ef, Hb in *.
  destruct (C44_literal_value l Hok Hmag Hfl) as (n & neg & Hc & Hn & Hneg).
  destruct (Hd _ _ _ Hl Hc) as [Ha Hb']. unfold default_accepted, default_in_range in Ha.
  assert (0 < 2 ^ width r (DInteger t)) by (apply Z.pow_pos_nonneg; lia).
  assert (0 < 2 ^ (width r (DInteger t) - 1)) by (apply Z.pow_pos_nonneg; lia).
  assert (Hm0 : 0 <= magnitude l).
  { unfold magnitude. assert (0 < base_of (l_base l)) by (destruct (l_base l); cbn; lia).
    generalize (digits l). assert (Hg : forall ds acc, 0 <= acc -> 0 <= fold_left (fun a d => a * base_of (l_base l) + Z.of_nat d) ds acc).
    { induction ds as [|x ds IH]; intros acc Hacc'; cbn; [exact Hacc'|]. apply IH. nia. }
    intro ds. apply Hg. lia. }
  unfold literal_value in *. destruct (l_minus l).
  - destruct neg; [|destruct Hneg as [_ Hneg]; specialize (Hneg eq_refl); discriminate].
    destruct (Hb' eq_refl) as [Hu Hne]. rewrite Z.abs_opp, Z.abs_eq in Hn by lia. subst n.
    destruct Hout as [Hout|[[Hout _]|[Hout1 Hout2]]]; [lia|congruence|].
    destruct Ha as [[_ Ha]|[_ Ha]]; lia.
  - destruct neg; [destruct Hneg as [Hneg _]; specialize (Hneg eq_refl); discriminate|].
    rewrite Z.abs_eq in Hn by lia. subst n. destruct Ha as [Ha|[Ha _]]; [|discriminate].
    destruct Hout as [Hout|[[_ Hout]|[Hout1 Hout2]]]; lia.
Qed.
(** Below -2^127 the literal wraps around in the check and is accepted. *)
Definition huge_negative_decl : rdecl :=
  mkRDecl true VisPublic "N" (Some (RPath "u8")) []
    [fld "a" (AList RNoBits [("default", "-340282366920938463463374607431768211455")]) (RPath "i8")
       (PInt 1)]%string.
Theorem C32_huge_negative_refuted : exists l,
  literal_ok l /\ literal_text l = "-340282366920938463463374607431768211455"%string /\
  literal_value l < - 2 ^ 7 /\
  exists bf, parse_bitfield Checked no_feature huge_negative_decl = POk bf.
Proof.
  exists (mkLit true false Dec (map (fun d => LDigit d false)
    [3;4;0;2;8;2;3;6;6;9;2;0;9;3;8;4;6;3;4;6;3;3;7;4;6;0;7;4;3;1;7;6;8;2;1;1;4;5;5]%nat) None).
  split; [|split; [reflexivity|split; [reflexivity|]]].
  - repeat split; try reflexivity. cbn. repeat constructor.
  - eexists. vm_compute. reflexivity.
Qed.

(** Every rejection on a concrete declaration. *)
Definition one (r : rfield) : rdecl := mkRDecl true VisPublic "E" (Some (RPath "u8")) [] [r].
Example C32_ex :
  parse_bitfield Checked no_feature (one (fld "a" (AList (RBits 0 "") []) (RPath "u8") (PInt 0))) = PErr EZeroBits /\
  parse_bitfield Checked no_feature (one (fld "a" (AList (RBits 9 "") []) (RPath "u8") (PInt 0))) = PErr ETypeTooSmall /\
  parse_bitfield Checked no_feature (one (fld "a" ANone (RPath "Kind") (PInt 0))) = PErr ECustomNoBits /\
  parse_bitfield Checked no_feature (one (fld "a" ANone (RPath "f32") (PInt 0))) = PErr EFieldType /\
  parse_bitfield Checked no_feature (one (fld "a" (AList RMinus []) (RPath "u8") (PInt 0))) = PErr EBitsMinus /\
  parse_bitfield Checked no_feature (one (fld "_a" (AList RNoBits [("access", "rw")%string]) (RPath "u8") (PInt 0))) = PErr EReservedAccess /\
  parse_bitfield Checked no_feature (one (fld "a" (AList RNoBits [("default", "0x100")%string]) (RPath "u8") (PInt 0))) = PErr EDefaultTooBig /\
  parse_bitfield Checked no_feature (one (fld "a" (AList RNoBits [("default", "-129")%string]) (RPath "i8") (PInt 0))) = PErr EDefaultTooSmall /\
  parse_bitfield Checked no_feature (one (fld "a" (AList RNoBits [("default", "-1")%string]) (RPath "u8") (PInt 0))) = PErr ENegativeUnsigned /\
  parse_bitfield Checked no_feature (mkRDecl true VisPublic "E" (Some (RPath "u16")) []
    [fld "a" ANone (RPath "u8") (PInt 0); fld "a" ANone (RPath "u8") (PInt 0)]) = PErr EDuplicate.
Proof. repeat split. Qed.

(** ** C45 *)
Lemma cores_keep m bv rs fs : Forall2 (fun r f => core m bv r = POk f) rs fs ->
  Forall2 (fun r f => core m bv r = POk f) (filter (fun r => negb (ignoredb r)) rs) (filter nonign fs) /\
  filter nonign (filter nonign fs) = filter nonign fs /\ filter f_ignored (filter nonign fs) = [].
Proof.
  induction 1 as [|r f rs fs Hc _ (IH1 & IH2 & IH3)]; [repeat constructor|]. cbn [filter].
  pose proof (core_ignored _ _ _ _ Hc) as E.
  assert (En : nonign f = negb (ignoredb r)) by (unfold nonign; now rewrite E).
  rewrite En. destruct (ignoredb r); cbn [negb] in *; [auto|]. cbn [filter]. rewrite En, E, IH2, IH3.
  split; [constructor; assumption|auto].
Qed.
Lemma active_keep d : active (keep_active d) = active d.
Proof.
  unfold keep_active, active at 1. cbn [d_fields]. unfold active.
  induction (d_fields d) as [|r t IH]; [reflexivity|]. cbn [filter].
  destruct (ignoredb r) eqn:E; cbn [negb]; [exact IH|]. cbn [filter]. rewrite E. cbn [negb]. now rewrite IH.
Qed.

(** Removing the ignored fields from an accepted struct leaves it accepted, with
    the same descriptor (offsets, widths, access, defaults) for all others. *)
Theorem C45_remove_ignored m F d bf : parse_bitfield m F d = POk bf ->
  parse_bitfield m F (keep_active d) = POk (drop_ignored bf).
Proof.
  intro H. apply parse_iff in H as (ty & args & fs0 & new & Ha & Hnm & Hn & H1 & H2 & H3 & ->).
  apply parse_iff. destruct (cores_keep _ _ _ _ H1) as (K1 & K2 & K3).
  exists ty, args, (filter nonign fs0), new. cbn [keep_active d_named d_vis d_name d_type d_args d_fields].
  rewrite K2, K3. repeat apply conj; try assumption; try reflexivity.
  unfold active. now apply names_ok_filter.
Qed.
(** Conversely ignored fields of supported types, with names of their own, can be
    added anywhere. *)
Theorem C45_add_ignored m F d bf : parse_bitfield m F (keep_active d) = POk bf ->
  names_ok (d_fields d) ->
  (forall r, In r (d_fields d) -> ignored_decl r -> attr_ok r /\ exists t, type_is (r_ty r) t) ->
  exists bf', parse_bitfield m F d = POk bf' /\ drop_ignored bf' = bf.
Proof.
  intros H Hn Hi. pose proof (parse_core m F _ bf H) as Hcore. rewrite active_keep in Hcore.
  apply parse_iff in H as (ty & args & fs0 & new & Ha & Hnm & _ & H1 & H2 & H3 & ->).
  cbn [keep_active d_named d_vis d_name d_type d_args d_fields b_fields] in *.
  destruct (cores_exist m (d_vis d) (d_fields d)) as [fs Hfs].
  { intros r Hr. destruct (ignoredb r) eqn:E.
    - destruct (Hi r Hr) as (Hok & dd & Hdd); [now apply ignoredb_true|].
      exact (core_ignored_complete m (d_vis d) r dd Hok E Hdd).
    - destruct (Forall2_in_l _ _ _ r Hcore) as (f & _ & f0 & Hc & _); [apply active_in; auto|]. eauto. }
  destruct (cores_keep _ _ _ _ Hfs) as (K1 & K2 & K3). fold (active d) in K1.
  assert (E : filter nonign fs = fs0).
  { clear - K1 H1. revert K1 H1. generalize (active d) (filter nonign fs). intros rs l H. revert fs0.
    induction H as [|r f rs fs' Hc _ IH]; intros fs0 H; inversion H; subst; [reflexivity|].
    f_equal; [congruence|auto]. }
  subst fs0. rewrite K2, K3 in *. eexists. split; [|].
  - apply parse_iff. exists ty, args, fs, new. repeat apply conj; try eassumption. reflexivity.
  - reflexivity.
Qed.
(** Two structs that differ only in their ignored fields have the same layout. *)
Theorem C45_same_layout m F d d' bf bf' :
  parse_bitfield m F d = POk bf -> parse_bitfield m F d' = POk bf' -> keep_active d = keep_active d' ->
  b_fields bf = b_fields bf' /\ b_args bf = b_args bf'.
Proof.
  intros H H' E. apply C45_remove_ignored in H, H'. rewrite E, H' in H. injection H as _ _ _ H1 H2.
  split; congruence.
Qed.
Example C45_ex :
  (exists bf, parse_bitfield Checked no_feature (ex_decl []) = POk bf /\ List.length (b_ignored bf) = 1%nat /\
     List.length (d_fields (keep_active (ex_decl []))) = 7%nat) /\
  names_ok ex_fields /\
  (forall r, In r ex_fields -> ignored_decl r -> attr_ok r /\ exists t, type_is (r_ty r) t).
Proof.
  assert (H : exists bf, parse_bitfield Checked no_feature (ex_decl []) = POk bf) by (eexists; vm_compute; reflexivity).
  split; [eexists; split; [vm_compute; reflexivity|split; reflexivity]|].
  destruct H as [bf H]. apply parse_iff in H as (? & ? & ? & ? & _ & _ & Hn & H1 & _). split; [exact Hn|].
  intros r Hr Hi. apply ignoredb_true in Hi. destruct (Forall2_in_l _ _ _ r H1 Hr) as (f & _ & Hf).
  eapply core_ign; eassumption.
Qed.
(** An ignored field of any other type (a float, usize, a tuple, ...) crashes the
    macro. *)
Theorem C45_unsupported_refuted :
  let d t := mkRDecl true VisPublic "E" (Some (RPath "u8")) []
    [fld "a" ANone (RPath "u8") (PInt 0); fld "b" (AList RNoBits [("ignore", "true")]) t (PInt 0)]%string in
  (exists bf, parse_bitfield Checked no_feature (keep_active (d (RPath "f32"))) = POk bf) /\
  parse_bitfield Checked no_feature (d (RPath "f32"%string)) = PPanic /\
  parse_bitfield Checked no_feature (d (RPath "usize"%string)) = PPanic /\
  parse_bitfield Checked no_feature (d ROther) = PPanic.
Proof. cbv zeta. split; [eexists; vm_compute; reflexivity|]. repeat split. Qed.

(** ** C48 *)

(** Declared field number [k] and its descriptor. *)
Definition nth_pair (d : rdecl) (bf : bitfield) (k : nat) (r : rfield) (f : field) : Prop :=
  nth_error (active d) k = Some r /\ nth_error (b_fields bf) k = Some f.
Lemma pair_core m F d bf k r f : parse_bitfield m F d = POk bf -> nth_pair d bf k r f ->
  exists f0, core m (d_vis d) r = POk f0 /\ ignoredb r = false /\ f_access f = f_access f0 /\ f_reserved f = f_reserved f0.
Proof.
  intros H [Hr Hf]. apply parse_core in H. destruct (Forall2_nth _ _ _ H k r f Hr Hf) as (f0 & Hc & Hi & E).
  exists f0. rewrite E. auto.
Qed.

(** A non-reserved field has the access of its (last) access argument, rw
    without one. *)
Theorem C48_nonreserved m F d bf k r f : parse_bitfield m F d = POk bf -> nth_pair d bf k r f ->
  ~ reserved_decl r ->
  f_reserved f = false /\
  match last_arg "access" r with Some s => access_text s (f_access f) | None => f_access f = ReadWrite end.
Proof.
  intros H Hp Hr. destruct (pair_core m F d bf k r f H Hp) as (f0 & Hc & Hi & -> & ->).
  destruct (core_any _ _ _ _ Hc Hi) as (_ & _ & _ & Ha & _ & Hres). split.
  - apply not_true_iff_false. intro E. apply Hr. now apply Hres.
  - unfold access_matches in Ha. destruct (last_arg "access" r); [exact Ha|]. now apply Ha.
Qed.
(** A reserved field is read-only when it has a default and inaccessible when it
    has no attribute; it never has a setter and is never writable. *)
Theorem C48_reserved m F d bf k r f : parse_bitfield m F d = POk bf -> nth_pair d bf k r f ->
  reserved_decl r ->
  f_reserved f = true /\ (last_arg "default" r <> None -> f_access f = ReadOnly) /\
  (r_attr r = ANone -> f_access f = NoAccess) /\ ~ writable f.
Proof.
  intros H Hp Hr. destruct (pair_core m F d bf k r f H Hp) as (f0 & Hc & Hi & Ea & Er).
  destruct (core_any _ _ _ _ Hc Hi) as (_ & _ & _ & Ha & Hx & Hres).
  rewrite Ea, Er. unfold access_matches in Ha. rewrite (Hx Hr) in Ha. destruct Ha as (_ & Ha1 & Ha2).
  apply Hres in Hr as Hrt. repeat split; auto. unfold writable. rewrite Er, Hrt. intros [E _]. discriminate.
Qed.
(** No bit of a reserved field is writable through any bit operation (the bit
    operation theorems C15-C17 and C25 are stated with [bit_writable]). *)
Theorem C48_reserved_bits m F d bf k r f i : parse_bitfield m F d = POk bf -> fits_u32 m bf ->
  nth_pair d bf k r f -> reserved_decl r -> covers f i -> ~ bit_writable bf i.
Proof.
  intros H Hfit Hp Hr Hc (g & Hg & Hcg & Hw).
  destruct (C01_partition m F d bf H Hfit) as [Hpart Hb]. rewrite Forall_forall in Hb.
  destruct Hp as [Hr' Hf]. pose proof (Hb f (nth_error_In _ _ Hf)) as Hbf.
  destruct (Hpart i) as (k0 & _ & Hu); [unfold covers in Hc; lia|].
  apply In_nth_error in Hg as [j Hj].
  assert (k0 = k) by (apply Hu; eauto). assert (k0 = j) by (apply Hu; eauto). subst j k0.
  rewrite Hf in Hj. injection Hj as <-.
  destruct (C48_reserved m F d bf k r f H (conj Hr' Hf) Hr) as (_ & _ & _ & Hn). contradiction.
Qed.
Example C48_ex : exists bf, parse_bitfield Checked no_feature (ex_decl []) = POk bf /\
  (exists r f, nth_pair (ex_decl []) bf 3 r f /\ ~ reserved_decl r /\ last_arg "access" r = Some "ro"%string) /\
  (exists r f, nth_pair (ex_decl []) bf 4 r f /\ reserved_decl r /\ last_arg "default" r <> None /\ covers f 16) /\
  (exists r f, nth_pair (ex_decl []) bf 6 r f /\ reserved_decl r /\ r_attr r = ANone).
Proof.
  eexists. split; [vm_compute; reflexivity|]. split; [|split].
  - do 2 eexists. split; [split; reflexivity|]. split; [intros [x Hx]; discriminate|reflexivity].
  - do 2 eexists. split; [split; reflexivity|]. split; [eexists; reflexivity|]. split; [discriminate|].
    unfold covers. cbn. lia.
  - do 2 eexists. split; [split; reflexivity|]. split; [eexists; reflexivity|reflexivity].
Qed.
(** A reserved field whose attribute has a width but no default gets rw access, so
    its bits can be read by [get_bit]; documented is no access. *)
Theorem C48_reserved_width_refuted : exists bf f,
  parse_bitfield Checked no_feature (one (fld "_r" (AList (RBits 8 "") []) (RPath "u8") (PInt 0))) = POk bf /\
  nth_error (b_fields bf) 0 = Some f /\ f_access f = ReadWrite /\ bit_readable bf 0.
Proof.
  do 2 eexists. split; [vm_compute; reflexivity|]. split; [reflexivity|]. split; [reflexivity|].
  eexists. split; [left; reflexivity|]. split; [unfold covers; cbn; lia|]. right. reflexivity.
Qed.
