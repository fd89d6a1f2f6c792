(** Theorems about the generated items (C34, C36, C52, C53, C56). *)
From Coq Require Import ZArith List Bool String Ascii Lia.
From Verif Require Import RustInt Syntax ConstExpr Words Parser Spec SpecDecl ParserLemmas ParserLoop PropArgs PropParse
  Surface SpecSurface SurfaceLemmas.
Import ListNotations.
Open Scope Z_scope.

(** Computed surfaces. *)
Definition surface_of (F : features) (d : rdecl) : option surface :=
  match parse_bitfield Checked F d with
  | POk bf => match generate bf with Val s => Some s | Panic => None end
  | _ => None
  end.
Definition names_of (l : list item) : list string := map it_name l.
Definition field_items (x : option surface) : list (string * vis) :=
  match x with
  | Some s => map (fun it => (it_name it, it_vis it)) (filter (fun it => match it_field it with Some _ => true | None => false end) (s_impl s))
  | None => []
  end.
Definition whole_items (x : option surface) : list string :=
  match x with
  | Some s => names_of (filter (fun it => match it_field it with Some _ => false | None => true end) (s_impl s))
  | None => []
  end.

(** ** C34 *)

(** A field has an item exactly when its declaration says so. *)
Theorem C34_items m F d bf s k r f ro : parse_bitfield m F d = POk bf -> generate bf = Val s ->
  nth_pair d bf k r f ->
  (has_item (s_impl s) ro f <-> item_expected F (d_args d) ro r).
Proof.
  intros H Hs Hp. rewrite (generate_impl bf s Hs).
  assert (E : has_item (impl_list bf) ro f <-> field_has bf ro f = true).
  { unfold has_item. split.
    - intros (it & Hi & <- & Hf). destruct (proj1 (impl_list_field bf it f) (conj Hi Hf)) as (_ & ro & Hro & ->). exact Hro.
    - intro Hro. exists (made ro (item_vis bf ro f) f). split; [|split; reflexivity].
      apply (impl_list_field bf _ f). split; [|eauto]. destruct Hp as [_ Hf]. eapply nth_error_In, Hf. }
  rewrite E. clear E.
  pose proof (pair_getter m F d bf k r f H Hp) as Hg. pose proof (pair_setter m F d bf k r f H Hp) as Hw.
  pose proof (clear_spec F d bf m H) as Hc. pose proof (invert_spec F d bf m H) as Hi.
  destruct (pair_shape m F d bf k r f H Hp) as (_ & _ & Hd).
  assert (Hdef : has_default f = true <-> last_arg "default" r <> None).
  { unfold has_default. rewrite Hd. destruct (last_arg "default" r); intuition congruence. }
  destruct ro; cbn [field_has item_expected]; unfold has_constants;
    rewrite ?orb_true_iff, ?andb_true_iff, ?Hg, ?Hw, ?Hc, ?Hi, ?Hdef; intuition congruence.
Qed.

(** Every item made for a field carries the documented name and belongs to a
    declared field that is neither reserved nor ignored; there is at most one item
    of each kind per field. *)
Lemma capital_upper c : to_capital c = upper c.
Proof. destruct c as [[][][][][][][][]]; reflexivity. Qed.
Lemma capitals_uppercase s : capitals s = uppercase s.
Proof. unfold capitals, uppercase. f_equal. apply map_ext, capital_upper. Qed.
Theorem C34_names m F d bf s it f : parse_bitfield m F d = POk bf -> generate bf = Val s ->
  In it (s_impl s) -> it_field it = Some f ->
  exists k r, nth_pair d bf k r f /\ ~ reserved_decl r /\ ~ ignored_decl r /\
    it_name it = documented_name (it_role it) (r_name r).
Proof.
  intros H Hs Hi Hf. pose proof Hi as Hi0. rewrite (generate_impl bf s Hs) in Hi.
  destruct (proj1 (impl_list_field bf it f) (conj Hi Hf)) as (Hin & ro & Hro & E).
  destruct (pair_of_field m F d bf f H Hin) as (k & r & Hp). exists k, r. split; [exact Hp|].
  destruct (pair_shape m F d bf k r f H Hp) as (Hn & _).
  assert (Hx : item_expected F (d_args d) (it_role it) r).
  { apply (C34_items m F d bf s k r f _ H Hs Hp). exists it. auto. }
  split; [|split].
  - destruct (it_role it); cbn in Hx; unfold read_decl, write_decl in Hx; tauto.
  - destruct Hp as [Hr _]. apply nth_error_In, active_in in Hr as [_ Hr]. intro Hy.
    apply ignoredb_true in Hy. congruence.
  - subst it. cbn [made it_name it_role]. rewrite Hn. destruct ro; cbn [documented_name]; rewrite ?capitals_uppercase; reflexivity.
Qed.
Theorem C34_unique m F d bf s it it' f : parse_bitfield m F d = POk bf -> generate bf = Val s ->
  In it (s_impl s) -> In it' (s_impl s) -> it_field it = Some f -> it_field it' = Some f ->
  it_role it = it_role it' -> it = it'.
Proof.
  intros _ Hs Hi Hi' Hf Hf' E. rewrite (generate_impl bf s Hs) in Hi, Hi'.
  destruct (proj1 (impl_list_field bf it f) (conj Hi Hf)) as (_ & ro & _ & ->).
  destruct (proj1 (impl_list_field bf it' f) (conj Hi' Hf')) as (_ & ro' & _ & ->).
  cbn [made it_role] in E. now subst.
Qed.

(** The builder has functions for every field that is not reserved, whatever its
    access. *)
Lemma builder_val bf s n l : generate bf = Val s -> s_builder s = Some (n, l) ->
  a_builder (b_args bf) = true /\ n = (b_name bf ++ "Builder")%string /\
  l = (whole bf ["new"; "new_without_defaults"]%string ++
       made_all [(RWith, field_visibility); (RCheckedWith, field_visibility)] (filter (fun f => negb (f_reserved f)) (b_fields bf)) ++
       whole bf ["build"%string])%list.
Proof.
  intros Hs Hb. unfold generate in Hs. binv Hs i Hi. binv Hs b Hx. injection Hs as <-. cbn [s_builder] in Hb. subst b.
  unfold builder in Hx. destruct (a_builder (b_args bf)); [|discriminate]. binv Hx n' Hn. binv Hx l' Hl.
  injection Hx as -> ->. apply mk_ident_val in Hn. split; [reflexivity|]. split; [exact Hn|].
  unfold builder_items in Hl. binv Hl x Hx. apply per_field_val in Hx. injection Hl as <-. now subst x.
Qed.
Theorem C34_builder m F d bf s n l k r f ro : parse_bitfield m F d = POk bf -> generate bf = Val s ->
  s_builder s = Some (n, l) -> nth_pair d bf k r f ->
  (has_item l ro f <-> (ro = RWith \/ ro = RCheckedWith) /\ ~ reserved_decl r).
Proof.
  intros H Hs Hb Hp. destruct (builder_val bf s n l Hs Hb) as (_ & _ & ->).
  pose proof (pair_reserved m F d bf k r f H Hp) as Hr.
  assert (Hn : ~ reserved_decl r <-> f_reserved f = false).
  { rewrite <- Hr. destruct (f_reserved f); intuition congruence. }
  rewrite Hn. unfold has_item. split.
  - intros (it & Hi & <- & Hf). rewrite !in_app_iff, !whole_in, made_all_in in Hi.
    destruct Hi as [(x & _ & ->)|[(g & p & Hg & Hx & ->)|(x & _ & ->)]]; try discriminate.
    cbn [made it_field] in Hf. injection Hf as ->. apply filter_In in Hg as [_ Hg]. apply negb_true_iff in Hg.
    destruct Hx as [<-|[<-|[]]]; cbn; auto.
  - intros [Hro Hg].
    assert (Hin : In f (filter (fun f => negb (f_reserved f)) (b_fields bf))).
    { apply filter_In. split; [destruct Hp as [_ Hf]; eapply nth_error_In, Hf|now rewrite Hg]. }
    exists (made ro (field_visibility f) f). split; [|split; reflexivity].
    rewrite !in_app_iff. right. left. apply made_all_in.
    destruct Hro as [->| ->]; eexists f, (_, field_visibility); cbn; eauto.
Qed.

(** Three fields with different access, a reserved and an ignored one. *)
Definition vis_fld (v : vis) (name : string) (a : rattr) : rfield := mkRField name v a (RPath "u8") (PInt 1) ex_cd.
Definition api_decl (args : list (string * string)) : rdecl :=
  mkRDecl true VisPublic "Api" (Some (RPath "u32")) args
    [vis_fld VisPublic "x" (AList RNoBits [("access", "ro")]);
     vis_fld VisPublic "y" (AList RNoBits [("access", "wo"); ("default", "1")]);
     vis_fld VisPrivate "_pad" ANone;
     vis_fld VisPublic "skip" (AList RNoBits [("ignore", "true")]);
     vis_fld VisPrivate "z" ANone]%string.
Example C34_ex :
  map fst (field_items (surface_of no_feature (api_decl []))) =
  ["X_BITS"; "X_OFFSET"; "Y_BITS"; "Y_OFFSET"; "Z_BITS"; "Z_OFFSET"; "x"; "z";
   "set_y"; "checked_set_y"; "set_z"; "checked_set_z"; "clear_y"; "clear_z"; "clear_y_to_default";
   "invert_y"; "invert_z"; "x_inverted"; "z_inverted"]%string /\
  (exists s, surface_of no_feature (api_decl []) = Some s /\
     option_map (fun b => names_of (snd b)) (s_builder s) =
     Some ["new"; "new_without_defaults"; "with_x"; "checked_with_x"; "with_y"; "checked_with_y";
           "with_z"; "checked_with_z"; "build"]%string).
Proof. split; [vm_compute; reflexivity|]. eexists. split; vm_compute; reflexivity. Qed.

(** ** C36, C56 *)

Lemma whole_spec bf s n : generate bf = Val s -> has_function (s_impl s) n <-> In n (whole_list bf).
Proof.
  intro Hs. rewrite (generate_impl bf s Hs). unfold has_function. split.
  - intros (it & Hi & _ & Hf & <-). destruct (proj1 (impl_list_whole bf it) (conj Hi Hf)) as (n & Hn & ->). exact Hn.
  - intro Hn. exists (mkItem RWhole None (b_vis bf) n). repeat split. apply (impl_list_whole bf). eauto.
Qed.
(** The groups have no name in common, whatever the backing. *)
Fixpoint disjointb (a b : list string) : bool :=
  match a with [] => true | x :: t => negb (existsb (String.eqb x) b) && disjointb t b end.
Lemma disjointb_spec a b n : disjointb a b = true -> In n a -> ~ In n b.
Proof.
  induction a as [|x a IH]; cbn [disjointb]; intros H Hn Hb; [destruct Hn|].
  apply andb_prop in H as [H1 H2]. destruct Hn as [->|Hn]; [|exact (IH H2 Hn Hb)].
  apply negb_true_iff, not_true_iff_false in H1. apply H1, existsb_exists. exists n.
  split; [exact Hb|apply String.eqb_refl].
Qed.
Definition same_names (a b : list string) : Prop := forall n : string, In n a <-> In n b.
Definition inclb (a b : list string) : bool := forallb (fun x => existsb (String.eqb x) b) a.
Lemma inclb_spec a b n : inclb a b = true -> In n a -> In n b.
Proof.
  unfold inclb. rewrite forallb_forall. intros H Hn. apply H, existsb_exists in Hn as (x & Hx & E).
  apply String.eqb_eq in E. now subst.
Qed.
Lemma same_names_b a b : inclb a b && inclb b a = true -> same_names a b.
Proof. intros H n. apply andb_prop in H as [H1 H2]. split; eapply inclb_spec; eassumption. Qed.
Lemma api_names bf : b_ty bf <> DCustom ->
  same_names (conversion_names bf) (conversion_api (b_ty bf)) /\
  same_names (write_names bf) (write_api (b_ty bf)) /\
  same_names (set_get_names bf) (set_get_api (b_ty bf)) /\
  same_names (clear_names bf) (clear_api (b_ty bf)) /\
  same_names (invert_names bf) (invert_api (b_ty bf)).
Proof.
  intro H. unfold conversion_names, write_names, set_get_names, clear_names, invert_names, bob, is_integer_backed.
  destruct (b_ty bf) as [t|k|]; [| |congruence]; repeat apply conj; apply same_names_b; vm_compute; reflexivity.
Qed.
Definition groups (ty : dtype) : list (list string) :=
  [new_api; conversion_api ty; write_api ty; set_get_api ty; clear_api ty; invert_api ty].
Lemma groups_disjoint ty i j a b n : ty <> DCustom -> nth_error (groups ty) i = Some a -> nth_error (groups ty) j = Some b ->
  i <> j -> In n a -> ~ In n b.
Proof.
  intros Ht Ha Hb Hij. apply disjointb_spec.
  destruct ty as [t|k|]; [| |congruence];
    do 6 (destruct i as [|i]; [cbn in Ha; injection Ha as <-;
      do 6 (destruct j as [|j]; [cbn in Hb; injection Hb as <-; first [congruence|vm_compute; reflexivity]|]);
      destruct j; discriminate|]);
    destruct i; discriminate.
Qed.

(** The functions of the whole bitfield, by group: present as a whole or not at
    all. *)
Lemma whole_groups m F d bf s : parse_bitfield m F d = POk bf -> generate bf = Val s ->
  forall i g on, nth_error (groups (b_ty bf)) i = Some g ->
    nth_error [a_new (b_args bf); a_from_into_bits (b_args bf); write_on bf; set_get_on bf; clear_on bf; invert_on bf] i = Some on ->
    (on = true -> all_of (s_impl s) g) /\ (on = false -> none_of (s_impl s) g).
Proof.
  intros H Hs i g on Hg Ho.
  assert (Hc : b_ty bf <> DCustom).
  { apply parse_iff in H as (ty & args & fs0 & new & Ha & _ & _ & _ & _ & _ & ->). apply attribute_inv in Ha. tauto. }
  destruct (api_names bf Hc) as (E1 & E2 & E3 & E4 & E5).
  assert (W : forall n, has_function (s_impl s) n <-> exists j g' on', nth_error (groups (b_ty bf)) j = Some g' /\
    nth_error [a_new (b_args bf); a_from_into_bits (b_args bf); write_on bf; set_get_on bf; clear_on bf; invert_on bf] j = Some on' /\
    on' = true /\ In n g').
  { intro n. rewrite (whole_spec bf s n Hs). unfold whole_list. rewrite !in_app_iff.
    assert (K : forall (b : bool) (l g0 : list string), same_names l g0 -> (In n (if b then l else []) <-> b = true /\ In n g0)).
    { intros b l g0 E. destruct b; cbn [In]; rewrite ?(E n); intuition congruence. }
    rewrite (K _ _ new_api) by (intro; reflexivity). rewrite (K _ _ _ E1), (K _ _ _ E2), (K _ _ _ E3), (K _ _ _ E4), (K _ _ _ E5).
    split.
    - intros [[? ?]|[[? ?]|[[? ?]|[[? ?]|[[? ?]|[? ?]]]]]].
      + exists 0%nat, new_api, (a_new (b_args bf)). auto.
      + exists 1%nat, (conversion_api (b_ty bf)), (a_from_into_bits (b_args bf)). auto.
      + exists 2%nat, (write_api (b_ty bf)), (write_on bf). auto.
      + exists 3%nat, (set_get_api (b_ty bf)), (set_get_on bf). auto.
      + exists 4%nat, (clear_api (b_ty bf)), (clear_on bf). auto.
      + exists 5%nat, (invert_api (b_ty bf)), (invert_on bf). auto.
    - intros (j & g' & on' & Hj & Hj' & -> & Hn).
      do 6 (destruct j as [|j]; [cbn in Hj, Hj'; injection Hj as <-; injection Hj' as Hj'; rewrite ?Hj'; tauto|]).
      destruct j; discriminate. }
  split; intros -> n Hn.
  - apply W. eauto 10.
  - intro Hx. apply W in Hx as (j & g' & on' & Hj & Hj' & -> & Hn').
    destruct (Nat.eq_dec i j) as [->|Hij]; [congruence|].
    exact (groups_disjoint _ _ _ _ _ n Hc Hg Hj Hij Hn Hn').
Qed.

(** The clear, set/get and invert groups follow their switches. *)
Theorem C36_groups m F d bf s : parse_bitfield m F d = POk bf -> generate bf = Val s ->
  (clear_documented F (d_args d) -> all_of (s_impl s) (clear_api (b_ty bf))) /\
  (~ clear_documented F (d_args d) -> none_of (s_impl s) (clear_api (b_ty bf))) /\
  (set_get_documented F (d_args d) -> all_of (s_impl s) (set_get_api (b_ty bf))) /\
  (~ set_get_documented F (d_args d) -> none_of (s_impl s) (set_get_api (b_ty bf))) /\
  (invert_documented F (d_args d) -> all_of (s_impl s) (invert_api (b_ty bf))) /\
  (~ invert_documented F (d_args d) -> none_of (s_impl s) (invert_api (b_ty bf))).
Proof.
  intros H Hs. pose proof (whole_groups m F d bf s H Hs) as W.
  rewrite <- (clear_spec F d bf m H), <- (set_get_spec F d bf m H), <- (invert_spec F d bf m H), !not_true_iff_false.
  destruct (W 4%nat _ _ eq_refl eq_refl), (W 3%nat _ _ eq_refl eq_refl), (W 5%nat _ _ eq_refl eq_refl). auto 10.
Qed.
(** The write group follows the master switch alone. *)
Theorem C36_write_actual m F d bf s : parse_bitfield m F d = POk bf -> generate bf = Val s ->
  (bit_ops_on F (d_args d) -> all_of (s_impl s) (write_api (b_ty bf))) /\
  (~ bit_ops_on F (d_args d) -> none_of (s_impl s) (write_api (b_ty bf))).
Proof.
  intros H Hs. destruct (whole_groups m F d bf s H Hs 2%nat _ _ eq_refl eq_refl) as [W1 W2].
  assert (E : write_on bf = a_bit_ops (b_args bf)).
  { unfold write_on, group_on. now destruct (a_bit_ops (b_args bf)). }
  rewrite <- (bit_ops_spec F d bf m H), !not_true_iff_false, <- E. auto.
Qed.

Example C36_ex :
  whole_items (surface_of no_feature (api_decl [("bit_ops", "false"); ("set_get_bit_ops", "true"); ("new", "false"); ("from_into_bits", "false")]))
  = ["set_bit"; "checked_set_bit"; "set_bits_range"; "checked_set_bits_range";
     "get_bit"; "checked_get_bit"; "get_bits_range"; "checked_get_bits_range"]%string /\
  whole_items (surface_of no_feature (api_decl [("clear_bit_ops", "false"); ("invert_bit_ops", "false"); ("new", "false"); ("from_into_bits", "false")]))
  = ["write_bits"; "write_bits_with_defaults"; "write_le_bits"; "write_le_bits_with_defaults";
     "write_be_bits"; "write_be_bits_with_defaults"; "write_defaults";
     "set_bit"; "checked_set_bit"; "set_bits_range"; "checked_set_bits_range";
     "get_bit"; "checked_get_bit"; "get_bits_range"; "checked_get_bits_range"]%string.
Proof. split; vm_compute; reflexivity. Qed.

(** [write_bit_ops] has no effect: set to false the functions exist, set to true
    with [bit_ops = false] they do not. *)
Theorem C36_write_refuted :
  (exists bf s, parse_bitfield Checked no_feature (api_decl [("write_bit_ops", "false")]%string) = POk bf /\
     generate bf = Val s /\ ~ write_documented no_feature [("write_bit_ops", "false")]%string /\
     all_of (s_impl s) (write_api (b_ty bf))) /\
  (exists bf s, parse_bitfield Checked no_feature (api_decl [("bit_ops", "false"); ("write_bit_ops", "true")]%string) = POk bf /\
     generate bf = Val s /\ write_documented no_feature [("bit_ops", "false"); ("write_bit_ops", "true")]%string /\
     none_of (s_impl s) (write_api (b_ty bf))).
Proof.
  split; (eexists; eexists; split; [vm_compute; reflexivity|]; split; [vm_compute; reflexivity|]; split).
  - unfold write_documented, documented, bit_ops_on, switch_on. vm_compute. intuition congruence.
  - eapply C36_write_actual with (m := Checked) (F := no_feature) (d := api_decl [("write_bit_ops", "false")]%string);
      [vm_compute; reflexivity|vm_compute; reflexivity|]. vm_compute. reflexivity.
  - unfold write_documented, documented, bit_ops_on, switch_on. right. vm_compute. split; congruence.
  - eapply C36_write_actual with (m := Checked) (F := no_feature) (d := api_decl [("bit_ops", "false"); ("write_bit_ops", "true")]%string);
      [vm_compute; reflexivity|vm_compute; reflexivity|]. vm_compute. congruence.
Qed.

(** ** C56: the other switches *)

(** [new] and the conversion functions follow their switches, and there are no
    other functions. *)
Theorem C56_functions m F d bf s : parse_bitfield m F d = POk bf -> generate bf = Val s ->
  let args := d_args d in
  (switch_on F args "new" "generate_new" "disable_new" -> all_of (s_impl s) new_api) /\
  (~ switch_on F args "new" "generate_new" "disable_new" -> none_of (s_impl s) new_api) /\
  (switch_on F args "from_into_bits" "generate_from_into_bits" "disable_from_into_bits" ->
     all_of (s_impl s) (conversion_api (b_ty bf))) /\
  (~ switch_on F args "from_into_bits" "generate_from_into_bits" "disable_from_into_bits" ->
     none_of (s_impl s) (conversion_api (b_ty bf))) /\
  (forall it, In it (s_impl s) -> it_field it = None ->
     it_vis it = d_vis d /\ In (it_name it) (List.concat (groups (b_ty bf)))).
Proof.
  intros H Hs args. pose proof (whole_groups m F d bf s H Hs) as W.
  pose proof (C02_order m F d bf H) as (_ & _ & H3 & _). fold args in H3.
  unfold switch_on. rewrite <- (H3 "new" _ _ a_new)%string by (cbn; tauto).
  rewrite <- (H3 "from_into_bits" _ _ a_from_into_bits)%string by (cbn; tauto). rewrite !not_true_iff_false.
  destruct (W 0%nat _ _ eq_refl eq_refl), (W 1%nat _ _ eq_refl eq_refl). repeat (split; [assumption|]).
  intros it Hi Hf. rewrite (generate_impl bf s Hs) in Hi.
  destruct (proj1 (impl_list_whole bf it) (conj Hi Hf)) as (n & Hn & ->). cbn [it_vis it_name].
  assert (Hc : b_ty bf <> DCustom /\ b_vis bf = d_vis d).
  { apply parse_iff in H as (ty & args' & fs0 & new & Ha & _ & _ & _ & _ & _ & ->). apply attribute_inv in Ha.
    cbn [b_ty b_vis]. tauto. }
  destruct Hc as [Hc Hv]. split; [exact Hv|]. destruct (api_names bf Hc) as (E1 & E2 & E3 & E4 & E5).
  unfold whole_list in Hn. cbn [List.concat groups]. rewrite !in_app_iff in *.
  assert (K : forall (b : bool) (l g0 : list string), same_names l g0 -> In n (if b then l else []) -> In n g0).
  { intros b l g0 E Hx. destruct b; [now apply E|destruct Hx]. }
  destruct Hn as [Hn|[Hn|[Hn|[Hn|[Hn|Hn]]]]].
  - left. eapply K; [|exact Hn]. intro; reflexivity.
  - right; left. eapply K; [exact E1|exact Hn].
  - do 2 right; left. eapply K; [exact E2|exact Hn].
  - do 3 right; left. eapply K; [exact E3|exact Hn].
  - do 4 right; left. eapply K; [exact E4|exact Hn].
  - do 5 right; left. eapply K; [exact E5|exact Hn].
Qed.

Ltac tr :=
  clear; repeat match goal with |- context [if ?b then _ else _] => destruct b end; cbn [In andb negb]; intuition (auto; congruence).
(** The trait implementations and the builder follow their switches. *)
Theorem C56_traits m F d bf s : parse_bitfield m F d = POk bf -> generate bf = Val s ->
  let args := d_args d in
  (In TFromBacking (s_traits s) <-> switch_on F args "from_traits" "generate_from_traits" "disable_from_traits") /\
  (In TIntoBacking (s_traits s) <-> switch_on F args "from_traits" "generate_from_traits" "disable_from_traits") /\
  (In TDefault (s_traits s) <-> switch_on F args "default" "generate_default" "disable_default") /\
  (In TDebug (s_traits s) <-> switch_on F args "debug" "generate_debug" "disable_debug") /\
  (In TClone (s_traits s) <-> switch_on F args "copy" "derive_copy" "disable_copy") /\
  (In TCopy (s_traits s) <-> switch_on F args "copy" "derive_copy" "disable_copy" /\
     ~ (a_array_heap (b_args bf) = true /\ exists n, b_ty bf = DArray n)) /\
  (s_builder s <> None <-> switch_on F args "builder" "generate_builder" "disable_builder") /\
  (forall n l, s_builder s = Some (n, l) -> n = (d_name d ++ "Builder")%string).
Proof.
  intros H Hs args. pose proof (C02_order m F d bf H) as (_ & _ & H3 & _). fold args in H3.
  assert (Hc : b_ty bf <> DCustom /\ b_name bf = d_name d).
  { apply parse_iff in H as (ty & args' & fs0 & new & Ha & _ & _ & _ & _ & _ & ->). apply attribute_inv in Ha.
    cbn [b_ty b_name]. tauto. }
  destruct Hc as [Hc Hn].
  unfold switch_on. rewrite <- (H3 "from_traits" _ _ a_from_traits)%string by (cbn; tauto).
  rewrite <- (H3 "default" _ _ a_default)%string by (cbn; tauto).
  rewrite <- (H3 "debug" _ _ a_debug)%string by (cbn; tauto).
  rewrite <- (H3 "copy" _ _ a_copy)%string by (cbn; tauto).
  rewrite <- (H3 "builder" _ _ a_builder)%string by (cbn; tauto).
  assert (Et : s_traits s = traits bf).
  { unfold generate in Hs. binv Hs l Hl. binv Hs b Hb. now injection Hs as <-. }
  assert (Eb : builder bf = Val (s_builder s)).
  { unfold generate in Hs. binv Hs l Hl. binv Hs b Hb. now injection Hs as <-. }
  rewrite Et. unfold traits. rewrite !in_app_iff.
  assert (Hb : s_builder s <> None <-> a_builder (b_args bf) = true).
  { unfold builder in Eb. destruct (a_builder (b_args bf)).
    - binv Eb n' Hn'. binv Eb l' Hl'. injection Eb as <-. split; congruence.
    - injection Eb as <-. split; congruence. }
  assert (Hi : is_integer_backed bf = false <-> exists n, b_ty bf = DArray n).
  { unfold is_integer_backed. destruct (b_ty bf); split; try congruence; eauto; intros []; discriminate. }
  split; [|split; [|split; [|split; [|split; [|split; [|split]]]]]].
  - destruct (a_from_traits (b_args bf)); tr.
  - destruct (a_from_traits (b_args bf)); tr.
  - destruct (a_default (b_args bf)); tr.
  - destruct (a_debug (b_args bf)); tr.
  - destruct (a_copy (b_args bf)); tr.
  - rewrite <- Hi. destruct (a_copy (b_args bf)), (a_array_heap (b_args bf)), (is_integer_backed bf); cbn [andb negb]; tr.
  - exact Hb.
  - intros n l E. destruct (builder_val bf s n l Hs E) as (_ & -> & _). now rewrite Hn.
Qed.
Example C56_ex :
  exists s, surface_of no_feature (api_decl [("debug", "false"); ("copy", "false")]%string) = Some s /\
    s_traits s = [TFromBacking; TIntoBacking; TDefault] /\ option_map fst (s_builder s) = Some "ApiBuilder"%string /\
    List.length (whole_items (Some s)) = 29%nat.
Proof. eexists. split; [vm_compute; reflexivity|]. repeat split; vm_compute; reflexivity. Qed.

(** ** C52: visibility *)

(** The visibility of every item made for a field, in terms of the declaration. *)
Definition effective_vis (d : rdecl) (r : rfield) : vis :=
  match r_vis r with VisPrivate => d_vis d | v => v end.
Theorem C52_visibility m F d bf s it k r f : parse_bitfield m F d = POk bf -> generate bf = Val s ->
  In it (s_impl s) -> it_field it = Some f -> nth_pair d bf k r f ->
  (In (it_role it) [RClear; RClearDefault; RInvert; RInverted] -> it_vis it = d_vis d) /\
  (In (it_role it) [RWidth; ROffset; RGetter; RSetter; RCheckedSetter] ->
     (read_decl r -> it_vis it = effective_vis d r) /\ (~ read_decl r -> it_vis it = VisPrivate)).
Proof.
  intros H Hs Hi Hf Hp. rewrite (generate_impl bf s Hs) in Hi.
  destruct (proj1 (impl_list_field bf it f) (conj Hi Hf)) as (_ & ro & Hro & ->).
  destruct (pair_shape m F d bf k r f H Hp) as (_ & Hv & _).
  assert (Hbv : b_vis bf = d_vis d) by (apply parse_iff in H as (ty & args' & fs0 & new & _ & _ & _ & _ & _ & _ & ->); reflexivity).
  rewrite <- (pair_getter m F d bf k r f H Hp). cbn [made it_role it_vis]. unfold effective_vis. rewrite <- Hv. split.
  - intros [<-|[<-|[<-|[<-|[]]]]]; exact Hbv.
  - intro Hin. assert (E : item_vis bf ro f = field_visibility f) by (destruct Hin as [<-|[<-|[<-|[<-|[<-|[]]]]]]; reflexivity).
    rewrite E. unfold field_visibility, has_getter.
    assert (Hres : f_reserved f = false).
    { destruct (f_reserved f) eqn:Er; [|reflexivity]. exfalso.
      destruct ro; cbn [field_has] in Hro; unfold has_constants, has_getter, has_setter in Hro; rewrite ?Er in Hro;
        cbn in Hro; rewrite ?andb_false_r in Hro; discriminate. }
    rewrite Hres. destruct (f_access f); intuition congruence.
Qed.
Example C52_ex :
  field_items (surface_of no_feature (api_decl [("clear_bit_ops", "false")]%string)) =
  [("X_BITS", VisPublic); ("X_OFFSET", VisPublic); ("Y_BITS", VisPrivate); ("Y_OFFSET", VisPrivate);
   ("Z_BITS", VisPublic); ("Z_OFFSET", VisPublic); ("x", VisPublic); ("z", VisPublic);
   ("set_y", VisPrivate); ("checked_set_y", VisPrivate); ("set_z", VisPublic); ("checked_set_z", VisPublic);
   ("invert_y", VisPublic); ("invert_z", VisPublic); ("x_inverted", VisPublic); ("z_inverted", VisPublic)]%string.
Proof. vm_compute. reflexivity. Qed.

(** The visibility of the field is not that of its functions: a private field of
    a public bitfield has a public getter, the setter of a public write-only field
    is private (so the field cannot be set outside of the module), and the
    functions clearing and inverting a field restricted to the crate are public. *)
Definition restricted_decl : rdecl :=
  mkRDecl true VisPublic "R" (Some (RPath "u8")) [] [vis_fld (VisRestricted "crate") "w" ANone]%string.
Theorem C52_refuted :
  (In ("z", VisPublic)%string (field_items (surface_of no_feature (api_decl []))) /\
   exists r, In r (d_fields (api_decl [])) /\ r_name r = "z"%string /\ r_vis r = VisPrivate) /\
  (In ("set_y", VisPrivate)%string (field_items (surface_of no_feature (api_decl []))) /\
   exists r, In r (d_fields (api_decl [])) /\ r_name r = "y"%string /\ r_vis r = VisPublic) /\
  (forall n, In n ["clear_w"; "invert_w"; "w_inverted"]%string ->
     In (n, VisPublic) (field_items (surface_of no_feature restricted_decl))) /\
  In ("set_w", VisRestricted "crate")%string (field_items (surface_of no_feature restricted_decl)).
Proof.
  split; [|split; [|split]].
  - split; [vm_compute; tauto|]. eexists. split; [cbn; do 4 right; left; reflexivity|split; reflexivity].
  - split; [vm_compute; tauto|]. eexists. split; [cbn; right; left; reflexivity|split; reflexivity].
  - intros n [<-|[<-|[<-|[]]]]; vm_compute; tauto.
  - vm_compute; tauto.
Qed.

(** ** C53: the struct *)

(** Without ignored fields the struct has a single private unnamed field; with
    ignored fields it has the field [val] followed by them in order, all private. *)
Theorem C53_struct m F d bf s : parse_bitfield m F d = POk bf -> generate bf = Val s ->
  let ign := filter ignoredb (d_fields d) in
  s_vis s = d_vis d /\
  s_fields s = match ign with
               | [] => [("0", VisPrivate)]
               | _ => ("val", VisPrivate) :: map (fun r => (r_name r, VisPrivate)) ign
               end%string.
Proof.
  intros H Hs ign. unfold generate in Hs. binv Hs l Hl. binv Hs b Hb. injection Hs as <-. cbn [s_vis s_fields].
  apply parse_iff in H as (ty & args & fs0 & new & _ & _ & _ & H1 & _ & _ & ->). unfold struct_fields. cbn [b_vis b_ignored].
  split; [reflexivity|].
  assert (E : map (fun f => (f_name f, field_visibility f)) (filter f_ignored fs0) = map (fun r => (r_name r, VisPrivate)) ign).
  { unfold ign. clear - H1. induction H1 as [|r f rs fs Hc _ IH]; [reflexivity|]. cbn [filter].
    rewrite (core_ignored _ _ _ _ Hc). destruct (ignoredb r) eqn:Ei; [|exact IH]. cbn [map]. rewrite IH. f_equal.
    unfold core in Hc. pinv Hc a Ha. rewrite (ignored_spec r a Ha), Ei in Hc.
    unfold parse_ignored in Hc. destruct (get_data_type (r_ty r)); try discriminate. now injection Hc as <-. }
  destruct (filter f_ignored fs0) as [|g gs], ign as [|r rs]; try discriminate; [reflexivity|].
  f_equal. exact E.
Qed.
Example C53_ex :
  option_map s_fields (surface_of no_feature (api_decl [])) = Some [("val", VisPrivate); ("skip", VisPrivate)]%string /\
  option_map s_fields (surface_of no_feature restricted_decl) = Some [("0", VisPrivate)]%string.
Proof. split; vm_compute; reflexivity. Qed.
(** The documentation says that the visibility of an ignored field can be chosen;
    a public ignored field becomes private. *)
Theorem C53_visibility_refuted : exists d r s,
  surface_of no_feature d = Some s /\ In r (d_fields d) /\ ignored_decl r /\ r_vis r = VisPublic /\
  In (r_name r, VisPrivate) (s_fields s) /\ ~ In (r_name r, VisPublic) (s_fields s).
Proof.
  exists (api_decl []). eexists. eexists. split; [vm_compute; reflexivity|].
  split; [cbn; do 3 right; left; reflexivity|]. split; [reflexivity|]. split; [reflexivity|].
  cbn. intuition congruence.
Qed.
