(** Lemmas about the generated items. *)
From Coq Require Import ZArith List Bool String Ascii Lia.
From Verif Require Import RustInt Syntax ConstExpr Parser Spec SpecDecl ParserLemmas ParserLoop PropArgs PropParse
  Surface SpecSurface.
Import ListNotations.

Lemma bind_val {A B} (x : outcome A) (k : A -> outcome B) b : bind x k = Val b -> exists a, x = Val a /\ k a = Val b.
Proof. destruct x; [eauto|discriminate]. Qed.
Ltac binv H a Ha := apply bind_val in H as (a & Ha & H).

Lemma collect_in {A} (l : list (outcome A)) r : collect l = Val r -> forall a, In a r <-> In (Val a) l.
Proof.
  revert r. induction l as [|x l IH]; intros r H a; cbn [collect] in H.
  - injection H as <-. reflexivity.
  - binv H b Hb. binv H t Ht. injection H as <-. cbn [In]. rewrite (IH _ Ht). subst x.
    split; (intros [E|E]; [left; congruence|auto]).
Qed.
Lemma collect_map {A} (l : list (outcome A)) r : collect l = Val r -> l = map Val r.
Proof.
  revert r. induction l as [|x l IH]; intros r H; cbn [collect] in H.
  - injection H as <-. reflexivity.
  - binv H b Hb. binv H t Ht. injection H as <-. cbn [map]. rewrite <- (IH _ Ht). congruence.
Qed.
Lemma collect_ok {A} (l : list (outcome A)) : (forall x, In x l -> exists a, x = Val a) -> exists r, collect l = Val r.
Proof.
  induction l as [|x l IH]; intro H; [exists []; reflexivity|]. cbn [collect].
  destruct (H x (or_introl eq_refl)) as [a ->]. destruct IH as [r Hr]; [intros y Hy; apply H; now right|].
  rewrite Hr. cbn [bind]. eauto.
Qed.

(** [mk_ident] returns its argument. *)
Lemma mk_ident_val s n : mk_ident s = Val n -> n = s.
Proof.
  unfold mk_ident. intro H.
  repeat match type of H with
         | context [match ?x with _ => _ end] => destruct x; try discriminate
         end; congruence.
Qed.
Definition made (ro : role) (v : vis) (f : field) : item := mkItem ro (Some f) v (role_name ro (f_name f)).
Lemma made_field ro v g f : it_field (made ro v g) = Some f -> g = f.
Proof. cbn [made it_field]. congruence. Qed.
Lemma field_item_val ro v f it : field_item ro v f = Val it -> it = made ro v f.
Proof.
  unfold field_item, made. intro H. binv H n Hn. injection H as <-. f_equal.
  destruct ro; try (now apply mk_ident_val). now injection Hn as <-.
Qed.

Definition made_all (roles : list (role * (field -> vis))) (fs : list field) : list item :=
  flat_map (fun f => map (fun p => made (fst p) (snd p f) f) roles) fs.
Lemma per_field_val cond roles bf l : per_field cond roles bf = Val l ->
  l = made_all roles (filter cond (b_fields bf)).
Proof.
  unfold per_field, made_all. intro H. apply collect_map in H. revert l H.
  induction (filter cond (b_fields bf)) as [|f fs IH]; intros l H; cbn [flat_map] in *.
  - destruct l; [reflexivity|discriminate].
  - symmetry in H. apply map_app_inv in H as (l1 & l2 & -> & H1 & H2).
    rewrite (IH l2 (eq_sym H2)). f_equal. clear - H1. revert l1 H1.
    induction roles as [|p ps IH]; intros l1 H1; cbn [map] in *.
    + destruct l1; [reflexivity|discriminate].
    + destruct l1 as [|it l1]; [discriminate|]. cbn [map] in H1. injection H1 as Hi H1.
      symmetry in Hi. apply field_item_val in Hi. subst it. f_equal. auto.
Qed.
Lemma made_all_in roles fs it : In it (made_all roles fs) <->
  exists f p, In f fs /\ In p roles /\ it = made (fst p) (snd p f) f.
Proof.
  unfold made_all. rewrite in_flat_map. split.
  - intros (f & Hf & Hi). apply in_map_iff in Hi as (p & <- & Hp). eauto.
  - intros (f & p & Hf & Hp & ->). exists f. split; [exact Hf|]. apply in_map_iff. eauto.
Qed.

(** The items, segment by segment. *)
Definition seg (b : bool) (l : list item) : list item := if b then l else [].
Definition impl_list (bf : bitfield) : list item :=
  let a := b_args bf in let fs := b_fields bf in let v := fun _ : field => b_vis bf in
  made_all [(RWidth, field_visibility); (ROffset, field_visibility)] (filter has_constants fs) ++
  seg (a_new a) (whole bf new_names) ++
  seg (a_from_into_bits a) (whole bf (conversion_names bf)) ++
  made_all [(RGetter, field_visibility)] (filter has_getter fs) ++
  made_all [(RSetter, field_visibility); (RCheckedSetter, field_visibility)] (filter has_setter fs) ++
  seg (write_on bf) (whole bf (write_names bf)) ++
  seg (set_get_on bf) (whole bf (set_get_names bf)) ++
  seg (clear_on bf) (whole bf (clear_names bf) ++ made_all [(RClear, v)] (filter has_setter fs) ++
    made_all [(RClearDefault, v)] (filter (fun f => has_setter f && has_default f)%bool fs)) ++
  seg (invert_on bf) (whole bf (invert_names bf) ++ made_all [(RInvert, v)] (filter has_setter fs) ++
    made_all [(RInverted, v)] (filter has_getter fs)).
Lemma when_val {A} b (x : outcome (list A)) l : when b x = Val l -> (b = true /\ x = Val l) \/ (b = false /\ l = []).
Proof. destruct b; cbn [when]; [auto|]. intro H. injection H as <-. auto. Qed.
Lemma when_seg b x l : when b (Val x) = Val l -> l = seg b x.
Proof. destruct b; cbn [when seg]; intro H; congruence. Qed.
Lemma impl_items_val bf l : impl_items bf = Val l -> l = impl_list bf.
Proof.
  unfold impl_items, impl_list. cbv zeta. intro H.
  binv H p0 H0. binv H p1 H1. binv H p2 H2. binv H p3 H3. binv H p4 H4. binv H p5 H5. binv H p6 H6.
  binv H p7 H7. binv H p8 H8. injection H as <-.
  apply per_field_val in H0, H3, H4. apply when_seg in H1, H2, H5, H6.
  assert (E7 : p7 = seg (clear_on bf) (whole bf (clear_names bf) ++
    made_all [(RClear, fun _ => b_vis bf)] (filter has_setter (b_fields bf)) ++
    made_all [(RClearDefault, fun _ => b_vis bf)] (filter (fun f => has_setter f && has_default f)%bool (b_fields bf)))).
  { apply when_val in H7 as [[-> H7]|[-> ->]]; [|reflexivity]. unfold clear_items in H7.
    binv H7 x Hx. binv H7 y Hy. injection H7 as <-. apply per_field_val in Hx, Hy. now subst. }
  assert (E8 : p8 = seg (invert_on bf) (whole bf (invert_names bf) ++
    made_all [(RInvert, fun _ => b_vis bf)] (filter has_setter (b_fields bf)) ++
    made_all [(RInverted, fun _ => b_vis bf)] (filter has_getter (b_fields bf)))).
  { apply when_val in H8 as [[-> H8]|[-> ->]]; [|reflexivity]. unfold invert_items in H8.
    binv H8 x Hx. binv H8 y Hy. injection H8 as <-. apply per_field_val in Hx, Hy. now subst. }
  now subst.
Qed.
Lemma generate_impl bf s : generate bf = Val s -> s_impl s = impl_list bf.
Proof.
  unfold generate. intro H. binv H l Hl. binv H b Hb. injection H as <-. cbn [s_impl]. now apply impl_items_val.
Qed.

(** Which fields have which items, on descriptors. *)
Definition field_has (bf : bitfield) (ro : role) (f : field) : bool :=
  match ro with
  | RWidth | ROffset => has_constants f
  | RGetter => has_getter f
  | RSetter | RCheckedSetter => has_setter f
  | RClear => clear_on bf && has_setter f
  | RClearDefault => clear_on bf && (has_setter f && has_default f)
  | RInvert => invert_on bf && has_setter f
  | RInverted => invert_on bf && has_getter f
  | RWith | RCheckedWith | RWhole => false
  end.
Definition item_vis (bf : bitfield) (ro : role) (f : field) : vis :=
  match ro with
  | RClear | RClearDefault | RInvert | RInverted => b_vis bf
  | _ => field_visibility f
  end.
Definition whole_list (bf : bitfield) : list string :=
  (if a_new (b_args bf) then new_names else []) ++
  (if a_from_into_bits (b_args bf) then conversion_names bf else []) ++
  (if write_on bf then write_names bf else []) ++ (if set_get_on bf then set_get_names bf else []) ++
  (if clear_on bf then clear_names bf else []) ++ (if invert_on bf then invert_names bf else []).

Lemma seg_in b l it : In it (seg b l) <-> b = true /\ In it l.
Proof. destruct b; cbn [seg In]; intuition congruence. Qed.
Lemma whole_in bf names it : In it (whole bf names) <-> exists n, In n names /\ it = mkItem RWhole None (b_vis bf) n.
Proof. unfold whole. rewrite in_map_iff. split; intros (n & H1 & H2); exists n; split; congruence. Qed.

Lemma intro_made bf ro f v : field_has bf ro f = true -> In f (b_fields bf) -> v = item_vis bf ro f ->
  exists ro', field_has bf ro' f = true /\ In f (b_fields bf) /\ made ro v f = made ro' (item_vis bf ro' f) f.
Proof. intros H1 H2 ->. eauto. Qed.
Lemma impl_list_field bf it f : In it (impl_list bf) /\ it_field it = Some f <->
  In f (b_fields bf) /\ exists ro, field_has bf ro f = true /\ it = made ro (item_vis bf ro f) f.
Proof.
  unfold impl_list. cbv zeta. rewrite !in_app_iff, !seg_in, !in_app_iff, !whole_in, !made_all_in. split.
  - intros [H E]. assert (Hx : exists ro, field_has bf ro f = true /\ In f (b_fields bf) /\ it = made ro (item_vis bf ro f) f);
      [|destruct Hx as (ro & ? & ? & ?); eauto].
    repeat match goal with
           | H : _ \/ _ |- _ => destruct H as [H|H]
           | H : _ /\ _ |- _ => destruct H
           | H : exists _, _ |- _ => destruct H
           | H : In _ (filter _ _) |- _ => apply filter_In in H
           | H : In _ [_] |- _ => destruct H as [H|H]; [|destruct H]
           | H : In _ [_; _] |- _ => destruct H as [H|[H|H]]; [| |destruct H]
           end; subst; cbn [fst snd] in *; try discriminate; apply made_field in E; subst;
      (apply intro_made; [|assumption|reflexivity]); cbn [field_has];
      repeat match goal with H : _ = true |- _ => rewrite H end; reflexivity.
  - intros (Hf & ro & Hro & ->). split; [|reflexivity].
    assert (K : forall c, c f = true -> In f (filter c (b_fields bf))) by (intros; apply filter_In; auto).
    destruct ro; cbn [field_has item_vis] in *; try discriminate;
      repeat (apply andb_prop in Hro as [? Hro]).
    + left. exists f, (RWidth, field_visibility). cbn. auto.
    + left. exists f, (ROffset, field_visibility). cbn. auto.
    + do 3 right. left. exists f, (RGetter, field_visibility). cbn. auto.
    + do 4 right. left. exists f, (RSetter, field_visibility). cbn. auto.
    + do 4 right. left. exists f, (RCheckedSetter, field_visibility). cbn. auto.
    + do 7 right. left. split; [assumption|]. right. left. exists f, (RClear, fun _ => b_vis bf). cbn. auto.
    + do 7 right. left. split; [assumption|]. right. right. exists f, (RClearDefault, fun _ => b_vis bf). cbn.
      split; [|auto]. apply K. rewrite Hro. auto using andb_true_intro.
    + do 8 right. split; [assumption|]. right. left. exists f, (RInvert, fun _ => b_vis bf). cbn. auto.
    + do 8 right. split; [assumption|]. right. right. exists f, (RInverted, fun _ => b_vis bf). cbn. auto.
Qed.
Lemma impl_list_whole bf it : In it (impl_list bf) /\ it_field it = None <->
  exists n, In n (whole_list bf) /\ it = mkItem RWhole None (b_vis bf) n.
Proof.
  unfold impl_list, whole_list. cbv zeta. rewrite !in_app_iff, !seg_in, !in_app_iff, !whole_in, !made_all_in. split.
  - intros [H E].
    repeat match goal with
           | H : _ \/ _ |- _ => destruct H as [H|H]
           | H : _ /\ _ |- _ => destruct H
           | H : exists _, _ |- _ => destruct H
           end; subst; cbn [it_field made fst snd] in *; try discriminate;
      (eexists; split; [|reflexivity]); rewrite !in_app_iff;
      match goal with H : ?b = true |- _ => rewrite H end; tauto.
  - intros (n & H & ->). split; [|reflexivity]. rewrite !in_app_iff in H.
    destruct H as [H|[H|[H|[H|[H|H]]]]];
      match type of H with In _ (if ?b then _ else _) => destruct b eqn:E; [|destruct H] end.
    + do 1 right. left. eauto.
    + do 2 right. left. eauto.
    + do 5 right. left. eauto.
    + do 6 right. left. eauto.
    + do 7 right. left. split; [reflexivity|]. left. eauto.
    + do 8 right. split; [reflexivity|]. left. eauto.
Qed.

(** ** Accepted fields, whatever their width *)
Open Scope Z_scope.
Lemma core_shape m bv r f : core m bv r = POk f -> ignoredb r = false ->
  f_name f = r_name r /\ f_vis f = match r_vis r with VisPrivate => bv | v => v end /\
  f_default f = match last_arg "default" r with Some _ => Some (r_value r) | None => None end.
Proof.
  intros H Hi. unfold core in H. pinv H a Ha. rewrite (ignored_spec r a Ha), Hi in H. cbv zeta in H.
  destruct (get_data_type (r_ty r)) as [d| |] eqn:Et; try discriminate.
  pinv H bits Hb. pinv H u Hu. pinv H u' Hu'. pinv H acc Hacc. injection H as <-. cbn [f_name f_vis f_default].
  pose proof (attr_sound r a Ha) as [Hok Hs]. split; [reflexivity|]. split; [now destruct (r_vis r)|].
  unfold last_arg. destruct a as [bt|].
  - destruct Hs as (_ & _ & _ & _ & Hd). destruct (last_of "default" (attr_args r)).
    + destruct Hd as (c & _ & ->). reflexivity.
    + now rewrite Hd.
  - unfold attr_args. rewrite Hs. reflexivity.
Qed.
Lemma pair_shape m F d bf k r f : parse_bitfield m F d = POk bf -> nth_pair d bf k r f ->
  f_name f = r_name r /\ f_vis f = match r_vis r with VisPrivate => d_vis d | v => v end /\
  f_default f = match last_arg "default" r with Some _ => Some (r_value r) | None => None end.
Proof.
  intros H [Hr Hf]. apply parse_core in H. destruct (Forall2_nth _ _ _ H k r f Hr Hf) as (f0 & Hc & Hi & E).
  rewrite E. cbn [with_off f_name f_vis f_default]. eapply core_shape; eassumption.
Qed.
Lemma Forall2_len {A B} (R : A -> B -> Prop) l l' : Forall2 R l l' -> List.length l = List.length l'.
Proof. induction 1; cbn [List.length]; congruence. Qed.
Lemma pair_of_field m F d bf f : parse_bitfield m F d = POk bf -> In f (b_fields bf) ->
  exists k r, nth_pair d bf k r f.
Proof.
  intros H Hf. apply parse_core in H. apply In_nth_error in Hf as [k Hk]. exists k.
  assert (E : List.length (active d) = List.length (b_fields bf)) by (eapply Forall2_len; eassumption).
  destruct (nth_error (active d) k) as [r|] eqn:Er; [exists r; split; assumption|].
  apply nth_error_None in Er. assert (nth_error (b_fields bf) k <> None) by congruence.
  apply nth_error_Some in H0. lia.
Qed.
Lemma access_text_inj s a b : access_text s a -> access_text s b -> a = b.
Proof. unfold access_text. intros -> H. destruct a, b; try reflexivity; discriminate. Qed.

Lemma pair_access m F d bf k r f : parse_bitfield m F d = POk bf -> nth_pair d bf k r f ->
  ~ reserved_decl r -> forall a, access_is r a <-> f_access f = a.
Proof.
  intros H Hp Hr a. destruct (C48_nonreserved m F d bf k r f H Hp Hr) as [_ Ha]. unfold access_is.
  destruct (last_arg "access" r) as [s|].
  - split; [intro; eapply access_text_inj; eassumption|]. now intros <-.
  - rewrite Ha. split; congruence.
Qed.
Lemma pair_reserved m F d bf k r f : parse_bitfield m F d = POk bf -> nth_pair d bf k r f ->
  f_reserved f = true <-> reserved_decl r.
Proof.
  intros H Hp. split.
  - intro E. destruct (pair_core m F d bf k r f H Hp) as (f0 & Hc & Hi & _ & Er).
    apply core_any in Hc; [|exact Hi]. apply Hc. congruence.
  - intro Hr. apply (C48_reserved m F d bf k r f H Hp Hr).
Qed.
Lemma pair_getter m F d bf k r f : parse_bitfield m F d = POk bf -> nth_pair d bf k r f ->
  has_getter f = true <-> read_decl r.
Proof.
  intros H Hp. unfold has_getter, read_decl. pose proof (pair_reserved m F d bf k r f H Hp) as Hr.
  destruct (f_reserved f).
  - split; [discriminate|]. intros [Hx _]. exfalso. apply Hx, Hr. reflexivity.
  - assert (Hn : ~ reserved_decl r) by (intro Hx; apply Hr in Hx; discriminate).
    rewrite !(pair_access m F d bf k r f H Hp Hn). destruct (f_access f); intuition congruence.
Qed.
Lemma pair_setter m F d bf k r f : parse_bitfield m F d = POk bf -> nth_pair d bf k r f ->
  has_setter f = true <-> write_decl r.
Proof.
  intros H Hp. unfold has_setter, write_decl. pose proof (pair_reserved m F d bf k r f H Hp) as Hr.
  destruct (f_reserved f).
  - split; [discriminate|]. intros [Hx _]. exfalso. apply Hx, Hr. reflexivity.
  - assert (Hn : ~ reserved_decl r) by (intro Hx; apply Hr in Hx; discriminate).
    rewrite !(pair_access m F d bf k r f H Hp Hn). destruct (f_access f); intuition congruence.
Qed.

(** ** Switches *)
Lemma group_spec F args a key on off (proj user : bfargs -> bool) : args_match F args a ->
  In (key, (on, off), proj) switches -> In (key, user) user_flags ->
  (if negb (a_bit_ops a) then proj a && user a else proj a)%bool = true <-> documented F args key on off.
Proof.
  intros (_ & _ & H3 & _ & H5) Hs Hu. unfold documented, bit_ops_on, switch_on.
  assert (Hb : a_bit_ops a = switch_value args "bit_ops" (F "generate_bit_ops" || negb (F "disable_bit_ops"))%string).
  { apply H3. cbn. tauto. }
  rewrite <- Hb, <- (H3 _ _ _ _ Hs). destruct (a_bit_ops a) eqn:E; cbn [negb].
  - intuition congruence.
  - rewrite andb_true_iff, (H5 _ _ Hu), (H3 _ _ _ _ Hs). unfold switch_value.
    destruct (last_of key args) as [s|].
    + rewrite String.eqb_eq. intuition congruence.
    + intuition congruence.
Qed.
Lemma clear_spec F d bf m : parse_bitfield m F d = POk bf -> clear_on bf = true <-> clear_documented F (d_args d).
Proof. intro H. apply C02_order in H. unfold clear_on, group_on. eapply group_spec; [exact H|cbn; tauto|cbn; tauto]. Qed.
Lemma invert_spec F d bf m : parse_bitfield m F d = POk bf -> invert_on bf = true <-> invert_documented F (d_args d).
Proof. intro H. apply C02_order in H. unfold invert_on, group_on. eapply group_spec; [exact H|cbn; tauto|cbn; tauto]. Qed.
Lemma set_get_spec F d bf m : parse_bitfield m F d = POk bf -> set_get_on bf = true <-> set_get_documented F (d_args d).
Proof. intro H. apply C02_order in H. unfold set_get_on, group_on. eapply group_spec; [exact H|cbn; tauto|cbn; tauto]. Qed.
Lemma bit_ops_spec F d bf m : parse_bitfield m F d = POk bf -> a_bit_ops (b_args bf) = true <-> bit_ops_on F (d_args d).
Proof.
  intro H. apply C02_order in H as (_ & _ & H3 & _). unfold bit_ops_on, switch_on.
  rewrite <- (H3 "bit_ops" _ _ a_bit_ops)%string; [reflexivity|cbn; tauto].
Qed.
