(** Raw identifiers as names: the exact condition of C55. *)
From Coq Require Import ZArith List Bool String Ascii Lia.
From Verif Require Import RustInt Syntax ConstExpr Words Parser Spec SpecDecl ParserLemmas ParserLoop PropArgs PropParse
  Surface SpecSurface SurfaceLemmas PropSurface PropNames.
Import ListNotations.
Open Scope string_scope.

(** An identifier as it can be written in a program: ordinary, or raw. *)
Definition raw (s : string) : Prop := exists t, s = "r#" ++ t.
Definition rust_name (s : string) : Prop := identifier s \/ exists t, identifier t /\ s = "r#" ++ t.

Lemma rust_name_ordinary s : rust_name s -> ~ raw s -> ident_ok s = true.
Proof.
  intros [H|(t & _ & ->)] Hr; [now apply identifier_ok|]. exfalso. apply Hr. now exists t.
Qed.
Lemma raw_reserved s : raw s -> is_reserved_name s = false.
Proof. intros (t & ->). reflexivity. Qed.

Lemma collect_panic {A} (l : list (outcome A)) : In Panic l -> collect l = Panic.
Proof.
  induction l as [|x l IH]; intro H; [destruct H|]. cbn [collect]. destruct H as [->|H]; [reflexivity|].
  rewrite (IH H). destruct x; reflexivity.
Qed.
Lemma per_field_panic cond roles bf f ro v : In f (b_fields bf) -> cond f = true -> In (ro, v) roles ->
  ro <> RGetter -> mk_ident (role_name ro (f_name f)) = Panic -> per_field cond roles bf = Panic.
Proof.
  intros Hf Hc Hr Hg Hm. unfold per_field. apply collect_panic. apply in_flat_map. exists f.
  split; [apply filter_In; auto|]. apply in_map_iff. exists (ro, v). split; [|exact Hr].
  cbn [fst snd]. unfold field_item. destruct ro; try (now rewrite Hm). congruence.
Qed.
Lemma raw_constant s : raw s -> mk_ident (role_name RWidth s) = Panic.
Proof. intros (t & ->). reflexivity. Qed.
Lemma raw_with s : raw s -> mk_ident (role_name RWith s) = Panic.
Proof. intros (t & ->). reflexivity. Qed.
Lemma builder_name s : rust_name s -> mk_ident (s ++ "Builder") = Val (s ++ "Builder").
Proof.
  intros [H|(t & H & ->)].
  - apply mk_ident_ok. apply ident_app; [now apply identifier_ok|]. apply ident_word. reflexivity.
  - cbn [append mk_ident]. rewrite ident_app; [reflexivity|now apply identifier_ok|]. apply ident_word. reflexivity.
Qed.

Lemma active_pair m F d bf r : parse_bitfield m F d = POk bf -> In r (active d) -> exists k f, nth_pair d bf k r f.
Proof.
  intros H Hr. apply parse_core in H. apply In_nth_error in Hr as (k & Hk). 
  assert (L : List.length (active d) = List.length (b_fields bf)) by (eapply Forall2_len; exact H).
  destruct (nth_error (b_fields bf) k) as [f|] eqn:E.
  - exists k, f. split; assumption.
  - exfalso. apply nth_error_None in E. assert (nth_error (active d) k <> None) by congruence.
    apply nth_error_Some in H0. lia.
Qed.

(** A declaration whose names are Rust identifiers generates code exactly if every
    field with a raw name has no access and there is no builder. *)
Theorem C55_exact m F d bf : parse_bitfield m F d = POk bf -> rust_name (d_name d) ->
  (forall r, In r (active d) -> rust_name (r_name r)) ->
  ((exists s, generate bf = Val s) <->
   forall r, In r (active d) -> raw (r_name r) ->
     ~ read_decl r /\ ~ write_decl r /\ ~ switch_on F (d_args d) "builder" "generate_builder" "disable_builder").
Proof.
  intros H Hd Hr.
  assert (Hb : switch_on F (d_args d) "builder" "generate_builder" "disable_builder" <-> a_builder (b_args bf) = true).
  { pose proof (C02_order m F d bf H) as (_ & _ & H3 & _). unfold switch_on.
    rewrite <- (H3 "builder" _ _ a_builder)%string by (cbn; tauto). reflexivity. }
  assert (Hn : b_name bf = d_name d) by (apply parse_iff in H as (ty & args & fs0 & new & _ & _ & _ & _ & _ & _ & ->); reflexivity).
  split.
  - intros (s & Hs) r Hin Hraw. destruct (active_pair m F d bf r H Hin) as (k & f & Hp).
    destruct (pair_shape m F d bf k r f H Hp) as (Ef & _ & _).
    assert (Hf : In f (b_fields bf)) by (destruct Hp as [_ Hp]; eapply nth_error_In, Hp).
    assert (NC : has_constants f = false).
    { destruct (has_constants f) eqn:E; [|reflexivity]. exfalso. unfold generate in Hs. binv Hs l Hl.
      unfold impl_items in Hl. cbv zeta in Hl. unfold constant_items in Hl.
      rewrite (per_field_panic _ _ bf f RWidth field_visibility Hf E) in Hl; [discriminate Hl|now left|discriminate|].
      rewrite Ef. now apply raw_constant. }
    unfold has_constants in NC. apply orb_false_iff in NC as [N1 N2].
    split; [|split].
    + rewrite <- (pair_getter m F d bf k r f H Hp). congruence.
    + rewrite <- (pair_setter m F d bf k r f H Hp). congruence.
    + rewrite Hb. intro E. unfold generate in Hs. binv Hs l Hl. binv Hs b Hbd. unfold builder in Hbd. rewrite E in Hbd.
      binv Hbd n Hnm. binv Hbd it Hit. unfold builder_items in Hit.
      rewrite (per_field_panic _ _ bf f RWith field_visibility Hf) in Hit; [discriminate Hit| |now left|discriminate|].
      * apply negb_true_iff. destruct (f_reserved f) eqn:R; [|reflexivity]. exfalso.
        apply (pair_reserved m F d bf k r f H Hp) in R. destruct Hraw as (t & Et).
        destruct R as (rest & R). rewrite Et in R. discriminate R.
      * rewrite Ef. now apply raw_with.
  - intro Hx.
    assert (Hf : forall f, In f (b_fields bf) -> (has_getter f = true \/ has_setter f = true \/
        f_reserved f = false /\ a_builder (b_args bf) = true) -> ident_ok (f_name f) = true).
    { intros f Hf Hc. destruct (pair_of_field m F d bf f H Hf) as (k & r & Hp).
      destruct (pair_shape m F d bf k r f H Hp) as (Ef & _ & _). rewrite Ef.
      assert (Hin : In r (active d)) by (destruct Hp as [Hp _]; eapply nth_error_In, Hp).
      apply rust_name_ordinary; [auto|]. intro Hraw. destruct (Hx r Hin Hraw) as (X1 & X2 & X3).
      rewrite <- (pair_getter m F d bf k r f H Hp) in X1. rewrite <- (pair_setter m F d bf k r f H Hp) in X2.
      rewrite Hb in X3. tauto. }
    assert (P : forall cond roles, (forall f, cond f = true -> has_getter f = true \/ has_setter f = true) ->
        exists l, per_field cond roles bf = Val l).
    { intros cond roles Hc. apply per_field_ok. intros f Hi Hq. apply Hf; [exact Hi|]. specialize (Hc f Hq). tauto. }
    assert (C3 : forall f, has_constants f = true -> has_getter f = true \/ has_setter f = true)
      by (intros f; unfold has_constants; apply orb_true_iff).
    assert (C4 : forall f, (has_setter f && has_default f)%bool = true -> has_getter f = true \/ has_setter f = true)
      by (intros f Hq; apply andb_prop in Hq as [Hq _]; auto).
    assert (Hi : exists l, impl_items bf = Val l).
    { unfold impl_items, constant_items, getter_items, setter_items, clear_items, invert_items. cbv zeta.
      destruct (P has_constants [(RWidth, field_visibility); (ROffset, field_visibility)] C3) as [x0 ->].
      destruct (P has_getter [(RGetter, field_visibility)] ltac:(auto)) as [x1 ->].
      destruct (P has_setter [(RSetter, field_visibility); (RCheckedSetter, field_visibility)] ltac:(auto)) as [x2 ->].
      destruct (P has_setter [(RClear, fun _ => b_vis bf)] ltac:(auto)) as [x3 ->].
      destruct (P _ [(RClearDefault, fun _ => b_vis bf)] C4) as [x4 ->].
      destruct (P has_setter [(RInvert, fun _ => b_vis bf)] ltac:(auto)) as [x5 ->].
      destruct (P has_getter [(RInverted, fun _ => b_vis bf)] ltac:(auto)) as [x6 ->].
      cbn [bind]. destruct (a_new _), (a_from_into_bits _), (write_on bf), (set_get_on bf), (clear_on bf), (invert_on bf);
        cbn [when bind]; eauto. }
    destruct Hi as [l Hi]. unfold generate, builder. rewrite Hi. cbn [bind].
    destruct (a_builder (b_args bf)) eqn:Eb; [|cbn [bind]; eauto].
    rewrite Hn, (builder_name _ Hd). cbn [bind]. unfold builder_items.
    destruct (per_field_ok (fun f => negb (f_reserved f)) [(RWith, field_visibility); (RCheckedWith, field_visibility)] bf)
      as [x ->]; [|cbn [bind]; eauto].
    intros f Hi' Hq. apply negb_true_iff in Hq. apply Hf; auto.
Qed.

(** Both sides occur: a raw name with access, one without access, and one without
    access but with a builder; a raw name of the bitfield itself is no obstacle. *)
Definition raw_decl (access args : list (string * string)) : rdecl :=
  mkRDecl true VisPublic "r#mod" (Some (RPath "u16")) args
    [vis_fld VisPublic "r#type" (AList RNoBits access); vis_fld VisPublic "y" ANone].
Definition generated (d : rdecl) : option bool :=
  match parse_bitfield Checked no_feature d with
  | POk bf => Some (match generate bf with Val _ => true | Panic => false end)
  | _ => None
  end.
Example C55_exact_ex :
  generated (raw_decl [("access", "na")] [("builder", "false")]) = Some true
  /\ generated (raw_decl [("access", "na")] []) = Some false
  /\ generated (raw_decl [("access", "wo")] [("builder", "false")]) = Some false
  /\ rust_name "r#mod" /\ forall r, In r (active (raw_decl [("access", "na")] [])) -> rust_name (r_name r).
Proof.
  split; [vm_compute; reflexivity|]. split; [vm_compute; reflexivity|]. split; [vm_compute; reflexivity|]. split.
  - right. exists "mod". split; [apply identifierb_ok|]; reflexivity.
  - intros r Hr. vm_compute in Hr. destruct Hr as [<-|[<-|[]]].
    + right. exists "type". split; [apply identifierb_ok|]; reflexivity.
    + left. apply identifierb_ok. reflexivity.
Qed.
