(** C66: attributes of a declaration.  C67: conditional compilation, generic
    parameters, payloads. *)
From Coq Require Import ZArith List Bool Lia String.
From Verif Require Import RustInt Syntax ConstExpr Parser Surface Bitflag Attr ParserLemmas PropAttr PropBitflag Outer.
Import ListNotations.
Open Scope string_scope.

(** ** Specification *)

Definition paths_among (l : list string) (attrs : list uattr) : Prop :=
  Forall (fun a => In (ua_path a) l) attrs.
(** The first attribute named [bits] is a list with these tokens ([None]: no list). *)
Definition first_bits (attrs : list fattr) (o : option (list tok)) : Prop :=
  exists pre post, attrs = (pre ++ mkFAttr "bits" o :: post)%list /\ Forall (fun a => fa_name a <> "bits") pre.
Definition same_but_attributes (t t' : tfield) : Prop :=
  tf_name t = tf_name t' /\ tf_vis t = tf_vis t' /\ tf_ty t = tf_ty t' /\ tf_value t = tf_value t' /\
  tf_codec t = tf_codec t' /\
  (forall o, first_bits (tf_attrs t) o <-> first_bits (tf_attrs t') o).

(** What rustc does with [#[cfg]] after the expansion; [on] decides conditions. *)
Definition keep (on : list tok -> bool) (attrs : list uattr) : bool :=
  forallb (fun a => negb (String.eqb (ua_path a) "cfg") || on (ua_rest a))%bool attrs.
Definition configure (on : list tok -> bool) (i : oitem) : oitem :=
  mkOItem (oi_attrs i)
    (match oi_kind i with
     | IType n g ms => IType n g (filter (fun x => keep on (me_attrs x)) ms)
     | k => k
     end).
Definition after_cfg (on : list tok -> bool) (l : list oitem) : list oitem :=
  map (configure on) (filter (fun i => keep on (oi_attrs i)) l).
(** Every [impl] block is for a declared type and names declared variants. *)
Definition resolves (l : list oitem) : Prop :=
  forall i n t vs, In i l -> oi_kind i = IImpl n t vs ->
  exists j g ms, In j l /\ oi_kind j = IType n g ms /\ (forall v, In v vs -> In v (map me_name ms)).
(** No condition in the attributes is false. *)
Definition conditions_hold (on : list tok -> bool) (attrs : list uattr) : Prop :=
  forall a, In a attrs -> ua_path a = "cfg" -> on (ua_rest a) = true.

(** ** Lemmas *)

Lemma keep_spec on attrs : keep on attrs = true <-> conditions_hold on attrs.
Proof.
  unfold keep, conditions_hold. rewrite forallb_forall. split.
  - intros H a Ha E. specialize (H a Ha). rewrite E in H. cbn in H. exact H.
  - intros H a Ha. destruct (String.eqb (ua_path a) "cfg") eqn:E; [|reflexivity].
    apply String.eqb_eq in E. cbn. apply H; assumption.
Qed.
Lemma conditions_app on a b : conditions_hold on (a ++ b)%list <-> conditions_hold on a /\ conditions_hold on b.
Proof.
  unfold conditions_hold. split.
  - intro H. split; intros x Hx; apply H, in_or_app; auto.
  - intros [H H'] x Hx. apply in_app_or in Hx as [Hx|Hx]; auto.
Qed.
Lemma conditions_none on attrs l : paths_among l attrs -> ~ In "cfg" l -> conditions_hold on attrs.
Proof.
  intros H Hn a Ha E. unfold paths_among in H. rewrite Forall_forall in H. apply H in Ha. rewrite E in Ha. contradiction.
Qed.

Lemma default_among bf : paths_among ["repr"; "derive"] (default_attributes bf).
Proof.
  unfold default_attributes, paths_among. constructor; [cbn; auto|].
  destruct (a_copy (b_args bf)); [|constructor].
  destruct (a_array_heap (b_args bf) && negb (is_integer_backed bf))%bool; (apply Forall_cons; [cbn; auto|constructor]).
Qed.
Lemma below_among bf : Forall (fun i => paths_among ["allow"; "doc"] (oi_attrs i)) (below_items bf).
Proof.
  unfold below_items. rewrite !Forall_app. repeat split;
    match goal with |- Forall _ (if ?b then _ else _) => destruct b; [|constructor] end;
    repeat (apply Forall_cons; [unfold paths_among; cbn [oi_attrs impl_item]; repeat (apply Forall_cons; [cbn; auto|]); apply Forall_nil|]); apply Forall_nil.
Qed.

Lemma parse_declaration_name pe pt m F d bf : parse_declaration pe pt m F d = POk bf -> b_name bf = td_name d.
Proof.
  unfold parse_declaration. intro H. apply pbind_ok in H as ((ty & args & fp) & _ & H).
  destruct (negb (td_named d)); [discriminate|].
  apply pbind_ok in H as (fs & _ & H). apply pbind_ok in H as (x & _ & H).
  destruct fp; [discriminate|]. injection H as <-. reflexivity.
Qed.

Lemma first_bits_find attrs o :
  first_bits attrs o <-> find (fun a => String.eqb (fa_name a) "bits") attrs = Some (mkFAttr "bits" o).
Proof.
  split.
  - intros (pre & post & -> & Hp). induction Hp as [|a pre Ha Hp IH]; cbn; [reflexivity|].
    destruct (String.eqb_spec (fa_name a) "bits"); [contradiction|exact IH].
  - induction attrs as [|[n x] attrs IH]; cbn; [discriminate|].
    destruct (String.eqb_spec n "bits") as [->|Hn].
    + intro H. injection H as <-. exists [], attrs. split; [reflexivity|constructor].
    + intro H. destruct (IH H) as (pre & post & -> & Hp). exists (mkFAttr n x :: pre), post.
      split; [reflexivity|constructor; assumption].
Qed.
Lemma find_bits_name attrs a :
  find (fun a => String.eqb (fa_name a) "bits") attrs = Some a -> a = mkFAttr "bits" (fa_tokens a).
Proof.
  intro H. apply List.find_some in H as [_ H]. apply String.eqb_eq in H. destruct a as [n x]. cbn in H |- *. subst. reflexivity.
Qed.
Lemma same_attribute pe t t' : same_but_attributes t t' -> field_attribute pe (tf_attrs t) = field_attribute pe (tf_attrs t').
Proof.
  intros (_ & _ & _ & _ & _ & H). unfold field_attribute.
  assert (E : find (fun a => String.eqb (fa_name a) "bits") (tf_attrs t) =
              find (fun a => String.eqb (fa_name a) "bits") (tf_attrs t')).
  { destruct (find _ (tf_attrs t)) as [a|] eqn:E.
    - pose proof (find_bits_name _ _ E) as X. rewrite X in E. apply first_bits_find, H, first_bits_find in E.
      rewrite E, <- X. reflexivity.
    - destruct (find _ (tf_attrs t')) as [a|] eqn:E'; [|reflexivity].
      pose proof (find_bits_name _ _ E') as X. rewrite X in E'. apply first_bits_find, H, first_bits_find in E'.
      congruence. }
  rewrite E. reflexivity.
Qed.
Lemma same_split t t' a : same_but_attributes t t' -> split_field t a = split_field t' a.
Proof. intros (A & B & C & D & E & _). unfold split_field. rewrite A, B, C, D, E. reflexivity. Qed.
Lemma same_loop pe m o ty bv ts ts' : Forall2 same_but_attributes ts ts' ->
  forall acc ign seen, token_fields_loop pe m o ty bv ts acc ign seen = token_fields_loop pe m o ty bv ts' acc ign seen.
Proof.
  induction 1 as [|t t' ts ts' H _ IH]; intros acc ign seen; [reflexivity|].
  cbn [token_fields_loop]. rewrite (same_attribute _ _ _ H), (same_split _ _ ANone H).
  destruct H as (A & _). rewrite A.
  destruct (existsb _ seen); [reflexivity|].
  destruct (field_attribute pe (tf_attrs t')) as [x| |]; cbn [pbind]; try reflexivity.
  destruct (lift (field_with _ _ _ _ _ _ _)) as [f| |]; cbn [pbind]; try reflexivity.
  destruct (f_ignored f); apply IH.
Qed.

(** ** C66 *)

(** The struct carries all attributes of the user, in order, together with one
    [repr], at most one [derive] before and one [doc] after them; no other item
    carries any of them. *)
Theorem C66_struct pe pt m F u l :
  expand_bitfield pe pt m F u = POk l ->
  exists pre ms rest,
    l = mkOItem (pre ++ us_attrs u ++ [mkUAttr "doc" [KEq; KOther "Represents a bitfield."]])%list
          (IType (td_name (us_decl u)) [] ms) :: rest /\
    (exists r, pre = [mkUAttr "repr" r] \/ exists d, pre = [mkUAttr "repr" r; mkUAttr "derive" d]) /\
    Forall (fun i => paths_among ["allow"; "doc"] (oi_attrs i)) rest.
Proof.
  unfold expand_bitfield. intro H. apply pbind_ok in H as (bf & Hp & H). injection H as <-.
  unfold bitfield_items, struct_item. rewrite (parse_declaration_name _ _ _ _ _ _ Hp).
  eexists _, _, _. split; [reflexivity|]. split.
  - eexists. unfold default_attributes.
    destruct (a_copy (b_args bf)); [right|left; reflexivity].
    destruct (a_array_heap (b_args bf) && negb (is_integer_backed bf))%bool; eexists; reflexivity.
  - constructor; [|apply below_among]. apply Forall_cons; [cbn; auto|apply Forall_nil].
Qed.

(** An enum likewise; a variant keeps everything but [#[base]]. *)
Theorem C66_enum F e l :
  expand_bitflag F e = POk l ->
  exists pre ms rest,
    l = mkOItem (pre ++ ue_attrs e)%list (IType (ue_name e) [] ms) :: rest /\
    (exists r, pre = [mkUAttr "repr" r] \/ exists d, pre = [mkUAttr "repr" r; mkUAttr "derive" d]) /\
    Forall (fun i => oi_attrs i = []) rest /\
    Forall2 (fun v x => me_name x = uv_name v /\
      (forall a, In a (me_attrs x) <-> In a (uv_attrs v) /\ ua_path a <> "base") /\
      (Forall (fun a => ua_path a <> "base") (uv_attrs v) -> me_attrs x = uv_attrs v)) (ue_variants e) ms.
Proof.
  unfold expand_bitflag. intro H. apply pbind_ok in H as (g & Hp & H).
  unfold bitflag_items in H. destruct (match_cases g) as [arms|] eqn:Ea; cbn [bind] in H; [|discriminate]. injection H as <-.
  assert (En : g_name g = ue_name e).
  { unfold parse_bitflag in Hp. apply pbind_ok in Hp as (a & _ & Hp). apply pbind_ok in Hp as (xs & _ & Hp).
    apply pbind_ok in Hp as (y & _ & Hp). injection Hp as <-. reflexivity. }
  rewrite En. exists (mkUAttr "repr" (parens (type_tokens (ue_type e))) ::
    (if fa_copy (g_args g) then [derive (copy_tokens ++ KComma :: clone_tokens)%list] else [])).
  eexists _, _. split; [reflexivity|]. split; [|split].
  - eexists. destruct (fa_copy (g_args g)); [right; eexists; reflexivity|left; reflexivity].
  - repeat constructor.
  - induction (ue_variants e) as [|v vs IH]; cbn; constructor; [|exact IH].
    split; [reflexivity|]. cbn. split.
    + intro a. rewrite filter_In. destruct (String.eqb_spec (ua_path a) "base") as [E|E]; cbn; intuition congruence.
    + intro H. induction H as [|a t Ha Ht IHt]; cbn; [reflexivity|].
      destruct (String.eqb_spec (ua_path a) "base"); [contradiction|]. cbn. rewrite IHt. reflexivity.
Qed.

(** The other attributes of a field (documentation, [#[cfg]], a second [#[bits]])
    have no influence on anything: same descriptor, same errors, same items. *)
Theorem C66_fields pe pt m F attrs gs n v name toks ts ts' :
  Forall2 same_but_attributes ts ts' ->
  parse_declaration pe pt m F (mkTDecl n v name toks ts) = parse_declaration pe pt m F (mkTDecl n v name toks ts') /\
  expand_bitfield pe pt m F (mkUStruct attrs gs (mkTDecl n v name toks ts)) =
  expand_bitfield pe pt m F (mkUStruct attrs gs (mkTDecl n v name toks ts')).
Proof.
  intro H.
  assert (E : parse_declaration pe pt m F (mkTDecl n v name toks ts) = parse_declaration pe pt m F (mkTDecl n v name toks ts')).
  { unfold parse_declaration. cbn [td_tokens td_named td_vis td_fields td_name].
    destruct (parse_bitfield_tokens pe pt F toks) as [(ty & args & fp)| |]; cbn [pbind]; try reflexivity.
    destruct (negb n); [reflexivity|]. rewrite (same_loop _ _ _ _ _ _ _ H). reflexivity. }
  split; [exact E|]. unfold expand_bitfield, bitfield_items, struct_item. cbn [us_decl us_attrs]. rewrite E. reflexivity.
Qed.

(** ** C67 *)

(** A condition below [#[bitfield]] removes the struct but not what belongs to it:
    the rest is without errors of name resolution exactly if all conditions hold. *)
Theorem C67_struct_exact pe pt m F u l on :
  expand_bitfield pe pt m F u = POk l ->
  (resolves (after_cfg on l) <-> conditions_hold on (us_attrs u)).
Proof.
  intro H. unfold expand_bitfield in H. apply pbind_ok in H as (bf & Hp & H). injection H as <-. clear Hp.
  assert (Keep : forall i, In i (below_items bf) -> keep on (oi_attrs i) = true).
  { intros i Hi. apply keep_spec. pose proof (below_among bf) as B. rewrite Forall_forall in B.
    apply (conditions_none on _ _ (B i Hi)). cbn. intuition discriminate. }
  assert (Below : filter (fun i => keep on (oi_attrs i)) (below_items bf) = below_items bf).
  { clear -Keep. induction (below_items bf) as [|i l IH]; [reflexivity|]. cbn [filter].
    rewrite (Keep i (or_introl eq_refl)). f_equal. apply IH. intros j Hj. apply Keep. right. exact Hj. }
  unfold after_cfg, bitfield_items. set (w := mkOItem [mkUAttr "allow" _] _).
  assert (Kw : keep on (oi_attrs w) = true) by reflexivity.
  cbn [filter]. rewrite Kw, Below.
  assert (Ks : keep on (oi_attrs (struct_item u bf)) = keep on (us_attrs u)).
  { apply Bool.eq_true_iff_eq. rewrite !keep_spec. unfold struct_item. cbn [oi_attrs]. rewrite !conditions_app.
    assert (X : conditions_hold on (default_attributes bf)).
    { apply (conditions_none on _ _ (default_among bf)). cbn. intuition discriminate. }
    assert (Y : conditions_hold on [doc "Represents a bitfield."]).
    { intros a [<-|[]]. cbn. discriminate. }
    intuition. }
  rewrite Ks. rewrite <- (keep_spec on (us_attrs u)). destruct (keep on (us_attrs u)).
  - split; [reflexivity|]. intros _ i n t vs Hi Ek. cbn [map] in Hi.
    assert (Main : In (configure on (struct_item u bf)) (map (configure on) (struct_item u bf :: w :: below_items bf)))
      by (left; reflexivity).
    assert (Same : vs = [] /\ (n = b_name bf \/
      n = (b_name bf ++ "Builder") /\ In (mkOItem [doc "A builder for the bitfield."] (IType n [] [mkMember [] "this" []])) (below_items bf))).
    { destruct Hi as [<-|[<-|Hi]].
      - cbn in Ek. discriminate.
      - cbn in Ek. injection Ek as <- _ <-. auto.
      - apply in_map_iff in Hi as (j & <- & Hj). unfold below_items in Hj. unfold below_items.
        rewrite !in_app_iff in Hj. rewrite !in_app_iff.
        destruct Hj as [Hj|[Hj|[Hj|Hj]]].
        + destruct (a_from_traits _); [|destruct Hj].
          destruct Hj as [<-|[<-|[]]]; injection Ek as <- _ <-; auto.
        + destruct (a_default _); [|destruct Hj].
          destruct Hj as [<-|[]]; injection Ek as <- _ <-; auto.
        + destruct (a_debug _); [|destruct Hj].
          destruct Hj as [<-|[]]; injection Ek as <- _ <-; auto.
        + destruct (a_builder _); [|destruct Hj].
          destruct Hj as [<-|[<-|[<-|[]]]]; [discriminate Ek| |]; injection Ek as <- _ <-;
            (split; [reflexivity|]; right; split; [reflexivity|]; right; right; right; left; reflexivity). }
    destruct Same as [-> [->|[_ Hin]]].
    + eexists _, _, _. split; [exact Main|]. split; [reflexivity|]. intros v [].
    + exists (configure on (mkOItem [doc "A builder for the bitfield."] (IType n [] [mkMember [] "this" []]))).
      eexists _, _. split; [right; right; apply in_map; exact Hin|]. split; [reflexivity|]. intros v [].
  - split; [|discriminate]. intro R. exfalso.
    destruct (R (configure on w) (b_name bf) None [] ltac:(left; reflexivity) eq_refl) as (j & g & ms & Hj & Ej & _).
    cbn [map] in Hj. destruct Hj as [<-|Hj]; [discriminate Ej|].
    apply in_map_iff in Hj as (i & <- & Hi). unfold below_items in Hi. rewrite !in_app_iff in Hi.
    assert (Ne : forall s : string, s <> (s ++ "Builder")%string).
    { clear. induction s as [|c s IH]; cbn; [discriminate|]. intro E. injection E as E. exact (IH E). }
    destruct Hi as [Hi|[Hi|[Hi|Hi]]];
      match type of Hi with In _ (if ?b then _ else _) => destruct b; [|destruct Hi] end;
      repeat (destruct Hi as [<-|Hi]; [cbn in Ej; try discriminate Ej|]); try destruct Hi.
    injection Ej as E _ _. symmetry in E. exact (Ne _ E).
Qed.

(** Every variant is named in the block: in its own arm, or in the last one. *)
Lemma arm_names F e g arms : parse_bitflag F (enum_decl e) = POk g -> match_cases g = Val arms ->
  forall n, In n (map snd arms) <-> In n (map uv_name (ue_variants e)).
Proof.
  intros Hp Ha n. destruct (cases_shape _ _ _ Hp) as (w & Hw & Hin & E). rewrite E in Ha. injection Ha as <-.
  assert (Names : map x_name (g_variants g) = map uv_name (ue_variants e)).
  { unfold parse_bitflag in Hp. apply pbind_ok in Hp as (a & _ & Hp). apply pbind_ok in Hp as (xs & Hxs & Hp).
    apply pbind_ok in Hp as (y & _ & Hp). injection Hp as <-. cbn [g_variants]. apply parse_variants_sound in Hxs as [_ Hxs].
    cbn [enum_decl e_variants] in Hxs. clear -Hxs. revert xs Hxs.
    induction (ue_variants e) as [|v vs IH]; intros xs H; inversion H; subst; [reflexivity|].
    cbn [map]. f_equal; [|apply IH; assumption]. match goal with X : variant_matches _ _ |- _ => destruct X as (X & _); exact X end. }
  rewrite <- Names, map_app, in_app_iff, map_map. cbn [map snd]. split.
  - intros [H|[<-|[]]].
    + apply in_map_iff in H as (x & <- & Hx). apply filter_In in Hx as [Hx _]. apply in_map. exact Hx.
    + apply in_map. exact Hin.
  - intro H. apply in_map_iff in H as (x & <- & Hx). destruct (x_base x) eqn:Eb.
    + right. left. destruct Hw as [[_ Hb]|Hw].
      * rewrite (one_base _ _ _ w x Hp Hin Hx Hb Eb). reflexivity.
      * exfalso. destruct Hw as (Hf & _). rewrite Forall_forall in Hf. rewrite (Hf x Hx) in Eb. discriminate.
    + left. apply in_map_iff. exists x. split; [reflexivity|]. apply filter_In. rewrite Eb. auto.
Qed.

(** A condition on a variant removes the variant but not its arm: what remains
    is without errors of name resolution exactly if every variant name is still
    declared. *)
Theorem C67_enum_exact F e l on :
  expand_bitflag F e = POk l ->
  (resolves (after_cfg on l) <->
   conditions_hold on (ue_attrs e) /\
   forall v, In v (ue_variants e) -> exists v', In v' (ue_variants e) /\ uv_name v' = uv_name v /\
     conditions_hold on (uv_attrs v')).
Proof.
  unfold expand_bitflag. intro H. apply pbind_ok in H as (g & Hp & H). unfold bitflag_items in H.
  destruct (match_cases g) as [arms|] eqn:Ea; cbn [bind] in H; [|discriminate]. injection H as <-.
  pose proof (arm_names _ _ _ _ Hp Ea) as Names.
  set (pre := (mkUAttr "repr" _ :: _)%list).
  assert (Kp : keep on pre = keep on (ue_attrs e)).
  { subst pre. destruct (fa_copy (g_args g)); reflexivity. }
  assert (Km : forall v, keep on (me_attrs (variant_member v)) = keep on (uv_attrs v)).
  { intro v. apply Bool.eq_true_iff_eq. rewrite !keep_spec. cbn [variant_member me_attrs]. unfold conditions_hold. split.
    - intros X a Ha Ec. apply X; [|exact Ec]. apply filter_In. rewrite Ec. auto.
    - intros X a Ha Ec. apply filter_In in Ha as [Ha _]. apply X; assumption. }
  unfold after_cfg. cbn [filter oi_attrs]. rewrite Kp. rewrite <- (keep_spec on (ue_attrs e)).
  assert (Ki : keep on [] = true) by reflexivity. rewrite Ki.
  destruct (keep on (ue_attrs e)).
  - cbn [map]. unfold configure at 1 2. cbn [oi_attrs oi_kind]. split.
    + intro R. split; [reflexivity|]. intros v Hv.
      destruct (R _ (g_name g) None (map snd arms) ltac:(right; left; reflexivity) eq_refl) as (j & gs & ms & Hj & Ej & Hms).
      destruct Hj as [<-|[<-|[]]]; [|discriminate Ej]. injection Ej as _ <-.
      assert (Hn : In (uv_name v) (map snd arms)) by (apply Names, in_map, Hv).
      apply Hms in Hn. apply in_map_iff in Hn as (x & Ex & Hx). apply filter_In in Hx as [Hx Hk].
      apply in_map_iff in Hx as (v' & <- & Hv'). exists v'. split; [exact Hv'|]. split; [exact Ex|].
      rewrite Km in Hk. apply keep_spec. exact Hk.
    + intros [_ R] i n t vs Hi Ei. destruct Hi as [<-|[<-|[]]]; [discriminate Ei|]. injection Ei as <- _ <-.
      eexists _, _, _. split; [left; reflexivity|]. split; [reflexivity|].
      intros v Hv. apply Names in Hv. apply in_map_iff in Hv as (u & <- & Hu).
      destruct (R u Hu) as (v' & Hv' & En & Hc). apply in_map_iff. exists (variant_member v'). split; [exact En|].
      apply filter_In. split; [apply in_map; exact Hv'|]. rewrite Km. apply keep_spec. exact Hc.
  - cbn [map]. split; [|intros [X _]; discriminate X]. intro R. exfalso.
    destruct (R _ (g_name g) None (map snd arms) ltac:(left; reflexivity) eq_refl) as (j & gs & ms & [<-|[]] & Ej & _).
    discriminate Ej.
Qed.

(** ** Examples and counterexamples *)

Definition cond (name : string) : list tok := parens [KIdent name].
Definition field_named (attrs : list fattr) (n : string) : tfield :=
  mkTField attrs n VisPublic (RPath "u8") (PInt 0) (mkCodec U8 (fun z => z) U8 (fun z => z)).
(** [#[bitfield(u16)] #[derive(Hash)] #[cfg(x)] struct Reg { .. }] *)
Definition sample (gs : list string) (fs : list tfield) : ustruct :=
  mkUStruct [derive [KIdent "Hash"]; mkUAttr "cfg" (cond "x")] gs
    (mkTDecl true VisPublic "Reg" [KIdent "u16"] fs).
Definition two_fields : list tfield :=
  [field_named [mkFAttr "doc" None; mkFAttr "cfg" (Some [KIdent "x"])] "a"; field_named [mkFAttr "doc" None] "b"].
Definition no_feature : features := fun _ => false.
Definition variant_named (attrs : list uattr) (payload : list rtype) (n text : string) (z : Z) : uvariant :=
  mkUVariant attrs payload n (Some text) FLit z.
(** [#[bitflag(u8)] enum Mode { #[base] Off = 0, #[cfg(x)] On = 1 }] *)
Definition sample_enum (payload : list rtype) : uenum :=
  mkUEnum [derive [KIdent "Debug"]] [] VisPublic "Mode" (Some (RPath "u8")) []
    [variant_named [mkUAttr "base" []] [] "Off" "0" 0;
     variant_named [mkUAttr "doc" [KEq; KOther "on"]; mkUAttr "cfg" (cond "x")] payload "On" "1" 1].

Example C66_ex :
  exists l e,
    expand_bitfield simple_pe simple_pt Checked no_feature (sample [] two_fields) = POk l /\
    map (fun i => map ua_path (oi_attrs i)) l =
      [["repr"; "derive"; "derive"; "cfg"; "doc"]; ["allow"]; []; []; []; []; ["doc"]; []; []] /\
    expand_bitflag no_feature (sample_enum []) = POk e /\
    map (fun i => map ua_path (oi_attrs i)) e = [["repr"; "derive"; "derive"]; []] /\
    Forall2 same_but_attributes two_fields [field_named [] "a"; field_named [mkFAttr "serde" (Some [])] "b"].
Proof.
  eexists _, _. split; [vm_compute; reflexivity|]. split; [vm_compute; reflexivity|]. split; [vm_compute; reflexivity|].
  split; [vm_compute; reflexivity|].
  assert (N : forall attrs, Forall (fun a => fa_name a <> "bits") attrs -> forall o, ~ first_bits attrs o).
  { intros attrs H o (pre & post & -> & _). rewrite Forall_forall in H. apply (H (mkFAttr "bits" o)); [apply in_elt|reflexivity]. }
  repeat constructor; cbn [field_named tf_name tf_attrs]; intro X; exfalso; revert X; apply N; repeat constructor; discriminate.
Qed.

(** A field under a false condition is part of the bitfield all the same. *)
Theorem C67_field_refuted :
  ~ forall pe pt m F n v name toks ts (on : list tok -> bool),
    let off t := existsb (fun a => String.eqb (fa_name a) "cfg" && match fa_tokens a with Some x => negb (on x) | None => false end)%bool (tf_attrs t) in
    parse_declaration pe pt m F (mkTDecl n v name toks ts) =
    parse_declaration pe pt m F (mkTDecl n v name toks (filter (fun t => negb (off t)) ts)).
Proof.
  intro H. specialize (H simple_pe simple_pt Checked no_feature true VisPublic "Reg" [KIdent "u16"] two_fields (fun _ => false)).
  vm_compute in H. discriminate H.
Qed.

(** Below [#[bitfield]] and on variants, a false condition leaves code that names
    what it has removed. *)
Theorem C67_cfg_refuted :
  (~ forall pe pt m F u l on, expand_bitfield pe pt m F u = POk l -> resolves (after_cfg on l)) /\
    (~ forall F e l on, expand_bitflag F e = POk l -> conditions_hold on (ue_attrs e) -> resolves (after_cfg on l)).
Proof.
  split; intro H.
  - destruct (expand_bitfield simple_pe simple_pt Checked no_feature (sample [] two_fields)) as [l| |] eqn:E;
      [|vm_compute in E; discriminate E|vm_compute in E; discriminate E].
    specialize (H _ _ _ _ _ _ (fun _ => false) E). apply (C67_struct_exact _ _ _ _ _ _ _ E) in H.
    specialize (H (mkUAttr "cfg" (cond "x")) ltac:(right; left; reflexivity) eq_refl). discriminate H.
  - destruct (expand_bitflag no_feature (sample_enum [])) as [l| |] eqn:E;
      [|vm_compute in E; discriminate E|vm_compute in E; discriminate E].
    specialize (H _ _ _ (fun _ => false) E ltac:(intros a [<-|[]] X; discriminate X)).
    apply (C67_enum_exact _ _ _ _ E) in H. destruct H as [_ H].
    destruct (H _ (or_intror (or_introl eq_refl))) as (v' & [<-|[<-|[]]] & En & Hc); [discriminate En|].
    specialize (Hc (mkUAttr "cfg" (cond "x")) ltac:(right; left; reflexivity) eq_refl). discriminate Hc.
Qed.

(** Generic parameters and payloads are dropped without an error. *)
Theorem C67_dropped pe pt m F u l e k :
  expand_bitfield pe pt m F u = POk l -> expand_bitflag F e = POk k ->
  (exists i ms, In i l /\ oi_kind i = IType (td_name (us_decl u)) [] ms) /\
  (exists i ms, In i k /\ oi_kind i = IType (ue_name e) [] ms /\ map me_name ms = map uv_name (ue_variants e) /\
    Forall (fun x => me_payload x = []) ms).
Proof.
  intros Hl Hk. split.
  - apply C66_struct in Hl as (pre & ms & rest & -> & _). eexists _, ms. split; [left; reflexivity|reflexivity].
  - unfold expand_bitflag in Hk. apply pbind_ok in Hk as (g & Hp & H). unfold bitflag_items in H.
    destruct (match_cases g) as [arms|] eqn:Ea; cbn [bind] in H; [|discriminate]. injection H as <-.
    assert (En : g_name g = ue_name e).
    { unfold parse_bitflag in Hp. apply pbind_ok in Hp as (a & _ & Hp). apply pbind_ok in Hp as (xs & _ & Hp).
      apply pbind_ok in Hp as (y & _ & Hp). injection Hp as <-. reflexivity. }
    eexists _, _. split; [left; reflexivity|]. rewrite <- En. split; [reflexivity|].
    split; [rewrite map_map; reflexivity|]. clear. induction (ue_variants e); constructor; auto.
Qed.
Theorem C67_generics_refuted :
  ~ (forall pe pt m F u l, expand_bitfield pe pt m F u = POk l ->
     exists i ms, In i l /\ oi_kind i = IType (td_name (us_decl u)) (us_generics u) ms) /\
  ~ (forall F e l, expand_bitflag F e = POk l ->
     exists i g ms, In i l /\ oi_kind i = IType (ue_name e) g ms /\ map me_payload ms = map uv_payload (ue_variants e)).
Proof.
  split; intro H.
  - destruct (expand_bitfield simple_pe simple_pt Checked no_feature (sample ["T"] two_fields)) as [l| |] eqn:E;
      [|vm_compute in E; discriminate E|vm_compute in E; discriminate E].
    destruct (H _ _ _ _ _ _ E) as (i & ms & Hi & Ei). vm_compute in E. injection E as <-.
    cbn in Hi. repeat (destruct Hi as [<-|Hi]; [discriminate Ei|]). destruct Hi.
  - destruct (expand_bitflag no_feature (sample_enum [RPath "u8"])) as [l| |] eqn:E;
      [|vm_compute in E; discriminate E|vm_compute in E; discriminate E].
    destruct (H _ _ _ E) as (i & g & ms & Hi & Ei & Em). vm_compute in E. injection E as <-.
    destruct Hi as [<-|[<-|[]]]; [|discriminate Ei]. injection Ei as _ <-. discriminate Em.
Qed.
