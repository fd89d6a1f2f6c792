(** C73: derives written by the user next to those of the macro. *)
From Coq Require Import ZArith List Bool String Lia.
From Verif Require Import RustInt Syntax ConstExpr Parser Surface Emit Bitflag Attr Outer Derives PropAttr PropOuter.
Import ListNotations.
Open Scope string_scope.
Open Scope list_scope.

(** A trait that the macro implements for the bitfield. *)
Definition generated (bf : bitfield) (t : string) : Prop :=
  let a := b_args bf in
  (t = "Clone" /\ a_copy a = true) \/
  (t = "Copy" /\ a_copy a = true /\ is_heap bf = false) \/
  ((t = "From" \/ t = "Into") /\ a_from_traits a = true) \/
  (t = "Default" /\ a_default a = true) \/
  (t = "Debug" /\ a_debug a = true).

(** ** Lists *)

Lemma NoDup_app_iff {A} (l l' : list A) :
  NoDup (l ++ l') <-> NoDup l /\ NoDup l' /\ (forall x, In x l -> ~ In x l').
Proof.
  induction l as [|x l IH]; cbn [app].
  - split; [intro H; repeat split; [constructor|exact H|intros x []]|intros (_ & H & _); exact H].
  - rewrite !NoDup_cons_iff, IH, in_app_iff. split.
    + intros (A1 & A2 & A3 & A4). repeat split; try tauto. intros y [<-|H]; [tauto|auto].
    + intros ((A1 & A2) & A3 & A4). repeat split; auto.
      * intros [H|H]; [tauto|]. exact (A4 x (or_introl eq_refl) H).
      * intros y H. apply A4. now right.
Qed.
Lemma NoDup_pair (n : string) (l : list string) : NoDup (map (fun t => (t, n)) l) <-> NoDup l.
Proof.
  split; [apply NoDup_map_inv|]. intro H. induction H as [|x l N _ IH]; cbn; constructor; [|exact IH].
  rewrite in_map_iff. intros (y & E & Hy). injection E as ->. contradiction.
Qed.
Lemma in_pair (n : string) (l : list string) t x : In (t, x) (map (fun t => (t, n)) l) <-> x = n /\ In t l.
Proof.
  rewrite in_map_iff. split.
  - intros (y & E & H). injection E as <- <-. auto.
  - intros [-> H]. eauto.
Qed.
Lemma longer (s : string) : s <> (s ++ "Builder")%string.
Proof. induction s as [|c s IH]; cbn; [discriminate|]. intro E. injection E as E. exact (IH E). Qed.

(** ** The implementations of a bitfield *)

Definition own_derives (bf : bitfield) : list string :=
  if a_copy (b_args bf) then if is_heap bf then ["Clone"] else ["Copy"; "Clone"] else [].
Definition own_impls (bf : bitfield) : list string :=
  (if a_from_traits (b_args bf) then ["From"; "Into"] else []) ++
  (if a_default (b_args bf) then ["Default"] else []) ++ (if a_debug (b_args bf) then ["Debug"] else []).
Definition builder_impls (bf : bitfield) : list (string * string) :=
  if a_builder (b_args bf) then [("Default", (b_name bf ++ "Builder")%string)] else [].

Lemma derived_app l l' : derived (l ++ l') = derived l ++ derived l'.
Proof. apply flat_map_app. Qed.
Lemma own_derived bf : derived (default_attributes bf) = own_derives bf.
Proof.
  unfold default_attributes, own_derives, is_heap. destruct (a_copy (b_args bf)); [|reflexivity].
  destruct (a_array_heap (b_args bf) && negb (is_integer_backed bf))%bool; reflexivity.
Qed.
Lemma struct_derived u bf : derived (oi_attrs (struct_item u bf)) = own_derives bf ++ derived (us_attrs u).
Proof.
  unfold struct_item. cbn [oi_attrs]. rewrite !derived_app, own_derived. cbn. now rewrite app_nil_r.
Qed.
Lemma bitfield_impls u bf :
  impls (bitfield_items u bf) =
  map (fun t => (t, b_name bf)) (own_derives bf ++ derived (us_attrs u) ++ own_impls bf) ++ builder_impls bf.
Proof.
  unfold bitfield_items, impls. cbn [flat_map]. unfold impls_of at 1. cbn [struct_item oi_kind].
  change (oi_attrs _) with (oi_attrs (struct_item u bf)) at 1. rewrite struct_derived.
  rewrite !map_app, <- !app_assoc. do 2 f_equal.
  unfold below_items, own_impls, builder_impls. rewrite !flat_map_app, !map_app, <- !app_assoc.
  cbn [impls_of oi_kind app].
  destruct (a_from_traits (b_args bf)), (a_default (b_args bf)), (a_debug (b_args bf)), (a_builder (b_args bf)); reflexivity.
Qed.
Lemma generated_iff bf t : generated bf t <-> In t (own_derives bf ++ own_impls bf).
Proof.
  unfold generated, own_derives, own_impls. rewrite !in_app_iff.
  destruct (a_copy (b_args bf)), (is_heap bf), (a_from_traits (b_args bf)), (a_default (b_args bf)), (a_debug (b_args bf));
    cbn [In]; intuition (subst; auto; discriminate).
Qed.
Lemma own_distinct bf : NoDup (own_derives bf ++ own_impls bf).
Proof.
  unfold own_derives, own_impls.
  destruct (a_copy (b_args bf)), (is_heap bf), (a_from_traits (b_args bf)), (a_default (b_args bf)), (a_debug (b_args bf));
    cbn; repeat constructor; cbn; intuition discriminate.
Qed.

Lemma coherent_iff u bf :
  coherent (bitfield_items u bf) <->
  NoDup (derived (us_attrs u)) /\ (forall t, In t (derived (us_attrs u)) -> ~ generated bf t).
Proof.
  unfold coherent. rewrite bitfield_impls, NoDup_app_iff, NoDup_pair.
  pose proof (own_distinct bf) as O. rewrite NoDup_app_iff in O. destruct O as (O1 & O2 & O3).
  rewrite !NoDup_app_iff. split.
  - intros ((A1 & (A2 & A3 & A4) & A5) & _). split; [exact A2|]. intros t Ht G.
    apply generated_iff, in_app_iff in G as [G|G].
    + apply (A5 t G). apply in_app_iff. now left.
    + exact (A4 t Ht G).
  - intros [D N]. split; [|split].
    + repeat split; try assumption.
      * intros t Ht G. apply (N t Ht), generated_iff, in_app_iff. now right.
      * intros t Ht G. apply in_app_iff in G as [G|G]; [|exact (O3 t Ht G)].
        apply (N t G), generated_iff, in_app_iff. now left.
    + unfold builder_impls. destruct (a_builder (b_args bf)); repeat constructor. intros [].
    + intros [t n] Hp Hb. apply in_pair in Hp as [-> _]. unfold builder_impls in Hb.
      destruct (a_builder (b_args bf)); [|destruct Hb]. destruct Hb as [E|[]]. injection E as _ E.
      symmetry in E. exact (longer _ E).
Qed.

Lemma super_cases t s : In s (supertraits t) -> s = "Clone" /\ t = "Copy" \/ In s ["PartialEq"; "Eq"; "PartialOrd"].
Proof.
  unfold supertraits.
  destruct (String.eqb_spec t "Copy"); [intros [<-|[]]; auto|].
  destruct (String.eqb_spec t "Eq"); [intros [<-|[]]; right; cbn; auto|].
  destruct (String.eqb_spec t "PartialOrd"); [intros [<-|[]]; right; cbn; auto|].
  destruct (String.eqb_spec t "Ord"); [|intros []]. intros H. right. cbn in *. intuition.
Qed.
Lemma generated_super bf t s : In s (supertraits t) -> generated bf s -> s = "Clone" /\ a_copy (b_args bf) = true.
Proof.
  intros H G. destruct (super_cases _ _ H) as [[-> ->]|K].
  - unfold generated in G. intuition discriminate.
  - unfold generated in G. cbn in K. destruct K as [<-|[<-|[<-|[]]]]; intuition discriminate.
Qed.

Lemma supertraits_iff u bf :
  supertraits_met (bitfield_items u bf) <->
  (forall t s, In t (derived (us_attrs u)) -> In s (supertraits t) ->
     In s (derived (us_attrs u)) \/ s = "Clone" /\ a_copy (b_args bf) = true).
Proof.
  assert (Names : forall s, In (s, b_name bf) (impls (bitfield_items u bf)) <->
    In s (derived (us_attrs u)) \/ generated bf s).
  { intro s. rewrite bitfield_impls, in_app_iff, in_pair, generated_iff, !in_app_iff. split.
    - intros [[_ H]|H]; [tauto|]. exfalso. unfold builder_impls in H. destruct (a_builder (b_args bf)); [|destruct H].
      destruct H as [E|[]]. injection E as _ E. symmetry in E. exact (longer _ E).
    - intros H. left. split; [reflexivity|tauto]. }
  unfold supertraits_met. split.
  - intros H t s Ht Hs.
    specialize (H (struct_item u bf) _ _ _ t s (or_introl eq_refl) eq_refl).
    rewrite struct_derived, in_app_iff in H. specialize (H (or_intror Ht) Hs). apply Names in H as [H|H]; [auto|].
    right. exact (generated_super _ _ _ Hs H).
  - intros H i n gs ms t s Hi Ek Ht Hs. destruct Hi as [<-|[<-|Hi]].
    + cbn [struct_item oi_kind] in Ek. injection Ek as <- _ _. rewrite struct_derived, in_app_iff in Ht. apply Names.
      destruct Ht as [Ht|Ht].
      * right. destruct (super_cases _ _ Hs) as [[-> ->]|K].
        -- left. split; [reflexivity|]. unfold own_derives in Ht. destruct (a_copy (b_args bf)); [reflexivity|destruct Ht].
        -- exfalso. unfold own_derives in Ht. destruct (a_copy (b_args bf)); [|destruct Ht].
           destruct (is_heap bf); cbn in Ht; cbn in K; intuition (subst; cbn in Hs; intuition discriminate).
      * destruct (H t s Ht Hs) as [H'|[-> H']]; [auto|]. right. left. auto.
    + discriminate Ek.
    + exfalso. unfold below_items in Hi. rewrite !in_app_iff in Hi.
      destruct Hi as [Hi|[Hi|[Hi|Hi]]]; match type of Hi with In _ (if ?b then _ else _) => destruct b; [|destruct Hi] end;
        repeat (destruct Hi as [<-|Hi]; [cbn in Ek, Ht; try discriminate Ek; try destruct Ht|]); destruct Hi.
Qed.

Lemma members_iff U u bf :
  members_met U bf (oi_attrs (struct_item u bf)) <->
  (forall t m, In t (derived (us_attrs u)) -> In t std_derives -> In m (member_types bf) -> implements U t m) /\
  (a_copy (b_args bf) = true -> forall m, In m (tl (member_types bf)) ->
     implements U "Clone" m /\ (is_heap bf = false -> implements U "Copy" m)).
Proof.
  unfold members_met. rewrite struct_derived. setoid_rewrite in_app_iff.
  unfold own_derives. split.
  - intros H. split; [intros; apply H; auto|]. intros Hc m Hm. rewrite Hc in H. split.
    + apply H; [left|cbn; auto|right; exact Hm]. destruct (is_heap bf); cbn; auto.
    + intro Hh. rewrite Hh in H. apply H; [left; cbn; auto|cbn; auto|right; exact Hm].
  - intros [H1 H2] t m Ht Hs Hm. destruct Ht as [Ht|Ht]; [|exact (H1 t m Ht Hs Hm)].
    destruct (a_copy (b_args bf)); [|destruct Ht].
    destruct Hm as [<-|Hm].
    + destruct (is_heap bf); destruct (b_ty bf); cbn in *; intuition (subst; try discriminate).
    + destruct (H2 eq_refl m Hm) as [H3 H4]. destruct (is_heap bf); cbn in Ht; intuition (subst; auto).
Qed.

(** ** C73 *)

(** When the trait implementations of a bitfield are accepted: the user derives
    nothing twice, nothing that the macro implements, with every trait those it
    extends, and only what the members have; and the ignored fields can be cloned,
    copied and made when the macro needs it. *)
Theorem C73_exact U u bf :
  let D := derived (us_attrs u) in
  bitfield_traits_ok U u bf <->
  NoDup D /\
  (forall t, In t D -> ~ generated bf t) /\
  (forall t s, In t D -> In s (supertraits t) -> In s D \/ s = "Clone" /\ a_copy (b_args bf) = true) /\
  (forall t m, In t D -> In t std_derives -> In m (member_types bf) -> implements U t m) /\
  (forall m, In m (tl (member_types bf)) ->
     (a_copy (b_args bf) = true -> implements U "Clone" m /\ (is_heap bf = false -> implements U "Copy" m)) /\
     (inits bf = true -> implements U "Default" m)).
Proof.
  cbv zeta. unfold bitfield_traits_ok. rewrite coherent_iff, supertraits_iff, members_iff. unfold defaults_met.
  split.
  - intros ((A1 & A2) & A3 & (A4 & A5) & A6). repeat apply conj; auto.
  - intros (A1 & A2 & A3 & A4 & A5). repeat apply conj; auto; intros Hc m Hm; destruct (A5 m Hm) as [B1 B2]; auto.
Qed.

(** Without ignored fields, over an integer: any standard derives that Rust accepts
    together, if none of them is generated. *)
Theorem C73_integer U u bf : b_ignored bf = [] -> is_integer_backed bf = true ->
  let D := derived (us_attrs u) in
  bitfield_traits_ok U u bf <->
  NoDup D /\
  (forall t, In t D -> ~ generated bf t) /\
  (forall t s, In t D -> In s (supertraits t) -> In s D \/ s = "Clone" /\ a_copy (b_args bf) = true).
Proof.
  cbv zeta. intros Hi Hb. rewrite C73_exact. unfold member_types. rewrite Hi. cbn [map tl].
  unfold is_integer_backed in Hb. destruct (b_ty bf) as [w|w|]; try discriminate Hb.
  split; [tauto|]. intros (A1 & A2 & A3). repeat apply conj; auto; [|intros m []].
  intros t m _ _ [<-|[]]. exact I.
Qed.

(** Without derives of the user the implementations never conflict; what remains is
    asked of the ignored fields. *)
Theorem C73_no_derives U u bf : derived (us_attrs u) = [] ->
  (forall m t, In m (tl (member_types bf)) -> In t ["Clone"; "Copy"; "Default"] -> implements U t m) ->
  bitfield_traits_ok U u bf.
Proof.
  intros E H. apply C73_exact. cbv zeta. rewrite E. split; [constructor|]. split; [intros t []|].
  split; [intros t s []|]. split; [intros t m []|].
  intros m Hm. repeat split; intros; apply H; cbn; auto.
Qed.

(** Enums: as above with what [#[bitflag]] generates; a derived default needs its
    one marked variant, and the mark is kept. *)
Theorem C73_bitflag_exact F e g l : parse_bitflag F (enum_decl e) = POk g -> expand_bitflag F e = POk l ->
  let D := derived (ue_attrs e) in
  bitflag_traits_ok l <->
  NoDup D /\
  (fa_copy (g_args g) = true -> ~ In "Clone" D /\ ~ In "Copy" D) /\
  (forall t s, In t D -> In s (supertraits t) -> In s D \/ s = "Clone" /\ fa_copy (g_args g) = true) /\
  (In "Default" D ->
     List.length (filter (fun v => existsb (fun a => String.eqb (ua_path a) "default") (uv_attrs v)) (ue_variants e)) = 1%nat).
Proof.
  cbv zeta. intros Hg Hx. unfold expand_bitflag in Hx. rewrite Hg in Hx. cbn [pbind] in Hx. unfold bitflag_items in Hx.
  destruct (match_cases g) as [arms|] eqn:Ea; cbn [bind] in Hx; [|discriminate]. injection Hx as <-.
  set (own := if fa_copy (g_args g) then ["Copy"; "Clone"] else []).
  set (D := derived (ue_attrs e)).
  set (at_ := (mkUAttr "repr" _ :: _)%list). set (it := mkOItem at_ _). set (bl := mkOItem [] _).
  assert (Ed : derived at_ = own ++ D).
  { subst at_ own D. destruct (fa_copy (g_args g)); reflexivity. }
  assert (Ei : impls [it; bl] = map (fun t => (t, g_name g)) (own ++ D)).
  { unfold impls. cbn [flat_map]. subst it bl. unfold impls_of. cbn [oi_kind oi_attrs]. rewrite Ed. now rewrite !app_nil_r. }
  assert (Em : List.length (marked (map variant_member (ue_variants e))) =
    List.length (filter (fun v => existsb (fun a => String.eqb (ua_path a) "default") (uv_attrs v)) (ue_variants e))).
  { unfold marked. induction (ue_variants e) as [|v vs IH]; [reflexivity|]. cbn [map filter].
    assert (Ev : existsb (fun a => String.eqb (ua_path a) "default") (me_attrs (variant_member v)) =
                 existsb (fun a => String.eqb (ua_path a) "default") (uv_attrs v)).
    { cbn [variant_member me_attrs]. induction (uv_attrs v) as [|a l IHl]; [reflexivity|]. cbn [filter existsb].
      destruct (String.eqb_spec (ua_path a) "base") as [Eb|Eb]; cbn [negb].
      - rewrite IHl, Eb. reflexivity.
      - cbn [existsb]. now rewrite IHl. }
    rewrite Ev. destruct (existsb _ (uv_attrs v)); cbn [List.length]; now rewrite IH. }
  unfold bitflag_traits_ok, coherent, supertraits_met, default_met. rewrite Ei, NoDup_pair, NoDup_app_iff.
  assert (Own : forall t, In t own -> (t = "Copy" \/ t = "Clone") /\ fa_copy (g_args g) = true).
  { subst own. destruct (fa_copy (g_args g)); cbn; intuition. }
  split.
  - intros ((_ & N & X) & S & M). repeat apply conj.
    + exact N.
    + intro Hc. subst own. rewrite Hc in X. split; apply X; cbn; auto.
    + intros t s Ht Hs. specialize (S it _ _ _ t s (or_introl eq_refl) eq_refl). cbn [it oi_attrs] in S. subst it.
      cbn [oi_attrs] in S. rewrite Ed, in_app_iff in S. specialize (S (or_intror Ht) Hs). apply in_pair in S as [_ S].
      apply in_app_iff in S as [S|S]; [|auto]. destruct (Own s S) as [[->| ->] Hc]; [|auto].
      exfalso. destruct (super_cases _ _ Hs) as [[Z _]|Z]; [discriminate Z|]. cbn in Z. intuition discriminate.
    + intro Hd. rewrite <- Em. apply (M it (g_name g) [] (map variant_member (ue_variants e)) (or_introl eq_refl) eq_refl).
      subst it. cbn [oi_attrs]. rewrite Ed, in_app_iff. now right.
  - intros (N & X & S & M). repeat apply conj.
    + subst own. destruct (fa_copy (g_args g)); repeat constructor; cbn; intuition discriminate.
    + exact N.
    + intros t Ht Hd. destruct (Own t Ht) as [[->| ->] Hc]; destruct (X Hc); contradiction.
    + intros i n gs ms t s Hi Ek Ht Hs. destruct Hi as [<-|[<-|[]]]; [|discriminate Ek].
      subst it. cbn [oi_kind] in Ek. injection Ek as <- _ _. cbn [oi_attrs] in Ht. rewrite Ed, in_app_iff in Ht.
      apply in_pair. split; [reflexivity|]. apply in_app_iff. destruct Ht as [Ht|Ht].
      * left. destruct (Own t Ht) as [[->| ->] Hc]; [|destruct Hs]. destruct Hs as [<-|[]].
        subst own. rewrite Hc. cbn. auto.
      * destruct (S t s Ht Hs) as [Y|[-> Y]]; [auto|]. left. subst own. rewrite Y. cbn. auto.
    + intros i n gs ms Hi Ek Hd. destruct Hi as [<-|[<-|[]]]; [|discriminate Ek].
      subst it. cbn [oi_kind] in Ek. injection Ek as <- _ <-. rewrite Em. apply M.
      cbn [oi_attrs] in Hd. rewrite Ed, in_app_iff in Hd. destruct Hd as [Hd|Hd]; [|exact Hd].
      destruct (Own _ Hd) as [[Z|Z] _]; discriminate Z.
Qed.

(** ** Examples and counterexamples *)

(** [#[bitfield(u16)] #[derive(..)] struct Reg { a: u8, b: u8 }], possibly with a
    [String] that is ignored. *)
Definition deriving (ds : list string) (fs : list tfield) : ustruct :=
  mkUStruct [derive (flat_map (fun n => [KIdent n; KComma]) ds)] []
    (mkTDecl true VisPublic "Reg" [KIdent "u16"] ([field_named [] "a"; field_named [] "b"] ++ fs)).
Definition ignored_string : tfield :=
  mkTField [mkFAttr "bits" (Some [KIdent "ignore"; KEq; KIdent "true"])] "s" VisPublic (RPath "String") (PInt 0)
    (mkCodec U8 (fun z => z) U8 (fun z => z)).
(** [#[bitflag(u8)] #[derive(..)] enum Mode { #[base] #[default] Off = 0, On = 1 }] *)
Definition deriving_enum (ds : list string) : uenum :=
  mkUEnum [derive (flat_map (fun n => [KIdent n; KComma]) ds)] [] VisPublic "Mode" (Some (RPath "u8")) []
    [variant_named [mkUAttr "base" []; mkUAttr "default" []] [] "Off" "0" 0; variant_named [] [] "On" "1" 1].
Lemma deriving_ok ds fs : derived (us_attrs (deriving ds fs)) = ds.
Proof.
  cbn. rewrite app_nil_r. induction ds as [|n ds IH]; [reflexivity|].
  cbn. f_equal. exact IH.
Qed.

(** The README's [derive(Hash)], and the derives of comparisons, are accepted. *)
Example C73_ex :
  (exists bf,
     parse_declaration simple_pe simple_pt Checked no_feature (us_decl (deriving ["Hash"; "PartialEq"; "Eq"] [])) = POk bf /\
     forall U, bitfield_traits_ok U (deriving ["Hash"; "PartialEq"; "Eq"] []) bf) /\
  (exists bf, parse_declaration simple_pe simple_pt Checked no_feature (us_decl (deriving [] [ignored_string])) = POk bf /\
     tl (member_types bf) = [MUser "s"] /\
     (forall U : string -> string -> Prop, U "s" "Clone" -> U "s" "Copy" -> U "s" "Default" ->
        bitfield_traits_ok U (deriving [] [ignored_string]) bf)) /\
  (exists g l, parse_bitflag no_feature (enum_decl (deriving_enum ["Debug"; "PartialEq"; "Default"])) = POk g /\
     expand_bitflag no_feature (deriving_enum ["Debug"; "PartialEq"; "Default"]) = POk l /\ bitflag_traits_ok l).
Proof.
  repeat apply conj.
  - eexists. split; [vm_compute; reflexivity|]. intro U. apply C73_integer; [reflexivity|reflexivity|].
    rewrite deriving_ok. repeat apply conj.
    + repeat constructor; cbn; intuition discriminate.
    + intros t Ht G. unfold generated in G. cbn in Ht. intuition (subst; discriminate).
    + intros t s Ht Hs. cbn in Ht. destruct Ht as [<-|[<-|[<-|[]]]]; cbn in Hs; try destruct Hs as [<-|[]]; cbn; auto; destruct Hs.
  - eexists. split; [vm_compute; reflexivity|]. split; [reflexivity|]. intros U A B C. apply C73_no_derives; [reflexivity|].
    intros m t [<-|[]] Ht. cbn in Ht. destruct Ht as [<-|[<-|[<-|[]]]]; assumption.
  - eexists _, _. split; [vm_compute; reflexivity|]. split; [vm_compute; reflexivity|].
    apply (C73_bitflag_exact no_feature (deriving_enum ["Debug"; "PartialEq"; "Default"]) _ _ eq_refl eq_refl). repeat apply conj.
    + repeat constructor; cbn; intuition discriminate.
    + intros _. cbn. intuition discriminate.
    + intros t s Ht Hs. cbn in Ht. destruct Ht as [<-|[<-|[<-|[]]]]; cbn in Hs; destruct Hs.
    + reflexivity.
Qed.

(** Derives that a struct of two integers could have are not accepted next to the
    default configuration. *)
Theorem C73_conflicts ds : In ds [["Clone"]; ["Copy"; "Clone"]; ["Debug"]; ["Default"]] ->
  exists bf, parse_declaration simple_pe simple_pt Checked no_feature (us_decl (deriving ds [])) = POk bf /\
    b_ignored bf = [] /\ derived (us_attrs (deriving ds [])) = ds /\
    forall U, ~ bitfield_traits_ok U (deriving ds []) bf.
Proof.
  intro H. eexists. split; [vm_compute; reflexivity|]. split; [reflexivity|]. split; [apply deriving_ok|].
  intros U X. apply C73_exact in X. cbv zeta in X. rewrite deriving_ok in X. destruct X as (_ & X & _).
  cbn in H. destruct H as [<-|[<-|[<-|[<-|[]]]]].
  - apply (X "Clone"); [cbn; auto|]. left. split; reflexivity.
  - apply (X "Clone"); [cbn; auto|]. left. split; reflexivity.
  - apply (X "Debug"); [cbn; auto|]. unfold generated. cbn. tauto.
  - apply (X "Default"); [cbn; auto|]. unfold generated. cbn. tauto.
Qed.

(** README.md:1942: "All ignored fields must implement the `Default` trait."  That is
    not enough: an ignored field that cannot be copied is not accepted, without any
    derive of the user. *)
Theorem C73_ignored_refuted :
  ~ forall pe pt m F (U : string -> string -> Prop) u bf, parse_declaration pe pt m F (us_decl u) = POk bf ->
    derived (us_attrs u) = [] -> (forall m, In m (tl (member_types bf)) -> implements U "Default" m) ->
    bitfield_traits_ok U u bf.
Proof.
  intro X. set (U := fun (_ t : string) => t <> "Copy").
  assert (N : ~ U "s" "Copy") by (intro A; now apply A).
  destruct (parse_declaration simple_pe simple_pt Checked no_feature (us_decl (deriving [] [ignored_string]))) as [bf| |] eqn:E;
    [|vm_compute in E; discriminate E|vm_compute in E; discriminate E].
  specialize (X _ _ _ _ U _ _ E eq_refl). vm_compute in E. injection E as <-.
  specialize (X ltac:(intros x [<-|[]]; discriminate)). apply C73_exact in X. destruct X as (_ & _ & _ & _ & X).
  destruct (X (MUser "s") (or_introl eq_refl)) as [Y _]. apply N. exact (proj2 (Y eq_refl) eq_refl).
Qed.
