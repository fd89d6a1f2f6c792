(** C65: without a heap allocated array the generated code needs [core] only.

    False: [copy], which is on by default, derives [std::marker::Copy].  The exact
    condition is given instead. *)
From Coq Require Import ZArith List Bool String Lia.
From Verif Require Import RustInt Syntax ConstExpr Parser SpecDecl PropParse Surface SpecSurface SurfaceLemmas PropSurface Bitflag PropBitflag
  Rust Emit ParserLoop PropArgs Cargo Paths.
Import ListNotations.
Open Scope string_scope.
Open Scope list_scope.

(** The storage is a boxed array. *)
Definition boxed (bf : bitfield) : Prop := a_array_heap (b_args bf) = true /\ exists n, b_ty bf = DArray n.

Lemma is_heap_boxed bf : b_ty bf <> DCustom -> (is_heap bf = true <-> boxed bf).
Proof.
  unfold is_heap, boxed, is_integer_backed. intros Hc. rewrite andb_true_iff.
  destruct (b_ty bf) as [t|n|]; cbn [negb]; [| |congruence].
  - split; intros [H K]; [discriminate K|]. destruct K as [n K]. discriminate K.
  - split; intros [H _]; (split; [exact H|]); [exists n; reflexivity|reflexivity].
Qed.

Lemma parsed_type m F d bf : parse_bitfield m F d = POk bf -> b_ty bf <> DCustom.
Proof.
  intros H. apply parse_iff in H as (ty & args' & fs0 & new & Ha & _ & _ & _ & _ & _ & ->).
  apply attribute_inv in Ha. cbn [b_ty]. tauto.
Qed.

Lemma function_core i p : In p (function_paths i) -> lp_crate p = "core".
Proof. unfold function_paths. destruct (fn_ret i); cbn [In]; intros H; try contradiction H. destruct H as [<-|[]]. reflexivity. Qed.
Lemma trait_std t p : In p (trait_paths t) -> lp_crate p = "std" <-> t = TCopy.
Proof.
  destruct t; cbn [trait_paths In]; intros H; repeat destruct H as [<-|H]; try contradiction H; cbn [lp_crate];
    split; intros E; try reflexivity; discriminate E.
Qed.

(** Only [core] and [std] are named; [std] is named iff the bitfield derives [Copy]
    or is boxed, that is iff [copy] is switched on or the storage is boxed. *)
Theorem C65_std_iff m F d bf dx : parse_bitfield m F d = POk bf ->
  (forall p, In p (bitfield_paths dx bf) -> lp_crate p = "core" \/ lp_crate p = "std") /\
  ((exists p, In p (bitfield_paths dx bf) /\ lp_crate p = "std") <->
   switch_on F (d_args d) "copy" "derive_copy" "disable_copy" \/ boxed bf).
Proof.
  intros H. pose proof (parsed_type m F d bf H) as Hc. pose proof (is_heap_boxed bf Hc) as Hh.
  assert (Hsw : switch_on F (d_args d) "copy" "derive_copy" "disable_copy" <-> a_copy (b_args bf) = true).
  { pose proof (C02_order m F d bf H) as (_ & _ & H3 & _). unfold switch_on.
    rewrite <- (H3 "copy" _ _ a_copy)%string by (cbn; tauto). reflexivity. }
  rewrite Hsw, <- Hh. clear Hsw Hh H.
  assert (Ht : In TCopy (traits bf) <-> a_copy (b_args bf) = true /\ is_heap bf = false).
  { unfold traits, is_heap. rewrite !in_app_iff. split.
    - intros [I|[I|[I|I]]].
      + destruct (a_copy (b_args bf)); [|contradiction I]. split; [reflexivity|].
        destruct (a_array_heap (b_args bf) && negb (is_integer_backed bf)); [|reflexivity].
        destruct I as [I|[]]; discriminate I.
      + destruct (a_from_traits (b_args bf)); [destruct I as [I|[I|[]]]; discriminate I|contradiction I].
      + destruct (a_default (b_args bf)); [destruct I as [I|[]]; discriminate I|contradiction I].
      + destruct (a_debug (b_args bf)); [destruct I as [I|[]]; discriminate I|contradiction I].
    - intros [-> ->]. left. left. reflexivity. }
  assert (Hs : forall p, In p (storage_paths bf) -> lp_crate p = "std" /\ is_heap bf = true).
  { unfold storage_paths. destruct (is_heap bf); intros p []; [subst; auto|contradiction]. }
  assert (Hi : forall p, In p (init_paths bf) -> lp_crate p = "std" /\ is_heap bf = true).
  { unfold init_paths. destruct (is_heap bf); cbn [andb]; [|intros p []].
    intros p Hp. match type of Hp with In _ (if ?b then _ else _) => destruct b end; destruct Hp; [subst; auto|contradiction]. }
  unfold bitfield_paths. split.
  - intros p. rewrite !in_app_iff. intros [I|[I|[I|I]]].
    + apply in_flat_map in I as (t & _ & I). destruct t; cbn [trait_paths In] in I;
        repeat destruct I as [<-|I]; try contradiction I; auto.
    + right. apply Hs, I.
    + right. apply Hi, I.
    + left. apply in_flat_map in I as (i & _ & I). exact (function_core i p I).
  - split.
    + intros (p & I & E). rewrite !in_app_iff in I. destruct I as [I|[I|[I|I]]].
      * apply in_flat_map in I as (t & Hin & I). apply (trait_std t p I) in E. subst t. left. apply Ht, Hin.
      * right. apply (Hs p I).
      * right. apply (Hi p I).
      * apply in_flat_map in I as (i & _ & I). rewrite (function_core i p I) in E. discriminate E.
    + intros Hor. destruct (is_heap bf) eqn:Eh.
      * exists (mkLPath true "std" ["boxed"; "Box"]). split; [|reflexivity]. rewrite !in_app_iff. right. left.
        unfold storage_paths. rewrite Eh. left. reflexivity.
      * destruct Hor as [Hcp|Hf]; [|discriminate Hf]. exists (mkLPath false "std" ["marker"; "Copy"]). split; [|reflexivity].
        rewrite !in_app_iff. left. apply in_flat_map. exists TCopy. split; [apply Ht; auto|left; reflexivity].
Qed.

(** Which paths are named, and when.  The list is complete, so every path is that
    of an item that exists in the library it names. *)
Theorem C65_exact m F d bf dx : parse_bitfield m F d = POk bf ->
  let on := fun key yes no => switch_on F (d_args d) key yes no in
  forall p, In p (bitfield_paths dx bf) <->
    p = mkLPath false "std" ["marker"; "Copy"] /\ on "copy" "derive_copy" "disable_copy" /\ ~ boxed bf \/
    p = mkLPath false "core" ["clone"; "Clone"] /\ on "copy" "derive_copy" "disable_copy" \/
    p = mkLPath false "core" ["convert"; "From"] /\ on "from_traits" "generate_from_traits" "disable_from_traits" \/
    p = mkLPath false "core" ["default"; "Default"] /\ on "default" "generate_default" "disable_default" \/
    In p [mkLPath false "core" ["fmt"; "Debug"]; mkLPath false "core" ["fmt"; "Formatter"];
          mkLPath false "core" ["fmt"; "Result"]] /\ on "debug" "generate_debug" "disable_debug" \/
    p = mkLPath true "std" ["boxed"; "Box"] /\ boxed bf \/
    p = mkLPath true "std" ["boxed"; "Box"; "new"] /\ boxed bf /\
      (on "new" "generate_new" "disable_new" \/
       on "from_into_bits" "generate_from_into_bits" "disable_from_into_bits" \/
       on "from_traits" "generate_from_traits" "disable_from_traits" \/
       on "default" "generate_default" "disable_default" \/ on "builder" "generate_builder" "disable_builder") \/
    p = mkLPath true "core" ["result"; "Result"] /\
      exists i t, (In i (impl_fns dx bf) \/ In i (builder_fns dx bf)) /\ fn_ret i = TRes t.
Proof.
  intros H on p. pose proof (parsed_type m F d bf H) as Hc. pose proof (is_heap_boxed bf Hc) as Hh.
  pose proof (C02_order m F d bf H) as (_ & _ & H3 & _).
  assert (Hon : forall key yes no a, In (key, (yes, no), a) switches -> (on key yes no <-> a (b_args bf) = true)).
  { intros key yes no a Hin. unfold on, switch_on. rewrite <- (H3 key _ _ a Hin). reflexivity. }
  rewrite (Hon "copy" _ _ a_copy), (Hon "from_traits" _ _ a_from_traits), (Hon "default" _ _ a_default),
    (Hon "debug" _ _ a_debug), (Hon "new" _ _ a_new), (Hon "from_into_bits" _ _ a_from_into_bits),
    (Hon "builder" _ _ a_builder) by (unfold switches; cbn [In]; tauto).
  rewrite <- Hh. clear Hon H H3 Hh Hc on.
  assert (Hf : In p (flat_map function_paths (impl_fns dx bf ++ builder_fns dx bf)) <->
    p = mkLPath true "core" ["result"; "Result"] /\
      exists i t, (In i (impl_fns dx bf) \/ In i (builder_fns dx bf)) /\ fn_ret i = TRes t).
  { rewrite in_flat_map. unfold function_paths. split.
    - intros (i & Hi & Hp). apply in_app_or in Hi. destruct (fn_ret i) eqn:E; cbn [In] in Hp; try contradiction Hp.
      destruct Hp as [<-|[]]. split; [reflexivity|]. eexists _, _. split; [exact Hi|exact E].
    - intros [-> (i & t & Hi & E)]. exists i. split; [apply in_or_app, Hi|]. rewrite E. left. reflexivity. }
  unfold bitfield_paths. rewrite !in_app_iff, Hf. clear Hf.
  unfold traits. rewrite !flat_map_app, !in_app_iff. fold (is_heap bf).
  set (R := p = mkLPath true "core" ["result"; "Result"] /\ _). clearbody R.
  assert (H1 : In p (flat_map trait_paths (if a_copy (b_args bf) then if is_heap bf then [TClone] else [TCopy; TClone] else [])) <->
    p = mkLPath false "std" ["marker"; "Copy"] /\ a_copy (b_args bf) = true /\ ~ is_heap bf = true \/
    p = mkLPath false "core" ["clone"; "Clone"] /\ a_copy (b_args bf) = true).
  { clear. destruct (a_copy (b_args bf)), (is_heap bf); cbn [flat_map trait_paths app In]; intuition congruence. }
  assert (H2 : In p (flat_map trait_paths (if a_from_traits (b_args bf) then [TFromBacking; TIntoBacking] else [])) <->
    p = mkLPath false "core" ["convert"; "From"] /\ a_from_traits (b_args bf) = true).
  { clear. destruct (a_from_traits (b_args bf)); cbn [flat_map trait_paths app In]; intuition congruence. }
  assert (H3 : In p (flat_map trait_paths (if a_default (b_args bf) then [TDefault] else [])) <->
    p = mkLPath false "core" ["default"; "Default"] /\ a_default (b_args bf) = true).
  { clear. destruct (a_default (b_args bf)); cbn [flat_map trait_paths app In]; intuition congruence. }
  assert (H4 : In p (flat_map trait_paths (if a_debug (b_args bf) then [TDebug] else [])) <->
    In p [mkLPath false "core" ["fmt"; "Debug"]; mkLPath false "core" ["fmt"; "Formatter"];
          mkLPath false "core" ["fmt"; "Result"]] /\ a_debug (b_args bf) = true).
  { clear. destruct (a_debug (b_args bf)); cbn [flat_map trait_paths app In]; intuition congruence. }
  assert (H5 : In p (storage_paths bf) <-> p = mkLPath true "std" ["boxed"; "Box"] /\ is_heap bf = true).
  { clear. unfold storage_paths. destruct (is_heap bf); cbn [In]; intuition congruence. }
  assert (H6 : In p (init_paths bf) <-> p = mkLPath true "std" ["boxed"; "Box"; "new"] /\ is_heap bf = true /\
    (a_new (b_args bf) = true \/ a_from_into_bits (b_args bf) = true \/ a_from_traits (b_args bf) = true \/
     a_default (b_args bf) = true \/ a_builder (b_args bf) = true)).
  { clear. unfold init_paths. rewrite <- !orb_true_iff, !orb_assoc.
    destruct (is_heap bf); cbn [andb]; [|cbn [In]; intuition congruence].
    match goal with |- context[if ?b then _ else _] => destruct b end; cbn [In]; intuition congruence. }
  rewrite H1, H2, H3, H4, H5, H6. clear. tauto.
Qed.

(** The same for an enum, with the switch [copy]. *)
Theorem C65_bitflag F e g : parse_bitflag F e = POk g ->
  ((exists p, In p (bitflag_paths g) /\ lp_crate p = "std") <->
   switch_value (e_args e) "copy" (F "bitflag_derive_copy" || negb (F "bitflag_disable_copy")) = true).
Proof.
  intros H. pose proof (C30_descriptor F e g H) as D. 
  assert (E : fa_copy (g_args g) = switch_value (e_args e) "copy" (F "bitflag_derive_copy" || negb (F "bitflag_disable_copy"))).
  { apply D. }
  rewrite <- E. unfold bitflag_paths. destruct (fa_copy (g_args g)); split; intros K; try reflexivity; try discriminate K.
  - eexists. split; [left; reflexivity|reflexivity].
  - destruct K as (p & [] & _).
Qed.

(** Exactly two paths, both with that switch. *)
Theorem C65_bitflag_exact F e g p : parse_bitflag F e = POk g ->
  (In p (bitflag_paths g) <->
   (p = mkLPath false "std" ["marker"; "Copy"] \/ p = mkLPath false "core" ["clone"; "Clone"]) /\
   switch_value (e_args e) "copy" (F "bitflag_derive_copy" || negb (F "bitflag_disable_copy")) = true).
Proof.
  intros H. pose proof (C30_descriptor F e g H) as D.
  assert (E : fa_copy (g_args g) = switch_value (e_args e) "copy" (F "bitflag_derive_copy" || negb (F "bitflag_disable_copy")))
    by apply D.
  rewrite <- E. unfold bitflag_paths. destruct (fa_copy (g_args g)); cbn [In]; intuition congruence.
Qed.

(** So the claim is false: a plain declaration of either kind, with default
    features and without [array_heap], names [std] (README.md:35, 259). *)
Definition plain_decl : rdecl :=
  mkRDecl true VisPublic "Reg" (Some (RPath "u8")) [] [fld "a" ANone (RPath "u8") (PInt 0)].
Definition plain_enum : renum :=
  mkREnum VisPublic "E" (Some (RPath "u8")) [] [var "A" ["base"] "0" 0%Z].
Definition cargo_defaults : features := fun x => existsb (String.eqb x) impl_defaults.
Theorem C65_no_std_refuted : exists d bf e g,
  parse_bitfield Checked cargo_defaults d = POk bf /\ d_args d = [] /\ ~ boxed bf /\
  parse_bitflag cargo_defaults e = POk g /\ e_args e = [] /\
  (forall dx, exists p, In p (bitfield_paths dx bf) /\ lp_crate p = "std") /\
  exists p, In p (bitflag_paths g) /\ lp_crate p = "std".
Proof.
  exists plain_decl. eexists. exists plain_enum. eexists.
  split; [vm_compute; reflexivity|]. split; [reflexivity|]. split. { intros [_ [n E]]. discriminate E. }
  split; [vm_compute; reflexivity|]. split; [reflexivity|]. split.
  - intros dx. exists (mkLPath false "std" ["marker"; "Copy"]). split; [left; reflexivity|reflexivity].
  - exists (mkLPath false "std" ["marker"; "Copy"]). split; [left; reflexivity|reflexivity].
Qed.

(** Without [copy] the same declarations name [core] only. *)
Example C65_ex :
  match parse_bitfield Checked cargo_defaults (mkRDecl true VisPublic "Reg" (Some (RPath "u8")) [("copy", "false")] (d_fields plain_decl)) with
  | POk bf => forall dx, Forall (fun p => lp_crate p = "core") (bitfield_paths dx bf) /\ bitfield_paths dx bf <> []
  | _ => False
  end.
Proof.
  destruct (parse_bitfield Checked cargo_defaults _) as [bf| |] eqn:E; [|vm_compute in E; discriminate E|vm_compute in E; discriminate E].
  intros dx. destruct (C65_std_iff _ _ _ bf dx E) as [H1 H2]. split.
  - apply Forall_forall. intros p Hp. destruct (H1 p Hp) as [Hc|Hs]; [exact Hc|]. exfalso.
    assert (K : switch_on cargo_defaults [("copy", "false")] "copy" "derive_copy" "disable_copy" \/ boxed bf) by (apply H2; eauto).
    destruct K as [K|[K _]]; [vm_compute in K; discriminate K|].
    vm_compute in E. injection E as <-. discriminate K.
  - intros N. vm_compute in E. injection E as <-. discriminate N.
Qed.
