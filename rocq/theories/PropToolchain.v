(** C74: which generated functions are [const], and that nothing else depends on it. *)
From Coq Require Import ZArith List Bool String Lia.
From Verif Require Import RustInt Syntax Spec Surface Rust Emit EmitVocab SpecEmit PropEmit Toolchain Loosen.
From Verif Require PropParse.
Import ListNotations.
Open Scope string_scope.
Open Scope list_scope.
Open Scope Z_scope.

Lemma on_supports t i : supports_const_mut_refs t = true -> on_fn t i = i.
Proof. intro H. unfold on_fn. rewrite H, andb_true_r. destruct i. reflexivity. Qed.
Lemma on_supports_all t P : supports_const_mut_refs t = true -> on t P = P.
Proof.
  intro H. unfold on. replace (map (on_fn t) (p_fns P)) with (p_fns P); [destruct P; reflexivity|].
  induction (p_fns P) as [|i l IH]; [reflexivity|]. cbn [map]. rewrite (on_supports t i H), <- IH. reflexivity.
Qed.
Lemma find_on t f l : find_fn f (map (on_fn t) l) = option_map (on_fn t) (find_fn f l).
Proof.
  induction l as [|i l IH]; [reflexivity|]. unfold find_fn in *. cbn [map find]. cbn [on_fn fn_name].
  destruct (String.eqb f (fn_name i)); [reflexivity|exact IH].
Qed.
Lemma on_loosened t P own i : supports_const_mut_refs t = false ->
  loosened (genv_of P own i) (genv_of (on t P) own (on_fn t i)).
Proof.
  intro H. constructor; try reflexivity.
  - intro f. cbn [genv_of g_fn on p_fns]. rewrite find_on. destruct (find_fn f (p_fns P)); reflexivity.
  - cbn [genv_of g_isconst on_fn fn_const]. rewrite H. apply andb_false_r.
Qed.

(** What type checks on the compilers of [Emit.v] type checks on every compiler, with
    the same meaning. *)
Theorem C74_same P own i d t : check_fn P own i = Some d -> check_fn (on t P) own (on_fn t i) = Some d.
Proof.
  intro H. destruct (supports_const_mut_refs t) eqn:E.
  - rewrite (on_supports_all t P E), (on_supports t i E). exact H.
  - rewrite <- H. pose proof (on_loosened t P own i E) as L. unfold check_fn in *.
    cbn [on_fn fn_params fn_recv fn_ret fn_body].
    match type of H with match elab_block ?G ?C ?h ?b with _ => _ end = _ =>
      destruct (elab_block G C h b) as [[tt dd]|] eqn:Eb; [|discriminate H];
      rewrite (loose_blk b G (genv_of (on t P) own (on_fn t i)) C h L), Eb; [reflexivity|] end.
    intro Hc. exact (tame_blk _ _ _ _ _ Hc Eb).
Qed.

(** So do calls of functions of the program, and of functions of other [impl] blocks. *)
Lemma run_on P own i t r r' self args : check_fn P own i <> None -> alike r r' ->
  run_fn (on t P) own (on_fn t i) r self args = run_fn P own i r' self args.
Proof.
  intros H X. destruct (check_fn P own i) as [d|] eqn:E; [|destruct (H eq_refl)].
  unfold run_fn. rewrite (C74_same P own i d t E), E. cbn [on_fn fn_params fn_recv].
  destruct (args_env (fn_params i) args (self_env (fn_recv i) self)) as [s|]; [|reflexivity].
  f_equal. unfold check_fn in E.
  match type of E with match ?q with _ => _ end = _ => destruct q as [[tt dd]|] eqn:Eb; [|discriminate E] end.
  apply fair_blk in Eb. destruct (ty_eqb tt (fn_ret i)); [|discriminate E]. injection E as <-. exact (Eb r r' s X).
Qed.
Theorem C74_call P t : (forall i, In i (p_fns P) -> check_fn P true i <> None) ->
  forall m fuel depth f self args, call (on t P) m fuel depth f self args = call P m fuel depth f self args.
Proof.
  intros H m fuel. induction depth as [|depth IH]; intros f self args; [reflexivity|]. cbn [call].
  cbn [on p_fns]. rewrite find_on. destruct (find_fn f (p_fns P)) as [i|] eqn:E; [|reflexivity]. cbn [option_map].
  change (mkProgram (p_back P) (p_consts P) (map (on_fn t) (p_fns P)) (p_codecs P)) with (on t P).
  rewrite (run_on P true i t _ (mkRt m fuel (call P m fuel depth))); [reflexivity| |].
  - apply H. unfold find_fn in E. apply find_some in E. tauto.
  - split; [reflexivity|]. split; [reflexivity|exact IH].
Qed.
(** For an accepted declaration: every method call, and every function of a trait
    implementation or of the builder, gives the same on every compiler (C59 says which
    functions of the builder type check). *)
Theorem C74_accepted F d bf dx t : accepted_distinct F d bf -> bf_ok bf -> surroundings dx bf ->
  (forall m fuel depth f self args,
     call (on t (emitted dx bf)) m fuel depth f self args = call (emitted dx bf) m fuel depth f self args) /\
  (forall own i m fuel depth self args, In (own, i) (trait_fns dx bf) ->
     check_fn (on t (emitted dx bf)) own (on_fn t i) <> None /\
     run_fn (on t (emitted dx bf)) own (on_fn t i) (mkRt m fuel (call (on t (emitted dx bf)) m fuel depth)) self args =
     run_fn (emitted dx bf) own i (mkRt m fuel (call (emitted dx bf) m fuel depth)) self args) /\
  (forall i m fuel depth self args, In i (builder_fns dx bf) -> checks dx bf false i ->
     check_fn (on t (emitted dx bf)) false (on_fn t i) <> None /\
     run_fn (on t (emitted dx bf)) false (on_fn t i) (mkRt m fuel (call (on t (emitted dx bf)) m fuel depth)) self args =
     run_fn (emitted dx bf) false i (mkRt m fuel (call (emitted dx bf) m fuel depth)) self args).
Proof.
  intros HA HB HS. destruct (C59_type_checks F d bf dx HA HB HS) as (H1 & H2 & _).
  pose proof (C74_call (emitted dx bf) t H1) as K.
  assert (R : forall own i m fuel depth self args, checks dx bf own i ->
     check_fn (on t (emitted dx bf)) own (on_fn t i) <> None /\
     run_fn (on t (emitted dx bf)) own (on_fn t i) (mkRt m fuel (call (on t (emitted dx bf)) m fuel depth)) self args =
     run_fn (emitted dx bf) own i (mkRt m fuel (call (emitted dx bf) m fuel depth)) self args).
  { intros own i m fuel depth self args Hc. split.
    - unfold checks in Hc. destruct (check_fn (emitted dx bf) own i) as [q|] eqn:E; [|destruct (Hc eq_refl)].
      rewrite (C74_same _ _ _ _ t E). discriminate.
    - apply run_on; [exact Hc|]. split; [reflexivity|]. split; [reflexivity|]. exact (K m fuel depth). }
  split; [exact K|]. split.
  - intros own i m fuel depth self args Hi. apply R. exact (H2 own i Hi).
  - intros i m fuel depth self args _ Hc. apply R. exact Hc.
Qed.

(** ** Which functions are [const] *)

Ltac kc := try reflexivity; lazymatch goal with |- fn_const ?i = _ => let h := match i with
  | ?h _ _ _ _ => h | ?h _ _ _ => h | ?h _ _ => h | ?h _ => h end in unfold h end; cbv zeta;
  repeat match goal with |- fn_const (match ?x with _ => _ end) = _ => destruct x end; reflexivity.
Lemma impl_const dx bf i : In i (impl_fns dx bf) -> fn_const i = is_const bf.
Proof.
  assert (M : forall (h : field -> fn) p, (forall f, fn_const (h f) = is_const bf) ->
              In i (map h (filter p (b_fields bf))) -> fn_const i = is_const bf)
    by (intros h p H I; apply in_map_iff in I as (f & <- & _); apply H).
  assert (O : forall b l, (In i l -> fn_const i = is_const bf) -> In i (opt b l) -> fn_const i = is_const bf)
    by (intros [] l H; [exact H|intros []]).
  unfold impl_fns. intro H. cbv zeta in H.
  apply in_app_or in H as [H|H].
  { revert H. apply O. intros [<-|[<-|[]]]; kc. }
  apply in_app_or in H as [H|H].
  { revert H. apply O. unfold conversions. intro H.
    apply in_app_or in H as [H|H].
    { apply in_flat_map in H as (v & _ & [<-|[<-|[]]]); kc. }
    apply in_app_or in H as [H|H].
    { destruct (is_integer_backed bf); [destruct H|].
      apply in_flat_map in H as (v & _ & [<-|[<-|[<-|[<-|[]]]]]); kc. }
    apply in_app_or in H as [H|H].
    { apply in_map_iff in H as (v & <- & _). kc. }
    destruct (is_integer_backed bf); [destruct H|].
    apply in_flat_map in H as (v & _ & [<-|[<-|[]]]); kc. }
  apply in_app_or in H as [H|H]; [eapply M; [|exact H]; intro; kc|].
  apply in_app_or in H as [H|H].
  { apply in_flat_map in H as (f & _ & [<-|[<-|[]]]); kc. }
  apply in_app_or in H as [H|H].
  { revert H. apply O. intro H. apply in_app_or in H as [H|[<-|[]]]; [|kc].
    apply in_flat_map in H as (v & _ & [<-|[<-|[]]]); kc. }
  apply in_app_or in H as [H|H].
  { revert H. apply O. intros [<-|[<-|[<-|[<-|[<-|[<-|[<-|[<-|[]]]]]]]]]; kc. }
  apply in_app_or in H as [H|H].
  { revert H. apply O. intros [<-|[<-|H]]; [kc|kc|].
    apply in_app_or in H as [H|H]; (eapply M; [|exact H]; intro; kc). }
  revert H. apply O. intros [<-|H]; [kc|].
  apply in_app_or in H as [H|H]; (eapply M; [|exact H]; intro; kc).
Qed.
Lemma builder_const dx bf i : In i (builder_fns dx bf) -> fn_const i = is_const bf.
Proof.
  unfold builder_fns. destruct (a_builder (b_args bf)); [|intros []]. intro H.
  assert (N : forall d, fn_const (builder_new_fn dx bf d) = is_const bf).
  { intro d. unfold builder_new_fn. cbv zeta. destruct (a_new (b_args bf)); kc. }
  apply in_app_or in H as [[<-|[<-|[]]]|H]; [apply N|apply N|].
  apply in_app_or in H as [H|[<-|[]]]; [|kc].
  apply in_flat_map in H as (f & _ & [<-|[<-|[]]]); kc.
Qed.

(** A function of the bitfield or of the builder is [const] exactly when there are no
    ignored fields, the data is not boxed and the compiler is a stable one from 1.83 or
    a nightly one from 1.41 on. *)
Theorem C74_exact dx bf t i : In i (impl_fns dx bf ++ builder_fns dx bf) ->
  (fn_const (on_fn t i) = true <->
   b_ignored bf = [] /\ (a_array_heap (b_args bf) = true -> exists k, b_ty bf = DInteger k) /\
   (tc_channel t = Stable /\ 83 <= tc_minor t \/ tc_channel t = Nightly /\ 41 <= tc_minor t)).
Proof.
  intro H. assert (E : fn_const i = is_const bf)
    by (apply in_app_or in H as [H|H]; [exact (impl_const dx bf i H)|exact (builder_const dx bf i H)]).
  cbn [on_fn fn_const]. rewrite E, andb_true_iff.
  assert (A : is_const bf = true <-> b_ignored bf = [] /\ (a_array_heap (b_args bf) = true -> exists k, b_ty bf = DInteger k)).
  { unfold is_const, is_heap, is_integer_backed. destruct (b_ignored bf) as [|g l].
    - destruct (a_array_heap (b_args bf)), (b_ty bf); cbn; split; intro Q; try discriminate Q; try reflexivity;
        try (split; [reflexivity|]; intro W; try discriminate W; eauto; fail);
        destruct Q as (_ & Q); destruct (Q eq_refl) as (k & W); discriminate W.
    - split; [discriminate|]. intros (Q & _). discriminate Q. }
  assert (B : supports_const_mut_refs t = true <->
              tc_channel t = Stable /\ 83 <= tc_minor t \/ tc_channel t = Nightly /\ 41 <= tc_minor t).
  { unfold supports_const_mut_refs. destruct (tc_channel t); rewrite ?Z.leb_le; split; intro Q;
      try (destruct Q as [(Q & W)|(Q & W)]; first [discriminate Q|exact W]); try discriminate Q; auto. }
  rewrite A, B. tauto.
Qed.
(** Functions of the trait implementations never are. *)
Theorem C74_traits dx bf t own i : In (own, i) (trait_fns dx bf) -> fn_const (on_fn t i) = false.
Proof.
  unfold trait_fns. intro H. assert (E : fn_const i = false); [|cbn [on_fn fn_const]; rewrite E; kc].
  apply in_app_or in H as [H|H].
  { destruct (a_from_traits (b_args bf)); [|destruct H]. destruct H as [H|[H|[]]]; injection H as _ <-; kc. }
  apply in_app_or in H as [H|H].
  { destruct (a_default (b_args bf)); [|destruct H]. destruct H as [H|[]]; injection H as _ <-; kc. }
  destruct (a_debug (b_args bf)); [|destruct H]. destruct H as [H|[]]; injection H as _ <-; kc.
Qed.
(** Among the compilers Cargo admits, the channel alone decides. *)
Theorem C74_admitted dx bf t i : admitted t = true -> b_ignored bf = [] -> a_array_heap (b_args bf) = false ->
  In i (impl_fns dx bf ++ builder_fns dx bf) -> (fn_const (on_fn t i) = true <-> tc_channel t <> Beta).
Proof.
  intros Ha Hi Hh H. rewrite (C74_exact dx bf t i H). unfold admitted in Ha. apply Z.leb_le in Ha. split.
  - intros (_ & _ & [(-> & _)|(-> & _)]); discriminate.
  - intro N. split; [exact Hi|]. split; [rewrite Hh; discriminate|].
    destruct (tc_channel t); [left; auto|destruct (N eq_refl)|right; split; [reflexivity|lia]].
Qed.
(** So "the functions are [const] on the compilers Cargo admits" is false: of this
    bitfield, accepted and without ignored fields, no function is on beta 1.90. *)
Theorem C74_refuted : ~ (forall F d bf dx t i, accepted_distinct F d bf -> surroundings dx bf -> admitted t = true ->
  b_ignored bf = [] -> a_array_heap (b_args bf) = false -> In i (impl_fns dx bf) -> fn_const (on_fn t i) = true).
Proof.
  intro H.
  specialize (H PropParse.no_feature arr_decl (parsed arr_decl) written (mkToolchain Beta 90)
    (new_fn written (parsed arr_decl)) arr_decl_accepted (proj2 arr_decl_ok) eq_refl
    ltac:(vm_compute; reflexivity) ltac:(vm_compute; reflexivity)).
  assert (I : In (new_fn written (parsed arr_decl)) (impl_fns written (parsed arr_decl))) by (left; reflexivity).
  specialize (H I). cbn [on_fn fn_const supports_const_mut_refs tc_channel] in H. rewrite andb_false_r in H. discriminate H.
Qed.

Example C74_ex :
  (accepted_distinct PropParse.no_feature arr_decl (parsed arr_decl) /\ bf_ok (parsed arr_decl) /\ surroundings written (parsed arr_decl)) /\
  List.length (impl_fns written (parsed arr_decl)) = 68%nat /\ b_ignored (parsed arr_decl) = [] /\ a_array_heap (b_args (parsed arr_decl)) = false /\ admitted (mkToolchain Beta 90) = true /\
  forallb fn_const (map (on_fn (mkToolchain Stable 83)) (impl_fns written (parsed arr_decl))) = true /\
  existsb fn_const (map (on_fn (mkToolchain Beta 90)) (impl_fns written (parsed arr_decl))) = false /\
  forallb (fun i => match check_fn (on (mkToolchain Beta 90) (emitted written (parsed arr_decl))) true
                            (on_fn (mkToolchain Beta 90) i) with Some _ => true | None => false end)
    (impl_fns written (parsed arr_decl)) = true /\
  forallb (fun i => match check_fn (emitted written (parsed arr_decl)) false i,
                            check_fn (on (mkToolchain Beta 90) (emitted written (parsed arr_decl))) false
                              (on_fn (mkToolchain Beta 90) i) with Some _, Some _ => true | _, _ => false end)
    (builder_fns written (parsed arr_decl)) = true /\ builder_fns written (parsed arr_decl) <> [].
Proof. split; [split; [exact arr_decl_accepted | exact arr_decl_ok]|]. repeat split; vm_compute; first [reflexivity|discriminate]. Qed.
