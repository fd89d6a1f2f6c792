(** What type checks in a [const] function checks outside of one, with the same
    meaning (for C74). *)
From Coq Require Import ZArith List Bool String Lia.
From Verif Require Import RustInt Syntax Surface Rust.
Import ListNotations.
Open Scope string_scope.
Open Scope list_scope.

(** ** Expressions that a [const] function may contain *)

Definition callee (G : genv) (f : string) : bool :=
  match g_fn G f with Some s => s_const s | None => true end.
Fixpoint oke (K : string -> bool) (e : expr) : bool :=
  match e with
  | EUn UNot e | ECast e _ | EIndex _ e | EFromBits _ e | EIntoBits e | ESwap e | EStruct _ e | EBuilder e
  | ERepeat e _ | EOk e | EFinish e => oke K e
  | EBin _ a b => oke K a && oke K b
  | EIf c a b => oke K c && okb K a && okb K b
  | EBlock b => okb K b
  | ECall _ f a => oke K a && K f
  | ENew _ f => K f
  | EBox _ | EContains _ _ _ => false
  | _ => true
  end
with oks (K : string -> bool) (s : stmt) : bool :=
  match s with
  | SLet _ _ _ e | SExpr e | SReturn (Some e) | STry e | SField _ _ e => oke K e
  | SReturn None => true
  | SSet (EIndex _ i) e | SOp _ (EIndex _ i) e => oke K i && oke K e
  | SSet _ e | SOp _ _ e => oke K e
  | SWhile c b => oke K c && okb K b
  end
with okb (K : string -> bool) (b : block) : bool :=
  match b with
  | Block l e =>
      (fix go (l : list stmt) : bool :=
         match l with
         | [] => match e with Some e => oke K e | None => true end
         | s :: t => oks K s && go t
         end) l
  end.

Lemma okb_cons K s l e : okb K (Block (s :: l) e) = oks K s && okb K (Block l e).
Proof. reflexivity. Qed.

(** ** What type checks in a [const] function is such an expression *)

Definition tame_e (e : expr) : Prop := forall G C h r, g_isconst G = true -> elab G C h e = Some r -> oke (callee G) e = true.
Definition tame_b (b : block) : Prop := forall G C h r, g_isconst G = true -> elab_block G C h b = Some r -> okb (callee G) b = true.
Definition tame_s (s : stmt) : Prop := forall G C r, g_isconst G = true -> elab_stmt G C s = Some r -> oks (callee G) s = true.
Definition tame_let (s : stmt) : Prop := match s with SLet _ _ _ e => tame_e e | _ => True end.
Lemma tame_block l e : (match e with Some e => tame_e e | None => True end) ->
  Forall (fun s => tame_s s /\ tame_let s) l -> tame_b (Block l e).
Proof.
  intros E L. induction L as [|s l [A B] _ IH]; intros G C h r Hc H.
  - destruct e as [e|]; [exact (E G C h r Hc H)|reflexivity].
  - rewrite okb_cons. apply andb_true_iff.
    destruct s as [m x o d| | | | | | |];
      try (cbn [elab_block] in H;
           match type of H with match elab_stmt _ _ ?s with _ => _ end = _ =>
             destruct (elab_stmt G C s) as [ds|] eqn:Es; [|discriminate H] end;
           match type of H with match ?q with _ => _ end = _ => destruct q as [[tr dr]|] eqn:Er; [|discriminate H] end;
           split; [exact (A G C ds Hc Es)|exact (IH G C h _ Hc Er)]).
    cbn [tame_let] in B. cbn [oks]. cbn [elab_block] in H. destruct o as [t|].
    + destruct (elab G C (Some t) d) as [[te dd]|] eqn:Ed; [|discriminate H].
      destruct (ty_eqb te t); [|discriminate H].
      match type of H with match ?q with _ => _ end = _ => destruct q as [[tr dr]|] eqn:Er; [|discriminate H] end.
      split; [exact (B G C _ _ Hc Ed)|exact (IH G _ h _ Hc Er)].
    + destruct (open_lit d) as [ts|].
      * induction ts as [|t ts IHt]; [discriminate H|]. cbn [first_some] in H.
        destruct (elab G C (Some t) d) as [[te dd]|] eqn:Ed; [|exact (IHt H)].
        destruct (ty_eqb te t); [|exact (IHt H)].
        match type of H with match (match ?q with _ => _ end) with _ => _ end = _ =>
          destruct q as [[tr dr]|] eqn:Er; [|exact (IHt H)] end.
        split; [exact (B G C _ _ Hc Ed)|exact (IH G _ h _ Hc Er)].
      * destruct (elab G C None d) as [[te dd]|] eqn:Ed; [|discriminate H].
        match type of H with match ?q with _ => _ end = _ => destruct q as [[tr dr]|] eqn:Er; [|discriminate H] end.
        split; [exact (B G C _ _ Hc Ed)|exact (IH G _ h _ Hc Er)].
Qed.
Fixpoint tame_expr (e : expr) : tame_e e
with tame_blk (b : block) : tame_b b
with tame_stmt (s : stmt) : tame_s s.
Proof.
  - destruct e; intros G C h r Hc H; try reflexivity; cbn [oke].
    + destruct o; try reflexivity. cbn [elab] in H.
      destruct (elab G C h e) eqn:E; [exact (tame_expr e _ _ _ _ Hc E)|discriminate H].
    + apply andb_true_iff. destruct o; cbn [elab is_shift is_compare] in H;
      repeat match type of H with
      | (match elab G C ?h ?e with _ => _ end) = _ =>
          let E := fresh "E" in destruct (elab G C h e) as [[? ?]|] eqn:E; [apply (tame_expr e _ _ _ _ Hc) in E|discriminate H]
      | (match ?x with _ => _ end) = _ => destruct x; try discriminate H
      end; split; assumption.
    + cbn [elab] in H. repeat match type of H with
      | (match elab G C ?h ?e with _ => _ end) = _ =>
          let E := fresh "E" in destruct (elab G C h e) as [[? ?]|] eqn:E; [exact (tame_expr e _ _ _ _ Hc E)|discriminate H]
      | (match ?x with _ => _ end) = _ => destruct x; try discriminate H
      end.
    + cbn [elab] in H. destruct (place G C e1) as [[[? ?] ?]|]; [|discriminate H].
      destruct (elab G C (Some TUsize) e2) eqn:E; [exact (tame_expr e2 _ _ _ _ Hc E)|discriminate H].
    + cbn [elab] in H.
      destruct (elab G C None e) eqn:E; [|discriminate H].
      destruct (elab_block G C h a) eqn:Ea; [|destruct p as [[] ?]; try discriminate H; destruct t; discriminate H].
      destruct (elab_block G C h b) eqn:Eb;
        [|destruct p as [[] ?]; try discriminate H; destruct t; try discriminate H; destruct p0; discriminate H].
      rewrite (tame_expr e _ _ _ _ Hc E), (tame_blk a _ _ _ _ Hc Ea), (tame_blk b _ _ _ _ Hc Eb). reflexivity.
    + exact (tame_blk b G C h r Hc H).
    + cbn [elab] in H. destruct (g_codec G x); [|discriminate H].
      match type of H with match ?q with _ => _ end = _ => destruct q eqn:E; [exact (tame_expr e _ _ _ _ Hc E)|discriminate H] end.
    + cbn [elab] in H.
      match type of H with match ?q with _ => _ end = _ => destruct q eqn:E; [exact (tame_expr e _ _ _ _ Hc E)|discriminate H] end.
    + cbn [elab] in H.
      match type of H with match ?q with _ => _ end = _ => destruct q eqn:E; [exact (tame_expr e _ _ _ _ Hc E)|discriminate H] end.
    + (* call *) cbn [elab] in H. apply andb_true_iff.
      destruct (place G C e1) as [[[[] []] p]|]; try discriminate H.
      unfold callee. destruct (g_fn G f) as [[[] [|ta []] tr cf]|]; try discriminate H.
      destruct (elab G C (Some ta) e2) as [[ta' da]|] eqn:E; [|discriminate H].
      destruct (ty_eqb ta' ta && const_allowed G cf) eqn:Q; [|discriminate H].
      apply andb_true_iff in Q. destruct Q as [_ Q]. unfold const_allowed in Q. rewrite Hc in Q.
      split; [exact (tame_expr e2 _ _ _ _ Hc E)|exact Q].
    + cbn [elab] in H. destruct (names_bitfield G p); [|discriminate H].
      unfold callee. destruct (g_fn G f) as [[[] [] tr cf]|]; try discriminate H.
      destruct (const_allowed G cf) eqn:Q; [|discriminate H]. unfold const_allowed in Q. rewrite Hc in Q. exact Q.
    + cbn [elab] in H. destruct (names_bitfield G p); [|discriminate H].
      match type of H with match ?q with _ => _ end = _ => destruct q eqn:E; [exact (tame_expr e _ _ _ _ Hc E)|discriminate H] end.
    + cbn [elab] in H. destruct (g_bitfield G); [discriminate H|].
      match type of H with match ?q with _ => _ end = _ => destruct q eqn:E; [exact (tame_expr e _ _ _ _ Hc E)|discriminate H] end.
    + cbn [elab] in H. rewrite Hc in H. discriminate H.
    + cbn [elab] in H.
      match type of H with match ?q with _ => _ end = _ => destruct q eqn:E; [exact (tame_expr e _ _ _ _ Hc E)|discriminate H] end.
    + cbn [elab] in H.
      match type of H with match ?q with _ => _ end = _ => destruct q eqn:E; [exact (tame_expr e _ _ _ _ Hc E)|discriminate H] end.
    + cbn [elab] in H. rewrite Hc in H. cbn [negb] in H.
      repeat match type of H with
      | (match ?a && ?b with _ => _ end) = _ => rewrite andb_false_r in H; discriminate H
      | (match elab G C ?h ?e with _ => _ end) = _ => destruct (elab G C h e) as [[? ?]|]; [|discriminate H]
      end.
    + cbn [elab] in H.
      match type of H with match ?q with _ => _ end = _ => destruct q eqn:E; [exact (tame_expr e _ _ _ _ Hc E)|discriminate H] end.
  - destruct b as [l e]. apply tame_block.
    + destruct e as [e|]; [exact (tame_expr e)|exact I].
    + induction l as [|s l IH]; constructor; [|exact IH]. split; [exact (tame_stmt s)|].
      destruct s; try exact I. exact (tame_expr e0).
  - destruct s; intros G C r Hc H; cbn [oks].
    + discriminate H.
    + destruct p; try discriminate H; cbn [elab_stmt] in H.
      * destruct (place G C p1) as [[[t []] q]|]; try discriminate H.
        destruct (elab G C (Some TUsize) p2) as [[[] di]|] eqn:Ei; try discriminate H.
        destruct (elem t); [|discriminate H].
        destruct (elab G C (Some t0) e) eqn:E; [|discriminate H].
        rewrite (tame_expr p2 _ _ _ _ Hc Ei), (tame_expr e _ _ _ _ Hc E). reflexivity.
      * destruct (place G C p) as [[[[] []] q]|]; try discriminate H.
        destruct (elab G C (Some (g_back G)) e) eqn:E; [|discriminate H]. exact (tame_expr e _ _ _ _ Hc E).
    + destruct p; cbn [elab_stmt] in H;
        try (match type of H with match place G C ?q with _ => _ end = _ => destruct (place G C q) as [[[t0 []] q']|] end; try discriminate H;
             destruct (int_of t0) as [[? ?]|]; [|discriminate H];
             destruct (elab G C (Some t0) e) eqn:E; [exact (tame_expr e _ _ _ _ Hc E)|discriminate H]).
      destruct (place G C p1) as [[[t []] q]|]; try discriminate H.
      destruct (elab G C (Some TUsize) p2) as [[[] di]|] eqn:Ei; try discriminate H.
      destruct (elem t); [|discriminate H]. destruct (int_of t0) as [[? ?]|]; [|discriminate H].
      destruct (elab G C (Some t0) e) eqn:E; [|discriminate H].
      rewrite (tame_expr p2 _ _ _ _ Hc Ei), (tame_expr e _ _ _ _ Hc E). reflexivity.
    + cbn [elab_stmt] in H. destruct (elab G C None e) eqn:E; [exact (tame_expr e _ _ _ _ Hc E)|discriminate H].
    + cbn [elab_stmt] in H. destruct (elab G C None c) as [[tc dc]|] eqn:E; [|discriminate H].
      destruct (elab_block G C None b) eqn:Eb; [|destruct tc; try discriminate H; destruct t; discriminate H].
      rewrite (tame_expr c _ _ _ _ Hc E), (tame_blk b _ _ _ _ Hc Eb). reflexivity.
    + destruct e as [e|]; [|reflexivity]. cbn [elab_stmt] in H.
      destruct (elab G C (Some (g_ret G)) e) eqn:E; [exact (tame_expr e _ _ _ _ Hc E)|discriminate H].
    + cbn [elab_stmt] in H. destruct (elab G C None e) eqn:E; [exact (tame_expr e _ _ _ _ Hc E)|discriminate H].
    + cbn [elab_stmt] in H. destruct (place G C (EVar x)) as [[[[] []] q]|]; try discriminate H.
      destruct (elab G C None e) eqn:E; [exact (tame_expr e _ _ _ _ Hc E)|discriminate H].
Qed.

(** ** Such an expression has the same type and meaning outside of [const] functions *)

Definition shape (s : sig) : recv * list ty * ty := (s_recv s, s_args s, s_ret s).
Record loosened (G G' : genv) : Prop := {
  lo_bitfield : g_bitfield G' = g_bitfield G;
  lo_back : g_back G' = g_back G;
  lo_const : forall c, g_const G' c = g_const G c;
  lo_fn : forall f, option_map shape (g_fn G' f) = option_map shape (g_fn G f);
  lo_codec : forall x, g_codec G' x = g_codec G x;
  lo_isconst : g_isconst G' = false;
  lo_ret : g_ret G' = g_ret G }.
Definition fits (G : genv) (b : (string -> bool) -> bool) : Prop := g_isconst G = true -> b (callee G) = true.
Lemma fits_l G a b : fits G (fun K => a K && b K) -> fits G a.
Proof. intros H E. apply H in E. apply andb_true_iff in E. tauto. Qed.
Lemma fits_r G a b : fits G (fun K => a K && b K) -> fits G b.
Proof. intros H E. apply H in E. apply andb_true_iff in E. tauto. Qed.
Lemma fits_no G : fits G (fun _ => false) -> g_isconst G = false.
Proof. intro H. destruct (g_isconst G) eqn:E; [discriminate (H E)|reflexivity]. Qed.
Lemma lo_place G G' C e : loosened G G' -> place G' C e = place G C e.
Proof.
  intro L. induction e; try reflexivity; cbn [place]; rewrite IHe; [rewrite (lo_back _ _ L)|]; reflexivity.
Qed.
Lemma lo_names G G' p : loosened G G' -> names_bitfield G' p = names_bitfield G p.
Proof. intro L. destruct p; [exact (lo_bitfield _ _ L)|reflexivity]. Qed.
Lemma lo_allowed G G' b : loosened G G' -> const_allowed G' b = true.
Proof. intro L. unfold const_allowed. rewrite (lo_isconst _ _ L). reflexivity. Qed.
Lemma fits_allowed G f s : fits G (fun K => K f) -> g_fn G f = Some s -> const_allowed G (s_const s) = true.
Proof.
  intros H E. unfold const_allowed. destruct (g_isconst G) eqn:Hc; [|reflexivity].
  specialize (H Hc). unfold callee in H. rewrite E in H. exact H.
Qed.

Definition loose_e (e : expr) : Prop := forall G G' C h, loosened G G' -> fits G (fun K => oke K e) ->
  elab G' C h e = elab G C h e.
Definition loose_b (b : block) : Prop := forall G G' C h, loosened G G' -> fits G (fun K => okb K b) ->
  elab_block G' C h b = elab_block G C h b.
Definition loose_s (s : stmt) : Prop := forall G G' C, loosened G G' -> fits G (fun K => oks K s) ->
  elab_stmt G' C s = elab_stmt G C s.
Definition loose_let (s : stmt) : Prop := match s with SLet _ _ _ e => loose_e e | _ => True end.
Lemma loose_block l e : (match e with Some e => loose_e e | None => True end) ->
  Forall (fun s => loose_s s /\ loose_let s) l -> loose_b (Block l e).
Proof.
  intros E L. induction L as [|s l [A B] _ IH]; intros G G' C h R S.
  - destruct e as [e|]; [exact (E G G' C h R S)|reflexivity].
  - assert (S' : fits G (fun K => oks K s && okb K (Block l e))) by exact S. clear S.
    pose proof (fits_l _ _ _ S') as Sl. pose proof (fits_r _ _ _ S') as Sr. cbv beta in Sl, Sr.
    assert (N : forall C, elab_block G' C h (Block l e) = elab_block G C h (Block l e))
      by (intro C'; exact (IH G G' C' h R Sr)).
    specialize (A G G' C R Sl).
    destruct s as [m x o d| | | | | | |];
      try (pose proof (N C) as N'; cbn [elab_block] in *; rewrite A, N'; reflexivity).
    cbn [loose_let] in B. pose proof (fun h => B G G' C h R Sl) as B'.
    cbn [elab_block] in *. destruct o as [t|].
    + rewrite B'. destruct (elab G C (Some t) d) as [[te dd]|]; [|reflexivity].
      destruct (ty_eqb te t); [|reflexivity]. rewrite N. reflexivity.
    + destruct (open_lit d) as [ts|].
      * induction ts as [|t ts IHt]; [reflexivity|]. cbn [first_some]. rewrite B'.
        destruct (elab G C (Some t) d) as [[te dd]|]; [|exact IHt].
        destruct (ty_eqb te t); [|exact IHt]. rewrite N, IHt. reflexivity.
      * rewrite B'. destruct (elab G C None d) as [[te dd]|]; [|reflexivity]. rewrite N. reflexivity.
Qed.
Fixpoint loose_expr (e : expr) : loose_e e
with loose_blk (b : block) : loose_b b
with loose_stmt (s : stmt) : loose_s s.
Proof.
  - destruct e; intros G G' C h R S; try reflexivity; cbn [oke] in S.
    + (* constant *) cbn [elab]. rewrite (lo_names G G' p R), (lo_const _ _ R). reflexivity.
    + (* unary *) destruct o.
      * cbn [elab]. rewrite (loose_expr e G G' C h R S). reflexivity.
      * destruct e; reflexivity.
      * cbn [elab]. rewrite (lo_place G G' C e R). reflexivity.
    + (* binary *) pose proof (fits_l _ _ _ S) as S1. pose proof (fits_r _ _ _ S) as S2. cbv beta in S1, S2.
      destruct o; cbn [elab is_shift is_compare];
        first [ rewrite (loose_expr e1 G G' C None R S1), (loose_expr e2 G G' C None R S2); reflexivity
              | rewrite (loose_expr e1 G G' C h R S1), (loose_expr e2 G G' C None R S2); reflexivity
              | rewrite (loose_expr e1 G G' C h R S1); destruct (elab G C h e1) as [[t d]|]; [|reflexivity];
                rewrite (loose_expr e2 G G' C (Some t) R S2); reflexivity
              | rewrite (loose_expr e1 G G' C None R S1); destruct (elab G C None e1) as [[t d]|]; [|reflexivity];
                rewrite (loose_expr e2 G G' C (Some t) R S2); reflexivity ].
    + (* cast *) cbn [elab]. destruct t as [t|]; [|destruct h as [t|]; [|reflexivity]].
      * rewrite (loose_expr e G G' C (cast_hint e t) R S). reflexivity.
      * rewrite (loose_expr e G G' C None R S). reflexivity.
    + cbn [elab]. rewrite (lo_place G G' C e1 R), (loose_expr e2 G G' C _ R S). reflexivity.
    + cbn [elab]. rewrite (lo_place G G' C e R), (lo_back _ _ R). reflexivity.
    + cbn [elab]. rewrite (lo_place G G' C e R). reflexivity.
    + (* if *) cbn [elab]. pose proof (fits_l _ _ _ S) as S1. cbv beta in S1.
      rewrite (loose_expr e G G' C _ R (fits_l _ _ _ S1)), (loose_blk a G G' C h R (fits_r _ _ _ S1)),
        (loose_blk b G G' C h R (fits_r _ _ _ S)).
      reflexivity.
    + exact (loose_blk b G G' C h R S).
    + (* from_bits *) cbn [elab]. rewrite (lo_codec _ _ R). destruct (g_codec G x); [|reflexivity].
      rewrite (loose_expr e G G' C _ R S). reflexivity.
    + (* into_bits *) cbn [elab]. rewrite (loose_expr e G G' C _ R S).
      destruct (elab G C None e) as [[[] d]|]; try reflexivity. rewrite (lo_codec _ _ R). reflexivity.
    + cbn [elab]. rewrite (loose_expr e G G' C _ R S). reflexivity.
    + cbn [elab]. rewrite (lo_place G G' C e R). reflexivity.
    + (* call *) cbn [elab]. rewrite (lo_place G G' C e1 R).
      destruct (place G C e1) as [[[[] []] p]|]; try reflexivity.
      pose proof (lo_fn _ _ R f) as Hf. pose proof (fits_allowed G f) as Q.
      specialize (fun s => Q s (fits_r _ _ _ S)).
      destruct (g_fn G f) as [[rv al tr cf]|]; destruct (g_fn G' f) as [[rv' al' tr' cf']|]; try discriminate Hf; [|reflexivity].
      cbn [option_map shape s_recv s_args s_ret] in Hf. injection Hf as -> -> ->.
      destruct rv; try reflexivity. destruct al as [|ta []]; try reflexivity.
      rewrite (loose_expr e2 G G' C _ R (fits_l _ _ _ S)), (lo_allowed G G' cf' R).
      specialize (Q _ eq_refl). cbn [s_const] in Q. rewrite Q. reflexivity.
    + (* new *) cbn [elab]. rewrite (lo_names G G' p R). destruct (names_bitfield G p); [|reflexivity].
      pose proof (lo_fn _ _ R f) as Hf. pose proof (fits_allowed G f) as Q. specialize (fun s => Q s S).
      destruct (g_fn G f) as [[rv al tr cf]|]; destruct (g_fn G' f) as [[rv' al' tr' cf']|]; try discriminate Hf; [|reflexivity].
      cbn [option_map shape s_recv s_args s_ret] in Hf. injection Hf as -> -> ->.
      destruct rv; try reflexivity. destruct al; try reflexivity.
      rewrite (lo_allowed G G' cf' R). specialize (Q _ eq_refl). cbn [s_const] in Q. rewrite Q. reflexivity.
    + cbn [elab]. rewrite (lo_names G G' p R), (lo_back _ _ R), (loose_expr e G G' C _ R S). reflexivity.
    + cbn [elab]. rewrite (lo_bitfield _ _ R), (loose_expr e G G' C _ R S). reflexivity.
    + (* box *) pose proof (fits_no G S) as Hc. cbn [elab]. rewrite Hc, (lo_isconst _ _ R).
      rewrite (loose_expr e G G' C _ R); [reflexivity|]. intro Q. congruence.
    + cbn [elab]. rewrite (loose_expr e G G' C _ R S). reflexivity.
    + cbn [elab]. rewrite (loose_expr e G G' C _ R S). reflexivity.
    + (* contains *) pose proof (fits_no G S) as Hc. cbn [elab]. rewrite Hc, (lo_isconst _ _ R).
      assert (F : forall b, fits G b) by (intros b Q; congruence).
      rewrite (loose_expr e1 G G' C _ R (F _)), (loose_expr e2 G G' C _ R (F _)), (loose_expr e3 G G' C _ R (F _)).
      reflexivity.
    + cbn [elab]. rewrite (loose_expr e G G' C _ R S). reflexivity.
  - destruct b as [l e]. apply loose_block.
    + destruct e as [e|]; [exact (loose_expr e)|exact I].
    + induction l as [|s l IH]; constructor; [|exact IH]. split; [exact (loose_stmt s)|].
      destruct s; try exact I. exact (loose_expr e0).
  - destruct s; intros G G' C R S; try reflexivity; cbn [oks] in S.
    + (* set *) destruct p; try reflexivity; cbn [elab_stmt].
      * rewrite (lo_place G G' C p1 R), (loose_expr p2 G G' C _ R (fits_l _ _ _ S)).
        destruct (place G C p1) as [[[t []] q]|]; try reflexivity.
        destruct (elab G C (Some TUsize) p2) as [[[] di]|]; try reflexivity.
        destruct (elem t); [|reflexivity]. rewrite (loose_expr e G G' C _ R (fits_r _ _ _ S)). reflexivity.
      * rewrite (lo_place G G' C p R), (lo_back _ _ R), (loose_expr e G G' C _ R S). reflexivity.
    + (* op *)
      assert (D : match p with EIndex _ _ => False | _ => True end -> elab_stmt G' C (SOp o p e) = elab_stmt G C (SOp o p e)).
      { intro D. pose proof (lo_place G G' C p R) as P.
        destruct p; try destruct D; cbn [elab_stmt]; rewrite P;
          match goal with |- context [place G C ?q] => destruct (place G C q) as [[[tp []] q']|] end; try reflexivity;
          rewrite (loose_expr e G G' C (Some tp) R S); reflexivity. }
      destruct p; try exact (D I). clear D. cbn [elab_stmt].
      rewrite (lo_place G G' C p1 R), (loose_expr p2 G G' C _ R (fits_l _ _ _ S)).
      destruct (place G C p1) as [[[t []] q]|]; try reflexivity.
      destruct (elab G C (Some TUsize) p2) as [[[] di]|]; try reflexivity.
      destruct (elem t) as [te|]; [|reflexivity]. rewrite (loose_expr e G G' C _ R (fits_r _ _ _ S)). reflexivity.
    + cbn [elab_stmt]. rewrite (loose_expr e G G' C _ R S). reflexivity.
    + cbn [elab_stmt]. rewrite (loose_expr c G G' C _ R (fits_l _ _ _ S)), (loose_blk b G G' C _ R (fits_r _ _ _ S)). reflexivity.
    + destruct e as [e|]; cbn [elab_stmt]; rewrite (lo_ret _ _ R); [|reflexivity].
      rewrite (loose_expr e G G' C _ R S). reflexivity.
    + cbn [elab_stmt]. rewrite (lo_ret _ _ R), (loose_expr e G G' C _ R S). reflexivity.
    + cbn [elab_stmt]. rewrite (lo_place G G' C (EVar x) R), (loose_expr e G G' C _ R S). reflexivity.
Qed.

(** ** Meanings depend on other functions only through their results *)

Definition alike (r r' : rt) : Prop :=
  r_mode r = r_mode r' /\ r_fuel r = r_fuel r' /\ forall f v a, r_call r f v a = r_call r' f v a.
Definition fair (d : den value) : Prop := forall r r' s, alike r r' -> d r s = d r' s.
Lemma dbind_ext {A B} (x x' : ans A) (k k' : A -> st -> ans B) : x = x' -> (forall a s, k a s = k' a s) ->
  dbind x k = dbind x' k'.
Proof. intros <- H. destruct x; cbn [dbind]; [apply H|reflexivity|reflexivity|reflexivity]. Qed.
Lemma wloop_ext n c c' b b' : (forall s, c s = c' s) -> (forall s, b s = b' s) -> forall s, wloop n c b s = wloop n c' b' s.
Proof.
  intros Hc Hb. induction n as [|n IH]; intro s; [reflexivity|]. cbn [wloop]. apply dbind_ext; [apply Hc|].
  intros v s1. destruct v; try reflexivity. destruct b0; [|reflexivity]. apply dbind_ext; [apply Hb|]. intros _ s2. apply IH.
Qed.

Ltac fairly := let X := fresh "X" in intros ? ? ? X; cbv beta;
  let Xm := fresh "Xm" in let Xf := fresh "Xf" in let Xc := fresh "Xc" in
  pose proof X as (Xm & Xf & Xc); rewrite ?Xm, ?Xf;
  repeat first
    [ reflexivity
    | match goal with F : fair ?d |- ?d _ _ = ?d _ _ => exact (F _ _ _ X) end
    | apply dbind_ext; [|intros ? ?]
    | apply wloop_ext; [intros ?|intros ?]
    | rewrite Xc
    | match goal with |- (match ?x with _ => _ end) = _ => destruct x end ].
Ltac parts fe fb H := repeat match type of H with
  | (match elab ?G ?C ?h ?e with _ => _ end) = _ =>
      let E := fresh "E" in destruct (elab G C h e) as [[? ?]|] eqn:E; [apply fe in E|discriminate H]
  | (match elab_block ?G ?C ?h ?e with _ => _ end) = _ =>
      let E := fresh "E" in destruct (elab_block G C h e) as [[? ?]|] eqn:E; [apply fb in E|discriminate H]
  | (match ?x with _ => _ end) = _ => destruct x; try discriminate H
  end.

Definition fair_e (e : expr) : Prop := forall G C h t d, elab G C h e = Some (t, d) -> fair d.
Definition fair_b (b : block) : Prop := forall G C h t d, elab_block G C h b = Some (t, d) -> fair d.
Definition fair_s (s : stmt) : Prop := forall G C d, elab_stmt G C s = Some d -> fair d.
Definition fair_let (s : stmt) : Prop := match s with SLet _ _ _ e => fair_e e | _ => True end.
Lemma fair_block l e : (match e with Some e => fair_e e | None => True end) ->
  Forall (fun s => fair_s s /\ fair_let s) l -> fair_b (Block l e).
Proof.
  intros E L. induction L as [|s l [A B] _ IH]; intros G C h u v H.
  - destruct e as [e|]; [exact (E G C h u v H)|]. cbn [elab_block] in H. injection H as <- <-. fairly.
  - destruct s as [m x o d| | | | | | |];
      try (cbn [elab_block] in H;
           match type of H with match elab_stmt _ _ ?s with _ => _ end = _ =>
             destruct (elab_stmt G C s) as [ds|] eqn:Es; [|discriminate H] end;
           match type of H with match ?q with _ => _ end = _ => destruct q as [[tr dr]|] eqn:Er; [|discriminate H] end;
           apply A in Es; pose proof (IH G C h _ _ Er) as F; injection H as <- <-; fairly).
    cbn [fair_let] in B. cbn [elab_block] in H. destruct o as [t|].
    + destruct (elab G C (Some t) d) as [[te dd]|] eqn:Ed; [|discriminate H].
      destruct (ty_eqb te t); [|discriminate H].
      match type of H with match ?q with _ => _ end = _ => destruct q as [[tr dr]|] eqn:Er; [|discriminate H] end.
      apply B in Ed. pose proof (IH G _ h _ _ Er) as F. injection H as <- <-. fairly.
    + destruct (open_lit d) as [ts|].
      * induction ts as [|t ts IHt]; [discriminate H|]. cbn [first_some] in H.
        destruct (elab G C (Some t) d) as [[te dd]|] eqn:Ed; [|exact (IHt H)].
        destruct (ty_eqb te t); [|exact (IHt H)].
        match type of H with match (match ?q with _ => _ end) with _ => _ end = _ =>
          destruct q as [[tr dr]|] eqn:Er; [|exact (IHt H)] end.
        apply B in Ed. pose proof (IH G _ h _ _ Er) as F. injection H as <- <-. fairly.
      * destruct (elab G C None d) as [[te dd]|] eqn:Ed; [|discriminate H].
        match type of H with match ?q with _ => _ end = _ => destruct q as [[tr dr]|] eqn:Er; [|discriminate H] end.
        apply B in Ed. pose proof (IH G _ h _ _ Er) as F. injection H as <- <-. fairly.
Qed.
Fixpoint fair_expr (e : expr) : fair_e e
with fair_blk (b : block) : fair_b b
with fair_stmt (s : stmt) : fair_s s.
Proof.
  - destruct e; intros G C h ut ud H.
    7: { destruct o; [cbn [elab] in H; parts fair_expr fair_blk H; injection H as <- <-; fairly| |].
         - destruct e; try discriminate H. cbn [elab] in H. cbv zeta in H. parts fair_expr fair_blk H. injection H as <- <-. fairly.
         - cbn [elab] in H. parts fair_expr fair_blk H. injection H as <- <-. fairly. }
    7: { destruct o; cbn [elab is_shift is_compare] in H; parts fair_expr fair_blk H; injection H as <- <-; fairly. }
    all: cbn [elab] in H; cbv zeta in H.
    all: try exact (fair_blk _ _ _ _ _ _ H).
    all: try (parts fair_expr fair_blk H; injection H as <- <-; first [assumption|fairly]).
  - destruct b as [l e]. apply fair_block.
    + destruct e as [e|]; [exact (fair_expr e)|exact I].
    + induction l as [|s l IH]; constructor; [|exact IH]. split; [exact (fair_stmt s)|].
      destruct s; try exact I. exact (fair_expr e0).
  - destruct s; intros G C v H; try discriminate H.
    + destruct p; try discriminate H; cbn [elab_stmt] in H; parts fair_expr fair_blk H; injection H as <-; fairly.
    + destruct p; cbn [elab_stmt] in H; parts fair_expr fair_blk H; injection H as <-; fairly.
    + cbn [elab_stmt] in H; parts fair_expr fair_blk H; injection H as <-; assumption.
    + cbn [elab_stmt] in H; parts fair_expr fair_blk H; injection H as <-; fairly.
    + destruct e as [e|]; cbn [elab_stmt] in H; parts fair_expr fair_blk H; injection H as <-; fairly.
    + cbn [elab_stmt] in H; parts fair_expr fair_blk H; injection H as <-; fairly.
    + cbn [elab_stmt] in H; parts fair_expr fair_blk H; injection H as <-; fairly.
Qed.
