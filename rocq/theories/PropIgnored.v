(** C71: ignored fields start with their default values and no function changes
    them. *)
From Coq Require Import ZArith List Bool String Lia.
From Verif Require Import RustInt Syntax Surface Rust Emit Ignored.
From Verif Require Gen Parser PropParse SpecEmit.
Import ListNotations.
Open Scope string_scope.
Open Scope list_scope.

(** ** A sufficient condition that can be computed *)

(** [KO]: [Other]; [KP]: [Ptr]; [KE]: the bitfield or builder at hand; [KAny]: anything. *)
Inductive kind := KO | KP | KE | KAny.
Definition kind_eqb (a b : kind) : bool :=
  match a, b with KO, KO | KP, KP | KE, KE | KAny, KAny => true | _, _ => false end.
Lemma kind_eqb_eq a b : kind_eqb a b = true -> a = b.
Proof. destruct a, b; intro H; try discriminate H; reflexivity. Qed.

Section Check.
Variable fresh : bool.                (* struct expressions are allowed *)
Variable K : string -> kind.          (* of the variables *)
Variable R : kind -> bool.            (* of results *)

Definition some (o : option kind) : bool := match o with Some _ => true | None => false end.
Definition is (k : kind) (o : option kind) : bool := match o with Some k' => kind_eqb k k' | None => false end.
Definition when (b : bool) (k : kind) : option kind := if b then Some k else None.
(** Assignments: to variables of kind [KO], and to a part of a bitfield. *)
Definition inside (p : expr) : bool :=
  match p with
  | EVar x => kind_eqb (K x) KO
  | EVal _ | EIndex _ _ | EUn UDeref (EVal _) => true
  | _ => false
  end.
Fixpoint ck (e : expr) : option kind :=
  match e with
  | ELit _ _ | EBool _ | EMax _ | EBits _ | EConst _ _ | EArray _ _ | EUnit | EErr _ | EDebug _ | EUser _ _ => Some KO
  | EUn UNot e | EUn UNeg e | ECast e _ | EFromBits _ e | EIntoBits e | ESwap e | ELen e | EVal e
  | EFinish e | EBox e | ERepeat e _ => when (some (ck e)) KO
  | EBin _ a b | EIndex a b => when (some (ck a) && some (ck b)) KO
  | EContains a b x => when (some (ck a) && some (ck b) && some (ck x)) KO
  | EVar x => Some (K x)
  | EUn UDeref e => when (is KO (ck e)) KO
  | EThis e | EBuilder e => when (is KE (ck e)) KE
  | EOk e => ck e
  | EStruct _ e => when (fresh && some (ck e)) KE
  | EIf c a b => when (some (ck c) && is KO (ckb a) && is KO (ckb b)) KO
  | EBlock b => ckb b
  | ECall e _ a =>
      when (some (ck a) && match root e with Some x => kind_eqb (K x) KP || kind_eqb (K x) KE | None => false end) KAny
  | ENew _ _ => when fresh KE
  end
with ckb (b : block) : option kind :=
  match b with
  | Block l e =>
      if (fix go (l : list stmt) : bool := match l with [] => true | s :: l => cks s && go l end) l
      then match e with Some e => ck e | None => Some KO end else None
  end
with cks (s : stmt) : bool :=
  match s with
  | SLet _ x _ e => is (K x) (ck e)
  | SSet p e | SOp _ p e => is KO (ck e) && some (ck p) && inside p
  | SExpr e => some (ck e)
  | SWhile c b => some (ck c) && some (ckb b)
  | SReturn (Some e) => match ck e with Some k => R k | None => false end
  | SReturn None => R KO
  | STry e => some (ck e) && R KO
  | SField _ _ e => some (ck e)
  end.
Definition ckl (l : list stmt) : bool := forallb cks l.
Lemma ckb_eq l e : ckb (Block l e) = if ckl l then match e with Some e => ck e | None => Some KO end else None.
Proof.
  cbn [ckb]. replace ((fix go (l : list stmt) : bool := match l with [] => true | s :: l => cks s && go l end) l)
    with (ckl l); [reflexivity|].
  induction l as [|s l IH]; [reflexivity|]. unfold ckl in *. cbn [forallb]. rewrite IH. reflexivity.
Qed.
Lemma cks_eq s : cks s =
  match s with
  | SLet _ x _ e => is (K x) (ck e)
  | SSet p e | SOp _ p e => is KO (ck e) && some (ck p) && inside p
  | SExpr e => some (ck e)
  | SWhile c b => some (ck c) && some (ckb b)
  | SReturn (Some e) => match ck e with Some k => R k | None => false end
  | SReturn None => R KO
  | STry e => some (ck e) && R KO
  | SField _ _ e => some (ck e)
  end.
Proof. destruct s; reflexivity. Qed.
Lemma ck_if c a b : ck (EIf c a b) = when (some (ck c) && is KO (ckb a) && is KO (ckb b)) KO.
Proof. reflexivity. Qed.
Lemma ckl_app a b : ckl (a ++ b) = ckl a && ckl b.
Proof. apply forallb_app. Qed.
Lemma ckl_flat {A} (g : A -> list stmt) l : (forall a, ckl (g a) = true) -> ckl (flat_map g l) = true.
Proof. intro H. induction l; cbn [flat_map]; [reflexivity|]. rewrite ckl_app, H. exact IHl. Qed.
End Check.

(** The kinds of a function. *)
Definition takes_self (t : ty) : bool := match t with TSelf | TBuilder => true | _ => false end.
Definition no_recv (g : fn) : bool := match fn_recv g with NoRecv => true | _ => false end.
Definition fresh_fn (g : fn) : bool := no_recv g && forallb (fun p => negb (takes_self (snd p))) (fn_params g).
Definition base_kind (v : recv) : kind := match v with ByRef | ByMut => KP | _ => KE end.
Definition K0 (k : kind) (x : string) : kind := if String.eqb x "self" || String.eqb x "this" then k else KO.
Definition kinds (v : recv) (ps : list (string * ty)) : string -> kind :=
  if existsb (fun p => takes_self (snd p)) ps then
    fun x => if existsb (fun p => String.eqb x (fst p) && takes_self (snd p)) ps then KE else K0 (base_kind v) x
  else K0 (base_kind v).
Definition returns (t : ty) (k : kind) : bool :=
  match t with
  | TSelf | TBuilder => kind_eqb k KE
  | TRes (TSelf | TBuilder) => kind_eqb k KE || kind_eqb k KO
  | _ => kind_eqb k KO
  end.
Definition fn_ok (g : fn) : bool :=
  match ckb (fresh_fn g) (kinds (fn_recv g) (fn_params g)) (returns (fn_ret g)) (fn_body g) with
  | Some k => returns (fn_ret g) k
  | None => false
  end
  && forallb (fun p => kind_eqb (kinds (fn_recv g) (fn_params g) (fst p)) (if takes_self (snd p) then KE else KO)) (fn_params g)
  && (no_recv g || kind_eqb (kinds (fn_recv g) (fn_params g) "self") (base_kind (fn_recv g)))
  && (negb (returns (fn_ret g) KE) || fresh_fn g || negb (no_recv g))
  && (negb (no_recv g && match fn_params g with [] => true | _ => false end) ||
      match fn_ret g with TSelf | TBuilder => true | _ => false end).

(** ** What it is sufficient for *)

(** The ignored fields of the result, by the type of the result. *)
Definition ignored_of {X} (d : X) (g : fn) (i : X) (v : aval X) : Prop :=
  let j := match fn_recv g with NoRecv => d | _ => i end in
  match fn_ret g with
  | TSelf | TBuilder => v = Ext j
  | TRes TSelf | TRes TBuilder => v = Ext j \/ v = Other
  | _ => v = Other
  end.

Section Sound.
Context {X : Type}.
Variable d : X.
Variable fns : list fn.
Hypothesis all : forall g, In g fns -> fn_ok g = true.

Definition fits (j : X) (k : kind) (v : aval X) : Prop :=
  match k with KO => v = Other | KP => v = Ptr | KE => v = Ext j | KAny => True end.
Definition agree (j : X) (K : string -> kind) (s : state X) : Prop :=
  Forall (fun p => fits j (K (fst p)) (snd p)) (fst s).
Definition rfits (j : X) (R : kind -> bool) (k : kind) (r : res X) : Prop :=
  match r with
  | Value v => fits j k v
  | Return v => exists k', R k' = true /\ fits j k' v
  | Stop => True
  end.
Lemma agree_lookup j K (l : list (string * aval X)) x v :
  Forall (fun p => fits j (K (fst p)) (snd p)) l -> lookup x l = Some v -> fits j (K x) v.
Proof.
  induction l as [|[y w] l IH]; [discriminate|]. intros H. inversion_clear H as [|? ? H1 H2]. cbn [lookup].
  destruct (String.eqb_spec x y) as [->|_]; [intro E; injection E as <-; exact H1|auto].
Qed.
Lemma agree_update j K (l : list (string * aval X)) x v :
  Forall (fun p => fits j (K (fst p)) (snd p)) l -> fits j (K x) v ->
  Forall (fun p => fits j (K (fst p)) (snd p)) (update x v l).
Proof.
  intros H Hv. induction H as [|[y w] l H1 H2 IH]; [constructor|]. cbn [update].
  destruct (String.eqb_spec x y) as [->|_]; constructor; assumption.
Qed.
Lemma agree_leave j K (s s' : state X) : agree j K s' -> agree j K (leave s s').
Proof.
  unfold agree, leave. cbn [fst]. generalize (List.length (fst s') - List.length (fst s))%nat.
  intros n H. revert n. induction H as [|p l H1 H2 IH]; intros [|n]; cbn [skipn]; try constructor; auto.
Qed.

Definition sane (fresh : bool) (K : string -> kind) (j : X) : Prop :=
  (forall x, K x <> KAny) /\ (fresh = true -> j = d).
Definition keeps (j : X) (K : string -> kind) (s s' : state X) : Prop := agree j K s' /\ snd s' = snd s.
(** Receivers by value: [KE] is the bitfield at hand. *)
Definition Pe (e : expr) (s : state X) (r : res X) (s' : state X) : Prop :=
  forall fresh K R j k, sane fresh K j -> agree j K s -> ck fresh K R e = Some k ->
    keeps j K s s' /\ rfits j R k r.
Definition Pes (l : list expr) (s : state X) (r : res X) (s' : state X) : Prop :=
  forall fresh K R j, sane fresh K j -> agree j K s -> forallb (fun e => some (ck fresh K R e)) l = true ->
    keeps j K s s' /\ rfits j R KO r.
Definition Ps (c : stmt) (s : state X) (r : res X) (s' : state X) : Prop :=
  forall fresh K R j, sane fresh K j -> agree j K s -> cks fresh K R c = true ->
    keeps j K s s' /\ rfits j R KO r.
Definition Pl (l : list stmt) (s : state X) (r : res X) (s' : state X) : Prop :=
  forall fresh K R j, sane fresh K j -> agree j K s -> ckl fresh K R l = true ->
    keeps j K s s' /\ rfits j R KO r.
Definition Pb (b : block) (s : state X) (r : res X) (s' : state X) : Prop :=
  forall fresh K R j k, sane fresh K j -> agree j K s -> ckb fresh K R b = Some k ->
    keeps j K s s' /\ rfits j R k r.
Definition Pr (g : fn) (i : X) (r : res X) (i' : X) : Prop :=
  fn_ok g = true ->
  i' = i /\ match r with Value v => ignored_of d g i v | Return _ => False | Stop => True end.

Lemma when_some b k k' : when b k = Some k' -> b = true /\ k = k'.
Proof. destruct b; cbn; intro H; [injection H as <-; auto|discriminate H]. Qed.
Lemma is_eq k o : is k o = true -> o = Some k.
Proof. destruct o as [k'|]; cbn; [|discriminate]. intro H. apply kind_eqb_eq in H as ->. reflexivity. Qed.
Lemma some_ex o : some o = true -> exists k, o = Some k.
Proof. destruct o; [eauto|discriminate]. Qed.
Lemma keeps_trans j K s1 s2 s3 : keeps j K s1 s2 -> keeps j K s2 s3 -> keeps j K s1 s3.
Proof. intros [A B] [C D]. split; [exact C|congruence]. Qed.
Lemma keeps_leave j K s s' s0 : keeps j K s s' -> keeps j K s (leave s0 s').
Proof. intros [A B]. split; [apply agree_leave; exact A|exact B]. Qed.
Lemma abrupt_fits j R k k' r : abrupt r = true -> rfits j R k r -> rfits j R k' r.
Proof. destruct r; [discriminate|auto|auto]. Qed.

Lemma sound :
  (forall e s r s', ev d fns e s r s' -> Pe e s r s')
  /\ (forall l s r s', evs d fns l s r s' -> Pes l s r s')
  /\ (forall c s r s', evst d fns c s r s' -> Ps c s r s')
  /\ (forall l s r s', evl d fns l s r s' -> Pl l s r s')
  /\ (forall b s r s', evb d fns b s r s' -> Pb b s r s')
  /\ (forall g i r i', run d fns g i r i' -> Pr g i r i').
Proof.
  apply runs_mut.
  all: unfold Pe, Pes, Ps, Pl, Pb.
  - (* stop *) intros e s fresh K R j k S A C. split; [split; auto|exact I].
  - (* var *) intros x s v L fresh K R j k S A C. injection C as <-.
    split; [split; auto|]. exact (agree_lookup j K _ _ _ A L).
  - (* parts *) intros e l s r s' P _ IH fresh K R j k S A C.
    assert (Q : forallb (fun e => some (ck fresh K R e)) l = true /\ k = KO).
    { destruct e; try discriminate P; try (destruct o; try discriminate P); injection P as <-; cbn [ck] in C;
        try (injection C as <-; split; reflexivity);
        apply when_some in C as [C <-]; (split; [|reflexivity]); cbn [forallb];
        rewrite ?andb_true_r; rewrite <- ?andb_assoc in C; exact C. }
    destruct Q as [Q ->]. exact (IH fresh K R j S A Q).
  - (* lazy *) intros o a b s v s' L _ IH fresh K R j k S A C. cbn [ck] in C.
    apply when_some in C as [C <-]. apply andb_true_iff in C as [C _]. apply some_ex in C as (k & C).
    destruct (IH fresh K R j k S A C) as [H _]. split; [exact H|reflexivity].
  - (* deref *) intros e s r s' _ IH fresh K R j k S A C. cbn [ck] in C.
    apply when_some in C as [C <-]. apply is_eq in C.
    destruct (IH fresh K R j KO S A C) as [H F]. split; [exact H|].
    destruct r; cbn [map_value rfits] in *; [cbn [fits] in *; subst v; reflexivity|exact F|exact I].
  - (* this *) intros e s r s' _ IH fresh K R j k S A C. cbn [ck] in C.
    apply when_some in C as [C <-]. apply is_eq in C.
    destruct (IH fresh K R j KE S A C) as [H F]. split; [exact H|].
    destruct r; cbn [map_value rfits] in *; [cbn [fits] in *; subst v; reflexivity|exact F|exact I].
  - (* builder *) intros e s r s' _ IH fresh K R j k S A C. cbn [ck] in C.
    apply when_some in C as [C <-]. apply is_eq in C. exact (IH fresh K R j KE S A C).
  - (* ok *) intros e s r s' _ IH fresh K R j k S A C. exact (IH fresh K R j k S A C).
  - (* struct *) intros p e s r s' _ IH fresh K R j k S A C. cbn [ck] in C.
    apply when_some in C as [C <-]. apply andb_true_iff in C as [HF C]. apply some_ex in C as (k & C).
    destruct (IH fresh K R j k S A C) as [H F]. split; [exact H|].
    destruct r; cbn [map_value rfits] in *; [cbn [fits]; rewrite (proj2 S HF); reflexivity|exact F|exact I].
  - (* if, condition *) intros c a b s r s' _ IH AB fresh K R j k S A C. rewrite ck_if in C.
    apply when_some in C as [C <-]. apply andb_true_iff in C as [C _]. apply andb_true_iff in C as [C _].
    apply some_ex in C as (k & C). destruct (IH fresh K R j k S A C) as [H F].
    split; [exact H|exact (abrupt_fits _ _ _ _ _ AB F)].
  - (* then *) intros c a b s v s1 r s' _ IHc _ IHa fresh K R j k S A C. rewrite ck_if in C.
    apply when_some in C as [C <-]. apply andb_true_iff in C as [C Cb]. apply andb_true_iff in C as [C Ca].
    apply some_ex in C as (k & C). apply is_eq in Ca. destruct (IHc fresh K R j k S A C) as [H _].
    destruct (IHa fresh K R j KO S (proj1 H) Ca) as [H' F]. split; [exact (keeps_trans _ _ _ _ _ H H')|exact F].
  - (* else *) intros c a b s v s1 r s' _ IHc _ IHb fresh K R j k S A C. rewrite ck_if in C.
    apply when_some in C as [C <-]. apply andb_true_iff in C as [C Cb]. apply andb_true_iff in C as [C Ca].
    apply some_ex in C as (k & C). apply is_eq in Cb. destruct (IHc fresh K R j k S A C) as [H _].
    destruct (IHb fresh K R j KO S (proj1 H) Cb) as [H' F]. split; [exact (keeps_trans _ _ _ _ _ H H')|exact F].
  - (* block *) intros b s r s' _ IH fresh K R j k S A C. exact (IH fresh K R j k S A C).
  - (* argument *) intros e f a s r s' _ IH AB fresh K R j k S A C. cbn [ck] in C.
    apply when_some in C as [C <-]. apply andb_true_iff in C as [C _]. apply some_ex in C as (k & C).
    destruct (IH fresh K R j k S A C) as [H F]. split; [exact H|exact (abrupt_fits _ _ _ _ _ AB F)].
  - (* call *) intros e f a s w s1 x v i g r i' _ IH RT L HE G NM RC _ IHr fresh K R j k S A C. cbn [ck] in C.
    rewrite RT in C. apply when_some in C as [C <-]. apply andb_true_iff in C as [C CK]. apply some_ex in C as (k & C).
    destruct (IH fresh K R j k S A C) as [[A1 B1] _].
    destruct (IHr (all g G)) as [-> F]. split; [|destruct r; [exact I|destruct F|exact I]].
    pose proof (agree_lookup j K _ _ _ A1 L) as FV.
    destruct v as [| |i0]; cbn [held] in HE; [discriminate HE| |]; injection HE as <-; cbn [leaves].
    + split; [exact A1|exact B1].
    + split; [|exact B1]. exact (agree_update j K _ _ _ A1 FV).
  - (* new *) intros p f s g i r i' G NM NR NP _ IHr fresh K R j k S A C. cbn [ck] in C.
    apply when_some in C as [C <-]. pose proof (all g G) as OK. destruct (IHr OK) as [-> F].
    split; [split; auto|]. destruct r as [v|v|]; [|destruct F|exact I]. cbn [result rfits fits].
    rewrite (proj2 S C). unfold fn_ok in OK. apply andb_true_iff in OK as [_ OK].
    unfold no_recv in OK. rewrite NR, NP in OK. unfold ignored_of in F. rewrite NR in F.
    destruct (fn_ret g); try discriminate OK; exact F.
  - (* nil *) intros s fresh K R j S A C. split; [split; auto|reflexivity].
  - (* cons *) intros e l s v s1 r s' _ IHe _ IHl fresh K R j S A C. cbn [forallb] in C.
    apply andb_true_iff in C as [C Cl]. apply some_ex in C as (k & C). destruct (IHe fresh K R j k S A C) as [H _].
    destruct (IHl fresh K R j S (proj1 H) Cl) as [H' F]. split; [exact (keeps_trans _ _ _ _ _ H H')|exact F].
  - (* out *) intros e l s r s' _ IH AB fresh K R j S A C. cbn [forallb] in C.
    apply andb_true_iff in C as [C Cl]. apply some_ex in C as (k & C). destruct (IH fresh K R j k S A C) as [H F].
    split; [exact H|exact (abrupt_fits _ _ _ _ _ AB F)].
  - (* statement, operands *) intros c s r s' _ IH AB fresh K R j S A C.
    apply (IH fresh K R j S A).
    destruct c as [? ? ? e|p e|? p e|e|? ?|[e|]|e|? ? e]; rewrite cks_eq in C; cbn [operands forallb]; rewrite ?andb_true_r.
    + apply is_eq in C. rewrite C. reflexivity.
    + apply andb_true_iff in C as [C _]. apply andb_true_iff in C as [C C']. apply is_eq in C. rewrite C, C'. reflexivity.
    + apply andb_true_iff in C as [C _]. apply andb_true_iff in C as [C C']. apply is_eq in C. rewrite C, C'. reflexivity.
    + exact C.
    + reflexivity.
    + destruct (ck fresh K R e); [reflexivity|discriminate C].
    + reflexivity.
    + apply andb_true_iff in C as [C _]. exact C.
    + exact C.
  - (* let *) intros m x t e s v s' _ IH fresh K R j S A C. rewrite cks_eq in C. apply is_eq in C.
    destruct (IH fresh K R j _ S A C) as [[A1 B1] F]. split; [|reflexivity].
    split; [|exact B1]. constructor; [exact F|exact A1].
  - (* set *) intros p e s v s1 w s' _ IHe _ IHp fresh K R j S A C. rewrite cks_eq in C.
    apply andb_true_iff in C as [C IN]. apply andb_true_iff in C as [C C']. apply is_eq in C. apply some_ex in C' as (k & C').
    destruct (IHe fresh K R j _ S A C) as [H F]. cbn [rfits fits] in F. subst v.
    destruct (IHp fresh K R j k S (proj1 H) C') as [H' _]. pose proof (keeps_trans _ _ _ _ _ H H') as [A2 B2].
    split; [|reflexivity].
    destruct p; try discriminate IN; cbn [store]; try (split; assumption).
    + cbn [inside] in IN. apply kind_eqb_eq in IN. split; [|exact B2].
      apply agree_update; [exact A2|]. rewrite IN. reflexivity.
    + destruct o; try discriminate IN. destruct p; try discriminate IN. split; assumption.
  - (* op *) intros o p e s v s1 w s' _ IHe _ IHp fresh K R j S A C. rewrite cks_eq in C.
    apply andb_true_iff in C as [C IN]. apply andb_true_iff in C as [C C']. apply is_eq in C. apply some_ex in C' as (k & C').
    destruct (IHe fresh K R j _ S A C) as [H F].
    destruct (IHp fresh K R j k S (proj1 H) C') as [H' _]. pose proof (keeps_trans _ _ _ _ _ H H') as [A2 B2].
    split; [|reflexivity].
    destruct p; try discriminate IN; cbn [store]; try (split; assumption).
    + cbn [inside] in IN. apply kind_eqb_eq in IN. split; [|exact B2].
      apply agree_update; [exact A2|]. rewrite IN. reflexivity.
    + destruct o0; try discriminate IN. destruct p; try discriminate IN. split; assumption.
  - (* expression *) intros e s v s' _ IH fresh K R j S A C. rewrite cks_eq in C. apply some_ex in C as (k & C).
    destruct (IH fresh K R j k S A C) as [H _]. split; [exact H|reflexivity].
  - (* return *) intros s fresh K R j S A C. split; [split; auto|]. exists KO. split; [exact C|reflexivity].
  - (* return e *) intros e s v s' _ IH fresh K R j S A C. rewrite cks_eq in C.
    destruct (ck fresh K R e) as [k|] eqn:E; [|discriminate C].
    destruct (IH fresh K R j k S A E) as [H F]. split; [exact H|]. exists k. split; [exact C|exact F].
  - (* try *) intros e s v s' _ IH fresh K R j S A C. rewrite cks_eq in C. apply andb_true_iff in C as [C _].
    apply some_ex in C as (k & C). destruct (IH fresh K R j k S A C) as [H _]. split; [exact H|reflexivity].
  - (* try, error *) intros e s v s' _ IH fresh K R j S A C. rewrite cks_eq in C. apply andb_true_iff in C as [C CR].
    apply some_ex in C as (k & C). destruct (IH fresh K R j k S A C) as [H _]. split; [exact H|].
    exists KO. split; [exact CR|reflexivity].
  - (* field *) intros x n e s v s' _ IH fresh K R j S A C. rewrite cks_eq in C. apply some_ex in C as (k & C).
    destruct (IH fresh K R j k S A C) as [H _]. split; [exact H|reflexivity].
  - (* while, condition *) intros c b s r s' _ IH AB fresh K R j S A C. rewrite cks_eq in C.
    apply andb_true_iff in C as [C _]. apply some_ex in C as (k & C). destruct (IH fresh K R j k S A C) as [H F].
    split; [exact H|exact (abrupt_fits _ _ _ _ _ AB F)].
  - (* while, end *) intros c b s v s' _ IH fresh K R j S A C. rewrite cks_eq in C.
    apply andb_true_iff in C as [C _]. apply some_ex in C as (k & C). destruct (IH fresh K R j k S A C) as [H _].
    split; [exact H|reflexivity].
  - (* while, body *) intros c b s v s1 r s' _ IHc _ IHb AB fresh K R j S A C. rewrite cks_eq in C.
    apply andb_true_iff in C as [C Cb]. apply some_ex in C as (k & C). apply some_ex in Cb as (k' & Cb).
    destruct (IHc fresh K R j k S A C) as [H _]. destruct (IHb fresh K R j k' S (proj1 H) Cb) as [H' F].
    split; [exact (keeps_trans _ _ _ _ _ H H')|exact (abrupt_fits _ _ _ _ _ AB F)].
  - (* while, again *) intros c b s v s1 w s2 r s' _ IHc _ IHb _ IHw fresh K R j S A C. pose proof C as C0. rewrite cks_eq in C.
    apply andb_true_iff in C as [C Cb]. apply some_ex in C as (k & C). apply some_ex in Cb as (k' & Cb).
    destruct (IHc fresh K R j k S A C) as [H _]. destruct (IHb fresh K R j k' S (proj1 H) Cb) as [H' _].
    destruct (IHw fresh K R j S (proj1 H') C0) as [H2 F].
    split; [exact (keeps_trans _ _ _ _ _ (keeps_trans _ _ _ _ _ H H') H2)|exact F].
  - (* nil *) intros s fresh K R j S A C. split; [split; auto|reflexivity].
  - (* cons *) intros c l s v s1 r s' _ IHe _ IHl fresh K R j S A C.
    apply andb_true_iff in C as [C Cl]. destruct (IHe fresh K R j S A C) as [H _].
    destruct (IHl fresh K R j S (proj1 H) Cl) as [H' F]. split; [exact (keeps_trans _ _ _ _ _ H H')|exact F].
  - (* out *) intros c l s r s' _ IH AB fresh K R j S A C. apply andb_true_iff in C as [C Cl].
    exact (IH fresh K R j S A C).
  - (* block, out *) intros l e s r s' _ IH AB fresh K R j k S A C. rewrite ckb_eq in C.
    destruct (ckl fresh K R l) eqn:E; [|discriminate C]. destruct (IH fresh K R j S A E) as [H F].
    split; [apply keeps_leave; exact H|exact (abrupt_fits _ _ _ _ _ AB F)].
  - (* block without value *) intros l s v s' _ IH fresh K R j k S A C. rewrite ckb_eq in C.
    destruct (ckl fresh K R l) eqn:E; [|discriminate C]. injection C as <-. destruct (IH fresh K R j S A E) as [H F].
    split; [apply keeps_leave; exact H|reflexivity].
  - (* block with value *) intros l e s v s1 r s' _ IHl _ IHe fresh K R j k S A C. rewrite ckb_eq in C.
    destruct (ckl fresh K R l) eqn:E; [|discriminate C]. destruct (IHl fresh K R j S A E) as [H _].
    destruct (IHe fresh K R j k S (proj1 H) C) as [H' F].
    split; [apply keeps_leave; exact (keeps_trans _ _ _ _ _ H H')|exact F].
  - (* function *) intros g i r s _ IH OK. unfold fn_ok in OK.
    apply andb_true_iff in OK as [OK _]. apply andb_true_iff in OK as [OK RS]. apply andb_true_iff in OK as [OK SK].
    apply andb_true_iff in OK as [OK PS].
    destruct (ckb (fresh_fn g) (kinds (fn_recv g) (fn_params g)) (returns (fn_ret g)) (fn_body g)) as [k|] eqn:E; [|discriminate OK].
    set (j := if fresh_fn g then d else i).
    assert (S : sane (fresh_fn g) (kinds (fn_recv g) (fn_params g)) j).
    { split; [|unfold j; intros ->; reflexivity]. intros x.
      assert (K1 : K0 (base_kind (fn_recv g)) x <> KAny).
      { unfold K0. destruct (String.eqb x "self" || String.eqb x "this"); [destruct (fn_recv g)|]; discriminate. }
      unfold kinds. destruct (existsb _ _); [|exact K1]. destruct (existsb _ _); [discriminate|exact K1]. }
    assert (FN : no_recv g = false -> fresh_fn g = false) by (unfold fresh_fn; intros ->; reflexivity).
    assert (A : agree j (kinds (fn_recv g) (fn_params g)) (start g i, i)).
    { unfold agree, start. cbn [fst]. apply Forall_app. split.
      - apply Forall_forall. intros p Hp. apply in_map_iff in Hp as (q & <- & Hq). cbn [fst snd].
        rewrite forallb_forall in PS. pose proof (PS q Hq) as P1. apply kind_eqb_eq in P1. rewrite P1.
        assert (F : takes_self (snd q) = true -> fresh_fn g = false).
        { intro T. unfold fresh_fn. apply andb_false_iff. right. apply not_true_is_false. intro FA.
          rewrite forallb_forall in FA. pose proof (FA q Hq) as P2. rewrite T in P2. discriminate P2. }
        destruct (snd q); try reflexivity; cbn [takes_self fits]; unfold j; rewrite F by reflexivity; reflexivity.
      - unfold no_recv in FN, SK.
        destruct (fn_recv g); constructor; cbn [fst snd]; try constructor; apply kind_eqb_eq in SK; rewrite SK;
          cbn [base_kind fits]; unfold j; rewrite ?FN by reflexivity; reflexivity. }
    destruct (IH _ _ _ j k S A E) as [[_ B] F]. split; [exact B|].
    assert (Q : forall k v, returns (fn_ret g) k = true -> fits j k v -> ignored_of d g i v).
    { intros k' v HR HF. unfold ignored_of.
      assert (J : k' = KE -> j = match fn_recv g with NoRecv => d | _ => i end).
      { intros ->. rewrite HR in RS. cbn [negb orb] in RS. unfold j. unfold no_recv in *.
        destruct (fn_recv g); cbn [negb] in RS; rewrite ?orb_false_r in RS;
          [rewrite RS; reflexivity|rewrite FN by reflexivity; reflexivity..]. }
      unfold returns in HR. destruct (fn_ret g) as [| | | | | | | | | |t|]; try destruct t;
        destruct k'; try discriminate HR; cbn [fits] in HF; rewrite <- ?J by reflexivity; auto. }
    destruct r as [v|v|]; cbn [result rfits] in *; [exact (Q k v OK F)| |exact I].
    destruct F as (k' & HR & HF). exact (Q k' v HR HF).
Qed.
End Sound.

(** ** The emitted code *)

(** A default expression that names no variable of the function around it, and is
    not made from the bitfield itself. *)
Fixpoint constant (e : expr) : bool :=
  match e with
  | ELit _ _ | EBool _ | EMax _ | EBits _ | EConst _ _ | EArray _ _ | EUnit | EUser _ _ => true
  | EUn UDeref _ => false
  | EUn _ e | ECast e _ | EFromBits _ e | EIntoBits e | ESwap e => constant e
  | EBin _ a b => constant a && constant b
  | _ => false
  end.
Lemma constant_ok fresh K R e : constant e = true -> ck fresh K R e = Some KO.
Proof.
  induction e; cbn [constant]; intro H; try discriminate H; try reflexivity.
  - destruct o; try discriminate H; cbn [ck]; rewrite IHe by exact H; reflexivity.
  - apply andb_true_iff in H as [H1 H2]. cbn [ck]. rewrite IHe1, IHe2 by assumption. reflexivity.
  - cbn [ck]. rewrite IHe by exact H. reflexivity.
  - cbn [ck]. rewrite IHe by exact H. reflexivity.
  - cbn [ck]. rewrite IHe by exact H. reflexivity.
  - cbn [ck]. rewrite IHe by exact H. reflexivity.
Qed.

Section Fragments.
Variable fresh : bool.
Variable R : kind -> bool.
Variable t : kind.
Hypothesis T : t = KP \/ t = KE.
Notation ckl := (ckl fresh (K0 t) R).
Notation ck := (ck fresh (K0 t) R).
Notation ckb := (ckb fresh (K0 t) R).
Notation cks := (cks fresh (K0 t) R).

Lemma flat {A} (g : A -> list stmt) l : (forall a, ckl (g a) = true) -> ckl (flat_map g l) = true.
Proof. apply ckl_flat. Qed.
Lemma cat a b : ckl a = true -> ckl b = true -> ckl (a ++ b) = true.
Proof. intros A B. rewrite ckl_app, A. exact B. Qed.
Lemma one c l : cks c = true -> ckl l = true -> ckl (c :: l) = true.
Proof. intros A B. cbn [PropIgnored.ckl forallb]. rewrite A. exact B. Qed.

Ltac split_ty f := destruct (f_ty f) as [[]|?|].
Lemma extract_ok bf bc inv fv cb f : (bc = true -> t = KE) -> ckl (extract bf bc inv fv cb f) = true.
Proof.
  intro B. unfold extract, extract_cast_i, extract_src_i, extract_cast_a, extract_src_a, fbits, foff, mask_expr, data_ty, data_ity.
  unfold is_integer_backed. destruct bc; [rewrite (B eq_refl)|]; clear B T;
    destruct fv, cb, inv; destruct (b_ty bf); split_ty f; destruct (has_constants f); reflexivity.
Qed.
Lemma ck_var x : K0 t x = KO -> ck (V x) = Some KO.
Proof. cbn [PropIgnored.ck]. intros ->. reflexivity. Qed.
Lemma value_var_ok f : ck (value_var f) = Some KO.
Proof. unfold value_var. split_ty f; reflexivity. Qed.
Lemma zero_ok bf f : ck (zero_expr bf f) = Some KO.
Proof. unfold zero_expr. destruct (is_integer_backed bf); split_ty f; reflexivity. Qed.

(** Equations for the places where an expression given from outside appears. *)
Lemma let_eq m x o e : cks (SLet m x o e) = is (K0 t x) (ck e).
Proof. reflexivity. Qed.
Lemma expr_eq e : cks (SExpr e) = some (ck e).
Proof. reflexivity. Qed.
Lemma block_eq b : ck (EBlock b) = ckb b.
Proof. reflexivity. Qed.
Lemma cast_eq e o : ck (ECast e o) = when (some (ck e)) KO.
Proof. reflexivity. Qed.
Lemma into_eq e : ck (EIntoBits e) = when (some (ck e)) KO.
Proof. reflexivity. Qed.
Lemma call_eq e f a : ck (ECall e f a) =
  when (some (ck a) && match root e with Some x => kind_eqb (K0 t x) KP || kind_eqb (K0 t x) KE | None => false end) KAny.
Proof. reflexivity. Qed.
Ltac open E :=
  repeat first
    [ rewrite E | rewrite let_eq | rewrite expr_eq | rewrite block_eq | rewrite ckb_eq | rewrite ck_if
    | rewrite cast_eq | rewrite into_eq | rewrite call_eq ].

Lemma unpack_ok x e len : x = "__int_val" \/ x = "__val" -> ck e = Some KO -> ck (unpack x e len) = Some KO.
Proof.
  intros HX E. unfold unpack. rewrite block_eq, ckb_eq.
  match goal with |- context [PropIgnored.ckl _ _ _ (?a :: ?l)] => assert (A : ckl (a :: l) = true) end.
  { apply one; [unfold let_, as_; rewrite let_eq, cast_eq, E|]; destruct HX as [-> | ->]; reflexivity. }
  rewrite A. reflexivity.
Qed.
Lemma setter_call_ok bf bc f e : (bc = true -> t = KE) -> ck e = Some KO -> ckl (setter_call bf bc f e) = true.
Proof.
  intros B E. unfold setter_call. apply one; [|reflexivity]. rewrite expr_eq, call_eq.
  match goal with |- context [ck ?a] => assert (A : ck a = Some KO) end.
  { split_ty f; unfold as_any; rewrite ?cast_eq, ?E; try reflexivity.
    destruct (is_integer_backed bf); [apply unpack_ok; [auto|exact E]|exact E]. }
  rewrite A. destruct bc; [rewrite (B eq_refl)|]; cbn; [reflexivity|]. destruct T as [-> | ->]; reflexivity.
Qed.
Ltac known f := unfold fbits, foff; destruct (has_constants f); reflexivity.
Ltac put_int bc B f E :=
  let tac := (apply one; [known f|]; apply one; [|destruct bc; [rewrite (B eq_refl)|]; known f];
              unfold let_; rewrite let_eq; unfold as_; rewrite ?cast_eq, ?into_eq, E; reflexivity) in
  first [ tac
        | apply one; [|reflexivity]; unfold if_else; rewrite expr_eq, ck_if, E;
          destruct bc; [rewrite (B eq_refl)|]; known f ].
Ltac put_arr bc B f E :=
  apply one; [|reflexivity]; rewrite expr_eq, block_eq, ckb_eq; unfold let_;
  match goal with |- context [PropIgnored.ckl _ _ _ (?a :: ?l)] =>
    assert (A : ckl (a :: l) = true);
    [apply one; [rewrite let_eq; unfold as_; rewrite ?cast_eq, ?into_eq, ?ck_if, E; reflexivity
                |destruct bc; [rewrite (B eq_refl)|]; known f]
    |rewrite A; reflexivity] end.
Lemma put_ok bf bc f e : (bc = true -> t = KE) -> ck e = Some KO -> ckl (put bf bc f e) = true.
Proof.
  intros B E. unfold put. destruct (is_integer_backed bf); cbn [negb].
  - destruct (f_ty f) as [[]|?|]; put_int bc B f E.
  - destruct (f_ty f) as [[]|?|]; put_arr bc B f E.
Qed.
Definition no_bc : false = true -> t = KE := fun H => False_ind _ (diff_false_true H).
Lemma assign_ok bf f e : ck e = Some KO -> ckl (assign bf f e) = true.
Proof. intro E. unfold assign. destruct (has_setter f); [apply setter_call_ok|apply put_ok]; try exact E; exact no_bc. Qed.

Variable dx : field -> expr.
Hypothesis user : forall f, constant (dx f) = true.
Lemma default_ok bf f : ckl (default_stmts dx bf f) = true.
Proof. apply assign_ok. apply constant_ok. apply user. Qed.
Lemma defaults_ok bf : ckl (defaults dx bf) = true.
Proof. apply flat. apply default_ok. Qed.
Lemma new_impl_ok bf d : ckl (new_impl dx bf d) = true.
Proof.
  unfold new_impl. apply cat; [apply flat; intro f; apply assign_ok, zero_ok|].
  apply cat; destruct d; try reflexivity; [apply defaults_ok|apply flat; apply default_ok].
Qed.
Lemma from_var_ok bf us cb chk bc f :
  (bc = true -> t = KE) -> (chk = true -> R KO = true) -> ckl (set_from_var bf us cb chk bc f) = true.
Proof.
  intros B RO. unfold set_from_var. cbv zeta. destruct (bc && (has_setter f && us)) eqn:BT.
  { apply andb_true_iff in BT as [-> _]. rewrite (B eq_refl).
    split_ty f; destruct chk; cbn; rewrite ?RO by reflexivity; reflexivity. }
  clear BT. apply cat.
  { unfold signed_check, err. destruct chk; rewrite ?andb_false_r; [|reflexivity].
    destruct (negb (has_setter f && us) && true && negb (dt_unsigned (f_ty f))); [|reflexivity]. destruct (f_ty f); try reflexivity.
    destruct (_ <=? _)%Z; [reflexivity|]. cbn. rewrite RO; reflexivity. }
  apply cat; [apply extract_ok; exact B|].
  apply cat.
  { destruct chk; rewrite ?andb_false_r; [|reflexivity].
    match goal with |- context [if ?b then _ else _] => destruct b end; [|reflexivity]. cbn. rewrite RO; reflexivity. }
  destruct (has_setter f && us); [apply setter_call_ok|apply put_ok]; try exact B; apply value_var_ok.
Qed.
Lemma copy_all_ok bf sel : ckl (copy_all bf sel) = true.
Proof. apply flat. intro f. apply from_var_ok; [exact no_bc|discriminate]. Qed.
Lemma this_ok : cks this_self = true.
Proof. destruct T as [-> | ->]; reflexivity. Qed.
Lemma xor_ok bf z : ck z = Some KO -> ckl (xor_loop bf z) = true.
Proof. intro E. apply one; [|reflexivity]. unfold letmut. rewrite let_eq, E. reflexivity. Qed.
Lemma convert_ok bf e : ckl (write_convert bf e) = true.
Proof.
  unfold write_convert. destruct e; [|reflexivity]. destruct (is_integer_backed bf); [reflexivity|].
  apply one; [reflexivity|]. apply xor_ok. reflexivity.
Qed.
Lemma if_ok c l : ck c = Some KO -> ckl l = true -> cks (if_ c l) = true.
Proof. intros C L. unfold if_. rewrite expr_eq, ck_if, C, !ckb_eq, L. reflexivity. Qed.
Lemma guards_ok bf p r : ckl r = true -> ckl (guards bf p r) = true.
Proof.
  intro H. unfold guards. induction (filter p (b_fields bf)) as [|f l IH]; [reflexivity|]. cbn [map].
  apply one; [|exact IH]. destruct (b_ignored bf); (apply if_ok; [reflexivity|exact H]).
Qed.
Lemma err_ok m : R KO = true -> ckl (err m) = true.
Proof. intro RO. apply one; [exact RO|reflexivity]. Qed.
Lemma checks_ok bf r : ckl r = true -> cks (offset_check bf r) = true /\ cks (length_check bf r) = true.
Proof. intro H. unfold offset_check, length_check, total_bits. split; apply if_ok; try exact H; destruct (b_ty bf); reflexivity. Qed.
Lemma mask_ok bf p : cks (protected_mask bf p) = true.
Proof. unfold protected_mask. destruct (b_ty bf); reflexivity. Qed.
End Fragments.

(** ** Functions *)

Definition made (v : recv) : bool := match v with NoRecv => true | _ => false end.
Lemma fn_ok_intro n c v ps r l e k :
  forallb (fun p => negb (takes_self (snd p)) && kind_eqb (K0 KP (fst p)) KO) ps = true ->
  ckl (made v) (K0 (base_kind v)) (returns r) l = true ->
  match e with Some e => ck (made v) (K0 (base_kind v)) (returns r) e | None => Some KO end = Some k ->
  returns r k = true ->
  match v, ps, r with NoRecv, [], (TSelf | TBuilder) => true | NoRecv, [], _ => false | _, _, _ => true end = true ->
  fn_ok (mkFn n c v ps r (Block l e)) = true.
Proof.
  intros P L E RK D. unfold fn_ok. cbn [fn_recv fn_params fn_ret fn_body].
  assert (P1 : existsb (fun p => takes_self (snd p)) ps = false).
  { apply not_true_is_false. intro H. apply existsb_exists in H as (p & Hp & H).
    rewrite forallb_forall in P. specialize (P p Hp). rewrite H in P. discriminate P. }
  assert (F : fresh_fn (mkFn n c v ps r (Block l e)) = made v).
  { unfold fresh_fn, no_recv, made. cbn [fn_recv fn_params]. destruct v; try reflexivity. cbn [andb].
    apply forallb_forall. intros p Hp. rewrite forallb_forall in P. specialize (P p Hp).
    apply andb_true_iff in P. apply P. }
  rewrite F. unfold kinds. rewrite P1, ckb_eq, L, E, RK.
  assert (Q : forallb (fun p => kind_eqb (K0 (base_kind v) (fst p)) (if takes_self (snd p) then KE else KO)) ps = true).
  { apply forallb_forall. intros p Hp. rewrite forallb_forall in P. specialize (P p Hp).
    apply andb_true_iff in P as [A B]. destruct (takes_self (snd p)); [discriminate A|].
    unfold K0 in *. destruct (String.eqb (fst p) "self" || String.eqb (fst p) "this"); [discriminate B|reflexivity]. }
  rewrite Q. unfold no_recv. cbn [fn_recv]. unfold made.
  destruct v; cbn; rewrite ?orb_true_r, ?andb_true_r; try reflexivity.
  destruct ps; [|reflexivity]. destruct r; try discriminate D; reflexivity.
Qed.

Section Functions.
Variable dx : field -> expr.
Hypothesis user : forall f, constant (dx f) = true.
Notation "'ro'" := (or_introl eq_refl) (only parsing).
Notation "'re'" := (or_intror eq_refl) (only parsing).

Lemma plain_field f : takes_self (field_ty f) = false.
Proof. unfold field_ty. destruct (f_ty f); reflexivity. Qed.
Lemma plain_data bf : takes_self (data_ty bf) = false.
Proof. unfold data_ty. destruct (b_ty bf); reflexivity. Qed.
Lemma returns_field f : returns (field_ty f) KO = true.
Proof. unfold field_ty. destruct (f_ty f); reflexivity. Qed.
Lemma returns_data bf : returns (data_ty bf) KO = true /\ returns (TRes (data_ty bf)) KO = true.
Proof. unfold data_ty. destruct (b_ty bf); split; reflexivity. Qed.
Lemma bob_ok t bf : K0 t (bob bf) = KO.
Proof. unfold bob. destruct (is_integer_backed bf); reflexivity. Qed.
Ltac params := cbn [forallb fst snd map]; rewrite ?plain_field, ?plain_data, ?bob_ok; reflexivity.
Ltac fn k := unfold method; apply (fn_ok_intro _ _ _ _ _ _ _ k); [params| |try reflexivity|try reflexivity|try reflexivity].
Ltac this := apply one; [apply this_ok; auto|].

Lemma setter_fn_ok bf f : fn_ok (setter_fn bf f) = true.
Proof. unfold setter_fn. fn KO. this. apply from_var_ok; auto. discriminate. Qed.
Lemma checked_setter_fn_ok bf f : fn_ok (checked_setter_fn bf f) = true.
Proof. unfold checked_setter_fn. fn KO. this. apply from_var_ok; auto. discriminate. Qed.
Lemma value_ret_ok fresh R t bf f :
  ck fresh (K0 t) R (value_ret bf f) = Some KO /\ ck fresh (K0 t) R (value_to_field bf f) = Some KO.
Proof. unfold value_ret, value_to_field. destruct (f_ty f) as [[]|?|], (is_integer_backed bf); split; reflexivity. Qed.
Lemma getter_fn_ok bf f : fn_ok (getter_fn bf f) = true.
Proof.
  unfold getter_fn. fn KO; [|apply value_ret_ok|apply returns_field]. this. apply cat; [apply extract_ok; discriminate|].
  unfold sign_extend. destruct (f_ty f) as [[]|?|]; reflexivity.
Qed.
Lemma init_ok R t bf bc : ck true (K0 t) R (init bf bc) = Some KE.
Proof. unfold init. destruct (b_ty bf); try destruct (a_array_heap (b_args bf)); reflexivity. Qed.
Lemma new_stmts_ok R bf d bc : ckl true (K0 KE) R (new_stmts dx bf d bc) = true.
Proof. apply one; [rewrite let_eq, init_ok; reflexivity|]. apply new_impl_ok; auto. Qed.
Lemma new_fns_ok bf : fn_ok (new_fn dx bf) = true /\ fn_ok (new_without_defaults_fn dx bf) = true.
Proof. split; unfold new_fn, new_without_defaults_fn; fn KE; apply new_stmts_ok. Qed.
Lemma default_fn_ok bf : fn_ok (default_fn dx bf) = true.
Proof.
  unfold default_fn. destruct (a_new (b_args bf)); fn KE; [reflexivity|].
  apply one; [unfold letmut; rewrite let_eq, init_ok; reflexivity|apply defaults_ok; auto].
Qed.
Lemma clear_all_fn_ok bf d : fn_ok (clear_all_fn dx bf d) = true.
Proof. unfold clear_all_fn. fn KO. this. apply new_impl_ok; auto. Qed.
Lemma clear_fn_ok bf f : fn_ok (clear_fn bf f) = true /\ fn_ok (clear_default_fn dx bf f) = true.
Proof.
  split; unfold clear_fn, clear_default_fn; fn KO; this; [apply assign_ok; [auto|apply zero_ok]|apply default_ok; auto].
Qed.
Lemma write_fn_ok bf v d : fn_ok (write_fn dx bf v d) = true.
Proof.
  unfold write_fn. fn KO. this. apply one; [unfold let_; rewrite let_eq; cbn [ck]; rewrite bob_ok; reflexivity|].
  apply cat; [apply convert_ok|]. apply cat; [apply copy_all_ok; auto|]. destruct d; [apply defaults_ok; auto|reflexivity].
Qed.
Lemma write_defaults_fn_ok bf : fn_ok (write_defaults_fn dx bf) = true.
Proof. unfold write_defaults_fn. fn KO. this. apply defaults_ok; auto. Qed.
Lemma load_ok fresh R t bf : ck fresh (K0 t) R (load bf) = Some KO.
Proof. unfold load. destruct (is_heap bf); reflexivity. Qed.
Lemma invert_all_fn_ok bf : fn_ok (invert_all_fn bf) = true.
Proof.
  unfold invert_all_fn. fn KO. this. apply cat; [|apply copy_all_ok; auto].
  destruct (is_integer_backed bf).
  - apply one; [reflexivity|]. apply one; [apply mask_ok|reflexivity].
  - apply one; [unfold letmut; rewrite let_eq, load_ok; reflexivity|]. apply one; [apply mask_ok|reflexivity].
Qed.
Lemma invert_fn_ok bf f : fn_ok (invert_fn bf f) = true /\ fn_ok (inverted_fn bf f) = true.
Proof.
  split; unfold invert_fn, inverted_fn.
  - fn KO. this. apply cat; [apply extract_ok; discriminate|]. apply one; [|reflexivity].
    rewrite expr_eq, call_eq, (proj2 (value_ret_ok _ _ _ _ _)). reflexivity.
  - fn KO; [|apply value_ret_ok|apply returns_field]. this. apply extract_ok; discriminate.
Qed.
Lemma from_tail_ok R bf d : ckl true (K0 KE) R (from_tail dx bf d) = true.
Proof.
  apply one; [unfold letmut; rewrite let_eq, init_ok; reflexivity|].
  apply cat; [apply copy_all_ok; auto|]. destruct d; [apply defaults_ok; auto|reflexivity].
Qed.
Lemma from_fn_ok bf v d : fn_ok (from_fn dx bf v d) = true.
Proof.
  unfold from_fn. fn KE. apply cat; [|apply from_tail_ok].
  unfold from_convert. cbv zeta. destruct (is_integer_backed bf).
  - destruct v; try reflexivity. destruct (Gen.variant_endian _ _); reflexivity.
  - destruct (Gen.variant_endian _ _); reflexivity.
Qed.
Lemma into_fn_ok bf v : fn_ok (into_fn bf v) = true.
Proof.
  unfold into_fn. cbv zeta. destruct (is_integer_backed bf), (Gen.variant_endian _ _); fn KO;
    try apply load_ok; try apply returns_data; this; try reflexivity.
  apply one; [unfold letmut; rewrite let_eq, load_ok; reflexivity|reflexivity].
Qed.
Lemma slice_ok fresh R t bf e : ckl fresh (K0 t) R (slice_convert bf e) = true.
Proof. unfold slice_convert. destruct e; reflexivity. Qed.
Lemma from_slice_ok bf v d : fn_ok (from_slice_fn dx bf v d) = true /\ fn_ok (checked_from_slice_fn dx bf v d) = true.
Proof.
  split; unfold from_slice_fn, checked_from_slice_fn; fn KE;
    (apply one; [reflexivity|]; apply one; [reflexivity|]; apply cat; [reflexivity|];
     apply cat; [apply slice_ok|apply from_tail_ok]).
Qed.
Lemma get_bits_ok fresh R t bf e : ckl fresh (K0 t) R (get_bits_var bf e) = true.
Proof. unfold get_bits_var. destruct e; (apply one; [unfold let_, letmut; rewrite let_eq, load_ok; reflexivity|reflexivity]). Qed.
Lemma into_slice_ok bf v : fn_ok (into_slice_fn bf v) = true /\ fn_ok (checked_into_slice_fn bf v) = true.
Proof.
  split; unfold into_slice_fn, checked_into_slice_fn; fn KO; this.
  - apply cat; [apply get_bits_ok|reflexivity].
  - apply one; [reflexivity|]. apply cat; [apply get_bits_ok|reflexivity].
Qed.
Lemma trait_convert_ok fresh R t bf e src dr :
  ck fresh (K0 t) R src = Some KO -> ck fresh (K0 t) R (trait_convert bf e src dr) = Some KO.
Proof.
  intro E. unfold trait_convert. cbv zeta.
  assert (L : ck fresh (K0 t) R (if dr then EUn UDeref src else src) = Some KO)
    by (destruct dr; [cbn [ck]; rewrite E; reflexivity|exact E]).
  destruct e, (is_integer_backed bf); try exact E; try exact L.
  - cbn [ck]. rewrite E. reflexivity.
  - rewrite block_eq, ckb_eq.
    match goal with |- context [ckl _ _ _ (?a :: ?l)] => assert (A : ckl fresh (K0 t) R (a :: l) = true) end.
    { apply one; [unfold letmut; rewrite let_eq, L; reflexivity|reflexivity]. }
    rewrite A. reflexivity.
Qed.
Lemma trait_from_ok bf : fn_ok (trait_from_fn bf) = true.
Proof.
  unfold trait_from_fn. fn KE. apply one; [unfold letmut; rewrite let_eq, init_ok; reflexivity|].
  apply one; [|apply copy_all_ok; auto]. unfold let_. rewrite let_eq, trait_convert_ok; [reflexivity|].
  cbn [ck]. rewrite bob_ok. reflexivity.
Qed.
Lemma trait_into_ok bf : fn_ok (trait_into_fn bf) = true.
Proof.
  unfold trait_into_fn, trait_convert, is_heap, data_ty, is_integer_backed, array_len.
  destruct (b_ty bf) as [[]|?|], (a_into_endian (b_args bf)), (a_array_heap (b_args bf)); reflexivity.
Qed.
Ltac checks := first [apply checks_ok|idtac].
Lemma set_bit_ok bf : fn_ok (set_bit_fn bf) = true /\ fn_ok (checked_set_bit_fn bf) = true.
Proof.
  split; unfold set_bit_fn, checked_set_bit_fn; fn KO; this;
    (apply one; [apply checks_ok; reflexivity|]; apply cat; [apply guards_ok; reflexivity|];
     unfold set_bit_stmts; destruct (is_integer_backed bf); reflexivity).
Qed.
Lemma set_range_ok bf : fn_ok (set_range_fn bf) = true /\ fn_ok (checked_set_range_fn bf) = true.
Proof.
  split; unfold set_range_fn, checked_set_range_fn; fn KO; this;
    (apply one; [apply checks_ok; reflexivity|]; apply one; [apply checks_ok; reflexivity|]);
    destruct (is_integer_backed bf).
  - apply one; [reflexivity|]. apply one; [apply mask_ok|reflexivity].
  - apply one; [apply mask_ok|reflexivity].
  - apply one; [reflexivity|]. apply one; [apply mask_ok|reflexivity].
  - apply one; [apply mask_ok|]. apply cat; reflexivity.
Qed.
Lemma get_bit_ok bf : fn_ok (get_bit_fn bf) = true /\ fn_ok (checked_get_bit_fn bf) = true.
Proof.
  split; unfold get_bit_fn, checked_get_bit_fn, get_bit_expr, get_bit_stmts; fn KO;
    try (destruct (is_integer_backed bf); reflexivity); this;
    (apply one; [apply checks_ok; reflexivity|]; apply cat; [apply guards_ok; reflexivity|];
     destruct (is_integer_backed bf); reflexivity).
Qed.
Lemma ret_zero_ok fresh K R bf : R KO = true -> ckl fresh K R (ret_zero bf) = true.
Proof. intro H. unfold ret_zero. destruct (is_integer_backed bf); cbn; rewrite H; reflexivity. Qed.
Lemma get_range_ok bf : fn_ok (get_range_fn bf) = true /\ fn_ok (checked_get_range_fn bf) = true.
Proof.
  pose proof (returns_data bf) as [R1 R2].
  split; unfold get_range_fn, checked_get_range_fn; fn KO; try assumption;
    try (destruct (is_integer_backed bf); reflexivity); this.
  - apply one; [apply checks_ok, ret_zero_ok, R1|]. apply one; [apply checks_ok, ret_zero_ok, R1|].
    destruct (is_integer_backed bf).
    + apply one; [reflexivity|]. apply one; [apply mask_ok|reflexivity].
    + apply one; [apply mask_ok|reflexivity].
  - apply one; [apply checks_ok, err_ok, R2|]. apply one; [apply checks_ok, err_ok, R2|].
    destruct (is_integer_backed bf).
    + apply one; [reflexivity|]. apply one; [apply mask_ok|]. apply one; [reflexivity|].
      apply one; [apply if_ok; [reflexivity|apply err_ok, R2]|reflexivity].
    + apply one; [apply mask_ok|]. apply cat; [|reflexivity].
      apply one; [reflexivity|]. apply one; [|reflexivity].
      cbn. unfold data_ty. destruct (b_ty bf); reflexivity.
Qed.
Lemma builder_new_ok bf d : fn_ok (builder_new_fn dx bf d) = true.
Proof. unfold builder_new_fn. cbv zeta. destruct (a_new (b_args bf)); fn KE; [reflexivity|apply new_stmts_ok]. Qed.
Lemma with_ok bf f : fn_ok (with_fn bf f) = true /\ fn_ok (checked_with_fn bf f) = true.
Proof. split; unfold with_fn, checked_with_fn; fn KE; apply from_var_ok; auto; discriminate. Qed.
Lemma debug_ok bf : fn_ok (debug_fn bf) = true.
Proof.
  unfold debug_fn. fn KO. this. apply one; [reflexivity|]. apply flat. intro f.
  apply cat; [apply extract_ok; discriminate|reflexivity].
Qed.

Lemma impl_ok bf g : In g (impl_fns dx bf) -> fn_ok g = true.
Proof.
  assert (M : forall (h : field -> fn) p, (forall f, fn_ok (h f) = true) ->
              In g (map h (filter p (b_fields bf))) -> fn_ok g = true)
    by (intros h p H I; apply in_map_iff in I as (f & <- & _); apply H).
  assert (O : forall b l, (In g l -> fn_ok g = true) -> In g (opt b l) -> fn_ok g = true)
    by (intros [] l H; [exact H|intros []]).
  unfold impl_fns. intro H. cbv zeta in H.
  apply in_app_or in H as [H|H].
  { revert H. apply O. intros [<-|[<-|[]]]; [exact (proj1 (new_fns_ok bf))|exact (proj2 (new_fns_ok bf))]. }
  apply in_app_or in H as [H|H].
  { revert H. apply O. unfold conversions. intro H.
    apply in_app_or in H as [H|H].
    { apply in_flat_map in H as (v & _ & [<-|[<-|[]]]); apply from_fn_ok. }
    apply in_app_or in H as [H|H].
    { destruct (is_integer_backed bf); [destruct H|].
      apply in_flat_map in H as (v & _ & [<-|[<-|[<-|[<-|[]]]]]);
        [exact (proj1 (from_slice_ok bf v false))|exact (proj1 (from_slice_ok bf v true))
        |exact (proj2 (from_slice_ok bf v false))|exact (proj2 (from_slice_ok bf v true))]. }
    apply in_app_or in H as [H|H].
    { apply in_map_iff in H as (v & <- & _). apply into_fn_ok. }
    destruct (is_integer_backed bf); [destruct H|].
    apply in_flat_map in H as (v & _ & [<-|[<-|[]]]); [exact (proj1 (into_slice_ok bf v))|exact (proj2 (into_slice_ok bf v))]. }
  apply in_app_or in H as [H|H]; [exact (M _ _ (getter_fn_ok bf) H)|].
  apply in_app_or in H as [H|H].
  { apply in_flat_map in H as (f & _ & [<-|[<-|[]]]); [apply setter_fn_ok|apply checked_setter_fn_ok]. }
  apply in_app_or in H as [H|H].
  { revert H. apply O. intro H. apply in_app_or in H as [H|[<-|[]]]; [|apply write_defaults_fn_ok].
    apply in_flat_map in H as (v & _ & [<-|[<-|[]]]); apply write_fn_ok. }
  apply in_app_or in H as [H|H].
  { revert H. apply O. intros [<-|[<-|[<-|[<-|[<-|[<-|[<-|[<-|[]]]]]]]]];
      [exact (proj1 (set_bit_ok bf))|exact (proj2 (set_bit_ok bf))|exact (proj1 (set_range_ok bf))
      |exact (proj2 (set_range_ok bf))|exact (proj1 (get_bit_ok bf))|exact (proj2 (get_bit_ok bf))
      |exact (proj1 (get_range_ok bf))|exact (proj2 (get_range_ok bf))]. }
  apply in_app_or in H as [H|H].
  { revert H. apply O. intros [<-|[<-|H]]; [apply clear_all_fn_ok|apply clear_all_fn_ok|].
    apply in_app_or in H as [H|H];
      [exact (M _ _ (fun f => proj1 (clear_fn_ok bf f)) H)|exact (M _ _ (fun f => proj2 (clear_fn_ok bf f)) H)]. }
  revert H. apply O. intros [<-|H]; [apply invert_all_fn_ok|].
  apply in_app_or in H as [H|H];
    [exact (M _ _ (fun f => proj1 (invert_fn_ok bf f)) H)|exact (M _ _ (fun f => proj2 (invert_fn_ok bf f)) H)].
Qed.
Lemma emitted_ok bf g :
  In g (impl_fns dx bf ++ map snd (trait_fns dx bf) ++ builder_fns dx bf) -> fn_ok g = true.
Proof.
  intro H. apply in_app_or in H as [H|H]; [exact (impl_ok bf g H)|]. apply in_app_or in H as [H|H].
  - unfold trait_fns in H. rewrite !map_app in H.
    apply in_app_or in H as [H|H].
    { destruct (a_from_traits (b_args bf)); [|destruct H].
      destruct H as [<-|[<-|[]]]; [apply trait_from_ok|apply trait_into_ok]. }
    apply in_app_or in H as [H|H].
    { destruct (a_default (b_args bf)); [|destruct H]. destruct H as [<-|[]]. apply default_fn_ok. }
    destruct (a_debug (b_args bf)); [|destruct H]. destruct H as [<-|[]]. apply debug_ok.
  - unfold builder_fns in H. destruct (a_builder (b_args bf)); [|destruct H].
    apply in_app_or in H as [[<-|[<-|[]]]|H]; [apply builder_new_ok|apply builder_new_ok|].
    apply in_app_or in H as [H|[<-|[]]]; [|reflexivity].
    apply in_flat_map in H as (f & _ & [<-|[<-|[]]]); [exact (proj1 (with_ok bf f))|exact (proj2 (with_ok bf f))].
Qed.

(** Every run of every emitted function, with any calls of the others: the ignored
    fields of the receiver are the same afterwards, also after a panic; a bitfield
    or builder made without a receiver has the default values, one made from a
    receiver has the receiver's. *)
Theorem C71_ignored X (d : X) bf g i r i' :
  In g (impl_fns dx bf ++ map snd (trait_fns dx bf) ++ builder_fns dx bf) ->
  run d (impl_fns dx bf) g i r i' ->
  i' = i
  /\ match r with
     | Stop => True
     | Return _ => False
     | Value v =>
         match fn_ret g with
         | TSelf | TBuilder => v = Ext (match fn_recv g with NoRecv => d | _ => i end)
         | TRes TSelf | TRes TBuilder => v = Ext (match fn_recv g with NoRecv => d | _ => i end) \/ v = Other
         | _ => v = Other
         end
     end.
Proof.
  intros H HR. destruct (sound d (impl_fns dx bf) (impl_ok bf)) as (_ & _ & _ & _ & _ & S).
  exact (S g i r i' HR (emitted_ok bf g H)).
Qed.
End Functions.

(** Default expressions as they are usually written meet the condition. *)
Lemma written_constant f : constant (SpecEmit.written f) = true.
Proof. unfold SpecEmit.written. destruct (f_default f) as [[z|b|l|t]|]; try reflexivity. destruct (z <? 0)%Z; reflexivity. Qed.

(** Some runs, without panics and without loops. *)
Lemma run_eq {X} (d : X) fns f i r s i' :
  evb d fns (fn_body f) (start f i, i) (Value r) s -> snd s = i' -> run d fns f i (Value r) i'.
Proof. intros H <-. exact (run_fn d fns f i (Value r) s H). Qed.
Lemma this_ext {X} (d : X) fns e s j s' : ev d fns e s (Value (Ext j)) s' -> ev d fns (EThis e) s (Value (Ext j)) s'.
Proof. intro H. exact (ev_this d fns e s _ s' H). Qed.
Ltac run1 :=
  match goal with
  | |- ev _ _ (EVar _) _ _ _ => eapply ev_var; reflexivity
  | |- ev _ _ (EStruct _ _) _ _ _ => eapply (ev_struct _ _ _ _ _ (Value Other))
  | |- ev _ _ (EThis _) _ _ _ => eapply this_ext
  | |- ev _ _ (EUn UDeref _) _ _ _ => eapply (ev_deref _ _ _ _ (Value _))
  | |- ev _ _ (EBuilder _) _ _ _ => eapply ev_builder
  | |- ev _ _ _ _ _ _ => eapply ev_parts; [reflexivity|]
  | |- evs _ _ [] _ _ _ => apply evs_nil
  | |- evs _ _ (_ :: _) _ _ _ => eapply evs_cons
  | |- evst _ _ (SLet _ _ _ _) _ _ _ => eapply st_let
  | |- evst _ _ (SSet _ _) _ _ _ => eapply st_set
  | |- evst _ _ (SExpr _) _ _ _ => eapply st_expr
  | |- evl _ _ [] _ _ _ => apply evl_nil
  | |- evl _ _ (_ :: _) _ _ _ => eapply evl_cons
  | |- evb _ _ (Block _ None) _ _ _ => eapply evb_none
  | |- evb _ _ (Block _ (Some _)) _ _ _ => eapply evb_some
  end.

(** [#[bitfield(u8, builder = true)] struct Tagged { a: u8, #[bits(ignore = true)] id: u8 }]:
    [set_a] keeps the ignored field, [new] gives it the default value (and calls
    [set_a] for the rest), [build] hands it on. *)
Definition tagged : bitfield :=
  SpecEmit.parsed (Parser.mkRDecl true VisPublic "Tagged" (Some (Parser.RPath "u8")) [("builder", "true")]
    [PropParse.fld "a" Parser.ANone (Parser.RPath "u8") (PInt 0);
     PropParse.fld "id" (Parser.AList Parser.RNoBits [("ignore", "true")]) (Parser.RPath "u8") (PInt 0)]).
Definition tagged_fns : list fn := impl_fns SpecEmit.written tagged.
Definition set_a : fn := setter_fn tagged (SpecEmit.named tagged "a").
Lemma set_a_run X (d i : X) : run d tagged_fns set_a i (Value Other) i.
Proof.
  eapply run_eq.
  - let b := eval vm_compute in (fn_body set_a) in change (fn_body set_a) with b.
    repeat run1.
  - reflexivity.
Qed.
Example C71_ex :
  (forall f, constant (SpecEmit.written f) = true)
  /\ List.length (b_ignored tagged) = 1%nat
  /\ In set_a tagged_fns /\ In (new_fn SpecEmit.written tagged) tagged_fns
  /\ In (build_fn tagged) (builder_fns SpecEmit.written tagged)
  /\ forall X (d i : X),
       run d tagged_fns set_a i (Value Other) i
       /\ run d tagged_fns (new_fn SpecEmit.written tagged) i (Value (Ext d)) i
       /\ run d tagged_fns (build_fn tagged) i (Value (Ext i)) i.
Proof.
  split; [exact written_constant|]. split; [vm_compute; reflexivity|].
  assert (A : In set_a tagged_fns).
  { unfold tagged_fns, impl_fns. cbv zeta. apply in_or_app. right. apply in_or_app. right. apply in_or_app. right.
    apply in_or_app. left. apply in_flat_map. exists (SpecEmit.named tagged "a"). split; [left; vm_compute; reflexivity|left; reflexivity]. }
  split; [exact A|]. split; [left; reflexivity|].
  split; [unfold builder_fns; apply in_or_app; right; apply in_or_app; right; left; reflexivity|].
  intros X d i. split; [apply set_a_run|]. split.
  - eapply run_eq.
    + let b := eval vm_compute in (fn_body (new_fn SpecEmit.written tagged)) in
      change (fn_body (new_fn SpecEmit.written tagged)) with b.
      eapply evb_some.
      * eapply evl_cons; [repeat run1|]. cbn [fst snd map_value].
        eapply evl_cons; [|repeat run1]. eapply st_expr.
        eapply (ev_call _ _ _ _ _ _ _ _ _ _ _ set_a (Value Other));
          [repeat run1|reflexivity|reflexivity|reflexivity|exact A|reflexivity|discriminate|apply set_a_run].
      * repeat run1.
    + reflexivity.
  - eapply run_eq; [unfold build_fn, method; cbn [fn_body]; repeat run1|reflexivity].
Qed.

(** A function that replaces the whole bitfield has a run that resets the ignored
    fields; one that returns a new bitfield has a run that loses them. *)
Definition reset_fn : fn :=
  mkFn "reset" false ByMut [] TUnit (Block [this_self; SSet (EUn UDeref (V "this")) (EStruct PSelf (lit 0))] None).
Definition cleared_fn : fn := mkFn "cleared" false ByRef [] TSelf (Block [] (Some (EStruct PSelf (lit 0)))).
Example C71_reset X (d i : X) :
  run d [] reset_fn i (Value Other) d /\ run d [] cleared_fn i (Value (Ext d)) i.
Proof.
  split; (eapply run_eq; [unfold reset_fn, cleared_fn, this_self, let_; cbn [fn_body]; repeat run1|reflexivity]).
Qed.
