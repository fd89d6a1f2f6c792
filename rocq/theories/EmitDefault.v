(** Default values as expressions, and the statements for lists of fields:
    GH:126-161, 225-285, 737-756, 872-915. *)
From Coq Require Import ZArith List Bool String Lia.
From Verif Require Import RustInt Syntax GenInt GenArr Spec BitsLemmas CoreLemmas Rust RustLemmas Surface Emit EmitVocab
  EmitLemmas EmitArr EmitArrPut EmitField.
From Verif Require Gen.
Import ListNotations.
Open Scope string_scope.
Open Scope list_scope.
Open Scope Z_scope.

(** ** Default expressions *)

Lemma ev_constant G C h e t v pre : constant h e = Some (t, v) -> ev G C h e t pre (fun _ _ => Val v).
Proof.
  intros H. destruct e; try discriminate H; cbn [constant] in H.
  - inversion H; subst. eexists. split; [reflexivity|]. reflexivity.
  - inversion H; subst. eexists. split; [reflexivity|]. reflexivity.
  - destruct o; [discriminate H|destruct e; try discriminate H | discriminate H].
    destruct (int_of (lit_ty h s)) as [[[] w]|] eqn:E; [|discriminate H|discriminate H]. inversion H; subst.
    eexists. split; [cbn [elab]; rewrite E; reflexivity|]. reflexivity.
  - destruct e; try discriminate H. destruct (lit_ty _ _) eqn:E; try discriminate H. inversion H; subst.
    eexists. split; [eapply E_repeat; cbn [elab]; rewrite E; reflexivity|]. reflexivity.
  - inversion H; subst. eexists. split; [reflexivity|]. reflexivity.
  - inversion H; subst. eexists. split; [reflexivity|]. reflexivity.
Qed.

Lemma of_type_ok G C h e t v pre : of_type (constant h e) t = Some v -> ev G C h e t pre (fun _ _ => Val v).
Proof.
  unfold of_type. destruct (constant h e) as [[t' v']|] eqn:E; [|discriminate].
  destruct (ty_eqb t' t) eqn:Et; [|discriminate]. apply ty_eqb_eq in Et. subst. intros H. inversion H; subst.
  apply ev_constant. exact E.
Qed.
Lemma of_int_ok G C h e p : of_int (constant h e) = Some p ->
  exists z, p = PInt z /\ exists te q, int_of te = Some q /\ forall pre, ev G C h e te pre (fun _ _ => Val (RI z)).
Proof.
  unfold of_int. destruct (constant h e) as [[te []]|] eqn:E; try discriminate.
  destruct (int_of te) as [q|] eqn:Eq; [|discriminate]. intros H; inversion H; subst. exists z. split; [reflexivity|].
  exists te, q. split; [exact Eq|]. intros pre. apply ev_constant. exact E.
Qed.
Lemma in_backing_ok T e p : in_backing T e = Some p -> exists z, p = PInt z /\
  ((exists z0, e = lit z0 /\ z = ucast (ity_bits T) z0) \/
   (open_lit e = None /\ forall G C pre, ev G C None e (TI T) pre (fun _ _ => Val (RI z)))).
Proof.
  unfold in_backing. intros H.
  assert (A : (exists z0, e = lit z0 /\ p = PInt (ucast (ity_bits T) z0)) \/
     match open_lit e with None => p_int (of_type (constant None e) (TI T)) | Some _ => None end = Some p).
  { destruct e; try (right; exact H). destruct s; [right; exact H|]. inversion H. left. eexists. split; reflexivity. }
  clear H. destruct A as [(z0 & -> & ->)|A].
  - eexists. split; [reflexivity|]. left. eauto.
  - destruct (open_lit e) eqn:Eo; [discriminate A|].
    destruct (of_type (constant None e) (TI T)) as [[]|] eqn:E; try discriminate A. inversion A; subst.
    eexists. split; [reflexivity|]. right. split; [reflexivity|]. intros. apply of_type_ok. exact E.
Qed.

Section Lists.
Variables (bf : bitfield) (G : genv) (m : mode).
Hypothesis Hback : backing_ok (b_ty bf).

Lemma default_arg C f e p pre : dval bf f e = Some p -> write_arg bf G C f e p pre.
Proof.
  unfold dval, write_arg. destruct (has_setter f).
  - unfold call_arg. destruct (f_ty f) as [t|len|].
    + assert (A : match t with TBool => True | _ => of_int (constant None e) = Some p -> match p with
         PInt z => exists te q, int_of te = Some q /\ ev G C None e te pre (fun _ _ => Val (RI z)) | _ => False end end).
      { destruct t; try exact I; intros H; destruct (of_int_ok G C None e p H) as (z & -> & te & q & H1 & H2); exists te, q; split; auto. }
      destruct t; try exact A.
      destruct (of_type _ _) as [[]|] eqn:E; try discriminate. intros H; inversion H; subst. apply of_type_ok. exact E.
    + destruct (is_integer_backed bf).
      * intros H. destruct (of_int_ok G C _ e p H) as (z & -> & te & q & H1 & H2). split; [reflexivity|]. exists te, q. split; auto.
      * destruct (of_type _ _) as [[]|] eqn:E; try discriminate. intros H; inversion H; subst. split; [reflexivity|]. apply of_type_ok. exact E.
    + destruct (of_type _ _) as [[]|] eqn:E; try discriminate. intros H; inversion H; subst. apply of_type_ok. exact E.
  - unfold put_arg, put_arg_i, put_arg_a. destruct (f_ty f) as [t|len|].
    + destruct (b_ty bf) as [T|n|] eqn:Hty; [| |destruct Hback].
      * assert (A : in_backing T e = Some p -> match p with PInt z => (exists z0, e = lit z0 /\ z = ucast (ity_bits T) z0) \/
           (open_lit e = None /\ ev G (("mask", (false, TI T)) :: C) None e (TI T) (fun r s => exists v s0, s = push "mask" v s0 /\ pre r s0) (fun _ _ => Val (RI z))) | _ => False end).
        { intros H. destruct (in_backing_ok T e p H) as (z & -> & [H1|[H1 H2]]); [left; exact H1 | right; split; auto]. }
        destruct t; try exact A.
        destruct (of_type _ _) as [[]|] eqn:E; try discriminate. intros H; inversion H; subst. apply of_type_ok. exact E.
      * assert (A : match t with TBool => True | _ => of_int (constant (cast_hint e (TI U128)) e) = Some p -> match p with
           PInt z => exists te q, int_of te = Some q /\ ev G C (cast_hint e (TI U128)) e te pre (fun _ _ => Val (RI z)) | _ => False end end).
        { destruct t; try exact I; intros H; destruct (of_int_ok G C _ e p H) as (z & -> & te & q & H1 & H2); exists te, q; split; auto. }
        destruct t; try exact A.
        destruct (of_type _ _) as [[]|] eqn:E; try discriminate. intros H; inversion H; subst. apply of_type_ok. exact E.
    + destruct (b_ty bf) as [T|n|] eqn:Hty; [| |destruct Hback].
      * intros H. destruct (in_backing_ok T e p H) as (z & -> & [H1|[H1 H2]]); [left; exact H1 | right; split; auto].
      * destruct (open_lit e) eqn:Eo; [discriminate|].
        destruct (of_type _ _) as [[]|] eqn:E; try discriminate. intros H; inversion H; subst. split; [reflexivity|]. apply of_type_ok. exact E.
    + destruct (of_type _ _) as [[]|] eqn:E; try (destruct (b_ty bf); discriminate). intros H. destruct (b_ty bf); [| |destruct Hback]; inversion H; subst; apply of_type_ok; exact E.
Qed.

(** Every field can be written. *)
Definition writes (bc : bool) : Prop := forall f, In f (b_fields bf) -> forall C e p i (pre : rt -> st -> Prop),
  (forall r s, pre r s -> calls bf m r) ->
  place G C (this bc) = Some (TSelf, true, spot (home bc) i) -> write_arg bf G C f e p pre ->
  step bf bc G m C i (write_stmts bf bc f e) (write_ctx bf f) (Gen.assign m bf f p) pre.
Lemma knows_writes bc : knows bf bc G -> (forall f, In f (b_fields bf) -> small bf f) -> writes bc.
Proof. intros K Hs f Hf C e p i pre Hc Hp He. apply step_write; auto. exact (k_links _ _ _ K). Qed.

Hypothesis KL : links bf G.
Hypothesis W : writes false.
Hypothesis Hs : forall f, In f (b_fields bf) -> small bf f.
Variable dx : field -> expr.
Hypothesis Hd : forall f p, In f (b_fields bf) -> f_default f = Some p -> dval bf f (dx f) = Some p.

(** GH:182-222 *)
Lemma steps_zero l C i (pre : rt -> st -> Prop) : (forall f, In f l -> In f (b_fields bf)) ->
  stable false i pre -> (forall r s, pre r s -> calls bf m r) ->
  place G C (V "this") = Some (TSelf, true, spot "this" i) ->
  exists CL, among temps CL /\
    step bf false G m C i (flat_map (fun f => assign bf f (zero_expr bf f)) l) CL (run_all (Gen.set_zero m bf) l) pre.
Proof.
  intros Hl Hst Hc Hp.
  apply (step_all bf false G m Hback C i (fun f => assign bf f (zero_expr bf f)) (Gen.set_zero m bf) pre l Hst) with (CL := []); [|constructor].
  intros f CL Hf HCL. exists (write_ctx bf f). split; [apply write_ctx_temps; assumption|].
  refine (W f (Hl f Hf) _ _ _ i pre Hc _ _).
  - apply (place_temps false); assumption.
  - apply zero_arg; auto.
Qed.
(** GH:138-161 *)
Lemma steps_default l C i (pre : rt -> st -> Prop) : (forall f, In f l -> In f (b_fields bf) /\ has_default f = true) ->
  stable false i pre -> (forall r s, pre r s -> calls bf m r) ->
  place G C (V "this") = Some (TSelf, true, spot "this" i) ->
  exists CL, among temps CL /\
    step bf false G m C i (flat_map (default_stmts dx bf) l) CL (run_all (Gen.set_default m bf) l) pre.
Proof.
  intros Hl Hst Hc Hp.
  apply (step_all bf false G m Hback C i (default_stmts dx bf) (Gen.set_default m bf) pre l Hst) with (CL := []); [|constructor].
  intros f CL Hf HCL. exists (write_ctx bf f). split; [apply write_ctx_temps; assumption|].
  destruct (Hl f Hf) as [Hf1 Hf2]. unfold Gen.set_default, has_default in *.
  destruct (f_default f) as [p|] eqn:Ep; [|discriminate].
  refine (W f Hf1 _ _ _ i pre Hc _ _).
  - apply (place_temps false); assumption.
  - apply default_arg. apply Hd; assumption.
Qed.
(** GH:126-135 *)
Lemma steps_defaults C i (pre : rt -> st -> Prop) : stable false i pre -> (forall r s, pre r s -> calls bf m r) ->
  place G C (V "this") = Some (TSelf, true, spot "this" i) ->
  exists CL, among temps CL /\ step bf false G m C i (defaults dx bf) CL (Gen.set_defaults m bf) pre.
Proof. intros. apply steps_default; auto. intros f Hf. apply filter_In in Hf. exact Hf. Qed.

(** GH:872-915 *)
Lemma steps_new d C i (pre : rt -> st -> Prop) : stable false i pre -> (forall r s, pre r s -> calls bf m r) ->
  place G C (V "this") = Some (TSelf, true, spot "this" i) ->
  exists CL, among temps CL /\ step bf false G m C i (new_impl dx bf d) CL (Gen.new_impl m bf d) pre.
Proof.
  intros Hst Hc Hp. unfold new_impl.
  destruct (steps_zero (filter (fun f => negb (d && has_default f)) (b_fields bf)) C i pre) as (C1 & A1 & S1); auto.
  { intros f Hf. apply filter_In in Hf. apply Hf. }
  destruct d.
  - destruct (steps_defaults (C1 ++ C) i pre) as (C2 & A2 & S2); auto.
    { apply (place_temps false); assumption. }
    exists (C2 ++ C1). split; [apply among_app; assumption|]. rewrite app_nil_r.
    eapply step_ext; [eapply step_seq; eassumption|]. intros st0 _. unfold Gen.new_impl, bind. destruct (run_all _ _ _); [|reflexivity].
    destruct (Gen.set_defaults m bf a); reflexivity.
  - destruct (steps_default (filter (fun f => f_reserved f && has_default f) (b_fields bf)) (C1 ++ C) i pre) as (C2 & A2 & S2); auto.
    { intros f Hf. apply filter_In in Hf. destruct Hf as [H1 H2]. apply andb_true_iff in H2. tauto. }
    { apply (place_temps false); assumption. }
    exists (C2 ++ C1). split; [apply among_app; assumption|]. cbn [app].
    eapply step_ext; [eapply step_seq; eassumption|]. reflexivity.
Qed.
End Lists.

Lemma step_all_of {A X} bf G m (Hback : backing_ok (b_ty bf)) C i (S : A -> list stmt) (op : X -> A -> store -> outcome store)
    (pre : X -> rt -> st -> Prop) (Q : X -> Prop) (l : list A) : (forall x, Q x -> stable false i (pre x)) ->
  (forall a CL, In a l -> among temps CL ->
     exists CL', among temps CL' /\ forall x, Q x -> step bf false G m (CL ++ C) i (S a) CL' (op x a) (pre x)) ->
  forall CL, among temps CL ->
  exists CL', among temps CL' /\ forall x, Q x -> step bf false G m (CL ++ C) i (flat_map S l) CL' (run_all (op x) l) (pre x).
Proof.
  intros Hst. induction l as [|a l IH]; intros H CL HCL; cbn [flat_map].
  - exists []. split; [constructor|]. intros x _. eapply step_ext; [apply step_nil|]. reflexivity.
  - destruct (H a CL (or_introl eq_refl) HCL) as (CL1 & HCL1 & S1).
    destruct (IH (fun b CL Hb => H b CL (or_intror Hb)) (CL1 ++ CL) (among_app _ _ _ HCL1 HCL)) as (CL2 & HCL2 & S2).
    exists (CL2 ++ CL1). split; [apply among_app; assumption|]. intros x Hx. specialize (S2 x Hx).
    rewrite <- app_assoc in S2. eapply step_ext; [eapply step_seq; [exact Hback | exact (Hst x Hx) | exact (S1 x Hx) | exact S2]|]. reflexivity.
Qed.
(** GH:737-756 *)
Lemma steps_copy bf G m (Hback : backing_ok (b_ty bf)) (K : knows bf false G) sel C i mu ts :
  (forall f, In f (b_fields bf) -> small bf f) ->
  place G C (V "this") = Some (TSelf, true, spot "this" i) ->
  lookup "bits" C = Some (mu, ts) -> is_ref ts = false -> whole_ty bf ts ->
  exists CL, among temps CL /\ forall src, ok_store bf src ->
    step bf false G m C i (copy_all bf sel) CL (Gen.copy_fields m bf sel src) (has_bits bf m src).
Proof.
  intros Hs Hp Hb Hr Hw. unfold copy_all, Gen.copy_fields.
  apply (step_all_of bf G m Hback C i (set_from_var bf true false false false)
    (fun src f s => p <- Gen.extract_src m bf f false src ;; Gen.assign m bf f (Gen.value_variable f p) s)
    (has_bits bf m) (ok_store bf) _ (fun src _ => bits_stable bf false G m K i src)) with (CL := []); [|constructor].
  intros f CL Hf HCL. apply filter_In in Hf. destruct Hf as [Hf _].
  exists (write_ctx bf f ++ ext_ctx bf f). split; [apply among_app; [apply write_ctx_temps; assumption | apply ext_ctx_temps; assumption]|].
  intros src Hok. replace (set_from_var bf true false false false f) with
    (extract bf false false true false f ++ write_stmts bf false f (value_var f)).
  - eapply (step_copy bf false G m Hback (k_links _ _ _ K) K); eauto.
    + apply (place_temps false); assumption.
    + rewrite (lookup_among temps) by (assumption || (cbn; intuition discriminate)). exact Hb.
  - unfold set_from_var, write_stmts. rewrite andb_true_r. cbn [andb]. rewrite !andb_false_r. cbn [andb app]. reflexivity.
Qed.
