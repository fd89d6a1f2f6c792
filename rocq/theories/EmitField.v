(** The fragments for one field and for lists of fields, both kinds of storage. *)
From Coq Require Import ZArith List Bool String Lia.
From Verif Require Import RustInt Syntax GenInt GenArr Spec BitsLemmas CoreLemmas Rust RustLemmas Surface Emit EmitVocab
  EmitLemmas EmitArr EmitArrPut.
From Verif Require Gen.
Import ListNotations.
Open Scope string_scope.
Open Scope list_scope.
Open Scope Z_scope.

(** ** Fragments in sequence *)

Lemma frag_app' {A} (P : A -> Prop) (a0 : A) G C ss1 C1 ss2 C2 pre1 post1 (pre2 : A -> rt -> st -> Prop) post2
    (pre : rt -> st -> Prop) post :
  P a0 -> frag G C ss1 C1 pre1 post1 -> (forall a, P a -> frag G C1 ss2 C2 (pre2 a) (post2 a)) ->
  (forall r s, pre r s -> pre1 r s /\
     match post1 r s with
     | Next Q => forall s1, Q s1 -> exists a, P a /\ pre2 a r s1 /\ refines (post2 a r s1) (post r s)
     | Done o => post r s = Done o
     end) ->
  frag G C (ss1 ++ ss2) C2 pre post.
Proof.
  intros P0 H1 H2 Hw h rest tail tr dr Hr.
  destruct (H2 a0 P0 h rest tail tr dr Hr) as (d2 & E2 & _).
  destruct (H1 h (ss2 ++ rest)%list tail tr d2 E2) as (d1 & E1 & R1).
  exists d1. split; [rewrite <- app_assoc; exact E1|].
  intros r s Hs. destruct (Hw r s Hs) as [Hp Hq]. specialize (R1 r s Hp).
  destruct (post1 r s) as [Q|o].
  - destruct R1 as (s1 & HQ & E). destruct (Hq s1 HQ) as (a & Pa & Hp2 & Hf).
    destruct (H2 a Pa h rest tail tr dr Hr) as (d2' & E2' & R2).
    rewrite E2 in E2'. inversion E2'; subst d2'. specialize (R2 r s1 Hp2).
    eapply refines_ok; [exact Hf|]. destruct (post2 a r s1); cbn in *; rewrite E; exact R2.
  - rewrite Hq. exact R1.
Qed.

Lemma wrap_zero t : wrap t 0 = 0.
Proof. destruct t as [[]| | | | | | | | | | |]; reflexivity. Qed.
Lemma wrap_one t : wrap t 1 = 1.
Proof. destruct t as [[]| | | | | | | | | | |]; reflexivity. Qed.

Section Field.
Variables (bf : bitfield) (bc : bool) (G : genv) (m : mode).
Hypothesis Hback : backing_ok (b_ty bf).
(** ** Storage *)

Definition ok_store (st0 : store) : Prop :=
  match b_ty bf, st0 with DInteger _, StI _ | DArray _, StA _ => True | _, _ => False end.
Definition temps : list string := ["mask"; "field_bits"; "value"].
Lemma home_temps : ~ In (home bc) temps.
Proof. destruct bc; cbn; intuition discriminate. Qed.

Lemma put_store f p st0 st1 : Gen.put m bf f p st0 = Val st1 -> ok_store st1.
Proof.
  unfold Gen.put, ok_store. destruct (b_ty bf), st0; try discriminate; unfold bind.
  - destruct (put_int _ _ _ _ _); [|discriminate]. intros H; inversion H. exact I.
  - destruct (put_arr _ _ _ _); [|discriminate]. intros H; inversion H. exact I.
Qed.
Lemma assign_arg_store chk f a st0 st1 q : ok_store st0 -> Gen.assign_arg m bf chk f a st0 = Val (st1, q) -> ok_store st1.
Proof.
  intros H0. unfold Gen.assign_arg. destruct (chk && _ && _).
  - intros H; inversion H; subst; exact H0.
  - unfold bind. destruct (Gen.extract_cast m bf f a) as [[[b mk] v]|]; [|discriminate].
    destruct (chk && _ && _).
    + intros H; inversion H; subst; exact H0.
    + destruct (Gen.put _ _ _ _ _) eqn:E; [|discriminate]. intros H; inversion H; subst. eapply put_store. exact E.
Qed.
Lemma set_field_store f a st0 st1 : ok_store st0 -> Gen.set_field m bf f a st0 = Val st1 -> ok_store st1.
Proof.
  intros H0. unfold Gen.set_field, bind. destruct (Gen.assign_arg m bf false f a st0) as [[s q]|] eqn:E; [|discriminate].
  intros H; inversion H; subst. eapply assign_arg_store; eassumption.
Qed.
Lemma assign_store f p st0 st1 : ok_store st0 -> Gen.assign m bf f p st0 = Val st1 -> ok_store st1.
Proof.
  intros H0. unfold Gen.assign. destruct (has_setter f).
  - unfold bind. destruct (Gen.setter_call_arg m bf f p); [|discriminate]. apply set_field_store. exact H0.
  - apply put_store.
Qed.

(** ** Run time *)

(** Calls of setters do what Gen.v says. *)
Definition checked_answer (o : outcome (store * res unit)) : outcome (value * value) :=
  match o with
  | Val (s', Ok _) => Val (ROk RU, enc_store s')
  | Val (s', Err e) => Val (RErr e, enc_store s')
  | Panic => Panic
  end.
Definition calls (r : rt) : Prop := forall f a st0, In f (b_fields bf) -> has_setter f = true -> shape f a -> ok_store st0 ->
  r_call r (role_name RSetter (f_name f)) (enc_store st0) [enc_fval a] =
    Some (s' <- Gen.set_field m bf f a st0 ;; Val (RU, enc_store s')) /\
  r_call r (role_name RCheckedSetter (f_name f)) (enc_store st0) [enc_fval a] =
    Some (checked_answer (Gen.checked_set_field m bf f a st0)).

(** A fragment that changes the storage by [op]; [CL]: the variables it leaves in
    scope. *)
Definition step (C : tctx) (i : bool) (ss : list stmt) (CL : tctx) (op : store -> outcome store)
    (pre : rt -> st -> Prop) : Prop :=
  forall st0, ok_store st0 ->
  frag G C ss (CL ++ C)%list
    (fun r s => ready m r /\ pre r s /\ has (home bc) i s (enc_store st0))
    (fun r s => out (op st0) (fun st1 s' => ok_store st1 /\
       exists L, among temps L /\ s' = pushes L (store_at (home bc) i (enc_store st1) s))).
Definition stable (i : bool) (pre : rt -> st -> Prop) : Prop :=
  forall r s L v, among temps L -> pre r s -> pre r (pushes L (store_at (home bc) i v s)).

Lemma among_app {A} xs (a b : list (string * A)) : among xs a -> among xs b -> among xs (a ++ b)%list.
Proof. intros H1 H2. apply Forall_app. split; assumption. Qed.
Lemma among_sub {A} xs ys (l : list (string * A)) : (forall x, In x xs -> In x ys) -> among xs l -> among ys l.
Proof. intros H. apply Forall_impl. intros p. apply H. Qed.
Lemma some_store : exists st0, ok_store st0.
Proof.
  unfold ok_store. destruct (b_ty bf) as [t|n|]; [exists (StI 0) | exists (StA []) | destruct Hback]; exact I.
Qed.

Lemma step_seq C i ss1 CL1 op1 ss2 CL2 op2 pre : stable i pre -> step C i ss1 CL1 op1 pre ->
  step (CL1 ++ C) i ss2 CL2 op2 pre ->
  step C i (ss1 ++ ss2) (CL2 ++ CL1) (fun s => s1 <- op1 s ;; op2 s1) pre.
Proof.
  intros Hst H1 H2 st0 Hok. rewrite <- app_assoc. destruct some_store as [sx Hx].
  eapply frag_app' with (P := ok_store) (a0 := sx); [exact Hx | apply H1; exact Hok | intros a Ha; apply H2; exact Ha |].
  intros r s (Hl & Hp & Hh). split; [auto|]. cbv beta. unfold bind. destruct (op1 st0) as [st1|]; cbn [out]; [|reflexivity].
  intros s1 (Ok1 & L & HL & ->). exists st1. split; [exact Ok1|]. split.
  { split; [exact Hl|]. split; [apply Hst; assumption|].
    eapply has_pushes; [exact HL | exact home_temps | eapply has_store; exact Hh]. }
  destruct (op2 st1) as [st2|]; cbn [out refines]; [|reflexivity].
  intros s2 (Ok2 & L2 & HL2 & ->). split; [exact Ok2|]. exists (L2 ++ L)%list. split; [apply among_app; assumption|].
  rewrite (store_pushes temps) by (assumption || exact home_temps). rewrite store_store, pushes_app. reflexivity.
Qed.
Lemma step_nil C i pre : step C i [] [] (fun s => Val s) pre.
Proof.
  intros st0 Hok. eapply frag_weaken; [apply (frag_nil G C (fun _ _ => True))|]. intros r s (Hl & Hp & Hh). split; [exact I|].
  cbn [out refines]. intros s' ->. split; [exact Hok|]. exists []. split; [constructor|]. cbn [pushes].
  rewrite store_id by exact Hh. reflexivity.
Qed.
Lemma step_ext C i ss CL op op' pre : step C i ss CL op pre -> (forall st0, ok_store st0 -> op st0 = op' st0) ->
  step C i ss CL op' pre.
Proof. intros H E st0 Hok. rewrite <- E by exact Hok. apply H. exact Hok. Qed.
Lemma step_all {A} C i (S : A -> list stmt) (op : A -> store -> outcome store) pre (l : list A) : stable i pre ->
  (forall a CL, In a l -> among temps CL ->
     exists CL', among temps CL' /\ step (CL ++ C) i (S a) CL' (op a) pre) ->
  forall CL, among temps CL ->
  exists CL', among temps CL' /\ step (CL ++ C) i (flat_map S l) CL' (run_all op l) pre.
Proof.
  intros Hst. induction l as [|a l IH]; intros H CL HCL; cbn [flat_map].
  - exists []. split; [constructor|]. eapply step_ext; [apply step_nil|]. reflexivity.
  - destruct (H a CL (or_introl eq_refl) HCL) as (CL1 & HCL1 & S1).
    destruct (IH (fun b CL Hb => H b CL (or_intror Hb)) (CL1 ++ CL)%list (among_app _ _ _ HCL1 HCL)) as (CL2 & HCL2 & S2).
    exists (CL2 ++ CL1)%list. split; [apply among_app; assumption|].
    rewrite <- app_assoc in S2. eapply step_ext; [eapply step_seq; eassumption|]. reflexivity.
Qed.

(** ** Writing without setter *)

Definition put_arg (C : tctx) (f : field) (e : expr) (p : pval) (pre : rt -> st -> Prop) : Prop :=
  match b_ty bf with
  | DInteger T => put_arg_i G T C f e p pre
  | DArray _ => put_arg_a G C f e p pre
  | DCustom => False
  end.
Definition put_ctx (f : field) : tctx := match b_ty bf with DInteger T => put_ctx_i T f | _ => [] end.
Lemma put_ctx_temps f : among temps (put_ctx f).
Proof.
  unfold put_ctx, put_ctx_i. destruct (b_ty bf); [|constructor|constructor]. destruct (f_ty f) as [[]| |]; am.
Qed.

Hypothesis KL : links bf G.
Hypothesis K : knows bf bc G.

Lemma step_put C f e p i pre : In f (b_fields bf) -> small bf f ->
  place G C (this bc) = Some (TSelf, true, spot (home bc) i) -> put_arg C f e p pre ->
  step C i (put bf bc f e) (put_ctx f) (Gen.put m bf f p) pre.
Proof.
  intros Hf Hs Hp He st0 Hok. unfold put_arg, put_ctx, Gen.put, ok_store in *. destruct (b_ty bf) as [T|n|] eqn:Hty; [ | |contradiction].
  - destruct st0 as [z|]; [|contradiction]. cbn [enc_store].
    rewrite <- Hty in Hback.
    eapply frag_weaken; [exact (frag_put_i bf bc G m T Hty Hback K C f e p i pre Hf Hs Hp He z)|].
    intros r s (Hm & Hpre & Hh). split; [auto|]. cbv beta. unfold bind.
    destruct (put_int m (ity_bits T) f p z); cbn [out refines]; [|reflexivity].
    intros s' (L & HL & ->). split; [exact I|]. exists L. split; [|reflexivity].
    eapply among_sub; [|exact HL]. cbn. tauto.
  - destruct st0 as [|l]; [contradiction|]. cbn [enc_store app].
    rewrite <- Hty in Hback.
    eapply frag_weaken; [exact (frag_put_a bf bc G m n Hty Hback K C f e p i pre l Hf Hs Hp He)|].
    intros r s (Hm & Hpre & Hh). split; [auto|]. cbv beta. unfold bind.
    destruct (put_arr m f p l); cbn [out refines]; [|reflexivity].
    intros s' ->. split; [exact I|]. exists []. split; [constructor | reflexivity].
Qed.

(** ** Writing through the setter: GH:574-629 *)

Definition call_arg (C : tctx) (f : field) (e : expr) (p : pval) (pre : rt -> st -> Prop) : Prop :=
  match f_ty f, p with
  | DInteger TBool, PBool b => ev G C (Some (TI TBool)) e (TI TBool) pre (fun _ _ => Val (RB b))
  | DInteger TBool, _ => False
  | DInteger _, PInt z => exists te q, int_of te = Some q /\ ev G C None e te pre (fun _ _ => Val (RI z))
  | DCustom, PCustom t => ev G C (Some (TUser (f_name f))) e (TUser (f_name f)) pre (fun _ _ => Val (RC t))
  | DArray len, PInt z => is_integer_backed bf = true /\
      exists te q, int_of te = Some q /\ ev G C (cast_hint e (TI U128)) e te pre (fun _ _ => Val (RI z))
  | DArray len, PArr l => is_integer_backed bf = false /\
      ev G C (Some (TArr U8 len)) e (TArr U8 len) pre (fun _ _ => Val (RA l))
  | _, _ => False
  end.
Lemma arg_shape f p a : Gen.setter_call_arg m bf f p = Val a -> shape f a.
Proof.
  unfold Gen.setter_call_arg, shape. destruct (f_ty f) as [t|len|].
  - destruct t, p; try discriminate; intros H; inversion H; exact I.
  - destruct p; try discriminate; destruct (is_integer_backed bf); try discriminate.
    + unfold bind. destruct (unpack_int _ _ _); [|discriminate]. intros H; inversion H; exact I.
    + intros H; inversion H; exact I.
  - destruct p; try discriminate. intros H; inversion H; exact I.
Qed.
Lemma ev_call_arg C f e p pre : small bf f -> call_arg C f e p pre ->
  ev G C (Some (field_ty f))
    (match f_ty f with
     | DInteger TBool => e
     | DInteger _ => as_any e
     | DCustom => e
     | DArray len => if is_integer_backed bf then unpack "__int_val" e len else e
     end) (field_ty f) (fun r s => ready m r /\ pre r s)
    (fun _ _ => a <- Gen.setter_call_arg m bf f p ;; Val (enc_fval a)).
Proof.
  intros Hs H. unfold call_arg, field_ty, Gen.setter_call_arg in *. destruct (f_ty f) as [t|len|] eqn:Ef.
  - assert (Hb : t = TBool \/ t <> TBool) by (destruct t; [right; discriminate .. | left; reflexivity]).
    destruct Hb as [->|Hb].
    + destruct p; try contradiction. eapply ev_weaken; [exact H|]. intros r s [_ Hp]. split; [exact Hp|reflexivity].
    + assert (H' : match p with PInt z => exists te q, int_of te = Some q /\ ev G C None e te pre (fun _ _ => Val (RI z)) | _ => False end)
        by (destruct t; try exact H; congruence).
      destruct p; try contradiction. destruct H' as (te & q & Hq & d & E & R). pose proof (int_of_int t Hb) as It.
      assert (R' : ev G C (Some (TI t)) (as_any e) (TI t) (fun r s => ready m r /\ pre r s)
         (fun _ _ => Val (RI (cast t z)))).
      { unfold as_any. eexists. split; [eapply E_cast_any; [exact It | exact E | exact Hq]|].
        intros r s [_ Hp]. run1. rewrite R by exact Hp. reflexivity. }
      destruct t; try exact R'; congruence.
  - destruct p; try contradiction.
    + destruct H as [-> (te & q & Hq & E)].
      destruct Hs as (_ & _ & _ & Hs4 & _).
      eapply ev_weaken.
      { eapply (ev_unpack G C _ m "__int_val" e len te q (fun r s => ready m r /\ pre r s) (fun _ _ => Val z));
          [cbn; tauto | exact Hq | exact (Hs4 _ Ef) | tauto |].
        eapply ev_weaken; [exact E|]. intros r s [_ Hp]. split; [exact Hp | reflexivity]. }
      intros r s Hp. split; [exact Hp|]. cbn [bind]. destruct (unpack_int m len (ucast 128 z)); reflexivity.
    + destruct H as [-> E]. eapply ev_weaken; [exact E|]. intros r s [_ Hp]. split; [exact Hp | reflexivity].
  - destruct p; try contradiction. eapply ev_weaken; [exact H|]. intros r s [_ Hp]. split; [exact Hp | reflexivity].
Qed.

Lemma step_call C f e p i (pre : rt -> st -> Prop) : In f (b_fields bf) -> small bf f -> has_setter f = true ->
  (forall r s, pre r s -> calls r) ->
  place G C (this bc) = Some (TSelf, true, spot (home bc) i) -> call_arg C f e p pre ->
  step C i (setter_call bf bc f e) [] (fun s => a <- Gen.setter_call_arg m bf f p ;; Gen.set_field m bf f a s) pre.
Proof.
  intros Hf Hs Hset Hc Hp He st0 Hok. unfold setter_call. destruct (ev_call_arg C f e p pre Hs He) as (d & E & R).
  eapply frag_stmt; [reflexivity | |].
  { eapply S_expr, E_call; [exact Hp | exact (l_set _ _ KL f Hf Hset) | exact E | apply ty_eqb_refl | exact (l_allowed _ _ KL)]. }
  intros r s (Hm & Hpre & Hh). unfold d_call. rewrite R by (split; assumption). unfold bind.
  destruct (Gen.setter_call_arg m bf f p) as [a|] eqn:Ea; cbn [lift dbind out]; [|reflexivity].
  rewrite (read_has _ _ _ _ Hh). cbn [dbind]. destruct (Hc r s Hpre f a st0 Hf Hset (arg_shape _ _ _ Ea) Hok) as [-> _].
  unfold bind. destruct (Gen.set_field m bf f a st0) as [st1|] eqn:E1; cbn [lift dbind out fst snd]; [|reflexivity].
  rewrite (write_has _ _ _ _ _ Hh). cbn [dbind]. split; [eapply set_field_store; eassumption|].
  exists []. split; [constructor | reflexivity].
Qed.

(** GH:146-160, 207-221, 268-277 *)
Definition write_stmts (f : field) (e : expr) : list stmt :=
  if has_setter f then setter_call bf bc f e else put bf bc f e.
Definition write_arg (C : tctx) (f : field) (e : expr) (p : pval) (pre : rt -> st -> Prop) : Prop :=
  if has_setter f then call_arg C f e p pre else put_arg C f e p pre.
Definition write_ctx (f : field) : tctx := if has_setter f then [] else put_ctx f.
Lemma write_ctx_temps f : among temps (write_ctx f).
Proof. unfold write_ctx. destruct (has_setter f); [constructor | apply put_ctx_temps]. Qed.
Lemma step_write C f e p i (pre : rt -> st -> Prop) : In f (b_fields bf) -> small bf f ->
  (forall r s, pre r s -> calls r) ->
  place G C (this bc) = Some (TSelf, true, spot (home bc) i) -> write_arg C f e p pre ->
  step C i (write_stmts f e) (write_ctx f) (Gen.assign m bf f p) pre.
Proof.
  intros Hf Hs Hc Hp He. unfold write_stmts, write_arg, write_ctx, Gen.assign in *. destruct (has_setter f) eqn:E.
  - apply step_call; assumption.
  - apply step_put; assumption.
Qed.

(** ** The zero of a field: GH:183-205 *)

Lemma ev_zero_custom C h f pre : In f (b_fields bf) -> small bf f -> f_ty f = DCustom ->
  ev G C h (EFromBits (f_name f) (lit 0)) (TUser (f_name f)) pre (fun _ _ => Val (RC (from_custom f 0))).
Proof.
  intros Hf Hs Ef. destruct Hs as (_ & _ & _ & _ & Hc). destruct (Hc Ef) as [Hc1 _].
  pose proof (l_codec _ _ KL f Hf Ef). pose proof (int_of_int _ Hc1). opn.
  eexists. split; [eapply E_from; [eassumption | el | apply ty_eqb_refl]|]. intros r s _. reflexivity.
Qed.
Lemma zero_arg C f pre : In f (b_fields bf) -> small bf f -> write_arg C f (zero_expr bf f) (Gen.zero_value bf f) pre.
Proof.
  intros Hf Hs. unfold write_arg, call_arg, put_arg, put_arg_i, put_arg_a, zero_expr, Gen.zero_value, is_integer_backed.
  destruct (f_ty f) as [t|len|] eqn:Ef.
  - assert (Hb : t = TBool \/ t <> TBool) by (destruct t; [right; discriminate .. | left; reflexivity]).
    destruct Hb as [->|Hb].
    + destruct (has_setter f); [|destruct (b_ty bf); [| |destruct Hback]]; (eexists; split; [el|]; reflexivity).
    + assert (A1 : exists te q, int_of te = Some q /\ ev G C None (lit 0) te pre (fun _ _ => Val (RI 0))).
      { exists (TI I32), (true, 32). split; [reflexivity|]. opn. eexists. split; [el|]. reflexivity. }
      assert (A2 : exists te q, int_of te = Some q /\ ev G C (cast_hint (lit 0) (TI U128)) (lit 0) te pre (fun _ _ => Val (RI 0))).
      { exists (TI U128), (false, 128). split; [reflexivity|]. cbn [cast_hint lit]. opn. eexists. split; [el|]. reflexivity. }
      destruct (has_setter f); [|destruct (b_ty bf); [| |destruct Hback]]; destruct t; try congruence; try exact A1;
        try exact A2; left; exists 0; split; reflexivity.
  - destruct (has_setter f).
    + destruct (b_ty bf); [| |destruct Hback].
      * split; [reflexivity|]. exists (TI U128), (false, 128). split; [reflexivity|]. cbn [cast_hint lit]. opn. eexists. split; [el|]. reflexivity.
      * split; [reflexivity|]. eexists. split; [el|]. reflexivity.
    + destruct (b_ty bf); [| |destruct Hback].
      * left; exists 0; split; reflexivity.
      * split; [reflexivity|]. eexists. split; [el|]. reflexivity.
  - destruct (has_setter f); [|destruct (b_ty bf); [| |destruct Hback]]; apply ev_zero_custom; assumption.
Qed.
Lemma step_zero C f i : In f (b_fields bf) -> small bf f ->
  place G C (this bc) = Some (TSelf, true, spot (home bc) i) -> forall pre : rt -> st -> Prop,
  (forall r s, pre r s -> calls r) ->
  step C i (write_stmts f (zero_expr bf f)) (write_ctx f) (Gen.set_zero m bf f) pre.
Proof. intros Hf Hs Hp pre Hc. apply step_write; auto. apply zero_arg; assumption. Qed.

(** ** The extracted value: GH:321-336 *)

Definition val_ty (f : field) (vt : ty) : Prop :=
  match b_ty bf with
  | DInteger T => vt = TI T
  | _ => match f_ty f with DArray len => vt = TArr U8 len | _ => exists q, int_of vt = Some q end
  end.
Definition val_shape (f : field) (v : pval) : Prop :=
  match b_ty bf, f_ty f, v with
  | DArray _, DArray _, PArr _ => True
  | DArray _, DArray _, _ => False
  | _, _, PInt _ => True
  | _, _, _ => False
  end.
Lemma val_int f vt z : val_ty f vt -> val_shape f (PInt z) -> exists q, int_of vt = Some q.
Proof.
  unfold val_ty, val_shape. destruct (b_ty bf) as [T|n|] eqn:Hty.
  - intros -> _. destruct Hback as [H1 H2]. rewrite int_of_int by exact H2. eauto.
  - destruct (f_ty f); [auto | intros _ [] | auto].
  - destruct Hback.
Qed.
Lemma ev_value C h mu vt v (pre : rt -> st -> Prop) : lookup "value" C = Some (mu, vt) ->
  (forall r s, pre r s -> lookup "value" (loc s) = Some (enc_pval v)) ->
  ev G C h (V "value") vt pre (fun _ _ => Val (enc_pval v)).
Proof. intros H1 H2. eexists. split; [eapply E_var; exact H1|]. intros r s Hs. unfold d_var. rewrite (H2 r s Hs). reflexivity. Qed.
Lemma ev_value_custom C h f mu vt q z (pre : rt -> st -> Prop) : In f (b_fields bf) -> small bf f -> f_ty f = DCustom ->
  lookup "value" C = Some (mu, vt) -> int_of vt = Some q ->
  (forall r s, pre r s -> lookup "value" (loc s) = Some (RI z)) ->
  ev G C h (EFromBits (f_name f) (as_any (V "value"))) (TUser (f_name f)) pre (fun _ _ => Val (RC (from_custom f z))).
Proof.
  intros Hf Hs Ef H1 Hq H2. destruct Hs as (_ & _ & _ & _ & Hc). destruct (Hc Ef) as [Hc1 _].
  pose proof (k_codec _ _ _ K f Hf Ef). pose proof (int_of_int _ Hc1). opn.
  eexists. split; [eapply E_from; [eassumption | el | apply ty_eqb_refl]|]. intros r s Hp.
  run1. rewrite (H2 r s Hp). reflexivity.
Qed.
Lemma ev_value_bool C h mu vt q z (pre : rt -> st -> Prop) : lookup "value" C = Some (mu, vt) -> int_of vt = Some q ->
  (forall r s, pre r s -> lookup "value" (loc s) = Some (RI z)) ->
  ev G C h (EBin BNe (V "value") (lit 0)) (TI TBool) pre (fun _ _ => Val (RB (negb (z =? 0)))).
Proof.
  intros H1 Hq H2. destruct q as [sg w]. opn. eexists. split; [el|]. intros r s Hp. run1. rewrite (H2 r s Hp).
  rewrite wrap_zero. reflexivity.
Qed.
Lemma value_arg C f mu vt v (pre : rt -> st -> Prop) : In f (b_fields bf) -> small bf f ->
  lookup "value" C = Some (mu, vt) -> val_ty f vt -> val_shape f v ->
  (forall r s, pre r s -> lookup "value" (loc s) = Some (enc_pval v)) ->
  put_arg C f (value_var f) (Gen.value_variable f v) pre /\ call_arg C f (value_var f) (Gen.value_variable f v) pre.
Proof.
  intros Hf Hs H1 Ht Hv H2.
  assert (Hc : forall r s, (exists v s0, s = push "mask" v s0 /\ pre r s0) -> lookup "value" (loc s) = Some (enc_pval v)).
  { intros r s (x & s0 & -> & Hp). rewrite loc_push, lookup_other by reflexivity. exact (H2 r s0 Hp). }
  assert (V0 : v = PArr match v with PArr l => l | _ => [] end \/ exists z, v = PInt z).
  { destruct v; unfold val_shape in Hv; destruct (b_ty bf), (f_ty f); try contradiction; eauto. }
  destruct V0 as [V0|(z & ->)].
  - destruct v as [| |l|]; try discriminate. unfold val_shape, val_ty, put_arg, put_arg_a, call_arg, value_var, Gen.value_variable in *.
    destruct (b_ty bf) as [T|n|] eqn:Hty; [destruct (f_ty f); contradiction | | destruct Hback].
    destruct (f_ty f) as [|len|]; try contradiction. subst vt. unfold is_integer_backed. rewrite Hty.
    split; split; try reflexivity; eapply ev_weaken; try (eapply ev_value; eassumption); auto.
  - destruct (val_int f vt z Ht Hv) as (q & Hq).
    unfold put_arg, put_arg_i, put_arg_a, call_arg, value_var, Gen.value_variable.
    assert (H1m : forall T, lookup "value" (("mask", (false, TI T)) :: C) = Some (mu, vt)) by (intros T; rewrite lookup_other by reflexivity; exact H1).
    destruct (f_ty f) as [t|len|] eqn:Ef.
    + assert (Hb : t = TBool \/ t <> TBool) by (destruct t; [right; discriminate .. | left; reflexivity]).
      destruct Hb as [->|Hb].
      * split; [destruct (b_ty bf); [| |destruct Hback]|]; eapply ev_value_bool; eassumption.
      * assert (A1 : forall h, exists te q, int_of te = Some q /\ ev G C h (V "value") te pre (fun _ _ => Val (RI z))).
        { intros h. exists vt, q. split; [exact Hq|]. apply (ev_value _ _ mu vt (PInt z)); assumption. }
        unfold val_ty in Ht.
        split; [destruct (b_ty bf) as [T|n|]; [| |destruct Hback]|]; destruct t; try congruence; try apply A1; right;
          (split; [reflexivity | apply (ev_value _ _ mu (TI T) (PInt z)); [rewrite lookup_other by reflexivity; rewrite H1, Ht; reflexivity | exact Hc]]).
    + unfold val_ty, val_shape in *. rewrite Ef in Ht, Hv. unfold is_integer_backed. destruct (b_ty bf) as [T|n|] eqn:Hty; [ | contradiction | destruct Hback].
      split.
      * right. split; [reflexivity|]. subst vt. apply (ev_value _ _ mu (TI T) (PInt z)); [apply H1m | exact Hc].
      * split; [reflexivity|]. exists vt, q. split; [exact Hq|]. apply (ev_value _ _ mu vt (PInt z)); assumption.
    + split; [destruct (b_ty bf); [| |destruct Hback]|]; eapply ev_value_custom; try eassumption; apply H1m.
Qed.

(** ** Extraction from a whole value: GH:387-566 *)

Definition ext_ctx (f : field) : tctx :=
  match b_ty bf with
  | DInteger T => [("value", (false, TI T)); ("mask", (false, TI T))]
  | _ => [("value", (false, src_ty f))]
  end.
Definition ext_ty (f : field) : ty := match b_ty bf with DInteger T => TI T | _ => src_ty f end.
Lemma ext_ctx_temps f : among temps (ext_ctx f).
Proof. unfold ext_ctx. destruct (b_ty bf); am. Qed.
Lemma ext_ctx_value f C : lookup "value" (ext_ctx f ++ C) = Some (false, ext_ty f).
Proof. unfold ext_ctx, ext_ty. destruct (b_ty bf); reflexivity. Qed.
Lemma ext_val_ty f : val_ty f (ext_ty f).
Proof.
  unfold val_ty, ext_ty, src_ty. destruct (b_ty bf); [reflexivity | | destruct Hback]. destruct (f_ty f); try reflexivity; eexists; reflexivity.
Qed.
(** The type of the value read from. *)
Definition whole_ty (ts : ty) : Prop :=
  match b_ty bf with DInteger T => ts = TI T | _ => elem ts = Some (TI U8) end.
Lemma frag_extract C f inv b i ts mu src : In f (b_fields bf) -> small bf f ->
  place G C (source b bc) = Some (ts, mu, spot (src_var b bc) i) -> (b = true -> i = false) ->
  whole_ty ts -> ok_store src ->
  frag G C (extract bf bc inv b false f) (ext_ctx f ++ C)
    (fun r s => ready m r /\ has (src_var b bc) i s (enc_store src))
    (fun r s => out (Gen.extract_src m bf f inv src) (fun v s' => val_shape f v /\
       exists L, among ["mask"] L /\ s' = push "value" (enc_pval v) (pushes L s))).
Proof.
  intros Hf Hs Hp Hi Ht Hok. unfold extract. rewrite andb_false_r. change (if b then V "bits" else val bc) with (source b bc).
  unfold ext_ctx, whole_ty, ok_store, val_shape, Gen.extract_src, is_integer_backed in *.
  destruct (b_ty bf) as [T|n|] eqn:Hty; [ | |destruct Hback]; rewrite <- Hty in Hback.
  - subst ts. destruct src as [z|]; [|contradiction]. cbn [enc_store app].
    eapply frag_weaken; [eapply (frag_extract_src_i bf bc G m T Hty Hback K C f inv b i mu z Hf Hs Hp Hi)|].
    intros r s H. split; [exact H|]. cbv beta. unfold bind. destruct (extract_src_int _ _ _ _ _); cbn [out refines]; [|reflexivity].
    intros s' (mk & ->). split; [destruct (f_ty f); exact I|]. exists [("mask", RI mk)]. split; [am | reflexivity].
  - destruct src as [|l]; [contradiction|]. cbn [enc_store app].
    eapply frag_weaken; [eapply (frag_extract_src_a bf bc G m n Hback K C f inv b i ts mu l Hf Hs Hp Ht)|].
    intros r s H. split; [exact H|]. cbv beta. unfold extract_src_arr. destruct (f_ty f); unfold bind;
      (match goal with |- context [match ?x with Val _ => _ | Panic => _ end] => destruct x end; cbn [out refines]; [|reflexivity];
       intros s' ->; split; [exact I|]; exists []; split; [am | reflexivity]).
Qed.
Lemma some_val f : exists v, val_shape f v.
Proof. unfold val_shape. destruct (b_ty bf), (f_ty f); (exists (PInt 0); exact I) || (exists (PArr []); exact I). Qed.

(** ** Copying a field from [bits]: GH:225-285 with cast_bits = false *)

Definition has_bits (v : store) (r : rt) (s : st) : Prop := calls r /\ lookup "bits" (loc s) = Some (enc_store v).
Lemma has_local x s v : lookup x (loc s) = Some v -> has x false s v.
Proof. intros H. exists (RLoc x). split; [reflexivity | exact H]. Qed.
Lemma bits_stable i v : stable i (has_bits v).
Proof.
  unfold stable, has_bits. intros r s L w HL [Hc H]. split; [exact Hc|]. rewrite (lookup_pushes temps) by (assumption || (cbn; intuition discriminate)).
  rewrite lookup_store by (destruct bc; reflexivity). exact H.
Qed.
Lemma place_temps C CL R : among temps CL -> place G C (this bc) = R -> place G (CL ++ C) (this bc) = R.
Proof.
  intros H E. induction H as [|[y q] CL H1 H2 IH]; cbn [app]; [exact E|].
  apply place_this_skip; [|exact IH]. eapply eqb_not_in; [exact home_temps | exact H1].
Qed.
Lemma step_copy C f i mu ts src : In f (b_fields bf) -> small bf f ->
  place G C (this bc) = Some (TSelf, true, spot (home bc) i) ->
  lookup "bits" C = Some (mu, ts) -> is_ref ts = false -> whole_ty ts -> ok_store src ->
  step C i (extract bf bc false true false f ++ write_stmts f (value_var f)) (write_ctx f ++ ext_ctx f)
    (fun s => p <- Gen.extract_src m bf f false src ;; Gen.assign m bf f (Gen.value_variable f p) s) (has_bits src).
Proof.
  intros Hf Hs Hp Hb Hr Ht Hsrc st0 Hok. rewrite <- app_assoc. destruct (some_val f) as [v0 Hv0].
  pose proof (P_var G C "bits" mu ts Hb Hr) as Hpb.
  eapply frag_app' with (P := val_shape f) (a0 := v0); [exact Hv0 | exact (frag_extract C f false true false ts mu src Hf Hs Hpb (fun _ => eq_refl) Ht Hsrc) | |].
  { intros v Hv. refine (step_write (ext_ctx f ++ C) f (value_var f) (Gen.value_variable f v) i
      (fun r s => calls r /\ lookup "value" (loc s) = Some (enc_pval v)) Hf Hs (fun r s H => proj1 H) _ _ st0 Hok).
    - apply place_temps; [apply ext_ctx_temps | exact Hp].
    - unfold write_arg. destruct (value_arg (ext_ctx f ++ C) f false (ext_ty f) v
        (fun r s => calls r /\ lookup "value" (loc s) = Some (enc_pval v)) Hf Hs (ext_ctx_value f C) (ext_val_ty f) Hv (fun r s H => proj2 H)) as [A B].
      destruct (has_setter f); assumption. }
  intros r s (Hl & [Hc Hpre] & Hh). split; [split; [apply Hl | apply has_local; exact Hpre]|]. cbv beta. unfold bind.
  destruct (Gen.extract_src m bf f false src) as [v|]; cbn [out]; [|reflexivity].
  intros s1 (Hv & L & HL & ->). exists v. split; [exact Hv|].
  assert (HL' : among temps (("value", enc_pval v) :: L)).
  { constructor; [cbn; tauto|]. eapply among_sub; [|exact HL]. cbn; tauto. }
  split.
  { split; [exact Hl|]. split; [split; [exact Hc | rewrite loc_push; apply lookup_same]|].
    apply (has_pushes temps _ _ (("value", enc_pval v) :: L)); [exact HL' | exact home_temps | exact Hh]. }
  destruct (Gen.assign m bf f (Gen.value_variable f v) st0) as [st1|]; cbn [out refines]; [|reflexivity].
  intros s2 (Ok1 & L2 & HL2 & ->). split; [exact Ok1|]. exists (L2 ++ ("value", enc_pval v) :: L).
  split; [apply among_app; assumption|].
  change (push "value" (enc_pval v) (pushes L s)) with (pushes (("value", enc_pval v) :: L) s).
  rewrite (store_pushes temps) by (assumption || exact home_temps). rewrite pushes_app. reflexivity.
Qed.

(** ** Guards *)

Definition guard (o : outcome bool) (v : value) (s : st) : expect :=
  match o with
  | Val true => Done (Val (v, mem s))
  | Val false => Next (fun s' => s' = s)
  | Panic => Done Panic
  end.
Definition leaves (C : tctx) (ss : list stmt) (v : value) : Prop :=
  exists d, elab_block G C None (Block ss None) = Some (TUnit, d) /\ forall r s, d r s = Back v s.
Lemma frag_guard C c body v pre F : leaves C body v ->
  ev G C None c (TI TBool) pre (fun r s => b <- F r s ;; Val (RB b)) ->
  frag G C [if_ c body] C pre (fun r s => guard (F r s) v s).
Proof.
  intros (db & Eb & Rb) (dc & Ec & Rc). unfold if_.
  eapply frag_stmt; [reflexivity | eapply S_expr, E_if; [exact Ec | exact Eb | apply B_unit | reflexivity]|].
  intros r s Hp. unfold d_if. rewrite Rc by exact Hp. unfold bind. destruct (F r s) as [[]|]; cbn [lift dbind guard].
  - rewrite Rb. reflexivity.
  - reflexivity.
  - reflexivity.
Qed.
Lemma leaves_err C t msg : g_ret G = TRes t -> leaves C (err msg) (RErr msg).
Proof.
  intros H. unfold err. eexists. split.
  { eapply B_stmt; [reflexivity | eapply S_return; [rewrite H; apply E_err | rewrite H; apply ty_eqb_refl] | apply B_unit]. }
  reflexivity.
Qed.

(** ** Assigning an argument: GH:225-285 with cast_bits = true *)

(** GH:350-369 *)
Lemma frag_signed_check C f a mb tr : small bf f -> shape f a -> lookup "bits" C = Some (mb, field_ty f) ->
  g_ret G = TRes tr -> dt_unsigned (f_ty f) = false ->
  frag G C (signed_check f) C (fun _ s => lookup "bits" (loc s) = Some (enc_fval a))
    (fun _ s => guard (Val (Gen.signed_too_big f a)) (RErr Gen.msg_too_big) s).
Proof.
  intros Hs Ha Hl Hret Hu. unfold signed_check, Gen.signed_too_big, dt_unsigned, shape, field_ty in *.
  destruct (f_ty f) as [t|len|] eqn:Ef; try discriminate.
  assert (Hb : t <> TBool) by (intros ->; discriminate).
  destruct a as [z| | |]; try (destruct t; contradiction || discriminate).
  destruct (ity_bits t <=? f_bits f) eqn:Eb.
  { eapply frag_weaken; [apply frag_nil with (pre := fun _ _ => True)|]. intros r s _. split; [exact I|]. cbn. auto. }
  apply Z.leb_gt in Eb. pose proof (int_of_int t Hb) as It. rewrite Hu in It. cbn [negb] in It.
  apply (frag_guard _ _ _ _ _ (fun _ _ => Val ((cast t (2 ^ (f_bits f - 1) - 1) <? z) || (z <? - cast t (2 ^ (f_bits f - 1)))))).
  - eapply leaves_err. exact Hret.
  - eexists. split; [el|]. intros r s Hh. cbn [enc_fval] in Hh. run1. rewrite Hh.
    assert (E1 : wrap (TI t) (cast t (2 ^ (f_bits f - 1) - 1)) = cast t (2 ^ (f_bits f - 1) - 1)).
    { cbn [wrap]. apply cast_id, cast_in_ity. }
    assert (E2 : wrap (TI t) (- cast t (2 ^ (f_bits f - 1))) = - cast t (2 ^ (f_bits f - 1))).
    { destruct Hs as (Hs1 & _).
      assert (P1 : 0 < 2 ^ (f_bits f - 1)) by (apply Z.pow_pos_nonneg; lia).
      assert (P2 : 2 ^ (f_bits f - 1) < 2 ^ (ity_bits t - 1)) by (apply Z.pow_lt_mono_r; lia).
      cbn [wrap]. rewrite (cast_id t (2 ^ (f_bits f - 1))); [apply cast_id|]; unfold in_ity; rewrite Hu; lia. }
    rewrite E1, E2. cbv beta iota. destruct (cast t (2 ^ (f_bits f - 1) - 1) <? z); [reflexivity|].
    run1. rewrite Hh. reflexivity.
Qed.

Definition arg_ctx (f : field) : tctx :=
  match b_ty bf with
  | DInteger T => [("value", (false, TI T)); ("bits", (false, TI T)); ("mask", (false, TI T))]
  | _ => cast_ctx f
  end.
Definition arg_env (f : field) (q : Z * Z * pval) : env :=
  match b_ty bf with
  | DInteger _ => [("value", enc_pval (snd q)); ("bits", RI (fst (fst q))); ("mask", RI (snd (fst q)))]
  | _ => cast_env f q
  end.
Definition arg_ty (f : field) : ty :=
  match b_ty bf, f_ty f with
  | DInteger T, _ => TI T
  | _, DInteger TBool | _, DCustom => TI U128
  | _, DArray len => TArr U8 len
  | _, DInteger t => TI t
  end.
Definition arg_names : list string := "bits" :: temps.
Lemma arg_ctx_names f : among arg_names (arg_ctx f).
Proof. unfold arg_ctx, cast_ctx. destruct (b_ty bf); [am | |]; destruct (f_ty f) as [[]| |]; am. Qed.
Lemma arg_env_names f q : among arg_names (arg_env f q).
Proof. unfold arg_env, cast_env. destruct (b_ty bf); [am | |]; destruct (f_ty f) as [[]| |]; am. Qed.
Lemma home_arg : ~ In (home bc) arg_names.
Proof. destruct bc; cbn; intuition discriminate. Qed.
Lemma arg_ctx_value f C : lookup "value" (arg_ctx f ++ C) = Some (false, arg_ty f).
Proof. unfold arg_ctx, arg_ty, cast_ctx. destruct (b_ty bf); [reflexivity | |]; destruct (f_ty f) as [[]| |]; reflexivity. Qed.
Lemma arg_env_value f q s : lookup "value" (loc (pushes (arg_env f q) s)) = Some (enc_pval (snd q)).
Proof. unfold arg_env, cast_env. destruct (b_ty bf); [reflexivity | |]; destruct (f_ty f) as [[]| |]; reflexivity. Qed.
Lemma arg_val_ty f : val_ty f (arg_ty f).
Proof.
  unfold val_ty, arg_ty. destruct (b_ty bf); [reflexivity | | destruct Hback]. destruct (f_ty f) as [[]| |]; try reflexivity; eexists; reflexivity.
Qed.
Lemma place_names xs C CL R : ~ In (home bc) xs -> among xs CL -> place G C (this bc) = R -> place G (CL ++ C) (this bc) = R.
Proof.
  intros Hn H E. induction H as [|[y q] CL H1 H2 IH]; cbn [app]; [exact E|].
  apply place_this_skip; [|exact IH]. eapply eqb_not_in; eassumption.
Qed.

Lemma frag_cast C f a mb : In f (b_fields bf) -> small bf f -> shape f a -> lookup "bits" C = Some (mb, field_ty f) ->
  frag G C (extract bf bc false true true f) (arg_ctx f ++ C)
    (fun r s => ready m r /\ lookup "bits" (loc s) = Some (enc_fval a))
    (fun r s => out (Gen.extract_cast m bf f a) (fun q s' => val_shape f (snd q) /\ s' = pushes (arg_env f q) s)).
Proof.
  intros Hf Hs Ha Hl. unfold extract. cbn [andb]. unfold arg_ctx, arg_env, val_shape, Gen.extract_cast, is_integer_backed.
  destruct (b_ty bf) as [T|n|] eqn:Hty; [ | |destruct Hback]; rewrite <- Hty in Hback.
  - eapply frag_weaken; [eapply (frag_extract_cast_i bf bc G m T Hty Hback K C f a mb Hf Hs Ha Hl)|].
    intros r s H. split; [exact H|]. cbv beta. unfold bind. destruct (extract_cast_int _ _ _ _) as [[[b mk] v]|]; cbn [out refines]; [|reflexivity].
    intros s' ->. split; [destruct (f_ty f); exact I | reflexivity].
  - eapply frag_weaken; [eapply (frag_extract_cast_a bf bc G m Hback K C f a mb Hf Hs Ha Hl)|].
    intros r s H. split; [exact H|]. cbv beta. destruct (extract_cast_arr m f a) as [q|] eqn:E; cbn [out refines]; [|reflexivity].
    intros s' ->. split; [|reflexivity]. unfold extract_cast_arr in E.
    destruct (f_ty f) as [[]| |], a; try discriminate E; try (unfold bind in E; destruct (mask_arr m (f_bits f)); [|discriminate E]);
      inversion E; subst; exact I.
Qed.

(** GH:339-345 *)
Lemma frag_unsigned_check C f a mb tr q : small bf f -> shape f a -> lookup "bits" C = Some (mb, field_ty f) ->
  g_ret G = TRes tr -> Gen.has_post_check f = true ->
  frag G (arg_ctx f ++ C) [unsigned_check] (arg_ctx f ++ C)
    (fun _ s => Gen.extract_cast m bf f a = Val q /\
       exists s0, s = pushes (arg_env f q) s0 /\ lookup "bits" (loc s0) = Some (enc_fval a))
    (fun _ s => guard (Val (snd (fst q) <? fst (fst q))) (RErr Gen.msg_too_big) s).
Proof.
  intros Hs Ha Hl Hret Hc. unfold unsigned_check.
  apply (frag_guard _ _ _ _ _ (fun _ _ => Val (snd (fst q) <? fst (fst q)))); [eapply leaves_err; exact Hret|].
  unfold arg_ctx, arg_env, Gen.extract_cast, Gen.has_post_check, shape, field_ty in *.
  destruct (b_ty bf) as [T|n|] eqn:Hty; [ | |destruct Hback]; rewrite <- Hty in Hback.
  - pose proof (int_T bf T Hty Hback) as IT. eexists. split; [cbn [app]; el|]. intros r s (_ & s0 & -> & _). cbn [pushes]. sim. reflexivity.
  - unfold cast_ctx, cast_env, extract_cast_arr. destruct (f_ty f) as [t|len|] eqn:Ef; [ | discriminate | ].
    + destruct a as [z| | |]; try (destruct t; contradiction || discriminate).
      destruct t; try discriminate; (eexists; split; [cbn [app]; el|]; intros r s (E & s0 & -> & Hb); cbn [pushes enc_fval] in *; sim;
        unfold bind in E; destruct (mask_arr m (f_bits f)); [|discriminate E]; inversion E; subst; reflexivity).
    + eexists; split; [cbn [app]; el|]; intros r s (E & s0 & -> & Hb); cbn [pushes] in *; sim. reflexivity.
Qed.

(** What an assignment with [return Err(..)] leads to. *)
Definition answer (i : bool) (o : outcome (store * res unit)) (s : st) : expect :=
  match o with
  | Val (st1, Ok _) => Next (fun s' => ok_store st1 /\
      exists L, among arg_names L /\ s' = pushes L (store_at (home bc) i (enc_store st1) s))
  | Val (_, Err e) => Done (Val (RErr e, mem s))
  | Panic => Done Panic
  end.
Definition assign_ctx (f : field) : tctx := put_ctx f ++ arg_ctx f.
Definition post_check (chk : bool) (f : field) : list stmt :=
  if chk && Gen.has_post_check f then [ unsigned_check ] else [].
Lemma frag_assign_arg C f a chk i mb st0 : In f (b_fields bf) -> small bf f -> shape f a ->
  lookup "bits" C = Some (mb, field_ty f) -> place G C (this bc) = Some (TSelf, true, spot (home bc) i) ->
  (chk = true -> exists tr, g_ret G = TRes tr) -> ok_store st0 ->
  frag G C ((if chk && negb (dt_unsigned (f_ty f)) then signed_check f else []) ++
            extract bf bc false true true f ++ post_check chk f ++ put bf bc f (value_var f)) (assign_ctx f ++ C)
    (fun r s => ready m r /\ lookup "bits" (loc s) = Some (enc_fval a) /\ has (home bc) i s (enc_store st0))
    (fun r s => answer i (Gen.assign_arg m bf chk f a st0) s).
Proof.
  intros Hf Hs Ha Hb Hp Hret Hok. unfold assign_ctx. rewrite <- app_assoc.
  assert (Put : forall q : Z * Z * pval, val_shape f (snd q) -> step (arg_ctx f ++ C) i (put bf bc f (value_var f)) (put_ctx f)
            (Gen.put m bf f (Gen.value_variable f (snd q))) (fun r s => lookup "value" (loc s) = Some (enc_pval (snd q)))).
  { intros q Hv. apply step_put; auto.
    - eapply place_names; [exact home_arg | apply arg_ctx_names | exact Hp].
    - apply (proj1 (value_arg (arg_ctx f ++ C) f false (arg_ty f) (snd q)
        (fun r s => lookup "value" (loc s) = Some (enc_pval (snd q))) Hf Hs (arg_ctx_value f C) (arg_val_ty f) Hv (fun r s H => H))). }
  destruct (some_val f) as [v0 Hv0].
  (* the check and the write *)
  assert (F2 : forall q : Z * Z * pval, val_shape f (snd q) ->
    frag G (arg_ctx f ++ C) (post_check chk f ++ put bf bc f (value_var f)) (put_ctx f ++ arg_ctx f ++ C)
      (fun r s => ready m r /\ Gen.extract_cast m bf f a = Val q /\
         exists s0, s = pushes (arg_env f q) s0 /\ lookup "bits" (loc s0) = Some (enc_fval a) /\ has (home bc) i s0 (enc_store st0))
      (fun r s => if chk && Gen.has_post_check f && (snd (fst q) <? fst (fst q)) then Done (Val (RErr Gen.msg_too_big, mem s))
                  else out (Gen.put m bf f (Gen.value_variable f (snd q)) st0) (fun st1 s' => ok_store st1 /\
                         exists L, among temps L /\ s' = pushes L (store_at (home bc) i (enc_store st1) s)))).
  { intros q Hv. unfold post_check. destruct (chk && Gen.has_post_check f) eqn:Ec.
    - apply andb_true_iff in Ec. destruct Ec as [-> Ec]. destruct (Hret eq_refl) as [tr Htr].
      eapply (frag_app tt); [eapply (frag_unsigned_check C f a mb tr q Hs Ha Hb Htr Ec) | intros u; exact (Put q Hv st0 Hok) |].
      intros r s (Hl & He & s0 & -> & Hbits & Hh). split; [eauto|]. cbv beta. cbn [andb guard].
      destruct (snd (fst q) <? fst (fst q)); cbn [guard]; [reflexivity|].
      intros s1 ->. exists tt. split.
      + split; [exact Hl|]. split; [apply arg_env_value|]. eapply has_pushes; [apply arg_env_names | exact home_arg | exact Hh].
      + destruct (Gen.put _ _ _ _ _); cbn [out refines]; auto.
    - eapply frag_weaken; [exact (Put q Hv st0 Hok)|]. intros r s (Hl & He & s0 & -> & Hbits & Hh). split.
      + split; [exact Hl|]. split; [apply arg_env_value|]. eapply has_pushes; [apply arg_env_names | exact home_arg | exact Hh].
      + cbn [andb]. destruct (Gen.put _ _ _ _ _); cbn [out refines]; auto. }
  (* with the extraction *)
  assert (F1 : frag G C (extract bf bc false true true f ++ post_check chk f ++ put bf bc f (value_var f)) (put_ctx f ++ arg_ctx f ++ C)
    (fun r s => ready m r /\ lookup "bits" (loc s) = Some (enc_fval a) /\ has (home bc) i s (enc_store st0))
    (fun r s => answer i (q <- Gen.extract_cast m bf f a ;;
       let '(bits, mask, v) := q in
       if chk && Gen.has_post_check f && (mask <? bits) then Val (st0, Err Gen.msg_too_big)
       else (s' <- Gen.put m bf f (Gen.value_variable f v) st0 ;; Val (s', Ok tt))) s)).
  { eapply frag_app' with (P := fun q : Z * Z * pval => val_shape f (snd q)) (a0 := (0, 0, v0)); [exact Hv0 | exact (frag_cast C f a mb Hf Hs Ha Hb) | exact F2 |].
    intros r s (Hl & Hbits & Hh). split; [split; [exact Hl | exact Hbits]|]. cbv beta. unfold bind at 1.
    destruct (Gen.extract_cast m bf f a) as [q|] eqn:E; cbn [out]; [|reflexivity].
    intros s1 [Hv ->]. exists q. split; [exact Hv|]. split; [eauto 10|]. destruct q as [[b mk] v]. cbn [fst snd] in *.
    destruct (chk && Gen.has_post_check f && (mk <? b)); cbn [answer refines].
    - rewrite mem_pushes. reflexivity.
    - unfold bind. destruct (Gen.put m bf f (Gen.value_variable f v) st0); cbn [out answer refines]; [|reflexivity].
      intros s2 (Ok1 & L & HL & ->). split; [exact Ok1|]. exists (L ++ arg_env f (b, mk, v)). split.
      + apply among_app; [eapply among_sub; [|exact HL]; cbn; tauto | apply arg_env_names].
      + rewrite (store_pushes arg_names) by (apply arg_env_names || exact home_arg). rewrite pushes_app. reflexivity. }
  (* with the signed check *)
  unfold Gen.assign_arg. destruct (chk && negb (dt_unsigned (f_ty f))) eqn:Ec.
  - apply andb_true_iff in Ec. destruct Ec as [-> Ec]. apply negb_true_iff in Ec. destruct (Hret eq_refl) as [tr Htr].
    eapply (frag_app tt); [eapply (frag_signed_check C f a mb tr Hs Ha Hb Htr Ec) | intros u; exact F1 |].
    intros r s (Hl & Hbits & Hh). split; [exact Hbits|]. cbv beta. cbn [andb].
    destruct (Gen.signed_too_big f a); cbn [guard answer]; [reflexivity|].
    intros s1 ->. exists tt. split; [auto|]. destruct (answer _ _ _); cbn; auto.
  - eapply frag_weaken; [exact F1|]. intros r s H. split; [exact H|]. cbn [andb]. destruct (answer _ _ _); cbn; auto.
Qed.
End Field.
