(** The emitted builder: builder_feature.rs *)
From Coq Require Import ZArith List Bool String Lia.
From Verif Require Import RustInt Syntax GenInt GenArr Spec BitsLemmas CoreLemmas Rust RustLemmas Surface Emit EmitVocab
  EmitLemmas EmitArr EmitArrPut EmitField EmitDefault EmitFns EmitNew EmitRange.
From Verif Require Gen.
Import ListNotations.
Open Scope string_scope.
Open Scope list_scope.
Open Scope Z_scope.

(** A field without constants is written without naming the bitfield. *)
Definition only (bf : bitfield) (f : field) : bitfield :=
  mkBitfield (b_vis bf) (b_name bf) (b_ty bf) [f] (b_ignored bf) (b_args bf).
Lemma writes_links bf G m : backing_ok (b_ty bf) -> g_back G = store_ty bf -> links bf G ->
  (forall f, In f (b_fields bf) -> small bf f) ->
  (forall f, In f (b_fields bf) -> has_constants f = true -> has_setter f = true) -> writes bf G m false.
Proof.
  intros Hback Hb KL Hs Hn f Hf C e p i pre Hc Hp He.
  destruct (has_setter f) eqn:E.
  - unfold write_stmts, write_arg, write_ctx, Gen.assign in *. rewrite E in *. apply step_call; auto.
  - assert (Hk : has_constants f = false).
    { destruct (has_constants f) eqn:Ek; [|reflexivity]. rewrite (Hn f Hf Ek) in E. discriminate E. }
    assert (K1 : knows (only bf f) false G).
    { constructor.
      - exact Hb.
      - intros g [<-|[]] Hg. congruence.
      - intros g [<-|[]] Hg. congruence.
      - intros g [<-|[]] Hg. congruence.
      - constructor.
        + intros g [<-|[]]. apply (l_codec _ _ KL); exact Hf.
        + intros g [<-|[]] H. apply (l_set _ _ KL); assumption.
        + intros g [<-|[]] H. apply (l_checked _ _ KL); assumption.
        + exact (l_allowed _ _ KL). }
    apply (knows_writes (only bf f) G m Hback false K1) with (f := f) (p := p).
    + intros g [<-|[]]. exact (Hs f Hf).
    + left. reflexivity.
    + intros r s H g a st0 [<-|[]] Hg. apply (Hc r s H f a st0 Hf Hg).
    + exact Hp.
    + exact He.
Qed.

Section Builder.
Variables (dx : field -> expr) (bf : bitfield) (m : mode).
Hypothesis OK : emit_ok dx bf.
Let P := emitted dx bf.
Let Hback := eo_back _ _ OK.
Let Hsmall := eo_small _ _ OK.
Let Hd := eo_dx _ _ OK.

(** Without [new] the builder writes the fields itself, in its own [impl], where
    [Self] is not the bitfield: no field may then be written with its constants. *)
Definition builder_inline_ok : Prop :=
  a_new (b_args bf) = false -> forall f, In f (b_fields bf) -> has_constants f = true -> has_setter f = true.

(** [Builder::new()], [Builder::new_without_defaults()] : 92-126 *)
Lemma builder_new_meets (d : bool) : builder_inline_ok ->
  fn_meets dx bf false (builder_new_fn dx bf d)
    (fun r s => ready m r /\ calls bf m r /\ (a_new (b_args bf) = true -> calls_new bf m d r) /\ s = mkSt [] [])
    (fun _ _ => alone (Gen.builder_new m bf d) enc_store).
Proof.
  intros Hi. unfold builder_new_fn, Gen.builder_new. destruct (a_new (b_args bf)) eqn:Ha.
  - set (i := method _ _ _ _ _ _ _).
    eapply fn_frag_ev with (ss := []) (pre1 := fun _ _ => True) (pret := fun r s => calls_new bf m d r)
      (G := fun _ _ => s <- (if d then Gen.new_bf m bf else Gen.new_without_defaults m bf) ;; Val (enc_store s)); [reflexivity | apply frag_nil | |].
    + eexists. split; [eapply E_builder; [reflexivity |]; eapply E_new; [reflexivity | exact (g_new dx bf OK false i d Ha) |]|].
      { exact (l_allowed _ _ (links_of dx bf OK false i (or_introl eq_refl))). }
      intros r s H. unfold calls_new in H. cbn beta iota in H |- *. rewrite H. unfold bind.
      destruct (if d then Gen.new_bf m bf else Gen.new_without_defaults m bf); reflexivity.
    + intros r s (Hr & Hc & Hn & ->). split; [exact I|]. intros s1 ->. split; [apply Hn; reflexivity|].
      unfold alone, bind. destruct (if d then Gen.new_bf m bf else Gen.new_without_defaults m bf); reflexivity.
  - set (i := method _ _ _ _ _ _ _). assert (Hc : const_ok bf i) by (left; reflexivity).
    pose proof (links_of dx bf OK false i Hc) as KL.
    destruct (frag_new bf (genv_of P false i) m Hback KL (writes_links bf (genv_of P false i) m Hback eq_refl KL Hsmall (Hi Ha)) Hsmall dx Hd d true [])
      as (CL & A & F); [reflexivity | reflexivity | apply (heap_not_const dx bf false i Hc) |].
    destruct (some_store bf Hback) as [sx Hx].
    eapply (fn_frag_ev' dx bf (ok_store bf) sx) with (i := i) (pret := fun st1 _ s => lookup "this" (loc s) = Some (enc_store st1))
      (G := fun st1 _ _ => Val (enc_store st1)) (e := EBuilder (V "this")); [exact Hx | reflexivity | exact F | |].
    + intros st1 _. destruct (ev_this_var (genv_of P false i) [("this", (new_mut bf d, TSelf))] (Some TSelf) (new_mut bf d) TSelf st1 CL A (lookup_same _ _ _)) as (dt & E & R).
      exists dt. split; [eapply E_builder; [reflexivity | exact E] | exact R].
    + intros r s (Hr & Hcs & _ & ->). split; [split; assumption|]. unfold alone.
      destruct (Gen.new_impl m bf d (Gen.init_store bf)) as [st1|]; cbn [out]; [|reflexivity].
      intros s1 H1. destruct (made_this _ _ _ _ H1) as [HL HM]. exists st1. split; [apply H1|]. split; [exact HL|]. rewrite HM. reflexivity.
Qed.

(** [build()] : 84-87 *)
Lemma build_meets st0 : fn_meets dx bf false (build_fn bf)
  (fun _ s => s = mkSt [("self", enc_store st0)] []) (fun _ _ => Val (enc_store st0, [])).
Proof.
  eapply fn_frag_ev with (ss := []) (pre1 := fun _ _ => True) (pret := fun r s => s = mkSt [("self", enc_store st0)] [])
    (G := fun _ _ => Val (enc_store st0)); [reflexivity | apply frag_nil | |].
  - eexists. split; [eapply E_this, P_var; reflexivity|]. intros r s ->. reflexivity.
  - intros r s ->. split; [exact I|]. intros s1 ->. auto.
Qed.

(** [with_x], [checked_with_x] : 139-180 *)
Definition with_st (a : fval) (st0 : store) : st := mkSt [("bits", enc_fval a); ("self", enc_store st0)] [].
Definition bits_arg (f : field) : expr :=
  match f_ty f with
  | DInteger TBool | DCustom | DArray _ => V "bits"
  | DInteger _ => as_any (V "bits")
  end.
Lemma builder_shape f a : shape f a -> shape f (Gen.builder_arg f a).
Proof. unfold shape, Gen.builder_arg. destruct (f_ty f) as [[]| |], a; auto. Qed.
Lemma ev_bits_arg G C f a mb : small bf f -> shape f a -> lookup "bits" C = Some (mb, field_ty f) ->
  ev G C (Some (field_ty f)) (bits_arg f) (field_ty f) (fun _ s => lookup "bits" (loc s) = Some (enc_fval a))
    (fun _ _ => Val (enc_fval (Gen.builder_arg f a))).
Proof.
  intros Hs Ha Hl. unfold bits_arg, Gen.builder_arg, shape, field_ty in *.
  destruct (f_ty f) as [t|n|] eqn:Ef.
  - destruct t, a; try contradiction;
      (eexists; split; [first [el | eapply E_cast_any; [reflexivity | eapply E_var; exact Hl | reflexivity]]|];
       intros r s H; cbn [enc_fval] in *; run1; rewrite H; reflexivity).
  - eexists. split; [el|]. intros r s H. sim. reflexivity.
  - eexists. split; [el|]. intros r s H. sim. reflexivity.
Qed.
Lemma set_from_var_builder chk f : has_setter f = false -> set_from_var bf true true chk true f =
  (if chk && negb (dt_unsigned (f_ty f)) then signed_check f else []) ++
  extract bf true false true true f ++ post_check chk f ++ put bf true f (value_var f).
Proof.
  intros E. unfold set_from_var, post_check, Gen.has_post_check. rewrite E. cbn [andb negb].
  destruct chk; cbn [andb]; [|reflexivity].
  destruct (f_ty f) as [[]| |]; reflexivity.
Qed.
Lemma set_from_var_through chk f : has_setter f = true -> set_from_var bf true true chk true f =
  if chk then [ STry (ECall (this true) (role_name RCheckedSetter (f_name f)) (bits_arg f)) ]
  else [ SExpr (ECall (this true) (role_name RSetter (f_name f)) (bits_arg f)) ].
Proof. intros E. unfold set_from_var, bits_arg. rewrite E. reflexivity. Qed.

Lemma assign_ctx_names f : among arg_names (assign_ctx bf f).
Proof.
  unfold assign_ctx. apply among_app; [|apply (arg_ctx_names bf Hback)].
  pose proof (put_ctx_temps bf Hback f) as H. unfold among in *. eapply Forall_impl; [|exact H]. intros [x t] Hx. right. exact Hx.
Qed.
Lemma self_arg : ~ In "self" arg_names.
Proof. cbn; intuition discriminate. Qed.
Lemma ev_self G C h mu t st1 CL : among arg_names CL -> lookup "self" C = Some (mu, t) ->
  ev G (CL ++ C) h (V "self") t (fun _ s => lookup "self" (loc s) = Some (enc_store st1)) (fun _ _ => Val (enc_store st1)).
Proof.
  intros H1 H2. eexists. split; [eapply E_var; rewrite (lookup_among arg_names) by (assumption || exact self_arg); exact H2|].
  intros r s H. unfold d_var. rewrite H. reflexivity.
Qed.

Lemma with_meets f a st0 : In f (b_fields bf) -> shape f a -> ok_store bf st0 ->
  fn_meets dx bf false (with_fn bf f) (fun r s => ready m r /\ calls bf m r /\ s = with_st a st0)
    (fun _ _ => alone (Gen.with_field m bf f a st0) enc_store).
Proof.
  intros Hf Ha Hok. set (i := with_fn bf f). pose proof (knows_builder dx bf OK i (or_introl eq_refl)) as K.
  assert (Hp : place (genv_of P false i) (ctx_of false i) (this true) = Some (TSelf, true, spot "self" false))
    by (eapply P_this, P_var; reflexivity).
  assert (Hb : lookup "bits" (ctx_of false i) = Some (false, field_ty f)) by reflexivity.
  assert (Hh : has "self" false (with_st a st0) (enc_store st0)) by (apply has_local; reflexivity).
  destruct (some_store bf Hback) as [sx Hx].
  assert (F : exists CL, among arg_names CL /\ frag (genv_of P false i) (ctx_of false i) (set_from_var bf true true false true f) (CL ++ ctx_of false i)
    (fun r s => ready m r /\ calls bf m r /\ s = with_st a st0)
    (fun r s => out (Gen.with_field m bf f a st0) (fun st1 s' => ok_store bf st1 /\
       exists L, among arg_names L /\ s' = pushes L (store_at "self" false (enc_store st1) s)))).
  { unfold Gen.with_field. destruct (has_setter f) eqn:E.
    - rewrite (set_from_var_through false f E). exists []. split; [constructor|].
      destruct (ev_bits_arg (genv_of P false i) (ctx_of false i) f a false (Hsmall f Hf) Ha Hb) as (d & Ed & R).
      eapply frag_stmt; [reflexivity | |].
      { eapply S_expr, E_call; [exact Hp | exact (l_set _ _ (k_links _ _ _ K) f Hf E) | exact Ed | apply ty_eqb_refl | exact (l_allowed _ _ (k_links _ _ _ K))]. }
      intros r s (Hr & Hc & ->). unfold d_call. rewrite R by reflexivity. cbn [lift dbind].
      rewrite (read_has _ _ _ _ Hh). cbn [dbind]. destruct (Hc f _ st0 Hf E (builder_shape f a Ha) Hok) as [-> _].
      unfold bind. destruct (Gen.set_field m bf f _ st0) as [st1|] eqn:E1; cbn [lift dbind out fst snd]; [|reflexivity].
      rewrite (write_has _ _ _ _ _ Hh). cbn [dbind]. split; [exact (set_field_store bf m Hback _ _ _ _ Hok E1)|].
      exists []. split; [constructor | reflexivity].
    - rewrite (set_from_var_builder false f E). exists (assign_ctx bf f). split; [apply assign_ctx_names|].
      eapply frag_weaken; [eapply (frag_assign_arg bf true _ m Hback K _ f a false false false st0 Hf (Hsmall f Hf) Ha Hb Hp); [discriminate | exact Hok]|].
      intros r s (Hr & Hc & ->). split; [split; [exact Hr|]; split; [reflexivity | exact Hh]|].
      unfold bind. destruct (Gen.assign_arg m bf false f a st0) as [[st1 [[]|e]]|] eqn:Ea; cbn [answer out refines fst].
      + intros s' H. exact H.
      + destruct (assign_arg_ok _ _ _ _ _ _ _ Ea).
      + reflexivity. }
  destruct F as (CL & A & F).
  eapply (fn_frag_ev' dx bf (ok_store bf) sx) with (i := i) (e := V "self")
    (pret := fun st1 _ s => lookup "self" (loc s) = Some (enc_store st1)) (G := fun st1 _ _ => Val (enc_store st1));
    [exact Hx | reflexivity | exact F | |].
  - intros st1 _. apply (ev_self _ _ _ true); [exact A | reflexivity].
  - intros r s (Hr & Hc & ->). split; [auto|]. unfold alone. destruct (Gen.with_field m bf f a st0) as [st1|]; cbn [out]; [|reflexivity].
    intros s1 (Ok1 & L & HL & ->). exists st1. split; [exact Ok1|]. split; [|rewrite mem_pushes; reflexivity].
    rewrite (lookup_pushes arg_names) by (exact HL || exact self_arg). reflexivity.
Qed.
Lemma checked_with_meets f a st0 : In f (b_fields bf) -> shape f a -> ok_store bf st0 ->
  fn_meets dx bf false (checked_with_fn bf f) (fun r s => ready m r /\ calls bf m r /\ s = with_st a st0)
    (fun _ _ => alone (Gen.checked_with_field m bf f a st0) enc_ress).
Proof.
  intros Hf Ha Hok. set (i := checked_with_fn bf f). pose proof (knows_builder dx bf OK i (or_introl eq_refl)) as K.
  assert (Hp : place (genv_of P false i) (ctx_of false i) (this true) = Some (TSelf, true, spot "self" false))
    by (eapply P_this, P_var; reflexivity).
  assert (Hb : lookup "bits" (ctx_of false i) = Some (false, field_ty f)) by reflexivity.
  assert (Hh : has "self" false (with_st a st0) (enc_store st0)) by (apply has_local; reflexivity).
  destruct (some_store bf Hback) as [sx Hx].
  assert (F : exists CL, among arg_names CL /\ frag (genv_of P false i) (ctx_of false i) (set_from_var bf true true true true f) (CL ++ ctx_of false i)
    (fun r s => ready m r /\ calls bf m r /\ s = with_st a st0)
    (fun r s => match Gen.checked_with_field m bf f a st0 with
       | Val (Ok st1) => Next (fun s' => ok_store bf st1 /\
           exists L, among arg_names L /\ s' = pushes L (store_at "self" false (enc_store st1) s))
       | Val (Err e) => Done (Val (RErr e, mem s))
       | Panic => Done Panic
       end)).
  { unfold Gen.checked_with_field. destruct (has_setter f) eqn:E.
    - rewrite (set_from_var_through true f E). exists []. split; [constructor|].
      destruct (ev_bits_arg (genv_of P false i) (ctx_of false i) f a false (Hsmall f Hf) Ha Hb) as (d & Ed & R).
      eapply frag_stmt; [reflexivity | |].
      { eapply S_try; [eapply E_call; [exact Hp | exact (l_checked _ _ (k_links _ _ _ K) f Hf E) | exact Ed | apply ty_eqb_refl | exact (l_allowed _ _ (k_links _ _ _ K))] | reflexivity]. }
      intros r s (Hr & Hc & ->). unfold d_call. rewrite R by reflexivity. cbn [lift dbind].
      rewrite (read_has _ _ _ _ Hh). cbn [dbind]. destruct (Hc f _ st0 Hf E (builder_shape f a Ha) Hok) as [_ ->].
      unfold bind, checked_answer. destruct (Gen.checked_set_field m bf f _ st0) as [[st1 [[]|e]]|] eqn:E1; cbn [lift dbind out fst snd].
      + rewrite (write_has _ _ _ _ _ Hh). cbn [dbind].
        split; [unfold Gen.checked_set_field in E1; exact (assign_arg_store bf m Hback _ _ _ _ _ _ Hok E1)|].
        exists []. split; [constructor | reflexivity].
      + rewrite (write_has _ _ _ _ _ Hh). reflexivity.
      + reflexivity.
    - rewrite (set_from_var_builder true f E). exists (assign_ctx bf f). split; [apply assign_ctx_names|].
      eapply frag_weaken; [eapply (frag_assign_arg bf true _ m Hback K _ f a true false false st0 Hf (Hsmall f Hf) Ha Hb Hp); [intros _; eexists; reflexivity | exact Hok]|].
      intros r s (Hr & Hc & ->). split; [split; [exact Hr|]; split; [reflexivity | exact Hh]|].
      unfold bind. destruct (Gen.assign_arg m bf true f a st0) as [[st1 [[]|e]]|] eqn:Ea; cbn [answer out refines fst snd].
      + intros s' H. exact H.
      + reflexivity.
      + reflexivity. }
  destruct F as (CL & A & F).
  eapply (fn_frag_ev' dx bf (ok_store bf) sx) with (i := i) (e := EOk (V "self"))
    (pret := fun st1 _ s => lookup "self" (loc s) = Some (enc_store st1)) (G := fun st1 _ _ => Val (ROk (enc_store st1)));
    [exact Hx | reflexivity | exact F | |].
  - intros st1 _. destruct (ev_self (genv_of P false i) (ctx_of false i) (Some TBuilder) true TBuilder st1 CL A eq_refl) as (d & E & R).
    eexists. split; [eapply E_ok; exact E|]. intros r s H. cbv beta. rewrite R by exact H. reflexivity.
  - intros r s (Hr & Hc & ->). split; [auto|]. unfold alone. destruct (Gen.checked_with_field m bf f a st0) as [[st1|e]|]; [| reflexivity | reflexivity].
    intros s1 (Ok1 & L & HL & ->). exists st1. split; [exact Ok1|]. split; [|rewrite mem_pushes; reflexivity].
    rewrite (lookup_pushes arg_names) by (exact HL || exact self_arg). reflexivity.
Qed.
End Builder.
