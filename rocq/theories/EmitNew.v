(** The emitted constructors, [default], the clear functions and
    [write_defaults]. *)
From Coq Require Import ZArith List Bool String Lia.
From Verif Require Import RustInt Syntax GenInt GenArr Spec BitsLemmas CoreLemmas Rust RustLemmas Surface Emit EmitVocab
  EmitLemmas EmitArr EmitArrPut EmitField EmitDefault EmitFns.
From Verif Require Gen.
Import ListNotations.
Open Scope string_scope.
Open Scope list_scope.
Open Scope Z_scope.

Section Init.
Variables (bf : bitfield) (G : genv) (m : mode).
Hypothesis Hback : backing_ok (b_ty bf).

(** ** The initial value: GH:44-88 *)

Lemma init_ok : ok_store bf (Gen.init_store bf).
Proof. unfold ok_store, Gen.init_store. destruct (b_ty bf); [exact I | exact I | destruct Hback]. Qed.
Lemma ev_init bc C h pre : names_bitfield G (bf_ref bc) = true -> g_back G = store_ty bf ->
  (is_heap bf = true -> g_isconst G = false) ->
  ev G C h (init bf bc) TSelf pre (fun _ _ => Val (enc_store (Gen.init_store bf))).
Proof.
  intros Hn Hb Hc. unfold init, Gen.init_store. unfold store_ty, is_heap, data_ty, array_len, is_integer_backed in *.
  destruct (b_ty bf) as [T|n|] eqn:Hty; [| |destruct Hback].
  - rewrite andb_false_r in Hb. destruct Hback as [H1 H2]. pose proof (int_of_unsigned T H2 H1) as IT.
    eexists. split; [eapply E_struct; [exact Hn | rewrite Hb; opn; el | rewrite Hb; apply ty_eqb_refl]|].
    intros r s _. rewrite wrap_zero. reflexivity.
  - destruct (a_array_heap (b_args bf)); cbn [andb negb] in *.
    + eexists. split; [eapply E_struct; [exact Hn | eapply E_box; [apply Hc; reflexivity | el] | rewrite Hb; apply ty_eqb_refl]|].
      reflexivity.
    + eexists. split; [eapply E_struct; [exact Hn | el | rewrite Hb; apply ty_eqb_refl]|].
      reflexivity.
Qed.

Lemma this_temps : ~ In "this" temps.
Proof. cbn; intuition discriminate. Qed.

(** A new value in [this], then changes of it: the state afterwards. *)
Definition made (st1 : store) (s s' : st) : Prop :=
  ok_store bf st1 /\ exists L, among temps L /\ s' = pushes L (push "this" (enc_store st1) s).
Lemma frag_made mu bc C ss CL op (pre : rt -> st -> Prop) :
  names_bitfield G (bf_ref bc) = true -> g_back G = store_ty bf -> (is_heap bf = true -> g_isconst G = false) ->
  step bf false G m (("this", (mu, TSelf)) :: C) false ss CL op
    (fun r s => exists L v s0, among temps L /\ s = pushes L (push "this" v s0) /\ pre r s0) ->
  frag G C (SLet mu "this" None (init bf bc) :: ss) (CL ++ ("this", (mu, TSelf)) :: C)
    (fun r s => ready m r /\ pre r s)
    (fun r s => out (op (Gen.init_store bf)) (fun st1 s' => made st1 s s')).
Proof.
  intros Hn Hb Hc Hs. change (SLet mu "this" None (init bf bc) :: ss) with ([SLet mu "this" None (init bf bc)] ++ ss).
  eapply (frag_app tt).
  - eapply (frag_ev G C mu "this" (init bf bc) TSelf (fun _ _ => True)); [reflexivity|].
    apply ev_init; assumption.
  - intros u. exact (Hs (Gen.init_store bf) init_ok).
  - intros r s [Hr Hp]. split; [exact I|]. cbn [out]. intros s1 ->. exists tt. split.
    + split; [exact Hr|]. split; [exists [], (enc_store (Gen.init_store bf)), s; split; [constructor | auto]|].
      apply has_local. apply lookup_same.
    + destruct (op (Gen.init_store bf)) as [st1|]; cbn [out refines]; [|reflexivity].
      intros s2 (Ok1 & L & HL & ->). split; [exact Ok1|]. exists L. split; [exact HL|].
      unfold store_at, home, spot. rewrite write_same. reflexivity.
Qed.
Lemma made_stable (pre : rt -> st -> Prop) :
  stable false false (fun r s => exists L v s0, among temps L /\ s = pushes L (push "this" v s0) /\ pre r s0).
Proof.
  intros r s L w HL (L0 & v & s0 & HL0 & -> & Hp). exists (L ++ L0), w, s0. split; [apply among_app; assumption|].
  split; [|exact Hp]. rewrite (store_pushes temps) by (assumption || exact this_temps).
  unfold store_at, spot. rewrite write_same, pushes_app. reflexivity.
Qed.

(** ** [new]: GH:872-915 *)

Hypothesis KL : links bf G.
Hypothesis W : writes bf G m false.
Hypothesis Hs : forall f, In f (b_fields bf) -> small bf f.
Variable dx : field -> expr.
Hypothesis Hd : forall f p, In f (b_fields bf) -> f_default f = Some p -> dval bf f (dx f) = Some p.

Lemma new_no_mut d : new_mut bf d = false -> b_fields bf = [].
Proof.
  unfold new_mut. intros H. apply orb_false_iff in H. destruct H as [H1 H2].
  destruct (b_fields bf) as [|f l]; [reflexivity|]. exfalso. cbn [filter] in *.
  destruct d; cbn [andb negb] in *; [|discriminate]. destruct (has_default f); cbn [negb] in *; discriminate.
Qed.
Lemma frag_new d bc C :
  names_bitfield G (bf_ref bc) = true -> g_back G = store_ty bf -> (is_heap bf = true -> g_isconst G = false) ->
  exists CL, among temps CL /\
  frag G C (new_stmts dx bf d bc) (CL ++ ("this", (new_mut bf d, TSelf)) :: C)
    (fun r s => ready m r /\ calls bf m r)
    (fun r s => out (Gen.new_impl m bf d (Gen.init_store bf)) (fun st1 s' => made st1 s s')).
Proof.
  intros Hn Hb Hc. unfold new_stmts. destruct (new_mut bf d) eqn:E.
  - destruct (steps_new bf G m Hback KL W Hs dx Hd d (("this", (true, TSelf)) :: C) false
      (fun r s => exists L v s0, among temps L /\ s = pushes L (push "this" v s0) /\ calls bf m r)) as (CL & A & S).
    + exact (made_stable (fun r _ => calls bf m r)).
    + intros r s (_ & _ & _ & _ & _ & H). exact H.
    + eapply P_var; [apply lookup_same | reflexivity].
    + exists CL. split; [exact A|]. exact (frag_made true bc C _ CL _ (fun r _ => calls bf m r) Hn Hb Hc S).
  - pose proof (new_no_mut d E) as F. exists []. split; [constructor|].
    replace (new_impl dx bf d) with (@nil stmt).
    2:{ unfold new_impl, defaults. rewrite F. destruct d; reflexivity. }
    eapply frag_weaken; [apply (frag_made false bc C [] [] (fun s => Val s) (fun r _ => calls bf m r) Hn Hb Hc); apply step_nil|].
    intros r s H. split; [exact H|]. unfold Gen.new_impl, Gen.set_defaults. rewrite F. destruct d; cbn [out refines filter run_all bind]; auto.
Qed.
End Init.

Section New.
Variables (dx : field -> expr) (bf : bitfield) (m : mode).
Hypothesis OK : emit_ok dx bf.
Let P := emitted dx bf.
Let Hback := eo_back _ _ OK.
Let Hsmall := eo_small _ _ OK.
Let Hd := eo_dx _ _ OK.

Definition const_ok (i : fn) : Prop := fn_const i = is_const bf \/ fn_const i = false.
Lemma heap_not_const own i : const_ok i -> is_heap bf = true -> g_isconst (genv_of P own i) = false.
Proof.
  intros [H|H] Hh; cbn [genv_of g_isconst]; rewrite H; [|reflexivity]. unfold is_const. destruct (b_ignored bf); [rewrite Hh|]; reflexivity.
Qed.
Lemma writes_own i : const_ok i -> writes bf (genv_of P true i) m false.
Proof. intros H. apply knows_writes; [exact Hback | apply knows_own; assumption | exact Hsmall]. Qed.

(** Result of a function without receiver. *)
Definition alone {A} (o : outcome A) (v : A -> value) : outcome (value * env) :=
  match o with Val x => Val (v x, []) | Panic => Panic end.

(** Functions that end in [this]. *)
Lemma ev_this_var G C h mu t st1 CL : among temps CL -> lookup "this" C = Some (mu, t) ->
  ev G (CL ++ C) h (V "this") t (fun _ s => lookup "this" (loc s) = Some (enc_store st1)) (fun _ _ => Val (enc_store st1)).
Proof.
  intros H1 H2. eexists. split; [eapply E_var; rewrite (lookup_among temps) by (assumption || exact this_temps); exact H2|].
  intros r s H. unfold d_var. rewrite H. reflexivity.
Qed.
Lemma made_this st1 s s' : made bf st1 s s' -> lookup "this" (loc s') = Some (enc_store st1) /\ mem s' = mem s.
Proof.
  intros (_ & L & HL & ->). rewrite (lookup_pushes temps), mem_pushes by (assumption || exact this_temps).
  split; [apply lookup_same | reflexivity].
Qed.
Lemma made_fn own i ss CL C mu (pre1 pre : rt -> st -> Prop) o : fn_body i = Block ss (Some (V "this")) -> fn_ret i = TSelf ->
  among temps CL ->
  frag (genv_of P own i) (ctx_of own i) ss (CL ++ ("this", (mu, TSelf)) :: C) pre1
    (fun r s => out (o r s) (fun st1 s' => ok_store bf st1 /\ lookup "this" (loc s') = Some (enc_store st1) /\ mem s' = mem s)) ->
  (forall r s, pre r s -> pre1 r s) ->
  fn_meets dx bf own i pre (fun r s => match o r s with Val st1 => Val (enc_store st1, mem s) | Panic => Panic end).
Proof.
  intros Hb Hr HCL Hf Hp. destruct (some_store bf Hback) as [sx Hx].
  eapply (fn_frag_ev' dx bf (ok_store bf) sx); [exact Hx | exact Hb | exact Hf | |].
  - intros st1 _. rewrite Hr. apply (ev_this_var _ _ _ mu); [exact HCL | apply lookup_same].
  - intros r s H. split; [apply Hp; exact H|]. destruct (o r s) as [st1|]; cbn [out]; [|reflexivity].
    intros s1 (Ok1 & Hl & Hm). exists st1. split; [exact Ok1|]. split; [exact Hl|]. rewrite Hm. reflexivity.
Qed.

(** [new()], [new_without_defaults()] : new_functions_feature.rs:53-87 *)
Lemma new_meets (d : bool) : fn_meets dx bf true (if d then new_fn dx bf else new_without_defaults_fn dx bf)
  (fun r s => ready m r /\ calls bf m r /\ s = mkSt [] [])
  (fun _ _ => alone (if d then Gen.new_bf m bf else Gen.new_without_defaults m bf) enc_store).
Proof.
  set (i := if d then new_fn dx bf else new_without_defaults_fn dx bf).
  assert (Hc : const_ok i) by (left; destruct d; reflexivity).
  destruct (frag_new bf (genv_of P true i) m Hback (k_links _ _ _ (knows_own dx bf OK i Hc)) (writes_own i Hc) Hsmall dx Hd d false [])
    as (CL & A & F); [reflexivity | reflexivity | apply heap_not_const; exact Hc |].
  assert (Ec : ctx_of true i = []) by (destruct d; reflexivity).
  assert (M : fn_meets dx bf true i (fun r s => (ready m r /\ calls bf m r) /\ s = mkSt [] [])
     (fun r s => match Gen.new_impl m bf d (Gen.init_store bf) with Val st1 => Val (enc_store st1, mem s) | Panic => Panic end)).
  { eapply made_fn with (o := fun _ _ => Gen.new_impl m bf d (Gen.init_store bf)); [destruct d; reflexivity | destruct d; reflexivity | exact A | |].
    - rewrite Ec. eapply frag_weaken; [exact F|]. intros r s H. split; [exact H|].
      destruct (Gen.new_impl m bf d (Gen.init_store bf)); cbn [out refines]; [|reflexivity].
      intros s' H'. split; [apply H' | apply made_this; exact H'].
    - tauto. }
  destruct M as (dn & E & R). exists dn. split; [exact E|]. intros r s (H1 & H2 & ->). rewrite R by auto.
  unfold alone, Gen.new_bf, Gen.new_without_defaults. destruct d, (Gen.new_impl _ _ _ _); reflexivity.
Qed.

(** [Default::default()] : default_trait_feature.rs:34-66 *)
Definition calls_new (d : bool) (r : rt) : Prop :=
  r_call r (if d then "new" else "new_without_defaults") RU [] =
  Some (s <- (if d then Gen.new_bf m bf else Gen.new_without_defaults m bf) ;; Val (enc_store s, RU)).
Lemma new_in (d : bool) : a_new (b_args bf) = true -> In (if d then new_fn dx bf else new_without_defaults_fn dx bf) (impl_fns dx bf).
Proof. intros H. unfold impl_fns. rewrite H. cbn [opt]. apply in_or_app. left. destruct d; cbn; auto. Qed.
Lemma calls_new_of (d : bool) n fuel : a_new (b_args bf) = true -> 2 ^ 32 < Z.of_nat fuel ->
  calls_new d (mkRt m fuel (call P m fuel (S (S n)))).
Proof.
  intros Ha Hf. unfold calls_new. cbn [r_call].
  assert (M := call_meets dx bf m OK _ (S n) fuel RU [] _ _ (mkSt [] []) (new_in d Ha) (new_meets d)).
  replace (if d then "new" else "new_without_defaults") with (fn_name (if d then new_fn dx bf else new_without_defaults_fn dx bf)) by (destruct d; reflexivity).
  unfold P. rewrite M.
  - unfold alone, bind. destruct d; [destruct (Gen.new_bf m bf) | destruct (Gen.new_without_defaults m bf)]; reflexivity.
  - destruct d; reflexivity.
  - split; [split; [reflexivity | exact Hf]|]. split; [apply calls_of; assumption | reflexivity].
Qed.
Lemma g_new own i (d : bool) : a_new (b_args bf) = true ->
  g_fn (genv_of P own i) (if d then "new" else "new_without_defaults") = Some (mkSig NoRecv [] TSelf (is_const bf)).
Proof.
  intros H. cbn [genv_of g_fn].
  replace (if d then "new" else "new_without_defaults") with (fn_name (if d then new_fn dx bf else new_without_defaults_fn dx bf)) by (destruct d; reflexivity).
  unfold P. rewrite (fn_of dx bf OK _ (new_in d H)). destruct d; reflexivity.
Qed.

Lemma default_meets : fn_meets dx bf true (default_fn dx bf)
  (fun r s => ready m r /\ calls bf m r /\ (a_new (b_args bf) = true -> calls_new true r) /\ s = mkSt [] [])
  (fun _ _ => alone (Gen.default_bf m bf) enc_store).
Proof.
  unfold default_fn, Gen.default_bf. destruct (a_new (b_args bf)) eqn:Ha.
  - eapply fn_frag_ev with (ss := []) (pre1 := fun _ _ => True) (pret := fun r s => calls_new true r)
      (G := fun _ _ => s <- Gen.new_bf m bf ;; Val (enc_store s)); [reflexivity | apply frag_nil | |].
    + eexists. split; [eapply E_new; [reflexivity | exact (g_new true _ true Ha) | reflexivity]|].
      intros r s H. unfold calls_new in H. cbn beta iota in H |- *. rewrite H. unfold bind. destruct (Gen.new_bf m bf); reflexivity.
    + intros r s (Hr & Hc & Hn & ->). split; [exact I|]. intros s1 ->. split; [apply Hn; reflexivity|].
      unfold alone, bind. destruct (Gen.new_bf m bf); reflexivity.
  - set (i := mkFn _ _ _ _ _ _). assert (Hc : const_ok i) by (right; reflexivity).
    destruct (steps_defaults bf (genv_of P true i) m Hback (writes_own i Hc) dx Hd [("this", (true, TSelf))] false
      (fun r s => exists L v s0, among temps L /\ s = pushes L (push "this" v s0) /\ calls bf m r)) as (CL & A & S).
    + exact (made_stable (fun r _ => calls bf m r)).
    + intros r s (_ & _ & _ & _ & _ & H). exact H.
    + eapply P_var; [apply lookup_same | reflexivity].
    + assert (M : fn_meets dx bf true i (fun r s => (ready m r /\ calls bf m r) /\ s = mkSt [] [])
        (fun r s => match Gen.set_defaults m bf (Gen.init_store bf) with Val st1 => Val (enc_store st1, mem s) | Panic => Panic end)).
      { eapply made_fn with (o := fun _ _ => Gen.set_defaults m bf (Gen.init_store bf)); [reflexivity | reflexivity | exact A | |].
        - eapply frag_weaken; [exact (frag_made bf (genv_of P true i) m Hback true false [] _ CL _ (fun r _ => calls bf m r) eq_refl eq_refl (heap_not_const true i Hc) S)|].
          intros r s H. split; [exact H|]. destruct (Gen.set_defaults m bf (Gen.init_store bf)); cbn [out refines]; [|reflexivity].
          intros s' H'. split; [apply H' | apply made_this; exact H'].
        - tauto. }
      destruct M as (dn & E & R). exists dn. split; [exact E|]. intros r s (H1 & H2 & _ & ->). rewrite R by auto.
      unfold alone. destruct (Gen.set_defaults _ _ _); reflexivity.
Qed.

(** ** Methods that change [self] field by field *)

Lemma steps_fn i ss CL op st0 : fn_recv i = ByMut -> fn_params i = [] -> fn_ret i = TUnit ->
  fn_body i = Block (this_self :: ss) None ->
  step bf false (genv_of P true i) m [("this", (false, TRef true TSelf)); ("self", (false, TRef true TSelf))] true ss CL op
    (fun r _ => calls bf m r) ->
  ok_store bf st0 ->
  fn_meets dx bf true i (fun r s => ready m r /\ calls bf m r /\ s = own_st [] (enc_store st0))
    (fun _ _ => after (op st0) (fun _ => RU) enc_store).
Proof.
  intros H1 H2 H3 H4 Hs Hok. eapply fn_frag_unit; [exact H4 | exact H3 | |].
  - unfold ctx_of. rewrite H1, H2. cbn [map app self_ctx]. eapply (frag_self dx bf true _ _ (TRef true TSelf) (RRef "*self")); [reflexivity|].
    exact (Hs st0 Hok).
  - intros r s (Hr & Hc & ->). destruct (own_this [] (enc_store st0) RU) as [Hh _].
    split; [split; [reflexivity|]; split; [exact Hr|]; split; assumption|].
    unfold after. destruct (op st0) as [st1|]; cbn [out]; [|reflexivity]. intros s1 (_ & L & HL & ->). rewrite mem_pushes. reflexivity.
Qed.
Lemma calls_stable i : stable false i (fun r _ => calls bf m r).
Proof. intros r s L v _ H. exact H. Qed.
Lemma this_place own i : place (genv_of P own i) [("this", (false, TRef true TSelf)); ("self", (false, TRef true TSelf))] (V "this")
  = Some (TSelf, true, spot "this" true).
Proof. eapply ref_place. reflexivity. Qed.

(** [clear_bits()], [clear_bits_with_defaults()] : clear_bit_ops_feature.rs:53-85 *)
Lemma clear_all_meets d st0 : ok_store bf st0 ->
  fn_meets dx bf true (clear_all_fn dx bf d) (fun r s => ready m r /\ calls bf m r /\ s = own_st [] (enc_store st0))
    (fun _ _ => after (Gen.clear_all m bf d st0) (fun _ => RU) enc_store).
Proof.
  intros Hok. assert (Hc : const_ok (clear_all_fn dx bf d)) by (left; reflexivity).
  destruct (steps_new bf (genv_of P true (clear_all_fn dx bf d)) m Hback (k_links _ _ _ (knows_own dx bf OK _ Hc)) (writes_own _ Hc) Hsmall dx Hd d
    [("this", (false, TRef true TSelf)); ("self", (false, TRef true TSelf))] true (fun r _ => calls bf m r)) as (CL & A & S).
  - apply calls_stable.
  - auto.
  - apply this_place.
  - eapply steps_fn; [reflexivity | reflexivity | reflexivity | reflexivity | exact S | exact Hok].
Qed.
(** [clear_x()] : clear_bit_ops_feature.rs:87-108 *)
Lemma clear_meets f st0 : In f (b_fields bf) -> ok_store bf st0 ->
  fn_meets dx bf true (clear_fn bf f) (fun r s => ready m r /\ calls bf m r /\ s = own_st [] (enc_store st0))
    (fun _ _ => after (Gen.clear_field m bf f st0) (fun _ => RU) enc_store).
Proof.
  intros Hf Hok. assert (Hc : const_ok (clear_fn bf f)) by (left; reflexivity).
  eapply steps_fn; [reflexivity | reflexivity | reflexivity | reflexivity | | exact Hok].
  apply (writes_own _ Hc f Hf); [auto | apply this_place |].
  apply zero_arg; auto. exact (k_links _ _ _ (knows_own dx bf OK _ Hc)).
Qed.
(** [clear_x_to_default()] : clear_bit_ops_feature.rs:110-126 *)
Lemma clear_default_meets f st0 : In f (b_fields bf) -> has_default f = true -> ok_store bf st0 ->
  fn_meets dx bf true (clear_default_fn dx bf f) (fun r s => ready m r /\ calls bf m r /\ s = own_st [] (enc_store st0))
    (fun _ _ => after (Gen.clear_field_to_default m bf f st0) (fun _ => RU) enc_store).
Proof.
  intros Hf Hdef Hok. assert (Hc : const_ok (clear_default_fn dx bf f)) by (left; reflexivity).
  unfold Gen.clear_field_to_default, Gen.set_default. unfold has_default in Hdef.
  destruct (f_default f) as [p|] eqn:Ep; [|discriminate].
  eapply steps_fn; [reflexivity | reflexivity | reflexivity | reflexivity | | exact Hok].
  apply (writes_own _ Hc f Hf); [auto | apply this_place |].
  apply default_arg; [exact Hback|]. apply Hd; assumption.
Qed.
(** [write_defaults()] : write_bit_ops_feature.rs:133-137 *)
Lemma write_defaults_meets st0 : ok_store bf st0 ->
  fn_meets dx bf true (write_defaults_fn dx bf) (fun r s => ready m r /\ calls bf m r /\ s = own_st [] (enc_store st0))
    (fun _ _ => after (Gen.write_defaults m bf st0) (fun _ => RU) enc_store).
Proof.
  intros Hok. assert (Hc : const_ok (write_defaults_fn dx bf)) by (left; reflexivity).
  destruct (steps_defaults bf (genv_of P true (write_defaults_fn dx bf)) m Hback (writes_own _ Hc) dx Hd
    [("this", (false, TRef true TSelf)); ("self", (false, TRef true TSelf))] true (fun r _ => calls bf m r)) as (CL & A & S).
  - apply calls_stable.
  - auto.
  - apply this_place.
  - eapply steps_fn; [reflexivity | reflexivity | reflexivity | reflexivity | exact S | exact Hok].
Qed.
End New.
