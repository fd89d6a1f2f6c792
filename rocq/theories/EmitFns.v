(** The emitted functions: every one of them is well typed in its program and
    computes what Gen.v says. *)
From Coq Require Import ZArith List Bool String Lia.
From Verif Require Import RustInt Syntax GenInt GenArr Spec BitsLemmas CoreLemmas Rust RustLemmas Surface Emit EmitVocab
  EmitLemmas EmitArr EmitArrPut EmitField EmitDefault.
From Verif Require Gen.
Import ListNotations.
Open Scope string_scope.
Open Scope list_scope.
Open Scope Z_scope.

(** ** Lookup by name *)

Lemma lookup_in {A} x (v : A) l : NoDup (map fst l) -> In (x, v) l -> lookup x l = Some v.
Proof.
  induction l as [|[y w] l IH]; cbn [map fst lookup]; intros N H; [contradiction|]. inversion N; subst.
  destruct H as [H|H].
  - inversion H; subst. rewrite String.eqb_refl. reflexivity.
  - destruct (String.eqb x y) eqn:E.
    + apply String.eqb_eq in E. subst. exfalso. apply H2. apply in_map_iff. exists (y, v). auto.
    + apply IH; assumption.
Qed.
Lemma lookup_agree {A} x (v : A) l : In (x, v) l -> (forall w, In (x, w) l -> w = v) -> lookup x l = Some v.
Proof.
  induction l as [|[y w] l IH]; cbn [lookup]; intros H N; [contradiction|]. destruct (String.eqb x y) eqn:E.
  - apply String.eqb_eq in E. subst. rewrite (N w) by (left; reflexivity). reflexivity.
  - destruct H as [H|H]; [injection H as -> _; rewrite String.eqb_refl in E; discriminate|].
    apply IH; [exact H|]. intros u Hu. apply N. right. exact Hu.
Qed.
Lemma find_fn_in i l : NoDup (map fn_name l) -> In i l -> find_fn (fn_name i) l = Some i.
Proof.
  unfold find_fn. induction l as [|j l IH]; cbn [map find]; intros N H; [contradiction|]. inversion N; subst.
  destruct H as [->|H].
  - rewrite String.eqb_refl. reflexivity.
  - destruct (String.eqb (fn_name i) (fn_name j)) eqn:E.
    + apply String.eqb_eq in E. exfalso. apply H2. rewrite <- E. apply in_map. exact H.
    + apply IH; assumption.
Qed.

(** ** What is assumed of the bitfield *)

(** The items of the [impl] block have different names (rustc rejects the block
    otherwise), custom types are told apart by the name of the field, fields lie
    inside the storage, and the default expressions denote the default values. *)
Record emit_ok (dx : field -> expr) (bf : bitfield) : Prop := {
  eo_back : backing_ok (b_ty bf);
  eo_small : forall f, In f (b_fields bf) -> small bf f;
  eo_fields : forall f g, In f (b_fields bf) -> In g (b_fields bf) -> f_ty f = DCustom -> f_ty g = DCustom ->
    f_name f = f_name g -> f_codec f = f_codec g;
  eo_consts : NoDup (map fst (consts bf));
  eo_fns : NoDup (map fn_name (impl_fns dx bf));
  eo_dx : forall f p, In f (b_fields bf) -> f_default f = Some p -> dval bf f (dx f) = Some p }.

Section Fns.
Variables (dx : field -> expr) (bf : bitfield) (m : mode).
Hypothesis OK : emit_ok dx bf.
Let P := emitted dx bf.
Let Hback := eo_back _ _ OK.
Let Hsmall := eo_small _ _ OK.

Lemma setter_in f : In f (b_fields bf) -> has_setter f = true ->
  In (setter_fn bf f) (impl_fns dx bf) /\ In (checked_setter_fn bf f) (impl_fns dx bf).
Proof.
  intros Hf Hs. unfold impl_fns.
  assert (A : forall i, In i [setter_fn bf f; checked_setter_fn bf f] ->
     In i (flat_map (fun f => [setter_fn bf f; checked_setter_fn bf f]) (filter has_setter (b_fields bf)))).
  { intros i Hi. apply in_flat_map. exists f. split; [apply filter_In; auto | exact Hi]. }
  split; (apply in_or_app; right; apply in_or_app; right; apply in_or_app; right; apply in_or_app; left; apply A; cbn; auto).
Qed.
Lemma fn_of i : In i (impl_fns dx bf) -> find_fn (fn_name i) (p_fns P) = Some i.
Proof. intros H. apply find_fn_in; [exact (eo_fns _ _ OK) | exact H]. Qed.

Lemma links_of own i : fn_const i = is_const bf \/ fn_const i = false -> links bf (genv_of P own i).
Proof.
  intros Hc. constructor; cbn [genv_of g_codec g_fn].
  - intros f Hf Ef. unfold P, emitted. cbn [p_codecs].
    apply lookup_agree.
    + apply in_map_iff. exists f. split; [reflexivity|]. apply filter_In. rewrite Ef. auto.
    + intros w Hw. apply in_map_iff in Hw. destruct Hw as (g & E & Hg). apply filter_In in Hg. destruct Hg as [Hg Eg].
      injection E as E1 <-. destruct (f_ty g) eqn:Tg; try discriminate Eg. apply (eo_fields _ _ OK); auto.
  - intros f Hf Hs. destruct (setter_in f Hf Hs) as [H _]. change (role_name RSetter (f_name f)) with (fn_name (setter_fn bf f)).
    rewrite fn_of by exact H. reflexivity.
  - intros f Hf Hs. destruct (setter_in f Hf Hs) as [_ H]. change (role_name RCheckedSetter (f_name f)) with (fn_name (checked_setter_fn bf f)).
    rewrite fn_of by exact H. reflexivity.
  - unfold const_allowed, genv_of. cbn [g_isconst]. destruct Hc as [->| ->]; destruct (is_const bf); reflexivity.
Qed.
Lemma const_in f : In f (b_fields bf) -> has_constants f = true ->
  lookup (role_name RWidth (f_name f)) (consts bf) = Some (f_bits f) /\
  lookup (role_name ROffset (f_name f)) (consts bf) = Some (f_off f).
Proof.
  intros Hf Hc. split; (apply lookup_in; [exact (eo_consts _ _ OK)|]; apply in_flat_map; exists f;
    split; [apply filter_In; auto | cbn; auto]).
Qed.
Lemma knows_of bc own i : fn_const i = is_const bf \/ fn_const i = false -> names_bitfield (genv_of P own i) (bf_ref bc) = true ->
  knows bf bc (genv_of P own i).
Proof.
  intros Hc Hn. constructor; cbn [genv_of g_back g_const].
  - reflexivity.
  - intros; exact Hn.
  - intros f Hf Hk. apply const_in; assumption.
  - intros f Hf Hk. apply const_in; assumption.
  - apply links_of. exact Hc.
Qed.
Lemma knows_own i : fn_const i = is_const bf \/ fn_const i = false -> knows bf false (genv_of P true i).
Proof. intros H. apply knows_of; [exact H | reflexivity]. Qed.
Lemma knows_builder i : fn_const i = is_const bf \/ fn_const i = false -> knows bf true (genv_of P false i).
Proof. intros H. apply knows_of; [exact H | reflexivity]. Qed.

(** ** From fragments to functions *)

Definition ctx_of (own : bool) (i : fn) : tctx :=
  map (fun p => (fst p, (false, snd p))) (fn_params i) ++ self_ctx own (fn_recv i).
(** [i] is well typed and, started with [pre], ends with [F]. *)
Definition fn_meets (own : bool) (i : fn) (pre : rt -> st -> Prop) (F : rt -> st -> outcome (value * env)) : Prop :=
  exists d, check_fn P own i = Some d /\ forall r s, pre r s -> finish (d r s) = Some (F r s).
Lemma fn_frag own i ss tail C' dt (pre pre1 : rt -> st -> Prop) post F : fn_body i = Block ss tail ->
  frag (genv_of P own i) (ctx_of own i) ss C' pre1 post ->
  elab_block (genv_of P own i) C' (Some (fn_ret i)) (Block [] tail) = Some (fn_ret i, dt) ->
  (forall r s, pre r s -> pre1 r s /\
     match post r s with Done o => o = F r s | Next Q => forall s1, Q s1 -> finish (dt r s1) = Some (F r s) end) ->
  fn_meets own i pre F.
Proof.
  intros Hb Hf Ht H. destruct (Hf _ [] tail _ _ Ht) as (d & E & R). rewrite app_nil_r in E.
  exists d. split.
  - unfold check_fn. rewrite Hb. fold (ctx_of own i). rewrite E, ty_eqb_refl. reflexivity.
  - intros r s Hs. destruct (H r s Hs) as [Hp Hq]. specialize (R r s Hp). destruct (post r s) as [Q|o]; cbn [meets] in R.
    + destruct R as (s1 & HQ & E1). rewrite E1. apply Hq. exact HQ.
    + rewrite R, Hq. reflexivity.
Qed.
(** With a result expression. *)
Lemma fn_frag_ev own i ss e C' (pre pre1 : rt -> st -> Prop) post (pret : rt -> st -> Prop) G F : fn_body i = Block ss (Some e) ->
  frag (genv_of P own i) (ctx_of own i) ss C' pre1 post ->
  ev (genv_of P own i) C' (Some (fn_ret i)) e (fn_ret i) pret G ->
  (forall r s, pre r s -> pre1 r s /\
     match post r s with
     | Done o => o = F r s
     | Next Q => forall s1, Q s1 -> pret r s1 /\ F r s = (v <- G r s1 ;; Val (v, mem s1))
     end) ->
  fn_meets own i pre F.
Proof.
  intros Hb Hf (d & E & R) H. eapply fn_frag; [exact Hb | exact Hf | apply B_tail; exact E |].
  intros r s Hs. destruct (H r s Hs) as [Hp Hq]. split; [exact Hp|]. destruct (post r s) as [Q|o]; [|exact Hq].
  intros s1 HQ. destruct (Hq s1 HQ) as [Hp1 ->]. rewrite R by exact Hp1. unfold bind. destruct (G r s1); reflexivity.
Qed.
Lemma fn_frag_unit own i ss C' (pre pre1 : rt -> st -> Prop) post F : fn_body i = Block ss None -> fn_ret i = TUnit ->
  frag (genv_of P own i) (ctx_of own i) ss C' pre1 post ->
  (forall r s, pre r s -> pre1 r s /\
     match post r s with Done o => o = F r s | Next Q => forall s1, Q s1 -> F r s = Val (RU, mem s1) end) ->
  fn_meets own i pre F.
Proof.
  intros Hb Hret Hf H. eapply fn_frag; [exact Hb | exact Hf | rewrite Hret; apply B_unit |].
  intros r s Hs. destruct (H r s Hs) as [Hp Hq]. split; [exact Hp|]. destruct (post r s) as [Q|o]; [|exact Hq].
  intros s1 HQ. rewrite (Hq s1 HQ). reflexivity.
Qed.

Lemma fn_frag_ev' {A} (Q0 : A -> Prop) (a0 : A) own i ss e C' (pre pre1 : rt -> st -> Prop) post (pret : A -> rt -> st -> Prop) G F :
  Q0 a0 -> fn_body i = Block ss (Some e) ->
  frag (genv_of P own i) (ctx_of own i) ss C' pre1 post ->
  (forall a, Q0 a -> ev (genv_of P own i) C' (Some (fn_ret i)) e (fn_ret i) (pret a) (G a)) ->
  (forall r s, pre r s -> pre1 r s /\
     match post r s with
     | Done o => o = F r s
     | Next Q => forall s1, Q s1 -> exists a, Q0 a /\ pret a r s1 /\ F r s = (v <- G a r s1 ;; Val (v, mem s1))
     end) ->
  fn_meets own i pre F.
Proof.
  intros HA Hb Hf He H. destruct (He a0 HA) as (d & E & _).
  eapply fn_frag; [exact Hb | exact Hf | apply B_tail; exact E |].
  intros r s Hs. destruct (H r s Hs) as [Hp Hq]. split; [exact Hp|]. destruct (post r s) as [Q|o]; [|exact Hq].
  intros s1 HQ. destruct (Hq s1 HQ) as (a & Ha & Hp1 & ->). destruct (He a Ha) as (d' & E' & R).
  rewrite E in E'. inversion E'; subst d'. rewrite R by exact Hp1. unfold bind. destruct (G a r s1); reflexivity.
Qed.

(** [let this = self;] *)
Lemma frag_self own i C t v ss C' pre post : lookup "self" C = Some (false, t) ->
  frag (genv_of P own i) (("this", (false, t)) :: C) ss C' pre post ->
  frag (genv_of P own i) C (this_self :: ss) C'
    (fun r s => lookup "self" (loc s) = Some v /\ pre r (push "this" v s)) (fun r s => post r (push "this" v s)).
Proof.
  intros H Hf h rest tail tr dr Hr. destruct (Hf h rest tail tr dr Hr) as (d & E & R).
  eexists. split; [cbn [app]; unfold this_self, let_; eapply B_let; [reflexivity | eapply E_var; exact H | exact E]|].
  intros r s [Hl Hp]. apply meets_let. unfold d_var. rewrite Hl. apply R. exact Hp.
Qed.
(** State of a method of [&self] / [&mut self] with value [v]. *)
Definition own_st (args : env) (v : value) : st := mkSt (args ++ [("self", RRef "*self")]) [("*self", v)].
Lemma own_this args v w : has "this" true (push "this" (RRef "*self") (own_st args v)) v /\
  mem (store_at "this" true w (push "this" (RRef "*self") (own_st args v))) = [("*self", w)].
Proof. split; [exists (RMem "*self"); split; reflexivity | reflexivity]. Qed.
Lemma ref_place own i C mu mt : lookup "this" C = Some (mt, TRef mu TSelf) ->
  place (genv_of P own i) C (V "this") = Some (TSelf, mu, spot "this" true).
Proof. intros H. eapply P_ref. exact H. Qed.

(** ** Setters: field_setters_feature.rs *)

Lemma set_from_var_arg chk f : set_from_var bf false true chk false f =
  (if chk && negb (dt_unsigned (f_ty f)) then signed_check f else []) ++
  extract bf false false true true f ++ post_check chk f ++ put bf false f (value_var f).
Proof.
  unfold set_from_var, post_check, Gen.has_post_check. rewrite andb_false_r. cbn [andb negb].
  destruct chk; cbn [andb]; [|reflexivity].
  destruct (f_ty f) as [[]| |]; reflexivity.
Qed.

Lemma assign_arg_err chk f a st0 st1 e : Gen.assign_arg m bf chk f a st0 = Val (st1, Err e) -> st1 = st0.
Proof.
  unfold Gen.assign_arg. destruct (chk && _ && _); [intros H; inversion H; reflexivity|]. unfold bind.
  destruct (Gen.extract_cast m bf f a) as [[[b mk] v]|]; [|discriminate].
  destruct (chk && _ && _); [intros H; inversion H; reflexivity|].
  destruct (Gen.put m bf f _ st0); [|discriminate]. intros H; inversion H.
Qed.
Lemma assign_arg_ok f a st0 st1 e : Gen.assign_arg m bf false f a st0 <> Val (st1, Err e).
Proof.
  unfold Gen.assign_arg. cbn [andb]. unfold bind.
  destruct (Gen.extract_cast m bf f a) as [[[b mk] v]|]; [|discriminate].
  destruct (Gen.put m bf f _ st0); [|discriminate]. intros H; inversion H.
Qed.
(** The cell of [self] afterwards. *)
Definition after {A} (o : outcome A) (v : A -> value) (c : A -> value) : outcome (value * env) :=
  match o with Val x => Val (v x, [("*self", c x)]) | Panic => Panic end.
Definition enc_res (r : res unit) : value := match r with Ok _ => ROk RU | Err e => RErr e end.

Lemma setter_meets f a st0 : In f (b_fields bf) -> shape f a -> ok_store bf st0 ->
  fn_meets true (setter_fn bf f) (fun r s => ready m r /\ s = own_st [("bits", enc_fval a)] (enc_store st0))
    (fun _ _ => after (Gen.set_field m bf f a st0) (fun _ => RU) enc_store).
Proof.
  intros Hf Ha Hok.
  pose proof (knows_own (setter_fn bf f) (or_introl eq_refl)) as K.
  eapply fn_frag_unit; [reflexivity | reflexivity | |].
  - rewrite set_from_var_arg. eapply (frag_self true _ _ (TRef true TSelf) (RRef "*self")); [reflexivity|].
    eapply (frag_assign_arg bf false _ m Hback K _ f a false true false st0); auto. discriminate.
  - intros r s [Hr ->]. cbv beta. destruct (own_this [("bits", enc_fval a)] (enc_store st0) RU) as [Hh _].
    split; [split; [reflexivity|]; split; [exact Hr|]; split; [reflexivity | exact Hh]|].
    unfold Gen.set_field, bind. destruct (Gen.assign_arg m bf false f a st0) as [[st1 [[]|e]]|] eqn:E; cbn [answer].
    + intros s1 (_ & L & HL & ->). rewrite mem_pushes. reflexivity.
    + destruct (assign_arg_ok _ _ _ _ _ E).
    + reflexivity.
Qed.
Lemma checked_setter_meets f a st0 : In f (b_fields bf) -> shape f a -> ok_store bf st0 ->
  fn_meets true (checked_setter_fn bf f) (fun r s => ready m r /\ s = own_st [("bits", enc_fval a)] (enc_store st0))
    (fun _ _ => after (Gen.checked_set_field m bf f a st0) (fun q => enc_res (snd q)) (fun q => enc_store (fst q))).
Proof.
  intros Hf Ha Hok.
  pose proof (knows_own (checked_setter_fn bf f) (or_introl eq_refl)) as K.
  eapply (fn_frag_ev _ _ _ _ _ _ _ _ (fun _ _ => True) (fun _ _ => Val (ROk RU))); [reflexivity | | |].
  - rewrite set_from_var_arg. eapply (frag_self true _ _ (TRef true TSelf) (RRef "*self")); [reflexivity|].
    eapply (frag_assign_arg bf false _ m Hback K _ f a true true false st0); auto. intros _. eexists. reflexivity.
  - eexists. split; [eapply E_ok, E_unit|]. reflexivity.
  - intros r s [Hr ->]. cbv beta. destruct (own_this [("bits", enc_fval a)] (enc_store st0) RU) as [Hh _].
    split; [split; [reflexivity|]; split; [exact Hr|]; split; [reflexivity | exact Hh]|].
    unfold Gen.checked_set_field. destruct (Gen.assign_arg m bf true f a st0) as [[st1 [[]|e]]|] eqn:E; cbn [answer].
    + intros s1 (_ & L & HL & ->). split; [exact I|]. rewrite mem_pushes. reflexivity.
    + rewrite (assign_arg_err _ _ _ _ _ _ E). reflexivity.
    + reflexivity.
Qed.

(** ** Calls *)

Lemma call_meets i n fuel self args (pre : rt -> st -> Prop) F s0 : In i (impl_fns dx bf) ->
  fn_meets true i pre F -> args_env (fn_params i) args (self_env (fn_recv i) self) = Some s0 ->
  pre (mkRt m fuel (call P m fuel n)) s0 ->
  call P m fuel (S n) (fn_name i) self args =
  Some match F (mkRt m fuel (call P m fuel n)) s0 with
       | Val (v, cells) => Val (v, match lookup "*self" cells with Some x => x | None => self end)
       | Panic => Panic
       end.
Proof.
  intros Hi (d & E & R) Ha Hp. cbn [call]. rewrite (fn_of i Hi). unfold run_fn. rewrite E, Ha, (R _ _ Hp).
  destruct (F _ s0) as [[v c]|]; reflexivity.
Qed.
Lemma bits_env f v self : args_env [("bits", field_ty f)] [v] (self_env ByMut self) = Some (own_st [("bits", v)] self).
Proof. unfold field_ty. destruct (f_ty f); reflexivity. Qed.
Lemma calls_of n fuel : 2 ^ 32 < Z.of_nat fuel -> calls bf m (mkRt m fuel (call P m fuel (S n))).
Proof.
  intros Hfu f a st0 Hf Hs Ha Hok. cbn [r_call]. destruct (setter_in f Hf Hs) as [I1 I2].
  assert (R : ready m (mkRt m fuel (call P m fuel n))) by (split; [reflexivity | exact Hfu]).
  split.
  - change (role_name RSetter (f_name f)) with (fn_name (setter_fn bf f)).
    rewrite (call_meets _ n fuel _ _ _ _ _ I1 (setter_meets f a st0 Hf Ha Hok) (bits_env f _ _) (conj R eq_refl)).
    unfold after, bind. destruct (Gen.set_field m bf f a st0); reflexivity.
  - change (role_name RCheckedSetter (f_name f)) with (fn_name (checked_setter_fn bf f)).
    rewrite (call_meets _ n fuel _ _ _ _ _ I2 (checked_setter_meets f a st0 Hf Ha Hok) (bits_env f _ _) (conj R eq_refl)).
    unfold after, checked_answer, enc_res. destruct (Gen.checked_set_field m bf f a st0) as [[st1 [[]|e]]|]; reflexivity.
Qed.
End Fns.
