(** Calling the emitted functions: every operation of Hist.v as a call of the
    emitted function, and its agreement with [Hist.step]. *)
From Coq Require Import ZArith List Bool String Lia.
From Verif Require Import RustInt Syntax GenInt GenArr Spec BitsLemmas CoreLemmas Rust RustLemmas Surface Emit EmitVocab
  EmitLemmas EmitArr EmitArrPut EmitField EmitDefault EmitFns EmitRead EmitNew EmitConv EmitData EmitSlice EmitTrait
  EmitGuard EmitBit EmitProt EmitLoop EmitRange EmitBuilder EmitDebug SpecEmit.
From Verif Require Gen Hist.
Import ListNotations.
Open Scope string_scope.
Open Scope list_scope.
Open Scope Z_scope.

(** ** Agreement *)

Lemma has_type_shape f a : has_type f a -> shape f a.
Proof. unfold has_type, shape. destruct (f_ty f) as [[]| |], a; auto. Qed.
Lemma store_shape bf s : store_ok bf s -> ok_store bf s /\ store_len bf s.
Proof. unfold store_ok, ok_store, store_len. destruct (b_ty bf), s; tauto. Qed.
Lemma value_num_enc s : value_num (enc_store s) = Some (sval s).
Proof. destruct s; reflexivity. Qed.
Lemma number_ok bf x : backing_ok (b_ty bf) -> Hist.num_arg bf x -> store_ok bf (CoreLemmas.store_of bf x).
Proof. intros H1 H2. apply CoreLemmas.store_of_ok; assumption. Qed.

Section Step.
Variables (dx : field -> expr) (bf : bitfield) (m : mode) (fuel n : nat).
Hypothesis OK : emit_ok dx bf.
Hypothesis Hfuel : 2 ^ 32 < Z.of_nat fuel.
Let P := emitted dx bf.
Let Hback := eo_back _ _ OK.
Let r := mkRt m fuel (call P m fuel (S (S n))).

Lemma is_ready : ready m r.
Proof. split; [reflexivity | exact Hfuel]. Qed.
Lemma is_calls : calls bf m r.
Proof. apply calls_of; assumption. Qed.

(** [call] for the shapes of results that occur. *)
Lemma call_after {A} i name self args s0 (o : outcome A) v c (pre : rt -> st -> Prop) : In i (impl_fns dx bf) -> name = fn_name i ->
  fn_meets dx bf true i pre (fun _ _ => after o v c) -> args_env (fn_params i) args (self_env (fn_recv i) self) = Some s0 ->
  pre r s0 ->
  call P m fuel (S (S (S n))) name self args = Some match o with Val x => Val (v x, c x) | Panic => Panic end.
Proof.
  intros Hi -> Hm Ha Hp. pose proof (call_meets dx bf m OK i (S (S n)) fuel self args pre _ s0 Hi Hm Ha Hp) as E.
  etransitivity; [exact E|]. destruct o; reflexivity.
Qed.
Lemma call_read {A} i name self args s0 (o : outcome A) v (pre : rt -> st -> Prop) : In i (impl_fns dx bf) -> name = fn_name i ->
  fn_meets dx bf true i pre (fun _ s => x <- o ;; Val (v x, mem s)) -> args_env (fn_params i) args (self_env (fn_recv i) self) = Some s0 ->
  (lookup "*self" (mem s0) = Some self \/ lookup "*self" (mem s0) = None) -> pre r s0 ->
  call P m fuel (S (S (S n))) name self args = Some match o with Val x => Val (v x, self) | Panic => Panic end.
Proof.
  intros Hi -> Hm Ha Hc Hp. pose proof (call_meets dx bf m OK i (S (S n)) fuel self args pre _ s0 Hi Hm Ha Hp) as E.
  etransitivity; [exact E|]. destruct o; cbn [bind]; [|reflexivity]. destruct Hc as [-> | ->]; reflexivity.
Qed.
Lemma call_alone {A} i name args s0 (o : outcome A) v (pre : rt -> st -> Prop) : In i (impl_fns dx bf) -> name = fn_name i ->
  fn_meets dx bf true i pre (fun _ _ => alone o v) -> args_env (fn_params i) args (self_env (fn_recv i) RU) = Some s0 ->
  pre r s0 ->
  assigned (call P m fuel (S (S (S n))) name RU args) = Some match o with Val x => Val (RU, v x) | Panic => Panic end.
Proof.
  intros Hi -> Hm Ha Hp. pose proof (call_meets dx bf m OK i (S (S n)) fuel RU args pre _ s0 Hi Hm Ha Hp) as E.
  etransitivity; [apply f_equal; exact E|]. destruct o; reflexivity.
Qed.
Lemma run_alone {A} own i args s0 (o : outcome A) v (pre : rt -> st -> Prop) self :
  fn_meets dx bf own i pre (fun _ _ => alone o v) -> args_env (fn_params i) args (self_env (fn_recv i) RU) = Some s0 ->
  pre (mkRt m fuel (call P m fuel (S (S (S n))))) s0 ->
  kept self (run_fn P own i (mkRt m fuel (call P m fuel (S (S (S n))))) RU args) =
  Some match o with Val x => Val (v x, self) | Panic => Panic end.
Proof.
  intros (d & Hd & H) Ha Hp. unfold run_fn. unfold P. rewrite Hd, Ha. fold P. rewrite (H _ _ Hp). destruct o; reflexivity.
Qed.


Lemma in_new (d : bool) : a_new (b_args bf) = true -> In (if d then new_fn dx bf else new_without_defaults_fn dx bf) (impl_fns dx bf).
Proof. apply new_in. Qed.
Lemma in_conversion i : a_from_into_bits (b_args bf) = true -> In i (conversions dx bf) -> In i (impl_fns dx bf).
Proof. intros H Hi. unfold impl_fns. rewrite H. cbn [opt]. apply in_or_app. right. apply in_or_app. left. exact Hi. Qed.
Lemma in_getter f : In f (b_fields bf) -> has_getter f = true -> In (getter_fn bf f) (impl_fns dx bf).
Proof.
  intros H1 H2. unfold impl_fns. do 2 (apply in_or_app; right). apply in_or_app. left. apply in_map. apply filter_In. auto.
Qed.
Lemma in_write i : write_on bf = true ->
  In i (flat_map (fun v => [write_fn dx bf v false; write_fn dx bf v true]) variants ++ [write_defaults_fn dx bf]) -> In i (impl_fns dx bf).
Proof. intros H Hi. unfold impl_fns. rewrite H. cbn [opt]. do 4 (apply in_or_app; right). apply in_or_app. left. exact Hi. Qed.
Lemma in_set_get i : set_get_on bf = true ->
  In i [set_bit_fn bf; checked_set_bit_fn bf; set_range_fn bf; checked_set_range_fn bf;
        get_bit_fn bf; checked_get_bit_fn bf; get_range_fn bf; checked_get_range_fn bf] -> In i (impl_fns dx bf).
Proof. intros H Hi. unfold impl_fns. rewrite H. cbn [opt]. do 5 (apply in_or_app; right). apply in_or_app. left. exact Hi. Qed.
Lemma in_clear i : clear_on bf = true ->
  In i (clear_all_fn dx bf false :: clear_all_fn dx bf true ::
     map (clear_fn bf) (filter has_setter (b_fields bf)) ++
     map (clear_default_fn dx bf) (filter (fun f => has_setter f && has_default f) (b_fields bf))) -> In i (impl_fns dx bf).
Proof. intros H Hi. unfold impl_fns. rewrite H. cbn [opt]. do 6 (apply in_or_app; right). apply in_or_app. left. exact Hi. Qed.
Lemma in_invert i : invert_on bf = true ->
  In i (invert_all_fn bf :: map (invert_fn bf) (filter has_setter (b_fields bf)) ++ map (inverted_fn bf) (filter has_getter (b_fields bf))) ->
  In i (impl_fns dx bf).
Proof. intros H Hi. unfold impl_fns. rewrite H. cbn [opt]. do 7 (apply in_or_app; right). exact Hi. Qed.
Lemma in_write_v v d : In (write_fn dx bf v d) (flat_map (fun v => [write_fn dx bf v false; write_fn dx bf v true]) variants ++ [write_defaults_fn dx bf]).
Proof. destruct v, d; cbn; tauto. Qed.
Lemma in_from_v v d : In (from_fn dx bf v d) (conversions dx bf).
Proof. apply in_or_app. left. destruct v, d; cbn; tauto. Qed.
Lemma in_into_v v : In (into_fn bf v) (conversions dx bf).
Proof. apply in_or_app. right. apply in_or_app. right. apply in_or_app. left. destruct v; cbn; tauto. Qed.

Lemma data_env x v s : args_env [(x, data_ty bf)] [v] s = Some (push x v s).
Proof. clear. unfold data_ty. cbn [args_env]. destruct (b_ty bf); reflexivity. Qed.
Lemma own_data_env x v self : args_env [(x, data_ty bf)] [v] (self_env ByMut self) = Some (own_st [(x, v)] self).
Proof. rewrite data_env. reflexivity. Qed.
Lemma range_env o len v self : args_env [offset_p; length_p; ("value", data_ty bf)] [RI o; RI len; enc_store v] (self_env ByMut self) =
  Some (own_st (range_vargs o len v) self).
Proof. clear. unfold data_ty. cbn [args_env]. destruct (b_ty bf); reflexivity. Qed.

Ltac env := first [ reflexivity | apply bits_env | apply own_data_env | apply data_env | apply range_env ].
Ltac simple := first [ exact is_ready | split; [exact is_ready | reflexivity] | split; [exact is_ready | split; [exact is_calls | reflexivity]] ].
Ltac sets := match goal with
  | |- agrees (Hist.ret ?o) _ => unfold agrees, Hist.ret; destruct o as [s'|]; cbn [bind]; [eexists; split; reflexivity | reflexivity]
  | |- agrees (Hist.retr ?o) _ =>
      unfold agrees, Hist.retr; destruct o as [[s' []]|]; cbn [bind fst snd]; [eexists; split; reflexivity | eexists; split; reflexivity | reflexivity]
  end.
Ltac reads := match goal with
  | |- agrees (_ <- ?o ;; _) _ => unfold agrees; destruct o; cbn [bind]; [eexists; split; [reflexivity|] | reflexivity]
  end.
Tactic Notation "by_call" constr(H) constr(M) :=
  erewrite call_after; [| exact H | reflexivity | exact M | env | simple].
Tactic Notation "by_read" constr(H) constr(M) :=
  erewrite call_read; [| exact H | reflexivity | exact M | env | left; reflexivity | simple].

Lemma into_env v st0 : args_env (fn_params (into_fn bf v)) [] (self_env (fn_recv (into_fn bf v)) (enc_store st0)) = Some (into_st bf st0).
Proof. unfold into_fn, into_st. destruct (is_integer_backed bf); reflexivity. Qed.
Lemma into_name v : ("into_" ++ order_word v ++ word bf)%string = fn_name (into_fn bf v).
Proof. unfold into_fn, word. destruct (is_integer_backed bf) eqn:E; cbn [method fn_name]; unfold bob; rewrite ?E; destruct v; reflexivity. Qed.

Lemma invoke_agrees o s : offered bf o = true -> typed bf o -> store_ok bf s ->
  agrees (Hist.step m bf o s) (invoke dx bf m fuel (S (S (S n))) o (enc_store s)).
Proof.
  intros Ho Ht Hs. destruct (store_shape bf s Hs) as [Hok Hlen].
  unfold invoke. cbv zeta. fold P.
  destruct o; cbn [offered typed Hist.step] in *;
    repeat match goal with H : andb _ _ = true |- _ => apply andb_true_iff in H; destruct H end;
    repeat match goal with H : _ /\ _ |- _ => destruct H end.
  - (* OSet *) by_call (proj1 (setter_in dx bf f H Ho)) (setter_meets dx bf m OK f a s H (has_type_shape f a H0) Hok). sets.
  - by_call (proj2 (setter_in dx bf f H Ho)) (checked_setter_meets dx bf m OK f a s H (has_type_shape f a H0) Hok). sets.
  - (* OGet *) by_call (in_getter f Ht Ho) (getter_meets dx bf m OK f s Ht Hok). reads. reflexivity.
  - (* OInvert *)
    assert (Hi : In (invert_fn bf f) (impl_fns dx bf)) by (apply in_invert; [exact H|]; right; apply in_or_app; left; apply in_map, filter_In; auto).
    by_call Hi (invert_meets dx bf m OK f s Ht H0 Hok). sets.
  - assert (Hi : In (inverted_fn bf f) (impl_fns dx bf)) by (apply in_invert; [exact H|]; right; apply in_or_app; right; apply in_map, filter_In; auto).
    by_call Hi (inverted_meets dx bf m OK f s Ht Hok). reads. reflexivity.
  - (* OClear *)
    assert (Hi : In (clear_fn bf f) (impl_fns dx bf)) by (apply in_clear; [exact H|]; right; right; apply in_or_app; left; apply in_map, filter_In; auto).
    by_call Hi (clear_meets dx bf m OK f s Ht Hok). sets.
  - assert (Hi : In (clear_default_fn dx bf f) (impl_fns dx bf)).
    { apply in_clear; [exact H|]. right. right. apply in_or_app. right. apply in_map, filter_In. split; [exact Ht|]. apply andb_true_iff. auto. }
    by_call Hi (clear_default_meets dx bf m OK f s Ht H1 Hok). sets.
  - (* OClearAll *)
    assert (Hi : In (clear_all_fn dx bf defaults) (impl_fns dx bf)) by (apply in_clear; [exact Ho|]; destruct defaults; cbn; auto).
    by_call Hi (clear_all_meets dx bf m OK defaults s Hok). sets.
  - (* OInvertAll *)
    assert (Hi : In (invert_all_fn bf) (impl_fns dx bf)) by (apply in_invert; [exact Ho|]; left; reflexivity).
    by_call Hi (invert_all_meets dx bf m OK s Hok). sets.
  - (* OSetBit *) by_call (in_set_get (set_bit_fn bf) Ho ltac:(cbn; tauto)) (set_bit_meets dx bf m OK i b s Ht Hok). sets.
  - by_call (in_set_get (checked_set_bit_fn bf) Ho ltac:(cbn; tauto)) (checked_set_bit_meets dx bf m OK i b s Ht Hok). sets.
  - by_read (in_set_get (get_bit_fn bf) Ho ltac:(cbn; tauto)) (get_bit_meets dx bf m OK i s Ht Hok). reads. reflexivity.
  - by_read (in_set_get (checked_get_bit_fn bf) Ho ltac:(cbn; tauto)) (checked_get_bit_meets dx bf m OK i s Ht Hok). reads. destruct a; reflexivity.
  - (* OSetRange *) destruct (store_shape _ _ (number_ok bf x Hback H1)) as [Hx _].
    by_call (in_set_get (set_range_fn bf) Ho ltac:(cbn; tauto)) (set_range_meets dx bf m OK off len _ s H H0 Hx Hok). sets.
  - destruct (store_shape _ _ (number_ok bf x Hback H1)) as [Hx _].
    by_call (in_set_get (checked_set_range_fn bf) Ho ltac:(cbn; tauto)) (checked_set_range_meets dx bf m OK off len _ s H H0 Hx Hok). sets.
  - by_read (in_set_get (get_range_fn bf) Ho ltac:(cbn; tauto)) (get_range_meets dx bf m OK off len s H H0 Hok). reads. apply value_num_enc.
  - by_read (in_set_get (checked_get_range_fn bf) Ho ltac:(cbn; tauto)) (checked_get_range_meets dx bf m OK off len s H H0 Hok). reads.
    destruct a; cbn; [eexists; split; [reflexivity | apply value_num_enc] | reflexivity].
  - (* OWrite *) destruct (store_shape _ _ (number_ok bf b Hback Ht)) as [Hx _].
    by_call (in_write _ Ho (in_write_v v defaults)) (write_meets dx bf m OK v defaults _ s Hx Hok). sets.
  - by_call (in_write (write_defaults_fn dx bf) Ho ltac:(cbn; tauto)) (write_defaults_meets dx bf m OK s Hok). sets.
  - (* OInto *)
    pose proof (call_meets dx bf m OK _ (S (S n)) fuel (enc_store s) [] _ _ _ (in_conversion _ Ho (in_into_v v)) (into_meets dx bf m OK v s Hok)
      (into_env v s) (conj is_ready eq_refl)) as E. rewrite <- into_name in E. fold P in E. rewrite E. clear E.
    unfold agrees. destruct (Gen.into_data m bf v s); cbn [bind]; [|reflexivity]. eexists. split; [|apply value_num_enc].
    unfold into_st. destruct (is_integer_backed bf); reflexivity.
  - (* OTraitInto *)
    erewrite run_alone; [| exact (trait_into_meets dx bf m OK false s Hok Hlen) | reflexivity | split; [split; [reflexivity | exact Hfuel] | reflexivity]].
    reads. apply value_num_enc.
  - (* ONew *)
    assert (E := call_alone (if defaults then new_fn dx bf else new_without_defaults_fn dx bf) (if defaults then "new" else "new_without_defaults") []
      (mkSt [] []) _ _ _ (in_new defaults Ho) ltac:(destruct defaults; reflexivity) (new_meets dx bf m OK defaults)
      ltac:(destruct defaults; reflexivity) ltac:(simple)). rewrite E. clear E. sets.
  - (* ODefault *)
    erewrite run_alone; [| exact (default_meets dx bf m OK) | |].
    + destruct (Gen.default_bf m bf); cbn [Hist.ret bind agrees assigned]; [eexists; split; reflexivity | reflexivity].
    + unfold default_fn. destruct (a_new (b_args bf)); reflexivity.
    + split; [split; [reflexivity | exact Hfuel]|]. split; [apply calls_of; assumption|]. split; [|reflexivity].
      intros Ha. apply calls_new_of; assumption.
  - (* OFrom *) destruct (store_shape _ _ (number_ok bf b Hback Ht)) as [Hx _].
    erewrite call_alone; [| exact (in_conversion _ Ho (in_from_v v defaults)) | reflexivity | exact (from_meets dx bf m OK v defaults _ Hx) | env | simple].
    sets.
  - (* OTraitFrom *) destruct (store_shape _ _ (number_ok bf b Hback Ht)) as [Hx Hl].
    erewrite run_alone; [| exact (trait_from_meets dx bf m OK _ Hx Hl) | env |].
    + destruct (Gen.trait_from m bf (CoreLemmas.store_of bf b)); cbn [Hist.ret bind agrees assigned]; [eexists; split; reflexivity | reflexivity].
    + split; [split; [reflexivity | exact Hfuel]|]. split; [apply calls_of; assumption | reflexivity].
Qed.
End Step.
