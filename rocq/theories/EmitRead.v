(** The emitted getters and field inversions. *)
From Coq Require Import ZArith List Bool String Lia.
From Verif Require Import RustInt Syntax GenInt GenArr Spec BitsLemmas CoreLemmas Rust RustLemmas Surface Emit EmitVocab
  EmitLemmas EmitArr EmitArrPut EmitField EmitDefault EmitFns.
From Verif Require Gen.
Import ListNotations.
Open Scope string_scope.
Open Scope list_scope.
Open Scope Z_scope.

Section Value.
Variables (bf : bitfield) (G : genv) (m : mode).
Hypothesis Hback : backing_ok (b_ty bf).
Hypothesis K : knows bf false G.

(** ** Sign extension: GH:930-946 *)

Definition signed_field (f : field) : bool := match f_ty f with DInteger t => negb (ity_unsigned t) | _ => false end.
Definition sign_ctx (f : field) : tctx :=
  match f_ty f with
  | DInteger t => if ity_unsigned t then []
                  else [("value", (false, TI t)); ("value", (false, TI t)); ("shift", (false, TI U32))]
  | _ => []
  end.
Definition sign_ty (f : field) : ty :=
  match f_ty f with DInteger t => if ity_unsigned t then ext_ty bf f else TI t | _ => ext_ty bf f end.
Lemma ext_int f t : f_ty f = DInteger t -> exists q, int_of (ext_ty bf f) = Some q.
Proof.
  intros E. unfold ext_ty, src_ty. rewrite E. destruct (b_ty bf) as [T|n|] eqn:Hty.
  - destruct Hback as [H1 H2]. rewrite int_of_int by exact H2. eauto.
  - eexists; reflexivity.
  - destruct Hback.
Qed.
Lemma frag_sign C f mu v : small bf f -> val_shape bf f v -> lookup "value" C = Some (mu, ext_ty bf f) ->
  frag G C (sign_extend f) (sign_ctx f ++ C)
    (fun r s => ready m r /\ lookup "value" (loc s) = Some (enc_pval v))
    (fun r s => out (Gen.sign_extend m f v) (fun q s' => val_shape bf f q /\ lookup "value" (loc s') = Some (enc_pval q) /\
       exists L, among ["value"; "shift"] L /\ s' = pushes L s)).
Proof.
  intros Hs Hv Hl. unfold sign_extend, sign_ctx, Gen.sign_extend.
  assert (N : frag G C [] C (fun r s => ready m r /\ lookup "value" (loc s) = Some (enc_pval v))
     (fun r s => out (Val v) (fun q s' => val_shape bf f q /\ lookup "value" (loc s') = Some (enc_pval q) /\
       exists L, among ["value"; "shift"] L /\ s' = pushes L s))).
  { eapply frag_weaken; [apply (frag_nil G C (fun _ _ => True))|]. intros r s [_ H]. split; [exact I|]. cbn [out refines].
    intros s' ->. split; [exact Hv|]. split; [exact H|]. exists []. split; [am | reflexivity]. }
  destruct (f_ty f) as [t|len|] eqn:Ef; [|exact N|exact N].
  assert (Hz : exists z, v = PInt z).
  { unfold val_shape in Hv. rewrite Ef in Hv. destruct (b_ty bf), v; try contradiction; eauto. }
  destruct Hz as [z ->]. destruct (ity_unsigned t) eqn:Eu; [exact N|]. clear N.
  destruct (ext_int f t Ef) as [q Hq].
  assert (Hb : t <> TBool) by (intros ->; discriminate). pose proof (int_of_int t Hb) as It. rewrite Eu in It. cbn [negb] in It.
  pose proof (size_small _ Hback). destruct Hs as (Hs1 & Hs2 & Hs3 & _).
  assert (W1 : wrap (TI U32) (ity_bits t) = ity_bits t) by (destruct t; reflexivity).
  assert (W2 : wrap (TI U32) (f_bits f) = f_bits f) by (cbn [wrap]; apply Z.mod_small; split; [lia|]; change (ity_bits U32) with 32; lia).
  start. eexists. split; [bl|]. intros r s [[Hm Hfu] Hh]. cbn [enc_pval] in Hh.
  apply meets_let. run0. rewrite W1, W2, Hm. unfold bind.
  destruct (usub m 32 (ity_bits t) (f_bits f)) as [sh|]; [|reflexivity].
  apply meets_let. run0. look. rewrite Hh. apply meets_let. run0. look. rewrite Hm. cbn [wrap].
  destruct (sshl m (ity_bits t) (cast t z) sh) as [x|]; [|reflexivity]. look.
  destruct (sshr m (ity_bits t) x sh) as [y|]; [|reflexivity].
  cbn [out meets]. eexists. split; [|reflexivity]. split; [unfold val_shape in *; rewrite Ef in *; destruct (b_ty bf); auto|].
  split; [look; reflexivity|].
  exists [("value", RI y); ("value", RI (cast t z)); ("shift", RI sh)]. split; [am | reflexivity].
Qed.

(** ** The returned value: field_getters_feature.rs:74-115, invert_bit_ops_feature.rs:182-218 *)

Lemma to_field_eq f : value_to_field bf f = value_ret bf f.
Proof. unfold value_to_field, value_ret. destruct (f_ty f) as [[]| |]; reflexivity. Qed.
Lemma gen_to_field_eq f v : Gen.value_to_field m f v = Gen.value_return m f v.
Proof. unfold Gen.value_to_field, Gen.value_return. destruct (f_ty f) as [[]| |], v; reflexivity. Qed.
Lemma ret_shape f v a : val_shape bf f v -> Gen.value_return m f v = Val a -> shape f a.
Proof.
  unfold val_shape, Gen.value_return, shape. destruct (f_ty f) as [t|len|].
  - destruct t, v; try discriminate; intros _ H; inversion H; exact I.
  - destruct v; try discriminate; unfold bind.
    + destruct (unpack_int _ _ _); [|discriminate]. intros _ H; inversion H; exact I.
    + intros _ H; inversion H; exact I.
  - destruct v; try discriminate. intros _ H; inversion H; exact I.
Qed.
Definition ret_ty (f : field) (vt : ty) : Prop :=
  match b_ty bf, f_ty f with
  | DArray _, DArray len => vt = TArr U8 len
  | _, _ => exists q, int_of vt = Some q
  end.
Lemma ev_ret C f mu vt v : In f (b_fields bf) -> small bf f -> val_shape bf f v -> ret_ty f vt ->
  lookup "value" C = Some (mu, vt) ->
  ev G C (Some (field_ty f)) (value_ret bf f) (field_ty f)
    (fun r s => ready m r /\ lookup "value" (loc s) = Some (enc_pval v))
    (fun _ _ => a <- Gen.value_return m f v ;; Val (enc_fval a)).
Proof.
  intros Hf Hs Hv Ht Hl. unfold value_ret, field_ty, Gen.value_return, is_integer_backed, ret_ty, val_shape in *.
  destruct (f_ty f) as [t|len|] eqn:Ef.
  - assert (Hz : exists z, v = PInt z) by (destruct (b_ty bf), v; try contradiction; eauto). destruct Hz as [z ->].
    assert (Hq : exists q, int_of vt = Some q) by (destruct (b_ty bf); exact Ht). destruct Hq as [q Hq].
    assert (Hb : t = TBool \/ t <> TBool) by (destruct t; [right; discriminate .. | left; reflexivity]).
    destruct Hb as [->|Hb].
    + eapply ev_weaken; [eapply (ev_value_bool G C _ mu vt q z (fun r s => lookup "value" (loc s) = Some (RI z))); auto|].
      intros r s [_ H]. split; [exact H | reflexivity].
    + pose proof (int_of_int t Hb) as It.
      assert (R : ev G C (Some (TI t)) (as_any (V "value")) (TI t)
         (fun r s => ready m r /\ lookup "value" (loc s) = Some (enc_pval (PInt z))) (fun _ _ => Val (RI (cast t z)))).
      { unfold as_any. eexists. split; [eapply E_cast_any; [exact It | eapply E_var; exact Hl | exact Hq]|].
        intros r s [_ H]. run1. rewrite H. reflexivity. }
      destruct t; try exact R; congruence.
  - destruct Hs as (_ & _ & _ & Hlen & _). specialize (Hlen len Ef).
    destruct (b_ty bf) as [T|n|] eqn:Hty; [| |destruct Hback].
    + destruct v as [z| | |]; try contradiction. destruct Ht as [q Hq].
      eapply ev_weaken; [eapply (ev_unpack G C _ m "__val" (V "value") len vt q
          (fun r s => ready m r /\ lookup "value" (loc s) = Some (RI z)) (fun _ _ => Val z)); [cbn; auto | exact Hq | lia | tauto |]|].
      * eexists. split; [eapply E_var; exact Hl|]. intros r s [_ H]. unfold d_var. rewrite H. reflexivity.
      * intros r s H. split; [exact H|]. cbn [bind]. destruct (unpack_int m len (ucast 128 z)); reflexivity.
    + destruct v as [| |l|]; try contradiction. subst vt.
      eexists. split; [eapply E_var; exact Hl|]. intros r s [_ H]. unfold d_var. rewrite H. reflexivity.
  - assert (Hz : exists z, v = PInt z) by (destruct (b_ty bf), v; try contradiction; eauto). destruct Hz as [z ->].
    assert (Hq : exists q, int_of vt = Some q) by (destruct (b_ty bf); exact Ht). destruct Hq as [q Hq].
    eapply ev_weaken; [eapply (ev_value_custom bf false G K C _ f mu vt q z (fun r s => lookup "value" (loc s) = Some (RI z))); auto|].
    intros r s [_ H]. split; [exact H | reflexivity].
Qed.
Lemma ret_ext f : ret_ty f (ext_ty bf f).
Proof.
  unfold ret_ty, ext_ty, src_ty. destruct (b_ty bf) as [T|n|] eqn:Hty; [| |destruct Hback].
  - destruct Hback as [H1 H2]. rewrite int_of_int by exact H2. eauto.
  - destruct (f_ty f); try reflexivity; eexists; reflexivity.
Qed.
Lemma ret_sign f : ret_ty f (sign_ty f).
Proof.
  pose proof (ret_ext f) as H. unfold sign_ty, ret_ty in *. destruct (f_ty f) as [t|len|]; try exact H.
  destruct (ity_unsigned t) eqn:Eu; [exact H|].
  assert (Hb : t <> TBool) by (intros ->; discriminate). rewrite int_of_int by exact Hb.
  destruct (b_ty bf); eauto.
Qed.
Lemma sign_value C f : lookup "value" C = Some (false, ext_ty bf f) -> lookup "value" (sign_ctx f ++ C) = Some (false, sign_ty f).
Proof.
  intros H. unfold sign_ctx, sign_ty. destruct (f_ty f) as [t|len|]; try exact H. destruct (ity_unsigned t); [exact H | reflexivity].
Qed.
Lemma whole_store : whole_ty bf (store_ty bf).
Proof.
  unfold whole_ty, store_ty, is_heap, data_ty, is_integer_backed. destruct (b_ty bf) as [T|n|]; [| |destruct Hback].
  - rewrite andb_false_r. reflexivity.
  - destruct (a_array_heap (b_args bf)); reflexivity.
Qed.
End Value.

Section Read.
Variables (dx : field -> expr) (bf : bitfield) (m : mode).
Hypothesis OK : emit_ok dx bf.
Let P := emitted dx bf.
Let Hback := eo_back _ _ OK.
Let Hsmall := eo_small _ _ OK.

Lemma source_place own i C mu mt : lookup "this" C = Some (mt, TRef mu TSelf) ->
  place (genv_of P own i) C (source false false) = Some (store_ty bf, mu, spot "this" true).
Proof. intros H. unfold source, val. erewrite P_val; [reflexivity|]. eapply (ref_place dx bf). exact H. Qed.

(** [let this = self;] and the extraction. *)
Lemma frag_read i f inv mu st0 : fn_const i = is_const bf -> fn_params i = [] -> self_ctx true (fn_recv i) = [("self", (false, TRef mu TSelf))] ->
  In f (b_fields bf) -> ok_store bf st0 ->
  frag (genv_of P true i) (ctx_of true i) (this_self :: extract bf false inv false false f)
    (ext_ctx bf f ++ [("this", (false, TRef mu TSelf)); ("self", (false, TRef mu TSelf))])
    (fun r s => ready m r /\ s = own_st [] (enc_store st0))
    (fun r s => out (Gen.extract_src m bf f inv st0) (fun v s' => val_shape bf f v /\
       lookup "value" (loc s') = Some (enc_pval v) /\ has "this" true s' (enc_store st0) /\ mem s' = [("*self", enc_store st0)] /\
       forall w, mem (store_at "this" true w s') = [("*self", w)])).
Proof.
  intros Hc Hps Hsc Hf Hok. pose proof (knows_own dx bf OK i (or_introl Hc)) as K.
  assert (Ec : ctx_of true i = [("self", (false, TRef mu TSelf))]) by (unfold ctx_of; rewrite Hps, Hsc; reflexivity).
  rewrite Ec. eapply frag_weaken.
  - eapply (frag_self dx bf true _ _ (TRef mu TSelf) (RRef "*self")); [reflexivity|].
    eapply (frag_extract bf false _ m Hback K _ f inv false true (store_ty bf) mu st0); auto.
    apply whole_store. exact Hback.
  - intros r s [Hr ->]. destruct (own_this [] (enc_store st0) RU) as [Hh _].
    split; [split; [reflexivity|]; split; assumption|]. cbv beta.
    destruct (Gen.extract_src m bf f inv st0) as [v|]; cbn [out refines]; [|reflexivity].
    intros s1 (Hv & L & HL & ->). split; [exact Hv|]. split; [look; reflexivity|].
    change (push "value" (enc_pval v) (pushes L (push "this" (RRef "*self") (own_st [] (enc_store st0)))))
      with (pushes (("value", enc_pval v) :: L) (push "this" (RRef "*self") (own_st [] (enc_store st0)))).
    assert (HL' : among temps (("value", enc_pval v) :: L)).
    { constructor; [cbn; tauto|]. eapply among_sub; [|exact HL]. cbn; tauto. }
    assert (N : ~ In "this" temps) by (cbn; intuition discriminate).
    split; [eapply has_pushes; eassumption|]. split; [rewrite mem_pushes; reflexivity|].
    intros w. rewrite (store_pushes temps) by assumption. rewrite mem_pushes. apply own_this.
Qed.

(** [x()] : field_getters_feature.rs:37-71 *)
Lemma getter_meets f st0 : In f (b_fields bf) -> ok_store bf st0 ->
  fn_meets dx bf true (getter_fn bf f) (fun r s => ready m r /\ s = own_st [] (enc_store st0))
    (fun _ _ => after (Gen.get_field m bf f st0) enc_fval (fun _ => enc_store st0)).
Proof.
  intros Hf Hok. pose proof (knows_own dx bf OK (getter_fn bf f) (or_introl eq_refl)) as K.
  destruct (some_val bf Hback f) as [v0 Hv0].
  eapply (fn_frag_ev' dx bf (val_shape bf f) v0); [exact Hv0 | reflexivity | | |].
  - rewrite app_comm_cons. eapply frag_app' with (P := val_shape bf f) (a0 := v0)
      (post := fun _ s => out (p <- Gen.extract_src m bf f false st0 ;; Gen.sign_extend m f p) (fun v s' => val_shape bf f v /\
       lookup "value" (loc s') = Some (enc_pval v) /\ mem s' = [("*self", enc_store st0)])); [exact Hv0 | | |].
    + apply (frag_read (getter_fn bf f) f false false st0); auto.
    + intros v Hv. apply (frag_sign bf _ m Hback _ f false v); auto. apply ext_ctx_value. exact Hback.
    + intros r s H. split; [exact H|]. destruct H as [Hr _]. cbv beta. unfold bind.
      destruct (Gen.extract_src m bf f false st0) as [v|]; cbn [out]; [|reflexivity].
      intros s1 (Hv & Hl & _ & Hm & _). exists v. split; [exact Hv|]. split; [split; assumption|].
      destruct (Gen.sign_extend m f v) as [q|]; cbn [out refines]; [|reflexivity].
      intros s2 (Hq & Hl2 & L2 & HL2 & ->). split; [exact Hq|]. split; [exact Hl2|]. rewrite mem_pushes. exact Hm.
  - intros v Hv. apply (ev_ret bf _ m Hback K _ f false (sign_ty bf f) v); auto.
    + apply ret_sign. exact Hback.
    + apply sign_value. apply ext_ctx_value. exact Hback.
  - intros r s H. split; [exact H|]. destruct H as [Hr _]. unfold Gen.get_field, after, bind.
    destruct (Gen.extract_src m bf f false st0) as [v|]; cbn [out]; [|reflexivity].
    destruct (Gen.sign_extend m f v) as [q|]; cbn [out]; [|reflexivity].
    intros s1 (Hq & Hl & Hm). exists q. split; [exact Hq|]. split; [split; assumption|].
    rewrite Hm. destruct (Gen.value_return m f q); reflexivity.
Qed.

(** [x_inverted()] : invert_bit_ops_feature.rs:144-180 *)
Lemma inverted_meets f st0 : In f (b_fields bf) -> ok_store bf st0 ->
  fn_meets dx bf true (inverted_fn bf f) (fun r s => ready m r /\ s = own_st [] (enc_store st0))
    (fun _ _ => after (Gen.inverted_field m bf f st0) enc_fval (fun _ => enc_store st0)).
Proof.
  intros Hf Hok. pose proof (knows_own dx bf OK (inverted_fn bf f) (or_introl eq_refl)) as K.
  destruct (some_val bf Hback f) as [v0 Hv0].
  eapply (fn_frag_ev' dx bf (val_shape bf f) v0); [exact Hv0 | reflexivity | | |].
  - apply (frag_read (inverted_fn bf f) f true false st0); auto.
  - intros v Hv. rewrite to_field_eq. apply (ev_ret bf _ m Hback K _ f false (ext_ty bf f) v); auto.
    + apply ret_ext. exact Hback.
    + apply ext_ctx_value. exact Hback.
  - intros r s H. split; [exact H|]. destruct H as [Hr _]. unfold Gen.inverted_field, after, bind.
    destruct (Gen.extract_src m bf f true st0) as [v|]; cbn [out]; [|reflexivity].
    intros s1 (Hq & Hl & _ & Hm & _). exists v. split; [exact Hq|]. split; [split; assumption|].
    rewrite Hm, gen_to_field_eq. destruct (Gen.value_return m f v); reflexivity.
Qed.

(** [invert_x()] : invert_bit_ops_feature.rs:110-143 *)
Lemma invert_meets f st0 : In f (b_fields bf) -> has_setter f = true -> ok_store bf st0 ->
  fn_meets dx bf true (invert_fn bf f) (fun r s => ready m r /\ calls bf m r /\ s = own_st [] (enc_store st0))
    (fun _ _ => after (Gen.invert_field m bf f st0) (fun _ => RU) enc_store).
Proof.
  intros Hf Hset Hok. pose proof (knows_own dx bf OK (invert_fn bf f) (or_introl eq_refl)) as K.
  destruct (some_val bf Hback f) as [v0 Hv0].
  eapply (fn_frag_unit dx bf); [reflexivity | reflexivity | |].
  - rewrite app_comm_cons. eapply frag_app' with (P := val_shape bf f) (a0 := v0)
      (pre := fun r s => ready m r /\ calls bf m r /\ s = own_st [] (enc_store st0))
      (post := fun _ s => out (Gen.invert_field m bf f st0) (fun st1 s' => mem s' = [("*self", enc_store st1)]));
      [exact Hv0 | | |].
    + apply (frag_read (invert_fn bf f) f true true st0); auto.
    + intros v Hv. destruct (ev_ret bf _ m Hback K (ext_ctx bf f ++ [("this", (false, TRef true TSelf)); ("self", (false, TRef true TSelf))]) f false (ext_ty bf f) v) as (d & E & R); auto.
      { apply ret_ext. exact Hback. }
      { apply ext_ctx_value. exact Hback. }
      rewrite to_field_eq.
      eapply frag_stmt with
        (pre := fun r s => (ready m r /\ calls bf m r) /\ lookup "value" (loc s) = Some (enc_pval v) /\
           has "this" true s (enc_store st0) /\ forall w, mem (store_at "this" true w s) = [("*self", w)])
        (post := fun _ s => out (a <- Gen.value_return m f v ;; Gen.set_field m bf f a st0) (fun st1 s' => mem s' = [("*self", enc_store st1)])).
      { reflexivity. }
      { eapply S_expr, E_call; [ | exact (l_set _ _ (k_links _ _ _ K) f Hf Hset) | exact E | apply ty_eqb_refl | exact (l_allowed _ _ (k_links _ _ _ K))].
        apply (place_temps false); [apply ext_ctx_temps; exact Hback | eapply (ref_place dx bf); reflexivity]. }
      intros r s ([Hr Hc] & Hl & Hh & Hm). unfold d_call. rewrite R by (split; assumption). unfold bind.
      destruct (Gen.value_return m f v) as [a|] eqn:Ea; cbn [lift dbind out]; [|reflexivity].
      rewrite (read_has _ _ _ _ Hh). cbn [dbind].
      assert (Sa : shape f a).
      { eapply ret_shape; eassumption. }
      destruct (Hc f a st0 Hf Hset Sa Hok) as [-> _].
      unfold bind. destruct (Gen.set_field m bf f a st0) as [st1|] eqn:E1; cbn [lift dbind out fst snd]; [|reflexivity].
      rewrite (write_has _ _ _ _ _ Hh). cbn [dbind]. apply Hm.
    + intros r s (Hr & Hc & ->). split; [split; [exact Hr | reflexivity]|]. cbv beta. unfold Gen.invert_field, bind at 1.
      destruct (Gen.extract_src m bf f true st0) as [v|]; cbn [out]; [|reflexivity].
      intros s1 (Hv & Hl & Hh & _ & Hm). exists v. split; [exact Hv|]. split; [split; [split; assumption|]; split; [exact Hl|]; split; assumption|].
      cbv beta. rewrite <- gen_to_field_eq. unfold bind. destruct (Gen.value_to_field m f v) as [a|]; [destruct (Gen.set_field m bf f a st0)|]; cbn [out refines]; auto.
  - intros r s H. split; [exact H|]. unfold after. destruct (Gen.invert_field m bf f st0) as [st1|]; cbn [out]; [|reflexivity].
    intros s1 ->. reflexivity.
Qed.
End Read.
