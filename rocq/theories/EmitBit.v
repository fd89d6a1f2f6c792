(** The emitted bit operations. *)
From Coq Require Import ZArith List Bool String Lia.
From Verif Require Import RustInt Syntax GenInt GenArr Spec BitsLemmas CoreLemmas Rust RustLemmas Surface Emit EmitVocab
  EmitLemmas EmitArr EmitArrPut EmitField EmitDefault EmitFns EmitRead EmitNew EmitConv EmitData EmitGuard.
From Verif Require Gen.
Import ListNotations.
Open Scope string_scope.
Open Scope list_scope.
Open Scope Z_scope.

Section Bit.
Variables (bf : bitfield) (G : genv) (m : mode).
Hypothesis Hback : backing_ok (b_ty bf).
Hypothesis K : knows bf false G.

(** set_get_bit_ops_feature.rs:103-107, 118-122, 167-173, 184-190 *)
Lemma frag_set_bit C mo mb o b st0 : place G C (this false) = Some (TSelf, true, spot "this" true) ->
  lookup "offset" C = Some (mo, TI U32) -> lookup "bit" C = Some (mb, TI TBool) -> ok_store bf st0 -> 0 <= o < 2 ^ 32 ->
  exists C', frag G C (set_bit_stmts bf) C'
    (fun r s => ready m r /\ has "this" true s (enc_store st0) /\ at_u32 "offset" o s /\ lookup "bit" (loc s) = Some (RB b))
    (fun _ s => out (Gen.set_bit_body m bf o b st0) (fun st1 s' => mem s' = mem (store_at "this" true (enc_store st1) s))).
Proof.
  intros Hp Ho Hb Hok Hr. unfold set_bit_stmts, Gen.set_bit_body.
  destruct (backing_cases bf Hback) as [(t & Hty)|(n & Hty)]; unfold is_integer_backed; rewrite Hty.
  - destruct (store_I bf t st0 Hty Hok) as [z ->]. pose proof (int_T bf t Hty Hback) as IT. pose proof (back_T bf false G t Hty K) as HB.
    eexists. opn. eapply frag_stmt; [reflexivity | sl |].
    intros r s ([Hm _] & Hh & Hoff & Hbit). unfold at_u32 in Hoff. cbn [enc_store] in *.
    pose proof (wrap_T1 bf t Hty Hback) as W1. destruct b; sim; rewrite W1; unfold out, bind; destruct (shl m (ity_bits t) 1 o) as [one|] eqn:E1; sim;
      rewrite ?W1; sim; rewrite ?E1; sim; reflexivity.
  - destruct (store_A bf n st0 Hty Hok) as [l ->]. pose proof (back_A bf false G n Hty K) as HB. pose proof (elem_A bf n) as HE.
    eexists. start. eexists. split; [eapply B_let; [reflexivity | el |]; eapply B_let; [reflexivity | el |]; eapply B_stmt; [reflexivity | sl | exact Hr0]|].
    intros r s ([Hm _] & Hh & Hoff & Hbit). unfold at_u32 in Hoff. cbn [enc_store] in *.
    apply meets_let. run0. rewrite Hoff. lits. apply meets_let. run0. look. rewrite Hoff. lits. apply meets_seq.
    unfold write_bit, out. destruct b; sim; pass; cbn [meets]; try (eexists; split; [|reflexivity]; sim; reflexivity).
Qed.

(** 308-322, 356-374 *)
Definition get_ctx : tctx := if is_integer_backed bf then [] else [("bit_in_byte", (false, TI U32)); ("byte_idx", (false, TI U32))].
Definition get_env (o : Z) : env := if is_integer_backed bf then [] else [("bit_in_byte", RI (o mod 8)); ("byte_idx", RI (o / 8))].
Lemma frag_get_bit C mo o : lookup "offset" C = Some (mo, TI U32) ->
  frag G C (get_bit_stmts bf) (get_ctx ++ C) (fun r s => ready m r /\ at_u32 "offset" o s)
    (fun _ s => Next (fun s' => s' = pushes (get_env o) s)).
Proof.
  intros Ho. unfold get_bit_stmts, get_ctx, get_env. destruct (is_integer_backed bf).
  - eapply frag_weaken; [apply frag_nil with (pre := fun _ _ => True)|]. intros r s _. split; [exact I|]. cbn. auto.
  - start. eexists. split; [eapply B_let; [reflexivity | el |]; eapply B_let; [reflexivity | el | exact Hr]|].
    intros r s ([Hm _] & Hoff). unfold at_u32 in Hoff.
    apply meets_let. run0. rewrite Hoff. lits. apply meets_let. run0. look. rewrite Hoff. lits.
    eexists. split; [|reflexivity]. reflexivity.
Qed.
Lemma ev_get_bit C h mu mo o st0 : place G C (this false) = Some (TSelf, mu, spot "this" true) ->
  lookup "offset" C = Some (mo, TI U32) -> ok_store bf st0 -> 0 <= o < 2 ^ 32 ->
  ev G (get_ctx ++ C) h (get_bit_expr bf) (TI TBool)
    (fun r s => exists s0, s = pushes (get_env o) s0 /\ ready m r /\ has "this" true s0 (enc_store st0) /\ at_u32 "offset" o s0)
    (fun _ _ => b <- Gen.get_bit_body m bf o st0 ;; Val (RB b)).
Proof.
  intros Hp Ho Hok Hr. unfold get_bit_expr, get_ctx, get_env, Gen.get_bit_body.
  destruct (backing_cases bf Hback) as [(t & Hty)|(n & Hty)]; unfold is_integer_backed; rewrite Hty.
  - destruct (store_I bf t st0 Hty Hok) as [z ->]. pose proof (int_T bf t Hty Hback) as IT. pose proof (back_T bf false G t Hty K) as HB.
    cbn [app]. opn. eexists. split; [el|]. intros r s (s0 & -> & [Hm _] & Hh & Hoff). unfold at_u32 in Hoff. cbn [enc_store pushes] in *.
    sim. unfold bind. destruct (shr m (ity_bits t) z o); sim; [|reflexivity].
    rewrite (wrap_T1 bf t Hty Hback), (wrap_T0 bf t Hty Hback). reflexivity.
  - destruct (store_A bf n st0 Hty Hok) as [l ->]. pose proof (back_A bf false G n Hty K) as HB. pose proof (elem_A bf n) as HE.
    cbn [app]. opn. eexists. split; [el|]. intros r s (s0 & -> & [Hm _] & Hh & Hoff). unfold at_u32 in Hoff. cbn [enc_store pushes] in *.
    sim. wd. unfold bind. destruct (arr_get l (o / 8)); sim; [|reflexivity]. destruct (shr m 8 _ _); sim; reflexivity.
Qed.
End Bit.

Section Fns.
Variables (dx : field -> expr) (bf : bitfield) (m : mode).
Hypothesis OK : emit_ok dx bf.
Let P := emitted dx bf.
Let Hback := eo_back _ _ OK.
Let Hsmall := eo_small _ _ OK.

Lemma ignored_not_const own i : fn_const i = is_const bf -> b_ignored bf <> [] -> g_isconst (genv_of P own i) = false.
Proof. intros H Hn. cbn [genv_of g_isconst]. rewrite H. unfold is_const. destruct (b_ignored bf); [contradiction | reflexivity]. Qed.

(** [offset] and [bit] as arguments. *)
Definition bit_args (o : Z) (b : bool) : env := [("offset", RI o); ("bit", RB b)].
(** [set_bit(offset, bit)]: set_get_bit_ops_feature.rs:97-108, 161-174 *)
Lemma set_bit_meets o b st0 : 0 <= o < 2 ^ 32 -> ok_store bf st0 ->
  fn_meets dx bf true (set_bit_fn bf) (fun r s => ready m r /\ s = own_st (bit_args o b) (enc_store st0))
    (fun _ _ => after (Gen.set_bit m bf o b st0) (fun _ => RU) enc_store).
Proof.
  intros Ho Hok. set (i := set_bit_fn bf). pose proof (knows_own dx bf OK i (or_introl eq_refl)) as K.
  set (C := ("this", (false, TRef true TSelf)) :: ctx_of true i).
  destruct (frag_set_bit bf (genv_of P true i) m Hback K C false false o b st0 ltac:(eapply P_ref; reflexivity) eq_refl eq_refl Hok Ho) as (C' & F3).
  assert (F1 := frag_offset bf (genv_of P true i) Hback C false o ret_unit RU eq_refl ltac:(apply leaves_unit; reflexivity)).
  assert (F2 := frag_guards bf (genv_of P true i) Hback Hsmall C false o Gen.no_setter ret_unit RU eq_refl ltac:(apply leaves_unit; reflexivity) (ignored_not_const true i eq_refl)).
  pose proof (frag_gate _ _ _ _ _ _ _ _ _ _ _ F2 F3 (fun r s H => H)) as F23. cbv beta in F23.
  pose proof (frag_gate _ _ _ _ _ _ _ _ _ _ _ F1 F23 (fun r s H => H)) as F. cbv beta in F.
  eapply fn_frag_unit; [reflexivity | reflexivity | eapply (frag_self dx bf true i _ (TRef true TSelf) (RRef "*self")); [reflexivity | exact F] |].
  intros r s [Hr ->]. destruct (own_this (bit_args o b) (enc_store st0) RU) as [Hh _].
  split; [split; [reflexivity|]; repeat split; try reflexivity; [apply Hr | apply Hr | exact Hh]|].
  unfold Gen.set_bit, gate. destruct (Gen.bf_size bf <=? o); [reflexivity|]. destruct (Gen.access_guard _ _ _); [reflexivity|].
  destruct (Gen.set_bit_body _ _ _ _ _) as [st1|]; cbn [out]; [|reflexivity]. intros s1 ->. reflexivity.
Qed.
Lemma checked_set_bit_meets o b st0 : 0 <= o < 2 ^ 32 -> ok_store bf st0 ->
  fn_meets dx bf true (checked_set_bit_fn bf) (fun r s => ready m r /\ s = own_st (bit_args o b) (enc_store st0))
    (fun _ _ => after (Gen.checked_set_bit m bf o b st0) (fun q => enc_res (snd q)) (fun q => enc_store (fst q))).
Proof.
  intros Ho Hok. set (i := checked_set_bit_fn bf). pose proof (knows_own dx bf OK i (or_introl eq_refl)) as K.
  set (C := ("this", (false, TRef true TSelf)) :: ctx_of true i).
  destruct (frag_set_bit bf (genv_of P true i) m Hback K C false false o b st0 ltac:(eapply P_ref; reflexivity) eq_refl eq_refl Hok Ho) as (C' & F3).
  assert (F1 := frag_offset bf (genv_of P true i) Hback C false o (err Gen.msg_offset) _ eq_refl ltac:(apply (leaves_err _ C TUnit); reflexivity)).
  assert (F2 := frag_guards bf (genv_of P true i) Hback Hsmall C false o Gen.no_setter (err Gen.msg_write) _ eq_refl ltac:(apply (leaves_err _ C TUnit); reflexivity) (ignored_not_const true i eq_refl)).
  pose proof (frag_gate _ _ _ _ _ _ _ _ _ _ _ F2 F3 (fun r s H => H)) as F23. cbv beta in F23.
  pose proof (frag_gate _ _ _ _ _ _ _ _ _ _ _ F1 F23 (fun r s H => H)) as F. cbv beta in F.
  eapply fn_frag_ev with (pret := fun _ _ => True) (G := fun _ _ => Val (ROk RU));
    [reflexivity | eapply (frag_self dx bf true i _ (TRef true TSelf) (RRef "*self")); [reflexivity | exact F] | |].
  { eexists. split; [eapply E_ok, E_unit|]. reflexivity. }
  intros r s [Hr ->]. destruct (own_this (bit_args o b) (enc_store st0) RU) as [Hh _].
  split; [split; [reflexivity|]; repeat split; try reflexivity; [apply Hr | apply Hr | exact Hh]|].
  unfold Gen.checked_set_bit, gate. destruct (Gen.bf_size bf <=? o); [reflexivity|]. destruct (Gen.access_guard _ _ _); [reflexivity|].
  unfold bind. destruct (Gen.set_bit_body _ _ _ _ _) as [st1|]; cbn [out]; [|reflexivity]. intros s1 ->. split; [exact I | reflexivity].
Qed.

(** [get_bit(offset)]: 308-313, 356-363 *)
Lemma get_bit_meets o st0 : 0 <= o < 2 ^ 32 -> ok_store bf st0 ->
  fn_meets dx bf true (get_bit_fn bf) (fun r s => ready m r /\ s = own_st [("offset", RI o)] (enc_store st0))
    (fun _ s => b <- Gen.get_bit m bf o st0 ;; Val (RB b, mem s)).
Proof.
  intros Ho Hok. set (i := get_bit_fn bf). pose proof (knows_own dx bf OK i (or_introl eq_refl)) as K.
  set (C := ("this", (false, TRef false TSelf)) :: ctx_of true i).
  assert (F3 := frag_get_bit bf (genv_of P true i) m C false o eq_refl).
  assert (F1 := frag_offset bf (genv_of P true i) Hback C false o ret_false _ eq_refl ltac:(apply leaves_false; reflexivity)).
  assert (F2 := frag_guards bf (genv_of P true i) Hback Hsmall C false o Gen.no_read ret_false _ eq_refl ltac:(apply leaves_false; reflexivity) (ignored_not_const true i eq_refl)).
  pose proof (frag_gate _ _ _ _ _ _ _ _ _ _ _ F2 F3 (fun r s H => H)) as F23. cbv beta in F23.
  pose proof (frag_gate _ _ _ _ _ _ _ _ _ _ _ F1 F23 (fun r s H => H)) as F. cbv beta in F.
  eapply fn_frag_ev; [reflexivity | eapply (frag_self dx bf true i _ (TRef false TSelf) (RRef "*self")); [reflexivity | exact F] |
    apply (ev_get_bit bf (genv_of P true i) m Hback K C _ false false o st0 ltac:(eapply P_ref; reflexivity) eq_refl Hok Ho) |].
  intros r s [Hr ->]. destruct (own_this [("offset", RI o)] (enc_store st0) RU) as [Hh _].
  split; [split; [reflexivity|]; repeat split; try reflexivity; apply Hr|].
  unfold Gen.get_bit, gate. destruct (Gen.bf_size bf <=? o); [reflexivity|]. destruct (Gen.access_guard _ _ _); [reflexivity|].
  intros s1 ->. split.
  - eexists. split; [reflexivity|]. split; [exact Hr|]. split; [exact Hh | reflexivity].
  - rewrite mem_pushes. unfold bind. destruct (Gen.get_bit_body _ _ _ _); reflexivity.
Qed.
Definition enc_resb (r : res bool) : value := match r with Ok b => ROk (RB b) | Err e => RErr e end.
Lemma checked_get_bit_meets o st0 : 0 <= o < 2 ^ 32 -> ok_store bf st0 ->
  fn_meets dx bf true (checked_get_bit_fn bf) (fun r s => ready m r /\ s = own_st [("offset", RI o)] (enc_store st0))
    (fun _ s => b <- Gen.checked_get_bit m bf o st0 ;; Val (enc_resb b, mem s)).
Proof.
  intros Ho Hok. set (i := checked_get_bit_fn bf). pose proof (knows_own dx bf OK i (or_introl eq_refl)) as K.
  set (C := ("this", (false, TRef false TSelf)) :: ctx_of true i).
  assert (F3 := frag_get_bit bf (genv_of P true i) m C false o eq_refl).
  assert (F1 := frag_offset bf (genv_of P true i) Hback C false o (err Gen.msg_offset) _ eq_refl ltac:(apply (leaves_err _ C (TI TBool)); reflexivity)).
  assert (F2 := frag_guards bf (genv_of P true i) Hback Hsmall C false o Gen.no_read (err Gen.msg_read) _ eq_refl ltac:(apply (leaves_err _ C (TI TBool)); reflexivity) (ignored_not_const true i eq_refl)).
  pose proof (frag_gate _ _ _ _ _ _ _ _ _ _ _ F2 F3 (fun r s H => H)) as F23. cbv beta in F23.
  pose proof (frag_gate _ _ _ _ _ _ _ _ _ _ _ F1 F23 (fun r s H => H)) as F. cbv beta in F.
  destruct (ev_get_bit bf (genv_of P true i) m Hback K C (Some (TI TBool)) false false o st0 ltac:(eapply P_ref; reflexivity) eq_refl Hok Ho) as (dg & Eg & Rg).
  eapply fn_frag_ev with (G := fun _ _ => b <- Gen.get_bit_body m bf o st0 ;; Val (ROk (RB b)));
    [reflexivity | eapply (frag_self dx bf true i _ (TRef false TSelf) (RRef "*self")); [reflexivity | exact F] | |].
  { eexists. split; [eapply E_ok; exact Eg|]. intros r s H. cbv beta. rewrite Rg by exact H. unfold bind.
    destruct (Gen.get_bit_body _ _ _ _); reflexivity. }
  intros r s [Hr ->]. destruct (own_this [("offset", RI o)] (enc_store st0) RU) as [Hh _].
  split; [split; [reflexivity|]; repeat split; try reflexivity; apply Hr|].
  unfold Gen.checked_get_bit, gate. destruct (Gen.bf_size bf <=? o); [reflexivity|]. destruct (Gen.access_guard _ _ _); [reflexivity|].
  intros s1 ->. split.
  - eexists. split; [reflexivity|]. split; [exact Hr|]. split; [exact Hh | reflexivity].
  - rewrite mem_pushes. unfold bind. destruct (Gen.get_bit_body _ _ _ _); reflexivity.
Qed.
End Fns.
