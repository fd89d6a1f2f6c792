(** The emitted [fmt]: debug_trait_feature.rs:36-72 *)
From Coq Require Import ZArith List Bool String Lia.
From Verif Require Import RustInt Syntax GenInt GenArr Spec BitsLemmas CoreLemmas Rust RustLemmas Surface Emit EmitVocab
  EmitLemmas EmitArr EmitArrPut EmitField EmitDefault EmitFns EmitRead EmitGuard EmitLoop.
From Verif Require Gen.
Import ListNotations.
Open Scope string_scope.
Open Scope list_scope.
Open Scope Z_scope.

Definition enc_debug (l : list (string * pval)) : list (string * value) := map (fun p => (fst p, enc_pval (snd p))) l.

Section Debug.
Variables (dx : field -> expr) (bf : bitfield) (m : mode).
Hypothesis OK : emit_ok dx bf.
Let P := emitted dx bf.
Let Hback := eo_back _ _ OK.
Let Hsmall := eo_small _ _ OK.

Section Fields.
Variables (i : fn) (st0 : store).
Hypothesis Hc : fn_const i = false.
Hypothesis Hok : ok_store bf st0.
Let G := genv_of P true i.

Definition debugging (acc : list (string * value)) (s : st) : Prop :=
  has "this" true s (enc_store st0) /\ lookup "debug" (loc s) = Some (RFmt acc) /\ mem s = [("*self", enc_store st0)].
Lemma debugging_pushes acc L s : among temps L -> debugging acc s -> debugging acc (pushes L s).
Proof.
  intros HL (H1 & H2 & H3). split; [eapply has_pushes; [exact HL | cbn; intuition discriminate | exact H1]|].
  split; [rewrite (lookup_pushes temps) by (exact HL || (cbn; intuition discriminate)); exact H2 | rewrite mem_pushes; exact H3].
Qed.
Definition debug_stmts (f : field) : list stmt := extract bf false false false false f ++ [ SField "debug" (f_name f) (V "value") ].
Lemma frag_debug_field C f acc : In f (b_fields bf) -> lookup "this" C = Some (false, TRef false TSelf) -> lookup "debug" C = Some (true, TFmt) ->
  frag G C (debug_stmts f) (ext_ctx bf f ++ C) (fun r s => ready m r /\ debugging acc s)
    (fun _ s => out (Gen.extract_src m bf f false st0) (fun p => debugging (acc ++ [(f_name f, enc_pval p)]))).
Proof.
  intros Hf C1 C2. pose proof (knows_own dx bf OK i (or_intror Hc)) as K. destruct (some_val bf Hback f) as [v0 Hv0].
  unfold debug_stmts. eapply (frag_app' (val_shape bf f) v0); [exact Hv0 | | |].
  - apply (frag_extract bf false G m Hback K C f false false true (store_ty bf) false st0 Hf (Hsmall f Hf));
      [apply (source_place dx bf) with (mt := false); exact C1 | discriminate | apply whole_store; exact Hback | exact Hok].
  - intros v Hv. eapply frag_stmt with (pre := fun _ s => debugging acc s /\ lookup "value" (loc s) = Some (enc_pval v))
      (post := fun _ _ => Next (debugging (acc ++ [(f_name f, enc_pval v)]))); [reflexivity | |].
    + eapply S_field; [eapply P_var; [|reflexivity] | eapply E_var; apply ext_ctx_value; exact Hback].
      rewrite (lookup_among temps) by ((apply ext_ctx_temps; exact Hback) || (cbn; intuition discriminate)). exact C2.
    + intros r s ((H1 & H2 & H3) & H4). unfold d_var. rewrite H4. cbn [dbind].
      assert (Hd : has "debug" false s (RFmt acc)) by (apply has_local; exact H2).
      rewrite (read_has _ _ _ _ Hd). cbn [dbind]. rewrite (write_has _ _ _ _ _ Hd).
      split; [apply has_write; [reflexivity | exact H1]|]. split; [|exact H3].
      unfold store_at, spot. cbn [write loc]. eapply lookup_update_same. exact H2.
  - intros r s [Hr H]. split; [split; [exact Hr | apply H]|].
    destruct (Gen.extract_src m bf f false st0) as [v|]; cbn [out]; [|reflexivity].
    intros s1 (Hv & L & HL & ->). exists v. split; [exact Hv|]. split; [|apply refines_refl].
    split; [|apply lookup_same]. change (push "value" (enc_pval v) (pushes L s)) with (pushes (("value", enc_pval v) :: L) s).
    apply debugging_pushes; [|exact H]. constructor; [cbn; tauto|]. eapply among_sub; [|exact HL]. cbn; tauto.
Qed.
Definition debug_ctx (fs : list field) (C : tctx) : tctx := fold_left (fun C f => ext_ctx bf f ++ C) fs C.
Lemma debug_ctx_other fs x t : ~ In x temps -> forall C, lookup x C = Some t -> lookup x (debug_ctx fs C) = Some t.
Proof.
  intros N. induction fs as [|f fs IH]; intros C H; cbn [debug_ctx fold_left]; [exact H|]. apply IH.
  rewrite (lookup_among temps) by ((apply ext_ctx_temps; exact Hback) || exact N). exact H.
Qed.
Lemma frag_debug_fields fs : incl fs (b_fields bf) -> forall C acc,
  lookup "this" C = Some (false, TRef false TSelf) -> lookup "debug" C = Some (true, TFmt) ->
  frag G C (flat_map debug_stmts fs) (debug_ctx fs C) (fun r s => ready m r /\ debugging acc s)
    (fun _ s => out (Gen.debug_fields m bf fs st0) (fun l => debugging (acc ++ enc_debug l))).
Proof.
  induction fs as [|f fs IH]; intros Hi C acc C1 C2; cbn [debug_ctx fold_left flat_map].
  - eapply frag_weaken; [apply frag_nil|]. intros r s [_ H]. split; [exact I|].
    cbn [Gen.debug_fields out refines enc_debug map]. intros s' ->. rewrite app_nil_r. exact H.
  - assert (Hf : In f (b_fields bf)) by (apply Hi; left; reflexivity).
    assert (N : forall x t, lookup x C = Some t -> ~ In x temps -> lookup x (ext_ctx bf f ++ C) = Some t).
    { intros x t H Hx. rewrite (lookup_among temps) by ((apply ext_ctx_temps; exact Hback) || exact Hx). exact H. }
    assert (T1 : ~ In "this" temps) by (cbn; intuition discriminate). assert (T2 : ~ In "debug" temps) by (cbn; intuition discriminate).
    eapply (frag_app []); [apply (frag_debug_field C f acc Hf C1 C2)
      | intros a; apply (IH (fun x Hx => Hi x (or_intror Hx)) (ext_ctx bf f ++ C) a (N _ _ C1 T1) (N _ _ C2 T2)) |].
    intros r s [Hr H]. split; [split; assumption|]. cbn [Gen.debug_fields]. unfold bind.
    destruct (Gen.extract_src m bf f false st0) as [p|]; cbn [out]; [|reflexivity].
    intros s1 H1. exists (acc ++ [(f_name f, enc_pval p)]). split; [split; assumption|].
    destruct (Gen.debug_fields m bf fs st0) as [l|]; cbn [out refines]; [|reflexivity].
    intros s' H'. rewrite <- app_assoc in H'. exact H'.
Qed.
End Fields.

Lemma debug_meets st0 : ok_store bf st0 ->
  fn_meets dx bf true (debug_fn bf) (fun r s => ready m r /\ s = own_st [] (enc_store st0))
    (fun _ _ => after (Gen.debug_bf m bf st0) (fun l => RFmt (enc_debug l)) (fun _ => enc_store st0)).
Proof.
  intros Hok. set (i := debug_fn bf).
  assert (F := frag_debug_fields i st0 eq_refl Hok (b_fields bf) (incl_refl _)
    [("debug", (true, TFmt)); ("this", (false, TRef false TSelf)); ("self", (false, TRef false TSelf))] [] eq_refl eq_refl).
  assert (F0 : frag (genv_of P true i) [("this", (false, TRef false TSelf)); ("self", (false, TRef false TSelf))]
    [letmut "debug" (EDebug (b_name bf))] [("debug", (true, TFmt)); ("this", (false, TRef false TSelf)); ("self", (false, TRef false TSelf))]
    (fun _ _ => True) (fun _ s => Next (fun s' => s' = push "debug" (RFmt []) s))).
  { eapply frag_let; [reflexivity | reflexivity|]. intros r s _. reflexivity. }
  assert (F1 := frag_app tt _ _ _ _ _ _ _ _ _ _
    (fun r s => ready m r /\ has "this" true s (enc_store st0) /\ mem s = [("*self", enc_store st0)])
    (fun _ s => out (Gen.debug_fields m bf (b_fields bf) st0) (fun l => debugging st0 (enc_debug l))) F0 (fun _ => F)).
  assert (Ho : forall l : list field, flat_map (fun f => extract bf false false false false f ++ [SField "debug" (f_name f) (V "value")]) l = flat_map debug_stmts l) by reflexivity.
  eapply (fn_frag_ev' dx bf (fun _ : list (string * value) => True) []) with (i := i) (e := EFinish (V "debug"))
    (pret := fun acc _ s => lookup "debug" (loc s) = Some (RFmt acc)) (G := fun acc _ _ => Val (RFmt acc));
    [exact I | reflexivity | eapply (frag_self dx bf true i _ (TRef false TSelf) (RRef "*self")); [reflexivity | apply F1] | |].
  - intros r s (Hr & Hh & Hm). split; [exact I|]. intros s1 ->. exists tt. split.
    + split; [exact Hr|]. split; [apply has_push; [reflexivity | exact Hh]|]. split; [apply lookup_same | exact Hm].
    + apply refines_refl.
  - intros acc _. assert (E : lookup "debug" (debug_ctx (b_fields bf) [("debug", (true, TFmt)); ("this", (false, TRef false TSelf)); ("self", (false, TRef false TSelf))]) = Some (true, TFmt))
      by (apply debug_ctx_other; [cbn; intuition discriminate | reflexivity]).
    eexists. split; [cbn [elab]; rewrite E; reflexivity|]. intros r s H. cbv beta.
    rewrite H. reflexivity.
  - intros r s [Hr ->]. destruct (own_this [] (enc_store st0) RU) as [Hh _].
    split; [split; [reflexivity|]; split; [exact Hr|]; split; [exact Hh | reflexivity]|].
    unfold after, Gen.debug_bf. destruct (Gen.debug_fields m bf (b_fields bf) st0) as [l|]; cbn [out]; [|reflexivity].
    intros s1 (H1 & H2 & H3). exists (enc_debug l). split; [exact I|]. split; [exact H2|]. rewrite H3. reflexivity.
Qed.
End Debug.
