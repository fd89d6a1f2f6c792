(** The checks in front of the emitted bit and range operations. *)
From Coq Require Import ZArith List Bool String Lia.
From Verif Require Import RustInt Syntax GenInt GenArr Spec BitsLemmas CoreLemmas Rust RustLemmas Surface Emit EmitVocab
  EmitLemmas EmitArr EmitArrPut EmitField EmitDefault EmitFns EmitRead EmitNew EmitConv EmitData.
From Verif Require Gen.
Import ListNotations.
Open Scope string_scope.
Open Scope list_scope.
Open Scope Z_scope.

(** Leave the function with [v] if the test holds, otherwise go on. *)
Definition gate (o : outcome bool) (v : value) (s : st) (k : expect) : expect :=
  match o with
  | Val true => Done (Val (v, mem s))
  | Val false => k
  | Panic => Done Panic
  end.
Lemma refines_refl e : refines e e.
Proof. destruct e; cbn; auto. Qed.
Lemma frag_gate G C ss1 ss2 C2 o v (pre1 pre2 pre : rt -> st -> Prop) post :
  frag G C ss1 C pre1 (fun _ s => guard o v s) -> frag G C ss2 C2 pre2 post ->
  (forall r s, pre r s -> pre1 r s /\ pre2 r s) ->
  frag G C (ss1 ++ ss2) C2 pre (fun r s => gate o v s (post r s)).
Proof.
  intros F1 F2 H. eapply (frag_app tt); [exact F1 | intros u; exact F2 |].
  intros r s Hp. destruct (H r s Hp) as [H1 H2]. split; [exact H1|]. unfold guard, gate.
  destruct o as [[]|]; [reflexivity | | reflexivity]. intros s1 ->. exists tt. split; [exact H2 | apply refines_refl].
Qed.

Section Guards.
Variables (bf : bitfield) (G : genv) (m : mode).
Hypothesis Hback : backing_ok (b_ty bf).
Hypothesis Hsmall : forall f, In f (b_fields bf) -> small bf f.

Definition at_u32 (x : string) (z : Z) (s : st) : Prop := lookup x (loc s) = Some (RI z).

(** set_get_bit_ops_feature.rs:443-451 *)
Lemma ev_total C h pre : ev G C h (total_bits bf) (TI U32) pre (fun _ _ => Val (RI (Gen.bf_size bf))).
Proof.
  unfold total_bits, Gen.bf_size, array_len, backing_ok in *. destruct (b_ty bf) as [t|n|]; [| |destruct Hback].
  - destruct Hback as [H1 H2]. eexists. split; [eapply E_bits; apply int_of_unsigned; assumption|]. reflexivity.
  - eexists. split; [unfold u32; apply E_lit|]. intros r s _. rewrite wrap_u32 by lia. reflexivity.
Qed.
(** 453-459 *)
Lemma frag_offset C mo o body v : lookup "offset" C = Some (mo, TI U32) -> leaves G C body v ->
  frag G C [offset_check bf body] C (fun _ s => at_u32 "offset" o s) (fun _ s => guard (Val (Gen.bf_size bf <=? o)) v s).
Proof.
  intros Hl Hv. unfold offset_check. apply frag_guard; [exact Hv|].
  destruct (ev_total C (Some (TI U32)) (fun _ _ => True)) as (dt & Et & Rt).
  eexists. split; [eapply E_compare; [reflexivity | eapply E_var; exact Hl | ity | exact Et | teq]|].
  intros r s Ho. unfold at_u32 in Ho. cbv beta. unfold d_var. rewrite Ho. cbn [dbind]. rewrite Rt by exact I. reflexivity.
Qed.
(** 461-482 *)
Lemma frag_length C mo ml o l body v : lookup "offset" C = Some (mo, TI U32) -> lookup "length" C = Some (ml, TI U32) -> leaves G C body v ->
  frag G C [length_check bf body] C (fun r s => ready m r /\ at_u32 "offset" o s /\ at_u32 "length" l s)
    (fun _ s => guard (Gen.length_guard m bf o l) v s).
Proof.
  intros Hl Hll Hv. unfold length_check. apply frag_guard; [exact Hv|].
  destruct (ev_total C (Some (TI U32)) (fun _ _ => True)) as (dt & Et & Rt).
  eexists. split; [eapply E_compare; [reflexivity | el | ity | exact Et | teq]|].
  intros r s ([Hm _] & Ho & Hle). unfold at_u32 in *. unfold Gen.length_guard. run1. rewrite Ho, Hle, Hm. unfold bind.
  destruct (uadd m 32 o l); cbn [lift]; [|reflexivity]. rewrite Rt by exact I. reflexivity.
Qed.
(** 484-516 *)
Lemma frag_guards C mo o prot body v : lookup "offset" C = Some (mo, TI U32) -> leaves G C body v ->
  (b_ignored bf <> [] -> g_isconst G = false) ->
  frag G C (guards bf prot body) C (fun _ s => at_u32 "offset" o s) (fun _ s => guard (Val (Gen.access_guard bf prot o)) v s).
Proof.
  intros Hl Hv Hc. unfold guards, Gen.access_guard.
  assert (Hin : forall f, In f (filter prot (b_fields bf)) -> In f (b_fields bf)) by (intros f H; apply filter_In in H; apply H).
  induction (filter prot (b_fields bf)) as [|f l IH]; cbn [map existsb].
  - eapply frag_weaken; [apply frag_nil with (pre := fun _ _ => True)|]. intros r s _. split; [exact I|]. cbn. auto.
  - assert (F1 : frag G C [match b_ignored bf with
        | [] => if_ (EBin BAll (EBin BGe (V "offset") (u32 (f_off f))) (lt (V "offset") (u32 (f_off f + f_bits f)))) body
        | _ => if_ (EContains (u32 (f_off f)) (u32 (f_off f + f_bits f)) (V "offset")) body
        end] C (fun _ s => at_u32 "offset" o s) (fun _ s => guard (Val ((f_off f <=? o) && (o <? f_off f + f_bits f))) v s)).
    { pose proof (Hsmall f (Hin f (or_introl eq_refl))) as (S1 & S2 & S3 & _). pose proof (size_small _ Hback).
      destruct (b_ignored bf) eqn:Ei.
      - apply frag_guard; [exact Hv|]. opn. eexists. split; [el|]. intros r s Ho. unfold at_u32 in Ho. run1. rewrite Ho.
        rewrite !wrap_u32 by lia. destruct (f_off f <=? o); [|reflexivity]. run1. rewrite Ho. reflexivity.
      - apply frag_guard; [exact Hv|]. opn. eexists. split.
        { eapply E_contains; [el | el | el |]. rewrite Hc by congruence. reflexivity. }
        intros r s Ho. unfold at_u32 in Ho. run1. rewrite Ho, !wrap_u32 by lia. reflexivity. }
    change (?a :: map ?g l) with ([a] ++ map g l).
    eapply frag_weaken; [eapply (frag_gate G C _ _ C _ v); [exact F1 | apply IH; intros g Hg; apply Hin; right; exact Hg | intros r s H; split; exact H]|].
    intros r s H. split; [exact H|]. unfold gate, guard. destruct (_ && _); cbn [orb]; [reflexivity | apply refines_refl].
Qed.

Lemma leaves_unit C : g_ret G = TUnit -> leaves G C ret_unit RU.
Proof. intros H. eexists. split; [eapply B_stmt; [reflexivity | apply S_return0; exact H | apply B_unit]|]. reflexivity. Qed.
Lemma leaves_false C : g_ret G = TI TBool -> leaves G C ret_false (RB false).
Proof.
  intros H. eexists. split; [eapply B_stmt; [reflexivity | eapply S_return; [apply E_bool | rewrite H; reflexivity] | apply B_unit]|]. reflexivity.
Qed.
Lemma leaves_zero C : g_ret G = data_ty bf -> leaves G C (ret_zero bf) (enc_store (Gen.zero_data bf)).
Proof.
  intros H. unfold ret_zero, Gen.zero_data, data_ty, is_integer_backed, array_len, backing_ok in *.
  destruct (b_ty bf) as [t|n|]; [| |destruct Hback].
  - destruct Hback as [H1 H2]. pose proof (int_of_unsigned t H2 H1) as It. eexists. split.
    { eapply B_stmt; [reflexivity | eapply S_return; [rewrite H; opn; el | rewrite H; apply ty_eqb_refl] | apply B_unit]. }
    intros r s. unfold d_seq. cbn [dbind]. rewrite wrap_zero. reflexivity.
  - eexists. split.
    { eapply B_stmt; [reflexivity | eapply S_return; [rewrite H; opn; eapply E_repeat; el | rewrite H; apply ty_eqb_refl] | apply B_unit]. }
    intros r s. reflexivity.
Qed.
End Guards.
