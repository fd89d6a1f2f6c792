(** The endian conversions of the emitted functions. *)
From Coq Require Import ZArith List Bool String Lia.
From Verif Require Import RustInt Syntax GenInt GenArr Spec BitsLemmas CoreLemmas Rust RustLemmas Surface Emit EmitVocab
  EmitLemmas EmitArr EmitArrPut EmitField EmitDefault EmitFns EmitRead EmitNew.
From Verif Require Gen.
Import ListNotations.
Open Scope string_scope.
Open Scope list_scope.
Open Scope Z_scope.

(** Conditions that compare different types are rejected. *)
Lemma N_compare G C h o a b ta da tb db : is_compare o = true -> elab G C None a = Some (ta, da) ->
  elab G C (Some ta) b = Some (tb, db) -> ta <> tb -> elab G C h (EBin o a b) = None.
Proof.
  intros Ho Ha Hb N.
  assert (E : ty_eqb ta tb = false).
  { destruct (ty_eqb ta tb) eqn:E; [|reflexivity]. exfalso. apply N. revert E. clear. apply ty_eqb_eq. }
  destruct o; try discriminate; cbn [elab is_shift is_compare]; rewrite Ha, Hb, E; destruct (int_of ta); try reflexivity;
    destruct p; reflexivity.
Qed.
Lemma N_while G C c b : elab G C None c = None -> elab_stmt G C (SWhile c b) = None.
Proof. intros H. cbn [elab_stmt]. rewrite H. reflexivity. Qed.

(** One pass through a loop that reads the same element more than once. *)
Ltac again :=
  match goal with
  | H : arr_get ?a ?i = _ |- context [arr_get ?a ?i] => rewrite H
  | H : arr_set ?a ?i ?v = _ |- context [arr_set ?a ?i ?v] => rewrite H
  end.
Ltac passm := repeat (first [ua | wd | again | oc]; rewrite ?wrap_byte, ?wrap_bit128; sim; try reflexivity).

Section Arr.
Variables (bf : bitfield) (G : genv) (m : mode) (n : Z).
Hypothesis Hty : b_ty bf = DArray n.
Hypothesis Hback : backing_ok (b_ty bf).

Lemma len_pos : 0 < n /\ 8 * n < 2 ^ 32.
Proof. revert Hback. rewrite Hty. exact (fun H => H). Qed.
Lemma half_range : 0 <= n / 2 < 2 ^ 32 /\ 2 * (n / 2) <= n.
Proof.
  pose proof len_pos as [H1 H2]. pose proof (Z.mul_div_le n 2 ltac:(lia)).
  split; [split; [apply Z.div_pos; lia | lia] | lia].
Qed.
Lemma usize_len z : 0 <= z <= n -> wrap TUsize z = z.
Proof. intros H. pose proof len_pos as [H1 H2]. pose proof pow_le_32_64. apply wrap_usize. lia. Qed.

Definition xor_while : stmt :=
  while_ (lt (V "i") (usz (array_len bf / 2)))
      [ let_ "j" (usz (array_len bf - 1) -! V "i");
        SOp BXor (EIndex (V "bits") (V "i")) (EIndex (V "bits") (V "j"));
        SOp BXor (EIndex (V "bits") (V "j")) (EIndex (V "bits") (V "i"));
        SOp BXor (EIndex (V "bits") (V "i")) (EIndex (V "bits") (V "j"));
        incr "i" ].
Lemma xor_while_ok C : lookup "bits" C = Some (true, TArr U8 n) ->
  exists d, elab_stmt G (("i", (true, TUsize)) :: C) xor_while = Some d /\
  forall r s l, ready m r -> has "bits" false s (RA l) ->
    d r (push "i" (RI 0) s) =
    match Gen.reverse_xor m n l with
    | Val l' => Go RU (push "i" (RI (n / 2)) (store_at "bits" false (RA l') s))
    | Panic => Fail
    end.
Proof.
  intros Hl. unfold xor_while, array_len. rewrite Hty. opn. eexists. split; [sl|].
  intros r s l [Hm Hfu] Hh. pose proof len_pos. pose proof half_range. pose proof pow_le_32_64. sim.
  replace (push "i" (RI 0) s) with (push "i" (RI 0) (store_at "bits" false (RA l) s)) by (rewrite store_id by exact Hh; reflexivity).
  unfold Gen.reverse_xor.
  erewrite (wloop_while (r_fuel r) _ _ (fun j a => push "i" (RI j) (store_at "bits" false (RA a) s))
    (n / 2) _ (fun _ => True)); [reflexivity | lia | lia | exact I | | ].
  - intros j a Hj _. sim. rewrite usize_len by lia. reflexivity.
  - intros j a Hj _. sim. rewrite usize_len by lia. passm. done.
Qed.
Lemma frag_xor C zero : zero = lit 0 \/ zero = usz 0 -> lookup "bits" C = Some (true, TArr U8 n) -> forall l,
  frag G C (xor_loop bf zero) (("i", (true, TUsize)) :: C)
    (fun r s => ready m r /\ has "bits" false s (RA l))
    (fun _ s => out (Gen.reverse_xor m n l) (fun l' s' => s' = push "i" (RI (n / 2)) (store_at "bits" false (RA l') s))).
Proof.
  intros Hz Hl l h rest tail tr dr Hr. destruct (xor_while_ok C Hl) as (d & E & R).
  change (xor_loop bf zero) with [letmut "i" zero; xor_while]. cbn [app]. unfold letmut.
  assert (B := B_stmt G (("i", (true, TUsize)) :: C) h xor_while rest tail d tr dr eq_refl E Hr).
  assert (M : forall r s, ready m r /\ has "bits" false s (RA l) ->
     meets (out (Gen.reverse_xor m n l) (fun l' s' => s' = push "i" (RI (n / 2)) (store_at "bits" false (RA l') s)))
       (d_seq d dr r (push "i" (RI 0) s)) (dr r)).
  { intros r s [Hm Hh]. apply meets_seq. rewrite (R r s l Hm Hh).
    destruct (Gen.reverse_xor m n l); cbn [out meets]; [|reflexivity]. eexists. split; reflexivity. }
  destruct Hz as [->| ->].
  - eexists. split.
    { eapply B_letlit with (t := TUsize); [cbn; tauto | | exact B].
      intros t' _ Nt. eapply B_none; [reflexivity|]. unfold xor_while. opn. eapply N_while.
      eapply N_compare; [reflexivity | el | el | exact Nt]. }
    intros r s H. apply meets_let. exact (M r s H).
  - eexists. split. { eapply B_let; [reflexivity | unfold usz; el | exact B]. }
    intros r s H. apply meets_let. exact (M r s H).
Qed.
End Arr.

(** What a conversion leaves: a variable [bits], perhaps a counter and a length. *)
Definition conv_names : list string := ["bits"; "i"; "copy_len"; "protected_mask"].
Definition converted (b : store) (s s' : st) : Prop :=
  exists L, among conv_names L /\ s' = pushes L s /\ lookup "bits" (loc s') = Some (enc_store b).

Section Convert.
Variables (bf : bitfield) (G : genv) (m : mode).
Hypothesis Hback : backing_ok (b_ty bf).

Definition conv_frag (C : tctx) (ss : list stmt) (pre : rt -> st -> Prop) (o : outcome store) : Prop :=
  exists CL mu, among conv_names CL /\ lookup "bits" (CL ++ C) = Some (mu, data_ty bf) /\
  frag G C ss (CL ++ C) (fun r s => ready m r /\ pre r s) (fun _ s => out o (fun b' s' => ok_store bf b' /\ converted b' s s')).

Lemma data_A n : b_ty bf = DArray n -> data_ty bf = TArr U8 n.
Proof. intros H. unfold data_ty. rewrite H. reflexivity. Qed.
Lemma data_I t : b_ty bf = DInteger t -> data_ty bf = TI t.
Proof. intros H. unfold data_ty. rewrite H. reflexivity. Qed.
Lemma conv_nil C mu b (pre : rt -> st -> Prop) : lookup "bits" C = Some (mu, data_ty bf) -> ok_store bf b ->
  (forall r s, pre r s -> lookup "bits" (loc s) = Some (enc_store b)) -> conv_frag C [] pre (Val b).
Proof.
  intros Hl Hok H. exists [], mu. split; [constructor|]. split; [exact Hl|].
  eapply frag_weaken; [apply frag_nil with (pre := fun _ _ => True)|]. intros r s [_ Hp]. split; [exact I|]. cbn [out refines].
  intros s' ->. split; [exact Hok|]. exists []. split; [constructor|]. split; [reflexivity | exact (H r s Hp)].
Qed.
Lemma conv_let C mu e b (pre : rt -> st -> Prop) : open_lit e = None -> ok_store bf b ->
  ev G C None e (data_ty bf) pre (fun _ _ => Val (enc_store b)) -> conv_frag C [SLet mu "bits" None e] pre (Val b).
Proof.
  intros Ho Hok He. exists [("bits", (mu, data_ty bf))], mu. split; [am|]. split; [apply lookup_same|].
  eapply frag_weaken; [eapply frag_ev; eassumption|]. intros r s [_ Hp]. split; [exact Hp|]. cbn [out refines].
  intros s' ->. split; [exact Hok|]. exists [("bits", enc_store b)]. split; [am|]. split; [reflexivity | apply lookup_same].
Qed.
Lemma conv_xor C n e zero l (pre : rt -> st -> Prop) : b_ty bf = DArray n -> zero = lit 0 \/ zero = usz 0 -> open_lit e = None ->
  ev G C None e (data_ty bf) pre (fun _ _ => Val (RA l)) ->
  conv_frag C (letmut "bits" e :: xor_loop bf zero) pre (l' <- Gen.reverse_xor m n l ;; Val (StA l')).
Proof.
  intros Hty Hz Ho He. exists [("i", (true, TUsize)); ("bits", (true, data_ty bf))], true. split; [am|].
  split; [reflexivity|].
  change (letmut "bits" e :: xor_loop bf zero) with ([SLet true "bits" None e] ++ xor_loop bf zero).
  eapply (frag_app tt) with (pre2 := fun _ r s => ready m r /\ has "bits" false s (RA l)).
  - eapply frag_ev; eassumption.
  - intros u. apply (frag_xor bf G m n Hty Hback (("bits", (true, data_ty bf)) :: C) zero Hz).
    rewrite (data_A n Hty). apply lookup_same.
  - intros r s [Hr Hp]. split; [exact Hp|]. cbn [out]. intros s1 ->. exists tt.
    split; [split; [exact Hr | apply has_local, lookup_same]|]. unfold bind. destruct (Gen.reverse_xor m n l) as [l'|]; cbn [out refines]; [|reflexivity].
    intros s2 ->. split; [unfold ok_store; rewrite Hty; exact I|].
    exists [("i", RI (n / 2)); ("bits", RA l')]. split; [am|].
    split; [cbn [pushes fold_right]; unfold store_at, spot; rewrite write_same; reflexivity|].
    unfold store_at, spot. rewrite write_same, loc_push, lookup_other by reflexivity. apply lookup_same.
Qed.
Lemma conv_app C ss1 ss2 b1 o (pre : rt -> st -> Prop) : conv_frag C ss1 pre (Val b1) ->
  (forall C' mu, lookup "bits" C' = Some (mu, data_ty bf) ->
     conv_frag C' ss2 (fun _ s => lookup "bits" (loc s) = Some (enc_store b1)) o) ->
  conv_frag C (ss1 ++ ss2) pre o.
Proof.
  intros (CL1 & mu1 & A1 & L1 & F1) H2. destruct (H2 _ _ L1) as (CL2 & mu2 & A2 & L2 & F2).
  exists (CL2 ++ CL1), mu2. split; [apply among_app; assumption|]. rewrite <- app_assoc. split; [exact L2|].
  eapply (frag_app tt); [exact F1 | intros u; exact F2 |].
  intros r s [Hr Hp]. split; [auto|]. cbn [out]. intros s1 (_ & L & HL & -> & Hb). exists tt. split; [auto|].
  destruct o as [b2|]; cbn [out refines]; [|reflexivity].
  intros s2 (Ok2 & L' & HL' & -> & Hb2). split; [exact Ok2|]. exists (L' ++ L). rewrite pushes_app in Hb2 |- *.
  split; [apply among_app; assumption|]. split; [reflexivity | exact Hb2].
Qed.

Lemma ev_data C h x mu b : lookup x C = Some (mu, data_ty bf) ->
  ev G C h (V x) (data_ty bf) (fun _ s => lookup x (loc s) = Some (enc_store b)) (fun _ _ => Val (enc_store b)).
Proof.
  intros H. eexists. split; [eapply E_var; exact H|]. intros r s Hx. unfold d_var. rewrite Hx. reflexivity.
Qed.
Lemma ev_swap C h e t z pre : b_ty bf = DInteger t -> ev G C None e (data_ty bf) pre (fun _ _ => Val (RI z)) ->
  ev G C h (ESwap e) (data_ty bf) pre (fun _ _ => Val (RI (swap_bytes (ity_bits t) z))).
Proof.
  intros Hty (d & E & R). pose proof Hback as B. rewrite Hty in B. destruct B as [H1 H2].
  rewrite (data_I t Hty) in *. eexists. split; [eapply E_swap; [exact E | apply int_of_unsigned; assumption]|].
  intros r s Hp. cbv beta. rewrite R by exact Hp. reflexivity.
Qed.

(** write_bit_ops_feature.rs:143-177 *)
Lemma conv_write C mu e b : lookup "bits" C = Some (mu, data_ty bf) -> ok_store bf b ->
  conv_frag C (write_convert bf e) (fun _ s => lookup "bits" (loc s) = Some (enc_store b)) (Gen.convert_write m bf e b).
Proof.
  intros Hl Hok. pose proof (fun b => ev_data C None "bits" mu b Hl) as Ev. pose proof Hok as Hok'.
  unfold write_convert, Gen.convert_write, is_integer_backed. revert Hok. unfold ok_store.
  case_eq (b_ty bf); [intros t Hty | intros n Hty | intros Hty]; destruct b as [z|l]; intros Hk; try contradiction; destruct e.
  - eapply conv_let; [reflexivity | unfold ok_store; rewrite Hty; exact I |]. apply (ev_swap _ _ _ t); [exact Hty|]. apply (Ev (StI z)).
  - eapply conv_nil; [exact Hl | unfold ok_store; rewrite Hty; exact I | auto].
  - apply conv_xor; [exact Hty | auto | reflexivity |]. apply (Ev (StA l)).
  - eapply conv_nil; [exact Hl | unfold ok_store; rewrite Hty; exact I | auto].
Qed.
(** from_into_bits_feature.rs:58-133, 191-289 *)
Lemma conv_from C mu v b : lookup (bob bf) C = Some (mu, data_ty bf) -> ok_store bf b ->
  conv_frag C (from_convert bf v) (fun _ s => lookup (bob bf) (loc s) = Some (enc_store b))
    (Gen.convert_from_into m bf (Gen.variant_endian (a_from_endian (b_args bf)) v) b).
Proof.
  intros Hl Hok. pose proof Hok as Hok'. pose proof (fun b => ev_data C None (bob bf) mu b Hl) as Ev.
  revert Hok Hl Ev. unfold from_convert, Gen.convert_from_into, bob, is_integer_backed, ok_store.
  case_eq (b_ty bf); [intros t Hty | intros n Hty | intros Hty]; destruct b as [z|l]; intros Hk Hl Ev; try contradiction.
  - assert (Sw : forall C' mu, lookup "bits" C' = Some (mu, data_ty bf) ->
      conv_frag C' [let_ "bits" (ESwap (V "bits"))] (fun _ s => lookup "bits" (loc s) = Some (RI z)) (Val (StI (swap_bytes (ity_bits t) z)))).
    { intros C' mu' H. eapply conv_let; [reflexivity | unfold ok_store; rewrite Hty; exact I |]. apply (ev_swap _ _ _ t); [exact Hty|].
      apply (ev_data C' None "bits" mu' (StI z) H). }
    assert (Id : conv_frag C [let_ "bits" (V "bits")] (fun _ s => lookup "bits" (loc s) = Some (RI z)) (Val (StI z))).
    { eapply conv_let; [reflexivity | exact Hok' |]. apply (Ev (StI z)). }
    destruct v; cbn [Gen.variant_endian].
    + destruct (a_from_endian (b_args bf)).
      * change (?a :: ?l) with ([a] ++ l). eapply conv_app; [exact Id|]. exact Sw.
      * exact Id.
    + eapply Sw. exact Hl.
    + exact Id.
  - destruct (Gen.variant_endian _ v).
    + eapply conv_let; [reflexivity | exact Hok' |]. apply (Ev (StA l)).
    + apply conv_xor; [exact Hty | auto | reflexivity |]. apply (Ev (StA l)).
Qed.
End Convert.
