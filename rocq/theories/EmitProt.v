(** The emitted mask of protected bits, and [invert_bits] / [invert_bytes]. *)
From Coq Require Import ZArith List Bool String Lia.
From Verif Require Import RustInt Syntax GenInt GenArr Spec BitsLemmas CoreLemmas Rust RustLemmas Surface Emit EmitVocab
  EmitLemmas EmitArr EmitArrPut EmitField EmitDefault EmitFns EmitRead EmitNew EmitConv EmitData.
From Verif Require Gen.
Import ListNotations.
Open Scope string_scope.
Open Scope list_scope.
Open Scope Z_scope.

Lemma fold_left_keeps {A B} (Q : A -> Prop) (g : A -> B -> A) l : (forall a b, Q a -> Q (g a b)) -> forall a, Q a -> Q (fold_left g l a).
Proof. intros H. induction l as [|b l IH]; cbn [fold_left]; auto. Qed.
Lemma lor_lt a b n : 0 <= a < 2 ^ n -> 0 <= b < 2 ^ n -> 0 <= n -> Z.lor a b < 2 ^ n.
Proof.
  intros Ha Hb Hn. assert (H : (Z.lor a b) mod 2 ^ n = Z.lor a b).
  { apply Z.bits_inj'. intros i Hi. destruct (Z.ltb_spec i n).
    - apply Z.mod_pow2_bits_low. lia.
    - rewrite Z.mod_pow2_bits_high by lia. rewrite Z.lor_spec.
      rewrite <- (Z.mod_small a (2 ^ n)), <- (Z.mod_small b (2 ^ n)) by lia.
      rewrite !Z.mod_pow2_bits_high by lia. reflexivity. }
  rewrite <- H. apply Z.mod_pos_bound. apply Z.pow_pos_nonneg; lia.
Qed.
Definition bytes_of (n : Z) (l : list Z) : Prop := List.length l = Z.to_nat n /\ Forall (fun b => 0 <= b < 256) l.
Lemma upd_bytes n l k b : bytes_of n l -> 0 <= b < 256 -> bytes_of n (list_upd l k b).
Proof.
  intros [H1 H2] Hb. split; [rewrite list_upd_length; exact H1|]. clear H1. revert k.
  induction H2 as [|c l Hc Hl IH]; intros k; [destruct k; constructor|].
  destruct k; cbn [list_upd]; constructor; auto.
Qed.
Lemma nth_bytes n l k : bytes_of n l -> 0 <= nth k l 0 < 256.
Proof.
  intros [_ H]. destruct (nth_in_or_default k l 0) as [Hi|Hi]; [|rewrite Hi; lia].
  rewrite Forall_forall in H. auto.
Qed.
Lemma prot_bytes bf prot n : bytes_of n (Gen.protected_mask_arr bf prot n).
Proof.
  unfold Gen.protected_mask_arr. apply fold_left_keeps.
  - intros a f Ha. apply fold_left_keeps; [|exact Ha]. intros c bit Hc. destruct (bit / 8 <? n); [|exact Hc].
    apply upd_bytes; [exact Hc|]. pose proof (nth_bytes n c (Z.to_nat (bit / 8)) Hc) as H1.
    assert (H2 : 0 <= 2 ^ (bit mod 8) < 256).
    { pose proof (Z.mod_pos_bound bit 8). split; [apply Z.pow_nonneg; lia|]. change 256 with (2 ^ 8). apply Z.pow_lt_mono_r; lia. }
    split; [apply Z.lor_nonneg; lia|]. change 256 with (2 ^ 8). apply lor_lt; lia.
  - split; [unfold zeros; apply repeat_length|]. unfold zeros. clear. induction (Z.to_nat n); cbn [repeat]; constructor; [lia | assumption].
Qed.
Lemma prot_cast bf prot n : map (cast U8) (Gen.protected_mask_arr bf prot n) = Gen.protected_mask_arr bf prot n.
Proof.
  destruct (prot_bytes bf prot n) as [_ H]. induction H as [|b l Hb Hl IH]; cbn [map]; [reflexivity|].
  rewrite IH. f_equal. unfold cast. cbn [ity_unsigned ity_bits]. apply Z.mod_small. exact Hb.
Qed.

Lemma refines_refl' e : refines e e.
Proof. destruct e; cbn; auto. Qed.

Section Prot.
Variables (bf : bitfield) (G : genv) (m : mode).
Hypothesis Hback : backing_ok (b_ty bf).

(** GH:948-994 *)
Lemma prot_int t prot : b_ty bf = DInteger t -> forall C,
  ev G C None (as_ (ELit (fold_left (fun mask f =>
      fold_left (fun mask bit => Z.lor mask (2 ^ bit)) (Gen.bit_range (f_off f) (f_bits f)) mask)
      (filter prot (b_fields bf)) 0) (Some (TI U128))) (TI t)) (TI t) (fun _ _ => True)
    (fun _ _ => Val (RI (Gen.protected_mask_int bf prot (ity_bits t)))).
Proof.
  intros Hty C. pose proof (int_T bf t Hty Hback) as IT. opn. eexists. split; [el|]. intros r s _. run1.
  rewrite (wrap_T bf t Hty Hback). cbn [wrap]. unfold cast, Gen.protected_mask_int. cbn [ity_unsigned ity_bits].
  set (M := fold_left _ _ _). unfold ucast.
  rewrite mod_mod_pow2; [reflexivity|]. destruct t; cbn [ity_bits]; lia.
Qed.
Lemma frag_prot_int t prot C : b_ty bf = DInteger t ->
  frag G C [protected_mask bf prot] (("protected_mask", (false, TI t)) :: C) (fun _ _ => True)
    (fun _ s => Next (fun s' => s' = push "protected_mask" (RI (Gen.protected_mask_int bf prot (ity_bits t))) s)).
Proof.
  intros Hty. pose proof (prot_int t prot Hty C) as E. unfold protected_mask. rewrite Hty.
  eapply frag_weaken; [eapply frag_ev; [reflexivity | exact E]|]. intros r s _. split; [exact I|]. apply refines_refl'.
Qed.
Lemma frag_prot_arr n prot C : b_ty bf = DArray n ->
  frag G C [protected_mask bf prot] (("protected_mask", (false, TArr U8 n)) :: C) (fun _ _ => True)
    (fun _ s => Next (fun s' => s' = push "protected_mask" (RA (Gen.protected_mask_arr bf prot n)) s)).
Proof.
  intros Hty. unfold protected_mask, data_ty, array_len. rewrite Hty. pose proof Hback as Hn. rewrite Hty in Hn. destruct Hn as [Hn _].
  eapply frag_lett; [apply E_array | |].
  - rewrite (proj1 (prot_bytes bf prot n)), Z2Nat.id by lia. apply ty_eqb_refl.
  - intros r s _. cbv beta. rewrite prot_cast. reflexivity.
Qed.

(** invert_bit_ops_feature.rs:66-68 *)
Hypothesis K : knows bf false G.
Definition invert_stmts : list stmt :=
  if is_integer_backed bf then
    [ let_ "bits" (val false);
      protected_mask bf Gen.no_setter;
      let_ "bits" (((~! V "bits") &! (~! V "protected_mask")) |! (V "bits" &! V "protected_mask")) ]
  else
    [ letmut "bits" (load bf);
      protected_mask bf Gen.no_setter;
      letmut "i" (usz 0);
      while_ (lt (V "i") (usz (array_len bf)))
        [ SSet (EIndex (V "bits") (V "i"))
            (((~! EIndex (V "bits") (V "i")) &! (~! EIndex (V "protected_mask") (V "i")))
             |! (EIndex (V "bits") (V "i") &! EIndex (V "protected_mask") (V "i")));
          incr "i" ] ].
Definition inverted (st0 : store) : outcome store :=
  match b_ty bf, st0 with
  | DInteger t, StI z =>
      let w := ity_bits t in
      let prot := Gen.protected_mask_int bf Gen.no_setter w in
      Val (StI (Z.lor (Z.land (unot w z) (unot w prot)) (Z.land z prot)))
  | DArray n, StA l =>
      let prot := Gen.protected_mask_arr bf Gen.no_setter n in
      bits <- while_lt n (fun i bits =>
        b <- arr_get bits i ;;
        p <- arr_get prot i ;;
        arr_set bits i (Z.lor (Z.land (unot 8 b) (unot 8 p)) (Z.land b p))) l ;;
      Val (StA bits)
  | _, _ => Panic
  end.
Definition invert_while : stmt :=
  while_ (lt (V "i") (usz (array_len bf)))
    [ SSet (EIndex (V "bits") (V "i"))
        (((~! EIndex (V "bits") (V "i")) &! (~! EIndex (V "protected_mask") (V "i")))
         |! (EIndex (V "bits") (V "i") &! EIndex (V "protected_mask") (V "i")));
      incr "i" ].
Definition invert_loop (n : Z) (prot l : list Z) : outcome (list Z) :=
  while_lt n (fun i bits =>
    b <- arr_get bits i ;;
    p <- arr_get prot i ;;
    arr_set bits i (Z.lor (Z.land (unot 8 b) (unot 8 p)) (Z.land b p))) l.
Lemma frag_invert_loop n C M l : b_ty bf = DArray n -> lookup "bits" C = Some (true, TArr U8 n) ->
  lookup "protected_mask" C = Some (false, TArr U8 n) ->
  frag G C [letmut "i" (usz 0); invert_while] (("i", (true, TUsize)) :: C)
    (fun r s => ready m r /\ has "bits" false s (RA l) /\ lookup "protected_mask" (loc s) = Some (RA M))
    (fun _ s => out (invert_loop n M l) (fun l' s' => s' = push "i" (RI n) (store_at "bits" false (RA l') s))).
Proof.
  intros Hty Hl HM. unfold invert_while, array_len. rewrite Hty. start. eexists.
  split; [eapply B_let; [reflexivity | el |]; eapply B_stmt; [reflexivity | sl | exact Hr]|].
  intros r s ([Hm Hfu] & Hh & Hpm). pose proof (len_pos bf n Hty Hback). pose proof pow_le_32_64.
  apply meets_let. run0. lits. apply meets_seq. sim.
  replace (push "i" (RI 0) s) with (push "i" (RI 0) (store_at "bits" false (RA l) s)) by (rewrite store_id by exact Hh; reflexivity).
  unfold invert_loop.
  assert (Hrd : forall j a, read_place (spot "protected_mask" false) (push "i" (RI j) (store_at "bits" false (RA a) s)) =
     Go (RA M) (push "i" (RI j) (store_at "bits" false (RA a) s))).
  { intros j a. apply read_has, has_local. rewrite loc_push, lookup_other by reflexivity. rewrite lookup_store by reflexivity. exact Hpm. }
  rewrite (wloop_while (r_fuel r) _ _ (fun j a => push "i" (RI j) (store_at "bits" false (RA a) s))
    n (fun i bits => b <- arr_get bits i ;; p <- arr_get M i ;;
       arr_set bits i (Z.lor (Z.land (unot 8 b) (unot 8 p)) (Z.land b p))) (fun _ => True)); [ | lia | lia | exact I | | ].
  - destruct (while_lt _ _ _); cbn [out meets]; [|reflexivity]. eexists. split; reflexivity.
  - intros j a Hj _. sim. rewrite (usize_len bf n Hty Hback) by lia. reflexivity.
  - intros j a Hj _. sim. repeat (first [ua | again | rewrite Hrd | oc]; sim; try reflexivity). done.
Qed.
Lemma conv_invert C mu st0 : place G C (V "this") = Some (TSelf, mu, spot "this" true) -> ok_store bf st0 ->
  conv_frag bf G m C invert_stmts (fun _ s => has "this" true s (enc_store st0)) (inverted st0).
Proof.
  intros Hp Hok. unfold invert_stmts, inverted. pose proof (ev_load bf G Hback C None mu true st0 (k_back _ _ _ K) Hp) as El.
  destruct (backing_cases bf Hback) as [(t & Hty)|(n & Hty)]; unfold is_integer_backed; rewrite Hty.
  - destruct (store_I bf t st0 Hty Hok) as [z ->]. unfold load, is_heap, is_integer_backed in El. rewrite Hty, andb_false_r in El.
    set (M := Gen.protected_mask_int bf Gen.no_setter (ity_bits t)).
    assert (F : frag G C ([let_ "bits" (val false)] ++ [protected_mask bf Gen.no_setter])
       (("protected_mask", (false, TI t)) :: ("bits", (false, data_ty bf)) :: C) (fun _ s => has "this" true s (RI z))
       (fun _ s => Next (fun s' => s' = push "protected_mask" (RI M) (push "bits" (RI z) s)))).
    { eapply (frag_app tt); [eapply frag_ev; [reflexivity | exact El] | intros u; apply frag_prot_int; exact Hty |].
      intros r s H. split; [exact H|]. intros s1 ->. exists tt. split; [exact I|]. cbn [enc_store]. apply refines_refl'. }
    assert (E : ev G (("protected_mask", (false, TI t)) :: ("bits", (false, data_ty bf)) :: C) None
       (((~! V "bits") &! (~! V "protected_mask")) |! (V "bits" &! V "protected_mask")) (data_ty bf)
       (fun _ s => exists s0, s = push "protected_mask" (RI M) (push "bits" (RI z) s0))
       (fun _ _ => Val (RI (Z.lor (Z.land (unot (ity_bits t) z) (unot (ity_bits t) M)) (Z.land z M))))).
    { pose proof (int_T bf t Hty Hback) as IT. rewrite (data_I bf t Hty). opn. eexists. split; [el|].
      intros r s (s0 & ->). sim. reflexivity. }
    exists [("bits", (false, data_ty bf)); ("protected_mask", (false, TI t)); ("bits", (false, data_ty bf))], false.
    split; [am|]. split; [apply lookup_same|].
    change [?a; ?b; ?c] with (([a] ++ [b]) ++ [c]).
    eapply (frag_app tt); [exact F | intros u; eapply frag_ev; [reflexivity | exact E] |].
    intros r s [_ H]. split; [exact H|]. intros s1 ->. exists tt. split; [eexists; reflexivity|]. cbn [out refines].
    intros s2 ->. split; [unfold ok_store; rewrite Hty; exact I|]. eexists [("bits", _); ("protected_mask", _); ("bits", _)].
    split; [am|]. split; [reflexivity | apply lookup_same].
  - destruct (store_A bf n st0 Hty Hok) as [l ->]. cbn [enc_store] in El. change (?a :: ?b) with ([a] ++ b).
    set (M := Gen.protected_mask_arr bf Gen.no_setter n). fold (invert_loop n M l).
    exists [("i", (true, TUsize)); ("protected_mask", (false, TArr U8 n)); ("bits", (true, data_ty bf))], true.
    split; [am|]. split; [reflexivity|].
    assert (F1 : frag G C ([letmut "bits" (load bf)] ++ [protected_mask bf Gen.no_setter])
       (("protected_mask", (false, TArr U8 n)) :: ("bits", (true, data_ty bf)) :: C) (fun _ s => has "this" true s (RA l))
       (fun _ s => Next (fun s' => s' = push "protected_mask" (RA M) (push "bits" (RA l) s)))).
    { eapply (frag_app tt); [eapply frag_ev; [unfold load; destruct (is_heap bf); reflexivity | exact El] | intros u; apply frag_prot_arr; exact Hty |].
      intros r s H. split; [exact H|]. intros s1 ->. exists tt. split; [exact I|]. apply refines_refl'. }
    assert (F2 := frag_invert_loop n (("protected_mask", (false, TArr U8 n)) :: ("bits", (true, data_ty bf)) :: C) M l Hty
      ltac:(rewrite (data_A bf n Hty); reflexivity) eq_refl).
    change (frag G C (([letmut "bits" (load bf)] ++ [protected_mask bf Gen.no_setter]) ++ [letmut "i" (usz 0); invert_while])
      (("i", (true, TUsize)) :: ("protected_mask", (false, TArr U8 n)) :: ("bits", (true, data_ty bf)) :: C)
      (fun r s => ready m r /\ has "this" true s (RA l))
      (fun _ s => out (bits <- invert_loop n M l ;; Val (StA bits)) (fun b' s' => ok_store bf b' /\ converted b' s s'))).
    eapply (frag_app tt); [exact F1 | intros u; exact F2 |].
    intros r s [Hr H]. split; [exact H|]. intros s1 ->. exists tt.
    split; [split; [exact Hr|]; split; [apply has_local; rewrite loc_push, lookup_other by reflexivity; apply lookup_same | apply lookup_same]|].
    unfold bind. destruct (invert_loop n M l) as [l'|]; cbn [out refines]; [|reflexivity].
    intros s2 ->. split; [unfold ok_store; rewrite Hty; exact I|].
    exists [("i", RI n); ("protected_mask", RA M); ("bits", RA l')]. split; [am|]. cbn [pushes fold_right enc_store].
    rewrite store_push by reflexivity. unfold store_at, spot. rewrite write_same. split; [reflexivity|].
    rewrite !loc_push, !lookup_other by reflexivity. apply lookup_same.
Qed.
End Prot.
Lemma invert_all_parts bf m st0 :
  Gen.invert_all m bf st0 = (src <- inverted bf st0 ;; Gen.copy_fields m bf (fun _ => true) src st0).
Proof. unfold Gen.invert_all, inverted. destruct (b_ty bf), st0; try reflexivity. unfold bind. destruct (while_lt _ _ _); reflexivity. Qed.

Section Fns.
Variables (dx : field -> expr) (bf : bitfield) (m : mode).
Hypothesis OK : emit_ok dx bf.
Let P := emitted dx bf.
Let Hback := eo_back _ _ OK.
Let Hsmall := eo_small _ _ OK.

(** [invert_bits()] / [invert_bytes()]: invert_bit_ops_feature.rs:54-107 *)
Lemma invert_all_meets st0 : ok_store bf st0 ->
  fn_meets dx bf true (invert_all_fn bf)
    (fun r s => ready m r /\ calls bf m r /\ s = own_st [] (enc_store st0))
    (fun _ _ => after (Gen.invert_all m bf st0) (fun _ => RU) enc_store).
Proof.
  intros Hst. set (i := invert_all_fn bf). assert (Hc : const_ok bf i) by (left; reflexivity).
  pose proof (knows_own dx bf OK i Hc) as K. pose proof (writes_own dx bf m OK i Hc) as W.
  set (C := ("this", (false, TRef true TSelf)) :: ctx_of true i).
  assert (Cv := conv_invert bf (genv_of P true i) m Hback K C true st0 ltac:(eapply ref_place; reflexivity) Hst).
  destruct (conv_then bf _ m Hback C _ (copy_all bf (fun _ => true)) _ _ true
    (fun src s => Gen.copy_fields m bf (fun _ => true) src s) Cv) as (CL & F).
  { eapply ref_place. reflexivity. }
  { intros C' mu Hl Hp. destruct (data_whole bf Hback) as [Hw Hrf].
    exact (steps_copy bf _ m Hback K (fun _ => true) C' true mu _ Hsmall Hp Hl Hrf Hw). }
  specialize (F st0 Hst). eapply fn_frag_unit; [reflexivity | reflexivity | |].
  - eapply (frag_self dx bf true i _ (TRef true TSelf) (RRef "*self")); [reflexivity | exact F].
  - intros r s (Hr & Hcl & ->). destruct (own_this [] (enc_store st0) RU) as [Hh _].
    split; [split; [reflexivity|]; split; [exact Hr|]; split; [exact Hcl|]; split; exact Hh|].
    rewrite invert_all_parts. unfold after. destruct (src <- _ ;; _) as [st1|]; cbn [out]; [|reflexivity].
    intros s1 (_ & L & HL & ->). rewrite mem_pushes. reflexivity.
Qed.
End Fns.
