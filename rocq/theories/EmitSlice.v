(** The emitted conversions from and into slices. *)
From Coq Require Import ZArith List Bool String Lia.
From Verif Require Import RustInt Syntax GenInt GenArr Spec BitsLemmas CoreLemmas Rust RustLemmas Surface Emit EmitVocab
  EmitLemmas EmitArr EmitArrPut EmitField EmitDefault EmitFns EmitRead EmitNew EmitConv EmitData.
From Verif Require Gen.
Import ListNotations.
Open Scope string_scope.
Open Scope list_scope.
Open Scope Z_scope.

Section Copy.
Variables (G : genv) (m : mode).

(** from_into_bits_feature.rs:318-322, 327-331, 635-639, 643-647 *)
Lemma frag_copy C x dr tx y sr ty my bound db k :
  place G (("i", (true, TUsize)) :: C) (V x) = Some (tx, true, spot x dr) -> elem tx = Some (TI U8) ->
  place G (("i", (true, TUsize)) :: C) (V y) = Some (ty, my, spot y sr) -> elem ty = Some (TI U8) ->
  String.eqb x "i" = false -> String.eqb y "i" = false -> 0 <= k < 2 ^ 32 ->
  elab G (("i", (true, TUsize)) :: C) (Some TUsize) bound = Some (TUsize, db) -> forall dst src,
  frag G C (copy_loop x y bound) (("i", (true, TUsize)) :: C)
    (fun r s => ready m r /\ has x dr s (RA dst) /\ (forall a, has y sr (store_at x dr (RA a) s) (RA src)) /\
       forall j a, db r (push "i" (RI j) (store_at x dr (RA a) s)) = Go (RI k) (push "i" (RI j) (store_at x dr (RA a) s)))
    (fun _ s => out (Gen.copy_bytes k src dst) (fun l s' => s' = push "i" (RI k) (store_at x dr (RA l) s))).
Proof.
  intros Px Ex Py Ey Nx Ny Hk Eb dst src h rest tail tr dr' Hr. unfold copy_loop. cbn [app]. opn. eexists. split.
  { eapply B_let; [reflexivity | el |]. eapply B_stmt; [reflexivity | | exact Hr]. eapply S_while.
    - eapply E_compare; [reflexivity | el | ity | exact Eb | teq].
    - eapply B_stmt; [reflexivity | |].
      + eapply S_set_index; [exact Px | el | exact Ex | eapply E_index; [exact Py | el | exact Ey] | teq].
      + bl. }
  intros r s ([Hm Hfu] & Hx & Hy & Hb). apply meets_let. run0. apply meets_seq. lits. pose proof pow_le_32_64.
  replace (push "i" (RI 0) s) with (push "i" (RI 0) (store_at x dr (RA dst) s)) by (rewrite store_id by exact Hx; reflexivity).
  unfold d_while. unfold Gen.copy_bytes.
  rewrite (wloop_while (r_fuel r) _ _ (fun j a => push "i" (RI j) (store_at x dr (RA a) s)) k
    (fun i dst => b <- arr_get src i ;; arr_set dst i b) (fun _ => True));
    [ | lia | lia | exact I | | ].
  - destruct (while_lt _ _ _); cbn [out meets]; [eexists; split; reflexivity | reflexivity].
  - intros j a Hj _. sim. rewrite Hb. sim. reflexivity.
  - intros j a Hj _. pose proof (Hy a) as Hya. sim. passm. done.
Qed.
End Copy.

Lemma has_ref_local x y s v w : has y true s v -> String.eqb y x = false -> has y true (store_at x false w s) v.
Proof.
  intros (q & H1 & H2) N. exists q. unfold spot in *. rewrite lookup_store by exact N. split; [exact H1|].
  destruct (lookup y (loc s)) as [[]|]; try discriminate. inversion H1; subst q. exact H2.
Qed.
Lemma has_local_ref x y s v w : has y false s v -> has y false (store_at x true w s) v.
Proof.
  intros (q & H1 & H2). exists q. split; [exact H1|]. inversion H1; subst q. unfold store_at. cbn [spot].
  destruct (lookup x (loc s)) as [[]|]; exact H2.
Qed.
Lemma copy_len_range slice n : 0 < n -> 8 * n < 2 ^ 32 -> 0 <= Gen.copy_len slice n < 2 ^ 32.
Proof. intros H1 H2. unfold Gen.copy_len. destruct (Z.ltb_spec (Z.of_nat (List.length slice)) n); lia. Qed.

Section Fill.
Variables (bf : bitfield) (G : genv) (m : mode) (n : Z).
Hypothesis Hty : b_ty bf = DArray n.
Hypothesis Hback : backing_ok (b_ty bf).

Lemma place_slice C mu t : lookup "slice" C = Some (false, TRef mu t) -> place G C (V "slice") = Some (t, mu, spot "slice" true).
Proof. intros H. eapply P_ref. exact H. Qed.
(** from_into_bits_feature.rs:316-317, 634 *)
Lemma ev_copy_len C mu slice : lookup "slice" C = Some (false, TRef mu TSlice) ->
  ev G C None (copy_len_expr bf) TUsize (fun _ s => has "slice" true s (RA slice)) (fun _ _ => Val (RI (Gen.copy_len slice n))).
Proof.
  intros Hl. pose proof (place_slice C mu TSlice Hl) as Hp. unfold copy_len_expr, array_len. rewrite Hty. opn.
  eexists. split; [el|]. intros r s Hh. sim. rewrite (usize_len bf n Hty Hback) by (pose proof (len_pos bf n Hty Hback); lia).
  unfold Gen.copy_len. destruct (Z.of_nat (List.length slice) <? n); sim; reflexivity.
Qed.
(** from_into_bits_feature.rs:343-352 *)
Definition conv_ctx (e : endian) : tctx := match e with Little => [] | Big => [("i", (true, TUsize))] end.
Lemma frag_slice_convert C e l : lookup "bits" C = Some (true, TArr U8 n) ->
  frag G C (slice_convert bf e) (conv_ctx e ++ C) (fun r s => ready m r /\ has "bits" false s (RA l))
    (fun _ s => out (Gen.convert_from_into m bf e (StA l)) (fun b s' => ok_store bf b /\
       exists L, among ["i"] L /\ s' = pushes L (store_at "bits" false (enc_store b) s))).
Proof.
  intros Hl. unfold slice_convert, Gen.convert_from_into, conv_ctx. rewrite Hty. destruct e.
  - eapply frag_weaken; [apply frag_nil with (pre := fun _ _ => True)|].
    intros r s [Hr Hh]. split; [exact I|]. cbn [out refines]. intros s' ->. split; [unfold ok_store; rewrite Hty; exact I|].
    exists []. split; [constructor|]. cbn [pushes enc_store]. rewrite store_id by exact Hh. reflexivity.
  - eapply frag_weaken; [apply (frag_xor bf G m n Hty Hback C (usz 0) (or_intror eq_refl) Hl)|].
    intros r s [Hr Hh]. split; [split; [exact Hr | exact Hh]|]. unfold bind.
    destruct (Gen.reverse_xor m n l) as [l'|]; cbn [out refines]; [|reflexivity].
    intros s' ->. split; [unfold ok_store; rewrite Hty; exact I|]. exists [("i", RI (n / 2))]. split; [am | reflexivity].
Qed.

Definition slice_in (mu : bool) (C : tctx) : Prop := lookup "slice" C = Some (false, TRef mu TSlice).

(** Fill [bits] from the slice, then convert. *)
Lemma store_local x v w s : store_at x false w (push x v s) = push x w s.
Proof. unfold store_at, spot. rewrite write_same. reflexivity. Qed.
Lemma frag_fill C e mu bound db k l slice : slice_in mu C -> lookup "bits" C = Some (true, TArr U8 n) -> 0 <= k < 2 ^ 32 ->
  elab G (("i", (true, TUsize)) :: C) (Some TUsize) bound = Some (TUsize, db) ->
  frag G C (copy_loop "bits" "slice" bound ++ slice_convert bf e) (conv_ctx e ++ ("i", (true, TUsize)) :: C)
    (fun r s => ready m r /\ has "bits" false s (RA l) /\ has "slice" true s (RA slice) /\
       forall j a, db r (push "i" (RI j) (store_at "bits" false (RA a) s)) = Go (RI k) (push "i" (RI j) (store_at "bits" false (RA a) s)))
    (fun _ s => out (bits <- Gen.copy_bytes k slice l ;; Gen.convert_from_into m bf e (StA bits))
       (fun b s' => ok_store bf b /\ exists L, among ["i"] L /\ s' = pushes L (store_at "bits" false (enc_store b) s))).
Proof.
  intros Hl Hlb Hk Eb. set (C2 := ("i", (true, TUsize)) :: C) in *.
  assert (F1 := frag_copy G m C "bits" false (TArr U8 n) "slice" true TSlice mu bound db k
    ltac:(eapply P_var; [exact Hlb | reflexivity]) eq_refl ltac:(apply place_slice; exact Hl) eq_refl eq_refl eq_refl Hk Eb l slice).
  eapply (frag_app l); [exact F1 | intros l'; apply (frag_slice_convert C2 e l' Hlb) |].
  intros r s (Hr & Hh & Hs & Hb). split.
  { split; [exact Hr|]. split; [exact Hh|]. split; [|exact Hb].
    intros a. apply has_ref_local; [exact Hs | reflexivity]. }
  unfold bind. destruct (Gen.copy_bytes k slice l) as [l'|]; cbn [out]; [|reflexivity].
  intros s1 ->. exists l'. split.
  { split; [exact Hr|]. apply has_push; [reflexivity|]. eapply has_store; exact Hh. }
  destruct (Gen.convert_from_into m bf e (StA l')) as [b|]; cbn [out refines]; [|reflexivity].
  intros s2 (Ok2 & L & HL & ->). split; [exact Ok2|]. exists (L ++ [("i", RI k)]). split; [apply among_app; [exact HL | am]|].
  rewrite (store_push "bits" false "i"), store_store, <- pushes_app by reflexivity. reflexivity.
Qed.

(** from_into_bits_feature.rs:314-338 *)
Lemma frag_zero_bits C : frag G C [zero_bits bf] (("bits", (true, data_ty bf)) :: C) (fun _ _ => True)
  (fun _ s => Next (fun s' => s' = push "bits" (RA (zeros n)) s)).
Proof.
  unfold zero_bits, array_len. rewrite (data_A bf n Hty), Hty.
  eapply frag_lett; [unfold lit; eapply E_repeat; el | apply ty_eqb_refl |]. intros r s _. cbn [dbind]. reflexivity.
Qed.
Lemma conv_from_slice C e mu slice : slice_in mu C ->
  conv_frag bf G m C (zero_bits bf :: let_ "copy_len" (copy_len_expr bf) :: copy_loop "bits" "slice" (V "copy_len") ++ slice_convert bf e)
    (fun _ s => has "slice" true s (RA slice))
    (bits <- Gen.copy_bytes (Gen.copy_len slice n) slice (zeros n) ;; Gen.convert_from_into m bf e (StA bits)).
Proof.
  intros Hl. pose proof (len_pos bf n Hty Hback) as [H1 H2].
  set (C1 := ("copy_len", (false, TUsize)) :: ("bits", (true, data_ty bf)) :: C).
  exists (conv_ctx e ++ [("i", (true, TUsize)); ("copy_len", (false, TUsize)); ("bits", (true, data_ty bf))]), true.
  split; [destruct e; am|]. split; [destruct e; reflexivity|].
  replace ((conv_ctx e ++ _) ++ C) with (conv_ctx e ++ ("i", (true, TUsize)) :: C1) by (rewrite <- app_assoc; reflexivity).
  set (k := Gen.copy_len slice n).
  assert (Hlb : lookup "bits" C1 = Some (true, TArr U8 n)) by (unfold C1; rewrite (data_A bf n Hty); reflexivity).
  assert (F2 := frag_fill C1 e mu (V "copy_len") (d_var "copy_len") k (zeros n) slice Hl Hlb (copy_len_range slice n H1 H2) ltac:(eapply E_var; reflexivity)).
  change (zero_bits bf :: ?a :: ?l) with ([zero_bits bf] ++ [a] ++ l).
  eapply (frag_app tt); [apply frag_zero_bits | intros u |].
  - eapply (frag_app tt) with (pre := fun r s => ready m r /\ lookup "bits" (loc s) = Some (RA (zeros n)) /\ has "slice" true s (RA slice))
      (post := fun _ s => out (bits <- Gen.copy_bytes k slice (zeros n) ;; Gen.convert_from_into m bf e (StA bits))
        (fun b s' => ok_store bf b /\ exists L, among ["i"] L /\ s' = pushes L (store_at "bits" false (enc_store b) (push "copy_len" (RI k) s))));
      [eapply frag_ev; [reflexivity | apply (ev_copy_len _ mu); exact Hl] | intros u1; exact F2 |].
    intros r s (Hr & Hb & Hs). split; [exact Hs|]. cbn [out]. intros s1 ->. exists tt. split.
    { split; [exact Hr|]. split; [apply has_push; [reflexivity | apply has_local; exact Hb]|]. split; [apply has_push; [reflexivity | exact Hs]|].
      intros j a. unfold d_var. rewrite (store_push "bits" false "copy_len") by reflexivity. look. reflexivity. }
    destruct (bind _ _); cbn [out refines]; auto.
  - intros r s (Hr & Hs). split; [exact I|]. intros s1 ->. exists tt. split.
    { split; [exact Hr|]. split; [apply lookup_same | apply has_push; [reflexivity | exact Hs]]. }
    destruct (bind _ _) as [b|]; cbn [out refines]; [|reflexivity]. intros s2 (Ok2 & L & HL & ->). split; [exact Ok2|].
    rewrite (store_push "bits" false "copy_len"), store_local by reflexivity.
    exists (L ++ [("copy_len", RI k); ("bits", enc_store b)]). rewrite <- pushes_app. split; [|split; [reflexivity|]].
    + apply among_app; [eapply among_sub; [|exact HL]; cbn; tauto | am].
    + rewrite (lookup_pushes ["i"]) by (exact HL || (cbn; intuition discriminate)). reflexivity.
Qed.
(** from_into_bits_feature.rs:326-338 *)
Lemma conv_checked_slice C e mu slice : slice_in mu C ->
  conv_frag bf G m C (zero_bits bf :: copy_loop "bits" "slice" (usz (array_len bf)) ++ slice_convert bf e)
    (fun _ s => has "slice" true s (RA slice))
    (bits <- Gen.copy_bytes n slice (zeros n) ;; Gen.convert_from_into m bf e (StA bits)).
Proof.
  intros Hl. pose proof (len_pos bf n Hty Hback) as [H1 H2].
  set (C1 := ("bits", (true, data_ty bf)) :: C).
  exists (conv_ctx e ++ [("i", (true, TUsize)); ("bits", (true, data_ty bf))]), true.
  split; [destruct e; am|]. split; [destruct e; reflexivity|].
  replace ((conv_ctx e ++ _) ++ C) with (conv_ctx e ++ ("i", (true, TUsize)) :: C1) by (rewrite <- app_assoc; reflexivity).
  assert (Hlb : lookup "bits" C1 = Some (true, TArr U8 n)) by (unfold C1; rewrite (data_A bf n Hty); reflexivity).
  assert (F2 := frag_fill C1 e mu (usz n) (fun _ s => Go (RI (wrap TUsize n)) s) n (zeros n) slice Hl Hlb ltac:(lia) (E_lit _ _ _ _ _)).
  unfold array_len. rewrite Hty. change (zero_bits bf :: ?l) with ([zero_bits bf] ++ l).
  eapply (frag_app tt); [apply frag_zero_bits | intros u; exact F2 |].
  intros r s (Hr & Hs). split; [exact I|]. intros s1 ->. exists tt. split.
  { split; [exact Hr|]. split; [apply has_local, lookup_same|]. split; [apply has_push; [reflexivity | exact Hs]|].
    intros j a. rewrite (usize_len bf n Hty Hback) by lia. reflexivity. }
  destruct (bind _ _) as [b|]; cbn [out refines]; [|reflexivity]. intros s2 (Ok2 & L & HL & ->). split; [exact Ok2|].
  rewrite store_local. exists (L ++ [("bits", enc_store b)]). rewrite <- pushes_app. split; [|split; [reflexivity|]].
  + apply among_app; [eapply among_sub; [|exact HL]; cbn; tauto | am].
  + rewrite (lookup_pushes ["i"]) by (exact HL || (cbn; intuition discriminate)). reflexivity.
Qed.
End Fill.

Section Slice.
Variables (dx : field -> expr) (bf : bitfield) (m : mode) (n : Z).
Hypothesis OK : emit_ok dx bf.
Hypothesis Hty : b_ty bf = DArray n.
Let P := emitted dx bf.
Let Hback := eo_back _ _ OK.
Let Hsmall := eo_small _ _ OK.
Let Hd := eo_dx _ _ OK.

Definition slice_st (slice : list Z) : st := mkSt [("slice", RRef "*slice")] [("*slice", RA slice)].
Lemma slice_has slice : has "slice" true (slice_st slice) (RA slice).
Proof. exists (RMem "*slice"). split; reflexivity. Qed.

(** [from_slice(slice)] and variants: from_into_bits_feature.rs:361-383, 409-430, 457-478 *)
Lemma from_slice_meets v d slice :
  fn_meets dx bf true (from_slice_fn dx bf v d) (fun r s => ready m r /\ calls bf m r /\ s = slice_st slice)
    (fun _ s => match Gen.from_slice m bf v d slice with Val st1 => Val (enc_store st1, mem s) | Panic => Panic end).
Proof.
  set (i := from_slice_fn dx bf v d). assert (Hc : const_ok bf i) by (left; reflexivity).
  pose proof (knows_own dx bf OK i Hc) as K. pose proof (writes_own dx bf m OK i Hc) as W.
  set (C := [("slice", (false, TRef false TSlice))]). set (e := Gen.variant_endian (a_from_endian (b_args bf)) v).
  assert (Cv := conv_from_slice bf (genv_of P true i) m n Hty Hback C e false slice eq_refl).
  destruct (conv_from_tail bf _ m Hback K W Hsmall dx Hd d C _ _ _ eq_refl (heap_not_const dx bf true i Hc) Cv) as (CL & C' & A & F).
  eapply (made_fn dx bf OK true i) with (o := fun _ _ => Gen.from_slice m bf v d slice); [reflexivity | reflexivity | exact A | |].
  - cbn [app] in F. rewrite <- app_assoc in F. eapply frag_weaken; [exact F|].
    intros r s H. split; [exact H|]. unfold Gen.from_slice. rewrite Hty. fold e. unfold bind.
    destruct (Gen.copy_bytes _ _ _); cbn [out refines]; [|reflexivity].
    destruct (Gen.convert_from_into _ _ _ _); cbn [out refines]; [|reflexivity].
    destruct (Gen.build_from _ _ _ _); cbn [out refines]; auto.
  - intros r s (H1 & H2 & ->). split; [exact H1|]. split; [exact H2 | apply slice_has].
Qed.

(** from_into_bits_feature.rs:388-391, 670-673 *)
Lemma frag_size_check i C mu t msg slice : fn_ret i = TRes t -> slice_in mu C ->
  frag (genv_of P true i) C [size_check bf msg] C (fun _ s => has "slice" true s (RA slice))
    (fun _ s => guard (Val (Z.of_nat (List.length slice) <? n)) (RErr msg) s).
Proof.
  intros Hr Hl. pose proof (place_slice (genv_of P true i) C mu TSlice Hl) as Hp. unfold size_check, array_len. rewrite Hty.
  apply frag_guard; [apply (leaves_err _ C t); exact Hr|]. opn. eexists. split; [el|].
  intros r s Hh. sim. rewrite (usize_len bf n Hty Hback) by (pose proof (len_pos bf n Hty Hback); lia). reflexivity.
Qed.

Lemma checked_from_slice_meets v d slice :
  fn_meets dx bf true (checked_from_slice_fn dx bf v d) (fun r s => ready m r /\ calls bf m r /\ s = slice_st slice)
    (fun _ s => match Gen.checked_from_slice m bf v d slice with
                | Val (Ok st1) => Val (ROk (enc_store st1), mem s)
                | Val (Err e) => Val (RErr e, mem s)
                | Panic => Panic
                end).
Proof.
  set (i := checked_from_slice_fn dx bf v d). assert (Hc : const_ok bf i) by (left; reflexivity).
  pose proof (knows_own dx bf OK i Hc) as K. pose proof (writes_own dx bf m OK i Hc) as W.
  set (C := [("slice", (false, TRef false TSlice))]). set (e := Gen.variant_endian (a_from_endian (b_args bf)) v).
  assert (F1 := frag_size_check i C false TSelf Gen.msg_fill slice eq_refl eq_refl).
  assert (Cv := conv_checked_slice bf (genv_of P true i) m n Hty Hback C e false slice eq_refl).
  destruct (conv_from_tail bf _ m Hback K W Hsmall dx Hd d C _ _ _ eq_refl (heap_not_const dx bf true i Hc) Cv) as (CL & C' & A & F).
  destruct (some_store bf Hback) as [sx Hx].
  eapply (fn_frag_ev' dx bf (ok_store bf) sx) with
    (pre1 := fun r s => ready m r /\ calls bf m r /\ has "slice" true s (RA slice))
    (post := fun r s => if Z.of_nat (List.length slice) <? n then Done (Val (RErr Gen.msg_fill, mem s)) else
       out (src <- (bits <- Gen.copy_bytes n slice (zeros n) ;; Gen.convert_from_into m bf e (StA bits)) ;; Gen.build_from m bf d src)
       (fun st1 s' => ok_store bf st1 /\ lookup "this" (loc s') = Some (enc_store st1) /\ mem s' = mem s))
    (pret := fun st1 _ s => lookup "this" (loc s) = Some (enc_store st1)) (G := fun st1 _ _ => Val (ROk (enc_store st1)));
    [exact Hx | reflexivity | | |].
  - change (size_check bf Gen.msg_fill :: ?l) with ([size_check bf Gen.msg_fill] ++ l).
    cbn [app] in F. rewrite <- app_assoc in F.
    eapply (frag_app tt); [exact F1 | intros u; exact F |].
    intros r s (H1 & H2 & H3). split; [exact H3|]. cbn [guard]. destruct (_ <? n); [reflexivity|].
    intros s1 ->. exists tt. split; [auto|]. match goal with |- refines ?x _ => destruct x; cbn [refines]; auto end.
  - intros st1 _. destruct (ev_this_var (genv_of P true i) (("this", (true, TSelf)) :: C') (Some TSelf) true TSelf st1 CL A eq_refl) as (dt & E & R).
    change (fn_ret i) with (TRes TSelf).
    eexists. split; [eapply E_ok; exact E|]. intros r s H. cbv beta. rewrite R by exact H. reflexivity.
  - intros r s (H1 & H2 & ->). split; [split; [exact H1|]; split; [exact H2 | apply slice_has]|].
    unfold Gen.checked_from_slice. rewrite Hty. fold e. destruct (_ <? n); [reflexivity|]. unfold bind.
    destruct (Gen.copy_bytes _ _ _); cbn [out]; [|reflexivity]. destruct (Gen.convert_from_into _ _ _ _); cbn [out]; [|reflexivity].
    destruct (Gen.build_from _ _ _ _) as [st1|]; cbn [out]; [|reflexivity].
    intros s1 (Ok1 & Hl & Hm). exists st1. split; [exact Ok1|]. split; [exact Hl|]. rewrite Hm. reflexivity.
Qed.

(** [into_slice(&self, slice)] and variants: from_into_bits_feature.rs:592-650, 658-716 *)
Lemma conv_get_bits G C mu e l : g_back G = store_ty bf -> place G C (V "this") = Some (TSelf, mu, spot "this" true) -> ok_store bf (StA l) ->
  conv_frag bf G m C (get_bits_var bf e) (fun _ s => has "this" true s (RA l)) (Gen.convert_from_into m bf e (StA l)).
Proof.
  intros HB Hp Hok. pose proof (ev_load bf G Hback C None mu true (StA l) HB Hp) as E.
  assert (Ho : open_lit (load bf) = None) by (unfold load; destruct (is_heap bf); reflexivity).
  unfold get_bits_var, Gen.convert_from_into. rewrite Hty. destruct e.
  - apply conv_let; [exact Ho | exact Hok | exact E].
  - apply (conv_xor bf G m Hback C n (load bf) (usz 0) l); [exact Hty | right; reflexivity | exact Ho | exact E].
Qed.
Definition spill (chk : bool) : list stmt :=
  if chk then copy_loop "slice" "bits" (usz (array_len bf))
  else let_ "copy_len" (copy_len_expr bf) :: copy_loop "slice" "bits" (V "copy_len").
Definition spill_len (chk : bool) (slice : list Z) : Z := if chk then n else Gen.copy_len slice n.
Lemma spill_copy G C mu bound db k l slice : slice_in true C -> lookup "bits" C = Some (mu, data_ty bf) -> 0 <= k < 2 ^ 32 ->
  elab G (("i", (true, TUsize)) :: C) (Some TUsize) bound = Some (TUsize, db) ->
  frag G C (copy_loop "slice" "bits" bound) (("i", (true, TUsize)) :: C)
    (fun r s => ready m r /\ has "slice" true s (RA slice) /\ lookup "bits" (loc s) = Some (RA l) /\
       forall j a, db r (push "i" (RI j) (store_at "slice" true (RA a) s)) = Go (RI k) (push "i" (RI j) (store_at "slice" true (RA a) s)))
    (fun _ s => out (Gen.copy_bytes k l slice) (fun l' s' => mem s' = mem (store_at "slice" true (RA l') s))).
Proof.
  intros Hs Hb Hk Eb. rewrite (data_A bf n Hty) in Hb.
  assert (F := frag_copy G m C "slice" true TSlice "bits" false (TArr U8 n) mu bound db k
    ltac:(apply place_slice; exact Hs) eq_refl ltac:(eapply P_var; [exact Hb | reflexivity]) eq_refl eq_refl eq_refl Hk Eb slice l).
  eapply frag_weaken; [exact F|]. intros r s (H1 & H2 & H3 & H4). split.
  { split; [exact H1|]. split; [exact H2|]. split; [|exact H4]. intros a. apply has_local_ref, has_local. exact H3. }
  destruct (Gen.copy_bytes _ _ _); cbn [out refines]; [|reflexivity]. intros s1 ->. reflexivity.
Qed.
Lemma frag_spill G C chk mu : slice_in true C -> lookup "bits" C = Some (mu, data_ty bf) -> exists C', forall l slice,
  frag G C (spill chk) C'
    (fun r s => ready m r /\ has "slice" true s (RA slice) /\ lookup "bits" (loc s) = Some (RA l))
    (fun _ s => out (Gen.copy_bytes (spill_len chk slice) l slice) (fun l' s' => mem s' = mem (store_at "slice" true (RA l') s))).
Proof.
  intros Hs Hb. pose proof (len_pos bf n Hty Hback) as [H1 H2]. destruct chk; unfold spill, spill_len.
  - eexists. intros l slice. unfold array_len. rewrite Hty.
    eapply frag_weaken; [eapply (spill_copy G C mu (usz n) (fun _ s => Go (RI (wrap TUsize n)) s) n l slice Hs Hb); [lia | apply E_lit]|].
    intros r s (Hr & Hh & Hl). split; [|destruct (Gen.copy_bytes _ _ _); cbn [out refines]; auto].
    split; [exact Hr|]. split; [exact Hh|]. split; [exact Hl|]. intros j a. rewrite (usize_len bf n Hty Hback) by lia. reflexivity.
  - eexists. intros l slice. change (let_ "copy_len" ?x :: ?y) with ([let_ "copy_len" x] ++ y).
    assert (F := spill_copy G (("copy_len", (false, TUsize)) :: C) mu (V "copy_len") (d_var "copy_len") (Gen.copy_len slice n) l slice Hs Hb
      (copy_len_range slice n H1 H2) ltac:(eapply E_var; reflexivity)).
    eapply (frag_app tt); [eapply frag_ev; [reflexivity | apply (ev_copy_len bf _ n Hty Hback _ true slice); exact Hs] | intros u; exact F |].
    intros r s (Hr & Hh & Hl). split; [exact Hh|]. cbn [out]. intros s1 ->. exists tt. split.
    { split; [exact Hr|]. split; [apply has_push; [reflexivity | exact Hh]|]. split; [rewrite loc_push, lookup_other by reflexivity; exact Hl|].
      intros j a. unfold d_var. rewrite (store_push "slice" true "copy_len") by reflexivity. look. reflexivity. }
    destruct (Gen.copy_bytes _ _ _); cbn [out refines]; [|reflexivity]. intros s2 ->.
    rewrite (store_push "slice" true "copy_len") by reflexivity. reflexivity.
Qed.
Lemma frag_into_slice G C chk e mu l slice : g_back G = store_ty bf -> place G C (V "this") = Some (TSelf, mu, spot "this" true) ->
  slice_in true C -> ok_store bf (StA l) -> exists C',
  frag G C (get_bits_var bf e ++ spill chk) C'
    (fun r s => ready m r /\ has "this" true s (RA l) /\ has "slice" true s (RA slice))
    (fun _ s => out (bits <- Gen.convert_from_into m bf e (StA l) ;;
                     match bits with StA b => Gen.copy_bytes (spill_len chk slice) b slice | StI _ => Panic end)
                  (fun l' s' => mem s' = mem (store_at "slice" true (RA l') s))).
Proof.
  intros HB Hp Hs Hok. destruct (conv_get_bits G C mu e l HB Hp Hok) as (CL & mb & A & Lb & F1).
  destruct (frag_spill G (CL ++ C) chk mb) as [C' F2].
  { unfold slice_in. rewrite (lookup_among conv_names) by (exact A || (cbn; intuition discriminate)). exact Hs. }
  { exact Lb. }
  exists C'. eapply (frag_app l); [exact F1 | intros b; exact (F2 b slice) |].
  intros r s (Hr & Ht & Hh). split; [auto|]. unfold bind.
  destruct (Gen.convert_from_into m bf e (StA l)) as [b|]; cbn [out]; [|reflexivity].
  intros s1 (Ok1 & L & HL & -> & Hb). destruct (store_A bf n b Hty Ok1) as [lb ->]. exists lb. split.
  { split; [exact Hr|]. split; [apply (has_pushes conv_names); [exact HL | cbn; intuition discriminate | exact Hh] | exact Hb]. }
  destruct (Gen.copy_bytes _ _ _); cbn [out refines]; [|reflexivity]. intros s2 ->.
  rewrite (store_pushes conv_names) by (exact HL || (cbn; intuition discriminate)). apply mem_pushes.
Qed.
Definition slice_own (slice : list Z) (v : value) : st :=
  mkSt [("slice", RRef "*slice"); ("self", RRef "*self")] [("*slice", RA slice); ("*self", v)].
Lemma slice_own_ok slice v : let s := push "this" (RRef "*self") (slice_own slice v) in
  has "this" true s v /\ has "slice" true s (RA slice) /\
  forall l, mem (store_at "slice" true (RA l) s) = [("*slice", RA l); ("*self", v)].
Proof.
  cbv zeta. split; [exists (RMem "*self"); split; reflexivity|]. split; [exists (RMem "*slice"); split; reflexivity | reflexivity].
Qed.
Lemma into_slice_meets v st0 slice : ok_store bf st0 ->
  fn_meets dx bf true (into_slice_fn bf v) (fun r s => ready m r /\ s = slice_own slice (enc_store st0))
    (fun _ s => match Gen.into_slice m bf v st0 slice with
                | Val l => Val (RU, [("*slice", RA l); ("*self", enc_store st0)])
                | Panic => Panic
                end).
Proof.
  intros Hok. destruct (store_A bf n st0 Hty Hok) as [l ->]. set (i := into_slice_fn bf v).
  set (C := [("this", (false, TRef false TSelf)); ("slice", (false, TRef true TSlice)); ("self", (false, TRef false TSelf))]).
  set (e := Gen.variant_endian (a_into_endian (b_args bf)) v).
  destruct (frag_into_slice (genv_of P true i) C false e false l slice eq_refl ltac:(eapply P_ref; reflexivity) eq_refl Hok) as (C' & F).
  eapply fn_frag_unit; [reflexivity | reflexivity | eapply (frag_self dx bf true i _ (TRef false TSelf) (RRef "*self")); [reflexivity | exact F] |].
  intros r s (Hr & ->). destruct (slice_own_ok slice (RA l)) as (H1 & H2 & H3). cbn [enc_store].
  split; [split; [reflexivity | auto]|]. unfold Gen.into_slice. rewrite Hty. fold e. unfold bind, spill_len.
  destruct (Gen.convert_from_into m bf e (StA l)) as [[z|b]|]; cbn [out]; try reflexivity.
  destruct (Gen.copy_bytes _ _ _); cbn [out]; [|reflexivity]. intros s1 ->. rewrite H3. reflexivity.
Qed.
Lemma checked_into_slice_meets v st0 slice : ok_store bf st0 ->
  fn_meets dx bf true (checked_into_slice_fn bf v) (fun r s => ready m r /\ s = slice_own slice (enc_store st0))
    (fun _ s => match Gen.checked_into_slice m bf v st0 slice with
                | Val (l, o) => Val (match o with Ok _ => ROk RU | Err e => RErr e end, [("*slice", RA l); ("*self", enc_store st0)])
                | Panic => Panic
                end).
Proof.
  intros Hok. destruct (store_A bf n st0 Hty Hok) as [l ->]. set (i := checked_into_slice_fn bf v).
  set (C := [("this", (false, TRef false TSelf)); ("slice", (false, TRef true TSlice)); ("self", (false, TRef false TSelf))]).
  set (e := Gen.variant_endian (a_into_endian (b_args bf)) v).
  destruct (frag_into_slice (genv_of P true i) C true e false l slice eq_refl ltac:(eapply P_ref; reflexivity) eq_refl Hok) as (C' & F).
  assert (F1 := frag_size_check i C true TUnit Gen.msg_hold slice eq_refl eq_refl).
  assert (F2 : frag (genv_of P true i) C ([size_check bf Gen.msg_hold] ++ get_bits_var bf e ++ spill true) C'
    (fun r s => ready m r /\ has "this" true s (RA l) /\ has "slice" true s (RA slice))
    (fun _ s => if Z.of_nat (List.length slice) <? n then Done (Val (RErr Gen.msg_hold, mem s)) else
       out (bits <- Gen.convert_from_into m bf e (StA l) ;;
                     match bits with StA b => Gen.copy_bytes (spill_len true slice) b slice | StI _ => Panic end)
                  (fun l' s' => mem s' = mem (store_at "slice" true (RA l') s)))).
  { eapply (frag_app tt); [exact F1 | intros u; exact F |].
    intros r s (Hr & Ht & Hs). split; [exact Hs|]. cbn [guard]. destruct (_ <? n); [reflexivity|].
    intros s1 ->. exists tt. split; [auto|]. match goal with |- refines ?x _ => destruct x; cbn [refines]; auto end. }
  eapply fn_frag_ev with (pret := fun _ _ => True) (G := fun _ _ => Val (ROk RU));
    [reflexivity | eapply (frag_self dx bf true i _ (TRef false TSelf) (RRef "*self")); [reflexivity | exact F2] | |].
  { change (fn_ret i) with (TRes TUnit). eexists. split; [el|]. reflexivity. }
  intros r s (Hr & ->). destruct (slice_own_ok slice (RA l)) as (H1 & H2 & H3). cbn [enc_store].
  split; [split; [reflexivity | auto]|]. unfold Gen.checked_into_slice. rewrite Hty. fold e. destruct (_ <? n); [reflexivity|].
  unfold bind, spill_len.
  destruct (Gen.convert_from_into m bf e (StA l)) as [[z|b]|]; cbn [out]; try reflexivity.
  destruct (Gen.copy_bytes _ _ _); cbn [out]; [|reflexivity]. intros s1 ->. rewrite H3. split; [exact I | reflexivity].
Qed.
End Slice.
