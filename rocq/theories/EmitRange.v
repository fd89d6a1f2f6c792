(** The emitted range operations. *)
From Coq Require Import ZArith List Bool String Lia.
From Verif Require Import RustInt Syntax GenInt GenArr Spec BitsLemmas CoreLemmas Rust RustLemmas Surface Emit EmitVocab
  EmitLemmas EmitArr EmitArrPut EmitField EmitDefault EmitFns EmitRead EmitNew EmitConv EmitData EmitGuard EmitBit EmitProt EmitLoop.
From Verif Require Gen.
Import ListNotations.
Open Scope string_scope.
Open Scope list_scope.
Open Scope Z_scope.

Section Int.
Variables (bf : bitfield) (G : genv) (m : mode) (t : ity).
Hypothesis Hty : b_ty bf = DInteger t.
Hypothesis Hback : backing_ok (b_ty bf).
Hypothesis K : knows bf false G.
Variables (o len : Z).
Local Notation w := (ity_bits t).

Lemma ev_mask_len C h : lookup "length" C = Some (false, TI U32) ->
  ev G C h (mask_expr bf (V "length")) (TI t) (fun r s => ready m r /\ at_u32 "length" len s)
    (fun _ _ => z <- mask_int m w len ;; Val (RI z)).
Proof.
  intros Cl. pose proof (int_T bf t Hty Hback) as IT. unfold mask_expr, data_ity. rewrite Hty.
  eexists. split; [el|]. intros r s [[Hm _] Hl]. unfold at_u32 in Hl. run1. rewrite Hm, Hl. unfold mask_int. run1.
  repeat oc; reflexivity.
Qed.

(** 133-136 *)
Definition set_range_int : list stmt :=
  [ let_ "range_mask" (mask_expr bf (V "length") <<! V "offset");
    protected_mask bf Gen.no_setter;
    let_ "writable_mask" (V "range_mask" &! (~! V "protected_mask"));
    SSet (val false) ((val false &! (~! V "writable_mask"))
                      |! ((V "value" <<! V "offset") &! V "writable_mask")) ].
Definition set_range_int_val (v z : Z) : outcome Z :=
  mask <- mask_int m w len ;;
  range_mask <- shl m w mask o ;;
  let writable := Z.land range_mask (unot w (Gen.protected_mask_int bf Gen.no_setter w)) in
  x <- shl m w v o ;;
  Val (Z.lor (Z.land z (unot w writable)) (Z.land x writable)).
Lemma frag_set_range_int C v z : range_ctx C -> lookup "value" C = Some (false, TI t) ->
  place G C (this false) = Some (TSelf, true, spot "this" true) ->
  exists C', frag G C set_range_int C'
    (fun r s => in_range_st m o len r s /\ lookup "value" (loc s) = Some (RI v) /\ has "this" true s (RI z))
    (fun _ s => out (set_range_int_val v z) (fun z' s' => mem s' = mem (store_at "this" true (RI z') s))).
Proof.
  intros [Co Cl] Cv Hp. pose proof (int_T bf t Hty Hback) as IT. pose proof (back_T bf false G t Hty K) as HB.
  destruct (ev_mask_len C None Cl) as (dm & Em & Rm).
  destruct (prot_int bf G Hback t Gen.no_setter Hty (("range_mask", (false, TI t)) :: C)) as (dp & Ep & Rp).
  unfold set_range_int, protected_mask. rewrite Hty. eexists. start. eexists. split.
  { eapply B_let; [reflexivity | eapply E_shift; [reflexivity | exact Em | el | ity | ity] |].
    eapply B_let; [reflexivity | exact Ep |]. eapply B_let; [reflexivity | el |]. eapply B_stmt; [reflexivity | sl | exact Hr]. }
  intros r s ((Hr0 & Hso & Hsl) & Hsv & Hh). pose proof Hr0 as [Hm _]. unfold at_u32 in Hso. unfold set_range_int_val.
  apply meets_let. run0. rewrite Rm by (split; assumption). run0. destruct (mask_int m w len) as [mk|]; [|reflexivity]. cbn [lift].
  run0. rewrite Hso, Hm. destruct (shl m w mk o) as [rm|]; [|reflexivity]. apply meets_let. rewrite Rp by exact I. cbn [lift].
  apply meets_let. run0. look. apply meets_seq. sim. unfold out. oc; sim; [|reflexivity].
  cbn [meets]. eexists. split; [|reflexivity]. reflexivity.
Qed.

(** 148-151, 344-347 *)
Definition check_int (prot : field -> bool) (msg : string) : list stmt :=
  [ let_ "mask" (mask_expr bf (V "length"));
    protected_mask bf prot;
    let_ "range_mask" (V "mask" <<! V "offset");
    if_ (EBin BNe (V "range_mask" &! V "protected_mask") (lit 0)) (err msg) ].
Definition check_ctx (C : tctx) : tctx :=
  ("range_mask", (false, TI t)) :: ("protected_mask", (false, TI t)) :: ("mask", (false, TI t)) :: C.
Definition check_int_val (prot : field -> bool) : outcome (Z * Z * bool) :=
  mask <- mask_int m w len ;;
  range_mask <- shl m w mask o ;;
  Val (mask, range_mask, negb (Z.land range_mask (Gen.protected_mask_int bf prot w) =? 0)).
Lemma frag_check_int C prot msg T : range_ctx C -> g_ret G = TRes T ->
  frag G C (check_int prot msg) (check_ctx C) (in_range_st m o len)
    (fun _ s => match check_int_val prot with
       | Val (_, _, true) => Done (Val (RErr msg, mem s))
       | Val (mk, rm, false) => Next (fun s' => s' = push "range_mask" (RI rm) (push "protected_mask" (RI (Gen.protected_mask_int bf prot w)) (push "mask" (RI mk) s)))
       | Panic => Done Panic
       end).
Proof.
  intros [Co Cl] HR. pose proof (int_T bf t Hty Hback) as IT.
  destruct (ev_mask_len C None Cl) as (dm & Em & Rm).
  destruct (prot_int bf G Hback t prot Hty (("mask", (false, TI t)) :: C)) as (dp & Ep & Rp).
  unfold check_int, protected_mask, check_ctx. rewrite Hty. start. eexists. split.
  { eapply B_let; [reflexivity | exact Em |].
    eapply B_let; [reflexivity | exact Ep |]. eapply B_let; [reflexivity | el |]. eapply B_stmt; [reflexivity | sl | exact Hr]. }
  intros r s (Hr0 & Hso & Hsl). pose proof Hr0 as [Hm _]. unfold at_u32 in Hso. unfold check_int_val.
  apply meets_let. rewrite Rm by (split; assumption). run0. destruct (mask_int m w len) as [mk|]; [|reflexivity]. cbn [lift].
  apply meets_let. rewrite Rp by exact I. cbn [lift].
  apply meets_let. run0. look. rewrite Hso, Hm. destruct (shl m w mk o) as [rm|]; [|reflexivity]. apply meets_seq. sim.
  rewrite (wrap_T0 bf t Hty Hback). destruct (negb _); cbn [meets mem push]; [reflexivity|]. eexists. split; reflexivity.
Qed.
(** 152-154 *)
Definition put_range_int_val (v z mask : Z) : outcome Z :=
  hole <- shl m w mask o ;;
  x <- shl m w (Z.land v mask) o ;;
  Val (Z.lor (Z.land z (unot w hole)) x).
Lemma frag_put_range_int C v z mk : range_ctx C -> lookup "value" C = Some (false, TI t) -> lookup "mask" C = Some (false, TI t) ->
  place G C (this false) = Some (TSelf, true, spot "this" true) ->
  frag G C [SSet (val false) ((val false &! (~! (V "mask" <<! V "offset"))) |! ((V "value" &! V "mask") <<! V "offset"))] C
    (fun r s => in_range_st m o len r s /\ lookup "value" (loc s) = Some (RI v) /\ lookup "mask" (loc s) = Some (RI mk) /\ has "this" true s (RI z))
    (fun _ s => out (put_range_int_val v z mk) (fun z' s' => s' = store_at "this" true (RI z') s)).
Proof.
  intros [Co Cl] Cv Cm Hp. pose proof (int_T bf t Hty Hback) as IT. pose proof (back_T bf false G t Hty K) as HB.
  start. eexists. split; [eapply B_stmt; [reflexivity | sl | exact Hr]|].
  intros r s (([Hm _] & Hso & Hsl) & Hsv & Hsm & Hh). unfold at_u32 in Hso. unfold put_range_int_val. apply meets_seq. sim. unfold out.
  repeat (oc; sim; try reflexivity). cbn [meets]. eexists. split; reflexivity.
Qed.
(** 329-332 *)
Definition get_range_int : list stmt :=
  [ let_ "mask" (mask_expr bf (V "length"));
    protected_mask bf Gen.no_read;
    let_ "shifted_protected_mask" ((V "protected_mask" >>! V "offset") &! V "mask");
    let_ "readable_mask" (V "mask" &! (~! V "shifted_protected_mask")) ].
Definition get_range_ctx (C : tctx) : tctx :=
  ("readable_mask", (false, TI t)) :: ("shifted_protected_mask", (false, TI t)) :: ("protected_mask", (false, TI t)) :: ("mask", (false, TI t)) :: C.
Definition get_range_masks : outcome (Z * Z) :=
  mask <- mask_int m w len ;;
  sp <- shr m w (Gen.protected_mask_int bf Gen.no_read w) o ;;
  Val (mask, Z.land mask (unot w (Z.land sp mask))).
Definition masks_in (mk rm : Z) (s s' : st) : Prop :=
  exists L, among ["readable_mask"; "shifted_protected_mask"; "protected_mask"; "mask"; "range_mask"] L /\ s' = pushes L s /\
    lookup "mask" (loc s') = Some (RI mk) /\ lookup "readable_mask" (loc s') = Some (RI rm).
Lemma frag_get_range_int C : range_ctx C ->
  frag G C get_range_int (get_range_ctx C) (in_range_st m o len)
    (fun _ s => out get_range_masks (fun p s' => masks_in (fst p) (snd p) s s')).
Proof.
  intros [Co Cl]. pose proof (int_T bf t Hty Hback) as IT.
  destruct (ev_mask_len C None Cl) as (dm & Em & Rm).
  destruct (prot_int bf G Hback t Gen.no_read Hty (("mask", (false, TI t)) :: C)) as (dp & Ep & Rp).
  unfold get_range_int, protected_mask, get_range_ctx. rewrite Hty. start. eexists. split.
  { eapply B_let; [reflexivity | exact Em |].
    eapply B_let; [reflexivity | exact Ep |]. eapply B_let; [reflexivity | el |]. eapply B_let; [reflexivity | el | exact Hr]. }
  intros r s (Hr0 & Hso & Hsl). pose proof Hr0 as [Hm _]. unfold at_u32 in Hso. unfold get_range_masks.
  apply meets_let. rewrite Rm by (split; assumption). run0. destruct (mask_int m w len) as [mk|]; [|reflexivity]. cbn [lift].
  apply meets_let. rewrite Rp by exact I. cbn [lift].
  apply meets_let. run0. look. rewrite Hso, Hm. destruct (shr m w _ o) as [rm|]; [|reflexivity]. look. apply meets_let. run0. look.
  eexists. split; [|reflexivity]. cbn [fst snd]. 
  exists [("readable_mask", RI (Z.land mk (unot w (Z.land rm mk)))); ("shifted_protected_mask", RI (Z.land rm mk));
          ("protected_mask", RI (Gen.protected_mask_int bf Gen.no_read w)); ("mask", RI mk)].
  split; [am|]. split; [reflexivity|]. look. split; reflexivity.
Qed.
Lemma ev_get_range_int C h mu mk rm z : range_ctx C -> lookup "mask" C = Some (false, TI t) -> lookup "readable_mask" C = Some (false, TI t) ->
  place G C (this false) = Some (TSelf, mu, spot "this" true) ->
  ev G C h (((val false >>! V "offset") &! V "mask") &! V "readable_mask") (TI t)
    (fun r s => in_range_st m o len r s /\ has "this" true s (RI z) /\ lookup "mask" (loc s) = Some (RI mk) /\ lookup "readable_mask" (loc s) = Some (RI rm))
    (fun _ _ => x <- shr m w z o ;; Val (RI (Z.land (Z.land x mk) rm))).
Proof.
  intros [Co Cl] Cm Cr Hp. pose proof (int_T bf t Hty Hback) as IT. pose proof (back_T bf false G t Hty K) as HB.
  opn. eexists. split; [el|]. intros r s (([Hm _] & Hso & _) & Hh & Hk & Hrm). unfold at_u32 in Hso. sim. destruct (shr m w z o); sim; reflexivity.
Qed.
Lemma ev_checked_get_range_int C h mu mk z : range_ctx C -> lookup "mask" C = Some (false, TI t) ->
  place G C (this false) = Some (TSelf, mu, spot "this" true) ->
  ev G C h ((val false >>! V "offset") &! V "mask") (TI t)
    (fun r s => in_range_st m o len r s /\ has "this" true s (RI z) /\ lookup "mask" (loc s) = Some (RI mk))
    (fun _ _ => x <- shr m w z o ;; Val (RI (Z.land x mk))).
Proof.
  intros [Co Cl] Cm Hp. pose proof (int_T bf t Hty Hback) as IT. pose proof (back_T bf false G t Hty K) as HB.
  opn. eexists. split; [el|]. intros r s (([Hm _] & Hso & _) & Hh & Hk). unfold at_u32 in Hso. sim. destruct (shr m w z o); sim; reflexivity.
Qed.
End Int.

Section Arr.
Variables (bf : bitfield) (G : genv) (m : mode) (n : Z).
Hypothesis Hty : b_ty bf = DArray n.
Hypothesis Hback : backing_ok (b_ty bf).
Hypothesis K : knows bf false G.
Variables (o len : Z).
Hypothesis Ho : 0 <= o < 2 ^ 32.
Hypothesis Hlen : 0 <= len < 2 ^ 32.

Lemma in_range_push r s x v : in_range_st m o len r s -> String.eqb "offset" x = false -> String.eqb "length" x = false ->
  in_range_st m o len r (push x v s).
Proof. intros (H1 & H2 & H3) N1 N2. split; [exact H1|]. unfold at_u32 in *. rewrite loc_push, !lookup_other by assumption. auto. Qed.

(** 201-217 *)
Definition set_range_arr : list stmt := protected_mask bf Gen.no_setter :: [letmut "i" (u32 0); set_while true].
Lemma frag_set_range_arr C v l : range_ctx C -> lookup "value" C = Some (false, TArr U8 n) ->
  place G C (this false) = Some (TSelf, true, spot "this" true) ->
  exists C', frag G C set_range_arr C'
    (fun r s => in_range_st m o len r s /\ lookup "value" (loc s) = Some (RA v) /\ has "this" true s (RA l))
    (fun _ s => out (while_lt len (set_step m o true (Gen.protected_mask_arr bf Gen.no_setter n) v) l)
       (fun l' s' => mem s' = mem (store_at "this" true (RA l') s))).
Proof.
  intros [Co Cl] Cv Hp. eexists. unfold set_range_arr. change (?a :: ?b) with ([a] ++ b).
  eapply (frag_app tt); [apply (frag_prot_arr bf G Hback n); exact Hty | intros u; apply (frag_set_loop bf G m n Hty K o len Ho Hlen true _ (Gen.protected_mask_arr bf Gen.no_setter n) v l) |].
  - split; [rewrite lookup_other by reflexivity; exact Co | rewrite lookup_other by reflexivity; exact Cl].
  - apply lookup_same.
  - rewrite lookup_other by reflexivity; exact Cv.
  - pl.
  - intros r s (Hr & Hv & Hh). split; [exact I|]. intros s1 ->. exists tt. split.
    { split; [apply in_range_push; [exact Hr | reflexivity | reflexivity]|]. split; [apply lookup_same|].
      split; [look; exact Hv | apply has_push; [reflexivity | exact Hh]]. }
    destruct (while_lt _ _ _); cbn [out refines]; [|reflexivity]. intros s2 ->. rewrite store_push by reflexivity. reflexivity.
Qed.

(** 229-250 *)
Definition check_set_arr : list stmt :=
  protected_mask bf Gen.no_setter :: protected_loop "dst_bit" "dst_byte_idx" "dst_bit_in_byte" Gen.msg_write ++
  [letmut "i" (u32 0); set_while false].
Definition check_set_val (v l : list Z) : outcome (option (list Z)) :=
  bad <- find_prot m o len (Gen.protected_mask_arr bf Gen.no_setter n) ;;
  match bad with
  | Some _ => Val None
  | None => l' <- while_lt len (set_step m o false (Gen.protected_mask_arr bf Gen.no_setter n) v) l ;; Val (Some l')
  end.
Lemma range_ctx_push C x q : range_ctx C -> String.eqb "offset" x = false -> String.eqb "length" x = false -> range_ctx ((x, q) :: C).
Proof. intros [H1 H2] N1 N2. split; rewrite lookup_other by assumption; assumption. Qed.
(** The mask, the search for a protected bit, then [ss]. *)
Lemma frag_check_arr C prot name byte bib msg T ss C2 (pre2 : rt -> st -> Prop) post2 :
  (name, byte, bib) = ("dst_bit", "dst_byte_idx", "dst_bit_in_byte") \/ (name, byte, bib) = ("src_bit", "src_byte", "src_bit_in_byte") ->
  range_ctx C -> g_ret G = TRes T ->
  frag G (("i", (true, TI U32)) :: ("protected_mask", (false, TArr U8 n)) :: C) ss C2 pre2 post2 ->
  frag G C (protected_mask bf prot :: protected_loop name byte bib msg ++ ss) C2
    (fun r s => in_range_st m o len r s /\
       pre2 r (push "i" (RI len) (push "protected_mask" (RA (Gen.protected_mask_arr bf prot n)) s)))
    (fun r s => match find_prot m o len (Gen.protected_mask_arr bf prot n) with
       | Val None => post2 r (push "i" (RI len) (push "protected_mask" (RA (Gen.protected_mask_arr bf prot n)) s))
       | Val (Some _) => Done (Val (RErr msg, mem s))
       | Panic => Done Panic
       end).
Proof.
  intros Hn RC HR F. set (M := Gen.protected_mask_arr bf prot n).
  change (protected_mask bf prot :: protected_loop name byte bib msg ++ ss) with ([protected_mask bf prot] ++ (protected_loop name byte bib msg ++ ss)).
  assert (F2 := frag_find bf G m n o len Ho Hlen (("protected_mask", (false, TArr U8 n)) :: C) M name byte bib msg T Hn
    ltac:(apply range_ctx_push; [exact RC | reflexivity | reflexivity]) (lookup_same _ _ _) HR).
  assert (F3 : frag G (("protected_mask", (false, TArr U8 n)) :: C) (protected_loop name byte bib msg ++ ss) C2
    (fun r s => (in_range_st m o len r s /\ lookup "protected_mask" (loc s) = Some (RA M)) /\ pre2 r (push "i" (RI len) s))
    (fun r s => match find_prot m o len M with
       | Val None => post2 r (push "i" (RI len) s)
       | Val (Some _) => Done (Val (RErr msg, mem s))
       | Panic => Done Panic
       end)).
  { eapply (frag_app tt); [exact F2 | intros u; exact F |]. intros r s [H1 H2]. split; [exact H1|].
    destruct (find_prot _ _ _ _) as [[]|]; [reflexivity | | reflexivity]. intros s1 ->. exists tt. split; [exact H2 | apply refines_refl]. }
  eapply (frag_app tt); [apply (frag_prot_arr bf G Hback n); exact Hty | intros u; exact F3 |].
  intros r s [H1 H2]. split; [exact I|]. intros s1 ->. exists tt.
  split; [split; [split; [apply in_range_push; [exact H1 | reflexivity | reflexivity] | apply lookup_same] | exact H2]|].
  fold M. destruct (find_prot _ _ _ _) as [[]|]; try reflexivity. apply refines_refl.
Qed.
Lemma frag_check_set_arr C v l T : range_ctx C -> lookup "value" C = Some (false, TArr U8 n) -> g_ret G = TRes T ->
  place G C (this false) = Some (TSelf, true, spot "this" true) ->
  exists C', frag G C check_set_arr C'
    (fun r s => in_range_st m o len r s /\ lookup "value" (loc s) = Some (RA v) /\ has "this" true s (RA l))
    (fun _ s => match check_set_val v l with
       | Val None => Done (Val (RErr Gen.msg_write, mem s))
       | Val (Some l') => Next (fun s' => mem s' = mem (store_at "this" true (RA l') s))
       | Panic => Done Panic
       end).
Proof.
  intros RC Cv HR Hp. eexists. unfold check_set_arr. set (M := Gen.protected_mask_arr bf Gen.no_setter n).
  eapply frag_weaken; [eapply frag_check_arr; [left; reflexivity | exact RC | exact HR |
    apply (frag_set_loop bf G m n Hty K o len Ho Hlen false _ M v l)] |].
  - apply range_ctx_push; [apply range_ctx_push; [exact RC | reflexivity | reflexivity] | reflexivity | reflexivity].
  - reflexivity.
  - rewrite !lookup_other by reflexivity. exact Cv.
  - pl.
  - intros r s (Hr & Hv & Hh). split.
    { split; [exact Hr|]. split; [apply in_range_push; [apply in_range_push; [exact Hr | reflexivity | reflexivity] | reflexivity | reflexivity]|].
      split; [reflexivity|]. split; [look; exact Hv | hs]. }
    unfold check_set_val. fold M. unfold bind. destruct (find_prot _ _ _ _) as [[]|]; [reflexivity | | reflexivity].
    destruct (while_lt _ _ _); cbn [out refines]; [|reflexivity]. intros s2 ->. rewrite !store_push by reflexivity. reflexivity.
Qed.

(** 381-395, 408-430 *)
Definition get_range_arr : list stmt := protected_mask bf Gen.no_read :: zero_res bf :: [letmut "i" (u32 0); get_while true].
Definition check_get_arr : list stmt :=
  protected_mask bf Gen.no_read :: protected_loop "src_bit" "src_byte" "src_bit_in_byte" Gen.msg_read ++
  (zero_res bf :: [letmut "i" (u32 0); get_while false]).
Lemma frag_zero_res C : frag G C [zero_res bf] (("res", (true, TArr U8 n)) :: C) (fun _ _ => True)
  (fun _ s => Next (fun s' => s' = push "res" (RA (zeros n)) s)).
Proof.
  unfold zero_res, data_ty, array_len. rewrite Hty. eapply frag_lett; [opn; eapply E_repeat; el | apply ty_eqb_refl |].
  intros r s _. reflexivity.
Qed.
Lemma frag_zero_get C guarded M l : range_ctx C -> lookup "protected_mask" C = Some (false, TArr U8 n) ->
  forall mu, place G C (this false) = Some (TSelf, mu, spot "this" true) ->
  frag G C (zero_res bf :: [letmut "i" (u32 0); get_while guarded]) (("i", (true, TI U32)) :: ("res", (true, TArr U8 n)) :: C)
    (fun r s => in_range_st m o len r s /\ lookup "protected_mask" (loc s) = Some (RA M) /\ has "this" true s (RA l))
    (fun _ s => out (while_lt len (get_step m o guarded M l) (zeros n))
       (fun l' s' => s' = push "i" (RI len) (push "res" (RA l') s))).
Proof.
  intros RC CM mu Hp. change (?a :: ?b) with ([a] ++ b).
  eapply (frag_app tt); [apply frag_zero_res | intros u; apply (frag_get_loop bf G m n Hty K o len Ho Hlen guarded _ M l (zeros n)) with (mu := mu)|].
  - apply range_ctx_push; [exact RC | reflexivity | reflexivity].
  - rewrite lookup_other by reflexivity. exact CM.
  - apply lookup_same.
  - pl.
  - intros r s (Hr & HM & Hh). split; [exact I|]. intros s1 ->. exists tt. split.
    { split; [apply in_range_push; [exact Hr | reflexivity | reflexivity]|]. split; [look; exact HM|].
      split; [apply has_local, lookup_same | apply has_push; [reflexivity | exact Hh]]. }
    destruct (while_lt _ _ _); cbn [out refines]; [|reflexivity]. intros s2 ->. unfold store_at, spot. rewrite write_same. reflexivity.
Qed.
Definition left_res (l' : list Z) (s s' : st) : Prop := lookup "res" (loc s') = Some (RA l') /\ mem s' = mem s.
Lemma frag_get_range_arr C l mu : range_ctx C -> place G C (this false) = Some (TSelf, mu, spot "this" true) ->
  exists C', lookup "res" C' = Some (true, TArr U8 n) /\ frag G C get_range_arr C'
    (fun r s => in_range_st m o len r s /\ has "this" true s (RA l))
    (fun _ s => out (while_lt len (get_step m o true (Gen.protected_mask_arr bf Gen.no_read n) l) (zeros n)) (fun l' s' => left_res l' s s')).
Proof.
  intros RC Hp. exists (("i", (true, TI U32)) :: ("res", (true, TArr U8 n)) :: ("protected_mask", (false, TArr U8 n)) :: C).
  split; [reflexivity|]. unfold get_range_arr. set (M := Gen.protected_mask_arr bf Gen.no_read n).
  change (protected_mask bf Gen.no_read :: ?b) with ([protected_mask bf Gen.no_read] ++ b).
  eapply (frag_app tt); [apply (frag_prot_arr bf G Hback n); exact Hty | intros u; apply (frag_zero_get _ true M l) with (mu := mu)|].
  - apply range_ctx_push; [exact RC | reflexivity | reflexivity].
  - apply lookup_same.
  - pl.
  - intros r s (Hr & Hh). split; [exact I|]. intros s1 ->. exists tt.
    split; [split; [apply in_range_push; [exact Hr | reflexivity | reflexivity]|]; split; [apply lookup_same | hs]|].
    destruct (while_lt _ _ _); cbn [out refines]; [|reflexivity]. intros s2 ->. split; [look; reflexivity | reflexivity].
Qed.
Definition check_get_val (l : list Z) : outcome (option (list Z)) :=
  bad <- find_prot m o len (Gen.protected_mask_arr bf Gen.no_read n) ;;
  match bad with
  | Some _ => Val None
  | None => l' <- while_lt len (get_step m o false (Gen.protected_mask_arr bf Gen.no_read n) l) (zeros n) ;; Val (Some l')
  end.
Lemma frag_check_get_arr C l mu T : range_ctx C -> g_ret G = TRes T -> place G C (this false) = Some (TSelf, mu, spot "this" true) ->
  exists C', lookup "res" C' = Some (true, TArr U8 n) /\ frag G C check_get_arr C'
    (fun r s => in_range_st m o len r s /\ has "this" true s (RA l))
    (fun _ s => match check_get_val l with
       | Val None => Done (Val (RErr Gen.msg_read, mem s))
       | Val (Some l') => Next (fun s' => left_res l' s s')
       | Panic => Done Panic
       end).
Proof.
  intros RC HR Hp. set (M := Gen.protected_mask_arr bf Gen.no_read n).
  exists (("i", (true, TI U32)) :: ("res", (true, TArr U8 n)) :: ("i", (true, TI U32)) :: ("protected_mask", (false, TArr U8 n)) :: C).
  split; [reflexivity|]. unfold check_get_arr.
  eapply frag_weaken; [eapply frag_check_arr; [right; reflexivity | exact RC | exact HR | apply (frag_zero_get _ false M l) with (mu := mu)] |].
  - apply range_ctx_push; [apply range_ctx_push; [exact RC | reflexivity | reflexivity] | reflexivity | reflexivity].
  - reflexivity.
  - pl.
  - intros r s (Hr & Hh). split.
    { split; [exact Hr|]. split; [apply in_range_push; [apply in_range_push; [exact Hr | reflexivity | reflexivity] | reflexivity | reflexivity]|].
      split; [reflexivity | hs]. }
    unfold check_get_val. fold M. unfold bind. destruct (find_prot _ _ _ _) as [[]|]; [reflexivity | | reflexivity].
    destruct (while_lt _ _ _); cbn [out refines]; [|reflexivity]. intros s2 ->. split; [look; reflexivity | reflexivity].
Qed.
End Arr.

Lemma ev_local_arr G n C h l : lookup "res" C = Some (true, TArr U8 n) ->
  ev G C h (V "res") (TArr U8 n) (fun _ s => lookup "res" (loc s) = Some (RA l)) (fun _ _ => Val (RA l)).
Proof. intros Cr. opn. eexists. split; [el|]. intros r s H. run0. rewrite H. reflexivity. Qed.

Section Fns.
Variables (dx : field -> expr) (bf : bitfield) (m : mode).
Hypothesis OK : emit_ok dx bf.
Let P := emitted dx bf.
Let Hback := eo_back _ _ OK.
Let Hsmall := eo_small _ _ OK.

Definition range_args (o len : Z) : env := [("offset", RI o); ("length", RI len)].
Definition range_vargs (o len : Z) (v : store) : env := [("offset", RI o); ("length", RI len); ("value", enc_store v)].

(** [set_bits_range] / [set_bytes_range]: 129-137, 197-218 *)
Lemma set_range_meets o len v st0 : 0 <= o < 2 ^ 32 -> 0 <= len < 2 ^ 32 -> ok_store bf v -> ok_store bf st0 ->
  fn_meets dx bf true (set_range_fn bf) (fun r s => ready m r /\ s = own_st (range_vargs o len v) (enc_store st0))
    (fun _ _ => after (Gen.set_range m bf o len v st0) (fun _ => RU) enc_store).
Proof.
  intros Ho Hlen Hv Hok. set (i := set_range_fn bf). pose proof (knows_own dx bf OK i (or_introl eq_refl)) as K.
  set (C := ("this", (false, TRef true TSelf)) :: ctx_of true i).
  assert (RC : range_ctx C) by (split; reflexivity).
  assert (Hp : place (genv_of P true i) C (this false) = Some (TSelf, true, spot "this" true)) by (eapply P_ref; reflexivity).
  assert (F3 : exists ss C', fn_body i = Block (this_self :: offset_check bf ret_unit :: length_check bf ret_unit :: ss) None /\
    frag (genv_of P true i) C ss C'
      (fun r s => in_range_st m o len r s /\ lookup "value" (loc s) = Some (enc_store v) /\ has "this" true s (enc_store st0))
      (fun _ s => out (Gen.set_range_body m bf o len v st0) (fun st1 s' => mem s' = mem (store_at "this" true (enc_store st1) s)))).
  { destruct (backing_cases bf Hback) as [(t & Hty)|(n & Hty)].
    - destruct (store_I bf t st0 Hty Hok) as [z ->]. destruct (store_I bf t v Hty Hv) as [y ->].
      destruct (frag_set_range_int bf (genv_of P true i) m t Hty Hback K o len C y z RC) as (C' & F).
      + unfold C, ctx_of. cbn [i fn_params set_range_fn method map app]. unfold data_ty. rewrite Hty. reflexivity.
      + exact Hp.
      + exists (set_range_int bf), C'. split; [unfold i, set_range_fn, is_integer_backed; rewrite Hty; reflexivity|].
        eapply frag_weaken; [exact F|]. intros r s H. split; [exact H|]. unfold set_range_int_val, Gen.set_range_body. rewrite Hty. unfold bind.
        repeat match goal with |- context [match ?x with Val _ => _ | Panic => _ end] => destruct x; [|reflexivity] end.
        apply refines_refl.
    - destruct (store_A bf n st0 Hty Hok) as [l ->]. destruct (store_A bf n v Hty Hv) as [y ->].
      destruct (frag_set_range_arr bf (genv_of P true i) m n Hty Hback K o len Ho Hlen C y l RC) as (C' & F).
      + unfold C, ctx_of. cbn [i fn_params set_range_fn method map app]. unfold data_ty. rewrite Hty. reflexivity.
      + exact Hp.
      + exists (set_range_arr bf), C'. split; [unfold i, set_range_fn, is_integer_backed; rewrite Hty; reflexivity|].
        eapply frag_weaken; [exact F|]. intros r s H. split; [exact H|]. unfold Gen.set_range_body. rewrite Hty.
        change (while_lt len _ l) with (while_lt len (set_step m o true (Gen.protected_mask_arr bf Gen.no_setter n) y) l).
        destruct (while_lt _ _ _); [apply refines_refl | reflexivity]. }
  destruct F3 as (ss & C' & Hbody & F3).
  assert (F1 := frag_offset bf (genv_of P true i) Hback C false o ret_unit RU eq_refl ltac:(apply leaves_unit; reflexivity)).
  assert (F2 := frag_length bf (genv_of P true i) m Hback C false false o len ret_unit RU eq_refl eq_refl ltac:(apply leaves_unit; reflexivity)).
  pose proof (frag_gate _ _ _ _ _ _ _ _ _ _ _ F2 F3 (fun r s H => H)) as F23. cbv beta in F23.
  pose proof (frag_gate _ _ _ _ _ _ _ _ _ _ _ F1 F23 (fun r s H => H)) as F. cbv beta in F.
  eapply fn_frag_unit; [exact Hbody | reflexivity | eapply (frag_self dx bf true i _ (TRef true TSelf) (RRef "*self")); [reflexivity | exact F] |].
  intros r s [Hr ->]. destruct (own_this (range_vargs o len v) (enc_store st0) RU) as [Hh _].
  split; [split; [reflexivity|]; repeat split; try reflexivity; try apply Hr; exact Hh|].
  unfold Gen.set_range, gate, bind. destruct (Gen.bf_size bf <=? o); [reflexivity|]. destruct (Gen.length_guard _ _ _ _) as [[]|]; [reflexivity | | reflexivity].
  destruct (Gen.set_range_body _ _ _ _ _ _) as [st1|]; cbn [out]; [|reflexivity]. intros s1 ->. reflexivity.
Qed.

(** [checked_set_bits_range] / [checked_set_bytes_range]: 144-156, 225-255 *)
Definition checked_set_tail (o len : Z) (v st0 : store) : outcome (option store) :=
  match b_ty bf, v, st0 with
  | DInteger t, StI y, StI z =>
      c <- check_int_val bf m t o len Gen.no_setter ;;
      (if snd c then Val None else (z' <- put_range_int_val m t o y z (fst (fst c)) ;; Val (Some (StI z'))))
  | DArray n, StA y, StA l => c <- check_set_val bf m n o len y l ;; Val (match c with Some l' => Some (StA l') | None => None end)
  | _, _, _ => Panic
  end.
Lemma checked_set_parts o len v st0 : Gen.checked_set_range m bf o len v st0 =
  if Gen.bf_size bf <=? o then Val (st0, Err Gen.msg_offset)
  else
    too_long <- Gen.length_guard m bf o len ;;
    if too_long then Val (st0, Err Gen.msg_length)
    else (c <- checked_set_tail o len v st0 ;; Val (match c with Some st1 => (st1, Ok tt) | None => (st0, Err Gen.msg_write) end)).
Proof.
  unfold Gen.checked_set_range, checked_set_tail, check_int_val, put_range_int_val, check_set_val, find_prot, set_step, bind.
  destruct (Gen.bf_size bf <=? o); [reflexivity|]. destruct (Gen.length_guard m bf o len) as [[]|]; try reflexivity.
  clear OK P Hback Hsmall. destruct (b_ty bf) as [t|n|], v, st0; try reflexivity.
  - destruct (mask_int _ _ _) as [mk|]; [|reflexivity]. destruct (shl m _ mk o) as [rm|] eqn:Erm; [|reflexivity]. cbn [fst snd].
    destruct (negb _); [reflexivity|]. rewrite ?Erm. destruct (shl m _ (Z.land _ _) o); reflexivity.
  - destruct (while_lt_find _ _) as [[]|]; try reflexivity. destruct (while_lt _ _ _); reflexivity.
Qed.
Lemma checked_set_range_meets o len v st0 : 0 <= o < 2 ^ 32 -> 0 <= len < 2 ^ 32 -> ok_store bf v -> ok_store bf st0 ->
  fn_meets dx bf true (checked_set_range_fn bf) (fun r s => ready m r /\ s = own_st (range_vargs o len v) (enc_store st0))
    (fun _ _ => after (Gen.checked_set_range m bf o len v st0) (fun q => enc_res (snd q)) (fun q => enc_store (fst q))).
Proof.
  intros Ho Hlen Hv Hok. set (i := checked_set_range_fn bf). pose proof (knows_own dx bf OK i (or_introl eq_refl)) as K.
  set (C := ("this", (false, TRef true TSelf)) :: ctx_of true i).
  assert (RC : range_ctx C) by (split; reflexivity).
  assert (Hp : place (genv_of P true i) C (this false) = Some (TSelf, true, spot "this" true)) by (eapply P_ref; reflexivity).
  assert (F3 : exists ss C', fn_body i = Block (this_self :: offset_check bf (err Gen.msg_offset) :: length_check bf (err Gen.msg_length) :: ss) (Some (EOk EUnit)) /\
    frag (genv_of P true i) C ss C'
      (fun r s => in_range_st m o len r s /\ lookup "value" (loc s) = Some (enc_store v) /\ has "this" true s (enc_store st0))
      (fun _ s => match checked_set_tail o len v st0 with
         | Val None => Done (Val (RErr Gen.msg_write, mem s))
         | Val (Some st1) => Next (fun s' => mem s' = mem (store_at "this" true (enc_store st1) s))
         | Panic => Done Panic
         end)).
  { unfold checked_set_tail. destruct (backing_cases bf Hback) as [(t & Hty)|(n & Hty)].
    - destruct (store_I bf t st0 Hty Hok) as [z ->]. destruct (store_I bf t v Hty Hv) as [y ->]. rewrite Hty.
      assert (F1 := frag_check_int bf (genv_of P true i) m t Hty Hback o len C Gen.no_setter Gen.msg_write TUnit RC eq_refl).
      assert (Cv : lookup "value" C = Some (false, TI t)).
      { unfold C, ctx_of. cbn [i fn_params checked_set_range_fn method map app]. unfold data_ty. rewrite Hty. reflexivity. }
      assert (F2 := fun mk => frag_put_range_int bf (genv_of P true i) m t Hty Hback K o len (check_ctx t C) y z mk
        ltac:(split; reflexivity) Cv eq_refl ltac:(unfold check_ctx; pl)).
      exists (check_int bf Gen.no_setter Gen.msg_write ++ [SSet (val false) ((val false &! (~! (V "mask" <<! V "offset"))) |! ((V "value" &! V "mask") <<! V "offset"))]), (check_ctx t C).
      split; [unfold i, checked_set_range_fn, is_integer_backed; rewrite Hty; reflexivity|].
      eapply (frag_app 0); [exact F1 | exact F2 |]. intros r s (Hr & Hsv & Hh). split; [exact Hr|].
      unfold bind. destruct (check_int_val _ _ _ _ _ _) as [[[mk rm] []]|]; cbn [fst snd]; [reflexivity | | reflexivity].
      intros s1 ->. exists mk. split.
      { split; [repeat (apply in_range_push; [|reflexivity|reflexivity]); exact Hr|]. split; [look; exact Hsv|]. split; [look; reflexivity | hs]. }
      destruct (put_range_int_val _ _ _ _ _ _); cbn [out refines]; [|reflexivity]. intros s2 ->. rewrite !store_push by reflexivity. reflexivity.
    - destruct (store_A bf n st0 Hty Hok) as [l ->]. destruct (store_A bf n v Hty Hv) as [y ->]. rewrite Hty.
      destruct (frag_check_set_arr bf (genv_of P true i) m n Hty Hback K o len Ho Hlen C y l TUnit RC) as (C' & F).
      + unfold C, ctx_of. cbn [i fn_params checked_set_range_fn method map app]. unfold data_ty. rewrite Hty. reflexivity.
      + reflexivity.
      + exact Hp.
      + exists (check_set_arr bf), C'. split; [unfold i, checked_set_range_fn, is_integer_backed; rewrite Hty; reflexivity|].
        eapply frag_weaken; [exact F|]. intros r s H. split; [exact H|]. unfold bind.
        destruct (check_set_val _ _ _ _ _ _ _) as [[]|]; apply refines_refl. }
  destruct F3 as (ss & C' & Hbody & F3).
  assert (F1 := frag_offset bf (genv_of P true i) Hback C false o (err Gen.msg_offset) _ eq_refl ltac:(apply (leaves_err _ C TUnit); reflexivity)).
  assert (F2 := frag_length bf (genv_of P true i) m Hback C false false o len (err Gen.msg_length) _ eq_refl eq_refl ltac:(apply (leaves_err _ C TUnit); reflexivity)).
  pose proof (frag_gate _ _ _ _ _ _ _ _ _ _ _ F2 F3 (fun r s H => H)) as F23. cbv beta in F23.
  pose proof (frag_gate _ _ _ _ _ _ _ _ _ _ _ F1 F23 (fun r s H => H)) as F. cbv beta in F.
  eapply fn_frag_ev with (pret := fun _ _ => True) (G := fun _ _ => Val (ROk RU));
    [exact Hbody | eapply (frag_self dx bf true i _ (TRef true TSelf) (RRef "*self")); [reflexivity | exact F] | |].
  { eexists. split; [eapply E_ok, E_unit|]. reflexivity. }
  intros r s [Hr ->]. destruct (own_this (range_vargs o len v) (enc_store st0) RU) as [Hh _].
  split; [split; [reflexivity|]; repeat split; try reflexivity; try apply Hr; exact Hh|].
  rewrite checked_set_parts. unfold gate, bind. destruct (Gen.bf_size bf <=? o); [reflexivity|].
  destruct (Gen.length_guard _ _ _ _) as [[]|]; [reflexivity | | reflexivity].
  destruct (checked_set_tail _ _ _ _) as [[st1|]|]; [|reflexivity | reflexivity]. intros s1 E. split; [exact I|].
  unfold after. cbn [fst snd enc_res]. rewrite E. reflexivity.
Qed.

(** [get_bits_range] / [get_bytes_range]: 325-334, 377-398 *)
Lemma get_range_meets o len st0 : 0 <= o < 2 ^ 32 -> 0 <= len < 2 ^ 32 -> ok_store bf st0 ->
  fn_meets dx bf true (get_range_fn bf) (fun r s => ready m r /\ s = own_st (range_args o len) (enc_store st0))
    (fun _ s => b <- Gen.get_range m bf o len st0 ;; Val (enc_store b, mem s)).
Proof.
  intros Ho Hlen Hok. set (i := get_range_fn bf). pose proof (knows_own dx bf OK i (or_introl eq_refl)) as K.
  set (C := ("this", (false, TRef false TSelf)) :: ctx_of true i).
  assert (RC : range_ctx C) by (split; reflexivity).
  assert (Hp : place (genv_of P true i) C (this false) = Some (TSelf, false, spot "this" true)) by (eapply P_ref; reflexivity).
  assert (F1 := frag_offset bf (genv_of P true i) Hback C false o (ret_zero bf) _ eq_refl ltac:(apply (leaves_zero bf _ Hback); reflexivity)).
  assert (F2 := frag_length bf (genv_of P true i) m Hback C false false o len (ret_zero bf) _ eq_refl eq_refl ltac:(apply (leaves_zero bf _ Hback); reflexivity)).
  destruct (own_this (range_args o len) (enc_store st0) RU) as [Hh _].
  destruct (backing_cases bf Hback) as [(t & Hty)|(n & Hty)].
  - destruct (store_I bf t st0 Hty Hok) as [z ->].
    assert (F3 := frag_get_range_int bf (genv_of P true i) m t Hty Hback o len C RC).
    pose proof (frag_gate _ _ _ _ _ _ _ _ _ _ _ F2 F3 (fun r s H => H)) as F23. cbv beta in F23.
    pose proof (frag_gate _ _ _ _ _ _ _ _ _ _ _ F1 F23 (fun r s H => H)) as F. cbv beta in F.
    eapply (fn_frag_ev' dx bf (fun _ : Z * Z => True) (0, 0)) with (i := i) (e := ((val false >>! V "offset") &! V "mask") &! V "readable_mask")
      (G := fun p _ _ => x <- shr m (ity_bits t) z o ;; Val (RI (Z.land (Z.land x (fst p)) (snd p))));
      [exact I | unfold i, get_range_fn, is_integer_backed; rewrite Hty; reflexivity
      | eapply (frag_self dx bf true i _ (TRef false TSelf) (RRef "*self")); [reflexivity | exact F] | |].
    { intros p _. cbn [fn_ret i get_range_fn method]. unfold data_ty. rewrite Hty.
      apply (ev_get_range_int bf (genv_of P true i) m t Hty Hback K o len (get_range_ctx t C) _ false (fst p) (snd p) z); [split; reflexivity | reflexivity | reflexivity | unfold get_range_ctx; pl]. }
    intros r s [Hr ->]. split; [split; [reflexivity|]; repeat split; try reflexivity; apply Hr|].
    unfold Gen.get_range, gate, bind. rewrite Hty. destruct (Gen.bf_size bf <=? o); [reflexivity|].
    destruct (Gen.length_guard _ _ _ _) as [[]|]; [reflexivity | | reflexivity].
    unfold get_range_masks, bind. destruct (mask_int _ _ _) as [mk|]; [|reflexivity].
    destruct (shr m _ (Gen.protected_mask_int _ _ _) o) as [sp|]; [|reflexivity]. cbn [out fst snd].
    intros s1 (L & HL & -> & Hk & Hrm). eexists (_, _). split; [exact I|]. cbn [fst snd]. split.
    + assert (A : forall x, In x ["this"; "offset"; "length"] -> ~ In x ["readable_mask"; "shifted_protected_mask"; "protected_mask"; "mask"; "range_mask"])
        by (cbn; intuition (subst; discriminate)).
      split; [split; [exact Hr|]; split; unfold at_u32; rewrite (lookup_pushes _ _ _ _ HL) by (apply A; cbn; auto); reflexivity|].
      split; [eapply has_pushes; [exact HL | apply A; cbn; auto | exact Hh]|]. split; [exact Hk | exact Hrm].
    + rewrite mem_pushes. destruct (shr m _ z o); reflexivity.
  - destruct (store_A bf n st0 Hty Hok) as [l ->].
    destruct (frag_get_range_arr bf (genv_of P true i) m n Hty Hback K o len Ho Hlen C l false RC Hp) as (C' & Cr & F3).
    pose proof (frag_gate _ _ _ _ _ _ _ _ _ _ _ F2 F3 (fun r s H => H)) as F23. cbv beta in F23.
    pose proof (frag_gate _ _ _ _ _ _ _ _ _ _ _ F1 F23 (fun r s H => H)) as F. cbv beta in F.
    eapply (fn_frag_ev' dx bf (fun _ : list Z => True) []) with (i := i) (e := V "res") (pret := fun l' _ s => lookup "res" (loc s) = Some (RA l')) (G := fun l' _ _ => Val (RA l'));
      [exact I | unfold i, get_range_fn, is_integer_backed; rewrite Hty; reflexivity
      | eapply (frag_self dx bf true i _ (TRef false TSelf) (RRef "*self")); [reflexivity | exact F] | |].
    { intros l' _. cbn [fn_ret i get_range_fn method]. unfold data_ty. rewrite Hty. apply ev_local_arr. exact Cr. }
    intros r s [Hr ->]. split; [split; [reflexivity|]; repeat split; try reflexivity; try apply Hr; exact Hh|].
    unfold Gen.get_range, gate, bind. rewrite Hty. destruct (Gen.bf_size bf <=? o); [unfold Gen.zero_data; rewrite Hty; reflexivity|].
    destruct (Gen.length_guard _ _ _ _) as [[]|]; [unfold Gen.zero_data; rewrite Hty; reflexivity | | reflexivity].
    change (while_lt len _ (zeros n)) with (while_lt len (get_step m o true (Gen.protected_mask_arr bf Gen.no_read n) l) (zeros n)) at 2.
    destruct (while_lt _ _ _) as [l'|]; cbn [out]; [|reflexivity]. intros s1 [HL HM]. exists l'. split; [exact I|]. split; [exact HL|].
    rewrite HM. reflexivity.
Qed.

(** [checked_get_bits_range] / [checked_get_bytes_range]: 340-351, 404-433 *)
Definition enc_ress (r : res store) : value := match r with Ok v => ROk (enc_store v) | Err e => RErr e end.
Lemma checked_get_range_meets o len st0 : 0 <= o < 2 ^ 32 -> 0 <= len < 2 ^ 32 -> ok_store bf st0 ->
  fn_meets dx bf true (checked_get_range_fn bf) (fun r s => ready m r /\ s = own_st (range_args o len) (enc_store st0))
    (fun _ s => b <- Gen.checked_get_range m bf o len st0 ;; Val (enc_ress b, mem s)).
Proof.
  intros Ho Hlen Hok. set (i := checked_get_range_fn bf). pose proof (knows_own dx bf OK i (or_introl eq_refl)) as K.
  set (C := ("this", (false, TRef false TSelf)) :: ctx_of true i).
  assert (RC : range_ctx C) by (split; reflexivity).
  assert (Hp : place (genv_of P true i) C (this false) = Some (TSelf, false, spot "this" true)) by (eapply P_ref; reflexivity).
  assert (F1 := frag_offset bf (genv_of P true i) Hback C false o (err Gen.msg_offset) _ eq_refl ltac:(apply (leaves_err _ C (data_ty bf)); reflexivity)).
  assert (F2 := frag_length bf (genv_of P true i) m Hback C false false o len (err Gen.msg_length) _ eq_refl eq_refl ltac:(apply (leaves_err _ C (data_ty bf)); reflexivity)).
  destruct (own_this (range_args o len) (enc_store st0) RU) as [Hh _].
  destruct (backing_cases bf Hback) as [(t & Hty)|(n & Hty)].
  - destruct (store_I bf t st0 Hty Hok) as [z ->].
    assert (F3 := frag_check_int bf (genv_of P true i) m t Hty Hback o len C Gen.no_read Gen.msg_read (data_ty bf) RC eq_refl).
    pose proof (frag_gate _ _ _ _ _ _ _ _ _ _ _ F2 F3 (fun r s H => H)) as F23. cbv beta in F23.
    pose proof (frag_gate _ _ _ _ _ _ _ _ _ _ _ F1 F23 (fun r s H => H)) as F. cbv beta in F.
    eapply (fn_frag_ev' dx bf (fun _ : Z => True) 0) with (i := i) (e := EOk ((val false >>! V "offset") &! V "mask"))
      (G := fun mk _ _ => x <- shr m (ity_bits t) z o ;; Val (ROk (RI (Z.land x mk))))
      (pret := fun mk r s => in_range_st m o len r s /\ has "this" true s (RI z) /\ lookup "mask" (loc s) = Some (RI mk));
      [exact I | unfold i, checked_get_range_fn, is_integer_backed; rewrite Hty; reflexivity
      | eapply (frag_self dx bf true i _ (TRef false TSelf) (RRef "*self")); [reflexivity | exact F] | |].
    { intros mk _. cbn [fn_ret i checked_get_range_fn method]. unfold data_ty. rewrite Hty.
      destruct (ev_checked_get_range_int bf (genv_of P true i) m t Hty Hback K o len (check_ctx t C) (Some (TI t)) false mk z) as (d & E & R);
        [split; reflexivity | reflexivity | unfold check_ctx; pl |].
      eexists. split; [eapply E_ok; exact E|]. intros r s H. cbv beta. rewrite R by exact H. unfold bind. destruct (shr _ _ _ _); reflexivity. }
    intros r s [Hr ->]. split; [split; [reflexivity|]; repeat split; try reflexivity; apply Hr|].
    unfold Gen.checked_get_range, gate, bind. rewrite Hty. destruct (Gen.bf_size bf <=? o); [reflexivity|].
    destruct (Gen.length_guard _ _ _ _) as [[]|]; [reflexivity | | reflexivity].
    unfold check_int_val, bind. destruct (mask_int _ _ _) as [mk|]; [|reflexivity].
    destruct (shl m _ mk o) as [rm|]; [|reflexivity]. destruct (negb _); [reflexivity|].
    intros s1 ->. exists mk. split; [exact I|]. split.
    + split; [repeat (apply in_range_push; [|reflexivity|reflexivity]); repeat split; try reflexivity; apply Hr|].
      split; [repeat (apply has_push; [reflexivity|]); exact Hh | reflexivity].
    + destruct (shr m _ z o); reflexivity.
  - destruct (store_A bf n st0 Hty Hok) as [l ->].
    destruct (frag_check_get_arr bf (genv_of P true i) m n Hty Hback K o len Ho Hlen C l false (data_ty bf) RC eq_refl Hp) as (C' & Cr & F3).
    pose proof (frag_gate _ _ _ _ _ _ _ _ _ _ _ F2 F3 (fun r s H => H)) as F23. cbv beta in F23.
    pose proof (frag_gate _ _ _ _ _ _ _ _ _ _ _ F1 F23 (fun r s H => H)) as F. cbv beta in F.
    eapply (fn_frag_ev' dx bf (fun _ : list Z => True) []) with (i := i) (e := EOk (V "res")) (pret := fun l' _ s => lookup "res" (loc s) = Some (RA l')) (G := fun l' _ _ => Val (ROk (RA l')));
      [exact I | unfold i, checked_get_range_fn, is_integer_backed; rewrite Hty; reflexivity
      | eapply (frag_self dx bf true i _ (TRef false TSelf) (RRef "*self")); [reflexivity | exact F] | |].
    { intros l' _. cbn [fn_ret i checked_get_range_fn method]. unfold data_ty. rewrite Hty.
      destruct (ev_local_arr (genv_of P true i) n C' (Some (TArr U8 n)) l' Cr) as (d & E & R).
      eexists. split; [eapply E_ok; exact E|]. intros r s H. cbv beta. rewrite R by exact H. reflexivity. }
    intros r s [Hr ->]. split; [split; [reflexivity|]; repeat split; try reflexivity; try apply Hr; exact Hh|].
    unfold Gen.checked_get_range, gate, bind. rewrite Hty. destruct (Gen.bf_size bf <=? o); [reflexivity|].
    destruct (Gen.length_guard _ _ _ _) as [[]|]; [reflexivity | | reflexivity].
    unfold check_get_val, find_prot, get_step, bind. cbn [andb].
    destruct (while_lt_find _ _) as [[]|]; [reflexivity | | reflexivity].
    destruct (while_lt _ _ _) as [l'|]; [|reflexivity]. intros s1 [HL HM]. exists l'. split; [exact I|]. split; [exact HL|].
    rewrite HM. reflexivity.
Qed.
End Fns.
