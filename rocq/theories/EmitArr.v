(** The fragments of the emitted functions for an array-backed bitfield. *)
From Coq Require Import ZArith List Bool String Lia.
From Verif Require Import RustInt Syntax GenInt GenArr Spec BitsLemmas CoreLemmas Rust RustLemmas Surface Emit EmitVocab EmitLemmas.
From Verif Require Gen.
Import ListNotations.
Open Scope string_scope.
Open Scope Z_scope.

Lemma wrap_div8 z : 0 <= z < 2 ^ 32 -> wrap TUsize (z / 8) = z / 8.
Proof.
  intros H. apply wrap_usize. pose proof pow_le_32_64.
  split; [apply Z.div_pos; lia | apply Z.div_lt_upper_bound; lia].
Qed.
Lemma wrap_bit128 z : wrap (TI U128) (Z.land z 1) = Z.land z 1.
Proof.
  cbn [wrap]. unfold cast. cbn [ity_unsigned ity_bits]. apply Z.mod_small.
  change 1 with (Z.ones 1). rewrite Z.land_ones by lia. pose proof (Z.mod_pos_bound z (2 ^ 1)). lia.
Qed.
Ltac wd := rewrite wrap_div8 by lia.

(** One pass through the body of a loop. *)
Ltac pass := repeat (first [ua | wd | oc]; rewrite ?wrap_byte, ?wrap_bit128; sim; try reflexivity).
Ltac done := split; [exact I | eauto].

Section Arr.
Variables (bf : bitfield) (bc : bool) (G : genv) (m : mode) (n : Z).
Hypothesis Hty : b_ty bf = DArray n.
Hypothesis Hback : backing_ok (b_ty bf).
Hypothesis K : knows bf bc G.

Definition back_arr : ty := if a_array_heap (b_args bf) then TBox n else TArr U8 n.
Lemma back_A : g_back G = back_arr.
Proof.
  rewrite (k_back _ _ _ K). unfold store_ty, back_arr, is_heap, data_ty, array_len, is_integer_backed.
  rewrite Hty. destruct (a_array_heap (b_args bf)); reflexivity.
Qed.
Lemma elem_A : elem back_arr = Some (TI U8).
Proof. unfold back_arr. destruct (a_array_heap (b_args bf)); reflexivity. Qed.

Lemma ev_mask128 C h f : In f (b_fields bf) -> small bf f ->
  ev G C h (mask128 (fbits bc f)) (TI U128) (fun r _ => ready m r)
    (fun _ _ => z <- mask_arr m (f_bits f) ;; Val (RI z)).
Proof.
  intros Hf Hs. unfold mask128. opn. eexists. split; [el|]. intros r s [Hm _]. sim. unfold mask_arr.
  destruct (f_bits f =? 128); sim; [reflexivity|]. repeat (oc; sim; try reflexivity).
Qed.

(** GH:501-539 *)
Lemma ev_extract_bytes C h f inv b i len ts mu l : In f (b_fields bf) -> small bf f -> f_ty f = DArray len ->
  place G C (source b bc) = Some (ts, mu, spot (src_var b bc) i) -> elem ts = Some (TI U8) ->
  ev G C h
    (match extract_src_a bc inv f (source b bc) with SLet _ _ _ e :: _ => e | _ => EUnit end)
    (TArr U8 len) (fun r s => ready m r /\ has (src_var b bc) i s (RA l))
    (fun _ _ => x <- extract_src_arr_bytes m f len inv l ;; Val (RA x)).
Proof.
  intros Hf Hs Ef Hp Ht. unfold extract_src_a. rewrite Ef. opn.
  destruct inv.
  all: eexists; split; [el|]; intros r s [[Hm Hfu] Hh]; sim; change (repeat 0 (Z.to_nat len)) with (zeros len);
    pose proof (size_small _ Hback); destruct Hs as (Hs1 & Hs2 & Hs3 & Hs4 & _).
  - rewrite (wloop_while (r_fuel r) _ _ (fun i a => push "__i" (RI i) (push "__arr" (RA a) s)) (f_bits f)
      (fun i arr => bit <- src_bit m (f_off f) i l ;; let bit_val := Z.lxor bit 1 in
         x <- shl m 8 bit_val (i mod 8) ;; old <- arr_get arr (i / 8) ;; arr_set arr (i / 8) (Z.lor old x))
      (fun _ => True)); [ | lia | lia | exact I | | ].
    + unfold extract_src_arr_bytes. destruct (while_lt _ _ _); sim; reflexivity.
    + intros j a Hj _. sim. reflexivity.
    + intros j a Hj _. unfold src_bit. sim. pass. done.
  - rewrite (wloop_while (r_fuel r) _ _ (fun i a => push "__i" (RI i) (push "__arr" (RA a) s)) (f_bits f)
      (fun i arr => bit <- src_bit m (f_off f) i l ;; let bit_val := bit in
         x <- shl m 8 bit_val (i mod 8) ;; old <- arr_get arr (i / 8) ;; arr_set arr (i / 8) (Z.lor old x))
      (fun _ => True)); [ | lia | lia | exact I | | ].
    + unfold extract_src_arr_bytes. destruct (while_lt _ _ _); sim; reflexivity.
    + intros j a Hj _. sim. reflexivity.
    + intros j a Hj _. unfold src_bit. sim. pass. done.
Qed.

(** GH:541-562 *)
Lemma ev_extract_num C h f inv b i ts mu l : In f (b_fields bf) -> small bf f -> (forall len, f_ty f <> DArray len) ->
  place G C (source b bc) = Some (ts, mu, spot (src_var b bc) i) -> elem ts = Some (TI U8) ->
  ev G C h
    (match extract_src_a bc inv f (source b bc) with SLet _ _ _ e :: _ => e | _ => EUnit end)
    (TI U128) (fun r s => ready m r /\ has (src_var b bc) i s (RA l))
    (fun _ _ => x <- extract_src_arr_num m f inv l ;; Val (RI x)).
Proof.
  intros Hf Hs Ef Hp Ht. unfold extract_src_a.
  match goal with |- ev _ _ _ ?e _ _ _ => set (E := e) end.
  assert (HE : E = EBlock (Block
          [ letmut "val" (ELit 0 (Some (TI U128)));
            SLet true "i" (Some (TI U32)) (lit 0);
            while_ (lt (V "i") (fbits bc f))
              [ let_ "bit_index" (foff bc f +! V "i");
                let_ "byte_idx" (V "bit_index" /! lit 8);
                let_ "bit_in_byte" (V "bit_index" %! lit 8);
                let_ "bit_val"
                  (as_ ((EIndex (source b bc) (as_ (V "byte_idx") TUsize) >>! V "bit_in_byte") &! lit 1) (TI U128));
                SOp BOr (V "val") (V "bit_val" <<! V "i");
                incr "i" ] ]
          (Some (if inv then (~! V "val") &! mask128 (fbits bc f) else V "val")))).
  { unfold E. destruct (f_ty f) as [t|len|] eqn:E0; [reflexivity | destruct (Ef len eq_refl) | reflexivity]. }
  rewrite HE. clear HE E.
  set (C1 := ("i", (true, TI U32)) :: ("val", (true, TI U128)) :: C).
  destruct (ev_mask128 C1 (Some (TI U128)) f Hf Hs) as (dm & Em & Rm).
  assert (T1 : exists dt, elab G C1 h (if inv then (~! V "val") &! mask128 (fbits bc f) else V "val") = Some (TI U128, dt) /\
     forall r s v, ready m r -> lookup "val" (loc s) = Some (RI v) ->
     dt r s = lift (if inv then mask <- mask_arr m (f_bits f) ;; Val (RI (Z.land (unot 128 v) mask)) else Val (RI v)) s).
  { destruct inv; unfold C1; (eexists; split; [el|]; intros r s v Hm Hv; sim); [|reflexivity].
    rewrite Rm by exact Hm. destruct (mask_arr m (f_bits f)); reflexivity. }
  destruct T1 as (dt & Et & Rt). opn. eexists. split.
  { eapply E_block. eapply B_let; [reflexivity | el |]. eapply B_lett; [el | teq |]. fold C1.
    eapply B_stmt; [reflexivity | | apply B_tail; exact Et]. unfold C1. sl. }
  intros r s [[Hm Hfu] Hh]; sim; pose proof (size_small _ Hback); destruct Hs as (Hs1 & Hs2 & Hs3 & Hs4 & _).
  rewrite (wloop_while (r_fuel r) _ _ (fun i a => push "i" (RI i) (push "val" (RI a) s)) (f_bits f)
    (fun i val => bit_val <- src_bit m (f_off f) i l ;; x <- shl m 128 bit_val i ;; Val (Z.lor val x))
      (fun _ => True)); [ | lia | lia | exact I | | ].
  - unfold extract_src_arr_num. destruct (while_lt _ _ _); sim; [|reflexivity].
    erewrite Rt; [|split; assumption|look; reflexivity]. destruct inv; sim; [|reflexivity].
    destruct (mask_arr m (f_bits f)); sim; reflexivity.
  - intros j a Hj _. sim. reflexivity.
  - intros j a Hj _. unfold src_bit. sim. pass. done.
Qed.

(** GH:501-562 *)
Definition src_ty (f : field) : ty := match f_ty f with DArray len => TArr U8 len | _ => TI U128 end.
Lemma frag_extract_src_a C f inv b i ts mu l : In f (b_fields bf) -> small bf f ->
  place G C (source b bc) = Some (ts, mu, spot (src_var b bc) i) -> elem ts = Some (TI U8) ->
  frag G C (extract_src_a bc inv f (source b bc)) (("value", (false, src_ty f)) :: C)
    (fun r s => ready m r /\ has (src_var b bc) i s (RA l))
    (fun r s => out (extract_src_arr m f inv l) (fun v s' => s' = push "value" (enc_pval v) s)).
Proof.
  intros Hf Hs Hp Ht. unfold extract_src_arr, src_ty.
  destruct (f_ty f) as [t|len|] eqn:Ef.
  - pose proof (ev_extract_num C None f inv b i ts mu l Hf Hs) as H. unfold extract_src_a in *. rewrite Ef in *.
    specialize (H ltac:(discriminate) Hp Ht). eapply frag_weaken; [eapply frag_ev; [reflexivity | exact H]|].
    intros r s Hpre. split; [exact Hpre|]. cbv beta. destruct (extract_src_arr_num m f inv l); cbn; auto.
  - pose proof (ev_extract_bytes C None f inv b i len ts mu l Hf Hs Ef Hp Ht) as H. unfold extract_src_a in *. rewrite Ef in *.
    eapply frag_weaken; [eapply frag_ev; [reflexivity | exact H]|].
    intros r s Hpre. split; [exact Hpre|]. cbv beta. destruct (extract_src_arr_bytes m f len inv l); cbn; auto.
  - pose proof (ev_extract_num C None f inv b i ts mu l Hf Hs) as H. unfold extract_src_a in *. rewrite Ef in *.
    specialize (H ltac:(discriminate) Hp Ht). eapply frag_weaken; [eapply frag_ev; [reflexivity | exact H]|].
    intros r s Hpre. split; [exact Hpre|]. cbv beta. destruct (extract_src_arr_num m f inv l); cbn; auto.
Qed.
End Arr.
