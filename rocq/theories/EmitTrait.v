(** The emitted [From] implementations. *)
From Coq Require Import ZArith List Bool String Lia.
From Verif Require Import RustInt Syntax GenInt GenArr Spec BitsLemmas CoreLemmas Rust RustLemmas Surface Emit EmitVocab
  EmitLemmas EmitArr EmitArrPut EmitField EmitDefault EmitFns EmitRead EmitNew EmitConv EmitData.
From Verif Require Gen.
Import ListNotations.
Open Scope string_scope.
Open Scope list_scope.
Open Scope Z_scope.

Lemma out_weaken {A} (o : outcome A) (Q Q' : A -> st -> Prop) : (forall a s, Q a s -> Q' a s) -> refines (out o Q) (out o Q').
Proof. intros H. destruct o; cbn [out refines]; auto. Qed.

Section Reverse.
Variables (bf : bitfield) (G : genv) (m : mode) (n : Z).
Hypothesis Hty : b_ty bf = DArray n.
Hypothesis Hback : backing_ok (b_ty bf).

Definition temp_index : expr := (ELen (V "temp_bits") -! lit 1) -! V "i".
Definition temp_while : stmt :=
  while_ (lt (V "i") (ELen (V "temp_bits") /! lit 2))
    [ let_ "temp" (EIndex (V "temp_bits") (V "i"));
      SSet (EIndex (V "temp_bits") (V "i")) (EIndex (V "temp_bits") temp_index);
      SSet (EIndex (V "temp_bits") temp_index) (V "temp");
      incr "i" ].
Definition temp_block (e : expr) : expr :=
  EBlock (Block [ letmut "temp_bits" e; letmut "i" (lit 0); temp_while ] (Some (V "temp_bits"))).

Lemma arr_set_length l i b l' : arr_set l i b = Val l' -> List.length l' = List.length l.
Proof.
  unfold arr_set. destruct (_ && _); [|discriminate]. intros H. inversion H. apply list_upd_length.
Qed.

Lemma temp_while_ok C : lookup "temp_bits" C = Some (true, TArr U8 n) ->
  exists d, elab_stmt G (("i", (true, TUsize)) :: C) temp_while = Some d /\
  forall r s l, ready m r -> has "temp_bits" false s (RA l) -> Z.of_nat (List.length l) = n ->
    d r (push "i" (RI 0) s) =
    match Gen.reverse_temp m l with
    | Val l' => Go RU (push "i" (RI (n / 2)) (store_at "temp_bits" false (RA l') s))
    | Panic => Fail
    end.
Proof.
  intros Hl. unfold temp_while, temp_index. opn. eexists. split; [sl|].
  intros r s l [Hm Hfu] Hh Hn. pose proof (len_pos bf n Hty Hback). pose proof (half_range bf n Hty Hback). pose proof pow_le_32_64. sim.
  replace (push "i" (RI 0) s) with (push "i" (RI 0) (store_at "temp_bits" false (RA l) s)) by (rewrite store_id by exact Hh; reflexivity).
  unfold Gen.reverse_temp. rewrite Hn.
  rewrite (wloop_while (r_fuel r) _ _ (fun j a => push "i" (RI j) (store_at "temp_bits" false (RA a) s))
    (n / 2) (fun i bits =>
      temp <- arr_get bits i ;; j0 <- usub m 64 n 1 ;; j <- usub m 64 j0 i ;; bj <- arr_get bits j ;;
      bits <- arr_set bits i bj ;; arr_set bits j temp) (fun a => Z.of_nat (List.length a) = n)); [reflexivity | lia | lia | exact Hn | | ].
  - intros j a Hj Ha. sim. rewrite Ha. reflexivity.
  - intros j a Hj Ha. unfold bind. sim. rewrite ?Ha.
    destruct (arr_get a j) as [t|] eqn:E1; [|reflexivity]. sim. rewrite ?Ha.
    destruct (usub m 64 n 1) as [j0|] eqn:E2; [|sim; reflexivity]. sim.
    destruct (usub m 64 j0 j) as [j1|] eqn:E3; [|sim; reflexivity]. sim.
    destruct (arr_get a j1) as [b|] eqn:E4; [|sim; reflexivity]. sim.
    destruct (arr_set a j b) as [a1|] eqn:E5; [|sim; reflexivity]. sim.
    apply arr_set_length in E5. rewrite <- E5 in Ha. rewrite ?Ha, ?E2. sim. rewrite ?E3. sim.
    destruct (arr_set a1 j1 t) as [a2|] eqn:E6; [|sim; reflexivity]. apply arr_set_length in E6. sim. ua.
    split; [congruence|]. eexists. sim. reflexivity.
Qed.
(** from_traits_feature.rs:121-133, 150-162 *)
Lemma ev_temp C h e l (pre : rt -> st -> Prop) : open_lit e = None -> Z.of_nat (List.length l) = n ->
  ev G C None e (TArr U8 n) pre (fun _ _ => Val (RA l)) ->
  ev G C h (temp_block e) (TArr U8 n) (fun r s => ready m r /\ pre r s)
    (fun _ _ => l' <- Gen.reverse_temp m l ;; Val (RA l')).
Proof.
  intros Ho Hn (de & E & R). unfold temp_block.
  destruct (temp_while_ok (("temp_bits", (true, TArr U8 n)) :: C) eq_refl) as (d & Ew & Rw). unfold letmut.
  eexists. split.
  { eapply E_block. eapply B_let; [exact Ho | exact E |]. eapply B_letlit with (t := TUsize); [cbn; tauto | |].
    - intros t' _ Nt. eapply B_none; [reflexivity|]. unfold temp_while. opn. eapply N_while.
      eapply N_compare; [reflexivity | el | el | exact Nt].
    - eapply B_stmt; [reflexivity | exact Ew | eapply B_tail; el]. }
  intros r s [Hr Hp]. unfold d_let at 1. rewrite R by exact Hp. cbn [bind lift dbind]. unfold d_let at 1. cbn [dbind]. lits.
  unfold d_seq. rewrite (Rw r (push "temp_bits" (RA l) s) l Hr ltac:(apply has_local; reflexivity) Hn). unfold bind.
  destruct (Gen.reverse_temp m l) as [l'|]; cbn [dbind lift]; [|reflexivity].
  unfold store_at, spot. rewrite write_same. sim. reflexivity.
Qed.
End Reverse.

Definition store_len (bf : bitfield) (b : store) : Prop :=
  match b_ty bf, b with DArray n, StA l => Z.of_nat (List.length l) = n | _, _ => True end.

(** from_traits_feature.rs:103-166 *)
Lemma ev_convert bf G m C h e src (deref : bool) b (pre : rt -> st -> Prop) : backing_ok (b_ty bf) -> ok_store bf b -> store_len bf b ->
  (deref = true -> is_integer_backed bf = false) ->
  let load := if deref then EUn UDeref src else src in
  open_lit load = None -> (forall h, ev G C h load (data_ty bf) pre (fun _ _ => Val (enc_store b))) ->
  ev G C h (trait_convert bf e src deref) (data_ty bf) (fun r s => ready m r /\ pre r s)
    (fun _ _ => b' <- Gen.convert_traits m bf e b ;; Val (enc_store b')).
Proof.
  intros Hback Hok Hlen Hd load Ho Hv. unfold trait_convert, Gen.convert_traits. fold load.
  destruct (backing_cases bf Hback) as [(t & Hty)|(n & Hty)]; unfold is_integer_backed in *; rewrite Hty in Hd |- *.
  - destruct (store_I bf t b Hty Hok) as [z ->]. cbn [enc_store] in Hv.
    assert (deref = false) as -> by (destruct deref; [discriminate (Hd eq_refl) | reflexivity]).
    destruct e; unfold bind; cbn [enc_store].
    + eapply ev_weaken; [apply (ev_swap bf G Hback C h src t z pre Hty (Hv None)) | tauto].
    + eapply ev_weaken; [apply (Hv h) | tauto].
  - destruct (store_A bf n b Hty Hok) as [l ->]. unfold store_len in Hlen. rewrite Hty in Hlen. destruct e; cbn [bind enc_store].
    + eapply ev_weaken; [apply (Hv h) | tauto].
    + rewrite (data_A bf n Hty) in *. pose proof (ev_temp bf G m n Hty Hback C h load l pre Ho Hlen (Hv None)) as E.
      destruct E as (d & E & R). exists d. split; [exact E|]. intros r s H. rewrite R by exact H. unfold bind.
      destruct (Gen.reverse_temp m l); reflexivity.
Qed.

Lemma convert_ok bf m e b b' : ok_store bf b -> Gen.convert_traits m bf e b = Val b' -> ok_store bf b'.
Proof.
  unfold ok_store, Gen.convert_traits. destruct (b_ty bf), b; try contradiction; destruct e; unfold bind; intros _ H; try (inversion H; exact I).
  destruct (Gen.reverse_temp m l); inversion H. exact I.
Qed.

Section Trait.
Variables (dx : field -> expr) (bf : bitfield) (m : mode).
Hypothesis OK : emit_ok dx bf.
Let P := emitted dx bf.
Let Hback := eo_back _ _ OK.
Let Hsmall := eo_small _ _ OK.
Let Hd := eo_dx _ _ OK.

(** [impl From<Data> for Bitfield]: from_traits_feature.rs:71-80 *)
Lemma trait_from_meets b : ok_store bf b -> store_len bf b ->
  fn_meets dx bf true (trait_from_fn bf) (fun r s => ready m r /\ calls bf m r /\ s = mkSt [(bob bf, enc_store b)] [])
    (fun _ _ => alone (Gen.trait_from m bf b) enc_store).
Proof.
  intros Hb Hlen. set (i := trait_from_fn bf). assert (Hc : const_ok bf i) by (right; reflexivity).
  pose proof (knows_own dx bf OK i Hc) as K. pose proof (writes_own dx bf m OK i Hc) as W.
  set (C := [(bob bf, (false, data_ty bf))]). set (C1 := ("this", (true, TSelf)) :: C). set (C2 := ("bits", (false, data_ty bf)) :: C1).
  set (e := a_from_endian (b_args bf)). unfold alone, Gen.trait_from. fold e.
  assert (Ev : ev (genv_of P true i) C1 None (trait_convert bf e (V (bob bf)) false) (data_ty bf)
    (fun r s => ready m r /\ lookup (bob bf) (loc s) = Some (enc_store b)) (fun _ _ => b' <- Gen.convert_traits m bf e b ;; Val (enc_store b'))).
  { apply ev_convert; try assumption; [discriminate | reflexivity|]. intros h. apply (ev_data bf _ C1 h (bob bf) false b).
    unfold C1, C, bob. destruct (is_integer_backed bf); reflexivity. }
  destruct (steps_load bf (genv_of P true i) m Hback K W Hsmall dx Hd (fun _ => true) false C2 false false) as (CL & A & S).
  { reflexivity. } { eapply P_var; reflexivity. }
  destruct (some_store bf Hback) as [sx Hx].
  eapply (fn_frag_ev' dx bf (ok_store bf) sx) with (ss := [letmut "this" (init bf false)] ++ [let_ "bits" (trait_convert bf e (V (bob bf)) false)] ++ copy_all bf (fun _ => true))
    (C' := CL ++ C2) (pre1 := fun r s => ready m r /\ calls bf m r /\ lookup (bob bf) (loc s) = Some (enc_store b))
    (post := fun _ s => out (src <- Gen.convert_traits m bf e b ;; Gen.copy_fields m bf (fun _ => true) src (Gen.init_store bf))
       (fun st1 s' => ok_store bf st1 /\ lookup "this" (loc s') = Some (enc_store st1) /\ mem s' = mem s))
    (pret := fun st1 _ s => lookup "this" (loc s) = Some (enc_store st1)) (G := fun st1 _ _ => Val (enc_store st1)); [exact Hx | reflexivity | | |].
  - eapply (frag_app tt); [eapply (frag_ev _ _ true "this" (init bf false) TSelf (fun _ _ => True)); [reflexivity | apply ev_init; [exact Hback | reflexivity | reflexivity | apply heap_not_const; exact Hc]] | |].
    + intros u.
      eapply (frag_app' (ok_store bf) sx) with (pre := fun r s => ready m r /\ calls bf m r /\ lookup (bob bf) (loc s) = Some (enc_store b) /\ lookup "this" (loc s) = Some (enc_store (Gen.init_store bf)))
        (post := fun _ s => out (src <- Gen.convert_traits m bf e b ;; Gen.copy_fields m bf (fun _ => true) src (Gen.init_store bf))
          (fun st1 s' => ok_store bf st1 /\ lookup "this" (loc s') = Some (enc_store st1) /\ mem s' = mem s));
        [exact Hx | eapply (frag_ev _ _ false "bits"); [unfold trait_convert; destruct e, (is_integer_backed bf); reflexivity | exact Ev] | |].
      * intros src Hsrc. pose proof (S src Hsrc (Gen.init_store bf) (init_ok bf Hback)) as F. rewrite app_nil_r in F. exact F.
      * intros r s (Hr & Hcl & Hb1 & Ht). split; [auto|]. unfold bind. case_eq (Gen.convert_traits m bf e b); [|reflexivity].
        intros src Es. cbn [out]. intros s1 ->. exists src. split; [exact (convert_ok _ _ _ _ _ Hb Es)|]. split.
        { split; [exact Hr|]. split; [split; [exact Hcl | apply lookup_same]|]. apply has_push; [reflexivity | apply has_local; exact Ht]. }
        destruct (Gen.copy_fields _ _ _ _ _) as [st1|]; cbn [out refines]; [|reflexivity].
        intros s2 (Ok1 & L & HL & ->). split; [exact Ok1|].
        rewrite (lookup_pushes temps), mem_pushes by (assumption || exact this_temps).
        change (home false) with "this". rewrite store_push by reflexivity.
        unfold store_at, spot. cbn [write mem push loc].
        split; [|reflexivity]. rewrite lookup_other by reflexivity. eapply lookup_update_same; exact Ht.
    + intros r s (Hr & Hcl & Hb1). split; [exact I|]. cbn [out]. intros s1 ->. exists tt. split.
      { split; [exact Hr|]. split; [exact Hcl|]. split; [|apply lookup_same].
        rewrite loc_push, lookup_other by (unfold bob; destruct (is_integer_backed bf); reflexivity). exact Hb1. }
      apply out_weaken. intros a s' H. exact H.
  - intros st1 _. eexists. split; [eapply E_var; rewrite (lookup_among temps) by (exact A || exact this_temps); reflexivity|].
    intros r s H. unfold d_var. rewrite H. reflexivity.
  - intros r s (H1 & H2 & ->). split; [split; [exact H1|]; split; [exact H2 | apply lookup_same]|].
    match goal with |- match out ?o _ with _ => _ end => destruct o as [st1|]; cbn [out]; [|reflexivity] end.
    intros s1 (Ok1 & Hl & Hm). exists st1. split; [exact Ok1|]. split; [exact Hl|]. rewrite Hm. reflexivity.
Qed.

(** [impl From<Bitfield> for Data]: from_traits_feature.rs:91-98 *)
Lemma trait_into_meets own st0 : ok_store bf st0 -> store_len bf st0 ->
  fn_meets dx bf own (trait_into_fn bf) (fun r s => ready m r /\ s = mkSt [("val", enc_store st0)] [])
    (fun _ _ => alone (Gen.trait_into m bf st0) enc_store).
Proof.
  intros Hok Hlen. set (i := trait_into_fn bf). set (C := [("this", (true, TSelf)); ("val", (false, TSelf))]).
  set (e := a_into_endian (b_args bf)). unfold alone, Gen.trait_into. fold e.
  assert (Ev : forall h, ev (genv_of P own i) C h (trait_convert bf e (val false) (is_heap bf)) (data_ty bf)
    (fun r s => ready m r /\ has "this" false s (enc_store st0)) (fun _ _ => b' <- Gen.convert_traits m bf e st0 ;; Val (enc_store b'))).
  { intros h. apply ev_convert; try assumption.
    - unfold is_heap. destruct (is_integer_backed bf); [|reflexivity]. rewrite andb_false_r. discriminate.
    - destruct (is_heap bf); reflexivity.
    - intros h'. apply (ev_load bf (genv_of P own i) Hback C h' true false st0); [reflexivity | eapply P_var; reflexivity]. }
  assert (E0 : ev (genv_of P own i) [("val", (false, TSelf))] None (V "val") TSelf
    (fun _ s => lookup "val" (loc s) = Some (enc_store st0)) (fun _ _ => Val (enc_store st0))).
  { eexists. split; [eapply E_var; reflexivity|]. intros r s H. unfold d_var. rewrite H. reflexivity. }
  eapply fn_frag_ev; [reflexivity | eapply (frag_ev _ _ true "this" (V "val") TSelf); [reflexivity | exact E0] | exact (Ev _) |].
  - intros r s (Hr & ->). split; [reflexivity|]. cbn [out]. intros s1 ->. split; [split; [exact Hr | apply has_local, lookup_same]|].
    unfold bind. destruct (Gen.convert_traits m bf e st0); reflexivity.
Qed.
End Trait.
