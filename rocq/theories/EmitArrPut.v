(** The fragments that write, for an array-backed bitfield. *)
From Coq Require Import ZArith List Bool String Lia.
From Verif Require Import RustInt Syntax GenInt GenArr Spec BitsLemmas CoreLemmas Rust RustLemmas Surface Emit EmitVocab EmitLemmas EmitArr.
From Verif Require Gen.
Import ListNotations.
Open Scope string_scope.
Open Scope Z_scope.

Section Arr.
Variables (bf : bitfield) (bc : bool) (G : genv) (m : mode) (n : Z).
Hypothesis Hty : b_ty bf = DArray n.
Hypothesis Hback : backing_ok (b_ty bf).
Hypothesis K : knows bf bc G.

(** GH:468-499 *)
Definition cast_ctx (f : field) : tctx :=
  match f_ty f with
  | DInteger TBool => [("value", (false, TI U128))]
  | DArray len => [("value", (false, TArr U8 len))]
  | DCustom => [("value", (false, TI U128)); ("mask", (false, TI U128)); ("bits", (false, TI U128))]
  | DInteger t => [("value", (false, TI t)); ("mask", (false, TI t))]
  end.
Definition cast_env (f : field) (q : Z * Z * pval) : env :=
  match f_ty f with
  | DInteger TBool | DArray _ => [("value", enc_pval (snd q))]
  | DCustom => [("value", enc_pval (snd q)); ("mask", RI (snd (fst q))); ("bits", RI (fst (fst q)))]
  | DInteger _ => [("value", enc_pval (snd q)); ("mask", RI (snd (fst q)))]
  end.
Lemma ev_mask128_as C h f t : In f (b_fields bf) -> small bf f -> t <> TBool ->
  ev G C h (as_ (mask128 (fbits bc f)) (TI t)) (TI t) (fun r _ => ready m r)
    (fun _ _ => z <- mask_arr m (f_bits f) ;; Val (RI (cast t z))).
Proof.
  intros Hf Hs Ht. destruct (ev_mask128 bf bc G m Hback K C None f Hf Hs) as (d & E & R). pose proof (int_of_int t Ht) as It.
  unfold as_. eexists. split; [eapply E_cast; [exact It | exact E | ity]|].
  intros r s Hm. cbv beta. rewrite R by exact Hm. destruct (mask_arr m (f_bits f)); reflexivity.
Qed.
Lemma frag_extract_cast_a C f a mb : In f (b_fields bf) -> small bf f -> shape f a ->
  lookup "bits" C = Some (mb, field_ty f) ->
  frag G C (extract_cast_a bc f) (cast_ctx f ++ C)%list
    (fun r s => ready m r /\ lookup "bits" (loc s) = Some (enc_fval a))
    (fun r s => out (extract_cast_arr m f a) (fun q s' => s' = pushes (cast_env f q) s)).
Proof.
  intros Hf Hs Ha Hl. unfold shape, field_ty, extract_cast_a, extract_cast_arr, cast_ctx, cast_env in *.
  destruct (f_ty f) as [t|len|] eqn:Ef.
  - assert (Hb : t = TBool \/ t <> TBool) by (destruct t; [right; discriminate .. | left; reflexivity]).
    destruct Hb as [->|Hb].
    + destruct a; try contradiction. start. eexists. split; [bl|]. intros r s [Hm Hh]. cbn [enc_fval] in Hh.
      apply meets_let. sim. cbn [out meets]. eexists. split; reflexivity.
    + destruct (ev_mask128_as C None f t Hf Hs Hb) as (d & E & R). pose proof (int_of_int t Hb) as It.
      assert (Ha' : exists z, a = VInt z) by (destruct t, a; try contradiction; eauto).
      destruct Ha' as (z & ->). clear Ha.
      assert (Main : frag G C [ let_ "mask" (as_ (mask128 (fbits bc f)) (TI t));
                 let_ "value" (EBlock (Block [ let_ "val" (V "bits" &! V "mask") ] (Some (V "val")))) ]
              (("value", (false, TI t)) :: ("mask", (false, TI t)) :: C)
              (fun r s => ready m r /\ lookup "bits" (loc s) = Some (enc_fval (VInt z)))
              (fun r s => out (mk <- mask_arr m (f_bits f) ;; let mask := cast t mk in
                               Val (z, mask, PInt (Z.land z mask)))
                 (fun q s' => s' = push "value" (enc_pval (snd q)) (push "mask" (RI (snd (fst q))) s)))).
      { intros h rest tail tr dr Hr. cbn [app]. unfold let_. eexists.
        split. { eapply B_let; [reflexivity | exact E |]. opn. eapply B_let; [reflexivity | | exact Hr].
                 eapply E_block. eapply B_let; [reflexivity | | bl]. eapply E_arith; [ | el | ity | el | teq]. destruct (negb _); reflexivity. }
        intros r s [Hm Hh]. cbn [enc_fval] in Hh. apply meets_let. rewrite R by exact Hm.
        destruct (mask_arr m (f_bits f)); [|reflexivity]. run0. apply meets_let. sim.
        cbn [out meets]. eexists; split; reflexivity. }
      destruct t; try congruence; exact Main.
  - destruct a; try contradiction. start. eexists. split; [bl|]. intros r s [Hm Hh]. cbn [enc_fval] in Hh.
    apply meets_let. sim. cbn [out meets]. eexists. split; reflexivity.
  - destruct a; try contradiction. pose proof Hs as (_ & _ & _ & _ & Hc). destruct (Hc Ef) as [_ Hc2].
    pose proof (k_codec _ _ _ K f Hf Ef). pose proof (int_of_int _ Hc2).
    set (C1 := ("bits", (false, TI U128)) :: C).
    destruct (ev_mask128 bf bc G m Hback K C1 None f Hf Hs) as (d & E & R). intros h rest tail tr dr Hr. cbn [app]. unfold let_ at 1 2 3.
    eexists. split.
    { eapply B_let; [reflexivity | unfold as_; eapply E_cast; [ity | cbn [cast_hint]; eapply E_into; [el | eassumption | eassumption] | eassumption] |].
      eapply B_let; [reflexivity | exact E |]. unfold C1. opn. eapply B_let; [reflexivity | el | exact Hr]. }
    intros r s [Hm Hh]. cbn [enc_fval] in Hh. apply meets_let. run0. rewrite Hh. run0. apply meets_let. rewrite R by exact Hm.
    destruct (mask_arr m (f_bits f)); [|reflexivity]. run0. apply meets_let. sim.
    cbn [out meets]. eexists; split; [reflexivity|]. reflexivity.
Qed.

(** What [e] has to be where [put] takes it. *)
Definition put_arg_a (C : tctx) (f : field) (e : expr) (p : pval) (pre : rt -> Rust.st -> Prop) : Prop :=
  match f_ty f, p with
  | DInteger TBool, PBool b => ev G C None e (TI TBool) pre (fun _ _ => Val (RB b))
  | DInteger TBool, _ => False
  | DCustom, PCustom t => ev G C None e (TUser (f_name f)) pre (fun _ _ => Val (RC t))
  | DInteger _, PInt z =>
      exists te q, int_of te = Some q /\ ev G C (cast_hint e (TI U128)) e te pre (fun _ _ => Val (RI z))
  | DArray len, PArr l => open_lit e = None /\ ev G C None e (TArr U8 len) pre (fun _ _ => Val (RA l))
  | _, _ => False
  end.

(** GH:644-698 *)
Definition num_loop (f : field) : list stmt :=
  [ SLet true "i" (Some (TI U32)) (lit 0);
    while_ (lt (V "i") (fbits bc f))
      [ let_ "bit_index" (foff bc f +! V "i");
        let_ "byte_idx" (V "bit_index" /! lit 8);
        let_ "bit_in_byte" (V "bit_index" %! lit 8);
        let_ "bit_val" ((V "val_to_set" >>! V "i") &! lit 1);
        write_bit_stmt (EBin BEq (V "bit_val") (lit 1)) (val bc) (as_ (V "byte_idx") TUsize)
          (V "bit_in_byte");
        incr "i" ] ].
Definition num_body (f : field) (x : Z) : Z -> list Z -> outcome (list Z) := fun i s =>
  bit_index <- uadd m 32 (f_off f) i ;; x <- shr m 128 x i ;;
  write_bit m (bit_index / 8) (bit_index mod 8) (Z.land x 1 =? 1) s.
Lemma num_loop_ok C f i : In f (b_fields bf) -> small bf f ->
  place G C (this bc) = Some (TSelf, true, spot (home bc) i) ->
  exists d, elab_block G (("val_to_set", (false, TI U128)) :: C) None (Block (num_loop f) None) = Some (TUnit, d) /\
  forall r s l x, ready m r -> has (home bc) i s (RA l) ->
    d r (push "val_to_set" (RI x) s) =
    match while_lt (f_bits f) (num_body f x) l with
    | Val l' => Go RU (push "val_to_set" (RI x) (store_at (home bc) i (RA l') s))
    | Panic => Fail
    end.
Proof.
  intros Hf Hs Hp. pose proof (back_A bf bc G n Hty K) as HB. pose proof (elem_A bf n) as HE. unfold num_loop. opn.
  eexists. split; [bl|]. intros r s l x [Hm Hfu] Hh. sim.
  pose proof (size_small _ Hback); destruct Hs as (Hs1 & Hs2 & Hs3 & Hs4 & _).
  replace (push "val_to_set" (RI x) s) with (push "val_to_set" (RI x) (store_at (home bc) i (RA l) s))
    by (rewrite store_id by exact Hh; reflexivity).
  rewrite (wloop_while (r_fuel r) _ _ (fun j a => push "i" (RI j) (push "val_to_set" (RI x) (store_at (home bc) i (RA a) s)))
    (f_bits f) (num_body f x) (fun _ => True)); [ | lia | lia | exact I | | ].
  - destruct (while_lt _ _ _); sim; reflexivity.
  - intros j a Hj _. sim. reflexivity.
  - intros j a Hj _. unfold num_body, write_bit. sim. ua. sim. oc; sim; [|reflexivity].
    destruct (Z.land a0 1 =? 1); sim; pass; done.
Qed.

Definition bytes_loop (f : field) : list stmt :=
  [ SLet true "__i" (Some (TI U32)) (lit 0);
    while_ (lt (V "__i") (fbits bc f))
      [ let_ "bit_index" (foff bc f +! V "__i");
        let_ "byte_idx" (as_ (V "bit_index" /! lit 8) TUsize);
        let_ "bit_in_byte" (V "bit_index" %! lit 8);
        let_ "src_bit"
          ((EIndex (V "__src") (as_ (V "__i" /! lit 8) TUsize) >>! (V "__i" %! lit 8)) &! lit 1);
        write_bit_stmt (EBin BEq (V "src_bit") (lit 1)) (val bc) (V "byte_idx") (V "bit_in_byte");
        incr "__i" ] ].
Definition bytes_body (f : field) (src : list Z) : Z -> list Z -> outcome (list Z) := fun i s =>
  bit_index <- uadd m 32 (f_off f) i ;; b <- arr_get src (i / 8) ;; x <- shr m 8 b (i mod 8) ;;
  write_bit m (bit_index / 8) (bit_index mod 8) (Z.land x 1 =? 1) s.
Lemma bytes_loop_ok C f i len : In f (b_fields bf) -> small bf f ->
  place G C (this bc) = Some (TSelf, true, spot (home bc) i) ->
  exists d, elab_block G (("__src", (false, TArr U8 len)) :: C) None (Block (bytes_loop f) None) = Some (TUnit, d) /\
  forall r s l x, ready m r -> has (home bc) i s (RA l) ->
    d r (push "__src" (RA x) s) =
    match while_lt (f_bits f) (bytes_body f x) l with
    | Val l' => Go RU (push "__src" (RA x) (store_at (home bc) i (RA l') s))
    | Panic => Fail
    end.
Proof.
  intros Hf Hs Hp. pose proof (back_A bf bc G n Hty K) as HB. pose proof (elem_A bf n) as HE. unfold bytes_loop. opn.
  eexists. split; [bl|]. intros r s l x [Hm Hfu] Hh. sim.
  pose proof (size_small _ Hback); destruct Hs as (Hs1 & Hs2 & Hs3 & Hs4 & _).
  replace (push "__src" (RA x) s) with (push "__src" (RA x) (store_at (home bc) i (RA l) s))
    by (rewrite store_id by exact Hh; reflexivity).
  rewrite (wloop_while (r_fuel r) _ _ (fun j a => push "__i" (RI j) (push "__src" (RA x) (store_at (home bc) i (RA a) s)))
    (f_bits f) (bytes_body f x) (fun _ => True)); [ | lia | lia | exact I | | ].
  - destruct (while_lt _ _ _); sim; reflexivity.
  - intros j a Hj _. sim. reflexivity.
  - intros j a Hj _. unfold bytes_body, write_bit. sim. ua. sim. wd. sim. wd. sim. oc; sim; [|reflexivity].
    oc; sim; [|reflexivity].
    match goal with |- context [Z.land ?y 1 =? 1] => destruct (Z.land y 1 =? 1) end; sim; pass; done.
Qed.

Lemma frag_put_a C f e p i (pre : rt -> Rust.st -> Prop) l : In f (b_fields bf) -> small bf f ->
  place G C (this bc) = Some (TSelf, true, spot (home bc) i) -> put_arg_a C f e p pre ->
  frag G C (put bf bc f e) C
    (fun r s => ready m r /\ pre r s /\ has (home bc) i s (RA l))
    (fun r s => out (put_arr m f p l) (fun l' s' => s' = store_at (home bc) i (RA l') s)).
Proof.
  intros Hf Hs Hp He. unfold put, is_integer_backed. rewrite Hty. cbn [negb].
  assert (Num : forall v x, open_lit v = None ->
     ev G C None v (TI U128) pre (fun _ _ => Val (RI x)) ->
     frag G C [ SExpr (EBlock (Block (let_ "val_to_set" v :: num_loop f) None)) ] C
       (fun r s => ready m r /\ pre r s /\ has (home bc) i s (RA l))
       (fun r s => out (while_lt (f_bits f) (num_body f x) l) (fun l' s' => s' = store_at (home bc) i (RA l') s))).
  { intros v x Ho (dv & Ev & Rv). destruct (num_loop_ok C f i Hf Hs Hp) as (d & E & R).
    eapply frag_stmt; [reflexivity | eapply S_expr, E_block; unfold let_; eapply B_let; [exact Ho | exact Ev | exact E] |].
    intros r s (Hm & Hpre & Hh). unfold d_let. rewrite Rv by exact Hpre. cbn [lift dbind]. rewrite (R r s l x Hm Hh).
    destruct (while_lt _ _ _); cbn [dbind out]; [rewrite pop_push; reflexivity | reflexivity]. }
  unfold put_arg_a in He. unfold put_arr.
  destruct (f_ty f) as [t|len|] eqn:Ef.
  - assert (Hb : t = TBool \/ t <> TBool) by (destruct t; [right; discriminate .. | left; reflexivity]).
    destruct Hb as [->|Hb].
    + destruct p as [|b| |]; try contradiction. destruct He as (de & Ee & Re).
      apply (Num _ (if b then 1 else 0)); [reflexivity|].
      eexists. split; [eapply E_if; [exact Ee | bl | bl | teq]|].
      intros r s Hpre. run1. rewrite Re by exact Hpre. destruct b; reflexivity.
    + assert (He' : match p with PInt z => exists te q, int_of te = Some q /\
          ev G C (cast_hint e (TI U128)) e te pre (fun _ _ => Val (RI z)) | _ => False end)
        by (destruct t; try exact He; congruence).
      destruct p as [z| | |]; try contradiction. destruct He' as (te & q & Hq & de & Ee & Re).
      assert (N := Num (as_ e (TI U128)) (ucast 128 z) eq_refl).
      destruct t; try congruence; apply N;
        (eexists; split; [unfold as_; eapply E_cast; [ity | exact Ee | exact Hq]|];
         intros r s Hpre; run1; rewrite Re by exact Hpre; reflexivity).
  - destruct p as [| |x|]; try contradiction. destruct He as (Ho & de & Ee & Re).
    destruct (bytes_loop_ok C f i len Hf Hs Hp) as (d & E & R).
    eapply frag_stmt; [reflexivity | eapply S_expr, E_block; unfold let_ at 1; eapply B_let; [exact Ho | exact Ee | exact E] |].
    intros r s (Hm & Hpre & Hh). unfold d_let. rewrite Re by exact Hpre. cbn [lift dbind]. rewrite (R r s l x Hm Hh).
    change (while_lt _ _ _) with (while_lt (f_bits f) (bytes_body f x) l) at 2.
    destruct (while_lt _ _ _); cbn [dbind out]; [rewrite pop_push; reflexivity | reflexivity].
  - destruct p as [| | |tc]; try contradiction. destruct He as (de & Ee & Re).
    pose proof Hs as (_ & _ & _ & _ & Hc). destruct (Hc Ef) as [_ Hc2].
    pose proof (k_codec _ _ _ K f Hf Ef). pose proof (int_of_int _ Hc2).
    apply (Num _ (ucast 128 (into_custom f tc))); [reflexivity|].
    unfold as_. eexists; split. { eapply E_cast; [ity | cbn [cast_hint]; eapply E_into; [exact Ee | eassumption | eassumption] | eassumption]. }
    intros r s Hpre. run1. rewrite Re by exact Hpre. reflexivity.
Qed.
End Arr.
