(** The loops of the emitted range operations on arrays. *)
From Coq Require Import ZArith List Bool String Lia.
From Verif Require Import RustInt Syntax GenInt GenArr Spec BitsLemmas CoreLemmas Rust RustLemmas Surface Emit EmitVocab
  EmitLemmas EmitArr EmitArrPut EmitField EmitDefault EmitFns EmitRead EmitNew EmitConv EmitData EmitGuard.
From Verif Require Gen.
Import ListNotations.
Open Scope string_scope.
Open Scope list_scope.
Open Scope Z_scope.

Lemma uadd_range m x y z : uadd m 32 x y = Val z -> 0 <= x -> 0 <= y -> 0 <= z < 2 ^ 32.
Proof.
  unfold uadd. intros H Hx Hy. destruct (x + y <? 2 ^ 32) eqn:E.
  - injection H as <-. apply Z.ltb_lt in E. lia.
  - destruct m; [discriminate|]. injection H as <-. apply Z.mod_pos_bound. reflexivity.
Qed.

Ltac find_pass :=
  intros j Hj; unfold Gen.is_protected; sim; oc; sim; [|reflexivity];
  match goal with H : uadd _ _ _ _ = Val _ |- _ => pose proof (uadd_range _ _ _ _ H ltac:(lia) ltac:(lia)) end;
  repeat (first [wd | oc]; sim; try reflexivity);
  match goal with |- context [if negb ?b then _ else _] => destruct (negb b) end; sim;
  [eexists; split; reflexivity | ua; sim; eauto].

Ltac rl := erewrite read_spot_local by (look; eassumption).
Ltac ur :=
  match goal with
  | H : uadd ?m 32 ?x ?y = Val ?z |- _ =>
      lazymatch goal with
      | _ : 0 <= z < 2 ^ 32 |- _ => fail
      | _ => pose proof (uadd_range m x y z H ltac:(lia) ltac:(lia))
      end
  end.
Ltac ng := match goal with |- context [Z.land ?x 1 =? 0] => destruct (Z.land x 1 =? 0); cbn [negb] end.
Ltac range_pass :=
  unfold Gen.value_bit, Gen.is_protected, write_bit, Gen.read_bit_into; sim;
  repeat (first [ua | ur | rl | wd | again | oc | ng]; sim; try reflexivity).

Lemma ev_all {X} (x0 : X) (ok : X -> Prop) G C h e t (pre : X -> rt -> st -> Prop) F : ok x0 ->
  (forall x, ok x -> ev G C h e t (pre x) (F x)) ->
  exists d, elab G C h e = Some (t, d) /\ forall x, ok x -> forall r s, pre x r s -> d r s = lift (F x r s) s.
Proof.
  intros H0 H. destruct (H x0 H0) as (d & E & _). exists d. split; [exact E|]. intros x Hx.
  destruct (H x Hx) as (d' & E' & R). rewrite E in E'. injection E' as <-. exact R.
Qed.

Lemma has_write x y w v s : String.eqb x y = false -> has x true s v -> has x true (store_at y false w s) v.
Proof.
  intros N (q & H1 & H2). exists q. unfold store_at, spot in *. cbn [write loc].
  destruct (lookup x (loc s)) as [u|] eqn:E; [|discriminate]. rewrite (lookup_update_other _ _ _ _ N), E.
  split; [exact H1|]. destruct u; try discriminate. injection H1 as <-. exact H2.
Qed.

Section Loops.
Variables (bf : bitfield) (G : genv) (m : mode) (n : Z).
Hypothesis Hty : b_ty bf = DArray n.
Hypothesis Hback : backing_ok (b_ty bf).
Hypothesis K : knows bf false G.
Variables (o len : Z).
Hypothesis Ho : 0 <= o < 2 ^ 32.
Hypothesis Hlen : 0 <= len < 2 ^ 32.

Definition range_ctx (C : tctx) : Prop := lookup "offset" C = Some (false, TI U32) /\ lookup "length" C = Some (false, TI U32).
Definition in_range_st (r : rt) (s : st) : Prop := ready m r /\ at_u32 "offset" o s /\ at_u32 "length" len s.

Definition find_prot (M : list Z) : outcome (option unit) :=
  while_lt_find len (fun i =>
    dst <- uadd m 32 o i ;;
    p <- Gen.is_protected m M dst ;;
    Val (if p then Some tt else None)).
Lemma frag_find C M name byte bib msg T :
  (name, byte, bib) = ("dst_bit", "dst_byte_idx", "dst_bit_in_byte") \/ (name, byte, bib) = ("src_bit", "src_byte", "src_bit_in_byte") ->
  range_ctx C -> lookup "protected_mask" C = Some (false, TArr U8 n) -> g_ret G = TRes T ->
  frag G C (protected_loop name byte bib msg) (("i", (true, TI U32)) :: C)
    (fun r s => in_range_st r s /\ lookup "protected_mask" (loc s) = Some (RA M))
    (fun _ s => match find_prot M with
       | Val None => Next (fun s' => s' = push "i" (RI len) s)
       | Val (Some _) => Done (Val (RErr msg, mem s))
       | Panic => Done Panic
       end).
Proof.
  intros Hn [Co Cl] CM HR. pose proof (elem_A bf n) as HE. unfold protected_loop, bit_lets, protected_let.
  destruct Hn as [H|H]; injection H as -> -> ->.
  all: start; eexists; split; [eapply B_let; [reflexivity | el |]; eapply B_stmt; [reflexivity | sl | exact Hr]|].
  all: intros r s (([Hm Hfu] & Hso & Hsl) & HsM); unfold at_u32 in *; pose proof pow_le_32_64; pose proof (has_local _ _ _ HsM) as HhM.
  all: apply meets_let; run0; lits; apply meets_seq; run1.
  all: unfold find_prot, while_lt_find.
  all: match goal with |- context [wloop ?f ?c ?b _] => pose proof (wloop_loop_find f c b (fun j => push "i" (RI j) s) len (fun i =>
    dst <- uadd m 32 o i ;;
    p <- Gen.is_protected m M dst ;;
    Val (if p then Some tt else None)) (RErr msg) s) as L end.
  all: match type of L with ?A -> _ => assert (H1 : A) by (clear L; intros j Hj; sim; reflexivity); specialize (L H1); clear H1 end.
  all: match type of L with ?A -> _ => assert (H2 : A); [clear L | specialize (L H2); clear H2] end.
  1: find_pass. 2: find_pass.
  all: specialize (L (Z.to_nat len) 0 ltac:(lia) ltac:(lia) ltac:(lia)).
  all: destruct (loop_find _ _ _) as [[[]|]|]; cbn [meets].
  all: try (destruct L as (s' & L & E); rewrite L; rewrite <- E; reflexivity).
  all: rewrite L; try reflexivity.
  all: eexists; split; reflexivity.
Qed.

(** 201-217, 242-250 *)
Definition set_while (guarded : bool) : stmt :=
  while_ (lt (V "i") (V "length"))
    (value_bit_let :: bit_lets "dst_bit" "dst_byte_idx" "dst_bit_in_byte" ++
     if guarded then
       [ protected_let "dst_byte_idx" "dst_bit_in_byte";
         if_ (~! V "is_protected")
           [ write_bit_stmt (V "bit_val") (val false) (V "dst_byte_idx") (V "dst_bit_in_byte") ];
         incr "i" ]
     else
       [ write_bit_stmt (V "bit_val") (val false) (V "dst_byte_idx") (V "dst_bit_in_byte");
         incr "i" ]).
Definition set_step (guarded : bool) (M v : list Z) (i : Z) (l : list Z) : outcome (list Z) :=
  bit_val <- Gen.value_bit m v i ;;
  dst <- uadd m 32 o i ;;
  if guarded then
    (p <- Gen.is_protected m M dst ;;
     if p then Val l else write_bit m (dst / 8) (dst mod 8) bit_val l)
  else write_bit m (dst / 8) (dst mod 8) bit_val l.
Lemma ev_bit_of C x byte bib (pre : rt -> st -> Prop) l b i :
  lookup x C = Some (false, TArr U8 n) -> ev G C (Some TUsize) byte TUsize pre (fun _ _ => Val (RI b)) ->
  ev G C None bib (TI U32) pre (fun _ _ => Val (RI i)) -> (forall r s, pre r s -> ready m r /\ lookup x (loc s) = Some (RA l)) ->
  ev G C None (EBin BNe ((EIndex (V x) byte >>! bib) &! lit 1) (lit 0)) (TI TBool) pre
    (fun _ _ => c <- arr_get l b ;; y <- shr m 8 c i ;; Val (RB (negb (Z.land y 1 =? 0)))).
Proof.
  intros Hx (db & Eb & Rb) (di & Ei & Ri) H. opn. eexists. split.
  { eapply E_compare; [reflexivity | eapply E_arith; [reflexivity | eapply E_shift; [reflexivity |
      eapply E_index; [pl | exact Eb | reflexivity] | exact Ei | ity | ity] | ity | el | teq] | ity | el | teq]. }
  intros r s Hp. destruct (H r s Hp) as ([Hm _] & Hl). run1. rewrite Rb by exact Hp. run1. rl. run1. destruct (arr_get l b); [|reflexivity].
  rewrite Ri by exact Hp. run1. rewrite Hm. destruct (shr m 8 _ i); [|reflexivity]. lits. reflexivity.
Qed.
Lemma ev_div8 C h x z : forall mu, lookup x C = Some (mu, TI U32) -> 0 <= z < 2 ^ 32 ->
  ev G C h (as_ (V x /! lit 8) TUsize) TUsize (fun _ s => lookup x (loc s) = Some (RI z)) (fun _ _ => Val (RI (z / 8))).
Proof. intros mu H Hz. opn. eexists. split; [el|]. intros r s Hl. run1. rewrite Hl. lits. wd. reflexivity. Qed.
Lemma ev_mod8 C x z : forall mu, lookup x C = Some (mu, TI U32) ->
  ev G C None (V x %! lit 8) (TI U32) (fun _ s => lookup x (loc s) = Some (RI z)) (fun _ _ => Val (RI (z mod 8))).
Proof. intros mu H. opn. eexists. split; [el|]. intros r s Hl. run1. rewrite Hl. lits. reflexivity. Qed.
Lemma ev_value C v j : lookup "value" C = Some (false, TArr U8 n) -> lookup "i" C = Some (true, TI U32) -> 0 <= j < 2 ^ 32 ->
  ev G C None (EBin BNe ((EIndex (V "value") (as_ (V "i" /! lit 8) TUsize) >>! (V "i" %! lit 8)) &! lit 1) (lit 0)) (TI TBool)
    (fun r s => ready m r /\ lookup "value" (loc s) = Some (RA v) /\ lookup "i" (loc s) = Some (RI j))
    (fun _ _ => b <- Gen.value_bit m v j ;; Val (RB b)).
Proof.
  intros H1 H2 Hj. destruct (ev_bit_of C "value" (as_ (V "i" /! lit 8) TUsize) (V "i" %! lit 8)
    (fun r s => ready m r /\ lookup "value" (loc s) = Some (RA v) /\ lookup "i" (loc s) = Some (RI j)) v (j / 8) (j mod 8) H1) as (d & E & R).
  - eapply ev_weaken; [exact (ev_div8 C _ "i" j true H2 Hj)|]. intros r s (_ & _ & H). auto.
  - eapply ev_weaken; [exact (ev_mod8 C "i" j true H2)|]. intros r s (_ & _ & H). auto.
  - intros r s (A1 & A2 & _). auto.
  - exists d. split; [exact E|]. intros r s H. rewrite R by exact H. unfold Gen.value_bit, bind.
    destruct (arr_get _ _); [|reflexivity]. destruct (shr _ _ _ _); reflexivity.
Qed.
Lemma ev_prot C M byte bib z : lookup "protected_mask" C = Some (false, TArr U8 n) -> lookup byte C = Some (false, TUsize) ->
  lookup bib C = Some (false, TI U32) ->
  ev G C None (EBin BNe ((EIndex (V "protected_mask") (V byte) >>! V bib) &! lit 1) (lit 0)) (TI TBool)
    (fun r s => ready m r /\ lookup "protected_mask" (loc s) = Some (RA M) /\ lookup byte (loc s) = Some (RI (z / 8)) /\ lookup bib (loc s) = Some (RI (z mod 8)))
    (fun _ _ => b <- Gen.is_protected m M z ;; Val (RB b)).
Proof.
  intros H1 H2 H3. destruct (ev_bit_of C "protected_mask" (V byte) (V bib)
    (fun r s => ready m r /\ lookup "protected_mask" (loc s) = Some (RA M) /\ lookup byte (loc s) = Some (RI (z / 8)) /\ lookup bib (loc s) = Some (RI (z mod 8)))
    M (z / 8) (z mod 8) H1) as (d & E & R).
  - eexists. split; [el|]. intros r s (_ & _ & H & _). unfold d_var. rewrite H. reflexivity.
  - eexists. split; [el|]. intros r s (_ & _ & _ & H). unfold d_var. rewrite H. reflexivity.
  - intros r s (A1 & A2 & _). auto.
  - exists d. split; [exact E|]. intros r s H. rewrite R by exact H. unfold Gen.is_protected, bind.
    destruct (arr_get _ _); [|reflexivity]. destruct (shr _ _ _ _); reflexivity.
Qed.
Lemma stmt_write C mu : place G C (this false) = Some (TSelf, true, spot "this" true) ->
  lookup "bit_val" C = Some (mu, TI TBool) -> lookup "dst_byte_idx" C = Some (mu, TUsize) -> lookup "dst_bit_in_byte" C = Some (mu, TI U32) ->
  exists d, elab_stmt G C (write_bit_stmt (V "bit_val") (val false) (V "dst_byte_idx") (V "dst_bit_in_byte")) = Some d /\
  forall r s b k i l, ready m r -> lookup "bit_val" (loc s) = Some (RB b) -> lookup "dst_byte_idx" (loc s) = Some (RI k) ->
    lookup "dst_bit_in_byte" (loc s) = Some (RI i) -> has "this" true s (RA l) ->
    d r s = match write_bit m k i b l with Val l' => Go RU (store_at "this" true (RA l') s) | Panic => Fail end.
Proof.
  intros Hp H1 H2 H3. pose proof (elem_A bf n) as HE. pose proof (back_A bf false G n Hty K) as HB.
  opn. eexists. split; [sl|]. intros r s b k i l [Hm _] Hb Hk Hi Hh. unfold write_bit.
  destruct b; sim; repeat (first [again | oc]; sim; try reflexivity).
Qed.
Lemma frag_set_loop guarded C M v l : range_ctx C -> lookup "protected_mask" C = Some (false, TArr U8 n) ->
  lookup "value" C = Some (false, TArr U8 n) -> place G C (this false) = Some (TSelf, true, spot "this" true) ->
  frag G C [letmut "i" (u32 0); set_while guarded] (("i", (true, TI U32)) :: C)
    (fun r s => in_range_st r s /\ lookup "protected_mask" (loc s) = Some (RA M) /\ lookup "value" (loc s) = Some (RA v) /\
       has "this" true s (RA l))
    (fun _ s => out (while_lt len (set_step guarded M v) l)
       (fun l' s' => s' = push "i" (RI len) (store_at "this" true (RA l') s))).
Proof.
  intros [Co Cl] CM Cv Hp.
  set (C1 := ("i", (true, TI U32)) :: C). set (C2 := ("bit_val", (false, TI TBool)) :: C1).
  set (C5 := ("dst_bit_in_byte", (false, TI U32)) :: ("dst_byte_idx", (false, TUsize)) :: ("dst_bit", (false, TI U32)) :: C2).
  destruct (ev_all 0 (fun j => 0 <= j < 2 ^ 32) G C1 None _ _ _ _ ltac:(split; reflexivity || lia) (fun j => ev_value C1 v j Cv eq_refl)) as (dv & Ev & Rv).
  destruct (ev_all 0 (fun _ => True) G C5 None _ _ _ _ I (fun z _ => ev_prot C5 M "dst_byte_idx" "dst_bit_in_byte" z CM eq_refl eq_refl)) as (dp & Ep & Rp).
  destruct (stmt_write C5 false ltac:(unfold C5, C2, C1; pl) eq_refl eq_refl eq_refl) as (dw & Ew & Rw).
  destruct (stmt_write (("is_protected", (false, TI TBool)) :: C5) false ltac:(unfold C5, C2, C1; pl) eq_refl eq_refl eq_refl) as (dw' & Ew' & Rw').
  assert (Hs : forall r s a j, ready m r -> in_range_st r s -> lookup "value" (loc s) = Some (RA v) -> has "this" true s (RA l) ->
     0 <= j < len -> let s1 := push "i" (RI j) (store_at "this" true (RA a) s) in
     dv r s1 = lift (b <- Gen.value_bit m v j ;; Val (RB b)) s1).
  { intros r s a j Hr _ H1 H2 Hj. apply Rv; [lia|]. split; [exact Hr|]. split; look; [exact H1 | reflexivity]. }
  unfold set_while, value_bit_let, bit_lets, protected_let. destruct guarded.
  - start. eexists. split.
    { eapply B_let; [reflexivity | el |]; eapply B_stmt; [reflexivity | | exact Hr].
      eapply S_while; [el|]. eapply B_let; [reflexivity | exact Ev|]. eapply B_let; [reflexivity | el|]. eapply B_let; [reflexivity | el|].
      eapply B_let; [reflexivity | el|]. eapply B_let; [reflexivity | exact Ep|].
      eapply B_stmt; [reflexivity | eapply S_expr; eapply E_if; [el | eapply B_stmt; [reflexivity | exact Ew' | apply B_unit] | bl | teq] |].
      eapply B_stmt; [reflexivity | sl | apply B_unit]. }
    intros r s ((Hready & Hso & Hsl) & HsM & Hsv & Hh). unfold at_u32 in *. pose proof pow_le_32_64.
    pose proof Hready as [Hm Hfu].
    apply meets_let. run0. lits. apply meets_seq. run1.
    replace (push "i" (RI 0) s) with (push "i" (RI 0) (store_at "this" true (RA l) s)) by (rewrite store_id by exact Hh; reflexivity).
    rewrite (wloop_while (r_fuel r) _ _ (fun j a => push "i" (RI j) (store_at "this" true (RA a) s)) len (set_step true M v) (fun _ => True));
      [| lia | lia | exact I | intros j a Hj _; sim; reflexivity | ].
    { destruct (while_lt _ _ _); cbn [out meets]; [|reflexivity]. eexists. split; reflexivity. }
    intros j a Hj _. unfold set_step. cbv beta. rewrite Hs by (assumption || split; auto). cbv zeta.
    destruct (Gen.value_bit m v j) as [bv|]; [|reflexivity]. sim. oc; sim; [|reflexivity]. ur. sim. wd. sim.
    rewrite (Rp a0 I) by (split; [exact Hready|]; split; [look; exact HsM|]; split; look; reflexivity).
    destruct (Gen.is_protected m M a0) as [[]|]; sim; cbn [negb]; sim; [ua; sim; done | | reflexivity].
    erewrite Rw' by (first [exact Hready | look; reflexivity | hs]).
    destruct (write_bit _ _ _ _ _); sim; [|reflexivity]. ua. sim. done.
  - start. eexists. split.
    { eapply B_let; [reflexivity | el |]; eapply B_stmt; [reflexivity | | exact Hr].
      eapply S_while; [el|]. eapply B_let; [reflexivity | exact Ev|]. eapply B_let; [reflexivity | el|]. eapply B_let; [reflexivity | el|].
      eapply B_let; [reflexivity | el|]. eapply B_stmt; [reflexivity | exact Ew |].
      eapply B_stmt; [reflexivity | sl | apply B_unit]. }
    intros r s ((Hready & Hso & Hsl) & HsM & Hsv & Hh). unfold at_u32 in *. pose proof pow_le_32_64.
    pose proof Hready as [Hm Hfu].
    apply meets_let. run0. lits. apply meets_seq. run1.
    replace (push "i" (RI 0) s) with (push "i" (RI 0) (store_at "this" true (RA l) s)) by (rewrite store_id by exact Hh; reflexivity).
    rewrite (wloop_while (r_fuel r) _ _ (fun j a => push "i" (RI j) (store_at "this" true (RA a) s)) len (set_step false M v) (fun _ => True));
      [| lia | lia | exact I | intros j a Hj _; sim; reflexivity | ].
    { destruct (while_lt _ _ _); cbn [out meets]; [|reflexivity]. eexists. split; reflexivity. }
    intros j a Hj _. unfold set_step. cbv beta. rewrite Hs by (assumption || split; auto). cbv zeta.
    destruct (Gen.value_bit m v j) as [bv|]; [|reflexivity]. sim. oc; sim; [|reflexivity]. ur. sim. wd. sim.
    erewrite Rw by (first [exact Hready | look; reflexivity | hs]).
    destruct (write_bit _ _ _ _ _); sim; [|reflexivity]. ua. sim. done.
Qed.

(** 385-395, 421-430 *)
Definition get_while (guarded : bool) : stmt :=
  while_ (lt (V "i") (V "length"))
    (bit_lets "src_bit" "src_byte" "src_bit_in_byte" ++
     if guarded then
       [ protected_let "src_byte" "src_bit_in_byte"; if_ (~! V "is_protected") read_bit_stmts; incr "i" ]
     else read_bit_stmts ++ [ incr "i" ]).
Definition get_step (guarded : bool) (M l : list Z) (i : Z) (res : list Z) : outcome (list Z) :=
  src <- uadd m 32 o i ;;
  if guarded then
    (p <- Gen.is_protected m M src ;;
     if p then Val res else Gen.read_bit_into m l src i res)
  else Gen.read_bit_into m l src i res.
Lemma frag_get_loop guarded C M l res : range_ctx C -> lookup "protected_mask" C = Some (false, TArr U8 n) ->
  lookup "res" C = Some (true, TArr U8 n) -> forall mu, place G C (this false) = Some (TSelf, mu, spot "this" true) ->
  frag G C [letmut "i" (u32 0); get_while guarded] (("i", (true, TI U32)) :: C)
    (fun r s => in_range_st r s /\ lookup "protected_mask" (loc s) = Some (RA M) /\ has "res" false s (RA res) /\
       has "this" true s (RA l))
    (fun _ s => out (while_lt len (get_step guarded M l) res)
       (fun l' s' => s' = push "i" (RI len) (store_at "res" false (RA l') s))).
Proof.
  intros [Co Cl] CM Cr mu Hp. pose proof (elem_A bf n) as HE. pose proof (back_A bf false G n Hty K) as HB.
  set (C1 := ("i", (true, TI U32)) :: C).
  set (C5 := ("src_bit_in_byte", (false, TI U32)) :: ("src_byte", (false, TUsize)) :: ("src_bit", (false, TI U32)) :: C1).
  destruct (ev_all 0 (fun _ => True) G C5 None _ _ _ _ I (fun z _ => ev_prot C5 M "src_byte" "src_bit_in_byte" z CM eq_refl eq_refl)) as (dp & Ep & Rp).
  unfold get_while, bit_lets, protected_let, read_bit_stmts. destruct guarded.
  - start. eexists. split.
    { eapply B_let; [reflexivity | el |]; eapply B_stmt; [reflexivity | | exact Hr].
      eapply S_while; [el|]. eapply B_let; [reflexivity | el|]. eapply B_let; [reflexivity | el|].
      eapply B_let; [reflexivity | el|]. eapply B_let; [reflexivity | exact Ep|]. bl. }
    intros r s ((Hready & Hso & Hsl) & HsM & Hsr & Hh). unfold at_u32 in *. pose proof pow_le_32_64.
    pose proof Hready as [Hm Hfu].
    apply meets_let. run0. lits. apply meets_seq. run1.
    replace (push "i" (RI 0) s) with (push "i" (RI 0) (store_at "res" false (RA res) s)) by (rewrite store_id by exact Hsr; reflexivity).
    rewrite (wloop_while (r_fuel r) _ _ (fun j a => push "i" (RI j) (store_at "res" false (RA a) s)) len (get_step true M l) (fun _ => True));
      [| lia | lia | exact I | intros j a Hj _; sim; reflexivity | ].
    { destruct (while_lt _ _ _); cbn [out meets]; [|reflexivity]. eexists. split; reflexivity. }
    intros j a Hj _. unfold get_step, Gen.read_bit_into. cbv beta.
    sim. oc; sim; [|reflexivity]. ur. sim. wd. sim.
    assert (Hth := has_write "this" "res" (RA a) (RA l) s eq_refl Hh).
    rewrite (Rp a0 I) by (split; [exact Hready|]; split; [look; exact HsM|]; split; look; reflexivity).
    destruct (Gen.is_protected m M a0) as [[]|]; sim; cbn [negb]; sim; [ua; sim; done | | reflexivity].
    repeat (first [ua | wd | again | oc]; sim; try reflexivity). done.
  - start. eexists. split.
    { eapply B_let; [reflexivity | el |]; eapply B_stmt; [reflexivity | | exact Hr].
      eapply S_while; [el|]. bl. }
    intros r s ((Hready & Hso & Hsl) & HsM & Hsr & Hh). unfold at_u32 in *. pose proof pow_le_32_64.
    pose proof Hready as [Hm Hfu].
    apply meets_let. run0. lits. apply meets_seq. run1.
    replace (push "i" (RI 0) s) with (push "i" (RI 0) (store_at "res" false (RA res) s)) by (rewrite store_id by exact Hsr; reflexivity).
    rewrite (wloop_while (r_fuel r) _ _ (fun j a => push "i" (RI j) (store_at "res" false (RA a) s)) len (get_step false M l) (fun _ => True));
      [| lia | lia | exact I | intros j a Hj _; sim; reflexivity | ].
    { destruct (while_lt _ _ _); cbn [out meets]; [|reflexivity]. eexists. split; reflexivity. }
    intros j a Hj _. unfold get_step, Gen.read_bit_into. cbv beta.
    assert (Hth := has_write "this" "res" (RA a) (RA l) s eq_refl Hh).
    sim. oc; sim; [|reflexivity]. ur. sim. wd. sim.
    repeat (first [ua | wd | again | oc]; sim; try reflexivity). done.
Qed.
End Loops.
