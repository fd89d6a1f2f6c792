(** The fragments of the emitted functions (Emit.v) do what the functions of
    GenInt.v, GenArr.v and Gen.v say. *)
From Coq Require Import ZArith List Bool String Lia.
From Verif Require Import RustInt Syntax GenInt GenArr Spec BitsLemmas CoreLemmas Rust RustLemmas Surface Emit EmitVocab.
From Verif Require Gen.
Import ListNotations.
Open Scope string_scope.
Open Scope Z_scope.

(** ** What a function knows *)

Definition home (bc : bool) : string := if bc then "self" else "this".
Record links (bf : bitfield) (G : genv) : Prop := {
  l_codec : forall f, In f (b_fields bf) -> f_ty f = DCustom -> g_codec G (f_name f) = Some (f_codec f);
  l_set : forall f, In f (b_fields bf) -> has_setter f = true ->
    g_fn G (role_name RSetter (f_name f)) = Some (mkSig ByMut [field_ty f] TUnit (is_const bf));
  l_checked : forall f, In f (b_fields bf) -> has_setter f = true ->
    g_fn G (role_name RCheckedSetter (f_name f)) = Some (mkSig ByMut [field_ty f] (TRes TUnit) (is_const bf));
  l_allowed : const_allowed G (is_const bf) = true }.
Record knows (bf : bitfield) (bc : bool) (G : genv) : Prop := {
  k_back : g_back G = store_ty bf;
  k_name : forall f, In f (b_fields bf) -> has_constants f = true -> names_bitfield G (bf_ref bc) = true;
  k_width : forall f, In f (b_fields bf) -> has_constants f = true ->
    g_const G (role_name RWidth (f_name f)) = Some (f_bits f);
  k_offset : forall f, In f (b_fields bf) -> has_constants f = true ->
    g_const G (role_name ROffset (f_name f)) = Some (f_off f);
  k_links : links bf G }.
Lemma k_codec bf bc G : knows bf bc G -> forall f, In f (b_fields bf) -> f_ty f = DCustom ->
  g_codec G (f_name f) = Some (f_codec f).
Proof. intros K. exact (l_codec _ _ (k_links _ _ _ K)). Qed.

(** Static side conditions on a field. *)
Definition small (bf : bitfield) (f : field) : Prop :=
  1 <= f_bits f /\ 0 <= f_off f /\ f_off f + f_bits f <= ty_size (b_ty bf) /\
  (forall len, f_ty f = DArray len -> 0 <= len < 2 ^ 32) /\ codec_ok f.
(** Run time: overflow mode [m], enough fuel. *)
Definition ready (m : mode) (r : rt) : Prop := r_mode r = m /\ 2 ^ 32 < Z.of_nat (r_fuel r).

Lemma int_of_int t : t <> TBool -> int_of (TI t) = Some (negb (ity_unsigned t), ity_bits t).
Proof. destruct t; try reflexivity. congruence. Qed.
Lemma int_of_unsigned t : t <> TBool -> ity_unsigned t = true -> int_of (TI t) = Some (false, ity_bits t).
Proof. intros H1 H2. rewrite int_of_int, H2 by exact H1. reflexivity. Qed.

Lemma wrap_u32 z : 0 <= z < 2 ^ 32 -> wrap (TI U32) z = z.
Proof. intros H. cbn [wrap]. unfold cast. cbn [ity_unsigned ity_bits]. apply Z.mod_small. exact H. Qed.
Lemma wrap_usize z : 0 <= z < 2 ^ 64 -> wrap TUsize z = z.
Proof. intros H. cbn [wrap]. apply Z.mod_small. exact H. Qed.
Lemma wrap_unsigned t z : ity_unsigned t = true -> wrap (TI t) z = ucast (ity_bits t) z.
Proof. intros H. cbn [wrap]. unfold cast. rewrite H. reflexivity. Qed.
Lemma pow_le_32_64 : 2 ^ 32 < 2 ^ 64.
Proof. reflexivity. Qed.

Lemma size_small d : backing_ok d -> ty_size d < 2 ^ 32.
Proof.
  destruct d as [t|n|]; cbn; [|tauto|tauto]. intros [H1 H2]. destruct t; try discriminate; reflexivity.
Qed.

Lemma E_fbits bf bc G C h f : knows bf bc G -> In f (b_fields bf) -> backing_ok (b_ty bf) -> small bf f ->
  elab G C h (fbits bc f) = Some (TI U32, fun _ s => Go (RI (f_bits f)) s).
Proof.
  intros K Hf Hb Hs. unfold fbits. destruct (has_constants f) eqn:E.
  - apply E_const; [eapply k_name | eapply k_width]; eassumption.
  - unfold u32. rewrite E_lit, wrap_u32; [reflexivity|].
    pose proof (size_small _ Hb). unfold small in Hs. lia.
Qed.
Lemma E_foff bf bc G C h f : knows bf bc G -> In f (b_fields bf) -> backing_ok (b_ty bf) -> small bf f ->
  elab G C h (foff bc f) = Some (TI U32, fun _ s => Go (RI (f_off f)) s).
Proof.
  intros K Hf Hb Hs. unfold foff. destruct (has_constants f) eqn:E.
  - apply E_const; [eapply k_name | eapply k_offset]; eassumption.
  - unfold u32. rewrite E_lit, wrap_u32; [reflexivity|].
    pose proof (size_small _ Hb). unfold small in Hs. lia.
Qed.

(** ** Tactics *)

(** Lookups in contexts and states. *)
Ltac nm0 :=
  lazymatch goal with
  | |- String.eqb (home ?b) _ = false => case b; reflexivity
  | |- String.eqb _ (home ?b) = false => case b; reflexivity
  | |- String.eqb ?x ?y = false => first [is_var x; assumption | is_var y; assumption | reflexivity]
  end.
Ltac lk :=
  repeat (rewrite lookup_other by nm0);
  first [apply lookup_same | eassumption].
Lemma int_U8 : int_of (TI U8) = Some (false, 8). Proof. reflexivity. Qed.
Lemma int_U16 : int_of (TI U16) = Some (false, 16). Proof. reflexivity. Qed.
Lemma int_U32 : int_of (TI U32) = Some (false, 32). Proof. reflexivity. Qed.
Lemma int_U64 : int_of (TI U64) = Some (false, 64). Proof. reflexivity. Qed.
Lemma int_U128 : int_of (TI U128) = Some (false, 128). Proof. reflexivity. Qed.
Lemma int_I8 : int_of (TI I8) = Some (true, 8). Proof. reflexivity. Qed.
Lemma int_I16 : int_of (TI I16) = Some (true, 16). Proof. reflexivity. Qed.
Lemma int_I32 : int_of (TI I32) = Some (true, 32). Proof. reflexivity. Qed.
Lemma int_I64 : int_of (TI I64) = Some (true, 64). Proof. reflexivity. Qed.
Lemma int_I128 : int_of (TI I128) = Some (true, 128). Proof. reflexivity. Qed.
Lemma int_usize : int_of TUsize = Some (false, 64). Proof. reflexivity. Qed.
Lemma E_errR G C t0 e : g_ret G = TRes t0 -> elab G C (Some (g_ret G)) (EErr e) = Some (TRes t0, fun _ s => Go (RErr e) s).
Proof. intros ->. apply E_err. Qed.
Ltac ity :=
  first [eassumption | exact int_U32 | exact int_U8 | exact int_usize | exact int_U128 | exact int_I32
        | exact int_U16 | exact int_U64 | exact int_I8 | exact int_I16 | exact int_I64 | exact int_I128].
Ltac teq := first [reflexivity | apply ty_eqb_refl | (rewrite ty_eqb_refl; reflexivity) | eassumption
  | match goal with H : g_ret _ = _ |- _ => rewrite H; apply ty_eqb_refl end].

(** [this.0] or the variable [bits]. *)
Definition source (b bc : bool) : expr := if b then EVar "bits" else val bc.
Definition src_var (b bc : bool) : string := if b then "bits" else home bc.
Lemma place_this_skip G C bc y q R : String.eqb (home bc) y = false ->
  place G C (this bc) = R -> place G ((y, q) :: C) (this bc) = R.
Proof.
  intros H <-. destruct bc; cbn [this place home] in *; rewrite lookup_other by exact H; reflexivity.
Qed.
Lemma place_source_skip G C b bc y q R : String.eqb (src_var b bc) y = false ->
  place G C (source b bc) = R -> place G ((y, q) :: C) (source b bc) = R.
Proof.
  intros H <-. destruct b; cbn [source src_var] in *.
  - cbn [place]. rewrite lookup_other by exact H. reflexivity.
  - unfold val. cbn [place]. erewrite place_this_skip; [reflexivity|exact H|reflexivity].
Qed.

Ltac nm :=
  lazymatch goal with
  | |- String.eqb (home ?b) _ = false => case b; reflexivity
  | |- String.eqb _ (home ?b) = false => case b; reflexivity
  | |- String.eqb (src_var ?b ?c) _ = false => case b; case c; reflexivity
  | |- String.eqb _ (src_var ?b ?c) = false => case b; case c; reflexivity
  | |- String.eqb ?x ?y = false => first [is_var x; assumption | is_var y; assumption | reflexivity]
  end.
Ltac pl :=
  lazymatch goal with
  | |- place _ _ (EVal _) = _ => eapply P_valT; [pl | eassumption]
  | |- place _ _ (EThis _) = _ => first [eassumption | eapply P_this; pl]
  | |- place _ _ (this _) = _ => repeat (eapply place_this_skip; [nm|]); eassumption
  | |- place _ _ (source _ _) = _ => repeat (eapply place_source_skip; [nm|]); eassumption
  | |- place _ _ (EVar _) = _ =>
      first [eassumption | eapply P_var; [lk | reflexivity] | eapply P_ref; lk]
  end.

Ltac opn :=
  cbv beta iota delta [let_ letmut as_ as_any if_ if_else while_ lt incr err u32 usz lit val mask_expr
    mask128 write_bit_stmt].

Ltac el :=
  lazymatch goal with
  | |- elab _ _ _ (ELit _ (Some _)) = _ => apply E_lit
  | |- elab _ _ (Some _) (ELit _ None) = _ => eapply E_litH; ity
  | |- elab _ _ None (ELit _ None) = _ => apply E_litN
  | |- elab _ _ _ (EBool _) = _ => apply E_bool
  | |- elab _ _ _ (EVar _) = _ => eapply E_var; lk
  | |- elab _ _ _ (EMax _) = _ => eapply E_max; ity
  | |- elab _ _ _ (EBits _) = _ => eapply E_bits; ity
  | |- elab _ _ _ (fbits _ _) = _ => eapply E_fbits; eassumption
  | |- elab _ _ _ (foff _ _) = _ => eapply E_foff; eassumption
  | |- elab _ _ _ (EUn UNot _) = _ => first [eapply E_notb; [el] | eapply E_not; [el | ity]]
  | |- elab _ _ _ (EUn UNeg _) = _ => eapply E_neg; ity
  | |- elab _ _ _ (EUn UDeref _) = _ => eapply E_deref; pl
  | |- elab _ _ _ (EBin BAll _ _) = _ => eapply E_all; el
  | |- elab _ _ _ (EBin BAny _ _) = _ => eapply E_any; el
  | |- elab _ _ _ (EBin ?o _ _) = _ =>
      lazymatch eval cbv in (is_shift o) with
      | true => eapply E_shift; [reflexivity | el | el | ity | ity]
      | false =>
          lazymatch eval cbv in (is_compare o) with
          | true => eapply E_compare; [reflexivity | el | ity | el | teq]
          | false => eapply E_arith; [ | el | ity | el | teq]; reflexivity
          end
      end
  | |- elab _ _ _ (ECast _ (Some _)) = _ =>
      first [ eapply E_cast; [ity | cbn [cast_hint]; el | ity] | eapply E_castb; [ity | cbn [cast_hint]; el] ]
  | |- elab _ _ _ (ECast _ None) = _ => eapply E_cast_any; [ity | el | ity]
  | |- elab _ _ _ (EIndex _ _) = _ => eapply E_index; [pl | el | first [eassumption | reflexivity]]
  | |- elab _ _ _ (EVal _) = _ => eapply E_valT; [pl | eassumption | reflexivity]
  | |- elab _ _ _ (EThis _) = _ => eapply E_this; pl
  | |- elab _ _ _ (EIf _ _ _) = _ => eapply E_if; [el | bl | bl | teq]
  | |- elab _ _ _ (EBlock _) = _ => eapply E_block; bl
  | |- elab _ _ _ (ESwap _) = _ => eapply E_swap; [el | ity]
  | |- elab _ _ _ (ELen _) = _ => eapply E_len; [pl | first [eassumption | reflexivity]]
  | |- elab _ _ _ (ERepeat _ _) = _ => eapply E_repeat; el
  | |- elab _ _ _ (EArray _ (Some _)) = _ => apply E_array
  | |- elab _ _ _ EUnit = _ => apply E_unit
  | |- elab _ _ (Some (TRes _)) (EOk _) = _ => eapply E_ok; el
  | |- elab _ _ (Some (TRes _)) (EErr _) = _ => eapply E_err
  | |- elab _ _ (Some (g_ret _)) (EErr _) = _ => eapply E_errR; eassumption
  | |- elab _ _ _ _ = _ => eassumption
  end
with bl :=
  lazymatch goal with
  | |- elab_block _ _ _ (Block [] None) = _ => apply B_unit
  | |- elab_block _ _ _ (Block [] (Some _)) = _ => apply B_tail; el
  | |- elab_block _ _ _ (Block (SLet _ _ None _ :: _) _) = _ => eapply B_let; [reflexivity | el | bl]
  | |- elab_block _ _ _ (Block (SLet _ _ (Some _) _ :: _) _) = _ => eapply B_lett; [el | teq | bl]
  | |- elab_block _ _ _ (Block (_ :: _) _) = _ => eapply B_stmt; [reflexivity | sl | bl]
  | |- elab_block _ _ _ (Block _ _) = _ => eassumption
  end
with sl :=
  lazymatch goal with
  | |- elab_stmt _ _ (SSet (EIndex _ _) _) = _ => eapply S_set_index; [pl | el | first [eassumption | reflexivity] | el | teq]
  | |- elab_stmt _ _ (SSet (EVal _) _) = _ => eapply S_set_valT; [pl | eassumption | el | teq]
  | |- elab_stmt _ _ (SOp _ (EIndex _ _) _) = _ =>
      eapply S_op_index; [pl | el | first [eassumption | reflexivity] | ity | el | teq]
  | |- elab_stmt _ _ (SOp _ (EVar _) _) = _ => eapply S_op_var; [pl | ity | el | teq]
  | |- elab_stmt _ _ (SOp _ (EVal _) _) = _ => eapply S_op_val; [pl | ity | el | teq]
  | |- elab_stmt _ _ (SExpr _) = _ => eapply S_expr; el
  | |- elab_stmt _ _ (SWhile _ _) = _ => eapply S_while; [el | bl]
  | |- elab_stmt _ _ (SReturn (Some _)) = _ => eapply S_return; [el | teq]
  end.

(** Running: unfold the meaning of the rules, keep the arithmetic. *)
Ltac run0 :=
  cbv beta iota zeta delta [d_var d_arith d_if d_op d_while dbind do_arith do_compare do_cast
    arith compare lift get_elem set_elem bind].
Ltac run1 :=
  cbv beta iota zeta delta [d_var d_let d_seq d_arith d_if d_op d_while dbind do_arith do_compare do_cast
    arith compare lift get_elem set_elem bind].
Ltac look :=
  repeat first
    [ rewrite loc_push | rewrite lookup_same | rewrite lookup_other by nm
    | rewrite lookup_store by nm ].
Lemma read_spot_local x s v : lookup x (loc s) = Some v -> read_place (spot x false) s = Go v s.
Proof. intros H. unfold read_place, spot, read. rewrite H. reflexivity. Qed.
Lemma write_spot_local x s v w : lookup x (loc s) = Some v -> write_place (spot x false) w s = Go RU (write (RLoc x) w s).
Proof. intros H. unfold write_place, spot, read. rewrite H. reflexivity. Qed.
Lemma finish_let x d dr r s : finish (d_let x d dr r s) =
  match d r s with
  | Go v s' => finish (dr r (push x v s'))
  | Back v s' => Some (Val (v, mem s'))
  | Fail => Some Panic
  | Stuck => None
  end.
Proof. unfold d_let. destruct (d r s); cbn [dbind]; try reflexivity. apply finish_pop. Qed.
Lemma finish_seq d dr r s : finish (d_seq d dr r s) =
  match d r s with
  | Go v s' => finish (dr r s')
  | Back v s' => Some (Val (v, mem s'))
  | Fail => Some Panic
  | Stuck => None
  end.
Proof. unfold d_seq. destruct (d r s); reflexivity. Qed.
Lemma meets_let e x d dr r s k :
  match d r s with
  | Go v s' => meets e (dr r (push x v s')) k
  | Back v s' => meets e (Back v s') k
  | Fail => meets e Fail k
  | Stuck => False
  end -> meets e (d_let x d dr r s) k.
Proof.
  destruct e as [Q|o]; cbn [meets]; rewrite finish_let; destruct (d r s); auto; contradiction.
Qed.
Lemma meets_seq e d dr r s k :
  match d r s with
  | Go v s' => meets e (dr r s') k
  | Back v s' => meets e (Back v s') k
  | Fail => meets e Fail k
  | Stuck => False
  end -> meets e (d_seq d dr r s) k.
Proof.
  destruct e as [Q|o]; cbn [meets]; rewrite finish_seq; destruct (d r s); auto; contradiction.
Qed.
(** Start of the proof of a fragment. *)
Ltac start :=
  let h := fresh "h" in let rest := fresh "rest" in let tail := fresh "tail" in
  let tr := fresh "tr" in let dr := fresh "dr" in let Hr := fresh "Hr" in
  intros h rest tail tr dr Hr; cbn [app]; opn.
Ltac oc :=
  match goal with
  | |- context [match ?x with Val _ => _ | Panic => _ end] =>
      lazymatch x with
      | context [match _ with _ => _ end] => fail
      | _ => destruct x eqn:?
      end
  end.

(** Sums that do not overflow. *)
Lemma uadd_small m n a b : 0 <= a + b < 2 ^ n -> uadd m n a b = Val (a + b).
Proof.
  intros H. unfold uadd. replace (a + b <? 2 ^ n) with true by (symmetry; apply Z.ltb_lt; lia). reflexivity.
Qed.
Ltac lits :=
  repeat first
    [ progress change (wrap TUsize 0) with 0 | progress change (wrap TUsize 1) with 1 | progress change (wrap TUsize 2) with 2
    | progress change (wrap TUsize 8) with 8 | progress change (wrap (TI U32) 0) with 0 | progress change (wrap (TI U32) 1) with 1
    | progress change (wrap (TI U32) 8) with 8 | progress change (wrap (TI U8) 0) with 0 | progress change (wrap (TI U8) 1) with 1
    | progress change (wrap (TI U128) 0) with 0 | progress change (wrap (TI U128) 1) with 1 | progress change (wrap (TI U128) 255) with 255
    | progress change (wrap (TI U32) 128) with 128
    | progress (change (8 =? 0) with false; change (2 =? 0) with false; cbv iota) ].
Ltac ua := rewrite uadd_small by (pose proof pow_le_32_64; lia).
Ltac am := repeat first [apply Forall_cons; [cbn; tauto|] | apply Forall_nil].
Ltac hs := repeat (apply has_push; [nm|]); first [eassumption | eapply has_store; hs].
Ltac sim1 :=
  first
    [ rewrite loc_push | rewrite lookup_same | rewrite lookup_other by nm | rewrite lookup_store by nm
    | rewrite pop_push | rewrite write_same | rewrite write_other by nm
    | erewrite read_spot_local by (look; reflexivity) | erewrite write_spot_local by (look; reflexivity)
    | erewrite read_has by hs | erewrite write_has by hs | rewrite store_push by nm | rewrite store_store
    | match goal with H : r_mode _ = _ |- _ => rewrite H end
    | match goal with H : lookup _ (loc _) = Some _ |- _ => rewrite H end ].
Ltac sim := run1; lits; repeat (sim1; run1; lits).

(** ** Expressions without effect *)

Definition out {A} (o : outcome A) (Q : A -> st -> Prop) : expect :=
  match o with Val a => Next (Q a) | Panic => Done Panic end.
Definition ev (G : genv) (C : tctx) (h : option ty) (e : expr) (t : ty) (pre : rt -> st -> Prop)
    (F : rt -> st -> outcome value) : Prop :=
  exists d, elab G C h e = Some (t, d) /\ forall r s, pre r s -> d r s = lift (F r s) s.
Lemma frag_ev G C m x e t pre F : open_lit e = None -> ev G C None e t pre F ->
  frag G C [SLet m x None e] ((x, (m, t)) :: C) pre (fun r s => out (F r s) (fun v s' => s' = push x v s)).
Proof.
  intros H0 (d & H1 & H2). eapply frag_let; [exact H0 | exact H1|].
  intros r s Hs. rewrite H2 by exact Hs. destruct (F r s); cbn [lift out]; reflexivity.
Qed.
Lemma ev_weaken G C h e t (pre pre' : rt -> st -> Prop) F F' : ev G C h e t pre F ->
  (forall r s, pre' r s -> pre r s /\ F r s = F' r s) -> ev G C h e t pre' F'.
Proof.
  intros (d & H1 & H2) H. exists d. split; [exact H1|]. intros r s Hs. destruct (H r s Hs) as [Hp <-]. auto.
Qed.

Lemma ev_source G C h b bc i t mu v : place G C (source b bc) = Some (t, mu, spot (src_var b bc) i) ->
  (b = true -> i = false) -> copyable t = true ->
  ev G C h (source b bc) t (fun _ s => has (src_var b bc) i s v) (fun _ _ => Val v).
Proof.
  intros H Hi Hc. destruct b; cbn [source src_var] in *.
  - rewrite (Hi eq_refl) in *. cbn [place] in H.
    destruct (lookup "bits" C) as [[m' t']|] eqn:E; [|discriminate].
    assert (R : is_ref t' = false /\ t' = t).
    { destruct t'; try (inversion H; subst; split; reflexivity). exfalso. inversion H as [[H1 H2 H3]].
      apply (f_equal (fun g => g (mkSt [] []))) in H3. discriminate H3. }
    destruct R as [_ ->]. eexists; split; [eapply E_var; exact E|]. intros r s (q & H1 & H2). inversion H1; subst.
    cbn [read] in H2. unfold d_var. rewrite H2. reflexivity.
  - unfold val in *. cbn [place] in H. destruct (place G C (this bc)) as [[[t' m'] p]|] eqn:E; [|discriminate].
    destruct t'; try discriminate. inversion H; subst. eexists. split; [eapply E_val; [exact E|exact Hc]|].
    intros r s Hs. cbv beta. rewrite (read_has _ _ _ _ Hs). reflexivity.
Qed.

(** GH:611-620 and the same text elsewhere *)
Lemma wrap_byte z : wrap (TI U8) (Z.land z 255) = Z.land z 255.
Proof.
  cbn [wrap]. unfold cast. cbn [ity_unsigned ity_bits]. apply Z.mod_small.
  change 255 with (Z.ones 8). rewrite Z.land_ones by lia. apply Z.mod_pos_bound. reflexivity.
Qed.
Lemma ev_unpack G C h m x e len te q (pre : rt -> Rust.st -> Prop) (F : rt -> Rust.st -> outcome Z) :
  In x ["__int_val"; "__val"] -> int_of te = Some q -> 0 <= len < 2 ^ 32 ->
  (forall r s, pre r s -> ready m r) ->
  ev G C (cast_hint e (TI U128)) e te pre (fun r s => z <- F r s ;; Val (RI z)) ->
  ev G C h (unpack x e len) (TArr U8 len) pre
    (fun r s => z <- F r s ;; l <- unpack_int m len (ucast 128 z) ;; Val (RA l)).
Proof.
  intros Hx Hq Hlen Hr (d & He & Hd). unfold unpack. opn.
  assert (N1 : String.eqb x "__arr" = false) by (destruct Hx as [<-|[<-|[]]]; reflexivity).
  assert (N2 : String.eqb x "__i" = false) by (destruct Hx as [<-|[<-|[]]]; reflexivity).
  eexists. split.
  { eapply E_block. eapply B_let; [reflexivity | eapply E_cast; [ity | exact He | ity] |].
    eapply B_let; [reflexivity | el |]. eapply B_lett; [el | teq |]. eapply B_stmt; [reflexivity | | bl].
    eapply S_while; [el|]. eapply B_stmt; [reflexivity | | bl].
    eapply S_set_index; [pl | el | reflexivity | | teq].
    assert (L : lookup x (("__i", (true, TUsize)) :: ("__arr", (true, TArr U8 len)) :: (x, (false, TI U128)) :: C)
                = Some (false, TI U128)) by (rewrite !lookup_other by assumption; apply lookup_same).
    el. }
  intros r s Hs. destruct (Hr r s Hs) as [Hm Hfu]. unfold d_let at 1. rewrite (Hd r s Hs).
  destruct (F r s) as [z|]; [|reflexivity]. sim. change (wrap (TI U128) z) with (ucast 128 z).
  rewrite (wrap_usize len) by (pose proof pow_le_32_64; lia).
  change (repeat 0 (Z.to_nat len)) with (zeros len).
  rewrite (wloop_while (r_fuel r) _ _
    (fun i l => push "__i" (RI i) (push "__arr" (RA l) (push x (RI (ucast 128 z)) s))) len
    (fun i arr => k <- umul m 64 i 8 ;; y <- shr m 128 (ucast 128 z) k ;; arr_set arr i (Z.land y 255))
    (fun _ => True)); [ | lia | lia | exact I | | ].
  - unfold unpack_int. run1. destruct (while_lt _ _ _); sim; reflexivity.
  - intros i l Hi _. sim. reflexivity.
  - intros i l Hi _. sim.
    repeat (first [ua | oc]; rewrite ?wrap_byte; sim; try reflexivity).
    split; [exact I|]. eauto.
Qed.

(** ** Integer backing *)

(** The argument has the field's type (its range does not matter). *)
Definition shape (f : field) (a : fval) : Prop :=
  match f_ty f, a with
  | DInteger TBool, VBool _ => True
  | DInteger TBool, _ => False
  | DInteger _, VInt _ => True
  | DArray _, VArr _ => True
  | DCustom, VCustom _ => True
  | _, _ => False
  end.

Section Int.
Variables (bf : bitfield) (bc : bool) (G : genv) (m : mode) (T : ity).
Hypothesis Hty : b_ty bf = DInteger T.
Hypothesis Hback : backing_ok (b_ty bf).
Hypothesis K : knows bf bc G.
Let w := ity_bits T.

Lemma int_T : int_of (TI T) = Some (false, ity_bits T).
Proof. rewrite Hty in Hback. destruct Hback as [H1 H2]. apply int_of_unsigned; assumption. Qed.
Lemma back_T : g_back G = TI T.
Proof. rewrite (k_back _ _ _ K). unfold store_ty, is_heap, data_ty, is_integer_backed. rewrite Hty, andb_false_r. reflexivity. Qed.

Lemma ev_mask C h f : In f (b_fields bf) -> small bf f ->
  ev G C h (mask_expr bf (fbits bc f)) (TI T) (fun r _ => ready m r)
    (fun _ _ => z <- mask_int m w (f_bits f) ;; Val (RI z)).
Proof.
  intros Hf Hs. pose proof int_T as IT. unfold mask_expr, data_ity. rewrite Hty.
  eexists. split; [el|]. intros r s [Hm _]. run1. rewrite Hm. unfold mask_int, w. run1.
  repeat oc; reflexivity.
Qed.

(** GH:451-467 with cast_bits = false *)
Lemma frag_extract_src_i C f inv b i mu z : In f (b_fields bf) -> small bf f ->
  place G C (source b bc) = Some (TI T, mu, spot (src_var b bc) i) -> (b = true -> i = false) ->
  frag G C (extract_src_i bf bc inv f (source b bc)) (("value", (false, TI T)) :: ("mask", (false, TI T)) :: C)
    (fun r s => ready m r /\ has (src_var b bc) i s (RI z))
    (fun r s => out (extract_src_int m w f inv z) (fun v s' =>
       exists mk, s' = push "value" (RI v) (push "mask" (RI mk) s))).
Proof.
  intros Hf Hs Hp Hi. pose proof int_T as IT. unfold extract_src_i. start.
  assert (Hc : copyable (TI T) = true) by reflexivity.
  assert (Hp' : place G (("mask", (false, TI T)) :: C) (source b bc) = Some (TI T, mu, spot (src_var b bc) i)) by pl.
  destruct (ev_mask C None f Hf Hs) as (dm & Em & Rm).
  destruct (ev_source G _ None b bc i (TI T) mu (RI z) Hp' Hi Hc) as (ds & Es & Rs).
  destruct inv.
  all: eexists; split; [eapply B_let; [reflexivity | exact Em | bl] |].
  all: intros r s [Hm Hh]; apply meets_let; rewrite Rm by exact Hm; unfold extract_src_int, out; run0.
  all: destruct (mask_int m w (f_bits f)) as [mk|]; [|reflexivity]; apply meets_let; run0.
  all: rewrite Rs by (apply has_push; [nm | exact Hh]); run1.
  all: destruct Hm as [Hm _]; rewrite Hm; fold w; repeat (oc; try reflexivity); look; cbn [meets]; eauto.
Qed.

Lemma size_T : ty_size (b_ty bf) = w.
Proof. rewrite Hty. reflexivity. Qed.
Lemma wrap_T z : wrap (TI T) z = ucast w z.
Proof. rewrite Hty in Hback. destruct Hback as [H1 H2]. apply wrap_unsigned. exact H1. Qed.
Lemma wrap_T0 : wrap (TI T) 0 = 0.
Proof.
  rewrite Hty in Hback. destruct Hback as [H1 H2]. rewrite wrap_unsigned by exact H1. apply Zmod_0_l.
Qed.
Lemma wrap_T1 : wrap (TI T) 1 = 1.
Proof.
  rewrite Hty in Hback. destruct Hback as [H1 H2]. rewrite wrap_unsigned by exact H1.
  destruct T; try discriminate; try reflexivity.
Qed.

(** GH:429-443 *)
Lemma ev_pack C h f len mb l : small bf f -> f_ty f = DArray len ->
  lookup "bits" C = Some (mb, TArr U8 len) ->
  ev G C h (pack bf f len) (TI T) (fun r s => ready m r /\ lookup "bits" (loc s) = Some (RA l))
    (fun _ _ => z <- pack_int m w (pack_len (f_bits f) len) l ;; Val (RI z)).
Proof.
  intros Hs Hf Hl. pose proof int_T as IT. unfold pack, data_ty. rewrite Hty. opn.
  eexists. split; [el|]. intros r s [[Hm Hfu] Hb]. run1. rewrite Hb.
  destruct Hs as (Hs1 & Hs2 & Hs3 & Hs4 & _). specialize (Hs4 _ Hf).
  pose proof (size_small _ Hback).
  assert (Hd : 0 <= Z.min (f_bits f / 8) len < 2 ^ 32).
  { assert (0 <= f_bits f / 8 <= f_bits f) by (split; [apply Z.div_pos; lia | apply Z.div_le_upper_bound; lia]). lia. }
  rewrite wrap_T0. change (wrap TUsize 0) with 0.
  rewrite (wrap_usize (Z.min (f_bits f / 8) len)) by (pose proof pow_le_32_64; lia).
  rewrite (wloop_while (r_fuel r) _ _
    (fun i v => push "__i" (RI i) (push "__v" (RI v) (push "__arr" (RA l) s)))
    (Z.min (f_bits f / 8) len)
    (fun i v => b <- arr_get l i ;; k <- umul m 64 i 8 ;; x <- shl m w (ucast w b) k ;; Val (Z.lor v x))
    (fun _ => True)); [ | lia | lia | exact I | | ].
  - unfold pack_int, pack_len. destruct (while_lt _ _ _); sim; reflexivity.
  - intros i v Hi _. sim. reflexivity.
  - intros i v Hi _. sim. fold w. repeat (first [ua | oc]; rewrite ?wrap_T; sim; try reflexivity).
    split; [exact I|]. eauto.
Qed.
(** GH:417-467 *)
Lemma frag_extract_cast_i C f a mb : In f (b_fields bf) -> small bf f -> shape f a ->
  lookup "bits" C = Some (mb, field_ty f) ->
  frag G C (extract_cast_i bf bc f)
    (("value", (false, TI T)) :: ("bits", (false, TI T)) :: ("mask", (false, TI T)) :: C)
    (fun r s => ready m r /\ lookup "bits" (loc s) = Some (enc_fval a))
    (fun r s => out (extract_cast_int m w f a) (fun q s' =>
       s' = push "value" (RI (snd q)) (push "bits" (RI (fst (fst q))) (push "mask" (RI (snd (fst q))) s)))).
Proof.
  intros Hf Hs Ha Hl. pose proof int_T as IT. unfold extract_cast_i. start.
  destruct (ev_mask C None f Hf Hs) as (dm & Em & Rm).
  assert (Eb : ev G (("mask", (false, TI T)) :: C) None
    (match f_ty f with
     | DCustom => as_ (EIntoBits (V "bits")) (data_ty bf)
     | DArray len => pack bf f len
     | DInteger _ => as_ (V "bits") (data_ty bf)
     end) (TI T)
    (fun r s => ready m r /\ lookup "bits" (loc s) = Some (enc_fval a))
    (fun _ _ => z <- cast_arg_int m w f a ;; Val (RI z))).
  { unfold cast_arg_int, data_ty, field_ty, shape in *. rewrite Hty.
    destruct (f_ty f) as [t|len|] eqn:Ef.
    - opn. destruct t, a; try contradiction; (eexists; split; [el|]; intros r s [Hm Hh]; cbn [enc_fval] in Hh; sim; rewrite ?wrap_T; reflexivity).
    - destruct a; try contradiction. eapply ev_weaken; [eapply ev_pack; [exact Hs | exact Ef | lk]|].
      intros r s Hh. split; [exact Hh | reflexivity].
    - destruct a; try contradiction. opn. destruct Hs as (_ & _ & _ & _ & Hc). destruct (Hc Ef) as [_ Hc2].
      pose proof (k_codec _ _ _ K f Hf Ef). pose proof (int_of_int _ Hc2).
      eexists; split. { eapply E_cast; [ity | cbn [cast_hint]; eapply E_into; [el | eassumption | eassumption] | eassumption]. }
      intros r s [Hm Hh]; cbn [enc_fval] in Hh; sim. rewrite wrap_T. reflexivity. }
  destruct Eb as (db & Eb & Rb).
  eexists; split. { eapply B_let; [reflexivity | exact Em |]. eapply B_let; [| exact Eb |]. 2: bl. destruct (f_ty f); reflexivity. }
  intros r s [Hm Hh]; apply meets_let; rewrite Rm by exact Hm; unfold extract_cast_int, out; run0.
  destruct (mask_int m w (f_bits f)) as [mk|]; [|reflexivity]; apply meets_let; run0.
  rewrite Rb by (split; [exact Hm | look; exact Hh]). destruct (cast_arg_int m w f a) as [z|]; [|reflexivity].
  run0. apply meets_let. sim. cbn [meets]. eexists; split; [reflexivity|]. reflexivity.
Qed.

(** What [e] has to be where [put] takes it. *)
Definition put_arg_i (C : tctx) (f : field) (e : expr) (p : pval) (pre : rt -> Rust.st -> Prop) : Prop :=
  let C1 := ("mask", (false, TI T)) :: C in
  let pre1 r s := exists v s0, s = push "mask" v s0 /\ pre r s0 in
  match f_ty f, p with
  | DInteger TBool, PBool b => ev G C None e (TI TBool) pre (fun _ _ => Val (RB b))
  | DInteger TBool, _ => False
  | DCustom, PCustom t => ev G C1 None e (TUser (f_name f)) pre1 (fun _ _ => Val (RC t))
  | DInteger _, PInt z | DArray _, PInt z =>
      (exists z0, e = lit z0 /\ z = ucast w z0) \/
      (open_lit e = None /\ ev G C1 None e (TI T) pre1 (fun _ _ => Val (RI z)))
  | _, _ => False
  end.

(** The variables that remain. *)
Definition put_ctx_i (f : field) : tctx :=
  match f_ty f with
  | DInteger TBool => []
  | _ => [("field_bits", (false, TI T)); ("mask", (false, TI T))]
  end.

(** GH:701-724 *)
Lemma frag_put_i C f e p i (pre : rt -> Rust.st -> Prop) : In f (b_fields bf) -> small bf f ->
  place G C (this bc) = Some (TSelf, true, spot (home bc) i) -> put_arg_i C f e p pre ->
  forall z,
  frag G C (put bf bc f e) (put_ctx_i f ++ C)%list
    (fun r s => ready m r /\ pre r s /\ has (home bc) i s (RI z))
    (fun r s => out (put_int m w f p z) (fun z' s' =>
       exists L, among ["mask"; "field_bits"] L /\ s' = pushes L (store_at (home bc) i (RI z') s))).
Proof.
  intros Hf Hs Hp He. pose proof int_T as IT. pose proof back_T as HB. unfold put, is_integer_backed. rewrite Hty.
  cbn [negb]. unfold put_arg_i in He.
  assert (Hbool : f_ty f = DInteger TBool \/ (f_ty f <> DInteger TBool)) by
    (destruct (f_ty f) as [[]| |]; [right; discriminate .. | left; reflexivity | right; discriminate | right; discriminate]).
  destruct Hbool as [Ef|Nf].
  { rewrite Ef in *. destruct p as [|b| |]; try contradiction. destruct He as (de & Ee & Re).
    intros z. unfold put_ctx_i. rewrite Ef. start. eexists. split; [bl|].
    intros r s (Hm & Hpre & Hh). destruct Hm as [Hm Hfu]. apply meets_seq. run0. rewrite Re by exact Hpre.
    unfold put_int. rewrite Ef. run0. destruct b; run0.
    all: sim; rewrite wrap_T1; fold w; oc; sim; try reflexivity; cbn [out meets];
      (eexists; split; [exists []; split; [am | reflexivity] | reflexivity]). }
  assert (Hc : put_ctx_i f = [("field_bits", (false, TI T)); ("mask", (false, TI T))]).
  { unfold put_ctx_i. destruct (f_ty f) as [[]| |]; try reflexivity. congruence. }
  intros z. rewrite Hc. clear Hc. cbn [app].
  destruct (ev_mask C None f Hf Hs) as (dm & Em & Rm).
  set (C1 := ("mask", (false, TI T)) :: C) in *.
  set (S := SSet (val bc) ((val bc &! (~! (V "mask" <<! foff bc f))) |! ((V "field_bits" &! V "mask") <<! foff bc f))).
  assert (ES : exists d, elab_stmt G (("field_bits", (false, TI T)) :: C1) S = Some d /\
            forall r s fb mk z, ready m r -> has (home bc) i s (RI z) ->
            d r (push "field_bits" (RI fb) (push "mask" (RI mk) s)) =
            match hole <- shl m w mk (f_off f) ;; new <- shl m w (Z.land fb mk) (f_off f) ;;
                  Val (Z.lor (Z.land z (unot w hole)) new) with
            | Val z' => Go RU (push "field_bits" (RI fb) (push "mask" (RI mk) (store_at (home bc) i (RI z') s)))
            | Panic => Fail
            end).
  { unfold S, C1. opn. eexists. split; [sl|]. intros r s fb mk z0 [Hm _] Hh. sim. fold w.
    repeat (oc; sim; try reflexivity). }
  destruct ES as (dS & ES & RS).
  assert (Main : forall h rest tail tr dr,
    elab_block G (("field_bits", (false, TI T)) :: C1) h (Block rest tail) = Some (tr, dr) ->
    elab_block G (("field_bits", (false, TI T)) :: C1) h (Block (S :: rest) tail) = Some (tr, d_seq dS dr)).
  { intros. eapply B_stmt; [reflexivity | exact ES | assumption]. }
  assert (Sum : exists e2 fb,
    (forall z, put_int m w f p z =
       (mask <- mask_int m w (f_bits f) ;; hole <- shl m w mask (f_off f) ;;
        new <- shl m w (Z.land fb mask) (f_off f) ;; Val (Z.lor (Z.land z (unot w hole)) new))) /\
    match f_ty f with DCustom => as_ (EIntoBits e) (data_ty bf) | _ => e end = e2 /\
    ((exists z0, e2 = lit z0 /\ fb = ucast w z0) \/
     (open_lit e2 = None /\
      ev G C1 None e2 (TI T) (fun r s => exists v s0, s = push "mask" v s0 /\ pre r s0) (fun _ _ => Val (RI fb))))).
  { destruct (f_ty f) as [t|len|] eqn:Ef.
    - assert (He' : match p with PInt z => (exists z0, e = lit z0 /\ z = ucast w z0) \/
         (open_lit e = None /\ ev G C1 None e (TI T) (fun r s => exists v s0, s = push "mask" v s0 /\ pre r s0) (fun _ _ => Val (RI z)))
         | _ => False end) by (destruct t; try exact He; congruence).
      destruct p as [fb| | |]; try contradiction. exists e, fb. split; [|split; [reflexivity | exact He']].
      intros z0. unfold put_int. rewrite Ef. destruct t; try reflexivity. congruence.
    - destruct p as [fb| | |]; try contradiction. exists e, fb. split; [|split; [reflexivity | exact He]].
      intros z0. unfold put_int. rewrite Ef. reflexivity.
    - destruct p as [| | |tc]; try contradiction. eexists _, (ucast w (into_custom f tc)).
      split; [|split; [reflexivity|]]. { intros z0. unfold put_int. rewrite Ef. reflexivity. }
      right. split; [reflexivity|]. destruct He as (de & Ee & Re).
      destruct Hs as (_ & _ & _ & _ & Hc). destruct (Hc Ef) as [_ Hc2].
      pose proof (k_codec _ _ _ K f Hf Ef). pose proof (int_of_int _ Hc2). unfold data_ty. rewrite Hty. opn.
      eexists; split. { eapply E_cast; [ity | cbn [cast_hint]; eapply E_into; [exact Ee | eassumption | eassumption] | eassumption]. }
      intros r s Hpre. sim. rewrite (Re r s Hpre). sim. rewrite wrap_T. reflexivity. }
  destruct Sum as (e2 & fb & Hput & He2 & Hcase).
  match goal with |- frag G C ?ss _ _ _ =>
    assert (Hss : ss = [let_ "mask" (mask_expr bf (fbits bc f)); let_ "field_bits" e2; S]) end.
  { rewrite <- He2. destruct (f_ty f) as [t| |]; [|reflexivity|reflexivity]. destruct t; try reflexivity. congruence. }
  rewrite Hss. clear Hss He2. intros h rest tail tr dr Hr. cbn [app]. opn.
  specialize (Main _ _ _ _ _ Hr).
  assert (Fin : forall r s mk, ready m r -> has (home bc) i s (RI z) -> mask_int m w (f_bits f) = Val mk ->
    meets (out (put_int m w f p z) (fun z' s' =>
       exists L, among ["mask"; "field_bits"] L /\ s' = pushes L (store_at (home bc) i (RI z') s)))
      (d_seq dS dr r (push "field_bits" (RI fb) (push "mask" (RI mk) s))) (dr r)).
  { intros r s mk Hm Hh Emk. apply meets_seq. rewrite (RS r s fb mk z Hm Hh), Hput, Emk. run0.
    repeat (oc; try reflexivity). cbn [out meets]. eexists. split; [|reflexivity].
    eexists [("field_bits", RI fb); ("mask", RI mk)]. split; [am | reflexivity]. }
  destruct Hcase as [(z0 & -> & ->)|(Ho & de & Ee & Re)].
  - eexists. split.
    { eapply B_let; [reflexivity | exact Em |]. fold C1. opn. eapply B_letlit with (t := TI T); [ | | exact Main].
      - unfold candidates. rewrite Hty in Hback. destruct Hback as [H1 H2]. clear - H1 H2.
        destruct T; try discriminate; cbn; tauto.
      - intros t' _ Nt. eapply B_none; [reflexivity|]. unfold S, C1. opn. eapply N_set_val; [exact HB|].
        eapply N_right with (sg := false); [reflexivity | el |]. eapply N_shift; [reflexivity|].
        eapply N_types with (sg := false); [reflexivity | el | el | exact Nt]. }
    intros r s (Hm & Hpre & Hh). apply meets_let. rewrite Rm by exact Hm.
    destruct (mask_int m w (f_bits f)) as [mk|] eqn:Emk; [|rewrite Hput; reflexivity].
    cbn [lift bind]. apply meets_let. rewrite wrap_T. exact (Fin r s mk Hm Hh eq_refl).
  - eexists. split.
    { eapply B_let; [reflexivity | exact Em |]. fold C1. eapply B_let; [exact Ho | exact Ee | exact Main]. }
    intros r s (Hm & Hpre & Hh). apply meets_let. rewrite Rm by exact Hm.
    destruct (mask_int m w (f_bits f)) as [mk|] eqn:Emk; [|rewrite Hput; reflexivity].
    cbn [lift bind]. apply meets_let. rewrite Re by eauto. cbn [lift]. exact (Fin r s mk Hm Hh eq_refl).
Qed.
End Int.
