(** Reasoning about [elab]: one rule per form, states as sequences of [push],
    and the correspondence of the two kinds of loops. *)
From Coq Require Import ZArith List Bool String Lia.
From Verif Require Import RustInt Syntax Rust.
Import ListNotations.
Open Scope string_scope.
Open Scope Z_scope.

(** ** Types *)

Lemma ity_eqb_refl t : ity_eqb t t = true.
Proof. destruct t; reflexivity. Qed.
Lemma ty_eqb_refl t : ty_eqb t t = true.
Proof.
  induction t; cbn [ty_eqb]; rewrite ?ity_eqb_refl, ?Z.eqb_refl, ?String.eqb_refl, ?Bool.eqb_reflx; auto.
Qed.
Lemma ity_eqb_eq a b : ity_eqb a b = true -> a = b.
Proof. destruct a, b; (reflexivity || discriminate). Qed.
Lemma ty_eqb_eq a : forall b, ty_eqb a b = true -> a = b.
Proof.
  induction a; intros []; cbn [ty_eqb]; try discriminate; rewrite ?andb_true_iff; intros H;
    try reflexivity; f_equal; try (apply ity_eqb_eq; tauto); try (apply Z.eqb_eq; tauto);
    try (apply String.eqb_eq; tauto); try (apply Bool.eqb_prop; tauto); auto.
  apply IHa; tauto.
Qed.

(** ** Rules for expressions *)

Section Rules.
Variables (G : genv) (C : tctx).

Lemma E_lit h z t : elab G C h (ELit z (Some t)) = Some (t, fun _ s => Go (RI (wrap t z)) s).
Proof. reflexivity. Qed.
Lemma E_litH t z q : int_of t = Some q ->
  elab G C (Some t) (ELit z None) = Some (t, fun _ s => Go (RI (wrap t z)) s).
Proof. intros H. cbn [elab lit_ty]. rewrite H. reflexivity. Qed.
Lemma E_litN z : elab G C None (ELit z None) = Some (TI I32, fun _ s => Go (RI (wrap (TI I32) z)) s).
Proof. reflexivity. Qed.
Lemma E_bool h b : elab G C h (EBool b) = Some (TI TBool, fun _ s => Go (RB b) s).
Proof. reflexivity. Qed.
Definition d_var (x : string) : den value :=
  fun _ s => match lookup x (loc s) with Some v => Go v s | None => Stuck end.
Lemma E_var h x m t : lookup x C = Some (m, t) -> elab G C h (EVar x) = Some (t, d_var x).
Proof. intros H. cbn [elab]. rewrite H. reflexivity. Qed.
Lemma E_max h t w : int_of (TI t) = Some (false, w) ->
  elab G C h (EMax t) = Some (TI t, fun _ s => Go (RI (umax w)) s).
Proof. intros H. cbn [elab]. rewrite H. reflexivity. Qed.
Lemma E_bits h t sg w : int_of (TI t) = Some (sg, w) ->
  elab G C h (EBits t) = Some (TI U32, fun _ s => Go (RI w) s).
Proof. intros H. cbn [elab]. rewrite H. reflexivity. Qed.
Lemma E_const h p c z : names_bitfield G p = true -> g_const G c = Some z ->
  elab G C h (EConst p c) = Some (TI U32, fun _ s => Go (RI z) s).
Proof. intros H1 H2. cbn [elab]. rewrite H1, H2. reflexivity. Qed.
Lemma E_neg h z t w : int_of t = Some (true, w) ->
  elab G C h (EUn UNeg (ELit z (Some t))) = Some (t, fun _ s => Go (RI (wrap t (- z))) s).
Proof. intros H. cbn [elab lit_ty]. rewrite H. reflexivity. Qed.
Lemma E_not h e t d sg w : elab G C h e = Some (t, d) -> int_of t = Some (sg, w) ->
  elab G C h (EUn UNot e) =
  Some (t, fun r s => dbind (d r s) (fun v s =>
             match v with RI z => Go (RI (if sg then - z - 1 else unot w z)) s | _ => Stuck end)).
Proof. intros H1 H2. cbn [elab]. rewrite H1. destruct t as [[]| | | | | | | | | | |]; try discriminate; rewrite H2; reflexivity. Qed.
Lemma E_notb h e d : elab G C h e = Some (TI TBool, d) ->
  elab G C h (EUn UNot e) =
  Some (TI TBool, fun r s => dbind (d r s) (fun v s =>
             match v with RB b => Go (RB (negb b)) s | _ => Stuck end)).
Proof. intros H1. cbn [elab]. rewrite H1. reflexivity. Qed.
Lemma E_deref h e n m p : place G C e = Some (TBox n, m, p) ->
  elab G C h (EUn UDeref e) = Some (TArr U8 n, fun _ s => read_place p s).
Proof. intros H. cbn [elab]. rewrite H. reflexivity. Qed.
Lemma E_all h a b da db : elab G C None a = Some (TI TBool, da) -> elab G C None b = Some (TI TBool, db) ->
  elab G C h (EBin BAll a b) =
  Some (TI TBool, fun r s => dbind (da r s) (fun v s =>
          match v with RB true => db r s | RB false => Go (RB false) s | _ => Stuck end)).
Proof. intros H1 H2. cbn [elab]. rewrite H1, H2. reflexivity. Qed.
Lemma E_any h a b da db : elab G C None a = Some (TI TBool, da) -> elab G C None b = Some (TI TBool, db) ->
  elab G C h (EBin BAny a b) =
  Some (TI TBool, fun r s => dbind (da r s) (fun v s =>
          match v with RB true => Go (RB true) s | RB false => db r s | _ => Stuck end)).
Proof. intros H1 H2. cbn [elab]. rewrite H1, H2. reflexivity. Qed.
Definition d_arith (sg : bool) (w : Z) (o : bop) (da db : den value) : den value :=
  fun r s => dbind (da r s) (fun x s => dbind (db r s) (fun y s => do_arith (r_mode r) sg w o x y s)).
Lemma E_shift h o a b ta da tb db sg w wb :
  is_shift o = true -> elab G C h a = Some (ta, da) -> elab G C None b = Some (tb, db) ->
  int_of ta = Some (sg, w) -> int_of tb = Some (false, wb) ->
  elab G C h (EBin o a b) = Some (ta, d_arith sg w o da db).
Proof.
  intros Ho Ha Hb Ia Ib. destruct o; try discriminate; cbn [elab is_shift]; rewrite Ha, Hb, Ia, Ib; reflexivity.
Qed.
Lemma E_arith h o a b ta da tb db sg w :
  is_arith sg o = true -> elab G C h a = Some (ta, da) -> int_of ta = Some (sg, w) ->
  elab G C (Some ta) b = Some (tb, db) -> ty_eqb ta tb = true ->
  elab G C h (EBin o a b) = Some (ta, d_arith sg w o da db).
Proof.
  intros Ho Ha Ia Hb E. destruct o; try discriminate; cbn [elab is_shift is_compare];
    rewrite Ha, Ia, Hb, E; rewrite ?Ho; reflexivity.
Qed.
Lemma E_compare h o a b ta da tb db sg w :
  is_compare o = true -> elab G C None a = Some (ta, da) -> int_of ta = Some (sg, w) ->
  elab G C (Some ta) b = Some (tb, db) -> ty_eqb ta tb = true ->
  elab G C h (EBin o a b) =
  Some (TI TBool, fun r s => dbind (da r s) (fun x s => dbind (db r s) (fun y s => do_compare o x y s))).
Proof.
  intros Ho Ha Ia Hb E. destruct o; try discriminate; cbn [elab is_shift is_compare];
    rewrite Ha, Ia, Hb, E; reflexivity.
Qed.
Lemma E_cast h e t te d q q' : int_of t = Some q -> elab G C (cast_hint e t) e = Some (te, d) ->
  int_of te = Some q' ->
  elab G C h (ECast e (Some t)) = Some (t, fun r s => dbind (d r s) (fun v s => do_cast t v s)).
Proof. intros H1 H2 H3. cbn [elab]. rewrite H1, H2, H3. reflexivity. Qed.
Lemma E_castb h e t d q : int_of t = Some q -> elab G C (cast_hint e t) e = Some (TI TBool, d) ->
  elab G C h (ECast e (Some t)) = Some (t, fun r s => dbind (d r s) (fun v s => do_cast t v s)).
Proof. intros H1 H2. cbn [elab]. rewrite H1, H2. reflexivity. Qed.
Lemma E_cast_any e t te d q q' : int_of t = Some q -> elab G C None e = Some (te, d) ->
  int_of te = Some q' ->
  elab G C (Some t) (ECast e None) = Some (t, fun r s => dbind (d r s) (fun v s => do_cast t v s)).
Proof. intros H1 H2 H3. cbn [elab]. rewrite H1, H2, H3. reflexivity. Qed.
Lemma E_index h a i t m p te di : place G C a = Some (t, m, p) -> elab G C (Some TUsize) i = Some (TUsize, di) ->
  elem t = Some te ->
  elab G C h (EIndex a i) = Some (te, fun r s => dbind (di r s) (fun i s => get_elem p i s)).
Proof. intros H1 H2 H3. cbn [elab]. rewrite H1, H2, H3. reflexivity. Qed.
Lemma E_val h a m p : place G C a = Some (TSelf, m, p) -> copyable (g_back G) = true ->
  elab G C h (EVal a) = Some (g_back G, fun _ s => read_place p s).
Proof. intros H1 H2. cbn [elab]. rewrite H1, H2. reflexivity. Qed.
Lemma E_this h a m p : place G C a = Some (TBuilder, m, p) ->
  elab G C h (EThis a) = Some (TSelf, fun _ s => read_place p s).
Proof. intros H1. cbn [elab]. rewrite H1. reflexivity. Qed.
Definition d_if (dc da db : den value) : den value :=
  fun r s => dbind (dc r s) (fun v s => match v with RB true => da r s | RB false => db r s | _ => Stuck end).
Lemma E_if h c a b dc ta da tb db : elab G C None c = Some (TI TBool, dc) ->
  elab_block G C h a = Some (ta, da) -> elab_block G C h b = Some (tb, db) -> ty_eqb ta tb = true ->
  elab G C h (EIf c a b) = Some (ta, d_if dc da db).
Proof. intros H1 H2 H3 H4. cbn [elab]. rewrite H1, H2, H3, H4. reflexivity. Qed.
Lemma E_block h b q : elab_block G C h b = Some q -> elab G C h (EBlock b) = Some q.
Proof. intros H. exact H. Qed.
Lemma E_from h x e cd t d : g_codec G x = Some cd -> elab G C (Some (TI (cd_from_ty cd))) e = Some (t, d) ->
  ty_eqb t (TI (cd_from_ty cd)) = true ->
  elab G C h (EFromBits x e) =
  Some (TUser x, fun r s => dbind (d r s) (fun v s =>
          match v with RI z => Go (RC (cd_from cd z)) s | _ => Stuck end)).
Proof. intros H1 H2 H3. cbn [elab]. rewrite H1, H2, H3. reflexivity. Qed.
Lemma E_into h e x d cd q : elab G C None e = Some (TUser x, d) -> g_codec G x = Some cd ->
  int_of (TI (cd_into_ty cd)) = Some q ->
  elab G C h (EIntoBits e) =
  Some (TI (cd_into_ty cd), fun r s => dbind (d r s) (fun v s =>
          match v with RC t => Go (RI (cast (cd_into_ty cd) (cd_into cd t))) s | _ => Stuck end)).
Proof. intros H1 H2 H3. cbn [elab]. rewrite H1, H2, H3. reflexivity. Qed.
Lemma E_swap h e t d w : elab G C None e = Some (t, d) -> int_of t = Some (false, w) ->
  elab G C h (ESwap e) =
  Some (t, fun r s => dbind (d r s) (fun v s => match v with RI z => Go (RI (swap_bytes w z)) s | _ => Stuck end)).
Proof. intros H1 H2. cbn [elab]. rewrite H1, H2. reflexivity. Qed.
Lemma E_len h e t m p te : place G C e = Some (t, m, p) -> elem t = Some te ->
  elab G C h (ELen e) =
  Some (TUsize, fun _ s => dbind (read_place p s) (fun v s =>
          match v with RA l => Go (RI (Z.of_nat (List.length l))) s | _ => Stuck end)).
Proof. intros H1 H2. cbn [elab]. rewrite H1, H2. reflexivity. Qed.
Definition d_call (p : st -> option root) (f : string) (da : den value) : den value :=
  fun r s => dbind (da r s) (fun v s => dbind (read_place p s) (fun self s =>
    match r_call r f self [v] with
    | Some o => dbind (lift o s) (fun q s => dbind (write_place p (snd q) s) (fun _ s => Go (fst q) s))
    | None => Stuck
    end)).
Lemma E_call h e f a p ta tr cf ta' da : place G C e = Some (TSelf, true, p) ->
  g_fn G f = Some (mkSig ByMut [ta] tr cf) -> elab G C (Some ta) a = Some (ta', da) ->
  ty_eqb ta' ta = true -> const_allowed G cf = true ->
  elab G C h (ECall e f a) = Some (tr, d_call p f da).
Proof. intros H1 H2 H3 H4 H5. cbn [elab]. rewrite H1, H2, H3, H4, H5. reflexivity. Qed.
Lemma E_new h p f tr cf : names_bitfield G p = true -> g_fn G f = Some (mkSig NoRecv [] tr cf) ->
  const_allowed G cf = true ->
  elab G C h (ENew p f) =
  Some (tr, fun r s => match r_call r f RU [] with
                       | Some o => dbind (lift o s) (fun q s => Go (fst q) s)
                       | None => Stuck
                       end).
Proof. intros H1 H2 H3. cbn [elab]. rewrite H1, H2, H3. reflexivity. Qed.
Lemma E_struct h p e t d : names_bitfield G p = true -> elab G C (Some (g_back G)) e = Some (t, d) ->
  ty_eqb t (g_back G) = true -> elab G C h (EStruct p e) = Some (TSelf, d).
Proof. intros H1 H2 H3. cbn [elab]. rewrite H1, H2, H3. reflexivity. Qed.
Lemma E_builder h e d : g_bitfield G = false -> elab G C (Some TSelf) e = Some (TSelf, d) ->
  elab G C h (EBuilder e) = Some (TBuilder, d).
Proof. intros H1 H2. cbn [elab]. rewrite H1, H2. reflexivity. Qed.
Lemma E_box h e n d : g_isconst G = false -> elab G C None e = Some (TArr U8 n, d) ->
  elab G C h (EBox e) = Some (TBox n, d).
Proof. intros H1 H2. cbn [elab]. rewrite H1, H2. reflexivity. Qed.
Lemma E_repeat h e n t d :
  elab G C (match h with Some (TArr t _) => Some (TI t) | _ => None end) e = Some (TI t, d) ->
  elab G C h (ERepeat e n) =
  Some (TArr t n, fun r s => dbind (d r s) (fun v s =>
          match v with RI z => Go (RA (repeat z (Z.to_nat n))) s | _ => Stuck end)).
Proof. intros H. cbn [elab]. rewrite H. reflexivity. Qed.
Lemma E_array h l t : elab G C h (EArray l (Some t)) =
  Some (TArr t (Z.of_nat (List.length l)), fun _ s => Go (RA (map (cast t) l)) s).
Proof. reflexivity. Qed.
Lemma E_unit h : elab G C h EUnit = Some (TUnit, fun _ s => Go RU s).
Proof. reflexivity. Qed.
Lemma E_ok t0 e t d : elab G C (Some t0) e = Some (t, d) ->
  elab G C (Some (TRes t0)) (EOk e) = Some (TRes t, fun r s => dbind (d r s) (fun v s => Go (ROk v) s)).
Proof. intros H. cbn [elab]. rewrite H. reflexivity. Qed.
Lemma E_err t m : elab G C (Some (TRes t)) (EErr m) = Some (TRes t, fun _ s => Go (RErr m) s).
Proof. reflexivity. Qed.
Lemma E_contains h a b x ta da tb db tx dx : elab G C None a = Some (ta, da) -> elab G C None b = Some (tb, db) ->
  elab G C None x = Some (tx, dx) -> ty_eqb ta tb && ty_eqb ta tx && negb (g_isconst G) = true ->
  elab G C h (EContains a b x) =
  Some (TI TBool, fun r s => dbind (da r s) (fun u s => dbind (db r s) (fun v s => dbind (dx r s) (fun w s =>
              match u, v, w with
              | RI u, RI v, RI w => Go (RB ((u <=? w) && (w <? v))) s
              | _, _, _ => Stuck
              end)))).
Proof. intros H1 H2 H3 H4. cbn [elab]. rewrite H1, H2, H3, H4. reflexivity. Qed.

(** ** Rules for places *)

Definition spot (x : string) (isref : bool) (s : st) : option root :=
  if isref then match lookup x (loc s) with Some (RRef c) => Some (RMem c) | _ => None end
  else Some (RLoc x).
Definition is_ref (t : ty) : bool := match t with TRef _ _ => true | _ => false end.
Lemma P_var x m t : lookup x C = Some (m, t) -> is_ref t = false ->
  place G C (EVar x) = Some (t, m, spot x false).
Proof. intros H1 H2. cbn [place]. rewrite H1. destruct t; (reflexivity || discriminate). Qed.
Lemma P_ref x m m' t : lookup x C = Some (m, TRef m' t) ->
  place G C (EVar x) = Some (t, m', spot x true).
Proof. intros H1. cbn [place]. rewrite H1. reflexivity. Qed.
Lemma P_val e m p : place G C e = Some (TSelf, m, p) -> place G C (EVal e) = Some (g_back G, m, p).
Proof. intros H. cbn [place]. rewrite H. reflexivity. Qed.
Lemma P_this e m p : place G C e = Some (TBuilder, m, p) -> place G C (EThis e) = Some (TSelf, m, p).
Proof. intros H. cbn [place]. rewrite H. reflexivity. Qed.

Lemma P_valT e m p t : place G C e = Some (TSelf, m, p) -> g_back G = t -> place G C (EVal e) = Some (t, m, p).
Proof. intros H <-. apply P_val. exact H. Qed.
Lemma E_valT h a m p t : place G C a = Some (TSelf, m, p) -> g_back G = t -> copyable t = true ->
  elab G C h (EVal a) = Some (t, fun _ s => read_place p s).
Proof. intros H1 <- H2. eapply E_val; eassumption. Qed.

(** ** Rules for statements *)

Lemma S_set_index a i e t p te te' di d : place G C a = Some (t, true, p) ->
  elab G C (Some TUsize) i = Some (TUsize, di) -> elem t = Some te ->
  elab G C (Some te) e = Some (te', d) -> ty_eqb te' te = true ->
  elab_stmt G C (SSet (EIndex a i) e) =
  Some (fun r s => dbind (d r s) (fun v s => dbind (di r s) (fun i s => set_elem p i v s))).
Proof. intros H1 H2 H3 H4 H5. cbn [elab_stmt]. rewrite H1, H2, H3, H4, H5. reflexivity. Qed.
Lemma S_set_val a e p te d : place G C a = Some (TSelf, true, p) ->
  elab G C (Some (g_back G)) e = Some (te, d) -> ty_eqb te (g_back G) = true ->
  elab_stmt G C (SSet (EVal a) e) = Some (fun r s => dbind (d r s) (fun v s => write_place p v s)).
Proof. intros H1 H2 H3. cbn [elab_stmt]. rewrite H1, H2, H3. reflexivity. Qed.
Lemma S_op_index o a i e t p te te' di d sg w : place G C a = Some (t, true, p) ->
  elab G C (Some TUsize) i = Some (TUsize, di) -> elem t = Some te -> int_of te = Some (sg, w) ->
  elab G C (Some te) e = Some (te', d) -> ty_eqb te' te && is_arith sg o = true ->
  elab_stmt G C (SOp o (EIndex a i) e) =
  Some (fun r s => dbind (d r s) (fun v s => dbind (di r s) (fun i s =>
          dbind (get_elem p i s) (fun old s =>
            dbind (do_arith (r_mode r) sg w o old v s) (fun x s => set_elem p i x s))))).
Proof. intros H1 H2 H3 H4 H5 H6. cbn [elab_stmt]. rewrite H1, H2, H3, H4, H5, H6. reflexivity. Qed.
Definition d_op (q : st -> option root) (sg : bool) (w : Z) (o : bop) (d : den value) : den value :=
  fun r s => dbind (d r s) (fun v s => dbind (read_place q s) (fun old s =>
          dbind (do_arith (r_mode r) sg w o old v s) (fun x s => write_place q x s))).
Lemma S_op_var o x e t q d te sg w : place G C (EVar x) = Some (t, true, q) -> int_of t = Some (sg, w) ->
  elab G C (Some t) e = Some (te, d) -> ty_eqb te t && is_arith sg o = true ->
  elab_stmt G C (SOp o (EVar x) e) = Some (d_op q sg w o d).
Proof. intros H1 H2 H3 H4. cbn [elab_stmt]. rewrite H1, H2, H3, H4. reflexivity. Qed.
Lemma S_op_val o x e t q d te sg w : place G C (EVal x) = Some (t, true, q) -> int_of t = Some (sg, w) ->
  elab G C (Some t) e = Some (te, d) -> ty_eqb te t && is_arith sg o = true ->
  elab_stmt G C (SOp o (EVal x) e) = Some (d_op q sg w o d).
Proof. intros H1 H2 H3 H4. cbn [elab_stmt]. rewrite H1, H2, H3, H4. reflexivity. Qed.
Lemma S_set_valT a e p t te d : place G C a = Some (TSelf, true, p) -> g_back G = t ->
  elab G C (Some t) e = Some (te, d) -> ty_eqb te t = true ->
  elab_stmt G C (SSet (EVal a) e) = Some (fun r s => dbind (d r s) (fun v s => write_place p v s)).
Proof. intros H1 <- H2 H3. eapply S_set_val; eassumption. Qed.
Lemma S_expr e d : elab G C None e = Some (TUnit, d) -> elab_stmt G C (SExpr e) = Some d.
Proof. intros H1. cbn [elab_stmt]. rewrite H1. reflexivity. Qed.
Definition d_while (dc db : den value) : den value := fun r s => wloop (r_fuel r) (dc r) (db r) s.
Lemma S_while c b dc db : elab G C None c = Some (TI TBool, dc) -> elab_block G C None b = Some (TUnit, db) ->
  elab_stmt G C (SWhile c b) = Some (d_while dc db).
Proof. intros H1 H2. cbn [elab_stmt]. rewrite H1, H2. reflexivity. Qed.
Lemma S_return e t d : elab G C (Some (g_ret G)) e = Some (t, d) -> ty_eqb t (g_ret G) = true ->
  elab_stmt G C (SReturn (Some e)) = Some (fun r s => dbind (d r s) (fun v s => Back v s)).
Proof. intros H1 H2. cbn [elab_stmt]. rewrite H1, H2. reflexivity. Qed.
Lemma S_return0 : g_ret G = TUnit -> elab_stmt G C (SReturn None) = Some (fun _ s => Back RU s).
Proof. intros H1. cbn [elab_stmt]. rewrite H1. reflexivity. Qed.
Lemma S_try e d t : elab G C None e = Some (TRes TUnit, d) -> g_ret G = TRes t ->
  elab_stmt G C (STry e) =
  Some (fun r s => dbind (d r s) (fun v s =>
            match v with ROk _ => Go RU s | RErr m => Back (RErr m) s | _ => Stuck end)).
Proof. intros H1 H2. cbn [elab_stmt]. rewrite H1, H2. reflexivity. Qed.
Lemma S_field x m e p t d : place G C (EVar x) = Some (TFmt, true, p) -> elab G C None e = Some (t, d) ->
  elab_stmt G C (SField x m e) =
  Some (fun r s => dbind (d r s) (fun v s => dbind (read_place p s) (fun w s =>
            match w with RFmt l => write_place p (RFmt (app l [(m, v)])) s | _ => Stuck end))).
Proof. intros H1 H2. cbn [elab_stmt]. rewrite H1, H2. reflexivity. Qed.

(** ** Rules for blocks *)

Lemma B_tail h e q : elab G C h e = Some q -> elab_block G C h (Block [] (Some e)) = Some q.
Proof. intros H. exact H. Qed.
Lemma B_unit h : elab_block G C h (Block [] None) = Some (TUnit, fun _ s => Go RU s).
Proof. reflexivity. Qed.
Definition d_let (x : string) (d dr : den value) : den value :=
  fun r s => dbind (d r s) (fun v s => dbind (dr r (push x v s)) (fun w s => Go w (pop s))).
Lemma B_lett h m x t e rest tail te d tr dr : elab G C (Some t) e = Some (te, d) -> ty_eqb te t = true ->
  elab_block G ((x, (m, t)) :: C) h (Block rest tail) = Some (tr, dr) ->
  elab_block G C h (Block (SLet m x (Some t) e :: rest) tail) = Some (tr, d_let x d dr).
Proof.
  intros H1 H2 H3. cbn [elab_block] in *. rewrite H1, H2, H3. reflexivity.
Qed.
Lemma B_let h m x e rest tail t d tr dr : open_lit e = None -> elab G C None e = Some (t, d) ->
  elab_block G ((x, (m, t)) :: C) h (Block rest tail) = Some (tr, dr) ->
  elab_block G C h (Block (SLet m x None e :: rest) tail) = Some (tr, d_let x d dr).
Proof.
  intros H0 H1 H3. cbn [elab_block] in *. rewrite H0, H1, H3. reflexivity.
Qed.
(** A literal whose type is fixed by later uses: [usize]. *)
Definition is_letb (s : stmt) : bool := match s with SLet _ _ _ _ => true | _ => false end.
Definition d_seq (d dr : den value) : den value := fun r s => dbind (d r s) (fun _ s => dr r s).
Lemma B_stmt h s rest tail d tr dr : is_letb s = false -> elab_stmt G C s = Some d ->
  elab_block G C h (Block rest tail) = Some (tr, dr) ->
  elab_block G C h (Block (s :: rest) tail) = Some (tr, d_seq d dr).
Proof.
  intros H0 H1 H2. cbn [elab_block] in *.
  destruct s; try discriminate; rewrite H1; rewrite H2; reflexivity.
Qed.

(** ** Rejected programs *)

Lemma N_set_val a e t : g_back G = t -> elab G C (Some t) e = None -> elab_stmt G C (SSet (EVal a) e) = None.
Proof.
  intros <- H. cbn [elab_stmt]. rewrite H. destruct (place G C a) as [[[t m] p]|]; [|reflexivity].
  destruct t; try reflexivity. destruct m; reflexivity.
Qed.
Lemma N_shift h o a b : is_shift o = true -> elab G C h a = None -> elab G C h (EBin o a b) = None.
Proof. intros Ho H. destruct o; try discriminate; cbn [elab is_shift]; rewrite H; reflexivity. Qed.
Lemma N_right h o sg a b ta da : is_arith sg o = true -> elab G C h a = Some (ta, da) -> elab G C (Some ta) b = None ->
  elab G C h (EBin o a b) = None.
Proof.
  intros Ho Ha H. destruct o; try discriminate; cbn [elab is_shift is_compare]; rewrite Ha, H;
    destruct (int_of ta) as [[]|]; reflexivity.
Qed.
Lemma N_types h o sg a b ta da tb db : is_arith sg o = true -> elab G C h a = Some (ta, da) ->
  elab G C (Some ta) b = Some (tb, db) -> ta <> tb -> elab G C h (EBin o a b) = None.
Proof.
  intros Ho Ha Hb N.
  assert (E : ty_eqb ta tb = false).
  { destruct (ty_eqb ta tb) eqn:E; [|reflexivity]. apply ty_eqb_eq in E. contradiction. }
  destruct o; try discriminate; cbn [elab is_shift is_compare]; rewrite Ha, Hb, E;
    destruct (int_of ta) as [[]|]; reflexivity.
Qed.
End Rules.

(** ** States *)

Lemma loc_push x v s : loc (push x v s) = (x, v) :: loc s.
Proof. reflexivity. Qed.
Lemma lookup_same {A} x (v : A) l : lookup x ((x, v) :: l) = Some v.
Proof. cbn [lookup]. rewrite String.eqb_refl. reflexivity. Qed.
Lemma lookup_other {A} x y (v : A) l : String.eqb x y = false -> lookup x ((y, v) :: l) = lookup x l.
Proof. intros H. cbn [lookup]. rewrite H. reflexivity. Qed.
Lemma pop_push x v s : pop (push x v s) = s.
Proof. destruct s. reflexivity. Qed.
Lemma mem_push x v s : mem (push x v s) = mem s.
Proof. reflexivity. Qed.
Lemma write_same x v w s : write (RLoc x) w (push x v s) = push x w s.
Proof. unfold write, push. cbn [loc mem update]. rewrite String.eqb_refl. reflexivity. Qed.
Lemma write_other x y v w s : String.eqb x y = false ->
  write (RLoc x) w (push y v s) = push y v (write (RLoc x) w s).
Proof. intros H. unfold write, push. cbn [loc mem update]. rewrite H. reflexivity. Qed.

(** Storage: the variable [x] holds it, or ([isref]) refers to it. *)
Definition has (x : string) (isref : bool) (s : st) (v : value) : Prop :=
  exists q, spot x isref s = Some q /\ read q s = Some v.
Definition store_at (x : string) (isref : bool) (v : value) (s : st) : st :=
  match spot x isref s with Some q => write q v s | None => s end.

Lemma lookup_update_same {A} x (v w : A) l : lookup x l = Some w -> lookup x (update x v l) = Some v.
Proof.
  induction l as [|[y u] l IH]; cbn [lookup update]; [discriminate|].
  destruct (String.eqb x y) eqn:E; cbn [lookup]; rewrite E; auto.
Qed.
Lemma lookup_update_other {A} x y (v : A) l : String.eqb x y = false ->
  lookup x (update y v l) = lookup x l.
Proof.
  intros H. induction l as [|[z u] l IH]; cbn [lookup update]; [reflexivity|].
  destruct (String.eqb y z) eqn:E; cbn [lookup].
  - apply String.eqb_eq in E. subst. rewrite H. reflexivity.
  - rewrite IH. reflexivity.
Qed.

Lemma read_has x i s v : has x i s v -> read_place (spot x i) s = Go v s.
Proof. intros (q & H1 & H2). unfold read_place. rewrite H1, H2. reflexivity. Qed.
Lemma write_has x i s v w : has x i s v -> write_place (spot x i) w s = Go RU (store_at x i w s).
Proof. intros (q & H1 & H2). unfold write_place, store_at. rewrite H1, H2. reflexivity. Qed.
Lemma spot_push x i y v s : String.eqb x y = false -> spot x i (push y v s) = spot x i s.
Proof. intros H. destruct i; [|reflexivity]. unfold spot. rewrite loc_push, lookup_other by exact H. reflexivity. Qed.
Lemma has_push x i y v w s : String.eqb x y = false -> has x i s w -> has x i (push y v s) w.
Proof.
  intros H (q & H1 & H2). exists q. split; [rewrite spot_push; assumption|].
  destruct q as [z|z]; cbn [read] in *; [|exact H2].
  assert (z = x). { destruct i; cbn [spot] in H1; [destruct (lookup x (loc s)) as [[]|]|]; congruence. }
  subst. rewrite loc_push, lookup_other by exact H. exact H2.
Qed.
Lemma store_push x i y v w s : String.eqb x y = false ->
  store_at x i w (push y v s) = push y v (store_at x i w s).
Proof.
  intros H. unfold store_at. rewrite spot_push by exact H.
  destruct (spot x i s) as [[z|z]|] eqn:E; [|reflexivity|reflexivity].
  assert (z = x). { destruct i; cbn [spot] in E; [destruct (lookup x (loc s)) as [[]|]|]; congruence. }
  subst. apply write_other. exact H.
Qed.
Lemma has_store x i s v w : has x i s v -> has x i (store_at x i w s) w.
Proof.
  intros (q & H1 & H2). unfold has, store_at. rewrite H1. destruct q as [z|z]; cbn [read] in *.
  - assert (z = x /\ i = false) as [-> ->].
    { destruct i; cbn [spot] in H1; [destruct (lookup x (loc s)) as [[]|]|]; split; congruence. }
    exists (RLoc x). split; [reflexivity|]. cbn [read write loc]. eapply lookup_update_same; eassumption.
  - exists (RMem z). split.
    + destruct i; cbn [spot] in *; [exact H1|discriminate].
    + cbn [read write mem]. eapply lookup_update_same; eassumption.
Qed.
Lemma lookup_store x i v y s : String.eqb y x = false -> lookup y (loc (store_at x i v s)) = lookup y (loc s).
Proof.
  intros H. unfold store_at. destruct (spot x i s) as [[z|z]|] eqn:E; try reflexivity.
  assert (z = x). { destruct i; cbn [spot] in E; [destruct (lookup x (loc s)) as [[]|]|]; congruence. }
  subst. cbn [write loc]. apply lookup_update_other. exact H.
Qed.
Lemma store_store x i v w s : store_at x i w (store_at x i v s) = store_at x i w s.
Proof.
  assert (U : forall (l : env), update x w (update x v l) = update x w l).
  { induction l as [|[y u] l IH]; cbn [update]; [reflexivity|].
    destruct (String.eqb x y) eqn:E; cbn [update]; rewrite E; [reflexivity|]. rewrite IH. reflexivity. }
  assert (U' : forall c (l : env), update c w (update c v l) = update c w l).
  { intros c. induction l as [|[y u] l IH]; cbn [update]; [reflexivity|].
    destruct (String.eqb c y) eqn:E; cbn [update]; rewrite E; [reflexivity|]. rewrite IH. reflexivity. }
  unfold store_at. destruct i; cbn [spot].
  - destruct (lookup x (loc s)) as [[]|] eqn:E; try rewrite E; try reflexivity.
    cbn [write loc mem]. rewrite E. cbn [write loc mem]. rewrite U'. reflexivity.
  - cbn [write loc mem]. rewrite U. reflexivity.
Qed.

(** ** Loops *)

(** [while i < bound { body; i += 1 }] and [while_lt]: [mk i x] is the state with
    counter [i] and loop variables [x]. *)
Lemma wloop_loop {X} (fuel : nat) (c b : st -> ans value) (mk : Z -> X -> st) (bound : Z)
    (body : Z -> X -> outcome X) (I : X -> Prop) :
  (forall i x, 0 <= i <= bound -> I x -> c (mk i x) = Go (RB (i <? bound)) (mk i x)) ->
  (forall i x, 0 <= i < bound -> I x ->
     match body i x with
     | Val x' => I x' /\ exists v, b (mk i x) = Go v (mk (i + 1) x')
     | Panic => b (mk i x) = Fail
     end) ->
  forall n i x, (n < fuel)%nat -> 0 <= i -> i + Z.of_nat n = bound -> I x ->
  wloop fuel c b (mk i x) =
  match loop n i body x with Val x' => Go RU (mk bound x') | Panic => Fail end.
Proof.
  intros Hc Hb. revert fuel. intros fuel n. revert fuel.
  induction n as [|n IH]; intros fuel i x Hf Hi Hn HI; (destruct fuel as [|fuel]; [lia|]);
    cbn [wloop loop]; rewrite Hc by (auto; lia); cbn [dbind].
  - replace i with bound by lia. rewrite Z.ltb_irrefl. reflexivity.
  - replace (i <? bound) with true by (symmetry; apply Z.ltb_lt; lia).
    specialize (Hb i x ltac:(lia) HI). unfold bind. destruct (body i x) as [x'|].
    + destruct Hb as (HI' & v & Hb). rewrite Hb. cbn [dbind]. apply IH; auto; lia.
    + rewrite Hb. reflexivity.
Qed.
Lemma wloop_while {X} (fuel : nat) (c b : st -> ans value) (mk : Z -> X -> st) (bound : Z)
    (body : Z -> X -> outcome X) (I : X -> Prop) x :
  0 <= bound -> bound < Z.of_nat fuel -> I x ->
  (forall i x, 0 <= i <= bound -> I x -> c (mk i x) = Go (RB (i <? bound)) (mk i x)) ->
  (forall i x, 0 <= i < bound -> I x ->
     match body i x with
     | Val x' => I x' /\ exists v, b (mk i x) = Go v (mk (i + 1) x')
     | Panic => b (mk i x) = Fail
     end) ->
  wloop fuel c b (mk 0 x) =
  match while_lt bound body x with Val x' => Go RU (mk bound x') | Panic => Fail end.
Proof. intros H0 H1 HI Hc Hb. apply wloop_loop with (I := I); auto; lia. Qed.

(** Loops that may return early. *)
Lemma wloop_loop_find {R} (fuel : nat) (c b : st -> ans value) (mk : Z -> st) (bound : Z)
    (body : Z -> outcome (option R)) (rv : value) (s : st) :
  (forall i, 0 <= i <= bound -> c (mk i) = Go (RB (i <? bound)) (mk i)) ->
  (forall i, 0 <= i < bound ->
     match body i with
     | Val None => exists v, b (mk i) = Go v (mk (i + 1))
     | Val (Some _) => exists s', b (mk i) = Back rv s' /\ mem s' = mem s
     | Panic => b (mk i) = Fail
     end) ->
  forall n i, (n < fuel)%nat -> 0 <= i -> i + Z.of_nat n = bound ->
  match loop_find n i body with
  | Val None => wloop fuel c b (mk i) = Go RU (mk bound)
  | Val (Some _) => exists s', wloop fuel c b (mk i) = Back rv s' /\ mem s' = mem s
  | Panic => wloop fuel c b (mk i) = Fail
  end.
Proof.
  intros Hc Hb. revert fuel. intros fuel n. revert fuel.
  induction n as [|n IH]; intros fuel i Hf Hi Hn; (destruct fuel as [|fuel]; [lia|]);
    cbn [wloop loop_find]; rewrite Hc by (auto; lia); cbn [dbind].
  - replace i with bound by lia. rewrite Z.ltb_irrefl. reflexivity.
  - replace (i <? bound) with true by (symmetry; apply Z.ltb_lt; lia).
    specialize (Hb i ltac:(lia)). unfold bind. destruct (body i) as [[y|]|].
    + destruct Hb as (s' & Hb & M). rewrite Hb. cbn [dbind]. eauto.
    + destruct Hb as (v & Hb). rewrite Hb. cbn [dbind]. apply IH; lia.
    + rewrite Hb. reflexivity.
Qed.

(** Leaving a scope does not change the result of the function. *)
Lemma finish_pop (x : ans value) : finish (dbind x (fun w s => Go w (pop s))) = finish x.
Proof. destruct x; reflexivity. Qed.

(** ** Sequences of [push] *)

Fixpoint pushes (l : list (string * value)) (s : st) : st :=
  match l with [] => s | (x, v) :: l => push x v (pushes l s) end.
Definition among {A} (xs : list string) (l : list (string * A)) : Prop :=
  Forall (fun p => In (fst p) xs) l.

Lemma pushes_app l1 l2 s : pushes l1 (pushes l2 s) = pushes (l1 ++ l2) s.
Proof. induction l1 as [|[x v] l1 IH]; cbn [pushes app]; [reflexivity|]. rewrite IH. reflexivity. Qed.
Lemma mem_pushes l s : mem (pushes l s) = mem s.
Proof. induction l as [|[x v] l IH]; cbn [pushes]; [reflexivity|]. rewrite mem_push. exact IH. Qed.
Lemma eqb_not_in x y xs : ~ In x xs -> In y xs -> String.eqb x y = false.
Proof. intros H1 H2. destruct (String.eqb x y) eqn:E; [|reflexivity]. apply String.eqb_eq in E. subst. contradiction. Qed.
Lemma lookup_pushes xs x l s : among xs l -> ~ In x xs -> lookup x (loc (pushes l s)) = lookup x (loc s).
Proof.
  intros H N. induction H as [|[y v] l H1 H2 IH]; cbn [pushes]; [reflexivity|].
  rewrite loc_push, lookup_other by (eapply eqb_not_in; eassumption). exact IH.
Qed.
Lemma lookup_among {A} xs x (l C : list (string * A)) : among xs l -> ~ In x xs -> lookup x (app l C) = lookup x C.
Proof.
  intros H N. induction H as [|[y v] l H1 H2 IH]; cbn [app]; [reflexivity|].
  rewrite lookup_other by (eapply eqb_not_in; eassumption). exact IH.
Qed.
Lemma has_pushes xs x i l s v : among xs l -> ~ In x xs -> has x i s v -> has x i (pushes l s) v.
Proof.
  intros H N Hs. induction H as [|[y w] l H1 H2 IH]; cbn [pushes]; [exact Hs|].
  apply has_push; [eapply eqb_not_in; eassumption|exact IH].
Qed.
Lemma store_pushes xs x i l s v : among xs l -> ~ In x xs ->
  store_at x i v (pushes l s) = pushes l (store_at x i v s).
Proof.
  intros H N. induction H as [|[y w] l H1 H2 IH]; cbn [pushes]; [reflexivity|].
  rewrite store_push by (eapply eqb_not_in; eassumption). rewrite IH. reflexivity.
Qed.
Lemma update_id {A} x (v : A) l : lookup x l = Some v -> update x v l = l.
Proof.
  induction l as [|[y u] l IH]; cbn [lookup update]; [discriminate|].
  destruct (String.eqb x y) eqn:E; [congruence|]. intros H. rewrite IH by exact H. reflexivity.
Qed.
Lemma store_id x i s v : has x i s v -> store_at x i v s = s.
Proof.
  intros (q & H1 & H2). unfold store_at. rewrite H1. destruct s as [L M].
  destruct q; cbn [read write loc mem] in *; rewrite update_id by exact H2; reflexivity.
Qed.

(** ** Fragments of blocks *)

(** What is expected of a fragment: to go on in a state with [Q], or that the
    function ends with [o]. *)
Inductive expect := Next (Q : st -> Prop) | Done (o : outcome (value * env)).
Definition meets (e : expect) (x : ans value) (k : st -> ans value) : Prop :=
  match e with
  | Next Q => exists s, Q s /\ finish x = finish (k s)
  | Done o => finish x = Some o
  end.
(** The statements [ss] can be put before any rest of a block that is well typed
    in [C']. *)
Definition frag (G : genv) (C : tctx) (ss : list stmt) (C' : tctx)
    (pre : rt -> st -> Prop) (post : rt -> st -> expect) : Prop :=
  forall h rest tail tr dr, elab_block G C' h (Block rest tail) = Some (tr, dr) ->
  exists d, elab_block G C h (Block (ss ++ rest) tail) = Some (tr, d) /\
  forall r s, pre r s -> meets (post r s) (d r s) (dr r).
Definition refines (e e' : expect) : Prop :=
  match e, e' with
  | Next Q, Next Q' => forall s, Q s -> Q' s
  | Done o, Done o' => o = o'
  | _, _ => False
  end.
Lemma refines_ok e e' x k : refines e e' -> meets e x k -> meets e' x k.
Proof. destruct e, e'; cbn; try contradiction; [intros H (s & H1 & H2); eauto | congruence]. Qed.
Lemma frag_nil G C pre : frag G C [] C pre (fun r s => Next (fun s' => s' = s)).
Proof. intros h rest tail tr dr H. exists dr. split; [exact H|]. intros r s _. cbn. eauto. Qed.
Lemma frag_weaken G C ss C' (pre pre' : rt -> st -> Prop) post post' :
  frag G C ss C' pre post -> (forall r s, pre' r s -> pre r s /\ refines (post r s) (post' r s)) ->
  frag G C ss C' pre' post'.
Proof.
  intros H Hw h rest tail tr dr Hr. destruct (H h rest tail tr dr Hr) as (d & H1 & H2).
  exists d. split; [exact H1|]. intros r s Hs. destruct (Hw r s Hs) as [Hp Hq].
  eapply refines_ok; eauto.
Qed.
Lemma frag_app {A} (a0 : A) G C ss1 C1 ss2 C2 pre1 post1 (pre2 : A -> rt -> st -> Prop) post2
    (pre : rt -> st -> Prop) post :
  frag G C ss1 C1 pre1 post1 -> (forall a, frag G C1 ss2 C2 (pre2 a) (post2 a)) ->
  (forall r s, pre r s -> pre1 r s /\
     match post1 r s with
     | Next Q => forall s1, Q s1 -> exists a, pre2 a r s1 /\ refines (post2 a r s1) (post r s)
     | Done o => post r s = Done o
     end) ->
  frag G C (ss1 ++ ss2) C2 pre post.
Proof.
  intros H1 H2 Hw h rest tail tr dr Hr.
  destruct (H2 a0 h rest tail tr dr Hr) as (d2 & E2 & _).
  destruct (H1 h (ss2 ++ rest)%list tail tr d2 E2) as (d1 & E1 & R1).
  exists d1. split; [rewrite <- app_assoc; exact E1|].
  intros r s Hs. destruct (Hw r s Hs) as [Hp Hq]. specialize (R1 r s Hp).
  destruct (post1 r s) as [Q|o].
  - destruct R1 as (s1 & HQ & E). destruct (Hq s1 HQ) as (a & Hp2 & Hf).
    destruct (H2 a h rest tail tr dr Hr) as (d2' & E2' & R2).
    rewrite E2 in E2'. inversion E2'; subst d2'. specialize (R2 r s1 Hp2).
    eapply refines_ok; [exact Hf|]. destruct (post2 a r s1); cbn in *; rewrite E; exact R2.
  - rewrite Hq. exact R1.
Qed.
(** A fragment made of one expression statement or one [let]. *)
Lemma frag_let G C m x e t d : open_lit e = None -> elab G C None e = Some (t, d) ->
  forall (pre : rt -> Rust.st -> Prop) (post : rt -> st -> expect),
  (forall r s, pre r s ->
     match d r s with
     | Go v s' => match post r s with Next Q => Q (push x v s') | Done _ => False end
     | Back v s' => post r s = Done (Val (v, mem s'))
     | Fail => post r s = Done Panic
     | Stuck => False
     end) ->
  frag G C [SLet m x None e] ((x, (m, t)) :: C) pre post.
Proof.
  intros H0 H1 pre post Hp h rest tail tr dr Hr. eexists. split; [eapply B_let; eassumption|].
  intros r s Hs. specialize (Hp r s Hs). unfold d_let. destruct (d r s) as [v s'|v s'| |]; cbn [dbind].
  - destruct (post r s); [|contradiction]. cbn. exists (push x v s'). split; [exact Hp|apply finish_pop].
  - rewrite Hp. reflexivity.
  - rewrite Hp. reflexivity.
  - contradiction.
Qed.
Lemma frag_lett G C m x t e te d : elab G C (Some t) e = Some (te, d) -> ty_eqb te t = true ->
  forall (pre : rt -> Rust.st -> Prop) (post : rt -> st -> expect),
  (forall r s, pre r s ->
     match d r s with
     | Go v s' => match post r s with Next Q => Q (push x v s') | Done _ => False end
     | Back v s' => post r s = Done (Val (v, mem s'))
     | Fail => post r s = Done Panic
     | Stuck => False
     end) ->
  frag G C [SLet m x (Some t) e] ((x, (m, t)) :: C) pre post.
Proof.
  intros H0 H1 pre post Hp h rest tail tr dr Hr. eexists. split; [eapply B_lett; eassumption|].
  intros r s Hs. specialize (Hp r s Hs). unfold d_let. destruct (d r s) as [v s'|v s'| |]; cbn [dbind].
  - destruct (post r s); [|contradiction]. cbn. exists (push x v s'). split; [exact Hp|apply finish_pop].
  - rewrite Hp. reflexivity.
  - rewrite Hp. reflexivity.
  - contradiction.
Qed.
Lemma frag_stmt G C st d : is_letb st = false -> elab_stmt G C st = Some d ->
  forall (pre : rt -> Rust.st -> Prop) (post : rt -> Rust.st -> expect),
  (forall r s, pre r s ->
     match d r s with
     | Go v s' => match post r s with Next Q => Q s' | Done _ => False end
     | Back v s' => post r s = Done (Val (v, mem s'))
     | Fail => post r s = Done Panic
     | Stuck => False
     end) ->
  frag G C [st] C pre post.
Proof.
  intros H0 H1 pre post Hp h rest tail tr dr Hr. eexists. split; [eapply B_stmt; eassumption|].
  intros r s Hs. specialize (Hp r s Hs). unfold d_seq. destruct (d r s) as [v s'|v s'| |]; cbn [dbind].
  - destruct (post r s); [|contradiction]. cbn. exists s'. split; [exact Hp|reflexivity].
  - rewrite Hp. reflexivity.
  - rewrite Hp. reflexivity.
  - contradiction.
Qed.

(** ** Literals whose type is determined by a later statement *)

Lemma B_none G C h s rest tail : is_letb s = false -> elab_stmt G C s = None ->
  elab_block G C h (Block (s :: rest) tail) = None.
Proof. intros H0 H1. cbn [elab_block]. destruct s; try discriminate; rewrite H1; reflexivity. Qed.

Lemma first_some_only {A B} (f : A -> option B) (l : list A) a b : In a l -> f a = Some b ->
  (forall a', In a' l -> a' <> a -> f a' = None) -> (forall x y : A, {x = y} + {x <> y}) ->
  first_some f l = Some b.
Proof.
  intros Hi Ha Hn dec. induction l as [|c l IH]; [contradiction|]. cbn [first_some].
  destruct (dec c a) as [->|N].
  - rewrite Ha. reflexivity.
  - rewrite Hn by (cbn; auto). apply IH; [destruct Hi; [congruence|assumption]|]. intros a' H. apply Hn. right. exact H.
Qed.
Lemma ty_dec (x y : ty) : {x = y} + {x <> y}.
Proof. repeat decide equality. Qed.

Definition candidates : list ty := app (map TI [I32; U8; U16; U32; U64; U128; I8; I16; I64; I128]) [TUsize].
Lemma B_letlit G C h m x z rest tail t tr dr : In t candidates ->
  (forall t', In t' candidates -> t' <> t -> elab_block G ((x, (m, t')) :: C) h (Block rest tail) = None) ->
  elab_block G ((x, (m, t)) :: C) h (Block rest tail) = Some (tr, dr) ->
  elab_block G C h (Block (SLet m x None (ELit z None) :: rest) tail) =
  Some (tr, d_let x (fun _ s => Go (RI (wrap t z)) s) dr).
Proof.
  intros Hi Hn Hr. cbn [elab_block open_lit] in *.
  assert (Hc : forall t, In t candidates -> elab G C (Some t) (ELit z None) = Some (t, fun _ s => Go (RI (wrap t z)) s)).
  { intros u Hu. cbn [elab lit_ty]. cbn in Hu. decompose [or] Hu; subst; try reflexivity; contradiction. }
  apply first_some_only with (a := t); [exact Hi| | |exact ty_dec].
  - cbv beta. rewrite Hc by exact Hi. rewrite ty_eqb_refl, Hr. reflexivity.
  - intros t' Ht Hne. cbv beta. rewrite Hc by exact Ht. rewrite ty_eqb_refl, Hn by assumption. reflexivity.
Qed.
