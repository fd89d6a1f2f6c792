(** The emitted code (C59, C60): it type checks, and it behaves as the
    specification of Hist.v says. *)
From Coq Require Import ZArith List Bool String Lia.
From Verif Require Import RustInt Syntax GenInt GenArr Spec BitsLemmas CoreLemmas Rust RustLemmas Surface Emit EmitVocab
  EmitLemmas EmitArr EmitArrPut EmitField EmitDefault EmitFns EmitRead EmitNew EmitConv EmitData EmitSlice EmitTrait
  EmitGuard EmitBit EmitProt EmitLoop EmitRange EmitBuilder EmitDebug SpecEmit EmitStep.
From Verif Require Gen Hist PropParse PropCompose PropConv PropDebug ConstExpr PropHist PropRefine PropLossy Parser ParserLoop SurfaceLemmas PropSurface PropNames SpecSurface Words Examples.
Import ListNotations.
Open Scope string_scope.
Open Scope list_scope.
Open Scope Z_scope.

(** ** The names of the emitted items are those of Surface.v *)

Lemma names_seg b l : map it_name (SurfaceLemmas.seg b l) = if b then map it_name l else [].
Proof. destruct b; reflexivity. Qed.
Lemma names_whole bf l : map it_name (whole bf l) = l.
Proof. unfold whole. rewrite map_map. apply map_id. Qed.
Lemma map_flat {A B C} (g : B -> C) (h : A -> list B) l : map g (flat_map h l) = flat_map (fun x => map g (h x)) l.
Proof. induction l; cbn; [reflexivity|]. rewrite map_app. congruence. Qed.
Lemma names_made1 ro v fs : map it_name (SurfaceLemmas.made_all [(ro, v)] fs) = map (fun f => role_name ro (f_name f)) fs.
Proof. unfold SurfaceLemmas.made_all. rewrite map_flat. induction fs as [|f fs IH]; [reflexivity|]. cbn [flat_map map app fst snd SurfaceLemmas.made it_name] in *. rewrite IH. reflexivity. Qed.
Lemma names_made2 r1 v1 r2 v2 fs : map it_name (SurfaceLemmas.made_all [(r1, v1); (r2, v2)] fs) =
  flat_map (fun f => [role_name r1 (f_name f); role_name r2 (f_name f)]) fs.
Proof. unfold SurfaceLemmas.made_all. rewrite map_flat. reflexivity. Qed.
Lemma names_opt b l : map fn_name (opt b l) = if b then map fn_name l else [].
Proof. destruct b; reflexivity. Qed.

Lemma conversion_fn_names dx bf : map fn_name (conversions dx bf) = conversion_names bf.
Proof.
  unfold conversions, conversion_names, variants. cbn [flat_map map app from_fn fn_name method].
  unfold into_fn, bob, from_slice_fn, checked_from_slice_fn, into_slice_fn, checked_into_slice_fn.
  destruct (is_integer_backed bf); reflexivity.
Qed.
Theorem emitted_names dx bf : PropSurface.names_of (SurfaceLemmas.impl_list bf) =
  map fst (consts bf) ++ map fn_name (impl_fns dx bf).
Proof.
  unfold PropSurface.names_of, SurfaceLemmas.impl_list, impl_fns. cbv zeta.
  rewrite !map_app, !names_seg, !map_app, !names_whole, !names_made1, !names_made2, !names_opt, conversion_fn_names.
  unfold consts. rewrite !map_flat. cbn [map fst].
  repeat match goal with |- _ ++ _ = _ ++ _ => apply f_equal2 end; try reflexivity.
  - rewrite map_map. reflexivity.
  - destruct (write_on bf); [|reflexivity]. cbn. unfold write_names, bob. destruct (is_integer_backed bf); reflexivity.
  - destruct (clear_on bf); [|reflexivity]. cbn [map app clear_names]. rewrite map_app, !map_map.
    apply f_equal2; [|reflexivity]. cbn. unfold bob. destruct (is_integer_backed bf); reflexivity.
  - destruct (invert_on bf); [|reflexivity]. cbn [map app invert_names]. rewrite map_app, !map_map. reflexivity.
Qed.

(** ** Accepted declarations meet [emit_ok] *)

Lemma NoDup_app_l {A} (l1 l2 : list A) : NoDup (l1 ++ l2) -> NoDup l1.
Proof. induction l1; intros H; [constructor|]. inversion H; subst. constructor; [|auto]. intros Hi. apply H2. apply in_or_app. auto. Qed.
Lemma NoDup_app_r {A} (l1 l2 : list A) : NoDup (l1 ++ l2) -> NoDup l2.
Proof. induction l1; intros H; [exact H|]. inversion H; subst. auto. Qed.

Theorem accepted_emit_ok F d bf dx : accepted_distinct F d bf -> bf_ok bf -> surroundings dx bf -> emit_ok dx bf.
Proof.
  intros (_ & s & Hs & HN) Hbf SR.
  rewrite (SurfaceLemmas.generate_impl bf s Hs), (emitted_names dx) in HN.
  destruct Hbf as (Hb & Hf & _). rewrite Forall_forall in Hf. constructor.
  - exact Hb.
  - intros f Hi. destruct (Hf f Hi) as (H1 & H2 & H3 & H4 & _). repeat split; try assumption.
    + unfold width_ok in H4. rewrite H in H4. lia.
    + eapply sr_len; eassumption.
    + eapply sr_codec; eassumption.
    + eapply sr_codec; eassumption.
  - apply (sr_same _ _ SR).
  - eapply NoDup_app_l. exact HN.
  - eapply NoDup_app_r. exact HN.
  - apply (sr_default _ _ SR).
Qed.

(** ** C59: the emitted code type checks *)

Lemma meets_checks dx bf own i pre F : fn_meets dx bf own i pre F -> checks dx bf own i.
Proof. intros (d & H & _). unfold checks. rewrite H. discriminate. Qed.

Definition a_store (bf : bitfield) : store := match b_ty bf with DArray n => StA (repeat 0 (Z.to_nat n)) | _ => StI 0 end.
Definition some_arg (f : field) : fval :=
  match f_ty f with DInteger TBool => VBool false | DInteger _ => VInt 0 | DArray _ => VArr [] | DCustom => VCustom 0 end.
Lemma some_shape f : shape f (some_arg f).
Proof. unfold shape, some_arg. destruct (f_ty f) as [[]| |]; exact I. Qed.
Lemma some_ok bf : backing_ok (b_ty bf) -> ok_store bf (a_store bf) /\ store_len bf (a_store bf).
Proof.
  unfold backing_ok, ok_store, store_len, a_store. destruct (b_ty bf); try contradiction; [auto|].
  intros H. split; [exact I|]. rewrite repeat_length. lia.
Qed.

Lemma array_backed bf : backing_ok (b_ty bf) -> is_integer_backed bf = false -> exists n, b_ty bf = DArray n.
Proof. unfold backing_ok, is_integer_backed. destruct (b_ty bf); try contradiction; [discriminate | eauto]. Qed.

Section Checks.
Variables (dx : field -> expr) (bf : bitfield).
Hypothesis OK : emit_ok dx bf.
Let Hback := eo_back _ _ OK.

Lemma impl_checks i : In i (impl_fns dx bf) -> checks dx bf true i.
Proof.
  destruct (some_ok bf Hback) as [Hok Hlen]. set (st0 := a_store bf) in *. pose (m := Checked).
  unfold impl_fns. rewrite !in_app_iff. intros H.
  assert (Z0 : 0 <= 0 < 2 ^ 32) by lia.
  destruct H as [H|[H|[H|[H|[H|[H|[H|H]]]]]]].
  - destruct (a_new (b_args bf)); [|contradiction H]. destruct H as [<-|[<-|[]]]; eapply meets_checks.
    + exact (new_meets dx bf m OK true).
    + exact (new_meets dx bf m OK false).
  - destruct (a_from_into_bits (b_args bf)); [|contradiction H]. cbn [opt] in H. unfold conversions in H. rewrite !in_app_iff in H.
    destruct H as [H|[H|[H|H]]].
    + apply in_flat_map in H. destruct H as (v & _ & [<-|[<-|[]]]); eapply meets_checks.
      * exact (from_meets dx bf m OK v false st0 Hok).
      * exact (from_meets dx bf m OK v true st0 Hok).
    + destruct (is_integer_backed bf) eqn:Ei; [contradiction H|]. destruct (array_backed bf Hback Ei) as (n & En). apply in_flat_map in H.
      destruct H as (v & _ & [<-|[<-|[<-|[<-|[]]]]]); eapply meets_checks.
      * exact (from_slice_meets dx bf m n OK En v false []).
      * exact (from_slice_meets dx bf m n OK En v true []).
      * exact (checked_from_slice_meets dx bf m n OK En v false []).
      * exact (checked_from_slice_meets dx bf m n OK En v true []).
    + apply in_map_iff in H. destruct H as (v & <- & _). eapply meets_checks. exact (into_meets dx bf m OK v st0 Hok).
    + destruct (is_integer_backed bf) eqn:Ei; [contradiction H|]. destruct (array_backed bf Hback Ei) as (n & En). apply in_flat_map in H.
      destruct H as (v & _ & [<-|[<-|[]]]); eapply meets_checks.
      * exact (into_slice_meets dx bf m n OK En v st0 [] Hok).
      * exact (checked_into_slice_meets dx bf m n OK En v st0 [] Hok).
  - apply in_map_iff in H. destruct H as (f & <- & H). apply filter_In in H. eapply meets_checks. exact (getter_meets dx bf m OK f st0 (proj1 H) Hok).
  - apply in_flat_map in H. destruct H as (f & H & [<-|[<-|[]]]); apply filter_In in H; eapply meets_checks.
    + exact (setter_meets dx bf m OK f _ st0 (proj1 H) (some_shape f) Hok).
    + exact (checked_setter_meets dx bf m OK f _ st0 (proj1 H) (some_shape f) Hok).
  - destruct (write_on bf); [|contradiction H]. cbn [opt] in H. apply in_app_iff in H. destruct H as [H|[<-|[]]].
    + apply in_flat_map in H. destruct H as (v & _ & [<-|[<-|[]]]); eapply meets_checks.
      * exact (write_meets dx bf m OK v false st0 st0 Hok Hok).
      * exact (write_meets dx bf m OK v true st0 st0 Hok Hok).
    + eapply meets_checks. exact (write_defaults_meets dx bf m OK st0 Hok).
  - destruct (set_get_on bf); [|contradiction H]. cbn [opt] in H.
    destruct H as [<-|[<-|[<-|[<-|[<-|[<-|[<-|[<-|[]]]]]]]]]; eapply meets_checks.
    + exact (set_bit_meets dx bf m OK 0 true st0 Z0 Hok).
    + exact (checked_set_bit_meets dx bf m OK 0 true st0 Z0 Hok).
    + exact (set_range_meets dx bf m OK 0 0 st0 st0 Z0 Z0 Hok Hok).
    + exact (checked_set_range_meets dx bf m OK 0 0 st0 st0 Z0 Z0 Hok Hok).
    + exact (get_bit_meets dx bf m OK 0 st0 Z0 Hok).
    + exact (checked_get_bit_meets dx bf m OK 0 st0 Z0 Hok).
    + exact (get_range_meets dx bf m OK 0 0 st0 Z0 Z0 Hok).
    + exact (checked_get_range_meets dx bf m OK 0 0 st0 Z0 Z0 Hok).
  - destruct (clear_on bf); [|contradiction H]. cbn [opt] in H. destruct H as [<-|[<-|H]].
    + eapply meets_checks. exact (clear_all_meets dx bf m OK false st0 Hok).
    + eapply meets_checks. exact (clear_all_meets dx bf m OK true st0 Hok).
    + apply in_app_iff in H. destruct H as [H|H]; apply in_map_iff in H; destruct H as (f & <- & H); apply filter_In in H; eapply meets_checks.
      * exact (clear_meets dx bf m OK f st0 (proj1 H) Hok).
      * destruct H as [H1 H2]. apply andb_true_iff in H2. exact (clear_default_meets dx bf m OK f st0 H1 (proj2 H2) Hok).
  - destruct (invert_on bf); [|contradiction H]. cbn [opt] in H. destruct H as [<-|H].
    + eapply meets_checks. exact (invert_all_meets dx bf m OK st0 Hok).
    + apply in_app_iff in H. destruct H as [H|H]; apply in_map_iff in H; destruct H as (f & <- & H); apply filter_In in H; eapply meets_checks.
      * exact (invert_meets dx bf m OK f st0 (proj1 H) (proj2 H) Hok).
      * exact (inverted_meets dx bf m OK f st0 (proj1 H) Hok).
Qed.
Lemma trait_checks own i : In (own, i) (trait_fns dx bf) -> checks dx bf own i.
Proof.
  destruct (some_ok bf Hback) as [Hok Hlen]. set (st0 := a_store bf) in *. pose (m := Checked).
  unfold trait_fns. rewrite !in_app_iff. intros [H|[H|H]].
  - destruct (a_from_traits (b_args bf)); [|contradiction H]. destruct H as [H|[H|[]]]; injection H as <- <-; eapply meets_checks.
    + exact (trait_from_meets dx bf m OK st0 Hok Hlen).
    + exact (trait_into_meets dx bf m OK false st0 Hok Hlen).
  - destruct (a_default (b_args bf)); [|contradiction H]. destruct H as [H|[]]. injection H as <- <-. eapply meets_checks. exact (default_meets dx bf m OK).
  - destruct (a_debug (b_args bf)); [|contradiction H]. destruct H as [H|[]]. injection H as <- <-. eapply meets_checks. exact (debug_meets dx bf m OK st0 Hok).
Qed.
Lemma builder_checks i : builder_inline_ok bf -> In i (builder_fns dx bf) -> checks dx bf false i.
Proof.
  intros HI. destruct (some_ok bf Hback) as [Hok Hlen]. set (st0 := a_store bf) in *. pose (m := Checked).
  unfold builder_fns. destruct (a_builder (b_args bf)); [|contradiction]. rewrite !in_app_iff. intros [H|[H|H]].
  - destruct H as [<-|[<-|[]]]; eapply meets_checks.
    + exact (builder_new_meets dx bf m OK true HI).
    + exact (builder_new_meets dx bf m OK false HI).
  - apply in_flat_map in H. destruct H as (f & H & [<-|[<-|[]]]); apply filter_In in H; eapply meets_checks.
    + exact (with_meets dx bf m OK f _ st0 (proj1 H) (some_shape f) Hok).
    + exact (checked_with_meets dx bf m OK f _ st0 (proj1 H) (some_shape f) Hok).
  - destruct H as [<-|[]]. eapply meets_checks. exact (build_meets dx bf st0).
Qed.
End Checks.

(** ** Code that does not type check *)

(** A constant of [Self] in an [impl] of another type makes a list of statements
    ill typed, whatever surrounds it. *)
Section Dead.
Variable G : genv.
Definition dead (e : expr) : Prop := forall C h, elab G C h e = None.
Definition dead_block (ss : list stmt) : Prop := forall C h tail, elab_block G C h (Block ss tail) = None.
Definition dead_stmt (s : stmt) : Prop := forall ss, dead_block (s :: ss).

Lemma first_none {A B} (f : A -> option B) l : (forall a, f a = None) -> first_some f l = None.
Proof. intros H. induction l; cbn [first_some]; [reflexivity|]. rewrite H. assumption. Qed.
Lemma dead_cons s ss : dead_block ss -> dead_block (s :: ss).
Proof.
  intros H C h tail. specialize (fun C => H C h tail). cbn [elab_block] in *.
  destruct s as [m x [t|] e| | | | | | |].
  - destruct (elab G C (Some t) e) as [[te d]|]; [|reflexivity]. destruct (ty_eqb te t); [|reflexivity]. rewrite H. reflexivity.
  - destruct (open_lit e).
    + apply first_none. intros t. destruct (elab G C (Some t) e) as [[te d]|]; [|reflexivity]. destruct (ty_eqb te t); [|reflexivity].
      rewrite H. reflexivity.
    + destruct (elab G C None e) as [[te d]|]; [|reflexivity]. rewrite H. reflexivity.
  - rewrite H. destruct (elab_stmt G C _); reflexivity.
  - rewrite H. destruct (elab_stmt G C _); reflexivity.
  - rewrite H. destruct (elab_stmt G C _); reflexivity.
  - rewrite H. destruct (elab_stmt G C _); reflexivity.
  - rewrite H. destruct (elab_stmt G C _); reflexivity.
  - rewrite H. destruct (elab_stmt G C _); reflexivity.
  - rewrite H. destruct (elab_stmt G C _); reflexivity.
Qed.
Lemma dead_app l1 l2 : dead_block l2 -> dead_block (l1 ++ l2).
Proof. intros H. induction l1; cbn [app]; [exact H | apply dead_cons; assumption]. Qed.
Lemma dead_prefix s l1 l2 : dead_stmt s -> dead_block (l1 ++ s :: l2).
Proof. intros H. apply dead_app. apply H. Qed.
Lemma dead_in f (l : list field) (g : field -> list stmt) rest : In f l -> (forall l2, dead_block (g f ++ l2)) -> dead_block (flat_map g l ++ rest).
Proof.
  intros Hf H. induction l as [|a l IH]; [contradiction Hf|]. cbn [flat_map]. rewrite <- app_assoc. destruct Hf as [->|Hf]; [apply H|].
  apply dead_app. auto.
Qed.

Lemma dead_let b x t e : dead e -> dead_stmt (SLet b x t e).
Proof.
  intros H ss C h tail. cbn [elab_block]. destruct t as [t|]; [rewrite H; reflexivity|].
  destruct (open_lit e); [|rewrite H; reflexivity]. apply first_none. intros t. rewrite H. reflexivity.
Qed.
Lemma dead_expr e : dead e -> dead_stmt (SExpr e).
Proof. intros H ss C h tail. cbn [elab_block elab_stmt]. unfold dead in H. rewrite H. reflexivity. Qed.
Lemma dead_while c b : dead c -> dead_stmt (SWhile c b).
Proof. intros H ss C h tail. cbn [elab_block elab_stmt]. rewrite H. reflexivity. Qed.
Lemma dead_set a e : dead e -> dead_stmt (SSet (EVal a) e).
Proof. intros H ss C h tail. cbn [elab_block elab_stmt]. destruct (place G C a) as [[[[] []] p]|]; try reflexivity. rewrite H. reflexivity. Qed.
Lemma dead_eblock ss tail : dead_block ss -> dead (EBlock (Block ss tail)).
Proof. intros H C h. cbn [elab]. apply H. Qed.
Lemma dead_then c ss tail b : dead_block ss -> dead (EIf c (Block ss tail) b).
Proof. intros H C h. cbn [elab]. rewrite H. destruct (elab G C None c) as [[[[]| | | | | | | | | | |] d]|]; reflexivity. Qed.
Lemma dead_left o a b : dead a -> dead (EBin o a b).
Proof. intros H C h. destruct o; cbn [elab is_shift is_compare]; rewrite H; reflexivity. Qed.
Lemma dead_right o a b : dead b -> dead (EBin o a b).
Proof.
  intros H C h. destruct o; cbn [elab is_shift is_compare]; rewrite ?H;
    match goal with |- context [match elab G C ?h a with _ => _ end] => destruct (elab G C h a) as [[ta da]|] end; try reflexivity;
    try (destruct (int_of ta) as [[sg w]|]; [rewrite ?H|]; reflexivity); destruct ta as [[]| | | | | | | | | | |]; reflexivity.
Qed.
Lemma dead_not a : dead a -> dead (EUn UNot a).
Proof. intros H C h. cbn [elab]. rewrite H. reflexivity. Qed.
Lemma dead_const c : g_bitfield G = false -> dead (EConst PSelf c).
Proof. intros H C h. cbn [elab names_bitfield]. rewrite H. reflexivity. Qed.

Lemma dead_put bf f e l : g_bitfield G = false -> has_constants f = true -> dead_block (put bf false f e ++ l).
Proof.
  intros HG Hc. assert (H1 : dead (fbits false f)) by (unfold fbits; rewrite Hc; apply dead_const, HG).
  assert (H2 : dead (foff false f)) by (unfold foff; rewrite Hc; apply dead_const, HG).
  unfold put. destruct (is_integer_backed bf); cbn [negb].
  - destruct (f_ty f) as [[]| |]; cbn [app]; try (apply dead_let; unfold mask_expr; do 2 apply dead_right; exact H1).
    apply dead_expr, dead_then. apply dead_set. do 2 apply dead_right. exact H2.
  - assert (W : forall x bs, dead_stmt (while_ (lt x (fbits false f)) bs)) by (intros; apply dead_while, dead_right; exact H1).
    destruct (f_ty f) as [[]| |]; cbn [app]; apply dead_expr, dead_eblock; do 2 apply dead_cons; apply W.
Qed.
End Dead.

(** [Builder::new_without_defaults()] with fields to be written in place. *)
Lemma builder_new_dead dx bf f : a_new (b_args bf) = false -> In f (b_fields bf) -> has_constants f = true -> has_setter f = false ->
  check_fn (emitted dx bf) false (builder_new_fn dx bf false) = None.
Proof.
  intros Ha Hf Hc Hs. unfold builder_new_fn. rewrite Ha. unfold check_fn.
  assert (D : forall G, g_bitfield G = false -> dead_block G (new_stmts dx bf false true)).
  { intros G HG. unfold new_stmts, new_impl. apply dead_cons. apply (dead_in _ f).
    - apply filter_In. split; [exact Hf | reflexivity].
    - intros l2. unfold assign. rewrite Hs. apply dead_put; [exact HG | exact Hc]. }
  cbv zeta. unfold method. cbn [fn_body fn_ret fn_params fn_recv]. rewrite D by reflexivity. reflexivity.
Qed.

(** ** C59 *)

(** For an accepted declaration all functions of the bitfield's [impl] and of the
    trait implementations type check; those of the builder do exactly when the
    builder can use [new] or there is no read-only field. *)
Theorem C59_type_checks F d bf dx : accepted_distinct F d bf -> bf_ok bf -> surroundings dx bf ->
  (forall i, In i (impl_fns dx bf) -> checks dx bf true i) /\
  (forall own i, In (own, i) (trait_fns dx bf) -> checks dx bf own i) /\
  ((forall i, In i (builder_fns dx bf) -> checks dx bf false i) <->
   a_builder (b_args bf) = false \/ a_new (b_args bf) = true \/
   forall f, In f (b_fields bf) -> has_getter f = true -> has_setter f = true).
Proof.
  intros HA Hbf SR. pose proof (accepted_emit_ok F d bf dx HA Hbf SR) as OK.
  split; [apply impl_checks; exact OK|]. split; [apply trait_checks; exact OK|]. split.
  - intros H. destruct (a_builder (b_args bf)) eqn:Eb; [right | left; reflexivity].
    destruct (a_new (b_args bf)) eqn:En; [left; reflexivity | right]. intros f Hf Hg.
    destruct (has_setter f) eqn:Es; [reflexivity|]. exfalso.
    apply (H (builder_new_fn dx bf false)).
    + unfold builder_fns. rewrite Eb. right. left. reflexivity.
    + apply (builder_new_dead dx bf f); auto. unfold has_constants. rewrite Hg. reflexivity.
  - intros H i Hi. apply builder_checks; [exact OK | | exact Hi]. intros En f Hf Hc.
    destruct H as [H|[H|H]].
    + unfold builder_fns in Hi. rewrite H in Hi. contradiction.
    + congruence.
    + unfold has_constants in Hc. apply orb_true_iff in Hc. destruct Hc; auto.
Qed.

(** ** C60 *)

(** One call. *)
Theorem C60_step F d bf dx m fuel depth o s : accepted_distinct F d bf -> bf_ok bf -> surroundings dx bf ->
  2 ^ 32 < Z.of_nat fuel -> (3 <= depth)%nat -> offered bf o = true -> typed bf o -> store_ok bf s ->
  match Hist.step m bf o s with
  | Val (s', b) => exists v, invoke dx bf m fuel depth o (enc_store s) = Some (Val (v, enc_store s')) /\ shows b v
  | Panic => invoke dx bf m fuel depth o (enc_store s) = Some Panic
  end.
Proof.
  intros HA Hbf SR Hfu Hd Ho Ht Hs. destruct depth as [|[|[|n]]]; try lia.
  apply (invoke_agrees dx bf m fuel n (accepted_emit_ok F d bf dx HA Hbf SR) Hfu o s Ho Ht Hs).
Qed.

Lemma invoke_run bf dx m fuel n os : emit_ok dx bf -> bf_ok bf -> 2 ^ 32 < Z.of_nat fuel -> Forall (callable bf) os ->
  forall s, store_ok bf s -> exists s' bs vs, Hist.run m bf os s = Val (s', bs) /\
    invoke_all dx bf m fuel (S (S (S n))) os (enc_store s) = Some (Val (vs, enc_store s')) /\ Forall2 shows bs vs /\ store_ok bf s'.
Proof.
  intros OK Hbf Hfu Hos. induction Hos as [|o os (Ho & Ht & Hk) Hos IH]; intros s Hs.
  - exists s, [], []. cbn [Hist.run invoke_all]. auto.
  - pose proof (invoke_agrees dx bf m fuel n OK Hfu o s Ho Ht Hs) as A. pose proof Hbf as (Hbk & _).
    rewrite (CoreLemmas.store_of_sval bf s Hs) in A |- *.
    destruct (PropHist.step_total bf o (sval s) Hbf Hk (CoreLemmas.sval_bound bf s Hbk Hs)) as (v' & b & Hv' & E).
    unfold agrees in A. rewrite E in A. destruct A as (v & A1 & A2).
    destruct (IH (CoreLemmas.store_of bf v') (CoreLemmas.store_of_ok bf v' Hbk Hv')) as (s2 & bs & vs & E2 & I2 & S2 & K2).
    exists s2, (b :: bs), (v :: vs). cbn [Hist.run invoke_all]. rewrite E, A1, I2. cbn [bind fst snd]. rewrite E2. cbn [bind fst snd].
    auto.
Qed.

(** Any history of calls of the emitted functions ends without a panic in the
    bitfield, and returns the values, that the map specification of Hist.v
    gives. *)
Theorem C60_refines F d bf dx m fuel depth os s r : accepted_distinct F d bf -> bf_ok bf -> surroundings dx bf ->
  2 ^ 32 < Z.of_nat fuel -> (3 <= depth)%nat -> all_lossless bf -> Forall (callable bf) os -> Forall (PropRefine.checked_ok bf) os ->
  store_ok bf s -> (forall f, In f (b_fields bf) -> raw s f = r f) ->
  exists s' vs, invoke_all dx bf m fuel depth os (enc_store s) = Some (Val (vs, enc_store s')) /\ store_ok bf s' /\
    Forall2 shows (snd (Hist.spec_run bf os r)) vs /\
    forall f, In f (b_fields bf) -> raw s' f = fst (Hist.spec_run bf os r) f.
Proof.
  intros HA Hbf SR Hfu Hd Hl Hos Hck Hs Hr. destruct depth as [|[|[|n]]]; try lia.
  destruct (invoke_run bf dx m fuel n os (accepted_emit_ok F d bf dx HA Hbf SR) Hbf Hfu Hos s Hs) as (s' & bs & vs & E & I & S & K).
  destruct (PropRefine.C26_refines m bf os s r Hbf Hl) as (s2 & E2 & K2 & R2 & _); try assumption.
  { eapply Forall_impl; [|exact Hos]. intros o (_ & _ & H). exact H. }
  rewrite E in E2. injection E2 as <- ->. exists s', vs. auto.
Qed.

(** The same for arbitrary conversion functions and checked setters on every
    field, with the specification of C64. *)
Theorem C64_emitted F d bf dx m fuel depth os s r : accepted_distinct F d bf -> bf_ok bf -> surroundings dx bf ->
  2 ^ 32 < Z.of_nat fuel -> (3 <= depth)%nat -> Forall (callable bf) os ->
  store_ok bf s -> (forall f, In f (b_fields bf) -> raw s f = r f) ->
  exists s' vs, invoke_all dx bf m fuel depth os (enc_store s) = Some (Val (vs, enc_store s')) /\ store_ok bf s' /\
    Forall2 shows (snd (PropLossy.full_run bf os r)) vs /\
    forall f, In f (b_fields bf) -> raw s' f = fst (PropLossy.full_run bf os r) f.
Proof.
  intros HA Hbf SR Hfu Hd Hos Hs Hr. destruct depth as [|[|[|n]]]; try lia.
  destruct (invoke_run bf dx m fuel n os (accepted_emit_ok F d bf dx HA Hbf SR) Hbf Hfu Hos s Hs) as (s' & bs & vs & E & I & S & K).
  destruct (PropLossy.C64_refines m bf os s r Hbf) as (s2 & E2 & K2 & R2 & _); try assumption.
  { eapply Forall_impl; [|exact Hos]. intros o (_ & _ & H). exact H. }
  rewrite E in E2. injection E2 as <- ->. exists s', vs. auto.
Qed.

(** Without the condition on custom types and checked setters: no panic, and the
    same effect and results with and without overflow checks. *)
Theorem C60_total F d bf dx fuel depth os s : accepted_distinct F d bf -> bf_ok bf -> surroundings dx bf ->
  2 ^ 32 < Z.of_nat fuel -> (3 <= depth)%nat -> Forall (callable bf) os -> store_ok bf s ->
  exists s' bs, store_ok bf s' /\ forall m, exists vs,
    invoke_all dx bf m fuel depth os (enc_store s) = Some (Val (vs, enc_store s')) /\ Forall2 shows bs vs.
Proof.
  intros HA Hbf SR Hfu Hd Hos Hs. destruct depth as [|[|[|n]]]; try lia. pose proof Hbf as (Hbk & _).
  pose proof (accepted_emit_ok F d bf dx HA Hbf SR) as OK.
  destruct (PropHist.run_total bf os (sval s) Hbf) as (v' & bs & Hv' & E).
  { eapply Forall_impl; [|exact Hos]. intros o (_ & _ & H). exact H. }
  { apply CoreLemmas.sval_bound; assumption. }
  exists (CoreLemmas.store_of bf v'), bs. split; [apply CoreLemmas.store_of_ok; assumption|]. intros m.
  destruct (invoke_run bf dx m fuel n os OK Hbf Hfu Hos s Hs) as (s1 & bs1 & vs & E1 & I1 & S1 & _).
  rewrite (CoreLemmas.store_of_sval bf s Hs) in E1. rewrite (E m) in E1. injection E1 as <- <-. eauto.
Qed.

Lemma with_env f a st0 : args_env [("bits", field_ty f)] [enc_fval a] (self_env ByMutVal (enc_store st0)) = Some (with_st a st0).
Proof. unfold field_ty. cbn [args_env]. destruct (f_ty f); reflexivity. Qed.

Section Links.
Variables (dx : field -> expr) (bf : bitfield) (m : mode) (fuel n : nat).
Hypothesis OK : emit_ok dx bf.
Hypothesis Hbf : bf_ok bf.
Hypothesis Hfuel : 2 ^ 32 < Z.of_nat fuel.
Let r := mkRt m fuel (call (emitted dx bf) m fuel (S (S (S n)))).

Lemma not_ok st0 : match enc_store st0 with ROk _ | RErr _ => False | _ => True end.
Proof. destruct st0; exact I. Qed.

Lemma on_builder_run i self args s0 (o : outcome store) (pre : rt -> st -> Prop) k :
  fn_meets dx bf false i pre (fun _ _ => alone o enc_store) -> args_env (fn_params i) args (self_env (fn_recv i) self) = Some s0 ->
  pre r s0 -> on_builder dx bf r i self args k = match o with Val s => k (enc_store s) | Panic => Some Panic end.
Proof.
  intros (d & Hd & H) Ha Hp. unfold on_builder, run_fn. rewrite Hd, Ha, (H _ _ Hp).
  destruct o as [s|]; [|reflexivity]. destruct s; reflexivity.
Qed.
Lemma on_builder_checked i self args s0 (o : outcome (res store)) (pre : rt -> st -> Prop) k :
  fn_meets dx bf false i pre (fun _ _ => alone o enc_ress) -> args_env (fn_params i) args (self_env (fn_recv i) self) = Some s0 ->
  pre r s0 -> on_builder dx bf r i self args k =
    match o with Val (Ok s) => k (enc_store s) | Val (Err e) => Some (Val (Err e)) | Panic => Some Panic end.
Proof.
  intros (d & Hd & H) Ha Hp. unfold on_builder, run_fn. rewrite Hd, Ha, (H _ _ Hp).
  destruct o as [[s|e]|]; reflexivity.
Qed.

Definition enc_chain (o : outcome (res store)) : outcome (res value) :=
  match o with Val (Ok s) => Val (Ok (enc_store s)) | Val (Err e) => Val (Err e) | Panic => Panic end.

Lemma chain_emitted ls : Forall (PropCompose.link_typed bf) ls -> forall s, store_ok bf s ->
  on_chain dx bf r ls (enc_store s) = Some (enc_chain (PropCompose.chain m bf ls s)).
Proof.
  assert (Hr : ready m r) by (apply is_ready; assumption).
  assert (Hc : calls bf m r) by (apply (is_calls dx bf m fuel (S n) OK Hfuel)).
  induction 1 as [|l ls (Hf & Ht) Hls IH]; intros s Hs.
  - cbn [on_chain PropCompose.chain]. erewrite (on_builder_run _ _ _ _ (Val s)); [| apply (build_meets dx bf s) | reflexivity | reflexivity].
    cbn [enc_chain]. reflexivity.
  - pose proof (proj1 (store_shape bf s Hs)) as Hss. pose proof (has_type_shape _ _ Ht) as Hsh.
    pose proof Hbf as (Hbk & _).
    destruct l as [f a|f a]; cbn [on_chain PropCompose.chain PropCompose.link_field PropCompose.link_arg] in *.
    + erewrite on_builder_run; [| apply (with_meets dx bf m OK f a s Hf Hsh Hss) | apply with_env | split; [exact Hr | split; [exact Hc | reflexivity]]].
      destruct (Gen.with_field m bf f a s) as [s'|] eqn:E; cbn [bind]; [|reflexivity]. apply IH.
      rewrite PropCompose.with_field_set in E by assumption.
      destruct (PropHist.step_total bf (Hist.OSet f a) (sval s) Hbf (conj Hf Ht) (CoreLemmas.sval_bound bf s Hbk Hs)) as (v' & b & Hv' & E').
      specialize (E' m). rewrite <- (CoreLemmas.store_of_sval bf s Hs) in E'. cbn [Hist.step] in E'. unfold Hist.ret in E'.
      rewrite E in E'. cbn [bind] in E'. injection E' as -> _. apply CoreLemmas.store_of_ok; assumption.
    + erewrite on_builder_checked; [| apply (checked_with_meets dx bf m OK f a s Hf Hsh Hss) | apply with_env | split; [exact Hr | split; [exact Hc | reflexivity]]].
      destruct (Gen.checked_with_field m bf f a s) as [[s'|e]|] eqn:E; cbn [bind enc_chain]; [|reflexivity|reflexivity]. apply IH.
      rewrite PropCompose.checked_with_field_set in E by assumption.
      destruct (PropHist.step_total bf (Hist.OCheckedSet f a) (sval s) Hbf (conj Hf Ht) (CoreLemmas.sval_bound bf s Hbk Hs)) as (v' & b & Hv' & E').
      specialize (E' m). rewrite <- (CoreLemmas.store_of_sval bf s Hs) in E'. cbn [Hist.step] in E'. unfold Hist.retr in E'.
      revert E E'. destruct (Gen.checked_set_field m bf f a s) as [[s1 []]|]; cbn [bind fst snd]; intros E E'; try discriminate E.
      injection E as <-. injection E' as -> _. apply CoreLemmas.store_of_ok; assumption.
Qed.
End Links.

(** What the builder makes: the field setters applied to the fresh bitfield, or
    the error of a checked setter whose value its check does not let through. *)
Theorem C60_builder_exact F d bf dx m fuel depth (df : bool) ls : accepted_distinct F d bf -> bf_ok bf -> surroundings dx bf ->
  2 ^ 32 < Z.of_nat fuel -> (3 <= depth)%nat ->
  a_new (b_args bf) = true \/ (forall f, In f (b_fields bf) -> has_getter f = true -> has_setter f = true) ->
  Forall (PropCompose.link_typed bf) ls ->
  exists s0, (if df then Gen.new_bf m bf else Gen.new_without_defaults m bf) = Val s0 /\
    (Forall (PropCompose.link_passes bf) ls -> exists s' bs, Hist.run m bf (PropCompose.as_sets ls) s0 = Val (s', bs) /\
       built dx bf (mkRt m fuel (call (emitted dx bf) m fuel depth)) df ls = Some (Val (Ok (enc_store s')))) /\
    (Exists (fun l => ~ PropCompose.link_passes bf l) ls ->
       built dx bf (mkRt m fuel (call (emitted dx bf) m fuel depth)) df ls =
       Some (Val (Err "Value is too big to fit within the field bits."))).
Proof.
  intros HA Hbf SR Hfu Hd Hin Hls. destruct depth as [|[|[|n]]]; try lia.
  pose proof (accepted_emit_ok F d bf dx HA Hbf SR) as OK.
  destruct (PropCompose.C22_exact m bf df ls Hbf Hls) as (s0 & E0 & N0 & Hs0 & H1 & H2).
  exists s0. split; [exact N0|].
  assert (E : built dx bf (mkRt m fuel (call (emitted dx bf) m fuel (S (S (S n))))) df ls = Some (enc_chain (PropCompose.chain m bf ls s0))).
  { assert (Hi : builder_inline_ok bf).
    { intros En f Hf Hc. destruct Hin as [H|H]; [congruence|]. unfold has_constants in Hc. apply orb_true_iff in Hc. destruct Hc; auto. }
    unfold built. erewrite (on_builder_run dx bf m fuel n);
      [| apply (builder_new_meets dx bf m OK df Hi)
       | instantiate (1 := mkSt [] []); unfold builder_new_fn; destruct (a_new (b_args bf)); reflexivity |].
    - rewrite E0. apply (chain_emitted dx bf m fuel n OK Hbf Hfu ls Hls s0 Hs0).
    - split; [apply is_ready; assumption|]. split; [apply (is_calls dx bf m fuel (S n) OK Hfu)|]. split; [|reflexivity].
      intros Ha. apply calls_new_of; assumption. }
  split; intros H.
  - destruct (H1 H) as (s' & bs & Ec & Er & _). exists s', bs. split; [exact Er|]. rewrite E, Ec. reflexivity.
  - rewrite E, (H2 H). reflexivity.
Qed.

(** On fields whose check is complete these are the values that fit. *)
Theorem C60_builder F d bf dx m fuel depth (df : bool) ls : accepted_distinct F d bf -> bf_ok bf -> surroundings dx bf ->
  2 ^ 32 < Z.of_nat fuel -> (3 <= depth)%nat ->
  a_new (b_args bf) = true \/ (forall f, In f (b_fields bf) -> has_getter f = true -> has_setter f = true) ->
  Forall (PropCompose.link_ok bf) ls ->
  exists s0, (if df then Gen.new_bf m bf else Gen.new_without_defaults m bf) = Val s0 /\
    (Forall PropCompose.link_fits ls -> exists s' bs, Hist.run m bf (PropCompose.as_sets ls) s0 = Val (s', bs) /\
       built dx bf (mkRt m fuel (call (emitted dx bf) m fuel depth)) df ls = Some (Val (Ok (enc_store s')))) /\
    (Exists (fun l => ~ PropCompose.link_fits l) ls ->
       built dx bf (mkRt m fuel (call (emitted dx bf) m fuel depth)) df ls =
       Some (Val (Err "Value is too big to fit within the field bits."))).
Proof.
  intros HA Hbf SR Hfu Hd Hin Hls. destruct (PropCompose.link_ok_typed bf ls Hbf Hls) as (Ht & H1 & H2).
  destruct (C60_builder_exact F d bf dx m fuel depth df ls HA Hbf SR Hfu Hd Hin Ht) as (s0 & N & K1 & K2).
  rewrite <- H1 in K1. rewrite <- H2 in K2. eauto.
Qed.

Theorem C60_from_slice F d bf dx m fuel depth v df slice n : accepted_distinct F d bf -> bf_ok bf -> surroundings dx bf ->
  2 ^ 32 < Z.of_nat fuel -> (3 <= depth)%nat -> b_ty bf = DArray n -> Forall is_byte slice ->
  exists s, Gen.from_data m bf v df (StA (PropConv.padded n slice)) = Val s /\ store_ok bf s /\
    with_slice dx bf m fuel depth (from_slice_fn dx bf v df) RU slice = Some (Val (enc_store s, [("*slice", RA slice)])) /\
    with_slice dx bf m fuel depth (checked_from_slice_fn dx bf v df) RU slice =
      Some (Val (if Z.of_nat (List.length slice) <? n then RErr "Slice is too small to fill the bitfield." else ROk (enc_store s),
                 [("*slice", RA slice)])).
Proof.
  intros HA Hbf SR Hfu Hd En Hb. destruct depth as [|[|[|k]]]; try lia.
  pose proof (accepted_emit_ok F d bf dx HA Hbf SR) as OK. pose proof Hbf as (Hbk & _).
  destruct (PropConv.C28_from_slice m bf n v df slice Hbf En Hb) as (Hp & E).
  destruct (PropHist.step_total bf (Hist.OFrom v df (sval (StA (PropConv.padded n slice)))) 0 Hbf) as (v' & b & Hv' & Es).
  { apply (CoreLemmas.sval_bound bf _ Hbk Hp). }
  { apply GenLemmas.in_range_0; assumption. }
  specialize (Es m). cbn [Hist.step] in Es. rewrite <- (CoreLemmas.store_of_sval bf _ Hp) in Es. unfold Hist.ret in Es.
  destruct (Gen.from_data m bf v df (StA (PropConv.padded n slice))) as [s|] eqn:Ed; [|discriminate Es].
  cbn [bind] in Es. assert (Hs : store_ok bf s) by (injection Es as -> _; apply CoreLemmas.store_of_ok; assumption).
  exists s. split; [reflexivity|]. split; [exact Hs|].
  assert (Hr : ready m (mkRt m fuel (call (emitted dx bf) m fuel (S (S (S k)))))) by (apply is_ready; assumption).
  assert (Hc : calls bf m (mkRt m fuel (call (emitted dx bf) m fuel (S (S (S k)))))) by (apply (is_calls dx bf m fuel (S k) OK Hfu)).
  split; unfold with_slice, run_fn.
  - destruct (from_slice_meets dx bf m n OK En v df slice) as (d1 & Hd1 & H1).
    rewrite Hd1. change (args_env (fn_params (from_slice_fn dx bf v df)) [RA slice] (self_env (fn_recv (from_slice_fn dx bf v df)) RU)) with (Some (slice_st slice)). cbv iota beta. rewrite H1 by auto. rewrite E. reflexivity.
  - destruct (checked_from_slice_meets dx bf m n OK En v df slice) as (d1 & Hd1 & H1).
    rewrite Hd1. change (args_env (fn_params (checked_from_slice_fn dx bf v df)) [RA slice] (self_env (fn_recv (checked_from_slice_fn dx bf v df)) RU)) with (Some (slice_st slice)). cbv iota beta. rewrite H1 by auto.
    destruct (PropConv.C28_checked_from_slice m bf n v df slice Hbf En Hb) as (A1 & A2).
    destruct (Z.ltb_spec (Z.of_nat (List.length slice)) n) as [Hl|Hl].
    + rewrite (A1 Hl). reflexivity.
    + destruct (A2 Hl) as (s2 & B1 & B2). rewrite B2. rewrite E in B1. injection B1 as <-. reflexivity.
Qed.

Theorem C60_into_slice F d bf dx m fuel depth v s slice n : accepted_distinct F d bf -> bf_ok bf -> surroundings dx bf ->
  2 ^ 32 < Z.of_nat fuel -> (3 <= depth)%nat -> b_ty bf = DArray n -> store_ok bf s ->
  let k := Z.to_nat (Z.min n (Z.of_nat (List.length slice))) in
  exists l, Gen.into_data m bf v s = Val (StA l) /\
    with_slice dx bf m fuel depth (into_slice_fn bf v) (enc_store s) slice =
      Some (Val (RU, [("*slice", RA (firstn k l ++ skipn k slice)); ("*self", enc_store s)])) /\
    with_slice dx bf m fuel depth (checked_into_slice_fn bf v) (enc_store s) slice =
      Some (Val (if Z.of_nat (List.length slice) <? n
                 then (RErr "Slice is too small to hold the bitfield.", [("*slice", RA slice); ("*self", enc_store s)])
                 else (ROk RU, [("*slice", RA (l ++ skipn (Z.to_nat n) slice)); ("*self", enc_store s)]))).
Proof.
  intros HA Hbf SR Hfu Hd En Hs k0. destruct depth as [|[|[|k]]]; try lia.
  pose proof (accepted_emit_ok F d bf dx HA Hbf SR) as OK. pose proof (proj1 (store_shape bf s Hs)) as Hss.
  destruct (PropConv.C28_into_slice m bf n v s slice Hbf En Hs) as (l & E & Hl & E1 & A1 & A2).
  exists l. split; [exact E|].
  assert (Hr : ready m (mkRt m fuel (call (emitted dx bf) m fuel (S (S (S k)))))) by (apply is_ready; assumption).
  split; unfold with_slice, run_fn.
  - destruct (into_slice_meets dx bf m n OK En v s slice Hss) as (d1 & Hd1 & H1).
    rewrite Hd1. change (args_env (fn_params (into_slice_fn bf v)) [RA slice] (self_env (fn_recv (into_slice_fn bf v)) (enc_store s))) with (Some (slice_own slice (enc_store s))). cbv iota beta. rewrite H1 by auto. rewrite E1. reflexivity.
  - destruct (checked_into_slice_meets dx bf m n OK En v s slice Hss) as (d1 & Hd1 & H1).
    rewrite Hd1. change (args_env (fn_params (checked_into_slice_fn bf v)) [RA slice] (self_env (fn_recv (checked_into_slice_fn bf v)) (enc_store s))) with (Some (slice_own slice (enc_store s))). cbv iota beta. rewrite H1 by auto.
    destruct (Z.ltb_spec (Z.of_nat (List.length slice)) n) as [Hq|Hq].
    + rewrite (A1 Hq). reflexivity.
    + rewrite (A2 Hq). reflexivity.
Qed.

(** [{:?}]: one entry per field. *)
Theorem C60_debug F d bf dx m fuel depth s : accepted_distinct F d bf -> bf_ok bf -> surroundings dx bf ->
  2 ^ 32 < Z.of_nat fuel -> store_ok bf s ->
  run_fn (emitted dx bf) true (debug_fn bf) (mkRt m fuel (call (emitted dx bf) m fuel depth)) (enc_store s) [] =
  Some (Val (RFmt (map (fun f => (f_name f, enc_pval (PropDebug.printed bf s f))) (b_fields bf)), [("*self", enc_store s)])).
Proof.
  intros HA Hbf SR Hfu Hs. pose proof (accepted_emit_ok F d bf dx HA Hbf SR) as OK.
  destruct (debug_meets dx bf m OK s (proj1 (store_shape bf s Hs))) as (d1 & Hd1 & H1).
  unfold run_fn. rewrite Hd1. change (args_env (fn_params (debug_fn bf)) [] (self_env (fn_recv (debug_fn bf)) (enc_store s))) with (Some (own_st [] (enc_store s))). cbv iota beta.
  rewrite H1 by (split; [split; [reflexivity | exact Hfu] | reflexivity]).
  rewrite (PropDebug.C54_entries m bf s Hbf Hs). cbn [after]. unfold enc_debug. rewrite map_map. reflexivity.
Qed.

(** ** Cases *)

Definition unchecked (dx : field -> expr) (bf : bitfield) : list string :=
  map fn_name (filter (fun i => match check_fn (emitted dx bf) true i with Some _ => false | None => true end) (impl_fns dx bf)) ++
  map fn_name (filter (fun i => match check_fn (emitted dx bf) false i with Some _ => false | None => true end) (builder_fns dx bf)).

(** Accepted declarations exist for both kinds of backing; the second function of
    the builder of [no_new_decl] does not compile (finding 21). *)
Example C59_ex :
  (accepted_distinct PropParse.no_feature int_decl (parsed int_decl) /\ bf_ok (parsed int_decl) /\ surroundings written (parsed int_decl)) /\
  (accepted_distinct PropParse.no_feature arr_decl (parsed arr_decl) /\ bf_ok (parsed arr_decl) /\ surroundings written (parsed arr_decl)) /\
  List.length (impl_fns written (parsed int_decl)) = 55%nat /\
  unchecked written (parsed int_decl) = [] /\ unchecked written (parsed arr_decl) = [] /\
  unchecked written (parsed no_new_decl) = ["new"; "new_without_defaults"].
Proof.
  split; [split; [exact int_decl_accepted | exact int_decl_ok]|]. split; [split; [exact arr_decl_accepted | exact arr_decl_ok]|].
  repeat split; vm_compute; reflexivity.
Qed.
(** Names need not be plain: this declaration has fields whose names look like
    those of generated functions, but no two items have the same name. *)
Definition odd_decl : Parser.rdecl :=
  Parser.mkRDecl true VisPublic "Odd" (Some (Parser.RPath "u16")) []
    [PropParse.fld "set_a" Parser.ANone (Parser.RPath "u8") (PInt 0);
     PropParse.fld "b_inverted" Parser.ANone (Parser.RPath "u8") (PInt 0)].
Example C59_odd_ex :
  accepted_distinct PropParse.no_feature odd_decl (parsed odd_decl) /\ bf_ok (parsed odd_decl) /\
  surroundings written (parsed odd_decl) /\
  ~ (forall r, In r (PropNames.named_fields odd_decl) -> SpecSurface.plain (Parser.r_name r)) /\
  unchecked written (parsed odd_decl) = [].
Proof.
  split. { split; [exists Checked; vm_compute; reflexivity|]. eexists. split; [vm_compute; reflexivity|].
    apply PropNames.nodupb_spec. vm_compute. reflexivity. }
  split; [apply Examples.bf_okb_ok; vm_compute; reflexivity|]. split; [around|]. split.
  - intro H. destruct (H _ (or_introl eq_refl)) as (P & _). apply (P "set_" (or_introl eq_refl)). exists "a". reflexivity.
  - vm_compute. reflexivity.
Qed.
Theorem C59_builder_refuted :
  ~ (forall F d bf dx, accepted_distinct F d bf -> bf_ok bf -> surroundings dx bf -> forall i, In i (builder_fns dx bf) -> checks dx bf false i).
Proof.
  intros H. apply (H _ _ _ written no_new_accepted (proj1 no_new_ok) (proj2 no_new_ok) (builder_new_fn written (parsed no_new_decl) true)).
  - unfold builder_fns. replace (a_builder (b_args (parsed no_new_decl))) with true by (vm_compute; reflexivity).
    apply in_or_app. left. apply in_eq.
  - vm_compute. reflexivity.
Qed.

(** The hypotheses of C60 hold, and the emitted code can be run. *)
Example C60_ex :
  Forall (callable (parsed int_decl)) int_ops /\ Forall (PropRefine.checked_ok (parsed int_decl)) int_ops /\
  all_lossless (parsed int_decl) /\
  Forall (callable (parsed arr_decl)) arr_ops /\ Forall (PropRefine.checked_ok (parsed arr_decl)) arr_ops /\
  all_lossless (parsed arr_decl) /\
  invoke_all written (parsed int_decl) Checked 100 3 int_ops (RI 0) =
    Some (Val ([RU; ROk RU; RErr "Value is too big to fit within the field bits."; RI 7; RI 1; RI 14; RU; RI 15872], RI 15872)) /\
  invoke_all written (parsed arr_decl) Checked 100 3 arr_ops (RA [0; 0; 0; 0]) =
    Some (Val ([RU; RErr "Attempted to write to non-writable bit(s)."; RA [1; 2]; RU; RI (-1); RA [255; 0; 16; 8]], RA [8; 16; 0; 255])).
Proof.
  split; [|split; [|split; [|split; [|split; [|split; [|split]]]]]].
  - repeat (constructor; [callable_op|]); constructor.
  - repeat (constructor; [vm_compute; first [exact I | discriminate]|]); constructor.
  - intros f Hf. apply Examples.losslessb_ok. each Hf; vm_compute; reflexivity.
  - repeat (constructor; [callable_op|]); constructor.
  - repeat (constructor; [vm_compute; first [exact I | discriminate]|]); constructor.
  - intros f Hf. apply Examples.losslessb_ok. each Hf; vm_compute; reflexivity.
  - vm_compute; reflexivity.
  - vm_compute; reflexivity.
Qed.

Example C60_calls_ex :
  let I := parsed int_decl in let A := parsed arr_decl in
  let ri := mkRt Checked 100 (call (emitted written I) Checked 100 3) in
  let ra := mkRt Checked 100 (call (emitted written A) Checked 100 3) in
  Forall (PropCompose.link_ok I) [PropCompose.LWith (named I "b") (VInt 6); PropCompose.LChecked (named I "c") (VInt (-4))] /\
  built written I ri true [PropCompose.LWith (named I "b") (VInt 6); PropCompose.LChecked (named I "c") (VInt (-4))] = Some (Val (Ok (RI 4187648))) /\
  built written I ri true [PropCompose.LWith (named I "b") (VInt 6); PropCompose.LChecked (named I "c") (VInt (-9))] =
    Some (Val (Err "Value is too big to fit within the field bits.")) /\
  with_slice written A Checked 100 3 (from_slice_fn written A Gen.AsBe true) RU [1; 2; 3] =
    Some (Val (RA [5; 3; 154; 1], [("*slice", RA [1; 2; 3])])) /\
  with_slice written A Checked 100 3 (into_slice_fn A Gen.AsBe) (RA [1; 2; 3; 4]) [9; 9; 9; 9; 9] =
    Some (Val (RU, [("*slice", RA [4; 3; 2; 1; 9]); ("*self", RA [1; 2; 3; 4])])) /\
  run_fn (emitted written A) true (debug_fn A) ra (RA [5; 2; 3; 4]) [] =
    Some (Val (RFmt [("a", RI 5); ("two", RA [64; 96]); ("flag", RI 0); ("_r", RI 0); ("s", RI 4)], [("*self", RA [5; 2; 3; 4])])).
Proof.
  cbv zeta. split; [|repeat split; vm_compute; reflexivity].
  constructor; [|constructor; [|constructor]]; (split; [apply named_in; vm_compute; reflexivity | split;
    [vm_compute; split; [discriminate | reflexivity] | vm_compute; first [exact I | discriminate]]]).
Qed.

(** A declaration with a custom type that has the values 1 and 2 only. *)
Definition lossy_fld (name : string) (a : Parser.rattr) (v : pval) : Parser.rfield :=
  Parser.mkRField name VisPublic a (Parser.RPath "Kind") v Examples.lossy_codec.
Definition lossy_decl : Parser.rdecl :=
  Parser.mkRDecl true VisPublic "Ly" (Some (Parser.RPath "u8")) []
    [lossy_fld "k" (Parser.AList (Parser.RBits 4 "") [("default", "K")]) (PCustom 2);
     lossy_fld "p" (Parser.AList (Parser.RBits 4 "") []) (PCustom 0)].
Definition lossy_ops : list Hist.op :=
  let bf := parsed lossy_decl in
  [Hist.OGet (named bf "p"); Hist.OWrite Gen.AsBe false 0x2f; Hist.OGet (named bf "k"); Hist.OCheckedSet (named bf "p") (VCustom 16);
   Hist.OClear (named bf "p"); Hist.OInto Gen.AsBe].
Example C64_emitted_ex :
  accepted_distinct PropParse.no_feature lossy_decl (parsed lossy_decl) /\ bf_ok (parsed lossy_decl) /\
  surroundings written (parsed lossy_decl) /\ Forall (callable (parsed lossy_decl)) lossy_ops /\
  ~ all_lossless (parsed lossy_decl) /\
  invoke_all written (parsed lossy_decl) Checked 100 3 lossy_ops (RI 0) =
    Some (Val ([RC 1; RU; RC 1; RErr "Value is too big to fit within the field bits."; RU; RI 0x11], RI 0x11)).
Proof.
  split. { eapply (plain_distinct Checked); [vm_compute; reflexivity|vm_compute; reflexivity| |].
    - intros r Hr. apply PropNames.plainb_spec. each Hr; vm_compute; reflexivity.
    - apply PropNames.nodupb_spec. vm_compute. reflexivity. }
  split; [apply Examples.bf_okb_ok; vm_compute; reflexivity|]. split; [around|].
  split. { repeat (constructor; [callable_op|]); constructor. }
  split. { intros H. specialize (H (named (parsed lossy_decl) "k") ltac:(left; reflexivity) 0 ltac:(vm_compute; split; [discriminate|reflexivity])).
           vm_compute in H. discriminate H. }
  vm_compute. reflexivity.
Qed.
