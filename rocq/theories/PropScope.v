(** C72: the expression given as default means in the generated functions what it
    means at the declaration, unless it uses one of ten names, or [Self] in a builder
    without [new]. *)
From Coq Require Import ZArith List Bool String Ascii Lia.
From Verif Require Import RustInt Syntax Surface Rust Emit Scope.
From Verif Require Gen Parser PropParse SpecEmit.
Import ListNotations.
Open Scope string_scope.
Open Scope list_scope.

(** ** Computing with scopes *)

Fixpoint sl (G : list string) (l : list stmt) : list found :=
  match l with [] => [] | s :: t => ss G s ++ sl (bind G s) t end.
Fixpoint after (G : list string) (l : list stmt) : list string :=
  match l with [] => G | s :: t => after (bind G s) t end.
Lemma sb_eq G l e : sb G (Block l e) = sl G l ++ match e with Some e => se (after G l) e | None => [] end.
Proof.
  revert G. induction l as [|s t IH]; intro G; [reflexivity|].
  change (sb G (Block (s :: t) e)) with (ss G s ++ sb (bind G s) (Block t e)).
  rewrite IH. cbn [sl after]. apply app_assoc.
Qed.
Lemma sl_app a : forall G b, sl G (a ++ b) = sl G a ++ sl (after G a) b.
Proof. induction a as [|s t IH]; intros G b; [reflexivity|]. cbn [app sl after]. rewrite IH. apply app_assoc. Qed.
Lemma after_app a : forall G b, after G (a ++ b) = after (after G a) b.
Proof. induction a as [|s t IH]; intros G b; [reflexivity|]. cbn [app after]. apply IH. Qed.

(** No default expression in [l]. *)
Definition quiet (l : list stmt) : Prop := forall G, sl G l = [].
Definition quiet_e (e : expr) : Prop := forall G, se G e = [].
Lemma q_nil : quiet [].
Proof. intro G. reflexivity. Qed.
Lemma q_cat a b : quiet a -> quiet b -> quiet (a ++ b).
Proof. intros A B G. rewrite sl_app, A, B. reflexivity. Qed.
Lemma q_one s l : (forall G, ss G s = []) -> quiet l -> quiet (s :: l).
Proof. intros A B G. cbn [sl]. rewrite A, B. reflexivity. Qed.
Lemma q_flat {A} (g : A -> list stmt) l : (forall a, quiet (g a)) -> quiet (flat_map g l).
Proof. intro H. induction l as [|a t IH]; [exact q_nil|]. cbn [flat_map]. apply q_cat; [apply H|exact IH]. Qed.
Lemma q_map {A} (g : A -> stmt) l : (forall a G, ss G (g a) = []) -> quiet (map g l).
Proof. intro H. induction l as [|a t IH]; [exact q_nil|]. cbn [map]. apply q_one; [apply H|exact IH]. Qed.

(** ** The names *)

Definition reserved : list string :=
  ["self"; "this"; "bits"; "bytes"; "slice"; "copy_len"; "i"; "mask"; "value"; "field_bits"].
Definition member (x : string) : bool := existsb (String.eqb x) reserved.
Lemma member_in x : member x = true <-> In x reserved.
Proof.
  unfold member. rewrite existsb_exists. split.
  - intros (y & H & E). apply String.eqb_eq in E. subst y. exact H.
  - intro H. exists x. split; [exact H|apply String.eqb_refl].
Qed.
Definition small (G : list string) : Prop := forallb member G = true.
Lemma small_in G : small G <-> (forall x, In x G -> In x reserved).
Proof.
  unfold small. rewrite forallb_forall. split; intros H x Hx; [apply member_in; auto|]. apply member_in. auto.
Qed.
(** In a small scope every default expression in [l] is in a small scope, and so is
    what follows [l]. *)
Definition good (l : list stmt) : Prop :=
  forall G, small G -> (forall p, In p (sl G l) -> small (snd p)) /\ small (after G l).
Lemma g_nil : good [].
Proof. intros G H. split; [intros p []|exact H]. Qed.
Lemma g_cat a b : good a -> good b -> good (a ++ b).
Proof.
  intros A B G H. destruct (A G H) as [A1 A2]. destruct (B _ A2) as [B1 B2]. rewrite sl_app, after_app.
  split; [|exact B2]. intros p Hp. apply in_app_or in Hp as [Hp|Hp]; auto.
Qed.
Lemma g_flat {A} (g : A -> list stmt) l : (forall a, good (g a)) -> good (flat_map g l).
Proof. intro H. induction l as [|a t IH]; [exact g_nil|]. cbn [flat_map]. apply g_cat; [apply H|exact IH]. Qed.
Lemma g_quiet l : quiet l -> (forall G, small G -> small (after G l)) -> good l.
Proof. intros Q A G H. rewrite Q. split; [intros p []|auto]. Qed.
Lemma small_cons x G : member x = true -> small G -> small (x :: G).
Proof. unfold small. cbn [forallb]. intros -> H. exact H. Qed.
Lemma g_let m x t e l : member x = true -> quiet_e e -> good l -> good (SLet m x t e :: l).
Proof.
  intros M Q L G H. cbn [sl after bind ss]. rewrite Q. cbn [app]. apply L. apply small_cons; assumption.
Qed.

(** ** Fragments *)

Ltac split_ty f := destruct (f_ty f) as [[]|?|].
Ltac fb f := unfold fbits, foff; destruct (has_constants f).
Ltac sm := intros G H; cbn; repeat (apply small_cons; [reflexivity|]); exact H.

Lemma extract_quiet bf bc inv fv cb f : quiet (extract bf bc inv fv cb f).
Proof.
  intro G. unfold extract, extract_cast_i, extract_src_i, extract_cast_a, extract_src_a.
  fb f; destruct (is_integer_backed bf), fv, cb, bc, inv; split_ty f; reflexivity.
Qed.
Lemma extract_after bf bc inv fv cb f G : small G -> small (after G (extract bf bc inv fv cb f)).
Proof.
  unfold extract, extract_cast_i, extract_src_i, extract_cast_a, extract_src_a.
  destruct (is_integer_backed bf), fv, cb; split_ty f; revert G; sm.
Qed.
Lemma value_quiet f : quiet_e (value_var f).
Proof. intro G. unfold value_var. split_ty f; reflexivity. Qed.
Lemma zero_quiet bf f : quiet_e (zero_expr bf f).
Proof. intro G. unfold zero_expr. split_ty f; destruct (is_integer_backed bf); reflexivity. Qed.

(** What an expression given from outside sees: the scope around the statements, with
    [mask] or without. *)
Definition at_put (bf : bitfield) (f : field) (G : list string) : list string :=
  if is_integer_backed bf then match f_ty f with DInteger TBool => G | _ => "mask" :: G end else G.
Lemma setter_scope bf bc f e G : sl G (setter_call bf bc f e) = se G e.
Proof.
  unfold setter_call, this. destruct bc; split_ty f; try destruct (is_integer_backed bf); cbn; rewrite ?app_nil_r; reflexivity.
Qed.
Lemma put_scope bf bc f e G : sl G (put bf bc f e) = se (at_put bf f G) e.
Proof.
  unfold put, at_put. fb f; destruct (is_integer_backed bf), bc; split_ty f; cbn; rewrite ?app_nil_r; reflexivity.
Qed.
Lemma setter_after bf bc f e G : after G (setter_call bf bc f e) = G.
Proof. reflexivity. Qed.
Lemma put_after bf bc f e G : small G -> small (after G (put bf bc f e)).
Proof. unfold put. destruct (is_integer_backed bf); split_ty f; revert G; sm. Qed.
Definition at_assign (bf : bitfield) (f : field) (G : list string) : list string :=
  if has_setter f then G else at_put bf f G.
Lemma assign_scope bf f e G : sl G (assign bf f e) = se (at_assign bf f G) e.
Proof. unfold assign, at_assign. destruct (has_setter f); [apply setter_scope|apply put_scope]. Qed.
Lemma assign_after bf f e G : small G -> small (after G (assign bf f e)).
Proof. unfold assign. destruct (has_setter f); [trivial|apply put_after]. Qed.
Lemma default_scope bf f G : sl G (default_stmts marked bf f) = [(mark f, at_assign bf f G)].
Proof. unfold default_stmts. rewrite assign_scope. reflexivity. Qed.
Lemma at_small bf f G : small G -> small (at_assign bf f G).
Proof.
  unfold at_assign, at_put. destruct (has_setter f), (is_integer_backed bf); try trivial.
  split_ty f; try trivial; apply small_cons; reflexivity.
Qed.
Lemma default_good bf f : good (default_stmts marked bf f).
Proof.
  intros G H. rewrite default_scope. split; [|apply assign_after; exact H].
  intros p [<-|[]]. apply at_small. exact H.
Qed.
Lemma defaults_good bf : good (defaults marked bf).
Proof. apply g_flat. intro f. apply default_good. Qed.
Lemma zero_stmts_quiet bf f : quiet (assign bf f (zero_expr bf f)).
Proof. intro G. rewrite assign_scope. apply zero_quiet. Qed.
Lemma zero_good bf f : good (assign bf f (zero_expr bf f)).
Proof. apply g_quiet; [apply zero_stmts_quiet|]. intro G. apply assign_after. Qed.
Lemma new_impl_good bf d : good (new_impl marked bf d).
Proof.
  unfold new_impl. apply g_cat; [apply g_flat; intro f; apply zero_good|].
  apply g_cat; destruct d; try exact g_nil; [apply defaults_good|apply g_flat; intro f; apply default_good].
Qed.
Lemma from_var_quiet bf us cb chk bc f : quiet (set_from_var bf us cb chk bc f).
Proof.
  unfold set_from_var. cbv zeta. destruct (bc && (has_setter f && us)) eqn:B.
  { intro G. apply andb_true_iff in B as [-> _]. split_ty f; destruct chk; reflexivity. }
  apply q_cat.
  { destruct (_ && negb _); [|exact q_nil]. intro G. unfold signed_check. split_ty f; try reflexivity; destruct (_ <=? _)%Z; reflexivity. }
  apply q_cat; [apply extract_quiet|]. apply q_cat.
  { destruct (_ && negb _); [|exact q_nil]. intro G. reflexivity. }
  intro G. destruct (has_setter f && us); [rewrite setter_scope|rewrite put_scope]; apply value_quiet.
Qed.
Lemma from_var_after bf us cb chk f G : small G -> small (after G (set_from_var bf us cb chk false f)).
Proof.
  intro H. unfold set_from_var. cbv zeta. cbn [andb]. rewrite !after_app.
  assert (A : forall b G', after G' (if b : bool then signed_check f else []) = G').
  { intros [] G'; [|reflexivity]. unfold signed_check. split_ty f; try reflexivity; destruct (_ <=? _)%Z; reflexivity. }
  rewrite A.
  assert (B : forall b G', after G' (if b : bool then [unsigned_check] else []) = G') by (intros [] G'; reflexivity).
  rewrite B. destruct (has_setter f && us); [rewrite setter_after|apply put_after]; apply extract_after; exact H.
Qed.
Lemma copy_good bf sel : good (copy_all bf sel).
Proof. apply g_flat. intro f. apply g_quiet; [apply from_var_quiet|]. intro G. apply from_var_after. Qed.
Lemma copy_quiet bf sel : quiet (copy_all bf sel).
Proof. apply q_flat. intro f. apply from_var_quiet. Qed.
Lemma init_quiet bf bc : quiet_e (init bf bc).
Proof. intro G. unfold init. destruct (b_ty bf); try destruct (a_array_heap (b_args bf)); reflexivity. Qed.
Lemma load_quiet bf : quiet_e (load bf).
Proof. intro G. unfold load. destruct (is_heap bf); reflexivity. Qed.

(** ** Functions *)

Definition fine (i : fn) : Prop := forall p, In p (scopes i) -> small (snd p).
Definition silent (i : fn) : Prop := scopes i = [].
Lemma silent_fine i : silent i -> fine i.
Proof. intros H p Hp. rewrite H in Hp. destruct Hp. Qed.
Lemma fine_intro n c v ps r l e :
  small (map fst ps) -> good l -> match e with Some e => quiet_e e | None => True end ->
  fine (mkFn n c v ps r (Block l e)).
Proof.
  intros P L E p. unfold scopes. cbn [fn_params fn_recv fn_body]. rewrite sb_eq.
  assert (S : small (map fst ps ++ match v with NoRecv => [] | _ => ["self"] end)).
  { unfold small. rewrite forallb_app, P. destruct v; reflexivity. }
  intro H. apply in_app_or in H as [H|H]; [exact (proj1 (L _ S) p H)|].
  destruct e as [e|]; [rewrite E in H|]; destruct H.
Qed.
Lemma silent_intro n c v ps r l e :
  quiet l -> match e with Some e => quiet_e e | None => True end -> silent (mkFn n c v ps r (Block l e)).
Proof.
  intros L E. unfold silent, scopes. cbn [fn_params fn_recv fn_body]. rewrite sb_eq, L.
  destruct e as [e|]; [rewrite E|]; reflexivity.
Qed.
Lemma bob_member bf : member (bob bf) = true.
Proof. unfold bob. destruct (is_integer_backed bf); reflexivity. Qed.
Lemma bob_small bf (t : ty) : small (map fst [(bob bf, t)]).
Proof. apply small_cons; [apply bob_member|reflexivity]. Qed.
Lemma bob_quiet bf : quiet_e (EVar (bob bf)).
Proof. intro G. unfold bob. destruct (is_integer_backed bf); reflexivity. Qed.
Ltac q := intro; reflexivity.
Ltac sil := unfold method; apply silent_intro; [|first [exact I|q|idtac]].
Ltac fin := unfold method; apply fine_intro; [first [reflexivity|apply bob_small]| |first [exact I|q|idtac]].
Ltac this := first [apply q_one; [q|] | unfold this_self, let_; apply g_let; [reflexivity|q|]].

Lemma new_stmts_good bf d bc : good (new_stmts marked bf d bc).
Proof. unfold new_stmts. apply g_let; [reflexivity|apply init_quiet|apply new_impl_good]. Qed.
Lemma new_fns_fine bf : fine (new_fn marked bf) /\ fine (new_without_defaults_fn marked bf).
Proof. split; unfold new_fn, new_without_defaults_fn; fin; apply new_stmts_good. Qed.
Lemma default_fn_fine bf : fine (default_fn marked bf).
Proof.
  unfold default_fn. destruct (a_new (b_args bf)); fin; [exact g_nil|].
  unfold letmut. apply g_let; [reflexivity|apply init_quiet|apply defaults_good].
Qed.
Lemma clear_all_fine bf d : fine (clear_all_fn marked bf d).
Proof. unfold clear_all_fn. fin. this. apply new_impl_good. Qed.
Lemma clear_default_fine bf f : fine (clear_default_fn marked bf f).
Proof. unfold clear_default_fn. fin. this. apply default_good. Qed.
Lemma xor_good bf z : quiet_e z -> good (xor_loop bf z).
Proof. intro Z. unfold xor_loop, letmut. apply g_let; [reflexivity|exact Z|]. intros G H. split; [intros p []|exact H]. Qed.
Lemma convert_good bf e : good (write_convert bf e).
Proof.
  unfold write_convert, let_, letmut. destruct e; [|exact g_nil].
  destruct (is_integer_backed bf); (apply g_let; [reflexivity|q|]); [exact g_nil|apply xor_good; q].
Qed.
Lemma write_fine bf v d : fine (write_fn marked bf v d).
Proof.
  unfold write_fn. fin. this. unfold let_. apply g_let; [reflexivity|apply bob_quiet|].
  apply g_cat; [apply convert_good|]. apply g_cat; [apply copy_good|]. destruct d; [apply defaults_good|exact g_nil].
Qed.
Lemma write_defaults_fine bf : fine (write_defaults_fn marked bf).
Proof. unfold write_defaults_fn. fin. this. apply defaults_good. Qed.
Lemma from_tail_good bf d : good (from_tail marked bf d).
Proof.
  unfold from_tail, letmut. apply g_let; [reflexivity|apply init_quiet|].
  apply g_cat; [apply copy_good|]. destruct d; [apply defaults_good|exact g_nil].
Qed.
Lemma from_fine bf v d : fine (from_fn marked bf v d).
Proof.
  unfold from_fn. fin. apply g_cat; [|apply from_tail_good]. unfold from_convert, let_, letmut. cbv zeta.
  destruct (is_integer_backed bf).
  - destruct v; try (apply g_let; [reflexivity|q|]); try exact g_nil.
    destruct (Gen.variant_endian _ _); [apply g_let; [reflexivity|q|]|]; exact g_nil.
  - destruct (Gen.variant_endian _ _); (apply g_let; [reflexivity|q|]); [exact g_nil|apply xor_good; q].
Qed.
Lemma slice_good bf e : good (slice_convert bf e).
Proof. unfold slice_convert. destruct e; [exact g_nil|apply xor_good; q]. Qed.
Lemma copy_loop_good d s b : is_mark d = false -> is_mark s = false -> quiet_e b -> good (copy_loop d s b).
Proof.
  intros D S B. unfold copy_loop, letmut. apply g_let; [reflexivity|q|]. intros G H. split; [|exact H].
  intros p Hp. exfalso. revert Hp. cbn. rewrite D, S, B. cbn. exact (fun x => x).
Qed.
Lemma from_slice_fine bf v d : fine (from_slice_fn marked bf v d) /\ fine (checked_from_slice_fn marked bf v d).
Proof.
  split; unfold from_slice_fn, checked_from_slice_fn, zero_bits, let_; fin.
  - apply g_let; [reflexivity|q|]. apply g_let; [reflexivity|q|].
    apply g_cat; [apply copy_loop_good; [reflexivity|reflexivity|q]|].
    apply g_cat; [apply slice_good|apply from_tail_good].
  - apply (g_cat [size_check bf Gen.msg_fill]); [intros G H; split; [intros p []|exact H]|].
    apply g_let; [reflexivity|q|]. apply g_cat; [apply copy_loop_good; [reflexivity|reflexivity|q]|].
    apply g_cat; [apply slice_good|apply from_tail_good].
Qed.

(** Functions without default expressions. *)
Lemma value_ret_quiet bf f : quiet_e (value_ret bf f) /\ quiet_e (value_to_field bf f).
Proof. unfold value_ret, value_to_field. split; intro G; split_ty f; destruct (is_integer_backed bf); reflexivity. Qed.
Lemma getter_silent bf f : silent (getter_fn bf f).
Proof.
  unfold getter_fn. sil; [|apply value_ret_quiet]. this. apply q_cat; [apply extract_quiet|].
  intro G. unfold sign_extend. split_ty f; reflexivity.
Qed.
Lemma setter_silent bf f : silent (setter_fn bf f) /\ silent (checked_setter_fn bf f).
Proof. split; unfold setter_fn, checked_setter_fn; sil; this; apply from_var_quiet. Qed.
Lemma clear_silent bf f : silent (clear_fn bf f).
Proof. unfold clear_fn. sil. this. apply zero_stmts_quiet. Qed.
Lemma mask_quiet bf p G : ss G (protected_mask bf p) = [].
Proof. unfold protected_mask. destruct (b_ty bf); reflexivity. Qed.
Lemma invert_all_silent bf : silent (invert_all_fn bf).
Proof.
  unfold invert_all_fn. sil. this. apply q_cat; [|apply copy_quiet].
  destruct (is_integer_backed bf); (apply q_one; [first [q|exact (load_quiet bf)]|]);
    (apply q_one; [intro; apply mask_quiet|q]).
Qed.
Lemma invert_silent bf f : silent (invert_fn bf f) /\ silent (inverted_fn bf f).
Proof.
  destruct (value_ret_quiet bf f) as [_ V]. split; unfold invert_fn, inverted_fn; sil; try exact V; this.
  - apply q_cat; [apply extract_quiet|]. apply q_one; [|q]. intro G. cbn [ss se]. rewrite V. reflexivity.
  - apply extract_quiet.
Qed.
Lemma into_silent bf v : silent (into_fn bf v).
Proof.
  unfold into_fn. cbv zeta. destruct (is_integer_backed bf), (Gen.variant_endian _ _); sil; try apply load_quiet; this; try q.
  apply q_one; [exact (load_quiet bf)|q].
Qed.
Lemma get_bits_quiet bf e : quiet (get_bits_var bf e).
Proof. unfold get_bits_var. destruct e; (apply q_one; [exact (load_quiet bf)|q]). Qed.
Lemma into_slice_silent bf v : silent (into_slice_fn bf v) /\ silent (checked_into_slice_fn bf v).
Proof.
  split; unfold into_slice_fn, checked_into_slice_fn; sil; this.
  - apply q_cat; [apply get_bits_quiet|q].
  - apply q_one; [q|]. apply q_cat; [apply get_bits_quiet|q].
Qed.
Lemma trait_convert_quiet bf e x : (forall b : bool, quiet_e (if b then EUn UDeref x else x)) ->
  forall dr, quiet_e (trait_convert bf e x dr).
Proof.
  intros H dr G. unfold trait_convert. cbv zeta. pose proof (H false G) as A. pose proof (H dr G) as B.
  destruct e, (is_integer_backed bf); cbn [se]; try assumption. rewrite sb_eq. cbn [sl ss letmut]. 
  rewrite B. reflexivity.
Qed.
Lemma trait_from_silent bf : silent (trait_from_fn bf).
Proof.
  unfold trait_from_fn. apply silent_intro; [|q]. apply q_one; [exact (init_quiet bf false)|].
  apply q_one; [|apply copy_quiet]. intro G. cbn [ss let_]. apply trait_convert_quiet.
  intros [] G'; [exact (bob_quiet bf G')|exact (bob_quiet bf G')].
Qed.
Lemma trait_into_silent bf : silent (trait_into_fn bf).
Proof. unfold trait_into_fn. apply silent_intro; [q|]. apply trait_convert_quiet. intros [] G; reflexivity. Qed.
Lemma debug_silent bf : silent (debug_fn bf).
Proof.
  unfold debug_fn. apply silent_intro; [|q]. this. apply q_one; [q|]. apply q_flat. intro f.
  apply q_cat; [apply extract_quiet|q].
Qed.
Lemma check_quiet bf r : quiet r -> (forall G, ss G (offset_check bf r) = []) /\ (forall G, ss G (length_check bf r) = []).
Proof.
  intro H. unfold offset_check, length_check, total_bits, if_.
  split; intro G; cbn [ss se]; rewrite !sb_eq, H; destruct (b_ty bf); reflexivity.
Qed.
Lemma guards_quiet bf p r : quiet r -> quiet (guards bf p r).
Proof.
  intro H. unfold guards. apply q_map. intros f G. destruct (b_ignored bf); unfold if_; cbn [ss se]; rewrite !sb_eq, H; reflexivity.
Qed.
Ltac checks := apply q_one; [apply check_quiet; q|].
Lemma set_bit_silent bf : silent (set_bit_fn bf) /\ silent (checked_set_bit_fn bf).
Proof.
  split; unfold set_bit_fn, checked_set_bit_fn; sil; this; checks; (apply q_cat; [apply guards_quiet; q|]);
    unfold set_bit_stmts; destruct (is_integer_backed bf); q.
Qed.
Lemma get_bit_silent bf : silent (get_bit_fn bf) /\ silent (checked_get_bit_fn bf).
Proof.
  split; unfold get_bit_fn, checked_get_bit_fn, get_bit_expr, get_bit_stmts; sil;
    try (this; checks; apply q_cat; [apply guards_quiet; q|]); destruct (is_integer_backed bf); q.
Qed.
Ltac masked := repeat first [apply q_one; [intro; first [reflexivity|apply mask_quiet]|] | q].
Lemma set_range_silent bf : silent (set_range_fn bf) /\ silent (checked_set_range_fn bf).
Proof.
  split; unfold set_range_fn, checked_set_range_fn; sil; this; checks; checks;
    destruct (is_integer_backed bf); masked.
Qed.
Lemma zero_ret_quiet bf : quiet (ret_zero bf).
Proof. intro G. unfold ret_zero. destruct (is_integer_backed bf); reflexivity. Qed.
Lemma get_range_silent bf : silent (get_range_fn bf) /\ silent (checked_get_range_fn bf).
Proof.
  split; unfold get_range_fn, checked_get_range_fn; sil; try (destruct (is_integer_backed bf); q); this.
  - apply q_one; [apply check_quiet, zero_ret_quiet|]. apply q_one; [apply check_quiet, zero_ret_quiet|].
    destruct (is_integer_backed bf); masked.
  - checks. checks. destruct (is_integer_backed bf); masked.
Qed.
Lemma with_silent bf f : silent (with_fn bf f) /\ silent (checked_with_fn bf f).
Proof. split; unfold with_fn, checked_with_fn; sil; apply from_var_quiet. Qed.

(** ** Expressions that avoid the names *)

Definition same (C1 C2 : tctx) (l : list string) : Prop := forall x, In x l -> lookup x C1 = lookup x C2.
Lemma same_l C1 C2 a b : same C1 C2 (a ++ b) -> same C1 C2 a.
Proof. intros H x Hx. apply H, in_or_app. now left. Qed.
Lemma same_r C1 C2 a b : same C1 C2 (a ++ b) -> same C1 C2 b.
Proof. intros H x Hx. apply H, in_or_app. now right. Qed.
Lemma same_let C1 C2 p l : same C1 C2 l -> same (p :: C1) (p :: C2) l.
Proof. intros H x Hx. destruct p as [y q]. cbn [lookup]. destruct (String.eqb x y); [reflexivity|]. exact (H x Hx). Qed.
Lemma same_place G C1 C2 e : same C1 C2 (ve e) -> place G C1 e = place G C2 e.
Proof.
  induction e; intro S; try reflexivity.
  - cbn [place]. rewrite (S x (or_introl eq_refl)). reflexivity.
  - cbn [place]. rewrite IHe by exact S. reflexivity.
  - cbn [place]. rewrite IHe by exact S. reflexivity.
Qed.
Lemma vb_cons s l e : vb (Block (s :: l) e) = vs s ++ vb (Block l e).
Proof. reflexivity. Qed.
Definition same_elab (e : expr) : Prop := forall G C1 C2 h, same C1 C2 (ve e) -> elab G C1 h e = elab G C2 h e.
Definition same_elab_s (s : stmt) : Prop := forall G C1 C2, same C1 C2 (vs s) ->
  elab_stmt G C1 s = elab_stmt G C2 s.
Definition same_let_s (s : stmt) : Prop := match s with SLet _ _ _ e => same_elab e | _ => True end.
Lemma same_block l e : (match e with Some e => same_elab e | None => True end) ->
  Forall (fun s => same_elab_s s /\ same_let_s s) l ->
  forall G C1 C2 h, same C1 C2 (vb (Block l e)) -> elab_block G C1 h (Block l e) = elab_block G C2 h (Block l e).
Proof.
  intros E L. induction L as [|s l [A B] _ IH]; intros G C1 C2 h S.
  - destruct e as [e|]; [exact (E G C1 C2 h S)|reflexivity].
  - rewrite vb_cons in S. pose proof (same_l _ _ _ _ S) as Sl. pose proof (same_r _ _ _ _ S) as Sr.
    assert (N : forall p, elab_block G (p :: C1) h (Block l e) = elab_block G (p :: C2) h (Block l e))
      by (intro p; apply IH, same_let, Sr).
    specialize (IH G C1 C2 h Sr). specialize (A G C1 C2 Sl).
    destruct s as [m x o d| | | | | | |];
      try (cbn [elab_block] in *; rewrite A, IH; reflexivity).
    cbn [same_let_s] in B. pose proof (fun h => B G C1 C2 h Sl) as B'.
    cbn [elab_block] in *. destruct o as [t|].
    + rewrite B'. destruct (elab G C2 (Some t) d) as [[te dd]|]; [|reflexivity].
      destruct (ty_eqb te t); [|reflexivity]. rewrite N. reflexivity.
    + destruct (open_lit d) as [ts|].
      * induction ts as [|t ts IHt]; [reflexivity|]. cbn [first_some]. rewrite B'.
        destruct (elab G C2 (Some t) d) as [[te dd]|]; [|exact IHt].
        destruct (ty_eqb te t); [|exact IHt]. rewrite N, IHt. reflexivity.
      * rewrite B'. destruct (elab G C2 None d) as [[te dd]|]; [|reflexivity]. rewrite N. reflexivity.
Qed.
Fixpoint agree_e (e : expr) : same_elab e
with agree_b (b : block) : forall G C1 C2 h, same C1 C2 (vb b) -> elab_block G C1 h b = elab_block G C2 h b
with agree_s (s : stmt) : same_elab_s s.
Proof.
  - destruct e; intros G C1 C2 h S; try reflexivity; cbn [ve] in S.
    + (* variable *) cbn [elab]. rewrite (S x (or_introl eq_refl)). reflexivity.
    + (* unary *) destruct o.
      * cbn [elab]. rewrite (agree_e e G C1 C2 h S). reflexivity.
      * destruct e; reflexivity.
      * cbn [elab]. rewrite (same_place G C1 C2 e S). reflexivity.
    + (* binary *) pose proof (same_l _ _ _ _ S) as S1. pose proof (same_r _ _ _ _ S) as S2.
      destruct o; cbn [elab is_shift is_compare];
        first [ rewrite (agree_e e1 G C1 C2 None S1), (agree_e e2 G C1 C2 None S2); reflexivity
              | rewrite (agree_e e1 G C1 C2 h S1), (agree_e e2 G C1 C2 None S2); reflexivity
              | rewrite (agree_e e1 G C1 C2 h S1); destruct (elab G C2 h e1) as [[t d]|]; [|reflexivity];
                rewrite (agree_e e2 G C1 C2 (Some t) S2); reflexivity
              | rewrite (agree_e e1 G C1 C2 None S1); destruct (elab G C2 None e1) as [[t d]|]; [|reflexivity];
                rewrite (agree_e e2 G C1 C2 (Some t) S2); reflexivity ].
    + (* cast *) cbn [elab]. destruct t as [t|]; [|destruct h as [t|]; [|reflexivity]].
      * rewrite (agree_e e G C1 C2 (cast_hint e t) S). reflexivity.
      * rewrite (agree_e e G C1 C2 None S). reflexivity.
    + (* index *) cbn [elab]. rewrite (same_place G C1 C2 e1 (same_l _ _ _ _ S)), (agree_e e2 G C1 C2 _ (same_r _ _ _ _ S)). reflexivity.
    + cbn [elab]. rewrite (same_place G C1 C2 e S). reflexivity.
    + cbn [elab]. rewrite (same_place G C1 C2 e S). reflexivity.
    + (* if *) cbn [elab]. pose proof (same_r _ _ _ _ S) as S2.
      rewrite (agree_e e G C1 C2 _ (same_l _ _ _ _ S)), (agree_b a G C1 C2 h (same_l _ _ _ _ S2)), (agree_b b G C1 C2 h (same_r _ _ _ _ S2)).
      reflexivity.
    + cbn [elab]. exact (agree_b b G C1 C2 h S).
    + (* from_bits *) cbn [elab]. destruct (g_codec G x); [|reflexivity]. rewrite (agree_e e G C1 C2 _ S). reflexivity.
    + cbn [elab]. rewrite (agree_e e G C1 C2 _ S). reflexivity.
    + cbn [elab]. rewrite (agree_e e G C1 C2 _ S). reflexivity.
    + cbn [elab]. rewrite (same_place G C1 C2 e S). reflexivity.
    + (* call *) cbn [elab]. rewrite (same_place G C1 C2 e1 (same_l _ _ _ _ S)).
      destruct (place G C2 e1) as [[[[] []] p]|]; try reflexivity.
      destruct (g_fn G f) as [[[] [|ta []] tr cf]|]; try reflexivity.
      rewrite (agree_e e2 G C1 C2 _ (same_r _ _ _ _ S)). reflexivity.
    + cbn [elab]. rewrite (agree_e e G C1 C2 _ S). reflexivity.
    + cbn [elab]. rewrite (agree_e e G C1 C2 _ S). reflexivity.
    + cbn [elab]. rewrite (agree_e e G C1 C2 _ S). reflexivity.
    + cbn [elab]. rewrite (agree_e e G C1 C2 _ S). reflexivity.
    + cbn [elab]. rewrite (agree_e e G C1 C2 _ S). reflexivity.
    + (* contains *) cbn [elab]. pose proof (same_r _ _ _ _ S) as S2.
      rewrite (agree_e e1 G C1 C2 _ (same_l _ _ _ _ S)), (agree_e e2 G C1 C2 _ (same_l _ _ _ _ S2)), (agree_e e3 G C1 C2 _ (same_r _ _ _ _ S2)).
      reflexivity.
    + cbn [elab]. rewrite (agree_e e G C1 C2 _ S). reflexivity.
  - destruct b as [l e]. apply same_block.
    + destruct e as [e|]; [exact (agree_e e)|exact I].
    + induction l as [|s l IH]; constructor; [|exact IH]. split; [exact (agree_s s)|].
      destruct s; try exact I. exact (agree_e e0).
  - destruct s; intros G C1 C2 S; try reflexivity; cbn [vs] in S.
    + (* set *) destruct p; try reflexivity; cbn [elab_stmt].
      * pose proof (same_l _ _ _ _ S) as Sp. cbn [ve] in Sp.
        rewrite (same_place G C1 C2 p1 (same_l _ _ _ _ Sp)), (agree_e p2 G C1 C2 _ (same_r _ _ _ _ Sp)).
        destruct (place G C2 p1) as [[[t []] q]|]; try reflexivity.
        destruct (elab G C2 (Some TUsize) p2) as [[[] di]|]; try reflexivity.
        destruct (elem t); [|reflexivity]. rewrite (agree_e e G C1 C2 _ (same_r _ _ _ _ S)). reflexivity.
      * rewrite (same_place G C1 C2 p (same_l _ _ _ _ S)), (agree_e e G C1 C2 _ (same_r _ _ _ _ S)). reflexivity.
    + (* op *) pose proof (same_l _ _ _ _ S) as Sp. pose proof (same_r _ _ _ _ S) as Se.
      assert (D : match p with EIndex _ _ => False | _ => True end -> elab_stmt G C1 (SOp o p e) = elab_stmt G C2 (SOp o p e)).
      { intro D. pose proof (same_place G C1 C2 p Sp) as P.
        destruct p; try destruct D; cbn [elab_stmt]; rewrite P;
          match goal with |- context [place G C2 ?q] => destruct (place G C2 q) as [[[tp []] q']|] end; try reflexivity;
          rewrite (agree_e e G C1 C2 (Some tp) Se); reflexivity. }
      destruct p; try exact (D I). clear D. cbn [elab_stmt]. cbn [ve] in Sp.
      rewrite (same_place G C1 C2 p1 (same_l _ _ _ _ Sp)), (agree_e p2 G C1 C2 _ (same_r _ _ _ _ Sp)).
      destruct (place G C2 p1) as [[[t []] q]|]; try reflexivity.
      destruct (elab G C2 (Some TUsize) p2) as [[[] di]|]; try reflexivity.
      destruct (elem t) as [te|]; [|reflexivity]. rewrite (agree_e e G C1 C2 _ Se). reflexivity.
    + cbn [elab_stmt]. rewrite (agree_e e G C1 C2 _ S). reflexivity.
    + cbn [elab_stmt]. rewrite (agree_e c G C1 C2 _ (same_l _ _ _ _ S)), (agree_b b G C1 C2 _ (same_r _ _ _ _ S)). reflexivity.
    + destruct e as [e|]; [|reflexivity]. cbn [elab_stmt]. rewrite (agree_e e G C1 C2 _ S). reflexivity.
    + cbn [elab_stmt]. rewrite (agree_e e G C1 C2 _ S). reflexivity.
    + cbn [elab_stmt]. assert (P : same C1 C2 (ve (EVar x))) by (intros y [<-|[]]; apply S; now left).
      rewrite (same_place G C1 C2 (EVar x) P), (agree_e e G C1 C2 _ (fun y H => S y (or_intror H))). reflexivity.
Qed.

(** ** C72 *)

Lemma impl_fine bf i : In i (impl_fns marked bf) -> fine i.
Proof.
  assert (M : forall (h : field -> fn) p, (forall f, fine (h f)) ->
              In i (map h (filter p (b_fields bf))) -> fine i)
    by (intros h p H I; apply in_map_iff in I as (f & <- & _); apply H).
  assert (O : forall b l, (In i l -> fine i) -> In i (opt b l) -> fine i)
    by (intros [] l H; [exact H|intros []]).
  unfold impl_fns. intro H. cbv zeta in H.
  apply in_app_or in H as [H|H].
  { revert H. apply O. intros [<-|[<-|[]]]; [exact (proj1 (new_fns_fine bf))|exact (proj2 (new_fns_fine bf))]. }
  apply in_app_or in H as [H|H].
  { revert H. apply O. unfold conversions. intro H.
    apply in_app_or in H as [H|H].
    { apply in_flat_map in H as (v & _ & [<-|[<-|[]]]); apply from_fine. }
    apply in_app_or in H as [H|H].
    { destruct (is_integer_backed bf); [destruct H|].
      apply in_flat_map in H as (v & _ & [<-|[<-|[<-|[<-|[]]]]]);
        [exact (proj1 (from_slice_fine bf v false))|exact (proj1 (from_slice_fine bf v true))
        |exact (proj2 (from_slice_fine bf v false))|exact (proj2 (from_slice_fine bf v true))]. }
    apply in_app_or in H as [H|H].
    { apply in_map_iff in H as (v & <- & _). apply silent_fine, into_silent. }
    destruct (is_integer_backed bf); [destruct H|].
    apply in_flat_map in H as (v & _ & [<-|[<-|[]]]); apply silent_fine;
      [exact (proj1 (into_slice_silent bf v))|exact (proj2 (into_slice_silent bf v))]. }
  apply in_app_or in H as [H|H]; [exact (M _ _ (fun f => silent_fine _ (getter_silent bf f)) H)|].
  apply in_app_or in H as [H|H].
  { apply in_flat_map in H as (f & _ & [<-|[<-|[]]]); apply silent_fine;
      [exact (proj1 (setter_silent bf f))|exact (proj2 (setter_silent bf f))]. }
  apply in_app_or in H as [H|H].
  { revert H. apply O. intro H. apply in_app_or in H as [H|[<-|[]]]; [|apply write_defaults_fine].
    apply in_flat_map in H as (v & _ & [<-|[<-|[]]]); apply write_fine. }
  apply in_app_or in H as [H|H].
  { revert H. apply O. intros [<-|[<-|[<-|[<-|[<-|[<-|[<-|[<-|[]]]]]]]]]; apply silent_fine;
      [exact (proj1 (set_bit_silent bf))|exact (proj2 (set_bit_silent bf))|exact (proj1 (set_range_silent bf))
      |exact (proj2 (set_range_silent bf))|exact (proj1 (get_bit_silent bf))|exact (proj2 (get_bit_silent bf))
      |exact (proj1 (get_range_silent bf))|exact (proj2 (get_range_silent bf))]. }
  apply in_app_or in H as [H|H].
  { revert H. apply O. intros [<-|[<-|H]]; [apply clear_all_fine|apply clear_all_fine|].
    apply in_app_or in H as [H|H];
      [exact (M _ _ (fun f => silent_fine _ (clear_silent bf f)) H)|exact (M _ _ (clear_default_fine bf) H)]. }
  revert H. apply O. intros [<-|H]; [apply silent_fine, invert_all_silent|].
  apply in_app_or in H as [H|H];
    [exact (M _ _ (fun f => silent_fine _ (proj1 (invert_silent bf f))) H)
    |exact (M _ _ (fun f => silent_fine _ (proj2 (invert_silent bf f))) H)].
Qed.
Lemma trait_fine bf q : In q (trait_fns marked bf) -> fine (snd q).
Proof.
  unfold trait_fns. intro H. apply in_app_or in H as [H|H].
  { destruct (a_from_traits (b_args bf)); [|destruct H].
    destruct H as [<-|[<-|[]]]; apply silent_fine; [apply trait_from_silent|apply trait_into_silent]. }
  apply in_app_or in H as [H|H].
  { destruct (a_default (b_args bf)); [|destruct H]. destruct H as [<-|[]]. apply default_fn_fine. }
  destruct (a_debug (b_args bf)); [|destruct H]. destruct H as [<-|[]]. apply silent_fine, debug_silent.
Qed.
Lemma builder_fine bf i : In i (builder_fns marked bf) -> fine i.
Proof.
  unfold builder_fns. destruct (a_builder (b_args bf)); [|intros []]. intro H.
  assert (N : forall d, fine (builder_new_fn marked bf d)).
  { intro d. unfold builder_new_fn. cbv zeta. destruct (a_new (b_args bf)); fin; [exact g_nil|apply new_stmts_good]. }
  apply in_app_or in H as [[<-|[<-|[]]]|H]; [apply N|apply N|].
  apply in_app_or in H as [H|[<-|[]]]; [|apply silent_fine; reflexivity].
  apply in_flat_map in H as (f & _ & [<-|[<-|[]]]); apply silent_fine; [exact (proj1 (with_silent bf f))|exact (proj2 (with_silent bf f))].
Qed.
Lemma all_fine bf i : In i (all_fns bf) -> fine i.
Proof.
  unfold all_fns, own_fns, foreign_fns. intro H.
  apply in_app_or in H as [H|H]; apply in_app_or in H as [H|H]; [exact (impl_fine bf i H)| |exact (builder_fine bf i H)|];
    apply in_map_iff in H as (q & <- & H); apply filter_In in H as [H _]; exact (trait_fine bf q H).
Qed.

(** The locals in scope at a default expression, in any function of any bitfield. *)
Theorem C72_scope bf i x G y : In i (all_fns bf) -> In (x, G) (scopes i) -> In y G ->
  In y ["self"; "this"; "bits"; "bytes"; "slice"; "copy_len"; "i"; "mask"; "value"; "field_bits"].
Proof. intros H S Hy. apply (all_fine bf i H) in S. exact (proj1 (small_in G) S y Hy). Qed.

(** So an expression that uses none of these names has there the type and the meaning
    it has where no local is in scope. *)
Theorem C72_partial bf i x G e :
  In i (all_fns bf) -> In (x, G) (scopes i) -> (forall y, In y (ve e) -> ~ In y reserved) ->
  forall E C h, map fst C = G -> elab E C h e = elab E [] h e.
Proof.
  intros H S V E C h HC. apply agree_e. intros y Hy. cbn [lookup].
  assert (N : ~ In y (map fst C)).
  { rewrite HC. intro Hg. exact (V y Hy (C72_scope bf i x G y H S Hg)). }
  clear - N. induction C as [|[z q] C IH]; [reflexivity|]. cbn [lookup].
  destruct (String.eqb y z) eqn:Q; [apply String.eqb_eq in Q; subst z; destruct N; now left|].
  apply IH. intro A. apply N. now right.
Qed.

(** None of the ten names is there in vain. *)
Definition seen (bf : bitfield) (y : string) : bool :=
  existsb (fun i => existsb (fun p => existsb (String.eqb y) (snd p)) (scopes i)) (all_fns bf).
Lemma seen_ok bf y : seen bf y = true <-> exists i x G, In i (all_fns bf) /\ In (x, G) (scopes i) /\ In y G.
Proof.
  unfold seen. rewrite existsb_exists. split.
  - intros (i & Hi & H). apply existsb_exists in H as ((x & G) & Hp & H). apply existsb_exists in H as (z & Hz & E).
    apply String.eqb_eq in E. subst z. exists i, x, G. auto.
  - intros (i & x & G & Hi & Hp & Hy). exists i. split; [exact Hi|]. apply existsb_exists. exists (x, G). split; [exact Hp|].
    apply existsb_exists. exists y. split; [exact Hy|apply String.eqb_refl].
Qed.
(** [#[bitfield(u8)] struct Int { #[bits(4, access = ro, default = mask)] a: u8, #[bits(4)] b: u8 }] *)
Definition int_capture : Parser.rdecl :=
  Parser.mkRDecl true VisPublic "Int" (Some (Parser.RPath "u8")) []
    [PropParse.fld "a" (Parser.AList (Parser.RBits 4 "") [("access", "ro"); ("default", "mask")]) (Parser.RPath "u8") (PInt 15);
     PropParse.fld "b" (Parser.AList (Parser.RBits 4 "") []) (Parser.RPath "u8") (PInt 0)].
(** [#[bitfield([u8; 2])] struct Arr { #[bits(4, default = slice)] a: u8, #[bits(12)] b: u16 }] *)
Definition arr_capture : Parser.rdecl :=
  Parser.mkRDecl true VisPublic "Arr" (Some (Parser.RArray (Parser.RPath "u8") (Parser.LenLit 2))) []
    [PropParse.fld "a" (Parser.AList (Parser.RBits 4 "") [("default", "slice")]) (Parser.RPath "u8") (PInt 1);
     PropParse.fld "b" (Parser.AList (Parser.RBits 12 "") []) (Parser.RPath "u16") (PInt 0)].
Theorem C72_exact y :
  (exists m F d bf i x G,
     Parser.parse_bitfield m F d = ConstExpr.POk bf /\ In i (all_fns bf) /\ In (x, G) (scopes i) /\ In y G)
  <-> In y ["self"; "this"; "bits"; "bytes"; "slice"; "copy_len"; "i"; "mask"; "value"; "field_bits"].
Proof.
  split; [intros (m & F & d & bf & i & x & G & _ & Hi & Hp & Hy); exact (C72_scope bf i x G y Hi Hp Hy)|].
  intro H.
  assert (W : seen (SpecEmit.parsed int_capture) y = true \/ seen (SpecEmit.parsed arr_capture) y = true).
  { destruct H as [<-|[<-|[<-|[<-|[<-|[<-|[<-|[<-|[<-|[<-|[]]]]]]]]]]];
      first [left; vm_compute; reflexivity|right; vm_compute; reflexivity]. }
  destruct W as [W|W]; apply seen_ok in W as (i & x & G & W); exists Checked, PropParse.no_feature.
  - exists int_capture, (SpecEmit.parsed int_capture), i, x, G. split; [vm_compute; reflexivity|exact W].
  - exists arr_capture, (SpecEmit.parsed arr_capture), i, x, G. split; [vm_compute; reflexivity|exact W].
Qed.

(** ** [Self] *)

Lemma found_flat {A} (g : A -> list stmt) k a l : In a l -> (forall G, exists G', In (k, G') (sl G (g a))) ->
  forall G, exists G', In (k, G') (sl G (flat_map g l)).
Proof.
  intros H K. induction l as [|b l IH]; [destruct H|]. intro G. cbn [flat_map]. rewrite sl_app.
  destruct H as [->|H].
  - destruct (K G) as (G' & P). exists G'. apply in_or_app. now left.
  - destruct (IH H (after G (g b))) as (G' & P). exists G'. apply in_or_app. now right.
Qed.
Lemma flat_found {A} (g : A -> list stmt) l p : forall G, In p (sl G (flat_map g l)) -> exists a G', In a l /\ In p (sl G' (g a)).
Proof.
  induction l as [|b l IH]; intros G H; [destruct H|]. cbn [flat_map] in H. rewrite sl_app in H.
  apply in_app_or in H as [H|H]; [exists b, G; split; [now left|exact H]|].
  destruct (IH _ H) as (a & G' & Ha & P). exists a, G'. split; [now right|exact P].
Qed.
Lemma defaults_found bf f : In f (b_fields bf) -> has_default f = true ->
  forall G, exists G', In (mark f, G') (sl G (defaults marked bf)).
Proof.
  intros Hf D. unfold defaults. apply (found_flat _ _ f); [apply filter_In; split; assumption|].
  intro G. exists (at_assign bf f G). rewrite default_scope. now left.
Qed.
(** A default expression is put where [Self] is not the bitfield exactly in the builder
    of a bitfield without [new]. *)
Theorem C72_self_exact bf x :
  (exists i G, In i (foreign_fns bf) /\ In (x, G) (scopes i))
  <-> a_builder (b_args bf) = true /\ a_new (b_args bf) = false
      /\ exists f, In f (b_fields bf) /\ has_default f = true /\ x = mark f.
Proof.
  unfold foreign_fns. split.
  - intros (i & G & Hi & Hp). apply in_app_or in Hi as [Hi|Hi].
    + unfold builder_fns in Hi. destruct (a_builder (b_args bf)); [|destruct Hi]. split; [reflexivity|].
      assert (N : forall d, i = builder_new_fn marked bf d ->
                  a_new (b_args bf) = false /\ exists f, In f (b_fields bf) /\ has_default f = true /\ x = mark f).
      { intros d ->. unfold builder_new_fn in Hp. cbv zeta in Hp. destruct (a_new (b_args bf)); [destruct Hp|]. split; [reflexivity|].
        unfold method, scopes in Hp. cbn [fn_params fn_recv fn_body map app] in Hp. rewrite sb_eq in Hp.
        apply in_app_or in Hp as [Hp|[]]. unfold new_stmts in Hp. cbn [sl ss] in Hp. rewrite init_quiet in Hp. cbn [app] in Hp.
        unfold new_impl in Hp. rewrite !sl_app in Hp.
        apply in_app_or in Hp as [Hp|Hp]; [rewrite (q_flat _ _ (zero_stmts_quiet bf)) in Hp; destruct Hp|].
        apply in_app_or in Hp as [Hp|Hp].
        - destruct d; [|destruct Hp]. apply flat_found in Hp as (f & G' & Hf & Hp). rewrite default_scope in Hp.
          destruct Hp as [Hp|[]]. apply filter_In in Hf as [Hf D]. exists f. injection Hp as <- _. auto.
        - destruct d; [destruct Hp|]. apply flat_found in Hp as (f & G' & Hf & Hp). rewrite default_scope in Hp.
          destruct Hp as [Hp|[]]. apply filter_In in Hf as [Hf D]. apply andb_true_iff in D as [_ D].
          exists f. injection Hp as <- _. auto. }
      apply in_app_or in Hi as [[Hi|[Hi|[]]]|Hi]; [symmetry in Hi; exact (N _ Hi)|symmetry in Hi; exact (N _ Hi)|].
      exfalso. assert (Q : silent i).
      { apply in_app_or in Hi as [Hi|[<-|[]]]; [|reflexivity].
        apply in_flat_map in Hi as (f & _ & [<-|[<-|[]]]); [exact (proj1 (with_silent bf f))|exact (proj2 (with_silent bf f))]. }
      rewrite Q in Hp. destruct Hp.
    + exfalso. apply in_map_iff in Hi as (q & <- & Hq). apply filter_In in Hq as [Hq B].
      unfold trait_fns in Hq. apply in_app_or in Hq as [Hq|Hq].
      { destruct (a_from_traits (b_args bf)); [|destruct Hq].
        destruct Hq as [<-|[<-|[]]]; [discriminate B|]. cbn [snd] in Hp. rewrite trait_into_silent in Hp. destruct Hp. }
      apply in_app_or in Hq as [Hq|Hq].
      { destruct (a_default (b_args bf)); [|destruct Hq]. destruct Hq as [<-|[]]. discriminate B. }
      destruct (a_debug (b_args bf)); [|destruct Hq]. destruct Hq as [<-|[]]. discriminate B.
  - intros (B & N & f & Hf & D & ->). exists (builder_new_fn marked bf true).
    assert (W : exists G, In (mark f, G) (scopes (builder_new_fn marked bf true))).
    { unfold builder_new_fn. cbv zeta. rewrite N. unfold method, scopes. cbn [fn_params fn_recv fn_body map app].
      rewrite sb_eq. unfold new_stmts. cbn [sl]. unfold new_impl. rewrite !sl_app.
      match goal with |- context [sl ?S (defaults marked bf)] => destruct (defaults_found bf f Hf D S) as (G' & P) end.
      exists G'. apply in_or_app. left. do 2 (apply in_or_app; right). apply in_or_app. left. exact P. }
    destruct W as (G & W). exists G. split; [|exact W].
    apply in_or_app. left. unfold builder_fns. rewrite B. apply in_or_app. left. now left.
Qed.

(** ** The claim is false *)

Definition compiles (dx : field -> expr) (bf : bitfield) (own : bool) (l : list fn) : bool :=
  forallb (fun i => match check_fn (emitted dx bf) own i with Some _ => true | None => false end) l.
Lemma compiles_ok dx bf own l : compiles dx bf own l = true <-> (forall i, In i l -> check_fn (emitted dx bf) own i <> None).
Proof.
  unfold compiles. rewrite forallb_forall. split; intros H i Hi; specialize (H i Hi);
    destruct (check_fn (emitted dx bf) own i); congruence.
Qed.

(** [default = mask] is accepted though [mask] means nothing at the declaration, and
    the value is the macro's own mask. *)
Theorem C72_capture_refuted :
  exists d bf, Parser.parse_bitfield Checked PropParse.no_feature d = ConstExpr.POk bf
  /\ let dx := fun _ : field => EVar "mask" in
     (forall G h f, In f (b_fields bf) -> elab G [] h (dx f) = None)
     /\ (forall i, In i (impl_fns dx bf) -> check_fn (emitted dx bf) true i <> None)
     /\ call (emitted dx bf) Checked 100 3 "new" RU [] = Some (Val (RI 15, RU)).
Proof.
  exists int_capture, (SpecEmit.parsed int_capture). split; [vm_compute; reflexivity|]. cbv zeta.
  split; [reflexivity|]. split; [|vm_compute; reflexivity].
  apply compiles_ok. vm_compute. reflexivity.
Qed.
(** [default = Self::A_BITS]: every function of the bitfield compiles, the builder does
    not, and with the name of the bitfield in place of [Self] it does.
    [#[bitfield(u8, new = false, builder = true)] struct B { #[bits(8, default = Self::A_BITS)] a: u8 }] *)
Definition self_decl : Parser.rdecl :=
  Parser.mkRDecl true VisPublic "B" (Some (Parser.RPath "u8")) [("new", "false"); ("builder", "true")]
    [PropParse.fld "a" (Parser.AList (Parser.RBits 8 "") [("default", "Self::A_BITS")]) (Parser.RPath "u8") (PInt 8)].
Theorem C72_self_refuted :
  exists d bf, Parser.parse_bitfield Checked PropParse.no_feature d = ConstExpr.POk bf
  /\ forall p, let dx := fun _ : field => EConst p "A_BITS" in
     (forall i, In i (impl_fns dx bf) -> check_fn (emitted dx bf) true i <> None)
     /\ ((forall i, In i (builder_fns dx bf) -> check_fn (emitted dx bf) false i <> None) <-> p = PName).
Proof.
  exists self_decl, (SpecEmit.parsed self_decl). split; [vm_compute; reflexivity|]. intros p dx. subst dx. split.
  - apply compiles_ok. destruct p; vm_compute; reflexivity.
  - rewrite <- compiles_ok. destruct p; split; intro H.
    + exfalso. vm_compute in H. discriminate H.
    + discriminate H.
    + reflexivity.
    + vm_compute. reflexivity.
Qed.

(** What is in scope in [from_bits_with_defaults] of the first declaration; and an
    expression without the names. *)
Example C72_ex :
  let bf := SpecEmit.parsed int_capture in
  let i := from_fn marked bf Gen.Configured true in
  In i (all_fns bf)
  /\ scopes i = [("?a", ["mask"; "value"; "mask"; "field_bits"; "mask"; "value"; "mask"; "this"; "bits"; "bits"])]
  /\ (forall y, In y (ve (EBin BAdd (EVar "x") (ELit 1 None))) -> ~ In y reserved).
Proof.
  cbv zeta. split; [|split; [vm_compute; reflexivity|]].
  - unfold all_fns, own_fns. do 2 (apply in_or_app; left). vm_compute. do 3 right. now left.
  - intros y [<-|[]]. intro H. apply member_in in H. discriminate H.
Qed.
(** A bitfield with builder and without [new] whose only field has a default. *)
Example C72_self_ex :
  let bf := SpecEmit.parsed self_decl in
  a_builder (b_args bf) = true /\ a_new (b_args bf) = false
  /\ exists f, In f (b_fields bf) /\ has_default f = true /\ mark f = "?a".
Proof. cbv zeta. do 2 (split; [vm_compute; reflexivity|]). vm_compute. eexists. split; [now left|]. split; reflexivity. Qed.
