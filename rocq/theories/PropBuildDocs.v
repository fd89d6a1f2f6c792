(** Theorems about the build script that copies README.md into the documentation
    of lib.rs: C70. *)
From Coq Require Import List NArith String Bool Lia Arith.
From Verif Require Import BuildDocs.
Import ListNotations.
Local Open Scope N_scope.

(** ** What is claimed, in terms of the texts only *)

Definition occurs (n s : text) : Prop := exists a b, s = a ++ n ++ b.
Definition one_line (s : text) : Prop := ~ In LF s.

(** Lines, each with its line feed. *)
Definition ended (ls : list text) : text := flat_map (fun l => l ++ [LF]) ls.

(** A documentation comment. *)
Definition comment (t : text) : text := lit "/// " ++ t.

(** A text as documentation comments: the line with the start tag ends, and every
    line of the text follows as a comment. *)
Definition comment_of (l k : text) : Prop := (l = [] -> k = lit "///") /\ (l <> [] -> k = comment l).
Definition copied (c m : text) : Prop := exists ks, Forall2 comment_of (lines c) ks /\ m = [LF] ++ ended ks.

(** The last place of [n] in [s], and the first. *)
Definition last_at (n s p q : text) : Prop :=
  s = p ++ n ++ q /\ forall p' q', s = p' ++ n ++ q' -> (List.length p' <= List.length p)%nat.
Definition first_at (n s p q : text) : Prop :=
  s = p ++ n ++ q /\ forall p' q', s = p' ++ n ++ q' -> (List.length p <= List.length p')%nat.

(** The last start tag, and the first end tag after it, both in comments. *)
Definition pair_of (st en s p m r : text) : Prop :=
  exists q, last_at (comment st) s p q /\ first_at (comment en) q m r.

(** ** Searching *)

Lemma strip_some : forall n s r, strip n s = Some r <-> s = n ++ r.
Proof.
  induction n as [|x n IH]; intros s r.
  - cbn. split; [intros H; now inversion H|intros ->; reflexivity].
  - destruct s as [|y s]; cbn [strip app].
    + split; intros H; discriminate H.
    + destruct (N.eqb x y) eqn:E.
      * apply N.eqb_eq in E; subst y. rewrite IH. split; [intros ->; reflexivity|intros H; now inversion H].
      * split; [intros H; discriminate H|]. intros H; inversion H; subst. now rewrite N.eqb_refl in E.
Qed.

Lemma strip_none : forall n s, strip n s = None -> forall r, s <> n ++ r.
Proof. intros n s H r E. apply strip_some in E. now rewrite H in E. Qed.

Lemma cut_some : forall n s b a, cut n s = Some (b, a) ->
  s = b ++ n ++ a /\ forall b' a', s = b' ++ n ++ a' -> (List.length b <= List.length b')%nat.
Proof.
  induction s as [|c s IH]; intros b a H; cbn [cut] in H.
  - destruct (strip n []) as [r|] eqn:E; [|discriminate]. inversion H; subst b a. apply strip_some in E.
    split; [exact E|]. intros; cbn; lia.
  - destruct (strip n (c :: s)) as [r|] eqn:E.
    + inversion H; subst b a. apply strip_some in E. split; [exact E|]. intros; cbn; lia.
    + destruct (cut n s) as [[b1 a1]|] eqn:F; [|discriminate]. inversion H; subst b a.
      destruct (IH _ _ eq_refl) as [H1 H2]. split; [now rewrite H1|].
      intros [|c' b'] a' Q; cbn in Q.
      * exfalso. exact (strip_none _ _ E _ Q).
      * injection Q as _ Q. specialize (H2 b' a' Q). cbn. lia.
Qed.

Lemma cut_none : forall n s, cut n s = None <-> ~ occurs n s.
Proof.
  induction s as [|c s IH]; cbn [cut].
  - destruct (strip n []) as [r|] eqn:E.
    + split; [discriminate|]. intros H. exfalso. apply H. apply strip_some in E. now exists [], r.
    + split; [|reflexivity]. intros _ [a [b Q]].
      destruct a; [|discriminate Q]. exact (strip_none _ _ E _ Q).
  - destruct (strip n (c :: s)) as [r|] eqn:E.
    + split; [discriminate|]. intros H. exfalso. apply H. apply strip_some in E. now exists [], r.
    + destruct (cut n s) as [[b a]|] eqn:F.
      * split; [discriminate|]. intros H. exfalso. apply H.
        apply cut_some in F. destruct F as [F _]. exists (c :: b), a. now rewrite F.
      * split; [|reflexivity]. intros _ [a [b Q]]. destruct a as [|x a].
        -- exact (strip_none _ _ E _ Q).
        -- inversion Q; subst. apply (proj1 IH eq_refl). now exists a, b.
Qed.

Lemma rcut_some : forall n s b a, rcut n s = Some (b, a) ->
  s = b ++ n ++ a /\ forall b' a', s = b' ++ n ++ a' -> (List.length b' <= List.length b)%nat.
Proof.
  induction s as [|c s IH]; intros b a H; cbn [rcut] in H.
  - destruct (strip n []) as [r|] eqn:E; [|discriminate]. inversion H; subst b a. apply strip_some in E.
    split; [exact E|]. intros b' a' Q. destruct b'; [cbn; lia|discriminate Q].
  - destruct (rcut n s) as [[b1 a1]|] eqn:F.
    + inversion H; subst b a. destruct (IH _ _ eq_refl) as [H1 H2]. split; [now rewrite H1|].
      intros [|c' b'] a' Q; cbn; [lia|]. injection Q as _ Q. specialize (H2 b' a' Q). lia.
    + destruct (strip n (c :: s)) as [r|] eqn:E; [|discriminate]. inversion H; subst b a.
      apply strip_some in E. split; [exact E|].
      intros [|c' b'] a' Q; cbn; [lia|]. exfalso. inversion Q; subst.
      clear - F. revert F. induction b' as [|x b' IH]; cbn [app]; intros F.
      * destruct n as [|y n]; cbn [app] in F.
        { destruct a'; cbn in F; [discriminate|]. destruct (rcut [] a') as [[? ?]|]; discriminate. }
        cbn [rcut] in F. destruct (rcut (y :: n) (n ++ a')) as [[? ?]|]; [discriminate|].
        destruct (strip (y :: n) (y :: n ++ a')) eqn:G; [discriminate|].
        exact (strip_none _ _ G a' eq_refl).
      * cbn [rcut] in F. destruct (rcut n (b' ++ n ++ a')) as [[? ?]|]; [discriminate|].
        now apply IH.
Qed.

Lemma rcut_none : forall n s, rcut n s = None <-> ~ occurs n s.
Proof.
  intros n s. split.
  - intros H [a [b Q]]. subst s. revert H. induction a as [|x a IH]; cbn [app]; intros F.
    + destruct n as [|y n]; cbn [app] in F.
      { destruct b; cbn in F; [discriminate|]. destruct (rcut [] b) as [[? ?]|]; discriminate. }
      cbn [rcut] in F. destruct (rcut (y :: n) (n ++ b)) as [[? ?]|]; [discriminate|].
      destruct (strip (y :: n) (y :: n ++ b)) eqn:G; [discriminate|].
      exact (strip_none _ _ G b eq_refl).
    + cbn [rcut] in F. destruct (rcut n (a ++ n ++ b)) as [[? ?]|]; [discriminate|]. now apply IH.
  - intros H. destruct (rcut n s) as [[b a]|] eqn:F; [|reflexivity].
    exfalso. apply H. apply rcut_some in F. destruct F as [F _]. now exists b, a.
Qed.

Lemma split_at : forall (x y u v : text), x ++ y = u ++ v -> List.length x = List.length u -> x = u /\ y = v.
Proof.
  induction x as [|c x IH]; intros y [|d u] v H L; cbn in L; try discriminate L; [split; [reflexivity|exact H]|].
  cbn in H. inversion H; subst. destruct (IH y u v H2) as [E1 E2]; [lia|]. now subst.
Qed.

Lemma cut_is : forall n s b a, s = b ++ n ++ a ->
  (forall b' a', s = b' ++ n ++ a' -> (List.length b <= List.length b')%nat) -> cut n s = Some (b, a).
Proof.
  intros n s b a E F. destruct (cut n s) as [[b1 a1]|] eqn:C.
  - apply cut_some in C. destruct C as [C1 C2].
    pose proof (F _ _ C1). pose proof (C2 _ _ E).
    rewrite E in C1. destruct (split_at _ _ _ _ C1) as [E1 E2]; [lia|]. subst b1.
    apply app_inv_head in E2. now subst.
  - apply cut_none in C. exfalso. apply C. now exists b, a.
Qed.

Lemma rcut_is : forall n s b a, s = b ++ n ++ a ->
  (forall b' a', s = b' ++ n ++ a' -> (List.length b' <= List.length b)%nat) -> rcut n s = Some (b, a).
Proof.
  intros n s b a E F. destruct (rcut n s) as [[b1 a1]|] eqn:C.
  - apply rcut_some in C. destruct C as [C1 C2].
    pose proof (F _ _ C1). pose proof (C2 _ _ E).
    rewrite E in C1. destruct (split_at _ _ _ _ C1) as [E1 E2]; [lia|]. subst b1.
    apply app_inv_head in E2. now subst.
  - apply rcut_none in C. exfalso. apply C. now exists b, a.
Qed.

(** A text within one line found in lines is found before or after a line feed. *)
Lemma app_cases : forall (a b x y : text), a ++ b = x ++ y ->
  (exists z, x = a ++ z /\ b = z ++ y) \/ (exists z, a = x ++ z /\ y = z ++ b).
Proof.
  induction a as [|c a IH]; intros b x y H.
  - left. exists x. now split.
  - destruct x as [|d x].
    + right. exists (c :: a). now split.
    + cbn in H. inversion H; subst. destruct (IH _ _ _ H2) as [[z [E1 E2]]|[z [E1 E2]]].
      * left. exists z. now subst.
      * right. exists z. now subst.
Qed.

Lemma found_sep : forall (sep : N) (n x y b a : text), n <> [] -> ~ In sep n -> x ++ [sep] ++ y = b ++ n ++ a ->
  (exists z, x = b ++ n ++ z /\ a = z ++ [sep] ++ y) \/ (exists z, b = x ++ [sep] ++ z /\ y = z ++ n ++ a).
Proof.
  intros sep n x y b a N O H. destruct (app_cases _ _ _ _ H) as [[z [E1 E2]]|[z [E1 E2]]].
  - destruct z as [|c z].
    + destruct n as [|c n]; [now destruct N|]. exfalso. apply O. cbn in E2.
      injection E2 as E2 _. rewrite E2. now left.
    + cbn in E2. injection E2 as E0 E2. subst c. right. exists z. now subst.
  - destruct (app_cases _ _ _ _ E2) as [[w [F1 F2]]|[w [F1 F2]]].
    + left. exists w. now subst.
    + destruct w as [|c w].
      * rewrite app_nil_r in F1. subst z. left. exists []. rewrite app_nil_r. cbn in F2. now subst.
      * exfalso. apply O. cbn in F2. injection F2 as F2 _. rewrite F1. apply in_or_app. right. rewrite F2. now left.
Qed.

Lemma occurs_sep : forall (sep : N) (n x y : text), n <> [] -> ~ In sep n ->
  (occurs n (x ++ [sep] ++ y) <-> occurs n x \/ occurs n y).
Proof.
  intros sep n x y N O. split.
  - intros [b [a H]]. destruct (found_sep _ _ _ _ _ _ N O H) as [[z [E _]]|[z [_ E]]].
    + left. now exists b, z.
    + right. now exists z, a.
  - intros [[b [a H]]|[b [a H]]].
    + exists b, (a ++ [sep] ++ y). rewrite H. now rewrite <- !app_assoc.
    + exists (x ++ [sep] ++ b), a. rewrite H. now rewrite <- !app_assoc.
Qed.

Definition found_lf := found_sep LF.
Definition occurs_lf := occurs_sep LF.

Lemma occurs_app_l : forall n x y, occurs n x -> occurs n (x ++ y).
Proof. intros n x y [a [b E]]. exists a, (b ++ y). now rewrite E, <- !app_assoc. Qed.

Lemma occurs_app_r : forall n x y, occurs n y -> occurs n (x ++ y).
Proof. intros n x y [a [b E]]. exists (x ++ a), b. now rewrite E, <- !app_assoc. Qed.

Lemma occurs_trans : forall n m s, occurs n m -> occurs m s -> occurs n s.
Proof.
  intros n m s [a [b E]] [c [d F]]. exists (c ++ a), (b ++ d). now rewrite F, E, <- !app_assoc.
Qed.

(** The first place after a line feed. *)
Lemma cut_lf : forall n x y, n <> [] -> one_line n -> ~ occurs n x ->
  cut n (x ++ [LF] ++ n ++ y) = Some (x ++ [LF], y).
Proof.
  intros n x y N O H. apply cut_is; [now rewrite <- !app_assoc|].
  intros b' a' E. destruct (found_lf _ _ _ _ _ N O E) as [[z [F _]]|[z [F _]]].
  - exfalso. apply H. now exists b', z.
  - rewrite F. rewrite !app_length. lia.
Qed.

(** The last place before a line feed. *)
Lemma rcut_lf : forall n x y, n <> [] -> one_line n -> ~ occurs n y ->
  rcut n (x ++ n ++ [LF] ++ y) = Some (x, [LF] ++ y).
Proof.
  intros n x y N O H. apply rcut_is; [reflexivity|].
  intros b' a' E. rewrite app_assoc in E. destruct (found_lf _ _ _ _ _ N O E) as [[z [F _]]|[z [_ F]]].
  - apply (f_equal (@List.length _)) in F. rewrite !app_length in F. lia.
  - exfalso. apply H. now exists z, a'.
Qed.

(** What follows the last place is free of the text. *)
Lemma rcut_free : forall n s b a, n <> [] -> rcut n s = Some (b, a) -> ~ occurs n a.
Proof.
  intros n s b a N H [c [d E]]. apply rcut_some in H. destruct H as [H F].
  assert (Q : s = (b ++ n ++ c) ++ n ++ d) by (rewrite H, E, <- !app_assoc; reflexivity).
  specialize (F _ _ Q). rewrite !app_length in F. destruct n; [now apply N|]. cbn in F. lia.
Qed.

Lemma cut_free : forall n s b a, n <> [] -> cut n s = Some (b, a) -> ~ occurs n b.
Proof.
  intros n s b a N H [c [d E]]. apply cut_some in H. destruct H as [H F].
  assert (Q : s = c ++ n ++ (d ++ n ++ a)) by (rewrite H, E, <- !app_assoc; reflexivity).
  specialize (F _ _ Q). rewrite E, !app_length in F. destruct n; [now apply N|]. cbn in F. lia.
Qed.

(** ** One replacement *)

Lemma doc_tag_nonempty : forall t, doc_tag t <> [].
Proof. intros t H. discriminate H. Qed.

Lemma doc_tag_one_line : forall t, one_line t -> one_line (doc_tag t).
Proof.
  intros t H. unfold one_line, doc_tag. rewrite !in_app_iff. intros [E|[E|E]]; [| |exact (H E)].
  - cbn in E. repeat (destruct E as [E|E]; [discriminate E|]). exact E.
  - cbn in E. destruct E as [E|E]; [discriminate E|exact E].
Qed.

Lemma comment_tag : forall t, comment t = doc_tag t.
Proof. reflexivity. Qed.

Lemma lines_nonempty : forall s cur, cur <> [] \/ s <> [] -> lines_from cur s <> [].
Proof.
  induction s as [|c s IH]; intros cur H; cbn [lines_from].
  - destruct cur; [destruct H; congruence|discriminate].
  - destruct (c =? LF); [discriminate|]. apply IH. left. discriminate.
Qed.

Lemma join_ended : forall ls, ls <> [] -> join_lf ls ++ [LF] = ended ls.
Proof.
  induction ls as [|l ls IH]; intros H; [now destruct H|]. destruct ls as [|l' ls].
  - cbn [join_lf ended flat_map]. now rewrite app_nil_r.
  - change (join_lf (l :: l' :: ls)) with (l ++ [LF] ++ join_lf (l' :: ls)).
    change (ended (l :: l' :: ls)) with ((l ++ [LF]) ++ ended (l' :: ls)).
    rewrite <- IH by discriminate. now rewrite <- !app_assoc.
Qed.

Lemma middle_copied : forall c, copied c (middle c).
Proof.
  intros c. exists (map doc_line (lines c)). split.
  - generalize (lines c). induction l as [|l ls IH]; constructor; [|exact IH].
    split; [intros ->; reflexivity|]. destruct l; [congruence|reflexivity].
  - destruct c as [|c0 c]; [reflexivity|]. cbn [middle format_as_doc_comments].
    rewrite join_ended; [reflexivity|]. intros E. apply map_eq_nil in E. revert E.
    apply lines_nonempty. right. discriminate.
Qed.

(** Nothing outside a pair of tags is touched: only what stands between the last
    start tag and the first end tag after it is exchanged, and a text without
    such a pair is left as it is. *)
Theorem C70_local : forall st en s c,
  (forall p m r, pair_of st en s p m r ->
     exists m', copied c m' /\ replace_between_tags s st en c = p ++ comment st ++ m' ++ comment en ++ r)
  /\ ((forall p m r, ~ pair_of st en s p m r) -> replace_between_tags s st en c = s).
Proof.
  intros st en s c. unfold replace_between_tags. split.
  - intros p m r [q [[E1 L1] [E2 L2]]].
    rewrite comment_tag in E1, L1, E2, L2.
    rewrite (rcut_is _ _ _ _ E1 L1), (cut_is _ _ _ _ E2 L2). exists (middle c). split; [apply middle_copied|reflexivity].
  - intros H. destruct (rcut (doc_tag st) s) as [[b a]|] eqn:R; [|reflexivity].
    destruct (cut (doc_tag en) a) as [[m r]|] eqn:C; [|reflexivity].
    exfalso. apply (H b m r). exists a. split; [exact (rcut_some _ _ _ _ R)|exact (cut_some _ _ _ _ C)].
Qed.

(** The exchanged part depends on the new content only. *)
Lemma replace_pair : forall st en s c p m r, pair_of st en s p m r ->
  replace_between_tags s st en c = p ++ doc_tag st ++ middle c ++ doc_tag en ++ r.
Proof.
  intros st en s c p m r [q [[E1 L1] [E2 L2]]]. rewrite comment_tag in E1, L1, E2, L2. unfold replace_between_tags.
  now rewrite (rcut_is _ _ _ _ E1 L1), (cut_is _ _ _ _ E2 L2).
Qed.

Lemma middle_lf : forall c, exists x, middle c = [LF] ++ x /\ (x = [] \/ x = format_as_doc_comments c ++ [LF]).
Proof. intros [|a c]; [exists []|eexists]; (split; [reflexivity|]); [now left|now right]. Qed.

Lemma middle_free : forall n c, n <> [] -> one_line n -> ~ occurs n (format_as_doc_comments c) ->
  ~ occurs n (middle c).
Proof.
  intros n c N0 O H Q. destruct (middle_lf c) as [x [-> [->| ->]]] in Q.
  - destruct Q as [a [b E]]. destruct a as [|a0 a]; cbn in E.
    + destruct n as [|n0 n]; [now apply N0|]. cbn in E. injection E as E _. apply O. rewrite <- E. now left.
    + injection E as _ E. symmetry in E. apply app_eq_nil in E. destruct E as [_ E].
      apply app_eq_nil in E. now apply N0.
  - change ([LF] ++ format_as_doc_comments c ++ [LF]) with ([] ++ [LF] ++ format_as_doc_comments c ++ [LF] ++ []) in Q.
    apply occurs_lf in Q; [|exact N0|exact O]. destruct Q as [[a [b E]]|Q].
    + symmetry in E. apply app_eq_nil in E. destruct E as [_ E]. apply app_eq_nil in E. now apply N0.
    + apply occurs_lf in Q; [|exact N0|exact O]. destruct Q as [Q|[a [b E]]]; [exact (H Q)|].
      symmetry in E. apply app_eq_nil in E. destruct E as [_ E]. apply app_eq_nil in E. now apply N0.
Qed.

Lemma occurs_nil : forall n, n <> [] -> ~ occurs n [].
Proof.
  intros n N0 [a [b E]]. symmetry in E. apply app_eq_nil in E. destruct E as [_ E]. apply app_eq_nil in E. now apply N0.
Qed.

Lemma middle_cut : forall en c r, one_line en -> ~ occurs (doc_tag en) (format_as_doc_comments c) ->
  first_at (doc_tag en) (middle c ++ doc_tag en ++ r) (middle c) r.
Proof.
  intros en c r O H. apply cut_some. pose proof (doc_tag_nonempty en) as N0. apply doc_tag_one_line in O.
  assert (M : exists y, middle c = y ++ [LF] /\ ~ occurs (doc_tag en) y).
  { destruct c as [|c0 c].
    - exists []. split; [reflexivity|]. now apply occurs_nil.
    - exists ([LF] ++ format_as_doc_comments (c0 :: c)). split; [reflexivity|].
      intros Q. change ([LF] ++ format_as_doc_comments (c0 :: c)) with ([] ++ [LF] ++ format_as_doc_comments (c0 :: c)) in Q.
      apply occurs_lf in Q; [|exact N0|exact O]. destruct Q as [Q|Q]; [|exact (H Q)].
      exact (occurs_nil _ N0 Q). }
  destruct M as [y [-> Hy]]. rewrite <- !app_assoc. exact (cut_lf _ y r N0 O Hy).
Qed.

(** Copying the same content a second time changes nothing, if the content does
    not contain the tags. *)
Lemma pair_again : forall st en s c p m r, one_line st -> one_line en ->
  ~ occurs (doc_tag st) (format_as_doc_comments c) -> ~ occurs (doc_tag en) (format_as_doc_comments c) ->
  pair_of st en s p m r ->
  pair_of st en (p ++ doc_tag st ++ middle c ++ doc_tag en ++ r) p (middle c) r.
Proof.
  unfold pair_of. change comment with doc_tag. intros st en s c p m r O1 O2 F1 F2 [q [L1 L2]].
  exists (middle c ++ doc_tag en ++ r). split; [|now apply middle_cut].
  apply rcut_some. pose proof (doc_tag_nonempty st) as N0. apply doc_tag_one_line in O1.
  assert (Q : ~ occurs (doc_tag st) (doc_tag en ++ r)).
  { intros Q. pose proof (rcut_is _ _ _ _ (proj1 L1) (proj2 L1)) as R.
    apply (rcut_free _ _ _ _ N0 R). rewrite (proj1 L2). now apply occurs_app_r. }
  destruct c as [|c0 c].
  - cbn [middle]. now rewrite (rcut_lf _ p _ N0 O1 Q).
  - cbn [middle]. rewrite <- !app_assoc. rewrite (rcut_lf _ p _ N0 O1); [reflexivity|].
    intros X. apply occurs_lf in X; [|exact N0|exact O1]. destruct X as [X|X]; [exact (F1 X)|exact (Q X)].
Qed.

(** ** The comment lines *)

Lemma chop_or : forall l, chop l = l \/ l = chop l ++ [CR].
Proof.
  intros l. unfold chop. destruct (rev l) as [|c r] eqn:E; [now left|].
  destruct (c =? CR) eqn:F; [|now left]. right. apply N.eqb_eq in F. subst c.
  rewrite <- (rev_involutive l), E. reflexivity.
Qed.

Lemma chop_occurs : forall n l, occurs n (chop l) -> occurs n l.
Proof. intros n l H. destruct (chop_or l) as [E|E]; [now rewrite <- E|]. rewrite E. now apply occurs_app_l. Qed.

Lemma lines_from_occurs : forall s cur l, In l (lines_from cur s) -> one_line (rev cur) ->
  one_line l /\ forall n, occurs n l -> occurs n (rev cur ++ s).
Proof.
  induction s as [|c s IH]; intros cur l H O; cbn [lines_from] in H.
  - destruct cur as [|x cur]; [now destruct H|]. destruct H as [H|[]]. subst l.
    split; [exact O|]. intros n. now rewrite app_nil_r.
  - destruct (c =? LF) eqn:E.
    + apply N.eqb_eq in E. subst c. destruct H as [H|H].
      * subst l. split.
        -- intros Q. apply O. destruct (chop_or (rev cur)) as [F|F]; [now rewrite <- F|].
           rewrite F. apply in_or_app. now left.
        -- intros n Q. apply chop_occurs in Q. now apply occurs_app_l.
      * destruct (IH [] l H) as [I1 I2]; [intros []|]. split; [exact I1|].
        intros n Q. apply occurs_app_r. apply (occurs_app_r n [LF] s). exact (I2 n Q).
    + destruct (IH (c :: cur) l H) as [I1 I2].
      * cbn [rev]. intros Q. apply in_app_or in Q. destruct Q as [Q|[Q|[]]]; [exact (O Q)|].
        subst c. now rewrite N.eqb_refl in E.
      * split; [exact I1|]. intros n Q. specialize (I2 n Q). cbn [rev] in I2. now rewrite <- app_assoc in I2.
Qed.

Lemma lines_occurs : forall s l, In l (lines s) -> one_line l /\ forall n, occurs n l -> occurs n s.
Proof. intros s l H. apply (lines_from_occurs s [] l H). intros []. Qed.

(** A tag found in the comments is found in the content. *)
Lemma inner_occurs : forall (x l a y t b : text), List.length x = List.length y ->
  x ++ l = a ++ y ++ t ++ b -> occurs t l.
Proof.
  intros x l a y t b L E. rewrite app_assoc in E.
  destruct (app_cases _ _ _ _ E) as [[z [E1 E2]]|[z [E1 E2]]].
  - exists z, b. exact E2.
  - apply (f_equal (@List.length _)) in E1. rewrite !app_length in E1.
    destruct z; [|cbn in E1; lia]. cbn in E2. exists [], b. now rewrite E2.
Qed.

Lemma doc_line_tag : forall t l, occurs (doc_tag t) (doc_line l) -> occurs t l.
Proof.
  intros t l [a [b E]]. destruct l as [|c l].
  - exfalso. apply (f_equal (@List.length _)) in E. cbn [doc_line] in E. unfold doc_tag in E.
    rewrite !app_length in E. cbn in E. lia.
  - cbn [doc_line] in E. unfold doc_tag in E.
    apply (inner_occurs (slashes ++ [32]) (c :: l) a (slashes ++ [32]) t b eq_refl).
    rewrite <- !app_assoc in E |- *. exact E.
Qed.

Lemma join_occurs : forall n ls, n <> [] -> one_line n -> occurs n (join_lf ls) -> exists l, In l ls /\ occurs n l.
Proof.
  intros n ls N0 O. induction ls as [|l ls IH]; intros H.
  - exfalso. exact (occurs_nil _ N0 H).
  - destruct ls as [|l' ls].
    + exists l. split; [now left|exact H].
    + change (join_lf (l :: l' :: ls)) with (l ++ [LF] ++ join_lf (l' :: ls)) in H.
      apply occurs_lf in H; [|exact N0|exact O]. destruct H as [H|H].
      * exists l. split; [now left|exact H].
      * destruct (IH H) as [k [K1 K2]]. exists k. split; [now right|exact K2].
Qed.

Lemma format_tag : forall t c, one_line t -> occurs (doc_tag t) (format_as_doc_comments c) -> occurs t c.
Proof.
  intros t c O H. assert (J : occurs (doc_tag t) (join_lf (map doc_line (lines c)))) by (destruct c; exact H).
  apply join_occurs in J; [|apply doc_tag_nonempty|now apply doc_tag_one_line].
  destruct J as [l [J1 J2]]. apply in_map_iff in J1. destruct J1 as [k [<- K]].
  apply doc_line_tag in J2. exact (proj2 (lines_occurs c k K) t J2).
Qed.

(** *** C70: copying the same content again changes nothing. *)
Theorem C70_idempotent : forall st en s c, one_line st -> one_line en ->
  ~ occurs st c -> ~ occurs en c ->
  replace_between_tags (replace_between_tags s st en c) st en c = replace_between_tags s st en c.
Proof.
  intros st en s c O1 O2 F1 F2.
  destruct (rcut (doc_tag st) s) as [[p q]|] eqn:R;
    [destruct (cut (doc_tag en) q) as [[m r]|] eqn:C|].
  - assert (P : pair_of st en s p m r) by
      (exists q; split; [exact (rcut_some _ _ _ _ R)|exact (cut_some _ _ _ _ C)]).
    rewrite (replace_pair _ _ _ c _ _ _ P). apply (replace_pair st en _ c p (middle c) r).
    apply (pair_again st en s c p m r O1 O2); [| |exact P].
    + intros Q. apply F1. now apply format_tag.
    + intros Q. apply F2. now apply format_tag.
  - assert (E : replace_between_tags s st en c = s) by (unfold replace_between_tags; now rewrite R, C).
    now rewrite E.
  - assert (E : replace_between_tags s st en c = s) by (unfold replace_between_tags; now rewrite R).
    now rewrite E.
Qed.

(** What rustdoc reads from the comment lines: without the slashes and the blank
    that all nonempty lines share. *)
Definition comment_text (l : text) : text := skipn 4 l.

Lemma lines_from_last : forall l cur, one_line l ->
  lines_from cur l = match rev cur ++ l with [] => [] | t => [t] end.
Proof.
  induction l as [|c l IH]; intros cur O; cbn [lines_from].
  - rewrite app_nil_r. destruct cur as [|x cur]; [reflexivity|].
    destruct (rev (x :: cur)) eqn:E; [|reflexivity]. cbn [rev] in E. now apply app_eq_nil in E.
  - destruct (c =? LF) eqn:E.
    + apply N.eqb_eq in E. exfalso. apply O. now left.
    + rewrite IH; [|intros Q; apply O; now right]. cbn [rev]. now rewrite <- app_assoc.
Qed.

Lemma lines_from_lf : forall l cur s, one_line l ->
  lines_from cur (l ++ [LF] ++ s) = chop (rev cur ++ l) :: lines s.
Proof.
  induction l as [|c l IH]; intros cur s O; cbn [app lines_from].
  - change (LF =? LF) with true. cbn iota. now rewrite app_nil_r.
  - destruct (c =? LF) eqn:E.
    + apply N.eqb_eq in E. exfalso. apply O. now left.
    + change (l ++ LF :: s) with (l ++ [LF] ++ s). rewrite IH; [|intros Q; apply O; now right].
      cbn [rev]. now rewrite <- app_assoc.
Qed.

(** The lines of joined lines: only a final carriage return can get lost. *)
Lemma lines_join : forall ls, Forall one_line ls -> Forall (fun l => l <> []) ls ->
  Forall2 (fun k l => k = l \/ k = chop l) (lines (join_lf ls)) ls.
Proof.
  induction ls as [|l ls IH]; intros O N0; [constructor|].
  inversion O as [|? ? O1 O2]; inversion N0 as [|? ? N1 N2]; subst.
  destruct ls as [|l' ls].
  - cbn [join_lf]. unfold lines. rewrite (lines_from_last l [] O1). cbn [rev app].
    destruct l; [now destruct N1|]. constructor; [now left|constructor].
  - change (join_lf (l :: l' :: ls)) with (l ++ [LF] ++ join_lf (l' :: ls)). unfold lines.
    rewrite (lines_from_lf l [] _ O1). constructor; [now right|exact (IH O2 N2)].
Qed.

Lemma doc_line_ok : forall l, one_line l -> one_line (doc_line l) /\ doc_line l <> [].
Proof.
  intros l O. destruct l as [|c l]; (split; [|intros E; discriminate E]).
  - intros Q. cbn in Q. repeat (destruct Q as [Q|Q]; [discriminate Q|]). exact Q.
  - unfold doc_line, one_line. rewrite !in_app_iff. intros [Q|[Q|Q]]; [| |exact (O Q)].
    + cbn in Q. repeat (destruct Q as [Q|Q]; [discriminate Q|]). exact Q.
    + cbn in Q. destruct Q as [Q|Q]; [discriminate Q|exact Q].
Qed.

Lemma format_lines : forall c,
  Forall2 (fun k l => k = doc_line l \/ k = chop (doc_line l)) (lines (format_as_doc_comments c)) (lines c).
Proof.
  intros c. assert (E : format_as_doc_comments c = join_lf (map doc_line (lines c))) by (destruct c; reflexivity).
  rewrite E. assert (O : Forall one_line (lines c)) by (apply Forall_forall; intros l H; exact (proj1 (lines_occurs c l H))).
  assert (J : Forall2 (fun k l => k = l \/ k = chop l) (lines (join_lf (map doc_line (lines c)))) (map doc_line (lines c))).
  { apply lines_join; apply Forall_forall; intros l H; apply in_map_iff in H; destruct H as [k [<- K]];
      rewrite Forall_forall in O; apply (doc_line_ok k (O k K)). }
  revert J. generalize (lines (join_lf (map doc_line (lines c)))). generalize (lines c). clear.
  induction l as [|l ls IH]; intros ks J; cbn [map] in J; inversion J; subst; constructor; auto.
Qed.

Lemma doc_line_starts : forall l, exists r, doc_line l = slashes ++ r.
Proof. intros [|c l]; [exists []|exists ([32] ++ c :: l)]; reflexivity. Qed.

Lemma chop_doc_starts : forall l, exists r, chop (doc_line l) = slashes ++ r.
Proof.
  intros l. destruct (doc_line_starts l) as [r R]. rewrite R. destruct (chop_or (slashes ++ r)) as [E|E].
  - rewrite E. now exists r.
  - destruct (app_cases _ _ _ _ E) as [[z [E1 E2]]|[z [E1 E2]]].
    + now exists z.
    + destruct z as [|z0 z].
      * rewrite app_nil_r in E1. exists []. now rewrite app_nil_r.
      * exfalso. cbn in E2. injection E2 as E2 E3. symmetry in E3. apply app_eq_nil in E3. destruct E3 as [E3 _]. subst z z0.
        assert (Q : In CR slashes) by (rewrite E1; apply in_or_app; right; now left).
        cbn in Q. repeat (destruct Q as [Q|Q]; [discriminate Q|]). exact Q.
Qed.

(** Every line that is inserted is a comment, and the comments are the content
    line by line (a text with carriage returns can lose some of them). *)
Theorem C70_comments : forall c,
  Forall (fun k => exists r, k = slashes ++ r) (lines (format_as_doc_comments c))
  /\ (~ In CR c -> map comment_text (lines (format_as_doc_comments c)) = lines c).
Proof.
  intros c. pose proof (format_lines c) as F. split.
  - revert F. generalize (lines (format_as_doc_comments c)). generalize (lines c).
    induction l as [|l ls IH]; intros ks J; inversion J as [|k ? ? ? H1 H3]; subst; constructor; auto.
    destruct H1 as [-> | ->]; [apply doc_line_starts|apply chop_doc_starts].
  - intros NC. assert (A : forall l, In l (lines c) -> ~ In CR l).
    { intros l H Q. apply NC. apply in_split in Q. destruct Q as [x [y ->]].
      destruct (proj2 (lines_occurs c _ H) [CR]) as [a [b ->]]; [exists x, y; reflexivity|].
      apply in_or_app. right. now left. }
    revert F A. generalize (lines (format_as_doc_comments c)). generalize (lines c).
    induction l as [|l ls IH]; intros ks J A; inversion J as [|k ? ? ? H1 H3]; subst; [reflexivity|].
    cbn [map]. rewrite (IH _ H3 (fun k Hk => A k (or_intror Hk))). f_equal.
    assert (D : comment_text (doc_line l) = l) by (destruct l; reflexivity).
    destruct H1 as [-> | ->]; [exact D|].
    destruct (chop_or (doc_line l)) as [E|E]; [now rewrite E|].
    exfalso. assert (Q : In CR (doc_line l)) by (rewrite E; apply in_or_app; right; now left).
    destruct l as [|c0 l]; cbn in Q.
    + repeat (destruct Q as [Q|Q]; [discriminate Q|]). exact Q.
    + do 4 (destruct Q as [Q|Q]; [discriminate Q|]). exact (A (c0 :: l) (or_introl eq_refl) Q).
Qed.

(** ** The line put into the examples *)

Lemma marker_ok : marker <> [] /\ one_line marker.
Proof.
  split; [discriminate|]. intros Q. cbn in Q. repeat (destruct Q as [Q|Q]; [discriminate Q|]). exact Q.
Qed.

Lemma cut_skip : forall n x s, n <> [] -> one_line n -> ~ occurs n x ->
  cut n (x ++ [LF] ++ s) = match cut n s with Some (b, a) => Some (x ++ [LF] ++ b, a) | None => None end.
Proof.
  intros n x s N0 O H. destruct (cut n s) as [[b a]|] eqn:C.
  - apply cut_some in C. destruct C as [C L]. apply cut_is; [rewrite C; now rewrite <- !app_assoc|].
    intros b' a' E. destruct (found_lf _ _ _ _ _ N0 O E) as [[z [F _]]|[z [F1 F2]]].
    + exfalso. apply H. now exists b', z.
    + specialize (L _ _ F2). rewrite F1, !app_length. cbn. lia.
  - apply cut_none. apply cut_none in C. intros Q. apply occurs_lf in Q; [|exact N0|exact O]. now destruct Q.
Qed.

Lemma cut_mark : forall n x s, n <> [] -> one_line n -> occurs n x ->
  exists b z, x = b ++ n ++ z /\ cut n (x ++ [LF] ++ s) = Some (b, z ++ [LF] ++ s).
Proof.
  intros n x s N0 O H. destruct (cut n x) as [[b z]|] eqn:C.
  - apply cut_some in C. destruct C as [C L]. exists b, z. split; [exact C|].
    apply cut_is; [rewrite C; now rewrite <- !app_assoc|]. intros b' a' E.
    destruct (found_lf _ _ _ _ _ N0 O E) as [[w [F1 F2]]|[w [F1 F2]]].
    + exact (L _ _ F1).
    + rewrite F1, C, !app_length. lia.
  - apply cut_none in C. now destruct C.
Qed.

Lemma cut_char : forall z s, one_line z -> cut [LF] (z ++ [LF] ++ s) = Some (z, s).
Proof.
  induction z as [|c z IH]; intros s O.
  - reflexivity.
  - cbn [app cut strip]. destruct (LF =? c) eqn:E.
    + apply N.eqb_eq in E. exfalso. apply O. now left.
    + change (z ++ LF :: s) with (z ++ [LF] ++ s). rewrite IH; [reflexivity|]. intros Q. apply O. now right.
Qed.

(** What the lines of the content become. *)
Definition line_becomes (l k : text) : Prop :=
  (occurs marker l -> k = l ++ [LF] ++ prelude) /\ (~ occurs marker l -> k = l ++ [LF]).

Lemma inject_lines : forall ls last fuel, (List.length (ended ls ++ last) < fuel)%nat ->
  Forall one_line ls -> ~ occurs marker last ->
  exists ks, Forall2 line_becomes ls ks /\ inject_loop fuel (ended ls ++ last) = List.concat ks ++ last.
Proof.
  destruct marker_ok as [M1 M2].
  induction ls as [|l ls IH]; intros last fuel L O H.
  - exists []. split; [constructor|]. cbn [ended flat_map app List.concat]. destruct fuel as [|f]; [lia|].
    cbn [inject_loop]. apply cut_none in H. now rewrite H.
  - inversion O as [|? ? O1 O2]; subst. destruct fuel as [|f]; [lia|].
    assert (E : ended (l :: ls) ++ last = l ++ [LF] ++ (ended ls ++ last))
      by (unfold ended; cbn [flat_map]; now rewrite <- !app_assoc).
    rewrite E in L |- *. rewrite !app_length in L. cbn [List.length] in L.
    destruct (cut marker l) as [[b0 z0]|] eqn:C.
    + assert (Oc : occurs marker l) by (apply cut_some in C; destruct C as [C _]; now exists b0, z0).
      destruct (cut_mark marker l (ended ls ++ last) M1 M2 Oc) as [b [z [El Ec]]].
      cbn [inject_loop]. rewrite Ec. rewrite cut_char;
        [|intros Q; apply O1; rewrite El; apply in_or_app; right; apply in_or_app; now right].
      destruct (IH last f) as [ks [K1 K2]]; [rewrite app_length; lia|exact O2|exact H|].
      exists ((l ++ [LF] ++ prelude) :: ks). split.
      * constructor; [|exact K1]. split; [reflexivity|]. intros Q. now destruct Q.
      * rewrite K2. cbn [List.concat]. rewrite El. now rewrite <- !app_assoc.
    + apply cut_none in C.
      destruct (IH last (S f)) as [ks [K1 K2]]; [rewrite app_length; lia|exact O2|exact H|].
      exists ((l ++ [LF]) :: ks). split.
      * constructor; [|exact K1]. split; [intros Q; now destruct C|reflexivity].
      * cbn [List.concat]. rewrite <- !app_assoc. rewrite <- K2.
        cbn [inject_loop]. rewrite (cut_skip marker l _ M1 M2 C).
        destruct (cut marker (ended ls ++ last)) as [[b a]|]; [|reflexivity].
        destruct (cut [LF] a) as [[x y]|]; now rewrite <- !app_assoc.
Qed.

(** Exactly the lines that open a Rust example are followed by the hidden line
    with which the example compiles inside the macro crate; nothing else changes. *)
Theorem C70_prelude : forall ls last, Forall one_line ls -> ~ occurs marker last ->
  exists ks, Forall2 line_becomes ls ks
    /\ inject_rust_block_prelude (ended ls ++ last) = List.concat ks ++ last.
Proof. intros ls last O H. apply inject_lines; [lia|exact O|exact H]. Qed.

(** ** The sections of the README *)

Lemma trim_start_suffix : forall s, exists w, s = w ++ trim_start s.
Proof.
  induction s as [|c s [w IH]]; [exists []; reflexivity|]. cbn [trim_start].
  destruct (white c); [exists (c :: w); cbn; now rewrite <- IH|exists []; reflexivity].
Qed.

Lemma trim_in : forall s, exists v w, s = v ++ trim s ++ w.
Proof.
  intros s. destruct (trim_start_suffix s) as [v V].
  destruct (trim_start_suffix (rev (trim_start s))) as [w W].
  exists v, (rev w). rewrite V at 1. f_equal. unfold trim.
  rewrite <- rev_app_distr, <- W. now rewrite rev_involutive.
Qed.

Lemma trim_occurs : forall n s, occurs n (trim s) -> occurs n s.
Proof.
  intros n s H. destruct (trim_in s) as [v [w E]]. rewrite E. apply occurs_app_r. now apply occurs_app_l.
Qed.

(** The text taken from the README is free of the end tag. *)
Lemma extract_free : forall st en s, en <> [] -> one_line en -> ~ occurs en (extract_content s st en).
Proof.
  intros st en s N0 O. unfold extract_content. intros Q. apply trim_occurs in Q. revert Q.
  generalize (S (List.length s)) as fuel. intros fuel. revert s.
  induction fuel as [|f IH]; intros s Q; cbn [extract_loop] in Q; [exact (occurs_nil _ N0 Q)|].
  destruct (cut st s) as [[x rest1]|]; [|exact (occurs_nil _ N0 Q)].
  destruct (cut en rest1) as [[inner rest2]|] eqn:C; [|exact (IH _ Q)].
  change ([LF; LF] ++ extract_loop f rest2 st en) with ([LF] ++ [] ++ [LF] ++ extract_loop f rest2 st en) in Q.
  apply occurs_lf in Q; [|exact N0|exact O]. destruct Q as [Q|Q].
  - apply trim_occurs in Q. exact (cut_free _ _ _ _ N0 C Q).
  - apply occurs_lf in Q; [|exact N0|exact O]. destruct Q as [Q|Q]; [exact (occurs_nil _ N0 Q)|exact (IH _ Q)].
Qed.

Lemma trim_id_end : forall s, trim (trim s ++ [LF; LF]) = trim s.
Proof.
  intros s. destruct (trim s) as [|c t] eqn:E; [reflexivity|].
  assert (S1 : trim_start (c :: t) = c :: t).
  { unfold trim in E. assert (F : rev (trim_start (rev (trim_start s))) = c :: t) by exact E.
    destruct (trim_start_suffix (rev (trim_start s))) as [w W].
    assert (G : trim_start s = (c :: t) ++ rev w).
    { rewrite <- (rev_involutive (trim_start s)), W, rev_app_distr, F. reflexivity. }
    assert (White : white c = false).
    { clear - G. cbn [app] in G. revert G. generalize (t ++ rev w). intros l.
      induction s as [|d s IH]; cbn [trim_start]; intros G; [discriminate G|].
      destruct (white d) eqn:D; [exact (IH G)|]. injection G as -> _. exact D. }
    cbn [trim_start]. now rewrite White. }
  assert (S2 : trim_start (rev (c :: t)) = rev (c :: t)).
  { unfold trim in E. assert (F : trim_start (rev (trim_start s)) = rev (c :: t)) by (rewrite <- E, rev_involutive; reflexivity).
    rewrite <- F. generalize (rev (trim_start s)). clear. induction l as [|d l IH]; [reflexivity|].
    cbn [trim_start]. destruct (white d) eqn:D; [exact IH|]. cbn [trim_start]. now rewrite D. }
  unfold trim. change ((c :: t) ++ [LF; LF]) with (c :: (t ++ [LF; LF])).
  assert (White : white c = false).
  { cbn [trim_start] in S1. destruct (white c) eqn:W; [|reflexivity]. exfalso.
    destruct (trim_start_suffix t) as [w T]. apply (f_equal (@List.length _)) in T. rewrite app_length in T.
    rewrite S1 in T. cbn in T. lia. }
  cbn [trim_start]. rewrite White.
  change (c :: t ++ [LF; LF]) with ((c :: t) ++ [LF; LF]). rewrite rev_app_distr.
  change (rev [LF; LF] ++ rev (c :: t)) with (LF :: LF :: rev (c :: t)).
  cbn [trim_start]. change (white LF) with true. cbn iota. rewrite S2. apply rev_involutive.
Qed.

(** A README with one pair of tags: the section is what stands between them. *)
Theorem C70_section : forall st en s pre body post,
  first_at st s pre (body ++ en ++ post) -> first_at en (body ++ en ++ post) body post ->
  ~ occurs st post -> st <> [] ->
  extract_content s st en = trim body.
Proof.
  intros st en s pre body post [E1 L1] [E2 L2] H N0. unfold extract_content.
  cbn [extract_loop]. rewrite (cut_is _ _ _ _ E1 L1), (cut_is _ _ _ _ E2 L2).
  assert (X : extract_loop (List.length s) post st en = []).
  { destruct (List.length s); [reflexivity|]. cbn [extract_loop]. apply cut_none in H. now rewrite H. }
  rewrite X, app_nil_r. apply trim_id_end.
Qed.

(** A tag found in a section is found in the README or in the inserted line. *)
Definition prelude_rest : text := lit " use bitfields_impl as bitfields;".

Lemma inject_occurs : forall t c, t <> [] -> one_line t -> ~ In 35 t -> ~ occurs t prelude_rest ->
  occurs t (inject_rust_block_prelude c) -> occurs t c.
Proof.
  intros t c N0 O H35 P. unfold inject_rust_block_prelude. generalize (S (List.length c)) as fuel.
  intros fuel. revert c. induction fuel as [|f IH]; intros c Q; cbn [inject_loop] in Q; [exact Q|].
  destruct (cut marker c) as [[b a]|] eqn:C; [|exact Q]. apply cut_some in C. destruct C as [C _].
  assert (PR : prelude = [35] ++ prelude_rest ++ [LF]) by reflexivity.
  destruct (cut [LF] a) as [[l next]|] eqn:D.
  - apply cut_some in D. destruct D as [D _]. rewrite PR, <- !app_assoc in Q.
    assert (Q' : occurs t ((b ++ marker ++ l) ++ [LF] ++ ([] ++ [35] ++ prelude_rest ++ [LF] ++ inject_loop f next)))
      by (rewrite <- !app_assoc; exact Q). clear Q.
    apply occurs_lf in Q'; [|exact N0|exact O]. rewrite C, D. destruct Q' as [Q|Q].
    + apply (occurs_app_l t _ ([LF] ++ next)) in Q. rewrite <- !app_assoc in Q. exact Q.
    + apply occurs_sep in Q; [|exact N0|exact H35]. destruct Q as [Q|Q]; [destruct (occurs_nil _ N0 Q)|].
      apply occurs_lf in Q; [|exact N0|exact O]. destruct Q as [Q|Q]; [now destruct P|].
      do 4 apply occurs_app_r. exact (IH _ Q).
  - rewrite PR, <- !app_assoc in Q.
    assert (Q' : occurs t ((b ++ marker ++ a) ++ [35] ++ prelude_rest ++ [LF] ++ inject_loop f []))
      by (rewrite <- !app_assoc; exact Q). clear Q.
    apply occurs_sep in Q'; [|exact N0|exact H35]. rewrite C. destruct Q' as [Q|Q]; [exact Q|].
    apply occurs_lf in Q; [|exact N0|exact O]. destruct Q as [Q|Q]; [now destruct P|].
    apply IH in Q. destruct (occurs_nil _ N0 Q).
Qed.

(** ** The whole update *)

Lemma last_after : forall n (x y s p q : text), last_at n (x ++ s) (x ++ p) q -> last_at n (y ++ s) (y ++ p) q.
Proof.
  intros n x y s p q [E L]. rewrite <- app_assoc in E. apply app_inv_head in E.
  split; [rewrite E; now rewrite <- app_assoc|]. intros p' q' F.
  destruct (Nat.le_gt_cases (List.length p') (List.length (y ++ p))) as [G|G]; [exact G|].
  symmetry in F. destruct (app_cases _ _ _ _ F) as [[z [Z1 Z2]]|[z [Z1 Z2]]].
  - exfalso. rewrite Z1, !app_length in G. lia.
  - assert (Q : x ++ s = (x ++ z) ++ n ++ q') by (rewrite Z2; now rewrite <- app_assoc).
    specialize (L _ _ Q). rewrite Z1. rewrite !app_length in *. lia.
Qed.

Lemma last_free : forall n s p q, n <> [] -> last_at n s p q -> ~ occurs n q.
Proof. intros n s p q N0 [E L]. exact (rcut_free _ _ _ _ N0 (rcut_is _ _ _ _ E L)). Qed.

Lemma last_lf : forall n x y, n <> [] -> one_line n -> ~ occurs n y -> last_at n (x ++ n ++ [LF] ++ y) x ([LF] ++ y).
Proof. intros n x y N0 O H. apply rcut_some. now apply rcut_lf. Qed.

Lemma middle_eq : forall c, middle c = [LF] ++ tl (middle c).
Proof. intros [|a c]; reflexivity. Qed.

(** The four tags of the script. *)
Definition tag_ok (t : text) : Prop := t <> [] /\ one_line t /\ ~ In 35 t /\ ~ occurs t prelude_rest.

Lemma tags_ok : tag_ok docs_start /\ tag_ok docs_end /\ tag_ok flags_start /\ tag_ok flags_end.
Proof.
  assert (X : forall t, t <> [] -> existsb (N.eqb LF) t = false -> existsb (N.eqb 35) t = false ->
            cut t prelude_rest = None -> tag_ok t).
  { intros t N0 A B C. split; [exact N0|]. split; [|split].
    - intros Q. assert (existsb (N.eqb LF) t = true); [|congruence]. apply existsb_exists. exists LF. now split.
    - intros Q. assert (existsb (N.eqb 35) t = true); [|congruence]. apply existsb_exists. exists 35. now split.
    - now apply cut_none. }
  repeat split; apply X; try reflexivity; discriminate.
Qed.

(** A section that repeats its own start tag is the only obstacle on the side of
    the README. *)
Lemma section_free_end : forall readme st en, tag_ok en -> ~ occurs en (section readme st en).
Proof.
  intros readme st en [N0 [O [H P]]] Q. unfold section in Q. apply inject_occurs in Q; try assumption.
  exact (extract_free _ _ _ N0 O Q).
Qed.

Lemma section_free : forall readme st en t, tag_ok t -> ~ occurs t (extract_content readme st en) ->
  ~ occurs t (section readme st en).
Proof.
  intros readme st en t [N0 [O [H P]]] F Q. unfold section in Q. apply inject_occurs in Q; try assumption.
  exact (F Q).
Qed.

Lemma update_eq : forall readme lib p m1 q m2 r,
  pair_of docs_start docs_end lib p m1 (q ++ doc_tag flags_start ++ m2 ++ doc_tag flags_end ++ r) ->
  pair_of flags_start flags_end lib (p ++ doc_tag docs_start ++ m1 ++ doc_tag docs_end ++ q) m2 r ->
  ~ occurs docs_start (extract_content readme docs_start docs_end) ->
  ~ occurs docs_start (extract_content readme flags_start flags_end) ->
  ~ occurs flags_start (extract_content readme flags_start flags_end) ->
  let A := section readme docs_start docs_end in
  let B := section readme flags_start flags_end in
  update_lib_docs readme lib =
    p ++ doc_tag docs_start ++ middle A ++ doc_tag docs_end ++ q
      ++ doc_tag flags_start ++ middle B ++ doc_tag flags_end ++ r
  /\ update_lib_docs readme (update_lib_docs readme lib) = update_lib_docs readme lib.
Proof.
  intros readme lib p m1 q m2 r PA PB H1 H2 H3 A B.
  destruct tags_ok as [T1 [T2 [T3 T4]]].
  assert (A1 : ~ occurs docs_start A) by (apply section_free; assumption).
  assert (A2 : ~ occurs docs_end A) by (apply section_free_end; assumption).
  assert (B1 : ~ occurs docs_start B) by (apply section_free; assumption).
  assert (B3 : ~ occurs flags_start B) by (apply section_free; assumption).
  assert (B4 : ~ occurs flags_end B) by (apply section_free_end; assumption).
  assert (fmt : forall t c, tag_ok t -> ~ occurs t c -> ~ occurs (doc_tag t) (format_as_doc_comments c)).
  { intros t c [_ [O _]] F Q. apply F. now apply format_tag. }
  assert (one : forall t, tag_ok t -> one_line (doc_tag t)).
  { intros t [_ [O _]]. now apply doc_tag_one_line. }
  set (R2 := doc_tag flags_start ++ m2 ++ doc_tag flags_end ++ r) in *.
  set (S1 := p ++ doc_tag docs_start ++ middle A ++ doc_tag docs_end ++ q ++ R2).
  set (S2 := p ++ doc_tag docs_start ++ middle A ++ doc_tag docs_end ++ q
      ++ doc_tag flags_start ++ middle B ++ doc_tag flags_end ++ r).
  assert (ES1 : replace_between_tags lib docs_start docs_end A = S1) by exact (replace_pair _ _ _ A _ _ _ PA).
  (* the second pair is still the last one *)
  assert (PB1 : pair_of flags_start flags_end S1 (p ++ doc_tag docs_start ++ middle A ++ doc_tag docs_end ++ q) m2 r).
  { destruct PB as [b [L1 L2]]. exists b. split; [|exact L2].
    assert (Eb : b = m2 ++ doc_tag flags_end ++ r) by exact (proj1 L2).
    destruct PA as [a [[EA _] [EA2 _]]]. subst a.
    assert (EL : lib = (p ++ doc_tag docs_start ++ m1 ++ doc_tag docs_end ++ q) ++ R2)
      by (rewrite EA; now rewrite <- !app_assoc).
    rewrite EL in L1.
    pose proof (last_after (doc_tag flags_start) (p ++ doc_tag docs_start ++ m1 ++ doc_tag docs_end ++ q)
      (p ++ doc_tag docs_start ++ middle A ++ doc_tag docs_end ++ q) R2 [] b) as X.
    rewrite !app_nil_r in X. specialize (X L1).
    replace S1 with ((p ++ doc_tag docs_start ++ middle A ++ doc_tag docs_end ++ q) ++ R2)
      by (unfold S1; now rewrite <- !app_assoc). exact X. }
  assert (EU : update_lib_docs readme lib = S2).
  { unfold update_lib_docs. fold A B. rewrite ES1. rewrite (replace_pair _ _ _ B _ _ _ PB1).
    unfold S2. now rewrite <- !app_assoc. }
  (* what follows the first start tag is free of it *)
  assert (FA : ~ occurs (doc_tag docs_start) (doc_tag docs_end ++ q ++ R2)).
  { destruct PA as [a [LA [EA2 _]]]. pose proof (last_free _ _ _ _ (doc_tag_nonempty _) LA) as F.
    intros Q. apply F. rewrite EA2. now apply occurs_app_r. }
  assert (PA2 : pair_of docs_start docs_end S2 p (middle A)
      (q ++ doc_tag flags_start ++ middle B ++ doc_tag flags_end ++ r)).
  { exists (middle A ++ doc_tag docs_end ++ q ++ doc_tag flags_start ++ middle B ++ doc_tag flags_end ++ r).
    split; [|apply middle_cut; [apply T2|apply fmt; assumption]].
    unfold S2. pose proof (doc_tag_nonempty docs_start) as N0. pose proof (one _ T1) as O1.
    assert (FB : ~ occurs (doc_tag docs_start)
        (doc_tag docs_end ++ q ++ doc_tag flags_start ++ middle B ++ doc_tag flags_end ++ r)).
    { intros Q.
      assert (Q' : exists y, (y = [] \/ y = format_as_doc_comments B ++ [LF]) /\
         occurs (doc_tag docs_start) ((doc_tag docs_end ++ q ++ doc_tag flags_start) ++ [LF] ++ y ++ doc_tag flags_end ++ r)).
      { destruct (middle_lf B) as [y [E Y]]. exists y. split; [exact Y|]. rewrite E in Q.
        rewrite <- !app_assoc. exact Q. }
      destruct Q' as [y [Y Q']]. apply occurs_lf in Q'; [|exact N0|exact O1]. destruct Q' as [Q'|Q'].
      - apply FA. apply (occurs_app_l _ _ (m2 ++ doc_tag flags_end ++ r)) in Q'.
        rewrite <- !app_assoc in Q'. exact Q'.
      - assert (Z : ~ occurs (doc_tag docs_start) (doc_tag flags_end ++ r)).
        { intros Z. apply FA. unfold R2. apply (occurs_app_r _ (doc_tag docs_end ++ q ++ doc_tag flags_start ++ m2)) in Z.
          rewrite <- !app_assoc in Z. exact Z. }
        destruct Y as [-> | ->]; [exact (Z Q')|]. rewrite <- app_assoc in Q'.
        apply occurs_lf in Q'; [|exact N0|exact O1]. destruct Q' as [Q'|Q']; [|exact (Z Q')].
        exact (fmt _ _ T1 B1 Q'). }
    destruct (middle_lf A) as [y [-> Y]]. rewrite <- !app_assoc. apply last_lf; [exact N0|exact O1|].
    destruct Y as [-> | ->]; [exact FB|]. rewrite <- app_assoc. intros Q.
    apply occurs_lf in Q; [|exact N0|exact O1]. destruct Q as [Q|Q]; [|exact (FB Q)].
    exact (fmt _ _ T1 A1 Q). }
  assert (PB2 : pair_of flags_start flags_end S2 (p ++ doc_tag docs_start ++ middle A ++ doc_tag docs_end ++ q) (middle B) r).
  { replace S2 with ((p ++ doc_tag docs_start ++ middle A ++ doc_tag docs_end ++ q)
        ++ doc_tag flags_start ++ middle B ++ doc_tag flags_end ++ r) by (unfold S2; now rewrite <- !app_assoc).
    apply (pair_again _ _ S1 B _ m2 r); [apply T3|apply T4|apply fmt; assumption|apply fmt; assumption|exact PB1]. }
  split; [exact EU|]. rewrite EU. unfold update_lib_docs. fold A B.
  rewrite (replace_pair _ _ _ A _ _ _ PA2). fold S2. rewrite (replace_pair _ _ _ B _ _ _ PB2).
  unfold S2. now rewrite <- !app_assoc.
Qed.

(** *** C70: what the update writes.

    lib.rs has the two pairs of tags one after the other, the bitflag pair last.
    Everything outside the pairs stays, each pair gets its section, whatever stood
    there before, and a second update changes nothing. *)
Theorem C70_update : forall readme lib p m1 q m2 r,
  pair_of docs_start docs_end lib p m1 (q ++ comment flags_start ++ m2 ++ comment flags_end ++ r) ->
  pair_of flags_start flags_end lib (p ++ comment docs_start ++ m1 ++ comment docs_end ++ q) m2 r ->
  ~ occurs docs_start (extract_content readme docs_start docs_end) ->
  ~ occurs docs_start (extract_content readme flags_start flags_end) ->
  ~ occurs flags_start (extract_content readme flags_start flags_end) ->
  exists mA mB,
    copied (inject_rust_block_prelude (extract_content readme docs_start docs_end)) mA
    /\ copied (inject_rust_block_prelude (extract_content readme flags_start flags_end)) mB
    /\ update_lib_docs readme lib =
         p ++ comment docs_start ++ mA ++ comment docs_end ++ q
           ++ comment flags_start ++ mB ++ comment flags_end ++ r
    /\ update_lib_docs readme (update_lib_docs readme lib) = update_lib_docs readme lib.
Proof.
  intros readme lib p m1 q m2 r PA PB H1 H2 H3.
  exists (middle (section readme docs_start docs_end)), (middle (section readme flags_start flags_end)).
  split; [apply middle_copied|]. split; [apply middle_copied|].
  exact (update_eq readme lib p m1 q m2 r PA PB H1 H2 H3).
Qed.

(** ** A case: nested sections as in the repository's README.md (225-2308) and the
    two pairs of lib.rs (15-2138, 2166-2263) *)

Definition ex_readme : text := join_lf (map lit
  ["# bitfields"; "<!-- rust-docs-start -->"; ""; "Example."; "```rust"; "use bitfields::bitfield;"; "```";
   "<!-- rust-bitflags-docs-start -->"; "Flags."; "<!-- rust-bitflags-docs-end -->"; "More."; "";
   "<!-- rust-docs-end -->"; "License"]%string).

Definition ex_lib (docs flags : list string) : text := join_lf (map lit (
  ["//! Crate."%string; "/// <!-- rust-docs-start -->"%string] ++ docs
  ++ ["/// <!-- rust-docs-end -->"%string; "fn bitfield"%string; "/// <!-- rust-bitflags-docs-start -->"%string] ++ flags
  ++ ["/// <!-- rust-bitflags-docs-end -->"%string; "fn bitflag"%string])%list).

Definition ex_old : text := ex_lib ["/// Old."]%string ["/// Old flags."; "///"]%string.
Definition ex_new : text := ex_lib
  ["/// Example."; "/// ```rust"; "/// # use bitfields_impl as bitfields;"; "/// use bitfields::bitfield;"; "/// ```";
   "/// <!-- rust-bitflags-docs-start -->"; "/// Flags."; "/// <!-- rust-bitflags-docs-end -->"; "/// More."]%string
  ["/// Flags."]%string.

(** The pieces of the old text. *)
Definition ex_p : text := join_lf [lit "//! Crate."; []].
Definition ex_m1 : text := join_lf [[]; lit "/// Old."; []].
Definition ex_q : text := join_lf [[]; lit "fn bitfield"; []].
Definition ex_m2 : text := join_lf [[]; lit "/// Old flags."; lit "///"; []].
Definition ex_r : text := join_lf [[]; lit "fn bitflag"].

Lemma pair_by : forall st en s p m r,
  match rcut (doc_tag st) s with
  | Some (p', q) => p' = p /\ cut (doc_tag en) q = Some (m, r)
  | None => False
  end -> pair_of st en s p m r.
Proof.
  intros st en s p m r H. destruct (rcut (doc_tag st) s) as [[p' q]|] eqn:R; [|destruct H].
  destruct H as [-> C]. exists q. split; [now apply rcut_some|now apply cut_some].
Qed.

Example C70_ex :
  pair_of docs_start docs_end ex_old ex_p ex_m1 (ex_q ++ comment flags_start ++ ex_m2 ++ comment flags_end ++ ex_r)
  /\ pair_of flags_start flags_end ex_old (ex_p ++ comment docs_start ++ ex_m1 ++ comment docs_end ++ ex_q) ex_m2 ex_r
  /\ ~ occurs docs_start (extract_content ex_readme docs_start docs_end)
  /\ ~ occurs docs_start (extract_content ex_readme flags_start flags_end)
  /\ ~ occurs flags_start (extract_content ex_readme flags_start flags_end)
  /\ occurs flags_start (extract_content ex_readme docs_start docs_end)
  /\ update_lib_docs ex_readme ex_old = ex_new /\ update_lib_docs ex_readme ex_new = ex_new
  /\ ex_old <> ex_new.
Proof.
  split; [|split; [|split; [|split; [|split; [|split; [|split; [|split]]]]]]].
  - apply pair_by. vm_compute. split; reflexivity.
  - apply pair_by. vm_compute. split; reflexivity.
  - apply cut_none. vm_compute. reflexivity.
  - apply cut_none. vm_compute. reflexivity.
  - apply cut_none. vm_compute. reflexivity.
  - destruct (cut flags_start (extract_content ex_readme docs_start docs_end)) as [[b a]|] eqn:E.
    + apply cut_some in E. destruct E as [E _]. now exists b, a.
    + exfalso. vm_compute in E. discriminate E.
  - vm_compute. reflexivity.
  - vm_compute. reflexivity.
  - intros E. vm_compute in E. discriminate E.
Qed.

(** The condition on the README is needed: a section that repeats its start tag
    is copied once more by every update. *)
Example C70_repeated_tag :
  let readme := join_lf (map lit ["<!-- rust-docs-start -->"; "a"; "<!-- rust-docs-start -->"; "b"; "<!-- rust-docs-end -->"]%string) in
  let once := update_lib_docs readme ex_old in
  (List.length once < List.length (update_lib_docs readme once))%nat.
Proof. cbv zeta. apply Nat.ltb_lt. vm_compute. reflexivity. Qed.
