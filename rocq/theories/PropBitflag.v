(** Bitflag enums: acceptance, conversions, use as a field type (C30, C57). *)
From Coq Require Import ZArith List Bool String Ascii Lia.
From Verif Require Import RustInt Syntax GenInt GenArr Gen ConstExpr Parser Bitflag Spec SpecDecl
  BitsLemmas CoreLemmas GenLemmas ConvLemmas Examples PropFields ParserLemmas PropLit PropArgs.
Import ListNotations.
Open Scope Z_scope.

(** ** What a bitflag declaration means *)

(** The type is unsigned.  (The README names only the five integer types; see
    [C30_type_refuted].) *)
Definition unsigned_type (t : rtype) : Prop :=
  (exists i, t = RPath (ity_name i) /\ (i = TBool \/ In i [U8; U16; U32; U64; U128])) \/
  (exists k, t = RArray (RPath "u8") (LenLit k) /\ 0 < Z.of_N k < 2 ^ 32).
Definition flag_arg_ok (a : string * string) : Prop :=
  ((fst a = "from_endian" \/ fst a = "into_endian")%string /\ exists e, endian_text (snd a) e) \/
  (fst a = "copy"%string /\ bool_text (snd a)).
(** The variant has a value, and it is not taken for a float (nor a malformed
    number). *)
Definition has_value (v : rvariant) : Prop :=
  exists text, v_text v = Some text /\ exists c, const_expr_new text = POk c.
Definition marked (a : string) (v : rvariant) : Prop := In a (v_attrs v).
Definition enum_valid (e : renum) : Prop :=
  (exists t, e_type e = Some t /\ unsigned_type t) /\
  Forall flag_arg_ok (e_args e) /\
  Forall has_value (e_variants e) /\
  (forall i j u v, nth_error (e_variants e) i = Some u -> nth_error (e_variants e) j = Some v ->
     marked "base" u -> marked "base" v -> i = j) /\
  (exists v, In v (e_variants e) /\ (marked "base" v \/ marked "default" v)).

(** The arguments: the last one counts, otherwise the cargo features decide. *)
Definition flag_endian (F : features) (args : list (string * string)) (key little big : string)
    (e : endian) : Prop :=
  match last_of key args with
  | Some s => endian_text s e
  | None => e = if F little && negb (F big) then Little else Big
  end.
Definition flag_args_match (F : features) (args : list (string * string)) (a : flagargs) : Prop :=
  flag_endian F args "from_endian" "bitflag_from_endian_little" "bitflag_from_endian_big" (fa_from a) /\
  flag_endian F args "into_endian" "bitflag_into_endian_little" "bitflag_into_endian_big" (fa_into a) /\
  fa_copy a = switch_value args "copy" (F "bitflag_derive_copy"%string || negb (F "bitflag_disable_copy"%string)).

Definition variant_matches (v : rvariant) (x : variant) : Prop :=
  x_name x = v_name v /\ x_value x = v_value v /\ x_form x = v_form v /\
  (x_base x = true <-> marked "base" v) /\ (x_default x = true <-> marked "default" v) /\
  (forall a, In a (x_attrs x) <-> In a (v_attrs v) /\ a <> "base"%string).

(** What rustc checks of the generated enum: an integer [repr], distinct
    discriminants of that type, distinct names. *)
Definition flag_compiles (g : bitflag) (t : ity) : Prop :=
  g_ty g = DInteger t /\ In t [U8; U16; U32; U64; U128] /\
  NoDup (map x_value (g_variants g)) /\ NoDup (map x_name (g_variants g)) /\
  Forall (fun x => 0 <= x_value x < 2 ^ ity_bits t) (g_variants g).

(** [z'] is [z] seen with the given byte order. *)
Definition ordered (e : endian) (t : ity) (z z' : Z) : Prop :=
  match e with
  | Big => z' = z
  | Little => 0 <= z' < 2 ^ ity_bits t /\
              le_bytes (Z.to_nat (ity_bits t / 8)) z' = rev (le_bytes (Z.to_nat (ity_bits t / 8)) z)
  end.
(** The variant for values that are no discriminant. *)
Definition fallback (xs : list variant) (x : variant) : Prop :=
  (In x xs /\ x_base x = true) \/
  (Forall (fun y => x_base y = false) xs /\
   exists pre post, xs = pre ++ x :: post /\ x_default x = true /\ Forall (fun y => x_default y = false) pre).

(** ** Parser *)

Lemma data_type_unsigned t d : get_data_type t = POk d -> d <> DCustom -> dt_unsigned d = true -> unsigned_type t.
Proof.
  intros H Hc Hu. apply get_type_sound in H. destruct d as [i|n|]; [| |congruence].
  - left. exists i. split; [exact H|]. destruct i; try discriminate Hu; cbn; tauto.
  - right. destruct H as (k & -> & -> & H). eauto.
Qed.
Lemma unsigned_data_type t : unsigned_type t -> exists d, get_data_type t = POk d /\ d <> DCustom /\ dt_unsigned d = true.
Proof.
  intros [(i & -> & H)|(k & -> & H)].
  - exists (DInteger i). split; [apply get_type_complete; reflexivity|]. split; [discriminate|].
    destruct i; try reflexivity; exfalso; cbn in H; intuition discriminate.
  - exists (DArray (Z.of_N k)). split; [apply get_type_complete; cbn; eauto|]. split; [discriminate|reflexivity].
Qed.

Definition fstep (k v : string) (a a' : flagargs) : Prop :=
  (if String.eqb k "from_endian" then endian_text v (fa_from a') else fa_from a' = fa_from a) /\
  (if String.eqb k "into_endian" then endian_text v (fa_into a') else fa_into a' = fa_into a) /\
  (if String.eqb k "copy" then v = (if fa_copy a' then "true" else "false")%string else fa_copy a' = fa_copy a).

Lemma flag_arg_sound a k v a' : flag_arg a (k, v) = POk a' -> flag_arg_ok (k, v) /\ fstep k v a a'.
Proof.
  unfold flag_arg. intro H. unfold flag_arg_ok, fstep. cbn [fst snd].
  destruct (String.eqb_spec k "from_endian"); [subst|destruct (String.eqb_spec k "into_endian"); [subst|
    destruct (String.eqb_spec k "copy"); [subst|discriminate]]].
  - pinv H x Hx. injection H as <-. apply endian_iff in Hx. cbn. split; [left; eauto|auto].
  - pinv H x Hx. injection H as <-. apply endian_iff in Hx. cbn. split; [left; eauto|auto].
  - pinv H x Hx. injection H as <-. apply bool_iff in Hx. cbn. split; [right|auto].
    split; [reflexivity|]. unfold bool_text. destruct x; auto.
Qed.
Lemma flag_arg_complete a k v : flag_arg_ok (k, v) -> exists a', flag_arg a (k, v) = POk a'.
Proof.
  unfold flag_arg_ok, flag_arg. cbn [fst snd]. intros [[[->| ->] (e & H)]|[-> H]].
  - apply endian_iff in H. cbn. rewrite H. cbn. eauto.
  - apply endian_iff in H. cbn. rewrite H. cbn. eauto.
  - cbn. destruct H as [->| ->]; cbn; eauto.
Qed.
Lemma flag_fold args : forall a a', fold_args flag_arg a args = POk a' ->
  Forall flag_arg_ok args /\
  match last_of "from_endian" args with Some s => endian_text s (fa_from a') | None => fa_from a' = fa_from a end /\
  match last_of "into_endian" args with Some s => endian_text s (fa_into a') | None => fa_into a' = fa_into a end /\
  match last_of "copy" args with Some s => s = (if fa_copy a' then "true" else "false")%string | None => fa_copy a' = fa_copy a end.
Proof.
  induction args as [|[k v] args IH]; intros a a' H; cbn [fold_args] in H.
  - injection H as <-. cbn. auto.
  - pinv H a1 H1. apply IH in H as (Hok & Hf & Hi & Hc). apply flag_arg_sound in H1 as (Ho & S1 & S2 & S3).
    split; [constructor; assumption|].
    rewrite !last_of_cons. cbn [fst snd].
    repeat apply conj.
    + destruct (last_of "from_endian" args); [exact Hf|]. rewrite Hf. destruct (String.eqb k "from_endian"); exact S1.
    + destruct (last_of "into_endian" args); [exact Hi|]. rewrite Hi. destruct (String.eqb k "into_endian"); exact S2.
    + destruct (last_of "copy" args); [exact Hc|]. rewrite Hc. destruct (String.eqb k "copy"); exact S3.
Qed.
Lemma flag_fold_complete args : Forall flag_arg_ok args -> forall a, exists a', fold_args flag_arg a args = POk a'.
Proof.
  induction 1 as [|[k v] args H _ IH]; intro a; cbn [fold_args]; [eauto|].
  destruct (flag_arg_complete a k v H) as (a1 & ->). cbn. apply IH.
Qed.
Lemma flag_keys_complete args : Forall flag_arg_ok args -> check_keys flag_keys args = POk tt.
Proof.
  intro H. unfold check_keys. replace (forallb _ args) with true; [reflexivity|]. symmetry. apply forallb_forall.
  intros [k v] Hin. rewrite Forall_forall in H. specialize (H _ Hin). unfold flag_arg_ok in H. cbn [fst] in *.
  destruct H as [[[->| ->] _]|[-> _]]; reflexivity.
Qed.

Lemma flag_args_iff F args : (exists a, parse_flag_args F args = POk a) <-> Forall flag_arg_ok args.
Proof.
  unfold parse_flag_args. split.
  - intros (a & H). pinv H u Hu. apply flag_fold in H. tauto.
  - intro H. rewrite flag_keys_complete by assumption. cbn. apply flag_fold_complete. assumption.
Qed.
Lemma flag_args_value F args a : parse_flag_args F args = POk a -> flag_args_match F args a.
Proof.
  unfold parse_flag_args. intro H. pinv H u Hu. apply flag_fold in H as (_ & Hf & Hi & Hc).
  unfold flag_args_match, flag_endian, switch_value. cbn [flagargs_default fa_from fa_into fa_copy] in *.
  repeat apply conj.
  - destruct (last_of "from_endian" args); [assumption|]. rewrite Hf.
    destruct (F "bitflag_from_endian_little"%string), (F "bitflag_from_endian_big"%string); reflexivity.
  - destruct (last_of "into_endian" args); [assumption|]. rewrite Hi.
    destruct (F "bitflag_into_endian_little"%string), (F "bitflag_into_endian_big"%string); reflexivity.
  - destruct (last_of "copy" args); [symmetry; now apply bool_val|]. rewrite Hc.
    destruct (F "bitflag_derive_copy"%string), (F "bitflag_disable_copy"%string); reflexivity.
Qed.

Lemma attribute_iff F e : (exists a, parse_flag_attribute F e = POk a) <->
  (exists t, e_type e = Some t /\ unsigned_type t) /\ Forall flag_arg_ok (e_args e).
Proof.
  unfold parse_flag_attribute. destruct (e_type e) as [t|]; [|split; [intros (a & H); discriminate|intros ((t & H & _) & _); discriminate]].
  split.
  - intros (a & H). destruct (get_data_type t) as [d| |] eqn:Ed; try discriminate.
    assert (Hd : d <> DCustom) by (intros ->; discriminate).
    assert (H' : (if negb (dt_unsigned d) then PErr FType else
        match parse_flag_args F (e_args e) with POk a => POk (d, a) | PErr x => PErr (FArgument x) | PPanic => PPanic end) = POk a)
      by (destruct d; [exact H|exact H|congruence]). clear H.
    destruct (dt_unsigned d) eqn:Eu; [|discriminate]. cbn [negb] in H'.
    split; [exists t; split; [reflexivity|]; eapply data_type_unsigned; eassumption|].
    destruct (parse_flag_args F (e_args e)) eqn:Ea; try discriminate. apply (flag_args_iff F). eauto.
  - intros ((t' & Ht & Hu) & Ha). injection Ht as <-.
    destruct (unsigned_data_type t Hu) as (d & -> & Hd & Hud).
    apply (flag_args_iff F) in Ha as (a & Ha). exists (d, a).
    destruct d; try congruence; rewrite Hud, Ha; reflexivity.
Qed.

Lemma POk_inj {E A} (a b : A) : @POk E A a = POk b -> a = b.
Proof. congruence. Qed.
Lemma existsb_marked a v : existsb (String.eqb a) (v_attrs v) = true <-> marked a v.
Proof.
  rewrite existsb_exists. unfold marked. split.
  - intros (b & H & E). apply String.eqb_eq in E. now subst.
  - intro H. exists a. split; [exact H|apply String.eqb_refl].
Qed.
Lemma parse_variant_iff v x : parse_variant v = POk x ->  has_value v /\ variant_matches v x.
Proof.
  unfold parse_variant, has_value. cbv zeta. destruct (v_text v) as [text|]; [|discriminate].
  destruct (const_expr_new text) as [c| |] eqn:E; try discriminate. intro H. apply POk_inj in H. subst x.
  split; [eauto|]. unfold variant_matches. cbn [x_name x_value x_form x_base x_default x_attrs].
  rewrite !existsb_marked. repeat (apply conj; [reflexivity|]).
  intro a. rewrite filter_In, negb_true_iff, String.eqb_neq. reflexivity.
Qed.
Lemma parse_variants_sound vs : forall xs, parse_variants vs = POk xs ->
  Forall has_value vs /\ Forall2 variant_matches vs xs.
Proof.
  induction vs as [|v vs IH]; intros xs H; cbn [parse_variants] in H.
  - injection H as <-. auto.
  - pinv H x Hx. pinv H ys Hy. injection H as <-. apply parse_variant_iff in Hx as [H1 H2].
    apply IH in Hy as [H3 H4]. auto.
Qed.
Lemma parse_variants_complete vs : Forall has_value vs -> exists xs, parse_variants vs = POk xs.
Proof.
  induction 1 as [|v vs (text & Ht & c & Hc) _ (xs & IH)]; [cbn; eauto|].
  cbn [parse_variants]. unfold parse_variant. cbv zeta. rewrite Ht, Hc. cbn [pbind]. rewrite IH. cbn [pbind]. eauto.
Qed.

Lemma filter_le1 {A} (p : A -> bool) l :
  (List.length (filter p l) <= 1)%nat <->
  (forall i j u v, nth_error l i = Some u -> nth_error l j = Some v -> p u = true -> p v = true -> i = j).
Proof.
  induction l as [|a l IH].
  - cbn. split; [|lia]. intros _ i j u v H. destruct i; discriminate.
  - assert (Hnil : forall i v, filter p l = [] -> nth_error l i = Some v -> p v = true -> False).
    { intros i v E Hi Hv. assert (Hin : In v (filter p l)) by (apply filter_In; split; [eapply nth_error_In; eassumption|assumption]).
      rewrite E in Hin. destruct Hin. }
    split.
    + intro H. destruct i as [|i], j as [|j]; cbn [nth_error]; intros u v Hu Hv Hpu Hpv; try reflexivity.
      * exfalso. injection Hu as <-. cbn [filter] in H. rewrite Hpu in H. cbn in H.
        apply (Hnil j v); auto. destruct (filter p l); [reflexivity|cbn in H; lia].
      * exfalso. injection Hv as <-. cbn [filter] in H. rewrite Hpv in H. cbn in H.
        apply (Hnil i u); auto. destruct (filter p l); [reflexivity|cbn in H; lia].
      * f_equal. apply (proj1 IH) with u v; auto. cbn [filter] in H. destruct (p a); cbn in H; lia.
    + intro H. cbn [filter]. destruct (p a) eqn:Ea.
      * destruct (filter p l) as [|b r] eqn:Ef; [cbn; lia|exfalso].
        assert (Hb : In b (filter p l)) by (rewrite Ef; left; reflexivity).
        apply filter_In in Hb as [Hb1 Hb2]. apply In_nth_error in Hb1 as (j & Hj).
        specialize (H 0%nat (S j) a b eq_refl Hj Ea Hb2). discriminate.
      * apply IH. intros i j u v Hu Hv Hpu Hpv. specialize (H (S i) (S j) u v Hu Hv Hpu Hpv). congruence.
Qed.

Lemma Forall2_nth_l {A B} (R : A -> B -> Prop) l m i a : Forall2 R l m -> nth_error l i = Some a ->
  exists b, nth_error m i = Some b /\ R a b.
Proof. intro H. revert i. induction H; intros [|i] E; try discriminate; cbn in *; [injection E as <-; eauto|auto]. Qed.
Lemma Forall2_nth_r {A B} (R : A -> B -> Prop) l m i b : Forall2 R l m -> nth_error m i = Some b ->
  exists a, nth_error l i = Some a /\ R a b.
Proof. intro H. revert i. induction H; intros [|i] E; try discriminate; cbn in *; [injection E as <-; eauto|auto]. Qed.

Lemma check_base_iff vs xs : Forall2 variant_matches vs xs ->
  check_base xs = POk tt <->
  (forall i j u v, nth_error vs i = Some u -> nth_error vs j = Some v ->
     marked "base" u -> marked "base" v -> i = j) /\
  (exists v, In v vs /\ (marked "base" v \/ marked "default" v)).
Proof.
  intro HF. unfold check_base.
  assert (H1 : (1 <? List.length (filter x_base xs))%nat = false <->
    (forall i j u v, nth_error vs i = Some u -> nth_error vs j = Some v -> marked "base" u -> marked "base" v -> i = j)).
  { rewrite Nat.ltb_ge, filter_le1. split; intros H i j u v Hu Hv Mu Mv.
    - destruct (Forall2_nth_l _ _ _ _ _ HF Hu) as (x & Hx & (_ & _ & _ & Bx & _)).
      destruct (Forall2_nth_l _ _ _ _ _ HF Hv) as (y & Hy & (_ & _ & _ & By & _)).
      apply (H i j x y); tauto.
    - destruct (Forall2_nth_r _ _ _ _ _ HF Hu) as (x & Hx & (_ & _ & _ & Bx & _)).
      destruct (Forall2_nth_r _ _ _ _ _ HF Hv) as (y & Hy & (_ & _ & _ & By & _)).
      apply (H i j x y); tauto. }
  assert (H2 : existsb (fun x => x_base x || x_default x) xs = true <->
    exists v, In v vs /\ (marked "base" v \/ marked "default" v)).
  { rewrite existsb_exists. split.
    - intros (x & Hin & E). apply In_nth_error in Hin as (i & Hi).
      destruct (Forall2_nth_r _ _ _ _ _ HF Hi) as (v & Hv & (_ & _ & _ & Bx & Dx & _)).
      exists v. split; [eapply nth_error_In; eassumption|]. apply orb_true_iff in E. tauto.
    - intros (v & Hin & E). apply In_nth_error in Hin as (i & Hi).
      destruct (Forall2_nth_l _ _ _ _ _ HF Hi) as (x & Hx & (_ & _ & _ & Bx & Dx & _)).
      exists x. split; [eapply nth_error_In; eassumption|]. apply orb_true_iff. tauto. }
  rewrite <- H1, <- H2.
  destruct (1 <? List.length (filter x_base xs))%nat, (existsb (fun x => x_base x || x_default x) xs); cbn [negb];
    split; try discriminate; intuition congruence.
Qed.

(** ** C30: acceptance *)

(** The macro accepts exactly the valid enums ... *)
Theorem C30_accepted F e : (exists g, parse_bitflag F e = POk g) <-> enum_valid e.
Proof.
  unfold parse_bitflag, enum_valid. split.
  - intros (g & H). pinv H a Ha. pinv H xs Hxs. pinv H u Hu. destruct u.
    destruct (proj1 (attribute_iff F e)) as [H1 H2]; [eauto|].
    apply parse_variants_sound in Hxs as [H3 H4].
    apply (check_base_iff _ _ H4) in Hu as [H5 H6]. auto.
  - intros (H1 & H2 & H3 & H4). destruct (proj2 (attribute_iff F e)) as (a & ->); [auto|]. cbn [pbind].
    destruct (parse_variants_complete _ H3) as (xs & Hxs). rewrite Hxs. cbn [pbind].
    apply parse_variants_sound in Hxs as [_ H5]. apply (check_base_iff _ _ H5) in H4. rewrite H4. cbn [pbind]. eauto.
Qed.

(** ... and the descriptor says what the declaration says. *)
Theorem C30_descriptor F e g : parse_bitflag F e = POk g ->
  g_vis g = e_vis e /\ g_name g = e_name e /\
  (exists t, e_type e = Some t /\ type_is t (g_ty g)) /\
  Forall2 variant_matches (e_variants e) (g_variants g) /\
  flag_args_match F (e_args e) (g_args g).
Proof.
  unfold parse_bitflag. intro H. pinv H a Ha. pinv H xs Hxs. pinv H u Hu. injection H as <-.
  cbn [g_vis g_name g_ty g_variants g_args]. apply parse_variants_sound in Hxs as [_ Hxs].
  unfold parse_flag_attribute in Ha. destruct (e_type e) as [t|]; [|discriminate].
  destruct (get_data_type t) as [d| |] eqn:Ed; try discriminate.
  assert (H' : (if negb (dt_unsigned d) then PErr FType else
      match parse_flag_args F (e_args e) with POk a => POk (d, a) | PErr x => PErr (FArgument x) | PPanic => PPanic end) = POk a)
    by (destruct d; [exact Ha|exact Ha|discriminate]).
  destruct (dt_unsigned d); [|discriminate]. cbn [negb] in H'.
  destruct (parse_flag_args F (e_args e)) as [fa| |] eqn:Ea; try discriminate. injection H' as <-. cbn [fst snd].
  repeat (apply conj; [reflexivity|]). split; [exists t; split; [reflexivity|]; now apply get_type_sound|].
  split; [exact Hxs|]. now apply flag_args_value.
Qed.

(** ** C30: conversions *)

Lemma find_first {A} (p : A -> bool) l x : find p l = Some x ->
  exists pre post, l = pre ++ x :: post /\ p x = true /\ Forall (fun y => p y = false) pre.
Proof.
  induction l as [|a l IH]; cbn [find]; [discriminate|]. destruct (p a) eqn:E.
  - injection 1 as <-. exists [], l. auto.
  - intro H. destruct (IH H) as (pre & post & -> & Hx & Hp). exists (a :: pre), post. auto.
Qed.
Lemma find_none_all {A} (p : A -> bool) l : find p l = None -> Forall (fun y => p y = false) l.
Proof. intro H. apply Forall_forall. intros x Hx. exact (find_none p l H x Hx). Qed.

(** The wildcard arm is the fallback. *)
Lemma cases_shape F e g : parse_bitflag F e = POk g -> exists x,
  fallback (g_variants g) x /\ In x (g_variants g) /\
  match_cases g = Val (map (fun x => (PVal (x_value x) (x_form x), x_name x))
                 (filter (fun x => negb (x_base x)) (g_variants g)) ++ [(PWild, x_name x)]).
Proof.
  unfold parse_bitflag. intro H. pinv H a Ha. pinv H xs Hxs. pinv H u Hu. injection H as <-.
  unfold match_cases. cbn [g_variants]. unfold check_base in Hu.
  destruct (1 <? List.length (filter x_base xs))%nat; [discriminate|].
  destruct (existsb (fun x => x_base x || x_default x) xs) eqn:Ex; [|discriminate].
  destruct (find x_base xs) as [x|] eqn:Eb.
  - exists x. apply find_some in Eb as [H1 H2]. split; [left; auto|]. split; [assumption|reflexivity].
  - apply find_none_all in Eb. destruct (find x_default xs) as [x|] eqn:Ed.
    + exists x. apply find_first in Ed as (pre & post & -> & Hx & Hp). split; [right; eauto 8|].
      split; [apply in_elt|reflexivity].
    + exfalso. apply find_none_all in Ed. apply existsb_exists in Ex as (y & Hy & E).
      rewrite Forall_forall in Eb, Ed. rewrite (Eb y Hy), (Ed y Hy) in E. discriminate.
Qed.

Lemma arms_hit xs w z x : NoDup (map x_value xs) -> In x xs -> x_value x = z -> x_base x = false ->
  run_match (map (fun x => (PVal (x_value x) (x_form x), x_name x)) (filter (fun x => negb (x_base x)) xs) ++ [(PWild, w)]) z
  = Val (x_name x).
Proof.
  intros Hnd Hin Hz Hb. induction xs as [|y xs IH]; [destruct Hin|].
  cbn [map] in Hnd. inversion_clear Hnd as [|? ? Hy Hnd'].
  unfold run_match in *. cbn [filter]. destruct (x_base y) eqn:Ey; cbn [negb].
  - destruct Hin as [<-|Hin]; [congruence|]. apply IH; assumption.
  - cbn [map app find fst matches]. destruct (Z.eqb_spec z (x_value y)) as [E|E].
    + destruct Hin as [<-|Hin]; [reflexivity|]. exfalso. apply Hy. rewrite <- E, <- Hz. now apply in_map.
    + destruct Hin as [<-|Hin]; [congruence|]. apply IH; assumption.
Qed.
Lemma arms_miss xs w z : (forall x, In x xs -> x_base x = false -> x_value x <> z) ->
  run_match (map (fun x => (PVal (x_value x) (x_form x), x_name x)) (filter (fun x => negb (x_base x)) xs) ++ [(PWild, w)]) z
  = Val w.
Proof.
  intros H. induction xs as [|y xs IH]; [reflexivity|].
  unfold run_match in *. cbn [filter]. destruct (x_base y) eqn:Ey; cbn [negb].
  - apply IH. intros x Hx. apply H. now right.
  - cbn [map app find fst matches]. destruct (Z.eqb_spec z (x_value y)) as [E|E].
    + exfalso. apply (H y); [left; reflexivity|assumption|congruence].
    + apply IH. intros x Hx. apply H. now right.
Qed.

Lemma NoDup_map_inj {A B} (f : A -> B) l x y : NoDup (map f l) -> In x l -> In y l -> f x = f y -> x = y.
Proof.
  induction l as [|a l IH]; intros Hn Hx Hy E; [destruct Hx|]. cbn [map] in Hn. inversion_clear Hn as [|? ? Ha Hn'].
  destruct Hx as [<-|Hx], Hy as [<-|Hy]; auto.
  - exfalso. apply Ha. rewrite E. now apply in_map.
  - exfalso. apply Ha. rewrite <- E. now apply in_map.
Qed.

Lemma uint_bytes t : In t [U8; U16; U32; U64; U128] ->
  2 ^ ity_bits t = 256 ^ Z.of_nat (Z.to_nat (ity_bits t / 8)).
Proof. cbn; intros [<-|[<-|[<-|[<-|[<-|[]]]]]]; reflexivity. Qed.
Lemma convert_ordered e t z z' : In t [U8; U16; U32; U64; U128] -> ordered e t z z' -> convert_bits e t z = z'.
Proof.
  intros Ht H. unfold convert_bits. destruct e; cbn [ordered] in H; [|auto].
  destruct H as [Hr H]. unfold swap_bytes. rewrite <- H, le_val_bytes. apply Z.mod_small.
  now rewrite <- uint_bytes.
Qed.
Lemma convert_is_ordered e t z : In t [U8; U16; U32; U64; U128] -> 0 <= z < 2 ^ ity_bits t ->
  ordered e t z (convert_bits e t z) /\ 0 <= convert_bits e t z < 2 ^ ity_bits t.
Proof.
  intros Ht Hz. unfold convert_bits. destruct e; cbn [ordered]; [|auto].
  rewrite (uint_bytes t Ht). unfold swap_bytes. set (n := Z.to_nat (ity_bits t / 8)) in *.
  assert (Hl : List.length (rev (le_bytes n z)) = n) by (rewrite rev_length; apply le_bytes_length).
  assert (Hb : Forall is_byte (rev (le_bytes n z))) by (apply Forall_rev, le_bytes_bytes).
  pose proof (le_val_bound _ Hb) as Hr. rewrite Hl in Hr.
  split; [split; [exact Hr|]|exact Hr]. rewrite <- Hl at 1. apply le_bytes_val. assumption.
Qed.
Lemma convert_convert e t z : In t [U8; U16; U32; U64; U128] -> 0 <= z < 2 ^ ity_bits t ->
  convert_bits e t (convert_bits e t z) = z.
Proof.
  intros Ht Hz. destruct (convert_is_ordered e t z Ht Hz) as [H1 H2].
  apply convert_ordered; [assumption|]. destruct e; cbn [ordered convert_bits] in *; [|reflexivity].
  split; [assumption|]. destruct H1 as [_ ->]. now rewrite rev_involutive.
Qed.

Lemma flag_ity_ok g t : flag_compiles g t -> flag_ity g = Val t.
Proof.
  intros (E & Ht & _). unfold flag_ity. rewrite E.
  cbn in Ht; destruct Ht as [<-|[<-|[<-|[<-|[<-|[]]]]]]; reflexivity.
Qed.

Lemma one_base F e g x y : parse_bitflag F e = POk g -> In x (g_variants g) -> In y (g_variants g) ->
  x_base x = true -> x_base y = true -> x = y.
Proof.
  unfold parse_bitflag. intros H. pinv H a Ha. pinv H xs Hxs. pinv H u Hu. injection H as <-. cbn [g_variants].
  unfold check_base in Hu. destruct (1 <? List.length (filter x_base xs))%nat eqn:El; [discriminate|].
  apply Nat.ltb_ge in El. intros Hx Hy Bx By.
  apply In_nth_error in Hx as (i & Hi), Hy as (j & Hj).
  pose proof (proj1 (filter_le1 x_base xs) El i j x y Hi Hj Bx By). subst j. congruence.
Qed.

(** [from_bits] gives the variant whose discriminant the value is (in the
    configured byte order), otherwise the fallback. *)
Theorem C30_from_bits F e g t z z' :
  parse_bitflag F e = POk g -> flag_compiles g t -> 0 <= z < 2 ^ ity_bits t ->
  ordered (fa_from (g_args g)) t z z' ->
  (forall x, In x (g_variants g) -> x_value x = z' -> flag_from_bits g z = Val (x_name x)) /\
  ((forall x, In x (g_variants g) -> x_value x <> z') ->
   exists x, fallback (g_variants g) x /\ flag_from_bits g z = Val (x_name x)).
Proof.
  intros Hp Hc Hz Ho. pose proof (flag_ity_ok g t Hc) as Hi. destruct Hc as (_ & Ht & Hnd & _ & _).
  destruct (cases_shape F e g Hp) as (w & Hw & Hwin & Hm).
  unfold flag_from_bits. rewrite Hi, Hm. cbn [bind].
  rewrite (convert_ordered _ t z z') by assumption. split.
  - intros x Hx Ex. destruct (x_base x) eqn:Eb; [|eapply arms_hit; eassumption].
    assert (x = w) as <-.
    { destruct Hw as [[_ Hw]|[Hw _]]; [eapply one_base; eassumption|].
      rewrite Forall_forall in Hw. rewrite (Hw x Hx) in Eb. discriminate. }
    apply arms_miss. intros y Hy By E. assert (y = x) by (eapply NoDup_map_inj; eauto; congruence). congruence.
  - intros Hno. exists w. split; [exact Hw|]. apply arms_miss. auto.
Qed.

(** [into_bits] gives the discriminant in the configured byte order. *)
Theorem C30_into_bits g t x z :
  flag_compiles g t -> In x (g_variants g) -> ordered (fa_into (g_args g)) t (x_value x) z ->
  flag_into_bits g x = Val z.
Proof.
  intros Hc Hx Ho. unfold flag_into_bits. rewrite (flag_ity_ok g t Hc). cbn [bind].
  destruct Hc as (_ & Ht & _ & _ & Hv). rewrite Forall_forall in Hv. specialize (Hv x Hx).
  rewrite cast_id; [f_equal; apply convert_ordered; assumption|].
  unfold in_ity. cbn in Ht; destruct Ht as [<-|[<-|[<-|[<-|[<-|[]]]]]]; exact Hv.
Qed.

(** Round trip when both conversions use the same byte order. *)
Theorem C30_round_trip F e g t x :
  parse_bitflag F e = POk g -> flag_compiles g t -> In x (g_variants g) ->
  fa_from (g_args g) = fa_into (g_args g) ->
  exists z, flag_into_bits g x = Val z /\ 0 <= z < 2 ^ ity_bits t /\ flag_from_bits g z = Val (x_name x).
Proof.
  intros Hp Hc Hx He. pose proof Hc as (_ & Ht & _ & _ & Hv). rewrite Forall_forall in Hv. specialize (Hv x Hx).
  destruct (convert_is_ordered (fa_into (g_args g)) t (x_value x) Ht Hv) as [H1 H2].
  exists (convert_bits (fa_into (g_args g)) t (x_value x)). split; [|split; [exact H2|]].
  - eapply C30_into_bits; eassumption.
  - assert (Ho : ordered (fa_from (g_args g)) t (convert_bits (fa_into (g_args g)) t (x_value x)) (x_value x)).
    { rewrite He. rewrite <- (convert_convert (fa_into (g_args g)) t (x_value x)) at 2 by assumption.
      apply convert_is_ordered; assumption. }
    destruct (C30_from_bits F e g t _ _ Hp Hc H2 Ho) as [H _]. apply H; [exact Hx|reflexivity].
Qed.

(** A game state: [Active] is the base although it is declared last. *)
Definition var (n : string) (attrs : list string) (text : string) (v : Z) : rvariant :=
  mkRVariant n attrs (Some text) FLit v.
Definition state_enum (ty : string) (args : list (string * string)) : renum :=
  mkREnum VisPublic "State" (Some (RPath ty)) args
    [var "Paused" ["doc"; "default"] "0x0102" 0x0102; var "Inactive" [] "3" 3; var "Active" ["base"] "7_u16" 7]%string.
Definition no_features : features := fun _ => false.
Definition both_little : list (string * string) := [("from_endian", "little"); ("into_endian", "LITTLE")]%string.
Definition flag_of (e : renum) : bitflag :=
  match parse_bitflag no_features e with POk g => g | _ => mkBitflag VisPublic "" DCustom [] (mkFlagArgs Big Big true) end.

Lemma state_compiles args :
  parse_bitflag no_features (state_enum "u16" args) = POk (flag_of (state_enum "u16" args)) ->
  flag_compiles (flag_of (state_enum "u16" args)) U16.
Proof.
  set (g := flag_of (state_enum "u16" args)). clearbody g. intros H. pose proof (C30_descriptor _ _ _ H) as (_ & _ & (t & Ht & Hty) & HF & _).
  assert (Eg : g_ty g = DInteger U16).
  { injection Ht as <-. exact (type_is_inj (RPath "u16") _ (DInteger U16) Hty eq_refl). }
  unfold flag_compiles. split; [exact Eg|]. split; [cbn; tauto|].
  cbn [e_variants state_enum] in HF.
  inversion HF as [|? x1 ? l1 H1 HF1 E1 E1']; subst. inversion HF1 as [|? x2 ? l2 H2 HF2 E2 E2']; subst.
  inversion HF2 as [|? x3 ? l3 H3 HF3 E3 E3']; subst. inversion HF3; subst.
  destruct H1 as (N1 & V1 & _), H2 as (N2 & V2 & _), H3 as (N3 & V3 & _). cbn [v_name v_value var] in *.
  cbn [map]. rewrite N1, N2, N3, V1, V2, V3. repeat apply conj; repeat constructor; cbn; intuition discriminate || lia.
Qed.

Example C30_ex :
  enum_valid (state_enum "u16" both_little) /\
  flag_compiles (flag_of (state_enum "u16" both_little)) U16 /\
  parse_bitflag no_features (state_enum "u16" both_little) = POk (flag_of (state_enum "u16" both_little)) /\
  map (flag_into_bits (flag_of (state_enum "u16" both_little))) (g_variants (flag_of (state_enum "u16" both_little))) =
    map Val [0x0201; 0x0300; 0x0700] /\
  map (flag_from_bits (flag_of (state_enum "u16" both_little))) [0x0201; 0x0102; 0x0300; 3; 0x0700; 0] =
    map Val ["Paused"; "Active"; "Inactive"; "Active"; "Active"; "Active"]%string.
Proof.
  assert (H : parse_bitflag no_features (state_enum "u16" both_little) = POk (flag_of (state_enum "u16" both_little)))
    by (vm_compute; reflexivity).
  split; [apply (C30_accepted no_features); eauto|]. split; [apply state_compiles; exact H|]. split; [exact H|].
  split; [vm_compute; reflexivity|vm_compute; reflexivity].
Qed.

(** With different byte orders there is no round trip. *)
Example C30_mixed_ex :
  flag_compiles (flag_of (state_enum "u16" [("from_endian", "little")]%string)) U16 /\
  match g_variants (flag_of (state_enum "u16" [("from_endian", "little")]%string)) with
  | x :: _ => x_name x = "Paused"%string /\
      (z <- flag_into_bits (flag_of (state_enum "u16" [("from_endian", "little")]%string)) x ;;
       flag_from_bits (flag_of (state_enum "u16" [("from_endian", "little")]%string)) z) = Val "Active"%string
  | [] => False
  end.
Proof.
  split; [apply state_compiles; vm_compute; reflexivity|]. vm_compute. split; reflexivity.
Qed.

(** Rejections: no value, two bases, neither base nor default, signed type,
    float value, unknown argument. *)
Example C30_rejected_ex :
  map (parse_bitflag no_features)
    [mkREnum VisPublic "E" (Some (RPath "u8")) [] [mkRVariant "A" ["base"] None FLit 0];
     mkREnum VisPublic "E" (Some (RPath "u8")) [] [var "A" ["base"] "0" 0; var "B" ["base"] "1" 1];
     mkREnum VisPublic "E" (Some (RPath "u8")) [] [var "A" [] "0" 0];
     mkREnum VisPublic "E" (Some (RPath "i8")) [] [var "A" ["base"] "0" 0];
     mkREnum VisPublic "E" (Some (RPath "u8")) [] [var "A" ["base"] "1.0" 1];
     mkREnum VisPublic "E" (Some (RPath "u8")) [("order", "lsb")] [var "A" ["base"] "0" 0]]%string =
  [PErr FNoValue; PErr FManyBases; PErr FNoBase; PErr FType; PErr FFloat; PErr (FArgument EUnknownArgument)].
Proof. vm_compute. reflexivity. Qed.

(** ** C58: accepted enums give valid matches *)

(** Rust patterns: literals, paths and the wildcard; no other expression. *)
Definition pattern_ok (p : pattern) : Prop :=
  match p with PVal _ FOther => False | _ => True end.
(** The generated [match]: valid patterns, no value listed twice, exhaustive. *)
Definition match_ok (g : bitflag) : Prop :=
  exists arms w, match_cases g = Val (arms ++ [(PWild, w)]) /\ In w (map x_name (g_variants g)) /\
    Forall (fun a => pattern_ok (fst a) /\ fst a <> PWild /\ In (snd a) (map x_name (g_variants g))) arms /\
    (forall a b v f f', In a arms -> In b arms -> fst a = PVal v f -> fst b = PVal v f' -> snd a = snd b).

(** Missing: expressions as values and types other than the five integers; both
    are accepted (see below). *)
Theorem C58_match_partial F e g t :
  parse_bitflag F e = POk g -> flag_compiles g t ->
  (forall v, In v (e_variants e) -> marked "base" v \/ v_form v <> FOther) -> match_ok g.
Proof.
  intros Hp (_ & _ & Hnd & _) Hform. destruct (cases_shape F e g Hp) as (w & _ & Hw & Hm).
  destruct (C30_descriptor F e g Hp) as (_ & _ & _ & HF & _).
  exists (map (fun x => (PVal (x_value x) (x_form x), x_name x)) (filter (fun x => negb (x_base x)) (g_variants g))), (x_name w).
  split; [exact Hm|]. split; [now apply in_map|]. split.
  - apply Forall_forall. intros a Ha. apply in_map_iff in Ha as (x & <- & Hx). apply filter_In in Hx as [Hx Hb].
    cbn [fst snd]. split; [|split; [discriminate|now apply in_map]].
    apply In_nth_error in Hx as (i & Hi). destruct (Forall2_nth_r _ _ _ _ _ HF Hi) as (v & Hv & (_ & _ & Ef & Bx & _)).
    apply nth_error_In in Hv. destruct (Hform v Hv) as [M|M]; [apply Bx in M; rewrite M in Hb; discriminate|].
    unfold pattern_ok. rewrite Ef. destruct (v_form v); auto.
  - intros a b v f f' Ha Hb Ea Eb. apply in_map_iff in Ha as (x & <- & Hx), Hb as (y & <- & Hy).
    apply filter_In in Hx as [Hx _], Hy as [Hy _]. cbn [fst snd] in *.
    assert (x = y) by (eapply NoDup_map_inj; eauto; congruence). congruence.
Qed.
Example C58_ex : match_ok (flag_of (state_enum "u16" both_little)).
Proof.
  apply (C58_match_partial no_features (state_enum "u16" both_little) _ U16); [vm_compute; reflexivity| |].
  - apply state_compiles. vm_compute. reflexivity.
  - intros v Hv. right. cbn in Hv. destruct Hv as [<-|[<-|[<-|[]]]]; discriminate.
Qed.

(** A value such as [1 << 1] is accepted, but is not a pattern. *)
Definition shift_enum : renum :=
  mkREnum VisPublic "E" (Some (RPath "u8")) []
    [var "A" ["base"] "1" 1; mkRVariant "B" [] (Some "1 << 1") FOther 2]%string.
Theorem C58_expression_refuted : exists g,
  parse_bitflag no_features shift_enum = POk g /\ flag_compiles g U8 /\ ~ match_ok g.
Proof.
  exists (flag_of shift_enum). split; [vm_compute; reflexivity|]. split.
  - vm_compute. repeat apply conj; auto; repeat constructor; cbn; intuition discriminate.
  - intros (arms & w & H & _ & Hp & _).
    assert (E : arms ++ [(PWild, w)] = [(PVal 2 FOther, "B"%string); (PWild, "A"%string)]).
    { assert (E : match_cases (flag_of shift_enum) = Val [(PVal 2 FOther, "B"%string); (PWild, "A"%string)])
        by (vm_compute; reflexivity). congruence. }
    destruct arms as [|a arms]; [discriminate|]. injection E as -> _. inversion_clear Hp as [|? ? Ha _].
    destruct Ha as [[] _].
Qed.

(** The parser lets [bool] and byte arrays through, for which rustc accepts no
    [repr]. *)
Theorem C58_type_refuted : exists g h, parse_bitflag no_features (mkREnum VisPublic "E" (Some (RPath "bool")) [] [var "A" ["base"] "0" 0]%string) = POk g /\
    parse_bitflag no_features (mkREnum VisPublic "E" (Some (RArray (RPath "u8") (LenLit 2))) [] [var "A" ["base"] "0" 0]%string) = POk h /\
    (forall t, ~ flag_compiles g t) /\ (forall t, ~ flag_compiles h t).
Proof.
  eexists. eexists. split; [reflexivity|]. split; [reflexivity|]. split; intros t (E & Ht & _); [|discriminate].
  injection E as <-. cbn in Ht. intuition discriminate.
Qed.

(** ** C57: a bitflag as the type of a field *)

(** Position of a variant; values of the field are positions. *)
Fixpoint position (n : string) (xs : list variant) : nat :=
  match xs with [] => O | x :: t => if String.eqb (x_name x) n then O else S (position n t) end.
Definition flag_codec (g : bitflag) (t : ity) : codec :=
  mkCodec t (fun z => match flag_from_bits g z with Val n => Z.of_nat (position n (g_variants g)) | Panic => -1 end)
          t (fun k => match nth_error (g_variants g) (Z.to_nat k) with
                      | Some x => match flag_into_bits g x with Val z => z | Panic => 0 end
                      | None => 0
                      end).

Lemma position_nth xs k x : NoDup (map x_name xs) -> nth_error xs k = Some x -> position (x_name x) xs = k.
Proof.
  revert k. induction xs as [|y xs IH]; intros [|k] Hn E; try discriminate; cbn [nth_error position] in *.
  - injection E as ->. now rewrite String.eqb_refl.
  - cbn [map] in Hn. inversion_clear Hn as [|? ? Hy Hn']. destruct (String.eqb_spec (x_name y) (x_name x)) as [E'|E'].
    + exfalso. apply Hy. rewrite E'. apply in_map. eapply nth_error_In; eassumption.
    + f_equal. apply IH; assumption.
Qed.

Lemma uint_cast t z : In t [U8; U16; U32; U64; U128] -> 0 <= z < 2 ^ ity_bits t -> cast t z = z.
Proof.
  intros Ht Hz. apply cast_id. unfold in_ity. cbn in Ht; destruct Ht as [<-|[<-|[<-|[<-|[<-|[]]]]]]; exact Hz.
Qed.

(** A variant whose raw value fits in the field is read back. *)
Theorem C57_set_get F e g t k x z m bf f s :
  parse_bitflag F e = POk g -> flag_compiles g t -> fa_from (g_args g) = fa_into (g_args g) ->
  nth_error (g_variants g) k = Some x ->
  bf_ok bf -> In f (b_fields bf) -> store_ok bf s -> f_ty f = DCustom -> f_codec f = flag_codec g t ->
  ordered (fa_into (g_args g)) t (x_value x) z -> z < 2 ^ f_bits f ->
  exists s', set_field m bf f (VCustom (Z.of_nat k)) s = Val s' /\
             get_field m bf f s' = Val (VCustom (Z.of_nat k)).
Proof.
  intros Hp Hc He Hx Hbf Hf Hs Hty Hcd Ho Hz. apply C03_custom_roundtrip; try assumption.
  pose proof (nth_error_In _ _ Hx) as Hin.
  pose proof (C30_into_bits g t x z Hc Hin Ho) as Hi.
  destruct (C30_round_trip F e g t x Hp Hc Hin He) as (z' & Hi' & Hr & Hfb). rewrite Hi in Hi'. injection Hi' as <-.
  destruct Hc as (_ & Ht & _ & Hnm & _).
  unfold user_into, user_from. rewrite Hcd. cbn [flag_codec cd_from cd_into cd_from_ty cd_into_ty].
  rewrite Nat2Z.id, Hx, Hi, (uint_cast t z) by assumption. rewrite Z.mod_small by lia.
  rewrite uint_cast by assumption. rewrite Hfb. f_equal. apply position_nth; assumption.
Qed.

(** With the default byte order it is enough that the discriminant fits. *)
Theorem C57_set_get_big F e g t k x m bf f s :
  parse_bitflag F e = POk g -> flag_compiles g t -> fa_from (g_args g) = Big -> fa_into (g_args g) = Big ->
  nth_error (g_variants g) k = Some x ->
  bf_ok bf -> In f (b_fields bf) -> store_ok bf s -> f_ty f = DCustom -> f_codec f = flag_codec g t ->
  x_value x < 2 ^ f_bits f ->
  exists s', set_field m bf f (VCustom (Z.of_nat k)) s = Val s' /\
             get_field m bf f s' = Val (VCustom (Z.of_nat k)).
Proof.
  intros Hp Hc H1 H2 Hx Hbf Hf Hs Hty Hcd Hz. apply (C57_set_get F e g t k x (x_value x)); try assumption; [congruence|].
  rewrite H2. reflexivity.
Qed.

(** Bits that are no discriminant are read as the fallback variant. *)
Theorem C57_unlisted F e g t m bf f s z' :
  parse_bitflag F e = POk g -> flag_compiles g t ->
  bf_ok bf -> In f (b_fields bf) -> store_ok bf s -> f_ty f = DCustom -> f_codec f = flag_codec g t ->
  f_bits f <= ity_bits t ->
  ordered (fa_from (g_args g)) t (slice (sval s) (f_off f) (f_bits f)) z' ->
  (forall x, In x (g_variants g) -> x_value x <> z') ->
  exists k x, nth_error (g_variants g) k = Some x /\ fallback (g_variants g) x /\
    get_field m bf f s = Val (VCustom (Z.of_nat k)).
Proof.
  intros Hp Hc Hbf Hf Hs Hty Hcd Hw Ho Hno. pose proof (bf_ok_field bf f Hbf Hf) as Hfo.
  pose proof Hfo as (Hb1 & Ho1 & _).
  assert (Hr : 0 <= slice (sval s) (f_off f) (f_bits f) < 2 ^ f_bits f).
  { apply slice_bound; lia. }
  assert (Hpw : 2 ^ f_bits f <= 2 ^ ity_bits t) by (apply Z.pow_le_mono_r; lia).
  destruct (C30_from_bits F e g t (slice (sval s) (f_off f) (f_bits f)) z' Hp Hc ltac:(lia) Ho) as [_ H].
  destruct (H Hno) as (x & Hfb & Ev).
  assert (Hin : In x (g_variants g)).
  { destruct Hfb as [[Hin _]|(_ & pre & post & -> & _)]; [exact Hin|apply in_elt]. }
  apply In_nth_error in Hin as (k & Hk). exists k, x. split; [exact Hk|]. split; [exact Hfb|].
  rewrite C05_get_is_decode by assumption. f_equal. unfold decode, raw. rewrite Hty. f_equal.
  unfold user_from. rewrite Hcd. cbn [flag_codec cd_from cd_from_ty].
  destruct Hc as (_ & Ht & _ & Hnm & _). rewrite uint_cast by (assumption || lia). rewrite Ev. f_equal.
  apply position_nth; assumption.
Qed.

(** A flag that lists every pattern of the field loses nothing. *)
Theorem C57_lossless F e g t f :
  parse_bitflag F e = POk g -> flag_compiles g t -> fa_from (g_args g) = Big -> fa_into (g_args g) = Big ->
  f_ty f = DCustom -> f_codec f = flag_codec g t -> 0 <= f_bits f <= ity_bits t ->
  (forall r, 0 <= r < 2 ^ f_bits f -> In r (map x_value (g_variants g))) -> lossless f.
Proof.
  intros Hp Hc H1 H2 Hty Hcd Hw Hall. unfold lossless. rewrite Hty. intros r Hr.
  assert (Hpw : 2 ^ f_bits f <= 2 ^ ity_bits t) by (apply Z.pow_le_mono_r; lia).
  specialize (Hall r Hr). apply in_map_iff in Hall as (x & Ex & Hin).
  destruct (C30_from_bits F e g t r r Hp Hc ltac:(lia)) as [H _]; [rewrite H1; reflexivity|].
  pose proof (H x Hin Ex) as Hfb.
  assert (Hi : flag_into_bits g x = Val r) by (eapply C30_into_bits; eauto; rewrite H2; cbn; congruence).
  apply In_nth_error in Hin as (k & Hk). destruct Hc as (_ & Ht & _ & Hnm & _).
  unfold user_into, user_from. rewrite Hcd. cbn [flag_codec cd_from cd_into cd_from_ty cd_into_ty].
  rewrite (uint_cast t r) by (assumption || lia). rewrite Hfb, (position_nth _ k x), Nat2Z.id, Hk, Hi by assumption.
  rewrite uint_cast by (assumption || lia). apply Z.mod_small. lia.
Qed.

Definition narrow_bf (args : list (string * string)) : bitfield :=
  mkBitfield VisPublic "B" (DInteger U8)
    [mkField VisPublic "state" DCustom 4 0 false ReadWrite None false (flag_codec (flag_of (state_enum "u16" args)) U16);
     mkField VisPublic "rest" (DInteger U8) 4 4 false ReadWrite None false (f_codec ex_a)] [] default_args.
Definition flag_field (bf : bitfield) : field := nth 0 (b_fields bf) ex_a.
Example C57_ex :
  bf_ok (narrow_bf []) /\ In (flag_field (narrow_bf [])) (b_fields (narrow_bf [])) /\
  (s <- set_field Checked (narrow_bf []) (flag_field (narrow_bf [])) (VCustom 1) (StI 0xff) ;;
   x <- get_field Checked (narrow_bf []) (flag_field (narrow_bf [])) s ;; Val (s, x)) = Val (StI 0xf3, VCustom 1) /\
  get_field Checked (narrow_bf []) (flag_field (narrow_bf [])) (StI 0xf5) = Val (VCustom 2).
Proof.
  split; [apply bf_okb_ok; vm_compute; reflexivity|]. split; [left; reflexivity|].
  split; [vm_compute; reflexivity|vm_compute; reflexivity].
Qed.

(** With little endian conversions and a field narrower than the enum the
    variant is lost: [into_bits] of 3 is 0x0300, whose low four bits are 0. *)
Theorem C57_little_refuted : exists F e g t k x bf f s s',
  parse_bitflag F e = POk g /\ flag_compiles g t /\ fa_from (g_args g) = fa_into (g_args g) /\
  nth_error (g_variants g) k = Some x /\ x_value x < 2 ^ f_bits f /\
  bf_ok bf /\ In f (b_fields bf) /\ store_ok bf s /\ f_ty f = DCustom /\ f_codec f = flag_codec g t /\
  set_field Checked bf f (VCustom (Z.of_nat k)) s = Val s' /\
  get_field Checked bf f s' = Val (VCustom 2) /\ k <> 2%nat.
Proof.
  exists no_features, (state_enum "u16" both_little), (flag_of (state_enum "u16" both_little)), U16, 1%nat.
  exists (mkVariant "Inactive" [] 3 FLit false false), (narrow_bf both_little), (flag_field (narrow_bf both_little)), (StI 0xf0), (StI 0xf0).
  split; [vm_compute; reflexivity|]. split; [apply state_compiles; vm_compute; reflexivity|].
  split; [vm_compute; reflexivity|]. split; [vm_compute; reflexivity|]. split; [vm_compute; reflexivity|].
  split; [apply bf_okb_ok; vm_compute; reflexivity|]. split; [left; reflexivity|].
  split; [vm_compute; split; congruence|]. split; [reflexivity|]. split; [reflexivity|].
  split; [vm_compute; reflexivity|]. split; [vm_compute; reflexivity|]. discriminate.
Qed.

Definition on_off : renum :=
  mkREnum VisPublic "Power" (Some (RPath "u8")) [] [var "Off" ["default"] "0" 0; var "On" [] "true" 1]%string.
Definition on_off_field : field :=
  mkField VisPublic "power" DCustom 1 0 false ReadWrite None false (flag_codec (flag_of on_off) U8).
Example C57_lossless_ex : lossless on_off_field.
Proof.
  apply (C57_lossless no_features on_off (flag_of on_off) U8).
  - vm_compute. reflexivity.
  - vm_compute. repeat apply conj; auto; repeat constructor; cbn; intuition discriminate.
  - reflexivity.
  - reflexivity.
  - reflexivity.
  - reflexivity.
  - cbn. lia.
  - intros r Hr. assert (H : r = 0 \/ r = 1) by (cbn in Hr; lia). destruct H as [->| ->]; vm_compute; tauto.
Qed.
