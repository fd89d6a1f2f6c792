(** C62: which token sequences are accepted as arguments of an attribute. *)
From Coq Require Import ZArith List Bool String Lia.
From Verif Require Import RustInt Syntax ConstExpr Parser Bitflag Attr Examples.
Import ListNotations.
Open Scope Z_scope.

(** What is assumed of [syn]'s expression parser: it takes at least one token from
    the front and leaves the rest. *)
Definition takes (pe : expr_parser) : Prop :=
  forall ts v rest, pe ts = Some (v, rest) -> exists used, used <> [] /\ ts = used ++ rest.

(** ** The grammar *)

(** [key = value] with a known key, then [rest]. *)
Definition argument (pe : expr_parser) (keys : list string) (ts : list tok) (a : string * string) (rest : list tok) : Prop :=
  exists e, ts = KIdent (fst a) :: KEq :: e /\ In (fst a) keys /\ pe e = Some (snd a, rest).
(** Arguments separated by commas, possibly with a comma after the last. *)
Inductive arguments (pe : expr_parser) (keys : list string) : list tok -> list (string * string) -> Prop :=
| arguments_last ts a : argument pe keys ts a [] -> arguments pe keys ts [a]
| arguments_trailing ts a : argument pe keys ts a [KComma] -> arguments pe keys ts [a]
| arguments_more ts a rest args :
    argument pe keys ts a (KComma :: rest) -> arguments pe keys rest args -> arguments pe keys ts (a :: args).
(** At most [n] commas, then nothing or arguments. *)
Definition tail (pe : expr_parser) (keys : list string) (n : nat) (ts : list tok) (args : list (string * string)) : Prop :=
  exists k rest, (k <= n)%nat /\ ts = repeat KComma k ++ rest /\
    (rest = [] /\ args = [] \/ arguments pe keys rest args).
(** The content of [#[bits(..)]]: an optional comma, a count and up to two commas, or
    no count and up to two commas; then the arguments. *)
Definition bits_content (pe : expr_parser) (ts : list tok) (b : rbits) (args : list (string * string)) : Prop :=
  match b with
  | RBits n suffix =>
      exists lead rest, (lead = [] \/ lead = [KComma]) /\ ts = lead ++ KInt n suffix :: rest /\ tail pe bits_keys 2 rest args
  | RNoBits => tail pe bits_keys 2 ts args
  | RMinus => False
  end.
(** The content of [#[bitfield(..)]] and [#[bitflag(..)]]: a type, an optional comma, the arguments. *)
Definition type_content (pe : expr_parser) (pt : type_parser) (keys : list string)
    (ts : list tok) (t : rtype) (args : list (string * string)) : Prop :=
  exists rest, ts <> [] /\ pt ts = Some (t, rest) /\ tail pe keys 1 rest args.

(** ** Proofs *)

Lemma known key keys : existsb (String.eqb key) keys = true <-> In key keys.
Proof.
  rewrite existsb_exists. split.
  - intros (x & Hx & E). apply String.eqb_eq in E. now subst.
  - intro H. exists key. split; [exact H|apply String.eqb_refl].
Qed.

Lemma parse_argument_spec pe keys ts k v rest : takes pe ->
  (parse_argument pe keys ts = POk (k, v, rest) <-> argument pe keys ts (k, v) rest).
Proof.
  intro Hpe. unfold parse_argument, argument. cbn [fst snd]. split.
  - destruct ts as [|[| | |key| |] t]; try discriminate.
    destruct (existsb (String.eqb key) keys) eqn:Ek; cbn [negb]; [|discriminate].
    destruct t as [|[| | | | |] e]; try discriminate. destruct e as [|e0 e]; [discriminate|].
    destruct (pe (e0 :: e)) as [[v' r]|] eqn:E; [|discriminate]. intro H. injection H as <- <- <-.
    exists (e0 :: e). rewrite known in Ek. auto.
  - intros (e & -> & Hk & E). apply known in Hk. rewrite Hk. cbn [negb].
    destruct (Hpe e v rest E) as (used & Hu & Eu).
    destruct e as [|e0 e]; [destruct used; [congruence|discriminate]|]. now rewrite E.
Qed.
Lemma argument_length pe keys ts a rest : takes pe -> argument pe keys ts a rest ->
  (S (S (S (List.length rest))) <= List.length ts)%nat.
Proof.
  intros Hpe (e & -> & _ & E). destruct (Hpe _ _ _ E) as (used & Hu & ->).
  destruct used; [congruence|]. cbn [List.length app]. rewrite app_length. lia.
Qed.

Lemma loop_spec pe keys : takes pe -> forall n ts args, (List.length ts <= n)%nat ->
  (argument_loop n pe keys true ts = POk args <-> ts = [] /\ args = [] \/ arguments pe keys ts args) /\
  (argument_loop n pe keys false ts = POk args <->
     ts = [] /\ args = [] \/ exists rest, ts = KComma :: rest /\ (rest = [] /\ args = [] \/ arguments pe keys rest args)).
Proof.
  intro Hpe. induction n as [|n IH]; intros ts args Hn.
  - destruct ts; [|cbn in Hn; lia]. cbn [argument_loop]. split; (split; [intro H; injection H as <-; auto|]).
    + intros [[_ ->]|H]; [reflexivity|]. exfalso. inversion H as [? ? (e & He & _)|? ? (e & He & _)|? ? ? ? (e & He & _)]; discriminate He.
    + intros [[_ ->]|(r & H & _)]; [reflexivity|discriminate H].
  - assert (Next : forall ts args, (List.length ts <= S n)%nat ->
      ((a <~ parse_argument pe keys ts ;; rest <~ argument_loop n pe keys false (snd a) ;; POk (fst a :: rest)) = POk args <->
       arguments pe keys ts args)).
    { clear ts args Hn. intros ts args Hn. split.
      - destruct (parse_argument pe keys ts) as [[[k v] rest]| |] eqn:E; cbn [pbind fst snd]; try discriminate.
        apply parse_argument_spec in E; [|exact Hpe]. pose proof (argument_length _ _ _ _ _ Hpe E) as Hl.
        destruct (argument_loop n pe keys false rest) as [as'| |] eqn:El; cbn [pbind]; try discriminate.
        intro H. injection H as <-. apply (IH rest as') in El; [|lia].
        destruct El as [[-> ->]|(r & -> & [[-> ->]|H])].
        + now apply arguments_last.
        + now apply arguments_trailing.
        + eapply arguments_more; eassumption.
      - intro H. inversion H as [ts' [k v] Ha|ts' [k v] Ha|ts' [k v] rest as' Ha Hr]; subst;
          pose proof (argument_length _ _ _ _ _ Hpe Ha) as Hl; apply parse_argument_spec in Ha; try exact Hpe; rewrite Ha; cbn [pbind fst snd].
        + destruct n; reflexivity.
        + cbn [List.length] in Hl. destruct n as [|n]; [lia|]. reflexivity.
        + cbn [List.length] in Hl.
          assert (El : argument_loop n pe keys false (KComma :: rest) = POk as') by (apply IH; [cbn [List.length]; lia|right; eauto]).
          now rewrite El. }
    destruct ts as [|t u].
    { cbn [argument_loop]. split; (split; [intro H; injection H as <-; auto|]).
      + intros [[_ ->]|H]; [reflexivity|]. exfalso. inversion H as [? ? (e & He & _)|? ? (e & He & _)|? ? ? ? (e & He & _)]; discriminate He.
      + intros [[_ ->]|(r & H & _)]; [reflexivity|discriminate H]. }
    cbn [argument_loop]. split.
    + rewrite Next by exact Hn. split; [auto|]. intros [[H _]|H]; [discriminate H|exact H].
    + destruct t; try (split; [discriminate|intros [[H _]|(r & H & _)]; discriminate H]).
      destruct u as [|u0 u].
      * split; [intro H; injection H as <-; right; eauto 6|]. intros [[H _]|(r & H & [[-> ->]|Hr])]; [discriminate H|reflexivity|].
        injection H as <-. exfalso. inversion Hr as [? ? (e & He & _)|? ? (e & He & _)|? ? ? ? (e & He & _)]; discriminate He.
      * rewrite Next by (cbn [List.length] in *; lia). split; [intro H; right; eauto|].
        intros [[H _]|(r & H & Hr)]; [discriminate H|]. injection H as <-. destruct Hr as [[H _]|H]; [discriminate H|exact H].
Qed.

Lemma arguments_no_comma pe keys ts args : arguments pe keys ts args -> exists k t, ts = KIdent k :: t.
Proof. intro H. inversion H as [? ? (e & -> & _)|? ? (e & -> & _)|? ? ? ? (e & -> & _)]; eauto. Qed.

Lemma skip_tail pe keys n ts args : tail pe keys (S n) ts args <-> tail pe keys n (skip_comma ts) args.
Proof.
  split.
  - intros (k & rest & Hk & -> & H). destruct k as [|k].
    + exists O, rest. split; [lia|]. split; [|exact H]. cbn [repeat app].
      destruct H as [[-> _]|H]; [reflexivity|]. apply arguments_no_comma in H as (k & t & ->). reflexivity.
    + exists k, rest. split; [lia|]. split; [reflexivity|exact H].
  - intros (k & rest & Hk & E & H). destruct ts as [|[| | | | |] t]; cbn [skip_comma] in E;
      try (exists k, rest; split; [lia|]; split; [exact E|exact H]).
    exists (S k), rest. split; [lia|]. split; [cbn [repeat app]; now f_equal|exact H].
Qed.
(** [parse_attribute_arguments] accepts exactly this language. *)
Theorem C62_arguments pe keys ts args : takes pe ->
  (parse_arguments pe keys ts = POk args <-> tail pe keys 1 ts args).
Proof.
  intro Hpe. rewrite skip_tail. unfold parse_arguments. destruct (loop_spec pe keys Hpe _ (skip_comma ts) args (le_n _)) as [H _].
  rewrite H. split.
  - intro K. exists O, (skip_comma ts). auto.
  - intros (k & rest & Hk & E & K). assert (k = O) by lia. subst k. cbn [repeat app] in E. now subst rest.
Qed.

Lemma arguments_keys pe keys ts args : arguments pe keys ts args -> Forall (fun a => In (fst a) keys) args.
Proof.
  intro H. induction H as [ts a (e & _ & Hk & _)|ts a (e & _ & Hk & _)|ts a rest args (e & _ & Hk & _) H IH]; repeat constructor; assumption.
Qed.
Lemma tail_keys pe keys n ts args : tail pe keys n ts args -> check_keys keys args = POk tt.
Proof.
  intros (k & rest & _ & _ & H). unfold check_keys.
  enough (E : forallb (fun a => existsb (String.eqb (fst a)) keys) args = true) by now rewrite E.
  apply forallb_forall. intros a Ha. apply known. destruct H as [[_ ->]|H]; [destruct Ha|].
  apply arguments_keys in H. rewrite Forall_forall in H. now apply H.
Qed.
Lemma lift_ok {A} (x : pr A) a : lift x = POk a <-> x = POk a.
Proof. destruct x; cbn; split; intro H; try discriminate; congruence. Qed.
Lemma pbind_ok {E A B} (x : pres E A) (k : A -> pres E B) b : pbind x k = POk b <-> exists a, x = POk a /\ k a = POk b.
Proof.
  destruct x; cbn; split; intro H; try discriminate; try (destruct H as (a' & H & _); discriminate).
  - eauto.
  - destruct H as (a' & H & K). injection H as <-. exact K.
Qed.

Definition with_attr (r : rfield) (a : rattr) : rfield :=
  mkRField (r_name r) (r_vis r) a (r_ty r) (r_value r) (r_codec r).

Lemma count_spec ts o rest : parse_count ts = POk (o, rest) <->
  (exists lead n suffix t, (lead = [] \/ lead = [KComma]) /\ ts = lead ++ KInt n suffix :: t /\ rest = skip_comma t /\
     parse_bits (RBits n suffix) = POk o) \/
  (o = None /\ rest = skip_comma ts /\ match rest with KMinus :: _ | KInt _ _ :: _ => False | _ => True end).
Proof.
  unfold parse_count. split.
  - intro H. assert (E : exists lead, (lead = [] \/ lead = [KComma]) /\ ts = lead ++ skip_comma ts).
    { destruct ts as [|[| | | | |] t]; [exists []; auto|exists [KComma]; auto|exists []; auto..]. }
    destruct E as (lead & Hl & E). set (u := skip_comma ts) in *. clearbody u. subst ts.
    destruct u as [|[| | |k|n sx|o'] u]; try discriminate; try (injection H as <- <-; right; auto).
    left. exists lead, n, sx, u. apply pbind_ok in H as (b & Hb & H). injection H as <- <-. apply lift_ok in Hb. auto.
  - intros [(lead & n & sx & t & Hl & -> & -> & Hb)|(-> & -> & H)].
    + assert (E : skip_comma (lead ++ KInt n sx :: t) = KInt n sx :: t) by (destruct Hl as [-> | ->]; reflexivity).
      rewrite E, Hb. reflexivity.
    + destruct (skip_comma ts) as [|[| | |k|n sx|o'] u]; try destruct H; reflexivity.
Qed.

(** [#[bits(..)]] is accepted with a result iff its tokens are of the form
    [bits_content] and the parser of [Parser.v] gives this result for the count and
    the arguments they spell. *)
Theorem C62_bits pe r ts b : takes pe ->
  (parse_bits_attribute pe ts = POk b <->
   exists count args, bits_content pe ts count args /\
     get_bits_attribute (with_attr r (AList count args)) = POk (Some b)).
Proof.
  intro Hpe. unfold parse_bits_attribute, get_bits_attribute. cbn [with_attr r_attr]. split.
  - intro H. apply pbind_ok in H as ((o & rest) & Hc & H). cbn [fst snd] in H. apply pbind_ok in H as (args & Ha & H).
    apply pbind_ok in H as (a & Hf & H). injection H as <-. apply lift_ok in Hf. apply C62_arguments in Ha; [|exact Hpe].
    pose proof (tail_keys _ _ _ _ _ Ha) as Hk.
    apply count_spec in Hc as [(lead & n & sx & t & Hl & -> & -> & Hb)|(-> & -> & Hm)].
    + exists (RBits n sx), args. split.
      * exists lead, t. split; [exact Hl|]. split; [reflexivity|]. now apply skip_tail.
      * rewrite Hb. cbn [pbind]. unfold parse_bits_args. rewrite Hk. cbn [pbind]. rewrite Hf. reflexivity.
    + exists RNoBits, args. split; [now apply skip_tail|].
      cbn [parse_bits pbind]. unfold parse_bits_args. rewrite Hk. cbn [pbind]. rewrite Hf. reflexivity.
  - intros (count & args & Hc & H). apply pbind_ok in H as (o & Hb & H). apply pbind_ok in H as (a & Ha & H).
    injection H as <-. apply pbind_ok. unfold parse_bits_args in Ha. apply pbind_ok in Ha as (u & Hk & Hf).
    destruct count as [| |n sx].
    + cbn [parse_bits] in Hb. injection Hb as <-. exists (None, skip_comma ts). cbn [bits_content] in Hc. apply skip_tail in Hc. split.
      * apply count_spec. right. split; [reflexivity|]. split; [reflexivity|].
        destruct Hc as (k & rest & Hk' & -> & Hr). destruct k; [|exact I]. cbn [repeat app].
        destruct Hr as [[-> _]|Hr]; [exact I|]. apply arguments_no_comma in Hr as (? & ? & ->). exact I.
      * cbn [fst snd]. apply C62_arguments in Hc; [|exact Hpe]. rewrite Hc. cbn [pbind]. rewrite Hf. reflexivity.
    + destruct Hc.
    + destruct Hc as (lead & rest & Hl & -> & Ht). apply skip_tail, C62_arguments in Ht; [|exact Hpe].
      exists (o, skip_comma rest). split; [apply count_spec; left; eauto 10|]. cbn [fst snd]. rewrite Ht. cbn [pbind]. rewrite Hf. reflexivity.
Qed.

(** Of several [#[bits]] attributes of a field the first counts. *)
Theorem C62_first_attribute pe pre ts post b :
  Forall (fun a => fa_name a <> "bits"%string) pre ->
  (field_attribute pe (pre ++ mkFAttr "bits" (Some ts) :: post) = POk (Some b) <-> parse_bits_attribute pe ts = POk b).
Proof.
  intro Hp. unfold field_attribute.
  assert (E : find (fun a => String.eqb (fa_name a) "bits") (pre ++ mkFAttr "bits" (Some ts) :: post) = Some (mkFAttr "bits" (Some ts))).
  { induction Hp as [|a pre Ha Hp IH]; [reflexivity|]. cbn [app find]. apply String.eqb_neq in Ha. now rewrite Ha. }
  rewrite E. cbn [fa_tokens]. split; [intro H; apply pbind_ok in H as (a & Ha & H); injection H as <-; exact Ha|].
  intro H. apply pbind_ok. exists b. auto.
Qed.

(** [#[bitfield(..)]] and [#[bitflag(..)]]. *)
Theorem C62_bitfield pe pt F d ts x : takes pe ->
  (parse_bitfield_tokens pe pt F ts = POk x <->
   exists t args, type_content pe pt bitfield_keys ts t args /\
     parse_bitfield_attribute F (mkRDecl (d_named d) (d_vis d) (d_name d) (Some t) args (d_fields d)) = POk x).
Proof.
  intro Hpe. unfold parse_bitfield_tokens, parse_bitfield_attribute, parse_backing, type_content. cbn [d_type d_args]. split.
  - destruct ts as [|t0 ts0] eqn:Ets; [discriminate|]. rewrite <- Ets.
    destruct (pt ts) as [[t rest]|] eqn:Et; [|discriminate]. intro H. exists t.
    destruct (get_data_type t) as [ty| |] eqn:Ed; try discriminate.
    assert (H' : (if negb (dt_unsigned ty) then PErr (AParse EBackingType)
          else args <~ parse_arguments pe bitfield_keys rest ;;
               a <~ lift (fold_args bitfield_arg (args_default F, false) args) ;; POk (ty, a)) = POk x /\ ty <> DCustom)
      by (destruct ty; [split; [exact H|discriminate]|split; [exact H|discriminate]|discriminate]). clear H. destruct H' as [H Hc].
    destruct (negb (dt_unsigned ty)) eqn:Eu; [discriminate|]. apply pbind_ok in H as (args & Ha & H). apply pbind_ok in H as (a & Hf & H).
    apply lift_ok in Hf. apply C62_arguments in Ha; [|exact Hpe]. exists args.
    split; [exists rest; split; [subst; discriminate|auto]|].
    unfold parse_bitfield_args. rewrite (tail_keys _ _ _ _ _ Ha). cbn [pbind]. rewrite Hf. injection H as <-.
    destruct ty; [reflexivity|reflexivity|congruence].
  - intros (t & args & (rest & Hne & Ept & Ht) & H). destruct ts as [|t0 ts0] eqn:Ets; [congruence|]. rewrite <- Ets in *. rewrite Ept.
    destruct (get_data_type t) as [ty| |] eqn:Ed; try discriminate.
    apply C62_arguments in Ht; [|exact Hpe].
    assert (H' : (if negb (dt_unsigned ty) then PErr EBackingType else a <~ parse_bitfield_args F args ;; POk (ty, a)) = POk x /\ ty <> DCustom)
      by (destruct ty; [split; [exact H|discriminate]|split; [exact H|discriminate]|discriminate]). clear H. destruct H' as [H Hc].
    destruct (negb (dt_unsigned ty)) eqn:Eu; [discriminate|]. apply pbind_ok in H as (a & Ha & H). injection H as <-.
    unfold parse_bitfield_args in Ha. apply pbind_ok in Ha as (u & _ & Hf). rewrite Ht. cbn [pbind]. rewrite Hf.
    destruct ty; [reflexivity|reflexivity|congruence].
Qed.
Theorem C62_bitflag pe pt F e ts x : takes pe ->
  (parse_bitflag_tokens pe pt F ts = POk x <->
   exists t args, type_content pe pt flag_keys ts t args /\
     parse_flag_attribute F (mkREnum (e_vis e) (e_name e) (Some t) args (e_variants e)) = POk x).
Proof.
  intro Hpe. unfold parse_bitflag_tokens, parse_flag_attribute, parse_backing, type_content. cbn [e_type e_args]. split.
  - destruct ts as [|t0 ts0] eqn:Ets; [discriminate|]. rewrite <- Ets.
    destruct (pt ts) as [[t rest]|] eqn:Et; [|discriminate]. intro H. exists t.
    destruct (get_data_type t) as [ty| |] eqn:Ed; try discriminate.
    assert (H' : (if negb (dt_unsigned ty) then PErr (AParse EBackingType)
          else args <~ parse_arguments pe flag_keys rest ;;
               a <~ lift (fold_args flag_arg (flagargs_default F) args) ;; POk (ty, a)) = POk x /\ ty <> DCustom)
      by (destruct ty; [split; [exact H|discriminate]|split; [exact H|discriminate]|discriminate]). clear H. destruct H' as [H Hc].
    destruct (negb (dt_unsigned ty)) eqn:Eu; [discriminate|]. apply pbind_ok in H as (args & Ha & H). apply pbind_ok in H as (a & Hf & H).
    apply lift_ok in Hf. apply C62_arguments in Ha; [|exact Hpe]. exists args.
    split; [exists rest; split; [subst; discriminate|auto]|].
    unfold parse_flag_args. rewrite (tail_keys _ _ _ _ _ Ha). cbn [pbind]. rewrite Hf. injection H as <-.
    destruct ty; [reflexivity|reflexivity|congruence].
  - intros (t & args & (rest & Hne & Ept & Ht) & H). destruct ts as [|t0 ts0] eqn:Ets; [congruence|]. rewrite <- Ets in *. rewrite Ept.
    destruct (get_data_type t) as [ty| |] eqn:Ed; try discriminate.
    apply C62_arguments in Ht; [|exact Hpe].
    assert (H' : (if negb (dt_unsigned ty) then PErr FType
                  else match parse_flag_args F args with POk a => POk (ty, a) | PErr x => PErr (FArgument x) | PPanic => PPanic end) = POk x
                 /\ ty <> DCustom)
      by (destruct ty; [split; [exact H|discriminate]|split; [exact H|discriminate]|discriminate]). clear H. destruct H' as [H Hc].
    destruct (negb (dt_unsigned ty)) eqn:Eu; [discriminate|]. destruct (parse_flag_args F args) as [a| |] eqn:Ha; try discriminate. injection H as <-.
    unfold parse_flag_args in Ha. apply pbind_ok in Ha as (u & _ & Hf). rewrite Ht. cbn [pbind]. rewrite Hf.
    destruct ty; [reflexivity|reflexivity|congruence].
Qed.

(** ** Errors *)

(** The first mistake in a non-empty list of arguments. *)
Inductive mistake (pe : expr_parser) (keys : list string) : list tok -> aerr -> Prop :=
| mistake_ident ts : ts <> [] -> (forall k t, ts <> KIdent k :: t) -> mistake pe keys ts AIdent
| mistake_key k t : ~ In k keys -> mistake pe keys (KIdent k :: t) AUnknown
| mistake_eq k t : In k keys -> (forall e, t <> KEq :: e) -> mistake pe keys (KIdent k :: t) AEq
| mistake_no_value k : In k keys -> mistake pe keys [KIdent k; KEq] ANoValue
| mistake_value k e : In k keys -> e <> [] -> pe e = None -> mistake pe keys (KIdent k :: KEq :: e) ABadValue
| mistake_comma ts a t rest : argument pe keys ts a (t :: rest) -> t <> KComma -> mistake pe keys ts AComma
| mistake_later ts a rest x : argument pe keys ts a (KComma :: rest) -> mistake pe keys rest x -> mistake pe keys ts x.

Lemma mistake_ne pe keys ts x : mistake pe keys ts x -> ts <> [].
Proof.
  intro H. inversion H as [| | | | |? ? ? ? (e & -> & _)|? ? ? ? (e & -> & _)]; subst; try discriminate; assumption.
Qed.
Lemma argument_err pe keys ts x : takes pe -> ts <> [] -> parse_argument pe keys ts = PErr x -> mistake pe keys ts x.
Proof.
  intros Hpe Hne. unfold parse_argument. destruct ts as [|t0 t]; [congruence|].
  destruct t0 as [| | |key|n sx|o]; try (intro H; injection H as <-; apply mistake_ident; [discriminate|discriminate]).
  destruct (existsb (String.eqb key) keys) eqn:Ek; cbn [negb].
  2:{ intro H; injection H as <-. apply mistake_key. rewrite <- known. congruence. }
  apply known in Ek.
  destruct t as [|[| | |k'|n sx|o] e]; try (intro H; injection H as <-; apply mistake_eq; [exact Ek|discriminate]).
  destruct e as [|e0 e]; [intro H; injection H as <-; now apply mistake_no_value|].
  destruct (pe (e0 :: e)) as [[v r]|] eqn:E; [discriminate|]. intro H; injection H as <-. apply mistake_value; [exact Ek|discriminate|exact E].
Qed.
Lemma loop_total pe keys : takes pe -> forall n ts, (List.length ts <= n)%nat -> ts <> [] ->
  (exists args, argument_loop n pe keys true ts = POk args) \/
  (exists x, argument_loop n pe keys true ts = PErr x /\ mistake pe keys ts x).
Proof.
  intro Hpe. induction n as [|n IH]; intros ts Hn Hne; [destruct ts; [congruence|cbn in Hn; lia]|].
  destruct ts as [|t u] eqn:Ets; [congruence|]. rewrite <- Ets in *. assert (E0 : argument_loop (S n) pe keys true ts =
    (a <~ parse_argument pe keys ts ;; rest <~ argument_loop n pe keys false (snd a) ;; POk (fst a :: rest))) by (subst ts; reflexivity).
  rewrite E0. destruct (parse_argument pe keys ts) as [[[k v] rest]|x|] eqn:Ea; cbn [pbind fst snd].
  - apply parse_argument_spec in Ea; [|exact Hpe]. pose proof (argument_length _ _ _ _ _ Hpe Ea) as Hl.
    destruct rest as [|r0 rest].
    { left. destruct n; eexists; reflexivity. }
    cbn [List.length] in Hl. destruct n as [|n']; [lia|].
    assert (Hc : r0 = KComma \/ r0 <> KComma) by (destruct r0; auto; right; discriminate).
    destruct Hc as [->|Hc].
    + destruct rest as [|r1 rest]; [left; eexists; reflexivity|].
      assert (E1 : argument_loop (S n') pe keys false (KComma :: r1 :: rest) =
        (a <~ parse_argument pe keys (r1 :: rest) ;; r <~ argument_loop n' pe keys false (snd a) ;; POk (fst a :: r))) by reflexivity.
      assert (E2 : argument_loop (S n') pe keys true (r1 :: rest) =
        (a <~ parse_argument pe keys (r1 :: rest) ;; r <~ argument_loop n' pe keys false (snd a) ;; POk (fst a :: r))) by reflexivity.
      destruct (IH (r1 :: rest)) as [[args H]|(x & H & Hm)]; [cbn [List.length] in *; lia|discriminate| |].
      * left. rewrite E1, <- E2, H. eexists; reflexivity.
      * right. exists x. rewrite E1, <- E2, H. split; [reflexivity|]. eapply mistake_later; eassumption.
    + right. exists AComma. split; [destruct r0; try congruence; reflexivity|]. eapply mistake_comma; eassumption.
  - right. exists x. split; [reflexivity|]. apply argument_err; assumption.
  - exfalso. unfold parse_argument in Ea. rewrite Ets in Ea.
    destruct t; try discriminate. destruct (negb _); [discriminate|]. destruct u as [|[] [|e0 e]]; try discriminate.
    destruct (pe (e0 :: e)) as [[]|]; discriminate.
Qed.

Lemma loop_mistake pe keys ts x : takes pe -> mistake pe keys ts x ->
  forall n, (List.length ts <= n)%nat -> argument_loop n pe keys true ts = PErr x.
Proof.
  intros Hpe H.
  assert (G : forall ts, ts <> [] -> forall n, (List.length ts <= n)%nat -> exists n', n = S n' /\ argument_loop n pe keys true ts =
    (a <~ parse_argument pe keys ts ;; rest <~ argument_loop n' pe keys false (snd a) ;; POk (fst a :: rest))).
  { intros l Hl n Hn. destruct l as [|t u]; [congruence|]. destruct n as [|n]; [cbn in Hn; lia|]. exists n. split; reflexivity. }
  induction H as [ts Hne Hi|k t Hk|k t Hk He|k Hk|k e Hk Hne He|ts a t rest Ha Ht|ts a rest x Ha Hm IH]; intros n Hn.
  - destruct (G ts Hne n Hn) as (n' & _ & ->). unfold parse_argument. destruct ts as [|[] ts]; try congruence; reflexivity.
  - destruct (G (KIdent k :: t) ltac:(discriminate) n Hn) as (n' & _ & ->). unfold parse_argument.
    destruct (existsb (String.eqb k) keys) eqn:Ek; [apply known in Ek; contradiction|reflexivity].
  - destruct (G (KIdent k :: t) ltac:(discriminate) n Hn) as (n' & _ & ->). unfold parse_argument. apply known in Hk. rewrite Hk.
    destruct t as [|[] t]; try reflexivity. exfalso. eapply He. reflexivity.
  - destruct (G [KIdent k; KEq] ltac:(discriminate) n Hn) as (n' & _ & ->). unfold parse_argument. apply known in Hk. now rewrite Hk.
  - destruct (G (KIdent k :: KEq :: e) ltac:(discriminate) n Hn) as (n' & _ & ->). unfold parse_argument. apply known in Hk. rewrite Hk.
    destruct e as [|e0 e]; [congruence|]. cbn [negb]. now rewrite He.
  - destruct a as [k v]. pose proof (argument_length _ _ _ _ _ Hpe Ha) as Hl. apply parse_argument_spec in Ha; [|exact Hpe].
    destruct (G ts ltac:(intros ->; discriminate Ha) n Hn) as (n' & -> & ->). rewrite Ha. cbn [pbind fst snd].
    destruct n' as [|n']; [lia|]. destruct t; try congruence; reflexivity.
  - destruct a as [k v]. pose proof (argument_length _ _ _ _ _ Hpe Ha) as Hl. apply parse_argument_spec in Ha; [|exact Hpe].
    destruct (G ts ltac:(intros ->; discriminate Ha) n Hn) as (n' & -> & ->). rewrite Ha. cbn [pbind fst snd].
    cbn [List.length] in Hl. destruct n' as [|n']; [lia|]. pose proof (mistake_ne _ _ _ _ Hm) as Hne.
    destruct rest as [|r0 rest]; [congruence|]. specialize (IH (S n') ltac:(lia)).
    assert (E1 : argument_loop (S n') pe keys false (KComma :: r0 :: rest) = argument_loop (S n') pe keys true (r0 :: rest)) by reflexivity.
    rewrite E1, IH. reflexivity.
Qed.

(** The arguments are never the reason of a panic, and the error reported is the
    first mistake. *)
Theorem C62_errors pe keys ts : takes pe ->
  parse_arguments pe keys ts <> PPanic /\
  forall x, parse_arguments pe keys ts = PErr x <-> mistake pe keys (skip_comma ts) x.
Proof.
  intro Hpe. unfold parse_arguments. destruct (skip_comma ts) as [|t u] eqn:E.
  - cbn. split; [discriminate|]. intro x. split; [discriminate|]. intro H. now apply mistake_ne in H.
  - rewrite <- E in *. destruct (loop_total pe keys Hpe _ (skip_comma ts) (le_n _) ltac:(congruence)) as [[args H]|(y & H & Hm)]; rewrite H.
    + split; [discriminate|]. intro x. split; [discriminate|]. intro K. apply (loop_mistake _ _ _ _ Hpe) with (n := List.length (skip_comma ts)) in K; [congruence|lia].
    + split; [discriminate|]. intro x. split; [intro K; injection K as <-; exact Hm|].
      intro K. apply (loop_mistake _ _ _ _ Hpe) with (n := List.length (skip_comma ts)) in K; [congruence|lia].
Qed.

(** ** Whole declarations *)

(** [r] is what the attributes of a field say. *)
Definition attribute_says (pe : expr_parser) (attrs : list fattr) (r : rattr) : Prop :=
  Forall (fun a => fa_name a <> "bits"%string) attrs /\ r = ANone \/
  exists pre ts post count args,
    attrs = pre ++ mkFAttr "bits" (Some ts) :: post /\ Forall (fun a => fa_name a <> "bits"%string) pre /\
    bits_content pe ts count args /\ r = AList count args.
(** [d] is the declaration [t] with its attributes read by the grammar. *)
Definition spells (pe : expr_parser) (pt : type_parser) (t : tdecl) (d : rdecl) : Prop :=
  d_named d = td_named t /\ d_vis d = td_vis t /\ d_name d = td_name t /\
  (exists ty, d_type d = Some ty /\ type_content pe pt bitfield_keys (td_tokens t) ty (d_args d)) /\
  Forall2 (fun f r => exists a, r = split_field f a /\ attribute_says pe (tf_attrs f) a) (td_fields t) (d_fields d).

Lemma find_bits attrs :
  Forall (fun a => fa_name a <> "bits"%string) attrs \/
  exists pre o post, attrs = pre ++ mkFAttr "bits" o :: post /\ Forall (fun a => fa_name a <> "bits"%string) pre.
Proof.
  induction attrs as [|[x o] attrs [IH|(pre & o' & post & -> & IH)]]; [left; constructor| |];
    destruct (string_dec x "bits") as [->|Hx].
  - right. exists [], o, attrs. split; [reflexivity|constructor].
  - left. constructor; [exact Hx|exact IH].
  - right. exists [], o, (pre ++ mkFAttr "bits" o' :: post). split; [reflexivity|constructor].
  - right. exists (mkFAttr x o :: pre), o', post. split; [reflexivity|]. constructor; [exact Hx|exact IH].
Qed.
Lemma find_none attrs : Forall (fun a => fa_name a <> "bits"%string) attrs ->
  find (fun a => String.eqb (fa_name a) "bits") attrs = None.
Proof. induction 1 as [|a l Ha _ IH]; [reflexivity|]. cbn [find]. apply String.eqb_neq in Ha. now rewrite Ha. Qed.
Lemma find_some pre o post : Forall (fun a => fa_name a <> "bits"%string) pre ->
  find (fun a => String.eqb (fa_name a) "bits") (pre ++ mkFAttr "bits" o :: post) = Some (mkFAttr "bits" o).
Proof. induction 1 as [|a l Ha _ IH]; [reflexivity|]. cbn [app find]. apply String.eqb_neq in Ha. now rewrite Ha. Qed.

Lemma field_attribute_spec pe t oa : takes pe ->
  (field_attribute pe (tf_attrs t) = POk oa <->
   exists a, attribute_says pe (tf_attrs t) a /\ get_bits_attribute (split_field t a) = POk oa).
Proof.
  intro Hpe. split.
  - unfold field_attribute. destruct (find_bits (tf_attrs t)) as [Hn|(pre & o & post & E & Hp)].
    + rewrite (find_none _ Hn). intro H. injection H as <-. exists ANone. split; [left; auto|reflexivity].
    + rewrite E, (find_some _ _ _ Hp). cbn [fa_tokens]. destruct o as [ts|]; [|discriminate].
      intro H. apply pbind_ok in H as (b & Hb & H). injection H as <-.
      apply (C62_bits pe (split_field t ANone)) in Hb as (count & args & Hc & Hg); [|exact Hpe].
      exists (AList count args). split; [right; exists pre, ts, post, count, args; auto|exact Hg].
  - intros (a & [[Hn ->]|(pre & ts & post & count & args & E & Hp & Hc & ->)] & Hg); unfold field_attribute.
    + rewrite (find_none _ Hn). cbn in Hg. now injection Hg as <-.
    + rewrite E, (find_some _ _ _ Hp). cbn [fa_tokens]. assert (exists b, oa = Some b) as (b & ->).
      { unfold get_bits_attribute in Hg. cbn [split_field r_attr] in Hg. apply pbind_ok in Hg as (n & _ & Hg).
        apply pbind_ok in Hg as (x & _ & Hg). injection Hg as <-. eauto. }
      apply pbind_ok. exists b. split; [|reflexivity]. apply (C62_bits pe (split_field t ANone)); [exact Hpe|eauto].
Qed.
Lemma field_with_attr m o ty bv t a b prev oa :
  field_with m o ty bv (split_field t a) prev oa = field_with m o ty bv (split_field t b) prev oa.
Proof. reflexivity. Qed.

Lemma loop_tokens pe m o ty bv : takes pe -> forall ts acc ign seen x,
  token_fields_loop pe m o ty bv ts acc ign seen = POk x <->
  exists rs, Forall2 (fun f r => exists a, r = split_field f a /\ attribute_says pe (tf_attrs f) a) ts rs /\
    parse_fields_loop m o ty bv rs acc ign seen = POk x.
Proof.
  intro Hpe. induction ts as [|t ts IH]; intros acc ign seen x.
  - cbn [token_fields_loop]. split.
    + intro H. exists []. split; [constructor|]. now injection H as <-.
    + intros (rs & H & K). inversion H; subst. now injection K as <-.
  - cbn [token_fields_loop]. split.
    + destruct (existsb (String.eqb (tf_name t)) seen) eqn:Es; [discriminate|]. intro H.
      apply pbind_ok in H as (oa & Ha & H). apply pbind_ok in H as (f & Hf & H). apply lift_ok in Hf.
      apply (field_attribute_spec _ _ _ Hpe) in Ha as (a & Hs & Hg).
      assert (Hp : parse_field m o ty bv (split_field t a) acc = POk f) by (unfold parse_field; rewrite Hg; exact Hf).
      cbv zeta in H. destruct (f_ignored f) eqn:Ei; apply IH in H as (rs & Hrs & H);
        (exists (split_field t a :: rs); split; [constructor; [eauto|exact Hrs]|]);
        cbn [parse_fields_loop]; change (r_name (split_field t a)) with (tf_name t); rewrite Es, Hp; cbn [pbind]; rewrite Ei; exact H.
    + intros (rs' & HF & H). inversion HF as [|? r ? rs (a & -> & Hs) Hrs]; subst. cbn [parse_fields_loop] in H.
      change (r_name (split_field t a)) with (tf_name t) in H.
      destruct (existsb (String.eqb (tf_name t)) seen) eqn:Es; [discriminate|]. apply pbind_ok in H as (f & Hf & H).
      unfold parse_field in Hf. apply pbind_ok in Hf as (oa & Hg & Hf).
      apply pbind_ok. exists oa. split; [apply (field_attribute_spec _ _ _ Hpe); eauto|].
      apply pbind_ok. exists f. split; [apply lift_ok; exact Hf|]. cbv zeta in *.
      destruct (f_ignored f); apply IH; eauto.
Qed.

(** A declaration written as tokens is accepted exactly if it spells a declaration
    that the parser of [Parser.v] accepts, and with the same result: what is proved
    of accepted declarations holds of accepted texts. *)
Theorem C62_declaration pe pt m F t b : takes pe ->
  (parse_declaration pe pt m F t = POk b <-> exists d, spells pe pt t d /\ parse_bitfield m F d = POk b).
Proof.
  intro Hpe. unfold parse_declaration. split.
  - intro H. apply pbind_ok in H as ((ty & args & fp) & Ht & H).
    destruct (td_named t) eqn:En; cbn [negb] in H; [|discriminate].
    apply pbind_ok in H as (fs & Hf & H). apply (loop_tokens pe _ _ _ _ Hpe) in Hf as (rs & Hrs & Hf).
    apply (C62_bitfield pe pt F (mkRDecl true (td_vis t) (td_name t) None [] rs)) in Ht as (rt & as' & Hc & Hb); [|exact Hpe].
    cbn [d_named d_vis d_name d_fields] in Hb.
    exists (mkRDecl true (td_vis t) (td_name t) (Some rt) as' rs). split.
    + unfold spells. cbn [d_named d_vis d_name d_type d_args d_fields]. repeat split; eauto.
    + unfold parse_bitfield. rewrite Hb. cbn [pbind d_named negb d_vis d_fields d_name]. rewrite Hf. cbn [pbind].
      apply pbind_ok in H as (u & Hu & H). apply lift_ok in Hu. rewrite Hu. cbn [pbind]. destruct fp; [discriminate|]. now injection H as <-.
  - intros (d & (En & Ev & Em & (rt & Ety & Hc) & HF) & H). unfold parse_bitfield in H.
    apply pbind_ok in H as ((ty & args & fp) & Hb & H).
    apply pbind_ok. exists (ty, (args, fp)). split.
    + apply (C62_bitfield pe pt F d); [exact Hpe|]. exists rt, (d_args d). split; [exact Hc|].
      destruct d; cbn in *; subst; exact Hb.
    + rewrite En in H. destruct (td_named t); cbn [negb] in *; [|discriminate].
      apply pbind_ok in H as (fs & Hf & H). rewrite Ev in *. rewrite Em in H. apply pbind_ok. exists fs. split; [apply (loop_tokens pe _ _ _ _ Hpe); eauto|].
      apply pbind_ok in H as (u & Hu & H). apply pbind_ok. exists u. split; [apply lift_ok; exact Hu|].
      destruct fp; [discriminate|]. now injection H as <-.
Qed.

(** ** Examples *)

(** An expression parser for literals and names. *)
Definition simple_pe : expr_parser := fun ts =>
  match ts with
  | KInt n _ :: rest => Some (if N.eqb n 5 then "5"%string else "1"%string, rest)
  | KMinus :: KInt n _ :: rest => Some ("- 1"%string, rest)
  | KIdent k :: rest => Some (k, rest)
  | _ => None
  end.
Lemma simple_takes : takes simple_pe.
Proof.
  intros ts v rest H. unfold simple_pe in H. destruct ts as [|[| | |k|n sx|o] ts]; try discriminate.
  - destruct ts as [|[| | |k|n sx|o] ts]; try discriminate. injection H as <- <-. exists [KMinus; KInt n sx]. split; [discriminate|reflexivity].
  - injection H as <- <-. exists [KIdent k]. split; [discriminate|reflexivity].
  - injection H as <- <-. exists [KInt n sx]. split; [discriminate|reflexivity].
Qed.
Definition simple_pt : type_parser := fun ts => match ts with KIdent k :: rest => Some (RPath k, rest) | _ => None end.

(** [4, default = 5, access = ro,] *)
Definition usual : list tok :=
  [KInt 4 ""; KComma; KIdent "default"; KEq; KInt 5 ""; KComma; KIdent "access"; KEq; KIdent "ro"; KComma]%string.
Example C62_ex :
  parse_bits_attribute simple_pe usual = POk (mkBAttr (Some 4) (mkBArgs ReadOnly true false (Some (CLit 5 false)))) /\
  bits_content simple_pe usual (RBits 4 "") [("default", "5"); ("access", "ro")]%string /\
  parse_bits_attribute simple_pe [KInt 4 ""; KComma; KIdent "default"; KInt 5 ""]%string = PErr AEq /\
  parse_bits_attribute simple_pe [KInt 4 ""; KComma; KIdent "default"; KEq]%string = PErr ANoValue /\
  parse_bits_attribute simple_pe [KInt 4 ""; KComma; KIdent "defualt"; KEq; KInt 5 ""]%string = PErr AUnknown /\
  parse_bits_attribute simple_pe [KIdent "default"; KEq; KInt 5 ""; KIdent "access"; KEq; KIdent "ro"]%string = PErr AComma.
Proof.
  split; [reflexivity|]. split; [|repeat split; reflexivity].
  exists []. eexists. split; [auto|]. split; [reflexivity|]. exists 1%nat. eexists. split; [lia|]. split; [reflexivity|]. right.
  eapply arguments_more; [eexists; split; [reflexivity|]; split; [cbn; auto|reflexivity]|].
  apply arguments_trailing. eexists. split; [reflexivity|]. split; [cbn; auto|reflexivity].
Qed.

(** The documented separators are not required: the comma after the count or the
    backing type may be missing, doubled, or come first. *)
Theorem C62_separators_refuted :
  parse_bits_attribute simple_pe [KInt 4 ""; KIdent "default"; KEq; KInt 5 ""]%string =
    parse_bits_attribute simple_pe [KInt 4 ""; KComma; KIdent "default"; KEq; KInt 5 ""]%string /\
  parse_bits_attribute simple_pe [KInt 4 ""; KComma; KComma; KIdent "default"; KEq; KInt 5 ""]%string =
    parse_bits_attribute simple_pe [KInt 4 ""; KComma; KIdent "default"; KEq; KInt 5 ""]%string /\
  parse_bits_attribute simple_pe [KComma; KInt 4 ""]%string = POk (mkBAttr (Some 4) bargs_default) /\
  exists x, parse_bitfield_tokens simple_pe simple_pt (fun _ => false) [KIdent "u32"; KIdent "order"; KEq; KIdent "msb"]%string = POk x.
Proof. repeat split; try reflexivity. eexists. reflexivity. Qed.
(** Of two [#[bits]] attributes the second is dropped without an error. *)
Theorem C62_second_refuted :
  field_attribute simple_pe [mkFAttr "bits" (Some [KInt 4 ""]); mkFAttr "bits" (Some [KInt 7 ""])]%string =
  POk (Some (mkBAttr (Some 4) bargs_default)).
Proof. reflexivity. Qed.

(** [#[bitfield(u8, order = msb)] struct X { #[doc] #[bits(4, default = 5, access = ro,)] a: u8, #[bits(4)] b: i8 }] *)
Definition usual_decl : tdecl :=
  mkTDecl true VisPublic "X" [KIdent "u8"; KComma; KIdent "order"; KEq; KIdent "msb"]
    [mkTField [mkFAttr "doc" None; mkFAttr "bits" (Some usual)] "a" VisPublic (RPath "u8") (PInt 5) no_codec;
     mkTField [mkFAttr "bits" (Some [KInt 4 ""])] "b" VisPublic (RPath "i8") (PInt 0) no_codec]%string.
Example C62_declaration_ex m :
  (exists b, parse_declaration simple_pe simple_pt m (fun _ => false) usual_decl = POk b /\
     map (fun f => (f_name f, f_bits f, f_off f, f_access f)) (b_fields b) =
       [("a", 4, 4, ReadOnly); ("b", 4, 0, ReadWrite)]%string) /\
  exists d b, spells simple_pe simple_pt usual_decl d /\ parse_bitfield m (fun _ => false) d = POk b.
Proof.
  assert (H : exists b, parse_declaration simple_pe simple_pt m (fun _ => false) usual_decl = POk b /\
     map (fun f => (f_name f, f_bits f, f_off f, f_access f)) (b_fields b) =
       [("a", 4, 4, ReadOnly); ("b", 4, 0, ReadWrite)]%string)
    by (destruct m; eexists; (split; [vm_compute; reflexivity|reflexivity])).
  split; [exact H|]. destruct H as (b & H & _). apply (C62_declaration _ _ _ _ _ _ simple_takes) in H as (d & Hs & Hd). eauto.
Qed.

(** The cases of bitfields/tests/compile_error_cases/errors about attribute syntax that
    RepoTests.v leaves out: bitfield_arg_without_value, bitfield_invalid_arg,
    bitfield_invalid_field_default_path_value (1, 3), bitfield_type_unexpected_end_of_input,
    bitfield_invalid_type, bitflag_arg_without_value, bitflag_empty_type.  In the second
    field case the value is the literal [3create]. *)
Example C62_repo_cases F :
  parse_bitfield_tokens simple_pe simple_pt F [KIdent "u32"; KComma; KIdent "order"]%string = PErr AEq /\
  parse_bitfield_tokens simple_pe simple_pt F
    [KIdent "u32"; KComma; KOther "+"; KEq; KEq; KInt 32 ""; KEq; KIdent "hello"]%string = PErr AIdent /\
  parse_bits_attribute (fun _ => None)
    [KIdent "default"; KEq; KIdent "create"; KOther "::"; KIdent "hello"; KOther "::"; KOther "+"; KEq; KInt 322 ""]%string = PErr ABadValue /\
  parse_bits_attribute simple_pe
    [KIdent "default"; KEq; KInt 3 "create"; KOther "::"; KIdent "hello"; KOther "::"; KOther "::"]%string = PErr AComma /\
  parse_bitfield_tokens simple_pe simple_pt F [] = PErr (AParse EBackingType) /\
  parse_bitfield_tokens simple_pe simple_pt F [KOther "+"; KMinus; KMinus]%string = PErr (AParse EBackingType) /\
  parse_bitflag_tokens simple_pe simple_pt F [KIdent "u8"; KComma; KIdent "from_endian"]%string = PErr AEq /\
  parse_bitflag_tokens simple_pe simple_pt F [] = PErr (AParse EBackingType).
Proof. repeat split. Qed.
