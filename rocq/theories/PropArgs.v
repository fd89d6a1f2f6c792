(** Arguments of [#[bitfield(..)]] (C36, C50). *)
From Coq Require Import ZArith List Bool String Ascii Lia.
From Verif Require Import RustInt Syntax ConstExpr Words Parser Spec SpecDecl ParserLemmas PropLit.
Import ListNotations.
Open Scope Z_scope.

(** ** Words *)
Lemma space_lower c : is_space (lower c) = is_space c.
Proof. destruct c as [[][][][][][][][]]; reflexivity. Qed.
Lemma drop_spaces_app pre s : Forall (fun c => is_space c = true) pre -> drop_spaces (pre ++ s) = drop_spaces s.
Proof. induction 1 as [|c p Hc _ IH]; [reflexivity|]. cbn. now rewrite Hc. Qed.
Lemma drop_spaces_split s : exists pre, s = pre ++ drop_spaces s /\ Forall (fun c => is_space c = true) pre.
Proof.
  induction s as [|c s IH]; [exists []; auto|]. cbn. destruct (is_space c) eqn:E.
  - destruct IH as (pre & H & Hp). exists (c :: pre). cbn. rewrite <- H. auto.
  - exists []. auto.
Qed.
Lemma trim_split s : exists pre post, s = pre ++ trim s ++ post /\ Forall (fun c => is_space c = true) (pre ++ post).
Proof.
  destruct (drop_spaces_split s) as (pre & H1 & H2).
  destruct (drop_spaces_split (rev (drop_spaces s))) as (post & H3 & H4).
  exists pre, (rev post). unfold trim. split.
  - rewrite H1 at 1. f_equal. rewrite <- rev_app_distr, <- H3. now rewrite rev_involutive.
  - apply Forall_app. split; [exact H2|]. now apply Forall_rev.
Qed.
Definition solid (s : str) : Prop :=
  match s with c :: _ => is_space c = false | [] => False end /\
  match rev s with c :: _ => is_space c = false | [] => False end.
Lemma trim_solid pre s post : solid s -> Forall (fun c => is_space c = true) (pre ++ post) ->
  trim (pre ++ s ++ post) = s.
Proof.
  intros [H1 H2] H. apply Forall_app in H as [Hp Hq]. unfold trim. rewrite drop_spaces_app by exact Hp.
  assert (E : drop_spaces (s ++ post) = s ++ post).
  { destruct s as [|c s]; [destruct H1|]. cbn. now rewrite H1. }
  rewrite E, rev_app_distr, drop_spaces_app by now apply Forall_rev.
  assert (E' : drop_spaces (rev s) = rev s).
  { destruct (rev s) as [|c t]; [destruct H2|]. cbn. now rewrite H2. }
  rewrite E'. apply rev_involutive.
Qed.

Lemma map_app_inv {A B} (f : A -> B) l : forall a b, map f l = a ++ b ->
  exists l1 l2, l = l1 ++ l2 /\ map f l1 = a /\ map f l2 = b.
Proof.
  induction l as [|x l IH]; intros a b H.
  - destruct a; [|discriminate]. destruct b; [|discriminate]. exists [], []. auto.
  - destruct a as [|y a]; cbn in H.
    + exists [], (x :: l). auto.
    + injection H as Hx H. apply IH in H as (l1 & l2 & -> & <- & <-). exists (x :: l1), l2. subst. auto.
Qed.
Lemma spaces_lower s : Forall (fun c => is_space c = true) (map lower s) <-> Forall (fun c => is_space c = true) s.
Proof.
  rewrite Forall_map. split; apply Forall_impl; intros c; now rewrite space_lower.
Qed.
Lemma solid_lower s : solid (map lower s) -> solid s.
Proof.
  unfold solid. rewrite <- map_rev. intros [H1 H2]. split.
  - destruct s; [exact H1|]. cbn in H1. now rewrite space_lower in H1.
  - destruct (rev s); [exact H2|]. cbn in H2. now rewrite space_lower in H2.
Qed.

Lemma blank_space c : In c blanks <-> is_space c = true.
Proof.
  split; [intro H; cbn in H; repeat (destruct H as [<-|H]; [reflexivity|]); destruct H|].
  destruct c as [[][][][][][][][]]; vm_compute; intro H; try discriminate H; tauto.
Qed.
Lemma blanks_spaces s : Forall (fun c => In c blanks) s <-> Forall (fun c => is_space c = true) s.
Proof. split; apply Forall_impl; intros c; apply blank_space. Qed.
Lemma endian_text_lower s e : endian_text s e <->
  exists pre post, Forall (fun c => is_space c = true) (pre ++ post) /\
    map lower (list_ascii_of_string s) =
    pre ++ list_ascii_of_string (match e with Little => "little" | Big => "big" end) ++ post.
Proof.
  unfold endian_text. rewrite map_small.
  split; intros (pre & post & H & E); exists pre, post; (split; [now apply blanks_spaces|exact E]).
Qed.

Lemma endian_iff s e : endian_from_str s = POk e <-> endian_text s e.
Proof.
  rewrite endian_text_lower. unfold endian_from_str, lowercase, chars. cbv zeta. set (cs := list_ascii_of_string s). split.
  - intro H. destruct (trim_split cs) as (pre & post & Hs & Hsp).
    assert (Hw : map lower (trim cs) = list_ascii_of_string (match e with Little => "little" | Big => "big" end)).
    { destruct (str_eqb (map lower (trim cs)) (list_ascii_of_string "little")) eqn:E1.
      - injection H as <-. now apply str_eqb_true.
      - destruct (str_eqb (map lower (trim cs)) (list_ascii_of_string "big")) eqn:E2; [|discriminate].
        injection H as <-. now apply str_eqb_true. }
    exists (map lower pre), (map lower post). split.
    + rewrite <- map_app. now apply spaces_lower.
    + rewrite Hs at 1. rewrite !map_app, Hw. reflexivity.
  - intros (pre & post & Hsp & H). apply map_app_inv in H as (p & q & E & <- & H).
    apply map_app_inv in H as (w & p2 & E2 & Hw & <-). rewrite <- map_app, spaces_lower in Hsp.
    rewrite E, E2. rewrite trim_solid; [rewrite Hw; destruct e; reflexivity| |exact Hsp].
    apply solid_lower. rewrite Hw. destruct e; split; reflexivity.
Qed.
Lemma order_iff s o : order_from_str s = POk o <-> order_text s o.
Proof.
  unfold order_from_str, order_text, lowercase, chars. rewrite map_small. cbv zeta. set (cs := map lower (list_ascii_of_string s)).
  split.
  - destruct (str_eqb cs (list_ascii_of_string "lsb")) eqn:E1.
    { injection 1 as <-. now apply str_eqb_true. }
    destruct (str_eqb cs (list_ascii_of_string "msb")) eqn:E2; [|discriminate].
    injection 1 as <-. now apply str_eqb_true.
  - intros ->. destruct o; reflexivity.
Qed.
Lemma bool_iff s b : parse_bool_arg s = POk b <-> s = (if b then "true" else "false")%string.
Proof.
  unfold parse_bool_arg. split.
  - destruct (String.eqb_spec s "true"); [injection 1 as <-; assumption|].
    destruct (String.eqb_spec s "false"); [injection 1 as <-; assumption|discriminate].
  - destruct b; intros ->; reflexivity.
Qed.

(** ** One argument *)
Definition bool_projs : list (string * (bfargs * bool -> bool)) :=
  (map (fun x => (fst (fst x), fun a : bfargs * bool => snd x (fst a))) switches ++
   [("array_heap", fun a => a_array_heap (fst a)); ("force_panic", snd)])%list%string.

Definition step (k v : string) (a a' : bfargs * bool) : Prop :=
  (if String.eqb k "order" then order_text v (a_order (fst a')) else a_order (fst a') = a_order (fst a)) /\
  Forall (fun x : string * (string * string) * (bfargs -> endian) =>
            if String.eqb k (fst (fst x)) then endian_text v (snd x (fst a'))
            else snd x (fst a') = snd x (fst a)) endians /\
  Forall (fun x : string * (bfargs * bool -> bool) =>
            if String.eqb k (fst x) then v = (if snd x a' then "true" else "false")%string
            else snd x a' = snd x a) bool_projs /\
  Forall (fun x : string * (bfargs -> bool) =>
            if String.eqb k (fst x) then snd x (fst a') = true
            else snd x (fst a') = snd x (fst a)) user_flags.

Ltac keytest H k :=
  match type of H with
  | context [String.eqb k ?x] => destruct (String.eqb_spec k x); [subst k|]
  end.

Ltac solve_step :=
  unfold step, bool_projs, switches, endians, user_flags; cbn [map app fst snd];
  repeat match goal with
  | H : _ <> _ |- _ => apply String.eqb_neq in H
  end;
  repeat split; repeat constructor; cbn; auto.

Lemma arg_sound a fp k v r : bitfield_arg (a, fp) (k, v) = POk r ->
  bitfield_arg_ok (k, v) /\ step k v (a, fp) r.
Proof.
  unfold bitfield_arg. destruct a as [o fe ie we nw fib ft df db cp bu bo wbo uw cbo uc sbo us ibo ui tbo ut ah].
  cbv zeta. intro H.
  keytest H k.
  { pinv H x Hx. injection H as <-. apply order_iff in Hx. split; [left; eauto|solve_step]. }
  keytest H k.
  { pinv H x Hx. injection H as <-. apply endian_iff in Hx. split; [right; left; split; [|eauto]|solve_step].
    eexists. split; [left; reflexivity|reflexivity]. }
  keytest H k.
  { pinv H x Hx. injection H as <-. apply endian_iff in Hx. split; [right; left; split; [|eauto]|solve_step].
    eexists. split; [right; left; reflexivity|reflexivity]. }
  keytest H k.
  { pinv H x Hx. injection H as <-. apply endian_iff in Hx. split; [right; left; split; [|eauto]|solve_step].
    eexists. split; [right; right; left; reflexivity|reflexivity]. }
  repeat (keytest H k;
    [pinv H x Hx; injection H as <-; apply bool_iff in Hx;
     split; [right; right; split; [cbn; tauto|]; cbn [snd]; unfold bool_text; destruct x; auto|solve_step]|]).
  discriminate.
Qed.
Lemma arg_complete a k v : bitfield_arg_ok (k, v) -> exists r, bitfield_arg a (k, v) = POk r.
Proof.
  destruct a as [[o fe ie we nw fib ft df db cp bu bo wbo uw cbo uc sbo us ibo ui tbo ut ah] fp].
  unfold bitfield_arg_ok. cbn [fst snd].
  intros [(-> & x & H)|[((x & Hx & ->) & e & He)|(Hk & Hv)]].
  - apply order_iff in H. cbn. rewrite H. cbn. eauto.
  - apply endian_iff in He. unfold endians in Hx. cbn [In] in Hx.
    destruct Hx as [<-|[<-|[<-|[]]]]; cbn; rewrite He; cbn; eauto.
  - assert (Hb : exists b, parse_bool_arg v = POk b).
    { destruct Hv as [-> | ->]; [exists true|exists false]; reflexivity. }
    destruct Hb as [b Hb]. unfold keys, switches in Hk. cbn [map app fst In] in Hk.
    repeat destruct Hk as [<-|Hk]; try (cbn; rewrite Hb; cbn; eauto). destruct Hk.
Qed.

Definition steps (args : list (string * string)) (a a' : bfargs * bool) : Prop :=
  (match last_of "order" args with
   | Some v => order_text v (a_order (fst a'))
   | None => a_order (fst a') = a_order (fst a) end) /\
  (forall x, In x endians ->
     match last_of (fst (fst x)) args with
     | Some v => endian_text v (snd x (fst a'))
     | None => snd x (fst a') = snd x (fst a) end) /\
  (forall x, In x bool_projs ->
     match last_of (fst x) args with
     | Some v => v = (if snd x a' then "true" else "false")%string
     | None => snd x a' = snd x a end) /\
  (forall x, In x user_flags ->
     match last_of (fst x) args with
     | Some v => snd x (fst a') = true
     | None => snd x (fst a') = snd x (fst a) end).

Lemma fold_steps args : forall a a', fold_args bitfield_arg a args = POk a' ->
  Forall bitfield_arg_ok args /\ steps args a a'.
Proof.
  induction args as [|[k v] l IH]; intros a a' H; cbn [fold_args] in H.
  - injection H as <-. split; [constructor|]. unfold steps. repeat split; reflexivity.
  - pinv H b Hb. destruct a as [a fp]. apply arg_sound in Hb as [Hok (S1 & S2 & S3 & S4)].
    rewrite Forall_forall in S2, S3, S4.
    apply IH in H as [Hl (T1 & T2 & T3 & T4)]. split; [constructor; assumption|].
    unfold steps. rewrite last_of_cons. cbn [fst snd]. split; [|split; [|split]].
    + destruct (last_of "order" l); [exact T1|]. rewrite T1. destruct (String.eqb k "order"); exact S1.
    + intros x Hx. specialize (T2 x Hx). specialize (S2 x Hx). cbn beta in S2. rewrite last_of_cons. cbn [fst snd].
      destruct (last_of (fst (fst x)) l); [exact T2|]. rewrite T2.
      destruct (String.eqb k (fst (fst x))); exact S2.
    + intros x Hx. specialize (T3 x Hx). specialize (S3 x Hx). cbn beta in S3. rewrite last_of_cons. cbn [fst snd].
      destruct (last_of (fst x) l); [exact T3|]. rewrite T3.
      destruct (String.eqb k (fst x)); exact S3.
    + intros x Hx. specialize (T4 x Hx). specialize (S4 x Hx). cbn beta in S4. rewrite last_of_cons. cbn [fst snd].
      destruct (last_of (fst x) l); [exact T4|]. rewrite T4.
      destruct (String.eqb k (fst x)); exact S4.
Qed.
Lemma fold_bitfield_complete args : Forall bitfield_arg_ok args -> forall a,
  exists r, fold_args bitfield_arg a args = POk r.
Proof.
  induction 1 as [|[k v] l Ha _ IH]; intro a; cbn [fold_args]; [eauto|].
  destruct (arg_complete a k v Ha) as [b ->]. cbn [pbind]. apply IH.
Qed.
Lemma bitfield_keys_complete args : Forall bitfield_arg_ok args -> check_keys bitfield_keys args = POk tt.
Proof.
  intro H. unfold check_keys.
  replace (forallb _ args) with true; [reflexivity|]. symmetry. apply forallb_forall.
  intros [k v] Ha. rewrite Forall_forall in H. specialize (H _ Ha). unfold bitfield_arg_ok in H. cbn [fst snd] in *.
  destruct H as [(-> & _)|[((x & Hx & ->) & _)|(Hk & _)]]; [reflexivity| |].
  - unfold endians in Hx. cbn [In] in Hx. destruct Hx as [<-|[<-|[<-|[]]]]; reflexivity.
  - unfold keys, switches in Hk. cbn [map app fst In] in Hk.
    repeat destruct Hk as [<-|Hk]; try reflexivity. destruct Hk.
Qed.

Lemma bool_val (b : bool) s : s = (if b then "true" else "false")%string -> String.eqb s "true" = b.
Proof. destruct b; intros ->; reflexivity. Qed.

(** C50: the arguments of [#[bitfield(..)]] are accepted exactly when every one
    is a known key with a well-formed value. *)
Theorem C50_accepted (F : features) (args : list (string * string)) :
  (exists a fp, parse_bitfield_args F args = POk (a, fp)) <-> Forall bitfield_arg_ok args.
Proof.
  unfold parse_bitfield_args. split.
  - intros (a & fp & H). pinv H u Hu. apply fold_steps in H. tauto.
  - intro H. rewrite bitfield_keys_complete by exact H. cbn [pbind].
    destruct (fold_bitfield_complete args H (args_default F, false)) as [[a fp] E]. eauto.
Qed.

(** C50: every setting has the value of its last argument; without one it comes
    from the cargo features. *)
Theorem C50_values (F : features) (args : list (string * string)) (a : bfargs) (fp : bool) :
  parse_bitfield_args F args = POk (a, fp) ->
  args_match F args a /\ fp = switch_value args "force_panic" false.
Proof.
  unfold parse_bitfield_args. intro H. pinv H u Hu. apply fold_steps in H as [_ (S1 & S2 & S3 & S4)].
  cbn [fst snd] in *. unfold args_match. split; [split; [|split; [|split; [|split]]]|].
  - destruct (last_of "order" args); [exact S1|]. rewrite S1. reflexivity.
  - intros key little big proj Hin. specialize (S2 _ Hin). cbn [fst snd] in S2.
    destruct (last_of key args); [exact S2|]. rewrite S2. clear - Hin.
    unfold endians in Hin. cbn [In] in Hin.
    repeat destruct Hin as [Hin|Hin]; try contradiction; injection Hin as <- <- <- <-;
      cbn [args_default a_from_endian a_into_endian a_write_endian]; unfold resolve_endian;
      match goal with |- context [F ?x && F ?y] => destruct (F x), (F y) end; reflexivity.
  - intros key on off proj Hin. unfold switch_value.
    assert (Hp : In (key, fun a : bfargs * bool => proj (fst a)) bool_projs).
    { unfold bool_projs. apply in_or_app. left.
      apply (in_map (fun x => (fst (fst x), fun a : bfargs * bool => snd x (fst a)))) in Hin. exact Hin. }
    specialize (S3 _ Hp). cbn [fst snd] in S3. destruct (last_of key args).
    + symmetry. now apply bool_val.
    + rewrite S3. clear - Hin. unfold switches in Hin. cbn [In] in Hin.
      repeat destruct Hin as [Hin|Hin]; try contradiction; injection Hin as <- <- <- <-;
      cbn [args_default a_new a_from_into_bits a_from_traits a_default a_debug a_copy a_builder a_bit_ops
           a_write_bit_ops a_clear_bit_ops a_set_get_bit_ops a_invert_bit_ops a_toggle_bit_ops];
      unfold resolve_bool; match goal with |- context [if F ?x then _ else _] => destruct (F x) end; reflexivity.
  - assert (Hp : In ("array_heap"%string, fun a : bfargs * bool => a_array_heap (fst a)) bool_projs).
    { unfold bool_projs. apply in_or_app. right. now left. }
    specialize (S3 _ Hp). cbn [fst snd] in S3. unfold switch_value. destruct (last_of "array_heap" args).
    + symmetry. now apply bool_val.
    + rewrite S3. reflexivity.
  - intros key proj Hin. specialize (S4 _ Hin). cbn [fst snd] in S4. destruct (last_of key args).
    + rewrite S4. split; [discriminate|reflexivity].
    + rewrite S4. clear - Hin. unfold user_flags in Hin. cbn [In] in Hin.
      repeat destruct Hin as [Hin|Hin]; try contradiction; injection Hin as <- <-; cbn; intuition discriminate.
  - assert (Hp : In ("force_panic"%string, @snd bfargs bool) bool_projs).
    { unfold bool_projs. apply in_or_app. right. right. now left. }
    specialize (S3 _ Hp). cbn [fst snd] in S3. unfold switch_value. destruct (last_of "force_panic" args).
    + symmetry. now apply bool_val.
    + rewrite S3. reflexivity.
Qed.

(** Two occurrences of a key, mixed case, white space. *)
Example C50_ex :
  let args := [("order", "msb"); ("debug", "false"); ("order", "LSB"); ("into_endian", " Little")]%string in
  Forall bitfield_arg_ok args /\
  match parse_bitfield_args (fun f => String.eqb f "disable_builder") args with
  | POk (a, fp) => a_order a = Lsb /\ a_debug a = false /\ a_into_endian a = Little /\
                   a_from_endian a = Big /\ a_builder a = false /\ a_new a = true /\ fp = false
  | _ => False
  end /\ parse_bitfield_args (fun _ => false) [("ordre", "msb")]%string = PErr EUnknownArgument.
Proof. cbv zeta. split; [apply (C50_accepted (fun _ => false)); do 2 eexists; reflexivity|]. vm_compute. intuition. Qed.
