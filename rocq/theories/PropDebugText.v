(** Theorems about the text of the Debug implementation: C69. *)
From Coq Require Import ZArith List Bool Lia String Ascii.
From Verif Require Import RustInt Syntax GenInt GenArr Gen Spec BitsLemmas CoreLemmas GenLemmas
  ConvLemmas BitOpLemmas Examples ConstExpr PropExact PropFields PropDebug Docs PropDocs DebugText.
Import ListNotations.
Open Scope Z_scope.

(** ** What the text should be *)

(** A decimal number without leading zeros. *)
Definition number_text (s : string) (z : Z) : Prop :=
  decimal_text s z /\ forall r, s = String "0" r -> r = EmptyString.

Open Scope string_scope.
(** What is printed for a field: its raw bits as a number, or the bytes. *)
Definition field_text (bf : bitfield) (s : store) (f : field) (T : string) : Prop :=
  match printed bf s f with
  | PInt z => number_text T z
  | PArr l => exists Ts, Forall2 number_text Ts l /\ T = "[" ++ String.concat ", " Ts ++ "]"
  | _ => False
  end.
(** The same over several lines, one byte per line. *)
Definition field_lines (bf : bitfield) (s : store) (f : field) (T : string) : Prop :=
  match printed bf s f with
  | PInt z => number_text T z
  | PArr [] => T = "[]"
  | PArr l => exists Ts, Forall2 number_text Ts l /\
      T = "[" ++ nl ++ String.concat "" (map (fun t => "        " ++ t ++ "," ++ nl) Ts) ++ "    ]"
  | _ => False
  end.
Close Scope string_scope.

(** ** Lemmas *)

Lemma app_cancel (p a b : string) : (p ++ a = p ++ b)%string -> a = b.
Proof. induction p; cbn; [auto|]. intro H. injection H. auto. Qed.
Lemma app_cancel_r (p a b : string) : (a ++ p = b ++ p)%string -> a = b.
Proof.
  intro H. apply (f_equal list_ascii_of_string) in H. rewrite !chars_app in H.
  apply app_inv_tail in H. apply chars_inj, H.
Qed.

Definition is_digit (c : ascii) : Prop := to_digit 10 c <> None.
Lemma decimal_digits s z : decimal_text s z -> Forall is_digit (list_ascii_of_string s).
Proof.
  intros (ds & _ & H & _). induction H as [|d c ds cs H HF IH]; constructor; [|exact IH].
  apply to_digit_spec in H; [|cbn; tauto]. unfold is_digit. rewrite H. discriminate.
Qed.

Lemma show_leading n : forall z, 0 <= z < 2 ^ Z.of_nat (S n) ->
  forall r, show n z = String "0" r -> z = 0.
Proof.
  induction n as [|n IH]; intros z Hz r; cbn [show].
  - cbn in Hz. rewrite Z.mod_small by lia. assert (z = 0 \/ z = 1) as [-> | ->] by lia; [reflexivity|discriminate].
  - destruct (Z.ltb_spec z 10) as [L|L].
    + rewrite Z.mod_small by lia. assert (H : exists k, z = Z.of_nat k /\ (k < 10)%nat) by (exists (Z.to_nat z); lia).
      destruct H as (k & -> & Hk). destruct k as [|k]; [reflexivity|].
      do 9 (destruct k as [|k]; [discriminate|]). lia.
    + assert (Hq : 0 <= z / 10 < 2 ^ Z.of_nat (S n)).
      { split; [apply Z.div_pos; lia|]. apply Z.div_lt_upper_bound; [lia|].
        rewrite (Nat2Z.inj_succ (S n)), Z.pow_succ_r in Hz by lia. lia. }
      destruct (show n (z / 10)) as [|c t] eqn:E.
      * exfalso. destruct (show_ok n (z / 10) Hq) as (ds & Hne & HF & _). rewrite E in HF.
        inversion HF. congruence.
      * cbn [append]. intro H. injection H as -> _. exfalso.
        specialize (IH (z / 10) Hq t E). pose proof (Z.div_str_pos z 10). lia.
Qed.
Lemma decimal_number z : 0 <= z -> number_text (decimal z) z.
Proof.
  intro Hz. split; [apply decimal_ok, Hz|]. intros r E. unfold decimal in E. pose proof E as E'.
  apply show_leading in E'.
  - subst z. change (Z.to_nat (Z.log2 0)) with O in E. cbn in E. injection E. auto.
  - split; [exact Hz|]. rewrite Nat2Z.inj_succ, Z2Nat.id by apply Z.log2_nonneg.
    destruct (Z.eq_dec z 0) as [->|]; [reflexivity|]. apply Z.log2_spec. lia.
Qed.

(** A number followed by another character is read in one way. *)
Lemma decimal_cut z z' c c' r r' : 0 <= z -> 0 <= z' -> ~ is_digit c -> ~ is_digit c' ->
  (decimal z ++ String c r = decimal z' ++ String c' r')%string -> z = z' /\ String c r = String c' r'.
Proof.
  intros Hz Hz' Hc Hc' E. pose proof (decimal_ok z Hz) as D. pose proof (decimal_ok z' Hz') as D'.
  apply (f_equal list_ascii_of_string) in E. rewrite !chars_app in E. cbn [list_ascii_of_string] in E.
  destruct (cut is_digit _ _ _ _ _ _ (decimal_digits _ _ D) (decimal_digits _ _ D') Hc Hc' E) as (H1 & -> & H3).
  apply chars_inj in H1, H3. subst r'. split; [|reflexivity]. rewrite H1 in D. eapply decimal_fun; eassumption.
Qed.

Ltac nodigit := intro; match goal with H : is_digit _ |- _ => apply H; vm_compute; reflexivity end.

Definition entries_ok (l : list Z) : Prop := Forall (fun x => 0 <= x) l.

Lemma entries_cut l : forall l' r r', entries_ok l -> entries_ok l' -> List.length l = List.length l' ->
  (entries l ++ r = entries l' ++ r')%string -> l = l' /\ r = r'.
Proof.
  induction l as [|x l IH]; intros [|x' l'] r r' H H' HL E; try discriminate HL; cbn [entries append] in E.
  - injection E. auto.
  - injection HL as HL. inversion_clear H as [|? ? Hx Hl]. inversion_clear H' as [|? ? Hx' Hl'].
    injection E as E. rewrite !append_assoc in E.
    assert (N : forall l r, exists c t, (entries l ++ r = String c t)%string /\ ~ is_digit c).
    { clear. intros [|y l] r; cbn; eexists; eexists; (split; [reflexivity|nodigit]). }
    destruct (N l r) as (c & t & Et & Hc), (N l' r') as (c' & t' & Et' & Hc').
    rewrite Et, Et' in E. apply decimal_cut in E; try assumption. destruct E as [-> E].
    rewrite <- Et, <- Et' in E. apply IH in E; try assumption. destruct E as [-> ->]. auto.
Qed.

Lemma pad_plain s b : Forall (fun c => c <> newline) (list_ascii_of_string s) ->
  forall r, s <> EmptyString -> pad b (s ++ r) = ((if b then "    " else "") ++ s ++ pad false r)%string.
Proof.
  revert b. induction s as [|c s IH]; intros b H r Hne; [congruence|]. inversion_clear H as [|? ? Hc Hs].
  cbn [append pad]. f_equal. f_equal. destruct (Ascii.eqb_spec c newline); [contradiction|].
  destruct s as [|c' s']; [reflexivity|]. rewrite IH by (assumption || discriminate). reflexivity.
Qed.
Lemma decimal_line z : 0 <= z ->
  pad true (decimal z ++ "," ++ nl) = ("    " ++ decimal z ++ "," ++ nl)%string.
Proof.
  intro Hz. pose proof (decimal_ok z Hz) as D. rewrite pad_plain.
  - reflexivity.
  - eapply Forall_impl; [|apply (decimal_digits _ _ D)]. intros c Hc ->. apply Hc. vm_compute. reflexivity.
  - intro E. rewrite E in D. destruct D as (ds & Hne & HF & _). inversion HF. congruence.
Qed.
Lemma entries_alt_cut l : forall l' r r', entries_ok l -> entries_ok l' -> List.length l = List.length l' ->
  (entries_alt l ++ r = entries_alt l' ++ r')%string -> l = l' /\ r = r'.
Proof.
  induction l as [|x l IH]; intros [|x' l'] r r' H H' HL E; try discriminate HL; cbn [entries_alt append] in E.
  - injection E. auto.
  - injection HL as HL. inversion_clear H as [|? ? Hx Hl]. inversion_clear H' as [|? ? Hx' Hl'].
    rewrite !decimal_line, !append_assoc in E by assumption. apply app_cancel in E.
    cbn [append] in E. apply decimal_cut in E; try assumption; try nodigit. destruct E as [-> E].
    injection E as E. apply IH in E; try assumption. destruct E as [-> ->]. auto.
Qed.

(** Values that may stand for the same field. *)
Definition same_shape (p q : pval) : Prop :=
  match p, q with
  | PInt z, PInt z' => 0 <= z /\ 0 <= z'
  | PArr l, PArr l' => entries_ok l /\ entries_ok l' /\ List.length l = List.length l'
  | _, _ => False
  end.
Lemma value_cut alt p q c c' r r' : same_shape p q -> ~ is_digit c -> ~ is_digit c' ->
  (value_text alt p ++ String c r = value_text alt q ++ String c' r')%string -> p = q /\ String c r = String c' r'.
Proof.
  intros Hs Hc Hc' E. destruct p as [z| |l|], q as [z'| |l'|]; try contradiction; cbn [value_text] in E.
  - destruct Hs. apply decimal_cut in E; try assumption. destruct E as [-> ->]. auto.
  - destruct Hs as (H & H' & HL). destruct l as [|x l], l' as [|x' l']; try discriminate HL.
    + cbn in E. injection E as -> ->. auto.
    + cbn [list_text] in E. destruct alt.
      * rewrite !append_assoc in E. do 2 apply app_cancel in E.
        apply (entries_alt_cut (x :: l) (x' :: l')) in E; try assumption. destruct E as [-> ->]. auto.
      * injection HL as HL. inversion_clear H as [|? ? Hx Hl]. inversion_clear H' as [|? ? Hx' Hl'].
        rewrite !append_assoc in E. apply app_cancel in E.
        assert (N : forall l r, exists c t, (entries l ++ r = String c t)%string /\ ~ is_digit c).
        { clear. intros [|y l] r; cbn; eexists; eexists; (split; [reflexivity|nodigit]). }
        destruct (N l (String c r)) as (d & t & Et & Hd), (N l' (String c' r')) as (d' & t' & Et' & Hd').
        rewrite Et, Et' in E. apply decimal_cut in E; try assumption. destruct E as [-> E].
        rewrite <- Et, <- Et' in E. apply entries_cut in E; try assumption. destruct E as [-> ->]. auto.
Qed.

Lemma pad_inj s : forall s' b, pad b s = pad b s' -> s = s'.
Proof.
  induction s as [|c s IH]; intros [|c' s'] b E; cbn [pad] in E; try (destruct b; discriminate E); [reflexivity|].
  apply app_cancel in E. injection E as -> E. apply IH in E. congruence.
Qed.
Lemma pad_app s : forall b r, pad b (s ++ nl ++ r) = (pad b (s ++ nl) ++ pad true r)%string.
Proof.
  induction s as [|c s IH]; intros b r.
  - cbn [append nl pad]. rewrite Ascii.eqb_refl. destruct b; reflexivity.
  - cbn [append pad]. rewrite IH. rewrite !append_assoc. reflexivity.
Qed.
(** The lines before indentation. *)
Fixpoint raw_lines (l : list (string * pval)) : string :=
  match l with [] => "" | (n, v) :: t => (n ++ ": " ++ value_text true v ++ "," ++ nl ++ raw_lines t)%string end.
Lemma fields_alt_raw l : fields_alt l = (pad true (raw_lines l) ++ "}")%string.
Proof.
  induction l as [|(n, v) l IH]; [reflexivity|]. cbn [fields_alt raw_lines]. rewrite IH.
  rewrite <- append_assoc. f_equal.
  replace (n ++ ": " ++ value_text true v ++ "," ++ nl ++ raw_lines l)%string
    with ((n ++ ": " ++ value_text true v ++ ",") ++ nl ++ raw_lines l)%string by (rewrite !append_assoc; reflexivity).
  rewrite pad_app. rewrite !append_assoc. reflexivity.
Qed.

Definition same_fields : list (string * pval) -> list (string * pval) -> Prop :=
  Forall2 (fun x y => fst x = fst y /\ same_shape (snd x) (snd y)).
Lemma fields_inj l l' : same_fields l l' -> fields_text l = fields_text l' -> l = l'.
Proof.
  induction 1 as [|[n v] [n' v'] l l' [Hn Hv] HF IH]; [reflexivity|]. cbn [fst snd] in *. subst n'.
  cbn [fields_text]. intro E. do 3 apply app_cancel in E.
  assert (N : forall l, exists c t, fields_text l = String c t /\ ~ is_digit c).
  { clear. intros [|[n v] l]; cbn; eexists; eexists; (split; [reflexivity|nodigit]). }
  destruct (N l) as (c & t & Et & Hc), (N l') as (c' & t' & Et' & Hc').
  rewrite Et, Et' in E. apply value_cut in E; try assumption. destruct E as [-> E].
  rewrite <- Et, <- Et' in E. rewrite (IH E). reflexivity.
Qed.
Lemma raw_lines_inj l l' : same_fields l l' -> raw_lines l = raw_lines l' -> l = l'.
Proof.
  induction 1 as [|[n v] [n' v'] l l' [Hn Hv] HF IH]; [reflexivity|]. cbn [fst snd] in *. subst n'.
  cbn [raw_lines]. intro E. do 2 apply app_cancel in E.
  cbn [append] in E. apply value_cut in E; try assumption; try nodigit. destruct E as [-> E].
  injection E as E. rewrite (IH E). reflexivity.
Qed.
Lemma struct_inj alt n l l' : same_fields l l' -> struct_text alt n l = struct_text alt n l' -> l = l'.
Proof.
  intros H E. destruct H as [|[x v] [x' v'] l l' [Hn Hv] HF]; [reflexivity|]. cbn [fst snd] in *. subst x'.
  cbn [struct_text] in E. destruct alt.
  - do 3 apply app_cancel in E. apply raw_lines_inj; [constructor; auto|].
    rewrite !fields_alt_raw in E. apply app_cancel_r, pad_inj in E. exact E.
  - apply fields_inj; [constructor; auto|]. cbn [fields_text]. do 2 apply app_cancel in E.
    f_equal. exact E.
Qed.

Lemma printed_bytes bf s f : bf_ok bf -> store_ok bf s -> In f (b_fields bf) ->
  match printed bf s f with
  | PInt z => z = raw s f /\ 0 <= z
  | PArr l => (exists n, f_ty f = DArray n /\ List.length l = Z.to_nat n) /\ entries_ok l /\ le_val l = raw s f
  | _ => False
  end.
Proof.
  intros Hbf Hs Hin. pose proof (bf_ok_field bf f Hbf Hin) as (Hb & Ho & _ & Hw & _).
  pose proof (slice_bound (sval s) (f_off f) (f_bits f) ltac:(lia)) as B. fold (raw s f) in B.
  unfold printed, width_ok in *. destruct (f_ty f) as [t|n|]; try (split; [reflexivity|lia]).
  destruct (is_integer_backed bf); [split; [reflexivity|lia]|].
  split; [exists n; split; [reflexivity|apply le_bytes_length]|]. split.
  - unfold entries_ok. eapply Forall_impl; [|apply le_bytes_bytes]. intros x Hx. unfold is_byte in Hx. lia.
  - rewrite le_val_bytes, pow256 by lia. assert (0 <= n) by lia. rewrite Z2Nat.id by assumption.
    assert (2 ^ f_bits f <= 2 ^ (8 * n)) by (apply pow2_le; lia). apply Z.mod_small. lia.
Qed.

(** ** C69 *)

(** Two bitfields of the same type print the same text, in either form, exactly
    when they hold the same bits. *)
Theorem C69_injective alt m bf s s' : bf_ok bf -> store_ok bf s -> store_ok bf s' ->
  exists t t', debug_string alt m bf s = Val t /\ debug_string alt m bf s' = Val t' /\ (t = t' <-> s = s').
Proof.
  intros Hbf Hs Hs'. unfold debug_string. rewrite !C54_entries by assumption. cbn [bind].
  eexists. eexists. split; [reflexivity|]. split; [reflexivity|]. split; [|intros <-; reflexivity].
  intro E. apply struct_inj in E.
  - apply (C47_fields_determine bf); try assumption. intros f Hin.
    assert (P : printed bf s f = printed bf s' f).
    { clear - E Hin. induction (b_fields bf) as [|g fs IH]; [contradiction|]. cbn [map] in E.
      injection E as E1 E2. destruct Hin as [->|Hin]; auto. }
    pose proof (printed_bytes bf s f Hbf Hs Hin) as H1. pose proof (printed_bytes bf s' f Hbf Hs' Hin) as H2.
    rewrite P in H1. destruct (printed bf s' f); try contradiction.
    + destruct H1, H2. congruence.
    + destruct H1 as (_ & _ & <-), H2 as (_ & _ & <-). reflexivity.
  - assert (A : forall f, In f (b_fields bf) -> same_shape (printed bf s f) (printed bf s' f)).
    { intros f Hin. pose proof (printed_bytes bf s f Hbf Hs Hin) as H1.
      pose proof (printed_bytes bf s' f Hbf Hs' Hin) as H2. unfold printed in *.
      destruct (f_ty f) as [t|n|]; cbn [same_shape]; try (split; [apply H1|apply H2]).
      destruct (is_integer_backed bf); [split; [apply H1|apply H2]|].
      split; [apply H1|]. split; [apply H2|]. rewrite !le_bytes_length. reflexivity. }
    clear - A. induction (b_fields bf) as [|f fs IH]; constructor.
    + split; [reflexivity|]. apply A. left. reflexivity.
    + apply IH. intros g Hg. apply A. right. exact Hg.
Qed.

Open Scope string_scope.
Lemma concat_nil T : String.concat "" T = fold_right append "" T.
Proof. induction T as [|a [|b T] IH]; [reflexivity| |]; cbn in *; [|rewrite IH; reflexivity]. induction a; cbn; congruence. Qed.
Lemma concat_cons a T : String.concat ", " (a :: T) = a ++ fold_right (fun x r => ", " ++ x ++ r) "" T.
Proof.
  revert a. induction T as [|b T IH]; intro a.
  - cbn. induction a; cbn; congruence.
  - change (String.concat ", " (a :: b :: T)) with (a ++ ", " ++ String.concat ", " (b :: T)). rewrite IH. reflexivity.
Qed.
Lemma numbers l : entries_ok l -> Forall2 number_text (map decimal l) l.
Proof. induction 1; constructor; [apply decimal_number; assumption|assumption]. Qed.
Lemma entries_concat l : entries l = fold_right (fun x r => ", " ++ x ++ r) "" (map decimal l) ++ "]".
Proof. induction l as [|x l IH]; [reflexivity|]. cbn [entries map fold_right]. rewrite IH, !append_assoc. reflexivity. Qed.
Lemma fields_concat l :
  fields_text l = fold_right (fun x r => ", " ++ x ++ r) "" (map (fun x => fst x ++ ": " ++ value_text false (snd x)) l) ++ " }".
Proof.
  induction l as [|[n v] l IH]; [reflexivity|]. cbn [fields_text map fold_right fst snd]. rewrite IH, !append_assoc. reflexivity.
Qed.
Lemma value_plain bf s f : bf_ok bf -> store_ok bf s -> In f (b_fields bf) ->
  field_text bf s f (value_text false (printed bf s f)).
Proof.
  intros Hbf Hs Hin. pose proof (printed_bytes bf s f Hbf Hs Hin) as H. unfold field_text.
  destruct (printed bf s f) as [z| |l|]; try contradiction.
  - apply decimal_number. apply H.
  - destruct H as (_ & H & _). exists (map decimal l). split; [apply numbers, H|].
    cbn [value_text]. destruct l as [|x l]; [reflexivity|]. cbn [list_text map].
    rewrite concat_cons, entries_concat, !append_assoc. reflexivity.
Qed.
Lemma has_fields bf : bf_ok bf -> exists f fs, b_fields bf = f :: fs.
Proof.
  intros (Hbk & _ & Hp). destruct (b_fields bf) as [|f fs] eqn:E; [|eauto]. exfalso.
  assert (0 < ty_size (b_ty bf))%Z by (unfold backing_ok, ty_size in *; destruct (b_ty bf) as [t|n|]; [destruct t; cbn; lia|lia|contradiction]).
  destruct (Hp 0%Z ltac:(lia)) as (k & (f & Hk & _) & _). destruct k; discriminate Hk.
Qed.

(** The text of [{:?}]: name, and in braces the fields in declaration order, each
    with its name and its raw bits in decimal, or its bytes. *)
Theorem C69_plain m bf s : bf_ok bf -> store_ok bf s ->
  exists Ts, Forall2 (field_text bf s) (b_fields bf) Ts /\
    debug_string false m bf s =
    Val (b_name bf ++ " { " ++
         String.concat ", " (map (fun x => f_name (fst x) ++ ": " ++ snd x) (combine (b_fields bf) Ts)) ++ " }").
Proof.
  intros Hbf Hs. unfold debug_string. rewrite C54_entries by assumption. cbn [bind].
  exists (map (fun f => value_text false (printed bf s f)) (b_fields bf)). split.
  - assert (A : forall f, In f (b_fields bf) -> field_text bf s f (value_text false (printed bf s f)))
      by (intros; apply value_plain; assumption).
    induction (b_fields bf) as [|f fs IH]; constructor; [apply A; left; reflexivity|].
    apply IH. intros g Hg. apply A. right. exact Hg.
  - f_equal. destruct (has_fields bf Hbf) as (f & fs & ->). cbn [map combine struct_text fst snd].
    rewrite concat_cons, fields_concat, !append_assoc. do 5 f_equal. f_equal. rewrite map_map. cbn [fst snd]. clear.
    induction fs as [|g fs IH]; [reflexivity|]. cbn [map combine fold_right fst snd]. rewrite IH. reflexivity.
Qed.

Lemma nonempty_plain s : s <> "" -> Forall (fun c => c <> newline) (list_ascii_of_string s) ->
  forall b r, pad b (s ++ nl ++ r) = (if b then "    " else "") ++ s ++ nl ++ pad true r.
Proof.
  intros Hne H b r. rewrite pad_plain by assumption. reflexivity.
Qed.
Lemma decimal_plain z : (0 <= z)%Z -> decimal z <> "" /\ Forall (fun c => c <> newline) (list_ascii_of_string (decimal z)).
Proof.
  intro Hz. pose proof (decimal_ok z Hz) as D. split.
  - intro E. rewrite E in D. destruct D as (ds & Hne & HF & _). inversion HF. congruence.
  - eapply Forall_impl; [|apply (decimal_digits _ _ D)]. intros c Hc ->. apply Hc. vm_compute. reflexivity.
Qed.
Lemma plain_app a b : Forall (fun c => c <> newline) (list_ascii_of_string a) ->
  Forall (fun c => c <> newline) (list_ascii_of_string b) ->
  Forall (fun c => c <> newline) (list_ascii_of_string (a ++ b)).
Proof. rewrite chars_app. intros. apply Forall_app. auto. Qed.
Ltac plain_lit := repeat constructor; discriminate.
Lemma entries_padded l r : entries_ok l ->
  pad true (entries_alt l ++ "," ++ nl ++ r) =
  fold_right append "" (map (fun t => "        " ++ t ++ "," ++ nl) (map decimal l)) ++ "    ]," ++ nl ++ pad true r.
Proof.
  induction 1 as [|x l Hx Hl IH].
  - cbn [entries_alt map fold_right]. apply (nonempty_plain "],"); [discriminate|plain_lit].
  - cbn [entries_alt map fold_right]. rewrite decimal_line by exact Hx.
    replace ((("    " ++ decimal x ++ "," ++ nl) ++ entries_alt l) ++ "," ++ nl ++ r)
      with (("    " ++ decimal x ++ ",") ++ nl ++ (entries_alt l ++ "," ++ nl ++ r)) by (rewrite !append_assoc; reflexivity).
    rewrite nonempty_plain.
    + rewrite IH. rewrite !append_assoc. reflexivity.
    + discriminate.
    + apply plain_app; [plain_lit|]. apply plain_app; [apply decimal_plain, Hx|plain_lit].
Qed.
(** What a field prints after indentation. *)
Definition indented (p : pval) : string :=
  match p with
  | PArr ((_ :: _) as l) => "[" ++ nl ++ fold_right append "" (map (fun t => "        " ++ t ++ "," ++ nl) (map decimal l)) ++ "    ]"
  | _ => value_text true p
  end.
Lemma field_line bf s f r : bf_ok bf -> store_ok bf s -> In f (b_fields bf) ->
  Forall (fun c => c <> newline) (list_ascii_of_string (f_name f)) ->
  pad true (f_name f ++ ": " ++ value_text true (printed bf s f) ++ "," ++ nl ++ r) =
  "    " ++ f_name f ++ ": " ++ indented (printed bf s f) ++ "," ++ nl ++ pad true r.
Proof.
  intros Hbf Hs Hin Hn. pose proof (printed_bytes bf s f Hbf Hs Hin) as H.
  assert (Hc : forall t, f_name f ++ ": " ++ t <> "") by (intro t; destruct (f_name f); discriminate).
  assert (L : forall t, Forall (fun c => c <> newline) (list_ascii_of_string t) ->
    pad true (f_name f ++ ": " ++ t ++ nl ++ r) = "    " ++ f_name f ++ ": " ++ t ++ nl ++ pad true r).
  { intros t Ht. replace (f_name f ++ ": " ++ t ++ nl ++ r) with ((f_name f ++ ": " ++ t) ++ nl ++ r)
      by (rewrite !append_assoc; reflexivity).
    rewrite nonempty_plain; [rewrite !append_assoc; reflexivity|apply Hc|].
    apply plain_app; [exact Hn|]. apply plain_app; [plain_lit|exact Ht]. }
  destruct (printed bf s f) as [z| |[|x l]|]; try contradiction.
  - cbn [value_text indented]. destruct H as [_ Hz].
    specialize (L (decimal z ++ ",") ltac:(apply plain_app; [apply decimal_plain, Hz|plain_lit])).
    rewrite !append_assoc in L. exact L.
  - apply (L "[],"). plain_lit.
  - destruct H as (_ & H & _). cbn [value_text indented list_text].
    replace (f_name f ++ ": " ++ ("[" ++ nl ++ entries_alt (x :: l)) ++ "," ++ nl ++ r)
      with ((f_name f ++ ": [") ++ nl ++ (entries_alt (x :: l) ++ "," ++ nl ++ r)) by (rewrite !append_assoc; reflexivity).
    rewrite nonempty_plain; [|apply (Hc "[")|apply plain_app; [exact Hn|plain_lit]].
    rewrite entries_padded by exact H. rewrite !append_assoc. reflexivity.
Qed.

(** The text of [{:#?}]: one field per line, one byte per line.  (A name is an
    identifier, so it has no line break.) *)
Theorem C69_lines m bf s : bf_ok bf -> store_ok bf s ->
  (forall f, In f (b_fields bf) -> Forall (fun c => c <> newline) (list_ascii_of_string (f_name f))) ->
  exists Ts, Forall2 (field_lines bf s) (b_fields bf) Ts /\
    debug_string true m bf s =
    Val (b_name bf ++ " {" ++ nl ++
         String.concat "" (map (fun x => "    " ++ f_name (fst x) ++ ": " ++ snd x ++ "," ++ nl) (combine (b_fields bf) Ts)) ++ "}").
Proof.
  intros Hbf Hs Hn. unfold debug_string. rewrite C54_entries by assumption. cbn [bind].
  exists (map (fun f => indented (printed bf s f)) (b_fields bf)). split.
  - assert (A : forall f, In f (b_fields bf) -> field_lines bf s f (indented (printed bf s f))).
    { intros f Hin. pose proof (printed_bytes bf s f Hbf Hs Hin) as H. unfold field_lines.
      destruct (printed bf s f) as [z| |[|x l]|]; try contradiction; cbn [indented].
      - apply decimal_number. apply H.
      - reflexivity.
      - exists (map decimal (x :: l)). split; [apply numbers, H|]. rewrite concat_nil. reflexivity. }
    induction (b_fields bf) as [|f fs IH]; constructor; [apply A; left; reflexivity|].
    apply IH; [intros g Hg; apply Hn; right; exact Hg|]. intros g Hg. apply A. right. exact Hg.
  - f_equal. rewrite concat_nil.
    assert (E : struct_text true (b_name bf) (map (fun f => (f_name f, printed bf s f)) (b_fields bf)) =
      b_name bf ++ " {" ++ nl ++ fields_alt (map (fun f => (f_name f, printed bf s f)) (b_fields bf)))
      by (destruct (has_fields bf Hbf) as (f & fs & ->); reflexivity).
    rewrite E, fields_alt_raw. do 4 f_equal.
    assert (A : forall f r, In f (b_fields bf) -> pad true (f_name f ++ ": " ++ value_text true (printed bf s f) ++ "," ++ nl ++ r) =
      "    " ++ f_name f ++ ": " ++ indented (printed bf s f) ++ "," ++ nl ++ pad true r)
      by (intros f r Hin; apply field_line; auto).
    clear E Hn. induction (b_fields bf) as [|f fs IH]; [reflexivity|].
    cbn [map raw_lines combine fold_right fst snd]. rewrite A by (left; reflexivity).
    rewrite IH by (intros g r Hg; apply A; right; exact Hg). rewrite !append_assoc. reflexivity.
Qed.

(** Non-vacuity: both forms, both backings; an indented byte array. *)
Example C69_ex :
  debug_string false Checked ex_int (StI 0x5a5) = Val "ExInt { a: 5, b: 13, c: 0, d: 1, e: 0, _r: 0 }" /\
  debug_string false Checked ex_arr (StA [200; 7; 0x60]) = Val "ExArr { a: [200], b: 7, c: 0, d: 3, _r: 0 }" /\
  debug_string true Checked ex_arr (StA [200; 7; 0x60]) =
    Val ("ExArr {" ++ nl ++ "    a: [" ++ nl ++ "        200," ++ nl ++ "    ]," ++ nl ++ "    b: 7," ++ nl ++
         "    c: 0," ++ nl ++ "    d: 3," ++ nl ++ "    _r: 0," ++ nl ++ "}") /\
  bf_ok ex_arr /\ store_ok ex_arr (StA [200; 7; 0x60]) /\ store_ok ex_arr (StA [201; 7; 0x60]) /\
  Forall (fun f => Forall (fun c => c <> newline) (list_ascii_of_string (f_name f))) (b_fields ex_arr).
Proof.
  split; [vm_compute; reflexivity|]. split; [vm_compute; reflexivity|]. split; [vm_compute; reflexivity|].
  split; [apply ex_arr_ok|]. split; [split; [reflexivity|repeat constructor; discriminate]|].
  split; [split; [reflexivity|repeat constructor; discriminate]|]. repeat constructor; discriminate.
Qed.
Close Scope string_scope.
