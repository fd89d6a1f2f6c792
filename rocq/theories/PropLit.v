(** C44: literal defaults are understood with their Rust value. *)
From Coq Require Import ZArith List Bool String Ascii Lia.
From Verif Require Import RustInt ConstExpr.
Import ListNotations.
Open Scope Z_scope.

(** ** Integer literals of Rust, independently of the macro

    (Rust reference, "Integer literals": optional base prefix, digits and
    underscores with at least one digit, optional type suffix; a decimal literal
    begins with a digit.)  A negative default is the literal under a unary minus,
    which [quote] may print with a space. *)
Inductive lbase := Dec | Hex | Oct | Bin.
Inductive lchar := LDigit (d : nat) (upper : bool) | LUnder.
Record literal := mkLit {
  l_minus : bool; l_space : bool; l_base : lbase; l_chars : list lchar;
  l_suffix : option string }.

Definition base_of (b : lbase) : Z := match b with Dec => 10 | Hex => 16 | Oct => 8 | Bin => 2 end.
Definition suffixes : list string :=
  ["u8"; "u16"; "u32"; "u64"; "u128"; "usize"; "i8"; "i16"; "i32"; "i64"; "i128"; "isize"]%string.

Definition lchar_ok (b : lbase) (c : lchar) : Prop :=
  match c with LDigit d _ => Z.of_nat d < base_of b | LUnder => True end.
Definition is_digit (c : lchar) : bool := match c with LDigit _ _ => true | _ => false end.
Definition literal_ok (l : literal) : Prop :=
  Forall (lchar_ok (l_base l)) (l_chars l) /\
  existsb is_digit (l_chars l) = true /\
  (l_base l = Dec -> match l_chars l with LUnder :: _ => False | _ => True end) /\
  match l_suffix l with Some s => In s suffixes | None => True end.

Definition digit_text (d : nat) (upper : bool) : ascii :=
  nth d (chars (if upper then "0123456789ABCDEF" else "0123456789abcdef")) "?"%char.
Definition lchar_text (c : lchar) : ascii :=
  match c with LDigit d up => digit_text d up | LUnder => "_"%char end.
Definition base_text (b : lbase) : str :=
  chars (match b with Dec => "" | Hex => "0x" | Oct => "0o" | Bin => "0b" end).
Definition suffix_text (l : literal) : str :=
  match l_suffix l with Some s => chars s | None => [] end.
(** The text of a literal. *)
Definition literal_text (l : literal) : string :=
  string_of_list_ascii
    ((if l_minus l then "-"%char :: (if l_space l then [" "%char] else []) else []) ++
     base_text (l_base l) ++ map lchar_text (l_chars l) ++ suffix_text l).

(** The digits of a literal and the number they denote. *)
Definition digits (l : literal) : list nat :=
  flat_map (fun c => match c with LDigit d _ => [d] | LUnder => [] end) (l_chars l).
Definition magnitude (l : literal) : Z :=
  fold_left (fun acc d => acc * base_of (l_base l) + Z.of_nat d) (digits l) 0.
Definition literal_value (l : literal) : Z :=
  if l_minus l then - magnitude l else magnitude l.

(** Texts such as [-0x1f32]: a negative hexadecimal literal without suffix whose
    last digits are [f32] or [f64]. *)
Definition float_like (l : literal) : Prop :=
  l_minus l = true /\ l_base l = Hex /\ l_suffix l = None /\
  exists pre, digits l = pre ++ [15;3;2]%nat \/ digits l = pre ++ [15;6;4]%nat.

(** ** String lemmas *)
Lemma strip_prefix_app p r : strip_prefix p (p ++ r) = Some r.
Proof. induction p as [|c p IH]; [reflexivity|]. cbn. rewrite Ascii.eqb_refl. exact IH. Qed.
Lemma strip_prefix_some p s r : strip_prefix p s = Some r -> s = p ++ r.
Proof.
  revert s. induction p as [|c p IH]; intros s H; cbn in H.
  - injection H as ->. reflexivity.
  - destruct s as [|d s]; [discriminate|]. destruct (Ascii.eqb_spec c d); [|discriminate].
    subst. cbn. f_equal. now apply IH.
Qed.
Lemma starts_with_true p s : starts_with p s = true -> exists r, s = p ++ r.
Proof.
  unfold starts_with. destruct (strip_prefix p s) eqn:E; [|discriminate].
  intros _. exists s0. now apply strip_prefix_some.
Qed.
Lemma starts_with_app p r : starts_with p (p ++ r) = true.
Proof. unfold starts_with. now rewrite strip_prefix_app. Qed.
Lemma ends_with_true p s : ends_with p s = true -> exists r, s = r ++ p.
Proof.
  unfold ends_with. intro H. apply starts_with_true in H as [r Hr]. exists (rev r).
  rewrite <- (rev_involutive s), Hr, rev_app_distr, rev_involutive. reflexivity.
Qed.
Lemma ends_with_app p r : ends_with p (r ++ p) = true.
Proof. unfold ends_with. rewrite rev_app_distr. apply starts_with_app. Qed.
Lemma strip_suffix_app p r : strip_suffix p (r ++ p) = Some r.
Proof.
  unfold strip_suffix. rewrite rev_app_distr, strip_prefix_app, rev_involutive. reflexivity.
Qed.
Lemma str_eqb_true a b : str_eqb a b = true -> a = b.
Proof.
  revert b. induction a as [|c a IH]; intros [|d b] H; cbn in H; try discriminate; [reflexivity|].
  apply andb_prop in H as [H1 H2]. apply Ascii.eqb_eq in H1. subst. f_equal. now apply IH.
Qed.

Definition absent (c : ascii) (s : str) : Prop := ~ In c s.
Lemma starts_with_absent c p s : absent c s -> In c p -> starts_with p s = false.
Proof.
  intros Ha Hi. destruct (starts_with p s) eqn:E; [|reflexivity].
  apply starts_with_true in E as [r ->]. exfalso. apply Ha, in_or_app. now left.
Qed.
Lemma ends_with_absent c p s : absent c s -> In c p -> ends_with p s = false.
Proof.
  intros Ha Hi. destruct (ends_with p s) eqn:E; [|reflexivity].
  apply ends_with_true in E as [r ->]. exfalso. apply Ha, in_or_app. now right.
Qed.

(** ** Digit strings *)

(** The characters left after normalisation. *)
Definition body (l : literal) : str := map (fun d => digit_text d false) (digits l).

Definition small (b : Z) (d : nat) : Prop := Z.of_nat d < b.

Ltac digits16 d H :=
  do 16 (destruct d as [|d]; [vm_compute; try reflexivity; try (intuition congruence) |]);
  exfalso; lia.

Lemma digits_small l : literal_ok l -> Forall (small (base_of (l_base l))) (digits l).
Proof.
  intros (H & _). unfold digits. induction H as [|c t Hc Ht IH]; [constructor|].
  cbn. destruct c; [|exact IH]. cbn. constructor; assumption.
Qed.

Lemma base_16 b : base_of b <= 16.
Proof. destruct b; cbn; lia. Qed.

Lemma lower_digit d up : (d < 16)%nat -> lower (digit_text d up) = digit_text d false.
Proof. intro H. destruct up; digits16 d H. Qed.
Lemma keep_digit d up : (d < 16)%nat ->
  negb (Ascii.eqb (digit_text d up) " " || Ascii.eqb (digit_text d up) "_") = true.
Proof. intro H. destruct up; digits16 d H. Qed.
Lemma to_digit_text b d : Z.of_nat d < base_of b ->
  to_digit (base_of b) (digit_text d false) = Some (Z.of_nat d).
Proof.
  intro H. destruct b; cbn in H;
    do 16 (destruct d as [|d]; [first [reflexivity | exfalso; lia] |]); exfalso; lia.
Qed.

Lemma app_map_filter {A} (f : A -> bool) a b : filter f (a ++ b) = filter f a ++ filter f b.
Proof. induction a as [|x a IH]; [reflexivity|]. cbn. destruct (f x); cbn; now rewrite IH. Qed.

Lemma unspaced_app a b : unspaced (a ++ b) = unspaced a ++ unspaced b.
Proof. apply app_map_filter. Qed.
Lemma lowercase_app a b : lowercase (a ++ b) = lowercase a ++ lowercase b.
Proof. apply map_app. Qed.

Lemma norm_chars l : literal_ok l ->
  lowercase (unspaced (map lchar_text (l_chars l))) = body l.
Proof.
  intros (H & _). unfold body, digits. induction H as [|c t Hc Ht IH]; [reflexivity|].
  destruct c as [d up|].
  - cbn [map lchar_text flat_map app]. unfold unspaced. cbn [filter].
    cbn in Hc. pose proof (base_16 (l_base l)).
    rewrite keep_digit by lia. unfold lowercase. cbn [map].
    rewrite lower_digit by lia. f_equal. exact IH.
  - exact IH.
Qed.

Lemma norm_suffix l : literal_ok l -> lowercase (unspaced (suffix_text l)) = suffix_text l.
Proof.
  intros (_ & _ & _ & H). unfold suffix_text. destruct (l_suffix l); [|reflexivity].
  unfold suffixes in H. cbn in H. repeat destruct H as [<-|H]; try reflexivity. destruct H.
Qed.

Definition sign_text (l : literal) : str := if l_minus l then ["-"%char] else [].

(** No white space at either end of the text. *)
Lemma drop_id s : match s with c :: _ => is_space c = false | [] => True end -> drop_spaces s = s.
Proof. destruct s; [reflexivity|]. cbn. now intros ->. Qed.
Lemma nonspace_lchar b c : lchar_ok b c -> is_space (lchar_text c) = false.
Proof.
  destruct c as [d up|]; [|reflexivity]. cbn. pose proof (base_16 b) as Hb. intro Hd.
  assert (H1 : (d < 16)%nat) by lia. clear - H1.
  destruct up; do 16 (destruct d as [|d]; [reflexivity|]); exfalso; lia.
Qed.

Lemma trim_id s c t d u : s = c :: t -> s = u ++ [d] -> is_space c = false -> is_space d = false ->
  trim s = s.
Proof.
  intros H1 H2 Hc Hd. unfold trim. rewrite (drop_id s) by (rewrite H1; exact Hc).
  rewrite (drop_id (rev s)); [apply rev_involutive|].
  rewrite H2, rev_app_distr. exact Hd.
Qed.

Lemma last_char (P : ascii -> Prop) (s : str) : s <> [] -> Forall P s -> exists u d, s = u ++ [d] /\ P d.
Proof.
  intros Hn Hf. destruct (exists_last Hn) as (u & d & ->). exists u, d. split; [reflexivity|].
  rewrite Forall_forall in Hf. apply Hf, in_or_app. right. now left.
Qed.

Lemma text_norm l : literal_ok l ->
  normalise (literal_text l) = sign_text l ++ base_text (l_base l) ++ body l ++ suffix_text l.
Proof.
  intro Hl. unfold normalise, literal_text, chars.
  rewrite list_ascii_of_string_of_list_ascii.
  set (core := base_text (l_base l) ++ map lchar_text (l_chars l) ++ suffix_text l).
  assert (Hcore : Forall (fun c => is_space c = false) core).
  { unfold core. repeat rewrite Forall_app. split; [|split].
    - destruct (l_base l); repeat constructor.
    - destruct Hl as (H & _). rewrite Forall_map. eapply Forall_impl; [|exact H].
      intros c. apply nonspace_lchar.
    - destruct Hl as (_ & _ & _ & H). unfold suffix_text. destruct (l_suffix l); [|constructor].
      unfold suffixes in H. cbn in H.
      repeat destruct H as [<-|H]; try (repeat constructor). destruct H. }
  assert (Hne : core <> []).
  { unfold core. destruct Hl as (_ & H & _). destruct (l_chars l); [discriminate|].
    destruct (base_text _); discriminate. }
  assert (Hu : forall x, lowercase (unspaced (x ++ core)) =
                 lowercase (unspaced x) ++ base_text (l_base l) ++ body l ++ suffix_text l).
  { intro x. rewrite unspaced_app, lowercase_app. unfold core.
    rewrite !unspaced_app, !lowercase_app, norm_chars, norm_suffix by exact Hl.
    f_equal. f_equal. destruct (l_base l); reflexivity. }
  destruct (last_char _ core Hne Hcore) as (u & d & Eu & Hd).
  unfold sign_text. destruct (l_minus l).
  - rewrite (trim_id _ "-"%char ((if l_space l then [" "%char] else []) ++ core) d
               (("-"%char :: (if l_space l then [" "%char] else [])) ++ u)).
    + rewrite Hu. destruct (l_space l); reflexivity.
    + reflexivity.
    + rewrite Eu, app_assoc. reflexivity.
    + reflexivity.
    + exact Hd.
  - cbn [app]. destruct core as [|c t] eqn:Ec; [congruence|].
    rewrite (trim_id (c :: t) c t d u eq_refl Eu); [apply (Hu [])| | exact Hd].
    now inversion Hcore.
Qed.

(** ** Which characters occur *)
Lemma absent_body c l : literal_ok l ->
  (forall d, Z.of_nat d < base_of (l_base l) -> digit_text d false <> c) -> absent c (body l).
Proof.
  intros Hl H Hi. unfold body in Hi. apply in_map_iff in Hi as (d & E & Hd).
  pose proof (digits_small l Hl) as Hs. rewrite Forall_forall in Hs.
  exact (H d (Hs d Hd) E).
Qed.
Ltac nodigit :=
  let d := fresh "d" in let Hd := fresh "Hd" in
  intros d Hd; cbn in Hd;
  do 16 (destruct d as [|d]; [first [exfalso; lia | intro; discriminate] |]); exfalso; lia.
Lemma base_lt_16 l d : Z.of_nat d < base_of (l_base l) -> (Z.of_nat d < 16).
Proof. pose proof (base_16 (l_base l)). lia. Qed.
Lemma body_absent c l : literal_ok l ->
  (forall d, Z.of_nat d < 16 -> digit_text d false <> c) -> absent c (body l).
Proof. intros Hl H. apply absent_body; [exact Hl|]. intros d Hd. apply H. eapply base_lt_16, Hd. Qed.

Lemma body_ne l : literal_ok l -> body l <> [].
Proof.
  intros (_ & H & _). unfold body, digits. induction (l_chars l) as [|c t IH]; [discriminate|].
  destruct c; [discriminate|]. cbn in H. exact (IH H).
Qed.

(** ** Value of the digits *)
Lemma fold_mono b ds acc : 1 <= b -> 0 <= acc ->
  acc <= fold_left (fun a d => a * b + Z.of_nat d) ds acc.
Proof.
  intros Hb. revert acc. induction ds as [|d ds IH]; intros acc Ha; cbn [fold_left]; [lia|].
  specialize (IH (acc * b + Z.of_nat d)). assert (acc <= acc * b + Z.of_nat d) by nia. lia.
Qed.
Lemma parse_body b ds acc : Forall (small (base_of b)) ds -> 0 <= acc ->
  fold_left (fun a d => a * base_of b + Z.of_nat d) ds acc < 2 ^ 128 ->
  parse_digits (base_of b) acc (map (fun d => digit_text d false) ds) =
  Some (fold_left (fun a d => a * base_of b + Z.of_nat d) ds acc).
Proof.
  intro H. revert acc. induction H as [|d ds Hd _ IH]; intros acc Ha Hv; [reflexivity|].
  cbn [map parse_digits fold_left] in *. unfold small in Hd. rewrite to_digit_text by exact Hd.
  assert (1 <= base_of b) by (destruct b; cbn; lia).
  pose proof (fold_mono (base_of b) ds (acc * base_of b + Z.of_nat d)) as Hm.
  rewrite (proj2 (Z.ltb_lt _ _)) by nia. apply IH; [nia|exact Hv].
Qed.
Lemma radix_body l : literal_ok l -> magnitude l < 2 ^ 128 ->
  from_str_radix (base_of (l_base l)) (body l) = Some (magnitude l).
Proof.
  intros Hl Hv. unfold from_str_radix.
  assert (Hp : absent "+"%char (body l)) by (apply body_absent; [exact Hl|nodigit]).
  pose proof (body_ne l Hl) as Hn.
  destruct (body l) as [|c t] eqn:E; [congruence|].
  destruct (Ascii.eqb_spec c "+"); [exfalso; apply Hp; subst; now left|].
  rewrite <- E. unfold body. apply parse_body; [now apply digits_small|lia|exact Hv].
Qed.

Lemma trim_start_once p r : p <> [] -> starts_with p r = false -> trim_start_matches p (p ++ r) = r.
Proof.
  intros Hp Hr. unfold trim_start_matches. rewrite app_length.
  destruct p as [|c p]; [congruence|]. cbn [List.length Nat.add trim_start_n].
  rewrite strip_prefix_app. unfold starts_with in Hr.
  destruct (strip_prefix (c :: p) r) eqn:E; [discriminate|].
  destruct (List.length p + List.length r)%nat; cbn [trim_start_n]; [reflexivity|]. now rewrite E.
Qed.
Lemma trim_start_none p r : starts_with p r = false -> trim_start_matches p r = r.
Proof.
  unfold trim_start_matches, starts_with. intro H. destruct r; [reflexivity|].
  cbn [List.length trim_start_n]. destruct (strip_prefix p (a :: r)); [discriminate|reflexivity].
Qed.

Lemma helper_body l : literal_ok l -> magnitude l < 2 ^ 128 ->
  parse_integer_helper (base_text (l_base l) ++ body l) = Val (Some (magnitude l)).
Proof.
  intros Hl Hv. pose proof (radix_body l Hl Hv) as Hr.
  assert (Hx : absent "x"%char (body l)) by (apply body_absent; [exact Hl|nodigit]).
  assert (Ho : absent "o"%char (body l)) by (apply body_absent; [exact Hl|nodigit]).
  assert (Hb : l_base l = Hex \/ absent "b"%char (body l)).
  { pose proof (absent_body "b"%char l Hl) as H. revert H. unfold base_of.
    destruct (l_base l); intro H; [right|left; reflexivity|right|right]; apply H; nodigit. }
  unfold parse_integer_helper, parse_prefixed.
  assert (HX : starts_with hex_prefix (body l) = false)
    by (eapply starts_with_absent; [exact Hx|right; now left]).
  assert (HO : starts_with octal_prefix (body l) = false)
    by (eapply starts_with_absent; [exact Ho|right; now left]).
  destruct (l_base l) eqn:Eb; cbn [base_of] in Hr.
  - destruct Hb as [Hb|Hb]; [discriminate|].
    assert (HB : starts_with binary_prefix (body l) = false)
      by (eapply starts_with_absent; [exact Hb|right; now left]).
    change (base_text Dec ++ body l) with (body l). rewrite HX, HB, HO, Hr. reflexivity.
  - change (base_text Hex) with hex_prefix. rewrite starts_with_app, trim_start_once by easy.
    rewrite Hr. reflexivity.
  - change (base_text Oct) with octal_prefix.
    replace (starts_with hex_prefix (octal_prefix ++ body l)) with false by reflexivity.
    replace (starts_with binary_prefix (octal_prefix ++ body l)) with false by reflexivity.
    rewrite starts_with_app, trim_start_once by easy. rewrite Hr. reflexivity.
  - destruct Hb as [Hb|Hb]; [discriminate|].
    assert (HB : starts_with binary_prefix (body l) = false)
      by (eapply starts_with_absent; [exact Hb|right; now left]).
    change (base_text Bin) with binary_prefix.
    replace (starts_with hex_prefix (binary_prefix ++ body l)) with false by reflexivity.
    rewrite starts_with_app, trim_start_once by easy. rewrite Hr. reflexivity.
Qed.

(** ** Suffix *)
Lemma absent_app c a b : absent c a -> absent c b -> absent c (a ++ b).
Proof. intros Ha Hb H. apply in_app_or in H as [H|H]; auto. Qed.
Lemma absent_sign c l : c <> "-"%char -> absent c (sign_text l).
Proof. intros H Hi. unfold sign_text in Hi. destruct (l_minus l); [|destruct Hi].
  destruct Hi as [Hi|[]]. congruence. Qed.
Lemma absent_base c l : ~ In c (chars "0xob") -> absent c (base_text (l_base l)).
Proof. intros H Hi. apply H. unfold base_text in Hi. destruct (l_base l); cbn in *; tauto. Qed.

Lemma suffix_stripped l : literal_ok l ->
  strip_integer_suffix (sign_text l ++ base_text (l_base l) ++ body l ++ suffix_text l) =
  sign_text l ++ base_text (l_base l) ++ body l.
Proof.
  intro Hl. set (pre := sign_text l ++ base_text (l_base l) ++ body l).
  replace (sign_text l ++ base_text (l_base l) ++ body l ++ suffix_text l)
    with (pre ++ suffix_text l) by (unfold pre; now rewrite !app_assoc).
  pose proof Hl as (_ & _ & _ & Hs). unfold suffix_text. unfold strip_integer_suffix.
  destruct (l_suffix l) as [sf|].
  - assert (E : find (fun id => ends_with id (pre ++ chars sf)) integer_identifiers = Some (chars sf)).
    { unfold ends_with. rewrite rev_app_distr. unfold suffixes in Hs. cbn in Hs.
      repeat destruct Hs as [<-|Hs]; try reflexivity. destruct Hs. }
    rewrite E, strip_suffix_app. reflexivity.
  - rewrite app_nil_r.
    assert (Hu : absent "u"%char pre).
    { apply absent_app; [apply absent_sign; discriminate|apply absent_app].
      - apply absent_base. cbn. intuition discriminate.
      - apply body_absent; [exact Hl|nodigit]. }
    assert (Hi : absent "i"%char pre).
    { apply absent_app; [apply absent_sign; discriminate|apply absent_app].
      - apply absent_base. cbn. intuition discriminate.
      - apply body_absent; [exact Hl|nodigit]. }
    assert (E : find (fun id => ends_with id pre) integer_identifiers = None).
    { destruct (find _ _) as [id|] eqn:Ef; [|reflexivity]. apply find_some in Ef as [Hin He].
      exfalso. apply ends_with_true in He as [r Hr].
      assert (Hui : In "u"%char id \/ In "i"%char id).
      { clear - Hin. cbn in Hin.
        repeat destruct Hin as [<-|Hin]; try (left; now left); try (right; now left). destruct Hin. }
      destruct Hui as [H|H]; [apply Hu|apply Hi]; rewrite Hr; apply in_or_app; now right. }
    rewrite E. unfold strip_suffix. cbn [rev strip_prefix]. now rewrite rev_involutive.
Qed.

(** ** No float *)
Lemma rev_nth_digit pre (x y z : nat) l : digits l = pre ++ [x; y; z] ->
  body l = map (fun d => digit_text d false) pre ++ map (fun d => digit_text d false) [x; y; z].
Proof. unfold body. intros ->. now rewrite map_app. Qed.

Lemma digit_of_char b d c : Z.of_nat d < base_of b -> digit_text d false = c ->
  exists n, to_digit 16 c = Some n /\ n = Z.of_nat d.
Proof.
  intros H <-. exists (Z.of_nat d). split; [|reflexivity]. pose proof (base_16 b).
  apply (to_digit_text Hex). cbn. lia.
Qed.
Lemma body_tail l a b c pre : literal_ok l -> body l = pre ++ [a; b; c] ->
  exists p x y z, digits l = p ++ [x; y; z] /\ digit_text x false = a /\
    digit_text y false = b /\ digit_text z false = c.
Proof.
  intros Hl E. unfold body in E.
  assert (Hlen : List.length (digits l) = (List.length pre + 3)%nat)
    by (rewrite <- (map_length (fun d => digit_text d false)), E, app_length; reflexivity).
  set (ds := digits l) in *.
  exists (firstn (List.length pre) ds).
  assert (E2 : map (fun d => digit_text d false) (skipn (List.length pre) ds) = [a; b; c]).
  { rewrite <- skipn_map, E. rewrite skipn_app, skipn_all, Nat.sub_diag. reflexivity. }
  destruct (skipn (List.length pre) ds) as [|x [|y [|z [|]]]] eqn:Es; try discriminate E2.
  cbn in E2. injection E2 as <- <- <-. exists x, y, z. split; [|easy].
  rewrite <- Es. symmetry. apply firstn_skipn.
Qed.
Lemma digit_text_inj b x y : Z.of_nat x < base_of b -> Z.of_nat y < 16 ->
  digit_text x false = digit_text y false -> x = y.
Proof.
  intros Hx Hy E. pose proof (base_16 b).
  assert (H1 : to_digit 16 (digit_text x false) = Some (Z.of_nat x)) by (apply (to_digit_text Hex); cbn; lia).
  assert (H2 : to_digit 16 (digit_text y false) = Some (Z.of_nat y)) by (apply (to_digit_text Hex); cbn; lia).
  rewrite E in H1. rewrite H1 in H2. injection H2. lia.
Qed.

Lemma no_float l : literal_ok l -> ~ float_like l ->
  float_rejected (sign_text l ++ base_text (l_base l) ++ body l ++ suffix_text l) = false.
Proof.
  intros Hl Hf. unfold float_rejected.
  set (s := sign_text l ++ base_text (l_base l) ++ body l ++ suffix_text l).
  pose proof Hl as (_ & _ & _ & Hs).
  assert (Hdot : existsb (Ascii.eqb ".") s = false).
  { destruct (existsb (Ascii.eqb ".") s) eqn:E; [|reflexivity]. exfalso.
    apply existsb_exists in E as (c & Hc & Ec). apply Ascii.eqb_eq in Ec. subst c.
    revert Hc. apply absent_app; [apply absent_sign; discriminate|apply absent_app].
    - apply absent_base. cbn. intuition discriminate.
    - apply absent_app; [apply body_absent; [exact Hl|nodigit]|].
      unfold absent, suffix_text. destruct (l_suffix l) as [sf|]; [|tauto].
      unfold suffixes in Hs. cbn in Hs.
      repeat destruct Hs as [<-|Hs]; try (cbn; intuition discriminate). }
  rewrite Hdot. cbn [orb].
  assert (Hsf : l_suffix l <> None -> existsb (fun id => ends_with id s) float_identifiers = false).
  { intro Hn. unfold s. rewrite !app_assoc. unfold suffix_text.
    destruct (l_suffix l) as [sf|]; [|congruence].
    unfold ends_with. rewrite rev_app_distr. unfold suffixes in Hs. cbn in Hs.
    repeat destruct Hs as [<-|Hs]; try reflexivity; destruct Hs. }
  destruct (l_suffix l) as [sf|] eqn:Esf.
  { rewrite Hsf by discriminate. apply andb_false_r. }
  assert (Es : s = sign_text l ++ base_text (l_base l) ++ body l)
    by (unfold s, suffix_text; rewrite Esf, app_nil_r; reflexivity).
  destruct (starts_with hex_prefix s) eqn:Ehex; [reflexivity|]. cbn [negb andb].
  assert (Hcase : l_base l <> Hex \/ (l_base l = Hex /\ l_minus l = true)).
  { destruct (l_base l) eqn:Eb; try (left; discriminate). right. split; [reflexivity|].
    destruct (l_minus l) eqn:Em; [reflexivity|]. exfalso.
    rewrite Es in Ehex. unfold sign_text in Ehex. rewrite Em in Ehex.
    discriminate Ehex. }
  destruct Hcase as [Hb|(Hb & Hm)].
  - assert (Ha : absent "f"%char s).
    { rewrite Es. apply absent_app; [apply absent_sign; discriminate|apply absent_app].
      - apply absent_base. cbn. intuition discriminate.
      - apply absent_body; [exact Hl|]. destruct (l_base l); [|congruence| |]; nodigit. }
    unfold float_identifiers. cbn [existsb].
    rewrite !(ends_with_absent "f"%char _ s) by (first [exact Ha | now left]). reflexivity.
  - pose proof (digits_small l Hl) as Hsm.
    assert (Hno : forall a b c : nat, (a < 16)%nat -> (b < 16)%nat -> (c < 16)%nat ->
       (forall pre, digits l <> pre ++ [a; b; c]) ->
       a = 15%nat ->
       ends_with [digit_text a false; digit_text b false; digit_text c false] s = false).
    { intros a b c La Lb Lc Hno Ea. destruct (ends_with _ s) eqn:E; [|reflexivity]. exfalso.
      apply ends_with_true in E as [r Er]. rewrite Es in Er.
      unfold sign_text in Er. rewrite Hm, Hb in Er.
      change (["-"%char] ++ base_text Hex ++ body l) with (["-"; "0"; "x"]%char ++ body l) in Er.
      assert (Hlong : exists r', body l = r' ++ [digit_text a false; digit_text b false; digit_text c false]).
      { destruct r as [|c0 [|c1 [|c2 r]]].
        - exfalso. cbn in Er. injection Er as E1 E2 E3 _. subst a. discriminate E1.
        - exfalso. cbn in Er. injection Er as E1 E2 E3 _. subst a. discriminate E2.
        - exfalso. cbn in Er. injection Er as E1 E2 E3 _. subst a. discriminate E3.
        - exists r. cbn in Er. injection Er as _ _ _ E. exact E. }
      destruct Hlong as [r' Er']. apply (body_tail l _ _ _ r' Hl) in Er' as (p & x & y & z & Ed & Ex & Ey & Ez).
      apply (Hno p). rewrite Ed in *. apply Forall_app in Hsm as [_ Hsm].
      inversion Hsm as [|? ? Hx Hsm1]; subst. inversion Hsm1 as [|? ? Hy Hsm2]; subst.
      inversion Hsm2 as [|? ? Hz _]; subst.
      apply (digit_text_inj (l_base l)) in Ex; [|exact Hx|lia].
      apply (digit_text_inj (l_base l)) in Ey; [|exact Hy|lia].
      apply (digit_text_inj (l_base l)) in Ez; [|exact Hz|lia].
      congruence. }
    unfold float_identifiers. cbn [existsb].
    change (chars "f32") with [digit_text 15 false; digit_text 3 false; digit_text 2 false].
    change (chars "f64") with [digit_text 15 false; digit_text 6 false; digit_text 4 false].
    rewrite (Hno 15 3 2)%nat; [|lia|lia|lia| |reflexivity].
    2:{ intros pre E. apply Hf. repeat split; try assumption. exists pre. now left. }
    rewrite (Hno 15 6 4)%nat; [|lia|lia|lia| |reflexivity].
    2:{ intros pre E. apply Hf. repeat split; try assumption. exists pre. now right. }
    reflexivity.
Qed.

Lemma not_boolean l : literal_ok l ->
  parse_boolean (sign_text l ++ base_text (l_base l) ++ body l ++ suffix_text l) = None.
Proof.
  intro Hl. pose proof (body_ne l Hl) as Hn.
  assert (Hh : absent "t"%char (body l)) by (apply body_absent; [exact Hl|nodigit]).
  assert (Hx : l_base l = Dec -> absent "f"%char (body l)).
  { intro E. apply absent_body; [exact Hl|]. rewrite E. nodigit. }
  unfold parse_boolean, sign_text. destruct (l_minus l); [reflexivity|].
  destruct (l_base l) eqn:Eb; try reflexivity. cbn [base_text chars list_ascii_of_string app].
  specialize (Hx eq_refl).
  destruct (body l) as [|c t]; [congruence|]. cbn [app str_eqb chars list_ascii_of_string].
  destruct (Ascii.eqb_spec c "t"); [exfalso; apply Hh; subst; now left|].
  destruct (Ascii.eqb_spec c "f"); [exfalso; apply Hx; subst; now left|].
  reflexivity.
Qed.

(** ** The theorem *)

(** C44: for every integer literal of Rust below 2^128 (except [float_like]
    texts) the macro works with exactly the magnitude and sign of the literal. *)
Theorem C44_literal_value (l : literal) :
  literal_ok l -> magnitude l < 2 ^ 128 -> ~ float_like l ->
  exists n neg, const_expr_new (literal_text l) = POk (CLit n neg) /\
    n = Z.abs (literal_value l) /\ (neg = true <-> l_minus l = true).
Proof.
  intros Hl Hv Hf. exists (magnitude l), (l_minus l). split; [|split; [|reflexivity]].
  2:{ unfold literal_value. assert (0 <= magnitude l).
      { unfold magnitude. apply fold_mono; [destruct (l_base l); cbn; lia|lia]. }
      destruct (l_minus l); lia. }
  unfold const_expr_new. rewrite text_norm by exact Hl.
  rewrite no_float, not_boolean by assumption.
  unfold parse_integer. rewrite suffix_stripped by exact Hl.
  assert (Hd : absent "-"%char (base_text (l_base l) ++ body l)).
  { apply absent_app; [apply absent_base; cbn; intuition discriminate|].
    apply body_absent; [exact Hl|nodigit]. }
  assert (Hsw : starts_with (chars "-") (base_text (l_base l) ++ body l) = false)
    by (eapply starts_with_absent; [exact Hd|now left]).
  unfold strip_negative_sign, is_negative, sign_text.
  destruct (l_minus l).
  - change (["-"%char] ++ base_text (l_base l) ++ body l)
      with (chars "-" ++ base_text (l_base l) ++ body l).
    rewrite trim_start_once by easy. rewrite helper_body by assumption. reflexivity.
  - cbn [app]. rewrite trim_start_none by exact Hsw. rewrite helper_body by assumption.
    cbn [bind]. rewrite Hsw. reflexivity.
Qed.

(** The boolean literals. *)
Theorem C44_bool_literals :
  const_expr_new "true" = POk (CLit 1 false) /\ const_expr_new "false" = POk (CLit 0 false).
Proof. split; reflexivity. Qed.

Example C44_ex :
  let l := mkLit true true Hex [LDigit 15 true; LUnder; LDigit 3 false; LDigit 10 true] (Some "i32"%string) in
  literal_ok l /\ literal_text l = "- 0xF_3Ai32"%string /\ literal_value l = -3898 /\
  magnitude l < 2 ^ 128 /\ ~ float_like l /\
  const_expr_new (literal_text l) = POk (CLit 3898 true).
Proof.
  repeat split; try reflexivity; try (vm_compute; tauto).
  - repeat constructor.
  - intros (_ & _ & H & _). discriminate H.
Qed.

(** The full statement is false: the float check is made on the text with its
    minus sign, so it takes the hexadecimal digits [f32] for a type suffix. *)
Theorem C44_negative_hex_refuted :
  exists l, literal_ok l /\ magnitude l < 2 ^ 128 /\ literal_text l = "-0x1f32"%string /\
    const_expr_new (literal_text l) = PErr tt.
Proof.
  exists (mkLit true false Hex [LDigit 1 false; LDigit 15 false; LDigit 3 false; LDigit 2 false] None).
  repeat split; try reflexivity; try (repeat constructor).
Qed.
(** The same digits without the sign are accepted. *)
Example C44_positive_hex : const_expr_new "0x1f32" = POk (CLit 7986 false).
Proof. reflexivity. Qed.

(** ** Defaults that are expressions *)

(** C49: a default that is an expression (not a literal) is not looked at by the
    macro but left to rustc.  False in three ways: an expression that begins with
    a prefixed literal makes the macro panic; an identifier that ends in [f32] or
    [f64] is reported as a float; so is everything that contains a dot (a method
    call). *)
Theorem C49_prefixed_expression_refuted :
  const_expr_new "0x10 | 1" = PPanic /\ const_expr_new "0b1 << 3" = PPanic /\
  const_expr_new "0xF0 as u8" = PPanic.
Proof. repeat split; reflexivity. Qed.
Theorem C49_identifier_refuted :
  const_expr_new "Mode :: F32" = PErr tt /\ const_expr_new "KINDS . len ()" = PErr tt.
Proof. repeat split; reflexivity. Qed.

(** Holds when, after removing spaces, underscores, an integer suffix and minus
    signs and ignoring case, the text does not begin with [0x], [0b] or [0o], has
    no dot and does not end in [f32]/[f64]: the macro then never fails. *)
Theorem C49_expression_partial (text : string) :
  let s := normalise text in
  (forall p, In p ["0x"; "0b"; "0o"]%string ->
     forall r, strip_negative_sign (strip_integer_suffix s) <> chars p ++ r) ->
  ~ In "."%char s ->
  (forall r, s <> r ++ chars "f32" /\ s <> r ++ chars "f64") ->
  exists c, const_expr_new text = POk c.
Proof.
  intros s Hp Hd Hf. unfold const_expr_new. fold s.
  assert (Hff : float_rejected s = false).
  { unfold float_rejected. destruct (existsb (Ascii.eqb ".") s) eqn:E.
    { apply existsb_exists in E as (c & Hc & Ec). apply Ascii.eqb_eq in Ec. subst. contradiction. }
    cbn [orb float_identifiers existsb].
    destruct (ends_with (chars "f32") s) eqn:E1.
    { apply ends_with_true in E1 as [r Hr]. destruct (Hf r). contradiction. }
    destruct (ends_with (chars "f64") s) eqn:E2.
    { apply ends_with_true in E2 as [r Hr]. destruct (Hf r). contradiction. }
    apply andb_false_r. }
  rewrite Hff. destruct (parse_boolean s); [eauto|].
  unfold parse_integer, parse_integer_helper.
  assert (Hn : forall p, In p ["0x"; "0b"; "0o"]%string ->
     starts_with (chars p) (strip_negative_sign (strip_integer_suffix s)) = false).
  { intros p Hi. destruct (starts_with _ _) eqn:E; [|reflexivity].
    apply starts_with_true in E as [r Hr]. exfalso. exact (Hp p Hi r Hr). }
  unfold hex_prefix, binary_prefix, octal_prefix.
  rewrite !Hn by (cbn; tauto). cbn [bind].
  destruct (from_str_radix 10 _); eauto.
Qed.
Example C49_ex :
  let s := normalise "1 << 3u8" in
  s = chars "1<<3u8" /\
  (forall p, In p ["0x"; "0b"; "0o"]%string ->
     forall r, strip_negative_sign (strip_integer_suffix s) <> chars p ++ r) /\
  ~ In "."%char s /\ (forall r, s <> r ++ chars "f32" /\ s <> r ++ chars "f64") /\
  const_expr_new "1 << 3u8" = POk CPath.
Proof.
  split; [reflexivity|]. split; [|split; [|split]].
  - intros p Hp r. cbn in Hp. repeat destruct Hp as [<-|Hp]; try discriminate. destruct Hp.
  - vm_compute. intuition discriminate.
  - intro r. split; intro H; apply (f_equal (@rev ascii)) in H; rewrite rev_app_distr in H;
      vm_compute in H; discriminate H.
  - reflexivity.
Qed.
