(** Theorems about the generated documentation: C63. *)
From Coq Require Import ZArith List Bool Lia String Ascii.
From Verif Require Import RustInt Syntax GenInt GenArr Gen Spec BitsLemmas CoreLemmas GenLemmas
  ConvLemmas BitOpLemmas Examples PropFields PropConv ConstExpr PropExact Surface Hist Docs.
Import ListNotations.
Open Scope Z_scope.

(** ** What a documentation text says *)

(** A decimal number. *)
Definition decimal_text (s : string) (z : Z) : Prop :=
  exists ds, ds <> [] /\ Forall2 (digit_char 10) ds (list_ascii_of_string s) /\ z = digits_value 10 ds.
Definition unquoted (s : string) : Prop := ~ In "`"%char (list_ascii_of_string s).

Open Scope string_scope.
(** The first quoted passage of the text is a range [`a..=b`], or a single
    number. *)
Definition documents (doc : string) (a b : Z) : Prop :=
  exists pre A B post, unquoted pre /\ decimal_text A a /\ decimal_text B b /\
    (doc = pre ++ "`" ++ A ++ "..=" ++ B ++ "`" ++ post \/ A = B /\ doc = pre ++ "`" ++ A ++ "`" ++ post).
Close Scope string_scope.

(** Bit [i] lies between two documented numbers, whatever their order. *)
Definition between (a b i : Z) : Prop := a <= i <= b \/ b <= i <= a.

(** The functions generated for a field. *)
Definition field_fn (r : role) : Prop := ~ In r [RWidth; ROffset; RWhole].

(** ** Lemmas on strings *)

Lemma chars_app a b : list_ascii_of_string (a ++ b)%string = list_ascii_of_string a ++ list_ascii_of_string b.
Proof. induction a; cbn; [reflexivity|]. f_equal. assumption. Qed.
Lemma chars_inj a b : list_ascii_of_string a = list_ascii_of_string b -> a = b.
Proof. intro H. rewrite <- (string_of_list_ascii_of_string a), H. apply string_of_list_ascii_of_string. Qed.

Lemma digits_snoc ds d : digits_value 10 (ds ++ [d]) = digits_value 10 ds * 10 + d.
Proof. unfold digits_value. rewrite fold_left_app. reflexivity. Qed.
Lemma digit_ok d : 0 <= d < 10 -> Forall2 (digit_char 10) [d] (list_ascii_of_string (digit d)).
Proof.
  intro Hd. constructor; [|constructor]. split; [exact Hd|].
  assert (H : exists n, d = Z.of_nat n /\ (n < 10)%nat) by (exists (Z.to_nat d); lia).
  destruct H as (n & -> & Hn). do 10 (destruct n as [|n]; [left; reflexivity|]). lia.
Qed.
Lemma decimal_digit d : 0 <= d < 10 -> decimal_text (digit d) d.
Proof. intro Hd. exists [d]. split; [discriminate|]. split; [apply digit_ok, Hd|]. reflexivity. Qed.
Lemma show_ok n : forall z, 0 <= z < 2 ^ Z.of_nat (S n) -> decimal_text (show n z) z.
Proof.
  induction n as [|n IH]; intros z Hz.
  - cbn in Hz. unfold show. rewrite Z.mod_small by lia. apply decimal_digit. lia.
  - cbn [show]. assert (Hm : 0 <= z mod 10 < 10) by (apply Z.mod_pos_bound; lia).
    destruct (Z.ltb_spec z 10).
    + rewrite Z.mod_small by lia. apply decimal_digit. lia.
    + destruct (IH (z / 10)) as (ds & H1 & H2 & H3).
      { split; [apply Z.div_pos; lia|]. apply Z.div_lt_upper_bound; [lia|].
        rewrite (Nat2Z.inj_succ (S n)), Z.pow_succ_r in Hz by lia. lia. }
      exists (ds ++ [z mod 10]). split; [destruct ds; discriminate|].
      split; [rewrite chars_app; apply Forall2_app; [exact H2|apply digit_ok, Hm]|].
      rewrite digits_snoc, <- H3. rewrite Z.mul_comm. apply Z.div_mod. lia.
Qed.
Lemma decimal_ok z : 0 <= z -> decimal_text (decimal z) z.
Proof.
  intro Hz. apply show_ok. split; [exact Hz|]. rewrite Nat2Z.inj_succ, Z2Nat.id by apply Z.log2_nonneg.
  destruct (Z.eq_dec z 0) as [->|]; [reflexivity|]. apply Z.log2_spec. lia.
Qed.

(** The text is read in one way only. *)
Lemma digit_char_fun d d' c : digit_char 10 d c -> digit_char 10 d' c -> d = d'.
Proof.
  intros H H'. apply to_digit_spec in H; [|cbn; tauto]. apply to_digit_spec in H'; [|cbn; tauto]. congruence.
Qed.
Lemma decimal_chars s z : decimal_text s z ->
  Forall (fun c => c <> "`"%char /\ c <> "."%char) (list_ascii_of_string s).
Proof.
  intros (ds & _ & H & _). induction H as [|d c ds cs H HF IH]; constructor; [|exact IH].
  apply to_digit_spec in H; [|cbn; tauto].
  split; intros ->; vm_compute in H; discriminate H.
Qed.
Lemma decimal_fun s z z' : decimal_text s z -> decimal_text s z' -> z = z'.
Proof.
  intros (ds & _ & H & ->) (ds' & _ & H' & ->). f_equal. revert ds' H'.
  induction H as [|d c ds cs H HF IH]; intros ds' H'; inversion H' as [|d' ? ds'' ? H1 H2]; subst; [reflexivity|].
  f_equal; [eapply digit_char_fun; eassumption|apply IH, H2].
Qed.
Lemma cut (P : ascii -> Prop) l : forall l' c c' r r',
  Forall P l -> Forall P l' -> ~ P c -> ~ P c' -> l ++ c :: r = l' ++ c' :: r' -> l = l' /\ c = c' /\ r = r'.
Proof.
  induction l as [|x l IH]; intros [|x' l'] c c' r r' H H' Hc Hc' E; cbn in E; injection E as -> E.
  - auto.
  - inversion H'; contradiction.
  - inversion H; contradiction.
  - inversion_clear H. inversion_clear H'. destruct (IH l' c c' r r') as (-> & -> & ->); auto.
Qed.

Theorem C63_unambiguous doc a b a' b' : documents doc a b -> documents doc a' b' -> a = a' /\ b = b'.
Proof.
  intros (pre & A & B & post & Hp & HA & HB & E) (pre' & A' & B' & post' & Hp' & HA' & HB' & E').
  pose proof (decimal_chars _ _ HA) as CA. pose proof (decimal_chars _ _ HA') as CA'.
  pose proof (decimal_chars _ _ HB) as CB. pose proof (decimal_chars _ _ HB') as CB'.
  assert (First : forall s s' x x', unquoted s -> unquoted s' ->
    (s ++ "`" ++ x = s' ++ "`" ++ x')%string -> x = x').
  { intros s s' x x' Hs Hs' He. apply (f_equal list_ascii_of_string) in He. rewrite !chars_app in He.
    change (list_ascii_of_string "`") with ["`"%char] in He. cbn [app] in He.
    destruct (cut (fun c => c <> "`"%char) (list_ascii_of_string s) (list_ascii_of_string s') "`" "`"
      (list_ascii_of_string x) (list_ascii_of_string x')) as (_ & _ & Hx); auto.
    - apply Forall_forall. intros c Hc ->. contradiction.
    - apply Forall_forall. intros c Hc ->. contradiction.
    - apply chars_inj, Hx. }
  set (Q := fun c : ascii => c <> "`"%char /\ c <> "."%char) in *.
  assert (Second : forall s s' c c' x x', Forall Q (list_ascii_of_string s) -> Forall Q (list_ascii_of_string s') ->
    ~ Q c -> ~ Q c' -> (s ++ String c x = s' ++ String c' x')%string -> s = s' /\ c = c' /\ x = x').
  { intros s s' c c' x x' Hs Hs' Hc Hc' He. apply (f_equal list_ascii_of_string) in He.
    rewrite !chars_app in He. cbn [list_ascii_of_string] in He.
    destruct (cut Q _ _ _ _ _ _ Hs Hs' Hc Hc' He) as (H1 & H2 & H3). auto using chars_inj. }
  assert (N1 : ~ Q "`"%char) by (intros [H _]; apply H; reflexivity).
  assert (N2 : ~ Q "."%char) by (intros [_ H]; apply H; reflexivity).
  destruct E as [E|[-> E]], E' as [E'|[-> E']]; rewrite E in E'; apply First in E'; auto;
    cbn [String.append] in E'; apply Second in E'; auto; destruct E' as (H1 & H2 & H3); try discriminate H2; subst.
  - injection H3 as H3. apply Second in H3; auto. destruct H3 as (-> & _).
    split; eapply decimal_fun; eassumption.
  - split; eapply decimal_fun; eassumption.
Qed.

Lemma append_assoc (a b c : string) : ((a ++ b) ++ c = a ++ (b ++ c))%string.
Proof. induction a; cbn; [reflexivity|]. f_equal. assumption. Qed.
Definition unquotedb (s : string) : bool := forallb (fun c => negb (Ascii.eqb c "`")) (list_ascii_of_string s).
Lemma unquotedb_ok s : unquotedb s = true -> unquoted s.
Proof. unfold unquotedb, unquoted. rewrite forallb_forall. intros H Hin. apply H in Hin. discriminate Hin. Qed.

Lemma range_doc pre bf f post : unquotedb pre = true -> 1 <= f_bits f -> 0 <= f_off f ->
  documents (pre ++ doc_bits bf f ++ post)%string (fst (doc_range bf f)) (snd (doc_range bf f)).
Proof.
  intros Hp Hb Ho. exists pre, (decimal (fst (doc_range bf f))), (decimal (snd (doc_range bf f))), post.
  split; [apply unquotedb_ok, Hp|].
  split; [apply decimal_ok; unfold doc_range; destruct (a_order (b_args bf)); cbn [fst]; lia|].
  split; [apply decimal_ok; unfold doc_range; destruct (a_order (b_args bf)); cbn [snd]; lia|].
  left. unfold doc_bits. rewrite !append_assoc. reflexivity.
Qed.
Lemma single_doc pre k post : unquotedb pre = true -> 0 <= k ->
  documents (pre ++ "`" ++ decimal k ++ "`" ++ post)%string k k.
Proof.
  intros Hp Hk. exists pre, (decimal k), (decimal k), post. split; [apply unquotedb_ok, Hp|].
  split; [apply decimal_ok, Hk|]. split; [apply decimal_ok, Hk|]. right. auto.
Qed.
(** ** C63 *)

(** The documentation of every function of a field names the positions of the
    field, from the highest down when the declaration order is msb first. *)
Theorem C63_bits bf f r :
  bf_ok bf -> In f (b_fields bf) -> field_fn r ->
  exists a b, documents (item_doc bf r f) a b /\
    (forall i, between a b i <-> covers f i) /\
    (a_order (b_args bf) = Lsb -> a <= b) /\ (a_order (b_args bf) = Msb -> b <= a).
Proof.
  intros Hbf Hin Hr. pose proof (bf_ok_field bf f Hbf Hin) as (Hb & Ho & _).
  set (x := if f_bits f =? 1 then (f_off f, f_off f) else doc_range bf f).
  exists (fst x), (snd x). split.
  - assert (Hu : unit_terms f = ("bit", "bits")%string \/ unit_terms f = ("byte", "bytes")%string)
      by (unfold unit_terms; destruct (f_ty f); auto).
    unfold x. clear x.
    destruct r; try (exfalso; apply Hr; cbn; tauto); unfold item_doc, getter_doc, setter_doc, verb_doc;
      destruct Hu as [-> | ->]; destruct (f_bits f =? 1); cbn [fst snd];
      try (destruct (dt_unsigned (f_ty f)));
      lazymatch goal with
      | |- documents _ (f_off f) (f_off f) =>
          first
          [ apply (single_doc "Returns bit ") | apply (single_doc "Returns byte ")
          | apply (single_doc "Returns sign-extended bit ") | apply (single_doc "Returns sign-extended byte ")
          | apply (single_doc "Sets  bit ") | apply (single_doc "Sets  byte ")
          | apply (single_doc "Sets builder bit ") | apply (single_doc "Sets builder byte ")
          | apply (single_doc "Clears bit ") | apply (single_doc "Clears byte ")
          | apply (single_doc "Inverts bit ") | apply (single_doc "Inverts byte ") ]
      | |- _ =>
          first
          [ apply (range_doc "Returns bits ") | apply (range_doc "Returns bytes ")
          | apply (range_doc "Returns sign-extended bits ") | apply (range_doc "Returns sign-extended bytes ")
          | apply (range_doc "Sets  bits ") | apply (range_doc "Sets  bytes ")
          | apply (range_doc "Sets builder bits ") | apply (range_doc "Sets builder bytes ")
          | apply (range_doc "Clears bits ") | apply (range_doc "Clears bytes ")
          | apply (range_doc "Inverts bits ") | apply (range_doc "Inverts bytes ") ]
      end; solve [reflexivity | lia].
  - unfold x, between, covers, doc_range. destruct (Z.eqb_spec (f_bits f) 1), (a_order (b_args bf)); cbn [fst snd];
      (split; [intro i; lia|]); split; intro E; try discriminate E; lia.
Qed.

(** So whatever numbers a reader finds there are the positions of the field. *)
Lemma documented_covers bf f r a b i : bf_ok bf -> In f (b_fields bf) -> field_fn r ->
  documents (item_doc bf r f) a b -> (between a b i <-> covers f i).
Proof.
  intros Hbf Hin Hr Hd. destruct (C63_bits bf f r Hbf Hin Hr) as (a' & b' & Hd' & H & _).
  destruct (C63_unambiguous _ _ _ _ _ Hd Hd') as [-> ->]. apply H.
Qed.

(** Two states that differ at most in bit [i]. *)
Definition differ_only (i : Z) (s s' : store) : Prop := forall j, 0 <= j -> j <> i -> sbit s j = sbit s' j.

Lemma bit_state bf i : bf_ok bf -> 0 <= i < ty_size (b_ty bf) ->
  exists s0 s1, store_ok bf s0 /\ store_ok bf s1 /\ (forall j, 0 <= j -> sbit s0 j = false) /\
    (forall j, 0 <= j -> sbit s1 j = (i =? j)).
Proof.
  intros Hbf Hi. pose proof Hbf as (Hbk & _).
  assert (R0 : in_range bf 0) by (apply in_range_0, Hbk).
  assert (R1 : in_range bf (2 ^ i)).
  { split; [apply Z.pow_nonneg; lia|]. apply Z.pow_lt_mono_r; lia. }
  exists (store_of bf 0), (store_of bf (2 ^ i)).
  split; [apply of_ok; assumption|]. split; [apply of_ok; assumption|]. unfold sbit. rewrite !sval_of by assumption.
  split; [intros j _; apply Z.bits_0|]. intros j _. apply testbit_pow2. lia.
Qed.

Lemma decode_inj bf f r r' : field_ok bf f -> lossless f ->
  0 <= r < 2 ^ f_bits f -> 0 <= r' < 2 ^ f_bits f -> decode f r = decode f r' -> r = r'.
Proof.
  intros (Hb & Ho & He & Hw & _) Hl Hr Hr' H. unfold decode, width_ok, lossless in *. destf f t len Et.
  - destruct (ity_unsigned t) eqn:Eu.
    + destruct t; try discriminate Eu; try (inversion H; reflexivity).
      rewrite Hw in *. inversion H as [H0].
      destruct (Z.eqb_spec r 0), (Z.eqb_spec r' 0); try discriminate H0; lia.
    + assert (Hs2 : signed_of (f_bits f) r = signed_of (f_bits f) r')
        by (destruct t; try discriminate Eu; inversion H; reflexivity).
      rewrite <- (signed_of_mod (f_bits f) r), <- (signed_of_mod (f_bits f) r') by lia.
      rewrite Hs2. reflexivity.
  - injection H as H. apply (f_equal le_val) in H. rewrite !le_val_bytes, pow256 in H by lia.
    destruct Hw as [Hw _]. assert (Hlen : 0 <= len) by lia. rewrite Z2Nat.id in H by exact Hlen.
    assert (2 ^ f_bits f <= 2 ^ (8 * len)) by (apply pow2_le; lia).
    rewrite !Z.mod_small in H by lia. exact H.
  - injection H as H. rewrite <- (Hl r Hr), <- (Hl r' Hr'), H. reflexivity.
Qed.

(** The getter: the documented bits are exactly those its result depends on. *)
Theorem C63_getter m bf f a b i :
  bf_ok bf -> In f (b_fields bf) -> lossless f -> documents (item_doc bf RGetter f) a b ->
  0 <= i < ty_size (b_ty bf) ->
  (between a b i <->
   exists s s', store_ok bf s /\ store_ok bf s' /\ differ_only i s s' /\ get_field m bf f s <> get_field m bf f s').
Proof.
  intros Hbf Hin Hl Hd Hi.
  rewrite (documented_covers bf f RGetter a b i Hbf Hin ltac:(intros [|[|[|[]]]]; discriminate) Hd).
  pose proof (bf_ok_field bf f Hbf Hin) as Hf. split.
  - intro Hc. destruct (bit_state bf i Hbf Hi) as (s0 & s1 & H0 & H1 & B0 & B1).
    exists s0, s1. split; [exact H0|]. split; [exact H1|]. split.
    + intros j Hj Hne. rewrite B0, B1 by exact Hj. symmetry. apply Z.eqb_neq. lia.
    + rewrite !C05_get_is_decode by assumption. intro E. injection E as E.
      pose proof Hf as (Hb & Ho & _).
      apply (decode_inj bf) in E; try assumption; try (apply slice_bound; lia).
      apply (f_equal (fun z => Z.testbit z (i - f_off f))) in E. unfold raw in E. unfold covers in Hc.
      rewrite !slice_spec in E by lia. destruct (Z.ltb_spec (i - f_off f) (f_bits f)); [|lia]. cbn [andb] in E.
      replace (i - f_off f + f_off f) with i in E by lia. fold (sbit s0 i) in E. fold (sbit s1 i) in E.
      rewrite B0, B1, Z.eqb_refl in E by lia. discriminate E.
  - intros (s & s' & Hs & Hs' & Hdiff & Hne).
    destruct (Z_le_dec (f_off f) i), (Z_lt_dec i (f_off f + f_bits f)); try (unfold covers; lia);
      exfalso; apply Hne, (C05_get_depends_only m bf f s s'); try assumption;
      intros j Hj; destruct Hf as (Hb & Ho & _); unfold covers in Hj; apply Hdiff; lia.
Qed.

(** [op] may change bit [i] of the state. *)
Definition may_change (bf : bitfield) (op : store -> outcome store) (i : Z) : Prop :=
  exists s s', store_ok bf s /\ op s = Val s' /\ sbit s' i <> sbit s i.

(** The setter and the builder setter: the documented bits are exactly those some
    call changes. *)
Theorem C63_setter m bf f r a b i :
  bf_ok bf -> In f (b_fields bf) -> lossless f -> In r [RSetter; RWith] -> documents (item_doc bf r f) a b ->
  0 <= i < ty_size (b_ty bf) ->
  (between a b i <-> exists x, has_type f x /\ may_change bf (set_field m bf f x) i).
Proof.
  intros Hbf Hin Hl Hr Hd Hi.
  rewrite (documented_covers bf f r a b i Hbf Hin) by
    first [exact Hd | intro Hr'; cbn in Hr, Hr'; destruct r; intuition discriminate].
  split.
  - intro Hc. destruct (bit_state bf i Hbf Hi) as (s0 & _ & H0 & _).
    destruct (C21_invert_is_set_inverted m bf f s0 Hbf Hin H0) as (x & _ & Hx & E).
    destruct (C21_invert_field m bf f s0 Hbf Hin H0 Hl) as (s' & E' & _ & H).
    exists x. split; [exact Hx|]. exists s0, s'. split; [exact H0|]. split; [congruence|].
    rewrite (proj1 (H i Hi) Hc). destruct (sbit s0 i); discriminate.
  - intros (x & Hx & s & s' & Hs & E & Hne).
    destruct (C04_set_other_bits m bf f x s Hbf Hin Hs Hx) as (s'' & E' & H).
    rewrite E in E'. injection E' as <-.
    destruct (Z_le_dec (f_off f) i), (Z_lt_dec i (f_off f + f_bits f)); try (unfold covers; lia);
      exfalso; apply Hne, H; unfold covers; lia.
Qed.

(** [invert_x()] and [clear_x()]. *)
Theorem C63_invert m bf f a b i :
  bf_ok bf -> In f (b_fields bf) -> lossless f -> documents (item_doc bf RInvert f) a b ->
  0 <= i < ty_size (b_ty bf) -> (between a b i <-> may_change bf (invert_field m bf f) i).
Proof.
  intros Hbf Hin Hl Hd Hi.
  rewrite (documented_covers bf f RInvert a b i Hbf Hin ltac:(intros [|[|[|[]]]]; discriminate) Hd). split.
  - intro Hc. destruct (bit_state bf i Hbf Hi) as (s0 & _ & H0 & _).
    destruct (C21_invert_field m bf f s0 Hbf Hin H0 Hl) as (s' & E' & _ & H).
    exists s0, s'. split; [exact H0|]. split; [exact E'|].
    rewrite (proj1 (H i Hi) Hc). destruct (sbit s0 i); discriminate.
  - intros (s & s' & Hs & E & Hne).
    destruct (C21_invert_field m bf f s Hbf Hin Hs Hl) as (s'' & E' & _ & H).
    rewrite E in E'. injection E' as <-.
    destruct (Z_le_dec (f_off f) i), (Z_lt_dec i (f_off f + f_bits f)); try (unfold covers; lia);
      exfalso; apply Hne, H; unfold covers; lia.
Qed.
Theorem C63_clear m bf f a b i :
  bf_ok bf -> In f (b_fields bf) -> zero_canonical f -> documents (item_doc bf RClear f) a b ->
  0 <= i < ty_size (b_ty bf) -> (between a b i <-> may_change bf (clear_field m bf f) i).
Proof.
  intros Hbf Hin Hl Hd Hi.
  rewrite (documented_covers bf f RClear a b i Hbf Hin ltac:(intros [|[|[|[]]]]; discriminate) Hd). split.
  - intro Hc. destruct (bit_state bf i Hbf Hi) as (_ & s1 & _ & H1 & _ & B1).
    destruct (C12_clear_field m bf f s1 Hbf Hin H1 Hl) as (s' & E' & _ & H & _).
    exists s1, s'. split; [exact H1|]. split; [exact E'|].
    rewrite B1, Z.eqb_refl by lia. pose proof (bf_ok_field bf f Hbf Hin) as (Hb & Ho & _). unfold covers in Hc.
    apply (f_equal (fun z => Z.testbit z (i - f_off f))) in H. unfold raw in H.
    rewrite slice_spec, Z.bits_0 in H by lia. destruct (Z.ltb_spec (i - f_off f) (f_bits f)); [|lia]. cbn [andb] in H.
    replace (i - f_off f + f_off f) with i in H by lia. unfold sbit. rewrite H. discriminate.
  - intros (s & s' & Hs & E & Hne).
    destruct (C12_clear_field m bf f s Hbf Hin Hs Hl) as (s'' & E' & _ & _ & H).
    rewrite E in E'. injection E' as <-.
    destruct (Z_le_dec (f_off f) i), (Z_lt_dec i (f_off f + f_bits f)); try (unfold covers; lia);
      exfalso; apply Hne, H; unfold covers; lia.
Qed.

(** Non-vacuity: documentation of fields of [ex_int] and [ex_arr], and msb order. *)
Example C63_ex :
  item_doc ex_int RGetter ex_a = "Returns bits `0..=4`."%string /\
  item_doc ex_int RGetter ex_b = "Returns sign-extended bits `5..=8`, from the sign-bit `5."%string /\
  item_doc ex_int RClear ex_c = "Clears bit `9`."%string /\
  item_doc ex_arr RCheckedSetter ax_b =
    "Sets  bits `8..=17`. Returns an error if the value is too big to fit within the field bits."%string /\
  item_doc (mkBitfield VisPublic "ExInt" (DInteger U16) (b_fields ex_int) []
    (mkArgs Msb Big Big Big true true true true true true true true true false true false true false true false true false false))
    RWith ex_b = "Sets builder bits `8..=5`."%string /\
  documents (item_doc ex_int RGetter ex_b) 5 8 /\ covers ex_b 5 /\ covers ex_b 8 /\ ~ covers ex_b 9 /\
  bf_ok ex_int /\ In ex_b (b_fields ex_int) /\ lossless ex_b /\ zero_canonical ex_b.
Proof.
  split; [vm_compute; reflexivity|]. split; [vm_compute; reflexivity|]. split; [vm_compute; reflexivity|].
  split; [vm_compute; reflexivity|]. split; [vm_compute; reflexivity|].
  split; [apply (range_doc "Returns sign-extended bits " ex_int ex_b); [reflexivity|discriminate|discriminate]|].
  split; [vm_compute; split; congruence|]. split; [vm_compute; split; congruence|].
  split; [intros [_ H]; vm_compute in H; discriminate H|]. split; [apply ex_int_ok|]. split; [right; left; reflexivity|].
  split; exact I.
Qed.

(** *** Announced errors *)

Definition announces_error (doc : string) : Prop := exists pre post, doc = (pre ++ "Returns an error" ++ post)%string.

Lemma without (c : ascii) doc :
  forallb (fun x => negb (Ascii.eqb x c)) (list_ascii_of_string doc) = true ->
  In c (list_ascii_of_string "Returns an error") -> ~ announces_error doc.
Proof.
  intros H Hc (pre & post & ->). rewrite forallb_forall in H. rewrite !chars_app in H.
  specialize (H c ltac:(apply in_or_app; right; apply in_or_app; left; exact Hc)).
  rewrite Ascii.eqb_refl in H. discriminate H.
Qed.
Lemma without_app (c : ascii) a b :
  forallb (fun x => negb (Ascii.eqb x c)) (list_ascii_of_string (a ++ b)) =
  (forallb (fun x => negb (Ascii.eqb x c)) (list_ascii_of_string a) &&
   forallb (fun x => negb (Ascii.eqb x c)) (list_ascii_of_string b))%bool.
Proof. rewrite chars_app. apply forallb_app. Qed.
Lemma without_digit (c : ascii) d : In c ["a"; "o"]%char -> 0 <= d < 10 ->
  forallb (fun x => negb (Ascii.eqb x c)) (list_ascii_of_string (digit d)) = true.
Proof.
  intros Hc Hd. assert (H : exists n, d = Z.of_nat n /\ (n < 10)%nat) by (exists (Z.to_nat d); lia).
  destruct H as (n & -> & Hn).
  do 10 (destruct n as [|n]; [destruct Hc as [<-|[<-|[]]]; reflexivity|]). lia.
Qed.
Lemma without_show (c : ascii) n : In c ["a"; "o"]%char -> forall z,
  forallb (fun x => negb (Ascii.eqb x c)) (list_ascii_of_string (show n z)) = true.
Proof.
  intros Hc. induction n as [|n IH]; intro z; cbn [show].
  - apply without_digit; [exact Hc|]. apply Z.mod_pos_bound. lia.
  - rewrite without_app. destruct (z <? 10); rewrite ?IH, without_digit; auto; apply Z.mod_pos_bound; lia.
Qed.

(** Exactly the checked functions announce an error, except those of a [bool]. *)
Theorem C63_announced bf f r : bf_ok bf -> In f (b_fields bf) -> field_fn r ->
  (announces_error (item_doc bf r f) <-> In r [RCheckedSetter; RCheckedWith] /\ f_ty f <> DInteger TBool).
Proof.
  intros Hbf Hin Hr. pose proof (bf_ok_field bf f Hbf Hin) as (_ & _ & _ & Hw & _).
  split.
  - intro H. assert (D : In r [RCheckedSetter; RCheckedWith] /\ f_ty f <> DInteger TBool \/
      (~ In r [RCheckedSetter; RCheckedWith] \/ f_ty f = DInteger TBool)).
    { destruct r; cbn [In]; destruct (f_ty f) as [[]| |]; intuition discriminate. }
    destruct D as [D|D]; [exact D|]. exfalso.
    assert (W : forall c k, In c ["a"; "o"]%char ->
      forallb (fun x => negb (Ascii.eqb x c)) (list_ascii_of_string (decimal k)) = true)
      by (intros c k Hc; apply without_show, Hc).
    assert (A : In "a"%char ["a"; "o"]%char) by (left; reflexivity).
    assert (O : In "o"%char ["a"; "o"]%char) by (right; left; reflexivity).
    revert H. unfold item_doc, getter_doc, setter_doc, verb_doc, doc_bits, unit_terms, width_ok in *.
    destruct r; try (exfalso; apply Hr; cbn; tauto);
      (destruct D as [D|D];
       [ try (exfalso; apply D; cbn; tauto); destruct (f_ty f) as [t| |]; cbn [dt_unsigned andb];
         destruct (f_bits f =? 1); try destruct (ity_unsigned t)
       | rewrite D in Hw |- *; rewrite Hw; cbn [dt_unsigned ity_unsigned andb]; change (1 =? 1) with true ]);
      first [ apply (without "a"); [|vm_compute; repeat first [left; reflexivity|right]]; rewrite !without_app, !W by assumption; reflexivity
            | apply (without "o"); [|vm_compute; repeat first [left; reflexivity|right]]; rewrite !without_app, !W by assumption; reflexivity ].
  - intros [Hc Hne].
    assert (E : exists pre post, item_doc bf r f = (pre ++ ". Returns an error" ++ post)%string).
    { assert (Hb : match f_ty f with DInteger TBool => false | _ => true end = true)
        by (destruct (f_ty f) as [[]| |]; try reflexivity; congruence).
      destruct Hc as [<-|[<-|[]]]; unfold item_doc, setter_doc; rewrite Hb;
        destruct (unit_terms f) as [u us]; cbn [andb]; destruct (f_bits f =? 1).
      - exists ("Sets  " ++ u ++ " `" ++ decimal (f_off f) ++ "`")%string. eexists. rewrite !append_assoc. reflexivity.
      - exists ("Sets  " ++ us ++ " " ++ doc_bits bf f)%string. eexists. rewrite !append_assoc. reflexivity.
      - exists ("Sets builder " ++ u ++ " `" ++ decimal (f_off f) ++ "`")%string. eexists. rewrite !append_assoc. reflexivity.
      - exists ("Sets builder " ++ us ++ " " ++ doc_bits bf f)%string. eexists. rewrite !append_assoc. reflexivity. }
    destruct E as (pre & post & ->). exists (pre ++ ". ")%string, post. rewrite append_assoc. reflexivity.
Qed.

(** So a function that can fail says so. *)
Theorem C63_error m bf f x s e :
  bf_ok bf -> In f (b_fields bf) ->
  (forall s', checked_set_field m bf f x s = Val (s', Err e) -> announces_error (item_doc bf RCheckedSetter f)) /\
  (checked_with_field m bf f x s = Val (Err e) -> announces_error (item_doc bf RCheckedWith f)).
Proof.
  intros Hbf Hin.
  assert (K : forall y s', f_ty f = DInteger TBool -> assign_arg m bf true f y s <> Val (s', Err e)).
  { intros y s' Et. unfold assign_arg, has_post_check. rewrite Et. cbn [dt_unsigned ity_unsigned negb andb].
    destruct (extract_cast m bf f y) as [[[? ?] ?]|]; cbn [bind]; [|discriminate].
    destruct (put m bf f _ s); cbn [bind]; [|discriminate]. intro E. inversion E. }
  split.
  - intros s' E. apply C63_announced; try assumption; [intros [|[|[|[]]]]; discriminate|].
    split; [left; reflexivity|]. intro Et. exact (K x s' Et E).
  - intro E. apply C63_announced; try assumption; [intros [|[|[|[]]]]; discriminate|].
    split; [right; left; reflexivity|]. intro Et. unfold checked_with_field, checked_set_field in E.
    destruct (has_setter f).
    + destruct (assign_arg m bf true f (builder_arg f x) s) as [[s' [|e']]|] eqn:E'; cbn [bind snd fst] in E; try discriminate E.
      inversion E; subst. exact (K _ _ Et E').
    + destruct (assign_arg m bf true f x s) as [[s' [|e']]|] eqn:E'; cbn [bind snd fst] in E; try discriminate E.
      inversion E; subst. exact (K _ _ Et E').
Qed.

(** The converse fails: a [u8] of eight bits announces an error that no call returns. *)
Theorem C63_error_refuted : exists bf f, bf_ok bf /\ In f (b_fields bf) /\
  announces_error (item_doc bf RCheckedSetter f) /\
  forall m x s, store_ok bf s -> has_type f x -> exists s', checked_set_field m bf f x s = Val (s', Ok tt).
Proof.
  exists (mkBitfield VisPublic "B" (DInteger U8) [rw "a" (DInteger U8) 8 0] [] default_args), (rw "a" (DInteger U8) 8 0).
  assert (Hbf : bf_ok (mkBitfield VisPublic "B" (DInteger U8) [rw "a" (DInteger U8) 8 0] [] default_args))
    by (apply bf_okb_ok; vm_compute; reflexivity).
  split; [exact Hbf|]. split; [left; reflexivity|]. split.
  - apply C63_announced; [exact Hbf|left; reflexivity|intros [|[|[|[]]]]; discriminate|].
    split; [left; reflexivity|discriminate].
  - intros m x s Hs Hx. destruct (C07_exact m _ _ x s Hbf (or_introl eq_refl) Hs Hx) as [H _].
    destruct H as (s' & _ & H).
    + apply C07_fits_passes; [exact Hbf|left; reflexivity|exact Hx|]. destruct x; cbn in Hx |- *; try contradiction. exact Hx.
    + exists s'. exact H.
Qed.

Example C63_error_ex : bf_ok ex_int /\ In ex_a (b_fields ex_int) /\
  checked_set_field Checked ex_int ex_a (VInt 32) (StI 0) = Val (StI 0, Err msg_too_big) /\
  announces_error (item_doc ex_int RCheckedSetter ex_a) /\ ~ announces_error (item_doc ex_int RSetter ex_a).
Proof.
  split; [apply ex_int_ok|]. split; [left; reflexivity|]. split; [vm_compute; reflexivity|]. split.
  - apply C63_announced; [apply ex_int_ok|left; reflexivity|intros [|[|[|[]]]]; discriminate|].
    split; [left; reflexivity|discriminate].
  - intro H. apply C63_announced in H; [|apply ex_int_ok|left; reflexivity|intros [|[|[|[]]]]; discriminate].
    destruct H as [[|[|[]]] _]; discriminate.
Qed.

(** *** The first word *)

Open Scope string_scope.
Definition begins (verb doc : string) : Prop := exists rest, doc = verb ++ " " ++ rest.
(** It tells readers, setters, clearing and inverting functions apart. *)
Theorem C63_verb bf f r : field_fn r ->
  (begins "Returns" (item_doc bf r f) <-> r = RGetter) /\
  (begins "Sets" (item_doc bf r f) <-> In r [RSetter; RCheckedSetter; RWith; RCheckedWith]) /\
  (begins "Clears" (item_doc bf r f) <-> In r [RClear; RClearDefault]) /\
  (begins "Inverts" (item_doc bf r f) <-> In r [RInvert; RInverted]).
Proof.
  intro Hr. unfold begins.
  assert (Hu : unit_terms f = ("bit", "bits") \/ unit_terms f = ("byte", "bytes"))
    by (unfold unit_terms; destruct (f_ty f); auto).
  destruct r; try (exfalso; apply Hr; cbn; tauto); unfold item_doc, getter_doc, setter_doc, verb_doc;
    destruct Hu as [-> | ->]; destruct (f_bits f =? 1)%Z; try destruct (dt_unsigned (f_ty f));
    repeat split; cbn [In];
    first [ intros (rest & E); discriminate E
          | intro H; exfalso; intuition discriminate
          | intros _; eexists; reflexivity
          | intros _; tauto ].
Qed.
(** But [x_inverted()] is announced like [invert_x()], with the same words, and
    changes nothing. *)
Theorem C63_inverted_refuted m bf f s s' b :
  item_doc bf RInverted f = item_doc bf RInvert f /\
  (step m bf (OInverted f) s = Val (s', b) -> s' = s).
Proof.
  split; [reflexivity|]. cbn [step]. destruct (inverted_field m bf f s); cbn [bind]; [|discriminate].
  intro E. injection E as <- _. reflexivity.
Qed.
(** The texts of the constants, for all fields but arrays (for these see
    [C63_unit_refuted]). *)
Theorem C63_constants bf f : (forall n, f_ty f <> DArray n) ->
  item_doc bf RWidth f = "The number of bits `" ++ f_name f ++ "` occupies in the bitfield." /\
  item_doc bf ROffset f = "The bit offset of `" ++ f_name f ++ "` in the bitfield.".
Proof.
  intro H. unfold item_doc, bits_constant_doc, offset_constant_doc, unit_terms.
  destruct (f_ty f) as [| n |]; try (split; reflexivity). exfalso. apply (H n). reflexivity.
Qed.
Example C63_verb_ex : begins "Sets" (item_doc ex_int RCheckedSetter ex_b) /\ ~ begins "Returns" (item_doc ex_int RClear ex_b) /\
  (exists s' b, step Checked ex_int (OInverted ex_b) (StI 0) = Val (s', b)) /\
  item_doc ex_int ROffset ex_b = "The bit offset of `b` in the bitfield.".
Proof.
  split; [eexists; vm_compute; reflexivity|]. split; [intros (r & E); discriminate E|].
  split; [eexists; eexists; vm_compute; reflexivity|]. vm_compute. reflexivity.
Qed.
Close Scope string_scope.

(** *** What the documentation gets wrong *)

(** The sign of a signed field is its highest bit ... *)
Theorem C63_sign m bf f t s z :
  bf_ok bf -> In f (b_fields bf) -> store_ok bf s -> f_ty f = DInteger t -> ity_unsigned t = false ->
  get_field m bf f s = Val (VInt z) -> (z < 0 <-> sbit s (f_off f + f_bits f - 1) = true).
Proof.
  intros Hbf Hin Hs Et Eu. rewrite C05_get_is_decode by assumption. unfold decode. rewrite Et, Eu. intro E.
  assert (Ez : z = signed_of (f_bits f) (raw s f)) by (destruct t; try discriminate Eu; inversion E; reflexivity).
  pose proof (bf_ok_field bf f Hbf Hin) as (Hb & Ho & _). subst z. clear E.
  pose proof (slice_bound (sval s) (f_off f) (f_bits f) ltac:(lia)) as B. fold (raw s f) in B.
  assert (Hbit : sbit s (f_off f + f_bits f - 1) = Z.testbit (raw s f) (f_bits f - 1)).
  { unfold raw. rewrite slice_spec by lia. destruct (Z.ltb_spec (f_bits f - 1) (f_bits f)); [|lia]. cbn [andb].
    unfold sbit. f_equal. lia. }
  rewrite Hbit. unfold signed_of. rewrite Z.testbit_true by lia.
  assert (P : 2 ^ f_bits f = 2 * 2 ^ (f_bits f - 1)) by (rewrite <- Z.pow_succ_r by lia; f_equal; lia).
  assert (0 < 2 ^ (f_bits f - 1)) by (apply pow2_pos; lia).
  destruct (Z.ltb_spec (raw s f) (2 ^ (f_bits f - 1))).
  - rewrite Z.div_small by lia. split; [lia|]. intro H'. discriminate H'.
  - replace (raw s f / 2 ^ (f_bits f - 1)) with 1; [split; [reflexivity|lia]|].
    apply (Z.div_unique_pos (raw s f) (2 ^ (f_bits f - 1)) 1 (raw s f - 2 ^ (f_bits f - 1))); lia.
Qed.

Open Scope string_scope.
(** ... but the documentation of every signed getter calls the lowest one the
    sign bit (with an unclosed quote). *)
Theorem C63_sign_bit_refuted bf f t :
  bf_ok bf -> In f (b_fields bf) -> f_ty f = DInteger t -> ity_unsigned t = false -> f_bits f <> 1%Z ->
  exists pre K, decimal_text K (f_off f) /\
    item_doc bf RGetter f = pre ++ ", from the sign-bit `" ++ K ++ "." /\
    (f_off f <> f_off f + f_bits f - 1)%Z.
Proof.
  intros Hbf Hin Et Eu Hne. pose proof (bf_ok_field bf f Hbf Hin) as (Hb & Ho & _).
  exists ("Returns sign-extended bits " ++ doc_bits bf f), (decimal (f_off f)).
  split; [apply decimal_ok; lia|]. split; [|lia].
  unfold item_doc, getter_doc, unit_terms. rewrite Et. cbn [dt_unsigned]. rewrite Eu.
  apply Z.eqb_neq in Hne. rewrite Hne, append_assoc. reflexivity.
Qed.

(** The constant [X_BITS] of an array field is documented as a number of bytes,
    and its functions as acting on bytes with the numbers of its bits. *)
Theorem C63_unit_refuted :
  exists bf f n, bf_ok bf /\ In f (b_fields bf) /\ f_ty f = DArray n /\
    item_doc bf RWidth f = "The number of bytes `" ++ f_name f ++ "` occupies in the bitfield." /\
    f_bits f <> n /\
    item_doc bf RGetter f = "Returns bytes `8..=23`." /\ ty_size (b_ty bf) = (8 * 3)%Z.
Proof.
  exists (mkBitfield VisPublic "B" (DArray 3) [rw "h" (DInteger U8) 8 0; rw "t" (DArray 2) 16 8] [] default_args),
    (rw "t" (DArray 2) 16 8), 2%Z.
  split; [apply bf_okb_ok; vm_compute; reflexivity|]. split; [right; left; reflexivity|].
  split; [reflexivity|]. split; [reflexivity|]. split; [discriminate|]. split; [vm_compute; reflexivity|]. reflexivity.
Qed.
Close Scope string_scope.
