(** C61: from the text of a literal default to the value the emitted code returns. *)
From Coq Require Import ZArith List Bool String Lia.
From Verif Require Import RustInt Syntax Spec SpecDecl Rust Surface Emit EmitVocab PropLit PropDefault SpecEmit PropEmit.
From Verif Require Gen Hist ConstExpr Parser PropParse Examples CoreLemmas PropConv PropBitflag ParserLoop.
Import ListNotations.
Open Scope string_scope.
Open Scope list_scope.
Open Scope Z_scope.

(** ** The expression a literal is

    The macro parses and prints the text unchanged (const_expr.rs:209-230). *)
Definition suffix_ty (s : string) : option ty :=
  match find (fun p => String.eqb (fst p) s)
    [("u8", TI U8); ("u16", TI U16); ("u32", TI U32); ("u64", TI U64); ("u128", TI U128); ("usize", TUsize);
     ("i8", TI I8); ("i16", TI I16); ("i32", TI I32); ("i64", TI I64); ("i128", TI I128)] with
  | Some p => Some (snd p)
  | None => None
  end.
Definition literal_expr (l : literal) : expr :=
  let e := ELit (magnitude l) (match l_suffix l with Some s => suffix_ty s | None => None end) in
  if l_minus l then EUn UNeg e else e.
(** Literals of Rust.v ([isize] is not one of its types). *)
Definition literal_in (l : literal) : Prop := literal_ok l /\ l_suffix l <> Some "isize".

(** The type rules of Rust.v applied to the place where the template of a default
    puts the literal give the value C33 is stated with. *)
Theorem C61_literal_value bf f t l : backing_ok (b_ty bf) -> f_ty f = DInteger t -> t <> TBool -> literal_in l ->
  dval bf f (literal_expr l) = option_map PInt (emitted_literal bf f l).
Proof.
  intros Hb Hf Ht ((_ & _ & _ & Hs) & Hi). unfold dval, emitted_literal, literal_type, literal_expr, literal_value.
  rewrite Hf. set (mag := magnitude l) in *. clearbody mag.
  destruct (l_suffix l) as [s|].
  - cbn in Hs. repeat destruct Hs as [<-|Hs]; try contradiction; try (elim Hi; reflexivity);
      destruct (has_setter f), (l_minus l), t; try (elim Ht; reflexivity);
      destruct (b_ty bf) as [[]| |]; try reflexivity; destruct Hb as [Hb Hb']; discriminate Hb || (elim Hb'; reflexivity).
  - destruct (has_setter f), (l_minus l), t; try (elim Ht; reflexivity);
      destruct (b_ty bf) as [[]| |]; try reflexivity; destruct Hb as [Hb Hb']; discriminate Hb || (elim Hb'; reflexivity).
Qed.

(** ** Declarations whose defaults are literals *)

Definition literal_default (bf : bitfield) (dx : field -> expr) (r : Parser.rfield) (f : field) : Prop :=
  (exists t l z, f_ty f = DInteger t /\ t <> TBool /\ last_arg "default" r = Some (literal_text l) /\ literal_in l /\
     dx f = literal_expr l /\ emitted_literal bf f l = Some z /\ Parser.r_value r = PInt z) \/
  (exists b : bool, f_ty f = DInteger TBool /\ last_arg "default" r = Some (if b then "true" else "false") /\
     dx f = EBool b /\ Parser.r_value r = PBool b).
Definition literal_defaults (dx : field -> expr) (d : Parser.rdecl) (bf : bitfield) : Prop :=
  forall k r f, nth_error (active d) k = Some r -> nth_error (b_fields bf) k = Some f ->
    last_arg "default" r <> None -> literal_default bf dx r f.
(** The part of [surroundings] that is not about defaults. *)
Definition types_ok (bf : bitfield) : Prop :=
  (forall f len, In f (b_fields bf) -> f_ty f = DArray len -> len < 2 ^ 32) /\
  (forall f, In f (b_fields bf) -> codec_ok f) /\
  (forall f g, In f (b_fields bf) -> In g (b_fields bf) -> f_ty f = DCustom -> f_ty g = DCustom ->
     f_name f = f_name g -> f_codec f = f_codec g).

Lemma literal_dval bf dx r f : backing_ok (b_ty bf) -> literal_default bf dx r f -> dval bf f (dx f) = Some (Parser.r_value r).
Proof.
  intros Hb [(t & l & z & Hf & Ht & _ & Hl & -> & E & ->)|(b & Hf & _ & -> & ->)].
  - rewrite (C61_literal_value bf f t l Hb Hf Ht Hl), E. reflexivity.
  - unfold dval. rewrite Hf. destruct (has_setter f), b; reflexivity.
Qed.

Lemma literal_surroundings m F d bf dx : Parser.parse_bitfield m F d = ConstExpr.POk bf -> fits_u32 m bf -> bf_ok bf ->
  types_ok bf -> literal_defaults dx d bf -> surroundings dx bf.
Proof.
  intros H Hfit Hok (T1 & T2 & T3) HD. constructor; try assumption. intros f p Hin Hp.
  pose proof (ParserLoop.parse_inv m F d bf H Hfit) as (_ & _ & _ & _ & _ & _ & _ & _ & Hacc & _).
  destruct (In_nth_error _ _ Hin) as (k & Hk).
  destruct (PropBitflag.Forall2_nth_r _ _ _ _ _ Hacc Hk) as (r & Hr & Ha).
  destruct Ha as [_ Hmatch _ _ _ _ _]. destruct Hmatch as (_ & _ & _ & _ & _ & _ & Hfd & _).
  assert (Hl : last_arg "default" r <> None) by (intros E; rewrite E in Hfd; congruence).
  rewrite (literal_dval bf dx r f (proj1 Hok) (HD k r f Hr Hk Hl)).
  destruct (last_arg "default" r); [congruence|elim Hl; reflexivity].
Qed.

(** ** The claim *)

Section New.
Context (m : mode) (F : Parser.features) (d : Parser.rdecl) (bf : bitfield) (dx : field -> expr) (mg : mode) (fuel depth : nat).
Context (HA : accepted_distinct F d bf) (HP : Parser.parse_bitfield m F d = ConstExpr.POk bf) (HU : fits_u32 m bf)
  (Hok : bf_ok bf) (HT : types_ok bf) (HD : literal_defaults dx d bf) (Hfu : 2 ^ 32 < Z.of_nat fuel) (Hde : (3 <= depth)%nat).

Lemma new_runs s : a_new (b_args bf) = true -> Gen.new_bf mg bf = Val s -> store_ok bf s ->
  invoke dx bf mg fuel depth (Hist.ONew true) RU = Some (Val (RU, enc_store s)).
Proof using All.
  intros Hn E Hs. pose proof (literal_surroundings m F d bf dx HP HU Hok HT HD) as SR.
  pose proof (C60_step F d bf dx mg fuel depth (Hist.ONew true) s HA Hok SR Hfu Hde Hn I Hs) as H.
  cbn [Hist.step] in H. unfold Hist.ret in H. rewrite E in H. cbn [bind] in H. destruct H as (v & H & Hv). cbn [shows] in Hv. subst v. exact H.
Qed.
Lemma get_runs f s v : In f (b_fields bf) -> has_getter f = true -> store_ok bf s -> Gen.get_field mg bf f s = Val v ->
  invoke dx bf mg fuel depth (Hist.OGet f) (enc_store s) = Some (Val (enc_fval v, enc_store s)).
Proof using All.
  intros Hin Hg Hs E. pose proof (literal_surroundings m F d bf dx HP HU Hok HT HD) as SR.
  pose proof (C60_step F d bf dx mg fuel depth (Hist.OGet f) s HA Hok SR Hfu Hde Hg Hin Hs) as H.
  cbn [Hist.step] in H. rewrite E in H. cbn [bind] in H. destruct H as (w & H & Hv). cbn [shows] in Hv. subst w. exact H.
Qed.
End New.

(** [B::new()] runs, and the getter of a field whose default is the literal [l]
    returns the value of [l] (for a signed field as in C33). *)
Theorem C61_new_returns_literal m F d bf dx mg fuel depth k r f t l z :
  accepted_distinct F d bf -> Parser.parse_bitfield m F d = ConstExpr.POk bf -> fits_u32 m bf -> bf_ok bf ->
  types_ok bf -> literal_defaults dx d bf -> 2 ^ 32 < Z.of_nat fuel -> (3 <= depth)%nat ->
  a_new (b_args bf) = true ->
  nth_error (active d) k = Some r -> nth_error (b_fields bf) k = Some f -> has_getter f = true ->
  f_ty f = DInteger t -> t <> TBool ->
  last_arg "default" r = Some (literal_text l) -> literal_in l -> magnitude l < 2 ^ 128 -> - 2 ^ 127 <= literal_value l ->
  emitted_literal bf f l = Some z -> Parser.r_value r = PInt z -> literal_kept bf f l ->
  exists self v, invoke dx bf mg fuel depth (Hist.ONew true) RU = Some (Val (RU, self)) /\
    invoke dx bf mg fuel depth (Hist.OGet f) self = Some (Val (RI v, self)) /\
    (ity_unsigned t = true -> v = literal_value l) /\
    (ity_unsigned t = false ->
       - 2 ^ (f_bits f - 1) <= v < 2 ^ (f_bits f - 1) /\
       (v - literal_value l) mod 2 ^ f_bits f = 0 /\
       (literal_value l <= 2 ^ (f_bits f - 1) - 1 -> v = literal_value l)).
Proof.
  intros HA HP HU Hok HT HD Hfu Hde Hn Hr Hf Hg Ht Htb Hd (Hl & Hi) Hm Hlo He Hv Hk.
  destruct (C33_int_default_partial m F d bf k r f t l mg z HP HU Hok Hr Hf Ht Htb Hd Hl Hm Hlo He Hv Hk)
    as (s & v & Es & Eg & Hu & Hsg).
  assert (Hs : store_ok bf s) by (destruct (PropConv.C11_new mg bf Hok) as (s' & Es' & Hs' & _); congruence).
  exists (enc_store s), v. split; [apply (new_runs m F d bf dx mg fuel depth HA HP HU Hok HT HD Hfu Hde s Hn Es Hs)|].
  split; [|split; assumption].
  apply (get_runs m F d bf dx mg fuel depth HA HP HU Hok HT HD Hfu Hde f s (VInt v) (nth_error_In _ _ Hf) Hg Hs Eg).
Qed.

Theorem C61_new_returns_bool m F d bf dx mg fuel depth k r f (b : bool) :
  accepted_distinct F d bf -> Parser.parse_bitfield m F d = ConstExpr.POk bf -> fits_u32 m bf -> bf_ok bf ->
  types_ok bf -> literal_defaults dx d bf -> 2 ^ 32 < Z.of_nat fuel -> (3 <= depth)%nat ->
  a_new (b_args bf) = true ->
  nth_error (active d) k = Some r -> nth_error (b_fields bf) k = Some f -> has_getter f = true ->
  f_ty f = DInteger TBool -> last_arg "default" r = Some (if b then "true" else "false") -> Parser.r_value r = PBool b ->
  exists self, invoke dx bf mg fuel depth (Hist.ONew true) RU = Some (Val (RU, self)) /\
    invoke dx bf mg fuel depth (Hist.OGet f) self = Some (Val (RB b, self)).
Proof.
  intros HA HP HU Hok HT HD Hfu Hde Hn Hr Hf Hg Ht Hd Hv.
  destruct (C33_bool_default m F d bf k r f b mg HP HU Hok Hr Hf Ht Hd Hv) as (s & Es & Eg).
  assert (Hs : store_ok bf s) by (destruct (PropConv.C11_new mg bf Hok) as (s' & Es' & Hs' & _); congruence).
  exists (enc_store s). split; [apply (new_runs m F d bf dx mg fuel depth HA HP HU Hok HT HD Hfu Hde s Hn Es Hs)|].
  apply (get_runs m F d bf dx mg fuel depth HA HP HU Hok HT HD Hfu Hde f s (VBool b) (nth_error_In _ _ Hf) Hg Hs Eg).
Qed.

(** With such defaults everything the macro emits for the bitfield type checks
    (for the builder see C59). *)
Theorem C61_type_checks m F d bf dx : accepted_distinct F d bf -> Parser.parse_bitfield m F d = ConstExpr.POk bf -> fits_u32 m bf ->
  bf_ok bf -> types_ok bf -> literal_defaults dx d bf ->
  (forall i, In i (impl_fns dx bf) -> checks dx bf true i) /\
  (forall own i, In (own, i) (trait_fns dx bf) -> checks dx bf own i).
Proof.
  intros HA HP HU Hok HT HD.
  destruct (C59_type_checks F d bf dx HA Hok (literal_surroundings m F d bf dx HP HU Hok HT HD)) as (A & B & _). split; assumption.
Qed.

(** ** A case *)

Definition text_decl : Parser.rdecl :=
  Parser.mkRDecl true VisPublic "D" (Some (Parser.RPath "u64")) [("new", "true")] (Parser.d_fields def_decl).
Definition text_dx (f : field) : expr :=
  match find (fun p => String.eqb (fst p) (f_name f)) [("b", lit_b); ("c", lit_c); ("d", lit_d); ("_r", lit_r)] with
  | Some p => literal_expr (snd p)
  | None => EBool true
  end.
Ltac literal_case :=
  split; [reflexivity|]; split; [discriminate|]; split; [vm_compute; reflexivity|];
  split; [split; [repeat apply conj; try exact I; try discriminate; repeat constructor; try discriminate | discriminate]|];
  split; [vm_compute; reflexivity|]; split; vm_compute; reflexivity.
Example C61_ex :
  let bf := parsed text_decl in
  accepted_distinct PropParse.no_feature text_decl bf /\ Parser.parse_bitfield Checked PropParse.no_feature text_decl = ConstExpr.POk bf /\
  bf_ok bf /\ types_ok bf /\ literal_defaults text_dx text_decl bf /\ a_new (b_args bf) = true /\
  has_getter (named bf "c") = true /\
  invoke text_dx bf Checked 100 3 (Hist.ONew true) RU = Some (Val (RU, RI 15413279453605789549)) /\
  invoke text_dx bf Checked 100 3 (Hist.OGet (named bf "c")) (RI 15413279453605789549) = Some (Val (RI (-3), RI 15413279453605789549)).
Proof.
  intros bf. split.
  { eapply (plain_distinct Checked); [vm_compute; reflexivity|vm_compute; reflexivity| |].
    - intros r Hr. apply PropNames.plainb_spec. each Hr; vm_compute; reflexivity.
    - apply PropNames.nodupb_spec. vm_compute. reflexivity. }
  split; [vm_compute; reflexivity|]. split; [apply Examples.bf_okb_ok; vm_compute; reflexivity|].
  split. { split; [|split].
    - intros f len Hf E. each Hf; discriminate E.
    - intros f Hf E. each Hf; discriminate E.
    - intros f g Hf _ E. each Hf; discriminate E. }
  split.
  { intros k r f Hr Hf _. subst bf. vm_compute in Hr, Hf.
    destruct k as [|[|[|[|[|k]]]]]; [injection Hr as <-; injection Hf as <-..|destruct k; discriminate Hr].
    - left. exists U16, lit_b, 5. literal_case.
    - left. exists I8, lit_c, (-3). literal_case.
    - left. exists U64, lit_d, (-2). literal_case.
    - left. exists U32, lit_r, 11259375. literal_case.
    - right. exists true. repeat (split; [reflexivity|]). reflexivity. }
  split; [vm_compute; reflexivity|]. split; [vm_compute; reflexivity|]. split; vm_compute; reflexivity.
Qed.

(** The macro accepts more: a negative literal on a signed field without a setter
    passes all its checks, and the emitted [new] does not type check (the template
    negates the literal at the unsigned backing type). *)
Definition no_setter_decl : Parser.rdecl :=
  Parser.mkRDecl true VisPublic "N" (Some (Parser.RPath "u8")) [("new", "true")]
    [PropParse.fld "a" (Parser.AList (Parser.RBits 8 "") [("default", "-3"); ("access", "ro")]) (Parser.RPath "i8") (PInt (-3))].
Theorem C61_negative_refuted :
  let bf := parsed no_setter_decl in let dx := fun _ : field => literal_expr lit_c in
  accepted_distinct PropParse.no_feature no_setter_decl bf /\ bf_ok bf /\ types_ok bf /\ literal_in lit_c /\
  exists i, In i (impl_fns dx bf) /\ fn_name i = "new" /\ check_fn (emitted dx bf) true i = None.
Proof.
  intros bf dx. split.
  { eapply (plain_distinct Checked); [vm_compute; reflexivity|vm_compute; reflexivity| |].
    - intros r Hr. apply PropNames.plainb_spec. each Hr; vm_compute; reflexivity.
    - apply PropNames.nodupb_spec. vm_compute. reflexivity. }
  split; [apply Examples.bf_okb_ok; vm_compute; reflexivity|].
  split. { split; [|split].
    - intros f len Hf E. each Hf; discriminate E.
    - intros f Hf E. each Hf; discriminate E.
    - intros f g Hf _ E. each Hf; discriminate E. }
  split. { split; [|discriminate]. repeat apply conj; try exact I; try discriminate; repeat constructor; try discriminate. }
  exists (new_fn dx bf). split; [|split; vm_compute; reflexivity].
  left. reflexivity.
Qed.
