(** C33: accepted literal defaults are read back from a new bitfield. *)
From Coq Require Import ZArith List Bool String Ascii Lia.
From Verif Require Import RustInt Syntax ConstExpr Parser Gen Spec SpecDecl BitsLemmas Examples PropFields PropConv
  PropLit ParserLemmas ParserLoop PropArgs PropParse.
Import ListNotations.
Open Scope Z_scope.

(** Float-like texts are rejected, so they never occur in accepted declarations. *)
Lemma float_like_rejected l : literal_ok l -> float_like l -> const_expr_new (literal_text l) = PErr tt.
Proof.
  intros Hl (Hm & Hb & Hs & pre & Hd). unfold const_expr_new. rewrite text_norm by exact Hl.
  set (s := _ ++ _). replace (float_rejected s) with true; [reflexivity|].
  unfold s, float_rejected, sign_text, suffix_text, body. rewrite Hm, Hb, Hs.
  symmetry. apply andb_true_intro. split; [reflexivity|]. apply orb_true_intro. right.
  apply existsb_exists. rewrite app_nil_r.
  destruct Hd as [-> | ->]; [exists (chars "f32")|exists (chars "f64")]; (split; [cbn; auto|]);
    rewrite map_app, !app_assoc; apply ends_with_app.
Qed.

Lemma magnitude_nonneg l : 0 <= magnitude l.
Proof. unfold magnitude. apply (fold_mono (base_of (l_base l)) (digits l) 0); [destruct (l_base l); cbn; lia|lia]. Qed.

(** ** What rustc makes of the literal

    The generated code contains the text of the default (const_expr.rs:209-230
    parses and prints it unchanged) in one of three positions (GH =
    generating/bitfield/features/common/generator_helper.rs):

    - field with a setter: [this.set_x(LIT as _)] (GH:596).  The cast does not
      tell rustc the type of the literal, so that an unsuffixed literal has
      rustc's fallback type [i32];
    - no setter, integer backing: [let field_bits = LIT;] used as
      [field_bits & mask] with [mask] of the backing type (GH:721-723);
    - no setter, array backing: [LIT as u128] (GH:677), which makes an unsuffixed
      literal a [u128].

    A suffix determines the type in every position.  A literal outside the range
    of its type is truncated (the deny-by-default lint against it is not reported
    for code whose spans come from an attribute macro).  [None]: rustc rejects
    the code (type mismatch, or negation of an unsigned type). *)
Definition suffix_type (s : string) : bool * Z :=   (* signed, width; usize has 64 bits *)
  match find (fun p => String.eqb (fst p) s)
    [("u8", (false, 8)); ("u16", (false, 16)); ("u32", (false, 32)); ("u64", (false, 64));
     ("u128", (false, 128)); ("usize", (false, 64)); ("i8", (true, 8)); ("i16", (true, 16));
     ("i32", (true, 32)); ("i64", (true, 64)); ("i128", (true, 128)); ("isize", (true, 64))]%string with
  | Some p => snd p
  | None => (true, 32)
  end.
Definition literal_type (bf : bitfield) (f : field) (l : literal) : bool * Z :=
  match l_suffix l with
  | Some s => suffix_type s
  | None => if has_setter f then (true, 32)
            else (false, match b_ty bf with DInteger t => ity_bits t | _ => 128 end)
  end.
Definition in_type (ty : bool * Z) (z : Z) : Prop :=
  if fst ty then - 2 ^ (snd ty - 1) <= z < 2 ^ (snd ty - 1) else 0 <= z < 2 ^ snd ty.
Definition truncate (ty : bool * Z) (z : Z) : Z :=
  if fst ty then scast (snd ty) z else ucast (snd ty) z.
Definition emitted_literal (bf : bitfield) (f : field) (l : literal) : option Z :=
  let ty := literal_type bf f l in
  if l_minus l && negb (fst ty) then None
  else match has_setter f, b_ty bf, l_suffix l with
       | false, DInteger t, Some s =>
           if negb (fst (suffix_type s)) && (snd (suffix_type s) =? ity_bits t) && negb (String.eqb s "usize")
           then Some (truncate ty (literal_value l)) else None
       | _, _, _ => Some (truncate ty (literal_value l))
       end.

Lemma suffix_width s : 8 <= snd (suffix_type s).
Proof.
  unfold suffix_type.
  repeat (cbn [find fst snd]; destruct (String.eqb _ s); [cbn; lia|]). cbn; lia.
Qed.
Lemma literal_type_width bf f l : backing_ok (b_ty bf) -> 8 <= snd (literal_type bf f l).
Proof.
  intros H. unfold literal_type. destruct (l_suffix l); [apply suffix_width|].
  destruct (has_setter f); [cbn; lia|]. cbn. destruct (b_ty bf) as [t| |]; try lia.
  destruct H as [_ H]. destruct t; cbn; try lia; congruence.
Qed.

(** The literal has its own value: it fits its type, or the field is not wider
    than that type (the low bits survive the truncation). *)
Definition literal_kept (bf : bitfield) (f : field) (l : literal) : Prop :=
  in_type (literal_type bf f l) (literal_value l) \/ f_bits f <= snd (literal_type bf f l).

Lemma emitted_mod bf f l z n :
  emitted_literal bf f l = Some z -> 0 < snd (literal_type bf f l) ->
  in_type (literal_type bf f l) (literal_value l) \/ n <= snd (literal_type bf f l) -> 0 <= n ->
  z mod 2 ^ n = literal_value l mod 2 ^ n.
Proof.
  intros E Hw Hk Hn. unfold emitted_literal in E. destruct (_ && _)%bool; [discriminate|].
  assert (Hz : z = truncate (literal_type bf f l) (literal_value l)).
  { destruct (has_setter f), (b_ty bf), (l_suffix l); try (injection E as <-; reflexivity).
    destruct (_ && _)%bool; [injection E as <-; reflexivity|discriminate]. }
  subst z. unfold truncate, in_type in *. destruct (literal_type bf f l) as [sg w]. cbn [fst snd] in *.
  destruct sg, Hk as [Hk|Hk].
  - now rewrite scast_id by lia.
  - now apply scast_mod; lia.
  - unfold ucast. now rewrite (Z.mod_small (literal_value l)) by lia.
  - now apply ucast_mod; lia.
Qed.

(** An accepted integer literal default [d] that keeps its value: after [new()]
    the getter returns [d] for unsigned fields, and for signed fields [d] read as
    an [n]-bit two's complement number, which is [d] itself unless
    [d >= 2^(n-1)].

    The literal is any integer literal below 2^128 (greater ones do not exist in
    Rust) and not below -2^127 (no Rust integer type holds it). *)
Theorem C33_int_default_partial m F d bf k r f t l mg z :
  parse_bitfield m F d = POk bf -> fits_u32 m bf -> bf_ok bf ->
  nth_error (active d) k = Some r -> nth_error (b_fields bf) k = Some f ->
  f_ty f = DInteger t -> t <> TBool ->
  last_arg "default" r = Some (literal_text l) ->
  literal_ok l -> magnitude l < 2 ^ 128 -> - 2 ^ 127 <= literal_value l ->
  emitted_literal bf f l = Some z -> r_value r = PInt z -> literal_kept bf f l ->
  exists s v, new_bf mg bf = Val s /\ get_field mg bf f s = Val (VInt v) /\
    (ity_unsigned t = true -> v = literal_value l) /\
    (ity_unsigned t = false ->
       - 2 ^ (f_bits f - 1) <= v < 2 ^ (f_bits f - 1) /\
       (v - literal_value l) mod 2 ^ f_bits f = 0 /\
       (literal_value l <= 2 ^ (f_bits f - 1) - 1 -> v = literal_value l)).
Proof.
  intros H Hfit Hok Hr Hf Ht Htb Hd Hl Hm Hneg Hem Hv Hkept.
  pose proof (parse_inv m F d bf H Hfit) as (_ & _ & _ & _ & _ & _ & _ & _ & Hacc & _).
  pose proof (Forall2_nth _ _ _ Hacc _ _ _ Hr Hf) as Ha. clear Hacc H Hfit.
  destruct Ha as [Hattr Hmatch _ Hw Hhold Hdef _]. rewrite Ht in Hhold, Hdef.
  destruct Hmatch as (_ & _ & _ & _ & _ & _ & Hfd & _). rewrite Hd, Hv in Hfd.
  pose proof (nth_error_In _ _ Hf) as Hin.
  destruct (C11_new mg bf Hok) as (s & Es & Hs & Hraw). exists s.
  destruct (Hraw f Hin) as [Hdb _].
  assert (Eraw : raw s f = literal_value l mod 2 ^ f_bits f).
  { rewrite Hdb; [unfold default_bits; rewrite Hfd|rewrite Hfd; discriminate|].
    - destruct Hok as [Hbk [Hfo _]]. rewrite Forall_forall in Hfo. destruct (Hfo f Hin) as [H1 _].
      apply (emitted_mod bf f l z (f_bits f) Hem); [|exact Hkept|lia].
      pose proof (literal_type_width bf f l Hbk). lia.
    - unfold default_canonical. rewrite Hfd. exact I. }
  assert (Hnf : ~ float_like l).
  { intro Hc. apply float_like_rejected in Hc; [|exact Hl].
    unfold attr_ok in Hattr. unfold last_arg, attr_args in Hd.
    destruct (r_attr r) as [| |b args]; try discriminate.
    destruct Hattr as [_ Hargs]. apply last_of_In in Hd. rewrite Forall_forall in Hargs.
    apply Hargs in Hd. destruct Hd as [[Hk _]|[[Hk _]|[_ [c Hk]]]]; [discriminate Hk|discriminate Hk|].
    cbn [snd] in Hk. congruence. }
  destruct (C44_literal_value l Hl Hm Hnf) as (n & neg & Ec & En & Eneg).
  destruct (Hdef _ _ _ Hd Ec) as [Hda Hnn].
  pose proof (C05_get_is_decode mg bf f s Hok Hin Hs) as Hg.
  exists (match decode f (raw s f) with VInt z => z | _ => 0 end).
  split; [exact Es|]. rewrite Hg. rewrite Eraw. unfold decode. rewrite Ht.
  pose proof (magnitude_nonneg l) as Hmag.
  assert (Hrange : if ity_unsigned t then 0 <= literal_value l < 2 ^ f_bits f
                   else - 2 ^ (f_bits f - 1) <= literal_value l < 2 ^ f_bits f).
  { unfold literal_value in *. unfold default_accepted, default_in_range in Hda.
    assert (P : 0 < 2 ^ (f_bits f - 1)) by (apply Z.pow_pos_nonneg; lia).
    assert (P1 : 0 < 2 ^ f_bits f) by (apply Z.pow_pos_nonneg; lia).
    destruct (l_minus l) eqn:El.
    - assert (neg = true) by (apply Eneg; reflexivity). subst neg.
      destruct (Hnn eq_refl) as [Hu _]. rewrite Hu.
      assert (Hn : n = magnitude l) by lia.
      destruct Hda as [[_ Hda]|[_ Hda]]; lia.
    - destruct neg; [destruct Eneg as [Eneg _]; discriminate (Eneg eq_refl)|].
      assert (Hn : n = magnitude l) by lia.
      destruct Hda as [Hda|[Hda _]]; [|discriminate Hda].
      destruct (ity_unsigned t); lia. }
  assert (Hcase : match t with TBool => False | _ => True end) by (destruct t; try exact I; congruence).
  destruct (ity_unsigned t) eqn:Eu.
  - destruct t; try discriminate Eu; try contradiction; cbn [ity_unsigned];
      (split; [reflexivity|]); (split; [|discriminate]); intros _; apply Z.mod_small; lia.
  - set (v := signed_of (f_bits f) (literal_value l mod 2 ^ f_bits f)).
    assert (R1 : 0 <= literal_value l mod 2 ^ f_bits f < 2 ^ f_bits f)
      by (apply Z.mod_pos_bound, Z.pow_pos_nonneg; lia).
    assert (R : - 2 ^ (f_bits f - 1) <= v < 2 ^ (f_bits f - 1) /\
       (v - literal_value l) mod 2 ^ f_bits f = 0 /\
       (literal_value l <= 2 ^ (f_bits f - 1) - 1 -> v = literal_value l)).
    { split; [apply signed_of_range; lia|]. split.
      - rewrite Zminus_mod. unfold v. rewrite signed_of_mod by lia. rewrite Z.sub_diag. apply Z.mod_0_l.
        apply Z.pow_nonzero; lia.
      - intro Hle. apply signed_of_inv; lia. }
    destruct t; try discriminate Eu; try contradiction; cbn [ity_unsigned];
      (split; [reflexivity|]); (split; [discriminate|]); intros _; exact R.
Qed.

(** A bool literal default is read back. *)
Theorem C33_bool_default m F d bf k r f (b : bool) mg :
  parse_bitfield m F d = POk bf -> fits_u32 m bf -> bf_ok bf ->
  nth_error (active d) k = Some r -> nth_error (b_fields bf) k = Some f ->
  f_ty f = DInteger TBool ->
  last_arg "default" r = Some (if b then "true" else "false")%string -> r_value r = PBool b ->
  exists s, new_bf mg bf = Val s /\ get_field mg bf f s = Val (VBool b).
Proof.
  intros H Hfit Hok Hr Hf Ht Hd Hv.
  pose proof (parse_inv m F d bf H Hfit) as (_ & _ & _ & _ & _ & _ & _ & _ & Hacc & _).
  pose proof (Forall2_nth _ _ _ Hacc _ _ _ Hr Hf) as Ha. clear Hacc H Hfit.
  destruct Ha as [_ Hmatch _ _ _ _ _].
  destruct Hmatch as (_ & _ & _ & _ & _ & _ & Hfd & _). rewrite Hd, Hv in Hfd.
  pose proof (nth_error_In _ _ Hf) as Hin.
  destruct (C11_new mg bf Hok) as (s & Es & Hs & Hraw). exists s. split; [exact Es|].
  rewrite (C05_get_is_decode mg bf f s Hok Hin Hs). destruct (Hraw f Hin) as [Hdb _].
  rewrite Hdb; [|rewrite Hfd; discriminate|unfold default_canonical; rewrite Hfd; exact I].
  unfold default_bits, decode. rewrite Hfd, Ht. destruct b; reflexivity.
Qed.

(** Both theorems apply to this declaration: unsigned, signed and large literals,
    with and without a setter, and a bool. *)
Definition def_decl : rdecl :=
  mkRDecl true VisPublic "D" (Some (RPath "u64")) []
    [fld "b" (AList (RBits 3 "") [("default", "0b1_01")]) (RPath "u16") (PInt 5);
     fld "c" (AList (RBits 4 "") [("default", "-3")]) (RPath "i8") (PInt (-3));
     fld "d" (AList (RBits 32 "") [("default", "0xFFFFFFFE")]) (RPath "u64") (PInt (-2));
     fld "_r" (AList (RBits 24 "") [("default", "0xABCDEF")]) (RPath "u32") (PInt 11259375);
     fld "flag" (AList RNoBits [("default", "true")]) (RPath "bool") (PBool true)]%string.
Definition lit_b : literal := mkLit false false Bin [LDigit 1 false; LUnder; LDigit 0 false; LDigit 1 false] None.
Definition lit_c : literal := mkLit true false Dec [LDigit 3 false] None.
Definition lit_d : literal := mkLit false false Hex (repeat (LDigit 15 true) 7 ++ [LDigit 14 true]) None.
Definition lit_r : literal :=
  mkLit false false Hex (map (fun d => LDigit d true) [10; 11; 12; 13; 14; 15]%nat) None.
Example C33_ex :
  exists bf, parse_bitfield Checked no_feature def_decl = POk bf /\ bf_ok bf /\
     (forall k l, In (k, l) [(0%nat, lit_b); (1%nat, lit_c); (2%nat, lit_d); (3%nat, lit_r)] -> exists r f t z,
     nth_error (active def_decl) k = Some r /\ nth_error (b_fields bf) k = Some f /\
     f_ty f = DInteger t /\ t <> TBool /\ last_arg "default" r = Some (literal_text l) /\
     literal_ok l /\ magnitude l < 2 ^ 128 /\ - 2 ^ 127 <= literal_value l /\
     emitted_literal bf f l = Some z /\ r_value r = PInt z /\ literal_kept bf f l) /\
     exists r f, nth_error (active def_decl) 4 = Some r /\ nth_error (b_fields bf) 4 = Some f /\
     f_ty f = DInteger TBool /\ last_arg "default" r = Some "true"%string /\ r_value r = PBool true.
Proof.
  eexists. split; [vm_compute; reflexivity|]. split; [apply bf_okb_ok; vm_compute; reflexivity|]. split.
  - intros k l [E|[E|[E|[E|[]]]]]; injection E as <- <-; do 4 eexists; repeat apply conj;
      try (vm_compute; reflexivity); try discriminate; try (right; vm_compute; discriminate);
      try (repeat constructor); try (cbn; discriminate).
  - do 2 eexists. repeat apply conj; vm_compute; reflexivity.
Qed.

(** Without the last hypothesis the claim is false: 0x1_0000_0000 is accepted as
    the default of a 40-bit [u64] field, the generated [set_a(0x1_0000_0000 as _)]
    passes 0, and [new()] leaves the field zero.  0xFFFFFFFF becomes 2^40 - 1. *)
Definition large_decl (text : string) (z : Z) : rdecl :=
  mkRDecl true VisPublic "L" (Some (RPath "u64")) []
    [fld "a" (AList (RBits 40 "") [("default", text)]) (RPath "u64") (PInt z);
     fld "_r" (AList (RBits 24 "") []) (RPath "u32") (PInt 0)]%string.
Definition lit_2_32 : literal := mkLit false false Hex (LDigit 1 false :: repeat (LDigit 0 false) 8) None.
Definition lit_ones : literal := mkLit false false Hex (repeat (LDigit 15 true) 8) None.
Theorem C33_large_refuted :
  (exists bf f s, parse_bitfield Checked no_feature (large_decl (literal_text lit_2_32) 0) = POk bf /\ bf_ok bf /\
     nth_error (b_fields bf) 0 = Some f /\ literal_value lit_2_32 = 2 ^ 32 /\
     emitted_literal bf f lit_2_32 = Some 0 /\
     new_bf Checked bf = Val s /\ get_field Checked bf f s = Val (VInt 0)) /\
  (exists bf f s, parse_bitfield Checked no_feature (large_decl (literal_text lit_ones) (-1)) = POk bf /\ bf_ok bf /\
     nth_error (b_fields bf) 0 = Some f /\ literal_value lit_ones = 2 ^ 32 - 1 /\
     emitted_literal bf f lit_ones = Some (-1) /\
     new_bf Checked bf = Val s /\ get_field Checked bf f s = Val (VInt (2 ^ 40 - 1))).
Proof.
  split; do 3 eexists; (split; [vm_compute; reflexivity|]);
    (split; [apply bf_okb_ok; vm_compute; reflexivity|]);
    do 4 (split; [vm_compute; reflexivity|]); vm_compute; reflexivity.
Qed.
(** The suffix is ignored by the range check: 300u8 is accepted as the default of
    a [u16] field; rustc truncates it to 44. *)
Definition suffix_decl : rdecl :=
  mkRDecl true VisPublic "S" (Some (RPath "u16")) []
    [fld "a" (AList RNoBits [("default", "300u8")]) (RPath "u16") (PInt 44)]%string.
Definition lit_300u8 : literal :=
  mkLit false false Dec [LDigit 3 false; LDigit 0 false; LDigit 0 false] (Some "u8"%string).
Theorem C33_suffix_refuted : exists bf f s,
  parse_bitfield Checked no_feature suffix_decl = POk bf /\ bf_ok bf /\ nth_error (b_fields bf) 0 = Some f /\
  literal_text lit_300u8 = "300u8"%string /\
  literal_value lit_300u8 = 300 /\ emitted_literal bf f lit_300u8 = Some 44 /\
  new_bf Checked bf = Val s /\ get_field Checked bf f s = Val (VInt 44).
Proof.
  do 3 eexists. split; [vm_compute; reflexivity|]. split; [apply bf_okb_ok; vm_compute; reflexivity|].
  do 5 (split; [vm_compute; reflexivity|]). vm_compute; reflexivity.
Qed.

(** A positive default of a signed field may exceed the signed maximum: 15 in a
    4-bit signed field is accepted and read back as -1. *)
Definition wide_decl : rdecl :=
  mkRDecl true VisPublic "P" (Some (RPath "u8")) []
    [fld "a" (AList (RBits 4 "") [("default", "15")]) (RPath "i8") (PInt 15);
     fld "b" (AList (RBits 4 "") []) (RPath "u8") (PInt 0)]%string.
Theorem C33_signed_identity_refuted : exists bf f s,
  parse_bitfield Checked no_feature wide_decl = POk bf /\ bf_ok bf /\ nth_error (b_fields bf) 0 = Some f /\
     new_bf Checked bf = Val s /\ get_field Checked bf f s = Val (VInt (-1)).
Proof.
  do 3 eexists. split; [vm_compute; reflexivity|]. split; [apply bf_okb_ok; vm_compute; reflexivity|].
  split; [reflexivity|]. split; vm_compute; reflexivity.
Qed.
