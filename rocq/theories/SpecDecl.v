(** Independent reading of declarations: what the documentation says a field
    declaration means.  Nothing here is a model of the parser. *)
From Coq Require Import ZArith List Bool String Ascii.
From Verif Require Import RustInt Syntax ConstExpr Words Parser Spec.
Import ListNotations.
Open Scope Z_scope.

(** ** Types *)
Definition ity_name (t : ity) : string :=
  match t with
  | U8 => "u8" | U16 => "u16" | U32 => "u32" | U64 => "u64" | U128 => "u128"
  | I8 => "i8" | I16 => "i16" | I32 => "i32" | I64 => "i64" | I128 => "i128"
  | TBool => "bool"
  end%string.
Definition unsupported : list string := ["usize"; "isize"; "f32"; "f64"]%string.

Definition type_is (t : rtype) (d : dtype) : Prop :=
  match d with
  | DInteger i => t = RPath (ity_name i)
  | DArray n => exists k, t = RArray (RPath "u8") (LenLit k) /\ n = Z.of_N k /\ 0 < n < 2 ^ 32
  | DCustom => exists s, t = RPath s /\ (forall i, s <> ity_name i) /\ ~ In s unsupported
  end.

(** ** Attributes *)
Definition attr_args (r : rfield) : list (string * string) :=
  match r_attr r with AList _ args => args | _ => [] end.
(** The bit count written in the attribute. *)
Definition attr_bits (r : rfield) : option Z :=
  match r_attr r with AList (RBits n _) _ => Some (Z.of_N n) | _ => None end.
(** The value of an argument; when it is given several times the last counts. *)
Definition last_of (key : string) (args : list (string * string)) : option string :=
  fold_left (fun acc a => if String.eqb (fst a) key then Some (snd a) else acc) args None.
Definition last_arg (key : string) (r : rfield) : option string := last_of key (attr_args r).

Definition access_name (a : access) : string :=
  match a with ReadOnly => "ro" | WriteOnly => "wo" | ReadWrite => "rw" | NoAccess => "na" end%string.
(** The text names the access level (case does not matter). *)
Definition access_text (s : string) (a : access) : Prop :=
  map to_small (list_ascii_of_string s) = list_ascii_of_string (access_name a).

(** A well-formed attribute: a list with an optional unsuffixed u32 bit count
    and known arguments with well-formed values. *)
Definition arg_ok (a : string * string) : Prop :=
  (fst a = "access"%string /\ exists x, access_text (snd a) x) \/
  (fst a = "ignore"%string /\ (snd a = "true"%string \/ snd a = "false"%string)) \/
  (fst a = "default"%string /\ exists c, const_expr_new (snd a) = POk c).
Definition attr_ok (r : rfield) : Prop :=
  match r_attr r with
  | ANone => True
  | ANotList => False
  | AList b args =>
      match b with
      | RNoBits => True
      | RMinus => False
      | RBits n suffix => suffix = ""%string /\ Z.of_N n < 2 ^ 32
      end /\ Forall arg_ok args
  end.

(** ** Fields *)
Definition ignored_decl (r : rfield) : Prop := last_arg "ignore" r = Some "true"%string.
Definition reserved_decl (r : rfield) : Prop := exists rest, r_name r = String "_" rest.
(** Width: as written, otherwise the size of the type. *)
Definition width (r : rfield) (d : dtype) : Z :=
  match attr_bits r with Some n => n | None => ty_size d end.

(** A literal default (number and sign) against the width: unsigned fields hold
    [0 .. 2^n-1]; for signed fields negative numbers down to [-2^(n-1)] and
    positive numbers up to the unsigned maximum. *)
Definition default_in_range (t : ity) (n number : Z) (negative : bool) : Prop :=
  if negative then ity_unsigned t = false /\ number <= 2 ^ (n - 1) else number < 2 ^ n.
Definition default_valid (r : rfield) (d : dtype) : Prop :=
  match d with
  | DInteger t =>
      forall text number negative, last_arg "default" r = Some text ->
        const_expr_new text = POk (CLit number negative) ->
        default_in_range t (width r d) number negative
  | _ => True
  end.

(** The default is not the literal for the least i128. *)
Definition no_i128_min (r : rfield) : Prop :=
  forall text, last_arg "default" r = Some text -> const_expr_new text <> POk (CLit (2 ^ 127) true).

(** A valid non-ignored field of type [d]. *)
Definition field_valid (r : rfield) (d : dtype) : Prop :=
  attr_ok r /\ type_is (r_ty r) d /\
  (d = DCustom -> attr_bits r <> None) /\
  1 <= width r d < 2 ^ 32 /\
  match d with DInteger t => width r d <= ity_bits t | _ => True end /\
  default_valid r d /\
  (reserved_decl r -> last_arg "access" r = None).

(** The descriptor of a field agrees with its declaration. *)
Definition access_matches (r : rfield) (a : access) : Prop :=
  match last_arg "access" r with
  | Some s => access_text s a
  | None =>
      (* without an explicit access *)
      (~ reserved_decl r -> a = ReadWrite) /\
      (reserved_decl r -> last_arg "default" r <> None -> a = ReadOnly) /\
      (reserved_decl r -> r_attr r = ANone -> a = NoAccess)
  end.
Definition decl_matches (bv : vis) (r : rfield) (f : field) : Prop :=
  f_name f = r_name r /\ type_is (r_ty r) (f_ty f) /\ f_bits f = width r (f_ty f) /\
  f_ignored f = false /\ f_codec f = r_codec r /\
  (f_reserved f = true <-> reserved_decl r) /\
  f_default f = match last_arg "default" r with Some _ => Some (r_value r) | None => None end /\
  access_matches r (f_access f) /\
  f_vis f = match r_vis r with VisPrivate => bv | v => v end.

(** ** Structs *)

(** The non-ignored fields, in order. *)
Definition ignoredb (r : rfield) : bool :=
  match last_arg "ignore" r with Some s => String.eqb s "true" | None => false end.
Definition active (d : rdecl) : list rfield := filter (fun r => negb (ignoredb r)) (d_fields d).

(** Names may only repeat among reserved fields. *)
Definition names_ok (rs : list rfield) : Prop :=
  forall i j ri rj, (i < j)%nat -> nth_error rs i = Some ri -> nth_error rs j = Some rj ->
    r_name ri = r_name rj -> reserved_decl ri /\ ~ ignored_decl ri.

Definition zsum (l : list Z) : Z := fold_right Z.add 0 l.

(** The u32 sums of the macro do not wrap (always so when the macro is built
    with overflow checks, otherwise for realistic declarations). *)
Definition fits_u32 (m : mode) (bf : bitfield) : Prop :=
  match m with
  | Checked => True
  | Wrapping =>
      ty_size (b_ty bf) < 2 ^ 32 /\ zsum (map f_bits (b_fields bf)) < 2 ^ 32 /\
      Forall (fun f => ty_size (f_ty f) < 2 ^ 32) (b_fields bf)
  end.

(** ** Arguments of [#[bitfield(..)]] *)

(** Switch, the cargo features setting its default, and where it is kept. *)
Definition switches : list (string * (string * string) * (bfargs -> bool)) :=
  [("new", ("generate_new", "disable_new"), a_new);
   ("from_into_bits", ("generate_from_into_bits", "disable_from_into_bits"), a_from_into_bits);
   ("from_traits", ("generate_from_traits", "disable_from_traits"), a_from_traits);
   ("default", ("generate_default", "disable_default"), a_default);
   ("debug", ("generate_debug", "disable_debug"), a_debug);
   ("copy", ("derive_copy", "disable_copy"), a_copy);
   ("builder", ("generate_builder", "disable_builder"), a_builder);
   ("bit_ops", ("generate_bit_ops", "disable_bit_ops"), a_bit_ops);
   ("write_bit_ops", ("generate_write_bit_ops", "disable_write_bit_ops"), a_write_bit_ops);
   ("clear_bit_ops", ("generate_clear_bit_ops", "disable_clear_bit_ops"), a_clear_bit_ops);
   ("set_get_bit_ops", ("generate_set_get_bit_ops", "disable_set_get_bit_ops"), a_set_get_bit_ops);
   ("invert_bit_ops", ("generate_invert_bit_ops", "disable_invert_bit_ops"), a_invert_bit_ops);
   ("toggle_bit_ops", ("generate_toggle_bit_ops", "disable_toggle_bit_ops"), a_toggle_bit_ops)
  ]%string.
(** The bit operation groups remember whether the user set them. *)
Definition user_flags : list (string * (bfargs -> bool)) :=
  [("write_bit_ops", a_user_write_bit_ops); ("clear_bit_ops", a_user_clear_bit_ops);
   ("set_get_bit_ops", a_user_set_get_bit_ops); ("invert_bit_ops", a_user_invert_bit_ops);
   ("toggle_bit_ops", a_user_toggle_bit_ops)]%string.
Definition endians : list (string * (string * string) * (bfargs -> endian)) :=
  [("from_endian", ("from_endian_little", "from_endian_big"), a_from_endian);
   ("into_endian", ("into_endian_little", "into_endian_big"), a_into_endian);
   ("write_endian", ("write_endian_little", "write_endian_big"), a_write_endian)]%string.

Definition order_text (s : string) (o : border) : Prop :=
  map to_small (list_ascii_of_string s) =
  list_ascii_of_string (match o with Lsb => "lsb" | Msb => "msb" end).
(** White space around the word does not matter. *)
Definition endian_text (s : string) (e : endian) : Prop :=
  exists pre post,
    Forall (fun c => In c blanks) (pre ++ post) /\
    map to_small (list_ascii_of_string s) =
    pre ++ list_ascii_of_string (match e with Little => "little" | Big => "big" end) ++ post.

Definition keys : list string :=
  map (fun x => fst (fst x)) switches ++ ["array_heap"; "force_panic"]%string.
Definition bool_text (s : string) : Prop := s = "true"%string \/ s = "false"%string.

(** A known key with a well-formed value. *)
Definition bitfield_arg_ok (a : string * string) : Prop :=
  (fst a = "order"%string /\ exists o, order_text (snd a) o) \/
  ((exists x, In x endians /\ fst a = fst (fst x)) /\ exists e, endian_text (snd a) e) \/
  (In (fst a) keys /\ bool_text (snd a)).

(** The value of a switch: the last argument, otherwise from the features. *)
Definition switch_value (args : list (string * string)) (key : string) (default : bool) : bool :=
  match last_of key args with Some s => String.eqb s "true" | None => default end.
Definition args_match (F : features) (args : list (string * string)) (a : bfargs) : Prop :=
  match last_of "order" args with
  | Some s => order_text s (a_order a)
  | None => a_order a = if F "order_lsb"%string then Lsb else if F "order_msb"%string then Msb else Lsb
  end /\
  (forall key little big proj, In (key, (little, big), proj) endians ->
     match last_of key args with
     | Some s => endian_text s (proj a)
     | None => proj a = if F little && negb (F big) then Little else Big
     end) /\
  (forall key on off proj, In (key, (on, off), proj) switches ->
     proj a = switch_value args key (F on || negb (F off))) /\
  a_array_heap a = switch_value args "array_heap" (F "enable_array_heap"%string && negb (F "disable_array_heap"%string)) /\
  (forall key proj, In (key, proj) user_flags -> (proj a = true <-> last_of key args <> None)).

(** Backing types. *)
Definition backing_type (ty : dtype) : Prop :=
  match ty with
  | DInteger t => In t [U8; U16; U32; U64; U128; TBool]
  | DArray _ => True
  | DCustom => False
  end.

(** ** Whole declarations *)
Definition attribute_valid (d : rdecl) (ty : dtype) : Prop :=
  d_named d = true /\ (exists t, d_type d = Some t /\ type_is t ty) /\ backing_type ty /\
  Forall bitfield_arg_ok (d_args d) /\ last_of "force_panic" (d_args d) <> Some "true"%string.
(** Every field is valid on its own; [ds] are the types of the non-ignored ones. *)
Definition fields_valid (d : rdecl) (ds : list dtype) : Prop :=
  Forall2 field_valid (active d) ds /\
  (forall r, In r (d_fields d) -> ignored_decl r -> attr_ok r /\ exists t, type_is (r_ty r) t) /\
  names_ok (d_fields d).
Definition decl_widths (d : rdecl) (ds : list dtype) : list Z :=
  map (fun p => width (fst p) (snd p)) (combine (active d) ds).

Definition rejected (m : mode) (F : features) (d : rdecl) : Prop :=
  forall bf, parse_bitfield m F d <> POk bf.

(** The declaration without its ignored fields. *)
Definition keep_active (d : rdecl) : rdecl :=
  mkRDecl (d_named d) (d_vis d) (d_name d) (d_type d) (d_args d) (active d).
Definition drop_ignored (bf : bitfield) : bitfield :=
  mkBitfield (b_vis bf) (b_name bf) (b_ty bf) (b_fields bf) [] (b_args bf).

(** The declaration with its fields in the opposite order, and another order
    argument. *)
Definition reversed (order : string) (d : rdecl) : rdecl :=
  mkRDecl (d_named d) (d_vis d) (d_name d) (d_type d)
    (d_args d ++ [("order"%string, order)]) (rev (d_fields d)).
