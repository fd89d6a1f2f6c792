(** Declaration -> descriptor (the files under parsing/bitfields and parsing/common).

    The input is what [syn] hands to the macro: names, type trees, and for every
    attribute its optional bit count and its list of [key = value] pairs as text.
    Spans are dropped; the text of error messages is replaced by one constructor
    per call site of [create_user_parsing_compiler_error]. *)
From Coq Require Import ZArith List Bool String Ascii.
From Verif Require Import RustInt Syntax ConstExpr.
Import ListNotations.
Open Scope Z_scope.

(** ** Input *)

(** The length expression of an array type: an integer literal (its value) or
    anything else. *)
Inductive rlen := LenLit (n : N) | LenOther.
(** [syn::Type]: a path (its last segment), an array, anything else. *)
Inductive rtype := RPath (last : string) | RArray (elem : rtype) (len : rlen) | ROther.

(** The leading tokens of [#[bits(..)]]: nothing, a minus sign, or an integer
    literal with its value and its suffix. *)
Inductive rbits := RNoBits | RMinus | RBits (n : N) (suffix : string).
(** A field's [#[bits]] attribute: absent, present but not a list ([#[bits]],
    [#[bits = 4]]), or a list. *)
Inductive rattr :=
| ANone
| ANotList
| AList (bits : rbits) (args : list (string * string)).

(** A field declaration.  [r_value] is the value rustc gives to the text of the
    [default] argument, [r_codec] the user's custom type; the macro never looks
    at either. *)
Record rfield := mkRField {
  r_name : string;
  r_vis : vis;
  r_attr : rattr;
  r_ty : rtype;
  r_value : pval;
  r_codec : codec }.

(** A struct declaration with the arguments of [#[bitfield(..)]].  [d_type] is
    [None] when the attribute is empty or does not begin with a type. *)
Record rdecl := mkRDecl {
  d_named : bool;
  d_vis : vis;
  d_name : string;
  d_type : option rtype;
  d_args : list (string * string);
  d_fields : list rfield }.

(** Cargo features ([cfg!(feature = "..")]). *)
Definition features := string -> bool.

(** ** Errors: one constructor per call site *)
Inductive perr :=
(* parsing/bitfields/bitfield_parser.rs *)
| EUnnamed            (* 62 *)
| EDuplicate          (* 75 *)
| ENotList            (* 178 *)
| EFieldType          (* 203-233 *)
| ECustomNoBits       (* 254 *)
| EZeroBits           (* 270 *)
| ENegativeUnsigned   (* 315 *)
| EDefaultTooSmall    (* 332 *)
| EDefaultTooBig      (* 341 *)
| ETypeTooSmall       (* 366 *)
| EMsbOverflow        (* 408 *)
| EReservedAccess     (* 432 *)
| ETooManyBits        (* 475 *)
| ETooFewBits         (* 488 *)
(* bits_attribute/bits_attribute_parser.rs *)
| EBitsMinus          (* 56 *)
| EBitsSuffix         (* 69 *)
| EBitsTooBig         (* 76 *)
(* bits_attribute/bits_arguments.rs, common/attribute_argument_parser.rs,
   common/const_expr.rs, bitfield_attribute/ *)
| EUnknownArgument | EBadAccess | EBadBool | EFloat | EBadOrder | EBadEndian
| EBackingType.

Definition pr := pres perr.

(** ** parsing/common/spanned_data_type.rs *)

(** type_parse_error.rs: the cases that [get_data_type] can return. *)
Inductive terr :=
  TSize | TFloat | TNonIntegerArray | TZeroArray | TInvalidLength | TTooLarge | TUnexpected.

(** spanned_data_type.rs:159-177 ([DataType::new]); [None] = not a built-in. *)
Inductive basic := BInt (t : ity) | BSize.
Definition data_type_new (s : string) : option basic :=
  if String.eqb s "u8" then Some (BInt U8)
  else if String.eqb s "u16" then Some (BInt U16)
  else if String.eqb s "u32" then Some (BInt U32)
  else if String.eqb s "u64" then Some (BInt U64)
  else if String.eqb s "u128" then Some (BInt U128)
  else if String.eqb s "usize" then Some BSize
  else if String.eqb s "isize" then Some BSize
  else if String.eqb s "i8" then Some (BInt I8)
  else if String.eqb s "i16" then Some (BInt I16)
  else if String.eqb s "i32" then Some (BInt I32)
  else if String.eqb s "i64" then Some (BInt I64)
  else if String.eqb s "i128" then Some (BInt I128)
  else if String.eqb s "bool" then Some (BInt TBool)
  else None.

(** spanned_data_type.rs:48-101 ([get_data_type]). *)
Fixpoint get_data_type (t : rtype) : pres terr dtype :=
  match t with
  | RPath name =>
      if String.eqb name "f32" || String.eqb name "f64" then PErr TFloat
      else match data_type_new name with
           | Some BSize => PErr TSize
           | Some (BInt i) => POk (DInteger i)
           | None => POk DCustom
           end
  | RArray elem len =>
      e <~ get_data_type elem ;;
      match e with
      | DInteger U8 =>
          match len with
          | LenOther => PErr TInvalidLength
          | LenLit n =>
              let n := Z.of_N n in
              if 2 ^ 32 <=? n then PErr TTooLarge
              else if n =? 0 then PErr TZeroArray
              else POk (DArray n)
          end
      | _ => PErr TNonIntegerArray
      end
  | ROther => PErr TUnexpected
  end.

(** spanned_data_type.rs:180-189 ([DataType::bit_size], u32 arithmetic of the
    macro; [Custom] is [unreachable!]). *)
Definition bit_size (m : mode) (d : dtype) : outcome Z :=
  match d with
  | DInteger t => Val (ity_bits t)
  | DArray n => umul m 32 n 8
  | DCustom => Panic
  end.

(** ** Attribute arguments *)

(** bits_arguments.rs:32-47 ([FieldAccess::from_str]). *)
Definition access_from_str (s : string) : option access :=
  let s := lowercase (chars s) in
  if str_eqb s (chars "ro") then Some ReadOnly
  else if str_eqb s (chars "wo") then Some WriteOnly
  else if str_eqb s (chars "rw") then Some ReadWrite
  else if str_eqb s (chars "na") then Some NoAccess
  else None.

(** attribute_argument_parser.rs:120-130 ([parse_boolean_attribute_argument]). *)
Definition parse_bool_arg (s : string) : pr bool :=
  if String.eqb s "true" then POk true
  else if String.eqb s "false" then POk false
  else PErr EBadBool.

(** attribute_argument_parser.rs:64-71: all keys are validated before any value
    is looked at (the arguments are collected first, 44-107). *)
Definition check_keys (keys : list string) (args : list (string * string)) : pr unit :=
  if forallb (fun a => existsb (String.eqb (fst a)) keys) args then POk tt
  else PErr EUnknownArgument.

(** bits_arguments.rs:48-77 ([struct BitsArguments] and its default). *)
Record bargs := mkBArgs {
  ba_access : access;
  ba_user_access : bool;
  ba_ignored : bool;
  ba_default : option cexpr }.
Definition bargs_default : bargs := mkBArgs ReadWrite false false None.

(** bits_arguments.rs:79-89 *)
Definition bits_keys : list string := ["access"; "ignore"; "default"]%string.

(** bits_arguments.rs:103-123: one argument. *)
Definition bits_arg (acc : bargs) (arg : string * string) : pr bargs :=
  let (key, value) := arg in
  if String.eqb key "access" then
    match access_from_str value with
    | Some a => POk (mkBArgs a true (ba_ignored acc) (ba_default acc))
    | None => PErr EBadAccess
    end
  else if String.eqb key "ignore" then
    b <~ parse_bool_arg value ;;
    POk (mkBArgs (ba_access acc) (ba_user_access acc) b (ba_default acc))
  else if String.eqb key "default" then
    match const_expr_new value with
    | POk c => POk (mkBArgs (ba_access acc) (ba_user_access acc) (ba_ignored acc) (Some c))
    | PErr _ => PErr EFloat
    | PPanic => PPanic
    end
  else PPanic.

Fixpoint fold_args {A} (step : A -> string * string -> pr A) (acc : A)
    (args : list (string * string)) : pr A :=
  match args with
  | [] => POk acc
  | a :: t => acc' <~ step acc a ;; fold_args step acc' t
  end.

(** bits_arguments.rs:94-128 ([BitsArguments::parse]). *)
Definition parse_bits_args (args : list (string * string)) : pr bargs :=
  _ <~ check_keys bits_keys args ;;
  fold_args bits_arg bargs_default args.

(** bits_attribute_parser.rs:50-89 ([parse_bits]). *)
Definition parse_bits (b : rbits) : pr (option Z) :=
  match b with
  | RNoBits => POk None
  | RMinus => PErr EBitsMinus
  | RBits n suffix =>
      if negb (String.eqb suffix "") then PErr EBitsSuffix
      else if 2 ^ 32 <=? Z.of_N n then PErr EBitsTooBig
      else POk (Some (Z.of_N n))
  end.

(** bits_attribute_parser.rs:11-42 ([BitsAttribute]; [bt_bits = None] also means
    that there is no span). *)
Record battr := mkBAttr { bt_bits : option Z; bt_args : bargs }.

(** bitfield_parser.rs:169-185 ([get_bits_attribute]). *)
Definition get_bits_attribute (r : rfield) : pr (option battr) :=
  match r_attr r with
  | ANone => POk None
  | ANotList => PErr ENotList
  | AList b args =>
      n <~ parse_bits b ;;
      a <~ parse_bits_args args ;;
      POk (Some (mkBAttr n a))
  end.

(** ** Fields (bitfield_parser.rs) *)

(** bitfield_parser.rs:192-194 ([is_reserved_field]). *)
Definition is_reserved_name (s : string) : bool :=
  match s with String c _ => Ascii.eqb c "_" | EmptyString => false end.

(** bitfield_parser.rs:243-264 ([get_field_bits]). *)
Definition get_field_bits (m : mode) (a : option battr) (d : dtype) : pr Z :=
  match (match a with Some bt => bt_bits bt | None => None end) with
  | Some n => POk n
  | None =>
      match d with
      | DCustom => PErr ECustomNoBits
      | _ => of_outcome (bit_size m d)
      end
  end.

(** bitfield_parser.rs:267-280 ([check_bits]; without attribute or span the
    [expect]s panic). *)
Definition check_bits (a : option battr) (bits : Z) : pr unit :=
  if bits =? 0 then
    match a with
    | Some (mkBAttr (Some _) _) => PErr EZeroBits
    | _ => PPanic
    end
  else POk tt.

(** bitfield_parser.rs:380-384 ([min_max_for_bits]), i128 and u128 arithmetic of
    the macro. *)
Definition neg_i128 (m : mode) (z : Z) : outcome Z :=
  if z =? - 2 ^ 127 then match m with Checked => Panic | Wrapping => Val z end else Val (- z).
Definition min_max_for_bits (m : mode) (bits : Z) : outcome (Z * Z) :=
  mx <- (if bits =? 128 then Val (2 ^ 128 - 1) else s <- shl m 128 1 bits ;; usub m 128 s 1) ;;
  mn <- (if bits =? 128 then Val (- 2 ^ 127)
         else k <- usub m 32 bits 1 ;; s <- sshl m 128 1 k ;; neg_i128 m s) ;;
  Val (mn, mx).

(** bitfield_parser.rs:285-351 ([check_default_value_fit_in_field]). *)
Definition check_default (m : mode) (a : option battr) (bits : Z) (d : dtype) : pr unit :=
  match (match a with Some bt => ba_default (bt_args bt) | None => None end) with
  | Some (CLit number negative) =>
      if dt_unsigned d && negative then PErr ENegativeUnsigned
      else
        mm <~ of_outcome (min_max_for_bits m bits) ;;
        if negative then
          (* 326-329: [number as i128] negated, [unreachable!] on i128::MIN *)
          let n := scast 128 number in
          if n =? - 2 ^ 127 then PPanic
          else if - n <? fst mm then PErr EDefaultTooSmall else POk tt
        else if snd mm <? number then PErr EDefaultTooBig else POk tt
  | _ => POk tt
  end.

(** bitfield_parser.rs:354-376 ([check_field_data_type_can_hold_bits]); the
    error needs the span of the bit count. *)
Definition check_can_hold (m : mode) (a : option battr) (bits : Z) (d : dtype) : pr unit :=
  match a with
  | None => POk tt
  | Some bt =>
      s <~ of_outcome (bit_size m d) ;;
      if s <? bits then
        match bt_bits bt with Some _ => PErr ETypeTooSmall | None => PPanic end
      else POk tt
  end.

(** [Iterator::sum::<u32>] *)
Fixpoint sum_u32 (m : mode) (acc : Z) (l : list Z) : outcome Z :=
  match l with [] => Val acc | n :: t => s <- uadd m 32 acc n ;; sum_u32 m s t end.
Definition sum_bits (m : mode) (fs : list field) : outcome Z := sum_u32 m 0 (map f_bits fs).

(** bitfield_parser.rs:386-418 ([calculate_field_offset]). *)
Definition calculate_offset (m : mode) (o : border) (ty : dtype) (bits : Z) (prev : list field)
  : pr Z :=
  offset <~ of_outcome (sum_bits m prev) ;;
  match o with
  | Lsb => POk offset
  | Msb =>
      size <~ of_outcome (bit_size m ty) ;;
      total <~ of_outcome (uadd m 32 offset bits) ;;
      if total <=? size then of_outcome (x <- usub m 32 size bits ;; usub m 32 x offset)
      else PErr EMsbOverflow
  end.

(** bitfield_parser.rs:422-451 ([get_field_access]). *)
Definition get_access (a : option battr) (reserved : bool) : pr access :=
  match a with
  | None => POk (if reserved then NoAccess else ReadWrite)
  | Some bt =>
      if ba_user_access (bt_args bt) && reserved then PErr EReservedAccess
      else match ba_default (bt_args bt) with
           | Some _ => POk (if reserved then ReadOnly else ba_access (bt_args bt))
           | None => POk (ba_access (bt_args bt))
           end
  end.

(** bitfield_parser.rs:455-463 ([get_field_visibility]). *)
Definition get_visibility (bv : vis) (fv : vis) : vis :=
  match fv with VisPrivate => bv | _ => fv end.

(** bitfield_parser.rs:151-166 ([parse_ignored_field]; [expect] on a bad type). *)
Definition parse_ignored (r : rfield) : pr field :=
  match get_data_type (r_ty r) with
  | POk d =>
      POk (mkField (r_vis r) (r_name r) d 0 0 false NoAccess None true (r_codec r))
  | _ => PPanic
  end.

(** bitfield_parser.rs:187-189 ([is_ignored_field]). *)
Definition is_ignored (a : option battr) : bool :=
  match a with Some bt => ba_ignored (bt_args bt) | None => false end.

(** bitfield_parser.rs:107-149 ([parse_field_helper]); 196-240
    ([get_field_data_type_spanned_token]) maps every type error to an error.
    [field_with] is the part after the attribute has been read. *)
Definition field_with (m : mode) (o : border) (ty : dtype) (bv : vis) (r : rfield)
    (prev : list field) (a : option battr) : pr field :=
  if is_ignored a then parse_ignored r
  else
    let reserved := is_reserved_name (r_name r) in
    match get_data_type (r_ty r) with
    | PErr _ => PErr EFieldType
    | PPanic => PPanic
    | POk d =>
        bits <~ get_field_bits m a d ;;
        _ <~ check_bits a bits ;;
        _ <~ match d with
             | DInteger _ =>
                 _ <~ check_default m a bits d ;;
                 check_can_hold m a bits d
             | _ => POk tt
             end ;;
        off <~ calculate_offset m o ty bits prev ;;
        acc <~ get_access a reserved ;;
        POk (mkField (get_visibility bv (r_vis r)) (r_name r) d bits off reserved acc
               (match a with
                | Some bt =>
                    match ba_default (bt_args bt) with
                    | Some _ => Some (r_value r)
                    | None => None
                    end
                | None => None
                end) false (r_codec r))
    end.
Definition parse_field (m : mode) (o : border) (ty : dtype) (bv : vis) (r : rfield)
    (prev : list field) : pr field :=
  a <~ get_bits_attribute r ;; field_with m o ty bv r prev a.

(** bitfield_parser.rs:56-105 ([parse_fields]): loop over the declared fields
    with the accepted, ignored and seen names so far. *)
Fixpoint parse_fields_loop (m : mode) (o : border) (ty : dtype) (bv : vis) (rs : list rfield)
    (acc ign : list field) (seen : list string) : pr (list field * list field) :=
  match rs with
  | [] => POk (acc, ign)
  | r :: t =>
      if existsb (String.eqb (r_name r)) seen then PErr EDuplicate
      else
        f <~ parse_field m o ty bv r acc ;;
        let seen' := if f_reserved f then seen else r_name r :: seen in
        if f_ignored f then parse_fields_loop m o ty bv t acc (ign ++ [f]) seen'
        else parse_fields_loop m o ty bv t (acc ++ [f]) ign seen'
  end.

(** bitfield_parser.rs:467-507 ([check_fields_fit_in_bitfield_type]). *)
Definition check_fit (m : mode) (ty : dtype) (fs : list field) : pr unit :=
  total <~ of_outcome (sum_bits m fs) ;;
  size <~ of_outcome (bit_size m ty) ;;
  if size <? total then PErr ETooManyBits
  else if total <? size then PErr ETooFewBits
  else POk tt.

(** ** Bitfield arguments (bitfield_attribute/bitfield_arguments.rs) *)

(** bitfield_arguments.rs:265-267 ([resolve_bool_feature]). *)
Definition resolve_bool (enabled disabled : bool) : bool := if enabled then true else negb disabled.
(** bitfield_arguments.rs:273-281 ([resolve_bit_order_feature]). *)
Definition resolve_order (lsb msb : bool) : border :=
  if lsb then Lsb else if msb then Msb else Lsb.
(** conversion_endian.rs:27-41 ([resolve_endian_feature]). *)
Definition resolve_endian (little big : bool) (default : endian) : endian :=
  if little && big then default
  else if little then Little else if big then Big else default.

(** bitfield_arguments.rs:178-259 ([BitfieldArguments::default]). *)
Definition args_default (F : features) : bfargs :=
  let on gen dis := resolve_bool (F gen) (F dis) in
  (mkArgs (resolve_order (F "order_lsb") (F "order_msb"))
    (resolve_endian (F "from_endian_little") (F "from_endian_big") Big)
    (resolve_endian (F "into_endian_little") (F "into_endian_big") Big)
    (resolve_endian (F "write_endian_little") (F "write_endian_big") Big)
    (on "generate_new" "disable_new")
    (on "generate_from_into_bits" "disable_from_into_bits")
    (on "generate_from_traits" "disable_from_traits")
    (on "generate_default" "disable_default")
    (on "generate_debug" "disable_debug")
    (on "derive_copy" "disable_copy")
    (on "generate_builder" "disable_builder")
    (on "generate_bit_ops" "disable_bit_ops")
    (on "generate_write_bit_ops" "disable_write_bit_ops") false
    (on "generate_clear_bit_ops" "disable_clear_bit_ops") false
    (on "generate_set_get_bit_ops" "disable_set_get_bit_ops") false
    (on "generate_invert_bit_ops" "disable_invert_bit_ops") false
    (on "generate_toggle_bit_ops" "disable_toggle_bit_ops") false
    (andb (F "enable_array_heap") (negb (F "disable_array_heap"))))%string.

(** bitfield_arguments.rs:86-96 ([BitOrder::from_str]). *)
Definition order_from_str (s : string) : pr border :=
  let s := lowercase (chars s) in
  if str_eqb s (chars "lsb") then POk Lsb
  else if str_eqb s (chars "msb") then POk Msb else PErr EBadOrder.
(** conversion_endian.rs:13-23 ([ConversionEndian::from_str]). *)
Definition endian_from_str (s : string) : pr endian :=
  let s := lowercase (trim (chars s)) in
  if str_eqb s (chars "little") then POk Little
  else if str_eqb s (chars "big") then POk Big else PErr EBadEndian.

(** bitfield_arguments.rs:283-341, 346-350: the valid keys, [force_panic] being
    the internal one. *)
Definition bitfield_keys : list string :=
  ["order"; "from_endian"; "into_endian"; "write_endian"; "new"; "from_into_bits"; "from_traits";
   "default"; "debug"; "copy"; "bit_ops"; "write_bit_ops"; "clear_bit_ops"; "set_get_bit_ops";
   "invert_bit_ops"; "toggle_bit_ops"; "builder"; "array_heap"; "force_panic"]%string.

(** bitfield_arguments.rs:354-443: one argument.  The second component is
    [force_panic]. *)
Definition bitfield_arg (acc : bfargs * bool) (arg : string * string) : pr (bfargs * bool) :=
  let (a, fp) := acc in
  let (key, value) := arg in
  match a with
  | mkArgs o fe ie we nw fib ft df db cp bu bo wbo uw cbo uc sbo us ibo ui tbo ut ah =>
  let ret x := POk (x, fp) in
  let bool_arg k := b <~ parse_bool_arg value ;; ret (k b) in
  if String.eqb key "order" then
    x <~ order_from_str value ;;
    ret (mkArgs x fe ie we nw fib ft df db cp bu bo wbo uw cbo uc sbo us ibo ui tbo ut ah)
  else if String.eqb key "from_endian" then
    x <~ endian_from_str value ;;
    ret (mkArgs o x ie we nw fib ft df db cp bu bo wbo uw cbo uc sbo us ibo ui tbo ut ah)
  else if String.eqb key "into_endian" then
    x <~ endian_from_str value ;;
    ret (mkArgs o fe x we nw fib ft df db cp bu bo wbo uw cbo uc sbo us ibo ui tbo ut ah)
  else if String.eqb key "write_endian" then
    x <~ endian_from_str value ;;
    ret (mkArgs o fe ie x nw fib ft df db cp bu bo wbo uw cbo uc sbo us ibo ui tbo ut ah)
  else if String.eqb key "new" then
    bool_arg (fun b => mkArgs o fe ie we b fib ft df db cp bu bo wbo uw cbo uc sbo us ibo ui tbo ut ah)
  else if String.eqb key "from_into_bits" then
    bool_arg (fun b => mkArgs o fe ie we nw b ft df db cp bu bo wbo uw cbo uc sbo us ibo ui tbo ut ah)
  else if String.eqb key "from_traits" then
    bool_arg (fun b => mkArgs o fe ie we nw fib b df db cp bu bo wbo uw cbo uc sbo us ibo ui tbo ut ah)
  else if String.eqb key "default" then
    bool_arg (fun b => mkArgs o fe ie we nw fib ft b db cp bu bo wbo uw cbo uc sbo us ibo ui tbo ut ah)
  else if String.eqb key "debug" then
    bool_arg (fun b => mkArgs o fe ie we nw fib ft df b cp bu bo wbo uw cbo uc sbo us ibo ui tbo ut ah)
  else if String.eqb key "copy" then
    bool_arg (fun b => mkArgs o fe ie we nw fib ft df db b bu bo wbo uw cbo uc sbo us ibo ui tbo ut ah)
  else if String.eqb key "builder" then
    bool_arg (fun b => mkArgs o fe ie we nw fib ft df db cp b bo wbo uw cbo uc sbo us ibo ui tbo ut ah)
  else if String.eqb key "bit_ops" then
    bool_arg (fun b => mkArgs o fe ie we nw fib ft df db cp bu b wbo uw cbo uc sbo us ibo ui tbo ut ah)
  else if String.eqb key "write_bit_ops" then
    bool_arg (fun b => mkArgs o fe ie we nw fib ft df db cp bu bo b true cbo uc sbo us ibo ui tbo ut ah)
  else if String.eqb key "clear_bit_ops" then
    bool_arg (fun b => mkArgs o fe ie we nw fib ft df db cp bu bo wbo uw b true sbo us ibo ui tbo ut ah)
  else if String.eqb key "set_get_bit_ops" then
    bool_arg (fun b => mkArgs o fe ie we nw fib ft df db cp bu bo wbo uw cbo uc b true ibo ui tbo ut ah)
  else if String.eqb key "invert_bit_ops" then
    bool_arg (fun b => mkArgs o fe ie we nw fib ft df db cp bu bo wbo uw cbo uc sbo us b true tbo ut ah)
  else if String.eqb key "toggle_bit_ops" then
    bool_arg (fun b => mkArgs o fe ie we nw fib ft df db cp bu bo wbo uw cbo uc sbo us ibo ui b true ah)
  else if String.eqb key "array_heap" then
    bool_arg (fun b => mkArgs o fe ie we nw fib ft df db cp bu bo wbo uw cbo uc sbo us ibo ui tbo ut b)
  else if String.eqb key "force_panic" then
    b <~ parse_bool_arg value ;; POk (a, b)
  else PPanic
  end.

(** bitfield_arguments.rs:343-447 ([BitfieldArguments::parse]). *)
Definition parse_bitfield_args (F : features) (args : list (string * string)) : pr (bfargs * bool) :=
  _ <~ check_keys bitfield_keys args ;;
  fold_args bitfield_arg (args_default F, false) args.

(** bitfield_attribute_parser.rs:25-33, 44-108 ([BitfieldAttribute::parse]). *)
Definition parse_bitfield_attribute (F : features) (d : rdecl) : pr (dtype * (bfargs * bool)) :=
  match d_type d with
  | None => PErr EBackingType
  | Some t =>
      match get_data_type t with
      | PErr _ => PErr EBackingType
      | PPanic => PPanic
      | POk ty =>
          match ty with
          | DCustom => PErr EBackingType
          | _ =>
              if negb (dt_unsigned ty) then PErr EBackingType
              else a <~ parse_bitfield_args F (d_args d) ;; POk (ty, a)
          end
      end
  end.

(** bitfield_parser.rs:20-40 ([parse_bitfield_struct]) followed by
    lib.rs:2148-2163 ([start_bitfield_generation], [check_force_panic]).
    [m] is the arithmetic of the macro's own build. *)
Definition parse_bitfield (m : mode) (F : features) (d : rdecl) : pr bitfield :=
  at_ <~ parse_bitfield_attribute F d ;;
  let '(ty, (args, fp)) := at_ in
  if negb (d_named d) then PErr EUnnamed
  else
    fs <~ parse_fields_loop m (a_order args) ty (d_vis d) (d_fields d) [] [] [] ;;
    _ <~ check_fit m ty (fst fs) ;;
    if fp then PPanic
    else POk (mkBitfield (d_vis d) (d_name d) ty (fst fs) (snd fs) args).
