(** [#[bitflag]] enums: declaration -> descriptor (the files under
    parsing/bitflags) and the generated [from_bits] / [into_bits]
    (generating/bitflag/bitflag_generator.rs). *)
From Coq Require Import ZArith List Bool String Ascii.
From Verif Require Import RustInt Syntax ConstExpr Parser.
Import ListNotations.
Open Scope Z_scope.

(** ** Input *)

(** Form of a discriminant expression: an integer literal with optional minus
    sign, a path, anything else. *)
Inductive eform := FLit | FPath | FOther.

(** An enum variant.  [v_attrs] are the names of its attributes, [v_text] the
    text of the discriminant, [v_value] the value rustc gives to that
    expression at the type of the enum.  The macro does not look at [v_value]
    and [v_form]. *)
Record rvariant := mkRVariant {
  v_name : string;
  v_attrs : list string;
  v_text : option string;
  v_form : eform;
  v_value : Z }.

(** An enum with the arguments of [#[bitflag(..)]]; [e_type] is [None] when the
    attribute is empty or does not begin with a type. *)
Record renum := mkREnum {
  e_vis : vis;
  e_name : string;
  e_type : option rtype;
  e_args : list (string * string);
  e_variants : list rvariant }.

(** One constructor per kind of error reported by the files under
    parsing/bitflags. *)
Inductive ferr :=
| FType          (* bitflag_attribute_parser.rs:44-103 *)
| FArgument (e : perr)  (* bitflag_arguments.rs:84-118 *)
| FFloat         (* const_expr.rs:80-93, from bitflag_parser.rs:71 *)
| FNoValue       (* bitflag_parser.rs:73-81 *)
| FManyBases     (* bitflag_parser.rs:92-97 *)
| FNoBase.       (* bitflag_parser.rs:99-107 *)

(** ** Descriptor *)

(** bitflag_arguments.rs:33-44 ([struct BitflagArguments]). *)
Record flagargs := mkFlagArgs {
  fa_from : endian;
  fa_into : endian;
  fa_copy : bool }.

(** parsing/bitflags/bitflag.rs ([struct BitflagVariant], [struct Bitflag]). *)
Record variant := mkVariant {
  x_name : string;
  x_attrs : list string;
  x_value : Z;
  x_form : eform;
  x_base : bool;
  x_default : bool }.
Record bitflag := mkBitflag {
  g_vis : vis;
  g_name : string;
  g_ty : dtype;
  g_variants : list variant;
  g_args : flagargs }.

(** ** Parser *)

(** bitflag_arguments.rs:46-66 ([BitflagArguments::default]). *)
Definition flagargs_default (F : features) : flagargs :=
  (mkFlagArgs
    (resolve_endian (F "bitflag_from_endian_little") (F "bitflag_from_endian_big") Big)
    (resolve_endian (F "bitflag_into_endian_little") (F "bitflag_into_endian_big") Big)
    (resolve_bool (F "bitflag_derive_copy") (F "bitflag_disable_copy")))%string.

(** bitflag_arguments.rs:68-78. *)
Definition flag_keys : list string := ["from_endian"; "into_endian"; "copy"]%string.

(** bitflag_arguments.rs:92-114: one argument. *)
Definition flag_arg (acc : flagargs) (arg : string * string) : pr flagargs :=
  let (key, value) := arg in
  if String.eqb key "from_endian" then
    x <~ endian_from_str value ;; POk (mkFlagArgs x (fa_into acc) (fa_copy acc))
  else if String.eqb key "into_endian" then
    x <~ endian_from_str value ;; POk (mkFlagArgs (fa_from acc) x (fa_copy acc))
  else if String.eqb key "copy" then
    b <~ parse_bool_arg value ;; POk (mkFlagArgs (fa_from acc) (fa_into acc) b)
  else PPanic.

(** bitflag_arguments.rs:79-121 ([BitflagArguments::parse]). *)
Definition parse_flag_args (F : features) (args : list (string * string)) : pr flagargs :=
  _ <~ check_keys flag_keys args ;;
  fold_args flag_arg (flagargs_default F) args.

(** bitflag_attribute_parser.rs:23-34, 44-91 ([BitflagAttribute::parse]). *)
Definition parse_flag_attribute (F : features) (e : renum) : pres ferr (dtype * flagargs) :=
  match e_type e with
  | None => PErr FType
  | Some t =>
      match get_data_type t with
      | PErr _ => PErr FType
      | PPanic => PPanic
      | POk ty =>
          match ty with
          | DCustom => PErr FType
          | _ =>
              if negb (dt_unsigned ty) then PErr FType
              else match parse_flag_args F (e_args e) with
                   | POk a => POk (ty, a)
                   | PErr x => PErr (FArgument x)
                   | PPanic => PPanic
                   end
          end
      end
  end.

(** bitflag_parser.rs:53-85 ([parse_variant_helper]). *)
Definition parse_variant (v : rvariant) : pres ferr variant :=
  let base := existsb (String.eqb "base") (v_attrs v) in
  let default := existsb (String.eqb "default") (v_attrs v) in
  let kept := filter (fun a => negb (String.eqb a "base")) (v_attrs v) in
  match v_text v with
  | None => PErr FNoValue
  | Some text =>
      match const_expr_new text with
      | POk _ => POk (mkVariant (v_name v) kept (v_value v) (v_form v) base default)
      | PErr _ => PErr FFloat
      | PPanic => PPanic
      end
  end.

(** bitflag_parser.rs:45-47 ([parse_variants]): the first error wins. *)
Fixpoint parse_variants (vs : list rvariant) : pres ferr (list variant) :=
  match vs with
  | [] => POk []
  | v :: t => x <~ parse_variant v ;; xs <~ parse_variants t ;; POk (x :: xs)
  end.

(** bitflag_parser.rs:87-112 ([check_base_bitflag_variants]). *)
Definition check_base (xs : list variant) : pres ferr unit :=
  if (1 <? List.length (filter x_base xs))%nat then PErr FManyBases
  else if negb (existsb (fun x => x_base x || x_default x) xs) then PErr FNoBase
  else POk tt.

(** bitflag_parser.rs:15-35 ([parse_bitflag_enum]). *)
Definition parse_bitflag (F : features) (e : renum) : pres ferr bitflag :=
  a <~ parse_flag_attribute F e ;;
  xs <~ parse_variants (e_variants e) ;;
  _ <~ check_base xs ;;
  POk (mkBitflag (e_vis e) (e_name e) (fst a) xs (snd a)).

(** ** Generator *)

(** A match arm: a pattern (the value of the emitted expression and its form) or
    the wildcard, and the variant it gives. *)
Inductive pattern := PVal (z : Z) (form : eform) | PWild.
Definition arm := (pattern * string)%type.

(** bitflag_generator.rs:83-112 ([generate_match_cases_tokens_list]); the
    [panic!] happens in the macro. *)
Definition match_cases (g : bitflag) : outcome (list arm) :=
  let cases := map (fun x => (PVal (x_value x) (x_form x), x_name x))
                 (filter (fun x => negb (x_base x)) (g_variants g)) in
  match (match find x_base (g_variants g) with
         | Some x => Some x
         | None => find x_default (g_variants g)
         end) with
  | Some x => Val (cases ++ [(PWild, x_name x)])
  | None => Panic
  end.

(** Rust [match] on an integer: the first arm whose pattern matches. *)
Definition matches (p : pattern) (z : Z) : bool :=
  match p with PVal v _ => z =? v | PWild => true end.
Definition run_match (arms : list arm) (z : Z) : outcome string :=
  match find (fun a => matches (fst a) z) arms with
  | Some a => Val (snd a)
  | None => Panic
  end.

(** endian_conversion.rs:8-19
    ([generate_bits_variable_endian_conversion_tokens]). *)
Definition convert_bits (e : endian) (t : ity) (z : Z) : Z :=
  match e with Little => swap_bytes (ity_bits t) z | Big => z end.

(** The integer type of the enum; rustc accepts no other [repr] and defines
    [swap_bytes] for no other of the types the parser lets through. *)
Definition flag_ity (g : bitflag) : outcome ity :=
  match g_ty g with
  | DInteger TBool => Panic
  | DInteger t => Val t
  | _ => Panic
  end.

(** bitflag_generator.rs:65-81 ([from_bits]).  The result is the name of a
    variant. *)
Definition flag_from_bits (g : bitflag) (bits : Z) : outcome string :=
  t <- flag_ity g ;;
  arms <- match_cases g ;;
  run_match arms (convert_bits (fa_from (g_args g)) t bits).

(** bitflag_generator.rs:114-127 ([into_bits]); [self as T] is the discriminant
    of the variant. *)
Definition flag_into_bits (g : bitflag) (x : variant) : outcome Z :=
  t <- flag_ity g ;;
  Val (convert_bits (fa_into (g_args g)) t (cast t (x_value x))).
