(** Data types, fields and the bitfield descriptor handed from the parser to
    the generator. *)
From Coq Require Import ZArith List Bool String.
From Verif Require Import RustInt.
Import ListNotations.
Open Scope Z_scope.

(** parsing/common/spanned_data_type.rs:202-217 ([enum IntegerType]).  [Usize]
    and [Isize] never reach a descriptor (rejected at 61-63), they are only
    part of the raw types of Parser.v. *)
Inductive ity := U8 | U16 | U32 | U64 | U128 | I8 | I16 | I32 | I64 | I128 | TBool.

(** parsing/common/spanned_data_type.rs:220-233 ([IntegerType::bit_size]). *)
Definition ity_bits (t : ity) : Z :=
  match t with
  | U8 | I8 => 8 | U16 | I16 => 16 | U32 | I32 => 32 | U64 | I64 => 64
  | U128 | I128 => 128 | TBool => 1
  end.
(** parsing/common/spanned_data_type.rs:235-237 ([IntegerType::is_unsigned]). *)
Definition ity_unsigned (t : ity) : bool :=
  match t with U8 | U16 | U32 | U64 | U128 | TBool => true | _ => false end.

(** parsing/common/spanned_data_type.rs:149-156 ([enum DataType]). *)
Inductive dtype := DInteger (t : ity) | DArray (len : Z) | DCustom.

(** parsing/common/spanned_data_type.rs:191-199 ([DataType::unsigned]). *)
Definition dt_unsigned (d : dtype) : bool :=
  match d with DInteger t => ity_unsigned t | DArray _ | DCustom => true end.

(** [e as T] for an integer type [T] (Rust semantics; not defined for bool). *)
Definition cast (t : ity) (z : Z) : Z :=
  if ity_unsigned t then ucast (ity_bits t) z else scast (ity_bits t) z.

(** [z] is a value of type [T]. *)
Definition in_ity (t : ity) (z : Z) : Prop :=
  if ity_unsigned t then 0 <= z < 2 ^ ity_bits t
  else - 2 ^ (ity_bits t - 1) <= z < 2 ^ (ity_bits t - 1).

(** A user's custom field type: its [from_bits] (with the integer type of the
    parameter) and its [into_bits] (with the integer type of the result).  Its
    values are represented by integers.  Simplification: user code is total and
    effect free (no panics inside [from_bits]/[into_bits]). *)
Record codec := mkCodec {
  cd_from_ty : ity;
  cd_from : Z -> Z;
  cd_into_ty : ity;
  cd_into : Z -> Z }.

(** Values a user passes to / receives from field accessors. *)
Inductive fval :=
| VInt (z : Z)          (* integer field types *)
| VBool (b : bool)
| VArr (l : list Z)     (* [u8; len] *)
| VCustom (t : Z).      (* value of a custom type *)

(** Operand of the emitted assignments: the Rust expression in [#value_tokens]
    evaluated.  [PInt] is an integer typed expression, [PArr] a byte array. *)
Inductive pval := PInt (z : Z) | PBool (b : bool) | PArr (l : list Z) | PCustom (t : Z).

(** parsing/bitfields/bits_attribute/bits_arguments.rs ([enum FieldAccess]). *)
Inductive access := ReadOnly | WriteOnly | ReadWrite | NoAccess.

(** parsing/common/visibility.rs ([enum Visibility]); [VisRestricted] stands for
    [pub(crate)] and the other restricted forms. *)
Inductive vis := VisPrivate | VisPublic | VisRestricted (s : string).

(** parsing/bitfields/bitfield.rs:79-114 ([struct Field]).  [f_default] is the
    value of [arguments.default_value_expr()] (bits_arguments.rs), already
    evaluated; [f_codec] is the user's custom type (only used when [f_ty] is
    [DCustom]).  The spans and tokens are dropped. *)
Record field := mkField {
  f_vis : vis;
  f_name : string;
  f_ty : dtype;
  f_bits : Z;
  f_off : Z;
  f_reserved : bool;
  f_access : access;
  f_default : option pval;
  f_ignored : bool;
  f_codec : codec }.

(** bitfield.rs:191-194 ([has_read_access]). *)
Definition has_read_access (f : field) : bool :=
  match f_access f with ReadOnly | ReadWrite => true | _ => false end.
(** bitfield.rs:172-179 ([has_setter]). *)
Definition has_setter (f : field) : bool :=
  if f_reserved f then false
  else match f_access f with WriteOnly | ReadWrite => true | _ => false end.
(** bitfield.rs:182-189 ([has_getter]). *)
Definition has_getter (f : field) : bool :=
  if f_reserved f then false
  else match f_access f with ReadOnly | ReadWrite => true | _ => false end.
(** bitfield.rs:197-199 ([has_constants]). *)
Definition has_constants (f : field) : bool := has_getter f || has_setter f.
(** bitfield.rs:167-169 ([has_default_value]). *)
Definition has_default (f : field) : bool :=
  match f_default f with Some _ => true | None => false end.
(** bitfield.rs:146-154 ([Field::visibility]). *)
Definition field_visibility (f : field) : vis :=
  match f_access f with
  | ReadWrite | ReadOnly => f_vis f
  | _ => VisPrivate
  end.

(** parsing/common/conversion_endian.rs ([enum ConversionEndian]). *)
Inductive endian := Little | Big.
(** parsing/bitfields/bitfield_attribute/bitfield_arguments.rs ([enum BitOrder]). *)
Inductive border := Lsb | Msb.

(** bitfield_arguments.rs ([struct BitfieldArguments]): the arguments that the
    generator reads. *)
Record bfargs := mkArgs {
  a_order : border;
  a_from_endian : endian;
  a_into_endian : endian;
  a_write_endian : endian;
  a_new : bool;
  a_from_into_bits : bool;
  a_from_traits : bool;
  a_default : bool;
  a_debug : bool;
  a_copy : bool;
  a_builder : bool;
  a_bit_ops : bool;
  a_write_bit_ops : bool;
  a_user_write_bit_ops : bool;
  a_clear_bit_ops : bool;
  a_user_clear_bit_ops : bool;
  a_set_get_bit_ops : bool;
  a_user_set_get_bit_ops : bool;
  a_invert_bit_ops : bool;
  a_user_invert_bit_ops : bool;
  a_toggle_bit_ops : bool;
  a_user_toggle_bit_ops : bool;
  a_array_heap : bool }.

(** bitfield.rs:14-38 ([struct Bitfield]); attributes, spans dropped. *)
Record bitfield := mkBitfield {
  b_vis : vis;
  b_name : string;
  b_ty : dtype;
  b_fields : list field;
  b_ignored : list field;
  b_args : bfargs }.

(** bitfield.rs:74-76 ([is_integer_backed]). *)
Definition is_integer_backed (bf : bitfield) : bool :=
  match b_ty bf with DInteger _ => true | _ => false end.

(** Storage: the tuple field [.0] (or [.val]) of the generated struct. *)
Inductive store := StI (z : Z) | StA (l : list Z).
