(** The documentation attached to the items generated for a field.

    Paths are relative to /repo/bitfields_impl/src/generating/bitfield/features.
    The fixed documentation strings of the functions that belong to no field are
    not modelled. *)
From Coq Require Import ZArith List Bool String Ascii.
From Verif Require Import RustInt Syntax Surface.
Import ListNotations.
Open Scope string_scope.

(** [Display] of a [u32]: decimal digits without leading zeros. *)
Definition digit (d : Z) : string := String (ascii_of_nat (48 + Z.to_nat d)) EmptyString.
Fixpoint show (fuel : nat) (z : Z) : string :=
  match fuel with
  | O => digit (z mod 10)%Z
  | S k => (if (z <? 10)%Z then "" else show k (z / 10)%Z) ++ digit (z mod 10)%Z
  end.
Definition decimal (z : Z) : string := show (Z.to_nat (Z.log2 z)) z.

(** common/generator_helper.rs:818-825 ([get_field_unit_terms]) *)
Definition unit_terms (f : field) : string * string :=
  match f_ty f with DArray _ => ("byte", "bytes") | _ => ("bit", "bits") end.

(** The pair of numbers of a range, e.g. common/generator_helper.rs:852-859; the
    sum stays within [u32] because the field lies inside the bitfield. *)
Definition doc_range (bf : bitfield) (f : field) : Z * Z :=
  let bits_end := (f_off f + f_bits f - 1)%Z in
  match a_order (b_args bf) with Msb => (bits_end, f_off f) | Lsb => (f_off f, bits_end) end.
Definition doc_bits (bf : bitfield) (f : field) : string :=
  "`" ++ decimal (fst (doc_range bf f)) ++ "..=" ++ decimal (snd (doc_range bf f)) ++ "`".

(** common/generator_helper.rs:828-871 ([get_setter_documentation]) *)
Definition setter_doc (bf : bitfield) (f : field) (checked builder : bool) : string :=
  let prefix := if builder then "builder" else "" in
  let (unit, units) := unit_terms f in
  if (f_bits f =? 1)%Z then
    let suffix :=
      if (checked && match f_ty f with DInteger TBool => false | _ => true end)%bool
      then ". Returns an error if the value is too big to fit within the field " ++ unit else "" in
    "Sets " ++ prefix ++ " " ++ unit ++ " `" ++ decimal (f_off f) ++ "`" ++ suffix ++ "."
  else
    let suffix :=
      if checked then ". Returns an error if the value is too big to fit within the field " ++ units else "" in
    "Sets " ++ prefix ++ " " ++ units ++ " " ++ doc_bits bf f ++ suffix ++ ".".

(** field_getters_feature.rs:118-150 ([get_getter_documentation]) *)
Definition getter_doc (bf : bitfield) (f : field) : string :=
  let (unit, units) := unit_terms f in
  if (f_bits f =? 1)%Z then
    if dt_unsigned (f_ty f) then "Returns " ++ unit ++ " `" ++ decimal (f_off f) ++ "`."
    else "Returns sign-extended " ++ unit ++ " `" ++ decimal (f_off f) ++ "`."
  else
    if dt_unsigned (f_ty f) then "Returns " ++ units ++ " " ++ doc_bits bf f ++ "."
    else "Returns sign-extended " ++ units ++ " " ++ doc_bits bf f ++ ", from the sign-" ++ unit ++
         " `" ++ decimal (f_off f) ++ ".".

(** clear_bit_ops_feature.rs:129-148 ([get_clear_field_documentation]) and
    invert_bit_ops_feature.rs:221-240 ([get_invert_field_documentation]): the same
    text with another verb. *)
Definition verb_doc (verb : string) (bf : bitfield) (f : field) : string :=
  let (unit, units) := unit_terms f in
  if (f_bits f =? 1)%Z then verb ++ " " ++ unit ++ " `" ++ decimal (f_off f) ++ "`."
  else verb ++ " " ++ units ++ " " ++ doc_bits bf f ++ ".".

(** field_constants_feature.rs:56-60 *)
Definition bits_constant_doc (f : field) : string :=
  "The number of " ++ snd (unit_terms f) ++ " `" ++ f_name f ++ "` occupies in the bitfield.".
Definition offset_constant_doc (f : field) : string :=
  "The " ++ fst (unit_terms f) ++ " offset of `" ++ f_name f ++ "` in the bitfield.".

(** Which text goes to which item: field_constants_feature.rs:62-65,
    field_getters_feature.rs:44, 61, field_setters_feature.rs:53-58, 73-79,
    clear_bit_ops_feature.rs:95-119, invert_bit_ops_feature.rs:122-171,
    builder_feature.rs:159-173. *)
Definition item_doc (bf : bitfield) (r : role) (f : field) : string :=
  match r with
  | RWidth => bits_constant_doc f
  | ROffset => offset_constant_doc f
  | RGetter => getter_doc bf f
  | RSetter => setter_doc bf f false false
  | RCheckedSetter => setter_doc bf f true false
  | RClear | RClearDefault => verb_doc "Clears" bf f
  | RInvert | RInverted => verb_doc "Inverts" bf f
  | RWith => setter_doc bf f false true
  | RCheckedWith => setter_doc bf f true true
  | RWhole => ""
  end.
