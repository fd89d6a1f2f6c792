(** Which items the macro generates, under which names and visibilities.

    Paths are relative to /repo/bitfields_impl/src/generating/bitfield; the
    features are in features/.  Method bodies are the subject of Gen.v. *)
From Coq Require Import ZArith List Bool String Ascii.
From Verif Require Import RustInt Syntax ConstExpr.
Import ListNotations.
Open Scope string_scope.

(** What a generated item is for. *)
Inductive role :=
| RWidth | ROffset                       (* constants *)
| RGetter | RSetter | RCheckedSetter
| RClear | RClearDefault | RInvert | RInverted
| RWith | RCheckedWith                  (* builder *)
| RWhole.                               (* belongs to no field *)

(** An associated function or constant; [it_field] is the field it is generated
    for.  Parameters and the [const] modifier are not modelled. *)
Record item := mkItem {
  it_role : role;
  it_field : option field;
  it_vis : vis;
  it_name : string }.

(** ** Identifiers *)

Definition is_alpha (c : ascii) : bool :=
  let n := nat_of_ascii c in ((65 <=? n) && (n <=? 90) || (97 <=? n) && (n <=? 122) || (n =? 95))%nat.
Definition is_alnum (c : ascii) : bool :=
  let n := nat_of_ascii c in is_alpha c || ((48 <=? n) && (n <=? 57))%nat.
(** [proc_macro2::Ident::new] accepts the text (ASCII part; keywords are accepted
    too). *)
Definition ident_ok (s : string) : bool :=
  match s with
  | EmptyString => false
  | String c r => is_alpha c && forallb is_alnum (list_ascii_of_string r)
  end.
(** [format_ident!] with string arguments: a text beginning with [r#] is made a
    raw identifier, otherwise [Ident::new] is called, which panics on anything
    that is no identifier. *)
Definition mk_ident (s : string) : outcome string :=
  match s with
  | String "r" (String "#" r) => if ident_ok r then Val s else Panic
  | _ => if ident_ok s then Val s else Panic
  end.

(** [str::to_uppercase] (ASCII part). *)
Definition upper (c : ascii) : ascii :=
  let n := nat_of_ascii c in
  if ((97 <=? n) && (n <=? 122))%nat then ascii_of_nat (n - 32) else c.
Definition uppercase (s : string) : string :=
  string_of_list_ascii (map upper (list_ascii_of_string s)).

(** features/common/naming_extensions.rs:24-44, field_getters_feature.rs:48 (the
    name itself), clear_bit_ops_feature.rs:96, 116, invert_bit_ops_feature.rs:121,
    157, builder_feature.rs:145-150. *)
Definition role_name (r : role) (name : string) : string :=
  match r with
  | RWidth => uppercase name ++ "_BITS"
  | ROffset => uppercase name ++ "_OFFSET"
  | RGetter => name
  | RSetter => "set_" ++ name
  | RCheckedSetter => "checked_set_" ++ name
  | RClear => "clear_" ++ name
  | RClearDefault => "clear_" ++ name ++ "_to_default"
  | RInvert => "invert_" ++ name
  | RInverted => name ++ "_inverted"
  | RWith => "with_" ++ name
  | RCheckedWith => "checked_with_" ++ name
  | RWhole => name
  end.

(** The getter's name is the field's own identifier token; the others are made
    with [format_ident!]. *)
Definition field_item (r : role) (v : vis) (f : field) : outcome item :=
  n <- match r with RGetter => Val (f_name f) | _ => mk_ident (role_name r (f_name f)) end ;;
  Val (mkItem r (Some f) v n).

Fixpoint collect {A} (l : list (outcome A)) : outcome (list A) :=
  match l with
  | [] => Val []
  | x :: t => a <- x ;; r <- collect t ;; Val (a :: r)
  end.
Definition per_field (cond : field -> bool) (roles : list (role * (field -> vis))) (bf : bitfield)
  : outcome (list item) :=
  collect (flat_map (fun f => map (fun p => field_item (fst p) (snd p f) f) roles)
             (filter cond (b_fields bf))).
Definition whole (bf : bitfield) (names : list string) : list item :=
  map (mkItem RWhole None (b_vis bf)) names.

(** ** feature.rs:49-62 ([is_bit_ops_feature_enabled]) *)
Definition group_on (bf : bitfield) (enabled user_set : bool) : bool :=
  if negb (a_bit_ops (b_args bf)) then enabled && user_set else enabled.

(** ** [enabled] of the features *)
(** write_bit_ops_feature.rs:23-29: passes [generate_bit_ops] and
    [generate_set_get_bit_ops]. *)
Definition write_on (bf : bitfield) : bool :=
  group_on bf (a_bit_ops (b_args bf)) (a_set_get_bit_ops (b_args bf)).
(** set_get_bit_ops_feature.rs:19-25 *)
Definition set_get_on (bf : bitfield) : bool :=
  group_on bf (a_set_get_bit_ops (b_args bf)) (a_user_set_get_bit_ops (b_args bf)).
(** clear_bit_ops_feature.rs:22-28 *)
Definition clear_on (bf : bitfield) : bool :=
  group_on bf (a_clear_bit_ops (b_args bf)) (a_user_clear_bit_ops (b_args bf)).
(** invert_bit_ops_feature.rs:24-30 *)
Definition invert_on (bf : bitfield) : bool :=
  group_on bf (a_invert_bit_ops (b_args bf)) (a_user_invert_bit_ops (b_args bf)).

(** ** Items inside the [impl] block *)

(** field_constants_feature.rs:44-69 *)
Definition constant_items (bf : bitfield) : outcome (list item) :=
  per_field has_constants [(RWidth, field_visibility); (ROffset, field_visibility)] bf.

(** new_functions_feature.rs:39-88 *)
Definition new_names : list string := ["new"; "new_without_defaults"].

(** from_into_bits_feature.rs:58-173 (integer backing) and 191-719 (array
    backing), in source order. *)
Definition int_conversion_names : list string :=
  ["from_bits"; "from_bits_with_defaults"; "from_le_bits"; "from_le_bits_with_defaults";
   "from_be_bits"; "from_be_bits_with_defaults"; "into_bits"; "into_le_bits"; "into_be_bits"].
Definition array_conversion_names : list string :=
  ["from_bytes"; "from_bytes_with_defaults"; "from_le_bytes"; "from_le_bytes_with_defaults";
   "from_be_bytes"; "from_be_bytes_with_defaults";
   "from_slice"; "from_slice_with_defaults"; "checked_from_slice"; "checked_from_slice_with_defaults";
   "from_le_slice"; "from_le_slice_with_defaults"; "checked_from_le_slice";
   "checked_from_le_slice_with_defaults";
   "from_be_slice"; "from_be_slice_with_defaults"; "checked_from_be_slice";
   "checked_from_be_slice_with_defaults";
   "into_bytes"; "into_le_bytes"; "into_be_bytes";
   "into_slice"; "checked_into_slice"; "into_le_slice"; "checked_into_le_slice";
   "into_be_slice"; "checked_into_be_slice"].
Definition conversion_names (bf : bitfield) : list string :=
  if is_integer_backed bf then int_conversion_names else array_conversion_names.

(** field_getters_feature.rs:37-69 *)
Definition getter_items (bf : bitfield) : outcome (list item) :=
  per_field has_getter [(RGetter, field_visibility)] bf.
(** field_setters_feature.rs:40-86 *)
Definition setter_items (bf : bitfield) : outcome (list item) :=
  per_field has_setter [(RSetter, field_visibility); (RCheckedSetter, field_visibility)] bf.

(** common/generator_helper.rs:1007-1009 *)
Definition bob (bf : bitfield) : string := if is_integer_backed bf then "bits" else "bytes".
(** write_bit_ops_feature.rs:63-70, 134 *)
Definition write_names (bf : bitfield) : list string :=
  let b := bob bf in
  ["write_" ++ b; "write_" ++ b ++ "_with_defaults"; "write_le_" ++ b;
   "write_le_" ++ b ++ "_with_defaults"; "write_be_" ++ b; "write_be_" ++ b ++ "_with_defaults";
   "write_defaults"].
(** set_get_bit_ops_feature.rs:94-257, 305-435 *)
Definition set_get_names (bf : bitfield) : list string :=
  let b := bob bf in
  ["set_bit"; "checked_set_bit"; "set_" ++ b ++ "_range"; "checked_set_" ++ b ++ "_range";
   "get_bit"; "checked_get_bit"; "get_" ++ b ++ "_range"; "checked_get_" ++ b ++ "_range"].

(** clear_bit_ops_feature.rs:65-67, invert_bit_ops_feature.rs:66-67 *)
Definition clear_names (bf : bitfield) : list string :=
  ["clear_" ++ bob bf; "clear_" ++ bob bf ++ "_with_defaults"].
Definition invert_names (bf : bitfield) : list string := ["invert_" ++ bob bf].

(** clear_bit_ops_feature.rs:53-126; the per-field functions have the visibility
    of the bitfield (93, 111). *)
Definition clear_items (bf : bitfield) : outcome (list item) :=
  x <- per_field has_setter [(RClear, fun _ => b_vis bf)] bf ;;
  y <- per_field (fun f => has_setter f && has_default f)%bool [(RClearDefault, fun _ => b_vis bf)] bf ;;
  Val (whole bf (clear_names bf) ++ x ++ y)%list.
(** invert_bit_ops_feature.rs:54-180; the per-field functions have the visibility
    of the bitfield (111, 148). *)
Definition invert_items (bf : bitfield) : outcome (list item) :=
  x <- per_field has_setter [(RInvert, fun _ => b_vis bf)] bf ;;
  y <- per_field has_getter [(RInverted, fun _ => b_vis bf)] bf ;;
  Val (whole bf (invert_names bf) ++ x ++ y)%list.

Definition when {A} (b : bool) (x : outcome (list A)) : outcome (list A) := if b then x else Val [].

(** bitfield_generator.rs:34-103: the enabled features in the order of their
    priorities (0 to 8). *)
Definition impl_items (bf : bitfield) : outcome (list item) :=
  let a := b_args bf in
  p0 <- constant_items bf ;;
  p1 <- when (a_new a) (Val (whole bf new_names)) ;;
  p2 <- when (a_from_into_bits a) (Val (whole bf (conversion_names bf))) ;;
  p3 <- getter_items bf ;;
  p4 <- setter_items bf ;;
  p5 <- when (write_on bf) (Val (whole bf (write_names bf))) ;;
  p6 <- when (set_get_on bf) (Val (whole bf (set_get_names bf))) ;;
  p7 <- when (clear_on bf) (clear_items bf) ;;
  p8 <- when (invert_on bf) (invert_items bf) ;;
  Val (p0 ++ p1 ++ p2 ++ p3 ++ p4 ++ p5 ++ p6 ++ p7 ++ p8)%list.

(** ** Items outside *)

(** builder_feature.rs:41-92 (the builder type and its functions), 122-180. *)
Definition builder_items (bf : bitfield) : outcome (list item) :=
  x <- per_field (fun f => negb (f_reserved f)) [(RWith, field_visibility); (RCheckedWith, field_visibility)] bf ;;
  Val (whole bf ["new"; "new_without_defaults"] ++ x ++ whole bf ["build"])%list.
(** [None]: no builder type. *)
Definition builder (bf : bitfield) : outcome (option (string * list item)) :=
  if a_builder (b_args bf) then
    n <- mk_ident (b_name bf ++ "Builder") ;;
    l <- builder_items bf ;;
    Val (Some (n, l))
  else Val None.

(** Traits implemented or derived for the bitfield. *)
Inductive trait := TFromBacking | TIntoBacking | TDefault | TDebug | TClone | TCopy.
(** from_traits_feature.rs:26-28, default_trait_feature.rs:19-21,
    debug_trait_feature.rs:19-21, bitfield_struct_feature.rs:71-95. *)
Definition traits (bf : bitfield) : list trait :=
  let a := b_args bf in
  ((if a_copy a then
      if (a_array_heap a && negb (is_integer_backed bf))%bool then [TClone] else [TCopy; TClone]
    else []) ++
   (if a_from_traits a then [TFromBacking; TIntoBacking] else []) ++
   (if a_default a then [TDefault] else []) ++
   (if a_debug a then [TDebug] else []))%list.

(** The struct: its representation attribute and its fields (name, visibility);
    a tuple field is named ["0"].  bitfield_struct_feature.rs:60-191; 176-190
    prints [field.visibility()] of ignored fields. *)
Definition struct_fields (bf : bitfield) : list (string * vis) :=
  match b_ignored bf with
  | [] => [("0", VisPrivate)]
  | ign => ("val", VisPrivate) :: map (fun f => (f_name f, field_visibility f)) ign
  end.

(** Everything the macro emits for a descriptor; [Panic] when one of the names is
    no identifier (lib.rs:2287-2298 turns that into a compile error). *)
Record surface := mkSurface {
  s_vis : vis;
  s_fields : list (string * vis);
  s_impl : list item;
  s_traits : list trait;
  s_builder : option (string * list item) }.
Definition generate (bf : bitfield) : outcome surface :=
  l <- impl_items bf ;;
  b <- builder bf ;;
  Val (mkSurface (b_vis bf) (struct_fields bf) l (traits bf) b).
