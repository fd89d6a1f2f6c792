(** The library paths the emitted code names.

    Paths are relative to /repo/bitfields_impl/src/generating.  Names of the
    prelude ([Ok], [Err], [Default] as in [T::default()], integer types) and the
    user's own types are not listed: both come from the surroundings.  Listed
    once per item kind, not once per occurrence. *)
From Coq Require Import List Bool String.
From Verif Require Import Syntax Surface Rust Emit Bitflag.
Import ListNotations.
Open Scope string_scope.
Open Scope list_scope.

(** [lp_rooted]: written with a leading [::]. *)
Record lpath := mkLPath { lp_rooted : bool; lp_crate : string; lp_segments : list string }.

(** bitfield/features/bitfield_struct_feature.rs:86, 90 (derives),
    from_traits_feature.rs:72, 92, default_trait_feature.rs:39,
    debug_trait_feature.rs:39-40. *)
Definition trait_paths (t : trait) : list lpath :=
  match t with
  | TCopy => [mkLPath false "std" ["marker"; "Copy"]]
  | TClone => [mkLPath false "core" ["clone"; "Clone"]]
  | TFromBacking | TIntoBacking => [mkLPath false "core" ["convert"; "From"]]
  | TDefault => [mkLPath false "core" ["default"; "Default"]]
  | TDebug => [mkLPath false "core" ["fmt"; "Debug"]; mkLPath false "core" ["fmt"; "Formatter"];
               mkLPath false "core" ["fmt"; "Result"]]
  end.
(** bitfield_struct_feature.rs:104-113: the type of the storage. *)
Definition storage_paths (bf : bitfield) : list lpath :=
  if is_heap bf then [mkLPath true "std" ["boxed"; "Box"]] else [].
(** common/generator_helper.rs:44-92: a new bitfield in the constructors and the
    from-conversions; only where there is one. *)
Definition init_paths (bf : bitfield) : list lpath :=
  let a := b_args bf in
  if is_heap bf && (a_new a || a_from_into_bits a || a_from_traits a || a_default a || a_builder a)
  then [mkLPath true "std" ["boxed"; "Box"; "new"]] else [].
(** Return types of the checked functions: field_setters_feature.rs:80,
    set_get_bit_ops_feature.rs:112-404, from_into_bits_feature.rs:387-710,
    builder_feature.rs:174. *)
Definition function_paths (i : fn) : list lpath :=
  match fn_ret i with TRes _ => [mkLPath true "core" ["result"; "Result"]] | _ => [] end.

Definition bitfield_paths (dx : field -> expr) (bf : bitfield) : list lpath :=
  flat_map trait_paths (traits bf) ++ storage_paths bf ++ init_paths bf ++
  flat_map function_paths (impl_fns dx bf ++ builder_fns dx bf).
(** bitflag/bitflag_generator.rs:40-48; the rest of the enum names no library
    item (15-31, 50-131). *)
Definition bitflag_paths (g : bitflag) : list lpath :=
  if fa_copy (g_args g) then [mkLPath false "std" ["marker"; "Copy"]; mkLPath false "core" ["clone"; "Clone"]] else [].
