(** The cargo features of the two crates and how Cargo resolves them. *)
From Coq Require Import List Bool String.
From Verif Require Import ConstExpr Parser.
Import ListNotations.
Open Scope string_scope.
Open Scope list_scope.

(** What a feature turns on: a feature of the same crate ("x") or a feature of
    the macro crate ("bitfields-impl/x"). *)
Inductive entry := Here (f : string) | Dep (f : string).
Definition table := list (string * list entry).
(** A dependency: [default-features] and [features]. *)
Record dependency := mkDep { dep_defaults : bool; dep_features : list string }.

(** bitfields_impl/Cargo.toml:31-53 ([default]). *)
Definition impl_defaults : list string :=
  ["order_lsb"; "generate_new"; "generate_from_into_bits"; "from_endian_big"; "into_endian_big";
   "generate_from_traits"; "generate_default"; "generate_debug"; "derive_copy"; "generate_bit_ops";
   "generate_write_bit_ops"; "write_endian_big"; "generate_clear_bit_ops"; "generate_set_get_bit_ops";
   "generate_invert_bit_ops"; "generate_toggle_bit_ops"; "generate_builder"; "bitflag_from_endian_big";
   "bitflag_into_endian_big"; "bitflag_derive_copy"; "disable_array_heap"].
(** bitfields_impl/Cargo.toml:55-116 and bitfields/Cargo.toml:50-111: the same
    names in both crates, none turns on anything. *)
Definition feature_names : list string :=
  ["order_lsb"; "order_msb"; "generate_new"; "disable_new"; "generate_from_into_bits";
   "disable_from_into_bits"; "from_endian_little"; "from_endian_big"; "into_endian_little";
   "into_endian_big"; "generate_from_traits"; "disable_from_traits"; "generate_default"; "disable_default";
   "generate_debug"; "disable_debug"; "derive_copy"; "disable_copy"; "generate_bit_ops"; "disable_bit_ops";
   "generate_write_bit_ops"; "disable_write_bit_ops"; "write_endian_little"; "write_endian_big";
   "generate_clear_bit_ops"; "disable_clear_bit_ops"; "generate_set_get_bit_ops"; "disable_set_get_bit_ops";
   "generate_invert_bit_ops"; "disable_invert_bit_ops"; "generate_toggle_bit_ops"; "disable_toggle_bit_ops";
   "generate_builder"; "disable_builder"; "enable_array_heap"; "disable_array_heap";
   "bitflag_from_endian_big"; "bitflag_from_endian_little"; "bitflag_into_endian_big";
   "bitflag_into_endian_little"; "bitflag_derive_copy"; "bitflag_disable_copy"].
(** bitfields_impl/Cargo.toml:30-116. *)
Definition impl_table : table :=
  ("default", map Here impl_defaults) :: map (fun f => (f, [])) feature_names.
(** bitfields/Cargo.toml:22-111. *)
Definition bitfields_table : table :=
  ("default", Dep "default" :: map Here impl_defaults) :: map (fun f => (f, [])) feature_names.
(** bitfields/Cargo.toml:15: neither [default-features] nor [features] is given;
    Cargo's default for the first is true. *)
Definition bitfields_dep : dependency := mkDep true [].

(** Cargo's resolution (The Cargo Book, "Features"): what is asked for and
    everything turned on by something active. *)
Inductive active (t : table) (asked : string -> Prop) : string -> Prop :=
| act_asked f : asked f -> active t asked f
| act_here f es g : active t asked f -> In (f, es) t -> In (Here g) es -> active t asked g.
(** What is asked of the macro crate when [selected] are the features of the
    bitfields crate asked for by the user ("default" among them unless
    [default-features = false]) and [others] the features of the macro crate
    asked for by other crates of the build (Cargo unifies them). *)
Definition asked_of_impl (t : table) (dep : dependency) (selected others : list string) : string -> Prop :=
  fun f =>
    (dep_defaults dep = true /\ f = "default") \/ In f (dep_features dep) \/ In f others \/
    exists g es, active t (fun x => In x selected) g /\ In (g, es) t /\ In (Dep f) es.
Definition impl_active (t : table) (dep : dependency) (selected others : list string) : string -> Prop :=
  active impl_table (asked_of_impl t dep selected others).
(** The values of [cfg!(feature = "..")] in the macro crate. *)
Definition cfg_of (F : features) (t : table) (dep : dependency) (selected others : list string) : Prop :=
  forall f, F f = true <-> impl_active t dep selected others f.
