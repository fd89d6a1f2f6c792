(** What the generated functions depend on in the compiler that builds the macro. *)
From Coq Require Import ZArith List Bool String.
From Verif Require Import RustInt Syntax Surface Rust Emit.
Import ListNotations.
Open Scope Z_scope.

(** Release channel and minor version of rustc ([1.minor]). *)
Inductive channel := Stable | Beta | Nightly.
Record toolchain := mkToolchain { tc_channel : channel; tc_minor : Z }.

(** /repo/bitfields_impl/src/generating/bitfield/features/common/generator_helper.rs:25-28
    ([supports_const_mut_refs]); the predicates of the crate rustversion exclude
    each other. *)
Definition supports_const_mut_refs (t : toolchain) : bool :=
  match tc_channel t with
  | Stable => 83 <=? tc_minor t
  | Nightly => 41 <=? tc_minor t
  | Beta => false
  end.
(** [rust-version = "1.83.0"], /repo/bitfields/Cargo.toml:12,
    /repo/bitfields_impl/Cargo.toml:12. *)
Definition admitted (t : toolchain) : bool := 83 <=? tc_minor t.

(** [Emit.v] is about compilers with const mutable references.  On the others
    [get_function_modifier_tokens] (generator_helper.rs:19-23) returns nothing; no
    other template depends on the compiler. *)
Definition on_fn (t : toolchain) (i : fn) : fn :=
  mkFn (fn_name i) (fn_const i && supports_const_mut_refs t) (fn_recv i) (fn_params i) (fn_ret i) (fn_body i).
Definition on (t : toolchain) (P : program) : program :=
  mkProgram (p_back P) (p_consts P) (map (on_fn t) (p_fns P)) (p_codecs P).
