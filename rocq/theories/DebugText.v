(** The text [{:?}] and [{:#?}] print for a bitfield.

    debug_trait_feature.rs:36-72 (under /repo/bitfields_impl/src/generating/bitfield/features)
    emits [f.debug_struct(NAME)], one [debug.field(NAME, &value)] per field and
    [debug.finish()]; the calls are [Gen.debug_bf].  What they print is the
    standard library's [core::fmt::builders::{DebugStruct, DebugList, PadAdapter}]
    and the [Debug] implementations of the integers and of [[u8; N]], transcribed
    here; formatter options other than [#] are not modelled. *)
From Coq Require Import ZArith List Bool String Ascii.
From Verif Require Import RustInt Syntax Gen Docs.
Import ListNotations.
Open Scope string_scope.

Definition newline : ascii := ascii_of_nat 10.
Definition nl : string := String newline EmptyString.

(** [PadAdapter::write_str]: four blanks at the start of every line. *)
Fixpoint pad (on_newline : bool) (s : string) : string :=
  match s with
  | EmptyString => EmptyString
  | String c r => (if on_newline then "    " else "") ++ String c (pad (Ascii.eqb c newline) r)
  end.

(** [DebugList] ([DebugInner::entry]): comma between the entries; with [#] one
    entry per line. *)
Fixpoint entries (l : list Z) : string :=
  match l with [] => "]" | x :: t => ", " ++ decimal x ++ entries t end.
Fixpoint entries_alt (l : list Z) : string :=
  match l with [] => "]" | x :: t => pad true (decimal x ++ "," ++ nl) ++ entries_alt t end.
Definition list_text (alt : bool) (l : list Z) : string :=
  match l with
  | [] => "[]"
  | x :: t => if alt then "[" ++ nl ++ entries_alt l else "[" ++ decimal x ++ entries t
  end.
Definition value_text (alt : bool) (p : pval) : string :=
  match p with
  | PInt z => decimal z
  | PArr l => list_text alt l
  | PBool b => if b then "true" else "false"
  | PCustom _ => "" (* never passed to [field] *)
  end.

(** [DebugStruct::field] after the first call, and [finish]. *)
Fixpoint fields_text (l : list (string * pval)) : string :=
  match l with [] => " }" | (n, v) :: t => ", " ++ n ++ ": " ++ value_text false v ++ fields_text t end.
Fixpoint fields_alt (l : list (string * pval)) : string :=
  match l with
  | [] => "}"
  | (n, v) :: t => pad true (n ++ ": " ++ value_text true v ++ "," ++ nl) ++ fields_alt t
  end.
Definition struct_text (alt : bool) (name : string) (l : list (string * pval)) : string :=
  match l with
  | [] => name
  | (n, v) :: t =>
      if alt then name ++ " {" ++ nl ++ fields_alt l
      else name ++ " { " ++ n ++ ": " ++ value_text false v ++ fields_text t
  end.

(** [format!("{:?}", bitfield)], [format!("{:#?}", bitfield)] *)
Definition debug_string (alt : bool) (m : mode) (bf : bitfield) (s : store) : outcome string :=
  l <- debug_bf m bf s ;; Val (struct_text alt (b_name bf) l).
