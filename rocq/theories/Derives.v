(** Which traits the emitted items implement for which types, and what rustc asks
    of derived implementations.

    The rules are those of the Rust reference and of the standard library; only
    [member_types] and [inits] describe /repo. *)
From Coq Require Import ZArith List Bool String.
From Verif Require Import RustInt Syntax Parser Surface Emit Bitflag Attr Outer.
Import ListNotations.
Open Scope string_scope.
Open Scope list_scope.

(** ** Derives in attributes *)

(** The last identifier before each comma: the trait that a path in a derive
    names.  That the path means the trait of the standard library is assumed for
    the names in [std_derives]. *)
Fixpoint path_names (last : option string) (ts : list tok) : list string :=
  let done := match last with Some n => [n] | None => [] end in
  match ts with
  | [] => done
  | KComma :: ts => done ++ path_names None ts
  | KIdent n :: ts => path_names (Some n) ts
  | _ :: ts => path_names last ts
  end.
Definition derived_by (a : uattr) : list string :=
  if String.eqb (ua_path a) "derive" then path_names None (ua_rest a) else [].
Definition derived (l : list uattr) : list string := flat_map derived_by l.

Definition std_derives : list string :=
  ["Clone"; "Copy"; "Debug"; "Default"; "Eq"; "Hash"; "Ord"; "PartialEq"; "PartialOrd"].
(** [trait Copy: Clone] and so on. *)
Definition supertraits (t : string) : list string :=
  if String.eqb t "Copy" then ["Clone"]
  else if String.eqb t "Eq" then ["PartialEq"]
  else if String.eqb t "PartialOrd" then ["PartialEq"]
  else if String.eqb t "Ord" then ["Eq"; "PartialOrd"]
  else [].

(** ** Implementations *)

(** Trait and type; the pair of ["Into"] and [n] stands for [From<n>] of the
    storage, as in [Outer.v]. *)
Definition impls_of (i : oitem) : list (string * string) :=
  match oi_kind i with
  | IType n _ _ => map (fun t => (t, n)) (derived (oi_attrs i))
  | IImpl n (Some t) _ => [(t, n)]
  | IImpl n None _ => []
  end.
Definition impls (l : list oitem) : list (string * string) := flat_map impls_of l.

(** No trait twice for a type (E0119). *)
Definition coherent (l : list oitem) : Prop := NoDup (impls l).
(** What a derived trait extends is implemented, too (E0277). *)
Definition supertraits_met (l : list oitem) : Prop :=
  forall i n gs ms t s, In i l -> oi_kind i = IType n gs ms ->
    In t (derived (oi_attrs i)) -> In s (supertraits t) -> In (s, n) (impls l).

(** ** Members of the struct *)

(** An integer or [bool], [[u8; n]], its box, or the type of the user's field. *)
Inductive mtype := MPrimitive | MArray (n : Z) | MBox (n : Z) | MUser (field : string).
Definition mtype_of (name : string) (t : dtype) : mtype :=
  match t with DInteger _ => MPrimitive | DArray n => MArray n | DCustom => MUser name end.
(** generating/bitfield/features/bitfield_struct_feature.rs:104-113, 117-190.  The
    storage has no custom type (common/generator_helper.rs:67-69). *)
Definition member_types (bf : bitfield) : list mtype :=
  match b_ty bf with
  | DArray n => if is_heap bf then MBox n else MArray n
  | _ => MPrimitive
  end :: map (fun f => mtype_of (f_name f) (f_ty f)) (b_ignored bf).
(** [U x t]: the type of the ignored field [x] implements [t].  Arrays have a
    default up to 32 elements, boxes are not copied. *)
Definition implements (U : string -> string -> Prop) (t : string) (m : mtype) : Prop :=
  match m with
  | MPrimitive => True
  | MArray n => t = "Default" -> (n <= 32)%Z
  | MBox n => t <> "Copy" /\ (t = "Default" -> (n <= 32)%Z)
  | MUser x => U x t
  end.
(** A derived implementation needs one of every member (E0204, E0277). *)
Definition members_met (U : string -> string -> Prop) (bf : bitfield) (attrs : list uattr) : Prop :=
  forall t m, In t (derived attrs) -> In t std_derives -> In m (member_types bf) -> implements U t m.

(** Whether a struct expression is emitted, which calls [T::default()] for the
    ignored fields: generating/bitfield/features/common/generator_helper.rs:44-117,
    called in the constructors, the from-conversions and the builder. *)
Definition inits (bf : bitfield) : bool :=
  let a := b_args bf in a_new a || a_from_into_bits a || a_from_traits a || a_default a || a_builder a.
Definition defaults_met (U : string -> string -> Prop) (bf : bitfield) : Prop :=
  inits bf = true -> forall m, In m (tl (member_types bf)) -> implements U "Default" m.

(** ** Together *)

Definition bitfield_traits_ok (U : string -> string -> Prop) (u : ustruct) (bf : bitfield) : Prop :=
  coherent (bitfield_items u bf) /\ supertraits_met (bitfield_items u bf) /\
  members_met U bf (oi_attrs (struct_item u bf)) /\ defaults_met U bf.

(** An enum without payloads: a derived default needs exactly one variant marked
    [#[default]], nothing else is asked. *)
Definition marked (ms : list member) : list member :=
  filter (fun x => existsb (fun a => String.eqb (ua_path a) "default") (me_attrs x)) ms.
Definition default_met (l : list oitem) : Prop :=
  forall i n gs ms, In i l -> oi_kind i = IType n gs ms -> In "Default" (derived (oi_attrs i)) ->
    List.length (marked ms) = 1%nat.
Definition bitflag_traits_ok (l : list oitem) : Prop := coherent l /\ supertraits_met l /\ default_met l.
