(** Scope of local variables in emitted code (the syntax of Rust.v).

    The macro builds its output with [quote!], whose identifiers are resolved at
    the call site (no [mixed_site] or [def_site] span in bitfields_impl/src), as are
    those of the user's expression in [default = ...] ([syn::parse_str] on its text,
    parsing/common/const_expr.rs:209-228; put in at generator_helper.rs:138-161).  So the locals of a generated function are in scope in the user's
    expression.  [scopes] computes the locals in scope at every occurrence. *)
From Coq Require Import ZArith List Bool String Ascii.
From Verif Require Import RustInt Syntax Rust Surface Emit.
Import ListNotations.
Open Scope string_scope.
Open Scope list_scope.

(** In place of the default expression of a field: a variable whose name is not an
    identifier of Rust. *)
Definition mark (f : field) : string := String "?" (f_name f).
Definition marked (f : field) : expr := EVar (mark f).
Definition is_mark (x : string) : bool :=
  match x with String "?"%char _ => true | _ => false end.

(** A mark and the names of the locals in scope there, innermost first. *)
Definition found : Type := string * list string.

(** A [let] is in scope in the statements after it, up to the end of the block. *)
Definition bind (G : list string) (s : stmt) : list string :=
  match s with SLet _ x _ _ => x :: G | _ => G end.
Fixpoint se (G : list string) (e : expr) : list found :=
  match e with
  | EVar x => if is_mark x then [(x, G)] else []
  | ELit _ _ | EBool _ | EMax _ | EBits _ | EConst _ _ | ENew _ _ | EArray _ _ | EUnit | EErr _ | EDebug _ | EUser _ _ => []
  | EUn _ e | ECast e _ | EVal e | EThis e | EFromBits _ e | EIntoBits e | ESwap e | ELen e | EStruct _ e
  | EBuilder e | EBox e | ERepeat e _ | EOk e | EFinish e => se G e
  | EBin _ a b | EIndex a b | ECall a _ b => se G a ++ se G b
  | EContains a b x => se G a ++ se G b ++ se G x
  | EIf c a b => se G c ++ sb G a ++ sb G b
  | EBlock b => sb G b
  end
with ss (G : list string) (s : stmt) : list found :=
  match s with
  | SLet _ _ _ e | SExpr e | SReturn (Some e) | STry e | SField _ _ e => se G e
  | SReturn None => []
  | SSet p e | SOp _ p e => se G p ++ se G e
  | SWhile c b => se G c ++ sb G b
  end
with sb (G : list string) (b : block) : list found :=
  match b with
  | Block l e =>
      (fix go (G : list string) (l : list stmt) : list found :=
         match l with
         | [] => match e with Some e => se G e | None => [] end
         | s :: t => ss G s ++ go (bind G s) t
         end) G l
  end.
(** Parameters are in scope in the whole body. *)
Definition scopes (i : fn) : list found :=
  sb (map fst (fn_params i) ++ match fn_recv i with NoRecv => [] | _ => ["self"] end) (fn_body i).

(** Every function of a bitfield, with the user's default expressions marked: the
    ones where [Self] is the bitfield, and the others. *)
Definition own_fns (bf : bitfield) : list fn :=
  impl_fns marked bf ++ map snd (filter fst (trait_fns marked bf)).
Definition foreign_fns (bf : bitfield) : list fn :=
  builder_fns marked bf ++ map snd (filter (fun p => negb (fst p)) (trait_fns marked bf)).
Definition all_fns (bf : bitfield) : list fn := own_fns bf ++ foreign_fns bf.

(** ** The variables of an expression *)

Fixpoint ve (e : expr) : list string :=
  match e with
  | EVar x => [x]
  | ELit _ _ | EBool _ | EMax _ | EBits _ | EConst _ _ | ENew _ _ | EArray _ _ | EUnit | EErr _ | EDebug _ | EUser _ _ => []
  | EUn _ e | ECast e _ | EVal e | EThis e | EFromBits _ e | EIntoBits e | ESwap e | ELen e | EStruct _ e
  | EBuilder e | EBox e | ERepeat e _ | EOk e | EFinish e => ve e
  | EBin _ a b | EIndex a b | ECall a _ b => ve a ++ ve b
  | EContains a b x => ve a ++ ve b ++ ve x
  | EIf c a b => ve c ++ vb a ++ vb b
  | EBlock b => vb b
  end
with vs (s : stmt) : list string :=
  match s with
  | SLet _ x _ e => ve e
  | SExpr e | SReturn (Some e) | STry e => ve e
  | SField x _ e => x :: ve e
  | SReturn None => []
  | SSet p e | SOp _ p e => ve p ++ ve e
  | SWhile c b => ve c ++ vb b
  end
with vb (b : block) : list string :=
  match b with
  | Block l e =>
      (fix go (l : list stmt) : list string :=
         match l with
         | [] => match e with Some e => ve e | None => [] end
         | s :: t => vs s ++ go t
         end) l
  end.
