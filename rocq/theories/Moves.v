(** Rust's rule for moves, on the syntax of Rust.v: a variable whose type is not
    [Copy] is not used after its value has been moved out, and not moved out in
    a loop that does not declare it.

    Types are not consulted.  A variable counts as [Owned] (not [Copy]) unless the
    expression it is bound to can only be a number, a boolean or an array of
    numbers; so every custom type, the bitfield, the builder, exclusive
    references and results of method calls are treated as not [Copy].  Shared
    references are [Copy].  With [boxed] the data of the bitfield lives in a [Box]:
    then [e.0] is never used as a value either (it would move the box out of the
    bitfield), only dereferenced, indexed or assigned to. *)
From Coq Require Import ZArith List Bool String.
From Verif Require Import RustInt Syntax Rust.
Import ListNotations.
Open Scope string_scope.

Inductive status := Plain | Owned | Gone.
(** Innermost binding first; [Mark] is the beginning of a block. *)
Inductive entry := Bind (x : string) (s : status) | Mark.
Definition env := list entry.

Fixpoint find_var (x : string) (E : env) : option status :=
  match E with
  | [] => None
  | Mark :: E => find_var x E
  | Bind y s :: E => if String.eqb x y then Some s else find_var x E
  end.
Fixpoint set_gone (x : string) (E : env) : env :=
  match E with
  | [] => []
  | Mark :: E => Mark :: set_gone x E
  | Bind y s :: E => if String.eqb x y then Bind y Gone :: E else Bind y s :: set_gone x E
  end.
Fixpoint leave (E : env) : env :=
  match E with [] => [] | Mark :: E => E | Bind _ _ :: E => leave E end.

Definition status_eqb (a b : status) : bool :=
  match a, b with Plain, Plain | Owned, Owned | Gone, Gone => true | _, _ => false end.
Definition entry_eqb (a b : entry) : bool :=
  match a, b with
  | Bind x s, Bind y t => String.eqb x y && status_eqb s t
  | Mark, Mark => true
  | _, _ => false
  end.
Fixpoint env_eqb (A B : env) : bool :=
  match A, B with
  | [], [] => true
  | a :: A, b :: B => entry_eqb a b && env_eqb A B
  | _, _ => false
  end.
(** After a branch: gone if gone on one of the ways. *)
Fixpoint join (A B : env) : env :=
  match A, B with
  | Bind x s :: A, Bind _ t :: B =>
      Bind x (match s, t with Gone, _ | _, Gone => Gone | _, _ => s end) :: join A B
  | Mark :: A, _ :: B => Mark :: join A B
  | _, _ => []
  end.

(** The result of an expression: the variables afterwards, and whether the value
    may be of a type that is not [Copy]. *)
Definition mres := option (env * bool).
Definition mbind (x : mres) (k : env -> bool -> mres) : mres :=
  match x with Some (E, o) => k E o | None => None end.
Definition no_value (x : mres) : mres := mbind x (fun E _ => Some (E, false)).
Definition owner (x : mres) : mres := mbind x (fun E _ => Some (E, true)).

Section Boxed.
Variable boxed : bool.

(** [mv]: an expression used as a value; [place]: an expression that is only
    looked at ([e.0], the receiver of a call, [&e], the target of an assignment). *)
Fixpoint mv (e : expr) (E : env) {struct e} : mres :=
  match e with
  | ELit _ _ | EBool _ | EMax _ | EBits _ | EConst _ _ | EArray _ _ | EUnit | EErr _ => Some (E, false)
  | EVar x =>
      match find_var x E with
      | Some Plain => Some (E, false)
      | Some Owned => Some (set_gone x E, true)
      | Some Gone | None => None
      end
  | EUn UDeref e => no_value (place e E)
  | EUn _ e | ECast e _ | EIntoBits e | ESwap e => no_value (mv e E)
  | EBin _ a b => mbind (mv a E) (fun E _ => no_value (mv b E))
  | EIndex a i => mbind (place a E) (fun E _ => no_value (mv i E))
  | EVal e => if boxed then None else no_value (place e E)
  | ELen e | EFinish e => no_value (place e E)
  | EThis e => owner (mv e E)
  | EIf c a b =>
      mbind (mv c E) (fun E _ =>
        mbind (mv_block a E) (fun A o => mbind (mv_block b E) (fun B o' => Some (join A B, o || o'))))
  | EBlock b => mv_block b E
  | EFromBits _ e | EStruct _ e | EBuilder e | EBox e => owner (mv e E)
  | ECall e _ a => mbind (place e E) (fun E _ => owner (mv a E))
  | ENew _ _ | EDebug _ | EUser _ _ => Some (E, true)
  | ERepeat e _ => mbind (mv e E) (fun E o => if o then None else Some (E, false))
  | EOk e => mv e E
  | EContains a b x => mbind (mv a E) (fun E _ => mbind (mv b E) (fun E _ => no_value (place x E)))
  end
with place (e : expr) (E : env) {struct e} : mres :=
  match e with
  | EVar x => match find_var x E with Some Gone | None => None | Some _ => Some (E, false) end
  | EVal e | EThis e | EUn UDeref e => place e E
  | EIndex a i => mbind (place a E) (fun E _ => no_value (mv i E))
  | _ => None
  end
with mv_block (b : block) (E : env) {struct b} : mres :=
  match b with
  | Block l e =>
      match (fix go (l : list stmt) (E : env) {struct l} : option env :=
               match l with
               | [] => Some E
               | s :: l => match mv_stmt s E with Some E => go l E | None => None end
               end) l (Mark :: E) with
      | Some E =>
          match e with
          | Some e => mbind (mv e E) (fun E o => Some (leave E, o))
          | None => Some (leave E, false)
          end
      | None => None
      end
  end
with mv_stmt (s : stmt) (E : env) {struct s} : option env :=
  match s with
  | SLet _ x _ e => match mv e E with Some (E, o) => Some (Bind x (if o then Owned else Plain) :: E) | None => None end
  | SSet p e | SOp _ p e =>
      match mv e E with
      | Some (E, _) => match place p E with Some (E, _) => Some E | None => None end
      | None => None
      end
  | SExpr e | STry e => match mv e E with Some (E, _) => Some E | None => None end
  | SWhile c b =>
      match mv c E with
      | Some (E', _) =>
          match mv_block b E' with
          | Some (E'', _) => if env_eqb E E' && env_eqb E E'' then Some E else None
          | None => None
          end
      | None => None
      end
  | SReturn (Some e) => match mv e E with Some (E, _) => Some E | None => None end
  | SReturn None => Some E
  | SField x _ e =>
      match find_var x E with
      | Some Gone | None => None
      | Some _ => match place e E with Some (E, _) => Some E | None => None end
      end
  end.
Definition mv_stmts : list stmt -> env -> option env :=
  fix go (l : list stmt) (E : env) {struct l} : option env :=
    match l with
    | [] => Some E
    | s :: l => match mv_stmt s E with Some E => go l E | None => None end
    end.

(** The variables at the beginning of a function. *)
Definition recv_env (v : recv) : env :=
  match v with NoRecv => [] | ByRef => [Bind "self" Plain] | _ => [Bind "self" Owned] end.
Definition param_status (t : ty) : status :=
  match t with TI _ | TUsize | TArr _ _ | TUnit | TRef false _ => Plain | _ => Owned end.
Definition start_env (i : fn) : env :=
  (map (fun p => Bind (fst p) (param_status (snd p))) (fn_params i) ++ recv_env (fn_recv i))%list.
Definition moves_ok (i : fn) : bool :=
  match mv_block (fn_body i) (start_env i) with Some _ => true | None => false end.
End Boxed.
