(** The part of Rust that the emitted code is written in: syntax, typing and
    meaning.

    Nothing in this file comes from /repo.  Programs are given as parsed text
    (without types); [elab] type checks an expression the way rustc does and, at
    the same time, gives its meaning.  [None] means "rejected by rustc" or
    "outside the subset".

    Covered of rustc's checks: names of variables, constants, methods and types;
    types of all expressions, with inference of the types of integer literals;
    [mut]; calls of non-const functions from [const] functions.  Not covered:
    the borrow checker and moves, visibility, lints, and whether the user's own
    functions are [const]. *)
From Coq Require Import ZArith List Bool String.
From Verif Require Import RustInt Syntax.
Import ListNotations.
Open Scope string_scope.
Open Scope Z_scope.

(** ** Types and values *)

Inductive ty :=
| TI (t : ity)              (* the integer types and bool *)
| TUsize
| TArr (t : ity) (n : Z)    (* [[t; n]] *)
| TBox (n : Z)              (* [Box<[u8; n]>] *)
| TSlice                    (* [[u8]] (behind a reference) *)
| TUser (x : string)        (* the custom type of field [x] *)
| TSelf                     (* the bitfield struct *)
| TBuilder                  (* its builder *)
| TRef (m : bool) (t : ty)  (* [&t], [&mut t] *)
| TUnit
| TRes (t : ty)             (* [Result<t, &'static str>] *)
| TFmt.                     (* [core::fmt::DebugStruct] *)

Definition ity_eqb (a b : ity) : bool :=
  match a, b with
  | U8, U8 | U16, U16 | U32, U32 | U64, U64 | U128, U128 | I8, I8 | I16, I16 | I32, I32
  | I64, I64 | I128, I128 | TBool, TBool => true
  | _, _ => false
  end.
Fixpoint ty_eqb (a b : ty) : bool :=
  match a, b with
  | TI x, TI y => ity_eqb x y
  | TUsize, TUsize | TSlice, TSlice | TSelf, TSelf | TBuilder, TBuilder | TUnit, TUnit | TFmt, TFmt => true
  | TArr x n, TArr y k => ity_eqb x y && (n =? k)
  | TBox n, TBox k => n =? k
  | TUser x, TUser y => String.eqb x y
  | TRef m x, TRef k y => Bool.eqb m k && ty_eqb x y
  | TRes x, TRes y => ty_eqb x y
  | _, _ => false
  end.

(** A struct value is represented by the value of its first field (the other
    fields of the bitfield struct, the ignored ones, are never accessed); a
    builder by its bitfield; a box by its contents. *)
Inductive value :=
| RI (z : Z) | RB (b : bool) | RA (l : list Z) | RC (t : Z) | RU
| RRef (x : string)         (* reference to the memory cell [x] *)
| ROk (v : value) | RErr (s : string)
| RFmt (l : list (string * value)).

(** Signedness and width of an integer type. *)
Definition int_of (t : ty) : option (bool * Z) :=
  match t with
  | TI TBool => None
  | TI t => Some (negb (ity_unsigned t), ity_bits t)
  | TUsize => Some (false, 64)
  | _ => None
  end.
(** [e as t] on the number. *)
Definition wrap (t : ty) (z : Z) : Z :=
  match t with
  | TI t => cast t z
  | TUsize => ucast 64 z
  | _ => z
  end.

(** ** Syntax *)

Inductive uop := UNot | UNeg | UDeref.
Inductive bop :=
| BAdd | BSub | BMul | BDiv | BRem | BAnd | BOr | BXor   (* arithmetic *)
| BShl | BShr
| BEq | BNe | BLt | BGt | BGe
| BAll | BAny.                                           (* [&&], [||] *)
(** [Self] or the name of the bitfield struct. *)
Inductive path := PSelf | PName.

Inductive expr :=
| ELit (z : Z) (s : option ty)            (* [7], [7u32]; [s] is the suffix *)
| EBool (b : bool)
| EVar (x : string)
| EMax (t : ity) | EBits (t : ity)        (* [t::MAX], [t::BITS] *)
| EConst (p : path) (c : string)          (* [p::c] *)
| EUn (o : uop) (e : expr)
| EBin (o : bop) (a b : expr)
| ECast (e : expr) (t : option ty)        (* [e as t]; [None]: [e as _] *)
| EIndex (a i : expr)
| EVal (e : expr)                         (* [e.0] / [e.val] *)
| EThis (e : expr)                        (* [e.this] *)
| EIf (c : expr) (a b : block)
| EBlock (b : block)
| EFromBits (x : string) (e : expr)       (* [X::from_bits(e)], [X] the type of field [x] *)
| EIntoBits (e : expr)
| ESwap (e : expr) | ELen (e : expr)      (* [e.swap_bytes()], [e.len()] *)
| ECall (e : expr) (f : string) (a : expr)   (* [e.f(a)] *)
| ENew (p : path) (f : string)            (* [p::f()] *)
| EStruct (p : path) (e : expr)           (* [p(e)] / [p { val: e, ignored: .. }] *)
| EBuilder (e : expr)                     (* [Self { this: e }] *)
| EBox (e : expr)                         (* [Box::new(e)] *)
| ERepeat (e : expr) (n : Z)              (* [[e; n]] *)
| EArray (l : list Z) (s : option ity)    (* an array of literals *)
| EUnit | EOk (e : expr) | EErr (s : string)
| EContains (a b x : expr)                (* [(a..b).contains(&x)] *)
| EDebug (s : string)                     (* [f.debug_struct(s)] *)
| EFinish (e : expr)                      (* [e.finish()] *)
| EUser (t : ty) (v : value)              (* a constant of the user, of type [t] *)
with stmt :=
| SLet (m : bool) (x : string) (t : option ty) (e : expr)
| SSet (p e : expr)                       (* [p = e;] *)
| SOp (o : bop) (p e : expr)              (* [p o= e;] *)
| SExpr (e : expr)                        (* [e;] or a block-like expression *)
| SWhile (c : expr) (b : block)
| SReturn (e : option expr)
| STry (e : expr)                         (* [match e { Ok(()) => {}, Err(e) => return Err(e), }] *)
| SField (x : string) (s : string) (e : expr)        (* [x.field(s, &e);] *)
with block := Block (l : list stmt) (e : option expr).

(** ** Meaning: states and results *)

Definition env := list (string * value).
(** Local variables and the cells that references point to. *)
Record st := mkSt { loc : env; mem : env }.

Fixpoint lookup {A} (x : string) (l : list (string * A)) : option A :=
  match l with
  | [] => None
  | (y, v) :: r => if String.eqb x y then Some v else lookup x r
  end.
Fixpoint update {A} (x : string) (v : A) (l : list (string * A)) : list (string * A) :=
  match l with
  | [] => []
  | (y, w) :: r => if String.eqb x y then (y, v) :: r else (y, w) :: update x v r
  end.

(** [Go]: normal completion; [Back]: [return]; [Fail]: panic; [Stuck]: out of
    fuel (or ill-typed, which does not happen after [elab]). *)
Inductive ans (A : Type) := Go (a : A) (s : st) | Back (v : value) (s : st) | Fail | Stuck.
Arguments Go {A} _ _.
Arguments Back {A} _ _.
Arguments Fail {A}.
Arguments Stuck {A}.

Definition dbind {A B} (x : ans A) (k : A -> st -> ans B) : ans B :=
  match x with Go a s => k a s | Back v s => Back v s | Fail => Fail | Stuck => Stuck end.
Definition lift {A} (o : outcome A) (s : st) : ans A :=
  match o with Val a => Go a s | Panic => Fail end.

(** What a run depends on: overflow mode, number of loop iterations after which
    the interpreter gives up, and the functions of the program ([r_call f self
    args]: result and new contents of [self]; [None] when out of fuel). *)
Record rt := mkRt {
  r_mode : mode;
  r_fuel : nat;
  r_call : string -> value -> list value -> option (outcome (value * value)) }.
Definition den (A : Type) := rt -> st -> ans A.

(** ** Integer operations *)

(** Overflow on a signed type. *)
Definition swrap (m : mode) (w z : Z) : outcome Z :=
  if (- 2 ^ (w - 1) <=? z) && (z <? 2 ^ (w - 1)) then Val z
  else match m with Checked => Panic | Wrapping => Val (scast w z) end.
(** Arithmetic on a type of signedness [sg] and width [w]. *)
Definition arith (m : mode) (sg : bool) (w : Z) (o : bop) (a b : Z) : option (outcome Z) :=
  match o with
  | BAdd => Some (if sg then swrap m w (a + b) else uadd m w a b)
  | BSub => Some (if sg then swrap m w (a - b) else usub m w a b)
  | BMul => Some (if sg then swrap m w (a * b) else umul m w a b)
  | BDiv => if sg then None else Some (if b =? 0 then Panic else Val (a / b))
  | BRem => if sg then None else Some (if b =? 0 then Panic else Val (a mod b))
  | BAnd => Some (Val (Z.land a b))
  | BOr => Some (Val (Z.lor a b))
  | BXor => Some (Val (Z.lxor a b))
  | BShl => Some (if sg then sshl m w a b else shl m w a b)
  | BShr => Some (if sg then sshr m w a b else shr m w a b)
  | _ => None
  end.
Definition compare (o : bop) (a b : Z) : option bool :=
  match o with
  | BEq => Some (a =? b) | BNe => Some (negb (a =? b))
  | BLt => Some (a <? b) | BGt => Some (b <? a) | BGe => Some (b <=? a)
  | _ => None
  end.
(** Kinds of operators.  Signed division is outside the subset. *)
Definition is_arith (sg : bool) (o : bop) : bool :=
  match o with
  | BAdd | BSub | BMul | BAnd | BOr | BXor => true
  | BDiv | BRem => negb sg
  | _ => false
  end.
Definition is_shift (o : bop) : bool := match o with BShl | BShr => true | _ => false end.
Definition is_compare (o : bop) : bool := match o with BEq | BNe | BLt | BGt | BGe => true | _ => false end.

Definition do_arith (m : mode) (sg : bool) (w : Z) (o : bop) (a b : value) (s : st) : ans value :=
  match a, b with
  | RI x, RI y => match arith m sg w o x y with
                  | Some r => dbind (lift r s) (fun z s => Go (RI z) s)
                  | None => Stuck
                  end
  | _, _ => Stuck
  end.
Definition do_compare (o : bop) (a b : value) (s : st) : ans value :=
  match a, b with
  | RI x, RI y => match compare o x y with Some r => Go (RB r) s | None => Stuck end
  | _, _ => Stuck
  end.
Definition do_cast (t : ty) (v : value) (s : st) : ans value :=
  match v with
  | RI z => Go (RI (wrap t z)) s
  | RB b => Go (RI (if b then 1 else 0)) s
  | _ => Stuck
  end.

(** ** Places *)

(** Where a place is: a local variable or a cell. *)
Inductive root := RLoc (x : string) | RMem (x : string).
Definition read (r : root) (s : st) : option value :=
  match r with RLoc x => lookup x (loc s) | RMem x => lookup x (mem s) end.
Definition write (r : root) (v : value) (s : st) : st :=
  match r with
  | RLoc x => mkSt (update x v (loc s)) (mem s)
  | RMem x => mkSt (loc s) (update x v (mem s))
  end.

(** ** Static information *)

(** Receiver of a method. *)
Inductive recv := NoRecv | ByRef | ByMut | ByVal | ByMutVal.
Record sig := mkSig { s_recv : recv; s_args : list ty; s_ret : ty; s_const : bool }.
Record genv := mkG {
  g_bitfield : bool;                    (* [Self] is the bitfield struct *)
  g_back : ty;                          (* the type of its field [.0] / [.val] *)
  g_const : string -> option Z;         (* its associated constants (all u32) *)
  g_fn : string -> option sig;          (* its associated functions *)
  g_codec : string -> option codec;     (* the custom types *)
  g_isconst : bool;                     (* the function checked is [const] *)
  g_ret : ty }.                         (* its result type *)
(** Variables in scope: [mut] and type. *)
Definition tctx := list (string * (bool * ty)).

(** The path names the bitfield struct. *)
Definition names_bitfield (G : genv) (p : path) : bool :=
  match p with PName => true | PSelf => g_bitfield G end.
(** Anything but a call of a non-const function is allowed. *)
Definition const_allowed (G : genv) (callee_const : bool) : bool := negb (g_isconst G) || callee_const.

(** A place without index: its type, whether it may be assigned to, and its
    root.  References are followed (auto-deref). *)
Fixpoint place (G : genv) (C : tctx) (e : expr) : option (ty * bool * (st -> option root)) :=
  match e with
  | EVar x =>
      match lookup x C with
      | Some (_, TRef m t) =>
          Some (t, m, fun s => match lookup x (loc s) with Some (RRef c) => Some (RMem c) | _ => None end)
      | Some (m, t) => Some (t, m, fun _ => Some (RLoc x))
      | None => None
      end
  | EVal e =>
      match place G C e with
      | Some (TSelf, m, r) => Some (g_back G, m, r)
      | _ => None
      end
  | EThis e =>
      match place G C e with
      | Some (TBuilder, m, r) => Some (TSelf, m, r)
      | _ => None
      end
  | _ => None
  end.
Definition read_place (p : st -> option root) (s : st) : ans value :=
  match p s with
  | Some r => match read r s with Some v => Go v s | None => Stuck end
  | None => Stuck
  end.
Definition write_place (p : st -> option root) (v : value) (s : st) : ans value :=
  match p s with
  | Some r => match read r s with Some _ => Go RU (write r v s) | None => Stuck end
  | None => Stuck
  end.
(** Type of the elements. *)
Definition elem (t : ty) : option ty :=
  match t with
  | TArr t _ => Some (TI t)
  | TBox _ | TSlice => Some (TI U8)
  | _ => None
  end.
Definition get_elem (p : st -> option root) (i : value) (s : st) : ans value :=
  dbind (read_place p s) (fun v s =>
    match v, i with
    | RA l, RI k => dbind (lift (arr_get l k) s) (fun b s => Go (RI b) s)
    | _, _ => Stuck
    end).
Definition set_elem (p : st -> option root) (i v : value) (s : st) : ans value :=
  dbind (read_place p s) (fun w s =>
    match w, i, v with
    | RA l, RI k, RI b => dbind (lift (arr_set l k b) s) (fun l' s => write_place p (RA l') s)
    | _, _, _ => Stuck
    end).

(** Values copied out of a place ([Box] is not [Copy]; [Self] is moved). *)
Definition copyable (t : ty) : bool :=
  match t with TI _ | TUsize | TArr _ _ | TSelf | TUser _ => true | _ => false end.

(** ** Literals *)

(** The type of an unsuffixed integer literal: the expected one, [i32] when none
    is known. *)
Definition lit_ty (h : option ty) (s : option ty) : ty :=
  match s with
  | Some t => t
  | None => match h with
            | Some t => match int_of t with Some _ => t | None => TI I32 end
            | None => TI I32
            end
  end.
(** [t] is the type known for the operand of [as t]: only literals look at it. *)
Definition cast_hint (e : expr) (t : ty) : option ty :=
  match e with ELit _ _ | EUn UNeg (ELit _ _) => Some t | _ => None end.
(** Expressions whose type is only determined by later uses, and the types they
    can have, the default [i32] first. *)
Definition open_lit (e : expr) : option (list ty) :=
  let ints := [I32; U8; U16; U32; U64; U128; I8; I16; I64; I128] in
  match e with
  | ELit _ None | EUn UNeg (ELit _ None) => Some (app (map TI ints) [TUsize])
  | EArray l None => Some (map (fun t => TArr t (Z.of_nat (List.length l))) ints)
  | _ => None
  end.
Fixpoint first_some {A B} (f : A -> option B) (l : list A) : option B :=
  match l with
  | [] => None
  | a :: t => match f a with Some b => Some b | None => first_some f t end
  end.

(** ** Loops *)

Fixpoint wloop (n : nat) (c : st -> ans value) (b : st -> ans value) (s : st) : ans value :=
  match n with
  | O => Stuck
  | S n =>
      dbind (c s) (fun v s1 =>
        match v with
        | RB true => dbind (b s1) (fun _ s2 => wloop n c b s2)
        | RB false => Go RU s1
        | _ => Stuck
        end)
  end.

(** Leaving the scope of the innermost variable. *)
Definition pop (s : st) : st := mkSt (tl (loc s)) (mem s).
Definition push (x : string) (v : value) (s : st) : st := mkSt ((x, v) :: loc s) (mem s).

(** ** Typing and meaning *)

(** [h] is the expected type, as far as known (used for literals and [as _]). *)
Fixpoint elab (G : genv) (C : tctx) (h : option ty) (e : expr) {struct e} : option (ty * den value) :=
  match e with
  | ELit z s =>
      let t := lit_ty h s in Some (t, fun _ s => Go (RI (wrap t z)) s)
  | EBool b => Some (TI TBool, fun _ s => Go (RB b) s)
  | EVar x =>
      match lookup x C with
      | Some (_, t) =>
          Some (t, fun _ s => match lookup x (loc s) with Some v => Go v s | None => Stuck end)
      | None => None
      end
  | EMax t =>
      match int_of (TI t) with
      | Some (sg, w) => Some (TI t, fun _ s => Go (RI (if sg then 2 ^ (w - 1) - 1 else umax w)) s)
      | None => None
      end
  | EBits t =>
      match int_of (TI t) with
      | Some (_, w) => Some (TI U32, fun _ s => Go (RI w) s)
      | None => None
      end
  | EConst p c =>
      if names_bitfield G p then
        match g_const G c with
        | Some z => Some (TI U32, fun _ s => Go (RI z) s)
        | None => None
        end
      else None
  | EUn UNeg (ELit z s) =>
      let t := lit_ty h s in
      match int_of t with
      | Some (true, _) => Some (t, fun _ s => Go (RI (wrap t (- z))) s)
      | _ => None
      end
  | EUn UNeg _ => None
  | EUn UNot e =>
      match elab G C h e with
      | Some (TI TBool, d) =>
          Some (TI TBool, fun r s => dbind (d r s) (fun v s =>
            match v with RB b => Go (RB (negb b)) s | _ => Stuck end))
      | Some (t, d) =>
          match int_of t with
          | Some (sg, w) =>
              Some (t, fun r s => dbind (d r s) (fun v s =>
                match v with RI z => Go (RI (if sg then - z - 1 else unot w z)) s | _ => Stuck end))
          | None => None
          end
      | None => None
      end
  | EUn UDeref e =>
      match place G C e with
      | Some (TBox n, _, p) => Some (TArr U8 n, fun _ s => read_place p s)
      | _ => None
      end
  | EBin BAll a b =>
      match elab G C None a, elab G C None b with
      | Some (TI TBool, da), Some (TI TBool, db) =>
          Some (TI TBool, fun r s => dbind (da r s) (fun v s =>
            match v with RB true => db r s | RB false => Go (RB false) s | _ => Stuck end))
      | _, _ => None
      end
  | EBin BAny a b =>
      match elab G C None a, elab G C None b with
      | Some (TI TBool, da), Some (TI TBool, db) =>
          Some (TI TBool, fun r s => dbind (da r s) (fun v s =>
            match v with RB true => Go (RB true) s | RB false => db r s | _ => Stuck end))
      | _, _ => None
      end
  | EBin o a b =>
      if is_shift o then
        match elab G C h a, elab G C None b with
        | Some (ta, da), Some (tb, db) =>
            match int_of ta, int_of tb with
            | Some (sg, w), Some (false, _) =>
                Some (ta, fun r s => dbind (da r s) (fun x s => dbind (db r s) (fun y s =>
                  do_arith (r_mode r) sg w o x y s)))
            | _, _ => None
            end
        | _, _ => None
        end
      else
        match elab G C (if is_compare o then None else h) a with
        | Some (ta, da) =>
            match int_of ta, elab G C (Some ta) b with
            | Some (sg, w), Some (tb, db) =>
                if ty_eqb ta tb then
                  if is_compare o then
                    Some (TI TBool, fun r s => dbind (da r s) (fun x s => dbind (db r s) (fun y s =>
                      do_compare o x y s)))
                  else if is_arith sg o then
                    Some (ta, fun r s => dbind (da r s) (fun x s => dbind (db r s) (fun y s =>
                      do_arith (r_mode r) sg w o x y s)))
                  else None
                else None
            | _, _ => None
            end
        | None => None
        end
  | ECast e t =>
      match (match t with Some t => Some t | None => h end) with
      | Some target =>
          match int_of target, elab G C (match t with Some t => cast_hint e t | None => None end) e with
          | Some _, Some (te, d) =>
              match int_of te, te with
              | Some _, _ | None, TI TBool =>
                  Some (target, fun r s => dbind (d r s) (fun v s => do_cast target v s))
              | _, _ => None
              end
          | _, _ => None
          end
      | None => None
      end
  | EIndex a i =>
      match place G C a, elab G C (Some TUsize) i with
      | Some (t, _, p), Some (TUsize, di) =>
          match elem t with
          | Some te => Some (te, fun r s => dbind (di r s) (fun i s => get_elem p i s))
          | None => None
          end
      | _, _ => None
      end
  | EVal a =>
      match place G C a with
      | Some (TSelf, _, p) => if copyable (g_back G) then Some (g_back G, fun _ s => read_place p s) else None
      | _ => None
      end
  | EThis a =>
      match place G C a with
      | Some (TBuilder, _, p) => Some (TSelf, fun _ s => read_place p s)
      | _ => None
      end
  | EIf c a b =>
      match elab G C None c, elab_block G C h a, elab_block G C h b with
      | Some (TI TBool, dc), Some (ta, da), Some (tb, db) =>
          if ty_eqb ta tb then
            Some (ta, fun r s => dbind (dc r s) (fun v s =>
              match v with RB true => da r s | RB false => db r s | _ => Stuck end))
          else None
      | _, _, _ => None
      end
  | EBlock b => elab_block G C h b
  | EFromBits x e =>
      match g_codec G x with
      | Some cd =>
          match elab G C (Some (TI (cd_from_ty cd))) e with
          | Some (t, d) =>
              if ty_eqb t (TI (cd_from_ty cd)) then
                Some (TUser x, fun r s => dbind (d r s) (fun v s =>
                  match v with RI z => Go (RC (cd_from cd z)) s | _ => Stuck end))
              else None
          | None => None
          end
      | None => None
      end
  | EIntoBits e =>
      match elab G C None e with
      | Some (TUser x, d) =>
          match g_codec G x with
          | Some cd =>
              match int_of (TI (cd_into_ty cd)) with
              | Some _ =>
                  Some (TI (cd_into_ty cd), fun r s => dbind (d r s) (fun v s =>
                    match v with RC t => Go (RI (cast (cd_into_ty cd) (cd_into cd t))) s | _ => Stuck end))
              | None => None
              end
          | None => None
          end
      | _ => None
      end
  | ESwap e =>
      match elab G C None e with
      | Some (t, d) =>
          match int_of t with
          | Some (false, w) =>
              Some (t, fun r s => dbind (d r s) (fun v s =>
                match v with RI z => Go (RI (swap_bytes w z)) s | _ => Stuck end))
          | _ => None
          end
      | None => None
      end
  | ELen e =>
      match place G C e with
      | Some (t, _, p) =>
          match elem t with
          | Some _ => Some (TUsize, fun _ s => dbind (read_place p s) (fun v s =>
                        match v with RA l => Go (RI (Z.of_nat (List.length l))) s | _ => Stuck end))
          | None => None
          end
      | None => None
      end
  | ECall e f a =>
      match place G C e, g_fn G f with
      | Some (TSelf, true, p), Some (mkSig ByMut [ta] tr cf) =>
          match elab G C (Some ta) a with
          | Some (ta', da) =>
              if ty_eqb ta' ta && const_allowed G cf then
                Some (tr, fun r s => dbind (da r s) (fun v s => dbind (read_place p s) (fun self s =>
                  match r_call r f self [v] with
                  | Some o => dbind (lift o s) (fun q s =>
                      dbind (write_place p (snd q) s) (fun _ s => Go (fst q) s))
                  | None => Stuck
                  end)))
              else None
          | None => None
          end
      | _, _ => None
      end
  | ENew p f =>
      if names_bitfield G p then
        match g_fn G f with
        | Some (mkSig NoRecv [] tr cf) =>
            if const_allowed G cf then
              Some (tr, fun r s =>
                match r_call r f RU [] with
                | Some o => dbind (lift o s) (fun q s => Go (fst q) s)
                | None => Stuck
                end)
            else None
        | _ => None
        end
      else None
  | EStruct p e =>
      if names_bitfield G p then
        match elab G C (Some (g_back G)) e with
        | Some (t, d) => if ty_eqb t (g_back G) then Some (TSelf, d) else None
        | None => None
        end
      else None
  | EBuilder e =>
      if g_bitfield G then None
      else match elab G C (Some TSelf) e with
           | Some (TSelf, d) => Some (TBuilder, d)
           | _ => None
           end
  | EBox e =>
      if g_isconst G then None
      else match elab G C None e with
           | Some (TArr U8 n, d) => Some (TBox n, d)
           | _ => None
           end
  | ERepeat e n =>
      match elab G C (match h with Some (TArr t _) => Some (TI t) | _ => None end) e with
      | Some (TI t, d) =>
          Some (TArr t n, fun r s => dbind (d r s) (fun v s =>
            match v with RI z => Go (RA (repeat z (Z.to_nat n))) s | _ => Stuck end))
      | _ => None
      end
  | EArray l s =>
      let t := match s with
               | Some t => t
               | None => match h with Some (TArr t _) => t | _ => I32 end
               end in
      Some (TArr t (Z.of_nat (List.length l)), fun _ s => Go (RA (map (cast t) l)) s)
  | EUnit => Some (TUnit, fun _ s => Go RU s)
  | EOk e =>
      match elab G C (match h with Some (TRes t) => Some t | _ => None end) e with
      | Some (t, d) => Some (TRes t, fun r s => dbind (d r s) (fun v s => Go (ROk v) s))
      | None => None
      end
  | EErr m =>
      match h with
      | Some (TRes t) => Some (TRes t, fun _ s => Go (RErr m) s)
      | _ => None
      end
  | EContains a b x =>
      match elab G C None a, elab G C None b, elab G C None x with
      | Some (ta, da), Some (tb, db), Some (tx, dx) =>
          if ty_eqb ta tb && ty_eqb ta tx && negb (g_isconst G) then
            Some (TI TBool, fun r s => dbind (da r s) (fun u s => dbind (db r s) (fun v s => dbind (dx r s) (fun w s =>
              match u, v, w with
              | RI u, RI v, RI w => Go (RB ((u <=? w) && (w <? v))) s
              | _, _, _ => Stuck
              end))))
          else None
      | _, _, _ => None
      end
  | EDebug m => Some (TFmt, fun _ s => Go (RFmt []) s)
  | EFinish e =>
      match elab G C None e with
      | Some (TFmt, d) => Some (TFmt, d)
      | _ => None
      end
  | EUser t v => Some (t, fun _ s => Go v s)
  end
with elab_block (G : genv) (C : tctx) (h : option ty) (b : block) {struct b} : option (ty * den value) :=
  match b with
  | Block l tail =>
      (fix go (C : tctx) (l : list stmt) {struct l} : option (ty * den value) :=
         match l with
         | [] => match tail with
                 | Some e => elab G C h e
                 | None => Some (TUnit, fun _ s => Go RU s)
                 end
         | SLet m x (Some t) e :: rest =>
             match elab G C (Some t) e with
             | Some (te, d) =>
                 if ty_eqb te t then
                   match go ((x, (m, t)) :: C) rest with
                   | Some (tr, dr) =>
                       Some (tr, fun r s => dbind (d r s) (fun v s =>
                         dbind (dr r (push x v s)) (fun w s => Go w (pop s))))
                   | None => None
                   end
                 else None
             | None => None
             end
         | SLet m x None e :: rest =>
             let bound (t : ty) (d : den value) :=
               match go ((x, (m, t)) :: C) rest with
               | Some (tr, dr) =>
                   Some (tr, fun r s => dbind (d r s) (fun v s =>
                     dbind (dr r (push x v s)) (fun w s => Go w (pop s))))
               | None => None
               end in
             match open_lit e with
             | Some ts =>
                 first_some (fun t =>
                   match elab G C (Some t) e with
                   | Some (te, d) => if ty_eqb te t then bound t d else None
                   | None => None
                   end) ts
             | None =>
                 match elab G C None e with
                 | Some (t, d) => bound t d
                 | None => None
                 end
             end
         | s :: rest =>
             match elab_stmt G C s, go C rest with
             | Some d, Some (tr, dr) =>
                 Some (tr, fun r s => dbind (d r s) (fun _ s => dr r s))
             | _, _ => None
             end
         end) C l
  end
with elab_stmt (G : genv) (C : tctx) (s : stmt) {struct s} : option (den value) :=
  match s with
  | SLet _ _ _ _ => None            (* handled by the block *)
  | SSet (EIndex a i) e =>
      match place G C a, elab G C (Some TUsize) i with
      | Some (t, true, p), Some (TUsize, di) =>
          match elem t with
          | Some te =>
              match elab G C (Some te) e with
              | Some (te', d) =>
                  if ty_eqb te' te then
                    Some (fun r s => dbind (d r s) (fun v s => dbind (di r s) (fun i s => set_elem p i v s)))
                  else None
              | None => None
              end
          | None => None
          end
      | _, _ => None
      end
  | SSet (EVal a) e =>
      match place G C a with
      | Some (TSelf, true, p) =>
          match elab G C (Some (g_back G)) e with
          | Some (te, d) =>
              if ty_eqb te (g_back G) then
                Some (fun r s => dbind (d r s) (fun v s => write_place p v s))
              else None
          | None => None
          end
      | _ => None
      end
  | SSet _ _ => None
  | SOp o (EIndex a i) e =>
      match place G C a, elab G C (Some TUsize) i with
      | Some (t, true, p), Some (TUsize, di) =>
          match elem t with
          | Some te =>
              match int_of te, elab G C (Some te) e with
              | Some (sg, w), Some (te', d) =>
                  if ty_eqb te' te && is_arith sg o then
                    Some (fun r s => dbind (d r s) (fun v s => dbind (di r s) (fun i s =>
                      dbind (get_elem p i s) (fun old s =>
                        dbind (do_arith (r_mode r) sg w o old v s) (fun x s => set_elem p i x s)))))
                  else None
              | _, _ => None
              end
          | None => None
          end
      | _, _ => None
      end
  | SOp o p e =>
      match place G C p with
      | Some (t, true, q) =>
          match int_of t, elab G C (Some t) e with
          | Some (sg, w), Some (te, d) =>
              if ty_eqb te t && is_arith sg o then
                Some (fun r s => dbind (d r s) (fun v s => dbind (read_place q s) (fun old s =>
                  dbind (do_arith (r_mode r) sg w o old v s) (fun x s => write_place q x s))))
              else None
          | _, _ => None
          end
      | _ => None
      end
  | SExpr e =>
      match elab G C None e with
      | Some (TUnit, d) => Some d
      | _ => None
      end
  | SWhile c b =>
      match elab G C None c, elab_block G C None b with
      | Some (TI TBool, dc), Some (TUnit, db) =>
          Some (fun r s => wloop (r_fuel r) (dc r) (db r) s)
      | _, _ => None
      end
  | SReturn None => if ty_eqb (g_ret G) TUnit then Some (fun _ s => Back RU s) else None
  | SReturn (Some e) =>
      match elab G C (Some (g_ret G)) e with
      | Some (t, d) =>
          if ty_eqb t (g_ret G) then Some (fun r s => dbind (d r s) (fun v s => Back v s)) else None
      | None => None
      end
  | STry e =>
      match elab G C None e, g_ret G with
      | Some (TRes TUnit, d), TRes _ =>
          Some (fun r s => dbind (d r s) (fun v s =>
            match v with
            | ROk _ => Go RU s
            | RErr m => Back (RErr m) s
            | _ => Stuck
            end))
      | _, _ => None
      end
  | SField x m e =>
      match place G C (EVar x), elab G C None e with
      | Some (TFmt, true, p), Some (_, d) =>
          Some (fun r s => dbind (d r s) (fun v s => dbind (read_place p s) (fun w s =>
            match w with RFmt l => write_place p (RFmt (app l [(m, v)])) s | _ => Stuck end)))
      | _, _ => None
      end
  end.

(** ** Functions and programs *)

Record fn := mkFn {
  fn_name : string;
  fn_const : bool;
  fn_recv : recv;
  fn_params : list (string * ty);
  fn_ret : ty;
  fn_body : block }.

(** The bitfield's own [impl] block (functions and constants), and the types of
    the program. *)
Record program := mkProgram {
  p_back : ty;
  p_consts : list (string * Z);
  p_fns : list fn;
  p_codecs : list (string * codec) }.

Definition find_fn (f : string) (l : list fn) : option fn :=
  find (fun i => String.eqb f (fn_name i)) l.
Definition fn_sig (i : fn) : sig := mkSig (fn_recv i) (map snd (fn_params i)) (fn_ret i) (fn_const i).

(** What a function of the program, or ([own] = false) of another [impl] block,
    is checked against. *)
Definition genv_of (P : program) (own : bool) (i : fn) : genv :=
  {| g_bitfield := own;
     g_back := p_back P;
     g_const := fun c => lookup c (p_consts P);
     g_fn := fun f => option_map fn_sig (find_fn f (p_fns P));
     g_codec := fun x => lookup x (p_codecs P);
     g_isconst := fn_const i;
     g_ret := fn_ret i |}.
(** [self], of the bitfield's type or of the builder's. *)
Definition self_ctx (own : bool) (v : recv) : tctx :=
  let t := if own then TSelf else TBuilder in
  match v with
  | NoRecv => []
  | ByRef => [("self", (false, TRef false t))]
  | ByMut => [("self", (false, TRef true t))]
  | ByVal => [("self", (false, t))]
  | ByMutVal => [("self", (true, t))]
  end.
Definition check_fn (P : program) (own : bool) (i : fn) : option (den value) :=
  let C := app (map (fun p => (fst p, (false, snd p))) (fn_params i)) (self_ctx own (fn_recv i)) in
  match elab_block (genv_of P own i) C (Some (fn_ret i)) (fn_body i) with
  | Some (t, d) => if ty_eqb t (fn_ret i) then Some d else None
  | None => None
  end.

(** Parameters of reference type are passed as cells named after them. *)
Definition cell (x : string) : string := "*" ++ x.
Definition self_env (v : recv) (self : value) : st :=
  match v with
  | NoRecv => mkSt [] []
  | ByRef | ByMut => mkSt [("self", RRef "*self")] [("*self", self)]
  | ByVal | ByMutVal => mkSt [("self", self)] []
  end.
Fixpoint args_env (ps : list (string * ty)) (vs : list value) (s : st) : option st :=
  match ps, vs with
  | [], [] => Some s
  | (x, t) :: ps, v :: vs =>
      match args_env ps vs s with
      | Some s =>
          match t with
          | TRef _ _ => Some (mkSt ((x, RRef (cell x)) :: loc s) ((cell x, v) :: mem s))
          | _ => Some (push x v s)
          end
      | None => None
      end
  | _, _ => None
  end.

(** Result of a call and contents of the cells afterwards. *)
Definition finish (a : ans value) : option (outcome (value * env)) :=
  match a with
  | Go v s | Back v s => Some (Val (v, mem s))
  | Fail => Some Panic
  | Stuck => None
  end.
Definition run_fn (P : program) (own : bool) (i : fn) (r : rt) (self : value) (args : list value)
  : option (outcome (value * env)) :=
  match check_fn P own i, args_env (fn_params i) args (self_env (fn_recv i) self) with
  | Some d, Some s => finish (d r s)
  | _, _ => None
  end.

(** Calls between the functions of the program; [depth] bounds the nesting. *)
Fixpoint call (P : program) (m : mode) (fuel depth : nat) (f : string) (self : value) (args : list value)
  : option (outcome (value * value)) :=
  match depth with
  | O => None
  | S depth =>
      match find_fn f (p_fns P) with
      | Some i =>
          match run_fn P true i (mkRt m fuel (call P m fuel depth)) self args with
          | Some (Val (v, cells)) =>
              Some (Val (v, match lookup "*self" cells with Some x => x | None => self end))
          | Some Panic => Some Panic
          | None => None
          end
      | None => None
      end
  end.
