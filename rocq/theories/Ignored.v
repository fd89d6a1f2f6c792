(** What a function does to the fields with [#[bits(ignore = true)]], on the syntax
    of Rust.v.

    Nothing in this file comes from /repo.  Rust.v represents a bitfield by its
    bits alone; here it is the other way round: a bitfield (or a builder) is
    represented by the values of its ignored fields together, an element of [X],
    and every other value is forgotten.  Since conditions are forgotten too, both
    branches of an [if] are possible, loops stop after any number of rounds, and
    every expression may panic.  So the relation below has at least the runs that
    the function has.

    [d] are the values that a struct expression gives the ignored fields:
    [T::default()] for each, /repo/bitfields_impl/src/generating/bitfield/
    features/common/generator_helper.rs:74-117. *)
From Coq Require Import ZArith List Bool String.
From Verif Require Import RustInt Syntax Rust.
Import ListNotations.
Open Scope string_scope.

(** [Other]: neither a bitfield nor a builder nor a reference to one; [Ptr]: a
    reference to the receiver. *)
Inductive aval {X : Type} := Other | Ptr | Ext (i : X).
Arguments aval : clear implicits.
(** A value, a [return], a panic. *)
Inductive res {X : Type} := Value (v : aval X) | Return (v : aval X) | Stop.
Arguments res : clear implicits.
(** The variables, and the ignored fields of what [Ptr] points to. *)
Definition state (X : Type) : Type := list (string * aval X) * X.

Definition abrupt {X} (r : res X) : bool := match r with Value _ => false | _ => true end.
Definition map_value {X} (f : aval X -> aval X) (r : res X) : res X :=
  match r with Value v => Value (f v) | r => r end.
Definition result {X} (r : res X) : res X := match r with Return v => Value v | r => r end.
Definition deref {X} (c : X) (v : aval X) : aval X := match v with Ptr => Ext c | v => v end.

(** Expressions whose value is neither a bitfield nor a builder, with the
    expressions evaluated for it. *)
Definition parts (e : expr) : option (list expr) :=
  match e with
  | ELit _ _ | EBool _ | EMax _ | EBits _ | EConst _ _ | EArray _ _ | EUnit | EErr _ | EDebug _ | EUser _ _ => Some []
  | EUn UNot e | EUn UNeg e | ECast e _ | EFromBits _ e | EIntoBits e | ESwap e | ELen e | EVal e
  | EFinish e | EBox e | ERepeat e _ => Some [e]
  | EBin _ a b | EIndex a b => Some [a; b]
  | EContains a b x => Some [a; b; x]
  | _ => None
  end.
Definition lazy (o : bop) : bool := match o with BAll | BAny => true | _ => false end.
(** The variable that holds the place [e], when the place is a whole bitfield or
    builder. *)
Fixpoint root (e : expr) : option string :=
  match e with EVar x => Some x | EThis e | EUn UDeref e => root e | _ => None end.

(** The ignored fields reached through [v]; and after a call that leaves [i] there. *)
Definition held {X} (c : X) (v : aval X) : option X :=
  match v with Ptr => Some c | Ext i => Some i | Other => None end.
Definition leaves {X} (x : string) (v : aval X) (i : X) (s : state X) : state X :=
  match v with
  | Ptr => (fst s, i)
  | Ext _ => (update x (Ext i) (fst s), snd s)
  | Other => s
  end.
(** [p = v]. *)
Definition store {X} (p : expr) (v : aval X) (s : state X) : state X :=
  match p with
  | EVar x => (update x v (fst s), snd s)
  | EThis q | EUn UDeref q =>
      match root q, v with
      | Some x, Ext i => match lookup x (fst s) with Some w => leaves x w i s | None => s end
      | _, _ => s
      end
  | _ => s
  end.
(** The expressions that a statement evaluates, once. *)
Definition operands (s : stmt) : list expr :=
  match s with
  | SLet _ _ _ e | SExpr e | SReturn (Some e) | STry e | SField _ _ e => [e]
  | SSet p e | SOp _ p e => [e; p]
  | SWhile _ _ | SReturn None => []
  end.
(** The end of the block that began with [s]. *)
Definition leave {X} (s s' : state X) : state X :=
  (skipn (List.length (fst s') - List.length (fst s)) (fst s'), snd s').

(** The variables at the beginning of a function whose receiver (or argument, for
    [From::from]) has the ignored fields [i]. *)
Definition start {X} (f : fn) (i : X) : list (string * aval X) :=
  (map (fun p => (fst p, match snd p with TSelf | TBuilder => Ext i | _ => Other end)) (fn_params f) ++
   match fn_recv f with
   | NoRecv => []
   | ByRef | ByMut => [("self", Ptr)]
   | ByVal | ByMutVal => [("self", Ext i)]
   end)%list.

Section Runs.
Context {X : Type}.
Variable d : X.
Variable fns : list fn.

Inductive ev : expr -> state X -> res X -> state X -> Prop :=
| ev_stop e s : ev e s Stop s
| ev_var x s v : lookup x (fst s) = Some v -> ev (EVar x) s (Value v) s
| ev_parts e l s r s' : parts e = Some l -> evs l s r s' -> ev e s r s'
| ev_lazy o a b s v s' : lazy o = true -> ev a s (Value v) s' -> ev (EBin o a b) s (Value Other) s'
| ev_deref e s r s' : ev e s r s' -> ev (EUn UDeref e) s (map_value (deref (snd s')) r) s'
| ev_this e s r s' : ev e s r s' -> ev (EThis e) s (map_value (deref (snd s')) r) s'
| ev_builder e s r s' : ev e s r s' -> ev (EBuilder e) s r s'
| ev_ok e s r s' : ev e s r s' -> ev (EOk e) s r s'
| ev_struct p e s r s' : ev e s r s' -> ev (EStruct p e) s (map_value (fun _ => Ext d) r) s'
| ev_if c a b s r s' : ev c s r s' -> abrupt r = true -> ev (EIf c a b) s r s'
| ev_then c a b s v s1 r s' : ev c s (Value v) s1 -> evb a s1 r s' -> ev (EIf c a b) s r s'
| ev_else c a b s v s1 r s' : ev c s (Value v) s1 -> evb b s1 r s' -> ev (EIf c a b) s r s'
| ev_block b s r s' : evb b s r s' -> ev (EBlock b) s r s'
| ev_arg e f a s r s' : ev a s r s' -> abrupt r = true -> ev (ECall e f a) s r s'
| ev_call e f a s w s1 x v i g r i' :
    ev a s (Value w) s1 -> root e = Some x -> lookup x (fst s1) = Some v -> held (snd s1) v = Some i ->
    In g fns -> fn_name g = f -> fn_recv g <> NoRecv -> run g i r i' ->
    ev (ECall e f a) s (result r) (leaves x v i' s1)
| ev_new p f s g i r i' :
    In g fns -> fn_name g = f -> fn_recv g = NoRecv -> fn_params g = [] -> run g i r i' ->
    ev (ENew p f) s (result r) s
with evs : list expr -> state X -> res X -> state X -> Prop :=
| evs_nil s : evs [] s (Value Other) s
| evs_cons e l s v s1 r s' : ev e s (Value v) s1 -> evs l s1 r s' -> evs (e :: l) s r s'
| evs_out e l s r s' : ev e s r s' -> abrupt r = true -> evs (e :: l) s r s'
with evst : stmt -> state X -> res X -> state X -> Prop :=
| st_out c s r s' : evs (operands c) s r s' -> abrupt r = true -> evst c s r s'
| st_let m x t e s v s' :
    ev e s (Value v) s' -> evst (SLet m x t e) s (Value Other) ((x, v) :: fst s', snd s')
| st_set p e s v s1 w s' :
    ev e s (Value v) s1 -> ev p s1 (Value w) s' -> evst (SSet p e) s (Value Other) (store p v s')
| st_op o p e s v s1 w s' :
    ev e s (Value v) s1 -> ev p s1 (Value w) s' -> evst (SOp o p e) s (Value Other) (store p Other s')
| st_expr e s v s' : ev e s (Value v) s' -> evst (SExpr e) s (Value Other) s'
| st_return s : evst (SReturn None) s (Return Other) s
| st_return_value e s v s' : ev e s (Value v) s' -> evst (SReturn (Some e)) s (Return v) s'
| st_try e s v s' : ev e s (Value v) s' -> evst (STry e) s (Value Other) s'
| st_try_err e s v s' : ev e s (Value v) s' -> evst (STry e) s (Return Other) s'
| st_field x n e s v s' : ev e s (Value v) s' -> evst (SField x n e) s (Value Other) s'
| st_while_out c b s r s' : ev c s r s' -> abrupt r = true -> evst (SWhile c b) s r s'
| st_while_end c b s v s' : ev c s (Value v) s' -> evst (SWhile c b) s (Value Other) s'
| st_while_body c b s v s1 r s' :
    ev c s (Value v) s1 -> evb b s1 r s' -> abrupt r = true -> evst (SWhile c b) s r s'
| st_while c b s v s1 w s2 r s' :
    ev c s (Value v) s1 -> evb b s1 (Value w) s2 -> evst (SWhile c b) s2 r s' -> evst (SWhile c b) s r s'
with evl : list stmt -> state X -> res X -> state X -> Prop :=
| evl_nil s : evl [] s (Value Other) s
| evl_cons c l s v s1 r s' : evst c s (Value v) s1 -> evl l s1 r s' -> evl (c :: l) s r s'
| evl_out c l s r s' : evst c s r s' -> abrupt r = true -> evl (c :: l) s r s'
with evb : block -> state X -> res X -> state X -> Prop :=
| evb_out l e s r s' : evl l s r s' -> abrupt r = true -> evb (Block l e) s r (leave s s')
| evb_none l s v s' : evl l s (Value v) s' -> evb (Block l None) s (Value Other) (leave s s')
| evb_some l e s v s1 r s' :
    evl l s (Value v) s1 -> ev e s1 r s' -> evb (Block l (Some e)) s r (leave s s')
with run : fn -> X -> res X -> X -> Prop :=
| run_fn f i r s : evb (fn_body f) (start f i, i) r s -> run f i (result r) (snd s).

Scheme ev_mut := Minimality for ev Sort Prop
  with evs_mut := Minimality for evs Sort Prop
  with evst_mut := Minimality for evst Sort Prop
  with evl_mut := Minimality for evl Sort Prop
  with evb_mut := Minimality for evb Sort Prop
  with run_mut := Minimality for run Sort Prop.
Combined Scheme runs_mut from ev_mut, evs_mut, evst_mut, evl_mut, evb_mut, run_mut.
End Runs.
