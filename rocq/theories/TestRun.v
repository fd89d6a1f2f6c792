(** Interpreter for the repository's own tests, translated by tools/repo_tests.py
    into RepoTests.v.  A test is a list of declarations and of statements that call
    the emitted functions by name.  This only tests the model: no theorem depends
    on it. *)
From Coq Require Import ZArith List Bool String.
From Verif Require Import RustInt Syntax Rust Emit DebugText.
From Verif Require ConstExpr Parser Bitflag PropBitflag.
Import ListNotations.
Open Scope string_scope.
Open Scope list_scope.
Open Scope Z_scope.

(** bitfields_impl/Cargo.toml:30-52: the default features. *)
Definition default_features : Parser.features := fun x => existsb (String.eqb x)
  ["order_lsb"; "generate_new"; "generate_from_into_bits"; "from_endian_big"; "into_endian_big"; "generate_from_traits";
   "generate_default"; "generate_debug"; "derive_copy"; "generate_bit_ops"; "generate_write_bit_ops"; "write_endian_big";
   "generate_clear_bit_ops"; "generate_set_get_bit_ops"; "generate_invert_bit_ops"; "generate_toggle_bit_ops";
   "generate_builder"; "bitflag_from_endian_big"; "bitflag_into_endian_big"; "bitflag_derive_copy"; "disable_array_heap"].

(** A declaration and the expressions of its defaults, by field name. *)
Record unit_ := mkUnit { u_name : string; u_decl : Parser.rdecl; u_defaults : list (string * expr) }.
Record built := mkBuilt { t_bf : bitfield; t_dx : field -> expr }.
Definition dx_of (l : list (string * expr)) (f : field) : expr :=
  match lookup (f_name f) l with Some e => e | None => EUnit end.
Definition compile (u : unit_) : option (string * built) :=
  match Parser.parse_bitfield Checked default_features (u_decl u) with
  | ConstExpr.POk bf => Some (u_name u, mkBuilt bf (dx_of (u_defaults u)))
  | _ => None
  end.
Fixpoint compile_all (l : list unit_) : option (list (string * built)) :=
  match l with
  | [] => Some []
  | u :: t => match compile u, compile_all t with Some x, Some y => Some (x :: y) | _, _ => None end
  end.
(** Every function of every declaration type checks. *)
Definition all_check (b : built) : bool :=
  let P := emitted (t_dx b) (t_bf b) in
  let ok own i := match check_fn P own i with Some _ => true | None => false end in
  forallb (ok true) (p_fns P) && forallb (fun p => ok (fst p) (snd p)) (trait_fns (t_dx b) (t_bf b)) &&
  forallb (ok false) (builder_fns (t_dx b) (t_bf b)).

Definition fuel : nat := 2000.
Definition depth : nat := 6.
Definition rt_of (b : built) : rt := mkRt Checked fuel (call (emitted (t_dx b) (t_bf b)) Checked fuel depth).

(** A bitfield used as the type of a field: its values are its bits. *)
Definition as_value (v : value) : Z := match v with RI z => z | RA l => le_val l | RC t => t | _ => -1 end.
Definition nested_codec (u : unit_) (t : ity) : codec :=
  match compile u with
  | None => mkCodec t (fun z => z) t (fun z => z)
  | Some (_, b) =>
      let P := emitted (t_dx b) (t_bf b) in
      mkCodec t (fun z => match call P Checked fuel depth "from_bits" RU [RI z] with Some (Val (v, _)) => as_value v | _ => -1 end)
              t (fun z => match call P Checked fuel depth "into_bits" (RI z) [] with Some (Val (v, _)) => as_value v | _ => -1 end)
  end.
(** A bitflag: its values are the positions of the variants. *)
Definition bitflag_codec (e : Bitflag.renum) (t : ity) : codec :=
  match Bitflag.parse_bitflag default_features e with
  | ConstExpr.POk g => PropBitflag.flag_codec g t
  | _ => mkCodec t (fun _ => -1) t (fun _ => -1)
  end.

Inductive te :=
| TV (v : value)
| TVar (x : string)
| TMeth (B : string) (x : te) (f : string) (args : list te)   (* method of the bitfield [B] *)
| TStat (B f : string) (args : list te)                       (* [B::f(..)] *)
| TFrom (B : string) (e : te) | TInto (B : string) (e : te) | TDefault (B : string)
| TBuild (B f : string) (args : list te)                      (* function of the builder; [self] first *)
| TSlice (B : string) (x : te) (f : string) (buf : string)    (* [x.f(&mut buf)] *)
| TFmt (B : string) (e : te)
| TConst (B c : string)
| TIs (B f : string) | TIsBuilder (B f : string) | TIsTrait (B f : string)  (* the function exists *)
| TCodecFrom (c : codec) (e : te) | TCodecInto (c : codec) (e : te)
| TUnwrap (e : te) | TErr (e : te) | TIsOk (e : te) | TIsErr (e : te)
| TContains (a b : te)                                         (* [a.contains(b)] on strings *)
| TAndThen (e : te) (x : string) (k : te)                      (* [e.and_then(|x| k)] *)
| TNot (e : te) | TEq (a b : te) | TAt (e : te) (i : Z) | TNum (f : Z -> Z -> Z) (a b : te)
| TList (l : list te).
Inductive ts := SLetT (x : string) (e : te) | SDo (e : te) | SAssert (e : te) | SPut (x : string) (i : Z) (e : te).

Fixpoint value_eqb (a b : value) : bool :=
  match a, b with
  | RI x, RI y | RC x, RC y => x =? y
  | RB x, RB y => Bool.eqb x y
  | RA x, RA y => (Nat.eqb (List.length x) (List.length y)) && forallb (fun p => fst p =? snd p) (combine x y)
  | RU, RU => true
  | ROk x, ROk y => value_eqb x y
  | RErr x, RErr y => String.eqb x y
  | RFmt x, RFmt y =>
      (fix go x y := match x, y with
         | [], [] => true
         | (n, v) :: x, (n', v') :: y => String.eqb n n' && value_eqb v v' && go x y
         | _, _ => false
         end) x y
  | _, _ => false
  end.

(** Strings are values [RErr]. *)
Fixpoint contains (x y : string) : bool :=
  String.prefix y x || match x with EmptyString => false | String _ t => contains t y end.
Definition printed (e : string * value) : string * pval :=
  (fst e, match snd e with RI z => PInt z | RB b => PBool b | RA l => PArr l | _ => PCustom 0 end).

Inductive result := Passed | Failed (n : nat) | Panicked (n : nat) | Cannot (n : nat) | Rejected | IllTyped (B : string).
(** Evaluation: the value and the variables afterwards; [None]: panic or no such
    function. *)
Inductive ev (A : Type) := Yes (a : A) (s : env) | Boom | Wrong.
Arguments Yes {A}. Arguments Boom {A}. Arguments Wrong {A}.
Definition ebind {A B} (x : ev A) (k : A -> env -> ev B) : ev B := match x with Yes a s => k a s | Boom => Boom | Wrong => Wrong end.
Section Run.
Variable us : list (string * built).
Definition on (B : string) {A} (k : built -> ev A) : ev A := match lookup B us with Some b => k b | None => Wrong end.
Definition answer (x : option (outcome (value * env))) {A} (k : value -> env -> ev A) : ev A :=
  match x with Some (Val (v, c)) => k v c | Some Panic => Boom | None => Wrong end.
Definition store_back (x : te) (c s : env) : env :=
  match x, lookup "*self" c with TVar x, Some v => (x, v) :: s | _, _ => s end.
Fixpoint eval (s : env) (e : te) {struct e} : ev value :=
  let fix evals (s : env) (l : list te) {struct l} : ev (list value) :=
    match l with
    | [] => Yes [] s
    | e :: t => ebind (eval s e) (fun v s => ebind (evals s t) (fun vs s => Yes (v :: vs) s))
    end in
  match e with
  | TV v => Yes v s
  | TVar x => match lookup x s with Some v => Yes v s | None => Wrong end
  | TMeth B x f args =>
      ebind (eval s x) (fun self s => ebind (evals s args) (fun vs s => on B (fun b =>
        match find_fn f (impl_fns (t_dx b) (t_bf b)) with
        | Some i => answer (run_fn (emitted (t_dx b) (t_bf b)) true i (rt_of b) self vs) (fun v c => Yes v (store_back x c s))
        | None => Wrong
        end)))
  | TStat B f args =>
      ebind (evals s args) (fun vs s => on B (fun b =>
        match find_fn f (impl_fns (t_dx b) (t_bf b)) with
        | Some i => answer (run_fn (emitted (t_dx b) (t_bf b)) true i (rt_of b) RU vs) (fun v _ => Yes v s)
        | None => Wrong
        end))
  | TFrom B e =>
      ebind (eval s e) (fun v s => on B (fun b =>
        if a_from_traits (b_args (t_bf b)) then
          answer (run_fn (emitted (t_dx b) (t_bf b)) true (trait_from_fn (t_bf b)) (rt_of b) RU [v]) (fun v _ => Yes v s)
        else Wrong))
  | TInto B e =>
      ebind (eval s e) (fun v s => on B (fun b =>
        if a_from_traits (b_args (t_bf b)) then
          answer (run_fn (emitted (t_dx b) (t_bf b)) false (trait_into_fn (t_bf b)) (rt_of b) RU [v]) (fun v _ => Yes v s)
        else Wrong))
  | TDefault B => on B (fun b =>
      if a_default (b_args (t_bf b)) then
        answer (run_fn (emitted (t_dx b) (t_bf b)) true (default_fn (t_dx b) (t_bf b)) (rt_of b) RU []) (fun v _ => Yes v s)
      else Wrong)
  | TBuild B f args =>
      ebind (evals s args) (fun vs s => on B (fun b =>
        match find_fn f (builder_fns (t_dx b) (t_bf b)) with
        | Some i =>
            let '(self, vs) := match fn_recv i, vs with NoRecv, _ => (RU, vs) | _, v :: t => (v, t) | _, [] => (RU, []) end in
            answer (run_fn (emitted (t_dx b) (t_bf b)) false i (rt_of b) self vs) (fun v _ => Yes v s)
        | None => Wrong
        end))
  | TSlice B x f buf =>
      ebind (eval s x) (fun self s => on B (fun b =>
        match find_fn f (impl_fns (t_dx b) (t_bf b)), lookup buf s with
        | Some i, Some l =>
            answer (run_fn (emitted (t_dx b) (t_bf b)) true i (rt_of b) self [l])
              (fun v c => Yes v (match lookup "*slice" c with Some l => (buf, l) :: s | None => s end))
        | _, _ => Wrong
        end))
  | TFmt B e =>
      ebind (eval s e) (fun self s => on B (fun b =>
        if a_debug (b_args (t_bf b)) then
          answer (run_fn (emitted (t_dx b) (t_bf b)) true (debug_fn (t_bf b)) (rt_of b) self [])
            (fun v _ => match v with RFmt l => Yes (RErr (struct_text false (b_name (t_bf b)) (map printed l))) s | _ => Wrong end)
        else Wrong))
  | TConst B c => on B (fun b => match lookup c (consts (t_bf b)) with Some z => Yes (RI z) s | None => Wrong end)
  | TIs B f => on B (fun b => Yes (RB match find_fn f (impl_fns (t_dx b) (t_bf b)) with Some _ => true | None => false end) s)
  | TIsBuilder B f => on B (fun b => Yes (RB match find_fn f (builder_fns (t_dx b) (t_bf b)) with Some _ => true | None => false end) s)
  | TIsTrait B f => on B (fun b => Yes (RB match find_fn f (map snd (trait_fns (t_dx b) (t_bf b))) with Some _ => true | None => false end) s)
  | TCodecFrom c e => ebind (eval s e) (fun v s => match v with RI z => Yes (RC (cd_from c z)) s | _ => Wrong end)
  | TCodecInto c e => ebind (eval s e) (fun v s => match v with RC z => Yes (RI (cd_into c z)) s | _ => Wrong end)
  | TContains a b =>
      ebind (eval s a) (fun x s => ebind (eval s b) (fun y s =>
        match x, y with RErr x, RErr y => Yes (RB (contains x y)) s | _, _ => Wrong end))
  | TAndThen e x k =>
      ebind (eval s e) (fun v s => match v with ROk v => eval ((x, v) :: s) k | RErr _ => Yes v s | _ => Wrong end)
  | TUnwrap e => ebind (eval s e) (fun v s => match v with ROk v => Yes v s | RErr _ => Boom | _ => Wrong end)
  | TErr e => ebind (eval s e) (fun v s => match v with RErr _ => Yes v s | ROk _ => Boom | _ => Wrong end)
  | TIsOk e => ebind (eval s e) (fun v s => match v with ROk _ => Yes (RB true) s | RErr _ => Yes (RB false) s | _ => Wrong end)
  | TIsErr e => ebind (eval s e) (fun v s => match v with ROk _ => Yes (RB false) s | RErr _ => Yes (RB true) s | _ => Wrong end)
  | TNot e => ebind (eval s e) (fun v s => match v with RB b => Yes (RB (negb b)) s | _ => Wrong end)
  | TEq a b => ebind (eval s a) (fun v s => ebind (eval s b) (fun w s => Yes (RB (value_eqb v w)) s))
  | TAt e i => ebind (eval s e) (fun v s => match v with RA l => Yes (RI (nth (Z.to_nat i) l (-1))) s | _ => Wrong end)
  | TNum f a b => ebind (eval s a) (fun v s => ebind (eval s b) (fun w s =>
      match v, w with RI x, RI y => Yes (RI (f x y)) s | _, _ => Wrong end))
  | TList l => ebind (evals s l) (fun vs s => Yes (RA (map as_value vs)) s)
  end.
Fixpoint replace (l : list Z) (i : nat) (z : Z) : list Z :=
  match l, i with [], _ => [] | _ :: t, O => z :: t | x :: t, S i => x :: replace t i z end.
Fixpoint exec (n : nat) (s : env) (l : list ts) : result :=
  match l with
  | [] => Passed
  | c :: t =>
      let go (x : ev value) (k : value -> env -> result) :=
        match x with Yes v s => k v s | Boom => Panicked n | Wrong => Cannot n end in
      match c with
      | SLetT x e => go (eval s e) (fun v s => exec (S n) ((x, v) :: s) t)
      | SDo e => go (eval s e) (fun _ s => exec (S n) s t)
      | SAssert e => go (eval s e) (fun v s => match v with RB true => exec (S n) s t | _ => Failed n end)
      | SPut x i e => go (eval s e) (fun v s =>
          match lookup x s, v with
          | Some (RA l), RI z => exec (S n) ((x, RA (replace l (Z.to_nat i) z)) :: s) t
          | _, _ => Cannot n
          end)
      end
  end.
End Run.
Definition run_test (us : list unit_) (l : list ts) : result :=
  match compile_all us with
  | None => Rejected
  | Some us =>
      match find (fun p => negb (all_check (snd p))) us with
      | Some (B, _) => IllTyped B
      | None => exec us 0 [] l
      end
  end.
