(** Fixed-width Rust integer semantics used by the emitted code.

    Nothing in this file comes from /repo: it is the Rust reference semantics of
    the operations that the emitted code uses ([<<], [>>], [+], [-], [as],
    [!], [swap_bytes], array indexing, [while] loops).  Bitwise [&], [|], [^]
    are [Z.land], [Z.lor], [Z.lxor] (two's complement on [Z]). *)
From Coq Require Import ZArith List Bool Lia String.
Import ListNotations.
Open Scope Z_scope.

(** Build profile: [Checked] = overflow checks on (debug), an overflowing
    [+]/[-] or an oversized shift amount panics.  [Wrapping] = overflow checks
    off (release): [+]/[-] wrap, the shift amount is reduced modulo the width. *)
Inductive mode := Checked | Wrapping.

(** Result of running a piece of Rust code. *)
Inductive outcome (A : Type) := Val (a : A) | Panic.
Arguments Val {A} _.
Arguments Panic {A}.

Definition bind {A B} (x : outcome A) (k : A -> outcome B) : outcome B :=
  match x with Val a => k a | Panic => Panic end.
Notation "x <- e ;; k" := (bind e (fun x => k))
  (at level 61, e at next level, right associativity).

(** [core::result::Result<A, &'static str>] is ordinary data. *)
Inductive res (A : Type) := Ok (a : A) | Err (msg : string).
Arguments Ok {A} _.
Arguments Err {A} _.

(** ** Unsigned integers of width [w], represented by [z] with [0 <= z < 2^w] *)

Definition umax (w : Z) : Z := 2 ^ w - 1.
(** [e as uW] for an integer [e]. *)
Definition ucast (w z : Z) : Z := z mod 2 ^ w.
(** [e as iW]. *)
Definition scast (w z : Z) : Z := (z + 2 ^ (w - 1)) mod 2 ^ w - 2 ^ (w - 1).
(** [!x] on an unsigned type. *)
Definition unot (w x : Z) : Z := Z.lxor x (umax w).

(** [x << n] on an unsigned type of width [w]. *)
Definition shl (m : mode) (w x n : Z) : outcome Z :=
  if n <? w then Val (Z.shiftl x n mod 2 ^ w)
  else match m with
       | Checked => Panic
       | Wrapping => Val (Z.shiftl x (n mod w) mod 2 ^ w)
       end.
(** [x >> n] on an unsigned type of width [w]. *)
Definition shr (m : mode) (w x n : Z) : outcome Z :=
  if n <? w then Val (Z.shiftr x n)
  else match m with
       | Checked => Panic
       | Wrapping => Val (Z.shiftr x (n mod w))
       end.
(** [x << n] on a signed type of width [w]. *)
Definition sshl (m : mode) (w x n : Z) : outcome Z :=
  if n <? w then Val (scast w (Z.shiftl x n))
  else match m with
       | Checked => Panic
       | Wrapping => Val (scast w (Z.shiftl x (n mod w)))
       end.
(** [x >> n] (arithmetic) on a signed type of width [w]. *)
Definition sshr (m : mode) (w x n : Z) : outcome Z :=
  if n <? w then Val (Z.shiftr x n)
  else match m with
       | Checked => Panic
       | Wrapping => Val (Z.shiftr x (n mod w))
       end.
(** [a + b], [a - b] on an unsigned type of width [w]. *)
Definition uadd (m : mode) (w a b : Z) : outcome Z :=
  if a + b <? 2 ^ w then Val (a + b)
  else match m with Checked => Panic | Wrapping => Val ((a + b) mod 2 ^ w) end.
Definition usub (m : mode) (w a b : Z) : outcome Z :=
  if b <=? a then Val (a - b)
  else match m with Checked => Panic | Wrapping => Val ((a - b) mod 2 ^ w) end.
(** [a * b] on an unsigned type of width [w]. *)
Definition umul (m : mode) (w a b : Z) : outcome Z :=
  if a * b <? 2 ^ w then Val (a * b)
  else match m with Checked => Panic | Wrapping => Val ((a * b) mod 2 ^ w) end.

(** ** Byte arrays [[u8; N]] *)

(** [l[i]] : panics when out of bounds. *)
Definition arr_get (l : list Z) (i : Z) : outcome Z :=
  if (0 <=? i) then
    match nth_error l (Z.to_nat i) with Some b => Val b | None => Panic end
  else Panic.

Fixpoint list_upd (l : list Z) (n : nat) (b : Z) : list Z :=
  match l, n with
  | [], _ => []
  | _ :: t, O => b :: t
  | h :: t, S n' => h :: list_upd t n' b
  end.

(** [l[i] = b] : panics when out of bounds. *)
Definition arr_set (l : list Z) (i b : Z) : outcome (list Z) :=
  if (0 <=? i) && (i <? Z.of_nat (List.length l)) then Val (list_upd l (Z.to_nat i) b)
  else Panic.

(** [[0u8; n]] *)
Definition zeros (n : Z) : list Z := repeat 0 (Z.to_nat n).

(** Little-endian value of a byte list and the little-endian bytes of a value. *)
Fixpoint le_val (l : list Z) : Z :=
  match l with [] => 0 | b :: t => b + 256 * le_val t end.
Fixpoint le_bytes (n : nat) (z : Z) : list Z :=
  match n with O => [] | S n' => z mod 256 :: le_bytes n' (z / 256) end.

(** [uW::swap_bytes] for [w] a multiple of 8. *)
Definition swap_bytes (w z : Z) : Z := le_val (rev (le_bytes (Z.to_nat (w / 8)) z)).

(** ** Loops *)

(** [let mut i = i0; while i < i0 + n { body; i += 1; }] with loop state [s].
    The increment itself cannot overflow because the bound is a value of the
    index type. *)
Fixpoint loop {S} (n : nat) (i : Z) (body : Z -> S -> outcome S) (s : S) : outcome S :=
  match n with
  | O => Val s
  | Datatypes.S n' => s' <- body i s ;; loop n' (i + 1) body s'
  end.
(** [let mut i = 0; while i < bound { body; i += 1; }] *)
Definition while_lt {S} (bound : Z) (body : Z -> S -> outcome S) (s : S) : outcome S :=
  loop (Z.to_nat bound) 0 body s.

(** Same loop, where the body may [return] early: [Some r] stops the loop. *)
Fixpoint loop_find {R} (n : nat) (i : Z) (body : Z -> outcome (option R)) : outcome (option R) :=
  match n with
  | O => Val None
  | Datatypes.S n' =>
      r <- body i ;;
      match r with Some x => Val (Some x) | None => loop_find n' (i + 1) body end
  end.
Definition while_lt_find {R} (bound : Z) (body : Z -> outcome (option R)) : outcome (option R) :=
  loop_find (Z.to_nat bound) 0 body.

(** Run a list of statements in order. *)
Fixpoint run_all {A S} (step : A -> S -> outcome S) (l : list A) (s : S) : outcome S :=
  match l with
  | [] => Val s
  | a :: t => s' <- step a s ;; run_all step t s'
  end.
