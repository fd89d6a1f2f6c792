(** Text of a default value or bitflag value -> literal value
    (parsing/common/const_expr.rs). *)
From Coq Require Import ZArith List Bool String Ascii.
From Verif Require Import RustInt.
Import ListNotations.
Open Scope Z_scope.

(** Result of the macro's own code: an error reported to the user, or a panic
    of the macro (lib.rs:2287-2298 turns the panic into an "internal error"
    compile error, so neither produces a bitfield). *)
Inductive pres (E A : Type) := POk (a : A) | PErr (e : E) | PPanic.
Arguments POk {E A} _.
Arguments PErr {E A} _.
Arguments PPanic {E A}.
Definition pbind {E A B} (x : pres E A) (k : A -> pres E B) : pres E B :=
  match x with POk a => k a | PErr e => PErr e | PPanic => PPanic end.
Notation "x <~ e ;; k" := (pbind e (fun x => k))
  (at level 61, e at next level, right associativity).
Definition of_outcome {E A} (x : outcome A) : pres E A :=
  match x with Val a => POk a | Panic => PPanic end.

(** ** Rust [str] operations, on lists of ASCII characters *)

Definition str := list ascii.
Definition chars (s : string) : str := list_ascii_of_string s.

Fixpoint strip_prefix (p s : str) : option str :=
  match p, s with
  | [], _ => Some s
  | c :: p', d :: s' => if Ascii.eqb c d then strip_prefix p' s' else None
  | _ :: _, [] => None
  end.
Definition starts_with (p s : str) : bool :=
  match strip_prefix p s with Some _ => true | None => false end.
Definition strip_suffix (p s : str) : option str :=
  match strip_prefix (rev p) (rev s) with Some r => Some (rev r) | None => None end.
Definition ends_with (p s : str) : bool := starts_with (rev p) (rev s).
(** [str::trim_start_matches]: removes the pattern as often as it occurs. *)
Fixpoint trim_start_n (n : nat) (p s : str) : str :=
  match n with
  | O => s
  | S n' => match strip_prefix p s with Some r => trim_start_n n' p r | None => s end
  end.
Definition trim_start_matches (p s : str) : str := trim_start_n (List.length s) p s.

Definition is_space (c : ascii) : bool :=
  let n := nat_of_ascii c in ((9 <=? n) && (n <=? 13) || (n =? 32))%nat.
Fixpoint drop_spaces (s : str) : str :=
  match s with c :: t => if is_space c then drop_spaces t else s | [] => [] end.
(** [str::trim] (ASCII white space only; tokens printed by [quote] contain no
    other white space). *)
Definition trim (s : str) : str := rev (drop_spaces (rev (drop_spaces s))).
(** [str::replace([' ', '_'], "")] *)
Definition unspaced (s : str) : str :=
  filter (fun c => negb (Ascii.eqb c " " || Ascii.eqb c "_")) s.
(** [char::to_ascii_lowercase] *)
Definition lower (c : ascii) : ascii :=
  let n := nat_of_ascii c in
  if ((65 <=? n) && (n <=? 90))%nat then ascii_of_nat (n + 32) else c.
Definition lowercase (s : str) : str := map lower s.

Fixpoint str_eqb (a b : str) : bool :=
  match a, b with
  | [], [] => true
  | c :: a', d :: b' => Ascii.eqb c d && str_eqb a' b'
  | _, _ => false
  end.

(** [char::to_digit(radix)] for radix <= 36. *)
Definition to_digit (radix : Z) (c : ascii) : option Z :=
  let n := Z.of_nat (nat_of_ascii c) in
  let d := if (48 <=? n) && (n <=? 57) then n - 48
           else if (97 <=? n) && (n <=? 122) then n - 87
           else if (65 <=? n) && (n <=? 90) then n - 55
           else 99 in
  if d <? radix then Some d else None.

(** [u128::from_str_radix] / [str::parse::<u128>] (radix 10): a leading [+] is
    skipped, the empty digit string is an error, overflow is an error. *)
Fixpoint parse_digits (radix acc : Z) (s : str) : option Z :=
  match s with
  | [] => Some acc
  | c :: t =>
      match to_digit radix c with
      | None => None
      | Some d =>
          let acc' := acc * radix + d in
          if acc' <? 2 ^ 128 then parse_digits radix acc' t else None
      end
  end.
Definition from_str_radix (radix : Z) (s : str) : option Z :=
  let s' := match s with c :: t => if Ascii.eqb c "+" then t else s | [] => [] end in
  match s' with [] => None | _ => parse_digits radix 0 s' end.

(** ** const_expr.rs *)

(** const_expr.rs:18-25 ([enum ConstExpr]); the token text is kept by the
    caller. *)
Inductive cexpr := CLit (number : Z) (negative : bool) | CPath.

(** const_expr.rs:9-10 *)
Definition float_identifiers : list str := [chars "f32"; chars "f64"].
(** const_expr.rs:12-13 *)
Definition integer_identifiers : list str :=
  map chars ["u8"; "u16"; "u32"; "u64"; "u128"; "usize";
             "i8"; "i16"; "i32"; "i64"; "i128"; "isize"]%string.

(** const_expr.rs:33-58 ([IntegerPrefix]). *)
Definition hex_prefix : str := chars "0x".
Definition binary_prefix : str := chars "0b".
Definition octal_prefix : str := chars "0o".

(** const_expr.rs:80-93 ([check_float]): true when the text is rejected. *)
Definition float_rejected (s : str) : bool :=
  negb (starts_with hex_prefix s) &&
  (existsb (Ascii.eqb ".") s || existsb (fun id => ends_with id s) float_identifiers).

(** const_expr.rs:95-113 ([is_boolean], [parse_boolean]). *)
Definition parse_boolean (s : str) : option cexpr :=
  if str_eqb s (chars "true") then Some (CLit 1 false)
  else if str_eqb s (chars "false") then Some (CLit 0 false)
  else None.

(** const_expr.rs:129-140 ([strip_integer_suffix]): first identifier of the list
    that the text ends with. *)
Definition strip_integer_suffix (s : str) : str :=
  let suffix := match find (fun id => ends_with id s) integer_identifiers with
                | Some id => id | None => [] end in
  match strip_suffix suffix s with Some r => r | None => s end.

(** const_expr.rs:142-144 ([is_negative]), 146-148 ([strip_negative_sign]). *)
Definition is_negative (s : str) : bool := starts_with (chars "-") s.
Definition strip_negative_sign (s : str) : str := trim_start_matches (chars "-") s.

(** const_expr.rs:150-189 ([parse_integer_helper]): [Val None] is the [Err] case
    (dropped by the caller), [Panic] the [unreachable!]s. *)
Definition parse_prefixed (prefix : str) (radix : Z) (s : str) : outcome (option Z) :=
  match from_str_radix radix (trim_start_matches prefix s) with
  | Some n => Val (Some n)
  | None => Panic
  end.
Definition parse_integer_helper (s : str) : outcome (option Z) :=
  if starts_with hex_prefix s then parse_prefixed hex_prefix 16 s
  else if starts_with binary_prefix s then parse_prefixed binary_prefix 2 s
  else if starts_with octal_prefix s then parse_prefixed octal_prefix 8 s
  else Val (from_str_radix 10 s).

(** const_expr.rs:115-127 ([parse_integer]). *)
Definition parse_integer (s : str) : outcome (option cexpr) :=
  let s1 := strip_integer_suffix s in
  r <- parse_integer_helper (strip_negative_sign s1) ;;
  Val (match r with Some n => Some (CLit n (is_negative s1)) | None => None end).

(** const_expr.rs:60-78 ([ConstExpr::new]).  [None] in the error position: the
    only error is "Float are not supported.". *)
Definition normalise (text : string) : str := lowercase (unspaced (trim (chars text))).
Definition const_expr_new (text : string) : pres unit cexpr :=
  let s := normalise text in
  if float_rejected s then PErr tt
  else match parse_boolean s with
       | Some c => POk c
       | None =>
           match parse_integer s with
           | Panic => PPanic
           | Val (Some c) => POk c
           | Val None => POk CPath
           end
       end.
