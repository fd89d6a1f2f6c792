(** Histories of operations: the operations of a generated bitfield as data,
    their execution by the model ([step], [run]) and an independent
    specification on maps from fields to numbers ([spec_step], [spec_run]). *)
From Coq Require Import ZArith List Bool String.
From Verif Require Import RustInt Syntax Gen Spec CoreLemmas.
Import ListNotations.
Open Scope Z_scope.

(** Arguments of backing type are given by the number they stand for
    ([store_of bf x]; every value of the backing type has this form). *)
Inductive op :=
| OSet (f : field) (a : fval) | OCheckedSet (f : field) (a : fval)
| OGet (f : field) | OInvert (f : field) | OInverted (f : field)
| OClear (f : field) | OClearDefault (f : field)
| OClearAll (defaults : bool) | OInvertAll
| OSetBit (i : Z) (b : bool) | OCheckedSetBit (i : Z) (b : bool)
| OGetBit (i : Z) | OCheckedGetBit (i : Z)
| OSetRange (off len x : Z) | OCheckedSetRange (off len x : Z)
| OGetRange (off len : Z) | OCheckedGetRange (off len : Z)
| OWrite (v : variant) (defaults : bool) (b : Z) | OWriteDefaults
| OInto (v : variant) | OTraitInto
(* the variable is assigned a newly constructed value *)
| ONew (defaults : bool) | ODefault
| OFrom (v : variant) (defaults : bool) (b : Z) | OTraitFrom (b : Z).

(** What an operation returns. *)
Inductive obs :=
| BNone | BRes (r : res unit) | BVal (a : fval) | BBool (b : bool) | BResBool (r : res bool)
| BNum (z : Z) | BResNum (r : res Z).

Definition ret (x : outcome store) : outcome (store * obs) := s <- x ;; Val (s, BNone).
Definition retr (x : outcome (store * res unit)) : outcome (store * obs) :=
  r <- x ;; Val (fst r, BRes (snd r)).
Definition res_map {A B} (g : A -> B) (r : res A) : res B :=
  match r with Ok a => Ok (g a) | Err e => Err e end.

Definition step (m : mode) (bf : bitfield) (o : op) (s : store) : outcome (store * obs) :=
  match o with
  | OSet f a => ret (set_field m bf f a s)
  | OCheckedSet f a => retr (checked_set_field m bf f a s)
  | OGet f => a <- get_field m bf f s ;; Val (s, BVal a)
  | OInvert f => ret (invert_field m bf f s)
  | OInverted f => a <- inverted_field m bf f s ;; Val (s, BVal a)
  | OClear f => ret (clear_field m bf f s)
  | OClearDefault f => ret (clear_field_to_default m bf f s)
  | OClearAll d => ret (clear_all m bf d s)
  | OInvertAll => ret (invert_all m bf s)
  | OSetBit i b => ret (set_bit m bf i b s)
  | OCheckedSetBit i b => retr (checked_set_bit m bf i b s)
  | OGetBit i => b <- get_bit m bf i s ;; Val (s, BBool b)
  | OCheckedGetBit i => r <- checked_get_bit m bf i s ;; Val (s, BResBool r)
  | OSetRange off len x => ret (set_range m bf off len (store_of bf x) s)
  | OCheckedSetRange off len x => retr (checked_set_range m bf off len (store_of bf x) s)
  | OGetRange off len => r <- get_range m bf off len s ;; Val (s, BNum (sval r))
  | OCheckedGetRange off len =>
      r <- checked_get_range m bf off len s ;; Val (s, BResNum (res_map sval r))
  | OWrite v d b => ret (write_data m bf v d (store_of bf b) s)
  | OWriteDefaults => ret (write_defaults m bf s)
  | OInto v => r <- into_data m bf v s ;; Val (s, BNum (sval r))
  | OTraitInto => r <- trait_into m bf s ;; Val (s, BNum (sval r))
  | ONew d => ret (if d then new_bf m bf else new_without_defaults m bf)
  | ODefault => ret (default_bf m bf)
  | OFrom v d b => ret (from_data m bf v d (store_of bf b))
  | OTraitFrom b => ret (trait_from m bf (store_of bf b))
  end.

Fixpoint run (m : mode) (bf : bitfield) (os : list op) (s : store) : outcome (store * list obs) :=
  match os with
  | [] => Val (s, [])
  | o :: t =>
      r <- step m bf o s ;;
      q <- run m bf t (fst r) ;;
      Val (fst q, snd r :: snd q)
  end.

(** ** Well-formed calls *)

(** Range arguments outside the bitfield are allowed; excluded are only empty
    ranges of integer backed bitfields and overflowing [off + len] (C19). *)
Definition range_args (bf : bitfield) (off len : Z) : Prop :=
  0 <= off /\
  (ty_size (b_ty bf) <= off \/
   ((1 <= len \/ (len = 0 /\ is_integer_backed bf = false)) /\ off + len < 2 ^ 32)).
Definition num_arg (bf : bitfield) (x : Z) : Prop := 0 <= x < 2 ^ ty_size (b_ty bf).

Definition op_ok (bf : bitfield) (o : op) : Prop :=
  match o with
  | OSet f a | OCheckedSet f a => In f (b_fields bf) /\ has_type f a
  | OGet f | OInvert f | OInverted f | OClear f => In f (b_fields bf)
  | OClearDefault f => In f (b_fields bf) /\ f_default f <> None
  | OSetBit i _ | OCheckedSetBit i _ | OGetBit i | OCheckedGetBit i => 0 <= i
  | OSetRange off len x | OCheckedSetRange off len x => range_args bf off len /\ num_arg bf x
  | OGetRange off len | OCheckedGetRange off len => range_args bf off len
  | OWrite _ _ b | OFrom _ _ b | OTraitFrom b => num_arg bf b
  | _ => True
  end.

(** ** Specification on maps *)

Definition amap := field -> Z.

(** Fields of a bitfield are identified by their offset. *)
Definition same_field (f g : field) : bool := f_off f =? f_off g.
Definition aset (r : amap) (f : field) (x : Z) : amap :=
  fun g => if same_field g f then x else r g.

Definition writableb (f : field) : bool :=
  negb (f_reserved f) && match f_access f with WriteOnly | ReadWrite => true | _ => false end.
Definition readableb (f : field) : bool :=
  match f_access f with ReadOnly | ReadWrite => true | _ => false end.
Definition bit_allowed (bf : bitfield) (p : field -> bool) (i : Z) : bool :=
  existsb (fun f => p f && (f_off f <=? i) && (i <? f_off f + f_bits f)) (b_fields bf).
Definition range_allowed (bf : bitfield) (p : field -> bool) (off len : Z) : bool :=
  forallb (fun k => bit_allowed bf p (off + Z.of_nat k)) (seq 0 (Z.to_nat len)).

(** The number made of all fields. *)
Definition whole (bf : bitfield) (r : amap) : Z :=
  fold_right (fun f acc => r f * 2 ^ f_off f + acc) 0 (b_fields bf).
(** All writable fields take their bits from [V]. *)
Definition take_writable (r : amap) (V : Z) : amap :=
  fun f => if writableb f then slice V (f_off f) (f_bits f) else r f.
Definition take_all (V : Z) : amap := fun f => slice V (f_off f) (f_bits f).
Definition with_default (r : amap) : amap :=
  fun f => match f_default f with Some _ => default_bits f | None => r f end.
Definition fresh (defaults : bool) : amap :=
  fun f => if defaults || f_reserved f then default_bits f else 0.

Definition num_reversed (bf : bitfield) (x : Z) : Z :=
  le_val (rev (le_bytes (Z.to_nat (ty_size (b_ty bf) / 8)) x)).
(** Byte order: the stored number is the big-endian reading of integers and
    the little-endian reading of byte arrays; writing has the same order for
    both. *)
Definition from_into_view (bf : bitfield) (e : endian) (x : Z) : Z :=
  match e, is_integer_backed bf with
  | Little, true | Big, false => num_reversed bf x
  | _, _ => x
  end.
Definition writing_view (bf : bitfield) (e : endian) (x : Z) : Z :=
  match e with Little => num_reversed bf x | Big => x end.
Definition endian_of (cfg : endian) (v : variant) : endian :=
  match v with Configured => cfg | AsLe => Little | AsBe => Big end.

Definition fitsb (f : field) (a : fval) : bool :=
  match f_ty f with
  | DInteger TBool => true
  | DInteger t =>
      if ity_unsigned t then (0 <=? encode f a) && (encode f a <? 2 ^ f_bits f)
      else (- 2 ^ (f_bits f - 1) <=? encode f a) && (encode f a <? 2 ^ (f_bits f - 1))
  | _ => (0 <=? encode f a) && (encode f a <? 2 ^ f_bits f)
  end.

Section Strings.
Open Scope string_scope.
Definition too_big := "Value is too big to fit within the field bits.".
Definition bad_offset := "The offset is outside the bitfield range.".
Definition bad_length := "The length is outside the bitfield range.".
Definition not_writable := "Attempted to write to non-writable bit(s).".
Definition not_readable := "Attempted to read from non-readable bit(s).".
End Strings.

(** The value [x_inverted()] returns for raw bits [r] (not sign extended, see C42). *)
Definition inverted_value (f : field) (r : Z) : fval :=
  match f_ty f with
  | DInteger TBool => VBool (r =? 0)
  | DInteger t => VInt (cast t (2 ^ f_bits f - 1 - r))
  | DArray len => VArr (le_bytes (Z.to_nat len) (2 ^ f_bits f - 1 - r))
  | DCustom => VCustom (user_from f (2 ^ f_bits f - 1 - r))
  end.

Definition spec_step (bf : bitfield) (o : op) (r : amap) : amap * obs :=
  let S := ty_size (b_ty bf) in
  match o with
  | OSet f a => (aset r f (encode f a mod 2 ^ f_bits f), BNone)
  | OCheckedSet f a =>
      if fitsb f a then (aset r f (encode f a mod 2 ^ f_bits f), BRes (Ok tt))
      else (r, BRes (Err too_big))
  | OGet f => (r, BVal (decode f (r f)))
  | OInvert f => (aset r f (2 ^ f_bits f - 1 - r f), BNone)
  | OInverted f => (r, BVal (inverted_value f (r f)))
  | OClear f => (aset r f 0, BNone)
  | OClearDefault f => (aset r f (default_bits f), BNone)
  | OClearAll d => (fresh d, BNone)
  | OInvertAll => (fun f => if writableb f then 2 ^ f_bits f - 1 - r f else r f, BNone)
  | OSetBit i b => 
      (if i <? S then take_writable r (splice (whole bf r) i 1 (if b then 1 else 0)) else r, BNone)
  | OCheckedSetBit i b =>
      if S <=? i then (r, BRes (Err bad_offset))
      else if bit_allowed bf writableb i
      then (take_writable r (splice (whole bf r) i 1 (if b then 1 else 0)), BRes (Ok tt))
      else (r, BRes (Err not_writable))
  | OGetBit i =>
      (r, BBool ((i <? S) && bit_allowed bf readableb i && Z.testbit (whole bf r) i))
  | OCheckedGetBit i =>
      (r, BResBool (if S <=? i then Err bad_offset
                    else if bit_allowed bf readableb i then Ok (Z.testbit (whole bf r) i)
                    else Err not_readable))
  | OSetRange off len x =>
      (if (S <=? off) || (S <? off + len) then r
       else take_writable r (splice (whole bf r) off len x), BNone)
  | OCheckedSetRange off len x =>
      if S <=? off then (r, BRes (Err bad_offset))
      else if S <? off + len then (r, BRes (Err bad_length))
      else if range_allowed bf writableb off len
      then (take_writable r (splice (whole bf r) off len x), BRes (Ok tt))
      else (r, BRes (Err not_writable))
  | OGetRange off len =>
      (r, BNum (if (S <=? off) || (S <? off + len) then 0
                else slice (whole bf (fun f => if readableb f then r f else 0)) off len))
  | OCheckedGetRange off len =>
      (r, BResNum (if S <=? off then Err bad_offset
                   else if S <? off + len then Err bad_length
                   else if range_allowed bf readableb off len then Ok (slice (whole bf r) off len)
                   else Err not_readable))
  | OWrite v d b =>
      let V := writing_view bf (endian_of (a_write_endian (b_args bf)) v) b in
      (if d then with_default (take_writable r V) else take_writable r V, BNone)
  | OWriteDefaults => (with_default r, BNone)
  | OInto v => (r, BNum (from_into_view bf (endian_of (a_into_endian (b_args bf)) v) (whole bf r)))
  | OTraitInto => (r, BNum (from_into_view bf (a_into_endian (b_args bf)) (whole bf r)))
  | ONew d => (fresh d, BNone)
  | ODefault => (fresh true, BNone)
  | OFrom v d b =>
      let r' := take_all (from_into_view bf (endian_of (a_from_endian (b_args bf)) v) b) in
      (if d then with_default r' else r', BNone)
  | OTraitFrom b => (take_all (from_into_view bf (a_from_endian (b_args bf)) b), BNone)
  end.

Fixpoint spec_run (bf : bitfield) (os : list op) (r : amap) : amap * list obs :=
  match os with
  | [] => (r, [])
  | o :: t =>
      let '(r1, b) := spec_step bf o r in
      let '(r2, bs) := spec_run bf t r1 in
      (r2, b :: bs)
  end.
