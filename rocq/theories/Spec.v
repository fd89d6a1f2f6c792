(** Independent specification: plain integer arithmetic on bit positions.

    Nothing here is a model of source code.  The state of a bitfield of size
    [S] is the number [sval s] in [0, 2^S); a field is the interval
    [off, off + n) of its bit positions. *)
From Coq Require Import ZArith List Bool String.
From Verif Require Import RustInt Syntax.
Import ListNotations.
Open Scope Z_scope.

(** The [n] bits of [v] starting at position [off], as a number. *)
Definition slice (v off n : Z) : Z := (v / 2 ^ off) mod 2 ^ n.
(** [v] with these bits replaced by the low [n] bits of [x]. *)
Definition splice (v off n x : Z) : Z :=
  v - slice v off n * 2 ^ off + (x mod 2 ^ n) * 2 ^ off.

(** ** Storage *)

(** The number a storage stands for: bytes are least significant first. *)
Definition sval (s : store) : Z :=
  match s with StI z => z | StA l => le_val l end.

Definition is_byte (b : Z) : Prop := 0 <= b < 256.

(** Number of bits of a backing type. *)
Definition ty_size (d : dtype) : Z :=
  match d with DInteger t => ity_bits t | DArray n => 8 * n | DCustom => 0 end.

(** The storage is a value of the backing type. *)
Definition store_ok (bf : bitfield) (s : store) : Prop :=
  match b_ty bf, s with
  | DInteger t, StI z => 0 <= z < 2 ^ ity_bits t
  | DArray n, StA l => Z.of_nat (List.length l) = n /\ Forall is_byte l
  | _, _ => False
  end.

(** ** Field values *)

(** Two's complement reading of an [n]-bit number. *)
Definition signed_of (n r : Z) : Z := if r <? 2 ^ (n - 1) then r else r - 2 ^ n.

(** The user's conversions of a custom field type, called through [as] casts. *)
Definition user_from (f : field) (r : Z) : Z :=
  cd_from (f_codec f) (cast (cd_from_ty (f_codec f)) r).
Definition user_into (f : field) (t : Z) : Z :=
  cast (cd_into_ty (f_codec f)) (cd_into (f_codec f) t).

(** The value of a field whose bits are the number [r]. *)
Definition decode (f : field) (r : Z) : fval :=
  match f_ty f with
  | DInteger TBool => VBool (negb (r =? 0))
  | DInteger t => VInt (if ity_unsigned t then r else signed_of (f_bits f) r)
  | DArray len => VArr (le_bytes (Z.to_nat len) r)
  | DCustom => VCustom (user_from f r)
  end.

(** The number (before reduction to [n] bits) a value stands for. *)
Definition encode (f : field) (a : fval) : Z :=
  match a with
  | VInt z => z
  | VBool b => if b then 1 else 0
  | VArr l => le_val l
  | VCustom t => user_into f t
  end.

(** Typing of the arguments of accessors (what rustc checks). *)
Definition has_type (f : field) (a : fval) : Prop :=
  match f_ty f, a with
  | DInteger TBool, VBool _ => True
  | DInteger TBool, _ => False
  | DInteger t, VInt z => in_ity t z
  | DArray len, VArr l => Z.of_nat (List.length l) = len /\ Forall is_byte l
  | DCustom, VCustom _ => True
  | _, _ => False
  end.

(** The value is representable in the [n] bits of the field. *)
Definition fits (f : field) (a : fval) : Prop :=
  match f_ty f with
  | DInteger TBool => True
  | DInteger t =>
      if ity_unsigned t then 0 <= encode f a < 2 ^ f_bits f
      else - 2 ^ (f_bits f - 1) <= encode f a < 2 ^ (f_bits f - 1)
  | _ => 0 <= encode f a < 2 ^ f_bits f
  end.

(** A custom type that decodes and re-encodes every [n]-bit pattern. *)
Definition lossless (f : field) : Prop :=
  match f_ty f with
  | DCustom => forall r, 0 <= r < 2 ^ f_bits f -> user_into f (user_from f r) mod 2 ^ f_bits f = r
  | _ => True
  end.

(** ** Well-formed descriptors *)

(** Width of a field against its type.  The integer and bool cases are enforced
    by the macro; the array and custom cases are not (see the _refuted
    theorems), so they are side conditions of the theorems. *)
Definition width_ok (bf : bitfield) (f : field) : Prop :=
  match f_ty f with
  | DInteger TBool => f_bits f = 1
  | DInteger t => f_bits f <= ity_bits t
  | DArray len =>
      f_bits f <= 8 * len /\
      (is_integer_backed bf = true -> f_bits f mod 8 = 0 /\ len <= 16)
  | DCustom => is_integer_backed bf = false -> f_bits f <= 128
  end.

(** A value given as default (or as internal operand) has the right kind. *)
Definition pval_ok (bf : bitfield) (f : field) (p : pval) : Prop :=
  match f_ty f, p with
  | DInteger TBool, PBool _ => True
  | DInteger TBool, _ => False
  | DInteger _, PInt _ => True
  | DCustom, PCustom _ => True
  | DArray len, PInt _ => is_integer_backed bf = true
  | DArray len, PArr l =>
      is_integer_backed bf = false /\ Z.of_nat (List.length l) = len /\ Forall is_byte l
  | _, _ => False
  end.

Definition default_ok (bf : bitfield) (f : field) : Prop :=
  match f_default f with None => True | Some p => pval_ok bf f p end.

Definition field_ok (bf : bitfield) (f : field) : Prop :=
  1 <= f_bits f /\ 0 <= f_off f /\ f_off f + f_bits f <= ty_size (b_ty bf) /\
  width_ok bf f /\ default_ok bf f.

Definition backing_ok (d : dtype) : Prop :=
  match d with
  | DInteger t => ity_unsigned t = true /\ t <> TBool
  | DArray n => 0 < n /\ 8 * n < 2 ^ 32
  | DCustom => False
  end.

Definition covers (f : field) (i : Z) : Prop := f_off f <= i < f_off f + f_bits f.

(** Every bit position belongs to exactly one field. *)
Definition partition (S : Z) (fs : list field) : Prop :=
  forall i, 0 <= i < S ->
    exists! k : nat, exists f, nth_error fs k = Some f /\ covers f i.

Definition bf_ok (bf : bitfield) : Prop :=
  backing_ok (b_ty bf) /\
  Forall (field_ok bf) (b_fields bf) /\
  partition (ty_size (b_ty bf)) (b_fields bf).

(** The bits of a field in a state. *)
Definition raw (s : store) (f : field) : Z := slice (sval s) (f_off f) (f_bits f).

(** Bit [i] of a state. *)
Definition sbit (s : store) (i : Z) : bool := Z.testbit (sval s) i.

(** ** Reading back *)

(** The value a field of [n] bits is expected to return after [a] was stored:
    the representative of [a] modulo [2^n] in the range of the field. *)
Definition reduced (f : field) (a : fval) : fval :=
  match f_ty f, a with
  | DInteger TBool, _ => a
  | DInteger t, VInt z =>
      VInt (if ity_unsigned t then z mod 2 ^ f_bits f
            else signed_of (f_bits f) (z mod 2 ^ f_bits f))
  | DArray len, VArr l => VArr (le_bytes (Z.to_nat len) (le_val l mod 2 ^ f_bits f))
  | DCustom, VCustom t => VCustom (user_from f (user_into f t mod 2 ^ f_bits f))
  | _, _ => a
  end.

(** The type of the field (for a custom type: of its [into_bits]) is no wider
    than the number the check is made on; array fields use all their bits. *)
Definition checkable (bf : bitfield) (f : field) : Prop :=
  match f_ty f with
  | DInteger TBool => True
  | DInteger t =>
      match b_ty bf with
      | DInteger tb => (ity_unsigned t = true -> ity_bits t <= ity_bits tb)
      | _ => True
      end
  | DArray len => f_bits f = 8 * len
  | DCustom =>
      ity_unsigned (cd_into_ty (f_codec f)) = true /\
      match b_ty bf with
      | DInteger tb => ity_bits (cd_into_ty (f_codec f)) <= ity_bits tb
      | _ => True
      end
  end.

(** A storage value with its bytes in the opposite order. *)
Definition byte_reversed (bf : bitfield) (s : store) : store :=
  match s with
  | StA l => StA (rev l)
  | StI z => StI (le_val (rev (le_bytes (Z.to_nat (ty_size (b_ty bf) / 8)) z)))
  end.

(** All custom field types are lossless. *)
Definition all_lossless (bf : bitfield) : Prop := forall f, In f (b_fields bf) -> lossless f.

(** ** Defaults *)

(** Re-encoding the value decoded from the encoding of [t] gives the same
    bits. *)
Definition canonical (f : field) (t : Z) : Prop :=
  user_into f (user_from f (user_into f t mod 2 ^ f_bits f)) mod 2 ^ f_bits f =
  user_into f t mod 2 ^ f_bits f.
(** The bits of the default value of a field (0 without a default). *)
Definition default_bits (f : field) : Z :=
  match f_default f with
  | Some (PInt z) => z mod 2 ^ f_bits f
  | Some (PBool b) => if b then 1 else 0
  | Some (PArr l) => le_val l mod 2 ^ f_bits f
  | Some (PCustom t) => user_into f t mod 2 ^ f_bits f
  | None => 0
  end.
(** The custom type of the field (if any) encodes the default, and 0,
    canonically. *)
Definition default_canonical (f : field) : Prop :=
  match f_default f with Some (PCustom t) => canonical f t | _ => True end.
Definition zero_canonical (f : field) : Prop :=
  match f_ty f with DCustom => user_into f (user_from f 0) mod 2 ^ f_bits f = 0 | _ => True end.

(** ** Access *)

(** Fields users may write / bits users may read through bit operations. *)
Definition writable (f : field) : Prop :=
  f_reserved f = false /\ (f_access f = WriteOnly \/ f_access f = ReadWrite).
Definition readable (f : field) : Prop := f_access f = ReadOnly \/ f_access f = ReadWrite.
Definition bit_writable (bf : bitfield) (i : Z) : Prop :=
  exists f, In f (b_fields bf) /\ covers f i /\ writable f.
Definition bit_readable (bf : bitfield) (i : Z) : Prop :=
  exists f, In f (b_fields bf) /\ covers f i /\ readable f.
