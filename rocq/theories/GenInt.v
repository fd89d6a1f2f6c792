(** What the emitted field code computes for an integer-backed bitfield.

    GH = /repo/bitfields_impl/src/generating/bitfield/features/common/generator_helper.rs
    Parameters: [m] the overflow mode, [w] the bit width [T::BITS] of the
    backing type [T].  The stored value is a [Z] in [0, 2^w). *)
From Coq Require Import ZArith List Bool String.
From Verif Require Import RustInt Syntax.
Import ListNotations.
Open Scope Z_scope.

(** [<FieldTy>::from_bits(value as _)] : GH:324-328, field_getters_feature.rs:87-92. *)
Definition from_custom (f : field) (v : Z) : Z :=
  cd_from (f_codec f) (cast (cd_from_ty (f_codec f)) v).
(** [value.into_bits()] : the result is a value of its declared integer type. *)
Definition into_custom (f : field) (t : Z) : Z :=
  cast (cd_into_ty (f_codec f)) (cd_into (f_codec f) t).

(** [T::MAX >> (T::BITS - bits)] : GH:464, 713, 721. *)
Definition mask_int (m : mode) (w b : Z) : outcome Z :=
  n <- usub m 32 w b ;; shr m w (umax w) n.

(** Packing of an array argument: GH:429-443.
    [pack_len = min (bits / 8) len]. *)
Definition pack_len (b len : Z) : Z := Z.min (b / 8) len.
Definition pack_int (m : mode) (w n : Z) (l : list Z) : outcome Z :=
  while_lt n (fun i v =>
    b <- arr_get l i ;;
    k <- umul m 64 i 8 ;;
    x <- shl m w (ucast w b) k ;;
    Val (Z.lor v x)) 0.

(** [let bits = <bits argument> as T] : GH:418-449 (cast_bits = true). *)
Definition cast_arg_int (m : mode) (w : Z) (f : field) (a : fval) : outcome Z :=
  match f_ty f, a with
  | DCustom, VCustom t => Val (ucast w (into_custom f t))
  | DArray len, VArr l => pack_int m w (pack_len (f_bits f) len) l
  | DInteger TBool, VBool b => Val (if b then 1 else 0)
  | DInteger _, VInt z => Val (ucast w z)
  | _, _ => Panic (* ill typed argument: does not compile *)
  end.

(** Extraction of an argument: GH:451-467 with cast_bits = true, not inverted.
    Result: the shadowed [bits], [mask] and [value]. *)
Definition extract_cast_int (m : mode) (w : Z) (f : field) (a : fval)
  : outcome (Z * Z * Z) :=
  mask <- mask_int m w (f_bits f) ;;
  bits <- cast_arg_int m w f a ;;
  Val (bits, mask, Z.land bits mask).

(** Extraction from a whole-bitfield value [src]: GH:451-467 with
    cast_bits = false; [inv] = invert_bits (GH:411-415). *)
Definition extract_src_int (m : mode) (w : Z) (f : field) (inv : bool) (src : Z)
  : outcome Z :=
  mask <- mask_int m w (f_bits f) ;;
  x <- shr m w src (f_off f) ;;
  Val (Z.land (if inv then unot w x else x) mask).

(** Bitwise write of a field without a setter: GH:701-724. *)
Definition put_int (m : mode) (w : Z) (f : field) (p : pval) (s : Z) : outcome Z :=
  match f_ty f, p with
  | DInteger TBool, PBool true =>
      one <- shl m w 1 (f_off f) ;;
      Val (Z.lor (Z.land s (unot w one)) one)
  | DInteger TBool, PBool false =>
      one <- shl m w 1 (f_off f) ;;
      Val (Z.land s (unot w one))
  | DCustom, PCustom t =>
      mask <- mask_int m w (f_bits f) ;;
      let field_bits := ucast w (into_custom f t) in
      hole <- shl m w mask (f_off f) ;;
      new <- shl m w (Z.land field_bits mask) (f_off f) ;;
      Val (Z.lor (Z.land s (unot w hole)) new)
  | DInteger TBool, _ => Panic
  | DInteger _, PInt z | DArray _, PInt z =>
      mask <- mask_int m w (f_bits f) ;;
      hole <- shl m w mask (f_off f) ;;
      new <- shl m w (Z.land z mask) (f_off f) ;;
      Val (Z.lor (Z.land s (unot w hole)) new)
  | _, _ => Panic (* ill typed: does not compile *)
  end.

(** Unpacking of an integer into [[u8; len]]: GH:611-620 (setter call),
    field_getters_feature.rs:98-109 (getter), invert_bit_ops_feature.rs:197-209;
    the emitted text is the same in the three places. *)
Definition unpack_int (m : mode) (len v : Z) : outcome (list Z) :=
  while_lt len (fun i arr =>
    k <- umul m 64 i 8 ;;
    x <- shr m 128 v k ;;
    arr_set arr i (Z.land x 255)) (zeros len).
