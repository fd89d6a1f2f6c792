(** What the emitted field code computes for an array-backed bitfield.

    GH = /repo/bitfields_impl/src/generating/bitfield/features/common/generator_helper.rs
    The stored value is a list of bytes ([[u8; N]], or [Box<[u8; N]>] with
    [array_heap], which is indexed in the same way). *)
From Coq Require Import ZArith List Bool String.
From Verif Require Import RustInt Syntax GenInt.
Import ListNotations.
Open Scope Z_scope.

(** [if bits == 128 { u128::MAX } else { (1u128 << bits) - 1 }] : GH:485, 494, 543. *)
Definition mask_arr (m : mode) (b : Z) : outcome Z :=
  if b =? 128 then Val (umax 128)
  else (x <- shl m 128 1 b ;; usub m 128 x 1).

(** Extraction of an argument: GH:468-499 (cast_bits = true, not inverted).
    Result: shadowed [bits], [mask] (0 where the text defines none) and
    [value]. *)
Definition extract_cast_arr (m : mode) (f : field) (a : fval)
  : outcome (Z * Z * pval) :=
  match f_ty f, a with
  | DInteger TBool, VBool b => Val (0, 0, PInt (if b then 1 else 0))
  | DArray _, VArr l => Val (0, 0, PArr l)
  | DCustom, VCustom t =>
      let bits := ucast 128 (into_custom f t) in
      mask <- mask_arr m (f_bits f) ;;
      Val (bits, mask, PInt (Z.land bits mask))
  | DInteger TBool, _ => Panic
  | DInteger t, VInt z =>
      mk <- mask_arr m (f_bits f) ;;
      let mask := cast t mk in
      Val (z, mask, PInt (Z.land z mask))
  | _, _ => Panic (* ill typed argument: does not compile *)
  end.

(** [(src[bit_index / 8] >> (bit_index % 8)) & 1] with
    [bit_index = offset + i] : GH:512-515, 528-531, 553-556. *)
Definition src_bit (m : mode) (off i : Z) (src : list Z) : outcome Z :=
  bit_index <- uadd m 32 off i ;;
  b <- arr_get src (bit_index / 8) ;;
  x <- shr m 8 b (bit_index mod 8) ;;
  Val (Z.land x 1).

(** Extraction of an array field from a whole-bitfield value: GH:501-539. *)
Definition extract_src_arr_bytes (m : mode) (f : field) (len : Z) (inv : bool) (src : list Z)
  : outcome (list Z) :=
  while_lt (f_bits f) (fun i arr =>
    bit <- src_bit m (f_off f) i src ;;
    let bit_val := if inv then Z.lxor bit 1 else bit in
    x <- shl m 8 bit_val (i mod 8) ;;
    old <- arr_get arr (i / 8) ;;
    arr_set arr (i / 8) (Z.lor old x)) (zeros len).

(** Extraction of any other field: GH:541-562. *)
Definition extract_src_arr_num (m : mode) (f : field) (inv : bool) (src : list Z)
  : outcome Z :=
  val <- while_lt (f_bits f) (fun i val =>
    bit_val <- src_bit m (f_off f) i src ;;
    x <- shl m 128 bit_val i ;;
    Val (Z.lor val x)) 0 ;;
  if inv then (mask <- mask_arr m (f_bits f) ;; Val (Z.land (unot 128 val) mask))
  else Val val.

Definition extract_src_arr (m : mode) (f : field) (inv : bool) (src : list Z)
  : outcome pval :=
  match f_ty f with
  | DArray len => l <- extract_src_arr_bytes m f len inv src ;; Val (PArr l)
  | _ => z <- extract_src_arr_num m f inv src ;; Val (PInt z)
  end.

(** [s[byte_idx] |= 1 << bit_in_byte] / [&= !(1 << bit_in_byte)] : GH:658-662,
    690-694, set_get_bit_ops_feature.rs:169-173, 186-190, 210-214, 247-251. *)
Definition write_bit (m : mode) (byte_idx bit_in_byte : Z) (b : bool) (s : list Z)
  : outcome (list Z) :=
  one <- shl m 8 1 bit_in_byte ;;
  old <- arr_get s byte_idx ;;
  arr_set s byte_idx (if b then Z.lor old one else Z.land old (unot 8 one)).

(** Bitwise write of a field without a setter: GH:644-698. *)
Definition put_arr (m : mode) (f : field) (p : pval) (s : list Z) : outcome (list Z) :=
  let put_num (val_to_set : Z) :=
    while_lt (f_bits f) (fun i s =>
      bit_index <- uadd m 32 (f_off f) i ;;
      x <- shr m 128 val_to_set i ;;
      write_bit m (bit_index / 8) (bit_index mod 8) (Z.land x 1 =? 1) s) s in
  match f_ty f, p with
  | DArray _, PArr src =>
      while_lt (f_bits f) (fun i s =>
        bit_index <- uadd m 32 (f_off f) i ;;
        b <- arr_get src (i / 8) ;;
        x <- shr m 8 b (i mod 8) ;;
        write_bit m (bit_index / 8) (bit_index mod 8) (Z.land x 1 =? 1) s) s
  | DInteger TBool, PBool b => put_num (if b then 1 else 0)
  | DInteger TBool, _ => Panic
  | DCustom, PCustom t => put_num (ucast 128 (into_custom f t))
  | DInteger _, PInt z => put_num (ucast 128 z)
  | _, _ => Panic (* ill typed: does not compile *)
  end.
