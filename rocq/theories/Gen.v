(** The methods of the generated struct, for both kinds of backing storage.

    Paths are relative to
    /repo/bitfields_impl/src/generating/bitfield/features; GH is
    common/generator_helper.rs.  Every function takes the overflow mode [m] and
    the descriptor [bf]; methods with [&mut self] return the new storage.  An
    ill-typed combination (which rustc would not compile) yields [Panic]. *)
From Coq Require Import ZArith List Bool String.
From Verif Require Import RustInt Syntax GenInt GenArr.
Import ListNotations.
Open Scope Z_scope.

Section Strings.
Open Scope string_scope.
(** GH:342, 366 *)
Definition msg_too_big := "Value is too big to fit within the field bits.".
(** set_get_bit_ops_feature.rs:548, 553, 558 (and 152, 237), 563 (and 348, 416) *)
Definition msg_offset := "The offset is outside the bitfield range.".
Definition msg_length := "The length is outside the bitfield range.".
Definition msg_write := "Attempted to write to non-writable bit(s).".
Definition msg_read := "Attempted to read from non-readable bit(s).".
(** from_into_bits_feature.rs:336, 652 *)
Definition msg_fill := "Slice is too small to fill the bitfield.".
Definition msg_hold := "Slice is too small to hold the bitfield.".
End Strings.

(** Width of the backing type ([T::BITS], or [array_len * 8]):
    set_get_bit_ops_feature.rs:443-451. *)
Definition bf_size (bf : bitfield) : Z :=
  match b_ty bf with
  | DInteger t => ity_bits t
  | DArray n => n * 8
  | DCustom => 0
  end.

(** [0] / [[0u8; N]] : GH:44-88 (ignored fields are initialised with
    [Default::default()] and never touched again; not modelled). *)
Definition init_store (bf : bitfield) : store :=
  match b_ty bf with
  | DInteger _ => StI 0
  | DArray n => StA (zeros n)
  | DCustom => StI 0
  end.

(** ** Extraction *)

(** GH:387-566 with cast_bits = false, from [self]'s value or from the local
    variable [bits]. *)
Definition extract_src (m : mode) (bf : bitfield) (f : field) (inv : bool) (src : store)
  : outcome pval :=
  match b_ty bf, src with
  | DInteger t, StI z => v <- extract_src_int m (ity_bits t) f inv z ;; Val (PInt v)
  | DArray _, StA l => extract_src_arr m f inv l
  | _, _ => Panic
  end.

(** GH:387-566 with cast_bits = true (the argument of a setter). *)
Definition extract_cast (m : mode) (bf : bitfield) (f : field) (a : fval)
  : outcome (Z * Z * pval) :=
  match b_ty bf with
  | DInteger t =>
      r <- extract_cast_int m (ity_bits t) f a ;;
      let '(bits, mask, v) := r in Val (bits, mask, PInt v)
  | DArray _ => extract_cast_arr m f a
  | DCustom => Panic
  end.

(** GH:321-336 ([get_value_variable_tokens]). *)
Definition value_variable (f : field) (p : pval) : pval :=
  match f_ty f, p with
  | DCustom, PInt v => PCustom (from_custom f v)
  | DInteger TBool, PInt v => PBool (negb (v =? 0))
  | _, _ => p
  end.

(** ** Assignment *)

(** GH:632-725 ([generate_setting_field_without_setter_tokens]). *)
Definition put (m : mode) (bf : bitfield) (f : field) (p : pval) (s : store) : outcome store :=
  match b_ty bf, s with
  | DInteger t, StI z => z' <- put_int m (ity_bits t) f p z ;; Val (StI z')
  | DArray _, StA l => l' <- put_arr m f p l ;; Val (StA l')
  | _, _ => Panic
  end.

(** GH:350-369 ([generate_signed_bit_size_check_tokens]): the condition of the
    emitted [if]; literals go through [make_signed_literal] (GH:373-384). *)
Definition signed_too_big (f : field) (a : fval) : bool :=
  match f_ty f, a with
  | DInteger t, VInt z =>
      if ity_bits t <=? f_bits f then false
      else (cast t (2 ^ (f_bits f - 1) - 1) <? z) || (z <? - cast t (2 ^ (f_bits f - 1)))
  | _, _ => false
  end.

(** GH:250-255: whether the unsigned check is emitted. *)
Definition has_post_check (f : field) : bool :=
  match f_ty f with
  | DInteger TBool => false
  | DInteger t => ity_unsigned t
  | DArray _ => false
  | DCustom => true
  end.

(** GH:225-285 with use_setter = false, cast_bits = true,
    check_bit_size = [chk].  This is the body of [set_x] / [checked_set_x]
    (field_setters_feature.rs:63-85) and of the builder's [with_x] /
    [checked_with_x] for a field without setter. *)
Definition assign_arg (m : mode) (bf : bitfield) (chk : bool) (f : field) (a : fval) (s : store)
  : outcome (store * res unit) :=
  if chk && negb (dt_unsigned (f_ty f)) && signed_too_big f a then Val (s, Err msg_too_big)
  else
    r <- extract_cast m bf f a ;;
    let '(bits, mask, v) := r in
    if chk && has_post_check f && (mask <? bits) then Val (s, Err msg_too_big)
    else (s' <- put m bf f (value_variable f v) s ;; Val (s', Ok tt)).

(** [set_x(bits)] : field_setters_feature.rs:74-77. *)
Definition set_field (m : mode) (bf : bitfield) (f : field) (a : fval) (s : store)
  : outcome store :=
  r <- assign_arg m bf false f a s ;; Val (fst r).
(** [checked_set_x(bits)] : field_setters_feature.rs:80-84. *)
Definition checked_set_field (m : mode) (bf : bitfield) (f : field) (a : fval) (s : store)
  : outcome (store * res unit) :=
  assign_arg m bf true f a s.

(** The argument expression of an internal setter call: GH:588-628. *)
Definition setter_call_arg (m : mode) (bf : bitfield) (f : field) (p : pval) : outcome fval :=
  match f_ty f, p with
  | DInteger TBool, PBool b => Val (VBool b)
  | DInteger TBool, _ => Panic
  | DInteger t, PInt z => Val (VInt (cast t z))
  | DCustom, PCustom t => Val (VCustom t)
  | DArray len, PInt z =>
      if is_integer_backed bf then (l <- unpack_int m len (ucast 128 z) ;; Val (VArr l))
      else Panic
  | DArray _, PArr l => if is_integer_backed bf then Panic else Val (VArr l)
  | _, _ => Panic
  end.

(** Assignment through the setter when there is one, directly otherwise:
    GH:146-160, 207-221, 241 and 268-277. *)
Definition assign (m : mode) (bf : bitfield) (f : field) (p : pval) (s : store) : outcome store :=
  if has_setter f then (a <- setter_call_arg m bf f p ;; set_field m bf f a s)
  else put m bf f p s.

(** GH:138-161 ([generate_setting_field_to_default_tokens]). *)
Definition set_default (m : mode) (bf : bitfield) (f : field) (s : store) : outcome store :=
  match f_default f with
  | Some p => assign m bf f p s
  | None => Panic
  end.

(** GH:183-205: the zero of a field. *)
Definition zero_value (bf : bitfield) (f : field) : pval :=
  match f_ty f with
  | DInteger TBool => PBool false
  | DInteger _ => PInt 0
  | DCustom => PCustom (from_custom f 0)
  | DArray len => if is_integer_backed bf then PInt 0 else PArr (zeros len)
  end.
(** GH:182-222 ([generate_setting_field_to_zero_tokens]). *)
Definition set_zero (m : mode) (bf : bitfield) (f : field) (s : store) : outcome store :=
  assign m bf f (zero_value bf f) s.

(** GH:126-135: all defaults, in declaration order. *)
Definition set_defaults (m : mode) (bf : bitfield) (s : store) : outcome store :=
  run_all (set_default m bf) (filter has_default (b_fields bf)) s.

(** GH:737-756 with GH:225-285 (use_setter = true, cast_bits = false): copy the
    bits of every selected field from [bits]. *)
Definition copy_fields (m : mode) (bf : bitfield) (sel : field -> bool) (bits s : store)
  : outcome store :=
  run_all (fun f s =>
      p <- extract_src m bf f false bits ;;
      assign m bf f (value_variable f p) s)
    (filter sel (b_fields bf)) s.

(** ** Constructors *)

(** GH:872-915 ([generate_new_function_implementation_tokens]) on the existing
    value [s]. *)
Definition new_impl (m : mode) (bf : bitfield) (defaults : bool) (s : store) : outcome store :=
  s1 <- run_all (set_zero m bf)
          (filter (fun f => negb (defaults && has_default f)) (b_fields bf)) s ;;
  s2 <- (if defaults then set_defaults m bf s1 else Val s1) ;;
  if defaults then Val s2
  else run_all (set_default m bf)
         (filter (fun f => f_reserved f && has_default f) (b_fields bf)) s2.

(** [new()] and [new_without_defaults()] : new_functions_feature.rs:53-87. *)
Definition new_bf (m : mode) (bf : bitfield) : outcome store :=
  new_impl m bf true (init_store bf).
Definition new_without_defaults (m : mode) (bf : bitfield) : outcome store :=
  new_impl m bf false (init_store bf).

(** [Default::default()] : default_trait_feature.rs:47-66. *)
Definition default_bf (m : mode) (bf : bitfield) : outcome store :=
  if a_new (b_args bf) then new_bf m bf
  else set_defaults m bf (init_store bf).

(** ** Getters *)

(** GH:930-946 ([generate_sign_extend_bit_operation_tokens]). *)
Definition sign_extend (m : mode) (f : field) (p : pval) : outcome pval :=
  match f_ty f, p with
  | DInteger t, PInt z =>
      if ity_unsigned t then Val p
      else
        shift <- usub m 32 (ity_bits t) (f_bits f) ;;
        x <- sshl m (ity_bits t) (cast t z) shift ;;
        y <- sshr m (ity_bits t) x shift ;;
        Val (PInt y)
  | _, _ => Val p
  end.

(** field_getters_feature.rs:74-115 ([generate_value_return_tokens]). *)
Definition value_return (m : mode) (f : field) (p : pval) : outcome fval :=
  match f_ty f, p with
  | DInteger TBool, PInt v => Val (VBool (negb (v =? 0)))
  | DInteger t, PInt v => Val (VInt (cast t v))
  | DCustom, PInt v => Val (VCustom (from_custom f v))
  | DArray len, PInt v => l <- unpack_int m len (ucast 128 v) ;; Val (VArr l)
  | DArray _, PArr l => Val (VArr l)
  | _, _ => Panic
  end.

(** [x()] : field_getters_feature.rs:37-71. *)
Definition get_field (m : mode) (bf : bitfield) (f : field) (s : store) : outcome fval :=
  p <- extract_src m bf f false s ;;
  q <- sign_extend m f p ;;
  value_return m f q.

(** ** Invert *)

(** invert_bit_ops_feature.rs:182-218 ([generate_value_to_field_tokens]). *)
Definition value_to_field (m : mode) (f : field) (p : pval) : outcome fval :=
  match f_ty f, p with
  | DCustom, PInt v => Val (VCustom (from_custom f v))
  | DInteger TBool, PInt v => Val (VBool (negb (v =? 0)))
  | DArray len, PInt v => l <- unpack_int m len (ucast 128 v) ;; Val (VArr l)
  | DArray _, PArr l => Val (VArr l)
  | DInteger t, PInt v => Val (VInt (cast t v))
  | _, _ => Panic
  end.
(** [invert_x()] : invert_bit_ops_feature.rs:134-141. *)
Definition invert_field (m : mode) (bf : bitfield) (f : field) (s : store) : outcome store :=
  p <- extract_src m bf f true s ;;
  a <- value_to_field m f p ;;
  set_field m bf f a s.
(** [x_inverted()] : invert_bit_ops_feature.rs:170-177. *)
Definition inverted_field (m : mode) (bf : bitfield) (f : field) (s : store) : outcome fval :=
  p <- extract_src m bf f true s ;;
  value_to_field m f p.

(** Protected bits: GH:948-994.  Computed inside the macro; [u128] mask for an
    integer backing, byte list for an array backing.  The u32 additions cannot
    overflow since [offset + bits <= S]. *)
Definition bit_range (off n : Z) : list Z :=
  map (fun k => off + Z.of_nat k) (seq 0 (Z.to_nat n)).
Definition protected_mask_int (bf : bitfield) (prot : field -> bool) (w : Z) : Z :=
  ucast w
    (fold_left (fun mask f =>
       fold_left (fun mask bit => Z.lor mask (2 ^ bit)) (bit_range (f_off f) (f_bits f)) mask)
     (filter prot (b_fields bf)) 0).
Definition protected_mask_arr (bf : bitfield) (prot : field -> bool) (n : Z) : list Z :=
  fold_left (fun bytes f =>
     fold_left (fun bytes bit =>
         if bit / 8 <? n then
           list_upd bytes (Z.to_nat (bit / 8))
             (Z.lor (nth (Z.to_nat (bit / 8)) bytes 0) (2 ^ (bit mod 8)))
         else bytes)
       (bit_range (f_off f) (f_bits f)) bytes)
   (filter prot (b_fields bf)) (zeros n).
(** GH:957-961: [ProtectionType::ReadOnly] / [ProtectionType::WriteOnly]. *)
Definition no_setter (f : field) : bool := negb (has_setter f).
Definition no_read (f : field) : bool := negb (has_read_access f).

(** [invert_bits()] / [invert_bytes()] : invert_bit_ops_feature.rs:54-107. *)
Definition invert_all (m : mode) (bf : bitfield) (s : store) : outcome store :=
  match b_ty bf, s with
  | DInteger t, StI z =>
      let w := ity_bits t in
      let prot := protected_mask_int bf no_setter w in
      let bits := Z.lor (Z.land (unot w z) (unot w prot)) (Z.land z prot) in
      copy_fields m bf (fun _ => true) (StI bits) s
  | DArray n, StA l =>
      let prot := protected_mask_arr bf no_setter n in
      bits <- while_lt n (fun i bits =>
        b <- arr_get bits i ;;
        p <- arr_get prot i ;;
        arr_set bits i (Z.lor (Z.land (unot 8 b) (unot 8 p)) (Z.land b p))) l ;;
      copy_fields m bf (fun _ => true) (StA bits) s
  | _, _ => Panic
  end.

(** ** Clear *)

(** [clear_bits()] / [clear_bits_with_defaults()] : clear_bit_ops_feature.rs:53-85. *)
Definition clear_all (m : mode) (bf : bitfield) (defaults : bool) (s : store) : outcome store :=
  new_impl m bf defaults s.
(** [clear_x()] : clear_bit_ops_feature.rs:87-108. *)
Definition clear_field (m : mode) (bf : bitfield) (f : field) (s : store) : outcome store :=
  set_zero m bf f s.
(** [clear_x_to_default()] : clear_bit_ops_feature.rs:110-126. *)
Definition clear_field_to_default (m : mode) (bf : bitfield) (f : field) (s : store) : outcome store :=
  set_default m bf f s.

(** ** Whole-value conversions *)

(** The three variants of every conversion: unsuffixed (configured endian),
    [_le_], [_be_]. *)
Inductive variant := Configured | AsLe | AsBe.
Definition variant_endian (cfg : endian) (v : variant) : endian :=
  match v with Configured => cfg | AsLe => Little | AsBe => Big end.

(** The xor-swap loop: from_into_bits_feature.rs:217-227, 343-352, 536-546,
    549-560, 615-625 and write_bit_ops_feature.rs:158-170. *)
Definition reverse_xor (m : mode) (n : Z) (l : list Z) : outcome (list Z) :=
  let half_len := n / 2 in
  let last_idx := n - 1 in
  while_lt half_len (fun i bits =>
    j <- usub m 64 last_idx i ;;
    bi <- arr_get bits i ;; bj <- arr_get bits j ;;
    bits <- arr_set bits i (Z.lxor bi bj) ;;
    bi <- arr_get bits i ;; bj <- arr_get bits j ;;
    bits <- arr_set bits j (Z.lxor bj bi) ;;
    bi <- arr_get bits i ;; bj <- arr_get bits j ;;
    arr_set bits i (Z.lxor bi bj)) l.
(** The temporary-variable swap loop: from_traits_feature.rs:136-146, 150-160. *)
Definition reverse_temp (m : mode) (l : list Z) : outcome (list Z) :=
  let len := Z.of_nat (List.length l) in
  while_lt (len / 2) (fun i bits =>
    temp <- arr_get bits i ;;
    j0 <- usub m 64 len 1 ;; j <- usub m 64 j0 i ;;
    bj <- arr_get bits j ;;
    bits <- arr_set bits i bj ;;
    arr_set bits j temp) l.

(** Endian conversion of the argument of [from_*] and of the result of
    [into_*].  Integer backing: from_into_bits_feature.rs:72-73, 99, 108,
    139-146, generating/common/endian_conversion.rs:8-19.  Array backing:
    from_into_bits_feature.rs:213-228, 522-563. *)
Definition convert_from_into (m : mode) (bf : bitfield) (e : endian) (b : store) : outcome store :=
  match b_ty bf, b, e with
  | DInteger t, StI z, Little => Val (StI (swap_bytes (ity_bits t) z))
  | DInteger _, StI z, Big => Val (StI z)
  | DArray _, StA l, Little => Val (StA l)
  | DArray n, StA l, Big => l' <- reverse_xor m n l ;; Val (StA l')
  | _, _, _ => Panic
  end.
(** Same for the trait implementations: from_traits_feature.rs:103-166. *)
Definition convert_traits (m : mode) (bf : bitfield) (e : endian) (b : store) : outcome store :=
  match b_ty bf, b, e with
  | DInteger t, StI z, Little => Val (StI (swap_bytes (ity_bits t) z))
  | DInteger _, StI z, Big => Val (StI z)
  | DArray _, StA l, Little => Val (StA l)
  | DArray _, StA l, Big => l' <- reverse_temp m l ;; Val (StA l')
  | _, _, _ => Panic
  end.
(** Same for the write functions: write_bit_ops_feature.rs:143-177. *)
Definition convert_write (m : mode) (bf : bitfield) (e : endian) (b : store) : outcome store :=
  match b_ty bf, b, e with
  | DInteger t, StI z, Little => Val (StI (swap_bytes (ity_bits t) z))
  | DInteger _, StI z, Big => Val (StI z)
  | DArray n, StA l, Little => l' <- reverse_xor m n l ;; Val (StA l')
  | DArray _, StA l, Big => Val (StA l)
  | _, _, _ => Panic
  end.

(** Common tail of all [from_*]: from_into_bits_feature.rs:81-83, 91-94, ... *)
Definition build_from (m : mode) (bf : bitfield) (defaults : bool) (bits : store) : outcome store :=
  s <- copy_fields m bf (fun _ => true) bits (init_store bf) ;;
  if defaults then set_defaults m bf s else Val s.

(** [from_bits], [from_le_bits], [from_be_bits] and their [_with_defaults]
    forms: from_into_bits_feature.rs:58-133 (integer) and 191-289 (array). *)
Definition from_data (m : mode) (bf : bitfield) (v : variant) (defaults : bool) (b : store)
  : outcome store :=
  bits <- convert_from_into m bf (variant_endian (a_from_endian (b_args bf)) v) b ;;
  build_from m bf defaults bits.
(** [into_bits], [into_le_bits], [into_be_bits] : from_into_bits_feature.rs:135-173
    (integer) and 507-588 (array). *)
Definition into_data (m : mode) (bf : bitfield) (v : variant) (s : store) : outcome store :=
  convert_from_into m bf (variant_endian (a_into_endian (b_args bf)) v) s.

(** [From<Backing> for Bitfield] : from_traits_feature.rs:71-80. *)
Definition trait_from (m : mode) (bf : bitfield) (b : store) : outcome store :=
  bits <- convert_traits m bf (a_from_endian (b_args bf)) b ;;
  copy_fields m bf (fun _ => true) bits (init_store bf).
(** [From<Bitfield> for Backing] : from_traits_feature.rs:91-98. *)
Definition trait_into (m : mode) (bf : bitfield) (s : store) : outcome store :=
  convert_traits m bf (a_into_endian (b_args bf)) s.

(** [write_bits] and variants: write_bit_ops_feature.rs:81-131. *)
Definition write_data (m : mode) (bf : bitfield) (v : variant) (defaults : bool) (b s : store)
  : outcome store :=
  bits <- convert_write m bf (variant_endian (a_write_endian (b_args bf)) v) b ;;
  s' <- copy_fields m bf has_setter bits s ;;
  if defaults then set_defaults m bf s' else Val s'.
(** [write_defaults()] : write_bit_ops_feature.rs:133-137. *)
Definition write_defaults (m : mode) (bf : bitfield) (s : store) : outcome store :=
  set_defaults m bf s.

(** ** Slices (array backing only) *)

(** [while i < n { dst[i] = src[i]; i += 1; }] : from_into_bits_feature.rs:318-322,
    327-331, 635-639, 643-647. *)
Definition copy_bytes (n : Z) (src dst : list Z) : outcome (list Z) :=
  while_lt n (fun i dst => b <- arr_get src i ;; arr_set dst i b) dst.
(** [if slice.len() < N { slice.len() } else { N }] : from_into_bits_feature.rs:316-317, 634. *)
Definition copy_len (slice : list Z) (n : Z) : Z :=
  if Z.of_nat (List.length slice) <? n then Z.of_nat (List.length slice) else n.

(** [from_slice] and variants: from_into_bits_feature.rs:361-383, 409-430, 457-478. *)
Definition from_slice (m : mode) (bf : bitfield) (v : variant) (defaults : bool) (slice : list Z)
  : outcome store :=
  match b_ty bf with
  | DArray n =>
      bits <- copy_bytes (copy_len slice n) slice (zeros n) ;;
      bits <- convert_from_into m bf (variant_endian (a_from_endian (b_args bf)) v) (StA bits) ;;
      build_from m bf defaults bits
  | _ => Panic
  end.
(** [checked_from_slice] and variants: from_into_bits_feature.rs:385-407, 432-455, 480-503. *)
Definition checked_from_slice (m : mode) (bf : bitfield) (v : variant) (defaults : bool)
    (slice : list Z) : outcome (res store) :=
  match b_ty bf with
  | DArray n =>
      if Z.of_nat (List.length slice) <? n then Val (Err msg_fill)
      else
        bits <- copy_bytes n slice (zeros n) ;;
        bits <- convert_from_into m bf (variant_endian (a_from_endian (b_args bf)) v) (StA bits) ;;
        s <- build_from m bf defaults bits ;;
        Val (Ok s)
  | _ => Panic
  end.
(** [into_slice] and variants: from_into_bits_feature.rs:658-665, 678-685, 698-705.
    Returns the new contents of the slice. *)
Definition into_slice (m : mode) (bf : bitfield) (v : variant) (s : store) (slice : list Z)
  : outcome (list Z) :=
  match b_ty bf with
  | DArray n =>
      bits <- convert_from_into m bf (variant_endian (a_into_endian (b_args bf)) v) s ;;
      match bits with
      | StA l => copy_bytes (copy_len slice n) l slice
      | StI _ => Panic
      end
  | _ => Panic
  end.
(** [checked_into_slice] and variants: from_into_bits_feature.rs:667-676, 687-696, 707-716. *)
Definition checked_into_slice (m : mode) (bf : bitfield) (v : variant) (s : store) (slice : list Z)
  : outcome (list Z * res unit) :=
  match b_ty bf with
  | DArray n =>
      if Z.of_nat (List.length slice) <? n then Val (slice, Err msg_hold)
      else
        bits <- convert_from_into m bf (variant_endian (a_into_endian (b_args bf)) v) s ;;
        match bits with
        | StA l => slice' <- copy_bytes n l slice ;; Val (slice', Ok tt)
        | StI _ => Panic
        end
  | _ => Panic
  end.

(** ** Bit and range operations: set_get_bit_ops_feature.rs *)

(** Access guard: set_get_bit_ops_feature.rs:484-516, one [if] per protected
    field, in declaration order (both emitted forms denote the same test). *)
Definition access_guard (bf : bitfield) (prot : field -> bool) (offset : Z) : bool :=
  existsb (fun f => (f_off f <=? offset) && (offset <? f_off f + f_bits f))
    (filter prot (b_fields bf)).

(** The write itself: 103-107 and 118-122 (integer), 167-173 and 184-190 (array). *)
Definition set_bit_body (m : mode) (bf : bitfield) (offset : Z) (bit : bool) (s : store)
  : outcome store :=
  match b_ty bf, s with
  | DInteger t, StI z =>
      one <- shl m (ity_bits t) 1 offset ;;
      Val (StI (if bit then Z.lor (Z.land z (unot (ity_bits t) one)) one
                else Z.land z (unot (ity_bits t) one)))
  | DArray _, StA l => l' <- write_bit m (offset / 8) (offset mod 8) bit l ;; Val (StA l')
  | _, _ => Panic
  end.
(** [set_bit] : 97-108 (integer), 161-174 (array); range check 438-459. *)
Definition set_bit (m : mode) (bf : bitfield) (offset : Z) (bit : bool) (s : store)
  : outcome store :=
  if bf_size bf <=? offset then Val s
  else if access_guard bf no_setter offset then Val s
  else set_bit_body m bf offset bit s.
(** [checked_set_bit] : 112-125 (integer), 178-193 (array). *)
Definition checked_set_bit (m : mode) (bf : bitfield) (offset : Z) (bit : bool) (s : store)
  : outcome (store * res unit) :=
  if bf_size bf <=? offset then Val (s, Err msg_offset)
  else if access_guard bf no_setter offset then Val (s, Err msg_write)
  else (s' <- set_bit_body m bf offset bit s ;; Val (s', Ok tt)).

(** The read itself: 312, 321 (integer), 360-362, 371-373 (array). *)
Definition get_bit_body (m : mode) (bf : bitfield) (offset : Z) (s : store) : outcome bool :=
  match b_ty bf, s with
  | DInteger t, StI z =>
      x <- shr m (ity_bits t) z offset ;; Val (negb (Z.land x 1 =? 0))
  | DArray _, StA l =>
      b <- arr_get l (offset / 8) ;;
      x <- shr m 8 b (offset mod 8) ;;
      Val (negb (Z.land x 1 =? 0))
  | _, _ => Panic
  end.
(** [get_bit] : 308-313, 356-363. *)
Definition get_bit (m : mode) (bf : bitfield) (offset : Z) (s : store) : outcome bool :=
  if bf_size bf <=? offset then Val false
  else if access_guard bf no_read offset then Val false
  else get_bit_body m bf offset s.
(** [checked_get_bit] : 317-322, 367-374. *)
Definition checked_get_bit (m : mode) (bf : bitfield) (offset : Z) (s : store)
  : outcome (res bool) :=
  if bf_size bf <=? offset then Val (Err msg_offset)
  else if access_guard bf no_read offset then Val (Err msg_read)
  else (b <- get_bit_body m bf offset s ;; Val (Ok b)).

(** [offset + length > BITS] : 461-482 (u32 addition). *)
Definition length_guard (m : mode) (bf : bitfield) (offset length : Z) : outcome bool :=
  sum <- uadd m 32 offset length ;; Val (bf_size bf <? sum).

(** [(protected_mask[bit / 8] >> (bit % 8)) & 1 != 0] : 208, 235, 388, 414. *)
Definition is_protected (m : mode) (prot : list Z) (bit : Z) : outcome bool :=
  b <- arr_get prot (bit / 8) ;;
  x <- shr m 8 b (bit mod 8) ;;
  Val (negb (Z.land x 1 =? 0)).
(** [((value[i / 8] >> (i % 8)) & 1) != 0] : 204, 243. *)
Definition value_bit (m : mode) (value : list Z) (i : Z) : outcome bool :=
  b <- arr_get value (i / 8) ;;
  x <- shr m 8 b (i mod 8) ;;
  Val (negb (Z.land x 1 =? 0)).

(** Body of [set_bits_range] (133-136) and [set_bytes_range] (201-217). *)
Definition set_range_body (m : mode) (bf : bitfield) (offset length : Z) (value s : store)
  : outcome store :=
  match b_ty bf, value, s with
  | DInteger t, StI v, StI z =>
      let w := ity_bits t in
      mask <- mask_int m w length ;;
      range_mask <- shl m w mask offset ;;
      let prot := protected_mask_int bf no_setter w in
      let writable := Z.land range_mask (unot w prot) in
      x <- shl m w v offset ;;
      Val (StI (Z.lor (Z.land z (unot w writable)) (Z.land x writable)))
  | DArray n, StA v, StA l =>
      let prot := protected_mask_arr bf no_setter n in
      l' <- while_lt length (fun i l =>
        bit_val <- value_bit m v i ;;
        dst <- uadd m 32 offset i ;;
        p <- is_protected m prot dst ;;
        if p then Val l else write_bit m (dst / 8) (dst mod 8) bit_val l) l ;;
      Val (StA l')
  | _, _, _ => Panic
  end.
(** [set_bits_range] : 129-137; [set_bytes_range] : 197-218. *)
Definition set_range (m : mode) (bf : bitfield) (offset length : Z) (value s : store)
  : outcome store :=
  if bf_size bf <=? offset then Val s
  else
    too_long <- length_guard m bf offset length ;;
    if too_long then Val s else set_range_body m bf offset length value s.

(** [checked_set_bits_range] : 144-156; [checked_set_bytes_range] : 225-255. *)
Definition checked_set_range (m : mode) (bf : bitfield) (offset length : Z) (value s : store)
  : outcome (store * res unit) :=
  if bf_size bf <=? offset then Val (s, Err msg_offset)
  else
    too_long <- length_guard m bf offset length ;;
    if too_long then Val (s, Err msg_length)
    else
      match b_ty bf, value, s with
      | DInteger t, StI v, StI z =>
          let w := ity_bits t in
          mask <- mask_int m w length ;;
          let prot := protected_mask_int bf no_setter w in
          range_mask <- shl m w mask offset ;;
          if negb (Z.land range_mask prot =? 0) then Val (s, Err msg_write)
          else
            hole <- shl m w mask offset ;;
            x <- shl m w (Z.land v mask) offset ;;
            Val (StI (Z.lor (Z.land z (unot w hole)) x), Ok tt)
      | DArray n, StA v, StA l =>
          let prot := protected_mask_arr bf no_setter n in
          bad <- while_lt_find length (fun i =>
            dst <- uadd m 32 offset i ;;
            p <- is_protected m prot dst ;;
            Val (if p then Some tt else None)) ;;
          match bad with
          | Some _ => Val (s, Err msg_write)
          | None =>
              l' <- while_lt length (fun i l =>
                bit_val <- value_bit m v i ;;
                dst <- uadd m 32 offset i ;;
                write_bit m (dst / 8) (dst mod 8) bit_val l) l ;;
              Val (StA l', Ok tt)
          end
      | _, _, _ => Panic
      end.

(** [return 0;] / [return [0; N];] : 533-545. *)
Definition zero_data (bf : bitfield) : store :=
  match b_ty bf with DArray n => StA (zeros n) | _ => StI 0 end.

(** Bit copy of the array range reads: 385-395 (with protection), 423-430. *)
Definition read_bit_into (m : mode) (l : list Z) (src i : Z) (res : list Z) : outcome (list Z) :=
  b <- arr_get l (src / 8) ;;
  x <- shr m 8 b (src mod 8) ;;
  y <- shl m 8 (Z.land x 1) (i mod 8) ;;
  old <- arr_get res (i / 8) ;;
  arr_set res (i / 8) (Z.lor old y).

(** [get_bits_range] : 325-334; [get_bytes_range] : 377-398. *)
Definition get_range (m : mode) (bf : bitfield) (offset length : Z) (s : store) : outcome store :=
  if bf_size bf <=? offset then Val (zero_data bf)
  else
    too_long <- length_guard m bf offset length ;;
    if too_long then Val (zero_data bf)
    else
      match b_ty bf, s with
      | DInteger t, StI z =>
          let w := ity_bits t in
          mask <- mask_int m w length ;;
          let prot := protected_mask_int bf no_read w in
          sp <- shr m w prot offset ;;
          let shifted_protected := Z.land sp mask in
          let readable := Z.land mask (unot w shifted_protected) in
          x <- shr m w z offset ;;
          Val (StI (Z.land (Z.land x mask) readable))
      | DArray n, StA l =>
          let prot := protected_mask_arr bf no_read n in
          r <- while_lt length (fun i res =>
            src <- uadd m 32 offset i ;;
            p <- is_protected m prot src ;;
            if p then Val res else read_bit_into m l src i res) (zeros n) ;;
          Val (StA r)
      | _, _ => Panic
      end.

(** [checked_get_bits_range] : 340-351; [checked_get_bytes_range] : 404-433. *)
Definition checked_get_range (m : mode) (bf : bitfield) (offset length : Z) (s : store)
  : outcome (res store) :=
  if bf_size bf <=? offset then Val (Err msg_offset)
  else
    too_long <- length_guard m bf offset length ;;
    if too_long then Val (Err msg_length)
    else
      match b_ty bf, s with
      | DInteger t, StI z =>
          let w := ity_bits t in
          mask <- mask_int m w length ;;
          let prot := protected_mask_int bf no_read w in
          range_mask <- shl m w mask offset ;;
          if negb (Z.land range_mask prot =? 0) then Val (Err msg_read)
          else (x <- shr m w z offset ;; Val (Ok (StI (Z.land x mask))))
      | DArray n, StA l =>
          let prot := protected_mask_arr bf no_read n in
          bad <- while_lt_find length (fun i =>
            src <- uadd m 32 offset i ;;
            p <- is_protected m prot src ;;
            Val (if p then Some tt else None)) ;;
          match bad with
          | Some _ => Val (Err msg_read)
          | None =>
              r <- while_lt length (fun i res =>
                src <- uadd m 32 offset i ;;
                read_bit_into m l src i res) (zeros n) ;;
              Val (Ok (StA r))
          end
      | _, _ => Panic
      end.

(** ** Builder: builder_feature.rs *)

(** [Builder::new()] / [Builder::new_without_defaults()] : 92-126. *)
Definition builder_new (m : mode) (bf : bitfield) (defaults : bool) : outcome store :=
  if a_new (b_args bf) then (if defaults then new_bf m bf else new_without_defaults m bf)
  else new_impl m bf defaults (init_store bf).

(** The argument of the direct setter call: GH:287-307 ([bits as _] for
    integers). *)
Definition builder_arg (f : field) (a : fval) : fval :=
  match f_ty f, a with
  | DInteger TBool, _ => a
  | DInteger t, VInt z => VInt (cast t z)
  | _, _ => a
  end.
(** [with_x(bits)] : builder_feature.rs:150-153, 168-171, GH:243-245, 287-318. *)
Definition with_field (m : mode) (bf : bitfield) (f : field) (a : fval) (s : store) : outcome store :=
  if has_setter f then set_field m bf f (builder_arg f a) s
  else (r <- assign_arg m bf false f a s ;; Val (fst r)).
(** [checked_with_x(bits)] : builder_feature.rs:154-157, 174-177, GH:309-315.
    The builder is consumed, so an error carries no builder. *)
Definition checked_with_field (m : mode) (bf : bitfield) (f : field) (a : fval) (s : store)
  : outcome (res store) :=
  r <- (if has_setter f then checked_set_field m bf f (builder_arg f a) s
        else assign_arg m bf true f a s) ;;
  match snd r with
  | Ok _ => Val (Ok (fst r))
  | Err e => Val (Err e)
  end.

(** ** Debug: debug_trait_feature.rs:50-72.  The list of [debug.field(name, &value)]
    calls. *)
Fixpoint debug_fields (m : mode) (bf : bitfield) (fs : list field) (s : store)
  : outcome (list (string * pval)) :=
  match fs with
  | [] => Val []
  | f :: t =>
      p <- extract_src m bf f false s ;;
      rest <- debug_fields m bf t s ;;
      Val ((f_name f, p) :: rest)
  end.
Definition debug_bf (m : mode) (bf : bitfield) (s : store) : outcome (list (string * pval)) :=
  debug_fields m bf (b_fields bf) s.
