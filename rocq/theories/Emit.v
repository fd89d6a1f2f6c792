(** The emitted functions as program text (the syntax of Rust.v).

    Paths are relative to
    /repo/bitfields_impl/src/generating/bitfield/features; GH is
    common/generator_helper.rs.  Every definition is the transcription of a
    [quote!] template; interpolated numbers have the suffix of their Rust type
    (quote prints a [u32] as [8u32] and a [usize] as [2usize]).  Attributes,
    documentation and visibilities are left out (visibilities: Surface.v).
    Operator precedence is resolved as Rust's parser does ([a & b != 0] is
    [(a & b) != 0]).

    [dx f] is the expression in the user's [default = ...] argument of [f]. *)
From Coq Require Import ZArith List Bool String.
From Verif Require Import RustInt Syntax Rust Surface.
From Verif Require Gen.
Import ListNotations.
Open Scope string_scope.
Open Scope Z_scope.

Notation V := EVar.
Definition u32 (z : Z) : expr := ELit z (Some (TI U32)).
Definition usz (z : Z) : expr := ELit z (Some TUsize).
Definition lit (z : Z) : expr := ELit z None.
Notation "a +! b" := (EBin BAdd a b) (at level 50, left associativity).
Notation "a -! b" := (EBin BSub a b) (at level 50, left associativity).
Notation "a *! b" := (EBin BMul a b) (at level 40, left associativity).
Notation "a /! b" := (EBin BDiv a b) (at level 40, left associativity).
Notation "a %! b" := (EBin BRem a b) (at level 40, left associativity).
Notation "a <<! b" := (EBin BShl a b) (at level 51, left associativity).
Notation "a >>! b" := (EBin BShr a b) (at level 51, left associativity).
Notation "a &! b" := (EBin BAnd a b) (at level 52, left associativity).
Notation "a ^! b" := (EBin BXor a b) (at level 53, left associativity).
Notation "a |! b" := (EBin BOr a b) (at level 54, left associativity).
Notation "~! a" := (EUn UNot a) (at level 35, right associativity).
Definition let_ (x : string) (e : expr) : stmt := SLet false x None e.
Definition letmut (x : string) (e : expr) : stmt := SLet true x None e.
Definition as_ (e : expr) (t : ty) : expr := ECast e (Some t).
Definition as_any (e : expr) : expr := ECast e None.
Definition if_ (c : expr) (a : list stmt) : stmt := SExpr (EIf c (Block a None) (Block [] None)).
Definition if_else (c : expr) (a b : list stmt) : stmt := SExpr (EIf c (Block a None) (Block b None)).
Definition while_ (c : expr) (b : list stmt) : stmt := SWhile c (Block b None).
Definition lt (a b : expr) : expr := EBin BLt a b.
Definition incr (i : string) : stmt := SOp BAdd (V i) (lit 1).
Definition err (m : string) : list stmt := [SReturn (Some (EErr m))].

(** ** Types *)

(** The backing type as written by the user ([u32], [[u8; 4]]). *)
Definition data_ty (bf : bitfield) : ty :=
  match b_ty bf with DInteger t => TI t | DArray n => TArr U8 n | DCustom => TUnit end.
Definition data_ity (bf : bitfield) : ity := match b_ty bf with DInteger t => t | _ => U8 end.
Definition array_len (bf : bitfield) : Z := match b_ty bf with DArray n => n | _ => 0 end.
Definition is_heap (bf : bitfield) : bool := a_array_heap (b_args bf) && negb (is_integer_backed bf).
(** The type of the struct's field: bitfield_struct_feature.rs:60-191. *)
Definition store_ty (bf : bitfield) : ty :=
  if is_heap bf then TBox (array_len bf) else data_ty bf.
Definition field_ty (f : field) : ty :=
  match f_ty f with DInteger t => TI t | DArray n => TArr U8 n | DCustom => TUser (f_name f) end.

(** GH:19-28 ([get_function_modifier_tokens]), for a compiler with const mutable
    references (Rust 1.83 or later). *)
Definition is_const (bf : bitfield) : bool :=
  match b_ignored bf with [] => negb (is_heap bf) | _ => false end.

(** ** Common fragments: GH *)

(** GH:803-814 ([get_bitfield_reference_tokens]). *)
Definition bf_ref (bc : bool) : path := if bc then PName else PSelf.
(** naming_extensions.rs:10-20: [this.0] / [self.this.0]. *)
Definition this (bc : bool) : expr := if bc then EThis (V "self") else V "this".
Definition val (bc : bool) : expr := EVal (this bc).
(** GH:759-800 *)
Definition fbits (bc : bool) (f : field) : expr :=
  if has_constants f then EConst (bf_ref bc) (role_name RWidth (f_name f)) else u32 (f_bits f).
Definition foff (bc : bool) (f : field) : expr :=
  if has_constants f then EConst (bf_ref bc) (role_name ROffset (f_name f)) else u32 (f_off f).

(** GH:44-88 *)
Definition init (bf : bitfield) (bc : bool) : expr :=
  EStruct (bf_ref bc)
    (match b_ty bf with
     | DInteger _ => lit 0
     | DArray n =>
         if a_array_heap (b_args bf) then EBox (ERepeat (ELit 0 (Some (TI U8))) n)
         else ERepeat (ELit 0 (Some (TI U8))) n
     | DCustom => EUnit
     end).

(** [T::MAX >> (T::BITS - bits)] : GH:464, 713, 721; set_get_bit_ops_feature.rs:133, 148, ... *)
Definition mask_expr (bf : bitfield) (n : expr) : expr :=
  EMax (data_ity bf) >>! (EBits (data_ity bf) -! n).
(** [if bits == 128 { u128::MAX } else { (1u128 << bits) - 1 }] : GH:485, 494, 543 *)
Definition mask128 (n : expr) : expr :=
  EIf (EBin BEq n (lit 128)) (Block [] (Some (EMax U128)))
      (Block [] (Some ((ELit 1 (Some (TI U128)) <<! n) -! lit 1))).

(** GH:350-369 *)
Definition signed_check (f : field) : list stmt :=
  match f_ty f with
  | DInteger t =>
      if ity_bits t <=? f_bits f then []
      else [if_ (EBin BAny
                  (EBin BGt (V "bits") (ELit (cast t (2 ^ (f_bits f - 1) - 1)) (Some (TI t))))
                  (EBin BLt (V "bits") (EUn UNeg (ELit (cast t (2 ^ (f_bits f - 1))) (Some (TI t))))))
              (err Gen.msg_too_big)]
  | _ => []
  end.
(** GH:339-345 *)
Definition unsigned_check : stmt := if_ (EBin BGt (V "bits") (V "mask")) (err Gen.msg_too_big).

(** GH:429-443 *)
Definition pack (bf : bitfield) (f : field) (len : Z) : expr :=
  EBlock (Block
    [ let_ "__arr" (V "bits");
      SLet true "__v" (Some (data_ty bf)) (lit 0);
      SLet true "__i" (Some TUsize) (lit 0);
      while_ (lt (V "__i") (usz (Z.min (f_bits f / 8) len)))
        [ SOp BOr (V "__v") (as_ (EIndex (V "__arr") (V "__i")) (data_ty bf) <<! (V "__i" *! lit 8));
          incr "__i" ] ]
    (Some (V "__v"))).

(** Extraction, integer backing: GH:417-467.  [src] is [bits] or [this.0]. *)
Definition extract_cast_i (bf : bitfield) (bc : bool) (f : field) : list stmt :=
  [ let_ "mask" (mask_expr bf (fbits bc f));
    let_ "bits" (match f_ty f with
                 | DCustom => as_ (EIntoBits (V "bits")) (data_ty bf)
                 | DArray len => pack bf f len
                 | DInteger _ => as_ (V "bits") (data_ty bf)
                 end);
    let_ "value" (V "bits" &! V "mask") ].
Definition extract_src_i (bf : bitfield) (bc inv : bool) (f : field) (src : expr) : list stmt :=
  [ let_ "mask" (mask_expr bf (fbits bc f));
    let_ "value" ((if inv then ~! (src >>! foff bc f) else src >>! foff bc f) &! V "mask") ].

(** Extraction from an argument, array backing: GH:468-499. *)
Definition extract_cast_a (bc : bool) (f : field) : list stmt :=
  match f_ty f with
  | DInteger TBool => [ let_ "value" (as_ (V "bits") (TI U128)) ]
  | DArray _ => [ let_ "value" (V "bits") ]
  | DCustom =>
      [ let_ "bits" (as_ (EIntoBits (V "bits")) (TI U128));
        let_ "mask" (mask128 (fbits bc f));
        let_ "value" (EBlock (Block [ let_ "val" (V "bits" &! V "mask") ] (Some (V "val")))) ]
  | DInteger t =>
      [ let_ "mask" (as_ (mask128 (fbits bc f)) (TI t));
        let_ "value" (EBlock (Block [ let_ "val" (V "bits" &! V "mask") ] (Some (V "val")))) ]
  end.
(** Extraction from a whole value, array backing: GH:501-562. *)
Definition extract_src_a (bc inv : bool) (f : field) (src : expr) : list stmt :=
  match f_ty f with
  | DArray len =>
      [ let_ "value" (EBlock (Block
          [ letmut "__arr" (ERepeat (ELit 0 (Some (TI U8))) len);
            SLet true "__i" (Some (TI U32)) (lit 0);
            while_ (lt (V "__i") (fbits bc f))
              [ let_ "bit_index" (foff bc f +! V "__i");
                let_ "byte_idx" (as_ (V "bit_index" /! lit 8) TUsize);
                let_ "bit_in_byte" (V "bit_index" %! lit 8);
                let_ "bit_val"
                  (if inv then ((EIndex src (V "byte_idx") >>! V "bit_in_byte") &! lit 1) ^! lit 1
                   else (EIndex src (V "byte_idx") >>! V "bit_in_byte") &! lit 1);
                SOp BOr (EIndex (V "__arr") (as_ (V "__i" /! lit 8) TUsize))
                        (V "bit_val" <<! (V "__i" %! lit 8));
                incr "__i" ] ]
          (Some (V "__arr")))) ]
  | _ =>
      [ let_ "value" (EBlock (Block
          [ letmut "val" (ELit 0 (Some (TI U128)));
            SLet true "i" (Some (TI U32)) (lit 0);
            while_ (lt (V "i") (fbits bc f))
              [ let_ "bit_index" (foff bc f +! V "i");
                let_ "byte_idx" (V "bit_index" /! lit 8);
                let_ "bit_in_byte" (V "bit_index" %! lit 8);
                let_ "bit_val"
                  (as_ ((EIndex src (as_ (V "byte_idx") TUsize) >>! V "bit_in_byte") &! lit 1) (TI U128));
                SOp BOr (V "val") (V "bit_val" <<! V "i");
                incr "i" ] ]
          (Some (if inv then (~! V "val") &! mask128 (fbits bc f) else V "val")))) ]
  end.

(** GH:387-566; [from_var]: BitsSource::IntegerVariable. *)
Definition extract (bf : bitfield) (bc inv from_var cast_bits : bool) (f : field) : list stmt :=
  let src := if from_var then V "bits" else val bc in
  if is_integer_backed bf then
    if from_var && cast_bits then extract_cast_i bf bc f else extract_src_i bf bc inv f src
  else
    if from_var && cast_bits then extract_cast_a bc f else extract_src_a bc inv f src.

(** GH:321-336 *)
Definition value_var (f : field) : expr :=
  match f_ty f with
  | DCustom => EFromBits (f_name f) (as_any (V "value"))
  | DInteger TBool => EBin BNe (V "value") (lit 0)
  | _ => V "value"
  end.

(** GH:611-620; with [__val]: field_getters_feature.rs:98-109,
    invert_bit_ops_feature.rs:197-209. *)
Definition unpack (x : string) (e : expr) (len : Z) : expr :=
  EBlock (Block
    [ let_ x (as_ e (TI U128));
      letmut "__arr" (ERepeat (ELit 0 (Some (TI U8))) len);
      SLet true "__i" (Some TUsize) (lit 0);
      while_ (lt (V "__i") (usz len))
        [ SSet (EIndex (V "__arr") (V "__i")) (as_ ((V x >>! (V "__i" *! lit 8)) &! lit 255) (TI U8));
          incr "__i" ] ]
    (Some (V "__arr"))).

(** GH:574-629 *)
Definition setter_call (bf : bitfield) (bc : bool) (f : field) (e : expr) : list stmt :=
  let arg :=
    match f_ty f with
    | DInteger TBool => e
    | DInteger _ => as_any e
    | DCustom => e
    | DArray len => if is_integer_backed bf then unpack "__int_val" e len else e
    end in
  [ SExpr (ECall (this bc) (role_name RSetter (f_name f)) arg) ].

(** [s[i] |= 1 << b] / [&= !(1 << b)] *)
Definition write_bit_stmt (cond arr i b : expr) : stmt :=
  if_else cond [ SOp BOr (EIndex arr i) (lit 1 <<! b) ]
               [ SOp BAnd (EIndex arr i) (~! (lit 1 <<! b)) ].

(** GH:632-725 *)
Definition put (bf : bitfield) (bc : bool) (f : field) (e : expr) : list stmt :=
  if negb (is_integer_backed bf) then
    match f_ty f with
    | DArray _ =>
        [ SExpr (EBlock (Block
            [ let_ "__src" e;
              SLet true "__i" (Some (TI U32)) (lit 0);
              while_ (lt (V "__i") (fbits bc f))
                [ let_ "bit_index" (foff bc f +! V "__i");
                  let_ "byte_idx" (as_ (V "bit_index" /! lit 8) TUsize);
                  let_ "bit_in_byte" (V "bit_index" %! lit 8);
                  let_ "src_bit"
                    ((EIndex (V "__src") (as_ (V "__i" /! lit 8) TUsize) >>! (V "__i" %! lit 8)) &! lit 1);
                  write_bit_stmt (EBin BEq (V "src_bit") (lit 1)) (val bc) (V "byte_idx") (V "bit_in_byte");
                  incr "__i" ] ] None)) ]
    | _ =>
        let v := match f_ty f with
                 | DInteger TBool =>
                     EIf e (Block [] (Some (ELit 1 (Some (TI U128))))) (Block [] (Some (ELit 0 (Some (TI U128)))))
                 | DCustom => as_ (EIntoBits e) (TI U128)
                 | _ => as_ e (TI U128)
                 end in
        [ SExpr (EBlock (Block
            [ let_ "val_to_set" v;
              SLet true "i" (Some (TI U32)) (lit 0);
              while_ (lt (V "i") (fbits bc f))
                [ let_ "bit_index" (foff bc f +! V "i");
                  let_ "byte_idx" (V "bit_index" /! lit 8);
                  let_ "bit_in_byte" (V "bit_index" %! lit 8);
                  let_ "bit_val" ((V "val_to_set" >>! V "i") &! lit 1);
                  write_bit_stmt (EBin BEq (V "bit_val") (lit 1)) (val bc) (as_ (V "byte_idx") TUsize)
                    (V "bit_in_byte");
                  incr "i" ] ] None)) ]
    end
  else
    match f_ty f with
    | DInteger TBool =>
        [ if_else e
            [ SSet (val bc) ((val bc &! (~! (lit 1 <<! foff bc f))) |! (lit 1 <<! foff bc f)) ]
            [ SOp BAnd (val bc) (~! (lit 1 <<! foff bc f)) ] ]
    | d =>
        [ let_ "mask" (mask_expr bf (fbits bc f));
          let_ "field_bits" (match d with DCustom => as_ (EIntoBits e) (data_ty bf) | _ => e end);
          SSet (val bc) ((val bc &! (~! (V "mask" <<! foff bc f)))
                         |! ((V "field_bits" &! V "mask") <<! foff bc f)) ]
    end.

(** GH:146-160 and 207-221: through the setter when there is one. *)
Definition assign (bf : bitfield) (f : field) (e : expr) : list stmt :=
  if has_setter f then setter_call bf false f e else put bf false f e.
(** GH:183-205 *)
Definition zero_expr (bf : bitfield) (f : field) : expr :=
  match f_ty f with
  | DInteger TBool => EBool false
  | DInteger _ => lit 0
  | DCustom => EFromBits (f_name f) (lit 0)
  | DArray len => if is_integer_backed bf then lit 0 else ERepeat (ELit 0 (Some (TI U8))) len
  end.

Section Defaults.
Variable dx : field -> expr.

(** GH:138-161 and 126-135 *)
Definition default_stmts (bf : bitfield) (f : field) : list stmt := assign bf f (dx f).
Definition defaults (bf : bitfield) : list stmt :=
  flat_map (default_stmts bf) (filter has_default (b_fields bf)).

(** GH:225-285 *)
Definition set_from_var (bf : bitfield) (use_setter cast_bits chk bc : bool) (f : field) : list stmt :=
  let through := has_setter f && use_setter in
  if bc && through then
    (* GH:287-318 *)
    let arg := match f_ty f with
               | DInteger TBool | DCustom | DArray _ => V "bits"
               | DInteger _ => as_any (V "bits")
               end in
    if chk then [ STry (ECall (this true) (role_name RCheckedSetter (f_name f)) arg) ]
    else [ SExpr (ECall (this true) (role_name RSetter (f_name f)) arg) ]
  else
    (if negb through && chk && negb (dt_unsigned (f_ty f)) then signed_check f else []) ++
    extract bf bc false true cast_bits f ++
    (if negb through && chk && dt_unsigned (f_ty f) &&
        negb (match f_ty f with DInteger TBool | DArray _ => true | _ => false end)
     then [ unsigned_check ] else []) ++
    (if through then setter_call bf bc f (value_var f) else put bf bc f (value_var f)).

(** GH:737-756; [sel]: the filter of the protection type. *)
Definition copy_all (bf : bitfield) (sel : field -> bool) : list stmt :=
  flat_map (set_from_var bf true false false false) (filter sel (b_fields bf)).

(** GH:872-915 *)
Definition new_impl (bf : bitfield) (with_defaults : bool) : list stmt :=
  flat_map (fun f => assign bf f (zero_expr bf f))
    (filter (fun f => negb (with_defaults && has_default f)) (b_fields bf)) ++
  (if with_defaults then defaults bf else []) ++
  (if with_defaults then []
   else flat_map (default_stmts bf) (filter (fun f => f_reserved f && has_default f) (b_fields bf))).
Definition new_mut (bf : bitfield) (with_defaults : bool) : bool :=
  negb (match filter (fun f => negb (with_defaults && has_default f)) (b_fields bf) with [] => true | _ => false end)
  || (with_defaults && negb (match filter has_default (b_fields bf) with [] => true | _ => false end)).
Definition new_stmts (bf : bitfield) (with_defaults bc : bool) : list stmt :=
  SLet (new_mut bf with_defaults) "this" None (init bf bc) :: new_impl bf with_defaults.

(** GH:930-946 *)
Definition sign_extend (f : field) : list stmt :=
  match f_ty f with
  | DInteger t =>
      if ity_unsigned t then []
      else [ let_ "shift" (u32 (ity_bits t) -! u32 (f_bits f));
             let_ "value" (as_ (V "value") (TI t));
             let_ "value" ((V "value" <<! V "shift") >>! V "shift") ]
  | _ => []
  end.
(** GH:948-994 *)
Definition protected_mask (bf : bitfield) (prot : field -> bool) : stmt :=
  match b_ty bf with
  | DInteger t =>
      let_ "protected_mask"
        (as_ (ELit (fold_left (fun mask f =>
                      fold_left (fun mask bit => Z.lor mask (2 ^ bit)) (Gen.bit_range (f_off f) (f_bits f)) mask)
                      (filter prot (b_fields bf)) 0) (Some (TI U128))) (TI t))
  | _ =>
      SLet false "protected_mask" (Some (data_ty bf))
        (EArray (Gen.protected_mask_arr bf prot (array_len bf)) (Some U8))
  end.

(** ** Functions *)

Definition method (bf : bitfield) (name : string) (v : recv) (ps : list (string * ty)) (r : ty)
    (b : list stmt) (tail : option expr) : fn :=
  mkFn name (is_const bf) v ps r (Block b tail).
Definition this_self : stmt := let_ "this" (V "self").

(** field_setters_feature.rs:63-85 *)
Definition setter_fn (bf : bitfield) (f : field) : fn :=
  method bf (role_name RSetter (f_name f)) ByMut [("bits", field_ty f)] TUnit
    (this_self :: set_from_var bf false true false false f) None.
Definition checked_setter_fn (bf : bitfield) (f : field) : fn :=
  method bf (role_name RCheckedSetter (f_name f)) ByMut [("bits", field_ty f)] (TRes TUnit)
    (this_self :: set_from_var bf false true true false f) (Some (EOk EUnit)).

(** field_getters_feature.rs:74-115 *)
Definition value_ret (bf : bitfield) (f : field) : expr :=
  match f_ty f with
  | DInteger TBool => EBin BNe (V "value") (lit 0)
  | DInteger _ => as_any (V "value")
  | DCustom => EFromBits (f_name f) (as_any (V "value"))
  | DArray len => if is_integer_backed bf then unpack "__val" (V "value") len else V "value"
  end.
(** field_getters_feature.rs:37-71 *)
Definition getter_fn (bf : bitfield) (f : field) : fn :=
  method bf (role_name RGetter (f_name f)) ByRef [] (field_ty f)
    (this_self :: extract bf false false false false f ++ sign_extend f) (Some (value_ret bf f)).

(** new_functions_feature.rs:53-87 *)
Definition new_fn (bf : bitfield) : fn :=
  method bf "new" NoRecv [] TSelf (new_stmts bf true false) (Some (V "this")).
Definition new_without_defaults_fn (bf : bitfield) : fn :=
  method bf "new_without_defaults" NoRecv [] TSelf (new_stmts bf false false) (Some (V "this")).

(** default_trait_feature.rs:34-66; not [const]. *)
Definition default_fn (bf : bitfield) : fn :=
  if a_new (b_args bf) then
    mkFn "default" false NoRecv [] TSelf (Block [] (Some (ENew PSelf "new")))
  else
    mkFn "default" false NoRecv [] TSelf
      (Block (letmut "this" (init bf false) :: defaults bf) (Some (V "this"))).

(** clear_bit_ops_feature.rs:53-126 *)
Definition clear_all_fn (bf : bitfield) (with_defaults : bool) : fn :=
  method bf ("clear_" ++ bob bf ++ if with_defaults then "_with_defaults" else "") ByMut [] TUnit
    (this_self :: new_impl bf with_defaults) None.
Definition clear_fn (bf : bitfield) (f : field) : fn :=
  method bf (role_name RClear (f_name f)) ByMut [] TUnit
    (this_self :: assign bf f (zero_expr bf f)) None.
Definition clear_default_fn (bf : bitfield) (f : field) : fn :=
  method bf (role_name RClearDefault (f_name f)) ByMut [] TUnit
    (this_self :: default_stmts bf f) None.

(** The xor-swap loop: from_into_bits_feature.rs:219-226, 344-351, 538-545,
    551-558, 617-624, write_bit_ops_feature.rs:160-167.  [zero] is [0] or
    [0usize]. *)
Definition xor_loop (bf : bitfield) (zero : expr) : list stmt :=
  [ letmut "i" zero;
    while_ (lt (V "i") (usz (array_len bf / 2)))
      [ let_ "j" (usz (array_len bf - 1) -! V "i");
        SOp BXor (EIndex (V "bits") (V "i")) (EIndex (V "bits") (V "j"));
        SOp BXor (EIndex (V "bits") (V "j")) (EIndex (V "bits") (V "i"));
        SOp BXor (EIndex (V "bits") (V "i")) (EIndex (V "bits") (V "j"));
        incr "i" ] ].

(** write_bit_ops_feature.rs:143-177 *)
Definition write_convert (bf : bitfield) (e : endian) : list stmt :=
  match e with
  | Little =>
      if is_integer_backed bf then [ let_ "bits" (ESwap (V "bits")) ]
      else letmut "bits" (V "bits") :: xor_loop bf (lit 0)
  | Big => []
  end.
Definition variant_name (v : Gen.variant) : string :=
  match v with Gen.Configured => "" | Gen.AsLe => "le_" | Gen.AsBe => "be_" end.
Definition defaults_name (d : bool) : string := if d then "_with_defaults" else "".
(** write_bit_ops_feature.rs:81-131 *)
Definition write_fn (bf : bitfield) (v : Gen.variant) (d : bool) : fn :=
  method bf ("write_" ++ variant_name v ++ bob bf ++ defaults_name d) ByMut [(bob bf, data_ty bf)] TUnit
    (this_self :: let_ "bits" (V (bob bf)) ::
     write_convert bf (Gen.variant_endian (a_write_endian (b_args bf)) v) ++
     copy_all bf has_setter ++ (if d then defaults bf else [])) None.
(** write_bit_ops_feature.rs:133-137 *)
Definition write_defaults_fn (bf : bitfield) : fn :=
  method bf "write_defaults" ByMut [] TUnit (this_self :: defaults bf) None.

(** [this.0] / [*this.0], copied. *)
Definition load (bf : bitfield) : expr :=
  if is_heap bf then EUn UDeref (val false) else val false.
(** invert_bit_ops_feature.rs:54-107 *)
Definition invert_all_fn (bf : bitfield) : fn :=
  method bf ("invert_" ++ bob bf) ByMut [] TUnit
    (this_self ::
     (if is_integer_backed bf then
        [ let_ "bits" (val false);
          protected_mask bf Gen.no_setter;
          let_ "bits" (((~! V "bits") &! (~! V "protected_mask")) |! (V "bits" &! V "protected_mask")) ]
      else
        [ letmut "bits" (load bf);
          protected_mask bf Gen.no_setter;
          letmut "i" (usz 0);
          while_ (lt (V "i") (usz (array_len bf)))
            [ SSet (EIndex (V "bits") (V "i"))
                (((~! EIndex (V "bits") (V "i")) &! (~! EIndex (V "protected_mask") (V "i")))
                 |! (EIndex (V "bits") (V "i") &! EIndex (V "protected_mask") (V "i")));
              incr "i" ] ]) ++
     copy_all bf (fun _ => true)) None.
(** invert_bit_ops_feature.rs:182-218 *)
Definition value_to_field (bf : bitfield) (f : field) : expr :=
  match f_ty f with
  | DCustom => EFromBits (f_name f) (as_any (V "value"))
  | DInteger TBool => EBin BNe (V "value") (lit 0)
  | DArray len => if is_integer_backed bf then unpack "__val" (V "value") len else V "value"
  | DInteger _ => as_any (V "value")
  end.
(** invert_bit_ops_feature.rs:110-180 *)
Definition invert_fn (bf : bitfield) (f : field) : fn :=
  method bf (role_name RInvert (f_name f)) ByMut [] TUnit
    (this_self :: extract bf false true false false f ++
     [ SExpr (ECall (V "this") (role_name RSetter (f_name f)) (value_to_field bf f)) ]) None.
Definition inverted_fn (bf : bitfield) (f : field) : fn :=
  method bf (role_name RInverted (f_name f)) ByRef [] (field_ty f)
    (this_self :: extract bf false true false false f) (Some (value_to_field bf f)).

(** from_into_bits_feature.rs:58-133 (integer), 191-289 (array) *)
Definition from_convert (bf : bitfield) (v : Gen.variant) : list stmt :=
  let e := Gen.variant_endian (a_from_endian (b_args bf)) v in
  if is_integer_backed bf then
    match v with
    | Gen.Configured =>
        (* 79-80; generating/common/endian_conversion.rs:8-19 *)
        let_ "bits" (V "bits") ::
        match e with Little => [ let_ "bits" (ESwap (V "bits")) ] | Big => [] end
    | Gen.AsLe => [ let_ "bits" (ESwap (V "bits")) ]
    | Gen.AsBe => [ let_ "bits" (V "bits") ]
    end
  else
    match e with
    | Little => [ let_ "bits" (V "bytes") ]
    | Big => letmut "bits" (V "bytes") :: xor_loop bf (lit 0)
    end.
Definition from_tail (bf : bitfield) (d : bool) : list stmt :=
  letmut "this" (init bf false) :: copy_all bf (fun _ => true) ++ (if d then defaults bf else []).
Definition from_fn (bf : bitfield) (v : Gen.variant) (d : bool) : fn :=
  method bf ("from_" ++ variant_name v ++ bob bf ++ defaults_name d) NoRecv [(bob bf, data_ty bf)] TSelf
    (from_convert bf v ++ from_tail bf d) (Some (V "this")).
(** from_into_bits_feature.rs:135-173 (integer), 507-588 (array) *)
Definition into_fn (bf : bitfield) (v : Gen.variant) : fn :=
  let e := Gen.variant_endian (a_into_endian (b_args bf)) v in
  if is_integer_backed bf then
    method bf ("into_" ++ variant_name v ++ bob bf) ByVal [] (data_ty bf)
      (this_self :: let_ "bits" (val false) ::
       match e with Little => [ let_ "bits" (ESwap (V "bits")) ] | Big => [] end) (Some (V "bits"))
  else
    method bf ("into_" ++ variant_name v ++ bob bf) ByRef [] (data_ty bf)
      (this_self :: match e with Little => [] | Big => letmut "bits" (load bf) :: xor_loop bf (lit 0) end)
      (Some (match e with Little => load bf | Big => V "bits" end)).

(** from_into_bits_feature.rs:314-338 *)
Definition zero_bits (bf : bitfield) : stmt :=
  SLet true "bits" (Some (data_ty bf)) (ERepeat (lit 0) (array_len bf)).
Definition copy_len_expr (bf : bitfield) : expr :=
  EIf (lt (ELen (V "slice")) (usz (array_len bf)))
      (Block [] (Some (ELen (V "slice")))) (Block [] (Some (usz (array_len bf)))).
Definition copy_loop (dst src : string) (bound : expr) : list stmt :=
  [ letmut "i" (usz 0);
    while_ (lt (V "i") bound)
      [ SSet (EIndex (V dst) (V "i")) (EIndex (V src) (V "i")); incr "i" ] ].
Definition size_check (bf : bitfield) (m : string) : stmt :=
  if_ (lt (ELen (V "slice")) (usz (array_len bf))) (err m).
Definition slice_convert (bf : bitfield) (e : endian) : list stmt :=
  match e with Little => [] | Big => xor_loop bf (usz 0) end.
(** from_into_bits_feature.rs:361-503 *)
Definition from_slice_fn (bf : bitfield) (v : Gen.variant) (d : bool) : fn :=
  method bf ("from_" ++ variant_name v ++ "slice" ++ defaults_name d) NoRecv
    [("slice", TRef false TSlice)] TSelf
    (zero_bits bf :: let_ "copy_len" (copy_len_expr bf) :: copy_loop "bits" "slice" (V "copy_len") ++
     slice_convert bf (Gen.variant_endian (a_from_endian (b_args bf)) v) ++ from_tail bf d)
    (Some (V "this")).
Definition checked_from_slice_fn (bf : bitfield) (v : Gen.variant) (d : bool) : fn :=
  method bf ("checked_from_" ++ variant_name v ++ "slice" ++ defaults_name d) NoRecv
    [("slice", TRef false TSlice)] (TRes TSelf)
    (size_check bf Gen.msg_fill :: zero_bits bf :: copy_loop "bits" "slice" (usz (array_len bf)) ++
     slice_convert bf (Gen.variant_endian (a_from_endian (b_args bf)) v) ++ from_tail bf d)
    (Some (EOk (V "this"))).
(** from_into_bits_feature.rs:592-719 *)
Definition get_bits_var (bf : bitfield) (e : endian) : list stmt :=
  match e with
  | Little => [ let_ "bits" (load bf) ]
  | Big => letmut "bits" (load bf) :: xor_loop bf (usz 0)
  end.
Definition into_slice_fn (bf : bitfield) (v : Gen.variant) : fn :=
  method bf ("into_" ++ variant_name v ++ "slice") ByRef [("slice", TRef true TSlice)] TUnit
    (this_self :: get_bits_var bf (Gen.variant_endian (a_into_endian (b_args bf)) v) ++
     let_ "copy_len" (copy_len_expr bf) :: copy_loop "slice" "bits" (V "copy_len")) None.
Definition checked_into_slice_fn (bf : bitfield) (v : Gen.variant) : fn :=
  method bf ("checked_into_" ++ variant_name v ++ "slice") ByRef [("slice", TRef true TSlice)] (TRes TUnit)
    (this_self :: size_check bf Gen.msg_hold ::
     get_bits_var bf (Gen.variant_endian (a_into_endian (b_args bf)) v) ++
     copy_loop "slice" "bits" (usz (array_len bf))) (Some (EOk EUnit)).

(** from_traits_feature.rs:103-166 *)
Definition trait_convert (bf : bitfield) (e : endian) (src : expr) (deref : bool) : expr :=
  let load := if deref then EUn UDeref src else src in
  match e with
  | Little => if is_integer_backed bf then ESwap src else load
  | Big =>
      if is_integer_backed bf then src
      else
        let j := (ELen (V "temp_bits") -! lit 1) -! V "i" in
        EBlock (Block
          [ letmut "temp_bits" load;
            letmut "i" (lit 0);
            while_ (lt (V "i") (ELen (V "temp_bits") /! lit 2))
              [ let_ "temp" (EIndex (V "temp_bits") (V "i"));
                SSet (EIndex (V "temp_bits") (V "i")) (EIndex (V "temp_bits") j);
                SSet (EIndex (V "temp_bits") j) (V "temp");
                incr "i" ] ]
          (Some (V "temp_bits")))
  end.
(** from_traits_feature.rs:71-80, in [impl From<Data> for Bitfield] *)
Definition trait_from_fn (bf : bitfield) : fn :=
  mkFn "from" false NoRecv [(bob bf, data_ty bf)] TSelf
    (Block (letmut "this" (init bf false) ::
            let_ "bits" (trait_convert bf (a_from_endian (b_args bf)) (V (bob bf)) false) ::
            copy_all bf (fun _ => true)) (Some (V "this"))).
(** from_traits_feature.rs:91-98, in [impl From<Bitfield> for Data] *)
Definition trait_into_fn (bf : bitfield) : fn :=
  mkFn "from" false NoRecv [("val", TSelf)] (data_ty bf)
    (Block [letmut "this" (V "val")]
       (Some (trait_convert bf (a_into_endian (b_args bf)) (val false) (is_heap bf)))).

(** ** set_get_bit_ops_feature.rs *)

(** 443-451 *)
Definition total_bits (bf : bitfield) : expr :=
  match b_ty bf with DInteger t => EBits t | _ => u32 (array_len bf * 8) end.
(** 438-482 *)
Definition offset_check (bf : bitfield) (r : list stmt) : stmt :=
  if_ (EBin BGe (V "offset") (total_bits bf)) r.
Definition length_check (bf : bitfield) (r : list stmt) : stmt :=
  if_ (EBin BGt (V "offset" +! V "length") (total_bits bf)) r.
(** 484-516 *)
Definition guards (bf : bitfield) (prot : field -> bool) (r : list stmt) : list stmt :=
  map (fun f =>
    match b_ignored bf with
    | [] => if_ (EBin BAll (EBin BGe (V "offset") (u32 (f_off f)))
                           (lt (V "offset") (u32 (f_off f + f_bits f)))) r
    | _ => if_ (EContains (u32 (f_off f)) (u32 (f_off f + f_bits f)) (V "offset")) r
    end) (filter prot (b_fields bf)).
(** 518-567 *)
Definition ret_unit : list stmt := [SReturn None].
Definition ret_false : list stmt := [SReturn (Some (EBool false))].
Definition ret_zero (bf : bitfield) : list stmt :=
  [SReturn (Some (if is_integer_backed bf then lit 0 else ERepeat (lit 0) (array_len bf)))].

Definition offset_p : string * ty := ("offset", TI U32).
Definition length_p : string * ty := ("length", TI U32).
(** 103-107, 118-122, 167-173, 184-190 *)
Definition set_bit_stmts (bf : bitfield) : list stmt :=
  if is_integer_backed bf then
    [ if_else (V "bit")
        [ SSet (val false) ((val false &! (~! (lit 1 <<! V "offset"))) |! (lit 1 <<! V "offset")) ]
        [ SOp BAnd (val false) (~! (lit 1 <<! V "offset")) ] ]
  else
    [ let_ "byte_idx" (V "offset" /! lit 8);
      let_ "bit_in_byte" (V "offset" %! lit 8);
      write_bit_stmt (V "bit") (val false) (as_ (V "byte_idx") TUsize) (V "bit_in_byte") ].
(** 97-125, 161-193 *)
Definition set_bit_fn (bf : bitfield) : fn :=
  method bf "set_bit" ByMut [offset_p; ("bit", TI TBool)] TUnit
    (this_self :: offset_check bf ret_unit :: guards bf Gen.no_setter ret_unit ++ set_bit_stmts bf) None.
Definition checked_set_bit_fn (bf : bitfield) : fn :=
  method bf "checked_set_bit" ByMut [offset_p; ("bit", TI TBool)] (TRes TUnit)
    (this_self :: offset_check bf (err Gen.msg_offset) :: guards bf Gen.no_setter (err Gen.msg_write) ++
     set_bit_stmts bf) (Some (EOk EUnit)).

(** 205-208, 232-235, 385-388, 411-414 *)
Definition bit_lets (name byte bit_in_byte : string) : list stmt :=
  [ let_ name (V "offset" +! V "i");
    let_ byte (as_ (V name /! lit 8) TUsize);
    let_ bit_in_byte (V name %! lit 8) ].
Definition protected_let (byte bit_in_byte : string) : stmt :=
  let_ "is_protected"
    (EBin BNe ((EIndex (V "protected_mask") (V byte) >>! V bit_in_byte) &! lit 1) (lit 0)).
Definition value_bit_let : stmt :=
  let_ "bit_val"
    (EBin BNe ((EIndex (V "value") (as_ (V "i" /! lit 8) TUsize) >>! (V "i" %! lit 8)) &! lit 1) (lit 0)).
(** 409-419, 230-240 *)
Definition protected_loop (name byte bit_in_byte m : string) : list stmt :=
  [ letmut "i" (u32 0);
    while_ (lt (V "i") (V "length"))
      (bit_lets name byte bit_in_byte ++
       [ protected_let byte bit_in_byte; if_ (V "is_protected") (err m); incr "i" ]) ].
(** 129-137, 197-218 *)
Definition set_range_fn (bf : bitfield) : fn :=
  method bf ("set_" ++ bob bf ++ "_range") ByMut [offset_p; length_p; ("value", data_ty bf)] TUnit
    (this_self :: offset_check bf ret_unit :: length_check bf ret_unit ::
     if is_integer_backed bf then
       [ let_ "range_mask" (mask_expr bf (V "length") <<! V "offset");
         protected_mask bf Gen.no_setter;
         let_ "writable_mask" (V "range_mask" &! (~! V "protected_mask"));
         SSet (val false) ((val false &! (~! V "writable_mask"))
                           |! ((V "value" <<! V "offset") &! V "writable_mask")) ]
     else
       [ protected_mask bf Gen.no_setter;
         letmut "i" (u32 0);
         while_ (lt (V "i") (V "length"))
           (value_bit_let :: bit_lets "dst_bit" "dst_byte_idx" "dst_bit_in_byte" ++
            [ protected_let "dst_byte_idx" "dst_bit_in_byte";
              if_ (~! V "is_protected")
                [ write_bit_stmt (V "bit_val") (val false) (V "dst_byte_idx") (V "dst_bit_in_byte") ];
              incr "i" ]) ]) None.
(** 144-156, 225-255 *)
Definition checked_set_range_fn (bf : bitfield) : fn :=
  method bf ("checked_set_" ++ bob bf ++ "_range") ByMut [offset_p; length_p; ("value", data_ty bf)]
    (TRes TUnit)
    (this_self :: offset_check bf (err Gen.msg_offset) :: length_check bf (err Gen.msg_length) ::
     if is_integer_backed bf then
       [ let_ "mask" (mask_expr bf (V "length"));
         protected_mask bf Gen.no_setter;
         let_ "range_mask" (V "mask" <<! V "offset");
         if_ (EBin BNe (V "range_mask" &! V "protected_mask") (lit 0)) (err Gen.msg_write);
         SSet (val false) ((val false &! (~! (V "mask" <<! V "offset")))
                           |! ((V "value" &! V "mask") <<! V "offset")) ]
     else
       protected_mask bf Gen.no_setter ::
       protected_loop "dst_bit" "dst_byte_idx" "dst_bit_in_byte" Gen.msg_write ++
       [ letmut "i" (u32 0);
         while_ (lt (V "i") (V "length"))
           (value_bit_let :: bit_lets "dst_bit" "dst_byte_idx" "dst_bit_in_byte" ++
            [ write_bit_stmt (V "bit_val") (val false) (V "dst_byte_idx") (V "dst_bit_in_byte");
              incr "i" ]) ]) (Some (EOk EUnit)).

(** 308-322, 356-374 *)
Definition get_bit_stmts (bf : bitfield) : list stmt :=
  if is_integer_backed bf then []
  else [ let_ "byte_idx" (V "offset" /! lit 8); let_ "bit_in_byte" (V "offset" %! lit 8) ].
Definition get_bit_expr (bf : bitfield) : expr :=
  EBin BNe
    ((if is_integer_backed bf then val false >>! V "offset"
      else EIndex (val false) (as_ (V "byte_idx") TUsize) >>! V "bit_in_byte") &! lit 1) (lit 0).
Definition get_bit_fn (bf : bitfield) : fn :=
  method bf "get_bit" ByRef [offset_p] (TI TBool)
    (this_self :: offset_check bf ret_false :: guards bf Gen.no_read ret_false ++ get_bit_stmts bf)
    (Some (get_bit_expr bf)).
Definition checked_get_bit_fn (bf : bitfield) : fn :=
  method bf "checked_get_bit" ByRef [offset_p] (TRes (TI TBool))
    (this_self :: offset_check bf (err Gen.msg_offset) :: guards bf Gen.no_read (err Gen.msg_read) ++
     get_bit_stmts bf) (Some (EOk (get_bit_expr bf))).

(** 390-393, 426-429 *)
Definition read_bit_stmts : list stmt :=
  [ let_ "bit_val" ((EIndex (val false) (V "src_byte") >>! V "src_bit_in_byte") &! lit 1);
    let_ "dst_byte" (as_ (V "i" /! lit 8) TUsize);
    let_ "dst_bit_in_byte" (V "i" %! lit 8);
    SOp BOr (EIndex (V "res") (V "dst_byte")) (V "bit_val" <<! V "dst_bit_in_byte") ].
Definition zero_res (bf : bitfield) : stmt :=
  SLet true "res" (Some (data_ty bf)) (ERepeat (lit 0) (array_len bf)).
(** 325-334, 377-398 *)
Definition get_range_fn (bf : bitfield) : fn :=
  method bf ("get_" ++ bob bf ++ "_range") ByRef [offset_p; length_p] (data_ty bf)
    (this_self :: offset_check bf (ret_zero bf) :: length_check bf (ret_zero bf) ::
     if is_integer_backed bf then
       [ let_ "mask" (mask_expr bf (V "length"));
         protected_mask bf Gen.no_read;
         let_ "shifted_protected_mask" ((V "protected_mask" >>! V "offset") &! V "mask");
         let_ "readable_mask" (V "mask" &! (~! V "shifted_protected_mask")) ]
     else
       [ protected_mask bf Gen.no_read;
         zero_res bf;
         letmut "i" (u32 0);
         while_ (lt (V "i") (V "length"))
           (bit_lets "src_bit" "src_byte" "src_bit_in_byte" ++
            [ protected_let "src_byte" "src_bit_in_byte";
              if_ (~! V "is_protected") read_bit_stmts;
              incr "i" ]) ])
    (Some (if is_integer_backed bf
           then ((val false >>! V "offset") &! V "mask") &! V "readable_mask" else V "res")).
(** 340-351, 404-433 *)
Definition checked_get_range_fn (bf : bitfield) : fn :=
  method bf ("checked_get_" ++ bob bf ++ "_range") ByRef [offset_p; length_p] (TRes (data_ty bf))
    (this_self :: offset_check bf (err Gen.msg_offset) :: length_check bf (err Gen.msg_length) ::
     if is_integer_backed bf then
       [ let_ "mask" (mask_expr bf (V "length"));
         protected_mask bf Gen.no_read;
         let_ "range_mask" (V "mask" <<! V "offset");
         if_ (EBin BNe (V "range_mask" &! V "protected_mask") (lit 0)) (err Gen.msg_read) ]
     else
       protected_mask bf Gen.no_read ::
       protected_loop "src_bit" "src_byte" "src_bit_in_byte" Gen.msg_read ++
       [ zero_res bf;
         letmut "i" (u32 0);
         while_ (lt (V "i") (V "length"))
           (bit_lets "src_bit" "src_byte" "src_bit_in_byte" ++ read_bit_stmts ++ [ incr "i" ]) ])
    (Some (EOk (if is_integer_backed bf then (val false >>! V "offset") &! V "mask" else V "res"))).

(** ** Builder: builder_feature.rs *)

(** 92-126 *)
Definition builder_new_fn (bf : bitfield) (d : bool) : fn :=
  let name := if d then "new" else "new_without_defaults" in
  if a_new (b_args bf) then
    method bf name NoRecv [] TBuilder [] (Some (EBuilder (ENew PName name)))
  else
    method bf name NoRecv [] TBuilder (new_stmts bf d true) (Some (EBuilder (V "this"))).
(** 139-180 *)
Definition with_fn (bf : bitfield) (f : field) : fn :=
  method bf (role_name RWith (f_name f)) ByMutVal [("bits", field_ty f)] TBuilder
    (set_from_var bf true true false true f) (Some (V "self")).
Definition checked_with_fn (bf : bitfield) (f : field) : fn :=
  method bf (role_name RCheckedWith (f_name f)) ByMutVal [("bits", field_ty f)] (TRes TBuilder)
    (set_from_var bf true true true true f) (Some (EOk (V "self"))).
(** 84-87 *)
Definition build_fn (bf : bitfield) : fn :=
  method bf "build" ByVal [] TSelf [] (Some (EThis (V "self"))).

(** debug_trait_feature.rs:36-72 *)
Definition debug_fn (bf : bitfield) : fn :=
  mkFn "fmt" false ByRef [] TFmt
    (Block (this_self :: letmut "debug" (EDebug (b_name bf)) ::
            flat_map (fun f => (extract bf false false false false f ++ [ SField "debug" (f_name f) (V "value") ])%list)
              (b_fields bf))
       (Some (EFinish (V "debug")))).

(** ** The [impl] block: bitfield_generator.rs:34-103 (order of the features as in
    Surface.impl_items). *)

(** field_constants_feature.rs:44-69 *)
Definition consts (bf : bitfield) : list (string * Z) :=
  flat_map (fun f => [ (role_name RWidth (f_name f), f_bits f); (role_name ROffset (f_name f), f_off f) ])
    (filter has_constants (b_fields bf)).
Definition variants : list Gen.variant := [Gen.Configured; Gen.AsLe; Gen.AsBe].
Definition opt (b : bool) (l : list fn) : list fn := if b then l else [].
Definition conversions (bf : bitfield) : list fn :=
  flat_map (fun v => [from_fn bf v false; from_fn bf v true]) variants ++
  (if is_integer_backed bf then []
   else flat_map (fun v => [from_slice_fn bf v false; from_slice_fn bf v true;
                            checked_from_slice_fn bf v false; checked_from_slice_fn bf v true]) variants) ++
  map (into_fn bf) variants ++
  (if is_integer_backed bf then []
   else flat_map (fun v => [into_slice_fn bf v; checked_into_slice_fn bf v]) variants).
Definition impl_fns (bf : bitfield) : list fn :=
  let a := b_args bf in
  let fs := b_fields bf in
  opt (a_new a) [new_fn bf; new_without_defaults_fn bf] ++
  opt (a_from_into_bits a) (conversions bf) ++
  map (getter_fn bf) (filter has_getter fs) ++
  flat_map (fun f => [setter_fn bf f; checked_setter_fn bf f]) (filter has_setter fs) ++
  opt (write_on bf)
    (flat_map (fun v => [write_fn bf v false; write_fn bf v true]) variants ++ [write_defaults_fn bf]) ++
  opt (set_get_on bf)
    [set_bit_fn bf; checked_set_bit_fn bf; set_range_fn bf; checked_set_range_fn bf;
     get_bit_fn bf; checked_get_bit_fn bf; get_range_fn bf; checked_get_range_fn bf] ++
  opt (clear_on bf)
    (clear_all_fn bf false :: clear_all_fn bf true ::
     map (clear_fn bf) (filter has_setter fs) ++
     map (clear_default_fn bf) (filter (fun f => has_setter f && has_default f) fs)) ++
  opt (invert_on bf)
    (invert_all_fn bf :: map (invert_fn bf) (filter has_setter fs) ++ map (inverted_fn bf) (filter has_getter fs)).
Definition emitted (bf : bitfield) : program :=
  {| p_back := store_ty bf;
     p_consts := consts bf;
     p_fns := impl_fns bf;
     p_codecs := map (fun f => (f_name f, f_codec f))
                   (filter (fun f => match f_ty f with DCustom => true | _ => false end) (b_fields bf)) |}.

(** The other [impl] blocks: in trait implementations for the bitfield [Self] is
    the bitfield; in the builder, and in [impl From<Bitfield> for Data], it is
    not. *)
Definition trait_fns (bf : bitfield) : list (bool * fn) :=
  (if a_from_traits (b_args bf) then [(true, trait_from_fn bf); (false, trait_into_fn bf)] else []) ++
  (if a_default (b_args bf) then [(true, default_fn bf)] else []) ++
  (if a_debug (b_args bf) then [(true, debug_fn bf)] else []).
Definition builder_fns (bf : bitfield) : list fn :=
  if a_builder (b_args bf) then
    [builder_new_fn bf true; builder_new_fn bf false] ++
    flat_map (fun f => [with_fn bf f; checked_with_fn bf f]) (filter (fun f => negb (f_reserved f)) (b_fields bf)) ++
    [build_fn bf]
  else [].
End Defaults.
