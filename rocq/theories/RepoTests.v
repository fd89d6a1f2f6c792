(** The tests of the repository, run on the model: generated by
    tools/repo_tests.py from /repo/bitfields/tests.  The comment before each
    example is file and line.  These are tests of the transcription, not proofs of
    claims. *)
From Coq Require Import ZArith List Bool String.
From Verif Require Import RustInt Syntax Rust Emit TestRun.
From Verif Require Parser Bitflag ConstExpr.
Import ListNotations.
Open Scope string_scope.
Open Scope list_scope.
Open Scope Z_scope.

Definition id_codec : codec := mkCodec U8 (fun z => z) U8 (fun z => z).
Definition is_ok {E A : Type} (x : ConstExpr.pres E A) : bool := match x with ConstExpr.POk _ => true | _ => false end.
Definition is_passed (r : result) : bool := match r with Passed => true | _ => false end.
Definition is_ill_typed (r : result) : bool := match r with IllTyped _ => true | _ => false end.
Definition is_panic (r : result) : bool := match r with Panicked _ => true | _ => false end.

(* lib_tests.rs:7 *)
Example bitfield_arguments : is_passed (run_test
  [(mkUnit "Bitfield" (Parser.mkRDecl true VisPrivate "Bitfield" (Some (Parser.RPath "u8")) [("order", "lsb"); ("from_endian", "little"); ("into_endian", "little"); ("write_endian", "little"); ("new", "true"); ("from_into_bits", "true"); ("from_traits", "true"); ("default", "true"); ("debug", "true"); ("copy", "true"); ("bit_ops", "true"); ("write_bit_ops", "true"); ("clear_bit_ops", "true"); ("set_get_bit_ops", "true"); ("invert_bit_ops", "true"); ("toggle_bit_ops", "true"); ("builder", "true")]
     [Parser.mkRField "a" VisPrivate Parser.ANone (Parser.RPath "u8") (PInt 0) id_codec]) [])]
  [SDo (TStat "Bitfield" "new" []);
   SDo (TBuild "Bitfield" "build" [(TBuild "Bitfield" "new" [])])]) = true.
Proof. vm_compute. reflexivity. Qed.

(* lib_tests.rs:37 *)
Example bitfield_arguments_disabled : is_passed (run_test
  [(mkUnit "Bitfield" (Parser.mkRDecl true VisPrivate "Bitfield" (Some (Parser.RPath "u8")) [("order", "lsb"); ("from_endian", "little"); ("into_endian", "little"); ("write_endian", "little"); ("new", "true"); ("from_into_bits", "false"); ("from_traits", "false"); ("default", "false"); ("debug", "false"); ("copy", "false"); ("bit_ops", "false"); ("write_bit_ops", "false"); ("clear_bit_ops", "false"); ("set_get_bit_ops", "false"); ("invert_bit_ops", "false"); ("toggle_bit_ops", "false"); ("builder", "false")]
     [Parser.mkRField "a" VisPrivate Parser.ANone (Parser.RPath "u8") (PInt 0) id_codec]) [])]
  [SDo (TStat "Bitfield" "new" [])]) = true.
Proof. vm_compute. reflexivity. Qed.

(* lib_tests.rs:66 *)
Example bitfield_u8 : is_passed (run_test
  [(mkUnit "Bitfield" (Parser.mkRDecl true VisPublic "Bitfield" (Some (Parser.RPath "u8")) []
     [Parser.mkRField "a" VisPrivate Parser.ANone (Parser.RPath "u8") (PInt 0) id_codec]) [])]
  []) = true.
Proof. vm_compute. reflexivity. Qed.

(* lib_tests.rs:74 *)
Example bitfield_u16 : is_passed (run_test
  [(mkUnit "Bitfield" (Parser.mkRDecl true VisPublic "Bitfield" (Some (Parser.RPath "u16")) []
     [Parser.mkRField "a" VisPrivate Parser.ANone (Parser.RPath "u16") (PInt 0) id_codec]) [])]
  []) = true.
Proof. vm_compute. reflexivity. Qed.

(* lib_tests.rs:82 *)
Example bitfield_u32 : is_passed (run_test
  [(mkUnit "Bitfield" (Parser.mkRDecl true VisPublic "Bitfield" (Some (Parser.RPath "u32")) []
     [Parser.mkRField "a" VisPrivate Parser.ANone (Parser.RPath "u32") (PInt 0) id_codec]) [])]
  []) = true.
Proof. vm_compute. reflexivity. Qed.

(* lib_tests.rs:90 *)
Example bitfield_u64 : is_passed (run_test
  [(mkUnit "Bitfield" (Parser.mkRDecl true VisPublic "Bitfield" (Some (Parser.RPath "u64")) []
     [Parser.mkRField "a" VisPrivate Parser.ANone (Parser.RPath "u64") (PInt 0) id_codec]) [])]
  []) = true.
Proof. vm_compute. reflexivity. Qed.

(* lib_tests.rs:98 *)
Example bitfield_u128 : is_passed (run_test
  [(mkUnit "Bitfield" (Parser.mkRDecl true VisPublic "Bitfield" (Some (Parser.RPath "u128")) []
     [Parser.mkRField "a" VisPrivate Parser.ANone (Parser.RPath "u128") (PInt 0) id_codec]) [])]
  []) = true.
Proof. vm_compute. reflexivity. Qed.

(* lib_tests.rs:106 *)
Example bitfield_i8 : is_passed (run_test
  [(mkUnit "Bitfield" (Parser.mkRDecl true VisPublic "Bitfield" (Some (Parser.RPath "u8")) []
     [Parser.mkRField "a" VisPrivate Parser.ANone (Parser.RPath "i8") (PInt 0) id_codec]) [])]
  []) = true.
Proof. vm_compute. reflexivity. Qed.

(* lib_tests.rs:114 *)
Example bitfield_i8_default_value : is_passed (run_test
  [(mkUnit "Bitfield" (Parser.mkRDecl true VisPublic "Bitfield" (Some (Parser.RPath "u8")) []
     [Parser.mkRField "a" VisPrivate (Parser.AList Parser.RNoBits [("default", "-1")]) (Parser.RPath "i8") (PInt 0) id_codec]) [("a", (EUn UNeg (ELit 1 None)))])]
  [SLetT "bitfield" (TStat "Bitfield" "new" []);
   SAssert (TEq (TMeth "Bitfield" (TVar "bitfield") "a" []) (TV (RI (-1))))]) = true.
Proof. vm_compute. reflexivity. Qed.

(* lib_tests.rs:127 *)
Example bitfield_i8_default_value_binary : is_passed (run_test
  [(mkUnit "Bitfield" (Parser.mkRDecl true VisPublic "Bitfield" (Some (Parser.RPath "u8")) []
     [Parser.mkRField "a" VisPrivate (Parser.AList Parser.RNoBits [("default", "-0b101")]) (Parser.RPath "i8") (PInt 0) id_codec]) [("a", (EUn UNeg (ELit 5 None)))])]
  [SLetT "bitfield" (TStat "Bitfield" "new" []);
   SAssert (TEq (TMeth "Bitfield" (TVar "bitfield") "a" []) (TV (RI (-5))))]) = true.
Proof. vm_compute. reflexivity. Qed.

(* lib_tests.rs:140 *)
Example bitfield_i8_default_value_hex : is_passed (run_test
  [(mkUnit "Bitfield" (Parser.mkRDecl true VisPublic "Bitfield" (Some (Parser.RPath "u8")) []
     [Parser.mkRField "a" VisPrivate (Parser.AList Parser.RNoBits [("default", "-0x5")]) (Parser.RPath "i8") (PInt 0) id_codec]) [("a", (EUn UNeg (ELit 5 None)))])]
  [SLetT "bitfield" (TStat "Bitfield" "new" []);
   SAssert (TEq (TMeth "Bitfield" (TVar "bitfield") "a" []) (TV (RI (-5))))]) = true.
Proof. vm_compute. reflexivity. Qed.

(* lib_tests.rs:153 *)
Example bitfield_i8_default_value_octal : is_passed (run_test
  [(mkUnit "Bitfield" (Parser.mkRDecl true VisPublic "Bitfield" (Some (Parser.RPath "u8")) []
     [Parser.mkRField "a" VisPrivate (Parser.AList Parser.RNoBits [("default", "-0o5")]) (Parser.RPath "i8") (PInt 0) id_codec]) [("a", (EUn UNeg (ELit 5 None)))])]
  [SLetT "bitfield" (TStat "Bitfield" "new" []);
   SAssert (TEq (TMeth "Bitfield" (TVar "bitfield") "a" []) (TV (RI (-5))))]) = true.
Proof. vm_compute. reflexivity. Qed.

(* lib_tests.rs:166 *)
Example bitfield_field_type_bits_sum_to_type_size : is_passed (run_test
  [(mkUnit "Bitfield" (Parser.mkRDecl true VisPublic "Bitfield" (Some (Parser.RPath "u32")) []
     [Parser.mkRField "a" VisPrivate Parser.ANone (Parser.RPath "u8") (PInt 0) id_codec;
      Parser.mkRField "b" VisPrivate Parser.ANone (Parser.RPath "u8") (PInt 0) id_codec;
      Parser.mkRField "c" VisPrivate Parser.ANone (Parser.RPath "u8") (PInt 0) id_codec;
      Parser.mkRField "d" VisPrivate Parser.ANone (Parser.RPath "u8") (PInt 0) id_codec]) [])]
  []) = true.
Proof. vm_compute. reflexivity. Qed.

(* lib_tests.rs:177 *)
Example bitfield_field_defined_bits_sum_to_type_size : is_passed (run_test
  [(mkUnit "Bitfield" (Parser.mkRDecl true VisPublic "Bitfield" (Some (Parser.RPath "u32")) []
     [Parser.mkRField "a" VisPrivate Parser.ANone (Parser.RPath "u8") (PInt 0) id_codec;
      Parser.mkRField "b" VisPrivate (Parser.AList (Parser.RBits 7 "") []) (Parser.RPath "u8") (PInt 0) id_codec;
      Parser.mkRField "c" VisPrivate (Parser.AList (Parser.RBits 5 "") []) (Parser.RPath "u8") (PInt 0) id_codec;
      Parser.mkRField "d" VisPrivate (Parser.AList (Parser.RBits 12 "") []) (Parser.RPath "u16") (PInt 0) id_codec]) [])]
  []) = true.
Proof. vm_compute. reflexivity. Qed.

(* lib_tests.rs:191 *)
Example bitfield_fields_default_value : is_passed (run_test
  [(mkUnit "Bitfield" (Parser.mkRDecl true VisPublic "Bitfield" (Some (Parser.RPath "u32")) []
     [Parser.mkRField "a" VisPrivate (Parser.AList Parser.RNoBits [("default", "0")]) (Parser.RPath "u8") (PInt 0) id_codec;
      Parser.mkRField "b" VisPrivate (Parser.AList Parser.RNoBits [("default", "1")]) (Parser.RPath "u8") (PInt 0) id_codec;
      Parser.mkRField "c" VisPrivate (Parser.AList Parser.RNoBits [("default", "2")]) (Parser.RPath "u8") (PInt 0) id_codec;
      Parser.mkRField "d" VisPrivate (Parser.AList Parser.RNoBits [("default", "3")]) (Parser.RPath "u8") (PInt 0) id_codec]) [("a", (ELit 0 None)); ("b", (ELit 1 None)); ("c", (ELit 2 None)); ("d", (ELit 3 None))])]
  [SLetT "bitfield" (TStat "Bitfield" "new" []);
   SAssert (TEq (TMeth "Bitfield" (TVar "bitfield") "a" []) (TV (RI 0)));
   SAssert (TEq (TMeth "Bitfield" (TVar "bitfield") "b" []) (TV (RI 1)));
   SAssert (TEq (TMeth "Bitfield" (TVar "bitfield") "c" []) (TV (RI 2)));
   SAssert (TEq (TMeth "Bitfield" (TVar "bitfield") "d" []) (TV (RI 3)))]) = true.
Proof. vm_compute. reflexivity. Qed.

(* lib_tests.rs:212 *)
Example bitfield_field_const_path_default_value : is_passed (run_test
  [(mkUnit "Bitfield" (Parser.mkRDecl true VisPublic "Bitfield" (Some (Parser.RPath "u16")) []
     [Parser.mkRField "a" VisPrivate (Parser.AList Parser.RNoBits [("default", "MY_DEFAULT_A")]) (Parser.RPath "u8") (PInt 0) id_codec;
      Parser.mkRField "b" VisPrivate (Parser.AList Parser.RNoBits [("default", "MY_DEFAULT_B")]) (Parser.RPath "u8") (PInt 0) id_codec]) [("a", (EUser (TI U8) (RI 7))); ("b", (EUser (TI U8) (RI 42)))])]
  [SLetT "bitfield" (TStat "Bitfield" "new" []);
   SAssert (TEq (TMeth "Bitfield" (TVar "bitfield") "a" []) (TV (RI 7)));
   SAssert (TEq (TMeth "Bitfield" (TVar "bitfield") "b" []) (TV (RI 42)))]) = true.
Proof. vm_compute. reflexivity. Qed.

(* lib_tests.rs:230 *)
Example bitfield_fields_integer_identifiers_default_value : is_passed (run_test
  [(mkUnit "Bitfield" (Parser.mkRDecl true VisPublic "Bitfield" (Some (Parser.RPath "u64")) []
     [Parser.mkRField "a" VisPrivate (Parser.AList (Parser.RBits 5 "") [("default", "10u8")]) (Parser.RPath "u8") (PInt 0) id_codec;
      Parser.mkRField "b" VisPrivate (Parser.AList (Parser.RBits 5 "") [("default", "20u16")]) (Parser.RPath "u16") (PInt 0) id_codec;
      Parser.mkRField "c" VisPrivate (Parser.AList (Parser.RBits 5 "") [("default", "30u32")]) (Parser.RPath "u32") (PInt 0) id_codec;
      Parser.mkRField "d" VisPrivate (Parser.AList (Parser.RBits 6 "") [("default", "40u64")]) (Parser.RPath "u64") (PInt 0) id_codec;
      Parser.mkRField "e" VisPrivate (Parser.AList (Parser.RBits 6 "") [("default", "50u128")]) (Parser.RPath "u128") (PInt 0) id_codec;
      Parser.mkRField "f" VisPrivate (Parser.AList (Parser.RBits 5 "") [("default", "10i8")]) (Parser.RPath "i8") (PInt 0) id_codec;
      Parser.mkRField "g" VisPrivate (Parser.AList (Parser.RBits 8 "") [("default", "20i16")]) (Parser.RPath "i16") (PInt 0) id_codec;
      Parser.mkRField "h" VisPrivate (Parser.AList (Parser.RBits 8 "") [("default", "30i32")]) (Parser.RPath "i32") (PInt 0) id_codec;
      Parser.mkRField "i" VisPrivate (Parser.AList (Parser.RBits 8 "") [("default", "40i64")]) (Parser.RPath "i64") (PInt 0) id_codec;
      Parser.mkRField "j" VisPrivate (Parser.AList (Parser.RBits 8 "") [("default", "50i128")]) (Parser.RPath "i128") (PInt 0) id_codec]) [("a", (ELit 10 (Some (TI U8)))); ("b", (ELit 20 (Some (TI U16)))); ("c", (ELit 30 (Some (TI U32)))); ("d", (ELit 40 (Some (TI U64)))); ("e", (ELit 50 (Some (TI U128)))); ("f", (ELit 10 (Some (TI I8)))); ("g", (ELit 20 (Some (TI I16)))); ("h", (ELit 30 (Some (TI I32)))); ("i", (ELit 40 (Some (TI I64)))); ("j", (ELit 50 (Some (TI I128))))])]
  [SLetT "bitfield" (TStat "Bitfield" "new" []);
   SAssert (TEq (TMeth "Bitfield" (TVar "bitfield") "a" []) (TV (RI 10)));
   SAssert (TEq (TMeth "Bitfield" (TVar "bitfield") "b" []) (TV (RI 20)));
   SAssert (TEq (TMeth "Bitfield" (TVar "bitfield") "c" []) (TV (RI 30)));
   SAssert (TEq (TMeth "Bitfield" (TVar "bitfield") "d" []) (TV (RI 40)));
   SAssert (TEq (TMeth "Bitfield" (TVar "bitfield") "e" []) (TV (RI 50)));
   SAssert (TEq (TMeth "Bitfield" (TVar "bitfield") "f" []) (TV (RI 10)));
   SAssert (TEq (TMeth "Bitfield" (TVar "bitfield") "g" []) (TV (RI 20)));
   SAssert (TEq (TMeth "Bitfield" (TVar "bitfield") "h" []) (TV (RI 30)));
   SAssert (TEq (TMeth "Bitfield" (TVar "bitfield") "i" []) (TV (RI 40)));
   SAssert (TEq (TMeth "Bitfield" (TVar "bitfield") "j" []) (TV (RI 50)))]) = true.
Proof. vm_compute. reflexivity. Qed.

(* lib_tests.rs:269 *)
Example bitfield_field_boolean_default_value : is_passed (run_test
  [(mkUnit "Bitfield" (Parser.mkRDecl true VisPublic "Bitfield" (Some (Parser.RPath "u8")) []
     [Parser.mkRField "a" VisPrivate (Parser.AList Parser.RNoBits [("default", "true")]) (Parser.RPath "bool") (PInt 0) id_codec;
      Parser.mkRField "b" VisPrivate (Parser.AList Parser.RNoBits [("default", "false")]) (Parser.RPath "bool") (PInt 0) id_codec;
      Parser.mkRField "c" VisPrivate (Parser.AList Parser.RNoBits [("default", "true")]) (Parser.RPath "bool") (PInt 0) id_codec;
      Parser.mkRField "d" VisPrivate (Parser.AList Parser.RNoBits [("default", "false")]) (Parser.RPath "bool") (PInt 0) id_codec;
      Parser.mkRField "e" VisPrivate (Parser.AList Parser.RNoBits [("default", "true")]) (Parser.RPath "bool") (PInt 0) id_codec;
      Parser.mkRField "f" VisPrivate (Parser.AList Parser.RNoBits [("default", "false")]) (Parser.RPath "bool") (PInt 0) id_codec;
      Parser.mkRField "g" VisPrivate (Parser.AList Parser.RNoBits [("default", "true")]) (Parser.RPath "bool") (PInt 0) id_codec;
      Parser.mkRField "h" VisPrivate (Parser.AList Parser.RNoBits [("default", "false")]) (Parser.RPath "bool") (PInt 0) id_codec]) [("a", (EBool true)); ("b", (EBool false)); ("c", (EBool true)); ("d", (EBool false)); ("e", (EBool true)); ("f", (EBool false)); ("g", (EBool true)); ("h", (EBool false))])]
  [SLetT "bitfield" (TStat "Bitfield" "new" []);
   SAssert (TMeth "Bitfield" (TVar "bitfield") "a" []);
   SAssert (TNot (TMeth "Bitfield" (TVar "bitfield") "b" []));
   SAssert (TMeth "Bitfield" (TVar "bitfield") "c" []);
   SAssert (TNot (TMeth "Bitfield" (TVar "bitfield") "d" []));
   SAssert (TMeth "Bitfield" (TVar "bitfield") "e" []);
   SAssert (TNot (TMeth "Bitfield" (TVar "bitfield") "f" []));
   SAssert (TMeth "Bitfield" (TVar "bitfield") "g" []);
   SAssert (TNot (TMeth "Bitfield" (TVar "bitfield") "h" []))]) = true.
Proof. vm_compute. reflexivity. Qed.

(* lib_tests.rs:302 *)
Example bitfield_field_hex_default_value : is_passed (run_test
  [(mkUnit "Bitfield" (Parser.mkRDecl true VisPublic "Bitfield" (Some (Parser.RPath "u64")) []
     [Parser.mkRField "a" VisPrivate (Parser.AList (Parser.RBits 5 "") [("default", "0x1")]) (Parser.RPath "u8") (PInt 0) id_codec;
      Parser.mkRField "b" VisPrivate (Parser.AList (Parser.RBits 5 "") [("default", "0x2")]) (Parser.RPath "u16") (PInt 0) id_codec;
      Parser.mkRField "c" VisPrivate (Parser.AList (Parser.RBits 5 "") [("default", "0x3")]) (Parser.RPath "u32") (PInt 0) id_codec;
      Parser.mkRField "d" VisPrivate (Parser.AList (Parser.RBits 6 "") [("default", "0x4")]) (Parser.RPath "u64") (PInt 0) id_codec;
      Parser.mkRField "e" VisPrivate (Parser.AList (Parser.RBits 6 "") [("default", "0x5")]) (Parser.RPath "u128") (PInt 0) id_codec;
      Parser.mkRField "f" VisPrivate (Parser.AList (Parser.RBits 5 "") [("default", "0x10")]) (Parser.RPath "i8") (PInt 0) id_codec;
      Parser.mkRField "g" VisPrivate (Parser.AList (Parser.RBits 8 "") [("default", "0xF_F")]) (Parser.RPath "i16") (PInt 0) id_codec;
      Parser.mkRField "h" VisPrivate (Parser.AList (Parser.RBits 8 "") [("default", "0x23")]) (Parser.RPath "i32") (PInt 0) id_codec;
      Parser.mkRField "i" VisPrivate (Parser.AList (Parser.RBits 8 "") [("default", "0x7_F")]) (Parser.RPath "i64") (PInt 0) id_codec;
      Parser.mkRField "j" VisPrivate (Parser.AList (Parser.RBits 8 "") [("default", "0x3F")]) (Parser.RPath "i128") (PInt 0) id_codec]) [("a", (ELit 1 None)); ("b", (ELit 2 None)); ("c", (ELit 3 None)); ("d", (ELit 4 None)); ("e", (ELit 5 None)); ("f", (ELit 16 None)); ("g", (ELit 255 None)); ("h", (ELit 35 None)); ("i", (ELit 127 None)); ("j", (ELit 63 None))])]
  [SLetT "bitfield" (TStat "Bitfield" "new" []);
   SAssert (TEq (TMeth "Bitfield" (TVar "bitfield") "a" []) (TV (RI 1)));
   SAssert (TEq (TMeth "Bitfield" (TVar "bitfield") "b" []) (TV (RI 2)));
   SAssert (TEq (TMeth "Bitfield" (TVar "bitfield") "c" []) (TV (RI 3)));
   SAssert (TEq (TMeth "Bitfield" (TVar "bitfield") "d" []) (TV (RI 4)));
   SAssert (TEq (TMeth "Bitfield" (TVar "bitfield") "e" []) (TV (RI 5)));
   SAssert (TEq (TMeth "Bitfield" (TVar "bitfield") "f" []) (TV (RI (-16))));
   SAssert (TEq (TMeth "Bitfield" (TVar "bitfield") "g" []) (TV (RI (-1))));
   SAssert (TEq (TMeth "Bitfield" (TVar "bitfield") "h" []) (TV (RI 35)));
   SAssert (TEq (TMeth "Bitfield" (TVar "bitfield") "i" []) (TV (RI 127)));
   SAssert (TEq (TMeth "Bitfield" (TVar "bitfield") "j" []) (TV (RI 63)))]) = true.
Proof. vm_compute. reflexivity. Qed.

(* lib_tests.rs:341 *)
Example bitfield_field_hex_has_float_identifier_default_value : is_passed (run_test
  [(mkUnit "Bitfield" (Parser.mkRDecl true VisPublic "Bitfield" (Some (Parser.RPath "u64")) []
     [Parser.mkRField "a" VisPrivate (Parser.AList Parser.RNoBits [("default", "0xF32")]) (Parser.RPath "u32") (PInt 0) id_codec;
      Parser.mkRField "b" VisPrivate (Parser.AList Parser.RNoBits [("default", "0xF64")]) (Parser.RPath "u32") (PInt 0) id_codec]) [("a", (ELit 3890 None)); ("b", (ELit 3940 None))])]
  [SLetT "bitfield" (TStat "Bitfield" "new" []);
   SAssert (TEq (TMeth "Bitfield" (TVar "bitfield") "a" []) (TV (RI 3890)));
   SAssert (TEq (TMeth "Bitfield" (TVar "bitfield") "b" []) (TV (RI 3940)))]) = true.
Proof. vm_compute. reflexivity. Qed.

(* lib_tests.rs:356 *)
Example bitfield_field_octal_default_value : is_passed (run_test
  [(mkUnit "Bitfield" (Parser.mkRDecl true VisPublic "Bitfield" (Some (Parser.RPath "u64")) []
     [Parser.mkRField "a" VisPrivate (Parser.AList (Parser.RBits 5 "") [("default", "0o1")]) (Parser.RPath "u8") (PInt 0) id_codec;
      Parser.mkRField "b" VisPrivate (Parser.AList (Parser.RBits 5 "") [("default", "0o2")]) (Parser.RPath "u16") (PInt 0) id_codec;
      Parser.mkRField "c" VisPrivate (Parser.AList (Parser.RBits 5 "") [("default", "0o3")]) (Parser.RPath "u32") (PInt 0) id_codec;
      Parser.mkRField "d" VisPrivate (Parser.AList (Parser.RBits 6 "") [("default", "0o4")]) (Parser.RPath "u64") (PInt 0) id_codec;
      Parser.mkRField "e" VisPrivate (Parser.AList (Parser.RBits 6 "") [("default", "0o5")]) (Parser.RPath "u128") (PInt 0) id_codec;
      Parser.mkRField "f" VisPrivate (Parser.AList (Parser.RBits 5 "") [("default", "0o6")]) (Parser.RPath "i8") (PInt 0) id_codec;
      Parser.mkRField "g" VisPrivate (Parser.AList (Parser.RBits 8 "") [("default", "0o11")]) (Parser.RPath "i16") (PInt 0) id_codec;
      Parser.mkRField "h" VisPrivate (Parser.AList (Parser.RBits 8 "") [("default", "0o12")]) (Parser.RPath "i32") (PInt 0) id_codec;
      Parser.mkRField "i" VisPrivate (Parser.AList (Parser.RBits 8 "") [("default", "0o1_3")]) (Parser.RPath "i64") (PInt 0) id_codec;
      Parser.mkRField "j" VisPrivate (Parser.AList (Parser.RBits 8 "") [("default", "0o1_4")]) (Parser.RPath "i128") (PInt 0) id_codec]) [("a", (ELit 1 None)); ("b", (ELit 2 None)); ("c", (ELit 3 None)); ("d", (ELit 4 None)); ("e", (ELit 5 None)); ("f", (ELit 6 None)); ("g", (ELit 9 None)); ("h", (ELit 10 None)); ("i", (ELit 11 None)); ("j", (ELit 12 None))])]
  [SLetT "bitfield" (TStat "Bitfield" "new" []);
   SAssert (TEq (TMeth "Bitfield" (TVar "bitfield") "a" []) (TV (RI 1)));
   SAssert (TEq (TMeth "Bitfield" (TVar "bitfield") "b" []) (TV (RI 2)));
   SAssert (TEq (TMeth "Bitfield" (TVar "bitfield") "c" []) (TV (RI 3)));
   SAssert (TEq (TMeth "Bitfield" (TVar "bitfield") "d" []) (TV (RI 4)));
   SAssert (TEq (TMeth "Bitfield" (TVar "bitfield") "e" []) (TV (RI 5)));
   SAssert (TEq (TMeth "Bitfield" (TVar "bitfield") "f" []) (TV (RI 6)));
   SAssert (TEq (TMeth "Bitfield" (TVar "bitfield") "g" []) (TV (RI 9)));
   SAssert (TEq (TMeth "Bitfield" (TVar "bitfield") "h" []) (TV (RI 10)));
   SAssert (TEq (TMeth "Bitfield" (TVar "bitfield") "i" []) (TV (RI 11)));
   SAssert (TEq (TMeth "Bitfield" (TVar "bitfield") "j" []) (TV (RI 12)))]) = true.
Proof. vm_compute. reflexivity. Qed.

(* lib_tests.rs:395 *)
Example bitfield_field_binary_default_value : is_passed (run_test
  [(mkUnit "Bitfield" (Parser.mkRDecl true VisPublic "Bitfield" (Some (Parser.RPath "u64")) []
     [Parser.mkRField "a" VisPrivate (Parser.AList (Parser.RBits 5 "") [("default", "0b01")]) (Parser.RPath "u8") (PInt 0) id_codec;
      Parser.mkRField "b" VisPrivate (Parser.AList (Parser.RBits 5 "") [("default", "0b10")]) (Parser.RPath "u16") (PInt 0) id_codec;
      Parser.mkRField "c" VisPrivate (Parser.AList (Parser.RBits 5 "") [("default", "0b11")]) (Parser.RPath "u32") (PInt 0) id_codec;
      Parser.mkRField "d" VisPrivate (Parser.AList (Parser.RBits 6 "") [("default", "0b100")]) (Parser.RPath "u64") (PInt 0) id_codec;
      Parser.mkRField "e" VisPrivate (Parser.AList (Parser.RBits 6 "") [("default", "0b101")]) (Parser.RPath "u128") (PInt 0) id_codec;
      Parser.mkRField "f" VisPrivate (Parser.AList (Parser.RBits 5 "") [("default", "0b110")]) (Parser.RPath "i8") (PInt 0) id_codec;
      Parser.mkRField "g" VisPrivate (Parser.AList (Parser.RBits 8 "") [("default", "0b111")]) (Parser.RPath "i16") (PInt 0) id_codec;
      Parser.mkRField "h" VisPrivate (Parser.AList (Parser.RBits 8 "") [("default", "0b1000")]) (Parser.RPath "i32") (PInt 0) id_codec;
      Parser.mkRField "i" VisPrivate (Parser.AList (Parser.RBits 8 "") [("default", "0b10_01")]) (Parser.RPath "i64") (PInt 0) id_codec;
      Parser.mkRField "j" VisPrivate (Parser.AList (Parser.RBits 8 "") [("default", "0b10_10")]) (Parser.RPath "i128") (PInt 0) id_codec]) [("a", (ELit 1 None)); ("b", (ELit 2 None)); ("c", (ELit 3 None)); ("d", (ELit 4 None)); ("e", (ELit 5 None)); ("f", (ELit 6 None)); ("g", (ELit 7 None)); ("h", (ELit 8 None)); ("i", (ELit 9 None)); ("j", (ELit 10 None))])]
  [SLetT "bitfield" (TStat "Bitfield" "new" []);
   SAssert (TEq (TMeth "Bitfield" (TVar "bitfield") "a" []) (TV (RI 1)));
   SAssert (TEq (TMeth "Bitfield" (TVar "bitfield") "b" []) (TV (RI 2)));
   SAssert (TEq (TMeth "Bitfield" (TVar "bitfield") "c" []) (TV (RI 3)));
   SAssert (TEq (TMeth "Bitfield" (TVar "bitfield") "d" []) (TV (RI 4)));
   SAssert (TEq (TMeth "Bitfield" (TVar "bitfield") "e" []) (TV (RI 5)));
   SAssert (TEq (TMeth "Bitfield" (TVar "bitfield") "f" []) (TV (RI 6)));
   SAssert (TEq (TMeth "Bitfield" (TVar "bitfield") "g" []) (TV (RI 7)));
   SAssert (TEq (TMeth "Bitfield" (TVar "bitfield") "h" []) (TV (RI 8)));
   SAssert (TEq (TMeth "Bitfield" (TVar "bitfield") "i" []) (TV (RI 9)));
   SAssert (TEq (TMeth "Bitfield" (TVar "bitfield") "j" []) (TV (RI 10)))]) = true.
Proof. vm_compute. reflexivity. Qed.

(* lib_tests.rs:434 *)
Example bitfield_field_duplicate_reserved_name : is_passed (run_test
  [(mkUnit "Bitfield" (Parser.mkRDecl true VisPublic "Bitfield" (Some (Parser.RPath "u16")) []
     [Parser.mkRField "a" VisPrivate Parser.ANone (Parser.RPath "u8") (PInt 0) id_codec;
      Parser.mkRField "__" VisPrivate (Parser.AList (Parser.RBits 4 "") []) (Parser.RPath "u8") (PInt 0) id_codec;
      Parser.mkRField "__" VisPrivate (Parser.AList (Parser.RBits 4 "") []) (Parser.RPath "u8") (PInt 0) id_codec]) [])]
  []) = true.
Proof. vm_compute. reflexivity. Qed.

(* lib_tests.rs:446 *)
Example bitfield_field_reserved : is_passed (run_test
  [(mkUnit "Bitfield" (Parser.mkRDecl true VisPublic "Bitfield" (Some (Parser.RPath "u64")) []
     [Parser.mkRField "a" VisPrivate (Parser.AList (Parser.RBits 4 "") [("default", "0x1")]) (Parser.RPath "u8") (PInt 0) id_codec;
      Parser.mkRField "_reserved" VisPrivate (Parser.AList (Parser.RBits 60 "") []) (Parser.RPath "u64") (PInt 0) id_codec]) [("a", (ELit 1 None))])]
  [SLetT "bitfield" (TStat "Bitfield" "new" []);
   SAssert (TEq (TMeth "Bitfield" (TVar "bitfield") "a" []) (TV (RI 1)))]) = true.
Proof. vm_compute. reflexivity. Qed.

(* lib_tests.rs:460 *)
Example bitfield_field_reserved_default_value : is_passed (run_test
  [(mkUnit "Bitfield" (Parser.mkRDecl true VisPublic "Bitfield" (Some (Parser.RPath "u64")) []
     [Parser.mkRField "a" VisPrivate (Parser.AList (Parser.RBits 4 "") [("default", "0x1")]) (Parser.RPath "u8") (PInt 0) id_codec;
      Parser.mkRField "_reserved" VisPrivate (Parser.AList (Parser.RBits 60 "") [("default", "0xFFFF_FFFF_FFFF")]) (Parser.RPath "u64") (PInt 0) id_codec]) [("a", (ELit 1 None)); ("_reserved", (ELit 281474976710655 None))])]
  [SLetT "bitfield" (TStat "Bitfield" "new" []);
   SAssert (TEq (TMeth "Bitfield" (TVar "bitfield") "a" []) (TV (RI 1)));
   SAssert (TEq (TMeth "Bitfield" (TVar "bitfield") "into_bits" []) (TV (RI 4503599627370481)))]) = true.
Proof. vm_compute. reflexivity. Qed.

(* lib_tests.rs:475 *)
Example bitfield_field_multiple_attributes : is_passed (run_test
  [(mkUnit "Bitfield" (Parser.mkRDecl true VisPublic "Bitfield" (Some (Parser.RPath "u64")) []
     [Parser.mkRField "a" VisPrivate (Parser.AList (Parser.RBits 4 "") [("default", "0x1")]) (Parser.RPath "u8") (PInt 0) id_codec;
      Parser.mkRField "_reserved" VisPrivate (Parser.AList (Parser.RBits 60 "") [("default", "0xFFFF_FFFF_FFFF")]) (Parser.RPath "u64") (PInt 0) id_codec]) [("a", (ELit 1 None)); ("_reserved", (ELit 281474976710655 None))])]
  [SLetT "bitfield" (TStat "Bitfield" "new" []);
   SAssert (TEq (TMeth "Bitfield" (TVar "bitfield") "a" []) (TV (RI 1)));
   SAssert (TEq (TMeth "Bitfield" (TVar "bitfield") "into_bits" []) (TV (RI 4503599627370481)))]) = true.
Proof. vm_compute. reflexivity. Qed.

(* lib_tests.rs:490 *)
Example bitfield_getters : is_passed (run_test
  [(mkUnit "Bitfield" (Parser.mkRDecl true VisPublic "Bitfield" (Some (Parser.RPath "u32")) []
     [Parser.mkRField "a" VisPrivate (Parser.AList Parser.RNoBits [("default", "0x12")]) (Parser.RPath "u8") (PInt 0) id_codec;
      Parser.mkRField "b" VisPrivate (Parser.AList Parser.RNoBits [("default", "0x34")]) (Parser.RPath "u8") (PInt 0) id_codec;
      Parser.mkRField "c" VisPrivate (Parser.AList Parser.RNoBits [("default", "0x56")]) (Parser.RPath "u8") (PInt 0) id_codec;
      Parser.mkRField "d" VisPrivate (Parser.AList Parser.RNoBits [("default", "0x78")]) (Parser.RPath "u8") (PInt 0) id_codec]) [("a", (ELit 18 None)); ("b", (ELit 52 None)); ("c", (ELit 86 None)); ("d", (ELit 120 None))])]
  [SLetT "bitfield" (TStat "Bitfield" "new" []);
   SAssert (TEq (TMeth "Bitfield" (TVar "bitfield") "a" []) (TV (RI 18)));
   SAssert (TEq (TMeth "Bitfield" (TVar "bitfield") "b" []) (TV (RI 52)));
   SAssert (TEq (TMeth "Bitfield" (TVar "bitfield") "c" []) (TV (RI 86)));
   SAssert (TEq (TMeth "Bitfield" (TVar "bitfield") "d" []) (TV (RI 120)));
   SAssert (TEq (TMeth "Bitfield" (TVar "bitfield") "into_bits" []) (TV (RI 2018915346)))]) = true.
Proof. vm_compute. reflexivity. Qed.

(* lib_tests.rs:512 *)
Example bitfield_signed_values_getters : is_passed (run_test
  [(mkUnit "Bitfield" (Parser.mkRDecl true VisPublic "Bitfield" (Some (Parser.RPath "u32")) []
     [Parser.mkRField "a" VisPrivate (Parser.AList Parser.RNoBits [("default", "-127")]) (Parser.RPath "i8") (PInt 0) id_codec;
      Parser.mkRField "b" VisPrivate (Parser.AList Parser.RNoBits [("default", "0x7F")]) (Parser.RPath "i8") (PInt 0) id_codec;
      Parser.mkRField "c" VisPrivate (Parser.AList (Parser.RBits 5 "") [("default", "0xF")]) (Parser.RPath "i8") (PInt 0) id_codec;
      Parser.mkRField "d" VisPrivate (Parser.AList (Parser.RBits 5 "") [("default", "0x1F")]) (Parser.RPath "i8") (PInt 0) id_codec;
      Parser.mkRField "_reserved" VisPrivate (Parser.AList (Parser.RBits 6 "") []) (Parser.RPath "u16") (PInt 0) id_codec]) [("a", (EUn UNeg (ELit 127 None))); ("b", (ELit 127 None)); ("c", (ELit 15 None)); ("d", (ELit 31 None))])]
  [SLetT "bitfield" (TStat "Bitfield" "new" []);
   SAssert (TEq (TMeth "Bitfield" (TVar "bitfield") "a" []) (TV (RI (-127))));
   SAssert (TEq (TMeth "Bitfield" (TVar "bitfield") "b" []) (TV (RI 127)));
   SAssert (TEq (TMeth "Bitfield" (TVar "bitfield") "c" []) (TV (RI 15)));
   SAssert (TEq (TMeth "Bitfield" (TVar "bitfield") "d" []) (TV (RI (-1))));
   SAssert (TEq (TMeth "Bitfield" (TVar "bitfield") "into_bits" []) (TV (RI 66027393)))]) = true.
Proof. vm_compute. reflexivity. Qed.

(* lib_tests.rs:536 *)
Example bitfield_setters : is_passed (run_test
  [(mkUnit "Bitfield" (Parser.mkRDecl true VisPublic "Bitfield" (Some (Parser.RPath "u32")) []
     [Parser.mkRField "a" VisPrivate (Parser.AList Parser.RNoBits [("default", "0x12")]) (Parser.RPath "u8") (PInt 0) id_codec;
      Parser.mkRField "b" VisPrivate (Parser.AList Parser.RNoBits [("default", "0x34")]) (Parser.RPath "u8") (PInt 0) id_codec;
      Parser.mkRField "c" VisPrivate (Parser.AList Parser.RNoBits [("default", "0x56")]) (Parser.RPath "u8") (PInt 0) id_codec;
      Parser.mkRField "d" VisPrivate (Parser.AList Parser.RNoBits [("default", "0x78")]) (Parser.RPath "u8") (PInt 0) id_codec]) [("a", (ELit 18 None)); ("b", (ELit 52 None)); ("c", (ELit 86 None)); ("d", (ELit 120 None))])]
  [SLetT "bitfield" (TStat "Bitfield" "new" []);
   SDo (TMeth "Bitfield" (TVar "bitfield") "set_a" [(TV (RI 17))]);
   SDo (TMeth "Bitfield" (TVar "bitfield") "set_b" [(TV (RI 34))]);
   SDo (TMeth "Bitfield" (TVar "bitfield") "set_c" [(TV (RI 51))]);
   SDo (TMeth "Bitfield" (TVar "bitfield") "set_d" [(TV (RI 68))]);
   SAssert (TEq (TMeth "Bitfield" (TVar "bitfield") "a" []) (TV (RI 17)));
   SAssert (TEq (TMeth "Bitfield" (TVar "bitfield") "b" []) (TV (RI 34)));
   SAssert (TEq (TMeth "Bitfield" (TVar "bitfield") "c" []) (TV (RI 51)));
   SAssert (TEq (TMeth "Bitfield" (TVar "bitfield") "d" []) (TV (RI 68)));
   SAssert (TEq (TMeth "Bitfield" (TVar "bitfield") "into_bits" []) (TV (RI 1144201745)))]) = true.
Proof. vm_compute. reflexivity. Qed.

(* lib_tests.rs:562 *)
Example bitfield_signed_setters : is_passed (run_test
  [(mkUnit "Bitfield" (Parser.mkRDecl true VisPublic "Bitfield" (Some (Parser.RPath "u32")) []
     [Parser.mkRField "a" VisPrivate (Parser.AList Parser.RNoBits [("default", "0x12")]) (Parser.RPath "i8") (PInt 0) id_codec;
      Parser.mkRField "b" VisPrivate (Parser.AList Parser.RNoBits [("default", "0x34")]) (Parser.RPath "i8") (PInt 0) id_codec;
      Parser.mkRField "c" VisPrivate (Parser.AList Parser.RNoBits [("default", "0x56")]) (Parser.RPath "i8") (PInt 0) id_codec;
      Parser.mkRField "d" VisPrivate (Parser.AList Parser.RNoBits [("default", "0x78")]) (Parser.RPath "i8") (PInt 0) id_codec]) [("a", (ELit 18 None)); ("b", (ELit 52 None)); ("c", (ELit 86 None)); ("d", (ELit 120 None))])]
  [SLetT "bitfield" (TStat "Bitfield" "new" []);
   SDo (TMeth "Bitfield" (TVar "bitfield") "set_a" [(TV (RI (-1)))]);
   SDo (TMeth "Bitfield" (TVar "bitfield") "set_b" [(TV (RI (-127)))]);
   SDo (TMeth "Bitfield" (TVar "bitfield") "set_c" [(TV (RI (-15)))]);
   SDo (TMeth "Bitfield" (TVar "bitfield") "set_d" [(TV (RI (-44)))]);
   SAssert (TEq (TMeth "Bitfield" (TVar "bitfield") "a" []) (TV (RI (-1))));
   SAssert (TEq (TMeth "Bitfield" (TVar "bitfield") "b" []) (TV (RI (-127))));
   SAssert (TEq (TMeth "Bitfield" (TVar "bitfield") "c" []) (TV (RI (-15))));
   SAssert (TEq (TMeth "Bitfield" (TVar "bitfield") "d" []) (TV (RI (-44))));
   SAssert (TEq (TMeth "Bitfield" (TVar "bitfield") "into_bits" []) (TV (RI 3572597247)))]) = true.
Proof. vm_compute. reflexivity. Qed.

(* lib_tests.rs:588 *)
Example bitfield_checked_setters : is_passed (run_test
  [(mkUnit "Bitfield" (Parser.mkRDecl true VisPublic "Bitfield" (Some (Parser.RPath "u32")) []
     [Parser.mkRField "a" VisPrivate (Parser.AList Parser.RNoBits [("default", "0x12")]) (Parser.RPath "i8") (PInt 0) id_codec;
      Parser.mkRField "b" VisPrivate (Parser.AList Parser.RNoBits [("default", "0x34")]) (Parser.RPath "u8") (PInt 0) id_codec;
      Parser.mkRField "c" VisPrivate (Parser.AList (Parser.RBits 4 "") [("default", "12")]) (Parser.RPath "u8") (PInt 0) id_codec;
      Parser.mkRField "d" VisPrivate (Parser.AList (Parser.RBits 12 "") [("default", "0x78")]) (Parser.RPath "i16") (PInt 0) id_codec]) [("a", (ELit 18 None)); ("b", (ELit 52 None)); ("c", (ELit 12 None)); ("d", (ELit 120 None))])]
  [SLetT "bitfield" (TStat "Bitfield" "new" []);
   SLetT "a_ok" (TMeth "Bitfield" (TVar "bitfield") "checked_set_a" [(TV (RI (-1)))]);
   SLetT "b_ok" (TMeth "Bitfield" (TVar "bitfield") "checked_set_b" [(TV (RI 255))]);
   SLetT "c_ok" (TMeth "Bitfield" (TVar "bitfield") "checked_set_c" [(TV (RI 255))]);
   SLetT "d_ok" (TMeth "Bitfield" (TVar "bitfield") "checked_set_d" [(TV (RI 8191))]);
   SAssert (TIsOk (TVar "a_ok"));
   SAssert (TIsOk (TVar "b_ok"));
   SAssert (TIsErr (TVar "c_ok"));
   SAssert (TContains (TErr (TVar "c_ok")) (TV (RErr "Value is too big to fit within the field bits.")));
   SAssert (TIsErr (TVar "d_ok"));
   SAssert (TContains (TErr (TVar "d_ok")) (TV (RErr "Value is too big to fit within the field bits.")));
   SAssert (TEq (TMeth "Bitfield" (TVar "bitfield") "a" []) (TV (RI (-1))));
   SAssert (TEq (TMeth "Bitfield" (TVar "bitfield") "b" []) (TV (RI 255)));
   SAssert (TEq (TMeth "Bitfield" (TVar "bitfield") "c" []) (TV (RI 12)));
   SAssert (TEq (TMeth "Bitfield" (TVar "bitfield") "d" []) (TV (RI 120)));
   SAssert (TEq (TMeth "Bitfield" (TVar "bitfield") "into_bits" []) (TV (RI 126681087)))]) = true.
Proof. vm_compute. reflexivity. Qed.

(* lib_tests.rs:644 *)
Example bitfield_field_enum_custom_type : is_passed (run_test
  [(mkUnit "Bitfield" (Parser.mkRDecl true VisPublic "Bitfield" (Some (Parser.RPath "u16")) []
     [Parser.mkRField "a" VisPrivate (Parser.AList Parser.RNoBits [("default", "0x12")]) (Parser.RPath "u8") (PInt 0) id_codec;
      Parser.mkRField "nested_field" VisPrivate (Parser.AList (Parser.RBits 8 "") [("default", "CustomType::A")]) (Parser.RPath "CustomType") (PInt 0) (mkCodec U8 (fun bits => (if Z.eqb bits 3 then 0 else (if Z.eqb bits 4 then 1 else (-1)))) U8 (fun self => (if Z.eqb self 0 then 3 else (if Z.eqb self 1 then 4 else (-1)))))]) [("a", (ELit 18 None)); ("nested_field", (EUser (TUser "nested_field") (RC 0)))])]
  [SLetT "bitfield" (TStat "Bitfield" "new" []);
   SAssert (TEq (TMeth "Bitfield" (TVar "bitfield") "into_bits" []) (TV (RI 786)))]) = true.
Proof. vm_compute. reflexivity. Qed.

(* lib_tests.rs:763 *)
Example bitfield_default : is_passed (run_test
  [(mkUnit "Bitfield" (Parser.mkRDecl true VisPublic "Bitfield" (Some (Parser.RPath "u32")) []
     [Parser.mkRField "a" VisPrivate (Parser.AList Parser.RNoBits [("default", "0x12")]) (Parser.RPath "u8") (PInt 0) id_codec;
      Parser.mkRField "b" VisPrivate (Parser.AList Parser.RNoBits [("default", "0x34")]) (Parser.RPath "u8") (PInt 0) id_codec;
      Parser.mkRField "c" VisPrivate (Parser.AList Parser.RNoBits [("default", "0x56")]) (Parser.RPath "u8") (PInt 0) id_codec;
      Parser.mkRField "d" VisPrivate (Parser.AList (Parser.RBits 8 "") [("default", "CustomType::B")]) (Parser.RPath "CustomType") (PInt 0) (mkCodec U8 (fun bits => (if Z.eqb bits 3 then 0 else (if Z.eqb bits 4 then 1 else 0))) U8 (fun self => (if Z.eqb self 0 then 3 else (if Z.eqb self 1 then 4 else (-1)))))]) [("a", (ELit 18 None)); ("b", (ELit 52 None)); ("c", (ELit 86 None)); ("d", (EUser (TUser "d") (RC 1)))])]
  [SLetT "bitfield" (TDefault "Bitfield");
   SAssert (TEq (TMeth "Bitfield" (TVar "bitfield") "a" []) (TV (RI 18)));
   SAssert (TEq (TMeth "Bitfield" (TVar "bitfield") "b" []) (TV (RI 52)));
   SAssert (TEq (TMeth "Bitfield" (TVar "bitfield") "c" []) (TV (RI 86)));
   SAssert (TEq (TMeth "Bitfield" (TVar "bitfield") "d" []) (TV (RC 1)));
   SAssert (TEq (TMeth "Bitfield" (TVar "bitfield") "into_bits" []) (TV (RI 72758290)))]) = true.
Proof. vm_compute. reflexivity. Qed.

(* lib_tests.rs:808 *)
Example bitfield_new : is_passed (run_test
  [(mkUnit "Bitfield" (Parser.mkRDecl true VisPublic "Bitfield" (Some (Parser.RPath "u32")) []
     [Parser.mkRField "a" VisPrivate (Parser.AList Parser.RNoBits [("default", "0x12")]) (Parser.RPath "u8") (PInt 0) id_codec;
      Parser.mkRField "b" VisPrivate (Parser.AList Parser.RNoBits [("default", "0x34")]) (Parser.RPath "u8") (PInt 0) id_codec;
      Parser.mkRField "c" VisPrivate (Parser.AList Parser.RNoBits [("default", "0x56")]) (Parser.RPath "u8") (PInt 0) id_codec;
      Parser.mkRField "d" VisPrivate (Parser.AList (Parser.RBits 8 "") [("default", "CustomType::B")]) (Parser.RPath "CustomType") (PInt 0) (mkCodec U8 (fun bits => (if Z.eqb bits 3 then 0 else (if Z.eqb bits 4 then 1 else 0))) U8 (fun self => (if Z.eqb self 0 then 3 else (if Z.eqb self 1 then 4 else (-1)))))]) [("a", (ELit 18 None)); ("b", (ELit 52 None)); ("c", (ELit 86 None)); ("d", (EUser (TUser "d") (RC 1)))])]
  [SLetT "bitfield" (TStat "Bitfield" "new" []);
   SAssert (TEq (TMeth "Bitfield" (TVar "bitfield") "a" []) (TV (RI 18)));
   SAssert (TEq (TMeth "Bitfield" (TVar "bitfield") "b" []) (TV (RI 52)));
   SAssert (TEq (TMeth "Bitfield" (TVar "bitfield") "c" []) (TV (RI 86)));
   SAssert (TEq (TMeth "Bitfield" (TVar "bitfield") "d" []) (TV (RC 1)));
   SAssert (TEq (TMeth "Bitfield" (TVar "bitfield") "into_bits" []) (TV (RI 72758290)))]) = true.
Proof. vm_compute. reflexivity. Qed.

(* lib_tests.rs:853 *)
Example bitfield_new_without_defaults : is_passed (run_test
  [(mkUnit "Bitfield" (Parser.mkRDecl true VisPublic "Bitfield" (Some (Parser.RPath "u32")) []
     [Parser.mkRField "a" VisPrivate (Parser.AList Parser.RNoBits [("default", "0x12")]) (Parser.RPath "u8") (PInt 0) id_codec;
      Parser.mkRField "b" VisPrivate (Parser.AList Parser.RNoBits [("default", "0x34")]) (Parser.RPath "u8") (PInt 0) id_codec;
      Parser.mkRField "c" VisPrivate (Parser.AList Parser.RNoBits [("default", "0x56")]) (Parser.RPath "u8") (PInt 0) id_codec;
      Parser.mkRField "d" VisPrivate (Parser.AList (Parser.RBits 8 "") [("default", "CustomType::B")]) (Parser.RPath "CustomType") (PInt 0) (mkCodec U8 (fun bits => (if Z.eqb bits 3 then 0 else (if Z.eqb bits 4 then 1 else 0))) U8 (fun self => (if Z.eqb self 0 then 3 else (if Z.eqb self 1 then 4 else (-1)))))]) [("a", (ELit 18 None)); ("b", (ELit 52 None)); ("c", (ELit 86 None)); ("d", (EUser (TUser "d") (RC 1)))])]
  [SLetT "bitfield" (TStat "Bitfield" "new_without_defaults" []);
   SAssert (TEq (TMeth "Bitfield" (TVar "bitfield") "a" []) (TV (RI 0)));
   SAssert (TEq (TMeth "Bitfield" (TVar "bitfield") "b" []) (TV (RI 0)));
   SAssert (TEq (TMeth "Bitfield" (TVar "bitfield") "c" []) (TV (RI 0)));
   SAssert (TEq (TMeth "Bitfield" (TVar "bitfield") "d" []) (TV (RC 0)));
   SAssert (TEq (TMeth "Bitfield" (TVar "bitfield") "into_bits" []) (TV (RI 50331648)))]) = true.
Proof. vm_compute. reflexivity. Qed.

(* lib_tests.rs:898 *)
Example bitfield_builder_new_default_values : is_passed (run_test
  [(mkUnit "Bitfield" (Parser.mkRDecl true VisPublic "Bitfield" (Some (Parser.RPath "u32")) []
     [Parser.mkRField "a" VisPrivate (Parser.AList Parser.RNoBits [("default", "0x12")]) (Parser.RPath "u8") (PInt 0) id_codec;
      Parser.mkRField "b" VisPrivate (Parser.AList Parser.RNoBits [("default", "0x34")]) (Parser.RPath "u8") (PInt 0) id_codec;
      Parser.mkRField "c" VisPrivate (Parser.AList Parser.RNoBits [("default", "0x56")]) (Parser.RPath "u8") (PInt 0) id_codec;
      Parser.mkRField "d" VisPrivate (Parser.AList Parser.RNoBits [("default", "0x78")]) (Parser.RPath "u8") (PInt 0) id_codec]) [("a", (ELit 18 None)); ("b", (ELit 52 None)); ("c", (ELit 86 None)); ("d", (ELit 120 None))])]
  [SLetT "bitfield" (TBuild "Bitfield" "build" [(TBuild "Bitfield" "new" [])]);
   SAssert (TEq (TMeth "Bitfield" (TVar "bitfield") "a" []) (TV (RI 18)));
   SAssert (TEq (TMeth "Bitfield" (TVar "bitfield") "b" []) (TV (RI 52)));
   SAssert (TEq (TMeth "Bitfield" (TVar "bitfield") "c" []) (TV (RI 86)));
   SAssert (TEq (TMeth "Bitfield" (TVar "bitfield") "d" []) (TV (RI 120)));
   SAssert (TEq (TMeth "Bitfield" (TVar "bitfield") "into_bits" []) (TV (RI 2018915346)))]) = true.
Proof. vm_compute. reflexivity. Qed.

(* lib_tests.rs:920 *)
Example bitfield_builder_new : is_passed (run_test
  [(mkUnit "Bitfield" (Parser.mkRDecl true VisPublic "Bitfield" (Some (Parser.RPath "u32")) []
     [Parser.mkRField "a" VisPrivate (Parser.AList Parser.RNoBits [("default", "0x12")]) (Parser.RPath "u8") (PInt 0) id_codec;
      Parser.mkRField "b" VisPrivate (Parser.AList Parser.RNoBits [("default", "0x34")]) (Parser.RPath "u8") (PInt 0) id_codec;
      Parser.mkRField "c" VisPrivate (Parser.AList Parser.RNoBits [("default", "0x56")]) (Parser.RPath "u8") (PInt 0) id_codec;
      Parser.mkRField "d" VisPrivate (Parser.AList Parser.RNoBits [("default", "0x78")]) (Parser.RPath "u8") (PInt 0) id_codec]) [("a", (ELit 18 None)); ("b", (ELit 52 None)); ("c", (ELit 86 None)); ("d", (ELit 120 None))])]
  [SLetT "bitfield" (TBuild "Bitfield" "build" [(TBuild "Bitfield" "with_d" [(TBuild "Bitfield" "with_c" [(TBuild "Bitfield" "with_b" [(TBuild "Bitfield" "with_a" [(TBuild "Bitfield" "new" []); (TV (RI 17))]); (TV (RI 34))]); (TV (RI 51))]); (TV (RI 68))])]);
   SAssert (TEq (TMeth "Bitfield" (TVar "bitfield") "a" []) (TV (RI 17)));
   SAssert (TEq (TMeth "Bitfield" (TVar "bitfield") "b" []) (TV (RI 34)));
   SAssert (TEq (TMeth "Bitfield" (TVar "bitfield") "c" []) (TV (RI 51)));
   SAssert (TEq (TMeth "Bitfield" (TVar "bitfield") "d" []) (TV (RI 68)));
   SAssert (TEq (TMeth "Bitfield" (TVar "bitfield") "into_bits" []) (TV (RI 1144201745)))]) = true.
Proof. vm_compute. reflexivity. Qed.

(* lib_tests.rs:943 *)
Example bitfield_builder_new_without_defaults_default_values : is_passed (run_test
  [(mkUnit "Bitfield" (Parser.mkRDecl true VisPublic "Bitfield" (Some (Parser.RPath "u32")) []
     [Parser.mkRField "a" VisPrivate (Parser.AList Parser.RNoBits [("default", "0x12")]) (Parser.RPath "u8") (PInt 0) id_codec;
      Parser.mkRField "b" VisPrivate (Parser.AList Parser.RNoBits [("default", "0x34")]) (Parser.RPath "u8") (PInt 0) id_codec;
      Parser.mkRField "c" VisPrivate (Parser.AList Parser.RNoBits [("default", "0x56")]) (Parser.RPath "u8") (PInt 0) id_codec;
      Parser.mkRField "d" VisPrivate (Parser.AList (Parser.RBits 8 "") []) (Parser.RPath "CustomType") (PInt 0) (mkCodec U8 (fun bits => (if Z.eqb bits 3 then 0 else (if Z.eqb bits 4 then 1 else 0))) U8 (fun self => (if Z.eqb self 0 then 3 else (if Z.eqb self 1 then 4 else (-1)))))]) [("a", (ELit 18 None)); ("b", (ELit 52 None)); ("c", (ELit 86 None))])]
  [SLetT "bitfield" (TBuild "Bitfield" "build" [(TBuild "Bitfield" "new_without_defaults" [])]);
   SAssert (TEq (TMeth "Bitfield" (TVar "bitfield") "a" []) (TV (RI 0)));
   SAssert (TEq (TMeth "Bitfield" (TVar "bitfield") "b" []) (TV (RI 0)));
   SAssert (TEq (TMeth "Bitfield" (TVar "bitfield") "c" []) (TV (RI 0)));
   SAssert (TEq (TMeth "Bitfield" (TVar "bitfield") "d" []) (TV (RC 0)));
   SAssert (TEq (TMeth "Bitfield" (TVar "bitfield") "into_bits" []) (TV (RI 50331648)))]) = true.
Proof. vm_compute. reflexivity. Qed.

(* lib_tests.rs:988 *)
Example bitfield_new_disabled_builder_new : is_passed (run_test
  [(mkUnit "Bitfield" (Parser.mkRDecl true VisPublic "Bitfield" (Some (Parser.RPath "u32")) [("new", "false")]
     [Parser.mkRField "a" VisPrivate (Parser.AList Parser.RNoBits [("default", "0x12")]) (Parser.RPath "u8") (PInt 0) id_codec;
      Parser.mkRField "b" VisPrivate (Parser.AList Parser.RNoBits [("default", "0x34")]) (Parser.RPath "u8") (PInt 0) id_codec;
      Parser.mkRField "c" VisPrivate (Parser.AList Parser.RNoBits [("default", "0x56")]) (Parser.RPath "u8") (PInt 0) id_codec;
      Parser.mkRField "d" VisPrivate (Parser.AList Parser.RNoBits [("default", "0x78")]) (Parser.RPath "u8") (PInt 0) id_codec]) [("a", (ELit 18 None)); ("b", (ELit 52 None)); ("c", (ELit 86 None)); ("d", (ELit 120 None))])]
  [SLetT "bitfield" (TBuild "Bitfield" "build" [(TBuild "Bitfield" "with_d" [(TBuild "Bitfield" "with_c" [(TBuild "Bitfield" "with_b" [(TBuild "Bitfield" "with_a" [(TBuild "Bitfield" "new" []); (TV (RI 17))]); (TV (RI 34))]); (TV (RI 51))]); (TV (RI 68))])]);
   SAssert (TEq (TMeth "Bitfield" (TVar "bitfield") "a" []) (TV (RI 17)));
   SAssert (TEq (TMeth "Bitfield" (TVar "bitfield") "b" []) (TV (RI 34)));
   SAssert (TEq (TMeth "Bitfield" (TVar "bitfield") "c" []) (TV (RI 51)));
   SAssert (TEq (TMeth "Bitfield" (TVar "bitfield") "d" []) (TV (RI 68)));
   SAssert (TEq (TMeth "Bitfield" (TVar "bitfield") "into_bits" []) (TV (RI 1144201745)))]) = true.
Proof. vm_compute. reflexivity. Qed.

(* lib_tests.rs:1011 *)
Example bitfield_builder_checked_setters_unsigned_overflow : is_passed (run_test
  [(mkUnit "Bitfield" (Parser.mkRDecl true VisPublic "Bitfield" (Some (Parser.RPath "u32")) []
     [Parser.mkRField "a" VisPrivate (Parser.AList (Parser.RBits 4 "") []) (Parser.RPath "u8") (PInt 0) id_codec;
      Parser.mkRField "b" VisPrivate (Parser.AList (Parser.RBits 12 "") []) (Parser.RPath "u16") (PInt 0) id_codec;
      Parser.mkRField "c" VisPrivate (Parser.AList (Parser.RBits 8 "") []) (Parser.RPath "u8") (PInt 0) id_codec;
      Parser.mkRField "d" VisPrivate (Parser.AList (Parser.RBits 8 "") []) (Parser.RPath "u8") (PInt 0) id_codec]) [])]
  [SLetT "result" (TBuild "Bitfield" "checked_with_a" [(TBuild "Bitfield" "new" []); (TV (RI 16))]);
   SAssert (TIsErr (TVar "result"));
   SAssert (TContains (TErr (TVar "result")) (TV (RErr "Value is too big to fit within the field bits.")));
   SLetT "result" (TBuild "Bitfield" "checked_with_b" [(TBuild "Bitfield" "new" []); (TV (RI 4096))]);
   SAssert (TIsErr (TVar "result"));
   SAssert (TContains (TErr (TVar "result")) (TV (RErr "Value is too big to fit within the field bits.")));
   SLetT "result" (TAndThen (TAndThen (TAndThen (TBuild "Bitfield" "checked_with_a" [(TBuild "Bitfield" "new" []); (TV (RI 15))]) "b" (TBuild "Bitfield" "checked_with_b" [(TVar "b"); (TV (RI 4095))])) "b" (TBuild "Bitfield" "checked_with_c" [(TVar "b"); (TV (RI 255))])) "b" (TBuild "Bitfield" "checked_with_d" [(TVar "b"); (TV (RI 171))]));
   SAssert (TIsOk (TVar "result"));
   SLetT "bitfield" (TBuild "Bitfield" "build" [(TUnwrap (TVar "result"))]);
   SAssert (TEq (TMeth "Bitfield" (TVar "bitfield") "a" []) (TV (RI 15)));
   SAssert (TEq (TMeth "Bitfield" (TVar "bitfield") "b" []) (TV (RI 4095)));
   SAssert (TEq (TMeth "Bitfield" (TVar "bitfield") "c" []) (TV (RI 255)));
   SAssert (TEq (TMeth "Bitfield" (TVar "bitfield") "d" []) (TV (RI 171)))]) = true.
Proof. vm_compute. reflexivity. Qed.

(* lib_tests.rs:1044 *)
Example bitfield_builder_checked_setters_signed_overflow : is_passed (run_test
  [(mkUnit "Bitfield" (Parser.mkRDecl true VisPublic "Bitfield" (Some (Parser.RPath "u32")) []
     [Parser.mkRField "a" VisPrivate (Parser.AList (Parser.RBits 4 "") []) (Parser.RPath "i8") (PInt 0) id_codec;
      Parser.mkRField "b" VisPrivate (Parser.AList (Parser.RBits 12 "") []) (Parser.RPath "i16") (PInt 0) id_codec;
      Parser.mkRField "c" VisPrivate (Parser.AList (Parser.RBits 16 "") []) (Parser.RPath "i16") (PInt 0) id_codec]) [])]
  [SLetT "result" (TBuild "Bitfield" "checked_with_a" [(TBuild "Bitfield" "new" []); (TV (RI 8))]);
   SAssert (TIsErr (TVar "result"));
   SAssert (TContains (TErr (TVar "result")) (TV (RErr "Value is too big to fit within the field bits.")));
   SLetT "result" (TBuild "Bitfield" "checked_with_a" [(TBuild "Bitfield" "new" []); (TV (RI (-9)))]);
   SAssert (TIsErr (TVar "result"));
   SAssert (TContains (TErr (TVar "result")) (TV (RErr "Value is too big to fit within the field bits.")));
   SLetT "result" (TBuild "Bitfield" "checked_with_b" [(TBuild "Bitfield" "new" []); (TV (RI 2048))]);
   SAssert (TIsErr (TVar "result"));
   SAssert (TContains (TErr (TVar "result")) (TV (RErr "Value is too big to fit within the field bits.")));
   SLetT "result" (TAndThen (TAndThen (TBuild "Bitfield" "checked_with_a" [(TBuild "Bitfield" "new" []); (TV (RI 7))]) "b" (TBuild "Bitfield" "checked_with_b" [(TVar "b"); (TV (RI (-2048)))])) "b" (TBuild "Bitfield" "checked_with_c" [(TVar "b"); (TV (RI (-1)))]));
   SAssert (TIsOk (TVar "result"));
   SLetT "bitfield" (TBuild "Bitfield" "build" [(TUnwrap (TVar "result"))]);
   SAssert (TEq (TMeth "Bitfield" (TVar "bitfield") "a" []) (TV (RI 7)));
   SAssert (TEq (TMeth "Bitfield" (TVar "bitfield") "b" []) (TV (RI (-2048))));
   SAssert (TEq (TMeth "Bitfield" (TVar "bitfield") "c" []) (TV (RI (-1))))]) = true.
Proof. vm_compute. reflexivity. Qed.

(* lib_tests.rs:1076 *)
Example bitfield_builder_unchecked_setters_truncate : is_passed (run_test
  [(mkUnit "Bitfield" (Parser.mkRDecl true VisPublic "Bitfield" (Some (Parser.RPath "u16")) []
     [Parser.mkRField "a" VisPrivate (Parser.AList (Parser.RBits 4 "") []) (Parser.RPath "u8") (PInt 0) id_codec;
      Parser.mkRField "b" VisPrivate (Parser.AList (Parser.RBits 4 "") []) (Parser.RPath "u8") (PInt 0) id_codec;
      Parser.mkRField "c" VisPrivate (Parser.AList (Parser.RBits 8 "") []) (Parser.RPath "u8") (PInt 0) id_codec]) [])]
  [SLetT "bitfield" (TBuild "Bitfield" "build" [(TBuild "Bitfield" "with_c" [(TBuild "Bitfield" "with_b" [(TBuild "Bitfield" "with_a" [(TBuild "Bitfield" "new" []); (TV (RI 31))]); (TV (RI 0))]); (TV (RI 0))])]);
   SAssert (TEq (TMeth "Bitfield" (TVar "bitfield") "a" []) (TV (RI 15)))]) = true.
Proof. vm_compute. reflexivity. Qed.

(* lib_tests.rs:1092 *)
Example bitfield_from_bits : is_passed (run_test
  [(mkUnit "Bitfield" (Parser.mkRDecl true VisPublic "Bitfield" (Some (Parser.RPath "u32")) []
     [Parser.mkRField "a" VisPrivate (Parser.AList Parser.RNoBits [("default", "0x12")]) (Parser.RPath "u8") (PInt 0) id_codec;
      Parser.mkRField "b" VisPrivate (Parser.AList Parser.RNoBits [("default", "0x34")]) (Parser.RPath "u8") (PInt 0) id_codec;
      Parser.mkRField "c" VisPrivate (Parser.AList Parser.RNoBits [("default", "0x56")]) (Parser.RPath "u8") (PInt 0) id_codec;
      Parser.mkRField "d" VisPrivate (Parser.AList Parser.RNoBits [("default", "0x78")]) (Parser.RPath "u8") (PInt 0) id_codec]) [("a", (ELit 18 None)); ("b", (ELit 52 None)); ("c", (ELit 86 None)); ("d", (ELit 120 None))])]
  [SLetT "bitfield" (TStat "Bitfield" "from_bits" [(TV (RI 287454020))]);
   SAssert (TEq (TMeth "Bitfield" (TVar "bitfield") "a" []) (TV (RI 68)));
   SAssert (TEq (TMeth "Bitfield" (TVar "bitfield") "b" []) (TV (RI 51)));
   SAssert (TEq (TMeth "Bitfield" (TVar "bitfield") "c" []) (TV (RI 34)));
   SAssert (TEq (TMeth "Bitfield" (TVar "bitfield") "d" []) (TV (RI 17)))]) = true.
Proof. vm_compute. reflexivity. Qed.

(* lib_tests.rs:1114 *)
Example bitfield_from_bits_with_defaults : is_passed (run_test
  [(mkUnit "Bitfield" (Parser.mkRDecl true VisPublic "Bitfield" (Some (Parser.RPath "u32")) []
     [Parser.mkRField "a" VisPrivate Parser.ANone (Parser.RPath "u8") (PInt 0) id_codec;
      Parser.mkRField "b" VisPrivate (Parser.AList Parser.RNoBits [("default", "0x34")]) (Parser.RPath "u8") (PInt 0) id_codec;
      Parser.mkRField "c" VisPrivate Parser.ANone (Parser.RPath "u8") (PInt 0) id_codec;
      Parser.mkRField "d" VisPrivate (Parser.AList Parser.RNoBits [("default", "0x78")]) (Parser.RPath "u8") (PInt 0) id_codec]) [("b", (ELit 52 None)); ("d", (ELit 120 None))])]
  [SLetT "bitfield" (TStat "Bitfield" "from_bits_with_defaults" [(TV (RI 287454020))]);
   SAssert (TEq (TMeth "Bitfield" (TVar "bitfield") "a" []) (TV (RI 68)));
   SAssert (TEq (TMeth "Bitfield" (TVar "bitfield") "b" []) (TV (RI 52)));
   SAssert (TEq (TMeth "Bitfield" (TVar "bitfield") "c" []) (TV (RI 34)));
   SAssert (TEq (TMeth "Bitfield" (TVar "bitfield") "d" []) (TV (RI 120)))]) = true.
Proof. vm_compute. reflexivity. Qed.

(* lib_tests.rs:1134 *)
Example bitfield_from_bits_with_defaults_all_fields_have_defaults : is_passed (run_test
  [(mkUnit "Bitfield" (Parser.mkRDecl true VisPublic "Bitfield" (Some (Parser.RPath "u32")) []
     [Parser.mkRField "a" VisPrivate (Parser.AList Parser.RNoBits [("default", "0x12")]) (Parser.RPath "u8") (PInt 0) id_codec;
      Parser.mkRField "b" VisPrivate (Parser.AList Parser.RNoBits [("default", "0x34")]) (Parser.RPath "u8") (PInt 0) id_codec;
      Parser.mkRField "c" VisPrivate (Parser.AList Parser.RNoBits [("default", "0x56")]) (Parser.RPath "u8") (PInt 0) id_codec;
      Parser.mkRField "d" VisPrivate (Parser.AList Parser.RNoBits [("default", "0x78")]) (Parser.RPath "u8") (PInt 0) id_codec]) [("a", (ELit 18 None)); ("b", (ELit 52 None)); ("c", (ELit 86 None)); ("d", (ELit 120 None))])]
  [SLetT "bitfield" (TStat "Bitfield" "from_bits_with_defaults" [(TV (RI 287454020))]);
   SAssert (TEq (TMeth "Bitfield" (TVar "bitfield") "a" []) (TV (RI 18)));
   SAssert (TEq (TMeth "Bitfield" (TVar "bitfield") "b" []) (TV (RI 52)));
   SAssert (TEq (TMeth "Bitfield" (TVar "bitfield") "c" []) (TV (RI 86)));
   SAssert (TEq (TMeth "Bitfield" (TVar "bitfield") "d" []) (TV (RI 120)))]) = true.
Proof. vm_compute. reflexivity. Qed.

(* lib_tests.rs:1156 *)
Example bitfield_from_bits_booleans : is_passed (run_test
  [(mkUnit "Bitfield" (Parser.mkRDecl true VisPublic "Bitfield" (Some (Parser.RPath "u8")) []
     [Parser.mkRField "a" VisPrivate Parser.ANone (Parser.RPath "bool") (PInt 0) id_codec;
      Parser.mkRField "b" VisPrivate (Parser.AList Parser.RNoBits [("default", "false")]) (Parser.RPath "bool") (PInt 0) id_codec;
      Parser.mkRField "c" VisPrivate Parser.ANone (Parser.RPath "bool") (PInt 0) id_codec;
      Parser.mkRField "d" VisPrivate Parser.ANone (Parser.RPath "bool") (PInt 0) id_codec;
      Parser.mkRField "e" VisPrivate (Parser.AList Parser.RNoBits [("default", "false")]) (Parser.RPath "bool") (PInt 0) id_codec;
      Parser.mkRField "f" VisPrivate Parser.ANone (Parser.RPath "bool") (PInt 0) id_codec;
      Parser.mkRField "g" VisPrivate (Parser.AList Parser.RNoBits [("default", "true")]) (Parser.RPath "bool") (PInt 0) id_codec;
      Parser.mkRField "h" VisPrivate Parser.ANone (Parser.RPath "bool") (PInt 0) id_codec]) [("b", (EBool false)); ("e", (EBool false)); ("g", (EBool true))])]
  [SLetT "bitfield" (TStat "Bitfield" "from_bits" [(TV (RI 255))]);
   SAssert (TMeth "Bitfield" (TVar "bitfield") "a" []);
   SAssert (TMeth "Bitfield" (TVar "bitfield") "b" []);
   SAssert (TMeth "Bitfield" (TVar "bitfield") "c" []);
   SAssert (TMeth "Bitfield" (TVar "bitfield") "d" []);
   SAssert (TMeth "Bitfield" (TVar "bitfield") "e" []);
   SAssert (TMeth "Bitfield" (TVar "bitfield") "f" []);
   SAssert (TMeth "Bitfield" (TVar "bitfield") "g" []);
   SAssert (TMeth "Bitfield" (TVar "bitfield") "h" [])]) = true.
Proof. vm_compute. reflexivity. Qed.

(* lib_tests.rs:1185 *)
Example bitfield_from_bits_with_defaults_booleans : is_passed (run_test
  [(mkUnit "Bitfield" (Parser.mkRDecl true VisPublic "Bitfield" (Some (Parser.RPath "u8")) []
     [Parser.mkRField "a" VisPrivate Parser.ANone (Parser.RPath "bool") (PInt 0) id_codec;
      Parser.mkRField "b" VisPrivate (Parser.AList Parser.RNoBits [("default", "false")]) (Parser.RPath "bool") (PInt 0) id_codec;
      Parser.mkRField "c" VisPrivate Parser.ANone (Parser.RPath "bool") (PInt 0) id_codec;
      Parser.mkRField "d" VisPrivate Parser.ANone (Parser.RPath "bool") (PInt 0) id_codec;
      Parser.mkRField "e" VisPrivate (Parser.AList Parser.RNoBits [("default", "false")]) (Parser.RPath "bool") (PInt 0) id_codec;
      Parser.mkRField "f" VisPrivate Parser.ANone (Parser.RPath "bool") (PInt 0) id_codec;
      Parser.mkRField "g" VisPrivate (Parser.AList Parser.RNoBits [("default", "true")]) (Parser.RPath "bool") (PInt 0) id_codec;
      Parser.mkRField "h" VisPrivate Parser.ANone (Parser.RPath "bool") (PInt 0) id_codec]) [("b", (EBool false)); ("e", (EBool false)); ("g", (EBool true))])]
  [SLetT "bitfield" (TStat "Bitfield" "from_bits_with_defaults" [(TV (RI 255))]);
   SAssert (TMeth "Bitfield" (TVar "bitfield") "a" []);
   SAssert (TNot (TMeth "Bitfield" (TVar "bitfield") "b" []));
   SAssert (TMeth "Bitfield" (TVar "bitfield") "c" []);
   SAssert (TMeth "Bitfield" (TVar "bitfield") "d" []);
   SAssert (TNot (TMeth "Bitfield" (TVar "bitfield") "e" []));
   SAssert (TMeth "Bitfield" (TVar "bitfield") "f" []);
   SAssert (TMeth "Bitfield" (TVar "bitfield") "g" []);
   SAssert (TMeth "Bitfield" (TVar "bitfield") "h" [])]) = true.
Proof. vm_compute. reflexivity. Qed.

(* lib_tests.rs:1214 *)
Example bitfield_lsb : is_passed (run_test
  [(mkUnit "Bitfield" (Parser.mkRDecl true VisPublic "Bitfield" (Some (Parser.RPath "u32")) [("order", "Lsb")]
     [Parser.mkRField "a" VisPrivate (Parser.AList Parser.RNoBits [("default", "0x12")]) (Parser.RPath "u8") (PInt 0) id_codec;
      Parser.mkRField "b" VisPrivate (Parser.AList Parser.RNoBits [("default", "0x34")]) (Parser.RPath "u8") (PInt 0) id_codec;
      Parser.mkRField "c" VisPrivate (Parser.AList Parser.RNoBits [("default", "0x56")]) (Parser.RPath "u8") (PInt 0) id_codec;
      Parser.mkRField "d" VisPrivate (Parser.AList Parser.RNoBits [("default", "0x78")]) (Parser.RPath "u8") (PInt 0) id_codec]) [("a", (ELit 18 None)); ("b", (ELit 52 None)); ("c", (ELit 86 None)); ("d", (ELit 120 None))])]
  [SLetT "bitfield" (TStat "Bitfield" "new" []);
   SAssert (TEq (TMeth "Bitfield" (TVar "bitfield") "a" []) (TV (RI 18)));
   SAssert (TEq (TMeth "Bitfield" (TVar "bitfield") "b" []) (TV (RI 52)));
   SAssert (TEq (TMeth "Bitfield" (TVar "bitfield") "c" []) (TV (RI 86)));
   SAssert (TEq (TMeth "Bitfield" (TVar "bitfield") "d" []) (TV (RI 120)));
   SAssert (TEq (TMeth "Bitfield" (TVar "bitfield") "into_bits" []) (TV (RI 2018915346)))]) = true.
Proof. vm_compute. reflexivity. Qed.

(* lib_tests.rs:1237 *)
Example bitfield_msb : is_passed (run_test
  [(mkUnit "Bitfield" (Parser.mkRDecl true VisPublic "Bitfield" (Some (Parser.RPath "u32")) [("order", "Msb")]
     [Parser.mkRField "a" VisPrivate (Parser.AList Parser.RNoBits [("default", "0x12")]) (Parser.RPath "u8") (PInt 0) id_codec;
      Parser.mkRField "b" VisPrivate (Parser.AList Parser.RNoBits [("default", "0x34")]) (Parser.RPath "u8") (PInt 0) id_codec;
      Parser.mkRField "c" VisPrivate (Parser.AList Parser.RNoBits [("default", "0x56")]) (Parser.RPath "u8") (PInt 0) id_codec;
      Parser.mkRField "d" VisPrivate (Parser.AList Parser.RNoBits [("default", "0x78")]) (Parser.RPath "u8") (PInt 0) id_codec]) [("a", (ELit 18 None)); ("b", (ELit 52 None)); ("c", (ELit 86 None)); ("d", (ELit 120 None))])]
  [SLetT "bitfield" (TStat "Bitfield" "new" []);
   SAssert (TEq (TMeth "Bitfield" (TVar "bitfield") "a" []) (TV (RI 18)));
   SAssert (TEq (TMeth "Bitfield" (TVar "bitfield") "b" []) (TV (RI 52)));
   SAssert (TEq (TMeth "Bitfield" (TVar "bitfield") "c" []) (TV (RI 86)));
   SAssert (TEq (TMeth "Bitfield" (TVar "bitfield") "d" []) (TV (RI 120)));
   SAssert (TEq (TMeth "Bitfield" (TVar "bitfield") "into_bits" []) (TV (RI 305419896)))]) = true.
Proof. vm_compute. reflexivity. Qed.

(* lib_tests.rs:1260 *)
Example bitfield_lsb_by_default : is_passed (run_test
  [(mkUnit "Bitfield" (Parser.mkRDecl true VisPublic "Bitfield" (Some (Parser.RPath "u32")) []
     [Parser.mkRField "a" VisPrivate (Parser.AList Parser.RNoBits [("default", "0x12")]) (Parser.RPath "u8") (PInt 0) id_codec;
      Parser.mkRField "b" VisPrivate (Parser.AList Parser.RNoBits [("default", "0x34")]) (Parser.RPath "u8") (PInt 0) id_codec;
      Parser.mkRField "c" VisPrivate (Parser.AList Parser.RNoBits [("default", "0x56")]) (Parser.RPath "u8") (PInt 0) id_codec;
      Parser.mkRField "d" VisPrivate (Parser.AList Parser.RNoBits [("default", "0x78")]) (Parser.RPath "u8") (PInt 0) id_codec]) [("a", (ELit 18 None)); ("b", (ELit 52 None)); ("c", (ELit 86 None)); ("d", (ELit 120 None))])]
  [SLetT "bitfield" (TStat "Bitfield" "new" []);
   SAssert (TEq (TMeth "Bitfield" (TVar "bitfield") "a" []) (TV (RI 18)));
   SAssert (TEq (TMeth "Bitfield" (TVar "bitfield") "b" []) (TV (RI 52)));
   SAssert (TEq (TMeth "Bitfield" (TVar "bitfield") "c" []) (TV (RI 86)));
   SAssert (TEq (TMeth "Bitfield" (TVar "bitfield") "d" []) (TV (RI 120)));
   SAssert (TEq (TMeth "Bitfield" (TVar "bitfield") "into_bits" []) (TV (RI 2018915346)))]) = true.
Proof. vm_compute. reflexivity. Qed.

(* lib_tests.rs:1283 *)
Example bitfield_debug : is_passed (run_test
  [(mkUnit "Bitfield" (Parser.mkRDecl true VisPublic "Bitfield" (Some (Parser.RPath "u32")) []
     [Parser.mkRField "a" VisPrivate (Parser.AList Parser.RNoBits [("default", "0x12")]) (Parser.RPath "u8") (PInt 0) id_codec;
      Parser.mkRField "b" VisPrivate (Parser.AList Parser.RNoBits [("default", "0x34")]) (Parser.RPath "u8") (PInt 0) id_codec;
      Parser.mkRField "c" VisPrivate (Parser.AList Parser.RNoBits [("default", "0x56")]) (Parser.RPath "u8") (PInt 0) id_codec;
      Parser.mkRField "d" VisPrivate (Parser.AList Parser.RNoBits [("default", "0x78")]) (Parser.RPath "u8") (PInt 0) id_codec]) [("a", (ELit 18 None)); ("b", (ELit 52 None)); ("c", (ELit 86 None)); ("d", (ELit 120 None))])]
  [SLetT "bitfield" (TStat "Bitfield" "new" []);
   SLetT "debug_str" (TFmt "Bitfield" (TVar "bitfield"));
   SAssert (TEq (TVar "debug_str") (TV (RErr "Bitfield { a: 18, b: 52, c: 86, d: 120 }")))]) = true.
Proof. vm_compute. reflexivity. Qed.

(* lib_tests.rs:1303 *)
Example bitfield_debug_msb : is_passed (run_test
  [(mkUnit "Bitfield" (Parser.mkRDecl true VisPublic "Bitfield" (Some (Parser.RPath "u32")) [("order", "Msb")]
     [Parser.mkRField "a" VisPrivate (Parser.AList Parser.RNoBits [("default", "0x12")]) (Parser.RPath "u8") (PInt 0) id_codec;
      Parser.mkRField "b" VisPrivate (Parser.AList Parser.RNoBits [("default", "0x34")]) (Parser.RPath "u8") (PInt 0) id_codec;
      Parser.mkRField "c" VisPrivate (Parser.AList Parser.RNoBits [("default", "0x56")]) (Parser.RPath "u8") (PInt 0) id_codec;
      Parser.mkRField "d" VisPrivate (Parser.AList Parser.RNoBits [("default", "0x78")]) (Parser.RPath "u8") (PInt 0) id_codec]) [("a", (ELit 18 None)); ("b", (ELit 52 None)); ("c", (ELit 86 None)); ("d", (ELit 120 None))])]
  [SLetT "bitfield" (TStat "Bitfield" "new" []);
   SLetT "debug_str" (TFmt "Bitfield" (TVar "bitfield"));
   SAssert (TEq (TVar "debug_str") (TV (RErr "Bitfield { a: 18, b: 52, c: 86, d: 120 }")))]) = true.
Proof. vm_compute. reflexivity. Qed.

(* lib_tests.rs:1323 *)
Example bitfield_field_access_write_only_can_write : is_passed (run_test
  [(mkUnit "Bitfield" (Parser.mkRDecl true VisPublic "Bitfield" (Some (Parser.RPath "u32")) []
     [Parser.mkRField "a" VisPrivate (Parser.AList Parser.RNoBits [("default", "0x12"); ("access", "wo")]) (Parser.RPath "u32") (PInt 0) id_codec]) [("a", (ELit 18 None))])]
  [SDo (TMeth "Bitfield" (TStat "Bitfield" "new" []) "set_a" [(TV (RI 52))]);
   SDo (TBuild "Bitfield" "build" [(TBuild "Bitfield" "with_a" [(TBuild "Bitfield" "new" []); (TV (RI 52))])])]) = true.
Proof. vm_compute. reflexivity. Qed.

(* lib_tests.rs:1335 *)
Example bitfield_field_access_read_only_can_read : is_passed (run_test
  [(mkUnit "Bitfield" (Parser.mkRDecl true VisPublic "Bitfield" (Some (Parser.RPath "u32")) []
     [Parser.mkRField "a" VisPrivate (Parser.AList Parser.RNoBits [("default", "0x12"); ("access", "ro")]) (Parser.RPath "u32") (PInt 0) id_codec]) [("a", (ELit 18 None))])]
  [SAssert (TEq (TMeth "Bitfield" (TStat "Bitfield" "new" []) "a" []) (TV (RI 18)));
   SAssert (TEq (TMeth "Bitfield" (TBuild "Bitfield" "build" [(TBuild "Bitfield" "new" [])]) "a" []) (TV (RI 18)))]) = true.
Proof. vm_compute. reflexivity. Qed.

(* lib_tests.rs:1347 *)
Example bitfield_from_bits_field_access_read_only : is_passed (run_test
  [(mkUnit "Bitfield" (Parser.mkRDecl true VisPrivate "Bitfield" (Some (Parser.RPath "u8")) []
     [Parser.mkRField "rw" VisPrivate (Parser.AList (Parser.RBits 4 "") []) (Parser.RPath "u8") (PInt 0) id_codec;
      Parser.mkRField "ro" VisPrivate (Parser.AList (Parser.RBits 4 "") [("access", "ro")]) (Parser.RPath "u8") (PInt 0) id_codec]) [])]
  [SLetT "bar1" (TStat "Bitfield" "from_bits" [(TV (RI 255))]);
   SAssert (TEq (TV (RI 15)) (TMeth "Bitfield" (TVar "bar1") "rw" []));
   SAssert (TEq (TV (RI 15)) (TMeth "Bitfield" (TVar "bar1") "ro" []));
   SLetT "bar2" (TBuild "Bitfield" "build" [(TBuild "Bitfield" "with_ro" [(TBuild "Bitfield" "new" []); (TV (RI 15))])]);
   SAssert (TEq (TV (RI 15)) (TMeth "Bitfield" (TVar "bar2") "ro" []))]) = true.
Proof. vm_compute. reflexivity. Qed.

(* lib_tests.rs:1365 *)
Example bitfield_from_bits_sets_read_only_fields : is_passed (run_test
  [(mkUnit "Bitfield" (Parser.mkRDecl true VisPublic "Bitfield" (Some (Parser.RPath "u32")) []
     [Parser.mkRField "rw_field" VisPrivate (Parser.AList Parser.RNoBits [("default", "0x12")]) (Parser.RPath "u8") (PInt 0) id_codec;
      Parser.mkRField "ro_field" VisPrivate (Parser.AList Parser.RNoBits [("default", "0x34"); ("access", "ro")]) (Parser.RPath "u8") (PInt 0) id_codec;
      Parser.mkRField "no_default_field" VisPrivate Parser.ANone (Parser.RPath "u8") (PInt 0) id_codec;
      Parser.mkRField "another_field" VisPrivate (Parser.AList Parser.RNoBits [("default", "0x78")]) (Parser.RPath "u8") (PInt 0) id_codec]) [("rw_field", (ELit 18 None)); ("ro_field", (ELit 52 None)); ("another_field", (ELit 120 None))])]
  [SLetT "bitfield" (TStat "Bitfield" "from_bits" [(TV (RI 287454020))]);
   SAssert (TEq (TMeth "Bitfield" (TVar "bitfield") "rw_field" []) (TV (RI 68)));
   SAssert (TEq (TMeth "Bitfield" (TVar "bitfield") "ro_field" []) (TV (RI 51)));
   SAssert (TEq (TMeth "Bitfield" (TVar "bitfield") "no_default_field" []) (TV (RI 34)));
   SAssert (TEq (TMeth "Bitfield" (TVar "bitfield") "another_field" []) (TV (RI 17)));
   SAssert (TEq (TMeth "Bitfield" (TVar "bitfield") "into_bits" []) (TV (RI 287454020)))]) = true.
Proof. vm_compute. reflexivity. Qed.

(* lib_tests.rs:1386 *)
Example bitfield_from_bits_sets_read_only_bool_fields : is_passed (run_test
  [(mkUnit "Bitfield" (Parser.mkRDecl true VisPublic "Bitfield" (Some (Parser.RPath "u16")) []
     [Parser.mkRField "a" VisPrivate (Parser.AList (Parser.RBits 4 "") []) (Parser.RPath "u8") (PInt 0) id_codec;
      Parser.mkRField "ro_bool" VisPrivate (Parser.AList Parser.RNoBits [("access", "ro")]) (Parser.RPath "bool") (PInt 0) id_codec;
      Parser.mkRField "b" VisPrivate (Parser.AList (Parser.RBits 3 "") []) (Parser.RPath "u8") (PInt 0) id_codec;
      Parser.mkRField "c" VisPrivate (Parser.AList (Parser.RBits 8 "") []) (Parser.RPath "u8") (PInt 0) id_codec]) [])]
  [SLetT "bitfield_true" (TStat "Bitfield" "from_bits" [(TV (RI 65535))]);
   SAssert (TMeth "Bitfield" (TVar "bitfield_true") "ro_bool" []);
   SLetT "bitfield_false" (TStat "Bitfield" "from_bits" [(TV (RI 65519))]);
   SAssert (TNot (TMeth "Bitfield" (TVar "bitfield_false") "ro_bool" []))]) = true.
Proof. vm_compute. reflexivity. Qed.

(* lib_tests.rs:1406 *)
Example bitfield_field_access_na : is_passed (run_test
  [(mkUnit "Bitfield" (Parser.mkRDecl true VisPublic "Bitfield" (Some (Parser.RPath "u32")) []
     [Parser.mkRField "a" VisPrivate (Parser.AList Parser.RNoBits [("default", "0x12"); ("access", "na")]) (Parser.RPath "u32") (PInt 0) id_codec]) [("a", (ELit 18 None))])]
  [SLetT "bitfield" (TStat "Bitfield" "new" []);
   SAssert (TEq (TMeth "Bitfield" (TVar "bitfield") "into_bits" []) (TV (RI 18)))]) = true.
Proof. vm_compute. reflexivity. Qed.

(* lib_tests.rs:1418 *)
Example bitfield_from_type : is_passed (run_test
  [(mkUnit "Bitfield" (Parser.mkRDecl true VisPublic "Bitfield" (Some (Parser.RPath "u32")) []
     [Parser.mkRField "a" VisPrivate (Parser.AList Parser.RNoBits [("default", "0x12")]) (Parser.RPath "u8") (PInt 0) id_codec;
      Parser.mkRField "b" VisPrivate (Parser.AList Parser.RNoBits [("default", "0x34")]) (Parser.RPath "u8") (PInt 0) id_codec;
      Parser.mkRField "c" VisPrivate (Parser.AList Parser.RNoBits [("default", "0x56")]) (Parser.RPath "u8") (PInt 0) id_codec;
      Parser.mkRField "d" VisPrivate (Parser.AList Parser.RNoBits [("default", "0x78")]) (Parser.RPath "u8") (PInt 0) id_codec]) [("a", (ELit 18 None)); ("b", (ELit 52 None)); ("c", (ELit 86 None)); ("d", (ELit 120 None))])]
  [SLetT "bitfield" (TFrom "Bitfield" (TV (RI 287454020)));
   SAssert (TEq (TMeth "Bitfield" (TVar "bitfield") "a" []) (TV (RI 68)));
   SAssert (TEq (TMeth "Bitfield" (TVar "bitfield") "b" []) (TV (RI 51)));
   SAssert (TEq (TMeth "Bitfield" (TVar "bitfield") "c" []) (TV (RI 34)));
   SAssert (TEq (TMeth "Bitfield" (TVar "bitfield") "d" []) (TV (RI 17)));
   SAssert (TEq (TMeth "Bitfield" (TVar "bitfield") "into_bits" []) (TV (RI 287454020)))]) = true.
Proof. vm_compute. reflexivity. Qed.

(* lib_tests.rs:1441 *)
Example bitfield_into_type : is_passed (run_test
  [(mkUnit "Bitfield" (Parser.mkRDecl true VisPublic "Bitfield" (Some (Parser.RPath "u32")) []
     [Parser.mkRField "a" VisPrivate (Parser.AList Parser.RNoBits [("default", "0x12")]) (Parser.RPath "u8") (PInt 0) id_codec;
      Parser.mkRField "b" VisPrivate (Parser.AList Parser.RNoBits [("default", "0x34")]) (Parser.RPath "u8") (PInt 0) id_codec;
      Parser.mkRField "c" VisPrivate (Parser.AList Parser.RNoBits [("default", "0x56")]) (Parser.RPath "u8") (PInt 0) id_codec;
      Parser.mkRField "d" VisPrivate (Parser.AList Parser.RNoBits [("default", "0x78")]) (Parser.RPath "u8") (PInt 0) id_codec]) [("a", (ELit 18 None)); ("b", (ELit 52 None)); ("c", (ELit 86 None)); ("d", (ELit 120 None))])]
  [SLetT "bitfield" (TStat "Bitfield" "new" []);
   SLetT "val" (TInto "Bitfield" (TVar "bitfield"));
   SAssert (TEq (TVar "val") (TV (RI 2018915346)))]) = true.
Proof. vm_compute. reflexivity. Qed.

(* lib_tests.rs:1461 *)
Example bitfield_from_bits_little_endian : is_passed (run_test
  [(mkUnit "Bitfield" (Parser.mkRDecl true VisPublic "Bitfield" (Some (Parser.RPath "u32")) [("from_endian", "little")]
     [Parser.mkRField "a" VisPrivate Parser.ANone (Parser.RPath "u8") (PInt 0) id_codec;
      Parser.mkRField "b" VisPrivate Parser.ANone (Parser.RPath "u8") (PInt 0) id_codec;
      Parser.mkRField "c" VisPrivate Parser.ANone (Parser.RPath "u8") (PInt 0) id_codec;
      Parser.mkRField "d" VisPrivate Parser.ANone (Parser.RPath "u8") (PInt 0) id_codec]) [])]
  [SLetT "bitfield" (TStat "Bitfield" "from_bits" [(TV (RI 1144201745))]);
   SAssert (TEq (TMeth "Bitfield" (TVar "bitfield") "a" []) (TV (RI 68)));
   SAssert (TEq (TMeth "Bitfield" (TVar "bitfield") "b" []) (TV (RI 51)));
   SAssert (TEq (TMeth "Bitfield" (TVar "bitfield") "c" []) (TV (RI 34)));
   SAssert (TEq (TMeth "Bitfield" (TVar "bitfield") "d" []) (TV (RI 17)));
   SAssert (TEq (TMeth "Bitfield" (TVar "bitfield") "into_bits" []) (TV (RI 287454020)))]) = true.
Proof. vm_compute. reflexivity. Qed.

(* lib_tests.rs:1480 *)
Example bitfield_from_bits_little_endian_msb_field_order : is_passed (run_test
  [(mkUnit "Bitfield" (Parser.mkRDecl true VisPublic "Bitfield" (Some (Parser.RPath "u32")) [("from_endian", "little"); ("order", "msb")]
     [Parser.mkRField "a" VisPrivate Parser.ANone (Parser.RPath "u8") (PInt 0) id_codec;
      Parser.mkRField "b" VisPrivate Parser.ANone (Parser.RPath "u8") (PInt 0) id_codec;
      Parser.mkRField "c" VisPrivate Parser.ANone (Parser.RPath "u8") (PInt 0) id_codec;
      Parser.mkRField "d" VisPrivate Parser.ANone (Parser.RPath "u8") (PInt 0) id_codec]) [])]
  [SLetT "bitfield" (TStat "Bitfield" "from_bits" [(TV (RI 1144201745))]);
   SAssert (TEq (TMeth "Bitfield" (TVar "bitfield") "d" []) (TV (RI 68)));
   SAssert (TEq (TMeth "Bitfield" (TVar "bitfield") "c" []) (TV (RI 51)));
   SAssert (TEq (TMeth "Bitfield" (TVar "bitfield") "b" []) (TV (RI 34)));
   SAssert (TEq (TMeth "Bitfield" (TVar "bitfield") "a" []) (TV (RI 17)));
   SAssert (TEq (TMeth "Bitfield" (TVar "bitfield") "into_bits" []) (TV (RI 287454020)))]) = true.
Proof. vm_compute. reflexivity. Qed.

(* lib_tests.rs:1499 *)
Example bitfield_from_bits_big_endian : is_passed (run_test
  [(mkUnit "Bitfield" (Parser.mkRDecl true VisPublic "Bitfield" (Some (Parser.RPath "u32")) [("from_endian", "big")]
     [Parser.mkRField "a" VisPrivate Parser.ANone (Parser.RPath "u8") (PInt 0) id_codec;
      Parser.mkRField "b" VisPrivate Parser.ANone (Parser.RPath "u8") (PInt 0) id_codec;
      Parser.mkRField "c" VisPrivate Parser.ANone (Parser.RPath "u8") (PInt 0) id_codec;
      Parser.mkRField "d" VisPrivate Parser.ANone (Parser.RPath "u8") (PInt 0) id_codec]) [])]
  [SLetT "bitfield" (TStat "Bitfield" "from_bits" [(TV (RI 287454020))]);
   SAssert (TEq (TMeth "Bitfield" (TVar "bitfield") "a" []) (TV (RI 68)));
   SAssert (TEq (TMeth "Bitfield" (TVar "bitfield") "b" []) (TV (RI 51)));
   SAssert (TEq (TMeth "Bitfield" (TVar "bitfield") "c" []) (TV (RI 34)));
   SAssert (TEq (TMeth "Bitfield" (TVar "bitfield") "d" []) (TV (RI 17)));
   SAssert (TEq (TMeth "Bitfield" (TVar "bitfield") "into_bits" []) (TV (RI 287454020)))]) = true.
Proof. vm_compute. reflexivity. Qed.

(* lib_tests.rs:1518 *)
Example bitfield_from_bits_big_endian_msb_order : is_passed (run_test
  [(mkUnit "Bitfield" (Parser.mkRDecl true VisPublic "Bitfield" (Some (Parser.RPath "u32")) [("from_endian", "big"); ("order", "msb")]
     [Parser.mkRField "a" VisPrivate Parser.ANone (Parser.RPath "u8") (PInt 0) id_codec;
      Parser.mkRField "b" VisPrivate Parser.ANone (Parser.RPath "u8") (PInt 0) id_codec;
      Parser.mkRField "c" VisPrivate Parser.ANone (Parser.RPath "u8") (PInt 0) id_codec;
      Parser.mkRField "d" VisPrivate Parser.ANone (Parser.RPath "u8") (PInt 0) id_codec]) [])]
  [SLetT "bitfield" (TStat "Bitfield" "from_bits" [(TV (RI 287454020))]);
   SAssert (TEq (TMeth "Bitfield" (TVar "bitfield") "d" []) (TV (RI 68)));
   SAssert (TEq (TMeth "Bitfield" (TVar "bitfield") "c" []) (TV (RI 51)));
   SAssert (TEq (TMeth "Bitfield" (TVar "bitfield") "b" []) (TV (RI 34)));
   SAssert (TEq (TMeth "Bitfield" (TVar "bitfield") "a" []) (TV (RI 17)));
   SAssert (TEq (TMeth "Bitfield" (TVar "bitfield") "into_bits" []) (TV (RI 287454020)))]) = true.
Proof. vm_compute. reflexivity. Qed.

(* lib_tests.rs:1537 *)
Example bitfield_into_bits_little_endian : is_passed (run_test
  [(mkUnit "Bitfield" (Parser.mkRDecl true VisPublic "Bitfield" (Some (Parser.RPath "u32")) [("into_endian", "little")]
     [Parser.mkRField "a" VisPrivate (Parser.AList Parser.RNoBits [("default", "0x44")]) (Parser.RPath "u8") (PInt 0) id_codec;
      Parser.mkRField "b" VisPrivate (Parser.AList Parser.RNoBits [("default", "0x33")]) (Parser.RPath "u8") (PInt 0) id_codec;
      Parser.mkRField "c" VisPrivate (Parser.AList Parser.RNoBits [("default", "0x22")]) (Parser.RPath "u8") (PInt 0) id_codec;
      Parser.mkRField "d" VisPrivate (Parser.AList Parser.RNoBits [("default", "0x11")]) (Parser.RPath "u8") (PInt 0) id_codec]) [("a", (ELit 68 None)); ("b", (ELit 51 None)); ("c", (ELit 34 None)); ("d", (ELit 17 None))])]
  [SLetT "bitfield" (TDefault "Bitfield");
   SAssert (TEq (TMeth "Bitfield" (TVar "bitfield") "into_bits" []) (TV (RI 1144201745)))]) = true.
Proof. vm_compute. reflexivity. Qed.

(* lib_tests.rs:1556 *)
Example bitfield_into_bits_big_endian : is_passed (run_test
  [(mkUnit "Bitfield" (Parser.mkRDecl true VisPublic "Bitfield" (Some (Parser.RPath "u32")) [("into_endian", "big")]
     [Parser.mkRField "a" VisPrivate (Parser.AList Parser.RNoBits [("default", "0x44")]) (Parser.RPath "u8") (PInt 0) id_codec;
      Parser.mkRField "b" VisPrivate (Parser.AList Parser.RNoBits [("default", "0x33")]) (Parser.RPath "u8") (PInt 0) id_codec;
      Parser.mkRField "c" VisPrivate (Parser.AList Parser.RNoBits [("default", "0x22")]) (Parser.RPath "u8") (PInt 0) id_codec;
      Parser.mkRField "d" VisPrivate (Parser.AList Parser.RNoBits [("default", "0x11")]) (Parser.RPath "u8") (PInt 0) id_codec]) [("a", (ELit 68 None)); ("b", (ELit 51 None)); ("c", (ELit 34 None)); ("d", (ELit 17 None))])]
  [SLetT "bitfield" (TDefault "Bitfield");
   SAssert (TEq (TMeth "Bitfield" (TVar "bitfield") "into_bits" []) (TV (RI 287454020)))]) = true.
Proof. vm_compute. reflexivity. Qed.

(* lib_tests.rs:1575 *)
Example bitfield_field_visibility : is_passed (run_test
  [(mkUnit "Bitfield" (Parser.mkRDecl true (VisRestricted "(crate)") "Bitfield" (Some (Parser.RPath "u32")) []
     [Parser.mkRField "a" VisPublic (Parser.AList Parser.RNoBits [("default", "0x12")]) (Parser.RPath "u8") (PInt 0) id_codec;
      Parser.mkRField "b" VisPrivate (Parser.AList Parser.RNoBits [("default", "0x34")]) (Parser.RPath "u8") (PInt 0) id_codec;
      Parser.mkRField "c" VisPublic (Parser.AList Parser.RNoBits [("default", "0x56")]) (Parser.RPath "u8") (PInt 0) id_codec;
      Parser.mkRField "d" VisPrivate (Parser.AList Parser.RNoBits [("default", "0x78")]) (Parser.RPath "u8") (PInt 0) id_codec]) [("a", (ELit 18 None)); ("b", (ELit 52 None)); ("c", (ELit 86 None)); ("d", (ELit 120 None))])]
  [SLetT "bitfield" (TStat "Bitfield" "new" []);
   SAssert (TEq (TMeth "Bitfield" (TVar "bitfield") "a" []) (TV (RI 18)));
   SAssert (TEq (TMeth "Bitfield" (TVar "bitfield") "c" []) (TV (RI 86)))]) = true.
Proof. vm_compute. reflexivity. Qed.

(* lib_tests.rs:1594 *)
Example bitfield_const_default_value : is_passed (run_test
  [(mkUnit "Bitfield" (Parser.mkRDecl true VisPublic "Bitfield" (Some (Parser.RPath "u8")) []
     [Parser.mkRField "a" VisPrivate (Parser.AList Parser.RNoBits [("default", "A_VAL")]) (Parser.RPath "u8") (PInt 0) id_codec]) [("a", (EUser (TI U8) (RI 18)))])]
  [SLetT "bitfield" (TStat "Bitfield" "new" []);
   SAssert (TEq (TMeth "Bitfield" (TVar "bitfield") "a" []) (TV (RI 18)))]) = true.
Proof. vm_compute. reflexivity. Qed.

(* lib_tests.rs:1609 *)
Example bitfield_const_func_default_value : is_passed (run_test
  [(mkUnit "Bitfield" (Parser.mkRDecl true VisPublic "Bitfield" (Some (Parser.RPath "u8")) []
     [Parser.mkRField "a" VisPrivate (Parser.AList Parser.RNoBits [("default", "generate_val()")]) (Parser.RPath "u8") (PInt 0) id_codec]) [("a", (EUser (TI U8) (RI 255)))])]
  [SLetT "bitfield" (TStat "Bitfield" "new" []);
   SAssert (TEq (TMeth "Bitfield" (TVar "bitfield") "a" []) (TV (RI 255)))]) = true.
Proof. vm_compute. reflexivity. Qed.

(* lib_tests.rs:1625 *)
Example bitfield_get_bit : is_passed (run_test
  [(mkUnit "Bitfield" (Parser.mkRDecl true VisPublic "Bitfield" (Some (Parser.RPath "u8")) [("bit_ops", "true")]
     [Parser.mkRField "a" VisPrivate (Parser.AList (Parser.RBits 2 "") [("default", "0b11")]) (Parser.RPath "u8") (PInt 0) id_codec;
      Parser.mkRField "b" VisPrivate (Parser.AList (Parser.RBits 2 "") [("default", "0b00")]) (Parser.RPath "u8") (PInt 0) id_codec;
      Parser.mkRField "c" VisPrivate (Parser.AList (Parser.RBits 2 "") [("default", "0b10"); ("access", "wo")]) (Parser.RPath "u8") (PInt 0) id_codec;
      Parser.mkRField "_d" VisPrivate (Parser.AList (Parser.RBits 2 "") [("default", "0b01")]) (Parser.RPath "u8") (PInt 0) id_codec]) [("a", (ELit 3 None)); ("b", (ELit 0 None)); ("c", (ELit 2 None)); ("_d", (ELit 1 None))])]
  [SLetT "bitfield" (TStat "Bitfield" "new" []);
   SAssert (TMeth "Bitfield" (TVar "bitfield") "get_bit" [(TV (RI 0))]);
   SAssert (TMeth "Bitfield" (TVar "bitfield") "get_bit" [(TV (RI 1))]);
   SAssert (TNot (TMeth "Bitfield" (TVar "bitfield") "get_bit" [(TV (RI 2))]));
   SAssert (TNot (TMeth "Bitfield" (TVar "bitfield") "get_bit" [(TV (RI 3))]));
   SAssert (TNot (TMeth "Bitfield" (TVar "bitfield") "get_bit" [(TV (RI 4))]));
   SAssert (TNot (TMeth "Bitfield" (TVar "bitfield") "get_bit" [(TV (RI 5))]));
   SAssert (TMeth "Bitfield" (TVar "bitfield") "get_bit" [(TV (RI 6))]);
   SAssert (TNot (TMeth "Bitfield" (TVar "bitfield") "get_bit" [(TV (RI 7))]))]) = true.
Proof. vm_compute. reflexivity. Qed.

(* lib_tests.rs:1651 *)
Example bitfield_get_bit_out_of_bounds : is_passed (run_test
  [(mkUnit "Bitfield" (Parser.mkRDecl true VisPublic "Bitfield" (Some (Parser.RPath "u8")) [("bit_ops", "true")]
     [Parser.mkRField "a" VisPrivate (Parser.AList (Parser.RBits 2 "") [("default", "0b11")]) (Parser.RPath "u8") (PInt 0) id_codec;
      Parser.mkRField "b" VisPrivate (Parser.AList (Parser.RBits 2 "") [("default", "0b00")]) (Parser.RPath "u8") (PInt 0) id_codec;
      Parser.mkRField "c" VisPrivate (Parser.AList (Parser.RBits 2 "") [("default", "0b10"); ("access", "wo")]) (Parser.RPath "u8") (PInt 0) id_codec;
      Parser.mkRField "_d" VisPrivate (Parser.AList (Parser.RBits 2 "") [("default", "0b01")]) (Parser.RPath "u8") (PInt 0) id_codec]) [("a", (ELit 3 None)); ("b", (ELit 0 None)); ("c", (ELit 2 None)); ("_d", (ELit 1 None))])]
  [SLetT "bitfield" (TStat "Bitfield" "new" []);
   SAssert (TNot (TMeth "Bitfield" (TVar "bitfield") "get_bit" [(TV (RI 8))]));
   SAssert (TNot (TMeth "Bitfield" (TVar "bitfield") "get_bit" [(TV (RI 50))]))]) = true.
Proof. vm_compute. reflexivity. Qed.

(* lib_tests.rs:1671 *)
Example bitfield_checked_get_bit : is_passed (run_test
  [(mkUnit "Bitfield" (Parser.mkRDecl true VisPublic "Bitfield" (Some (Parser.RPath "u8")) [("bit_ops", "true")]
     [Parser.mkRField "a" VisPrivate (Parser.AList (Parser.RBits 2 "") [("default", "0b11")]) (Parser.RPath "u8") (PInt 0) id_codec;
      Parser.mkRField "b" VisPrivate (Parser.AList (Parser.RBits 2 "") [("default", "0b00")]) (Parser.RPath "u8") (PInt 0) id_codec;
      Parser.mkRField "c" VisPrivate (Parser.AList (Parser.RBits 2 "") [("default", "0b10"); ("access", "wo")]) (Parser.RPath "u8") (PInt 0) id_codec;
      Parser.mkRField "_d" VisPrivate (Parser.AList (Parser.RBits 2 "") [("default", "0b01")]) (Parser.RPath "u8") (PInt 0) id_codec]) [("a", (ELit 3 None)); ("b", (ELit 0 None)); ("c", (ELit 2 None)); ("_d", (ELit 1 None))])]
  [SLetT "bitfield" (TStat "Bitfield" "new" []);
   SAssert (TUnwrap (TMeth "Bitfield" (TVar "bitfield") "checked_get_bit" [(TV (RI 0))]));
   SAssert (TUnwrap (TMeth "Bitfield" (TVar "bitfield") "checked_get_bit" [(TV (RI 1))]));
   SAssert (TNot (TUnwrap (TMeth "Bitfield" (TVar "bitfield") "checked_get_bit" [(TV (RI 2))])));
   SAssert (TNot (TUnwrap (TMeth "Bitfield" (TVar "bitfield") "checked_get_bit" [(TV (RI 3))])));
   SAssert (TIsErr (TMeth "Bitfield" (TVar "bitfield") "checked_get_bit" [(TV (RI 4))]));
   SAssert (TIsErr (TMeth "Bitfield" (TVar "bitfield") "checked_get_bit" [(TV (RI 5))]));
   SAssert (TMeth "Bitfield" (TVar "bitfield") "get_bit" [(TV (RI 6))]);
   SAssert (TNot (TMeth "Bitfield" (TVar "bitfield") "get_bit" [(TV (RI 7))]))]) = true.
Proof. vm_compute. reflexivity. Qed.

(* lib_tests.rs:1697 *)
Example bitfield_checked_get_bit_none_access : is_passed (run_test
  [(mkUnit "Bitfield" (Parser.mkRDecl true VisPublic "Bitfield" (Some (Parser.RPath "u8")) [("bit_ops", "true")]
     [Parser.mkRField "a" VisPrivate (Parser.AList (Parser.RBits 2 "") [("default", "0b11")]) (Parser.RPath "u8") (PInt 0) id_codec;
      Parser.mkRField "b" VisPrivate (Parser.AList (Parser.RBits 2 "") [("default", "0b00")]) (Parser.RPath "u8") (PInt 0) id_codec;
      Parser.mkRField "c" VisPrivate (Parser.AList (Parser.RBits 2 "") [("default", "0b10"); ("access", "na")]) (Parser.RPath "u8") (PInt 0) id_codec;
      Parser.mkRField "_d" VisPrivate (Parser.AList (Parser.RBits 2 "") [("default", "0b01")]) (Parser.RPath "u8") (PInt 0) id_codec]) [("a", (ELit 3 None)); ("b", (ELit 0 None)); ("c", (ELit 2 None)); ("_d", (ELit 1 None))])]
  [SLetT "bitfield" (TStat "Bitfield" "new" []);
   SAssert (TUnwrap (TMeth "Bitfield" (TVar "bitfield") "checked_get_bit" [(TV (RI 0))]));
   SAssert (TUnwrap (TMeth "Bitfield" (TVar "bitfield") "checked_get_bit" [(TV (RI 1))]));
   SAssert (TNot (TUnwrap (TMeth "Bitfield" (TVar "bitfield") "checked_get_bit" [(TV (RI 2))])));
   SAssert (TNot (TUnwrap (TMeth "Bitfield" (TVar "bitfield") "checked_get_bit" [(TV (RI 3))])));
   SAssert (TIsErr (TMeth "Bitfield" (TVar "bitfield") "checked_get_bit" [(TV (RI 4))]));
   SAssert (TIsErr (TMeth "Bitfield" (TVar "bitfield") "checked_get_bit" [(TV (RI 5))]));
   SAssert (TMeth "Bitfield" (TVar "bitfield") "get_bit" [(TV (RI 6))]);
   SAssert (TNot (TMeth "Bitfield" (TVar "bitfield") "get_bit" [(TV (RI 7))]))]) = true.
Proof. vm_compute. reflexivity. Qed.

(* lib_tests.rs:1723 *)
Example bitfield_checked_get_bit_rw_access : is_passed (run_test
  [(mkUnit "Bitfield" (Parser.mkRDecl true VisPublic "Bitfield" (Some (Parser.RPath "u8")) [("bit_ops", "true")]
     [Parser.mkRField "a" VisPrivate (Parser.AList (Parser.RBits 2 "") [("default", "0b11")]) (Parser.RPath "u8") (PInt 0) id_codec;
      Parser.mkRField "b" VisPrivate (Parser.AList (Parser.RBits 2 "") [("default", "0b00")]) (Parser.RPath "u8") (PInt 0) id_codec;
      Parser.mkRField "c" VisPrivate (Parser.AList (Parser.RBits 2 "") [("default", "0b10"); ("access", "rw")]) (Parser.RPath "u8") (PInt 0) id_codec;
      Parser.mkRField "_d" VisPrivate (Parser.AList (Parser.RBits 2 "") [("default", "0b01")]) (Parser.RPath "u8") (PInt 0) id_codec]) [("a", (ELit 3 None)); ("b", (ELit 0 None)); ("c", (ELit 2 None)); ("_d", (ELit 1 None))])]
  [SLetT "bitfield" (TStat "Bitfield" "new" []);
   SAssert (TUnwrap (TMeth "Bitfield" (TVar "bitfield") "checked_get_bit" [(TV (RI 0))]));
   SAssert (TUnwrap (TMeth "Bitfield" (TVar "bitfield") "checked_get_bit" [(TV (RI 1))]));
   SAssert (TNot (TUnwrap (TMeth "Bitfield" (TVar "bitfield") "checked_get_bit" [(TV (RI 2))])));
   SAssert (TNot (TUnwrap (TMeth "Bitfield" (TVar "bitfield") "checked_get_bit" [(TV (RI 3))])));
   SAssert (TNot (TUnwrap (TMeth "Bitfield" (TVar "bitfield") "checked_get_bit" [(TV (RI 4))])));
   SAssert (TUnwrap (TMeth "Bitfield" (TVar "bitfield") "checked_get_bit" [(TV (RI 5))]));
   SAssert (TMeth "Bitfield" (TVar "bitfield") "get_bit" [(TV (RI 6))]);
   SAssert (TNot (TMeth "Bitfield" (TVar "bitfield") "get_bit" [(TV (RI 7))]))]) = true.
Proof. vm_compute. reflexivity. Qed.

(* lib_tests.rs:1749 *)
Example bitfield_full_field_size_u32 : is_passed (run_test
  [(mkUnit "Bitfield" (Parser.mkRDecl true VisPublic "Bitfield" (Some (Parser.RPath "u32")) []
     [Parser.mkRField "data" VisPrivate Parser.ANone (Parser.RPath "u32") (PInt 0) id_codec]) [])]
  [SLetT "bitfield" (TStat "Bitfield" "from_bits" [(TV (RI 2864434397))]);
   SAssert (TEq (TMeth "Bitfield" (TVar "bitfield") "data" []) (TV (RI 2864434397)))]) = true.
Proof. vm_compute. reflexivity. Qed.

(* lib_tests.rs:1760 *)
Example bitfield_full_field_size_u64 : is_passed (run_test
  [(mkUnit "Bitfield" (Parser.mkRDecl true VisPublic "Bitfield" (Some (Parser.RPath "u64")) []
     [Parser.mkRField "data" VisPrivate Parser.ANone (Parser.RPath "u64") (PInt 0) id_codec]) [])]
  [SLetT "bitfield" (TStat "Bitfield" "from_bits" [(TV (RI 1234605617868164317))]);
   SAssert (TEq (TMeth "Bitfield" (TVar "bitfield") "data" []) (TV (RI 1234605617868164317)))]) = true.
Proof. vm_compute. reflexivity. Qed.

(* lib_tests.rs:1771 *)
Example bitfield_set_bit : is_passed (run_test
  [(mkUnit "Bitfield" (Parser.mkRDecl true VisPublic "Bitfield" (Some (Parser.RPath "u8")) [("bit_ops", "true")]
     [Parser.mkRField "a" VisPrivate (Parser.AList (Parser.RBits 2 "") []) (Parser.RPath "u8") (PInt 0) id_codec;
      Parser.mkRField "b" VisPrivate (Parser.AList (Parser.RBits 2 "") [("default", "0b11")]) (Parser.RPath "u8") (PInt 0) id_codec;
      Parser.mkRField "c" VisPrivate (Parser.AList (Parser.RBits 2 "") [("default", "0b11"); ("access", "ro")]) (Parser.RPath "u8") (PInt 0) id_codec;
      Parser.mkRField "_d" VisPrivate (Parser.AList (Parser.RBits 2 "") [("default", "0b00")]) (Parser.RPath "u8") (PInt 0) id_codec]) [("b", (ELit 3 None)); ("c", (ELit 3 None)); ("_d", (ELit 0 None))])]
  [SLetT "bitfield" (TStat "Bitfield" "new" []);
   SDo (TMeth "Bitfield" (TVar "bitfield") "set_bit" [(TV (RI 0)); (TV (RB true))]);
   SDo (TMeth "Bitfield" (TVar "bitfield") "set_bit" [(TV (RI 1)); (TV (RB true))]);
   SDo (TMeth "Bitfield" (TVar "bitfield") "set_bit" [(TV (RI 2)); (TV (RB false))]);
   SDo (TMeth "Bitfield" (TVar "bitfield") "set_bit" [(TV (RI 3)); (TV (RB false))]);
   SDo (TMeth "Bitfield" (TVar "bitfield") "set_bit" [(TV (RI 4)); (TV (RB false))]);
   SDo (TMeth "Bitfield" (TVar "bitfield") "set_bit" [(TV (RI 5)); (TV (RB false))]);
   SDo (TMeth "Bitfield" (TVar "bitfield") "set_bit" [(TV (RI 6)); (TV (RB true))]);
   SDo (TMeth "Bitfield" (TVar "bitfield") "set_bit" [(TV (RI 7)); (TV (RB true))]);
   SAssert (TEq (TMeth "Bitfield" (TVar "bitfield") "into_bits" []) (TV (RI 51)))]) = true.
Proof. vm_compute. reflexivity. Qed.

(* lib_tests.rs:1798 *)
Example bitfield_checked_set_bit : is_passed (run_test
  [(mkUnit "Bitfield" (Parser.mkRDecl true VisPublic "Bitfield" (Some (Parser.RPath "u8")) [("bit_ops", "true")]
     [Parser.mkRField "a" VisPrivate (Parser.AList (Parser.RBits 2 "") []) (Parser.RPath "u8") (PInt 0) id_codec;
      Parser.mkRField "b" VisPrivate (Parser.AList (Parser.RBits 2 "") [("default", "0b11")]) (Parser.RPath "u8") (PInt 0) id_codec;
      Parser.mkRField "c" VisPrivate (Parser.AList (Parser.RBits 2 "") [("default", "0b11"); ("access", "ro")]) (Parser.RPath "u8") (PInt 0) id_codec;
      Parser.mkRField "_d" VisPrivate (Parser.AList (Parser.RBits 2 "") [("default", "0b00")]) (Parser.RPath "u8") (PInt 0) id_codec]) [("b", (ELit 3 None)); ("c", (ELit 3 None)); ("_d", (ELit 0 None))])]
  [SLetT "bitfield" (TStat "Bitfield" "new" []);
   SAssert (TIsOk (TMeth "Bitfield" (TVar "bitfield") "checked_set_bit" [(TV (RI 0)); (TV (RB true))]));
   SAssert (TIsOk (TMeth "Bitfield" (TVar "bitfield") "checked_set_bit" [(TV (RI 1)); (TV (RB true))]));
   SAssert (TIsOk (TMeth "Bitfield" (TVar "bitfield") "checked_set_bit" [(TV (RI 2)); (TV (RB false))]));
   SAssert (TIsOk (TMeth "Bitfield" (TVar "bitfield") "checked_set_bit" [(TV (RI 3)); (TV (RB false))]));
   SAssert (TIsErr (TMeth "Bitfield" (TVar "bitfield") "checked_set_bit" [(TV (RI 4)); (TV (RB false))]));
   SAssert (TIsErr (TMeth "Bitfield" (TVar "bitfield") "checked_set_bit" [(TV (RI 5)); (TV (RB false))]));
   SAssert (TIsErr (TMeth "Bitfield" (TVar "bitfield") "checked_set_bit" [(TV (RI 6)); (TV (RB true))]));
   SAssert (TIsErr (TMeth "Bitfield" (TVar "bitfield") "checked_set_bit" [(TV (RI 7)); (TV (RB true))]));
   SAssert (TEq (TMeth "Bitfield" (TVar "bitfield") "into_bits" []) (TV (RI 51)))]) = true.
Proof. vm_compute. reflexivity. Qed.

(* lib_tests.rs:1852 *)
Example bitfield_write_bits : is_passed (run_test
  [(mkUnit "Bitfield" (Parser.mkRDecl true VisPublic "Bitfield" (Some (Parser.RPath "u32")) []
     [Parser.mkRField "a" VisPrivate (Parser.AList Parser.RNoBits [("default", "0x12")]) (Parser.RPath "u8") (PInt 0) id_codec;
      Parser.mkRField "b" VisPrivate (Parser.AList Parser.RNoBits [("default", "0x34")]) (Parser.RPath "u8") (PInt 0) id_codec;
      Parser.mkRField "c" VisPrivate (Parser.AList Parser.RNoBits [("default", "0x56")]) (Parser.RPath "u8") (PInt 0) id_codec;
      Parser.mkRField "d" VisPrivate (Parser.AList Parser.RNoBits [("default", "0x78")]) (Parser.RPath "u8") (PInt 0) id_codec]) [("a", (ELit 18 None)); ("b", (ELit 52 None)); ("c", (ELit 86 None)); ("d", (ELit 120 None))])]
  [SLetT "bitfield" (TStat "Bitfield" "new" []);
   SDo (TMeth "Bitfield" (TVar "bitfield") "write_bits" [(TV (RI 287454020))]);
   SAssert (TEq (TMeth "Bitfield" (TVar "bitfield") "a" []) (TV (RI 68)));
   SAssert (TEq (TMeth "Bitfield" (TVar "bitfield") "b" []) (TV (RI 51)));
   SAssert (TEq (TMeth "Bitfield" (TVar "bitfield") "c" []) (TV (RI 34)));
   SAssert (TEq (TMeth "Bitfield" (TVar "bitfield") "d" []) (TV (RI 17)));
   SAssert (TEq (TMeth "Bitfield" (TVar "bitfield") "into_bits" []) (TV (RI 287454020)))]) = true.
Proof. vm_compute. reflexivity. Qed.

(* lib_tests.rs:1877 *)
Example bitfield_write_bits_non_writable : is_passed (run_test
  [(mkUnit "Bitfield" (Parser.mkRDecl true VisPublic "Bitfield" (Some (Parser.RPath "u32")) []
     [Parser.mkRField "a" VisPrivate (Parser.AList Parser.RNoBits [("default", "0x12")]) (Parser.RPath "u8") (PInt 0) id_codec;
      Parser.mkRField "b" VisPrivate (Parser.AList Parser.RNoBits [("default", "0x34"); ("access", "ro")]) (Parser.RPath "u8") (PInt 0) id_codec;
      Parser.mkRField "c" VisPrivate (Parser.AList Parser.RNoBits [("default", "0x56")]) (Parser.RPath "u8") (PInt 0) id_codec;
      Parser.mkRField "_d" VisPrivate (Parser.AList Parser.RNoBits [("default", "0x78")]) (Parser.RPath "u8") (PInt 0) id_codec]) [("a", (ELit 18 None)); ("b", (ELit 52 None)); ("c", (ELit 86 None)); ("_d", (ELit 120 None))])]
  [SLetT "bitfield" (TStat "Bitfield" "new" []);
   SDo (TMeth "Bitfield" (TVar "bitfield") "write_bits" [(TV (RI 287454020))]);
   SAssert (TEq (TMeth "Bitfield" (TVar "bitfield") "a" []) (TV (RI 68)));
   SAssert (TEq (TMeth "Bitfield" (TVar "bitfield") "b" []) (TV (RI 52)));
   SAssert (TEq (TMeth "Bitfield" (TVar "bitfield") "c" []) (TV (RI 34)));
   SAssert (TEq (TMeth "Bitfield" (TVar "bitfield") "into_bits" []) (TV (RI 2015507524)))]) = true.
Proof. vm_compute. reflexivity. Qed.

(* lib_tests.rs:1901 *)
Example bitfield_write_bits_with_defaults : is_passed (run_test
  [(mkUnit "Bitfield" (Parser.mkRDecl true VisPublic "Bitfield" (Some (Parser.RPath "u32")) []
     [Parser.mkRField "a" VisPrivate (Parser.AList Parser.RNoBits [("default", "0x12")]) (Parser.RPath "u8") (PInt 0) id_codec;
      Parser.mkRField "b" VisPrivate Parser.ANone (Parser.RPath "u8") (PInt 0) id_codec;
      Parser.mkRField "c" VisPrivate Parser.ANone (Parser.RPath "u8") (PInt 0) id_codec;
      Parser.mkRField "d" VisPrivate (Parser.AList Parser.RNoBits [("default", "0x78")]) (Parser.RPath "u8") (PInt 0) id_codec]) [("a", (ELit 18 None)); ("d", (ELit 120 None))])]
  [SLetT "bitfield" (TStat "Bitfield" "new" []);
   SDo (TMeth "Bitfield" (TVar "bitfield") "write_bits_with_defaults" [(TV (RI 287454020))]);
   SAssert (TEq (TMeth "Bitfield" (TVar "bitfield") "a" []) (TV (RI 18)));
   SAssert (TEq (TMeth "Bitfield" (TVar "bitfield") "b" []) (TV (RI 51)));
   SAssert (TEq (TMeth "Bitfield" (TVar "bitfield") "c" []) (TV (RI 34)));
   SAssert (TEq (TMeth "Bitfield" (TVar "bitfield") "d" []) (TV (RI 120)));
   SAssert (TEq (TMeth "Bitfield" (TVar "bitfield") "into_bits" []) (TV (RI 2015507218)))]) = true.
Proof. vm_compute. reflexivity. Qed.

(* lib_tests.rs:1924 *)
Example bitfield_clear_bits : is_passed (run_test
  [(mkUnit "Bitfield" (Parser.mkRDecl true VisPublic "Bitfield" (Some (Parser.RPath "u32")) []
     [Parser.mkRField "a" VisPrivate (Parser.AList Parser.RNoBits [("default", "0x12")]) (Parser.RPath "u8") (PInt 0) id_codec;
      Parser.mkRField "b" VisPrivate (Parser.AList Parser.RNoBits [("default", "0x34")]) (Parser.RPath "u8") (PInt 0) id_codec;
      Parser.mkRField "c" VisPrivate (Parser.AList Parser.RNoBits [("default", "0x56")]) (Parser.RPath "u8") (PInt 0) id_codec;
      Parser.mkRField "d" VisPrivate (Parser.AList Parser.RNoBits [("default", "0x78")]) (Parser.RPath "u8") (PInt 0) id_codec]) [("a", (ELit 18 None)); ("b", (ELit 52 None)); ("c", (ELit 86 None)); ("d", (ELit 120 None))])]
  [SLetT "bitfield" (TStat "Bitfield" "new" []);
   SDo (TMeth "Bitfield" (TVar "bitfield") "clear_bits" []);
   SAssert (TEq (TMeth "Bitfield" (TVar "bitfield") "a" []) (TV (RI 0)));
   SAssert (TEq (TMeth "Bitfield" (TVar "bitfield") "b" []) (TV (RI 0)));
   SAssert (TEq (TMeth "Bitfield" (TVar "bitfield") "c" []) (TV (RI 0)));
   SAssert (TEq (TMeth "Bitfield" (TVar "bitfield") "d" []) (TV (RI 0)));
   SAssert (TEq (TMeth "Bitfield" (TVar "bitfield") "into_bits" []) (TV (RI 0)))]) = true.
Proof. vm_compute. reflexivity. Qed.

(* lib_tests.rs:1949 *)
Example bitfield_clear_bits_with_defaults : is_passed (run_test
  [(mkUnit "Bitfield" (Parser.mkRDecl true VisPublic "Bitfield" (Some (Parser.RPath "u32")) []
     [Parser.mkRField "a" VisPrivate (Parser.AList Parser.RNoBits [("default", "0x12")]) (Parser.RPath "u8") (PInt 0) id_codec;
      Parser.mkRField "b" VisPrivate Parser.ANone (Parser.RPath "u8") (PInt 0) id_codec;
      Parser.mkRField "c" VisPrivate Parser.ANone (Parser.RPath "u8") (PInt 0) id_codec;
      Parser.mkRField "d" VisPrivate (Parser.AList Parser.RNoBits [("default", "0x78")]) (Parser.RPath "u8") (PInt 0) id_codec]) [("a", (ELit 18 None)); ("d", (ELit 120 None))])]
  [SLetT "bitfield" (TStat "Bitfield" "new" []);
   SDo (TMeth "Bitfield" (TVar "bitfield") "clear_bits_with_defaults" []);
   SAssert (TEq (TMeth "Bitfield" (TVar "bitfield") "a" []) (TV (RI 18)));
   SAssert (TEq (TMeth "Bitfield" (TVar "bitfield") "b" []) (TV (RI 0)));
   SAssert (TEq (TMeth "Bitfield" (TVar "bitfield") "c" []) (TV (RI 0)));
   SAssert (TEq (TMeth "Bitfield" (TVar "bitfield") "d" []) (TV (RI 120)));
   SAssert (TEq (TMeth "Bitfield" (TVar "bitfield") "into_bits" []) (TV (RI 2013265938)))]) = true.
Proof. vm_compute. reflexivity. Qed.

(* lib_tests.rs:1972 *)
Example bitfield_field_access : is_passed (run_test
  [(mkUnit "Bitfield" (Parser.mkRDecl true VisPublic "Bitfield" (Some (Parser.RPath "u32")) []
     [Parser.mkRField "a" VisPrivate (Parser.AList Parser.RNoBits [("access", "ro")]) (Parser.RPath "u8") (PInt 0) id_codec;
      Parser.mkRField "b" VisPrivate (Parser.AList Parser.RNoBits [("access", "wo")]) (Parser.RPath "u8") (PInt 0) id_codec;
      Parser.mkRField "c" VisPrivate (Parser.AList Parser.RNoBits [("access", "rw")]) (Parser.RPath "u8") (PInt 0) id_codec;
      Parser.mkRField "d" VisPrivate (Parser.AList Parser.RNoBits [("access", "na")]) (Parser.RPath "u8") (PInt 0) id_codec]) [])]
  []) = true.
Proof. vm_compute. reflexivity. Qed.

(* lib_tests.rs:1987 *)
Example bitfield_field_access_read_only_can_build : is_passed (run_test
  [(mkUnit "Bitfield" (Parser.mkRDecl true VisPublic "Bitfield" (Some (Parser.RPath "u32")) []
     [Parser.mkRField "a" VisPrivate (Parser.AList Parser.RNoBits [("default", "0x12"); ("access", "ro")]) (Parser.RPath "u32") (PInt 0) id_codec]) [("a", (ELit 18 None))])]
  [SAssert (TEq (TMeth "Bitfield" (TStat "Bitfield" "new" []) "a" []) (TV (RI 18)));
   SAssert (TEq (TMeth "Bitfield" (TBuild "Bitfield" "build" [(TBuild "Bitfield" "with_a" [(TBuild "Bitfield" "new" []); (TV (RI 34))])]) "a" []) (TV (RI 34)))]) = true.
Proof. vm_compute. reflexivity. Qed.

(* lib_tests.rs:1999 *)
Example bitfield_bool_fields : is_passed (run_test
  [(mkUnit "PxiCnt" (Parser.mkRDecl true VisPublic "PxiCnt" (Some (Parser.RPath "u8")) []
     [Parser.mkRField "a" VisPrivate (Parser.AList Parser.RNoBits [("access", "ro")]) (Parser.RPath "bool") (PInt 0) id_codec;
      Parser.mkRField "b" VisPrivate Parser.ANone (Parser.RPath "bool") (PInt 0) id_codec;
      Parser.mkRField "c" VisPrivate Parser.ANone (Parser.RPath "bool") (PInt 0) id_codec;
      Parser.mkRField "d" VisPrivate Parser.ANone (Parser.RPath "bool") (PInt 0) id_codec;
      Parser.mkRField "__" VisPrivate (Parser.AList (Parser.RBits 4 "") []) (Parser.RPath "u32") (PInt 0) id_codec]) [])]
  []) = true.
Proof. vm_compute. reflexivity. Qed.

(* lib_tests.rs:2013 *)
Example bitfield_neg_inverts_bits : is_passed (run_test
  [(mkUnit "Bitfield" (Parser.mkRDecl true VisPublic "Bitfield" (Some (Parser.RPath "u32")) []
     [Parser.mkRField "a" VisPrivate (Parser.AList (Parser.RBits 5 "") [("default", "0xC")]) (Parser.RPath "u8") (PInt 0) id_codec;
      Parser.mkRField "b" VisPrivate (Parser.AList Parser.RNoBits [("default", "0x34")]) (Parser.RPath "u8") (PInt 0) id_codec;
      Parser.mkRField "c" VisPrivate (Parser.AList Parser.RNoBits [("default", "0x56")]) (Parser.RPath "u8") (PInt 0) id_codec;
      Parser.mkRField "d" VisPrivate (Parser.AList (Parser.RBits 9 "") [("default", "0x78")]) (Parser.RPath "u16") (PInt 0) id_codec;
      Parser.mkRField "e" VisPrivate (Parser.AList Parser.RNoBits [("default", "true")]) (Parser.RPath "bool") (PInt 0) id_codec;
      Parser.mkRField "f" VisPrivate (Parser.AList Parser.RNoBits [("default", "false")]) (Parser.RPath "bool") (PInt 0) id_codec]) [("a", (ELit 12 None)); ("b", (ELit 52 None)); ("c", (ELit 86 None)); ("d", (ELit 120 None)); ("e", (EBool true)); ("f", (EBool false))])]
  [SLetT "builder" (TStat "Bitfield" "new" []);
   SAssert (TEq (TMeth "Bitfield" (TVar "builder") "a" []) (TV (RI 12)));
   SAssert (TEq (TMeth "Bitfield" (TVar "builder") "b" []) (TV (RI 52)));
   SAssert (TEq (TMeth "Bitfield" (TVar "builder") "c" []) (TV (RI 86)));
   SAssert (TEq (TMeth "Bitfield" (TVar "builder") "d" []) (TV (RI 120)));
   SAssert (TMeth "Bitfield" (TVar "builder") "e" []);
   SAssert (TEq (TMeth "Bitfield" (TVar "builder") "a_inverted" []) (TV (RI 19)));
   SAssert (TEq (TMeth "Bitfield" (TVar "builder") "b_inverted" []) (TV (RI 203)));
   SAssert (TEq (TMeth "Bitfield" (TVar "builder") "c_inverted" []) (TV (RI 169)));
   SAssert (TEq (TMeth "Bitfield" (TVar "builder") "d_inverted" []) (TV (RI 391)));
   SAssert (TNot (TMeth "Bitfield" (TVar "builder") "e_inverted" []));
   SAssert (TMeth "Bitfield" (TVar "builder") "f_inverted" [])]) = true.
Proof. vm_compute. reflexivity. Qed.

(* lib_tests.rs:2046 *)
Example bitfield_neg_inverts_bits_custom_type : is_passed (run_test
  [(mkUnit "Bitfield" (Parser.mkRDecl true VisPublic "Bitfield" (Some (Parser.RPath "u8")) []
     [Parser.mkRField "a" VisPrivate (Parser.AList (Parser.RBits 4 "") [("default", "CustomType::A")]) (Parser.RPath "CustomType") (PInt 0) (mkCodec U8 (fun bits => (if Z.eqb bits 3 then 0 else (if Z.eqb bits 4 then 1 else (3000000 + bits)))) U8 (fun self => (if Z.eqb self 0 then 3 else (if Z.eqb self 1 then 4 else (if Z.leb 3000000 self then (let bits := self - 3000000 in bits) else (-1))))));
      Parser.mkRField "b" VisPrivate (Parser.AList (Parser.RBits 4 "") [("default", "CustomType::B")]) (Parser.RPath "CustomType") (PInt 0) (mkCodec U8 (fun bits => (if Z.eqb bits 3 then 0 else (if Z.eqb bits 4 then 1 else (3000000 + bits)))) U8 (fun self => (if Z.eqb self 0 then 3 else (if Z.eqb self 1 then 4 else (if Z.leb 3000000 self then (let bits := self - 3000000 in bits) else (-1))))))]) [("a", (EUser (TUser "a") (RC 0))); ("b", (EUser (TUser "b") (RC 1)))])]
  [SLetT "builder" (TStat "Bitfield" "new" []);
   SAssert (TEq (TMeth "Bitfield" (TVar "builder") "a" []) (TV (RC 0)));
   SAssert (TEq (TMeth "Bitfield" (TVar "builder") "b" []) (TV (RC 1)));
   SAssert (TEq (TMeth "Bitfield" (TVar "builder") "a_inverted" []) (TV (RC 3000012)));
   SAssert (TEq (TMeth "Bitfield" (TVar "builder") "b_inverted" []) (TV (RC 3000011)))]) = true.
Proof. vm_compute. reflexivity. Qed.

(* lib_tests.rs:2090 *)
Example bitfield_custom_type_setter : is_passed (run_test
  [(mkUnit "Bitfield" (Parser.mkRDecl true VisPublic "Bitfield" (Some (Parser.RPath "u8")) []
     [Parser.mkRField "a" VisPrivate (Parser.AList (Parser.RBits 4 "") []) (Parser.RPath "CustomType") (PInt 0) (mkCodec U8 (fun bits => (if Z.eqb bits 3 then 0 else (if Z.eqb bits 4 then 1 else (3000000 + bits)))) U8 (fun self => (if Z.eqb self 0 then 3 else (if Z.eqb self 1 then 4 else (if Z.leb 3000000 self then (let bits := self - 3000000 in bits) else (-1))))));
      Parser.mkRField "b" VisPrivate (Parser.AList (Parser.RBits 4 "") []) (Parser.RPath "CustomType") (PInt 0) (mkCodec U8 (fun bits => (if Z.eqb bits 3 then 0 else (if Z.eqb bits 4 then 1 else (3000000 + bits)))) U8 (fun self => (if Z.eqb self 0 then 3 else (if Z.eqb self 1 then 4 else (if Z.leb 3000000 self then (let bits := self - 3000000 in bits) else (-1))))))]) [])]
  [SLetT "bitfield" (TStat "Bitfield" "new" []);
   SDo (TMeth "Bitfield" (TVar "bitfield") "set_a" [(TV (RC 3000009))]);
   SDo (TMeth "Bitfield" (TVar "bitfield") "set_b" [(TV (RC 3000005))]);
   SAssert (TEq (TMeth "Bitfield" (TVar "bitfield") "a" []) (TV (RC 3000009)));
   SAssert (TEq (TMeth "Bitfield" (TVar "bitfield") "b" []) (TV (RC 3000005)))]) = true.
Proof. vm_compute. reflexivity. Qed.

(* lib_tests.rs:2134 *)
Example bitfield_custom_type_checked_setter : is_passed (run_test
  [(mkUnit "Bitfield" (Parser.mkRDecl true VisPublic "Bitfield" (Some (Parser.RPath "u8")) []
     [Parser.mkRField "a" VisPrivate (Parser.AList (Parser.RBits 4 "") []) (Parser.RPath "CustomType") (PInt 0) (mkCodec U8 (fun bits => (if Z.eqb bits 3 then 0 else (if Z.eqb bits 4 then 1 else (3000000 + bits)))) U8 (fun self => (if Z.eqb self 0 then 3 else (if Z.eqb self 1 then 4 else (if Z.leb 3000000 self then (let bits := self - 3000000 in bits) else (-1))))));
      Parser.mkRField "b" VisPrivate (Parser.AList (Parser.RBits 4 "") []) (Parser.RPath "CustomType") (PInt 0) (mkCodec U8 (fun bits => (if Z.eqb bits 3 then 0 else (if Z.eqb bits 4 then 1 else (3000000 + bits)))) U8 (fun self => (if Z.eqb self 0 then 3 else (if Z.eqb self 1 then 4 else (if Z.leb 3000000 self then (let bits := self - 3000000 in bits) else (-1))))))]) [])]
  [SLetT "bitfield" (TStat "Bitfield" "new" []);
   SLetT "set_a_results" (TMeth "Bitfield" (TVar "bitfield") "checked_set_a" [(TV (RC 3000009))]);
   SLetT "set_b_results" (TMeth "Bitfield" (TVar "bitfield") "checked_set_b" [(TV (RC 3000005))]);
   SAssert (TIsOk (TVar "set_a_results"));
   SAssert (TIsOk (TVar "set_b_results"));
   SAssert (TEq (TMeth "Bitfield" (TVar "bitfield") "a" []) (TV (RC 3000009)));
   SAssert (TEq (TMeth "Bitfield" (TVar "bitfield") "b" []) (TV (RC 3000005)))]) = true.
Proof. vm_compute. reflexivity. Qed.

(* lib_tests.rs:2180 *)
Example bitfield_read_only_custom_field : is_passed (run_test
  [(mkUnit "Piece" (Parser.mkRDecl true VisPrivate "Piece" (Some (Parser.RPath "u8")) []
     [Parser.mkRField "piece" VisPrivate (Parser.AList (Parser.RBits 3 "") [("access", "ro")]) (Parser.RPath "PieceType") (PInt 0) (mkCodec U8 (fun bits => (if Z.eqb bits 0 then 0 else (if Z.eqb bits 1 then 1 else (if Z.eqb bits 2 then 2 else (if Z.eqb bits 3 then 3 else (if Z.eqb bits 4 then 4 else (if Z.eqb bits 5 then 5 else (-1)))))))) U8 (fun self => (if Z.eqb self 5 then 5 else (if Z.eqb self 4 then 4 else (if Z.eqb self 3 then 3 else (if Z.eqb self 2 then 2 else (if Z.eqb self 1 then 1 else (if Z.eqb self 0 then 0 else (-1)))))))));
      Parser.mkRField "colour" VisPrivate (Parser.AList (Parser.RBits 1 "") [("access", "ro")]) (Parser.RPath "Colour") (PInt 0) (mkCodec U8 (fun bits => (if Z.eqb bits 0 then 0 else (if Z.eqb bits 1 then 1 else (-1)))) U8 (fun self => (if Z.eqb self 1 then 1 else (if Z.eqb self 0 then 0 else (-1)))));
      Parser.mkRField "_reserved" VisPrivate (Parser.AList (Parser.RBits 4 "") [("default", "0")]) (Parser.RPath "u8") (PInt 0) id_codec]) [("_reserved", (ELit 0 None))])]
  [SLetT "val" (TBuild "Piece" "build" [(TBuild "Piece" "with_colour" [(TBuild "Piece" "with_piece" [(TBuild "Piece" "new" []); (TV (RC 0))]); (TV (RC 0))])]);
   SAssert (TEq (TMeth "Piece" (TVar "val") "into_bits" []) (TV (RI 0)));
   SAssert (TEq (TMeth "Piece" (TVar "val") "colour" []) (TV (RC 0)))]) = true.
Proof. vm_compute. reflexivity. Qed.

(* lib_tests.rs:2247 *)
Example bitfield_builder_read_only_checked_with : is_passed (run_test
  [(mkUnit "Bitfield" (Parser.mkRDecl true VisPublic "Bitfield" (Some (Parser.RPath "u32")) []
     [Parser.mkRField "a" VisPrivate (Parser.AList (Parser.RBits 2 "") [("access", "ro")]) (Parser.RPath "u8") (PInt 0) id_codec;
      Parser.mkRField "b" VisPrivate (Parser.AList (Parser.RBits 30 "") []) (Parser.RPath "u32") (PInt 0) id_codec]) [])]
  [SLetT "result" (TBuild "Bitfield" "checked_with_a" [(TBuild "Bitfield" "new" []); (TV (RI 17))]);
   SAssert (TIsErr (TVar "result"));
   SAssert (TEq (TErr (TVar "result")) (TV (RErr "Value is too big to fit within the field bits.")))]) = true.
Proof. vm_compute. reflexivity. Qed.

(* lib_tests.rs:2262 *)
Example bitfield_sign_extended_bit : is_passed (run_test
  [(mkUnit "Bitfield" (Parser.mkRDecl true VisPublic "Bitfield" (Some (Parser.RPath "u8")) []
     [Parser.mkRField "a" VisPrivate (Parser.AList (Parser.RBits 1 "") []) (Parser.RPath "i8") (PInt 0) id_codec;
      Parser.mkRField "_reserved" VisPrivate (Parser.AList (Parser.RBits 7 "") []) (Parser.RPath "u8") (PInt 0) id_codec]) [])]
  [SLetT "bitfield" (TStat "Bitfield" "new" []);
   SDo (TMeth "Bitfield" (TVar "bitfield") "set_a" [(TV (RI 1))]);
   SAssert (TEq (TMeth "Bitfield" (TVar "bitfield") "a" []) (TV (RI (-1))))]) = true.
Proof. vm_compute. reflexivity. Qed.

(* lib_tests.rs:2278 *)
Example bitfield_suffix : is_passed (run_test
  [(mkUnit "BitfieldI8" (Parser.mkRDecl true VisPublic "BitfieldI8" (Some (Parser.RPath "u8")) []
     [Parser.mkRField "a" VisPrivate (Parser.AList (Parser.RBits 8 "") [("default", "-1")]) (Parser.RPath "i8") (PInt 0) id_codec]) [("a", (EUn UNeg (ELit 1 None)))]); (mkUnit "BitfieldI16" (Parser.mkRDecl true VisPublic "BitfieldI16" (Some (Parser.RPath "u16")) []
     [Parser.mkRField "a" VisPrivate (Parser.AList (Parser.RBits 16 "") [("default", "-1")]) (Parser.RPath "i16") (PInt 0) id_codec]) [("a", (EUn UNeg (ELit 1 None)))]); (mkUnit "BitfieldI32" (Parser.mkRDecl true VisPublic "BitfieldI32" (Some (Parser.RPath "u32")) []
     [Parser.mkRField "a" VisPrivate (Parser.AList (Parser.RBits 32 "") [("default", "-1")]) (Parser.RPath "i32") (PInt 0) id_codec]) [("a", (EUn UNeg (ELit 1 None)))]); (mkUnit "BitfieldI64" (Parser.mkRDecl true VisPublic "BitfieldI64" (Some (Parser.RPath "u64")) []
     [Parser.mkRField "a" VisPrivate (Parser.AList (Parser.RBits 64 "") [("default", "-1")]) (Parser.RPath "i64") (PInt 0) id_codec]) [("a", (EUn UNeg (ELit 1 None)))]); (mkUnit "BitfieldI128" (Parser.mkRDecl true VisPublic "BitfieldI128" (Some (Parser.RPath "u128")) []
     [Parser.mkRField "a" VisPrivate (Parser.AList (Parser.RBits 128 "") [("default", "-1")]) (Parser.RPath "i128") (PInt 0) id_codec]) [("a", (EUn UNeg (ELit 1 None)))])]
  [SAssert (TEq (TMeth "BitfieldI8" (TStat "BitfieldI8" "new" []) "a" []) (TV (RI (-1))));
   SAssert (TEq (TMeth "BitfieldI16" (TStat "BitfieldI16" "new" []) "a" []) (TV (RI (-1))));
   SAssert (TEq (TMeth "BitfieldI32" (TStat "BitfieldI32" "new" []) "a" []) (TV (RI (-1))));
   SAssert (TEq (TMeth "BitfieldI64" (TStat "BitfieldI64" "new" []) "a" []) (TV (RI (-1))));
   SAssert (TEq (TMeth "BitfieldI128" (TStat "BitfieldI128" "new" []) "a" []) (TV (RI (-1))))]) = true.
Proof. vm_compute. reflexivity. Qed.

(* lib_tests.rs:2317 *)
Example bitfield_write_bits_arg_with_defaults : is_passed (run_test
  [(mkUnit "Bitfield" (Parser.mkRDecl true VisPublic "Bitfield" (Some (Parser.RPath "u32")) []
     [Parser.mkRField "a" VisPrivate (Parser.AList Parser.RNoBits [("default", "0x12")]) (Parser.RPath "u8") (PInt 0) id_codec;
      Parser.mkRField "b" VisPrivate Parser.ANone (Parser.RPath "u8") (PInt 0) id_codec;
      Parser.mkRField "c" VisPrivate Parser.ANone (Parser.RPath "u8") (PInt 0) id_codec;
      Parser.mkRField "d" VisPrivate (Parser.AList Parser.RNoBits [("default", "0x78")]) (Parser.RPath "u8") (PInt 0) id_codec]) [("a", (ELit 18 None)); ("d", (ELit 120 None))])]
  [SLetT "bitfield" (TStat "Bitfield" "new" []);
   SDo (TMeth "Bitfield" (TVar "bitfield") "write_bits_with_defaults" [(TV (RI 287454020))]);
   SAssert (TEq (TMeth "Bitfield" (TVar "bitfield") "a" []) (TV (RI 18)));
   SAssert (TEq (TMeth "Bitfield" (TVar "bitfield") "b" []) (TV (RI 51)));
   SAssert (TEq (TMeth "Bitfield" (TVar "bitfield") "c" []) (TV (RI 34)));
   SAssert (TEq (TMeth "Bitfield" (TVar "bitfield") "d" []) (TV (RI 120)));
   SAssert (TEq (TMeth "Bitfield" (TVar "bitfield") "into_bits" []) (TV (RI 2015507218)))]) = true.
Proof. vm_compute. reflexivity. Qed.

(* lib_tests.rs:2340 *)
Example bitfield_clear_bits_arg : is_passed (run_test
  [(mkUnit "Bitfield" (Parser.mkRDecl true VisPublic "Bitfield" (Some (Parser.RPath "u32")) []
     [Parser.mkRField "a" VisPrivate (Parser.AList Parser.RNoBits [("default", "0x12")]) (Parser.RPath "u8") (PInt 0) id_codec;
      Parser.mkRField "b" VisPrivate (Parser.AList Parser.RNoBits [("default", "0x34")]) (Parser.RPath "u8") (PInt 0) id_codec;
      Parser.mkRField "c" VisPrivate (Parser.AList Parser.RNoBits [("default", "0x56")]) (Parser.RPath "u8") (PInt 0) id_codec;
      Parser.mkRField "d" VisPrivate (Parser.AList Parser.RNoBits [("default", "0x78")]) (Parser.RPath "u8") (PInt 0) id_codec]) [("a", (ELit 18 None)); ("b", (ELit 52 None)); ("c", (ELit 86 None)); ("d", (ELit 120 None))])]
  [SLetT "bitfield" (TStat "Bitfield" "new" []);
   SDo (TMeth "Bitfield" (TVar "bitfield") "clear_bits" []);
   SAssert (TEq (TMeth "Bitfield" (TVar "bitfield") "a" []) (TV (RI 0)));
   SAssert (TEq (TMeth "Bitfield" (TVar "bitfield") "b" []) (TV (RI 0)));
   SAssert (TEq (TMeth "Bitfield" (TVar "bitfield") "c" []) (TV (RI 0)));
   SAssert (TEq (TMeth "Bitfield" (TVar "bitfield") "d" []) (TV (RI 0)));
   SAssert (TEq (TMeth "Bitfield" (TVar "bitfield") "into_bits" []) (TV (RI 0)))]) = true.
Proof. vm_compute. reflexivity. Qed.

(* lib_tests.rs:2364 *)
Example bitfield_write_bits_with_defaults_all_defaults_ignored_fields : is_passed (run_test
  [(mkUnit "Bitfield" (Parser.mkRDecl true VisPublic "Bitfield" (Some (Parser.RPath "u32")) []
     [Parser.mkRField "a" VisPrivate (Parser.AList Parser.RNoBits [("default", "1")]) (Parser.RPath "u8") (PInt 0) id_codec;
      Parser.mkRField "b" VisPrivate (Parser.AList Parser.RNoBits [("default", "2")]) (Parser.RPath "u8") (PInt 0) id_codec;
      Parser.mkRField "c" VisPrivate (Parser.AList Parser.RNoBits [("default", "3")]) (Parser.RPath "u8") (PInt 0) id_codec;
      Parser.mkRField "d" VisPrivate (Parser.AList Parser.RNoBits [("default", "4")]) (Parser.RPath "u8") (PInt 0) id_codec;
      Parser.mkRField "cache" VisPrivate (Parser.AList Parser.RNoBits [("ignore", "true")]) (Parser.RPath "u32") (PInt 0) id_codec]) [("a", (ELit 1 None)); ("b", (ELit 2 None)); ("c", (ELit 3 None)); ("d", (ELit 4 None))])]
  [SLetT "bitfield" (TStat "Bitfield" "new" []);
   SDo (TMeth "Bitfield" (TVar "bitfield") "write_bits_with_defaults" [(TV (RI 287454020))]);
   SAssert (TEq (TMeth "Bitfield" (TVar "bitfield") "a" []) (TV (RI 1)));
   SAssert (TEq (TMeth "Bitfield" (TVar "bitfield") "b" []) (TV (RI 2)));
   SAssert (TEq (TMeth "Bitfield" (TVar "bitfield") "c" []) (TV (RI 3)));
   SAssert (TEq (TMeth "Bitfield" (TVar "bitfield") "d" []) (TV (RI 4)));
   SAssert (TEq (TMeth "Bitfield" (TVar "bitfield") "into_bits" []) (TV (RI 67305985)))]) = true.
Proof. vm_compute. reflexivity. Qed.

(* lib_tests.rs:2390 *)
Example bitfield_write_defaults : is_passed (run_test
  [(mkUnit "Bitfield" (Parser.mkRDecl true VisPublic "Bitfield" (Some (Parser.RPath "u32")) []
     [Parser.mkRField "a" VisPrivate (Parser.AList Parser.RNoBits [("default", "0x12")]) (Parser.RPath "u8") (PInt 0) id_codec;
      Parser.mkRField "b" VisPrivate Parser.ANone (Parser.RPath "u8") (PInt 0) id_codec;
      Parser.mkRField "c" VisPrivate Parser.ANone (Parser.RPath "u8") (PInt 0) id_codec;
      Parser.mkRField "d" VisPrivate (Parser.AList Parser.RNoBits [("default", "0x78")]) (Parser.RPath "u8") (PInt 0) id_codec]) [("a", (ELit 18 None)); ("d", (ELit 120 None))])]
  [SLetT "bitfield" (TStat "Bitfield" "new" []);
   SDo (TMeth "Bitfield" (TVar "bitfield") "write_bits" [(TV (RI 287454020))]);
   SDo (TMeth "Bitfield" (TVar "bitfield") "write_defaults" []);
   SAssert (TEq (TMeth "Bitfield" (TVar "bitfield") "a" []) (TV (RI 18)));
   SAssert (TEq (TMeth "Bitfield" (TVar "bitfield") "b" []) (TV (RI 51)));
   SAssert (TEq (TMeth "Bitfield" (TVar "bitfield") "c" []) (TV (RI 34)));
   SAssert (TEq (TMeth "Bitfield" (TVar "bitfield") "d" []) (TV (RI 120)));
   SAssert (TEq (TMeth "Bitfield" (TVar "bitfield") "into_bits" []) (TV (RI 2015507218)))]) = true.
Proof. vm_compute. reflexivity. Qed.

(* lib_tests.rs:2413 *)
Example bitfield_write_defaults_all_fields_have_defaults : is_passed (run_test
  [(mkUnit "Bitfield" (Parser.mkRDecl true VisPublic "Bitfield" (Some (Parser.RPath "u32")) []
     [Parser.mkRField "a" VisPrivate (Parser.AList Parser.RNoBits [("default", "0x12")]) (Parser.RPath "u8") (PInt 0) id_codec;
      Parser.mkRField "b" VisPrivate (Parser.AList Parser.RNoBits [("default", "0x34")]) (Parser.RPath "u8") (PInt 0) id_codec;
      Parser.mkRField "c" VisPrivate (Parser.AList Parser.RNoBits [("default", "0x56")]) (Parser.RPath "u8") (PInt 0) id_codec;
      Parser.mkRField "d" VisPrivate (Parser.AList Parser.RNoBits [("default", "0x78")]) (Parser.RPath "u8") (PInt 0) id_codec]) [("a", (ELit 18 None)); ("b", (ELit 52 None)); ("c", (ELit 86 None)); ("d", (ELit 120 None))])]
  [SLetT "bitfield" (TStat "Bitfield" "new" []);
   SDo (TMeth "Bitfield" (TVar "bitfield") "write_bits" [(TV (RI 287454020))]);
   SDo (TMeth "Bitfield" (TVar "bitfield") "write_defaults" []);
   SAssert (TEq (TMeth "Bitfield" (TVar "bitfield") "a" []) (TV (RI 18)));
   SAssert (TEq (TMeth "Bitfield" (TVar "bitfield") "b" []) (TV (RI 52)));
   SAssert (TEq (TMeth "Bitfield" (TVar "bitfield") "c" []) (TV (RI 86)));
   SAssert (TEq (TMeth "Bitfield" (TVar "bitfield") "d" []) (TV (RI 120)));
   SAssert (TEq (TMeth "Bitfield" (TVar "bitfield") "into_bits" []) (TV (RI 2018915346)))]) = true.
Proof. vm_compute. reflexivity. Qed.

(* lib_tests.rs:2438 *)
Example bitfield_write_defaults_no_fields_have_defaults : is_passed (run_test
  [(mkUnit "Bitfield" (Parser.mkRDecl true VisPublic "Bitfield" (Some (Parser.RPath "u32")) []
     [Parser.mkRField "a" VisPrivate Parser.ANone (Parser.RPath "u8") (PInt 0) id_codec;
      Parser.mkRField "b" VisPrivate Parser.ANone (Parser.RPath "u8") (PInt 0) id_codec;
      Parser.mkRField "c" VisPrivate Parser.ANone (Parser.RPath "u8") (PInt 0) id_codec;
      Parser.mkRField "d" VisPrivate Parser.ANone (Parser.RPath "u8") (PInt 0) id_codec]) [])]
  [SLetT "bitfield" (TStat "Bitfield" "new" []);
   SDo (TMeth "Bitfield" (TVar "bitfield") "write_bits" [(TV (RI 287454020))]);
   SDo (TMeth "Bitfield" (TVar "bitfield") "write_defaults" []);
   SAssert (TEq (TMeth "Bitfield" (TVar "bitfield") "a" []) (TV (RI 68)));
   SAssert (TEq (TMeth "Bitfield" (TVar "bitfield") "b" []) (TV (RI 51)));
   SAssert (TEq (TMeth "Bitfield" (TVar "bitfield") "c" []) (TV (RI 34)));
   SAssert (TEq (TMeth "Bitfield" (TVar "bitfield") "d" []) (TV (RI 17)));
   SAssert (TEq (TMeth "Bitfield" (TVar "bitfield") "into_bits" []) (TV (RI 287454020)))]) = true.
Proof. vm_compute. reflexivity. Qed.

(* lib_tests.rs:2459 *)
Example bitfield_write_defaults_booleans : is_passed (run_test
  [(mkUnit "Bitfield" (Parser.mkRDecl true VisPublic "Bitfield" (Some (Parser.RPath "u8")) []
     [Parser.mkRField "a" VisPrivate Parser.ANone (Parser.RPath "bool") (PInt 0) id_codec;
      Parser.mkRField "b" VisPrivate (Parser.AList Parser.RNoBits [("default", "false")]) (Parser.RPath "bool") (PInt 0) id_codec;
      Parser.mkRField "c" VisPrivate Parser.ANone (Parser.RPath "bool") (PInt 0) id_codec;
      Parser.mkRField "d" VisPrivate Parser.ANone (Parser.RPath "bool") (PInt 0) id_codec;
      Parser.mkRField "e" VisPrivate (Parser.AList Parser.RNoBits [("default", "false")]) (Parser.RPath "bool") (PInt 0) id_codec;
      Parser.mkRField "f" VisPrivate Parser.ANone (Parser.RPath "bool") (PInt 0) id_codec;
      Parser.mkRField "g" VisPrivate (Parser.AList Parser.RNoBits [("default", "true")]) (Parser.RPath "bool") (PInt 0) id_codec;
      Parser.mkRField "h" VisPrivate Parser.ANone (Parser.RPath "bool") (PInt 0) id_codec]) [("b", (EBool false)); ("e", (EBool false)); ("g", (EBool true))])]
  [SLetT "bitfield" (TStat "Bitfield" "new" []);
   SDo (TMeth "Bitfield" (TVar "bitfield") "write_bits" [(TV (RI 255))]);
   SDo (TMeth "Bitfield" (TVar "bitfield") "write_defaults" []);
   SAssert (TMeth "Bitfield" (TVar "bitfield") "a" []);
   SAssert (TNot (TMeth "Bitfield" (TVar "bitfield") "b" []));
   SAssert (TMeth "Bitfield" (TVar "bitfield") "c" []);
   SAssert (TMeth "Bitfield" (TVar "bitfield") "d" []);
   SAssert (TNot (TMeth "Bitfield" (TVar "bitfield") "e" []));
   SAssert (TMeth "Bitfield" (TVar "bitfield") "f" []);
   SAssert (TMeth "Bitfield" (TVar "bitfield") "g" []);
   SAssert (TMeth "Bitfield" (TVar "bitfield") "h" [])]) = true.
Proof. vm_compute. reflexivity. Qed.

(* lib_tests.rs:2490 *)
Example bitfield_write_le_bits : is_passed (run_test
  [(mkUnit "Bitfield" (Parser.mkRDecl true VisPublic "Bitfield" (Some (Parser.RPath "u32")) []
     [Parser.mkRField "a" VisPrivate (Parser.AList Parser.RNoBits [("default", "0x12")]) (Parser.RPath "u8") (PInt 0) id_codec;
      Parser.mkRField "b" VisPrivate (Parser.AList Parser.RNoBits [("default", "0x34")]) (Parser.RPath "u8") (PInt 0) id_codec;
      Parser.mkRField "c" VisPrivate (Parser.AList Parser.RNoBits [("default", "0x56")]) (Parser.RPath "u8") (PInt 0) id_codec;
      Parser.mkRField "d" VisPrivate (Parser.AList Parser.RNoBits [("default", "0x78")]) (Parser.RPath "u8") (PInt 0) id_codec]) [("a", (ELit 18 None)); ("b", (ELit 52 None)); ("c", (ELit 86 None)); ("d", (ELit 120 None))])]
  [SLetT "bitfield" (TStat "Bitfield" "new" []);
   SDo (TMeth "Bitfield" (TVar "bitfield") "write_le_bits" [(TV (RI 287454020))]);
   SAssert (TEq (TMeth "Bitfield" (TVar "bitfield") "a" []) (TV (RI 17)));
   SAssert (TEq (TMeth "Bitfield" (TVar "bitfield") "b" []) (TV (RI 34)));
   SAssert (TEq (TMeth "Bitfield" (TVar "bitfield") "c" []) (TV (RI 51)));
   SAssert (TEq (TMeth "Bitfield" (TVar "bitfield") "d" []) (TV (RI 68)));
   SAssert (TEq (TMeth "Bitfield" (TVar "bitfield") "into_bits" []) (TV (RI 1144201745)))]) = true.
Proof. vm_compute. reflexivity. Qed.

(* lib_tests.rs:2514 *)
Example bitfield_write_le_bits_with_defaults : is_passed (run_test
  [(mkUnit "Bitfield" (Parser.mkRDecl true VisPublic "Bitfield" (Some (Parser.RPath "u32")) []
     [Parser.mkRField "a" VisPrivate (Parser.AList Parser.RNoBits [("default", "0x12")]) (Parser.RPath "u8") (PInt 0) id_codec;
      Parser.mkRField "b" VisPrivate Parser.ANone (Parser.RPath "u8") (PInt 0) id_codec;
      Parser.mkRField "c" VisPrivate Parser.ANone (Parser.RPath "u8") (PInt 0) id_codec;
      Parser.mkRField "d" VisPrivate (Parser.AList Parser.RNoBits [("default", "0x78")]) (Parser.RPath "u8") (PInt 0) id_codec]) [("a", (ELit 18 None)); ("d", (ELit 120 None))])]
  [SLetT "bitfield" (TStat "Bitfield" "new" []);
   SDo (TMeth "Bitfield" (TVar "bitfield") "write_le_bits_with_defaults" [(TV (RI 287454020))]);
   SAssert (TEq (TMeth "Bitfield" (TVar "bitfield") "a" []) (TV (RI 18)));
   SAssert (TEq (TMeth "Bitfield" (TVar "bitfield") "b" []) (TV (RI 34)));
   SAssert (TEq (TMeth "Bitfield" (TVar "bitfield") "c" []) (TV (RI 51)));
   SAssert (TEq (TMeth "Bitfield" (TVar "bitfield") "d" []) (TV (RI 120)));
   SAssert (TEq (TMeth "Bitfield" (TVar "bitfield") "into_bits" []) (TV (RI 2016616978)))]) = true.
Proof. vm_compute. reflexivity. Qed.

(* lib_tests.rs:2536 *)
Example bitfield_write_le_bits_with_defaults_all_fields_have_defaults : is_passed (run_test
  [(mkUnit "Bitfield" (Parser.mkRDecl true VisPublic "Bitfield" (Some (Parser.RPath "u32")) []
     [Parser.mkRField "a" VisPrivate (Parser.AList Parser.RNoBits [("default", "0x12")]) (Parser.RPath "u8") (PInt 0) id_codec;
      Parser.mkRField "b" VisPrivate (Parser.AList Parser.RNoBits [("default", "0x34")]) (Parser.RPath "u8") (PInt 0) id_codec;
      Parser.mkRField "c" VisPrivate (Parser.AList Parser.RNoBits [("default", "0x56")]) (Parser.RPath "u8") (PInt 0) id_codec;
      Parser.mkRField "d" VisPrivate (Parser.AList Parser.RNoBits [("default", "0x78")]) (Parser.RPath "u8") (PInt 0) id_codec]) [("a", (ELit 18 None)); ("b", (ELit 52 None)); ("c", (ELit 86 None)); ("d", (ELit 120 None))])]
  [SLetT "bitfield" (TStat "Bitfield" "new" []);
   SDo (TMeth "Bitfield" (TVar "bitfield") "write_le_bits_with_defaults" [(TV (RI 287454020))]);
   SAssert (TEq (TMeth "Bitfield" (TVar "bitfield") "a" []) (TV (RI 18)));
   SAssert (TEq (TMeth "Bitfield" (TVar "bitfield") "b" []) (TV (RI 52)));
   SAssert (TEq (TMeth "Bitfield" (TVar "bitfield") "c" []) (TV (RI 86)));
   SAssert (TEq (TMeth "Bitfield" (TVar "bitfield") "d" []) (TV (RI 120)))]) = true.
Proof. vm_compute. reflexivity. Qed.

(* lib_tests.rs:2559 *)
Example bitfield_write_le_bits_booleans : is_passed (run_test
  [(mkUnit "Bitfield" (Parser.mkRDecl true VisPublic "Bitfield" (Some (Parser.RPath "u8")) []
     [Parser.mkRField "a" VisPrivate Parser.ANone (Parser.RPath "bool") (PInt 0) id_codec;
      Parser.mkRField "b" VisPrivate (Parser.AList Parser.RNoBits [("default", "false")]) (Parser.RPath "bool") (PInt 0) id_codec;
      Parser.mkRField "c" VisPrivate Parser.ANone (Parser.RPath "bool") (PInt 0) id_codec;
      Parser.mkRField "d" VisPrivate Parser.ANone (Parser.RPath "bool") (PInt 0) id_codec;
      Parser.mkRField "e" VisPrivate (Parser.AList Parser.RNoBits [("default", "false")]) (Parser.RPath "bool") (PInt 0) id_codec;
      Parser.mkRField "f" VisPrivate Parser.ANone (Parser.RPath "bool") (PInt 0) id_codec;
      Parser.mkRField "g" VisPrivate (Parser.AList Parser.RNoBits [("default", "true")]) (Parser.RPath "bool") (PInt 0) id_codec;
      Parser.mkRField "h" VisPrivate Parser.ANone (Parser.RPath "bool") (PInt 0) id_codec]) [("b", (EBool false)); ("e", (EBool false)); ("g", (EBool true))])]
  [SLetT "bitfield" (TStat "Bitfield" "new" []);
   SDo (TMeth "Bitfield" (TVar "bitfield") "write_le_bits" [(TV (RI 255))]);
   SAssert (TMeth "Bitfield" (TVar "bitfield") "a" []);
   SAssert (TMeth "Bitfield" (TVar "bitfield") "b" []);
   SAssert (TMeth "Bitfield" (TVar "bitfield") "c" []);
   SAssert (TMeth "Bitfield" (TVar "bitfield") "d" []);
   SAssert (TMeth "Bitfield" (TVar "bitfield") "e" []);
   SAssert (TMeth "Bitfield" (TVar "bitfield") "f" []);
   SAssert (TMeth "Bitfield" (TVar "bitfield") "g" []);
   SAssert (TMeth "Bitfield" (TVar "bitfield") "h" [])]) = true.
Proof. vm_compute. reflexivity. Qed.

(* lib_tests.rs:2589 *)
Example bitfield_write_le_bits_with_defaults_booleans : is_passed (run_test
  [(mkUnit "Bitfield" (Parser.mkRDecl true VisPublic "Bitfield" (Some (Parser.RPath "u8")) []
     [Parser.mkRField "a" VisPrivate Parser.ANone (Parser.RPath "bool") (PInt 0) id_codec;
      Parser.mkRField "b" VisPrivate (Parser.AList Parser.RNoBits [("default", "false")]) (Parser.RPath "bool") (PInt 0) id_codec;
      Parser.mkRField "c" VisPrivate Parser.ANone (Parser.RPath "bool") (PInt 0) id_codec;
      Parser.mkRField "d" VisPrivate Parser.ANone (Parser.RPath "bool") (PInt 0) id_codec;
      Parser.mkRField "e" VisPrivate (Parser.AList Parser.RNoBits [("default", "false")]) (Parser.RPath "bool") (PInt 0) id_codec;
      Parser.mkRField "f" VisPrivate Parser.ANone (Parser.RPath "bool") (PInt 0) id_codec;
      Parser.mkRField "g" VisPrivate (Parser.AList Parser.RNoBits [("default", "true")]) (Parser.RPath "bool") (PInt 0) id_codec;
      Parser.mkRField "h" VisPrivate Parser.ANone (Parser.RPath "bool") (PInt 0) id_codec]) [("b", (EBool false)); ("e", (EBool false)); ("g", (EBool true))])]
  [SLetT "bitfield" (TStat "Bitfield" "new" []);
   SDo (TMeth "Bitfield" (TVar "bitfield") "write_le_bits_with_defaults" [(TV (RI 255))]);
   SAssert (TMeth "Bitfield" (TVar "bitfield") "a" []);
   SAssert (TNot (TMeth "Bitfield" (TVar "bitfield") "b" []));
   SAssert (TMeth "Bitfield" (TVar "bitfield") "c" []);
   SAssert (TMeth "Bitfield" (TVar "bitfield") "d" []);
   SAssert (TNot (TMeth "Bitfield" (TVar "bitfield") "e" []));
   SAssert (TMeth "Bitfield" (TVar "bitfield") "f" []);
   SAssert (TMeth "Bitfield" (TVar "bitfield") "g" []);
   SAssert (TMeth "Bitfield" (TVar "bitfield") "h" [])]) = true.
Proof. vm_compute. reflexivity. Qed.

(* lib_tests.rs:2619 *)
Example bitfield_write_le_bits_field_access_read_only : is_passed (run_test
  [(mkUnit "Bitfield" (Parser.mkRDecl true VisPrivate "Bitfield" (Some (Parser.RPath "u8")) []
     [Parser.mkRField "rw" VisPrivate (Parser.AList (Parser.RBits 4 "") []) (Parser.RPath "u8") (PInt 0) id_codec;
      Parser.mkRField "ro" VisPrivate (Parser.AList (Parser.RBits 4 "") [("access", "ro")]) (Parser.RPath "u8") (PInt 0) id_codec]) [])]
  [SLetT "bitfield" (TBuild "Bitfield" "build" [(TBuild "Bitfield" "with_ro" [(TBuild "Bitfield" "new" []); (TV (RI 10))])]);
   SDo (TMeth "Bitfield" (TVar "bitfield") "write_le_bits" [(TV (RI 255))]);
   SAssert (TEq (TV (RI 15)) (TMeth "Bitfield" (TVar "bitfield") "rw" []));
   SAssert (TEq (TV (RI 10)) (TMeth "Bitfield" (TVar "bitfield") "ro" []))]) = true.
Proof. vm_compute. reflexivity. Qed.

(* lib_tests.rs:2636 *)
Example bitfield_write_le_bits_does_not_set_read_only_fields : is_passed (run_test
  [(mkUnit "Bitfield" (Parser.mkRDecl true VisPublic "Bitfield" (Some (Parser.RPath "u32")) []
     [Parser.mkRField "rw_field" VisPrivate (Parser.AList Parser.RNoBits [("default", "0x12")]) (Parser.RPath "u8") (PInt 0) id_codec;
      Parser.mkRField "ro_field" VisPrivate (Parser.AList Parser.RNoBits [("default", "0x34"); ("access", "ro")]) (Parser.RPath "u8") (PInt 0) id_codec;
      Parser.mkRField "no_default_field" VisPrivate Parser.ANone (Parser.RPath "u8") (PInt 0) id_codec;
      Parser.mkRField "another_field" VisPrivate (Parser.AList Parser.RNoBits [("default", "0x78")]) (Parser.RPath "u8") (PInt 0) id_codec]) [("rw_field", (ELit 18 None)); ("ro_field", (ELit 52 None)); ("another_field", (ELit 120 None))])]
  [SLetT "bitfield" (TStat "Bitfield" "new" []);
   SDo (TMeth "Bitfield" (TVar "bitfield") "write_le_bits" [(TV (RI 1144201745))]);
   SAssert (TEq (TMeth "Bitfield" (TVar "bitfield") "rw_field" []) (TV (RI 68)));
   SAssert (TEq (TMeth "Bitfield" (TVar "bitfield") "ro_field" []) (TV (RI 52)));
   SAssert (TEq (TMeth "Bitfield" (TVar "bitfield") "no_default_field" []) (TV (RI 34)));
   SAssert (TEq (TMeth "Bitfield" (TVar "bitfield") "another_field" []) (TV (RI 17)));
   SAssert (TEq (TMeth "Bitfield" (TVar "bitfield") "into_bits" []) (TV (RI 287454276)))]) = true.
Proof. vm_compute. reflexivity. Qed.

(* lib_tests.rs:2659 *)
Example bitfield_write_le_bits_does_not_set_read_only_bool_fields : is_passed (run_test
  [(mkUnit "Bitfield" (Parser.mkRDecl true VisPublic "Bitfield" (Some (Parser.RPath "u16")) []
     [Parser.mkRField "a" VisPrivate (Parser.AList (Parser.RBits 4 "") []) (Parser.RPath "u8") (PInt 0) id_codec;
      Parser.mkRField "ro_bool" VisPrivate (Parser.AList Parser.RNoBits [("access", "ro")]) (Parser.RPath "bool") (PInt 0) id_codec;
      Parser.mkRField "b" VisPrivate (Parser.AList (Parser.RBits 3 "") []) (Parser.RPath "u8") (PInt 0) id_codec;
      Parser.mkRField "c" VisPrivate (Parser.AList (Parser.RBits 8 "") []) (Parser.RPath "u8") (PInt 0) id_codec]) [])]
  [SLetT "bitfield_with_ro_true" (TBuild "Bitfield" "build" [(TBuild "Bitfield" "with_ro_bool" [(TBuild "Bitfield" "new" []); (TV (RB true))])]);
   SDo (TMeth "Bitfield" (TVar "bitfield_with_ro_true") "write_le_bits" [(TV (RI 0))]);
   SAssert (TMeth "Bitfield" (TVar "bitfield_with_ro_true") "ro_bool" []);
   SLetT "bitfield_with_ro_false" (TStat "Bitfield" "new" []);
   SDo (TMeth "Bitfield" (TVar "bitfield_with_ro_false") "write_le_bits" [(TV (RI 65535))]);
   SAssert (TNot (TMeth "Bitfield" (TVar "bitfield_with_ro_false") "ro_bool" []))]) = true.
Proof. vm_compute. reflexivity. Qed.

(* lib_tests.rs:2682 *)
Example bitfield_write_be_bits : is_passed (run_test
  [(mkUnit "Bitfield" (Parser.mkRDecl true VisPublic "Bitfield" (Some (Parser.RPath "u32")) []
     [Parser.mkRField "a" VisPrivate (Parser.AList Parser.RNoBits [("default", "0x12")]) (Parser.RPath "u8") (PInt 0) id_codec;
      Parser.mkRField "b" VisPrivate (Parser.AList Parser.RNoBits [("default", "0x34")]) (Parser.RPath "u8") (PInt 0) id_codec;
      Parser.mkRField "c" VisPrivate (Parser.AList Parser.RNoBits [("default", "0x56")]) (Parser.RPath "u8") (PInt 0) id_codec;
      Parser.mkRField "d" VisPrivate (Parser.AList Parser.RNoBits [("default", "0x78")]) (Parser.RPath "u8") (PInt 0) id_codec]) [("a", (ELit 18 None)); ("b", (ELit 52 None)); ("c", (ELit 86 None)); ("d", (ELit 120 None))])]
  [SLetT "bitfield" (TStat "Bitfield" "new" []);
   SDo (TMeth "Bitfield" (TVar "bitfield") "write_be_bits" [(TV (RI 287454020))]);
   SAssert (TEq (TMeth "Bitfield" (TVar "bitfield") "a" []) (TV (RI 68)));
   SAssert (TEq (TMeth "Bitfield" (TVar "bitfield") "b" []) (TV (RI 51)));
   SAssert (TEq (TMeth "Bitfield" (TVar "bitfield") "c" []) (TV (RI 34)));
   SAssert (TEq (TMeth "Bitfield" (TVar "bitfield") "d" []) (TV (RI 17)));
   SAssert (TEq (TMeth "Bitfield" (TVar "bitfield") "into_bits" []) (TV (RI 287454020)))]) = true.
Proof. vm_compute. reflexivity. Qed.

(* lib_tests.rs:2706 *)
Example bitfield_write_be_bits_with_defaults : is_passed (run_test
  [(mkUnit "Bitfield" (Parser.mkRDecl true VisPublic "Bitfield" (Some (Parser.RPath "u32")) []
     [Parser.mkRField "a" VisPrivate (Parser.AList Parser.RNoBits [("default", "0x12")]) (Parser.RPath "u8") (PInt 0) id_codec;
      Parser.mkRField "b" VisPrivate Parser.ANone (Parser.RPath "u8") (PInt 0) id_codec;
      Parser.mkRField "c" VisPrivate Parser.ANone (Parser.RPath "u8") (PInt 0) id_codec;
      Parser.mkRField "d" VisPrivate (Parser.AList Parser.RNoBits [("default", "0x78")]) (Parser.RPath "u8") (PInt 0) id_codec]) [("a", (ELit 18 None)); ("d", (ELit 120 None))])]
  [SLetT "bitfield" (TStat "Bitfield" "new" []);
   SDo (TMeth "Bitfield" (TVar "bitfield") "write_be_bits_with_defaults" [(TV (RI 287454020))]);
   SAssert (TEq (TMeth "Bitfield" (TVar "bitfield") "a" []) (TV (RI 18)));
   SAssert (TEq (TMeth "Bitfield" (TVar "bitfield") "b" []) (TV (RI 51)));
   SAssert (TEq (TMeth "Bitfield" (TVar "bitfield") "c" []) (TV (RI 34)));
   SAssert (TEq (TMeth "Bitfield" (TVar "bitfield") "d" []) (TV (RI 120)));
   SAssert (TEq (TMeth "Bitfield" (TVar "bitfield") "into_bits" []) (TV (RI 2015507218)))]) = true.
Proof. vm_compute. reflexivity. Qed.

(* lib_tests.rs:2728 *)
Example bitfield_write_be_bits_with_defaults_all_fields_have_defaults : is_passed (run_test
  [(mkUnit "Bitfield" (Parser.mkRDecl true VisPublic "Bitfield" (Some (Parser.RPath "u32")) []
     [Parser.mkRField "a" VisPrivate (Parser.AList Parser.RNoBits [("default", "0x12")]) (Parser.RPath "u8") (PInt 0) id_codec;
      Parser.mkRField "b" VisPrivate (Parser.AList Parser.RNoBits [("default", "0x34")]) (Parser.RPath "u8") (PInt 0) id_codec;
      Parser.mkRField "c" VisPrivate (Parser.AList Parser.RNoBits [("default", "0x56")]) (Parser.RPath "u8") (PInt 0) id_codec;
      Parser.mkRField "d" VisPrivate (Parser.AList Parser.RNoBits [("default", "0x78")]) (Parser.RPath "u8") (PInt 0) id_codec]) [("a", (ELit 18 None)); ("b", (ELit 52 None)); ("c", (ELit 86 None)); ("d", (ELit 120 None))])]
  [SLetT "bitfield" (TStat "Bitfield" "new" []);
   SDo (TMeth "Bitfield" (TVar "bitfield") "write_be_bits_with_defaults" [(TV (RI 287454020))]);
   SAssert (TEq (TMeth "Bitfield" (TVar "bitfield") "a" []) (TV (RI 18)));
   SAssert (TEq (TMeth "Bitfield" (TVar "bitfield") "b" []) (TV (RI 52)));
   SAssert (TEq (TMeth "Bitfield" (TVar "bitfield") "c" []) (TV (RI 86)));
   SAssert (TEq (TMeth "Bitfield" (TVar "bitfield") "d" []) (TV (RI 120)))]) = true.
Proof. vm_compute. reflexivity. Qed.

(* lib_tests.rs:2751 *)
Example bitfield_write_be_bits_booleans : is_passed (run_test
  [(mkUnit "Bitfield" (Parser.mkRDecl true VisPublic "Bitfield" (Some (Parser.RPath "u8")) []
     [Parser.mkRField "a" VisPrivate Parser.ANone (Parser.RPath "bool") (PInt 0) id_codec;
      Parser.mkRField "b" VisPrivate (Parser.AList Parser.RNoBits [("default", "false")]) (Parser.RPath "bool") (PInt 0) id_codec;
      Parser.mkRField "c" VisPrivate Parser.ANone (Parser.RPath "bool") (PInt 0) id_codec;
      Parser.mkRField "d" VisPrivate Parser.ANone (Parser.RPath "bool") (PInt 0) id_codec;
      Parser.mkRField "e" VisPrivate (Parser.AList Parser.RNoBits [("default", "false")]) (Parser.RPath "bool") (PInt 0) id_codec;
      Parser.mkRField "f" VisPrivate Parser.ANone (Parser.RPath "bool") (PInt 0) id_codec;
      Parser.mkRField "g" VisPrivate (Parser.AList Parser.RNoBits [("default", "true")]) (Parser.RPath "bool") (PInt 0) id_codec;
      Parser.mkRField "h" VisPrivate Parser.ANone (Parser.RPath "bool") (PInt 0) id_codec]) [("b", (EBool false)); ("e", (EBool false)); ("g", (EBool true))])]
  [SLetT "bitfield" (TStat "Bitfield" "new" []);
   SDo (TMeth "Bitfield" (TVar "bitfield") "write_be_bits" [(TV (RI 255))]);
   SAssert (TMeth "Bitfield" (TVar "bitfield") "a" []);
   SAssert (TMeth "Bitfield" (TVar "bitfield") "b" []);
   SAssert (TMeth "Bitfield" (TVar "bitfield") "c" []);
   SAssert (TMeth "Bitfield" (TVar "bitfield") "d" []);
   SAssert (TMeth "Bitfield" (TVar "bitfield") "e" []);
   SAssert (TMeth "Bitfield" (TVar "bitfield") "f" []);
   SAssert (TMeth "Bitfield" (TVar "bitfield") "g" []);
   SAssert (TMeth "Bitfield" (TVar "bitfield") "h" [])]) = true.
Proof. vm_compute. reflexivity. Qed.

(* lib_tests.rs:2781 *)
Example bitfield_write_be_bits_with_defaults_booleans : is_passed (run_test
  [(mkUnit "Bitfield" (Parser.mkRDecl true VisPublic "Bitfield" (Some (Parser.RPath "u8")) []
     [Parser.mkRField "a" VisPrivate Parser.ANone (Parser.RPath "bool") (PInt 0) id_codec;
      Parser.mkRField "b" VisPrivate (Parser.AList Parser.RNoBits [("default", "false")]) (Parser.RPath "bool") (PInt 0) id_codec;
      Parser.mkRField "c" VisPrivate Parser.ANone (Parser.RPath "bool") (PInt 0) id_codec;
      Parser.mkRField "d" VisPrivate Parser.ANone (Parser.RPath "bool") (PInt 0) id_codec;
      Parser.mkRField "e" VisPrivate (Parser.AList Parser.RNoBits [("default", "false")]) (Parser.RPath "bool") (PInt 0) id_codec;
      Parser.mkRField "f" VisPrivate Parser.ANone (Parser.RPath "bool") (PInt 0) id_codec;
      Parser.mkRField "g" VisPrivate (Parser.AList Parser.RNoBits [("default", "true")]) (Parser.RPath "bool") (PInt 0) id_codec;
      Parser.mkRField "h" VisPrivate Parser.ANone (Parser.RPath "bool") (PInt 0) id_codec]) [("b", (EBool false)); ("e", (EBool false)); ("g", (EBool true))])]
  [SLetT "bitfield" (TStat "Bitfield" "new" []);
   SDo (TMeth "Bitfield" (TVar "bitfield") "write_be_bits_with_defaults" [(TV (RI 255))]);
   SAssert (TMeth "Bitfield" (TVar "bitfield") "a" []);
   SAssert (TNot (TMeth "Bitfield" (TVar "bitfield") "b" []));
   SAssert (TMeth "Bitfield" (TVar "bitfield") "c" []);
   SAssert (TMeth "Bitfield" (TVar "bitfield") "d" []);
   SAssert (TNot (TMeth "Bitfield" (TVar "bitfield") "e" []));
   SAssert (TMeth "Bitfield" (TVar "bitfield") "f" []);
   SAssert (TMeth "Bitfield" (TVar "bitfield") "g" []);
   SAssert (TMeth "Bitfield" (TVar "bitfield") "h" [])]) = true.
Proof. vm_compute. reflexivity. Qed.

(* lib_tests.rs:2811 *)
Example bitfield_write_be_bits_field_access_read_only : is_passed (run_test
  [(mkUnit "Bitfield" (Parser.mkRDecl true VisPrivate "Bitfield" (Some (Parser.RPath "u8")) []
     [Parser.mkRField "rw" VisPrivate (Parser.AList (Parser.RBits 4 "") []) (Parser.RPath "u8") (PInt 0) id_codec;
      Parser.mkRField "ro" VisPrivate (Parser.AList (Parser.RBits 4 "") [("access", "ro")]) (Parser.RPath "u8") (PInt 0) id_codec]) [])]
  [SLetT "bitfield" (TBuild "Bitfield" "build" [(TBuild "Bitfield" "with_ro" [(TBuild "Bitfield" "new" []); (TV (RI 10))])]);
   SDo (TMeth "Bitfield" (TVar "bitfield") "write_be_bits" [(TV (RI 255))]);
   SAssert (TEq (TV (RI 15)) (TMeth "Bitfield" (TVar "bitfield") "rw" []));
   SAssert (TEq (TV (RI 10)) (TMeth "Bitfield" (TVar "bitfield") "ro" []))]) = true.
Proof. vm_compute. reflexivity. Qed.

(* lib_tests.rs:2828 *)
Example bitfield_write_be_bits_does_not_set_read_only_fields : is_passed (run_test
  [(mkUnit "Bitfield" (Parser.mkRDecl true VisPublic "Bitfield" (Some (Parser.RPath "u32")) []
     [Parser.mkRField "rw_field" VisPrivate (Parser.AList Parser.RNoBits [("default", "0x12")]) (Parser.RPath "u8") (PInt 0) id_codec;
      Parser.mkRField "ro_field" VisPrivate (Parser.AList Parser.RNoBits [("default", "0x34"); ("access", "ro")]) (Parser.RPath "u8") (PInt 0) id_codec;
      Parser.mkRField "no_default_field" VisPrivate Parser.ANone (Parser.RPath "u8") (PInt 0) id_codec;
      Parser.mkRField "another_field" VisPrivate (Parser.AList Parser.RNoBits [("default", "0x78")]) (Parser.RPath "u8") (PInt 0) id_codec]) [("rw_field", (ELit 18 None)); ("ro_field", (ELit 52 None)); ("another_field", (ELit 120 None))])]
  [SLetT "bitfield" (TStat "Bitfield" "new" []);
   SDo (TMeth "Bitfield" (TVar "bitfield") "write_be_bits" [(TV (RI 287454020))]);
   SAssert (TEq (TMeth "Bitfield" (TVar "bitfield") "rw_field" []) (TV (RI 68)));
   SAssert (TEq (TMeth "Bitfield" (TVar "bitfield") "ro_field" []) (TV (RI 52)));
   SAssert (TEq (TMeth "Bitfield" (TVar "bitfield") "no_default_field" []) (TV (RI 34)));
   SAssert (TEq (TMeth "Bitfield" (TVar "bitfield") "another_field" []) (TV (RI 17)));
   SAssert (TEq (TMeth "Bitfield" (TVar "bitfield") "into_bits" []) (TV (RI 287454276)))]) = true.
Proof. vm_compute. reflexivity. Qed.

(* lib_tests.rs:2851 *)
Example bitfield_write_be_bits_does_not_set_read_only_bool_fields : is_passed (run_test
  [(mkUnit "Bitfield" (Parser.mkRDecl true VisPublic "Bitfield" (Some (Parser.RPath "u16")) []
     [Parser.mkRField "a" VisPrivate (Parser.AList (Parser.RBits 4 "") []) (Parser.RPath "u8") (PInt 0) id_codec;
      Parser.mkRField "ro_bool" VisPrivate (Parser.AList Parser.RNoBits [("access", "ro")]) (Parser.RPath "bool") (PInt 0) id_codec;
      Parser.mkRField "b" VisPrivate (Parser.AList (Parser.RBits 3 "") []) (Parser.RPath "u8") (PInt 0) id_codec;
      Parser.mkRField "c" VisPrivate (Parser.AList (Parser.RBits 8 "") []) (Parser.RPath "u8") (PInt 0) id_codec]) [])]
  [SLetT "bitfield_with_ro_true" (TBuild "Bitfield" "build" [(TBuild "Bitfield" "with_ro_bool" [(TBuild "Bitfield" "new" []); (TV (RB true))])]);
   SDo (TMeth "Bitfield" (TVar "bitfield_with_ro_true") "write_be_bits" [(TV (RI 0))]);
   SAssert (TMeth "Bitfield" (TVar "bitfield_with_ro_true") "ro_bool" []);
   SLetT "bitfield_with_ro_false" (TStat "Bitfield" "new" []);
   SDo (TMeth "Bitfield" (TVar "bitfield_with_ro_false") "write_be_bits" [(TV (RI 65535))]);
   SAssert (TNot (TMeth "Bitfield" (TVar "bitfield_with_ro_false") "ro_bool" []))]) = true.
Proof. vm_compute. reflexivity. Qed.

(* lib_tests.rs:2874 *)
Example bitfield_custom_field_no_write_access : is_passed (run_test
  [(mkUnit "Bitfield" (Parser.mkRDecl true VisPublic "Bitfield" (Some (Parser.RPath "u16")) []
     [Parser.mkRField "a" VisPrivate (Parser.AList Parser.RNoBits [("default", "0x12")]) (Parser.RPath "u8") (PInt 0) id_codec;
      Parser.mkRField "nested_field" VisPrivate (Parser.AList (Parser.RBits 8 "") [("default", "CustomType::A"); ("access", "ro")]) (Parser.RPath "CustomType") (PInt 0) (mkCodec U8 (fun bits => (if Z.eqb bits 3 then 0 else (if Z.eqb bits 4 then 1 else 0))) U8 (fun self => (if Z.eqb self 0 then 3 else (if Z.eqb self 1 then 4 else (-1)))))]) [("a", (ELit 18 None)); ("nested_field", (EUser (TUser "nested_field") (RC 0)))])]
  [SLetT "bitfield" (TStat "Bitfield" "new" []);
   SAssert (TEq (TMeth "Bitfield" (TVar "bitfield") "into_bits" []) (TV (RI 786)))]) = true.
Proof. vm_compute. reflexivity. Qed.

(* lib_tests.rs:2911 *)
Example bitfield_from_traits_msb_from_little_into_little : is_passed (run_test
  [(mkUnit "Bitfield" (Parser.mkRDecl true VisPublic "Bitfield" (Some (Parser.RPath "u32")) [("order", "msb"); ("from_endian", "little"); ("into_endian", "little")]
     [Parser.mkRField "a" VisPrivate Parser.ANone (Parser.RPath "u8") (PInt 0) id_codec;
      Parser.mkRField "b" VisPrivate Parser.ANone (Parser.RPath "u8") (PInt 0) id_codec;
      Parser.mkRField "c" VisPrivate Parser.ANone (Parser.RPath "u8") (PInt 0) id_codec;
      Parser.mkRField "d" VisPrivate Parser.ANone (Parser.RPath "u8") (PInt 0) id_codec]) [])]
  [SLetT "bitfield" (TFrom "Bitfield" (TV (RI 2018915346)));
   SLetT "bits" (TInto "Bitfield" (TVar "bitfield"));
   SAssert (TEq (TMeth "Bitfield" (TVar "bitfield") "a" []) (TV (RI 18)));
   SAssert (TEq (TMeth "Bitfield" (TVar "bitfield") "b" []) (TV (RI 52)));
   SAssert (TEq (TMeth "Bitfield" (TVar "bitfield") "c" []) (TV (RI 86)));
   SAssert (TEq (TMeth "Bitfield" (TVar "bitfield") "d" []) (TV (RI 120)));
   SAssert (TEq (TVar "bits") (TV (RI 2018915346)))]) = true.
Proof. vm_compute. reflexivity. Qed.

(* lib_tests.rs:2931 *)
Example bitfield_from_traits_lsb_from_little_into_little : is_passed (run_test
  [(mkUnit "Bitfield" (Parser.mkRDecl true VisPublic "Bitfield" (Some (Parser.RPath "u32")) [("order", "lsb"); ("from_endian", "little"); ("into_endian", "little")]
     [Parser.mkRField "a" VisPrivate Parser.ANone (Parser.RPath "u8") (PInt 0) id_codec;
      Parser.mkRField "b" VisPrivate Parser.ANone (Parser.RPath "u8") (PInt 0) id_codec;
      Parser.mkRField "c" VisPrivate Parser.ANone (Parser.RPath "u8") (PInt 0) id_codec;
      Parser.mkRField "d" VisPrivate Parser.ANone (Parser.RPath "u8") (PInt 0) id_codec]) [])]
  [SLetT "bitfield" (TFrom "Bitfield" (TV (RI 2018915346)));
   SLetT "bits" (TInto "Bitfield" (TVar "bitfield"));
   SAssert (TEq (TMeth "Bitfield" (TVar "bitfield") "a" []) (TV (RI 120)));
   SAssert (TEq (TMeth "Bitfield" (TVar "bitfield") "b" []) (TV (RI 86)));
   SAssert (TEq (TMeth "Bitfield" (TVar "bitfield") "c" []) (TV (RI 52)));
   SAssert (TEq (TMeth "Bitfield" (TVar "bitfield") "d" []) (TV (RI 18)));
   SAssert (TEq (TVar "bits") (TV (RI 2018915346)))]) = true.
Proof. vm_compute. reflexivity. Qed.

(* lib_tests.rs:2951 *)
Example bitfield_from_traits_msb_from_big_into_little : is_passed (run_test
  [(mkUnit "Bitfield" (Parser.mkRDecl true VisPublic "Bitfield" (Some (Parser.RPath "u32")) [("order", "msb"); ("from_endian", "big"); ("into_endian", "little")]
     [Parser.mkRField "a" VisPrivate Parser.ANone (Parser.RPath "u8") (PInt 0) id_codec;
      Parser.mkRField "b" VisPrivate Parser.ANone (Parser.RPath "u8") (PInt 0) id_codec;
      Parser.mkRField "c" VisPrivate Parser.ANone (Parser.RPath "u8") (PInt 0) id_codec;
      Parser.mkRField "d" VisPrivate Parser.ANone (Parser.RPath "u8") (PInt 0) id_codec]) [])]
  [SLetT "bitfield" (TFrom "Bitfield" (TV (RI 2018915346)));
   SLetT "bits" (TInto "Bitfield" (TVar "bitfield"));
   SAssert (TEq (TMeth "Bitfield" (TVar "bitfield") "a" []) (TV (RI 120)));
   SAssert (TEq (TMeth "Bitfield" (TVar "bitfield") "b" []) (TV (RI 86)));
   SAssert (TEq (TMeth "Bitfield" (TVar "bitfield") "c" []) (TV (RI 52)));
   SAssert (TEq (TMeth "Bitfield" (TVar "bitfield") "d" []) (TV (RI 18)));
   SAssert (TEq (TVar "bits") (TV (RI 305419896)))]) = true.
Proof. vm_compute. reflexivity. Qed.

(* lib_tests.rs:2971 *)
Example bitfield_from_traits_lsb_from_big_into_little : is_passed (run_test
  [(mkUnit "Bitfield" (Parser.mkRDecl true VisPublic "Bitfield" (Some (Parser.RPath "u32")) [("order", "lsb"); ("from_endian", "big"); ("into_endian", "little")]
     [Parser.mkRField "a" VisPrivate Parser.ANone (Parser.RPath "u8") (PInt 0) id_codec;
      Parser.mkRField "b" VisPrivate Parser.ANone (Parser.RPath "u8") (PInt 0) id_codec;
      Parser.mkRField "c" VisPrivate Parser.ANone (Parser.RPath "u8") (PInt 0) id_codec;
      Parser.mkRField "d" VisPrivate Parser.ANone (Parser.RPath "u8") (PInt 0) id_codec]) [])]
  [SLetT "bitfield" (TFrom "Bitfield" (TV (RI 2018915346)));
   SLetT "bits" (TInto "Bitfield" (TVar "bitfield"));
   SAssert (TEq (TMeth "Bitfield" (TVar "bitfield") "a" []) (TV (RI 18)));
   SAssert (TEq (TMeth "Bitfield" (TVar "bitfield") "b" []) (TV (RI 52)));
   SAssert (TEq (TMeth "Bitfield" (TVar "bitfield") "c" []) (TV (RI 86)));
   SAssert (TEq (TMeth "Bitfield" (TVar "bitfield") "d" []) (TV (RI 120)));
   SAssert (TEq (TVar "bits") (TV (RI 305419896)))]) = true.
Proof. vm_compute. reflexivity. Qed.

(* lib_tests.rs:2991 *)
Example bitfield_from_traits_msb_from_little_into_big : is_passed (run_test
  [(mkUnit "Bitfield" (Parser.mkRDecl true VisPublic "Bitfield" (Some (Parser.RPath "u32")) [("order", "msb"); ("from_endian", "little"); ("into_endian", "big")]
     [Parser.mkRField "a" VisPrivate Parser.ANone (Parser.RPath "u8") (PInt 0) id_codec;
      Parser.mkRField "b" VisPrivate Parser.ANone (Parser.RPath "u8") (PInt 0) id_codec;
      Parser.mkRField "c" VisPrivate Parser.ANone (Parser.RPath "u8") (PInt 0) id_codec;
      Parser.mkRField "d" VisPrivate Parser.ANone (Parser.RPath "u8") (PInt 0) id_codec]) [])]
  [SLetT "bitfield" (TFrom "Bitfield" (TV (RI 2018915346)));
   SLetT "bits" (TInto "Bitfield" (TVar "bitfield"));
   SAssert (TEq (TMeth "Bitfield" (TVar "bitfield") "a" []) (TV (RI 18)));
   SAssert (TEq (TMeth "Bitfield" (TVar "bitfield") "b" []) (TV (RI 52)));
   SAssert (TEq (TMeth "Bitfield" (TVar "bitfield") "c" []) (TV (RI 86)));
   SAssert (TEq (TMeth "Bitfield" (TVar "bitfield") "d" []) (TV (RI 120)));
   SAssert (TEq (TVar "bits") (TV (RI 305419896)))]) = true.
Proof. vm_compute. reflexivity. Qed.

(* lib_tests.rs:3011 *)
Example bitfield_from_traits_lsb_from_little_into_big : is_passed (run_test
  [(mkUnit "Bitfield" (Parser.mkRDecl true VisPublic "Bitfield" (Some (Parser.RPath "u32")) [("order", "lsb"); ("from_endian", "little"); ("into_endian", "big")]
     [Parser.mkRField "a" VisPrivate Parser.ANone (Parser.RPath "u8") (PInt 0) id_codec;
      Parser.mkRField "b" VisPrivate Parser.ANone (Parser.RPath "u8") (PInt 0) id_codec;
      Parser.mkRField "c" VisPrivate Parser.ANone (Parser.RPath "u8") (PInt 0) id_codec;
      Parser.mkRField "d" VisPrivate Parser.ANone (Parser.RPath "u8") (PInt 0) id_codec]) [])]
  [SLetT "bitfield" (TFrom "Bitfield" (TV (RI 2018915346)));
   SLetT "bits" (TInto "Bitfield" (TVar "bitfield"));
   SAssert (TEq (TMeth "Bitfield" (TVar "bitfield") "a" []) (TV (RI 120)));
   SAssert (TEq (TMeth "Bitfield" (TVar "bitfield") "b" []) (TV (RI 86)));
   SAssert (TEq (TMeth "Bitfield" (TVar "bitfield") "c" []) (TV (RI 52)));
   SAssert (TEq (TMeth "Bitfield" (TVar "bitfield") "d" []) (TV (RI 18)));
   SAssert (TEq (TVar "bits") (TV (RI 305419896)))]) = true.
Proof. vm_compute. reflexivity. Qed.

(* lib_tests.rs:3031 *)
Example bitfield_from_traits_msb_from_big_into_big : is_passed (run_test
  [(mkUnit "Bitfield" (Parser.mkRDecl true VisPublic "Bitfield" (Some (Parser.RPath "u32")) [("order", "msb"); ("from_endian", "big"); ("into_endian", "big")]
     [Parser.mkRField "a" VisPrivate Parser.ANone (Parser.RPath "u8") (PInt 0) id_codec;
      Parser.mkRField "b" VisPrivate Parser.ANone (Parser.RPath "u8") (PInt 0) id_codec;
      Parser.mkRField "c" VisPrivate Parser.ANone (Parser.RPath "u8") (PInt 0) id_codec;
      Parser.mkRField "d" VisPrivate Parser.ANone (Parser.RPath "u8") (PInt 0) id_codec]) [])]
  [SLetT "bitfield" (TFrom "Bitfield" (TV (RI 2018915346)));
   SLetT "bits" (TInto "Bitfield" (TVar "bitfield"));
   SAssert (TEq (TMeth "Bitfield" (TVar "bitfield") "a" []) (TV (RI 120)));
   SAssert (TEq (TMeth "Bitfield" (TVar "bitfield") "b" []) (TV (RI 86)));
   SAssert (TEq (TMeth "Bitfield" (TVar "bitfield") "c" []) (TV (RI 52)));
   SAssert (TEq (TMeth "Bitfield" (TVar "bitfield") "d" []) (TV (RI 18)));
   SAssert (TEq (TVar "bits") (TV (RI 2018915346)))]) = true.
Proof. vm_compute. reflexivity. Qed.

(* lib_tests.rs:3051 *)
Example bitfield_from_traits_lsb_from_big_into_big : is_passed (run_test
  [(mkUnit "Bitfield" (Parser.mkRDecl true VisPublic "Bitfield" (Some (Parser.RPath "u32")) [("order", "lsb"); ("from_endian", "big"); ("into_endian", "big")]
     [Parser.mkRField "a" VisPrivate Parser.ANone (Parser.RPath "u8") (PInt 0) id_codec;
      Parser.mkRField "b" VisPrivate Parser.ANone (Parser.RPath "u8") (PInt 0) id_codec;
      Parser.mkRField "c" VisPrivate Parser.ANone (Parser.RPath "u8") (PInt 0) id_codec;
      Parser.mkRField "d" VisPrivate Parser.ANone (Parser.RPath "u8") (PInt 0) id_codec]) [])]
  [SLetT "bitfield" (TFrom "Bitfield" (TV (RI 2018915346)));
   SLetT "bits" (TInto "Bitfield" (TVar "bitfield"));
   SAssert (TEq (TMeth "Bitfield" (TVar "bitfield") "a" []) (TV (RI 18)));
   SAssert (TEq (TMeth "Bitfield" (TVar "bitfield") "b" []) (TV (RI 52)));
   SAssert (TEq (TMeth "Bitfield" (TVar "bitfield") "c" []) (TV (RI 86)));
   SAssert (TEq (TMeth "Bitfield" (TVar "bitfield") "d" []) (TV (RI 120)));
   SAssert (TEq (TVar "bits") (TV (RI 2018915346)))]) = true.
Proof. vm_compute. reflexivity. Qed.

(* lib_tests.rs:3071 *)
Example bitfield_from_into_bits_msb_from_little_into_little : is_passed (run_test
  [(mkUnit "Bitfield" (Parser.mkRDecl true VisPublic "Bitfield" (Some (Parser.RPath "u32")) [("order", "msb"); ("from_endian", "little"); ("into_endian", "little")]
     [Parser.mkRField "a" VisPrivate Parser.ANone (Parser.RPath "u8") (PInt 0) id_codec;
      Parser.mkRField "b" VisPrivate Parser.ANone (Parser.RPath "u8") (PInt 0) id_codec;
      Parser.mkRField "c" VisPrivate Parser.ANone (Parser.RPath "u8") (PInt 0) id_codec;
      Parser.mkRField "d" VisPrivate Parser.ANone (Parser.RPath "u8") (PInt 0) id_codec]) [])]
  [SLetT "bitfield" (TStat "Bitfield" "from_bits" [(TV (RI 2018915346))]);
   SAssert (TEq (TMeth "Bitfield" (TVar "bitfield") "a" []) (TV (RI 18)));
   SAssert (TEq (TMeth "Bitfield" (TVar "bitfield") "b" []) (TV (RI 52)));
   SAssert (TEq (TMeth "Bitfield" (TVar "bitfield") "c" []) (TV (RI 86)));
   SAssert (TEq (TMeth "Bitfield" (TVar "bitfield") "d" []) (TV (RI 120)));
   SAssert (TEq (TMeth "Bitfield" (TVar "bitfield") "into_bits" []) (TV (RI 2018915346)))]) = true.
Proof. vm_compute. reflexivity. Qed.

(* lib_tests.rs:3090 *)
Example bitfield_from_into_bits_lsb_from_little_into_little : is_passed (run_test
  [(mkUnit "Bitfield" (Parser.mkRDecl true VisPublic "Bitfield" (Some (Parser.RPath "u32")) [("order", "lsb"); ("from_endian", "little"); ("into_endian", "little")]
     [Parser.mkRField "a" VisPrivate Parser.ANone (Parser.RPath "u8") (PInt 0) id_codec;
      Parser.mkRField "b" VisPrivate Parser.ANone (Parser.RPath "u8") (PInt 0) id_codec;
      Parser.mkRField "c" VisPrivate Parser.ANone (Parser.RPath "u8") (PInt 0) id_codec;
      Parser.mkRField "d" VisPrivate Parser.ANone (Parser.RPath "u8") (PInt 0) id_codec]) [])]
  [SLetT "bitfield" (TStat "Bitfield" "from_bits" [(TV (RI 2018915346))]);
   SAssert (TEq (TMeth "Bitfield" (TVar "bitfield") "a" []) (TV (RI 120)));
   SAssert (TEq (TMeth "Bitfield" (TVar "bitfield") "b" []) (TV (RI 86)));
   SAssert (TEq (TMeth "Bitfield" (TVar "bitfield") "c" []) (TV (RI 52)));
   SAssert (TEq (TMeth "Bitfield" (TVar "bitfield") "d" []) (TV (RI 18)));
   SAssert (TEq (TMeth "Bitfield" (TVar "bitfield") "into_bits" []) (TV (RI 2018915346)))]) = true.
Proof. vm_compute. reflexivity. Qed.

(* lib_tests.rs:3109 *)
Example bitfield_from_into_bits_msb_from_big_into_little : is_passed (run_test
  [(mkUnit "Bitfield" (Parser.mkRDecl true VisPublic "Bitfield" (Some (Parser.RPath "u32")) [("order", "msb"); ("from_endian", "big"); ("into_endian", "little")]
     [Parser.mkRField "a" VisPrivate Parser.ANone (Parser.RPath "u8") (PInt 0) id_codec;
      Parser.mkRField "b" VisPrivate Parser.ANone (Parser.RPath "u8") (PInt 0) id_codec;
      Parser.mkRField "c" VisPrivate Parser.ANone (Parser.RPath "u8") (PInt 0) id_codec;
      Parser.mkRField "d" VisPrivate Parser.ANone (Parser.RPath "u8") (PInt 0) id_codec]) [])]
  [SLetT "bitfield" (TStat "Bitfield" "from_bits" [(TV (RI 2018915346))]);
   SAssert (TEq (TMeth "Bitfield" (TVar "bitfield") "a" []) (TV (RI 120)));
   SAssert (TEq (TMeth "Bitfield" (TVar "bitfield") "b" []) (TV (RI 86)));
   SAssert (TEq (TMeth "Bitfield" (TVar "bitfield") "c" []) (TV (RI 52)));
   SAssert (TEq (TMeth "Bitfield" (TVar "bitfield") "d" []) (TV (RI 18)));
   SAssert (TEq (TMeth "Bitfield" (TVar "bitfield") "into_bits" []) (TV (RI 305419896)))]) = true.
Proof. vm_compute. reflexivity. Qed.

(* lib_tests.rs:3128 *)
Example bitfield_from_into_bits_lsb_from_big_into_little : is_passed (run_test
  [(mkUnit "Bitfield" (Parser.mkRDecl true VisPublic "Bitfield" (Some (Parser.RPath "u32")) [("order", "lsb"); ("from_endian", "big"); ("into_endian", "little")]
     [Parser.mkRField "a" VisPrivate Parser.ANone (Parser.RPath "u8") (PInt 0) id_codec;
      Parser.mkRField "b" VisPrivate Parser.ANone (Parser.RPath "u8") (PInt 0) id_codec;
      Parser.mkRField "c" VisPrivate Parser.ANone (Parser.RPath "u8") (PInt 0) id_codec;
      Parser.mkRField "d" VisPrivate Parser.ANone (Parser.RPath "u8") (PInt 0) id_codec]) [])]
  [SLetT "bitfield" (TStat "Bitfield" "from_bits" [(TV (RI 2018915346))]);
   SAssert (TEq (TMeth "Bitfield" (TVar "bitfield") "a" []) (TV (RI 18)));
   SAssert (TEq (TMeth "Bitfield" (TVar "bitfield") "b" []) (TV (RI 52)));
   SAssert (TEq (TMeth "Bitfield" (TVar "bitfield") "c" []) (TV (RI 86)));
   SAssert (TEq (TMeth "Bitfield" (TVar "bitfield") "d" []) (TV (RI 120)));
   SAssert (TEq (TMeth "Bitfield" (TVar "bitfield") "into_bits" []) (TV (RI 305419896)))]) = true.
Proof. vm_compute. reflexivity. Qed.

(* lib_tests.rs:3147 *)
Example bitfield_from_into_bits_msb_from_little_into_big : is_passed (run_test
  [(mkUnit "Bitfield" (Parser.mkRDecl true VisPublic "Bitfield" (Some (Parser.RPath "u32")) [("order", "msb"); ("from_endian", "little"); ("into_endian", "big")]
     [Parser.mkRField "a" VisPrivate Parser.ANone (Parser.RPath "u8") (PInt 0) id_codec;
      Parser.mkRField "b" VisPrivate Parser.ANone (Parser.RPath "u8") (PInt 0) id_codec;
      Parser.mkRField "c" VisPrivate Parser.ANone (Parser.RPath "u8") (PInt 0) id_codec;
      Parser.mkRField "d" VisPrivate Parser.ANone (Parser.RPath "u8") (PInt 0) id_codec]) [])]
  [SLetT "bitfield" (TStat "Bitfield" "from_bits" [(TV (RI 2018915346))]);
   SAssert (TEq (TMeth "Bitfield" (TVar "bitfield") "a" []) (TV (RI 18)));
   SAssert (TEq (TMeth "Bitfield" (TVar "bitfield") "b" []) (TV (RI 52)));
   SAssert (TEq (TMeth "Bitfield" (TVar "bitfield") "c" []) (TV (RI 86)));
   SAssert (TEq (TMeth "Bitfield" (TVar "bitfield") "d" []) (TV (RI 120)));
   SAssert (TEq (TMeth "Bitfield" (TVar "bitfield") "into_bits" []) (TV (RI 305419896)))]) = true.
Proof. vm_compute. reflexivity. Qed.

(* lib_tests.rs:3166 *)
Example bitfield_from_into_bits_lsb_from_little_into_big : is_passed (run_test
  [(mkUnit "Bitfield" (Parser.mkRDecl true VisPublic "Bitfield" (Some (Parser.RPath "u32")) [("order", "lsb"); ("from_endian", "little"); ("into_endian", "big")]
     [Parser.mkRField "a" VisPrivate Parser.ANone (Parser.RPath "u8") (PInt 0) id_codec;
      Parser.mkRField "b" VisPrivate Parser.ANone (Parser.RPath "u8") (PInt 0) id_codec;
      Parser.mkRField "c" VisPrivate Parser.ANone (Parser.RPath "u8") (PInt 0) id_codec;
      Parser.mkRField "d" VisPrivate Parser.ANone (Parser.RPath "u8") (PInt 0) id_codec]) [])]
  [SLetT "bitfield" (TStat "Bitfield" "from_bits" [(TV (RI 2018915346))]);
   SAssert (TEq (TMeth "Bitfield" (TVar "bitfield") "a" []) (TV (RI 120)));
   SAssert (TEq (TMeth "Bitfield" (TVar "bitfield") "b" []) (TV (RI 86)));
   SAssert (TEq (TMeth "Bitfield" (TVar "bitfield") "c" []) (TV (RI 52)));
   SAssert (TEq (TMeth "Bitfield" (TVar "bitfield") "d" []) (TV (RI 18)));
   SAssert (TEq (TMeth "Bitfield" (TVar "bitfield") "into_bits" []) (TV (RI 305419896)))]) = true.
Proof. vm_compute. reflexivity. Qed.

(* lib_tests.rs:3185 *)
Example bitfield_from_into_bits_msb_from_big_into_big : is_passed (run_test
  [(mkUnit "Bitfield" (Parser.mkRDecl true VisPublic "Bitfield" (Some (Parser.RPath "u32")) [("order", "msb"); ("from_endian", "big"); ("into_endian", "big")]
     [Parser.mkRField "a" VisPrivate Parser.ANone (Parser.RPath "u8") (PInt 0) id_codec;
      Parser.mkRField "b" VisPrivate Parser.ANone (Parser.RPath "u8") (PInt 0) id_codec;
      Parser.mkRField "c" VisPrivate Parser.ANone (Parser.RPath "u8") (PInt 0) id_codec;
      Parser.mkRField "d" VisPrivate Parser.ANone (Parser.RPath "u8") (PInt 0) id_codec]) [])]
  [SLetT "bitfield" (TStat "Bitfield" "from_bits" [(TV (RI 2018915346))]);
   SAssert (TEq (TMeth "Bitfield" (TVar "bitfield") "a" []) (TV (RI 120)));
   SAssert (TEq (TMeth "Bitfield" (TVar "bitfield") "b" []) (TV (RI 86)));
   SAssert (TEq (TMeth "Bitfield" (TVar "bitfield") "c" []) (TV (RI 52)));
   SAssert (TEq (TMeth "Bitfield" (TVar "bitfield") "d" []) (TV (RI 18)));
   SAssert (TEq (TMeth "Bitfield" (TVar "bitfield") "into_bits" []) (TV (RI 2018915346)))]) = true.
Proof. vm_compute. reflexivity. Qed.

(* lib_tests.rs:3204 *)
Example bitfield_from_into_bits_lsb_from_big_into_big : is_passed (run_test
  [(mkUnit "Bitfield" (Parser.mkRDecl true VisPublic "Bitfield" (Some (Parser.RPath "u32")) [("order", "lsb"); ("from_endian", "big"); ("into_endian", "big")]
     [Parser.mkRField "a" VisPrivate Parser.ANone (Parser.RPath "u8") (PInt 0) id_codec;
      Parser.mkRField "b" VisPrivate Parser.ANone (Parser.RPath "u8") (PInt 0) id_codec;
      Parser.mkRField "c" VisPrivate Parser.ANone (Parser.RPath "u8") (PInt 0) id_codec;
      Parser.mkRField "d" VisPrivate Parser.ANone (Parser.RPath "u8") (PInt 0) id_codec]) [])]
  [SLetT "bitfield" (TStat "Bitfield" "from_bits" [(TV (RI 2018915346))]);
   SAssert (TEq (TMeth "Bitfield" (TVar "bitfield") "a" []) (TV (RI 18)));
   SAssert (TEq (TMeth "Bitfield" (TVar "bitfield") "b" []) (TV (RI 52)));
   SAssert (TEq (TMeth "Bitfield" (TVar "bitfield") "c" []) (TV (RI 86)));
   SAssert (TEq (TMeth "Bitfield" (TVar "bitfield") "d" []) (TV (RI 120)));
   SAssert (TEq (TMeth "Bitfield" (TVar "bitfield") "into_bits" []) (TV (RI 2018915346)))]) = true.
Proof. vm_compute. reflexivity. Qed.

(* lib_tests.rs:3223 *)
Example bitfield_msb_from_le_bits_into_le_bits : is_passed (run_test
  [(mkUnit "Bitfield" (Parser.mkRDecl true VisPublic "Bitfield" (Some (Parser.RPath "u32")) [("order", "msb")]
     [Parser.mkRField "a" VisPrivate Parser.ANone (Parser.RPath "u8") (PInt 0) id_codec;
      Parser.mkRField "b" VisPrivate Parser.ANone (Parser.RPath "u8") (PInt 0) id_codec;
      Parser.mkRField "c" VisPrivate Parser.ANone (Parser.RPath "u8") (PInt 0) id_codec;
      Parser.mkRField "d" VisPrivate Parser.ANone (Parser.RPath "u8") (PInt 0) id_codec]) [])]
  [SLetT "bitfield" (TStat "Bitfield" "from_le_bits" [(TV (RI 2018915346))]);
   SAssert (TEq (TMeth "Bitfield" (TVar "bitfield") "a" []) (TV (RI 18)));
   SAssert (TEq (TMeth "Bitfield" (TVar "bitfield") "b" []) (TV (RI 52)));
   SAssert (TEq (TMeth "Bitfield" (TVar "bitfield") "c" []) (TV (RI 86)));
   SAssert (TEq (TMeth "Bitfield" (TVar "bitfield") "d" []) (TV (RI 120)));
   SAssert (TEq (TMeth "Bitfield" (TVar "bitfield") "into_le_bits" []) (TV (RI 2018915346)))]) = true.
Proof. vm_compute. reflexivity. Qed.

(* lib_tests.rs:3242 *)
Example bitfield_lsb_from_le_bits_into_le_bits : is_passed (run_test
  [(mkUnit "Bitfield" (Parser.mkRDecl true VisPublic "Bitfield" (Some (Parser.RPath "u32")) [("order", "lsb")]
     [Parser.mkRField "a" VisPrivate Parser.ANone (Parser.RPath "u8") (PInt 0) id_codec;
      Parser.mkRField "b" VisPrivate Parser.ANone (Parser.RPath "u8") (PInt 0) id_codec;
      Parser.mkRField "c" VisPrivate Parser.ANone (Parser.RPath "u8") (PInt 0) id_codec;
      Parser.mkRField "d" VisPrivate Parser.ANone (Parser.RPath "u8") (PInt 0) id_codec]) [])]
  [SLetT "bitfield" (TStat "Bitfield" "from_le_bits" [(TV (RI 2018915346))]);
   SAssert (TEq (TMeth "Bitfield" (TVar "bitfield") "a" []) (TV (RI 120)));
   SAssert (TEq (TMeth "Bitfield" (TVar "bitfield") "b" []) (TV (RI 86)));
   SAssert (TEq (TMeth "Bitfield" (TVar "bitfield") "c" []) (TV (RI 52)));
   SAssert (TEq (TMeth "Bitfield" (TVar "bitfield") "d" []) (TV (RI 18)));
   SAssert (TEq (TMeth "Bitfield" (TVar "bitfield") "into_le_bits" []) (TV (RI 2018915346)))]) = true.
Proof. vm_compute. reflexivity. Qed.

(* lib_tests.rs:3261 *)
Example bitfield_msb_from_be_bits_into_le_bits : is_passed (run_test
  [(mkUnit "Bitfield" (Parser.mkRDecl true VisPublic "Bitfield" (Some (Parser.RPath "u32")) [("order", "msb")]
     [Parser.mkRField "a" VisPrivate Parser.ANone (Parser.RPath "u8") (PInt 0) id_codec;
      Parser.mkRField "b" VisPrivate Parser.ANone (Parser.RPath "u8") (PInt 0) id_codec;
      Parser.mkRField "c" VisPrivate Parser.ANone (Parser.RPath "u8") (PInt 0) id_codec;
      Parser.mkRField "d" VisPrivate Parser.ANone (Parser.RPath "u8") (PInt 0) id_codec]) [])]
  [SLetT "bitfield" (TStat "Bitfield" "from_be_bits" [(TV (RI 2018915346))]);
   SAssert (TEq (TMeth "Bitfield" (TVar "bitfield") "a" []) (TV (RI 120)));
   SAssert (TEq (TMeth "Bitfield" (TVar "bitfield") "b" []) (TV (RI 86)));
   SAssert (TEq (TMeth "Bitfield" (TVar "bitfield") "c" []) (TV (RI 52)));
   SAssert (TEq (TMeth "Bitfield" (TVar "bitfield") "d" []) (TV (RI 18)));
   SAssert (TEq (TMeth "Bitfield" (TVar "bitfield") "into_le_bits" []) (TV (RI 305419896)))]) = true.
Proof. vm_compute. reflexivity. Qed.

(* lib_tests.rs:3280 *)
Example bitfield_lsb_from_be_bits_into_le_bits : is_passed (run_test
  [(mkUnit "Bitfield" (Parser.mkRDecl true VisPublic "Bitfield" (Some (Parser.RPath "u32")) [("order", "lsb")]
     [Parser.mkRField "a" VisPrivate Parser.ANone (Parser.RPath "u8") (PInt 0) id_codec;
      Parser.mkRField "b" VisPrivate Parser.ANone (Parser.RPath "u8") (PInt 0) id_codec;
      Parser.mkRField "c" VisPrivate Parser.ANone (Parser.RPath "u8") (PInt 0) id_codec;
      Parser.mkRField "d" VisPrivate Parser.ANone (Parser.RPath "u8") (PInt 0) id_codec]) [])]
  [SLetT "bitfield" (TStat "Bitfield" "from_be_bits" [(TV (RI 2018915346))]);
   SAssert (TEq (TMeth "Bitfield" (TVar "bitfield") "a" []) (TV (RI 18)));
   SAssert (TEq (TMeth "Bitfield" (TVar "bitfield") "b" []) (TV (RI 52)));
   SAssert (TEq (TMeth "Bitfield" (TVar "bitfield") "c" []) (TV (RI 86)));
   SAssert (TEq (TMeth "Bitfield" (TVar "bitfield") "d" []) (TV (RI 120)));
   SAssert (TEq (TMeth "Bitfield" (TVar "bitfield") "into_le_bits" []) (TV (RI 305419896)))]) = true.
Proof. vm_compute. reflexivity. Qed.

(* lib_tests.rs:3299 *)
Example bitfield_msb_from_le_bits_into_be_bits : is_passed (run_test
  [(mkUnit "Bitfield" (Parser.mkRDecl true VisPublic "Bitfield" (Some (Parser.RPath "u32")) [("order", "msb")]
     [Parser.mkRField "a" VisPrivate Parser.ANone (Parser.RPath "u8") (PInt 0) id_codec;
      Parser.mkRField "b" VisPrivate Parser.ANone (Parser.RPath "u8") (PInt 0) id_codec;
      Parser.mkRField "c" VisPrivate Parser.ANone (Parser.RPath "u8") (PInt 0) id_codec;
      Parser.mkRField "d" VisPrivate Parser.ANone (Parser.RPath "u8") (PInt 0) id_codec]) [])]
  [SLetT "bitfield" (TStat "Bitfield" "from_le_bits" [(TV (RI 2018915346))]);
   SAssert (TEq (TMeth "Bitfield" (TVar "bitfield") "a" []) (TV (RI 18)));
   SAssert (TEq (TMeth "Bitfield" (TVar "bitfield") "b" []) (TV (RI 52)));
   SAssert (TEq (TMeth "Bitfield" (TVar "bitfield") "c" []) (TV (RI 86)));
   SAssert (TEq (TMeth "Bitfield" (TVar "bitfield") "d" []) (TV (RI 120)));
   SAssert (TEq (TMeth "Bitfield" (TVar "bitfield") "into_be_bits" []) (TV (RI 305419896)))]) = true.
Proof. vm_compute. reflexivity. Qed.

(* lib_tests.rs:3318 *)
Example bitfield_lsb_from_le_bits_into_be_bits : is_passed (run_test
  [(mkUnit "Bitfield" (Parser.mkRDecl true VisPublic "Bitfield" (Some (Parser.RPath "u32")) [("order", "lsb")]
     [Parser.mkRField "a" VisPrivate Parser.ANone (Parser.RPath "u8") (PInt 0) id_codec;
      Parser.mkRField "b" VisPrivate Parser.ANone (Parser.RPath "u8") (PInt 0) id_codec;
      Parser.mkRField "c" VisPrivate Parser.ANone (Parser.RPath "u8") (PInt 0) id_codec;
      Parser.mkRField "d" VisPrivate Parser.ANone (Parser.RPath "u8") (PInt 0) id_codec]) [])]
  [SLetT "bitfield" (TStat "Bitfield" "from_le_bits" [(TV (RI 2018915346))]);
   SAssert (TEq (TMeth "Bitfield" (TVar "bitfield") "a" []) (TV (RI 120)));
   SAssert (TEq (TMeth "Bitfield" (TVar "bitfield") "b" []) (TV (RI 86)));
   SAssert (TEq (TMeth "Bitfield" (TVar "bitfield") "c" []) (TV (RI 52)));
   SAssert (TEq (TMeth "Bitfield" (TVar "bitfield") "d" []) (TV (RI 18)));
   SAssert (TEq (TMeth "Bitfield" (TVar "bitfield") "into_be_bits" []) (TV (RI 305419896)))]) = true.
Proof. vm_compute. reflexivity. Qed.

(* lib_tests.rs:3337 *)
Example bitfield_msb_from_be_bits_into_be_bits : is_passed (run_test
  [(mkUnit "Bitfield" (Parser.mkRDecl true VisPublic "Bitfield" (Some (Parser.RPath "u32")) [("order", "msb")]
     [Parser.mkRField "a" VisPrivate Parser.ANone (Parser.RPath "u8") (PInt 0) id_codec;
      Parser.mkRField "b" VisPrivate Parser.ANone (Parser.RPath "u8") (PInt 0) id_codec;
      Parser.mkRField "c" VisPrivate Parser.ANone (Parser.RPath "u8") (PInt 0) id_codec;
      Parser.mkRField "d" VisPrivate Parser.ANone (Parser.RPath "u8") (PInt 0) id_codec]) [])]
  [SLetT "bitfield" (TStat "Bitfield" "from_be_bits" [(TV (RI 2018915346))]);
   SAssert (TEq (TMeth "Bitfield" (TVar "bitfield") "a" []) (TV (RI 120)));
   SAssert (TEq (TMeth "Bitfield" (TVar "bitfield") "b" []) (TV (RI 86)));
   SAssert (TEq (TMeth "Bitfield" (TVar "bitfield") "c" []) (TV (RI 52)));
   SAssert (TEq (TMeth "Bitfield" (TVar "bitfield") "d" []) (TV (RI 18)));
   SAssert (TEq (TMeth "Bitfield" (TVar "bitfield") "into_be_bits" []) (TV (RI 2018915346)))]) = true.
Proof. vm_compute. reflexivity. Qed.

(* lib_tests.rs:3356 *)
Example bitfield_signed_checked_setters : is_passed (run_test
  [(mkUnit "Bitfield" (Parser.mkRDecl true VisPublic "Bitfield" (Some (Parser.RPath "u32")) []
     [Parser.mkRField "a" VisPrivate Parser.ANone (Parser.RPath "i8") (PInt 0) id_codec;
      Parser.mkRField "b" VisPrivate (Parser.AList (Parser.RBits 12 "") []) (Parser.RPath "i16") (PInt 0) id_codec;
      Parser.mkRField "_reserved" VisPrivate (Parser.AList (Parser.RBits 4 "") []) (Parser.RPath "u8") (PInt 0) id_codec;
      Parser.mkRField "_reserved2" VisPrivate (Parser.AList (Parser.RBits 8 "") []) (Parser.RPath "u8") (PInt 0) id_codec]) [])]
  [SLetT "bf" (TStat "Bitfield" "new_without_defaults" []);
   SAssert (TIsOk (TMeth "Bitfield" (TVar "bf") "checked_set_a" [(TV (RI (-1)))]));
   SAssert (TIsOk (TMeth "Bitfield" (TVar "bf") "checked_set_a" [(TV (RI (-128)))]));
   SAssert (TIsOk (TMeth "Bitfield" (TVar "bf") "checked_set_a" [(TV (RI 127))]));
   SAssert (TIsOk (TMeth "Bitfield" (TVar "bf") "checked_set_b" [(TV (RI 0))]));
   SAssert (TIsOk (TMeth "Bitfield" (TVar "bf") "checked_set_b" [(TV (RI (-1)))]));
   SAssert (TIsOk (TMeth "Bitfield" (TVar "bf") "checked_set_b" [(TV (RI 2047))]));
   SAssert (TIsOk (TMeth "Bitfield" (TVar "bf") "checked_set_b" [(TV (RI (-2048)))]));
   SAssert (TIsErr (TMeth "Bitfield" (TVar "bf") "checked_set_b" [(TV (RI 2048))]));
   SAssert (TIsErr (TMeth "Bitfield" (TVar "bf") "checked_set_b" [(TV (RI (-2049)))]))]) = true.
Proof. vm_compute. reflexivity. Qed.

(* lib_tests.rs:3383 *)
Example bitfield_lsb_from_be_bits_into_be_bits : is_passed (run_test
  [(mkUnit "Bitfield" (Parser.mkRDecl true VisPublic "Bitfield" (Some (Parser.RPath "u32")) [("order", "lsb")]
     [Parser.mkRField "a" VisPrivate Parser.ANone (Parser.RPath "u8") (PInt 0) id_codec;
      Parser.mkRField "b" VisPrivate Parser.ANone (Parser.RPath "u8") (PInt 0) id_codec;
      Parser.mkRField "c" VisPrivate Parser.ANone (Parser.RPath "u8") (PInt 0) id_codec;
      Parser.mkRField "d" VisPrivate Parser.ANone (Parser.RPath "u8") (PInt 0) id_codec]) [])]
  [SLetT "bitfield" (TStat "Bitfield" "from_be_bits" [(TV (RI 2018915346))]);
   SAssert (TEq (TMeth "Bitfield" (TVar "bitfield") "a" []) (TV (RI 18)));
   SAssert (TEq (TMeth "Bitfield" (TVar "bitfield") "b" []) (TV (RI 52)));
   SAssert (TEq (TMeth "Bitfield" (TVar "bitfield") "c" []) (TV (RI 86)));
   SAssert (TEq (TMeth "Bitfield" (TVar "bitfield") "d" []) (TV (RI 120)));
   SAssert (TEq (TMeth "Bitfield" (TVar "bitfield") "into_be_bits" []) (TV (RI 2018915346)))]) = true.
Proof. vm_compute. reflexivity. Qed.

(* lib_tests.rs:3402 *)
Example bitfield_custom_field_ignored_field : is_passed (run_test
  [(mkUnit "Bitfield" (Parser.mkRDecl true VisPublic "Bitfield" (Some (Parser.RPath "u16")) []
     [Parser.mkRField "a" VisPrivate (Parser.AList Parser.RNoBits [("default", "0x12")]) (Parser.RPath "u8") (PInt 0) id_codec;
      Parser.mkRField "b" VisPrivate Parser.ANone (Parser.RPath "u8") (PInt 0) id_codec;
      Parser.mkRField "nested_field" VisPrivate (Parser.AList (Parser.RBits 8 "") [("default", "CustomType::A"); ("ignore", "true")]) (Parser.RPath "CustomType") (PInt 0) id_codec]) [("a", (ELit 18 None))])]
  []) = true.
Proof. vm_compute. reflexivity. Qed.

(* lib_tests.rs:3420 *)
Example bitfield_user_attributes : is_passed (run_test
  [(mkUnit "Bitfield" (Parser.mkRDecl true VisPublic "Bitfield" (Some (Parser.RPath "u8")) []
     [Parser.mkRField "a" VisPrivate Parser.ANone (Parser.RPath "u8") (PInt 0) id_codec]) [])]
  []) = true.
Proof. vm_compute. reflexivity. Qed.

(* lib_tests.rs:3429 *)
Example bitfield_reserved_no_bits : is_passed (run_test
  [(mkUnit "Bitfield" (Parser.mkRDecl true VisPublic "Bitfield" (Some (Parser.RPath "u16")) []
     [Parser.mkRField "a" VisPrivate Parser.ANone (Parser.RPath "u8") (PInt 0) id_codec;
      Parser.mkRField "_reserved" VisPrivate Parser.ANone (Parser.RPath "u8") (PInt 0) id_codec]) [])]
  []) = true.
Proof. vm_compute. reflexivity. Qed.

(* lib_tests.rs:3438 *)
Example bitfield_reserved_bits : is_passed (run_test
  [(mkUnit "Bitfield" (Parser.mkRDecl true VisPublic "Bitfield" (Some (Parser.RPath "u16")) []
     [Parser.mkRField "a" VisPrivate Parser.ANone (Parser.RPath "u8") (PInt 0) id_codec;
      Parser.mkRField "_reserved" VisPrivate (Parser.AList (Parser.RBits 8 "") []) (Parser.RPath "u8") (PInt 0) id_codec]) [])]
  []) = true.
Proof. vm_compute. reflexivity. Qed.

(* lib_tests.rs:3448 *)
Example bitfield_reserved_default_value : is_passed (run_test
  [(mkUnit "Bitfield" (Parser.mkRDecl true VisPublic "Bitfield" (Some (Parser.RPath "u16")) []
     [Parser.mkRField "a" VisPrivate Parser.ANone (Parser.RPath "u8") (PInt 0) id_codec;
      Parser.mkRField "_reserved" VisPrivate (Parser.AList (Parser.RBits 8 "") []) (Parser.RPath "u8") (PInt 0) id_codec]) [])]
  []) = true.
Proof. vm_compute. reflexivity. Qed.

(* lib_tests.rs:3458 *)
Example bitfield_bits_leading_comma : is_passed (run_test
  [(mkUnit "Bitfield" (Parser.mkRDecl true VisPublic "Bitfield" (Some (Parser.RPath "u16")) []
     [Parser.mkRField "a" VisPrivate Parser.ANone (Parser.RPath "u8") (PInt 0) id_codec;
      Parser.mkRField "_reserved" VisPrivate (Parser.AList (Parser.RBits 8 "") []) (Parser.RPath "u8") (PInt 0) id_codec]) [])]
  []) = true.
Proof. vm_compute. reflexivity. Qed.

(* lib_tests.rs:3468 *)
Example bitfield_set_bits_range_non_writable : is_passed (run_test
  [(mkUnit "Bitfield" (Parser.mkRDecl true VisPublic "Bitfield" (Some (Parser.RPath "u32")) []
     [Parser.mkRField "a" VisPrivate (Parser.AList Parser.RNoBits [("default", "0x12")]) (Parser.RPath "u8") (PInt 0) id_codec;
      Parser.mkRField "b" VisPrivate (Parser.AList Parser.RNoBits [("default", "0x34"); ("access", "ro")]) (Parser.RPath "u8") (PInt 0) id_codec;
      Parser.mkRField "c" VisPrivate (Parser.AList Parser.RNoBits [("default", "0x56"); ("access", "rw")]) (Parser.RPath "u8") (PInt 0) id_codec;
      Parser.mkRField "_d" VisPrivate (Parser.AList Parser.RNoBits [("default", "0x78")]) (Parser.RPath "u8") (PInt 0) id_codec]) [("a", (ELit 18 None)); ("b", (ELit 52 None)); ("c", (ELit 86 None)); ("_d", (ELit 120 None))])]
  [SLetT "bitfield" (TStat "Bitfield" "new" []);
   SDo (TMeth "Bitfield" (TVar "bitfield") "set_bits_range" [(TV (RI 0)); (TV (RI 32)); (TV (RI 4294967295))]);
   SAssert (TEq (TMeth "Bitfield" (TVar "bitfield") "a" []) (TV (RI 255)));
   SAssert (TEq (TMeth "Bitfield" (TVar "bitfield") "b" []) (TV (RI 52)));
   SAssert (TEq (TMeth "Bitfield" (TVar "bitfield") "c" []) (TV (RI 255)));
   SAssert (TEq (TMeth "Bitfield" (TVar "bitfield") "into_bits" []) (TV (RI 2029991167)))]) = true.
Proof. vm_compute. reflexivity. Qed.

(* lib_tests.rs:3492 *)
Example bitfield_get_bits_range_non_readable : is_passed (run_test
  [(mkUnit "Bitfield" (Parser.mkRDecl true VisPublic "Bitfield" (Some (Parser.RPath "u32")) []
     [Parser.mkRField "a" VisPrivate (Parser.AList Parser.RNoBits [("default", "0x12")]) (Parser.RPath "u8") (PInt 0) id_codec;
      Parser.mkRField "b" VisPrivate (Parser.AList Parser.RNoBits [("default", "0x34"); ("access", "wo")]) (Parser.RPath "u8") (PInt 0) id_codec;
      Parser.mkRField "c" VisPrivate (Parser.AList Parser.RNoBits [("default", "0x56"); ("access", "rw")]) (Parser.RPath "u8") (PInt 0) id_codec;
      Parser.mkRField "_d" VisPrivate (Parser.AList Parser.RNoBits [("default", "0x78")]) (Parser.RPath "u8") (PInt 0) id_codec]) [("a", (ELit 18 None)); ("b", (ELit 52 None)); ("c", (ELit 86 None)); ("_d", (ELit 120 None))])]
  [SLetT "bitfield" (TStat "Bitfield" "new" []);
   SDo (TMeth "Bitfield" (TVar "bitfield") "get_bits_range" [(TV (RI 0)); (TV (RI 32))]);
   SAssert (TEq (TMeth "Bitfield" (TVar "bitfield") "a" []) (TV (RI 18)));
   SAssert (TEq (TMeth "Bitfield" (TVar "bitfield") "c" []) (TV (RI 86)));
   SAssert (TEq (TMeth "Bitfield" (TVar "bitfield") "into_bits" []) (TV (RI 2018915346)))]) = true.
Proof. vm_compute. reflexivity. Qed.

(* lib_tests.rs:3515 *)
Example bitfield_invert_non_writable : is_passed (run_test
  [(mkUnit "Bitfield" (Parser.mkRDecl true VisPublic "Bitfield" (Some (Parser.RPath "u32")) []
     [Parser.mkRField "a" VisPrivate (Parser.AList Parser.RNoBits [("default", "0x12")]) (Parser.RPath "u8") (PInt 0) id_codec;
      Parser.mkRField "b" VisPrivate (Parser.AList Parser.RNoBits [("default", "0x34"); ("access", "ro")]) (Parser.RPath "u8") (PInt 0) id_codec;
      Parser.mkRField "c" VisPrivate (Parser.AList Parser.RNoBits [("default", "0x56"); ("access", "rw")]) (Parser.RPath "u8") (PInt 0) id_codec;
      Parser.mkRField "_d" VisPrivate (Parser.AList Parser.RNoBits [("default", "0x78")]) (Parser.RPath "u8") (PInt 0) id_codec]) [("a", (ELit 18 None)); ("b", (ELit 52 None)); ("c", (ELit 86 None)); ("_d", (ELit 120 None))])]
  [SLetT "bitfield" (TStat "Bitfield" "new" []);
   SDo (TMeth "Bitfield" (TVar "bitfield") "invert_bits" []);
   SAssert (TEq (TMeth "Bitfield" (TVar "bitfield") "a" []) (TV (RI 237)));
   SAssert (TEq (TMeth "Bitfield" (TVar "bitfield") "b" []) (TV (RI 52)));
   SAssert (TEq (TMeth "Bitfield" (TVar "bitfield") "c" []) (TV (RI 169)));
   SAssert (TEq (TMeth "Bitfield" (TVar "bitfield") "into_bits" []) (TV (RI 2024355053)))]) = true.
Proof. vm_compute. reflexivity. Qed.

(* lib_tests.rs:3539 *)
Example bitfield_field_constants : is_passed (run_test
  [(mkUnit "Bitfield" (Parser.mkRDecl true VisPublic "Bitfield" (Some (Parser.RPath "u32")) []
     [Parser.mkRField "a" VisPrivate (Parser.AList Parser.RNoBits [("default", "0x12")]) (Parser.RPath "u8") (PInt 0) id_codec;
      Parser.mkRField "b" VisPrivate (Parser.AList (Parser.RBits 7 "") [("default", "0x34")]) (Parser.RPath "u8") (PInt 0) id_codec;
      Parser.mkRField "c" VisPrivate (Parser.AList (Parser.RBits 5 "") [("default", "0x1F")]) (Parser.RPath "u8") (PInt 0) id_codec;
      Parser.mkRField "d" VisPrivate (Parser.AList (Parser.RBits 12 "") [("default", "0x78")]) (Parser.RPath "u16") (PInt 0) id_codec]) [("a", (ELit 18 None)); ("b", (ELit 52 None)); ("c", (ELit 31 None)); ("d", (ELit 120 None))])]
  [SAssert (TEq (TConst "Bitfield" "A_BITS") (TV (RI 8)));
   SAssert (TEq (TConst "Bitfield" "A_OFFSET") (TV (RI 0)));
   SAssert (TEq (TConst "Bitfield" "B_BITS") (TV (RI 7)));
   SAssert (TEq (TConst "Bitfield" "B_OFFSET") (TV (RI 8)));
   SAssert (TEq (TConst "Bitfield" "C_BITS") (TV (RI 5)));
   SAssert (TEq (TConst "Bitfield" "C_OFFSET") (TV (RI 15)));
   SAssert (TEq (TConst "Bitfield" "D_BITS") (TV (RI 12)));
   SAssert (TEq (TConst "Bitfield" "D_OFFSET") (TV (RI 20)))]) = true.
Proof. vm_compute. reflexivity. Qed.

(* lib_tests.rs:3563 *)
Example bitfield_field_constants_msb : is_passed (run_test
  [(mkUnit "Bitfield" (Parser.mkRDecl true VisPublic "Bitfield" (Some (Parser.RPath "u32")) [("order", "msb")]
     [Parser.mkRField "a" VisPrivate Parser.ANone (Parser.RPath "u8") (PInt 0) id_codec;
      Parser.mkRField "b" VisPrivate Parser.ANone (Parser.RPath "u8") (PInt 0) id_codec;
      Parser.mkRField "c" VisPrivate Parser.ANone (Parser.RPath "u8") (PInt 0) id_codec;
      Parser.mkRField "d" VisPrivate Parser.ANone (Parser.RPath "u8") (PInt 0) id_codec]) [])]
  [SAssert (TEq (TConst "Bitfield" "A_BITS") (TV (RI 8)));
   SAssert (TEq (TConst "Bitfield" "A_OFFSET") (TV (RI 24)));
   SAssert (TEq (TConst "Bitfield" "B_BITS") (TV (RI 8)));
   SAssert (TEq (TConst "Bitfield" "B_OFFSET") (TV (RI 16)));
   SAssert (TEq (TConst "Bitfield" "C_BITS") (TV (RI 8)));
   SAssert (TEq (TConst "Bitfield" "C_OFFSET") (TV (RI 8)));
   SAssert (TEq (TConst "Bitfield" "D_BITS") (TV (RI 8)));
   SAssert (TEq (TConst "Bitfield" "D_OFFSET") (TV (RI 0)))]) = true.
Proof. vm_compute. reflexivity. Qed.

(* lib_tests.rs:3583 *)
Example bitfield_clear_field : is_passed (run_test
  [(mkUnit "Bitfield" (Parser.mkRDecl true VisPublic "Bitfield" (Some (Parser.RPath "u32")) []
     [Parser.mkRField "a" VisPrivate (Parser.AList Parser.RNoBits [("default", "0x12")]) (Parser.RPath "u8") (PInt 0) id_codec;
      Parser.mkRField "b" VisPrivate (Parser.AList Parser.RNoBits [("default", "0x34")]) (Parser.RPath "u8") (PInt 0) id_codec;
      Parser.mkRField "c" VisPrivate (Parser.AList Parser.RNoBits [("default", "0x56")]) (Parser.RPath "u8") (PInt 0) id_codec;
      Parser.mkRField "d" VisPrivate (Parser.AList Parser.RNoBits [("default", "0x78")]) (Parser.RPath "u8") (PInt 0) id_codec]) [("a", (ELit 18 None)); ("b", (ELit 52 None)); ("c", (ELit 86 None)); ("d", (ELit 120 None))])]
  [SLetT "bitfield" (TStat "Bitfield" "new" []);
   SDo (TMeth "Bitfield" (TVar "bitfield") "clear_a" []);
   SAssert (TEq (TMeth "Bitfield" (TVar "bitfield") "a" []) (TV (RI 0)));
   SAssert (TEq (TMeth "Bitfield" (TVar "bitfield") "b" []) (TV (RI 52)));
   SAssert (TEq (TMeth "Bitfield" (TVar "bitfield") "c" []) (TV (RI 86)));
   SAssert (TEq (TMeth "Bitfield" (TVar "bitfield") "d" []) (TV (RI 120)));
   SAssert (TEq (TMeth "Bitfield" (TVar "bitfield") "into_bits" []) (TV (RI 2018915328)))]) = true.
Proof. vm_compute. reflexivity. Qed.

(* lib_tests.rs:3606 *)
Example bitfield_clear_field_to_default : is_passed (run_test
  [(mkUnit "Bitfield" (Parser.mkRDecl true VisPublic "Bitfield" (Some (Parser.RPath "u32")) []
     [Parser.mkRField "a" VisPrivate (Parser.AList Parser.RNoBits [("default", "0x12")]) (Parser.RPath "u8") (PInt 0) id_codec;
      Parser.mkRField "b" VisPrivate (Parser.AList Parser.RNoBits [("default", "0x34")]) (Parser.RPath "u8") (PInt 0) id_codec;
      Parser.mkRField "c" VisPrivate (Parser.AList Parser.RNoBits [("default", "0x56")]) (Parser.RPath "u8") (PInt 0) id_codec;
      Parser.mkRField "d" VisPrivate (Parser.AList Parser.RNoBits [("default", "0x78")]) (Parser.RPath "u8") (PInt 0) id_codec]) [("a", (ELit 18 None)); ("b", (ELit 52 None)); ("c", (ELit 86 None)); ("d", (ELit 120 None))])]
  [SLetT "bitfield" (TStat "Bitfield" "new" []);
   SDo (TMeth "Bitfield" (TVar "bitfield") "set_a" [(TV (RI 255))]);
   SDo (TMeth "Bitfield" (TVar "bitfield") "set_b" [(TV (RI 255))]);
   SDo (TMeth "Bitfield" (TVar "bitfield") "clear_a_to_default" []);
   SDo (TMeth "Bitfield" (TVar "bitfield") "clear_b_to_default" []);
   SAssert (TEq (TMeth "Bitfield" (TVar "bitfield") "a" []) (TV (RI 18)));
   SAssert (TEq (TMeth "Bitfield" (TVar "bitfield") "b" []) (TV (RI 52)));
   SAssert (TEq (TMeth "Bitfield" (TVar "bitfield") "c" []) (TV (RI 86)));
   SAssert (TEq (TMeth "Bitfield" (TVar "bitfield") "d" []) (TV (RI 120)));
   SAssert (TEq (TMeth "Bitfield" (TVar "bitfield") "into_bits" []) (TV (RI 2018915346)))]) = true.
Proof. vm_compute. reflexivity. Qed.

(* lib_tests.rs:3633 *)
Example bitfield_clear_field_multiple : is_passed (run_test
  [(mkUnit "Bitfield" (Parser.mkRDecl true VisPublic "Bitfield" (Some (Parser.RPath "u32")) []
     [Parser.mkRField "a" VisPrivate (Parser.AList Parser.RNoBits [("default", "0x12")]) (Parser.RPath "u8") (PInt 0) id_codec;
      Parser.mkRField "b" VisPrivate (Parser.AList Parser.RNoBits [("default", "0x34")]) (Parser.RPath "u8") (PInt 0) id_codec;
      Parser.mkRField "c" VisPrivate (Parser.AList Parser.RNoBits [("default", "0x56")]) (Parser.RPath "u8") (PInt 0) id_codec;
      Parser.mkRField "d" VisPrivate (Parser.AList Parser.RNoBits [("default", "0x78")]) (Parser.RPath "u8") (PInt 0) id_codec]) [("a", (ELit 18 None)); ("b", (ELit 52 None)); ("c", (ELit 86 None)); ("d", (ELit 120 None))])]
  [SLetT "bitfield" (TStat "Bitfield" "new" []);
   SDo (TMeth "Bitfield" (TVar "bitfield") "clear_a" []);
   SDo (TMeth "Bitfield" (TVar "bitfield") "clear_b" []);
   SDo (TMeth "Bitfield" (TVar "bitfield") "clear_c" []);
   SDo (TMeth "Bitfield" (TVar "bitfield") "clear_d" []);
   SAssert (TEq (TMeth "Bitfield" (TVar "bitfield") "into_bits" []) (TV (RI 0)))]) = true.
Proof. vm_compute. reflexivity. Qed.

(* lib_tests.rs:3655 *)
Example bitfield_clear_field_write_only_not_generated_for_read_only : is_passed (run_test
  [(mkUnit "Bitfield" (Parser.mkRDecl true VisPublic "Bitfield" (Some (Parser.RPath "u32")) []
     [Parser.mkRField "a" VisPrivate (Parser.AList Parser.RNoBits [("default", "0x12"); ("access", "ro")]) (Parser.RPath "u8") (PInt 0) id_codec;
      Parser.mkRField "b" VisPrivate (Parser.AList Parser.RNoBits [("default", "0x34"); ("access", "wo")]) (Parser.RPath "u8") (PInt 0) id_codec;
      Parser.mkRField "c" VisPrivate (Parser.AList Parser.RNoBits [("default", "0x56"); ("access", "rw")]) (Parser.RPath "u8") (PInt 0) id_codec;
      Parser.mkRField "_d" VisPrivate (Parser.AList Parser.RNoBits [("default", "0x78")]) (Parser.RPath "u8") (PInt 0) id_codec]) [("a", (ELit 18 None)); ("b", (ELit 52 None)); ("c", (ELit 86 None)); ("_d", (ELit 120 None))])]
  [SLetT "bitfield" (TStat "Bitfield" "new" []);
   SDo (TMeth "Bitfield" (TVar "bitfield") "clear_b" []);
   SDo (TMeth "Bitfield" (TVar "bitfield") "clear_c" []);
   SAssert (TEq (TNum Z.land (TMeth "Bitfield" (TVar "bitfield") "into_bits" []) (TV (RI 65280))) (TV (RI 0)));
   SAssert (TEq (TMeth "Bitfield" (TVar "bitfield") "c" []) (TV (RI 0)));
   SAssert (TEq (TMeth "Bitfield" (TVar "bitfield") "a" []) (TV (RI 18)))]) = true.
Proof. vm_compute. reflexivity. Qed.

(* lib_tests.rs:3680 *)
Example bitfield_invert_field : is_passed (run_test
  [(mkUnit "Bitfield" (Parser.mkRDecl true VisPublic "Bitfield" (Some (Parser.RPath "u32")) []
     [Parser.mkRField "a" VisPrivate (Parser.AList (Parser.RBits 5 "") [("default", "0xC")]) (Parser.RPath "u8") (PInt 0) id_codec;
      Parser.mkRField "b" VisPrivate (Parser.AList Parser.RNoBits [("default", "0x34")]) (Parser.RPath "u8") (PInt 0) id_codec;
      Parser.mkRField "c" VisPrivate (Parser.AList Parser.RNoBits [("default", "0x56")]) (Parser.RPath "u8") (PInt 0) id_codec;
      Parser.mkRField "d" VisPrivate (Parser.AList (Parser.RBits 9 "") [("default", "0x78")]) (Parser.RPath "u16") (PInt 0) id_codec;
      Parser.mkRField "e" VisPrivate (Parser.AList Parser.RNoBits [("default", "true")]) (Parser.RPath "bool") (PInt 0) id_codec;
      Parser.mkRField "f" VisPrivate (Parser.AList Parser.RNoBits [("default", "false")]) (Parser.RPath "bool") (PInt 0) id_codec]) [("a", (ELit 12 None)); ("b", (ELit 52 None)); ("c", (ELit 86 None)); ("d", (ELit 120 None)); ("e", (EBool true)); ("f", (EBool false))])]
  [SLetT "bitfield" (TStat "Bitfield" "new" []);
   SAssert (TEq (TMeth "Bitfield" (TVar "bitfield") "a" []) (TV (RI 12)));
   SDo (TMeth "Bitfield" (TVar "bitfield") "invert_a" []);
   SAssert (TEq (TMeth "Bitfield" (TVar "bitfield") "a" []) (TV (RI 19)));
   SDo (TMeth "Bitfield" (TVar "bitfield") "invert_b" []);
   SAssert (TEq (TMeth "Bitfield" (TVar "bitfield") "b" []) (TV (RI 203)));
   SDo (TMeth "Bitfield" (TVar "bitfield") "invert_c" []);
   SAssert (TEq (TMeth "Bitfield" (TVar "bitfield") "c" []) (TV (RI 169)));
   SDo (TMeth "Bitfield" (TVar "bitfield") "invert_d" []);
   SAssert (TEq (TMeth "Bitfield" (TVar "bitfield") "d" []) (TV (RI 391)));
   SAssert (TMeth "Bitfield" (TVar "bitfield") "e" []);
   SDo (TMeth "Bitfield" (TVar "bitfield") "invert_e" []);
   SAssert (TNot (TMeth "Bitfield" (TVar "bitfield") "e" []));
   SAssert (TNot (TMeth "Bitfield" (TVar "bitfield") "f" []));
   SDo (TMeth "Bitfield" (TVar "bitfield") "invert_f" []);
   SAssert (TMeth "Bitfield" (TVar "bitfield") "f" [])]) = true.
Proof. vm_compute. reflexivity. Qed.

(* lib_tests.rs:3716 *)
Example bitfield_invert_field_bool : is_passed (run_test
  [(mkUnit "Bitfield" (Parser.mkRDecl true VisPublic "Bitfield" (Some (Parser.RPath "u8")) []
     [Parser.mkRField "a" VisPrivate (Parser.AList Parser.RNoBits [("default", "true")]) (Parser.RPath "bool") (PInt 0) id_codec;
      Parser.mkRField "b" VisPrivate (Parser.AList Parser.RNoBits [("default", "false")]) (Parser.RPath "bool") (PInt 0) id_codec;
      Parser.mkRField "_reserved" VisPrivate (Parser.AList (Parser.RBits 6 "") []) (Parser.RPath "u8") (PInt 0) id_codec]) [("a", (EBool true)); ("b", (EBool false))])]
  [SLetT "bitfield" (TStat "Bitfield" "new" []);
   SAssert (TMeth "Bitfield" (TVar "bitfield") "a" []);
   SAssert (TNot (TMeth "Bitfield" (TVar "bitfield") "b" []));
   SDo (TMeth "Bitfield" (TVar "bitfield") "invert_a" []);
   SDo (TMeth "Bitfield" (TVar "bitfield") "invert_b" []);
   SAssert (TNot (TMeth "Bitfield" (TVar "bitfield") "a" []));
   SAssert (TMeth "Bitfield" (TVar "bitfield") "b" [])]) = true.
Proof. vm_compute. reflexivity. Qed.

(* lib_tests.rs:3737 *)
Example bitfield_checked_set_bits_range : is_passed (run_test
  [(mkUnit "Bitfield" (Parser.mkRDecl true VisPublic "Bitfield" (Some (Parser.RPath "u32")) []
     [Parser.mkRField "a" VisPrivate Parser.ANone (Parser.RPath "u8") (PInt 0) id_codec;
      Parser.mkRField "b" VisPrivate Parser.ANone (Parser.RPath "u8") (PInt 0) id_codec;
      Parser.mkRField "c" VisPrivate Parser.ANone (Parser.RPath "u8") (PInt 0) id_codec;
      Parser.mkRField "d" VisPrivate Parser.ANone (Parser.RPath "u8") (PInt 0) id_codec]) [])]
  [SLetT "bitfield" (TStat "Bitfield" "new" []);
   SAssert (TIsOk (TMeth "Bitfield" (TVar "bitfield") "checked_set_bits_range" [(TV (RI 0)); (TV (RI 8)); (TV (RI 171))]));
   SAssert (TEq (TMeth "Bitfield" (TVar "bitfield") "a" []) (TV (RI 171)));
   SAssert (TIsOk (TMeth "Bitfield" (TVar "bitfield") "checked_set_bits_range" [(TV (RI 8)); (TV (RI 8)); (TV (RI 205))]));
   SAssert (TEq (TMeth "Bitfield" (TVar "bitfield") "b" []) (TV (RI 205)));
   SAssert (TIsErr (TMeth "Bitfield" (TVar "bitfield") "checked_set_bits_range" [(TV (RI 0)); (TV (RI 40)); (TV (RI 255))]));
   SAssert (TIsErr (TMeth "Bitfield" (TVar "bitfield") "checked_set_bits_range" [(TV (RI 50)); (TV (RI 8)); (TV (RI 255))]))]) = true.
Proof. vm_compute. reflexivity. Qed.

(* lib_tests.rs:3756 *)
Example bitfield_checked_get_bits_range : is_passed (run_test
  [(mkUnit "Bitfield" (Parser.mkRDecl true VisPublic "Bitfield" (Some (Parser.RPath "u32")) []
     [Parser.mkRField "a" VisPrivate (Parser.AList Parser.RNoBits [("default", "0x12")]) (Parser.RPath "u8") (PInt 0) id_codec;
      Parser.mkRField "b" VisPrivate (Parser.AList Parser.RNoBits [("default", "0x34")]) (Parser.RPath "u8") (PInt 0) id_codec;
      Parser.mkRField "c" VisPrivate (Parser.AList Parser.RNoBits [("default", "0x56")]) (Parser.RPath "u8") (PInt 0) id_codec;
      Parser.mkRField "d" VisPrivate (Parser.AList Parser.RNoBits [("default", "0x78")]) (Parser.RPath "u8") (PInt 0) id_codec]) [("a", (ELit 18 None)); ("b", (ELit 52 None)); ("c", (ELit 86 None)); ("d", (ELit 120 None))])]
  [SLetT "bitfield" (TStat "Bitfield" "new" []);
   SAssert (TEq (TUnwrap (TMeth "Bitfield" (TVar "bitfield") "checked_get_bits_range" [(TV (RI 0)); (TV (RI 8))])) (TV (RI 18)));
   SAssert (TEq (TUnwrap (TMeth "Bitfield" (TVar "bitfield") "checked_get_bits_range" [(TV (RI 8)); (TV (RI 8))])) (TV (RI 52)));
   SAssert (TEq (TUnwrap (TMeth "Bitfield" (TVar "bitfield") "checked_get_bits_range" [(TV (RI 16)); (TV (RI 8))])) (TV (RI 86)));
   SAssert (TEq (TUnwrap (TMeth "Bitfield" (TVar "bitfield") "checked_get_bits_range" [(TV (RI 24)); (TV (RI 8))])) (TV (RI 120)));
   SAssert (TIsErr (TMeth "Bitfield" (TVar "bitfield") "checked_get_bits_range" [(TV (RI 0)); (TV (RI 40))]));
   SAssert (TIsErr (TMeth "Bitfield" (TVar "bitfield") "checked_get_bits_range" [(TV (RI 50)); (TV (RI 8))]))]) = true.
Proof. vm_compute. reflexivity. Qed.

(* lib_tests.rs:3779 *)
Example bitfield_checked_set_bits_range_read_only : is_passed (run_test
  [(mkUnit "Bitfield" (Parser.mkRDecl true VisPublic "Bitfield" (Some (Parser.RPath "u32")) []
     [Parser.mkRField "a" VisPrivate (Parser.AList Parser.RNoBits [("default", "0x12")]) (Parser.RPath "u8") (PInt 0) id_codec;
      Parser.mkRField "b" VisPrivate (Parser.AList Parser.RNoBits [("default", "0x34"); ("access", "ro")]) (Parser.RPath "u8") (PInt 0) id_codec;
      Parser.mkRField "c" VisPrivate (Parser.AList Parser.RNoBits [("default", "0x56"); ("access", "rw")]) (Parser.RPath "u8") (PInt 0) id_codec;
      Parser.mkRField "_d" VisPrivate (Parser.AList Parser.RNoBits [("default", "0x78")]) (Parser.RPath "u8") (PInt 0) id_codec]) [("a", (ELit 18 None)); ("b", (ELit 52 None)); ("c", (ELit 86 None)); ("_d", (ELit 120 None))])]
  [SLetT "bitfield" (TStat "Bitfield" "new" []);
   SAssert (TIsOk (TMeth "Bitfield" (TVar "bitfield") "checked_set_bits_range" [(TV (RI 0)); (TV (RI 8)); (TV (RI 171))]));
   SAssert (TEq (TMeth "Bitfield" (TVar "bitfield") "a" []) (TV (RI 171)));
   SAssert (TIsErr (TMeth "Bitfield" (TVar "bitfield") "checked_set_bits_range" [(TV (RI 8)); (TV (RI 8)); (TV (RI 255))]));
   SAssert (TEq (TMeth "Bitfield" (TVar "bitfield") "b" []) (TV (RI 52)));
   SAssert (TIsErr (TMeth "Bitfield" (TVar "bitfield") "checked_set_bits_range" [(TV (RI 0)); (TV (RI 16)); (TV (RI 65535))]));
   SAssert (TEq (TMeth "Bitfield" (TVar "bitfield") "b" []) (TV (RI 52)));
   SAssert (TIsOk (TMeth "Bitfield" (TVar "bitfield") "checked_set_bits_range" [(TV (RI 16)); (TV (RI 8)); (TV (RI 239))]));
   SAssert (TEq (TMeth "Bitfield" (TVar "bitfield") "c" []) (TV (RI 239)))]) = true.
Proof. vm_compute. reflexivity. Qed.

(* lib_tests.rs:3809 *)
Example bitfield_checked_get_bits_range_write_only : is_passed (run_test
  [(mkUnit "Bitfield" (Parser.mkRDecl true VisPublic "Bitfield" (Some (Parser.RPath "u32")) []
     [Parser.mkRField "a" VisPrivate (Parser.AList Parser.RNoBits [("default", "0x12")]) (Parser.RPath "u8") (PInt 0) id_codec;
      Parser.mkRField "b" VisPrivate (Parser.AList Parser.RNoBits [("default", "0x34"); ("access", "wo")]) (Parser.RPath "u8") (PInt 0) id_codec;
      Parser.mkRField "c" VisPrivate (Parser.AList Parser.RNoBits [("default", "0x56"); ("access", "rw")]) (Parser.RPath "u8") (PInt 0) id_codec;
      Parser.mkRField "_d" VisPrivate (Parser.AList Parser.RNoBits [("default", "0x78")]) (Parser.RPath "u8") (PInt 0) id_codec]) [("a", (ELit 18 None)); ("b", (ELit 52 None)); ("c", (ELit 86 None)); ("_d", (ELit 120 None))])]
  [SLetT "bitfield" (TStat "Bitfield" "new" []);
   SAssert (TEq (TUnwrap (TMeth "Bitfield" (TVar "bitfield") "checked_get_bits_range" [(TV (RI 0)); (TV (RI 8))])) (TV (RI 18)));
   SAssert (TIsErr (TMeth "Bitfield" (TVar "bitfield") "checked_get_bits_range" [(TV (RI 8)); (TV (RI 8))]));
   SAssert (TIsErr (TMeth "Bitfield" (TVar "bitfield") "checked_get_bits_range" [(TV (RI 0)); (TV (RI 16))]));
   SAssert (TEq (TUnwrap (TMeth "Bitfield" (TVar "bitfield") "checked_get_bits_range" [(TV (RI 16)); (TV (RI 8))])) (TV (RI 86)))]) = true.
Proof. vm_compute. reflexivity. Qed.

(* lib_tests.rs:3834 *)
Example bitfield_set_bits_range_basic : is_passed (run_test
  [(mkUnit "Bitfield" (Parser.mkRDecl true VisPublic "Bitfield" (Some (Parser.RPath "u32")) []
     [Parser.mkRField "a" VisPrivate Parser.ANone (Parser.RPath "u8") (PInt 0) id_codec;
      Parser.mkRField "b" VisPrivate Parser.ANone (Parser.RPath "u8") (PInt 0) id_codec;
      Parser.mkRField "c" VisPrivate Parser.ANone (Parser.RPath "u8") (PInt 0) id_codec;
      Parser.mkRField "d" VisPrivate Parser.ANone (Parser.RPath "u8") (PInt 0) id_codec]) [])]
  [SLetT "bitfield" (TStat "Bitfield" "new" []);
   SDo (TMeth "Bitfield" (TVar "bitfield") "set_bits_range" [(TV (RI 0)); (TV (RI 8)); (TV (RI 171))]);
   SDo (TMeth "Bitfield" (TVar "bitfield") "set_bits_range" [(TV (RI 8)); (TV (RI 8)); (TV (RI 205))]);
   SDo (TMeth "Bitfield" (TVar "bitfield") "set_bits_range" [(TV (RI 16)); (TV (RI 8)); (TV (RI 239))]);
   SAssert (TEq (TMeth "Bitfield" (TVar "bitfield") "a" []) (TV (RI 171)));
   SAssert (TEq (TMeth "Bitfield" (TVar "bitfield") "b" []) (TV (RI 205)));
   SAssert (TEq (TMeth "Bitfield" (TVar "bitfield") "c" []) (TV (RI 239)));
   SAssert (TEq (TMeth "Bitfield" (TVar "bitfield") "into_bits" []) (TV (RI 15715755)))]) = true.
Proof. vm_compute. reflexivity. Qed.

(* lib_tests.rs:3855 *)
Example bitfield_get_bits_range_basic : is_passed (run_test
  [(mkUnit "Bitfield" (Parser.mkRDecl true VisPublic "Bitfield" (Some (Parser.RPath "u32")) []
     [Parser.mkRField "a" VisPrivate (Parser.AList Parser.RNoBits [("default", "0x12")]) (Parser.RPath "u8") (PInt 0) id_codec;
      Parser.mkRField "b" VisPrivate (Parser.AList Parser.RNoBits [("default", "0x34")]) (Parser.RPath "u8") (PInt 0) id_codec;
      Parser.mkRField "c" VisPrivate (Parser.AList Parser.RNoBits [("default", "0x56")]) (Parser.RPath "u8") (PInt 0) id_codec;
      Parser.mkRField "d" VisPrivate (Parser.AList Parser.RNoBits [("default", "0x78")]) (Parser.RPath "u8") (PInt 0) id_codec]) [("a", (ELit 18 None)); ("b", (ELit 52 None)); ("c", (ELit 86 None)); ("d", (ELit 120 None))])]
  [SLetT "bitfield" (TStat "Bitfield" "new" []);
   SAssert (TEq (TMeth "Bitfield" (TVar "bitfield") "get_bits_range" [(TV (RI 0)); (TV (RI 8))]) (TV (RI 18)));
   SAssert (TEq (TMeth "Bitfield" (TVar "bitfield") "get_bits_range" [(TV (RI 8)); (TV (RI 8))]) (TV (RI 52)));
   SAssert (TEq (TMeth "Bitfield" (TVar "bitfield") "get_bits_range" [(TV (RI 16)); (TV (RI 8))]) (TV (RI 86)));
   SAssert (TEq (TMeth "Bitfield" (TVar "bitfield") "get_bits_range" [(TV (RI 24)); (TV (RI 8))]) (TV (RI 120)))]) = true.
Proof. vm_compute. reflexivity. Qed.

(* lib_tests.rs:3876 *)
Example bitfield_get_bits_range_out_of_bounds : is_passed (run_test
  [(mkUnit "Bitfield" (Parser.mkRDecl true VisPublic "Bitfield" (Some (Parser.RPath "u32")) []
     [Parser.mkRField "a" VisPrivate (Parser.AList Parser.RNoBits [("default", "0x12")]) (Parser.RPath "u8") (PInt 0) id_codec;
      Parser.mkRField "b" VisPrivate (Parser.AList Parser.RNoBits [("default", "0x34")]) (Parser.RPath "u8") (PInt 0) id_codec;
      Parser.mkRField "c" VisPrivate (Parser.AList Parser.RNoBits [("default", "0x56")]) (Parser.RPath "u8") (PInt 0) id_codec;
      Parser.mkRField "d" VisPrivate (Parser.AList Parser.RNoBits [("default", "0x78")]) (Parser.RPath "u8") (PInt 0) id_codec]) [("a", (ELit 18 None)); ("b", (ELit 52 None)); ("c", (ELit 86 None)); ("d", (ELit 120 None))])]
  [SLetT "bitfield" (TStat "Bitfield" "new" []);
   SAssert (TEq (TMeth "Bitfield" (TVar "bitfield") "get_bits_range" [(TV (RI 50)); (TV (RI 8))]) (TV (RI 0)));
   SAssert (TEq (TMeth "Bitfield" (TVar "bitfield") "get_bits_range" [(TV (RI 0)); (TV (RI 40))]) (TV (RI 0)))]) = true.
Proof. vm_compute. reflexivity. Qed.

(* lib_tests.rs:3895 *)
Example bitfield_write_bits_write_endian_little : is_passed (run_test
  [(mkUnit "Bitfield" (Parser.mkRDecl true VisPublic "Bitfield" (Some (Parser.RPath "u32")) [("write_endian", "little")]
     [Parser.mkRField "a" VisPrivate Parser.ANone (Parser.RPath "u8") (PInt 0) id_codec;
      Parser.mkRField "b" VisPrivate Parser.ANone (Parser.RPath "u8") (PInt 0) id_codec;
      Parser.mkRField "c" VisPrivate Parser.ANone (Parser.RPath "u8") (PInt 0) id_codec;
      Parser.mkRField "d" VisPrivate Parser.ANone (Parser.RPath "u8") (PInt 0) id_codec]) [])]
  [SLetT "bitfield" (TStat "Bitfield" "new" []);
   SDo (TMeth "Bitfield" (TVar "bitfield") "write_bits" [(TV (RI 287454020))]);
   SAssert (TEq (TMeth "Bitfield" (TVar "bitfield") "a" []) (TV (RI 17)));
   SAssert (TEq (TMeth "Bitfield" (TVar "bitfield") "b" []) (TV (RI 34)));
   SAssert (TEq (TMeth "Bitfield" (TVar "bitfield") "c" []) (TV (RI 51)));
   SAssert (TEq (TMeth "Bitfield" (TVar "bitfield") "d" []) (TV (RI 68)));
   SAssert (TEq (TMeth "Bitfield" (TVar "bitfield") "into_bits" []) (TV (RI 1144201745)))]) = true.
Proof. vm_compute. reflexivity. Qed.

(* lib_tests.rs:3914 *)
Example bitfield_write_bits_write_endian_big : is_passed (run_test
  [(mkUnit "Bitfield" (Parser.mkRDecl true VisPublic "Bitfield" (Some (Parser.RPath "u32")) [("write_endian", "big")]
     [Parser.mkRField "a" VisPrivate Parser.ANone (Parser.RPath "u8") (PInt 0) id_codec;
      Parser.mkRField "b" VisPrivate Parser.ANone (Parser.RPath "u8") (PInt 0) id_codec;
      Parser.mkRField "c" VisPrivate Parser.ANone (Parser.RPath "u8") (PInt 0) id_codec;
      Parser.mkRField "d" VisPrivate Parser.ANone (Parser.RPath "u8") (PInt 0) id_codec]) [])]
  [SLetT "bitfield" (TStat "Bitfield" "new" []);
   SDo (TMeth "Bitfield" (TVar "bitfield") "write_bits" [(TV (RI 287454020))]);
   SAssert (TEq (TMeth "Bitfield" (TVar "bitfield") "a" []) (TV (RI 68)));
   SAssert (TEq (TMeth "Bitfield" (TVar "bitfield") "b" []) (TV (RI 51)));
   SAssert (TEq (TMeth "Bitfield" (TVar "bitfield") "c" []) (TV (RI 34)));
   SAssert (TEq (TMeth "Bitfield" (TVar "bitfield") "d" []) (TV (RI 17)));
   SAssert (TEq (TMeth "Bitfield" (TVar "bitfield") "into_bits" []) (TV (RI 287454020)))]) = true.
Proof. vm_compute. reflexivity. Qed.

(* lib_tests.rs:3933 *)
Example bitfield_builder_default : is_passed (run_test
  [(mkUnit "Bitfield" (Parser.mkRDecl true VisPublic "Bitfield" (Some (Parser.RPath "u32")) []
     [Parser.mkRField "a" VisPrivate (Parser.AList Parser.RNoBits [("default", "0x12")]) (Parser.RPath "u8") (PInt 0) id_codec;
      Parser.mkRField "b" VisPrivate (Parser.AList Parser.RNoBits [("default", "0x34")]) (Parser.RPath "u8") (PInt 0) id_codec;
      Parser.mkRField "c" VisPrivate (Parser.AList Parser.RNoBits [("default", "0x56")]) (Parser.RPath "u8") (PInt 0) id_codec;
      Parser.mkRField "d" VisPrivate (Parser.AList Parser.RNoBits [("default", "0x78")]) (Parser.RPath "u8") (PInt 0) id_codec]) [("a", (ELit 18 None)); ("b", (ELit 52 None)); ("c", (ELit 86 None)); ("d", (ELit 120 None))])]
  [SLetT "bitfield" (TBuild "Bitfield" "build" [(TBuild "Bitfield" "new" [])]);
   SAssert (TEq (TMeth "Bitfield" (TVar "bitfield") "a" []) (TV (RI 18)));
   SAssert (TEq (TMeth "Bitfield" (TVar "bitfield") "b" []) (TV (RI 52)));
   SAssert (TEq (TMeth "Bitfield" (TVar "bitfield") "c" []) (TV (RI 86)));
   SAssert (TEq (TMeth "Bitfield" (TVar "bitfield") "d" []) (TV (RI 120)));
   SAssert (TEq (TMeth "Bitfield" (TVar "bitfield") "into_bits" []) (TV (RI 2018915346)))]) = true.
Proof. vm_compute. reflexivity. Qed.

(* lib_tests.rs:3955 *)
Example bitfield_builder_checked_with_success : is_passed (run_test
  [(mkUnit "Bitfield" (Parser.mkRDecl true VisPublic "Bitfield" (Some (Parser.RPath "u32")) []
     [Parser.mkRField "a" VisPrivate (Parser.AList (Parser.RBits 4 "") [("access", "ro")]) (Parser.RPath "u8") (PInt 0) id_codec;
      Parser.mkRField "b" VisPrivate (Parser.AList (Parser.RBits 28 "") []) (Parser.RPath "u32") (PInt 0) id_codec]) [])]
  [SLetT "result" (TBuild "Bitfield" "checked_with_a" [(TBuild "Bitfield" "new" []); (TV (RI 15))]);
   SAssert (TIsOk (TVar "result"));
   SLetT "bitfield" (TBuild "Bitfield" "build" [(TUnwrap (TVar "result"))]);
   SAssert (TEq (TMeth "Bitfield" (TVar "bitfield") "a" []) (TV (RI 15)))]) = true.
Proof. vm_compute. reflexivity. Qed.

(* lib_tests.rs:3971 *)
Example bitfield_builder_checked_with_failure : is_passed (run_test
  [(mkUnit "Bitfield" (Parser.mkRDecl true VisPublic "Bitfield" (Some (Parser.RPath "u32")) []
     [Parser.mkRField "a" VisPrivate (Parser.AList (Parser.RBits 4 "") [("access", "ro")]) (Parser.RPath "u8") (PInt 0) id_codec;
      Parser.mkRField "b" VisPrivate (Parser.AList (Parser.RBits 28 "") []) (Parser.RPath "u32") (PInt 0) id_codec]) [])]
  [SLetT "result" (TBuild "Bitfield" "checked_with_a" [(TBuild "Bitfield" "new" []); (TV (RI 255))]);
   SAssert (TIsErr (TVar "result"));
   SAssert (TEq (TErr (TVar "result")) (TV (RErr "Value is too big to fit within the field bits.")))]) = true.
Proof. vm_compute. reflexivity. Qed.

(* lib_tests.rs:3986 *)
Example bitfield_debug_write_only_field : is_passed (run_test
  [(mkUnit "Bitfield" (Parser.mkRDecl true VisPublic "Bitfield" (Some (Parser.RPath "u32")) []
     [Parser.mkRField "a" VisPrivate (Parser.AList Parser.RNoBits [("default", "0x12")]) (Parser.RPath "u8") (PInt 0) id_codec;
      Parser.mkRField "b" VisPrivate (Parser.AList Parser.RNoBits [("default", "0x34"); ("access", "wo")]) (Parser.RPath "u8") (PInt 0) id_codec;
      Parser.mkRField "c" VisPrivate (Parser.AList Parser.RNoBits [("default", "0x56")]) (Parser.RPath "u8") (PInt 0) id_codec;
      Parser.mkRField "d" VisPrivate (Parser.AList Parser.RNoBits [("default", "0x78")]) (Parser.RPath "u8") (PInt 0) id_codec]) [("a", (ELit 18 None)); ("b", (ELit 52 None)); ("c", (ELit 86 None)); ("d", (ELit 120 None))])]
  [SLetT "bitfield" (TStat "Bitfield" "new" []);
   SLetT "debug_str" (TFmt "Bitfield" (TVar "bitfield"));
   SAssert (TEq (TVar "debug_str") (TV (RErr "Bitfield { a: 18, b: 52, c: 86, d: 120 }")))]) = true.
Proof. vm_compute. reflexivity. Qed.

(* lib_tests.rs:4005 *)
Example bitfield_debug_na_field : is_passed (run_test
  [(mkUnit "Bitfield" (Parser.mkRDecl true VisPublic "Bitfield" (Some (Parser.RPath "u32")) []
     [Parser.mkRField "a" VisPrivate (Parser.AList Parser.RNoBits [("default", "0x12")]) (Parser.RPath "u8") (PInt 0) id_codec;
      Parser.mkRField "b" VisPrivate (Parser.AList Parser.RNoBits [("default", "0x34"); ("access", "na")]) (Parser.RPath "u8") (PInt 0) id_codec;
      Parser.mkRField "c" VisPrivate (Parser.AList Parser.RNoBits [("default", "0x56")]) (Parser.RPath "u8") (PInt 0) id_codec;
      Parser.mkRField "d" VisPrivate (Parser.AList Parser.RNoBits [("default", "0x78")]) (Parser.RPath "u8") (PInt 0) id_codec]) [("a", (ELit 18 None)); ("b", (ELit 52 None)); ("c", (ELit 86 None)); ("d", (ELit 120 None))])]
  [SLetT "bitfield" (TStat "Bitfield" "new" []);
   SLetT "debug_str" (TFmt "Bitfield" (TVar "bitfield"));
   SAssert (TEq (TVar "debug_str") (TV (RErr "Bitfield { a: 18, b: 52, c: 86, d: 120 }")))]) = true.
Proof. vm_compute. reflexivity. Qed.

(* lib_tests.rs:4024 *)
Example bitfield_from_bits_with_defaults_msb : is_passed (run_test
  [(mkUnit "Bitfield" (Parser.mkRDecl true VisPublic "Bitfield" (Some (Parser.RPath "u32")) [("order", "msb")]
     [Parser.mkRField "a" VisPrivate Parser.ANone (Parser.RPath "u8") (PInt 0) id_codec;
      Parser.mkRField "b" VisPrivate (Parser.AList Parser.RNoBits [("default", "0x34")]) (Parser.RPath "u8") (PInt 0) id_codec;
      Parser.mkRField "c" VisPrivate Parser.ANone (Parser.RPath "u8") (PInt 0) id_codec;
      Parser.mkRField "d" VisPrivate (Parser.AList Parser.RNoBits [("default", "0x78")]) (Parser.RPath "u8") (PInt 0) id_codec]) [("b", (ELit 52 None)); ("d", (ELit 120 None))])]
  [SLetT "bitfield" (TStat "Bitfield" "from_bits_with_defaults" [(TV (RI 287454020))]);
   SAssert (TEq (TMeth "Bitfield" (TVar "bitfield") "a" []) (TV (RI 17)));
   SAssert (TEq (TMeth "Bitfield" (TVar "bitfield") "b" []) (TV (RI 52)));
   SAssert (TEq (TMeth "Bitfield" (TVar "bitfield") "c" []) (TV (RI 51)));
   SAssert (TEq (TMeth "Bitfield" (TVar "bitfield") "d" []) (TV (RI 120)))]) = true.
Proof. vm_compute. reflexivity. Qed.

(* lib_tests.rs:4043 *)
Example bitfield_invert_bits_na_access : is_passed (run_test
  [(mkUnit "Bitfield" (Parser.mkRDecl true VisPublic "Bitfield" (Some (Parser.RPath "u32")) []
     [Parser.mkRField "a" VisPrivate (Parser.AList Parser.RNoBits [("default", "0x12")]) (Parser.RPath "u8") (PInt 0) id_codec;
      Parser.mkRField "b" VisPrivate (Parser.AList Parser.RNoBits [("default", "0x34"); ("access", "na")]) (Parser.RPath "u8") (PInt 0) id_codec;
      Parser.mkRField "c" VisPrivate (Parser.AList Parser.RNoBits [("default", "0x56")]) (Parser.RPath "u8") (PInt 0) id_codec;
      Parser.mkRField "_d" VisPrivate (Parser.AList Parser.RNoBits [("default", "0x78")]) (Parser.RPath "u8") (PInt 0) id_codec]) [("a", (ELit 18 None)); ("b", (ELit 52 None)); ("c", (ELit 86 None)); ("_d", (ELit 120 None))])]
  [SLetT "bitfield" (TStat "Bitfield" "new" []);
   SDo (TMeth "Bitfield" (TVar "bitfield") "invert_bits" []);
   SAssert (TEq (TMeth "Bitfield" (TVar "bitfield") "a" []) (TV (RI 237)));
   SAssert (TEq (TMeth "Bitfield" (TVar "bitfield") "c" []) (TV (RI 169)));
   SAssert (TEq (TMeth "Bitfield" (TVar "bitfield") "into_bits" []) (TV (RI 2024355053)))]) = true.
Proof. vm_compute. reflexivity. Qed.

(* lib_tests.rs:4064 *)
Example bitfield_invert_bits_write_only_field : is_passed (run_test
  [(mkUnit "Bitfield" (Parser.mkRDecl true VisPublic "Bitfield" (Some (Parser.RPath "u32")) []
     [Parser.mkRField "a" VisPrivate (Parser.AList Parser.RNoBits [("default", "0x12")]) (Parser.RPath "u8") (PInt 0) id_codec;
      Parser.mkRField "b" VisPrivate (Parser.AList Parser.RNoBits [("default", "0x34"); ("access", "wo")]) (Parser.RPath "u8") (PInt 0) id_codec;
      Parser.mkRField "c" VisPrivate (Parser.AList Parser.RNoBits [("default", "0x56")]) (Parser.RPath "u8") (PInt 0) id_codec;
      Parser.mkRField "_d" VisPrivate (Parser.AList Parser.RNoBits [("default", "0x78")]) (Parser.RPath "u8") (PInt 0) id_codec]) [("a", (ELit 18 None)); ("b", (ELit 52 None)); ("c", (ELit 86 None)); ("_d", (ELit 120 None))])]
  [SLetT "bitfield" (TStat "Bitfield" "new" []);
   SDo (TMeth "Bitfield" (TVar "bitfield") "invert_bits" []);
   SAssert (TEq (TMeth "Bitfield" (TVar "bitfield") "a" []) (TV (RI 237)));
   SAssert (TEq (TMeth "Bitfield" (TVar "bitfield") "c" []) (TV (RI 169)));
   SAssert (TEq (TMeth "Bitfield" (TVar "bitfield") "into_bits" []) (TV (RI 2024393709)))]) = true.
Proof. vm_compute. reflexivity. Qed.

(* lib_tests.rs:4085 *)
Example from_trait_data_type_to_bitfield_big_endian_lsb : is_passed (run_test
  [(mkUnit "Bitfield" (Parser.mkRDecl true VisPublic "Bitfield" (Some (Parser.RPath "u32")) [("from_endian", "big")]
     [Parser.mkRField "a" VisPrivate Parser.ANone (Parser.RPath "u8") (PInt 0) id_codec;
      Parser.mkRField "b" VisPrivate Parser.ANone (Parser.RPath "u8") (PInt 0) id_codec;
      Parser.mkRField "c" VisPrivate Parser.ANone (Parser.RPath "u8") (PInt 0) id_codec;
      Parser.mkRField "d" VisPrivate Parser.ANone (Parser.RPath "u8") (PInt 0) id_codec]) [])]
  [SLetT "bitfield" (TFrom "Bitfield" (TV (RI 287454020)));
   SAssert (TEq (TMeth "Bitfield" (TVar "bitfield") "a" []) (TV (RI 68)));
   SAssert (TEq (TMeth "Bitfield" (TVar "bitfield") "b" []) (TV (RI 51)));
   SAssert (TEq (TMeth "Bitfield" (TVar "bitfield") "c" []) (TV (RI 34)));
   SAssert (TEq (TMeth "Bitfield" (TVar "bitfield") "d" []) (TV (RI 17)))]) = true.
Proof. vm_compute. reflexivity. Qed.

(* lib_tests.rs:4103 *)
Example from_trait_data_type_to_bitfield_big_endian_msb : is_passed (run_test
  [(mkUnit "Bitfield" (Parser.mkRDecl true VisPublic "Bitfield" (Some (Parser.RPath "u32")) [("order", "msb"); ("from_endian", "big")]
     [Parser.mkRField "a" VisPrivate Parser.ANone (Parser.RPath "u8") (PInt 0) id_codec;
      Parser.mkRField "b" VisPrivate Parser.ANone (Parser.RPath "u8") (PInt 0) id_codec;
      Parser.mkRField "c" VisPrivate Parser.ANone (Parser.RPath "u8") (PInt 0) id_codec;
      Parser.mkRField "d" VisPrivate Parser.ANone (Parser.RPath "u8") (PInt 0) id_codec]) [])]
  [SLetT "bitfield" (TFrom "Bitfield" (TV (RI 287454020)));
   SAssert (TEq (TMeth "Bitfield" (TVar "bitfield") "a" []) (TV (RI 17)));
   SAssert (TEq (TMeth "Bitfield" (TVar "bitfield") "b" []) (TV (RI 34)));
   SAssert (TEq (TMeth "Bitfield" (TVar "bitfield") "c" []) (TV (RI 51)));
   SAssert (TEq (TMeth "Bitfield" (TVar "bitfield") "d" []) (TV (RI 68)))]) = true.
Proof. vm_compute. reflexivity. Qed.

(* lib_tests.rs:4121 *)
Example from_trait_data_type_to_bitfield_little_endian_lsb : is_passed (run_test
  [(mkUnit "Bitfield" (Parser.mkRDecl true VisPublic "Bitfield" (Some (Parser.RPath "u32")) [("from_endian", "little")]
     [Parser.mkRField "a" VisPrivate Parser.ANone (Parser.RPath "u8") (PInt 0) id_codec;
      Parser.mkRField "b" VisPrivate Parser.ANone (Parser.RPath "u8") (PInt 0) id_codec;
      Parser.mkRField "c" VisPrivate Parser.ANone (Parser.RPath "u8") (PInt 0) id_codec;
      Parser.mkRField "d" VisPrivate Parser.ANone (Parser.RPath "u8") (PInt 0) id_codec]) [])]
  [SLetT "bitfield" (TFrom "Bitfield" (TV (RI 1144201745)));
   SAssert (TEq (TMeth "Bitfield" (TVar "bitfield") "a" []) (TV (RI 68)));
   SAssert (TEq (TMeth "Bitfield" (TVar "bitfield") "b" []) (TV (RI 51)));
   SAssert (TEq (TMeth "Bitfield" (TVar "bitfield") "c" []) (TV (RI 34)));
   SAssert (TEq (TMeth "Bitfield" (TVar "bitfield") "d" []) (TV (RI 17)))]) = true.
Proof. vm_compute. reflexivity. Qed.

(* lib_tests.rs:4139 *)
Example from_trait_data_type_to_bitfield_little_endian_msb : is_passed (run_test
  [(mkUnit "Bitfield" (Parser.mkRDecl true VisPublic "Bitfield" (Some (Parser.RPath "u32")) [("order", "msb"); ("from_endian", "little")]
     [Parser.mkRField "a" VisPrivate Parser.ANone (Parser.RPath "u8") (PInt 0) id_codec;
      Parser.mkRField "b" VisPrivate Parser.ANone (Parser.RPath "u8") (PInt 0) id_codec;
      Parser.mkRField "c" VisPrivate Parser.ANone (Parser.RPath "u8") (PInt 0) id_codec;
      Parser.mkRField "d" VisPrivate Parser.ANone (Parser.RPath "u8") (PInt 0) id_codec]) [])]
  [SLetT "bitfield" (TFrom "Bitfield" (TV (RI 2018915346)));
   SAssert (TEq (TMeth "Bitfield" (TVar "bitfield") "a" []) (TV (RI 18)));
   SAssert (TEq (TMeth "Bitfield" (TVar "bitfield") "b" []) (TV (RI 52)));
   SAssert (TEq (TMeth "Bitfield" (TVar "bitfield") "c" []) (TV (RI 86)));
   SAssert (TEq (TMeth "Bitfield" (TVar "bitfield") "d" []) (TV (RI 120)))]) = true.
Proof. vm_compute. reflexivity. Qed.

(* lib_tests.rs:4157 *)
Example from_trait_bitfield_to_data_type_big_endian_lsb : is_passed (run_test
  [(mkUnit "Bitfield" (Parser.mkRDecl true VisPublic "Bitfield" (Some (Parser.RPath "u32")) [("into_endian", "big")]
     [Parser.mkRField "a" VisPrivate (Parser.AList Parser.RNoBits [("default", "0x44")]) (Parser.RPath "u8") (PInt 0) id_codec;
      Parser.mkRField "b" VisPrivate (Parser.AList Parser.RNoBits [("default", "0x33")]) (Parser.RPath "u8") (PInt 0) id_codec;
      Parser.mkRField "c" VisPrivate (Parser.AList Parser.RNoBits [("default", "0x22")]) (Parser.RPath "u8") (PInt 0) id_codec;
      Parser.mkRField "d" VisPrivate (Parser.AList Parser.RNoBits [("default", "0x11")]) (Parser.RPath "u8") (PInt 0) id_codec]) [("a", (ELit 68 None)); ("b", (ELit 51 None)); ("c", (ELit 34 None)); ("d", (ELit 17 None))])]
  [SLetT "bitfield" (TStat "Bitfield" "new" []);
   SLetT "val" (TInto "Bitfield" (TVar "bitfield"));
   SAssert (TEq (TVar "val") (TV (RI 287454020)))]) = true.
Proof. vm_compute. reflexivity. Qed.

(* lib_tests.rs:4177 *)
Example from_trait_bitfield_to_data_type_big_endian_msb : is_passed (run_test
  [(mkUnit "Bitfield" (Parser.mkRDecl true VisPublic "Bitfield" (Some (Parser.RPath "u32")) [("order", "msb"); ("into_endian", "big")]
     [Parser.mkRField "a" VisPrivate (Parser.AList Parser.RNoBits [("default", "0x11")]) (Parser.RPath "u8") (PInt 0) id_codec;
      Parser.mkRField "b" VisPrivate (Parser.AList Parser.RNoBits [("default", "0x22")]) (Parser.RPath "u8") (PInt 0) id_codec;
      Parser.mkRField "c" VisPrivate (Parser.AList Parser.RNoBits [("default", "0x33")]) (Parser.RPath "u8") (PInt 0) id_codec;
      Parser.mkRField "d" VisPrivate (Parser.AList Parser.RNoBits [("default", "0x44")]) (Parser.RPath "u8") (PInt 0) id_codec]) [("a", (ELit 17 None)); ("b", (ELit 34 None)); ("c", (ELit 51 None)); ("d", (ELit 68 None))])]
  [SLetT "bitfield" (TStat "Bitfield" "new" []);
   SLetT "val" (TInto "Bitfield" (TVar "bitfield"));
   SAssert (TEq (TVar "val") (TV (RI 287454020)))]) = true.
Proof. vm_compute. reflexivity. Qed.

(* lib_tests.rs:4197 *)
Example from_trait_bitfield_to_data_type_little_endian_lsb : is_passed (run_test
  [(mkUnit "Bitfield" (Parser.mkRDecl true VisPublic "Bitfield" (Some (Parser.RPath "u32")) [("into_endian", "little")]
     [Parser.mkRField "a" VisPrivate (Parser.AList Parser.RNoBits [("default", "0x44")]) (Parser.RPath "u8") (PInt 0) id_codec;
      Parser.mkRField "b" VisPrivate (Parser.AList Parser.RNoBits [("default", "0x33")]) (Parser.RPath "u8") (PInt 0) id_codec;
      Parser.mkRField "c" VisPrivate (Parser.AList Parser.RNoBits [("default", "0x22")]) (Parser.RPath "u8") (PInt 0) id_codec;
      Parser.mkRField "d" VisPrivate (Parser.AList Parser.RNoBits [("default", "0x11")]) (Parser.RPath "u8") (PInt 0) id_codec]) [("a", (ELit 68 None)); ("b", (ELit 51 None)); ("c", (ELit 34 None)); ("d", (ELit 17 None))])]
  [SLetT "bitfield" (TStat "Bitfield" "new" []);
   SLetT "val" (TInto "Bitfield" (TVar "bitfield"));
   SAssert (TEq (TVar "val") (TV (RI 1144201745)))]) = true.
Proof. vm_compute. reflexivity. Qed.

(* lib_tests.rs:4218 *)
Example from_trait_bitfield_to_data_type_little_endian_msb : is_passed (run_test
  [(mkUnit "Bitfield" (Parser.mkRDecl true VisPublic "Bitfield" (Some (Parser.RPath "u32")) [("order", "msb"); ("into_endian", "little")]
     [Parser.mkRField "a" VisPrivate (Parser.AList Parser.RNoBits [("default", "0x11")]) (Parser.RPath "u8") (PInt 0) id_codec;
      Parser.mkRField "b" VisPrivate (Parser.AList Parser.RNoBits [("default", "0x22")]) (Parser.RPath "u8") (PInt 0) id_codec;
      Parser.mkRField "c" VisPrivate (Parser.AList Parser.RNoBits [("default", "0x33")]) (Parser.RPath "u8") (PInt 0) id_codec;
      Parser.mkRField "d" VisPrivate (Parser.AList Parser.RNoBits [("default", "0x44")]) (Parser.RPath "u8") (PInt 0) id_codec]) [("a", (ELit 17 None)); ("b", (ELit 34 None)); ("c", (ELit 51 None)); ("d", (ELit 68 None))])]
  [SLetT "bitfield" (TStat "Bitfield" "new" []);
   SLetT "val" (TInto "Bitfield" (TVar "bitfield"));
   SAssert (TEq (TVar "val") (TV (RI 1144201745)))]) = true.
Proof. vm_compute. reflexivity. Qed.

(* lib_tests.rs:4239 *)
Example from_trait_round_trip_big_endian : is_passed (run_test
  [(mkUnit "Bitfield" (Parser.mkRDecl true VisPublic "Bitfield" (Some (Parser.RPath "u32")) [("from_endian", "big"); ("into_endian", "big")]
     [Parser.mkRField "a" VisPrivate Parser.ANone (Parser.RPath "u8") (PInt 0) id_codec;
      Parser.mkRField "b" VisPrivate Parser.ANone (Parser.RPath "u8") (PInt 0) id_codec;
      Parser.mkRField "c" VisPrivate Parser.ANone (Parser.RPath "u8") (PInt 0) id_codec;
      Parser.mkRField "d" VisPrivate Parser.ANone (Parser.RPath "u8") (PInt 0) id_codec]) [])]
  [SLetT "original" (TV (RI 3735928559));
   SLetT "bitfield" (TFrom "Bitfield" (TVar "original"));
   SLetT "recovered" (TInto "Bitfield" (TVar "bitfield"));
   SAssert (TEq (TVar "recovered") (TVar "original"))]) = true.
Proof. vm_compute. reflexivity. Qed.

(* lib_tests.rs:4256 *)
Example from_trait_round_trip_little_endian : is_passed (run_test
  [(mkUnit "Bitfield" (Parser.mkRDecl true VisPublic "Bitfield" (Some (Parser.RPath "u32")) [("from_endian", "little"); ("into_endian", "little")]
     [Parser.mkRField "a" VisPrivate Parser.ANone (Parser.RPath "u8") (PInt 0) id_codec;
      Parser.mkRField "b" VisPrivate Parser.ANone (Parser.RPath "u8") (PInt 0) id_codec;
      Parser.mkRField "c" VisPrivate Parser.ANone (Parser.RPath "u8") (PInt 0) id_codec;
      Parser.mkRField "d" VisPrivate Parser.ANone (Parser.RPath "u8") (PInt 0) id_codec]) [])]
  [SLetT "original" (TV (RI 3735928559));
   SLetT "bitfield" (TFrom "Bitfield" (TVar "original"));
   SLetT "recovered" (TInto "Bitfield" (TVar "bitfield"));
   SAssert (TEq (TVar "recovered") (TVar "original"))]) = true.
Proof. vm_compute. reflexivity. Qed.

(* lib_tests.rs:4273 *)
Example from_trait_u8_data_type : is_passed (run_test
  [(mkUnit "Bitfield" (Parser.mkRDecl true VisPublic "Bitfield" (Some (Parser.RPath "u8")) []
     [Parser.mkRField "lo" VisPrivate (Parser.AList (Parser.RBits 4 "") []) (Parser.RPath "u8") (PInt 0) id_codec;
      Parser.mkRField "hi" VisPrivate (Parser.AList (Parser.RBits 4 "") []) (Parser.RPath "u8") (PInt 0) id_codec]) [])]
  [SLetT "bitfield" (TFrom "Bitfield" (TV (RI 171)));
   SAssert (TEq (TMeth "Bitfield" (TVar "bitfield") "lo" []) (TV (RI 11)));
   SAssert (TEq (TMeth "Bitfield" (TVar "bitfield") "hi" []) (TV (RI 10)));
   SAssert (TEq (TInto "Bitfield" (TVar "bitfield")) (TV (RI 171)))]) = true.
Proof. vm_compute. reflexivity. Qed.

(* lib_tests.rs:4289 *)
Example from_trait_u64_data_type : is_passed (run_test
  [(mkUnit "Bitfield" (Parser.mkRDecl true VisPublic "Bitfield" (Some (Parser.RPath "u64")) []
     [Parser.mkRField "a" VisPrivate Parser.ANone (Parser.RPath "u32") (PInt 0) id_codec;
      Parser.mkRField "b" VisPrivate Parser.ANone (Parser.RPath "u32") (PInt 0) id_codec]) [])]
  [SLetT "bitfield" (TFrom "Bitfield" (TV (RI 1234605617868164317)));
   SAssert (TEq (TMeth "Bitfield" (TVar "bitfield") "a" []) (TV (RI 2864434397)));
   SAssert (TEq (TMeth "Bitfield" (TVar "bitfield") "b" []) (TV (RI 287454020)));
   SAssert (TEq (TInto "Bitfield" (TVar "bitfield")) (TV (RI 1234605617868164317)))]) = true.
Proof. vm_compute. reflexivity. Qed.

(* lib_tests.rs:4303 *)
Example from_trait_u128_data_type : is_passed (run_test
  [(mkUnit "Bitfield" (Parser.mkRDecl true VisPublic "Bitfield" (Some (Parser.RPath "u128")) []
     [Parser.mkRField "a" VisPrivate Parser.ANone (Parser.RPath "u64") (PInt 0) id_codec;
      Parser.mkRField "b" VisPrivate Parser.ANone (Parser.RPath "u64") (PInt 0) id_codec]) [])]
  [SLetT "val" (TV (RI 1339673755198158349044581307228491536));
   SLetT "bitfield" (TFrom "Bitfield" (TVar "val"));
   SAssert (TEq (TInto "Bitfield" (TVar "bitfield")) (TVar "val"))]) = true.
Proof. vm_compute. reflexivity. Qed.

(* lib_tests.rs:4316 *)
Example from_trait_disabled_does_not_generate_from_data_type : is_passed (run_test
  [(mkUnit "Bitfield" (Parser.mkRDecl true VisPublic "Bitfield" (Some (Parser.RPath "u32")) [("from_traits", "true")]
     [Parser.mkRField "a" VisPrivate Parser.ANone (Parser.RPath "u8") (PInt 0) id_codec;
      Parser.mkRField "b" VisPrivate Parser.ANone (Parser.RPath "u8") (PInt 0) id_codec;
      Parser.mkRField "c" VisPrivate Parser.ANone (Parser.RPath "u8") (PInt 0) id_codec;
      Parser.mkRField "d" VisPrivate Parser.ANone (Parser.RPath "u8") (PInt 0) id_codec]) [])]
  [SLetT "bitfield" (TFrom "Bitfield" (TV (RI 287454020)));
   SAssert (TEq (TInto "Bitfield" (TVar "bitfield")) (TV (RI 287454020)))]) = true.
Proof. vm_compute. reflexivity. Qed.

(* lib_tests.rs:4330 *)
Example custom_numeric_type_newtype_getter : is_passed (run_test
  [(mkUnit "Bitfield" (Parser.mkRDecl true VisPublic "Bitfield" (Some (Parser.RPath "u8")) []
     [Parser.mkRField "voltage" VisPrivate (Parser.AList (Parser.RBits 8 "") []) (Parser.RPath "Millivolts") (PInt 0) (mkCodec U8 (fun bits => bits) U8 (fun self => self))]) [])]
  [SLetT "bitfield" (TStat "Bitfield" "from_bits" [(TV (RI 66))]);
   SAssert (TEq (TMeth "Bitfield" (TVar "bitfield") "voltage" []) (TV (RC 66)))]) = true.
Proof. vm_compute. reflexivity. Qed.

(* lib_tests.rs:4353 *)
Example custom_numeric_type_newtype_setter : is_passed (run_test
  [(mkUnit "Bitfield" (Parser.mkRDecl true VisPublic "Bitfield" (Some (Parser.RPath "u8")) []
     [Parser.mkRField "voltage" VisPrivate (Parser.AList (Parser.RBits 8 "") []) (Parser.RPath "Millivolts") (PInt 0) (mkCodec U8 (fun bits => bits) U8 (fun self => self))]) [])]
  [SLetT "bitfield" (TStat "Bitfield" "new" []);
   SDo (TMeth "Bitfield" (TVar "bitfield") "set_voltage" [(TV (RC 85))]);
   SAssert (TEq (TMeth "Bitfield" (TVar "bitfield") "into_bits" []) (TV (RI 85)))]) = true.
Proof. vm_compute. reflexivity. Qed.

(* lib_tests.rs:4377 *)
Example custom_numeric_type_newtype_bitfield_into_bits : is_passed (run_test
  [(mkUnit "Bitfield" (Parser.mkRDecl true VisPublic "Bitfield" (Some (Parser.RPath "u32")) []
     [Parser.mkRField "a" VisPrivate (Parser.AList (Parser.RBits 8 "") []) (Parser.RPath "Millivolts") (PInt 0) (mkCodec U8 (fun bits => bits) U8 (fun self => self));
      Parser.mkRField "b" VisPrivate Parser.ANone (Parser.RPath "u8") (PInt 0) id_codec;
      Parser.mkRField "c" VisPrivate (Parser.AList (Parser.RBits 8 "") []) (Parser.RPath "Millivolts") (PInt 0) (mkCodec U8 (fun bits => bits) U8 (fun self => self));
      Parser.mkRField "d" VisPrivate Parser.ANone (Parser.RPath "u8") (PInt 0) id_codec]) [])]
  [SLetT "bitfield" (TStat "Bitfield" "new" []);
   SDo (TMeth "Bitfield" (TVar "bitfield") "set_a" [(TV (RC 17))]);
   SDo (TMeth "Bitfield" (TVar "bitfield") "set_b" [(TV (RI 34))]);
   SDo (TMeth "Bitfield" (TVar "bitfield") "set_c" [(TV (RC 51))]);
   SDo (TMeth "Bitfield" (TVar "bitfield") "set_d" [(TV (RI 68))]);
   SAssert (TEq (TMeth "Bitfield" (TVar "bitfield") "into_bits" []) (TV (RI 1144201745)))]) = true.
Proof. vm_compute. reflexivity. Qed.

(* lib_tests.rs:4408 *)
Example custom_numeric_type_newtype_bitfield_from_bits : is_passed (run_test
  [(mkUnit "Bitfield" (Parser.mkRDecl true VisPublic "Bitfield" (Some (Parser.RPath "u32")) []
     [Parser.mkRField "a" VisPrivate (Parser.AList (Parser.RBits 8 "") []) (Parser.RPath "Millivolts") (PInt 0) (mkCodec U8 (fun bits => bits) U8 (fun self => self));
      Parser.mkRField "b" VisPrivate Parser.ANone (Parser.RPath "u8") (PInt 0) id_codec;
      Parser.mkRField "c" VisPrivate (Parser.AList (Parser.RBits 8 "") []) (Parser.RPath "Millivolts") (PInt 0) (mkCodec U8 (fun bits => bits) U8 (fun self => self));
      Parser.mkRField "d" VisPrivate Parser.ANone (Parser.RPath "u8") (PInt 0) id_codec]) [])]
  [SLetT "bitfield" (TStat "Bitfield" "from_bits" [(TV (RI 1144201745))]);
   SAssert (TEq (TMeth "Bitfield" (TVar "bitfield") "a" []) (TV (RC 17)));
   SAssert (TEq (TMeth "Bitfield" (TVar "bitfield") "b" []) (TV (RI 34)));
   SAssert (TEq (TMeth "Bitfield" (TVar "bitfield") "c" []) (TV (RC 51)));
   SAssert (TEq (TMeth "Bitfield" (TVar "bitfield") "d" []) (TV (RI 68)))]) = true.
Proof. vm_compute. reflexivity. Qed.

(* lib_tests.rs:4438 *)
Example custom_numeric_type_newtype_round_trip : is_passed (run_test
  [(mkUnit "Bitfield" (Parser.mkRDecl true VisPublic "Bitfield" (Some (Parser.RPath "u32")) []
     [Parser.mkRField "lo" VisPrivate (Parser.AList (Parser.RBits 16 "") []) (Parser.RPath "Millivolts") (PInt 0) (mkCodec U16 (fun bits => bits) U16 (fun self => self));
      Parser.mkRField "hi" VisPrivate (Parser.AList (Parser.RBits 16 "") []) (Parser.RPath "Millivolts") (PInt 0) (mkCodec U16 (fun bits => bits) U16 (fun self => self))]) [])]
  [SLetT "bitfield" (TStat "Bitfield" "new" []);
   SDo (TMeth "Bitfield" (TVar "bitfield") "set_lo" [(TV (RC 4660))]);
   SDo (TMeth "Bitfield" (TVar "bitfield") "set_hi" [(TV (RC 22136))]);
   SAssert (TEq (TMeth "Bitfield" (TVar "bitfield") "lo" []) (TV (RC 4660)));
   SAssert (TEq (TMeth "Bitfield" (TVar "bitfield") "hi" []) (TV (RC 22136)));
   SAssert (TEq (TMeth "Bitfield" (TVar "bitfield") "into_bits" []) (TV (RI 1450709556)))]) = true.
Proof. vm_compute. reflexivity. Qed.

(* lib_tests.rs:4467 *)
Example custom_numeric_type_non_trivial_transformation_inverted_bits : is_passed (run_test
  [(mkUnit "Bitfield" (Parser.mkRDecl true VisPublic "Bitfield" (Some (Parser.RPath "u8")) []
     [Parser.mkRField "value" VisPrivate (Parser.AList (Parser.RBits 8 "") []) (Parser.RPath "InvertedBits") (PInt 0) (mkCodec U8 (fun bits => (cast U8 (Z.lnot bits))) U8 (fun self => (cast U8 (Z.lnot self))))]) [])]
  [SLetT "bitfield" (TStat "Bitfield" "new" []);
   SDo (TMeth "Bitfield" (TVar "bitfield") "set_value" [(TV (RC 170))]);
   SAssert (TEq (TMeth "Bitfield" (TVar "bitfield") "into_bits" []) (TV (RI 85)));
   SAssert (TEq (TMeth "Bitfield" (TVar "bitfield") "value" []) (TV (RC 170)));
   SLetT "bitfield2" (TStat "Bitfield" "from_bits" [(TV (RI 85))]);
   SAssert (TEq (TMeth "Bitfield" (TVar "bitfield2") "value" []) (TV (RC 170)))]) = true.
Proof. vm_compute. reflexivity. Qed.

(* lib_tests.rs:4496 *)
Example custom_numeric_type_non_trivial_transformation_half_resolution : is_passed (run_test
  [(mkUnit "Bitfield" (Parser.mkRDecl true VisPublic "Bitfield" (Some (Parser.RPath "u8")) []
     [Parser.mkRField "value" VisPrivate (Parser.AList (Parser.RBits 8 "") []) (Parser.RPath "HalfRes") (PInt 0) (mkCodec U8 (fun bits => (cast U8 (2 * bits))) U8 (fun self => (self / 2)))]) [])]
  [SLetT "bitfield" (TStat "Bitfield" "new" []);
   SDo (TMeth "Bitfield" (TVar "bitfield") "set_value" [(TV (RC 10))]);
   SAssert (TEq (TMeth "Bitfield" (TVar "bitfield") "into_bits" []) (TV (RI 5)));
   SAssert (TEq (TMeth "Bitfield" (TVar "bitfield") "value" []) (TV (RC 10)));
   SLetT "bitfield2" (TStat "Bitfield" "from_bits" [(TV (RI 5))]);
   SAssert (TEq (TMeth "Bitfield" (TVar "bitfield2") "value" []) (TV (RC 10)))]) = true.
Proof. vm_compute. reflexivity. Qed.

(* lib_tests.rs:4525 *)
Example custom_numeric_type_default_value : is_passed (run_test
  [(mkUnit "Bitfield" (Parser.mkRDecl true VisPublic "Bitfield" (Some (Parser.RPath "u16")) []
     [Parser.mkRField "voltage" VisPrivate (Parser.AList (Parser.RBits 8 "") [("default", "Millivolts(0xAB)")]) (Parser.RPath "Millivolts") (PInt 0) (mkCodec U8 (fun bits => bits) U8 (fun self => self));
      Parser.mkRField "other" VisPrivate (Parser.AList (Parser.RBits 8 "") []) (Parser.RPath "u8") (PInt 0) id_codec]) [("voltage", (EUser (TUser "voltage") (RC 171)))])]
  [SLetT "bitfield" (TStat "Bitfield" "new" []);
   SAssert (TEq (TMeth "Bitfield" (TVar "bitfield") "voltage" []) (TV (RC 171)));
   SAssert (TEq (TMeth "Bitfield" (TVar "bitfield") "into_bits" []) (TV (RI 171)))]) = true.
Proof. vm_compute. reflexivity. Qed.

(* lib_tests.rs:4551 *)
Example custom_numeric_type_new_without_defaults : is_passed (run_test
  [(mkUnit "Bitfield" (Parser.mkRDecl true VisPublic "Bitfield" (Some (Parser.RPath "u16")) []
     [Parser.mkRField "voltage" VisPrivate (Parser.AList (Parser.RBits 8 "") [("default", "Millivolts(0xAB)")]) (Parser.RPath "Millivolts") (PInt 0) (mkCodec U8 (fun bits => bits) U8 (fun self => self));
      Parser.mkRField "other" VisPrivate (Parser.AList (Parser.RBits 8 "") []) (Parser.RPath "u8") (PInt 0) id_codec]) [("voltage", (EUser (TUser "voltage") (RC 171)))])]
  [SLetT "bitfield" (TStat "Bitfield" "new_without_defaults" []);
   SAssert (TEq (TMeth "Bitfield" (TVar "bitfield") "voltage" []) (TV (RC 0)));
   SAssert (TEq (TMeth "Bitfield" (TVar "bitfield") "into_bits" []) (TV (RI 0)))]) = true.
Proof. vm_compute. reflexivity. Qed.

(* lib_tests.rs:4577 *)
Example custom_numeric_type_builder : is_passed (run_test
  [(mkUnit "Bitfield" (Parser.mkRDecl true VisPublic "Bitfield" (Some (Parser.RPath "u16")) []
     [Parser.mkRField "voltage" VisPrivate (Parser.AList (Parser.RBits 8 "") []) (Parser.RPath "Millivolts") (PInt 0) (mkCodec U8 (fun bits => bits) U8 (fun self => self));
      Parser.mkRField "status" VisPrivate Parser.ANone (Parser.RPath "u8") (PInt 0) id_codec]) [])]
  [SLetT "bitfield" (TBuild "Bitfield" "build" [(TBuild "Bitfield" "with_status" [(TBuild "Bitfield" "with_voltage" [(TBuild "Bitfield" "new" []); (TV (RC 192))]); (TV (RI 255))])]);
   SAssert (TEq (TMeth "Bitfield" (TVar "bitfield") "voltage" []) (TV (RC 192)));
   SAssert (TEq (TMeth "Bitfield" (TVar "bitfield") "status" []) (TV (RI 255)));
   SAssert (TEq (TMeth "Bitfield" (TVar "bitfield") "into_bits" []) (TV (RI 65472)))]) = true.
Proof. vm_compute. reflexivity. Qed.

(* lib_tests.rs:4604 *)
Example custom_numeric_type_checked_setter : is_passed (run_test
  [(mkUnit "Bitfield" (Parser.mkRDecl true VisPublic "Bitfield" (Some (Parser.RPath "u8")) []
     [Parser.mkRField "nibble" VisPrivate (Parser.AList (Parser.RBits 4 "") []) (Parser.RPath "SmallValue") (PInt 0) (mkCodec U8 (fun bits => bits) U8 (fun self => self));
      Parser.mkRField "other" VisPrivate (Parser.AList (Parser.RBits 4 "") []) (Parser.RPath "u8") (PInt 0) id_codec]) [])]
  [SLetT "bitfield" (TStat "Bitfield" "new" []);
   SAssert (TIsOk (TMeth "Bitfield" (TVar "bitfield") "checked_set_nibble" [(TV (RC 15))]));
   SAssert (TEq (TMeth "Bitfield" (TVar "bitfield") "nibble" []) (TV (RC 15)));
   SAssert (TIsErr (TMeth "Bitfield" (TVar "bitfield") "checked_set_nibble" [(TV (RC 16))]));
   SAssert (TEq (TMeth "Bitfield" (TVar "bitfield") "nibble" []) (TV (RC 15)))]) = true.
Proof. vm_compute. reflexivity. Qed.

(* lib_tests.rs:4634 *)
Example custom_numeric_type_read_only_field : is_passed (run_test
  [(mkUnit "Bitfield" (Parser.mkRDecl true VisPublic "Bitfield" (Some (Parser.RPath "u16")) []
     [Parser.mkRField "voltage" VisPrivate (Parser.AList (Parser.RBits 8 "") [("access", "ro")]) (Parser.RPath "Millivolts") (PInt 0) (mkCodec U8 (fun bits => bits) U8 (fun self => self));
      Parser.mkRField "status" VisPrivate (Parser.AList (Parser.RBits 8 "") []) (Parser.RPath "u8") (PInt 0) id_codec]) [])]
  [SLetT "bitfield" (TStat "Bitfield" "from_bits" [(TV (RI 21930))]);
   SAssert (TEq (TMeth "Bitfield" (TVar "bitfield") "voltage" []) (TV (RC 170)));
   SAssert (TEq (TMeth "Bitfield" (TVar "bitfield") "status" []) (TV (RI 85)))]) = true.
Proof. vm_compute. reflexivity. Qed.

(* lib_tests.rs:4660 *)
Example custom_numeric_type_write_only_field : is_passed (run_test
  [(mkUnit "Bitfield" (Parser.mkRDecl true VisPublic "Bitfield" (Some (Parser.RPath "u16")) []
     [Parser.mkRField "voltage" VisPrivate (Parser.AList (Parser.RBits 8 "") [("access", "wo")]) (Parser.RPath "Millivolts") (PInt 0) (mkCodec U8 (fun bits => bits) U8 (fun self => self));
      Parser.mkRField "status" VisPrivate (Parser.AList (Parser.RBits 8 "") []) (Parser.RPath "u8") (PInt 0) id_codec]) [])]
  [SLetT "bitfield" (TStat "Bitfield" "new" []);
   SDo (TMeth "Bitfield" (TVar "bitfield") "set_voltage" [(TV (RC 190))]);
   SAssert (TEq (TNum Z.land (TMeth "Bitfield" (TVar "bitfield") "into_bits" []) (TV (RI 255))) (TV (RI 190)))]) = true.
Proof. vm_compute. reflexivity. Qed.

(* lib_tests.rs:4686 *)
Example custom_numeric_type_msb_order : is_passed (run_test
  [(mkUnit "Bitfield" (Parser.mkRDecl true VisPublic "Bitfield" (Some (Parser.RPath "u32")) [("order", "msb")]
     [Parser.mkRField "a" VisPrivate (Parser.AList (Parser.RBits 8 "") []) (Parser.RPath "Millivolts") (PInt 0) (mkCodec U8 (fun bits => bits) U8 (fun self => self));
      Parser.mkRField "b" VisPrivate Parser.ANone (Parser.RPath "u8") (PInt 0) id_codec;
      Parser.mkRField "c" VisPrivate Parser.ANone (Parser.RPath "u8") (PInt 0) id_codec;
      Parser.mkRField "d" VisPrivate Parser.ANone (Parser.RPath "u8") (PInt 0) id_codec]) [])]
  [SLetT "bitfield" (TStat "Bitfield" "from_bits" [(TV (RI 287454020))]);
   SAssert (TEq (TMeth "Bitfield" (TVar "bitfield") "a" []) (TV (RC 17)));
   SAssert (TEq (TMeth "Bitfield" (TVar "bitfield") "b" []) (TV (RI 34)));
   SAssert (TEq (TMeth "Bitfield" (TVar "bitfield") "c" []) (TV (RI 51)));
   SAssert (TEq (TMeth "Bitfield" (TVar "bitfield") "d" []) (TV (RI 68)));
   SAssert (TEq (TMeth "Bitfield" (TVar "bitfield") "into_bits" []) (TV (RI 287454020)))]) = true.
Proof. vm_compute. reflexivity. Qed.

(* lib_tests.rs:4716 *)
Example custom_numeric_type_from_traits : is_passed (run_test
  [(mkUnit "Bitfield" (Parser.mkRDecl true VisPublic "Bitfield" (Some (Parser.RPath "u16")) []
     [Parser.mkRField "voltage" VisPrivate (Parser.AList (Parser.RBits 8 "") []) (Parser.RPath "Millivolts") (PInt 0) (mkCodec U8 (fun bits => bits) U8 (fun self => self));
      Parser.mkRField "status" VisPrivate Parser.ANone (Parser.RPath "u8") (PInt 0) id_codec]) [])]
  [SLetT "bitfield" (TFrom "Bitfield" (TV (RI 21930)));
   SAssert (TEq (TMeth "Bitfield" (TVar "bitfield") "voltage" []) (TV (RC 170)));
   SAssert (TEq (TMeth "Bitfield" (TVar "bitfield") "status" []) (TV (RI 85)));
   SLetT "raw" (TInto "Bitfield" (TVar "bitfield"));
   SAssert (TEq (TVar "raw") (TV (RI 21930)))]) = true.
Proof. vm_compute. reflexivity. Qed.

(* lib_tests.rs:4744 *)
Example custom_numeric_type_multiple_custom_fields : is_passed (run_test
  [(mkUnit "Bitfield" (Parser.mkRDecl true VisPublic "Bitfield" (Some (Parser.RPath "u32")) []
     [Parser.mkRField "voltage" VisPrivate (Parser.AList (Parser.RBits 8 "") []) (Parser.RPath "Millivolts") (PInt 0) (mkCodec U8 (fun bits => bits) U8 (fun self => self));
      Parser.mkRField "current" VisPrivate (Parser.AList (Parser.RBits 8 "") []) (Parser.RPath "MilliAmps") (PInt 0) (mkCodec U8 (fun bits => bits) U8 (fun self => self));
      Parser.mkRField "reserved" VisPrivate (Parser.AList (Parser.RBits 16 "") []) (Parser.RPath "u16") (PInt 0) id_codec]) [])]
  [SLetT "bitfield" (TStat "Bitfield" "new" []);
   SDo (TMeth "Bitfield" (TVar "bitfield") "set_voltage" [(TV (RC 18))]);
   SDo (TMeth "Bitfield" (TVar "bitfield") "set_current" [(TV (RC 52))]);
   SAssert (TEq (TMeth "Bitfield" (TVar "bitfield") "voltage" []) (TV (RC 18)));
   SAssert (TEq (TMeth "Bitfield" (TVar "bitfield") "current" []) (TV (RC 52)));
   SAssert (TEq (TMeth "Bitfield" (TVar "bitfield") "into_bits" []) (TV (RI 13330)))]) = true.
Proof. vm_compute. reflexivity. Qed.

(* lib_tests.rs:4787 *)
Example custom_numeric_type_mixed_with_integer_fields : is_passed (run_test
  [(mkUnit "Bitfield" (Parser.mkRDecl true VisPublic "Bitfield" (Some (Parser.RPath "u32")) []
     [Parser.mkRField "temperature" VisPrivate (Parser.AList (Parser.RBits 8 "") []) (Parser.RPath "Celsius") (PInt 0) (mkCodec U8 (fun bits => (cast I8 bits)) U8 (fun self => (cast U8 self)));
      Parser.mkRField "humidity" VisPrivate (Parser.AList (Parser.RBits 8 "") []) (Parser.RPath "u8") (PInt 0) id_codec;
      Parser.mkRField "pressure" VisPrivate (Parser.AList (Parser.RBits 16 "") []) (Parser.RPath "u16") (PInt 0) id_codec]) [])]
  [SLetT "bitfield" (TStat "Bitfield" "new" []);
   SDo (TMeth "Bitfield" (TVar "bitfield") "set_temperature" [(TV (RC (-10)))]);
   SDo (TMeth "Bitfield" (TVar "bitfield") "set_humidity" [(TV (RI 75))]);
   SDo (TMeth "Bitfield" (TVar "bitfield") "set_pressure" [(TV (RI 1013))]);
   SAssert (TEq (TMeth "Bitfield" (TVar "bitfield") "temperature" []) (TV (RC (-10))));
   SAssert (TEq (TMeth "Bitfield" (TVar "bitfield") "humidity" []) (TV (RI 75)));
   SAssert (TEq (TMeth "Bitfield" (TVar "bitfield") "pressure" []) (TV (RI 1013)));
   SLetT "raw" (TMeth "Bitfield" (TVar "bitfield") "into_bits" []);
   SAssert (TEq (TNum Z.modulo (TNum Z.land (TVar "raw") (TV (RI 255))) (TV (RI (2 ^ 8)))) (TV (RI 246)))]) = true.
Proof. vm_compute. reflexivity. Qed.

(* lib_tests.rs:4823 *)
Example custom_numeric_type_from_bits_with_defaults : is_passed (run_test
  [(mkUnit "Bitfield" (Parser.mkRDecl true VisPublic "Bitfield" (Some (Parser.RPath "u16")) []
     [Parser.mkRField "voltage" VisPrivate (Parser.AList (Parser.RBits 8 "") [("default", "Millivolts(0xAB)")]) (Parser.RPath "Millivolts") (PInt 0) (mkCodec U8 (fun bits => bits) U8 (fun self => self));
      Parser.mkRField "status" VisPrivate (Parser.AList (Parser.RBits 8 "") []) (Parser.RPath "u8") (PInt 0) id_codec]) [("voltage", (EUser (TUser "voltage") (RC 171)))])]
  [SLetT "bitfield" (TStat "Bitfield" "from_bits_with_defaults" [(TV (RI 22015))]);
   SAssert (TEq (TMeth "Bitfield" (TVar "bitfield") "voltage" []) (TV (RC 171)));
   SAssert (TEq (TMeth "Bitfield" (TVar "bitfield") "status" []) (TV (RI 85)))]) = true.
Proof. vm_compute. reflexivity. Qed.

(* lib_tests.rs:4849 *)
Example custom_numeric_type_full_integration : is_passed (run_test
  [(mkUnit "Bitfield" (Parser.mkRDecl true VisPublic "Bitfield" (Some (Parser.RPath "u32")) []
     [Parser.mkRField "a" VisPrivate (Parser.AList (Parser.RBits 8 "") []) (Parser.RPath "Millivolts") (PInt 0) (mkCodec U8 (fun bits => bits) U8 (fun self => self));
      Parser.mkRField "b" VisPrivate Parser.ANone (Parser.RPath "u8") (PInt 0) id_codec;
      Parser.mkRField "c" VisPrivate (Parser.AList (Parser.RBits 8 "") []) (Parser.RPath "Millivolts") (PInt 0) (mkCodec U8 (fun bits => bits) U8 (fun self => self));
      Parser.mkRField "d" VisPrivate Parser.ANone (Parser.RPath "u8") (PInt 0) id_codec]) [])]
  [SLetT "original" (TBuild "Bitfield" "build" [(TBuild "Bitfield" "with_d" [(TBuild "Bitfield" "with_c" [(TBuild "Bitfield" "with_b" [(TBuild "Bitfield" "with_a" [(TBuild "Bitfield" "new" []); (TV (RC 17))]); (TV (RI 34))]); (TV (RC 51))]); (TV (RI 68))])]);
   SLetT "raw" (TMeth "Bitfield" (TVar "original") "into_bits" []);
   SAssert (TEq (TVar "raw") (TV (RI 1144201745)));
   SLetT "recovered" (TStat "Bitfield" "from_bits" [(TVar "raw")]);
   SAssert (TEq (TMeth "Bitfield" (TVar "recovered") "a" []) (TV (RC 17)));
   SAssert (TEq (TMeth "Bitfield" (TVar "recovered") "b" []) (TV (RI 34)));
   SAssert (TEq (TMeth "Bitfield" (TVar "recovered") "c" []) (TV (RC 51)));
   SAssert (TEq (TMeth "Bitfield" (TVar "recovered") "d" []) (TV (RI 68)))]) = true.
Proof. vm_compute. reflexivity. Qed.

(* lib_tests.rs:4889 *)
Example custom_numeric_type_clear_bits_uses_from_bits : is_passed (run_test
  [(mkUnit "Bitfield" (Parser.mkRDecl true VisPublic "Bitfield" (Some (Parser.RPath "u8")) [("bit_ops", "true")]
     [Parser.mkRField "value" VisPrivate (Parser.AList (Parser.RBits 8 "") []) (Parser.RPath "InvertedBits") (PInt 0) (mkCodec U8 (fun bits => (cast U8 (Z.lnot bits))) U8 (fun self => (cast U8 (Z.lnot self))))]) [])]
  [SLetT "bitfield" (TStat "Bitfield" "new" []);
   SDo (TMeth "Bitfield" (TVar "bitfield") "set_value" [(TV (RC 170))]);
   SAssert (TEq (TMeth "Bitfield" (TVar "bitfield") "value" []) (TV (RC 170)));
   SDo (TMeth "Bitfield" (TVar "bitfield") "clear_bits" []);
   SAssert (TEq (TMeth "Bitfield" (TVar "bitfield") "value" []) (TV (RC 255)))]) = true.
Proof. vm_compute. reflexivity. Qed.

(* lib_tests.rs:4916 *)
Example custom_numeric_type_write_bits_uses_from_bits : is_passed (run_test
  [(mkUnit "Bitfield" (Parser.mkRDecl true VisPublic "Bitfield" (Some (Parser.RPath "u8")) [("bit_ops", "true")]
     [Parser.mkRField "value" VisPrivate (Parser.AList (Parser.RBits 8 "") []) (Parser.RPath "InvertedBits") (PInt 0) (mkCodec U8 (fun bits => (cast U8 (Z.lnot bits))) U8 (fun self => (cast U8 (Z.lnot self))))]) [])]
  [SLetT "bitfield" (TStat "Bitfield" "new" []);
   SDo (TMeth "Bitfield" (TVar "bitfield") "write_bits" [(TV (RI 85))]);
   SAssert (TEq (TMeth "Bitfield" (TVar "bitfield") "value" []) (TV (RC 170)));
   SAssert (TEq (TMeth "Bitfield" (TVar "bitfield") "into_bits" []) (TV (RI 85)))]) = true.
Proof. vm_compute. reflexivity. Qed.

(* lib_tests.rs:4943 *)
Example bitflag_base_variant_from_bits_known_values : is_passed (run_test
  []
  [SAssert (TEq (TCodecFrom (bitflag_codec (Bitflag.mkREnum VisPrivate "Flags" (Some (Parser.RPath "u8")) [] [Bitflag.mkRVariant "Unknown" ["base"] (Some "0") Bitflag.FLit 0; Bitflag.mkRVariant "A" [] (Some "1") Bitflag.FLit 1; Bitflag.mkRVariant "B" [] (Some "2") Bitflag.FLit 2]) U8) (TV (RI 1))) (TV (RC 1)));
   SAssert (TEq (TCodecFrom (bitflag_codec (Bitflag.mkREnum VisPrivate "Flags" (Some (Parser.RPath "u8")) [] [Bitflag.mkRVariant "Unknown" ["base"] (Some "0") Bitflag.FLit 0; Bitflag.mkRVariant "A" [] (Some "1") Bitflag.FLit 1; Bitflag.mkRVariant "B" [] (Some "2") Bitflag.FLit 2]) U8) (TV (RI 2))) (TV (RC 2)))]) = true.
Proof. vm_compute. reflexivity. Qed.

(* lib_tests.rs:4957 *)
Example bitflag_base_variant_from_bits_unknown_value_maps_to_base : is_passed (run_test
  []
  [SAssert (TEq (TCodecFrom (bitflag_codec (Bitflag.mkREnum VisPrivate "Flags" (Some (Parser.RPath "u8")) [] [Bitflag.mkRVariant "Unknown" ["base"] (Some "0") Bitflag.FLit 0; Bitflag.mkRVariant "A" [] (Some "1") Bitflag.FLit 1; Bitflag.mkRVariant "B" [] (Some "2") Bitflag.FLit 2]) U8) (TV (RI 0))) (TV (RC 0)));
   SAssert (TEq (TCodecFrom (bitflag_codec (Bitflag.mkREnum VisPrivate "Flags" (Some (Parser.RPath "u8")) [] [Bitflag.mkRVariant "Unknown" ["base"] (Some "0") Bitflag.FLit 0; Bitflag.mkRVariant "A" [] (Some "1") Bitflag.FLit 1; Bitflag.mkRVariant "B" [] (Some "2") Bitflag.FLit 2]) U8) (TV (RI 99))) (TV (RC 0)))]) = true.
Proof. vm_compute. reflexivity. Qed.

(* lib_tests.rs:4971 *)
Example bitflag_base_variant_not_included_in_exact_match_arms : is_passed (run_test
  []
  [SAssert (TEq (TCodecFrom (bitflag_codec (Bitflag.mkREnum VisPrivate "Flags" (Some (Parser.RPath "u8")) [] [Bitflag.mkRVariant "Default" ["base"] (Some "99") Bitflag.FLit 99; Bitflag.mkRVariant "A" [] (Some "1") Bitflag.FLit 1; Bitflag.mkRVariant "B" [] (Some "2") Bitflag.FLit 2]) U8) (TV (RI 1))) (TV (RC 1)));
   SAssert (TEq (TCodecFrom (bitflag_codec (Bitflag.mkREnum VisPrivate "Flags" (Some (Parser.RPath "u8")) [] [Bitflag.mkRVariant "Default" ["base"] (Some "99") Bitflag.FLit 99; Bitflag.mkRVariant "A" [] (Some "1") Bitflag.FLit 1; Bitflag.mkRVariant "B" [] (Some "2") Bitflag.FLit 2]) U8) (TV (RI 2))) (TV (RC 2)));
   SAssert (TEq (TCodecFrom (bitflag_codec (Bitflag.mkREnum VisPrivate "Flags" (Some (Parser.RPath "u8")) [] [Bitflag.mkRVariant "Default" ["base"] (Some "99") Bitflag.FLit 99; Bitflag.mkRVariant "A" [] (Some "1") Bitflag.FLit 1; Bitflag.mkRVariant "B" [] (Some "2") Bitflag.FLit 2]) U8) (TV (RI 99))) (TV (RC 0)));
   SAssert (TEq (TCodecFrom (bitflag_codec (Bitflag.mkREnum VisPrivate "Flags" (Some (Parser.RPath "u8")) [] [Bitflag.mkRVariant "Default" ["base"] (Some "99") Bitflag.FLit 99; Bitflag.mkRVariant "A" [] (Some "1") Bitflag.FLit 1; Bitflag.mkRVariant "B" [] (Some "2") Bitflag.FLit 2]) U8) (TV (RI 50))) (TV (RC 0)))]) = true.
Proof. vm_compute. reflexivity. Qed.

(* lib_tests.rs:4987 *)
Example bitflag_default_variant_from_bits_known_values : is_passed (run_test
  []
  [SAssert (TEq (TCodecFrom (bitflag_codec (Bitflag.mkREnum VisPrivate "Flags" (Some (Parser.RPath "u8")) [] [Bitflag.mkRVariant "Unknown" ["default"] (Some "0") Bitflag.FLit 0; Bitflag.mkRVariant "A" [] (Some "1") Bitflag.FLit 1; Bitflag.mkRVariant "B" [] (Some "2") Bitflag.FLit 2]) U8) (TV (RI 0))) (TV (RC 0)));
   SAssert (TEq (TCodecFrom (bitflag_codec (Bitflag.mkREnum VisPrivate "Flags" (Some (Parser.RPath "u8")) [] [Bitflag.mkRVariant "Unknown" ["default"] (Some "0") Bitflag.FLit 0; Bitflag.mkRVariant "A" [] (Some "1") Bitflag.FLit 1; Bitflag.mkRVariant "B" [] (Some "2") Bitflag.FLit 2]) U8) (TV (RI 1))) (TV (RC 1)));
   SAssert (TEq (TCodecFrom (bitflag_codec (Bitflag.mkREnum VisPrivate "Flags" (Some (Parser.RPath "u8")) [] [Bitflag.mkRVariant "Unknown" ["default"] (Some "0") Bitflag.FLit 0; Bitflag.mkRVariant "A" [] (Some "1") Bitflag.FLit 1; Bitflag.mkRVariant "B" [] (Some "2") Bitflag.FLit 2]) U8) (TV (RI 2))) (TV (RC 2)))]) = true.
Proof. vm_compute. reflexivity. Qed.

(* lib_tests.rs:5002 *)
Example bitflag_default_variant_from_bits_unknown_value_maps_to_default : is_passed (run_test
  []
  [SAssert (TEq (TCodecFrom (bitflag_codec (Bitflag.mkREnum VisPrivate "Flags" (Some (Parser.RPath "u8")) [] [Bitflag.mkRVariant "Unknown" ["default"] (Some "0") Bitflag.FLit 0; Bitflag.mkRVariant "A" [] (Some "1") Bitflag.FLit 1; Bitflag.mkRVariant "B" [] (Some "2") Bitflag.FLit 2]) U8) (TV (RI 99))) (TV (RC 0)))]) = true.
Proof. vm_compute. reflexivity. Qed.

(* lib_tests.rs:5015 *)
Example bitflag_into_bits_returns_correct_values : is_passed (run_test
  []
  [SAssert (TEq (TCodecInto (bitflag_codec (Bitflag.mkREnum VisPrivate "Flags" (Some (Parser.RPath "u8")) [] [Bitflag.mkRVariant "Unknown" ["base"] (Some "0") Bitflag.FLit 0; Bitflag.mkRVariant "A" [] (Some "1") Bitflag.FLit 1; Bitflag.mkRVariant "B" [] (Some "2") Bitflag.FLit 2]) U8) (TV (RC 0))) (TV (RI 0)));
   SAssert (TEq (TCodecInto (bitflag_codec (Bitflag.mkREnum VisPrivate "Flags" (Some (Parser.RPath "u8")) [] [Bitflag.mkRVariant "Unknown" ["base"] (Some "0") Bitflag.FLit 0; Bitflag.mkRVariant "A" [] (Some "1") Bitflag.FLit 1; Bitflag.mkRVariant "B" [] (Some "2") Bitflag.FLit 2]) U8) (TV (RC 1))) (TV (RI 1)));
   SAssert (TEq (TCodecInto (bitflag_codec (Bitflag.mkREnum VisPrivate "Flags" (Some (Parser.RPath "u8")) [] [Bitflag.mkRVariant "Unknown" ["base"] (Some "0") Bitflag.FLit 0; Bitflag.mkRVariant "A" [] (Some "1") Bitflag.FLit 1; Bitflag.mkRVariant "B" [] (Some "2") Bitflag.FLit 2]) U8) (TV (RC 2))) (TV (RI 2)))]) = true.
Proof. vm_compute. reflexivity. Qed.

(* lib_tests.rs:5030 *)
Example bitflag_u16_type : is_passed (run_test
  []
  [SAssert (TEq (TCodecFrom (bitflag_codec (Bitflag.mkREnum VisPrivate "Flags" (Some (Parser.RPath "u16")) [] [Bitflag.mkRVariant "Unknown" ["base"] (Some "0") Bitflag.FLit 0; Bitflag.mkRVariant "A" [] (Some "1") Bitflag.FLit 1; Bitflag.mkRVariant "B" [] (Some "2") Bitflag.FLit 2]) U16) (TV (RI 1))) (TV (RC 1)));
   SAssert (TEq (TCodecFrom (bitflag_codec (Bitflag.mkREnum VisPrivate "Flags" (Some (Parser.RPath "u16")) [] [Bitflag.mkRVariant "Unknown" ["base"] (Some "0") Bitflag.FLit 0; Bitflag.mkRVariant "A" [] (Some "1") Bitflag.FLit 1; Bitflag.mkRVariant "B" [] (Some "2") Bitflag.FLit 2]) U16) (TV (RI 2))) (TV (RC 2)));
   SAssert (TEq (TCodecFrom (bitflag_codec (Bitflag.mkREnum VisPrivate "Flags" (Some (Parser.RPath "u16")) [] [Bitflag.mkRVariant "Unknown" ["base"] (Some "0") Bitflag.FLit 0; Bitflag.mkRVariant "A" [] (Some "1") Bitflag.FLit 1; Bitflag.mkRVariant "B" [] (Some "2") Bitflag.FLit 2]) U16) (TV (RI 99))) (TV (RC 0)));
   SAssert (TEq (TCodecInto (bitflag_codec (Bitflag.mkREnum VisPrivate "Flags" (Some (Parser.RPath "u16")) [] [Bitflag.mkRVariant "Unknown" ["base"] (Some "0") Bitflag.FLit 0; Bitflag.mkRVariant "A" [] (Some "1") Bitflag.FLit 1; Bitflag.mkRVariant "B" [] (Some "2") Bitflag.FLit 2]) U16) (TV (RC 1))) (TV (RI 1)));
   SAssert (TEq (TCodecInto (bitflag_codec (Bitflag.mkREnum VisPrivate "Flags" (Some (Parser.RPath "u16")) [] [Bitflag.mkRVariant "Unknown" ["base"] (Some "0") Bitflag.FLit 0; Bitflag.mkRVariant "A" [] (Some "1") Bitflag.FLit 1; Bitflag.mkRVariant "B" [] (Some "2") Bitflag.FLit 2]) U16) (TV (RC 2))) (TV (RI 2)))]) = true.
Proof. vm_compute. reflexivity. Qed.

(* lib_tests.rs:5047 *)
Example bitflag_u32_type : is_passed (run_test
  []
  [SAssert (TEq (TCodecFrom (bitflag_codec (Bitflag.mkREnum VisPrivate "Flags" (Some (Parser.RPath "u32")) [] [Bitflag.mkRVariant "Unknown" ["base"] (Some "0") Bitflag.FLit 0; Bitflag.mkRVariant "A" [] (Some "1") Bitflag.FLit 1; Bitflag.mkRVariant "B" [] (Some "2") Bitflag.FLit 2]) U32) (TV (RI 1))) (TV (RC 1)));
   SAssert (TEq (TCodecFrom (bitflag_codec (Bitflag.mkREnum VisPrivate "Flags" (Some (Parser.RPath "u32")) [] [Bitflag.mkRVariant "Unknown" ["base"] (Some "0") Bitflag.FLit 0; Bitflag.mkRVariant "A" [] (Some "1") Bitflag.FLit 1; Bitflag.mkRVariant "B" [] (Some "2") Bitflag.FLit 2]) U32) (TV (RI 2))) (TV (RC 2)));
   SAssert (TEq (TCodecFrom (bitflag_codec (Bitflag.mkREnum VisPrivate "Flags" (Some (Parser.RPath "u32")) [] [Bitflag.mkRVariant "Unknown" ["base"] (Some "0") Bitflag.FLit 0; Bitflag.mkRVariant "A" [] (Some "1") Bitflag.FLit 1; Bitflag.mkRVariant "B" [] (Some "2") Bitflag.FLit 2]) U32) (TV (RI 99))) (TV (RC 0)));
   SAssert (TEq (TCodecInto (bitflag_codec (Bitflag.mkREnum VisPrivate "Flags" (Some (Parser.RPath "u32")) [] [Bitflag.mkRVariant "Unknown" ["base"] (Some "0") Bitflag.FLit 0; Bitflag.mkRVariant "A" [] (Some "1") Bitflag.FLit 1; Bitflag.mkRVariant "B" [] (Some "2") Bitflag.FLit 2]) U32) (TV (RC 1))) (TV (RI 1)));
   SAssert (TEq (TCodecInto (bitflag_codec (Bitflag.mkREnum VisPrivate "Flags" (Some (Parser.RPath "u32")) [] [Bitflag.mkRVariant "Unknown" ["base"] (Some "0") Bitflag.FLit 0; Bitflag.mkRVariant "A" [] (Some "1") Bitflag.FLit 1; Bitflag.mkRVariant "B" [] (Some "2") Bitflag.FLit 2]) U32) (TV (RC 2))) (TV (RI 2)))]) = true.
Proof. vm_compute. reflexivity. Qed.

(* lib_tests.rs:5064 *)
Example bitflag_u32_from_endian_little : is_passed (run_test
  []
  [SAssert (TEq (TCodecFrom (bitflag_codec (Bitflag.mkREnum VisPrivate "Flags" (Some (Parser.RPath "u32")) [("from_endian", "little")] [Bitflag.mkRVariant "Unknown" ["base"] (Some "0") Bitflag.FLit 0; Bitflag.mkRVariant "A" [] (Some "0x01000000") Bitflag.FLit 16777216; Bitflag.mkRVariant "B" [] (Some "0x02000000") Bitflag.FLit 33554432]) U32) (TV (RI 1))) (TV (RC 1)));
   SAssert (TEq (TCodecFrom (bitflag_codec (Bitflag.mkREnum VisPrivate "Flags" (Some (Parser.RPath "u32")) [("from_endian", "little")] [Bitflag.mkRVariant "Unknown" ["base"] (Some "0") Bitflag.FLit 0; Bitflag.mkRVariant "A" [] (Some "0x01000000") Bitflag.FLit 16777216; Bitflag.mkRVariant "B" [] (Some "0x02000000") Bitflag.FLit 33554432]) U32) (TV (RI 2))) (TV (RC 2)));
   SAssert (TEq (TCodecFrom (bitflag_codec (Bitflag.mkREnum VisPrivate "Flags" (Some (Parser.RPath "u32")) [("from_endian", "little")] [Bitflag.mkRVariant "Unknown" ["base"] (Some "0") Bitflag.FLit 0; Bitflag.mkRVariant "A" [] (Some "0x01000000") Bitflag.FLit 16777216; Bitflag.mkRVariant "B" [] (Some "0x02000000") Bitflag.FLit 33554432]) U32) (TV (RI 255))) (TV (RC 0)))]) = true.
Proof. vm_compute. reflexivity. Qed.

(* lib_tests.rs:5079 *)
Example bitflag_u32_into_endian_little : is_passed (run_test
  []
  [SAssert (TEq (TCodecInto (bitflag_codec (Bitflag.mkREnum VisPrivate "Flags" (Some (Parser.RPath "u32")) [("into_endian", "little")] [Bitflag.mkRVariant "Unknown" ["base"] (Some "0") Bitflag.FLit 0; Bitflag.mkRVariant "A" [] (Some "1") Bitflag.FLit 1; Bitflag.mkRVariant "B" [] (Some "2") Bitflag.FLit 2]) U32) (TV (RC 1))) (TV (RI 16777216)));
   SAssert (TEq (TCodecInto (bitflag_codec (Bitflag.mkREnum VisPrivate "Flags" (Some (Parser.RPath "u32")) [("into_endian", "little")] [Bitflag.mkRVariant "Unknown" ["base"] (Some "0") Bitflag.FLit 0; Bitflag.mkRVariant "A" [] (Some "1") Bitflag.FLit 1; Bitflag.mkRVariant "B" [] (Some "2") Bitflag.FLit 2]) U32) (TV (RC 2))) (TV (RI 33554432)));
   SAssert (TEq (TCodecInto (bitflag_codec (Bitflag.mkREnum VisPrivate "Flags" (Some (Parser.RPath "u32")) [("into_endian", "little")] [Bitflag.mkRVariant "Unknown" ["base"] (Some "0") Bitflag.FLit 0; Bitflag.mkRVariant "A" [] (Some "1") Bitflag.FLit 1; Bitflag.mkRVariant "B" [] (Some "2") Bitflag.FLit 2]) U32) (TV (RC 0))) (TV (RI 0)))]) = true.
Proof. vm_compute. reflexivity. Qed.

(* lib_tests.rs:5094 *)
Example bitflag_u32_from_and_into_endian_little : is_passed (run_test
  []
  [SAssert (TEq (TCodecFrom (bitflag_codec (Bitflag.mkREnum VisPrivate "Flags" (Some (Parser.RPath "u32")) [("from_endian", "little"); ("into_endian", "little")] [Bitflag.mkRVariant "Unknown" ["base"] (Some "0") Bitflag.FLit 0; Bitflag.mkRVariant "A" [] (Some "0x01000000") Bitflag.FLit 16777216; Bitflag.mkRVariant "B" [] (Some "0x02000000") Bitflag.FLit 33554432]) U32) (TV (RI 1))) (TV (RC 1)));
   SAssert (TEq (TCodecFrom (bitflag_codec (Bitflag.mkREnum VisPrivate "Flags" (Some (Parser.RPath "u32")) [("from_endian", "little"); ("into_endian", "little")] [Bitflag.mkRVariant "Unknown" ["base"] (Some "0") Bitflag.FLit 0; Bitflag.mkRVariant "A" [] (Some "0x01000000") Bitflag.FLit 16777216; Bitflag.mkRVariant "B" [] (Some "0x02000000") Bitflag.FLit 33554432]) U32) (TV (RI 2))) (TV (RC 2)));
   SAssert (TEq (TCodecInto (bitflag_codec (Bitflag.mkREnum VisPrivate "Flags" (Some (Parser.RPath "u32")) [("from_endian", "little"); ("into_endian", "little")] [Bitflag.mkRVariant "Unknown" ["base"] (Some "0") Bitflag.FLit 0; Bitflag.mkRVariant "A" [] (Some "0x01000000") Bitflag.FLit 16777216; Bitflag.mkRVariant "B" [] (Some "0x02000000") Bitflag.FLit 33554432]) U32) (TV (RC 1))) (TV (RI 1)));
   SAssert (TEq (TCodecInto (bitflag_codec (Bitflag.mkREnum VisPrivate "Flags" (Some (Parser.RPath "u32")) [("from_endian", "little"); ("into_endian", "little")] [Bitflag.mkRVariant "Unknown" ["base"] (Some "0") Bitflag.FLit 0; Bitflag.mkRVariant "A" [] (Some "0x01000000") Bitflag.FLit 16777216; Bitflag.mkRVariant "B" [] (Some "0x02000000") Bitflag.FLit 33554432]) U32) (TV (RC 2))) (TV (RI 2)))]) = true.
Proof. vm_compute. reflexivity. Qed.

(* lib_tests.rs:5110 *)
Example bitflag_u128_type : is_passed (run_test
  []
  [SAssert (TEq (TCodecFrom (bitflag_codec (Bitflag.mkREnum VisPrivate "Flags" (Some (Parser.RPath "u128")) [] [Bitflag.mkRVariant "Unknown" ["base"] (Some "0") Bitflag.FLit 0; Bitflag.mkRVariant "A" [] (Some "1") Bitflag.FLit 1; Bitflag.mkRVariant "B" [] (Some "2") Bitflag.FLit 2]) U128) (TV (RI 1))) (TV (RC 1)));
   SAssert (TEq (TCodecFrom (bitflag_codec (Bitflag.mkREnum VisPrivate "Flags" (Some (Parser.RPath "u128")) [] [Bitflag.mkRVariant "Unknown" ["base"] (Some "0") Bitflag.FLit 0; Bitflag.mkRVariant "A" [] (Some "1") Bitflag.FLit 1; Bitflag.mkRVariant "B" [] (Some "2") Bitflag.FLit 2]) U128) (TV (RI 2))) (TV (RC 2)));
   SAssert (TEq (TCodecFrom (bitflag_codec (Bitflag.mkREnum VisPrivate "Flags" (Some (Parser.RPath "u128")) [] [Bitflag.mkRVariant "Unknown" ["base"] (Some "0") Bitflag.FLit 0; Bitflag.mkRVariant "A" [] (Some "1") Bitflag.FLit 1; Bitflag.mkRVariant "B" [] (Some "2") Bitflag.FLit 2]) U128) (TV (RI 99))) (TV (RC 0)));
   SAssert (TEq (TCodecInto (bitflag_codec (Bitflag.mkREnum VisPrivate "Flags" (Some (Parser.RPath "u128")) [] [Bitflag.mkRVariant "Unknown" ["base"] (Some "0") Bitflag.FLit 0; Bitflag.mkRVariant "A" [] (Some "1") Bitflag.FLit 1; Bitflag.mkRVariant "B" [] (Some "2") Bitflag.FLit 2]) U128) (TV (RC 1))) (TV (RI 1)));
   SAssert (TEq (TCodecInto (bitflag_codec (Bitflag.mkREnum VisPrivate "Flags" (Some (Parser.RPath "u128")) [] [Bitflag.mkRVariant "Unknown" ["base"] (Some "0") Bitflag.FLit 0; Bitflag.mkRVariant "A" [] (Some "1") Bitflag.FLit 1; Bitflag.mkRVariant "B" [] (Some "2") Bitflag.FLit 2]) U128) (TV (RC 2))) (TV (RI 2)))]) = true.
Proof. vm_compute. reflexivity. Qed.

(* lib_tests.rs:5127 *)
Example bitflag_u128_from_endian_little : is_passed (run_test
  []
  [SAssert (TEq (TCodecFrom (bitflag_codec (Bitflag.mkREnum VisPrivate "Flags" (Some (Parser.RPath "u128")) [("from_endian", "little")] [Bitflag.mkRVariant "Unknown" ["base"] (Some "0") Bitflag.FLit 0; Bitflag.mkRVariant "A" [] (Some "1") Bitflag.FLit 1; Bitflag.mkRVariant "B" [] (Some "2") Bitflag.FLit 2]) U128) (TV (RI 1329227995784915872903807060280344576))) (TV (RC 1)));
   SAssert (TEq (TCodecFrom (bitflag_codec (Bitflag.mkREnum VisPrivate "Flags" (Some (Parser.RPath "u128")) [("from_endian", "little")] [Bitflag.mkRVariant "Unknown" ["base"] (Some "0") Bitflag.FLit 0; Bitflag.mkRVariant "A" [] (Some "1") Bitflag.FLit 1; Bitflag.mkRVariant "B" [] (Some "2") Bitflag.FLit 2]) U128) (TV (RI 2658455991569831745807614120560689152))) (TV (RC 2)));
   SAssert (TEq (TCodecFrom (bitflag_codec (Bitflag.mkREnum VisPrivate "Flags" (Some (Parser.RPath "u128")) [("from_endian", "little")] [Bitflag.mkRVariant "Unknown" ["base"] (Some "0") Bitflag.FLit 0; Bitflag.mkRVariant "A" [] (Some "1") Bitflag.FLit 1; Bitflag.mkRVariant "B" [] (Some "2") Bitflag.FLit 2]) U128) (TV (RI 131593571582706671417476898967754113024))) (TV (RC 0)))]) = true.
Proof. vm_compute. reflexivity. Qed.

(* lib_tests.rs:5142 *)
Example bitflag_u128_into_endian_little : is_passed (run_test
  []
  [SAssert (TEq (TCodecInto (bitflag_codec (Bitflag.mkREnum VisPrivate "Flags" (Some (Parser.RPath "u128")) [("into_endian", "little")] [Bitflag.mkRVariant "Unknown" ["base"] (Some "0") Bitflag.FLit 0; Bitflag.mkRVariant "A" [] (Some "1") Bitflag.FLit 1; Bitflag.mkRVariant "B" [] (Some "2") Bitflag.FLit 2]) U128) (TV (RC 1))) (TV (RI 1329227995784915872903807060280344576)));
   SAssert (TEq (TCodecInto (bitflag_codec (Bitflag.mkREnum VisPrivate "Flags" (Some (Parser.RPath "u128")) [("into_endian", "little")] [Bitflag.mkRVariant "Unknown" ["base"] (Some "0") Bitflag.FLit 0; Bitflag.mkRVariant "A" [] (Some "1") Bitflag.FLit 1; Bitflag.mkRVariant "B" [] (Some "2") Bitflag.FLit 2]) U128) (TV (RC 2))) (TV (RI 2658455991569831745807614120560689152)));
   SAssert (TEq (TCodecInto (bitflag_codec (Bitflag.mkREnum VisPrivate "Flags" (Some (Parser.RPath "u128")) [("into_endian", "little")] [Bitflag.mkRVariant "Unknown" ["base"] (Some "0") Bitflag.FLit 0; Bitflag.mkRVariant "A" [] (Some "1") Bitflag.FLit 1; Bitflag.mkRVariant "B" [] (Some "2") Bitflag.FLit 2]) U128) (TV (RC 0))) (TV (RI 0)))]) = true.
Proof. vm_compute. reflexivity. Qed.

(* lib_tests.rs:5157 *)
Example bitflag_u128_from_and_into_endian_little : is_passed (run_test
  []
  [SAssert (TEq (TCodecFrom (bitflag_codec (Bitflag.mkREnum VisPrivate "Flags" (Some (Parser.RPath "u128")) [("from_endian", "little"); ("into_endian", "little")] [Bitflag.mkRVariant "Unknown" ["base"] (Some "0") Bitflag.FLit 0; Bitflag.mkRVariant "A" [] (Some "1") Bitflag.FLit 1; Bitflag.mkRVariant "B" [] (Some "2") Bitflag.FLit 2]) U128) (TV (RI 1329227995784915872903807060280344576))) (TV (RC 1)));
   SAssert (TEq (TCodecFrom (bitflag_codec (Bitflag.mkREnum VisPrivate "Flags" (Some (Parser.RPath "u128")) [("from_endian", "little"); ("into_endian", "little")] [Bitflag.mkRVariant "Unknown" ["base"] (Some "0") Bitflag.FLit 0; Bitflag.mkRVariant "A" [] (Some "1") Bitflag.FLit 1; Bitflag.mkRVariant "B" [] (Some "2") Bitflag.FLit 2]) U128) (TV (RI 2658455991569831745807614120560689152))) (TV (RC 2)));
   SAssert (TEq (TCodecInto (bitflag_codec (Bitflag.mkREnum VisPrivate "Flags" (Some (Parser.RPath "u128")) [("from_endian", "little"); ("into_endian", "little")] [Bitflag.mkRVariant "Unknown" ["base"] (Some "0") Bitflag.FLit 0; Bitflag.mkRVariant "A" [] (Some "1") Bitflag.FLit 1; Bitflag.mkRVariant "B" [] (Some "2") Bitflag.FLit 2]) U128) (TV (RC 1))) (TV (RI 1329227995784915872903807060280344576)));
   SAssert (TEq (TCodecInto (bitflag_codec (Bitflag.mkREnum VisPrivate "Flags" (Some (Parser.RPath "u128")) [("from_endian", "little"); ("into_endian", "little")] [Bitflag.mkRVariant "Unknown" ["base"] (Some "0") Bitflag.FLit 0; Bitflag.mkRVariant "A" [] (Some "1") Bitflag.FLit 1; Bitflag.mkRVariant "B" [] (Some "2") Bitflag.FLit 2]) U128) (TV (RC 2))) (TV (RI 2658455991569831745807614120560689152)))]) = true.
Proof. vm_compute. reflexivity. Qed.

(* lib_tests.rs:5173 *)
Example bitflag_from_endian_little_swaps_bytes_on_from_bits : is_passed (run_test
  []
  [SAssert (TEq (TCodecFrom (bitflag_codec (Bitflag.mkREnum VisPrivate "Flags" (Some (Parser.RPath "u16")) [("from_endian", "little")] [Bitflag.mkRVariant "Unknown" ["base"] (Some "0") Bitflag.FLit 0; Bitflag.mkRVariant "A" [] (Some "0x0100") Bitflag.FLit 256; Bitflag.mkRVariant "B" [] (Some "0x0200") Bitflag.FLit 512]) U16) (TV (RI 1))) (TV (RC 1)));
   SAssert (TEq (TCodecFrom (bitflag_codec (Bitflag.mkREnum VisPrivate "Flags" (Some (Parser.RPath "u16")) [("from_endian", "little")] [Bitflag.mkRVariant "Unknown" ["base"] (Some "0") Bitflag.FLit 0; Bitflag.mkRVariant "A" [] (Some "0x0100") Bitflag.FLit 256; Bitflag.mkRVariant "B" [] (Some "0x0200") Bitflag.FLit 512]) U16) (TV (RI 2))) (TV (RC 2)));
   SAssert (TEq (TCodecFrom (bitflag_codec (Bitflag.mkREnum VisPrivate "Flags" (Some (Parser.RPath "u16")) [("from_endian", "little")] [Bitflag.mkRVariant "Unknown" ["base"] (Some "0") Bitflag.FLit 0; Bitflag.mkRVariant "A" [] (Some "0x0100") Bitflag.FLit 256; Bitflag.mkRVariant "B" [] (Some "0x0200") Bitflag.FLit 512]) U16) (TV (RI 255))) (TV (RC 0)))]) = true.
Proof. vm_compute. reflexivity. Qed.

(* lib_tests.rs:5188 *)
Example bitflag_from_endian_big_no_swap_on_from_bits : is_passed (run_test
  []
  [SAssert (TEq (TCodecFrom (bitflag_codec (Bitflag.mkREnum VisPrivate "Flags" (Some (Parser.RPath "u16")) [("from_endian", "big")] [Bitflag.mkRVariant "Unknown" ["base"] (Some "0") Bitflag.FLit 0; Bitflag.mkRVariant "A" [] (Some "1") Bitflag.FLit 1; Bitflag.mkRVariant "B" [] (Some "2") Bitflag.FLit 2]) U16) (TV (RI 1))) (TV (RC 1)));
   SAssert (TEq (TCodecFrom (bitflag_codec (Bitflag.mkREnum VisPrivate "Flags" (Some (Parser.RPath "u16")) [("from_endian", "big")] [Bitflag.mkRVariant "Unknown" ["base"] (Some "0") Bitflag.FLit 0; Bitflag.mkRVariant "A" [] (Some "1") Bitflag.FLit 1; Bitflag.mkRVariant "B" [] (Some "2") Bitflag.FLit 2]) U16) (TV (RI 2))) (TV (RC 2)));
   SAssert (TEq (TCodecFrom (bitflag_codec (Bitflag.mkREnum VisPrivate "Flags" (Some (Parser.RPath "u16")) [("from_endian", "big")] [Bitflag.mkRVariant "Unknown" ["base"] (Some "0") Bitflag.FLit 0; Bitflag.mkRVariant "A" [] (Some "1") Bitflag.FLit 1; Bitflag.mkRVariant "B" [] (Some "2") Bitflag.FLit 2]) U16) (TV (RI 99))) (TV (RC 0)))]) = true.
Proof. vm_compute. reflexivity. Qed.

(* lib_tests.rs:5203 *)
Example bitflag_into_endian_little_swaps_bytes_on_into_bits : is_passed (run_test
  []
  [SAssert (TEq (TCodecInto (bitflag_codec (Bitflag.mkREnum VisPrivate "Flags" (Some (Parser.RPath "u16")) [("into_endian", "little")] [Bitflag.mkRVariant "Unknown" ["base"] (Some "0") Bitflag.FLit 0; Bitflag.mkRVariant "A" [] (Some "1") Bitflag.FLit 1; Bitflag.mkRVariant "B" [] (Some "2") Bitflag.FLit 2]) U16) (TV (RC 1))) (TV (RI 256)));
   SAssert (TEq (TCodecInto (bitflag_codec (Bitflag.mkREnum VisPrivate "Flags" (Some (Parser.RPath "u16")) [("into_endian", "little")] [Bitflag.mkRVariant "Unknown" ["base"] (Some "0") Bitflag.FLit 0; Bitflag.mkRVariant "A" [] (Some "1") Bitflag.FLit 1; Bitflag.mkRVariant "B" [] (Some "2") Bitflag.FLit 2]) U16) (TV (RC 2))) (TV (RI 512)));
   SAssert (TEq (TCodecInto (bitflag_codec (Bitflag.mkREnum VisPrivate "Flags" (Some (Parser.RPath "u16")) [("into_endian", "little")] [Bitflag.mkRVariant "Unknown" ["base"] (Some "0") Bitflag.FLit 0; Bitflag.mkRVariant "A" [] (Some "1") Bitflag.FLit 1; Bitflag.mkRVariant "B" [] (Some "2") Bitflag.FLit 2]) U16) (TV (RC 0))) (TV (RI 0)))]) = true.
Proof. vm_compute. reflexivity. Qed.

(* lib_tests.rs:5218 *)
Example bitflag_into_endian_big_no_swap_on_into_bits : is_passed (run_test
  []
  [SAssert (TEq (TCodecInto (bitflag_codec (Bitflag.mkREnum VisPrivate "Flags" (Some (Parser.RPath "u16")) [("into_endian", "big")] [Bitflag.mkRVariant "Unknown" ["base"] (Some "0") Bitflag.FLit 0; Bitflag.mkRVariant "A" [] (Some "1") Bitflag.FLit 1; Bitflag.mkRVariant "B" [] (Some "2") Bitflag.FLit 2]) U16) (TV (RC 1))) (TV (RI 1)));
   SAssert (TEq (TCodecInto (bitflag_codec (Bitflag.mkREnum VisPrivate "Flags" (Some (Parser.RPath "u16")) [("into_endian", "big")] [Bitflag.mkRVariant "Unknown" ["base"] (Some "0") Bitflag.FLit 0; Bitflag.mkRVariant "A" [] (Some "1") Bitflag.FLit 1; Bitflag.mkRVariant "B" [] (Some "2") Bitflag.FLit 2]) U16) (TV (RC 2))) (TV (RI 2)));
   SAssert (TEq (TCodecInto (bitflag_codec (Bitflag.mkREnum VisPrivate "Flags" (Some (Parser.RPath "u16")) [("into_endian", "big")] [Bitflag.mkRVariant "Unknown" ["base"] (Some "0") Bitflag.FLit 0; Bitflag.mkRVariant "A" [] (Some "1") Bitflag.FLit 1; Bitflag.mkRVariant "B" [] (Some "2") Bitflag.FLit 2]) U16) (TV (RC 0))) (TV (RI 0)))]) = true.
Proof. vm_compute. reflexivity. Qed.

(* lib_tests.rs:5233 *)
Example bitflag_from_and_into_endian_little : is_passed (run_test
  []
  [SAssert (TEq (TCodecFrom (bitflag_codec (Bitflag.mkREnum VisPrivate "Flags" (Some (Parser.RPath "u16")) [("from_endian", "little"); ("into_endian", "little")] [Bitflag.mkRVariant "Unknown" ["base"] (Some "0") Bitflag.FLit 0; Bitflag.mkRVariant "A" [] (Some "0x0100") Bitflag.FLit 256; Bitflag.mkRVariant "B" [] (Some "0x0200") Bitflag.FLit 512]) U16) (TV (RI 1))) (TV (RC 1)));
   SAssert (TEq (TCodecFrom (bitflag_codec (Bitflag.mkREnum VisPrivate "Flags" (Some (Parser.RPath "u16")) [("from_endian", "little"); ("into_endian", "little")] [Bitflag.mkRVariant "Unknown" ["base"] (Some "0") Bitflag.FLit 0; Bitflag.mkRVariant "A" [] (Some "0x0100") Bitflag.FLit 256; Bitflag.mkRVariant "B" [] (Some "0x0200") Bitflag.FLit 512]) U16) (TV (RI 2))) (TV (RC 2)));
   SAssert (TEq (TCodecInto (bitflag_codec (Bitflag.mkREnum VisPrivate "Flags" (Some (Parser.RPath "u16")) [("from_endian", "little"); ("into_endian", "little")] [Bitflag.mkRVariant "Unknown" ["base"] (Some "0") Bitflag.FLit 0; Bitflag.mkRVariant "A" [] (Some "0x0100") Bitflag.FLit 256; Bitflag.mkRVariant "B" [] (Some "0x0200") Bitflag.FLit 512]) U16) (TV (RC 1))) (TV (RI 1)));
   SAssert (TEq (TCodecInto (bitflag_codec (Bitflag.mkREnum VisPrivate "Flags" (Some (Parser.RPath "u16")) [("from_endian", "little"); ("into_endian", "little")] [Bitflag.mkRVariant "Unknown" ["base"] (Some "0") Bitflag.FLit 0; Bitflag.mkRVariant "A" [] (Some "0x0100") Bitflag.FLit 256; Bitflag.mkRVariant "B" [] (Some "0x0200") Bitflag.FLit 512]) U16) (TV (RC 2))) (TV (RI 2)))]) = true.
Proof. vm_compute. reflexivity. Qed.

(* lib_tests.rs:5249 *)
Example bitflag_pub_visibility : is_passed (run_test
  []
  [SAssert (TEq (TCodecFrom (bitflag_codec (Bitflag.mkREnum VisPublic "Flags" (Some (Parser.RPath "u8")) [] [Bitflag.mkRVariant "Unknown" ["base"] (Some "0") Bitflag.FLit 0; Bitflag.mkRVariant "A" [] (Some "1") Bitflag.FLit 1; Bitflag.mkRVariant "B" [] (Some "2") Bitflag.FLit 2]) U8) (TV (RI 1))) (TV (RC 1)));
   SAssert (TEq (TCodecFrom (bitflag_codec (Bitflag.mkREnum VisPublic "Flags" (Some (Parser.RPath "u8")) [] [Bitflag.mkRVariant "Unknown" ["base"] (Some "0") Bitflag.FLit 0; Bitflag.mkRVariant "A" [] (Some "1") Bitflag.FLit 1; Bitflag.mkRVariant "B" [] (Some "2") Bitflag.FLit 2]) U8) (TV (RI 0))) (TV (RC 0)));
   SAssert (TEq (TCodecInto (bitflag_codec (Bitflag.mkREnum VisPublic "Flags" (Some (Parser.RPath "u8")) [] [Bitflag.mkRVariant "Unknown" ["base"] (Some "0") Bitflag.FLit 0; Bitflag.mkRVariant "A" [] (Some "1") Bitflag.FLit 1; Bitflag.mkRVariant "B" [] (Some "2") Bitflag.FLit 2]) U8) (TV (RC 1))) (TV (RI 1)))]) = true.
Proof. vm_compute. reflexivity. Qed.

(* lib_tests.rs:5264 *)
Example bitflag_hex_and_binary_variant_values : is_passed (run_test
  []
  [SAssert (TEq (TCodecFrom (bitflag_codec (Bitflag.mkREnum VisPrivate "Flags" (Some (Parser.RPath "u8")) [] [Bitflag.mkRVariant "Unknown" ["base"] (Some "0x00") Bitflag.FLit 0; Bitflag.mkRVariant "A" [] (Some "0x01") Bitflag.FLit 1; Bitflag.mkRVariant "B" [] (Some "0b0000_0010") Bitflag.FLit 2; Bitflag.mkRVariant "C" [] (Some "0x04") Bitflag.FLit 4]) U8) (TV (RI 1))) (TV (RC 1)));
   SAssert (TEq (TCodecFrom (bitflag_codec (Bitflag.mkREnum VisPrivate "Flags" (Some (Parser.RPath "u8")) [] [Bitflag.mkRVariant "Unknown" ["base"] (Some "0x00") Bitflag.FLit 0; Bitflag.mkRVariant "A" [] (Some "0x01") Bitflag.FLit 1; Bitflag.mkRVariant "B" [] (Some "0b0000_0010") Bitflag.FLit 2; Bitflag.mkRVariant "C" [] (Some "0x04") Bitflag.FLit 4]) U8) (TV (RI 2))) (TV (RC 2)));
   SAssert (TEq (TCodecFrom (bitflag_codec (Bitflag.mkREnum VisPrivate "Flags" (Some (Parser.RPath "u8")) [] [Bitflag.mkRVariant "Unknown" ["base"] (Some "0x00") Bitflag.FLit 0; Bitflag.mkRVariant "A" [] (Some "0x01") Bitflag.FLit 1; Bitflag.mkRVariant "B" [] (Some "0b0000_0010") Bitflag.FLit 2; Bitflag.mkRVariant "C" [] (Some "0x04") Bitflag.FLit 4]) U8) (TV (RI 4))) (TV (RC 3)));
   SAssert (TEq (TCodecFrom (bitflag_codec (Bitflag.mkREnum VisPrivate "Flags" (Some (Parser.RPath "u8")) [] [Bitflag.mkRVariant "Unknown" ["base"] (Some "0x00") Bitflag.FLit 0; Bitflag.mkRVariant "A" [] (Some "0x01") Bitflag.FLit 1; Bitflag.mkRVariant "B" [] (Some "0b0000_0010") Bitflag.FLit 2; Bitflag.mkRVariant "C" [] (Some "0x04") Bitflag.FLit 4]) U8) (TV (RI 8))) (TV (RC 0)));
   SAssert (TEq (TCodecInto (bitflag_codec (Bitflag.mkREnum VisPrivate "Flags" (Some (Parser.RPath "u8")) [] [Bitflag.mkRVariant "Unknown" ["base"] (Some "0x00") Bitflag.FLit 0; Bitflag.mkRVariant "A" [] (Some "0x01") Bitflag.FLit 1; Bitflag.mkRVariant "B" [] (Some "0b0000_0010") Bitflag.FLit 2; Bitflag.mkRVariant "C" [] (Some "0x04") Bitflag.FLit 4]) U8) (TV (RC 1))) (TV (RI 1)));
   SAssert (TEq (TCodecInto (bitflag_codec (Bitflag.mkREnum VisPrivate "Flags" (Some (Parser.RPath "u8")) [] [Bitflag.mkRVariant "Unknown" ["base"] (Some "0x00") Bitflag.FLit 0; Bitflag.mkRVariant "A" [] (Some "0x01") Bitflag.FLit 1; Bitflag.mkRVariant "B" [] (Some "0b0000_0010") Bitflag.FLit 2; Bitflag.mkRVariant "C" [] (Some "0x04") Bitflag.FLit 4]) U8) (TV (RC 2))) (TV (RI 2)));
   SAssert (TEq (TCodecInto (bitflag_codec (Bitflag.mkREnum VisPrivate "Flags" (Some (Parser.RPath "u8")) [] [Bitflag.mkRVariant "Unknown" ["base"] (Some "0x00") Bitflag.FLit 0; Bitflag.mkRVariant "A" [] (Some "0x01") Bitflag.FLit 1; Bitflag.mkRVariant "B" [] (Some "0b0000_0010") Bitflag.FLit 2; Bitflag.mkRVariant "C" [] (Some "0x04") Bitflag.FLit 4]) U8) (TV (RC 3))) (TV (RI 4)))]) = true.
Proof. vm_compute. reflexivity. Qed.

(* lib_tests.rs:5284 *)
Example bitflag_user_attributes_on_variants : is_passed (run_test
  []
  [SAssert (TEq (TCodecFrom (bitflag_codec (Bitflag.mkREnum VisPrivate "Flags" (Some (Parser.RPath "u8")) [] [Bitflag.mkRVariant "Unknown" ["base"] (Some "0") Bitflag.FLit 0; Bitflag.mkRVariant "A" [] (Some "1") Bitflag.FLit 1; Bitflag.mkRVariant "B" [] (Some "2") Bitflag.FLit 2]) U8) (TV (RI 1))) (TV (RC 1)));
   SAssert (TEq (TCodecFrom (bitflag_codec (Bitflag.mkREnum VisPrivate "Flags" (Some (Parser.RPath "u8")) [] [Bitflag.mkRVariant "Unknown" ["base"] (Some "0") Bitflag.FLit 0; Bitflag.mkRVariant "A" [] (Some "1") Bitflag.FLit 1; Bitflag.mkRVariant "B" [] (Some "2") Bitflag.FLit 2]) U8) (TV (RI 2))) (TV (RC 2)));
   SAssert (TEq (TCodecInto (bitflag_codec (Bitflag.mkREnum VisPrivate "Flags" (Some (Parser.RPath "u8")) [] [Bitflag.mkRVariant "Unknown" ["base"] (Some "0") Bitflag.FLit 0; Bitflag.mkRVariant "A" [] (Some "1") Bitflag.FLit 1; Bitflag.mkRVariant "B" [] (Some "2") Bitflag.FLit 2]) U8) (TV (RC 1))) (TV (RI 1)))]) = true.
Proof. vm_compute. reflexivity. Qed.

(* lib_tests.rs:5301 *)
Example bitflag_user_attributes_on_enum : is_passed (run_test
  []
  [SLetT "a" (TV (RC 1));
   SLetT "b" (TVar "a");
   SAssert (TEq (TVar "a") (TVar "b"));
   SAssert (TEq (TCodecFrom (bitflag_codec (Bitflag.mkREnum VisPrivate "Flags" (Some (Parser.RPath "u8")) [] [Bitflag.mkRVariant "Unknown" ["base"] (Some "0") Bitflag.FLit 0; Bitflag.mkRVariant "A" [] (Some "1") Bitflag.FLit 1; Bitflag.mkRVariant "B" [] (Some "2") Bitflag.FLit 2]) U8) (TV (RI 1))) (TV (RC 1)));
   SAssert (TEq (TCodecInto (bitflag_codec (Bitflag.mkREnum VisPrivate "Flags" (Some (Parser.RPath "u8")) [] [Bitflag.mkRVariant "Unknown" ["base"] (Some "0") Bitflag.FLit 0; Bitflag.mkRVariant "A" [] (Some "1") Bitflag.FLit 1; Bitflag.mkRVariant "B" [] (Some "2") Bitflag.FLit 2]) U8) (TV (RC 1))) (TV (RI 1)))]) = true.
Proof. vm_compute. reflexivity. Qed.

(* lib_tests.rs:5318 *)
Example bitfield_with_bitflag_field_getter_setter : is_passed (run_test
  [(mkUnit "Packet" (Parser.mkRDecl true VisPrivate "Packet" (Some (Parser.RPath "u16")) []
     [Parser.mkRField "status" VisPrivate (Parser.AList (Parser.RBits 8 "") []) (Parser.RPath "Status") (PInt 0) (bitflag_codec (Bitflag.mkREnum VisPrivate "Status" (Some (Parser.RPath "u8")) [] [Bitflag.mkRVariant "Idle" ["base"] (Some "0") Bitflag.FLit 0; Bitflag.mkRVariant "Active" [] (Some "1") Bitflag.FLit 1; Bitflag.mkRVariant "Paused" [] (Some "2") Bitflag.FLit 2]) U8);
      Parser.mkRField "flags" VisPrivate Parser.ANone (Parser.RPath "u8") (PInt 0) id_codec]) [])]
  [SLetT "packet" (TStat "Packet" "new" []);
   SDo (TMeth "Packet" (TVar "packet") "set_status" [(TV (RC 1))]);
   SDo (TMeth "Packet" (TVar "packet") "set_flags" [(TV (RI 171))]);
   SAssert (TEq (TMeth "Packet" (TVar "packet") "status" []) (TV (RC 1)));
   SAssert (TEq (TMeth "Packet" (TVar "packet") "flags" []) (TV (RI 171)))]) = true.
Proof. vm_compute. reflexivity. Qed.

(* lib_tests.rs:5343 *)
Example bitfield_with_bitflag_field_from_into_bits : is_passed (run_test
  [(mkUnit "Register" (Parser.mkRDecl true VisPrivate "Register" (Some (Parser.RPath "u16")) []
     [Parser.mkRField "mode" VisPrivate (Parser.AList (Parser.RBits 8 "") []) (Parser.RPath "Mode") (PInt 0) (bitflag_codec (Bitflag.mkREnum VisPrivate "Mode" (Some (Parser.RPath "u8")) [] [Bitflag.mkRVariant "Off" ["base"] (Some "0") Bitflag.FLit 0; Bitflag.mkRVariant "Read" [] (Some "1") Bitflag.FLit 1; Bitflag.mkRVariant "Write" [] (Some "2") Bitflag.FLit 2; Bitflag.mkRVariant "ReadWrite" [] (Some "3") Bitflag.FLit 3]) U8);
      Parser.mkRField "value" VisPrivate Parser.ANone (Parser.RPath "u8") (PInt 0) id_codec]) [])]
  [SLetT "raw" (TMeth "Register" (TBuild "Register" "build" [(TBuild "Register" "with_value" [(TBuild "Register" "with_mode" [(TBuild "Register" "new" []); (TV (RC 2))]); (TV (RI 66))])]) "into_bits" []);
   SLetT "recovered" (TStat "Register" "from_bits" [(TVar "raw")]);
   SAssert (TEq (TMeth "Register" (TVar "recovered") "mode" []) (TV (RC 2)));
   SAssert (TEq (TMeth "Register" (TVar "recovered") "value" []) (TV (RI 66)))]) = true.
Proof. vm_compute. reflexivity. Qed.

(* lib_tests.rs:5370 *)
Example bitfield_with_multiple_bitflag_fields : is_passed (run_test
  [(mkUnit "Command" (Parser.mkRDecl true VisPrivate "Command" (Some (Parser.RPath "u16")) []
     [Parser.mkRField "direction" VisPrivate (Parser.AList (Parser.RBits 8 "") []) (Parser.RPath "Direction") (PInt 0) (bitflag_codec (Bitflag.mkREnum VisPrivate "Direction" (Some (Parser.RPath "u8")) [] [Bitflag.mkRVariant "None" ["base"] (Some "0") Bitflag.FLit 0; Bitflag.mkRVariant "North" [] (Some "1") Bitflag.FLit 1; Bitflag.mkRVariant "South" [] (Some "2") Bitflag.FLit 2; Bitflag.mkRVariant "East" [] (Some "3") Bitflag.FLit 3; Bitflag.mkRVariant "West" [] (Some "4") Bitflag.FLit 4]) U8);
      Parser.mkRField "speed" VisPrivate (Parser.AList (Parser.RBits 8 "") []) (Parser.RPath "Speed") (PInt 0) (bitflag_codec (Bitflag.mkREnum VisPrivate "Speed" (Some (Parser.RPath "u8")) [] [Bitflag.mkRVariant "Stop" ["base"] (Some "0") Bitflag.FLit 0; Bitflag.mkRVariant "Slow" [] (Some "1") Bitflag.FLit 1; Bitflag.mkRVariant "Fast" [] (Some "2") Bitflag.FLit 2]) U8)]) [])]
  [SLetT "cmd" (TBuild "Command" "build" [(TBuild "Command" "with_speed" [(TBuild "Command" "with_direction" [(TBuild "Command" "new" []); (TV (RC 3))]); (TV (RC 2))])]);
   SAssert (TEq (TMeth "Command" (TVar "cmd") "direction" []) (TV (RC 3)));
   SAssert (TEq (TMeth "Command" (TVar "cmd") "speed" []) (TV (RC 2)));
   SLetT "raw" (TMeth "Command" (TVar "cmd") "into_bits" []);
   SLetT "recovered" (TStat "Command" "from_bits" [(TVar "raw")]);
   SAssert (TEq (TMeth "Command" (TVar "recovered") "direction" []) (TV (RC 3)));
   SAssert (TEq (TMeth "Command" (TVar "recovered") "speed" []) (TV (RC 2)))]) = true.
Proof. vm_compute. reflexivity. Qed.

(* lib_tests.rs:5412 *)
Example bitfield_with_bitflag_field_default_value : is_passed (run_test
  [(mkUnit "Control" (Parser.mkRDecl true VisPrivate "Control" (Some (Parser.RPath "u16")) []
     [Parser.mkRField "state" VisPrivate (Parser.AList (Parser.RBits 8 "") [("default", "State::Ready")]) (Parser.RPath "State") (PInt 0) (bitflag_codec (Bitflag.mkREnum VisPrivate "State" (Some (Parser.RPath "u8")) [] [Bitflag.mkRVariant "Unknown" ["base"] (Some "0") Bitflag.FLit 0; Bitflag.mkRVariant "Ready" [] (Some "1") Bitflag.FLit 1; Bitflag.mkRVariant "Busy" [] (Some "2") Bitflag.FLit 2]) U8);
      Parser.mkRField "config" VisPrivate Parser.ANone (Parser.RPath "u8") (PInt 0) id_codec]) [("state", (EUser (TUser "state") (RC 1)))])]
  [SLetT "ctrl" (TStat "Control" "new" []);
   SAssert (TEq (TMeth "Control" (TVar "ctrl") "state" []) (TV (RC 1)));
   SAssert (TEq (TMeth "Control" (TVar "ctrl") "config" []) (TV (RI 0)))]) = true.
Proof. vm_compute. reflexivity. Qed.

(* lib_tests.rs:5435 *)
Example bitfield_with_bitflag_field_partial_bits : is_passed (run_test
  [(mkUnit "Packed" (Parser.mkRDecl true VisPrivate "Packed" (Some (Parser.RPath "u8")) []
     [Parser.mkRField "a" VisPrivate (Parser.AList (Parser.RBits 2 "") []) (Parser.RPath "Flag") (PInt 0) (bitflag_codec (Bitflag.mkREnum VisPrivate "Flag" (Some (Parser.RPath "u8")) [] [Bitflag.mkRVariant "Off" ["base"] (Some "0") Bitflag.FLit 0; Bitflag.mkRVariant "On" [] (Some "1") Bitflag.FLit 1; Bitflag.mkRVariant "Pending" [] (Some "2") Bitflag.FLit 2]) U8);
      Parser.mkRField "b" VisPrivate (Parser.AList (Parser.RBits 2 "") []) (Parser.RPath "Flag") (PInt 0) (bitflag_codec (Bitflag.mkREnum VisPrivate "Flag" (Some (Parser.RPath "u8")) [] [Bitflag.mkRVariant "Off" ["base"] (Some "0") Bitflag.FLit 0; Bitflag.mkRVariant "On" [] (Some "1") Bitflag.FLit 1; Bitflag.mkRVariant "Pending" [] (Some "2") Bitflag.FLit 2]) U8);
      Parser.mkRField "rest" VisPrivate (Parser.AList (Parser.RBits 4 "") []) (Parser.RPath "u8") (PInt 0) id_codec]) [])]
  [SLetT "p" (TBuild "Packed" "build" [(TBuild "Packed" "with_rest" [(TBuild "Packed" "with_b" [(TBuild "Packed" "with_a" [(TBuild "Packed" "new" []); (TV (RC 1))]); (TV (RC 2))]); (TV (RI 15))])]);
   SAssert (TEq (TMeth "Packed" (TVar "p") "a" []) (TV (RC 1)));
   SAssert (TEq (TMeth "Packed" (TVar "p") "b" []) (TV (RC 2)));
   SAssert (TEq (TMeth "Packed" (TVar "p") "rest" []) (TV (RI 15)));
   SLetT "raw" (TMeth "Packed" (TVar "p") "into_bits" []);
   SLetT "recovered" (TStat "Packed" "from_bits" [(TVar "raw")]);
   SAssert (TEq (TMeth "Packed" (TVar "recovered") "a" []) (TV (RC 1)));
   SAssert (TEq (TMeth "Packed" (TVar "recovered") "b" []) (TV (RC 2)));
   SAssert (TEq (TMeth "Packed" (TVar "recovered") "rest" []) (TV (RI 15)))]) = true.
Proof. vm_compute. reflexivity. Qed.

(* lib_tests.rs:5469 *)
Example bitfield_with_bitflag_field_unknown_bits_map_to_base : is_passed (run_test
  [(mkUnit "Task" (Parser.mkRDecl true VisPrivate "Task" (Some (Parser.RPath "u16")) []
     [Parser.mkRField "priority" VisPrivate (Parser.AList (Parser.RBits 8 "") []) (Parser.RPath "Priority") (PInt 0) (bitflag_codec (Bitflag.mkREnum VisPrivate "Priority" (Some (Parser.RPath "u8")) [] [Bitflag.mkRVariant "Low" ["base"] (Some "0") Bitflag.FLit 0; Bitflag.mkRVariant "Medium" [] (Some "1") Bitflag.FLit 1; Bitflag.mkRVariant "High" [] (Some "2") Bitflag.FLit 2]) U8);
      Parser.mkRField "id" VisPrivate Parser.ANone (Parser.RPath "u8") (PInt 0) id_codec]) [])]
  [SLetT "raw" (TNum Z.lor (TMeth "Task" (TBuild "Task" "build" [(TBuild "Task" "with_id" [(TBuild "Task" "new" []); (TV (RI 16))])]) "into_bits" []) (TV (RI 255)));
   SLetT "task" (TStat "Task" "from_bits" [(TVar "raw")]);
   SAssert (TEq (TMeth "Task" (TVar "task") "priority" []) (TV (RC 0)));
   SAssert (TEq (TMeth "Task" (TVar "task") "id" []) (TV (RI 16)))]) = true.
Proof. vm_compute. reflexivity. Qed.

(* lib_tests.rs:5494 *)
Example bitfield_with_bitflag_and_primitive_fields_round_trip : is_passed (run_test
  [(mkUnit "Frame" (Parser.mkRDecl true VisPrivate "Frame" (Some (Parser.RPath "u32")) []
     [Parser.mkRField "protocol" VisPrivate (Parser.AList (Parser.RBits 8 "") []) (Parser.RPath "Protocol") (PInt 0) (bitflag_codec (Bitflag.mkREnum VisPrivate "Protocol" (Some (Parser.RPath "u8")) [] [Bitflag.mkRVariant "Unknown" ["base"] (Some "0") Bitflag.FLit 0; Bitflag.mkRVariant "Uart" [] (Some "1") Bitflag.FLit 1; Bitflag.mkRVariant "Spi" [] (Some "2") Bitflag.FLit 2; Bitflag.mkRVariant "I2c" [] (Some "3") Bitflag.FLit 3]) U8);
      Parser.mkRField "address" VisPrivate Parser.ANone (Parser.RPath "u8") (PInt 0) id_codec;
      Parser.mkRField "length" VisPrivate Parser.ANone (Parser.RPath "u8") (PInt 0) id_codec;
      Parser.mkRField "checksum" VisPrivate Parser.ANone (Parser.RPath "u8") (PInt 0) id_codec]) [])]
  [SLetT "frame" (TBuild "Frame" "build" [(TBuild "Frame" "with_checksum" [(TBuild "Frame" "with_length" [(TBuild "Frame" "with_address" [(TBuild "Frame" "with_protocol" [(TBuild "Frame" "new" []); (TV (RC 2))]); (TV (RI 18))]); (TV (RI 8))]); (TV (RI 171))])]);
   SAssert (TEq (TMeth "Frame" (TVar "frame") "protocol" []) (TV (RC 2)));
   SAssert (TEq (TMeth "Frame" (TVar "frame") "address" []) (TV (RI 18)));
   SAssert (TEq (TMeth "Frame" (TVar "frame") "length" []) (TV (RI 8)));
   SAssert (TEq (TMeth "Frame" (TVar "frame") "checksum" []) (TV (RI 171)));
   SLetT "raw" (TMeth "Frame" (TVar "frame") "into_bits" []);
   SLetT "recovered" (TStat "Frame" "from_bits" [(TVar "raw")]);
   SAssert (TEq (TMeth "Frame" (TVar "recovered") "protocol" []) (TV (RC 2)));
   SAssert (TEq (TMeth "Frame" (TVar "recovered") "address" []) (TV (RI 18)));
   SAssert (TEq (TMeth "Frame" (TVar "recovered") "length" []) (TV (RI 8)));
   SAssert (TEq (TMeth "Frame" (TVar "recovered") "checksum" []) (TV (RI 171)))]) = true.
Proof. vm_compute. reflexivity. Qed.

(* lib_tests.rs:5535 *)
Example bitfield_with_bitflag_field_from_traits : is_passed (run_test
  [(mkUnit "Config" (Parser.mkRDecl true VisPrivate "Config" (Some (Parser.RPath "u16")) [("from_traits", "true")]
     [Parser.mkRField "channel" VisPrivate (Parser.AList (Parser.RBits 8 "") []) (Parser.RPath "Channel") (PInt 0) (bitflag_codec (Bitflag.mkREnum VisPrivate "Channel" (Some (Parser.RPath "u8")) [] [Bitflag.mkRVariant "None" ["base"] (Some "0") Bitflag.FLit 0; Bitflag.mkRVariant "Ch1" [] (Some "1") Bitflag.FLit 1; Bitflag.mkRVariant "Ch2" [] (Some "2") Bitflag.FLit 2; Bitflag.mkRVariant "Ch3" [] (Some "3") Bitflag.FLit 3]) U8);
      Parser.mkRField "gain" VisPrivate Parser.ANone (Parser.RPath "u8") (PInt 0) id_codec]) [])]
  [SLetT "cfg" (TFrom "Config" (TV (RI 769)));
   SAssert (TEq (TMeth "Config" (TVar "cfg") "channel" []) (TV (RC 1)));
   SAssert (TEq (TMeth "Config" (TVar "cfg") "gain" []) (TV (RI 3)));
   SLetT "raw" (TInto "Config" (TBuild "Config" "build" [(TBuild "Config" "with_gain" [(TBuild "Config" "with_channel" [(TBuild "Config" "new" []); (TV (RC 3))]); (TV (RI 7))])]));
   SAssert (TEq (TVar "raw") (TV (RI 1795)))]) = true.
Proof. vm_compute. reflexivity. Qed.

(* lib_tests.rs:5563 *)
Example bitfield_force_panic_disabled : is_passed (run_test
  [(mkUnit "Bitfield" (Parser.mkRDecl true VisPrivate "Bitfield" (Some (Parser.RPath "u8")) [("force_panic", "false")]
     [Parser.mkRField "a" VisPrivate Parser.ANone (Parser.RPath "u8") (PInt 0) id_codec]) [])]
  [SDo (TStat "Bitfield" "new" [])]) = true.
Proof. vm_compute. reflexivity. Qed.

(* lib_tests.rs:5573 *)
Example bitfield_field_bits_leading_comma : is_passed (run_test
  [(mkUnit "Bitfield" (Parser.mkRDecl true VisPrivate "Bitfield" (Some (Parser.RPath "u16")) []
     [Parser.mkRField "a" VisPrivate (Parser.AList (Parser.RBits 7 "") []) (Parser.RPath "u8") (PInt 0) id_codec;
      Parser.mkRField "b" VisPrivate (Parser.AList (Parser.RBits 9 "") []) (Parser.RPath "u16") (PInt 0) id_codec]) [])]
  [SLetT "bf" (TStat "Bitfield" "new" []);
   SDo (TMeth "Bitfield" (TVar "bf") "set_a" [(TV (RI 127))]);
   SAssert (TEq (TMeth "Bitfield" (TVar "bf") "a" []) (TV (RI 127)))]) = true.
Proof. vm_compute. reflexivity. Qed.

(* lib_tests.rs:5588 *)
Example bitfield_field_bits_trailing_comma : is_passed (run_test
  [(mkUnit "Bitfield" (Parser.mkRDecl true VisPrivate "Bitfield" (Some (Parser.RPath "u8")) []
     [Parser.mkRField "a" VisPrivate (Parser.AList (Parser.RBits 7 "") []) (Parser.RPath "u8") (PInt 0) id_codec;
      Parser.mkRField "b" VisPrivate Parser.ANone (Parser.RPath "bool") (PInt 0) id_codec]) [])]
  [SLetT "bf" (TStat "Bitfield" "new" []);
   SDo (TMeth "Bitfield" (TVar "bf") "set_a" [(TV (RI 127))]);
   SAssert (TEq (TMeth "Bitfield" (TVar "bf") "a" []) (TV (RI 127)))]) = true.
Proof. vm_compute. reflexivity. Qed.

(* lib_tests.rs:5602 *)
Example bitflag_derive_copy_auto_derives_copy_and_clone : is_passed (run_test
  []
  [SLetT "a" (TV (RC 1));
   SLetT "b" (TVar "a");
   SAssert (TEq (TVar "a") (TVar "b"));
   SLetT "c" (TVar "a");
   SAssert (TEq (TVar "a") (TVar "c"))]) = true.
Proof. vm_compute. reflexivity. Qed.

(* lib_tests.rs:5621 *)
Example bitflag_derive_copy_inline_opt_out : is_passed (run_test
  []
  [SLetT "a" (TV (RC 1));
   SAssert (TEq (TCodecFrom (bitflag_codec (Bitflag.mkREnum VisPrivate "NonCopyFlag" (Some (Parser.RPath "u8")) [("copy", "false")] [Bitflag.mkRVariant "Unknown" ["base"] (Some "0") Bitflag.FLit 0; Bitflag.mkRVariant "A" [] (Some "1") Bitflag.FLit 1]) U8) (TV (RI 1))) (TV (RC 1)));
   SAssert (TEq (TCodecInto (bitflag_codec (Bitflag.mkREnum VisPrivate "NonCopyFlag" (Some (Parser.RPath "u8")) [("copy", "false")] [Bitflag.mkRVariant "Unknown" ["base"] (Some "0") Bitflag.FLit 0; Bitflag.mkRVariant "A" [] (Some "1") Bitflag.FLit 1]) U8) (TVar "a")) (TV (RI 1)))]) = true.
Proof. vm_compute. reflexivity. Qed.

(* lib_tests.rs:5636 *)
Example bitflag_derive_copy_inline_opt_in : is_passed (run_test
  []
  [SLetT "a" (TV (RC 1));
   SLetT "b" (TVar "a");
   SAssert (TEq (TVar "a") (TVar "b"))]) = true.
Proof. vm_compute. reflexivity. Qed.

(* lib_tests.rs:5666 *)
Example reserved_fields_always_respect_defaults_when_creating_without_defaults : is_passed (run_test
  [(mkUnit "Bitfield" (Parser.mkRDecl true VisPublic "Bitfield" (Some (Parser.RPath "u32")) []
     [Parser.mkRField "a" VisPrivate (Parser.AList Parser.RNoBits [("default", "0x12")]) (Parser.RPath "u8") (PInt 0) id_codec;
      Parser.mkRField "b" VisPrivate (Parser.AList Parser.RNoBits [("default", "0x34")]) (Parser.RPath "u8") (PInt 0) id_codec;
      Parser.mkRField "c" VisPrivate (Parser.AList Parser.RNoBits [("default", "0x56")]) (Parser.RPath "u8") (PInt 0) id_codec;
      Parser.mkRField "_reserved" VisPrivate (Parser.AList Parser.RNoBits [("default", "0x78")]) (Parser.RPath "u8") (PInt 0) id_codec]) [("a", (ELit 18 None)); ("b", (ELit 52 None)); ("c", (ELit 86 None)); ("_reserved", (ELit 120 None))])]
  [SLetT "bf" (TStat "Bitfield" "new_without_defaults" []);
   SAssert (TEq (TMeth "Bitfield" (TVar "bf") "a" []) (TV (RI 0)));
   SAssert (TEq (TMeth "Bitfield" (TVar "bf") "b" []) (TV (RI 0)));
   SAssert (TEq (TMeth "Bitfield" (TVar "bf") "c" []) (TV (RI 0)));
   SAssert (TEq (TMeth "Bitfield" (TVar "bf") "into_bits" []) (TV (RI 2013265920)));
   SLetT "bf" (TBuild "Bitfield" "build" [(TBuild "Bitfield" "new_without_defaults" [])]);
   SAssert (TEq (TMeth "Bitfield" (TVar "bf") "a" []) (TV (RI 0)));
   SAssert (TEq (TMeth "Bitfield" (TVar "bf") "b" []) (TV (RI 0)));
   SAssert (TEq (TMeth "Bitfield" (TVar "bf") "c" []) (TV (RI 0)));
   SAssert (TEq (TMeth "Bitfield" (TVar "bf") "into_bits" []) (TV (RI 2013265920)));
   SLetT "bf" (TStat "Bitfield" "new" []);
   SDo (TMeth "Bitfield" (TVar "bf") "write_bits" [(TV (RI 287454020))]);
   SAssert (TEq (TMeth "Bitfield" (TVar "bf") "a" []) (TV (RI 68)));
   SAssert (TEq (TMeth "Bitfield" (TVar "bf") "b" []) (TV (RI 51)));
   SAssert (TEq (TMeth "Bitfield" (TVar "bf") "c" []) (TV (RI 34)));
   SAssert (TEq (TMeth "Bitfield" (TVar "bf") "into_bits" []) (TV (RI 2015507268)));
   SLetT "bf" (TStat "Bitfield" "new" []);
   SDo (TMeth "Bitfield" (TVar "bf") "write_le_bits" [(TV (RI 287454020))]);
   SAssert (TEq (TMeth "Bitfield" (TVar "bf") "a" []) (TV (RI 17)));
   SAssert (TEq (TMeth "Bitfield" (TVar "bf") "b" []) (TV (RI 34)));
   SAssert (TEq (TMeth "Bitfield" (TVar "bf") "c" []) (TV (RI 51)));
   SAssert (TEq (TMeth "Bitfield" (TVar "bf") "into_bits" []) (TV (RI 2016616977)));
   SLetT "bf" (TStat "Bitfield" "new" []);
   SDo (TMeth "Bitfield" (TVar "bf") "write_be_bits" [(TV (RI 287454020))]);
   SAssert (TEq (TMeth "Bitfield" (TVar "bf") "a" []) (TV (RI 68)));
   SAssert (TEq (TMeth "Bitfield" (TVar "bf") "b" []) (TV (RI 51)));
   SAssert (TEq (TMeth "Bitfield" (TVar "bf") "c" []) (TV (RI 34)));
   SAssert (TEq (TMeth "Bitfield" (TVar "bf") "into_bits" []) (TV (RI 2015507268)));
   SLetT "bf" (TStat "Bitfield" "new" []);
   SDo (TMeth "Bitfield" (TVar "bf") "clear_bits" []);
   SAssert (TEq (TMeth "Bitfield" (TVar "bf") "a" []) (TV (RI 0)));
   SAssert (TEq (TMeth "Bitfield" (TVar "bf") "b" []) (TV (RI 0)));
   SAssert (TEq (TMeth "Bitfield" (TVar "bf") "c" []) (TV (RI 0)));
   SAssert (TEq (TMeth "Bitfield" (TVar "bf") "into_bits" []) (TV (RI 2013265920)))]) = true.
Proof. vm_compute. reflexivity. Qed.

(* lib_tests.rs:5745 *)
Example bitfields_into_bits_unnecessary_cast : is_passed (run_test
  [(mkUnit "TimerControl" (Parser.mkRDecl true VisPrivate "TimerControl" (Some (Parser.RPath "u8")) []
     [Parser.mkRField "__" VisPrivate (Parser.AList (Parser.RBits 5 "") []) (Parser.RPath "u8") (PInt 0) id_codec;
      Parser.mkRField "timer_stop" VisPrivate (Parser.AList (Parser.RBits 1 "") []) (Parser.RPath "TimerStop") (PInt 0) (bitflag_codec (Bitflag.mkREnum VisPrivate "TimerStop" (Some (Parser.RPath "u8")) [] [Bitflag.mkRVariant "Stop" ["base"] (Some "0x0") Bitflag.FLit 0; Bitflag.mkRVariant "Start" [] (Some "0x1") Bitflag.FLit 1]) U8);
      Parser.mkRField "clock_select" VisPrivate (Parser.AList (Parser.RBits 2 "") []) (Parser.RPath "ClockSelect") (PInt 0) (bitflag_codec (Bitflag.mkREnum VisPrivate "ClockSelect" (Some (Parser.RPath "u8")) [] [Bitflag.mkRVariant "_4096" ["base"] (Some "0x00") Bitflag.FLit 0; Bitflag.mkRVariant "_262144" [] (Some "0x01") Bitflag.FLit 1; Bitflag.mkRVariant "_65536" [] (Some "0x02") Bitflag.FLit 2; Bitflag.mkRVariant "_16384" [] (Some "0x03") Bitflag.FLit 3]) U8)]) [])]
  []) = true.
Proof. vm_compute. reflexivity. Qed.

(* lib_array_backed_tests.rs:8 *)
Example bitfield_arguments_ : is_passed (run_test
  [(mkUnit "Bitfield" (Parser.mkRDecl true VisPrivate "Bitfield" (Some (Parser.RArray (Parser.RPath "u8") (Parser.LenLit 1))) [("order", "lsb"); ("from_endian", "little"); ("into_endian", "little"); ("write_endian", "little"); ("new", "true"); ("from_into_bits", "true"); ("from_traits", "true"); ("default", "true"); ("debug", "true"); ("copy", "true"); ("bit_ops", "true"); ("write_bit_ops", "true"); ("clear_bit_ops", "true"); ("set_get_bit_ops", "true"); ("invert_bit_ops", "true"); ("toggle_bit_ops", "true"); ("builder", "true")]
     [Parser.mkRField "a" VisPrivate Parser.ANone (Parser.RPath "u8") (PInt 0) id_codec]) [])]
  [SDo (TStat "Bitfield" "new" []);
   SDo (TBuild "Bitfield" "build" [(TBuild "Bitfield" "new" [])])]) = true.
Proof. vm_compute. reflexivity. Qed.

(* lib_array_backed_tests.rs:38 *)
Example bitfield_arguments_disabled_ : is_passed (run_test
  [(mkUnit "Bitfield" (Parser.mkRDecl true VisPrivate "Bitfield" (Some (Parser.RArray (Parser.RPath "u8") (Parser.LenLit 1))) [("order", "lsb"); ("from_endian", "little"); ("into_endian", "little"); ("write_endian", "little"); ("new", "true"); ("from_into_bits", "false"); ("from_traits", "false"); ("default", "false"); ("debug", "false"); ("copy", "false"); ("bit_ops", "false"); ("write_bit_ops", "false"); ("clear_bit_ops", "false"); ("set_get_bit_ops", "false"); ("invert_bit_ops", "false"); ("toggle_bit_ops", "false"); ("builder", "false")]
     [Parser.mkRField "a" VisPrivate Parser.ANone (Parser.RPath "u8") (PInt 0) id_codec]) [])]
  [SDo (TStat "Bitfield" "new" [])]) = true.
Proof. vm_compute. reflexivity. Qed.

(* lib_array_backed_tests.rs:67 *)
Example bitfield_u8_ : is_passed (run_test
  [(mkUnit "Bitfield" (Parser.mkRDecl true VisPublic "Bitfield" (Some (Parser.RArray (Parser.RPath "u8") (Parser.LenLit 1))) []
     [Parser.mkRField "a" VisPrivate Parser.ANone (Parser.RPath "u8") (PInt 0) id_codec]) [])]
  []) = true.
Proof. vm_compute. reflexivity. Qed.

(* lib_array_backed_tests.rs:75 *)
Example bitfield_u16_ : is_passed (run_test
  [(mkUnit "Bitfield" (Parser.mkRDecl true VisPublic "Bitfield" (Some (Parser.RArray (Parser.RPath "u8") (Parser.LenLit 2))) []
     [Parser.mkRField "a" VisPrivate Parser.ANone (Parser.RPath "u16") (PInt 0) id_codec]) [])]
  []) = true.
Proof. vm_compute. reflexivity. Qed.

(* lib_array_backed_tests.rs:83 *)
Example bitfield_u32_ : is_passed (run_test
  [(mkUnit "Bitfield" (Parser.mkRDecl true VisPublic "Bitfield" (Some (Parser.RArray (Parser.RPath "u8") (Parser.LenLit 4))) []
     [Parser.mkRField "a" VisPrivate Parser.ANone (Parser.RPath "u32") (PInt 0) id_codec]) [])]
  []) = true.
Proof. vm_compute. reflexivity. Qed.

(* lib_array_backed_tests.rs:91 *)
Example bitfield_u64_ : is_passed (run_test
  [(mkUnit "Bitfield" (Parser.mkRDecl true VisPublic "Bitfield" (Some (Parser.RArray (Parser.RPath "u8") (Parser.LenLit 8))) []
     [Parser.mkRField "a" VisPrivate Parser.ANone (Parser.RPath "u64") (PInt 0) id_codec]) [])]
  []) = true.
Proof. vm_compute. reflexivity. Qed.

(* lib_array_backed_tests.rs:99 *)
Example bitfield_u128_ : is_passed (run_test
  [(mkUnit "Bitfield" (Parser.mkRDecl true VisPublic "Bitfield" (Some (Parser.RArray (Parser.RPath "u8") (Parser.LenLit 16))) []
     [Parser.mkRField "a" VisPrivate Parser.ANone (Parser.RPath "u128") (PInt 0) id_codec]) [])]
  []) = true.
Proof. vm_compute. reflexivity. Qed.

(* lib_array_backed_tests.rs:107 *)
Example bitfield_i8_ : is_passed (run_test
  [(mkUnit "Bitfield" (Parser.mkRDecl true VisPublic "Bitfield" (Some (Parser.RArray (Parser.RPath "u8") (Parser.LenLit 1))) []
     [Parser.mkRField "a" VisPrivate Parser.ANone (Parser.RPath "i8") (PInt 0) id_codec]) [])]
  []) = true.
Proof. vm_compute. reflexivity. Qed.

(* lib_array_backed_tests.rs:115 *)
Example bitfield_i8_default_value_ : is_passed (run_test
  [(mkUnit "Bitfield" (Parser.mkRDecl true VisPublic "Bitfield" (Some (Parser.RArray (Parser.RPath "u8") (Parser.LenLit 1))) []
     [Parser.mkRField "a" VisPrivate (Parser.AList Parser.RNoBits [("default", "-1")]) (Parser.RPath "i8") (PInt 0) id_codec]) [("a", (EUn UNeg (ELit 1 None)))])]
  [SLetT "bitfield" (TStat "Bitfield" "new" []);
   SAssert (TEq (TMeth "Bitfield" (TVar "bitfield") "a" []) (TV (RI (-1))))]) = true.
Proof. vm_compute. reflexivity. Qed.

(* lib_array_backed_tests.rs:128 *)
Example bitfield_i8_default_value_binary_ : is_passed (run_test
  [(mkUnit "Bitfield" (Parser.mkRDecl true VisPublic "Bitfield" (Some (Parser.RArray (Parser.RPath "u8") (Parser.LenLit 1))) []
     [Parser.mkRField "a" VisPrivate (Parser.AList Parser.RNoBits [("default", "-0b101")]) (Parser.RPath "i8") (PInt 0) id_codec]) [("a", (EUn UNeg (ELit 5 None)))])]
  [SLetT "bitfield" (TStat "Bitfield" "new" []);
   SAssert (TEq (TMeth "Bitfield" (TVar "bitfield") "a" []) (TV (RI (-5))))]) = true.
Proof. vm_compute. reflexivity. Qed.

(* lib_array_backed_tests.rs:141 *)
Example bitfield_i8_default_value_hex_ : is_passed (run_test
  [(mkUnit "Bitfield" (Parser.mkRDecl true VisPublic "Bitfield" (Some (Parser.RArray (Parser.RPath "u8") (Parser.LenLit 1))) []
     [Parser.mkRField "a" VisPrivate (Parser.AList Parser.RNoBits [("default", "-0x5")]) (Parser.RPath "i8") (PInt 0) id_codec]) [("a", (EUn UNeg (ELit 5 None)))])]
  [SLetT "bitfield" (TStat "Bitfield" "new" []);
   SAssert (TEq (TMeth "Bitfield" (TVar "bitfield") "a" []) (TV (RI (-5))))]) = true.
Proof. vm_compute. reflexivity. Qed.

(* lib_array_backed_tests.rs:154 *)
Example bitfield_i8_default_value_octal_ : is_passed (run_test
  [(mkUnit "Bitfield" (Parser.mkRDecl true VisPublic "Bitfield" (Some (Parser.RArray (Parser.RPath "u8") (Parser.LenLit 1))) []
     [Parser.mkRField "a" VisPrivate (Parser.AList Parser.RNoBits [("default", "-0o5")]) (Parser.RPath "i8") (PInt 0) id_codec]) [("a", (EUn UNeg (ELit 5 None)))])]
  [SLetT "bitfield" (TStat "Bitfield" "new" []);
   SAssert (TEq (TMeth "Bitfield" (TVar "bitfield") "a" []) (TV (RI (-5))))]) = true.
Proof. vm_compute. reflexivity. Qed.

(* lib_array_backed_tests.rs:167 *)
Example bitfield_field_type_bits_sum_to_type_size_ : is_passed (run_test
  [(mkUnit "Bitfield" (Parser.mkRDecl true VisPublic "Bitfield" (Some (Parser.RArray (Parser.RPath "u8") (Parser.LenLit 4))) []
     [Parser.mkRField "a" VisPrivate Parser.ANone (Parser.RPath "u8") (PInt 0) id_codec;
      Parser.mkRField "b" VisPrivate Parser.ANone (Parser.RPath "u8") (PInt 0) id_codec;
      Parser.mkRField "c" VisPrivate Parser.ANone (Parser.RPath "u8") (PInt 0) id_codec;
      Parser.mkRField "d" VisPrivate Parser.ANone (Parser.RPath "u8") (PInt 0) id_codec]) [])]
  []) = true.
Proof. vm_compute. reflexivity. Qed.

(* lib_array_backed_tests.rs:178 *)
Example bitfield_field_defined_bits_sum_to_type_size_ : is_passed (run_test
  [(mkUnit "Bitfield" (Parser.mkRDecl true VisPublic "Bitfield" (Some (Parser.RArray (Parser.RPath "u8") (Parser.LenLit 4))) []
     [Parser.mkRField "a" VisPrivate Parser.ANone (Parser.RPath "u8") (PInt 0) id_codec;
      Parser.mkRField "b" VisPrivate (Parser.AList (Parser.RBits 7 "") []) (Parser.RPath "u8") (PInt 0) id_codec;
      Parser.mkRField "c" VisPrivate (Parser.AList (Parser.RBits 5 "") []) (Parser.RPath "u8") (PInt 0) id_codec;
      Parser.mkRField "d" VisPrivate (Parser.AList (Parser.RBits 12 "") []) (Parser.RPath "u16") (PInt 0) id_codec]) [])]
  []) = true.
Proof. vm_compute. reflexivity. Qed.

(* lib_array_backed_tests.rs:192 *)
Example bitfield_fields_default_value_ : is_passed (run_test
  [(mkUnit "Bitfield" (Parser.mkRDecl true VisPublic "Bitfield" (Some (Parser.RArray (Parser.RPath "u8") (Parser.LenLit 4))) []
     [Parser.mkRField "a" VisPrivate (Parser.AList Parser.RNoBits [("default", "0")]) (Parser.RPath "u8") (PInt 0) id_codec;
      Parser.mkRField "b" VisPrivate (Parser.AList Parser.RNoBits [("default", "1")]) (Parser.RPath "u8") (PInt 0) id_codec;
      Parser.mkRField "c" VisPrivate (Parser.AList Parser.RNoBits [("default", "2")]) (Parser.RPath "u8") (PInt 0) id_codec;
      Parser.mkRField "d" VisPrivate (Parser.AList Parser.RNoBits [("default", "3")]) (Parser.RPath "u8") (PInt 0) id_codec]) [("a", (ELit 0 None)); ("b", (ELit 1 None)); ("c", (ELit 2 None)); ("d", (ELit 3 None))])]
  [SLetT "bitfield" (TStat "Bitfield" "new" []);
   SAssert (TEq (TMeth "Bitfield" (TVar "bitfield") "a" []) (TV (RI 0)));
   SAssert (TEq (TMeth "Bitfield" (TVar "bitfield") "b" []) (TV (RI 1)));
   SAssert (TEq (TMeth "Bitfield" (TVar "bitfield") "c" []) (TV (RI 2)));
   SAssert (TEq (TMeth "Bitfield" (TVar "bitfield") "d" []) (TV (RI 3)))]) = true.
Proof. vm_compute. reflexivity. Qed.

(* lib_array_backed_tests.rs:213 *)
Example bitfield_field_const_path_default_value_ : is_passed (run_test
  [(mkUnit "Bitfield" (Parser.mkRDecl true VisPublic "Bitfield" (Some (Parser.RArray (Parser.RPath "u8") (Parser.LenLit 2))) []
     [Parser.mkRField "a" VisPrivate (Parser.AList Parser.RNoBits [("default", "MY_DEFAULT_A")]) (Parser.RPath "u8") (PInt 0) id_codec;
      Parser.mkRField "b" VisPrivate (Parser.AList Parser.RNoBits [("default", "MY_DEFAULT_B")]) (Parser.RPath "u8") (PInt 0) id_codec]) [("a", (EUser (TI U8) (RI 7))); ("b", (EUser (TI U8) (RI 42)))])]
  [SLetT "bitfield" (TStat "Bitfield" "new" []);
   SAssert (TEq (TMeth "Bitfield" (TVar "bitfield") "a" []) (TV (RI 7)));
   SAssert (TEq (TMeth "Bitfield" (TVar "bitfield") "b" []) (TV (RI 42)))]) = true.
Proof. vm_compute. reflexivity. Qed.

(* lib_array_backed_tests.rs:231 *)
Example bitfield_fields_integer_identifiers_default_value_ : is_passed (run_test
  [(mkUnit "Bitfield" (Parser.mkRDecl true VisPublic "Bitfield" (Some (Parser.RArray (Parser.RPath "u8") (Parser.LenLit 8))) []
     [Parser.mkRField "a" VisPrivate (Parser.AList (Parser.RBits 5 "") [("default", "10u8")]) (Parser.RPath "u8") (PInt 0) id_codec;
      Parser.mkRField "b" VisPrivate (Parser.AList (Parser.RBits 5 "") [("default", "20u16")]) (Parser.RPath "u16") (PInt 0) id_codec;
      Parser.mkRField "c" VisPrivate (Parser.AList (Parser.RBits 5 "") [("default", "30u32")]) (Parser.RPath "u32") (PInt 0) id_codec;
      Parser.mkRField "d" VisPrivate (Parser.AList (Parser.RBits 6 "") [("default", "40u64")]) (Parser.RPath "u64") (PInt 0) id_codec;
      Parser.mkRField "e" VisPrivate (Parser.AList (Parser.RBits 6 "") [("default", "50u128")]) (Parser.RPath "u128") (PInt 0) id_codec;
      Parser.mkRField "f" VisPrivate (Parser.AList (Parser.RBits 5 "") [("default", "10i8")]) (Parser.RPath "i8") (PInt 0) id_codec;
      Parser.mkRField "g" VisPrivate (Parser.AList (Parser.RBits 8 "") [("default", "20i16")]) (Parser.RPath "i16") (PInt 0) id_codec;
      Parser.mkRField "h" VisPrivate (Parser.AList (Parser.RBits 8 "") [("default", "30i32")]) (Parser.RPath "i32") (PInt 0) id_codec;
      Parser.mkRField "i" VisPrivate (Parser.AList (Parser.RBits 8 "") [("default", "40i64")]) (Parser.RPath "i64") (PInt 0) id_codec;
      Parser.mkRField "j" VisPrivate (Parser.AList (Parser.RBits 8 "") [("default", "50i128")]) (Parser.RPath "i128") (PInt 0) id_codec]) [("a", (ELit 10 (Some (TI U8)))); ("b", (ELit 20 (Some (TI U16)))); ("c", (ELit 30 (Some (TI U32)))); ("d", (ELit 40 (Some (TI U64)))); ("e", (ELit 50 (Some (TI U128)))); ("f", (ELit 10 (Some (TI I8)))); ("g", (ELit 20 (Some (TI I16)))); ("h", (ELit 30 (Some (TI I32)))); ("i", (ELit 40 (Some (TI I64)))); ("j", (ELit 50 (Some (TI I128))))])]
  [SLetT "bitfield" (TStat "Bitfield" "new" []);
   SAssert (TEq (TMeth "Bitfield" (TVar "bitfield") "a" []) (TV (RI 10)));
   SAssert (TEq (TMeth "Bitfield" (TVar "bitfield") "b" []) (TV (RI 20)));
   SAssert (TEq (TMeth "Bitfield" (TVar "bitfield") "c" []) (TV (RI 30)));
   SAssert (TEq (TMeth "Bitfield" (TVar "bitfield") "d" []) (TV (RI 40)));
   SAssert (TEq (TMeth "Bitfield" (TVar "bitfield") "e" []) (TV (RI 50)));
   SAssert (TEq (TMeth "Bitfield" (TVar "bitfield") "f" []) (TV (RI 10)));
   SAssert (TEq (TMeth "Bitfield" (TVar "bitfield") "g" []) (TV (RI 20)));
   SAssert (TEq (TMeth "Bitfield" (TVar "bitfield") "h" []) (TV (RI 30)));
   SAssert (TEq (TMeth "Bitfield" (TVar "bitfield") "i" []) (TV (RI 40)));
   SAssert (TEq (TMeth "Bitfield" (TVar "bitfield") "j" []) (TV (RI 50)))]) = true.
Proof. vm_compute. reflexivity. Qed.

(* lib_array_backed_tests.rs:270 *)
Example bitfield_field_boolean_default_value_ : is_passed (run_test
  [(mkUnit "Bitfield" (Parser.mkRDecl true VisPublic "Bitfield" (Some (Parser.RArray (Parser.RPath "u8") (Parser.LenLit 1))) []
     [Parser.mkRField "a" VisPrivate (Parser.AList Parser.RNoBits [("default", "true")]) (Parser.RPath "bool") (PInt 0) id_codec;
      Parser.mkRField "b" VisPrivate (Parser.AList Parser.RNoBits [("default", "false")]) (Parser.RPath "bool") (PInt 0) id_codec;
      Parser.mkRField "c" VisPrivate (Parser.AList Parser.RNoBits [("default", "true")]) (Parser.RPath "bool") (PInt 0) id_codec;
      Parser.mkRField "d" VisPrivate (Parser.AList Parser.RNoBits [("default", "false")]) (Parser.RPath "bool") (PInt 0) id_codec;
      Parser.mkRField "e" VisPrivate (Parser.AList Parser.RNoBits [("default", "true")]) (Parser.RPath "bool") (PInt 0) id_codec;
      Parser.mkRField "f" VisPrivate (Parser.AList Parser.RNoBits [("default", "false")]) (Parser.RPath "bool") (PInt 0) id_codec;
      Parser.mkRField "g" VisPrivate (Parser.AList Parser.RNoBits [("default", "true")]) (Parser.RPath "bool") (PInt 0) id_codec;
      Parser.mkRField "h" VisPrivate (Parser.AList Parser.RNoBits [("default", "false")]) (Parser.RPath "bool") (PInt 0) id_codec]) [("a", (EBool true)); ("b", (EBool false)); ("c", (EBool true)); ("d", (EBool false)); ("e", (EBool true)); ("f", (EBool false)); ("g", (EBool true)); ("h", (EBool false))])]
  [SLetT "bitfield" (TStat "Bitfield" "new" []);
   SAssert (TMeth "Bitfield" (TVar "bitfield") "a" []);
   SAssert (TNot (TMeth "Bitfield" (TVar "bitfield") "b" []));
   SAssert (TMeth "Bitfield" (TVar "bitfield") "c" []);
   SAssert (TNot (TMeth "Bitfield" (TVar "bitfield") "d" []));
   SAssert (TMeth "Bitfield" (TVar "bitfield") "e" []);
   SAssert (TNot (TMeth "Bitfield" (TVar "bitfield") "f" []));
   SAssert (TMeth "Bitfield" (TVar "bitfield") "g" []);
   SAssert (TNot (TMeth "Bitfield" (TVar "bitfield") "h" []))]) = true.
Proof. vm_compute. reflexivity. Qed.

(* lib_array_backed_tests.rs:303 *)
Example bitfield_field_hex_default_value_ : is_passed (run_test
  [(mkUnit "Bitfield" (Parser.mkRDecl true VisPublic "Bitfield" (Some (Parser.RArray (Parser.RPath "u8") (Parser.LenLit 8))) []
     [Parser.mkRField "a" VisPrivate (Parser.AList (Parser.RBits 5 "") [("default", "0x1")]) (Parser.RPath "u8") (PInt 0) id_codec;
      Parser.mkRField "b" VisPrivate (Parser.AList (Parser.RBits 5 "") [("default", "0x2")]) (Parser.RPath "u16") (PInt 0) id_codec;
      Parser.mkRField "c" VisPrivate (Parser.AList (Parser.RBits 5 "") [("default", "0x3")]) (Parser.RPath "u32") (PInt 0) id_codec;
      Parser.mkRField "d" VisPrivate (Parser.AList (Parser.RBits 6 "") [("default", "0x4")]) (Parser.RPath "u64") (PInt 0) id_codec;
      Parser.mkRField "e" VisPrivate (Parser.AList (Parser.RBits 6 "") [("default", "0x5")]) (Parser.RPath "u128") (PInt 0) id_codec;
      Parser.mkRField "f" VisPrivate (Parser.AList (Parser.RBits 5 "") [("default", "0x10")]) (Parser.RPath "i8") (PInt 0) id_codec;
      Parser.mkRField "g" VisPrivate (Parser.AList (Parser.RBits 8 "") [("default", "0xF_F")]) (Parser.RPath "i16") (PInt 0) id_codec;
      Parser.mkRField "h" VisPrivate (Parser.AList (Parser.RBits 8 "") [("default", "0x23")]) (Parser.RPath "i32") (PInt 0) id_codec;
      Parser.mkRField "i" VisPrivate (Parser.AList (Parser.RBits 8 "") [("default", "0x7_F")]) (Parser.RPath "i64") (PInt 0) id_codec;
      Parser.mkRField "j" VisPrivate (Parser.AList (Parser.RBits 8 "") [("default", "0x3F")]) (Parser.RPath "i128") (PInt 0) id_codec]) [("a", (ELit 1 None)); ("b", (ELit 2 None)); ("c", (ELit 3 None)); ("d", (ELit 4 None)); ("e", (ELit 5 None)); ("f", (ELit 16 None)); ("g", (ELit 255 None)); ("h", (ELit 35 None)); ("i", (ELit 127 None)); ("j", (ELit 63 None))])]
  [SLetT "bitfield" (TStat "Bitfield" "new" []);
   SAssert (TEq (TMeth "Bitfield" (TVar "bitfield") "a" []) (TV (RI 1)));
   SAssert (TEq (TMeth "Bitfield" (TVar "bitfield") "b" []) (TV (RI 2)));
   SAssert (TEq (TMeth "Bitfield" (TVar "bitfield") "c" []) (TV (RI 3)));
   SAssert (TEq (TMeth "Bitfield" (TVar "bitfield") "d" []) (TV (RI 4)));
   SAssert (TEq (TMeth "Bitfield" (TVar "bitfield") "e" []) (TV (RI 5)));
   SAssert (TEq (TMeth "Bitfield" (TVar "bitfield") "f" []) (TV (RI (-16))));
   SAssert (TEq (TMeth "Bitfield" (TVar "bitfield") "g" []) (TV (RI (-1))));
   SAssert (TEq (TMeth "Bitfield" (TVar "bitfield") "h" []) (TV (RI 35)));
   SAssert (TEq (TMeth "Bitfield" (TVar "bitfield") "i" []) (TV (RI 127)));
   SAssert (TEq (TMeth "Bitfield" (TVar "bitfield") "j" []) (TV (RI 63)))]) = true.
Proof. vm_compute. reflexivity. Qed.

(* lib_array_backed_tests.rs:342 *)
Example bitfield_field_hex_has_float_identifier_default_value_ : is_passed (run_test
  [(mkUnit "Bitfield" (Parser.mkRDecl true VisPublic "Bitfield" (Some (Parser.RArray (Parser.RPath "u8") (Parser.LenLit 8))) []
     [Parser.mkRField "a" VisPrivate (Parser.AList Parser.RNoBits [("default", "0xF32")]) (Parser.RPath "u32") (PInt 0) id_codec;
      Parser.mkRField "b" VisPrivate (Parser.AList Parser.RNoBits [("default", "0xF64")]) (Parser.RPath "u32") (PInt 0) id_codec]) [("a", (ELit 3890 None)); ("b", (ELit 3940 None))])]
  [SLetT "bitfield" (TStat "Bitfield" "new" []);
   SAssert (TEq (TMeth "Bitfield" (TVar "bitfield") "a" []) (TV (RI 3890)));
   SAssert (TEq (TMeth "Bitfield" (TVar "bitfield") "b" []) (TV (RI 3940)))]) = true.
Proof. vm_compute. reflexivity. Qed.

(* lib_array_backed_tests.rs:357 *)
Example bitfield_field_octal_default_value_ : is_passed (run_test
  [(mkUnit "Bitfield" (Parser.mkRDecl true VisPublic "Bitfield" (Some (Parser.RArray (Parser.RPath "u8") (Parser.LenLit 8))) []
     [Parser.mkRField "a" VisPrivate (Parser.AList (Parser.RBits 5 "") [("default", "0o1")]) (Parser.RPath "u8") (PInt 0) id_codec;
      Parser.mkRField "b" VisPrivate (Parser.AList (Parser.RBits 5 "") [("default", "0o2")]) (Parser.RPath "u16") (PInt 0) id_codec;
      Parser.mkRField "c" VisPrivate (Parser.AList (Parser.RBits 5 "") [("default", "0o3")]) (Parser.RPath "u32") (PInt 0) id_codec;
      Parser.mkRField "d" VisPrivate (Parser.AList (Parser.RBits 6 "") [("default", "0o4")]) (Parser.RPath "u64") (PInt 0) id_codec;
      Parser.mkRField "e" VisPrivate (Parser.AList (Parser.RBits 6 "") [("default", "0o5")]) (Parser.RPath "u128") (PInt 0) id_codec;
      Parser.mkRField "f" VisPrivate (Parser.AList (Parser.RBits 5 "") [("default", "0o6")]) (Parser.RPath "i8") (PInt 0) id_codec;
      Parser.mkRField "g" VisPrivate (Parser.AList (Parser.RBits 8 "") [("default", "0o11")]) (Parser.RPath "i16") (PInt 0) id_codec;
      Parser.mkRField "h" VisPrivate (Parser.AList (Parser.RBits 8 "") [("default", "0o12")]) (Parser.RPath "i32") (PInt 0) id_codec;
      Parser.mkRField "i" VisPrivate (Parser.AList (Parser.RBits 8 "") [("default", "0o1_3")]) (Parser.RPath "i64") (PInt 0) id_codec;
      Parser.mkRField "j" VisPrivate (Parser.AList (Parser.RBits 8 "") [("default", "0o1_4")]) (Parser.RPath "i128") (PInt 0) id_codec]) [("a", (ELit 1 None)); ("b", (ELit 2 None)); ("c", (ELit 3 None)); ("d", (ELit 4 None)); ("e", (ELit 5 None)); ("f", (ELit 6 None)); ("g", (ELit 9 None)); ("h", (ELit 10 None)); ("i", (ELit 11 None)); ("j", (ELit 12 None))])]
  [SLetT "bitfield" (TStat "Bitfield" "new" []);
   SAssert (TEq (TMeth "Bitfield" (TVar "bitfield") "a" []) (TV (RI 1)));
   SAssert (TEq (TMeth "Bitfield" (TVar "bitfield") "b" []) (TV (RI 2)));
   SAssert (TEq (TMeth "Bitfield" (TVar "bitfield") "c" []) (TV (RI 3)));
   SAssert (TEq (TMeth "Bitfield" (TVar "bitfield") "d" []) (TV (RI 4)));
   SAssert (TEq (TMeth "Bitfield" (TVar "bitfield") "e" []) (TV (RI 5)));
   SAssert (TEq (TMeth "Bitfield" (TVar "bitfield") "f" []) (TV (RI 6)));
   SAssert (TEq (TMeth "Bitfield" (TVar "bitfield") "g" []) (TV (RI 9)));
   SAssert (TEq (TMeth "Bitfield" (TVar "bitfield") "h" []) (TV (RI 10)));
   SAssert (TEq (TMeth "Bitfield" (TVar "bitfield") "i" []) (TV (RI 11)));
   SAssert (TEq (TMeth "Bitfield" (TVar "bitfield") "j" []) (TV (RI 12)))]) = true.
Proof. vm_compute. reflexivity. Qed.

(* lib_array_backed_tests.rs:396 *)
Example bitfield_field_binary_default_value_ : is_passed (run_test
  [(mkUnit "Bitfield" (Parser.mkRDecl true VisPublic "Bitfield" (Some (Parser.RArray (Parser.RPath "u8") (Parser.LenLit 8))) []
     [Parser.mkRField "a" VisPrivate (Parser.AList (Parser.RBits 5 "") [("default", "0b01")]) (Parser.RPath "u8") (PInt 0) id_codec;
      Parser.mkRField "b" VisPrivate (Parser.AList (Parser.RBits 5 "") [("default", "0b10")]) (Parser.RPath "u16") (PInt 0) id_codec;
      Parser.mkRField "c" VisPrivate (Parser.AList (Parser.RBits 5 "") [("default", "0b11")]) (Parser.RPath "u32") (PInt 0) id_codec;
      Parser.mkRField "d" VisPrivate (Parser.AList (Parser.RBits 6 "") [("default", "0b100")]) (Parser.RPath "u64") (PInt 0) id_codec;
      Parser.mkRField "e" VisPrivate (Parser.AList (Parser.RBits 6 "") [("default", "0b101")]) (Parser.RPath "u128") (PInt 0) id_codec;
      Parser.mkRField "f" VisPrivate (Parser.AList (Parser.RBits 5 "") [("default", "0b110")]) (Parser.RPath "i8") (PInt 0) id_codec;
      Parser.mkRField "g" VisPrivate (Parser.AList (Parser.RBits 8 "") [("default", "0b111")]) (Parser.RPath "i16") (PInt 0) id_codec;
      Parser.mkRField "h" VisPrivate (Parser.AList (Parser.RBits 8 "") [("default", "0b1000")]) (Parser.RPath "i32") (PInt 0) id_codec;
      Parser.mkRField "i" VisPrivate (Parser.AList (Parser.RBits 8 "") [("default", "0b10_01")]) (Parser.RPath "i64") (PInt 0) id_codec;
      Parser.mkRField "j" VisPrivate (Parser.AList (Parser.RBits 8 "") [("default", "0b10_10")]) (Parser.RPath "i128") (PInt 0) id_codec]) [("a", (ELit 1 None)); ("b", (ELit 2 None)); ("c", (ELit 3 None)); ("d", (ELit 4 None)); ("e", (ELit 5 None)); ("f", (ELit 6 None)); ("g", (ELit 7 None)); ("h", (ELit 8 None)); ("i", (ELit 9 None)); ("j", (ELit 10 None))])]
  [SLetT "bitfield" (TStat "Bitfield" "new" []);
   SAssert (TEq (TMeth "Bitfield" (TVar "bitfield") "a" []) (TV (RI 1)));
   SAssert (TEq (TMeth "Bitfield" (TVar "bitfield") "b" []) (TV (RI 2)));
   SAssert (TEq (TMeth "Bitfield" (TVar "bitfield") "c" []) (TV (RI 3)));
   SAssert (TEq (TMeth "Bitfield" (TVar "bitfield") "d" []) (TV (RI 4)));
   SAssert (TEq (TMeth "Bitfield" (TVar "bitfield") "e" []) (TV (RI 5)));
   SAssert (TEq (TMeth "Bitfield" (TVar "bitfield") "f" []) (TV (RI 6)));
   SAssert (TEq (TMeth "Bitfield" (TVar "bitfield") "g" []) (TV (RI 7)));
   SAssert (TEq (TMeth "Bitfield" (TVar "bitfield") "h" []) (TV (RI 8)));
   SAssert (TEq (TMeth "Bitfield" (TVar "bitfield") "i" []) (TV (RI 9)));
   SAssert (TEq (TMeth "Bitfield" (TVar "bitfield") "j" []) (TV (RI 10)))]) = true.
Proof. vm_compute. reflexivity. Qed.

(* lib_array_backed_tests.rs:435 *)
Example bitfield_field_duplicate_reserved_name_ : is_passed (run_test
  [(mkUnit "Bitfield" (Parser.mkRDecl true VisPublic "Bitfield" (Some (Parser.RArray (Parser.RPath "u8") (Parser.LenLit 2))) []
     [Parser.mkRField "a" VisPrivate Parser.ANone (Parser.RPath "u8") (PInt 0) id_codec;
      Parser.mkRField "__" VisPrivate (Parser.AList (Parser.RBits 4 "") []) (Parser.RPath "u8") (PInt 0) id_codec;
      Parser.mkRField "__" VisPrivate (Parser.AList (Parser.RBits 4 "") []) (Parser.RPath "u8") (PInt 0) id_codec]) [])]
  []) = true.
Proof. vm_compute. reflexivity. Qed.

(* lib_array_backed_tests.rs:447 *)
Example bitfield_field_reserved_ : is_passed (run_test
  [(mkUnit "Bitfield" (Parser.mkRDecl true VisPublic "Bitfield" (Some (Parser.RArray (Parser.RPath "u8") (Parser.LenLit 8))) []
     [Parser.mkRField "a" VisPrivate (Parser.AList (Parser.RBits 4 "") [("default", "0x1")]) (Parser.RPath "u8") (PInt 0) id_codec;
      Parser.mkRField "_reserved" VisPrivate (Parser.AList (Parser.RBits 60 "") []) (Parser.RPath "u64") (PInt 0) id_codec]) [("a", (ELit 1 None))])]
  [SLetT "bitfield" (TStat "Bitfield" "new" []);
   SAssert (TEq (TMeth "Bitfield" (TVar "bitfield") "a" []) (TV (RI 1)))]) = true.
Proof. vm_compute. reflexivity. Qed.

(* lib_array_backed_tests.rs:461 *)
Example bitfield_field_reserved_default_value_ : is_passed (run_test
  [(mkUnit "Bitfield" (Parser.mkRDecl true VisPublic "Bitfield" (Some (Parser.RArray (Parser.RPath "u8") (Parser.LenLit 8))) []
     [Parser.mkRField "a" VisPrivate (Parser.AList (Parser.RBits 4 "") [("default", "0x1")]) (Parser.RPath "u8") (PInt 0) id_codec;
      Parser.mkRField "_reserved" VisPrivate (Parser.AList (Parser.RBits 60 "") [("default", "0xFFFF_FFFF_FFFF")]) (Parser.RPath "u64") (PInt 0) id_codec]) [("a", (ELit 1 None)); ("_reserved", (ELit 281474976710655 None))])]
  [SLetT "bitfield" (TStat "Bitfield" "new" []);
   SAssert (TEq (TMeth "Bitfield" (TVar "bitfield") "a" []) (TV (RI 1)));
   SAssert (TEq (TMeth "Bitfield" (TVar "bitfield") "into_bytes" []) (TV (RA [0; 15; 255; 255; 255; 255; 255; 241])))]) = true.
Proof. vm_compute. reflexivity. Qed.

(* lib_array_backed_tests.rs:476 *)
Example bitfield_field_multiple_attributes_ : is_passed (run_test
  [(mkUnit "Bitfield" (Parser.mkRDecl true VisPublic "Bitfield" (Some (Parser.RArray (Parser.RPath "u8") (Parser.LenLit 8))) []
     [Parser.mkRField "a" VisPrivate (Parser.AList (Parser.RBits 4 "") [("default", "0x1")]) (Parser.RPath "u8") (PInt 0) id_codec;
      Parser.mkRField "_reserved" VisPrivate (Parser.AList (Parser.RBits 60 "") [("default", "0xFFFF_FFFF_FFFF")]) (Parser.RPath "u64") (PInt 0) id_codec]) [("a", (ELit 1 None)); ("_reserved", (ELit 281474976710655 None))])]
  [SLetT "bitfield" (TStat "Bitfield" "new" []);
   SAssert (TEq (TMeth "Bitfield" (TVar "bitfield") "a" []) (TV (RI 1)));
   SAssert (TEq (TMeth "Bitfield" (TVar "bitfield") "into_bytes" []) (TV (RA [0; 15; 255; 255; 255; 255; 255; 241])))]) = true.
Proof. vm_compute. reflexivity. Qed.

(* lib_array_backed_tests.rs:491 *)
Example bitfield_getters_ : is_passed (run_test
  [(mkUnit "Bitfield" (Parser.mkRDecl true VisPublic "Bitfield" (Some (Parser.RArray (Parser.RPath "u8") (Parser.LenLit 4))) []
     [Parser.mkRField "a" VisPrivate (Parser.AList Parser.RNoBits [("default", "0x12")]) (Parser.RPath "u8") (PInt 0) id_codec;
      Parser.mkRField "b" VisPrivate (Parser.AList Parser.RNoBits [("default", "0x34")]) (Parser.RPath "u8") (PInt 0) id_codec;
      Parser.mkRField "c" VisPrivate (Parser.AList Parser.RNoBits [("default", "0x56")]) (Parser.RPath "u8") (PInt 0) id_codec;
      Parser.mkRField "d" VisPrivate (Parser.AList Parser.RNoBits [("default", "0x78")]) (Parser.RPath "u8") (PInt 0) id_codec]) [("a", (ELit 18 None)); ("b", (ELit 52 None)); ("c", (ELit 86 None)); ("d", (ELit 120 None))])]
  [SLetT "bitfield" (TStat "Bitfield" "new" []);
   SAssert (TEq (TMeth "Bitfield" (TVar "bitfield") "a" []) (TV (RI 18)));
   SAssert (TEq (TMeth "Bitfield" (TVar "bitfield") "b" []) (TV (RI 52)));
   SAssert (TEq (TMeth "Bitfield" (TVar "bitfield") "c" []) (TV (RI 86)));
   SAssert (TEq (TMeth "Bitfield" (TVar "bitfield") "d" []) (TV (RI 120)));
   SAssert (TEq (TMeth "Bitfield" (TVar "bitfield") "into_bytes" []) (TV (RA [120; 86; 52; 18])))]) = true.
Proof. vm_compute. reflexivity. Qed.

(* lib_array_backed_tests.rs:513 *)
Example bitfield_signed_values_getters_ : is_passed (run_test
  [(mkUnit "Bitfield" (Parser.mkRDecl true VisPublic "Bitfield" (Some (Parser.RArray (Parser.RPath "u8") (Parser.LenLit 4))) []
     [Parser.mkRField "a" VisPrivate (Parser.AList Parser.RNoBits [("default", "-127")]) (Parser.RPath "i8") (PInt 0) id_codec;
      Parser.mkRField "b" VisPrivate (Parser.AList Parser.RNoBits [("default", "0x7F")]) (Parser.RPath "i8") (PInt 0) id_codec;
      Parser.mkRField "c" VisPrivate (Parser.AList (Parser.RBits 5 "") [("default", "0xF")]) (Parser.RPath "i8") (PInt 0) id_codec;
      Parser.mkRField "d" VisPrivate (Parser.AList (Parser.RBits 5 "") [("default", "0x1F")]) (Parser.RPath "i8") (PInt 0) id_codec;
      Parser.mkRField "_reserved" VisPrivate (Parser.AList (Parser.RBits 6 "") []) (Parser.RPath "u16") (PInt 0) id_codec]) [("a", (EUn UNeg (ELit 127 None))); ("b", (ELit 127 None)); ("c", (ELit 15 None)); ("d", (ELit 31 None))])]
  [SLetT "bitfield" (TStat "Bitfield" "new" []);
   SAssert (TEq (TMeth "Bitfield" (TVar "bitfield") "a" []) (TV (RI (-127))));
   SAssert (TEq (TMeth "Bitfield" (TVar "bitfield") "b" []) (TV (RI 127)));
   SAssert (TEq (TMeth "Bitfield" (TVar "bitfield") "c" []) (TV (RI 15)));
   SAssert (TEq (TMeth "Bitfield" (TVar "bitfield") "d" []) (TV (RI (-1))));
   SAssert (TEq (TMeth "Bitfield" (TVar "bitfield") "into_bytes" []) (TV (RA [3; 239; 127; 129])))]) = true.
Proof. vm_compute. reflexivity. Qed.

(* lib_array_backed_tests.rs:537 *)
Example bitfield_setters_ : is_passed (run_test
  [(mkUnit "Bitfield" (Parser.mkRDecl true VisPublic "Bitfield" (Some (Parser.RArray (Parser.RPath "u8") (Parser.LenLit 4))) []
     [Parser.mkRField "a" VisPrivate (Parser.AList Parser.RNoBits [("default", "0x12")]) (Parser.RPath "u8") (PInt 0) id_codec;
      Parser.mkRField "b" VisPrivate (Parser.AList Parser.RNoBits [("default", "0x34")]) (Parser.RPath "u8") (PInt 0) id_codec;
      Parser.mkRField "c" VisPrivate (Parser.AList Parser.RNoBits [("default", "0x56")]) (Parser.RPath "u8") (PInt 0) id_codec;
      Parser.mkRField "d" VisPrivate (Parser.AList Parser.RNoBits [("default", "0x78")]) (Parser.RPath "u8") (PInt 0) id_codec]) [("a", (ELit 18 None)); ("b", (ELit 52 None)); ("c", (ELit 86 None)); ("d", (ELit 120 None))])]
  [SLetT "bitfield" (TStat "Bitfield" "new" []);
   SDo (TMeth "Bitfield" (TVar "bitfield") "set_a" [(TV (RI 17))]);
   SDo (TMeth "Bitfield" (TVar "bitfield") "set_b" [(TV (RI 34))]);
   SDo (TMeth "Bitfield" (TVar "bitfield") "set_c" [(TV (RI 51))]);
   SDo (TMeth "Bitfield" (TVar "bitfield") "set_d" [(TV (RI 68))]);
   SAssert (TEq (TMeth "Bitfield" (TVar "bitfield") "a" []) (TV (RI 17)));
   SAssert (TEq (TMeth "Bitfield" (TVar "bitfield") "b" []) (TV (RI 34)));
   SAssert (TEq (TMeth "Bitfield" (TVar "bitfield") "c" []) (TV (RI 51)));
   SAssert (TEq (TMeth "Bitfield" (TVar "bitfield") "d" []) (TV (RI 68)));
   SAssert (TEq (TMeth "Bitfield" (TVar "bitfield") "into_bytes" []) (TV (RA [68; 51; 34; 17])))]) = true.
Proof. vm_compute. reflexivity. Qed.

(* lib_array_backed_tests.rs:563 *)
Example bitfield_signed_setters_ : is_passed (run_test
  [(mkUnit "Bitfield" (Parser.mkRDecl true VisPublic "Bitfield" (Some (Parser.RArray (Parser.RPath "u8") (Parser.LenLit 4))) []
     [Parser.mkRField "a" VisPrivate (Parser.AList Parser.RNoBits [("default", "0x12")]) (Parser.RPath "i8") (PInt 0) id_codec;
      Parser.mkRField "b" VisPrivate (Parser.AList Parser.RNoBits [("default", "0x34")]) (Parser.RPath "i8") (PInt 0) id_codec;
      Parser.mkRField "c" VisPrivate (Parser.AList Parser.RNoBits [("default", "0x56")]) (Parser.RPath "i8") (PInt 0) id_codec;
      Parser.mkRField "d" VisPrivate (Parser.AList Parser.RNoBits [("default", "0x78")]) (Parser.RPath "i8") (PInt 0) id_codec]) [("a", (ELit 18 None)); ("b", (ELit 52 None)); ("c", (ELit 86 None)); ("d", (ELit 120 None))])]
  [SLetT "bitfield" (TStat "Bitfield" "new" []);
   SDo (TMeth "Bitfield" (TVar "bitfield") "set_a" [(TV (RI (-1)))]);
   SDo (TMeth "Bitfield" (TVar "bitfield") "set_b" [(TV (RI (-127)))]);
   SDo (TMeth "Bitfield" (TVar "bitfield") "set_c" [(TV (RI (-15)))]);
   SDo (TMeth "Bitfield" (TVar "bitfield") "set_d" [(TV (RI (-44)))]);
   SAssert (TEq (TMeth "Bitfield" (TVar "bitfield") "a" []) (TV (RI (-1))));
   SAssert (TEq (TMeth "Bitfield" (TVar "bitfield") "b" []) (TV (RI (-127))));
   SAssert (TEq (TMeth "Bitfield" (TVar "bitfield") "c" []) (TV (RI (-15))));
   SAssert (TEq (TMeth "Bitfield" (TVar "bitfield") "d" []) (TV (RI (-44))));
   SAssert (TEq (TMeth "Bitfield" (TVar "bitfield") "into_bytes" []) (TV (RA [212; 241; 129; 255])))]) = true.
Proof. vm_compute. reflexivity. Qed.

(* lib_array_backed_tests.rs:589 *)
Example bitfield_checked_setters_ : is_passed (run_test
  [(mkUnit "Bitfield" (Parser.mkRDecl true VisPublic "Bitfield" (Some (Parser.RArray (Parser.RPath "u8") (Parser.LenLit 4))) []
     [Parser.mkRField "a" VisPrivate (Parser.AList Parser.RNoBits [("default", "0x12")]) (Parser.RPath "i8") (PInt 0) id_codec;
      Parser.mkRField "b" VisPrivate (Parser.AList Parser.RNoBits [("default", "0x34")]) (Parser.RPath "u8") (PInt 0) id_codec;
      Parser.mkRField "c" VisPrivate (Parser.AList (Parser.RBits 4 "") [("default", "12")]) (Parser.RPath "u8") (PInt 0) id_codec;
      Parser.mkRField "d" VisPrivate (Parser.AList (Parser.RBits 12 "") [("default", "0x78")]) (Parser.RPath "i16") (PInt 0) id_codec]) [("a", (ELit 18 None)); ("b", (ELit 52 None)); ("c", (ELit 12 None)); ("d", (ELit 120 None))])]
  [SLetT "bitfield" (TStat "Bitfield" "new" []);
   SLetT "a_ok" (TMeth "Bitfield" (TVar "bitfield") "checked_set_a" [(TV (RI (-1)))]);
   SLetT "b_ok" (TMeth "Bitfield" (TVar "bitfield") "checked_set_b" [(TV (RI 255))]);
   SLetT "c_ok" (TMeth "Bitfield" (TVar "bitfield") "checked_set_c" [(TV (RI 255))]);
   SLetT "d_ok" (TMeth "Bitfield" (TVar "bitfield") "checked_set_d" [(TV (RI 8191))]);
   SAssert (TIsOk (TVar "a_ok"));
   SAssert (TIsOk (TVar "b_ok"));
   SAssert (TIsErr (TVar "c_ok"));
   SAssert (TContains (TErr (TVar "c_ok")) (TV (RErr "Value is too big to fit within the field bits.")));
   SAssert (TIsErr (TVar "d_ok"));
   SAssert (TContains (TErr (TVar "d_ok")) (TV (RErr "Value is too big to fit within the field bits.")));
   SAssert (TEq (TMeth "Bitfield" (TVar "bitfield") "a" []) (TV (RI (-1))));
   SAssert (TEq (TMeth "Bitfield" (TVar "bitfield") "b" []) (TV (RI 255)));
   SAssert (TEq (TMeth "Bitfield" (TVar "bitfield") "c" []) (TV (RI 12)));
   SAssert (TEq (TMeth "Bitfield" (TVar "bitfield") "d" []) (TV (RI 120)));
   SAssert (TEq (TMeth "Bitfield" (TVar "bitfield") "into_bytes" []) (TV (RA [7; 140; 255; 255])))]) = true.
Proof. vm_compute. reflexivity. Qed.

(* lib_array_backed_tests.rs:645 *)
Example bitfield_field_enum_custom_type_ : is_passed (run_test
  [(mkUnit "Bitfield" (Parser.mkRDecl true VisPublic "Bitfield" (Some (Parser.RArray (Parser.RPath "u8") (Parser.LenLit 2))) []
     [Parser.mkRField "a" VisPrivate (Parser.AList Parser.RNoBits [("default", "0x12")]) (Parser.RPath "u8") (PInt 0) id_codec;
      Parser.mkRField "nested_field" VisPrivate (Parser.AList (Parser.RBits 8 "") [("default", "CustomType::A")]) (Parser.RPath "CustomType") (PInt 0) (mkCodec U8 (fun bits => (if Z.eqb bits 3 then 0 else (if Z.eqb bits 4 then 1 else (-1)))) U8 (fun self => (if Z.eqb self 0 then 3 else (if Z.eqb self 1 then 4 else (-1)))))]) [("a", (ELit 18 None)); ("nested_field", (EUser (TUser "nested_field") (RC 0)))])]
  [SLetT "bitfield" (TStat "Bitfield" "new" []);
   SAssert (TEq (TMeth "Bitfield" (TVar "bitfield") "into_bytes" []) (TV (RA [3; 18])))]) = true.
Proof. vm_compute. reflexivity. Qed.

(* lib_array_backed_tests.rs:764 *)
Example bitfield_default_ : is_passed (run_test
  [(mkUnit "Bitfield" (Parser.mkRDecl true VisPublic "Bitfield" (Some (Parser.RArray (Parser.RPath "u8") (Parser.LenLit 4))) []
     [Parser.mkRField "a" VisPrivate (Parser.AList Parser.RNoBits [("default", "0x12")]) (Parser.RPath "u8") (PInt 0) id_codec;
      Parser.mkRField "b" VisPrivate (Parser.AList Parser.RNoBits [("default", "0x34")]) (Parser.RPath "u8") (PInt 0) id_codec;
      Parser.mkRField "c" VisPrivate (Parser.AList Parser.RNoBits [("default", "0x56")]) (Parser.RPath "u8") (PInt 0) id_codec;
      Parser.mkRField "d" VisPrivate (Parser.AList (Parser.RBits 8 "") [("default", "CustomType::B")]) (Parser.RPath "CustomType") (PInt 0) (mkCodec U8 (fun bits => (if Z.eqb bits 3 then 0 else (if Z.eqb bits 4 then 1 else 0))) U8 (fun self => (if Z.eqb self 0 then 3 else (if Z.eqb self 1 then 4 else (-1)))))]) [("a", (ELit 18 None)); ("b", (ELit 52 None)); ("c", (ELit 86 None)); ("d", (EUser (TUser "d") (RC 1)))])]
  [SLetT "bitfield" (TDefault "Bitfield");
   SAssert (TEq (TMeth "Bitfield" (TVar "bitfield") "a" []) (TV (RI 18)));
   SAssert (TEq (TMeth "Bitfield" (TVar "bitfield") "b" []) (TV (RI 52)));
   SAssert (TEq (TMeth "Bitfield" (TVar "bitfield") "c" []) (TV (RI 86)));
   SAssert (TEq (TMeth "Bitfield" (TVar "bitfield") "d" []) (TV (RC 1)));
   SAssert (TEq (TMeth "Bitfield" (TVar "bitfield") "into_bytes" []) (TV (RA [4; 86; 52; 18])))]) = true.
Proof. vm_compute. reflexivity. Qed.

(* lib_array_backed_tests.rs:809 *)
Example bitfield_new_ : is_passed (run_test
  [(mkUnit "Bitfield" (Parser.mkRDecl true VisPublic "Bitfield" (Some (Parser.RArray (Parser.RPath "u8") (Parser.LenLit 4))) []
     [Parser.mkRField "a" VisPrivate (Parser.AList Parser.RNoBits [("default", "0x12")]) (Parser.RPath "u8") (PInt 0) id_codec;
      Parser.mkRField "b" VisPrivate (Parser.AList Parser.RNoBits [("default", "0x34")]) (Parser.RPath "u8") (PInt 0) id_codec;
      Parser.mkRField "c" VisPrivate (Parser.AList Parser.RNoBits [("default", "0x56")]) (Parser.RPath "u8") (PInt 0) id_codec;
      Parser.mkRField "d" VisPrivate (Parser.AList (Parser.RBits 8 "") [("default", "CustomType::B")]) (Parser.RPath "CustomType") (PInt 0) (mkCodec U8 (fun bits => (if Z.eqb bits 3 then 0 else (if Z.eqb bits 4 then 1 else 0))) U8 (fun self => (if Z.eqb self 0 then 3 else (if Z.eqb self 1 then 4 else (-1)))))]) [("a", (ELit 18 None)); ("b", (ELit 52 None)); ("c", (ELit 86 None)); ("d", (EUser (TUser "d") (RC 1)))])]
  [SLetT "bitfield" (TStat "Bitfield" "new" []);
   SAssert (TEq (TMeth "Bitfield" (TVar "bitfield") "a" []) (TV (RI 18)));
   SAssert (TEq (TMeth "Bitfield" (TVar "bitfield") "b" []) (TV (RI 52)));
   SAssert (TEq (TMeth "Bitfield" (TVar "bitfield") "c" []) (TV (RI 86)));
   SAssert (TEq (TMeth "Bitfield" (TVar "bitfield") "d" []) (TV (RC 1)));
   SAssert (TEq (TMeth "Bitfield" (TVar "bitfield") "into_bytes" []) (TV (RA [4; 86; 52; 18])))]) = true.
Proof. vm_compute. reflexivity. Qed.

(* lib_array_backed_tests.rs:854 *)
Example bitfield_new_without_defaults_ : is_passed (run_test
  [(mkUnit "Bitfield" (Parser.mkRDecl true VisPublic "Bitfield" (Some (Parser.RArray (Parser.RPath "u8") (Parser.LenLit 4))) []
     [Parser.mkRField "a" VisPrivate (Parser.AList Parser.RNoBits [("default", "0x12")]) (Parser.RPath "u8") (PInt 0) id_codec;
      Parser.mkRField "b" VisPrivate (Parser.AList Parser.RNoBits [("default", "0x34")]) (Parser.RPath "u8") (PInt 0) id_codec;
      Parser.mkRField "c" VisPrivate (Parser.AList Parser.RNoBits [("default", "0x56")]) (Parser.RPath "u8") (PInt 0) id_codec;
      Parser.mkRField "d" VisPrivate (Parser.AList (Parser.RBits 8 "") [("default", "CustomType::B")]) (Parser.RPath "CustomType") (PInt 0) (mkCodec U8 (fun bits => (if Z.eqb bits 3 then 0 else (if Z.eqb bits 4 then 1 else 0))) U8 (fun self => (if Z.eqb self 0 then 3 else (if Z.eqb self 1 then 4 else (-1)))))]) [("a", (ELit 18 None)); ("b", (ELit 52 None)); ("c", (ELit 86 None)); ("d", (EUser (TUser "d") (RC 1)))])]
  [SLetT "bitfield" (TStat "Bitfield" "new_without_defaults" []);
   SAssert (TEq (TMeth "Bitfield" (TVar "bitfield") "a" []) (TV (RI 0)));
   SAssert (TEq (TMeth "Bitfield" (TVar "bitfield") "b" []) (TV (RI 0)));
   SAssert (TEq (TMeth "Bitfield" (TVar "bitfield") "c" []) (TV (RI 0)));
   SAssert (TEq (TMeth "Bitfield" (TVar "bitfield") "d" []) (TV (RC 0)));
   SAssert (TEq (TMeth "Bitfield" (TVar "bitfield") "into_bytes" []) (TV (RA [3; 0; 0; 0])))]) = true.
Proof. vm_compute. reflexivity. Qed.

(* lib_array_backed_tests.rs:899 *)
Example bitfield_builder_new_default_values_ : is_passed (run_test
  [(mkUnit "Bitfield" (Parser.mkRDecl true VisPublic "Bitfield" (Some (Parser.RArray (Parser.RPath "u8") (Parser.LenLit 4))) []
     [Parser.mkRField "a" VisPrivate (Parser.AList Parser.RNoBits [("default", "0x12")]) (Parser.RPath "u8") (PInt 0) id_codec;
      Parser.mkRField "b" VisPrivate (Parser.AList Parser.RNoBits [("default", "0x34")]) (Parser.RPath "u8") (PInt 0) id_codec;
      Parser.mkRField "c" VisPrivate (Parser.AList Parser.RNoBits [("default", "0x56")]) (Parser.RPath "u8") (PInt 0) id_codec;
      Parser.mkRField "d" VisPrivate (Parser.AList Parser.RNoBits [("default", "0x78")]) (Parser.RPath "u8") (PInt 0) id_codec]) [("a", (ELit 18 None)); ("b", (ELit 52 None)); ("c", (ELit 86 None)); ("d", (ELit 120 None))])]
  [SLetT "bitfield" (TBuild "Bitfield" "build" [(TBuild "Bitfield" "new" [])]);
   SAssert (TEq (TMeth "Bitfield" (TVar "bitfield") "a" []) (TV (RI 18)));
   SAssert (TEq (TMeth "Bitfield" (TVar "bitfield") "b" []) (TV (RI 52)));
   SAssert (TEq (TMeth "Bitfield" (TVar "bitfield") "c" []) (TV (RI 86)));
   SAssert (TEq (TMeth "Bitfield" (TVar "bitfield") "d" []) (TV (RI 120)));
   SAssert (TEq (TMeth "Bitfield" (TVar "bitfield") "into_bytes" []) (TV (RA [120; 86; 52; 18])))]) = true.
Proof. vm_compute. reflexivity. Qed.

(* lib_array_backed_tests.rs:921 *)
Example bitfield_builder_new_ : is_passed (run_test
  [(mkUnit "Bitfield" (Parser.mkRDecl true VisPublic "Bitfield" (Some (Parser.RArray (Parser.RPath "u8") (Parser.LenLit 4))) []
     [Parser.mkRField "a" VisPrivate (Parser.AList Parser.RNoBits [("default", "0x12")]) (Parser.RPath "u8") (PInt 0) id_codec;
      Parser.mkRField "b" VisPrivate (Parser.AList Parser.RNoBits [("default", "0x34")]) (Parser.RPath "u8") (PInt 0) id_codec;
      Parser.mkRField "c" VisPrivate (Parser.AList Parser.RNoBits [("default", "0x56")]) (Parser.RPath "u8") (PInt 0) id_codec;
      Parser.mkRField "d" VisPrivate (Parser.AList Parser.RNoBits [("default", "0x78")]) (Parser.RPath "u8") (PInt 0) id_codec]) [("a", (ELit 18 None)); ("b", (ELit 52 None)); ("c", (ELit 86 None)); ("d", (ELit 120 None))])]
  [SLetT "bitfield" (TBuild "Bitfield" "build" [(TBuild "Bitfield" "with_d" [(TBuild "Bitfield" "with_c" [(TBuild "Bitfield" "with_b" [(TBuild "Bitfield" "with_a" [(TBuild "Bitfield" "new" []); (TV (RI 17))]); (TV (RI 34))]); (TV (RI 51))]); (TV (RI 68))])]);
   SAssert (TEq (TMeth "Bitfield" (TVar "bitfield") "a" []) (TV (RI 17)));
   SAssert (TEq (TMeth "Bitfield" (TVar "bitfield") "b" []) (TV (RI 34)));
   SAssert (TEq (TMeth "Bitfield" (TVar "bitfield") "c" []) (TV (RI 51)));
   SAssert (TEq (TMeth "Bitfield" (TVar "bitfield") "d" []) (TV (RI 68)));
   SAssert (TEq (TMeth "Bitfield" (TVar "bitfield") "into_bytes" []) (TV (RA [68; 51; 34; 17])))]) = true.
Proof. vm_compute. reflexivity. Qed.

(* lib_array_backed_tests.rs:944 *)
Example bitfield_new_disabled_builder_new_ : is_passed (run_test
  [(mkUnit "Bitfield" (Parser.mkRDecl true VisPublic "Bitfield" (Some (Parser.RArray (Parser.RPath "u8") (Parser.LenLit 4))) [("new", "false")]
     [Parser.mkRField "a" VisPrivate (Parser.AList Parser.RNoBits [("default", "0x12")]) (Parser.RPath "u8") (PInt 0) id_codec;
      Parser.mkRField "b" VisPrivate (Parser.AList Parser.RNoBits [("default", "0x34")]) (Parser.RPath "u8") (PInt 0) id_codec;
      Parser.mkRField "c" VisPrivate (Parser.AList Parser.RNoBits [("default", "0x56")]) (Parser.RPath "u8") (PInt 0) id_codec;
      Parser.mkRField "d" VisPrivate (Parser.AList Parser.RNoBits [("default", "0x78")]) (Parser.RPath "u8") (PInt 0) id_codec]) [("a", (ELit 18 None)); ("b", (ELit 52 None)); ("c", (ELit 86 None)); ("d", (ELit 120 None))])]
  [SLetT "bitfield" (TBuild "Bitfield" "build" [(TBuild "Bitfield" "with_d" [(TBuild "Bitfield" "with_c" [(TBuild "Bitfield" "with_b" [(TBuild "Bitfield" "with_a" [(TBuild "Bitfield" "new" []); (TV (RI 17))]); (TV (RI 34))]); (TV (RI 51))]); (TV (RI 68))])]);
   SAssert (TEq (TMeth "Bitfield" (TVar "bitfield") "a" []) (TV (RI 17)));
   SAssert (TEq (TMeth "Bitfield" (TVar "bitfield") "b" []) (TV (RI 34)));
   SAssert (TEq (TMeth "Bitfield" (TVar "bitfield") "c" []) (TV (RI 51)));
   SAssert (TEq (TMeth "Bitfield" (TVar "bitfield") "d" []) (TV (RI 68)));
   SAssert (TEq (TMeth "Bitfield" (TVar "bitfield") "into_bytes" []) (TV (RA [68; 51; 34; 17])))]) = true.
Proof. vm_compute. reflexivity. Qed.

(* lib_array_backed_tests.rs:967 *)
Example bitfield_from_bits_ : is_passed (run_test
  [(mkUnit "Bitfield" (Parser.mkRDecl true VisPublic "Bitfield" (Some (Parser.RArray (Parser.RPath "u8") (Parser.LenLit 4))) []
     [Parser.mkRField "a" VisPrivate (Parser.AList Parser.RNoBits [("default", "0x12")]) (Parser.RPath "u8") (PInt 0) id_codec;
      Parser.mkRField "b" VisPrivate (Parser.AList Parser.RNoBits [("default", "0x34")]) (Parser.RPath "u8") (PInt 0) id_codec;
      Parser.mkRField "c" VisPrivate (Parser.AList Parser.RNoBits [("default", "0x56")]) (Parser.RPath "u8") (PInt 0) id_codec;
      Parser.mkRField "d" VisPrivate (Parser.AList Parser.RNoBits [("default", "0x78")]) (Parser.RPath "u8") (PInt 0) id_codec]) [("a", (ELit 18 None)); ("b", (ELit 52 None)); ("c", (ELit 86 None)); ("d", (ELit 120 None))])]
  [SLetT "bitfield" (TStat "Bitfield" "from_bytes" [(TV (RA [17; 34; 51; 68]))]);
   SAssert (TEq (TMeth "Bitfield" (TVar "bitfield") "a" []) (TV (RI 68)));
   SAssert (TEq (TMeth "Bitfield" (TVar "bitfield") "b" []) (TV (RI 51)));
   SAssert (TEq (TMeth "Bitfield" (TVar "bitfield") "c" []) (TV (RI 34)));
   SAssert (TEq (TMeth "Bitfield" (TVar "bitfield") "d" []) (TV (RI 17)))]) = true.
Proof. vm_compute. reflexivity. Qed.

(* lib_array_backed_tests.rs:989 *)
Example bitfield_from_bits_with_defaults_ : is_passed (run_test
  [(mkUnit "Bitfield" (Parser.mkRDecl true VisPublic "Bitfield" (Some (Parser.RArray (Parser.RPath "u8") (Parser.LenLit 4))) []
     [Parser.mkRField "a" VisPrivate Parser.ANone (Parser.RPath "u8") (PInt 0) id_codec;
      Parser.mkRField "b" VisPrivate (Parser.AList Parser.RNoBits [("default", "0x34")]) (Parser.RPath "u8") (PInt 0) id_codec;
      Parser.mkRField "c" VisPrivate Parser.ANone (Parser.RPath "u8") (PInt 0) id_codec;
      Parser.mkRField "d" VisPrivate (Parser.AList Parser.RNoBits [("default", "0x78")]) (Parser.RPath "u8") (PInt 0) id_codec]) [("b", (ELit 52 None)); ("d", (ELit 120 None))])]
  [SLetT "bitfield" (TStat "Bitfield" "from_bytes_with_defaults" [(TV (RA [17; 34; 51; 68]))]);
   SAssert (TEq (TMeth "Bitfield" (TVar "bitfield") "a" []) (TV (RI 68)));
   SAssert (TEq (TMeth "Bitfield" (TVar "bitfield") "b" []) (TV (RI 52)));
   SAssert (TEq (TMeth "Bitfield" (TVar "bitfield") "c" []) (TV (RI 34)));
   SAssert (TEq (TMeth "Bitfield" (TVar "bitfield") "d" []) (TV (RI 120)))]) = true.
Proof. vm_compute. reflexivity. Qed.

(* lib_array_backed_tests.rs:1009 *)
Example bitfield_from_bits_with_defaults_all_fields_have_defaults_ : is_passed (run_test
  [(mkUnit "Bitfield" (Parser.mkRDecl true VisPublic "Bitfield" (Some (Parser.RArray (Parser.RPath "u8") (Parser.LenLit 4))) []
     [Parser.mkRField "a" VisPrivate (Parser.AList Parser.RNoBits [("default", "0x12")]) (Parser.RPath "u8") (PInt 0) id_codec;
      Parser.mkRField "b" VisPrivate (Parser.AList Parser.RNoBits [("default", "0x34")]) (Parser.RPath "u8") (PInt 0) id_codec;
      Parser.mkRField "c" VisPrivate (Parser.AList Parser.RNoBits [("default", "0x56")]) (Parser.RPath "u8") (PInt 0) id_codec;
      Parser.mkRField "d" VisPrivate (Parser.AList Parser.RNoBits [("default", "0x78")]) (Parser.RPath "u8") (PInt 0) id_codec]) [("a", (ELit 18 None)); ("b", (ELit 52 None)); ("c", (ELit 86 None)); ("d", (ELit 120 None))])]
  [SLetT "bitfield" (TStat "Bitfield" "from_bytes_with_defaults" [(TV (RA [17; 34; 51; 68]))]);
   SAssert (TEq (TMeth "Bitfield" (TVar "bitfield") "a" []) (TV (RI 18)));
   SAssert (TEq (TMeth "Bitfield" (TVar "bitfield") "b" []) (TV (RI 52)));
   SAssert (TEq (TMeth "Bitfield" (TVar "bitfield") "c" []) (TV (RI 86)));
   SAssert (TEq (TMeth "Bitfield" (TVar "bitfield") "d" []) (TV (RI 120)))]) = true.
Proof. vm_compute. reflexivity. Qed.

(* lib_array_backed_tests.rs:1031 *)
Example bitfield_from_bits_booleans_ : is_passed (run_test
  [(mkUnit "Bitfield" (Parser.mkRDecl true VisPublic "Bitfield" (Some (Parser.RArray (Parser.RPath "u8") (Parser.LenLit 1))) []
     [Parser.mkRField "a" VisPrivate Parser.ANone (Parser.RPath "bool") (PInt 0) id_codec;
      Parser.mkRField "b" VisPrivate (Parser.AList Parser.RNoBits [("default", "false")]) (Parser.RPath "bool") (PInt 0) id_codec;
      Parser.mkRField "c" VisPrivate Parser.ANone (Parser.RPath "bool") (PInt 0) id_codec;
      Parser.mkRField "d" VisPrivate Parser.ANone (Parser.RPath "bool") (PInt 0) id_codec;
      Parser.mkRField "e" VisPrivate (Parser.AList Parser.RNoBits [("default", "false")]) (Parser.RPath "bool") (PInt 0) id_codec;
      Parser.mkRField "f" VisPrivate Parser.ANone (Parser.RPath "bool") (PInt 0) id_codec;
      Parser.mkRField "g" VisPrivate (Parser.AList Parser.RNoBits [("default", "true")]) (Parser.RPath "bool") (PInt 0) id_codec;
      Parser.mkRField "h" VisPrivate Parser.ANone (Parser.RPath "bool") (PInt 0) id_codec]) [("b", (EBool false)); ("e", (EBool false)); ("g", (EBool true))])]
  [SLetT "bitfield" (TStat "Bitfield" "from_bytes" [(TV (RA [255]))]);
   SAssert (TMeth "Bitfield" (TVar "bitfield") "a" []);
   SAssert (TMeth "Bitfield" (TVar "bitfield") "b" []);
   SAssert (TMeth "Bitfield" (TVar "bitfield") "c" []);
   SAssert (TMeth "Bitfield" (TVar "bitfield") "d" []);
   SAssert (TMeth "Bitfield" (TVar "bitfield") "e" []);
   SAssert (TMeth "Bitfield" (TVar "bitfield") "f" []);
   SAssert (TMeth "Bitfield" (TVar "bitfield") "g" []);
   SAssert (TMeth "Bitfield" (TVar "bitfield") "h" [])]) = true.
Proof. vm_compute. reflexivity. Qed.

(* lib_array_backed_tests.rs:1060 *)
Example bitfield_from_bits_with_defaults_booleans_ : is_passed (run_test
  [(mkUnit "Bitfield" (Parser.mkRDecl true VisPublic "Bitfield" (Some (Parser.RArray (Parser.RPath "u8") (Parser.LenLit 1))) []
     [Parser.mkRField "a" VisPrivate Parser.ANone (Parser.RPath "bool") (PInt 0) id_codec;
      Parser.mkRField "b" VisPrivate (Parser.AList Parser.RNoBits [("default", "false")]) (Parser.RPath "bool") (PInt 0) id_codec;
      Parser.mkRField "c" VisPrivate Parser.ANone (Parser.RPath "bool") (PInt 0) id_codec;
      Parser.mkRField "d" VisPrivate Parser.ANone (Parser.RPath "bool") (PInt 0) id_codec;
      Parser.mkRField "e" VisPrivate (Parser.AList Parser.RNoBits [("default", "false")]) (Parser.RPath "bool") (PInt 0) id_codec;
      Parser.mkRField "f" VisPrivate Parser.ANone (Parser.RPath "bool") (PInt 0) id_codec;
      Parser.mkRField "g" VisPrivate (Parser.AList Parser.RNoBits [("default", "true")]) (Parser.RPath "bool") (PInt 0) id_codec;
      Parser.mkRField "h" VisPrivate Parser.ANone (Parser.RPath "bool") (PInt 0) id_codec]) [("b", (EBool false)); ("e", (EBool false)); ("g", (EBool true))])]
  [SLetT "bitfield" (TStat "Bitfield" "from_bytes_with_defaults" [(TV (RA [255]))]);
   SAssert (TMeth "Bitfield" (TVar "bitfield") "a" []);
   SAssert (TNot (TMeth "Bitfield" (TVar "bitfield") "b" []));
   SAssert (TMeth "Bitfield" (TVar "bitfield") "c" []);
   SAssert (TMeth "Bitfield" (TVar "bitfield") "d" []);
   SAssert (TNot (TMeth "Bitfield" (TVar "bitfield") "e" []));
   SAssert (TMeth "Bitfield" (TVar "bitfield") "f" []);
   SAssert (TMeth "Bitfield" (TVar "bitfield") "g" []);
   SAssert (TMeth "Bitfield" (TVar "bitfield") "h" [])]) = true.
Proof. vm_compute. reflexivity. Qed.

(* lib_array_backed_tests.rs:1089 *)
Example bitfield_lsb_ : is_passed (run_test
  [(mkUnit "Bitfield" (Parser.mkRDecl true VisPublic "Bitfield" (Some (Parser.RArray (Parser.RPath "u8") (Parser.LenLit 4))) [("order", "lsb")]
     [Parser.mkRField "a" VisPrivate (Parser.AList Parser.RNoBits [("default", "0x12")]) (Parser.RPath "u8") (PInt 0) id_codec;
      Parser.mkRField "b" VisPrivate (Parser.AList Parser.RNoBits [("default", "0x34")]) (Parser.RPath "u8") (PInt 0) id_codec;
      Parser.mkRField "c" VisPrivate (Parser.AList Parser.RNoBits [("default", "0x56")]) (Parser.RPath "u8") (PInt 0) id_codec;
      Parser.mkRField "d" VisPrivate (Parser.AList Parser.RNoBits [("default", "0x78")]) (Parser.RPath "u8") (PInt 0) id_codec]) [("a", (ELit 18 None)); ("b", (ELit 52 None)); ("c", (ELit 86 None)); ("d", (ELit 120 None))])]
  [SLetT "bitfield" (TStat "Bitfield" "new" []);
   SAssert (TEq (TMeth "Bitfield" (TVar "bitfield") "a" []) (TV (RI 18)));
   SAssert (TEq (TMeth "Bitfield" (TVar "bitfield") "b" []) (TV (RI 52)));
   SAssert (TEq (TMeth "Bitfield" (TVar "bitfield") "c" []) (TV (RI 86)));
   SAssert (TEq (TMeth "Bitfield" (TVar "bitfield") "d" []) (TV (RI 120)));
   SAssert (TEq (TMeth "Bitfield" (TVar "bitfield") "into_bytes" []) (TV (RA [120; 86; 52; 18])))]) = true.
Proof. vm_compute. reflexivity. Qed.

(* lib_array_backed_tests.rs:1112 *)
Example bitfield_msb_ : is_passed (run_test
  [(mkUnit "Bitfield" (Parser.mkRDecl true VisPublic "Bitfield" (Some (Parser.RArray (Parser.RPath "u8") (Parser.LenLit 4))) [("order", "msb")]
     [Parser.mkRField "a" VisPrivate (Parser.AList Parser.RNoBits [("default", "0x12")]) (Parser.RPath "u8") (PInt 0) id_codec;
      Parser.mkRField "b" VisPrivate (Parser.AList Parser.RNoBits [("default", "0x34")]) (Parser.RPath "u8") (PInt 0) id_codec;
      Parser.mkRField "c" VisPrivate (Parser.AList Parser.RNoBits [("default", "0x56")]) (Parser.RPath "u8") (PInt 0) id_codec;
      Parser.mkRField "d" VisPrivate (Parser.AList Parser.RNoBits [("default", "0x78")]) (Parser.RPath "u8") (PInt 0) id_codec]) [("a", (ELit 18 None)); ("b", (ELit 52 None)); ("c", (ELit 86 None)); ("d", (ELit 120 None))])]
  [SLetT "bitfield" (TStat "Bitfield" "new" []);
   SAssert (TEq (TMeth "Bitfield" (TVar "bitfield") "a" []) (TV (RI 18)));
   SAssert (TEq (TMeth "Bitfield" (TVar "bitfield") "b" []) (TV (RI 52)));
   SAssert (TEq (TMeth "Bitfield" (TVar "bitfield") "c" []) (TV (RI 86)));
   SAssert (TEq (TMeth "Bitfield" (TVar "bitfield") "d" []) (TV (RI 120)));
   SAssert (TEq (TMeth "Bitfield" (TVar "bitfield") "into_bytes" []) (TV (RA [18; 52; 86; 120])))]) = true.
Proof. vm_compute. reflexivity. Qed.

(* lib_array_backed_tests.rs:1135 *)
Example bitfield_lsb_by_default_ : is_passed (run_test
  [(mkUnit "Bitfield" (Parser.mkRDecl true VisPublic "Bitfield" (Some (Parser.RArray (Parser.RPath "u8") (Parser.LenLit 4))) []
     [Parser.mkRField "a" VisPrivate (Parser.AList Parser.RNoBits [("default", "0x12")]) (Parser.RPath "u8") (PInt 0) id_codec;
      Parser.mkRField "b" VisPrivate (Parser.AList Parser.RNoBits [("default", "0x34")]) (Parser.RPath "u8") (PInt 0) id_codec;
      Parser.mkRField "c" VisPrivate (Parser.AList Parser.RNoBits [("default", "0x56")]) (Parser.RPath "u8") (PInt 0) id_codec;
      Parser.mkRField "d" VisPrivate (Parser.AList Parser.RNoBits [("default", "0x78")]) (Parser.RPath "u8") (PInt 0) id_codec]) [("a", (ELit 18 None)); ("b", (ELit 52 None)); ("c", (ELit 86 None)); ("d", (ELit 120 None))])]
  [SLetT "bitfield" (TStat "Bitfield" "new" []);
   SAssert (TEq (TMeth "Bitfield" (TVar "bitfield") "a" []) (TV (RI 18)));
   SAssert (TEq (TMeth "Bitfield" (TVar "bitfield") "b" []) (TV (RI 52)));
   SAssert (TEq (TMeth "Bitfield" (TVar "bitfield") "c" []) (TV (RI 86)));
   SAssert (TEq (TMeth "Bitfield" (TVar "bitfield") "d" []) (TV (RI 120)));
   SAssert (TEq (TMeth "Bitfield" (TVar "bitfield") "into_bytes" []) (TV (RA [120; 86; 52; 18])))]) = true.
Proof. vm_compute. reflexivity. Qed.

(* lib_array_backed_tests.rs:1158 *)
Example bitfield_debug_ : is_passed (run_test
  [(mkUnit "Bitfield" (Parser.mkRDecl true VisPublic "Bitfield" (Some (Parser.RArray (Parser.RPath "u8") (Parser.LenLit 4))) []
     [Parser.mkRField "a" VisPrivate (Parser.AList Parser.RNoBits [("default", "0x12")]) (Parser.RPath "u8") (PInt 0) id_codec;
      Parser.mkRField "b" VisPrivate (Parser.AList Parser.RNoBits [("default", "0x34")]) (Parser.RPath "u8") (PInt 0) id_codec;
      Parser.mkRField "c" VisPrivate (Parser.AList Parser.RNoBits [("default", "0x56")]) (Parser.RPath "u8") (PInt 0) id_codec;
      Parser.mkRField "d" VisPrivate (Parser.AList Parser.RNoBits [("default", "0x78")]) (Parser.RPath "u8") (PInt 0) id_codec]) [("a", (ELit 18 None)); ("b", (ELit 52 None)); ("c", (ELit 86 None)); ("d", (ELit 120 None))])]
  [SLetT "bitfield" (TStat "Bitfield" "new" []);
   SLetT "debug_str" (TFmt "Bitfield" (TVar "bitfield"));
   SAssert (TEq (TVar "debug_str") (TV (RErr "Bitfield { a: 18, b: 52, c: 86, d: 120 }")))]) = true.
Proof. vm_compute. reflexivity. Qed.

(* lib_array_backed_tests.rs:1178 *)
Example bitfield_debug_msb_ : is_passed (run_test
  [(mkUnit "Bitfield" (Parser.mkRDecl true VisPublic "Bitfield" (Some (Parser.RArray (Parser.RPath "u8") (Parser.LenLit 4))) [("order", "msb")]
     [Parser.mkRField "a" VisPrivate (Parser.AList Parser.RNoBits [("default", "0x12")]) (Parser.RPath "u8") (PInt 0) id_codec;
      Parser.mkRField "b" VisPrivate (Parser.AList Parser.RNoBits [("default", "0x34")]) (Parser.RPath "u8") (PInt 0) id_codec;
      Parser.mkRField "c" VisPrivate (Parser.AList Parser.RNoBits [("default", "0x56")]) (Parser.RPath "u8") (PInt 0) id_codec;
      Parser.mkRField "d" VisPrivate (Parser.AList Parser.RNoBits [("default", "0x78")]) (Parser.RPath "u8") (PInt 0) id_codec]) [("a", (ELit 18 None)); ("b", (ELit 52 None)); ("c", (ELit 86 None)); ("d", (ELit 120 None))])]
  [SLetT "bitfield" (TStat "Bitfield" "new" []);
   SLetT "debug_str" (TFmt "Bitfield" (TVar "bitfield"));
   SAssert (TEq (TVar "debug_str") (TV (RErr "Bitfield { a: 18, b: 52, c: 86, d: 120 }")))]) = true.
Proof. vm_compute. reflexivity. Qed.

(* lib_array_backed_tests.rs:1198 *)
Example bitfield_field_access_write_only_can_write_ : is_passed (run_test
  [(mkUnit "Bitfield" (Parser.mkRDecl true VisPublic "Bitfield" (Some (Parser.RArray (Parser.RPath "u8") (Parser.LenLit 4))) []
     [Parser.mkRField "a" VisPrivate (Parser.AList Parser.RNoBits [("default", "0x12"); ("access", "wo")]) (Parser.RPath "u32") (PInt 0) id_codec]) [("a", (ELit 18 None))])]
  [SDo (TMeth "Bitfield" (TStat "Bitfield" "new" []) "set_a" [(TV (RI 52))]);
   SDo (TBuild "Bitfield" "build" [(TBuild "Bitfield" "with_a" [(TBuild "Bitfield" "new" []); (TV (RI 52))])])]) = true.
Proof. vm_compute. reflexivity. Qed.

(* lib_array_backed_tests.rs:1210 *)
Example bitfield_field_access_read_only_can_read_ : is_passed (run_test
  [(mkUnit "Bitfield" (Parser.mkRDecl true VisPublic "Bitfield" (Some (Parser.RArray (Parser.RPath "u8") (Parser.LenLit 4))) []
     [Parser.mkRField "a" VisPrivate (Parser.AList Parser.RNoBits [("default", "0x12"); ("access", "ro")]) (Parser.RPath "u32") (PInt 0) id_codec]) [("a", (ELit 18 None))])]
  [SAssert (TEq (TMeth "Bitfield" (TStat "Bitfield" "new" []) "a" []) (TV (RI 18)));
   SAssert (TEq (TMeth "Bitfield" (TBuild "Bitfield" "build" [(TBuild "Bitfield" "new" [])]) "a" []) (TV (RI 18)))]) = true.
Proof. vm_compute. reflexivity. Qed.

(* lib_array_backed_tests.rs:1222 *)
Example bitfield_from_bits_field_access_read_only_ : is_passed (run_test
  [(mkUnit "Bitfield" (Parser.mkRDecl true VisPrivate "Bitfield" (Some (Parser.RArray (Parser.RPath "u8") (Parser.LenLit 1))) []
     [Parser.mkRField "rw" VisPrivate (Parser.AList (Parser.RBits 4 "") []) (Parser.RPath "u8") (PInt 0) id_codec;
      Parser.mkRField "ro" VisPrivate (Parser.AList (Parser.RBits 4 "") [("access", "ro")]) (Parser.RPath "u8") (PInt 0) id_codec]) [])]
  [SLetT "bar1" (TStat "Bitfield" "from_bytes" [(TV (RA [255]))]);
   SAssert (TEq (TV (RI 15)) (TMeth "Bitfield" (TVar "bar1") "rw" []));
   SAssert (TEq (TV (RI 15)) (TMeth "Bitfield" (TVar "bar1") "ro" []));
   SLetT "bar2" (TBuild "Bitfield" "build" [(TBuild "Bitfield" "with_ro" [(TBuild "Bitfield" "new" []); (TV (RI 15))])]);
   SAssert (TEq (TV (RI 15)) (TMeth "Bitfield" (TVar "bar2") "ro" []))]) = true.
Proof. vm_compute. reflexivity. Qed.

(* lib_array_backed_tests.rs:1240 *)
Example bitfield_from_bits_sets_read_only_fields_ : is_passed (run_test
  [(mkUnit "Bitfield" (Parser.mkRDecl true VisPublic "Bitfield" (Some (Parser.RArray (Parser.RPath "u8") (Parser.LenLit 4))) []
     [Parser.mkRField "rw_field" VisPrivate (Parser.AList Parser.RNoBits [("default", "0x12")]) (Parser.RPath "u8") (PInt 0) id_codec;
      Parser.mkRField "ro_field" VisPrivate (Parser.AList Parser.RNoBits [("default", "0x34"); ("access", "ro")]) (Parser.RPath "u8") (PInt 0) id_codec;
      Parser.mkRField "no_default_field" VisPrivate Parser.ANone (Parser.RPath "u8") (PInt 0) id_codec;
      Parser.mkRField "another_field" VisPrivate (Parser.AList Parser.RNoBits [("default", "0x78")]) (Parser.RPath "u8") (PInt 0) id_codec]) [("rw_field", (ELit 18 None)); ("ro_field", (ELit 52 None)); ("another_field", (ELit 120 None))])]
  [SLetT "bitfield" (TStat "Bitfield" "from_bytes" [(TV (RA [17; 34; 51; 68]))]);
   SAssert (TEq (TMeth "Bitfield" (TVar "bitfield") "rw_field" []) (TV (RI 68)));
   SAssert (TEq (TMeth "Bitfield" (TVar "bitfield") "ro_field" []) (TV (RI 51)));
   SAssert (TEq (TMeth "Bitfield" (TVar "bitfield") "no_default_field" []) (TV (RI 34)));
   SAssert (TEq (TMeth "Bitfield" (TVar "bitfield") "another_field" []) (TV (RI 17)));
   SAssert (TEq (TMeth "Bitfield" (TVar "bitfield") "into_bytes" []) (TV (RA [17; 34; 51; 68])))]) = true.
Proof. vm_compute. reflexivity. Qed.

(* lib_array_backed_tests.rs:1261 *)
Example bitfield_from_bits_sets_read_only_bool_fields_ : is_passed (run_test
  [(mkUnit "Bitfield" (Parser.mkRDecl true VisPublic "Bitfield" (Some (Parser.RArray (Parser.RPath "u8") (Parser.LenLit 2))) []
     [Parser.mkRField "a" VisPrivate (Parser.AList (Parser.RBits 4 "") []) (Parser.RPath "u8") (PInt 0) id_codec;
      Parser.mkRField "ro_bool" VisPrivate (Parser.AList Parser.RNoBits [("access", "ro")]) (Parser.RPath "bool") (PInt 0) id_codec;
      Parser.mkRField "b" VisPrivate (Parser.AList (Parser.RBits 3 "") []) (Parser.RPath "u8") (PInt 0) id_codec;
      Parser.mkRField "c" VisPrivate (Parser.AList (Parser.RBits 8 "") []) (Parser.RPath "u8") (PInt 0) id_codec]) [])]
  [SLetT "bitfield_true" (TStat "Bitfield" "from_bytes" [(TV (RA [255; 255]))]);
   SAssert (TMeth "Bitfield" (TVar "bitfield_true") "ro_bool" []);
   SLetT "bitfield_false" (TStat "Bitfield" "from_bytes" [(TV (RA [255; 239]))]);
   SAssert (TNot (TMeth "Bitfield" (TVar "bitfield_false") "ro_bool" []))]) = true.
Proof. vm_compute. reflexivity. Qed.

(* lib_array_backed_tests.rs:1281 *)
Example bitfield_field_access_na_ : is_passed (run_test
  [(mkUnit "Bitfield" (Parser.mkRDecl true VisPublic "Bitfield" (Some (Parser.RArray (Parser.RPath "u8") (Parser.LenLit 4))) []
     [Parser.mkRField "a" VisPrivate (Parser.AList Parser.RNoBits [("default", "0x12"); ("access", "na")]) (Parser.RPath "u32") (PInt 0) id_codec]) [("a", (ELit 18 None))])]
  [SLetT "bitfield" (TStat "Bitfield" "new" []);
   SAssert (TEq (TMeth "Bitfield" (TVar "bitfield") "into_bytes" []) (TV (RA [0; 0; 0; 18])))]) = true.
Proof. vm_compute. reflexivity. Qed.

(* lib_array_backed_tests.rs:1293 *)
Example bitfield_from_type_ : is_passed (run_test
  [(mkUnit "Bitfield" (Parser.mkRDecl true VisPublic "Bitfield" (Some (Parser.RArray (Parser.RPath "u8") (Parser.LenLit 4))) []
     [Parser.mkRField "a" VisPrivate (Parser.AList Parser.RNoBits [("default", "0x12")]) (Parser.RPath "u8") (PInt 0) id_codec;
      Parser.mkRField "b" VisPrivate (Parser.AList Parser.RNoBits [("default", "0x34")]) (Parser.RPath "u8") (PInt 0) id_codec;
      Parser.mkRField "c" VisPrivate (Parser.AList Parser.RNoBits [("default", "0x56")]) (Parser.RPath "u8") (PInt 0) id_codec;
      Parser.mkRField "d" VisPrivate (Parser.AList Parser.RNoBits [("default", "0x78")]) (Parser.RPath "u8") (PInt 0) id_codec]) [("a", (ELit 18 None)); ("b", (ELit 52 None)); ("c", (ELit 86 None)); ("d", (ELit 120 None))])]
  [SLetT "bitfield" (TFrom "Bitfield" (TV (RA [17; 34; 51; 68])));
   SAssert (TEq (TMeth "Bitfield" (TVar "bitfield") "a" []) (TV (RI 68)));
   SAssert (TEq (TMeth "Bitfield" (TVar "bitfield") "b" []) (TV (RI 51)));
   SAssert (TEq (TMeth "Bitfield" (TVar "bitfield") "c" []) (TV (RI 34)));
   SAssert (TEq (TMeth "Bitfield" (TVar "bitfield") "d" []) (TV (RI 17)));
   SAssert (TEq (TMeth "Bitfield" (TVar "bitfield") "into_bytes" []) (TV (RA [17; 34; 51; 68])))]) = true.
Proof. vm_compute. reflexivity. Qed.

(* lib_array_backed_tests.rs:1316 *)
Example bitfield_into_type_ : is_passed (run_test
  [(mkUnit "Bitfield" (Parser.mkRDecl true VisPublic "Bitfield" (Some (Parser.RArray (Parser.RPath "u8") (Parser.LenLit 4))) []
     [Parser.mkRField "a" VisPrivate (Parser.AList Parser.RNoBits [("default", "0x12")]) (Parser.RPath "u8") (PInt 0) id_codec;
      Parser.mkRField "b" VisPrivate (Parser.AList Parser.RNoBits [("default", "0x34")]) (Parser.RPath "u8") (PInt 0) id_codec;
      Parser.mkRField "c" VisPrivate (Parser.AList Parser.RNoBits [("default", "0x56")]) (Parser.RPath "u8") (PInt 0) id_codec;
      Parser.mkRField "d" VisPrivate (Parser.AList Parser.RNoBits [("default", "0x78")]) (Parser.RPath "u8") (PInt 0) id_codec]) [("a", (ELit 18 None)); ("b", (ELit 52 None)); ("c", (ELit 86 None)); ("d", (ELit 120 None))])]
  [SLetT "bitfield" (TStat "Bitfield" "new" []);
   SLetT "val" (TInto "Bitfield" (TVar "bitfield"));
   SAssert (TEq (TVar "val") (TV (RA [120; 86; 52; 18])))]) = true.
Proof. vm_compute. reflexivity. Qed.

(* lib_array_backed_tests.rs:1336 *)
Example bitfield_from_bits_little_endian_ : is_passed (run_test
  [(mkUnit "Bitfield" (Parser.mkRDecl true VisPublic "Bitfield" (Some (Parser.RArray (Parser.RPath "u8") (Parser.LenLit 4))) [("from_endian", "little")]
     [Parser.mkRField "a" VisPrivate Parser.ANone (Parser.RPath "u8") (PInt 0) id_codec;
      Parser.mkRField "b" VisPrivate Parser.ANone (Parser.RPath "u8") (PInt 0) id_codec;
      Parser.mkRField "c" VisPrivate Parser.ANone (Parser.RPath "u8") (PInt 0) id_codec;
      Parser.mkRField "d" VisPrivate Parser.ANone (Parser.RPath "u8") (PInt 0) id_codec]) [])]
  [SLetT "bitfield" (TStat "Bitfield" "from_bytes" [(TV (RA [68; 51; 34; 17]))]);
   SAssert (TEq (TMeth "Bitfield" (TVar "bitfield") "a" []) (TV (RI 68)));
   SAssert (TEq (TMeth "Bitfield" (TVar "bitfield") "b" []) (TV (RI 51)));
   SAssert (TEq (TMeth "Bitfield" (TVar "bitfield") "c" []) (TV (RI 34)));
   SAssert (TEq (TMeth "Bitfield" (TVar "bitfield") "d" []) (TV (RI 17)));
   SAssert (TEq (TMeth "Bitfield" (TVar "bitfield") "into_bytes" []) (TV (RA [17; 34; 51; 68])))]) = true.
Proof. vm_compute. reflexivity. Qed.

(* lib_array_backed_tests.rs:1355 *)
Example bitfield_from_bits_little_endian_msb_field_order_ : is_passed (run_test
  [(mkUnit "Bitfield" (Parser.mkRDecl true VisPublic "Bitfield" (Some (Parser.RArray (Parser.RPath "u8") (Parser.LenLit 4))) [("from_endian", "little"); ("order", "msb")]
     [Parser.mkRField "a" VisPrivate Parser.ANone (Parser.RPath "u8") (PInt 0) id_codec;
      Parser.mkRField "b" VisPrivate Parser.ANone (Parser.RPath "u8") (PInt 0) id_codec;
      Parser.mkRField "c" VisPrivate Parser.ANone (Parser.RPath "u8") (PInt 0) id_codec;
      Parser.mkRField "d" VisPrivate Parser.ANone (Parser.RPath "u8") (PInt 0) id_codec]) [])]
  [SLetT "bitfield" (TStat "Bitfield" "from_bytes" [(TV (RA [68; 51; 34; 17]))]);
   SAssert (TEq (TMeth "Bitfield" (TVar "bitfield") "d" []) (TV (RI 68)));
   SAssert (TEq (TMeth "Bitfield" (TVar "bitfield") "c" []) (TV (RI 51)));
   SAssert (TEq (TMeth "Bitfield" (TVar "bitfield") "b" []) (TV (RI 34)));
   SAssert (TEq (TMeth "Bitfield" (TVar "bitfield") "a" []) (TV (RI 17)));
   SAssert (TEq (TMeth "Bitfield" (TVar "bitfield") "into_bytes" []) (TV (RA [17; 34; 51; 68])))]) = true.
Proof. vm_compute. reflexivity. Qed.

(* lib_array_backed_tests.rs:1374 *)
Example bitfield_from_bits_big_endian_ : is_passed (run_test
  [(mkUnit "Bitfield" (Parser.mkRDecl true VisPublic "Bitfield" (Some (Parser.RArray (Parser.RPath "u8") (Parser.LenLit 4))) [("from_endian", "big")]
     [Parser.mkRField "a" VisPrivate Parser.ANone (Parser.RPath "u8") (PInt 0) id_codec;
      Parser.mkRField "b" VisPrivate Parser.ANone (Parser.RPath "u8") (PInt 0) id_codec;
      Parser.mkRField "c" VisPrivate Parser.ANone (Parser.RPath "u8") (PInt 0) id_codec;
      Parser.mkRField "d" VisPrivate Parser.ANone (Parser.RPath "u8") (PInt 0) id_codec]) [])]
  [SLetT "bitfield" (TStat "Bitfield" "from_bytes" [(TV (RA [17; 34; 51; 68]))]);
   SAssert (TEq (TMeth "Bitfield" (TVar "bitfield") "a" []) (TV (RI 68)));
   SAssert (TEq (TMeth "Bitfield" (TVar "bitfield") "b" []) (TV (RI 51)));
   SAssert (TEq (TMeth "Bitfield" (TVar "bitfield") "c" []) (TV (RI 34)));
   SAssert (TEq (TMeth "Bitfield" (TVar "bitfield") "d" []) (TV (RI 17)));
   SAssert (TEq (TMeth "Bitfield" (TVar "bitfield") "into_bytes" []) (TV (RA [17; 34; 51; 68])))]) = true.
Proof. vm_compute. reflexivity. Qed.

(* lib_array_backed_tests.rs:1393 *)
Example bitfield_from_bits_big_endian_msb_order_ : is_passed (run_test
  [(mkUnit "Bitfield" (Parser.mkRDecl true VisPublic "Bitfield" (Some (Parser.RArray (Parser.RPath "u8") (Parser.LenLit 4))) [("from_endian", "big"); ("order", "msb")]
     [Parser.mkRField "a" VisPrivate Parser.ANone (Parser.RPath "u8") (PInt 0) id_codec;
      Parser.mkRField "b" VisPrivate Parser.ANone (Parser.RPath "u8") (PInt 0) id_codec;
      Parser.mkRField "c" VisPrivate Parser.ANone (Parser.RPath "u8") (PInt 0) id_codec;
      Parser.mkRField "d" VisPrivate Parser.ANone (Parser.RPath "u8") (PInt 0) id_codec]) [])]
  [SLetT "bitfield" (TStat "Bitfield" "from_bytes" [(TV (RA [17; 34; 51; 68]))]);
   SAssert (TEq (TMeth "Bitfield" (TVar "bitfield") "d" []) (TV (RI 68)));
   SAssert (TEq (TMeth "Bitfield" (TVar "bitfield") "c" []) (TV (RI 51)));
   SAssert (TEq (TMeth "Bitfield" (TVar "bitfield") "b" []) (TV (RI 34)));
   SAssert (TEq (TMeth "Bitfield" (TVar "bitfield") "a" []) (TV (RI 17)));
   SAssert (TEq (TMeth "Bitfield" (TVar "bitfield") "into_bytes" []) (TV (RA [17; 34; 51; 68])))]) = true.
Proof. vm_compute. reflexivity. Qed.

(* lib_array_backed_tests.rs:1412 *)
Example bitfield_into_bits_little_endian_ : is_passed (run_test
  [(mkUnit "Bitfield" (Parser.mkRDecl true VisPublic "Bitfield" (Some (Parser.RArray (Parser.RPath "u8") (Parser.LenLit 4))) [("into_endian", "little")]
     [Parser.mkRField "a" VisPrivate (Parser.AList Parser.RNoBits [("default", "0x44")]) (Parser.RPath "u8") (PInt 0) id_codec;
      Parser.mkRField "b" VisPrivate (Parser.AList Parser.RNoBits [("default", "0x33")]) (Parser.RPath "u8") (PInt 0) id_codec;
      Parser.mkRField "c" VisPrivate (Parser.AList Parser.RNoBits [("default", "0x22")]) (Parser.RPath "u8") (PInt 0) id_codec;
      Parser.mkRField "d" VisPrivate (Parser.AList Parser.RNoBits [("default", "0x11")]) (Parser.RPath "u8") (PInt 0) id_codec]) [("a", (ELit 68 None)); ("b", (ELit 51 None)); ("c", (ELit 34 None)); ("d", (ELit 17 None))])]
  [SLetT "bitfield" (TDefault "Bitfield");
   SAssert (TEq (TMeth "Bitfield" (TVar "bitfield") "into_bytes" []) (TV (RA [68; 51; 34; 17])))]) = true.
Proof. vm_compute. reflexivity. Qed.

(* lib_array_backed_tests.rs:1431 *)
Example bitfield_into_bits_big_endian_ : is_passed (run_test
  [(mkUnit "Bitfield" (Parser.mkRDecl true VisPublic "Bitfield" (Some (Parser.RArray (Parser.RPath "u8") (Parser.LenLit 4))) [("into_endian", "big")]
     [Parser.mkRField "a" VisPrivate (Parser.AList Parser.RNoBits [("default", "0x44")]) (Parser.RPath "u8") (PInt 0) id_codec;
      Parser.mkRField "b" VisPrivate (Parser.AList Parser.RNoBits [("default", "0x33")]) (Parser.RPath "u8") (PInt 0) id_codec;
      Parser.mkRField "c" VisPrivate (Parser.AList Parser.RNoBits [("default", "0x22")]) (Parser.RPath "u8") (PInt 0) id_codec;
      Parser.mkRField "d" VisPrivate (Parser.AList Parser.RNoBits [("default", "0x11")]) (Parser.RPath "u8") (PInt 0) id_codec]) [("a", (ELit 68 None)); ("b", (ELit 51 None)); ("c", (ELit 34 None)); ("d", (ELit 17 None))])]
  [SLetT "bitfield" (TDefault "Bitfield");
   SAssert (TEq (TMeth "Bitfield" (TVar "bitfield") "into_bytes" []) (TV (RA [17; 34; 51; 68])))]) = true.
Proof. vm_compute. reflexivity. Qed.

(* lib_array_backed_tests.rs:1450 *)
Example bitfield_field_visibility_ : is_passed (run_test
  [(mkUnit "Bitfield" (Parser.mkRDecl true (VisRestricted "(crate)") "Bitfield" (Some (Parser.RArray (Parser.RPath "u8") (Parser.LenLit 4))) []
     [Parser.mkRField "a" VisPublic (Parser.AList Parser.RNoBits [("default", "0x12")]) (Parser.RPath "u8") (PInt 0) id_codec;
      Parser.mkRField "b" VisPrivate (Parser.AList Parser.RNoBits [("default", "0x34")]) (Parser.RPath "u8") (PInt 0) id_codec;
      Parser.mkRField "c" VisPublic (Parser.AList Parser.RNoBits [("default", "0x56")]) (Parser.RPath "u8") (PInt 0) id_codec;
      Parser.mkRField "d" VisPrivate (Parser.AList Parser.RNoBits [("default", "0x78")]) (Parser.RPath "u8") (PInt 0) id_codec]) [("a", (ELit 18 None)); ("b", (ELit 52 None)); ("c", (ELit 86 None)); ("d", (ELit 120 None))])]
  [SLetT "bitfield" (TStat "Bitfield" "new" []);
   SAssert (TEq (TMeth "Bitfield" (TVar "bitfield") "a" []) (TV (RI 18)));
   SAssert (TEq (TMeth "Bitfield" (TVar "bitfield") "c" []) (TV (RI 86)))]) = true.
Proof. vm_compute. reflexivity. Qed.

(* lib_array_backed_tests.rs:1469 *)
Example bitfield_const_default_value_ : is_passed (run_test
  [(mkUnit "Bitfield" (Parser.mkRDecl true VisPublic "Bitfield" (Some (Parser.RArray (Parser.RPath "u8") (Parser.LenLit 1))) []
     [Parser.mkRField "a" VisPrivate (Parser.AList Parser.RNoBits [("default", "A_VAL")]) (Parser.RPath "u8") (PInt 0) id_codec]) [("a", (EUser (TI U8) (RI 18)))])]
  [SLetT "bitfield" (TStat "Bitfield" "new" []);
   SAssert (TEq (TMeth "Bitfield" (TVar "bitfield") "a" []) (TV (RI 18)))]) = true.
Proof. vm_compute. reflexivity. Qed.

(* lib_array_backed_tests.rs:1484 *)
Example bitfield_const_func_default_value_ : is_passed (run_test
  [(mkUnit "Bitfield" (Parser.mkRDecl true VisPublic "Bitfield" (Some (Parser.RArray (Parser.RPath "u8") (Parser.LenLit 1))) []
     [Parser.mkRField "a" VisPrivate (Parser.AList Parser.RNoBits [("default", "generate_val()")]) (Parser.RPath "u8") (PInt 0) id_codec]) [("a", (EUser (TI U8) (RI 255)))])]
  [SLetT "bitfield" (TStat "Bitfield" "new" []);
   SAssert (TEq (TMeth "Bitfield" (TVar "bitfield") "a" []) (TV (RI 255)))]) = true.
Proof. vm_compute. reflexivity. Qed.

(* lib_array_backed_tests.rs:1500 *)
Example bitfield_get_bit_ : is_passed (run_test
  [(mkUnit "Bitfield" (Parser.mkRDecl true VisPublic "Bitfield" (Some (Parser.RArray (Parser.RPath "u8") (Parser.LenLit 1))) [("bit_ops", "true")]
     [Parser.mkRField "a" VisPrivate (Parser.AList (Parser.RBits 2 "") [("default", "0b11")]) (Parser.RPath "u8") (PInt 0) id_codec;
      Parser.mkRField "b" VisPrivate (Parser.AList (Parser.RBits 2 "") [("default", "0b00")]) (Parser.RPath "u8") (PInt 0) id_codec;
      Parser.mkRField "c" VisPrivate (Parser.AList (Parser.RBits 2 "") [("default", "0b10"); ("access", "wo")]) (Parser.RPath "u8") (PInt 0) id_codec;
      Parser.mkRField "_d" VisPrivate (Parser.AList (Parser.RBits 2 "") [("default", "0b01")]) (Parser.RPath "u8") (PInt 0) id_codec]) [("a", (ELit 3 None)); ("b", (ELit 0 None)); ("c", (ELit 2 None)); ("_d", (ELit 1 None))])]
  [SLetT "bitfield" (TStat "Bitfield" "new" []);
   SAssert (TMeth "Bitfield" (TVar "bitfield") "get_bit" [(TV (RI 0))]);
   SAssert (TMeth "Bitfield" (TVar "bitfield") "get_bit" [(TV (RI 1))]);
   SAssert (TNot (TMeth "Bitfield" (TVar "bitfield") "get_bit" [(TV (RI 2))]));
   SAssert (TNot (TMeth "Bitfield" (TVar "bitfield") "get_bit" [(TV (RI 3))]));
   SAssert (TNot (TMeth "Bitfield" (TVar "bitfield") "get_bit" [(TV (RI 4))]));
   SAssert (TNot (TMeth "Bitfield" (TVar "bitfield") "get_bit" [(TV (RI 5))]));
   SAssert (TMeth "Bitfield" (TVar "bitfield") "get_bit" [(TV (RI 6))]);
   SAssert (TNot (TMeth "Bitfield" (TVar "bitfield") "get_bit" [(TV (RI 7))]))]) = true.
Proof. vm_compute. reflexivity. Qed.

(* lib_array_backed_tests.rs:1526 *)
Example bitfield_get_bit_out_of_bounds_ : is_passed (run_test
  [(mkUnit "Bitfield" (Parser.mkRDecl true VisPublic "Bitfield" (Some (Parser.RArray (Parser.RPath "u8") (Parser.LenLit 1))) [("bit_ops", "true")]
     [Parser.mkRField "a" VisPrivate (Parser.AList (Parser.RBits 2 "") [("default", "0b11")]) (Parser.RPath "u8") (PInt 0) id_codec;
      Parser.mkRField "b" VisPrivate (Parser.AList (Parser.RBits 2 "") [("default", "0b00")]) (Parser.RPath "u8") (PInt 0) id_codec;
      Parser.mkRField "c" VisPrivate (Parser.AList (Parser.RBits 2 "") [("default", "0b10"); ("access", "wo")]) (Parser.RPath "u8") (PInt 0) id_codec;
      Parser.mkRField "_d" VisPrivate (Parser.AList (Parser.RBits 2 "") [("default", "0b01")]) (Parser.RPath "u8") (PInt 0) id_codec]) [("a", (ELit 3 None)); ("b", (ELit 0 None)); ("c", (ELit 2 None)); ("_d", (ELit 1 None))])]
  [SLetT "bitfield" (TStat "Bitfield" "new" []);
   SAssert (TNot (TMeth "Bitfield" (TVar "bitfield") "get_bit" [(TV (RI 8))]));
   SAssert (TNot (TMeth "Bitfield" (TVar "bitfield") "get_bit" [(TV (RI 50))]))]) = true.
Proof. vm_compute. reflexivity. Qed.

(* lib_array_backed_tests.rs:1546 *)
Example bitfield_checked_get_bit_ : is_passed (run_test
  [(mkUnit "Bitfield" (Parser.mkRDecl true VisPublic "Bitfield" (Some (Parser.RArray (Parser.RPath "u8") (Parser.LenLit 1))) [("bit_ops", "true")]
     [Parser.mkRField "a" VisPrivate (Parser.AList (Parser.RBits 2 "") [("default", "0b11")]) (Parser.RPath "u8") (PInt 0) id_codec;
      Parser.mkRField "b" VisPrivate (Parser.AList (Parser.RBits 2 "") [("default", "0b00")]) (Parser.RPath "u8") (PInt 0) id_codec;
      Parser.mkRField "c" VisPrivate (Parser.AList (Parser.RBits 2 "") [("default", "0b10"); ("access", "wo")]) (Parser.RPath "u8") (PInt 0) id_codec;
      Parser.mkRField "_d" VisPrivate (Parser.AList (Parser.RBits 2 "") [("default", "0b01")]) (Parser.RPath "u8") (PInt 0) id_codec]) [("a", (ELit 3 None)); ("b", (ELit 0 None)); ("c", (ELit 2 None)); ("_d", (ELit 1 None))])]
  [SLetT "bitfield" (TStat "Bitfield" "new" []);
   SAssert (TUnwrap (TMeth "Bitfield" (TVar "bitfield") "checked_get_bit" [(TV (RI 0))]));
   SAssert (TUnwrap (TMeth "Bitfield" (TVar "bitfield") "checked_get_bit" [(TV (RI 1))]));
   SAssert (TNot (TUnwrap (TMeth "Bitfield" (TVar "bitfield") "checked_get_bit" [(TV (RI 2))])));
   SAssert (TNot (TUnwrap (TMeth "Bitfield" (TVar "bitfield") "checked_get_bit" [(TV (RI 3))])));
   SAssert (TIsErr (TMeth "Bitfield" (TVar "bitfield") "checked_get_bit" [(TV (RI 4))]));
   SAssert (TIsErr (TMeth "Bitfield" (TVar "bitfield") "checked_get_bit" [(TV (RI 5))]));
   SAssert (TMeth "Bitfield" (TVar "bitfield") "get_bit" [(TV (RI 6))]);
   SAssert (TNot (TMeth "Bitfield" (TVar "bitfield") "get_bit" [(TV (RI 7))]))]) = true.
Proof. vm_compute. reflexivity. Qed.

(* lib_array_backed_tests.rs:1572 *)
Example bitfield_checked_get_bit_none_access_ : is_passed (run_test
  [(mkUnit "Bitfield" (Parser.mkRDecl true VisPublic "Bitfield" (Some (Parser.RArray (Parser.RPath "u8") (Parser.LenLit 1))) [("bit_ops", "true")]
     [Parser.mkRField "a" VisPrivate (Parser.AList (Parser.RBits 2 "") [("default", "0b11")]) (Parser.RPath "u8") (PInt 0) id_codec;
      Parser.mkRField "b" VisPrivate (Parser.AList (Parser.RBits 2 "") [("default", "0b00")]) (Parser.RPath "u8") (PInt 0) id_codec;
      Parser.mkRField "c" VisPrivate (Parser.AList (Parser.RBits 2 "") [("default", "0b10"); ("access", "na")]) (Parser.RPath "u8") (PInt 0) id_codec;
      Parser.mkRField "_d" VisPrivate (Parser.AList (Parser.RBits 2 "") [("default", "0b01")]) (Parser.RPath "u8") (PInt 0) id_codec]) [("a", (ELit 3 None)); ("b", (ELit 0 None)); ("c", (ELit 2 None)); ("_d", (ELit 1 None))])]
  [SLetT "bitfield" (TStat "Bitfield" "new" []);
   SAssert (TUnwrap (TMeth "Bitfield" (TVar "bitfield") "checked_get_bit" [(TV (RI 0))]));
   SAssert (TUnwrap (TMeth "Bitfield" (TVar "bitfield") "checked_get_bit" [(TV (RI 1))]));
   SAssert (TNot (TUnwrap (TMeth "Bitfield" (TVar "bitfield") "checked_get_bit" [(TV (RI 2))])));
   SAssert (TNot (TUnwrap (TMeth "Bitfield" (TVar "bitfield") "checked_get_bit" [(TV (RI 3))])));
   SAssert (TIsErr (TMeth "Bitfield" (TVar "bitfield") "checked_get_bit" [(TV (RI 4))]));
   SAssert (TIsErr (TMeth "Bitfield" (TVar "bitfield") "checked_get_bit" [(TV (RI 5))]));
   SAssert (TMeth "Bitfield" (TVar "bitfield") "get_bit" [(TV (RI 6))]);
   SAssert (TNot (TMeth "Bitfield" (TVar "bitfield") "get_bit" [(TV (RI 7))]))]) = true.
Proof. vm_compute. reflexivity. Qed.

(* lib_array_backed_tests.rs:1598 *)
Example bitfield_checked_get_bit_rw_access_ : is_passed (run_test
  [(mkUnit "Bitfield" (Parser.mkRDecl true VisPublic "Bitfield" (Some (Parser.RArray (Parser.RPath "u8") (Parser.LenLit 1))) [("bit_ops", "true")]
     [Parser.mkRField "a" VisPrivate (Parser.AList (Parser.RBits 2 "") [("default", "0b11")]) (Parser.RPath "u8") (PInt 0) id_codec;
      Parser.mkRField "b" VisPrivate (Parser.AList (Parser.RBits 2 "") [("default", "0b00")]) (Parser.RPath "u8") (PInt 0) id_codec;
      Parser.mkRField "c" VisPrivate (Parser.AList (Parser.RBits 2 "") [("default", "0b10"); ("access", "rw")]) (Parser.RPath "u8") (PInt 0) id_codec;
      Parser.mkRField "_d" VisPrivate (Parser.AList (Parser.RBits 2 "") [("default", "0b01")]) (Parser.RPath "u8") (PInt 0) id_codec]) [("a", (ELit 3 None)); ("b", (ELit 0 None)); ("c", (ELit 2 None)); ("_d", (ELit 1 None))])]
  [SLetT "bitfield" (TStat "Bitfield" "new" []);
   SAssert (TUnwrap (TMeth "Bitfield" (TVar "bitfield") "checked_get_bit" [(TV (RI 0))]));
   SAssert (TUnwrap (TMeth "Bitfield" (TVar "bitfield") "checked_get_bit" [(TV (RI 1))]));
   SAssert (TNot (TUnwrap (TMeth "Bitfield" (TVar "bitfield") "checked_get_bit" [(TV (RI 2))])));
   SAssert (TNot (TUnwrap (TMeth "Bitfield" (TVar "bitfield") "checked_get_bit" [(TV (RI 3))])));
   SAssert (TNot (TUnwrap (TMeth "Bitfield" (TVar "bitfield") "checked_get_bit" [(TV (RI 4))])));
   SAssert (TUnwrap (TMeth "Bitfield" (TVar "bitfield") "checked_get_bit" [(TV (RI 5))]));
   SAssert (TMeth "Bitfield" (TVar "bitfield") "get_bit" [(TV (RI 6))]);
   SAssert (TNot (TMeth "Bitfield" (TVar "bitfield") "get_bit" [(TV (RI 7))]))]) = true.
Proof. vm_compute. reflexivity. Qed.

(* lib_array_backed_tests.rs:1624 *)
Example bitfield_full_field_size_u32_ : is_passed (run_test
  [(mkUnit "Bitfield" (Parser.mkRDecl true VisPublic "Bitfield" (Some (Parser.RArray (Parser.RPath "u8") (Parser.LenLit 4))) []
     [Parser.mkRField "data" VisPrivate Parser.ANone (Parser.RPath "u32") (PInt 0) id_codec]) [])]
  [SLetT "bitfield" (TStat "Bitfield" "from_bytes" [(TV (RA [170; 187; 204; 221]))]);
   SAssert (TEq (TMeth "Bitfield" (TVar "bitfield") "data" []) (TV (RI 2864434397)))]) = true.
Proof. vm_compute. reflexivity. Qed.

(* lib_array_backed_tests.rs:1635 *)
Example bitfield_full_field_size_u64_ : is_passed (run_test
  [(mkUnit "Bitfield" (Parser.mkRDecl true VisPublic "Bitfield" (Some (Parser.RArray (Parser.RPath "u8") (Parser.LenLit 8))) []
     [Parser.mkRField "data" VisPrivate Parser.ANone (Parser.RPath "u64") (PInt 0) id_codec]) [])]
  [SLetT "bitfield" (TStat "Bitfield" "from_bytes" [(TV (RA [17; 34; 51; 68; 170; 187; 204; 221]))]);
   SAssert (TEq (TMeth "Bitfield" (TVar "bitfield") "data" []) (TV (RI 1234605617868164317)))]) = true.
Proof. vm_compute. reflexivity. Qed.

(* lib_array_backed_tests.rs:1646 *)
Example bitfield_set_bit_ : is_passed (run_test
  [(mkUnit "Bitfield" (Parser.mkRDecl true VisPublic "Bitfield" (Some (Parser.RArray (Parser.RPath "u8") (Parser.LenLit 1))) [("bit_ops", "true")]
     [Parser.mkRField "a" VisPrivate (Parser.AList (Parser.RBits 2 "") []) (Parser.RPath "u8") (PInt 0) id_codec;
      Parser.mkRField "b" VisPrivate (Parser.AList (Parser.RBits 2 "") [("default", "0b11")]) (Parser.RPath "u8") (PInt 0) id_codec;
      Parser.mkRField "c" VisPrivate (Parser.AList (Parser.RBits 2 "") [("default", "0b11"); ("access", "ro")]) (Parser.RPath "u8") (PInt 0) id_codec;
      Parser.mkRField "_d" VisPrivate (Parser.AList (Parser.RBits 2 "") [("default", "0b00")]) (Parser.RPath "u8") (PInt 0) id_codec]) [("b", (ELit 3 None)); ("c", (ELit 3 None)); ("_d", (ELit 0 None))])]
  [SLetT "bitfield" (TStat "Bitfield" "new" []);
   SDo (TMeth "Bitfield" (TVar "bitfield") "set_bit" [(TV (RI 0)); (TV (RB true))]);
   SDo (TMeth "Bitfield" (TVar "bitfield") "set_bit" [(TV (RI 1)); (TV (RB true))]);
   SDo (TMeth "Bitfield" (TVar "bitfield") "set_bit" [(TV (RI 2)); (TV (RB false))]);
   SDo (TMeth "Bitfield" (TVar "bitfield") "set_bit" [(TV (RI 3)); (TV (RB false))]);
   SDo (TMeth "Bitfield" (TVar "bitfield") "set_bit" [(TV (RI 4)); (TV (RB false))]);
   SDo (TMeth "Bitfield" (TVar "bitfield") "set_bit" [(TV (RI 5)); (TV (RB false))]);
   SDo (TMeth "Bitfield" (TVar "bitfield") "set_bit" [(TV (RI 6)); (TV (RB true))]);
   SDo (TMeth "Bitfield" (TVar "bitfield") "set_bit" [(TV (RI 7)); (TV (RB true))]);
   SAssert (TEq (TMeth "Bitfield" (TVar "bitfield") "into_bytes" []) (TV (RA [51])))]) = true.
Proof. vm_compute. reflexivity. Qed.

(* lib_array_backed_tests.rs:1673 *)
Example bitfield_checked_set_bit_ : is_passed (run_test
  [(mkUnit "Bitfield" (Parser.mkRDecl true VisPublic "Bitfield" (Some (Parser.RArray (Parser.RPath "u8") (Parser.LenLit 1))) [("bit_ops", "true")]
     [Parser.mkRField "a" VisPrivate (Parser.AList (Parser.RBits 2 "") []) (Parser.RPath "u8") (PInt 0) id_codec;
      Parser.mkRField "b" VisPrivate (Parser.AList (Parser.RBits 2 "") [("default", "0b11")]) (Parser.RPath "u8") (PInt 0) id_codec;
      Parser.mkRField "c" VisPrivate (Parser.AList (Parser.RBits 2 "") [("default", "0b11"); ("access", "ro")]) (Parser.RPath "u8") (PInt 0) id_codec;
      Parser.mkRField "_d" VisPrivate (Parser.AList (Parser.RBits 2 "") [("default", "0b00")]) (Parser.RPath "u8") (PInt 0) id_codec]) [("b", (ELit 3 None)); ("c", (ELit 3 None)); ("_d", (ELit 0 None))])]
  [SLetT "bitfield" (TStat "Bitfield" "new" []);
   SAssert (TIsOk (TMeth "Bitfield" (TVar "bitfield") "checked_set_bit" [(TV (RI 0)); (TV (RB true))]));
   SAssert (TIsOk (TMeth "Bitfield" (TVar "bitfield") "checked_set_bit" [(TV (RI 1)); (TV (RB true))]));
   SAssert (TIsOk (TMeth "Bitfield" (TVar "bitfield") "checked_set_bit" [(TV (RI 2)); (TV (RB false))]));
   SAssert (TIsOk (TMeth "Bitfield" (TVar "bitfield") "checked_set_bit" [(TV (RI 3)); (TV (RB false))]));
   SAssert (TIsErr (TMeth "Bitfield" (TVar "bitfield") "checked_set_bit" [(TV (RI 4)); (TV (RB false))]));
   SAssert (TIsErr (TMeth "Bitfield" (TVar "bitfield") "checked_set_bit" [(TV (RI 5)); (TV (RB false))]));
   SAssert (TIsErr (TMeth "Bitfield" (TVar "bitfield") "checked_set_bit" [(TV (RI 6)); (TV (RB true))]));
   SAssert (TIsErr (TMeth "Bitfield" (TVar "bitfield") "checked_set_bit" [(TV (RI 7)); (TV (RB true))]));
   SAssert (TEq (TMeth "Bitfield" (TVar "bitfield") "into_bytes" []) (TV (RA [51])))]) = true.
Proof. vm_compute. reflexivity. Qed.

(* lib_array_backed_tests.rs:1727 *)
Example bitfield_write_bits_ : is_passed (run_test
  [(mkUnit "Bitfield" (Parser.mkRDecl true VisPublic "Bitfield" (Some (Parser.RArray (Parser.RPath "u8") (Parser.LenLit 4))) []
     [Parser.mkRField "a" VisPrivate (Parser.AList Parser.RNoBits [("default", "0x12")]) (Parser.RPath "u8") (PInt 0) id_codec;
      Parser.mkRField "b" VisPrivate (Parser.AList Parser.RNoBits [("default", "0x34")]) (Parser.RPath "u8") (PInt 0) id_codec;
      Parser.mkRField "c" VisPrivate (Parser.AList Parser.RNoBits [("default", "0x56")]) (Parser.RPath "u8") (PInt 0) id_codec;
      Parser.mkRField "d" VisPrivate (Parser.AList Parser.RNoBits [("default", "0x78")]) (Parser.RPath "u8") (PInt 0) id_codec]) [("a", (ELit 18 None)); ("b", (ELit 52 None)); ("c", (ELit 86 None)); ("d", (ELit 120 None))])]
  [SLetT "bitfield" (TStat "Bitfield" "new" []);
   SDo (TMeth "Bitfield" (TVar "bitfield") "write_bytes" [(TV (RA [68; 51; 34; 17]))]);
   SAssert (TEq (TMeth "Bitfield" (TVar "bitfield") "a" []) (TV (RI 68)));
   SAssert (TEq (TMeth "Bitfield" (TVar "bitfield") "b" []) (TV (RI 51)));
   SAssert (TEq (TMeth "Bitfield" (TVar "bitfield") "c" []) (TV (RI 34)));
   SAssert (TEq (TMeth "Bitfield" (TVar "bitfield") "d" []) (TV (RI 17)));
   SAssert (TEq (TMeth "Bitfield" (TVar "bitfield") "into_bytes" []) (TV (RA [17; 34; 51; 68])))]) = true.
Proof. vm_compute. reflexivity. Qed.

(* lib_array_backed_tests.rs:1752 *)
Example bitfield_write_bits_non_writable_ : is_passed (run_test
  [(mkUnit "Bitfield" (Parser.mkRDecl true VisPublic "Bitfield" (Some (Parser.RArray (Parser.RPath "u8") (Parser.LenLit 4))) []
     [Parser.mkRField "a" VisPrivate (Parser.AList Parser.RNoBits [("default", "0x12")]) (Parser.RPath "u8") (PInt 0) id_codec;
      Parser.mkRField "b" VisPrivate (Parser.AList Parser.RNoBits [("default", "0x34"); ("access", "ro")]) (Parser.RPath "u8") (PInt 0) id_codec;
      Parser.mkRField "c" VisPrivate (Parser.AList Parser.RNoBits [("default", "0x56")]) (Parser.RPath "u8") (PInt 0) id_codec;
      Parser.mkRField "_d" VisPrivate (Parser.AList Parser.RNoBits [("default", "0x78")]) (Parser.RPath "u8") (PInt 0) id_codec]) [("a", (ELit 18 None)); ("b", (ELit 52 None)); ("c", (ELit 86 None)); ("_d", (ELit 120 None))])]
  [SLetT "bitfield" (TStat "Bitfield" "new" []);
   SDo (TMeth "Bitfield" (TVar "bitfield") "write_bytes" [(TV (RA [68; 51; 34; 17]))]);
   SAssert (TEq (TMeth "Bitfield" (TVar "bitfield") "a" []) (TV (RI 68)));
   SAssert (TEq (TMeth "Bitfield" (TVar "bitfield") "b" []) (TV (RI 52)));
   SAssert (TEq (TMeth "Bitfield" (TVar "bitfield") "c" []) (TV (RI 34)));
   SAssert (TEq (TMeth "Bitfield" (TVar "bitfield") "into_bytes" []) (TV (RA [120; 34; 52; 68])))]) = true.
Proof. vm_compute. reflexivity. Qed.

(* lib_array_backed_tests.rs:1776 *)
Example bitfield_write_bits_with_defaults_ : is_passed (run_test
  [(mkUnit "Bitfield" (Parser.mkRDecl true VisPublic "Bitfield" (Some (Parser.RArray (Parser.RPath "u8") (Parser.LenLit 4))) []
     [Parser.mkRField "a" VisPrivate (Parser.AList Parser.RNoBits [("default", "0x12")]) (Parser.RPath "u8") (PInt 0) id_codec;
      Parser.mkRField "b" VisPrivate Parser.ANone (Parser.RPath "u8") (PInt 0) id_codec;
      Parser.mkRField "c" VisPrivate Parser.ANone (Parser.RPath "u8") (PInt 0) id_codec;
      Parser.mkRField "d" VisPrivate (Parser.AList Parser.RNoBits [("default", "0x78")]) (Parser.RPath "u8") (PInt 0) id_codec]) [("a", (ELit 18 None)); ("d", (ELit 120 None))])]
  [SLetT "bitfield" (TStat "Bitfield" "new" []);
   SDo (TMeth "Bitfield" (TVar "bitfield") "write_bytes_with_defaults" [(TV (RA [68; 51; 34; 17]))]);
   SAssert (TEq (TMeth "Bitfield" (TVar "bitfield") "a" []) (TV (RI 18)));
   SAssert (TEq (TMeth "Bitfield" (TVar "bitfield") "b" []) (TV (RI 51)));
   SAssert (TEq (TMeth "Bitfield" (TVar "bitfield") "c" []) (TV (RI 34)));
   SAssert (TEq (TMeth "Bitfield" (TVar "bitfield") "d" []) (TV (RI 120)));
   SAssert (TEq (TMeth "Bitfield" (TVar "bitfield") "into_bytes" []) (TV (RA [120; 34; 51; 18])))]) = true.
Proof. vm_compute. reflexivity. Qed.

(* lib_array_backed_tests.rs:1799 *)
Example bitfield_clear_bits_ : is_passed (run_test
  [(mkUnit "Bitfield" (Parser.mkRDecl true VisPublic "Bitfield" (Some (Parser.RArray (Parser.RPath "u8") (Parser.LenLit 4))) []
     [Parser.mkRField "a" VisPrivate (Parser.AList Parser.RNoBits [("default", "0x12")]) (Parser.RPath "u8") (PInt 0) id_codec;
      Parser.mkRField "b" VisPrivate (Parser.AList Parser.RNoBits [("default", "0x34")]) (Parser.RPath "u8") (PInt 0) id_codec;
      Parser.mkRField "c" VisPrivate (Parser.AList Parser.RNoBits [("default", "0x56")]) (Parser.RPath "u8") (PInt 0) id_codec;
      Parser.mkRField "d" VisPrivate (Parser.AList Parser.RNoBits [("default", "0x78")]) (Parser.RPath "u8") (PInt 0) id_codec]) [("a", (ELit 18 None)); ("b", (ELit 52 None)); ("c", (ELit 86 None)); ("d", (ELit 120 None))])]
  [SLetT "bitfield" (TStat "Bitfield" "new" []);
   SDo (TMeth "Bitfield" (TVar "bitfield") "clear_bytes" []);
   SAssert (TEq (TMeth "Bitfield" (TVar "bitfield") "a" []) (TV (RI 0)));
   SAssert (TEq (TMeth "Bitfield" (TVar "bitfield") "b" []) (TV (RI 0)));
   SAssert (TEq (TMeth "Bitfield" (TVar "bitfield") "c" []) (TV (RI 0)));
   SAssert (TEq (TMeth "Bitfield" (TVar "bitfield") "d" []) (TV (RI 0)));
   SAssert (TEq (TMeth "Bitfield" (TVar "bitfield") "into_bytes" []) (TV (RA [0; 0; 0; 0])))]) = true.
Proof. vm_compute. reflexivity. Qed.

(* lib_array_backed_tests.rs:1824 *)
Example bitfield_clear_bits_with_defaults_ : is_passed (run_test
  [(mkUnit "Bitfield" (Parser.mkRDecl true VisPublic "Bitfield" (Some (Parser.RArray (Parser.RPath "u8") (Parser.LenLit 4))) []
     [Parser.mkRField "a" VisPrivate (Parser.AList Parser.RNoBits [("default", "0x12")]) (Parser.RPath "u8") (PInt 0) id_codec;
      Parser.mkRField "b" VisPrivate Parser.ANone (Parser.RPath "u8") (PInt 0) id_codec;
      Parser.mkRField "c" VisPrivate Parser.ANone (Parser.RPath "u8") (PInt 0) id_codec;
      Parser.mkRField "d" VisPrivate (Parser.AList Parser.RNoBits [("default", "0x78")]) (Parser.RPath "u8") (PInt 0) id_codec]) [("a", (ELit 18 None)); ("d", (ELit 120 None))])]
  [SLetT "bitfield" (TStat "Bitfield" "new" []);
   SDo (TMeth "Bitfield" (TVar "bitfield") "clear_bytes_with_defaults" []);
   SAssert (TEq (TMeth "Bitfield" (TVar "bitfield") "a" []) (TV (RI 18)));
   SAssert (TEq (TMeth "Bitfield" (TVar "bitfield") "b" []) (TV (RI 0)));
   SAssert (TEq (TMeth "Bitfield" (TVar "bitfield") "c" []) (TV (RI 0)));
   SAssert (TEq (TMeth "Bitfield" (TVar "bitfield") "d" []) (TV (RI 120)));
   SAssert (TEq (TMeth "Bitfield" (TVar "bitfield") "into_bytes" []) (TV (RA [120; 0; 0; 18])))]) = true.
Proof. vm_compute. reflexivity. Qed.

(* lib_array_backed_tests.rs:1847 *)
Example bitfield_field_access_ : is_passed (run_test
  [(mkUnit "Bitfield" (Parser.mkRDecl true VisPublic "Bitfield" (Some (Parser.RArray (Parser.RPath "u8") (Parser.LenLit 4))) []
     [Parser.mkRField "a" VisPrivate (Parser.AList Parser.RNoBits [("access", "ro")]) (Parser.RPath "u8") (PInt 0) id_codec;
      Parser.mkRField "b" VisPrivate (Parser.AList Parser.RNoBits [("access", "wo")]) (Parser.RPath "u8") (PInt 0) id_codec;
      Parser.mkRField "c" VisPrivate (Parser.AList Parser.RNoBits [("access", "rw")]) (Parser.RPath "u8") (PInt 0) id_codec;
      Parser.mkRField "d" VisPrivate (Parser.AList Parser.RNoBits [("access", "na")]) (Parser.RPath "u8") (PInt 0) id_codec]) [])]
  []) = true.
Proof. vm_compute. reflexivity. Qed.

(* lib_array_backed_tests.rs:1862 *)
Example bitfield_field_access_read_only_can_build_ : is_passed (run_test
  [(mkUnit "Bitfield" (Parser.mkRDecl true VisPublic "Bitfield" (Some (Parser.RArray (Parser.RPath "u8") (Parser.LenLit 4))) []
     [Parser.mkRField "a" VisPrivate (Parser.AList Parser.RNoBits [("default", "0x12"); ("access", "ro")]) (Parser.RPath "u32") (PInt 0) id_codec]) [("a", (ELit 18 None))])]
  [SAssert (TEq (TMeth "Bitfield" (TStat "Bitfield" "new" []) "a" []) (TV (RI 18)));
   SAssert (TEq (TMeth "Bitfield" (TBuild "Bitfield" "build" [(TBuild "Bitfield" "with_a" [(TBuild "Bitfield" "new" []); (TV (RI 34))])]) "a" []) (TV (RI 34)))]) = true.
Proof. vm_compute. reflexivity. Qed.

(* lib_array_backed_tests.rs:1874 *)
Example bitfield_bool_fields_ : is_passed (run_test
  [(mkUnit "PxiCnt" (Parser.mkRDecl true VisPublic "PxiCnt" (Some (Parser.RArray (Parser.RPath "u8") (Parser.LenLit 1))) []
     [Parser.mkRField "a" VisPrivate (Parser.AList Parser.RNoBits [("access", "ro")]) (Parser.RPath "bool") (PInt 0) id_codec;
      Parser.mkRField "b" VisPrivate Parser.ANone (Parser.RPath "bool") (PInt 0) id_codec;
      Parser.mkRField "c" VisPrivate Parser.ANone (Parser.RPath "bool") (PInt 0) id_codec;
      Parser.mkRField "d" VisPrivate Parser.ANone (Parser.RPath "bool") (PInt 0) id_codec;
      Parser.mkRField "__" VisPrivate (Parser.AList (Parser.RBits 4 "") []) (Parser.RPath "u32") (PInt 0) id_codec]) [])]
  []) = true.
Proof. vm_compute. reflexivity. Qed.

(* lib_array_backed_tests.rs:1888 *)
Example bitfield_neg_inverts_bits_ : is_passed (run_test
  [(mkUnit "Bitfield" (Parser.mkRDecl true VisPublic "Bitfield" (Some (Parser.RArray (Parser.RPath "u8") (Parser.LenLit 4))) []
     [Parser.mkRField "a" VisPrivate (Parser.AList (Parser.RBits 5 "") [("default", "0xC")]) (Parser.RPath "u8") (PInt 0) id_codec;
      Parser.mkRField "b" VisPrivate (Parser.AList Parser.RNoBits [("default", "0x34")]) (Parser.RPath "u8") (PInt 0) id_codec;
      Parser.mkRField "c" VisPrivate (Parser.AList Parser.RNoBits [("default", "0x56")]) (Parser.RPath "u8") (PInt 0) id_codec;
      Parser.mkRField "d" VisPrivate (Parser.AList (Parser.RBits 9 "") [("default", "0x78")]) (Parser.RPath "u16") (PInt 0) id_codec;
      Parser.mkRField "e" VisPrivate (Parser.AList Parser.RNoBits [("default", "true")]) (Parser.RPath "bool") (PInt 0) id_codec;
      Parser.mkRField "f" VisPrivate (Parser.AList Parser.RNoBits [("default", "false")]) (Parser.RPath "bool") (PInt 0) id_codec]) [("a", (ELit 12 None)); ("b", (ELit 52 None)); ("c", (ELit 86 None)); ("d", (ELit 120 None)); ("e", (EBool true)); ("f", (EBool false))])]
  [SLetT "builder" (TStat "Bitfield" "new" []);
   SAssert (TEq (TMeth "Bitfield" (TVar "builder") "a" []) (TV (RI 12)));
   SAssert (TEq (TMeth "Bitfield" (TVar "builder") "b" []) (TV (RI 52)));
   SAssert (TEq (TMeth "Bitfield" (TVar "builder") "c" []) (TV (RI 86)));
   SAssert (TEq (TMeth "Bitfield" (TVar "builder") "d" []) (TV (RI 120)));
   SAssert (TMeth "Bitfield" (TVar "builder") "e" []);
   SAssert (TEq (TMeth "Bitfield" (TVar "builder") "a_inverted" []) (TV (RI 19)));
   SAssert (TEq (TMeth "Bitfield" (TVar "builder") "b_inverted" []) (TV (RI 203)));
   SAssert (TEq (TMeth "Bitfield" (TVar "builder") "c_inverted" []) (TV (RI 169)));
   SAssert (TEq (TMeth "Bitfield" (TVar "builder") "d_inverted" []) (TV (RI 391)));
   SAssert (TNot (TMeth "Bitfield" (TVar "builder") "e_inverted" []));
   SAssert (TMeth "Bitfield" (TVar "builder") "f_inverted" [])]) = true.
Proof. vm_compute. reflexivity. Qed.

(* lib_array_backed_tests.rs:1921 *)
Example bitfield_neg_inverts_bits_custom_type_ : is_passed (run_test
  [(mkUnit "Bitfield" (Parser.mkRDecl true VisPublic "Bitfield" (Some (Parser.RArray (Parser.RPath "u8") (Parser.LenLit 1))) []
     [Parser.mkRField "a" VisPrivate (Parser.AList (Parser.RBits 4 "") [("default", "CustomType::A")]) (Parser.RPath "CustomType") (PInt 0) (mkCodec U8 (fun bits => (if Z.eqb bits 3 then 0 else (if Z.eqb bits 4 then 1 else (3000000 + bits)))) U8 (fun self => (if Z.eqb self 0 then 3 else (if Z.eqb self 1 then 4 else (if Z.leb 3000000 self then (let bits := self - 3000000 in bits) else (-1))))));
      Parser.mkRField "b" VisPrivate (Parser.AList (Parser.RBits 4 "") [("default", "CustomType::B")]) (Parser.RPath "CustomType") (PInt 0) (mkCodec U8 (fun bits => (if Z.eqb bits 3 then 0 else (if Z.eqb bits 4 then 1 else (3000000 + bits)))) U8 (fun self => (if Z.eqb self 0 then 3 else (if Z.eqb self 1 then 4 else (if Z.leb 3000000 self then (let bits := self - 3000000 in bits) else (-1))))))]) [("a", (EUser (TUser "a") (RC 0))); ("b", (EUser (TUser "b") (RC 1)))])]
  [SLetT "builder" (TStat "Bitfield" "new" []);
   SAssert (TEq (TMeth "Bitfield" (TVar "builder") "a" []) (TV (RC 0)));
   SAssert (TEq (TMeth "Bitfield" (TVar "builder") "b" []) (TV (RC 1)));
   SAssert (TEq (TMeth "Bitfield" (TVar "builder") "a_inverted" []) (TV (RC 3000012)));
   SAssert (TEq (TMeth "Bitfield" (TVar "builder") "b_inverted" []) (TV (RC 3000011)))]) = true.
Proof. vm_compute. reflexivity. Qed.

(* lib_array_backed_tests.rs:1965 *)
Example bitfield_custom_type_setter_ : is_passed (run_test
  [(mkUnit "Bitfield" (Parser.mkRDecl true VisPublic "Bitfield" (Some (Parser.RArray (Parser.RPath "u8") (Parser.LenLit 1))) []
     [Parser.mkRField "a" VisPrivate (Parser.AList (Parser.RBits 4 "") []) (Parser.RPath "CustomType") (PInt 0) (mkCodec U8 (fun bits => (if Z.eqb bits 3 then 0 else (if Z.eqb bits 4 then 1 else (3000000 + bits)))) U8 (fun self => (if Z.eqb self 0 then 3 else (if Z.eqb self 1 then 4 else (if Z.leb 3000000 self then (let bits := self - 3000000 in bits) else (-1))))));
      Parser.mkRField "b" VisPrivate (Parser.AList (Parser.RBits 4 "") []) (Parser.RPath "CustomType") (PInt 0) (mkCodec U8 (fun bits => (if Z.eqb bits 3 then 0 else (if Z.eqb bits 4 then 1 else (3000000 + bits)))) U8 (fun self => (if Z.eqb self 0 then 3 else (if Z.eqb self 1 then 4 else (if Z.leb 3000000 self then (let bits := self - 3000000 in bits) else (-1))))))]) [])]
  [SLetT "bitfield" (TStat "Bitfield" "new" []);
   SDo (TMeth "Bitfield" (TVar "bitfield") "set_a" [(TV (RC 3000009))]);
   SDo (TMeth "Bitfield" (TVar "bitfield") "set_b" [(TV (RC 3000005))]);
   SAssert (TEq (TMeth "Bitfield" (TVar "bitfield") "a" []) (TV (RC 3000009)));
   SAssert (TEq (TMeth "Bitfield" (TVar "bitfield") "b" []) (TV (RC 3000005)))]) = true.
Proof. vm_compute. reflexivity. Qed.

(* lib_array_backed_tests.rs:2009 *)
Example bitfield_custom_type_checked_setter_ : is_passed (run_test
  [(mkUnit "Bitfield" (Parser.mkRDecl true VisPublic "Bitfield" (Some (Parser.RArray (Parser.RPath "u8") (Parser.LenLit 1))) []
     [Parser.mkRField "a" VisPrivate (Parser.AList (Parser.RBits 4 "") []) (Parser.RPath "CustomType") (PInt 0) (mkCodec U8 (fun bits => (if Z.eqb bits 3 then 0 else (if Z.eqb bits 4 then 1 else (3000000 + bits)))) U8 (fun self => (if Z.eqb self 0 then 3 else (if Z.eqb self 1 then 4 else (if Z.leb 3000000 self then (let bits := self - 3000000 in bits) else (-1))))));
      Parser.mkRField "b" VisPrivate (Parser.AList (Parser.RBits 4 "") []) (Parser.RPath "CustomType") (PInt 0) (mkCodec U8 (fun bits => (if Z.eqb bits 3 then 0 else (if Z.eqb bits 4 then 1 else (3000000 + bits)))) U8 (fun self => (if Z.eqb self 0 then 3 else (if Z.eqb self 1 then 4 else (if Z.leb 3000000 self then (let bits := self - 3000000 in bits) else (-1))))))]) [])]
  [SLetT "bitfield" (TStat "Bitfield" "new" []);
   SLetT "set_a_results" (TMeth "Bitfield" (TVar "bitfield") "checked_set_a" [(TV (RC 3000009))]);
   SLetT "set_b_results" (TMeth "Bitfield" (TVar "bitfield") "checked_set_b" [(TV (RC 3000005))]);
   SAssert (TIsOk (TVar "set_a_results"));
   SAssert (TIsOk (TVar "set_b_results"));
   SAssert (TEq (TMeth "Bitfield" (TVar "bitfield") "a" []) (TV (RC 3000009)));
   SAssert (TEq (TMeth "Bitfield" (TVar "bitfield") "b" []) (TV (RC 3000005)))]) = true.
Proof. vm_compute. reflexivity. Qed.

(* lib_array_backed_tests.rs:2055 *)
Example bitfield_read_only_custom_field_ : is_passed (run_test
  [(mkUnit "Piece" (Parser.mkRDecl true VisPrivate "Piece" (Some (Parser.RArray (Parser.RPath "u8") (Parser.LenLit 1))) []
     [Parser.mkRField "piece" VisPrivate (Parser.AList (Parser.RBits 3 "") [("access", "ro")]) (Parser.RPath "PieceType") (PInt 0) (mkCodec U8 (fun bits => (if Z.eqb bits 0 then 0 else (if Z.eqb bits 1 then 1 else (if Z.eqb bits 2 then 2 else (if Z.eqb bits 3 then 3 else (if Z.eqb bits 4 then 4 else (if Z.eqb bits 5 then 5 else (-1)))))))) U8 (fun self => (if Z.eqb self 5 then 5 else (if Z.eqb self 4 then 4 else (if Z.eqb self 3 then 3 else (if Z.eqb self 2 then 2 else (if Z.eqb self 1 then 1 else (if Z.eqb self 0 then 0 else (-1)))))))));
      Parser.mkRField "colour" VisPrivate (Parser.AList (Parser.RBits 1 "") [("access", "ro")]) (Parser.RPath "Colour") (PInt 0) (mkCodec U8 (fun bits => (if Z.eqb bits 0 then 0 else (if Z.eqb bits 1 then 1 else (-1)))) U8 (fun self => (if Z.eqb self 1 then 1 else (if Z.eqb self 0 then 0 else (-1)))));
      Parser.mkRField "_reserved" VisPrivate (Parser.AList (Parser.RBits 4 "") [("default", "0")]) (Parser.RPath "u8") (PInt 0) id_codec]) [("_reserved", (ELit 0 None))])]
  [SLetT "val" (TBuild "Piece" "build" [(TBuild "Piece" "with_colour" [(TBuild "Piece" "with_piece" [(TBuild "Piece" "new" []); (TV (RC 0))]); (TV (RC 0))])]);
   SAssert (TEq (TMeth "Piece" (TVar "val") "into_bytes" []) (TV (RA [0])));
   SAssert (TEq (TMeth "Piece" (TVar "val") "colour" []) (TV (RC 0)))]) = true.
Proof. vm_compute. reflexivity. Qed.

(* lib_array_backed_tests.rs:2122 *)
Example bitfield_builder_checked_with : is_passed (run_test
  [(mkUnit "Bitfield" (Parser.mkRDecl true VisPublic "Bitfield" (Some (Parser.RArray (Parser.RPath "u8") (Parser.LenLit 4))) []
     [Parser.mkRField "a" VisPrivate (Parser.AList (Parser.RBits 2 "") [("access", "ro")]) (Parser.RPath "u8") (PInt 0) id_codec;
      Parser.mkRField "b" VisPrivate (Parser.AList (Parser.RBits 30 "") []) (Parser.RPath "u32") (PInt 0) id_codec]) [])]
  [SLetT "result" (TBuild "Bitfield" "checked_with_a" [(TBuild "Bitfield" "new" []); (TV (RI 17))]);
   SAssert (TIsErr (TVar "result"));
   SAssert (TEq (TErr (TVar "result")) (TV (RErr "Value is too big to fit within the field bits.")))]) = true.
Proof. vm_compute. reflexivity. Qed.

(* lib_array_backed_tests.rs:2137 *)
Example bitfield_sign_extended_bit_ : is_passed (run_test
  [(mkUnit "Bitfield" (Parser.mkRDecl true VisPublic "Bitfield" (Some (Parser.RArray (Parser.RPath "u8") (Parser.LenLit 1))) []
     [Parser.mkRField "a" VisPrivate (Parser.AList (Parser.RBits 1 "") []) (Parser.RPath "i8") (PInt 0) id_codec;
      Parser.mkRField "_reserved" VisPrivate (Parser.AList (Parser.RBits 7 "") []) (Parser.RPath "u8") (PInt 0) id_codec]) [])]
  [SLetT "bitfield" (TStat "Bitfield" "new" []);
   SDo (TMeth "Bitfield" (TVar "bitfield") "set_a" [(TV (RI 1))]);
   SAssert (TEq (TMeth "Bitfield" (TVar "bitfield") "a" []) (TV (RI (-1))))]) = true.
Proof. vm_compute. reflexivity. Qed.

(* lib_array_backed_tests.rs:2153 *)
Example bitfield_suffix_ : is_passed (run_test
  [(mkUnit "BitfieldI8" (Parser.mkRDecl true VisPublic "BitfieldI8" (Some (Parser.RArray (Parser.RPath "u8") (Parser.LenLit 1))) []
     [Parser.mkRField "a" VisPrivate (Parser.AList (Parser.RBits 8 "") [("default", "-1")]) (Parser.RPath "i8") (PInt 0) id_codec]) [("a", (EUn UNeg (ELit 1 None)))]); (mkUnit "BitfieldI16" (Parser.mkRDecl true VisPublic "BitfieldI16" (Some (Parser.RArray (Parser.RPath "u8") (Parser.LenLit 2))) []
     [Parser.mkRField "a" VisPrivate (Parser.AList (Parser.RBits 16 "") [("default", "-1")]) (Parser.RPath "i16") (PInt 0) id_codec]) [("a", (EUn UNeg (ELit 1 None)))]); (mkUnit "BitfieldI32" (Parser.mkRDecl true VisPublic "BitfieldI32" (Some (Parser.RArray (Parser.RPath "u8") (Parser.LenLit 4))) []
     [Parser.mkRField "a" VisPrivate (Parser.AList (Parser.RBits 32 "") [("default", "-1")]) (Parser.RPath "i32") (PInt 0) id_codec]) [("a", (EUn UNeg (ELit 1 None)))]); (mkUnit "BitfieldI64" (Parser.mkRDecl true VisPublic "BitfieldI64" (Some (Parser.RArray (Parser.RPath "u8") (Parser.LenLit 8))) []
     [Parser.mkRField "a" VisPrivate (Parser.AList (Parser.RBits 64 "") [("default", "-1")]) (Parser.RPath "i64") (PInt 0) id_codec]) [("a", (EUn UNeg (ELit 1 None)))]); (mkUnit "BitfieldI128" (Parser.mkRDecl true VisPublic "BitfieldI128" (Some (Parser.RArray (Parser.RPath "u8") (Parser.LenLit 16))) []
     [Parser.mkRField "a" VisPrivate (Parser.AList (Parser.RBits 128 "") [("default", "-1")]) (Parser.RPath "i128") (PInt 0) id_codec]) [("a", (EUn UNeg (ELit 1 None)))])]
  [SAssert (TEq (TMeth "BitfieldI8" (TStat "BitfieldI8" "new" []) "a" []) (TV (RI (-1))));
   SAssert (TEq (TMeth "BitfieldI16" (TStat "BitfieldI16" "new" []) "a" []) (TV (RI (-1))));
   SAssert (TEq (TMeth "BitfieldI32" (TStat "BitfieldI32" "new" []) "a" []) (TV (RI (-1))));
   SAssert (TEq (TMeth "BitfieldI64" (TStat "BitfieldI64" "new" []) "a" []) (TV (RI (-1))));
   SAssert (TEq (TMeth "BitfieldI128" (TStat "BitfieldI128" "new" []) "a" []) (TV (RI (-1))))]) = true.
Proof. vm_compute. reflexivity. Qed.

(* lib_array_backed_tests.rs:2192 *)
Example bitfield_write_bits_arg_with_defaults_ : is_passed (run_test
  [(mkUnit "Bitfield" (Parser.mkRDecl true VisPublic "Bitfield" (Some (Parser.RArray (Parser.RPath "u8") (Parser.LenLit 4))) []
     [Parser.mkRField "a" VisPrivate (Parser.AList Parser.RNoBits [("default", "0x12")]) (Parser.RPath "u8") (PInt 0) id_codec;
      Parser.mkRField "b" VisPrivate Parser.ANone (Parser.RPath "u8") (PInt 0) id_codec;
      Parser.mkRField "c" VisPrivate Parser.ANone (Parser.RPath "u8") (PInt 0) id_codec;
      Parser.mkRField "d" VisPrivate (Parser.AList Parser.RNoBits [("default", "0x78")]) (Parser.RPath "u8") (PInt 0) id_codec]) [("a", (ELit 18 None)); ("d", (ELit 120 None))])]
  [SLetT "bitfield" (TStat "Bitfield" "new" []);
   SDo (TMeth "Bitfield" (TVar "bitfield") "write_bytes_with_defaults" [(TV (RA [68; 51; 34; 17]))]);
   SAssert (TEq (TMeth "Bitfield" (TVar "bitfield") "a" []) (TV (RI 18)));
   SAssert (TEq (TMeth "Bitfield" (TVar "bitfield") "b" []) (TV (RI 51)));
   SAssert (TEq (TMeth "Bitfield" (TVar "bitfield") "c" []) (TV (RI 34)));
   SAssert (TEq (TMeth "Bitfield" (TVar "bitfield") "d" []) (TV (RI 120)));
   SAssert (TEq (TMeth "Bitfield" (TVar "bitfield") "into_bytes" []) (TV (RA [120; 34; 51; 18])))]) = true.
Proof. vm_compute. reflexivity. Qed.

(* lib_array_backed_tests.rs:2215 *)
Example bitfield_clear_bits_arg_ : is_passed (run_test
  [(mkUnit "Bitfield" (Parser.mkRDecl true VisPublic "Bitfield" (Some (Parser.RArray (Parser.RPath "u8") (Parser.LenLit 4))) []
     [Parser.mkRField "a" VisPrivate (Parser.AList Parser.RNoBits [("default", "0x12")]) (Parser.RPath "u8") (PInt 0) id_codec;
      Parser.mkRField "b" VisPrivate (Parser.AList Parser.RNoBits [("default", "0x34")]) (Parser.RPath "u8") (PInt 0) id_codec;
      Parser.mkRField "c" VisPrivate (Parser.AList Parser.RNoBits [("default", "0x56")]) (Parser.RPath "u8") (PInt 0) id_codec;
      Parser.mkRField "d" VisPrivate (Parser.AList Parser.RNoBits [("default", "0x78")]) (Parser.RPath "u8") (PInt 0) id_codec]) [("a", (ELit 18 None)); ("b", (ELit 52 None)); ("c", (ELit 86 None)); ("d", (ELit 120 None))])]
  [SLetT "bitfield" (TStat "Bitfield" "new" []);
   SDo (TMeth "Bitfield" (TVar "bitfield") "clear_bytes" []);
   SAssert (TEq (TMeth "Bitfield" (TVar "bitfield") "a" []) (TV (RI 0)));
   SAssert (TEq (TMeth "Bitfield" (TVar "bitfield") "b" []) (TV (RI 0)));
   SAssert (TEq (TMeth "Bitfield" (TVar "bitfield") "c" []) (TV (RI 0)));
   SAssert (TEq (TMeth "Bitfield" (TVar "bitfield") "d" []) (TV (RI 0)));
   SAssert (TEq (TMeth "Bitfield" (TVar "bitfield") "into_bytes" []) (TV (RA [0; 0; 0; 0])))]) = true.
Proof. vm_compute. reflexivity. Qed.

(* lib_array_backed_tests.rs:2239 *)
Example bitfield_write_bits_with_defaults_all_defaults_ignored_fields_ : is_passed (run_test
  [(mkUnit "Bitfield" (Parser.mkRDecl true VisPublic "Bitfield" (Some (Parser.RArray (Parser.RPath "u8") (Parser.LenLit 4))) []
     [Parser.mkRField "a" VisPrivate (Parser.AList Parser.RNoBits [("default", "1")]) (Parser.RPath "u8") (PInt 0) id_codec;
      Parser.mkRField "b" VisPrivate (Parser.AList Parser.RNoBits [("default", "2")]) (Parser.RPath "u8") (PInt 0) id_codec;
      Parser.mkRField "c" VisPrivate (Parser.AList Parser.RNoBits [("default", "3")]) (Parser.RPath "u8") (PInt 0) id_codec;
      Parser.mkRField "d" VisPrivate (Parser.AList Parser.RNoBits [("default", "4")]) (Parser.RPath "u8") (PInt 0) id_codec;
      Parser.mkRField "cache" VisPrivate (Parser.AList Parser.RNoBits [("ignore", "true")]) (Parser.RPath "u32") (PInt 0) id_codec]) [("a", (ELit 1 None)); ("b", (ELit 2 None)); ("c", (ELit 3 None)); ("d", (ELit 4 None))])]
  [SLetT "bitfield" (TStat "Bitfield" "new" []);
   SDo (TMeth "Bitfield" (TVar "bitfield") "write_bytes_with_defaults" [(TV (RA [68; 51; 34; 17]))]);
   SAssert (TEq (TMeth "Bitfield" (TVar "bitfield") "a" []) (TV (RI 1)));
   SAssert (TEq (TMeth "Bitfield" (TVar "bitfield") "b" []) (TV (RI 2)));
   SAssert (TEq (TMeth "Bitfield" (TVar "bitfield") "c" []) (TV (RI 3)));
   SAssert (TEq (TMeth "Bitfield" (TVar "bitfield") "d" []) (TV (RI 4)));
   SAssert (TEq (TMeth "Bitfield" (TVar "bitfield") "into_bytes" []) (TV (RA [4; 3; 2; 1])))]) = true.
Proof. vm_compute. reflexivity. Qed.

(* lib_array_backed_tests.rs:2265 *)
Example bitfield_write_defaults_ : is_passed (run_test
  [(mkUnit "Bitfield" (Parser.mkRDecl true VisPublic "Bitfield" (Some (Parser.RArray (Parser.RPath "u8") (Parser.LenLit 4))) []
     [Parser.mkRField "a" VisPrivate (Parser.AList Parser.RNoBits [("default", "0x12")]) (Parser.RPath "u8") (PInt 0) id_codec;
      Parser.mkRField "b" VisPrivate Parser.ANone (Parser.RPath "u8") (PInt 0) id_codec;
      Parser.mkRField "c" VisPrivate Parser.ANone (Parser.RPath "u8") (PInt 0) id_codec;
      Parser.mkRField "d" VisPrivate (Parser.AList Parser.RNoBits [("default", "0x78")]) (Parser.RPath "u8") (PInt 0) id_codec]) [("a", (ELit 18 None)); ("d", (ELit 120 None))])]
  [SLetT "bitfield" (TStat "Bitfield" "new" []);
   SDo (TMeth "Bitfield" (TVar "bitfield") "write_bytes" [(TV (RA [68; 51; 34; 17]))]);
   SDo (TMeth "Bitfield" (TVar "bitfield") "write_defaults" []);
   SAssert (TEq (TMeth "Bitfield" (TVar "bitfield") "a" []) (TV (RI 18)));
   SAssert (TEq (TMeth "Bitfield" (TVar "bitfield") "b" []) (TV (RI 51)));
   SAssert (TEq (TMeth "Bitfield" (TVar "bitfield") "c" []) (TV (RI 34)));
   SAssert (TEq (TMeth "Bitfield" (TVar "bitfield") "d" []) (TV (RI 120)));
   SAssert (TEq (TMeth "Bitfield" (TVar "bitfield") "into_bytes" []) (TV (RA [120; 34; 51; 18])))]) = true.
Proof. vm_compute. reflexivity. Qed.

(* lib_array_backed_tests.rs:2288 *)
Example bitfield_write_defaults_all_fields_have_defaults_ : is_passed (run_test
  [(mkUnit "Bitfield" (Parser.mkRDecl true VisPublic "Bitfield" (Some (Parser.RArray (Parser.RPath "u8") (Parser.LenLit 4))) []
     [Parser.mkRField "a" VisPrivate (Parser.AList Parser.RNoBits [("default", "0x12")]) (Parser.RPath "u8") (PInt 0) id_codec;
      Parser.mkRField "b" VisPrivate (Parser.AList Parser.RNoBits [("default", "0x34")]) (Parser.RPath "u8") (PInt 0) id_codec;
      Parser.mkRField "c" VisPrivate (Parser.AList Parser.RNoBits [("default", "0x56")]) (Parser.RPath "u8") (PInt 0) id_codec;
      Parser.mkRField "d" VisPrivate (Parser.AList Parser.RNoBits [("default", "0x78")]) (Parser.RPath "u8") (PInt 0) id_codec]) [("a", (ELit 18 None)); ("b", (ELit 52 None)); ("c", (ELit 86 None)); ("d", (ELit 120 None))])]
  [SLetT "bitfield" (TStat "Bitfield" "new" []);
   SDo (TMeth "Bitfield" (TVar "bitfield") "write_bytes" [(TV (RA [68; 51; 34; 17]))]);
   SDo (TMeth "Bitfield" (TVar "bitfield") "write_defaults" []);
   SAssert (TEq (TMeth "Bitfield" (TVar "bitfield") "a" []) (TV (RI 18)));
   SAssert (TEq (TMeth "Bitfield" (TVar "bitfield") "b" []) (TV (RI 52)));
   SAssert (TEq (TMeth "Bitfield" (TVar "bitfield") "c" []) (TV (RI 86)));
   SAssert (TEq (TMeth "Bitfield" (TVar "bitfield") "d" []) (TV (RI 120)));
   SAssert (TEq (TMeth "Bitfield" (TVar "bitfield") "into_bytes" []) (TV (RA [120; 86; 52; 18])))]) = true.
Proof. vm_compute. reflexivity. Qed.

(* lib_array_backed_tests.rs:2313 *)
Example bitfield_write_defaults_no_fields_have_defaults_ : is_passed (run_test
  [(mkUnit "Bitfield" (Parser.mkRDecl true VisPublic "Bitfield" (Some (Parser.RArray (Parser.RPath "u8") (Parser.LenLit 4))) []
     [Parser.mkRField "a" VisPrivate Parser.ANone (Parser.RPath "u8") (PInt 0) id_codec;
      Parser.mkRField "b" VisPrivate Parser.ANone (Parser.RPath "u8") (PInt 0) id_codec;
      Parser.mkRField "c" VisPrivate Parser.ANone (Parser.RPath "u8") (PInt 0) id_codec;
      Parser.mkRField "d" VisPrivate Parser.ANone (Parser.RPath "u8") (PInt 0) id_codec]) [])]
  [SLetT "bitfield" (TStat "Bitfield" "new" []);
   SDo (TMeth "Bitfield" (TVar "bitfield") "write_bytes" [(TV (RA [68; 51; 34; 17]))]);
   SDo (TMeth "Bitfield" (TVar "bitfield") "write_defaults" []);
   SAssert (TEq (TMeth "Bitfield" (TVar "bitfield") "a" []) (TV (RI 68)));
   SAssert (TEq (TMeth "Bitfield" (TVar "bitfield") "b" []) (TV (RI 51)));
   SAssert (TEq (TMeth "Bitfield" (TVar "bitfield") "c" []) (TV (RI 34)));
   SAssert (TEq (TMeth "Bitfield" (TVar "bitfield") "d" []) (TV (RI 17)));
   SAssert (TEq (TMeth "Bitfield" (TVar "bitfield") "into_bytes" []) (TV (RA [17; 34; 51; 68])))]) = true.
Proof. vm_compute. reflexivity. Qed.

(* lib_array_backed_tests.rs:2334 *)
Example bitfield_write_defaults_booleans_ : is_passed (run_test
  [(mkUnit "Bitfield" (Parser.mkRDecl true VisPublic "Bitfield" (Some (Parser.RArray (Parser.RPath "u8") (Parser.LenLit 1))) []
     [Parser.mkRField "a" VisPrivate Parser.ANone (Parser.RPath "bool") (PInt 0) id_codec;
      Parser.mkRField "b" VisPrivate (Parser.AList Parser.RNoBits [("default", "false")]) (Parser.RPath "bool") (PInt 0) id_codec;
      Parser.mkRField "c" VisPrivate Parser.ANone (Parser.RPath "bool") (PInt 0) id_codec;
      Parser.mkRField "d" VisPrivate Parser.ANone (Parser.RPath "bool") (PInt 0) id_codec;
      Parser.mkRField "e" VisPrivate (Parser.AList Parser.RNoBits [("default", "false")]) (Parser.RPath "bool") (PInt 0) id_codec;
      Parser.mkRField "f" VisPrivate Parser.ANone (Parser.RPath "bool") (PInt 0) id_codec;
      Parser.mkRField "g" VisPrivate (Parser.AList Parser.RNoBits [("default", "true")]) (Parser.RPath "bool") (PInt 0) id_codec;
      Parser.mkRField "h" VisPrivate Parser.ANone (Parser.RPath "bool") (PInt 0) id_codec]) [("b", (EBool false)); ("e", (EBool false)); ("g", (EBool true))])]
  [SLetT "bitfield" (TStat "Bitfield" "new" []);
   SDo (TMeth "Bitfield" (TVar "bitfield") "write_bytes" [(TV (RA [255]))]);
   SDo (TMeth "Bitfield" (TVar "bitfield") "write_defaults" []);
   SAssert (TMeth "Bitfield" (TVar "bitfield") "a" []);
   SAssert (TNot (TMeth "Bitfield" (TVar "bitfield") "b" []));
   SAssert (TMeth "Bitfield" (TVar "bitfield") "c" []);
   SAssert (TMeth "Bitfield" (TVar "bitfield") "d" []);
   SAssert (TNot (TMeth "Bitfield" (TVar "bitfield") "e" []));
   SAssert (TMeth "Bitfield" (TVar "bitfield") "f" []);
   SAssert (TMeth "Bitfield" (TVar "bitfield") "g" []);
   SAssert (TMeth "Bitfield" (TVar "bitfield") "h" [])]) = true.
Proof. vm_compute. reflexivity. Qed.

(* lib_array_backed_tests.rs:2365 *)
Example bitfield_write_le_bits_ : is_passed (run_test
  [(mkUnit "Bitfield" (Parser.mkRDecl true VisPublic "Bitfield" (Some (Parser.RArray (Parser.RPath "u8") (Parser.LenLit 4))) []
     [Parser.mkRField "a" VisPrivate (Parser.AList Parser.RNoBits [("default", "0x12")]) (Parser.RPath "u8") (PInt 0) id_codec;
      Parser.mkRField "b" VisPrivate (Parser.AList Parser.RNoBits [("default", "0x34")]) (Parser.RPath "u8") (PInt 0) id_codec;
      Parser.mkRField "c" VisPrivate (Parser.AList Parser.RNoBits [("default", "0x56")]) (Parser.RPath "u8") (PInt 0) id_codec;
      Parser.mkRField "d" VisPrivate (Parser.AList Parser.RNoBits [("default", "0x78")]) (Parser.RPath "u8") (PInt 0) id_codec]) [("a", (ELit 18 None)); ("b", (ELit 52 None)); ("c", (ELit 86 None)); ("d", (ELit 120 None))])]
  [SLetT "bitfield" (TStat "Bitfield" "new" []);
   SDo (TMeth "Bitfield" (TVar "bitfield") "write_le_bytes" [(TV (RA [68; 51; 34; 17]))]);
   SAssert (TEq (TMeth "Bitfield" (TVar "bitfield") "a" []) (TV (RI 17)));
   SAssert (TEq (TMeth "Bitfield" (TVar "bitfield") "b" []) (TV (RI 34)));
   SAssert (TEq (TMeth "Bitfield" (TVar "bitfield") "c" []) (TV (RI 51)));
   SAssert (TEq (TMeth "Bitfield" (TVar "bitfield") "d" []) (TV (RI 68)));
   SAssert (TEq (TMeth "Bitfield" (TVar "bitfield") "into_bytes" []) (TV (RA [68; 51; 34; 17])))]) = true.
Proof. vm_compute. reflexivity. Qed.

(* lib_array_backed_tests.rs:2389 *)
Example bitfield_write_le_bits_with_defaults_ : is_passed (run_test
  [(mkUnit "Bitfield" (Parser.mkRDecl true VisPublic "Bitfield" (Some (Parser.RArray (Parser.RPath "u8") (Parser.LenLit 4))) []
     [Parser.mkRField "a" VisPrivate (Parser.AList Parser.RNoBits [("default", "0x12")]) (Parser.RPath "u8") (PInt 0) id_codec;
      Parser.mkRField "b" VisPrivate Parser.ANone (Parser.RPath "u8") (PInt 0) id_codec;
      Parser.mkRField "c" VisPrivate Parser.ANone (Parser.RPath "u8") (PInt 0) id_codec;
      Parser.mkRField "d" VisPrivate (Parser.AList Parser.RNoBits [("default", "0x78")]) (Parser.RPath "u8") (PInt 0) id_codec]) [("a", (ELit 18 None)); ("d", (ELit 120 None))])]
  [SLetT "bitfield" (TStat "Bitfield" "new" []);
   SDo (TMeth "Bitfield" (TVar "bitfield") "write_le_bytes_with_defaults" [(TV (RA [68; 51; 34; 17]))]);
   SAssert (TEq (TMeth "Bitfield" (TVar "bitfield") "a" []) (TV (RI 18)));
   SAssert (TEq (TMeth "Bitfield" (TVar "bitfield") "b" []) (TV (RI 34)));
   SAssert (TEq (TMeth "Bitfield" (TVar "bitfield") "c" []) (TV (RI 51)));
   SAssert (TEq (TMeth "Bitfield" (TVar "bitfield") "d" []) (TV (RI 120)));
   SAssert (TEq (TMeth "Bitfield" (TVar "bitfield") "into_bytes" []) (TV (RA [120; 51; 34; 18])))]) = true.
Proof. vm_compute. reflexivity. Qed.

(* lib_array_backed_tests.rs:2411 *)
Example bitfield_write_le_bits_with_defaults_all_fields_have_defaults_ : is_passed (run_test
  [(mkUnit "Bitfield" (Parser.mkRDecl true VisPublic "Bitfield" (Some (Parser.RArray (Parser.RPath "u8") (Parser.LenLit 4))) []
     [Parser.mkRField "a" VisPrivate (Parser.AList Parser.RNoBits [("default", "0x12")]) (Parser.RPath "u8") (PInt 0) id_codec;
      Parser.mkRField "b" VisPrivate (Parser.AList Parser.RNoBits [("default", "0x34")]) (Parser.RPath "u8") (PInt 0) id_codec;
      Parser.mkRField "c" VisPrivate (Parser.AList Parser.RNoBits [("default", "0x56")]) (Parser.RPath "u8") (PInt 0) id_codec;
      Parser.mkRField "d" VisPrivate (Parser.AList Parser.RNoBits [("default", "0x78")]) (Parser.RPath "u8") (PInt 0) id_codec]) [("a", (ELit 18 None)); ("b", (ELit 52 None)); ("c", (ELit 86 None)); ("d", (ELit 120 None))])]
  [SLetT "bitfield" (TStat "Bitfield" "new" []);
   SDo (TMeth "Bitfield" (TVar "bitfield") "write_le_bytes_with_defaults" [(TV (RA [68; 51; 34; 17]))]);
   SAssert (TEq (TMeth "Bitfield" (TVar "bitfield") "a" []) (TV (RI 18)));
   SAssert (TEq (TMeth "Bitfield" (TVar "bitfield") "b" []) (TV (RI 52)));
   SAssert (TEq (TMeth "Bitfield" (TVar "bitfield") "c" []) (TV (RI 86)));
   SAssert (TEq (TMeth "Bitfield" (TVar "bitfield") "d" []) (TV (RI 120)))]) = true.
Proof. vm_compute. reflexivity. Qed.

(* lib_array_backed_tests.rs:2434 *)
Example bitfield_write_le_bits_booleans_ : is_passed (run_test
  [(mkUnit "Bitfield" (Parser.mkRDecl true VisPublic "Bitfield" (Some (Parser.RArray (Parser.RPath "u8") (Parser.LenLit 1))) []
     [Parser.mkRField "a" VisPrivate Parser.ANone (Parser.RPath "bool") (PInt 0) id_codec;
      Parser.mkRField "b" VisPrivate (Parser.AList Parser.RNoBits [("default", "false")]) (Parser.RPath "bool") (PInt 0) id_codec;
      Parser.mkRField "c" VisPrivate Parser.ANone (Parser.RPath "bool") (PInt 0) id_codec;
      Parser.mkRField "d" VisPrivate Parser.ANone (Parser.RPath "bool") (PInt 0) id_codec;
      Parser.mkRField "e" VisPrivate (Parser.AList Parser.RNoBits [("default", "false")]) (Parser.RPath "bool") (PInt 0) id_codec;
      Parser.mkRField "f" VisPrivate Parser.ANone (Parser.RPath "bool") (PInt 0) id_codec;
      Parser.mkRField "g" VisPrivate (Parser.AList Parser.RNoBits [("default", "true")]) (Parser.RPath "bool") (PInt 0) id_codec;
      Parser.mkRField "h" VisPrivate Parser.ANone (Parser.RPath "bool") (PInt 0) id_codec]) [("b", (EBool false)); ("e", (EBool false)); ("g", (EBool true))])]
  [SLetT "bitfield" (TStat "Bitfield" "new" []);
   SDo (TMeth "Bitfield" (TVar "bitfield") "write_le_bytes" [(TV (RA [255]))]);
   SAssert (TMeth "Bitfield" (TVar "bitfield") "a" []);
   SAssert (TMeth "Bitfield" (TVar "bitfield") "b" []);
   SAssert (TMeth "Bitfield" (TVar "bitfield") "c" []);
   SAssert (TMeth "Bitfield" (TVar "bitfield") "d" []);
   SAssert (TMeth "Bitfield" (TVar "bitfield") "e" []);
   SAssert (TMeth "Bitfield" (TVar "bitfield") "f" []);
   SAssert (TMeth "Bitfield" (TVar "bitfield") "g" []);
   SAssert (TMeth "Bitfield" (TVar "bitfield") "h" [])]) = true.
Proof. vm_compute. reflexivity. Qed.

(* lib_array_backed_tests.rs:2464 *)
Example bitfield_write_le_bits_with_defaults_booleans_ : is_passed (run_test
  [(mkUnit "Bitfield" (Parser.mkRDecl true VisPublic "Bitfield" (Some (Parser.RArray (Parser.RPath "u8") (Parser.LenLit 1))) []
     [Parser.mkRField "a" VisPrivate Parser.ANone (Parser.RPath "bool") (PInt 0) id_codec;
      Parser.mkRField "b" VisPrivate (Parser.AList Parser.RNoBits [("default", "false")]) (Parser.RPath "bool") (PInt 0) id_codec;
      Parser.mkRField "c" VisPrivate Parser.ANone (Parser.RPath "bool") (PInt 0) id_codec;
      Parser.mkRField "d" VisPrivate Parser.ANone (Parser.RPath "bool") (PInt 0) id_codec;
      Parser.mkRField "e" VisPrivate (Parser.AList Parser.RNoBits [("default", "false")]) (Parser.RPath "bool") (PInt 0) id_codec;
      Parser.mkRField "f" VisPrivate Parser.ANone (Parser.RPath "bool") (PInt 0) id_codec;
      Parser.mkRField "g" VisPrivate (Parser.AList Parser.RNoBits [("default", "true")]) (Parser.RPath "bool") (PInt 0) id_codec;
      Parser.mkRField "h" VisPrivate Parser.ANone (Parser.RPath "bool") (PInt 0) id_codec]) [("b", (EBool false)); ("e", (EBool false)); ("g", (EBool true))])]
  [SLetT "bitfield" (TStat "Bitfield" "new" []);
   SDo (TMeth "Bitfield" (TVar "bitfield") "write_le_bytes_with_defaults" [(TV (RA [255]))]);
   SAssert (TMeth "Bitfield" (TVar "bitfield") "a" []);
   SAssert (TNot (TMeth "Bitfield" (TVar "bitfield") "b" []));
   SAssert (TMeth "Bitfield" (TVar "bitfield") "c" []);
   SAssert (TMeth "Bitfield" (TVar "bitfield") "d" []);
   SAssert (TNot (TMeth "Bitfield" (TVar "bitfield") "e" []));
   SAssert (TMeth "Bitfield" (TVar "bitfield") "f" []);
   SAssert (TMeth "Bitfield" (TVar "bitfield") "g" []);
   SAssert (TMeth "Bitfield" (TVar "bitfield") "h" [])]) = true.
Proof. vm_compute. reflexivity. Qed.

(* lib_array_backed_tests.rs:2494 *)
Example bitfield_write_le_bits_field_access_read_only_ : is_passed (run_test
  [(mkUnit "Bitfield" (Parser.mkRDecl true VisPrivate "Bitfield" (Some (Parser.RArray (Parser.RPath "u8") (Parser.LenLit 1))) []
     [Parser.mkRField "rw" VisPrivate (Parser.AList (Parser.RBits 4 "") []) (Parser.RPath "u8") (PInt 0) id_codec;
      Parser.mkRField "ro" VisPrivate (Parser.AList (Parser.RBits 4 "") [("access", "ro")]) (Parser.RPath "u8") (PInt 0) id_codec]) [])]
  [SLetT "bitfield" (TBuild "Bitfield" "build" [(TBuild "Bitfield" "with_ro" [(TBuild "Bitfield" "new" []); (TV (RI 10))])]);
   SDo (TMeth "Bitfield" (TVar "bitfield") "write_le_bytes" [(TV (RA [255]))]);
   SAssert (TEq (TV (RI 15)) (TMeth "Bitfield" (TVar "bitfield") "rw" []));
   SAssert (TEq (TV (RI 10)) (TMeth "Bitfield" (TVar "bitfield") "ro" []))]) = true.
Proof. vm_compute. reflexivity. Qed.

(* lib_array_backed_tests.rs:2511 *)
Example bitfield_write_le_bits_does_not_set_read_only_fields_ : is_passed (run_test
  [(mkUnit "Bitfield" (Parser.mkRDecl true VisPublic "Bitfield" (Some (Parser.RArray (Parser.RPath "u8") (Parser.LenLit 4))) []
     [Parser.mkRField "rw_field" VisPrivate (Parser.AList Parser.RNoBits [("default", "0x12")]) (Parser.RPath "u8") (PInt 0) id_codec;
      Parser.mkRField "ro_field" VisPrivate (Parser.AList Parser.RNoBits [("default", "0x34"); ("access", "ro")]) (Parser.RPath "u8") (PInt 0) id_codec;
      Parser.mkRField "no_default_field" VisPrivate Parser.ANone (Parser.RPath "u8") (PInt 0) id_codec;
      Parser.mkRField "another_field" VisPrivate (Parser.AList Parser.RNoBits [("default", "0x78")]) (Parser.RPath "u8") (PInt 0) id_codec]) [("rw_field", (ELit 18 None)); ("ro_field", (ELit 52 None)); ("another_field", (ELit 120 None))])]
  [SLetT "bitfield" (TStat "Bitfield" "new" []);
   SDo (TMeth "Bitfield" (TVar "bitfield") "write_le_bytes" [(TV (RA [17; 34; 51; 68]))]);
   SAssert (TEq (TMeth "Bitfield" (TVar "bitfield") "rw_field" []) (TV (RI 68)));
   SAssert (TEq (TMeth "Bitfield" (TVar "bitfield") "ro_field" []) (TV (RI 52)));
   SAssert (TEq (TMeth "Bitfield" (TVar "bitfield") "no_default_field" []) (TV (RI 34)));
   SAssert (TEq (TMeth "Bitfield" (TVar "bitfield") "another_field" []) (TV (RI 17)));
   SAssert (TEq (TMeth "Bitfield" (TVar "bitfield") "into_bytes" []) (TV (RA [17; 34; 52; 68])))]) = true.
Proof. vm_compute. reflexivity. Qed.

(* lib_array_backed_tests.rs:2534 *)
Example bitfield_write_le_bits_does_not_set_read_only_bool_fields_ : is_passed (run_test
  [(mkUnit "Bitfield" (Parser.mkRDecl true VisPublic "Bitfield" (Some (Parser.RArray (Parser.RPath "u8") (Parser.LenLit 2))) []
     [Parser.mkRField "a" VisPrivate (Parser.AList (Parser.RBits 4 "") []) (Parser.RPath "u8") (PInt 0) id_codec;
      Parser.mkRField "ro_bool" VisPrivate (Parser.AList Parser.RNoBits [("access", "ro")]) (Parser.RPath "bool") (PInt 0) id_codec;
      Parser.mkRField "b" VisPrivate (Parser.AList (Parser.RBits 3 "") []) (Parser.RPath "u8") (PInt 0) id_codec;
      Parser.mkRField "c" VisPrivate (Parser.AList (Parser.RBits 8 "") []) (Parser.RPath "u8") (PInt 0) id_codec]) [])]
  [SLetT "bitfield_with_ro_true" (TBuild "Bitfield" "build" [(TBuild "Bitfield" "with_ro_bool" [(TBuild "Bitfield" "new" []); (TV (RB true))])]);
   SDo (TMeth "Bitfield" (TVar "bitfield_with_ro_true") "write_le_bytes" [(TV (RA [0; 0]))]);
   SAssert (TMeth "Bitfield" (TVar "bitfield_with_ro_true") "ro_bool" []);
   SLetT "bitfield_with_ro_false" (TStat "Bitfield" "new" []);
   SDo (TMeth "Bitfield" (TVar "bitfield_with_ro_false") "write_le_bytes" [(TV (RA [255; 255]))]);
   SAssert (TNot (TMeth "Bitfield" (TVar "bitfield_with_ro_false") "ro_bool" []))]) = true.
Proof. vm_compute. reflexivity. Qed.

(* lib_array_backed_tests.rs:2557 *)
Example bitfield_write_be_bits_ : is_passed (run_test
  [(mkUnit "Bitfield" (Parser.mkRDecl true VisPublic "Bitfield" (Some (Parser.RArray (Parser.RPath "u8") (Parser.LenLit 4))) []
     [Parser.mkRField "a" VisPrivate (Parser.AList Parser.RNoBits [("default", "0x12")]) (Parser.RPath "u8") (PInt 0) id_codec;
      Parser.mkRField "b" VisPrivate (Parser.AList Parser.RNoBits [("default", "0x34")]) (Parser.RPath "u8") (PInt 0) id_codec;
      Parser.mkRField "c" VisPrivate (Parser.AList Parser.RNoBits [("default", "0x56")]) (Parser.RPath "u8") (PInt 0) id_codec;
      Parser.mkRField "d" VisPrivate (Parser.AList Parser.RNoBits [("default", "0x78")]) (Parser.RPath "u8") (PInt 0) id_codec]) [("a", (ELit 18 None)); ("b", (ELit 52 None)); ("c", (ELit 86 None)); ("d", (ELit 120 None))])]
  [SLetT "bitfield" (TStat "Bitfield" "new" []);
   SDo (TMeth "Bitfield" (TVar "bitfield") "write_be_bytes" [(TV (RA [68; 51; 34; 17]))]);
   SAssert (TEq (TMeth "Bitfield" (TVar "bitfield") "a" []) (TV (RI 68)));
   SAssert (TEq (TMeth "Bitfield" (TVar "bitfield") "b" []) (TV (RI 51)));
   SAssert (TEq (TMeth "Bitfield" (TVar "bitfield") "c" []) (TV (RI 34)));
   SAssert (TEq (TMeth "Bitfield" (TVar "bitfield") "d" []) (TV (RI 17)));
   SAssert (TEq (TMeth "Bitfield" (TVar "bitfield") "into_bytes" []) (TV (RA [17; 34; 51; 68])))]) = true.
Proof. vm_compute. reflexivity. Qed.

(* lib_array_backed_tests.rs:2581 *)
Example bitfield_write_be_bits_with_defaults_ : is_passed (run_test
  [(mkUnit "Bitfield" (Parser.mkRDecl true VisPublic "Bitfield" (Some (Parser.RArray (Parser.RPath "u8") (Parser.LenLit 4))) []
     [Parser.mkRField "a" VisPrivate (Parser.AList Parser.RNoBits [("default", "0x12")]) (Parser.RPath "u8") (PInt 0) id_codec;
      Parser.mkRField "b" VisPrivate Parser.ANone (Parser.RPath "u8") (PInt 0) id_codec;
      Parser.mkRField "c" VisPrivate Parser.ANone (Parser.RPath "u8") (PInt 0) id_codec;
      Parser.mkRField "d" VisPrivate (Parser.AList Parser.RNoBits [("default", "0x78")]) (Parser.RPath "u8") (PInt 0) id_codec]) [("a", (ELit 18 None)); ("d", (ELit 120 None))])]
  [SLetT "bitfield" (TStat "Bitfield" "new" []);
   SDo (TMeth "Bitfield" (TVar "bitfield") "write_be_bytes_with_defaults" [(TV (RA [68; 51; 34; 17]))]);
   SAssert (TEq (TMeth "Bitfield" (TVar "bitfield") "a" []) (TV (RI 18)));
   SAssert (TEq (TMeth "Bitfield" (TVar "bitfield") "b" []) (TV (RI 51)));
   SAssert (TEq (TMeth "Bitfield" (TVar "bitfield") "c" []) (TV (RI 34)));
   SAssert (TEq (TMeth "Bitfield" (TVar "bitfield") "d" []) (TV (RI 120)));
   SAssert (TEq (TMeth "Bitfield" (TVar "bitfield") "into_bytes" []) (TV (RA [120; 34; 51; 18])))]) = true.
Proof. vm_compute. reflexivity. Qed.

(* lib_array_backed_tests.rs:2603 *)
Example bitfield_write_be_bits_with_defaults_all_fields_have_defaults_ : is_passed (run_test
  [(mkUnit "Bitfield" (Parser.mkRDecl true VisPublic "Bitfield" (Some (Parser.RArray (Parser.RPath "u8") (Parser.LenLit 4))) []
     [Parser.mkRField "a" VisPrivate (Parser.AList Parser.RNoBits [("default", "0x12")]) (Parser.RPath "u8") (PInt 0) id_codec;
      Parser.mkRField "b" VisPrivate (Parser.AList Parser.RNoBits [("default", "0x34")]) (Parser.RPath "u8") (PInt 0) id_codec;
      Parser.mkRField "c" VisPrivate (Parser.AList Parser.RNoBits [("default", "0x56")]) (Parser.RPath "u8") (PInt 0) id_codec;
      Parser.mkRField "d" VisPrivate (Parser.AList Parser.RNoBits [("default", "0x78")]) (Parser.RPath "u8") (PInt 0) id_codec]) [("a", (ELit 18 None)); ("b", (ELit 52 None)); ("c", (ELit 86 None)); ("d", (ELit 120 None))])]
  [SLetT "bitfield" (TStat "Bitfield" "new" []);
   SDo (TMeth "Bitfield" (TVar "bitfield") "write_be_bytes_with_defaults" [(TV (RA [68; 51; 34; 17]))]);
   SAssert (TEq (TMeth "Bitfield" (TVar "bitfield") "a" []) (TV (RI 18)));
   SAssert (TEq (TMeth "Bitfield" (TVar "bitfield") "b" []) (TV (RI 52)));
   SAssert (TEq (TMeth "Bitfield" (TVar "bitfield") "c" []) (TV (RI 86)));
   SAssert (TEq (TMeth "Bitfield" (TVar "bitfield") "d" []) (TV (RI 120)))]) = true.
Proof. vm_compute. reflexivity. Qed.

(* lib_array_backed_tests.rs:2626 *)
Example bitfield_write_be_bits_booleans_ : is_passed (run_test
  [(mkUnit "Bitfield" (Parser.mkRDecl true VisPublic "Bitfield" (Some (Parser.RArray (Parser.RPath "u8") (Parser.LenLit 1))) []
     [Parser.mkRField "a" VisPrivate Parser.ANone (Parser.RPath "bool") (PInt 0) id_codec;
      Parser.mkRField "b" VisPrivate (Parser.AList Parser.RNoBits [("default", "false")]) (Parser.RPath "bool") (PInt 0) id_codec;
      Parser.mkRField "c" VisPrivate Parser.ANone (Parser.RPath "bool") (PInt 0) id_codec;
      Parser.mkRField "d" VisPrivate Parser.ANone (Parser.RPath "bool") (PInt 0) id_codec;
      Parser.mkRField "e" VisPrivate (Parser.AList Parser.RNoBits [("default", "false")]) (Parser.RPath "bool") (PInt 0) id_codec;
      Parser.mkRField "f" VisPrivate Parser.ANone (Parser.RPath "bool") (PInt 0) id_codec;
      Parser.mkRField "g" VisPrivate (Parser.AList Parser.RNoBits [("default", "true")]) (Parser.RPath "bool") (PInt 0) id_codec;
      Parser.mkRField "h" VisPrivate Parser.ANone (Parser.RPath "bool") (PInt 0) id_codec]) [("b", (EBool false)); ("e", (EBool false)); ("g", (EBool true))])]
  [SLetT "bitfield" (TStat "Bitfield" "new" []);
   SDo (TMeth "Bitfield" (TVar "bitfield") "write_be_bytes" [(TV (RA [255]))]);
   SAssert (TMeth "Bitfield" (TVar "bitfield") "a" []);
   SAssert (TMeth "Bitfield" (TVar "bitfield") "b" []);
   SAssert (TMeth "Bitfield" (TVar "bitfield") "c" []);
   SAssert (TMeth "Bitfield" (TVar "bitfield") "d" []);
   SAssert (TMeth "Bitfield" (TVar "bitfield") "e" []);
   SAssert (TMeth "Bitfield" (TVar "bitfield") "f" []);
   SAssert (TMeth "Bitfield" (TVar "bitfield") "g" []);
   SAssert (TMeth "Bitfield" (TVar "bitfield") "h" [])]) = true.
Proof. vm_compute. reflexivity. Qed.

(* lib_array_backed_tests.rs:2656 *)
Example bitfield_write_be_bits_with_defaults_booleans_ : is_passed (run_test
  [(mkUnit "Bitfield" (Parser.mkRDecl true VisPublic "Bitfield" (Some (Parser.RArray (Parser.RPath "u8") (Parser.LenLit 1))) []
     [Parser.mkRField "a" VisPrivate Parser.ANone (Parser.RPath "bool") (PInt 0) id_codec;
      Parser.mkRField "b" VisPrivate (Parser.AList Parser.RNoBits [("default", "false")]) (Parser.RPath "bool") (PInt 0) id_codec;
      Parser.mkRField "c" VisPrivate Parser.ANone (Parser.RPath "bool") (PInt 0) id_codec;
      Parser.mkRField "d" VisPrivate Parser.ANone (Parser.RPath "bool") (PInt 0) id_codec;
      Parser.mkRField "e" VisPrivate (Parser.AList Parser.RNoBits [("default", "false")]) (Parser.RPath "bool") (PInt 0) id_codec;
      Parser.mkRField "f" VisPrivate Parser.ANone (Parser.RPath "bool") (PInt 0) id_codec;
      Parser.mkRField "g" VisPrivate (Parser.AList Parser.RNoBits [("default", "true")]) (Parser.RPath "bool") (PInt 0) id_codec;
      Parser.mkRField "h" VisPrivate Parser.ANone (Parser.RPath "bool") (PInt 0) id_codec]) [("b", (EBool false)); ("e", (EBool false)); ("g", (EBool true))])]
  [SLetT "bitfield" (TStat "Bitfield" "new" []);
   SDo (TMeth "Bitfield" (TVar "bitfield") "write_be_bytes_with_defaults" [(TV (RA [255]))]);
   SAssert (TMeth "Bitfield" (TVar "bitfield") "a" []);
   SAssert (TNot (TMeth "Bitfield" (TVar "bitfield") "b" []));
   SAssert (TMeth "Bitfield" (TVar "bitfield") "c" []);
   SAssert (TMeth "Bitfield" (TVar "bitfield") "d" []);
   SAssert (TNot (TMeth "Bitfield" (TVar "bitfield") "e" []));
   SAssert (TMeth "Bitfield" (TVar "bitfield") "f" []);
   SAssert (TMeth "Bitfield" (TVar "bitfield") "g" []);
   SAssert (TMeth "Bitfield" (TVar "bitfield") "h" [])]) = true.
Proof. vm_compute. reflexivity. Qed.

(* lib_array_backed_tests.rs:2686 *)
Example bitfield_write_be_bits_field_access_read_only_ : is_passed (run_test
  [(mkUnit "Bitfield" (Parser.mkRDecl true VisPrivate "Bitfield" (Some (Parser.RArray (Parser.RPath "u8") (Parser.LenLit 1))) []
     [Parser.mkRField "rw" VisPrivate (Parser.AList (Parser.RBits 4 "") []) (Parser.RPath "u8") (PInt 0) id_codec;
      Parser.mkRField "ro" VisPrivate (Parser.AList (Parser.RBits 4 "") [("access", "ro")]) (Parser.RPath "u8") (PInt 0) id_codec]) [])]
  [SLetT "bitfield" (TBuild "Bitfield" "build" [(TBuild "Bitfield" "with_ro" [(TBuild "Bitfield" "new" []); (TV (RI 10))])]);
   SDo (TMeth "Bitfield" (TVar "bitfield") "write_be_bytes" [(TV (RA [255]))]);
   SAssert (TEq (TV (RI 15)) (TMeth "Bitfield" (TVar "bitfield") "rw" []));
   SAssert (TEq (TV (RI 10)) (TMeth "Bitfield" (TVar "bitfield") "ro" []))]) = true.
Proof. vm_compute. reflexivity. Qed.

(* lib_array_backed_tests.rs:2703 *)
Example bitfield_write_be_bits_does_not_set_read_only_fields_ : is_passed (run_test
  [(mkUnit "Bitfield" (Parser.mkRDecl true VisPublic "Bitfield" (Some (Parser.RArray (Parser.RPath "u8") (Parser.LenLit 4))) []
     [Parser.mkRField "rw_field" VisPrivate (Parser.AList Parser.RNoBits [("default", "0x12")]) (Parser.RPath "u8") (PInt 0) id_codec;
      Parser.mkRField "ro_field" VisPrivate (Parser.AList Parser.RNoBits [("default", "0x34"); ("access", "ro")]) (Parser.RPath "u8") (PInt 0) id_codec;
      Parser.mkRField "no_default_field" VisPrivate Parser.ANone (Parser.RPath "u8") (PInt 0) id_codec;
      Parser.mkRField "another_field" VisPrivate (Parser.AList Parser.RNoBits [("default", "0x78")]) (Parser.RPath "u8") (PInt 0) id_codec]) [("rw_field", (ELit 18 None)); ("ro_field", (ELit 52 None)); ("another_field", (ELit 120 None))])]
  [SLetT "bitfield" (TStat "Bitfield" "new" []);
   SDo (TMeth "Bitfield" (TVar "bitfield") "write_be_bytes" [(TV (RA [68; 51; 34; 17]))]);
   SAssert (TEq (TMeth "Bitfield" (TVar "bitfield") "rw_field" []) (TV (RI 68)));
   SAssert (TEq (TMeth "Bitfield" (TVar "bitfield") "ro_field" []) (TV (RI 52)));
   SAssert (TEq (TMeth "Bitfield" (TVar "bitfield") "no_default_field" []) (TV (RI 34)));
   SAssert (TEq (TMeth "Bitfield" (TVar "bitfield") "another_field" []) (TV (RI 17)));
   SAssert (TEq (TMeth "Bitfield" (TVar "bitfield") "into_bytes" []) (TV (RA [17; 34; 52; 68])))]) = true.
Proof. vm_compute. reflexivity. Qed.

(* lib_array_backed_tests.rs:2726 *)
Example bitfield_write_be_bits_does_not_set_read_only_bool_fields_ : is_passed (run_test
  [(mkUnit "Bitfield" (Parser.mkRDecl true VisPublic "Bitfield" (Some (Parser.RArray (Parser.RPath "u8") (Parser.LenLit 2))) []
     [Parser.mkRField "a" VisPrivate (Parser.AList (Parser.RBits 4 "") []) (Parser.RPath "u8") (PInt 0) id_codec;
      Parser.mkRField "ro_bool" VisPrivate (Parser.AList Parser.RNoBits [("access", "ro")]) (Parser.RPath "bool") (PInt 0) id_codec;
      Parser.mkRField "b" VisPrivate (Parser.AList (Parser.RBits 3 "") []) (Parser.RPath "u8") (PInt 0) id_codec;
      Parser.mkRField "c" VisPrivate (Parser.AList (Parser.RBits 8 "") []) (Parser.RPath "u8") (PInt 0) id_codec]) [])]
  [SLetT "bitfield_with_ro_true" (TBuild "Bitfield" "build" [(TBuild "Bitfield" "with_ro_bool" [(TBuild "Bitfield" "new" []); (TV (RB true))])]);
   SDo (TMeth "Bitfield" (TVar "bitfield_with_ro_true") "write_be_bytes" [(TV (RA [0; 0]))]);
   SAssert (TMeth "Bitfield" (TVar "bitfield_with_ro_true") "ro_bool" []);
   SLetT "bitfield_with_ro_false" (TStat "Bitfield" "new" []);
   SDo (TMeth "Bitfield" (TVar "bitfield_with_ro_false") "write_be_bytes" [(TV (RA [255; 255]))]);
   SAssert (TNot (TMeth "Bitfield" (TVar "bitfield_with_ro_false") "ro_bool" []))]) = true.
Proof. vm_compute. reflexivity. Qed.

(* lib_array_backed_tests.rs:2749 *)
Example bitfield_custom_field_no_write_access_ : is_passed (run_test
  [(mkUnit "Bitfield" (Parser.mkRDecl true VisPublic "Bitfield" (Some (Parser.RArray (Parser.RPath "u8") (Parser.LenLit 2))) []
     [Parser.mkRField "a" VisPrivate (Parser.AList Parser.RNoBits [("default", "0x12")]) (Parser.RPath "u8") (PInt 0) id_codec;
      Parser.mkRField "nested_field" VisPrivate (Parser.AList (Parser.RBits 8 "") [("default", "CustomType::A"); ("access", "ro")]) (Parser.RPath "CustomType") (PInt 0) (mkCodec U8 (fun bits => (if Z.eqb bits 3 then 0 else (if Z.eqb bits 4 then 1 else 0))) U8 (fun self => (if Z.eqb self 0 then 3 else (if Z.eqb self 1 then 4 else (-1)))))]) [("a", (ELit 18 None)); ("nested_field", (EUser (TUser "nested_field") (RC 0)))])]
  [SLetT "bitfield" (TStat "Bitfield" "new" []);
   SAssert (TEq (TMeth "Bitfield" (TVar "bitfield") "into_bytes" []) (TV (RA [3; 18])))]) = true.
Proof. vm_compute. reflexivity. Qed.

(* lib_array_backed_tests.rs:2786 *)
Example bitfield_from_traits_msb_from_little_into_little_ : is_passed (run_test
  [(mkUnit "Bitfield" (Parser.mkRDecl true VisPublic "Bitfield" (Some (Parser.RArray (Parser.RPath "u8") (Parser.LenLit 4))) [("order", "msb"); ("from_endian", "little"); ("into_endian", "little")]
     [Parser.mkRField "a" VisPrivate Parser.ANone (Parser.RPath "u8") (PInt 0) id_codec;
      Parser.mkRField "b" VisPrivate Parser.ANone (Parser.RPath "u8") (PInt 0) id_codec;
      Parser.mkRField "c" VisPrivate Parser.ANone (Parser.RPath "u8") (PInt 0) id_codec;
      Parser.mkRField "d" VisPrivate Parser.ANone (Parser.RPath "u8") (PInt 0) id_codec]) [])]
  [SLetT "bitfield" (TFrom "Bitfield" (TV (RA [120; 86; 52; 18])));
   SLetT "bits" (TInto "Bitfield" (TVar "bitfield"));
   SAssert (TEq (TMeth "Bitfield" (TVar "bitfield") "a" []) (TV (RI 18)));
   SAssert (TEq (TMeth "Bitfield" (TVar "bitfield") "b" []) (TV (RI 52)));
   SAssert (TEq (TMeth "Bitfield" (TVar "bitfield") "c" []) (TV (RI 86)));
   SAssert (TEq (TMeth "Bitfield" (TVar "bitfield") "d" []) (TV (RI 120)));
   SAssert (TEq (TVar "bits") (TV (RA [120; 86; 52; 18])))]) = true.
Proof. vm_compute. reflexivity. Qed.

(* lib_array_backed_tests.rs:2806 *)
Example bitfield_from_traits_lsb_from_little_into_little_ : is_passed (run_test
  [(mkUnit "Bitfield" (Parser.mkRDecl true VisPublic "Bitfield" (Some (Parser.RArray (Parser.RPath "u8") (Parser.LenLit 4))) [("order", "lsb"); ("from_endian", "little"); ("into_endian", "little")]
     [Parser.mkRField "a" VisPrivate Parser.ANone (Parser.RPath "u8") (PInt 0) id_codec;
      Parser.mkRField "b" VisPrivate Parser.ANone (Parser.RPath "u8") (PInt 0) id_codec;
      Parser.mkRField "c" VisPrivate Parser.ANone (Parser.RPath "u8") (PInt 0) id_codec;
      Parser.mkRField "d" VisPrivate Parser.ANone (Parser.RPath "u8") (PInt 0) id_codec]) [])]
  [SLetT "bitfield" (TFrom "Bitfield" (TV (RA [120; 86; 52; 18])));
   SLetT "bits" (TInto "Bitfield" (TVar "bitfield"));
   SAssert (TEq (TMeth "Bitfield" (TVar "bitfield") "a" []) (TV (RI 120)));
   SAssert (TEq (TMeth "Bitfield" (TVar "bitfield") "b" []) (TV (RI 86)));
   SAssert (TEq (TMeth "Bitfield" (TVar "bitfield") "c" []) (TV (RI 52)));
   SAssert (TEq (TMeth "Bitfield" (TVar "bitfield") "d" []) (TV (RI 18)));
   SAssert (TEq (TVar "bits") (TV (RA [120; 86; 52; 18])))]) = true.
Proof. vm_compute. reflexivity. Qed.

(* lib_array_backed_tests.rs:2826 *)
Example bitfield_from_traits_lsb_from_big_into_big_ : is_passed (run_test
  [(mkUnit "Bitfield" (Parser.mkRDecl true VisPublic "Bitfield" (Some (Parser.RArray (Parser.RPath "u8") (Parser.LenLit 4))) [("order", "lsb"); ("from_endian", "big"); ("into_endian", "big")]
     [Parser.mkRField "a" VisPrivate Parser.ANone (Parser.RPath "u8") (PInt 0) id_codec;
      Parser.mkRField "b" VisPrivate Parser.ANone (Parser.RPath "u8") (PInt 0) id_codec;
      Parser.mkRField "c" VisPrivate Parser.ANone (Parser.RPath "u8") (PInt 0) id_codec;
      Parser.mkRField "d" VisPrivate Parser.ANone (Parser.RPath "u8") (PInt 0) id_codec]) [])]
  [SLetT "bitfield" (TFrom "Bitfield" (TV (RA [120; 86; 52; 18])));
   SLetT "bits" (TInto "Bitfield" (TVar "bitfield"));
   SAssert (TEq (TMeth "Bitfield" (TVar "bitfield") "a" []) (TV (RI 18)));
   SAssert (TEq (TMeth "Bitfield" (TVar "bitfield") "b" []) (TV (RI 52)));
   SAssert (TEq (TMeth "Bitfield" (TVar "bitfield") "c" []) (TV (RI 86)));
   SAssert (TEq (TMeth "Bitfield" (TVar "bitfield") "d" []) (TV (RI 120)));
   SAssert (TEq (TVar "bits") (TV (RA [120; 86; 52; 18])))]) = true.
Proof. vm_compute. reflexivity. Qed.

(* lib_array_backed_tests.rs:2846 *)
Example bitfield_from_into_bits_msb_from_little_into_little_ : is_passed (run_test
  [(mkUnit "Bitfield" (Parser.mkRDecl true VisPublic "Bitfield" (Some (Parser.RArray (Parser.RPath "u8") (Parser.LenLit 4))) [("order", "msb"); ("from_endian", "little"); ("into_endian", "little")]
     [Parser.mkRField "a" VisPrivate Parser.ANone (Parser.RPath "u8") (PInt 0) id_codec;
      Parser.mkRField "b" VisPrivate Parser.ANone (Parser.RPath "u8") (PInt 0) id_codec;
      Parser.mkRField "c" VisPrivate Parser.ANone (Parser.RPath "u8") (PInt 0) id_codec;
      Parser.mkRField "d" VisPrivate Parser.ANone (Parser.RPath "u8") (PInt 0) id_codec]) [])]
  [SLetT "bitfield" (TStat "Bitfield" "from_bytes" [(TV (RA [120; 86; 52; 18]))]);
   SAssert (TEq (TMeth "Bitfield" (TVar "bitfield") "a" []) (TV (RI 18)));
   SAssert (TEq (TMeth "Bitfield" (TVar "bitfield") "b" []) (TV (RI 52)));
   SAssert (TEq (TMeth "Bitfield" (TVar "bitfield") "c" []) (TV (RI 86)));
   SAssert (TEq (TMeth "Bitfield" (TVar "bitfield") "d" []) (TV (RI 120)));
   SAssert (TEq (TMeth "Bitfield" (TVar "bitfield") "into_bytes" []) (TV (RA [120; 86; 52; 18])))]) = true.
Proof. vm_compute. reflexivity. Qed.

(* lib_array_backed_tests.rs:2865 *)
Example bitfield_from_into_bits_lsb_from_little_into_little_ : is_passed (run_test
  [(mkUnit "Bitfield" (Parser.mkRDecl true VisPublic "Bitfield" (Some (Parser.RArray (Parser.RPath "u8") (Parser.LenLit 4))) [("order", "lsb"); ("from_endian", "little"); ("into_endian", "little")]
     [Parser.mkRField "a" VisPrivate Parser.ANone (Parser.RPath "u8") (PInt 0) id_codec;
      Parser.mkRField "b" VisPrivate Parser.ANone (Parser.RPath "u8") (PInt 0) id_codec;
      Parser.mkRField "c" VisPrivate Parser.ANone (Parser.RPath "u8") (PInt 0) id_codec;
      Parser.mkRField "d" VisPrivate Parser.ANone (Parser.RPath "u8") (PInt 0) id_codec]) [])]
  [SLetT "bitfield" (TStat "Bitfield" "from_bytes" [(TV (RA [120; 86; 52; 18]))]);
   SAssert (TEq (TMeth "Bitfield" (TVar "bitfield") "a" []) (TV (RI 120)));
   SAssert (TEq (TMeth "Bitfield" (TVar "bitfield") "b" []) (TV (RI 86)));
   SAssert (TEq (TMeth "Bitfield" (TVar "bitfield") "c" []) (TV (RI 52)));
   SAssert (TEq (TMeth "Bitfield" (TVar "bitfield") "d" []) (TV (RI 18)));
   SAssert (TEq (TMeth "Bitfield" (TVar "bitfield") "into_bytes" []) (TV (RA [120; 86; 52; 18])))]) = true.
Proof. vm_compute. reflexivity. Qed.

(* lib_array_backed_tests.rs:2884 *)
Example bitfield_from_into_bits_msb_from_big_into_little_ : is_passed (run_test
  [(mkUnit "Bitfield" (Parser.mkRDecl true VisPublic "Bitfield" (Some (Parser.RArray (Parser.RPath "u8") (Parser.LenLit 4))) [("order", "msb"); ("from_endian", "big"); ("into_endian", "little")]
     [Parser.mkRField "a" VisPrivate Parser.ANone (Parser.RPath "u8") (PInt 0) id_codec;
      Parser.mkRField "b" VisPrivate Parser.ANone (Parser.RPath "u8") (PInt 0) id_codec;
      Parser.mkRField "c" VisPrivate Parser.ANone (Parser.RPath "u8") (PInt 0) id_codec;
      Parser.mkRField "d" VisPrivate Parser.ANone (Parser.RPath "u8") (PInt 0) id_codec]) [])]
  [SLetT "bitfield" (TStat "Bitfield" "from_bytes" [(TV (RA [120; 86; 52; 18]))]);
   SAssert (TEq (TMeth "Bitfield" (TVar "bitfield") "a" []) (TV (RI 120)));
   SAssert (TEq (TMeth "Bitfield" (TVar "bitfield") "b" []) (TV (RI 86)));
   SAssert (TEq (TMeth "Bitfield" (TVar "bitfield") "c" []) (TV (RI 52)));
   SAssert (TEq (TMeth "Bitfield" (TVar "bitfield") "d" []) (TV (RI 18)));
   SAssert (TEq (TMeth "Bitfield" (TVar "bitfield") "into_bytes" []) (TV (RA [18; 52; 86; 120])))]) = true.
Proof. vm_compute. reflexivity. Qed.

(* lib_array_backed_tests.rs:2903 *)
Example bitfield_from_into_bits_lsb_from_big_into_little_ : is_passed (run_test
  [(mkUnit "Bitfield" (Parser.mkRDecl true VisPublic "Bitfield" (Some (Parser.RArray (Parser.RPath "u8") (Parser.LenLit 4))) [("order", "lsb"); ("from_endian", "big"); ("into_endian", "little")]
     [Parser.mkRField "a" VisPrivate Parser.ANone (Parser.RPath "u8") (PInt 0) id_codec;
      Parser.mkRField "b" VisPrivate Parser.ANone (Parser.RPath "u8") (PInt 0) id_codec;
      Parser.mkRField "c" VisPrivate Parser.ANone (Parser.RPath "u8") (PInt 0) id_codec;
      Parser.mkRField "d" VisPrivate Parser.ANone (Parser.RPath "u8") (PInt 0) id_codec]) [])]
  [SLetT "bitfield" (TStat "Bitfield" "from_bytes" [(TV (RA [120; 86; 52; 18]))]);
   SAssert (TEq (TMeth "Bitfield" (TVar "bitfield") "a" []) (TV (RI 18)));
   SAssert (TEq (TMeth "Bitfield" (TVar "bitfield") "b" []) (TV (RI 52)));
   SAssert (TEq (TMeth "Bitfield" (TVar "bitfield") "c" []) (TV (RI 86)));
   SAssert (TEq (TMeth "Bitfield" (TVar "bitfield") "d" []) (TV (RI 120)));
   SAssert (TEq (TMeth "Bitfield" (TVar "bitfield") "into_bytes" []) (TV (RA [18; 52; 86; 120])))]) = true.
Proof. vm_compute. reflexivity. Qed.

(* lib_array_backed_tests.rs:2922 *)
Example bitfield_from_into_bits_msb_from_little_into_big_ : is_passed (run_test
  [(mkUnit "Bitfield" (Parser.mkRDecl true VisPublic "Bitfield" (Some (Parser.RArray (Parser.RPath "u8") (Parser.LenLit 4))) [("order", "msb"); ("from_endian", "little"); ("into_endian", "big")]
     [Parser.mkRField "a" VisPrivate Parser.ANone (Parser.RPath "u8") (PInt 0) id_codec;
      Parser.mkRField "b" VisPrivate Parser.ANone (Parser.RPath "u8") (PInt 0) id_codec;
      Parser.mkRField "c" VisPrivate Parser.ANone (Parser.RPath "u8") (PInt 0) id_codec;
      Parser.mkRField "d" VisPrivate Parser.ANone (Parser.RPath "u8") (PInt 0) id_codec]) [])]
  [SLetT "bitfield" (TStat "Bitfield" "from_bytes" [(TV (RA [120; 86; 52; 18]))]);
   SAssert (TEq (TMeth "Bitfield" (TVar "bitfield") "a" []) (TV (RI 18)));
   SAssert (TEq (TMeth "Bitfield" (TVar "bitfield") "b" []) (TV (RI 52)));
   SAssert (TEq (TMeth "Bitfield" (TVar "bitfield") "c" []) (TV (RI 86)));
   SAssert (TEq (TMeth "Bitfield" (TVar "bitfield") "d" []) (TV (RI 120)));
   SAssert (TEq (TMeth "Bitfield" (TVar "bitfield") "into_bytes" []) (TV (RA [18; 52; 86; 120])))]) = true.
Proof. vm_compute. reflexivity. Qed.

(* lib_array_backed_tests.rs:2941 *)
Example bitfield_from_into_bits_lsb_from_little_into_big_ : is_passed (run_test
  [(mkUnit "Bitfield" (Parser.mkRDecl true VisPublic "Bitfield" (Some (Parser.RArray (Parser.RPath "u8") (Parser.LenLit 4))) [("order", "lsb"); ("from_endian", "little"); ("into_endian", "big")]
     [Parser.mkRField "a" VisPrivate Parser.ANone (Parser.RPath "u8") (PInt 0) id_codec;
      Parser.mkRField "b" VisPrivate Parser.ANone (Parser.RPath "u8") (PInt 0) id_codec;
      Parser.mkRField "c" VisPrivate Parser.ANone (Parser.RPath "u8") (PInt 0) id_codec;
      Parser.mkRField "d" VisPrivate Parser.ANone (Parser.RPath "u8") (PInt 0) id_codec]) [])]
  [SLetT "bitfield" (TStat "Bitfield" "from_bytes" [(TV (RA [120; 86; 52; 18]))]);
   SAssert (TEq (TMeth "Bitfield" (TVar "bitfield") "a" []) (TV (RI 120)));
   SAssert (TEq (TMeth "Bitfield" (TVar "bitfield") "b" []) (TV (RI 86)));
   SAssert (TEq (TMeth "Bitfield" (TVar "bitfield") "c" []) (TV (RI 52)));
   SAssert (TEq (TMeth "Bitfield" (TVar "bitfield") "d" []) (TV (RI 18)));
   SAssert (TEq (TMeth "Bitfield" (TVar "bitfield") "into_bytes" []) (TV (RA [18; 52; 86; 120])))]) = true.
Proof. vm_compute. reflexivity. Qed.

(* lib_array_backed_tests.rs:2960 *)
Example bitfield_from_into_bits_msb_from_big_into_big_ : is_passed (run_test
  [(mkUnit "Bitfield" (Parser.mkRDecl true VisPublic "Bitfield" (Some (Parser.RArray (Parser.RPath "u8") (Parser.LenLit 4))) [("order", "msb"); ("from_endian", "big"); ("into_endian", "big")]
     [Parser.mkRField "a" VisPrivate Parser.ANone (Parser.RPath "u8") (PInt 0) id_codec;
      Parser.mkRField "b" VisPrivate Parser.ANone (Parser.RPath "u8") (PInt 0) id_codec;
      Parser.mkRField "c" VisPrivate Parser.ANone (Parser.RPath "u8") (PInt 0) id_codec;
      Parser.mkRField "d" VisPrivate Parser.ANone (Parser.RPath "u8") (PInt 0) id_codec]) [])]
  [SLetT "bitfield" (TStat "Bitfield" "from_bytes" [(TV (RA [120; 86; 52; 18]))]);
   SAssert (TEq (TMeth "Bitfield" (TVar "bitfield") "a" []) (TV (RI 120)));
   SAssert (TEq (TMeth "Bitfield" (TVar "bitfield") "b" []) (TV (RI 86)));
   SAssert (TEq (TMeth "Bitfield" (TVar "bitfield") "c" []) (TV (RI 52)));
   SAssert (TEq (TMeth "Bitfield" (TVar "bitfield") "d" []) (TV (RI 18)));
   SAssert (TEq (TMeth "Bitfield" (TVar "bitfield") "into_bytes" []) (TV (RA [120; 86; 52; 18])))]) = true.
Proof. vm_compute. reflexivity. Qed.

(* lib_array_backed_tests.rs:2979 *)
Example bitfield_from_into_bits_lsb_from_big_into_big_ : is_passed (run_test
  [(mkUnit "Bitfield" (Parser.mkRDecl true VisPublic "Bitfield" (Some (Parser.RArray (Parser.RPath "u8") (Parser.LenLit 4))) [("order", "lsb"); ("from_endian", "big"); ("into_endian", "big")]
     [Parser.mkRField "a" VisPrivate Parser.ANone (Parser.RPath "u8") (PInt 0) id_codec;
      Parser.mkRField "b" VisPrivate Parser.ANone (Parser.RPath "u8") (PInt 0) id_codec;
      Parser.mkRField "c" VisPrivate Parser.ANone (Parser.RPath "u8") (PInt 0) id_codec;
      Parser.mkRField "d" VisPrivate Parser.ANone (Parser.RPath "u8") (PInt 0) id_codec]) [])]
  [SLetT "bitfield" (TStat "Bitfield" "from_bytes" [(TV (RA [120; 86; 52; 18]))]);
   SAssert (TEq (TMeth "Bitfield" (TVar "bitfield") "a" []) (TV (RI 18)));
   SAssert (TEq (TMeth "Bitfield" (TVar "bitfield") "b" []) (TV (RI 52)));
   SAssert (TEq (TMeth "Bitfield" (TVar "bitfield") "c" []) (TV (RI 86)));
   SAssert (TEq (TMeth "Bitfield" (TVar "bitfield") "d" []) (TV (RI 120)));
   SAssert (TEq (TMeth "Bitfield" (TVar "bitfield") "into_bytes" []) (TV (RA [120; 86; 52; 18])))]) = true.
Proof. vm_compute. reflexivity. Qed.

(* lib_array_backed_tests.rs:2998 *)
Example bitfield_msb_from_le_bits_into_le_bits_ : is_passed (run_test
  [(mkUnit "Bitfield" (Parser.mkRDecl true VisPublic "Bitfield" (Some (Parser.RArray (Parser.RPath "u8") (Parser.LenLit 4))) [("order", "msb")]
     [Parser.mkRField "a" VisPrivate Parser.ANone (Parser.RPath "u8") (PInt 0) id_codec;
      Parser.mkRField "b" VisPrivate Parser.ANone (Parser.RPath "u8") (PInt 0) id_codec;
      Parser.mkRField "c" VisPrivate Parser.ANone (Parser.RPath "u8") (PInt 0) id_codec;
      Parser.mkRField "d" VisPrivate Parser.ANone (Parser.RPath "u8") (PInt 0) id_codec]) [])]
  [SLetT "bitfield" (TStat "Bitfield" "from_le_bytes" [(TV (RA [120; 86; 52; 18]))]);
   SAssert (TEq (TMeth "Bitfield" (TVar "bitfield") "a" []) (TV (RI 18)));
   SAssert (TEq (TMeth "Bitfield" (TVar "bitfield") "b" []) (TV (RI 52)));
   SAssert (TEq (TMeth "Bitfield" (TVar "bitfield") "c" []) (TV (RI 86)));
   SAssert (TEq (TMeth "Bitfield" (TVar "bitfield") "d" []) (TV (RI 120)));
   SAssert (TEq (TMeth "Bitfield" (TVar "bitfield") "into_le_bytes" []) (TV (RA [120; 86; 52; 18])))]) = true.
Proof. vm_compute. reflexivity. Qed.

(* lib_array_backed_tests.rs:3017 *)
Example bitfield_lsb_from_le_bits_into_le_bits_ : is_passed (run_test
  [(mkUnit "Bitfield" (Parser.mkRDecl true VisPublic "Bitfield" (Some (Parser.RArray (Parser.RPath "u8") (Parser.LenLit 4))) [("order", "lsb")]
     [Parser.mkRField "a" VisPrivate Parser.ANone (Parser.RPath "u8") (PInt 0) id_codec;
      Parser.mkRField "b" VisPrivate Parser.ANone (Parser.RPath "u8") (PInt 0) id_codec;
      Parser.mkRField "c" VisPrivate Parser.ANone (Parser.RPath "u8") (PInt 0) id_codec;
      Parser.mkRField "d" VisPrivate Parser.ANone (Parser.RPath "u8") (PInt 0) id_codec]) [])]
  [SLetT "bitfield" (TStat "Bitfield" "from_le_bytes" [(TV (RA [120; 86; 52; 18]))]);
   SAssert (TEq (TMeth "Bitfield" (TVar "bitfield") "a" []) (TV (RI 120)));
   SAssert (TEq (TMeth "Bitfield" (TVar "bitfield") "b" []) (TV (RI 86)));
   SAssert (TEq (TMeth "Bitfield" (TVar "bitfield") "c" []) (TV (RI 52)));
   SAssert (TEq (TMeth "Bitfield" (TVar "bitfield") "d" []) (TV (RI 18)));
   SAssert (TEq (TMeth "Bitfield" (TVar "bitfield") "into_le_bytes" []) (TV (RA [120; 86; 52; 18])))]) = true.
Proof. vm_compute. reflexivity. Qed.

(* lib_array_backed_tests.rs:3036 *)
Example bitfield_msb_from_be_bits_into_le_bits_ : is_passed (run_test
  [(mkUnit "Bitfield" (Parser.mkRDecl true VisPublic "Bitfield" (Some (Parser.RArray (Parser.RPath "u8") (Parser.LenLit 4))) [("order", "msb")]
     [Parser.mkRField "a" VisPrivate Parser.ANone (Parser.RPath "u8") (PInt 0) id_codec;
      Parser.mkRField "b" VisPrivate Parser.ANone (Parser.RPath "u8") (PInt 0) id_codec;
      Parser.mkRField "c" VisPrivate Parser.ANone (Parser.RPath "u8") (PInt 0) id_codec;
      Parser.mkRField "d" VisPrivate Parser.ANone (Parser.RPath "u8") (PInt 0) id_codec]) [])]
  [SLetT "bitfield" (TStat "Bitfield" "from_be_bytes" [(TV (RA [120; 86; 52; 18]))]);
   SAssert (TEq (TMeth "Bitfield" (TVar "bitfield") "a" []) (TV (RI 120)));
   SAssert (TEq (TMeth "Bitfield" (TVar "bitfield") "b" []) (TV (RI 86)));
   SAssert (TEq (TMeth "Bitfield" (TVar "bitfield") "c" []) (TV (RI 52)));
   SAssert (TEq (TMeth "Bitfield" (TVar "bitfield") "d" []) (TV (RI 18)));
   SAssert (TEq (TMeth "Bitfield" (TVar "bitfield") "into_le_bytes" []) (TV (RA [18; 52; 86; 120])))]) = true.
Proof. vm_compute. reflexivity. Qed.

(* lib_array_backed_tests.rs:3055 *)
Example bitfield_lsb_from_be_bits_into_le_bits_ : is_passed (run_test
  [(mkUnit "Bitfield" (Parser.mkRDecl true VisPublic "Bitfield" (Some (Parser.RArray (Parser.RPath "u8") (Parser.LenLit 4))) [("order", "lsb")]
     [Parser.mkRField "a" VisPrivate Parser.ANone (Parser.RPath "u8") (PInt 0) id_codec;
      Parser.mkRField "b" VisPrivate Parser.ANone (Parser.RPath "u8") (PInt 0) id_codec;
      Parser.mkRField "c" VisPrivate Parser.ANone (Parser.RPath "u8") (PInt 0) id_codec;
      Parser.mkRField "d" VisPrivate Parser.ANone (Parser.RPath "u8") (PInt 0) id_codec]) [])]
  [SLetT "bitfield" (TStat "Bitfield" "from_be_bytes" [(TV (RA [120; 86; 52; 18]))]);
   SAssert (TEq (TMeth "Bitfield" (TVar "bitfield") "a" []) (TV (RI 18)));
   SAssert (TEq (TMeth "Bitfield" (TVar "bitfield") "b" []) (TV (RI 52)));
   SAssert (TEq (TMeth "Bitfield" (TVar "bitfield") "c" []) (TV (RI 86)));
   SAssert (TEq (TMeth "Bitfield" (TVar "bitfield") "d" []) (TV (RI 120)));
   SAssert (TEq (TMeth "Bitfield" (TVar "bitfield") "into_le_bytes" []) (TV (RA [18; 52; 86; 120])))]) = true.
Proof. vm_compute. reflexivity. Qed.

(* lib_array_backed_tests.rs:3074 *)
Example bitfield_msb_from_le_bits_into_be_bits_ : is_passed (run_test
  [(mkUnit "Bitfield" (Parser.mkRDecl true VisPublic "Bitfield" (Some (Parser.RArray (Parser.RPath "u8") (Parser.LenLit 4))) [("order", "msb")]
     [Parser.mkRField "a" VisPrivate Parser.ANone (Parser.RPath "u8") (PInt 0) id_codec;
      Parser.mkRField "b" VisPrivate Parser.ANone (Parser.RPath "u8") (PInt 0) id_codec;
      Parser.mkRField "c" VisPrivate Parser.ANone (Parser.RPath "u8") (PInt 0) id_codec;
      Parser.mkRField "d" VisPrivate Parser.ANone (Parser.RPath "u8") (PInt 0) id_codec]) [])]
  [SLetT "bitfield" (TStat "Bitfield" "from_le_bytes" [(TV (RA [120; 86; 52; 18]))]);
   SAssert (TEq (TMeth "Bitfield" (TVar "bitfield") "a" []) (TV (RI 18)));
   SAssert (TEq (TMeth "Bitfield" (TVar "bitfield") "b" []) (TV (RI 52)));
   SAssert (TEq (TMeth "Bitfield" (TVar "bitfield") "c" []) (TV (RI 86)));
   SAssert (TEq (TMeth "Bitfield" (TVar "bitfield") "d" []) (TV (RI 120)));
   SAssert (TEq (TMeth "Bitfield" (TVar "bitfield") "into_be_bytes" []) (TV (RA [18; 52; 86; 120])))]) = true.
Proof. vm_compute. reflexivity. Qed.

(* lib_array_backed_tests.rs:3093 *)
Example bitfield_lsb_from_le_bits_into_be_bits_ : is_passed (run_test
  [(mkUnit "Bitfield" (Parser.mkRDecl true VisPublic "Bitfield" (Some (Parser.RArray (Parser.RPath "u8") (Parser.LenLit 4))) [("order", "lsb")]
     [Parser.mkRField "a" VisPrivate Parser.ANone (Parser.RPath "u8") (PInt 0) id_codec;
      Parser.mkRField "b" VisPrivate Parser.ANone (Parser.RPath "u8") (PInt 0) id_codec;
      Parser.mkRField "c" VisPrivate Parser.ANone (Parser.RPath "u8") (PInt 0) id_codec;
      Parser.mkRField "d" VisPrivate Parser.ANone (Parser.RPath "u8") (PInt 0) id_codec]) [])]
  [SLetT "bitfield" (TStat "Bitfield" "from_le_bytes" [(TV (RA [120; 86; 52; 18]))]);
   SAssert (TEq (TMeth "Bitfield" (TVar "bitfield") "a" []) (TV (RI 120)));
   SAssert (TEq (TMeth "Bitfield" (TVar "bitfield") "b" []) (TV (RI 86)));
   SAssert (TEq (TMeth "Bitfield" (TVar "bitfield") "c" []) (TV (RI 52)));
   SAssert (TEq (TMeth "Bitfield" (TVar "bitfield") "d" []) (TV (RI 18)));
   SAssert (TEq (TMeth "Bitfield" (TVar "bitfield") "into_be_bytes" []) (TV (RA [18; 52; 86; 120])))]) = true.
Proof. vm_compute. reflexivity. Qed.

(* lib_array_backed_tests.rs:3112 *)
Example bitfield_msb_from_be_bits_into_be_bits_ : is_passed (run_test
  [(mkUnit "Bitfield" (Parser.mkRDecl true VisPublic "Bitfield" (Some (Parser.RArray (Parser.RPath "u8") (Parser.LenLit 4))) [("order", "msb")]
     [Parser.mkRField "a" VisPrivate Parser.ANone (Parser.RPath "u8") (PInt 0) id_codec;
      Parser.mkRField "b" VisPrivate Parser.ANone (Parser.RPath "u8") (PInt 0) id_codec;
      Parser.mkRField "c" VisPrivate Parser.ANone (Parser.RPath "u8") (PInt 0) id_codec;
      Parser.mkRField "d" VisPrivate Parser.ANone (Parser.RPath "u8") (PInt 0) id_codec]) [])]
  [SLetT "bitfield" (TStat "Bitfield" "from_be_bytes" [(TV (RA [120; 86; 52; 18]))]);
   SAssert (TEq (TMeth "Bitfield" (TVar "bitfield") "a" []) (TV (RI 120)));
   SAssert (TEq (TMeth "Bitfield" (TVar "bitfield") "b" []) (TV (RI 86)));
   SAssert (TEq (TMeth "Bitfield" (TVar "bitfield") "c" []) (TV (RI 52)));
   SAssert (TEq (TMeth "Bitfield" (TVar "bitfield") "d" []) (TV (RI 18)));
   SAssert (TEq (TMeth "Bitfield" (TVar "bitfield") "into_be_bytes" []) (TV (RA [120; 86; 52; 18])))]) = true.
Proof. vm_compute. reflexivity. Qed.

(* lib_array_backed_tests.rs:3131 *)
Example bitfield_signed_checked_setters_ : is_passed (run_test
  [(mkUnit "Bitfield" (Parser.mkRDecl true VisPublic "Bitfield" (Some (Parser.RArray (Parser.RPath "u8") (Parser.LenLit 4))) []
     [Parser.mkRField "a" VisPrivate Parser.ANone (Parser.RPath "i8") (PInt 0) id_codec;
      Parser.mkRField "b" VisPrivate (Parser.AList (Parser.RBits 12 "") []) (Parser.RPath "i16") (PInt 0) id_codec;
      Parser.mkRField "_reserved" VisPrivate (Parser.AList (Parser.RBits 4 "") []) (Parser.RPath "u8") (PInt 0) id_codec;
      Parser.mkRField "_reserved2" VisPrivate (Parser.AList (Parser.RBits 8 "") []) (Parser.RPath "u8") (PInt 0) id_codec]) [])]
  [SLetT "bf" (TStat "Bitfield" "new_without_defaults" []);
   SAssert (TIsOk (TMeth "Bitfield" (TVar "bf") "checked_set_a" [(TV (RI (-1)))]));
   SAssert (TIsOk (TMeth "Bitfield" (TVar "bf") "checked_set_a" [(TV (RI (-128)))]));
   SAssert (TIsOk (TMeth "Bitfield" (TVar "bf") "checked_set_a" [(TV (RI 127))]));
   SAssert (TIsOk (TMeth "Bitfield" (TVar "bf") "checked_set_b" [(TV (RI 0))]));
   SAssert (TIsOk (TMeth "Bitfield" (TVar "bf") "checked_set_b" [(TV (RI (-1)))]));
   SAssert (TIsOk (TMeth "Bitfield" (TVar "bf") "checked_set_b" [(TV (RI 2047))]));
   SAssert (TIsOk (TMeth "Bitfield" (TVar "bf") "checked_set_b" [(TV (RI (-2048)))]));
   SAssert (TIsErr (TMeth "Bitfield" (TVar "bf") "checked_set_b" [(TV (RI 2048))]));
   SAssert (TIsErr (TMeth "Bitfield" (TVar "bf") "checked_set_b" [(TV (RI (-2049)))]))]) = true.
Proof. vm_compute. reflexivity. Qed.

(* lib_array_backed_tests.rs:3158 *)
Example bitfield_lsb_from_be_bits_into_be_bits_ : is_passed (run_test
  [(mkUnit "Bitfield" (Parser.mkRDecl true VisPublic "Bitfield" (Some (Parser.RArray (Parser.RPath "u8") (Parser.LenLit 4))) [("order", "lsb")]
     [Parser.mkRField "a" VisPrivate Parser.ANone (Parser.RPath "u8") (PInt 0) id_codec;
      Parser.mkRField "b" VisPrivate Parser.ANone (Parser.RPath "u8") (PInt 0) id_codec;
      Parser.mkRField "c" VisPrivate Parser.ANone (Parser.RPath "u8") (PInt 0) id_codec;
      Parser.mkRField "d" VisPrivate Parser.ANone (Parser.RPath "u8") (PInt 0) id_codec]) [])]
  [SLetT "bitfield" (TStat "Bitfield" "from_be_bytes" [(TV (RA [120; 86; 52; 18]))]);
   SAssert (TEq (TMeth "Bitfield" (TVar "bitfield") "a" []) (TV (RI 18)));
   SAssert (TEq (TMeth "Bitfield" (TVar "bitfield") "b" []) (TV (RI 52)));
   SAssert (TEq (TMeth "Bitfield" (TVar "bitfield") "c" []) (TV (RI 86)));
   SAssert (TEq (TMeth "Bitfield" (TVar "bitfield") "d" []) (TV (RI 120)));
   SAssert (TEq (TMeth "Bitfield" (TVar "bitfield") "into_be_bytes" []) (TV (RA [120; 86; 52; 18])))]) = true.
Proof. vm_compute. reflexivity. Qed.

(* lib_array_backed_tests.rs:3177 *)
Example bitfield_custom_field_ignored_field_ : is_passed (run_test
  [(mkUnit "Bitfield" (Parser.mkRDecl true VisPublic "Bitfield" (Some (Parser.RArray (Parser.RPath "u8") (Parser.LenLit 2))) []
     [Parser.mkRField "a" VisPrivate (Parser.AList Parser.RNoBits [("default", "0x12")]) (Parser.RPath "u8") (PInt 0) id_codec;
      Parser.mkRField "b" VisPrivate Parser.ANone (Parser.RPath "u8") (PInt 0) id_codec;
      Parser.mkRField "nested_field" VisPrivate (Parser.AList (Parser.RBits 8 "") [("default", "CustomType::A"); ("ignore", "true")]) (Parser.RPath "CustomType") (PInt 0) id_codec]) [("a", (ELit 18 None))])]
  []) = true.
Proof. vm_compute. reflexivity. Qed.

(* lib_array_backed_tests.rs:3195 *)
Example bitfield_user_attributes_ : is_passed (run_test
  [(mkUnit "Bitfield" (Parser.mkRDecl true VisPublic "Bitfield" (Some (Parser.RArray (Parser.RPath "u8") (Parser.LenLit 1))) []
     [Parser.mkRField "a" VisPrivate Parser.ANone (Parser.RPath "u8") (PInt 0) id_codec]) [])]
  []) = true.
Proof. vm_compute. reflexivity. Qed.

(* lib_array_backed_tests.rs:3204 *)
Example bitfield_reserved_no_bits_ : is_passed (run_test
  [(mkUnit "Bitfield" (Parser.mkRDecl true VisPublic "Bitfield" (Some (Parser.RArray (Parser.RPath "u8") (Parser.LenLit 2))) []
     [Parser.mkRField "a" VisPrivate Parser.ANone (Parser.RPath "u8") (PInt 0) id_codec;
      Parser.mkRField "_reserved" VisPrivate Parser.ANone (Parser.RPath "u8") (PInt 0) id_codec]) [])]
  []) = true.
Proof. vm_compute. reflexivity. Qed.

(* lib_array_backed_tests.rs:3213 *)
Example bitfield_reserved_bits_ : is_passed (run_test
  [(mkUnit "Bitfield" (Parser.mkRDecl true VisPublic "Bitfield" (Some (Parser.RArray (Parser.RPath "u8") (Parser.LenLit 2))) []
     [Parser.mkRField "a" VisPrivate Parser.ANone (Parser.RPath "u8") (PInt 0) id_codec;
      Parser.mkRField "_reserved" VisPrivate (Parser.AList (Parser.RBits 8 "") []) (Parser.RPath "u8") (PInt 0) id_codec]) [])]
  []) = true.
Proof. vm_compute. reflexivity. Qed.

(* lib_array_backed_tests.rs:3223 *)
Example bitfield_reserved_default_value_ : is_passed (run_test
  [(mkUnit "Bitfield" (Parser.mkRDecl true VisPublic "Bitfield" (Some (Parser.RArray (Parser.RPath "u8") (Parser.LenLit 2))) []
     [Parser.mkRField "a" VisPrivate Parser.ANone (Parser.RPath "u8") (PInt 0) id_codec;
      Parser.mkRField "_reserved" VisPrivate (Parser.AList (Parser.RBits 8 "") []) (Parser.RPath "u8") (PInt 0) id_codec]) [])]
  []) = true.
Proof. vm_compute. reflexivity. Qed.

(* lib_array_backed_tests.rs:3233 *)
Example bitfield_bits_leading_comma_ : is_passed (run_test
  [(mkUnit "Bitfield" (Parser.mkRDecl true VisPublic "Bitfield" (Some (Parser.RArray (Parser.RPath "u8") (Parser.LenLit 2))) []
     [Parser.mkRField "a" VisPrivate Parser.ANone (Parser.RPath "u8") (PInt 0) id_codec;
      Parser.mkRField "_reserved" VisPrivate (Parser.AList (Parser.RBits 8 "") []) (Parser.RPath "u8") (PInt 0) id_codec]) [])]
  []) = true.
Proof. vm_compute. reflexivity. Qed.

(* lib_array_backed_tests.rs:3243 *)
Example bitfield_set_bytes_range_non_writable : is_passed (run_test
  [(mkUnit "Bitfield" (Parser.mkRDecl true VisPublic "Bitfield" (Some (Parser.RArray (Parser.RPath "u8") (Parser.LenLit 4))) []
     [Parser.mkRField "a" VisPrivate (Parser.AList Parser.RNoBits [("default", "0x12")]) (Parser.RPath "u8") (PInt 0) id_codec;
      Parser.mkRField "b" VisPrivate (Parser.AList Parser.RNoBits [("default", "0x34"); ("access", "ro")]) (Parser.RPath "u8") (PInt 0) id_codec;
      Parser.mkRField "c" VisPrivate (Parser.AList Parser.RNoBits [("default", "0x56"); ("access", "rw")]) (Parser.RPath "u8") (PInt 0) id_codec;
      Parser.mkRField "_d" VisPrivate (Parser.AList Parser.RNoBits [("default", "0x78")]) (Parser.RPath "u8") (PInt 0) id_codec]) [("a", (ELit 18 None)); ("b", (ELit 52 None)); ("c", (ELit 86 None)); ("_d", (ELit 120 None))])]
  [SLetT "bitfield" (TStat "Bitfield" "new" []);
   SDo (TMeth "Bitfield" (TVar "bitfield") "set_bytes_range" [(TV (RI 0)); (TV (RI 32)); (TV (RA [255; 255; 255; 255]))]);
   SAssert (TEq (TMeth "Bitfield" (TVar "bitfield") "a" []) (TV (RI 255)));
   SAssert (TEq (TMeth "Bitfield" (TVar "bitfield") "b" []) (TV (RI 52)));
   SAssert (TEq (TMeth "Bitfield" (TVar "bitfield") "c" []) (TV (RI 255)));
   SAssert (TEq (TMeth "Bitfield" (TVar "bitfield") "into_bytes" []) (TV (RA [120; 255; 52; 255])))]) = true.
Proof. vm_compute. reflexivity. Qed.

(* lib_array_backed_tests.rs:3267 *)
Example bitfield_get_bytes_range_non_readable : is_passed (run_test
  [(mkUnit "Bitfield" (Parser.mkRDecl true VisPublic "Bitfield" (Some (Parser.RArray (Parser.RPath "u8") (Parser.LenLit 4))) []
     [Parser.mkRField "a" VisPrivate (Parser.AList Parser.RNoBits [("default", "0x12")]) (Parser.RPath "u8") (PInt 0) id_codec;
      Parser.mkRField "b" VisPrivate (Parser.AList Parser.RNoBits [("default", "0x34"); ("access", "wo")]) (Parser.RPath "u8") (PInt 0) id_codec;
      Parser.mkRField "c" VisPrivate (Parser.AList Parser.RNoBits [("default", "0x56"); ("access", "rw")]) (Parser.RPath "u8") (PInt 0) id_codec;
      Parser.mkRField "_d" VisPrivate (Parser.AList Parser.RNoBits [("default", "0x78")]) (Parser.RPath "u8") (PInt 0) id_codec]) [("a", (ELit 18 None)); ("b", (ELit 52 None)); ("c", (ELit 86 None)); ("_d", (ELit 120 None))])]
  [SLetT "bitfield" (TStat "Bitfield" "new" []);
   SDo (TMeth "Bitfield" (TVar "bitfield") "get_bytes_range" [(TV (RI 0)); (TV (RI 32))]);
   SAssert (TEq (TMeth "Bitfield" (TVar "bitfield") "a" []) (TV (RI 18)));
   SAssert (TEq (TMeth "Bitfield" (TVar "bitfield") "c" []) (TV (RI 86)));
   SAssert (TEq (TMeth "Bitfield" (TVar "bitfield") "into_bytes" []) (TV (RA [120; 86; 52; 18])))]) = true.
Proof. vm_compute. reflexivity. Qed.

(* lib_array_backed_tests.rs:3290 *)
Example bitfield_invert_non_writable_ : is_passed (run_test
  [(mkUnit "Bitfield" (Parser.mkRDecl true VisPublic "Bitfield" (Some (Parser.RArray (Parser.RPath "u8") (Parser.LenLit 4))) []
     [Parser.mkRField "a" VisPrivate (Parser.AList Parser.RNoBits [("default", "0x12")]) (Parser.RPath "u8") (PInt 0) id_codec;
      Parser.mkRField "b" VisPrivate (Parser.AList Parser.RNoBits [("default", "0x34"); ("access", "ro")]) (Parser.RPath "u8") (PInt 0) id_codec;
      Parser.mkRField "c" VisPrivate (Parser.AList Parser.RNoBits [("default", "0x56"); ("access", "rw")]) (Parser.RPath "u8") (PInt 0) id_codec;
      Parser.mkRField "_d" VisPrivate (Parser.AList Parser.RNoBits [("default", "0x78")]) (Parser.RPath "u8") (PInt 0) id_codec]) [("a", (ELit 18 None)); ("b", (ELit 52 None)); ("c", (ELit 86 None)); ("_d", (ELit 120 None))])]
  [SLetT "bitfield" (TStat "Bitfield" "new" []);
   SDo (TMeth "Bitfield" (TVar "bitfield") "invert_bytes" []);
   SAssert (TEq (TMeth "Bitfield" (TVar "bitfield") "a" []) (TV (RI 237)));
   SAssert (TEq (TMeth "Bitfield" (TVar "bitfield") "b" []) (TV (RI 52)));
   SAssert (TEq (TMeth "Bitfield" (TVar "bitfield") "c" []) (TV (RI 169)));
   SAssert (TEq (TMeth "Bitfield" (TVar "bitfield") "into_bytes" []) (TV (RA [120; 169; 52; 237])))]) = true.
Proof. vm_compute. reflexivity. Qed.

(* lib_array_backed_tests.rs:3314 *)
Example bitfield_field_constants_ : is_passed (run_test
  [(mkUnit "Bitfield" (Parser.mkRDecl true VisPublic "Bitfield" (Some (Parser.RArray (Parser.RPath "u8") (Parser.LenLit 4))) []
     [Parser.mkRField "a" VisPrivate (Parser.AList Parser.RNoBits [("default", "0x12")]) (Parser.RPath "u8") (PInt 0) id_codec;
      Parser.mkRField "b" VisPrivate (Parser.AList (Parser.RBits 7 "") [("default", "0x34")]) (Parser.RPath "u8") (PInt 0) id_codec;
      Parser.mkRField "c" VisPrivate (Parser.AList (Parser.RBits 5 "") [("default", "0x1F")]) (Parser.RPath "u8") (PInt 0) id_codec;
      Parser.mkRField "d" VisPrivate (Parser.AList (Parser.RBits 12 "") [("default", "0x78")]) (Parser.RPath "u16") (PInt 0) id_codec]) [("a", (ELit 18 None)); ("b", (ELit 52 None)); ("c", (ELit 31 None)); ("d", (ELit 120 None))])]
  [SAssert (TEq (TConst "Bitfield" "A_BITS") (TV (RI 8)));
   SAssert (TEq (TConst "Bitfield" "A_OFFSET") (TV (RI 0)));
   SAssert (TEq (TConst "Bitfield" "B_BITS") (TV (RI 7)));
   SAssert (TEq (TConst "Bitfield" "B_OFFSET") (TV (RI 8)));
   SAssert (TEq (TConst "Bitfield" "C_BITS") (TV (RI 5)));
   SAssert (TEq (TConst "Bitfield" "C_OFFSET") (TV (RI 15)));
   SAssert (TEq (TConst "Bitfield" "D_BITS") (TV (RI 12)));
   SAssert (TEq (TConst "Bitfield" "D_OFFSET") (TV (RI 20)))]) = true.
Proof. vm_compute. reflexivity. Qed.

(* lib_array_backed_tests.rs:3338 *)
Example bitfield_field_constants_msb_ : is_passed (run_test
  [(mkUnit "Bitfield" (Parser.mkRDecl true VisPublic "Bitfield" (Some (Parser.RArray (Parser.RPath "u8") (Parser.LenLit 4))) [("order", "msb")]
     [Parser.mkRField "a" VisPrivate Parser.ANone (Parser.RPath "u8") (PInt 0) id_codec;
      Parser.mkRField "b" VisPrivate Parser.ANone (Parser.RPath "u8") (PInt 0) id_codec;
      Parser.mkRField "c" VisPrivate Parser.ANone (Parser.RPath "u8") (PInt 0) id_codec;
      Parser.mkRField "d" VisPrivate Parser.ANone (Parser.RPath "u8") (PInt 0) id_codec]) [])]
  [SAssert (TEq (TConst "Bitfield" "A_BITS") (TV (RI 8)));
   SAssert (TEq (TConst "Bitfield" "A_OFFSET") (TV (RI 24)));
   SAssert (TEq (TConst "Bitfield" "B_BITS") (TV (RI 8)));
   SAssert (TEq (TConst "Bitfield" "B_OFFSET") (TV (RI 16)));
   SAssert (TEq (TConst "Bitfield" "C_BITS") (TV (RI 8)));
   SAssert (TEq (TConst "Bitfield" "C_OFFSET") (TV (RI 8)));
   SAssert (TEq (TConst "Bitfield" "D_BITS") (TV (RI 8)));
   SAssert (TEq (TConst "Bitfield" "D_OFFSET") (TV (RI 0)))]) = true.
Proof. vm_compute. reflexivity. Qed.

(* lib_array_backed_tests.rs:3358 *)
Example bitfield_clear_field_ : is_passed (run_test
  [(mkUnit "Bitfield" (Parser.mkRDecl true VisPublic "Bitfield" (Some (Parser.RArray (Parser.RPath "u8") (Parser.LenLit 4))) []
     [Parser.mkRField "a" VisPrivate (Parser.AList Parser.RNoBits [("default", "0x12")]) (Parser.RPath "u8") (PInt 0) id_codec;
      Parser.mkRField "b" VisPrivate (Parser.AList Parser.RNoBits [("default", "0x34")]) (Parser.RPath "u8") (PInt 0) id_codec;
      Parser.mkRField "c" VisPrivate (Parser.AList Parser.RNoBits [("default", "0x56")]) (Parser.RPath "u8") (PInt 0) id_codec;
      Parser.mkRField "d" VisPrivate (Parser.AList Parser.RNoBits [("default", "0x78")]) (Parser.RPath "u8") (PInt 0) id_codec]) [("a", (ELit 18 None)); ("b", (ELit 52 None)); ("c", (ELit 86 None)); ("d", (ELit 120 None))])]
  [SLetT "bitfield" (TStat "Bitfield" "new" []);
   SDo (TMeth "Bitfield" (TVar "bitfield") "clear_a" []);
   SAssert (TEq (TMeth "Bitfield" (TVar "bitfield") "a" []) (TV (RI 0)));
   SAssert (TEq (TMeth "Bitfield" (TVar "bitfield") "b" []) (TV (RI 52)));
   SAssert (TEq (TMeth "Bitfield" (TVar "bitfield") "c" []) (TV (RI 86)));
   SAssert (TEq (TMeth "Bitfield" (TVar "bitfield") "d" []) (TV (RI 120)));
   SAssert (TEq (TMeth "Bitfield" (TVar "bitfield") "into_bytes" []) (TV (RA [120; 86; 52; 0])))]) = true.
Proof. vm_compute. reflexivity. Qed.

(* lib_array_backed_tests.rs:3381 *)
Example bitfield_clear_field_to_default_ : is_passed (run_test
  [(mkUnit "Bitfield" (Parser.mkRDecl true VisPublic "Bitfield" (Some (Parser.RArray (Parser.RPath "u8") (Parser.LenLit 4))) []
     [Parser.mkRField "a" VisPrivate (Parser.AList Parser.RNoBits [("default", "0x12")]) (Parser.RPath "u8") (PInt 0) id_codec;
      Parser.mkRField "b" VisPrivate (Parser.AList Parser.RNoBits [("default", "0x34")]) (Parser.RPath "u8") (PInt 0) id_codec;
      Parser.mkRField "c" VisPrivate (Parser.AList Parser.RNoBits [("default", "0x56")]) (Parser.RPath "u8") (PInt 0) id_codec;
      Parser.mkRField "d" VisPrivate (Parser.AList Parser.RNoBits [("default", "0x78")]) (Parser.RPath "u8") (PInt 0) id_codec]) [("a", (ELit 18 None)); ("b", (ELit 52 None)); ("c", (ELit 86 None)); ("d", (ELit 120 None))])]
  [SLetT "bitfield" (TStat "Bitfield" "new" []);
   SDo (TMeth "Bitfield" (TVar "bitfield") "set_a" [(TV (RI 255))]);
   SDo (TMeth "Bitfield" (TVar "bitfield") "set_b" [(TV (RI 255))]);
   SDo (TMeth "Bitfield" (TVar "bitfield") "clear_a_to_default" []);
   SDo (TMeth "Bitfield" (TVar "bitfield") "clear_b_to_default" []);
   SAssert (TEq (TMeth "Bitfield" (TVar "bitfield") "a" []) (TV (RI 18)));
   SAssert (TEq (TMeth "Bitfield" (TVar "bitfield") "b" []) (TV (RI 52)));
   SAssert (TEq (TMeth "Bitfield" (TVar "bitfield") "c" []) (TV (RI 86)));
   SAssert (TEq (TMeth "Bitfield" (TVar "bitfield") "d" []) (TV (RI 120)));
   SAssert (TEq (TMeth "Bitfield" (TVar "bitfield") "into_bytes" []) (TV (RA [120; 86; 52; 18])))]) = true.
Proof. vm_compute. reflexivity. Qed.

(* lib_array_backed_tests.rs:3408 *)
Example bitfield_clear_field_multiple_ : is_passed (run_test
  [(mkUnit "Bitfield" (Parser.mkRDecl true VisPublic "Bitfield" (Some (Parser.RArray (Parser.RPath "u8") (Parser.LenLit 4))) []
     [Parser.mkRField "a" VisPrivate (Parser.AList Parser.RNoBits [("default", "0x12")]) (Parser.RPath "u8") (PInt 0) id_codec;
      Parser.mkRField "b" VisPrivate (Parser.AList Parser.RNoBits [("default", "0x34")]) (Parser.RPath "u8") (PInt 0) id_codec;
      Parser.mkRField "c" VisPrivate (Parser.AList Parser.RNoBits [("default", "0x56")]) (Parser.RPath "u8") (PInt 0) id_codec;
      Parser.mkRField "d" VisPrivate (Parser.AList Parser.RNoBits [("default", "0x78")]) (Parser.RPath "u8") (PInt 0) id_codec]) [("a", (ELit 18 None)); ("b", (ELit 52 None)); ("c", (ELit 86 None)); ("d", (ELit 120 None))])]
  [SLetT "bitfield" (TStat "Bitfield" "new" []);
   SDo (TMeth "Bitfield" (TVar "bitfield") "clear_a" []);
   SDo (TMeth "Bitfield" (TVar "bitfield") "clear_b" []);
   SDo (TMeth "Bitfield" (TVar "bitfield") "clear_c" []);
   SDo (TMeth "Bitfield" (TVar "bitfield") "clear_d" []);
   SAssert (TEq (TMeth "Bitfield" (TVar "bitfield") "into_bytes" []) (TV (RA [0; 0; 0; 0])))]) = true.
Proof. vm_compute. reflexivity. Qed.

(* lib_array_backed_tests.rs:3430 *)
Example bitfield_clear_field_write_only_not_generated_for_read_only_ : is_passed (run_test
  [(mkUnit "Bitfield" (Parser.mkRDecl true VisPublic "Bitfield" (Some (Parser.RArray (Parser.RPath "u8") (Parser.LenLit 4))) []
     [Parser.mkRField "a" VisPrivate (Parser.AList Parser.RNoBits [("default", "0x12"); ("access", "ro")]) (Parser.RPath "u8") (PInt 0) id_codec;
      Parser.mkRField "b" VisPrivate (Parser.AList Parser.RNoBits [("default", "0x34"); ("access", "wo")]) (Parser.RPath "u8") (PInt 0) id_codec;
      Parser.mkRField "c" VisPrivate (Parser.AList Parser.RNoBits [("default", "0x56"); ("access", "rw")]) (Parser.RPath "u8") (PInt 0) id_codec;
      Parser.mkRField "_d" VisPrivate (Parser.AList Parser.RNoBits [("default", "0x78")]) (Parser.RPath "u8") (PInt 0) id_codec]) [("a", (ELit 18 None)); ("b", (ELit 52 None)); ("c", (ELit 86 None)); ("_d", (ELit 120 None))])]
  [SLetT "bitfield" (TStat "Bitfield" "new" []);
   SDo (TMeth "Bitfield" (TVar "bitfield") "clear_b" []);
   SDo (TMeth "Bitfield" (TVar "bitfield") "clear_c" []);
   SAssert (TEq (TAt (TMeth "Bitfield" (TVar "bitfield") "into_bytes" []) 2) (TV (RI 0)));
   SAssert (TEq (TMeth "Bitfield" (TVar "bitfield") "c" []) (TV (RI 0)));
   SAssert (TEq (TMeth "Bitfield" (TVar "bitfield") "a" []) (TV (RI 18)))]) = true.
Proof. vm_compute. reflexivity. Qed.

(* lib_array_backed_tests.rs:3454 *)
Example bitfield_invert_field_ : is_passed (run_test
  [(mkUnit "Bitfield" (Parser.mkRDecl true VisPublic "Bitfield" (Some (Parser.RArray (Parser.RPath "u8") (Parser.LenLit 4))) []
     [Parser.mkRField "a" VisPrivate (Parser.AList (Parser.RBits 5 "") [("default", "0xC")]) (Parser.RPath "u8") (PInt 0) id_codec;
      Parser.mkRField "b" VisPrivate (Parser.AList Parser.RNoBits [("default", "0x34")]) (Parser.RPath "u8") (PInt 0) id_codec;
      Parser.mkRField "c" VisPrivate (Parser.AList Parser.RNoBits [("default", "0x56")]) (Parser.RPath "u8") (PInt 0) id_codec;
      Parser.mkRField "d" VisPrivate (Parser.AList (Parser.RBits 9 "") [("default", "0x78")]) (Parser.RPath "u16") (PInt 0) id_codec;
      Parser.mkRField "e" VisPrivate (Parser.AList Parser.RNoBits [("default", "true")]) (Parser.RPath "bool") (PInt 0) id_codec;
      Parser.mkRField "f" VisPrivate (Parser.AList Parser.RNoBits [("default", "false")]) (Parser.RPath "bool") (PInt 0) id_codec]) [("a", (ELit 12 None)); ("b", (ELit 52 None)); ("c", (ELit 86 None)); ("d", (ELit 120 None)); ("e", (EBool true)); ("f", (EBool false))])]
  [SLetT "bitfield" (TStat "Bitfield" "new" []);
   SAssert (TEq (TMeth "Bitfield" (TVar "bitfield") "a" []) (TV (RI 12)));
   SDo (TMeth "Bitfield" (TVar "bitfield") "invert_a" []);
   SAssert (TEq (TMeth "Bitfield" (TVar "bitfield") "a" []) (TV (RI 19)));
   SDo (TMeth "Bitfield" (TVar "bitfield") "invert_b" []);
   SAssert (TEq (TMeth "Bitfield" (TVar "bitfield") "b" []) (TV (RI 203)));
   SDo (TMeth "Bitfield" (TVar "bitfield") "invert_c" []);
   SAssert (TEq (TMeth "Bitfield" (TVar "bitfield") "c" []) (TV (RI 169)));
   SDo (TMeth "Bitfield" (TVar "bitfield") "invert_d" []);
   SAssert (TEq (TMeth "Bitfield" (TVar "bitfield") "d" []) (TV (RI 391)));
   SAssert (TMeth "Bitfield" (TVar "bitfield") "e" []);
   SDo (TMeth "Bitfield" (TVar "bitfield") "invert_e" []);
   SAssert (TNot (TMeth "Bitfield" (TVar "bitfield") "e" []));
   SAssert (TNot (TMeth "Bitfield" (TVar "bitfield") "f" []));
   SDo (TMeth "Bitfield" (TVar "bitfield") "invert_f" []);
   SAssert (TMeth "Bitfield" (TVar "bitfield") "f" [])]) = true.
Proof. vm_compute. reflexivity. Qed.

(* lib_array_backed_tests.rs:3490 *)
Example bitfield_invert_field_bool_ : is_passed (run_test
  [(mkUnit "Bitfield" (Parser.mkRDecl true VisPublic "Bitfield" (Some (Parser.RArray (Parser.RPath "u8") (Parser.LenLit 1))) []
     [Parser.mkRField "a" VisPrivate (Parser.AList Parser.RNoBits [("default", "true")]) (Parser.RPath "bool") (PInt 0) id_codec;
      Parser.mkRField "b" VisPrivate (Parser.AList Parser.RNoBits [("default", "false")]) (Parser.RPath "bool") (PInt 0) id_codec;
      Parser.mkRField "_reserved" VisPrivate (Parser.AList (Parser.RBits 6 "") []) (Parser.RPath "u8") (PInt 0) id_codec]) [("a", (EBool true)); ("b", (EBool false))])]
  [SLetT "bitfield" (TStat "Bitfield" "new" []);
   SAssert (TMeth "Bitfield" (TVar "bitfield") "a" []);
   SAssert (TNot (TMeth "Bitfield" (TVar "bitfield") "b" []));
   SDo (TMeth "Bitfield" (TVar "bitfield") "invert_a" []);
   SDo (TMeth "Bitfield" (TVar "bitfield") "invert_b" []);
   SAssert (TNot (TMeth "Bitfield" (TVar "bitfield") "a" []));
   SAssert (TMeth "Bitfield" (TVar "bitfield") "b" [])]) = true.
Proof. vm_compute. reflexivity. Qed.

(* lib_array_backed_tests.rs:3511 *)
Example bitfield_checked_set_bytes_range : is_passed (run_test
  [(mkUnit "Bitfield" (Parser.mkRDecl true VisPublic "Bitfield" (Some (Parser.RArray (Parser.RPath "u8") (Parser.LenLit 4))) []
     [Parser.mkRField "a" VisPrivate Parser.ANone (Parser.RPath "u8") (PInt 0) id_codec;
      Parser.mkRField "b" VisPrivate Parser.ANone (Parser.RPath "u8") (PInt 0) id_codec;
      Parser.mkRField "c" VisPrivate Parser.ANone (Parser.RPath "u8") (PInt 0) id_codec;
      Parser.mkRField "d" VisPrivate Parser.ANone (Parser.RPath "u8") (PInt 0) id_codec]) [])]
  [SLetT "bitfield" (TStat "Bitfield" "new" []);
   SAssert (TIsOk (TMeth "Bitfield" (TVar "bitfield") "checked_set_bytes_range" [(TV (RI 0)); (TV (RI 8)); (TV (RA [171; 0; 0; 0]))]));
   SAssert (TEq (TMeth "Bitfield" (TVar "bitfield") "a" []) (TV (RI 171)));
   SAssert (TIsOk (TMeth "Bitfield" (TVar "bitfield") "checked_set_bytes_range" [(TV (RI 8)); (TV (RI 8)); (TV (RA [205; 0; 0; 0]))]));
   SAssert (TEq (TMeth "Bitfield" (TVar "bitfield") "b" []) (TV (RI 205)));
   SAssert (TIsErr (TMeth "Bitfield" (TVar "bitfield") "checked_set_bytes_range" [(TV (RI 0)); (TV (RI 40)); (TV (RA [255; 0; 0; 0]))]));
   SAssert (TIsErr (TMeth "Bitfield" (TVar "bitfield") "checked_set_bytes_range" [(TV (RI 50)); (TV (RI 8)); (TV (RA [255; 0; 0; 0]))]))]) = true.
Proof. vm_compute. reflexivity. Qed.

(* lib_array_backed_tests.rs:3530 *)
Example bitfield_checked_get_bytes_range : is_passed (run_test
  [(mkUnit "Bitfield" (Parser.mkRDecl true VisPublic "Bitfield" (Some (Parser.RArray (Parser.RPath "u8") (Parser.LenLit 4))) []
     [Parser.mkRField "a" VisPrivate (Parser.AList Parser.RNoBits [("default", "0x12")]) (Parser.RPath "u8") (PInt 0) id_codec;
      Parser.mkRField "b" VisPrivate (Parser.AList Parser.RNoBits [("default", "0x34")]) (Parser.RPath "u8") (PInt 0) id_codec;
      Parser.mkRField "c" VisPrivate (Parser.AList Parser.RNoBits [("default", "0x56")]) (Parser.RPath "u8") (PInt 0) id_codec;
      Parser.mkRField "d" VisPrivate (Parser.AList Parser.RNoBits [("default", "0x78")]) (Parser.RPath "u8") (PInt 0) id_codec]) [("a", (ELit 18 None)); ("b", (ELit 52 None)); ("c", (ELit 86 None)); ("d", (ELit 120 None))])]
  [SLetT "bitfield" (TStat "Bitfield" "new" []);
   SAssert (TEq (TAt (TUnwrap (TMeth "Bitfield" (TVar "bitfield") "checked_get_bytes_range" [(TV (RI 0)); (TV (RI 8))])) 0) (TV (RI 18)));
   SAssert (TEq (TAt (TUnwrap (TMeth "Bitfield" (TVar "bitfield") "checked_get_bytes_range" [(TV (RI 8)); (TV (RI 8))])) 0) (TV (RI 52)));
   SAssert (TEq (TAt (TUnwrap (TMeth "Bitfield" (TVar "bitfield") "checked_get_bytes_range" [(TV (RI 16)); (TV (RI 8))])) 0) (TV (RI 86)));
   SAssert (TEq (TAt (TUnwrap (TMeth "Bitfield" (TVar "bitfield") "checked_get_bytes_range" [(TV (RI 24)); (TV (RI 8))])) 0) (TV (RI 120)));
   SAssert (TIsErr (TMeth "Bitfield" (TVar "bitfield") "checked_get_bytes_range" [(TV (RI 0)); (TV (RI 40))]));
   SAssert (TIsErr (TMeth "Bitfield" (TVar "bitfield") "checked_get_bytes_range" [(TV (RI 50)); (TV (RI 8))]))]) = true.
Proof. vm_compute. reflexivity. Qed.

(* lib_array_backed_tests.rs:3553 *)
Example bitfield_checked_set_bytes_range_read_only : is_passed (run_test
  [(mkUnit "Bitfield" (Parser.mkRDecl true VisPublic "Bitfield" (Some (Parser.RArray (Parser.RPath "u8") (Parser.LenLit 4))) []
     [Parser.mkRField "a" VisPrivate (Parser.AList Parser.RNoBits [("default", "0x12")]) (Parser.RPath "u8") (PInt 0) id_codec;
      Parser.mkRField "b" VisPrivate (Parser.AList Parser.RNoBits [("default", "0x34"); ("access", "ro")]) (Parser.RPath "u8") (PInt 0) id_codec;
      Parser.mkRField "c" VisPrivate (Parser.AList Parser.RNoBits [("default", "0x56"); ("access", "rw")]) (Parser.RPath "u8") (PInt 0) id_codec;
      Parser.mkRField "_d" VisPrivate (Parser.AList Parser.RNoBits [("default", "0x78")]) (Parser.RPath "u8") (PInt 0) id_codec]) [("a", (ELit 18 None)); ("b", (ELit 52 None)); ("c", (ELit 86 None)); ("_d", (ELit 120 None))])]
  [SLetT "bitfield" (TStat "Bitfield" "new" []);
   SAssert (TIsOk (TMeth "Bitfield" (TVar "bitfield") "checked_set_bytes_range" [(TV (RI 0)); (TV (RI 8)); (TV (RA [171; 0; 0; 0]))]));
   SAssert (TEq (TMeth "Bitfield" (TVar "bitfield") "a" []) (TV (RI 171)));
   SAssert (TIsErr (TMeth "Bitfield" (TVar "bitfield") "checked_set_bytes_range" [(TV (RI 8)); (TV (RI 8)); (TV (RA [255; 0; 0; 0]))]));
   SAssert (TEq (TMeth "Bitfield" (TVar "bitfield") "b" []) (TV (RI 52)));
   SAssert (TIsErr (TMeth "Bitfield" (TVar "bitfield") "checked_set_bytes_range" [(TV (RI 0)); (TV (RI 16)); (TV (RA [255; 255; 0; 0]))]));
   SAssert (TEq (TMeth "Bitfield" (TVar "bitfield") "b" []) (TV (RI 52)));
   SAssert (TIsOk (TMeth "Bitfield" (TVar "bitfield") "checked_set_bytes_range" [(TV (RI 16)); (TV (RI 8)); (TV (RA [239; 0; 0; 0]))]));
   SAssert (TEq (TMeth "Bitfield" (TVar "bitfield") "c" []) (TV (RI 239)))]) = true.
Proof. vm_compute. reflexivity. Qed.

(* lib_array_backed_tests.rs:3582 *)
Example bitfield_checked_get_bytes_range_write_only : is_passed (run_test
  [(mkUnit "Bitfield" (Parser.mkRDecl true VisPublic "Bitfield" (Some (Parser.RArray (Parser.RPath "u8") (Parser.LenLit 4))) []
     [Parser.mkRField "a" VisPrivate (Parser.AList Parser.RNoBits [("default", "0x12")]) (Parser.RPath "u8") (PInt 0) id_codec;
      Parser.mkRField "b" VisPrivate (Parser.AList Parser.RNoBits [("default", "0x34"); ("access", "wo")]) (Parser.RPath "u8") (PInt 0) id_codec;
      Parser.mkRField "c" VisPrivate (Parser.AList Parser.RNoBits [("default", "0x56"); ("access", "rw")]) (Parser.RPath "u8") (PInt 0) id_codec;
      Parser.mkRField "_d" VisPrivate (Parser.AList Parser.RNoBits [("default", "0x78")]) (Parser.RPath "u8") (PInt 0) id_codec]) [("a", (ELit 18 None)); ("b", (ELit 52 None)); ("c", (ELit 86 None)); ("_d", (ELit 120 None))])]
  [SLetT "bitfield" (TStat "Bitfield" "new" []);
   SAssert (TEq (TAt (TUnwrap (TMeth "Bitfield" (TVar "bitfield") "checked_get_bytes_range" [(TV (RI 0)); (TV (RI 8))])) 0) (TV (RI 18)));
   SAssert (TIsErr (TMeth "Bitfield" (TVar "bitfield") "checked_get_bytes_range" [(TV (RI 8)); (TV (RI 8))]));
   SAssert (TIsErr (TMeth "Bitfield" (TVar "bitfield") "checked_get_bytes_range" [(TV (RI 0)); (TV (RI 16))]));
   SAssert (TEq (TAt (TUnwrap (TMeth "Bitfield" (TVar "bitfield") "checked_get_bytes_range" [(TV (RI 16)); (TV (RI 8))])) 0) (TV (RI 86)))]) = true.
Proof. vm_compute. reflexivity. Qed.

(* lib_array_backed_tests.rs:3604 *)
Example bitfield_set_bytes_range_basic : is_passed (run_test
  [(mkUnit "Bitfield" (Parser.mkRDecl true VisPublic "Bitfield" (Some (Parser.RArray (Parser.RPath "u8") (Parser.LenLit 4))) []
     [Parser.mkRField "a" VisPrivate Parser.ANone (Parser.RPath "u8") (PInt 0) id_codec;
      Parser.mkRField "b" VisPrivate Parser.ANone (Parser.RPath "u8") (PInt 0) id_codec;
      Parser.mkRField "c" VisPrivate Parser.ANone (Parser.RPath "u8") (PInt 0) id_codec;
      Parser.mkRField "d" VisPrivate Parser.ANone (Parser.RPath "u8") (PInt 0) id_codec]) [])]
  [SLetT "bitfield" (TStat "Bitfield" "new" []);
   SDo (TMeth "Bitfield" (TVar "bitfield") "set_bytes_range" [(TV (RI 0)); (TV (RI 8)); (TV (RA [171; 0; 0; 0]))]);
   SDo (TMeth "Bitfield" (TVar "bitfield") "set_bytes_range" [(TV (RI 8)); (TV (RI 8)); (TV (RA [205; 0; 0; 0]))]);
   SDo (TMeth "Bitfield" (TVar "bitfield") "set_bytes_range" [(TV (RI 16)); (TV (RI 8)); (TV (RA [239; 0; 0; 0]))]);
   SAssert (TEq (TMeth "Bitfield" (TVar "bitfield") "a" []) (TV (RI 171)));
   SAssert (TEq (TMeth "Bitfield" (TVar "bitfield") "b" []) (TV (RI 205)));
   SAssert (TEq (TMeth "Bitfield" (TVar "bitfield") "c" []) (TV (RI 239)));
   SAssert (TEq (TMeth "Bitfield" (TVar "bitfield") "into_bytes" []) (TV (RA [0; 239; 205; 171])))]) = true.
Proof. vm_compute. reflexivity. Qed.

(* lib_array_backed_tests.rs:3625 *)
Example bitfield_get_bytes_range_basic : is_passed (run_test
  [(mkUnit "Bitfield" (Parser.mkRDecl true VisPublic "Bitfield" (Some (Parser.RArray (Parser.RPath "u8") (Parser.LenLit 4))) []
     [Parser.mkRField "a" VisPrivate (Parser.AList Parser.RNoBits [("default", "0x12")]) (Parser.RPath "u8") (PInt 0) id_codec;
      Parser.mkRField "b" VisPrivate (Parser.AList Parser.RNoBits [("default", "0x34")]) (Parser.RPath "u8") (PInt 0) id_codec;
      Parser.mkRField "c" VisPrivate (Parser.AList Parser.RNoBits [("default", "0x56")]) (Parser.RPath "u8") (PInt 0) id_codec;
      Parser.mkRField "d" VisPrivate (Parser.AList Parser.RNoBits [("default", "0x78")]) (Parser.RPath "u8") (PInt 0) id_codec]) [("a", (ELit 18 None)); ("b", (ELit 52 None)); ("c", (ELit 86 None)); ("d", (ELit 120 None))])]
  [SLetT "bitfield" (TStat "Bitfield" "new" []);
   SAssert (TEq (TAt (TMeth "Bitfield" (TVar "bitfield") "get_bytes_range" [(TV (RI 0)); (TV (RI 8))]) 0) (TV (RI 18)));
   SAssert (TEq (TAt (TMeth "Bitfield" (TVar "bitfield") "get_bytes_range" [(TV (RI 8)); (TV (RI 8))]) 0) (TV (RI 52)));
   SAssert (TEq (TAt (TMeth "Bitfield" (TVar "bitfield") "get_bytes_range" [(TV (RI 16)); (TV (RI 8))]) 0) (TV (RI 86)));
   SAssert (TEq (TAt (TMeth "Bitfield" (TVar "bitfield") "get_bytes_range" [(TV (RI 24)); (TV (RI 8))]) 0) (TV (RI 120)))]) = true.
Proof. vm_compute. reflexivity. Qed.

(* lib_array_backed_tests.rs:3646 *)
Example bitfield_get_bytes_range_out_of_bounds : is_passed (run_test
  [(mkUnit "Bitfield" (Parser.mkRDecl true VisPublic "Bitfield" (Some (Parser.RArray (Parser.RPath "u8") (Parser.LenLit 4))) []
     [Parser.mkRField "a" VisPrivate (Parser.AList Parser.RNoBits [("default", "0x12")]) (Parser.RPath "u8") (PInt 0) id_codec;
      Parser.mkRField "b" VisPrivate (Parser.AList Parser.RNoBits [("default", "0x34")]) (Parser.RPath "u8") (PInt 0) id_codec;
      Parser.mkRField "c" VisPrivate (Parser.AList Parser.RNoBits [("default", "0x56")]) (Parser.RPath "u8") (PInt 0) id_codec;
      Parser.mkRField "d" VisPrivate (Parser.AList Parser.RNoBits [("default", "0x78")]) (Parser.RPath "u8") (PInt 0) id_codec]) [("a", (ELit 18 None)); ("b", (ELit 52 None)); ("c", (ELit 86 None)); ("d", (ELit 120 None))])]
  [SLetT "bitfield" (TStat "Bitfield" "new" []);
   SAssert (TEq (TMeth "Bitfield" (TVar "bitfield") "get_bytes_range" [(TV (RI 50)); (TV (RI 8))]) (TV (RA (repeat 0 4%nat))));
   SAssert (TEq (TMeth "Bitfield" (TVar "bitfield") "get_bytes_range" [(TV (RI 0)); (TV (RI 40))]) (TV (RA (repeat 0 4%nat))))]) = true.
Proof. vm_compute. reflexivity. Qed.

(* lib_array_backed_tests.rs:3665 *)
Example bitfield_write_bits_write_endian_little_ : is_passed (run_test
  [(mkUnit "Bitfield" (Parser.mkRDecl true VisPublic "Bitfield" (Some (Parser.RArray (Parser.RPath "u8") (Parser.LenLit 4))) [("write_endian", "little")]
     [Parser.mkRField "a" VisPrivate Parser.ANone (Parser.RPath "u8") (PInt 0) id_codec;
      Parser.mkRField "b" VisPrivate Parser.ANone (Parser.RPath "u8") (PInt 0) id_codec;
      Parser.mkRField "c" VisPrivate Parser.ANone (Parser.RPath "u8") (PInt 0) id_codec;
      Parser.mkRField "d" VisPrivate Parser.ANone (Parser.RPath "u8") (PInt 0) id_codec]) [])]
  [SLetT "bitfield" (TStat "Bitfield" "new" []);
   SDo (TMeth "Bitfield" (TVar "bitfield") "write_bytes" [(TV (RA [68; 51; 34; 17]))]);
   SAssert (TEq (TMeth "Bitfield" (TVar "bitfield") "a" []) (TV (RI 17)));
   SAssert (TEq (TMeth "Bitfield" (TVar "bitfield") "b" []) (TV (RI 34)));
   SAssert (TEq (TMeth "Bitfield" (TVar "bitfield") "c" []) (TV (RI 51)));
   SAssert (TEq (TMeth "Bitfield" (TVar "bitfield") "d" []) (TV (RI 68)));
   SAssert (TEq (TMeth "Bitfield" (TVar "bitfield") "into_bytes" []) (TV (RA [68; 51; 34; 17])))]) = true.
Proof. vm_compute. reflexivity. Qed.

(* lib_array_backed_tests.rs:3684 *)
Example bitfield_write_bits_write_endian_big_ : is_passed (run_test
  [(mkUnit "Bitfield" (Parser.mkRDecl true VisPublic "Bitfield" (Some (Parser.RArray (Parser.RPath "u8") (Parser.LenLit 4))) [("write_endian", "big")]
     [Parser.mkRField "a" VisPrivate Parser.ANone (Parser.RPath "u8") (PInt 0) id_codec;
      Parser.mkRField "b" VisPrivate Parser.ANone (Parser.RPath "u8") (PInt 0) id_codec;
      Parser.mkRField "c" VisPrivate Parser.ANone (Parser.RPath "u8") (PInt 0) id_codec;
      Parser.mkRField "d" VisPrivate Parser.ANone (Parser.RPath "u8") (PInt 0) id_codec]) [])]
  [SLetT "bitfield" (TStat "Bitfield" "new" []);
   SDo (TMeth "Bitfield" (TVar "bitfield") "write_bytes" [(TV (RA [68; 51; 34; 17]))]);
   SAssert (TEq (TMeth "Bitfield" (TVar "bitfield") "a" []) (TV (RI 68)));
   SAssert (TEq (TMeth "Bitfield" (TVar "bitfield") "b" []) (TV (RI 51)));
   SAssert (TEq (TMeth "Bitfield" (TVar "bitfield") "c" []) (TV (RI 34)));
   SAssert (TEq (TMeth "Bitfield" (TVar "bitfield") "d" []) (TV (RI 17)));
   SAssert (TEq (TMeth "Bitfield" (TVar "bitfield") "into_bytes" []) (TV (RA [17; 34; 51; 68])))]) = true.
Proof. vm_compute. reflexivity. Qed.

(* lib_array_backed_tests.rs:3703 *)
Example bitfield_builder_default_ : is_passed (run_test
  [(mkUnit "Bitfield" (Parser.mkRDecl true VisPublic "Bitfield" (Some (Parser.RArray (Parser.RPath "u8") (Parser.LenLit 4))) []
     [Parser.mkRField "a" VisPrivate (Parser.AList Parser.RNoBits [("default", "0x12")]) (Parser.RPath "u8") (PInt 0) id_codec;
      Parser.mkRField "b" VisPrivate (Parser.AList Parser.RNoBits [("default", "0x34")]) (Parser.RPath "u8") (PInt 0) id_codec;
      Parser.mkRField "c" VisPrivate (Parser.AList Parser.RNoBits [("default", "0x56")]) (Parser.RPath "u8") (PInt 0) id_codec;
      Parser.mkRField "d" VisPrivate (Parser.AList Parser.RNoBits [("default", "0x78")]) (Parser.RPath "u8") (PInt 0) id_codec]) [("a", (ELit 18 None)); ("b", (ELit 52 None)); ("c", (ELit 86 None)); ("d", (ELit 120 None))])]
  [SLetT "bitfield" (TBuild "Bitfield" "build" [(TBuild "Bitfield" "new" [])]);
   SAssert (TEq (TMeth "Bitfield" (TVar "bitfield") "a" []) (TV (RI 18)));
   SAssert (TEq (TMeth "Bitfield" (TVar "bitfield") "b" []) (TV (RI 52)));
   SAssert (TEq (TMeth "Bitfield" (TVar "bitfield") "c" []) (TV (RI 86)));
   SAssert (TEq (TMeth "Bitfield" (TVar "bitfield") "d" []) (TV (RI 120)));
   SAssert (TEq (TMeth "Bitfield" (TVar "bitfield") "into_bytes" []) (TV (RA [120; 86; 52; 18])))]) = true.
Proof. vm_compute. reflexivity. Qed.

(* lib_array_backed_tests.rs:3725 *)
Example bitfield_builder_checked_with_success_ : is_passed (run_test
  [(mkUnit "Bitfield" (Parser.mkRDecl true VisPublic "Bitfield" (Some (Parser.RArray (Parser.RPath "u8") (Parser.LenLit 4))) []
     [Parser.mkRField "a" VisPrivate (Parser.AList (Parser.RBits 4 "") [("access", "ro")]) (Parser.RPath "u8") (PInt 0) id_codec;
      Parser.mkRField "b" VisPrivate (Parser.AList (Parser.RBits 28 "") []) (Parser.RPath "u32") (PInt 0) id_codec]) [])]
  [SLetT "result" (TBuild "Bitfield" "checked_with_a" [(TBuild "Bitfield" "new" []); (TV (RI 15))]);
   SAssert (TIsOk (TVar "result"));
   SLetT "bitfield" (TBuild "Bitfield" "build" [(TUnwrap (TVar "result"))]);
   SAssert (TEq (TMeth "Bitfield" (TVar "bitfield") "a" []) (TV (RI 15)))]) = true.
Proof. vm_compute. reflexivity. Qed.

(* lib_array_backed_tests.rs:3741 *)
Example bitfield_builder_checked_with_failure_ : is_passed (run_test
  [(mkUnit "Bitfield" (Parser.mkRDecl true VisPublic "Bitfield" (Some (Parser.RArray (Parser.RPath "u8") (Parser.LenLit 4))) []
     [Parser.mkRField "a" VisPrivate (Parser.AList (Parser.RBits 4 "") [("access", "ro")]) (Parser.RPath "u8") (PInt 0) id_codec;
      Parser.mkRField "b" VisPrivate (Parser.AList (Parser.RBits 28 "") []) (Parser.RPath "u32") (PInt 0) id_codec]) [])]
  [SLetT "result" (TBuild "Bitfield" "checked_with_a" [(TBuild "Bitfield" "new" []); (TV (RI 255))]);
   SAssert (TIsErr (TVar "result"));
   SAssert (TEq (TErr (TVar "result")) (TV (RErr "Value is too big to fit within the field bits.")))]) = true.
Proof. vm_compute. reflexivity. Qed.

(* lib_array_backed_tests.rs:3756 *)
Example bitfield_debug_write_only_field_ : is_passed (run_test
  [(mkUnit "Bitfield" (Parser.mkRDecl true VisPublic "Bitfield" (Some (Parser.RArray (Parser.RPath "u8") (Parser.LenLit 4))) []
     [Parser.mkRField "a" VisPrivate (Parser.AList Parser.RNoBits [("default", "0x12")]) (Parser.RPath "u8") (PInt 0) id_codec;
      Parser.mkRField "b" VisPrivate (Parser.AList Parser.RNoBits [("default", "0x34"); ("access", "wo")]) (Parser.RPath "u8") (PInt 0) id_codec;
      Parser.mkRField "c" VisPrivate (Parser.AList Parser.RNoBits [("default", "0x56")]) (Parser.RPath "u8") (PInt 0) id_codec;
      Parser.mkRField "d" VisPrivate (Parser.AList Parser.RNoBits [("default", "0x78")]) (Parser.RPath "u8") (PInt 0) id_codec]) [("a", (ELit 18 None)); ("b", (ELit 52 None)); ("c", (ELit 86 None)); ("d", (ELit 120 None))])]
  [SLetT "bitfield" (TStat "Bitfield" "new" []);
   SLetT "debug_str" (TFmt "Bitfield" (TVar "bitfield"));
   SAssert (TEq (TVar "debug_str") (TV (RErr "Bitfield { a: 18, b: 52, c: 86, d: 120 }")))]) = true.
Proof. vm_compute. reflexivity. Qed.

(* lib_array_backed_tests.rs:3775 *)
Example bitfield_debug_na_field_ : is_passed (run_test
  [(mkUnit "Bitfield" (Parser.mkRDecl true VisPublic "Bitfield" (Some (Parser.RArray (Parser.RPath "u8") (Parser.LenLit 4))) []
     [Parser.mkRField "a" VisPrivate (Parser.AList Parser.RNoBits [("default", "0x12")]) (Parser.RPath "u8") (PInt 0) id_codec;
      Parser.mkRField "b" VisPrivate (Parser.AList Parser.RNoBits [("default", "0x34"); ("access", "na")]) (Parser.RPath "u8") (PInt 0) id_codec;
      Parser.mkRField "c" VisPrivate (Parser.AList Parser.RNoBits [("default", "0x56")]) (Parser.RPath "u8") (PInt 0) id_codec;
      Parser.mkRField "d" VisPrivate (Parser.AList Parser.RNoBits [("default", "0x78")]) (Parser.RPath "u8") (PInt 0) id_codec]) [("a", (ELit 18 None)); ("b", (ELit 52 None)); ("c", (ELit 86 None)); ("d", (ELit 120 None))])]
  [SLetT "bitfield" (TStat "Bitfield" "new" []);
   SLetT "debug_str" (TFmt "Bitfield" (TVar "bitfield"));
   SAssert (TEq (TVar "debug_str") (TV (RErr "Bitfield { a: 18, b: 52, c: 86, d: 120 }")))]) = true.
Proof. vm_compute. reflexivity. Qed.

(* lib_array_backed_tests.rs:3794 *)
Example bitfield_from_bits_with_defaults_msb_ : is_passed (run_test
  [(mkUnit "Bitfield" (Parser.mkRDecl true VisPublic "Bitfield" (Some (Parser.RArray (Parser.RPath "u8") (Parser.LenLit 4))) [("order", "msb")]
     [Parser.mkRField "a" VisPrivate Parser.ANone (Parser.RPath "u8") (PInt 0) id_codec;
      Parser.mkRField "b" VisPrivate (Parser.AList Parser.RNoBits [("default", "0x34")]) (Parser.RPath "u8") (PInt 0) id_codec;
      Parser.mkRField "c" VisPrivate Parser.ANone (Parser.RPath "u8") (PInt 0) id_codec;
      Parser.mkRField "d" VisPrivate (Parser.AList Parser.RNoBits [("default", "0x78")]) (Parser.RPath "u8") (PInt 0) id_codec]) [("b", (ELit 52 None)); ("d", (ELit 120 None))])]
  [SLetT "bitfield" (TStat "Bitfield" "from_bytes_with_defaults" [(TV (RA [17; 34; 51; 68]))]);
   SAssert (TEq (TMeth "Bitfield" (TVar "bitfield") "a" []) (TV (RI 17)));
   SAssert (TEq (TMeth "Bitfield" (TVar "bitfield") "b" []) (TV (RI 52)));
   SAssert (TEq (TMeth "Bitfield" (TVar "bitfield") "c" []) (TV (RI 51)));
   SAssert (TEq (TMeth "Bitfield" (TVar "bitfield") "d" []) (TV (RI 120)))]) = true.
Proof. vm_compute. reflexivity. Qed.

(* lib_array_backed_tests.rs:3813 *)
Example bitfield_builder_new_without_defaults_default_values_ : is_passed (run_test
  [(mkUnit "Bitfield" (Parser.mkRDecl true VisPublic "Bitfield" (Some (Parser.RArray (Parser.RPath "u8") (Parser.LenLit 4))) []
     [Parser.mkRField "a" VisPrivate (Parser.AList Parser.RNoBits [("default", "0x12")]) (Parser.RPath "u8") (PInt 0) id_codec;
      Parser.mkRField "b" VisPrivate (Parser.AList Parser.RNoBits [("default", "0x34")]) (Parser.RPath "u8") (PInt 0) id_codec;
      Parser.mkRField "c" VisPrivate (Parser.AList Parser.RNoBits [("default", "0x56")]) (Parser.RPath "u8") (PInt 0) id_codec;
      Parser.mkRField "d" VisPrivate (Parser.AList (Parser.RBits 8 "") []) (Parser.RPath "CustomType2") (PInt 0) (mkCodec U8 (fun bits => (if Z.eqb bits 3 then 0 else (if Z.eqb bits 4 then 1 else 0))) U8 (fun self => (if Z.eqb self 0 then 3 else (if Z.eqb self 1 then 4 else (-1)))))]) [("a", (ELit 18 None)); ("b", (ELit 52 None)); ("c", (ELit 86 None))])]
  [SLetT "bitfield" (TBuild "Bitfield" "build" [(TBuild "Bitfield" "new_without_defaults" [])]);
   SAssert (TEq (TMeth "Bitfield" (TVar "bitfield") "a" []) (TV (RI 0)));
   SAssert (TEq (TMeth "Bitfield" (TVar "bitfield") "b" []) (TV (RI 0)));
   SAssert (TEq (TMeth "Bitfield" (TVar "bitfield") "c" []) (TV (RI 0)));
   SAssert (TEq (TMeth "Bitfield" (TVar "bitfield") "d" []) (TV (RC 0)));
   SAssert (TEq (TMeth "Bitfield" (TVar "bitfield") "into_bytes" []) (TV (RA [3; 0; 0; 0])))]) = true.
Proof. vm_compute. reflexivity. Qed.

(* lib_array_backed_tests.rs:3858 *)
Example bitfield_invert_bits_na_access_ : is_passed (run_test
  [(mkUnit "Bitfield" (Parser.mkRDecl true VisPublic "Bitfield" (Some (Parser.RArray (Parser.RPath "u8") (Parser.LenLit 4))) []
     [Parser.mkRField "a" VisPrivate (Parser.AList Parser.RNoBits [("default", "0x12")]) (Parser.RPath "u8") (PInt 0) id_codec;
      Parser.mkRField "b" VisPrivate (Parser.AList Parser.RNoBits [("default", "0x34"); ("access", "na")]) (Parser.RPath "u8") (PInt 0) id_codec;
      Parser.mkRField "c" VisPrivate (Parser.AList Parser.RNoBits [("default", "0x56")]) (Parser.RPath "u8") (PInt 0) id_codec;
      Parser.mkRField "_d" VisPrivate (Parser.AList Parser.RNoBits [("default", "0x78")]) (Parser.RPath "u8") (PInt 0) id_codec]) [("a", (ELit 18 None)); ("b", (ELit 52 None)); ("c", (ELit 86 None)); ("_d", (ELit 120 None))])]
  [SLetT "bitfield" (TStat "Bitfield" "new" []);
   SDo (TMeth "Bitfield" (TVar "bitfield") "invert_bytes" []);
   SAssert (TEq (TMeth "Bitfield" (TVar "bitfield") "a" []) (TV (RI 237)));
   SAssert (TEq (TMeth "Bitfield" (TVar "bitfield") "c" []) (TV (RI 169)));
   SAssert (TEq (TMeth "Bitfield" (TVar "bitfield") "into_bytes" []) (TV (RA [120; 169; 52; 237])))]) = true.
Proof. vm_compute. reflexivity. Qed.

(* lib_array_backed_tests.rs:3879 *)
Example bitfield_invert_bits_write_only_field_ : is_passed (run_test
  [(mkUnit "Bitfield" (Parser.mkRDecl true VisPublic "Bitfield" (Some (Parser.RArray (Parser.RPath "u8") (Parser.LenLit 4))) []
     [Parser.mkRField "a" VisPrivate (Parser.AList Parser.RNoBits [("default", "0x12")]) (Parser.RPath "u8") (PInt 0) id_codec;
      Parser.mkRField "b" VisPrivate (Parser.AList Parser.RNoBits [("default", "0x34"); ("access", "wo")]) (Parser.RPath "u8") (PInt 0) id_codec;
      Parser.mkRField "c" VisPrivate (Parser.AList Parser.RNoBits [("default", "0x56")]) (Parser.RPath "u8") (PInt 0) id_codec;
      Parser.mkRField "_d" VisPrivate (Parser.AList Parser.RNoBits [("default", "0x78")]) (Parser.RPath "u8") (PInt 0) id_codec]) [("a", (ELit 18 None)); ("b", (ELit 52 None)); ("c", (ELit 86 None)); ("_d", (ELit 120 None))])]
  [SLetT "bitfield" (TStat "Bitfield" "new" []);
   SDo (TMeth "Bitfield" (TVar "bitfield") "invert_bytes" []);
   SAssert (TEq (TMeth "Bitfield" (TVar "bitfield") "a" []) (TV (RI 237)));
   SAssert (TEq (TMeth "Bitfield" (TVar "bitfield") "c" []) (TV (RI 169)));
   SAssert (TEq (TMeth "Bitfield" (TVar "bitfield") "into_bytes" []) (TV (RA [120; 169; 203; 237])))]) = true.
Proof. vm_compute. reflexivity. Qed.

(* lib_array_backed_tests.rs:3900 *)
Example bitfield_with_bitflag_field_getter_setter_ : is_passed (run_test
  [(mkUnit "Packet" (Parser.mkRDecl true VisPrivate "Packet" (Some (Parser.RArray (Parser.RPath "u8") (Parser.LenLit 2))) []
     [Parser.mkRField "status" VisPrivate (Parser.AList (Parser.RBits 8 "") []) (Parser.RPath "Status") (PInt 0) (bitflag_codec (Bitflag.mkREnum VisPrivate "Status" (Some (Parser.RPath "u8")) [] [Bitflag.mkRVariant "Idle" ["base"] (Some "0") Bitflag.FLit 0; Bitflag.mkRVariant "Active" [] (Some "1") Bitflag.FLit 1; Bitflag.mkRVariant "Paused" [] (Some "2") Bitflag.FLit 2]) U8);
      Parser.mkRField "flags" VisPrivate Parser.ANone (Parser.RPath "u8") (PInt 0) id_codec]) [])]
  [SLetT "packet" (TStat "Packet" "new" []);
   SDo (TMeth "Packet" (TVar "packet") "set_status" [(TV (RC 1))]);
   SDo (TMeth "Packet" (TVar "packet") "set_flags" [(TV (RI 171))]);
   SAssert (TEq (TMeth "Packet" (TVar "packet") "status" []) (TV (RC 1)));
   SAssert (TEq (TMeth "Packet" (TVar "packet") "flags" []) (TV (RI 171)))]) = true.
Proof. vm_compute. reflexivity. Qed.

(* lib_array_backed_tests.rs:3925 *)
Example bitfield_with_bitflag_field_from_into_bits_ : is_passed (run_test
  [(mkUnit "Register" (Parser.mkRDecl true VisPrivate "Register" (Some (Parser.RArray (Parser.RPath "u8") (Parser.LenLit 2))) []
     [Parser.mkRField "mode" VisPrivate (Parser.AList (Parser.RBits 8 "") []) (Parser.RPath "Mode") (PInt 0) (bitflag_codec (Bitflag.mkREnum VisPrivate "Mode" (Some (Parser.RPath "u8")) [] [Bitflag.mkRVariant "Off" ["base"] (Some "0") Bitflag.FLit 0; Bitflag.mkRVariant "Read" [] (Some "1") Bitflag.FLit 1; Bitflag.mkRVariant "Write" [] (Some "2") Bitflag.FLit 2; Bitflag.mkRVariant "ReadWrite" [] (Some "3") Bitflag.FLit 3]) U8);
      Parser.mkRField "value" VisPrivate Parser.ANone (Parser.RPath "u8") (PInt 0) id_codec]) [])]
  [SLetT "raw" (TMeth "Register" (TBuild "Register" "build" [(TBuild "Register" "with_value" [(TBuild "Register" "with_mode" [(TBuild "Register" "new" []); (TV (RC 2))]); (TV (RI 66))])]) "into_bytes" []);
   SLetT "recovered" (TStat "Register" "from_bytes" [(TVar "raw")]);
   SAssert (TEq (TMeth "Register" (TVar "recovered") "mode" []) (TV (RC 2)));
   SAssert (TEq (TMeth "Register" (TVar "recovered") "value" []) (TV (RI 66)))]) = true.
Proof. vm_compute. reflexivity. Qed.

(* lib_array_backed_tests.rs:3952 *)
Example bitfield_with_multiple_bitflag_fields_ : is_passed (run_test
  [(mkUnit "Command" (Parser.mkRDecl true VisPrivate "Command" (Some (Parser.RArray (Parser.RPath "u8") (Parser.LenLit 2))) []
     [Parser.mkRField "direction" VisPrivate (Parser.AList (Parser.RBits 8 "") []) (Parser.RPath "Direction") (PInt 0) (bitflag_codec (Bitflag.mkREnum VisPrivate "Direction" (Some (Parser.RPath "u8")) [] [Bitflag.mkRVariant "None" ["base"] (Some "0") Bitflag.FLit 0; Bitflag.mkRVariant "North" [] (Some "1") Bitflag.FLit 1; Bitflag.mkRVariant "South" [] (Some "2") Bitflag.FLit 2; Bitflag.mkRVariant "East" [] (Some "3") Bitflag.FLit 3; Bitflag.mkRVariant "West" [] (Some "4") Bitflag.FLit 4]) U8);
      Parser.mkRField "speed" VisPrivate (Parser.AList (Parser.RBits 8 "") []) (Parser.RPath "Speed") (PInt 0) (bitflag_codec (Bitflag.mkREnum VisPrivate "Speed" (Some (Parser.RPath "u8")) [] [Bitflag.mkRVariant "Stop" ["base"] (Some "0") Bitflag.FLit 0; Bitflag.mkRVariant "Slow" [] (Some "1") Bitflag.FLit 1; Bitflag.mkRVariant "Fast" [] (Some "2") Bitflag.FLit 2]) U8)]) [])]
  [SLetT "cmd" (TBuild "Command" "build" [(TBuild "Command" "with_speed" [(TBuild "Command" "with_direction" [(TBuild "Command" "new" []); (TV (RC 3))]); (TV (RC 2))])]);
   SAssert (TEq (TMeth "Command" (TVar "cmd") "direction" []) (TV (RC 3)));
   SAssert (TEq (TMeth "Command" (TVar "cmd") "speed" []) (TV (RC 2)));
   SLetT "raw" (TMeth "Command" (TVar "cmd") "into_bytes" []);
   SLetT "recovered" (TStat "Command" "from_bytes" [(TVar "raw")]);
   SAssert (TEq (TMeth "Command" (TVar "recovered") "direction" []) (TV (RC 3)));
   SAssert (TEq (TMeth "Command" (TVar "recovered") "speed" []) (TV (RC 2)))]) = true.
Proof. vm_compute. reflexivity. Qed.

(* lib_array_backed_tests.rs:3994 *)
Example bitfield_with_bitflag_field_default_value_ : is_passed (run_test
  [(mkUnit "Control" (Parser.mkRDecl true VisPrivate "Control" (Some (Parser.RArray (Parser.RPath "u8") (Parser.LenLit 2))) []
     [Parser.mkRField "state" VisPrivate (Parser.AList (Parser.RBits 8 "") [("default", "State::Ready")]) (Parser.RPath "State") (PInt 0) (bitflag_codec (Bitflag.mkREnum VisPrivate "State" (Some (Parser.RPath "u8")) [] [Bitflag.mkRVariant "Unknown" ["base"] (Some "0") Bitflag.FLit 0; Bitflag.mkRVariant "Ready" [] (Some "1") Bitflag.FLit 1; Bitflag.mkRVariant "Busy" [] (Some "2") Bitflag.FLit 2]) U8);
      Parser.mkRField "config" VisPrivate Parser.ANone (Parser.RPath "u8") (PInt 0) id_codec]) [("state", (EUser (TUser "state") (RC 1)))])]
  [SLetT "ctrl" (TStat "Control" "new" []);
   SAssert (TEq (TMeth "Control" (TVar "ctrl") "state" []) (TV (RC 1)));
   SAssert (TEq (TMeth "Control" (TVar "ctrl") "config" []) (TV (RI 0)))]) = true.
Proof. vm_compute. reflexivity. Qed.

(* lib_array_backed_tests.rs:4017 *)
Example bitfield_with_bitflag_field_partial_bits_ : is_passed (run_test
  [(mkUnit "Packed" (Parser.mkRDecl true VisPrivate "Packed" (Some (Parser.RArray (Parser.RPath "u8") (Parser.LenLit 1))) []
     [Parser.mkRField "a" VisPrivate (Parser.AList (Parser.RBits 2 "") []) (Parser.RPath "Flag") (PInt 0) (bitflag_codec (Bitflag.mkREnum VisPrivate "Flag" (Some (Parser.RPath "u8")) [] [Bitflag.mkRVariant "Off" ["base"] (Some "0") Bitflag.FLit 0; Bitflag.mkRVariant "On" [] (Some "1") Bitflag.FLit 1; Bitflag.mkRVariant "Pending" [] (Some "2") Bitflag.FLit 2]) U8);
      Parser.mkRField "b" VisPrivate (Parser.AList (Parser.RBits 2 "") []) (Parser.RPath "Flag") (PInt 0) (bitflag_codec (Bitflag.mkREnum VisPrivate "Flag" (Some (Parser.RPath "u8")) [] [Bitflag.mkRVariant "Off" ["base"] (Some "0") Bitflag.FLit 0; Bitflag.mkRVariant "On" [] (Some "1") Bitflag.FLit 1; Bitflag.mkRVariant "Pending" [] (Some "2") Bitflag.FLit 2]) U8);
      Parser.mkRField "rest" VisPrivate (Parser.AList (Parser.RBits 4 "") []) (Parser.RPath "u8") (PInt 0) id_codec]) [])]
  [SLetT "p" (TBuild "Packed" "build" [(TBuild "Packed" "with_rest" [(TBuild "Packed" "with_b" [(TBuild "Packed" "with_a" [(TBuild "Packed" "new" []); (TV (RC 1))]); (TV (RC 2))]); (TV (RI 15))])]);
   SAssert (TEq (TMeth "Packed" (TVar "p") "a" []) (TV (RC 1)));
   SAssert (TEq (TMeth "Packed" (TVar "p") "b" []) (TV (RC 2)));
   SAssert (TEq (TMeth "Packed" (TVar "p") "rest" []) (TV (RI 15)));
   SLetT "raw" (TMeth "Packed" (TVar "p") "into_bytes" []);
   SLetT "recovered" (TStat "Packed" "from_bytes" [(TVar "raw")]);
   SAssert (TEq (TMeth "Packed" (TVar "recovered") "a" []) (TV (RC 1)));
   SAssert (TEq (TMeth "Packed" (TVar "recovered") "b" []) (TV (RC 2)));
   SAssert (TEq (TMeth "Packed" (TVar "recovered") "rest" []) (TV (RI 15)))]) = true.
Proof. vm_compute. reflexivity. Qed.

(* lib_array_backed_tests.rs:4077 *)
Example bitfield_with_bitflag_and_primitive_fields_round_trip_ : is_passed (run_test
  [(mkUnit "Frame" (Parser.mkRDecl true VisPrivate "Frame" (Some (Parser.RArray (Parser.RPath "u8") (Parser.LenLit 4))) []
     [Parser.mkRField "protocol" VisPrivate (Parser.AList (Parser.RBits 8 "") []) (Parser.RPath "Protocol") (PInt 0) (bitflag_codec (Bitflag.mkREnum VisPrivate "Protocol" (Some (Parser.RPath "u8")) [] [Bitflag.mkRVariant "Unknown" ["base"] (Some "0") Bitflag.FLit 0; Bitflag.mkRVariant "Uart" [] (Some "1") Bitflag.FLit 1; Bitflag.mkRVariant "Spi" [] (Some "2") Bitflag.FLit 2; Bitflag.mkRVariant "I2c" [] (Some "3") Bitflag.FLit 3]) U8);
      Parser.mkRField "address" VisPrivate Parser.ANone (Parser.RPath "u8") (PInt 0) id_codec;
      Parser.mkRField "length" VisPrivate Parser.ANone (Parser.RPath "u8") (PInt 0) id_codec;
      Parser.mkRField "checksum" VisPrivate Parser.ANone (Parser.RPath "u8") (PInt 0) id_codec]) [])]
  [SLetT "frame" (TBuild "Frame" "build" [(TBuild "Frame" "with_checksum" [(TBuild "Frame" "with_length" [(TBuild "Frame" "with_address" [(TBuild "Frame" "with_protocol" [(TBuild "Frame" "new" []); (TV (RC 2))]); (TV (RI 18))]); (TV (RI 8))]); (TV (RI 171))])]);
   SAssert (TEq (TMeth "Frame" (TVar "frame") "protocol" []) (TV (RC 2)));
   SAssert (TEq (TMeth "Frame" (TVar "frame") "address" []) (TV (RI 18)));
   SAssert (TEq (TMeth "Frame" (TVar "frame") "length" []) (TV (RI 8)));
   SAssert (TEq (TMeth "Frame" (TVar "frame") "checksum" []) (TV (RI 171)));
   SLetT "raw" (TMeth "Frame" (TVar "frame") "into_bytes" []);
   SLetT "recovered" (TStat "Frame" "from_bytes" [(TVar "raw")]);
   SAssert (TEq (TMeth "Frame" (TVar "recovered") "protocol" []) (TV (RC 2)));
   SAssert (TEq (TMeth "Frame" (TVar "recovered") "address" []) (TV (RI 18)));
   SAssert (TEq (TMeth "Frame" (TVar "recovered") "length" []) (TV (RI 8)));
   SAssert (TEq (TMeth "Frame" (TVar "recovered") "checksum" []) (TV (RI 171)))]) = true.
Proof. vm_compute. reflexivity. Qed.

(* lib_array_backed_tests.rs:4118 *)
Example bitfield_with_bitflag_field_from_traits_ : is_passed (run_test
  [(mkUnit "Config" (Parser.mkRDecl true VisPrivate "Config" (Some (Parser.RArray (Parser.RPath "u8") (Parser.LenLit 2))) [("from_traits", "true")]
     [Parser.mkRField "channel" VisPrivate (Parser.AList (Parser.RBits 8 "") []) (Parser.RPath "Channel") (PInt 0) (bitflag_codec (Bitflag.mkREnum VisPrivate "Channel" (Some (Parser.RPath "u8")) [] [Bitflag.mkRVariant "None" ["base"] (Some "0") Bitflag.FLit 0; Bitflag.mkRVariant "Ch1" [] (Some "1") Bitflag.FLit 1; Bitflag.mkRVariant "Ch2" [] (Some "2") Bitflag.FLit 2; Bitflag.mkRVariant "Ch3" [] (Some "3") Bitflag.FLit 3]) U8);
      Parser.mkRField "gain" VisPrivate Parser.ANone (Parser.RPath "u8") (PInt 0) id_codec]) [])]
  [SLetT "cfg" (TFrom "Config" (TV (RA [3; 1])));
   SAssert (TEq (TMeth "Config" (TVar "cfg") "channel" []) (TV (RC 1)));
   SAssert (TEq (TMeth "Config" (TVar "cfg") "gain" []) (TV (RI 3)));
   SLetT "raw" (TInto "Config" (TBuild "Config" "build" [(TBuild "Config" "with_gain" [(TBuild "Config" "with_channel" [(TBuild "Config" "new" []); (TV (RC 3))]); (TV (RI 7))])]));
   SAssert (TEq (TVar "raw") (TV (RA [7; 3])))]) = true.
Proof. vm_compute. reflexivity. Qed.

(* lib_array_backed_tests.rs:4153 *)
Example bitfield_from_slice_exact : is_passed (run_test
  [(mkUnit "Bitfield" (Parser.mkRDecl true VisPrivate "Bitfield" (Some (Parser.RArray (Parser.RPath "u8") (Parser.LenLit 4))) []
     [Parser.mkRField "a" VisPrivate Parser.ANone (Parser.RPath "u8") (PInt 0) id_codec;
      Parser.mkRField "b" VisPrivate Parser.ANone (Parser.RPath "u8") (PInt 0) id_codec;
      Parser.mkRField "c" VisPrivate Parser.ANone (Parser.RPath "u8") (PInt 0) id_codec;
      Parser.mkRField "d" VisPrivate Parser.ANone (Parser.RPath "u8") (PInt 0) id_codec]) [])]
  [SLetT "bitfield" (TStat "Bitfield" "from_slice" [(TV (RA [17; 34; 51; 68]))]);
   SAssert (TEq (TMeth "Bitfield" (TVar "bitfield") "a" []) (TV (RI 68)));
   SAssert (TEq (TMeth "Bitfield" (TVar "bitfield") "b" []) (TV (RI 51)));
   SAssert (TEq (TMeth "Bitfield" (TVar "bitfield") "c" []) (TV (RI 34)));
   SAssert (TEq (TMeth "Bitfield" (TVar "bitfield") "d" []) (TV (RI 17)))]) = true.
Proof. vm_compute. reflexivity. Qed.

(* lib_array_backed_tests.rs:4170 *)
Example bitfield_from_slice_shorter : is_passed (run_test
  [(mkUnit "Bitfield" (Parser.mkRDecl true VisPrivate "Bitfield" (Some (Parser.RArray (Parser.RPath "u8") (Parser.LenLit 4))) []
     [Parser.mkRField "a" VisPrivate Parser.ANone (Parser.RPath "u8") (PInt 0) id_codec;
      Parser.mkRField "b" VisPrivate Parser.ANone (Parser.RPath "u8") (PInt 0) id_codec;
      Parser.mkRField "c" VisPrivate Parser.ANone (Parser.RPath "u8") (PInt 0) id_codec;
      Parser.mkRField "d" VisPrivate Parser.ANone (Parser.RPath "u8") (PInt 0) id_codec]) [])]
  [SLetT "bitfield" (TStat "Bitfield" "from_slice" [(TV (RA [17; 34]))]);
   SAssert (TEq (TMeth "Bitfield" (TVar "bitfield") "a" []) (TV (RI 0)));
   SAssert (TEq (TMeth "Bitfield" (TVar "bitfield") "b" []) (TV (RI 0)));
   SAssert (TEq (TMeth "Bitfield" (TVar "bitfield") "c" []) (TV (RI 34)));
   SAssert (TEq (TMeth "Bitfield" (TVar "bitfield") "d" []) (TV (RI 17)))]) = true.
Proof. vm_compute. reflexivity. Qed.

(* lib_array_backed_tests.rs:4187 *)
Example bitfield_from_slice_empty : is_passed (run_test
  [(mkUnit "Bitfield" (Parser.mkRDecl true VisPrivate "Bitfield" (Some (Parser.RArray (Parser.RPath "u8") (Parser.LenLit 4))) []
     [Parser.mkRField "a" VisPrivate Parser.ANone (Parser.RPath "u8") (PInt 0) id_codec;
      Parser.mkRField "b" VisPrivate Parser.ANone (Parser.RPath "u8") (PInt 0) id_codec;
      Parser.mkRField "c" VisPrivate Parser.ANone (Parser.RPath "u8") (PInt 0) id_codec;
      Parser.mkRField "d" VisPrivate Parser.ANone (Parser.RPath "u8") (PInt 0) id_codec]) [])]
  [SLetT "bitfield" (TStat "Bitfield" "from_slice" [(TV (RA []))]);
   SAssert (TEq (TMeth "Bitfield" (TVar "bitfield") "into_bytes" []) (TV (RA [0; 0; 0; 0])))]) = true.
Proof. vm_compute. reflexivity. Qed.

(* lib_array_backed_tests.rs:4201 *)
Example bitfield_from_slice_longer : is_passed (run_test
  [(mkUnit "Bitfield" (Parser.mkRDecl true VisPrivate "Bitfield" (Some (Parser.RArray (Parser.RPath "u8") (Parser.LenLit 4))) []
     [Parser.mkRField "a" VisPrivate Parser.ANone (Parser.RPath "u8") (PInt 0) id_codec;
      Parser.mkRField "b" VisPrivate Parser.ANone (Parser.RPath "u8") (PInt 0) id_codec;
      Parser.mkRField "c" VisPrivate Parser.ANone (Parser.RPath "u8") (PInt 0) id_codec;
      Parser.mkRField "d" VisPrivate Parser.ANone (Parser.RPath "u8") (PInt 0) id_codec]) [])]
  [SLetT "bitfield" (TStat "Bitfield" "from_slice" [(TV (RA [17; 34; 51; 68; 85; 102]))]);
   SAssert (TEq (TMeth "Bitfield" (TVar "bitfield") "a" []) (TV (RI 68)));
   SAssert (TEq (TMeth "Bitfield" (TVar "bitfield") "b" []) (TV (RI 51)));
   SAssert (TEq (TMeth "Bitfield" (TVar "bitfield") "c" []) (TV (RI 34)));
   SAssert (TEq (TMeth "Bitfield" (TVar "bitfield") "d" []) (TV (RI 17)))]) = true.
Proof. vm_compute. reflexivity. Qed.

(* lib_array_backed_tests.rs:4218 *)
Example bitfield_from_slice_with_defaults : is_passed (run_test
  [(mkUnit "Bitfield" (Parser.mkRDecl true VisPrivate "Bitfield" (Some (Parser.RArray (Parser.RPath "u8") (Parser.LenLit 4))) []
     [Parser.mkRField "a" VisPrivate (Parser.AList Parser.RNoBits [("default", "0xAB")]) (Parser.RPath "u8") (PInt 0) id_codec;
      Parser.mkRField "b" VisPrivate Parser.ANone (Parser.RPath "u8") (PInt 0) id_codec;
      Parser.mkRField "c" VisPrivate Parser.ANone (Parser.RPath "u8") (PInt 0) id_codec;
      Parser.mkRField "d" VisPrivate Parser.ANone (Parser.RPath "u8") (PInt 0) id_codec]) [("a", (ELit 171 None))])]
  [SLetT "bitfield" (TStat "Bitfield" "from_slice_with_defaults" [(TV (RA [17; 34; 51; 68]))]);
   SAssert (TEq (TMeth "Bitfield" (TVar "bitfield") "a" []) (TV (RI 171)));
   SAssert (TEq (TMeth "Bitfield" (TVar "bitfield") "b" []) (TV (RI 51)));
   SAssert (TEq (TMeth "Bitfield" (TVar "bitfield") "c" []) (TV (RI 34)));
   SAssert (TEq (TMeth "Bitfield" (TVar "bitfield") "d" []) (TV (RI 17)))]) = true.
Proof. vm_compute. reflexivity. Qed.

(* lib_array_backed_tests.rs:4236 *)
Example bitfield_checked_from_slice_ok : is_passed (run_test
  [(mkUnit "Bitfield" (Parser.mkRDecl true VisPrivate "Bitfield" (Some (Parser.RArray (Parser.RPath "u8") (Parser.LenLit 4))) []
     [Parser.mkRField "a" VisPrivate Parser.ANone (Parser.RPath "u8") (PInt 0) id_codec;
      Parser.mkRField "b" VisPrivate Parser.ANone (Parser.RPath "u8") (PInt 0) id_codec;
      Parser.mkRField "c" VisPrivate Parser.ANone (Parser.RPath "u8") (PInt 0) id_codec;
      Parser.mkRField "d" VisPrivate Parser.ANone (Parser.RPath "u8") (PInt 0) id_codec]) [])]
  [SLetT "result" (TStat "Bitfield" "checked_from_slice" [(TV (RA [17; 34; 51; 68]))]);
   SAssert (TIsOk (TVar "result"));
   SLetT "bitfield" (TUnwrap (TVar "result"));
   SAssert (TEq (TMeth "Bitfield" (TVar "bitfield") "a" []) (TV (RI 68)));
   SAssert (TEq (TMeth "Bitfield" (TVar "bitfield") "b" []) (TV (RI 51)));
   SAssert (TEq (TMeth "Bitfield" (TVar "bitfield") "c" []) (TV (RI 34)));
   SAssert (TEq (TMeth "Bitfield" (TVar "bitfield") "d" []) (TV (RI 17)))]) = true.
Proof. vm_compute. reflexivity. Qed.

(* lib_array_backed_tests.rs:4256 *)
Example bitfield_checked_from_slice_larger_ok : is_passed (run_test
  [(mkUnit "Bitfield" (Parser.mkRDecl true VisPrivate "Bitfield" (Some (Parser.RArray (Parser.RPath "u8") (Parser.LenLit 4))) []
     [Parser.mkRField "a" VisPrivate Parser.ANone (Parser.RPath "u8") (PInt 0) id_codec;
      Parser.mkRField "b" VisPrivate Parser.ANone (Parser.RPath "u8") (PInt 0) id_codec;
      Parser.mkRField "c" VisPrivate Parser.ANone (Parser.RPath "u8") (PInt 0) id_codec;
      Parser.mkRField "d" VisPrivate Parser.ANone (Parser.RPath "u8") (PInt 0) id_codec]) [])]
  [SLetT "result" (TStat "Bitfield" "checked_from_slice" [(TV (RA [17; 34; 51; 68; 255]))]);
   SAssert (TIsOk (TVar "result"))]) = true.
Proof. vm_compute. reflexivity. Qed.

(* lib_array_backed_tests.rs:4270 *)
Example bitfield_checked_from_slice_too_small_err : is_passed (run_test
  [(mkUnit "Bitfield" (Parser.mkRDecl true VisPrivate "Bitfield" (Some (Parser.RArray (Parser.RPath "u8") (Parser.LenLit 4))) []
     [Parser.mkRField "a" VisPrivate Parser.ANone (Parser.RPath "u8") (PInt 0) id_codec;
      Parser.mkRField "b" VisPrivate Parser.ANone (Parser.RPath "u8") (PInt 0) id_codec;
      Parser.mkRField "c" VisPrivate Parser.ANone (Parser.RPath "u8") (PInt 0) id_codec;
      Parser.mkRField "d" VisPrivate Parser.ANone (Parser.RPath "u8") (PInt 0) id_codec]) [])]
  [SLetT "result" (TStat "Bitfield" "checked_from_slice" [(TV (RA [17; 34]))]);
   SAssert (TIsErr (TVar "result"));
   SAssert (TEq (TErr (TVar "result")) (TV (RErr "Slice is too small to fill the bitfield.")))]) = true.
Proof. vm_compute. reflexivity. Qed.

(* lib_array_backed_tests.rs:4285 *)
Example bitfield_checked_from_slice_empty_err : is_passed (run_test
  [(mkUnit "Bitfield" (Parser.mkRDecl true VisPrivate "Bitfield" (Some (Parser.RArray (Parser.RPath "u8") (Parser.LenLit 4))) []
     [Parser.mkRField "a" VisPrivate Parser.ANone (Parser.RPath "u8") (PInt 0) id_codec;
      Parser.mkRField "b" VisPrivate Parser.ANone (Parser.RPath "u8") (PInt 0) id_codec;
      Parser.mkRField "c" VisPrivate Parser.ANone (Parser.RPath "u8") (PInt 0) id_codec;
      Parser.mkRField "d" VisPrivate Parser.ANone (Parser.RPath "u8") (PInt 0) id_codec]) [])]
  [SAssert (TIsErr (TStat "Bitfield" "checked_from_slice" [(TV (RA []))]))]) = true.
Proof. vm_compute. reflexivity. Qed.

(* lib_array_backed_tests.rs:4298 *)
Example bitfield_checked_from_slice_with_defaults_ok : is_passed (run_test
  [(mkUnit "Bitfield" (Parser.mkRDecl true VisPrivate "Bitfield" (Some (Parser.RArray (Parser.RPath "u8") (Parser.LenLit 4))) []
     [Parser.mkRField "a" VisPrivate (Parser.AList Parser.RNoBits [("default", "0xAB")]) (Parser.RPath "u8") (PInt 0) id_codec;
      Parser.mkRField "b" VisPrivate Parser.ANone (Parser.RPath "u8") (PInt 0) id_codec;
      Parser.mkRField "c" VisPrivate Parser.ANone (Parser.RPath "u8") (PInt 0) id_codec;
      Parser.mkRField "d" VisPrivate Parser.ANone (Parser.RPath "u8") (PInt 0) id_codec]) [("a", (ELit 171 None))])]
  [SLetT "bitfield" (TUnwrap (TStat "Bitfield" "checked_from_slice_with_defaults" [(TV (RA [17; 34; 51; 68]))]));
   SAssert (TEq (TMeth "Bitfield" (TVar "bitfield") "a" []) (TV (RI 171)));
   SAssert (TEq (TMeth "Bitfield" (TVar "bitfield") "b" []) (TV (RI 51)))]) = true.
Proof. vm_compute. reflexivity. Qed.

(* lib_array_backed_tests.rs:4315 *)
Example bitfield_from_le_slice : is_passed (run_test
  [(mkUnit "Bitfield" (Parser.mkRDecl true VisPrivate "Bitfield" (Some (Parser.RArray (Parser.RPath "u8") (Parser.LenLit 4))) []
     [Parser.mkRField "a" VisPrivate Parser.ANone (Parser.RPath "u8") (PInt 0) id_codec;
      Parser.mkRField "b" VisPrivate Parser.ANone (Parser.RPath "u8") (PInt 0) id_codec;
      Parser.mkRField "c" VisPrivate Parser.ANone (Parser.RPath "u8") (PInt 0) id_codec;
      Parser.mkRField "d" VisPrivate Parser.ANone (Parser.RPath "u8") (PInt 0) id_codec]) [])]
  [SLetT "bitfield" (TStat "Bitfield" "from_le_slice" [(TV (RA [17; 34; 51; 68]))]);
   SAssert (TEq (TMeth "Bitfield" (TVar "bitfield") "a" []) (TV (RI 17)));
   SAssert (TEq (TMeth "Bitfield" (TVar "bitfield") "b" []) (TV (RI 34)));
   SAssert (TEq (TMeth "Bitfield" (TVar "bitfield") "c" []) (TV (RI 51)));
   SAssert (TEq (TMeth "Bitfield" (TVar "bitfield") "d" []) (TV (RI 68)))]) = true.
Proof. vm_compute. reflexivity. Qed.

(* lib_array_backed_tests.rs:4332 *)
Example bitfield_from_le_slice_shorter : is_passed (run_test
  [(mkUnit "Bitfield" (Parser.mkRDecl true VisPrivate "Bitfield" (Some (Parser.RArray (Parser.RPath "u8") (Parser.LenLit 4))) []
     [Parser.mkRField "a" VisPrivate Parser.ANone (Parser.RPath "u8") (PInt 0) id_codec;
      Parser.mkRField "b" VisPrivate Parser.ANone (Parser.RPath "u8") (PInt 0) id_codec;
      Parser.mkRField "c" VisPrivate Parser.ANone (Parser.RPath "u8") (PInt 0) id_codec;
      Parser.mkRField "d" VisPrivate Parser.ANone (Parser.RPath "u8") (PInt 0) id_codec]) [])]
  [SLetT "bitfield" (TStat "Bitfield" "from_le_slice" [(TV (RA [17; 34]))]);
   SAssert (TEq (TMeth "Bitfield" (TVar "bitfield") "a" []) (TV (RI 17)));
   SAssert (TEq (TMeth "Bitfield" (TVar "bitfield") "b" []) (TV (RI 34)));
   SAssert (TEq (TMeth "Bitfield" (TVar "bitfield") "c" []) (TV (RI 0)));
   SAssert (TEq (TMeth "Bitfield" (TVar "bitfield") "d" []) (TV (RI 0)))]) = true.
Proof. vm_compute. reflexivity. Qed.

(* lib_array_backed_tests.rs:4349 *)
Example bitfield_from_be_slice : is_passed (run_test
  [(mkUnit "Bitfield" (Parser.mkRDecl true VisPrivate "Bitfield" (Some (Parser.RArray (Parser.RPath "u8") (Parser.LenLit 4))) []
     [Parser.mkRField "a" VisPrivate Parser.ANone (Parser.RPath "u8") (PInt 0) id_codec;
      Parser.mkRField "b" VisPrivate Parser.ANone (Parser.RPath "u8") (PInt 0) id_codec;
      Parser.mkRField "c" VisPrivate Parser.ANone (Parser.RPath "u8") (PInt 0) id_codec;
      Parser.mkRField "d" VisPrivate Parser.ANone (Parser.RPath "u8") (PInt 0) id_codec]) [])]
  [SLetT "bitfield" (TStat "Bitfield" "from_be_slice" [(TV (RA [68; 51; 34; 17]))]);
   SAssert (TEq (TMeth "Bitfield" (TVar "bitfield") "a" []) (TV (RI 17)));
   SAssert (TEq (TMeth "Bitfield" (TVar "bitfield") "b" []) (TV (RI 34)));
   SAssert (TEq (TMeth "Bitfield" (TVar "bitfield") "c" []) (TV (RI 51)));
   SAssert (TEq (TMeth "Bitfield" (TVar "bitfield") "d" []) (TV (RI 68)))]) = true.
Proof. vm_compute. reflexivity. Qed.

(* lib_array_backed_tests.rs:4366 *)
Example bitfield_from_be_slice_shorter : is_passed (run_test
  [(mkUnit "Bitfield" (Parser.mkRDecl true VisPrivate "Bitfield" (Some (Parser.RArray (Parser.RPath "u8") (Parser.LenLit 4))) []
     [Parser.mkRField "a" VisPrivate Parser.ANone (Parser.RPath "u8") (PInt 0) id_codec;
      Parser.mkRField "b" VisPrivate Parser.ANone (Parser.RPath "u8") (PInt 0) id_codec;
      Parser.mkRField "c" VisPrivate Parser.ANone (Parser.RPath "u8") (PInt 0) id_codec;
      Parser.mkRField "d" VisPrivate Parser.ANone (Parser.RPath "u8") (PInt 0) id_codec]) [])]
  [SLetT "bitfield" (TStat "Bitfield" "from_be_slice" [(TV (RA [68; 51]))]);
   SAssert (TEq (TMeth "Bitfield" (TVar "bitfield") "a" []) (TV (RI 0)));
   SAssert (TEq (TMeth "Bitfield" (TVar "bitfield") "b" []) (TV (RI 0)));
   SAssert (TEq (TMeth "Bitfield" (TVar "bitfield") "c" []) (TV (RI 51)));
   SAssert (TEq (TMeth "Bitfield" (TVar "bitfield") "d" []) (TV (RI 68)))]) = true.
Proof. vm_compute. reflexivity. Qed.

(* lib_array_backed_tests.rs:4383 *)
Example bitfield_checked_from_le_slice_ok : is_passed (run_test
  [(mkUnit "Bitfield" (Parser.mkRDecl true VisPrivate "Bitfield" (Some (Parser.RArray (Parser.RPath "u8") (Parser.LenLit 4))) []
     [Parser.mkRField "a" VisPrivate Parser.ANone (Parser.RPath "u8") (PInt 0) id_codec;
      Parser.mkRField "b" VisPrivate Parser.ANone (Parser.RPath "u8") (PInt 0) id_codec;
      Parser.mkRField "c" VisPrivate Parser.ANone (Parser.RPath "u8") (PInt 0) id_codec;
      Parser.mkRField "d" VisPrivate Parser.ANone (Parser.RPath "u8") (PInt 0) id_codec]) [])]
  [SLetT "result" (TStat "Bitfield" "checked_from_le_slice" [(TV (RA [17; 34; 51; 68]))]);
   SAssert (TIsOk (TVar "result"));
   SLetT "bitfield" (TUnwrap (TVar "result"));
   SAssert (TEq (TMeth "Bitfield" (TVar "bitfield") "a" []) (TV (RI 17)));
   SAssert (TEq (TMeth "Bitfield" (TVar "bitfield") "d" []) (TV (RI 68)))]) = true.
Proof. vm_compute. reflexivity. Qed.

(* lib_array_backed_tests.rs:4400 *)
Example bitfield_checked_from_le_slice_too_small : is_passed (run_test
  [(mkUnit "Bitfield" (Parser.mkRDecl true VisPrivate "Bitfield" (Some (Parser.RArray (Parser.RPath "u8") (Parser.LenLit 4))) []
     [Parser.mkRField "a" VisPrivate Parser.ANone (Parser.RPath "u8") (PInt 0) id_codec;
      Parser.mkRField "b" VisPrivate Parser.ANone (Parser.RPath "u8") (PInt 0) id_codec;
      Parser.mkRField "c" VisPrivate Parser.ANone (Parser.RPath "u8") (PInt 0) id_codec;
      Parser.mkRField "d" VisPrivate Parser.ANone (Parser.RPath "u8") (PInt 0) id_codec]) [])]
  [SAssert (TIsErr (TStat "Bitfield" "checked_from_le_slice" [(TV (RA [17]))]))]) = true.
Proof. vm_compute. reflexivity. Qed.

(* lib_array_backed_tests.rs:4413 *)
Example bitfield_checked_from_be_slice_ok : is_passed (run_test
  [(mkUnit "Bitfield" (Parser.mkRDecl true VisPrivate "Bitfield" (Some (Parser.RArray (Parser.RPath "u8") (Parser.LenLit 4))) []
     [Parser.mkRField "a" VisPrivate Parser.ANone (Parser.RPath "u8") (PInt 0) id_codec;
      Parser.mkRField "b" VisPrivate Parser.ANone (Parser.RPath "u8") (PInt 0) id_codec;
      Parser.mkRField "c" VisPrivate Parser.ANone (Parser.RPath "u8") (PInt 0) id_codec;
      Parser.mkRField "d" VisPrivate Parser.ANone (Parser.RPath "u8") (PInt 0) id_codec]) [])]
  [SLetT "result" (TStat "Bitfield" "checked_from_be_slice" [(TV (RA [68; 51; 34; 17]))]);
   SAssert (TIsOk (TVar "result"));
   SLetT "bitfield" (TUnwrap (TVar "result"));
   SAssert (TEq (TMeth "Bitfield" (TVar "bitfield") "a" []) (TV (RI 17)));
   SAssert (TEq (TMeth "Bitfield" (TVar "bitfield") "d" []) (TV (RI 68)))]) = true.
Proof. vm_compute. reflexivity. Qed.

(* lib_array_backed_tests.rs:4430 *)
Example bitfield_checked_from_be_slice_too_small : is_passed (run_test
  [(mkUnit "Bitfield" (Parser.mkRDecl true VisPrivate "Bitfield" (Some (Parser.RArray (Parser.RPath "u8") (Parser.LenLit 4))) []
     [Parser.mkRField "a" VisPrivate Parser.ANone (Parser.RPath "u8") (PInt 0) id_codec;
      Parser.mkRField "b" VisPrivate Parser.ANone (Parser.RPath "u8") (PInt 0) id_codec;
      Parser.mkRField "c" VisPrivate Parser.ANone (Parser.RPath "u8") (PInt 0) id_codec;
      Parser.mkRField "d" VisPrivate Parser.ANone (Parser.RPath "u8") (PInt 0) id_codec]) [])]
  [SAssert (TIsErr (TStat "Bitfield" "checked_from_be_slice" [(TV (RA [68; 51]))]))]) = true.
Proof. vm_compute. reflexivity. Qed.

(* lib_array_backed_tests.rs:4443 *)
Example bitfield_into_slice_exact : is_passed (run_test
  [(mkUnit "Bitfield" (Parser.mkRDecl true VisPrivate "Bitfield" (Some (Parser.RArray (Parser.RPath "u8") (Parser.LenLit 4))) []
     [Parser.mkRField "a" VisPrivate Parser.ANone (Parser.RPath "u8") (PInt 0) id_codec;
      Parser.mkRField "b" VisPrivate Parser.ANone (Parser.RPath "u8") (PInt 0) id_codec;
      Parser.mkRField "c" VisPrivate Parser.ANone (Parser.RPath "u8") (PInt 0) id_codec;
      Parser.mkRField "d" VisPrivate Parser.ANone (Parser.RPath "u8") (PInt 0) id_codec]) [])]
  [SLetT "b" (TStat "Bitfield" "new" []);
   SDo (TMeth "Bitfield" (TVar "b") "set_a" [(TV (RI 17))]);
   SDo (TMeth "Bitfield" (TVar "b") "set_b" [(TV (RI 34))]);
   SDo (TMeth "Bitfield" (TVar "b") "set_c" [(TV (RI 51))]);
   SDo (TMeth "Bitfield" (TVar "b") "set_d" [(TV (RI 68))]);
   SLetT "expected" (TMeth "Bitfield" (TVar "b") "into_bytes" []);
   SLetT "buf" (TV (RA (repeat 0 4%nat)));
   SDo (TSlice "Bitfield" (TVar "b") "into_slice" "buf");
   SAssert (TEq (TVar "buf") (TVar "expected"))]) = true.
Proof. vm_compute. reflexivity. Qed.

(* lib_array_backed_tests.rs:4465 *)
Example bitfield_into_slice_shorter_buffer : is_passed (run_test
  [(mkUnit "Bitfield" (Parser.mkRDecl true VisPrivate "Bitfield" (Some (Parser.RArray (Parser.RPath "u8") (Parser.LenLit 4))) []
     [Parser.mkRField "a" VisPrivate Parser.ANone (Parser.RPath "u8") (PInt 0) id_codec;
      Parser.mkRField "b" VisPrivate Parser.ANone (Parser.RPath "u8") (PInt 0) id_codec;
      Parser.mkRField "c" VisPrivate Parser.ANone (Parser.RPath "u8") (PInt 0) id_codec;
      Parser.mkRField "d" VisPrivate Parser.ANone (Parser.RPath "u8") (PInt 0) id_codec]) [])]
  [SLetT "b" (TStat "Bitfield" "new" []);
   SDo (TMeth "Bitfield" (TVar "b") "set_a" [(TV (RI 17))]);
   SDo (TMeth "Bitfield" (TVar "b") "set_b" [(TV (RI 34))]);
   SDo (TMeth "Bitfield" (TVar "b") "set_c" [(TV (RI 51))]);
   SDo (TMeth "Bitfield" (TVar "b") "set_d" [(TV (RI 68))]);
   SLetT "full" (TMeth "Bitfield" (TVar "b") "into_bytes" []);
   SLetT "buf" (TV (RA (repeat 0 2%nat)));
   SDo (TSlice "Bitfield" (TVar "b") "into_slice" "buf");
   SAssert (TEq (TAt (TVar "buf") 0) (TAt (TVar "full") 0));
   SAssert (TEq (TAt (TVar "buf") 1) (TAt (TVar "full") 1))]) = true.
Proof. vm_compute. reflexivity. Qed.

(* lib_array_backed_tests.rs:4489 *)
Example bitfield_into_slice_empty_buffer : is_passed (run_test
  [(mkUnit "Bitfield" (Parser.mkRDecl true VisPrivate "Bitfield" (Some (Parser.RArray (Parser.RPath "u8") (Parser.LenLit 4))) []
     [Parser.mkRField "a" VisPrivate Parser.ANone (Parser.RPath "u8") (PInt 0) id_codec;
      Parser.mkRField "b" VisPrivate Parser.ANone (Parser.RPath "u8") (PInt 0) id_codec;
      Parser.mkRField "c" VisPrivate Parser.ANone (Parser.RPath "u8") (PInt 0) id_codec;
      Parser.mkRField "d" VisPrivate Parser.ANone (Parser.RPath "u8") (PInt 0) id_codec]) [])]
  [SLetT "b" (TStat "Bitfield" "new" []);
   SLetT "buf" (TV (RA []));
   SDo (TSlice "Bitfield" (TVar "b") "into_slice" "buf")]) = true.
Proof. vm_compute. reflexivity. Qed.

(* lib_array_backed_tests.rs:4528 *)
Example bitfield_checked_into_slice_ok : is_passed (run_test
  [(mkUnit "Bitfield" (Parser.mkRDecl true VisPrivate "Bitfield" (Some (Parser.RArray (Parser.RPath "u8") (Parser.LenLit 4))) []
     [Parser.mkRField "a" VisPrivate Parser.ANone (Parser.RPath "u8") (PInt 0) id_codec;
      Parser.mkRField "b" VisPrivate Parser.ANone (Parser.RPath "u8") (PInt 0) id_codec;
      Parser.mkRField "c" VisPrivate Parser.ANone (Parser.RPath "u8") (PInt 0) id_codec;
      Parser.mkRField "d" VisPrivate Parser.ANone (Parser.RPath "u8") (PInt 0) id_codec]) [])]
  [SLetT "b" (TStat "Bitfield" "new" []);
   SDo (TMeth "Bitfield" (TVar "b") "set_a" [(TV (RI 17))]);
   SDo (TMeth "Bitfield" (TVar "b") "set_b" [(TV (RI 34))]);
   SDo (TMeth "Bitfield" (TVar "b") "set_c" [(TV (RI 51))]);
   SDo (TMeth "Bitfield" (TVar "b") "set_d" [(TV (RI 68))]);
   SLetT "expected" (TMeth "Bitfield" (TVar "b") "into_bytes" []);
   SLetT "buf" (TV (RA (repeat 0 4%nat)));
   SLetT "result" (TSlice "Bitfield" (TVar "b") "checked_into_slice" "buf");
   SAssert (TIsOk (TVar "result"));
   SAssert (TEq (TVar "buf") (TVar "expected"))]) = true.
Proof. vm_compute. reflexivity. Qed.

(* lib_array_backed_tests.rs:4551 *)
Example bitfield_checked_into_slice_larger_ok : is_passed (run_test
  [(mkUnit "Bitfield" (Parser.mkRDecl true VisPrivate "Bitfield" (Some (Parser.RArray (Parser.RPath "u8") (Parser.LenLit 4))) []
     [Parser.mkRField "a" VisPrivate Parser.ANone (Parser.RPath "u8") (PInt 0) id_codec;
      Parser.mkRField "b" VisPrivate Parser.ANone (Parser.RPath "u8") (PInt 0) id_codec;
      Parser.mkRField "c" VisPrivate Parser.ANone (Parser.RPath "u8") (PInt 0) id_codec;
      Parser.mkRField "d" VisPrivate Parser.ANone (Parser.RPath "u8") (PInt 0) id_codec]) [])]
  [SLetT "b" (TStat "Bitfield" "new" []);
   SLetT "buf" (TV (RA (repeat 0 8%nat)));
   SAssert (TIsOk (TSlice "Bitfield" (TVar "b") "checked_into_slice" "buf"))]) = true.
Proof. vm_compute. reflexivity. Qed.

(* lib_array_backed_tests.rs:4566 *)
Example bitfield_checked_into_slice_too_small_err : is_passed (run_test
  [(mkUnit "Bitfield" (Parser.mkRDecl true VisPrivate "Bitfield" (Some (Parser.RArray (Parser.RPath "u8") (Parser.LenLit 4))) []
     [Parser.mkRField "a" VisPrivate Parser.ANone (Parser.RPath "u8") (PInt 0) id_codec;
      Parser.mkRField "b" VisPrivate Parser.ANone (Parser.RPath "u8") (PInt 0) id_codec;
      Parser.mkRField "c" VisPrivate Parser.ANone (Parser.RPath "u8") (PInt 0) id_codec;
      Parser.mkRField "d" VisPrivate Parser.ANone (Parser.RPath "u8") (PInt 0) id_codec]) [])]
  [SLetT "b" (TStat "Bitfield" "new" []);
   SLetT "buf" (TV (RA (repeat 0 2%nat)));
   SLetT "result" (TSlice "Bitfield" (TVar "b") "checked_into_slice" "buf");
   SAssert (TIsErr (TVar "result"));
   SAssert (TEq (TErr (TVar "result")) (TV (RErr "Slice is too small to hold the bitfield.")))]) = true.
Proof. vm_compute. reflexivity. Qed.

(* lib_array_backed_tests.rs:4583 *)
Example bitfield_checked_into_slice_empty_err : is_passed (run_test
  [(mkUnit "Bitfield" (Parser.mkRDecl true VisPrivate "Bitfield" (Some (Parser.RArray (Parser.RPath "u8") (Parser.LenLit 4))) []
     [Parser.mkRField "a" VisPrivate Parser.ANone (Parser.RPath "u8") (PInt 0) id_codec;
      Parser.mkRField "b" VisPrivate Parser.ANone (Parser.RPath "u8") (PInt 0) id_codec;
      Parser.mkRField "c" VisPrivate Parser.ANone (Parser.RPath "u8") (PInt 0) id_codec;
      Parser.mkRField "d" VisPrivate Parser.ANone (Parser.RPath "u8") (PInt 0) id_codec]) [])]
  [SLetT "b" (TStat "Bitfield" "new" []);
   SLetT "buf" (TV (RA []));
   SAssert (TIsErr (TSlice "Bitfield" (TVar "b") "checked_into_slice" "buf"))]) = true.
Proof. vm_compute. reflexivity. Qed.

(* lib_array_backed_tests.rs:4598 *)
Example bitfield_into_le_slice : is_passed (run_test
  [(mkUnit "Bitfield" (Parser.mkRDecl true VisPrivate "Bitfield" (Some (Parser.RArray (Parser.RPath "u8") (Parser.LenLit 4))) []
     [Parser.mkRField "a" VisPrivate Parser.ANone (Parser.RPath "u8") (PInt 0) id_codec;
      Parser.mkRField "b" VisPrivate Parser.ANone (Parser.RPath "u8") (PInt 0) id_codec;
      Parser.mkRField "c" VisPrivate Parser.ANone (Parser.RPath "u8") (PInt 0) id_codec;
      Parser.mkRField "d" VisPrivate Parser.ANone (Parser.RPath "u8") (PInt 0) id_codec]) [])]
  [SLetT "b" (TStat "Bitfield" "new" []);
   SDo (TMeth "Bitfield" (TVar "b") "set_a" [(TV (RI 17))]);
   SDo (TMeth "Bitfield" (TVar "b") "set_b" [(TV (RI 34))]);
   SDo (TMeth "Bitfield" (TVar "b") "set_c" [(TV (RI 51))]);
   SDo (TMeth "Bitfield" (TVar "b") "set_d" [(TV (RI 68))]);
   SLetT "expected" (TMeth "Bitfield" (TVar "b") "into_le_bytes" []);
   SLetT "buf" (TV (RA (repeat 0 4%nat)));
   SDo (TSlice "Bitfield" (TVar "b") "into_le_slice" "buf");
   SAssert (TEq (TVar "buf") (TVar "expected"))]) = true.
Proof. vm_compute. reflexivity. Qed.

(* lib_array_backed_tests.rs:4620 *)
Example bitfield_into_be_slice : is_passed (run_test
  [(mkUnit "Bitfield" (Parser.mkRDecl true VisPrivate "Bitfield" (Some (Parser.RArray (Parser.RPath "u8") (Parser.LenLit 4))) []
     [Parser.mkRField "a" VisPrivate Parser.ANone (Parser.RPath "u8") (PInt 0) id_codec;
      Parser.mkRField "b" VisPrivate Parser.ANone (Parser.RPath "u8") (PInt 0) id_codec;
      Parser.mkRField "c" VisPrivate Parser.ANone (Parser.RPath "u8") (PInt 0) id_codec;
      Parser.mkRField "d" VisPrivate Parser.ANone (Parser.RPath "u8") (PInt 0) id_codec]) [])]
  [SLetT "b" (TStat "Bitfield" "new" []);
   SDo (TMeth "Bitfield" (TVar "b") "set_a" [(TV (RI 17))]);
   SDo (TMeth "Bitfield" (TVar "b") "set_b" [(TV (RI 34))]);
   SDo (TMeth "Bitfield" (TVar "b") "set_c" [(TV (RI 51))]);
   SDo (TMeth "Bitfield" (TVar "b") "set_d" [(TV (RI 68))]);
   SLetT "expected" (TMeth "Bitfield" (TVar "b") "into_be_bytes" []);
   SLetT "buf" (TV (RA (repeat 0 4%nat)));
   SDo (TSlice "Bitfield" (TVar "b") "into_be_slice" "buf");
   SAssert (TEq (TVar "buf") (TVar "expected"))]) = true.
Proof. vm_compute. reflexivity. Qed.

(* lib_array_backed_tests.rs:4642 *)
Example bitfield_checked_into_le_slice_ok : is_passed (run_test
  [(mkUnit "Bitfield" (Parser.mkRDecl true VisPrivate "Bitfield" (Some (Parser.RArray (Parser.RPath "u8") (Parser.LenLit 4))) []
     [Parser.mkRField "a" VisPrivate Parser.ANone (Parser.RPath "u8") (PInt 0) id_codec;
      Parser.mkRField "b" VisPrivate Parser.ANone (Parser.RPath "u8") (PInt 0) id_codec;
      Parser.mkRField "c" VisPrivate Parser.ANone (Parser.RPath "u8") (PInt 0) id_codec;
      Parser.mkRField "d" VisPrivate Parser.ANone (Parser.RPath "u8") (PInt 0) id_codec]) [])]
  [SLetT "b" (TStat "Bitfield" "new" []);
   SLetT "buf" (TV (RA (repeat 0 4%nat)));
   SAssert (TIsOk (TSlice "Bitfield" (TVar "b") "checked_into_le_slice" "buf"))]) = true.
Proof. vm_compute. reflexivity. Qed.

(* lib_array_backed_tests.rs:4657 *)
Example bitfield_checked_into_le_slice_too_small : is_passed (run_test
  [(mkUnit "Bitfield" (Parser.mkRDecl true VisPrivate "Bitfield" (Some (Parser.RArray (Parser.RPath "u8") (Parser.LenLit 4))) []
     [Parser.mkRField "a" VisPrivate Parser.ANone (Parser.RPath "u8") (PInt 0) id_codec;
      Parser.mkRField "b" VisPrivate Parser.ANone (Parser.RPath "u8") (PInt 0) id_codec;
      Parser.mkRField "c" VisPrivate Parser.ANone (Parser.RPath "u8") (PInt 0) id_codec;
      Parser.mkRField "d" VisPrivate Parser.ANone (Parser.RPath "u8") (PInt 0) id_codec]) [])]
  [SLetT "b" (TStat "Bitfield" "new" []);
   SLetT "buf" (TV (RA (repeat 0 1%nat)));
   SAssert (TIsErr (TSlice "Bitfield" (TVar "b") "checked_into_le_slice" "buf"))]) = true.
Proof. vm_compute. reflexivity. Qed.

(* lib_array_backed_tests.rs:4672 *)
Example bitfield_checked_into_be_slice_ok : is_passed (run_test
  [(mkUnit "Bitfield" (Parser.mkRDecl true VisPrivate "Bitfield" (Some (Parser.RArray (Parser.RPath "u8") (Parser.LenLit 4))) []
     [Parser.mkRField "a" VisPrivate Parser.ANone (Parser.RPath "u8") (PInt 0) id_codec;
      Parser.mkRField "b" VisPrivate Parser.ANone (Parser.RPath "u8") (PInt 0) id_codec;
      Parser.mkRField "c" VisPrivate Parser.ANone (Parser.RPath "u8") (PInt 0) id_codec;
      Parser.mkRField "d" VisPrivate Parser.ANone (Parser.RPath "u8") (PInt 0) id_codec]) [])]
  [SLetT "b" (TStat "Bitfield" "new" []);
   SLetT "buf" (TV (RA (repeat 0 4%nat)));
   SAssert (TIsOk (TSlice "Bitfield" (TVar "b") "checked_into_be_slice" "buf"))]) = true.
Proof. vm_compute. reflexivity. Qed.

(* lib_array_backed_tests.rs:4687 *)
Example bitfield_checked_into_be_slice_too_small : is_passed (run_test
  [(mkUnit "Bitfield" (Parser.mkRDecl true VisPrivate "Bitfield" (Some (Parser.RArray (Parser.RPath "u8") (Parser.LenLit 4))) []
     [Parser.mkRField "a" VisPrivate Parser.ANone (Parser.RPath "u8") (PInt 0) id_codec;
      Parser.mkRField "b" VisPrivate Parser.ANone (Parser.RPath "u8") (PInt 0) id_codec;
      Parser.mkRField "c" VisPrivate Parser.ANone (Parser.RPath "u8") (PInt 0) id_codec;
      Parser.mkRField "d" VisPrivate Parser.ANone (Parser.RPath "u8") (PInt 0) id_codec]) [])]
  [SLetT "b" (TStat "Bitfield" "new" []);
   SLetT "buf" (TV (RA (repeat 0 3%nat)));
   SAssert (TIsErr (TSlice "Bitfield" (TVar "b") "checked_into_be_slice" "buf"))]) = true.
Proof. vm_compute. reflexivity. Qed.

(* lib_array_backed_tests.rs:4903 *)
Example reserved_fields_always_respect_defaults_when_creating_without_defaults_ : is_passed (run_test
  [(mkUnit "Bitfield" (Parser.mkRDecl true VisPublic "Bitfield" (Some (Parser.RArray (Parser.RPath "u8") (Parser.LenLit 4))) []
     [Parser.mkRField "a" VisPrivate (Parser.AList Parser.RNoBits [("default", "0x12")]) (Parser.RPath "u8") (PInt 0) id_codec;
      Parser.mkRField "b" VisPrivate (Parser.AList Parser.RNoBits [("default", "0x34")]) (Parser.RPath "u8") (PInt 0) id_codec;
      Parser.mkRField "c" VisPrivate (Parser.AList Parser.RNoBits [("default", "0x56")]) (Parser.RPath "u8") (PInt 0) id_codec;
      Parser.mkRField "_reserved" VisPrivate (Parser.AList Parser.RNoBits [("default", "0x78")]) (Parser.RPath "u8") (PInt 0) id_codec]) [("a", (ELit 18 None)); ("b", (ELit 52 None)); ("c", (ELit 86 None)); ("_reserved", (ELit 120 None))])]
  [SLetT "bf" (TStat "Bitfield" "new_without_defaults" []);
   SAssert (TEq (TMeth "Bitfield" (TVar "bf") "a" []) (TV (RI 0)));
   SAssert (TEq (TMeth "Bitfield" (TVar "bf") "b" []) (TV (RI 0)));
   SAssert (TEq (TMeth "Bitfield" (TVar "bf") "c" []) (TV (RI 0)));
   SAssert (TEq (TMeth "Bitfield" (TVar "bf") "into_bytes" []) (TV (RA [120; 0; 0; 0])));
   SLetT "bf" (TBuild "Bitfield" "build" [(TBuild "Bitfield" "new_without_defaults" [])]);
   SAssert (TEq (TMeth "Bitfield" (TVar "bf") "a" []) (TV (RI 0)));
   SAssert (TEq (TMeth "Bitfield" (TVar "bf") "b" []) (TV (RI 0)));
   SAssert (TEq (TMeth "Bitfield" (TVar "bf") "c" []) (TV (RI 0)));
   SAssert (TEq (TMeth "Bitfield" (TVar "bf") "into_bytes" []) (TV (RA [120; 0; 0; 0])));
   SLetT "bf" (TStat "Bitfield" "new" []);
   SDo (TMeth "Bitfield" (TVar "bf") "write_bytes" [(TV (RA [68; 51; 34; 17]))]);
   SAssert (TEq (TMeth "Bitfield" (TVar "bf") "a" []) (TV (RI 68)));
   SAssert (TEq (TMeth "Bitfield" (TVar "bf") "b" []) (TV (RI 51)));
   SAssert (TEq (TMeth "Bitfield" (TVar "bf") "c" []) (TV (RI 34)));
   SAssert (TEq (TMeth "Bitfield" (TVar "bf") "into_bytes" []) (TV (RA [120; 34; 51; 68])));
   SLetT "bf" (TStat "Bitfield" "new" []);
   SDo (TMeth "Bitfield" (TVar "bf") "write_le_bytes" [(TV (RA [68; 51; 34; 17]))]);
   SAssert (TEq (TMeth "Bitfield" (TVar "bf") "a" []) (TV (RI 17)));
   SAssert (TEq (TMeth "Bitfield" (TVar "bf") "b" []) (TV (RI 34)));
   SAssert (TEq (TMeth "Bitfield" (TVar "bf") "c" []) (TV (RI 51)));
   SAssert (TEq (TMeth "Bitfield" (TVar "bf") "into_bytes" []) (TV (RA [120; 51; 34; 17])));
   SLetT "bf" (TStat "Bitfield" "new" []);
   SDo (TMeth "Bitfield" (TVar "bf") "write_be_bytes" [(TV (RA [68; 51; 34; 17]))]);
   SAssert (TEq (TMeth "Bitfield" (TVar "bf") "a" []) (TV (RI 68)));
   SAssert (TEq (TMeth "Bitfield" (TVar "bf") "b" []) (TV (RI 51)));
   SAssert (TEq (TMeth "Bitfield" (TVar "bf") "c" []) (TV (RI 34)));
   SAssert (TEq (TMeth "Bitfield" (TVar "bf") "into_bytes" []) (TV (RA [120; 34; 51; 68])));
   SLetT "bf" (TStat "Bitfield" "new" []);
   SDo (TMeth "Bitfield" (TVar "bf") "clear_bytes" []);
   SAssert (TEq (TMeth "Bitfield" (TVar "bf") "a" []) (TV (RI 0)));
   SAssert (TEq (TMeth "Bitfield" (TVar "bf") "b" []) (TV (RI 0)));
   SAssert (TEq (TMeth "Bitfield" (TVar "bf") "c" []) (TV (RI 0)));
   SAssert (TEq (TMeth "Bitfield" (TVar "bf") "into_bytes" []) (TV (RA [120; 0; 0; 0])))]) = true.
Proof. vm_compute. reflexivity. Qed.

(* lib_array_field_tests.rs:6 *)
Example array_field_u8_backing : is_passed (run_test
  [(mkUnit "Bitfield" (Parser.mkRDecl true VisPublic "Bitfield" (Some (Parser.RPath "u8")) []
     [Parser.mkRField "a" VisPrivate Parser.ANone (Parser.RArray (Parser.RPath "u8") (Parser.LenLit 1)) (PInt 0) id_codec]) [])]
  [SLetT "bf" (TStat "Bitfield" "new" []);
   SDo (TMeth "Bitfield" (TVar "bf") "set_a" [(TV (RA [171]))]);
   SAssert (TEq (TMeth "Bitfield" (TVar "bf") "a" []) (TV (RA [171])));
   SAssert (TEq (TMeth "Bitfield" (TVar "bf") "into_bits" []) (TV (RI 171)))]) = true.
Proof. vm_compute. reflexivity. Qed.

(* lib_array_field_tests.rs:19 *)
Example array_field_u16_backing : is_passed (run_test
  [(mkUnit "Bitfield" (Parser.mkRDecl true VisPublic "Bitfield" (Some (Parser.RPath "u16")) []
     [Parser.mkRField "a" VisPrivate Parser.ANone (Parser.RArray (Parser.RPath "u8") (Parser.LenLit 2)) (PInt 0) id_codec]) [])]
  [SLetT "bf" (TStat "Bitfield" "new" []);
   SDo (TMeth "Bitfield" (TVar "bf") "set_a" [(TV (RA [17; 34]))]);
   SAssert (TEq (TMeth "Bitfield" (TVar "bf") "a" []) (TV (RA [17; 34])));
   SAssert (TEq (TMeth "Bitfield" (TVar "bf") "into_bits" []) (TV (RI 8721)))]) = true.
Proof. vm_compute. reflexivity. Qed.

(* lib_array_field_tests.rs:32 *)
Example array_field_u32_backing : is_passed (run_test
  [(mkUnit "Bitfield" (Parser.mkRDecl true VisPublic "Bitfield" (Some (Parser.RPath "u32")) []
     [Parser.mkRField "a" VisPrivate Parser.ANone (Parser.RArray (Parser.RPath "u8") (Parser.LenLit 4)) (PInt 0) id_codec]) [])]
  [SLetT "bf" (TStat "Bitfield" "new" []);
   SDo (TMeth "Bitfield" (TVar "bf") "set_a" [(TV (RA [17; 34; 51; 68]))]);
   SAssert (TEq (TMeth "Bitfield" (TVar "bf") "a" []) (TV (RA [17; 34; 51; 68])));
   SAssert (TEq (TMeth "Bitfield" (TVar "bf") "into_bits" []) (TV (RI 1144201745)))]) = true.
Proof. vm_compute. reflexivity. Qed.

(* lib_array_field_tests.rs:45 *)
Example array_field_u64_backing : is_passed (run_test
  [(mkUnit "Bitfield" (Parser.mkRDecl true VisPublic "Bitfield" (Some (Parser.RPath "u64")) []
     [Parser.mkRField "a" VisPrivate Parser.ANone (Parser.RArray (Parser.RPath "u8") (Parser.LenLit 8)) (PInt 0) id_codec]) [])]
  [SLetT "bf" (TStat "Bitfield" "new" []);
   SDo (TMeth "Bitfield" (TVar "bf") "set_a" [(TV (RA [1; 2; 3; 4; 5; 6; 7; 8]))]);
   SAssert (TEq (TMeth "Bitfield" (TVar "bf") "a" []) (TV (RA [1; 2; 3; 4; 5; 6; 7; 8])));
   SAssert (TEq (TMeth "Bitfield" (TVar "bf") "into_bits" []) (TV (RI 578437695752307201)))]) = true.
Proof. vm_compute. reflexivity. Qed.

(* lib_array_field_tests.rs:58 *)
Example array_field_u128_backing : is_passed (run_test
  [(mkUnit "Bitfield" (Parser.mkRDecl true VisPublic "Bitfield" (Some (Parser.RPath "u128")) []
     [Parser.mkRField "a" VisPrivate Parser.ANone (Parser.RArray (Parser.RPath "u8") (Parser.LenLit 16)) (PInt 0) id_codec]) [])]
  [SLetT "bf" (TStat "Bitfield" "new" []);
   SLetT "val" (TV (RA [1; 2; 3; 4; 5; 6; 7; 8; 9; 10; 11; 12; 13; 14; 15; 16]));
   SDo (TMeth "Bitfield" (TVar "bf") "set_a" [(TVar "val")]);
   SAssert (TEq (TMeth "Bitfield" (TVar "bf") "a" []) (TVar "val"))]) = true.
Proof. vm_compute. reflexivity. Qed.

(* lib_array_field_tests.rs:74 *)
Example array_field_getter : is_passed (run_test
  [(mkUnit "Bitfield" (Parser.mkRDecl true VisPublic "Bitfield" (Some (Parser.RPath "u32")) []
     [Parser.mkRField "logo" VisPrivate Parser.ANone (Parser.RArray (Parser.RPath "u8") (Parser.LenLit 4)) (PInt 0) id_codec]) [])]
  [SLetT "bf" (TStat "Bitfield" "from_bits" [(TV (RI 1144201745))]);
   SAssert (TEq (TMeth "Bitfield" (TVar "bf") "logo" []) (TV (RA [17; 34; 51; 68])))]) = true.
Proof. vm_compute. reflexivity. Qed.

(* lib_array_field_tests.rs:85 *)
Example array_field_setter : is_passed (run_test
  [(mkUnit "Bitfield" (Parser.mkRDecl true VisPublic "Bitfield" (Some (Parser.RPath "u32")) []
     [Parser.mkRField "logo" VisPrivate Parser.ANone (Parser.RArray (Parser.RPath "u8") (Parser.LenLit 4)) (PInt 0) id_codec]) [])]
  [SLetT "bf" (TStat "Bitfield" "new" []);
   SDo (TMeth "Bitfield" (TVar "bf") "set_logo" [(TV (RA [17; 34; 51; 68]))]);
   SAssert (TEq (TMeth "Bitfield" (TVar "bf") "logo" []) (TV (RA [17; 34; 51; 68])));
   SAssert (TEq (TMeth "Bitfield" (TVar "bf") "into_bits" []) (TV (RI 1144201745)))]) = true.
Proof. vm_compute. reflexivity. Qed.

(* lib_array_field_tests.rs:98 *)
Example array_field_checked_setter_ok : is_passed (run_test
  [(mkUnit "Bitfield" (Parser.mkRDecl true VisPublic "Bitfield" (Some (Parser.RPath "u32")) []
     [Parser.mkRField "logo" VisPrivate Parser.ANone (Parser.RArray (Parser.RPath "u8") (Parser.LenLit 4)) (PInt 0) id_codec]) [])]
  [SLetT "bf" (TStat "Bitfield" "new" []);
   SAssert (TIsOk (TMeth "Bitfield" (TVar "bf") "checked_set_logo" [(TV (RA [222; 173; 190; 239]))]));
   SAssert (TEq (TMeth "Bitfield" (TVar "bf") "logo" []) (TV (RA [222; 173; 190; 239])))]) = true.
Proof. vm_compute. reflexivity. Qed.

(* lib_array_field_tests.rs:110 *)
Example array_field_multiple_same_size : is_passed (run_test
  [(mkUnit "Bitfield" (Parser.mkRDecl true VisPublic "Bitfield" (Some (Parser.RPath "u64")) []
     [Parser.mkRField "first" VisPrivate Parser.ANone (Parser.RArray (Parser.RPath "u8") (Parser.LenLit 4)) (PInt 0) id_codec;
      Parser.mkRField "second" VisPrivate Parser.ANone (Parser.RArray (Parser.RPath "u8") (Parser.LenLit 4)) (PInt 0) id_codec]) [])]
  [SLetT "bf" (TStat "Bitfield" "new" []);
   SDo (TMeth "Bitfield" (TVar "bf") "set_first" [(TV (RA [17; 34; 51; 68]))]);
   SDo (TMeth "Bitfield" (TVar "bf") "set_second" [(TV (RA [85; 102; 119; 136]))]);
   SAssert (TEq (TMeth "Bitfield" (TVar "bf") "first" []) (TV (RA [17; 34; 51; 68])));
   SAssert (TEq (TMeth "Bitfield" (TVar "bf") "second" []) (TV (RA [85; 102; 119; 136])));
   SAssert (TEq (TMeth "Bitfield" (TVar "bf") "into_bits" []) (TV (RI 9833440827789222417)))]) = true.
Proof. vm_compute. reflexivity. Qed.

(* lib_array_field_tests.rs:126 *)
Example array_field_multiple_different_size : is_passed (run_test
  [(mkUnit "Bitfield" (Parser.mkRDecl true VisPublic "Bitfield" (Some (Parser.RPath "u64")) []
     [Parser.mkRField "small" VisPrivate Parser.ANone (Parser.RArray (Parser.RPath "u8") (Parser.LenLit 2)) (PInt 0) id_codec;
      Parser.mkRField "large" VisPrivate Parser.ANone (Parser.RArray (Parser.RPath "u8") (Parser.LenLit 6)) (PInt 0) id_codec]) [])]
  [SLetT "bf" (TStat "Bitfield" "new" []);
   SDo (TMeth "Bitfield" (TVar "bf") "set_small" [(TV (RA [170; 187]))]);
   SDo (TMeth "Bitfield" (TVar "bf") "set_large" [(TV (RA [1; 2; 3; 4; 5; 6]))]);
   SAssert (TEq (TMeth "Bitfield" (TVar "bf") "small" []) (TV (RA [170; 187])));
   SAssert (TEq (TMeth "Bitfield" (TVar "bf") "large" []) (TV (RA [1; 2; 3; 4; 5; 6])))]) = true.
Proof. vm_compute. reflexivity. Qed.

(* lib_array_field_tests.rs:141 *)
Example array_field_mixed_scalar_before : is_passed (run_test
  [(mkUnit "Bitfield" (Parser.mkRDecl true VisPublic "Bitfield" (Some (Parser.RPath "u32")) []
     [Parser.mkRField "a" VisPrivate Parser.ANone (Parser.RPath "u8") (PInt 0) id_codec;
      Parser.mkRField "logo" VisPrivate Parser.ANone (Parser.RArray (Parser.RPath "u8") (Parser.LenLit 3)) (PInt 0) id_codec]) [])]
  [SLetT "bf" (TStat "Bitfield" "new" []);
   SDo (TMeth "Bitfield" (TVar "bf") "set_a" [(TV (RI 18))]);
   SDo (TMeth "Bitfield" (TVar "bf") "set_logo" [(TV (RA [52; 86; 120]))]);
   SAssert (TEq (TMeth "Bitfield" (TVar "bf") "a" []) (TV (RI 18)));
   SAssert (TEq (TMeth "Bitfield" (TVar "bf") "logo" []) (TV (RA [52; 86; 120])));
   SAssert (TEq (TMeth "Bitfield" (TVar "bf") "into_bits" []) (TV (RI 2018915346)))]) = true.
Proof. vm_compute. reflexivity. Qed.

(* lib_array_field_tests.rs:157 *)
Example array_field_mixed_scalar_after : is_passed (run_test
  [(mkUnit "Bitfield" (Parser.mkRDecl true VisPublic "Bitfield" (Some (Parser.RPath "u32")) []
     [Parser.mkRField "logo" VisPrivate Parser.ANone (Parser.RArray (Parser.RPath "u8") (Parser.LenLit 3)) (PInt 0) id_codec;
      Parser.mkRField "b" VisPrivate Parser.ANone (Parser.RPath "u8") (PInt 0) id_codec]) [])]
  [SLetT "bf" (TStat "Bitfield" "new" []);
   SDo (TMeth "Bitfield" (TVar "bf") "set_logo" [(TV (RA [18; 52; 86]))]);
   SDo (TMeth "Bitfield" (TVar "bf") "set_b" [(TV (RI 120))]);
   SAssert (TEq (TMeth "Bitfield" (TVar "bf") "logo" []) (TV (RA [18; 52; 86])));
   SAssert (TEq (TMeth "Bitfield" (TVar "bf") "b" []) (TV (RI 120)));
   SAssert (TEq (TMeth "Bitfield" (TVar "bf") "into_bits" []) (TV (RI 2018915346)))]) = true.
Proof. vm_compute. reflexivity. Qed.

(* lib_array_field_tests.rs:173 *)
Example array_field_mixed_scalar_both_sides : is_passed (run_test
  [(mkUnit "Bitfield" (Parser.mkRDecl true VisPublic "Bitfield" (Some (Parser.RPath "u32")) []
     [Parser.mkRField "a" VisPrivate Parser.ANone (Parser.RPath "u8") (PInt 0) id_codec;
      Parser.mkRField "logo" VisPrivate Parser.ANone (Parser.RArray (Parser.RPath "u8") (Parser.LenLit 2)) (PInt 0) id_codec;
      Parser.mkRField "b" VisPrivate Parser.ANone (Parser.RPath "u8") (PInt 0) id_codec]) [])]
  [SLetT "bf" (TStat "Bitfield" "new" []);
   SDo (TMeth "Bitfield" (TVar "bf") "set_a" [(TV (RI 18))]);
   SDo (TMeth "Bitfield" (TVar "bf") "set_logo" [(TV (RA [52; 86]))]);
   SDo (TMeth "Bitfield" (TVar "bf") "set_b" [(TV (RI 120))]);
   SAssert (TEq (TMeth "Bitfield" (TVar "bf") "a" []) (TV (RI 18)));
   SAssert (TEq (TMeth "Bitfield" (TVar "bf") "logo" []) (TV (RA [52; 86])));
   SAssert (TEq (TMeth "Bitfield" (TVar "bf") "b" []) (TV (RI 120)));
   SAssert (TEq (TMeth "Bitfield" (TVar "bf") "into_bits" []) (TV (RI 2018915346)))]) = true.
Proof. vm_compute. reflexivity. Qed.

(* lib_array_field_tests.rs:192 *)
Example array_field_mixed_with_bool_fields : is_passed (run_test
  [(mkUnit "Bitfield" (Parser.mkRDecl true VisPublic "Bitfield" (Some (Parser.RPath "u32")) []
     [Parser.mkRField "flag_a" VisPrivate Parser.ANone (Parser.RPath "bool") (PInt 0) id_codec;
      Parser.mkRField "flag_b" VisPrivate Parser.ANone (Parser.RPath "bool") (PInt 0) id_codec;
      Parser.mkRField "_padding" VisPrivate (Parser.AList (Parser.RBits 14 "") []) (Parser.RPath "u16") (PInt 0) id_codec;
      Parser.mkRField "data" VisPrivate Parser.ANone (Parser.RArray (Parser.RPath "u8") (Parser.LenLit 2)) (PInt 0) id_codec]) [])]
  [SLetT "bf" (TStat "Bitfield" "new" []);
   SDo (TMeth "Bitfield" (TVar "bf") "set_flag_a" [(TV (RB true))]);
   SDo (TMeth "Bitfield" (TVar "bf") "set_flag_b" [(TV (RB false))]);
   SDo (TMeth "Bitfield" (TVar "bf") "set_data" [(TV (RA [171; 205]))]);
   SAssert (TMeth "Bitfield" (TVar "bf") "flag_a" []);
   SAssert (TNot (TMeth "Bitfield" (TVar "bf") "flag_b" []));
   SAssert (TEq (TMeth "Bitfield" (TVar "bf") "data" []) (TV (RA [171; 205])))]) = true.
Proof. vm_compute. reflexivity. Qed.

(* lib_array_field_tests.rs:212 *)
Example array_field_new_zeroes : is_passed (run_test
  [(mkUnit "Bitfield" (Parser.mkRDecl true VisPublic "Bitfield" (Some (Parser.RPath "u32")) []
     [Parser.mkRField "logo" VisPrivate Parser.ANone (Parser.RArray (Parser.RPath "u8") (Parser.LenLit 4)) (PInt 0) id_codec]) [])]
  [SLetT "bf" (TStat "Bitfield" "new" []);
   SAssert (TEq (TMeth "Bitfield" (TVar "bf") "logo" []) (TV (RA [0; 0; 0; 0])));
   SAssert (TEq (TMeth "Bitfield" (TVar "bf") "into_bits" []) (TV (RI 0)))]) = true.
Proof. vm_compute. reflexivity. Qed.

(* lib_array_field_tests.rs:224 *)
Example array_field_default_trait : is_passed (run_test
  [(mkUnit "Bitfield" (Parser.mkRDecl true VisPublic "Bitfield" (Some (Parser.RPath "u32")) []
     [Parser.mkRField "logo" VisPrivate Parser.ANone (Parser.RArray (Parser.RPath "u8") (Parser.LenLit 4)) (PInt 0) id_codec]) [])]
  [SLetT "bf" (TDefault "Bitfield");
   SAssert (TEq (TMeth "Bitfield" (TVar "bf") "logo" []) (TV (RA [0; 0; 0; 0])));
   SAssert (TEq (TMeth "Bitfield" (TVar "bf") "into_bits" []) (TV (RI 0)))]) = true.
Proof. vm_compute. reflexivity. Qed.

(* lib_array_field_tests.rs:236 *)
Example array_field_from_bits_single_field : is_passed (run_test
  [(mkUnit "Bitfield" (Parser.mkRDecl true VisPublic "Bitfield" (Some (Parser.RPath "u32")) []
     [Parser.mkRField "logo" VisPrivate Parser.ANone (Parser.RArray (Parser.RPath "u8") (Parser.LenLit 4)) (PInt 0) id_codec]) [])]
  [SLetT "bf" (TStat "Bitfield" "from_bits" [(TV (RI 1144201745))]);
   SAssert (TEq (TMeth "Bitfield" (TVar "bf") "logo" []) (TV (RA [17; 34; 51; 68])))]) = true.
Proof. vm_compute. reflexivity. Qed.

(* lib_array_field_tests.rs:247 *)
Example array_field_into_bits_single_field : is_passed (run_test
  [(mkUnit "Bitfield" (Parser.mkRDecl true VisPublic "Bitfield" (Some (Parser.RPath "u32")) []
     [Parser.mkRField "logo" VisPrivate Parser.ANone (Parser.RArray (Parser.RPath "u8") (Parser.LenLit 4)) (PInt 0) id_codec]) [])]
  [SLetT "bf" (TStat "Bitfield" "new" []);
   SDo (TMeth "Bitfield" (TVar "bf") "set_logo" [(TV (RA [17; 34; 51; 68]))]);
   SAssert (TEq (TMeth "Bitfield" (TVar "bf") "into_bits" []) (TV (RI 1144201745)))]) = true.
Proof. vm_compute. reflexivity. Qed.

(* lib_array_field_tests.rs:259 *)
Example array_field_from_bits_mixed : is_passed (run_test
  [(mkUnit "Bitfield" (Parser.mkRDecl true VisPublic "Bitfield" (Some (Parser.RPath "u32")) []
     [Parser.mkRField "a" VisPrivate Parser.ANone (Parser.RPath "u8") (PInt 0) id_codec;
      Parser.mkRField "logo" VisPrivate Parser.ANone (Parser.RArray (Parser.RPath "u8") (Parser.LenLit 2)) (PInt 0) id_codec;
      Parser.mkRField "b" VisPrivate Parser.ANone (Parser.RPath "u8") (PInt 0) id_codec]) [])]
  [SLetT "bf" (TStat "Bitfield" "from_bits" [(TV (RI 2018915346))]);
   SAssert (TEq (TMeth "Bitfield" (TVar "bf") "a" []) (TV (RI 18)));
   SAssert (TEq (TMeth "Bitfield" (TVar "bf") "logo" []) (TV (RA [52; 86])));
   SAssert (TEq (TMeth "Bitfield" (TVar "bf") "b" []) (TV (RI 120)))]) = true.
Proof. vm_compute. reflexivity. Qed.

(* lib_array_field_tests.rs:274 *)
Example array_field_into_bits_mixed : is_passed (run_test
  [(mkUnit "Bitfield" (Parser.mkRDecl true VisPublic "Bitfield" (Some (Parser.RPath "u32")) []
     [Parser.mkRField "a" VisPrivate Parser.ANone (Parser.RPath "u8") (PInt 0) id_codec;
      Parser.mkRField "logo" VisPrivate Parser.ANone (Parser.RArray (Parser.RPath "u8") (Parser.LenLit 2)) (PInt 0) id_codec;
      Parser.mkRField "b" VisPrivate Parser.ANone (Parser.RPath "u8") (PInt 0) id_codec]) [])]
  [SLetT "bf" (TStat "Bitfield" "new" []);
   SDo (TMeth "Bitfield" (TVar "bf") "set_a" [(TV (RI 18))]);
   SDo (TMeth "Bitfield" (TVar "bf") "set_logo" [(TV (RA [52; 86]))]);
   SDo (TMeth "Bitfield" (TVar "bf") "set_b" [(TV (RI 120))]);
   SAssert (TEq (TMeth "Bitfield" (TVar "bf") "into_bits" []) (TV (RI 2018915346)))]) = true.
Proof. vm_compute. reflexivity. Qed.

(* lib_array_field_tests.rs:290 *)
Example array_field_round_trip : is_passed (run_test
  [(mkUnit "Bitfield" (Parser.mkRDecl true VisPublic "Bitfield" (Some (Parser.RPath "u64")) []
     [Parser.mkRField "header" VisPrivate Parser.ANone (Parser.RArray (Parser.RPath "u8") (Parser.LenLit 2)) (PInt 0) id_codec;
      Parser.mkRField "payload" VisPrivate Parser.ANone (Parser.RArray (Parser.RPath "u8") (Parser.LenLit 4)) (PInt 0) id_codec;
      Parser.mkRField "footer" VisPrivate Parser.ANone (Parser.RArray (Parser.RPath "u8") (Parser.LenLit 2)) (PInt 0) id_codec]) [])]
  [SLetT "bits" (TV (RI 13527631085718776490));
   SLetT "bf" (TStat "Bitfield" "from_bits" [(TVar "bits")]);
   SAssert (TEq (TMeth "Bitfield" (TVar "bf") "header" []) (TV (RA [170; 170])));
   SAssert (TEq (TMeth "Bitfield" (TVar "bf") "payload" []) (TV (RA [204; 204; 204; 204])));
   SAssert (TEq (TMeth "Bitfield" (TVar "bf") "footer" []) (TV (RA [187; 187])));
   SAssert (TEq (TMeth "Bitfield" (TVar "bf") "into_bits" []) (TVar "bits"))]) = true.
Proof. vm_compute. reflexivity. Qed.

(* lib_array_field_tests.rs:307 *)
Example array_field_lsb_order : is_passed (run_test
  [(mkUnit "Bitfield" (Parser.mkRDecl true VisPublic "Bitfield" (Some (Parser.RPath "u32")) [("order", "lsb")]
     [Parser.mkRField "low" VisPrivate Parser.ANone (Parser.RArray (Parser.RPath "u8") (Parser.LenLit 2)) (PInt 0) id_codec;
      Parser.mkRField "high" VisPrivate Parser.ANone (Parser.RArray (Parser.RPath "u8") (Parser.LenLit 2)) (PInt 0) id_codec]) [])]
  [SLetT "bf" (TStat "Bitfield" "new" []);
   SDo (TMeth "Bitfield" (TVar "bf") "set_low" [(TV (RA [17; 34]))]);
   SDo (TMeth "Bitfield" (TVar "bf") "set_high" [(TV (RA [51; 68]))]);
   SAssert (TEq (TMeth "Bitfield" (TVar "bf") "low" []) (TV (RA [17; 34])));
   SAssert (TEq (TMeth "Bitfield" (TVar "bf") "high" []) (TV (RA [51; 68])));
   SAssert (TEq (TMeth "Bitfield" (TVar "bf") "into_bits" []) (TV (RI 1144201745)))]) = true.
Proof. vm_compute. reflexivity. Qed.

(* lib_array_field_tests.rs:323 *)
Example array_field_msb_order : is_passed (run_test
  [(mkUnit "Bitfield" (Parser.mkRDecl true VisPublic "Bitfield" (Some (Parser.RPath "u32")) [("order", "msb")]
     [Parser.mkRField "high" VisPrivate Parser.ANone (Parser.RArray (Parser.RPath "u8") (Parser.LenLit 2)) (PInt 0) id_codec;
      Parser.mkRField "low" VisPrivate Parser.ANone (Parser.RArray (Parser.RPath "u8") (Parser.LenLit 2)) (PInt 0) id_codec]) [])]
  [SLetT "bf" (TStat "Bitfield" "new" []);
   SDo (TMeth "Bitfield" (TVar "bf") "set_high" [(TV (RA [17; 34]))]);
   SDo (TMeth "Bitfield" (TVar "bf") "set_low" [(TV (RA [51; 68]))]);
   SAssert (TEq (TMeth "Bitfield" (TVar "bf") "into_bits" []) (TV (RI 571556915)));
   SAssert (TEq (TMeth "Bitfield" (TVar "bf") "high" []) (TV (RA [17; 34])));
   SAssert (TEq (TMeth "Bitfield" (TVar "bf") "low" []) (TV (RA [51; 68])))]) = true.
Proof. vm_compute. reflexivity. Qed.

(* lib_array_field_tests.rs:339 *)
Example array_field_access_read_write : is_passed (run_test
  [(mkUnit "Bitfield" (Parser.mkRDecl true VisPublic "Bitfield" (Some (Parser.RPath "u32")) []
     [Parser.mkRField "data" VisPrivate (Parser.AList Parser.RNoBits [("access", "rw")]) (Parser.RArray (Parser.RPath "u8") (Parser.LenLit 4)) (PInt 0) id_codec]) [])]
  [SLetT "bf" (TStat "Bitfield" "new" []);
   SDo (TMeth "Bitfield" (TVar "bf") "set_data" [(TV (RA [17; 34; 51; 68]))]);
   SAssert (TEq (TMeth "Bitfield" (TVar "bf") "data" []) (TV (RA [17; 34; 51; 68])))]) = true.
Proof. vm_compute. reflexivity. Qed.

(* lib_array_field_tests.rs:352 *)
Example array_field_access_read_only : is_passed (run_test
  [(mkUnit "Bitfield" (Parser.mkRDecl true VisPublic "Bitfield" (Some (Parser.RPath "u32")) []
     [Parser.mkRField "data" VisPrivate (Parser.AList Parser.RNoBits [("access", "ro")]) (Parser.RArray (Parser.RPath "u8") (Parser.LenLit 4)) (PInt 0) id_codec]) [])]
  [SLetT "bf" (TBuild "Bitfield" "build" [(TBuild "Bitfield" "with_data" [(TBuild "Bitfield" "new" []); (TV (RA [170; 187; 204; 221]))])]);
   SAssert (TEq (TMeth "Bitfield" (TVar "bf") "data" []) (TV (RA [170; 187; 204; 221])))]) = true.
Proof. vm_compute. reflexivity. Qed.

(* lib_array_field_tests.rs:364 *)
Example array_field_access_write_only_can_write : is_passed (run_test
  [(mkUnit "Bitfield" (Parser.mkRDecl true VisPublic "Bitfield" (Some (Parser.RPath "u32")) []
     [Parser.mkRField "data" VisPrivate (Parser.AList Parser.RNoBits [("access", "wo")]) (Parser.RArray (Parser.RPath "u8") (Parser.LenLit 4)) (PInt 0) id_codec]) [])]
  [SLetT "bf" (TStat "Bitfield" "new" []);
   SDo (TMeth "Bitfield" (TVar "bf") "set_data" [(TV (RA [17; 34; 51; 68]))])]) = true.
Proof. vm_compute. reflexivity. Qed.

(* lib_array_field_tests.rs:376 *)
Example array_field_access_no_access : is_passed (run_test
  [(mkUnit "Bitfield" (Parser.mkRDecl true VisPublic "Bitfield" (Some (Parser.RPath "u32")) []
     [Parser.mkRField "data" VisPrivate (Parser.AList Parser.RNoBits [("access", "na")]) (Parser.RArray (Parser.RPath "u8") (Parser.LenLit 4)) (PInt 0) id_codec]) [])]
  [SDo (TStat "Bitfield" "new" [])]) = true.
Proof. vm_compute. reflexivity. Qed.

(* lib_array_field_tests.rs:387 *)
Example array_field_from_bits_sets_read_only : is_passed (run_test
  [(mkUnit "Bitfield" (Parser.mkRDecl true VisPublic "Bitfield" (Some (Parser.RPath "u32")) []
     [Parser.mkRField "rw" VisPrivate Parser.ANone (Parser.RPath "u8") (PInt 0) id_codec;
      Parser.mkRField "ro_data" VisPrivate (Parser.AList Parser.RNoBits [("access", "ro")]) (Parser.RArray (Parser.RPath "u8") (Parser.LenLit 2)) (PInt 0) id_codec;
      Parser.mkRField "other" VisPrivate Parser.ANone (Parser.RPath "u8") (PInt 0) id_codec]) [])]
  [SLetT "bf" (TStat "Bitfield" "from_bits" [(TV (RI 1144201745))]);
   SAssert (TEq (TMeth "Bitfield" (TVar "bf") "rw" []) (TV (RI 17)));
   SAssert (TEq (TMeth "Bitfield" (TVar "bf") "ro_data" []) (TV (RA [34; 51])));
   SAssert (TEq (TMeth "Bitfield" (TVar "bf") "other" []) (TV (RI 68)))]) = true.
Proof. vm_compute. reflexivity. Qed.

(* lib_array_field_tests.rs:403 *)
Example array_field_reserved : is_passed (run_test
  [(mkUnit "Bitfield" (Parser.mkRDecl true VisPublic "Bitfield" (Some (Parser.RPath "u32")) []
     [Parser.mkRField "a" VisPrivate Parser.ANone (Parser.RPath "u8") (PInt 0) id_codec;
      Parser.mkRField "_reserved" VisPrivate Parser.ANone (Parser.RArray (Parser.RPath "u8") (Parser.LenLit 3)) (PInt 0) id_codec]) [])]
  [SLetT "bf" (TStat "Bitfield" "new" []);
   SAssert (TEq (TMeth "Bitfield" (TVar "bf") "a" []) (TV (RI 0)));
   SAssert (TEq (TMeth "Bitfield" (TVar "bf") "into_bits" []) (TV (RI 0)))]) = true.
Proof. vm_compute. reflexivity. Qed.

(* lib_array_field_tests.rs:416 *)
Example array_field_reserved_with_regular_fields : is_passed (run_test
  [(mkUnit "Bitfield" (Parser.mkRDecl true VisPublic "Bitfield" (Some (Parser.RPath "u64")) []
     [Parser.mkRField "a" VisPrivate Parser.ANone (Parser.RPath "u8") (PInt 0) id_codec;
      Parser.mkRField "_reserved_logo" VisPrivate Parser.ANone (Parser.RArray (Parser.RPath "u8") (Parser.LenLit 6)) (PInt 0) id_codec;
      Parser.mkRField "b" VisPrivate Parser.ANone (Parser.RPath "u8") (PInt 0) id_codec]) [])]
  [SLetT "bf" (TStat "Bitfield" "new" []);
   SDo (TMeth "Bitfield" (TVar "bf") "set_a" [(TV (RI 18))]);
   SDo (TMeth "Bitfield" (TVar "bf") "set_b" [(TV (RI 120))]);
   SAssert (TEq (TMeth "Bitfield" (TVar "bf") "a" []) (TV (RI 18)));
   SAssert (TEq (TMeth "Bitfield" (TVar "bf") "b" []) (TV (RI 120)))]) = true.
Proof. vm_compute. reflexivity. Qed.

(* lib_array_field_tests.rs:432 *)
Example array_field_builder_new_defaults : is_passed (run_test
  [(mkUnit "Bitfield" (Parser.mkRDecl true VisPublic "Bitfield" (Some (Parser.RPath "u32")) []
     [Parser.mkRField "logo" VisPrivate Parser.ANone (Parser.RArray (Parser.RPath "u8") (Parser.LenLit 4)) (PInt 0) id_codec]) [])]
  [SLetT "bf" (TBuild "Bitfield" "build" [(TBuild "Bitfield" "new" [])]);
   SAssert (TEq (TMeth "Bitfield" (TVar "bf") "logo" []) (TV (RA [0; 0; 0; 0])))]) = true.
Proof. vm_compute. reflexivity. Qed.

(* lib_array_field_tests.rs:443 *)
Example array_field_builder_with_field : is_passed (run_test
  [(mkUnit "Bitfield" (Parser.mkRDecl true VisPublic "Bitfield" (Some (Parser.RPath "u32")) []
     [Parser.mkRField "logo" VisPrivate Parser.ANone (Parser.RArray (Parser.RPath "u8") (Parser.LenLit 4)) (PInt 0) id_codec]) [])]
  [SLetT "bf" (TBuild "Bitfield" "build" [(TBuild "Bitfield" "with_logo" [(TBuild "Bitfield" "new" []); (TV (RA [17; 34; 51; 68]))])]);
   SAssert (TEq (TMeth "Bitfield" (TVar "bf") "logo" []) (TV (RA [17; 34; 51; 68])));
   SAssert (TEq (TMeth "Bitfield" (TVar "bf") "into_bits" []) (TV (RI 1144201745)))]) = true.
Proof. vm_compute. reflexivity. Qed.

(* lib_array_field_tests.rs:455 *)
Example array_field_builder_mixed_fields : is_passed (run_test
  [(mkUnit "Bitfield" (Parser.mkRDecl true VisPublic "Bitfield" (Some (Parser.RPath "u32")) []
     [Parser.mkRField "a" VisPrivate Parser.ANone (Parser.RPath "u8") (PInt 0) id_codec;
      Parser.mkRField "logo" VisPrivate Parser.ANone (Parser.RArray (Parser.RPath "u8") (Parser.LenLit 2)) (PInt 0) id_codec;
      Parser.mkRField "b" VisPrivate Parser.ANone (Parser.RPath "u8") (PInt 0) id_codec]) [])]
  [SLetT "bf" (TBuild "Bitfield" "build" [(TBuild "Bitfield" "with_b" [(TBuild "Bitfield" "with_logo" [(TBuild "Bitfield" "with_a" [(TBuild "Bitfield" "new" []); (TV (RI 18))]); (TV (RA [52; 86]))]); (TV (RI 120))])]);
   SAssert (TEq (TMeth "Bitfield" (TVar "bf") "a" []) (TV (RI 18)));
   SAssert (TEq (TMeth "Bitfield" (TVar "bf") "logo" []) (TV (RA [52; 86])));
   SAssert (TEq (TMeth "Bitfield" (TVar "bf") "b" []) (TV (RI 120)));
   SAssert (TEq (TMeth "Bitfield" (TVar "bf") "into_bits" []) (TV (RI 2018915346)))]) = true.
Proof. vm_compute. reflexivity. Qed.

(* lib_array_field_tests.rs:471 *)
Example array_field_builder_checked_with : is_passed (run_test
  [(mkUnit "Bitfield" (Parser.mkRDecl true VisPublic "Bitfield" (Some (Parser.RPath "u32")) []
     [Parser.mkRField "logo" VisPrivate Parser.ANone (Parser.RArray (Parser.RPath "u8") (Parser.LenLit 4)) (PInt 0) id_codec]) [])]
  [SLetT "result" (TBuild "Bitfield" "checked_with_logo" [(TBuild "Bitfield" "new" []); (TV (RA [222; 173; 190; 239]))]);
   SAssert (TIsOk (TVar "result"))]) = true.
Proof. vm_compute. reflexivity. Qed.

(* lib_array_field_tests.rs:482 *)
Example array_field_new_without_defaults : is_passed (run_test
  [(mkUnit "Bitfield" (Parser.mkRDecl true VisPublic "Bitfield" (Some (Parser.RPath "u32")) []
     [Parser.mkRField "a" VisPrivate Parser.ANone (Parser.RPath "u8") (PInt 0) id_codec;
      Parser.mkRField "logo" VisPrivate Parser.ANone (Parser.RArray (Parser.RPath "u8") (Parser.LenLit 2)) (PInt 0) id_codec;
      Parser.mkRField "b" VisPrivate Parser.ANone (Parser.RPath "u8") (PInt 0) id_codec]) [])]
  [SLetT "bf" (TStat "Bitfield" "new_without_defaults" []);
   SAssert (TEq (TMeth "Bitfield" (TVar "bf") "a" []) (TV (RI 0)));
   SAssert (TEq (TMeth "Bitfield" (TVar "bf") "logo" []) (TV (RA [0; 0])));
   SAssert (TEq (TMeth "Bitfield" (TVar "bf") "b" []) (TV (RI 0)));
   SAssert (TEq (TMeth "Bitfield" (TVar "bf") "into_bits" []) (TV (RI 0)))]) = true.
Proof. vm_compute. reflexivity. Qed.

(* lib_array_field_tests.rs:498 *)
Example array_field_builder_new_without_defaults : is_passed (run_test
  [(mkUnit "Bitfield" (Parser.mkRDecl true VisPublic "Bitfield" (Some (Parser.RPath "u32")) []
     [Parser.mkRField "a" VisPrivate Parser.ANone (Parser.RPath "u8") (PInt 0) id_codec;
      Parser.mkRField "logo" VisPrivate Parser.ANone (Parser.RArray (Parser.RPath "u8") (Parser.LenLit 2)) (PInt 0) id_codec;
      Parser.mkRField "b" VisPrivate Parser.ANone (Parser.RPath "u8") (PInt 0) id_codec]) [])]
  [SLetT "bf" (TBuild "Bitfield" "build" [(TBuild "Bitfield" "new_without_defaults" [])]);
   SAssert (TEq (TMeth "Bitfield" (TVar "bf") "a" []) (TV (RI 0)));
   SAssert (TEq (TMeth "Bitfield" (TVar "bf") "logo" []) (TV (RA [0; 0])));
   SAssert (TEq (TMeth "Bitfield" (TVar "bf") "b" []) (TV (RI 0)));
   SAssert (TEq (TMeth "Bitfield" (TVar "bf") "into_bits" []) (TV (RI 0)))]) = true.
Proof. vm_compute. reflexivity. Qed.

(* lib_array_field_tests.rs:514 *)
Example array_field_write_bits : is_passed (run_test
  [(mkUnit "Bitfield" (Parser.mkRDecl true VisPublic "Bitfield" (Some (Parser.RPath "u32")) []
     [Parser.mkRField "a" VisPrivate Parser.ANone (Parser.RPath "u8") (PInt 0) id_codec;
      Parser.mkRField "logo" VisPrivate Parser.ANone (Parser.RArray (Parser.RPath "u8") (Parser.LenLit 2)) (PInt 0) id_codec;
      Parser.mkRField "b" VisPrivate Parser.ANone (Parser.RPath "u8") (PInt 0) id_codec]) [])]
  [SLetT "bf" (TStat "Bitfield" "new" []);
   SDo (TMeth "Bitfield" (TVar "bf") "write_bits" [(TV (RI 2018915346))]);
   SAssert (TEq (TMeth "Bitfield" (TVar "bf") "a" []) (TV (RI 18)));
   SAssert (TEq (TMeth "Bitfield" (TVar "bf") "logo" []) (TV (RA [52; 86])));
   SAssert (TEq (TMeth "Bitfield" (TVar "bf") "b" []) (TV (RI 120)));
   SAssert (TEq (TMeth "Bitfield" (TVar "bf") "into_bits" []) (TV (RI 2018915346)))]) = true.
Proof. vm_compute. reflexivity. Qed.

(* lib_array_field_tests.rs:531 *)
Example array_field_clear_bits : is_passed (run_test
  [(mkUnit "Bitfield" (Parser.mkRDecl true VisPublic "Bitfield" (Some (Parser.RPath "u32")) []
     [Parser.mkRField "a" VisPrivate Parser.ANone (Parser.RPath "u8") (PInt 0) id_codec;
      Parser.mkRField "logo" VisPrivate Parser.ANone (Parser.RArray (Parser.RPath "u8") (Parser.LenLit 2)) (PInt 0) id_codec;
      Parser.mkRField "b" VisPrivate Parser.ANone (Parser.RPath "u8") (PInt 0) id_codec]) [])]
  [SLetT "bf" (TStat "Bitfield" "from_bits" [(TV (RI 2018915346))]);
   SDo (TMeth "Bitfield" (TVar "bf") "clear_bits" []);
   SAssert (TEq (TMeth "Bitfield" (TVar "bf") "a" []) (TV (RI 0)));
   SAssert (TEq (TMeth "Bitfield" (TVar "bf") "logo" []) (TV (RA [0; 0])));
   SAssert (TEq (TMeth "Bitfield" (TVar "bf") "b" []) (TV (RI 0)));
   SAssert (TEq (TMeth "Bitfield" (TVar "bf") "into_bits" []) (TV (RI 0)))]) = true.
Proof. vm_compute. reflexivity. Qed.

(* lib_array_field_tests.rs:548 *)
Example array_field_write_le_bits : is_passed (run_test
  [(mkUnit "Bitfield" (Parser.mkRDecl true VisPublic "Bitfield" (Some (Parser.RPath "u32")) []
     [Parser.mkRField "a" VisPrivate Parser.ANone (Parser.RPath "u8") (PInt 0) id_codec;
      Parser.mkRField "logo" VisPrivate Parser.ANone (Parser.RArray (Parser.RPath "u8") (Parser.LenLit 2)) (PInt 0) id_codec;
      Parser.mkRField "b" VisPrivate Parser.ANone (Parser.RPath "u8") (PInt 0) id_codec]) [])]
  [SLetT "bf" (TStat "Bitfield" "new" []);
   SDo (TMeth "Bitfield" (TVar "bf") "write_le_bits" [(TV (RI 305419896))]);
   SAssert (TEq (TMeth "Bitfield" (TVar "bf") "a" []) (TV (RI 18)));
   SAssert (TEq (TMeth "Bitfield" (TVar "bf") "logo" []) (TV (RA [52; 86])));
   SAssert (TEq (TMeth "Bitfield" (TVar "bf") "b" []) (TV (RI 120)))]) = true.
Proof. vm_compute. reflexivity. Qed.

(* lib_array_field_tests.rs:564 *)
Example array_field_write_be_bits : is_passed (run_test
  [(mkUnit "Bitfield" (Parser.mkRDecl true VisPublic "Bitfield" (Some (Parser.RPath "u32")) []
     [Parser.mkRField "a" VisPrivate Parser.ANone (Parser.RPath "u8") (PInt 0) id_codec;
      Parser.mkRField "logo" VisPrivate Parser.ANone (Parser.RArray (Parser.RPath "u8") (Parser.LenLit 2)) (PInt 0) id_codec;
      Parser.mkRField "b" VisPrivate Parser.ANone (Parser.RPath "u8") (PInt 0) id_codec]) [])]
  [SLetT "bf" (TStat "Bitfield" "new" []);
   SDo (TMeth "Bitfield" (TVar "bf") "write_be_bits" [(TV (RI 2018915346))]);
   SAssert (TEq (TMeth "Bitfield" (TVar "bf") "a" []) (TV (RI 18)));
   SAssert (TEq (TMeth "Bitfield" (TVar "bf") "logo" []) (TV (RA [52; 86])));
   SAssert (TEq (TMeth "Bitfield" (TVar "bf") "b" []) (TV (RI 120)))]) = true.
Proof. vm_compute. reflexivity. Qed.

(* lib_array_field_tests.rs:580 *)
Example array_field_inverted_getter : is_passed (run_test
  [(mkUnit "Bitfield" (Parser.mkRDecl true VisPublic "Bitfield" (Some (Parser.RPath "u16")) []
     [Parser.mkRField "data" VisPrivate Parser.ANone (Parser.RArray (Parser.RPath "u8") (Parser.LenLit 2)) (PInt 0) id_codec]) [])]
  [SLetT "bf" (TStat "Bitfield" "new" []);
   SDo (TMeth "Bitfield" (TVar "bf") "set_data" [(TV (RA [0; 255]))]);
   SLetT "inv" (TMeth "Bitfield" (TVar "bf") "data_inverted" []);
   SAssert (TEq (TVar "inv") (TV (RA [255; 0])))]) = true.
Proof. vm_compute. reflexivity. Qed.

(* lib_array_field_tests.rs:593 *)
Example array_field_inverted_getter_all_bits : is_passed (run_test
  [(mkUnit "Bitfield" (Parser.mkRDecl true VisPublic "Bitfield" (Some (Parser.RPath "u8")) []
     [Parser.mkRField "data" VisPrivate Parser.ANone (Parser.RArray (Parser.RPath "u8") (Parser.LenLit 1)) (PInt 0) id_codec]) [])]
  [SLetT "bf" (TStat "Bitfield" "new" []);
   SDo (TMeth "Bitfield" (TVar "bf") "set_data" [(TV (RA [85]))]);
   SAssert (TEq (TMeth "Bitfield" (TVar "bf") "data_inverted" []) (TV (RA [170])))]) = true.
Proof. vm_compute. reflexivity. Qed.

(* lib_array_field_tests.rs:605 *)
Example array_field_debug : is_passed (run_test
  [(mkUnit "Bitfield" (Parser.mkRDecl true VisPublic "Bitfield" (Some (Parser.RPath "u32")) []
     [Parser.mkRField "a" VisPrivate Parser.ANone (Parser.RPath "u8") (PInt 0) id_codec;
      Parser.mkRField "logo" VisPrivate Parser.ANone (Parser.RArray (Parser.RPath "u8") (Parser.LenLit 2)) (PInt 0) id_codec;
      Parser.mkRField "b" VisPrivate Parser.ANone (Parser.RPath "u8") (PInt 0) id_codec]) [])]
  [SLetT "bf" (TStat "Bitfield" "new" []);
   SDo (TMeth "Bitfield" (TVar "bf") "set_a" [(TV (RI 18))]);
   SDo (TMeth "Bitfield" (TVar "bf") "set_logo" [(TV (RA [52; 86]))]);
   SDo (TMeth "Bitfield" (TVar "bf") "set_b" [(TV (RI 120))]);
   SLetT "s" (TFmt "Bitfield" (TVar "bf"));
   SAssert (TContains (TVar "s") (TV (RErr "Bitfield")));
   SAssert (TContains (TVar "s") (TV (RErr "a")));
   SAssert (TContains (TVar "s") (TV (RErr "logo")));
   SAssert (TContains (TVar "s") (TV (RErr "b")))]) = true.
Proof. vm_compute. reflexivity. Qed.

(* lib_array_field_tests.rs:625 *)
Example array_field_copy : is_passed (run_test
  [(mkUnit "Bitfield" (Parser.mkRDecl true VisPublic "Bitfield" (Some (Parser.RPath "u32")) []
     [Parser.mkRField "data" VisPrivate Parser.ANone (Parser.RArray (Parser.RPath "u8") (Parser.LenLit 4)) (PInt 0) id_codec]) [])]
  [SLetT "bf" (TStat "Bitfield" "new" []);
   SDo (TMeth "Bitfield" (TVar "bf") "set_data" [(TV (RA [17; 34; 51; 68]))]);
   SLetT "bf2" (TVar "bf");
   SAssert (TEq (TMeth "Bitfield" (TVar "bf") "data" []) (TMeth "Bitfield" (TVar "bf2") "data" []))]) = true.
Proof. vm_compute. reflexivity. Qed.

(* lib_array_field_tests.rs:638 *)
Example array_field_from_integer_trait : is_passed (run_test
  [(mkUnit "Bitfield" (Parser.mkRDecl true VisPublic "Bitfield" (Some (Parser.RPath "u32")) []
     [Parser.mkRField "a" VisPrivate Parser.ANone (Parser.RPath "u8") (PInt 0) id_codec;
      Parser.mkRField "logo" VisPrivate Parser.ANone (Parser.RArray (Parser.RPath "u8") (Parser.LenLit 2)) (PInt 0) id_codec;
      Parser.mkRField "b" VisPrivate Parser.ANone (Parser.RPath "u8") (PInt 0) id_codec]) [])]
  [SLetT "bf" (TFrom "Bitfield" (TV (RI 2018915346)));
   SAssert (TEq (TMeth "Bitfield" (TVar "bf") "a" []) (TV (RI 18)));
   SAssert (TEq (TMeth "Bitfield" (TVar "bf") "logo" []) (TV (RA [52; 86])));
   SAssert (TEq (TMeth "Bitfield" (TVar "bf") "b" []) (TV (RI 120)))]) = true.
Proof. vm_compute. reflexivity. Qed.

(* lib_array_field_tests.rs:653 *)
Example array_field_into_integer_trait : is_passed (run_test
  [(mkUnit "Bitfield" (Parser.mkRDecl true VisPublic "Bitfield" (Some (Parser.RPath "u32")) []
     [Parser.mkRField "a" VisPrivate Parser.ANone (Parser.RPath "u8") (PInt 0) id_codec;
      Parser.mkRField "logo" VisPrivate Parser.ANone (Parser.RArray (Parser.RPath "u8") (Parser.LenLit 2)) (PInt 0) id_codec;
      Parser.mkRField "b" VisPrivate Parser.ANone (Parser.RPath "u8") (PInt 0) id_codec]) [])]
  [SLetT "bf" (TStat "Bitfield" "new" []);
   SDo (TMeth "Bitfield" (TVar "bf") "set_a" [(TV (RI 18))]);
   SDo (TMeth "Bitfield" (TVar "bf") "set_logo" [(TV (RA [52; 86]))]);
   SDo (TMeth "Bitfield" (TVar "bf") "set_b" [(TV (RI 120))]);
   SLetT "val" (TInto "Bitfield" (TVar "bf"));
   SAssert (TEq (TVar "val") (TV (RI 2018915346)))]) = true.
Proof. vm_compute. reflexivity. Qed.

(* lib_array_field_tests.rs:670 *)
Example array_field_partial_bits : is_passed (run_test
  [(mkUnit "Bitfield" (Parser.mkRDecl true VisPublic "Bitfield" (Some (Parser.RPath "u16")) []
     [Parser.mkRField "partial" VisPrivate (Parser.AList (Parser.RBits 8 "") []) (Parser.RArray (Parser.RPath "u8") (Parser.LenLit 2)) (PInt 0) id_codec;
      Parser.mkRField "_rest" VisPrivate Parser.ANone (Parser.RPath "u8") (PInt 0) id_codec]) [])]
  [SLetT "bf" (TStat "Bitfield" "new" []);
   SDo (TMeth "Bitfield" (TVar "bf") "set_partial" [(TV (RA [171; 0]))]);
   SAssert (TEq (TAt (TMeth "Bitfield" (TVar "bf") "partial" []) 0) (TV (RI 171)))]) = true.
Proof. vm_compute. reflexivity. Qed.

(* lib_array_field_tests.rs:684 *)
Example array_field_bitfield_with_bit_ops : is_passed (run_test
  [(mkUnit "Bitfield" (Parser.mkRDecl true VisPublic "Bitfield" (Some (Parser.RPath "u32")) [("bit_ops", "true")]
     [Parser.mkRField "data" VisPrivate Parser.ANone (Parser.RArray (Parser.RPath "u8") (Parser.LenLit 4)) (PInt 0) id_codec]) [])]
  [SLetT "bf" (TStat "Bitfield" "from_bits" [(TV (RI 1))]);
   SAssert (TMeth "Bitfield" (TVar "bf") "get_bit" [(TV (RI 0))]);
   SAssert (TNot (TMeth "Bitfield" (TVar "bf") "get_bit" [(TV (RI 1))]))]) = true.
Proof. vm_compute. reflexivity. Qed.

(* lib_array_field_tests.rs:711 *)
Example array_field_from_bits_little_endian : is_passed (run_test
  [(mkUnit "Bitfield" (Parser.mkRDecl true VisPublic "Bitfield" (Some (Parser.RPath "u32")) [("from_endian", "little")]
     [Parser.mkRField "data" VisPrivate Parser.ANone (Parser.RArray (Parser.RPath "u8") (Parser.LenLit 4)) (PInt 0) id_codec]) [])]
  [SLetT "bf" (TStat "Bitfield" "from_bits" [(TV (RI 1144201745))]);
   SAssert (TEq (TMeth "Bitfield" (TVar "bf") "data" []) (TV (RA [68; 51; 34; 17])))]) = true.
Proof. vm_compute. reflexivity. Qed.

(* lib_array_field_tests.rs:722 *)
Example array_field_into_bits_little_endian : is_passed (run_test
  [(mkUnit "Bitfield" (Parser.mkRDecl true VisPublic "Bitfield" (Some (Parser.RPath "u32")) [("into_endian", "little")]
     [Parser.mkRField "data" VisPrivate Parser.ANone (Parser.RArray (Parser.RPath "u8") (Parser.LenLit 4)) (PInt 0) id_codec]) [])]
  [SLetT "bf" (TStat "Bitfield" "new" []);
   SDo (TMeth "Bitfield" (TVar "bf") "set_data" [(TV (RA [17; 34; 51; 68]))]);
   SAssert (TEq (TMeth "Bitfield" (TVar "bf") "into_bits" []) (TV (RI 287454020)))]) = true.
Proof. vm_compute. reflexivity. Qed.

(* lib_array_field_tests.rs:734 *)
Example array_field_full_16_bytes_in_u128 : is_passed (run_test
  [(mkUnit "Bitfield" (Parser.mkRDecl true VisPublic "Bitfield" (Some (Parser.RPath "u128")) []
     [Parser.mkRField "data" VisPrivate Parser.ANone (Parser.RArray (Parser.RPath "u8") (Parser.LenLit 16)) (PInt 0) id_codec]) [])]
  [SLetT "input" (TV (RA [1; 2; 3; 4; 5; 6; 7; 8; 9; 10; 11; 12; 13; 14; 15; 16]));
   SLetT "bf" (TStat "Bitfield" "new" []);
   SDo (TMeth "Bitfield" (TVar "bf") "set_data" [(TVar "input")]);
   SAssert (TEq (TMeth "Bitfield" (TVar "bf") "data" []) (TVar "input"))]) = true.
Proof. vm_compute. reflexivity. Qed.

(* lib_array_field_tests.rs:750 *)
Example array_field_write_bits_respects_read_only : is_passed (run_test
  [(mkUnit "Bitfield" (Parser.mkRDecl true VisPublic "Bitfield" (Some (Parser.RPath "u32")) []
     [Parser.mkRField "rw" VisPrivate Parser.ANone (Parser.RPath "u8") (PInt 0) id_codec;
      Parser.mkRField "ro_data" VisPrivate (Parser.AList Parser.RNoBits [("access", "ro")]) (Parser.RArray (Parser.RPath "u8") (Parser.LenLit 2)) (PInt 0) id_codec;
      Parser.mkRField "other" VisPrivate Parser.ANone (Parser.RPath "u8") (PInt 0) id_codec]) [])]
  [SLetT "bf" (TBuild "Bitfield" "build" [(TBuild "Bitfield" "with_ro_data" [(TBuild "Bitfield" "new" []); (TV (RA [52; 86]))])]);
   SDo (TMeth "Bitfield" (TVar "bf") "write_bits" [(TV (RI 4294967295))]);
   SAssert (TEq (TMeth "Bitfield" (TVar "bf") "rw" []) (TV (RI 255)));
   SAssert (TEq (TMeth "Bitfield" (TVar "bf") "ro_data" []) (TV (RA [52; 86])));
   SAssert (TEq (TMeth "Bitfield" (TVar "bf") "other" []) (TV (RI 255)))]) = true.
Proof. vm_compute. reflexivity. Qed.

(* lib_array_field_tests.rs:790 *)
Example test_array_field_smaller_than_type_does_not_overflow : is_passed (run_test
  [(mkUnit "Packet" (Parser.mkRDecl true VisPrivate "Packet" (Some (Parser.RPath "u32")) []
     [Parser.mkRField "header" VisPrivate Parser.ANone (Parser.RArray (Parser.RPath "u8") (Parser.LenLit 2)) (PInt 0) id_codec;
      Parser.mkRField "payload" VisPrivate (Parser.AList (Parser.RBits 16 "") []) (Parser.RArray (Parser.RPath "u8") (Parser.LenLit 16)) (PInt 0) id_codec]) [])]
  [SLetT "packet" (TStat "Packet" "new" []);
   SDo (TMeth "Packet" (TVar "packet") "set_header" [(TV (RA (repeat 0 2%nat)))]);
   SDo (TMeth "Packet" (TVar "packet") "set_payload" [(TV (RA (repeat 255 16%nat)))]);
   SAssert (TEq (TMeth "Packet" (TVar "packet") "header" []) (TV (RA (repeat 0 2%nat))));
   SLetT "expected" (TV (RA (repeat 0 16%nat)));
   SPut "expected" 0 (TV (RI 255));
   SPut "expected" 1 (TV (RI 255));
   SAssert (TEq (TMeth "Packet" (TVar "packet") "payload" []) (TVar "expected"))]) = true.
Proof. vm_compute. reflexivity. Qed.

(* lib_array_field_array_backed_tests.rs:6 *)
Example array_field_single_byte_backing : is_passed (run_test
  [(mkUnit "Bitfield" (Parser.mkRDecl true VisPublic "Bitfield" (Some (Parser.RArray (Parser.RPath "u8") (Parser.LenLit 1))) []
     [Parser.mkRField "a" VisPrivate Parser.ANone (Parser.RArray (Parser.RPath "u8") (Parser.LenLit 1)) (PInt 0) id_codec]) [])]
  [SLetT "bf" (TStat "Bitfield" "new" []);
   SDo (TMeth "Bitfield" (TVar "bf") "set_a" [(TV (RA [171]))]);
   SAssert (TEq (TMeth "Bitfield" (TVar "bf") "a" []) (TV (RA [171])));
   SAssert (TEq (TMeth "Bitfield" (TVar "bf") "into_bytes" []) (TV (RA [171])))]) = true.
Proof. vm_compute. reflexivity. Qed.

(* lib_array_field_array_backed_tests.rs:19 *)
Example array_field_two_byte_backing : is_passed (run_test
  [(mkUnit "Bitfield" (Parser.mkRDecl true VisPublic "Bitfield" (Some (Parser.RArray (Parser.RPath "u8") (Parser.LenLit 2))) []
     [Parser.mkRField "a" VisPrivate Parser.ANone (Parser.RArray (Parser.RPath "u8") (Parser.LenLit 2)) (PInt 0) id_codec]) [])]
  [SLetT "bf" (TStat "Bitfield" "new" []);
   SDo (TMeth "Bitfield" (TVar "bf") "set_a" [(TV (RA [17; 34]))]);
   SAssert (TEq (TMeth "Bitfield" (TVar "bf") "a" []) (TV (RA [17; 34])));
   SAssert (TEq (TMeth "Bitfield" (TVar "bf") "into_bytes" []) (TV (RA [34; 17])))]) = true.
Proof. vm_compute. reflexivity. Qed.

(* lib_array_field_array_backed_tests.rs:32 *)
Example array_field_four_byte_backing : is_passed (run_test
  [(mkUnit "Bitfield" (Parser.mkRDecl true VisPublic "Bitfield" (Some (Parser.RArray (Parser.RPath "u8") (Parser.LenLit 4))) []
     [Parser.mkRField "a" VisPrivate Parser.ANone (Parser.RArray (Parser.RPath "u8") (Parser.LenLit 4)) (PInt 0) id_codec]) [])]
  [SLetT "bf" (TStat "Bitfield" "new" []);
   SDo (TMeth "Bitfield" (TVar "bf") "set_a" [(TV (RA [17; 34; 51; 68]))]);
   SAssert (TEq (TMeth "Bitfield" (TVar "bf") "a" []) (TV (RA [17; 34; 51; 68])));
   SAssert (TEq (TMeth "Bitfield" (TVar "bf") "into_bytes" []) (TV (RA [68; 51; 34; 17])))]) = true.
Proof. vm_compute. reflexivity. Qed.

(* lib_array_field_array_backed_tests.rs:45 *)
Example array_field_eight_byte_backing : is_passed (run_test
  [(mkUnit "Bitfield" (Parser.mkRDecl true VisPublic "Bitfield" (Some (Parser.RArray (Parser.RPath "u8") (Parser.LenLit 8))) []
     [Parser.mkRField "a" VisPrivate Parser.ANone (Parser.RArray (Parser.RPath "u8") (Parser.LenLit 8)) (PInt 0) id_codec]) [])]
  [SLetT "bf" (TStat "Bitfield" "new" []);
   SDo (TMeth "Bitfield" (TVar "bf") "set_a" [(TV (RA [1; 2; 3; 4; 5; 6; 7; 8]))]);
   SAssert (TEq (TMeth "Bitfield" (TVar "bf") "a" []) (TV (RA [1; 2; 3; 4; 5; 6; 7; 8])));
   SAssert (TEq (TMeth "Bitfield" (TVar "bf") "into_bytes" []) (TV (RA [8; 7; 6; 5; 4; 3; 2; 1])))]) = true.
Proof. vm_compute. reflexivity. Qed.

(* lib_array_field_array_backed_tests.rs:58 *)
Example array_field_getter_ : is_passed (run_test
  [(mkUnit "Bitfield" (Parser.mkRDecl true VisPublic "Bitfield" (Some (Parser.RArray (Parser.RPath "u8") (Parser.LenLit 4))) []
     [Parser.mkRField "logo" VisPrivate Parser.ANone (Parser.RArray (Parser.RPath "u8") (Parser.LenLit 4)) (PInt 0) id_codec]) [])]
  [SLetT "bf" (TStat "Bitfield" "from_bytes" [(TV (RA [68; 51; 34; 17]))]);
   SAssert (TEq (TMeth "Bitfield" (TVar "bf") "logo" []) (TV (RA [17; 34; 51; 68])))]) = true.
Proof. vm_compute. reflexivity. Qed.

(* lib_array_field_array_backed_tests.rs:69 *)
Example array_field_setter_ : is_passed (run_test
  [(mkUnit "Bitfield" (Parser.mkRDecl true VisPublic "Bitfield" (Some (Parser.RArray (Parser.RPath "u8") (Parser.LenLit 4))) []
     [Parser.mkRField "logo" VisPrivate Parser.ANone (Parser.RArray (Parser.RPath "u8") (Parser.LenLit 4)) (PInt 0) id_codec]) [])]
  [SLetT "bf" (TStat "Bitfield" "new" []);
   SDo (TMeth "Bitfield" (TVar "bf") "set_logo" [(TV (RA [17; 34; 51; 68]))]);
   SAssert (TEq (TMeth "Bitfield" (TVar "bf") "logo" []) (TV (RA [17; 34; 51; 68])));
   SAssert (TEq (TMeth "Bitfield" (TVar "bf") "into_bytes" []) (TV (RA [68; 51; 34; 17])))]) = true.
Proof. vm_compute. reflexivity. Qed.

(* lib_array_field_array_backed_tests.rs:82 *)
Example array_field_checked_setter_ok_ : is_passed (run_test
  [(mkUnit "Bitfield" (Parser.mkRDecl true VisPublic "Bitfield" (Some (Parser.RArray (Parser.RPath "u8") (Parser.LenLit 4))) []
     [Parser.mkRField "logo" VisPrivate Parser.ANone (Parser.RArray (Parser.RPath "u8") (Parser.LenLit 4)) (PInt 0) id_codec]) [])]
  [SLetT "bf" (TStat "Bitfield" "new" []);
   SAssert (TIsOk (TMeth "Bitfield" (TVar "bf") "checked_set_logo" [(TV (RA [222; 173; 190; 239]))]));
   SAssert (TEq (TMeth "Bitfield" (TVar "bf") "logo" []) (TV (RA [222; 173; 190; 239])))]) = true.
Proof. vm_compute. reflexivity. Qed.

(* lib_array_field_array_backed_tests.rs:94 *)
Example array_field_mixed_scalar_before_ : is_passed (run_test
  [(mkUnit "Bitfield" (Parser.mkRDecl true VisPublic "Bitfield" (Some (Parser.RArray (Parser.RPath "u8") (Parser.LenLit 4))) []
     [Parser.mkRField "a" VisPrivate Parser.ANone (Parser.RPath "u8") (PInt 0) id_codec;
      Parser.mkRField "logo" VisPrivate Parser.ANone (Parser.RArray (Parser.RPath "u8") (Parser.LenLit 3)) (PInt 0) id_codec]) [])]
  [SLetT "bf" (TStat "Bitfield" "new" []);
   SDo (TMeth "Bitfield" (TVar "bf") "set_a" [(TV (RI 18))]);
   SDo (TMeth "Bitfield" (TVar "bf") "set_logo" [(TV (RA [52; 86; 120]))]);
   SAssert (TEq (TMeth "Bitfield" (TVar "bf") "a" []) (TV (RI 18)));
   SAssert (TEq (TMeth "Bitfield" (TVar "bf") "logo" []) (TV (RA [52; 86; 120])));
   SAssert (TEq (TMeth "Bitfield" (TVar "bf") "into_bytes" []) (TV (RA [120; 86; 52; 18])))]) = true.
Proof. vm_compute. reflexivity. Qed.

(* lib_array_field_array_backed_tests.rs:110 *)
Example array_field_mixed_scalar_after_ : is_passed (run_test
  [(mkUnit "Bitfield" (Parser.mkRDecl true VisPublic "Bitfield" (Some (Parser.RArray (Parser.RPath "u8") (Parser.LenLit 4))) []
     [Parser.mkRField "logo" VisPrivate Parser.ANone (Parser.RArray (Parser.RPath "u8") (Parser.LenLit 3)) (PInt 0) id_codec;
      Parser.mkRField "b" VisPrivate Parser.ANone (Parser.RPath "u8") (PInt 0) id_codec]) [])]
  [SLetT "bf" (TStat "Bitfield" "new" []);
   SDo (TMeth "Bitfield" (TVar "bf") "set_logo" [(TV (RA [18; 52; 86]))]);
   SDo (TMeth "Bitfield" (TVar "bf") "set_b" [(TV (RI 120))]);
   SAssert (TEq (TMeth "Bitfield" (TVar "bf") "logo" []) (TV (RA [18; 52; 86])));
   SAssert (TEq (TMeth "Bitfield" (TVar "bf") "b" []) (TV (RI 120)));
   SAssert (TEq (TMeth "Bitfield" (TVar "bf") "into_bytes" []) (TV (RA [120; 86; 52; 18])))]) = true.
Proof. vm_compute. reflexivity. Qed.

(* lib_array_field_array_backed_tests.rs:126 *)
Example array_field_mixed_scalar_both_sides_ : is_passed (run_test
  [(mkUnit "Bitfield" (Parser.mkRDecl true VisPublic "Bitfield" (Some (Parser.RArray (Parser.RPath "u8") (Parser.LenLit 4))) []
     [Parser.mkRField "a" VisPrivate Parser.ANone (Parser.RPath "u8") (PInt 0) id_codec;
      Parser.mkRField "logo" VisPrivate Parser.ANone (Parser.RArray (Parser.RPath "u8") (Parser.LenLit 2)) (PInt 0) id_codec;
      Parser.mkRField "b" VisPrivate Parser.ANone (Parser.RPath "u8") (PInt 0) id_codec]) [])]
  [SLetT "bf" (TStat "Bitfield" "new" []);
   SDo (TMeth "Bitfield" (TVar "bf") "set_a" [(TV (RI 18))]);
   SDo (TMeth "Bitfield" (TVar "bf") "set_logo" [(TV (RA [52; 86]))]);
   SDo (TMeth "Bitfield" (TVar "bf") "set_b" [(TV (RI 120))]);
   SAssert (TEq (TMeth "Bitfield" (TVar "bf") "a" []) (TV (RI 18)));
   SAssert (TEq (TMeth "Bitfield" (TVar "bf") "logo" []) (TV (RA [52; 86])));
   SAssert (TEq (TMeth "Bitfield" (TVar "bf") "b" []) (TV (RI 120)));
   SAssert (TEq (TMeth "Bitfield" (TVar "bf") "into_bytes" []) (TV (RA [120; 86; 52; 18])))]) = true.
Proof. vm_compute. reflexivity. Qed.

(* lib_array_field_array_backed_tests.rs:145 *)
Example array_field_multiple_array_fields : is_passed (run_test
  [(mkUnit "Bitfield" (Parser.mkRDecl true VisPublic "Bitfield" (Some (Parser.RArray (Parser.RPath "u8") (Parser.LenLit 8))) []
     [Parser.mkRField "first" VisPrivate Parser.ANone (Parser.RArray (Parser.RPath "u8") (Parser.LenLit 4)) (PInt 0) id_codec;
      Parser.mkRField "second" VisPrivate Parser.ANone (Parser.RArray (Parser.RPath "u8") (Parser.LenLit 4)) (PInt 0) id_codec]) [])]
  [SLetT "bf" (TStat "Bitfield" "new" []);
   SDo (TMeth "Bitfield" (TVar "bf") "set_first" [(TV (RA [17; 34; 51; 68]))]);
   SDo (TMeth "Bitfield" (TVar "bf") "set_second" [(TV (RA [85; 102; 119; 136]))]);
   SAssert (TEq (TMeth "Bitfield" (TVar "bf") "first" []) (TV (RA [17; 34; 51; 68])));
   SAssert (TEq (TMeth "Bitfield" (TVar "bf") "second" []) (TV (RA [85; 102; 119; 136])));
   SAssert (TEq (TMeth "Bitfield" (TVar "bf") "into_bytes" []) (TV (RA [136; 119; 102; 85; 68; 51; 34; 17])))]) = true.
Proof. vm_compute. reflexivity. Qed.

(* lib_array_field_array_backed_tests.rs:161 *)
Example array_field_mixed_with_bool_fields_ : is_passed (run_test
  [(mkUnit "Bitfield" (Parser.mkRDecl true VisPublic "Bitfield" (Some (Parser.RArray (Parser.RPath "u8") (Parser.LenLit 4))) []
     [Parser.mkRField "flag_a" VisPrivate Parser.ANone (Parser.RPath "bool") (PInt 0) id_codec;
      Parser.mkRField "flag_b" VisPrivate Parser.ANone (Parser.RPath "bool") (PInt 0) id_codec;
      Parser.mkRField "_padding" VisPrivate (Parser.AList (Parser.RBits 14 "") []) (Parser.RPath "u16") (PInt 0) id_codec;
      Parser.mkRField "data" VisPrivate Parser.ANone (Parser.RArray (Parser.RPath "u8") (Parser.LenLit 2)) (PInt 0) id_codec]) [])]
  [SLetT "bf" (TStat "Bitfield" "new" []);
   SDo (TMeth "Bitfield" (TVar "bf") "set_flag_a" [(TV (RB true))]);
   SDo (TMeth "Bitfield" (TVar "bf") "set_flag_b" [(TV (RB false))]);
   SDo (TMeth "Bitfield" (TVar "bf") "set_data" [(TV (RA [171; 205]))]);
   SAssert (TMeth "Bitfield" (TVar "bf") "flag_a" []);
   SAssert (TNot (TMeth "Bitfield" (TVar "bf") "flag_b" []));
   SAssert (TEq (TMeth "Bitfield" (TVar "bf") "data" []) (TV (RA [171; 205])))]) = true.
Proof. vm_compute. reflexivity. Qed.

(* lib_array_field_array_backed_tests.rs:181 *)
Example array_field_new_zeroes_ : is_passed (run_test
  [(mkUnit "Bitfield" (Parser.mkRDecl true VisPublic "Bitfield" (Some (Parser.RArray (Parser.RPath "u8") (Parser.LenLit 4))) []
     [Parser.mkRField "logo" VisPrivate Parser.ANone (Parser.RArray (Parser.RPath "u8") (Parser.LenLit 4)) (PInt 0) id_codec]) [])]
  [SLetT "bf" (TStat "Bitfield" "new" []);
   SAssert (TEq (TMeth "Bitfield" (TVar "bf") "logo" []) (TV (RA [0; 0; 0; 0])));
   SAssert (TEq (TMeth "Bitfield" (TVar "bf") "into_bytes" []) (TV (RA [0; 0; 0; 0])))]) = true.
Proof. vm_compute. reflexivity. Qed.

(* lib_array_field_array_backed_tests.rs:193 *)
Example array_field_default_trait_ : is_passed (run_test
  [(mkUnit "Bitfield" (Parser.mkRDecl true VisPublic "Bitfield" (Some (Parser.RArray (Parser.RPath "u8") (Parser.LenLit 4))) []
     [Parser.mkRField "logo" VisPrivate Parser.ANone (Parser.RArray (Parser.RPath "u8") (Parser.LenLit 4)) (PInt 0) id_codec]) [])]
  [SLetT "bf" (TDefault "Bitfield");
   SAssert (TEq (TMeth "Bitfield" (TVar "bf") "logo" []) (TV (RA [0; 0; 0; 0])))]) = true.
Proof. vm_compute. reflexivity. Qed.

(* lib_array_field_array_backed_tests.rs:204 *)
Example array_field_new_without_defaults_ : is_passed (run_test
  [(mkUnit "Bitfield" (Parser.mkRDecl true VisPublic "Bitfield" (Some (Parser.RArray (Parser.RPath "u8") (Parser.LenLit 4))) []
     [Parser.mkRField "a" VisPrivate Parser.ANone (Parser.RPath "u8") (PInt 0) id_codec;
      Parser.mkRField "logo" VisPrivate Parser.ANone (Parser.RArray (Parser.RPath "u8") (Parser.LenLit 2)) (PInt 0) id_codec;
      Parser.mkRField "b" VisPrivate Parser.ANone (Parser.RPath "u8") (PInt 0) id_codec]) [])]
  [SLetT "bf" (TStat "Bitfield" "new_without_defaults" []);
   SAssert (TEq (TMeth "Bitfield" (TVar "bf") "a" []) (TV (RI 0)));
   SAssert (TEq (TMeth "Bitfield" (TVar "bf") "logo" []) (TV (RA [0; 0])));
   SAssert (TEq (TMeth "Bitfield" (TVar "bf") "b" []) (TV (RI 0)));
   SAssert (TEq (TMeth "Bitfield" (TVar "bf") "into_bytes" []) (TV (RA [0; 0; 0; 0])))]) = true.
Proof. vm_compute. reflexivity. Qed.

(* lib_array_field_array_backed_tests.rs:220 *)
Example array_field_builder_new_without_defaults_ : is_passed (run_test
  [(mkUnit "Bitfield" (Parser.mkRDecl true VisPublic "Bitfield" (Some (Parser.RArray (Parser.RPath "u8") (Parser.LenLit 4))) []
     [Parser.mkRField "a" VisPrivate Parser.ANone (Parser.RPath "u8") (PInt 0) id_codec;
      Parser.mkRField "logo" VisPrivate Parser.ANone (Parser.RArray (Parser.RPath "u8") (Parser.LenLit 2)) (PInt 0) id_codec;
      Parser.mkRField "b" VisPrivate Parser.ANone (Parser.RPath "u8") (PInt 0) id_codec]) [])]
  [SLetT "bf" (TBuild "Bitfield" "build" [(TBuild "Bitfield" "new_without_defaults" [])]);
   SAssert (TEq (TMeth "Bitfield" (TVar "bf") "a" []) (TV (RI 0)));
   SAssert (TEq (TMeth "Bitfield" (TVar "bf") "logo" []) (TV (RA [0; 0])));
   SAssert (TEq (TMeth "Bitfield" (TVar "bf") "b" []) (TV (RI 0)))]) = true.
Proof. vm_compute. reflexivity. Qed.

(* lib_array_field_array_backed_tests.rs:235 *)
Example array_field_from_bytes_full_field : is_passed (run_test
  [(mkUnit "Bitfield" (Parser.mkRDecl true VisPublic "Bitfield" (Some (Parser.RArray (Parser.RPath "u8") (Parser.LenLit 4))) []
     [Parser.mkRField "logo" VisPrivate Parser.ANone (Parser.RArray (Parser.RPath "u8") (Parser.LenLit 4)) (PInt 0) id_codec]) [])]
  [SLetT "bf" (TStat "Bitfield" "from_bytes" [(TV (RA [68; 51; 34; 17]))]);
   SAssert (TEq (TMeth "Bitfield" (TVar "bf") "logo" []) (TV (RA [17; 34; 51; 68])))]) = true.
Proof. vm_compute. reflexivity. Qed.

(* lib_array_field_array_backed_tests.rs:246 *)
Example array_field_from_bytes_mixed : is_passed (run_test
  [(mkUnit "Bitfield" (Parser.mkRDecl true VisPublic "Bitfield" (Some (Parser.RArray (Parser.RPath "u8") (Parser.LenLit 4))) []
     [Parser.mkRField "a" VisPrivate Parser.ANone (Parser.RPath "u8") (PInt 0) id_codec;
      Parser.mkRField "logo" VisPrivate Parser.ANone (Parser.RArray (Parser.RPath "u8") (Parser.LenLit 2)) (PInt 0) id_codec;
      Parser.mkRField "b" VisPrivate Parser.ANone (Parser.RPath "u8") (PInt 0) id_codec]) [])]
  [SLetT "bf" (TStat "Bitfield" "from_bytes" [(TV (RA [120; 86; 52; 18]))]);
   SAssert (TEq (TMeth "Bitfield" (TVar "bf") "a" []) (TV (RI 18)));
   SAssert (TEq (TMeth "Bitfield" (TVar "bf") "logo" []) (TV (RA [52; 86])));
   SAssert (TEq (TMeth "Bitfield" (TVar "bf") "b" []) (TV (RI 120)))]) = true.
Proof. vm_compute. reflexivity. Qed.

(* lib_array_field_array_backed_tests.rs:261 *)
Example array_field_into_bytes_full_field : is_passed (run_test
  [(mkUnit "Bitfield" (Parser.mkRDecl true VisPublic "Bitfield" (Some (Parser.RArray (Parser.RPath "u8") (Parser.LenLit 4))) []
     [Parser.mkRField "logo" VisPrivate Parser.ANone (Parser.RArray (Parser.RPath "u8") (Parser.LenLit 4)) (PInt 0) id_codec]) [])]
  [SLetT "bf" (TStat "Bitfield" "new" []);
   SDo (TMeth "Bitfield" (TVar "bf") "set_logo" [(TV (RA [17; 34; 51; 68]))]);
   SAssert (TEq (TMeth "Bitfield" (TVar "bf") "into_bytes" []) (TV (RA [68; 51; 34; 17])))]) = true.
Proof. vm_compute. reflexivity. Qed.

(* lib_array_field_array_backed_tests.rs:273 *)
Example array_field_round_trip_bytes : is_passed (run_test
  [(mkUnit "Bitfield" (Parser.mkRDecl true VisPublic "Bitfield" (Some (Parser.RArray (Parser.RPath "u8") (Parser.LenLit 8))) []
     [Parser.mkRField "header" VisPrivate Parser.ANone (Parser.RArray (Parser.RPath "u8") (Parser.LenLit 2)) (PInt 0) id_codec;
      Parser.mkRField "payload" VisPrivate Parser.ANone (Parser.RArray (Parser.RPath "u8") (Parser.LenLit 4)) (PInt 0) id_codec;
      Parser.mkRField "footer" VisPrivate Parser.ANone (Parser.RArray (Parser.RPath "u8") (Parser.LenLit 2)) (PInt 0) id_codec]) [])]
  [SLetT "bf1" (TStat "Bitfield" "new" []);
   SDo (TMeth "Bitfield" (TVar "bf1") "set_header" [(TV (RA [170; 187]))]);
   SDo (TMeth "Bitfield" (TVar "bf1") "set_payload" [(TV (RA [17; 34; 51; 68]))]);
   SDo (TMeth "Bitfield" (TVar "bf1") "set_footer" [(TV (RA [204; 221]))]);
   SLetT "bytes" (TMeth "Bitfield" (TVar "bf1") "into_bytes" []);
   SLetT "bf2" (TStat "Bitfield" "from_bytes" [(TVar "bytes")]);
   SAssert (TEq (TMeth "Bitfield" (TVar "bf2") "header" []) (TV (RA [170; 187])));
   SAssert (TEq (TMeth "Bitfield" (TVar "bf2") "payload" []) (TV (RA [17; 34; 51; 68])));
   SAssert (TEq (TMeth "Bitfield" (TVar "bf2") "footer" []) (TV (RA [204; 221])));
   SAssert (TEq (TMeth "Bitfield" (TVar "bf2") "into_bytes" []) (TVar "bytes"))]) = true.
Proof. vm_compute. reflexivity. Qed.

(* lib_array_field_array_backed_tests.rs:296 *)
Example array_field_from_bytes_with_defaults : is_passed (run_test
  [(mkUnit "Bitfield" (Parser.mkRDecl true VisPublic "Bitfield" (Some (Parser.RArray (Parser.RPath "u8") (Parser.LenLit 4))) []
     [Parser.mkRField "a" VisPrivate Parser.ANone (Parser.RPath "u8") (PInt 0) id_codec;
      Parser.mkRField "ro_logo" VisPrivate (Parser.AList Parser.RNoBits [("access", "ro")]) (Parser.RArray (Parser.RPath "u8") (Parser.LenLit 2)) (PInt 0) id_codec;
      Parser.mkRField "b" VisPrivate Parser.ANone (Parser.RPath "u8") (PInt 0) id_codec]) [])]
  [SLetT "bf" (TStat "Bitfield" "from_bytes" [(TV (RA [120; 86; 52; 18]))]);
   SAssert (TEq (TMeth "Bitfield" (TVar "bf") "a" []) (TV (RI 18)));
   SAssert (TEq (TMeth "Bitfield" (TVar "bf") "ro_logo" []) (TV (RA [52; 86])));
   SAssert (TEq (TMeth "Bitfield" (TVar "bf") "b" []) (TV (RI 120)))]) = true.
Proof. vm_compute. reflexivity. Qed.

(* lib_array_field_array_backed_tests.rs:312 *)
Example array_field_write_bytes : is_passed (run_test
  [(mkUnit "Bitfield" (Parser.mkRDecl true VisPublic "Bitfield" (Some (Parser.RArray (Parser.RPath "u8") (Parser.LenLit 4))) []
     [Parser.mkRField "a" VisPrivate Parser.ANone (Parser.RPath "u8") (PInt 0) id_codec;
      Parser.mkRField "logo" VisPrivate Parser.ANone (Parser.RArray (Parser.RPath "u8") (Parser.LenLit 2)) (PInt 0) id_codec;
      Parser.mkRField "b" VisPrivate Parser.ANone (Parser.RPath "u8") (PInt 0) id_codec]) [])]
  [SLetT "bf" (TStat "Bitfield" "new" []);
   SDo (TMeth "Bitfield" (TVar "bf") "write_bytes" [(TV (RA [18; 52; 86; 120]))]);
   SAssert (TEq (TMeth "Bitfield" (TVar "bf") "a" []) (TV (RI 18)));
   SAssert (TEq (TMeth "Bitfield" (TVar "bf") "logo" []) (TV (RA [52; 86])));
   SAssert (TEq (TMeth "Bitfield" (TVar "bf") "b" []) (TV (RI 120)));
   SAssert (TEq (TMeth "Bitfield" (TVar "bf") "into_bytes" []) (TV (RA [120; 86; 52; 18])))]) = true.
Proof. vm_compute. reflexivity. Qed.

(* lib_array_field_array_backed_tests.rs:329 *)
Example array_field_write_bytes_full_array_field : is_passed (run_test
  [(mkUnit "Bitfield" (Parser.mkRDecl true VisPublic "Bitfield" (Some (Parser.RArray (Parser.RPath "u8") (Parser.LenLit 4))) []
     [Parser.mkRField "logo" VisPrivate Parser.ANone (Parser.RArray (Parser.RPath "u8") (Parser.LenLit 4)) (PInt 0) id_codec]) [])]
  [SLetT "bf" (TStat "Bitfield" "new" []);
   SDo (TMeth "Bitfield" (TVar "bf") "write_bytes" [(TV (RA [17; 34; 51; 68]))]);
   SAssert (TEq (TMeth "Bitfield" (TVar "bf") "logo" []) (TV (RA [17; 34; 51; 68])))]) = true.
Proof. vm_compute. reflexivity. Qed.

(* lib_array_field_array_backed_tests.rs:341 *)
Example array_field_clear_bytes : is_passed (run_test
  [(mkUnit "Bitfield" (Parser.mkRDecl true VisPublic "Bitfield" (Some (Parser.RArray (Parser.RPath "u8") (Parser.LenLit 4))) []
     [Parser.mkRField "a" VisPrivate Parser.ANone (Parser.RPath "u8") (PInt 0) id_codec;
      Parser.mkRField "logo" VisPrivate Parser.ANone (Parser.RArray (Parser.RPath "u8") (Parser.LenLit 2)) (PInt 0) id_codec;
      Parser.mkRField "b" VisPrivate Parser.ANone (Parser.RPath "u8") (PInt 0) id_codec]) [])]
  [SLetT "bf" (TStat "Bitfield" "from_bytes" [(TV (RA [120; 86; 52; 18]))]);
   SDo (TMeth "Bitfield" (TVar "bf") "clear_bytes" []);
   SAssert (TEq (TMeth "Bitfield" (TVar "bf") "a" []) (TV (RI 0)));
   SAssert (TEq (TMeth "Bitfield" (TVar "bf") "logo" []) (TV (RA [0; 0])));
   SAssert (TEq (TMeth "Bitfield" (TVar "bf") "b" []) (TV (RI 0)));
   SAssert (TEq (TMeth "Bitfield" (TVar "bf") "into_bytes" []) (TV (RA [0; 0; 0; 0])))]) = true.
Proof. vm_compute. reflexivity. Qed.

(* lib_array_field_array_backed_tests.rs:358 *)
Example array_field_write_bytes_with_defaults : is_passed (run_test
  [(mkUnit "Bitfield" (Parser.mkRDecl true VisPublic "Bitfield" (Some (Parser.RArray (Parser.RPath "u8") (Parser.LenLit 4))) []
     [Parser.mkRField "a" VisPrivate (Parser.AList Parser.RNoBits [("default", "0x12")]) (Parser.RPath "u8") (PInt 0) id_codec;
      Parser.mkRField "logo" VisPrivate Parser.ANone (Parser.RArray (Parser.RPath "u8") (Parser.LenLit 2)) (PInt 0) id_codec;
      Parser.mkRField "b" VisPrivate (Parser.AList Parser.RNoBits [("default", "0x78")]) (Parser.RPath "u8") (PInt 0) id_codec]) [("a", (ELit 18 None)); ("b", (ELit 120 None))])]
  [SLetT "bf" (TStat "Bitfield" "new" []);
   SDo (TMeth "Bitfield" (TVar "bf") "write_bytes_with_defaults" [(TV (RA [153; 52; 86; 153]))]);
   SAssert (TEq (TMeth "Bitfield" (TVar "bf") "a" []) (TV (RI 18)));
   SAssert (TEq (TMeth "Bitfield" (TVar "bf") "logo" []) (TV (RA [52; 86])));
   SAssert (TEq (TMeth "Bitfield" (TVar "bf") "b" []) (TV (RI 120)));
   SAssert (TEq (TMeth "Bitfield" (TVar "bf") "into_bytes" []) (TV (RA [120; 86; 52; 18])))]) = true.
Proof. vm_compute. reflexivity. Qed.

(* lib_array_field_array_backed_tests.rs:377 *)
Example array_field_clear_bytes_with_defaults : is_passed (run_test
  [(mkUnit "Bitfield" (Parser.mkRDecl true VisPublic "Bitfield" (Some (Parser.RArray (Parser.RPath "u8") (Parser.LenLit 4))) []
     [Parser.mkRField "a" VisPrivate (Parser.AList Parser.RNoBits [("default", "0x12")]) (Parser.RPath "u8") (PInt 0) id_codec;
      Parser.mkRField "logo" VisPrivate Parser.ANone (Parser.RArray (Parser.RPath "u8") (Parser.LenLit 2)) (PInt 0) id_codec;
      Parser.mkRField "b" VisPrivate (Parser.AList Parser.RNoBits [("default", "0x78")]) (Parser.RPath "u8") (PInt 0) id_codec]) [("a", (ELit 18 None)); ("b", (ELit 120 None))])]
  [SLetT "bf" (TStat "Bitfield" "new" []);
   SDo (TMeth "Bitfield" (TVar "bf") "clear_bytes_with_defaults" []);
   SAssert (TEq (TMeth "Bitfield" (TVar "bf") "a" []) (TV (RI 18)));
   SAssert (TEq (TMeth "Bitfield" (TVar "bf") "logo" []) (TV (RA [0; 0])));
   SAssert (TEq (TMeth "Bitfield" (TVar "bf") "b" []) (TV (RI 120)));
   SAssert (TEq (TMeth "Bitfield" (TVar "bf") "into_bytes" []) (TV (RA [120; 0; 0; 18])))]) = true.
Proof. vm_compute. reflexivity. Qed.

(* lib_array_field_array_backed_tests.rs:396 *)
Example array_field_write_le_bytes : is_passed (run_test
  [(mkUnit "Bitfield" (Parser.mkRDecl true VisPublic "Bitfield" (Some (Parser.RArray (Parser.RPath "u8") (Parser.LenLit 4))) []
     [Parser.mkRField "a" VisPrivate Parser.ANone (Parser.RPath "u8") (PInt 0) id_codec;
      Parser.mkRField "logo" VisPrivate Parser.ANone (Parser.RArray (Parser.RPath "u8") (Parser.LenLit 2)) (PInt 0) id_codec;
      Parser.mkRField "b" VisPrivate Parser.ANone (Parser.RPath "u8") (PInt 0) id_codec]) [])]
  [SLetT "bf" (TStat "Bitfield" "new" []);
   SDo (TMeth "Bitfield" (TVar "bf") "write_le_bytes" [(TV (RA [17; 34; 51; 68]))]);
   SAssert (TEq (TMeth "Bitfield" (TVar "bf") "a" []) (TV (RI 68)));
   SAssert (TEq (TMeth "Bitfield" (TVar "bf") "logo" []) (TV (RA [51; 34])));
   SAssert (TEq (TMeth "Bitfield" (TVar "bf") "b" []) (TV (RI 17)))]) = true.
Proof. vm_compute. reflexivity. Qed.

(* lib_array_field_array_backed_tests.rs:412 *)
Example array_field_write_be_bytes : is_passed (run_test
  [(mkUnit "Bitfield" (Parser.mkRDecl true VisPublic "Bitfield" (Some (Parser.RArray (Parser.RPath "u8") (Parser.LenLit 4))) []
     [Parser.mkRField "a" VisPrivate Parser.ANone (Parser.RPath "u8") (PInt 0) id_codec;
      Parser.mkRField "logo" VisPrivate Parser.ANone (Parser.RArray (Parser.RPath "u8") (Parser.LenLit 2)) (PInt 0) id_codec;
      Parser.mkRField "b" VisPrivate Parser.ANone (Parser.RPath "u8") (PInt 0) id_codec]) [])]
  [SLetT "bf" (TStat "Bitfield" "new" []);
   SDo (TMeth "Bitfield" (TVar "bf") "write_be_bytes" [(TV (RA [17; 34; 51; 68]))]);
   SAssert (TEq (TMeth "Bitfield" (TVar "bf") "a" []) (TV (RI 17)));
   SAssert (TEq (TMeth "Bitfield" (TVar "bf") "logo" []) (TV (RA [34; 51])));
   SAssert (TEq (TMeth "Bitfield" (TVar "bf") "b" []) (TV (RI 68)))]) = true.
Proof. vm_compute. reflexivity. Qed.

(* lib_array_field_array_backed_tests.rs:428 *)
Example array_field_from_slice : is_passed (run_test
  [(mkUnit "Bitfield" (Parser.mkRDecl true VisPublic "Bitfield" (Some (Parser.RArray (Parser.RPath "u8") (Parser.LenLit 4))) []
     [Parser.mkRField "a" VisPrivate Parser.ANone (Parser.RPath "u8") (PInt 0) id_codec;
      Parser.mkRField "logo" VisPrivate Parser.ANone (Parser.RArray (Parser.RPath "u8") (Parser.LenLit 2)) (PInt 0) id_codec;
      Parser.mkRField "b" VisPrivate Parser.ANone (Parser.RPath "u8") (PInt 0) id_codec]) [])]
  [SLetT "bf" (TStat "Bitfield" "from_slice" [(TV (RA [120; 86; 52; 18]))]);
   SAssert (TEq (TMeth "Bitfield" (TVar "bf") "a" []) (TV (RI 18)));
   SAssert (TEq (TMeth "Bitfield" (TVar "bf") "logo" []) (TV (RA [52; 86])));
   SAssert (TEq (TMeth "Bitfield" (TVar "bf") "b" []) (TV (RI 120)))]) = true.
Proof. vm_compute. reflexivity. Qed.

(* lib_array_field_array_backed_tests.rs:443 *)
Example array_field_lsb_order_ : is_passed (run_test
  [(mkUnit "Bitfield" (Parser.mkRDecl true VisPublic "Bitfield" (Some (Parser.RArray (Parser.RPath "u8") (Parser.LenLit 4))) [("order", "lsb")]
     [Parser.mkRField "low" VisPrivate Parser.ANone (Parser.RArray (Parser.RPath "u8") (Parser.LenLit 2)) (PInt 0) id_codec;
      Parser.mkRField "high" VisPrivate Parser.ANone (Parser.RArray (Parser.RPath "u8") (Parser.LenLit 2)) (PInt 0) id_codec]) [])]
  [SLetT "bf" (TStat "Bitfield" "new" []);
   SDo (TMeth "Bitfield" (TVar "bf") "set_low" [(TV (RA [17; 34]))]);
   SDo (TMeth "Bitfield" (TVar "bf") "set_high" [(TV (RA [51; 68]))]);
   SAssert (TEq (TMeth "Bitfield" (TVar "bf") "low" []) (TV (RA [17; 34])));
   SAssert (TEq (TMeth "Bitfield" (TVar "bf") "high" []) (TV (RA [51; 68])));
   SAssert (TEq (TMeth "Bitfield" (TVar "bf") "into_bytes" []) (TV (RA [68; 51; 34; 17])))]) = true.
Proof. vm_compute. reflexivity. Qed.

(* lib_array_field_array_backed_tests.rs:459 *)
Example array_field_msb_order_ : is_passed (run_test
  [(mkUnit "Bitfield" (Parser.mkRDecl true VisPublic "Bitfield" (Some (Parser.RArray (Parser.RPath "u8") (Parser.LenLit 4))) [("order", "msb")]
     [Parser.mkRField "high" VisPrivate Parser.ANone (Parser.RArray (Parser.RPath "u8") (Parser.LenLit 2)) (PInt 0) id_codec;
      Parser.mkRField "low" VisPrivate Parser.ANone (Parser.RArray (Parser.RPath "u8") (Parser.LenLit 2)) (PInt 0) id_codec]) [])]
  [SLetT "bf" (TStat "Bitfield" "new" []);
   SDo (TMeth "Bitfield" (TVar "bf") "set_high" [(TV (RA [17; 34]))]);
   SDo (TMeth "Bitfield" (TVar "bf") "set_low" [(TV (RA [51; 68]))]);
   SAssert (TEq (TMeth "Bitfield" (TVar "bf") "high" []) (TV (RA [17; 34])));
   SAssert (TEq (TMeth "Bitfield" (TVar "bf") "low" []) (TV (RA [51; 68])))]) = true.
Proof. vm_compute. reflexivity. Qed.

(* lib_array_field_array_backed_tests.rs:474 *)
Example array_field_access_read_write_ : is_passed (run_test
  [(mkUnit "Bitfield" (Parser.mkRDecl true VisPublic "Bitfield" (Some (Parser.RArray (Parser.RPath "u8") (Parser.LenLit 4))) []
     [Parser.mkRField "data" VisPrivate (Parser.AList Parser.RNoBits [("access", "rw")]) (Parser.RArray (Parser.RPath "u8") (Parser.LenLit 4)) (PInt 0) id_codec]) [])]
  [SLetT "bf" (TStat "Bitfield" "new" []);
   SDo (TMeth "Bitfield" (TVar "bf") "set_data" [(TV (RA [17; 34; 51; 68]))]);
   SAssert (TEq (TMeth "Bitfield" (TVar "bf") "data" []) (TV (RA [17; 34; 51; 68])))]) = true.
Proof. vm_compute. reflexivity. Qed.

(* lib_array_field_array_backed_tests.rs:487 *)
Example array_field_access_read_only_ : is_passed (run_test
  [(mkUnit "Bitfield" (Parser.mkRDecl true VisPublic "Bitfield" (Some (Parser.RArray (Parser.RPath "u8") (Parser.LenLit 4))) []
     [Parser.mkRField "data" VisPrivate (Parser.AList Parser.RNoBits [("access", "ro")]) (Parser.RArray (Parser.RPath "u8") (Parser.LenLit 4)) (PInt 0) id_codec]) [])]
  [SLetT "bf" (TBuild "Bitfield" "build" [(TBuild "Bitfield" "with_data" [(TBuild "Bitfield" "new" []); (TV (RA [170; 187; 204; 221]))])]);
   SAssert (TEq (TMeth "Bitfield" (TVar "bf") "data" []) (TV (RA [170; 187; 204; 221])))]) = true.
Proof. vm_compute. reflexivity. Qed.

(* lib_array_field_array_backed_tests.rs:499 *)
Example array_field_access_write_only_can_write_ : is_passed (run_test
  [(mkUnit "Bitfield" (Parser.mkRDecl true VisPublic "Bitfield" (Some (Parser.RArray (Parser.RPath "u8") (Parser.LenLit 4))) []
     [Parser.mkRField "data" VisPrivate (Parser.AList Parser.RNoBits [("access", "wo")]) (Parser.RArray (Parser.RPath "u8") (Parser.LenLit 4)) (PInt 0) id_codec]) [])]
  [SLetT "bf" (TStat "Bitfield" "new" []);
   SDo (TMeth "Bitfield" (TVar "bf") "set_data" [(TV (RA [17; 34; 51; 68]))])]) = true.
Proof. vm_compute. reflexivity. Qed.

(* lib_array_field_array_backed_tests.rs:511 *)
Example array_field_access_no_access_ : is_passed (run_test
  [(mkUnit "Bitfield" (Parser.mkRDecl true VisPublic "Bitfield" (Some (Parser.RArray (Parser.RPath "u8") (Parser.LenLit 4))) []
     [Parser.mkRField "data" VisPrivate (Parser.AList Parser.RNoBits [("access", "na")]) (Parser.RArray (Parser.RPath "u8") (Parser.LenLit 4)) (PInt 0) id_codec]) [])]
  [SDo (TStat "Bitfield" "new" [])]) = true.
Proof. vm_compute. reflexivity. Qed.

(* lib_array_field_array_backed_tests.rs:522 *)
Example array_field_from_bytes_sets_read_only : is_passed (run_test
  [(mkUnit "Bitfield" (Parser.mkRDecl true VisPublic "Bitfield" (Some (Parser.RArray (Parser.RPath "u8") (Parser.LenLit 4))) []
     [Parser.mkRField "rw" VisPrivate Parser.ANone (Parser.RPath "u8") (PInt 0) id_codec;
      Parser.mkRField "ro_logo" VisPrivate (Parser.AList Parser.RNoBits [("access", "ro")]) (Parser.RArray (Parser.RPath "u8") (Parser.LenLit 2)) (PInt 0) id_codec;
      Parser.mkRField "other" VisPrivate Parser.ANone (Parser.RPath "u8") (PInt 0) id_codec]) [])]
  [SLetT "bf" (TStat "Bitfield" "from_bytes" [(TV (RA [120; 86; 52; 18]))]);
   SAssert (TEq (TMeth "Bitfield" (TVar "bf") "rw" []) (TV (RI 18)));
   SAssert (TEq (TMeth "Bitfield" (TVar "bf") "ro_logo" []) (TV (RA [52; 86])));
   SAssert (TEq (TMeth "Bitfield" (TVar "bf") "other" []) (TV (RI 120)))]) = true.
Proof. vm_compute. reflexivity. Qed.

(* lib_array_field_array_backed_tests.rs:538 *)
Example array_field_write_bytes_respects_read_only : is_passed (run_test
  [(mkUnit "Bitfield" (Parser.mkRDecl true VisPublic "Bitfield" (Some (Parser.RArray (Parser.RPath "u8") (Parser.LenLit 4))) []
     [Parser.mkRField "rw" VisPrivate Parser.ANone (Parser.RPath "u8") (PInt 0) id_codec;
      Parser.mkRField "ro_logo" VisPrivate (Parser.AList Parser.RNoBits [("access", "ro")]) (Parser.RArray (Parser.RPath "u8") (Parser.LenLit 2)) (PInt 0) id_codec;
      Parser.mkRField "other" VisPrivate Parser.ANone (Parser.RPath "u8") (PInt 0) id_codec]) [])]
  [SLetT "bf" (TBuild "Bitfield" "build" [(TBuild "Bitfield" "with_ro_logo" [(TBuild "Bitfield" "new" []); (TV (RA [52; 86]))])]);
   SDo (TMeth "Bitfield" (TVar "bf") "write_bytes" [(TV (RA [255; 255; 255; 255]))]);
   SAssert (TEq (TMeth "Bitfield" (TVar "bf") "rw" []) (TV (RI 255)));
   SAssert (TEq (TMeth "Bitfield" (TVar "bf") "ro_logo" []) (TV (RA [52; 86])));
   SAssert (TEq (TMeth "Bitfield" (TVar "bf") "other" []) (TV (RI 255)))]) = true.
Proof. vm_compute. reflexivity. Qed.

(* lib_array_field_array_backed_tests.rs:555 *)
Example array_field_reserved_ : is_passed (run_test
  [(mkUnit "Bitfield" (Parser.mkRDecl true VisPublic "Bitfield" (Some (Parser.RArray (Parser.RPath "u8") (Parser.LenLit 4))) []
     [Parser.mkRField "a" VisPrivate Parser.ANone (Parser.RPath "u8") (PInt 0) id_codec;
      Parser.mkRField "_reserved" VisPrivate Parser.ANone (Parser.RArray (Parser.RPath "u8") (Parser.LenLit 3)) (PInt 0) id_codec]) [])]
  [SLetT "bf" (TStat "Bitfield" "new" []);
   SAssert (TEq (TMeth "Bitfield" (TVar "bf") "a" []) (TV (RI 0)));
   SAssert (TEq (TMeth "Bitfield" (TVar "bf") "into_bytes" []) (TV (RA [0; 0; 0; 0])))]) = true.
Proof. vm_compute. reflexivity. Qed.

(* lib_array_field_array_backed_tests.rs:568 *)
Example array_field_reserved_with_regular_fields_ : is_passed (run_test
  [(mkUnit "Bitfield" (Parser.mkRDecl true VisPublic "Bitfield" (Some (Parser.RArray (Parser.RPath "u8") (Parser.LenLit 8))) []
     [Parser.mkRField "a" VisPrivate Parser.ANone (Parser.RPath "u8") (PInt 0) id_codec;
      Parser.mkRField "_reserved_logo" VisPrivate Parser.ANone (Parser.RArray (Parser.RPath "u8") (Parser.LenLit 6)) (PInt 0) id_codec;
      Parser.mkRField "b" VisPrivate Parser.ANone (Parser.RPath "u8") (PInt 0) id_codec]) [])]
  [SLetT "bf" (TStat "Bitfield" "new" []);
   SDo (TMeth "Bitfield" (TVar "bf") "set_a" [(TV (RI 18))]);
   SDo (TMeth "Bitfield" (TVar "bf") "set_b" [(TV (RI 120))]);
   SAssert (TEq (TMeth "Bitfield" (TVar "bf") "a" []) (TV (RI 18)));
   SAssert (TEq (TMeth "Bitfield" (TVar "bf") "b" []) (TV (RI 120)))]) = true.
Proof. vm_compute. reflexivity. Qed.

(* lib_array_field_array_backed_tests.rs:584 *)
Example array_field_builder_new_defaults_ : is_passed (run_test
  [(mkUnit "Bitfield" (Parser.mkRDecl true VisPublic "Bitfield" (Some (Parser.RArray (Parser.RPath "u8") (Parser.LenLit 4))) []
     [Parser.mkRField "logo" VisPrivate Parser.ANone (Parser.RArray (Parser.RPath "u8") (Parser.LenLit 4)) (PInt 0) id_codec]) [])]
  [SLetT "bf" (TBuild "Bitfield" "build" [(TBuild "Bitfield" "new" [])]);
   SAssert (TEq (TMeth "Bitfield" (TVar "bf") "logo" []) (TV (RA [0; 0; 0; 0])))]) = true.
Proof. vm_compute. reflexivity. Qed.

(* lib_array_field_array_backed_tests.rs:595 *)
Example array_field_builder_with_field_ : is_passed (run_test
  [(mkUnit "Bitfield" (Parser.mkRDecl true VisPublic "Bitfield" (Some (Parser.RArray (Parser.RPath "u8") (Parser.LenLit 4))) []
     [Parser.mkRField "logo" VisPrivate Parser.ANone (Parser.RArray (Parser.RPath "u8") (Parser.LenLit 4)) (PInt 0) id_codec]) [])]
  [SLetT "bf" (TBuild "Bitfield" "build" [(TBuild "Bitfield" "with_logo" [(TBuild "Bitfield" "new" []); (TV (RA [17; 34; 51; 68]))])]);
   SAssert (TEq (TMeth "Bitfield" (TVar "bf") "logo" []) (TV (RA [17; 34; 51; 68])));
   SAssert (TEq (TMeth "Bitfield" (TVar "bf") "into_bytes" []) (TV (RA [68; 51; 34; 17])))]) = true.
Proof. vm_compute. reflexivity. Qed.

(* lib_array_field_array_backed_tests.rs:607 *)
Example array_field_builder_mixed_fields_ : is_passed (run_test
  [(mkUnit "Bitfield" (Parser.mkRDecl true VisPublic "Bitfield" (Some (Parser.RArray (Parser.RPath "u8") (Parser.LenLit 4))) []
     [Parser.mkRField "a" VisPrivate Parser.ANone (Parser.RPath "u8") (PInt 0) id_codec;
      Parser.mkRField "logo" VisPrivate Parser.ANone (Parser.RArray (Parser.RPath "u8") (Parser.LenLit 2)) (PInt 0) id_codec;
      Parser.mkRField "b" VisPrivate Parser.ANone (Parser.RPath "u8") (PInt 0) id_codec]) [])]
  [SLetT "bf" (TBuild "Bitfield" "build" [(TBuild "Bitfield" "with_b" [(TBuild "Bitfield" "with_logo" [(TBuild "Bitfield" "with_a" [(TBuild "Bitfield" "new" []); (TV (RI 18))]); (TV (RA [52; 86]))]); (TV (RI 120))])]);
   SAssert (TEq (TMeth "Bitfield" (TVar "bf") "a" []) (TV (RI 18)));
   SAssert (TEq (TMeth "Bitfield" (TVar "bf") "logo" []) (TV (RA [52; 86])));
   SAssert (TEq (TMeth "Bitfield" (TVar "bf") "b" []) (TV (RI 120)));
   SAssert (TEq (TMeth "Bitfield" (TVar "bf") "into_bytes" []) (TV (RA [120; 86; 52; 18])))]) = true.
Proof. vm_compute. reflexivity. Qed.

(* lib_array_field_array_backed_tests.rs:623 *)
Example array_field_inverted_getter_ : is_passed (run_test
  [(mkUnit "Bitfield" (Parser.mkRDecl true VisPublic "Bitfield" (Some (Parser.RArray (Parser.RPath "u8") (Parser.LenLit 2))) []
     [Parser.mkRField "data" VisPrivate Parser.ANone (Parser.RArray (Parser.RPath "u8") (Parser.LenLit 2)) (PInt 0) id_codec]) [])]
  [SLetT "bf" (TStat "Bitfield" "new" []);
   SDo (TMeth "Bitfield" (TVar "bf") "set_data" [(TV (RA [0; 255]))]);
   SLetT "inv" (TMeth "Bitfield" (TVar "bf") "data_inverted" []);
   SAssert (TEq (TVar "inv") (TV (RA [255; 0])))]) = true.
Proof. vm_compute. reflexivity. Qed.

(* lib_array_field_array_backed_tests.rs:636 *)
Example array_field_inverted_getter_all_bits_ : is_passed (run_test
  [(mkUnit "Bitfield" (Parser.mkRDecl true VisPublic "Bitfield" (Some (Parser.RArray (Parser.RPath "u8") (Parser.LenLit 1))) []
     [Parser.mkRField "data" VisPrivate Parser.ANone (Parser.RArray (Parser.RPath "u8") (Parser.LenLit 1)) (PInt 0) id_codec]) [])]
  [SLetT "bf" (TStat "Bitfield" "new" []);
   SDo (TMeth "Bitfield" (TVar "bf") "set_data" [(TV (RA [85]))]);
   SAssert (TEq (TMeth "Bitfield" (TVar "bf") "data_inverted" []) (TV (RA [170])))]) = true.
Proof. vm_compute. reflexivity. Qed.

(* lib_array_field_array_backed_tests.rs:648 *)
Example array_field_debug_ : is_passed (run_test
  [(mkUnit "Bitfield" (Parser.mkRDecl true VisPublic "Bitfield" (Some (Parser.RArray (Parser.RPath "u8") (Parser.LenLit 4))) []
     [Parser.mkRField "a" VisPrivate Parser.ANone (Parser.RPath "u8") (PInt 0) id_codec;
      Parser.mkRField "logo" VisPrivate Parser.ANone (Parser.RArray (Parser.RPath "u8") (Parser.LenLit 2)) (PInt 0) id_codec;
      Parser.mkRField "b" VisPrivate Parser.ANone (Parser.RPath "u8") (PInt 0) id_codec]) [])]
  [SLetT "bf" (TStat "Bitfield" "new" []);
   SDo (TMeth "Bitfield" (TVar "bf") "set_a" [(TV (RI 18))]);
   SDo (TMeth "Bitfield" (TVar "bf") "set_logo" [(TV (RA [52; 86]))]);
   SDo (TMeth "Bitfield" (TVar "bf") "set_b" [(TV (RI 120))]);
   SLetT "s" (TFmt "Bitfield" (TVar "bf"));
   SAssert (TContains (TVar "s") (TV (RErr "Bitfield")));
   SAssert (TContains (TVar "s") (TV (RErr "a")));
   SAssert (TContains (TVar "s") (TV (RErr "logo")));
   SAssert (TContains (TVar "s") (TV (RErr "b")))]) = true.
Proof. vm_compute. reflexivity. Qed.

(* lib_array_field_array_backed_tests.rs:668 *)
Example array_field_copy_ : is_passed (run_test
  [(mkUnit "Bitfield" (Parser.mkRDecl true VisPublic "Bitfield" (Some (Parser.RArray (Parser.RPath "u8") (Parser.LenLit 4))) []
     [Parser.mkRField "data" VisPrivate Parser.ANone (Parser.RArray (Parser.RPath "u8") (Parser.LenLit 4)) (PInt 0) id_codec]) [])]
  [SLetT "bf" (TStat "Bitfield" "new" []);
   SDo (TMeth "Bitfield" (TVar "bf") "set_data" [(TV (RA [17; 34; 51; 68]))]);
   SLetT "bf2" (TVar "bf");
   SAssert (TEq (TMeth "Bitfield" (TVar "bf") "data" []) (TMeth "Bitfield" (TVar "bf2") "data" []))]) = true.
Proof. vm_compute. reflexivity. Qed.

(* lib_array_field_array_backed_tests.rs:681 *)
Example array_field_from_array_trait : is_passed (run_test
  [(mkUnit "Bitfield" (Parser.mkRDecl true VisPublic "Bitfield" (Some (Parser.RArray (Parser.RPath "u8") (Parser.LenLit 4))) []
     [Parser.mkRField "a" VisPrivate Parser.ANone (Parser.RPath "u8") (PInt 0) id_codec;
      Parser.mkRField "logo" VisPrivate Parser.ANone (Parser.RArray (Parser.RPath "u8") (Parser.LenLit 2)) (PInt 0) id_codec;
      Parser.mkRField "b" VisPrivate Parser.ANone (Parser.RPath "u8") (PInt 0) id_codec]) [])]
  [SLetT "bf" (TFrom "Bitfield" (TV (RA [120; 86; 52; 18])));
   SAssert (TEq (TMeth "Bitfield" (TVar "bf") "a" []) (TV (RI 18)));
   SAssert (TEq (TMeth "Bitfield" (TVar "bf") "logo" []) (TV (RA [52; 86])));
   SAssert (TEq (TMeth "Bitfield" (TVar "bf") "b" []) (TV (RI 120)))]) = true.
Proof. vm_compute. reflexivity. Qed.

(* lib_array_field_array_backed_tests.rs:696 *)
Example array_field_into_array_trait : is_passed (run_test
  [(mkUnit "Bitfield" (Parser.mkRDecl true VisPublic "Bitfield" (Some (Parser.RArray (Parser.RPath "u8") (Parser.LenLit 4))) []
     [Parser.mkRField "a" VisPrivate Parser.ANone (Parser.RPath "u8") (PInt 0) id_codec;
      Parser.mkRField "logo" VisPrivate Parser.ANone (Parser.RArray (Parser.RPath "u8") (Parser.LenLit 2)) (PInt 0) id_codec;
      Parser.mkRField "b" VisPrivate Parser.ANone (Parser.RPath "u8") (PInt 0) id_codec]) [])]
  [SLetT "bf" (TStat "Bitfield" "new" []);
   SDo (TMeth "Bitfield" (TVar "bf") "set_a" [(TV (RI 18))]);
   SDo (TMeth "Bitfield" (TVar "bf") "set_logo" [(TV (RA [52; 86]))]);
   SDo (TMeth "Bitfield" (TVar "bf") "set_b" [(TV (RI 120))]);
   SLetT "val" (TInto "Bitfield" (TVar "bf"));
   SAssert (TEq (TVar "val") (TV (RA [120; 86; 52; 18])))]) = true.
Proof. vm_compute. reflexivity. Qed.

(* lib_array_field_array_backed_tests.rs:713 *)
Example array_field_from_bytes_little_endian : is_passed (run_test
  [(mkUnit "Bitfield" (Parser.mkRDecl true VisPublic "Bitfield" (Some (Parser.RArray (Parser.RPath "u8") (Parser.LenLit 4))) [("from_endian", "little")]
     [Parser.mkRField "a" VisPrivate Parser.ANone (Parser.RPath "u8") (PInt 0) id_codec;
      Parser.mkRField "logo" VisPrivate Parser.ANone (Parser.RArray (Parser.RPath "u8") (Parser.LenLit 2)) (PInt 0) id_codec;
      Parser.mkRField "b" VisPrivate Parser.ANone (Parser.RPath "u8") (PInt 0) id_codec]) [])]
  [SLetT "bf" (TStat "Bitfield" "from_bytes" [(TV (RA [18; 52; 86; 120]))]);
   SAssert (TEq (TMeth "Bitfield" (TVar "bf") "a" []) (TV (RI 18)));
   SAssert (TEq (TMeth "Bitfield" (TVar "bf") "logo" []) (TV (RA [52; 86])));
   SAssert (TEq (TMeth "Bitfield" (TVar "bf") "b" []) (TV (RI 120)))]) = true.
Proof. vm_compute. reflexivity. Qed.

(* lib_array_field_array_backed_tests.rs:728 *)
Example array_field_from_bytes_big_endian : is_passed (run_test
  [(mkUnit "Bitfield" (Parser.mkRDecl true VisPublic "Bitfield" (Some (Parser.RArray (Parser.RPath "u8") (Parser.LenLit 4))) [("from_endian", "big")]
     [Parser.mkRField "a" VisPrivate Parser.ANone (Parser.RPath "u8") (PInt 0) id_codec;
      Parser.mkRField "logo" VisPrivate Parser.ANone (Parser.RArray (Parser.RPath "u8") (Parser.LenLit 2)) (PInt 0) id_codec;
      Parser.mkRField "b" VisPrivate Parser.ANone (Parser.RPath "u8") (PInt 0) id_codec]) [])]
  [SLetT "bf" (TStat "Bitfield" "from_bytes" [(TV (RA [120; 86; 52; 18]))]);
   SAssert (TEq (TMeth "Bitfield" (TVar "bf") "a" []) (TV (RI 18)));
   SAssert (TEq (TMeth "Bitfield" (TVar "bf") "logo" []) (TV (RA [52; 86])));
   SAssert (TEq (TMeth "Bitfield" (TVar "bf") "b" []) (TV (RI 120)))]) = true.
Proof. vm_compute. reflexivity. Qed.

(* lib_array_field_array_backed_tests.rs:743 *)
Example array_field_into_bytes_little_endian : is_passed (run_test
  [(mkUnit "Bitfield" (Parser.mkRDecl true VisPublic "Bitfield" (Some (Parser.RArray (Parser.RPath "u8") (Parser.LenLit 4))) [("into_endian", "little")]
     [Parser.mkRField "a" VisPrivate Parser.ANone (Parser.RPath "u8") (PInt 0) id_codec;
      Parser.mkRField "logo" VisPrivate Parser.ANone (Parser.RArray (Parser.RPath "u8") (Parser.LenLit 2)) (PInt 0) id_codec;
      Parser.mkRField "b" VisPrivate Parser.ANone (Parser.RPath "u8") (PInt 0) id_codec]) [])]
  [SLetT "bf" (TStat "Bitfield" "new" []);
   SDo (TMeth "Bitfield" (TVar "bf") "set_a" [(TV (RI 18))]);
   SDo (TMeth "Bitfield" (TVar "bf") "set_logo" [(TV (RA [52; 86]))]);
   SDo (TMeth "Bitfield" (TVar "bf") "set_b" [(TV (RI 120))]);
   SAssert (TEq (TMeth "Bitfield" (TVar "bf") "into_bytes" []) (TV (RA [18; 52; 86; 120])))]) = true.
Proof. vm_compute. reflexivity. Qed.

(* lib_array_field_array_backed_tests.rs:759 *)
Example array_field_into_bytes_big_endian : is_passed (run_test
  [(mkUnit "Bitfield" (Parser.mkRDecl true VisPublic "Bitfield" (Some (Parser.RArray (Parser.RPath "u8") (Parser.LenLit 4))) [("into_endian", "big")]
     [Parser.mkRField "a" VisPrivate Parser.ANone (Parser.RPath "u8") (PInt 0) id_codec;
      Parser.mkRField "logo" VisPrivate Parser.ANone (Parser.RArray (Parser.RPath "u8") (Parser.LenLit 2)) (PInt 0) id_codec;
      Parser.mkRField "b" VisPrivate Parser.ANone (Parser.RPath "u8") (PInt 0) id_codec]) [])]
  [SLetT "bf" (TStat "Bitfield" "new" []);
   SDo (TMeth "Bitfield" (TVar "bf") "set_a" [(TV (RI 18))]);
   SDo (TMeth "Bitfield" (TVar "bf") "set_logo" [(TV (RA [52; 86]))]);
   SDo (TMeth "Bitfield" (TVar "bf") "set_b" [(TV (RI 120))]);
   SAssert (TEq (TMeth "Bitfield" (TVar "bf") "into_bytes" []) (TV (RA [120; 86; 52; 18])))]) = true.
Proof. vm_compute. reflexivity. Qed.

(* lib_array_field_array_backed_tests.rs:790 *)
Example array_field_bitfield_with_bit_ops_ : is_passed (run_test
  [(mkUnit "Bitfield" (Parser.mkRDecl true VisPublic "Bitfield" (Some (Parser.RArray (Parser.RPath "u8") (Parser.LenLit 4))) [("bit_ops", "true")]
     [Parser.mkRField "data" VisPrivate Parser.ANone (Parser.RArray (Parser.RPath "u8") (Parser.LenLit 4)) (PInt 0) id_codec]) [])]
  [SLetT "bf" (TStat "Bitfield" "from_bytes" [(TV (RA [0; 0; 0; 1]))]);
   SAssert (TMeth "Bitfield" (TVar "bf") "get_bit" [(TV (RI 0))]);
   SAssert (TNot (TMeth "Bitfield" (TVar "bf") "get_bit" [(TV (RI 1))]))]) = true.
Proof. vm_compute. reflexivity. Qed.

(* lib_array_field_array_backed_tests.rs:864 *)
Example array_field_write_defaults : is_passed (run_test
  [(mkUnit "Bitfield" (Parser.mkRDecl true VisPublic "Bitfield" (Some (Parser.RArray (Parser.RPath "u8") (Parser.LenLit 4))) []
     [Parser.mkRField "a" VisPrivate (Parser.AList Parser.RNoBits [("default", "0x12")]) (Parser.RPath "u8") (PInt 0) id_codec;
      Parser.mkRField "logo" VisPrivate Parser.ANone (Parser.RArray (Parser.RPath "u8") (Parser.LenLit 2)) (PInt 0) id_codec;
      Parser.mkRField "b" VisPrivate (Parser.AList Parser.RNoBits [("default", "0x78")]) (Parser.RPath "u8") (PInt 0) id_codec]) [("a", (ELit 18 None)); ("b", (ELit 120 None))])]
  [SLetT "bf" (TStat "Bitfield" "new" []);
   SDo (TMeth "Bitfield" (TVar "bf") "write_bytes" [(TV (RA [255; 255; 255; 255]))]);
   SDo (TMeth "Bitfield" (TVar "bf") "write_defaults" []);
   SAssert (TEq (TMeth "Bitfield" (TVar "bf") "a" []) (TV (RI 18)));
   SAssert (TEq (TMeth "Bitfield" (TVar "bf") "logo" []) (TV (RA [255; 255])));
   SAssert (TEq (TMeth "Bitfield" (TVar "bf") "b" []) (TV (RI 120)))]) = true.
Proof. vm_compute. reflexivity. Qed.

(* lib_array_field_array_backed_tests.rs:883 *)
Example reserved_array_field_respects_default_on_write_and_clear : is_passed (run_test
  [(mkUnit "Bitfield" (Parser.mkRDecl true VisPublic "Bitfield" (Some (Parser.RArray (Parser.RPath "u8") (Parser.LenLit 4))) []
     [Parser.mkRField "a" VisPrivate Parser.ANone (Parser.RPath "u8") (PInt 0) id_codec;
      Parser.mkRField "b" VisPrivate Parser.ANone (Parser.RPath "u8") (PInt 0) id_codec;
      Parser.mkRField "_reserved" VisPrivate Parser.ANone (Parser.RPath "u8") (PInt 0) id_codec;
      Parser.mkRField "c" VisPrivate Parser.ANone (Parser.RPath "u8") (PInt 0) id_codec]) [])]
  [SLetT "bf" (TStat "Bitfield" "new" []);
   SDo (TMeth "Bitfield" (TVar "bf") "write_bytes" [(TV (RA [68; 51; 34; 17]))]);
   SAssert (TEq (TMeth "Bitfield" (TVar "bf") "a" []) (TV (RI 68)));
   SAssert (TEq (TMeth "Bitfield" (TVar "bf") "b" []) (TV (RI 51)));
   SAssert (TEq (TMeth "Bitfield" (TVar "bf") "c" []) (TV (RI 17)));
   SAssert (TEq (TMeth "Bitfield" (TVar "bf") "into_bytes" []) (TV (RA [17; 0; 51; 68])));
   SDo (TMeth "Bitfield" (TVar "bf") "clear_bytes" []);
   SAssert (TEq (TMeth "Bitfield" (TVar "bf") "a" []) (TV (RI 0)));
   SAssert (TEq (TMeth "Bitfield" (TVar "bf") "b" []) (TV (RI 0)));
   SAssert (TEq (TMeth "Bitfield" (TVar "bf") "c" []) (TV (RI 0)))]) = true.
Proof. vm_compute. reflexivity. Qed.

(* lib_feature_flag_tests.rs:6 *)
Example feature_order_lsb_default_packing : is_passed (run_test
  [(mkUnit "Bitfield" (Parser.mkRDecl true VisPublic "Bitfield" (Some (Parser.RPath "u16")) []
     [Parser.mkRField "low" VisPrivate (Parser.AList Parser.RNoBits [("default", "0xAB")]) (Parser.RPath "u8") (PInt 0) id_codec;
      Parser.mkRField "high" VisPrivate (Parser.AList Parser.RNoBits [("default", "0xCD")]) (Parser.RPath "u8") (PInt 0) id_codec]) [("low", (ELit 171 None)); ("high", (ELit 205 None))])]
  [SLetT "bf" (TStat "Bitfield" "new" []);
   SAssert (TEq (TMeth "Bitfield" (TVar "bf") "low" []) (TV (RI 171)));
   SAssert (TEq (TMeth "Bitfield" (TVar "bf") "high" []) (TV (RI 205)));
   SAssert (TEq (TMeth "Bitfield" (TVar "bf") "into_bits" []) (TV (RI 52651)))]) = true.
Proof. vm_compute. reflexivity. Qed.

(* lib_feature_flag_tests.rs:52 *)
Example feature_generate_new_creates_with_defaults : is_passed (run_test
  [(mkUnit "Bitfield" (Parser.mkRDecl true VisPublic "Bitfield" (Some (Parser.RPath "u32")) []
     [Parser.mkRField "a" VisPrivate (Parser.AList Parser.RNoBits [("default", "0x11")]) (Parser.RPath "u8") (PInt 0) id_codec;
      Parser.mkRField "b" VisPrivate (Parser.AList Parser.RNoBits [("default", "0x22")]) (Parser.RPath "u8") (PInt 0) id_codec;
      Parser.mkRField "c" VisPrivate (Parser.AList Parser.RNoBits [("default", "0x33")]) (Parser.RPath "u8") (PInt 0) id_codec;
      Parser.mkRField "d" VisPrivate (Parser.AList Parser.RNoBits [("default", "0x44")]) (Parser.RPath "u8") (PInt 0) id_codec]) [("a", (ELit 17 None)); ("b", (ELit 34 None)); ("c", (ELit 51 None)); ("d", (ELit 68 None))])]
  [SLetT "bf" (TStat "Bitfield" "new" []);
   SAssert (TEq (TMeth "Bitfield" (TVar "bf") "a" []) (TV (RI 17)));
   SAssert (TEq (TMeth "Bitfield" (TVar "bf") "b" []) (TV (RI 34)));
   SAssert (TEq (TMeth "Bitfield" (TVar "bf") "c" []) (TV (RI 51)));
   SAssert (TEq (TMeth "Bitfield" (TVar "bf") "d" []) (TV (RI 68)));
   SAssert (TEq (TMeth "Bitfield" (TVar "bf") "into_bits" []) (TV (RI 1144201745)))]) = true.
Proof. vm_compute. reflexivity. Qed.

(* lib_feature_flag_tests.rs:76 *)
Example feature_generate_new_without_defaults_zeroes_non_reserved : is_passed (run_test
  [(mkUnit "Bitfield" (Parser.mkRDecl true VisPublic "Bitfield" (Some (Parser.RPath "u32")) []
     [Parser.mkRField "a" VisPrivate (Parser.AList Parser.RNoBits [("default", "0x11")]) (Parser.RPath "u8") (PInt 0) id_codec;
      Parser.mkRField "b" VisPrivate (Parser.AList Parser.RNoBits [("default", "0x22")]) (Parser.RPath "u8") (PInt 0) id_codec;
      Parser.mkRField "c" VisPrivate (Parser.AList Parser.RNoBits [("default", "0x33")]) (Parser.RPath "u8") (PInt 0) id_codec;
      Parser.mkRField "_reserved" VisPrivate (Parser.AList Parser.RNoBits [("default", "0x44")]) (Parser.RPath "u8") (PInt 0) id_codec]) [("a", (ELit 17 None)); ("b", (ELit 34 None)); ("c", (ELit 51 None)); ("_reserved", (ELit 68 None))])]
  [SLetT "bf" (TStat "Bitfield" "new_without_defaults" []);
   SAssert (TEq (TMeth "Bitfield" (TVar "bf") "a" []) (TV (RI 0)));
   SAssert (TEq (TMeth "Bitfield" (TVar "bf") "b" []) (TV (RI 0)));
   SAssert (TEq (TMeth "Bitfield" (TVar "bf") "c" []) (TV (RI 0)));
   SAssert (TEq (TMeth "Bitfield" (TVar "bf") "into_bits" []) (TV (RI 1140850688)))]) = true.
Proof. vm_compute. reflexivity. Qed.

(* lib_feature_flag_tests.rs:100 *)
Example feature_generate_from_bits_round_trips : is_passed (run_test
  [(mkUnit "Bitfield" (Parser.mkRDecl true VisPublic "Bitfield" (Some (Parser.RPath "u32")) []
     [Parser.mkRField "a" VisPrivate Parser.ANone (Parser.RPath "u8") (PInt 0) id_codec;
      Parser.mkRField "b" VisPrivate Parser.ANone (Parser.RPath "u8") (PInt 0) id_codec;
      Parser.mkRField "c" VisPrivate Parser.ANone (Parser.RPath "u8") (PInt 0) id_codec;
      Parser.mkRField "d" VisPrivate Parser.ANone (Parser.RPath "u8") (PInt 0) id_codec]) [])]
  [SLetT "raw" (TV (RI 3735928559));
   SLetT "bf" (TStat "Bitfield" "from_bits" [(TVar "raw")]);
   SAssert (TEq (TMeth "Bitfield" (TVar "bf") "into_bits" []) (TVar "raw"))]) = true.
Proof. vm_compute. reflexivity. Qed.

(* lib_feature_flag_tests.rs:117 *)
Example feature_generate_from_bits_with_defaults_applies_defaults : is_passed (run_test
  [(mkUnit "Bitfield" (Parser.mkRDecl true VisPublic "Bitfield" (Some (Parser.RPath "u32")) []
     [Parser.mkRField "a" VisPrivate (Parser.AList Parser.RNoBits [("default", "0xFF")]) (Parser.RPath "u8") (PInt 0) id_codec;
      Parser.mkRField "b" VisPrivate Parser.ANone (Parser.RPath "u8") (PInt 0) id_codec;
      Parser.mkRField "c" VisPrivate Parser.ANone (Parser.RPath "u8") (PInt 0) id_codec;
      Parser.mkRField "d" VisPrivate (Parser.AList Parser.RNoBits [("default", "0xFF")]) (Parser.RPath "u8") (PInt 0) id_codec]) [("a", (ELit 255 None)); ("d", (ELit 255 None))])]
  [SLetT "bf" (TStat "Bitfield" "from_bits_with_defaults" [(TV (RI 287454020))]);
   SAssert (TEq (TMeth "Bitfield" (TVar "bf") "a" []) (TV (RI 255)));
   SAssert (TEq (TMeth "Bitfield" (TVar "bf") "b" []) (TV (RI 51)));
   SAssert (TEq (TMeth "Bitfield" (TVar "bf") "c" []) (TV (RI 34)));
   SAssert (TEq (TMeth "Bitfield" (TVar "bf") "d" []) (TV (RI 255)));
   SAssert (TEq (TMeth "Bitfield" (TVar "bf") "into_bits" []) (TV (RI 4280431615)))]) = true.
Proof. vm_compute. reflexivity. Qed.

(* lib_feature_flag_tests.rs:139 *)
Example feature_from_endian_big_no_byte_swap : is_passed (run_test
  [(mkUnit "Bitfield" (Parser.mkRDecl true VisPublic "Bitfield" (Some (Parser.RPath "u32")) [("from_endian", "big")]
     [Parser.mkRField "a" VisPrivate Parser.ANone (Parser.RPath "u8") (PInt 0) id_codec;
      Parser.mkRField "b" VisPrivate Parser.ANone (Parser.RPath "u8") (PInt 0) id_codec;
      Parser.mkRField "c" VisPrivate Parser.ANone (Parser.RPath "u8") (PInt 0) id_codec;
      Parser.mkRField "d" VisPrivate Parser.ANone (Parser.RPath "u8") (PInt 0) id_codec]) [])]
  [SLetT "bf" (TStat "Bitfield" "from_bits" [(TV (RI 287454020))]);
   SAssert (TEq (TMeth "Bitfield" (TVar "bf") "a" []) (TV (RI 68)));
   SAssert (TEq (TMeth "Bitfield" (TVar "bf") "b" []) (TV (RI 51)));
   SAssert (TEq (TMeth "Bitfield" (TVar "bf") "c" []) (TV (RI 34)));
   SAssert (TEq (TMeth "Bitfield" (TVar "bf") "d" []) (TV (RI 17)))]) = true.
Proof. vm_compute. reflexivity. Qed.

(* lib_feature_flag_tests.rs:177 *)
Example feature_into_endian_big_no_byte_swap : is_passed (run_test
  [(mkUnit "Bitfield" (Parser.mkRDecl true VisPublic "Bitfield" (Some (Parser.RPath "u32")) [("from_endian", "big"); ("into_endian", "big")]
     [Parser.mkRField "a" VisPrivate (Parser.AList Parser.RNoBits [("default", "0x11")]) (Parser.RPath "u8") (PInt 0) id_codec;
      Parser.mkRField "b" VisPrivate (Parser.AList Parser.RNoBits [("default", "0x22")]) (Parser.RPath "u8") (PInt 0) id_codec;
      Parser.mkRField "c" VisPrivate (Parser.AList Parser.RNoBits [("default", "0x33")]) (Parser.RPath "u8") (PInt 0) id_codec;
      Parser.mkRField "d" VisPrivate (Parser.AList Parser.RNoBits [("default", "0x44")]) (Parser.RPath "u8") (PInt 0) id_codec]) [("a", (ELit 17 None)); ("b", (ELit 34 None)); ("c", (ELit 51 None)); ("d", (ELit 68 None))])]
  [SLetT "bf" (TStat "Bitfield" "new" []);
   SAssert (TEq (TMeth "Bitfield" (TVar "bf") "into_bits" []) (TV (RI 1144201745)))]) = true.
Proof. vm_compute. reflexivity. Qed.

(* lib_feature_flag_tests.rs:219 *)
Example feature_generate_from_traits_round_trips : is_passed (run_test
  [(mkUnit "Bitfield" (Parser.mkRDecl true VisPublic "Bitfield" (Some (Parser.RPath "u32")) []
     [Parser.mkRField "a" VisPrivate (Parser.AList Parser.RNoBits [("default", "0xAA")]) (Parser.RPath "u8") (PInt 0) id_codec;
      Parser.mkRField "b" VisPrivate (Parser.AList Parser.RNoBits [("default", "0xBB")]) (Parser.RPath "u8") (PInt 0) id_codec;
      Parser.mkRField "c" VisPrivate (Parser.AList Parser.RNoBits [("default", "0xCC")]) (Parser.RPath "u8") (PInt 0) id_codec;
      Parser.mkRField "d" VisPrivate (Parser.AList Parser.RNoBits [("default", "0xDD")]) (Parser.RPath "u8") (PInt 0) id_codec]) [("a", (ELit 170 None)); ("b", (ELit 187 None)); ("c", (ELit 204 None)); ("d", (ELit 221 None))])]
  [SLetT "raw" (TV (RI 3721182122));
   SLetT "bf" (TFrom "Bitfield" (TVar "raw"));
   SAssert (TEq (TMeth "Bitfield" (TVar "bf") "a" []) (TV (RI 170)));
   SAssert (TEq (TMeth "Bitfield" (TVar "bf") "b" []) (TV (RI 187)));
   SAssert (TEq (TMeth "Bitfield" (TVar "bf") "c" []) (TV (RI 204)));
   SAssert (TEq (TMeth "Bitfield" (TVar "bf") "d" []) (TV (RI 221)));
   SLetT "recovered" (TInto "Bitfield" (TVar "bf"));
   SAssert (TEq (TVar "recovered") (TVar "raw"))]) = true.
Proof. vm_compute. reflexivity. Qed.

(* lib_feature_flag_tests.rs:247 *)
Example feature_generate_default_matches_new : is_passed (run_test
  [(mkUnit "Bitfield" (Parser.mkRDecl true VisPublic "Bitfield" (Some (Parser.RPath "u32")) []
     [Parser.mkRField "a" VisPrivate (Parser.AList Parser.RNoBits [("default", "0x10")]) (Parser.RPath "u8") (PInt 0) id_codec;
      Parser.mkRField "b" VisPrivate (Parser.AList Parser.RNoBits [("default", "0x20")]) (Parser.RPath "u8") (PInt 0) id_codec;
      Parser.mkRField "c" VisPrivate (Parser.AList Parser.RNoBits [("default", "0x30")]) (Parser.RPath "u8") (PInt 0) id_codec;
      Parser.mkRField "d" VisPrivate (Parser.AList Parser.RNoBits [("default", "0x40")]) (Parser.RPath "u8") (PInt 0) id_codec]) [("a", (ELit 16 None)); ("b", (ELit 32 None)); ("c", (ELit 48 None)); ("d", (ELit 64 None))])]
  [SLetT "via_new" (TStat "Bitfield" "new" []);
   SLetT "via_default" (TDefault "Bitfield");
   SAssert (TEq (TMeth "Bitfield" (TVar "via_new") "into_bits" []) (TMeth "Bitfield" (TVar "via_default") "into_bits" []));
   SAssert (TEq (TMeth "Bitfield" (TVar "via_default") "a" []) (TV (RI 16)));
   SAssert (TEq (TMeth "Bitfield" (TVar "via_default") "b" []) (TV (RI 32)));
   SAssert (TEq (TMeth "Bitfield" (TVar "via_default") "c" []) (TV (RI 48)));
   SAssert (TEq (TMeth "Bitfield" (TVar "via_default") "d" []) (TV (RI 64)))]) = true.
Proof. vm_compute. reflexivity. Qed.

(* lib_feature_flag_tests.rs:276 *)
Example feature_generate_debug_format_succeeds : is_passed (run_test
  [(mkUnit "Bitfield" (Parser.mkRDecl true VisPublic "Bitfield" (Some (Parser.RPath "u32")) []
     [Parser.mkRField "a" VisPrivate (Parser.AList Parser.RNoBits [("default", "0xAB")]) (Parser.RPath "u8") (PInt 0) id_codec;
      Parser.mkRField "b" VisPrivate (Parser.AList Parser.RNoBits [("default", "0xCD")]) (Parser.RPath "u8") (PInt 0) id_codec;
      Parser.mkRField "c" VisPrivate (Parser.AList (Parser.RBits 8 "") []) (Parser.RPath "u8") (PInt 0) id_codec;
      Parser.mkRField "d" VisPrivate (Parser.AList (Parser.RBits 8 "") []) (Parser.RPath "u8") (PInt 0) id_codec]) [("a", (ELit 171 None)); ("b", (ELit 205 None))])]
  [SLetT "bf" (TStat "Bitfield" "new" []);
   SLetT "s" (TFmt "Bitfield" (TVar "bf"));
   SAssert (TContains (TVar "s") (TV (RErr "Bitfield")));
   SAssert (TContains (TVar "s") (TV (RErr "a")));
   SAssert (TContains (TVar "s") (TV (RErr "b")))]) = true.
Proof. vm_compute. reflexivity. Qed.

(* lib_feature_flag_tests.rs:299 *)
Example feature_derive_copy_bitfield_is_copy : is_passed (run_test
  [(mkUnit "Bitfield" (Parser.mkRDecl true VisPublic "Bitfield" (Some (Parser.RPath "u32")) []
     [Parser.mkRField "a" VisPrivate (Parser.AList Parser.RNoBits [("default", "0xAA")]) (Parser.RPath "u8") (PInt 0) id_codec;
      Parser.mkRField "b" VisPrivate (Parser.AList Parser.RNoBits [("default", "0xBB")]) (Parser.RPath "u8") (PInt 0) id_codec;
      Parser.mkRField "c" VisPrivate (Parser.AList Parser.RNoBits [("default", "0xCC")]) (Parser.RPath "u8") (PInt 0) id_codec;
      Parser.mkRField "d" VisPrivate (Parser.AList Parser.RNoBits [("default", "0xDD")]) (Parser.RPath "u8") (PInt 0) id_codec]) [("a", (ELit 170 None)); ("b", (ELit 187 None)); ("c", (ELit 204 None)); ("d", (ELit 221 None))])]
  [SLetT "original" (TStat "Bitfield" "new" []);
   SLetT "copy" (TVar "original");
   SAssert (TEq (TMeth "Bitfield" (TVar "original") "into_bits" []) (TMeth "Bitfield" (TVar "copy") "into_bits" []))]) = true.
Proof. vm_compute. reflexivity. Qed.

(* lib_feature_flag_tests.rs:321 *)
Example feature_generate_builder_applies_defaults : is_passed (run_test
  [(mkUnit "Bitfield" (Parser.mkRDecl true VisPublic "Bitfield" (Some (Parser.RPath "u32")) []
     [Parser.mkRField "a" VisPrivate (Parser.AList Parser.RNoBits [("default", "0x12")]) (Parser.RPath "u8") (PInt 0) id_codec;
      Parser.mkRField "b" VisPrivate (Parser.AList Parser.RNoBits [("default", "0x34")]) (Parser.RPath "u8") (PInt 0) id_codec;
      Parser.mkRField "c" VisPrivate (Parser.AList Parser.RNoBits [("default", "0x56")]) (Parser.RPath "u8") (PInt 0) id_codec;
      Parser.mkRField "d" VisPrivate (Parser.AList Parser.RNoBits [("default", "0x78")]) (Parser.RPath "u8") (PInt 0) id_codec]) [("a", (ELit 18 None)); ("b", (ELit 52 None)); ("c", (ELit 86 None)); ("d", (ELit 120 None))])]
  [SLetT "bf" (TBuild "Bitfield" "build" [(TBuild "Bitfield" "new" [])]);
   SAssert (TEq (TMeth "Bitfield" (TVar "bf") "a" []) (TV (RI 18)));
   SAssert (TEq (TMeth "Bitfield" (TVar "bf") "b" []) (TV (RI 52)));
   SAssert (TEq (TMeth "Bitfield" (TVar "bf") "c" []) (TV (RI 86)));
   SAssert (TEq (TMeth "Bitfield" (TVar "bf") "d" []) (TV (RI 120)));
   SAssert (TEq (TMeth "Bitfield" (TVar "bf") "into_bits" []) (TV (RI 2018915346)))]) = true.
Proof. vm_compute. reflexivity. Qed.

(* lib_feature_flag_tests.rs:345 *)
Example feature_generate_builder_with_field_overrides_default : is_passed (run_test
  [(mkUnit "Bitfield" (Parser.mkRDecl true VisPublic "Bitfield" (Some (Parser.RPath "u32")) []
     [Parser.mkRField "a" VisPrivate (Parser.AList Parser.RNoBits [("default", "0x12")]) (Parser.RPath "u8") (PInt 0) id_codec;
      Parser.mkRField "b" VisPrivate (Parser.AList Parser.RNoBits [("default", "0x34")]) (Parser.RPath "u8") (PInt 0) id_codec;
      Parser.mkRField "c" VisPrivate (Parser.AList Parser.RNoBits [("default", "0x56")]) (Parser.RPath "u8") (PInt 0) id_codec;
      Parser.mkRField "d" VisPrivate (Parser.AList Parser.RNoBits [("default", "0x78")]) (Parser.RPath "u8") (PInt 0) id_codec]) [("a", (ELit 18 None)); ("b", (ELit 52 None)); ("c", (ELit 86 None)); ("d", (ELit 120 None))])]
  [SLetT "bf" (TBuild "Bitfield" "build" [(TBuild "Bitfield" "with_d" [(TBuild "Bitfield" "with_a" [(TBuild "Bitfield" "new" []); (TV (RI 255))]); (TV (RI 0))])]);
   SAssert (TEq (TMeth "Bitfield" (TVar "bf") "a" []) (TV (RI 255)));
   SAssert (TEq (TMeth "Bitfield" (TVar "bf") "b" []) (TV (RI 52)));
   SAssert (TEq (TMeth "Bitfield" (TVar "bf") "c" []) (TV (RI 86)));
   SAssert (TEq (TMeth "Bitfield" (TVar "bf") "d" []) (TV (RI 0)))]) = true.
Proof. vm_compute. reflexivity. Qed.

(* lib_feature_flag_tests.rs:368 *)
Example feature_generate_bit_ops_get_and_set : is_passed (run_test
  [(mkUnit "Bitfield" (Parser.mkRDecl true VisPublic "Bitfield" (Some (Parser.RPath "u8")) []
     [Parser.mkRField "val" VisPrivate (Parser.AList Parser.RNoBits [("default", "0b1010_1010")]) (Parser.RPath "u8") (PInt 0) id_codec]) [("val", (ELit 170 None))])]
  [SLetT "bf" (TStat "Bitfield" "new" []);
   SAssert (TNot (TMeth "Bitfield" (TVar "bf") "get_bit" [(TV (RI 0))]));
   SAssert (TMeth "Bitfield" (TVar "bf") "get_bit" [(TV (RI 1))]);
   SAssert (TNot (TMeth "Bitfield" (TVar "bf") "get_bit" [(TV (RI 2))]));
   SAssert (TMeth "Bitfield" (TVar "bf") "get_bit" [(TV (RI 3))]);
   SDo (TMeth "Bitfield" (TVar "bf") "set_bit" [(TV (RI 0)); (TV (RB true))]);
   SAssert (TMeth "Bitfield" (TVar "bf") "get_bit" [(TV (RI 0))]);
   SDo (TMeth "Bitfield" (TVar "bf") "set_bit" [(TV (RI 1)); (TV (RB false))]);
   SAssert (TNot (TMeth "Bitfield" (TVar "bf") "get_bit" [(TV (RI 1))]))]) = true.
Proof. vm_compute. reflexivity. Qed.

(* lib_feature_flag_tests.rs:392 *)
Example feature_generate_write_bit_ops_write_bits : is_passed (run_test
  [(mkUnit "Bitfield" (Parser.mkRDecl true VisPublic "Bitfield" (Some (Parser.RPath "u32")) []
     [Parser.mkRField "a" VisPrivate (Parser.AList Parser.RNoBits [("default", "0x11")]) (Parser.RPath "u8") (PInt 0) id_codec;
      Parser.mkRField "b" VisPrivate (Parser.AList Parser.RNoBits [("default", "0x22")]) (Parser.RPath "u8") (PInt 0) id_codec;
      Parser.mkRField "c" VisPrivate (Parser.AList Parser.RNoBits [("default", "0x33")]) (Parser.RPath "u8") (PInt 0) id_codec;
      Parser.mkRField "d" VisPrivate (Parser.AList Parser.RNoBits [("default", "0x44")]) (Parser.RPath "u8") (PInt 0) id_codec]) [("a", (ELit 17 None)); ("b", (ELit 34 None)); ("c", (ELit 51 None)); ("d", (ELit 68 None))])]
  [SLetT "bf" (TStat "Bitfield" "new" []);
   SDo (TMeth "Bitfield" (TVar "bf") "write_bits" [(TV (RI 2864434397))]);
   SAssert (TEq (TMeth "Bitfield" (TVar "bf") "a" []) (TV (RI 221)));
   SAssert (TEq (TMeth "Bitfield" (TVar "bf") "b" []) (TV (RI 204)));
   SAssert (TEq (TMeth "Bitfield" (TVar "bf") "c" []) (TV (RI 187)));
   SAssert (TEq (TMeth "Bitfield" (TVar "bf") "d" []) (TV (RI 170)))]) = true.
Proof. vm_compute. reflexivity. Qed.

(* lib_feature_flag_tests.rs:417 *)
Example feature_generate_write_bit_ops_preserves_read_only_fields : is_passed (run_test
  [(mkUnit "Bitfield" (Parser.mkRDecl true VisPublic "Bitfield" (Some (Parser.RPath "u32")) []
     [Parser.mkRField "a" VisPrivate (Parser.AList Parser.RNoBits [("default", "0x12")]) (Parser.RPath "u8") (PInt 0) id_codec;
      Parser.mkRField "b" VisPrivate (Parser.AList Parser.RNoBits [("default", "0x34")]) (Parser.RPath "u8") (PInt 0) id_codec;
      Parser.mkRField "c" VisPrivate (Parser.AList Parser.RNoBits [("default", "0x56")]) (Parser.RPath "u8") (PInt 0) id_codec;
      Parser.mkRField "_reserved" VisPrivate (Parser.AList Parser.RNoBits [("default", "0x78")]) (Parser.RPath "u8") (PInt 0) id_codec]) [("a", (ELit 18 None)); ("b", (ELit 52 None)); ("c", (ELit 86 None)); ("_reserved", (ELit 120 None))])]
  [SLetT "bf" (TStat "Bitfield" "new" []);
   SDo (TMeth "Bitfield" (TVar "bf") "write_bits" [(TV (RI 287454020))]);
   SAssert (TEq (TMeth "Bitfield" (TVar "bf") "a" []) (TV (RI 68)));
   SAssert (TEq (TMeth "Bitfield" (TVar "bf") "b" []) (TV (RI 51)));
   SAssert (TEq (TMeth "Bitfield" (TVar "bf") "c" []) (TV (RI 34)));
   SAssert (TEq (TMeth "Bitfield" (TVar "bf") "into_bits" []) (TV (RI 2015507268)))]) = true.
Proof. vm_compute. reflexivity. Qed.

(* lib_feature_flag_tests.rs:446 *)
Example feature_write_endian_big_write_be_bits : is_passed (run_test
  [(mkUnit "Bitfield" (Parser.mkRDecl true VisPublic "Bitfield" (Some (Parser.RPath "u32")) []
     [Parser.mkRField "a" VisPrivate Parser.ANone (Parser.RPath "u8") (PInt 0) id_codec;
      Parser.mkRField "b" VisPrivate Parser.ANone (Parser.RPath "u8") (PInt 0) id_codec;
      Parser.mkRField "c" VisPrivate Parser.ANone (Parser.RPath "u8") (PInt 0) id_codec;
      Parser.mkRField "d" VisPrivate Parser.ANone (Parser.RPath "u8") (PInt 0) id_codec]) [])]
  [SLetT "bf" (TStat "Bitfield" "new" []);
   SDo (TMeth "Bitfield" (TVar "bf") "write_be_bits" [(TV (RI 287454020))]);
   SAssert (TEq (TMeth "Bitfield" (TVar "bf") "a" []) (TV (RI 68)));
   SAssert (TEq (TMeth "Bitfield" (TVar "bf") "b" []) (TV (RI 51)));
   SAssert (TEq (TMeth "Bitfield" (TVar "bf") "c" []) (TV (RI 34)));
   SAssert (TEq (TMeth "Bitfield" (TVar "bf") "d" []) (TV (RI 17)))]) = true.
Proof. vm_compute. reflexivity. Qed.

(* lib_feature_flag_tests.rs:486 *)
Example feature_generate_clear_bits_zeroes_all_fields : is_passed (run_test
  [(mkUnit "Bitfield" (Parser.mkRDecl true VisPublic "Bitfield" (Some (Parser.RPath "u32")) []
     [Parser.mkRField "a" VisPrivate (Parser.AList Parser.RNoBits [("default", "0x12")]) (Parser.RPath "u8") (PInt 0) id_codec;
      Parser.mkRField "b" VisPrivate (Parser.AList Parser.RNoBits [("default", "0x34")]) (Parser.RPath "u8") (PInt 0) id_codec;
      Parser.mkRField "c" VisPrivate (Parser.AList Parser.RNoBits [("default", "0x56")]) (Parser.RPath "u8") (PInt 0) id_codec;
      Parser.mkRField "d" VisPrivate (Parser.AList Parser.RNoBits [("default", "0x78")]) (Parser.RPath "u8") (PInt 0) id_codec]) [("a", (ELit 18 None)); ("b", (ELit 52 None)); ("c", (ELit 86 None)); ("d", (ELit 120 None))])]
  [SLetT "bf" (TStat "Bitfield" "new" []);
   SDo (TMeth "Bitfield" (TVar "bf") "clear_bits" []);
   SAssert (TEq (TMeth "Bitfield" (TVar "bf") "a" []) (TV (RI 0)));
   SAssert (TEq (TMeth "Bitfield" (TVar "bf") "b" []) (TV (RI 0)));
   SAssert (TEq (TMeth "Bitfield" (TVar "bf") "c" []) (TV (RI 0)));
   SAssert (TEq (TMeth "Bitfield" (TVar "bf") "d" []) (TV (RI 0)));
   SAssert (TEq (TMeth "Bitfield" (TVar "bf") "into_bits" []) (TV (RI 0)))]) = true.
Proof. vm_compute. reflexivity. Qed.

(* lib_feature_flag_tests.rs:511 *)
Example feature_generate_clear_bits_with_defaults_restores_defaults : is_passed (run_test
  [(mkUnit "Bitfield" (Parser.mkRDecl true VisPublic "Bitfield" (Some (Parser.RPath "u32")) []
     [Parser.mkRField "a" VisPrivate (Parser.AList Parser.RNoBits [("default", "0x12")]) (Parser.RPath "u8") (PInt 0) id_codec;
      Parser.mkRField "b" VisPrivate Parser.ANone (Parser.RPath "u8") (PInt 0) id_codec;
      Parser.mkRField "c" VisPrivate Parser.ANone (Parser.RPath "u8") (PInt 0) id_codec;
      Parser.mkRField "d" VisPrivate (Parser.AList Parser.RNoBits [("default", "0x78")]) (Parser.RPath "u8") (PInt 0) id_codec]) [("a", (ELit 18 None)); ("d", (ELit 120 None))])]
  [SLetT "bf" (TStat "Bitfield" "new" []);
   SDo (TMeth "Bitfield" (TVar "bf") "clear_bits_with_defaults" []);
   SAssert (TEq (TMeth "Bitfield" (TVar "bf") "a" []) (TV (RI 18)));
   SAssert (TEq (TMeth "Bitfield" (TVar "bf") "b" []) (TV (RI 0)));
   SAssert (TEq (TMeth "Bitfield" (TVar "bf") "c" []) (TV (RI 0)));
   SAssert (TEq (TMeth "Bitfield" (TVar "bf") "d" []) (TV (RI 120)));
   SAssert (TEq (TMeth "Bitfield" (TVar "bf") "into_bits" []) (TV (RI 2013265938)))]) = true.
Proof. vm_compute. reflexivity. Qed.

(* lib_feature_flag_tests.rs:534 *)
Example feature_generate_clear_bits_preserves_reserved_field : is_passed (run_test
  [(mkUnit "Bitfield" (Parser.mkRDecl true VisPublic "Bitfield" (Some (Parser.RPath "u32")) []
     [Parser.mkRField "a" VisPrivate (Parser.AList Parser.RNoBits [("default", "0x12")]) (Parser.RPath "u8") (PInt 0) id_codec;
      Parser.mkRField "b" VisPrivate (Parser.AList Parser.RNoBits [("default", "0x34")]) (Parser.RPath "u8") (PInt 0) id_codec;
      Parser.mkRField "c" VisPrivate (Parser.AList Parser.RNoBits [("default", "0x56")]) (Parser.RPath "u8") (PInt 0) id_codec;
      Parser.mkRField "_reserved" VisPrivate (Parser.AList Parser.RNoBits [("default", "0x78")]) (Parser.RPath "u8") (PInt 0) id_codec]) [("a", (ELit 18 None)); ("b", (ELit 52 None)); ("c", (ELit 86 None)); ("_reserved", (ELit 120 None))])]
  [SLetT "bf" (TStat "Bitfield" "new" []);
   SDo (TMeth "Bitfield" (TVar "bf") "clear_bits" []);
   SAssert (TEq (TMeth "Bitfield" (TVar "bf") "a" []) (TV (RI 0)));
   SAssert (TEq (TMeth "Bitfield" (TVar "bf") "b" []) (TV (RI 0)));
   SAssert (TEq (TMeth "Bitfield" (TVar "bf") "c" []) (TV (RI 0)));
   SAssert (TEq (TMeth "Bitfield" (TVar "bf") "into_bits" []) (TV (RI 2013265920)))]) = true.
Proof. vm_compute. reflexivity. Qed.

(* lib_feature_flag_tests.rs:562 *)
Example feature_generate_get_bits_range_reads_correct_slice : is_passed (run_test
  [(mkUnit "Bitfield" (Parser.mkRDecl true VisPublic "Bitfield" (Some (Parser.RPath "u32")) []
     [Parser.mkRField "a" VisPrivate (Parser.AList Parser.RNoBits [("default", "0xAB")]) (Parser.RPath "u8") (PInt 0) id_codec;
      Parser.mkRField "b" VisPrivate (Parser.AList Parser.RNoBits [("default", "0xCD")]) (Parser.RPath "u8") (PInt 0) id_codec;
      Parser.mkRField "c" VisPrivate (Parser.AList Parser.RNoBits [("default", "0xEF")]) (Parser.RPath "u8") (PInt 0) id_codec;
      Parser.mkRField "d" VisPrivate (Parser.AList Parser.RNoBits [("default", "0x12")]) (Parser.RPath "u8") (PInt 0) id_codec]) [("a", (ELit 171 None)); ("b", (ELit 205 None)); ("c", (ELit 239 None)); ("d", (ELit 18 None))])]
  [SLetT "bf" (TStat "Bitfield" "new" []);
   SAssert (TEq (TMeth "Bitfield" (TVar "bf") "get_bits_range" [(TV (RI 0)); (TV (RI 8))]) (TV (RI 171)));
   SAssert (TEq (TMeth "Bitfield" (TVar "bf") "get_bits_range" [(TV (RI 8)); (TV (RI 8))]) (TV (RI 205)));
   SAssert (TEq (TMeth "Bitfield" (TVar "bf") "get_bits_range" [(TV (RI 16)); (TV (RI 8))]) (TV (RI 239)));
   SAssert (TEq (TMeth "Bitfield" (TVar "bf") "get_bits_range" [(TV (RI 24)); (TV (RI 8))]) (TV (RI 18)))]) = true.
Proof. vm_compute. reflexivity. Qed.

(* lib_feature_flag_tests.rs:585 *)
Example feature_generate_set_bits_range_writes_correct_slice : is_passed (run_test
  [(mkUnit "Bitfield" (Parser.mkRDecl true VisPublic "Bitfield" (Some (Parser.RPath "u32")) []
     [Parser.mkRField "a" VisPrivate Parser.ANone (Parser.RPath "u8") (PInt 0) id_codec;
      Parser.mkRField "b" VisPrivate Parser.ANone (Parser.RPath "u8") (PInt 0) id_codec;
      Parser.mkRField "c" VisPrivate Parser.ANone (Parser.RPath "u8") (PInt 0) id_codec;
      Parser.mkRField "d" VisPrivate Parser.ANone (Parser.RPath "u8") (PInt 0) id_codec]) [])]
  [SLetT "bf" (TStat "Bitfield" "new" []);
   SDo (TMeth "Bitfield" (TVar "bf") "set_bits_range" [(TV (RI 0)); (TV (RI 8)); (TV (RI 17))]);
   SDo (TMeth "Bitfield" (TVar "bf") "set_bits_range" [(TV (RI 8)); (TV (RI 8)); (TV (RI 34))]);
   SDo (TMeth "Bitfield" (TVar "bf") "set_bits_range" [(TV (RI 16)); (TV (RI 8)); (TV (RI 51))]);
   SDo (TMeth "Bitfield" (TVar "bf") "set_bits_range" [(TV (RI 24)); (TV (RI 8)); (TV (RI 68))]);
   SAssert (TEq (TMeth "Bitfield" (TVar "bf") "a" []) (TV (RI 17)));
   SAssert (TEq (TMeth "Bitfield" (TVar "bf") "b" []) (TV (RI 34)));
   SAssert (TEq (TMeth "Bitfield" (TVar "bf") "c" []) (TV (RI 51)));
   SAssert (TEq (TMeth "Bitfield" (TVar "bf") "d" []) (TV (RI 68)));
   SAssert (TEq (TMeth "Bitfield" (TVar "bf") "into_bits" []) (TV (RI 1144201745)))]) = true.
Proof. vm_compute. reflexivity. Qed.

(* lib_feature_flag_tests.rs:610 *)
Example feature_generate_invert_bit_ops_invert_field : is_passed (run_test
  [(mkUnit "Bitfield" (Parser.mkRDecl true VisPublic "Bitfield" (Some (Parser.RPath "u32")) []
     [Parser.mkRField "a" VisPrivate (Parser.AList Parser.RNoBits [("default", "0x0F")]) (Parser.RPath "u8") (PInt 0) id_codec;
      Parser.mkRField "b" VisPrivate (Parser.AList Parser.RNoBits [("default", "0xF0")]) (Parser.RPath "u8") (PInt 0) id_codec;
      Parser.mkRField "c" VisPrivate (Parser.AList Parser.RNoBits [("default", "0x00")]) (Parser.RPath "u8") (PInt 0) id_codec;
      Parser.mkRField "d" VisPrivate (Parser.AList Parser.RNoBits [("default", "0xFF")]) (Parser.RPath "u8") (PInt 0) id_codec]) [("a", (ELit 15 None)); ("b", (ELit 240 None)); ("c", (ELit 0 None)); ("d", (ELit 255 None))])]
  [SLetT "bf" (TStat "Bitfield" "new" []);
   SDo (TMeth "Bitfield" (TVar "bf") "invert_a" []);
   SAssert (TEq (TMeth "Bitfield" (TVar "bf") "a" []) (TV (RI 240)));
   SDo (TMeth "Bitfield" (TVar "bf") "invert_b" []);
   SAssert (TEq (TMeth "Bitfield" (TVar "bf") "b" []) (TV (RI 15)));
   SDo (TMeth "Bitfield" (TVar "bf") "invert_c" []);
   SAssert (TEq (TMeth "Bitfield" (TVar "bf") "c" []) (TV (RI 255)));
   SDo (TMeth "Bitfield" (TVar "bf") "invert_d" []);
   SAssert (TEq (TMeth "Bitfield" (TVar "bf") "d" []) (TV (RI 0)))]) = true.
Proof. vm_compute. reflexivity. Qed.

(* lib_feature_flag_tests.rs:637 *)
Example feature_generate_invert_bit_ops_invert_bits_whole : is_passed (run_test
  [(mkUnit "Bitfield" (Parser.mkRDecl true VisPublic "Bitfield" (Some (Parser.RPath "u32")) []
     [Parser.mkRField "a" VisPrivate (Parser.AList Parser.RNoBits [("default", "0x00")]) (Parser.RPath "u8") (PInt 0) id_codec;
      Parser.mkRField "b" VisPrivate (Parser.AList Parser.RNoBits [("default", "0xFF")]) (Parser.RPath "u8") (PInt 0) id_codec;
      Parser.mkRField "c" VisPrivate (Parser.AList Parser.RNoBits [("default", "0x0F")]) (Parser.RPath "u8") (PInt 0) id_codec;
      Parser.mkRField "d" VisPrivate (Parser.AList Parser.RNoBits [("default", "0xF0")]) (Parser.RPath "u8") (PInt 0) id_codec]) [("a", (ELit 0 None)); ("b", (ELit 255 None)); ("c", (ELit 15 None)); ("d", (ELit 240 None))])]
  [SLetT "bf" (TStat "Bitfield" "new" []);
   SDo (TMeth "Bitfield" (TVar "bf") "invert_bits" []);
   SAssert (TEq (TMeth "Bitfield" (TVar "bf") "a" []) (TV (RI 255)));
   SAssert (TEq (TMeth "Bitfield" (TVar "bf") "b" []) (TV (RI 0)));
   SAssert (TEq (TMeth "Bitfield" (TVar "bf") "c" []) (TV (RI 240)));
   SAssert (TEq (TMeth "Bitfield" (TVar "bf") "d" []) (TV (RI 15)))]) = true.
Proof. vm_compute. reflexivity. Qed.

(* lib_feature_flag_tests.rs:661 *)
Example feature_generate_invert_bit_ops_bool_field : is_passed (run_test
  [(mkUnit "Bitfield" (Parser.mkRDecl true VisPublic "Bitfield" (Some (Parser.RPath "u8")) []
     [Parser.mkRField "flag_a" VisPrivate (Parser.AList Parser.RNoBits [("default", "true")]) (Parser.RPath "bool") (PInt 0) id_codec;
      Parser.mkRField "flag_b" VisPrivate (Parser.AList Parser.RNoBits [("default", "false")]) (Parser.RPath "bool") (PInt 0) id_codec;
      Parser.mkRField "_padding" VisPrivate (Parser.AList (Parser.RBits 6 "") []) (Parser.RPath "u8") (PInt 0) id_codec]) [("flag_a", (EBool true)); ("flag_b", (EBool false))])]
  [SLetT "bf" (TStat "Bitfield" "new" []);
   SAssert (TMeth "Bitfield" (TVar "bf") "flag_a" []);
   SAssert (TNot (TMeth "Bitfield" (TVar "bf") "flag_b" []));
   SDo (TMeth "Bitfield" (TVar "bf") "invert_flag_a" []);
   SDo (TMeth "Bitfield" (TVar "bf") "invert_flag_b" []);
   SAssert (TNot (TMeth "Bitfield" (TVar "bf") "flag_a" []));
   SAssert (TMeth "Bitfield" (TVar "bf") "flag_b" [])]) = true.
Proof. vm_compute. reflexivity. Qed.

(** ** Programs of the documentation *)

(* README.md:149 *)
Example readme_149 : is_passed (run_test
  [(mkUnit "DisplayControl" (Parser.mkRDecl true VisPrivate "DisplayControl" (Some (Parser.RPath "u8")) []
     [Parser.mkRField "bg_mode" VisPrivate (Parser.AList (Parser.RBits 2 "") []) (Parser.RPath "BgMode") (PInt 0) (bitflag_codec (Bitflag.mkREnum VisPrivate "BgMode" (Some (Parser.RPath "u8")) [] [Bitflag.mkRVariant "Picture" ["base"] (Some "0") Bitflag.FLit 0; Bitflag.mkRVariant "Video" [] (Some "1") Bitflag.FLit 1; Bitflag.mkRVariant "Sleep" [] (Some "2") Bitflag.FLit 2; Bitflag.mkRVariant "Game" [] (Some "3") Bitflag.FLit 3]) U8);
      Parser.mkRField "color_data" VisPrivate (Parser.AList (Parser.RBits 2 "") [("default", "1")]) (Parser.RPath "u8") (PInt 0) id_codec;
      Parser.mkRField "obj_char_vram_mapping" VisPrivate Parser.ANone (Parser.RPath "bool") (PInt 0) id_codec;
      Parser.mkRField "_always_0x3_reserved" VisPrivate (Parser.AList (Parser.RBits 3 "") [("default", "0x3")]) (Parser.RPath "u8") (PInt 0) id_codec]) [("color_data", (ELit 1 None)); ("_always_0x3_reserved", (ELit 3 None))])]
  [SLetT "display_control" (TStat "DisplayControl" "new" []);
   SDo (TMeth "DisplayControl" (TVar "display_control") "set_bg_mode" [(TV (RC 3))]);
   SDo (TMeth "DisplayControl" (TVar "display_control") "set_color_data" [(TV (RI 2))]);
   SDo (TMeth "DisplayControl" (TVar "display_control") "set_obj_char_vram_mapping" [(TV (RB true))]);
   SLetT "display_control_builder" (TBuild "DisplayControl" "build" [(TBuild "DisplayControl" "with_obj_char_vram_mapping" [(TBuild "DisplayControl" "with_color_data" [(TBuild "DisplayControl" "with_bg_mode" [(TBuild "DisplayControl" "new" []); (TV (RC 3))]); (TV (RI 2))]); (TV (RB true))])]);
   SLetT "display_builder_bits" (TMeth "DisplayControl" (TVar "display_control_builder") "into_bits" []);
   SAssert (TEq (TVar "display_builder_bits") (TV (RI 123)));
   SLetT "display_bits" (TMeth "DisplayControl" (TVar "display_control") "into_bits" []);
   SAssert (TEq (TVar "display_bits") (TV (RI 123)))]) = true.
Proof. vm_compute. reflexivity. Qed.

(* README.md:233 *)
Example readme_233 : is_passed (run_test
  [(mkUnit "BitfieldU8" (Parser.mkRDecl true VisPrivate "BitfieldU8" (Some (Parser.RPath "u8")) []
     [Parser.mkRField "a" VisPrivate Parser.ANone (Parser.RPath "u8") (PInt 0) id_codec]) []); (mkUnit "BitfieldMultipleFields" (Parser.mkRDecl true VisPrivate "BitfieldMultipleFields" (Some (Parser.RPath "u32")) []
     [Parser.mkRField "a" VisPrivate Parser.ANone (Parser.RPath "u8") (PInt 0) id_codec;
      Parser.mkRField "b" VisPrivate Parser.ANone (Parser.RPath "u8") (PInt 0) id_codec;
      Parser.mkRField "c" VisPrivate Parser.ANone (Parser.RPath "u8") (PInt 0) id_codec;
      Parser.mkRField "d" VisPrivate Parser.ANone (Parser.RPath "u8") (PInt 0) id_codec]) [])]
  []) = true.
Proof. vm_compute. reflexivity. Qed.

(* README.md:262 *)
Example readme_262 : is_passed (run_test
  [(mkUnit "ArrayBitfield" (Parser.mkRDecl true VisPrivate "ArrayBitfield" (Some (Parser.RArray (Parser.RPath "u8") (Parser.LenLit 17))) []
     [Parser.mkRField "a" VisPrivate Parser.ANone (Parser.RPath "u128") (PInt 0) id_codec;
      Parser.mkRField "b" VisPrivate Parser.ANone (Parser.RPath "u8") (PInt 0) id_codec]) []); (mkUnit "HeapArrayBitfield" (Parser.mkRDecl true VisPrivate "HeapArrayBitfield" (Some (Parser.RArray (Parser.RPath "u8") (Parser.LenLit 96))) [("array_heap", "true")]
     [Parser.mkRField "a" VisPrivate Parser.ANone (Parser.RPath "u128") (PInt 0) id_codec;
      Parser.mkRField "b" VisPrivate Parser.ANone (Parser.RPath "u128") (PInt 0) id_codec;
      Parser.mkRField "c" VisPrivate Parser.ANone (Parser.RPath "u128") (PInt 0) id_codec;
      Parser.mkRField "d" VisPrivate Parser.ANone (Parser.RPath "u128") (PInt 0) id_codec;
      Parser.mkRField "e" VisPrivate Parser.ANone (Parser.RPath "u128") (PInt 0) id_codec;
      Parser.mkRField "f" VisPrivate Parser.ANone (Parser.RPath "u128") (PInt 0) id_codec]) [])]
  [SLetT "array_bitfield" (TStat "ArrayBitfield" "new" []);
   SLetT "heap_array_bitfield" (TStat "HeapArrayBitfield" "new" [])]) = true.
Proof. vm_compute. reflexivity. Qed.

(* README.md:298 *)
Example readme_298 : is_passed (run_test
  [(mkUnit "Bitfield" (Parser.mkRDecl true VisPrivate "Bitfield" (Some (Parser.RPath "u32")) []
     [Parser.mkRField "a" VisPrivate (Parser.AList Parser.RNoBits [("default", "0x12")]) (Parser.RPath "u8") (PInt 0) id_codec;
      Parser.mkRField "b" VisPrivate (Parser.AList Parser.RNoBits [("default", "0x34")]) (Parser.RPath "u8") (PInt 0) id_codec;
      Parser.mkRField "c" VisPrivate (Parser.AList Parser.RNoBits [("default", "0x56")]) (Parser.RPath "u8") (PInt 0) id_codec;
      Parser.mkRField "_d" VisPrivate (Parser.AList Parser.RNoBits [("default", "0x78")]) (Parser.RPath "u8") (PInt 0) id_codec]) [("a", (ELit 18 None)); ("b", (ELit 52 None)); ("c", (ELit 86 None)); ("_d", (ELit 120 None))])]
  [SLetT "bitfield" (TStat "Bitfield" "new" []);
   SAssert (TEq (TMeth "Bitfield" (TVar "bitfield") "a" []) (TV (RI 18)));
   SAssert (TEq (TMeth "Bitfield" (TVar "bitfield") "b" []) (TV (RI 52)));
   SAssert (TEq (TMeth "Bitfield" (TVar "bitfield") "c" []) (TV (RI 86)));
   SAssert (TEq (TMeth "Bitfield" (TVar "bitfield") "into_bits" []) (TV (RI 2018915346)));
   SLetT "bitfield_without_defaults" (TStat "Bitfield" "new_without_defaults" []);
   SAssert (TEq (TMeth "Bitfield" (TVar "bitfield_without_defaults") "a" []) (TV (RI 0)));
   SAssert (TEq (TMeth "Bitfield" (TVar "bitfield_without_defaults") "b" []) (TV (RI 0)));
   SAssert (TEq (TMeth "Bitfield" (TVar "bitfield_without_defaults") "c" []) (TV (RI 0)));
   SAssert (TEq (TMeth "Bitfield" (TVar "bitfield_without_defaults") "into_bits" []) (TV (RI 2013265920)))]) = true.
Proof. vm_compute. reflexivity. Qed.

(* README.md:337 *)
Example readme_337 : is_passed (run_test
  [(mkUnit "Bitfield" (Parser.mkRDecl true VisPrivate "Bitfield" (Some (Parser.RPath "u32")) []
     [Parser.mkRField "a" VisPrivate (Parser.AList Parser.RNoBits [("default", "0x12")]) (Parser.RPath "u8") (PInt 0) id_codec;
      Parser.mkRField "b" VisPrivate (Parser.AList Parser.RNoBits [("default", "0x34")]) (Parser.RPath "u8") (PInt 0) id_codec;
      Parser.mkRField "c" VisPrivate (Parser.AList Parser.RNoBits [("default", "0x56")]) (Parser.RPath "u8") (PInt 0) id_codec;
      Parser.mkRField "_reserved" VisPrivate (Parser.AList Parser.RNoBits [("default", "0x78")]) (Parser.RPath "u8") (PInt 0) id_codec]) [("a", (ELit 18 None)); ("b", (ELit 52 None)); ("c", (ELit 86 None)); ("_reserved", (ELit 120 None))])]
  [SLetT "builder" (TBuild "Bitfield" "build" [(TBuild "Bitfield" "with_c" [(TBuild "Bitfield" "with_b" [(TBuild "Bitfield" "with_a" [(TBuild "Bitfield" "new" []); (TV (RI 18))]); (TV (RI 52))]); (TV (RI 86))])]);
   SAssert (TEq (TMeth "Bitfield" (TVar "builder") "a" []) (TV (RI 18)));
   SAssert (TEq (TMeth "Bitfield" (TVar "builder") "b" []) (TV (RI 52)));
   SAssert (TEq (TMeth "Bitfield" (TVar "builder") "c" []) (TV (RI 86)));
   SAssert (TEq (TMeth "Bitfield" (TVar "builder") "into_bits" []) (TV (RI 2018915346)))]) = true.
Proof. vm_compute. reflexivity. Qed.

(* README.md:381 *)
Example readme_381 : is_passed (run_test
  [(mkUnit "Bitfield" (Parser.mkRDecl true VisPrivate "Bitfield" (Some (Parser.RPath "u32")) []
     [Parser.mkRField "a" VisPrivate (Parser.AList Parser.RNoBits [("default", "0xFF")]) (Parser.RPath "u8") (PInt 0) id_codec;
      Parser.mkRField "const_var_default" VisPrivate (Parser.AList (Parser.RBits 2 "") [("default", "CONST_VAR")]) (Parser.RPath "u8") (PInt 0) id_codec;
      Parser.mkRField "const_fn_default" VisPrivate (Parser.AList (Parser.RBits 2 "") [("default", "answer_to_life()")]) (Parser.RPath "u8") (PInt 0) id_codec;
      Parser.mkRField "_reserved" VisPrivate (Parser.AList (Parser.RBits 20 "") []) (Parser.RPath "u32") (PInt 0) id_codec]) [("a", (ELit 255 None)); ("const_var_default", (EUser (TI U8) (RI 2))); ("const_fn_default", (EUser (TI U8) (RI 1)))])]
  [SLetT "bitfield" (TStat "Bitfield" "new" []);
   SAssert (TEq (TMeth "Bitfield" (TVar "bitfield") "a" []) (TV (RI 255)));
   SAssert (TEq (TMeth "Bitfield" (TVar "bitfield") "const_var_default" []) (TV (RI 2)));
   SAssert (TEq (TMeth "Bitfield" (TVar "bitfield") "const_fn_default" []) (TV (RI 1)))]) = true.
Proof. vm_compute. reflexivity. Qed.

(* README.md:426 *)
Example readme_426 : is_passed (run_test
  [(mkUnit "Bitfield" (Parser.mkRDecl true VisPrivate "Bitfield" (Some (Parser.RPath "u16")) []
     [Parser.mkRField "a" VisPrivate (Parser.AList Parser.RNoBits [("default", "-127")]) (Parser.RPath "i8") (PInt 0) id_codec;
      Parser.mkRField "b_sign_extended" VisPrivate (Parser.AList (Parser.RBits 4 "") [("default", "9")]) (Parser.RPath "i8") (PInt 0) id_codec;
      Parser.mkRField "_reserved" VisPrivate (Parser.AList (Parser.RBits 4 "") []) (Parser.RPath "u8") (PInt 0) id_codec]) [("a", (EUn UNeg (ELit 127 None))); ("b_sign_extended", (ELit 9 None))])]
  [SLetT "bitfield" (TStat "Bitfield" "new" []);
   SAssert (TEq (TMeth "Bitfield" (TVar "bitfield") "a" []) (TV (RI (-127))));
   SAssert (TEq (TMeth "Bitfield" (TVar "bitfield") "b_sign_extended" []) (TV (RI (-7))))]) = true.
Proof. vm_compute. reflexivity. Qed.

(* README.md:456 *)
Example readme_456 : is_passed (run_test
  [(mkUnit "Packet" (Parser.mkRDecl true VisPrivate "Packet" (Some (Parser.RPath "u32")) []
     [Parser.mkRField "header" VisPrivate Parser.ANone (Parser.RArray (Parser.RPath "u8") (Parser.LenLit 2)) (PInt 0) id_codec;
      Parser.mkRField "payload" VisPrivate (Parser.AList (Parser.RBits 16 "") []) (Parser.RArray (Parser.RPath "u8") (Parser.LenLit 16)) (PInt 0) id_codec]) [])]
  [SLetT "packet" (TStat "Packet" "new" []);
   SDo (TMeth "Packet" (TVar "packet") "set_header" [(TV (RA (repeat 0 2%nat)))]);
   SDo (TMeth "Packet" (TVar "packet") "set_payload" [(TV (RA (repeat 255 16%nat)))]);
   SAssert (TEq (TMeth "Packet" (TVar "packet") "header" []) (TV (RA (repeat 0 2%nat))));
   SAssert (TEq (TMeth "Packet" (TVar "packet") "payload" []) (TV (RA [255; 255; 0; 0; 0; 0; 0; 0; 0; 0; 0; 0; 0; 0; 0; 0])))]) = true.
Proof. vm_compute. reflexivity. Qed.

(* README.md:483 *)
Example readme_483 : is_passed (run_test
  [(mkUnit "Bitfield" (Parser.mkRDecl true VisPrivate "Bitfield" (Some (Parser.RPath "u16")) []
     [Parser.mkRField "a" VisPrivate Parser.ANone (Parser.RPath "u8") (PInt 0) id_codec;
      Parser.mkRField "b" VisPrivate (Parser.AList (Parser.RBits 4 "") []) (Parser.RPath "u8") (PInt 0) id_codec;
      Parser.mkRField "_reserved" VisPrivate (Parser.AList (Parser.RBits 4 "") []) (Parser.RPath "u8") (PInt 0) id_codec]) [])]
  [SLetT "bitfield" (TStat "Bitfield" "new" []);
   SDo (TMeth "Bitfield" (TVar "bitfield") "set_a" [(TV (RI 255))]);
   SDo (TMeth "Bitfield" (TVar "bitfield") "set_b" [(TV (RI 18))]);
   SAssert (TEq (TMeth "Bitfield" (TVar "bitfield") "a" []) (TV (RI 255)));
   SAssert (TEq (TMeth "Bitfield" (TVar "bitfield") "b" []) (TV (RI 2)));
   SLetT "res" (TMeth "Bitfield" (TVar "bitfield") "checked_set_b" [(TV (RI 18))]);
   SAssert (TIsErr (TVar "res"))]) = true.
Proof. vm_compute. reflexivity. Qed.

(* README.md:767 *)
Example readme_767 : is_passed (run_test
  [(mkUnit "Bitfield" (Parser.mkRDecl true VisPrivate "Bitfield" (Some (Parser.RPath "u16")) []
     [Parser.mkRField "a" VisPrivate Parser.ANone (Parser.RPath "u8") (PInt 0) id_codec;
      Parser.mkRField "_reserved" VisPrivate (Parser.AList Parser.RNoBits [("default", "0xFF")]) (Parser.RPath "u8") (PInt 0) id_codec]) [("_reserved", (ELit 255 None))]); (mkUnit "ReservedBitfield" (Parser.mkRDecl true VisPrivate "ReservedBitfield" (Some (Parser.RPath "u16")) []
     [Parser.mkRField "a" VisPrivate Parser.ANone (Parser.RPath "u8") (PInt 0) id_codec;
      Parser.mkRField "__" VisPrivate (Parser.AList (Parser.RBits 4 "") [("default", "0xF")]) (Parser.RPath "u8") (PInt 0) id_codec;
      Parser.mkRField "__" VisPrivate (Parser.AList (Parser.RBits 4 "") [("default", "0xF")]) (Parser.RPath "u8") (PInt 0) id_codec]) [("__", (ELit 15 None)); ("__", (ELit 15 None))])]
  [SLetT "bitfield" (TStat "Bitfield" "new" []);
   SAssert (TEq (TMeth "Bitfield" (TVar "bitfield") "a" []) (TV (RI 0)));
   SAssert (TEq (TMeth "Bitfield" (TVar "bitfield") "into_bits" []) (TV (RI 65280)));
   SLetT "reserved_bitfield" (TStat "ReservedBitfield" "new" []);
   SAssert (TEq (TMeth "ReservedBitfield" (TVar "reserved_bitfield") "a" []) (TV (RI 0)));
   SAssert (TEq (TMeth "ReservedBitfield" (TVar "reserved_bitfield") "into_bits" []) (TV (RI 65280)))]) = true.
Proof. vm_compute. reflexivity. Qed.

(* README.md:822 *)
Example readme_822 : is_passed (run_test
  [(mkUnit "DisplayControl" (Parser.mkRDecl true VisPrivate "DisplayControl" (Some (Parser.RPath "u8")) []
     [Parser.mkRField "render_mode" VisPrivate (Parser.AList (Parser.RBits 4 "") [("default", "RenderMode::Normal")]) (Parser.RPath "RenderMode") (PInt 0) (bitflag_codec (Bitflag.mkREnum VisPrivate "RenderMode" (Some (Parser.RPath "u8")) [] [Bitflag.mkRVariant "Normal" ["base"] (Some "0") Bitflag.FLit 0; Bitflag.mkRVariant "Mirror" [] (Some "1") Bitflag.FLit 1; Bitflag.mkRVariant "Flip" [] (Some "2") Bitflag.FLit 2; Bitflag.mkRVariant "Hidden" [] (Some "3") Bitflag.FLit 3]) U8);
      Parser.mkRField "audio_mode" VisPrivate (Parser.AList (Parser.RBits 4 "") [("default", "AudioMode::Stereo")]) (Parser.RPath "AudioMode") (PInt 0) (bitflag_codec (Bitflag.mkREnum VisPrivate "AudioMode" (Some (Parser.RPath "u8")) [] [Bitflag.mkRVariant "Stereo" ["base"] (Some "0") Bitflag.FLit 0; Bitflag.mkRVariant "Mono" [] (Some "1") Bitflag.FLit 1; Bitflag.mkRVariant "Mute" [] (Some "2") Bitflag.FLit 2; Bitflag.mkRVariant "Surround" [] (Some "3") Bitflag.FLit 3]) U8)]) [("render_mode", (EUser (TUser "render_mode") (RC 0))); ("audio_mode", (EUser (TUser "audio_mode") (RC 0)))])]
  [SLetT "display" (TBuild "DisplayControl" "build" [(TBuild "DisplayControl" "with_audio_mode" [(TBuild "DisplayControl" "with_render_mode" [(TBuild "DisplayControl" "new" []); (TV (RC 1))]); (TV (RC 2))])]);
   SAssert (TEq (TMeth "DisplayControl" (TVar "display") "render_mode" []) (TV (RC 1)));
   SAssert (TEq (TMeth "DisplayControl" (TVar "display") "audio_mode" []) (TV (RC 2)))]) = true.
Proof. vm_compute. reflexivity. Qed.

(* README.md:914 *)
Example readme_914 : is_passed (run_test
  [(mkUnit "Bitfield" (Parser.mkRDecl true VisPrivate "Bitfield" (Some (Parser.RPath "u32")) []
     [Parser.mkRField "a" VisPrivate (Parser.AList Parser.RNoBits [("default", "0x12")]) (Parser.RPath "u8") (PInt 0) id_codec;
      Parser.mkRField "b" VisPrivate (Parser.AList Parser.RNoBits [("default", "0x34")]) (Parser.RPath "u8") (PInt 0) id_codec;
      Parser.mkRField "c" VisPrivate (Parser.AList Parser.RNoBits [("default", "0x56")]) (Parser.RPath "u8") (PInt 0) id_codec;
      Parser.mkRField "d" VisPrivate (Parser.AList Parser.RNoBits [("default", "0x78")]) (Parser.RPath "u8") (PInt 0) id_codec]) [("a", (ELit 18 None)); ("b", (ELit 52 None)); ("c", (ELit 86 None)); ("d", (ELit 120 None))])]
  [SAssert (TEq (TConst "Bitfield" "A_BITS") (TV (RI 8)));
   SAssert (TEq (TConst "Bitfield" "A_OFFSET") (TV (RI 0)));
   SAssert (TEq (TConst "Bitfield" "B_BITS") (TV (RI 8)));
   SAssert (TEq (TConst "Bitfield" "B_OFFSET") (TV (RI 8)));
   SAssert (TEq (TConst "Bitfield" "C_BITS") (TV (RI 8)));
   SAssert (TEq (TConst "Bitfield" "C_OFFSET") (TV (RI 16)));
   SAssert (TEq (TConst "Bitfield" "D_BITS") (TV (RI 8)));
   SAssert (TEq (TConst "Bitfield" "D_OFFSET") (TV (RI 24)))]) = true.
Proof. vm_compute. reflexivity. Qed.

(* README.md:951 *)
Example readme_951 : is_passed (run_test
  [(mkUnit "TelemetryFrameLsb" (Parser.mkRDecl true VisPrivate "TelemetryFrameLsb" (Some (Parser.RPath "u32")) []
     [Parser.mkRField "sensor_id" VisPrivate (Parser.AList Parser.RNoBits [("default", "0x12")]) (Parser.RPath "u8") (PInt 0) id_codec;
      Parser.mkRField "status_code" VisPrivate (Parser.AList Parser.RNoBits [("default", "0x34")]) (Parser.RPath "u8") (PInt 0) id_codec;
      Parser.mkRField "reading" VisPrivate (Parser.AList Parser.RNoBits [("default", "0x56")]) (Parser.RPath "u8") (PInt 0) id_codec;
      Parser.mkRField "checksum" VisPrivate (Parser.AList Parser.RNoBits [("default", "0x78")]) (Parser.RPath "u8") (PInt 0) id_codec]) [("sensor_id", (ELit 18 None)); ("status_code", (ELit 52 None)); ("reading", (ELit 86 None)); ("checksum", (ELit 120 None))]); (mkUnit "TelemetryFrameMsb" (Parser.mkRDecl true VisPrivate "TelemetryFrameMsb" (Some (Parser.RPath "u32")) [("order", "msb")]
     [Parser.mkRField "sensor_id" VisPrivate (Parser.AList Parser.RNoBits [("default", "0x12")]) (Parser.RPath "u8") (PInt 0) id_codec;
      Parser.mkRField "status_code" VisPrivate (Parser.AList Parser.RNoBits [("default", "0x34")]) (Parser.RPath "u8") (PInt 0) id_codec;
      Parser.mkRField "reading" VisPrivate (Parser.AList Parser.RNoBits [("default", "0x56")]) (Parser.RPath "u8") (PInt 0) id_codec;
      Parser.mkRField "checksum" VisPrivate (Parser.AList Parser.RNoBits [("default", "0x78")]) (Parser.RPath "u8") (PInt 0) id_codec]) [("sensor_id", (ELit 18 None)); ("status_code", (ELit 52 None)); ("reading", (ELit 86 None)); ("checksum", (ELit 120 None))])]
  [SLetT "frame_lsb" (TStat "TelemetryFrameLsb" "new" []);
   SAssert (TEq (TMeth "TelemetryFrameLsb" (TVar "frame_lsb") "sensor_id" []) (TV (RI 18)));
   SAssert (TEq (TMeth "TelemetryFrameLsb" (TVar "frame_lsb") "status_code" []) (TV (RI 52)));
   SAssert (TEq (TMeth "TelemetryFrameLsb" (TVar "frame_lsb") "reading" []) (TV (RI 86)));
   SAssert (TEq (TMeth "TelemetryFrameLsb" (TVar "frame_lsb") "checksum" []) (TV (RI 120)));
   SLetT "val" (TMeth "TelemetryFrameLsb" (TVar "frame_lsb") "into_bits" []);
   SAssert (TEq (TVar "val") (TV (RI 2018915346)));
   SAssert (TEq (TConst "TelemetryFrameLsb" "SENSOR_ID_OFFSET") (TV (RI 0)));
   SLetT "frame_msb" (TStat "TelemetryFrameMsb" "new" []);
   SAssert (TEq (TMeth "TelemetryFrameMsb" (TVar "frame_msb") "sensor_id" []) (TV (RI 18)));
   SAssert (TEq (TMeth "TelemetryFrameMsb" (TVar "frame_msb") "status_code" []) (TV (RI 52)));
   SAssert (TEq (TMeth "TelemetryFrameMsb" (TVar "frame_msb") "reading" []) (TV (RI 86)));
   SAssert (TEq (TMeth "TelemetryFrameMsb" (TVar "frame_msb") "checksum" []) (TV (RI 120)));
   SLetT "val" (TMeth "TelemetryFrameMsb" (TVar "frame_msb") "into_bits" []);
   SAssert (TEq (TVar "val") (TV (RI 305419896)));
   SAssert (TEq (TConst "TelemetryFrameMsb" "SENSOR_ID_OFFSET") (TV (RI 24)))]) = true.
Proof. vm_compute. reflexivity. Qed.

(* README.md:1052 *)
Example readme_1052 : is_passed (run_test
  [(mkUnit "Bitfield" (Parser.mkRDecl true VisPrivate "Bitfield" (Some (Parser.RPath "u32")) []
     [Parser.mkRField "a" VisPrivate (Parser.AList Parser.RNoBits [("default", "0x12")]) (Parser.RPath "u8") (PInt 0) id_codec;
      Parser.mkRField "b" VisPrivate (Parser.AList Parser.RNoBits [("default", "0x34")]) (Parser.RPath "u8") (PInt 0) id_codec;
      Parser.mkRField "c" VisPrivate (Parser.AList Parser.RNoBits [("default", "0x56")]) (Parser.RPath "u8") (PInt 0) id_codec;
      Parser.mkRField "_reserved" VisPrivate (Parser.AList Parser.RNoBits [("default", "0x78")]) (Parser.RPath "u8") (PInt 0) id_codec]) [("a", (ELit 18 None)); ("b", (ELit 52 None)); ("c", (ELit 86 None)); ("_reserved", (ELit 120 None))])]
  [SLetT "from_bits" (TStat "Bitfield" "from_bits" [(TV (RI 287454020))]);
   SAssert (TEq (TMeth "Bitfield" (TVar "from_bits") "a" []) (TV (RI 68)));
   SAssert (TEq (TMeth "Bitfield" (TVar "from_bits") "b" []) (TV (RI 51)));
   SAssert (TEq (TMeth "Bitfield" (TVar "from_bits") "c" []) (TV (RI 34)));
   SAssert (TEq (TMeth "Bitfield" (TVar "from_bits") "into_bits" []) (TV (RI 287454020)));
   SLetT "from_bits_with_defaults" (TStat "Bitfield" "from_bits_with_defaults" [(TV (RI 287454020))]);
   SAssert (TEq (TMeth "Bitfield" (TVar "from_bits_with_defaults") "a" []) (TV (RI 18)));
   SAssert (TEq (TMeth "Bitfield" (TVar "from_bits_with_defaults") "b" []) (TV (RI 52)));
   SAssert (TEq (TMeth "Bitfield" (TVar "from_bits_with_defaults") "c" []) (TV (RI 86)));
   SAssert (TEq (TMeth "Bitfield" (TVar "from_bits_with_defaults") "into_bits" []) (TV (RI 2018915346)));
   SLetT "from_le_bits" (TStat "Bitfield" "from_le_bits" [(TV (RI 287454020))]);
   SAssert (TEq (TMeth "Bitfield" (TVar "from_le_bits") "into_bits" []) (TV (RI 1144201745)));
   SLetT "from_le_bits_with_defaults" (TStat "Bitfield" "from_le_bits_with_defaults" [(TV (RI 287454020))]);
   SAssert (TEq (TMeth "Bitfield" (TVar "from_le_bits_with_defaults") "into_bits" []) (TV (RI 2018915346)));
   SLetT "from_be_bits" (TStat "Bitfield" "from_be_bits" [(TV (RI 287454020))]);
   SAssert (TEq (TMeth "Bitfield" (TVar "from_be_bits") "into_bits" []) (TV (RI 287454020)));
   SLetT "from_be_bits_with_defaults" (TStat "Bitfield" "from_be_bits_with_defaults" [(TV (RI 287454020))]);
   SAssert (TEq (TMeth "Bitfield" (TVar "from_be_bits_with_defaults") "into_bits" []) (TV (RI 2018915346)))]) = true.
Proof. vm_compute. reflexivity. Qed.

(* README.md:1135 *)
Example readme_1135 : is_passed (run_test
  [(mkUnit "Packet" (Parser.mkRDecl true VisPrivate "Packet" (Some (Parser.RArray (Parser.RPath "u8") (Parser.LenLit 4))) []
     [Parser.mkRField "a" VisPrivate (Parser.AList Parser.RNoBits [("default", "0x12")]) (Parser.RPath "u8") (PInt 0) id_codec;
      Parser.mkRField "b" VisPrivate (Parser.AList Parser.RNoBits [("default", "0x34")]) (Parser.RPath "u8") (PInt 0) id_codec;
      Parser.mkRField "c" VisPrivate (Parser.AList Parser.RNoBits [("default", "0x56")]) (Parser.RPath "u8") (PInt 0) id_codec;
      Parser.mkRField "_reserved" VisPrivate (Parser.AList Parser.RNoBits [("default", "0x78")]) (Parser.RPath "u8") (PInt 0) id_codec]) [("a", (ELit 18 None)); ("b", (ELit 52 None)); ("c", (ELit 86 None)); ("_reserved", (ELit 120 None))])]
  [SLetT "p" (TStat "Packet" "from_bytes" [(TV (RA [17; 34; 51; 68]))]);
   SAssert (TEq (TMeth "Packet" (TVar "p") "a" []) (TV (RI 68)));
   SAssert (TEq (TMeth "Packet" (TVar "p") "b" []) (TV (RI 51)));
   SAssert (TEq (TMeth "Packet" (TVar "p") "c" []) (TV (RI 34)));
   SAssert (TEq (TMeth "Packet" (TVar "p") "into_bytes" []) (TV (RA [17; 34; 51; 68])));
   SLetT "p_defaults" (TStat "Packet" "from_bytes_with_defaults" [(TV (RA [17; 34; 51; 68]))]);
   SAssert (TEq (TMeth "Packet" (TVar "p_defaults") "a" []) (TV (RI 18)));
   SAssert (TEq (TMeth "Packet" (TVar "p_defaults") "b" []) (TV (RI 52)));
   SAssert (TEq (TMeth "Packet" (TVar "p_defaults") "c" []) (TV (RI 86)));
   SLetT "p_le" (TStat "Packet" "from_le_bytes" [(TV (RA [68; 51; 34; 17]))]);
   SAssert (TEq (TMeth "Packet" (TVar "p_le") "a" []) (TV (RI 68)));
   SAssert (TEq (TMeth "Packet" (TVar "p_le") "b" []) (TV (RI 51)));
   SAssert (TEq (TMeth "Packet" (TVar "p_le") "c" []) (TV (RI 34)));
   SLetT "p_be" (TStat "Packet" "from_be_bytes" [(TV (RA [17; 34; 51; 68]))]);
   SAssert (TEq (TMeth "Packet" (TVar "p_be") "a" []) (TV (RI 68)));
   SLetT "p_slice" (TStat "Packet" "from_slice" [(TV (RA [17; 34; 51; 68]))]);
   SAssert (TEq (TMeth "Packet" (TVar "p_slice") "a" []) (TV (RI 68)));
   SAssert (TIsErr (TStat "Packet" "checked_from_slice" [(TV (RA [17; 34]))]));
   SAssert (TIsOk (TStat "Packet" "checked_from_slice" [(TV (RA [17; 34; 51; 68]))]))]) = true.
Proof. vm_compute. reflexivity. Qed.

(* README.md:1197 *)
Example readme_1197 : is_passed (run_test
  [(mkUnit "Bitfield" (Parser.mkRDecl true VisPrivate "Bitfield" (Some (Parser.RPath "u32")) []
     [Parser.mkRField "a" VisPrivate (Parser.AList Parser.RNoBits [("default", "0x12")]) (Parser.RPath "u8") (PInt 0) id_codec;
      Parser.mkRField "b" VisPrivate (Parser.AList Parser.RNoBits [("default", "0x34")]) (Parser.RPath "u8") (PInt 0) id_codec;
      Parser.mkRField "c" VisPrivate (Parser.AList Parser.RNoBits [("default", "0x56")]) (Parser.RPath "u8") (PInt 0) id_codec;
      Parser.mkRField "d" VisPrivate (Parser.AList Parser.RNoBits [("default", "0x78")]) (Parser.RPath "u8") (PInt 0) id_codec]) [("a", (ELit 18 None)); ("b", (ELit 52 None)); ("c", (ELit 86 None)); ("d", (ELit 120 None))])]
  [SLetT "bitfield" (TStat "Bitfield" "new" []);
   SAssert (TEq (TMeth "Bitfield" (TVar "bitfield") "into_bits" []) (TV (RI 2018915346)));
   SAssert (TEq (TMeth "Bitfield" (TVar "bitfield") "into_le_bits" []) (TV (RI 305419896)));
   SAssert (TEq (TMeth "Bitfield" (TVar "bitfield") "into_be_bits" []) (TV (RI 2018915346)))]) = true.
Proof. vm_compute. reflexivity. Qed.

(* README.md:1240 *)
Example readme_1240 : is_passed (run_test
  [(mkUnit "Packet" (Parser.mkRDecl true VisPrivate "Packet" (Some (Parser.RArray (Parser.RPath "u8") (Parser.LenLit 4))) []
     [Parser.mkRField "a" VisPrivate (Parser.AList Parser.RNoBits [("default", "0x12")]) (Parser.RPath "u8") (PInt 0) id_codec;
      Parser.mkRField "b" VisPrivate (Parser.AList Parser.RNoBits [("default", "0x34")]) (Parser.RPath "u8") (PInt 0) id_codec;
      Parser.mkRField "c" VisPrivate (Parser.AList Parser.RNoBits [("default", "0x56")]) (Parser.RPath "u8") (PInt 0) id_codec;
      Parser.mkRField "d" VisPrivate (Parser.AList Parser.RNoBits [("default", "0x78")]) (Parser.RPath "u8") (PInt 0) id_codec]) [("a", (ELit 18 None)); ("b", (ELit 52 None)); ("c", (ELit 86 None)); ("d", (ELit 120 None))])]
  [SLetT "packet" (TStat "Packet" "new" []);
   SAssert (TEq (TMeth "Packet" (TVar "packet") "into_bytes" []) (TV (RA [120; 86; 52; 18])));
   SAssert (TEq (TMeth "Packet" (TVar "packet") "into_le_bytes" []) (TV (RA [18; 52; 86; 120])));
   SAssert (TEq (TMeth "Packet" (TVar "packet") "into_be_bytes" []) (TV (RA [120; 86; 52; 18])));
   SLetT "buf" (TV (RA (repeat 0 4%nat)));
   SDo (TSlice "Packet" (TVar "packet") "into_slice" "buf");
   SAssert (TEq (TVar "buf") (TV (RA [120; 86; 52; 18])));
   SLetT "small" (TV (RA (repeat 0 2%nat)));
   SAssert (TIsErr (TSlice "Packet" (TVar "packet") "checked_into_slice" "small"));
   SLetT "le_buf" (TV (RA (repeat 0 4%nat)));
   SDo (TSlice "Packet" (TVar "packet") "into_le_slice" "le_buf");
   SAssert (TEq (TVar "le_buf") (TV (RA [18; 52; 86; 120])));
   SLetT "be_buf" (TV (RA (repeat 0 4%nat)));
   SDo (TSlice "Packet" (TVar "packet") "into_be_slice" "be_buf");
   SAssert (TEq (TVar "be_buf") (TV (RA [120; 86; 52; 18])))]) = true.
Proof. vm_compute. reflexivity. Qed.

(* README.md:1298 *)
Example readme_1298 : is_passed (run_test
  [(mkUnit "Header" (Parser.mkRDecl true VisPrivate "Header" (Some (Parser.RPath "u32")) [("from_endian", "little"); ("into_endian", "big")]
     [Parser.mkRField "version" VisPrivate Parser.ANone (Parser.RPath "u8") (PInt 0) id_codec;
      Parser.mkRField "flags" VisPrivate Parser.ANone (Parser.RPath "u8") (PInt 0) id_codec;
      Parser.mkRField "size" VisPrivate Parser.ANone (Parser.RPath "u8") (PInt 0) id_codec;
      Parser.mkRField "tag" VisPrivate Parser.ANone (Parser.RPath "u8") (PInt 0) id_codec]) [])]
  [SLetT "h" (TStat "Header" "from_bits" [(TV (RI 287454020))]);
   SAssert (TEq (TMeth "Header" (TVar "h") "version" []) (TV (RI 17)));
   SAssert (TEq (TMeth "Header" (TVar "h") "flags" []) (TV (RI 34)));
   SAssert (TEq (TMeth "Header" (TVar "h") "size" []) (TV (RI 51)));
   SAssert (TEq (TMeth "Header" (TVar "h") "tag" []) (TV (RI 68)));
   SAssert (TEq (TMeth "Header" (TVar "h") "into_bits" []) (TV (RI 1144201745)));
   SLetT "x" (TStat "Header" "from_le_bits" [(TV (RI 2864434397))]);
   SAssert (TEq (TMeth "Header" (TVar "x") "version" []) (TV (RI 170)));
   SAssert (TEq (TMeth "Header" (TVar "x") "flags" []) (TV (RI 187)));
   SAssert (TEq (TMeth "Header" (TVar "x") "size" []) (TV (RI 204)));
   SAssert (TEq (TMeth "Header" (TVar "x") "tag" []) (TV (RI 221)));
   SAssert (TEq (TMeth "Header" (TVar "x") "into_be_bits" []) (TV (RI 3721182122)));
   SAssert (TEq (TMeth "Header" (TVar "x") "into_le_bits" []) (TV (RI 2864434397)))]) = true.
Proof. vm_compute. reflexivity. Qed.

(* README.md:1335 *)
Example readme_1335 : is_passed (run_test
  [(mkUnit "Header" (Parser.mkRDecl true VisPrivate "Header" (Some (Parser.RArray (Parser.RPath "u8") (Parser.LenLit 4))) [("from_endian", "little"); ("into_endian", "big")]
     [Parser.mkRField "version" VisPrivate Parser.ANone (Parser.RPath "u8") (PInt 0) id_codec;
      Parser.mkRField "flags" VisPrivate Parser.ANone (Parser.RPath "u8") (PInt 0) id_codec;
      Parser.mkRField "size" VisPrivate Parser.ANone (Parser.RPath "u8") (PInt 0) id_codec;
      Parser.mkRField "tag" VisPrivate Parser.ANone (Parser.RPath "u8") (PInt 0) id_codec]) [])]
  [SLetT "h" (TStat "Header" "from_bytes" [(TV (RA [17; 34; 51; 68]))]);
   SAssert (TEq (TMeth "Header" (TVar "h") "version" []) (TV (RI 17)));
   SAssert (TEq (TMeth "Header" (TVar "h") "flags" []) (TV (RI 34)));
   SAssert (TEq (TMeth "Header" (TVar "h") "size" []) (TV (RI 51)));
   SAssert (TEq (TMeth "Header" (TVar "h") "tag" []) (TV (RI 68)));
   SAssert (TEq (TMeth "Header" (TVar "h") "into_bytes" []) (TV (RA [68; 51; 34; 17])));
   SLetT "x" (TStat "Header" "from_le_bytes" [(TV (RA [221; 204; 187; 170]))]);
   SAssert (TEq (TMeth "Header" (TVar "x") "version" []) (TV (RI 221)));
   SAssert (TEq (TMeth "Header" (TVar "x") "flags" []) (TV (RI 204)));
   SAssert (TEq (TMeth "Header" (TVar "x") "size" []) (TV (RI 187)));
   SAssert (TEq (TMeth "Header" (TVar "x") "tag" []) (TV (RI 170)));
   SAssert (TEq (TMeth "Header" (TVar "x") "into_be_bytes" []) (TV (RA [170; 187; 204; 221])));
   SAssert (TEq (TMeth "Header" (TVar "x") "into_le_bytes" []) (TV (RA [221; 204; 187; 170])))]) = true.
Proof. vm_compute. reflexivity. Qed.

(* README.md:1395 *)
Example readme_1395 : is_passed (run_test
  [(mkUnit "Register" (Parser.mkRDecl true VisPrivate "Register" (Some (Parser.RPath "u32")) []
     [Parser.mkRField "low" VisPrivate (Parser.AList Parser.RNoBits [("default", "0x12")]) (Parser.RPath "u8") (PInt 0) id_codec;
      Parser.mkRField "data" VisPrivate Parser.ANone (Parser.RPath "u8") (PInt 0) id_codec;
      Parser.mkRField "_reserved" VisPrivate (Parser.AList Parser.RNoBits [("default", "0x78")]) (Parser.RPath "u8") (PInt 0) id_codec;
      Parser.mkRField "high" VisPrivate Parser.ANone (Parser.RPath "u8") (PInt 0) id_codec]) [("low", (ELit 18 None)); ("_reserved", (ELit 120 None))])]
  [SLetT "reg" (TStat "Register" "new" []);
   SAssert (TEq (TMeth "Register" (TVar "reg") "into_bits" []) (TV (RI 7864338)));
   SDo (TMeth "Register" (TVar "reg") "write_bits" [(TV (RI 2864434397))]);
   SAssert (TEq (TMeth "Register" (TVar "reg") "low" []) (TV (RI 221)));
   SAssert (TEq (TMeth "Register" (TVar "reg") "data" []) (TV (RI 204)));
   SAssert (TEq (TMeth "Register" (TVar "reg") "high" []) (TV (RI 170)));
   SAssert (TEq (TMeth "Register" (TVar "reg") "into_bits" []) (TV (RI 2860043485)));
   SDo (TMeth "Register" (TVar "reg") "write_bits_with_defaults" [(TV (RI 2864434397))]);
   SAssert (TEq (TMeth "Register" (TVar "reg") "low" []) (TV (RI 18)));
   SAssert (TEq (TMeth "Register" (TVar "reg") "data" []) (TV (RI 204)));
   SAssert (TEq (TMeth "Register" (TVar "reg") "into_bits" []) (TV (RI 2860043282)));
   SDo (TMeth "Register" (TVar "reg") "write_le_bits" [(TV (RI 287454020))]);
   SAssert (TEq (TMeth "Register" (TVar "reg") "low" []) (TV (RI 17)));
   SAssert (TEq (TMeth "Register" (TVar "reg") "data" []) (TV (RI 34)));
   SAssert (TEq (TMeth "Register" (TVar "reg") "high" []) (TV (RI 68)));
   SDo (TMeth "Register" (TVar "reg") "write_defaults" []);
   SAssert (TEq (TMeth "Register" (TVar "reg") "low" []) (TV (RI 18)))]) = true.
Proof. vm_compute. reflexivity. Qed.

(* README.md:1451 *)
Example readme_1451 : is_passed (run_test
  [(mkUnit "Register" (Parser.mkRDecl true VisPrivate "Register" (Some (Parser.RPath "u32")) []
     [Parser.mkRField "low" VisPrivate (Parser.AList Parser.RNoBits [("default", "0x12")]) (Parser.RPath "u8") (PInt 0) id_codec;
      Parser.mkRField "status" VisPrivate (Parser.AList Parser.RNoBits [("default", "0x34"); ("access", "ro")]) (Parser.RPath "u8") (PInt 0) id_codec;
      Parser.mkRField "data" VisPrivate Parser.ANone (Parser.RPath "u8") (PInt 0) id_codec;
      Parser.mkRField "_reserved" VisPrivate (Parser.AList Parser.RNoBits [("default", "0x78")]) (Parser.RPath "u8") (PInt 0) id_codec]) [("low", (ELit 18 None)); ("status", (ELit 52 None)); ("_reserved", (ELit 120 None))])]
  [SLetT "register" (TStat "Register" "new" []);
   SAssert (TEq (TMeth "Register" (TVar "register") "into_bits" []) (TV (RI 2013279250)));
   SDo (TMeth "Register" (TVar "register") "write_bits" [(TV (RI 287454020))]);
   SAssert (TEq (TMeth "Register" (TVar "register") "low" []) (TV (RI 68)));
   SAssert (TEq (TMeth "Register" (TVar "register") "data" []) (TV (RI 34)));
   SAssert (TEq (TMeth "Register" (TVar "register") "status" []) (TV (RI 52)));
   SAssert (TEq (TMeth "Register" (TVar "register") "into_bits" []) (TV (RI 2015507524)));
   SDo (TMeth "Register" (TVar "register") "write_bits_with_defaults" [(TV (RI 2864434397))]);
   SAssert (TEq (TMeth "Register" (TVar "register") "low" []) (TV (RI 18)));
   SAssert (TEq (TMeth "Register" (TVar "register") "status" []) (TV (RI 52)));
   SAssert (TEq (TMeth "Register" (TVar "register") "data" []) (TV (RI 187)));
   SAssert (TEq (TMeth "Register" (TVar "register") "into_bits" []) (TV (RI 2025534482)))]) = true.
Proof. vm_compute. reflexivity. Qed.

(* README.md:1492 *)
Example readme_1492 : is_passed (run_test
  [(mkUnit "Header" (Parser.mkRDecl true VisPrivate "Header" (Some (Parser.RPath "u32")) [("write_endian", "little")]
     [Parser.mkRField "version" VisPrivate Parser.ANone (Parser.RPath "u8") (PInt 0) id_codec;
      Parser.mkRField "flags" VisPrivate Parser.ANone (Parser.RPath "u8") (PInt 0) id_codec;
      Parser.mkRField "size" VisPrivate Parser.ANone (Parser.RPath "u8") (PInt 0) id_codec;
      Parser.mkRField "tag" VisPrivate Parser.ANone (Parser.RPath "u8") (PInt 0) id_codec]) [])]
  [SLetT "header" (TStat "Header" "new" []);
   SDo (TMeth "Header" (TVar "header") "write_bits" [(TV (RI 287454020))]);
   SAssert (TEq (TMeth "Header" (TVar "header") "version" []) (TV (RI 17)));
   SAssert (TEq (TMeth "Header" (TVar "header") "flags" []) (TV (RI 34)));
   SAssert (TEq (TMeth "Header" (TVar "header") "size" []) (TV (RI 51)));
   SAssert (TEq (TMeth "Header" (TVar "header") "tag" []) (TV (RI 68)));
   SDo (TMeth "Header" (TVar "header") "write_be_bits" [(TV (RI 2864434397))]);
   SAssert (TEq (TMeth "Header" (TVar "header") "version" []) (TV (RI 221)));
   SAssert (TEq (TMeth "Header" (TVar "header") "flags" []) (TV (RI 204)));
   SAssert (TEq (TMeth "Header" (TVar "header") "size" []) (TV (RI 187)));
   SAssert (TEq (TMeth "Header" (TVar "header") "tag" []) (TV (RI 170)))]) = true.
Proof. vm_compute. reflexivity. Qed.

(* README.md:1595 *)
Example readme_1595 : is_passed (run_test
  [(mkUnit "Flags" (Parser.mkRDecl true VisPrivate "Flags" (Some (Parser.RPath "u16")) [("bit_ops", "true")]
     [Parser.mkRField "mode" VisPrivate (Parser.AList (Parser.RBits 4 "") []) (Parser.RPath "u8") (PInt 0) id_codec;
      Parser.mkRField "status" VisPrivate (Parser.AList (Parser.RBits 4 "") [("default", "0xA")]) (Parser.RPath "u8") (PInt 0) id_codec;
      Parser.mkRField "control" VisPrivate (Parser.AList (Parser.RBits 4 "") [("access", "ro")]) (Parser.RPath "u8") (PInt 0) id_codec;
      Parser.mkRField "extra" VisPrivate (Parser.AList (Parser.RBits 4 "") []) (Parser.RPath "u8") (PInt 0) id_codec]) [("status", (ELit 10 None))])]
  [SLetT "flags" (TStat "Flags" "new" []);
   SDo (TMeth "Flags" (TVar "flags") "set_bits_range" [(TConst "Flags" "MODE_OFFSET"); (TConst "Flags" "MODE_BITS"); (TV (RI 5))]);
   SAssert (TEq (TMeth "Flags" (TVar "flags") "mode" []) (TV (RI 5)));
   SAssert (TEq (TMeth "Flags" (TVar "flags") "get_bits_range" [(TConst "Flags" "MODE_OFFSET"); (TConst "Flags" "MODE_BITS")]) (TV (RI 5)));
   SAssert (TEq (TMeth "Flags" (TVar "flags") "get_bits_range" [(TConst "Flags" "STATUS_OFFSET"); (TConst "Flags" "STATUS_BITS")]) (TV (RI 10)));
   SDo (TMeth "Flags" (TVar "flags") "set_bits_range" [(TConst "Flags" "CONTROL_OFFSET"); (TV (RI 8)); (TV (RI 255))]);
   SAssert (TEq (TMeth "Flags" (TVar "flags") "extra" []) (TV (RI 15)));
   SAssert (TEq (TMeth "Flags" (TVar "flags") "control" []) (TV (RI 0)));
   SAssert (TIsErr (TMeth "Flags" (TVar "flags") "checked_set_bits_range" [(TConst "Flags" "CONTROL_OFFSET"); (TV (RI 8)); (TV (RI 255))]));
   SAssert (TIsErr (TMeth "Flags" (TVar "flags") "checked_get_bits_range" [(TV (RI 12)); (TV (RI 8))]))]) = true.
Proof. vm_compute. reflexivity. Qed.

(* README.md:1646 *)
Example readme_1646 : is_passed (run_test
  [(mkUnit "PacketWord" (Parser.mkRDecl true VisPrivate "PacketWord" (Some (Parser.RPath "u16")) [("bit_ops", "true")]
     [Parser.mkRField "low" VisPrivate Parser.ANone (Parser.RPath "u8") (PInt 0) id_codec;
      Parser.mkRField "counter" VisPrivate (Parser.AList (Parser.RBits 4 "") []) (Parser.RPath "u8") (PInt 0) id_codec;
      Parser.mkRField "status" VisPrivate (Parser.AList (Parser.RBits 4 "") [("default", "0xF"); ("access", "ro")]) (Parser.RPath "u8") (PInt 0) id_codec]) [("status", (ELit 15 None))])]
  [SLetT "packet" (TStat "PacketWord" "new" []);
   SDo (TMeth "PacketWord" (TVar "packet") "set_bits_range" [(TConst "PacketWord" "LOW_OFFSET"); (TConst "PacketWord" "LOW_BITS"); (TV (RI 171))]);
   SDo (TMeth "PacketWord" (TVar "packet") "set_bits_range" [(TConst "PacketWord" "COUNTER_OFFSET"); (TConst "PacketWord" "COUNTER_BITS"); (TV (RI 5))]);
   SAssert (TEq (TMeth "PacketWord" (TVar "packet") "low" []) (TV (RI 171)));
   SAssert (TEq (TMeth "PacketWord" (TVar "packet") "counter" []) (TV (RI 5)));
   SAssert (TEq (TMeth "PacketWord" (TVar "packet") "get_bits_range" [(TConst "PacketWord" "LOW_OFFSET"); (TConst "PacketWord" "LOW_BITS")]) (TV (RI 171)));
   SAssert (TEq (TMeth "PacketWord" (TVar "packet") "into_bits" []) (TV (RI 62891)));
   SDo (TMeth "PacketWord" (TVar "packet") "set_bits_range" [(TConst "PacketWord" "COUNTER_OFFSET"); (TV (RI 8)); (TV (RI 0))]);
   SAssert (TEq (TMeth "PacketWord" (TVar "packet") "counter" []) (TV (RI 0)));
   SAssert (TEq (TMeth "PacketWord" (TVar "packet") "status" []) (TV (RI 15)));
   SAssert (TIsErr (TMeth "PacketWord" (TVar "packet") "checked_set_bits_range" [(TConst "PacketWord" "COUNTER_OFFSET"); (TV (RI 8)); (TV (RI 0))]))]) = true.
Proof. vm_compute. reflexivity. Qed.

(* README.md:1684 *)
Example readme_1684 : is_passed (run_test
  [(mkUnit "PacketBytes" (Parser.mkRDecl true VisPrivate "PacketBytes" (Some (Parser.RArray (Parser.RPath "u8") (Parser.LenLit 2))) [("bit_ops", "true")]
     [Parser.mkRField "low" VisPrivate Parser.ANone (Parser.RPath "u8") (PInt 0) id_codec;
      Parser.mkRField "high" VisPrivate Parser.ANone (Parser.RPath "u8") (PInt 0) id_codec]) [])]
  [SLetT "packet" (TStat "PacketBytes" "new" []);
   SDo (TMeth "PacketBytes" (TVar "packet") "set_bytes_range" [(TConst "PacketBytes" "LOW_OFFSET"); (TV (RI 12)); (TV (RA [188; 10]))]);
   SAssert (TEq (TMeth "PacketBytes" (TVar "packet") "low" []) (TV (RI 188)));
   SAssert (TEq (TMeth "PacketBytes" (TVar "packet") "high" []) (TV (RI 10)));
   SAssert (TEq (TMeth "PacketBytes" (TVar "packet") "get_bytes_range" [(TConst "PacketBytes" "LOW_OFFSET"); (TV (RI 12))]) (TV (RA [188; 10])));
   SAssert (TEq (TMeth "PacketBytes" (TVar "packet") "into_le_bytes" []) (TV (RA [188; 10])))]) = true.
Proof. vm_compute. reflexivity. Qed.

(* README.md:1718 *)
Example readme_1718 : is_passed (run_test
  [(mkUnit "Flags" (Parser.mkRDecl true VisPrivate "Flags" (Some (Parser.RPath "u32")) []
     [Parser.mkRField "enabled" VisPrivate (Parser.AList Parser.RNoBits [("default", "0x12")]) (Parser.RPath "u8") (PInt 0) id_codec;
      Parser.mkRField "count" VisPrivate Parser.ANone (Parser.RPath "u8") (PInt 0) id_codec;
      Parser.mkRField "priority" VisPrivate (Parser.AList Parser.RNoBits [("default", "0x56")]) (Parser.RPath "u8") (PInt 0) id_codec;
      Parser.mkRField "_reserved" VisPrivate (Parser.AList Parser.RNoBits [("default", "0x78")]) (Parser.RPath "u8") (PInt 0) id_codec]) [("enabled", (ELit 18 None)); ("priority", (ELit 86 None)); ("_reserved", (ELit 120 None))])]
  [SLetT "flags" (TBuild "Flags" "build" [(TBuild "Flags" "with_priority" [(TBuild "Flags" "with_count" [(TBuild "Flags" "with_enabled" [(TBuild "Flags" "new" []); (TV (RI 255))]); (TV (RI 52))]); (TV (RI 171))])]);
   SAssert (TEq (TMeth "Flags" (TVar "flags") "into_bits" []) (TV (RI 2024486143)));
   SDo (TMeth "Flags" (TVar "flags") "clear_count" []);
   SAssert (TEq (TMeth "Flags" (TVar "flags") "count" []) (TV (RI 0)));
   SDo (TMeth "Flags" (TVar "flags") "clear_enabled_to_default" []);
   SAssert (TEq (TMeth "Flags" (TVar "flags") "enabled" []) (TV (RI 18)));
   SDo (TMeth "Flags" (TVar "flags") "clear_bits" []);
   SAssert (TEq (TMeth "Flags" (TVar "flags") "enabled" []) (TV (RI 0)));
   SAssert (TEq (TMeth "Flags" (TVar "flags") "count" []) (TV (RI 0)));
   SAssert (TEq (TMeth "Flags" (TVar "flags") "priority" []) (TV (RI 0)));
   SAssert (TEq (TMeth "Flags" (TVar "flags") "into_bits" []) (TV (RI 2013265920)));
   SDo (TMeth "Flags" (TVar "flags") "set_count" [(TV (RI 153))]);
   SDo (TMeth "Flags" (TVar "flags") "clear_bits_with_defaults" []);
   SAssert (TEq (TMeth "Flags" (TVar "flags") "enabled" []) (TV (RI 18)));
   SAssert (TEq (TMeth "Flags" (TVar "flags") "count" []) (TV (RI 0)));
   SAssert (TEq (TMeth "Flags" (TVar "flags") "priority" []) (TV (RI 86)));
   SAssert (TEq (TMeth "Flags" (TVar "flags") "into_bits" []) (TV (RI 2018902034)))]) = true.
Proof. vm_compute. reflexivity. Qed.

(* README.md:1777 *)
Example readme_1777 : is_passed (run_test
  [(mkUnit "Flags" (Parser.mkRDecl true VisPrivate "Flags" (Some (Parser.RArray (Parser.RPath "u8") (Parser.LenLit 4))) []
     [Parser.mkRField "enabled" VisPrivate (Parser.AList Parser.RNoBits [("default", "0x12")]) (Parser.RPath "u8") (PInt 0) id_codec;
      Parser.mkRField "count" VisPrivate Parser.ANone (Parser.RPath "u8") (PInt 0) id_codec;
      Parser.mkRField "status" VisPrivate (Parser.AList Parser.RNoBits [("default", "0x56"); ("access", "ro")]) (Parser.RPath "u8") (PInt 0) id_codec;
      Parser.mkRField "_reserved" VisPrivate (Parser.AList Parser.RNoBits [("default", "0x78")]) (Parser.RPath "u8") (PInt 0) id_codec]) [("enabled", (ELit 18 None)); ("status", (ELit 86 None)); ("_reserved", (ELit 120 None))])]
  [SLetT "flags" (TBuild "Flags" "build" [(TBuild "Flags" "with_count" [(TBuild "Flags" "new" []); (TV (RI 52))])]);
   SAssert (TEq (TMeth "Flags" (TVar "flags") "into_bytes" []) (TV (RA [120; 86; 52; 18])));
   SDo (TMeth "Flags" (TVar "flags") "clear_enabled" []);
   SAssert (TEq (TMeth "Flags" (TVar "flags") "enabled" []) (TV (RI 0)));
   SDo (TMeth "Flags" (TVar "flags") "clear_enabled_to_default" []);
   SAssert (TEq (TMeth "Flags" (TVar "flags") "enabled" []) (TV (RI 18)));
   SDo (TMeth "Flags" (TVar "flags") "clear_bytes" []);
   SAssert (TEq (TMeth "Flags" (TVar "flags") "enabled" []) (TV (RI 0)));
   SAssert (TEq (TMeth "Flags" (TVar "flags") "count" []) (TV (RI 0)));
   SAssert (TEq (TMeth "Flags" (TVar "flags") "status" []) (TV (RI 0)));
   SAssert (TEq (TMeth "Flags" (TVar "flags") "into_bytes" []) (TV (RA [120; 0; 0; 0])));
   SDo (TMeth "Flags" (TVar "flags") "clear_bytes_with_defaults" []);
   SAssert (TEq (TMeth "Flags" (TVar "flags") "enabled" []) (TV (RI 18)));
   SAssert (TEq (TMeth "Flags" (TVar "flags") "count" []) (TV (RI 0)));
   SAssert (TEq (TMeth "Flags" (TVar "flags") "status" []) (TV (RI 86)));
   SAssert (TEq (TMeth "Flags" (TVar "flags") "into_bytes" []) (TV (RA [120; 86; 0; 18])))]) = true.
Proof. vm_compute. reflexivity. Qed.

(* README.md:1832 *)
Example readme_1832 : is_passed (run_test
  [(mkUnit "Control" (Parser.mkRDecl true VisPrivate "Control" (Some (Parser.RPath "u16")) [("bit_ops", "true")]
     [Parser.mkRField "mode" VisPrivate (Parser.AList (Parser.RBits 4 "") [("default", "0b0101")]) (Parser.RPath "u8") (PInt 0) id_codec;
      Parser.mkRField "flags" VisPrivate (Parser.AList (Parser.RBits 4 "") [("default", "0b1010")]) (Parser.RPath "u8") (PInt 0) id_codec;
      Parser.mkRField "checksum" VisPrivate (Parser.AList (Parser.RBits 8 "") [("default", "0xA5"); ("access", "ro")]) (Parser.RPath "u8") (PInt 0) id_codec]) [("mode", (ELit 5 None)); ("flags", (ELit 10 None)); ("checksum", (ELit 165 None))])]
  [SLetT "control" (TStat "Control" "new" []);
   SAssert (TEq (TMeth "Control" (TVar "control") "mode_inverted" []) (TV (RI 10)));
   SAssert (TEq (TMeth "Control" (TVar "control") "flags_inverted" []) (TV (RI 5)));
   SAssert (TEq (TMeth "Control" (TVar "control") "mode" []) (TV (RI 5)));
   SDo (TMeth "Control" (TVar "control") "invert_mode" []);
   SAssert (TEq (TMeth "Control" (TVar "control") "mode" []) (TV (RI 10)));
   SDo (TMeth "Control" (TVar "control") "invert_bits" []);
   SAssert (TEq (TMeth "Control" (TVar "control") "mode" []) (TV (RI 5)));
   SAssert (TEq (TMeth "Control" (TVar "control") "flags" []) (TV (RI 5)));
   SAssert (TEq (TMeth "Control" (TVar "control") "checksum" []) (TV (RI 165)))]) = true.
Proof. vm_compute. reflexivity. Qed.

(* README.md:1878 *)
Example readme_1878 : is_passed (run_test
  [(mkUnit "Mask" (Parser.mkRDecl true VisPrivate "Mask" (Some (Parser.RArray (Parser.RPath "u8") (Parser.LenLit 2))) [("bit_ops", "true")]
     [Parser.mkRField "pattern" VisPrivate (Parser.AList (Parser.RBits 5 "") [("default", "0b0_1100")]) (Parser.RPath "u8") (PInt 0) id_codec;
      Parser.mkRField "enabled" VisPrivate (Parser.AList (Parser.RBits 1 "") [("default", "true")]) (Parser.RPath "bool") (PInt 0) id_codec;
      Parser.mkRField "flags" VisPrivate (Parser.AList (Parser.RBits 2 "") []) (Parser.RPath "u8") (PInt 0) id_codec;
      Parser.mkRField "checksum" VisPrivate (Parser.AList (Parser.RBits 8 "") [("default", "0xA5"); ("access", "ro")]) (Parser.RPath "u8") (PInt 0) id_codec]) [("pattern", (ELit 12 None)); ("enabled", (EBool true)); ("checksum", (ELit 165 None))])]
  [SLetT "mask" (TStat "Mask" "new" []);
   SAssert (TEq (TMeth "Mask" (TVar "mask") "pattern" []) (TV (RI 12)));
   SAssert (TEq (TMeth "Mask" (TVar "mask") "pattern_inverted" []) (TV (RI 19)));
   SAssert (TNot (TMeth "Mask" (TVar "mask") "enabled_inverted" []));
   SDo (TMeth "Mask" (TVar "mask") "invert_pattern" []);
   SAssert (TEq (TMeth "Mask" (TVar "mask") "pattern" []) (TV (RI 19)));
   SDo (TMeth "Mask" (TVar "mask") "invert_enabled" []);
   SAssert (TNot (TMeth "Mask" (TVar "mask") "enabled" []));
   SDo (TMeth "Mask" (TVar "mask") "invert_bytes" []);
   SAssert (TEq (TMeth "Mask" (TVar "mask") "pattern" []) (TV (RI 12)));
   SAssert (TMeth "Mask" (TVar "mask") "enabled" []);
   SAssert (TEq (TMeth "Mask" (TVar "mask") "flags" []) (TV (RI 3)));
   SAssert (TEq (TMeth "Mask" (TVar "mask") "checksum" []) (TV (RI 165)))]) = true.
Proof. vm_compute. reflexivity. Qed.

(* README.md:1925 *)
Example readme_1925 : is_passed (run_test
  [(mkUnit "Bitfield" (Parser.mkRDecl true VisPrivate "Bitfield" (Some (Parser.RPath "u32")) []
     [Parser.mkRField "a" VisPrivate Parser.ANone (Parser.RPath "u32") (PInt 0) id_codec]) [])]
  []) = true.
Proof. vm_compute. reflexivity. Qed.

(* README.md:1981 *)
Example readme_1981 : is_passed (run_test
  [(mkUnit "Bitfield" (Parser.mkRDecl true VisPublic "Bitfield" (Some (Parser.RPath "u16")) []
     [Parser.mkRField "a" VisPublic Parser.ANone (Parser.RPath "u8") (PInt 0) id_codec;
      Parser.mkRField "b" VisPrivate Parser.ANone (Parser.RPath "u8") (PInt 0) id_codec]) [])]
  []) = true.
Proof. vm_compute. reflexivity. Qed.

(* README.md:1998 *)
Example readme_1998 : is_passed (run_test
  [(mkUnit "Bitfield" (Parser.mkRDecl true VisPrivate "Bitfield" (Some (Parser.RPath "u32")) []
     [Parser.mkRField "a" VisPrivate (Parser.AList Parser.RNoBits [("default", "0x12")]) (Parser.RPath "u8") (PInt 0) id_codec;
      Parser.mkRField "b" VisPrivate (Parser.AList Parser.RNoBits [("default", "0x34")]) (Parser.RPath "u8") (PInt 0) id_codec;
      Parser.mkRField "c" VisPrivate (Parser.AList Parser.RNoBits [("default", "0x56")]) (Parser.RPath "u8") (PInt 0) id_codec;
      Parser.mkRField "d" VisPrivate (Parser.AList Parser.RNoBits [("default", "0x78")]) (Parser.RPath "u8") (PInt 0) id_codec]) [("a", (ELit 18 None)); ("b", (ELit 52 None)); ("c", (ELit 86 None)); ("d", (ELit 120 None))])]
  [SLetT "bitfield" (TStat "Bitfield" "new" []);
   SAssert (TEq (TFmt "Bitfield" (TVar "bitfield")) (TV (RErr "Bitfield { a: 18, b: 52, c: 86, d: 120 }")))]) = true.
Proof. vm_compute. reflexivity. Qed.

(* README.md:2026 *)
Example readme_2026 : is_passed (run_test
  [(mkUnit "Bitfield" (Parser.mkRDecl true VisPrivate "Bitfield" (Some (Parser.RPath "u16")) []
     [Parser.mkRField "a" VisPrivate (Parser.AList Parser.RNoBits [("default", "0x12")]) (Parser.RPath "u8") (PInt 0) id_codec;
      Parser.mkRField "b" VisPrivate Parser.ANone (Parser.RPath "u8") (PInt 0) id_codec]) [("a", (ELit 18 None))])]
  [SLetT "bitfield" (TDefault "Bitfield");
   SAssert (TEq (TMeth "Bitfield" (TVar "bitfield") "a" []) (TV (RI 18)));
   SAssert (TEq (TMeth "Bitfield" (TVar "bitfield") "b" []) (TV (RI 0)))]) = true.
Proof. vm_compute. reflexivity. Qed.

(* README.md:2111 *)
Example readme_2111 : is_passed (run_test
  [(mkUnit "TupleBitfield" (Parser.mkRDecl true VisPrivate "TupleBitfield" (Some (Parser.RPath "u16")) []
     [Parser.mkRField "low" VisPrivate Parser.ANone (Parser.RPath "u8") (PInt 0) id_codec;
      Parser.mkRField "high" VisPrivate Parser.ANone (Parser.RPath "u8") (PInt 0) id_codec]) []); (mkUnit "ValBitfield" (Parser.mkRDecl true VisPrivate "ValBitfield" (Some (Parser.RPath "u16")) []
     [Parser.mkRField "low" VisPrivate Parser.ANone (Parser.RPath "u8") (PInt 0) id_codec;
      Parser.mkRField "high" VisPrivate Parser.ANone (Parser.RPath "u8") (PInt 0) id_codec;
      Parser.mkRField "tag" VisPrivate (Parser.AList Parser.RNoBits [("ignore", "true")]) (Parser.RPath "u8") (PInt 0) id_codec]) [])]
  [SLetT "tuple_bf" (TStat "TupleBitfield" "new" []);
   SLetT "val_bf" (TStat "ValBitfield" "new" [])]) = true.
Proof. vm_compute. reflexivity. Qed.

(* README.md:2198 *)
Example readme_2198 : is_passed (run_test
  [(mkUnit "Config" (Parser.mkRDecl true VisPrivate "Config" (Some (Parser.RPath "u32")) [("order", "msb"); ("from_endian", "little"); ("into_endian", "big"); ("default", "true"); ("debug", "true"); ("builder", "true"); ("bit_ops", "false")]
     [Parser.mkRField "tag" VisPrivate (Parser.AList Parser.RNoBits [("default", "0x12")]) (Parser.RPath "u8") (PInt 0) id_codec;
      Parser.mkRField "flags" VisPrivate (Parser.AList Parser.RNoBits [("default", "0x34")]) (Parser.RPath "u8") (PInt 0) id_codec;
      Parser.mkRField "size" VisPrivate (Parser.AList Parser.RNoBits [("default", "0x56")]) (Parser.RPath "u8") (PInt 0) id_codec;
      Parser.mkRField "checksum" VisPrivate (Parser.AList Parser.RNoBits [("default", "0x78")]) (Parser.RPath "u8") (PInt 0) id_codec]) [("tag", (ELit 18 None)); ("flags", (ELit 52 None)); ("size", (ELit 86 None)); ("checksum", (ELit 120 None))])]
  [SLetT "cfg" (TStat "Config" "new" []);
   SAssert (TEq (TMeth "Config" (TVar "cfg") "tag" []) (TV (RI 18)));
   SAssert (TEq (TMeth "Config" (TVar "cfg") "flags" []) (TV (RI 52)));
   SAssert (TEq (TMeth "Config" (TVar "cfg") "size" []) (TV (RI 86)));
   SAssert (TEq (TMeth "Config" (TVar "cfg") "checksum" []) (TV (RI 120)));
   SAssert (TEq (TMeth "Config" (TVar "cfg") "into_bits" []) (TV (RI 305419896)));
   SLetT "cfg2" (TStat "Config" "from_bits" [(TV (RI 305419896))]);
   SAssert (TEq (TMeth "Config" (TVar "cfg2") "checksum" []) (TV (RI 18)))]) = true.
Proof. vm_compute. reflexivity. Qed.

(* bitfields_impl/src/lib.rs:22 *)
Example doc_22 : is_passed (run_test
  [(mkUnit "BitfieldU8" (Parser.mkRDecl true VisPrivate "BitfieldU8" (Some (Parser.RPath "u8")) []
     [Parser.mkRField "a" VisPrivate Parser.ANone (Parser.RPath "u8") (PInt 0) id_codec]) []); (mkUnit "BitfieldMultipleFields" (Parser.mkRDecl true VisPrivate "BitfieldMultipleFields" (Some (Parser.RPath "u32")) []
     [Parser.mkRField "a" VisPrivate Parser.ANone (Parser.RPath "u8") (PInt 0) id_codec;
      Parser.mkRField "b" VisPrivate Parser.ANone (Parser.RPath "u8") (PInt 0) id_codec;
      Parser.mkRField "c" VisPrivate Parser.ANone (Parser.RPath "u8") (PInt 0) id_codec;
      Parser.mkRField "d" VisPrivate Parser.ANone (Parser.RPath "u8") (PInt 0) id_codec]) [])]
  []) = true.
Proof. vm_compute. reflexivity. Qed.

(* bitfields_impl/src/lib.rs:52 *)
Example doc_52 : is_passed (run_test
  [(mkUnit "ArrayBitfield" (Parser.mkRDecl true VisPrivate "ArrayBitfield" (Some (Parser.RArray (Parser.RPath "u8") (Parser.LenLit 17))) []
     [Parser.mkRField "a" VisPrivate Parser.ANone (Parser.RPath "u128") (PInt 0) id_codec;
      Parser.mkRField "b" VisPrivate Parser.ANone (Parser.RPath "u8") (PInt 0) id_codec]) []); (mkUnit "HeapArrayBitfield" (Parser.mkRDecl true VisPrivate "HeapArrayBitfield" (Some (Parser.RArray (Parser.RPath "u8") (Parser.LenLit 96))) [("array_heap", "true")]
     [Parser.mkRField "a" VisPrivate Parser.ANone (Parser.RPath "u128") (PInt 0) id_codec;
      Parser.mkRField "b" VisPrivate Parser.ANone (Parser.RPath "u128") (PInt 0) id_codec;
      Parser.mkRField "c" VisPrivate Parser.ANone (Parser.RPath "u128") (PInt 0) id_codec;
      Parser.mkRField "d" VisPrivate Parser.ANone (Parser.RPath "u128") (PInt 0) id_codec;
      Parser.mkRField "e" VisPrivate Parser.ANone (Parser.RPath "u128") (PInt 0) id_codec;
      Parser.mkRField "f" VisPrivate Parser.ANone (Parser.RPath "u128") (PInt 0) id_codec]) [])]
  [SLetT "array_bitfield" (TStat "ArrayBitfield" "new" []);
   SLetT "heap_array_bitfield" (TStat "HeapArrayBitfield" "new" [])]) = true.
Proof. vm_compute. reflexivity. Qed.

(* bitfields_impl/src/lib.rs:89 *)
Example doc_89 : is_passed (run_test
  [(mkUnit "Bitfield" (Parser.mkRDecl true VisPrivate "Bitfield" (Some (Parser.RPath "u32")) []
     [Parser.mkRField "a" VisPrivate (Parser.AList Parser.RNoBits [("default", "0x12")]) (Parser.RPath "u8") (PInt 0) id_codec;
      Parser.mkRField "b" VisPrivate (Parser.AList Parser.RNoBits [("default", "0x34")]) (Parser.RPath "u8") (PInt 0) id_codec;
      Parser.mkRField "c" VisPrivate (Parser.AList Parser.RNoBits [("default", "0x56")]) (Parser.RPath "u8") (PInt 0) id_codec;
      Parser.mkRField "_d" VisPrivate (Parser.AList Parser.RNoBits [("default", "0x78")]) (Parser.RPath "u8") (PInt 0) id_codec]) [("a", (ELit 18 None)); ("b", (ELit 52 None)); ("c", (ELit 86 None)); ("_d", (ELit 120 None))])]
  [SLetT "bitfield" (TStat "Bitfield" "new" []);
   SAssert (TEq (TMeth "Bitfield" (TVar "bitfield") "a" []) (TV (RI 18)));
   SAssert (TEq (TMeth "Bitfield" (TVar "bitfield") "b" []) (TV (RI 52)));
   SAssert (TEq (TMeth "Bitfield" (TVar "bitfield") "c" []) (TV (RI 86)));
   SAssert (TEq (TMeth "Bitfield" (TVar "bitfield") "into_bits" []) (TV (RI 2018915346)));
   SLetT "bitfield_without_defaults" (TStat "Bitfield" "new_without_defaults" []);
   SAssert (TEq (TMeth "Bitfield" (TVar "bitfield_without_defaults") "a" []) (TV (RI 0)));
   SAssert (TEq (TMeth "Bitfield" (TVar "bitfield_without_defaults") "b" []) (TV (RI 0)));
   SAssert (TEq (TMeth "Bitfield" (TVar "bitfield_without_defaults") "c" []) (TV (RI 0)));
   SAssert (TEq (TMeth "Bitfield" (TVar "bitfield_without_defaults") "into_bits" []) (TV (RI 2013265920)))]) = true.
Proof. vm_compute. reflexivity. Qed.

(* bitfields_impl/src/lib.rs:129 *)
Example doc_129 : is_passed (run_test
  [(mkUnit "Bitfield" (Parser.mkRDecl true VisPrivate "Bitfield" (Some (Parser.RPath "u32")) []
     [Parser.mkRField "a" VisPrivate (Parser.AList Parser.RNoBits [("default", "0x12")]) (Parser.RPath "u8") (PInt 0) id_codec;
      Parser.mkRField "b" VisPrivate (Parser.AList Parser.RNoBits [("default", "0x34")]) (Parser.RPath "u8") (PInt 0) id_codec;
      Parser.mkRField "c" VisPrivate (Parser.AList Parser.RNoBits [("default", "0x56")]) (Parser.RPath "u8") (PInt 0) id_codec;
      Parser.mkRField "_reserved" VisPrivate (Parser.AList Parser.RNoBits [("default", "0x78")]) (Parser.RPath "u8") (PInt 0) id_codec]) [("a", (ELit 18 None)); ("b", (ELit 52 None)); ("c", (ELit 86 None)); ("_reserved", (ELit 120 None))])]
  [SLetT "builder" (TBuild "Bitfield" "build" [(TBuild "Bitfield" "with_c" [(TBuild "Bitfield" "with_b" [(TBuild "Bitfield" "with_a" [(TBuild "Bitfield" "new" []); (TV (RI 18))]); (TV (RI 52))]); (TV (RI 86))])]);
   SAssert (TEq (TMeth "Bitfield" (TVar "builder") "a" []) (TV (RI 18)));
   SAssert (TEq (TMeth "Bitfield" (TVar "builder") "b" []) (TV (RI 52)));
   SAssert (TEq (TMeth "Bitfield" (TVar "builder") "c" []) (TV (RI 86)));
   SAssert (TEq (TMeth "Bitfield" (TVar "builder") "into_bits" []) (TV (RI 2018915346)))]) = true.
Proof. vm_compute. reflexivity. Qed.

(* bitfields_impl/src/lib.rs:174 *)
Example doc_174 : is_passed (run_test
  [(mkUnit "Bitfield" (Parser.mkRDecl true VisPrivate "Bitfield" (Some (Parser.RPath "u32")) []
     [Parser.mkRField "a" VisPrivate (Parser.AList Parser.RNoBits [("default", "0xFF")]) (Parser.RPath "u8") (PInt 0) id_codec;
      Parser.mkRField "const_var_default" VisPrivate (Parser.AList (Parser.RBits 2 "") [("default", "CONST_VAR")]) (Parser.RPath "u8") (PInt 0) id_codec;
      Parser.mkRField "const_fn_default" VisPrivate (Parser.AList (Parser.RBits 2 "") [("default", "answer_to_life()")]) (Parser.RPath "u8") (PInt 0) id_codec;
      Parser.mkRField "_reserved" VisPrivate (Parser.AList (Parser.RBits 20 "") []) (Parser.RPath "u32") (PInt 0) id_codec]) [("a", (ELit 255 None)); ("const_var_default", (EUser (TI U8) (RI 2))); ("const_fn_default", (EUser (TI U8) (RI 1)))])]
  [SLetT "bitfield" (TStat "Bitfield" "new" []);
   SAssert (TEq (TMeth "Bitfield" (TVar "bitfield") "a" []) (TV (RI 255)));
   SAssert (TEq (TMeth "Bitfield" (TVar "bitfield") "const_var_default" []) (TV (RI 2)));
   SAssert (TEq (TMeth "Bitfield" (TVar "bitfield") "const_fn_default" []) (TV (RI 1)))]) = true.
Proof. vm_compute. reflexivity. Qed.

(* bitfields_impl/src/lib.rs:220 *)
Example doc_220 : is_passed (run_test
  [(mkUnit "Bitfield" (Parser.mkRDecl true VisPrivate "Bitfield" (Some (Parser.RPath "u16")) []
     [Parser.mkRField "a" VisPrivate (Parser.AList Parser.RNoBits [("default", "-127")]) (Parser.RPath "i8") (PInt 0) id_codec;
      Parser.mkRField "b_sign_extended" VisPrivate (Parser.AList (Parser.RBits 4 "") [("default", "9")]) (Parser.RPath "i8") (PInt 0) id_codec;
      Parser.mkRField "_reserved" VisPrivate (Parser.AList (Parser.RBits 4 "") []) (Parser.RPath "u8") (PInt 0) id_codec]) [("a", (EUn UNeg (ELit 127 None))); ("b_sign_extended", (ELit 9 None))])]
  [SLetT "bitfield" (TStat "Bitfield" "new" []);
   SAssert (TEq (TMeth "Bitfield" (TVar "bitfield") "a" []) (TV (RI (-127))));
   SAssert (TEq (TMeth "Bitfield" (TVar "bitfield") "b_sign_extended" []) (TV (RI (-7))))]) = true.
Proof. vm_compute. reflexivity. Qed.

(* bitfields_impl/src/lib.rs:251 *)
Example doc_251 : is_passed (run_test
  [(mkUnit "Packet" (Parser.mkRDecl true VisPrivate "Packet" (Some (Parser.RPath "u32")) []
     [Parser.mkRField "header" VisPrivate Parser.ANone (Parser.RArray (Parser.RPath "u8") (Parser.LenLit 2)) (PInt 0) id_codec;
      Parser.mkRField "payload" VisPrivate (Parser.AList (Parser.RBits 16 "") []) (Parser.RArray (Parser.RPath "u8") (Parser.LenLit 16)) (PInt 0) id_codec]) [])]
  [SLetT "packet" (TStat "Packet" "new" []);
   SDo (TMeth "Packet" (TVar "packet") "set_header" [(TV (RA (repeat 0 2%nat)))]);
   SDo (TMeth "Packet" (TVar "packet") "set_payload" [(TV (RA (repeat 255 16%nat)))]);
   SAssert (TEq (TMeth "Packet" (TVar "packet") "header" []) (TV (RA (repeat 0 2%nat))));
   SAssert (TEq (TMeth "Packet" (TVar "packet") "payload" []) (TV (RA [255; 255; 0; 0; 0; 0; 0; 0; 0; 0; 0; 0; 0; 0; 0; 0])))]) = true.
Proof. vm_compute. reflexivity. Qed.

(* bitfields_impl/src/lib.rs:279 *)
Example doc_279 : is_passed (run_test
  [(mkUnit "Bitfield" (Parser.mkRDecl true VisPrivate "Bitfield" (Some (Parser.RPath "u16")) []
     [Parser.mkRField "a" VisPrivate Parser.ANone (Parser.RPath "u8") (PInt 0) id_codec;
      Parser.mkRField "b" VisPrivate (Parser.AList (Parser.RBits 4 "") []) (Parser.RPath "u8") (PInt 0) id_codec;
      Parser.mkRField "_reserved" VisPrivate (Parser.AList (Parser.RBits 4 "") []) (Parser.RPath "u8") (PInt 0) id_codec]) [])]
  [SLetT "bitfield" (TStat "Bitfield" "new" []);
   SDo (TMeth "Bitfield" (TVar "bitfield") "set_a" [(TV (RI 255))]);
   SDo (TMeth "Bitfield" (TVar "bitfield") "set_b" [(TV (RI 18))]);
   SAssert (TEq (TMeth "Bitfield" (TVar "bitfield") "a" []) (TV (RI 255)));
   SAssert (TEq (TMeth "Bitfield" (TVar "bitfield") "b" []) (TV (RI 2)));
   SLetT "res" (TMeth "Bitfield" (TVar "bitfield") "checked_set_b" [(TV (RI 18))]);
   SAssert (TIsErr (TVar "res"))]) = true.
Proof. vm_compute. reflexivity. Qed.

(* bitfields_impl/src/lib.rs:567 *)
Example doc_567 : is_passed (run_test
  [(mkUnit "Bitfield" (Parser.mkRDecl true VisPrivate "Bitfield" (Some (Parser.RPath "u16")) []
     [Parser.mkRField "a" VisPrivate Parser.ANone (Parser.RPath "u8") (PInt 0) id_codec;
      Parser.mkRField "_reserved" VisPrivate (Parser.AList Parser.RNoBits [("default", "0xFF")]) (Parser.RPath "u8") (PInt 0) id_codec]) [("_reserved", (ELit 255 None))]); (mkUnit "ReservedBitfield" (Parser.mkRDecl true VisPrivate "ReservedBitfield" (Some (Parser.RPath "u16")) []
     [Parser.mkRField "a" VisPrivate Parser.ANone (Parser.RPath "u8") (PInt 0) id_codec;
      Parser.mkRField "__" VisPrivate (Parser.AList (Parser.RBits 4 "") [("default", "0xF")]) (Parser.RPath "u8") (PInt 0) id_codec;
      Parser.mkRField "__" VisPrivate (Parser.AList (Parser.RBits 4 "") [("default", "0xF")]) (Parser.RPath "u8") (PInt 0) id_codec]) [("__", (ELit 15 None)); ("__", (ELit 15 None))])]
  [SLetT "bitfield" (TStat "Bitfield" "new" []);
   SAssert (TEq (TMeth "Bitfield" (TVar "bitfield") "a" []) (TV (RI 0)));
   SAssert (TEq (TMeth "Bitfield" (TVar "bitfield") "into_bits" []) (TV (RI 65280)));
   SLetT "reserved_bitfield" (TStat "ReservedBitfield" "new" []);
   SAssert (TEq (TMeth "ReservedBitfield" (TVar "reserved_bitfield") "a" []) (TV (RI 0)));
   SAssert (TEq (TMeth "ReservedBitfield" (TVar "reserved_bitfield") "into_bits" []) (TV (RI 65280)))]) = true.
Proof. vm_compute. reflexivity. Qed.

(* bitfields_impl/src/lib.rs:623 *)
Example doc_623 : is_passed (run_test
  [(mkUnit "DisplayControl" (Parser.mkRDecl true VisPrivate "DisplayControl" (Some (Parser.RPath "u8")) []
     [Parser.mkRField "render_mode" VisPrivate (Parser.AList (Parser.RBits 4 "") [("default", "RenderMode::Normal")]) (Parser.RPath "RenderMode") (PInt 0) (bitflag_codec (Bitflag.mkREnum VisPrivate "RenderMode" (Some (Parser.RPath "u8")) [] [Bitflag.mkRVariant "Normal" ["base"] (Some "0") Bitflag.FLit 0; Bitflag.mkRVariant "Mirror" [] (Some "1") Bitflag.FLit 1; Bitflag.mkRVariant "Flip" [] (Some "2") Bitflag.FLit 2; Bitflag.mkRVariant "Hidden" [] (Some "3") Bitflag.FLit 3]) U8);
      Parser.mkRField "audio_mode" VisPrivate (Parser.AList (Parser.RBits 4 "") [("default", "AudioMode::Stereo")]) (Parser.RPath "AudioMode") (PInt 0) (bitflag_codec (Bitflag.mkREnum VisPrivate "AudioMode" (Some (Parser.RPath "u8")) [] [Bitflag.mkRVariant "Stereo" ["base"] (Some "0") Bitflag.FLit 0; Bitflag.mkRVariant "Mono" [] (Some "1") Bitflag.FLit 1; Bitflag.mkRVariant "Mute" [] (Some "2") Bitflag.FLit 2; Bitflag.mkRVariant "Surround" [] (Some "3") Bitflag.FLit 3]) U8)]) [("render_mode", (EUser (TUser "render_mode") (RC 0))); ("audio_mode", (EUser (TUser "audio_mode") (RC 0)))])]
  [SLetT "display" (TBuild "DisplayControl" "build" [(TBuild "DisplayControl" "with_audio_mode" [(TBuild "DisplayControl" "with_render_mode" [(TBuild "DisplayControl" "new" []); (TV (RC 1))]); (TV (RC 2))])]);
   SAssert (TEq (TMeth "DisplayControl" (TVar "display") "render_mode" []) (TV (RC 1)));
   SAssert (TEq (TMeth "DisplayControl" (TVar "display") "audio_mode" []) (TV (RC 2)))]) = true.
Proof. vm_compute. reflexivity. Qed.

(* bitfields_impl/src/lib.rs:716 *)
Example doc_716 : is_passed (run_test
  [(mkUnit "Bitfield" (Parser.mkRDecl true VisPrivate "Bitfield" (Some (Parser.RPath "u32")) []
     [Parser.mkRField "a" VisPrivate (Parser.AList Parser.RNoBits [("default", "0x12")]) (Parser.RPath "u8") (PInt 0) id_codec;
      Parser.mkRField "b" VisPrivate (Parser.AList Parser.RNoBits [("default", "0x34")]) (Parser.RPath "u8") (PInt 0) id_codec;
      Parser.mkRField "c" VisPrivate (Parser.AList Parser.RNoBits [("default", "0x56")]) (Parser.RPath "u8") (PInt 0) id_codec;
      Parser.mkRField "d" VisPrivate (Parser.AList Parser.RNoBits [("default", "0x78")]) (Parser.RPath "u8") (PInt 0) id_codec]) [("a", (ELit 18 None)); ("b", (ELit 52 None)); ("c", (ELit 86 None)); ("d", (ELit 120 None))])]
  [SAssert (TEq (TConst "Bitfield" "A_BITS") (TV (RI 8)));
   SAssert (TEq (TConst "Bitfield" "A_OFFSET") (TV (RI 0)));
   SAssert (TEq (TConst "Bitfield" "B_BITS") (TV (RI 8)));
   SAssert (TEq (TConst "Bitfield" "B_OFFSET") (TV (RI 8)));
   SAssert (TEq (TConst "Bitfield" "C_BITS") (TV (RI 8)));
   SAssert (TEq (TConst "Bitfield" "C_OFFSET") (TV (RI 16)));
   SAssert (TEq (TConst "Bitfield" "D_BITS") (TV (RI 8)));
   SAssert (TEq (TConst "Bitfield" "D_OFFSET") (TV (RI 24)))]) = true.
Proof. vm_compute. reflexivity. Qed.

(* bitfields_impl/src/lib.rs:754 *)
Example doc_754 : is_passed (run_test
  [(mkUnit "TelemetryFrameLsb" (Parser.mkRDecl true VisPrivate "TelemetryFrameLsb" (Some (Parser.RPath "u32")) []
     [Parser.mkRField "sensor_id" VisPrivate (Parser.AList Parser.RNoBits [("default", "0x12")]) (Parser.RPath "u8") (PInt 0) id_codec;
      Parser.mkRField "status_code" VisPrivate (Parser.AList Parser.RNoBits [("default", "0x34")]) (Parser.RPath "u8") (PInt 0) id_codec;
      Parser.mkRField "reading" VisPrivate (Parser.AList Parser.RNoBits [("default", "0x56")]) (Parser.RPath "u8") (PInt 0) id_codec;
      Parser.mkRField "checksum" VisPrivate (Parser.AList Parser.RNoBits [("default", "0x78")]) (Parser.RPath "u8") (PInt 0) id_codec]) [("sensor_id", (ELit 18 None)); ("status_code", (ELit 52 None)); ("reading", (ELit 86 None)); ("checksum", (ELit 120 None))]); (mkUnit "TelemetryFrameMsb" (Parser.mkRDecl true VisPrivate "TelemetryFrameMsb" (Some (Parser.RPath "u32")) [("order", "msb")]
     [Parser.mkRField "sensor_id" VisPrivate (Parser.AList Parser.RNoBits [("default", "0x12")]) (Parser.RPath "u8") (PInt 0) id_codec;
      Parser.mkRField "status_code" VisPrivate (Parser.AList Parser.RNoBits [("default", "0x34")]) (Parser.RPath "u8") (PInt 0) id_codec;
      Parser.mkRField "reading" VisPrivate (Parser.AList Parser.RNoBits [("default", "0x56")]) (Parser.RPath "u8") (PInt 0) id_codec;
      Parser.mkRField "checksum" VisPrivate (Parser.AList Parser.RNoBits [("default", "0x78")]) (Parser.RPath "u8") (PInt 0) id_codec]) [("sensor_id", (ELit 18 None)); ("status_code", (ELit 52 None)); ("reading", (ELit 86 None)); ("checksum", (ELit 120 None))])]
  [SLetT "frame_lsb" (TStat "TelemetryFrameLsb" "new" []);
   SAssert (TEq (TMeth "TelemetryFrameLsb" (TVar "frame_lsb") "sensor_id" []) (TV (RI 18)));
   SAssert (TEq (TMeth "TelemetryFrameLsb" (TVar "frame_lsb") "status_code" []) (TV (RI 52)));
   SAssert (TEq (TMeth "TelemetryFrameLsb" (TVar "frame_lsb") "reading" []) (TV (RI 86)));
   SAssert (TEq (TMeth "TelemetryFrameLsb" (TVar "frame_lsb") "checksum" []) (TV (RI 120)));
   SLetT "val" (TMeth "TelemetryFrameLsb" (TVar "frame_lsb") "into_bits" []);
   SAssert (TEq (TVar "val") (TV (RI 2018915346)));
   SAssert (TEq (TConst "TelemetryFrameLsb" "SENSOR_ID_OFFSET") (TV (RI 0)));
   SLetT "frame_msb" (TStat "TelemetryFrameMsb" "new" []);
   SAssert (TEq (TMeth "TelemetryFrameMsb" (TVar "frame_msb") "sensor_id" []) (TV (RI 18)));
   SAssert (TEq (TMeth "TelemetryFrameMsb" (TVar "frame_msb") "status_code" []) (TV (RI 52)));
   SAssert (TEq (TMeth "TelemetryFrameMsb" (TVar "frame_msb") "reading" []) (TV (RI 86)));
   SAssert (TEq (TMeth "TelemetryFrameMsb" (TVar "frame_msb") "checksum" []) (TV (RI 120)));
   SLetT "val" (TMeth "TelemetryFrameMsb" (TVar "frame_msb") "into_bits" []);
   SAssert (TEq (TVar "val") (TV (RI 305419896)));
   SAssert (TEq (TConst "TelemetryFrameMsb" "SENSOR_ID_OFFSET") (TV (RI 24)))]) = true.
Proof. vm_compute. reflexivity. Qed.

(* bitfields_impl/src/lib.rs:856 *)
Example doc_856 : is_passed (run_test
  [(mkUnit "Bitfield" (Parser.mkRDecl true VisPrivate "Bitfield" (Some (Parser.RPath "u32")) []
     [Parser.mkRField "a" VisPrivate (Parser.AList Parser.RNoBits [("default", "0x12")]) (Parser.RPath "u8") (PInt 0) id_codec;
      Parser.mkRField "b" VisPrivate (Parser.AList Parser.RNoBits [("default", "0x34")]) (Parser.RPath "u8") (PInt 0) id_codec;
      Parser.mkRField "c" VisPrivate (Parser.AList Parser.RNoBits [("default", "0x56")]) (Parser.RPath "u8") (PInt 0) id_codec;
      Parser.mkRField "_reserved" VisPrivate (Parser.AList Parser.RNoBits [("default", "0x78")]) (Parser.RPath "u8") (PInt 0) id_codec]) [("a", (ELit 18 None)); ("b", (ELit 52 None)); ("c", (ELit 86 None)); ("_reserved", (ELit 120 None))])]
  [SLetT "from_bits" (TStat "Bitfield" "from_bits" [(TV (RI 287454020))]);
   SAssert (TEq (TMeth "Bitfield" (TVar "from_bits") "a" []) (TV (RI 68)));
   SAssert (TEq (TMeth "Bitfield" (TVar "from_bits") "b" []) (TV (RI 51)));
   SAssert (TEq (TMeth "Bitfield" (TVar "from_bits") "c" []) (TV (RI 34)));
   SAssert (TEq (TMeth "Bitfield" (TVar "from_bits") "into_bits" []) (TV (RI 287454020)));
   SLetT "from_bits_with_defaults" (TStat "Bitfield" "from_bits_with_defaults" [(TV (RI 287454020))]);
   SAssert (TEq (TMeth "Bitfield" (TVar "from_bits_with_defaults") "a" []) (TV (RI 18)));
   SAssert (TEq (TMeth "Bitfield" (TVar "from_bits_with_defaults") "b" []) (TV (RI 52)));
   SAssert (TEq (TMeth "Bitfield" (TVar "from_bits_with_defaults") "c" []) (TV (RI 86)));
   SAssert (TEq (TMeth "Bitfield" (TVar "from_bits_with_defaults") "into_bits" []) (TV (RI 2018915346)));
   SLetT "from_le_bits" (TStat "Bitfield" "from_le_bits" [(TV (RI 287454020))]);
   SAssert (TEq (TMeth "Bitfield" (TVar "from_le_bits") "into_bits" []) (TV (RI 1144201745)));
   SLetT "from_le_bits_with_defaults" (TStat "Bitfield" "from_le_bits_with_defaults" [(TV (RI 287454020))]);
   SAssert (TEq (TMeth "Bitfield" (TVar "from_le_bits_with_defaults") "into_bits" []) (TV (RI 2018915346)));
   SLetT "from_be_bits" (TStat "Bitfield" "from_be_bits" [(TV (RI 287454020))]);
   SAssert (TEq (TMeth "Bitfield" (TVar "from_be_bits") "into_bits" []) (TV (RI 287454020)));
   SLetT "from_be_bits_with_defaults" (TStat "Bitfield" "from_be_bits_with_defaults" [(TV (RI 287454020))]);
   SAssert (TEq (TMeth "Bitfield" (TVar "from_be_bits_with_defaults") "into_bits" []) (TV (RI 2018915346)))]) = true.
Proof. vm_compute. reflexivity. Qed.

(* bitfields_impl/src/lib.rs:940 *)
Example doc_940 : is_passed (run_test
  [(mkUnit "Packet" (Parser.mkRDecl true VisPrivate "Packet" (Some (Parser.RArray (Parser.RPath "u8") (Parser.LenLit 4))) []
     [Parser.mkRField "a" VisPrivate (Parser.AList Parser.RNoBits [("default", "0x12")]) (Parser.RPath "u8") (PInt 0) id_codec;
      Parser.mkRField "b" VisPrivate (Parser.AList Parser.RNoBits [("default", "0x34")]) (Parser.RPath "u8") (PInt 0) id_codec;
      Parser.mkRField "c" VisPrivate (Parser.AList Parser.RNoBits [("default", "0x56")]) (Parser.RPath "u8") (PInt 0) id_codec;
      Parser.mkRField "_reserved" VisPrivate (Parser.AList Parser.RNoBits [("default", "0x78")]) (Parser.RPath "u8") (PInt 0) id_codec]) [("a", (ELit 18 None)); ("b", (ELit 52 None)); ("c", (ELit 86 None)); ("_reserved", (ELit 120 None))])]
  [SLetT "p" (TStat "Packet" "from_bytes" [(TV (RA [17; 34; 51; 68]))]);
   SAssert (TEq (TMeth "Packet" (TVar "p") "a" []) (TV (RI 68)));
   SAssert (TEq (TMeth "Packet" (TVar "p") "b" []) (TV (RI 51)));
   SAssert (TEq (TMeth "Packet" (TVar "p") "c" []) (TV (RI 34)));
   SAssert (TEq (TMeth "Packet" (TVar "p") "into_bytes" []) (TV (RA [17; 34; 51; 68])));
   SLetT "p_defaults" (TStat "Packet" "from_bytes_with_defaults" [(TV (RA [17; 34; 51; 68]))]);
   SAssert (TEq (TMeth "Packet" (TVar "p_defaults") "a" []) (TV (RI 18)));
   SAssert (TEq (TMeth "Packet" (TVar "p_defaults") "b" []) (TV (RI 52)));
   SAssert (TEq (TMeth "Packet" (TVar "p_defaults") "c" []) (TV (RI 86)));
   SLetT "p_le" (TStat "Packet" "from_le_bytes" [(TV (RA [68; 51; 34; 17]))]);
   SAssert (TEq (TMeth "Packet" (TVar "p_le") "a" []) (TV (RI 68)));
   SAssert (TEq (TMeth "Packet" (TVar "p_le") "b" []) (TV (RI 51)));
   SAssert (TEq (TMeth "Packet" (TVar "p_le") "c" []) (TV (RI 34)));
   SLetT "p_be" (TStat "Packet" "from_be_bytes" [(TV (RA [17; 34; 51; 68]))]);
   SAssert (TEq (TMeth "Packet" (TVar "p_be") "a" []) (TV (RI 68)));
   SLetT "p_slice" (TStat "Packet" "from_slice" [(TV (RA [17; 34; 51; 68]))]);
   SAssert (TEq (TMeth "Packet" (TVar "p_slice") "a" []) (TV (RI 68)));
   SAssert (TIsErr (TStat "Packet" "checked_from_slice" [(TV (RA [17; 34]))]));
   SAssert (TIsOk (TStat "Packet" "checked_from_slice" [(TV (RA [17; 34; 51; 68]))]))]) = true.
Proof. vm_compute. reflexivity. Qed.

(* bitfields_impl/src/lib.rs:1003 *)
Example doc_1003 : is_passed (run_test
  [(mkUnit "Bitfield" (Parser.mkRDecl true VisPrivate "Bitfield" (Some (Parser.RPath "u32")) []
     [Parser.mkRField "a" VisPrivate (Parser.AList Parser.RNoBits [("default", "0x12")]) (Parser.RPath "u8") (PInt 0) id_codec;
      Parser.mkRField "b" VisPrivate (Parser.AList Parser.RNoBits [("default", "0x34")]) (Parser.RPath "u8") (PInt 0) id_codec;
      Parser.mkRField "c" VisPrivate (Parser.AList Parser.RNoBits [("default", "0x56")]) (Parser.RPath "u8") (PInt 0) id_codec;
      Parser.mkRField "d" VisPrivate (Parser.AList Parser.RNoBits [("default", "0x78")]) (Parser.RPath "u8") (PInt 0) id_codec]) [("a", (ELit 18 None)); ("b", (ELit 52 None)); ("c", (ELit 86 None)); ("d", (ELit 120 None))])]
  [SLetT "bitfield" (TStat "Bitfield" "new" []);
   SAssert (TEq (TMeth "Bitfield" (TVar "bitfield") "into_bits" []) (TV (RI 2018915346)));
   SAssert (TEq (TMeth "Bitfield" (TVar "bitfield") "into_le_bits" []) (TV (RI 305419896)));
   SAssert (TEq (TMeth "Bitfield" (TVar "bitfield") "into_be_bits" []) (TV (RI 2018915346)))]) = true.
Proof. vm_compute. reflexivity. Qed.

(* bitfields_impl/src/lib.rs:1047 *)
Example doc_1047 : is_passed (run_test
  [(mkUnit "Packet" (Parser.mkRDecl true VisPrivate "Packet" (Some (Parser.RArray (Parser.RPath "u8") (Parser.LenLit 4))) []
     [Parser.mkRField "a" VisPrivate (Parser.AList Parser.RNoBits [("default", "0x12")]) (Parser.RPath "u8") (PInt 0) id_codec;
      Parser.mkRField "b" VisPrivate (Parser.AList Parser.RNoBits [("default", "0x34")]) (Parser.RPath "u8") (PInt 0) id_codec;
      Parser.mkRField "c" VisPrivate (Parser.AList Parser.RNoBits [("default", "0x56")]) (Parser.RPath "u8") (PInt 0) id_codec;
      Parser.mkRField "d" VisPrivate (Parser.AList Parser.RNoBits [("default", "0x78")]) (Parser.RPath "u8") (PInt 0) id_codec]) [("a", (ELit 18 None)); ("b", (ELit 52 None)); ("c", (ELit 86 None)); ("d", (ELit 120 None))])]
  [SLetT "packet" (TStat "Packet" "new" []);
   SAssert (TEq (TMeth "Packet" (TVar "packet") "into_bytes" []) (TV (RA [120; 86; 52; 18])));
   SAssert (TEq (TMeth "Packet" (TVar "packet") "into_le_bytes" []) (TV (RA [18; 52; 86; 120])));
   SAssert (TEq (TMeth "Packet" (TVar "packet") "into_be_bytes" []) (TV (RA [120; 86; 52; 18])));
   SLetT "buf" (TV (RA (repeat 0 4%nat)));
   SDo (TSlice "Packet" (TVar "packet") "into_slice" "buf");
   SAssert (TEq (TVar "buf") (TV (RA [120; 86; 52; 18])));
   SLetT "small" (TV (RA (repeat 0 2%nat)));
   SAssert (TIsErr (TSlice "Packet" (TVar "packet") "checked_into_slice" "small"));
   SLetT "le_buf" (TV (RA (repeat 0 4%nat)));
   SDo (TSlice "Packet" (TVar "packet") "into_le_slice" "le_buf");
   SAssert (TEq (TVar "le_buf") (TV (RA [18; 52; 86; 120])));
   SLetT "be_buf" (TV (RA (repeat 0 4%nat)));
   SDo (TSlice "Packet" (TVar "packet") "into_be_slice" "be_buf");
   SAssert (TEq (TVar "be_buf") (TV (RA [120; 86; 52; 18])))]) = true.
Proof. vm_compute. reflexivity. Qed.

(* bitfields_impl/src/lib.rs:1106 *)
Example doc_1106 : is_passed (run_test
  [(mkUnit "Header" (Parser.mkRDecl true VisPrivate "Header" (Some (Parser.RPath "u32")) [("from_endian", "little"); ("into_endian", "big")]
     [Parser.mkRField "version" VisPrivate Parser.ANone (Parser.RPath "u8") (PInt 0) id_codec;
      Parser.mkRField "flags" VisPrivate Parser.ANone (Parser.RPath "u8") (PInt 0) id_codec;
      Parser.mkRField "size" VisPrivate Parser.ANone (Parser.RPath "u8") (PInt 0) id_codec;
      Parser.mkRField "tag" VisPrivate Parser.ANone (Parser.RPath "u8") (PInt 0) id_codec]) [])]
  [SLetT "h" (TStat "Header" "from_bits" [(TV (RI 287454020))]);
   SAssert (TEq (TMeth "Header" (TVar "h") "version" []) (TV (RI 17)));
   SAssert (TEq (TMeth "Header" (TVar "h") "flags" []) (TV (RI 34)));
   SAssert (TEq (TMeth "Header" (TVar "h") "size" []) (TV (RI 51)));
   SAssert (TEq (TMeth "Header" (TVar "h") "tag" []) (TV (RI 68)));
   SAssert (TEq (TMeth "Header" (TVar "h") "into_bits" []) (TV (RI 1144201745)));
   SLetT "x" (TStat "Header" "from_le_bits" [(TV (RI 2864434397))]);
   SAssert (TEq (TMeth "Header" (TVar "x") "version" []) (TV (RI 170)));
   SAssert (TEq (TMeth "Header" (TVar "x") "flags" []) (TV (RI 187)));
   SAssert (TEq (TMeth "Header" (TVar "x") "size" []) (TV (RI 204)));
   SAssert (TEq (TMeth "Header" (TVar "x") "tag" []) (TV (RI 221)));
   SAssert (TEq (TMeth "Header" (TVar "x") "into_be_bits" []) (TV (RI 3721182122)));
   SAssert (TEq (TMeth "Header" (TVar "x") "into_le_bits" []) (TV (RI 2864434397)))]) = true.
Proof. vm_compute. reflexivity. Qed.

(* bitfields_impl/src/lib.rs:1144 *)
Example doc_1144 : is_passed (run_test
  [(mkUnit "Header" (Parser.mkRDecl true VisPrivate "Header" (Some (Parser.RArray (Parser.RPath "u8") (Parser.LenLit 4))) [("from_endian", "little"); ("into_endian", "big")]
     [Parser.mkRField "version" VisPrivate Parser.ANone (Parser.RPath "u8") (PInt 0) id_codec;
      Parser.mkRField "flags" VisPrivate Parser.ANone (Parser.RPath "u8") (PInt 0) id_codec;
      Parser.mkRField "size" VisPrivate Parser.ANone (Parser.RPath "u8") (PInt 0) id_codec;
      Parser.mkRField "tag" VisPrivate Parser.ANone (Parser.RPath "u8") (PInt 0) id_codec]) [])]
  [SLetT "h" (TStat "Header" "from_bytes" [(TV (RA [17; 34; 51; 68]))]);
   SAssert (TEq (TMeth "Header" (TVar "h") "version" []) (TV (RI 17)));
   SAssert (TEq (TMeth "Header" (TVar "h") "flags" []) (TV (RI 34)));
   SAssert (TEq (TMeth "Header" (TVar "h") "size" []) (TV (RI 51)));
   SAssert (TEq (TMeth "Header" (TVar "h") "tag" []) (TV (RI 68)));
   SAssert (TEq (TMeth "Header" (TVar "h") "into_bytes" []) (TV (RA [68; 51; 34; 17])));
   SLetT "x" (TStat "Header" "from_le_bytes" [(TV (RA [221; 204; 187; 170]))]);
   SAssert (TEq (TMeth "Header" (TVar "x") "version" []) (TV (RI 221)));
   SAssert (TEq (TMeth "Header" (TVar "x") "flags" []) (TV (RI 204)));
   SAssert (TEq (TMeth "Header" (TVar "x") "size" []) (TV (RI 187)));
   SAssert (TEq (TMeth "Header" (TVar "x") "tag" []) (TV (RI 170)));
   SAssert (TEq (TMeth "Header" (TVar "x") "into_be_bytes" []) (TV (RA [170; 187; 204; 221])));
   SAssert (TEq (TMeth "Header" (TVar "x") "into_le_bytes" []) (TV (RA [221; 204; 187; 170])))]) = true.
Proof. vm_compute. reflexivity. Qed.

(* bitfields_impl/src/lib.rs:1205 *)
Example doc_1205 : is_passed (run_test
  [(mkUnit "Register" (Parser.mkRDecl true VisPrivate "Register" (Some (Parser.RPath "u32")) []
     [Parser.mkRField "low" VisPrivate (Parser.AList Parser.RNoBits [("default", "0x12")]) (Parser.RPath "u8") (PInt 0) id_codec;
      Parser.mkRField "data" VisPrivate Parser.ANone (Parser.RPath "u8") (PInt 0) id_codec;
      Parser.mkRField "_reserved" VisPrivate (Parser.AList Parser.RNoBits [("default", "0x78")]) (Parser.RPath "u8") (PInt 0) id_codec;
      Parser.mkRField "high" VisPrivate Parser.ANone (Parser.RPath "u8") (PInt 0) id_codec]) [("low", (ELit 18 None)); ("_reserved", (ELit 120 None))])]
  [SLetT "reg" (TStat "Register" "new" []);
   SAssert (TEq (TMeth "Register" (TVar "reg") "into_bits" []) (TV (RI 7864338)));
   SDo (TMeth "Register" (TVar "reg") "write_bits" [(TV (RI 2864434397))]);
   SAssert (TEq (TMeth "Register" (TVar "reg") "low" []) (TV (RI 221)));
   SAssert (TEq (TMeth "Register" (TVar "reg") "data" []) (TV (RI 204)));
   SAssert (TEq (TMeth "Register" (TVar "reg") "high" []) (TV (RI 170)));
   SAssert (TEq (TMeth "Register" (TVar "reg") "into_bits" []) (TV (RI 2860043485)));
   SDo (TMeth "Register" (TVar "reg") "write_bits_with_defaults" [(TV (RI 2864434397))]);
   SAssert (TEq (TMeth "Register" (TVar "reg") "low" []) (TV (RI 18)));
   SAssert (TEq (TMeth "Register" (TVar "reg") "data" []) (TV (RI 204)));
   SAssert (TEq (TMeth "Register" (TVar "reg") "into_bits" []) (TV (RI 2860043282)));
   SDo (TMeth "Register" (TVar "reg") "write_le_bits" [(TV (RI 287454020))]);
   SAssert (TEq (TMeth "Register" (TVar "reg") "low" []) (TV (RI 17)));
   SAssert (TEq (TMeth "Register" (TVar "reg") "data" []) (TV (RI 34)));
   SAssert (TEq (TMeth "Register" (TVar "reg") "high" []) (TV (RI 68)));
   SDo (TMeth "Register" (TVar "reg") "write_defaults" []);
   SAssert (TEq (TMeth "Register" (TVar "reg") "low" []) (TV (RI 18)))]) = true.
Proof. vm_compute. reflexivity. Qed.

(* bitfields_impl/src/lib.rs:1262 *)
Example doc_1262 : is_passed (run_test
  [(mkUnit "Register" (Parser.mkRDecl true VisPrivate "Register" (Some (Parser.RPath "u32")) []
     [Parser.mkRField "low" VisPrivate (Parser.AList Parser.RNoBits [("default", "0x12")]) (Parser.RPath "u8") (PInt 0) id_codec;
      Parser.mkRField "status" VisPrivate (Parser.AList Parser.RNoBits [("default", "0x34"); ("access", "ro")]) (Parser.RPath "u8") (PInt 0) id_codec;
      Parser.mkRField "data" VisPrivate Parser.ANone (Parser.RPath "u8") (PInt 0) id_codec;
      Parser.mkRField "_reserved" VisPrivate (Parser.AList Parser.RNoBits [("default", "0x78")]) (Parser.RPath "u8") (PInt 0) id_codec]) [("low", (ELit 18 None)); ("status", (ELit 52 None)); ("_reserved", (ELit 120 None))])]
  [SLetT "register" (TStat "Register" "new" []);
   SAssert (TEq (TMeth "Register" (TVar "register") "into_bits" []) (TV (RI 2013279250)));
   SDo (TMeth "Register" (TVar "register") "write_bits" [(TV (RI 287454020))]);
   SAssert (TEq (TMeth "Register" (TVar "register") "low" []) (TV (RI 68)));
   SAssert (TEq (TMeth "Register" (TVar "register") "data" []) (TV (RI 34)));
   SAssert (TEq (TMeth "Register" (TVar "register") "status" []) (TV (RI 52)));
   SAssert (TEq (TMeth "Register" (TVar "register") "into_bits" []) (TV (RI 2015507524)));
   SDo (TMeth "Register" (TVar "register") "write_bits_with_defaults" [(TV (RI 2864434397))]);
   SAssert (TEq (TMeth "Register" (TVar "register") "low" []) (TV (RI 18)));
   SAssert (TEq (TMeth "Register" (TVar "register") "status" []) (TV (RI 52)));
   SAssert (TEq (TMeth "Register" (TVar "register") "data" []) (TV (RI 187)));
   SAssert (TEq (TMeth "Register" (TVar "register") "into_bits" []) (TV (RI 2025534482)))]) = true.
Proof. vm_compute. reflexivity. Qed.

(* bitfields_impl/src/lib.rs:1304 *)
Example doc_1304 : is_passed (run_test
  [(mkUnit "Header" (Parser.mkRDecl true VisPrivate "Header" (Some (Parser.RPath "u32")) [("write_endian", "little")]
     [Parser.mkRField "version" VisPrivate Parser.ANone (Parser.RPath "u8") (PInt 0) id_codec;
      Parser.mkRField "flags" VisPrivate Parser.ANone (Parser.RPath "u8") (PInt 0) id_codec;
      Parser.mkRField "size" VisPrivate Parser.ANone (Parser.RPath "u8") (PInt 0) id_codec;
      Parser.mkRField "tag" VisPrivate Parser.ANone (Parser.RPath "u8") (PInt 0) id_codec]) [])]
  [SLetT "header" (TStat "Header" "new" []);
   SDo (TMeth "Header" (TVar "header") "write_bits" [(TV (RI 287454020))]);
   SAssert (TEq (TMeth "Header" (TVar "header") "version" []) (TV (RI 17)));
   SAssert (TEq (TMeth "Header" (TVar "header") "flags" []) (TV (RI 34)));
   SAssert (TEq (TMeth "Header" (TVar "header") "size" []) (TV (RI 51)));
   SAssert (TEq (TMeth "Header" (TVar "header") "tag" []) (TV (RI 68)));
   SDo (TMeth "Header" (TVar "header") "write_be_bits" [(TV (RI 2864434397))]);
   SAssert (TEq (TMeth "Header" (TVar "header") "version" []) (TV (RI 221)));
   SAssert (TEq (TMeth "Header" (TVar "header") "flags" []) (TV (RI 204)));
   SAssert (TEq (TMeth "Header" (TVar "header") "size" []) (TV (RI 187)));
   SAssert (TEq (TMeth "Header" (TVar "header") "tag" []) (TV (RI 170)))]) = true.
Proof. vm_compute. reflexivity. Qed.

(* bitfields_impl/src/lib.rs:1409 *)
Example doc_1409 : is_passed (run_test
  [(mkUnit "Flags" (Parser.mkRDecl true VisPrivate "Flags" (Some (Parser.RPath "u16")) [("bit_ops", "true")]
     [Parser.mkRField "mode" VisPrivate (Parser.AList (Parser.RBits 4 "") []) (Parser.RPath "u8") (PInt 0) id_codec;
      Parser.mkRField "status" VisPrivate (Parser.AList (Parser.RBits 4 "") [("default", "0xA")]) (Parser.RPath "u8") (PInt 0) id_codec;
      Parser.mkRField "control" VisPrivate (Parser.AList (Parser.RBits 4 "") [("access", "ro")]) (Parser.RPath "u8") (PInt 0) id_codec;
      Parser.mkRField "extra" VisPrivate (Parser.AList (Parser.RBits 4 "") []) (Parser.RPath "u8") (PInt 0) id_codec]) [("status", (ELit 10 None))])]
  [SLetT "flags" (TStat "Flags" "new" []);
   SDo (TMeth "Flags" (TVar "flags") "set_bits_range" [(TConst "Flags" "MODE_OFFSET"); (TConst "Flags" "MODE_BITS"); (TV (RI 5))]);
   SAssert (TEq (TMeth "Flags" (TVar "flags") "mode" []) (TV (RI 5)));
   SAssert (TEq (TMeth "Flags" (TVar "flags") "get_bits_range" [(TConst "Flags" "MODE_OFFSET"); (TConst "Flags" "MODE_BITS")]) (TV (RI 5)));
   SAssert (TEq (TMeth "Flags" (TVar "flags") "get_bits_range" [(TConst "Flags" "STATUS_OFFSET"); (TConst "Flags" "STATUS_BITS")]) (TV (RI 10)));
   SDo (TMeth "Flags" (TVar "flags") "set_bits_range" [(TConst "Flags" "CONTROL_OFFSET"); (TV (RI 8)); (TV (RI 255))]);
   SAssert (TEq (TMeth "Flags" (TVar "flags") "extra" []) (TV (RI 15)));
   SAssert (TEq (TMeth "Flags" (TVar "flags") "control" []) (TV (RI 0)));
   SAssert (TIsErr (TMeth "Flags" (TVar "flags") "checked_set_bits_range" [(TConst "Flags" "CONTROL_OFFSET"); (TV (RI 8)); (TV (RI 255))]));
   SAssert (TIsErr (TMeth "Flags" (TVar "flags") "checked_get_bits_range" [(TV (RI 12)); (TV (RI 8))]))]) = true.
Proof. vm_compute. reflexivity. Qed.

(* bitfields_impl/src/lib.rs:1461 *)
Example doc_1461 : is_passed (run_test
  [(mkUnit "PacketWord" (Parser.mkRDecl true VisPrivate "PacketWord" (Some (Parser.RPath "u16")) [("bit_ops", "true")]
     [Parser.mkRField "low" VisPrivate Parser.ANone (Parser.RPath "u8") (PInt 0) id_codec;
      Parser.mkRField "counter" VisPrivate (Parser.AList (Parser.RBits 4 "") []) (Parser.RPath "u8") (PInt 0) id_codec;
      Parser.mkRField "status" VisPrivate (Parser.AList (Parser.RBits 4 "") [("default", "0xF"); ("access", "ro")]) (Parser.RPath "u8") (PInt 0) id_codec]) [("status", (ELit 15 None))])]
  [SLetT "packet" (TStat "PacketWord" "new" []);
   SDo (TMeth "PacketWord" (TVar "packet") "set_bits_range" [(TConst "PacketWord" "LOW_OFFSET"); (TConst "PacketWord" "LOW_BITS"); (TV (RI 171))]);
   SDo (TMeth "PacketWord" (TVar "packet") "set_bits_range" [(TConst "PacketWord" "COUNTER_OFFSET"); (TConst "PacketWord" "COUNTER_BITS"); (TV (RI 5))]);
   SAssert (TEq (TMeth "PacketWord" (TVar "packet") "low" []) (TV (RI 171)));
   SAssert (TEq (TMeth "PacketWord" (TVar "packet") "counter" []) (TV (RI 5)));
   SAssert (TEq (TMeth "PacketWord" (TVar "packet") "get_bits_range" [(TConst "PacketWord" "LOW_OFFSET"); (TConst "PacketWord" "LOW_BITS")]) (TV (RI 171)));
   SAssert (TEq (TMeth "PacketWord" (TVar "packet") "into_bits" []) (TV (RI 62891)));
   SDo (TMeth "PacketWord" (TVar "packet") "set_bits_range" [(TConst "PacketWord" "COUNTER_OFFSET"); (TV (RI 8)); (TV (RI 0))]);
   SAssert (TEq (TMeth "PacketWord" (TVar "packet") "counter" []) (TV (RI 0)));
   SAssert (TEq (TMeth "PacketWord" (TVar "packet") "status" []) (TV (RI 15)));
   SAssert (TIsErr (TMeth "PacketWord" (TVar "packet") "checked_set_bits_range" [(TConst "PacketWord" "COUNTER_OFFSET"); (TV (RI 8)); (TV (RI 0))]))]) = true.
Proof. vm_compute. reflexivity. Qed.

(* bitfields_impl/src/lib.rs:1500 *)
Example doc_1500 : is_passed (run_test
  [(mkUnit "PacketBytes" (Parser.mkRDecl true VisPrivate "PacketBytes" (Some (Parser.RArray (Parser.RPath "u8") (Parser.LenLit 2))) [("bit_ops", "true")]
     [Parser.mkRField "low" VisPrivate Parser.ANone (Parser.RPath "u8") (PInt 0) id_codec;
      Parser.mkRField "high" VisPrivate Parser.ANone (Parser.RPath "u8") (PInt 0) id_codec]) [])]
  [SLetT "packet" (TStat "PacketBytes" "new" []);
   SDo (TMeth "PacketBytes" (TVar "packet") "set_bytes_range" [(TConst "PacketBytes" "LOW_OFFSET"); (TV (RI 12)); (TV (RA [188; 10]))]);
   SAssert (TEq (TMeth "PacketBytes" (TVar "packet") "low" []) (TV (RI 188)));
   SAssert (TEq (TMeth "PacketBytes" (TVar "packet") "high" []) (TV (RI 10)));
   SAssert (TEq (TMeth "PacketBytes" (TVar "packet") "get_bytes_range" [(TConst "PacketBytes" "LOW_OFFSET"); (TV (RI 12))]) (TV (RA [188; 10])));
   SAssert (TEq (TMeth "PacketBytes" (TVar "packet") "into_le_bytes" []) (TV (RA [188; 10])))]) = true.
Proof. vm_compute. reflexivity. Qed.

(* bitfields_impl/src/lib.rs:1535 *)
Example doc_1535 : is_passed (run_test
  [(mkUnit "Flags" (Parser.mkRDecl true VisPrivate "Flags" (Some (Parser.RPath "u32")) []
     [Parser.mkRField "enabled" VisPrivate (Parser.AList Parser.RNoBits [("default", "0x12")]) (Parser.RPath "u8") (PInt 0) id_codec;
      Parser.mkRField "count" VisPrivate Parser.ANone (Parser.RPath "u8") (PInt 0) id_codec;
      Parser.mkRField "priority" VisPrivate (Parser.AList Parser.RNoBits [("default", "0x56")]) (Parser.RPath "u8") (PInt 0) id_codec;
      Parser.mkRField "_reserved" VisPrivate (Parser.AList Parser.RNoBits [("default", "0x78")]) (Parser.RPath "u8") (PInt 0) id_codec]) [("enabled", (ELit 18 None)); ("priority", (ELit 86 None)); ("_reserved", (ELit 120 None))])]
  [SLetT "flags" (TBuild "Flags" "build" [(TBuild "Flags" "with_priority" [(TBuild "Flags" "with_count" [(TBuild "Flags" "with_enabled" [(TBuild "Flags" "new" []); (TV (RI 255))]); (TV (RI 52))]); (TV (RI 171))])]);
   SAssert (TEq (TMeth "Flags" (TVar "flags") "into_bits" []) (TV (RI 2024486143)));
   SDo (TMeth "Flags" (TVar "flags") "clear_count" []);
   SAssert (TEq (TMeth "Flags" (TVar "flags") "count" []) (TV (RI 0)));
   SDo (TMeth "Flags" (TVar "flags") "clear_enabled_to_default" []);
   SAssert (TEq (TMeth "Flags" (TVar "flags") "enabled" []) (TV (RI 18)));
   SDo (TMeth "Flags" (TVar "flags") "clear_bits" []);
   SAssert (TEq (TMeth "Flags" (TVar "flags") "enabled" []) (TV (RI 0)));
   SAssert (TEq (TMeth "Flags" (TVar "flags") "count" []) (TV (RI 0)));
   SAssert (TEq (TMeth "Flags" (TVar "flags") "priority" []) (TV (RI 0)));
   SAssert (TEq (TMeth "Flags" (TVar "flags") "into_bits" []) (TV (RI 2013265920)));
   SDo (TMeth "Flags" (TVar "flags") "set_count" [(TV (RI 153))]);
   SDo (TMeth "Flags" (TVar "flags") "clear_bits_with_defaults" []);
   SAssert (TEq (TMeth "Flags" (TVar "flags") "enabled" []) (TV (RI 18)));
   SAssert (TEq (TMeth "Flags" (TVar "flags") "count" []) (TV (RI 0)));
   SAssert (TEq (TMeth "Flags" (TVar "flags") "priority" []) (TV (RI 86)));
   SAssert (TEq (TMeth "Flags" (TVar "flags") "into_bits" []) (TV (RI 2018902034)))]) = true.
Proof. vm_compute. reflexivity. Qed.

(* bitfields_impl/src/lib.rs:1595 *)
Example doc_1595 : is_passed (run_test
  [(mkUnit "Flags" (Parser.mkRDecl true VisPrivate "Flags" (Some (Parser.RArray (Parser.RPath "u8") (Parser.LenLit 4))) []
     [Parser.mkRField "enabled" VisPrivate (Parser.AList Parser.RNoBits [("default", "0x12")]) (Parser.RPath "u8") (PInt 0) id_codec;
      Parser.mkRField "count" VisPrivate Parser.ANone (Parser.RPath "u8") (PInt 0) id_codec;
      Parser.mkRField "status" VisPrivate (Parser.AList Parser.RNoBits [("default", "0x56"); ("access", "ro")]) (Parser.RPath "u8") (PInt 0) id_codec;
      Parser.mkRField "_reserved" VisPrivate (Parser.AList Parser.RNoBits [("default", "0x78")]) (Parser.RPath "u8") (PInt 0) id_codec]) [("enabled", (ELit 18 None)); ("status", (ELit 86 None)); ("_reserved", (ELit 120 None))])]
  [SLetT "flags" (TBuild "Flags" "build" [(TBuild "Flags" "with_count" [(TBuild "Flags" "new" []); (TV (RI 52))])]);
   SAssert (TEq (TMeth "Flags" (TVar "flags") "into_bytes" []) (TV (RA [120; 86; 52; 18])));
   SDo (TMeth "Flags" (TVar "flags") "clear_enabled" []);
   SAssert (TEq (TMeth "Flags" (TVar "flags") "enabled" []) (TV (RI 0)));
   SDo (TMeth "Flags" (TVar "flags") "clear_enabled_to_default" []);
   SAssert (TEq (TMeth "Flags" (TVar "flags") "enabled" []) (TV (RI 18)));
   SDo (TMeth "Flags" (TVar "flags") "clear_bytes" []);
   SAssert (TEq (TMeth "Flags" (TVar "flags") "enabled" []) (TV (RI 0)));
   SAssert (TEq (TMeth "Flags" (TVar "flags") "count" []) (TV (RI 0)));
   SAssert (TEq (TMeth "Flags" (TVar "flags") "status" []) (TV (RI 0)));
   SAssert (TEq (TMeth "Flags" (TVar "flags") "into_bytes" []) (TV (RA [120; 0; 0; 0])));
   SDo (TMeth "Flags" (TVar "flags") "clear_bytes_with_defaults" []);
   SAssert (TEq (TMeth "Flags" (TVar "flags") "enabled" []) (TV (RI 18)));
   SAssert (TEq (TMeth "Flags" (TVar "flags") "count" []) (TV (RI 0)));
   SAssert (TEq (TMeth "Flags" (TVar "flags") "status" []) (TV (RI 86)));
   SAssert (TEq (TMeth "Flags" (TVar "flags") "into_bytes" []) (TV (RA [120; 86; 0; 18])))]) = true.
Proof. vm_compute. reflexivity. Qed.

(* bitfields_impl/src/lib.rs:1651 *)
Example doc_1651 : is_passed (run_test
  [(mkUnit "Control" (Parser.mkRDecl true VisPrivate "Control" (Some (Parser.RPath "u16")) [("bit_ops", "true")]
     [Parser.mkRField "mode" VisPrivate (Parser.AList (Parser.RBits 4 "") [("default", "0b0101")]) (Parser.RPath "u8") (PInt 0) id_codec;
      Parser.mkRField "flags" VisPrivate (Parser.AList (Parser.RBits 4 "") [("default", "0b1010")]) (Parser.RPath "u8") (PInt 0) id_codec;
      Parser.mkRField "checksum" VisPrivate (Parser.AList (Parser.RBits 8 "") [("default", "0xA5"); ("access", "ro")]) (Parser.RPath "u8") (PInt 0) id_codec]) [("mode", (ELit 5 None)); ("flags", (ELit 10 None)); ("checksum", (ELit 165 None))])]
  [SLetT "control" (TStat "Control" "new" []);
   SAssert (TEq (TMeth "Control" (TVar "control") "mode_inverted" []) (TV (RI 10)));
   SAssert (TEq (TMeth "Control" (TVar "control") "flags_inverted" []) (TV (RI 5)));
   SAssert (TEq (TMeth "Control" (TVar "control") "mode" []) (TV (RI 5)));
   SDo (TMeth "Control" (TVar "control") "invert_mode" []);
   SAssert (TEq (TMeth "Control" (TVar "control") "mode" []) (TV (RI 10)));
   SDo (TMeth "Control" (TVar "control") "invert_bits" []);
   SAssert (TEq (TMeth "Control" (TVar "control") "mode" []) (TV (RI 5)));
   SAssert (TEq (TMeth "Control" (TVar "control") "flags" []) (TV (RI 5)));
   SAssert (TEq (TMeth "Control" (TVar "control") "checksum" []) (TV (RI 165)))]) = true.
Proof. vm_compute. reflexivity. Qed.

(* bitfields_impl/src/lib.rs:1698 *)
Example doc_1698 : is_passed (run_test
  [(mkUnit "Mask" (Parser.mkRDecl true VisPrivate "Mask" (Some (Parser.RArray (Parser.RPath "u8") (Parser.LenLit 2))) [("bit_ops", "true")]
     [Parser.mkRField "pattern" VisPrivate (Parser.AList (Parser.RBits 5 "") [("default", "0b0_1100")]) (Parser.RPath "u8") (PInt 0) id_codec;
      Parser.mkRField "enabled" VisPrivate (Parser.AList (Parser.RBits 1 "") [("default", "true")]) (Parser.RPath "bool") (PInt 0) id_codec;
      Parser.mkRField "flags" VisPrivate (Parser.AList (Parser.RBits 2 "") []) (Parser.RPath "u8") (PInt 0) id_codec;
      Parser.mkRField "checksum" VisPrivate (Parser.AList (Parser.RBits 8 "") [("default", "0xA5"); ("access", "ro")]) (Parser.RPath "u8") (PInt 0) id_codec]) [("pattern", (ELit 12 None)); ("enabled", (EBool true)); ("checksum", (ELit 165 None))])]
  [SLetT "mask" (TStat "Mask" "new" []);
   SAssert (TEq (TMeth "Mask" (TVar "mask") "pattern" []) (TV (RI 12)));
   SAssert (TEq (TMeth "Mask" (TVar "mask") "pattern_inverted" []) (TV (RI 19)));
   SAssert (TNot (TMeth "Mask" (TVar "mask") "enabled_inverted" []));
   SDo (TMeth "Mask" (TVar "mask") "invert_pattern" []);
   SAssert (TEq (TMeth "Mask" (TVar "mask") "pattern" []) (TV (RI 19)));
   SDo (TMeth "Mask" (TVar "mask") "invert_enabled" []);
   SAssert (TNot (TMeth "Mask" (TVar "mask") "enabled" []));
   SDo (TMeth "Mask" (TVar "mask") "invert_bytes" []);
   SAssert (TEq (TMeth "Mask" (TVar "mask") "pattern" []) (TV (RI 12)));
   SAssert (TMeth "Mask" (TVar "mask") "enabled" []);
   SAssert (TEq (TMeth "Mask" (TVar "mask") "flags" []) (TV (RI 3)));
   SAssert (TEq (TMeth "Mask" (TVar "mask") "checksum" []) (TV (RI 165)))]) = true.
Proof. vm_compute. reflexivity. Qed.

(* bitfields_impl/src/lib.rs:1746 *)
Example doc_1746 : is_passed (run_test
  [(mkUnit "Bitfield" (Parser.mkRDecl true VisPrivate "Bitfield" (Some (Parser.RPath "u32")) []
     [Parser.mkRField "a" VisPrivate Parser.ANone (Parser.RPath "u32") (PInt 0) id_codec]) [])]
  []) = true.
Proof. vm_compute. reflexivity. Qed.

(* bitfields_impl/src/lib.rs:1804 *)
Example doc_1804 : is_passed (run_test
  [(mkUnit "Bitfield" (Parser.mkRDecl true VisPublic "Bitfield" (Some (Parser.RPath "u16")) []
     [Parser.mkRField "a" VisPublic Parser.ANone (Parser.RPath "u8") (PInt 0) id_codec;
      Parser.mkRField "b" VisPrivate Parser.ANone (Parser.RPath "u8") (PInt 0) id_codec]) [])]
  []) = true.
Proof. vm_compute. reflexivity. Qed.

(* bitfields_impl/src/lib.rs:1822 *)
Example doc_1822 : is_passed (run_test
  [(mkUnit "Bitfield" (Parser.mkRDecl true VisPrivate "Bitfield" (Some (Parser.RPath "u32")) []
     [Parser.mkRField "a" VisPrivate (Parser.AList Parser.RNoBits [("default", "0x12")]) (Parser.RPath "u8") (PInt 0) id_codec;
      Parser.mkRField "b" VisPrivate (Parser.AList Parser.RNoBits [("default", "0x34")]) (Parser.RPath "u8") (PInt 0) id_codec;
      Parser.mkRField "c" VisPrivate (Parser.AList Parser.RNoBits [("default", "0x56")]) (Parser.RPath "u8") (PInt 0) id_codec;
      Parser.mkRField "d" VisPrivate (Parser.AList Parser.RNoBits [("default", "0x78")]) (Parser.RPath "u8") (PInt 0) id_codec]) [("a", (ELit 18 None)); ("b", (ELit 52 None)); ("c", (ELit 86 None)); ("d", (ELit 120 None))])]
  [SLetT "bitfield" (TStat "Bitfield" "new" []);
   SAssert (TEq (TFmt "Bitfield" (TVar "bitfield")) (TV (RErr "Bitfield { a: 18, b: 52, c: 86, d: 120 }")))]) = true.
Proof. vm_compute. reflexivity. Qed.

(* bitfields_impl/src/lib.rs:1851 *)
Example doc_1851 : is_passed (run_test
  [(mkUnit "Bitfield" (Parser.mkRDecl true VisPrivate "Bitfield" (Some (Parser.RPath "u16")) []
     [Parser.mkRField "a" VisPrivate (Parser.AList Parser.RNoBits [("default", "0x12")]) (Parser.RPath "u8") (PInt 0) id_codec;
      Parser.mkRField "b" VisPrivate Parser.ANone (Parser.RPath "u8") (PInt 0) id_codec]) [("a", (ELit 18 None))])]
  [SLetT "bitfield" (TDefault "Bitfield");
   SAssert (TEq (TMeth "Bitfield" (TVar "bitfield") "a" []) (TV (RI 18)));
   SAssert (TEq (TMeth "Bitfield" (TVar "bitfield") "b" []) (TV (RI 0)))]) = true.
Proof. vm_compute. reflexivity. Qed.

(* bitfields_impl/src/lib.rs:1939 *)
Example doc_1939 : is_passed (run_test
  [(mkUnit "TupleBitfield" (Parser.mkRDecl true VisPrivate "TupleBitfield" (Some (Parser.RPath "u16")) []
     [Parser.mkRField "low" VisPrivate Parser.ANone (Parser.RPath "u8") (PInt 0) id_codec;
      Parser.mkRField "high" VisPrivate Parser.ANone (Parser.RPath "u8") (PInt 0) id_codec]) []); (mkUnit "ValBitfield" (Parser.mkRDecl true VisPrivate "ValBitfield" (Some (Parser.RPath "u16")) []
     [Parser.mkRField "low" VisPrivate Parser.ANone (Parser.RPath "u8") (PInt 0) id_codec;
      Parser.mkRField "high" VisPrivate Parser.ANone (Parser.RPath "u8") (PInt 0) id_codec;
      Parser.mkRField "tag" VisPrivate (Parser.AList Parser.RNoBits [("ignore", "true")]) (Parser.RPath "u8") (PInt 0) id_codec]) [])]
  [SLetT "tuple_bf" (TStat "TupleBitfield" "new" []);
   SLetT "val_bf" (TStat "ValBitfield" "new" [])]) = true.
Proof. vm_compute. reflexivity. Qed.

(* bitfields_impl/src/lib.rs:2028 *)
Example doc_2028 : is_passed (run_test
  [(mkUnit "Config" (Parser.mkRDecl true VisPrivate "Config" (Some (Parser.RPath "u32")) [("order", "msb"); ("from_endian", "little"); ("into_endian", "big"); ("default", "true"); ("debug", "true"); ("builder", "true"); ("bit_ops", "false")]
     [Parser.mkRField "tag" VisPrivate (Parser.AList Parser.RNoBits [("default", "0x12")]) (Parser.RPath "u8") (PInt 0) id_codec;
      Parser.mkRField "flags" VisPrivate (Parser.AList Parser.RNoBits [("default", "0x34")]) (Parser.RPath "u8") (PInt 0) id_codec;
      Parser.mkRField "size" VisPrivate (Parser.AList Parser.RNoBits [("default", "0x56")]) (Parser.RPath "u8") (PInt 0) id_codec;
      Parser.mkRField "checksum" VisPrivate (Parser.AList Parser.RNoBits [("default", "0x78")]) (Parser.RPath "u8") (PInt 0) id_codec]) [("tag", (ELit 18 None)); ("flags", (ELit 52 None)); ("size", (ELit 86 None)); ("checksum", (ELit 120 None))])]
  [SLetT "cfg" (TStat "Config" "new" []);
   SAssert (TEq (TMeth "Config" (TVar "cfg") "tag" []) (TV (RI 18)));
   SAssert (TEq (TMeth "Config" (TVar "cfg") "flags" []) (TV (RI 52)));
   SAssert (TEq (TMeth "Config" (TVar "cfg") "size" []) (TV (RI 86)));
   SAssert (TEq (TMeth "Config" (TVar "cfg") "checksum" []) (TV (RI 120)));
   SAssert (TEq (TMeth "Config" (TVar "cfg") "into_bits" []) (TV (RI 305419896)));
   SLetT "cfg2" (TStat "Config" "from_bits" [(TV (RI 305419896))]);
   SAssert (TEq (TMeth "Config" (TVar "cfg2") "checksum" []) (TV (RI 18)))]) = true.
Proof. vm_compute. reflexivity. Qed.

(* bitfields_impl/src/lib.rs:2178 *)
Example doc_2178 : is_passed (run_test
  [(mkUnit "DisplayControl" (Parser.mkRDecl true VisPrivate "DisplayControl" (Some (Parser.RPath "u8")) []
     [Parser.mkRField "render_mode" VisPrivate (Parser.AList (Parser.RBits 4 "") [("default", "RenderMode::Normal")]) (Parser.RPath "RenderMode") (PInt 0) (bitflag_codec (Bitflag.mkREnum VisPrivate "RenderMode" (Some (Parser.RPath "u8")) [] [Bitflag.mkRVariant "Normal" ["base"] (Some "0") Bitflag.FLit 0; Bitflag.mkRVariant "Mirror" [] (Some "1") Bitflag.FLit 1; Bitflag.mkRVariant "Flip" [] (Some "2") Bitflag.FLit 2; Bitflag.mkRVariant "Hidden" [] (Some "3") Bitflag.FLit 3]) U8);
      Parser.mkRField "audio_mode" VisPrivate (Parser.AList (Parser.RBits 4 "") [("default", "AudioMode::Stereo")]) (Parser.RPath "AudioMode") (PInt 0) (bitflag_codec (Bitflag.mkREnum VisPrivate "AudioMode" (Some (Parser.RPath "u8")) [] [Bitflag.mkRVariant "Stereo" ["base"] (Some "0") Bitflag.FLit 0; Bitflag.mkRVariant "Mono" [] (Some "1") Bitflag.FLit 1; Bitflag.mkRVariant "Mute" [] (Some "2") Bitflag.FLit 2; Bitflag.mkRVariant "Surround" [] (Some "3") Bitflag.FLit 3]) U8)]) [("render_mode", (EUser (TUser "render_mode") (RC 0))); ("audio_mode", (EUser (TUser "audio_mode") (RC 0)))])]
  [SLetT "display" (TBuild "DisplayControl" "build" [(TBuild "DisplayControl" "with_audio_mode" [(TBuild "DisplayControl" "with_render_mode" [(TBuild "DisplayControl" "new" []); (TV (RC 1))]); (TV (RC 2))])]);
   SAssert (TEq (TMeth "DisplayControl" (TVar "display") "render_mode" []) (TV (RC 1)));
   SAssert (TEq (TMeth "DisplayControl" (TVar "display") "audio_mode" []) (TV (RC 2)))]) = true.
Proof. vm_compute. reflexivity. Qed.

(* bitfields/examples/array_backed.rs *)
Example example_array_backed : is_passed (run_test
  [(mkUnit "Packet" (Parser.mkRDecl true VisPrivate "Packet" (Some (Parser.RArray (Parser.RPath "u8") (Parser.LenLit 4))) []
     [Parser.mkRField "src_port" VisPrivate Parser.ANone (Parser.RPath "u16") (PInt 0) id_codec;
      Parser.mkRField "dst_port" VisPrivate Parser.ANone (Parser.RPath "u16") (PInt 0) id_codec]) [])]
  [SLetT "pkt" (TStat "Packet" "new" []);
   SDo (TMeth "Packet" (TVar "pkt") "set_src_port" [(TV (RI 8080))]);
   SDo (TMeth "Packet" (TVar "pkt") "set_dst_port" [(TV (RI 443))]);
   SAssert (TEq (TMeth "Packet" (TVar "pkt") "src_port" []) (TV (RI 8080)));
   SAssert (TEq (TMeth "Packet" (TVar "pkt") "dst_port" []) (TV (RI 443)));
   SLetT "bytes" (TMeth "Packet" (TVar "pkt") "into_bytes" []);
   SLetT "restored" (TStat "Packet" "from_bytes" [(TVar "bytes")]);
   SAssert (TEq (TMeth "Packet" (TVar "restored") "src_port" []) (TV (RI 8080)));
   SAssert (TEq (TMeth "Packet" (TVar "restored") "dst_port" []) (TV (RI 443)))]) = true.
Proof. vm_compute. reflexivity. Qed.

(* bitfields/examples/array_field.rs *)
Example example_array_field : is_passed (run_test
  [(mkUnit "Ipv4Address" (Parser.mkRDecl true VisPublic "Ipv4Address" (Some (Parser.RPath "u32")) []
     [Parser.mkRField "octets" VisPrivate Parser.ANone (Parser.RArray (Parser.RPath "u8") (Parser.LenLit 4)) (PInt 0) id_codec]) []); (mkUnit "NetworkPacket" (Parser.mkRDecl true VisPublic "NetworkPacket" (Some (Parser.RPath "u64")) []
     [Parser.mkRField "src_port" VisPrivate Parser.ANone (Parser.RPath "u16") (PInt 0) id_codec;
      Parser.mkRField "dst_port" VisPrivate Parser.ANone (Parser.RPath "u16") (PInt 0) id_codec;
      Parser.mkRField "payload" VisPrivate Parser.ANone (Parser.RArray (Parser.RPath "u8") (Parser.LenLit 4)) (PInt 0) id_codec]) [])]
  [SLetT "addr" (TStat "Ipv4Address" "new" []);
   SDo (TMeth "Ipv4Address" (TVar "addr") "set_octets" [(TV (RA [192; 168; 1; 1]))]);
   SAssert (TEq (TMeth "Ipv4Address" (TVar "addr") "octets" []) (TV (RA [192; 168; 1; 1])));
   SLetT "pkt" (TStat "NetworkPacket" "new" []);
   SDo (TMeth "NetworkPacket" (TVar "pkt") "set_src_port" [(TV (RI 8080))]);
   SDo (TMeth "NetworkPacket" (TVar "pkt") "set_dst_port" [(TV (RI 443))]);
   SDo (TMeth "NetworkPacket" (TVar "pkt") "set_payload" [(TV (RA [222; 173; 190; 239]))]);
   SAssert (TEq (TMeth "NetworkPacket" (TVar "pkt") "src_port" []) (TV (RI 8080)));
   SAssert (TEq (TMeth "NetworkPacket" (TVar "pkt") "dst_port" []) (TV (RI 443)));
   SAssert (TEq (TMeth "NetworkPacket" (TVar "pkt") "payload" []) (TV (RA [222; 173; 190; 239])))]) = true.
Proof. vm_compute. reflexivity. Qed.

(* bitfields/examples/basic.rs *)
Example example_basic : is_passed (run_test
  [(mkUnit "Bitfield" (Parser.mkRDecl true VisPublic "Bitfield" (Some (Parser.RPath "u32")) []
     [Parser.mkRField "a" VisPrivate Parser.ANone (Parser.RPath "u8") (PInt 0) id_codec;
      Parser.mkRField "b" VisPrivate Parser.ANone (Parser.RPath "u8") (PInt 0) id_codec;
      Parser.mkRField "c" VisPrivate Parser.ANone (Parser.RPath "u8") (PInt 0) id_codec;
      Parser.mkRField "d" VisPrivate Parser.ANone (Parser.RPath "u8") (PInt 0) id_codec]) [])]
  [SLetT "bitfield" (TStat "Bitfield" "new" []);
   SAssert (TEq (TMeth "Bitfield" (TVar "bitfield") "into_bits" []) (TV (RI 0)))]) = true.
Proof. vm_compute. reflexivity. Qed.

(* bitfields/examples/bitflags.rs *)
Example example_bitflags : is_passed (run_test
  [(mkUnit "DisplayControl" (Parser.mkRDecl true VisPrivate "DisplayControl" (Some (Parser.RPath "u8")) []
     [Parser.mkRField "render_mode" VisPrivate (Parser.AList (Parser.RBits 4 "") [("default", "RenderMode::Normal")]) (Parser.RPath "RenderMode") (PInt 0) (bitflag_codec (Bitflag.mkREnum VisPrivate "RenderMode" (Some (Parser.RPath "u8")) [] [Bitflag.mkRVariant "Normal" ["base"] (Some "0") Bitflag.FLit 0; Bitflag.mkRVariant "Mirror" [] (Some "1") Bitflag.FLit 1; Bitflag.mkRVariant "Flip" [] (Some "2") Bitflag.FLit 2; Bitflag.mkRVariant "Hidden" [] (Some "3") Bitflag.FLit 3]) U8);
      Parser.mkRField "audio_mode" VisPrivate (Parser.AList (Parser.RBits 4 "") [("default", "AudioMode::Stereo")]) (Parser.RPath "AudioMode") (PInt 0) (bitflag_codec (Bitflag.mkREnum VisPrivate "AudioMode" (Some (Parser.RPath "u8")) [] [Bitflag.mkRVariant "Stereo" ["base"] (Some "0") Bitflag.FLit 0; Bitflag.mkRVariant "Mono" [] (Some "1") Bitflag.FLit 1; Bitflag.mkRVariant "Mute" [] (Some "2") Bitflag.FLit 2; Bitflag.mkRVariant "Surround" [] (Some "3") Bitflag.FLit 3]) U8)]) [("render_mode", (EUser (TUser "render_mode") (RC 0))); ("audio_mode", (EUser (TUser "audio_mode") (RC 0)))])]
  [SLetT "display" (TBuild "DisplayControl" "build" [(TBuild "DisplayControl" "with_audio_mode" [(TBuild "DisplayControl" "with_render_mode" [(TBuild "DisplayControl" "new" []); (TV (RC 1))]); (TV (RC 2))])]);
   SAssert (TEq (TMeth "DisplayControl" (TVar "display") "render_mode" []) (TV (RC 1)));
   SAssert (TEq (TMeth "DisplayControl" (TVar "display") "audio_mode" []) (TV (RC 2)));
   SLetT "default_display" (TStat "DisplayControl" "new" []);
   SAssert (TEq (TMeth "DisplayControl" (TVar "default_display") "render_mode" []) (TV (RC 0)));
   SAssert (TEq (TMeth "DisplayControl" (TVar "default_display") "audio_mode" []) (TV (RC 0)))]) = true.
Proof. vm_compute. reflexivity. Qed.

(* bitfields/examples/builder.rs *)
Example example_builder : is_passed (run_test
  [(mkUnit "Bitfield" (Parser.mkRDecl true VisPublic "Bitfield" (Some (Parser.RPath "u32")) []
     [Parser.mkRField "a" VisPrivate Parser.ANone (Parser.RPath "u8") (PInt 0) id_codec;
      Parser.mkRField "b" VisPrivate Parser.ANone (Parser.RPath "u8") (PInt 0) id_codec;
      Parser.mkRField "c" VisPrivate Parser.ANone (Parser.RPath "u8") (PInt 0) id_codec;
      Parser.mkRField "d" VisPrivate Parser.ANone (Parser.RPath "u8") (PInt 0) id_codec]) [])]
  [SLetT "bitfield" (TBuild "Bitfield" "build" [(TBuild "Bitfield" "with_d" [(TBuild "Bitfield" "with_c" [(TBuild "Bitfield" "with_b" [(TBuild "Bitfield" "with_a" [(TBuild "Bitfield" "new" []); (TV (RI 18))]); (TV (RI 52))]); (TV (RI 86))]); (TV (RI 120))])]);
   SAssert (TEq (TMeth "Bitfield" (TVar "bitfield") "into_bits" []) (TV (RI 2018915346)))]) = true.
Proof. vm_compute. reflexivity. Qed.

(* bitfields/examples/defaults.rs *)
Example example_defaults : is_passed (run_test
  [(mkUnit "Bitfield" (Parser.mkRDecl true VisPublic "Bitfield" (Some (Parser.RPath "u32")) []
     [Parser.mkRField "a" VisPrivate (Parser.AList Parser.RNoBits [("default", "0x12")]) (Parser.RPath "u8") (PInt 0) id_codec;
      Parser.mkRField "b" VisPrivate (Parser.AList Parser.RNoBits [("default", "0x34")]) (Parser.RPath "u8") (PInt 0) id_codec;
      Parser.mkRField "c" VisPrivate (Parser.AList Parser.RNoBits [("default", "0x56")]) (Parser.RPath "u8") (PInt 0) id_codec;
      Parser.mkRField "d" VisPrivate (Parser.AList Parser.RNoBits [("default", "0x78")]) (Parser.RPath "u8") (PInt 0) id_codec]) [("a", (ELit 18 None)); ("b", (ELit 52 None)); ("c", (ELit 86 None)); ("d", (ELit 120 None))])]
  [SLetT "bitfield" (TStat "Bitfield" "new" []);
   SAssert (TEq (TMeth "Bitfield" (TVar "bitfield") "into_bits" []) (TV (RI 2018915346)))]) = true.
Proof. vm_compute. reflexivity. Qed.

(* bitfields/examples/from_bits.rs *)
Example example_from_bits : is_passed (run_test
  [(mkUnit "Bitfield" (Parser.mkRDecl true VisPublic "Bitfield" (Some (Parser.RPath "u32")) []
     [Parser.mkRField "a" VisPrivate Parser.ANone (Parser.RPath "u8") (PInt 0) id_codec;
      Parser.mkRField "b" VisPrivate Parser.ANone (Parser.RPath "u8") (PInt 0) id_codec;
      Parser.mkRField "c" VisPrivate Parser.ANone (Parser.RPath "u8") (PInt 0) id_codec;
      Parser.mkRField "d" VisPrivate Parser.ANone (Parser.RPath "u8") (PInt 0) id_codec]) [])]
  [SLetT "bitfield" (TStat "Bitfield" "from_bits" [(TV (RI 2018915346))]);
   SAssert (TEq (TMeth "Bitfield" (TVar "bitfield") "into_bits" []) (TV (RI 2018915346)))]) = true.
Proof. vm_compute. reflexivity. Qed.

(** ** compile_error_cases *)

(* compile_error_cases/errors/bitfield_bit_ops_disabled.rs:3: no method named `get_bit` found for struct `Bitfield` in the *)
Example errors_bitfield_bit_ops_disabled_1 : is_passed (run_test [(mkUnit "Bitfield" (Parser.mkRDecl true VisPublic "Bitfield" (Some (Parser.RPath "u32")) [("bit_ops", "false")]
     [Parser.mkRField "a" VisPrivate Parser.ANone (Parser.RPath "u8") (PInt 0) id_codec;
      Parser.mkRField "b" VisPrivate Parser.ANone (Parser.RPath "u8") (PInt 0) id_codec;
      Parser.mkRField "c" VisPrivate Parser.ANone (Parser.RPath "u8") (PInt 0) id_codec;
      Parser.mkRField "d" VisPrivate Parser.ANone (Parser.RPath "u8") (PInt 0) id_codec]) [])]
  [SAssert (TNot (TIs "Bitfield" "get_bit"))]) = true.
Proof. vm_compute. reflexivity. Qed.

(* compile_error_cases/errors/bitfield_custom_type_no_bit_size.rs:3: Custom and nested field types require a defined bit size, ot *)
Example errors_bitfield_custom_type_no_bit_size_1 : Parser.parse_bitfield Checked default_features (u_decl
  (mkUnit "Bitfield" (Parser.mkRDecl true VisPublic "Bitfield" (Some (Parser.RPath "u16")) []
     [Parser.mkRField "a" VisPrivate Parser.ANone (Parser.RPath "u8") (PInt 0) id_codec;
      Parser.mkRField "b" VisPrivate Parser.ANone (Parser.RPath "CustomType") (PInt 0) id_codec]) [])) = ConstExpr.PErr Parser.ECustomNoBits.
Proof. vm_compute. reflexivity. Qed.

(* compile_error_cases/errors/bitfield_default_value_too_big_for_type.rs:3: The `isize` and `usize` types are not supported, we cannot g *)
Example errors_bitfield_default_value_too_big_for_type_1 : Parser.parse_bitfield Checked default_features (u_decl
  (mkUnit "Bitfield" (Parser.mkRDecl true VisPublic "Bitfield" (Some (Parser.RPath "u64")) []
     [Parser.mkRField "a" VisPrivate (Parser.AList (Parser.RBits 64 "") [("default", "-9223372036854775809")]) (Parser.RPath "isize") (PInt 0) id_codec]) [("a", (EUn UNeg (ELit 9223372036854775809 None)))])) = ConstExpr.PErr Parser.EFieldType.
Proof. vm_compute. reflexivity. Qed.

(* compile_error_cases/errors/bitfield_default_value_too_big_for_type.rs:9: The negative default value '-129' is below the minimum value *)
Example errors_bitfield_default_value_too_big_for_type_2 : Parser.parse_bitfield Checked default_features (u_decl
  (mkUnit "Bitfield" (Parser.mkRDecl true VisPublic "Bitfield" (Some (Parser.RPath "u8")) []
     [Parser.mkRField "a" VisPrivate (Parser.AList (Parser.RBits 8 "") [("default", "-129")]) (Parser.RPath "i8") (PInt 0) id_codec]) [("a", (EUn UNeg (ELit 129 None)))])) = ConstExpr.PErr Parser.EDefaultTooSmall.
Proof. vm_compute. reflexivity. Qed.

(* compile_error_cases/errors/bitfield_default_value_too_big_for_type.rs:15: The negative default value '-32769' is below the minimum val *)
Example errors_bitfield_default_value_too_big_for_type_3 : Parser.parse_bitfield Checked default_features (u_decl
  (mkUnit "Bitfield" (Parser.mkRDecl true VisPublic "Bitfield" (Some (Parser.RPath "u16")) []
     [Parser.mkRField "a" VisPrivate (Parser.AList (Parser.RBits 16 "") [("default", "-32769")]) (Parser.RPath "i16") (PInt 0) id_codec]) [("a", (EUn UNeg (ELit 32769 None)))])) = ConstExpr.PErr Parser.EDefaultTooSmall.
Proof. vm_compute. reflexivity. Qed.

(* compile_error_cases/errors/bitfield_default_value_too_big_for_type.rs:21: The negative default value '-2147483649' is below the minimu *)
Example errors_bitfield_default_value_too_big_for_type_4 : Parser.parse_bitfield Checked default_features (u_decl
  (mkUnit "Bitfield" (Parser.mkRDecl true VisPublic "Bitfield" (Some (Parser.RPath "u32")) []
     [Parser.mkRField "a" VisPrivate (Parser.AList (Parser.RBits 32 "") [("default", "-2147483649")]) (Parser.RPath "i32") (PInt 0) id_codec]) [("a", (EUn UNeg (ELit 2147483649 None)))])) = ConstExpr.PErr Parser.EDefaultTooSmall.
Proof. vm_compute. reflexivity. Qed.

(* compile_error_cases/errors/bitfield_default_value_too_big_for_type.rs:27: The negative default value '-9223372036854775809' is below t *)
Example errors_bitfield_default_value_too_big_for_type_5 : Parser.parse_bitfield Checked default_features (u_decl
  (mkUnit "Bitfield" (Parser.mkRDecl true VisPublic "Bitfield" (Some (Parser.RPath "u64")) []
     [Parser.mkRField "a" VisPrivate (Parser.AList (Parser.RBits 64 "") [("default", "-9223372036854775809")]) (Parser.RPath "i64") (PInt 0) id_codec]) [("a", (EUn UNeg (ELit 9223372036854775809 None)))])) = ConstExpr.PErr Parser.EDefaultTooSmall.
Proof. vm_compute. reflexivity. Qed.

(* compile_error_cases/errors/bitfield_default_value_too_big_for_type.rs:33: accepted *)
Example errors_bitfield_default_value_too_big_for_type_6 : is_ok (Parser.parse_bitfield Checked default_features (u_decl
  (mkUnit "Bitfield" (Parser.mkRDecl true VisPublic "Bitfield" (Some (Parser.RPath "u128")) []
     [Parser.mkRField "a" VisPrivate (Parser.AList (Parser.RBits 128 "") [("default", "-170141183460469231731687303715884105729")]) (Parser.RPath "i128") (PInt 0) id_codec]) [("a", (EUn UNeg (ELit 170141183460469231731687303715884105729 None)))]))) = true.
Proof. vm_compute. reflexivity. Qed.

(* compile_error_cases/errors/bitfield_default_value_too_big_for_type.rs:39: The `isize` and `usize` types are not supported, we cannot g *)
Example errors_bitfield_default_value_too_big_for_type_7 : Parser.parse_bitfield Checked default_features (u_decl
  (mkUnit "Bitfield" (Parser.mkRDecl true VisPublic "Bitfield" (Some (Parser.RPath "u64")) []
     [Parser.mkRField "a" VisPrivate (Parser.AList (Parser.RBits 64 "") [("default", "-9223372036854775809")]) (Parser.RPath "isize") (PInt 0) id_codec]) [("a", (EUn UNeg (ELit 9223372036854775809 None)))])) = ConstExpr.PErr Parser.EFieldType.
Proof. vm_compute. reflexivity. Qed.

(* compile_error_cases/errors/bitfield_default_value_too_big_for_type.rs:45: The `isize` and `usize` types are not supported, we cannot g *)
Example errors_bitfield_default_value_too_big_for_type_8 : Parser.parse_bitfield Checked default_features (u_decl
  (mkUnit "Bitfield" (Parser.mkRDecl true VisPublic "Bitfield" (Some (Parser.RPath "u64")) []
     [Parser.mkRField "a" VisPrivate (Parser.AList (Parser.RBits 64 "") [("default", "9223372036854775808")]) (Parser.RPath "isize") (PInt 0) id_codec]) [("a", (ELit 9223372036854775808 None))])) = ConstExpr.PErr Parser.EFieldType.
Proof. vm_compute. reflexivity. Qed.

(* compile_error_cases/errors/bitfield_disable_builder.rs:3: cannot find type `BitfieldBuilder` in this scope *)
Example errors_bitfield_disable_builder_1 : is_passed (run_test [(mkUnit "Bitfield" (Parser.mkRDecl true VisPublic "Bitfield" (Some (Parser.RPath "u64")) [("builder", "false")]
     [Parser.mkRField "a" VisPrivate (Parser.AList (Parser.RBits 4 "") [("default", "0x1")]) (Parser.RPath "u8") (PInt 0) id_codec;
      Parser.mkRField "_reserved" VisPrivate (Parser.AList (Parser.RBits 60 "") [("default", "0xFFFF_FFFF_FFFF")]) (Parser.RPath "u64") (PInt 0) id_codec]) [("a", (ELit 1 None)); ("_reserved", (ELit 281474976710655 None))])]
  [SAssert (TNot (TIsBuilder "Bitfield" "new")); SAssert (TNot (TIsBuilder "Bitfield" "build"))]) = true.
Proof. vm_compute. reflexivity. Qed.

(* compile_error_cases/errors/bitfield_disable_debug.rs:3: `Bitfield` doesn't implement `Debug` *)
Example errors_bitfield_disable_debug_1 : is_passed (run_test [(mkUnit "Bitfield" (Parser.mkRDecl true VisPublic "Bitfield" (Some (Parser.RPath "u64")) [("debug", "false")]
     [Parser.mkRField "a" VisPrivate (Parser.AList (Parser.RBits 4 "") [("default", "0x1")]) (Parser.RPath "u8") (PInt 0) id_codec;
      Parser.mkRField "_reserved" VisPrivate (Parser.AList (Parser.RBits 60 "") [("default", "0xFFFF_FFFF_FFFF")]) (Parser.RPath "u64") (PInt 0) id_codec]) [("a", (ELit 1 None)); ("_reserved", (ELit 281474976710655 None))])]
  [SAssert (TNot (TIsTrait "Bitfield" "fmt"))]) = true.
Proof. vm_compute. reflexivity. Qed.

(* compile_error_cases/errors/bitfield_disable_default.rs:3: no function or associated item named `default` found for str *)
Example errors_bitfield_disable_default_1 : is_passed (run_test [(mkUnit "Bitfield" (Parser.mkRDecl true VisPublic "Bitfield" (Some (Parser.RPath "u64")) [("default", "false")]
     [Parser.mkRField "a" VisPrivate (Parser.AList (Parser.RBits 4 "") [("default", "0x1")]) (Parser.RPath "u8") (PInt 0) id_codec;
      Parser.mkRField "_reserved" VisPrivate (Parser.AList (Parser.RBits 60 "") [("default", "0xFFFF_FFFF_FFFF")]) (Parser.RPath "u64") (PInt 0) id_codec]) [("a", (ELit 1 None)); ("_reserved", (ELit 281474976710655 None))])]
  [SAssert (TNot (TIsTrait "Bitfield" "default"))]) = true.
Proof. vm_compute. reflexivity. Qed.

(* compile_error_cases/errors/bitfield_disable_from_bits.rs:3: no function or associated item named `from_bits` found for s *)
Example errors_bitfield_disable_from_bits_1 : is_passed (run_test [(mkUnit "Bitfield" (Parser.mkRDecl true VisPublic "Bitfield" (Some (Parser.RPath "u64")) [("from_into_bits", "false")]
     [Parser.mkRField "a" VisPrivate (Parser.AList (Parser.RBits 4 "") [("default", "0x1")]) (Parser.RPath "u8") (PInt 0) id_codec;
      Parser.mkRField "_reserved" VisPrivate (Parser.AList (Parser.RBits 60 "") [("default", "0xFFFF_FFFF_FFFF")]) (Parser.RPath "u64") (PInt 0) id_codec]) [("a", (ELit 1 None)); ("_reserved", (ELit 281474976710655 None))])]
  [SAssert (TNot (TIs "Bitfield" "from_bits"))]) = true.
Proof. vm_compute. reflexivity. Qed.

(* compile_error_cases/errors/bitfield_disable_from_trait.rs:3: the trait bound `Bitfield: From<u64>` is not satisfied *)
Example errors_bitfield_disable_from_trait_1 : is_passed (run_test [(mkUnit "Bitfield" (Parser.mkRDecl true VisPublic "Bitfield" (Some (Parser.RPath "u64")) [("from_traits", "false")]
     [Parser.mkRField "a" VisPrivate (Parser.AList (Parser.RBits 4 "") [("default", "0x1")]) (Parser.RPath "u8") (PInt 0) id_codec;
      Parser.mkRField "_reserved" VisPrivate (Parser.AList (Parser.RBits 60 "") [("default", "0xFFFF_FFFF_FFFF")]) (Parser.RPath "u64") (PInt 0) id_codec]) [("a", (ELit 1 None)); ("_reserved", (ELit 281474976710655 None))])]
  [SAssert (TNot (TIsTrait "Bitfield" "from"))]) = true.
Proof. vm_compute. reflexivity. Qed.

(* compile_error_cases/errors/bitfield_disable_into_bits.rs:3: no method named `into_bits` found for struct `Bitfield` in t *)
Example errors_bitfield_disable_into_bits_1 : is_passed (run_test [(mkUnit "Bitfield" (Parser.mkRDecl true VisPublic "Bitfield" (Some (Parser.RPath "u64")) [("from_into_bits", "false")]
     [Parser.mkRField "a" VisPrivate (Parser.AList (Parser.RBits 4 "") [("default", "0x1")]) (Parser.RPath "u8") (PInt 0) id_codec;
      Parser.mkRField "_reserved" VisPrivate (Parser.AList (Parser.RBits 60 "") [("default", "0xFFFF_FFFF_FFFF")]) (Parser.RPath "u64") (PInt 0) id_codec]) [("a", (ELit 1 None)); ("_reserved", (ELit 281474976710655 None))])]
  [SAssert (TNot (TIs "Bitfield" "into_bits"))]) = true.
Proof. vm_compute. reflexivity. Qed.

(* compile_error_cases/errors/bitfield_disable_into_trait.rs:3: the trait bound `u64: From<BitfieldBuilder>` is not satisfie *)
Example errors_bitfield_disable_into_trait_1 : is_passed (run_test [(mkUnit "Bitfield" (Parser.mkRDecl true VisPublic "Bitfield" (Some (Parser.RPath "u64")) [("from_traits", "false")]
     [Parser.mkRField "a" VisPrivate (Parser.AList (Parser.RBits 4 "") [("default", "0x1")]) (Parser.RPath "u8") (PInt 0) id_codec;
      Parser.mkRField "_reserved" VisPrivate (Parser.AList (Parser.RBits 60 "") [("default", "0xFFFF_FFFF_FFFF")]) (Parser.RPath "u64") (PInt 0) id_codec]) [("a", (ELit 1 None)); ("_reserved", (ELit 281474976710655 None))])]
  [SAssert (TNot (TIsTrait "Bitfield" "from"))]) = true.
Proof. vm_compute. reflexivity. Qed.

(* compile_error_cases/errors/bitfield_disable_new.rs:3: no function or associated item named `new` found for struct  *)
Example errors_bitfield_disable_new_1 : is_passed (run_test [(mkUnit "Bitfield" (Parser.mkRDecl true VisPublic "Bitfield" (Some (Parser.RPath "u64")) [("new", "false")]
     [Parser.mkRField "a" VisPrivate (Parser.AList (Parser.RBits 4 "") [("default", "0x1")]) (Parser.RPath "u8") (PInt 0) id_codec;
      Parser.mkRField "_reserved" VisPrivate (Parser.AList (Parser.RBits 60 "") [("default", "0xFFFF_FFFF_FFFF")]) (Parser.RPath "u64") (PInt 0) id_codec]) [("a", (ELit 1 None)); ("_reserved", (ELit 281474976710655 None))])]
  [SAssert (TNot (TIs "Bitfield" "new"))]) = true.
Proof. vm_compute. reflexivity. Qed.

(* compile_error_cases/errors/bitfield_field_access_read_only_can_not_write.rs:3: no method named `set_a` found for struct `Bitfield` in the c *)
Example errors_bitfield_field_access_read_only_can_not_write_1 : is_passed (run_test [(mkUnit "Bitfield" (Parser.mkRDecl true VisPublic "Bitfield" (Some (Parser.RPath "u32")) []
     [Parser.mkRField "a" VisPrivate (Parser.AList Parser.RNoBits [("default", "0x12"); ("access", "ro")]) (Parser.RPath "u32") (PInt 0) id_codec]) [("a", (ELit 18 None))])]
  [SAssert (TNot (TIs "Bitfield" "set_a"))]) = true.
Proof. vm_compute. reflexivity. Qed.

(* compile_error_cases/errors/bitfield_field_access_read_only_can_not_write_builder.rs:3: no method named `set_a` found for struct `BitfieldBuilder` i *)
Example errors_bitfield_field_access_read_only_can_not_write_builder_1 : is_passed (run_test [(mkUnit "Bitfield" (Parser.mkRDecl true VisPublic "Bitfield" (Some (Parser.RPath "u32")) []
     [Parser.mkRField "a" VisPrivate (Parser.AList Parser.RNoBits [("default", "0x12"); ("access", "ro")]) (Parser.RPath "u32") (PInt 0) id_codec]) [("a", (ELit 18 None))])]
  [SAssert (TNot (TIsBuilder "Bitfield" "set_a"))]) = true.
Proof. vm_compute. reflexivity. Qed.

(* compile_error_cases/errors/bitfield_field_access_reserved_value.rs:3: no method named `_reserved` found for struct `Bitfield` in t *)
Example errors_bitfield_field_access_reserved_value_1 : is_passed (run_test [(mkUnit "Bitfield" (Parser.mkRDecl true VisPublic "Bitfield" (Some (Parser.RPath "u64")) []
     [Parser.mkRField "a" VisPrivate (Parser.AList (Parser.RBits 4 "") [("default", "0x1")]) (Parser.RPath "u8") (PInt 0) id_codec;
      Parser.mkRField "_reserved" VisPrivate (Parser.AList (Parser.RBits 60 "") [("default", "0xFFFF_FFFF_FFFF")]) (Parser.RPath "u64") (PInt 0) id_codec]) [("a", (ELit 1 None)); ("_reserved", (ELit 281474976710655 None))])]
  [SAssert (TNot (TIs "Bitfield" "_reserved"))]) = true.
Proof. vm_compute. reflexivity. Qed.

(* compile_error_cases/errors/bitfield_field_access_write_only.rs:3: no method named `a` found for struct `Bitfield` in the curre *)
Example errors_bitfield_field_access_write_only_1 : is_passed (run_test [(mkUnit "Bitfield" (Parser.mkRDecl true VisPublic "Bitfield" (Some (Parser.RPath "u32")) []
     [Parser.mkRField "a" VisPrivate (Parser.AList Parser.RNoBits [("default", "0x12"); ("access", "wo")]) (Parser.RPath "u32") (PInt 0) id_codec]) [("a", (ELit 18 None))])]
  [SAssert (TNot (TIs "Bitfield" "a"))]) = true.
Proof. vm_compute. reflexivity. Qed.

(* compile_error_cases/errors/bitfield_field_access_write_only_builder.rs:3: no method named `a` found for struct `BitfieldBuilder` in th *)
Example errors_bitfield_field_access_write_only_builder_1 : is_passed (run_test [(mkUnit "Bitfield" (Parser.mkRDecl true VisPublic "Bitfield" (Some (Parser.RPath "u32")) []
     [Parser.mkRField "a" VisPrivate (Parser.AList Parser.RNoBits [("default", "0x12"); ("access", "wo")]) (Parser.RPath "u32") (PInt 0) id_codec]) [("a", (ELit 18 None))])]
  [SAssert (TNot (TIsBuilder "Bitfield" "a"))]) = true.
Proof. vm_compute. reflexivity. Qed.

(* compile_error_cases/errors/bitfield_field_bits_attribute_without_array.rs:3: The '#[bits]' attribute must be a list. *)
Example errors_bitfield_field_bits_attribute_without_array_1 : Parser.parse_bitfield Checked default_features (u_decl
  (mkUnit "Bitfield" (Parser.mkRDecl true VisPublic "Bitfield" (Some (Parser.RPath "u32")) []
     [Parser.mkRField "a" VisPrivate Parser.ANotList (Parser.RPath "u8") (PInt 0) id_codec;
      Parser.mkRField "b" VisPrivate (Parser.AList Parser.RNoBits [("default", "1")]) (Parser.RPath "u8") (PInt 0) id_codec;
      Parser.mkRField "c" VisPrivate (Parser.AList Parser.RNoBits [("default", "2")]) (Parser.RPath "u8") (PInt 0) id_codec;
      Parser.mkRField "d" VisPrivate (Parser.AList Parser.RNoBits [("default", "3")]) (Parser.RPath "u8") (PInt 0) id_codec]) [("b", (ELit 1 None)); ("c", (ELit 2 None)); ("d", (ELit 3 None))])) = ConstExpr.PErr Parser.ENotList.
Proof. vm_compute. reflexivity. Qed.

(* compile_error_cases/errors/bitfield_field_bits_with_suffix.rs:3: Invalid bit count, expected an unsigned integer without a su *)
Example errors_bitfield_field_bits_with_suffix_1 : Parser.parse_bitfield Checked default_features (u_decl
  (mkUnit "Bitfield" (Parser.mkRDecl true VisPublic "Bitfield" (Some (Parser.RPath "u32")) []
     [Parser.mkRField "a" VisPrivate (Parser.AList (Parser.RBits 8 "u8") []) (Parser.RPath "u32") (PInt 0) id_codec]) [])) = ConstExpr.PErr Parser.EBitsSuffix.
Proof. vm_compute. reflexivity. Qed.

(* compile_error_cases/errors/bitfield_field_default_bigger_than_type.rs:3: The default value '68719476735' exceeds the maximum value fo *)
Example errors_bitfield_field_default_bigger_than_type_1 : Parser.parse_bitfield Checked default_features (u_decl
  (mkUnit "Bitfield" (Parser.mkRDecl true VisPublic "Bitfield" (Some (Parser.RPath "u32")) []
     [Parser.mkRField "a" VisPrivate (Parser.AList Parser.RNoBits [("default", "0xFFFFFFFFF")]) (Parser.RPath "u32") (PInt 0) id_codec]) [("a", (ELit 68719476735 None))])) = ConstExpr.PErr Parser.EDefaultTooBig.
Proof. vm_compute. reflexivity. Qed.

(* compile_error_cases/errors/bitfield_field_default_bigger_than_type.rs:9: The default value '4294967295' exceeds the maximum value for *)
Example errors_bitfield_field_default_bigger_than_type_2 : Parser.parse_bitfield Checked default_features (u_decl
  (mkUnit "BitfieldB" (Parser.mkRDecl true VisPublic "BitfieldB" (Some (Parser.RPath "u16")) []
     [Parser.mkRField "a" VisPrivate (Parser.AList Parser.RNoBits [("default", "0xFFFFFFFF")]) (Parser.RPath "u16") (PInt 0) id_codec;
      Parser.mkRField "b" VisPrivate Parser.ANone (Parser.RPath "u16") (PInt 0) id_codec]) [("a", (ELit 4294967295 None))])) = ConstExpr.PErr Parser.EDefaultTooBig.
Proof. vm_compute. reflexivity. Qed.

(* compile_error_cases/errors/bitfield_field_default_invalid_suffix.rs:3: cannot apply unary operator `-` to type `u8` *)
Example errors_bitfield_field_default_invalid_suffix_1 : is_ill_typed (run_test [(mkUnit "Bitfield" (Parser.mkRDecl true VisPublic "Bitfield" (Some (Parser.RPath "u8")) []
     [Parser.mkRField "a" VisPrivate (Parser.AList (Parser.RBits 8 "") [("default", "-0x1u8")]) (Parser.RPath "i8") (PInt 0) id_codec]) [("a", (EUn UNeg (ELit 1 (Some (TI U8)))))])] []) = true.
Proof. vm_compute. reflexivity. Qed.

(* compile_error_cases/errors/bitfield_field_defined_bits_0.rs:3: The field bits must be greater than 0. *)
Example errors_bitfield_field_defined_bits_0_1 : Parser.parse_bitfield Checked default_features (u_decl
  (mkUnit "Bitfield" (Parser.mkRDecl true VisPublic "Bitfield" (Some (Parser.RPath "u32")) []
     [Parser.mkRField "a" VisPrivate (Parser.AList (Parser.RBits 0 "") []) (Parser.RPath "u8") (PInt 0) id_codec;
      Parser.mkRField "b" VisPrivate (Parser.AList (Parser.RBits 7 "") []) (Parser.RPath "u8") (PInt 0) id_codec;
      Parser.mkRField "c" VisPrivate (Parser.AList (Parser.RBits 5 "") []) (Parser.RPath "u8") (PInt 0) id_codec;
      Parser.mkRField "d" VisPrivate (Parser.AList (Parser.RBits 9 "") []) (Parser.RPath "u16") (PInt 0) id_codec]) [])) = ConstExpr.PErr Parser.EZeroBits.
Proof. vm_compute. reflexivity. Qed.

(* compile_error_cases/errors/bitfield_field_defined_bits_less_than_bitfield_type_size.rs:3: The total number of bits of the fields '29 bits' is less tha *)
Example errors_bitfield_field_defined_bits_less_than_bitfield_type_size_1 : Parser.parse_bitfield Checked default_features (u_decl
  (mkUnit "Bitfield" (Parser.mkRDecl true VisPublic "Bitfield" (Some (Parser.RPath "u32")) []
     [Parser.mkRField "a" VisPrivate (Parser.AList (Parser.RBits 8 "") []) (Parser.RPath "u8") (PInt 0) id_codec;
      Parser.mkRField "b" VisPrivate (Parser.AList (Parser.RBits 7 "") []) (Parser.RPath "u8") (PInt 0) id_codec;
      Parser.mkRField "c" VisPrivate (Parser.AList (Parser.RBits 5 "") []) (Parser.RPath "u8") (PInt 0) id_codec;
      Parser.mkRField "d" VisPrivate (Parser.AList (Parser.RBits 9 "") []) (Parser.RPath "u16") (PInt 0) id_codec]) [])) = ConstExpr.PErr Parser.ETooFewBits.
Proof. vm_compute. reflexivity. Qed.

(* compile_error_cases/errors/bitfield_field_defined_bits_more_than_bitfield_type_size.rs:3: The total number of bits of the fields '36 bits' is greater  *)
Example errors_bitfield_field_defined_bits_more_than_bitfield_type_size_1 : Parser.parse_bitfield Checked default_features (u_decl
  (mkUnit "Bitfield" (Parser.mkRDecl true VisPublic "Bitfield" (Some (Parser.RPath "u32")) []
     [Parser.mkRField "a" VisPrivate (Parser.AList (Parser.RBits 8 "") []) (Parser.RPath "u8") (PInt 0) id_codec;
      Parser.mkRField "b" VisPrivate (Parser.AList (Parser.RBits 7 "") []) (Parser.RPath "u8") (PInt 0) id_codec;
      Parser.mkRField "c" VisPrivate (Parser.AList (Parser.RBits 5 "") []) (Parser.RPath "u8") (PInt 0) id_codec;
      Parser.mkRField "d" VisPrivate (Parser.AList (Parser.RBits 16 "") []) (Parser.RPath "u16") (PInt 0) id_codec]) [])) = ConstExpr.PErr Parser.ETooManyBits.
Proof. vm_compute. reflexivity. Qed.

(* compile_error_cases/errors/bitfield_field_defined_bits_too_small_for_default_value.rs:3: The default value '4095' exceeds the maximum value for the s *)
Example errors_bitfield_field_defined_bits_too_small_for_default_value_1 : Parser.parse_bitfield Checked default_features (u_decl
  (mkUnit "Bitfield" (Parser.mkRDecl true VisPublic "Bitfield" (Some (Parser.RPath "u16")) []
     [Parser.mkRField "a" VisPrivate (Parser.AList (Parser.RBits 3 "") [("default", "0xFFF")]) (Parser.RPath "u8") (PInt 0) id_codec;
      Parser.mkRField "b" VisPrivate (Parser.AList (Parser.RBits 13 "") [("default", "1")]) (Parser.RPath "u16") (PInt 0) id_codec]) [("a", (ELit 4095 None)); ("b", (ELit 1 None))])) = ConstExpr.PErr Parser.EDefaultTooBig.
Proof. vm_compute. reflexivity. Qed.

(* compile_error_cases/errors/bitfield_field_duplicate_name.rs:3: Duplicate field name 'a' found, all fields must have unique  *)
Example errors_bitfield_field_duplicate_name_1 : Parser.parse_bitfield Checked default_features (u_decl
  (mkUnit "Bitfield" (Parser.mkRDecl true VisPublic "Bitfield" (Some (Parser.RPath "u16")) []
     [Parser.mkRField "a" VisPrivate Parser.ANone (Parser.RPath "u8") (PInt 0) id_codec;
      Parser.mkRField "a" VisPrivate Parser.ANone (Parser.RPath "u8") (PInt 0) id_codec]) [])) = ConstExpr.PErr Parser.EDuplicate.
Proof. vm_compute. reflexivity. Qed.

(* compile_error_cases/errors/bitfield_field_float32_identifier_default_value.rs:3: Float are not supported. *)
Example errors_bitfield_field_float32_identifier_default_value_1 : Parser.parse_bitfield Checked default_features (u_decl
  (mkUnit "Bitfield" (Parser.mkRDecl true VisPublic "Bitfield" (Some (Parser.RPath "u32")) []
     [Parser.mkRField "a" VisPrivate (Parser.AList Parser.RNoBits [("default", "0f32")]) (Parser.RPath "u8") (PInt 0) id_codec;
      Parser.mkRField "b" VisPrivate (Parser.AList Parser.RNoBits [("default", "1")]) (Parser.RPath "u8") (PInt 0) id_codec;
      Parser.mkRField "c" VisPrivate (Parser.AList Parser.RNoBits [("default", "2")]) (Parser.RPath "u8") (PInt 0) id_codec;
      Parser.mkRField "d" VisPrivate (Parser.AList Parser.RNoBits [("default", "3")]) (Parser.RPath "u8") (PInt 0) id_codec]) [("b", (ELit 1 None)); ("c", (ELit 2 None)); ("d", (ELit 3 None))])) = ConstExpr.PErr Parser.EFloat.
Proof. vm_compute. reflexivity. Qed.

(* compile_error_cases/errors/bitfield_field_float64_identifier_default_value.rs:3: Float are not supported. *)
Example errors_bitfield_field_float64_identifier_default_value_1 : Parser.parse_bitfield Checked default_features (u_decl
  (mkUnit "Bitfield" (Parser.mkRDecl true VisPublic "Bitfield" (Some (Parser.RPath "u32")) []
     [Parser.mkRField "a" VisPrivate (Parser.AList Parser.RNoBits [("default", "0f64")]) (Parser.RPath "u8") (PInt 0) id_codec;
      Parser.mkRField "b" VisPrivate (Parser.AList Parser.RNoBits [("default", "1")]) (Parser.RPath "u8") (PInt 0) id_codec;
      Parser.mkRField "c" VisPrivate (Parser.AList Parser.RNoBits [("default", "2")]) (Parser.RPath "u8") (PInt 0) id_codec;
      Parser.mkRField "d" VisPrivate (Parser.AList Parser.RNoBits [("default", "3")]) (Parser.RPath "u8") (PInt 0) id_codec]) [("b", (ELit 1 None)); ("c", (ELit 2 None)); ("d", (ELit 3 None))])) = ConstExpr.PErr Parser.EFloat.
Proof. vm_compute. reflexivity. Qed.

(* compile_error_cases/errors/bitfield_field_float_default_value.rs:3: Float are not supported. *)
Example errors_bitfield_field_float_default_value_1 : Parser.parse_bitfield Checked default_features (u_decl
  (mkUnit "Bitfield" (Parser.mkRDecl true VisPublic "Bitfield" (Some (Parser.RPath "u32")) []
     [Parser.mkRField "a" VisPrivate (Parser.AList Parser.RNoBits [("default", "3.1")]) (Parser.RPath "u8") (PInt 0) id_codec;
      Parser.mkRField "b" VisPrivate (Parser.AList Parser.RNoBits [("default", "1")]) (Parser.RPath "u8") (PInt 0) id_codec;
      Parser.mkRField "c" VisPrivate (Parser.AList Parser.RNoBits [("default", "2")]) (Parser.RPath "u8") (PInt 0) id_codec;
      Parser.mkRField "d" VisPrivate (Parser.AList Parser.RNoBits [("default", "3")]) (Parser.RPath "u8") (PInt 0) id_codec]) [("b", (ELit 1 None)); ("c", (ELit 2 None)); ("d", (ELit 3 None))])) = ConstExpr.PErr Parser.EFloat.
Proof. vm_compute. reflexivity. Qed.

(* compile_error_cases/errors/bitfield_field_nested_bitfield_without_defined_bits.rs:3: Custom and nested field types require a defined bit size, ot *)
Example errors_bitfield_field_nested_bitfield_without_defined_bits_1 : Parser.parse_bitfield Checked default_features (u_decl
  (mkUnit "Bitfield" (Parser.mkRDecl true VisPublic "Bitfield" (Some (Parser.RPath "u16")) []
     [Parser.mkRField "a" VisPrivate (Parser.AList Parser.RNoBits [("default", "0x12")]) (Parser.RPath "u8") (PInt 0) id_codec;
      Parser.mkRField "nested_field" VisPrivate (Parser.AList Parser.RNoBits [("default", "NestedBitfield::new()")]) (Parser.RPath "NestedBitfield") (PInt 0) id_codec]) [("a", (ELit 18 None))])) = ConstExpr.PErr Parser.ECustomNoBits.
Proof. vm_compute. reflexivity. Qed.

(* compile_error_cases/errors/bitfield_field_nested_bitfield_without_defined_bits.rs:11: accepted *)
Example errors_bitfield_field_nested_bitfield_without_defined_bits_2 : is_ok (Parser.parse_bitfield Checked default_features (u_decl
  (mkUnit "NestedBitfield" (Parser.mkRDecl true VisPublic "NestedBitfield" (Some (Parser.RPath "u8")) []
     [Parser.mkRField "a" VisPrivate (Parser.AList (Parser.RBits 4 "") [("default", "0x3")]) (Parser.RPath "u8") (PInt 0) id_codec;
      Parser.mkRField "b" VisPrivate (Parser.AList (Parser.RBits 4 "") [("default", "0x4")]) (Parser.RPath "u16") (PInt 0) id_codec]) [("a", (ELit 3 None)); ("b", (ELit 4 None))]))) = true.
Proof. vm_compute. reflexivity. Qed.

(* compile_error_cases/errors/bitfield_field_too_small_for_default_value.rs:3: The default value '65535' exceeds the maximum value for the  *)
Example errors_bitfield_field_too_small_for_default_value_1 : Parser.parse_bitfield Checked default_features (u_decl
  (mkUnit "Bitfield" (Parser.mkRDecl true VisPublic "Bitfield" (Some (Parser.RPath "u16")) []
     [Parser.mkRField "a" VisPrivate (Parser.AList Parser.RNoBits [("default", "0xFFFF")]) (Parser.RPath "u8") (PInt 0) id_codec;
      Parser.mkRField "b" VisPrivate (Parser.AList Parser.RNoBits [("default", "1")]) (Parser.RPath "u8") (PInt 0) id_codec]) [("a", (ELit 65535 None)); ("b", (ELit 1 None))])) = ConstExpr.PErr Parser.EDefaultTooBig.
Proof. vm_compute. reflexivity. Qed.

(* compile_error_cases/errors/bitfield_field_type_too_small_for_bits.rs:3: The field type 'u8' is too small to hold the specified '10 b *)
Example errors_bitfield_field_type_too_small_for_bits_1 : Parser.parse_bitfield Checked default_features (u_decl
  (mkUnit "Bitfield" (Parser.mkRDecl true VisPublic "Bitfield" (Some (Parser.RPath "u16")) []
     [Parser.mkRField "a" VisPrivate (Parser.AList (Parser.RBits 6 "") []) (Parser.RPath "u16") (PInt 0) id_codec;
      Parser.mkRField "b" VisPrivate (Parser.AList (Parser.RBits 10 "") []) (Parser.RPath "u8") (PInt 0) id_codec]) [])) = ConstExpr.PErr Parser.ETypeTooSmall.
Proof. vm_compute. reflexivity. Qed.

(* compile_error_cases/errors/bitfield_field_types_bits_less_than_bitfield_type_size.rs:3: The total number of bits of the fields '24 bits' is less tha *)
Example errors_bitfield_field_types_bits_less_than_bitfield_type_size_1 : Parser.parse_bitfield Checked default_features (u_decl
  (mkUnit "Bitfield" (Parser.mkRDecl true VisPublic "Bitfield" (Some (Parser.RPath "u32")) []
     [Parser.mkRField "a" VisPrivate Parser.ANone (Parser.RPath "u8") (PInt 0) id_codec;
      Parser.mkRField "b" VisPrivate Parser.ANone (Parser.RPath "u8") (PInt 0) id_codec;
      Parser.mkRField "c" VisPrivate Parser.ANone (Parser.RPath "u8") (PInt 0) id_codec]) [])) = ConstExpr.PErr Parser.ETooFewBits.
Proof. vm_compute. reflexivity. Qed.

(* compile_error_cases/errors/bitfield_field_types_bits_more_than_bitfield_type_size.rs:3: The total number of bits of the fields '40 bits' is greater  *)
Example errors_bitfield_field_types_bits_more_than_bitfield_type_size_1 : Parser.parse_bitfield Checked default_features (u_decl
  (mkUnit "Bitfield" (Parser.mkRDecl true VisPublic "Bitfield" (Some (Parser.RPath "u32")) []
     [Parser.mkRField "a" VisPrivate Parser.ANone (Parser.RPath "u8") (PInt 0) id_codec;
      Parser.mkRField "b" VisPrivate Parser.ANone (Parser.RPath "u8") (PInt 0) id_codec;
      Parser.mkRField "c" VisPrivate Parser.ANone (Parser.RPath "u8") (PInt 0) id_codec;
      Parser.mkRField "d" VisPrivate Parser.ANone (Parser.RPath "u16") (PInt 0) id_codec]) [])) = ConstExpr.PErr Parser.ETooManyBits.
Proof. vm_compute. reflexivity. Qed.

(* compile_error_cases/errors/bitfield_field_unsupported_type.rs:3: A field can only have `#[bits]` attributed custom or integer *)
Example errors_bitfield_field_unsupported_type_1 : Parser.parse_bitfield Checked default_features (u_decl
  (mkUnit "Bitfield" (Parser.mkRDecl true VisPublic "Bitfield" (Some (Parser.RPath "u8")) []
     [Parser.mkRField "a" VisPrivate Parser.ANone Parser.ROther (PInt 0) id_codec]) [])) = ConstExpr.PErr Parser.EFieldType.
Proof. vm_compute. reflexivity. Qed.

(* compile_error_cases/errors/bitfield_float_field.rs:3: Floats are not supported as a field type. *)
Example errors_bitfield_float_field_1 : Parser.parse_bitfield Checked default_features (u_decl
  (mkUnit "Bitfield" (Parser.mkRDecl true VisPublic "Bitfield" (Some (Parser.RPath "u32")) []
     [Parser.mkRField "a" VisPrivate Parser.ANone (Parser.RPath "f32") (PInt 0) id_codec]) [])) = ConstExpr.PErr Parser.EFieldType.
Proof. vm_compute. reflexivity. Qed.

(* compile_error_cases/errors/bitfield_float_type.rs:3: The bitfield must have an unsigned integer literal as its fi *)
Example errors_bitfield_float_type_1 : Parser.parse_bitfield Checked default_features (u_decl
  (mkUnit "Bitfield" (Parser.mkRDecl true VisPublic "Bitfield" (Some (Parser.RPath "f64")) []
     [Parser.mkRField "a" VisPrivate Parser.ANone (Parser.RPath "u64") (PInt 0) id_codec]) [])) = ConstExpr.PErr Parser.EBackingType.
Proof. vm_compute. reflexivity. Qed.

(* compile_error_cases/errors/bitfield_from_trait_bitfield_to_data_type_disabled.rs:3: the trait bound `u64: From<Bitfield>` is not satisfied *)
Example errors_bitfield_from_trait_bitfield_to_data_type_disabled_1 : is_passed (run_test [(mkUnit "Bitfield" (Parser.mkRDecl true VisPublic "Bitfield" (Some (Parser.RPath "u64")) [("from_traits", "false")]
     [Parser.mkRField "a" VisPrivate (Parser.AList (Parser.RBits 4 "") [("default", "0x1")]) (Parser.RPath "u8") (PInt 0) id_codec;
      Parser.mkRField "_reserved" VisPrivate (Parser.AList (Parser.RBits 60 "") [("default", "0xFFFF_FFFF_FFFF")]) (Parser.RPath "u64") (PInt 0) id_codec]) [("a", (ELit 1 None)); ("_reserved", (ELit 281474976710655 None))])]
  [SAssert (TNot (TIsTrait "Bitfield" "from"))]) = true.
Proof. vm_compute. reflexivity. Qed.

(* compile_error_cases/errors/bitfield_from_trait_data_type_to_bitfield_disabled.rs:3: mismatched types *)
Example errors_bitfield_from_trait_data_type_to_bitfield_disabled_1 : is_passed (run_test [(mkUnit "Bitfield" (Parser.mkRDecl true VisPublic "Bitfield" (Some (Parser.RPath "u64")) [("from_traits", "false")]
     [Parser.mkRField "a" VisPrivate (Parser.AList (Parser.RBits 4 "") [("default", "0x1")]) (Parser.RPath "u8") (PInt 0) id_codec;
      Parser.mkRField "_reserved" VisPrivate (Parser.AList (Parser.RBits 60 "") [("default", "0xFFFF_FFFF_FFFF")]) (Parser.RPath "u64") (PInt 0) id_codec]) [("a", (ELit 1 None)); ("_reserved", (ELit 281474976710655 None))])]
  [SAssert (TNot (TIsTrait "Bitfield" "from"))]) = true.
Proof. vm_compute. reflexivity. Qed.

(* compile_error_cases/errors/bitfield_invalid_bitfield_bit_ops_value.rs:3: Invalid value for boolean argument 'bit_ops'. Valid values a *)
Example errors_bitfield_invalid_bitfield_bit_ops_value_1 : Parser.parse_bitfield Checked default_features (u_decl
  (mkUnit "Bitfield" (Parser.mkRDecl true VisPublic "Bitfield" (Some (Parser.RPath "u32")) [("bit_ops", "123")]
     [Parser.mkRField "a" VisPrivate (Parser.AList Parser.RNoBits [("default", "0x12")]) (Parser.RPath "u32") (PInt 0) id_codec]) [("a", (ELit 18 None))])) = ConstExpr.PErr Parser.EBadBool.
Proof. vm_compute. reflexivity. Qed.

(* compile_error_cases/errors/bitfield_invalid_bitfield_bit_ops_value.rs:9: Invalid value for boolean argument 'bit_ops'. Valid values a *)
Example errors_bitfield_invalid_bitfield_bit_ops_value_2 : Parser.parse_bitfield Checked default_features (u_decl
  (mkUnit "Bitfield2" (Parser.mkRDecl true VisPublic "Bitfield2" (Some (Parser.RPath "u32")) [("bit_ops", "invalid")]
     [Parser.mkRField "a" VisPrivate (Parser.AList Parser.RNoBits [("default", "0x12")]) (Parser.RPath "u32") (PInt 0) id_codec]) [("a", (ELit 18 None))])) = ConstExpr.PErr Parser.EBadBool.
Proof. vm_compute. reflexivity. Qed.

(* compile_error_cases/errors/bitfield_invalid_bitfield_boolean_arg.rs:3: Invalid value for boolean argument 'new'. Valid values are ' *)
Example errors_bitfield_invalid_bitfield_boolean_arg_1 : Parser.parse_bitfield Checked default_features (u_decl
  (mkUnit "Bitfield" (Parser.mkRDecl true VisPublic "Bitfield" (Some (Parser.RPath "u32")) [("new", "123")]
     [Parser.mkRField "a" VisPrivate (Parser.AList Parser.RNoBits [("default", "0x12")]) (Parser.RPath "u32") (PInt 0) id_codec]) [("a", (ELit 18 None))])) = ConstExpr.PErr Parser.EBadBool.
Proof. vm_compute. reflexivity. Qed.

(* compile_error_cases/errors/bitfield_invalid_bitfield_boolean_arg.rs:9: Invalid value for boolean argument 'new'. Valid values are ' *)
Example errors_bitfield_invalid_bitfield_boolean_arg_2 : Parser.parse_bitfield Checked default_features (u_decl
  (mkUnit "Bitfield" (Parser.mkRDecl true VisPublic "Bitfield" (Some (Parser.RPath "u32")) [("new", "invalid")]
     [Parser.mkRField "a" VisPrivate (Parser.AList Parser.RNoBits [("default", "0x12")]) (Parser.RPath "u32") (PInt 0) id_codec]) [("a", (ELit 18 None))])) = ConstExpr.PErr Parser.EBadBool.
Proof. vm_compute. reflexivity. Qed.

(* compile_error_cases/errors/bitfield_invalid_bitfield_builder_value.rs:3: Invalid value for boolean argument 'builder'. Valid values a *)
Example errors_bitfield_invalid_bitfield_builder_value_1 : Parser.parse_bitfield Checked default_features (u_decl
  (mkUnit "Bitfield" (Parser.mkRDecl true VisPublic "Bitfield" (Some (Parser.RPath "u32")) [("builder", "123")]
     [Parser.mkRField "a" VisPrivate (Parser.AList Parser.RNoBits [("default", "0x12")]) (Parser.RPath "u32") (PInt 0) id_codec]) [("a", (ELit 18 None))])) = ConstExpr.PErr Parser.EBadBool.
Proof. vm_compute. reflexivity. Qed.

(* compile_error_cases/errors/bitfield_invalid_bitfield_builder_value.rs:9: Invalid value for boolean argument 'builder'. Valid values a *)
Example errors_bitfield_invalid_bitfield_builder_value_2 : Parser.parse_bitfield Checked default_features (u_decl
  (mkUnit "Bitfield2" (Parser.mkRDecl true VisPublic "Bitfield2" (Some (Parser.RPath "u32")) [("builder", "invalid")]
     [Parser.mkRField "a" VisPrivate (Parser.AList Parser.RNoBits [("default", "0x12")]) (Parser.RPath "u32") (PInt 0) id_codec]) [("a", (ELit 18 None))])) = ConstExpr.PErr Parser.EBadBool.
Proof. vm_compute. reflexivity. Qed.

(* compile_error_cases/errors/bitfield_invalid_bitfield_clear_bit_ops_value.rs:3: Invalid value for boolean argument 'clear_bit_ops'. Valid va *)
Example errors_bitfield_invalid_bitfield_clear_bit_ops_value_1 : Parser.parse_bitfield Checked default_features (u_decl
  (mkUnit "Bitfield" (Parser.mkRDecl true VisPublic "Bitfield" (Some (Parser.RPath "u32")) [("clear_bit_ops", "123")]
     [Parser.mkRField "a" VisPrivate (Parser.AList Parser.RNoBits [("default", "0x12")]) (Parser.RPath "u32") (PInt 0) id_codec]) [("a", (ELit 18 None))])) = ConstExpr.PErr Parser.EBadBool.
Proof. vm_compute. reflexivity. Qed.

(* compile_error_cases/errors/bitfield_invalid_bitfield_clear_bit_ops_value.rs:9: Invalid value for boolean argument 'clear_bit_ops'. Valid va *)
Example errors_bitfield_invalid_bitfield_clear_bit_ops_value_2 : Parser.parse_bitfield Checked default_features (u_decl
  (mkUnit "Bitfield2" (Parser.mkRDecl true VisPublic "Bitfield2" (Some (Parser.RPath "u32")) [("clear_bit_ops", "invalid")]
     [Parser.mkRField "a" VisPrivate (Parser.AList Parser.RNoBits [("default", "0x12")]) (Parser.RPath "u32") (PInt 0) id_codec]) [("a", (ELit 18 None))])) = ConstExpr.PErr Parser.EBadBool.
Proof. vm_compute. reflexivity. Qed.

(* compile_error_cases/errors/bitfield_invalid_bitfield_copy_value.rs:3: Invalid value for boolean argument 'copy'. Valid values are  *)
Example errors_bitfield_invalid_bitfield_copy_value_1 : Parser.parse_bitfield Checked default_features (u_decl
  (mkUnit "Bitfield" (Parser.mkRDecl true VisPublic "Bitfield" (Some (Parser.RPath "u32")) [("copy", "123")]
     [Parser.mkRField "a" VisPrivate (Parser.AList Parser.RNoBits [("default", "0x12")]) (Parser.RPath "u32") (PInt 0) id_codec]) [("a", (ELit 18 None))])) = ConstExpr.PErr Parser.EBadBool.
Proof. vm_compute. reflexivity. Qed.

(* compile_error_cases/errors/bitfield_invalid_bitfield_copy_value.rs:9: Invalid value for boolean argument 'copy'. Valid values are  *)
Example errors_bitfield_invalid_bitfield_copy_value_2 : Parser.parse_bitfield Checked default_features (u_decl
  (mkUnit "Bitfield2" (Parser.mkRDecl true VisPublic "Bitfield2" (Some (Parser.RPath "u32")) [("copy", "invalid")]
     [Parser.mkRField "a" VisPrivate (Parser.AList Parser.RNoBits [("default", "0x12")]) (Parser.RPath "u32") (PInt 0) id_codec]) [("a", (ELit 18 None))])) = ConstExpr.PErr Parser.EBadBool.
Proof. vm_compute. reflexivity. Qed.

(* compile_error_cases/errors/bitfield_invalid_bitfield_debug_value.rs:3: Invalid value for boolean argument 'debug'. Valid values are *)
Example errors_bitfield_invalid_bitfield_debug_value_1 : Parser.parse_bitfield Checked default_features (u_decl
  (mkUnit "Bitfield" (Parser.mkRDecl true VisPublic "Bitfield" (Some (Parser.RPath "u32")) [("debug", "123")]
     [Parser.mkRField "a" VisPrivate (Parser.AList Parser.RNoBits [("default", "0x12")]) (Parser.RPath "u32") (PInt 0) id_codec]) [("a", (ELit 18 None))])) = ConstExpr.PErr Parser.EBadBool.
Proof. vm_compute. reflexivity. Qed.

(* compile_error_cases/errors/bitfield_invalid_bitfield_debug_value.rs:9: Invalid value for boolean argument 'debug'. Valid values are *)
Example errors_bitfield_invalid_bitfield_debug_value_2 : Parser.parse_bitfield Checked default_features (u_decl
  (mkUnit "Bitfield2" (Parser.mkRDecl true VisPublic "Bitfield2" (Some (Parser.RPath "u32")) [("debug", "invalid")]
     [Parser.mkRField "a" VisPrivate (Parser.AList Parser.RNoBits [("default", "0x12")]) (Parser.RPath "u32") (PInt 0) id_codec]) [("a", (ELit 18 None))])) = ConstExpr.PErr Parser.EBadBool.
Proof. vm_compute. reflexivity. Qed.

(* compile_error_cases/errors/bitfield_invalid_bitfield_default_value.rs:3: Invalid value for boolean argument 'default'. Valid values a *)
Example errors_bitfield_invalid_bitfield_default_value_1 : Parser.parse_bitfield Checked default_features (u_decl
  (mkUnit "Bitfield" (Parser.mkRDecl true VisPublic "Bitfield" (Some (Parser.RPath "u32")) [("default", "123")]
     [Parser.mkRField "a" VisPrivate (Parser.AList Parser.RNoBits [("default", "0x12")]) (Parser.RPath "u32") (PInt 0) id_codec]) [("a", (ELit 18 None))])) = ConstExpr.PErr Parser.EBadBool.
Proof. vm_compute. reflexivity. Qed.

(* compile_error_cases/errors/bitfield_invalid_bitfield_default_value.rs:9: Invalid value for boolean argument 'default'. Valid values a *)
Example errors_bitfield_invalid_bitfield_default_value_2 : Parser.parse_bitfield Checked default_features (u_decl
  (mkUnit "Bitfield2" (Parser.mkRDecl true VisPublic "Bitfield2" (Some (Parser.RPath "u32")) [("default", "invalid")]
     [Parser.mkRField "a" VisPrivate (Parser.AList Parser.RNoBits [("default", "0x12")]) (Parser.RPath "u32") (PInt 0) id_codec]) [("a", (ELit 18 None))])) = ConstExpr.PErr Parser.EBadBool.
Proof. vm_compute. reflexivity. Qed.

(* compile_error_cases/errors/bitfield_invalid_bitfield_enable_disable_bit_ops_value.rs:3: Unknown argument 'enable_disable_bit_ops'. Valid arguments a *)
Example errors_bitfield_invalid_bitfield_enable_disable_bit_ops_value_1 : Parser.parse_bitfield Checked default_features (u_decl
  (mkUnit "Bitfield" (Parser.mkRDecl true VisPublic "Bitfield" (Some (Parser.RPath "u32")) [("enable_disable_bit_ops", "123")]
     [Parser.mkRField "a" VisPrivate (Parser.AList Parser.RNoBits [("default", "0x12")]) (Parser.RPath "u32") (PInt 0) id_codec]) [("a", (ELit 18 None))])) = ConstExpr.PErr Parser.EUnknownArgument.
Proof. vm_compute. reflexivity. Qed.

(* compile_error_cases/errors/bitfield_invalid_bitfield_enable_disable_bit_ops_value.rs:9: Unknown argument 'enable_disable_bit_ops'. Valid arguments a *)
Example errors_bitfield_invalid_bitfield_enable_disable_bit_ops_value_2 : Parser.parse_bitfield Checked default_features (u_decl
  (mkUnit "Bitfield2" (Parser.mkRDecl true VisPublic "Bitfield2" (Some (Parser.RPath "u32")) [("enable_disable_bit_ops", "invalid")]
     [Parser.mkRField "a" VisPrivate (Parser.AList Parser.RNoBits [("default", "0x12")]) (Parser.RPath "u32") (PInt 0) id_codec]) [("a", (ELit 18 None))])) = ConstExpr.PErr Parser.EUnknownArgument.
Proof. vm_compute. reflexivity. Qed.

(* compile_error_cases/errors/bitfield_invalid_bitfield_from_endian_value.rs:3: Invalid endian argument '123'. Valid values are 'little' or  *)
Example errors_bitfield_invalid_bitfield_from_endian_value_1 : Parser.parse_bitfield Checked default_features (u_decl
  (mkUnit "Bitfield" (Parser.mkRDecl true VisPublic "Bitfield" (Some (Parser.RPath "u32")) [("from_endian", "123")]
     [Parser.mkRField "a" VisPrivate (Parser.AList Parser.RNoBits [("default", "0x12")]) (Parser.RPath "u32") (PInt 0) id_codec]) [("a", (ELit 18 None))])) = ConstExpr.PErr Parser.EBadEndian.
Proof. vm_compute. reflexivity. Qed.

(* compile_error_cases/errors/bitfield_invalid_bitfield_from_endian_value.rs:9: Invalid endian argument 'invalid'. Valid values are 'little' *)
Example errors_bitfield_invalid_bitfield_from_endian_value_2 : Parser.parse_bitfield Checked default_features (u_decl
  (mkUnit "Bitfield" (Parser.mkRDecl true VisPublic "Bitfield" (Some (Parser.RPath "u32")) [("from_endian", "invalid")]
     [Parser.mkRField "a" VisPrivate (Parser.AList Parser.RNoBits [("default", "0x12")]) (Parser.RPath "u32") (PInt 0) id_codec]) [("a", (ELit 18 None))])) = ConstExpr.PErr Parser.EBadEndian.
Proof. vm_compute. reflexivity. Qed.

(* compile_error_cases/errors/bitfield_invalid_bitfield_from_into_bits_value.rs:3: Invalid value for boolean argument 'from_into_bits'. Valid v *)
Example errors_bitfield_invalid_bitfield_from_into_bits_value_1 : Parser.parse_bitfield Checked default_features (u_decl
  (mkUnit "Bitfield" (Parser.mkRDecl true VisPublic "Bitfield" (Some (Parser.RPath "u32")) [("from_into_bits", "123")]
     [Parser.mkRField "a" VisPrivate (Parser.AList Parser.RNoBits [("default", "0x12")]) (Parser.RPath "u32") (PInt 0) id_codec]) [("a", (ELit 18 None))])) = ConstExpr.PErr Parser.EBadBool.
Proof. vm_compute. reflexivity. Qed.

(* compile_error_cases/errors/bitfield_invalid_bitfield_from_into_bits_value.rs:9: Invalid value for boolean argument 'from_into_bits'. Valid v *)
Example errors_bitfield_invalid_bitfield_from_into_bits_value_2 : Parser.parse_bitfield Checked default_features (u_decl
  (mkUnit "Bitfield2" (Parser.mkRDecl true VisPublic "Bitfield2" (Some (Parser.RPath "u32")) [("from_into_bits", "invalid")]
     [Parser.mkRField "a" VisPrivate (Parser.AList Parser.RNoBits [("default", "0x12")]) (Parser.RPath "u32") (PInt 0) id_codec]) [("a", (ELit 18 None))])) = ConstExpr.PErr Parser.EBadBool.
Proof. vm_compute. reflexivity. Qed.

(* compile_error_cases/errors/bitfield_invalid_bitfield_from_into_traits_value.rs:3: Invalid value for boolean argument 'from_traits'. Valid valu *)
Example errors_bitfield_invalid_bitfield_from_into_traits_value_1 : Parser.parse_bitfield Checked default_features (u_decl
  (mkUnit "Bitfield" (Parser.mkRDecl true VisPublic "Bitfield" (Some (Parser.RPath "u32")) [("from_traits", "123")]
     [Parser.mkRField "a" VisPrivate (Parser.AList Parser.RNoBits [("default", "0x12")]) (Parser.RPath "u32") (PInt 0) id_codec]) [("a", (ELit 18 None))])) = ConstExpr.PErr Parser.EBadBool.
Proof. vm_compute. reflexivity. Qed.

(* compile_error_cases/errors/bitfield_invalid_bitfield_from_into_traits_value.rs:9: Invalid value for boolean argument 'from_traits'. Valid valu *)
Example errors_bitfield_invalid_bitfield_from_into_traits_value_2 : Parser.parse_bitfield Checked default_features (u_decl
  (mkUnit "Bitfield2" (Parser.mkRDecl true VisPublic "Bitfield2" (Some (Parser.RPath "u32")) [("from_traits", "invalid")]
     [Parser.mkRField "a" VisPrivate (Parser.AList Parser.RNoBits [("default", "0x12")]) (Parser.RPath "u32") (PInt 0) id_codec]) [("a", (ELit 18 None))])) = ConstExpr.PErr Parser.EBadBool.
Proof. vm_compute. reflexivity. Qed.

(* compile_error_cases/errors/bitfield_invalid_bitfield_into_endian_value.rs:3: Invalid endian argument '123'. Valid values are 'little' or  *)
Example errors_bitfield_invalid_bitfield_into_endian_value_1 : Parser.parse_bitfield Checked default_features (u_decl
  (mkUnit "Bitfield" (Parser.mkRDecl true VisPublic "Bitfield" (Some (Parser.RPath "u32")) [("into_endian", "123")]
     [Parser.mkRField "a" VisPrivate (Parser.AList Parser.RNoBits [("default", "0x12")]) (Parser.RPath "u32") (PInt 0) id_codec]) [("a", (ELit 18 None))])) = ConstExpr.PErr Parser.EBadEndian.
Proof. vm_compute. reflexivity. Qed.

(* compile_error_cases/errors/bitfield_invalid_bitfield_into_endian_value.rs:9: Invalid endian argument 'invalid'. Valid values are 'little' *)
Example errors_bitfield_invalid_bitfield_into_endian_value_2 : Parser.parse_bitfield Checked default_features (u_decl
  (mkUnit "Bitfield" (Parser.mkRDecl true VisPublic "Bitfield" (Some (Parser.RPath "u32")) [("into_endian", "invalid")]
     [Parser.mkRField "a" VisPrivate (Parser.AList Parser.RNoBits [("default", "0x12")]) (Parser.RPath "u32") (PInt 0) id_codec]) [("a", (ELit 18 None))])) = ConstExpr.PErr Parser.EBadEndian.
Proof. vm_compute. reflexivity. Qed.

(* compile_error_cases/errors/bitfield_invalid_bitfield_invert_bit_ops_value.rs:3: Invalid value for boolean argument 'invert_bit_ops'. Valid v *)
Example errors_bitfield_invalid_bitfield_invert_bit_ops_value_1 : Parser.parse_bitfield Checked default_features (u_decl
  (mkUnit "Bitfield" (Parser.mkRDecl true VisPublic "Bitfield" (Some (Parser.RPath "u32")) [("invert_bit_ops", "123")]
     [Parser.mkRField "a" VisPrivate (Parser.AList Parser.RNoBits [("default", "0x12")]) (Parser.RPath "u32") (PInt 0) id_codec]) [("a", (ELit 18 None))])) = ConstExpr.PErr Parser.EBadBool.
Proof. vm_compute. reflexivity. Qed.

(* compile_error_cases/errors/bitfield_invalid_bitfield_invert_bit_ops_value.rs:9: Invalid value for boolean argument 'invert_bit_ops'. Valid v *)
Example errors_bitfield_invalid_bitfield_invert_bit_ops_value_2 : Parser.parse_bitfield Checked default_features (u_decl
  (mkUnit "Bitfield2" (Parser.mkRDecl true VisPublic "Bitfield2" (Some (Parser.RPath "u32")) [("invert_bit_ops", "invalid")]
     [Parser.mkRField "a" VisPrivate (Parser.AList Parser.RNoBits [("default", "0x12")]) (Parser.RPath "u32") (PInt 0) id_codec]) [("a", (ELit 18 None))])) = ConstExpr.PErr Parser.EBadBool.
Proof. vm_compute. reflexivity. Qed.

(* compile_error_cases/errors/bitfield_invalid_bitfield_order_value.rs:3: Invalid order argument '123'. Valid values are 'lsb' or 'msb *)
Example errors_bitfield_invalid_bitfield_order_value_1 : Parser.parse_bitfield Checked default_features (u_decl
  (mkUnit "Bitfield" (Parser.mkRDecl true VisPublic "Bitfield" (Some (Parser.RPath "u32")) [("order", "123")]
     [Parser.mkRField "a" VisPrivate (Parser.AList Parser.RNoBits [("default", "0x12")]) (Parser.RPath "u32") (PInt 0) id_codec]) [("a", (ELit 18 None))])) = ConstExpr.PErr Parser.EBadOrder.
Proof. vm_compute. reflexivity. Qed.

(* compile_error_cases/errors/bitfield_invalid_bitfield_order_value.rs:9: Invalid order argument 'invalid'. Valid values are 'lsb' or  *)
Example errors_bitfield_invalid_bitfield_order_value_2 : Parser.parse_bitfield Checked default_features (u_decl
  (mkUnit "Bitfield" (Parser.mkRDecl true VisPublic "Bitfield" (Some (Parser.RPath "u32")) [("order", "invalid")]
     [Parser.mkRField "a" VisPrivate (Parser.AList Parser.RNoBits [("default", "0x12")]) (Parser.RPath "u32") (PInt 0) id_codec]) [("a", (ELit 18 None))])) = ConstExpr.PErr Parser.EBadOrder.
Proof. vm_compute. reflexivity. Qed.

(* compile_error_cases/errors/bitfield_invalid_bitfield_set_get_bit_ops_value.rs:3: Invalid value for boolean argument 'set_get_bit_ops'. Valid  *)
Example errors_bitfield_invalid_bitfield_set_get_bit_ops_value_1 : Parser.parse_bitfield Checked default_features (u_decl
  (mkUnit "Bitfield" (Parser.mkRDecl true VisPublic "Bitfield" (Some (Parser.RPath "u32")) [("set_get_bit_ops", "123")]
     [Parser.mkRField "a" VisPrivate (Parser.AList Parser.RNoBits [("default", "0x12")]) (Parser.RPath "u32") (PInt 0) id_codec]) [("a", (ELit 18 None))])) = ConstExpr.PErr Parser.EBadBool.
Proof. vm_compute. reflexivity. Qed.

(* compile_error_cases/errors/bitfield_invalid_bitfield_set_get_bit_ops_value.rs:9: Invalid value for boolean argument 'set_get_bit_ops'. Valid  *)
Example errors_bitfield_invalid_bitfield_set_get_bit_ops_value_2 : Parser.parse_bitfield Checked default_features (u_decl
  (mkUnit "Bitfield2" (Parser.mkRDecl true VisPublic "Bitfield2" (Some (Parser.RPath "u32")) [("set_get_bit_ops", "invalid")]
     [Parser.mkRField "a" VisPrivate (Parser.AList Parser.RNoBits [("default", "0x12")]) (Parser.RPath "u32") (PInt 0) id_codec]) [("a", (ELit 18 None))])) = ConstExpr.PErr Parser.EBadBool.
Proof. vm_compute. reflexivity. Qed.

(* compile_error_cases/errors/bitfield_invalid_bitfield_toggle_bit_ops_value.rs:3: Invalid value for boolean argument 'toggle_bit_ops'. Valid v *)
Example errors_bitfield_invalid_bitfield_toggle_bit_ops_value_1 : Parser.parse_bitfield Checked default_features (u_decl
  (mkUnit "Bitfield" (Parser.mkRDecl true VisPublic "Bitfield" (Some (Parser.RPath "u32")) [("toggle_bit_ops", "123")]
     [Parser.mkRField "a" VisPrivate (Parser.AList Parser.RNoBits [("default", "0x12")]) (Parser.RPath "u32") (PInt 0) id_codec]) [("a", (ELit 18 None))])) = ConstExpr.PErr Parser.EBadBool.
Proof. vm_compute. reflexivity. Qed.

(* compile_error_cases/errors/bitfield_invalid_bitfield_toggle_bit_ops_value.rs:9: Invalid value for boolean argument 'toggle_bit_ops'. Valid v *)
Example errors_bitfield_invalid_bitfield_toggle_bit_ops_value_2 : Parser.parse_bitfield Checked default_features (u_decl
  (mkUnit "Bitfield2" (Parser.mkRDecl true VisPublic "Bitfield2" (Some (Parser.RPath "u32")) [("toggle_bit_ops", "invalid")]
     [Parser.mkRField "a" VisPrivate (Parser.AList Parser.RNoBits [("default", "0x12")]) (Parser.RPath "u32") (PInt 0) id_codec]) [("a", (ELit 18 None))])) = ConstExpr.PErr Parser.EBadBool.
Proof. vm_compute. reflexivity. Qed.

(* compile_error_cases/errors/bitfield_invalid_bitfield_write_bit_ops_value.rs:3: Invalid value for boolean argument 'write_bit_ops'. Valid va *)
Example errors_bitfield_invalid_bitfield_write_bit_ops_value_1 : Parser.parse_bitfield Checked default_features (u_decl
  (mkUnit "Bitfield" (Parser.mkRDecl true VisPublic "Bitfield" (Some (Parser.RPath "u32")) [("write_bit_ops", "123")]
     [Parser.mkRField "a" VisPrivate (Parser.AList Parser.RNoBits [("default", "0x12")]) (Parser.RPath "u32") (PInt 0) id_codec]) [("a", (ELit 18 None))])) = ConstExpr.PErr Parser.EBadBool.
Proof. vm_compute. reflexivity. Qed.

(* compile_error_cases/errors/bitfield_invalid_bitfield_write_bit_ops_value.rs:9: Invalid value for boolean argument 'write_bit_ops'. Valid va *)
Example errors_bitfield_invalid_bitfield_write_bit_ops_value_2 : Parser.parse_bitfield Checked default_features (u_decl
  (mkUnit "Bitfield2" (Parser.mkRDecl true VisPublic "Bitfield2" (Some (Parser.RPath "u32")) [("write_bit_ops", "invalid")]
     [Parser.mkRField "a" VisPrivate (Parser.AList Parser.RNoBits [("default", "0x12")]) (Parser.RPath "u32") (PInt 0) id_codec]) [("a", (ELit 18 None))])) = ConstExpr.PErr Parser.EBadBool.
Proof. vm_compute. reflexivity. Qed.

(* compile_error_cases/errors/bitfield_invalid_bitfield_write_endian_value.rs:3: Invalid endian argument '123'. Valid values are 'little' or  *)
Example errors_bitfield_invalid_bitfield_write_endian_value_1 : Parser.parse_bitfield Checked default_features (u_decl
  (mkUnit "Bitfield" (Parser.mkRDecl true VisPublic "Bitfield" (Some (Parser.RPath "u32")) [("write_endian", "123")]
     [Parser.mkRField "a" VisPrivate (Parser.AList Parser.RNoBits [("default", "0x12")]) (Parser.RPath "u32") (PInt 0) id_codec]) [("a", (ELit 18 None))])) = ConstExpr.PErr Parser.EBadEndian.
Proof. vm_compute. reflexivity. Qed.

(* compile_error_cases/errors/bitfield_invalid_bitfield_write_endian_value.rs:9: Invalid endian argument 'invalid'. Valid values are 'little' *)
Example errors_bitfield_invalid_bitfield_write_endian_value_2 : Parser.parse_bitfield Checked default_features (u_decl
  (mkUnit "Bitfield2" (Parser.mkRDecl true VisPublic "Bitfield2" (Some (Parser.RPath "u32")) [("write_endian", "invalid")]
     [Parser.mkRField "a" VisPrivate (Parser.AList Parser.RNoBits [("default", "0x12")]) (Parser.RPath "u32") (PInt 0) id_codec]) [("a", (ELit 18 None))])) = ConstExpr.PErr Parser.EBadEndian.
Proof. vm_compute. reflexivity. Qed.

(* compile_error_cases/errors/bitfield_invalid_field_access_value.rs:3: Invalid field access argument '123'. Valid values are 'ro',  *)
Example errors_bitfield_invalid_field_access_value_1 : Parser.parse_bitfield Checked default_features (u_decl
  (mkUnit "Bitfield" (Parser.mkRDecl true VisPublic "Bitfield" (Some (Parser.RPath "u32")) []
     [Parser.mkRField "a" VisPrivate (Parser.AList Parser.RNoBits [("default", "0x12"); ("access", "123")]) (Parser.RPath "u32") (PInt 0) id_codec]) [("a", (ELit 18 None))])) = ConstExpr.PErr Parser.EBadAccess.
Proof. vm_compute. reflexivity. Qed.

(* compile_error_cases/errors/bitfield_invalid_field_access_value.rs:9: Invalid field access argument 'invalid'. Valid values are 'r *)
Example errors_bitfield_invalid_field_access_value_2 : Parser.parse_bitfield Checked default_features (u_decl
  (mkUnit "Bitfield" (Parser.mkRDecl true VisPublic "Bitfield" (Some (Parser.RPath "u32")) []
     [Parser.mkRField "a" VisPrivate (Parser.AList Parser.RNoBits [("default", "0x12"); ("access", "invalid")]) (Parser.RPath "u32") (PInt 0) id_codec]) [("a", (ELit 18 None))])) = ConstExpr.PErr Parser.EBadAccess.
Proof. vm_compute. reflexivity. Qed.

(* compile_error_cases/errors/bitfield_invalid_field_ignore_value.rs:3: Invalid value for boolean argument 'ignore'. Valid values ar *)
Example errors_bitfield_invalid_field_ignore_value_1 : Parser.parse_bitfield Checked default_features (u_decl
  (mkUnit "Bitfield" (Parser.mkRDecl true VisPublic "Bitfield" (Some (Parser.RPath "u32")) []
     [Parser.mkRField "a" VisPrivate (Parser.AList Parser.RNoBits [("default", "0x12"); ("ignore", "43242")]) (Parser.RPath "u32") (PInt 0) id_codec]) [("a", (ELit 18 None))])) = ConstExpr.PErr Parser.EBadBool.
Proof. vm_compute. reflexivity. Qed.

(* compile_error_cases/errors/bitfield_isize_field.rs:3: The `isize` and `usize` types are not supported, we cannot g *)
Example errors_bitfield_isize_field_1 : Parser.parse_bitfield Checked default_features (u_decl
  (mkUnit "Bitfield" (Parser.mkRDecl true VisPublic "Bitfield" (Some (Parser.RPath "u32")) []
     [Parser.mkRField "a" VisPrivate Parser.ANone (Parser.RPath "isize") (PInt 0) id_codec;
      Parser.mkRField "b" VisPrivate (Parser.AList Parser.RNoBits [("default", "1")]) (Parser.RPath "u8") (PInt 0) id_codec;
      Parser.mkRField "c" VisPrivate (Parser.AList Parser.RNoBits [("default", "2")]) (Parser.RPath "u8") (PInt 0) id_codec;
      Parser.mkRField "d" VisPrivate (Parser.AList Parser.RNoBits [("default", "3")]) (Parser.RPath "u8") (PInt 0) id_codec]) [("b", (ELit 1 None)); ("c", (ELit 2 None)); ("d", (ELit 3 None))])) = ConstExpr.PErr Parser.EFieldType.
Proof. vm_compute. reflexivity. Qed.

(* compile_error_cases/errors/bitfield_isize_field_without_bits.rs:3: The `isize` and `usize` types are not supported, we cannot g *)
Example errors_bitfield_isize_field_without_bits_1 : Parser.parse_bitfield Checked default_features (u_decl
  (mkUnit "Bitfield" (Parser.mkRDecl true VisPublic "Bitfield" (Some (Parser.RPath "u32")) []
     [Parser.mkRField "a" VisPrivate Parser.ANone (Parser.RPath "isize") (PInt 0) id_codec;
      Parser.mkRField "b" VisPrivate (Parser.AList Parser.RNoBits [("default", "1")]) (Parser.RPath "u8") (PInt 0) id_codec;
      Parser.mkRField "c" VisPrivate (Parser.AList Parser.RNoBits [("default", "2")]) (Parser.RPath "u8") (PInt 0) id_codec;
      Parser.mkRField "d" VisPrivate (Parser.AList Parser.RNoBits [("default", "3")]) (Parser.RPath "u8") (PInt 0) id_codec]) [("b", (ELit 1 None)); ("c", (ELit 2 None)); ("d", (ELit 3 None))])) = ConstExpr.PErr Parser.EFieldType.
Proof. vm_compute. reflexivity. Qed.

(* compile_error_cases/errors/bitfield_lsb_field_bits_too_large.rs:3: The total number of bits of the fields '64 bits' is greater  *)
Example errors_bitfield_lsb_field_bits_too_large_1 : Parser.parse_bitfield Checked default_features (u_decl
  (mkUnit "Bitfield" (Parser.mkRDecl true VisPublic "Bitfield" (Some (Parser.RPath "u32")) [("order", "lsb")]
     [Parser.mkRField "a" VisPrivate Parser.ANone (Parser.RPath "u32") (PInt 0) id_codec;
      Parser.mkRField "b" VisPrivate Parser.ANone (Parser.RPath "u32") (PInt 0) id_codec]) [])) = ConstExpr.PErr Parser.ETooManyBits.
Proof. vm_compute. reflexivity. Qed.

(* compile_error_cases/errors/bitfield_msb_field_bits_too_large.rs:3: The total bits of the fields (64 bits) exceeds the bit size  *)
Example errors_bitfield_msb_field_bits_too_large_1 : Parser.parse_bitfield Checked default_features (u_decl
  (mkUnit "Bitfield" (Parser.mkRDecl true VisPublic "Bitfield" (Some (Parser.RPath "u32")) [("order", "msb")]
     [Parser.mkRField "a" VisPrivate Parser.ANone (Parser.RPath "u32") (PInt 0) id_codec;
      Parser.mkRField "b" VisPrivate Parser.ANone (Parser.RPath "u32") (PInt 0) id_codec]) [])) = ConstExpr.PErr Parser.EMsbOverflow.
Proof. vm_compute. reflexivity. Qed.

(* compile_error_cases/errors/bitfield_negative_default_value_too_large_for_bits.rs:3: The negative default value '-90000000' is below the minimum  *)
Example errors_bitfield_negative_default_value_too_large_for_bits_1 : Parser.parse_bitfield Checked default_features (u_decl
  (mkUnit "Bitfield" (Parser.mkRDecl true VisPublic "Bitfield" (Some (Parser.RPath "u16")) []
     [Parser.mkRField "a" VisPrivate (Parser.AList Parser.RNoBits [("default", "-90000000")]) (Parser.RPath "i8") (PInt 0) id_codec;
      Parser.mkRField "b" VisPrivate (Parser.AList (Parser.RBits 8 "") []) (Parser.RPath "u8") (PInt 0) id_codec]) [("a", (EUn UNeg (ELit 90000000 None)))])) = ConstExpr.PErr Parser.EDefaultTooSmall.
Proof. vm_compute. reflexivity. Qed.

(* compile_error_cases/errors/bitfield_negative_field_bits.rs:3: Invalid bit count, expected an unsigned integer. *)
Example errors_bitfield_negative_field_bits_1 : Parser.parse_bitfield Checked default_features (u_decl
  (mkUnit "Bitfield" (Parser.mkRDecl true VisPublic "Bitfield" (Some (Parser.RPath "u32")) []
     [Parser.mkRField "a" VisPrivate (Parser.AList Parser.RMinus []) (Parser.RPath "u32") (PInt 0) id_codec]) [])) = ConstExpr.PErr Parser.EBitsMinus.
Proof. vm_compute. reflexivity. Qed.

(* compile_error_cases/errors/bitfield_non_named_fields.rs:3: Non-named fields are not supported. *)
Example errors_bitfield_non_named_fields_1 : Parser.parse_bitfield Checked default_features (u_decl
  (mkUnit "TupleStruct" (Parser.mkRDecl false VisPublic "TupleStruct" (Some (Parser.RPath "u8")) []
     []) [])) = ConstExpr.PErr Parser.EUnnamed.
Proof. vm_compute. reflexivity. Qed.

(* compile_error_cases/errors/bitfield_positive_default_value_too_large_for_bits.rs:3: The default value '4294967295' exceeds the maximum value for *)
Example errors_bitfield_positive_default_value_too_large_for_bits_1 : Parser.parse_bitfield Checked default_features (u_decl
  (mkUnit "Bitfield" (Parser.mkRDecl true VisPublic "Bitfield" (Some (Parser.RPath "u16")) []
     [Parser.mkRField "a" VisPrivate (Parser.AList Parser.RNoBits [("default", "0xFFFFFFFF")]) (Parser.RPath "u8") (PInt 0) id_codec;
      Parser.mkRField "b" VisPrivate (Parser.AList (Parser.RBits 8 "") []) (Parser.RPath "u8") (PInt 0) id_codec]) [("a", (ELit 4294967295 None))])) = ConstExpr.PErr Parser.EDefaultTooBig.
Proof. vm_compute. reflexivity. Qed.

(* compile_error_cases/errors/bitfield_reserved_field_with_access.rs:3: Reserved fields cannot have a defined access. *)
Example errors_bitfield_reserved_field_with_access_1 : Parser.parse_bitfield Checked default_features (u_decl
  (mkUnit "Bitfield" (Parser.mkRDecl true VisPublic "Bitfield" (Some (Parser.RPath "u8")) []
     [Parser.mkRField "_reserved" VisPrivate (Parser.AList Parser.RNoBits [("access", "ro")]) (Parser.RPath "u8") (PInt 0) id_codec]) [])) = ConstExpr.PErr Parser.EReservedAccess.
Proof. vm_compute. reflexivity. Qed.

(* compile_error_cases/errors/bitfield_type_reference_type.rs:3: The bitfield must have an unsigned integer literal as its fi *)
Example errors_bitfield_type_reference_type_1 : Parser.parse_bitfield Checked default_features (u_decl
  (mkUnit "Bitfield" (Parser.mkRDecl true VisPublic "Bitfield" (Some Parser.ROther) []
     [Parser.mkRField "a" VisPrivate Parser.ANone (Parser.RPath "u8") (PInt 0) id_codec]) [])) = ConstExpr.PErr Parser.EBackingType.
Proof. vm_compute. reflexivity. Qed.

(* compile_error_cases/errors/bitfield_unknown_arg.rs:3: Unknown argument 'deez'. Valid arguments are: 'array_heap',  *)
Example errors_bitfield_unknown_arg_1 : Parser.parse_bitfield Checked default_features (u_decl
  (mkUnit "Bitfield" (Parser.mkRDecl true VisPublic "Bitfield" (Some (Parser.RPath "u32")) [("deez", "what")]
     [Parser.mkRField "a" VisPrivate (Parser.AList Parser.RNoBits [("default", "0x12")]) (Parser.RPath "u32") (PInt 0) id_codec]) [("a", (ELit 18 None))])) = ConstExpr.PErr Parser.EUnknownArgument.
Proof. vm_compute. reflexivity. Qed.

(* compile_error_cases/errors/bitfield_unknown_field_arg.rs:3: Unknown argument 'deez'. Valid arguments are: 'access', 'def *)
Example errors_bitfield_unknown_field_arg_1 : Parser.parse_bitfield Checked default_features (u_decl
  (mkUnit "Bitfield" (Parser.mkRDecl true VisPublic "Bitfield" (Some (Parser.RPath "u32")) []
     [Parser.mkRField "a" VisPrivate (Parser.AList Parser.RNoBits [("default", "0x12"); ("deez", "what")]) (Parser.RPath "u32") (PInt 0) id_codec]) [("a", (ELit 18 None))])) = ConstExpr.PErr Parser.EUnknownArgument.
Proof. vm_compute. reflexivity. Qed.

(* compile_error_cases/errors/bitfield_unsigned_field_negative_value.rs:3: Unsigned fields cannot have negative default values. *)
Example errors_bitfield_unsigned_field_negative_value_1 : Parser.parse_bitfield Checked default_features (u_decl
  (mkUnit "Bitfield" (Parser.mkRDecl true VisPublic "Bitfield" (Some (Parser.RPath "u8")) []
     [Parser.mkRField "a" VisPrivate (Parser.AList (Parser.RBits 8 "") [("default", "-0x1u8")]) (Parser.RPath "u8") (PInt 0) id_codec]) [("a", (EUn UNeg (ELit 1 (Some (TI U8)))))])) = ConstExpr.PErr Parser.ENegativeUnsigned.
Proof. vm_compute. reflexivity. Qed.

(* compile_error_cases/errors/bitfield_unsupported_type.rs:3: The bitfield must have an unsigned integer literal as its fi *)
Example errors_bitfield_unsupported_type_1 : Parser.parse_bitfield Checked default_features (u_decl
  (mkUnit "Bitfield" (Parser.mkRDecl true VisPublic "Bitfield" (Some (Parser.RPath "i32")) []
     [Parser.mkRField "a" VisPrivate Parser.ANone (Parser.RPath "u8") (PInt 0) id_codec;
      Parser.mkRField "b" VisPrivate Parser.ANone (Parser.RPath "u8") (PInt 0) id_codec;
      Parser.mkRField "c" VisPrivate Parser.ANone (Parser.RPath "u8") (PInt 0) id_codec]) [])) = ConstExpr.PErr Parser.EBackingType.
Proof. vm_compute. reflexivity. Qed.

(* compile_error_cases/errors/bitfield_usize_field.rs:3: The `isize` and `usize` types are not supported, we cannot g *)
Example errors_bitfield_usize_field_1 : Parser.parse_bitfield Checked default_features (u_decl
  (mkUnit "Bitfield" (Parser.mkRDecl true VisPublic "Bitfield" (Some (Parser.RPath "u32")) []
     [Parser.mkRField "a" VisPrivate Parser.ANone (Parser.RPath "isize") (PInt 0) id_codec;
      Parser.mkRField "b" VisPrivate (Parser.AList Parser.RNoBits [("default", "1")]) (Parser.RPath "u8") (PInt 0) id_codec;
      Parser.mkRField "c" VisPrivate (Parser.AList Parser.RNoBits [("default", "2")]) (Parser.RPath "u8") (PInt 0) id_codec;
      Parser.mkRField "d" VisPrivate (Parser.AList Parser.RNoBits [("default", "3")]) (Parser.RPath "u8") (PInt 0) id_codec]) [("b", (ELit 1 None)); ("c", (ELit 2 None)); ("d", (ELit 3 None))])) = ConstExpr.PErr Parser.EFieldType.
Proof. vm_compute. reflexivity. Qed.

(* compile_error_cases/errors/bitfield_usize_field_bits_attribute_empty_array.rs:3: The `isize` and `usize` types are not supported, we cannot g *)
Example errors_bitfield_usize_field_bits_attribute_empty_array_1 : Parser.parse_bitfield Checked default_features (u_decl
  (mkUnit "Bitfield" (Parser.mkRDecl true VisPublic "Bitfield" (Some (Parser.RPath "u32")) []
     [Parser.mkRField "a" VisPrivate (Parser.AList Parser.RNoBits []) (Parser.RPath "usize") (PInt 0) id_codec;
      Parser.mkRField "b" VisPrivate (Parser.AList Parser.RNoBits [("default", "1")]) (Parser.RPath "u8") (PInt 0) id_codec;
      Parser.mkRField "c" VisPrivate (Parser.AList Parser.RNoBits [("default", "2")]) (Parser.RPath "u8") (PInt 0) id_codec;
      Parser.mkRField "d" VisPrivate (Parser.AList Parser.RNoBits [("default", "3")]) (Parser.RPath "u8") (PInt 0) id_codec]) [("b", (ELit 1 None)); ("c", (ELit 2 None)); ("d", (ELit 3 None))])) = ConstExpr.PErr Parser.EFieldType.
Proof. vm_compute. reflexivity. Qed.

(* compile_error_cases/errors/bitfield_usize_field_without_bits.rs:3: The `isize` and `usize` types are not supported, we cannot g *)
Example errors_bitfield_usize_field_without_bits_1 : Parser.parse_bitfield Checked default_features (u_decl
  (mkUnit "Bitfield" (Parser.mkRDecl true VisPublic "Bitfield" (Some (Parser.RPath "u32")) []
     [Parser.mkRField "a" VisPrivate Parser.ANone (Parser.RPath "usize") (PInt 0) id_codec;
      Parser.mkRField "b" VisPrivate (Parser.AList Parser.RNoBits [("default", "1")]) (Parser.RPath "u8") (PInt 0) id_codec;
      Parser.mkRField "c" VisPrivate (Parser.AList Parser.RNoBits [("default", "2")]) (Parser.RPath "u8") (PInt 0) id_codec;
      Parser.mkRField "d" VisPrivate (Parser.AList Parser.RNoBits [("default", "3")]) (Parser.RPath "u8") (PInt 0) id_codec]) [("b", (ELit 1 None)); ("c", (ELit 2 None)); ("d", (ELit 3 None))])) = ConstExpr.PErr Parser.EFieldType.
Proof. vm_compute. reflexivity. Qed.

(* compile_error_cases/errors/bitflag_float_type.rs:3 *)
Example errors_bitflag_float_type_1 : Bitflag.parse_bitflag default_features
  (Bitflag.mkREnum VisPublic "Flags" (Some (Parser.RPath "f32")) [] [Bitflag.mkRVariant "Unknown" ["base"] (Some "0") Bitflag.FLit 0; Bitflag.mkRVariant "A" [] (Some "1") Bitflag.FLit 1]) = ConstExpr.PErr (Bitflag.FType).
Proof. vm_compute. reflexivity. Qed.

(* compile_error_cases/errors/bitflag_invalid_from_endian_value.rs:3 *)
Example errors_bitflag_invalid_from_endian_value_1 : Bitflag.parse_bitflag default_features
  (Bitflag.mkREnum VisPublic "Flags" (Some (Parser.RPath "u8")) [("from_endian", "invalid")] [Bitflag.mkRVariant "Unknown" ["base"] (Some "0") Bitflag.FLit 0; Bitflag.mkRVariant "A" [] (Some "1") Bitflag.FLit 1]) = ConstExpr.PErr (Bitflag.FArgument Parser.EBadEndian).
Proof. vm_compute. reflexivity. Qed.

(* compile_error_cases/errors/bitflag_invalid_into_endian_value.rs:3 *)
Example errors_bitflag_invalid_into_endian_value_1 : Bitflag.parse_bitflag default_features
  (Bitflag.mkREnum VisPublic "Flags" (Some (Parser.RPath "u8")) [("into_endian", "invalid")] [Bitflag.mkRVariant "Unknown" ["base"] (Some "0") Bitflag.FLit 0; Bitflag.mkRVariant "A" [] (Some "1") Bitflag.FLit 1]) = ConstExpr.PErr (Bitflag.FArgument Parser.EBadEndian).
Proof. vm_compute. reflexivity. Qed.

(* compile_error_cases/errors/bitflag_multiple_base_variants.rs:3 *)
Example errors_bitflag_multiple_base_variants_1 : Bitflag.parse_bitflag default_features
  (Bitflag.mkREnum VisPublic "Flags" (Some (Parser.RPath "u8")) [] [Bitflag.mkRVariant "Unknown" ["base"] (Some "0") Bitflag.FLit 0; Bitflag.mkRVariant "A" ["base"] (Some "1") Bitflag.FLit 1]) = ConstExpr.PErr (Bitflag.FManyBases).
Proof. vm_compute. reflexivity. Qed.

(* compile_error_cases/errors/bitflag_no_base_or_default_variant.rs:3 *)
Example errors_bitflag_no_base_or_default_variant_1 : Bitflag.parse_bitflag default_features
  (Bitflag.mkREnum VisPublic "Flags" (Some (Parser.RPath "u8")) [] [Bitflag.mkRVariant "A" [] (Some "1") Bitflag.FLit 1; Bitflag.mkRVariant "B" [] (Some "2") Bitflag.FLit 2]) = ConstExpr.PErr (Bitflag.FNoBase).
Proof. vm_compute. reflexivity. Qed.

(* compile_error_cases/errors/bitflag_size_type.rs:3 *)
Example errors_bitflag_size_type_1 : Bitflag.parse_bitflag default_features
  (Bitflag.mkREnum VisPublic "Flags" (Some (Parser.RPath "usize")) [] [Bitflag.mkRVariant "Unknown" ["base"] (Some "0") Bitflag.FLit 0; Bitflag.mkRVariant "A" [] (Some "1") Bitflag.FLit 1]) = ConstExpr.PErr (Bitflag.FType).
Proof. vm_compute. reflexivity. Qed.

(* compile_error_cases/errors/bitflag_unknown_arg.rs:3 *)
Example errors_bitflag_unknown_arg_1 : Bitflag.parse_bitflag default_features
  (Bitflag.mkREnum VisPublic "Flags" (Some (Parser.RPath "u8")) [("foo", "bar")] [Bitflag.mkRVariant "Unknown" ["base"] (Some "0") Bitflag.FLit 0; Bitflag.mkRVariant "A" [] (Some "1") Bitflag.FLit 1]) = ConstExpr.PErr (Bitflag.FArgument Parser.EUnknownArgument).
Proof. vm_compute. reflexivity. Qed.

(* compile_error_cases/errors/bitflag_unsupported_type.rs:3 *)
Example errors_bitflag_unsupported_type_1 : Bitflag.parse_bitflag default_features
  (Bitflag.mkREnum VisPublic "Flags" (Some (Parser.RPath "i32")) [] [Bitflag.mkRVariant "Unknown" ["base"] (Some "0") Bitflag.FLit 0; Bitflag.mkRVariant "A" [] (Some "1") Bitflag.FLit 1]) = ConstExpr.PErr (Bitflag.FType).
Proof. vm_compute. reflexivity. Qed.

(* compile_error_cases/errors/bitflag_variant_without_explicit_value.rs:3 *)
Example errors_bitflag_variant_without_explicit_value_1 : Bitflag.parse_bitflag default_features
  (Bitflag.mkREnum VisPublic "Flags" (Some (Parser.RPath "u8")) [] [Bitflag.mkRVariant "Unknown" ["base"] (Some "0") Bitflag.FLit 0; Bitflag.mkRVariant "A" [] None Bitflag.FLit 1]) = ConstExpr.PErr (Bitflag.FNoValue).
Proof. vm_compute. reflexivity. Qed.

(* compile_error_cases/errors/array_fields/array_field_array_backed_msb_overflow.rs:3: The total bits of the fields (24 bits) exceeds the bit size  *)
Example errors_array_fields_array_field_array_backed_msb_overflow_1 : Parser.parse_bitfield Checked default_features (u_decl
  (mkUnit "Bitfield" (Parser.mkRDecl true VisPublic "Bitfield" (Some (Parser.RArray (Parser.RPath "u8") (Parser.LenLit 2))) [("order", "msb")]
     [Parser.mkRField "a" VisPrivate Parser.ANone (Parser.RArray (Parser.RPath "u8") (Parser.LenLit 2)) (PInt 0) id_codec;
      Parser.mkRField "b" VisPrivate Parser.ANone (Parser.RPath "u8") (PInt 0) id_codec]) [])) = ConstExpr.PErr Parser.EMsbOverflow.
Proof. vm_compute. reflexivity. Qed.

(* compile_error_cases/errors/array_fields/array_field_array_backed_too_few_bits.rs:3: The total number of bits of the fields '16 bits' is less tha *)
Example errors_array_fields_array_field_array_backed_too_few_bits_1 : Parser.parse_bitfield Checked default_features (u_decl
  (mkUnit "Bitfield" (Parser.mkRDecl true VisPublic "Bitfield" (Some (Parser.RArray (Parser.RPath "u8") (Parser.LenLit 4))) []
     [Parser.mkRField "a" VisPrivate Parser.ANone (Parser.RArray (Parser.RPath "u8") (Parser.LenLit 2)) (PInt 0) id_codec]) [])) = ConstExpr.PErr Parser.ETooFewBits.
Proof. vm_compute. reflexivity. Qed.

(* compile_error_cases/errors/array_fields/array_field_array_backed_too_many_bits.rs:4: The total number of bits of the fields '32 bits' is greater  *)
Example errors_array_fields_array_field_array_backed_too_many_bits_1 : Parser.parse_bitfield Checked default_features (u_decl
  (mkUnit "Bitfield" (Parser.mkRDecl true VisPublic "Bitfield" (Some (Parser.RArray (Parser.RPath "u8") (Parser.LenLit 2))) []
     [Parser.mkRField "a" VisPrivate Parser.ANone (Parser.RArray (Parser.RPath "u8") (Parser.LenLit 4)) (PInt 0) id_codec]) [])) = ConstExpr.PErr Parser.ETooManyBits.
Proof. vm_compute. reflexivity. Qed.

(* compile_error_cases/errors/array_fields/array_field_array_length_too_big.rs:4: Field array length is currently capped at 4,294,967,295, ple *)
Example errors_array_fields_array_field_array_length_too_big_1 : Parser.parse_bitfield Checked default_features (u_decl
  (mkUnit "Bitfield" (Parser.mkRDecl true VisPublic "Bitfield" (Some (Parser.RArray (Parser.RPath "u8") (Parser.LenLit 2))) []
     [Parser.mkRField "a" VisPrivate Parser.ANone (Parser.RArray (Parser.RPath "u8") (Parser.LenLit 4294967296)) (PInt 0) id_codec]) [])) = ConstExpr.PErr Parser.EFieldType.
Proof. vm_compute. reflexivity. Qed.

(* compile_error_cases/errors/array_fields/array_field_float_element_type.rs:3: Floats are not supported as a field type. *)
Example errors_array_fields_array_field_float_element_type_1 : Parser.parse_bitfield Checked default_features (u_decl
  (mkUnit "Bitfield" (Parser.mkRDecl true VisPublic "Bitfield" (Some (Parser.RPath "u32")) []
     [Parser.mkRField "a" VisPrivate Parser.ANone (Parser.RArray (Parser.RPath "f32") (Parser.LenLit 1)) (PInt 0) id_codec]) [])) = ConstExpr.PErr Parser.EFieldType.
Proof. vm_compute. reflexivity. Qed.

(* compile_error_cases/errors/array_fields/array_field_integer_backed_too_few_bits.rs:4: The total number of bits of the fields '16 bits' is less tha *)
Example errors_array_fields_array_field_integer_backed_too_few_bits_1 : Parser.parse_bitfield Checked default_features (u_decl
  (mkUnit "Bitfield" (Parser.mkRDecl true VisPublic "Bitfield" (Some (Parser.RPath "u32")) []
     [Parser.mkRField "a" VisPrivate Parser.ANone (Parser.RArray (Parser.RPath "u8") (Parser.LenLit 2)) (PInt 0) id_codec]) [])) = ConstExpr.PErr Parser.ETooFewBits.
Proof. vm_compute. reflexivity. Qed.

(* compile_error_cases/errors/array_fields/array_field_integer_backed_too_many_bits.rs:4: The total number of bits of the fields '32 bits' is greater  *)
Example errors_array_fields_array_field_integer_backed_too_many_bits_1 : Parser.parse_bitfield Checked default_features (u_decl
  (mkUnit "Bitfield" (Parser.mkRDecl true VisPublic "Bitfield" (Some (Parser.RPath "u16")) []
     [Parser.mkRField "a" VisPrivate Parser.ANone (Parser.RArray (Parser.RPath "u8") (Parser.LenLit 4)) (PInt 0) id_codec]) [])) = ConstExpr.PErr Parser.ETooManyBits.
Proof. vm_compute. reflexivity. Qed.

(* compile_error_cases/errors/array_fields/array_field_non_u8_element_type.rs:3: Array fields can only have `u8` as their element type. *)
Example errors_array_fields_array_field_non_u8_element_type_1 : Parser.parse_bitfield Checked default_features (u_decl
  (mkUnit "Bitfield" (Parser.mkRDecl true VisPublic "Bitfield" (Some (Parser.RPath "u32")) []
     [Parser.mkRField "a" VisPrivate Parser.ANone (Parser.RArray (Parser.RPath "u16") (Parser.LenLit 2)) (PInt 0) id_codec]) [])) = ConstExpr.PErr Parser.EFieldType.
Proof. vm_compute. reflexivity. Qed.

(* compile_error_cases/errors/array_fields/array_field_signed_element_type.rs:3: Array fields can only have `u8` as their element type. *)
Example errors_array_fields_array_field_signed_element_type_1 : Parser.parse_bitfield Checked default_features (u_decl
  (mkUnit "Bitfield" (Parser.mkRDecl true VisPublic "Bitfield" (Some (Parser.RPath "u32")) []
     [Parser.mkRField "a" VisPrivate Parser.ANone (Parser.RArray (Parser.RPath "i8") (Parser.LenLit 4)) (PInt 0) id_codec]) [])) = ConstExpr.PErr Parser.EFieldType.
Proof. vm_compute. reflexivity. Qed.

(* compile_error_cases/errors/array_fields/array_field_zero_length.rs:3: Array fields must have a length greater than 0. *)
Example errors_array_fields_array_field_zero_length_1 : Parser.parse_bitfield Checked default_features (u_decl
  (mkUnit "Bitfield" (Parser.mkRDecl true VisPublic "Bitfield" (Some (Parser.RPath "u8")) []
     [Parser.mkRField "a" VisPrivate Parser.ANone (Parser.RArray (Parser.RPath "u8") (Parser.LenLit 0)) (PInt 0) id_codec]) [])) = ConstExpr.PErr Parser.EFieldType.
Proof. vm_compute. reflexivity. Qed.

(* compile_error_cases/errors/arrays/array_field_bit_count_too_large.rs:3: Bit count '4294967296' is too big, the maximum amount of bit *)
Example errors_arrays_array_field_bit_count_too_large_1 : Parser.parse_bitfield Checked default_features (u_decl
  (mkUnit "Bitfield" (Parser.mkRDecl true VisPublic "Bitfield" (Some (Parser.RArray (Parser.RPath "u8") (Parser.LenLit 1))) []
     [Parser.mkRField "a" VisPrivate (Parser.AList (Parser.RBits 4294967296 "") []) (Parser.RPath "u8") (PInt 0) id_codec]) [])) = ConstExpr.PErr Parser.EBitsTooBig.
Proof. vm_compute. reflexivity. Qed.

(* compile_error_cases/errors/arrays/array_fields_too_few_bits.rs:3: The total number of bits of the fields '8 bits' is less than *)
Example errors_arrays_array_fields_too_few_bits_1 : Parser.parse_bitfield Checked default_features (u_decl
  (mkUnit "Bitfield" (Parser.mkRDecl true VisPublic "Bitfield" (Some (Parser.RArray (Parser.RPath "u8") (Parser.LenLit 2))) []
     [Parser.mkRField "a" VisPrivate Parser.ANone (Parser.RPath "u8") (PInt 0) id_codec]) [])) = ConstExpr.PErr Parser.ETooFewBits.
Proof. vm_compute. reflexivity. Qed.

(* compile_error_cases/errors/arrays/array_fields_too_many_bits.rs:3: The total number of bits of the fields '24 bits' is greater  *)
Example errors_arrays_array_fields_too_many_bits_1 : Parser.parse_bitfield Checked default_features (u_decl
  (mkUnit "Bitfield" (Parser.mkRDecl true VisPublic "Bitfield" (Some (Parser.RArray (Parser.RPath "u8") (Parser.LenLit 2))) []
     [Parser.mkRField "a" VisPrivate Parser.ANone (Parser.RPath "u8") (PInt 0) id_codec;
      Parser.mkRField "b" VisPrivate Parser.ANone (Parser.RPath "u8") (PInt 0) id_codec;
      Parser.mkRField "c" VisPrivate Parser.ANone (Parser.RPath "u8") (PInt 0) id_codec]) [])) = ConstExpr.PErr Parser.ETooManyBits.
Proof. vm_compute. reflexivity. Qed.

(* compile_error_cases/errors/arrays/array_float_element_type.rs:3: The bitfield must have an unsigned integer literal as its fi *)
Example errors_arrays_array_float_element_type_1 : Parser.parse_bitfield Checked default_features (u_decl
  (mkUnit "Bitfield" (Parser.mkRDecl true VisPublic "Bitfield" (Some (Parser.RArray (Parser.RPath "f32") (Parser.LenLit 4))) []
     [Parser.mkRField "a" VisPrivate Parser.ANone (Parser.RPath "u32") (PInt 0) id_codec]) [])) = ConstExpr.PErr Parser.EBackingType.
Proof. vm_compute. reflexivity. Qed.

(* compile_error_cases/errors/arrays/array_length_too_large.rs:3: The bitfield array length is currently capped at 4,294,967,2 *)
Example errors_arrays_array_length_too_large_1 : Parser.parse_bitfield Checked default_features (u_decl
  (mkUnit "Bitfield" (Parser.mkRDecl true VisPublic "Bitfield" (Some (Parser.RArray (Parser.RPath "u8") (Parser.LenLit 4294967296))) []
     [Parser.mkRField "a" VisPrivate Parser.ANone (Parser.RPath "u8") (PInt 0) id_codec]) [])) = ConstExpr.PErr Parser.EBackingType.
Proof. vm_compute. reflexivity. Qed.

(* compile_error_cases/errors/arrays/array_msb_fields_overflow.rs:3: The total bits of the fields (24 bits) exceeds the bit size  *)
Example errors_arrays_array_msb_fields_overflow_1 : Parser.parse_bitfield Checked default_features (u_decl
  (mkUnit "Bitfield" (Parser.mkRDecl true VisPublic "Bitfield" (Some (Parser.RArray (Parser.RPath "u8") (Parser.LenLit 2))) [("order", "msb")]
     [Parser.mkRField "a" VisPrivate Parser.ANone (Parser.RPath "u8") (PInt 0) id_codec;
      Parser.mkRField "b" VisPrivate Parser.ANone (Parser.RPath "u8") (PInt 0) id_codec;
      Parser.mkRField "c" VisPrivate Parser.ANone (Parser.RPath "u8") (PInt 0) id_codec]) [])) = ConstExpr.PErr Parser.EMsbOverflow.
Proof. vm_compute. reflexivity. Qed.

(* compile_error_cases/errors/arrays/array_non_u8_element_type.rs:3: The bitfield array must have an unsigned `u8` integer type a *)
Example errors_arrays_array_non_u8_element_type_1 : Parser.parse_bitfield Checked default_features (u_decl
  (mkUnit "Bitfield" (Parser.mkRDecl true VisPublic "Bitfield" (Some (Parser.RArray (Parser.RPath "u16") (Parser.LenLit 4))) []
     [Parser.mkRField "a" VisPrivate Parser.ANone (Parser.RPath "u64") (PInt 0) id_codec]) [])) = ConstExpr.PErr Parser.EBackingType.
Proof. vm_compute. reflexivity. Qed.

(* compile_error_cases/errors/arrays/array_signed_element_type.rs:3: The bitfield array must have an unsigned `u8` integer type a *)
Example errors_arrays_array_signed_element_type_1 : Parser.parse_bitfield Checked default_features (u_decl
  (mkUnit "Bitfield" (Parser.mkRDecl true VisPublic "Bitfield" (Some (Parser.RArray (Parser.RPath "i8") (Parser.LenLit 4))) []
     [Parser.mkRField "a" VisPrivate Parser.ANone (Parser.RPath "u32") (PInt 0) id_codec]) [])) = ConstExpr.PErr Parser.EBackingType.
Proof. vm_compute. reflexivity. Qed.

(* compile_error_cases/errors/arrays/array_zero_length.rs:3: The bitfield array length must be greater than 0. *)
Example errors_arrays_array_zero_length_1 : Parser.parse_bitfield Checked default_features (u_decl
  (mkUnit "Bitfield" (Parser.mkRDecl true VisPublic "Bitfield" (Some (Parser.RArray (Parser.RPath "u8") (Parser.LenLit 0))) []
     [Parser.mkRField "a" VisPrivate Parser.ANone (Parser.RPath "u8") (PInt 0) id_codec]) [])) = ConstExpr.PErr Parser.EBackingType.
Proof. vm_compute. reflexivity. Qed.

(* 593 tests, 77 programs of the documentation and 131 declarations of the compile error cases translated.  Skipped:
   lib_tests.rs:621 bitfield_field_nested_bitfield custom default NestedBitfield::new()
   lib_tests.rs:682 bitfield_field_struct_custom_type from_bits body Self { a : bits as i8 , b : bits , }
   lib_tests.rs:723 bitfield_field_reserved_struct_custom_type from_bits body Self { a : bits as i8 , b : bits , }
   lib_tests.rs:1825 bitfield_ignored_field field access
   lib_tests.rs:5653 compile_error_cases path
   lib_tests.rs:5660 compile_panics_cases path
   lib_array_backed_tests.rs:622 bitfield_field_nested_bitfield custom default NestedBitfield::new()
   lib_array_backed_tests.rs:683 bitfield_field_struct_custom_type from_bits body Self { a : bits as i8 , b : bits , }
   lib_array_backed_tests.rs:724 bitfield_field_reserved_struct_custom_type from_bits body Self { a : bits as i8 , b : bits , }
   lib_array_backed_tests.rs:1700 bitfield_ignored_field field access
   lib_array_backed_tests.rs:4051 bitfield_with_bitflag_field_unknown_bits_map_to_base expected =, found |
   lib_array_backed_tests.rs:4147 compile_error_cases path
   lib_array_backed_tests.rs:4504 bitfield_into_slice_larger_buffer expression ..
   lib_array_backed_tests.rs:4702 bitfield_very_large_256bit_all_functions expression ..
   lib_array_field_tests.rs:696 array_field_with_ignored_field field access
   lib_array_field_tests.rs:767 bitfield_large_array_field_384_bits expected in, found i
   lib_array_field_tests.rs:812 compile_error_cases_array_fields path
   lib_array_field_array_backed_tests.rs:775 array_field_with_ignored_field field access
   lib_array_field_array_backed_tests.rs:802 large_array_field_192_bits expected in, found i
   lib_array_field_array_backed_tests.rs:818 large_array_field_with_mixed_fields expected in, found i
   lib_array_field_array_backed_tests.rs:841 large_array_field_256_bit_mixed expected in, found i
   lib_feature_flag_tests.rs:29 feature_order_msb_default_packing cfg all(feature = 'order_msb', not(feature = 'order_lsb'))
   lib_feature_flag_tests.rs:158 feature_from_endian_little_byte_swap cfg feature = 'from_endian_little'
   lib_feature_flag_tests.rs:198 feature_into_endian_little_byte_swap cfg feature = 'into_endian_little'
   lib_feature_flag_tests.rs:466 feature_write_endian_little_write_le_bits cfg feature = 'write_endian_little'
   README.md:532 readme_532 method of the user: custom_set_write_only
   README.md:594 readme_594 from_bits body Self { health : bits & 0b0000_1111 , mana : ( bits >> 4 ) & 0b0000_0011 , stamina : ( bits >> 6 ) & 0b0000_0001 , }
   README.md:725 readme_725 custom default GameMap::new()
   README.md:1540 readme_1540 operator +
   README.md:1947 readme_1947 field access
   README.md:2050 readme_2050 method into of u16
   README.md:2076 readme_2076 expression <
   bitfields_impl/src/lib.rs:329 doc_329 method of the user: custom_set_write_only
   bitfields_impl/src/lib.rs:392 doc_392 from_bits body Self { health : bits & 0b0000_1111 , mana : ( bits >> 4 ) & 0b0000_0011 , stamina : ( bits >> 6 ) & 0b0000_0001 , }
   bitfields_impl/src/lib.rs:524 doc_524 custom default GameMap::new()
   bitfields_impl/src/lib.rs:1353 doc_1353 operator +
   bitfields_impl/src/lib.rs:1769 doc_1769 field access
   bitfields_impl/src/lib.rs:1876 doc_1876 method into of u16
   bitfields_impl/src/lib.rs:1903 doc_1903 expression <
   bitfields/examples/custom_types.rs example_custom_types from_bits body Self { red : bits & 0b0000_0111 , green : ( bits >> 3 ) & 0b0000_0111 , blue : ( bits >> 6 ) & 0b0000_0011 , }
   compile_error_cases/errors/bitfield_arg_without_value.rs:3 errors_bitfield_arg_without_value_1 argument
   compile_error_cases/errors/bitfield_attribute_non_struct.rs:3 errors_bitfield_attribute_non_struct_1 message expected `struct`
   compile_error_cases/errors/bitfield_builder_can_not_write_ro_field.rs:1 errors_bitfield_builder_can_not_write_ro_field_1 message cannot find attribute `bitfield` in this scope
   compile_error_cases/errors/bitfield_default_value_unknown_suffix.rs:3 errors_bitfield_default_value_unknown_suffix_1 message invalid suffix `op` for number literal
   compile_error_cases/errors/bitfield_field_negative_default_bigger_than_i128.rs:3 errors_bitfield_field_negative_default_bigger_than_i128_1 message integer literal is too large
   compile_error_cases/errors/bitfield_float_type.rs:8 errors_bitfield_float_type_2 type 0 f32
   compile_error_cases/errors/bitfield_invalid_arg.rs:3 errors_bitfield_invalid_arg_1 argument
   compile_error_cases/errors/bitfield_invalid_field_default_path_value.rs:3 errors_bitfield_invalid_field_default_path_value_1 message Expected argument value
   compile_error_cases/errors/bitfield_invalid_field_default_path_value.rs:9 errors_bitfield_invalid_field_default_path_value_2 message Expected argument value
   compile_error_cases/errors/bitfield_invalid_field_default_path_value.rs:15 errors_bitfield_invalid_field_default_path_value_3 message expected `,`
   compile_error_cases/errors/bitfield_invalid_field_default_path_value.rs:21 errors_bitfield_invalid_field_default_path_value_4 message Expected argument value
   compile_error_cases/errors/bitfield_invalid_field_default_path_value.rs:27 errors_bitfield_invalid_field_default_path_value_5 message casting `&'static str` as `u32` is invalid
   compile_error_cases/errors/bitfield_invalid_type.rs:3 errors_bitfield_invalid_type_1 type + - -
   errors/bitfield_type_unexpected_end_of_input.rs errors_bitfield_type_unexpected_end_of_input translator: IndexError('list index out of range')
   errors/bitflag_arg_without_value.rs errors_bitflag_arg_without_value translator: IndexError('list index out of range')
   errors/bitflag_empty_type.rs errors_bitflag_empty_type translator: IndexError('list index out of range')
   compile_error_cases/errors/bitflag_non_enum.rs:3 errors_bitflag_non_enum_1 message expected `enum`
   compile_error_cases/panics/bitfield_force_panic.rs:3 panics_bitfield_force_panic_1 message A major unexpected error has occurred. If possible, please file an issue with code reproducing the error to https://github.com/gregorygaines/bitfields-rs/issues: Forced panic for testing purposes
*)
