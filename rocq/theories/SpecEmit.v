(** Specification vocabulary of C59 and C60: calls of the emitted functions by
    name, builder chains, slices; and the declarations used beside the theorems. *)
From Coq Require Import ZArith List Bool String.
From Verif Require Import RustInt Syntax Spec Rust Surface Emit EmitVocab.
From Verif Require Gen CoreLemmas Hist ConstExpr Parser PropParse PropSurface PropNames SpecSurface Words PropCompose Examples.
Import ListNotations.
Open Scope string_scope.
Open Scope list_scope.
Open Scope Z_scope.

(** ** Calls *)

(** The call an operation stands for: the result and the bitfield afterwards.
    Constructors are calls whose result is assigned to the variable. *)
Definition assigned (x : option (outcome (value * value))) : option (outcome (value * value)) :=
  match x with Some (Val (v, _)) => Some (Val (RU, v)) | Some Panic => Some Panic | None => None end.
Definition kept (self : value) (x : option (outcome (value * env))) : option (outcome (value * value)) :=
  match x with Some (Val (v, _)) => Some (Val (v, self)) | Some Panic => Some Panic | None => None end.
Definition word (bf : bitfield) : string := if is_integer_backed bf then "bits" else "bytes".
Definition order_word (v : Gen.variant) : string :=
  match v with Gen.Configured => "" | Gen.AsLe => "le_" | Gen.AsBe => "be_" end.
Definition defaults_word (d : bool) : string := if d then "_with_defaults" else "".
Definition number (bf : bitfield) (x : Z) : value := enc_store (CoreLemmas.store_of bf x).

Definition invoke (dx : field -> expr) (bf : bitfield) (m : mode) (fuel depth : nat) (o : Hist.op) (self : value)
  : option (outcome (value * value)) :=
  let P := emitted dx bf in
  let method n args := call P m fuel depth n self args in
  let construct n args := assigned (call P m fuel depth n RU args) in
  let foreign own i args := run_fn P own i (mkRt m fuel (call P m fuel depth)) RU args in
  match o with
  | Hist.OSet f a => method ("set_" ++ f_name f)%string [enc_fval a]
  | Hist.OCheckedSet f a => method ("checked_set_" ++ f_name f)%string [enc_fval a]
  | Hist.OGet f => method (f_name f) []
  | Hist.OInvert f => method ("invert_" ++ f_name f)%string []
  | Hist.OInverted f => method (f_name f ++ "_inverted")%string []
  | Hist.OClear f => method ("clear_" ++ f_name f)%string []
  | Hist.OClearDefault f => method ("clear_" ++ f_name f ++ "_to_default")%string []
  | Hist.OClearAll d => method ("clear_" ++ word bf ++ defaults_word d)%string []
  | Hist.OInvertAll => method ("invert_" ++ word bf)%string []
  | Hist.OSetBit i b => method "set_bit" [RI i; RB b]
  | Hist.OCheckedSetBit i b => method "checked_set_bit" [RI i; RB b]
  | Hist.OGetBit i => method "get_bit" [RI i]
  | Hist.OCheckedGetBit i => method "checked_get_bit" [RI i]
  | Hist.OSetRange off len x => method ("set_" ++ word bf ++ "_range")%string [RI off; RI len; number bf x]
  | Hist.OCheckedSetRange off len x => method ("checked_set_" ++ word bf ++ "_range")%string [RI off; RI len; number bf x]
  | Hist.OGetRange off len => method ("get_" ++ word bf ++ "_range")%string [RI off; RI len]
  | Hist.OCheckedGetRange off len => method ("checked_get_" ++ word bf ++ "_range")%string [RI off; RI len]
  | Hist.OWrite v d b => method ("write_" ++ order_word v ++ word bf ++ defaults_word d)%string [number bf b]
  | Hist.OWriteDefaults => method "write_defaults" []
  | Hist.OInto v => method ("into_" ++ order_word v ++ word bf)%string []
  | Hist.OTraitInto => kept self (foreign false (trait_into_fn bf) [self])
  | Hist.ONew d => construct (if d then "new" else "new_without_defaults") []
  | Hist.ODefault => assigned (kept self (foreign true (default_fn dx bf) []))
  | Hist.OFrom v d b => construct ("from_" ++ order_word v ++ word bf ++ defaults_word d)%string [number bf b]
  | Hist.OTraitFrom b => assigned (kept self (foreign true (trait_from_fn bf) [number bf b]))
  end.

(** The function is generated. *)
Definition offered (bf : bitfield) (o : Hist.op) : bool :=
  let a := b_args bf in
  match o with
  | Hist.OSet f _ | Hist.OCheckedSet f _ => has_setter f
  | Hist.OGet f => has_getter f
  | Hist.OInvert f => invert_on bf && has_setter f
  | Hist.OInverted f => invert_on bf && has_getter f
  | Hist.OClear f => clear_on bf && has_setter f
  | Hist.OClearDefault f => clear_on bf && (has_setter f && has_default f)
  | Hist.OClearAll _ => clear_on bf
  | Hist.OInvertAll => invert_on bf
  | Hist.OSetBit _ _ | Hist.OCheckedSetBit _ _ | Hist.OGetBit _ | Hist.OCheckedGetBit _
  | Hist.OSetRange _ _ _ | Hist.OCheckedSetRange _ _ _ | Hist.OGetRange _ _ | Hist.OCheckedGetRange _ _ => set_get_on bf
  | Hist.OWrite _ _ _ | Hist.OWriteDefaults => write_on bf
  | Hist.OInto _ | Hist.OFrom _ _ _ => a_from_into_bits a
  | Hist.OTraitInto | Hist.OTraitFrom _ => a_from_traits a
  | Hist.ONew _ => a_new a
  | Hist.ODefault => a_default a
  end.

(** The arguments are values of the types of the parameters. *)
Definition is_u32 (x : Z) : Prop := 0 <= x < 2 ^ 32.
Definition typed (bf : bitfield) (o : Hist.op) : Prop :=
  match o with
  | Hist.OSet f a | Hist.OCheckedSet f a => In f (b_fields bf) /\ has_type f a
  | Hist.OGet f | Hist.OInvert f | Hist.OInverted f | Hist.OClear f | Hist.OClearDefault f => In f (b_fields bf)
  | Hist.OSetBit i _ | Hist.OCheckedSetBit i _ | Hist.OGetBit i | Hist.OCheckedGetBit i => is_u32 i
  | Hist.OSetRange off len x | Hist.OCheckedSetRange off len x => is_u32 off /\ is_u32 len /\ Hist.num_arg bf x
  | Hist.OGetRange off len | Hist.OCheckedGetRange off len => is_u32 off /\ is_u32 len
  | Hist.OWrite _ _ b | Hist.OFrom _ _ b | Hist.OTraitFrom b => Hist.num_arg bf b
  | _ => True
  end.

(** A returned value shows an observation. *)
Definition value_num (v : value) : option Z :=
  match v with RI z => Some z | RA l => Some (le_val l) | _ => None end.
Definition shows (b : Hist.obs) (v : value) : Prop :=
  match b with
  | Hist.BNone => v = RU
  | Hist.BRes r => v = match r with Ok _ => ROk RU | Err e => RErr e end
  | Hist.BVal a => v = enc_fval a
  | Hist.BBool b => v = RB b
  | Hist.BResBool r => v = match r with Ok b => ROk (RB b) | Err e => RErr e end
  | Hist.BNum z => value_num v = Some z
  | Hist.BResNum r => match r with Ok z => exists w, v = ROk w /\ value_num w = Some z | Err e => v = RErr e end
  end.

Definition agrees (x : outcome (store * Hist.obs)) (y : option (outcome (value * value))) : Prop :=
  match x with
  | Val (s', b) => exists v, y = Some (Val (v, enc_store s')) /\ shows b v
  | Panic => y = Some Panic
  end.

(** ** Declarations *)

(** What is asked of the program around the macro: array types have a length
    below 2^32, the conversions of custom types take and return integers, custom
    types of fields with the same name (only padding fields can share one) are the
    same, and the default expressions are constants whose values are the defaults
    of the descriptor. *)
Record surroundings (dx : field -> expr) (bf : bitfield) : Prop := {
  sr_len : forall f len, In f (b_fields bf) -> f_ty f = DArray len -> len < 2 ^ 32;
  sr_codec : forall f, In f (b_fields bf) -> codec_ok f;
  sr_same : forall f g, In f (b_fields bf) -> In g (b_fields bf) -> f_ty f = DCustom -> f_ty g = DCustom ->
    f_name f = f_name g -> f_codec f = f_codec g;
  sr_default : forall f p, In f (b_fields bf) -> f_default f = Some p -> dval bf f (dx f) = Some p }.

(** The declaration is accepted and no two items of the [impl] block have the same
    name, as rustc demands; C35_exact says when that is so. *)
Definition accepted_distinct (F : Parser.features) (d : Parser.rdecl) (bf : bitfield) : Prop :=
  (exists m, Parser.parse_bitfield m F d = ConstExpr.POk bf) /\
  exists s, generate bf = Val s /\ NoDup (PropSurface.names_of (s_impl s)).
(** Plain names are enough (C35_plain). *)
Lemma plain_distinct m F d bf s : Parser.parse_bitfield m F d = ConstExpr.POk bf -> generate bf = Val s ->
  (forall r, In r (PropNames.named_fields d) -> SpecSurface.plain (Parser.r_name r)) ->
  NoDup (map (fun r => Words.capitals (Parser.r_name r)) (PropNames.named_fields d)) -> accepted_distinct F d bf.
Proof. intros Hp Hs Hn Hc. split; [eauto|]. exists s. split; [exact Hs|]. exact (PropNames.C35_plain m F d bf s Hp Hs Hn Hc). Qed.

Definition checks (dx : field -> expr) (bf : bitfield) (own : bool) (i : fn) : Prop :=
  check_fn (emitted dx bf) own i <> None.

(** ** Histories, builders, slices *)

(** A history as a sequence of calls of emitted functions: the returned values
    and the bitfield at the end. *)
Fixpoint invoke_all (dx : field -> expr) (bf : bitfield) (m : mode) (fuel depth : nat) (os : list Hist.op) (self : value)
  : option (outcome (list value * value)) :=
  match os with
  | [] => Some (Val ([], self))
  | o :: t =>
      match invoke dx bf m fuel depth o self with
      | Some (Val (v, self')) =>
          match invoke_all dx bf m fuel depth t self' with
          | Some (Val (vs, self'')) => Some (Val (v :: vs, self''))
          | x => x
          end
      | Some Panic => Some Panic
      | None => None
      end
  end.

Definition callable (bf : bitfield) (o : Hist.op) : Prop :=
  offered bf o = true /\ typed bf o /\ Hist.op_ok bf o.


(** The builder: [Builder::new()] or [Builder::new_without_defaults()], a chain of
    [with_x] and [checked_with_x(..)?], then [build()]. *)
Section Chain.
Variables (dx : field -> expr) (bf : bitfield) (r : rt).
Definition on_builder (i : fn) (self : value) (args : list value) (k : value -> option (outcome (res value))) : option (outcome (res value)) :=
  match run_fn (emitted dx bf) false i r self args with
  | Some (Val (RErr e, _)) => Some (Val (Err e))
  | Some (Val (ROk v, _)) | Some (Val (v, _)) => k v
  | Some Panic => Some Panic
  | None => None
  end.
Fixpoint on_chain (ls : list PropCompose.link) (self : value) : option (outcome (res value)) :=
  match ls with
  | [] => on_builder (build_fn bf) self [] (fun v => Some (Val (Ok v)))
  | PropCompose.LWith f a :: t => on_builder (with_fn bf f) self [enc_fval a] (on_chain t)
  | PropCompose.LChecked f a :: t => on_builder (checked_with_fn bf f) self [enc_fval a] (on_chain t)
  end.
Definition built (d : bool) (ls : list PropCompose.link) : option (outcome (res value)) :=
  on_builder (builder_new_fn dx bf d) RU [] (on_chain ls).
End Chain.

(** The slice conversions; the second component of the result of [run_fn] is what
    the references passed in point to afterwards. *)
Definition with_slice (dx : field -> expr) (bf : bitfield) (m : mode) (fuel depth : nat) (i : fn) (self : value) (slice : list Z)
  : option (outcome (value * env)) :=
  run_fn (emitted dx bf) true i (mkRt m fuel (call (emitted dx bf) m fuel depth)) self [RA slice].


(** ** Cases *)

(** Default expressions as they are usually written. *)
Definition written (f : field) : expr :=
  match f_default f with
  | Some (PInt z) => if z <? 0 then EUn UNeg (ELit (- z) None) else ELit z None
  | Some (PBool b) => EBool b
  | Some (PArr l) => EArray l None
  | Some (PCustom t) => EUser (TUser (f_name f)) (RC t)
  | None => EUnit
  end.
Definition parsed (d : Parser.rdecl) : bitfield :=
  match Parser.parse_bitfield Checked PropParse.no_feature d with ConstExpr.POk bf => bf | _ => Examples.ex_int end.
Definition int_decl : Parser.rdecl := PropParse.ex_decl [].
Definition arr_decl : Parser.rdecl :=
  Parser.mkRDecl true VisPublic "Arr" (Some (Parser.RArray (Parser.RPath "u8") (Parser.LenLit 4))) []
    [PropParse.fld "a" (Parser.AList (Parser.RBits 3 "") [("default", "5")]) (Parser.RPath "u8") (PInt 5);
     PropParse.fld "two" Parser.ANone (Parser.RArray (Parser.RPath "u8") (Parser.LenLit 2)) (PInt 0);
     PropParse.fld "flag" (Parser.AList Parser.RNoBits [("access", "ro"); ("default", "true")]) (Parser.RPath "bool") (PBool true);
     PropParse.fld "_r" (Parser.AList (Parser.RBits 4 "") [("default", "9")]) (Parser.RPath "u8") (PInt 9);
     PropParse.fld "s" Parser.ANone (Parser.RPath "i8") (PInt 0)].
(** No [new]: the builder sets the fields itself. *)
Definition no_new_decl : Parser.rdecl := PropParse.ex_decl [("new", "false")].

Definition named (bf : bitfield) (n : string) : field :=
  match find (fun f => String.eqb (f_name f) n) (b_fields bf) with Some f => f | None => Examples.ex_a end.
Definition int_ops : list Hist.op :=
  let bf := parsed int_decl in
  [Hist.OSet (named bf "b") (VInt 6); Hist.OCheckedSet (named bf "c") (VInt 7); Hist.OCheckedSet (named bf "c") (VInt 8);
   Hist.OGet (named bf "c"); Hist.OInverted (named bf "b"); Hist.OGetRange 8 4; Hist.OSetBit 31 true; Hist.OInto Gen.AsBe].
Definition arr_ops : list Hist.op :=
  let bf := parsed arr_decl in
  [Hist.OSet (named bf "two") (VArr [1; 2]); Hist.OCheckedSetBit 19 true; Hist.OGet (named bf "two"); Hist.OInvert (named bf "s");
   Hist.OGet (named bf "s"); Hist.OInto Gen.AsBe].

Ltac each H := match type of H with In _ _ => vm_compute in H; repeat destruct H as [<-|H]; try contradiction H end.
Lemma int_decl_accepted : accepted_distinct PropParse.no_feature int_decl (parsed int_decl).
Proof.
  eapply (plain_distinct Checked); [vm_compute; reflexivity|vm_compute; reflexivity| |].
  - intros r Hr. apply PropNames.plainb_spec. each Hr; vm_compute; reflexivity.
  - apply PropNames.nodupb_spec. vm_compute. reflexivity.
Qed.
Lemma arr_decl_accepted : accepted_distinct PropParse.no_feature arr_decl (parsed arr_decl).
Proof.
  eapply (plain_distinct Checked); [vm_compute; reflexivity|vm_compute; reflexivity| |].
  - intros r Hr. apply PropNames.plainb_spec. each Hr; vm_compute; reflexivity.
  - apply PropNames.nodupb_spec. vm_compute. reflexivity.
Qed.
Lemma no_new_accepted : accepted_distinct PropParse.no_feature no_new_decl (parsed no_new_decl).
Proof.
  eapply (plain_distinct Checked); [vm_compute; reflexivity|vm_compute; reflexivity| |].
  - intros r Hr. apply PropNames.plainb_spec. each Hr; vm_compute; reflexivity.
  - apply PropNames.nodupb_spec. vm_compute. reflexivity.
Qed.
Ltac around := constructor;
  [ intros f len Hf H; each Hf; vm_compute in H; try discriminate H; injection H as <-; reflexivity
  | intros f Hf H; each Hf; vm_compute in H; try discriminate H; split; discriminate
  | intros f g Hf Hg H1 H2 H3; each Hf; try discriminate H1; each Hg; try discriminate H2; reflexivity
  | intros f p Hf H; each Hf; vm_compute in H; try discriminate H; injection H as <-; vm_compute; reflexivity ].
Lemma int_decl_ok : bf_ok (parsed int_decl) /\ surroundings written (parsed int_decl).
Proof. split; [apply Examples.bf_okb_ok; vm_compute; reflexivity | around]. Qed.
Lemma arr_decl_ok : bf_ok (parsed arr_decl) /\ surroundings written (parsed arr_decl).
Proof. split; [apply Examples.bf_okb_ok; vm_compute; reflexivity | around]. Qed.
Lemma no_new_ok : bf_ok (parsed no_new_decl) /\ surroundings written (parsed no_new_decl).
Proof. split; [apply Examples.bf_okb_ok; vm_compute; reflexivity | around]. Qed.

Definition enough : nat := Z.to_nat (2 ^ 33).
Lemma enough_ok : 2 ^ 32 < Z.of_nat enough.
Proof. unfold enough. rewrite Z2Nat.id by (vm_compute; discriminate). vm_compute. reflexivity. Qed.
Lemma named_in bf n : existsb (fun f => String.eqb (f_name f) n) (b_fields bf) = true -> In (named bf n) (b_fields bf).
Proof.
  intros H. unfold named. destruct (find (fun f => String.eqb (f_name f) n) (b_fields bf)) as [f|] eqn:E; [apply (find_some _ _ E)|].
  apply existsb_exists in H. destruct H as (f & Hf & He). rewrite (find_none _ _ E f Hf) in He. discriminate He.
Qed.
Ltac callable_part := cbn [typed Hist.op_ok]; repeat match goal with
  | |- True => exact I
  | |- Hist.range_args _ _ _ => split; [vm_compute; discriminate | right; split; [left; vm_compute; discriminate | vm_compute; reflexivity]]
  | |- In (named _ _) _ => apply named_in; vm_compute; reflexivity
  | |- _ /\ _ => split
  | |- _ => vm_compute; repeat first [ exact I | reflexivity | discriminate | split | constructor ]
  end.
Ltac callable_op := split; [vm_compute; reflexivity | split; callable_part].
