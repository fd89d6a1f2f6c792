(** Tokens of an attribute -> bit count and [key = value] pairs
    (parsing/common/attribute_argument_parser.rs and the [Parse] instances that
    call it).  [Parser.v] and [Bitflag.v] start from the result.

    Not modelled: [syn]'s parsers of expressions and types.  They are arguments
    [pe] and [pt] of the functions: they take tokens from the front and return the
    printed expression (the type) and the remaining tokens. *)
From Coq Require Import ZArith List Bool String.
From Verif Require Import RustInt Syntax ConstExpr Parser Bitflag.
Import ListNotations.
Open Scope Z_scope.

(** Punctuation is split into single characters, as [syn] matches it ([==] begins
    with [=]).  [KIdent]: an identifier that is no keyword. *)
Inductive tok :=
| KComma | KMinus | KEq
| KIdent (name : string)
| KInt (n : N) (suffix : string)
| KOther (text : string).
Definition expr_parser := list tok -> option (string * list tok).
Definition type_parser := list tok -> option (rtype * list tok).

(** Errors: one constructor per call site of attribute_argument_parser.rs; [AComma]
    is [syn]'s own error, [AParse] an error of [Parser.v]. *)
Inductive aerr :=
| AIdent       (* 57 *)
| AUnknown     (* 67 *)
| AEq          (* 75 *)
| ANoValue     (* 82 *)
| ABadValue    (* 92 *)
| AComma       (* 46 *)
| AParse (e : perr).
Definition ar := pres aerr.
Definition lift {A} (x : pr A) : ar A :=
  match x with POk a => POk a | PErr e => PErr (AParse e) | PPanic => PPanic end.

(** [if input.peek(Token![,]) { input.parse::<Token![,]>()?; }] *)
Definition skip_comma (ts : list tok) : list tok :=
  match ts with KComma :: t => t | _ => ts end.

(** attribute_argument_parser.rs:51-106: one argument. *)
Definition parse_argument (pe : expr_parser) (keys : list string) (ts : list tok)
  : ar (string * string * list tok) :=
  match ts with
  | KIdent key :: t =>
      if negb (existsb (String.eqb key) keys) then PErr AUnknown
      else match t with
           | KEq :: [] => PErr ANoValue
           | KEq :: e => match pe e with Some (v, rest) => POk (key, v, rest) | None => PErr ABadValue end
           | _ => PErr AEq
           end
  | _ => PErr AIdent
  end.

(** attribute_argument_parser.rs:44-107: the loop; every turn takes at least one
    token, so that the number of tokens bounds the turns. *)
Fixpoint argument_loop (n : nat) (pe : expr_parser) (keys : list string) (first : bool) (ts : list tok)
  : ar (list (string * string)) :=
  match ts with
  | [] => POk []
  | t :: u =>
      match n with
      | O => PPanic
      | S n' =>
          let next ts :=
            a <~ parse_argument pe keys ts ;;
            rest <~ argument_loop n' pe keys false (snd a) ;;
            POk (fst a :: rest) in
          if first then next ts
          else match t with
               | KComma => match u with [] => POk [] | _ => next u end
               | _ => PErr AComma
               end
      end
  end.
(** attribute_argument_parser.rs:32-110 ([parse_attribute_arguments]). *)
Definition parse_arguments (pe : expr_parser) (keys : list string) (ts : list tok) : ar (list (string * string)) :=
  let ts := skip_comma ts in argument_loop (List.length ts) pe keys true ts.

(** bits_attribute_parser.rs:50-89 ([parse_bits]). *)
Definition parse_count (ts : list tok) : ar (option Z * list tok) :=
  match skip_comma ts with
  | KMinus :: _ => PErr (AParse EBitsMinus)
  | KInt n suffix :: t =>
      b <~ lift (parse_bits (RBits n suffix)) ;; POk (b, skip_comma t)
  | ts => POk (None, ts)
  end.

(** bits_attribute_parser.rs:25-42 ([BitsAttribute::parse]). *)
Definition parse_bits_attribute (pe : expr_parser) (ts : list tok) : ar battr :=
  c <~ parse_count ts ;;
  args <~ parse_arguments pe bits_keys (snd c) ;;
  a <~ lift (fold_args bits_arg bargs_default args) ;;
  POk (mkBAttr (fst c) a).

(** An attribute of a field: its name, and its tokens if it is a list. *)
Record fattr := mkFAttr { fa_name : string; fa_tokens : option (list tok) }.
(** bitfield_parser.rs:169-185 ([get_bits_attribute]): the first one named [bits]. *)
Definition field_attribute (pe : expr_parser) (attrs : list fattr) : ar (option battr) :=
  match find (fun a => String.eqb (fa_name a) "bits") attrs with
  | None => POk None
  | Some a =>
      match fa_tokens a with
      | None => PErr (AParse ENotList)
      | Some ts => b <~ parse_bits_attribute pe ts ;; POk (Some b)
      end
  end.

(** bitfield_attribute_parser.rs:25-33, 44-108 ([BitfieldAttribute::parse]). *)
Definition parse_backing (pt : type_parser) (ts : list tok) : option (rtype * list tok) :=
  match ts with [] => None | _ => pt ts end.
Definition parse_bitfield_tokens (pe : expr_parser) (pt : type_parser) (F : features) (ts : list tok)
  : ar (dtype * (bfargs * bool)) :=
  match parse_backing pt ts with
  | None => PErr (AParse EBackingType)
  | Some (t, rest) =>
      match get_data_type t with
      | PErr _ => PErr (AParse EBackingType)
      | PPanic => PPanic
      | POk DCustom => PErr (AParse EBackingType)
      | POk ty =>
          if negb (dt_unsigned ty) then PErr (AParse EBackingType)
          else args <~ parse_arguments pe bitfield_keys rest ;;
               a <~ lift (fold_args bitfield_arg (args_default F, false) args) ;;
               POk (ty, a)
      end
  end.

(** bitflag_attribute_parser.rs:23-34, 44-91 ([BitflagAttribute::parse]). *)
Definition parse_bitflag_tokens (pe : expr_parser) (pt : type_parser) (F : features) (ts : list tok)
  : ar (dtype * flagargs) :=
  match parse_backing pt ts with
  | None => PErr (AParse EBackingType)
  | Some (t, rest) =>
      match get_data_type t with
      | PErr _ => PErr (AParse EBackingType)
      | PPanic => PPanic
      | POk DCustom => PErr (AParse EBackingType)
      | POk ty =>
          if negb (dt_unsigned ty) then PErr (AParse EBackingType)
          else args <~ parse_arguments pe flag_keys rest ;;
               a <~ lift (fold_args flag_arg (flagargs_default F) args) ;;
               POk (ty, a)
      end
  end.

(** ** Whole declarations with attributes as tokens *)

(** A field: its attributes and the rest. *)
Record tfield := mkTField {
  tf_attrs : list fattr;
  tf_name : string;
  tf_vis : vis;
  tf_ty : rtype;
  tf_value : pval;
  tf_codec : codec }.
Record tdecl := mkTDecl {
  td_named : bool;
  td_vis : vis;
  td_name : string;
  td_tokens : list tok;     (* the content of [#[bitfield(..)]] *)
  td_fields : list tfield }.
(** The field with its [#[bits]] attribute split. *)
Definition split_field (t : tfield) (a : rattr) : rfield :=
  mkRField (tf_name t) (tf_vis t) a (tf_ty t) (tf_value t) (tf_codec t).

(** bitfield_parser.rs:56-105 ([parse_fields]), 107-149 ([parse_field_helper]). *)
Fixpoint token_fields_loop (pe : expr_parser) (m : mode) (o : border) (ty : dtype) (bv : vis) (ts : list tfield)
    (acc ign : list field) (seen : list string) : ar (list field * list field) :=
  match ts with
  | [] => POk (acc, ign)
  | t :: ts' =>
      if existsb (String.eqb (tf_name t)) seen then PErr (AParse EDuplicate)
      else
        a <~ field_attribute pe (tf_attrs t) ;;
        f <~ lift (field_with m o ty bv (split_field t ANone) acc a) ;;
        let seen' := if f_reserved f then seen else tf_name t :: seen in
        if f_ignored f then token_fields_loop pe m o ty bv ts' acc (ign ++ [f]) seen'
        else token_fields_loop pe m o ty bv ts' (acc ++ [f]) ign seen'
  end.
(** bitfield_parser.rs:20-40 ([parse_bitfield_struct]), lib.rs:2148-2163. *)
Definition parse_declaration (pe : expr_parser) (pt : type_parser) (m : mode) (F : features) (d : tdecl) : ar bitfield :=
  x <~ parse_bitfield_tokens pe pt F (td_tokens d) ;;
  let '(ty, (args, fp)) := x in
  if negb (td_named d) then PErr (AParse EUnnamed)
  else
    fs <~ token_fields_loop pe m (a_order args) ty (td_vis d) (td_fields d) [] [] [] ;;
    _ <~ lift (check_fit m ty (fst fs)) ;;
    if fp then PPanic
    else POk (mkBitfield (td_vis d) (td_name d) ty (fst fs) (snd fs) args).
