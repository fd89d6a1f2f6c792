(** The items around the generated functions: attributes, generic parameters and
    payloads as the user wrote them, and what is emitted for them.

    Paths are relative to /repo/bitfields_impl/src. *)
From Coq Require Import ZArith List Bool String.
From Verif Require Import RustInt Syntax ConstExpr Parser Surface Bitflag Attr.
Import ListNotations.
Open Scope string_scope.

(** An attribute: its path and the tokens after it, delimiters included. *)
Record uattr := mkUAttr { ua_path : string; ua_rest : list tok }.
Definition parens (ts : list tok) : list tok := (KOther "(" :: ts ++ [KOther ")"])%list.

(** A struct under [#[bitfield(..)]]: the attributes below it, its generic
    parameters, and the rest as in [Attr.v]. *)
Record ustruct := mkUStruct {
  us_attrs : list uattr;
  us_generics : list string;
  us_decl : tdecl }.
(** A variant: its attributes, its payload (the types in parentheses or braces),
    and the rest as in [Bitflag.v]; there [v_attrs] are the paths of the attributes. *)
Record uvariant := mkUVariant {
  uv_attrs : list uattr;
  uv_payload : list rtype;
  uv_name : string;
  uv_text : option string;
  uv_form : eform;
  uv_value : Z }.
Record uenum := mkUEnum {
  ue_attrs : list uattr;
  ue_generics : list string;
  ue_vis : vis;
  ue_name : string;
  ue_type : option rtype;
  ue_args : list (string * string);
  ue_variants : list uvariant }.
Definition variant_decl (v : uvariant) : rvariant :=
  mkRVariant (uv_name v) (map ua_path (uv_attrs v)) (uv_text v) (uv_form v) (uv_value v).
Definition enum_decl (e : uenum) : renum :=
  mkREnum (ue_vis e) (ue_name e) (ue_type e) (ue_args e) (map variant_decl (ue_variants e)).

(** An emitted item: a type with its members (attributes, name, payload), or an
    [impl] block for a type. *)
Record member := mkMember { me_attrs : list uattr; me_name : string; me_payload : list rtype }.
Inductive ikind :=
| IType (name : string) (generics : list string) (members : list member)
| IImpl (for_type : string) (trait_name : option string) (variants : list string).
(** [variants]: the variants of the type named in the block. *)
Record oitem := mkOItem { oi_attrs : list uattr; oi_kind : ikind }.

Definition doc (text : string) : uattr := mkUAttr "doc" [KEq; KOther text].
Definition derive (paths : list tok) : uattr := mkUAttr "derive" (parens paths).
(** [std::marker::Copy, core::clone::Clone] *)
Definition copy_tokens : list tok := [KIdent "std"; KOther "::"; KIdent "marker"; KOther "::"; KIdent "Copy"].
Definition clone_tokens : list tok := [KIdent "core"; KOther "::"; KIdent "clone"; KOther "::"; KIdent "Clone"].

(** ** Bitfields *)

(** generating/bitfield/features/bitfield_struct_feature.rs:68-96
    ([get_default_attributes]) *)
Definition default_attributes (bf : bitfield) : list uattr :=
  mkUAttr "repr" (parens [KIdent (match b_ignored bf with [] => "transparent" | _ => "C" end)]) ::
  (if a_copy (b_args bf) then
     if (a_array_heap (b_args bf) && negb (is_integer_backed bf))%bool then [derive clone_tokens]
     else [derive (copy_tokens ++ KComma :: clone_tokens)%list]
   else []).
(** 62-66 ([generate_struct_attributes_tokens]) and 129, 157: the documentation
    comes last.  parsing/bitfields/bitfield_parser.rs:21-23: the user's attributes
    are those of the struct, as written.  No template mentions the generic
    parameters. *)
Definition struct_item (u : ustruct) (bf : bitfield) : oitem :=
  mkOItem (default_attributes bf ++ us_attrs u ++ [doc "Represents a bitfield."])
    (IType (b_name bf) [] (map (fun f => mkMember [] (fst f) []) (struct_fields bf))).
Definition impl_item (name : string) (t : option string) : oitem := mkOItem [] (IImpl name t []).
(** features/{from_traits,default_trait,debug_trait,builder}_feature.rs: the items
    below the [impl] block, in the order of [order_priority]. *)
Definition below_items (bf : bitfield) : list oitem :=
  let n := b_name bf in let a := b_args bf in
  let b := (b_name bf ++ "Builder")%string in
  ((if a_from_traits a then [impl_item n (Some "From"); impl_item n (Some "Into")] else []) ++
   (if a_default a then [impl_item n (Some "Default")] else []) ++
   (if a_debug a then [impl_item n (Some "Debug")] else []) ++
   (if a_builder a then
      [mkOItem [doc "A builder for the bitfield."] (IType b [] [mkMember [] "this" []]);
       impl_item b (Some "Default"); impl_item b None]
    else []))%list.
(** bitfield/bitfield_generator.rs:84-104 ([do_generate_bitfield]). *)
Definition bitfield_items (u : ustruct) (bf : bitfield) : list oitem :=
  struct_item u bf ::
  mkOItem [mkUAttr "allow" (parens [KIdent "clippy"; KOther "::"; KIdent "manual_swap"])]
    (IImpl (b_name bf) None []) ::
  below_items bf.
(** lib.rs:2148-2163: the whole macro, up to the error and the functions in the
    blocks. *)
Definition expand_bitfield (pe : expr_parser) (pt : type_parser) (m : mode) (F : features) (u : ustruct)
  : ar (list oitem) :=
  bf <~ parse_declaration pe pt m F (us_decl u) ;; POk (bitfield_items u bf).

(** ** Bitflags *)

(** parsing/bitflags/bitflag_parser.rs:54-62, generating/bitflag/bitflag_generator.rs:54-63:
    attributes without [#[base]]; the payload is not looked at. *)
Definition variant_member (v : uvariant) : member :=
  mkMember (filter (fun a => negb (String.eqb (ua_path a) "base")) (uv_attrs v)) (uv_name v) [].
(** parsing/common/spanned_data_type.rs ([to_tokens]): the type as written, here only
    if it is a single name. *)
Definition type_tokens (t : option rtype) : list tok :=
  match t with Some (RPath s) => [KIdent s] | _ => [KOther "type"] end.
(** bitflag_generator.rs:8-31, 33-48, 83-112. *)
Definition bitflag_items (e : uenum) (g : bitflag) : outcome (list oitem) :=
  arms <- match_cases g ;;
  Val [mkOItem (mkUAttr "repr" (parens (type_tokens (ue_type e))) ::
                (if fa_copy (g_args g) then [derive (copy_tokens ++ KComma :: clone_tokens)%list] else []) ++
                ue_attrs e)
         (IType (g_name g) [] (map variant_member (ue_variants e)));
       mkOItem [] (IImpl (g_name g) None (map snd arms))].
Definition expand_bitflag (F : features) (e : uenum) : pres ferr (list oitem) :=
  g <~ parse_bitflag F (enum_decl e) ;;
  match bitflag_items e g with Val l => POk l | Panic => PPanic end.
