(** What the documentation says about the generated items (README sections
    "Field Access", "Visibility", "Configuration").  Nothing here is a model of
    the generator. *)
From Coq Require Import ZArith List Bool String Ascii.
From Verif Require Import RustInt Syntax ConstExpr Words Parser Spec SpecDecl Surface.
Import ListNotations.
Open Scope string_scope.

(** ** Access *)

(** The access of a non-reserved field. *)
Definition access_is (r : rfield) (a : access) : Prop :=
  match last_arg "access" r with Some s => access_text s a | None => a = ReadWrite end.
Definition read_decl (r : rfield) : Prop := ~ reserved_decl r /\ (access_is r ReadOnly \/ access_is r ReadWrite).
Definition write_decl (r : rfield) : Prop := ~ reserved_decl r /\ (access_is r WriteOnly \/ access_is r ReadWrite).

(** ** Switches *)

(** The value of a switch: its last argument, otherwise the feature default. *)
Definition switch_on (F : features) (args : list (string * string)) (key on off : string) : Prop :=
  switch_value args key (F on || negb (F off)) = true.
Definition bit_ops_on (F : features) (args : list (string * string)) : Prop :=
  switch_on F args "bit_ops" "generate_bit_ops" "disable_bit_ops".
(** A bit operation group: with the master switch on it follows its own switch;
    with the master switch off it must be set to true explicitly. *)
Definition documented (F : features) (args : list (string * string)) (key on off : string) : Prop :=
  (bit_ops_on F args /\ switch_on F args key on off) \/
  (~ bit_ops_on F args /\ last_of key args = Some "true").
Definition clear_documented F args := documented F args "clear_bit_ops" "generate_clear_bit_ops" "disable_clear_bit_ops".
Definition invert_documented F args := documented F args "invert_bit_ops" "generate_invert_bit_ops" "disable_invert_bit_ops".
Definition set_get_documented F args := documented F args "set_get_bit_ops" "generate_set_get_bit_ops" "disable_set_get_bit_ops".
Definition write_documented F args := documented F args "write_bit_ops" "generate_write_bit_ops" "disable_write_bit_ops".

(** ** Per-field items *)

Definition item_expected (F : features) (args : list (string * string)) (ro : role) (r : rfield) : Prop :=
  match ro with
  | RWidth | ROffset => read_decl r \/ write_decl r
  | RGetter => read_decl r
  | RSetter | RCheckedSetter => write_decl r
  | RClear => write_decl r /\ clear_documented F args
  | RClearDefault => write_decl r /\ last_arg "default" r <> None /\ clear_documented F args
  | RInvert => write_decl r /\ invert_documented F args
  | RInverted => read_decl r /\ invert_documented F args
  | RWith | RCheckedWith | RWhole => False
  end.

Definition documented_name (ro : role) (x : string) : string :=
  match ro with
  | RWidth => capitals x ++ "_BITS"
  | ROffset => capitals x ++ "_OFFSET"
  | RGetter => x
  | RSetter => "set_" ++ x
  | RCheckedSetter => "checked_set_" ++ x
  | RClear => "clear_" ++ x
  | RClearDefault => "clear_" ++ x ++ "_to_default"
  | RInvert => "invert_" ++ x
  | RInverted => x ++ "_inverted"
  | RWith => "with_" ++ x
  | RCheckedWith => "checked_with_" ++ x
  | RWhole => x
  end.

(** The item [ro] of field [f] is among the items [l]. *)
Definition has_item (l : list item) (ro : role) (f : field) : Prop :=
  exists it, In it l /\ it_role it = ro /\ it_field it = Some f.
(** A function of the whole bitfield. *)
Definition has_function (l : list item) (name : string) : Prop :=
  exists it, In it l /\ it_role it = RWhole /\ it_field it = None /\ it_name it = name.

(** ** Functions of the whole bitfield *)

(** "bits" for integer backing, "bytes" for array backing. *)
Definition units (ty : dtype) : string := match ty with DInteger _ => "bits" | _ => "bytes" end.
Definition clear_api (ty : dtype) : list string := ["clear_" ++ units ty; "clear_" ++ units ty ++ "_with_defaults"].
Definition invert_api (ty : dtype) : list string := ["invert_" ++ units ty].
Definition set_get_api (ty : dtype) : list string :=
  ["get_bit"; "checked_get_bit"; "set_bit"; "checked_set_bit";
   "get_" ++ units ty ++ "_range"; "checked_get_" ++ units ty ++ "_range";
   "set_" ++ units ty ++ "_range"; "checked_set_" ++ units ty ++ "_range"].
Definition write_api (ty : dtype) : list string :=
  ["write_defaults"; "write_" ++ units ty; "write_" ++ units ty ++ "_with_defaults";
   "write_le_" ++ units ty; "write_le_" ++ units ty ++ "_with_defaults";
   "write_be_" ++ units ty; "write_be_" ++ units ty ++ "_with_defaults"].
Definition new_api : list string := ["new"; "new_without_defaults"].
Definition endian_names (pre post : string) : list string := [pre ++ post; pre ++ "le_" ++ post; pre ++ "be_" ++ post].
Definition with_defaults (l : list string) : list string := (l ++ map (fun s => (s ++ "_with_defaults")%string) l)%list.
Definition conversion_api (ty : dtype) : list string :=
  with_defaults (endian_names "from_" (units ty)) ++ endian_names "into_" (units ty) ++
  match ty with
  | DInteger _ => []
  | _ => with_defaults (endian_names "from_" "slice") ++ with_defaults (endian_names "checked_from_" "slice") ++
         endian_names "into_" "slice" ++ endian_names "checked_into_" "slice"
  end.

(** All of the functions exist / none of them. *)
Definition all_of (l : list item) (names : list string) : Prop := forall n, In n names -> has_function l n.
Definition none_of (l : list item) (names : list string) : Prop := forall n, In n names -> ~ has_function l n.

(** ** Visibility *)

(** [v] gives at most the access of [w]. *)
Definition vis_le (v w : vis) : Prop :=
  v = VisPrivate \/ w = VisPublic \/ v = w.

(** ** Names *)

Definition starts (p s : string) : Prop := exists r, s = p ++ r.
Definition ends (p s : string) : Prop := exists r, s = r ++ p.
(** A field name that cannot be mistaken for the name of another item. *)
Definition plain (s : string) : Prop :=
  (forall p, In p ["set_"; "checked_set_"; "clear_"; "invert_"] -> ~ starts p s) /\
  (forall p, In p ["_inverted"; "_to_default"; "_BITS"; "_OFFSET"] -> ~ ends p s) /\
  ~ In s ["inverted"; "bit"; "bits"; "bytes"; "bits_range"; "bytes_range";
          "bits_with_defaults"; "bytes_with_defaults"] /\
  (forall ty, ~ In s (new_api ++ conversion_api ty ++ write_api ty ++ set_get_api ty ++ clear_api ty ++ invert_api ty)).
