(** Vocabulary of C59 and C60: values of the model as values of Rust.v, and the
    default expressions. *)
From Coq Require Import ZArith List Bool String.
From Verif Require Import RustInt Syntax Spec Rust Surface Emit.
Import ListNotations.
Open Scope string_scope.
Open Scope list_scope.
Open Scope Z_scope.

(** ** Values *)

Definition enc_store (s : store) : value := match s with StI z => RI z | StA l => RA l end.
Definition enc_fval (a : fval) : value :=
  match a with VInt z => RI z | VBool b => RB b | VArr l => RA l | VCustom t => RC t end.
Definition enc_pval (p : pval) : value :=
  match p with PInt z => RI z | PBool b => RB b | PArr l => RA l | PCustom t => RC t end.

(** A custom type's conversions take and return integers. *)
Definition codec_ok (f : field) : Prop :=
  f_ty f = DCustom ->
  cd_from_ty (f_codec f) <> TBool /\ cd_into_ty (f_codec f) <> TBool.

(** ** Default expressions *)

(** Type and value of a constant expression where [h] is expected: literals with
    or without sign and suffix, [true]/[false], array literals, and constants of
    the user ([EUser]). *)
Definition constant (h : option ty) (e : expr) : option (ty * value) :=
  match e with
  | ELit z s => let t := lit_ty h s in Some (t, RI (wrap t z))
  | EUn UNeg (ELit z s) =>
      let t := lit_ty h s in
      match int_of t with Some (true, _) => Some (t, RI (wrap t (- z))) | _ => None end
  | EBool b => Some (TI TBool, RB b)
  | EArray l s =>
      let t := match s with
               | Some t => t
               | None => match h with Some (TArr t _) => t | _ => I32 end
               end in
      Some (TArr t (Z.of_nat (List.length l)), RA (map (cast t) l))
  | ERepeat (ELit z s) n =>
      match lit_ty (match h with Some (TArr t _) => Some (TI t) | _ => None end) s with
      | TI t => Some (TArr t n, RA (repeat (wrap (TI t) z) (Z.to_nat n)))
      | _ => None
      end
  | EUser t v => Some (t, v)
  | _ => None
  end.

(** The value that reaches the field when [e] stands where the template of a
    default puts it; [None]: rustc rejects it. *)
Definition of_type (q : option (ty * value)) (t : ty) : option value :=
  match q with Some (t', v) => if ty_eqb t' t then Some v else None | None => None end.
Definition of_int (q : option (ty * value)) : option pval :=
  match q with
  | Some (t, RI z) => match int_of t with Some _ => Some (PInt z) | None => None end
  | _ => None
  end.
Definition p_int (v : option value) : option pval := match v with Some (RI z) => Some (PInt z) | _ => None end.
Definition p_bool (v : option value) : option pval := match v with Some (RB b) => Some (PBool b) | _ => None end.
Definition p_arr (v : option value) : option pval := match v with Some (RA l) => Some (PArr l) | _ => None end.
Definition p_custom (v : option value) : option pval := match v with Some (RC t) => Some (PCustom t) | _ => None end.
Definition in_backing (T : ity) (e : expr) : option pval :=
  match e with
  | ELit z None => Some (PInt (ucast (ity_bits T) z))
  | _ => match open_lit e with None => p_int (of_type (constant None e) (TI T)) | Some _ => None end
  end.
Definition dval (bf : bitfield) (f : field) (e : expr) : option pval :=
  let user := TUser (f_name f) in
  if has_setter f then
    match f_ty f with
    | DInteger TBool => p_bool (of_type (constant (Some (TI TBool)) e) (TI TBool))
    | DInteger _ => of_int (constant None e)
    | DCustom => p_custom (of_type (constant (Some user) e) user)
    | DArray len =>
        if is_integer_backed bf then of_int (constant (cast_hint e (TI U128)) e)
        else p_arr (of_type (constant (Some (TArr U8 len)) e) (TArr U8 len))
    end
  else
    match f_ty f with
    | DInteger TBool => p_bool (of_type (constant None e) (TI TBool))
    | DCustom => p_custom (of_type (constant None e) user)
    | DInteger _ =>
        match b_ty bf with DInteger T => in_backing T e | _ => of_int (constant (cast_hint e (TI U128)) e) end
    | DArray len =>
        match b_ty bf with
        | DInteger T => in_backing T e
        | _ => match open_lit e with
               | None => p_arr (of_type (constant None e) (TArr U8 len))
               | Some _ => None
               end
        end
    end.
