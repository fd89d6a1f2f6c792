(** Letters, white space and identifiers for the specifications, as plain tables.
    The model has its own functions (ConstExpr.v, Surface.v); nothing here is used
    by the model. *)
From Coq Require Import List Bool String Ascii.
Import ListNotations.

Definition small_letters : list ascii := list_ascii_of_string "abcdefghijklmnopqrstuvwxyz".
Definition capital_letters : list ascii := list_ascii_of_string "ABCDEFGHIJKLMNOPQRSTUVWXYZ".
Definition decimal_digits : list ascii := list_ascii_of_string "0123456789".

(** Replaces a letter of the first alphabet by the one at the same place of the
    second; other characters stay. *)
Fixpoint exchange (from to : list ascii) (c : ascii) : ascii :=
  match from, to with
  | a :: from', b :: to' => if Ascii.eqb a c then b else exchange from' to' c
  | _, _ => c
  end.
Definition to_small (c : ascii) : ascii := exchange capital_letters small_letters c.
Definition to_capital (c : ascii) : ascii := exchange small_letters capital_letters c.
Definition capitals (s : string) : string :=
  string_of_list_ascii (map to_capital (list_ascii_of_string s)).

(** Tab, line feed, vertical tab, form feed, carriage return, space. *)
Definition blanks : list ascii := map ascii_of_nat [9; 10; 11; 12; 13; 32].

(** A letter or underscore, then letters, digits and underscores. *)
Definition name_start : list ascii := "_"%char :: small_letters ++ capital_letters.
Definition identifier (s : string) : Prop :=
  exists c r, s = String c r /\ In c name_start /\
    Forall (fun x => In x (name_start ++ decimal_digits)) (list_ascii_of_string r).
