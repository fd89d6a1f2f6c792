(** Theorems about the Debug implementation (C54). *)
From Coq Require Import ZArith List Bool Lia String.
From Verif Require Import RustInt Syntax GenInt GenArr Gen Spec BitsLemmas CoreLemmas GenLemmas
  ConvLemmas BitOpLemmas Examples PropFields.
Import ListNotations.
Open Scope Z_scope.

(** The number printed for a field: its raw bits. *)
Definition printed (bf : bitfield) (s : store) (f : field) : pval :=
  match f_ty f with
  | DArray len => if is_integer_backed bf then PInt (raw s f) else PArr (le_bytes (Z.to_nat len) (raw s f))
  | _ => PInt (raw s f)
  end.

(** Every field is printed once, in declaration order, with its name and raw
    bits. *)
Theorem C54_entries m bf s : bf_ok bf -> store_ok bf s ->
  debug_bf m bf s = Val (map (fun f => (f_name f, printed bf s f)) (b_fields bf)).
Proof.
  intros Hbf Hs. use_store s v. unfold debug_bf.
  assert (H1 : Forall (field_ok bf) (b_fields bf)) by apply Hbf. destruct Hbf as (Hbk & _).
  induction H1 as [|f fs Hf _ IH]; [reflexivity|]. cbn [debug_fields map].
  rewrite extract_src_ok by assumption. cbn [bind]. rewrite IH. cbn [bind]. do 3 f_equal.
  unfold printed, raw, raw_pval. rewrite H0. reflexivity.
Qed.

(** For fields of unsigned integer type the printed number is what the getter
    returns; for byte array fields of array backed bitfields too. *)
Theorem C54_unsigned m bf s f t z : bf_ok bf -> store_ok bf s -> In f (b_fields bf) ->
  f_ty f = DInteger t -> ity_unsigned t = true -> get_field m bf f s = Val (VInt z) -> printed bf s f = PInt z.
Proof.
  intros Hbf Hs Hf Ht Hu Hg. use_store s v. destruct Hbf as (Hbk & Hfs & _). rewrite Forall_forall in Hfs.
  rewrite get_field_ok in Hg by auto. unfold printed, raw, decode in *. rewrite Ht in *. rewrite H0.
  destruct t; try discriminate; injection Hg as <-; reflexivity.
Qed.
Theorem C54_array m bf s f len l : bf_ok bf -> store_ok bf s -> In f (b_fields bf) ->
  f_ty f = DArray len -> is_integer_backed bf = false -> get_field m bf f s = Val (VArr l) -> printed bf s f = PArr l.
Proof.
  intros Hbf Hs Hf Ht Hi Hg. use_store s v. destruct Hbf as (Hbk & Hfs & _). rewrite Forall_forall in Hfs.
  rewrite get_field_ok in Hg by auto. unfold printed, raw, decode in *. rewrite Ht, Hi in *. rewrite H0.
  injection Hg as <-. reflexivity.
Qed.

Example C54_ex :
  debug_bf Checked ex_int (StI 0x5a5) =
  Val (map (fun f => (f_name f, PInt (raw (StI 0x5a5) f))) (b_fields ex_int)) /\
  get_field Checked ex_int ex_a (StI 0x5a5) = Val (VInt 5) /\ printed ex_int (StI 0x5a5) ex_a = PInt 5.
Proof. repeat split; vm_compute; reflexivity. Qed.

(** The value of a signed field is not what is printed, and fields that cannot be
    read are printed. *)
Theorem C54_values_refuted :
  bf_ok ex_int /\ In ex_b (b_fields ex_int) /\
  get_field Checked ex_int ex_b (StI 0x5a5) = Val (VInt (-3)) /\
  printed ex_int (StI 0x5a5) ex_b = PInt 13.
Proof. split; [apply bf_okb_ok; vm_compute; reflexivity|]. repeat split; try (vm_compute; reflexivity). cbn. tauto. Qed.
Theorem C54_unreadable_refuted :
  bf_ok ex_arr /\ In ax_d (b_fields ex_arr) /\ ~ readable ax_d /\
  exists l, debug_bf Checked ex_arr (StA [0; 0; 0x60]) = Val l /\ In ("d"%string, PInt 3) l.
Proof.
  split; [exact ex_arr_ok|]. split; [cbn; tauto|]. split; [intros []; discriminate|].
  eexists. split; [vm_compute; reflexivity|]. cbn. tauto.
Qed.
