(** Concrete bitfields used beside the theorems, and a decision procedure for
    [bf_ok]. *)
From Coq Require Import ZArith List Bool Lia String.
From Verif Require Import RustInt Syntax GenInt GenArr Gen Spec BitsLemmas CoreLemmas GenLemmas ConvLemmas BitOpLemmas.
Import ListNotations.
Open Scope Z_scope.

(** ** Deciding well-formedness *)

Definition width_okb (bf : bitfield) (f : field) : bool :=
  match f_ty f with
  | DInteger TBool => f_bits f =? 1
  | DInteger t => f_bits f <=? ity_bits t
  | DArray len =>
      (f_bits f <=? 8 * len) &&
      (negb (is_integer_backed bf) || ((f_bits f mod 8 =? 0) && (len <=? 16)))
  | DCustom => is_integer_backed bf || (f_bits f <=? 128)
  end.
Definition is_byteb (b : Z) : bool := (0 <=? b) && (b <? 256).
Definition pval_okb (bf : bitfield) (f : field) (p : pval) : bool :=
  match f_ty f, p with
  | DInteger TBool, PBool _ => true
  | DInteger TBool, _ => false
  | DInteger _, PInt _ => true
  | DCustom, PCustom _ => true
  | DArray len, PInt _ => is_integer_backed bf
  | DArray len, PArr l =>
      negb (is_integer_backed bf) && (Z.of_nat (List.length l) =? len) && forallb is_byteb l
  | _, _ => false
  end.
Definition field_okb (bf : bitfield) (f : field) : bool :=
  (1 <=? f_bits f) && (0 <=? f_off f) && (f_off f + f_bits f <=? ty_size (b_ty bf)) &&
  width_okb bf f && match f_default f with None => true | Some p => pval_okb bf f p end.
Definition backing_okb (d : dtype) : bool :=
  match d with
  | DInteger TBool => false
  | DInteger t => ity_unsigned t
  | DArray n => (0 <? n) && (8 * n <? 2 ^ 32)
  | DCustom => false
  end.
Definition owners (fs : list field) (i : Z) : list nat :=
  map fst (filter (fun p => coversb (snd p) i) (combine (seq 0 (List.length fs)) fs)).
Definition partitionb (S : Z) (fs : list field) : bool :=
  forallb (fun i => match owners fs i with [_] => true | _ => false end)
    (map Z.of_nat (seq 0 (Z.to_nat S))).
Definition bf_okb (bf : bitfield) : bool :=
  backing_okb (b_ty bf) && forallb (field_okb bf) (b_fields bf) &&
  partitionb (ty_size (b_ty bf)) (b_fields bf).

Lemma forallb_bytes l : forallb is_byteb l = true -> Forall is_byte l.
Proof.
  intros H. apply Forall_forall. intros x Hx. rewrite forallb_forall in H. specialize (H x Hx).
  unfold is_byteb in H. apply andb_true_iff in H. rewrite Z.leb_le, Z.ltb_lt in H. exact H.
Qed.

Lemma pval_okb_ok bf f p : pval_okb bf f p = true -> pval_ok bf f p.
Proof.
  unfold pval_okb, pval_ok. destruct (f_ty f) as [t|len|]; [destruct t| |]; destruct p; try discriminate; auto.
  rewrite !andb_true_iff, Z.eqb_eq. intros [[H1 H2] H3]. split; [apply negb_true_iff; assumption|].
  split; [assumption|apply forallb_bytes; assumption].
Qed.

Lemma width_okb_ok bf f : width_okb bf f = true -> width_ok bf f.
Proof.
  unfold width_okb, width_ok. destruct (f_ty f) as [t|len|].
  - destruct t; rewrite ?Z.leb_le, ?Z.eqb_eq; auto.
  - rewrite andb_true_iff, Z.leb_le, orb_true_iff, andb_true_iff, Z.eqb_eq, Z.leb_le, negb_true_iff.
    intros [H [H0|H0]]; split; auto. intros E; congruence.
  - rewrite orb_true_iff, Z.leb_le. intros [H|H] E; congruence || assumption.
Qed.

Lemma field_okb_ok bf f : field_okb bf f = true -> field_ok bf f.
Proof.
  unfold field_okb, field_ok. rewrite !andb_true_iff, !Z.leb_le. intros [[[[H1 H2] H3] H4] H5].
  repeat split; auto using width_okb_ok. unfold default_ok.
  destruct (f_default f); auto using pval_okb_ok.
Qed.

Lemma In_combine_seq (fs : list field) k f a :
  In (k, f) (combine (seq a (List.length fs)) fs) <-> (a <= k)%nat /\ nth_error fs (k - a) = Some f.
Proof.
  revert a. induction fs as [|g fs IH]; intros a; cbn [List.length seq combine In].
  - split; [contradiction|]. intros [_ H]. destruct (k - a)%nat; discriminate.
  - rewrite IH. split.
    + intros [E|[H1 H2]].
      * inversion E; subst. split; [lia|]. rewrite Nat.sub_diag. reflexivity.
      * split; [lia|]. replace (k - a)%nat with (S (k - S a)) by lia. exact H2.
    + intros [H1 H2]. destruct (Nat.eq_dec k a) as [->|].
      * left. rewrite Nat.sub_diag in H2. inversion H2; subst. reflexivity.
      * right. split; [lia|]. replace (k - a)%nat with (S (k - S a)) in H2 by lia. exact H2.
Qed.

Lemma owners_spec fs i k :
  In k (owners fs i) <-> exists f, nth_error fs k = Some f /\ covers f i.
Proof.
  unfold owners. rewrite in_map_iff. split.
  - intros ((k', f) & E & H). cbn in E. subst. apply filter_In in H. destruct H as [H Hc].
    apply In_combine_seq in H. exists f. split; [|apply coversb_spec; exact Hc].
    destruct H as [_ H]. rewrite Nat.sub_0_r in H. exact H.
  - intros (f & H & Hc). exists (k, f). split; [reflexivity|]. apply filter_In. split.
    + apply In_combine_seq. rewrite Nat.sub_0_r. split; [lia|exact H].
    + apply coversb_spec; exact Hc.
Qed.

Lemma partitionb_ok S fs : partitionb S fs = true -> partition S fs.
Proof.
  unfold partitionb, partition. rewrite forallb_forall. intros H i Hi.
  specialize (H i). destruct (owners fs i) as [|k [|]] eqn:E.
  - discriminate H. apply in_map_iff. exists (Z.to_nat i). split; [lia|]. apply in_seq. lia.
  - exists k. split.
    + apply owners_spec. rewrite E. left; reflexivity.
    + intros k' Hk'. apply owners_spec in Hk'. rewrite E in Hk'. destruct Hk' as [|[]]; assumption.
  - discriminate H. apply in_map_iff. exists (Z.to_nat i). split; [lia|]. apply in_seq. lia.
Qed.

Lemma bf_okb_ok bf : bf_okb bf = true -> bf_ok bf.
Proof.
  unfold bf_okb, bf_ok. rewrite !andb_true_iff. intros [[H1 H2] H3]. split; [|split].
  - unfold backing_okb, backing_ok in *. destruct (b_ty bf) as [t|n|].
    + destruct t; try discriminate; split; (reflexivity || discriminate).
    + rewrite andb_true_iff, !Z.ltb_lt in H1. exact H1.
    + discriminate.
  - apply Forall_forall. rewrite forallb_forall in H2. auto using field_okb_ok.
  - apply partitionb_ok; assumption.
Qed.

(** ** Concrete bitfields *)

(** The arguments of a plain [#[bitfield(T)]]: bitfield_arguments.rs:178-259. *)
Definition default_args : bfargs :=
  mkArgs Lsb Big Big Big true true true true true true true true
    true false true false true false true false true false false.

(** A two-bit enum-like custom type, values 0..3 (lossless). *)
Definition enum_codec : codec := mkCodec U8 (fun z => z mod 4) U8 (fun z => z mod 4).
(** A codec with only the values 1 and 2: everything else decodes to 1. *)
Definition lossy_codec : codec := mkCodec U8 (fun z => if z =? 2 then 2 else 1) U8 (fun z => z).
Definition no_codec : codec := mkCodec U8 (fun z => z) U8 (fun z => z).

Definition rw (name : string) (ty : dtype) (bits off : Z) : field :=
  mkField VisPublic name ty bits off false ReadWrite None false no_codec.

(** #[bitfield(u16)] struct { a: u8 #[bits(5)], b: i8 #[bits(4, default = -3)],
    c: bool, d: Enum #[bits(2)], e: u8 #[bits(2, access = ro, default = 2)],
    _r: u8 #[bits(2, default = 1)] }.  The reserved field with a default is
    readable by the bit operations. *)
Definition ex_a : field := rw "a" (DInteger U8) 5 0.
Definition ex_b : field :=
  mkField VisPublic "b" (DInteger I8) 4 5 false ReadWrite (Some (PInt (-3))) false no_codec.
Definition ex_c : field := rw "c" (DInteger TBool) 1 9.
Definition ex_d : field := mkField VisPublic "d" DCustom 2 10 false ReadWrite None false enum_codec.
Definition ex_e : field :=
  mkField VisPublic "e" (DInteger U8) 2 12 false ReadOnly (Some (PInt 2)) false no_codec.
Definition ex_r : field :=
  mkField VisPrivate "_r" (DInteger U8) 2 14 true ReadOnly (Some (PInt 1)) false no_codec.
Definition ex_int : bitfield :=
  mkBitfield VisPublic "ExInt" (DInteger U16) [ex_a; ex_b; ex_c; ex_d; ex_e; ex_r] [] default_args.

(** #[bitfield([u8; 3])] with an array field, a 10-bit field crossing bytes, a
    write-only custom field and a read-only signed field. *)
Definition ax_a : field := rw "a" (DArray 1) 8 0.
Definition ax_b : field :=
  mkField VisPublic "b" (DInteger U16) 10 8 false ReadWrite (Some (PInt 517)) false no_codec.
Definition ax_c : field :=
  mkField VisPublic "c" (DInteger I8) 3 18 false ReadOnly (Some (PInt 6)) false no_codec.
Definition ax_d : field := mkField VisPublic "d" DCustom 2 21 false WriteOnly None false enum_codec.
Definition ax_r : field :=
  mkField VisPrivate "_r" (DInteger TBool) 1 23 true NoAccess (Some (PBool true)) false no_codec.
Definition ex_arr : bitfield :=
  mkBitfield VisPublic "ExArr" (DArray 3) [ax_a; ax_b; ax_c; ax_d; ax_r] [] default_args.

Lemma ex_int_ok : bf_ok ex_int.
Proof. apply bf_okb_ok. vm_compute. reflexivity. Qed.
Lemma ex_arr_ok : bf_ok ex_arr.
Proof. apply bf_okb_ok. vm_compute. reflexivity. Qed.

(** Deciding losslessness by enumeration (the number of patterns is small). *)
Definition losslessb (f : field) : bool :=
  match f_ty f with
  | DCustom => forallb (fun r => user_into f (user_from f r) mod 2 ^ f_bits f =? r)
                 (map Z.of_nat (seq 0 (Z.to_nat (2 ^ f_bits f))))
  | _ => true
  end.
Lemma losslessb_ok f : losslessb f = true -> lossless f.
Proof.
  unfold losslessb, lossless. destruct (f_ty f); auto. rewrite forallb_forall. intros H r Hr.
  apply Z.eqb_eq, H. apply in_map_iff. exists (Z.to_nat r). split; [lia|]. apply in_seq. lia.
Qed.
Lemma all_losslessb_ok bf : forallb losslessb (b_fields bf) = true -> all_lossless bf.
Proof. unfold all_lossless. rewrite forallb_forall. auto using losslessb_ok. Qed.

Lemma ex_int_lossless : all_lossless ex_int.
Proof. apply all_losslessb_ok. vm_compute. reflexivity. Qed.
Lemma ex_arr_lossless : all_lossless ex_arr.
Proof. apply all_losslessb_ok. vm_compute. reflexivity. Qed.
