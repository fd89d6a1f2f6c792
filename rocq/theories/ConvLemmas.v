(** Endian conversions, [from_*] / [into_*] / [write_*] and slices as updates of
    the number [sval s]. *)
From Coq Require Import ZArith List Bool Lia String.
From Verif Require Import RustInt Syntax GenInt GenArr Gen Spec BitsLemmas CoreLemmas GenLemmas.
Import ListNotations.
Open Scope Z_scope.
Ltac Zify.zify_post_hook ::= Z.to_euclidean_division_equations.

(** ** Reversal loops *)

Lemma nth_list_upd l i b k :
  nth k (list_upd l i b) 0 = if Nat.eqb k i && Nat.ltb i (List.length l) then b else nth k l 0.
Proof.
  revert i k; induction l as [|a l IH]; intros i k.
  - cbn [list_upd List.length]. destruct i; cbn; rewrite andb_false_r; reflexivity.
  - destruct i, k; cbn [list_upd nth Nat.eqb List.length andb]; try reflexivity.
    rewrite IH. reflexivity.
Qed.

Lemma arr_get_nth l i : 0 <= i < Z.of_nat (List.length l) -> arr_get l i = Val (nth (Z.to_nat i) l 0).
Proof.
  intros. unfold arr_get. destruct (Z.leb_spec 0 i); [|lia].
  rewrite (nth_error_nth' l 0) by lia. reflexivity.
Qed.
Lemma arr_set_upd l i b : 0 <= i < Z.of_nat (List.length l) ->
  arr_set l i b = Val (list_upd l (Z.to_nat i) b).
Proof.
  intros. unfold arr_set. destruct (Z.leb_spec 0 i), (Z.ltb_spec i (Z.of_nat (List.length l))); try lia.
  reflexivity.
Qed.

Definition swap (l : list Z) (i j : Z) : list Z :=
  list_upd (list_upd l (Z.to_nat i) (nth (Z.to_nat j) l 0)) (Z.to_nat j) (nth (Z.to_nat i) l 0).

Definition half_rev (l : list Z) (i : Z) : list Z :=
  let n := Z.of_nat (List.length l) in
  map (fun k : nat =>
         nth (Z.to_nat (if (Z.of_nat k <? i) || (n - i <=? Z.of_nat k) then n - 1 - Z.of_nat k
                        else Z.of_nat k)) l 0)
    (seq 0 (List.length l)).

Lemma half_rev_length l i : List.length (half_rev l i) = List.length l.
Proof. unfold half_rev. rewrite map_length, seq_length. reflexivity. Qed.

Lemma nth_map_seq (h : nat -> Z) n k : (k < n)%nat -> nth k (map h (seq 0 n)) 0 = h k.
Proof.
  intros. rewrite nth_indep with (d' := h 0%nat) by (rewrite map_length, seq_length; assumption).
  rewrite map_nth, seq_nth by assumption. reflexivity.
Qed.

Lemma half_rev_nth l i k : (k < List.length l)%nat ->
  nth k (half_rev l i) 0 =
  nth (Z.to_nat (if (Z.of_nat k <? i) || (Z.of_nat (List.length l) - i <=? Z.of_nat k)
                 then Z.of_nat (List.length l) - 1 - Z.of_nat k else Z.of_nat k)) l 0.
Proof.
  intros. unfold half_rev. apply (nth_map_seq (fun k : nat => _)). assumption.
Qed.

Lemma swap_length l i j : List.length (swap l i j) = List.length l.
Proof. unfold swap. rewrite !list_upd_length. reflexivity. Qed.

Lemma swap_half_rev l i : 0 <= i < Z.of_nat (List.length l) / 2 ->
  swap (half_rev l i) i (Z.of_nat (List.length l) - 1 - i) = half_rev l (i + 1).
Proof.
  intros Hi. apply nth_ext with (d := 0) (d' := 0).
  - rewrite swap_length, !half_rev_length. reflexivity.
  - intros k Hk. rewrite swap_length, half_rev_length in Hk.
    unfold swap. rewrite !nth_list_upd, !list_upd_length, !half_rev_length.
    rewrite !half_rev_nth by lia.
    destruct (Nat.eqb_spec k (Z.to_nat (Z.of_nat (List.length l) - 1 - i))),
      (Nat.eqb_spec k (Z.to_nat i)),
      (Nat.ltb_spec (Z.to_nat (Z.of_nat (List.length l) - 1 - i)) (List.length l)),
      (Nat.ltb_spec (Z.to_nat i) (List.length l)); cbn [andb]; try lia;
      f_equal; f_equal; cases_bool; try lia.
Qed.

Lemma half_rev_0 l : half_rev l 0 = l.
Proof.
  apply nth_ext with (d := 0) (d' := 0); [apply half_rev_length|].
  intros k Hk. rewrite half_rev_length in Hk. rewrite half_rev_nth by lia. f_equal.
  cases_bool; lia.
Qed.

Lemma half_rev_all l : half_rev l (Z.of_nat (List.length l) / 2) = rev l.
Proof.
  apply nth_ext with (d := 0) (d' := 0); [rewrite half_rev_length, rev_length; reflexivity|].
  intros k Hk. rewrite half_rev_length in Hk. rewrite half_rev_nth by lia.
  rewrite rev_nth by lia. f_equal. cases_bool; lia.
Qed.

Lemma rev_loop (body : Z -> list Z -> outcome (list Z)) l :
  (forall i l', List.length l' = List.length l -> 0 <= i < Z.of_nat (List.length l) / 2 ->
     body i l' = Val (swap l' i (Z.of_nat (List.length l) - 1 - i))) ->
  while_lt (Z.of_nat (List.length l) / 2) body l = Val (rev l).
Proof.
  intros H. apply while_lt_eq with (g := half_rev l).
  - lia.
  - symmetry; apply half_rev_0.
  - symmetry; apply half_rev_all.
  - intros i Hi. rewrite H by (rewrite ?half_rev_length; auto). rewrite swap_half_rev by lia. reflexivity.
Qed.

Lemma lxor_cancel_r a b : Z.lxor b (Z.lxor a b) = a.
Proof. rewrite (Z.lxor_comm a b), <- Z.lxor_assoc, Z.lxor_nilpotent, Z.lxor_0_l. reflexivity. Qed.
Lemma lxor_cancel_l a b : Z.lxor (Z.lxor a b) a = b.
Proof. rewrite (Z.lxor_comm a b), Z.lxor_assoc, Z.lxor_nilpotent, Z.lxor_0_r. reflexivity. Qed.

Lemma reverse_xor_ok m n l : Z.of_nat (List.length l) = n -> reverse_xor m n l = Val (rev l).
Proof.
  intros <-. unfold reverse_xor. apply rev_loop. intros i l' Hl Hi.
  rewrite usub_in by lia. cbn [bind].
  rewrite (arr_get_nth l' i), (arr_get_nth l' (Z.of_nat (List.length l) - 1 - i)) by lia. cbn [bind].
  set (a := nth (Z.to_nat i) l' 0). set (b := nth (Z.to_nat (Z.of_nat (List.length l) - 1 - i)) l' 0).
  rewrite arr_set_upd by lia. cbn [bind].
  rewrite !arr_get_nth by (rewrite list_upd_length; lia). cbn [bind].
  rewrite !nth_list_upd.
  rewrite Nat.eqb_refl.
  destruct (Nat.ltb_spec (Z.to_nat i) (List.length l')); [|lia].
  destruct (Nat.eqb_spec (Z.to_nat (Z.of_nat (List.length l) - 1 - i)) (Z.to_nat i)); [lia|]. cbn [andb].
  fold b. rewrite lxor_cancel_r. rewrite arr_set_upd by (rewrite list_upd_length; lia). cbn [bind].
  rewrite !arr_get_nth by (rewrite !list_upd_length; lia). cbn [bind].
  rewrite !nth_list_upd, !list_upd_length. rewrite !Nat.eqb_refl.
  destruct (Nat.eqb_spec (Z.to_nat i) (Z.to_nat (Z.of_nat (List.length l) - 1 - i))); [lia|].
  destruct (Nat.ltb_spec (Z.to_nat i) (List.length l')); [|lia].
  destruct (Nat.ltb_spec (Z.to_nat (Z.of_nat (List.length l) - 1 - i)) (List.length l')); [|lia].
  cbn [andb]. rewrite lxor_cancel_l. rewrite arr_set_upd by (rewrite !list_upd_length; lia).
  f_equal. unfold swap. fold a b. apply nth_ext with (d := 0) (d' := 0).
  - rewrite !list_upd_length. reflexivity.
  - intros k Hk. rewrite !nth_list_upd, !list_upd_length.
    destruct (Nat.eqb_spec k (Z.to_nat (Z.of_nat (List.length l) - 1 - i))),
      (Nat.eqb_spec k (Z.to_nat i)),
      (Nat.ltb_spec (Z.to_nat (Z.of_nat (List.length l) - 1 - i)) (List.length l')),
      (Nat.ltb_spec (Z.to_nat i) (List.length l')); cbn [andb]; try lia; reflexivity.
Qed.

Lemma reverse_temp_ok m l : reverse_temp m l = Val (rev l).
Proof.
  unfold reverse_temp. apply rev_loop. intros i l' Hl Hi.
  rewrite (arr_get_nth l' i) by lia. cbn [bind]. rewrite usub_in by lia. cbn [bind].
  rewrite usub_in by lia. cbn [bind].
  rewrite (arr_get_nth l') by lia. cbn [bind]. rewrite arr_set_upd by lia. cbn [bind].
  rewrite arr_set_upd by (rewrite list_upd_length; lia). reflexivity.
Qed.

(** ** Byte reversal of a number *)

Definition brev (n : nat) (v : Z) : Z := le_val (rev (le_bytes n v)).

Lemma rev_bytes n v : rev (le_bytes n v) = le_bytes n (brev n v).
Proof.
  unfold brev. rewrite (bytes_as_le (rev (le_bytes n v))) at 1.
  - rewrite rev_length, le_bytes_length. reflexivity.
  - apply Forall_rev, le_bytes_bytes.
Qed.

Lemma brev_range n v : 0 <= brev n v < 2 ^ (8 * Z.of_nat n).
Proof.
  unfold brev. pose proof (le_val_bound (rev (le_bytes n v))) as H.
  rewrite rev_length, le_bytes_length, pow256 in H by lia. apply H, Forall_rev, le_bytes_bytes.
Qed.

Lemma brev_brev n v : 0 <= v < 2 ^ (8 * Z.of_nat n) -> brev n (brev n v) = v.
Proof.
  intros. unfold brev at 1. rewrite <- rev_bytes, rev_involutive, le_val_bytes, pow256 by lia.
  apply Z.mod_small; lia.
Qed.

(** Number of bytes of the backing type. *)
Definition nbytes (bf : bitfield) : nat := Z.to_nat (ty_size (b_ty bf) / 8).
Lemma nbytes_eq bf : backing_ok (b_ty bf) -> 8 * Z.of_nat (nbytes bf) = ty_size (b_ty bf).
Proof.
  unfold nbytes. destruct (b_ty bf) as [t|n|]; cbn [backing_ok ty_size]; intros H; [|lia|contradiction].
  destruct H as [H1 H2]. destruct t; try discriminate H1; try congruence; reflexivity.
Qed.

Definition cflip (bf : bitfield) (r : bool) (v : Z) : Z := if r then brev (nbytes bf) v else v.
Lemma cflip_range bf r v : backing_ok (b_ty bf) -> in_range bf v -> in_range bf (cflip bf r v).
Proof.
  unfold cflip, in_range. intros Hbk Hv. destruct r; [|assumption].
  pose proof (brev_range (nbytes bf) v) as H. rewrite nbytes_eq in H by assumption. assumption.
Qed.
Lemma cflip_cflip bf r v : backing_ok (b_ty bf) -> in_range bf v -> cflip bf r (cflip bf r v) = v.
Proof.
  intros Hbk Hv. destruct r; [|reflexivity]. apply brev_brev. rewrite nbytes_eq by assumption. assumption.
Qed.

(** Whether the bytes are reversed. *)
Definition fi_flip (bf : bitfield) (e : endian) : bool :=
  match e with Little => is_integer_backed bf | Big => negb (is_integer_backed bf) end.
Definition w_flip (e : endian) : bool := match e with Little => true | Big => false end.

Lemma nbytes_arr bf n : b_ty bf = DArray n -> 0 < n -> nbytes bf = Z.to_nat n.
Proof. unfold nbytes. intros -> H. cbn [ty_size]. f_equal. lia. Qed.

Lemma convert_from_into_ok m bf e v : backing_ok (b_ty bf) -> in_range bf v ->
  convert_from_into m bf e (store_of bf v) = Val (store_of bf (cflip bf (fi_flip bf e) v)).
Proof.
  intros Hbk Hv. unfold convert_from_into, store_of, fi_flip, cflip, is_integer_backed.
  pose proof (nbytes_arr bf) as Hn.
  destb bf t n Et; destruct e; cbn [negb]; try reflexivity.
  - unfold swap_bytes, brev, nbytes. rewrite Et. reflexivity.
  - rewrite reverse_xor_ok by (rewrite le_bytes_length; lia). cbn [bind].
    rewrite rev_bytes. rewrite (Hn n) by (auto || lia). reflexivity.
Qed.

Lemma convert_traits_ok m bf e v : backing_ok (b_ty bf) -> in_range bf v ->
  convert_traits m bf e (store_of bf v) = Val (store_of bf (cflip bf (fi_flip bf e) v)).
Proof.
  intros Hbk Hv. unfold convert_traits, store_of, fi_flip, cflip, is_integer_backed.
  pose proof (nbytes_arr bf) as Hn.
  destb bf t n Et; destruct e; cbn [negb]; try reflexivity.
  - unfold swap_bytes, brev, nbytes. rewrite Et. reflexivity.
  - rewrite reverse_temp_ok. cbn [bind].
    rewrite rev_bytes. rewrite (Hn n) by (auto || lia). reflexivity.
Qed.

Lemma convert_write_ok m bf e v : backing_ok (b_ty bf) -> in_range bf v ->
  convert_write m bf e (store_of bf v) = Val (store_of bf (cflip bf (w_flip e) v)).
Proof.
  intros Hbk Hv. unfold convert_write, store_of, w_flip, cflip.
  pose proof (nbytes_arr bf) as Hn.
  destb bf t n Et; destruct e; try reflexivity.
  - unfold swap_bytes, brev, nbytes. rewrite Et. reflexivity.
  - rewrite reverse_xor_ok by (rewrite le_bytes_length; lia). cbn [bind].
    rewrite rev_bytes. rewrite (Hn n) by (auto || lia). reflexivity.
Qed.

(** ** Copying fields *)

(** What copying the bits [r] of a field stores. *)
Definition cenc (bf : bitfield) (f : field) (r : Z) : Z :=
  aenc f (value_variable f (raw_pval bf f r)).
Definition copy_num (bf : bitfield) (sel : field -> bool) (b v : Z) : Z :=
  upd (fun f => cenc bf f (slice b (f_off f) (f_bits f))) (filter sel (b_fields bf)) v.
Definition defaults_num (bf : bitfield) (v : Z) : Z :=
  upd denc (filter has_default (b_fields bf)) v.

Lemma copy_ok m bf sel b v : bf_ok bf -> in_range bf b -> in_range bf v ->
  copy_fields m bf sel (store_of bf b) (store_of bf v) = Val (store_of bf (copy_num bf sel b v)).
Proof. intros. apply copy_fields_ok; assumption. Qed.
Lemma copy_range bf sel b v : bf_ok bf -> in_range bf b -> in_range bf v -> in_range bf (copy_num bf sel b v).
Proof. intros. apply (copy_fields_ok Checked); assumption. Qed.
Lemma defaults_ok m bf v : bf_ok bf -> in_range bf v ->
  set_defaults m bf (store_of bf v) = Val (store_of bf (defaults_num bf v)).
Proof. intros. apply set_defaults_ok; assumption. Qed.
Lemma defaults_range bf v : bf_ok bf -> in_range bf v -> in_range bf (defaults_num bf v).
Proof. intros. apply (set_defaults_ok Checked); assumption. Qed.

(** ** Raw contents after a sequence of assignments *)

Lemma upd_raw bf g sel v f :
  bf_ok bf -> In f (b_fields bf) ->
  slice (upd g (filter sel (b_fields bf)) v) (f_off f) (f_bits f) =
  if sel f then g f mod 2 ^ f_bits f else slice v (f_off f) (f_bits f).
Proof.
  intros Hbf Hin. pose proof Hbf as (_ & Hok & _).
  pose proof (bf_ok_disj bf Hbf) as Hd.
  destruct (sel f) eqn:Es.
  - apply (upd_slice_in bf).
    + apply Forall_filter; assumption.
    + apply FOP_filter; assumption.
    + apply filter_In; auto.
  - apply (upd_slice_out bf).
    + apply Forall_filter; assumption.
    + eapply bf_ok_field; eassumption.
    + intros h Hh. apply filter_In in Hh. destruct Hh as [Hh Esh].
      destruct (FOP_In disj (b_fields bf) h f Hd Hh Hin) as [->|[H|H]];
        [congruence|assumption|apply disj_sym; assumption].
Qed.

Lemma cenc_lossless bf f r : field_ok bf f -> lossless f -> 0 <= r < 2 ^ f_bits f ->
  cenc bf f r mod 2 ^ f_bits f = r.
Proof. apply aenc_value. Qed.

Lemma slice_in bf f v : field_ok bf f -> 0 <= slice v (f_off f) (f_bits f) < 2 ^ f_bits f.
Proof. intros (Hb & _). apply slice_bound; lia. Qed.

Lemma copy_all_lossless bf b v : bf_ok bf -> all_lossless bf -> in_range bf b -> in_range bf v ->
  copy_num bf (fun _ => true) b v = b.
Proof.
  intros Hbf Hl Hb Hv. apply (slices_determine bf); auto using copy_range.
  intros f Hin. unfold copy_num. rewrite upd_raw by assumption.
  pose proof (bf_ok_field bf f Hbf Hin) as Hf.
  apply cenc_lossless; auto. apply (slice_in bf); assumption.
Qed.

(** ** [from_*], [into_*], [write_*] *)

Definition from_num (bf : bitfield) (e : endian) (defaults : bool) (b : Z) : Z :=
  let v := copy_num bf (fun _ => true) (cflip bf (fi_flip bf e) b) 0 in
  if defaults then defaults_num bf v else v.

Lemma build_from_ok m bf d b : bf_ok bf -> in_range bf b ->
  build_from m bf d (store_of bf b) =
  Val (store_of bf (if d then defaults_num bf (copy_num bf (fun _ => true) b 0)
                    else copy_num bf (fun _ => true) b 0)).
Proof.
  intros Hbf Hb. pose proof Hbf as (Hbk & _). unfold build_from.
  rewrite init_store_of by assumption. pose proof (in_range_0 bf Hbk).
  rewrite copy_ok by assumption. cbn [bind]. destruct d; [|reflexivity].
  apply defaults_ok; auto using copy_range.
Qed.

Lemma from_range bf e d b : bf_ok bf -> in_range bf b -> in_range bf (from_num bf e d b).
Proof.
  intros Hbf Hb. pose proof Hbf as (Hbk & _). pose proof (in_range_0 bf Hbk).
  unfold from_num. destruct d; auto using copy_range, defaults_range, cflip_range.
Qed.

Lemma from_data_ok m bf vr d b : bf_ok bf -> in_range bf b ->
  from_data m bf vr d (store_of bf b) =
  Val (store_of bf (from_num bf (variant_endian (a_from_endian (b_args bf)) vr) d b)).
Proof.
  intros Hbf Hb. pose proof Hbf as (Hbk & _). unfold from_data.
  rewrite convert_from_into_ok by assumption. cbn [bind].
  rewrite build_from_ok by auto using cflip_range. reflexivity.
Qed.

Lemma into_data_ok m bf vr v : bf_ok bf -> in_range bf v ->
  into_data m bf vr (store_of bf v) =
  Val (store_of bf (cflip bf (fi_flip bf (variant_endian (a_into_endian (b_args bf)) vr)) v)).
Proof. intros (Hbk & _) Hv. apply convert_from_into_ok; assumption. Qed.

Lemma trait_from_ok m bf b : bf_ok bf -> in_range bf b ->
  trait_from m bf (store_of bf b) = Val (store_of bf (from_num bf (a_from_endian (b_args bf)) false b)).
Proof.
  intros Hbf Hb. pose proof Hbf as (Hbk & _). unfold trait_from.
  rewrite convert_traits_ok by assumption. cbn [bind]. rewrite init_store_of by assumption.
  pose proof (in_range_0 bf Hbk). apply copy_ok; auto using cflip_range.
Qed.

Lemma trait_into_ok m bf v : bf_ok bf -> in_range bf v ->
  trait_into m bf (store_of bf v) =
  Val (store_of bf (cflip bf (fi_flip bf (a_into_endian (b_args bf))) v)).
Proof. intros (Hbk & _) Hv. apply convert_traits_ok; assumption. Qed.

Definition write_num (bf : bitfield) (e : endian) (d : bool) (b v : Z) : Z :=
  let v' := copy_num bf has_setter (cflip bf (w_flip e) b) v in
  if d then defaults_num bf v' else v'.

Lemma write_range bf e d b v : bf_ok bf -> in_range bf b -> in_range bf v ->
  in_range bf (write_num bf e d b v).
Proof.
  intros Hbf Hb Hv. pose proof Hbf as (Hbk & _).
  unfold write_num. destruct d; auto using copy_range, defaults_range, cflip_range.
Qed.

Lemma write_data_ok m bf vr d b v : bf_ok bf -> in_range bf b -> in_range bf v ->
  write_data m bf vr d (store_of bf b) (store_of bf v) =
  Val (store_of bf (write_num bf (variant_endian (a_write_endian (b_args bf)) vr) d b v)).
Proof.
  intros Hbf Hb Hv. pose proof Hbf as (Hbk & _). unfold write_data, write_num.
  rewrite convert_write_ok by assumption. cbn [bind].
  rewrite copy_ok by auto using cflip_range. cbn [bind]. destruct d; [|reflexivity].
  apply defaults_ok; auto using copy_range, cflip_range.
Qed.

(** ** Slices *)

Lemma copy_bytes_ok n src dst :
  0 <= n -> n <= Z.of_nat (List.length src) -> n <= Z.of_nat (List.length dst) ->
  copy_bytes n src dst = Val (firstn (Z.to_nat n) src ++ skipn (Z.to_nat n) dst).
Proof.
  intros Hn Hs Hd. unfold copy_bytes.
  apply while_lt_eq with (g := fun i => firstn (Z.to_nat i) src ++ skipn (Z.to_nat i) dst).
  - lia.
  - reflexivity.
  - reflexivity.
  - intros i Hi. rewrite arr_get_nth by lia. cbn [bind].
    rewrite arr_set_upd.
    2:{ rewrite app_length, firstn_length, skipn_length. lia. }
    f_equal. apply nth_ext with (d := 0) (d' := 0).
    + rewrite list_upd_length, !app_length, !firstn_length, !skipn_length. lia.
    + intros k Hk. rewrite nth_list_upd, app_length, firstn_length, skipn_length.
      rewrite list_upd_length, app_length, firstn_length, skipn_length in Hk.
      assert (Hnth : forall j, (j <= n) -> 0 <= j ->
        nth k (firstn (Z.to_nat j) src ++ skipn (Z.to_nat j) dst) 0 =
        if Z.of_nat k <? j then nth k src 0 else nth k dst 0).
      { intros j Hj Hj0. destruct (Z.ltb_spec (Z.of_nat k) j).
        - rewrite app_nth1 by (rewrite firstn_length; lia).
          rewrite <- (firstn_skipn (Z.to_nat j) src) at 2.
          rewrite app_nth1 by (rewrite firstn_length; lia). reflexivity.
        - rewrite app_nth2 by (rewrite firstn_length; lia). rewrite firstn_length.
          rewrite <- (firstn_skipn (Z.to_nat j) dst) at 2.
          rewrite app_nth2 by (rewrite firstn_length; lia). rewrite firstn_length.
          f_equal. lia. }
      rewrite !Hnth by lia.
      destruct (Nat.eqb_spec k (Z.to_nat i)), (Nat.ltb_spec (Z.to_nat i)
        (Nat.min (Z.to_nat i) (List.length src) + (List.length dst - Z.to_nat i))); cbn [andb]; try lia.
      * subst k. destruct (Z.ltb_spec (Z.of_nat (Z.to_nat i)) (i + 1)); [reflexivity|lia].
      * destruct (Z.ltb_spec (Z.of_nat k) i), (Z.ltb_spec (Z.of_nat k) (i + 1)); try lia; reflexivity.
Qed.
