(** The arithmetic vocabulary that specifications share with the model
    ([cast], little-endian bytes, shifts, complement, [swap_bytes]) pinned down by
    division, remainder and single bits. *)
From Coq Require Import ZArith List Bool String Lia.
From Verif Require Import RustInt Syntax Spec BitsLemmas.
Import ListNotations.
Open Scope Z_scope.

(** [e as T] is the value of type [T] congruent to [e] modulo [2^bits]. *)
Theorem V_cast t z : in_ity t (cast t z) /\ cast t z mod 2 ^ ity_bits t = z mod 2 ^ ity_bits t.
Proof.
  unfold in_ity, cast, ucast, scast.
  assert (P : 0 < 2 ^ ity_bits t) by (destruct t; reflexivity).
  assert (D : 2 ^ ity_bits t = 2 * 2 ^ (ity_bits t - 1)) by (destruct t; reflexivity).
  destruct (ity_unsigned t).
  - split; [apply Z.mod_pos_bound; exact P|apply Z.mod_mod; lia].
  - pose proof (Z.mod_pos_bound (z + 2 ^ (ity_bits t - 1)) _ P). split; [lia|].
    rewrite Zminus_mod_idemp_l. f_equal. lia.
Qed.
(** There is only one such value. *)
Theorem V_cast_unique t a b : in_ity t a -> in_ity t b ->
  a mod 2 ^ ity_bits t = b mod 2 ^ ity_bits t -> a = b.
Proof.
  unfold in_ity. intros Ha Hb E.
  assert (P : 0 < 2 ^ ity_bits t) by (destruct t; reflexivity).
  assert (D : 2 ^ ity_bits t = 2 * 2 ^ (ity_bits t - 1)) by (destruct t; reflexivity).
  destruct (ity_unsigned t).
  - rewrite !Z.mod_small in E by assumption. exact E.
  - pose proof (Z.div_mod a (2 ^ ity_bits t) ltac:(lia)).
    pose proof (Z.div_mod b (2 ^ ity_bits t) ltac:(lia)).
    assert (K : a - b = 2 ^ ity_bits t * (a / 2 ^ ity_bits t - b / 2 ^ ity_bits t)) by (rewrite Z.mul_sub_distr_l; lia).
    assert (Q : a / 2 ^ ity_bits t - b / 2 ^ ity_bits t = 0) by nia. rewrite Q in K. lia.
Qed.
Example V_cast_ex : cast I8 200 = -56 /\ cast U8 (-1) = 255 /\ cast I16 (-1) = -1.
Proof. vm_compute. auto. Qed.

(** Little-endian bytes. *)
Theorem V_le_bytes n z : List.length (le_bytes n z) = n /\
  forall k, (k < n)%nat -> nth_error (le_bytes n z) k = Some ((z / 256 ^ Z.of_nat k) mod 256).
Proof.
  split; [apply le_bytes_length|]. intros k Hk. rewrite le_bytes_nth by assumption. unfold slice.
  rewrite Z.pow_mul_r by lia. reflexivity.
Qed.
Theorem V_le_val l : Forall is_byte l ->
  0 <= le_val l < 256 ^ Z.of_nat (List.length l) /\
  forall k b, nth_error l k = Some b -> (le_val l / 256 ^ Z.of_nat k) mod 256 = b.
Proof.
  intro H. split; [now apply le_val_bound|]. intros k b Hk.
  assert (Hl : (k < List.length l)%nat) by (apply nth_error_Some; congruence).
  rewrite (bytes_as_le l H) in Hk. rewrite (proj2 (V_le_bytes _ _) k Hl) in Hk. congruence.
Qed.
(** Byte [k] of the swapped number is byte [n-1-k] of the number. *)
Theorem V_swap_bytes n z k : (k < n)%nat ->
  (swap_bytes (8 * Z.of_nat n) z / 256 ^ Z.of_nat k) mod 256 = (z / 256 ^ Z.of_nat (n - 1 - k)) mod 256.
Proof.
  intro Hk. unfold swap_bytes. rewrite Z.mul_comm, Z.div_mul, Nat2Z.id by lia.
  apply V_le_val; [apply Forall_rev, le_bytes_bytes|].
  assert (Hl : (k < List.length (le_bytes n z))%nat) by (rewrite le_bytes_length; lia).
  rewrite (nth_error_nth' _ 0) by (rewrite rev_length; exact Hl).
  rewrite rev_nth by exact Hl. rewrite le_bytes_length. f_equal.
  apply nth_error_nth. rewrite (proj2 (V_le_bytes n z)) by lia. do 5 f_equal. lia.
Qed.
Example V_bytes_ex : le_bytes 3 0x030201 = [1; 2; 3] /\ swap_bytes 24 0x030201 = 0x010203.
Proof. vm_compute. auto. Qed.

(** Shifts and complement, bit by bit. *)
Theorem V_shl m w x n : 0 <= n < w -> exists y, shl m w x n = Val y /\ 0 <= y < 2 ^ w /\
  forall i, 0 <= i < w -> Z.testbit y i = (n <=? i) && Z.testbit x (i - n).
Proof.
  intro H. unfold shl. rewrite (proj2 (Z.ltb_lt _ _)) by lia. eexists. split; [reflexivity|].
  split; [apply Z.mod_pos_bound, Z.pow_pos_nonneg; lia|]. intros i Hi.
  rewrite Z.mod_pow2_bits_low by lia. rewrite Z.shiftl_spec by lia.
  destruct (Z.leb_spec n i); [reflexivity|]. rewrite Z.testbit_neg_r by lia. reflexivity.
Qed.
Theorem V_shr m w x n : 0 <= n < w -> exists y, shr m w x n = Val y /\
  forall i, 0 <= i -> Z.testbit y i = Z.testbit x (i + n).
Proof.
  intro H. unfold shr. rewrite (proj2 (Z.ltb_lt _ _)) by lia. eexists. split; [reflexivity|].
  intros i Hi. rewrite Z.shiftr_spec by lia. reflexivity.
Qed.
(** An oversized shift: an error with overflow checks, otherwise the amount is reduced. *)
Theorem V_oversized w x n : 0 < w <= n ->
  shl Checked w x n = Panic /\ shr Checked w x n = Panic /\
  shl Wrapping w x n = shl Wrapping w x (n mod w) /\ shr Wrapping w x n = shr Wrapping w x (n mod w).
Proof.
  intro H. pose proof (Z.mod_pos_bound n w ltac:(lia)). unfold shl, shr.
  rewrite (proj2 (Z.ltb_ge n w)) by lia. rewrite (proj2 (Z.ltb_lt (n mod w) w)) by lia. auto.
Qed.
Theorem V_not w x i : 0 <= i < w -> Z.testbit (unot w x) i = negb (Z.testbit x i).
Proof.
  intro H. unfold unot, umax. rewrite Z.lxor_spec.
  replace (2 ^ w - 1) with (Z.ones w) by (rewrite Z.ones_equiv; lia).
  rewrite Z.ones_spec_low by lia. apply xorb_true_r.
Qed.
(** [+] and [-]: exact when the result fits; otherwise an error or the wrapped result. *)
Theorem V_add m w a b : 0 <= w -> 0 <= a < 2 ^ w -> 0 <= b < 2 ^ w ->
  (a + b < 2 ^ w -> uadd m w a b = Val (a + b)) /\
  (2 ^ w <= a + b -> uadd m w a b = match m with Checked => Panic | Wrapping => Val (a + b - 2 ^ w) end).
Proof.
  intros Hw Ha Hb. unfold uadd. split; intro H.
  - now rewrite (proj2 (Z.ltb_lt _ _)) by lia.
  - rewrite (proj2 (Z.ltb_ge _ _)) by lia. destruct m; [reflexivity|]. f_equal.
    symmetry. apply (Z.mod_unique_pos _ _ 1); lia.
Qed.
Theorem V_sub m w a b : 0 <= w -> 0 <= a < 2 ^ w -> 0 <= b < 2 ^ w ->
  (b <= a -> usub m w a b = Val (a - b)) /\
  (a < b -> usub m w a b = match m with Checked => Panic | Wrapping => Val (a - b + 2 ^ w) end).
Proof.
  intros Hw Ha Hb. unfold usub. split; intro H.
  - now rewrite (proj2 (Z.leb_le _ _)) by lia.
  - rewrite (proj2 (Z.leb_gt _ _)) by lia. destruct m; [reflexivity|]. f_equal.
    symmetry. apply (Z.mod_unique_pos _ _ (-1)); lia.
Qed.
(** Array access: an error out of bounds. *)
Theorem V_array l i b : 0 <= i ->
  (i < Z.of_nat (List.length l) ->
     arr_get l i = Val (nth (Z.to_nat i) l 0) /\
     exists l', arr_set l i b = Val l' /\ List.length l' = List.length l /\
       nth_error l' (Z.to_nat i) = Some b /\
       forall k, k <> Z.to_nat i -> nth_error l' k = nth_error l k) /\
  (Z.of_nat (List.length l) <= i -> arr_get l i = Panic /\ arr_set l i b = Panic).
Proof.
  intro Hi. unfold arr_get, arr_set. rewrite (proj2 (Z.leb_le 0 i) Hi). cbn [andb]. split; intro H.
  - rewrite (proj2 (Z.ltb_lt _ _)) by lia. rewrite (nth_error_nth' l 0) by lia. split; [reflexivity|].
    exists (list_upd l (Z.to_nat i) b). split; [reflexivity|]. 
    assert (Hk : (Z.to_nat i < List.length l)%nat) by lia. revert Hk. clear. generalize (Z.to_nat i).
    induction l as [|h l IH]; intros k Hk; [cbn in Hk; lia|].
    destruct k as [|k]; cbn [list_upd List.length nth_error].
    + repeat split. intros [|j] Hj; [congruence|reflexivity].
    + destruct (IH k ltac:(cbn in Hk; lia)) as (A & B & C). repeat split; [now rewrite A|exact B|].
      intros [|j] Hj; [reflexivity|]. apply C. congruence.
  - rewrite (proj2 (Z.ltb_ge _ _)) by lia. split; [|reflexivity].
    rewrite (proj2 (nth_error_None _ _)) by lia. reflexivity.
Qed.
Example V_ops_ex : shl Checked 8 0x81 1 = Val 2 /\ shr Checked 8 0x81 1 = Val 0x40 /\
  shl Wrapping 8 1 9 = Val 2 /\ unot 8 0x0f = 0xf0 /\ uadd Wrapping 8 255 2 = Val 1 /\
  usub Checked 8 1 2 = Panic /\ arr_get [7] 1 = Panic.
Proof. vm_compute. repeat split. Qed.
