(** Arithmetic and bit-level facts. *)
From Coq Require Import ZArith List Bool Lia.
From Verif Require Import RustInt Syntax Spec.
Import ListNotations.
Open Scope Z_scope.
Ltac Zify.zify_post_hook ::= Z.to_euclidean_division_equations.

Lemma pow2_pos n : 0 <= n -> 0 < 2 ^ n.
Proof. intros; apply Z.pow_pos_nonneg; lia. Qed.
Lemma pow2_le a b : 0 <= a <= b -> 2 ^ a <= 2 ^ b.
Proof. intros; apply Z.pow_le_mono_r; lia. Qed.
Lemma pow2_lt a b : 0 <= a < b -> 2 ^ a < 2 ^ b.
Proof. intros; apply Z.pow_lt_mono_r; lia. Qed.

Lemma umax_ones w : 0 <= w -> umax w = Z.ones w.
Proof. intros. unfold umax. rewrite Z.ones_equiv. lia. Qed.

Lemma testbit_pow2 k i : 0 <= k -> Z.testbit (2 ^ k) i = (k =? i).
Proof.
  intros. destruct (Z.eqb_spec k i).
  - subst. apply Z.pow2_bits_true; lia.
  - apply Z.pow2_bits_false; lia.
Qed.

Lemma testbit_small v n i : 0 <= v < 2 ^ n -> n <= i -> Z.testbit v i = false.
Proof.
  intros Hv Hi. destruct (Z.eq_dec v 0) as [->|]; [apply Z.bits_0|].
  apply Z.bits_above_log2; [lia|].
  assert (Z.log2 v < n) by (apply Z.log2_lt_pow2; lia). lia.
Qed.

Lemma bound_of_bits v n : 0 <= n -> (forall i, n <= i -> Z.testbit v i = false) -> 0 <= v < 2 ^ n.
Proof.
  intros Hn H.
  assert (E : v mod 2 ^ n = v).
  { apply Z.bits_inj'. intros i Hi. destruct (Z_lt_ge_dec i n).
    - apply Z.mod_pow2_bits_low; lia.
    - rewrite Z.mod_pow2_bits_high by lia. symmetry. apply H; lia. }
  rewrite <- E. apply Z.mod_pos_bound. apply pow2_pos; lia.
Qed.

Lemma slice_spec v off n i :
  0 <= off -> 0 <= n -> 0 <= i ->
  Z.testbit (slice v off n) i = (i <? n) && Z.testbit v (i + off).
Proof.
  intros. unfold slice. rewrite <- Z.shiftr_div_pow2 by lia.
  destruct (Z.ltb_spec i n).
  - rewrite Z.mod_pow2_bits_low by lia. rewrite Z.shiftr_spec by lia. reflexivity.
  - rewrite Z.mod_pow2_bits_high by lia. reflexivity.
Qed.

Lemma slice_bound v off n : 0 <= n -> 0 <= slice v off n < 2 ^ n.
Proof. intros. unfold slice. apply Z.mod_pos_bound, pow2_pos; lia. Qed.

Lemma splice_spec v off n x i :
  0 <= off -> 0 <= n -> 0 <= i ->
  Z.testbit (splice v off n x) i =
  if (off <=? i) && (i <? off + n) then Z.testbit x (i - off) else Z.testbit v i.
Proof.
  intros. unfold splice.
  rewrite <- !Z.shiftl_mul_pow2 by lia.
  assert (E1 : v - Z.shiftl (slice v off n) off = Z.ldiff v (Z.shiftl (slice v off n) off)).
  { apply Z.sub_nocarry_ldiff. apply Z.bits_inj'. intros j Hj.
    rewrite Z.ldiff_spec, Z.bits_0, Z.shiftl_spec by lia.
    destruct (Z_lt_ge_dec j off).
    - rewrite Z.testbit_neg_r by lia. reflexivity.
    - rewrite slice_spec by lia. replace (j - off + off) with j by lia.
      destruct (j - off <? n), (Z.testbit v j); reflexivity. }
  rewrite E1.
  assert (E2 : forall a b, Z.land a b = 0 -> a + b = Z.lor a b).
  { intros a b E. rewrite Z.add_nocarry_lxor by exact E.
    apply Z.bits_inj'. intros j Hj. apply (f_equal (fun z => Z.testbit z j)) in E.
    rewrite Z.land_spec, Z.bits_0 in E. rewrite Z.lxor_spec, Z.lor_spec.
    destruct (Z.testbit a j), (Z.testbit b j); try reflexivity; discriminate. }
  rewrite E2.
  - rewrite Z.lor_spec, Z.ldiff_spec, !Z.shiftl_spec by lia.
    destruct (Z.leb_spec off i); cbn [andb].
    + rewrite slice_spec by lia. replace (i - off + off) with i by lia.
      destruct (Z.ltb_spec (i - off) n), (Z.ltb_spec i (off + n)); try lia; cbn [andb].
      * rewrite Z.mod_pow2_bits_low by lia.
        destruct (Z.testbit v i); reflexivity.
      * rewrite Z.mod_pow2_bits_high by lia.
        destruct (Z.testbit v i); reflexivity.
    + rewrite !(Z.testbit_neg_r _ (i - off)) by lia.
      destruct (Z.testbit v i); reflexivity.
  - apply Z.bits_inj'. intros j Hj.
    rewrite Z.land_spec, Z.ldiff_spec, Z.bits_0, !Z.shiftl_spec by lia.
    destruct (Z_lt_ge_dec j off).
    + rewrite !(Z.testbit_neg_r _ (j - off)) by lia. apply andb_false_r.
    + rewrite slice_spec by lia. replace (j - off + off) with j by lia.
      destruct (Z.ltb_spec (j - off) n).
      * destruct (Z.testbit v j); reflexivity.
      * rewrite (Z.mod_pow2_bits_high x) by lia. apply andb_false_r.
Qed.

Lemma splice_mod v off n x : splice v off n (x mod 2 ^ n) = splice v off n x.
Proof. unfold splice. rewrite Zmod_mod. reflexivity. Qed.
Lemma splice_ext v off n x y : x mod 2 ^ n = y mod 2 ^ n -> splice v off n x = splice v off n y.
Proof. unfold splice. intros ->. reflexivity. Qed.

Lemma splice_bound S v off n x :
  0 <= off -> 0 <= n -> off + n <= S -> 0 <= v < 2 ^ S -> 0 <= splice v off n x < 2 ^ S.
Proof.
  intros. apply bound_of_bits; [lia|]. intros i Hi.
  rewrite splice_spec by lia.
  destruct (Z.leb_spec off i), (Z.ltb_spec i (off + n)); try lia; cbn;
    apply (testbit_small v S); lia.
Qed.

Lemma slice_splice_same v off n x :
  0 <= off -> 0 <= n -> slice (splice v off n x) off n = x mod 2 ^ n.
Proof.
  intros. apply Z.bits_inj'. intros i Hi.
  rewrite slice_spec, splice_spec by lia.
  destruct (Z.ltb_spec i n).
  - rewrite Z.mod_pow2_bits_low by lia.
    destruct (Z.leb_spec off (i + off)), (Z.ltb_spec (i + off) (off + n)); try lia; cbn.
    f_equal; lia.
  - rewrite Z.mod_pow2_bits_high by lia. reflexivity.
Qed.

Lemma slice_splice_other v off n x off' n' :
  0 <= off -> 0 <= n -> 0 <= off' -> 0 <= n' ->
  off + n <= off' \/ off' + n' <= off ->
  slice (splice v off n x) off' n' = slice v off' n'.
Proof.
  intros. apply Z.bits_inj'. intros i Hi.
  rewrite !slice_spec, splice_spec by lia.
  destruct (Z.ltb_spec i n'); cbn; [|reflexivity].
  destruct (Z.leb_spec off (i + off')), (Z.ltb_spec (i + off') (off + n)); try lia; reflexivity.
Qed.

Lemma splice_slice v off n : 0 <= off -> 0 <= n -> splice v off n (slice v off n) = v.
Proof.
  intros. unfold splice. unfold slice. rewrite Zmod_mod. lia.
Qed.

Lemma splice_splice v off n x y :
  0 <= off -> 0 <= n -> splice (splice v off n x) off n y = splice v off n y.
Proof.
  intros. apply Z.bits_inj'. intros i Hi. rewrite !splice_spec by lia.
  destruct ((off <=? i) && (i <? off + n)); reflexivity.
Qed.

Lemma splice_comm v off n x off' n' y :
  0 <= off -> 0 <= n -> 0 <= off' -> 0 <= n' ->
  off + n <= off' \/ off' + n' <= off ->
  splice (splice v off n x) off' n' y = splice (splice v off' n' y) off n x.
Proof.
  intros. apply Z.bits_inj'. intros i Hi. rewrite !splice_spec by lia.
  destruct (Z.leb_spec off i), (Z.ltb_spec i (off + n)), (Z.leb_spec off' i),
    (Z.ltb_spec i (off' + n')); try lia; reflexivity.
Qed.

(** ** Fixed-width operations in terms of bits *)

Lemma land_umax x n : 0 <= n -> Z.land x (umax n) = x mod 2 ^ n.
Proof. intros. rewrite umax_ones by lia. apply Z.land_ones; lia. Qed.

Lemma unot_spec w x i : 0 <= w -> 0 <= i ->
  Z.testbit (unot w x) i = xorb (Z.testbit x i) (i <? w).
Proof.
  intros. unfold unot. rewrite Z.lxor_spec, umax_ones by lia. f_equal.
  destruct (Z.ltb_spec i w).
  - apply Z.ones_spec_low; lia.
  - apply Z.ones_spec_high; lia.
Qed.

Lemma umax_spec w i : 0 <= w -> 0 <= i -> Z.testbit (umax w) i = (i <? w).
Proof.
  intros. rewrite umax_ones by lia. destruct (Z.ltb_spec i w).
  - apply Z.ones_spec_low; lia.
  - apply Z.ones_spec_high; lia.
Qed.

Lemma ucast_spec w x i : 0 <= w -> 0 <= i -> Z.testbit (ucast w x) i = (i <? w) && Z.testbit x i.
Proof.
  intros. unfold ucast. destruct (Z.ltb_spec i w).
  - apply Z.mod_pow2_bits_low; lia.
  - apply Z.mod_pow2_bits_high; lia.
Qed.

Lemma mod_pow2_spec w x i : 0 <= w -> 0 <= i -> Z.testbit (x mod 2 ^ w) i = (i <? w) && Z.testbit x i.
Proof. apply ucast_spec. Qed.

Lemma mod_mod_pow2 x a b : 0 <= b <= a -> (x mod 2 ^ a) mod 2 ^ b = x mod 2 ^ b.
Proof.
  intros. apply Z.bits_inj'. intros i Hi. rewrite !mod_pow2_spec by lia.
  destruct (Z.ltb_spec i b), (Z.ltb_spec i a); try lia; cbn; reflexivity.
Qed.

Lemma ucast_mod w n x : 0 <= n <= w -> ucast w x mod 2 ^ n = x mod 2 ^ n.
Proof. intros. apply mod_mod_pow2; lia. Qed.

Lemma mod_eq_of_add x n k : 0 <= n -> (x + k * 2 ^ n) mod 2 ^ n = x mod 2 ^ n.
Proof. intros. apply Z_mod_plus_full. Qed.

Lemma scast_mod w n x : 0 < w -> 0 <= n <= w -> scast w x mod 2 ^ n = x mod 2 ^ n.
Proof.
  intros. unfold scast.
  set (y := x + 2 ^ (w - 1)).
  pose proof (Z.div_mod y (2 ^ w)) as D. pose proof (pow2_pos w).
  replace (y mod 2 ^ w - 2 ^ (w - 1)) with (x + (- (y / 2 ^ w) * 2 ^ (w - n)) * 2 ^ n).
  - apply Z_mod_plus_full.
  - rewrite <- Z.mul_assoc, <- Z.pow_add_r by lia. replace (w - n + n) with w by lia.
    unfold y in *. lia.
Qed.

Lemma scast_range w x : 0 < w -> - 2 ^ (w - 1) <= scast w x < 2 ^ (w - 1).
Proof.
  intros. unfold scast.
  assert (2 ^ w = 2 * 2 ^ (w - 1)) by (rewrite <- Z.pow_succ_r by lia; f_equal; lia).
  pose proof (Z.mod_pos_bound (x + 2 ^ (w - 1)) (2 ^ w) (pow2_pos w ltac:(lia))). lia.
Qed.

Lemma scast_id w x : 0 < w -> - 2 ^ (w - 1) <= x < 2 ^ (w - 1) -> scast w x = x.
Proof.
  intros. unfold scast.
  assert (2 ^ w = 2 * 2 ^ (w - 1)) by (rewrite <- Z.pow_succ_r by lia; f_equal; lia).
  rewrite Z.mod_small; lia.
Qed.

Lemma cast_mod t n x : t <> TBool -> 0 <= n <= ity_bits t -> cast t x mod 2 ^ n = x mod 2 ^ n.
Proof.
  intros. unfold cast. destruct (ity_unsigned t).
  - apply ucast_mod; lia.
  - apply scast_mod; [destruct t; cbn; lia|lia].
Qed.

Lemma cast_id t x : in_ity t x -> cast t x = x.
Proof.
  unfold in_ity, cast. destruct (ity_unsigned t) eqn:E; intros.
  - apply Z.mod_small; lia.
  - apply scast_id; [destruct t; cbn; lia|lia].
Qed.

Lemma cast_in_ity t x : in_ity t (cast t x).
Proof.
  unfold in_ity, cast. destruct (ity_unsigned t) eqn:E.
  - apply Z.mod_pos_bound, pow2_pos. destruct t; cbn; lia.
  - apply scast_range. destruct t; cbn; lia.
Qed.

(** The two's complement reading. *)
Lemma signed_of_scast n r : 0 < n -> 0 <= r < 2 ^ n -> signed_of n r = scast n r.
Proof.
  intros. unfold signed_of, scast.
  assert (2 ^ n = 2 * 2 ^ (n - 1)) by (rewrite <- Z.pow_succ_r by lia; f_equal; lia).
  destruct (Z.ltb_spec r (2 ^ (n - 1))).
  - rewrite Z.mod_small; lia.
  - rewrite <- (Z_mod_plus_full (r + 2 ^ (n - 1)) (-1)). rewrite Z.mod_small; lia.
Qed.

Lemma signed_of_range n r : 0 < n -> 0 <= r < 2 ^ n -> - 2 ^ (n - 1) <= signed_of n r < 2 ^ (n - 1).
Proof. intros. rewrite signed_of_scast by lia. apply scast_range; lia. Qed.

Lemma signed_of_mod n r : 0 < n -> 0 <= r < 2 ^ n -> signed_of n r mod 2 ^ n = r.
Proof.
  intros. rewrite signed_of_scast by lia. rewrite scast_mod by lia. apply Z.mod_small; lia.
Qed.

Lemma signed_of_inv n z : 0 < n -> - 2 ^ (n - 1) <= z < 2 ^ (n - 1) -> signed_of n (z mod 2 ^ n) = z.
Proof.
  intros. pose proof (Z.mod_pos_bound z (2 ^ n) (pow2_pos n ltac:(lia))).
  rewrite signed_of_scast by lia.
  transitivity (scast n z); [|apply scast_id; lia].
  unfold scast. f_equal. rewrite Zplus_mod_idemp_l. reflexivity.
Qed.

(** ** Little-endian bytes *)

Lemma le_bytes_length n z : List.length (le_bytes n z) = n.
Proof. revert z; induction n; intros; cbn; [|rewrite IHn]; reflexivity. Qed.

Lemma le_bytes_bytes n z : Forall is_byte (le_bytes n z).
Proof.
  revert z; induction n; intros; cbn; constructor; auto.
  unfold is_byte. apply Z.mod_pos_bound; lia.
Qed.

Lemma pow256_S n : 256 ^ Z.of_nat (S n) = 256 * 256 ^ Z.of_nat n.
Proof. rewrite Nat2Z.inj_succ, Z.pow_succ_r by lia. reflexivity. Qed.

Lemma pow256 n : 0 <= n -> 256 ^ n = 2 ^ (8 * n).
Proof. intros. change 256 with (2 ^ 8). rewrite <- Z.pow_mul_r by lia. reflexivity. Qed.

Lemma le_val_bytes n z : le_val (le_bytes n z) = z mod 256 ^ Z.of_nat n.
Proof.
  revert z; induction n; intros.
  - cbn. rewrite Z.mod_1_r. reflexivity.
  - cbn [le_bytes le_val]. rewrite IHn, pow256_S.
    rewrite (Z.rem_mul_r z 256) by (try lia; apply Z.pow_pos_nonneg; lia). reflexivity.
Qed.

Lemma le_val_bound l : Forall is_byte l -> 0 <= le_val l < 256 ^ Z.of_nat (List.length l).
Proof.
  induction 1; cbn [le_val List.length].
  - cbn. lia.
  - rewrite pow256_S. unfold is_byte in H. lia.
Qed.

Lemma le_bytes_val l : Forall is_byte l -> le_bytes (List.length l) (le_val l) = l.
Proof.
  induction 1; cbn [le_val List.length le_bytes]; [reflexivity|].
  unfold is_byte in H. f_equal.
  - rewrite Z.mul_comm, Z_mod_plus_full. apply Z.mod_small; lia.
  - replace ((x + 256 * le_val l) / 256) with (le_val l); [exact IHForall|]. lia.
Qed.

Lemma le_bytes_mod n z : le_bytes n (z mod 256 ^ Z.of_nat n) = le_bytes n z.
Proof.
  pose proof (le_bytes_val (le_bytes n z) (le_bytes_bytes n z)) as E.
  rewrite le_bytes_length, le_val_bytes in E. exact E.
Qed.

Lemma le_bytes_nth n z k : (k < n)%nat -> nth_error (le_bytes n z) k = Some (slice z (8 * Z.of_nat k) 8).
Proof.
  revert z k; induction n; intros z k Hk; [lia|].
  destruct k; cbn [le_bytes nth_error].
  - unfold slice. cbn. rewrite Z.div_1_r. reflexivity.
  - rewrite IHn by lia. f_equal. unfold slice. f_equal.
    rewrite Z.div_div by (try lia; apply pow2_pos; lia). f_equal.
    change 256 with (2 ^ 8). rewrite <- Z.pow_add_r by lia. f_equal. lia.
Qed.

Lemma le_bytes_inj_bits n a b :
  (forall i, 0 <= i < 8 * Z.of_nat n -> Z.testbit a i = Z.testbit b i) -> le_bytes n a = le_bytes n b.
Proof.
  intros H. rewrite <- (le_bytes_mod n a), <- (le_bytes_mod n b). f_equal.
  rewrite pow256 by lia. apply Z.bits_inj'. intros i Hi. rewrite !mod_pow2_spec by lia.
  destruct (Z.ltb_spec i (8 * Z.of_nat n)); cbn; [apply H; lia|reflexivity].
Qed.

Lemma list_upd_length l n b : List.length (list_upd l n b) = List.length l.
Proof. revert n; induction l; destruct n; cbn; auto. Qed.

Lemma list_upd_nth_eq l n b : (n < List.length l)%nat -> nth_error (list_upd l n b) n = Some b.
Proof. revert n; induction l; destruct n; cbn; intros; try lia; auto. apply IHl; lia. Qed.
Lemma list_upd_nth_neq l n k b : n <> k -> nth_error (list_upd l n b) k = nth_error l k.
Proof. revert n k; induction l; destruct n, k; cbn; intros; try lia; auto. Qed.

Lemma nth_error_ext {A} (l l' : list A) :
  (forall k, nth_error l k = nth_error l' k) -> l = l'.
Proof.
  revert l'; induction l; destruct l'; intros H; auto.
  - specialize (H O); discriminate.
  - specialize (H O); discriminate.
  - f_equal.
    + specialize (H O). cbn in H. congruence.
    + apply IHl. intros k. exact (H (S k)).
Qed.

Lemma list_upd_le_bytes n z k b :
  (k < n)%nat -> is_byte b ->
  list_upd (le_bytes n z) k b = le_bytes n (splice z (8 * Z.of_nat k) 8 b).
Proof.
  intros Hk Hb. apply nth_error_ext. intros j.
  destruct (Nat.eq_dec k j) as [<-|].
  - rewrite list_upd_nth_eq by (rewrite le_bytes_length; lia).
    rewrite le_bytes_nth by lia. rewrite slice_splice_same by lia.
    f_equal. symmetry. apply Z.mod_small. unfold is_byte in Hb. lia.
  - rewrite list_upd_nth_neq by lia.
    destruct (Nat.lt_ge_cases j n).
    + rewrite !le_bytes_nth by lia. f_equal. symmetry. apply slice_splice_other; lia.
    + transitivity (@None Z); [|symmetry]; apply nth_error_None; rewrite le_bytes_length; lia.
Qed.

Lemma zeros_le_bytes n : zeros n = le_bytes (Z.to_nat n) 0.
Proof.
  unfold zeros. induction (Z.to_nat n); cbn; [reflexivity|]. rewrite IHn0. reflexivity.
Qed.

Lemma arr_get_le_bytes n z i :
  0 <= i < Z.of_nat n -> arr_get (le_bytes n z) i = Val (slice z (8 * i) 8).
Proof.
  intros. unfold arr_get. destruct (Z.leb_spec 0 i); [|lia].
  rewrite le_bytes_nth by lia. rewrite Z2Nat.id by lia. reflexivity.
Qed.

Lemma arr_set_le_bytes n z i b :
  0 <= i < Z.of_nat n -> is_byte b ->
  arr_set (le_bytes n z) i b = Val (le_bytes n (splice z (8 * i) 8 b)).
Proof.
  intros. unfold arr_set. rewrite le_bytes_length.
  destruct (Z.leb_spec 0 i), (Z.ltb_spec i (Z.of_nat n)); try lia. cbn [andb].
  rewrite list_upd_le_bytes by (try assumption; lia). rewrite Z2Nat.id by lia. reflexivity.
Qed.

(** Every byte list is the byte list of its value. *)
Lemma bytes_as_le l : Forall is_byte l -> l = le_bytes (List.length l) (le_val l).
Proof. intros; symmetry; apply le_bytes_val; assumption. Qed.

(** ** Loops *)

Lemma loop_eq {S} (body : Z -> S -> outcome S) (g : Z -> S) n i0 :
  (forall i, i0 <= i < i0 + Z.of_nat n -> body i (g i) = Val (g (i + 1))) ->
  loop n i0 body (g i0) = Val (g (i0 + Z.of_nat n)).
Proof.
  revert i0; induction n; intros i0 H; cbn [loop].
  - rewrite Z.add_0_r. reflexivity.
  - rewrite H by lia. cbn [bind]. rewrite IHn.
    + do 2 f_equal. lia.
    + intros i Hi. apply H. lia.
Qed.

Lemma while_lt_eq {S} (body : Z -> S -> outcome S) (g : Z -> S) n s r :
  0 <= n -> s = g 0 -> r = g n ->
  (forall i, 0 <= i < n -> body i (g i) = Val (g (i + 1))) ->
  while_lt n body s = Val r.
Proof.
  intros Hn -> -> H. unfold while_lt. rewrite loop_eq.
  - rewrite Z2Nat.id by lia. reflexivity.
  - rewrite Z2Nat.id by lia. exact H.
Qed.

Lemma loop_find_none {R} (body : Z -> outcome (option R)) n i0 :
  (forall i, i0 <= i < i0 + Z.of_nat n -> body i = Val None) ->
  loop_find n i0 body = Val None.
Proof.
  revert i0; induction n; intros i0 H; cbn [loop_find]; [reflexivity|].
  rewrite H by lia. cbn [bind]. apply IHn. intros; apply H; lia.
Qed.

Lemma loop_find_some {R} (body : Z -> outcome (option R)) (r : R) n i0 :
  (forall i, i0 <= i < i0 + Z.of_nat n -> body i = Val None \/ body i = Val (Some r)) ->
  (exists i, i0 <= i < i0 + Z.of_nat n /\ body i = Val (Some r)) ->
  loop_find n i0 body = Val (Some r).
Proof.
  revert i0; induction n; intros i0 H [i [Hi Hb]]; [lia|]; cbn [loop_find].
  destruct (H i0) as [E|E]; [lia| |]; rewrite E; cbn [bind]; [|reflexivity].
  apply IHn; [intros; apply H; lia|]. exists i. split; [|assumption].
  assert (i <> i0) by congruence. lia.
Qed.

Lemma run_all_eq {A S} (step : A -> S -> outcome S) (g : A -> S -> S) (P : S -> Prop) l s :
  (forall a s, In a l -> P s -> step a s = Val (g a s) /\ P (g a s)) -> P s ->
  run_all step l s = Val (fold_left (fun s a => g a s) l s) /\
  P (fold_left (fun s a => g a s) l s).
Proof.
  revert s; induction l; intros s H Hs; cbn; [auto|].
  destruct (H a s (or_introl eq_refl) Hs) as [E HP]. rewrite E. cbn [bind].
  apply IHl; [|assumption]. intros; apply H; [right|]; assumption.
Qed.
