(** Protected masks, single-bit, range and invert operations as updates of the
    number [sval s]. *)
From Coq Require Import ZArith List Bool Lia String.
From Verif Require Import RustInt Syntax GenInt GenArr Gen Spec BitsLemmas CoreLemmas GenLemmas ConvLemmas.
Import ListNotations.
Open Scope Z_scope.
Ltac Zify.zify_post_hook ::= Z.to_euclidean_division_equations.

(** ** Access guards and protected masks *)

Definition coversb (f : field) (i : Z) : bool := (f_off f <=? i) && (i <? f_off f + f_bits f).
Lemma coversb_spec f i : coversb f i = true <-> covers f i.
Proof. unfold coversb, covers. rewrite andb_true_iff, Z.leb_le, Z.ltb_lt. tauto. Qed.

Lemma guard_true bf prot i :
  access_guard bf prot i = true <-> exists f, In f (b_fields bf) /\ covers f i /\ prot f = true.
Proof.
  unfold access_guard. rewrite existsb_exists. split.
  - intros (f & Hin & Hc). apply filter_In in Hin. exists f. split; [tauto|]. split; [|tauto].
    apply coversb_spec. exact Hc.
  - intros (f & Hin & Hc & Hp). exists f. split; [apply filter_In; auto|]. apply coversb_spec. exact Hc.
Qed.

(** The owner of a bit position is unique. *)
Lemma owner_unique bf f g i :
  bf_ok bf -> In f (b_fields bf) -> In g (b_fields bf) -> covers f i -> covers g i -> f = g.
Proof.
  intros Hbf Hf Hg Hcf Hcg.
  destruct (FOP_In disj (b_fields bf) f g (bf_ok_disj bf Hbf) Hf Hg) as [E|[H|H]]; [assumption| |];
    unfold disj, covers in *; lia.
Qed.

Lemma guard_owner bf prot f i :
  bf_ok bf -> In f (b_fields bf) -> covers f i -> access_guard bf prot i = prot f.
Proof.
  intros Hbf Hin Hc. apply eq_true_iff_eq. rewrite guard_true. split.
  - intros (g & Hg & Hcg & Hp). rewrite (owner_unique bf f g i); assumption.
  - intros. exists f; auto.
Qed.

Lemma bit_range_spec off n i : 0 <= n -> (In i (bit_range off n) <-> off <= i < off + n).
Proof.
  intros. unfold bit_range. rewrite in_map_iff. split.
  - intros (k & <- & Hk). apply in_seq in Hk. lia.
  - intros. exists (Z.to_nat (i - off)). split; [lia|]. apply in_seq. lia.
Qed.

Lemma fold_bits_spec l mask i : (forall b, In b l -> 0 <= b) -> 0 <= i ->
  Z.testbit (fold_left (fun mask bit => Z.lor mask (2 ^ bit)) l mask) i =
  Z.testbit mask i || existsb (Z.eqb i) l.
Proof.
  intros Hl Hi. revert mask. induction l as [|b l IH]; intros mask; cbn [fold_left existsb].
  - rewrite orb_false_r. reflexivity.
  - rewrite IH by (intros; apply Hl; right; assumption).
    rewrite Z.lor_spec, testbit_pow2 by (apply Hl; left; reflexivity).
    rewrite (Z.eqb_sym b i). destruct (Z.testbit mask i), (i =? b), (existsb (Z.eqb i) l); reflexivity.
Qed.

Lemma existsb_eqb l i : existsb (Z.eqb i) l = true <-> In i l.
Proof.
  rewrite existsb_exists. split.
  - intros (x & Hx & E). apply Z.eqb_eq in E. subst. assumption.
  - intros. exists i. split; [assumption|]. apply Z.eqb_refl.
Qed.

Lemma existsb_range f i : 0 <= f_bits f -> existsb (Z.eqb i) (bit_range (f_off f) (f_bits f)) = coversb f i.
Proof.
  intros. apply eq_true_iff_eq. rewrite existsb_eqb, bit_range_spec, coversb_spec by assumption.
  reflexivity.
Qed.

Definition pm (bf : bitfield) (prot : field -> bool) : Z :=
  protected_mask_int bf prot (ty_size (b_ty bf)).

Lemma fold_masks_spec bf fs mask i : Forall (field_ok bf) fs -> 0 <= i ->
  Z.testbit (fold_left (fun mask f =>
       fold_left (fun mask bit => Z.lor mask (2 ^ bit)) (bit_range (f_off f) (f_bits f)) mask) fs mask) i
  = Z.testbit mask i || existsb (fun f => coversb f i) fs.
Proof.
  intros Hok Hi. revert mask. induction Hok as [|f fs Hf Hok IH]; intros mask; cbn [fold_left existsb].
  - rewrite orb_false_r. reflexivity.
  - rewrite IH. destruct Hf as (Hb & Ho & _).
    rewrite fold_bits_spec by (try lia; intros b Hin; apply bit_range_spec in Hin; lia).
    rewrite existsb_range by lia. rewrite orb_assoc. reflexivity.
Qed.

Lemma pm_bit bf prot i : bf_ok bf -> 0 <= i ->
  Z.testbit (pm bf prot) i = (i <? ty_size (b_ty bf)) && access_guard bf prot i.
Proof.
  intros Hbf Hi. pose proof Hbf as (Hbk & Hok & _). apply ty_size_pos in Hbk.
  unfold pm, protected_mask_int. rewrite ucast_spec by lia.
  rewrite (fold_masks_spec bf) by (try apply Forall_filter; assumption).
  rewrite Z.bits_0. reflexivity.
Qed.

Lemma pm_range bf prot : bf_ok bf -> in_range bf (pm bf prot).
Proof.
  intros (Hbk & _). apply ty_size_pos in Hbk. unfold in_range, pm, protected_mask_int, ucast.
  apply Z.mod_pos_bound, pow2_pos. lia.
Qed.

Lemma arr_mask_step N z bit : 0 <= bit < 8 * Z.of_nat N ->
  list_upd (le_bytes N z) (Z.to_nat (bit / 8))
    (Z.lor (nth (Z.to_nat (bit / 8)) (le_bytes N z) 0) (2 ^ (bit mod 8))) =
  le_bytes N (Z.lor z (2 ^ bit)).
Proof.
  intros.
  assert (E : nth (Z.to_nat (bit / 8)) (le_bytes N z) 0 = slice z (8 * (bit / 8)) 8).
  { apply nth_error_nth. rewrite le_bytes_nth by lia. do 2 f_equal. lia. }
  rewrite E. rewrite list_upd_le_bytes.
  - apply le_bytes_inj_bits. intros i Hi. repeat bits1.
    destruct (Z.leb_spec (8 * Z.of_nat (Z.to_nat (bit / 8))) i),
      (Z.ltb_spec i (8 * Z.of_nat (Z.to_nat (bit / 8)) + 8)); cbn [andb].
    + repeat bits1. destruct (Z.ltb_spec (i - 8 * Z.of_nat (Z.to_nat (bit / 8))) 8); [|lia]. cbn [andb].
      f_equal.
      * f_equal. lia.
      * destruct (Z.eqb_spec (bit mod 8) (i - 8 * Z.of_nat (Z.to_nat (bit / 8)))), (Z.eqb_spec bit i);
          try lia; reflexivity.
    + destruct (Z.eqb_spec bit i); [lia|]. rewrite orb_false_r. reflexivity.
    + destruct (Z.eqb_spec bit i); [lia|]. rewrite orb_false_r. reflexivity.
    + destruct (Z.eqb_spec bit i); [lia|]. rewrite orb_false_r. reflexivity.
  - lia.
  - unfold is_byte. change 256 with (2 ^ 8). apply bound_of_bits; [lia|]. intros i Hi.
    repeat bits1. destruct (Z.ltb_spec i 8); [lia|]. destruct (Z.eqb_spec (bit mod 8) i); [lia|]. reflexivity.
Qed.

Lemma arr_mask_bits n l z : (forall b, In b l -> 0 <= b < 8 * n) ->
  fold_left (fun bytes bit =>
         if bit / 8 <? n then
           list_upd bytes (Z.to_nat (bit / 8))
             (Z.lor (nth (Z.to_nat (bit / 8)) bytes 0) (2 ^ (bit mod 8)))
         else bytes) l (le_bytes (Z.to_nat n) z) =
  le_bytes (Z.to_nat n) (fold_left (fun mask bit => Z.lor mask (2 ^ bit)) l z).
Proof.
  revert z. induction l as [|b l IHl]; intros z Hl; cbn [fold_left]; [reflexivity|].
  assert (0 <= b < 8 * n) by (apply Hl; left; reflexivity).
  destruct (Z.ltb_spec (b / 8) n); [|lia].
  rewrite arr_mask_step by lia. apply IHl. intros; apply Hl; right; assumption.
Qed.

Lemma arr_mask_fields n fs z :
  Forall (fun f => 1 <= f_bits f /\ 0 <= f_off f /\ f_off f + f_bits f <= 8 * n) fs ->
  fold_left (fun bytes f =>
     fold_left (fun bytes bit =>
         if bit / 8 <? n then
           list_upd bytes (Z.to_nat (bit / 8))
             (Z.lor (nth (Z.to_nat (bit / 8)) bytes 0) (2 ^ (bit mod 8)))
         else bytes)
       (bit_range (f_off f) (f_bits f)) bytes) fs (le_bytes (Z.to_nat n) z) =
  le_bytes (Z.to_nat n) (fold_left (fun mask f =>
       fold_left (fun mask bit => Z.lor mask (2 ^ bit)) (bit_range (f_off f) (f_bits f)) mask) fs z).
Proof.
  intros H. revert z. induction H as [|f fs Hf Hok IH]; intros z; cbn [fold_left]; [reflexivity|].
  rewrite arr_mask_bits by (intros b Hin; apply bit_range_spec in Hin; lia). apply IH.
Qed.

Lemma protected_mask_arr_ok bf prot n : bf_ok bf -> b_ty bf = DArray n ->
  protected_mask_arr bf prot n = le_bytes (Z.to_nat n) (pm bf prot).
Proof.
  intros Hbf Et. pose proof Hbf as (Hbk & Hok & _). rewrite Et in Hbk. cbn [backing_ok] in Hbk.
  unfold protected_mask_arr.
  transitivity (le_bytes (Z.to_nat n)
     (fold_left (fun mask f =>
       fold_left (fun mask bit => Z.lor mask (2 ^ bit)) (bit_range (f_off f) (f_bits f)) mask)
     (filter prot (b_fields bf)) 0)).
  - rewrite zeros_le_bytes. apply arr_mask_fields.
    apply (Forall_filter (field_ok bf) prot) in Hok. revert Hok. apply Forall_impl.
    intros f (Hb & Ho & He & _). rewrite Et in He. cbn [ty_size] in He. lia.
  - unfold pm, protected_mask_int, ucast. rewrite Et. cbn [ty_size].
    rewrite <- (le_bytes_mod _ (fold_left _ _ _)). rewrite pow256 by lia. do 3 f_equal. lia.
Qed.

(** ** Single bits *)

Lemma set_bit_body_ok m bf i b v : bf_ok bf -> in_range bf v -> 0 <= i < ty_size (b_ty bf) ->
  set_bit_body m bf i b (store_of bf v) = Val (store_of bf (splice v i 1 (b2z b))).
Proof.
  intros (Hbk & _) Hv Hi. unfold set_bit_body, store_of, in_range in *. destb bf t n Et.
  - rewrite shl_in by lia. cbn [bind]. do 2 f_equal.
    assert (Hone : forall j, 0 <= j -> Z.testbit (Z.shiftl 1 i mod 2 ^ ity_bits t) j = (j =? i)).
    { intros j Hj. rewrite Z.shiftl_mul_pow2, Z.mul_1_l by lia. repeat bits1.
      destruct (Z.ltb_spec j (ity_bits t)), (Z.eqb_spec i j), (Z.eqb_spec j i); try lia; reflexivity. }
    destruct b; bitext j Hj; rewrite ?Z.lor_spec, Z.land_spec, unot_spec, Hone, splice_spec by lia;
      (destruct (Z.ltb_spec j (ity_bits t));
       [|rewrite (testbit_small v (ity_bits t)) by lia]);
      destruct (Z.eqb_spec j i), (Z.leb_spec i j), (Z.ltb_spec j (i + 1)); try lia; cbn [andb orb xorb];
      rewrite ?b2z_bit by lia; try (replace (j - i) with 0 by lia); btriv.
  - rewrite write_bit_ok by lia. reflexivity.
Qed.

Lemma get_bit_body_ok m bf i v : bf_ok bf -> in_range bf v -> 0 <= i < ty_size (b_ty bf) ->
  get_bit_body m bf i (store_of bf v) = Val (Z.testbit v i).
Proof.
  intros (Hbk & _) Hv Hi. unfold get_bit_body, store_of, in_range in *. destb bf t n Et.
  - rewrite shr_in by lia. cbn [bind]. rewrite land_1, b2z_ne0, Z.shiftr_spec by lia. f_equal.
  - rewrite arr_get_le_bytes by lia. cbn [bind]. rewrite shr_in by lia. cbn [bind].
    rewrite land_1, b2z_ne0. f_equal. repeat bits1.
    destruct (Z.ltb_spec (0 + i mod 8) 8); [|lia]. cbn [andb]. f_equal. lia.
Qed.

(** ** Ranges *)

(** [y] where the mask [W] is set, [v] elsewhere. *)
Definition merge (v W y : Z) : Z := Z.lor (Z.ldiff v W) (Z.land y W).
Lemma merge_bit v W y i : Z.testbit (merge v W y) i = if Z.testbit W i then Z.testbit y i else Z.testbit v i.
Proof. unfold merge. rewrite Z.lor_spec, Z.ldiff_spec, Z.land_spec. btriv. Qed.

Lemma merge_range bf v W y : bf_ok bf -> in_range bf v -> in_range bf W -> in_range bf (merge v W y).
Proof.
  intros (Hbk & _) Hv HW. apply ty_size_pos in Hbk. unfold in_range in *.
  apply bound_of_bits; [lia|]. intros i Hi. rewrite merge_bit.
  rewrite (testbit_small W (ty_size (b_ty bf))), (testbit_small v (ty_size (b_ty bf))) by lia. reflexivity.
Qed.

(** The positions [off .. off+len). *)
Definition rmask (off len : Z) : Z := Z.shiftl (umax len) off.
Lemma rmask_bit off len i : 0 <= off -> 0 <= len -> 0 <= i ->
  Z.testbit (rmask off len) i = (off <=? i) && (i <? off + len).
Proof.
  intros. unfold rmask. rewrite Z.shiftl_spec by lia. destruct (Z.leb_spec off i).
  - rewrite umax_spec by lia. cbn [andb]. destruct (Z.ltb_spec (i - off) len), (Z.ltb_spec i (off + len)); lia || reflexivity.
  - rewrite Z.testbit_neg_r by lia. reflexivity.
Qed.

(** Unprotected positions of the range. *)
Definition wmask (bf : bitfield) (prot : field -> bool) (off len : Z) : Z :=
  Z.ldiff (rmask off len) (pm bf prot).
Lemma wmask_bit bf prot off len i : bf_ok bf -> 0 <= off -> 0 <= len -> off + len <= ty_size (b_ty bf) -> 0 <= i ->
  Z.testbit (wmask bf prot off len) i = (off <=? i) && (i <? off + len) && negb (access_guard bf prot i).
Proof.
  intros. unfold wmask. rewrite Z.ldiff_spec, rmask_bit, pm_bit by assumption.
  destruct (Z.leb_spec off i), (Z.ltb_spec i (off + len)); cbn [andb]; try reflexivity.
  destruct (Z.ltb_spec i (ty_size (b_ty bf))); [reflexivity|lia].
Qed.

Lemma wmask_range bf prot off len : bf_ok bf -> 0 <= off -> 0 <= len -> off + len <= ty_size (b_ty bf) ->
  in_range bf (wmask bf prot off len).
Proof.
  intros Hbf Ho Hl He. pose proof Hbf as (Hbk & _). apply ty_size_pos in Hbk. unfold in_range.
  apply bound_of_bits; [lia|]. intros i Hi. rewrite wmask_bit by (assumption || lia).
  cases_bool; reflexivity.
Qed.

Lemma length_guard_ok m bf off len :
  off + len <= ty_size (b_ty bf) -> backing_ok (b_ty bf) -> length_guard m bf off len = Val false.
Proof.
  intros H Hbk. unfold length_guard.
  assert (ty_size (b_ty bf) < 2 ^ 32).
  { destruct (b_ty bf) as [t|n|]; cbn [ty_size backing_ok] in *; [destruct t; cbn; lia|lia|contradiction]. }
  rewrite uadd_in by lia. cbn [bind]. rewrite bf_size_eq. destruct (Z.ltb_spec (ty_size (b_ty bf)) (off + len)); [lia|reflexivity].
Qed.

Lemma is_protected_ok m bf prot n i : bf_ok bf -> b_ty bf = DArray n -> 0 <= i < 8 * n ->
  is_protected m (protected_mask_arr bf prot n) i = Val (access_guard bf prot i).
Proof.
  intros Hbf Et Hi. rewrite protected_mask_arr_ok by assumption. unfold is_protected.
  rewrite arr_get_le_bytes by lia. cbn [bind]. rewrite shr_in by lia. cbn [bind].
  rewrite land_1, b2z_ne0. f_equal. repeat bits1. destruct (Z.ltb_spec (0 + i mod 8) 8); [|lia]. cbn [andb].
  replace (0 + i mod 8 + 8 * (i / 8)) with i by lia. rewrite pm_bit by (assumption || lia).
  rewrite Et. cbn [ty_size]. destruct (Z.ltb_spec i (8 * n)); [reflexivity|lia].
Qed.

Lemma value_bit_ok m N x i : 0 <= i < 8 * Z.of_nat N -> value_bit m (le_bytes N x) i = Val (Z.testbit x i).
Proof.
  intros. unfold value_bit. rewrite arr_get_le_bytes by lia. cbn [bind]. rewrite shr_in by lia. cbn [bind].
  rewrite land_1, b2z_ne0. f_equal. repeat bits1. destruct (Z.ltb_spec (0 + i mod 8) 8); [|lia]. cbn [andb].
  f_equal. lia.
Qed.

(** Lengths for which the integer version is defined. *)
Definition len_ok (bf : bitfield) (len : Z) : Prop :=
  0 <= len /\ (is_integer_backed bf = true -> 1 <= len).

Lemma set_range_body_ok m bf off len x v :
  bf_ok bf -> in_range bf x -> in_range bf v ->
  0 <= off < ty_size (b_ty bf) -> len_ok bf len -> off + len <= ty_size (b_ty bf) ->
  set_range_body m bf off len (store_of bf x) (store_of bf v) =
  Val (store_of bf (merge v (wmask bf no_setter off len) (Z.shiftl x off))).
Proof.
  intros Hbf Hx Hv Ho [Hl0 Hl] He. pose proof Hbf as (Hbk & _).
  pose proof (is_protected_ok m bf no_setter) as Hprot.
  assert (HW : forall k, 0 <= k <= len -> forall i, 0 <= i ->
    Z.testbit (wmask bf no_setter off k) i = (off <=? i) && (i <? off + k) && negb (access_guard bf no_setter i)).
  { intros. apply wmask_bit; (assumption || lia). }
  unfold set_range_body, store_of, in_range, is_integer_backed in *. destb bf t n Et.
  - specialize (Hl eq_refl). rewrite mask_int_in by lia. cbn [bind]. rewrite shl_in by lia. cbn [bind].
    rewrite shl_in by lia. cbn [bind]. do 2 f_equal.
    bitext i Hi. rewrite merge_bit, HW by lia. repeat bits1.
    replace (protected_mask_int bf no_setter (ity_bits t)) with (pm bf no_setter)
      by (unfold pm; rewrite Et; reflexivity).
    rewrite pm_bit by assumption. rewrite Et; cbn [ty_size].
    change (Z.testbit (umax len) (i - off)) with (Z.testbit (umax len) (i - off)).
    rewrite <- (Z.shiftl_spec (umax len) off i) by lia. fold (rmask off len). rewrite rmask_bit by lia.
    destruct (Z.ltb_spec i (ity_bits t)).
    + destruct (Z.leb_spec off i), (Z.ltb_spec i (off + len)); destruct (access_guard bf no_setter i);
        cbn [andb negb xorb orb]; btriv.
    + rewrite (testbit_small v (ity_bits t)) by lia. cases_bool; btriv.
  - rewrite (while_lt_eq _ (fun k => le_bytes (Z.to_nat n) (merge v (wmask bf no_setter off k) (Z.shiftl x off))) len
       _ (le_bytes (Z.to_nat n) (merge v (wmask bf no_setter off len) (Z.shiftl x off)))).
    + reflexivity.
    + lia.
    + apply le_bytes_inj_bits. intros i Hi. rewrite merge_bit, HW by lia.
      cases_bool; reflexivity.
    + reflexivity.
    + intros k Hk. rewrite value_bit_ok by lia. cbn [bind]. rewrite uadd_in by lia. cbn [bind].
      rewrite Hprot by (auto || lia). cbn [bind].
      destruct (access_guard bf no_setter (off + k)) eqn:Eg.
      * f_equal. apply le_bytes_inj_bits. intros i Hi. rewrite !merge_bit, !HW by lia.
        destruct (Z.eq_dec i (off + k)) as [->|].
        -- rewrite Eg. rewrite !andb_false_r. reflexivity.
        -- cases_bool; reflexivity.
      * rewrite write_bit_ok by lia. f_equal. apply le_bytes_inj_bits. intros i Hi.
        rewrite splice_spec, !merge_bit, !HW by lia.
        destruct (Z.eq_dec i (off + k)) as [->|].
        -- rewrite Eg. rewrite Z.sub_diag, b2z_bit by lia. rewrite Z.shiftl_spec by lia.
           replace (off + k - off) with k by lia. cases_bool. reflexivity.
        -- cases_bool; reflexivity.
Qed.

(** Some bit of the range is protected. *)
Definition range_guard (bf : bitfield) (prot : field -> bool) (off len : Z) : bool :=
  existsb (access_guard bf prot) (bit_range off len).

Lemma range_guard_true bf prot off len : 0 <= len ->
  range_guard bf prot off len = true <-> exists i, off <= i < off + len /\ access_guard bf prot i = true.
Proof.
  intros. unfold range_guard. rewrite existsb_exists. split; intros (i & Hi & E); exists i.
  - apply bit_range_spec in Hi; auto.
  - split; [apply bit_range_spec; auto|assumption].
Qed.

Lemma range_guard_false bf prot off len : 0 <= len ->
  range_guard bf prot off len = false <-> forall i, off <= i < off + len -> access_guard bf prot i = false.
Proof.
  intros Hl. rewrite <- not_true_iff_false, range_guard_true by assumption. split.
  - intros H i Hi. apply not_true_iff_false. intros E. apply H. exists i; auto.
  - intros H (i & Hi & E). rewrite H in E by assumption. discriminate.
Qed.

Lemma int_guard_ok bf prot off len : bf_ok bf -> 0 <= off -> 0 <= len -> off + len <= ty_size (b_ty bf) ->
  negb (Z.land (rmask off len) (pm bf prot) =? 0) = range_guard bf prot off len.
Proof.
  intros Hbf Ho Hl He. destruct (range_guard bf prot off len) eqn:E.
  - apply range_guard_true in E; [|assumption]. destruct E as (i & Hi & Eg).
    destruct (Z.eqb_spec (Z.land (rmask off len) (pm bf prot)) 0) as [Z0|]; [|reflexivity].
    apply (f_equal (fun z => Z.testbit z i)) in Z0.
    rewrite Z.land_spec, rmask_bit, pm_bit, Eg, Z.bits_0 in Z0 by (assumption || lia).
    revert Z0. cases_bool; discriminate.
  - pose proof (proj1 (range_guard_false bf prot off len Hl) E) as E'.
    replace (Z.land (rmask off len) (pm bf prot)) with 0; [reflexivity|].
    bitext i Hi. rewrite Z.land_spec, rmask_bit, pm_bit, Z.bits_0 by (assumption || lia).
    destruct (Z.leb_spec off i), (Z.ltb_spec i (off + len)); cbn [andb]; try reflexivity.
    rewrite E' by lia. rewrite andb_false_r. reflexivity.
Qed.

Lemma find_protected m bf prot n off len :
  bf_ok bf -> b_ty bf = DArray n -> 0 <= off -> 0 <= len -> off + len <= 8 * n ->
  while_lt_find len (fun i =>
            src <- uadd m 32 off i ;;
            p <- is_protected m (protected_mask_arr bf prot n) src ;;
            Val (if p then Some tt else None)) =
  Val (if range_guard bf prot off len then Some tt else None).
Proof.
  intros Hbf Et Ho Hl He.
  assert (Hn : 8 * n < 2 ^ 32) by (destruct Hbf as (Hbk & _); rewrite Et in Hbk; apply Hbk).
  assert (Hbody : forall i, 0 <= i < len ->
    (src <- uadd m 32 off i ;;
     p <- is_protected m (protected_mask_arr bf prot n) src ;;
     Val (if p then Some tt else None)) = Val (if access_guard bf prot (off + i) then Some tt else None)).
  { intros i Hi. rewrite uadd_in by lia. cbn [bind]. rewrite is_protected_ok by (assumption || lia). reflexivity. }
  unfold while_lt_find. destruct (range_guard bf prot off len) eqn:E.
  - apply loop_find_some.
    + intros i Hi. rewrite Hbody by lia. destruct (access_guard bf prot (off + i)); auto.
    + apply range_guard_true in E; [|assumption]. destruct E as (i & Hi & Eg).
      exists (i - off). split; [lia|]. rewrite Hbody by lia. replace (off + (i - off)) with i by lia.
      rewrite Eg. reflexivity.
  - apply loop_find_none. intros i Hi. rewrite Hbody by lia.
    rewrite (proj1 (range_guard_false bf prot off len Hl) E) by lia. reflexivity.
Qed.

Lemma shl_rmask m t off len : 0 <= off -> 0 <= len -> off + len <= ity_bits t -> off < ity_bits t ->
  shl m (ity_bits t) (umax len) off = Val (rmask off len).
Proof.
  intros. rewrite shl_in by lia. f_equal. bitext i Hi. rewrite mod_pow2_spec by (destruct t; cbn; lia).
  fold (rmask off len). rewrite rmask_bit by lia. cases_bool; reflexivity.
Qed.

Lemma checked_set_range_ok m bf off len x v :
  bf_ok bf -> in_range bf x -> in_range bf v ->
  0 <= off < ty_size (b_ty bf) -> len_ok bf len -> off + len <= ty_size (b_ty bf) ->
  checked_set_range m bf off len (store_of bf x) (store_of bf v) =
  if range_guard bf no_setter off len then Val (store_of bf v, Err msg_write)
  else Val (store_of bf (splice v off len x), Ok tt).
Proof.
  intros Hbf Hx Hv Ho [Hl0 Hl] He. pose proof Hbf as (Hbk & _). unfold checked_set_range.
  rewrite bf_size_eq. destruct (Z.leb_spec (ty_size (b_ty bf)) off); [lia|].
  rewrite length_guard_ok by assumption. cbn [bind].
  pose proof (int_guard_ok bf no_setter off len Hbf ltac:(lia) Hl0 He) as Hig.
  pose proof (find_protected m bf no_setter) as Hfind.
  unfold store_of, in_range, is_integer_backed in *. destb bf t n Et.
  - specialize (Hl eq_refl). rewrite mask_int_in by lia. cbn [bind].
    rewrite shl_rmask by lia. cbn [bind].
    replace (protected_mask_int bf no_setter (ity_bits t)) with (pm bf no_setter)
      by (unfold pm; rewrite Et; reflexivity).
    rewrite Hig. destruct (range_guard bf no_setter off len); [reflexivity|].
    rewrite shl_in by lia. cbn [bind]. do 3 f_equal. bitext i Hi.
    rewrite Z.lor_spec, Z.land_spec, unot_spec, rmask_bit, splice_spec, mod_pow2_spec by lia.
    rewrite Z.shiftl_spec by lia.
    destruct (Z.ltb_spec i (ity_bits t)).
    + destruct (Z.leb_spec off i); cbn [andb].
      * repeat bits1. destruct (Z.ltb_spec i (off + len)), (Z.ltb_spec (i - off) len); try lia; btriv.
      * rewrite (Z.testbit_neg_r (Z.land x (umax len)) (i - off)) by lia. btriv.
    + rewrite (testbit_small v (ity_bits t)) by lia. cases_bool; btriv.
  - rewrite Hfind by (auto || lia). cbn [bind].
    destruct (range_guard bf no_setter off len); [reflexivity|].
    rewrite (while_lt_eq _ (fun k => le_bytes (Z.to_nat n) (splice v off k x)) len
       _ (le_bytes (Z.to_nat n) (splice v off len x))).
    + reflexivity.
    + lia.
    + rewrite splice_0 by lia. reflexivity.
    + reflexivity.
    + intros k Hk. rewrite value_bit_ok by lia. cbn [bind]. rewrite uadd_in by lia. cbn [bind].
      rewrite write_bit_ok by lia. rewrite splice_one by lia. reflexivity.
Qed.

Lemma set_range_ok m bf off len x v :
  bf_ok bf -> in_range bf x -> in_range bf v ->
  0 <= off < ty_size (b_ty bf) -> len_ok bf len -> off + len <= ty_size (b_ty bf) ->
  set_range m bf off len (store_of bf x) (store_of bf v) =
  Val (store_of bf (merge v (wmask bf no_setter off len) (Z.shiftl x off))).
Proof.
  intros Hbf Hx Hv Ho Hl He. pose proof Hbf as (Hbk & _). unfold set_range.
  rewrite bf_size_eq. destruct (Z.leb_spec (ty_size (b_ty bf)) off); [lia|].
  rewrite length_guard_ok by assumption. cbn [bind]. apply set_range_body_ok; assumption.
Qed.

(** Out of range calls (no u32 overflow). *)
Lemma length_guard_out m bf off len :
  ty_size (b_ty bf) < off + len < 2 ^ 32 -> length_guard m bf off len = Val true.
Proof.
  intros H. unfold length_guard. rewrite uadd_in by lia. cbn [bind]. rewrite bf_size_eq.
  destruct (Z.ltb_spec (ty_size (b_ty bf)) (off + len)); [reflexivity|lia].
Qed.

(** ** Range reads *)

Definition rget (bf : bitfield) (off len v : Z) : Z :=
  Z.ldiff (slice v off len) (Z.shiftr (pm bf no_read) off).

Lemma rget_bit bf off len v i : bf_ok bf -> 0 <= off -> 0 <= len -> off + len <= ty_size (b_ty bf) -> 0 <= i ->
  Z.testbit (rget bf off len v) i = (i <? len) && Z.testbit v (i + off) && negb (access_guard bf no_read (i + off)).
Proof.
  intros. unfold rget. rewrite Z.ldiff_spec, slice_spec, Z.shiftr_spec, pm_bit by (assumption || lia).
  destruct (Z.ltb_spec i len); cbn [andb]; [|reflexivity].
  destruct (Z.ltb_spec (i + off) (ty_size (b_ty bf))); [reflexivity|lia].
Qed.

Lemma read_bit_into_ok m N M z src i r :
  0 <= src < 8 * Z.of_nat N -> 0 <= i < 8 * Z.of_nat M ->
  read_bit_into m (le_bytes N z) src i (le_bytes M r) =
  Val (le_bytes M (Z.lor r (Z.shiftl (b2z (Z.testbit z src)) i))).
Proof.
  intros. unfold read_bit_into. rewrite arr_get_le_bytes by lia. cbn [bind].
  rewrite shr_in by lia. cbn [bind]. rewrite land_1. rewrite shl_in by lia. cbn [bind].
  rewrite arr_get_le_bytes by lia. cbn [bind].
  set (b := Z.testbit (Z.shiftr (slice z (8 * (src / 8)) 8) (src mod 8)) 0).
  assert (Eb : b = Z.testbit z src).
  { unfold b. repeat bits1. destruct (Z.ltb_spec (0 + src mod 8) 8); [|lia]. cbn [andb]. f_equal. lia. }
  rewrite Eb. clear b Eb. set (b := Z.testbit z src). clearbody b.
  assert (Hsb : forall k j, 0 <= k -> 0 <= j -> Z.testbit (Z.shiftl (b2z b) k) j = (j =? k) && b).
  { intros k j Hk Hj. rewrite Z.shiftl_spec by lia. destruct (Z_lt_ge_dec j k).
    - rewrite Z.testbit_neg_r by lia. destruct (Z.eqb_spec j k); [lia|reflexivity].
    - rewrite b2z_bit by lia. destruct (Z.eqb_spec (j - k) 0), (Z.eqb_spec j k); try lia; reflexivity. }
  rewrite arr_set_le_bytes.
  - f_equal. apply le_bytes_inj_bits. intros j Hj. rewrite splice_spec, (Z.lor_spec r), Hsb by lia.
    destruct (Z.leb_spec (8 * (i / 8)) j), (Z.ltb_spec j (8 * (i / 8) + 8)); cbn [andb].
    + rewrite Z.lor_spec, slice_spec, mod_pow2_spec, Hsb by lia.
      replace (j - 8 * (i / 8) + 8 * (i / 8)) with j by lia.
      destruct (Z.ltb_spec (j - 8 * (i / 8)) 8); [|lia].
      destruct (Z.eqb_spec (j - 8 * (i / 8)) (i mod 8)), (Z.eqb_spec j i); try lia; reflexivity.
    + destruct (Z.eqb_spec j i); [lia|]. cbn [andb]. rewrite orb_false_r. reflexivity.
    + destruct (Z.eqb_spec j i); [lia|]. cbn [andb]. rewrite orb_false_r. reflexivity.
    + destruct (Z.eqb_spec j i); [lia|]. cbn [andb]. rewrite orb_false_r. reflexivity.
  - lia.
  - unfold is_byte. change 256 with (2 ^ 8). apply bound_of_bits; [lia|]. intros j Hj.
    rewrite Z.lor_spec, slice_spec, mod_pow2_spec by lia. destruct (Z.ltb_spec j 8); [lia|]. reflexivity.
Qed.

Lemma get_range_ok m bf off len v :
  bf_ok bf -> in_range bf v ->
  0 <= off < ty_size (b_ty bf) -> len_ok bf len -> off + len <= ty_size (b_ty bf) ->
  get_range m bf off len (store_of bf v) = Val (store_of bf (rget bf off len v)).
Proof.
  intros Hbf Hv Ho [Hl0 Hl] He. pose proof Hbf as (Hbk & _). unfold get_range.
  rewrite bf_size_eq. destruct (Z.leb_spec (ty_size (b_ty bf)) off); [lia|].
  rewrite length_guard_ok by assumption. cbn [bind].
  pose proof (is_protected_ok m bf no_read) as Hprot.
  assert (HR : forall k i, 0 <= k <= len -> 0 <= i ->
    Z.testbit (rget bf off k v) i = (i <? k) && Z.testbit v (i + off) && negb (access_guard bf no_read (i + off))).
  { intros. apply rget_bit; (assumption || lia). }
  assert (HP : forall i, 0 <= i -> Z.testbit (pm bf no_read) i = (i <? ty_size (b_ty bf)) && access_guard bf no_read i).
  { intros. apply pm_bit; assumption. }
  unfold store_of, in_range, is_integer_backed in *. destb bf t n Et.
  - specialize (Hl eq_refl). rewrite mask_int_in by lia. cbn [bind].
    rewrite !shr_in by lia. cbn [bind]. do 2 f_equal. bitext i Hi. rewrite HR by lia.
    replace (protected_mask_int bf no_read (ity_bits t)) with (pm bf no_read)
      by (unfold pm; rewrite Et; reflexivity).
    repeat bits1. rewrite HP by lia.
    destruct (Z.ltb_spec i len), (Z.ltb_spec i (ity_bits t)), (Z.ltb_spec (i + off) (ity_bits t)); try lia;
      cbn [andb xorb negb]; rewrite ?andb_false_r, ?andb_true_r; try reflexivity.
  - rewrite (while_lt_eq _ (fun k => le_bytes (Z.to_nat n) (rget bf off k v)) len
       _ (le_bytes (Z.to_nat n) (rget bf off len v))).
    + reflexivity.
    + lia.
    + rewrite zeros_le_bytes. apply le_bytes_inj_bits. intros i Hi. rewrite Z.bits_0, HR by lia.
      destruct (Z.ltb_spec i 0); [lia|reflexivity].
    + reflexivity.
    + intros k Hk. rewrite uadd_in by lia. cbn [bind]. rewrite Hprot by (auto || lia). cbn [bind].
      destruct (access_guard bf no_read (off + k)) eqn:Eg.
      * f_equal. apply le_bytes_inj_bits. intros i Hi. rewrite !HR by lia.
        destruct (Z.eq_dec i k) as [->|].
        -- rewrite (Z.add_comm k off), Eg. rewrite !andb_false_r. reflexivity.
        -- cases_bool; reflexivity.
      * rewrite read_bit_into_ok by lia. f_equal. apply le_bytes_inj_bits. intros i Hi.
        rewrite Z.lor_spec, !HR by lia. rewrite Z.shiftl_spec by lia.
        destruct (Z_lt_ge_dec i k).
        -- rewrite (Z.testbit_neg_r (b2z _) (i - k)) by lia. rewrite orb_false_r. cases_bool; reflexivity.
        -- rewrite (b2z_bit _ (i - k)) by lia. destruct (Z.eq_dec i k) as [->|].
           ++ rewrite (Z.add_comm k off), Eg. replace (k - k) with 0 by lia. cases_bool.
              rewrite andb_true_r. reflexivity.
           ++ cases_bool; reflexivity.
Qed.

Lemma checked_get_range_ok m bf off len v :
  bf_ok bf -> in_range bf v ->
  0 <= off < ty_size (b_ty bf) -> len_ok bf len -> off + len <= ty_size (b_ty bf) ->
  checked_get_range m bf off len (store_of bf v) =
  Val (if range_guard bf no_read off len then Err msg_read else Ok (store_of bf (slice v off len))).
Proof.
  intros Hbf Hv Ho [Hl0 Hl] He. pose proof Hbf as (Hbk & _). unfold checked_get_range.
  rewrite bf_size_eq. destruct (Z.leb_spec (ty_size (b_ty bf)) off); [lia|].
  rewrite length_guard_ok by assumption. cbn [bind].
  pose proof (int_guard_ok bf no_read off len Hbf ltac:(lia) Hl0 He) as Hig.
  pose proof (find_protected m bf no_read) as Hfind.
  unfold store_of, in_range, is_integer_backed in *. destb bf t n Et.
  - specialize (Hl eq_refl). rewrite mask_int_in by lia. cbn [bind].
    rewrite shl_rmask by lia. cbn [bind].
    replace (protected_mask_int bf no_read (ity_bits t)) with (pm bf no_read)
      by (unfold pm; rewrite Et; reflexivity).
    rewrite Hig. destruct (range_guard bf no_read off len); [reflexivity|].
    rewrite shr_in by lia. cbn [bind]. do 3 f_equal. bitext i Hi. repeat bits1.
    rewrite andb_comm. reflexivity.
  - rewrite Hfind by (auto || lia). cbn [bind].
    destruct (range_guard bf no_read off len); [reflexivity|].
    rewrite (while_lt_eq _ (fun k => le_bytes (Z.to_nat n) (slice v off k)) len
       _ (le_bytes (Z.to_nat n) (slice v off len))).
    + reflexivity.
    + lia.
    + rewrite zeros_le_bytes. apply le_bytes_inj_bits. intros i Hi. rewrite Z.bits_0, slice_spec by lia.
      destruct (Z.ltb_spec i 0); [lia|reflexivity].
    + reflexivity.
    + intros k Hk. rewrite uadd_in by lia. cbn [bind].
      rewrite read_bit_into_ok by lia. f_equal. apply le_bytes_inj_bits. intros i Hi.
      rewrite Z.lor_spec, !slice_spec by lia. rewrite Z.shiftl_spec by lia.
      destruct (Z_lt_ge_dec i k).
      -- rewrite (Z.testbit_neg_r (b2z _) (i - k)) by lia. rewrite orb_false_r. cases_bool; reflexivity.
      -- rewrite (b2z_bit _ (i - k)) by lia. destruct (Z.eq_dec i k) as [->|].
         ++ rewrite (Z.add_comm k off). replace (k - k) with 0 by lia. cases_bool. reflexivity.
         ++ cases_bool; reflexivity.
Qed.

(** ** Inverting all bits *)

(** [v] with every unprotected bit flipped. *)
Definition inv_num (bf : bitfield) (v : Z) : Z :=
  Z.lxor v (wmask bf no_setter 0 (ty_size (b_ty bf))).

Lemma inv_bit bf v i : bf_ok bf -> in_range bf v -> 0 <= i ->
  Z.testbit (inv_num bf v) i =
  if (i <? ty_size (b_ty bf)) && negb (access_guard bf no_setter i) then negb (Z.testbit v i) else Z.testbit v i.
Proof.
  intros Hbf Hv Hi. pose proof Hbf as (Hbk & _). apply ty_size_pos in Hbk.
  unfold inv_num. rewrite Z.lxor_spec, wmask_bit by (assumption || lia).
  destruct (Z.leb_spec 0 i); [|lia]. cbn [andb Z.add].
  destruct ((i <? ty_size (b_ty bf)) && negb (access_guard bf no_setter i)); btriv.
Qed.

Lemma inv_range bf v : bf_ok bf -> in_range bf v -> in_range bf (inv_num bf v).
Proof.
  intros Hbf Hv. pose proof Hbf as (Hbk & _). apply ty_size_pos in Hbk.
  apply bound_of_bits; [lia|]. intros i Hi. rewrite inv_bit by (assumption || lia).
  destruct (Z.ltb_spec i (ty_size (b_ty bf))); [lia|]. cbn [andb].
  apply (testbit_small v (ty_size (b_ty bf))); [exact Hv|lia].
Qed.

Lemma invert_all_ok m bf v : bf_ok bf -> in_range bf v ->
  invert_all m bf (store_of bf v) =
  Val (store_of bf (copy_num bf (fun _ => true) (inv_num bf v) v)).
Proof.
  intros Hbf Hv. pose proof Hbf as (Hbk & _).
  assert (Hcopy : copy_fields m bf (fun _ => true) (store_of bf (inv_num bf v)) (store_of bf v) =
    Val (store_of bf (copy_num bf (fun _ => true) (inv_num bf v) v))).
  { apply copy_ok; auto using inv_range. }
  pose proof (inv_bit bf v) as HI. pose proof (pm_bit bf no_setter) as HP.
  pose proof (protected_mask_arr_ok bf no_setter) as Harr.
  rewrite <- Hcopy. clear Hcopy. unfold invert_all, store_of, in_range in *. destb bf t n Et.
  - do 2 f_equal. bitext i Hi. rewrite HI by assumption.
    replace (protected_mask_int bf no_setter (ity_bits t)) with (pm bf no_setter)
      by (unfold pm; rewrite Et; reflexivity).
    assert (0 <= ity_bits t) by (destruct t; cbn; lia).
    repeat bits1. rewrite HP by assumption.
    destruct (Z.ltb_spec i (ity_bits t)); cbn [andb].
    + destruct (access_guard bf no_setter i); cbn; btriv.
    + rewrite (testbit_small v (ity_bits t)) by lia. reflexivity.
  - rewrite Harr by auto.
    set (P := pm bf no_setter) in *.
    assert (HPb : forall i, 0 <= i < 8 * n -> Z.testbit P i = access_guard bf no_setter i).
    { intros i Hi. rewrite HP by (assumption || lia). destruct (Z.ltb_spec i (8 * n)); [reflexivity|lia]. }
    rewrite (while_lt_eq _ (fun k => le_bytes (Z.to_nat n) (splice v 0 (8 * k) (inv_num bf v))) n
       _ (le_bytes (Z.to_nat n) (inv_num bf v))).
    + reflexivity.
    + lia.
    + rewrite Z.mul_0_r, splice_0 by lia. reflexivity.
    + apply le_bytes_inj_bits. intros i Hi. rewrite splice_spec by lia. cases_bool. f_equal. lia.
    + intros k Hk. rewrite !arr_get_le_bytes by lia. cbn [bind].
      rewrite arr_set_le_bytes.
      * f_equal. apply le_bytes_inj_bits. intros i Hi. rewrite !splice_spec by lia.
        destruct (Z.leb_spec (8 * k) i), (Z.ltb_spec i (8 * k + 8)); cbn [andb].
        -- repeat bits1. destruct (Z.ltb_spec (i - 8 * k) 8); [|lia]. cbn [andb].
           replace (i - 8 * k + 8 * k) with i by lia. rewrite HPb by lia.
           destruct (Z.leb_spec 0 i); [|lia]. cbn [andb].
           destruct (Z.ltb_spec i (0 + 8 * k)), (Z.ltb_spec i (0 + 8 * (k + 1))); try lia.
           rewrite Z.sub_0_r, HI by (assumption || lia). destruct (Z.ltb_spec i (8 * n)); [|lia]. cbn [andb].
           destruct (access_guard bf no_setter i); cbn; btriv.
        -- cases_bool; reflexivity.
        -- cases_bool; reflexivity.
        -- cases_bool; reflexivity.
      * lia.
      * unfold is_byte. change 256 with (2 ^ 8). apply bound_of_bits; [lia|]. intros j Hj.
        repeat bits1. destruct (Z.ltb_spec j 8); [lia|]. reflexivity.
Qed.
