(** Bit and range operations: C15 - C20, C39, C41. *)
From Coq Require Import ZArith List Bool Lia String.
From Verif Require Import RustInt Syntax GenInt GenArr Gen Spec BitsLemmas CoreLemmas GenLemmas
  ConvLemmas BitOpLemmas Examples PropFields PropConv.
Import ListNotations.
Open Scope Z_scope.
Ltac Zify.zify_post_hook ::= Z.to_euclidean_division_equations.

Lemma guard_writable bf i : bf_ok bf -> 0 <= i < ty_size (b_ty bf) ->
  (access_guard bf no_setter i = false <-> bit_writable bf i).
Proof.
  intros Hbf Hi. destruct (bf_ok_owner bf i Hbf Hi) as (f & Hin & Hc).
  rewrite (guard_owner bf no_setter f i) by assumption. unfold no_setter, bit_writable.
  rewrite negb_false_iff, has_setter_t. split; [eauto|].
  intros (g & Hg & Hcg & Hw). rewrite (owner_unique bf f g i); assumption.
Qed.
Lemma guard_readable bf i : bf_ok bf -> 0 <= i < ty_size (b_ty bf) ->
  (access_guard bf no_read i = false <-> bit_readable bf i).
Proof.
  intros Hbf Hi. destruct (bf_ok_owner bf i Hbf Hi) as (f & Hin & Hc).
  rewrite (guard_owner bf no_read f i) by assumption. unfold no_read, bit_readable.
  rewrite negb_false_iff, has_read_t. split; [eauto|].
  intros (g & Hg & Hcg & Hw). rewrite (owner_unique bf f g i); assumption.
Qed.
Lemma guard_not_writable bf i : bf_ok bf -> 0 <= i < ty_size (b_ty bf) ->
  (access_guard bf no_setter i = true <-> ~ bit_writable bf i).
Proof.
  intros. rewrite <- guard_writable by assumption. destruct (access_guard bf no_setter i); intuition discriminate.
Qed.
Lemma guard_not_readable bf i : bf_ok bf -> 0 <= i < ty_size (b_ty bf) ->
  (access_guard bf no_read i = true <-> ~ bit_readable bf i).
Proof.
  intros. rewrite <- guard_readable by assumption. destruct (access_guard bf no_read i); intuition discriminate.
Qed.

(** ** C15 *)

Theorem C15_set_bit m bf i b s : bf_ok bf -> store_ok bf s -> 0 <= i ->
  (i < ty_size (b_ty bf) -> bit_writable bf i ->
     exists s', set_bit m bf i b s = Val s' /\ checked_set_bit m bf i b s = Val (s', Ok tt) /\
       store_ok bf s' /\ sbit s' i = b /\ forall j, 0 <= j -> j <> i -> sbit s' j = sbit s j) /\
  (i < ty_size (b_ty bf) -> ~ bit_writable bf i ->
     set_bit m bf i b s = Val s /\
     checked_set_bit m bf i b s = Val (s, Err "Attempted to write to non-writable bit(s)."%string)) /\
  (ty_size (b_ty bf) <= i ->
     set_bit m bf i b s = Val s /\
     checked_set_bit m bf i b s = Val (s, Err "The offset is outside the bitfield range."%string)).
Proof.
  intros Hbf Hs Hi. use_store s v. unfold set_bit, checked_set_bit. rewrite bf_size_eq.
  destruct (Z.leb_spec (ty_size (b_ty bf)) i).
  - split; [lia|]. split; [lia|]. intros _. split; reflexivity.
  - split; [|split; [|lia]]; intros _ Hw.
    + apply (guard_writable bf i) in Hw; [|assumption|lia]. rewrite Hw.
      rewrite set_bit_body_ok by (assumption || lia). cbn [bind].
      assert (Hr : in_range bf (splice v i 1 (b2z b))) by (apply splice_bound; try lia; assumption).
      eexists. split; [reflexivity|]. split; [reflexivity|]. split; [apply of_ok; assumption|].
      unfold sbit. rewrite !sval_of by assumption. split.
      * rewrite splice_spec by lia. rewrite b2z_bit by lia. cases_bool.
        replace (i - i) with 0 by lia. reflexivity.
      * intros j Hj Hne. rewrite splice_spec by lia. cases_bool; reflexivity.
    + apply (guard_not_writable bf i) in Hw; [|assumption|lia]. rewrite Hw. split; reflexivity.
Qed.

Example C15_ex :
  bit_writable ex_int 3 /\ ~ bit_writable ex_int 13 /\
  set_bit Checked ex_int 3 true (StI 0) = Val (StI 8) /\
  set_bit Checked ex_int 13 true (StI 0) = Val (StI 0) /\
  checked_set_bit Checked ex_int 13 true (StI 0) = Val (StI 0, Err msg_write) /\
  checked_set_bit Checked ex_int 16 true (StI 0) = Val (StI 0, Err msg_offset) /\
  set_bit Wrapping ex_arr 9 true (StA [0;0;0]) = Val (StA [0;2;0]).
Proof.
  split. { apply (guard_writable ex_int 3 ex_int_ok); [cbn; lia|vm_compute; reflexivity]. }
  split. { apply (guard_not_writable ex_int 13 ex_int_ok); [cbn; lia|vm_compute; reflexivity]. }
  repeat split; vm_compute; reflexivity.
Qed.

(** ** C16 *)

Theorem C16_get_bit m bf i s : bf_ok bf -> store_ok bf s -> 0 <= i ->
  (i < ty_size (b_ty bf) -> bit_readable bf i ->
     get_bit m bf i s = Val (sbit s i) /\ checked_get_bit m bf i s = Val (Ok (sbit s i))) /\
  (i < ty_size (b_ty bf) -> ~ bit_readable bf i ->
     get_bit m bf i s = Val false /\
     checked_get_bit m bf i s = Val (Err "Attempted to read from non-readable bit(s)."%string)) /\
  (ty_size (b_ty bf) <= i ->
     get_bit m bf i s = Val false /\
     checked_get_bit m bf i s = Val (Err "The offset is outside the bitfield range."%string)).
Proof.
  intros Hbf Hs Hi. use_store s v. unfold get_bit, checked_get_bit. rewrite bf_size_eq.
  destruct (Z.leb_spec (ty_size (b_ty bf)) i).
  - split; [lia|]. split; [lia|]. intros _. split; reflexivity.
  - split; [|split; [|lia]]; intros _ Hw.
    + apply (guard_readable bf i) in Hw; [|assumption|lia]. rewrite Hw.
      rewrite get_bit_body_ok by (assumption || lia). cbn [bind].
      unfold sbit. rewrite !sval_of by assumption. split; reflexivity.
    + apply (guard_not_readable bf i) in Hw; [|assumption|lia]. rewrite Hw. split; reflexivity.
Qed.

Example C16_ex :
  bit_readable ex_int 13 /\ ~ bit_readable ex_arr 21 /\
  get_bit Checked ex_int 13 (StI 0x2000) = Val true /\
  get_bit Checked ex_arr 21 (StA [0;0;0xff]) = Val false /\
  checked_get_bit Checked ex_arr 21 (StA [0;0;0xff]) = Val (Err msg_read) /\
  checked_get_bit Checked ex_arr 24 (StA [0;0;0xff]) = Val (Err msg_offset).
Proof.
  split. { apply (guard_readable ex_int 13 ex_int_ok); [cbn; lia|vm_compute; reflexivity]. }
  split. { apply (guard_not_readable ex_arr 21 ex_arr_ok); [cbn; lia|vm_compute; reflexivity]. }
  repeat split; vm_compute; reflexivity.
Qed.

(** ** C17 *)

(** Nonempty ranges; for array backing also empty ones. *)
Definition good_len (bf : bitfield) (len : Z) : Prop :=
  1 <= len \/ (len = 0 /\ is_integer_backed bf = false).
Lemma good_len_ok bf len : good_len bf len -> len_ok bf len.
Proof. unfold good_len, len_ok. intros [H|[-> H]]; split; try lia; rewrite H; discriminate. Qed.

Theorem C17_set_range m bf off len x s :
  bf_ok bf -> store_ok bf x -> store_ok bf s ->
  0 <= off < ty_size (b_ty bf) -> good_len bf len -> off + len <= ty_size (b_ty bf) ->
  exists s', set_range m bf off len x s = Val s' /\ store_ok bf s' /\
    forall i, 0 <= i < ty_size (b_ty bf) ->
      (off <= i < off + len /\ bit_writable bf i -> sbit s' i = sbit x (i - off)) /\
      (~ (off <= i < off + len /\ bit_writable bf i) -> sbit s' i = sbit s i).
Proof.
  intros Hbf Hx Hs Ho Hl He. apply good_len_ok in Hl. use_store x y. use_store s v.
  rewrite set_range_ok by assumption.
  assert (Hl0 : 0 <= len) by apply Hl.
  assert (Hr : in_range bf (merge v (wmask bf no_setter off len) (Z.shiftl y off)))
    by (apply merge_range; try assumption; apply wmask_range; (assumption || lia)).
  eexists. split; [reflexivity|]. split; [apply of_ok; assumption|].
  intros i Hi. unfold sbit. rewrite !sval_of by assumption.
  rewrite merge_bit, wmask_bit by (assumption || lia).
  pose proof (guard_writable bf i Hbf Hi) as Hg. split.
  - intros [Hri Hw]. apply Hg in Hw. rewrite Hw. cases_bool. cbn [andb negb].
    apply Z.shiftl_spec. lia.
  - intros Hn. destruct (access_guard bf no_setter i) eqn:E; cbn [negb].
    + rewrite andb_false_r. reflexivity.
    + cases_bool; cbn [andb]; try reflexivity. exfalso. apply Hn. split; [lia|apply Hg; reflexivity].
Qed.

Theorem C17_checked_set_range m bf off len x s :
  bf_ok bf -> store_ok bf x -> store_ok bf s ->
  0 <= off < ty_size (b_ty bf) -> good_len bf len -> off + len <= ty_size (b_ty bf) ->
  ((forall i, off <= i < off + len -> bit_writable bf i) ->
     exists s', checked_set_range m bf off len x s = Val (s', Ok tt) /\
                set_range m bf off len x s = Val s') /\
  ((exists i, off <= i < off + len /\ ~ bit_writable bf i) ->
     checked_set_range m bf off len x s =
     Val (s, Err "Attempted to write to non-writable bit(s)."%string)).
Proof.
  intros Hbf Hx Hs Ho Hl He. apply good_len_ok in Hl. use_store x y. use_store s v.
  rewrite checked_set_range_ok by assumption. assert (Hl0 : 0 <= len) by apply Hl. split.
  - intros Hw. destruct (range_guard bf no_setter off len) eqn:E.
    + apply range_guard_true in E; [|assumption]. destruct E as (i & Hi & Eg).
      apply guard_not_writable in Eg; try assumption; [|lia]. exfalso. apply Eg, Hw, Hi.
    + eexists. split; [reflexivity|]. rewrite set_range_ok by assumption. do 2 f_equal.
      bitext i Hi. rewrite merge_bit, wmask_bit, splice_spec by (assumption || lia).
      destruct (Z.leb_spec off i), (Z.ltb_spec i (off + len)); cbn [andb]; try reflexivity.
      rewrite (proj1 (range_guard_false bf no_setter off len Hl0) E i) by lia. cbn [negb].
      apply Z.shiftl_spec; lia.
  - intros (i & Hi & Hw). apply guard_not_writable in Hw; try assumption; [|lia].
    replace (range_guard bf no_setter off len) with true; [reflexivity|].
    symmetry. apply range_guard_true; eauto.
Qed.

Theorem C17_out_of_range m bf off len x s :
  bf_ok bf -> 0 <= off ->
  (ty_size (b_ty bf) <= off ->
     set_range m bf off len x s = Val s /\
     checked_set_range m bf off len x s = Val (s, Err "The offset is outside the bitfield range."%string)) /\
  (off < ty_size (b_ty bf) < off + len -> off + len < 2 ^ 32 ->
     set_range m bf off len x s = Val s /\
     checked_set_range m bf off len x s = Val (s, Err "The length is outside the bitfield range."%string)).
Proof.
  intros Hbf Ho. unfold set_range, checked_set_range. rewrite bf_size_eq. split.
  - intros H. destruct (Z.leb_spec (ty_size (b_ty bf)) off); [|lia]. split; reflexivity.
  - intros H H'. destruct (Z.leb_spec (ty_size (b_ty bf)) off); [lia|].
    rewrite length_guard_out by lia. split; reflexivity.
Qed.

Example C17_ex :
  set_range Checked ex_int 8 8 (StI 0xff) (StI 0) = Val (StI 0x0f00) /\
  checked_set_range Checked ex_int 8 8 (StI 0xff) (StI 0) = Val (StI 0, Err msg_write) /\
  checked_set_range Checked ex_int 4 6 (StI 0xff) (StI 0) = Val (StI 0x3f0, Ok tt) /\
  checked_set_range Checked ex_int 4 13 (StI 0xff) (StI 0) = Val (StI 0, Err msg_length) /\
  set_range Checked ex_arr 4 6 (StA [0xff;0;0]) (StA [0;0;0]) = Val (StA [0xf0;3;0]) /\
  good_len ex_int 8 /\ good_len ex_arr 0.
Proof. repeat split; try (vm_compute; reflexivity); unfold good_len; [left; lia|right; auto]. Qed.

(** ** C18 *)

Theorem C18_get_range m bf off len s :
  bf_ok bf -> store_ok bf s ->
  0 <= off < ty_size (b_ty bf) -> good_len bf len -> off + len <= ty_size (b_ty bf) ->
  exists r, get_range m bf off len s = Val r /\ store_ok bf r /\
    forall i, 0 <= i ->
      (i < len -> bit_readable bf (off + i) -> sbit r i = sbit s (off + i)) /\
      (i < len -> ~ bit_readable bf (off + i) -> sbit r i = false) /\
      (len <= i -> sbit r i = false).
Proof.
  intros Hbf Hs Ho Hl He. apply good_len_ok in Hl. use_store s v.
  rewrite get_range_ok by assumption. assert (Hl0 : 0 <= len) by apply Hl.
  assert (Hr : in_range bf (rget bf off len v)).
  { apply bound_of_bits; [lia|]. intros i Hi. rewrite rget_bit by (assumption || lia). cases_bool; reflexivity. }
  eexists. split; [reflexivity|]. split; [apply of_ok; assumption|].
  intros i Hi. unfold sbit. rewrite !sval_of by assumption. rewrite rget_bit by (assumption || lia).
  rewrite (Z.add_comm i off). split; [|split].
  - intros Hil Hrd. apply guard_readable in Hrd; try assumption; [|lia]. rewrite Hrd. cases_bool.
    rewrite andb_true_r. reflexivity.
  - intros Hil Hrd. apply guard_not_readable in Hrd; try assumption; [|lia]. rewrite Hrd.
    apply andb_false_r.
  - intros Hil. destruct (Z.ltb_spec i len); [lia|reflexivity].
Qed.

Theorem C18_checked_get_range m bf off len s :
  bf_ok bf -> store_ok bf s ->
  0 <= off < ty_size (b_ty bf) -> good_len bf len -> off + len <= ty_size (b_ty bf) ->
  ((forall i, off <= i < off + len -> bit_readable bf i) ->
     exists r, checked_get_range m bf off len s = Val (Ok r) /\ get_range m bf off len s = Val r /\
       sval r = slice (sval s) off len) /\
  ((exists i, off <= i < off + len /\ ~ bit_readable bf i) ->
     checked_get_range m bf off len s =
     Val (Err "Attempted to read from non-readable bit(s)."%string)).
Proof.
  intros Hbf Hs Ho Hl He. apply good_len_ok in Hl. use_store s v.
  rewrite checked_get_range_ok by assumption. assert (Hl0 : 0 <= len) by apply Hl. split.
  - intros Hw. destruct (range_guard bf no_read off len) eqn:E.
    + apply range_guard_true in E; [|assumption]. destruct E as (i & Hi & Eg).
      apply guard_not_readable in Eg; try assumption; [|lia]. exfalso. apply Eg, Hw, Hi.
    + assert (Hsl : slice v off len = rget bf off len v).
      { bitext i Hi. rewrite slice_spec, rget_bit by (assumption || lia).
        destruct (Z.ltb_spec i len); [|reflexivity]. cbn [andb].
        rewrite (proj1 (range_guard_false bf no_read off len Hl0) E (i + off)) by lia.
        rewrite andb_true_r. reflexivity. }
      eexists. split; [reflexivity|]. rewrite get_range_ok by assumption. rewrite Hsl.
      split; [reflexivity|]. rewrite !sval_of; try assumption; [auto|].
      rewrite <- Hsl. pose proof (slice_bound v off len Hl0).
      assert (2 ^ len <= 2 ^ ty_size (b_ty bf)) by (apply pow2_le; lia). unfold in_range. lia.
  - intros (i & Hi & Hw). apply guard_not_readable in Hw; try assumption; [|lia].
    replace (range_guard bf no_read off len) with true; [reflexivity|].
    symmetry. apply range_guard_true; eauto.
Qed.

Theorem C18_out_of_range m bf off len s :
  bf_ok bf -> 0 <= off ->
  (ty_size (b_ty bf) <= off ->
     (exists r, get_range m bf off len s = Val r /\ sval r = 0) /\
     checked_get_range m bf off len s = Val (Err "The offset is outside the bitfield range."%string)) /\
  (off < ty_size (b_ty bf) < off + len -> off + len < 2 ^ 32 ->
     (exists r, get_range m bf off len s = Val r /\ sval r = 0) /\
     checked_get_range m bf off len s = Val (Err "The length is outside the bitfield range."%string)).
Proof.
  intros Hbf Ho. unfold get_range, checked_get_range. rewrite bf_size_eq.
  assert (Hz : sval (zero_data bf) = 0).
  { unfold zero_data. destruct (b_ty bf); cbn [sval]; try reflexivity.
    rewrite zeros_le_bytes. apply le_bytes_0_val. }
  split.
  - intros H. destruct (Z.leb_spec (ty_size (b_ty bf)) off); [|lia]. split; [eauto|reflexivity].
  - intros H H'. destruct (Z.leb_spec (ty_size (b_ty bf)) off); [lia|].
    rewrite length_guard_out by lia. cbn [bind]. split; [eauto|reflexivity].
Qed.

Example C18_ex :
  get_range Checked ex_arr 16 8 (StA [0;0;0xff]) = Val (StA [0x1f;0;0]) /\
  checked_get_range Checked ex_arr 16 8 (StA [0;0;0xff]) = Val (Err msg_read) /\
  checked_get_range Checked ex_int 4 6 (StI 0xabcd) = Val (Ok (StI 0x3c)) /\
  get_range Checked ex_int 10 7 (StI 0xabcd) = Val (StI 0).
Proof. repeat split; vm_compute; reflexivity. Qed.

(** ** C19 *)

(** Array backing: empty ranges are harmless. *)
Theorem C19_array_empty m bf off x s :
  bf_ok bf -> store_ok bf x -> store_ok bf s -> is_integer_backed bf = false ->
  0 <= off < ty_size (b_ty bf) ->
  set_range m bf off 0 x s = Val s /\ checked_set_range m bf off 0 x s = Val (s, Ok tt) /\
  exists r, get_range m bf off 0 s = Val r /\ checked_get_range m bf off 0 s = Val (Ok r) /\ sval r = 0.
Proof.
  intros Hbf Hx Hs Hi Ho.
  assert (Hg : good_len bf 0) by (right; auto).
  assert (Hs' : set_range m bf off 0 x s = Val s).
  { destruct (C17_set_range m bf off 0 x s) as (s' & E & Hok & H); try assumption; [lia|].
    rewrite E. f_equal. rewrite (store_of_sval bf s'), (store_of_sval bf s) by assumption. f_equal.
    pose proof Hbf as (Hbk & _). pose proof (sval_bound bf s Hbk Hs). pose proof (sval_bound bf s' Hbk Hok).
    bitext i Hii. destruct (Z_lt_ge_dec i (ty_size (b_ty bf))).
    - apply (proj2 (H i ltac:(lia))). lia.
    - rewrite !(testbit_small _ (ty_size (b_ty bf))) by (assumption || lia). reflexivity. }
  split; [assumption|]. split.
  - destruct (C17_checked_set_range m bf off 0 x s) as [H _]; try assumption; [lia|].
    destruct H as (s' & E1 & E2); [intros; lia|]. rewrite Hs' in E2. injection E2 as <-. assumption.
  - destruct (C18_checked_get_range m bf off 0 s) as [H _]; try assumption; [lia|].
    destruct H as (r & E1 & E2 & E3); [intros; lia|]. exists r. split; [assumption|]. split; [assumption|].
    rewrite E3. unfold slice. apply Z.mod_1_r.
Qed.

(** Integer backing, overflow checks on: every range operation of length 0
    panics. *)
Theorem C19_empty_panics bf off x s :
  bf_ok bf -> store_ok bf x -> store_ok bf s -> is_integer_backed bf = true ->
  0 <= off < ty_size (b_ty bf) ->
  set_range Checked bf off 0 x s = Panic /\ checked_set_range Checked bf off 0 x s = Panic /\
  get_range Checked bf off 0 s = Panic /\ checked_get_range Checked bf off 0 s = Panic.
Proof.
  intros Hbf Hx Hs Hi Ho. pose proof Hbf as (Hbk & _).
  unfold set_range, checked_set_range, get_range, checked_get_range. rewrite bf_size_eq.
  destruct (Z.leb_spec (ty_size (b_ty bf)) off); [lia|].
  rewrite length_guard_ok by (assumption || lia). cbn [bind]. unfold set_range_body, is_integer_backed, store_ok in *.
  destb bf t n Et; [|discriminate]. destruct x, s; try contradiction.
  assert (E : mask_int Checked (ity_bits t) 0 = Panic).
  { unfold mask_int. rewrite usub_in by (destruct t; cbn; lia). cbn [bind]. unfold shr.
    destruct (Z.ltb_spec (ity_bits t - 0) (ity_bits t)); [lia|reflexivity]. }
  rewrite E. repeat split; reflexivity.
Qed.

(** Overflow checks off: length 0 behaves as the whole rest of the bitfield. *)
Theorem C19_empty_wraps bf off x s :
  bf_ok bf -> store_ok bf x -> store_ok bf s -> is_integer_backed bf = true ->
  0 <= off < ty_size (b_ty bf) ->
  set_range Wrapping bf off 0 x s = set_range Wrapping bf off (ty_size (b_ty bf) - off) x s /\
  get_range Wrapping bf off 0 s = get_range Wrapping bf off (ty_size (b_ty bf) - off) s.
Proof.
  intros Hbf Hx Hs Hi Ho. pose proof Hbf as (Hbk & _).
  pose proof (pm_range bf no_read Hbf) as Hpm. pose proof (fun i => pm_bit bf no_read i Hbf) as Hpb.
  unfold set_range, get_range. rewrite bf_size_eq.
  destruct (Z.leb_spec (ty_size (b_ty bf)) off); [lia|].
  rewrite !length_guard_ok by (assumption || lia). cbn [bind].
  unfold set_range_body, is_integer_backed, store_ok, pm, in_range in *.
  destb bf t n Et; [|discriminate]. destruct x as [xv|], s as [sv|]; try contradiction.
  assert (E : mask_int Wrapping (ity_bits t) 0 = Val (umax (ity_bits t))).
  { unfold mask_int. rewrite usub_in by (destruct t; cbn; lia). cbn [bind]. unfold shr.
    destruct (Z.ltb_spec (ity_bits t - 0) (ity_bits t)); [lia|].
    rewrite Z.sub_0_r, Z_mod_same_full, Z.shiftr_0_r. reflexivity. }
  rewrite E, mask_int_in by lia. cbn [bind].
  rewrite !shl_in, !shr_in by lia. cbn [bind].
  set (p := protected_mask_int bf no_read (ity_bits t)) in *. clearbody p.
  split.
  - replace (Z.shiftl (umax (ity_bits t)) off mod 2 ^ ity_bits t)
      with (Z.shiftl (umax (ity_bits t - off)) off mod 2 ^ ity_bits t); [reflexivity|].
    bitext i Hii. rewrite !mod_pow2_spec, !Z.shiftl_spec by lia.
    destruct (Z.ltb_spec i (ity_bits t)); [|reflexivity]. cbn [andb]. destruct (Z_lt_ge_dec i off).
    + rewrite !(Z.testbit_neg_r _ (i - off)) by lia. reflexivity.
    + rewrite !umax_spec by lia. cases_bool; reflexivity.
  - do 2 f_equal. bitext i Hii. rewrite !Z.land_spec, !unot_spec, !Z.land_spec by lia.
    rewrite !umax_spec, !Z.shiftr_spec by lia.
    destruct (Z.ltb_spec i (ity_bits t)), (Z.ltb_spec i (ity_bits t - off)); try lia.
    + btriv.
    + rewrite (testbit_small sv (ity_bits t)) by lia. btriv.
Qed.

(** Overflow of [offset + length] (any backing): panics with overflow checks;
    the release build accepts the range. *)
Theorem C19_overflow_panics bf off len x s :
  bf_ok bf -> 0 <= off < ty_size (b_ty bf) -> 2 ^ 32 <= off + len ->
  set_range Checked bf off len x s = Panic /\ checked_set_range Checked bf off len x s = Panic /\
  get_range Checked bf off len s = Panic /\ checked_get_range Checked bf off len s = Panic.
Proof.
  intros Hbf Ho He. unfold set_range, checked_set_range, get_range, checked_get_range. rewrite bf_size_eq.
  destruct (Z.leb_spec (ty_size (b_ty bf)) off); [lia|].
  assert (E : length_guard Checked bf off len = Panic).
  { unfold length_guard, uadd. destruct (Z.ltb_spec (off + len) (2 ^ 32)); [lia|reflexivity]. }
  rewrite E. repeat split; reflexivity.
Qed.

Theorem C19_refuted :
  exists bf s, bf_ok bf /\ store_ok bf s /\
    set_range Checked bf 0 0 (StI 0) s = Panic /\
    set_range Wrapping bf 0 0 (StI 0) s <> Val s /\
    set_range Checked bf 1 (2 ^ 32 - 1) (StI 0) s = Panic /\
    set_range Wrapping bf 1 (2 ^ 32 - 1) (StI 0) s <> Val s /\
    checked_set_range Wrapping bf 1 (2 ^ 32 - 1) (StI 0) s <> Val (s, Err msg_length).
Proof.
  exists c07_bf, (StI 0xff). split; [apply bf_okb_ok; vm_compute; reflexivity|]. split; [cbn; lia|].
  repeat split; vm_compute; congruence.
Qed.

(** ** C20 *)

Lemma invert_fieldwise m bf s : bf_ok bf -> store_ok bf s ->
  exists s', invert_all m bf s = Val s' /\ store_ok bf s' /\
    forall f, In f (b_fields bf) -> lossless f ->
      raw s' f = if has_setter f then 2 ^ f_bits f - 1 - raw s f else raw s f.
Proof.
  intros Hbf Hs. use_store s v. rewrite invert_all_ok by assumption.
  assert (Hr : in_range bf (copy_num bf (fun _ => true) (inv_num bf v) v)) by auto using copy_range, inv_range.
  eexists. split; [reflexivity|]. split; [apply of_ok; assumption|].
  intros f Hin Hl. pose proof (bf_ok_field bf f Hbf Hin) as Hf.
  unfold raw. rewrite !sval_of by assumption. unfold copy_num. rewrite upd_raw by assumption.
  rewrite cenc_lossless; try assumption; [|apply (slice_in bf); assumption].
  pose proof (slice_in bf f v Hf) as Hsl. destruct Hf as (Hb & Ho & He & _).
  destruct (has_setter f) eqn:Es.
  - rewrite compl_ldiff by (assumption || lia). bitext i Hi. rewrite slice_spec, inv_bit by (assumption || lia).
    repeat bits1. destruct (Z.ltb_spec i (f_bits f)); [|reflexivity]. cbn [andb].
    rewrite (guard_owner bf no_setter f) by (try assumption; unfold covers; lia).
    unfold no_setter. rewrite Es. cases_bool. reflexivity.
  - bitext i Hi. rewrite !slice_spec, inv_bit by (assumption || lia).
    destruct (Z.ltb_spec i (f_bits f)); [|reflexivity]. cbn [andb].
    rewrite (guard_owner bf no_setter f) by (try assumption; unfold covers; lia).
    unfold no_setter. rewrite Es. cbn [negb]. rewrite andb_false_r. reflexivity.
Qed.

Theorem C20_invert_bits m bf s : bf_ok bf -> store_ok bf s -> all_lossless bf ->
  exists s', invert_all m bf s = Val s' /\ store_ok bf s' /\
    forall i, 0 <= i < ty_size (b_ty bf) ->
      (bit_writable bf i -> sbit s' i = negb (sbit s i)) /\
      (~ bit_writable bf i -> sbit s' i = sbit s i).
Proof.
  intros Hbf Hs Hl. destruct (invert_fieldwise m bf s Hbf Hs) as (s' & E & Hok & H).
  exists s'. split; [assumption|]. split; [assumption|]. intros i Hi.
  destruct (bf_ok_owner bf i Hbf Hi) as (f & Hin & Hc). specialize (H f Hin (Hl f Hin)).
  pose proof (bf_ok_field bf f Hbf Hin) as Hf. unfold raw in H.
  pose proof (slice_in bf f (sval s) Hf) as Hsl. destruct Hf as (Hb & Ho & _).
  apply (f_equal (fun z => Z.testbit z (i - f_off f))) in H. unfold covers in Hc.
  rewrite slice_spec in H by lia. replace (i - f_off f + f_off f) with i in H by lia.
  destruct (Z.ltb_spec (i - f_off f) (f_bits f)); [|lia]. cbn [andb] in H. fold (sbit s' i) in H.
  assert (Hw : bit_writable bf i <-> writable f).
  { split; [|intros; exists f; auto].
    intros (g & Hg & Hcg & Hw). rewrite (owner_unique bf f g i); assumption. }
  rewrite Hw. split; intros Hwr.
  - apply has_setter_t in Hwr. rewrite Hwr, compl_ldiff in H by (assumption || lia). rewrite H.
    repeat bits1. destruct (Z.ltb_spec (i - f_off f) (f_bits f)); [|lia]. cbn [andb].
    replace (i - f_off f + f_off f) with i by lia. reflexivity.
  - apply has_setter_f in Hwr. rewrite Hwr in H. rewrite H. rewrite slice_spec by lia.
    replace (i - f_off f + f_off f) with i by lia.
    destruct (Z.ltb_spec (i - f_off f) (f_bits f)); [reflexivity|lia].
Qed.

Theorem C20_invert_twice m bf s : bf_ok bf -> store_ok bf s -> all_lossless bf ->
  (s1 <- invert_all m bf s ;; invert_all m bf s1) = Val s.
Proof.
  intros Hbf Hs Hl. destruct (invert_fieldwise m bf s Hbf Hs) as (s1 & E1 & Hok1 & H1).
  destruct (invert_fieldwise m bf s1 Hbf Hok1) as (s2 & E2 & Hok2 & H2).
  rewrite E1. cbn [bind]. rewrite E2. f_equal.
  apply (C47_fields_determine bf); try assumption. intros f Hin.
  rewrite (H2 f Hin (Hl f Hin)), (H1 f Hin (Hl f Hin)). destruct (has_setter f); lia.
Qed.

Example C20_ex :
  invert_all Checked ex_int (StI 0x1234) = Val (StI 0x1dcb) /\
  invert_all Checked ex_arr (StA [0;1;2]) = Val (StA [0xff;0xfe;0x61]).
Proof. split; vm_compute; reflexivity. Qed.

(** ** C39 *)

Lemma field_off_lt bf f : field_ok bf f -> 0 <= f_off f < ty_size (b_ty bf).
Proof. intros (Hb & Ho & He & _). lia. Qed.

Theorem C39_set_range_is_setter m bf f x a s :
  bf_ok bf -> In f (b_fields bf) -> writable f -> f_ty f <> DCustom ->
  store_ok bf x -> store_ok bf s -> has_type f a ->
  sval x mod 2 ^ f_bits f = encode f a mod 2 ^ f_bits f ->
  set_range m bf (f_off f) (f_bits f) x s = set_field m bf f a s /\
  exists s', checked_set_range m bf (f_off f) (f_bits f) x s = Val (s', Ok tt) /\
             set_field m bf f a s = Val s'.
Proof.
  intros Hbf Hin Hw Hc Hx Hs Ha Heq. pose proof (bf_ok_field bf f Hbf Hin) as Hf.
  pose proof (field_off_lt bf f Hf) as Hof. pose proof Hf as (Hb & Ho & He & _).
  assert (Hg : good_len bf (f_bits f)) by (left; lia).
  destruct (C17_checked_set_range m bf (f_off f) (f_bits f) x s) as [H _]; try assumption.
  destruct H as (s' & E1 & E2).
  { intros i Hi. exists f. auto. }
  assert (E : set_field m bf f a s = Val s').
  { rewrite <- E2. use_store x y. use_store s v. pose proof Hbf as (Hbk & _).
    rewrite set_field_ok by assumption. rewrite checked_set_range_ok in E1 by auto using good_len_ok.
    rewrite E2. destruct (range_guard bf no_setter (f_off f) (f_bits f)); [discriminate|].
    injection E1 as <-. do 2 f_equal. apply splice_ext. rewrite sval_of in Heq by assumption.
    rewrite Heq. f_equal. destruct a; try reflexivity. unfold has_type in Ha.
    destruct (f_ty f) as [t0| |]; try contradiction; try congruence. destruct t0; contradiction. }
  split; [congruence|]. exists s'. auto.
Qed.

Theorem C39_get_range_is_getter m bf f s :
  bf_ok bf -> In f (b_fields bf) -> readable f -> store_ok bf s ->
  exists r, get_range m bf (f_off f) (f_bits f) s = Val r /\
    checked_get_range m bf (f_off f) (f_bits f) s = Val (Ok r) /\
    sval r = raw s f /\ get_field m bf f s = Val (decode f (sval r)) /\
    forall t, f_ty f = DInteger t -> ity_unsigned t = true -> t <> TBool ->
      get_field m bf f s = Val (VInt (sval r)).
Proof.
  intros Hbf Hin Hr Hs. pose proof (bf_ok_field bf f Hbf Hin) as Hf.
  pose proof (field_off_lt bf f Hf) as Hof. pose proof Hf as (Hb & Ho & He & _).
  assert (Hg : good_len bf (f_bits f)) by (left; lia).
  destruct (C18_checked_get_range m bf (f_off f) (f_bits f) s) as [H _]; try assumption.
  destruct H as (r & E1 & E2 & E3).
  { intros i Hi. exists f. auto. }
  exists r. split; [assumption|]. split; [assumption|]. split; [assumption|].
  rewrite C05_get_is_decode by assumption. unfold raw. rewrite <- E3. split; [reflexivity|].
  intros t Et Eu Hn. unfold decode. rewrite Et, Eu. destruct t; congruence.
Qed.

Example C39_ex :
  set_range Checked ex_int 5 4 (StI 0xb) (StI 0xffff) = Val (StI 0xff7f) /\
  set_field Checked ex_int ex_b (VInt (-5)) (StI 0xffff) = Val (StI 0xff7f) /\
  writable ex_b /\ 11 mod 2 ^ f_bits ex_b = encode ex_b (VInt (-5)) mod 2 ^ f_bits ex_b.
Proof. repeat split; try (vm_compute; reflexivity). right; reflexivity. Qed.

(** ** C41 *)

(** C41 is false: the documented error for a too large value does not exist. *)
Theorem C41_refuted :
  exists m bf off len x s s', bf_ok bf /\ store_ok bf x /\ store_ok bf s /\
    1 <= len /\ off + len <= ty_size (b_ty bf) /\ 2 ^ len <= sval x /\
    checked_set_range m bf off len x s = Val (s', Ok tt).
Proof.
  exists Checked, ex_int, 0, 4, (StI 0xff), (StI 0), (StI 0xf).
  split; [exact ex_int_ok|]. repeat split; try (vm_compute; reflexivity); cbn; lia.
Qed.
(** It is the low [len] bits that are written, for any value. *)
Theorem C41_truncates m bf off len x x' s :
  bf_ok bf -> store_ok bf x -> store_ok bf x' -> store_ok bf s ->
  0 <= off < ty_size (b_ty bf) -> good_len bf len -> off + len <= ty_size (b_ty bf) ->
  sval x mod 2 ^ len = sval x' mod 2 ^ len ->
  checked_set_range m bf off len x s = checked_set_range m bf off len x' s.
Proof.
  intros Hbf Hx Hx' Hs Ho Hl He Heq. apply good_len_ok in Hl. use_store x y. use_store x' y'. use_store s v.
  rewrite !sval_of in Heq by assumption. rewrite !checked_set_range_ok by assumption.
  rewrite (splice_ext v off len y y') by assumption. reflexivity.
Qed.
