(** The field loop of the parser: what it accepts and which layout it builds. *)
From Coq Require Import ZArith List Bool String Ascii Lia.
From Verif Require Import RustInt Syntax ConstExpr Parser Spec SpecDecl ParserLemmas.
Import ListNotations.
Open Scope Z_scope.

(** ** Names *)
Definition keeps_name (r : rfield) : bool := ignoredb r || negb (is_reserved_name (r_name r)).
Fixpoint names_rec (seen : list string) (rs : list rfield) : Prop :=
  match rs with
  | [] => True
  | r :: t => ~ In (r_name r) seen /\ names_rec (if keeps_name r then r_name r :: seen else seen) t
  end.

Lemma keeps_false r : keeps_name r = false <-> reserved_decl r /\ ~ ignored_decl r.
Proof.
  unfold keeps_name. rewrite <- reservedb_true, <- ignoredb_true.
  destruct (ignoredb r), (is_reserved_name (r_name r)); cbn; intuition congruence.
Qed.
Lemma names_ok_cons r t : names_ok (r :: t) <->
  names_ok t /\ (forall r', In r' t -> r_name r = r_name r' -> keeps_name r = false).
Proof.
  split.
  - intro H. split.
    + intros i j ri rj Hij Hi Hj. apply (H (S i) (S j)); [lia|exact Hi|exact Hj].
    + intros r' Hr Hn. apply In_nth_error in Hr as [k Hk]. apply keeps_false.
      apply (H O (S k) r r'); [lia|reflexivity|exact Hk|exact Hn].
  - intros [H1 H2] i j ri rj Hij Hi Hj Hn. destruct j as [|j]; [lia|]. cbn in Hj. destruct i as [|i].
    + cbn in Hi. injection Hi as <-. apply keeps_false. apply (H2 rj); [eapply nth_error_In, Hj|exact Hn].
    + cbn in Hi. apply (H1 i j ri rj); [lia|assumption..].
Qed.
Lemma names_rec_iff rs seen :
  names_rec seen rs <-> names_ok rs /\ forall r, In r rs -> ~ In (r_name r) seen.
Proof.
  revert seen. induction rs as [|r t IH]; intro seen; cbn [names_rec].
  - split; [|auto]. intros _. split; [|intros ? []]. intros i j ri rj _ Hi _. destruct i; discriminate.
  - rewrite names_ok_cons, IH. split.
    + intros (Hr & Ht & Hs). split; [split; [exact Ht|]|].
      * intros r' Hr' Hn. destruct (keeps_name r) eqn:E; [|reflexivity]. exfalso.
        apply (Hs r' Hr'). left. exact Hn.
      * intros r' [<-|Hr']; [exact Hr|]. specialize (Hs r' Hr'). destruct (keeps_name r); [|exact Hs].
        intro Hx. apply Hs. now right.
    + intros ((Ht & Hd) & Hs). split; [apply Hs; now left|split; [exact Ht|]].
      intros r' Hr'. destruct (keeps_name r) eqn:E; [|apply Hs; now right].
      intros [Hn|Hn]; [|apply (Hs r'); [now right|exact Hn]]. specialize (Hd r' Hr' Hn). congruence.
Qed.
Lemma names_ok_filter p rs : names_ok rs -> names_ok (filter p rs).
Proof.
  induction rs as [|r t IH]; [auto|]. rewrite names_ok_cons. intros [H1 H2]. cbn [filter].
  destruct (p r); [|auto]. rewrite names_ok_cons. split; [auto|].
  intros r' Hr. apply H2. apply filter_In in Hr. tauto.
Qed.

(** ** Offsets *)
Fixpoint offs (m : mode) (o : border) (ty : dtype) (prev fs0 new : list field) : Prop :=
  match fs0, new with
  | [], [] => True
  | f0 :: t0, f :: t =>
      calculate_offset m o ty (f_bits f0) prev = POk (f_off f) /\ f = with_off f0 (f_off f) /\
      offs m o ty (prev ++ [f]) t0 t
  | _, _ => False
  end.

Definition nonign (f : field) : bool := negb (f_ignored f).

Lemma loop_iff m o ty bv rs : forall acc ign seen acc' ign',
  parse_fields_loop m o ty bv rs acc ign seen = POk (acc', ign') <->
  names_rec seen rs /\
  exists fs0 new, Forall2 (fun r f => core m bv r = POk f) rs fs0 /\
    offs m o ty acc (filter nonign fs0) new /\
    acc' = acc ++ new /\ ign' = ign ++ filter f_ignored fs0.
Proof.
  induction rs as [|r t IH]; intros acc ign seen acc' ign'; cbn [parse_fields_loop names_rec].
  - split.
    + intro H. injection H as <- <-. split; [exact I|]. exists [], []. rewrite !app_nil_r. repeat split; constructor.
    + intros (_ & fs0 & new & H & Ho & -> & ->). inversion H; subst. cbn in Ho. destruct new; [|destruct Ho].
      now rewrite !app_nil_r.
  - destruct (existsb (String.eqb (r_name r)) seen) eqn:Ex.
    { split; [discriminate|]. intros ((Hn & _) & _). exfalso. apply Hn.
      apply existsb_exists in Ex as (x & Hx & E). apply String.eqb_eq in E. now subst. }
    assert (Hn : ~ In (r_name r) seen).
    { intro Hin. apply not_true_iff_false in Ex. apply Ex. apply existsb_exists.
      exists (r_name r). split; [exact Hin|apply String.eqb_refl]. }
    assert (Hseen : forall f, core m bv r = POk f ->
      (if f_reserved f then seen else r_name r :: seen) = (if keeps_name r then r_name r :: seen else seen)).
    { intros f Hf. apply core_reserved in Hf as [-> _]. unfold keeps_name.
      destruct (ignoredb r), (is_reserved_name (r_name r)); reflexivity. }
    split.
    + intro H. pinv H f Hf. apply parse_field_iff in Hf as (f0 & Hc & Hf).
      destruct (f_ignored f0) eqn:Ei.
      * subst f. rewrite Ei, (Hseen f0 Hc) in H. apply IH in H as (Hs & fs0 & new & H1 & H2 & -> & ->).
        split; [split; assumption|]. exists (f0 :: fs0), new. cbn [filter]. unfold nonign at 1. rewrite Ei.
        cbn [negb]. rewrite <- app_assoc. repeat split; [constructor; assumption|exact H2].
      * destruct Hf as (off & Ho & ->). cbn [with_off f_ignored f_reserved] in H. rewrite Ei in H.
        rewrite (Hseen f0 Hc) in H. apply IH in H as (Hs & fs0 & new & H1 & H2 & -> & ->).
        split; [split; assumption|]. exists (f0 :: fs0), (with_off f0 off :: new). cbn [filter].
        unfold nonign at 1. rewrite Ei. cbn [negb offs]. rewrite <- app_assoc.
        repeat split; [constructor; assumption|exact Ho|exact H2].
    + intros ((_ & Hs) & fs0 & new & H1 & H2 & -> & ->). inversion H1 as [|? f0 ? fs Hc Ht]; subst.
      cbn [filter] in *. unfold nonign in H2 at 1. destruct (f_ignored f0) eqn:Ei; cbn [negb] in H2.
      * assert (E : parse_field m o ty bv r acc = POk f0).
        { apply parse_field_iff. exists f0. rewrite Ei. auto. }
        rewrite E. cbn [pbind]. rewrite Ei, (Hseen f0 Hc). apply IH. split; [exact Hs|].
        exists fs, new. rewrite <- app_assoc. auto.
      * destruct new as [|f new]; [destruct H2|]. cbn [offs] in H2. destruct H2 as (Ho & Hf & H2).
        assert (E : parse_field m o ty bv r acc = POk f).
        { apply parse_field_iff. exists f0. rewrite Ei. eauto. }
        rewrite E. cbn [pbind].
        assert (Er : f_reserved f = f_reserved f0 /\ f_ignored f = false) by (rewrite Hf; auto).
        destruct Er as [-> ->]. rewrite (Hseen f0 Hc). apply IH. split; [exact Hs|].
        exists fs, new. rewrite <- app_assoc. auto.
Qed.

(** ** Sums *)
Lemma zsum_app l l' : zsum (l ++ l') = zsum l + zsum l'.
Proof. unfold zsum. induction l as [|x l IH]; cbn [app fold_right]; [lia|]. rewrite IH. lia. Qed.
Lemma zsum_nonneg l : Forall (Z.le 0) l -> 0 <= zsum l.
Proof. unfold zsum. induction 1; cbn [fold_right]; lia. Qed.
Lemma sum_val m l : forall acc s, sum_u32 m acc l = Val s -> Forall (Z.le 0) l -> 0 <= acc < 2 ^ 32 ->
  m = Checked \/ acc + zsum l < 2 ^ 32 -> s = acc + zsum l /\ s < 2 ^ 32.
Proof.
  induction l as [|x l IH]; intros acc s H Hl Ha Hm; cbn [sum_u32] in H.
  - injection H as <-. cbn. lia.
  - inversion Hl as [|? ? Hx Ht]; subst. apply zsum_nonneg in Ht as Hz.
    destruct (uadd m 32 acc x) eqn:E; [|discriminate]. cbn [bind] in H.
    unfold uadd in E. cbn [zsum fold_right] in *. fold (zsum l) in *.
    destruct (Z.ltb_spec (acc + x) (2 ^ 32)).
    + injection E as <-. apply IH in H; [lia|assumption|lia|]. destruct Hm; [auto|right; lia].
    + destruct m; [discriminate|]. destruct Hm; [discriminate|lia].
Qed.
Lemma sum_ok m l : forall acc, Forall (Z.le 0) l -> 0 <= acc -> acc + zsum l < 2 ^ 32 ->
  sum_u32 m acc l = Val (acc + zsum l).
Proof.
  induction l as [|x l IH]; intros acc Hl Ha Hm; cbn [sum_u32].
  - cbn [zsum fold_right]. f_equal. lia.
  - inversion Hl as [|? ? Hx Ht]; subst. apply zsum_nonneg in Ht as Hz.
    cbn [zsum fold_right] in *. fold (zsum l) in *. unfold uadd.
    rewrite (proj2 (Z.ltb_lt _ _)) by lia. cbn [bind]. rewrite IH by (assumption || lia). f_equal. lia.
Qed.

(** ** Layouts *)
Fixpoint lsb_layout (base : Z) (fs : list field) : Prop :=
  match fs with [] => True | f :: t => f_off f = base /\ lsb_layout (base + f_bits f) t end.
Fixpoint msb_layout (top : Z) (fs : list field) : Prop :=
  match fs with [] => True | f :: t => f_off f = top - f_bits f /\ msb_layout (top - f_bits f) t end.

Definition widths (fs : list field) : list Z := map f_bits fs.

Lemma offs_bits m o ty fs0 : forall prev new, offs m o ty prev fs0 new -> widths new = widths fs0.
Proof.
  induction fs0 as [|f0 t IH]; intros prev [|f new] H; cbn [offs] in H; try contradiction; [reflexivity|].
  destruct H as (_ & Hf & H). cbn [widths map]. unfold widths in IH. rewrite (IH _ _ H). rewrite Hf. reflexivity.
Qed.
Lemma offs_lsb m ty fs0 : forall prev new, offs m Lsb ty prev fs0 new ->
  Forall (Z.le 0) (widths prev) -> Forall (Z.le 0) (widths new) ->
  m = Checked \/ zsum (widths prev) + zsum (widths new) < 2 ^ 32 ->
  lsb_layout (zsum (widths prev)) new.
Proof.
  induction fs0 as [|f0 t IH]; intros prev [|f new] H Hp Hn Hm; cbn [offs] in H; try contradiction; [exact I|].
  destruct H as (Ho & Hf & H). cbn [widths map] in Hn. inversion Hn as [|? ? Hx Hn']; subst.
  fold (widths new) in *. apply zsum_nonneg in Hp as Hzp. apply zsum_nonneg in Hn' as Hzn.
  cbn [widths map zsum fold_right] in Hm. fold (widths new) in Hm. fold (zsum (widths new)) in Hm.
  unfold calculate_offset in Ho. pinv Ho x Hs. apply of_outcome_ok in Hs. injection Ho as Ho.
  unfold sum_bits in Hs. apply sum_val in Hs; [|exact Hp|lia|destruct Hm; [auto|right; unfold widths in *; lia]].
  fold (widths prev) in Hs. cbn [lsb_layout]. split; [lia|].
  apply IH in H.
  - unfold widths in *. rewrite map_app, zsum_app in H. cbn [map zsum fold_right] in H.
    now rewrite Z.add_0_r in H.
  - unfold widths in *. rewrite map_app. apply Forall_app. split; [exact Hp|]. now constructor.
  - exact Hn'.
  - destruct Hm; [auto|right]. unfold widths in *. rewrite map_app, zsum_app. cbn [map zsum fold_right]. lia.
Qed.
Lemma offs_msb m ty fs0 : forall prev new, offs m Msb ty prev fs0 new ->
  Forall (Z.le 0) (widths prev) -> Forall (Z.le 0) (widths new) ->
  m = Checked \/ zsum (widths prev) + zsum (widths new) < 2 ^ 32 /\ ty_size ty < 2 ^ 32 ->
  msb_layout (ty_size ty - zsum (widths prev)) new.
Proof.
  induction fs0 as [|f0 t IH]; intros prev [|f new] H Hp Hn Hm; cbn [offs] in H; try contradiction; [exact I|].
  destruct H as (Ho & Hf & H). cbn [widths map] in Hn. inversion Hn as [|? ? Hx Hn']; subst.
  fold (widths new) in *. apply zsum_nonneg in Hp as Hzp. apply zsum_nonneg in Hn' as Hzn.
  cbn [widths map zsum fold_right] in Hm. fold (widths new) in Hm. fold (zsum (widths new)) in Hm.
  assert (Hb : f_bits f0 = f_bits f) by (rewrite Hf; reflexivity). rewrite Hb in Ho.
  unfold calculate_offset in Ho. pinv Ho x Hs. apply of_outcome_ok in Hs.
  unfold sum_bits in Hs. apply sum_val in Hs; [|exact Hp|lia|destruct Hm; [auto|right; unfold widths in *; lia]].
  fold (widths prev) in Hs. pinv Ho size Hz. apply of_outcome_ok in Hz. apply bit_size_val in Hz as [Hz _]; [|tauto].
  pinv Ho total Ht. apply of_outcome_ok in Ht. unfold uadd in Ht.
  assert (Htot : total = x + f_bits f).
  { destruct (Z.ltb_spec (x + f_bits f) (2 ^ 32)); [now injection Ht|].
    destruct m; [discriminate|]. destruct Hm as [|[Hm _]]; [discriminate|].  unfold widths in *. lia. }
  destruct (Z.leb_spec total size); [|discriminate]. apply of_outcome_ok in Ho.
  unfold usub in Ho. rewrite (proj2 (Z.leb_le _ _)) in Ho by lia. cbn [bind] in Ho.
  rewrite (proj2 (Z.leb_le _ _)) in Ho by lia. injection Ho as Ho.
  cbn [msb_layout]. split; [lia|].
  apply IH in H.
  - unfold widths in *. rewrite map_app, zsum_app in H. cbn [map zsum fold_right] in H.
    rewrite Z.add_0_r in H. now rewrite Z.sub_add_distr in H.
  - unfold widths in *. rewrite map_app. apply Forall_app. split; [exact Hp|]. now constructor.
  - exact Hn'.
  - destruct Hm as [|[Hm Hty]]; [auto|right]. unfold widths in *. rewrite map_app, zsum_app. cbn [map zsum fold_right]. lia.
Qed.
Lemma offs_exists m o ty fs0 : ty <> DCustom -> ty_size ty < 2 ^ 32 -> Forall (Z.le 0) (widths fs0) ->
  forall prev, Forall (Z.le 0) (widths prev) -> zsum (widths prev) + zsum (widths fs0) <= ty_size ty ->
  exists new, offs m o ty prev fs0 new.
Proof.
  intros Hc Hty. induction fs0 as [|f0 t IH]; intros Hn prev Hp Hm; [exists []; exact I|].
  cbn [widths map] in Hn. inversion Hn as [|? ? Hx Hn']; subst. fold (widths t) in *.
  cbn [widths map zsum fold_right] in Hm. fold (widths t) in Hm. fold (zsum (widths t)) in Hm.
  apply zsum_nonneg in Hp as Hzp. apply zsum_nonneg in Hn' as Hzn.
  assert (Ho : exists off, calculate_offset m o ty (f_bits f0) prev = POk off).
  { unfold calculate_offset, sum_bits. fold (widths prev). fold (widths prev) in Hm.
    rewrite sum_ok by (assumption || lia). cbn [of_outcome pbind]. destruct o; [eauto|].
    rewrite bit_size_ok by assumption. cbn [of_outcome pbind]. unfold uadd.
    rewrite (proj2 (Z.ltb_lt _ _)) by lia. cbn [of_outcome pbind].
    rewrite (proj2 (Z.leb_le _ _)) by lia. unfold usub.
    rewrite (proj2 (Z.leb_le _ _)) by lia. cbn [bind]. rewrite (proj2 (Z.leb_le _ _)) by lia. cbn. eauto. }
  destruct Ho as [off Ho].
  destruct (IH Hn' (prev ++ [with_off f0 off])) as [new Hnew].
  - unfold widths. rewrite map_app. apply Forall_app. split; [exact Hp|]. now constructor.
  - unfold widths in *. rewrite map_app, zsum_app. cbn. lia.
  - exists (with_off f0 off :: new). cbn [offs with_off f_off]. auto.
Qed.

(** ** Partition *)
Definition zpos (fs : list field) : Prop := Forall (fun f => 1 <= f_bits f) fs.

Lemma lsb_cover fs : forall base i, zpos fs -> lsb_layout base fs -> base <= i < base + zsum (widths fs) ->
  exists! k : nat, exists f, nth_error fs k = Some f /\ covers f i.
Proof.
  assert (Hlow : forall fs base k f, zpos fs -> lsb_layout base fs -> nth_error fs k = Some f -> base <= f_off f).
  { clear fs. induction fs as [|g t IH]; intros base k f Hp Hl Hk; [destruct k; discriminate|].
    inversion Hp; subst. destruct Hl as [Hg Hl]. destruct k as [|k]; cbn in Hk; [injection Hk as <-; lia|].
    specialize (IH _ _ _ ltac:(assumption) Hl Hk). lia. }
  induction fs as [|g t IH]; intros base i Hp Hl Hi.
  - cbn in Hi. lia.
  - inversion Hp as [|? ? Hg Ht]; subst. destruct Hl as [Ho Hl].
    cbn [widths map zsum fold_right] in Hi. fold (widths t) in Hi. fold (zsum (widths t)) in Hi.
    destruct (Z.lt_ge_cases i (base + f_bits g)).
    + exists O. split; [exists g; split; [reflexivity|unfold covers; lia]|].
      intros [|k] (f & Hk & Hc); [reflexivity|]. cbn in Hk. exfalso.
      pose proof (Hlow _ _ _ _ Ht Hl Hk). unfold covers in Hc. lia.
    + destruct (IH (base + f_bits g) i Ht Hl) as (k & (f & Hk & Hc) & Hu); [lia|].
      exists (S k). split; [exists f; auto|]. intros [|k'] (f' & Hk' & Hc').
      * cbn in Hk'. injection Hk' as <-. unfold covers in Hc'. lia.
      * f_equal. apply Hu. eauto.
Qed.
Lemma msb_cover fs : forall top i, zpos fs -> msb_layout top fs -> top - zsum (widths fs) <= i < top ->
  exists! k : nat, exists f, nth_error fs k = Some f /\ covers f i.
Proof.
  assert (Hlow : forall fs top k f, zpos fs -> msb_layout top fs -> nth_error fs k = Some f -> f_off f + f_bits f <= top).
  { clear fs. induction fs as [|g t IH]; intros base k f Hp Hl Hk; [destruct k; discriminate|].
    inversion Hp; subst. destruct Hl as [Hg Hl]. destruct k as [|k]; cbn in Hk; [injection Hk as <-; lia|].
    specialize (IH _ _ _ ltac:(assumption) Hl Hk). lia. }
  induction fs as [|g t IH]; intros base i Hp Hl Hi.
  - cbn in Hi. lia.
  - inversion Hp as [|? ? Hg Ht]; subst. destruct Hl as [Ho Hl].
    cbn [widths map zsum fold_right] in Hi. fold (widths t) in Hi. fold (zsum (widths t)) in Hi.
    destruct (Z.lt_ge_cases i (base - f_bits g)).
    + destruct (IH (base - f_bits g) i Ht Hl) as (k & (f & Hk & Hc) & Hu); [lia|].
      exists (S k). split; [exists f; auto|]. intros [|k'] (f' & Hk' & Hc').
      * cbn in Hk'. injection Hk' as <-. unfold covers in Hc'. lia.
      * f_equal. apply Hu. eauto.
    + exists O. split; [exists g; split; [reflexivity|unfold covers; lia]|].
      intros [|k] (f & Hk & Hc); [reflexivity|]. cbn in Hk. exfalso.
      pose proof (Hlow _ _ _ _ Ht Hl Hk). unfold covers in Hc. lia.
Qed.

Lemma lsb_split fs : forall base l1 f l2, lsb_layout base fs -> fs = l1 ++ f :: l2 ->
  f_off f = base + zsum (widths l1).
Proof.
  induction fs as [|g t IH]; intros base l1 f l2 Hl E; [destruct l1; discriminate|].
  destruct Hl as [Hg Hl]. destruct l1 as [|x l1]; cbn in E; injection E as E1 E2.
  - subst. cbn. lia.
  - subst x. rewrite (IH _ _ _ _ Hl E2). unfold widths. cbn [map zsum fold_right]. fold (zsum (map f_bits l1)). lia.
Qed.
Lemma msb_split fs : forall top l1 f l2, msb_layout top fs -> fs = l1 ++ f :: l2 ->
  f_off f = top - zsum (widths l1) - f_bits f.
Proof.
  induction fs as [|g t IH]; intros base l1 f l2 Hl E; [destruct l1; discriminate|].
  destruct Hl as [Hg Hl]. destruct l1 as [|x l1]; cbn in E; injection E as E1 E2.
  - subst. cbn. lia.
  - subst x. rewrite (IH _ _ _ _ Hl E2). unfold widths. cbn [map zsum fold_right]. fold (zsum (map f_bits l1)). lia.
Qed.

(** ** The whole parser *)
Lemma parse_iff m F d bf :
  parse_bitfield m F d = POk bf <->
  exists ty args fs0 new,
    parse_bitfield_attribute F d = POk (ty, (args, false)) /\ d_named d = true /\
    names_ok (d_fields d) /\
    Forall2 (fun r f => core m (d_vis d) r = POk f) (d_fields d) fs0 /\
    offs m (a_order args) ty [] (filter nonign fs0) new /\
    check_fit m ty new = POk tt /\
    bf = mkBitfield (d_vis d) (d_name d) ty new (filter f_ignored fs0) args.
Proof.
  unfold parse_bitfield. split.
  - intro H. pinv H at_ Ha. destruct at_ as [ty [args fp]].
    destruct (d_named d); [|discriminate]. cbn [negb] in H. pinv H fs Hf. destruct fs as [acc ign].
    pinv H u Hc. destruct u. destruct fp; [discriminate|]. injection H as <-. cbn [fst snd] in *.
    apply loop_iff in Hf as (Hn & fs0 & new & H1 & H2 & -> & ->).
    apply names_rec_iff in Hn as [Hn _]. exists ty, args, fs0, new. cbn [app] in *. repeat apply conj; try assumption; reflexivity.
  - intros (ty & args & fs0 & new & -> & -> & Hn & H1 & H2 & H3 & ->). cbn [pbind negb].
    assert (E : parse_fields_loop m (a_order args) ty (d_vis d) (d_fields d) [] [] [] = POk (new, filter f_ignored fs0)).
    { apply loop_iff. split; [apply names_rec_iff; split; [exact Hn|intros ? ? []]|]. exists fs0, new. auto. }
    rewrite E. cbn [pbind fst snd]. rewrite H3. reflexivity.
Qed.

Lemma attribute_inv F d ty args fp : parse_bitfield_attribute F d = POk (ty, (args, fp)) ->
  (exists t, d_type d = Some t /\ type_is t ty) /\ ty <> DCustom /\ dt_unsigned ty = true /\
  parse_bitfield_args F (d_args d) = POk (args, fp).
Proof.
  unfold parse_bitfield_attribute. destruct (d_type d) as [t|]; [|discriminate].
  destruct (get_data_type t) as [d'| |] eqn:E; try discriminate. apply get_type_sound in E.
  intro H.
  assert (Hc : d' <> DCustom) by (intros ->; discriminate).
  assert (H' : (if negb (dt_unsigned d') then PErr EBackingType
               else a <~ parse_bitfield_args F (d_args d) ;; POk (d', a)) = POk (ty, (args, fp)))
    by (destruct d'; [exact H|exact H|congruence]).
  destruct (dt_unsigned d') eqn:Eu; [|discriminate]. cbn [negb] in H'. pinv H' a Ha. injection H' as -> ->.
  repeat split; eauto.
Qed.
Lemma attribute_complete F d t ty args fp : d_type d = Some t -> type_is t ty -> ty <> DCustom ->
  dt_unsigned ty = true -> parse_bitfield_args F (d_args d) = POk (args, fp) ->
  parse_bitfield_attribute F d = POk (ty, (args, fp)).
Proof.
  intros Ht Hty Hc Hu Ha. unfold parse_bitfield_attribute. rewrite Ht, (get_type_complete _ _ Hty), Hu, Ha.
  destruct ty; [reflexivity|reflexivity|congruence].
Qed.

Lemma check_fit_inv m ty fs : check_fit m ty fs = POk tt -> Forall (Z.le 0) (widths fs) ->
  m = Checked \/ zsum (widths fs) < 2 ^ 32 /\ ty_size ty < 2 ^ 32 ->
  zsum (widths fs) = ty_size ty /\ ty_size ty < 2 ^ 32.
Proof.
  intros H Hn Hm. unfold check_fit in H. pinv H total Ht. apply of_outcome_ok in Ht.
  apply sum_val in Ht; [|exact Hn|lia|destruct Hm; [auto|right; unfold widths in *; lia]].
  fold (widths fs) in Ht.
  pinv H size Hs. apply of_outcome_ok in Hs. apply bit_size_val in Hs as [Hs Hs']; [|tauto].
  destruct (Z.ltb_spec size total); [discriminate|]. destruct (Z.ltb_spec total size); [discriminate|]. lia.
Qed.
Lemma check_fit_ok m ty fs : ty <> DCustom -> ty_size ty < 2 ^ 32 -> Forall (Z.le 0) (widths fs) ->
  zsum (widths fs) = ty_size ty -> check_fit m ty fs = POk tt.
Proof.
  intros Hc Hs Hn Hz. unfold check_fit, sum_bits. fold (widths fs). rewrite sum_ok by (assumption || lia).
  cbn [of_outcome pbind]. rewrite bit_size_ok by assumption. cbn [of_outcome pbind].
  rewrite !(proj2 (Z.ltb_ge _ _)) by lia. reflexivity.
Qed.

Lemma accepted_off bv r f o : accepted bv r f -> accepted bv r (with_off f o).
Proof. intros [H1 H2 H3 H4 H5 H6 H7]. constructor; assumption. Qed.

Lemma active_cores m bv rs fs0 : Forall2 (fun r f => core m bv r = POk f) rs fs0 ->
  Forall2 (fun r f => core m bv r = POk f /\ ignoredb r = false)
    (filter (fun r => negb (ignoredb r)) rs) (filter nonign fs0).
Proof.
  induction 1 as [|r f rs fs Hc _ IH]; [constructor|]. cbn [filter]. unfold nonign at 1.
  rewrite (core_ignored m bv r f Hc). destruct (ignoredb r) eqn:E; cbn [negb]; [exact IH|]. constructor; auto.
Qed.

Lemma offs_forall2 (P : rfield -> field -> Prop) m o ty rs fs0 new : forall prev,
  (forall r f off, P r f -> P r (with_off f off)) ->
  offs m o ty prev fs0 new -> Forall2 P rs fs0 -> Forall2 P rs new.
Proof.
  revert rs fs0. induction new as [|f new IH]; intros rs [|f0 fs0] prev HP Ho H; cbn [offs] in Ho;
    try contradiction; [exact H|].
  destruct Ho as (_ & Hf & Ho). inversion H as [|r ? rs' ? Hr Ht]; subst. constructor.
  - rewrite Hf. now apply HP.
  - eapply IH; eassumption.
Qed.
Lemma offs_types m o ty fs0 : forall new prev, offs m o ty prev fs0 new -> map f_ty fs0 = map f_ty new.
Proof.
  induction fs0 as [|f0 t IH]; intros [|f new] prev H; cbn [offs] in H; try contradiction; [reflexivity|].
  destruct H as (_ & Hf & H). cbn [map]. rewrite (IH _ _ H), Hf. reflexivity.
Qed.

Definition layout (o : border) (S : Z) (fs : list field) : Prop :=
  match o with Lsb => lsb_layout 0 fs | Msb => msb_layout S fs end.

(** Everything an accepted declaration satisfies. *)
Lemma parse_inv m F d bf : parse_bitfield m F d = POk bf -> fits_u32 m bf ->
  (exists t, d_type d = Some t /\ type_is t (b_ty bf)) /\ b_ty bf <> DCustom /\
  dt_unsigned (b_ty bf) = true /\
  parse_bitfield_args F (d_args d) = POk (b_args bf, false) /\ d_named d = true /\
  names_ok (d_fields d) /\
  b_vis bf = d_vis d /\ b_name bf = d_name d /\
  Forall2 (accepted (d_vis d)) (active d) (b_fields bf) /\
  zsum (widths (b_fields bf)) = ty_size (b_ty bf) /\ ty_size (b_ty bf) < 2 ^ 32 /\
  layout (a_order (b_args bf)) (ty_size (b_ty bf)) (b_fields bf).
Proof.
  intros H Hfit. apply parse_iff in H as (ty & args & fs0 & new & Ha & Hnm & Hn & H1 & H2 & H3 & ->).
  cbn [b_ty b_args b_fields b_vis b_name] in *. apply attribute_inv in Ha as (Ht & Hc & Hu & Hargs).
  assert (Hm : m = Checked \/ Forall (fun f => ty_size (f_ty f) < 2 ^ 32) new).
  { destruct m; [auto|right]. apply Hfit. }
  assert (Hm' : m = Checked \/ zsum (widths new) < 2 ^ 32 /\ ty_size ty < 2 ^ 32).
  { destruct m; [auto|right]. cbn in Hfit. unfold widths. tauto. }
  assert (Hacc : Forall2 (accepted (d_vis d)) (active d) new).
  { apply active_cores in H1. fold (active d) in H1.
    apply (offs_forall2 _ m (a_order args) ty _ (filter nonign fs0) new [] (accepted_off (d_vis d)) H2).
    assert (Hm0 : m = Checked \/ Forall (fun f => ty_size (f_ty f) < 2 ^ 32) (filter nonign fs0)).
    { destruct Hm as [|Hm]; [auto|right]. apply offs_types in H2.
      assert (E : Forall (fun t => ty_size t < 2 ^ 32) (map f_ty (filter nonign fs0))).
      { rewrite H2. apply Forall_map. exact Hm. }
      now apply Forall_map in E. }
    clear - H1 Hm0. revert H1 Hm0. generalize (active d) (filter nonign fs0). intros rs fs H Hm.
    induction H as [|r f rs fs [Hr Hi] _ IH]; [constructor|]. constructor.
    - eapply core_sound; [exact Hr|exact Hi|]. destruct Hm as [|Hm]; [auto|right; right]. now inversion Hm.
    - apply IH. destruct Hm as [|Hm]; [auto|right]. now inversion Hm. }
  assert (Hpos : Forall (Z.le 0) (widths new)).
  { clear - Hacc. unfold widths. apply Forall_map. induction Hacc as [|r f rs fs Hr _ IH]; constructor; [|exact IH].
    pose proof (acc_width _ _ _ Hr). lia. }
  pose proof (check_fit_inv m ty new H3 Hpos Hm') as [Hz Hs].
  repeat (split; [assumption || reflexivity|]).
  unfold layout. destruct (a_order args).
  - apply (offs_lsb m ty (filter nonign fs0) [] new); [exact H2|constructor|exact Hpos|].
    cbn. destruct Hm'; [auto|right; lia].
  - replace (ty_size ty) with (ty_size ty - zsum (widths [])) by (cbn; lia).
    apply (offs_msb m ty (filter nonign fs0) [] new); [exact H2|constructor|exact Hpos|].
    cbn. destruct Hm'; [auto|right; lia].
Qed.
Lemma inv_pos m F d bf : parse_bitfield m F d = POk bf -> fits_u32 m bf -> zpos (b_fields bf).
Proof.
  intros H Hf. apply (parse_inv m F d bf H) in Hf as (_ & _ & _ & _ & _ & _ & _ & _ & Hacc & _).
  clear - Hacc. induction Hacc as [|r f rs fs Hr _ IH]; constructor; [|exact IH].
  pose proof (acc_width _ _ _ Hr). lia.
Qed.
