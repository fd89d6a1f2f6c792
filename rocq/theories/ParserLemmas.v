(** Inversion and completeness lemmas for the parser model. *)
From Coq Require Import ZArith List Bool String Ascii Lia.
From Verif Require Import RustInt Syntax ConstExpr Words Parser Spec SpecDecl PropLit.
Import ListNotations.
Open Scope Z_scope.

Lemma pbind_ok {E A B} (x : pres E A) (k : A -> pres E B) b :
  pbind x k = POk b -> exists a, x = POk a /\ k a = POk b.
Proof. destruct x; cbn; intro H; try discriminate. eauto. Qed.
Lemma of_outcome_ok {E A} (x : outcome A) a : @of_outcome E A x = POk a -> x = Val a.
Proof. destruct x; cbn; intro H; try discriminate. now injection H as ->. Qed.
Ltac pinv H a Ha := apply pbind_ok in H as (a & Ha & H).

(** ** Types *)
Lemma get_type_sound t d : get_data_type t = POk d -> type_is t d.
Proof.
  revert d. induction t as [s|e IH len|]; intros d H; cbn [get_data_type] in H.
  - destruct (String.eqb_spec s "f32"); [discriminate|].
    destruct (String.eqb_spec s "f64"); [discriminate|]. cbn [orb] in H.
    unfold data_type_new in H.
    repeat match type of H with
    | context [String.eqb s ?x] => destruct (String.eqb_spec s x);
        [subst s; try discriminate; injection H as <-; reflexivity|]
    end.
    injection H as <-. exists s. split; [reflexivity|]. split.
    + intros i. destruct i; assumption.
    + cbn. intuition congruence.
  - pinv H e' He. apply IH in He.
    destruct e' as [[]|n|]; try discriminate. cbn in He. subst e.
    destruct len as [k|]; [|discriminate]. cbv zeta in H.
    destruct (Z.leb_spec (2 ^ 32) (Z.of_N k)); [discriminate|].
    destruct (Z.eqb_spec (Z.of_N k) 0); [discriminate|]. injection H as <-.
    exists k. repeat split; lia.
  - discriminate.
Qed.
Lemma get_type_complete t d : type_is t d -> get_data_type t = POk d.
Proof.
  destruct d as [i|n|]; cbn [type_is].
  - intros ->. destruct i; reflexivity.
  - intros (k & -> & -> & H). cbn [get_data_type].
    change (get_data_type (RPath "u8")) with (@POk terr dtype (DInteger U8)). cbn [pbind]. cbv zeta.
    rewrite (proj2 (Z.leb_gt _ _)) by lia. rewrite (proj2 (Z.eqb_neq _ _)) by lia. reflexivity.
  - intros (s & -> & Hi & Hu). cbn [get_data_type]. cbn in Hu.
    assert (F : forall x, s <> x -> String.eqb s x = false) by (intros; now apply String.eqb_neq).
    rewrite !F by (intro; subst; intuition congruence). cbn [orb]. unfold data_type_new.
    rewrite !F by (intro; subst; first [intuition congruence |
      eapply (Hi U8); reflexivity | eapply (Hi U16); reflexivity | eapply (Hi U32); reflexivity |
      eapply (Hi U64); reflexivity | eapply (Hi U128); reflexivity | eapply (Hi I8); reflexivity |
      eapply (Hi I16); reflexivity | eapply (Hi I32); reflexivity | eapply (Hi I64); reflexivity |
      eapply (Hi I128); reflexivity | eapply (Hi TBool); reflexivity]).
    reflexivity.
Qed.
Lemma get_type_nopanic t : get_data_type t <> PPanic.
Proof.
  induction t as [s|e IH len|]; cbn [get_data_type]; [| |discriminate].
  - destruct (_ || _); [discriminate|]. destruct (data_type_new s) as [[]|]; discriminate.
  - destruct (get_data_type e) as [[[]|n|]| |]; cbn [pbind]; try discriminate; [|contradiction].
    destruct len; [|discriminate]. cbv zeta. destruct (_ <=? _); [discriminate|].
    destruct (_ =? _); discriminate.
Qed.
Lemma type_is_inj t d d' : type_is t d -> type_is t d' -> d = d'.
Proof.
  intros H H'. apply get_type_complete in H, H'. rewrite H in H'. now injection H'.
Qed.

Lemma bit_size_val m d s : bit_size m d = Val s -> m = Checked \/ ty_size d < 2 ^ 32 ->
  s = ty_size d /\ ty_size d < 2 ^ 32.
Proof.
  destruct d as [t|n|]; cbn [bit_size ty_size]; intros H Hm.
  - injection H as <-. split; [reflexivity|]. destruct t; reflexivity.
  - unfold umul in H. destruct (Z.ltb_spec (n * 8) (2 ^ 32)).
    + injection H as <-. lia.
    + destruct m; [discriminate|]. destruct Hm; [discriminate|lia].
  - discriminate.
Qed.
Lemma bit_size_ok m d : d <> DCustom -> ty_size d < 2 ^ 32 -> bit_size m d = Val (ty_size d).
Proof.
  destruct d as [t|n|]; cbn [bit_size ty_size]; intros Hc H; [reflexivity| |congruence].
  unfold umul. rewrite (proj2 (Z.ltb_lt _ _)) by lia. f_equal. lia.
Qed.

(** ** Arguments *)
Lemma small_lower c : to_small c = lower c.
Proof. destruct c as [[][][][][][][][]]; reflexivity. Qed.
Lemma map_small s : map to_small s = map lower s.
Proof. apply map_ext, small_lower. Qed.
Lemma access_sound s a : access_from_str s = Some a -> access_text s a.
Proof.
  unfold access_from_str, access_text, lowercase, chars. rewrite map_small. cbv zeta. intro H.
  repeat match type of H with
  | context [str_eqb ?x ?y] => destruct (str_eqb x y) eqn:?E;
      [injection H as <-; now apply str_eqb_true|]
  end. discriminate.
Qed.
Lemma access_complete s a : access_text s a -> access_from_str s = Some a.
Proof.
  unfold access_from_str, access_text, lowercase, chars. rewrite map_small. cbv zeta. intros ->.
  destruct a; reflexivity.
Qed.

Lemma last_of_app key l acc :
  fold_left (fun x a => if String.eqb (fst a) key then Some (snd a) else x) l acc =
  match last_of key l with Some s => Some s | None => acc end.
Proof.
  unfold last_of. revert acc. induction l as [|a l IH]; intro acc; [reflexivity|]. cbn [fold_left].
  rewrite IH. destruct (String.eqb (fst a) key).
  - rewrite (IH (Some (snd a))). now destruct (fold_left _ l None).
  - reflexivity.
Qed.
Lemma last_of_cons key a l :
  last_of key (a :: l) =
  match last_of key l with
  | Some s => Some s
  | None => if String.eqb (fst a) key then Some (snd a) else None
  end.
Proof. unfold last_of at 1. cbn [fold_left]. apply last_of_app. Qed.
Lemma last_of_In key l s : last_of key l = Some s -> In (key, s) l.
Proof.
  induction l as [|[k v] l IH]; [discriminate|]. rewrite last_of_cons. cbn [fst snd].
  destruct (last_of key l) eqn:E.
  - intro H. right. auto.
  - destruct (String.eqb_spec k key); [|discriminate]. intro H. injection H as ->. subst. now left.
Qed.
Lemma last_of_none key l v : last_of key l = None -> ~ In (key, v) l.
Proof.
  induction l as [|[k w] l IH]; [intros _ []|]. rewrite last_of_cons. cbn [fst snd].
  destruct (last_of key l); [discriminate|]. destruct (String.eqb_spec k key); [discriminate|].
  intros _ [H|H]; [congruence|]. now apply IH.
Qed.

Definition ba_spec (args : list (string * string)) (acc ba : bargs) : Prop :=
  ba_ignored ba = match last_of "ignore" args with
                  | Some s => String.eqb s "true" | None => ba_ignored acc end /\
  match last_of "access" args with
  | Some s => ba_user_access ba = true /\ access_text s (ba_access ba)
  | None => ba_user_access ba = ba_user_access acc /\ ba_access ba = ba_access acc
  end /\
  match last_of "default" args with
  | Some s => exists c, const_expr_new s = POk c /\ ba_default ba = Some c
  | None => ba_default ba = ba_default acc
  end.

Lemma bits_arg_sound acc k v ba : bits_arg acc (k, v) = POk ba ->
  arg_ok (k, v) /\ ba_spec [(k, v)] acc ba.
Proof.
  unfold bits_arg, arg_ok, ba_spec. cbn [fst snd]. rewrite !last_of_cons. cbn [fst snd].
  replace (last_of "ignore" []) with (@None string) by reflexivity.
  replace (last_of "access" []) with (@None string) by reflexivity.
  replace (last_of "default" []) with (@None string) by reflexivity.
  destruct (String.eqb_spec k "access").
  { subst k. destruct (access_from_str v) eqn:E; [|discriminate]. intro H. injection H as <-.
    apply access_sound in E. split; [left; eauto|]. cbn. auto. }
  destruct (String.eqb_spec k "ignore").
  { subst k. intro H. pinv H b Hb. injection H as <-. unfold parse_bool_arg in Hb.
    destruct (String.eqb_spec v "true"); [injection Hb as <-; subst; split; [right; left; auto|]; cbn; auto|].
    destruct (String.eqb_spec v "false"); [injection Hb as <-; subst; split; [right; left; auto|]; cbn; auto|].
    discriminate. }
  destruct (String.eqb_spec k "default"); [|discriminate].
  subst k. destruct (const_expr_new v) eqn:E; try discriminate. intro H. injection H as <-.
  split; [right; right; eauto|]. cbn. eauto 6.
Qed.
Lemma bits_arg_complete acc k v : arg_ok (k, v) -> exists ba, bits_arg acc (k, v) = POk ba.
Proof.
  unfold arg_ok, bits_arg. cbn [fst snd].
  intros [(-> & x & H)|[(-> & [-> | ->])|(-> & c & H)]].
  - apply access_complete in H. cbn. rewrite H. eauto.
  - cbn. eauto.
  - cbn. eauto.
  - cbn. rewrite H. eauto.
Qed.

Lemma ba_spec_trans a l x y z : ba_spec [a] x y -> ba_spec l y z -> ba_spec (a :: l) x z.
Proof.
  unfold ba_spec. rewrite !last_of_cons. replace (last_of _ []) with (@None string) by reflexivity.
  replace (last_of "access" []) with (@None string) by reflexivity.
  replace (last_of "default" []) with (@None string) by reflexivity.
  intros (H1 & H2 & H3) (H4 & H5 & H6). split; [|split].
  - destruct (last_of "ignore" l); [exact H4|]. rewrite H4. exact H1.
  - destruct (last_of "access" l); [exact H5|]. destruct H5 as [-> ->].
    destruct (String.eqb (fst a) "access"); exact H2.
  - destruct (last_of "default" l); [exact H6|]. rewrite H6. exact H3.
Qed.

Lemma fold_args_sound args acc ba : fold_args bits_arg acc args = POk ba ->
  Forall arg_ok args /\ ba_spec args acc ba.
Proof.
  revert acc. induction args as [|[k v] l IH]; intros acc H; cbn [fold_args] in H.
  - injection H as <-. split; [constructor|]. repeat split.
  - pinv H b Hb. apply bits_arg_sound in Hb as [Hk Hs]. apply IH in H as [Hl Hr].
    split; [constructor; assumption|]. eapply ba_spec_trans; eassumption.
Qed.
Lemma fold_args_complete args acc : Forall arg_ok args -> exists ba, fold_args bits_arg acc args = POk ba.
Proof.
  intro H. revert acc. induction H as [|[k v] l Ha _ IH]; intro acc; cbn [fold_args]; [eauto|].
  destruct (bits_arg_complete acc k v Ha) as [b ->]. cbn [pbind]. apply IH.
Qed.
Lemma keys_complete args : Forall arg_ok args -> check_keys bits_keys args = POk tt.
Proof.
  intro H. unfold check_keys.
  replace (forallb _ args) with true; [reflexivity|]. symmetry. apply forallb_forall.
  intros a Ha. rewrite Forall_forall in H. destruct (H a Ha) as [(-> & _)|[(-> & _)|(-> & _)]]; reflexivity.
Qed.

Lemma attr_sound r a : get_bits_attribute r = POk a ->
  attr_ok r /\
  match a with
  | None => r_attr r = ANone
  | Some bt => r_attr r <> ANone /\ bt_bits bt = attr_bits r /\ ba_spec (attr_args r) bargs_default (bt_args bt)
  end.
Proof.
  unfold get_bits_attribute, attr_ok, attr_bits, attr_args.
  destruct (r_attr r) as [| |b args]; intro H.
  - injection H as <-. auto.
  - discriminate.
  - pinv H n Hn. pinv H ba Hba. injection H as <-. unfold parse_bits_args in Hba.
    pinv Hba u Hu. apply fold_args_sound in Hba as [H1 H2].
    destruct b as [| |k sf]; cbn [parse_bits] in Hn; try discriminate.
    + injection Hn as <-. cbn. repeat split; auto; try discriminate; apply H2.
    + destruct (String.eqb_spec sf ""); cbn [negb] in Hn; [|discriminate].
      destruct (Z.leb_spec (2 ^ 32) (Z.of_N k)); [discriminate|]. injection Hn as <-.
      cbn [bt_bits bt_args]. repeat split; auto; try discriminate; apply H2.
Qed.
Lemma attr_complete r : attr_ok r -> exists a, get_bits_attribute r = POk a.
Proof.
  unfold get_bits_attribute, attr_ok. destruct (r_attr r) as [| |b args]; [eauto|intros []|].
  intros [Hb Ha]. unfold parse_bits_args. rewrite keys_complete by exact Ha. cbn [pbind].
  destruct (fold_args_complete args bargs_default Ha) as [ba ->]. cbn [pbind].
  destruct b as [| |k sf]; cbn [parse_bits pbind]; [eauto|destruct Hb|].
  destruct Hb as [-> Hk]. cbn [String.eqb negb]. rewrite (proj2 (Z.leb_gt _ _)) by lia. cbn [pbind]. eauto.
Qed.

Lemma ignored_spec r a : get_bits_attribute r = POk a -> is_ignored a = ignoredb r.
Proof.
  intro H. apply attr_sound in H as [_ H]. unfold is_ignored, ignoredb, last_arg.
  destruct a as [bt|].
  - destruct H as (_ & _ & H & _). exact H.
  - unfold attr_args. rewrite H. reflexivity.
Qed.
Lemma ignoredb_true r : ignoredb r = true <-> ignored_decl r.
Proof.
  unfold ignoredb, ignored_decl. destruct (last_arg "ignore" r) as [s|].
  - rewrite String.eqb_eq. split; [intros ->; reflexivity|now injection 1].
  - split; discriminate.
Qed.
Lemma reservedb_true r : is_reserved_name (r_name r) = true <-> reserved_decl r.
Proof.
  unfold is_reserved_name, reserved_decl. destruct (r_name r) as [|c s].
  - split; [discriminate|intros [x H]; discriminate].
  - rewrite Ascii.eqb_eq. split; [intros ->; eauto|intros [x H]; congruence].
Qed.

(** ** Literals *)
Lemma parse_digits_range b s acc n : 0 < b -> 0 <= acc < 2 ^ 128 -> parse_digits b acc s = Some n -> 0 <= n < 2 ^ 128.
Proof.
  intro Hb. revert acc. induction s as [|c t IH]; intros acc Ha H; cbn [parse_digits] in H.
  - injection H as <-. exact Ha.
  - unfold to_digit in H. cbv zeta in H.
    match type of H with context [if ?d <? b then Some ?d else None] => set (dd := d) in H end.
    assert (0 <= dd).
    { unfold dd. pose proof (Nat2Z.is_nonneg (nat_of_ascii c)).
      destruct (Z.leb_spec 48 (Z.of_nat (nat_of_ascii c))); cbn [andb];
        [destruct (Z.leb_spec (Z.of_nat (nat_of_ascii c)) 57); [lia|]|];
        (destruct (Z.leb_spec 97 (Z.of_nat (nat_of_ascii c))); cbn [andb];
          [destruct (Z.leb_spec (Z.of_nat (nat_of_ascii c)) 122); [lia|]|]);
        (destruct (Z.leb_spec 65 (Z.of_nat (nat_of_ascii c))); cbn [andb];
          [destruct (Z.leb_spec (Z.of_nat (nat_of_ascii c)) 90); lia|]); lia. }
    destruct (dd <? b); [|discriminate].
    destruct (Z.ltb_spec (acc * b + dd) (2 ^ 128)); [|discriminate]. eapply IH; [|exact H]. nia.
Qed.
Lemma radix_range b s n : 0 < b -> from_str_radix b s = Some n -> 0 <= n < 2 ^ 128.
Proof.
  intros Hb. unfold from_str_radix. cbv zeta.
  destruct (match s with c :: t => if Ascii.eqb c "+" then t else s | [] => [] end); [discriminate|].
  apply parse_digits_range; lia.
Qed.
Lemma const_range text n neg : const_expr_new text = POk (CLit n neg) -> 0 <= n < 2 ^ 128.
Proof.
  unfold const_expr_new. cbv zeta. destruct (float_rejected _); [discriminate|].
  unfold parse_boolean. destruct (str_eqb _ _); [injection 1 as <- <-; lia|].
  destruct (str_eqb _ _); [injection 1 as <- <-; lia|].
  unfold parse_integer. destruct (parse_integer_helper _) as [[k|]|] eqn:E; cbn [bind]; try discriminate.
  injection 1 as <- <-. revert E. unfold parse_integer_helper, parse_prefixed.
  repeat match goal with |- context [if ?b then _ else _] => destruct b end;
    repeat match goal with |- context [match from_str_radix ?r ?s with _ => _ end] =>
             destruct (from_str_radix r s) eqn:?Er end; intro H; try discriminate; injection H as H; subst;
    eapply radix_range; try eassumption; lia.
Qed.

(** ** Ranges of defaults *)
Lemma min_max_ok m bits : 1 <= bits <= 128 ->
  min_max_for_bits m bits = Val (- 2 ^ (bits - 1), 2 ^ bits - 1).
Proof.
  intro H. unfold min_max_for_bits. destruct (Z.eqb_spec bits 128); [subst; reflexivity|].
  assert (Hp : 0 < 2 ^ bits < 2 ^ 128) by (split; [apply Z.pow_pos_nonneg; lia|apply Z.pow_lt_mono_r; lia]).
  unfold shl. rewrite (proj2 (Z.ltb_lt _ _)) by lia. rewrite Z.shiftl_1_l, Z.mod_small by lia. cbn [bind].
  unfold usub. rewrite (proj2 (Z.leb_le _ _)) by lia. cbn [bind].
  rewrite (proj2 (Z.leb_le _ _)) by lia. cbn [bind].
  unfold sshl. rewrite (proj2 (Z.ltb_lt _ _)) by lia. rewrite Z.shiftl_1_l.
  assert (Hq : 0 < 2 ^ (bits - 1) < 2 ^ 127) by (split; [apply Z.pow_pos_nonneg; lia|apply Z.pow_lt_mono_r; lia]).
  unfold scast. replace (128 - 1) with 127 by lia.
  rewrite (Z.mod_small (2 ^ (bits - 1) + 2 ^ 127)) by lia.
  cbn [bind]. unfold neg_i128. rewrite (proj2 (Z.eqb_neq _ _)) by lia. cbn [bind]. do 2 f_equal. lia.
Qed.

(** The literal is in range, or one of the texts the i128 check misreads. *)
Definition default_accepted (t : ity) (n number : Z) (negative : bool) : Prop :=
  default_in_range t n number negative \/ (negative = true /\ 2 ^ 127 < number).

Lemma scast_128 n : 0 <= n < 2 ^ 128 -> scast 128 n = if n <? 2 ^ 127 then n else n - 2 ^ 128.
Proof.
  intro H. unfold scast. replace (128 - 1) with 127 by lia.
  destruct (Z.ltb_spec n (2 ^ 127)).
  - rewrite Z.mod_small by lia. lia.
  - replace (n + 2 ^ 127) with (n - 2 ^ 127 + 1 * 2 ^ 128) by lia. rewrite Z.mod_add by lia.
    rewrite Z.mod_small by lia. lia.
Qed.

Lemma check_default_iff m t bits number negative : 1 <= bits <= 128 -> 0 <= number < 2 ^ 128 ->
  forall bt, ba_default (bt_args bt) = Some (CLit number negative) ->
  (check_default m (Some bt) bits (DInteger t) = POk tt <->
   (negative = true -> ity_unsigned t = false /\ number <> 2 ^ 127) /\
   default_accepted t bits number negative).
Proof.
  intros Hb Hn bt Hd. unfold check_default, default_accepted, default_in_range. rewrite Hd. cbn [dt_unsigned].
  rewrite min_max_ok by exact Hb. cbn [of_outcome pbind fst snd].
  destruct negative.
  - rewrite andb_true_r. destruct (ity_unsigned t) eqn:Et.
    { split; [discriminate|]. intros [H _]. destruct (H eq_refl). discriminate. }
    rewrite scast_128 by exact Hn. cbv zeta.
    assert (Hp : 0 < 2 ^ (bits - 1) <= 2 ^ 127) by (split; [apply Z.pow_pos_nonneg; lia|apply Z.pow_le_mono_r; lia]).
    destruct (Z.ltb_spec number (2 ^ 127)).
    + rewrite (proj2 (Z.eqb_neq _ _)) by lia.
      destruct (Z.ltb_spec (- number) (- 2 ^ (bits - 1))).
      * split; [discriminate|]. intros [_ [[_ H1]|[_ H1]]]; lia.
      * split; [|reflexivity]. intros _. split; [intros _; split; [reflexivity|lia]|]. left. split; [reflexivity|lia].
    + destruct (Z.eqb_spec (number - 2 ^ 128) (- 2 ^ 127)).
      * split; [discriminate|]. intros [H1 _]. destruct (H1 eq_refl). lia.
      * rewrite (proj2 (Z.ltb_ge _ _)) by lia. split; [|reflexivity]. intros _.
        split; [intros _; split; [reflexivity|lia]|]. right. split; [reflexivity|lia].
  - rewrite andb_false_r. destruct (Z.ltb_spec (2 ^ bits - 1) number).
    + split; [discriminate|]. intros [_ [H1|[H1 _]]]; [lia|discriminate].
    + split; [|reflexivity]. intros _. split; [discriminate|]. left. lia.
Qed.

(** ** One field without its offset *)
Definition with_off (f : field) (o : Z) : field :=
  mkField (f_vis f) (f_name f) (f_ty f) (f_bits f) o (f_reserved f) (f_access f) (f_default f)
    (f_ignored f) (f_codec f).

Definition core (m : mode) (bv : vis) (r : rfield) : pr field :=
  a <~ get_bits_attribute r ;;
  if is_ignored a then parse_ignored r
  else
    let reserved := is_reserved_name (r_name r) in
    match get_data_type (r_ty r) with
    | PErr _ => PErr EFieldType
    | PPanic => PPanic
    | POk d =>
        bits <~ get_field_bits m a d ;;
        _ <~ check_bits a bits ;;
        _ <~ match d with
             | DInteger _ =>
                 _ <~ check_default m a bits d ;;
                 check_can_hold m a bits d
             | _ => POk tt
             end ;;
        acc <~ get_access a reserved ;;
        POk (mkField (get_visibility bv (r_vis r)) (r_name r) d bits 0 reserved acc
               (match a with
                | Some bt =>
                    match ba_default (bt_args bt) with
                    | Some _ => Some (r_value r)
                    | None => None
                    end
                | None => None
                end) false (r_codec r))
    end.

Lemma parse_ignored_fields r f : parse_ignored r = POk f ->
  f_ignored f = true /\ f_reserved f = false /\ f_name f = r_name r /\ type_is (r_ty r) (f_ty f).
Proof.
  unfold parse_ignored. destruct (get_data_type (r_ty r)) eqn:E; try discriminate.
  injection 1 as <-. cbn. auto using get_type_sound.
Qed.

Lemma parse_field_iff m o ty bv r prev f :
  parse_field m o ty bv r prev = POk f <->
  exists f0, core m bv r = POk f0 /\
    if f_ignored f0 then f = f0
    else exists off, calculate_offset m o ty (f_bits f0) prev = POk off /\ f = with_off f0 off.
Proof.
  unfold parse_field, field_with, core. destruct (get_bits_attribute r) as [a|e|]; cbn [pbind];
    [|split; [discriminate|intros (f0 & H & _); discriminate]
     |split; [discriminate|intros (f0 & H & _); discriminate]].
  destruct (is_ignored a).
  - split.
    + intro H. exists f. split; [exact H|]. apply parse_ignored_fields in H as [-> _]. reflexivity.
    + intros (f0 & H & H0). pose proof (parse_ignored_fields r f0 H) as [E _]. rewrite E in H0. now subst.
  - cbv zeta. destruct (get_data_type (r_ty r)) as [d|e|];
      [|split; [discriminate|intros (f0 & H & _); discriminate]
       |split; [discriminate|intros (f0 & H & _); discriminate]].
    destruct (get_field_bits m a d) as [bits|e|]; cbn [pbind];
      [|split; [discriminate|intros (f0 & H & _); discriminate]
       |split; [discriminate|intros (f0 & H & _); discriminate]].
    destruct (check_bits a bits) as [[]|e|]; cbn [pbind];
      [|split; [discriminate|intros (f0 & H & _); discriminate]
       |split; [discriminate|intros (f0 & H & _); discriminate]].
    match goal with |- context [pbind ?x _] => set (chk := x) end.
    destruct chk as [[]|e|]; cbn [pbind];
      [|split; [discriminate|intros (f0 & H & _); discriminate]
       |split; [discriminate|intros (f0 & H & _); discriminate]].
    split.
    + intro H. pinv H off Ho. pinv H acc Ha. injection H as <-.
      rewrite Ha. cbn [pbind]. eexists. split; [reflexivity|]. cbn. eauto.
    + intros (f0 & H & H0). pinv H acc Ha. injection H as <-. cbn in H0.
      destruct H0 as (off & -> & ->). cbn [pbind]. rewrite Ha. reflexivity.
Qed.

Lemma attr_bits_nonneg r n : attr_bits r = Some n -> 0 <= n.
Proof. unfold attr_bits. destruct (r_attr r) as [| |[]]; try discriminate. injection 1 as <-. lia. Qed.
Lemma attr_bits_small r n : attr_ok r -> attr_bits r = Some n -> n < 2 ^ 32.
Proof.
  unfold attr_bits, attr_ok. destruct (r_attr r) as [| |[]]; try discriminate. intros [[_ H] _].
  injection 1 as <-. exact H.
Qed.
Lemma type_size_pos t d : type_is t d -> d <> DCustom -> 1 <= ty_size d.
Proof.
  destruct d as [i|n|]; cbn [type_is ty_size]; intros H Hc; [destruct i; cbn; lia| |congruence].
  destruct H as (k & _ & -> & H). lia.
Qed.

(** What an accepted non-ignored field satisfies. *)
Record accepted (bv : vis) (r : rfield) (f : field) : Prop := mkAccepted {
  acc_attr : attr_ok r;
  acc_match : decl_matches bv r f;
  acc_custom : f_ty f = DCustom -> attr_bits r <> None;
  acc_width : 1 <= f_bits f < 2 ^ 32;
  acc_hold : match f_ty f with DInteger t => f_bits f <= ity_bits t | _ => True end;
  acc_default : match f_ty f with
                | DInteger t =>
                    forall text number negative, last_arg "default" r = Some text ->
                      const_expr_new text = POk (CLit number negative) ->
                      default_accepted t (f_bits f) number negative /\
                      (negative = true -> ity_unsigned t = false /\ number <> 2 ^ 127)
                | _ => True
                end;
  acc_reserved : reserved_decl r -> last_arg "access" r = None }.

Lemma core_ignored m bv r f : core m bv r = POk f -> f_ignored f = ignoredb r.
Proof.
  unfold core. intro H. pinv H a Ha. rewrite <- (ignored_spec r a Ha).
  destruct (is_ignored a).
  - apply parse_ignored_fields in H as [-> _]. reflexivity.
  - cbv zeta in H. destruct (get_data_type (r_ty r)); try discriminate.
    pinv H bits Hb. pinv H u Hu. pinv H u' Hu'. pinv H acc Hacc. injection H as <-. reflexivity.
Qed.
Lemma core_reserved m bv r f : core m bv r = POk f ->
  f_reserved f = (negb (ignoredb r) && is_reserved_name (r_name r))%bool /\ f_name f = r_name r.
Proof.
  intro H. pose proof (core_ignored m bv r f H) as Hi. revert H. unfold core. intro H. pinv H a Ha.
  rewrite <- (ignored_spec r a Ha) in *.
  destruct (is_ignored a).
  - apply parse_ignored_fields in H as (_ & -> & -> & _). auto.
  - cbv zeta in H. destruct (get_data_type (r_ty r)); try discriminate.
    pinv H bits Hb. pinv H u Hu. pinv H u' Hu'. pinv H acc Hacc. injection H as <-. auto.
Qed.

Lemma access_spec r a acc : get_bits_attribute r = POk a ->
  get_access a (is_reserved_name (r_name r)) = POk acc ->
  access_matches r acc /\ (reserved_decl r -> last_arg "access" r = None).
Proof.
  intros Ha H. apply attr_sound in Ha as [_ Ha]. unfold access_matches, last_arg.
  pose proof (reservedb_true r) as Hr. unfold get_access in H. destruct a as [bt|].
  - destruct Ha as (Hne & _ & _ & Hacc & Hdef).
    destruct (last_of "access" (attr_args r)) as [s|].
    + destruct Hacc as [Hu Ht]. rewrite Hu in H. cbn [andb] in H.
      destruct (is_reserved_name (r_name r)); [discriminate|].
      split; [|intro Hx; apply Hr in Hx; discriminate].
      destruct (ba_default (bt_args bt)); injection H as <-; exact Ht.
    + destruct Hacc as [Hu Hx]. cbn in Hu, Hx. rewrite Hu in H. cbn [andb] in H. split; [|reflexivity].
      split; [|split].
      * intro Hn. destruct (is_reserved_name (r_name r)); [exfalso; apply Hn; now apply Hr|].
        destruct (ba_default (bt_args bt)); injection H as <-; exact Hx.
      * intros Hres Hd. apply Hr in Hres. rewrite Hres in H.
        destruct (last_of "default" (attr_args r)); [|congruence].
        destruct Hdef as (c & _ & Hdef). rewrite Hdef in H. now injection H as <-.
      * intros _ Hn. contradiction.
  - unfold attr_args. rewrite Ha. cbn. split; [|reflexivity]. injection H as <-. split; [|split].
    + intro Hn. destruct (is_reserved_name (r_name r)); [exfalso; apply Hn; now apply Hr|reflexivity].
    + intros _ Hx. congruence.
    + intros Hres _. apply Hr in Hres. now rewrite Hres.
Qed.

Lemma core_sound m bv r f : core m bv r = POk f -> ignoredb r = false ->
  m = Checked \/ attr_bits r <> None \/ ty_size (f_ty f) < 2 ^ 32 -> accepted bv r f.
Proof.
  intros H Hi Hm. unfold core in H. pinv H a Ha. rewrite (ignored_spec r a Ha), Hi in H. cbv zeta in H.
  destruct (get_data_type (r_ty r)) as [d| |] eqn:Et; try discriminate. apply get_type_sound in Et.
  pinv H bits Hb. pinv H u Hu. pinv H u' Hu'. pinv H acc Hacc. injection H as <-. cbn [f_ty] in Hm.
  pose proof (access_spec r a acc Ha Hacc) as [Hacc1 Hacc2].
  pose proof (attr_sound r a Ha) as [Hok Hs].
  assert (Hbits : bits = width r d /\ (d = DCustom -> attr_bits r <> None) /\ bits < 2 ^ 32).
  { unfold get_field_bits in Hb. unfold width.
    assert (E : match a with Some bt => bt_bits bt | None => None end = attr_bits r).
    { destruct a as [bt|]; [apply Hs|]. unfold attr_bits. now rewrite Hs. }
    rewrite E in Hb. destruct (attr_bits r) as [n|] eqn:En.
    - injection Hb as <-. repeat split; [discriminate|]. eapply attr_bits_small; eassumption.
    - assert (Hm' : m = Checked \/ ty_size d < 2 ^ 32) by tauto.
      destruct d as [t|n|]; [| |discriminate].
      + apply of_outcome_ok in Hb. apply bit_size_val in Hb as [-> Hb]; [|exact Hm']. repeat split; [discriminate|exact Hb].
      + apply of_outcome_ok in Hb. apply bit_size_val in Hb as [-> Hb]; [|exact Hm']. repeat split; [discriminate|exact Hb]. }
  destruct Hbits as (Hbits & Hcust & Hlt).
  assert (Hge : 1 <= bits).
  { unfold check_bits in Hu. destruct (Z.eqb_spec bits 0).
    - destruct a as [[[]]|]; discriminate.
    - assert (0 <= bits); [|lia]. rewrite Hbits. unfold width. destruct (attr_bits r) eqn:En.
      + eapply attr_bits_nonneg, En.
      + destruct d; try (pose proof (type_size_pos _ _ Et); cbn in *; intuition (try discriminate; lia)). }
  assert (Hdef : (match a with Some bt => match ba_default (bt_args bt) with Some _ => Some (r_value r) | None => None end | None => None end)
                 = match last_arg "default" r with Some _ => Some (r_value r) | None => None end).
  { unfold last_arg. destruct a as [bt|].
    - destruct Hs as (_ & _ & _ & _ & Hd). destruct (last_of "default" (attr_args r)).
      + destruct Hd as (c & _ & ->). reflexivity.
      + now rewrite Hd.
    - unfold attr_args. rewrite Hs. reflexivity. }
  assert (Hint : match d with DInteger t => bits <= ity_bits t | _ => True end).
  { destruct d as [t|n|]; auto. pinv Hu' v Hv. unfold check_can_hold in Hu'. destruct a as [bt|].
    - cbn [bit_size of_outcome pbind] in Hu'. destruct (Z.ltb_spec (ity_bits t) bits); [|lia].
      destruct (bt_bits bt); discriminate.
    - subst bits. unfold width, attr_bits. rewrite Hs. cbn. lia. }
  constructor; cbn [f_ty f_bits]; try assumption.
  - unfold decl_matches. cbn. repeat apply conj; try assumption; try reflexivity; try apply reservedb_true.
    now destruct (r_vis r).
  - auto.
  - destruct d as [t|n|]; auto. intros text number negative Ht Hc.
    pinv Hu' v Hv. destruct v. unfold last_arg in Ht. destruct a as [bt|].
    + destruct Hs as (_ & _ & _ & _ & Hd). rewrite Ht in Hd. destruct Hd as (c & Hc' & Hd).
      rewrite Hc in Hc'. injection Hc' as <-.
      apply (check_default_iff m t bits number negative) in Hv; try assumption; [tauto| |].
      * destruct t; cbn in Hint; lia.
      * eapply const_range, Hc.
    + unfold attr_args in Ht. rewrite Hs in Ht. discriminate.
Qed.

Lemma core_any m bv r f : core m bv r = POk f -> ignoredb r = false ->
  attr_ok r /\ type_is (r_ty r) (f_ty f) /\ (f_ty f = DCustom -> attr_bits r <> None) /\
  access_matches r (f_access f) /\ (reserved_decl r -> last_arg "access" r = None) /\
  (f_reserved f = true <-> reserved_decl r).
Proof.
  intros H Hi. unfold core in H. pinv H a Ha. rewrite (ignored_spec r a Ha), Hi in H. cbv zeta in H.
  destruct (get_data_type (r_ty r)) as [d| |] eqn:Et; try discriminate. apply get_type_sound in Et.
  pinv H bits Hb. pinv H u Hu. pinv H u' Hu'. pinv H acc Hacc. injection H as <-. cbn [f_ty f_access f_reserved].
  pose proof (access_spec r a acc Ha Hacc) as [Hacc1 Hacc2].
  pose proof (attr_sound r a Ha) as [Hok Hs].
  split; [exact Hok|]. split; [exact Et|]. split; [|auto using reservedb_true].
  intros -> Hn. unfold get_field_bits in Hb.
  assert (E : match a with Some bt => bt_bits bt | None => None end = attr_bits r).
  { destruct a as [bt|]; [apply Hs|]. unfold attr_bits. now rewrite Hs. }
  rewrite E, Hn in Hb. discriminate.
Qed.

(** A valid field is accepted. *)

Lemma core_complete m bv r d : field_valid r d -> no_i128_min r -> ignoredb r = false ->
  exists f, core m bv r = POk f /\ f_ty f = d /\ f_bits f = width r d.
Proof.
  intros (Hattr & Ht & Hcust & Hw & Hhold & Hdef & Hres) Hmin Hi.
  destruct (attr_complete r Hattr) as [a Ha]. unfold core. rewrite Ha. cbn [pbind].
  rewrite (ignored_spec r a Ha), Hi. cbv zeta. rewrite (get_type_complete _ _ Ht).
  pose proof (attr_sound r a Ha) as [_ Hs].
  assert (E : match a with Some bt => bt_bits bt | None => None end = attr_bits r).
  { destruct a as [bt|]; [apply Hs|]. unfold attr_bits. now rewrite Hs. }
  assert (Hb : get_field_bits m a d = POk (width r d)).
  { unfold get_field_bits, width. rewrite E. destruct (attr_bits r) eqn:En; [reflexivity|].
    unfold width in Hw. rewrite En in Hw.
    assert (Hn : d <> DCustom) by (intro; now apply Hcust).
    rewrite bit_size_ok by (assumption || lia). destruct d; try reflexivity. congruence. }
  rewrite Hb. cbn [pbind]. unfold check_bits. rewrite (proj2 (Z.eqb_neq _ _)) by lia. cbn [pbind].
  assert (Hchk : match d with
                 | DInteger _ => _ <~ check_default m a (width r d) d ;; check_can_hold m a (width r d) d
                 | _ => POk tt end = POk tt).
  { destruct d as [t|n|]; try reflexivity.
    assert (H1 : check_default m a (width r (DInteger t)) (DInteger t) = POk tt).
    { destruct a as [bt|]; [|reflexivity]. destruct Hs as (_ & _ & _ & _ & Hd).
      destruct (last_of "default" (attr_args r)) as [text|] eqn:El.
      - destruct Hd as (c & Hc & Hd). destruct c as [number negative|].
        + apply (check_default_iff m t _ number negative); try assumption.
          * destruct t; cbn in Hhold; lia.
          * eapply const_range, Hc.
          * pose proof (Hdef text number negative El Hc) as Hr. split; [|left; exact Hr].
            intros ->. split; [apply Hr|]. intros ->. apply (Hmin text El Hc).
        + unfold check_default. rewrite Hd. reflexivity.
      - cbn in Hd. unfold check_default. rewrite Hd. reflexivity. }
    rewrite H1. cbn [pbind]. unfold check_can_hold. destruct a as [bt|]; [|reflexivity].
    cbn [bit_size of_outcome pbind]. rewrite (proj2 (Z.ltb_ge _ _)) by lia. reflexivity. }
  rewrite Hchk. cbn [pbind].
  assert (Hacc : exists x, get_access a (is_reserved_name (r_name r)) = POk x).
  { unfold get_access. destruct a as [bt|]; [|eauto]. destruct Hs as (_ & _ & _ & Hs & _).
    destruct (is_reserved_name (r_name r)) eqn:Er.
    - assert (Hx : last_arg "access" r = None) by (apply Hres; now apply reservedb_true).
      unfold last_arg in Hx. rewrite Hx in Hs. destruct Hs as [-> _]. cbn.
      destruct (ba_default (bt_args bt)); eauto.
    - rewrite andb_false_r. destruct (ba_default (bt_args bt)); eauto. }
  destruct Hacc as [x ->]. cbn [pbind]. eexists. split; [reflexivity|]. auto.
Qed.
Lemma core_ignored_complete m bv r d : attr_ok r -> ignoredb r = true -> type_is (r_ty r) d ->
  exists f, core m bv r = POk f.
Proof.
  intros Ha Hi Ht. destruct (attr_complete r Ha) as [a E]. unfold core. rewrite E. cbn [pbind].
  rewrite (ignored_spec r a E), Hi. unfold parse_ignored. rewrite (get_type_complete _ _ Ht). eauto.
Qed.
