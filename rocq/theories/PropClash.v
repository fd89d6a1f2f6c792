(** C35: exactly when two generated associated items have the same name. *)
From Coq Require Import ZArith List Bool String Ascii Lia.
From Verif Require Import RustInt Syntax ConstExpr Words Parser Spec SpecDecl ParserLemmas ParserLoop PropArgs PropParse
  Surface SpecSurface SurfaceLemmas PropSurface PropNames.
Import ListNotations.
Open Scope string_scope.

(** ** What has to be avoided *)

(** Functions of the whole bitfield that are generated. *)
Definition offered (F : features) (args : list (string * string)) (ty : dtype) (n : string) : Prop :=
  switch_on F args "new" "generate_new" "disable_new" /\ In n new_api \/
  switch_on F args "from_into_bits" "generate_from_into_bits" "disable_from_into_bits" /\ In n (conversion_api ty) \/
  bit_ops_on F args /\ In n (write_api ty) \/
  set_get_documented F args /\ In n (set_get_api ty) \/
  clear_documented F args /\ In n (clear_api ty) \/
  invert_documented F args /\ In n (invert_api ty).

(** One of the items of field [x] has the name of such a function. *)
Definition takes_function (F : features) (args : list (string * string)) (ty : dtype) (x : rfield) : Prop :=
  read_decl x /\ offered F args ty (r_name x) \/
  write_decl x /\
  (set_get_documented F args /\ In (r_name x) ["bit"; units ty ++ "_range"] \/
   clear_documented F args /\ In (r_name x) [units ty; units ty ++ "_with_defaults"] \/
   invert_documented F args /\ r_name x = units ty).

(** The prefixes of the functions that change a field. *)
Definition verbs : list (role * string) :=
  [(RSetter, "set"); (RCheckedSetter, "checked_set"); (RClear, "clear"); (RInvert, "invert")].

(** One of the items of field [x] has the name of one of the items of field [y]. *)
Inductive clash (F : features) (args : list (string * string)) (x y : rfield) : Prop :=
| ClashCase :   (* names equal up to case *)
    item_expected F args RWidth x -> item_expected F args RWidth y ->
    capitals (r_name x) = capitals (r_name y) -> clash F args x y
| ClashGetter (ro : role) :   (* y is called like an item of x *)
    item_expected F args ro x -> read_decl y -> r_name y = documented_name ro (r_name x) -> clash F args x y
| ClashDefault :   (* clear_A_to_default *)
    item_expected F args RClearDefault x -> write_decl y -> r_name y = r_name x ++ "_to_default" -> clash F args x y
| ClashInverted (ro : role) (verb q : string) :   (* set_A_inverted *)
    item_expected F args RInverted x -> item_expected F args ro y -> In (ro, verb) verbs ->
    r_name x = verb ++ "_" ++ q -> r_name y = q ++ "_inverted" -> clash F args x y
| ClashVerb (ro : role) (verb : string) :   (* set_inverted *)
    item_expected F args RInverted x -> item_expected F args ro y -> In (ro, verb) verbs ->
    r_name x = verb -> r_name y = "inverted" -> clash F args x y.

(** ** Equal names *)

Definition link (ro : role) (a : string) (ro' : role) (b : string) : Prop :=
  (ro' = RGetter /\ ro <> RGetter /\ b = role_name ro a) \/
  (ro = RClearDefault /\ ro' = RClear /\ b = a ++ "_to_default") \/
  (ro = RInverted /\ exists verb, In (ro', verb) verbs /\
     ((exists q, a = verb ++ "_" ++ q /\ b = q ++ "_inverted") \/ (a = verb /\ b = "inverted"))).

Lemma inverted_split ro verb a b : In (ro, verb) verbs -> (verb ++ "_") ++ b = a ++ "_inverted" ->
  (exists q, a = verb ++ "_" ++ q /\ b = q ++ "_inverted") \/ (a = verb /\ b = "inverted").
Proof.
  intros Hv H. apply app_split in H as [(r & -> & ->)|(r & Hr & E & H)].
  - left. exists r. split; [apply app_assoc_s|reflexivity].
  - right. destruct Hv as [Hv|[Hv|[Hv|[Hv|[]]]]]; injection Hv as <- <-; cbn in E;
      repeat (destruct a as [|? a]; cbn in E; [subst r; cbn in H; first [discriminate H|injection H as <-; auto|congruence]|
        first [discriminate E|injection E as <- E]]).
Qed.

Lemma role_name_cases ro ro' a b : In ro field_roles -> In ro' field_roles -> role_name ro a = role_name ro' b ->
  (ro = ro' /\ (a = b \/ (ro = RWidth \/ ro = ROffset) /\ uppercase a = uppercase b)) \/ link ro a ro' b \/ link ro' b ro a.
Proof.
  intros Hr Hr' H.
  assert (Inv : forall r v x y, In (r, v) verbs -> (v ++ "_") ++ x = y ++ "_inverted" -> link RInverted y r x).
  { intros r v x y Hv E. right. right. split; [reflexivity|]. exists v. split; [exact Hv|]. exact (inverted_split r v y x Hv E). }
  unfold field_roles in *.
  destruct Hr as [<-|[<-|[<-|[<-|[<-|[<-|[<-|[<-|[<-|[]]]]]]]]]];
    destruct Hr' as [<-|[<-|[<-|[<-|[<-|[<-|[<-|[<-|[<-|[]]]]]]]]]]; cbn [role_name] in H;
    try discriminate H;
    try (left; split; [reflexivity|]; right; split; [tauto|apply app_inj_tail in H; exact H]);
    try (left; split; [reflexivity|]; left; exact H);
    try (left; split; [reflexivity|]; left; cbn in H; injection H as H; exact H);
    try (left; split; [reflexivity|]; left; apply app_inj_tail in H; exact H);
    try (right; left; left; split; [reflexivity|]; split; [discriminate|]; symmetry; exact H);
    try (right; right; left; split; [reflexivity|]; split; [discriminate|]; exact H);
    try (exfalso; apply (f_equal lastc) in H; rewrite !lastc_app in H; discriminate H);
    try (exfalso; apply upper_head in H; cbn in H; lia);
    try (exfalso; symmetry in H; apply upper_head in H; cbn in H; lia).
  all: try (right; right; first [apply (Inv _ "set"); [cbn; tauto|exact H] | apply (Inv _ "checked_set"); [cbn; tauto|exact H]
    | apply (Inv _ "clear"); [cbn; tauto|exact H] | apply (Inv _ "invert"); [cbn; tauto|exact H]]).
  all: try (right; left; symmetry in H; first [apply (Inv _ "set"); [cbn; tauto|exact H] | apply (Inv _ "checked_set"); [cbn; tauto|exact H]
    | apply (Inv _ "clear"); [cbn; tauto|exact H] | apply (Inv _ "invert"); [cbn; tauto|exact H]]).
  - right. right. right. left. split; [reflexivity|]. split; [reflexivity|]. cbn in H. injection H as H. exact H.
  - right. left. right. left. split; [reflexivity|]. split; [reflexivity|]. cbn in H. injection H as H. symmetry. exact H.
  - left. split; [reflexivity|]. left. cbn in H. injection H as H. apply app_inj_tail in H. exact H.
  - rewrite <- app_assoc_s in H. apply (f_equal lastc) in H. rewrite !lastc_app in H. discriminate H.
  - rewrite <- app_assoc_s in H. apply (f_equal lastc) in H. rewrite !lastc_app in H. discriminate H.
Qed.

(** An item is never linked to an item of the same field. *)
Lemma len_app a b : String.length (a ++ b) = (String.length a + String.length b)%nat.
Proof. induction a as [|c a IH]; [reflexivity|]. cbn. now rewrite IH. Qed.
Lemma len_upper a : String.length (uppercase a) = String.length a.
Proof.
  unfold uppercase. induction a as [|c a IH]; [reflexivity|]. cbn in *. now rewrite IH.
Qed.
Lemma link_names ro ro' a b : In ro field_roles -> link ro a ro' b -> a <> b.
Proof.
  intros Hr H E. subst b. destruct H as [(_ & Hn & H)|[(_ & _ & H)|(_ & v & Hv & [(q & H1 & H2)|[H1 H2]])]].
  - apply (f_equal String.length) in H.
    destruct Hr as [<-|[<-|[<-|[<-|[<-|[<-|[<-|[<-|[<-|[]]]]]]]]]]; try congruence; cbn [role_name] in H;
      repeat rewrite ?len_app, ?len_upper in H; cbn in H; lia.
  - apply (f_equal String.length) in H. rewrite len_app in H. cbn in H. lia.
  - rewrite H1 in H2. apply (f_equal String.length) in H2. rewrite !len_app in H2.
    destruct Hv as [Hv|[Hv|[Hv|[Hv|[]]]]]; injection Hv as _ <-; cbn in H2; lia.
  - subst a. destruct Hv as [Hv|[Hv|[Hv|[Hv|[]]]]]; injection Hv as _ <-; discriminate.
Qed.

(** ** Items of the declared fields *)
Lemma switch_dec F args k on off : switch_on F args k on off \/ ~ switch_on F args k on off.
Proof. unfold switch_on. destruct (switch_value _ _ _); [left; reflexivity|right; discriminate]. Qed.
Lemma documented_dec F args k on off : documented F args k on off \/ ~ documented F args k on off.
Proof.
  unfold documented, bit_ops_on. pose proof (switch_dec F args k on off) as Hk.
  pose proof (switch_dec F args "bit_ops" "generate_bit_ops" "disable_bit_ops") as Hb.
  assert (Hv : last_of k args = Some "true" \/ last_of k args <> Some "true").
  { destruct (last_of k args) as [v|]; [|right; discriminate].
    destruct (string_dec v "true") as [->|Hv]; [left; reflexivity|right; congruence]. }
  tauto.
Qed.
Section Items.
  Context (m : mode) (F : features) (d : rdecl) (bf : bitfield) (s : surface).
  Hypothesis Hp : parse_bitfield m F d = POk bf.
  Hypothesis Hs : generate bf = Val s.

  Lemma active_pair x : In x (active d) -> exists k f, nth_pair d bf k x f.
  Proof.
    intros Hx. apply In_nth_error in Hx as (k & Hk). pose proof (Forall2_len _ _ _ (parse_core m F d bf Hp)) as L.
    destruct (nth_error (b_fields bf) k) as [f|] eqn:E.
    - exists k, f. split; assumption.
    - apply nth_error_None in E. assert (k < List.length (active d))%nat by (apply nth_error_Some; congruence). lia.
  Qed.
  Lemma expected_item x ro : In x (active d) -> item_expected F (d_args d) ro x ->
    exists it f, In it (s_impl s) /\ it_field it = Some f /\ it_role it = ro /\ f_name f = r_name x /\
      it_name it = documented_name ro (r_name x).
  Proof.
    intros Hx He. destruct (active_pair x Hx) as (k & f & Hk).
    destruct (proj2 (C34_items m F d bf s k x f ro Hp Hs Hk) He) as (it & Hi & <- & Hf).
    exists it, f. split; [exact Hi|]. split; [exact Hf|]. split; [reflexivity|].
    destruct (pair_shape m F d bf k x f Hp Hk) as (En & _). split; [exact En|].
    destruct (C34_names m F d bf s it f Hp Hs Hi Hf) as (k' & r & Hk' & _ & _ & E).
    destruct (pair_shape m F d bf k' r f Hp Hk') as (En' & _). rewrite E. congruence.
  Qed.
  Lemma item_field it f : In it (s_impl s) -> it_field it = Some f ->
    exists x, In x (active d) /\ f_name f = r_name x /\ item_expected F (d_args d) (it_role it) x /\
      it_name it = documented_name (it_role it) (r_name x).
  Proof.
    intros Hi Hf. destruct (C34_names m F d bf s it f Hp Hs Hi Hf) as (k & x & Hk & _ & _ & E). exists x.
    split; [destruct Hk as [Hk _]; eapply nth_error_In, Hk|].
    destruct (pair_shape m F d bf k x f Hp Hk) as (En & _). split; [exact En|]. split; [|exact E].
    apply (C34_items m F d bf s k x f _ Hp Hs Hk). exists it. auto.
  Qed.
  Lemma offered_iff n : offered F (d_args d) (b_ty bf) n <-> has_function (s_impl s) n.
  Proof.
    destruct (C36_groups m F d bf s Hp Hs) as (A1 & B1 & A2 & B2 & A3 & B3).
    destruct (C36_write_actual m F d bf s Hp Hs) as (A4 & B4).
    destruct (C56_functions m F d bf s Hp Hs) as (A5 & B5 & A6 & B6 & G).
    unfold offered. split.
    - intros [[K I]|[[K I]|[[K I]|[[K I]|[[K I]|[K I]]]]]];
        [exact (A5 K n I)|exact (A6 K n I)|exact (A4 K n I)|exact (A2 K n I)|exact (A1 K n I)|exact (A3 K n I)].
    - intros Hf. pose proof Hf as (it & Hi & _ & Hn & <-). apply G in Hi as [_ Hi]; [|exact Hn]. cbn [List.concat groups] in Hi.
      rewrite !in_app_iff in Hi. 
      pose proof (switch_dec F (d_args d)) as S. pose proof (documented_dec F (d_args d)) as T.
      assert (D : forall P : Prop, (P \/ ~ P) -> (~ P -> False) -> P)
        by (intros P [K|K] N; [exact K|destruct (N K)]).
      destruct Hi as [Hi|[Hi|[Hi|[Hi|[Hi|[Hi|[]]]]]]].
      + left. split; [|exact Hi]. apply D; [apply S|]. intros K. exact (B5 K _ Hi Hf).
      + right; left. split; [|exact Hi]. apply D; [apply S|]. intros K. exact (B6 K _ Hi Hf).
      + do 2 right; left. split; [|exact Hi]. apply D; [apply S|]. intros K. exact (B4 K _ Hi Hf).
      + do 3 right; left. split; [|exact Hi]. apply D; [apply T|]. intros K. exact (B2 K _ Hi Hf).
      + do 4 right; left. split; [|exact Hi]. apply D; [apply T|]. intros K. exact (B1 K _ Hi Hf).
      + do 5 right. split; [|exact Hi]. apply D; [apply T|]. intros K. exact (B3 K _ Hi Hf).
  Qed.
End Items.

Lemma documented_role ro x : documented_name ro x = role_name ro x.
Proof. destruct ro; cbn [documented_name role_name]; rewrite ?capitals_uppercase; reflexivity. Qed.
Lemma expected_role F args ro x : item_expected F args ro x -> In ro field_roles.
Proof. destruct ro; cbn [item_expected field_roles In]; tauto. Qed.

(** A field's item against a function of the whole bitfield. *)
Lemma takes_iff F args ty x : ty <> DCustom ->
  takes_function F args ty x <-> exists ro, item_expected F args ro x /\ offered F args ty (documented_name ro (r_name x)).
Proof.
  intros Hty. split.
  - intros [[H1 H2]|[H1 [[H2 H3]|[[H2 H3]|[H2 H3]]]]].
    + exists RGetter. split; assumption.
    + exists RSetter. split; [exact H1|]. do 3 right; left. split; [exact H2|]. cbn [documented_name].
      destruct H3 as [<-|[<-|[]]]; destruct ty; cbn; tauto.
    + exists RClear. split; [split; assumption|]. do 4 right; left. split; [exact H2|]. cbn [documented_name].
      destruct H3 as [<-|[<-|[]]]; destruct ty; cbn; tauto.
    + exists RInvert. split; [split; assumption|]. do 5 right. split; [exact H2|]. cbn [documented_name]. rewrite H3. left. reflexivity.
  - intros (ro & He & Ho). pose proof (expected_role F args ro x He) as Hr.
    assert (W : forall P : Prop, item_expected F args ro x -> ro <> RGetter -> ro <> RWidth -> ro <> ROffset -> ro <> RInverted ->
       (write_decl x -> P) -> P).
    { intros P K N1 N2 N3 N4 HP. destruct ro; cbn [item_expected] in K; try congruence; apply HP; tauto. }
    unfold takes_function.
    rewrite documented_role in Ho. remember (r_name x) as n eqn:En.
    destruct Hr as [<-|[<-|[<-|[<-|[<-|[<-|[<-|[<-|[<-|[]]]]]]]]]]; cbn [role_name] in Ho.
    3: left; split; [exact He|exact Ho].
    all: unfold offered in Ho.
    all: destruct Ho as [[K I]|[[K I]|[[K I]|[[K I]|[[K I]|[K I]]]]]].
    all: try (exfalso; apply (lastc_in "S"%char) in I; [|apply lastc_app]; destruct ty as [t|k|]; [| |congruence]; vm_compute in I; discriminate I).
    all: try (exfalso; apply (lastc_in "T"%char) in I; [|apply lastc_app]; destruct ty as [t|k|]; [| |congruence]; vm_compute in I; discriminate I).
    all: try (exfalso; apply (lastc_in "d"%char) in I; [|apply lastc_app]; destruct ty as [t|k|]; [| |congruence]; vm_compute in I; discriminate I).
    all: try (exfalso; rewrite <- app_assoc_s in I; apply (lastc_in "t"%char) in I; [|apply lastc_app]; destruct ty as [t|k|]; [| |congruence]; vm_compute in I; discriminate I).
    all: apply strip_in in I; destruct ty as [t|k|]; [| |congruence]; vm_compute in I; cbn [In] in I.
    all: try (exfalso; exact I).
    all: try (right; split; [apply (W _ He); try discriminate; tauto|]).
    all: cbn [units In append] in *.
    all: repeat (destruct I as [I|I]; [rewrite <- I; clear -K; tauto|]).
    all: exfalso; assumption.
Qed.

Lemma NoDup_name l x y : NoDup (map it_name l) -> In x l -> In y l -> it_name x = it_name y -> x = y.
Proof.
  induction l as [|z l IH]; intros Hn Hx Hy E; [destruct Hx|]. cbn [map] in Hn. inversion Hn as [|? ? Hz Hl]; subst.
  destruct Hx as [->|Hx], Hy as [->|Hy]; [reflexivity| | |auto].
  - exfalso. apply Hz. rewrite E. apply in_map, Hy.
  - exfalso. apply Hz. rewrite <- E. apply in_map, Hx.
Qed.

(** The names are distinct exactly if no field takes the name of a function of the
    whole bitfield and no two fields clash. *)
Theorem C35_exact m F d bf s : parse_bitfield m F d = POk bf -> generate bf = Val s ->
  (NoDup (names_of (s_impl s)) <->
   (forall x, In x (active d) -> ~ takes_function F (d_args d) (b_ty bf) x) /\
   (forall x y, In x (active d) -> In y (active d) -> r_name x <> r_name y -> ~ clash F (d_args d) x y)).
Proof.
  intros Hp Hs.
  assert (Ht : b_ty bf <> DCustom).
  { apply parse_iff in Hp as (ty & args & fs0 & new & Ha & _ & _ & _ & _ & _ & ->). apply attribute_inv in Ha. tauto. }
  unfold names_of. split.
  - intros Hn. split.
    + intros x Hx Hk. apply takes_iff in Hk as (ro & He & Ho); [|exact Ht].
      destruct (expected_item m F d bf s Hp Hs x ro Hx He) as (it & f & Hi & Hf & _ & _ & E).
      apply (offered_iff m F d bf s Hp Hs) in Ho as (it' & Hi' & _ & Hf' & E').
      assert (it = it') by (apply (NoDup_name (s_impl s)); congruence). congruence.
    + intros x y Hx Hy Hxy Hc.
      assert (K : forall ro ro', item_expected F (d_args d) ro x -> item_expected F (d_args d) ro' y ->
                documented_name ro (r_name x) = documented_name ro' (r_name y) -> False).
      { intros ro ro' He He' E.
        destruct (expected_item m F d bf s Hp Hs x ro Hx He) as (it & f & Hi & Hf & _ & Nf & En).
        destruct (expected_item m F d bf s Hp Hs y ro' Hy He') as (it' & f' & Hi' & Hf' & _ & Nf' & En').
        assert (it = it') by (apply (NoDup_name (s_impl s)); congruence). congruence. }
      destruct Hc as [H1 H2 H3|ro H1 H2 H3|H1 H2 H3|ro verb q H1 H2 Hv H3 H4|ro verb H1 H2 Hv H3 H4].
      * apply (K RWidth RWidth H1 H2). cbn [documented_name]. rewrite H3. reflexivity.
      * apply (K ro RGetter H1 H2). symmetry. exact H3.
      * apply (K RClearDefault RClear H1 (conj H2 (proj2 (proj2 H1)))). cbn [documented_name]. rewrite H3. reflexivity.
      * apply (K RInverted ro H1 H2). rewrite H3, H4. cbn [documented_name].
        destruct Hv as [Hv|[Hv|[Hv|[Hv|[]]]]]; injection Hv as <- <-; cbn [documented_name]; rewrite !app_assoc_s; reflexivity.
      * apply (K RInverted ro H1 H2). rewrite H3, H4.
        destruct Hv as [Hv|[Hv|[Hv|[Hv|[]]]]]; injection Hv as <- <-; reflexivity.
  - intros [Hw Hc]. apply (NoDup_inj it_name key).
    2: { rewrite (generate_impl bf s Hs). apply impl_keys. rewrite (named_names m F d bf Hp). exact (named_nodup m F d bf Hp). }
    assert (L : forall x y ro ro', In x (active d) -> In y (active d) -> item_expected F (d_args d) ro x ->
      item_expected F (d_args d) ro' y -> link ro (r_name x) ro' (r_name y) -> False).
    { intros x y ro ro' Hx Hy He He' Hl.
      apply (Hc x y Hx Hy (link_names ro ro' _ _ (expected_role _ _ _ _ He) Hl)).
      destruct Hl as [(-> & _ & E)|[(-> & -> & E)|(-> & verb & Hv & [(q & E & E')|[E E']])]].
      - eapply ClashGetter; [exact He|exact He'|]. rewrite documented_role. exact E.
      - apply ClashDefault; [exact He|exact (proj1 He')|exact E].
      - eapply ClashInverted; eassumption.
      - eapply ClashVerb; eassumption. }
    assert (W : forall it it' f, In it (s_impl s) -> In it' (s_impl s) -> it_field it = Some f -> it_field it' = None ->
      it_name it = it_name it' -> False).
    { intros it it' f Hi Hi' Hf Hf' E. destruct (item_field m F d bf s Hp Hs it f Hi Hf) as (x & Hx & _ & He & En).
      apply (Hw x Hx). apply takes_iff; [exact Ht|]. exists (it_role it). split; [exact He|].
      rewrite <- En, E. apply (offered_iff m F d bf s Hp Hs). exists it'.
      split; [exact Hi'|]. split; [|auto]. rewrite (generate_impl bf s Hs) in Hi'.
      destruct (proj1 (impl_list_whole bf it') (conj Hi' Hf')) as (n & _ & ->). reflexivity. }
    intros x y Hx Hy E. unfold key, label.
    destruct (it_field x) as [f|] eqn:Ef, (it_field y) as [g|] eqn:Eg.
    + destruct (item_field m F d bf s Hp Hs x f Hx Ef) as (rx & Hrx & Nx & Hex & Ex).
      destruct (item_field m F d bf s Hp Hs y g Hy Eg) as (ry & Hry & Ny & Hey & Ey).
      rewrite Ex, Ey, !documented_role in E. rewrite Nx, Ny.
      destruct (role_name_cases _ _ _ _ (expected_role _ _ _ _ Hex) (expected_role _ _ _ _ Hey) E) as [[Er H]|[H|H]].
      * rewrite Er. f_equal. destruct H as [H|[H1 H2]]; [exact H|].
        destruct (string_dec (r_name rx) (r_name ry)) as [Eq|Ne]; [exact Eq|]. exfalso.
        apply (Hc rx ry Hrx Hry Ne). apply ClashCase; [| |rewrite !capitals_uppercase; exact H2].
        -- destruct H1 as [H1|H1]; rewrite H1 in Hex; exact Hex.
        -- destruct H1 as [H1|H1]; rewrite Er in H1; rewrite H1 in Hey; exact Hey.
      * destruct (L rx ry _ _ Hrx Hry Hex Hey H).
      * destruct (L ry rx _ _ Hry Hrx Hey Hex H).
    + destruct (W x y f Hx Hy Ef Eg E).
    + destruct (W y x g Hy Hx Eg Ef (eq_sym E)).
    + rewrite (generate_impl bf s Hs) in Hx, Hy.
      destruct (proj1 (impl_list_whole bf x) (conj Hx Ef)) as (n & _ & ->).
      destruct (proj1 (impl_list_whole bf y) (conj Hy Eg)) as (n' & _ & ->). cbn in E. now subst.
Qed.

(** [x] and [x_inverted] clash unless [x] is write-only; [set] and [inverted] clash. *)
Definition inverted_decl (access : string) : rdecl :=
  mkRDecl true VisPublic "P" (Some (RPath "u16")) []
    [vis_fld VisPublic "x" (AList RNoBits [("access", access)]); vis_fld VisPublic "x_inverted" ANone].
Example C35_exact_ex :
  (exists x y, active (inverted_decl "rw") = [x; y] /\ clash no_feature [] x y) /\
  (forall x y, In x (active (inverted_decl "wo")) -> In y (active (inverted_decl "wo")) -> r_name x <> r_name y ->
     ~ clash no_feature [] x y) /\
  (exists s, surface_of no_feature (inverted_decl "wo") = Some s /\ In "x_inverted" (names_of (s_impl s)) /\ NoDup (names_of (s_impl s))) /\
  (exists x y, active (pair_decl "set" "inverted") = [x; y] /\ clash no_feature [] x y).
Proof.
  assert (NR : forall a attr, String.prefix "_" a = false -> ~ reserved_decl (vis_fld VisPublic a attr)).
  { intros a attr E R. apply reservedb_true in R. cbn [vis_fld r_name] in R. rewrite <- underscore_name in R. congruence. }
  assert (NI : invert_documented no_feature []).
  { left. split; vm_compute; reflexivity. }
  split; [|split; [|split]].
  - eexists. eexists. split; [vm_compute; reflexivity|]. apply (ClashGetter _ _ _ _ RInverted).
    + split; [|exact NI]. split; [apply NR; reflexivity|]. right. vm_compute. tauto.
    + split; [apply NR; reflexivity|]. right. vm_compute. reflexivity.
    + reflexivity.
  - destruct (parse_bitfield Checked no_feature (inverted_decl "wo")) as [bf| |] eqn:E; try (vm_compute in E; discriminate E).
    destruct (generate bf) as [s|] eqn:Es; [|vm_compute in E; injection E as <-; vm_compute in Es; discriminate Es].
    apply (C35_exact Checked no_feature (inverted_decl "wo") bf s E Es).
    vm_compute in E. injection E as <-. vm_compute in Es. injection Es as <-. apply nodupb_spec. vm_compute. reflexivity.
  - eexists. split; [vm_compute; reflexivity|]. split; [vm_compute; tauto|]. apply nodupb_spec. vm_compute. reflexivity.
  - eexists. eexists. split; [vm_compute; reflexivity|]. eapply (ClashVerb _ _ _ _ RSetter "set").
    + split; [|exact NI]. split; [apply NR; reflexivity|]. right. vm_compute. reflexivity.
    + split; [apply NR; reflexivity|]. right. vm_compute. reflexivity.
    + left. reflexivity.
    + reflexivity.
    + reflexivity.
Qed.
