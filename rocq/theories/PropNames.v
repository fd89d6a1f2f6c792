(** Theorems about the names of generated items (C35, C55). *)
From Coq Require Import ZArith List Bool String Ascii Lia Arith.
From Verif Require Import RustInt Syntax ConstExpr Words Parser Spec SpecDecl ParserLemmas ParserLoop PropArgs PropParse
  Surface SpecSurface SurfaceLemmas PropSurface.
Import ListNotations.
Open Scope string_scope.

(** ** Strings *)
Notation la := list_ascii_of_string.
Lemma la_app a b : la (a ++ b) = (la a ++ la b)%list.
Proof. induction a as [|c a IH]; [reflexivity|]. cbn. now rewrite IH. Qed.
Lemma la_inj a b : la a = la b -> a = b.
Proof. intro H. rewrite <- (string_of_list_ascii_of_string a), H. apply string_of_list_ascii_of_string. Qed.
Lemma la_upper a : la (uppercase a) = map upper (la a).
Proof. apply list_ascii_of_string_of_list_ascii. Qed.
Lemma app_assoc_s a b c : (a ++ b) ++ c = a ++ (b ++ c).
Proof. induction a as [|x a IH]; [reflexivity|]. cbn. now rewrite IH. Qed.
Lemma app_inj_tail a b c : a ++ c = b ++ c -> a = b.
Proof. intro H. apply (f_equal la) in H. rewrite !la_app in H. apply app_inv_tail in H. now apply la_inj. Qed.
Definition lastc (s : string) : ascii := last (la s) "000"%char.
Lemma lastc_app a c b : lastc (a ++ String c b) = lastc (String c b).
Proof.
  unfold lastc. rewrite la_app. cbn [list_ascii_of_string]. generalize (la a) (la b). intros l l'.
  induction l as [|x l IH]; [reflexivity|]. cbn [app last]. destruct (l ++ c :: l')%list eqn:E; [destruct l; discriminate|]. exact IH.
Qed.
(** Overlap of a prefix and a suffix. *)
Lemma app_split p : forall a b q, p ++ a = b ++ q ->
  (exists r, b = p ++ r /\ a = r ++ q) \/ (exists r, r <> "" /\ p = b ++ r /\ q = r ++ a).
Proof.
  induction p as [|c p IH]; intros a b q H.
  - left. exists b. auto.
  - destruct b as [|c' b]; cbn in H.
    + right. exists (String c p). split; [discriminate|]. auto.
    + injection H as -> H. apply IH in H as [(r & -> & ->)|(r & Hr & -> & ->)]; [left|right]; exists r; auto.
Qed.

(** ** Distinctness *)
Fixpoint nodupb (l : list string) : bool :=
  match l with [] => true | x :: t => negb (existsb (String.eqb x) t) && nodupb t end.
Lemma existsb_in x l : existsb (String.eqb x) l = true <-> In x l.
Proof.
  rewrite existsb_exists. split.
  - intros (y & Hy & E). apply String.eqb_eq in E. now subst.
  - intro H. exists x. split; [exact H|apply String.eqb_refl].
Qed.
Lemma nodupb_spec l : nodupb l = true <-> NoDup l.
Proof.
  induction l as [|x l IH]; cbn [nodupb]; [split; [constructor|reflexivity]|].
  rewrite andb_true_iff, negb_true_iff, <- not_true_iff_false, existsb_in, IH.
  split; [intros []; now constructor|]. intro H. inversion H; auto.
Qed.
Lemma NoDup_inj {A B C} (f : A -> B) (g : A -> C) l :
  (forall x y, In x l -> In y l -> f x = f y -> g x = g y) -> NoDup (map g l) -> NoDup (map f l).
Proof.
  induction l as [|x l IH]; intros H Hn; cbn [map] in *; [constructor|]. inversion Hn as [|? ? Hx Hl]; subst.
  constructor; [|apply IH; [intros; apply H; auto using in_cons|exact Hl]].
  intro Hi. apply in_map_iff in Hi as (y & E & Hy). apply Hx. apply in_map_iff. exists y.
  split; [apply H; auto using in_eq, in_cons|exact Hy].
Qed.
Lemma NoDup_map_filter {A B} (f : A -> B) p l : NoDup (map f l) -> NoDup (map f (filter p l)).
Proof.
  induction l as [|x l IH]; intro H; [constructor|]. cbn [map filter] in *. inversion H as [|? ? Hx Hl]; subst.
  destruct (p x); [|auto]. cbn [map]. constructor; [|auto]. intro Hi. apply Hx.
  apply in_map_iff in Hi as (y & E & Hy). apply filter_In in Hy as [Hy _]. apply in_map_iff. eauto.
Qed.

(** ** Names against names *)
Definition field_roles : list role := [RWidth; ROffset; RGetter; RSetter; RCheckedSetter; RClear; RClearDefault; RInvert; RInverted].

Lemma no_start p s : plain s -> In p ["set_"; "checked_set_"; "clear_"; "invert_"] -> forall r, s <> p ++ r.
Proof. intros (H & _) Hp r E. apply (H p Hp). now exists r. Qed.
Lemma no_end p s : plain s -> In p ["_inverted"; "_to_default"; "_BITS"; "_OFFSET"] -> forall r, s <> r ++ p.
Proof. intros (_ & H & _) Hp r E. apply (H p Hp). now exists r. Qed.

Lemma upper_head x y c z : uppercase x ++ String "_" y = String c z -> (nat_of_ascii c < 97 \/ 122 < nat_of_ascii c)%nat.
Proof.
  destruct x as [|a x]; intro H; cbn in H.
  - injection H as <- _. cbn. lia.
  - injection H as <- _. destruct a as [[][][][][][][][]]; vm_compute; lia.
Qed.
(** A prefix name is never a suffix name. *)
Lemma prefix_inverted p a b : lastc p = "_"%char -> p ++ a = b ++ "_inverted" ->
  (forall r, b <> p ++ r) -> a <> "inverted" -> False.
Proof.
  intros Hp H Hb Ha. apply app_split in H as [(r & -> & _)|(r & Hr & -> & H)]; [now apply (Hb r)|].
  destruct r as [|c r]; [congruence|]. rewrite lastc_app in Hp. clear Hr Hb.
  cbn in H. injection H as <- H.
  repeat (destruct r as [|? r]; cbn in H; [try (discriminate Hp); try (now apply Ha)|injection H as <- H || discriminate H]).
Qed.

Ltac role_case Ha Hb H :=
  first
  [ discriminate H
  | exfalso; eapply (no_start _ _ Ha); [|exact H]; cbn; tauto
  | exfalso; eapply (no_start _ _ Hb); [|symmetry; exact H]; cbn; tauto
  | exfalso; eapply (no_end _ _ Ha); [|exact H]; cbn; tauto
  | exfalso; eapply (no_end _ _ Hb); [|symmetry; exact H]; cbn; tauto
  | exfalso; apply (f_equal lastc) in H; rewrite !lastc_app in H; discriminate H
  | exfalso; apply upper_head in H; cbn in H; lia
  | exfalso; symmetry in H; apply upper_head in H; cbn in H; lia ].

Lemma role_name_inj ro ro' a b : In ro field_roles -> In ro' field_roles -> plain a -> plain b ->
  role_name ro a = role_name ro' b -> ro = ro' /\ uppercase a = uppercase b.
Proof.
  intros Hr Hr' Ha Hb H.
  assert (Ia : a <> "inverted") by (intros ->; apply Ha; cbn; tauto).
  assert (Ib : b <> "inverted") by (intros ->; apply Hb; cbn; tauto).
  unfold field_roles in *.
  destruct Hr as [<-|[<-|[<-|[<-|[<-|[<-|[<-|[<-|[<-|[]]]]]]]]]];
    destruct Hr' as [<-|[<-|[<-|[<-|[<-|[<-|[<-|[<-|[<-|[]]]]]]]]]]; cbn [role_name] in H;
    try (split; [reflexivity|]);
    try (apply app_inj_tail in H; congruence);
    try (now subst);
    try (cbn in H; injection H as H; try apply app_inj_tail in H; congruence);
    try role_case Ha Hb H.
  all: try (exfalso; eapply (prefix_inverted _ _ _) in H; [exact H|reflexivity|intro; eapply (no_start _ _ Hb); cbn; tauto|exact Ia]).
  all: try (exfalso; symmetry in H; eapply (prefix_inverted _ _ _) in H; [exact H|reflexivity|intro; eapply (no_start _ _ Ha); cbn; tauto|exact Ib]).
  - cbn in H. injection H as H. role_case Ha Hb H.
  - cbn in H. injection H as H. role_case Ha Hb H.
  - rewrite <- app_assoc_s in H. role_case Ha Hb H.
  - rewrite <- app_assoc_s in H. role_case Ha Hb H.
Qed.

(** ** Names against the functions of the whole bitfield *)
Definition all_api (ty : dtype) : list string :=
  (new_api ++ conversion_api ty ++ write_api ty ++ set_get_api ty ++ clear_api ty ++ invert_api ty)%list.
Fixpoint strip (p s : string) : list string :=
  match p, s with
  | EmptyString, _ => [s]
  | String c p', String c' s' => if Ascii.eqb c c' then strip p' s' else []
  | _, EmptyString => []
  end.
Lemma strip_app p a : strip p (p ++ a) = [a].
Proof. induction p as [|c p IH]; [reflexivity|]. cbn. now rewrite Ascii.eqb_refl. Qed.
Lemma strip_in p a l : In (p ++ a) l -> In a (flat_map (strip p) l).
Proof. intro H. apply in_flat_map. exists (p ++ a). split; [exact H|]. rewrite strip_app. now left. Qed.
Lemma lastc_in c n l : In n l -> lastc n = c -> existsb (fun s => Ascii.eqb (lastc s) c) l = true.
Proof. intros H E. apply existsb_exists. exists n. split; [exact H|]. rewrite E. apply Ascii.eqb_refl. Qed.

Lemma role_not_api ty ro a : ty <> DCustom -> In ro field_roles -> plain a -> ~ In (role_name ro a) (all_api ty).
Proof.
  intros Hty Hr Ha H.
  assert (Hx : ~ In a ["inverted"; "bit"; "bits"; "bytes"; "bits_range"; "bytes_range"; "bits_with_defaults"; "bytes_with_defaults"])
    by apply Ha.
  assert (S : forall p, In (p ++ a) (all_api ty) -> In a (flat_map (strip p) (all_api ty))) by (intro; apply strip_in).
  assert (T : forall x c y, In (x ++ String c y) (all_api ty) ->
            existsb (fun s => Ascii.eqb (lastc s) (lastc (String c y))) (all_api ty) = true).
  { intros x c y Hi. eapply lastc_in; [exact Hi|]. apply lastc_app. }
  destruct Hr as [<-|[<-|[<-|[<-|[<-|[<-|[<-|[<-|[<-|[]]]]]]]]]]; cbn [role_name] in H.
  3: exact (proj2 (proj2 (proj2 Ha)) ty H).
  3-5,7: apply S in H; destruct ty as [t|k|]; [| |congruence]; vm_compute in H; cbn in Hx; intuition congruence.
  3: apply strip_in, (lastc_in "t"%char) in H; [|apply lastc_app].
  1,2,4: apply T in H.
  all: destruct ty as [t|k|]; [| |congruence]; vm_compute in H; discriminate H.
Qed.

(** ** Items by role *)
Definition role_eqb (a b : role) : bool := if (ltac:(decide equality) : {a = b} + {a <> b}) then true else false.
Lemma role_eqb_true a b : role_eqb a b = true <-> a = b.
Proof. destruct a, b; cbn; split; congruence. Qed.
Definition label (it : item) : string := match it_field it with Some f => f_name f | None => it_name it end.
Definition key (it : item) : role * string := (it_role it, label it).
Definition labels (ro : role) (l : list item) : list string := map label (filter (fun it => role_eqb (it_role it) ro) l).

Lemma NoDup_keys l : (forall ro, NoDup (labels ro l)) -> NoDup (map key l).
Proof.
  induction l as [|it l IH]; intro H; cbn [map]; [constructor|]. constructor.
  - intro Hi. apply in_map_iff in Hi as (it' & E & Hi'). injection E as E1 E2.
    specialize (H (it_role it)). unfold labels in H. cbn [filter] in H.
    rewrite (proj2 (role_eqb_true _ _) eq_refl) in H. cbn [map] in H. inversion H as [|? ? Hx _]; subst. apply Hx.
    apply in_map_iff. exists it'. split; [exact E2|]. apply filter_In. split; [exact Hi'|]. now apply role_eqb_true.
  - apply IH. intro ro. specialize (H ro). unfold labels in *. cbn [filter] in H.
    destruct (role_eqb (it_role it) ro); [|exact H]. now inversion H.
Qed.
Lemma labels_app ro a b : labels ro (a ++ b) = (labels ro a ++ labels ro b)%list.
Proof. unfold labels. now rewrite filter_app, map_app. Qed.
Lemma labels_seg ro b l : labels ro (seg b l) = if b then labels ro l else [].
Proof. now destruct b. Qed.
Lemma labels_whole ro bf names : labels ro (whole bf names) = if role_eqb RWhole ro then names else [].
Proof.
  unfold labels, whole. induction names as [|n t IH]; [now destruct (role_eqb RWhole ro)|]. cbn [map filter it_role].
  destruct (role_eqb RWhole ro); [|exact IH]. cbn [map label it_field it_name]. now rewrite IH.
Qed.
Lemma made_all_cons roles f t :
  made_all roles (f :: t) = (map (fun p => made (fst p) (snd p f) f) roles ++ made_all roles t)%list.
Proof. reflexivity. Qed.
Lemma labels_made ro r v f : labels ro [made r v f] = if role_eqb r ro then [f_name f] else [].
Proof. unfold labels. cbn [filter made it_role]. now destruct (role_eqb r ro). Qed.
Lemma labels_one ro r1 v1 fs : labels ro (made_all [(r1, v1)] fs) = if role_eqb r1 ro then map f_name fs else [].
Proof.
  induction fs as [|f t IH]; [now destruct (role_eqb r1 ro)|]. rewrite made_all_cons, labels_app, IH.
  cbn [map fst snd]. rewrite labels_made. now destruct (role_eqb r1 ro).
Qed.
Lemma labels_two ro r1 v1 r2 v2 fs : r1 <> r2 ->
  labels ro (made_all [(r1, v1); (r2, v2)] fs) = if role_eqb r1 ro || role_eqb r2 ro then map f_name fs else [].
Proof.
  intro Hne. assert (D : role_eqb r1 ro && role_eqb r2 ro = false).
  { apply not_true_iff_false. rewrite andb_true_iff, !role_eqb_true. intros [-> ->]. congruence. }
  induction fs as [|f t IH]; [now destruct (_ || _)|]. rewrite made_all_cons, labels_app, IH. cbn [map fst snd].
  change [?x; ?y] with ([x] ++ [y])%list. rewrite labels_app, !labels_made.
  destruct (role_eqb r1 ro), (role_eqb r2 ro); try discriminate; reflexivity.
Qed.

Lemma whole_list_api bf n : b_ty bf <> DCustom -> In n (whole_list bf) -> In n (all_api (b_ty bf)).
Proof.
  intros Hc. destruct (api_names bf Hc) as (E1 & E2 & E3 & E4 & E5). unfold whole_list, all_api. rewrite !in_app_iff.
  assert (K : forall (b : bool) (l g0 : list string), same_names l g0 -> In n (if b then l else []) -> In n g0).
  { intros b l g0 E Hx. destruct b; [now apply E|destruct Hx]. }
  intros [H|[H|[H|[H|[H|H]]]]].
  - left. eapply K; [|exact H]. intro; reflexivity.
  - right; left. eapply K; [exact E1|exact H].
  - do 2 right; left. eapply K; [exact E2|exact H].
  - do 3 right; left. eapply K; [exact E3|exact H].
  - do 4 right; left. eapply K; [exact E4|exact H].
  - do 5 right. eapply K; [exact E5|exact H].
Qed.
Lemma whole_list_nodup bf : NoDup (whole_list bf).
Proof.
  apply nodupb_spec. unfold whole_list, conversion_names, write_names, set_get_names, clear_names, invert_names, bob.
  destruct (a_new (b_args bf)), (a_from_into_bits (b_args bf)), (write_on bf), (set_get_on bf), (clear_on bf), (invert_on bf),
    (is_integer_backed bf); vm_compute; reflexivity.
Qed.

Definition nonres (f : field) : bool := negb (f_reserved f).
Lemma impl_keys bf : NoDup (map f_name (filter nonres (b_fields bf))) -> NoDup (map key (impl_list bf)).
Proof.
  intro H. apply NoDup_keys. intro ro.
  assert (S : forall c, (forall f, c f = true -> f_reserved f = false) -> NoDup (map f_name (filter c (b_fields bf)))).
  { intros c Hc. assert (E : filter c (b_fields bf) = filter c (filter nonres (b_fields bf))).
    { clear H. induction (b_fields bf) as [|f t IH]; [reflexivity|]. cbn [filter]. unfold nonres at 1.
      destruct (c f) eqn:Ec.
      - rewrite (Hc f Ec). cbn [negb filter]. rewrite Ec. now f_equal.
      - destruct (negb (f_reserved f)); [cbn [filter]; rewrite Ec|]; exact IH. }
    rewrite E. now apply NoDup_map_filter. }
  assert (C1 : forall f, has_setter f = true -> f_reserved f = false)
    by (intro f; unfold has_setter; destruct (f_reserved f); congruence).
  assert (C2 : forall f, has_getter f = true -> f_reserved f = false)
    by (intro f; unfold has_getter; destruct (f_reserved f); congruence).
  assert (C3 : forall f, has_constants f = true -> f_reserved f = false).
  { intros f Hf. unfold has_constants in Hf. apply orb_true_iff in Hf as [Hf|Hf]; auto. }
  assert (C4 : forall f, has_setter f && has_default f = true -> f_reserved f = false).
  { intros f Hf. apply andb_prop in Hf as [Hf _]. auto. }
  unfold impl_list. cbv zeta.
  repeat rewrite ?labels_app, ?labels_seg, ?labels_whole, ?labels_one, ?labels_two by discriminate.
  pose proof (whole_list_nodup bf) as W. unfold whole_list in W.
  destruct ro; cbn [role_eqb orb]; unfold role_eqb; cbn -[whole_list conversion_names write_names set_get_names clear_names invert_names new_names].
  12: { destruct (clear_on bf), (invert_on bf); rewrite ?app_nil_r in *; exact W. }
  all: clear W; repeat (match goal with |- context [if ?b then _ else _] => destruct b end; cbn [app]);
    rewrite ?app_nil_r; auto using NoDup_nil.
Qed.

(** ** Field names *)

(** The non-reserved fields that take part in the layout. *)
Definition named_fields (d : rdecl) : list rfield :=
  filter (fun r => negb (String.prefix "_" (r_name r))) (active d).
Lemma underscore_name s : String.prefix "_" s = is_reserved_name s.
Proof.
  destruct s as [|c s]; [reflexivity|]. cbn [String.prefix is_reserved_name].
  destruct (ascii_dec "_" c) as [<-|H]; [destruct s; reflexivity|]. symmetry. apply Ascii.eqb_neq. congruence.
Qed.
Lemma named_eq d : named_fields d = filter (fun r => negb (is_reserved_name (r_name r))) (active d).
Proof. unfold named_fields. apply filter_ext. intro r. now rewrite underscore_name. Qed.
Lemma named_names m F d bf : parse_bitfield m F d = POk bf ->
  map f_name (filter nonres (b_fields bf)) = map r_name (named_fields d).
Proof.
  intro H. apply parse_core in H. rewrite named_eq.
  induction H as [|r f rs fs (f0 & Hc & Hi & E) _ IH]; [reflexivity|]. cbn [filter].
  destruct (core_reserved _ _ _ _ Hc) as [Hr Hn]. rewrite Hi in Hr. cbn [negb andb] in Hr.
  assert (Er : f_reserved f = is_reserved_name (r_name r)) by (rewrite E; exact Hr).
  assert (En : f_name f = r_name r) by (rewrite E; exact Hn).
  unfold nonres at 1. rewrite Er. destruct (is_reserved_name (r_name r)); cbn [negb map]; [exact IH|].
  now rewrite IH, En.
Qed.
Lemma named_nodup m F d bf : parse_bitfield m F d = POk bf -> NoDup (map r_name (named_fields d)).
Proof.
  intro H. apply parse_iff in H as (ty & args & fs0 & new & _ & _ & Hn & _).
  apply (names_ok_filter (fun r => negb (ignoredb r))) in Hn. fold (active d) in Hn. rewrite named_eq.
  apply (names_ok_filter (fun r => negb (is_reserved_name (r_name r)))) in Hn.
  assert (Hr : forall r, In r (filter (fun r => negb (is_reserved_name (r_name r))) (active d)) -> ~ reserved_decl r).
  { intros r Hr Hx. apply filter_In in Hr as [_ Hr]. apply reservedb_true in Hx. rewrite Hx in Hr. discriminate. }
  revert Hn Hr. generalize (filter (fun r => negb (is_reserved_name (r_name r))) (active d)). intros l Hn Hr.
  induction l as [|r l IH]; [constructor|]. cbn [map]. apply names_ok_cons in Hn as [Hl Hd]. constructor.
  - intro Hi. apply in_map_iff in Hi as (r' & E & Hi'). specialize (Hd r' Hi' (eq_sym E)).
    apply keeps_false in Hd as [Hd _]. apply (Hr r); [now left|exact Hd].
  - apply IH; [exact Hl|]. intros r' Hr'. apply Hr. now right.
Qed.

(** ** C35 *)

(** With plain field names, distinct also when case is ignored, the names of the
    generated associated items are distinct. *)
Theorem C35_plain m F d bf s : parse_bitfield m F d = POk bf -> generate bf = Val s ->
  (forall r, In r (named_fields d) -> plain (r_name r)) ->
  NoDup (map (fun r => capitals (r_name r)) (named_fields d)) ->
  NoDup (names_of (s_impl s)).
Proof.
  intros H Hs Hp Hc. rewrite (map_ext _ (fun r => uppercase (r_name r))) in Hc by (intro; apply capitals_uppercase). pose proof (named_names m F d bf H) as En. pose proof (named_nodup m F d bf H) as Hn.
  assert (Ht : b_ty bf <> DCustom).
  { apply parse_iff in H as (ty & args & fs0 & new & Ha & _ & _ & _ & _ & _ & ->). apply attribute_inv in Ha. tauto. }
  rewrite (generate_impl bf s Hs). unfold names_of. apply (NoDup_inj it_name key).
  2: { apply impl_keys. rewrite En. exact Hn. }
  assert (Hf : forall it f, In it (impl_list bf) -> it_field it = Some f ->
    In (it_role it) field_roles /\ it_name it = role_name (it_role it) (f_name f) /\
    exists r, In r (named_fields d) /\ f_name f = r_name r).
  { intros it f Hi Hf. destruct (C34_names m F d bf s it f H Hs) as (k & r & Hk & Hr & _ & Hnm);
      [now rewrite (generate_impl bf s Hs)|exact Hf|].
    destruct (proj1 (impl_list_field bf it f) (conj Hi Hf)) as (_ & ro & Hro & ->). cbn [made it_role it_name].
    split; [|split; [reflexivity|]].
    - destruct ro; try discriminate; cbn; tauto.
    - exists r. destruct (pair_shape m F d bf k r f H Hk) as [E _]. split; [|exact E].
      rewrite named_eq. apply filter_In. destruct Hk as [Hk _]. split; [eapply nth_error_In, Hk|].
      apply negb_true_iff, not_true_iff_false. intro Hx. apply Hr. now apply reservedb_true. }
  assert (Hw : forall it, In it (impl_list bf) -> it_field it = None -> it_role it = RWhole /\ In (it_name it) (all_api (b_ty bf))).
  { intros it Hi Hnf. destruct (proj1 (impl_list_whole bf it) (conj Hi Hnf)) as (n & Hx & ->). cbn.
    split; [reflexivity|]. now apply whole_list_api. }
  intros x y Hx Hy E. unfold key, label.
  destruct (it_field x) as [f|] eqn:Ef, (it_field y) as [g|] eqn:Eg.
  - destruct (Hf x f Hx Ef) as (R1 & N1 & r & Hr & Fn). destruct (Hf y g Hy Eg) as (R2 & N2 & r' & Hr' & Fn').
    rewrite N1, N2 in E. apply role_name_inj in E as [-> E]; try assumption; [|rewrite Fn; auto|rewrite Fn'; auto].
    f_equal. rewrite Fn, Fn' in *. clear - Hc Hr Hr' E. 
    induction (named_fields d) as [|z l IH]; [destruct Hr|]. cbn [map] in Hc. inversion Hc as [|? ? Hz Hl]; subst.
    destruct Hr as [->|Hr], Hr' as [->|Hr']; [reflexivity| | |auto].
    + exfalso. apply Hz. rewrite E. apply in_map_iff. eauto.
    + exfalso. apply Hz. rewrite <- E. apply in_map_iff. eauto.
  - destruct (Hf x f Hx Ef) as (R1 & N1 & r & Hr & Fn). destruct (Hw y Hy Eg) as [_ R2].
    exfalso. rewrite <- E, N1 in R2. eapply role_not_api; try eassumption. rewrite Fn. auto.
  - destruct (Hf y g Hy Eg) as (R1 & N1 & r & Hr & Fn). destruct (Hw x Hx Ef) as [_ R2].
    exfalso. rewrite E, N1 in R2. eapply role_not_api; try eassumption. rewrite Fn. auto.
  - destruct (Hw x Hx Ef) as [-> _]. destruct (Hw y Hy Eg) as [-> _]. now rewrite E.
Qed.
(** The functions of the builder never clash. *)
Theorem C35_builder m F d bf s n l : parse_bitfield m F d = POk bf -> generate bf = Val s ->
  s_builder s = Some (n, l) -> NoDup (names_of l).
Proof.
  intros H Hs Hb. destruct (builder_val bf s n l Hs Hb) as (_ & _ & ->).
  pose proof (named_nodup m F d bf H) as Hn. rewrite <- (named_names m F d bf H) in Hn. clear - Hn.
  unfold names_of. rewrite !map_app. fold nonres.
  change (fun f => negb (f_reserved f)) with nonres.
  assert (N : forall x, In x (map it_name (made_all [(RWith, field_visibility); (RCheckedWith, field_visibility)] (filter nonres (b_fields bf)))) ->
     exists f, In f (filter nonres (b_fields bf)) /\ (x = "with_" ++ f_name f \/ x = "checked_with_" ++ f_name f)).
  { intros x Hx. apply in_map_iff in Hx as (it & <- & Hx). apply made_all_in in Hx as (f & p & Hf & Hp & ->).
    exists f. split; [exact Hf|]. destruct Hp as [<-|[<-|[]]]; cbn; auto. }
  cbn [whole map it_name app]. revert N Hn. generalize (filter nonres (b_fields bf)). intros fs N Hn.
  assert (D : forall x, In x (map it_name (made_all [(RWith, field_visibility); (RCheckedWith, field_visibility)] fs) ++ ["build"])%list ->
    x <> "new" /\ x <> "new_without_defaults").
  { intros x Hx. apply in_app_or in Hx as [Hx|[<-|[]]]; [|split; discriminate].
    apply N in Hx as (f & _ & [->| ->]); split; discriminate. }
  constructor; [|constructor].
  - intros [E|Hx]; [discriminate|]. apply D in Hx. tauto.
  - intro Hx. apply D in Hx. tauto.
  - clear D. induction fs as [|f t IH]; [repeat constructor; auto|]. rewrite made_all_cons, map_app, <- app_assoc.
    cbn [map made it_name fst snd app role_name]. cbn [map] in Hn. inversion Hn as [|? ? Hf Ht]; subst.
    assert (N' : forall x, In x (map it_name (made_all [(RWith, field_visibility); (RCheckedWith, field_visibility)] t)) ->
      exists g, In g t /\ (x = "with_" ++ f_name g \/ x = "checked_with_" ++ f_name g)).
    { intros x Hx. apply in_map_iff in Hx as (it & <- & Hx). apply made_all_in in Hx as (g & p & Hg & Hp & ->).
      exists g. split; [exact Hg|]. destruct Hp as [<-|[<-|[]]]; cbn; auto. }
    constructor; [|constructor; [|apply IH; assumption]].
    + intros [E|Hx]; [discriminate|]. apply in_app_or in Hx as [Hx|[E|[]]]; [|discriminate].
      apply N' in Hx as (g & Hg & [E|E]); [|discriminate]. cbn in E. injection E as E. apply Hf. rewrite E. now apply in_map.
    + intro Hx. apply in_app_or in Hx as [Hx|[E|[]]]; [|discriminate].
      apply N' in Hx as (g & Hg & [E|E]); [discriminate|]. cbn in E. injection E as E. apply Hf. rewrite E. now apply in_map.
Qed.

(** Deciding [plain]. *)
Definition plainb (s : string) : bool :=
  forallb (fun p => negb (String.prefix p s)) ["set_"; "checked_set_"; "clear_"; "invert_"] &&
  forallb (fun p => match strip (string_of_list_ascii (rev (la p))) (string_of_list_ascii (rev (la s))) with [] => true | _ => false end)
    ["_inverted"; "_to_default"; "_BITS"; "_OFFSET"] &&
  negb (existsb (String.eqb s) (["inverted"; "bit"; "bits"; "bytes"; "bits_range"; "bytes_range";
          "bits_with_defaults"; "bytes_with_defaults"] ++ all_api (DInteger U8) ++ all_api (DArray 1))).
Lemma plainb_spec s : plainb s = true -> plain s.
Proof.
  unfold plainb. rewrite !andb_true_iff, !forallb_forall, negb_true_iff, <- not_true_iff_false, existsb_in, !in_app_iff.
  intros ((H1 & H2) & H3). split; [|split; [|split; [tauto|]]].
  - intros p Hp (r & ->). specialize (H1 p Hp). apply negb_true_iff in H1.
    assert (E : String.prefix p (p ++ r) = true).
    { clear. induction p as [|c p IH]; [now destruct r|]. cbn. destruct (ascii_dec c c); [exact IH|congruence]. }
    congruence.
  - intros p Hp (r & ->). specialize (H2 p Hp). rewrite la_app, rev_app_distr in H2.
    assert (E : string_of_list_ascii (rev (la p) ++ rev (la r)) =
                string_of_list_ascii (rev (la p)) ++ string_of_list_ascii (rev (la r))).
    { apply la_inj. rewrite la_app, !list_ascii_of_string_of_list_ascii. reflexivity. }
    rewrite E, strip_app in H2. discriminate.
  - intros ty Hi. apply H3. right. destruct ty as [t|k|]; [left; exact Hi|right; exact Hi|right; exact Hi].
Qed.
Example C35_ex :
  (forall r, In r (named_fields (api_decl [])) -> plain (r_name r)) /\
  NoDup (map (fun r => capitals (r_name r)) (named_fields (api_decl []))) /\
  (exists s, surface_of no_feature (api_decl []) = Some s /\ List.length (s_impl s) = 48%nat /\ NoDup (names_of (s_impl s))) /\
  plain "status" /\ plain "r0" /\ plain "with_parity" /\ ~ plain "bits".
Proof.
  split; [|split; [|split; [|split; [|split; [|split]]]]]; try (apply plainb_spec; vm_compute; reflexivity).
  - intros r Hr. apply plainb_spec. vm_compute in Hr. destruct Hr as [<-|[<-|[<-|[]]]]; vm_compute; reflexivity.
  - apply nodupb_spec. vm_compute. reflexivity.
  - eexists. split; [vm_compute; reflexivity|]. split; [vm_compute; reflexivity|]. apply nodupb_spec. vm_compute. reflexivity.
  - intros (_ & _ & H & _). apply H. cbn. tauto.
Qed.

(** Distinct field names are not enough: these pairs of names are accepted and
    the generated [impl] defines an item twice (rustc then rejects the expansion). *)
Definition pair_decl (a b : string) : rdecl :=
  mkRDecl true VisPublic "P" (Some (RPath "u16")) []
    [vis_fld VisPublic a (AList RNoBits [("default", "1")]); vis_fld VisPublic b ANone].
Definition clashing : list (string * string) :=
  [("a", "A"); ("x", "x_inverted"); ("x", "set_x"); ("x", "checked_set_x"); ("x", "clear_x"); ("x", "invert_x");
   ("x", "x_to_default"); ("set", "inverted"); ("bit", "y"); ("bits", "y"); ("new", "y"); ("from_bits", "y");
   ("bits_range", "y"); ("write_defaults", "y"); ("bits_with_defaults", "y")].
Theorem C35_refuted : forall p, In p clashing ->
  fst p <> snd p /\
  exists s, surface_of no_feature (pair_decl (fst p) (snd p)) = Some s /\ ~ NoDup (names_of (s_impl s)).
Proof.
  intros p Hp. cbn in Hp.
  repeat (destruct Hp as [<-|Hp];
    [split; [discriminate|]; eexists; split; [vm_compute; reflexivity|]; rewrite <- nodupb_spec; vm_compute; discriminate|]).
  destruct Hp.
Qed.
(** An ignored field called [val] clashes with the storage of the bitfield. *)
Theorem C35_val_refuted : exists d s,
  surface_of no_feature d = Some s /\ NoDup (map r_name (d_fields d)) /\ ~ NoDup (map fst (s_fields s)).
Proof.
  exists (mkRDecl true VisPublic "P" (Some (RPath "u8")) []
    [vis_fld VisPublic "a" ANone; vis_fld VisPublic "val" (AList RNoBits [("ignore", "true")])]).
  eexists. split; [vm_compute; reflexivity|]. split.
  - apply nodupb_spec. vm_compute. reflexivity.
  - rewrite <- nodupb_spec. vm_compute. discriminate.
Qed.

(** ** C55 *)

Lemma alnum_upper c : is_alnum c = true -> is_alnum (upper c) = true.
Proof. destruct c as [[][][][][][][][]]; vm_compute; congruence. Qed.
Lemma alpha_alnum c : is_alpha c = true -> is_alnum c = true.
Proof. unfold is_alnum. intros ->. reflexivity. Qed.
Lemma alpha_upper c : is_alpha c = true -> is_alpha (upper c) = true.
Proof. destruct c as [[][][][][][][][]]; vm_compute; congruence. Qed.
Definition word (s : string) : Prop := Forall (fun c => is_alnum c = true) (la s).
Lemma ident_word s : ident_ok s = true -> word s.
Proof.
  destruct s as [|c s]; [discriminate|]. cbn [ident_ok]. intro H. apply andb_prop in H as [H1 H2].
  constructor; [now apply alpha_alnum|]. apply Forall_forall. now apply forallb_forall.
Qed.
Lemma ident_app a b : ident_ok a = true -> word b -> ident_ok (a ++ b) = true.
Proof.
  destruct a as [|c a]; [discriminate|]. cbn [ident_ok append]. intros H Hb. apply andb_prop in H as [H1 H2].
  rewrite H1, la_app, forallb_app, H2. cbn [andb]. apply forallb_forall. now apply Forall_forall.
Qed.
Lemma word_app a b : word a -> word b -> word (a ++ b).
Proof. unfold word. rewrite la_app. intros. apply Forall_app. auto. Qed.
Lemma ident_upper a : ident_ok a = true -> ident_ok (uppercase a) = true.
Proof.
  destruct a as [|c a]; [discriminate|]. unfold uppercase. cbn [list_ascii_of_string map string_of_list_ascii ident_ok].
  intro H. apply andb_prop in H as [H1 H2]. rewrite (alpha_upper _ H1), list_ascii_of_string_of_list_ascii. cbn [andb].
  rewrite forallb_forall in *. intros x Hx. apply in_map_iff in Hx as (y & <- & Hy). apply alnum_upper. auto.
Qed.
Lemma mk_ident_ok s : ident_ok s = true -> mk_ident s = Val s.
Proof.
  intro H. unfold mk_ident. destruct s as [|c s]; [discriminate|]. destruct (ascii_dec c "r") as [->|Hc].
  - destruct s as [|c' s]; [now rewrite H|]. destruct (ascii_dec c' "#") as [->|Hc'].
    + cbn in H. discriminate.
    + destruct c' as [[][][][][][][][]]; try (now rewrite H); congruence.
  - destruct c as [[][][][][][][][]]; try (now rewrite H); congruence.
Qed.
Lemma role_ident ro a : ident_ok a = true -> ident_ok (role_name ro a) = true.
Proof.
  intro H. pose proof (ident_word a H) as Hw.
  destruct ro; cbn [role_name]; try exact H; try (apply ident_app; [reflexivity|assumption]).
  - apply ident_app; [now apply ident_upper|]. apply ident_word. reflexivity.
  - apply ident_app; [now apply ident_upper|]. apply ident_word. reflexivity.
  - apply ident_app; [reflexivity|]. apply word_app; [exact Hw|]. apply ident_word. reflexivity.
  - apply ident_app; [exact H|]. apply ident_word. reflexivity.
Qed.
Lemma per_field_ok cond roles bf : (forall f, In f (b_fields bf) -> cond f = true -> ident_ok (f_name f) = true) ->
  exists l, per_field cond roles bf = Val l.
Proof.
  intro H. unfold per_field. apply collect_ok. intros x Hx. apply in_flat_map in Hx as (f & Hf & Hx).
  apply filter_In in Hf as [Hf Hc]. apply in_map_iff in Hx as (p & <- & _). specialize (H f Hf Hc).
  unfold field_item. destruct (fst p); try (rewrite mk_ident_ok by (apply role_ident; exact H)); cbn [bind]; eauto.
Qed.

Lemma start_alpha c : In c name_start -> is_alpha c = true.
Proof. intro H. cbn in H. repeat (destruct H as [<-|H]; [reflexivity|]). destruct H. Qed.
Lemma part_alnum c : In c (name_start ++ decimal_digits) -> is_alnum c = true.
Proof. intro H. cbn in H. repeat (destruct H as [<-|H]; [reflexivity|]). destruct H. Qed.
Lemma identifier_ok s : identifier s -> ident_ok s = true.
Proof.
  intros (c & r & -> & Hc & Hr). cbn [ident_ok]. rewrite (start_alpha c Hc). cbn [andb].
  apply forallb_forall. intros x Hx. rewrite Forall_forall in Hr. apply part_alnum. auto.
Qed.

(** A declaration whose names are ordinary identifiers always generates code. *)
Theorem C55_generates m F d bf : parse_bitfield m F d = POk bf -> identifier (d_name d) ->
  (forall r, In r (named_fields d) -> identifier (r_name r)) ->
  exists s, generate bf = Val s.
Proof.
  intros H Hd0 Hr0. pose proof (identifier_ok _ Hd0) as Hd.
  assert (Hr : forall r, In r (named_fields d) -> ident_ok (r_name r) = true) by (intros; apply identifier_ok; auto).
  clear Hd0 Hr0. pose proof (named_names m F d bf H) as En.
  assert (Hn : b_name bf = d_name d) by (apply parse_iff in H as (ty & args & fs0 & new & _ & _ & _ & _ & _ & _ & ->); reflexivity).
  assert (Hf : forall f, In f (b_fields bf) -> f_reserved f = false -> ident_ok (f_name f) = true).
  { intros f Hf Hx. assert (Hi : In (f_name f) (map r_name (named_fields d))).
    { rewrite <- En. apply in_map. apply filter_In. unfold nonres. rewrite Hx. auto. }
    apply in_map_iff in Hi as (r & <- & Hi). auto. }
  assert (P : forall cond roles, (forall f, cond f = true -> f_reserved f = false) -> exists l, per_field cond roles bf = Val l).
  { intros cond roles Hc. apply per_field_ok. auto. }
  assert (C1 : forall f, has_setter f = true -> f_reserved f = false)
    by (intro f; unfold has_setter; destruct (f_reserved f); congruence).
  assert (C2 : forall f, has_getter f = true -> f_reserved f = false)
    by (intro f; unfold has_getter; destruct (f_reserved f); congruence).
  assert (C3 : forall f, has_constants f = true -> f_reserved f = false).
  { intros f Hx. unfold has_constants in Hx. apply orb_true_iff in Hx as [Hx|Hx]; auto. }
  assert (C4 : forall f, has_setter f && has_default f = true -> f_reserved f = false).
  { intros f Hx. apply andb_prop in Hx as [Hx _]. auto. }
  assert (C5 : forall f, negb (f_reserved f) = true -> f_reserved f = false) by (intro f; apply negb_true_iff).
  assert (Hi : exists l, impl_items bf = Val l).
  { unfold impl_items, constant_items, getter_items, setter_items, clear_items, invert_items. cbv zeta.
    destruct (P has_constants [(RWidth, field_visibility); (ROffset, field_visibility)] C3) as [x0 ->].
    destruct (P has_getter [(RGetter, field_visibility)] C2) as [x1 ->].
    destruct (P has_setter [(RSetter, field_visibility); (RCheckedSetter, field_visibility)] C1) as [x2 ->].
    destruct (P has_setter [(RClear, fun _ => b_vis bf)] C1) as [x3 ->].
    destruct (P _ [(RClearDefault, fun _ => b_vis bf)] C4) as [x4 ->].
    destruct (P has_setter [(RInvert, fun _ => b_vis bf)] C1) as [x5 ->].
    destruct (P has_getter [(RInverted, fun _ => b_vis bf)] C2) as [x6 ->].
    cbn [bind]. destruct (a_new _), (a_from_into_bits _), (write_on bf), (set_get_on bf), (clear_on bf), (invert_on bf);
      cbn [when bind]; eauto. }
  destruct Hi as [l Hi]. unfold generate, builder. rewrite Hi. cbn [bind]. destruct (a_builder _); [|cbn [bind]; eauto].
  rewrite mk_ident_ok. 2: { rewrite Hn. apply ident_app; [exact Hd|]. apply ident_word. reflexivity. }
  cbn [bind]. unfold builder_items.
  destruct (P _ [(RWith, field_visibility); (RCheckedWith, field_visibility)] C5) as [x ->]. cbn [bind]. eauto.
Qed.
Definition memb (c : ascii) (l : list ascii) : bool := existsb (Ascii.eqb c) l.
Definition identifierb (s : string) : bool :=
  match s with
  | String c r => memb c name_start && forallb (fun x => memb x (name_start ++ decimal_digits)) (la r)
  | EmptyString => false
  end.
Lemma memb_in c l : memb c l = true -> In c l.
Proof. unfold memb. intro H. apply existsb_exists in H as (x & Hx & E). apply Ascii.eqb_eq in E as ->. exact Hx. Qed.
Lemma identifierb_ok s : identifierb s = true -> identifier s.
Proof.
  destruct s as [|c r]; [discriminate|]. cbn [identifierb]. intro H. apply andb_prop in H as [H1 H2].
  exists c, r. split; [reflexivity|]. split; [now apply memb_in|]. apply Forall_forall. intros x Hx.
  rewrite forallb_forall in H2. apply memb_in. auto.
Qed.
Example C55_ex : identifier "Api" /\ (forall r, In r (named_fields (api_decl [])) -> identifier (r_name r)) /\
  identifier "Reg_0A" /\ identifier "_Z9".
Proof.
  split; [apply identifierb_ok; reflexivity|]. split; [|split; apply identifierb_ok; reflexivity].
  intros r Hr. apply identifierb_ok. vm_compute in Hr. destruct Hr as [<-|[<-|[<-|[]]]]; vm_compute; reflexivity.
Qed.

(** A raw identifier as field name is accepted by the parser, then the generator
    panics. *)
Theorem C55_raw_refuted : exists bf,
  parse_bitfield Checked no_feature (pair_decl "r#type" "y") = POk bf /\ generate bf = Panic.
Proof. eexists. split; [vm_compute; reflexivity|vm_compute; reflexivity]. Qed.
