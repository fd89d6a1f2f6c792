(** C51: the cargo features of the bitfields crate set the defaults.

    False: no feature of any crate of the build changes anything, because the
    macro crate is always built with its default features and these win. *)
From Coq Require Import ZArith List Bool String Lia.
From Verif Require Import RustInt Syntax ConstExpr Parser SpecDecl PropArgs Bitflag PropBitflag Cargo.
Import ListNotations.
Open Scope string_scope.
Open Scope list_scope.

Lemma names_plain f es : In (f, es) (map (fun f => (f, @nil entry)) feature_names) -> es = [].
Proof. intros H. apply in_map_iff in H as (x & [= <- <-] & _). reflexivity. Qed.

Lemma member f l : existsb (String.eqb f) l = true <-> In f l.
Proof.
  rewrite existsb_exists. split.
  - intros (x & Hx & E). apply String.eqb_eq in E as <-. exact Hx.
  - intros H. exists f. split; [exact H|apply String.eqb_refl].
Qed.
Lemma not_member f l : existsb (String.eqb f) l = false -> ~ In f l.
Proof. intros E H. apply member in H. congruence. Qed.
Lemma impl_entry f es : In (f, es) impl_table -> (f = "default" /\ es = map Here impl_defaults) \/ es = [].
Proof. intros [H|H]; [left; split; congruence|right; eapply names_plain, H]. Qed.
Lemma bitfields_entry f es : In (f, es) bitfields_table ->
  (f = "default" /\ es = Dep "default" :: map Here impl_defaults) \/ es = [].
Proof. intros [H|H]; [left; split; congruence|right; eapply names_plain, H]. Qed.

(** Whatever else is active, the defaults of the macro crate are. *)
Lemma defaults_active t dep selected others f : dep_defaults dep = true -> In f impl_defaults ->
  impl_active t dep selected others f.
Proof.
  intros Hd Hf. apply (act_here _ _ "default" (map Here impl_defaults)).
  - apply act_asked. left. auto.
  - left. reflexivity.
  - now apply in_map.
Qed.
Lemma defaults_win F t dep selected others : dep_defaults dep = true -> cfg_of F t dep selected others ->
  args_default F = args_default (fun _ => false) /\ flagargs_default F = flagargs_default (fun _ => false).
Proof.
  intros Hd H.
  assert (T : forall f, In f impl_defaults -> F f = true) by (intros f Hf; apply H; now apply defaults_active).
  assert (T' : Forall (fun f => F f = true) impl_defaults) by (apply Forall_forall; exact T).
  unfold impl_defaults in T'.
  repeat match goal with K : Forall _ (_ :: _) |- _ => inversion K; subst; clear K end.
  unfold args_default, flagargs_default, resolve_bool, resolve_order, resolve_endian. cbv zeta.
  repeat match goal with K : F _ = true |- _ => rewrite K; clear K end.
  rewrite !andb_true_r, andb_false_r.
  repeat match goal with |- context [if F ?x then _ else _] => destruct (F x) end; auto.
Qed.

(** Whatever the table of the bitfields crate says, whatever the user selects and
    whatever other crates ask of the macro crate: every declaration is parsed as
    if no feature existed. *)
Theorem C51_features_refuted F t selected others m d e :
  cfg_of F t bitfields_dep selected others ->
  parse_bitfield m F d = parse_bitfield m (fun _ => false) d /\
  parse_bitflag F e = parse_bitflag (fun _ => false) e.
Proof.
  intros H. destruct (defaults_win F t bitfields_dep selected others eq_refl H) as [E1 E2]. split.
  - unfold parse_bitfield, parse_bitfield_attribute, parse_bitfield_args. now rewrite E1.
  - unfold parse_bitflag, parse_flag_attribute, parse_flag_args. now rewrite E2.
Qed.

(** With the tables of the two crates and nobody else asking, the features of the
    macro crate are its defaults. *)
Theorem C51_exact F selected : cfg_of F bitfields_table bitfields_dep selected [] ->
  forall f, F f = true <-> f = "default" \/ In f impl_defaults.
Proof.
  intros H f. rewrite (H f). split.
  - intros A. induction A as [f A|f es g A IH Hin Hg].
    + destruct A as [[_ ->]|[[]|[[]|(g & es & _ & Hin & He)]]]; [now left|].
      destruct (bitfields_entry _ _ Hin) as [[-> ->]| ->]; [|destruct He].
      destruct He as [[= <-]|He]; [now left|]. apply in_map_iff in He as (x & K & _). discriminate K.
    + destruct (impl_entry _ _ Hin) as [[-> ->]| ->]; [|destruct Hg].
      apply in_map_iff in Hg as (x & [= <-] & Hx). now right.
  - intros [->|Hf]; [apply act_asked; left; auto|now apply defaults_active].
Qed.

(** The selection of README.md:2293-2305. *)
Definition readme_selection : list string :=
  ["generate_builder"; "generate_set_get_bit_ops"; "order_msb"; "from_endian_little"; "into_endian_big"].
Definition default_cfg : features := fun f => (String.eqb f "default" || existsb (String.eqb f) impl_defaults)%bool.
Lemma default_cfg_ok selected : cfg_of default_cfg bitfields_table bitfields_dep selected [].
Proof.
  intros f. unfold default_cfg. rewrite orb_true_iff, String.eqb_eq, existsb_exists. split.
  - intros [->|(x & Hx & E)]; [apply act_asked; left; auto|]. apply String.eqb_eq in E as <-. now apply defaults_active.
  - intros A. induction A as [f A|f es g A IH Hin Hg].
    + destruct A as [[_ ->]|[[]|[[]|(g & es & _ & Hin & He)]]]; [now left|].
      destruct (bitfields_entry _ _ Hin) as [[-> ->]| ->]; [|destruct He].
      destruct He as [[= <-]|He]; [now left|]. apply in_map_iff in He as (x & K & _). discriminate K.
    + destruct (impl_entry _ _ Hin) as [[-> ->]| ->]; [|destruct Hg].
      apply in_map_iff in Hg as (x & [= <-] & Hx). right. exists x. split; [exact Hx|apply String.eqb_refl].
Qed.
(** The README's example has no effect: the order stays lsb, the conversion big. *)
Example C51_ex :
  cfg_of default_cfg bitfields_table bitfields_dep readme_selection [] /\
  Forall (fun f => In f feature_names) readme_selection /\ ~ In "default" readme_selection /\
  match parse_bitfield_args default_cfg [] with
  | POk (a, _) => a_order a = Lsb /\ a_from_endian a = Big
  | _ => False
  end.
Proof.
  split; [apply default_cfg_ok|]. split; [|split].
  - apply Forall_forall. intros f Hf. apply member. cbn in Hf. repeat destruct Hf as [<-|Hf]; try contradiction; reflexivity.
  - exact (not_member "default" readme_selection eq_refl).
  - vm_compute. auto.
Qed.

(** The features of the bitfields crate itself (what [cfg(feature = "..")] in its
    tests sees) are those of the macro crate only for selections between nothing
    but [default] and all the defaults. *)
Theorem C51_mirror_exact selected : Forall (fun f => In f ("default" :: feature_names)) selected ->
  ((forall f, active bitfields_table (fun x => In x selected) f <-> impl_active bitfields_table bitfields_dep selected [] f) <->
   In "default" selected /\ forall f, In f selected -> f = "default" \/ In f impl_defaults).
Proof.
  intros Hs. assert (E : forall f, impl_active bitfields_table bitfields_dep selected [] f <-> f = "default" \/ In f impl_defaults).
  { intros f. rewrite <- (C51_exact default_cfg selected (default_cfg_ok selected) f). symmetry. apply default_cfg_ok. }
  assert (D : active bitfields_table (fun x => In x selected) "default" -> In "default" selected).
  { intros A. remember "default" as z eqn:Ez. destruct A as [f A|f es g A Hin Hg]; [exact A|]. subst.
    destruct (bitfields_entry _ _ Hin) as [[-> ->]| ->]; [|destruct Hg].
    exfalso. destruct Hg as [Hg|Hg]; [discriminate Hg|]. apply in_map_iff in Hg as (x & [= ->] & Hx).
    revert Hx. exact (not_member "default" impl_defaults eq_refl). }
  split.
  - intros H. split.
    + apply D. apply H. apply E. now left.
    + intros f Hf. apply E, H. now apply act_asked.
  - intros [Hd Hall] f. rewrite E. split.
    + intros A. induction A as [f A|f es g A IH Hin Hg]; [now apply Hall|].
      destruct (bitfields_entry _ _ Hin) as [[-> ->]| ->]; [|destruct Hg].
      destruct Hg as [Hg|Hg]; [discriminate Hg|]. apply in_map_iff in Hg as (x & [= <-] & Hx). now right.
    + intros [->|Hf]; [now apply act_asked|].
      apply (act_here _ _ "default" (Dep "default" :: map Here impl_defaults)); [now apply act_asked|left; reflexivity|].
      right. now apply in_map.
Qed.

(** The claim would hold if every feature were forwarded and the dependency did
    not ask for the defaults. *)
Definition forwarding : table := map (fun f => (f, [Dep f])) feature_names.
Theorem C51_forwarded_partial F selected : (forall f, In f selected -> In f feature_names) ->
  cfg_of F forwarding (mkDep false []) selected [] ->
  (forall f, F f = true <-> In f selected) /\
  (forall a fp, parse_bitfield_args F [] = POk (a, fp) ->
    (In "order_msb" selected -> ~ In "order_lsb" selected -> a_order a = Msb) /\
    (forall key little big proj, In (key, (little, big), proj) endians ->
      In little selected -> ~ In big selected -> proj a = Little) /\
    (forall key on off proj, In (key, (on, off), proj) switches ->
      In off selected -> ~ In on selected -> proj a = false) /\
    (In "enable_array_heap" selected -> ~ In "disable_array_heap" selected -> a_array_heap a = true)) /\
  (forall g, parse_flag_args F [] = POk g ->
    (In "bitflag_from_endian_little" selected -> ~ In "bitflag_from_endian_big" selected -> fa_from g = Little) /\
    (In "bitflag_into_endian_little" selected -> ~ In "bitflag_into_endian_big" selected -> fa_into g = Little) /\
    (In "bitflag_disable_copy" selected -> ~ In "bitflag_derive_copy" selected -> fa_copy g = false)).
Proof.
  intros Hs H.
  assert (A : forall f, active forwarding (fun x => In x selected) f -> In f selected).
  { intros f B. destruct B as [f B|f es g B Hin Hg]; [exact B|].
    apply in_map_iff in Hin as (x & [= <- <-] & _). destruct Hg as [Hg|[]]. discriminate Hg. }
  assert (N : forall f, In f selected -> f <> "default").
  { intros f Hf ->. apply Hs in Hf. revert Hf. exact (not_member "default" feature_names eq_refl). }
  assert (E : forall f, F f = true <-> In f selected).
  { intros f. rewrite (H f). split.
    - intros B. induction B as [f B|f es g B IH Hin Hg].
      + destruct B as [[B _]|[[]|[[]|(g & es & B & Hin & He)]]]; [discriminate B|].
        apply in_map_iff in Hin as (x & [= <- <-] & _). destruct He as [[= <-]|[]]. now apply A.
      + destruct (impl_entry _ _ Hin) as [[-> ->]| ->]; [now destruct (N _ IH)|destruct Hg].
    - intros Hf. apply act_asked. right. right. right. exists f, [Dep f]. split; [now apply act_asked|].
      split; [|now left]. apply in_map_iff. exists f. split; [reflexivity|now apply Hs]. }
  assert (E' : forall f, ~ In f selected -> F f = false).
  { intros f Hf. destruct (F f) eqn:K; [|reflexivity]. apply E in K. contradiction. }
  split; [exact E|]. split.
  - intros a fp Hp. apply C50_values in Hp as [(H1 & H2 & H3 & H4 & _) _]. cbn [last_of switch_value] in *.
    split; [|split; [|split]].
    + intros K1 K2. apply E in K1. rewrite H1, (E' _ K2), K1. reflexivity.
    + intros key little big proj Hin K1 K2. apply E in K1. specialize (H2 _ _ _ _ Hin). cbn in H2.
      rewrite H2, K1, (E' _ K2). reflexivity.
    + intros key on off proj Hin K1 K2. apply E in K1. specialize (H3 _ _ _ _ Hin). cbn in H3.
      rewrite H3, K1, (E' _ K2). reflexivity.
    + intros K1 K2. apply E in K1. rewrite H4. cbn. rewrite K1, (E' _ K2). reflexivity.
  - intros g Hg. apply flag_args_value in Hg as (H1 & H2 & H3). unfold flag_endian in *. cbn in H1, H2, H3.
    split; [|split]; intros K1 K2; apply E in K1.
    + rewrite H1, K1, (E' _ K2). reflexivity.
    + rewrite H2, K1, (E' _ K2). reflexivity.
    + rewrite H3, K1, (E' _ K2). reflexivity.
Qed.
(** Such features exist, for the selection of the README. *)
Example C51_forwarded : let F f := existsb (String.eqb f) readme_selection in
  cfg_of F forwarding (mkDep false []) readme_selection [] /\
  match parse_bitfield_args F [] with
  | POk (a, _) => a_order a = Msb /\ a_from_endian a = Little /\ a_into_endian a = Big
  | _ => False
  end.
Proof.
  cbv zeta. split; [|vm_compute; auto]. intros f. rewrite existsb_exists. split.
  - intros (x & Hx & E). apply String.eqb_eq in E as <-. apply act_asked. right. right. right.
    exists f, [Dep f]. split; [now apply act_asked|]. split; [|now left]. apply in_map_iff. exists f. split; [reflexivity|].
    cbn in Hx. repeat destruct Hx as [<-|Hx]; try contradiction; now apply member.
  - intros B. induction B as [f B|f es g B IH Hin Hg].
    + destruct B as [[B _]|[[]|[[]|(g & es & B & Hin & He)]]]; [discriminate B|].
      apply in_map_iff in Hin as (x & [= <- <-] & _). destruct He as [[= <-]|[]].
      destruct B as [z B|z es g B Hin Hg]; [exists z; split; [exact B|apply String.eqb_refl]|].
      apply in_map_iff in Hin as (y & [= <- <-] & _). destruct Hg as [Hg|[]]. discriminate Hg.
    + destruct IH as (x & Hx & E). apply String.eqb_eq in E as <-. destruct (impl_entry _ _ Hin) as [[-> ->]| ->].
      * now destruct (not_member "default" readme_selection eq_refl).
      * destruct Hg.
Qed.
