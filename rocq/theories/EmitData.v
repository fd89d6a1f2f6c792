(** The emitted conversions of a whole value: [write_*], [from_*], [into_*]. *)
From Coq Require Import ZArith List Bool String Lia.
From Verif Require Import RustInt Syntax GenInt GenArr Spec BitsLemmas CoreLemmas Rust RustLemmas Surface Emit EmitVocab
  EmitLemmas EmitArr EmitArrPut EmitField EmitDefault EmitFns EmitRead EmitNew EmitConv.
From Verif Require Gen.
Import ListNotations.
Open Scope string_scope.
Open Scope list_scope.
Open Scope Z_scope.

Section Load.
Variables (bf : bitfield) (G : genv) (m : mode).
Hypothesis Hback : backing_ok (b_ty bf).

Lemma this_conv : ~ In "this" conv_names.
Proof. cbn; intuition discriminate. Qed.
Lemma place_this xs C CL R : ~ In "this" xs -> among xs CL -> place G C (V "this") = R -> place G (CL ++ C) (V "this") = R.
Proof. intros H1 H2 <-. cbn [place]. rewrite (lookup_among xs) by assumption. reflexivity. Qed.
Lemma data_whole : whole_ty bf (data_ty bf) /\ is_ref (data_ty bf) = false.
Proof. unfold whole_ty, data_ty. destruct (b_ty bf); [split; reflexivity .. | destruct Hback]. Qed.
Lemma step_weaken C i ss CL op (pre pre' : rt -> st -> Prop) : step bf false G m C i ss CL op pre ->
  (forall r s, pre' r s -> pre r s) -> step bf false G m C i ss CL op pre'.
Proof.
  intros H W st0 Hok. eapply frag_weaken; [apply H; exact Hok|]. intros r s (H1 & H2 & H3). split; [auto|].
  destruct (op st0); cbn [out refines]; auto.
Qed.

(** A conversion, then changes of [this] that read [bits]. *)
Lemma conv_then C ss1 ss2 (pre : rt -> st -> Prop) o i op :
  conv_frag bf G m C ss1 pre o -> place G C (V "this") = Some (TSelf, true, spot "this" i) ->
  (forall C' mu, lookup "bits" C' = Some (mu, data_ty bf) -> place G C' (V "this") = Some (TSelf, true, spot "this" i) ->
     exists CL, among temps CL /\ forall src, ok_store bf src -> step bf false G m C' i ss2 CL (op src) (has_bits bf m src)) ->
  exists CL, forall st0, ok_store bf st0 ->
  frag G C (ss1 ++ ss2) (CL ++ C)
    (fun r s => ready m r /\ calls bf m r /\ pre r s /\ has "this" i s (enc_store st0))
    (fun _ s => out (src <- o ;; op src st0) (fun st1 s' => ok_store bf st1 /\
       exists L, among (conv_names ++ temps) L /\ s' = pushes L (store_at "this" i (enc_store st1) s))).
Proof.
  intros (CL1 & mu & A1 & Hl & F1) Hp H2. destruct (H2 _ _ Hl (place_this _ _ _ _ this_conv A1 Hp)) as (CL2 & A2 & S2).
  exists (CL2 ++ CL1). intros st0 Hok. rewrite <- app_assoc. destruct (some_store bf Hback) as [sx Hx].
  eapply (frag_app' (ok_store bf) sx); [exact Hx | exact F1 | intros src Hsrc; exact (S2 src Hsrc st0 Hok) |].
  intros r s (Hr & Hc & Hpre & Hh). split; [auto|]. cbv beta. unfold bind. destruct o as [src|]; cbn [out]; [|reflexivity].
  intros s1 (Ok1 & L & HL & -> & Hb). exists src. split; [exact Ok1|]. split.
  { split; [exact Hr|]. split; [split; assumption|]. eapply has_pushes; [exact HL | exact this_conv | exact Hh]. }
  destruct (op src st0) as [st1|]; cbn [out refines]; [|reflexivity].
  intros s2 (Ok2 & L2 & HL2 & ->). split; [exact Ok2|]. exists (L2 ++ L). split.
  { apply among_app; eapply among_sub; [|exact HL2 | |exact HL]; intros x Hx0; apply in_or_app; auto. }
  rewrite (store_pushes conv_names) by (assumption || exact this_conv). rewrite pushes_app. reflexivity.
Qed.

(** [this.0] or [*this.0] as a value. *)
Lemma ev_load C h mu r0 st0 : g_back G = store_ty bf -> place G C (V "this") = Some (TSelf, mu, spot "this" r0) ->
  ev G C h (load bf) (data_ty bf) (fun _ s => has "this" r0 s (enc_store st0)) (fun _ _ => Val (enc_store st0)).
Proof.
  intros HB Hp. unfold load, store_ty, is_heap, data_ty, is_integer_backed, array_len, backing_ok in *.
  destruct (b_ty bf) as [t|n|]; [| |destruct Hback].
  - rewrite andb_false_r in *. eexists. split; [unfold val; eapply E_valT; [exact Hp | exact HB | reflexivity]|].
    intros r s Hh. cbv beta. rewrite (read_has _ _ _ _ Hh). reflexivity.
  - rewrite andb_true_r in *. destruct (a_array_heap (b_args bf)).
    + eexists. split; [unfold val; eapply E_deref; eapply P_valT; [exact Hp | exact HB]|].
      intros r s Hh. cbv beta. rewrite (read_has _ _ _ _ Hh). reflexivity.
    + eexists. split; [unfold val; eapply E_valT; [exact Hp | exact HB | reflexivity]|].
      intros r s Hh. cbv beta. rewrite (read_has _ _ _ _ Hh). reflexivity.
Qed.
Lemma backing_cases : (exists t, b_ty bf = DInteger t) \/ (exists n, b_ty bf = DArray n).
Proof. destruct (b_ty bf); [left | right | destruct Hback]; eauto. Qed.
Lemma store_I t st0 : b_ty bf = DInteger t -> ok_store bf st0 -> exists z, st0 = StI z.
Proof. unfold ok_store. intros -> H. destruct st0; [eauto | destruct H]. Qed.
Lemma store_A n st0 : b_ty bf = DArray n -> ok_store bf st0 -> exists l, st0 = StA l.
Proof. unfold ok_store. intros -> H. destruct st0; [destruct H | eauto]. Qed.

Hypothesis K : knows bf false G.
Hypothesis W : writes bf G m false.
Hypothesis Hs : forall f, In f (b_fields bf) -> small bf f.
Variable dx : field -> expr.
Hypothesis Hd : forall f p, In f (b_fields bf) -> f_default f = Some p -> dval bf f (dx f) = Some p.

(** Copy the fields from [bits], then the defaults. *)
Lemma steps_load sel (d : bool) C mu i : lookup "bits" C = Some (mu, data_ty bf) ->
  place G C (V "this") = Some (TSelf, true, spot "this" i) ->
  exists CL, among temps CL /\ forall src, ok_store bf src ->
  step bf false G m C i (copy_all bf sel ++ (if d then defaults dx bf else [])) CL
    (fun s => s' <- Gen.copy_fields m bf sel src s ;; if d then Gen.set_defaults m bf s' else Val s') (has_bits bf m src).
Proof.
  intros Hl Hp. destruct data_whole as [Hw Hr].
  destruct (steps_copy bf G m Hback K sel C i mu _ Hs Hp Hl Hr Hw) as (CL1 & A1 & S1).
  assert (E : exists CL2, among temps CL2 /\ forall src, ok_store bf src ->
    step bf false G m (CL1 ++ C) i (if d then defaults dx bf else []) CL2
      (fun s => if d then Gen.set_defaults m bf s else Val s) (has_bits bf m src)).
  { destruct d.
    - destruct (steps_defaults bf G m Hback W dx Hd (CL1 ++ C) i (fun r _ => calls bf m r)) as (CL2 & A2 & S2).
      + intros r s L v _ H. exact H.
      + auto.
      + apply (place_this temps); [exact this_temps | exact A1 | exact Hp].
      + exists CL2. split; [exact A2|]. intros src _. eapply step_weaken; [exact S2|]. intros r s [H _]. exact H.
    - exists []. split; [constructor|]. intros src _. apply step_nil. }
  destruct E as (CL2 & A2 & S2). exists (CL2 ++ CL1). split; [apply among_app; assumption|].
  intros src Hok. eapply step_seq; [exact Hback | exact (bits_stable bf false G m K i src) | exact (S1 src Hok) | exact (S2 src Hok)].
Qed.

(** from_into_bits_feature.rs:81-83, 91-94 *)
Lemma frag_from_tail (d : bool) C mu : names_bitfield G PSelf = true -> (is_heap bf = true -> g_isconst G = false) ->
  lookup "bits" C = Some (mu, data_ty bf) ->
  exists CL, among temps CL /\ forall src, ok_store bf src ->
  frag G C (from_tail dx bf d) (CL ++ ("this", (true, TSelf)) :: C)
    (fun r s => ready m r /\ has_bits bf m src r s)
    (fun _ s => out (Gen.build_from m bf d src) (fun st1 s' => made bf st1 s s')).
Proof.
  intros Hn Hc Hl.
  destruct (steps_load (fun _ => true) d (("this", (true, TSelf)) :: C) mu false) as (CL & A & S).
  - rewrite lookup_other by reflexivity. exact Hl.
  - eapply P_var; [apply lookup_same | reflexivity].
  - exists CL. split; [exact A|]. intros src Hok. specialize (S src Hok).
    apply (frag_made bf G m Hback true false C (copy_all bf (fun _ => true) ++ (if d then defaults dx bf else [])) CL
      (fun s => s' <- Gen.copy_fields m bf (fun _ => true) src s ;; if d then Gen.set_defaults m bf s' else Val s')
      (has_bits bf m src) Hn (k_back _ _ _ K) Hc).
    eapply step_weaken; [exact S|]. intros r s (L & v & s0 & HL & -> & [H1 H2]). split; [exact H1|].
    rewrite (lookup_pushes temps) by (assumption || (cbn; intuition discriminate)). rewrite loc_push, lookup_other by reflexivity. exact H2.
Qed.
(** A conversion, then [from_tail]. *)
Lemma conv_from_tail (d : bool) C ss pre o : names_bitfield G PSelf = true -> (is_heap bf = true -> g_isconst G = false) ->
  conv_frag bf G m C ss pre o ->
  exists CL C', among temps CL /\
  frag G C (ss ++ from_tail dx bf d) (CL ++ ("this", (true, TSelf)) :: C')
    (fun r s => ready m r /\ calls bf m r /\ pre r s)
    (fun _ s => out (src <- o ;; Gen.build_from m bf d src)
       (fun st1 s' => ok_store bf st1 /\ lookup "this" (loc s') = Some (enc_store st1) /\ mem s' = mem s)).
Proof.
  intros Hn Hc (CL1 & mu & A1 & Hl & F1). destruct (frag_from_tail d _ mu Hn Hc Hl) as (CL & A & F2).
  exists CL, (CL1 ++ C). split; [exact A|]. destruct (some_store bf Hback) as [sx Hx].
  eapply (frag_app' (ok_store bf) sx); [exact Hx | exact F1 | exact F2 |].
  intros r s (Hr & Hcl & Hp). split; [auto|]. cbv beta. unfold bind. destruct o as [src|]; cbn [out]; [|reflexivity].
  intros s1 (Ok1 & L & HL & -> & Hb). exists src. split; [exact Ok1|]. split; [split; [exact Hr | split; assumption]|].
  destruct (Gen.build_from m bf d src); cbn [out refines]; [|reflexivity].
  intros s2 H. split; [apply H|]. destruct (made_this bf _ _ _ H) as [H1 H2]. split; [exact H1|]. rewrite H2, mem_pushes. reflexivity.
Qed.
End Load.

Section Data.
Variables (dx : field -> expr) (bf : bitfield) (m : mode).
Hypothesis OK : emit_ok dx bf.
Let P := emitted dx bf.
Let Hback := eo_back _ _ OK.
Let Hsmall := eo_small _ _ OK.
Let Hd := eo_dx _ _ OK.

(** [write_bits(bits)] and variants: write_bit_ops_feature.rs:81-131 *)
Lemma write_meets v d b st0 : ok_store bf b -> ok_store bf st0 ->
  fn_meets dx bf true (write_fn dx bf v d)
    (fun r s => ready m r /\ calls bf m r /\ s = own_st [(bob bf, enc_store b)] (enc_store st0))
    (fun _ _ => after (Gen.write_data m bf v d b st0) (fun _ => RU) enc_store).
Proof.
  intros Hb Hst. set (i := write_fn dx bf v d). assert (Hc : const_ok bf i) by (left; reflexivity).
  pose proof (knows_own dx bf OK i Hc) as K. pose proof (writes_own dx bf m OK i Hc) as W.
  set (C := [("this", (false, TRef true TSelf)); (bob bf, (false, data_ty bf)); ("self", (false, TRef true TSelf))]).
  set (e := Gen.variant_endian (a_write_endian (b_args bf)) v).
  assert (Cv : conv_frag bf (genv_of P true i) m C ([let_ "bits" (V (bob bf))] ++ write_convert bf e)
     (fun _ s => lookup (bob bf) (loc s) = Some (enc_store b)) (Gen.convert_write m bf e b)).
  { eapply conv_app.
    - apply conv_let; [reflexivity | exact Hb |]. eapply ev_data. unfold C, bob. destruct (is_integer_backed bf); reflexivity.
    - intros C' mu Hl. apply (conv_write bf _ m Hback C' mu); assumption. }
  destruct (conv_then bf _ m Hback C _ (copy_all bf has_setter ++ (if d then defaults dx bf else [])) _ _ true
    (fun src s => s' <- Gen.copy_fields m bf has_setter src s ;; if d then Gen.set_defaults m bf s' else Val s') Cv) as (CL & F).
  { eapply ref_place. reflexivity. }
  { intros C' mu Hl Hp. exact (steps_load bf _ m Hback K W Hsmall dx Hd has_setter d C' mu true Hl Hp). }
  specialize (F st0 Hst). eapply fn_frag_unit; [reflexivity | reflexivity | |].
  - eapply (frag_self dx bf true i _ (TRef true TSelf) (RRef "*self")); [unfold ctx_of; cbn [map app self_ctx fn_params fn_recv i write_fn method fst snd]; unfold bob; destruct (is_integer_backed bf); reflexivity|].
    rewrite <- app_assoc in F. exact F.
  - intros r s (Hr & Hcl & ->). destruct (own_this [(bob bf, enc_store b)] (enc_store st0) RU) as [Hh _].
    split; [split; [unfold bob; destruct (is_integer_backed bf); reflexivity|]; split; [exact Hr|]; split; [exact Hcl|];
      split; [unfold bob; destruct (is_integer_backed bf); reflexivity | exact Hh]|].
    unfold Gen.write_data. fold e. unfold after, bind.
    destruct (Gen.convert_write m bf e b) as [src|]; cbn [out]; [|reflexivity].
    destruct (Gen.copy_fields m bf has_setter src st0) as [st1|]; cbn [out]; [|reflexivity].
    destruct (if d then Gen.set_defaults m bf st1 else Val st1) as [st2|]; cbn [out]; [|reflexivity].
    intros s1 (_ & L & HL & ->). rewrite mem_pushes. reflexivity.
Qed.

(** [from_bits(bits)] and variants: from_into_bits_feature.rs:58-133, 191-289 *)
Lemma from_meets v d b : ok_store bf b ->
  fn_meets dx bf true (from_fn dx bf v d)
    (fun r s => ready m r /\ calls bf m r /\ s = mkSt [(bob bf, enc_store b)] [])
    (fun _ _ => alone (Gen.from_data m bf v d b) enc_store).
Proof.
  intros Hb. set (i := from_fn dx bf v d). assert (Hc : const_ok bf i) by (left; reflexivity).
  pose proof (knows_own dx bf OK i Hc) as K. pose proof (writes_own dx bf m OK i Hc) as W.
  set (C := [(bob bf, (false, data_ty bf))]).
  assert (Cv : conv_frag bf (genv_of P true i) m C (from_convert bf v) (fun _ s => lookup (bob bf) (loc s) = Some (enc_store b))
     (Gen.convert_from_into m bf (Gen.variant_endian (a_from_endian (b_args bf)) v) b)).
  { apply (conv_from bf _ m Hback C false); [apply lookup_same | exact Hb]. }
  destruct (conv_from_tail bf _ m Hback K W Hsmall dx Hd d C _ _ _ eq_refl (heap_not_const dx bf true i Hc) Cv) as (CL & C' & A & F).
  assert (M : fn_meets dx bf true i (fun r s => (ready m r /\ calls bf m r) /\ s = mkSt [(bob bf, enc_store b)] [])
     (fun r s => match Gen.from_data m bf v d b with Val st1 => Val (enc_store st1, mem s) | Panic => Panic end)).
  { eapply (made_fn dx bf OK true i) with (o := fun _ _ => Gen.from_data m bf v d b); [reflexivity | reflexivity | exact A | exact F |].
    intros r s ((H1 & H2) & ->). split; [exact H1|]. split; [exact H2|]. apply lookup_same. }
  destruct M as (dn & E & R). exists dn. split; [exact E|]. intros r s (H1 & H2 & ->). rewrite R by auto. unfold alone.
  destruct (Gen.from_data m bf v d b); reflexivity.
Qed.

(** Functions that end in [bits]. *)
Lemma bits_fn own i ss C (pre1 pre : rt -> st -> Prop) o : fn_body i = Block (this_self :: ss) (Some (V "bits")) -> fn_ret i = data_ty bf ->
  forall t v, lookup "self" (ctx_of own i) = Some (false, t) -> C = ("this", (false, t)) :: ctx_of own i ->
  conv_frag bf (genv_of P own i) m C ss pre1 o ->
  (forall r s, pre r s -> ready m r /\ lookup "self" (loc s) = Some v /\ pre1 r (push "this" v s)) ->
  fn_meets dx bf own i pre (fun _ s => match o with Val b => Val (enc_store b, mem s) | Panic => Panic end).
Proof.
  intros Hb Hret t v Hl -> (CL & mu & A & Hlb & F) Hp. destruct (some_store bf Hback) as [sx Hx].
  eapply (fn_frag_ev' dx bf (ok_store bf) sx) with (pret := fun b _ s => lookup "bits" (loc s) = Some (enc_store b)) (G := fun b _ _ => Val (enc_store b));
    [exact Hx | exact Hb | eapply (frag_self dx bf own i _ t v); [exact Hl | exact F] | |].
  - intros b _. rewrite Hret. eapply ev_data. exact Hlb.
  - intros r s H. destruct (Hp r s H) as (H1 & H2 & H3). split; [auto|]. destruct o as [b|]; cbn [out]; [|reflexivity].
    intros s1 (Ok1 & L & HL & -> & Hbb). exists b. split; [exact Ok1|]. split; [exact Hbb|]. rewrite mem_pushes. reflexivity.
Qed.

(** [into_bits()] and variants: from_into_bits_feature.rs:135-173, 507-588 *)
Definition into_st (st0 : store) : st :=
  if is_integer_backed bf then mkSt [("self", enc_store st0)] [] else own_st [] (enc_store st0).
Lemma into_meets v st0 : ok_store bf st0 ->
  fn_meets dx bf true (into_fn bf v) (fun r s => ready m r /\ s = into_st st0)
    (fun _ s => match Gen.into_data m bf v st0 with Val b => Val (enc_store b, mem s) | Panic => Panic end).
Proof.
  intros Hok. unfold into_fn, into_st, Gen.into_data, Gen.convert_from_into. set (e := Gen.variant_endian _ v).
  destruct (backing_cases bf Hback) as [(t & Hty)|(n & Hty)]; unfold is_integer_backed; rewrite Hty.
  - destruct (store_I bf t st0 Hty Hok) as [z ->]. set (i := method _ _ _ _ _ _ _).
    assert (Hp : place (genv_of P true i) [("this", (false, TSelf)); ("self", (false, TSelf))] (V "this") = Some (TSelf, false, spot "this" false))
      by (eapply P_var; reflexivity).
    assert (L : conv_frag bf (genv_of P true i) m [("this", (false, TSelf)); ("self", (false, TSelf))] [let_ "bits" (val false)]
       (fun _ s => lookup "this" (loc s) = Some (RI z)) (Val (StI z))).
    { apply conv_let; [reflexivity | exact Hok|]. eapply ev_weaken; [|intros r s H; split; [apply has_local; exact H | reflexivity]].
      pose proof (ev_load bf (genv_of P true i) Hback _ None false false (StI z) eq_refl Hp) as E. unfold load, is_heap, is_integer_backed in E.
      rewrite Hty, andb_false_r in E. exact E. }
    assert (Sw : conv_frag bf (genv_of P true i) m [("this", (false, TSelf)); ("self", (false, TSelf))]
       (let_ "bits" (val false) :: match e with Little => [let_ "bits" (ESwap (V "bits"))] | Big => [] end)
       (fun _ s => lookup "this" (loc s) = Some (RI z)) (match e with Little => Val (StI (swap_bytes (ity_bits t) z)) | Big => Val (StI z) end)).
    { destruct e; [|exact L]. change (?a :: ?l) with ([a] ++ l). eapply conv_app; [exact L|]. intros C' mu Hl.
      apply conv_let; [reflexivity | unfold ok_store; rewrite Hty; exact I|]. apply (ev_swap bf _ Hback _ _ _ t); [exact Hty|].
      exact (ev_data bf _ C' None "bits" mu (StI z) Hl). }
    eapply (bits_fn true i _ _ _ _ _ eq_refl eq_refl TSelf (RI z) eq_refl eq_refl Sw).
    intros r s (Hr & ->). split; [exact Hr|]. split; reflexivity.
  - destruct (store_A bf n st0 Hty Hok) as [l ->]. set (i := method _ _ _ _ _ _ _).
    set (C := [("this", (false, TRef false TSelf)); ("self", (false, TRef false TSelf))]).
    assert (Hp : place (genv_of P true i) C (V "this") = Some (TSelf, false, spot "this" true)) by (eapply P_ref; reflexivity).
    pose proof (fun h => ev_load bf (genv_of P true i) Hback _ h false true (StA l) eq_refl Hp) as E.
    assert (Hh : forall s, s = own_st [] (RA l) -> has "this" true (push "this" (RRef "*self") s) (RA l)).
    { intros s ->. apply own_this. exact RU. }
    destruct e.
    + eapply fn_frag_ev; [reflexivity | eapply (frag_self dx bf true i _ (TRef false TSelf) (RRef "*self")); [reflexivity | apply frag_nil with (pre := fun _ _ => True)] | exact (E _) |].
      intros r s (Hr & ->). split; [split; [reflexivity | exact I]|]. intros s1 ->. split; [apply Hh; reflexivity|]. reflexivity.
    + assert (Cv := conv_xor bf (genv_of P true i) m Hback C n (load bf) (lit 0) l _ Hty (or_introl eq_refl)
        ltac:(unfold load; destruct (is_heap bf); reflexivity) (E None)).
      eapply (bits_fn true i _ _ _ _ _ eq_refl eq_refl (TRef false TSelf) (RRef "*self") eq_refl eq_refl Cv).
      intros r s (Hr & ->). split; [exact Hr|]. split; [reflexivity | apply Hh; reflexivity].
Qed.
End Data.
