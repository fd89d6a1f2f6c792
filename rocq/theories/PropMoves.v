(** C68: the emitted code never uses a value it has moved. *)
From Coq Require Import ZArith List Bool String Lia.
From Verif Require Import RustInt Syntax Surface Rust Emit Moves.
From Verif Require Gen Parser SpecEmit.
Import ListNotations.
Open Scope string_scope.
Open Scope list_scope.

(** ** Bindings that a fragment does not look at *)

Definition skel (E : env) : list (option string) :=
  map (fun b => match b with Bind x _ => Some x | Mark => None end) E.
Definition marks (Q : env) : bool := existsb (fun b => match b with Mark => true | _ => false end) Q.
Definition disj (N C : env) : Prop :=
  forall b, In b N -> match b with Bind x _ => find_var x C = None | Mark => False end.

Lemma skel_app A B : skel (A ++ B) = skel A ++ skel B.
Proof. apply map_app. Qed.
Lemma find_skel x A B : skel A = skel B -> find_var x A = None -> find_var x B = None.
Proof.
  revert B. induction A as [|[y s|] A IH]; intros [|[z t|] B] H HF; try discriminate H; try reflexivity.
  - injection H as <- H. cbn in *. destruct (String.eqb x y); [discriminate HF|auto].
  - injection H as H. cbn in *. auto.
Qed.
Lemma disj_skel N A B : skel A = skel B -> disj N A -> disj N B.
Proof. intros H D b Hb. specialize (D b Hb). destruct b; [|exact D]. exact (find_skel _ _ _ H D). Qed.
Lemma find_app x A B : find_var x (A ++ B) = match find_var x A with Some s => Some s | None => find_var x B end.
Proof. induction A as [|[y s|] A IH]; cbn; [reflexivity| |exact IH]. destruct (String.eqb x y); auto. Qed.
Lemma find_disj x N C s : disj N C -> find_var x C = Some s -> find_var x N = None.
Proof.
  intros D H. induction N as [|[y t|] N IH]; cbn.
  - reflexivity.
  - destruct (String.eqb_spec x y) as [->|_].
    + pose proof (D (Bind y t) (or_introl eq_refl)) as X. cbn in X. congruence.
    + apply IH. intros b Hb. apply D. right. exact Hb.
  - destruct (D Mark (or_introl eq_refl)).
Qed.
Lemma find_ins x P N C s : disj N C -> find_var x (P ++ C) = Some s -> find_var x (P ++ N ++ C) = Some s.
Proof.
  intros D. rewrite !find_app. destruct (find_var x P); [auto|]. intro H. rewrite (find_disj x N C s D H). exact H.
Qed.
Lemma gone_skel x E : skel (set_gone x E) = skel E.
Proof.
  unfold skel. induction E as [|[y s|] E IH]; cbn; [reflexivity| |f_equal; exact IH].
  destruct (String.eqb x y); cbn; f_equal; exact IH.
Qed.
Lemma gone_app x A B : set_gone x (A ++ B) =
  match find_var x A with Some _ => set_gone x A ++ B | None => A ++ set_gone x B end.
Proof.
  induction A as [|[y s|] A IH]; cbn; [reflexivity| |].
  - destruct (String.eqb x y); [reflexivity|]. rewrite IH. destruct (find_var x A); reflexivity.
  - rewrite IH. destruct (find_var x A); reflexivity.
Qed.
Lemma leave_app Q E : marks Q = false -> leave (Q ++ Mark :: E) = E.
Proof. induction Q as [|[]]; cbn; intro H; [reflexivity|auto|discriminate H]. Qed.
Lemma skel_length A B : skel A = skel B -> List.length A = List.length B.
Proof. intro H. apply (f_equal (@List.length _)) in H. unfold skel in H. rewrite !map_length in H. exact H. Qed.
Lemma app_split {A} (a b c d : list A) : List.length a = List.length b -> a ++ c = b ++ d -> a = b /\ c = d.
Proof.
  revert b. induction a as [|x a IH]; intros [|y b] H E; try discriminate H; cbn in *; [auto|].
  injection E as <- E. destruct (IH b ltac:(congruence) E) as [-> ->]. auto.
Qed.
Lemma env_eqb_refl E : env_eqb E E = true.
Proof.
  induction E as [|[x s|] E IH]; cbn; [reflexivity| |exact IH].
  rewrite String.eqb_refl, IH. destruct s; reflexivity.
Qed.
Lemma env_eqb_app A B C D : List.length A = List.length B -> env_eqb (A ++ C) (B ++ D) = env_eqb A B && env_eqb C D.
Proof.
  revert B. induction A as [|a A IH]; intros [|b B] H; try discriminate H; cbn; [reflexivity|].
  rewrite IH by (cbn in H; congruence). apply andb_assoc.
Qed.
Lemma join_refl E : join E E = E.
Proof. induction E as [|[x s|] E IH]; cbn; [reflexivity| |]; rewrite IH; [destruct s|]; reflexivity. Qed.
Lemma join_app A B C D : skel A = skel B -> join (A ++ C) (B ++ D) = join A B ++ join C D.
Proof.
  revert B. induction A as [|[x s|] A IH]; intros [|[y t|] B] H; try discriminate H; cbn; [reflexivity| |];
    injection H as H; rewrite IH by congruence; reflexivity.
Qed.
Lemma join_skel A B : skel A = skel B -> skel (join A B) = skel A.
Proof.
  revert B. induction A as [|[x s|] A IH]; intros [|[y t|] B] H; try discriminate H; cbn; [reflexivity| |];
    injection H as H; f_equal; apply IH; congruence.
Qed.

(** [r'] is [r] with [N] in the middle. *)
Definition same (P C N : env) (r r' : mres) : Prop :=
  match r with
  | None => True
  | Some (R, o) => exists P1 C1, R = P1 ++ C1 /\ skel P1 = skel P /\ skel C1 = skel C /\ r' = Some (P1 ++ N ++ C1, o)
  end.
Definition same_s (P C N : env) (r r' : option env) : Prop :=
  match r with
  | None => True
  | Some R => exists Q P1 C1, R = Q ++ P1 ++ C1 /\ marks Q = false /\ skel P1 = skel P /\ skel C1 = skel C
                              /\ r' = Some (Q ++ P1 ++ N ++ C1)
  end.
Lemma same_val P C N o : same P C N (Some (P ++ C, o)) (Some (P ++ N ++ C, o)).
Proof. exists P, C. auto. Qed.
Lemma same_bind P C N r r' k k' : same P C N r r' ->
  (forall P1 C1 o, skel P1 = skel P -> skel C1 = skel C -> same P1 C1 N (k (P1 ++ C1) o) (k' (P1 ++ N ++ C1) o)) ->
  same P C N (mbind r k) (mbind r' k').
Proof.
  unfold same at 1. destruct r as [[R o]|]; cbn [mbind]; [|intros; exact I].
  intros (P1 & C1 & -> & HP & HC & ->) Hk. specialize (Hk P1 C1 o HP HC). cbn [mbind]. unfold same in *.
  destruct (k (P1 ++ C1) o) as [[R o']|]; [|exact I].
  destruct Hk as (P2 & C2 & -> & HP2 & HC2 & ->). exists P2, C2. repeat split; congruence.
Qed.
Lemma same_no_value P C N r r' : same P C N r r' -> same P C N (no_value r) (no_value r').
Proof. intro H. apply (same_bind _ _ _ _ _ _ _ H). intros. apply same_val. Qed.
Lemma same_owner P C N r r' : same P C N r r' -> same P C N (owner r) (owner r').
Proof. intro H. apply (same_bind _ _ _ _ _ _ _ H). intros. apply same_val. Qed.
Lemma same_if (b : bool) P C N r r' :
  same P C N r r' -> same P C N (if b then None else r) (if b then None else r').
Proof. destruct b; [intros _; exact I|auto]. Qed.
Lemma same_look P C N x : disj N C ->
  same P C N (match find_var x (P ++ C) with Some Gone | None => None | Some _ => Some (P ++ C, false) end)
             (match find_var x (P ++ N ++ C) with Some Gone | None => None | Some _ => Some (P ++ N ++ C, false) end).
Proof.
  intro D. destruct (find_var x (P ++ C)) as [s|] eqn:F; [|exact I]. rewrite (find_ins x P N C s D F).
  destruct s; [apply same_val|apply same_val|exact I].
Qed.
Lemma same_join P C N P1 C1 P2 C2 o : skel P1 = skel P -> skel C1 = skel C -> skel P2 = skel P -> skel C2 = skel C ->
  same P C N (Some (join (P1 ++ C1) (P2 ++ C2), o)) (Some (join (P1 ++ N ++ C1) (P2 ++ N ++ C2), o)).
Proof.
  intros. exists (join P1 P2), (join C1 C2).
  rewrite !join_app, join_refl by congruence. rewrite !join_skel by congruence. auto.
Qed.
Lemma same_branch P C N ra ra' rb rb' : same P C N ra ra' -> same P C N rb rb' ->
  same P C N (mbind ra (fun A o => mbind rb (fun B o' => Some (join A B, o || o'))))
             (mbind ra' (fun A o => mbind rb' (fun B o' => Some (join A B, o || o')))).
Proof.
  intros HA HB. unfold same in HA, HB.
  destruct ra as [[RA oa]|]; [|exact I]. destruct HA as (PA & CA & -> & HPA & HCA & ->). cbn [mbind].
  destruct rb as [[RB ob]|]; [|exact I]. destruct HB as (PB & CB & -> & HPB & HCB & ->). cbn [mbind].
  apply same_join; assumption.
Qed.

Section Boxed.
Variable h : bool.

Definition E_ok (e : expr) : Prop := forall P C N, disj N C -> same P C N (mv h e (P ++ C)) (mv h e (P ++ N ++ C)).
Definition L_ok (e : expr) : Prop := forall P C N, disj N C -> same P C N (place h e (P ++ C)) (place h e (P ++ N ++ C)).
Definition B_ok (b : block) : Prop :=
  forall P C N, disj N C -> same P C N (mv_block h b (P ++ C)) (mv_block h b (P ++ N ++ C)).
Definition S_ok (s : stmt) : Prop :=
  forall P C N, disj N C -> same_s P C N (mv_stmt h s (P ++ C)) (mv_stmt h s (P ++ N ++ C)).
Definition SS_ok (l : list stmt) : Prop :=
  forall P C N, disj N C -> same_s P C N (mv_stmts h l (P ++ C)) (mv_stmts h l (P ++ N ++ C)).

Lemma mv_block_eq l e E : mv_block h (Block l e) E =
  match mv_stmts h l (Mark :: E) with
  | Some E => match e with Some e => mbind (mv h e E) (fun E o => Some (leave E, o)) | None => Some (leave E, false) end
  | None => None
  end.
Proof. reflexivity. Qed.

Lemma SS_nil : SS_ok [].
Proof. intros P C N D. exists [], P, C. auto. Qed.
Lemma marks_app A B : marks (A ++ B) = marks A || marks B.
Proof. apply existsb_app. Qed.
Lemma SS_cons s l : S_ok s -> SS_ok l -> SS_ok (s :: l).
Proof.
  intros Hs Hl P C N D. specialize (Hs P C N D). cbn [mv_stmts]. fold (mv_stmts h).
  change (same_s P C N (match mv_stmt h s (P ++ C) with Some E => mv_stmts h l E | None => None end)
            (match mv_stmt h s (P ++ N ++ C) with Some E => mv_stmts h l E | None => None end)).
  unfold same_s at 1 in Hs. destruct (mv_stmt h s (P ++ C)) as [R|]; [|exact I].
  destruct Hs as (Q & P1 & C1 & -> & HQ & HP & HC & ->). rewrite !(app_assoc Q P1).
  specialize (Hl (Q ++ P1) C1 N (disj_skel _ _ _ (eq_sym HC) D)).
  unfold same_s in *. destruct (mv_stmts h l ((Q ++ P1) ++ C1)) as [R|]; [|exact I].
  destruct Hl as (Q2 & P2 & C2 & -> & HQ2 & HP2 & HC2 & ->).
  assert (LE : List.length P2 = List.length (Q ++ P1)) by (apply skel_length; exact HP2).
  exists (Q2 ++ firstn (List.length Q) P2), (skipn (List.length Q) P2), C2.
  assert (SK : skel (skipn (List.length Q) P2) = skel P1 /\ marks (firstn (List.length Q) P2) = false).
  { rewrite <- (firstn_skipn (List.length Q) P2) in HP2. rewrite !skel_app in HP2. apply app_split in HP2.
    - destruct HP2 as [A B]. split; [exact B|]. revert A HQ. generalize (firstn (List.length Q) P2). clear.
      induction Q as [|[]]; intros [|[]] A HQ; try discriminate A; try discriminate HQ; try reflexivity.
      cbn in *. injection A as _ A. eauto.
    - unfold skel. rewrite !map_length, firstn_length, LE, app_length. lia. }
  destruct SK as [SK MK]. repeat split.
  - rewrite <- app_assoc. rewrite (app_assoc (firstn _ _)). rewrite firstn_skipn. reflexivity.
  - rewrite marks_app, HQ2, MK. reflexivity.
  - congruence.
  - congruence.
  - rewrite <- app_assoc. rewrite (app_assoc (firstn _ _)). rewrite firstn_skipn. reflexivity.
Qed.
Lemma skel_mark Q P X : skel X = skel (Q ++ Mark :: P) -> marks Q = false ->
  exists Q' P', X = Q' ++ Mark :: P' /\ marks Q' = false /\ skel P' = skel P.
Proof.
  revert X. induction Q as [|[x s|] Q IH]; intros [|[y t|] X] H HQ; try discriminate H; try discriminate HQ.
  - exists [], X. cbn in H. injection H as H. auto.
  - cbn in H. injection H as _ H. destruct (IH X H HQ) as (Q' & P' & -> & A & B). exists (Bind y t :: Q'), P'. auto.
Qed.
Lemma B_block l e : SS_ok l -> (forall x, e = Some x -> E_ok x) -> B_ok (Block l e).
Proof.
  intros Hl He P C N D. rewrite !mv_block_eq. specialize (Hl (Mark :: P) C N D).
  unfold same_s in Hl. cbn [app] in Hl. destruct (mv_stmts h l (Mark :: P ++ C)) as [R|]; [|exact I].
  destruct Hl as (Q & P1 & C1 & -> & HQ & HP & HC & ->).
  destruct (skel_mark [] P P1 HP eq_refl) as (Q' & P' & -> & HQ' & HP').
  assert (Q' = []) as ->. { destruct Q' as [|[]]; [reflexivity|discriminate HP|discriminate HQ']. }
  cbn [app]. destruct e as [e|].
  - specialize (He e eq_refl (Q ++ Mark :: P') C1 N (disj_skel _ _ _ (eq_sym HC) D)).
    rewrite <- !app_assoc in He. cbn [app] in He. unfold same in He.
    destruct (mv h e (Q ++ Mark :: P' ++ C1)) as [[R o]|]; [|exact I].
    destruct He as (P2 & C2 & -> & HP2 & HC2 & ->). cbn [mbind].
    destruct (skel_mark Q P' P2 HP2 HQ) as (Q2 & P3 & -> & HQ2 & HP3).
    rewrite <- !app_assoc. cbn [app]. rewrite !leave_app by assumption. exists P3, C2. repeat split; congruence.
  - rewrite !leave_app by assumption. exists P', C1. repeat split; congruence.
Qed.

Fixpoint E_all (e : expr) : E_ok e /\ L_ok e
with B_all (b : block) : B_ok b
with S_all (s : stmt) : S_ok s.
Proof.
  - assert (NL : forall P C N r', same P C N None r') by (intros; exact I).
    destruct e; try (split; intros P C N D; [exact (same_val P C N _)|exact I]); split; intros P C N D;
      cbn [mv place]; try exact I.
    (* EVar *)
    + destruct (find_var x (P ++ C)) as [s|] eqn:F; [|exact I]. rewrite (find_ins x P N C s D F).
      destruct s; [apply same_val| |exact I].
      rewrite !gone_app. rewrite find_app in F. destruct (find_var x P) eqn:FP.
      * exists (set_gone x P), C. rewrite gone_skel. auto.
      * rewrite (find_disj x N C _ D F). exists P, (set_gone x C). rewrite gone_skel. auto.
    + apply same_look. exact D.
    (* EUn *)
    + destruct o; apply same_no_value; apply E_all; exact D.
    + destruct o; try exact I. apply E_all. exact D.
    (* EBin *)
    + apply same_bind; [apply E_all; exact D|]. intros P1 C1 o1 HP HC. apply same_no_value. apply E_all.
      exact (disj_skel _ _ _ (eq_sym HC) D).
    (* ECast *)
    + apply same_no_value; apply E_all; exact D.
    (* EIndex *)
    + apply same_bind; [apply E_all; exact D|]. intros P1 C1 o1 HP HC. apply same_no_value. apply E_all.
      exact (disj_skel _ _ _ (eq_sym HC) D).
    + apply same_bind; [apply E_all; exact D|]. intros P1 C1 o1 HP HC. apply same_no_value. apply E_all.
      exact (disj_skel _ _ _ (eq_sym HC) D).
    (* EVal *)
    + apply same_if. apply same_no_value; apply E_all; exact D.
    + apply E_all; exact D.
    (* EThis *)
    + apply same_owner; apply E_all; exact D.
    + apply E_all; exact D.
    (* EIf *)
    + apply same_bind; [apply E_all; exact D|]. intros P1 C1 o1 HP HC.
      assert (D1 : disj N C1) by exact (disj_skel _ _ _ (eq_sym HC) D).
      apply same_branch; apply B_all; exact D1.
    (* EBlock *)
    + apply B_all. exact D.
    (* EFromBits, EIntoBits, ESwap, ELen *)
    + apply same_owner; apply E_all; exact D.
    + apply same_no_value; apply E_all; exact D.
    + apply same_no_value; apply E_all; exact D.
    + apply same_no_value; apply E_all; exact D.
    (* ECall *)
    + apply same_bind; [apply E_all; exact D|]. intros P1 C1 o1 HP HC. apply same_owner. apply E_all.
      exact (disj_skel _ _ _ (eq_sym HC) D).
    + apply same_owner; apply E_all; exact D.
    + apply same_owner; apply E_all; exact D.
    + apply same_owner; apply E_all; exact D.
    (* ERepeat *)
    + apply same_bind; [apply E_all; exact D|]. intros P1 C1 o1 HP HC. destruct o1; [exact I|apply same_val].
    (* EOk *)
    + apply E_all; exact D.
    (* EContains *)
    + apply same_bind; [apply E_all; exact D|]. intros P1 C1 o1 HP HC.
      assert (D1 : disj N C1) by exact (disj_skel _ _ _ (eq_sym HC) D).
      apply same_bind; [apply E_all; exact D1|]. intros P2 C2 o2 HP2 HC2.
      apply same_no_value. apply E_all. exact (disj_skel _ _ _ (eq_sym HC2) D1).
    (* EFinish *)
    + apply same_no_value; apply E_all; exact D.
  - destruct b as [l e]. apply B_block.
    + induction l as [|s l IH]; [exact SS_nil|]. apply SS_cons; [apply S_all|exact IH].
    + intros x H. destruct e as [e|]; [|discriminate H]. injection H as <-. apply E_all.
  - assert (W : forall P C N r r' (k : env -> bool -> option env), same P C N r r' ->
        (forall P1 C1 o, skel P1 = skel P -> skel C1 = skel C ->
           same_s P1 C1 N (k (P1 ++ C1) o) (k (P1 ++ N ++ C1) o)) ->
        same_s P C N (match r with Some (E, o) => k E o | None => None end)
                     (match r' with Some (E, o) => k E o | None => None end)).
    { clear. intros P C N r r' k X Hk. unfold same in X.
      destruct r as [[R o]|]; [|exact I]. destruct X as (P1 & C1 & -> & HP & HC & ->).
      specialize (Hk P1 C1 o HP HC). unfold same_s in *. destruct (k (P1 ++ C1) o); [|exact I].
      destruct Hk as (Q & P2 & C2 & A & B & HP2 & HC2 & X). exists Q, P2, C2. repeat split; try assumption; congruence. }
    assert (K : forall P C N, same_s P C N (Some (P ++ C)) (Some (P ++ N ++ C))).
    { clear. intros. exists [], P, C. auto. }
    destruct s as [m x t e|p e|o p e|e|c b|[e|]|e|x s e]; intros P C N D; cbn [mv_stmt].
    + apply (W P C N _ _ (fun E o => Some (Bind x (if o then Owned else Plain) :: E))); [apply E_all; exact D|].
      intros P1 C1 o HP HC. exists [Bind x (if o then Owned else Plain)], P1, C1. auto.
    + apply (W P C N _ _ (fun E _ => match place h p E with Some (E, _) => Some E | None => None end));
        [apply E_all; exact D|].
      intros P1 C1 o HP HC. apply (W P1 C1 N _ _ (fun E _ => Some E)); [|intros; apply K].
      apply E_all. exact (disj_skel _ _ _ (eq_sym HC) D).
    + apply (W P C N _ _ (fun E _ => match place h p E with Some (E, _) => Some E | None => None end));
        [apply E_all; exact D|].
      intros P1 C1 o1 HP HC. apply (W P1 C1 N _ _ (fun E _ => Some E)); [|intros; apply K].
      apply E_all. exact (disj_skel _ _ _ (eq_sym HC) D).
    + apply (W P C N _ _ (fun E _ => Some E)); [apply E_all; exact D|intros; apply K].
    + change (same_s P C N
        (match mv h c (P ++ C) with
         | Some (E', _) => match mv_block h b E' with
                           | Some (E'', _) => if env_eqb (P ++ C) E' && env_eqb (P ++ C) E'' then Some (P ++ C) else None
                           | None => None end
         | None => None end)
        (match mv h c (P ++ N ++ C) with
         | Some (E', _) => match mv_block h b E' with
                           | Some (E'', _) => if env_eqb (P ++ N ++ C) E' && env_eqb (P ++ N ++ C) E''
                                              then Some (P ++ N ++ C) else None
                           | None => None end
         | None => None end)).
      pose proof (proj1 (E_all c) P C N D) as X. unfold same in X.
      destruct (mv h c (P ++ C)) as [[R o]|]; [|exact I]. destruct X as (P1 & C1 & -> & HP & HC & ->).
      pose proof (B_all b P1 C1 N (disj_skel _ _ _ (eq_sym HC) D)) as X. unfold same in X.
      destruct (mv_block h b (P1 ++ C1)) as [[R o']|]; [|exact I]. destruct X as (P2 & C2 & -> & HP2 & HC2 & ->).
      rewrite !env_eqb_app by (apply skel_length; congruence). rewrite env_eqb_refl. cbn [andb].
      destruct ((env_eqb P P1 && env_eqb C C1) && (env_eqb P P2 && env_eqb C C2)); [apply K|exact I].
    + apply (W P C N _ _ (fun E _ => Some E)); [apply E_all; exact D|intros; apply K].
    + apply K.
    + apply (W P C N _ _ (fun E _ => Some E)); [apply E_all; exact D|intros; apply K].
    + destruct (find_var x (P ++ C)) as [s'|] eqn:F; [|exact I]. rewrite (find_ins x P N C s' D F).
      destruct s'; [| |exact I];
        (apply (W P C N _ _ (fun E _ => Some E)); [apply E_all; exact D|intros; apply K]).
Qed.

Lemma SS_all l : SS_ok l.
Proof. induction l; [exact SS_nil|]. apply SS_cons; [apply S_all|assumption]. Qed.

(** ** Fragments repeated for the fields *)

Lemma mv_stmts_app a b E :
  mv_stmts h (a ++ b) E = match mv_stmts h a E with Some E' => mv_stmts h b E' | None => None end.
Proof.
  revert E. induction a as [|s a IH]; intro E; [reflexivity|].
  change (match mv_stmt h s E with Some E => mv_stmts h (a ++ b) E | None => None end =
          match (match mv_stmt h s E with Some E => mv_stmts h a E | None => None end)
          with Some E' => mv_stmts h b E' | None => None end).
  destruct (mv_stmt h s E); [apply IH|reflexivity].
Qed.
Definition segment (l : list stmt) (C : env) : Prop :=
  exists N, mv_stmts h l C = Some (N ++ C) /\ disj N C.
Definition free (N C : env) : bool :=
  forallb (fun b => match b with Bind x _ => match find_var x C with None => true | _ => false end | Mark => false end) N.
Definition segment_b (l : list stmt) (C : env) : bool :=
  match mv_stmts h l C with
  | Some R =>
      let n := (List.length R - List.length C)%nat in
      Nat.leb (List.length C) (List.length R) && env_eqb (skipn n R) C && free (firstn n R) C
  | None => false
  end.
Lemma env_eqb_eq A B : env_eqb A B = true -> A = B.
Proof.
  revert B. induction A as [|a A IH]; intros [|b B] H; try discriminate H; [reflexivity|].
  cbn in H. apply andb_true_iff in H as [H1 H2]. rewrite (IH B H2). f_equal.
  destruct a as [x s|], b as [y t|]; try discriminate H1; [|reflexivity]. cbn in H1.
  apply andb_true_iff in H1 as [H1 H3]. apply String.eqb_eq in H1. subst y. destruct s, t; try discriminate H3; reflexivity.
Qed.
Lemma segment_b_ok l C : segment_b l C = true -> segment l C.
Proof.
  unfold segment_b, segment. destruct (mv_stmts h l C) as [R|]; [|discriminate]. cbv zeta. intro H.
  apply andb_true_iff in H as [H H3]. apply andb_true_iff in H as [H1 H2]. apply env_eqb_eq in H2.
  revert H2 H3. generalize (List.length R - List.length C)%nat. intros n H2 H3.
  exists (firstn n R). split; [rewrite <- H2, firstn_skipn; reflexivity|].
  intros b Hb. unfold free in H3. rewrite forallb_forall in H3. specialize (H3 b Hb).
  destruct b; [|discriminate H3]. destruct (find_var x C); [discriminate H3|reflexivity].
Qed.
Lemma segment_over l C M : segment l C -> disj M C -> exists N, mv_stmts h l (M ++ C) = Some (N ++ C) /\ disj N C.
Proof.
  intros (N & H & HN) HM. pose proof (SS_all l [] C M HM) as X. cbn [app] in X. rewrite H in X. cbn [same_s] in X.
  destruct X as (Q & P1 & C1 & A & _ & HP & HC & B).
  assert (P1 = []) as -> by (destruct P1; [reflexivity|discriminate HP]). cbn [app] in A, B.
  assert (X : Q = N /\ C1 = C).
  { apply skel_length in HC. apply app_split; [|symmetry; exact A].
    apply (f_equal (@List.length _)) in A. rewrite !app_length in A. lia. }
  destruct X as [-> ->]. exists (N ++ M). rewrite <- app_assoc. split; [exact B|].
  intros b Hb. apply in_app_or in Hb as [Hb|Hb]; [exact (HN b Hb)|exact (HM b Hb)].
Qed.
Lemma segment_app a b C : segment a C -> segment b C -> segment (a ++ b) C.
Proof.
  intros (M & H & HM) Hb. destruct (segment_over b C M Hb HM) as (N & HN & D).
  exists N. rewrite mv_stmts_app, H. auto.
Qed.
Lemma segment_nil C : segment [] C.
Proof. exists []. split; [reflexivity|]. intros b []. Qed.
Lemma segment_flat {A} (g : A -> list stmt) l C : (forall a, segment (g a) C) -> segment (flat_map g l) C.
Proof. intro H. induction l; cbn [flat_map]; [apply segment_nil|apply segment_app; auto]. Qed.

(** The rest of a block. *)
Definition runs (l : list stmt) (e : option expr) (C : env) : bool :=
  match mv_stmts h l C with
  | Some R => match e with Some e => match mv h e R with Some _ => true | None => false end | None => true end
  | None => false
  end.
Lemma runs_pre a C C' b e : mv_stmts h a C = Some C' -> runs b e C' = true -> runs (a ++ b) e C = true.
Proof. unfold runs. intros H. rewrite mv_stmts_app, H. auto. Qed.
Lemma runs_over l e C M : runs l e C = true -> disj M C -> runs l e (M ++ C) = true.
Proof.
  unfold runs. intros H HM. pose proof (SS_all l [] C M HM) as X. cbn [app] in X.
  destruct (mv_stmts h l C) as [R|]; [|discriminate H].
  destruct X as (Q & P1 & C1 & -> & _ & HP & HC & ->).
  assert (P1 = []) as -> by (destruct P1; [reflexivity|discriminate HP]). cbn [app] in *.
  destruct e as [e|]; [|reflexivity].
  pose proof (proj1 (E_all e) Q C1 M (disj_skel _ _ _ (eq_sym HC) HM)) as X. unfold same in X.
  destruct (mv h e (Q ++ C1)) as [[R o]|]; [|discriminate H]. destruct X as (P2 & C2 & _ & _ & _ & ->). reflexivity.
Qed.
Lemma runs_seg a C b e : segment a C -> runs b e C = true -> runs (a ++ b) e C = true.
Proof.
  intros (M & H & HM) Hb. unfold runs. rewrite mv_stmts_app, H. exact (runs_over b e C M Hb HM).
Qed.

(** ** User expressions *)

Lemma cons_eq s l E : mv_stmts h (s :: l) E = match mv_stmt h s E with Some E => mv_stmts h l E | None => None end.
Proof. reflexivity. Qed.
Lemma let_eq m x t e E : mv_stmt h (SLet m x t e) E =
  match mv h e E with Some (E, o) => Some (Bind x (if o then Owned else Plain) :: E) | None => None end.
Proof. reflexivity. Qed.
Lemma sexpr_eq e E : mv_stmt h (SExpr e) E = match mv h e E with Some (E, _) => Some E | None => None end.
Proof. reflexivity. Qed.
Lemma eblock_eq b E : mv h (EBlock b) E = mv_block h b E.
Proof. reflexivity. Qed.
Lemma eif_eq c a b E : mv h (EIf c a b) E =
  mbind (mv h c E) (fun E _ =>
    mbind (mv_block h a E) (fun A o => mbind (mv_block h b E) (fun B o' => Some (join A B, o || o')))).
Proof. reflexivity. Qed.
Lemma cast_eq e t E : mv h (ECast e t) E = no_value (mv h e E).
Proof. reflexivity. Qed.
Lemma into_eq e E : mv h (EIntoBits e) E = no_value (mv h e E).
Proof. reflexivity. Qed.
Lemma call_eq e f a E : mv h (ECall e f a) E = mbind (place h e E) (fun E _ => owner (mv h a E)).
Proof. reflexivity. Qed.

Definition alike (e e' : expr) : Prop := forall E, mv h e E = mv h e' E.
Lemma mbind_ext r k k' : (forall E o, k E o = k' E o) -> mbind r k = mbind r k'.
Proof. intro H. destruct r as [[E o]|]; [apply H|reflexivity]. Qed.
Lemma put_alike bf bc f e e' E : alike e e' -> mv_stmts h (put bf bc f e) E = mv_stmts h (put bf bc f e') E.
Proof.
  intro H. unfold put, let_, if_else, as_.
  destruct (negb (is_integer_backed bf)); destruct (f_ty f) as [[]|n|];
    rewrite ?cons_eq, ?sexpr_eq, ?let_eq, ?eblock_eq, ?mv_block_eq, ?eif_eq, ?cons_eq, ?let_eq, ?eif_eq, ?cast_eq, ?into_eq,
      ?(H _); try reflexivity;
    (destruct (mv h (mask_expr bf (fbits bc f)) E) as [[E' o]|]; [|reflexivity]);
    rewrite ?cons_eq, ?let_eq, ?cast_eq, ?into_eq, ?(H _); reflexivity.
Qed.
Lemma setter_call_alike bf bc f e e' E :
  alike e e' -> mv_stmts h (setter_call bf bc f e) E = mv_stmts h (setter_call bf bc f e') E.
Proof.
  intro H. unfold setter_call, as_any. rewrite !cons_eq, !sexpr_eq, !call_eq.
  erewrite mbind_ext; [reflexivity|]. intros E' o. cbv beta.
  destruct (f_ty f) as [[]|n|]; rewrite ?cast_eq, ?(H _); try reflexivity.
  destruct (is_integer_backed bf); [|rewrite (H _); reflexivity].
  unfold unpack, let_, as_. rewrite !eblock_eq, !mv_block_eq, !cons_eq, !let_eq, !cast_eq, (H _). reflexivity.
Qed.
Lemma assign_alike bf f e e' E : alike e e' -> mv_stmts h (assign bf f e) E = mv_stmts h (assign bf f e') E.
Proof. intro H. unfold assign. destruct (has_setter f); [apply setter_call_alike|apply put_alike]; exact H. Qed.
Lemma segment_alike l l' C : (forall E, mv_stmts h l E = mv_stmts h l' E) -> segment l' C -> segment l C.
Proof. intros H (N & X & D). exists N. rewrite H. auto. Qed.
End Boxed.

(** A default expression that names no local variable of the function around it
    and does not return from it. *)
Fixpoint standalone (e : expr) : bool :=
  match e with
  | ELit _ _ | EBool _ | EMax _ | EBits _ | EConst _ _ | EArray _ _ | EUnit | ENew _ _ | EUser _ _ => true
  | EUn UDeref _ => false
  | EUn _ e | ECast e _ | EFromBits _ e | EIntoBits e | ESwap e => standalone e
  | EBin _ a b => standalone a && standalone b
  | _ => false
  end.
Definition stand_in (o : bool) : expr := if o then ENew PSelf "" else EUnit.
Lemma standalone_alike h e : standalone e = true -> exists o, alike h e (stand_in o).
Proof.
  enough (X : standalone e = true -> exists o, forall E, mv h e E = Some (E, o)).
  { intro H. destruct (X H) as (o & Ho). exists o. intro E. rewrite Ho. destruct o; reflexivity. }
  induction e; cbn [standalone]; intro H; try discriminate H; try (eexists; intro; reflexivity).
  - destruct o; try discriminate H; destruct (IHe H) as (o & X); exists false; intro E; cbn [mv]; rewrite X; reflexivity.
  - apply andb_true_iff in H as [H1 H2]. destruct (IHe1 H1) as (o1 & X1), (IHe2 H2) as (o2 & X2).
    exists false. intro E. cbn [mv mbind]. rewrite X1. cbn [mbind]. rewrite X2. reflexivity.
  - destruct (IHe H) as (o & X); exists false; intro E; cbn [mv]; rewrite X; reflexivity.
  - destruct (IHe H) as (o & X); exists true; intro E; cbn [mv]; rewrite X; reflexivity.
  - destruct (IHe H) as (o & X); exists false; intro E; cbn [mv]; rewrite X; reflexivity.
  - destruct (IHe H) as (o & X); exists false; intro E; cbn [mv]; rewrite X; reflexivity.
Qed.

(** ** The functions *)

Lemma moves_runs h i : match fn_body i with Block l e => runs h l e (Mark :: start_env i) end = true -> moves_ok h i = true.
Proof.
  unfold moves_ok, runs. destruct (fn_body i) as [l e]. rewrite mv_block_eq.
  destruct (mv_stmts h l (Mark :: start_env i)) as [R|]; [|auto]. destruct e as [e|]; [|reflexivity].
  destruct (mv h e R) as [[]|]; auto.
Qed.
Lemma runs_seg_last h a C e : segment h a C -> runs h [] e C = true -> runs h a e C = true.
Proof. intros A B. rewrite <- (app_nil_r a). exact (runs_seg h a C [] e A B). Qed.

(** All cases for the shapes of a bitfield and a field. *)
Ltac heap bf := unfold invert_all_fn, into_fn, into_slice_fn, checked_into_slice_fn, get_bits_var, trait_into_fn, init, load, is_heap; destruct (a_array_heap (b_args bf)).
Ltac back bf := destruct bf as [? ? [?|?|] ? ? ?].
Ltac shape_f f := destruct f as [? ? [[]|?|] ? ? [] [] ? ? ?].
Ltac comp := vm_compute; reflexivity.
Ltac seg f := apply segment_b_ok; shape_f f; comp.
Lemma runs_cons h s l C C' e : mv_stmt h s C = Some C' -> runs h l e C' = true -> runs h (s :: l) e C = true.
Proof. unfold runs. intro H. rewrite cons_eq, H. auto. Qed.
(** Executes statements before a loop over the fields. *)
Ltac step1 :=
  match goal with |- runs ?h (?s :: ?l) ?e ?C = true =>
    let r := eval vm_compute in (mv_stmt h s C) in
    match r with Some ?C' => apply (runs_cons h s l C C' e); [comp|] end end.
Ltac pre :=
  match goal with |- runs ?h (?a ++ ?b) ?e ?C = true =>
    let r := eval vm_compute in (mv_stmts h a C) in
    match r with Some ?C' => apply (runs_pre h a C C' b e); [comp|] end end.

Section Defaults.
Variable dx : field -> expr.
Hypothesis user : forall f, standalone (dx f) = true.

Lemma default_segment h bf f C : (forall o, segment h (assign bf f (stand_in o)) C) -> segment h (default_stmts dx bf f) C.
Proof.
  intro H. destruct (standalone_alike h (dx f) (user f)) as (o & Ho).
  apply (segment_alike _ _ (assign bf f (stand_in o))); [intro E; apply assign_alike; exact Ho|]. apply H.
Qed.
Ltac dseg := apply segment_flat; let f := fresh in intro f; apply default_segment; intros []; seg f.
Ltac fseg := apply segment_flat; let f := fresh in intro f; seg f.
Lemma new_impl_seg h bf d C :
  (forall f, segment h (assign bf f (zero_expr bf f)) C) -> (forall f o, segment h (assign bf f (stand_in o)) C) ->
  segment h (new_impl dx bf d) C.
Proof.
  intros HZ HD. unfold new_impl. apply segment_app; [apply segment_flat; exact HZ|].
  apply segment_app; destruct d; try apply segment_nil; apply segment_flat; intro f; apply default_segment; apply HD.
Qed.


Ltac new_seg := apply new_impl_seg; [let f := fresh in intro f; seg f|let f := fresh in intros f []; seg f].
Ltac body := apply moves_runs;
  unfold new_fn, new_without_defaults_fn, clear_all_fn, clear_fn, clear_default_fn, write_defaults_fn, write_fn, from_fn,
    from_slice_fn, checked_from_slice_fn, trait_from_fn, invert_all_fn, debug_fn, set_bit_fn, checked_set_bit_fn,
    get_bit_fn, checked_get_bit_fn, from_tail; cbn [method fn_body].
Lemma new_ok bf : moves_ok (is_heap bf) (new_fn dx bf) = true /\ moves_ok (is_heap bf) (new_without_defaults_fn dx bf) = true.
Proof.
  split; body; unfold new_stmts; heap bf; back bf; step1; (apply runs_seg_last; [new_seg|comp]).
Qed.
Lemma builder_new_ok bf d : moves_ok (is_heap bf) (builder_new_fn dx bf d) = true.
Proof.
  unfold builder_new_fn. destruct (a_new (b_args bf)); [comp|].
  body; unfold new_stmts; heap bf; back bf; step1; (apply runs_seg_last; [new_seg|comp]).
Qed.
Lemma default_ok bf : moves_ok (is_heap bf) (default_fn dx bf) = true.
Proof.
  unfold default_fn. destruct (a_new (b_args bf)); [comp|].
  body; heap bf; back bf; step1; (apply runs_seg_last; [dseg|comp]).
Qed.
Lemma clear_all_ok bf d : moves_ok (is_heap bf) (clear_all_fn dx bf d) = true.
Proof. body; heap bf; back bf; step1; (apply runs_seg_last; [new_seg|comp]). Qed.
Lemma clear_ok bf f : moves_ok (is_heap bf) (clear_fn bf f) = true.
Proof. body; heap bf; back bf; step1; (apply runs_seg_last; [seg f|comp]). Qed.
Lemma clear_default_ok bf f : moves_ok (is_heap bf) (clear_default_fn dx bf f) = true.
Proof. body; heap bf; back bf; step1; (apply runs_seg_last; [apply default_segment; intros []; seg f|comp]). Qed.
Lemma write_defaults_ok bf : moves_ok (is_heap bf) (write_defaults_fn dx bf) = true.
Proof. body; heap bf; back bf; step1; (apply runs_seg_last; [dseg|comp]). Qed.

Ltac copy_tail d := apply runs_seg_last; [apply segment_app; [fseg|destruct d; [dseg|apply segment_nil]]|comp].
Lemma write_ok bf v d : moves_ok (is_heap bf) (write_fn dx bf v d) = true.
Proof.
  body. generalize (Gen.variant_endian (a_write_endian (b_args bf)) v). intros []; heap bf; back bf; step1; step1; pre; copy_tail d.
Qed.
Lemma from_ok bf v d : moves_ok (is_heap bf) (from_fn dx bf v d) = true.
Proof.
  body. unfold from_convert. generalize (Gen.variant_endian (a_from_endian (b_args bf)) v).
  intros []; destruct v; heap bf; back bf; pre; step1; copy_tail d.
Qed.
Lemma from_slice_ok bf v d : moves_ok (is_heap bf) (from_slice_fn dx bf v d) = true.
Proof.
  body. generalize (Gen.variant_endian (a_from_endian (b_args bf)) v).
  intros []; heap bf; back bf; step1; step1; pre; pre; step1; copy_tail d.
Qed.
Lemma checked_from_slice_ok bf v d : moves_ok (is_heap bf) (checked_from_slice_fn dx bf v d) = true.
Proof.
  body. generalize (Gen.variant_endian (a_from_endian (b_args bf)) v).
  intros []; heap bf; back bf; step1; step1; pre; pre; step1; copy_tail d.
Qed.
Lemma trait_from_ok bf : moves_ok (is_heap bf) (trait_from_fn bf) = true.
Proof.
  body. generalize (a_from_endian (b_args bf)). intros []; heap bf; back bf; step1; step1; (apply runs_seg_last; [fseg|comp]).
Qed.
Lemma invert_all_ok bf : moves_ok (is_heap bf) (invert_all_fn bf) = true.
Proof. body; heap bf; back bf; step1; pre; (apply runs_seg_last; [fseg|comp]). Qed.
Lemma debug_ok bf : moves_ok (is_heap bf) (debug_fn bf) = true.
Proof. body; heap bf; back bf; step1; step1; (apply runs_seg_last; [fseg|comp]). Qed.

Ltac direct bf f := heap bf; back bf; shape_f f; comp.
Lemma getter_ok bf f : moves_ok (is_heap bf) (getter_fn bf f) = true.
Proof. direct bf f. Qed.
Lemma setter_ok bf f : moves_ok (is_heap bf) (setter_fn bf f) = true.
Proof. direct bf f. Qed.
Lemma checked_setter_ok bf f : moves_ok (is_heap bf) (checked_setter_fn bf f) = true.
Proof.
  unfold checked_setter_fn, set_from_var, signed_check. destruct (f_ty f) as [t| |] eqn:H.
  - destruct (ity_bits t <=? f_bits f)%Z; revert H; heap bf; back bf; shape_f f; intro H; cbn in H; try discriminate H;
      injection H as <-; comp.
  - revert H; heap bf; back bf; shape_f f; intro H; cbn in H; try discriminate H; comp.
  - revert H; heap bf; back bf; shape_f f; intro H; cbn in H; try discriminate H; comp.
Qed.
Lemma invert_ok bf f : moves_ok (is_heap bf) (invert_fn bf f) = true /\ moves_ok (is_heap bf) (inverted_fn bf f) = true.
Proof. split; direct bf f. Qed.
Lemma into_ok bf v : moves_ok (is_heap bf) (into_fn bf v) = true.
Proof. unfold into_fn. generalize (Gen.variant_endian (a_into_endian (b_args bf)) v). intros []; heap bf; back bf; comp. Qed.
Lemma into_slice_ok bf v : is_integer_backed bf = false ->
  moves_ok (is_heap bf) (into_slice_fn bf v) = true /\ moves_ok (is_heap bf) (checked_into_slice_fn bf v) = true.
Proof.
  unfold into_slice_fn, checked_into_slice_fn. generalize (Gen.variant_endian (a_into_endian (b_args bf)) v).
  intros []; heap bf; back bf; intro H; split; comp.
Qed.
Lemma trait_into_ok bf : moves_ok (is_heap bf) (trait_into_fn bf) = true.
Proof.
  unfold trait_into_fn. generalize (a_into_endian (b_args bf)).
  intros []; heap bf; back bf; comp.
Qed.
Lemma guards_seg h bf prot r C :
  (forall f (i : list field), segment h [match i with
     | [] => if_ (EBin BAll (EBin BGe (V "offset") (u32 (f_off f))) (lt (V "offset") (u32 (f_off f + f_bits f)))) r
     | _ :: _ => if_ (EContains (u32 (f_off f)) (u32 (f_off f + f_bits f)) (V "offset")) r end] C) ->
  segment h (guards bf prot r) C.
Proof.
  intro H. unfold guards. induction (filter prot (b_fields bf)) as [|f l IH]; [apply segment_nil|].
  cbn [map]. exact (segment_app h [_] _ C (H f (b_ignored bf)) IH).
Qed.
Ltac gseg := apply runs_seg; [apply guards_seg; intros f []; apply segment_b_ok; comp|comp].
Lemma set_bit_ok bf : moves_ok (is_heap bf) (set_bit_fn bf) = true /\ moves_ok (is_heap bf) (checked_set_bit_fn bf) = true.
Proof. split; body; heap bf; back bf; step1; step1; gseg. Qed.
Lemma get_bit_ok bf : moves_ok (is_heap bf) (get_bit_fn bf) = true /\ moves_ok (is_heap bf) (checked_get_bit_fn bf) = true.
Proof. split; body; heap bf; back bf; step1; step1; gseg. Qed.
Lemma range_ok bf : moves_ok (is_heap bf) (set_range_fn bf) = true /\ moves_ok (is_heap bf) (checked_set_range_fn bf) = true
  /\ moves_ok (is_heap bf) (get_range_fn bf) = true /\ moves_ok (is_heap bf) (checked_get_range_fn bf) = true.
Proof. repeat split; heap bf; back bf; comp. Qed.
Lemma with_ok bf f : moves_ok (is_heap bf) (with_fn bf f) = true.
Proof. direct bf f. Qed.
Lemma checked_with_ok bf f : moves_ok (is_heap bf) (checked_with_fn bf f) = true.
Proof.
  unfold checked_with_fn, set_from_var, signed_check. destruct (f_ty f) as [t| |] eqn:H.
  - destruct (ity_bits t <=? f_bits f)%Z; revert H; heap bf; back bf; shape_f f; intro H; cbn in H; try discriminate H;
      injection H as <-; comp.
  - revert H; heap bf; back bf; shape_f f; intro H; cbn in H; try discriminate H; comp.
  - revert H; heap bf; back bf; shape_f f; intro H; cbn in H; try discriminate H; comp.
Qed.

(** Every emitted function obeys the rule for moves, whatever the bitfield, its
    fields and their types. *)
Theorem C68_moves bf i :
  In i (impl_fns dx bf) \/ In i (map snd (trait_fns dx bf)) \/ In i (builder_fns dx bf) ->
  moves_ok (is_heap bf) i = true.
Proof.
  assert (O : forall (b : bool) l (X : Prop), (In i l -> X) -> In i (opt b l) -> X).
  { intros [] l X H K; [auto|destruct K]. }
  assert (M : forall (g : field -> fn) l, (forall f, moves_ok (is_heap bf) (g f) = true) ->
                In i (map g l) -> moves_ok (is_heap bf) i = true).
  { intros g l H K. apply in_map_iff in K as (f & <- & _). apply H. }
  intros [H|[H|H]].
  - unfold impl_fns in H. cbv zeta in H.
    apply in_app_or in H as [H|H].
    { revert H. apply O. intros [<-|[<-|[]]]; apply new_ok. }
    apply in_app_or in H as [H|H].
    { revert H. apply O. unfold conversions. intro H. apply in_app_or in H as [H|H].
      { apply in_flat_map in H as (v & _ & [<-|[<-|[]]]); apply from_ok. }
      apply in_app_or in H as [H|H].
      { destruct (is_integer_backed bf); [destruct H|].
        apply in_flat_map in H as (v & _ & [<-|[<-|[<-|[<-|[]]]]]);
          first [apply from_slice_ok|apply checked_from_slice_ok]. }
      apply in_app_or in H as [H|H].
      { apply in_map_iff in H as (v & <- & _). apply into_ok. }
      destruct (is_integer_backed bf) eqn:B; [destruct H|].
      apply in_flat_map in H as (v & _ & [<-|[<-|[]]]); apply (into_slice_ok bf v B). }
    apply in_app_or in H as [H|H]; [exact (M _ _ (getter_ok bf) H)|].
    apply in_app_or in H as [H|H].
    { apply in_flat_map in H as (f & _ & [<-|[<-|[]]]); [apply setter_ok|apply checked_setter_ok]. }
    apply in_app_or in H as [H|H].
    { revert H. apply O. intro H. apply in_app_or in H as [H|H].
      - apply in_flat_map in H as (v & _ & [<-|[<-|[]]]); apply write_ok.
      - destruct H as [<-|[]]. apply write_defaults_ok. }
    apply in_app_or in H as [H|H].
    { revert H. apply O. intros [<-|[<-|[<-|[<-|[<-|[<-|[<-|[<-|[]]]]]]]]];
        first [apply set_bit_ok|apply get_bit_ok|apply range_ok]. }
    apply in_app_or in H as [H|H].
    { revert H. apply O. intros [<-|[<-|H]]; [apply clear_all_ok|apply clear_all_ok|].
      apply in_app_or in H as [H|H]; [exact (M _ _ (clear_ok bf) H)|exact (M _ _ (clear_default_ok bf) H)]. }
    revert H. apply O. intros [<-|H]; [apply invert_all_ok|].
    apply in_app_or in H as [H|H];
      [exact (M _ _ (fun f => proj1 (invert_ok bf f)) H)|exact (M _ _ (fun f => proj2 (invert_ok bf f)) H)].
  - unfold trait_fns in H. rewrite !map_app in H.
    apply in_app_or in H as [H|H].
    { destruct (a_from_traits (b_args bf)); [|destruct H].
      destruct H as [<-|[<-|[]]]; [apply trait_from_ok|apply trait_into_ok]. }
    apply in_app_or in H as [H|H].
    { destruct (a_default (b_args bf)); [|destruct H]. destruct H as [<-|[]]. apply default_ok. }
    destruct (a_debug (b_args bf)); [|destruct H]. destruct H as [<-|[]]. apply debug_ok.
  - unfold builder_fns in H. destruct (a_builder (b_args bf)); [|destruct H].
    apply in_app_or in H as [[<-|[<-|[]]]|H]; [apply builder_new_ok|apply builder_new_ok|].
    apply in_app_or in H as [H|[<-|[]]]; [|comp].
    apply in_flat_map in H as (f & _ & [<-|[<-|[]]]); [apply with_ok|apply checked_with_ok].
Qed.
End Defaults.

(** Default expressions as they are usually written meet the condition; an integer
    bitfield with custom fields, and one whose bytes are in a box. *)
Lemma written_standalone f : standalone (SpecEmit.written f) = true.
Proof. unfold SpecEmit.written. destruct (f_default f) as [[z|b|l|t]|]; try reflexivity. destruct (z <? 0)%Z; reflexivity. Qed.
Definition boxed_arr : bitfield :=
  SpecEmit.parsed (Parser.mkRDecl true VisPublic "Arr" (Some (Parser.RArray (Parser.RPath "u8") (Parser.LenLit 4)))
    [("array_heap", "true")] (Parser.d_fields SpecEmit.arr_decl)).
Example C68_ex :
  (forall f, standalone (SpecEmit.written f) = true)
  /\ is_heap boxed_arr = true /\ List.length (impl_fns SpecEmit.written boxed_arr) = 68%nat
  /\ existsb (fun f => match f_ty f with DCustom => has_setter f | _ => false end)
       (b_fields (SpecEmit.parsed SpecEmit.int_decl)) = true
  /\ List.length (builder_fns SpecEmit.written (SpecEmit.parsed SpecEmit.int_decl)) = 13%nat.
Proof. split; [exact written_standalone|]. repeat apply conj; vm_compute; reflexivity. Qed.

(** The rule rejects: a custom value converted twice, a custom value converted in
    a loop, a use after a move in one branch, and a box taken out of a borrowed
    bitfield. *)
Definition custom_p : list (string * ty) := [("bits", TUser "a")].
Example C68_twice :
  moves_ok false (mkFn "f" false ByMut custom_p TUnit
    (Block [let_ "x" (EIntoBits (V "bits")); let_ "y" (EIntoBits (V "bits"))] None)) = false.
Proof. reflexivity. Qed.
Example C68_loop :
  moves_ok false (mkFn "f" false ByMut custom_p TUnit
    (Block [while_ (EBool true) [let_ "x" (EIntoBits (V "bits"))]] None)) = false.
Proof. reflexivity. Qed.
Example C68_branch :
  moves_ok false (mkFn "f" false ByMut custom_p TUnit
    (Block [if_ (EBool true) [let_ "x" (EIntoBits (V "bits"))]; let_ "y" (EIntoBits (V "bits"))] None)) = false.
Proof. reflexivity. Qed.
Example C68_box :
  moves_ok true (mkFn "f" false ByRef [] TUnit (Block [this_self] (Some (val false)))) = false
  /\ moves_ok true (mkFn "f" false ByRef [] TUnit (Block [this_self] (Some (EUn UDeref (val false))))) = true.
Proof. split; reflexivity. Qed.
