(** * Histories: lifting single changes to all reachable worlds *)
From Verif Require Import BaseFacts SpecConfig ConfigFacts ConfigEdit ConfigEdit2 ConfigEdit3.
From Verif Require Export SpecHistory SignProcess.

(** ** Relations preserved by every change hold along every history *)
Section Lift.
Variables (E : env) (P : world -> world -> Prop).
Hypothesis (F : foreign_ok E)
  (Prefl : forall w, P w w) (Ptrans : forall a b c, P a b -> P b c -> P a c)
  (Pchange : forall cx w w', good_world E w -> (forall k, change E cx k w w') -> P w w').

Lemma lift_trace cx n w w' : trace E cx n w w' -> good_world E w -> P w w'.
Proof.
  induction 1 as [w|n w wa wb H IH C|n w wa wb cx' H IH N C]; intros G; [apply Prefl| |];
    (eapply Ptrans; [apply IH; exact G|]; eapply Pchange; [eapply trace_good; eassumption|exact C]).
Qed.
Lemma lift_event w e : good_world E w -> admissible E w e -> P w (step E w e).
Proof.
  intros G A. destruct e as [cx|x]; cbn [step].
  - destruct A as (A1 & A2 & A3 & A4). destruct (process E cx w) as [w'| |] eqn:Q; try apply Prefl.
    destruct (process_trace E cx w w' A1 A2 G F A3 Q) as [(n & _ & T)|C]; [|contradiction].
    eapply lift_trace; eassumption.
  - destruct (foreign E w x) as [w'| |] eqn:Q; try apply Prefl.
    apply (Pchange (mk_ctx 0 0 [] 0 [] [])); [exact G|]. intros k. apply outside_changes. eapply foreign_outside; eassumption.
Qed.
End Lift.

Lemma event_good E w e : foreign_ok E -> good_world E w -> admissible E w e -> good_world E (step E w e).
Proof.
  intros F G A. apply (lift_event E (fun w w' => good_world E w -> good_world E w')) with (w := w) (e := e); try assumption; auto.
  intros cx w1 w2 _ C G1. eapply change_good; eassumption.
Qed.
Lemma reach_good E w w' : foreign_ok E -> good_world E w -> reach E w w' -> good_world E w'.
Proof. intros F G. induction 1 as [|w1 e R IH A]; [exact G|]. apply event_good; assumption. Qed.

Lemma lift_reach E (P : world -> world -> Prop) : foreign_ok E ->
  (forall w, P w w) -> (forall a b c, P a b -> P b c -> P a c) ->
  (forall cx w w', good_world E w -> (forall k, change E cx k w w') -> P w w') ->
  forall w w', good_world E w -> reach E w w' -> P w w'.
Proof.
  intros F R T C w w' G. induction 1 as [|w1 e Re IH A]; [apply R|].
  eapply T; [exact IH|]. apply (lift_event E P); try assumption. eapply reach_good; eassumption.
Qed.

Lemma fresh_good E w : fresh w -> good_world E w.
Proof. intros H k O. exfalso. exact (H k O). Qed.

(** ** One wallet through a change *)
Lemma closed_stays E cx k w w' : change E cx k w w' -> is_closed (w k) -> is_closed (w' k).
Proof.
  intros C (O & D). unfold is_closed.
  destruct C as [(D1 & O1)|s s' (_ & D1 & _) _ _|nr id bump wbump s' _ _ N _ _ _ _ _ _ _ _ _
    |swig s s' b ab sa _ _ _ _ _ _ _ N _ _ _ _ _ _ _ _|swig s r s1 en _ _ _ _ _ rd _ _ _ L _ _ _ _ _ _
    |s r s1 (_ & D1 & _) _ _ _ _ _ _ _|N _].
  - split; congruence.
  - rewrite D in D1. discriminate.
  - rewrite O in N. discriminate.
  - rewrite O in N. discriminate.
  - unfold rd in L. rewrite D in L. discriminate.
  - rewrite D in D1. discriminate.
  - contradiction.
Qed.
Lemma config_goes E cx k w w' s : change E cx k w w' -> is_cfg (w k) s ->
  is_closed (w' k) \/ exists s', is_cfg (w' k) s' /\ (s' = s \/ config_step E cx k w s s').
Proof.
  intros C S. pose proof S as (O & D & W).
  destruct C as [(D1 & O1)|s0 s' S0 St S'|nr id bump wbump s' _ _ N _ _ _ _ _ _ _ _ _
    |swig s0 s' b ab sa _ _ _ _ _ _ _ N _ _ _ _ _ _ _ _|swig s0 r s1 en _ _ _ _ _ rd _ _ _ _ B _ _ _ _ _
    |s0 r s1 S0 _ _ _ _ _ O1 D1|N _].
  - right. exists s. split; [|left; reflexivity]. split; [congruence|]. split; [congruence|exact W].
  - right. exists s'. split; [exact S'|]. right. rewrite (is_cfg_inj _ _ _ S S0). exact St.
  - rewrite O in N. discriminate.
  - rewrite O in N. discriminate.
  - unfold rd in B. rewrite D in B. rewrite enc_config_byte in B. discriminate.
  - left. split; assumption.
  - contradiction.
Qed.

Lemma path_app E k t1 t2 a b c : path E k t1 a b -> path E k t2 b c -> path E k (t1 ++ t2) a c.
Proof.
  intros H1 H2. induction H2 as [s|ts s s1 s2 cx w H2 IH S St W]; [rewrite app_nil_r; exact H1|].
  rewrite app_assoc. eapply path_step; [apply IH; exact H1|exact S|exact St|exact W].
Qed.

Definition follows (E : env) (w w' : world) : Prop :=
  forall k, (is_closed (w k) -> is_closed (w' k))
    /\ forall s, is_cfg (w k) s -> is_closed (w' k) \/ exists s' ts, is_cfg (w' k) s' /\ path E k ts s s'.
Lemma follows_refl E w : follows E w w.
Proof. intros k. split; [auto|]. intros s S. right. exists s, []. split; [exact S|constructor]. Qed.
Lemma follows_trans E a b c : follows E a b -> follows E b c -> follows E a c.
Proof.
  intros H1 H2 k. destruct (H1 k) as [A1 B1], (H2 k) as [A2 B2]. split; [auto|].
  intros s S. destruct (B1 s S) as [Cl|(s1 & t1 & S1 & P1)]; [left; auto|].
  destruct (B2 s1 S1) as [Cl|(s2 & t2 & S2 & P2)]; [left; exact Cl|].
  right. exists s2, (t1 ++ t2). split; [exact S2|eapply path_app; eassumption].
Qed.
Lemma follows_change E cx w w' : (forall k, change E cx k w w') -> follows E w w'.
Proof.
  intros C k. split; [apply closed_stays with (1 := C k)|]. intros s S.
  destruct (config_goes _ _ _ _ _ _ (C k) S) as [Cl|(s' & S' & [->|St])]; [left; exact Cl| |].
  - right. exists s, []. split; [exact S'|constructor].
  - right. exists s', ([] ++ [c_data cx]). split; [exact S'|].
    eapply path_step; [constructor|exact S|exact St|apply S'].
Qed.
Lemma reach_path E w w' : foreign_ok E -> good_world E w -> reach E w w' -> follows E w w'.
Proof.
  intros F. apply (lift_reach E (follows E)); [exact F|apply follows_refl|apply follows_trans|].
  intros cx wa wb _. apply follows_change.
Qed.
Lemma trace_path E cx n w w' : trace E cx n w w' -> good_world E w -> follows E w w'.
Proof.
  intros T G. refine (lift_trace E (follows E) (follows_refl E) (follows_trans E) _ cx n w w' T G).
  intros cx' wa wb _. apply follows_change.
Qed.

(** A property of configurations that holds of every new wallet and is kept by
    every step holds in every reachable wallet *)
Lemma reach_inv E (I : key -> config -> Prop) w w' : foreign_ok E -> fresh w ->
  (forall cx k wa s s', wf_config s -> wf_config s' -> I k s -> config_step E cx k wa s s' -> I k s') ->
  (forall k bump id wbump nr c, r_id nr = 0 -> wf_role nr -> r_auth nr = new_credential (r_aty nr) c ->
     exec_outside nr -> pda E (seeds_swig id bump) = Some k -> I k (mk_config bump id 1 wbump (zeros 3) 0 [nr] None)) ->
  reach E w w' -> forall k s, is_cfg (w' k) s -> I k s.
Proof.
  intros F Fr Hs Hn R.
  assert (G : good_world E w) by (apply fresh_good; exact Fr).
  refine (lift_reach E (fun w w' => (forall k s, is_cfg (w k) s -> I k s) -> (forall k s, is_cfg (w' k) s -> I k s)) F _ _ _ w w' G R _).
  - intros w0 H. exact H.
  - intros a b c H1 H2 H3. apply H2, H1, H3.
  - intros cx wa wb Ga C H k s S. pose proof S as (O & D & W).
    destruct (C k) as [(D1 & O1)|s0 s' S0 St S'|nr id bump wbump s' _ _ _ _ _ Pd Z _ Zc _ _ S' Ex
      |swig s0 s' b ab sa _ _ _ _ _ _ _ _ _ _ _ _ _ _ _ D1|swig s0 r s1 en _ _ _ _ _ rd _ _ _ L B _ _ _ _ D1
      |s0 r s1 _ _ _ _ _ _ _ D1|N Z].
    + apply (H k). split; [congruence|]. split; [congruence|exact W].
    + rewrite (is_cfg_inj _ _ _ S S'). eapply Hs; [apply S0|apply S'|exact (H k _ S0)|exact St].
    + rewrite (is_cfg_inj _ _ _ S S'). eapply Hn; [exact Z| |exact Zc|exact Ex|exact Pd]. destruct S' as (_ & _ & W').
      destruct W' as (_ & _ & _ & _ & _ & _ & _ & W8 & _). exact (Forall_inv W8).
    + rewrite D in D1. discriminate.
    + rewrite D in D1. unfold rd in *. destruct (a_data (wa k)) as [|x t]; [discriminate|]. unfold byte_at in B. cbn in B. subst x.
      apply (f_equal (byte_at 0)) in D1. rewrite enc_config_byte in D1. discriminate.
    + rewrite D in D1. discriminate.
    + destruct (Z O) as (n & Zn). rewrite D in Zn. apply (f_equal (byte_at 0)) in Zn. rewrite enc_config_byte, zeros_byte in Zn. discriminate.
  - intros k s (O & _). exfalso. exact (Fr k O).
Qed.

Lemma path_wf E k ts s s' : path E k ts s s' -> wf_config s -> wf_config s'.
Proof. induction 1; auto. Qed.
(** preorders that contain every step contain every path *)
Lemma path_rel E k (Q : config -> config -> Prop) (Ok_data : bytes -> Prop) : (forall s, Q s s) -> (forall a b c, Q a b -> Q b c -> Q a c) ->
  (forall cx w s s', wf_config s -> wf_config s' -> config_step E cx k w s s' -> Ok_data (c_data cx) -> Q s s') ->
  forall ts s s', path E k ts s s' -> Forall Ok_data ts -> Q s s'.
Proof.
  intros R T S ts s s' P. induction P as [s|ts s s1 s2 cx w P IH C St W]; intros Ft; [apply R|].
  apply Forall_app in Ft as [F1 F2]. eapply T; [apply IH; exact F1|]. eapply S; [apply C|exact W|exact St|exact (Forall_inv F2)].
Qed.
