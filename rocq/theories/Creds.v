(** * Credentials along a history *)
From Verif Require Import BaseFacts SpecConfig ConfigFacts ConfigEdit ConfigEdit2 ConfigEdit3.
From Verif Require Export Outcome.

Lemma ids_find i s : In i (ids s) -> exists r, find_role i s = Some r.
Proof.
  intros I. unfold ids in I. apply in_map_iff in I as (r & Hr & I).
  destruct (find_role i s) as [x|] eqn:Q; [eauto|]. exfalso. unfold find_role in Q.
  pose proof (find_none _ _ Q r I) as N. cbv beta in N. lia.
Qed.
Lemma find_ids i s r : find_role i s = Some r -> In i (ids s).
Proof. intros Q. apply find_role_in in Q as [I <-]. apply in_map. exact I. Qed.
Lemma wf_ids_below s i : wf_config s -> In i (ids s) -> i < s_counter s.
Proof.
  intros W I. destruct W as (_ & _ & _ & _ & _ & _ & _ & _ & _ & W & _). apply W. exact I.
Qed.
Lemma edit_ids E cx k w s r s1 s' : ids s1 = ids s -> s_counter s1 = s_counter s -> edit E cx k w s r s1 s' -> id_order s1 s'.
Proof.
  intros I C Ed.
  assert (Same : forall x, ids x = ids s1 -> s_counter x = s_counter s1 -> id_order s1 x).
  { intros x Hi Hc. split; [lia|]. rewrite Hi. auto. }
  destruct Ed; try (apply Same; [first [reflexivity|apply ids_on_role; reflexivity]|reflexivity]).
  - split; cbn [s_counter add_to]; [lia|]. unfold ids. cbn [s_roles add_to]. rewrite map_app. intros i Hi.
    apply in_app_or in Hi as [Hi|[<-|[]]]; [left; exact Hi|right]. lia.
  - split; [unfold drop_role; cbn; lia|]. intros i Hi. left. unfold drop_role, ids in *. cbn [s_roles with_roles] in Hi.
    apply in_map_iff in Hi as (x & <- & Hx). apply filter_In in Hx as [Hx _]. apply in_map. exact Hx.
  - cbv zeta. destruct (has P_SubAccountV2All _ _); apply Same; try reflexivity. etransitivity; [apply ids_on_role|]; reflexivity.
Qed.
Lemma find_add i s nr : In i (ids s) -> find_role i (add_to s nr) = find_role i s.
Proof.
  intros I. apply ids_find in I as (r & Q). rewrite Q. unfold find_role in *. cbn [s_roles add_to].
  clear -Q. induction (s_roles s) as [|x t IH]; [discriminate|]. cbn [app find] in *. destruct (r_id x =? i); [exact Q|auto].
Qed.
Lemma find_drop i j s r : find_role i (drop_role j s) = Some r -> find_role i s = Some r.
Proof.
  unfold find_role, drop_role. cbn [s_roles with_roles]. induction (s_roles s) as [|x t IH]; [discriminate|]. cbn [filter find].
  destruct (r_id x =? j) eqn:Qj; cbn [negb].
  - intros Q. destruct (r_id x =? i) eqn:Qi; [|auto].
    exfalso. apply find_some in Q as [Q1 Q2]. apply filter_In in Q1 as [_ Q1]. lia.
  - cbn [find]. destruct (r_id x =? i); auto.
Qed.
(** permission edits leave credentials alone *)
Lemma find_on_acts i j f s r' : (forall r, r_id (f r) = r_id r /\ r_aty (f r) = r_aty r /\ r_auth (f r) = r_auth r) ->
  find_role i (on_role j f s) = Some r' -> exists r, find_role i s = Some r /\ r_aty r' = r_aty r /\ r_auth r' = r_auth r.
Proof.
  intros Hf. rewrite find_role_on by apply Hf. destruct (find_role i s) as [r|]; [|discriminate]. cbn. intros [= <-].
  exists r. split; [reflexivity|]. destruct (r_id r =? j); [apply Hf|auto].
Qed.

(** An edit other than a rotation leaves all credentials alone *)
Lemma edit_auth E cx k w s r s1 s' i r1 r2 : edit E cx k w s r s1 s' -> wf_config s1 ->
  ~ (tag (c_data cx) = 16 /\ u32_at 8 (c_data cx) = i) ->
  find_role i s1 = Some r1 -> find_role i s' = Some r2 -> r_aty r2 = r_aty r1 /\ r_auth r2 = r_auth r1.
Proof.
  intros Ed W N F1 F2.
  assert (Acts : forall j f, (forall r, r_id (f r) = r_id r /\ r_aty (f r) = r_aty r /\ r_auth (f r) = r_auth r) ->
    find_role i (on_role j f s1) = Some r2 -> r_aty r2 = r_aty r1 /\ r_auth r2 = r_auth r1).
  { intros j f Hf Q. apply find_on_acts in Q as (x & Q & Q2); [|exact Hf]. rewrite F1 in Q. injection Q as <-. exact Q2. }
  destruct Ed; try (eapply Acts; [|exact F2]; intros x; repeat split; reflexivity).
  - rewrite F1 in F2. injection F2 as <-. auto.
  - rewrite find_add, F1 in F2 by (eapply find_ids; exact F1). injection F2 as <-. auto.
  - apply find_drop in F2. rewrite F1 in F2. injection F2 as <-. auto.
  - rewrite find_role_on, F1 in F2 by reflexivity. cbn in F2. injection F2 as <-. apply find_role_in in F1 as [_ F1].
    destruct (r_id r1 =? target) eqn:Q; [|auto]. exfalso. apply N. split; [assumption|]. fold target. lia.
  - change (find_role i (set_claimer s1 c)) with (find_role i s1) in F2. rewrite F1 in F2. injection F2 as <-. auto.
  - change (find_role i (migrated s1 (byte_at 2 (c_data cx)))) with (find_role i s1) in F2. rewrite F1 in F2. injection F2 as <-. auto.
  - cbv zeta in F2. destruct (has P_SubAccountV2All _ _).
    + change (find_role i (set_subctr s1 (id + 1))) with (find_role i s1) in F2. rewrite F1 in F2. injection F2 as <-. auto.
    + apply find_on_acts in F2 as (x & Q & Q2); [|intros; repeat split; reflexivity].
      change (find_role i (set_subctr s1 (id + 1))) with (find_role i s1) in Q. rewrite F1 in Q. injection Q as <-. exact Q2.
Qed.

Section Along.
(** [C n ty a b]: the credential of role [i], of type [ty], goes from [a] to [b] in at most [n] steps by the role *)
Variable i : Z.
Variable C : nat -> Z -> bytes -> bytes -> Prop.
Variable fine : bytes -> Prop.
Definition stored (ty : Z) (a : bytes) : Prop := authority_len ty = Some (length a) /\ all_bytes a.
Hypothesis C0 : forall ty a, C 0 ty a a.
Hypothesis Cle : forall n m ty a b, (n <= m)%nat -> C n ty a b -> C m ty a b.
Hypothesis Ctr : forall n m ty a b c, C n ty a b -> C m ty b c -> C (n + m) ty a c.
Hypothesis Cuse : forall ty a, stored ty a -> ty = 3 \/ ty = 5 -> C 1 ty a (count_up a).
Hypothesis Cses : forall d, opens i d -> fine d -> forall ty a key fin, stored ty a -> is_session ty = true -> length key = 32%nat -> 0 <= fin < 2 ^ 64 ->
  C 1 ty a (with_session ty key fin (if is_secp ty then count_up a else a)).
Hypothesis N16 : forall d, rotates i d -> ~ fine d.

Definition goes (n : nat) (s s' : config) : Prop :=
  id_order s s' /\ forall r r', find_role i s = Some r -> find_role i s' = Some r' ->
    r_aty r' = r_aty r /\ C n (r_aty r) (r_auth r) (r_auth r').
Lemma goes_refl s : goes 0 s s.
Proof. split; [split; [lia|auto]|]. intros r r' H1 H2. rewrite H1 in H2. injection H2 as <-. auto. Qed.
Lemma goes_le n m s s' : (n <= m)%nat -> goes n s s' -> goes m s s'.
Proof. intros L [H1 H2]. split; [exact H1|]. intros r r' F1 F2. destruct (H2 r r' F1 F2). eauto. Qed.
Lemma goes_trans n m a b c : wf_config a -> goes n a b -> goes m b c -> goes (n + m) a c.
Proof.
  intros W [O1 H1] [O2 H2]. split; [eapply id_order_trans; eassumption|]. intros r r' F1 F2.
  assert (Ib : In i (ids b)).
  { destruct O2 as [_ O2]. destruct (O2 i (find_ids _ _ _ F2)) as [I|I]; [exact I|].
    pose proof (wf_ids_below _ _ W (find_ids _ _ _ F1)). destruct O1. lia. }
  apply ids_find in Ib as (x & Fx). destruct (H1 r x F1 Fx) as [T1 C1], (H2 x r' Fx F2) as [T2 C2].
  split; [congruence|]. eapply Ctr; [exact C1|]. rewrite <- T1. exact C2.
Qed.
Lemma goes_used j s : wf_config s -> goes (if j =? i then 1 else 0) s (used j s).
Proof.
  intros W. split; [split; [cbn; lia|rewrite ids_used; auto]|]. intros r r' F1 F2.
  destruct (find_used_some _ _ _ _ F2) as (x & Fx & _ & T & Q). rewrite F1 in Fx. injection Fx as <-. split; [exact T|].
  assert (Z0 : C (if j =? i then 1 else 0) (r_aty r) (r_auth r) (r_auth r)) by (apply (Cle 0); [lia|apply C0]).
  destruct Q as [->|[Qi ->]]; [exact Z0|]. unfold after_use. destruct (_ || _) eqn:Q; [|exact Z0].
  rewrite Qi, Z.eqb_refl.
  cbn [with_auth r_auth]. apply Cuse; [|apply orb_prop in Q; rewrite !Z.eqb_eq in Q; exact Q].
  destruct (wf_find _ _ _ W F1) as (_ & L & B & _). split; assumption.
Qed.
Lemma goes_edit E cx k w s r s1 s' : ids s1 = ids s -> s_counter s1 = s_counter s -> edit E cx k w s r s1 s' -> wf_config s1 ->
  ~ rotates i (c_data cx) -> goes 0 s1 s'.
Proof.
  intros I Cn Ed W N. split; [eapply edit_ids; eassumption|]. intros r1 r2 F1 F2.
  destruct (edit_auth _ _ _ _ _ _ _ _ i r1 r2 Ed W) as [T A]; try assumption.
  split; [exact T|]. rewrite A. apply C0.
Qed.
Lemma goes_on_role n j f s : (forall r, r_id (f r) = r_id r) ->
  (forall r, j = i -> find_role j s = Some r -> r_aty (f r) = r_aty r /\ C n (r_aty r) (r_auth r) (r_auth (f r))) -> goes n s (on_role j f s).
Proof.
  intros Hf Hr. split; [split; [cbn; lia|rewrite ids_on_role by exact Hf; auto]|]. intros r r' F1 F2.
  rewrite find_role_on, F1 in F2 by exact Hf. cbn in F2. injection F2 as <-. apply find_role_in in F1 as X. destruct X as [_ X].
  destruct (r_id r =? j) eqn:Q; [|split; [reflexivity|apply (Cle 0); [lia|apply C0]]]. apply Hr; [lia|]. rewrite <- F1. f_equal. lia.
Qed.
Lemma acted_wf E cx s r s1 : wf_config s -> acted E cx s r s1 -> s1 = used (actor_of (c_data cx)) s /\ wf_config s1.
Proof. intros W A. destruct (acted_used _ _ _ _ _ W A) as [-> _]. split; [reflexivity|apply used_wf; exact W]. Qed.
Lemma goes_step E cx k w s s' : wf_config s -> config_step E cx k w s s' -> fine (c_data cx) -> goes (steps_by i [c_data cx]) s s'.
Proof.
  intros W St Ft. assert (St1 : steps_by i [c_data cx] = if actor_of (c_data cx) =? i then 1%nat else 0%nat)
    by (unfold steps_by; cbn [filter]; destruct (actor_of (c_data cx) =? i); reflexivity).
  rewrite St1. clear St1.
  destruct St as [r s1 s' _ A Ed|r a a' _ T5 Fr Ss Au St L48|r s0 l _ _ _ A _].
  - destruct (acted_wf _ _ _ _ _ W A) as [U W1]. destruct (ids_acted _ _ _ _ _ A) as [I Cn].
    match goal with |- goes ?n _ _ => rewrite <- (Nat.add_0_r n) end. apply goes_trans with (b := s1); [exact W|rewrite U; apply goes_used; exact W|].
    eapply goes_edit; [exact I|exact Cn|exact Ed|exact W1|]. intros T. apply (N16 _ T Ft).
  - apply find_role_in in Fr as Fi. destruct Fi as [_ Fi]. apply goes_on_role; [reflexivity|]. intros x Qi Fx. rewrite Fi, Fr in Fx. injection Fx as <-.
    assert (Qa : actor_of (c_data cx) = i) by congruence.
    split; [reflexivity|]. cbn [with_auth r_auth]. destruct (wf_find _ _ _ W Fr) as (_ & L & B & _).
    pose proof (authenticate_size _ _ _ _ _ _ _ Au L B) as [L' B']. apply authenticate_leaves in Au.
    assert (L32 : length (sub 16 32 (c_data cx)) = 32%nat) by (apply sub_length; lia).
    rewrite <- L' in L. destruct (start_session_ok _ _ _ _ _ _ L L32 St) as (Q1 & _ & ->). rewrite Au. rewrite Qa, Z.eqb_refl.
    apply (Cses _ (conj T5 Qa) Ft); try assumption; [split; [rewrite <- L'; exact L|exact B]|]. apply Z.mod_pos_bound. lia.
  - apply goes_on_role; [reflexivity|]. intros x _ Fx. split; [reflexivity|]. apply (Cle 0); [lia|apply C0].
Qed.
Lemma steps_app ds es : steps_by i (ds ++ es) = (steps_by i ds + steps_by i es)%nat.
Proof. unfold steps_by. rewrite filter_app, app_length. reflexivity. Qed.
Lemma goes_path E k ts s s' : path E k ts s s' -> wf_config s -> Forall fine ts -> goes (steps_by i ts) s s'.
Proof.
  intros P W. induction P as [s|ts s s1 s2 cx w P IH Sc St W2]; intros Ft; [apply goes_refl|].
  apply Forall_app in Ft as [F1 F2]. rewrite steps_app. eapply goes_trans; [exact W|apply IH; assumption|].
  eapply goes_step; [apply Sc|exact St|exact (Forall_inv F2)].
Qed.
End Along.
