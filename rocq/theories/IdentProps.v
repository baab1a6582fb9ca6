(** * The address of a wallet and its program-execution credentials: proofs *)
From Verif Require Import BaseFacts SpecConfig ConfigFacts ConfigEdit ConfigEdit2 ConfigEdit3 NewCredential SpecAuth AuthFacts Authority Handlers.
From Verif Require Export HistoryProps Creds.

Lemma roles_on_role (P : role -> Prop) i f s : (forall r, P r -> P (f r)) -> Forall P (s_roles s) -> Forall P (s_roles (on_role i f s)).
Proof.
  intros Hf H. unfold on_role. cbn [s_roles with_roles]. apply Forall_map. eapply Forall_impl; [|exact H].
  intros r Hr. cbn. destruct (r_id r =? i); auto.
Qed.
Lemma roles_at_role (P : role -> Prop) i f s r : wf_config s -> find_role i s = Some r -> P (f r) ->
  Forall P (s_roles s) -> Forall P (s_roles (on_role i f s)).
Proof.
  intros W Fr Hr H. rewrite (on_role_ext i f (fun _ => f r) s r W Fr eq_refl). apply roles_on_role; auto.
Qed.

Definition placed (E : env) (k : key) (s : config) : Prop :=
  pda E (seeds_swig (s_id s) (s_bump s)) = Some k /\ Forall exec_outside (s_roles s).

Lemma exec_acts r l : exec_outside r -> exec_outside (with_acts r l).
Proof. intros H. exact H. Qed.
Lemma used_placed E k i s : placed E k s -> placed E k (used i s).
Proof.
  intros [A B]. split; [exact A|]. apply roles_on_role; [|exact B]. intros r H T. unfold after_use in *.
  destruct ((r_aty r =? 3) || (r_aty r =? 5)) eqn:Q; [|apply H; exact T]. cbn [r_aty with_auth] in T. lia.
Qed.

Lemma placed_step E cx k w s s' : wf_config s -> wf_config s' -> placed E k s -> config_step E cx k w s s' -> placed E k s'.
Proof.
  intros W W' P H. destruct H as [r s1 s' _ A Ed|r a a' _ T Fr Sb Au St Ld|r s0 l _ _ _ _ _].
  - pose proof (acted_wf _ _ _ _ _ W A) as [U W1]. assert (P1 : placed E k s1) by (rewrite U; apply used_placed; exact P).
    clear U A P W. destruct P1 as [A1 B1].
    destruct Ed; try exact (conj A1 B1); try (split; [exact A1|]);
      try (apply roles_on_role; [|exact B1]; intros r1 Hr; exact Hr).
    + apply Forall_app. split; [exact B1|]. constructor; [assumption|constructor].
    + unfold drop_role. cbn [s_roles with_roles]. apply Forall_forall. intros x Hx. apply filter_In in Hx as [Hx _].
      rewrite Forall_forall in B1. apply B1. exact Hx.
    + eapply roles_at_role; [exact W1|eassumption| |exact B1]. intros T. cbn [r_aty with_auth] in T. unfold normalize_signer in *.
      destruct T as [T|T]; rewrite T in *; discriminate.
    + cbv zeta. destruct (has P_SubAccountV2All _ _); [exact (conj A1 B1)|]. split; [exact A1|].
      apply roles_on_role; [|exact B1]. intros r1 Hr; exact Hr.
  - destruct P as [A1 B1]. split; [exact A1|]. pose proof (wf_find _ _ _ W Fr) as Wr.
    assert (Fr' : find_role (r_id r) s = Some r) by (pose proof Fr as Fr0; apply find_role_in in Fr0 as [_ ->]; exact Fr).
    eapply roles_at_role; [exact W|exact Fr'| |exact B1]. intros T8. cbn [r_aty r_auth with_auth] in *.
    assert (a = r_auth r). { unfold authenticate in Au. destruct T8 as [T8|T8]; rewrite T8 in Au; cbn in Au; peel Au; apply ok_inj in Au; congruence. }
    subst a. pose proof Wr as (_ & La & _).
    apply start_session_ok in St as (S1 & _ & ->); [|exact La|apply sub_length; lia].
    assert (Q : exec_outside r). { rewrite Forall_forall in B1. apply B1. apply find_role_in in Fr as [Fr _]. exact Fr. }
    assert (E8 : r_aty r = 8). { destruct T8 as [T8|T8]; [|exact T8]. rewrite T8 in S1. discriminate S1. }
    specialize (Q T8). rewrite E8 in *. unfold with_session. change (session_at 8) with 80%nat.
    injection La as La.
    rewrite firstn_app, firstn_firstn. change (Nat.min 32 80) with 32%nat.
    replace (32 - length (firstn 80 (r_auth r)))%nat with 0%nat by (rewrite firstn_length; lia). rewrite firstn_O, app_nil_r.
    rewrite app_nth1 by (rewrite firstn_length; lia). rewrite <- (firstn_skipn 80 (r_auth r)) in Q at 2.
    rewrite app_nth1 in Q by (rewrite firstn_length; lia). exact Q.
  - destruct P as [A1 B1]. split; [exact A1|]. apply roles_on_role; [|exact B1]. intros r1 Hr; exact Hr.
Qed.

Lemma reach_placed E w w' : foreign_ok E -> fresh w -> reach E w w' -> forall k s, is_cfg (w' k) s -> placed E k s.
Proof.
  intros F Fr. apply (reach_inv E (placed E) w w' F Fr).
  - intros cx k wa s s' W W' P St. exact (placed_step E cx k wa s s' W W' P St).
  - intros k bump id wb nr c _ _ _ Ex Pd. split; [exact Pd|]. cbn [s_roles]. constructor; [exact Ex|constructor].
Qed.

Lemma vouchers E w w' k s r : foreign_ok E -> fresh w -> reach E w w' -> is_cfg (w' k) s ->
  In r (s_roles s) -> r_aty r = 7 \/ r_aty r = 8 -> firstn 32 (r_auth r) <> SELF /\ nth 32 (r_auth r) 0 <= 40.
Proof.
  intros F Fr R S Hi T. destruct (reach_placed E w w' F Fr R k s S) as [_ P]. rewrite Forall_forall in P. exact (P r Hi T).
Qed.
Lemma id_and_bump E w w' k1 k2 s1 s2 : foreign_ok E -> fresh w -> reach E w w' ->
  is_cfg (w' k1) s1 -> is_cfg (w' k2) s2 -> s_id s1 = s_id s2 -> s_bump s1 = s_bump s2 -> k1 = k2.
Proof.
  intros F Fr R S1 S2 I B. pose proof (proj1 (reach_placed E w w' F Fr R _ _ S1)) as P1.
  pose proof (proj1 (reach_placed E w w' F Fr R _ _ S2)) as P2. rewrite I, B, P2 in P1. injection P1 as <-. reflexivity.
Qed.
