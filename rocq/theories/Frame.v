(** * What the account primitives leave alone *)
From Verif Require Import BaseFacts SpecConfig ConfigFacts ConfigEdit ConfigEdit2 ConfigEdit3.
From Verif Require Export Program SpecSteps.

Definition kept (w w' : world) (k : key) : Prop :=
  a_data (w' k) = a_data (w k) /\ a_owner (w' k) = a_owner (w k).
Definition keeps (w w' : world) : Prop := forall k, kept w w' k.
(** [w'] is [w] with [d] as the data of [k], up to lamports *)
Definition only_data (w w' : world) (k : key) (d : bytes) : Prop :=
  a_data (w' k) = d /\ a_owner (w' k) = a_owner (w k) /\ forall k', k' <> k -> kept w w' k'.

Lemma keeps_refl w : keeps w w.
Proof. split; reflexivity. Qed.
Lemma keeps_trans w1 w2 w3 : keeps w1 w2 -> keeps w2 w3 -> keeps w1 w3.
Proof. intros H1 H2 k. destruct (H1 k), (H2 k). split; congruence. Qed.
Lemma only_data_keeps_r w w1 w2 k d : only_data w w1 k d -> keeps w1 w2 -> only_data w w2 k d.
Proof.
  intros (A & B & C) H. split; [|split].
  - destruct (H k). congruence.
  - destruct (H k). congruence.
  - intros k' Hk. destruct (H k'), (C k' Hk). split; congruence.
Qed.
Lemma only_data_keeps_l w w1 w2 k d : keeps w w1 -> only_data w1 w2 k d -> only_data w w2 k d.
Proof.
  intros H (A & B & C). split; [exact A|split].
  - destruct (H k). congruence.
  - intros k' Hk. destruct (H k'), (C k' Hk). split; congruence.
Qed.
Lemma only_data_same w k : only_data w w k (a_data (w k)).
Proof. split; [reflexivity|split; [reflexivity|intros; split; reflexivity]]. Qed.

Lemma upd_same w k a : upd w k a k = a.
Proof. unfold upd. rewrite beq_refl. reflexivity. Qed.
Lemma upd_other w k a k' : k' <> k -> upd w k a k' = w k'.
Proof. intros H. unfold upd. apply beq_neq in H. rewrite H. reflexivity. Qed.
Lemma upd_keeps w k l : keeps w (upd w k (mk_account l (a_owner (w k)) (a_data (w k)))).
Proof.
  intros k'. destruct (bytes_dec k' k) as [->|H]; unfold kept.
  - rewrite upd_same. split; reflexivity.
  - rewrite upd_other by exact H. split; reflexivity.
Qed.
Lemma upd_keeps' w k l o d : o = a_owner (w k) -> d = a_data (w k) -> keeps w (upd w k (mk_account l o d)).
Proof. intros -> ->. apply upd_keeps. Qed.

Lemma move_lamports_keeps ms w f t amt w' : move_lamports ms w f t amt = Ok w' -> keeps w w'.
Proof.
  unfold move_lamports. intros H. destruct (amt =? 0); [inv H; apply keeps_refl|].
  destruct (beq f t) eqn:E; [inv H; apply keeps_refl|]. apply beq_neq in E.
  peel H. apply ok_inj in H. subst w'. eapply keeps_trans; [apply upd_keeps|].
  apply upd_keeps'; rewrite upd_other by congruence; reflexivity.
Qed.
Lemma sys_transfer_keeps ms pdas w f t amt w' : sys_transfer ms pdas w f t amt = Ok w' -> keeps w w'.
Proof.
  unfold sys_transfer. intros H. peel H.
  destruct (beq f t) eqn:E; [inv H; apply keeps_refl|]. apply beq_neq in E.
  peel H. apply ok_inj in H. subst w'. eapply keeps_trans; [apply upd_keeps|].
  apply upd_keeps'; rewrite upd_other by congruence; reflexivity.
Qed.
Lemma rent_topup_keeps E ms w p k n w' : rent_topup E ms w p k n = Ok w' -> keeps w w'.
Proof.
  unfold rent_topup. intros H. destruct (_ <? _); [eapply sys_transfer_keeps; exact H|inv H; apply keeps_refl].
Qed.
Lemma set_data_only ms w k d w' : set_data ms w k d = Ok w' ->
  only_data w w' k d /\ (d <> a_data (w k) -> a_owner (w k) = SELF /\ writable ms k = true)
  /\ (forall k', a_lamports (w' k') = a_lamports (w k')).
Proof.
  unfold set_data. intros H. destruct (beq d (a_data (w k))) eqn:E.
  - apply beq_eq in E. subst d. inv H. split; [apply only_data_same|]. split; [congruence|reflexivity].
  - bind_inv H. bind_inv K. apply ok_inj in K0. subst w'. apply check_ok in B, B0. apply beq_eq in B0. split; [|split].
    + split; [rewrite upd_same; reflexivity|]. split; [rewrite upd_same; reflexivity|].
      intros k' Hk. unfold kept. rewrite upd_other by exact Hk. split; reflexivity.
    + intros _. split; assumption.
    + intros k'. destruct (bytes_dec k' k) as [->|Hk]; [rewrite upd_same|rewrite upd_other by exact Hk]; reflexivity.
Qed.
Lemma write_data_only ms w k d w' : write_data ms w k d = Ok w' ->
  only_data w w' k d /\ Z.of_nat (length d) <= 10485760
  /\ (d <> a_data (w k) -> a_owner (w k) = SELF /\ writable ms k = true)
  /\ (forall k', a_lamports (w' k') = a_lamports (w k')).
Proof.
  unfold write_data. intros H. bind_inv H. bind_inv K. apply check_ok in B.
  apply set_data_only in K0 as (A1 & A2 & A3). split; [exact A1|]. split; [lia|]. split; assumption.
Qed.
Lemma pay_out_keeps ms w s d l k w' : pay_out ms w s d l k = Ok w' -> keeps w w'.
Proof.
  unfold pay_out. intros H. peel H. apply ok_inj in H. subst w'.
  eapply keeps_trans; [apply upd_keeps|apply upd_keeps].
Qed.

Lemma only_data_pointwise w w' k d : only_data w w' k d -> forall k', a_owner (w' k') = a_owner (w k').
Proof.
  intros (A & B & C) k'. destruct (bytes_dec k' k) as [->|H]; [exact B|apply C; exact H].
Qed.

Lemma nth_wf ms i : Forall wf_meta ms -> (i < length ms)%nat -> wf_key (mkey ms i).
Proof.
  intros H Hi. unfold mkey. rewrite Forall_forall in H. apply H. apply nth_In. exact Hi.
Qed.
