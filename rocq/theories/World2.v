(** * Every call of the wallet program is a trace of specified changes *)
From Verif Require Import BaseFacts SpecConfig ConfigFacts ConfigEdit ConfigEdit2 ConfigEdit3.
From Verif Require Export World.

Lemma create_changes E cx w w' : wf_ctx cx -> auth_layout (c_data cx) = None -> create_v1 E cx w = Ok w' ->
  forall k, change E cx k w w'.
Proof.
  intros Hc L H. destruct (create_v1_spec _ _ _ _ Hc H)
    as (nr & A1 & A2 & A3 & A4 & A4b & A5 & _ & A7 & _ & A9 & A10 & A11 & _ & _ & A14 & A15 & A16 & A17).
  intros k. destruct (bytes_dec k (mkey (c_metas cx) 0)) as [->|N]; [|apply ch_same; apply A16; exact N].
  eapply (ch_created E cx _ w w' nr); try assumption; try reflexivity.
  split; [exact A14|]. split; [exact A15|exact A1].
Qed.

Ltac step_case :=
  match goal with H : (if ?c then _ else _) = Ok _ |- _ => destruct c eqn:?C end.

(** Owner and configuration of the first account, for the handlers that check them *)
Ltac has_cfg E G H :=
  match goal with |- exists s, is_cfg (?w ?k) s =>
    let H' := fresh in pose proof H as H'; cbv zeta in H'; peel H';
    match goal with B : beq (a_owner (w k)) SELF = true |- _ => apply beq_eq in B;
      match goal with L : load_config w k = Ok _ |- _ => exact (good_loaded E w k _ G B L) end end end.

Section D.
Variables (E : env) (cx : ctx) (w w' : world).
Hypothesis (Hc : wf_ctx cx) (G : good_world E w).
Notation swig := (mkey (c_metas cx) 0).

Lemma cfg_add : add_authority_v1 E cx w = Ok w' -> exists s, is_cfg (w swig) s.
Proof. intros H. unfold add_authority_v1 in H. has_cfg E G H. Qed.
Lemma cfg_remove : remove_authority_v1 E cx w = Ok w' -> exists s, is_cfg (w swig) s.
Proof. intros H. unfold remove_authority_v1 in H. has_cfg E G H. Qed.
Lemma cfg_update : update_authority_v1 E cx w = Ok w' -> exists s, is_cfg (w swig) s.
Proof. intros H. unfold update_authority_v1 in H. has_cfg E G H. Qed.
Lemma cfg_replace : replace_authority_v1 E cx w = Ok w' -> exists s, is_cfg (w swig) s.
Proof. intros H. unfold replace_authority_v1 in H. has_cfg E G H. Qed.
Lemma cfg_session : create_session_v1 E cx w = Ok w' -> exists s, is_cfg (w swig) s.
Proof. intros H. unfold create_session_v1 in H. has_cfg E G H. Qed.
Lemma cfg_claimer : set_rent_claimer_v1 E cx w = Ok w' -> exists s, is_cfg (w swig) s.
Proof. intros H. unfold set_rent_claimer_v1 in H. has_cfg E G H. Qed.
Lemma cfg_sub1 : create_sub_account_v1 E cx w = Ok w' -> exists s, is_cfg (w swig) s.
Proof. intros H. unfold create_sub_account_v1 in H. has_cfg E G H. Qed.
Lemma cfg_tog1 : toggle_sub_account_v1 E cx w = Ok w' -> exists s, is_cfg (w swig) s.
Proof. intros H. unfold toggle_sub_account_v1 in H. has_cfg E G H. Qed.
Lemma cfg_wd1 : withdraw_v1 E cx w = Ok w' -> exists s, is_cfg (w swig) s.
Proof. intros H. unfold withdraw_v1 in H. has_cfg E G H. Qed.
Lemma cfg_wd2 : withdraw_v2 E cx w = Ok w' -> exists s, is_cfg (w swig) s.
Proof. intros H. unfold withdraw_v2 in H. has_cfg E G H. Qed.
Lemma cfg_sub2 : create_sub_account_v2 E cx w = Ok w' -> exists s, is_cfg (w swig) s.
Proof. intros H. unfold create_sub_account_v2 in H. has_cfg E G H. Qed.
Lemma cfg_tog2 : toggle_sub_account_v2 E cx w = Ok w' -> exists s, is_cfg (w swig) s.
Proof. intros H. unfold toggle_sub_account_v2 in H. has_cfg E G H. Qed.
Lemma cfg_close : close_swig_v1 E cx w = Ok w' -> exists s, is_cfg (w swig) s.
Proof. intros H. unfold close_swig_v1 in H. has_cfg E G H. Qed.
Lemma cfg_ctok : close_token_account_v1 E cx w = Ok w' -> exists s, is_cfg (w swig) s.
Proof. intros H. unfold close_token_account_v1 in H. has_cfg E G H. Qed.
Lemma cfg_xfer : transfer_assets_v1 E cx w = Ok w' -> exists s, is_cfg (w swig) s.
Proof. intros H. unfold transfer_assets_v1 in H. has_cfg E G H. Qed.

Theorem dispatch_changes : foreign_ok E -> roomy 1 w -> dispatch E cx w = Ok w' -> forall k, change E cx k w w'.
Proof.
  intros F R H. unfold dispatch in H. peel H.
  pose proof (u16_bound 0 (c_data cx)) as Hb.
  step_case. { apply Z.eqb_eq in C. destruct (cfg_add H) as (s & S). eapply add_changes; try eassumption. eapply R; exact S. }
  step_case. { apply Z.eqb_eq in C0. destruct (cfg_remove H) as (s & S). eapply remove_changes; eassumption. }
  step_case. { apply Z.eqb_eq in C1. destruct (cfg_update H) as (s & S). eapply update_changes; eassumption. }
  step_case. { discriminate. }
  step_case. { apply Z.eqb_eq in C3. destruct (cfg_session H) as (s & S). eapply session_changes; eassumption. }
  step_case. { apply Z.eqb_eq in C4. destruct (cfg_sub1 H) as (s & S). eapply sub_v1_changes; eassumption. }
  step_case. { apply Z.eqb_eq in C5. destruct (cfg_wd1 H) as (s & S). eapply withdraw_v1_changes; eassumption. }
  step_case. { discriminate. }
  step_case. { apply Z.eqb_eq in C7. destruct (cfg_tog1 H) as (s & S). eapply toggle_v1_changes; eassumption. }
  step_case. { apply Z.eqb_eq in C8. eapply migrate_changes; eassumption. }
  step_case. { apply Z.eqb_eq in C9. destruct (cfg_xfer H) as (s & S). eapply transfer_assets_changes; eassumption. }
  step_case. { apply Z.eqb_eq in C10. destruct (cfg_ctok H) as (s & S). eapply close_token_changes; eassumption. }
  step_case. { apply Z.eqb_eq in C11. destruct (cfg_close H) as (s & S). eapply close_changes; eassumption. }
  step_case. { apply Z.eqb_eq in C12. destruct (cfg_replace H) as (s & S). eapply replace_changes; eassumption. }
  step_case. { apply Z.eqb_eq in C13. destruct (cfg_claimer H) as (s & S). eapply claimer_changes; eassumption. }
  step_case. { apply Z.eqb_eq in C14. destruct (cfg_sub2 H) as (s & S). eapply sub_v2_changes; eassumption. }
  step_case. { apply Z.eqb_eq in C15. destruct (cfg_tog2 H) as (s & S). eapply toggle_v2_changes; eassumption. }
  step_case. { apply Z.eqb_eq in C16. destruct (cfg_wd2 H) as (s & S). eapply withdraw_v2_changes; eassumption. }
  apply orb_false_elim in C6 as [C6 C6c]. apply orb_false_elim in C6 as [C6a C6b].
  apply create_changes; try assumption. unfold auth_layout, tag. rewrite C, C0, C1, C3, C4, C5, C6a, C7, C6b, C8, C9, C10, C11, C12, C13, C14, C15, C6c, C16. reflexivity.
Qed.
End D.
