(** * The outcome of one successful instruction for its own wallet *)
From Verif Require Import BaseFacts SpecConfig ConfigFacts ConfigEdit ConfigEdit2 ConfigEdit3.
From Verif Require Export HistoryProps.

Section Out.
Variables (E : env) (cx : ctx) (w w' : world) (s : config).
Hypothesis (F : foreign_ok E) (G : good_world E w) (Ad : admissible E w (Call cx)) (S : is_cfg (w (acct cx 0)) s).
Hypothesis H : succeeds E cx w w'.
Notation k := (acct cx 0).
Notation data := (c_data cx).

(** the acting role edits the configuration, closes the wallet, or starts a
    sequence of inner instructions *)
Definition edits (r : role) (s1 : config) : Prop := exists s', edit E cx k w s r s1 s' /\ is_cfg (w' k) s'.
Definition executes (s1 : config) : Prop :=
  In (tag data) [9; 11; 20] /\ exists w0 n, only_data w w0 k (enc_config s1) /\ wf_config s1 /\ good_world E w0
    /\ trace E cx n w0 w'.
Definition closes : Prop := tag data = 15 /\ is_closed (w' k).

Lemma edits_only r s1 s' : edit E cx k w s r s1 s' -> only_data w w' k (enc_config s') -> wf_config s' -> edits r s1.
Proof. intros Ed D W. exists s'. split; [exact Ed|]. eapply only_data_cfg; eassumption. Qed.
Lemma edits_outside r s1 s' w1 : edit E cx k w s r s1 s' -> only_data w w1 k (enc_config s') -> wf_config s' -> outside w1 w' -> edits r s1.
Proof.
  intros Ed D W O. exists s'. split; [exact Ed|]. pose proof (only_data_cfg _ _ _ _ _ S D W) as C1.
  destruct (O k) as [A _]. destruct A as [A1 A2]; [apply C1|]. destruct C1 as (C1 & C2 & C3). split; [congruence|]. split; [congruence|exact C3].
Qed.
Lemma outcome_edit r s1 : acted E cx s r s1 -> edits r s1 ->
  exists r s1, acted E cx s r s1 /\ (edits r s1 \/ executes s1 \/ closes).
Proof. intros A Ed. exists r, s1. auto. Qed.
Lemma outcome_split : In (tag data) [9; 11; 20] -> split_call E cx w w' s ->
  exists r s1, acted E cx s r s1 /\ (edits r s1 \/ executes s1 \/ closes).
Proof.
  intros T (r & s1 & w0 & n & A & D & W & Gw & _ & Tr). exists r, s1. split; [exact A|]. right. left. split; [exact T|]. exists w0, n. auto.
Qed.
Ltac use_tag Ht := apply ed_use; unfold tag; rewrite Ht; cbn; tauto.

Theorem process_outcome : auth_layout data <> None -> tag data <> 5 ->
  exists r s1, acted E cx s r s1 /\ (edits r s1 \/ executes s1 \/ closes).
Proof.
  intros L N5. pose proof S as (So & Sd & Sw). pose proof Ad as (Hc & Hf & R300 & Ncl).
  assert (R : room 1 s) by (destruct (R300 _ _ S); split; lia).
  assert (T : In (tag data) [1;2;3;6;7;9;10;11;12;13;14;15;16;17;18;19;20;21]).
  { unfold auth_layout in L. cbv zeta in L.
    repeat match type of L with (if ?b then _ else _) <> _ => let e := fresh in destruct b eqn:e;
      [apply Z.eqb_eq in e; rewrite e in *; cbn; first [tauto|congruence]|] end. congruence. }
  cbn in T. unfold acct in *.
  repeat destruct T as [T|T]; try contradiction; symmetry in T; pose proof H as P; pose proof T as T0; by_tag P T.
  - destruct (add_authority_spec _ _ _ _ _ Hc P Sd Sw R) as (r & s1 & nr & A1 & A2 & A3 & A4 & A5 & A5b & A6 & _ & A8 & A9 & A10).
    apply (outcome_edit r s1); [acted_by T A1|]. eapply edits_only; [|exact A8|exact A9]. apply ed_add; assumption.
  - destruct (remove_authority_spec _ _ _ _ _ P Sd Sw) as (r & s1 & tr & A1 & A2 & A3 & A4 & _ & A6 & A7).
    apply (outcome_edit r s1); [acted_by T A1|]. eapply edits_only; [|exact A6|exact A7]. eapply ed_remove; [exact T| |exact A3|exact A4].
    destruct A2 as [A2|A2]; [left; exact A2|right]. destruct A1 as (_ & A1). rewrite (acting_id _ _ _ _ _ _ _ _ A1). exact A2.
  - destruct (update_authority_spec _ _ _ _ _ Hc P Sd Sw) as (r & s1 & tr & l' & A1 & A2 & A3 & A4 & A5 & _ & A7 & A8 & _).
    apply (outcome_edit r s1); [acted_by T A1|]. eapply edits_only; [|exact A7|exact A8]. eapply ed_update; eassumption.
  - destruct (create_sub_v1_spec _ _ _ _ _ Hc P Sd Sw) as (r & s1 & old & A1 & A2 & A3 & _ & _ & A6 & A7).
    pose proof A1 as (_ & A0). apply acting_id in A0. rewrite <- A0 in A3, A6, A7.
    apply (outcome_edit r s1); [acted_by T A1|]. eapply edits_only; [|exact A6|exact A7]. apply ed_sub_v1; assumption.
  - destruct (withdraw_v1_spec _ _ _ _ _ P Sd Sw) as (r & s1 & sr & sb & w1 & A1 & _ & _ & _ & _ & _ & A7 & A8 & _ & A9).
    apply (outcome_edit r s1); [acted_by T A1|]. eapply edits_outside; [use_tag T|exact A7|exact A8|].
    destruct A9 as [(_ & _ & (A9 & _) & _)|(_ & _ & _ & _ & _ & A9)]; [apply keeps_outside; exact A9|eapply foreign_outside; eassumption].
  - apply outcome_split; [rewrite T0; cbn; tauto|].
    apply sub_sign_v1_split; assumption.
  - destruct (toggle_sub_v1_spec _ _ _ _ _ Hc P Sd Sw) as (r & s1 & tr & old & A1 & A2 & A3 & A4 & _ & A6 & A7).
    pose proof A1 as (_ & A0). apply acting_id in A0.
    apply (outcome_edit r s1); [acted_by T A1|]. eapply edits_only; [|exact A6|exact A7]. apply ed_toggle_v1; try assumption. rewrite A0. exact A2.
  - apply outcome_split; [rewrite T0; cbn; tauto|].
    destruct (sign_v2_split E cx w w' Hc Hf G F R300 _ s Hcs T S P) as [Sp|Cl]; [exact Sp|contradiction].
  - destruct (migrate_spec _ _ _ _ _ Hc P Sd Sw) as (r & s1 & A1 & A2 & A3 & A4 & A5 & _ & A7 & A8).
    apply (outcome_edit r s1); [acted_by T A1|]. eapply edits_only; [|exact A7|exact A8]. apply ed_migrate; assumption.
  - destruct (transfer_assets_spec _ _ _ _ _ P Sd Sw) as (r & s1 & w1 & w2 & A1 & _ & _ & _ & _ & A7 & A8 & _ & (A9 & _) & A10).
    apply (outcome_edit r s1); [acted_by T A1|]. eapply edits_outside; [use_tag T|exact A7|exact A8|].
    eapply outside_trans; [apply keeps_outside; exact A9|eapply calls_outside; eassumption].
  - destruct (close_token_spec _ _ _ _ _ P Sd Sw) as (r & s1 & w1 & A1 & _ & _ & _ & _ & _ & A7 & A8 & _ & A9).
    apply (outcome_edit r s1); [acted_by T A1|]. eapply edits_outside; [use_tag T|exact A7|exact A8|eapply calls_outside; eassumption].
  - destruct (close_swig_spec _ _ _ _ _ P Sd Sw) as (r & s1 & A1 & A2 & A3 & A4 & _ & _ & _ & A8).
    exists r, s1. split; [acted_by T A1|]. right. right. split; [exact T0|]. destruct A8 as (A8 & A9 & _). unfold acct. split; [congruence|exact A8].
  - destruct (replace_authority_spec _ _ _ _ _ Hc P Sd Sw) as (r & s1 & tr & pk & A1 & A2 & A3 & A4 & A5 & A6 & _ & A8 & A9).
    apply (outcome_edit r s1); [acted_by T A1|]. eapply edits_only; [|exact A8|exact A9]. eapply ed_replace; try eassumption.
    unfold payload_of, actor_of, auth_layout, tag. rewrite T. exact A6.
  - destruct (set_rent_claimer_spec _ _ _ _ _ Hc P Sd Sw) as (r & s1 & A1 & A2 & A3 & A4 & A5 & A6 & _ & A7 & A8).
    apply (outcome_edit r s1); [acted_by T A1|]. eapply edits_only; [|exact A7|exact A8]. apply ed_claimer; assumption.
  - destruct (create_sub_v2_spec _ _ _ _ _ Hc P Sd Sw) as (r & s1 & A1 & A2 & A3 & A4 & A5 & A6 & A7 & A8 & A9 & _ & A11 & A12 & A13 & A14 & A15 & A16 & _).
    pose proof A1 as (_ & A0). apply acting_id in A0. rewrite <- A0 in A11, A13.
    apply (outcome_edit r s1); [acted_by T A1|]. eexists. split; [apply ed_sub_v2; assumption|].
    split; [exact A12|]. split; [exact A11|exact A13].
  - destruct (toggle_sub_v2_spec _ _ _ _ _ Hc P Sd Sw)
      as (r & s1 & A1 & A2 & A3 & A4 & A5 & A6 & A7 & A8 & A9 & A10 & _ & A12 & A13 & A14 & A15 & A16 & A17).
    apply (outcome_edit r s1); [acted_by T A1|]. eexists. split; [use_tag T|]. split; [rewrite A16; exact So|]. split; [exact A13|exact A14].
  - apply outcome_split; [rewrite T0; cbn; tauto|].
    apply sub_sign_v2_split; assumption.
  - destruct (withdraw_v2_spec _ _ _ _ _ P Sd Sw) as (r & s1 & w1 & A1 & _ & _ & _ & _ & _ & _ & _ & A7 & A8 & _ & A9).
    apply (outcome_edit r s1); [acted_by T A1|]. eapply edits_outside; [use_tag T|exact A7|exact A8|].
    destruct A9 as [(_ & _ & (A9 & _) & _)|(_ & _ & _ & _ & _ & _ & _ & _ & A9)]; [apply keeps_outside; exact A9|eapply foreign_outside; eassumption].
Qed.
End Out.
