(** * Who acted in a successful instruction *)
From Verif Require Import BaseFacts SpecConfig ConfigFacts ConfigEdit ConfigEdit2 ConfigEdit3.
From Verif Require Export SpecActs AuthFacts History.

Lemma with_auth_same r : with_auth r (r_auth r) = r.
Proof. destruct r; reflexivity. Qed.
Lemma find_role_in i s r : find_role i s = Some r -> In r (s_roles s) /\ r_id r = i.
Proof. intros H. apply find_some in H as [H1 H2]. apply Z.eqb_eq in H2. auto. Qed.
Lemma find_role_unique i s r r' : wf_config s -> find_role i s = Some r -> In r' (s_roles s) -> r_id r' = i -> r' = r.
Proof.
  intros (_ & _ & _ & _ & _ & _ & _ & _ & N & _) F I Hi. apply find_role_in in F as [F1 F2].
  unfold ids in N. clear - N F1 F2 I Hi. revert N F1 I. generalize (s_roles s). induction l as [|x t IH]; intros N F1 I; [destruct I|].
  cbn in N. apply NoDup_cons_iff in N as [N1 N2].
  destruct F1 as [->|F1], I as [->|I]; [reflexivity| | |apply IH; assumption].
  - exfalso. apply N1. rewrite F2, <- Hi. apply in_map. exact I.
  - exfalso. apply N1. rewrite Hi, <- F2. apply in_map. exact F1.
Qed.
Lemma on_role_ext i f g s r : wf_config s -> find_role i s = Some r -> f r = g r -> on_role i f s = on_role i g s.
Proof.
  intros W F H. unfold on_role. f_equal. apply map_ext_in. intros x Hx. destruct (r_id x =? i) eqn:E; [|reflexivity].
  apply Z.eqb_eq in E. rewrite (find_role_unique i s r x W F Hx E). exact H.
Qed.
Lemma wf_find s i r : wf_config s -> find_role i s = Some r -> wf_role r.
Proof.
  intros (_ & _ & _ & _ & _ & _ & _ & W8 & _) F. apply find_role_in in F as [F _]. eapply Forall_forall; eassumption.
Qed.

Lemma acted_used E cx s r s1 : wf_config s -> acted E cx s r s1 -> s1 = used (actor_of (c_data cx)) s /\ r_id r = actor_of (c_data cx).
Proof.
  intros W (F & auth & H & ->). split; [|apply find_role_in in F as [_ F]; exact F].
  unfold used. eapply on_role_ext; [exact W|exact F|]. apply role_authenticate_leaves in H. unfold after_use.
  rewrite H. destruct ((r_aty r =? 3) || (r_aty r =? 5)); [reflexivity|apply with_auth_same].
Qed.

Lemma payload_bytes d : all_bytes d -> all_bytes (payload_of d).
Proof. intros A. unfold payload_of. destruct (auth_layout d) as [[[o b] e]|]; [apply all_bytes_skipn; exact A|constructor]. Qed.

Lemma acted_acts E cx s r s1 : hashes_ok E -> wf_ctx cx -> wf_config s -> tag (c_data cx) <> 5 -> acted E cx s r s1 -> acts E cx s r.
Proof.
  intros He (Hd & _) W T (F & auth & H & _). split; [exact F|]. exists auth.
  apply Z.eqb_neq in T. cbv zeta. rewrite T. apply role_authenticate_ok in H; [exact H|exact He| |apply payload_bytes; exact Hd].
  apply wf_find in F as (_ & F & _); [exact F|exact W].
Qed.

(** The instruction number selects the handler *)
Ltac by_tag H Ht :=
  unfold succeeds, process in H; apply bind_ok in H as (?cs & ?Hcs & H); apply bind_ok in H as (?u & _ & H); cbv zeta in H;
  unfold tag in Ht; rewrite Ht in H; cbn [Z.eqb Pos.eqb orb] in H;
  try (unfold dispatch in H; apply bind_ok in H as (?u & _ & H); cbv zeta in H; rewrite Ht in H; cbn [Z.eqb Pos.eqb orb] in H).

Section Acts.
Variables (E : env) (cx : ctx) (w w' : world) (s : config).
Hypothesis (He : hashes_ok E) (Hc : wf_ctx cx) (S : is_cfg (w (acct cx 0)) s) (R : room 1 s).
Hypothesis H : succeeds E cx w w'.

Ltac fin Ht A := match type of A with acts_as _ _ _ _ _ ?r ?s1 =>
  exists r; apply acted_acts with (s1 := s1); [exact He|exact Hc|apply S|unfold tag; rewrite Ht; discriminate|acted_by Ht A] end.

Theorem process_acts : auth_layout (c_data cx) <> None -> exists r, acts E cx s r.
Proof.
  intros L. pose proof S as (So & Sd & Sw).
  assert (T : In (tag (c_data cx)) [1;2;3;5;6;7;9;10;11;12;13;14;15;16;17;18;19;20;21]).
  { unfold auth_layout in L. cbv zeta in L.
    repeat match type of L with (if ?b then _ else _) <> _ => let e := fresh in destruct b eqn:e;
      [apply Z.eqb_eq in e; rewrite e; cbn; tauto|] end. congruence. }
  cbn in T. unfold acct in *.
  repeat destruct T as [T|T]; try contradiction; symmetry in T; pose proof H as P; by_tag P T.
  - destruct (add_authority_spec _ _ _ _ _ Hc P Sd Sw R) as (r & s1 & nr & A & _). fin T A.
  - destruct (remove_authority_spec _ _ _ _ _ P Sd Sw) as (r & s1 & nr & A & _). fin T A.
  - destruct (update_authority_spec _ _ _ _ _ Hc P Sd Sw) as (r & s1 & nr & l' & A & _). fin T A.
  - destruct (create_session_spec _ _ _ _ _ Hc P Sd Sw) as (r & a & a' & F & Ss & L48 & A & _).
    assert (La : auth_layout (c_data cx) = Some (4, 0, 48)%nat) by lay T.
    exists r. unfold acts. cbv zeta. unfold tag. rewrite T. cbn [Z.eqb Pos.eqb].
    unfold actor_of, payload_of, signed_of. rewrite La. split; [exact F|]. exists a.
    apply authenticate_ok; [exact He| | |exact A].
    + apply wf_find in F as (_ & F & _); assumption.
    + apply all_bytes_skipn. apply Hc.
  - destruct (create_sub_v1_spec _ _ _ _ _ Hc P Sd Sw) as (r & s1 & nr & A & _). fin T A.
  - destruct (withdraw_v1_spec _ _ _ _ _ P Sd Sw) as (r & s1 & x1 & x2 & x3 & A & _). fin T A.
  - destruct (sub_sign_v1_spec _ _ _ _ _ Hc S T P) as (r & s1 & p & w0 & xs & A & _).
    exists r. eapply acted_acts; [exact He|exact Hc|exact Sw|unfold tag; rewrite T; discriminate|exact A].
  - destruct (toggle_sub_v1_spec _ _ _ _ _ Hc P Sd Sw) as (r & s1 & x1 & x2 & A & _). fin T A.
  - destruct (sign_v2_spec _ _ _ _ _ _ Hc S T P) as (r & s1 & w0 & xs & A & _).
    exists r. eapply acted_acts; [exact He|exact Hc|exact Sw|unfold tag; rewrite T; discriminate|exact A].
  - destruct (migrate_spec _ _ _ _ _ Hc P Sd Sw) as (r & s1 & A & _). fin T A.
  - destruct (transfer_assets_spec _ _ _ _ _ P Sd Sw) as (r & s1 & x1 & x2 & A & _). fin T A.
  - destruct (close_token_spec _ _ _ _ _ P Sd Sw) as (r & s1 & x1 & A & _). fin T A.
  - destruct (close_swig_spec _ _ _ _ _ P Sd Sw) as (r & s1 & A & _). fin T A.
  - destruct (replace_authority_spec _ _ _ _ _ Hc P Sd Sw) as (r & s1 & x1 & x2 & A & _). fin T A.
  - destruct (set_rent_claimer_spec _ _ _ _ _ Hc P Sd Sw) as (r & s1 & A & _). fin T A.
  - destruct (create_sub_v2_spec _ _ _ _ _ Hc P Sd Sw) as (r & s1 & A & _). fin T A.
  - destruct (toggle_sub_v2_spec _ _ _ _ _ Hc P Sd Sw) as (r & s1 & A & _). fin T A.
  - destruct (sub_sign_v2_spec _ _ _ _ _ Hc S T P) as (r & s1 & w0 & xs & A & _).
    exists r. eapply acted_acts; [exact He|exact Hc|exact Sw|unfold tag; rewrite T; discriminate|exact A].
  - destruct (withdraw_v2_spec _ _ _ _ _ P Sd Sw) as (r & s1 & x1 & A & _). fin T A.
Qed.
End Acts.
