(** * Configuration instructions take lamports from nobody but those who sign.  Proofs *)
From Verif Require Import BaseFacts SpecConfig ConfigFacts ConfigEdit ConfigEdit2 ConfigEdit3.
From Verif Require Import AuthProps HandlerRoles HandlerRoles2 HandlerSub HandlerLife HandlerV2 HandlerAssets SignSpec.
From Verif Require Export Rent3.

Definition spares (w w' : world) (k : key) : Prop := a_lamports (w k) <= a_lamports (w' k).
Lemma moved_spares w w' f t amt k : moved w w' f t amt -> k <> f -> 0 <= amt -> spares w w' k.
Proof.
  intros (_ & M2 & M3) Nf A. unfold spares. destruct (bytes_dec f t) as [Q|N]; [rewrite (M2 Q); lia|].
  destruct (M3 N) as (_ & L & R). destruct (bytes_dec k t) as [->|Nt]; [lia|]. rewrite R by assumption. lia.
Qed.
Section Spare.
Variables (E : env) (cx : ctx) (k : key).
Hypothesis (Nk : k <> mkey (c_metas cx) 0) (Ns : signer (c_metas cx) k = false).
Lemma set_data_spares w k0 d w' : set_data (c_metas cx) w k0 d = Ok w' -> spares w w' k.
Proof. clear Nk Ns. intros H. apply set_data_only in H as (_ & _ & L). unfold spares. rewrite L. lia. Qed.
Lemma write_data_spares w k0 d w' : write_data (c_metas cx) w k0 d = Ok w' -> spares w w' k.
Proof. clear Nk Ns. unfold write_data. intros H. peel H. eapply set_data_spares; exact H. Qed.
Lemma topup_spares w p k0 n w' : rent_topup E (c_metas cx) w p k0 n = Ok w' -> spares w w' k.
Proof.
  clear Nk. unfold rent_topup. intros H. destruct (_ <? _) eqn:Q; [|apply ok_inj in H; subst; unfold spares; lia].
  apply sys_transfer_moved in H as (M & _ & _ & _ & [S|[]] & _). eapply moved_spares; [exact M| |lia]. intros ->. congruence.
Qed.
Lemma move_spares w t amt w' : 0 <= amt -> move_lamports (c_metas cx) w (mkey (c_metas cx) 0) t amt = Ok w' -> spares w w' k.
Proof. clear Ns. intros A H. apply move_lamports_moved in H as (M & _). eapply moved_spares; eassumption. Qed.
Lemma allocate_spares ps w k0 n w' : sys_allocate_assign (c_metas cx) ps w k0 n = Ok w' -> spares w w' k.
Proof.
  clear Nk Ns. unfold sys_allocate_assign. intros H. peel H. apply ok_inj in H. subst w'. unfold spares.
  destruct (bytes_dec k k0) as [->|N]; [rewrite upd_same; cbn; lia|rewrite upd_other by exact N; lia].
Qed.
Lemma create_account_spares sd w f amt n w' : 0 <= amt -> pda E sd = Some (mkey (c_metas cx) 0) ->
  sys_create_account (c_metas cx) (pda_list E sd) w f (mkey (c_metas cx) 0) amt n = Ok w' -> spares w w' k.
Proof.
  intros A P H. unfold sys_create_account in H. peel H. apply allocate_spares in H. grab (sys_transfer _ _ _ _ _ _ = Ok _) as Bt.
  apply sys_transfer_moved in Bt as (M & _ & _ & _ & S & _). unfold spares in *. eapply Z.le_trans; [|exact H].
  eapply moved_spares; [exact M| |exact A]. unfold pda_list in S. rewrite P in S. destruct S as [S|[S|[]]]; [intros ->; congruence|congruence].
Qed.
Lemma spares_trans a b c : spares a b k -> spares b c k -> spares a c k.
Proof. unfold spares. lia. Qed.
End Spare.
Ltac sp_conv k :=
  repeat match goal with
  | B : (if ?b then _ else _) = Ok ?w |- _ => match type of w with world => destruct b eqn:? end
  | B : set_data _ _ _ _ = Ok _ |- _ => apply (set_data_spares _ k) in B
  | B : write_data _ _ _ _ = Ok _ |- _ => apply (write_data_spares _ k) in B
  | N : k <> _, B : move_lamports _ _ _ _ _ = Ok _ |- _ => apply (move_spares _ k N) in B; [|amt]
  | N : signer _ k = false, B : rent_topup _ _ _ _ _ _ = Ok _ |- _ => apply (topup_spares _ _ k N) in B
  | B : sys_allocate_assign _ _ _ _ _ = Ok _ |- _ => apply (allocate_spares _ k) in B
  | N : k <> _, S : signer _ k = false, B : sys_create_account _ _ _ _ _ _ _ = Ok _ |- _ => apply (create_account_spares _ _ k N S) in B; [|amt|assumption]
  | B : @Ok world ?w = Ok ?w' |- _ => apply ok_inj in B; subst
  end.
Ltac sp_chain k := sp_conv k; unfold spares in *; lia.

Lemma config_spares E cx w w' k : succeeds E cx w w' -> ~ In (tag (c_data cx)) [7; 9; 11; 13; 14; 15; 20; 21] ->
  k <> acct cx 0 -> signer (c_metas cx) k = false -> a_lamports (w k) <= a_lamports (w' k).
Proof.
  intros P T Nk Ns. unfold acct in Nk. unfold succeeds, process in P. peel P. unfold tag in T.
  destruct (_ =? 11) eqn:T11; [exfalso; apply T; apply Z.eqb_eq in T11; rewrite T11; cbn; tauto|].
  destruct (_ =? 9) eqn:T9; [exfalso; apply T; apply Z.eqb_eq in T9; rewrite T9; cbn; tauto|].
  destruct (_ =? 20) eqn:T20; [exfalso; apply T; apply Z.eqb_eq in T20; rewrite T20; cbn; tauto|].
  unfold dispatch in P. cbv zeta in P. peel P.
  repeat match type of P with (if ?b then _ else _) = _ => let C := fresh "C" in destruct b eqn:C end; try discriminate P;
  try (exfalso; apply T; match goal with C : (_ =? _) = true |- _ => apply Z.eqb_eq in C; rewrite C end; cbn; tauto).
  - unfold add_authority_v1 in P. cbv zeta in P. open_up P; sp_chain k.
  - unfold remove_authority_v1 in P. cbv zeta in P. open_up P. grab ((rent _ _ <=? rent _ _) = true) as Br. sp_chain k.
  - unfold update_authority_v1 in P. cbv zeta in P. open_up P; sp_chain k.
  - unfold create_session_v1 in P. cbv zeta in P. open_up P; sp_chain k.
  - unfold create_sub_account_v1 in P. cbv zeta in P. open_up P; sp_chain k.
  - unfold toggle_sub_account_v1 in P. cbv zeta in P. open_up P; sp_chain k.
  - unfold migrate_v1 in P. cbv zeta in P. open_up P; sp_chain k.
  - unfold replace_authority_v1 in P. cbv zeta in P. open_up P; sp_chain k.
  - unfold set_rent_claimer_v1 in P. cbv zeta in P. open_up P; sp_chain k.
  - unfold create_sub_account_v2 in P. cbv zeta in P. open_up P; sp_chain k.
  - unfold toggle_sub_account_v2 in P. cbv zeta in P. open_up P; sp_chain k.
  - unfold create_v1 in P. cbv zeta in P. open_up P.
    grab (check_pda _ (seeds_swig _ _) _ _ = Ok _) as Bk. apply check_pda_ok in Bk. sp_chain k.
Qed.
