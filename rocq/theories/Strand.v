(** * Closing a wallet onto itself.  Proofs *)
From Verif Require Import BaseFacts SpecConfig ConfigFacts ConfigEdit2 Frame HandlerAssets HandlerRoles2 LifeProps Actors.
From Verif Require Import SpecLife.

Lemma close_on_self E cx w w' s : is_cfg (w (acct cx 0)) s -> succeeds E cx w w' -> tag (c_data cx) = 15 ->
  0 <= rent E 1 <= a_lamports (w (acct cx 0)) -> 0 <= a_lamports (w (acct cx 1)) -> acct cx 1 <> acct cx 0 ->
  (acct cx 2 = acct cx 1 ->
     a_lamports (w' (acct cx 1)) = a_lamports (w (acct cx 1)) + (a_lamports (w (acct cx 0)) - rent E 1)
     /\ a_lamports (w' (acct cx 0)) = rent E 1 /\ forall k, k <> acct cx 0 -> k <> acct cx 1 -> a_lamports (w' k) = a_lamports (w k))
  /\ (acct cx 2 = acct cx 0 -> a_lamports (w (acct cx 1)) = 0 /\ forall k, a_lamports (w' k) = a_lamports (w k)).
Proof.
  intros S P T R0 L0 N. by_tag P T. unfold acct in *. set (swig := mkey (c_metas cx) 0) in *. set (wallet := mkey (c_metas cx) 1) in *. set (dest := mkey (c_metas cx) 2) in *.
  unfold close_swig_v1 in P. cbv zeta in P. fold swig wallet dest in P. peel P.
  grab ((if 0 <? _ then _ else _) = Ok _) as Bt. grab (pay_out _ _ _ _ _ _ = Ok _) as Bp.
  apply write_data_only in P as (_ & _ & _ & Hl).
  split; intros Q; rewrite Q in *.
  - assert (V : v3 = w).
    { destruct (0 <? _); [|apply ok_inj in Bt; congruence]. unfold sys_transfer in Bt. peel Bt. rewrite beq_refl in Bt. apply ok_inj in Bt. congruence. }
    clear Bt. subst v3. apply pay_out_ok in Bp as (_ & _ & P1 & _ & P3). destruct (P1 (not_eq_sym N)) as (Q1 & Q2 & Q3).
    unfold sat_sub in *. split; [rewrite Hl; lia|]. split; [rewrite Hl; exact Q1|]. intros k K1 K2. rewrite Hl, P3 by assumption. reflexivity.
  - unfold pay_out in Bp. cbv zeta in Bp. peel Bp. apply ok_inj in Bp. rewrite !upd_same, beq_refl in *. cbn [a_lamports] in *.
    match goal with X : (_ =? _) = true |- _ => apply Z.eqb_eq in X; rename X into Bal end.
    unfold sat_sub in *.
    assert (Z0 : a_lamports (w wallet) = 0 /\ v3 = w).
    { destruct (0 <? a_lamports (w wallet)) eqn:Z0; [exfalso|apply ok_inj in Bt; split; [lia|congruence]].
      apply sys_transfer_moved in Bt as ((_ & _ & M) & _). destruct (M N) as (_ & M2 & _). lia. }
    destruct Z0 as (Z0 & V). subst v3. split; [exact Z0|]. intros k. rewrite Hl. subst v4.
    destruct (bytes_dec k swig) as [->|K]; [rewrite upd_same; cbn [a_lamports]; lia|]. rewrite !upd_other by congruence. reflexivity.
Qed.

Lemma claimer_saves E cx0 cx w0 w w1 w' s : foreign_ok E -> hashes_ok E -> good_world E w0 -> admissible E w0 (Call cx0) ->
  is_cfg (w0 (acct cx0 0)) s -> tag (c_data cx0) = 17 -> succeeds E cx0 w0 w -> reach E w w1 ->
  acct cx 0 = acct cx0 0 -> tag (c_data cx) = 15 -> succeeds E cx w1 w' ->
  acct cx 2 <> acct cx 0 /\ (pda E (seeds_wallet (acct cx0 0) (s_wbump s)) = Some (acct cx 1) -> acct cx 2 <> acct cx 1).
Proof.
  intros F He G A S T P R K Tc Pc.
  assert (Gw : good_world E w).
  { pose proof (event_good E w0 (Call cx0) F G A) as X. cbn [step] in X. unfold succeeds in P. rewrite P in X. exact X. }
  destruct (claimer_ok E cx0 w0 w s He (proj1 A) S P T) as (r & _ & _ & _ & _ & N1 & N2 & C & _).
  destruct (claimer_stays E w w1 (acct cx0 0) _ (sub 8 32 (c_data cx0)) F Gw R C eq_refl) as [D|(s1 & S1 & C1)].
  - exfalso. assert (G1 : good_world E w1) by (eapply reach_good; eassumption).
    destruct (closed_final E w1 w1 (acct cx0 0) F G1 (reach_nil _ _) D) as (_ & N). exact (N cx w' K Pc).
  - rewrite <- K in S1. pose proof (claimer_binds E cx w1 w' s1 _ S1 ltac:(right; left; symmetry; exact Tc) Pc C1) as B.
    rewrite B, K. split; [exact N1|]. intros X Y. apply N2. rewrite X, Y. reflexivity.
Qed.
