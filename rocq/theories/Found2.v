(** * The client library's instruction creates the wallet *)
From Verif Require Import BaseFacts SpecConfig SpecAvail SpecClient SpecWorks SpecFound Client ClientFacts Found.

Theorem client_founds E cx w k b payer wal wb ty c l id : sent cx (create k b payer wal wb ty c l id) -> wf_ctx cx ->
  length id = 32%nat -> is_byte b -> is_byte wb -> NoDup [k; payer; wal] -> native w ->
  vacant w k -> vacant w wal -> a_lamports (w k) = 0 ->
  pda E (seeds_swig id b) = Some k -> pda E (seeds_wallet k wb) = Some wal ->
  credential_ok ty c -> wf_actions l -> Forall unspent l -> (exists a, In a l /\ (ac_ty a = 7 \/ ac_ty a = 8)) ->
  let s := founded id b wb ty c l in let n := length (enc_config s) in
  Z.of_nat n <= 10240 -> 0 <= rent E n < U64 -> rent E 0 < U64 -> can_pay w payer (rent E n + missing E w wal 0) ->
  exists w', succeeds E cx w w' /\ settled E w w' k payer wal s.
Proof.
  intros (D & M) Wc Li Bb Bw Nd Nt V0 V2 Z0 P0 P2 Cr Wl Ul Mg s n Sz R1 R0 Pay.
  cbn [create build ix_metas ix_data] in D, M.
  remember (c_metas cx) as ms eqn:Hm. destruct ms as [|m0 [|m1 [|m2 [|m3 [|m4 ms]]]]];
    repeat match goal with M : Forall2 _ _ _ |- _ => inversion M; clear M; subst end.
  repeat match goal with M : wider ?x ?y |- _ => revert M end. intros M0 M1 M2 M4.
  destruct M0 as (K0 & _ & W0), M1 as (K1 & S1 & W1), M2 as (K2 & _ & W2), M4 as (K3 & _).
  cbn [m_key m_signer m_writable w_ ws] in *. specialize (W0 eq_refl). specialize (W1 eq_refl). specialize (S1 eq_refl). specialize (W2 eq_refl).
  assert (A0 : acct cx 0 = k) by (unfold acct, mkey; rewrite <- Hm; cbn; exact K0).
  assert (A1 : acct cx 1 = payer) by (unfold acct, mkey; rewrite <- Hm; cbn; exact K1).
  assert (A2 : acct cx 2 = wal) by (unfold acct, mkey; rewrite <- Hm; cbn; exact K2).
  assert (Or : order_of (c_data cx) = Some (Found id b wb ty c (enc_actions 0 l))).
  { rewrite D. apply reads_create. unfold in_range, is_u16, U16, short. split; [exact Li|]. split; [exact Bb|]. split; [exact Bw|].
    unfold credential_ok in Cr. lia. }
  rewrite <- A0, <- A1, <- A2. apply (found_asked E cx w id b wb ty c l); rewrite ?A0, ?A1, ?A2; try assumption.
  unfold founding_accounts. rewrite A0, A1, A2. rewrite <- Hm. split; [cbn; lia|]. split; [exact Nd|].
  assert (Wr : forall m, In m [m0; m1; m2; m3] -> m_writable m = true -> writable [m0; m1; m2; m3] (m_key m) = true).
  { intros m I Q. unfold writable. apply existsb_exists. exists m. rewrite beq_refl, Q. auto. }
  split; [rewrite <- K0; apply Wr; cbn; auto|]. split; [rewrite <- K1; apply Wr; cbn; auto|]. split; [rewrite <- K2; apply Wr; cbn; auto|].
  split; [unfold signer; apply existsb_exists; exists m1; rewrite K1, beq_refl, S1; cbn; auto|].
  assert (Sys : forall k, a_owner (w k) = SYSTEM -> a_owner (w k) <> SELF /\ a_owner (w k) <> STAKING).
  { intros k' Q. rewrite Q. split; discriminate. }
  intros m [<-|[<-|[<-|[<-|[]]]]]; [rewrite K0; apply Sys, V0|rewrite K1; apply Sys, Pay|rewrite K2; apply Sys, V2|].
  rewrite K3. unfold native in Nt. cbn [In] in Nt. split; intros Q; apply Nt; rewrite Q; auto.
Qed.
