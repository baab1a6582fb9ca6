(** * What the SDK says of sub-accounts.  Proofs *)
From Verif Require Import BaseFacts AuthFacts SpecConfig ConfigFacts ConfigEdit2 HandlerV2 World3 Actors.
From Verif Require Import Rent Rent2 Rent3.
From Verif Require Export SdkRead SpecSub2 LifeProps SpecRent.

Lemma record_fields b ab en n sid sa : is_u32 n -> length sid = 32%nat -> length sa = 32%nat ->
  let d := v2_record b ab en n sid sa in
  length d = V2_LEN /\ byte_at 0 d = 2 /\ v2_bump d = b /\ v2_asset_bump d = ab /\ v2_enabled d = en /\ v2_id d = n
  /\ v2_swig_id d = sid /\ sub 40 32 d = sa.
Proof.
  intros U L1 L2 d. unfold d, v2_record. split; [rewrite !app_length, le_enc_length, L1, L2; reflexivity|].
  do 4 (split; [reflexivity|]). split; [|split].
  - unfold v2_id, u32_at. rewrite (sub_app_exact 4 4 [D_SubV2; b; ab; en] (le_enc 4 n) (sid ++ sa)) by (rewrite ?le_enc_length; reflexivity).
    apply le_le_enc. exact U.
  - unfold v2_swig_id. rewrite app_assoc. apply sub_app_exact; [rewrite app_length, le_enc_length; reflexivity|exact L1].
  - rewrite !app_assoc. rewrite <- (app_nil_r sa) at 1.
    apply sub_app_exact; [rewrite !app_length, le_enc_length, L1; reflexivity|exact L2].
Qed.

(** ** A sub-account the SDK opened is found ever after *)
Lemma record_funded E cx w w' : wf_ctx cx -> create_sub_account_v2 E cx w = Ok w' -> acct cx 1 <> acct cx 2 ->
  a_owner (w' (acct cx 2)) = SELF -> rent E V2_LEN <= a_lamports (w' (acct cx 2)).
Proof.
  intros Wc H N _. unfold acct in *. unfold create_sub_account_v2 in H. cbv zeta in H. open_up H;
  grab (rent_topup _ _ w _ _ _ = Ok _) as T1; grab (sys_allocate_assign _ _ _ _ _ = Ok _) as T2.
  all: assert (X : rent E V2_LEN <= a_lamports (v7 (mkey (c_metas cx) 2)) /\ a_owner (v7 (mkey (c_metas cx) 2)) = SELF)
    by (split; [|apply sys_allocate_spec in T2; apply T2];
        unfold sys_allocate_assign in T2; peel T2; apply ok_inj in T2; rewrite <- T2, upd_same; cbn [a_lamports];
        unfold rent_topup in T1; destruct (_ <? _) eqn:Q in T1; [|apply ok_inj in T1; subst; lia];
        apply sys_transfer_moved in T1 as ((_ & _ & M) & _); destruct (M N) as (_ & L & _); lia).
  all: destruct X as [X1 X2]; assert (gains v7 w' (mkey (c_metas cx) 2)) as G by (chain (mkey (c_metas cx) 2)).
  all: destruct (G X2); lia.
Qed.

Theorem sdk_finds E cx w w1 w' s : foreign_ok E -> rent_grows E -> 0 < rent E 72 ->
  good_world E w -> admissible E w (Call cx) -> is_cfg (w (acct cx 0)) s -> succeeds E cx w w1 -> tag (c_data cx) = 18 -> acct cx 1 <> acct cx 2 ->
  find_pda E (seeds_v2_state0 (s_id s) (s_subctr s)) = (acct cx 2, nth 8 (c_data cx) 0) ->
  find_pda E (seeds_v2_asset0 (s_id s) (s_subctr s)) = (acct cx 3, nth 9 (c_data cx) 0) ->
  reach E w1 w' -> sdk_sub_account_v2 E w' (s_id s) (s_subctr s) = Ok (Some (acct cx 3)).
Proof.
  intros F Hr R0 G A S H T N P1 P2 R. pose proof S as (So & Sd & Sw). pose proof A as (Hc & _).
  pose proof (reach_good E _ _ F G (run_reach _ _ _ _ A H)) as G1. pose proof H as P. by_tag P T.
  destruct (create_sub_v2_spec _ _ _ _ _ Hc P Sd Sw) as (r & s1 & _ & _ & _ & _ & _ & _ & _ & _ & _ & _ & _ & _ & _ & D3 & O3 & _).
  change (mkey (c_metas cx)) with (acct cx) in *.
  pose proof (record_funded _ _ _ _ Hc P N O3) as Fu.
  assert (B : byte_at 0 (a_data (w1 (acct cx 2))) = 2) by (rewrite D3; reflexivity).
  destruct (records_stay E w1 w' F G1 R G1) as (G' & K). destruct (K _ O3 B) as (O' & B' & (b & ab & en & en' & n & sid & sa & Q1 & Q2)).
  rewrite D3 in Q1. pose proof (f_equal (skipn 4) Q1) as Q4. pose proof (f_equal (byte_at 1) Q1) as Q5. pose proof (f_equal (byte_at 2) Q1) as Q6.
  change (le_enc 4 (s_subctr s) ++ s_id s ++ acct cx 3 = le_enc 4 n ++ sid ++ sa) in Q4.
  change (byte_at 8 (c_data cx) = b) in Q5. change (byte_at 9 (c_data cx) = ab) in Q6.
  assert (Q7 : a_data (w' (acct cx 2)) = v2_record (byte_at 8 (c_data cx)) (byte_at 9 (c_data cx)) en' (s_subctr s) (s_id s) (acct cx 3))
    by (rewrite Q2; unfold v2_record; rewrite Q4, Q5, Q6; reflexivity).
  destruct (good_record _ _ _ (G' _ O') B') as (b2 & ab2 & e2 & n2 & i2 & a2 & Z2 & Y1 & _).
  assert (Ee : en' = e2) by (rewrite Q7 in Z2; exact (f_equal (byte_at 3) Z2)).
  pose proof Sw as (_ & (Li & _) & _ & _ & _ & _ & Us & _).
  assert (L3 : length (acct cx 3) = 32%nat).
  { assert (W3 : wf_key (acct cx 3)); [|apply W3]. apply nth_wf; [apply Hc|].
    unfold create_sub_account_v2, need in P. cbv zeta in P. peel P. grab ((5 <=? _)%nat = true) as X5. apply Nat.leb_le in X5. lia. }
  destruct (record_fields (byte_at 8 (c_data cx)) (byte_at 9 (c_data cx)) en' (s_subctr s) (s_id s) (acct cx 3) Us Li L3)
    as (F0 & F1 & F2 & F3 & F4 & F5 & F6 & F7).
  assert (X : exempt E (w' (acct cx 2))).
  { apply (fun X => proj2 (reach_safe E F Hr w1 w' _ G1 R O3 X)). unfold exempt. rewrite D3.
    destruct (record_fields (byte_at 8 (c_data cx)) (byte_at 9 (c_data cx)) 1 (s_subctr s) (s_id s) (acct cx 3) Us Li L3) as (F8 & _).
    rewrite F8. exact Fu. }
  unfold exempt in X. rewrite Q7, F0 in X. change (rent E V2_LEN) with (rent E 72) in X.
  unfold sdk_sub_account_v2. rewrite P1, P2. unfold on_chain.
  replace (a_lamports (w' (acct cx 2)) =? 0) with false by lia. cbn [negb]. rewrite Q7, F0, F1, F2, F3, F4, F5, F6, F7, O', !beq_refl.
  change (byte_at 8 (c_data cx)) with (nth 8 (c_data cx) 0). change (byte_at 9 (c_data cx)) with (nth 9 (c_data cx) 0).
  rewrite !Z.eqb_refl. subst e2. destruct Y1 as [-> | ->]; reflexivity.
Qed.

(** ** What the SDK finds is a sub-account *)
Theorem sdk_found E w s n a : good_world E w -> sdk_sub_account_v2 E w (s_id s) n = Ok (Some a) -> is_u32 n -> wf_key (s_id s) ->
  exists st on, (on = 0 \/ on = 1) /\ sub_record E w s st a n on
    /\ st = fst (find_pda E (seeds_v2_state0 (s_id s) n)) /\ a = fst (find_pda E (seeds_v2_asset0 (s_id s) n)).
Proof.
  intros G H U (Li & Lb). unfold sdk_sub_account_v2 in H. destruct (find_pda E (seeds_v2_state0 _ _)) as [st sb]. destruct (find_pda E (seeds_v2_asset0 _ _)) as [asset ab].
  destruct (on_chain (w st)); [|discriminate H]. cbn [negb] in H. peel H. apply ok_inj in H. injection H as <-.
  repeat match goal with B : _ && _ = true |- _ => apply andb_prop in B as [? ?] end.
  repeat match goal with B : beq _ _ = true |- _ => apply beq_eq in B end.
  grab (a_owner (w st) = SELF) as O. grab ((byte_at 0 _ =? _) = true) as B0. apply Z.eqb_eq in B0.
  destruct (good_record _ _ _ (G st O) B0) as (b & b' & e & n1 & i1 & a1 & Z1 & Y1 & Y2 & Y3 & U1 & (L1 & _) & (L2 & _) & P1 & P2).
  destruct (record_fields b b' e n1 i1 a1 U1 L1 L2) as (_ & _ & F2 & F3 & F4 & F5 & F6 & F7). rewrite <- Z1 in *.
  grab ((v2_id _ =? n) = true) as Bn. apply Z.eqb_eq in Bn. grab (v2_swig_id _ = s_id s) as Bi. grab (sub 40 32 _ = asset) as Ba.
  assert (X1 : n1 = n) by congruence. assert (X2 : i1 = s_id s) by congruence. assert (X3 : a1 = asset) by congruence.
  rewrite X1, X2, X3 in Z1. rewrite X1, X2 in P1. rewrite X1, X2, X3 in P2.
  exists st, e. split; [exact Y1|]. split; [|split; reflexivity]. exists b, b'. split; [exact O|]. split; [exact Z1|]. split; [exact P1|]. split; [exact P2|]. split; [exact Y2|exact Y3].
Qed.
