(** * Which calls succeed: closing a wallet, sub-accounts of the second version *)
From Verif Require Import BaseFacts SpecConfig ConfigFacts ConfigEdit NewCredential ConfigEdit2 ConfigEdit3.
From Verif Require Import Frame HandlerRoles HandlerRoles2 HandlerAssets HandlerSub HandlerV2 HandlerLife LifeProps Actors ConfigProps AuthFacts SpecAvail Avail Avail2 Avail3.
From Verif Require Import SpecRent SignProcess SignSpec Parse SpecSign SpecClient SpecWorks Avail4 ConfigCan Avail8 SpecSub2.

Lemma order_create2 d b1 b2 : order_of d = Some (CreateSub2 b1 b2) -> tag d = 18 /\ b1 = byte_at 8 d /\ b2 = byte_at 9 d.
Proof. intros H. read_order H. subst. auto. Qed.
Lemma order_toggle2 d i on : order_of d = Some (ToggleSub2 i on) -> tag d = 19 /\ i = u32_at 8 d /\ on = byte_at 2 d.
Proof. intros H. read_order H. subst. auto. Qed.
Lemma order_withdraw2 d i n : order_of d = Some (WithdrawSub2 i n) -> tag d = 21 /\ i = u32_at 8 d /\ n = u64_at 16 d.
Proof. intros H. read_order H. subst. auto. Qed.

Lemma pda_signs E seeds k : pda E seeds = Some k -> existsb (beq k) (pda_list E seeds) = true.
Proof. intros H. unfold pda_list. rewrite H. cbn. rewrite beq_refl. reflexivity. Qed.
Lemma pda_checked E seeds k e : pda E seeds = Some k -> check_pda E seeds k e = Ok tt.
Proof. intros H. unfold check_pda. rewrite H. cbn [ok_or bind]. rewrite beq_refl. reflexivity. Qed.
Lemma transfer_can ms pdas w from to n : signer ms from || existsb (beq from) pdas = true -> writable ms from = true -> writable ms to = true ->
  a_owner (w from) = SYSTEM -> a_data (w from) = [] -> n <= a_lamports (w from) -> (from <> to -> a_lamports (w to) + n < U64) ->
  can (sys_transfer ms pdas w from to n).
Proof.
  intros S Wf Wt O D L U. unfold sys_transfer. apply can_check; [exact S|]. apply can_check; [rewrite Wf, Wt; reflexivity|].
  apply can_check; [rewrite O; apply beq_refl|]. apply can_check; [rewrite D; reflexivity|]. apply can_check; [lia|].
  destruct (beq from to) eqn:Q; [apply can_ok|]. apply can_check; [|apply can_ok]. apply Z.ltb_lt, U. apply beq_neq. exact Q.
Qed.

(** ** Closing *)
Theorem close_asked E cx w s r : wf_ctx cx -> is_cfg (w (acct cx 0)) s -> usual_accounts 4 cx w s -> acct cx 3 = SYSTEM ->
  In r (s_roles s) -> holds 7 r \/ holds 8 r \/ holds 20 r -> asks E cx r CloseWallet ->
  acct cx 1 = fst (find_pda E (seeds_wallet0 (acct cx 0))) -> pda E (seeds_wallet (acct cx 0) (s_wbump s)) = Some (acct cx 1) ->
  plain_acct (w (acct cx 1)) -> writable (c_metas cx) (acct cx 1) = true -> writable (c_metas cx) (acct cx 2) = true ->
  (forall k, s_claimer s = Some k -> acct cx 2 = k) -> acct cx 2 <> acct cx 0 -> acct cx 2 <> acct cx 1 ->
  rent_grows E -> 0 <= a_lamports (w (acct cx 1)) <= rent E 0 -> a_lamports (w (acct cx 0)) = rent E (length (enc_config s)) ->
  0 <= a_lamports (w (acct cx 2)) -> a_lamports (w (acct cx 2)) + a_lamports (w (acct cx 1)) + a_lamports (w (acct cx 0)) < U64 ->
  exists w', succeeds E cx w w' /\ a_owner (w' (acct cx 0)) = SELF /\ a_data (w' (acct cx 0)) = [D_Closed]
    /\ a_lamports (w' (acct cx 2)) = a_lamports (w (acct cx 2)) + a_lamports (w (acct cx 1)) + (a_lamports (w (acct cx 0)) - rent E 1)
    /\ a_lamports (w' (acct cx 1)) = 0 /\ a_lamports (w' (acct cx 0)) = rent E 1.
Proof.
  intros Wc C (A1 & A2 & A3) A4 I M (Q1 & Q2 & a & Q3) Wa Pw (Wo & Wd) Ww Wv Cl N0 N1 G L1 L0 L2 Sum. pose proof C as (O & Dd & W).
  assert (Fr : find_role (r_id r) s = Some r) by (apply find_role_mine; [exact W|exact I]).
  apply order_close in Q2 as T. laid T Q1 Q3. rewrite Nat.sub_0_r in Q3.
  pose proof (payload_there _ _ _ _ _ _ _ _ Q3) as L.
  pose proof (enc_config_length s W) as Lc. destruct (G 1%nat (length (enc_config s)) ltac:(unfold HDR in Lc; lia)) as [G0 G1].
  assert (Nw : acct cx 1 <> acct cx 0) by (intros Q; rewrite Q, O in Wo; discriminate Wo).
  assert (Hn : can (close_swig_v1 E cx w)).
  { unfold close_swig_v1. cbv zeta. unfold need. apply can_check; [lia|]. change (mkey (c_metas cx) 0) with (acct cx 0).
    change (mkey (c_metas cx) 1) with (acct cx 1). change (mkey (c_metas cx) 2) with (acct cx 2). change (mkey (c_metas cx) 3) with (acct cx 3).
    unfold owned_by. apply can_check; [rewrite O; apply beq_refl|]. apply can_check; [rewrite A4; apply beq_refl|]. apply can_check; [lia|].
    rewrite (load_config_can _ _ _ C). cbn [bind]. apply can_check; [rewrite <- Wa; apply beq_refl|]. rewrite Q1.
    apply can_then; [eapply open_can; [exact W|exact Fr|exact Q3]|].
    intros o Ho. apply open_role_enc in Ho as (r1 & s0 & (O1 & au' & O1' & O1s) & O2 & W1 & O4 & O5 & O6 & O7 & O8 & O9 & O10); [|exact W].
    rewrite Fr in O1. injection O1 as <-. pose proof (eq_trans (eq_sym Q3) O1') as X. injection X as <-.
    change (s0 = shown r a s) in O1s. rewrite (shown_used _ _ _ _ _ _ _ W Fr Q3) in O1s.
    rewrite O8, may_close_enc by exact O2. cbn [bind]. apply can_check; [apply can_close_holds; exact M|].
    rewrite O6. apply can_then.
    { unfold check_claimer. assert (Sc : s_claimer s0 = s_claimer s) by (rewrite O1s; reflexivity). rewrite read_strict_enc by (intros k Hk; apply W1; exact Hk).
      cbn [bind]. rewrite Sc. destruct (s_claimer s) as [k|] eqn:Ck; [|apply can_ok].
      rewrite (Cl k eq_refl), beq_refl. apply can_ok. }
    intros [] _. apply can_check; [lia|]. apply can_check; [lia|].
    assert (Hb : h_wbump (o_hdr o) = s_wbump s) by (rewrite O4, hdr_wbump by exact W1; rewrite O1s; reflexivity). rewrite Hb.
    apply can_then.
    { destruct (0 <? _); [|apply can_ok]. apply transfer_can; try assumption; try lia.
      rewrite (pda_signs _ _ _ Pw). apply orb_true_r. }
    intros w1 Hw1.
    assert (B : a_lamports (w1 (acct cx 0)) = a_lamports (w (acct cx 0))
      /\ a_lamports (w1 (acct cx 2)) = a_lamports (w (acct cx 2)) + a_lamports (w (acct cx 1))
      /\ kept w w1 (acct cx 0)).
    { destruct (0 <? _) eqn:Pos in Hw1.
      - apply sys_transfer_moved in Hw1 as ((K & _ & Mv) & _). destruct (Mv ltac:(auto)) as (M1 & M2 & M3).
        split; [apply M3; auto|]. split; [exact M2|]. apply K.
      - apply ok_inj in Hw1. subst w1. split; [reflexivity|]. split; [lia|]. split; reflexivity. }
    destruct B as (B1 & B2 & B3 & B4).
    apply can_then.
    { unfold pay_out. cbv zeta. apply can_check; [rewrite A2, Wv; reflexivity|].
      replace (beq (acct cx 0) (acct cx 2)) with false by (symmetry; apply beq_neq; auto).
      rewrite !upd_same. rewrite !(upd_other _ (acct cx 2) _ (acct cx 0)) by auto. rewrite upd_same. rewrite !(upd_other _ (acct cx 0) _ (acct cx 2)) by auto. cbn [a_lamports].
      apply can_check; [unfold sat_sub; lia|]. apply can_check; [unfold sat_sub; cbn [a_lamports]; lia|]. apply can_ok. }
    intros w2 Hw2. apply pay_out_keeps in Hw2 as K2. destruct (K2 (acct cx 0)) as [K3 K4].
    apply write_can; [exact A2|congruence|cbn [length]; lia|cbn [length]; lia]. }
  destruct Hn as [w' Hn]. exists w'. split.
  - apply (dispatched E cx w s); try assumption; try lia.
    + change (~ In (tag (c_data cx)) [9; 11; 20]). rewrite T. cbn. lia.
    + unfold dispatch. replace (2 <=? length (c_data cx))%nat with true by lia. cbn [check bind].
      change (u16_at 0 (c_data cx)) with (tag (c_data cx)). rewrite T. exact Hn.
  - destruct (close_swig_spec _ _ _ _ _ Hn Dd W) as (r1 & s1 & _ & _ & _ & _ & _ & _ & _ & D1 & D2 & _).
    split; [unfold acct in *; congruence|]. split; [exact D1|].
    destruct (close_swig_paid _ _ _ _ _ Hn Dd W G0 (proj1 L1) N0 N1) as (P1 & P2 & P3 & _). auto.
Qed.

(** ** Sub-accounts of the second version *)
Lemma require_v2_can s : wf_config s -> is_v2 s -> require_swig_v2 (enc_config s) = Ok tt.
Proof.
  intros W (V1 & V2). pose proof (enc_config_length s W) as L. destruct W as (_ & (W2 & _) & _ & _ & W5 & _). unfold require_swig_v2.
  replace (HDR <=? length (enc_config s))%nat with true by (symmetry; apply Nat.leb_le; lia). cbn [check bind].
  assert (X : is_swig_v2 (enc_config s) = true); [|rewrite X; reflexivity].
  unfold is_swig_v2, enc_config. change (byte_at 40 ?d) with (h_wbump d). change (sub 41 3 ?d) with (h_pad d).
  rewrite hf_wbump by assumption. rewrite hf_pad by assumption. rewrite V2, beq_refl. replace (s_wbump s =? 0) with false by lia. reflexivity.
Qed.
Lemma authorize_can p id r : In p [24; 25; 26] -> is_u32 id -> wf_role r -> holds_for p id r \/ holds_for 23 id r ->
  authorize_scoped_v2 (enc_actions 0 (r_acts r)) p id = Ok tt.
Proof.
  intros P U W H. unfold authorize_scoped_v2. rewrite has_scoped_enc; [|cbn in P; lia|exact W]. cbn [bind].
  apply scoped_holds in H; try assumption. rewrite H. reflexivity.
Qed.
Lemma sub_full n l : length l = n -> sub 0 n l = l.
Proof. intros <-. apply sub_all. Qed.
Lemma record_read E w s st sa n on : wf_config s -> is_u32 n -> wf_key sa -> sub_record E w s st sa n on -> on = 0 \/ on = 1 ->
  check_v2_record w st (s_id s) n = Ok (a_data (w st))
  /\ pda E (seeds_v2_state (s_id s) n (v2_bump (a_data (w st)))) = Some st
  /\ pda E (seeds_v2_asset (s_id s) n (v2_asset_bump (a_data (w st)))) = Some sa
  /\ v2_enabled (a_data (w st)) = on /\ v2_key (a_data (w st)) = sa
  /\ forall on', sub_record E (upd w st (mk_account (a_lamports (w st)) SELF (splice 3 [on'] (a_data (w st))))) s st sa n on'.
Proof.
  intros W U K (b & ab & O & D & P1 & P2 & B1 & B2) On. destruct W as (_ & (Wi & _) & _).
  assert (F1 : v2_bump (a_data (w st)) = b) by (rewrite D; reflexivity).
  assert (F2 : v2_asset_bump (a_data (w st)) = ab) by (rewrite D; reflexivity).
  assert (F3 : v2_enabled (a_data (w st)) = on) by (rewrite D; reflexivity).
  assert (F4 : v2_id (a_data (w st)) = n).
  { rewrite D. unfold state_record, v2_id, u32_at. rewrite sub_app_r by reflexivity. cbn [length Nat.sub].
    rewrite sub_app_l by (rewrite le_enc_length; lia). rewrite sub_full by apply le_enc_length. apply le4; exact U. }
  assert (F5 : v2_swig_id (a_data (w st)) = s_id s).
  { rewrite D. unfold state_record, v2_swig_id. rewrite sub_app_r by (cbn; lia). cbn [length Nat.sub].
    rewrite sub_app_r by (rewrite le_enc_length; lia). rewrite le_enc_length. cbn [Nat.sub]. rewrite sub_app_l by lia. apply sub_full; exact Wi. }
  assert (F6 : v2_key (a_data (w st)) = sa).
  { rewrite D. unfold state_record, v2_key. rewrite sub_app_r by (cbn; lia). cbn [length Nat.sub].
    rewrite sub_app_r by (rewrite le_enc_length; lia). rewrite le_enc_length. cbn [Nat.sub]. rewrite sub_app_r by lia. rewrite Wi. apply sub_full; apply K. }
  assert (F0 : length (a_data (w st)) = V2_LEN).
  { rewrite D. unfold state_record. rewrite !app_length, le_enc_length, Wi. destruct K as [-> _]. reflexivity. }
  split.
  { unfold check_v2_record. cbv zeta. rewrite F0, F3, F4, F5, beq_refl. rewrite Nat.eqb_refl, Z.eqb_refl. cbn [check bind].
    replace (byte_at 0 (a_data (w st)) =? D_SubV2) with true by (rewrite D; reflexivity). cbn [check bind].
    destruct On as [-> | ->]; reflexivity. }
  rewrite F1, F2. repeat (split; [assumption|]). intros on'. exists b, ab. rewrite upd_same. cbn [a_owner a_data].
  split; [reflexivity|]. split; [|auto]. rewrite D. unfold state_record. reflexivity.
Qed.

Theorem toggle2_asked E cx w s r sa n on on0 : wf_ctx cx -> is_cfg (w (acct cx 0)) s -> usual_accounts 3 cx w s -> second_version s ->
  In r (s_roles s) -> holds_for 26 n r \/ holds_for 23 n r -> asks E cx r (ToggleSub2 n on) -> on = 0 \/ on = 1 ->
  wf_key sa -> sub_record E w s (acct cx 2) sa n on0 -> on0 = 0 \/ on0 = 1 -> writable (c_metas cx) (acct cx 2) = true ->
  exists w', succeeds E cx w w' /\ is_cfg (w' (acct cx 0)) (used (r_id r) s) /\ sub_record E w' s (acct cx 2) sa n on
    /\ forall k, k <> acct cx 0 -> k <> acct cx 2 -> kept_acct (w k) (w' k).
Proof.
  intros Wc C (A1 & A2 & A3) V I M (Q1 & Q2 & a & Q3) On K R On0 Ws. pose proof C as (O & Dd & W).
  assert (Fr : find_role (r_id r) s = Some r) by (apply find_role_mine; [exact W|exact I]).
  apply order_toggle2 in Q2 as (T & T1 & T2). laid T Q1 Q3.
  pose proof (payload_there _ _ _ _ _ _ _ _ Q3) as L.
  assert (Un : is_u32 n) by (rewrite T1; apply u32_bound, Wc).
  destruct (record_read _ _ _ _ _ _ _ W Un K R On0) as (R1 & R2 & R3 & R4 & R5 & R6). pose proof R as (b & ab & Ro & Rd & _).
  assert (Ne : acct cx 2 <> acct cx 0) by (intros Q; rewrite Q, Dd in Rd; discriminate Rd).
  assert (Hn : can (toggle_sub_account_v2 E cx w)).
  { unfold toggle_sub_account_v2. cbv zeta. unfold need. apply can_check; [lia|]. change (mkey (c_metas cx) 0) with (acct cx 0).
    change (mkey (c_metas cx) 2) with (acct cx 2).
    unfold owned_by. apply can_check; [rewrite O; apply beq_refl|]. apply can_check; [rewrite Ro; apply beq_refl|]. apply can_check; [lia|].
    rewrite <- T2. apply can_check; [lia|]. rewrite (load_config_can _ _ _ C). cbn [bind]. rewrite require_v2_can by assumption. cbn [bind]. rewrite Q1.
    apply can_then; [eapply open_can; [exact W|exact Fr|exact Q3]|].
    intros o Ho. apply open_role_enc in Ho as (r1 & s0 & (O1 & au' & O1' & O1s) & O2 & W1 & O4 & O5 & O6 & O7 & O8 & O9 & O10); [|exact W].
    rewrite Fr in O1. injection O1 as <-. pose proof (eq_trans (eq_sym Q3) O1') as X. injection X as <-.
    change (s0 = shown r a s) in O1s. rewrite (shown_used _ _ _ _ _ _ _ W Fr Q3) in O1s.
    assert (Hid : h_id (o_hdr o) = s_id s) by (rewrite O4, hdr_id by exact W1; rewrite O1s; reflexivity). rewrite Hid.
    rewrite O8, <- T1, authorize_can; [|cbn; auto|exact Un|exact O2|exact M]. cbn [bind].
    apply can_then; [apply set_can_data; assumption|]. intros w1 Hw1. apply set_data_only in Hw1 as ((_ & _ & S3) & _).
    destruct (S3 (acct cx 2) Ne) as [S4 S5].
    unfold check_v2_record in *. rewrite S4, R1. cbn [bind]. rewrite (pda_checked _ _ _ _ R2). cbn [bind].
    apply set_can_data; [exact Ws|congruence]. }
  destruct Hn as [w' Hn]. exists w'. split.
  - apply (dispatched E cx w s); try assumption; try lia.
    + change (~ In (tag (c_data cx)) [9; 11; 20]). rewrite T. cbn. lia.
    + unfold dispatch. replace (2 <=? length (c_data cx))%nat with true by lia. cbn [check bind].
      change (u16_at 0 (c_data cx)) with (tag (c_data cx)). rewrite T. exact Hn.
  - destruct (toggle_sub_v2_spec _ _ _ _ _ Wc Hn Dd W) as (r1 & s1 & (_ & X1 & a1 & X2 & X3) & _ & _ & _ & _ & _ & _ & _ & _ & _ & _ & _ & D1 & W' & D2 & D3 & D4).
    rewrite Q1 in *. rewrite Fr in X1. injection X1 as <-. change (s1 = shown r a1 s) in X3.
    rewrite (shown_used _ _ _ _ _ _ _ W Fr X2) in X3. subst s1. change (mkey (c_metas cx)) with (acct cx) in *.
    split; [split; [rewrite D3; exact O|split; [exact D1|exact W']]|]. split; [|exact D4].
    destruct (R6 on) as (b' & ab' & Y1 & Y2 & Y3). rewrite upd_same in Y2. cbn [a_data] in Y2. exists b', ab'. rewrite D3, D2, <- T2. auto.
Qed.

Theorem withdraw2_asked E cx w s r n x : wf_ctx cx -> is_cfg (w (acct cx 0)) s -> usual_accounts 7 cx w s -> length (c_metas cx) = 7%nat -> second_version s ->
  In r (s_roles s) -> holds_for 25 n r \/ holds_for 23 n r -> asks E cx r (WithdrawSub2 n x) ->
  sub_record E w s (acct cx 2) (acct cx 3) n 1 -> pda E (seeds_wallet (acct cx 0) (s_wbump s)) = Some (acct cx 4) ->
  plain_acct (w (acct cx 3)) -> a_owner (w (acct cx 4)) = SYSTEM -> acct cx 3 <> acct cx 4 ->
  writable (c_metas cx) (acct cx 3) = true -> writable (c_metas cx) (acct cx 4) = true ->
  x <= a_lamports (w (acct cx 3)) -> a_lamports (w (acct cx 4)) + x < U64 ->
  exists w', succeeds E cx w w' /\ is_cfg (w' (acct cx 0)) (used (r_id r) s)
    /\ a_lamports (w' (acct cx 3)) = a_lamports (w (acct cx 3)) - x /\ a_lamports (w' (acct cx 4)) = a_lamports (w (acct cx 4)) + x
    /\ (forall k, k <> acct cx 3 -> k <> acct cx 4 -> a_lamports (w' k) = a_lamports (w k))
    /\ forall k, k <> acct cx 0 -> kept_acct (w k) (w' k).
Proof.
  intros Wc C (A1 & A2 & A3) A7 V I M (Q1 & Q2 & a & Q3) R Pw (So & Sd) Wo Nq W3 W4 L3 L4. pose proof C as (O & Dd & W).
  assert (Fr : find_role (r_id r) s = Some r) by (apply find_role_mine; [exact W|exact I]).
  apply order_withdraw2 in Q2 as (T & T1 & T2). laid T Q1 Q3.
  pose proof (payload_there _ _ _ _ _ _ _ _ Q3) as L.
  assert (Un : is_u32 n) by (rewrite T1; apply u32_bound, Wc).
  assert (K : wf_key (acct cx 3)) by (apply nth_wf; [apply Wc|lia]).
  destruct (record_read _ _ _ _ _ _ _ W Un K R ltac:(auto)) as (R1 & R2 & R3 & R4 & R5 & R6). pose proof R as (b & ab & Ro & Rd & _).
  assert (Ne : acct cx 2 <> acct cx 0) by (intros Q; rewrite Q, Dd in Rd; discriminate Rd).
  assert (N3 : acct cx 3 <> acct cx 0) by (intros Q; rewrite Q, O in So; discriminate So).
  assert (N4 : acct cx 4 <> acct cx 0) by (intros Q; rewrite Q, O in Wo; discriminate Wo).
  assert (Hn : can (withdraw_v2 E cx w)).
  { unfold withdraw_v2. cbv zeta. unfold need. apply can_check; [lia|]. change (mkey (c_metas cx)) with (acct cx).
    unfold owned_by. apply can_check; [rewrite O; apply beq_refl|]. apply can_check; [rewrite So; apply beq_refl|]. apply can_check; [rewrite Wo; apply beq_refl|].
    apply can_check; [lia|]. rewrite (load_config_can _ _ _ C). cbn [bind]. rewrite require_v2_can by assumption. cbn [bind].
    rewrite split_parts_enc by exact W. cbn [bind]. rewrite hdr_wbump by exact W. rewrite Pw. cbn [ok_or bind].
    apply can_check; [apply beq_refl|]. rewrite Q1.
    apply can_then; [eapply open_can; [exact W|exact Fr|exact Q3]|].
    intros o Ho. apply open_role_enc in Ho as (r1 & s0 & (O1 & au' & O1' & O1s) & O2 & W1 & O4 & O5 & O6 & O7 & O8 & O9 & O10); [|exact W].
    rewrite Fr in O1. injection O1 as <-. pose proof (eq_trans (eq_sym Q3) O1') as X. injection X as <-.
    change (s0 = shown r a s) in O1s. rewrite (shown_used _ _ _ _ _ _ _ W Fr Q3) in O1s.
    assert (Hid : h_id (o_hdr o) = s_id s) by (rewrite O4, hdr_id by exact W1; rewrite O1s; reflexivity). rewrite Hid.
    rewrite O8, <- T1, <- T2, authorize_can; [|cbn; auto|exact Un|exact O2|exact M]. cbn [bind].
    apply can_then; [apply set_can_data; assumption|]. intros w1 Hw1. apply set_data_only in Hw1 as ((_ & _ & S3) & _ & S6).
    destruct (S3 (acct cx 2) Ne) as [S4 S5]. destruct (S3 (acct cx 3) N3) as [S7 S8].
    unfold validate_v2_state, owned_by. rewrite S5, Ro. unfold check_v2_record in *. rewrite S4, R1, beq_refl. cbn [check bind].
    rewrite R4. cbn [Z.eqb Pos.eqb check bind]. rewrite (pda_checked _ _ _ _ R2), R5, beq_refl. cbn [check bind].
    rewrite A7. cbn [Nat.eqb]. apply can_check; [rewrite S6; lia|].
    apply transfer_can; try assumption; try congruence; rewrite ?S6; try assumption; try lia.
    rewrite (pda_signs _ _ _ R3). apply orb_true_r. }
  destruct Hn as [w' Hn]. exists w'. split.
  - apply (dispatched E cx w s); try assumption; try lia.
    + change (~ In (tag (c_data cx)) [9; 11; 20]). rewrite T. cbn. lia.
    + unfold dispatch. replace (2 <=? length (c_data cx))%nat with true by lia. cbn [check bind].
      change (u16_at 0 (c_data cx)) with (tag (c_data cx)). rewrite T. exact Hn.
  - destruct (withdraw_v2_spec _ _ _ _ _ Hn Dd W) as (r1 & s1 & w1 & (_ & X1 & a1 & X2 & X3) & _ & _ & _ & _ & _ & _ & _ & D1 & W' & D2 & D3).
    rewrite Q1 in *. rewrite Fr in X1. injection X1 as <-. change (s1 = shown r a1 s) in X3.
    rewrite (shown_used _ _ _ _ _ _ _ W Fr X2) in X3. subst s1. change (mkey (c_metas cx)) with (acct cx) in *. cbv zeta in D3.
    destruct D3 as [(_ & _ & (D4 & _ & D5) & _)|(X & _)]; [|rewrite A7 in X; discriminate X].
    destruct (D5 Nq) as (E1 & E2 & E3). rewrite D2 in E1, E2. rewrite <- T2 in E1, E2.
    pose proof (only_data_cfg w w1 _ s _ C D1 W') as (G1 & G2 & G3). destruct (D4 (acct cx 0)) as [H1 H2].
    split; [split; [congruence|split; [congruence|exact G3]]|]. split; [exact E1|]. split; [exact E2|].
    split; [intros k B1 B2; rewrite E3 by assumption; apply D2|]. intros k B. destruct D1 as (_ & _ & D1). destruct (D1 k B), (D4 k). split; congruence.
Qed.

(** *** Creating one *)
Lemma NoDup_snoc9 {A} (l : list A) x : NoDup l -> ~ In x l -> NoDup (l ++ [x]).
Proof.
  induction 1 as [|y t Hy Ht IH]; intros I; cbn; [repeat constructor; auto|]. constructor; [|apply IH; cbn in I; tauto].
  rewrite in_app_iff. cbn in *. intros [X|[X|X]]; [auto|subst; tauto|auto].
Qed.
Definition ends {A} (P : A -> Prop) (m : res A) : Prop := exists a, m = Ok a /\ P a.
Lemma ends_then {A B} (P : B -> Prop) (m : res A) (f : A -> res B) : can m -> (forall a, m = Ok a -> ends P (f a)) -> ends P (bind m f).
Proof. intros [a H] K. rewrite H. cbn. apply K. exact H. Qed.
Lemma ends_check {B} (P : B -> Prop) b e (f : unit -> res B) : b = true -> ends P (f tt) -> ends P (bind (check b e) f).
Proof. intros -> H. exact H. Qed.
Lemma ends_can {A} (P : A -> Prop) m : can m -> (forall a, m = Ok a -> P a) -> ends P m.
Proof. intros [a H] K. exists a. auto. Qed.
Lemma topup_does E ms w payer k n w' : payer <> k -> rent_topup E ms w payer k n = Ok w' ->
  keeps w w' /\ a_lamports (w' k) = a_lamports (w k) + lack E w k n /\ a_lamports (w' payer) = a_lamports (w payer) - lack E w k n
  /\ forall j, j <> k -> j <> payer -> a_lamports (w' j) = a_lamports (w j).
Proof.
  intros N H. unfold rent_topup in H. unfold lack. destruct (_ <? _) eqn:Q in H.
  - apply sys_transfer_moved in H as ((K & _ & M) & _). destruct (M N) as (M1 & M2 & M3). rewrite M1, M2.
    split; [exact K|]. split; [lia|]. split; [lia|]. intros j J1 J2. apply M3; assumption.
  - apply ok_inj in H. subst w'. split; [apply keeps_refl|]. split; [lia|]. split; [lia|]. reflexivity.
Qed.
Lemma lack_pays E ms w payer k n : 0 <= a_lamports (w k) -> rent E n < U64 -> writable ms k = true -> can_pay w payer (lack E w k n) ->
  signer ms payer = true -> writable ms payer = true -> can (rent_topup E ms w payer k n).
Proof.
  intros L R Wk (P1 & P2 & P3) Sg Wp. apply topup_can; try assumption. intros X. unfold lack in P3. repeat split; try assumption. lia.
Qed.
Lemma scopes_app a b : v2_scopes (a ++ b) = v2_scopes a ++ v2_scopes b.
Proof. induction a as [|x t IH]; [reflexivity|]. cbn. destruct (v2_scope x); rewrite IH; reflexivity. Qed.
Lemma scopes_in p n l : In (p, n) (v2_scopes l) -> p <> 22 -> exists a, In a l /\ ac_ty a = p /\ le (firstn 4 (ac_data a)) = n.
Proof.
  intros I N. induction l as [|x t IH]; [contradiction|]. cbn [v2_scopes] in I. unfold v2_scope in I.
  assert (K : In (p, n) (v2_scopes t) -> exists a, In a (x :: t) /\ ac_ty a = p /\ le (firstn 4 (ac_data a)) = n).
  { intros J. destruct (IH J) as (a & A1 & A2). exists a. split; [right; exact A1|exact A2]. }
  destruct (ac_ty x =? 22); [destruct I as [I|I]; [congruence|auto]|].
  destruct (_ && _); [|auto]. destruct I as [I|I]; [|auto]. injection I as I1 I2. exists x. split; [left; reflexivity|auto].
Qed.
Lemma scope_added n l : is_u32 n -> wf_actions l -> (length l < 255)%nat -> (forall a, In a l -> ac_ty a = 23 -> le (firstn 4 (ac_data a)) <> n) ->
  wf_actions (l ++ [all_powers n]).
Proof.
  intros U (L & W & N) B F.
  assert (Wn : wf_action (all_powers n)).
  { split; [reflexivity|]. cbn [all_powers ac_data]. apply all_bytes_app. split; [apply le_enc_bytes|apply all_bytes_zeros]. }
  assert (S : v2_scope (all_powers n) = Some (23, n)).
  { unfold v2_scope, all_powers. cbn [ac_ty ac_data]. change (P_SubAccountV2All =? 22) with false. cbn [P_SubAccountV2All].
    rewrite firstn_app, le_enc_length, firstn_all2 by (rewrite le_enc_length; lia). rewrite Nat.sub_diag, app_nil_r, le4 by exact U. reflexivity. }
  split; [rewrite app_length; cbn [length]; lia|]. split; [apply Forall_app; split; [exact W|constructor; [exact Wn|constructor]]|].
  rewrite scopes_app. cbn [v2_scopes]. rewrite S. apply NoDup_snoc9; [exact N|]. intros I.
  apply scopes_in in I as (a & A1 & A2 & A3); [|discriminate]. exact (F a A1 A2 A3).
Qed.

Theorem create2_asked E cx w s r b1 b2 : wf_ctx cx -> is_cfg (w (acct cx 0)) s -> usual_accounts 5 cx w s -> acct cx 4 = SYSTEM -> second_version s ->
  In r (s_roles s) -> holds 22 r -> asks E cx r (CreateSub2 b1 b2) ->
  let n := s_subctr s in let swig := acct cx 0 in let payer := acct cx 1 in let st := acct cx 2 in let sa := acct cx 3 in
  let size := (length (enc_config s) + 16)%nat in
  n + 1 < U32 -> Forall unspent (r_acts r) -> (length (r_acts r) < 255)%nat -> ~ holds_for 23 n r ->
  pda E (seeds_v2_state (s_id s) n b1) = Some st -> pda E (seeds_v2_asset (s_id s) n b2) = Some sa ->
  plain_acct (w st) -> a_owner (w sa) = SYSTEM -> payer <> st -> payer <> sa -> st <> sa ->
  writable (c_metas cx) st = true -> writable (c_metas cx) sa = true -> signer (c_metas cx) payer = true -> writable (c_metas cx) payer = true ->
  (forall k, In k [swig; st; sa] -> 0 <= a_lamports (w k)) -> (forall m, In m [72%nat; 0%nat; size] -> rent E m < U64) -> Z.of_nat size <= 10485760 ->
  let cost := lack E w st 72 + lack E w sa 0 + lack E w swig size in
  can_pay w payer cost ->
  exists w', succeeds E cx w w'
    /\ is_cfg (w' swig) (on_role (r_id r) (put_in_charge n) (next_sub (n + 1) (used (r_id r) s)))
    /\ sub_record E w' s st sa n 1
    /\ a_lamports (w' payer) = a_lamports (w payer) - cost
    /\ forall k, k <> swig -> k <> st -> kept_acct (w k) (w' k).
Proof.
  intros Wc C (A1 & A2 & A3) A4 V I M (Q1 & Q2 & a & Q3) n swig payer st sa size Nn Un Ln Nh P1 P2 (So & Sd) Ao N1 N2 N3 Ws Wa Sp Wp Lp Rn Sz cost (Py1 & Py2 & Py3).
  pose proof C as (O & Dd & W). fold swig in C, O, Dd, A2.
  assert (Fr : find_role (r_id r) s = Some r) by (apply find_role_mine; [exact W|exact I]).
  apply order_create2 in Q2 as (T & T1 & T2). laid T Q1 Q3.
  pose proof (payload_there _ _ _ _ _ _ _ _ Q3) as L.
  assert (Hu : is_u32 n) by (unfold n; apply W).
  assert (Hu1 : is_u32 (n + 1)) by (unfold is_u32 in *; lia).
  assert (Ne : swig <> st) by (intros Q; rewrite <- Q, O in So; discriminate So).
  assert (Ne2 : swig <> sa) by (intros Q; rewrite <- Q, O in Ao; discriminate Ao).
  assert (Ne3 : payer <> swig) by (intros Q; rewrite Q, O in Py1; discriminate Py1).
  assert (Wr : wf_role r) by (destruct W as (_ & _ & _ & _ & _ & _ & _ & W8 & _); rewrite Forall_forall in W8; apply W8; exact I).
  assert (Wl : wf_actions (r_acts r ++ [all_powers n])).
  { apply scope_added; [exact Hu|apply Wr|exact Ln|]. intros x X1 X2 X3. apply Nh. exists x. auto. }
  assert (Ng : has P_SubAccountV2All (le_enc 4 n) r = false).
  { destruct (has _ _ _) eqn:Q; [|reflexivity]. exfalso. apply Nh. apply has_holds_for in Q; try assumption. cbn; auto. }
  assert (Lo : laid_out (r_acts r ++ [all_powers n])).
  { apply unspent_laid_out; [apply Wl|]. apply Forall_app. split; [exact Un|]. constructor; [|constructor]. unfold unspent, all_powers, P_SubAccountV2All. cbn. repeat split; intros; exfalso; lia. }
  assert (P0 : 0 <= lack E w st 72 /\ 0 <= lack E w sa 0 /\ 0 <= lack E w swig size) by (unfold lack; lia).
  assert (Hn : ends (fun w' => a_lamports (w' payer) = a_lamports (w payer) - cost) (create_sub_account_v2 E cx w)).
  { unfold create_sub_account_v2. cbv zeta. unfold need. apply ends_check; [lia|]. change (mkey (c_metas cx) 0) with swig.
    change (mkey (c_metas cx) 1) with payer. change (mkey (c_metas cx) 2) with st. change (mkey (c_metas cx) 3) with sa. change (mkey (c_metas cx) 4) with (acct cx 4).
    unfold owned_by. apply ends_check; [rewrite O; apply beq_refl|]. apply ends_check; [rewrite So; apply beq_refl|]. apply ends_check; [rewrite Ao; apply beq_refl|].
    apply ends_check; [rewrite A4; apply beq_refl|]. unfold no_data. apply ends_check; [rewrite Sd; reflexivity|]. apply ends_check; [lia|].
    rewrite <- T1, <- T2. rewrite (load_config_can _ _ _ C). cbn [bind]. rewrite require_v2_can by assumption. cbn [bind]. rewrite Q1.
    apply ends_then; [eapply open_can; [exact W|exact Fr|exact Q3]|].
    intros o Ho. apply open_role_enc in Ho as (r1 & s0 & (O1 & au' & O1' & O1s) & O2 & W1 & O4 & O5 & O6 & O7 & O8 & O9 & O10); [|exact W].
    rewrite Fr in O1. injection O1 as <-. pose proof (eq_trans (eq_sym Q3) O1') as X. injection X as <-.
    change (s0 = shown r a s) in O1s. rewrite (shown_used _ _ _ _ _ _ _ W Fr Q3) in O1s.
    assert (Hid : h_id (o_hdr o) = s_id s) by (rewrite O4, hdr_id by exact W1; rewrite O1s; reflexivity). rewrite Hid.
    assert (Hsc : h_subctr (o_hdr o) = n).
    { rewrite O4, <- (app_nil_r (enc_header s0)). pose proof W1 as (_ & (V2 & _) & _ & _ & V5 & _ & V7 & _). rewrite hf_subctr by assumption. rewrite O1s. reflexivity. }
    rewrite Hsc. rewrite O8, has_action_enc by exact O2. cbn [bind].
    apply ends_check; [apply has_holds; [exact plain_v2create|exact M]|]. apply ends_check; [lia|].
    rewrite has_granted_enc by exact O2. cbn [bind]. rewrite (pda_checked _ _ _ _ P1), (pda_checked _ _ _ _ P2). cbn [bind].
    change V2_LEN with 72%nat.
    apply ends_then; [apply lack_pays; try assumption; [apply Lp; cbn; auto|apply Rn; cbn; auto|split; [exact Py1|split; [exact Py2|lia]]]|].
    intros w1 Hw1. apply topup_does in Hw1 as (B1 & B2 & B3 & B4); [|exact N1].
    apply ends_then.
    { unfold sys_allocate_assign. destruct (B1 st) as [X1 X2]. rewrite (pda_signs _ _ _ P1), orb_true_r, Ws, X1, X2, Sd, So, beq_refl. apply can_ok. }
    intros w2 Hw2. pose proof Hw2 as Hw2'. apply sys_allocate_spec in Hw2 as (_ & _ & C3 & C4 & C5).
    assert (C6 : forall k, a_lamports (w2 k) = a_lamports (w1 k)).
    { unfold sys_allocate_assign in Hw2'. peel Hw2'. apply ok_inj in Hw2'. subst w2. intros k. unfold upd. destruct (beq st k) eqn:Q; [|destruct (beq k st) eqn:Q'; [apply beq_eq in Q'; subst k|]; reflexivity].
      apply beq_eq in Q. subst k. rewrite beq_refl. reflexivity. }
    apply ends_then; [apply set_can_data; assumption|].
    intros w3 Hw3. apply set_data_only in Hw3 as ((D1 & D2 & D3) & _ & D4).
    assert (Z3 : forall k, k <> st -> kept w w3 k) by (intros k K; destruct (B1 k), (C5 k K), (D3 k K); split; congruence).
    assert (L3 : forall k, a_lamports (w3 k) = a_lamports (w1 k)) by (intros k; rewrite D4; apply C6).
    assert (Lk : lack E w3 sa 0 = lack E w sa 0) by (unfold lack; rewrite L3, B4 by auto; reflexivity).
    destruct (Z3 payer N1) as [Z4 Z5].
    apply ends_then.
    { apply lack_pays; try assumption; [rewrite L3, B4 by auto; apply Lp; cbn; auto|apply Rn; cbn; auto|].
      rewrite Lk. split; [congruence|split; [congruence|]]. rewrite L3, B3. lia. }
    intros w4 Hw4. apply topup_does in Hw4 as (E1 & E2 & E3 & E4); [|exact N2]. rewrite Lk, L3, B3 in E3. rewrite Ng.
    rewrite O4, O5, O6, (set_subctr_enc s0 (n + 1) W1).
    pose proof (set_subctr_wf s0 (n + 1) W1 Hu1) as W2.
    assert (Fr2 : exists r2, find_role (r_id r) (set_subctr s0 (n + 1)) = Some r2 /\ r_acts r2 = r_acts r).
    { change (find_role (r_id r) (set_subctr s0 (n + 1))) with (find_role (r_id r) s0). rewrite O1s, find_used, Fr. cbn [option_map]. rewrite Z.eqb_refl.
      exists (after_use r). split; [reflexivity|apply after_use_acts]. }
    destruct Fr2 as (r2 & Fr2 & Ra).
    assert (Hb : all_bytes (v2_all_action n)).
    { unfold v2_all_action. repeat (apply all_bytes_app; split); try apply le_enc_bytes; apply all_bytes_zeros. }
    assert (Hl : Z.of_nat (length (v2_all_action n)) < 1000000) by (unfold v2_all_action; rewrite !app_length, !le_enc_length, !zeros_length; lia).
    apply ends_then.
    { eapply append_can with (la := [all_powers n]); [exact W2|exact Fr2|exact Hb|exact Hl| |rewrite Ra; exact Wl|rewrite Ra; exact Lo].
      pose proof (parses_cons P_SubAccountV2All (zeros 4) (le_enc 4 n ++ zeros 4) [] []) as P. rewrite app_nil_r in P.
      apply P; [rewrite app_length, le_enc_length; reflexivity|reflexivity|constructor]. }
    intros d2 Hd2. apply append_actions_enc in Hd2 as (r3 & la & G1 & G2 & G3 & G4 & _); try assumption.
    apply parses_all_powers in G2. subst la. pose proof (eq_trans (eq_sym Fr2) G1) as X. injection X as <-.
    assert (Ld : length d2 = size).
    { destruct (find_split _ _ _ Fr2) as (l1 & l2 & F1 & F2 & _).
      assert (Same : on_role (r_id r) (fun r0 => with_acts r0 (r_acts r0 ++ [all_powers n])) (set_subctr s0 (n + 1))
        = on_role (r_id r2) (fun r0 => with_acts r0 (r_acts r2 ++ [all_powers n])) (set_subctr s0 (n + 1))).
      { rewrite F2. pose proof W2 as (_ & _ & _ & _ & _ & _ & _ & _ & W9 & _). rewrite <- F2.
        rewrite (on_role_split _ _ l1 r2 l2) by (try assumption; rewrite F2; reflexivity).
        rewrite (on_role_split _ _ l1 r2 l2) by (try assumption; rewrite F2; reflexivity). reflexivity. }
      rewrite G4, Same. destruct (edited_size _ l1 r2 l2 (r_acts r2 ++ [all_powers n]) W2 F1 G3) as [-> Le].
      assert (Ls : length (enc_config (set_subctr s0 (n + 1))) = length (enc_config s0)).
      { unfold enc_config. cbn [set_subctr s_roles s_claimer]. rewrite !app_length. f_equal.
        pose proof W1 as (_ & (V2 & _) & _ & _ & V5 & _). rewrite !enc_header_length by (cbn; assumption). reflexivity. }
      rewrite Ls, O10 in *. rewrite acts_len_app. cbn [acts_len all_powers ac_data]. rewrite app_length, le_enc_length, zeros_length. unfold size. lia. }
    assert (Lq : lack E w4 swig size = lack E w swig size) by (unfold lack; rewrite E4, L3, B4 by auto; reflexivity).
    destruct (E1 payer) as [Y1 Y2].
    rewrite Ld. apply ends_then.
    { apply lack_pays; try assumption; [rewrite E4, L3, B4 by auto; apply Lp; cbn; auto|apply Rn; cbn; auto|].
      rewrite Lq. split; [congruence|split; [congruence|]]. rewrite E3. lia. }
    intros w5 Hw5. apply topup_does in Hw5 as (Hw5 & _ & Hq & _); [|exact Ne3]. destruct (Hw5 swig) as [Y3 Y4]. destruct (E1 swig) as [Y5 Y6]. destruct (Z3 swig Ne) as [Y7 Y8].
    apply ends_can; [apply write_can; [exact A2|congruence|lia|]; rewrite Y3, Y5, Y7, Dd, Ld; unfold size; lia|].
    intros w6 Hw6. apply write_data_only in Hw6 as (_ & _ & _ & Hl6). rewrite Hl6, Hq, E3, Lq. unfold cost. lia. }
  destruct Hn as (w' & Hn & Hq). exists w'. split.
  - apply (dispatched E cx w s); try assumption; try lia.
    + change (~ In (tag (c_data cx)) [9; 11; 20]). rewrite T. cbn. lia.
    + unfold dispatch. replace (2 <=? length (c_data cx))%nat with true by lia. cbn [check bind].
      change (u16_at 0 (c_data cx)) with (tag (c_data cx)). rewrite T. exact Hn.
  - destruct (create_sub_v2_spec _ _ _ _ _ Wc Hn Dd W) as (r1 & s1 & (_ & X1 & a1 & X2 & X3) & _ & _ & _ & _ & _ & _ & _ & _ & _ & D0).
    cbv zeta in D0. rewrite Q1 in *. rewrite Fr in X1. injection X1 as <-. change (s1 = shown r a1 s) in X3.
    rewrite (shown_used _ _ _ _ _ _ _ W Fr X2) in X3. subst s1. change (mkey (c_metas cx)) with (acct cx) in *. fold swig st sa n in D0. rewrite Ng in D0.
    destruct D0 as (D1 & D2 & D3 & D4 & D5 & D6 & _).
    split; [split; [exact D2|split; [exact D1|exact D3]]|]. split.
    { exists b1, b2. rewrite D4, D5, <- T1, <- T2. split; [reflexivity|]. split; [reflexivity|]. split; [exact P1|]. split; [exact P2|].
      rewrite T1, T2. split; apply bytes_ge0, Wc. }
    split; [exact Hq|exact D6].
Qed.
