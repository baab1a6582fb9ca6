(** * Permission updates, credential replacement, sessions and the rent claimer *)
From Verif Require Import BaseFacts SpecConfig ConfigFacts ConfigEdit ConfigEdit2 ConfigEdit3.
From Verif Require Export HandlerRoles.

Lemma update_authority_spec E cx w w' s :
  wf_ctx cx -> update_authority_v1 E cx w = Ok w' ->
  let swig := mkey (c_metas cx) 0 in let data := c_data cx in
  let target := u32_at 12 data in
  a_data (w swig) = enc_config s -> wf_config s ->
  exists r s1 tr l', acts_as E cx s (u32_at 8 data) (16 + nat_of (u16_at 2 data)) r s1
    /\ can_manage r = true
    /\ find_role target s1 = Some tr
    /\ upd_result (fst (update_op data)) (snd (update_op data)) (r_acts tr) l' /\ wf_actions l'
    /\ a_owner (w swig) = SELF
    /\ only_data w w' swig (enc_config (on_role target (fun r => with_acts r l') s1))
    /\ wf_config (on_role target (fun r => with_acts r l') s1)
    /\ laid_out l'.
Proof.
  intros (Wc1 & Wc2) H swig data target Hd W.
  unfold update_authority_v1 in H. cbv zeta in H. fold swig data in H. fold target in H.
  set (op := if (byte_at 4 data =? 0) && negb (length (sub 16 (nat_of (u16_at 2 data)) data) =? 0)%nat
             then byte_at 0 (sub 16 (nat_of (u16_at 2 data)) data) else 0) in *.
  set (arg := if (byte_at 4 data =? 0) && negb (length (sub 16 (nat_of (u16_at 2 data)) data) =? 0)%nat
             then skipn 1 (sub 16 (nat_of (u16_at 2 data)) data) else (sub 16 (nat_of (u16_at 2 data)) data)) in *.
  assert (Eop : fst (update_op data) = op) by (unfold update_op, op; destruct (_ && _); reflexivity).
  assert (Earg : snd (update_op data) = arg) by (unfold update_op, arg; destruct (_ && _); reflexivity).
  peel H. cfg s Hd W. peels H. peel H. cfg s Hd W. opening W.
  rewrite Eop, Earg.
  grab (find_offsets _ _ _ _ = Ok _) as Bf. grab (apply_update _ _ _ _ _ _ _ _ _ _ = Ok _) as Ba.
  grab (seal_tail _ _ = Ok _) as Bs. grab (write_data _ _ _ _ = Ok _) as Bw. grab (can_manage _ = true) as Bm.
  grab (_ = Ok v2) as Brent.
  pose proof O3 as (V1 & (V2 & V2') & V3 & V4 & V5 & V6 & V7 & V8 & V9 & V10 & V11 & V12 & V13).
  pose proof (wf_roles_small _ O3) as Hsm. pose proof (enc_roles_length 0 _ V8) as L2.
  rewrite <- (app_nil_r (o_hdr v0)), O4, O5 in Bf.
  rewrite hf_roles, nat_of_nat in Bf by assumption.
  pose proof (roles_at_enc (s_roles s1) [] V8) as Hat. rewrite app_nil_r in Hat.
  rewrite find_offsets_at in Bf by (try assumption; lia).
  destruct (pos_of target 0 (s_roles s1)) as [[p tr]|] eqn:Ep; [|discriminate].
  apply ok_inj in Bf. injection Bf as <- <- <-.
  pose proof (pos_find _ _ _ _ Ep) as Et.
  destruct (find_split _ _ _ Et) as (l1 & l2 & E1 & E2 & E3).
  rewrite Ep in E3. injection E3 as ->.
  rewrite O5, O7, L2, <- O10, <- F7, <- E2 in *.
  assert (Ha : all_bytes arg) by (unfold arg; destruct (_ && _); [apply all_bytes_skipn|]; apply all_bytes_sub; exact Wc1).
  assert (Hl : Z.of_nat (length arg) < 65536).
  { pose proof (u16_bound 2 data Wc1) as U. unfold is_u16, U16 in U.
    assert (length arg <= nat_of (u16_at 2 data))%nat.
    { unfold arg. assert (length (sub 16 (nat_of (u16_at 2 data)) data) <= nat_of (u16_at 2 data))%nat
        by (unfold sub; rewrite firstn_length; lia).
      destruct (_ && _); [rewrite skipn_length|]; lia. }
    unfold nat_of in *. lia. }
  assert (Ho : 0 <= op <= 3).
  { split; [|lia]. unfold op. destruct (_ && _); [|lia].
    assert (Hbb : forall o d, all_bytes d -> 0 <= byte_at o d).
    { intros o d Hd0. unfold byte_at. destruct (nth_in_or_default o d 0) as [Hin| ->]; [|lia].
      unfold all_bytes in Hd0. rewrite Forall_forall in Hd0. apply Hd0 in Hin. unfold is_byte in Hin. lia. }
    apply Hbb. apply all_bytes_sub. exact Wc1. }
  eapply (update_seal_enc s1 l1 tr l2 op arg _ b z v3 O3 E1 Ho Ha Hl eq_refl Ba) in Bs.
  destruct Bs as (l' & U1 & U2 & U3 & U4 & U5 & U6 & U7).
  apply write_data_only in Bw as (H1 & H2 & _).
  assert (K1 : keeps w v2).
  { destruct (0 <? _) in Brent; [apply rent_topup_keeps in Brent; exact Brent|apply ok_inj in Brent; subst; apply keeps_refl]. }
  assert (K2 : keeps v4 w').
  { destruct (z <? 0); [apply move_lamports_keeps in H; exact H|apply ok_inj in H; subst; apply keeps_refl]. }
  exists r, s1, tr, l'. split; [split; [apply Nat.leb_le; exact B3|exact O1]|]. split; [exact Bm|].
  split; [exact Et|]. split; [exact U1|]. split; [exact U2|]. split; [apply beq_eq; exact B0|].
  split; [|split; [apply U6; exact H2|exact U7]].
  rewrite <- U4. eapply only_data_keeps_l; [exact K1|]. eapply only_data_keeps_r; [exact H1|exact K2].
Qed.

(** Overwriting the credential bytes of one role *)
Lemma set_auth_enc s i p tr auth : wf_config s -> pos_of i 0 (s_roles s) = Some (p, tr) ->
  length auth = length (r_auth tr) -> all_bytes auth ->
  enc_header s ++ splice (p + POS) auth (enc_roles 0 (s_roles s)) ++ enc_claimer (s_claimer s)
    = enc_config (on_role i (fun r => with_auth r auth) s)
  /\ wf_config (on_role i (fun r => with_auth r auth) s).
Proof.
  intros W Hp La Lb.
  pose proof W as (W1 & (W2 & W2') & W3 & W4 & W5 & W6 & W7 & W8 & W9 & W10 & W11 & W12 & W13).
  pose proof (pos_find _ _ _ _ Hp) as Ef. destruct (find_split _ _ _ Ef) as (l1 & l2 & E1 & E2 & E3).
  rewrite Hp in E3. injection E3 as ->. subst i.
  assert (Wr : wf_role tr). { rewrite E1 in W8. apply Forall_app in W8 as [_ W8]. exact (Forall_inv W8). }
  rewrite (on_role_split _ s l1 tr l2 W9 E1). split.
  - unfold enc_config. cbn [s_roles with_roles s_claimer]. f_equal.
    + symmetry. apply enc_header_roles. rewrite E1, !app_length. reflexivity.
    + f_equal. rewrite E1. apply (put_auth_enc l1 tr l2 auth); [rewrite <- E1; exact W8|exact La].
  - apply (wf_config_edit (fun r => with_auth r auth)); try assumption; try reflexivity.
    + apply with_auth_wf; assumption.
    + unfold role_len; cbn. lia.
Qed.

Lemma replace_authority_spec E cx w w' s :
  wf_ctx cx -> replace_authority_v1 E cx w = Ok w' ->
  let swig := mkey (c_metas cx) 0 in let data := c_data cx in
  let actor := u32_at 4 data in let target := u32_at 8 data in
  let n := nat_of (u16_at 12 data) in
  a_data (w swig) = enc_config s -> wf_config s ->
  exists r s1 tr pk, acts_as E cx s actor (16 + n) r s1
    /\ can_replace target r = true
    /\ find_role target s1 = Some tr
    /\ normalize_signer (r_aty tr) (sub 16 n data) = Ok pk
    /\ sub 0 (length pk) (r_auth tr) <> pk
    /\ (r_aty r = T_ProgramExec -> exists wal,
          load_proof E cx (skipn (16 + n) data)
          = Ok (wal, proof_hash E swig wal actor target (r_aty tr) (sub 0 (length pk) (r_auth tr)) pk))
    /\ a_owner (w swig) = SELF
    /\ only_data w w' swig
         (enc_config (on_role target (fun r => with_auth r (replaced_authority (r_aty tr) (r_auth tr) pk)) s1))
    /\ wf_config (on_role target (fun r => with_auth r (replaced_authority (r_aty tr) (r_auth tr) pk)) s1).
Proof.
  intros (Wc1 & Wc2) H swig data actor target n Hd W.
  unfold replace_authority_v1 in H. cbv zeta in H. fold swig data in H. fold actor target n in H.
  peel H. cfg s Hd W. opening W. rewrite O8 in *. rewrite O9 in *.
  rewrite !has_action_enc in * by exact O2.
  grab (Ok (has P_All [] r) = Ok _) as Ba. apply ok_inj in Ba. subst.
  grab ((16 + n <=? _)%nat = true) as Bn.
  grab (replace_loop _ _ _ _ _ _ _ _ _ = Ok _) as Bl.
  grab ((if r_aty r =? T_ProgramExec then _ else _) = Ok _) as Bp.
  grab ((if has P_All [] r then _ else _) = Ok _) as Bm.
  apply set_data_only in H as (H1 & _).
  assert (Cr : can_replace target r = true).
  { unfold can_replace. destruct (has P_All [] r); [reflexivity|]. cbn [bind] in Bm.
    destruct (has P_ManageAuthority [] r); [reflexivity|]. apply ok_inj in Bm. cbn. congruence. }
  pose proof O3 as (V1 & (V2 & V2') & V3 & V4 & V5 & V6 & V7 & V8 & V9 & V10 & V11 & V12 & V13).
  pose proof (wf_roles_small _ O3) as Hsm.
  rewrite <- (app_nil_r (o_hdr _)), O4, O5 in Bl.
  rewrite hf_roles, nat_of_nat in Bl by assumption.
  pose proof (roles_at_enc (s_roles s1) [] V8) as Hat. rewrite app_nil_r in Hat.
  eapply replace_loop_enc in Bl; try eassumption; try reflexivity; [|lia].
  destruct Bl as (p & tr & pk & P1 & P2 & P3 & P4 & P5).
  pose proof (pos_find _ _ _ _ P1) as Et.
  destruct (find_split _ _ _ Et) as (l1 & l2 & E1 & E2 & E3).
  assert (Wr : wf_role tr). { rewrite E1 in V8. apply Forall_app in V8 as [_ V8]. exact (Forall_inv V8). }
  assert (Sz : length (replaced_authority (r_aty tr) (r_auth tr) pk) = length (r_auth tr)
    /\ all_bytes (replaced_authority (r_aty tr) (r_auth tr) pk)).
  { destruct Wr as (R1 & R2 & R3 & _). apply replaced_authority_size; try assumption.
    - eapply normalize_signer_fit; eassumption.
    - eapply normalize_signer_bytes; [exact P2|]. apply all_bytes_sub. exact Wc1. }
  destruct Sz as [Sz1 Sz2].
  destruct (set_auth_enc s1 target p tr _ O3 P1 Sz1 Sz2) as (G1 & G2).
  rewrite P5, O4, O6, G1 in H1.
  exists r, s1, tr, pk. split; [split; [apply Nat.leb_le; exact Bn|exact O1]|]. split; [exact Cr|].
  split; [exact Et|]. split; [exact P2|]. split; [exact P4|].
  split.
  { intros Hty. rewrite Hty in Bp. rewrite Z.eqb_refl in Bp.
    apply bind_ok in Bp as ([wal h] & Bp1 & Bp2). apply ok_inj in Bp2.
    exists wal. rewrite Bp1. do 2 f_equal. symmetry. apply P3. symmetry. exact Bp2. }
  split; [apply beq_eq; assumption|]. split; assumption.
Qed.

Lemma create_session_spec E cx w w' s :
  wf_ctx cx -> create_session_v1 E cx w = Ok w' ->
  let swig := mkey (c_metas cx) 0 in let data := c_data cx in let rid := u32_at 4 data in
  a_data (w swig) = enc_config s -> wf_config s ->
  exists r a a', find_role rid s = Some r /\ session_based (r_aty r) = true
    /\ (48 <= length data)%nat
    /\ authenticate E cx (r_aty r) (r_auth r) (skipn 48 data) (firstn 48 data) = Ok a
    /\ start_session (r_aty r) a (sub 16 32 data) (c_slot cx) (u64_at 8 data) = Ok a'
    /\ a_owner (w swig) = SELF
    /\ only_data w w' swig (enc_config (on_role rid (fun r => with_auth r a') s))
    /\ wf_config (on_role rid (fun r => with_auth r a') s).
Proof.
  intros (Wc1 & Wc2) H swig data rid Hd W.
  unfold create_session_v1 in H. cbv zeta in H. fold swig data in H. fold rid in H.
  peel H. cfg s Hd W. grab (open_with _ _ _ = Ok _) as Bo. grab ((48 <=? _)%nat = true) as B48.
  apply Nat.leb_le in B48.
  apply open_with_enc in Bo; [|exact W|].
  2:{ intros r auth Hr v Hv1 Hv2 Hv3. rewrite Hv1, Hv2 in Hv3.
      destruct (find_split _ _ _ Hr) as (l1 & l2 & E1 & _).
      assert (Wr : wf_role r).
      { destruct W as (_ & _ & _ & _ & _ & _ & _ & W8 & _). rewrite E1 in W8. apply Forall_app in W8 as [_ W8]. exact (Forall_inv W8). }
      destruct Wr as (R1 & R2 & R3 & _). peel Hv3.
      match goal with Q : authenticate _ _ _ _ _ _ = Ok ?x |- _ => apply authenticate_size in Q; [destruct Q as [Q1 Q2]|assumption|assumption] end.
      assert (S1 : length (sub 16 32 data) = 32%nat) by (apply sub_length; unfold data in *; lia).
      assert (S2 : all_bytes (sub 16 32 data)) by (apply all_bytes_sub; exact Wc1).
      apply start_session_size in Hv3; [|congruence|assumption|exact S1|exact S2].
      destruct Hv3. split; congruence. }
  destruct Bo as (r & auth & s1 & H1 & H2 & H3 & H4 & H5 & H6 & H7 & H8 & H9 & H10).
  rewrite H2 in H3. cbn [view_of rv_ty rv_auth] in H3. peel H3.
  exists r, v, auth. split; [exact H1|]. split; [assumption|]. split; [exact B48|]. split; [assumption|].
  split; [assumption|]. split; [apply beq_eq; assumption|].
  apply set_data_only in H as (G1 & _). unfold o_bytes in G1. rewrite H8, H9, H10 in G1.
  rewrite <- H6. split; assumption.
Qed.

Lemma set_claimer_wf s k : wf_config s -> s_claimer s = None -> wf_key k ->
  Z.of_nat (length (enc_config (set_claimer s k))) <= 10485760 -> wf_config (set_claimer s k).
Proof.
  intros (W1 & W2 & W3 & W4 & W5 & W6 & W7 & W8 & W9 & W10 & W11 & W12 & W13) Hn Hk L.
  unfold wf_config, ids. cbn [set_claimer s_bump s_id s_roles s_counter s_wbump s_pad s_subctr s_claimer].
  do 11 (split; [assumption|]). split; [assumption|]. intros k' Hk'. injection Hk' as <-. exact Hk.
Qed.

Lemma set_rent_claimer_spec E cx w w' s :
  wf_ctx cx -> set_rent_claimer_v1 E cx w = Ok w' ->
  let swig := mkey (c_metas cx) 0 in let data := c_data cx in let k := sub 8 32 data in
  a_data (w swig) = enc_config s -> wf_config s ->
  exists r s1, acts_as E cx s (u32_at 4 data) 40 r s1
    /\ can_claim r = true
    /\ s_claimer s = None
    /\ k <> zeros 32 /\ k <> swig /\ pda E (seeds_wallet swig (s_wbump s)) <> Some k
    /\ a_owner (w swig) = SELF
    /\ only_data w w' swig (enc_config (set_claimer s1 k)) /\ wf_config (set_claimer s1 k).
Proof.
  intros (Wc1 & Wc2) H swig data k Hd W.
  unfold set_rent_claimer_v1 in H. cbv zeta in H. fold swig data in H. fold k in H.
  peel H. cfg s Hd W. peel H. opening W. rewrite O8 in *. rewrite !has_action_enc in * by exact O2.
  grab (Ok (has P_All [] r) = Ok _) as Ba. apply ok_inj in Ba. subst.
  grab (Ok (has P_CloseSwigAuthority [] r) = Ok _) as Bc. apply ok_inj in Bc. subst.
  grab (_ || _ = true) as Bm. grab ((40 <=? _)%nat = true) as Bn.
  grab (read_strict _ = Ok _) as Br. rewrite O6, read_strict_enc in Br by apply O3. apply ok_inj in Br. subst.
  grab (negb (is_some _) = true) as Bs. rewrite F7 in Bs.
  grab (pda _ _ = Some _) as Bp. 
  assert (Hc : s_claimer s1 = None) by (rewrite F7; destruct (s_claimer s); [discriminate|reflexivity]).
  apply write_data_only in H as (H1 & H2 & _).
  grab (rent_topup _ _ _ _ _ _ = Ok _) as Brent. apply rent_topup_keeps in Brent.
  assert (Ee : o_bytes v0 ++ claimer_entry k = enc_config (set_claimer s1 k)).
  { rewrite O7, claimer_entry_enc. unfold enc_config. rewrite Hc. cbn [enc_claimer set_claimer s_roles s_claimer].
    rewrite app_nil_r, <- app_assoc. reflexivity. }
  rewrite Ee in H1, H2.
  assert (Wk : wf_key k).
  { split; [apply sub_length; apply Nat.leb_le in Bn; lia|apply all_bytes_sub; exact Wc1]. }
  rewrite negb_true_iff, beq_neq in *.
  exists r, s1. split; [split; [apply Nat.leb_le; exact Bn|exact O1]|]. split; [exact Bm|].
  split; [congruence|]. split; [assumption|]. split; [assumption|].
  split.
  { assert (Hw : h_wbump (enc_header s) = s_wbump s).
    { destruct W as (_ & (W2 & _) & _ & _ & W5 & _). rewrite <- (app_nil_r (enc_header s)). apply hf_wbump; assumption. }
    rewrite Hw in Bp. congruence. }
  split; [apply beq_eq; assumption|]. split; [eapply only_data_keeps_l; eassumption|].
  apply set_claimer_wf; assumption.
Qed.
