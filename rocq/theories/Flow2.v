(** * What the other instructions that write the configuration cost.  Proofs *)
From Verif Require Import BaseFacts SpecConfig ConfigFacts ConfigEdit ConfigEdit2 ConfigEdit3.
From Verif Require Import AuthProps HandlerRoles HandlerRoles2 HandlerSub HandlerLife HandlerV2 HandlerAssets SignSpec.
From Verif Require Import Actors Rent Rent2.
From Verif Require Export Flow.

Lemma topup_pays E ms w payer k n w1 : rent_topup E ms w payer k n = Ok w1 ->
  moved_only w w1 payer k (Z.max 0 (rent E n - a_lamports (w k))).
Proof.
  unfold rent_topup. intros H. destruct (a_lamports (w k) <? rent E n) eqn:Q.
  - apply Z.ltb_lt in Q. apply sys_transfer_moved in H as ((_ & M) & _). rewrite Z.max_r by lia. exact M.
  - apply Z.ltb_ge in Q. apply ok_inj in H. subst. rewrite Z.max_l by lia. split; intros _; [reflexivity|].
    split; [lia|]. split; [lia|reflexivity].
Qed.
Lemma moved_then w w1 w2 f t n : moved_only w w1 f t n -> no_flow w1 w2 -> moved_only w w2 f t n.
Proof.
  intros (A & B) N. split; intros Q; [intros k; rewrite N; apply A, Q|]. destruct (B Q) as (B1 & B2 & B3). rewrite !N.
  split; [exact B1|]. split; [exact B2|]. intros k N1 N2. rewrite N. apply B3; assumption.
Qed.
Lemma no_then w w1 w2 f t n : no_flow w w1 -> moved_only w1 w2 f t n -> moved_only w w2 f t n.
Proof.
  intros N (A & B). split; intros Q; [intros k; rewrite <- N; apply A, Q|]. destruct (B Q) as (B1 & B2 & B3). rewrite <- !N.
  split; [exact B1|]. split; [exact B2|]. intros k N1 N2. rewrite <- N. apply B3; assumption.
Qed.
Lemma set_data_still ms w k d w' : set_data ms w k d = Ok w' -> no_flow w w'.
Proof. intros H. apply set_data_only in H as (_ & _ & L). exact L. Qed.
Lemma write_data_still ms w k d w' : write_data ms w k d = Ok w' -> no_flow w w'.
Proof. intros H. apply write_data_only in H as (_ & _ & _ & L). exact L. Qed.
Lemma allocate_still ms pdas w k n w' : sys_allocate_assign ms pdas w k n = Ok w' -> no_flow w w'.
Proof.
  unfold sys_allocate_assign. intros H. peel H. apply ok_inj in H. subst w'. intros x. unfold upd. destruct (beq x k) eqn:Q; [apply beq_eq in Q; subst x|]; reflexivity.
Qed.

Section Flow2.
Variables (E : env) (cx : ctx) (w w' : world).
Notation swig := (mkey (c_metas cx) 0).

Lemma session_still : create_session_v1 E cx w = Ok w' -> no_flow w w'.
Proof. intros H. unfold create_session_v1 in H. cbv zeta in H. open_up H. eapply set_data_still, H. Qed.
Lemma replace_still : replace_authority_v1 E cx w = Ok w' -> no_flow w w'.
Proof. intros H. unfold replace_authority_v1 in H. cbv zeta in H. open_up H. eapply set_data_still, H. Qed.
Lemma toggle1_still : toggle_sub_account_v1 E cx w = Ok w' -> no_flow w w'.
Proof. intros H. unfold toggle_sub_account_v1 in H. cbv zeta in H. open_up H; eapply set_data_still, H. Qed.
Lemma toggle2_still : toggle_sub_account_v2 E cx w = Ok w' -> no_flow w w'.
Proof.
  intros H. unfold toggle_sub_account_v2 in H. cbv zeta in H. open_up H.
  grab (set_data _ w _ _ = Ok _) as Bq. apply set_data_still in H. apply set_data_still in Bq. intros k. rewrite H. apply Bq.
Qed.
Lemma migrate_pays : migrate_v1 E cx w = Ok w' ->
  moved_only w w' (mkey (c_metas cx) 2) (mkey (c_metas cx) 3) (Z.max 0 (rent E 0 - a_lamports (w (mkey (c_metas cx) 3)))).
Proof.
  intros H. unfold migrate_v1 in H. cbv zeta in H. open_up H. grab (set_data _ _ _ _ = Ok _) as Bq. apply set_data_still in Bq.
  apply topup_pays in H. rewrite Bq in H. eapply no_then; eassumption.
Qed.
Lemma sub1_pays : create_sub_account_v1 E cx w = Ok w' ->
  moved_only w w' (mkey (c_metas cx) 1) (mkey (c_metas cx) 2) (Z.max 0 (rent E 0 - a_lamports (w (mkey (c_metas cx) 2)))).
Proof.
  intros H. unfold create_sub_account_v1 in H. cbv zeta in H. open_up H. grab (rent_topup _ _ _ _ _ _ = Ok _) as Bq. apply topup_pays in Bq.
  eapply moved_then; [exact Bq|]. eapply set_data_still, H.
Qed.
Lemma claimer_pays s : wf_ctx cx -> is_cfg (w swig) s -> set_rent_claimer_v1 E cx w = Ok w' ->
  moved_only w w' (mkey (c_metas cx) 1) swig (Z.max 0 (rent E (size w' swig) - a_lamports (w swig))).
Proof.
  intros Hc (So & Hd & W) H.
  destruct (set_rent_claimer_spec _ _ _ _ _ Hc H Hd W) as (r & s1 & (_ & A) & _ & Cn & _ & _ & _ & _ & (D & _) & W').
  apply acting_shape in A as (A1 & A2).
  unfold set_rent_claimer_v1 in H. cbv zeta in H. peels H. peel H. cfg s Hd W.
  grab (rent_topup _ _ _ _ _ _ = Ok _) as Bt. apply topup_pays in Bt. apply write_data_still in H.
  assert (Ln : length (enc_config (set_claimer s1 (sub 8 32 (c_data cx)))) = (length (enc_config s) + ENTRY_LEN)%nat).
  { rewrite !enc_config_length by assumption. cbn [set_claimer s_roles s_claimer]. rewrite Cn.
    destruct W as (_ & _ & _ & _ & _ & _ & _ & W & _). destruct W' as (_ & _ & _ & _ & _ & _ & _ & W1 & W2). cbn [set_claimer s_roles] in W1.
    rewrite (alike_size _ _ W W1 A1). destruct W2 as (_ & _ & _ & _ & W2). destruct (W2 _ eq_refl) as (Lk & _).
    cbn [enc_claimer]. rewrite app_length, Lk. unfold ENTRY_LEN. cbn [length]. lia. }
  unfold size. rewrite D, Ln. eapply moved_then; eassumption.
Qed.
Lemma sub2_pays s : is_cfg (w swig) s -> create_sub_account_v2 E cx w = Ok w' ->
  let p := mkey (c_metas cx) 1 in let st := mkey (c_metas cx) 2 in let sa := mkey (c_metas cx) 3 in
  NoDup [p; st; sa; swig] ->
  let lack k n := Z.max 0 (rent E n - a_lamports (w k)) in
  exists n, paid_out w w' p [(st, lack st V2_LEN); (sa, lack sa 0%nat); (swig, n)]
    /\ (size w' swig = size w swig /\ n = 0 \/ n = lack swig (size w' swig)).
Proof.
  intros (So & Hd & W) H p st sa Nd lack. unfold create_sub_account_v2 in H. cbv zeta in H. fold p st sa in H. peel H. cfg s Hd W. opening W.
  grab (rent_topup _ _ w _ _ _ = Ok _) as Ba. apply topup_pays in Ba. fold p st in Ba.
  grab (sys_allocate_assign _ _ _ _ _ = Ok _) as Bb. apply allocate_still in Bb.
  grab (set_data _ _ st _ = Ok _) as Bs. apply set_data_still in Bs.
  grab (rent_topup _ _ _ _ sa _ = Ok _) as Bd. apply topup_pays in Bd.
  assert (Ne : (p <> st /\ p <> sa /\ p <> swig) /\ (st <> sa /\ st <> swig) /\ sa <> swig).
  { apply NoDup_cons_iff in Nd as (N1 & Nd). apply NoDup_cons_iff in Nd as (N2 & Nd). apply NoDup_cons_iff in Nd as (N3 & _). cbn [In] in *.
    clear - N1 N2 N3. repeat split; intros Q; [apply N1|apply N1|apply N1|apply N2|apply N2|apply N3]; rewrite Q; auto. }
  destruct Ne as ((P1 & P2 & P3) & (P4 & P5) & P6).
  destruct Ba as (_ & Ba). destruct (Ba P1) as (A1 & A2 & A3). destruct Bd as (_ & Bd). destruct (Bd P2) as (D1 & D2 & D3).
  match type of Bs with no_flow _ ?x => match type of A1 with a_lamports (?y _) = _ =>
    assert (St : forall k, a_lamports (x k) = a_lamports (y k)) by (intros k; rewrite Bs; apply Bb) end end.
  rewrite (St p), (St sa) in D1. rewrite (St sa) in D2. assert (Asa := A3 sa ltac:(congruence) ltac:(congruence)). rewrite Asa in D1, D2. fold (lack sa 0%nat) in D1, D2. fold (lack st V2_LEN) in A1, A2.
  assert (D3' : forall k, k <> p -> k <> sa -> k <> st -> a_lamports (v9 k) = a_lamports (w k)).
  { intros k K1 K2 K3. rewrite D3 by assumption. rewrite St. apply A3; assumption. }
  assert (Dst : a_lamports (v9 st) = a_lamports (w st) + lack st V2_LEN) by (rewrite D3 by congruence; rewrite St; exact A2).
  assert (Fin : forall n, moved_only v9 w' p swig n -> paid_out w w' p [(st, lack st V2_LEN); (sa, lack sa 0%nat); (swig, n)]).
  { intros n (_ & M). destruct (M P3) as (M1 & M2 & M3). split; [|split].
    - rewrite M1, D1, A1. cbn [map snd fold_right]. lia.
    - intros k x [I|[I|[I|[]]]]; injection I as <- <-.
      + rewrite M3 by congruence. exact Dst.
      + rewrite M3 by congruence. exact D2.
      + rewrite M2, D3' by congruence. reflexivity.
    - cbn [map fst In]. intros k K1 K2. rewrite M3 by (intros Q; subst k; tauto). apply D3'; [exact K1|..]; intros Q; subst k; tauto. }
  match type of H with (if ?b then _ else _) = _ => destruct b end.
  - exists 0. apply set_data_only in H as ((D & _) & _ & L). split.
    + apply Fin. split; [intros _ k; apply L|]. intros _. rewrite !L. split; [lia|]. split; [lia|]. intros k _ _. apply L.
    + left. split; [|reflexivity]. unfold size. rewrite D, Hd. rewrite !app_length, splice_length, O4, O5, O6.
      * apply acting_shape in O1 as (S1 & S2). rewrite enc_config_length_eq. rewrite S2.
        destruct W as (W1 & (W2 & _) & _ & _ & W5 & _ & _ & W8 & _). destruct O3 as (_ & (V2 & _) & _ & _ & V5 & _ & _ & V8 & _).
        rewrite !enc_header_length, !enc_roles_length by assumption. rewrite (alike_size _ _ W8 V8 S1). lia.
      * rewrite O4. destruct O3 as (_ & (V2 & _) & _ & _ & V5 & _). rewrite enc_header_length, le_enc_length by assumption. cbv. lia.
  - peel H. grab (rent_topup _ _ v9 _ _ _ = Ok _) as Be. apply topup_pays in Be. apply write_data_only in H as ((D & _) & _ & _ & L).
    rewrite D3' in Be by congruence. eexists. split; [apply Fin; eapply moved_then; [exact Be|exact L]|]. right. unfold size. rewrite D. reflexivity.
Qed.
Lemma update_same s : wf_ctx cx -> is_cfg (w swig) s -> update_authority_v1 E cx w = Ok w' -> size w' swig = size w swig -> no_flow w w'.
Proof.
  intros (Wc1 & Wc2) (So & Hd & W) H Sz. set (swig := mkey (c_metas cx) 0) in *. set (data := c_data cx) in *. set (target := u32_at 12 data).
  unfold update_authority_v1 in H. cbv zeta in H. fold swig data in H. fold target in H.
  set (op := if (byte_at 4 data =? 0) && negb (length (sub 16 (nat_of (u16_at 2 data)) data) =? 0)%nat
             then byte_at 0 (sub 16 (nat_of (u16_at 2 data)) data) else 0) in *.
  set (arg := if (byte_at 4 data =? 0) && negb (length (sub 16 (nat_of (u16_at 2 data)) data) =? 0)%nat
             then skipn 1 (sub 16 (nat_of (u16_at 2 data)) data) else (sub 16 (nat_of (u16_at 2 data)) data)) in *.
  peel H. cfg s Hd W. peels H. peel H. cfg s Hd W. opening W.
  grab (find_offsets _ _ _ _ = Ok _) as Bf. grab (apply_update _ _ _ _ _ _ _ _ _ _ = Ok _) as Ba.
  grab (seal_tail _ _ = Ok _) as Bs. grab (write_data _ _ _ _ = Ok _) as Bw. grab (can_manage _ = true) as Bm.
  grab (_ = Ok v2) as Brent.
  pose proof O3 as (V1 & (V2 & V2') & V3 & V4 & V5 & V6 & V7 & V8 & V9 & V10 & V11 & V12 & V13).
  pose proof (wf_roles_small _ O3) as Hsm. pose proof (enc_roles_length 0 _ V8) as L2.
  rewrite <- (app_nil_r (o_hdr v0)), O4, O5 in Bf.
  rewrite hf_roles, nat_of_nat in Bf by assumption.
  pose proof (roles_at_enc (s_roles s1) [] V8) as Hat. rewrite app_nil_r in Hat.
  rewrite find_offsets_at in Bf by (try assumption; lia).
  destruct (pos_of target 0 (s_roles s1)) as [[p tr]|] eqn:Ep; [|discriminate].
  apply ok_inj in Bf. injection Bf as <- <- <-.
  pose proof (pos_find _ _ _ _ Ep) as Et.
  destruct (find_split _ _ _ Et) as (l1 & l2 & E1 & E2 & E3).
  rewrite Ep in E3. injection E3 as ->.
  rewrite O5, O7, L2, <- O10, <- F7, <- E2 in *.
  assert (Ha : all_bytes arg) by (unfold arg; destruct (_ && _); [apply all_bytes_skipn|]; apply all_bytes_sub; exact Wc1).
  assert (Hl : Z.of_nat (length arg) < 65536).
  { pose proof (u16_bound 2 data Wc1) as U. unfold is_u16, U16 in U.
    assert (length arg <= nat_of (u16_at 2 data))%nat.
    { unfold arg. assert (length (sub 16 (nat_of (u16_at 2 data)) data) <= nat_of (u16_at 2 data))%nat
        by (unfold sub; rewrite firstn_length; lia).
      destruct (_ && _); [rewrite skipn_length|]; lia. }
    unfold nat_of in *. lia. }
  assert (Ho : 0 <= op <= 3).
  { split; [|lia]. unfold op. destruct (_ && _); [|lia].
    assert (Hbb : forall o d, all_bytes d -> 0 <= byte_at o d).
    { intros o d Hd0. unfold byte_at. destruct (nth_in_or_default o d 0) as [Hin| ->]; [|lia].
      unfold all_bytes in Hd0. rewrite Forall_forall in Hd0. apply Hd0 in Hin. unfold is_byte in Hin. lia. }
    apply Hbb. apply all_bytes_sub. exact Wc1. }
  eapply (update_seal_enc s1 l1 tr l2 op arg _ b z v3 O3 E1 Ho Ha Hl eq_refl Ba) in Bs.
  destruct Bs as (l' & U1 & U2 & U3 & U4 & U5 & U6 & U7).
  apply write_data_only in Bw as ((Dw & _) & _ & _ & Lw). destruct (upd_result_len _ _ _ _ U1) as (G0 & G1 & _).
  destruct (enc_config_8 _ O3) as (q & Q).
  assert (Wt : Forall wf_action (r_acts tr)) by (rewrite E1 in V8; apply Forall_app in V8 as (_ & V8); apply Forall_inv in V8; apply V8).
  destruct (diff_8 _ _ Wt (proj1 (proj2 U2))) as (k1 & k2 & K1 & K2).
  assert (Lc : length (enc_config s1) = length (enc_config s)).
  { apply acting_shape in O1 as (S1 & S2). rewrite !enc_config_length by assumption. rewrite S2. destruct W as (_ & _ & _ & _ & _ & _ & _ & W & _).
    rewrite (alike_size _ _ W V8 S1). reflexivity. }
  assert (Fl : (z < 0 -> False) -> (0 <? (if op =? 0 then Z.of_nat (length arg) - Z.of_nat (acts_len (r_acts tr)) else if op =? 1 then Z.of_nat (length arg) else 0)) = false -> no_flow w w').
  { intros Nz Np. rewrite Np in Brent. apply ok_inj in Brent. destruct (z <? 0) eqn:Zn; [apply Z.ltb_lt in Zn; contradiction|].
    apply ok_inj in H. rewrite <- H, Brent. exact Lw. }
  assert (Dn : length (a_data (w' swig)) = length v3).
  { destruct (z <? 0); [apply move_lamports_keeps in H; destruct (H swig) as (H0 & _); rewrite H0, Dw; reflexivity|apply ok_inj in H; rewrite <- H, Dw; reflexivity]. }
  unfold size in Sz. rewrite Dn, Hd, U5 in Sz. clear Dn.
  assert (Hz : op = 0 \/ op = 1 \/ (op <> 0 /\ op <> 1)) by lia.
  assert (Zp : 0 < (if op =? 0 then Z.of_nat (length arg) - Z.of_nat (acts_len (r_acts tr)) else if op =? 1 then Z.of_nat (length arg) else 0) ->
    z = (if op =? 0 then Z.of_nat (length arg) - Z.of_nat (acts_len (r_acts tr)) else if op =? 1 then Z.of_nat (length arg) else 0)).
  { destruct Hz as [Hz|[Hz|(Hz & Hy)]].
    - rewrite Hz in *. cbn [Z.eqb]. specialize (G0 eq_refl). lia.
    - rewrite Hz in *. cbn [Z.eqb Pos.eqb]. specialize (G1 eq_refl). lia.
    - rewrite (proj2 (Z.eqb_neq _ _) Hz), (proj2 (Z.eqb_neq _ _) Hy). lia. }
  match type of Zp with 0 < ?p -> _ => set (pre := p) in * end.
  destruct (0 <? pre) eqn:Np.
  - exfalso. apply Z.ltb_lt in Np. specialize (Zp Np). rewrite (proj2 (Z.ltb_ge z 0)) in Sz by lia.
    pose proof (align8_ge (length (enc_config s1) + nat_of pre)) as A8. rewrite <- Lc in Sz. unfold nat_of in *. clear - Sz A8 Np. lia.
  - apply Fl; [|reflexivity]. intros Zn. rewrite (proj2 (Z.ltb_lt z 0) Zn) in Sz.
    assert (A8 : (align8 (nat_of (Z.of_nat (length (enc_config s1)) + z)) <= 8 * (q - 1))%nat).
    { apply align8_le. unfold nat_of. clear - Zn U3 K1 K2 Q. lia. }
    assert (Lh : (48 <= length (enc_config s1))%nat) by (rewrite enc_config_length by assumption; unfold HDR; lia).
    clear - Sz A8 Lc Q Lh. lia.
Qed.
End Flow2.

Section Props.
Variables (E : env) (cx : ctx) (w w' : world).
Hypothesis H : succeeds E cx w w'.
Theorem flow_none : In (tag (c_data cx)) [5; 10; 16; 19] -> no_flow w w'.
Proof.
  intros [T|[T|[T|[T|[]]]]]; symmetry in T; pose proof H as P; by_tag P T.
  - eapply session_still, P.
  - eapply toggle1_still, P.
  - eapply replace_still, P.
  - eapply toggle2_still, P.
Qed.
Theorem flow_claimer s : wf_ctx cx -> is_cfg (w (acct cx 0)) s -> tag (c_data cx) = 17 ->
  moved_only w w' (acct cx 1) (acct cx 0) (Z.max 0 (rent E (size w' (acct cx 0)) - a_lamports (w (acct cx 0)))).
Proof. intros Hc S T. pose proof H as P. by_tag P T. eapply claimer_pays; eassumption. Qed.
Theorem flow_migrate : tag (c_data cx) = 12 ->
  moved_only w w' (acct cx 2) (acct cx 3) (Z.max 0 (rent E 0 - a_lamports (w (acct cx 3)))).
Proof. intros T. pose proof H as P. by_tag P T. eapply migrate_pays; eassumption. Qed.
Theorem flow_sub1 : tag (c_data cx) = 6 ->
  moved_only w w' (acct cx 1) (acct cx 2) (Z.max 0 (rent E 0 - a_lamports (w (acct cx 2)))).
Proof. intros T. pose proof H as P. by_tag P T. eapply sub1_pays; eassumption. Qed.
Theorem flow_sub2 s : is_cfg (w (acct cx 0)) s -> tag (c_data cx) = 18 -> NoDup [acct cx 1; acct cx 2; acct cx 3; acct cx 0] ->
  let lack k n := Z.max 0 (rent E n - a_lamports (w k)) in
  exists n, paid_out w w' (acct cx 1) [(acct cx 2, lack (acct cx 2) V2_LEN); (acct cx 3, lack (acct cx 3) 0%nat); (acct cx 0, n)]
    /\ (size w' (acct cx 0) = size w (acct cx 0) /\ n = 0 \/ n = lack (acct cx 0) (size w' (acct cx 0))).
Proof. intros S T Nd. pose proof H as P. by_tag P T. eapply sub2_pays; eassumption. Qed.
Theorem flow_same s : wf_ctx cx -> is_cfg (w (acct cx 0)) s -> tag (c_data cx) = 3 ->
  size w' (acct cx 0) = size w (acct cx 0) -> no_flow w w'.
Proof. intros Hc S T Z. pose proof H as P. by_tag P T. eapply update_same; eassumption. Qed.
End Props.
