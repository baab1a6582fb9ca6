(** * Which signing calls succeed *)
From Verif Require Import BaseFacts SpecConfig ConfigFacts ConfigEdit NewCredential ConfigEdit2 ConfigEdit3.
From Verif Require Import Frame HandlerRoles HandlerRoles2 HandlerAssets Actors ConfigProps AuthFacts SpecAvail Avail Avail2 Avail3.
From Verif Require Import SpecRent SignProcess SignSpec Parse SpecSign SpecClient SpecWorks Avail4 AllRun.

(** ** The classification of the first two accounts *)
Lemma classify_first w s ms : is_cfg (w (mkey ms 0)) s -> (2 <= length ms <= 254)%nat ->
  (forall m, In m (tl ms) -> ordinary w s (m_key m)) -> a_owner (w (mkey ms 1)) = SYSTEM ->
  exists cs, classify_all w ms = Ok cs /\ nth_error cs 0 = Some CThisSwig /\ nth_error cs 1 = Some CWallet.
Proof.
  intros C L H O1. destruct (classify_all_can w s (mkey ms 0) C ms eq_refl) as [cs Hc]; [lia|exact H|].
  exists cs. split; [exact Hc|]. unfold classify_all, MAX_ACCOUNTS in Hc.
  apply bind_ok in Hc as (? & _ & Hc). apply bind_ok in Hc as (? & _ & Hc). cbv zeta in Hc.
  destruct ms as [|m0 [|m1 t]]; try (cbn in L; lia). unfold mkey in *. cbn [nth] in *.
  pose proof (cfg_is_config w s (m_key m0) C) as Cf. rewrite Cf in Hc. destruct C as (O & D & W). rewrite D, scope_cache_enc in Hc by exact W.
  cbn [classify_from] in Hc. apply bind_ok in Hc as (c0 & B0 & Hc). unfold classify in B0. cbv zeta in B0.
  rewrite O, beq_refl, Cf in B0. cbn [negb Nat.eqb] in B0. apply ok_inj in B0.
  apply bind_ok in Hc as (c1 & B1 & Hc). apply bind_ok in B1 as (c2 & B2 & B3). unfold classify in B2. cbv zeta in B2. rewrite O1, Cf in B2.
  change (beq SYSTEM SELF) with false in B2. rewrite beq_refl in B2. cbn [negb Nat.eqb andb] in B2. apply ok_inj in B2.
  apply bind_ok in B3 as (c3 & B3 & B4). apply ok_inj in B4. apply ok_inj in Hc. subst. split; reflexivity.
Qed.

(** ** Running the inner instructions *)
Lemma privileges_can ms sk payload xs x : inner_ixs ms sk payload xs -> In x xs -> privileges_ok ms [sk] x = true.
Proof.
  intros H I. unfold privileges_ok. apply forallb_forall. intros m Hm.
  destruct (inner_privileges _ _ _ _ H x m I Hm) as (m0 & I0 & K & Wr & Sg).
  apply andb_true_iff. split.
  - destruct (m_signer m) eqn:Q; [|reflexivity]. cbn [negb orb]. destruct (Sg eq_refl) as [S|S].
    + apply orb_true_iff. left. apply existsb_exists. exists m0. rewrite K, beq_refl, S. auto.
    + rewrite S. cbn [existsb]. rewrite beq_refl. apply orb_true_r.
  - destruct (m_writable m) eqn:Q; [|reflexivity]. cbn [negb orb]. apply existsb_exists. exists m0. rewrite K, beq_refl, <- Wr. auto.
Qed.
Lemma run_all_can E cx sk payload ys : inner_ixs (c_metas cx) sk payload (map in_ix ys) ->
  forall zs w w', incl zs ys -> in_turn (by_others E sk) (map in_ix zs) w w' -> run_all E cx sk [sk] zs w = Ok w'.
Proof.
  intros H. induction zs as [|z t IH]; intros w w' I R; cbn [map run_all] in *.
  - inversion R. reflexivity.
  - inversion R as [|? ? ? w1 ? (O & Pn & Mn & F) R']; subst.
    assert (X : run_inner E cx sk [sk] w (in_ix z) = Ok w1).
    { unfold run_inner. cbv zeta. rewrite O, beq_refl. cbn [negb]. rewrite !andb_false_r.
      replace (_ || (1 <=? length (ix_metas (in_ix z)))%nat) with true.
      2:{ destruct (ix_metas (in_ix z)); [congruence|]. cbn [length Nat.leb]. rewrite orb_true_r. reflexivity. }
      cbn [guard bind]. unfold invoke. rewrite (privileges_can _ _ _ _ _ H) by (apply in_map, I; left; reflexivity). cbn [check bind].
      apply beq_neq in Pn. rewrite Pn. exact F. }
    rewrite X. cbn [bind]. apply IH; [|exact R']. intros q Hq. apply I. right. exact Hq.
Qed.

Theorem sign_asked E cx w s r payload xs : wf_ctx cx -> is_cfg (w (acct cx 0)) s -> usual_accounts 3 cx w s -> c_height cx = 1%nat ->
  pda E (seeds_wallet (acct cx 0) (s_wbump s)) = Some (acct cx 1) -> a_owner (w (acct cx 1)) = SYSTEM ->
  In r (s_roles s) -> holds 7 r \/ holds 15 r -> asks E cx r (Sign payload) -> inner_ixs (c_metas cx) (acct cx 1) payload xs ->
  exists w0, is_cfg (w0 (acct cx 0)) (used (r_id r) s) /\ only_here (acct cx 0) w w0
    /\ forall w', in_turn (by_others E (acct cx 1)) xs w0 w' -> succeeds E cx w w'.
Proof.
  intros Wc C (A1 & A2 & A3) Hh Pw Ow I M (Q1 & Q2 & a & Q3) Ix. pose proof C as (O & Dd & W).
  assert (Fr : find_role (r_id r) s = Some r) by (apply find_role_mine; [exact W|exact I]).
  apply order_sign in Q2 as (T & T1). laid T Q1 Q3. replace (8 + arg_len (c_data cx) - 8)%nat with (arg_len (c_data cx)) in Q3 by lia.
  set (n := arg_len (c_data cx)) in *.
  pose proof (payload_there _ _ _ _ _ _ _ _ Q3) as L.
  destruct (classify_first w s (c_metas cx) C ltac:(lia) A3 Ow) as (cs & Hc & N0 & N1).
  destruct (open_can E cx s (r_id r) r _ _ _ W Fr Q3) as [o Ho]. pose proof Ho as Ho'.
  apply open_role_enc in Ho' as (r1 & s0 & (O1 & au' & O1' & O1s) & O2 & W1 & O4 & O5 & O6 & O7 & O8 & O9 & O10); [|exact W].
  rewrite Fr in O1. injection O1 as <-. pose proof (eq_trans (eq_sym Q3) O1') as X. injection X as <-.
  change (s0 = shown r a s) in O1s. rewrite (shown_used _ _ _ _ _ _ _ W Fr Q3) in O1s.
  destruct (set_can_data (c_metas cx) w (acct cx 0) (o_bytes o) A2 O) as [w0 Hw0].
  pose proof (set_data_only _ _ _ _ _ Hw0) as (D0 & L0). rewrite O7, O1s in D0.
  destruct (inner_parse_all _ _ _ _ Ix) as (ys & Py & <-).
  exists w0. split; [exact (only_data_cfg w w0 _ s _ C D0 ltac:(rewrite <- O1s; exact W1))|].
  split; [eapply only_here_of; [exact D0|apply L0]|]. intros w' R.
  unfold succeeds, process. rewrite Hc. cbn [bind]. replace (2 <=? length (c_data cx))%nat with true by lia. cbn [check bind].
  change (u16_at 0 (c_data cx)) with (tag (c_data cx)). rewrite T. cbn [Z.eqb Pos.eqb].
  unfold sign_v2. cbv zeta. unfold need. replace (3 <=? length (c_metas cx))%nat with true by lia. rewrite Hh, N0, N1. cbn [Nat.eqb check bind is_this is_wal].
  replace (8 <=? length (c_data cx))%nat with true by lia. cbn [check bind]. change (nat_of (u16_at 2 (c_data cx))) with n.
  replace (8 + n <=? length (c_data cx))%nat with true by lia. cbn [check bind].
  change (mkey (c_metas cx) 0) with (acct cx 0). change (mkey (c_metas cx) 1) with (acct cx 1).
  rewrite (load_config_can _ _ _ C). cbn [bind]. rewrite Q1. unfold n in *. rewrite Ho. cbn [bind]. rewrite Hw0. cbn [bind]. rewrite <- T1, Py. cbn [bind].
  rewrite O8, !has_mut_role by exact O2. cbn [bind].
  assert (Hx : h_wbump (o_hdr o) = s_wbump s).
  { rewrite O4, hdr_wbump by exact W1. rewrite O1s. apply (on_role_fields (r_id r) after_use s). }
  rewrite Hx. unfold pda_list. rewrite Pw.
  destruct (has P_All [] r) eqn:Ha; cbn [bind].
  - apply (run_all_can E cx _ payload ys Ix ys w0 w'); [apply incl_refl|exact R].
  - replace (has P_AllButManageAuthority [] r) with true.
    2:{ symmetry. apply has_holds; [intros q d; reflexivity|]. destruct M as [M|M]; [|exact M]. apply (has_holds P_All [] r plain_all) in M; congruence. }
    apply (run_all_can E cx _ payload ys Ix ys w0 w'); [apply incl_refl|exact R].
Qed.
