(** * Which calls succeed: signing for a sub-account, collecting the surplus *)
From Verif Require Import BaseFacts SpecConfig ConfigFacts ConfigEdit NewCredential ConfigEdit2 ConfigEdit3.
From Verif Require Import Frame HandlerRoles HandlerRoles2 HandlerAssets HandlerSub HandlerV2 HandlerLife LifeProps Actors ConfigProps AuthFacts SpecAvail Avail Avail2 Avail3.
From Verif Require Import SpecRent SignProcess SignSpec Parse SpecSign SpecClient SpecWorks Avail4 AllRun Avail5 ConfigCan Avail8 SpecSub2 Avail9.

Lemma order_sign2 d i p : order_of d = Some (SignSub2 i p) -> tag d = 20 /\ i = u32_at 8 d /\ p = sub 16 (arg_len d) d.
Proof. intros H. read_order H. subst. auto. Qed.

Theorem sign2_asked E cx w s r n payload xs : wf_ctx cx -> is_cfg (w (acct cx 0)) s -> usual_accounts 4 cx w s -> c_height cx = 1%nat -> second_version s ->
  In r (s_roles s) -> holds_for 24 n r \/ holds_for 23 n r -> asks E cx r (SignSub2 n payload) ->
  sub_record E w s (acct cx 1) (acct cx 2) n 1 -> a_owner (w (acct cx 2)) = SYSTEM -> inner_ixs (c_metas cx) (acct cx 2) payload xs ->
  exists w0, is_cfg (w0 (acct cx 0)) (used (r_id r) s) /\ only_here (acct cx 0) w w0
    /\ forall w', in_turn (by_others E (acct cx 2)) xs w0 w' ->
       rent E (length (a_data (w' (acct cx 2)))) <= a_lamports (w' (acct cx 2)) -> succeeds E cx w w'.
Proof.
  intros Wc C (A1 & A2 & A3) Hh V I M (Q1 & Q2 & a & Q3) R Ow Ix. pose proof C as (O & Dd & W).
  assert (Fr : find_role (r_id r) s = Some r) by (apply find_role_mine; [exact W|exact I]).
  apply order_sign2 in Q2 as (T & T0 & T1). laid T Q1 Q3. rewrite ?Nat.sub_0_r in Q3.
  set (m := arg_len (c_data cx)) in *.
  pose proof (payload_there _ _ _ _ _ _ _ _ Q3) as L.
  assert (Un : is_u32 n) by (rewrite T0; apply u32_bound, Wc).
  assert (K : wf_key (acct cx 2)) by (apply nth_wf; [apply Wc|lia]).
  destruct (record_read _ _ _ _ _ _ _ W Un K R ltac:(auto)) as (R1 & R2 & R3 & R4 & R5 & R6). pose proof R as (b & ab & Ro & Rd & _).
  assert (Ne : acct cx 1 <> acct cx 0) by (intros Q; rewrite Q, Dd in Rd; discriminate Rd).
  destruct (classify_all_can w s (acct cx 0) C (c_metas cx) eq_refl) as [cs Hc]; [lia|exact A3|].
  destruct (open_can E cx s (r_id r) r _ _ _ W Fr Q3) as [o Ho]. pose proof Ho as Ho'.
  apply open_role_enc in Ho' as (r1 & s0 & (O1 & au' & O1' & O1s) & O2 & W1 & O4 & O5 & O6 & O7 & O8 & O9 & O10); [|exact W].
  rewrite Fr in O1. injection O1 as <-. pose proof (eq_trans (eq_sym Q3) O1') as X. injection X as <-.
  change (s0 = shown r a s) in O1s. rewrite (shown_used _ _ _ _ _ _ _ W Fr Q3) in O1s.
  destruct (set_can_data (c_metas cx) w (acct cx 0) (o_bytes o) A2 O) as [w0 Hw0].
  pose proof (set_data_only _ _ _ _ _ Hw0) as (D0 & L0). rewrite O7, O1s in D0.
  destruct (inner_parse_all _ _ _ _ Ix) as (ys & Py & <-).
  exists w0. split; [exact (only_data_cfg w w0 _ s _ C D0 ltac:(rewrite <- O1s; exact W1))|].
  split; [eapply only_here_of; [exact D0|apply L0]|]. intros w' Rn Rt.
  unfold succeeds, process. rewrite Hc. cbn [bind]. replace (2 <=? length (c_data cx))%nat with true by lia. cbn [check bind].
  change (u16_at 0 (c_data cx)) with (tag (c_data cx)). rewrite T. cbn [Z.eqb Pos.eqb].
  unfold sub_account_sign_v2. cbv zeta. unfold need. replace (4 <=? length (c_metas cx))%nat with true by lia. rewrite Hh. cbn [Nat.eqb check bind].
  change (mkey (c_metas cx)) with (acct cx). unfold owned_by. rewrite O, Ow, !beq_refl. cbn [check bind].
  replace (16 <=? length (c_data cx))%nat with true by lia. cbn [check bind]. change (nat_of (u16_at 2 (c_data cx))) with m.
  replace (16 + m <=? length (c_data cx))%nat with true by lia. cbn [check bind].
  rewrite (load_config_can _ _ _ C). cbn [bind]. rewrite require_v2_can by assumption. cbn [bind]. rewrite Q1. rewrite Ho. cbn [bind].
  rewrite O8, <- T0, authorize_can; [|cbn; auto|exact Un|exact O2|exact M]. cbn [bind]. rewrite Hw0. cbn [bind].
  assert (Hid : h_id (o_hdr o) = s_id s) by (rewrite O4, hdr_id by exact W1; rewrite O1s; reflexivity). rewrite Hid.
  destruct D0 as (_ & _ & D0). destruct (D0 (acct cx 1) Ne) as [S4 S5].
  unfold validate_v2_state, owned_by. rewrite S5, Ro. unfold check_v2_record in *. rewrite S4, R1, beq_refl. cbn [check bind].
  rewrite R4. cbn [Z.eqb Pos.eqb check bind]. rewrite (pda_checked _ _ _ _ R2), R5, beq_refl. cbn [check bind].
  rewrite <- T1, Py. cbn [bind]. unfold pda_list. rewrite R3.
  rewrite (run_all_can E cx _ payload ys Ix ys w0 w') by (try exact Rn; apply incl_refl). cbn [bind].
  replace (_ <=? _) with true by lia. reflexivity.
Qed.

(** ** Collecting the lamports of the configuration account above its rent *)
Theorem gather_asked E cx w s r : wf_ctx cx -> is_cfg (w (acct cx 0)) s -> usual_accounts 4 cx w s -> length (c_metas cx) = 4%nat ->
  In r (s_roles s) -> manager r -> asks E cx r TransferAssets ->
  s_wbump s <> 0 -> pda E (seeds_wallet (acct cx 0) (s_wbump s)) = Some (acct cx 1) -> acct cx 1 <> acct cx 0 ->
  writable (c_metas cx) (acct cx 1) = true -> 0 <= rent E (length (enc_config s)) ->
  let extra := Z.max 0 (a_lamports (w (acct cx 0)) - rent E (length (enc_config s))) in
  a_lamports (w (acct cx 1)) + extra < U64 ->
  exists w', succeeds E cx w w' /\ is_cfg (w' (acct cx 0)) (used (r_id r) s)
    /\ a_lamports (w' (acct cx 0)) = a_lamports (w (acct cx 0)) - extra /\ a_lamports (w' (acct cx 1)) = a_lamports (w (acct cx 1)) + extra
    /\ (forall k, k <> acct cx 0 -> k <> acct cx 1 -> a_lamports (w' k) = a_lamports (w k))
    /\ forall k, k <> acct cx 0 -> kept_acct (w k) (w' k).
Proof.
  intros Wc C (A1 & A2 & A3) A4 I M (Q1 & Q2 & a & Q3) Wb Pw Ne Ww R0 extra L1. pose proof C as (O & Dd & W).
  assert (Fr : find_role (r_id r) s = Some r) by (apply find_role_mine; [exact W|exact I]).
  apply order_transfer in Q2 as T. laid T Q1 Q3. rewrite ?Nat.sub_0_r in Q3.
  pose proof (payload_there _ _ _ _ _ _ _ _ Q3) as L.
  assert (Hn : ends (fun w' => exists w1, only_data w w1 (acct cx 0) (enc_config (used (r_id r) s)) /\ wf_config (used (r_id r) s)
     /\ (forall k, a_lamports (w1 k) = a_lamports (w k)) /\ moved w1 w' (acct cx 0) (acct cx 1) extra) (transfer_assets_v1 E cx w)).
  { unfold transfer_assets_v1. cbv zeta. unfold need. apply ends_check; [lia|]. change (mkey (c_metas cx)) with (acct cx).
    unfold owned_by. apply ends_check; [rewrite O; apply beq_refl|]. apply ends_check; [lia|].
    rewrite (load_config_can _ _ _ C). cbn [bind]. rewrite split_parts_enc by exact W. cbn [bind]. rewrite hdr_wbump by exact W.
    apply ends_check; [lia|]. rewrite (pda_checked _ _ _ _ Pw). cbn [bind]. rewrite Q1.
    apply ends_then; [eapply open_can; [exact W|exact Fr|exact Q3]|].
    intros o Ho. apply open_role_enc in Ho as (r1 & s0 & (O1 & au' & O1' & O1s) & O2 & W1 & O4 & O5 & O6 & O7 & O8 & O9 & O10); [|exact W].
    rewrite Fr in O1. injection O1 as <-. pose proof (eq_trans (eq_sym Q3) O1') as X. injection X as <-.
    change (s0 = shown r a s) in O1s. rewrite (shown_used _ _ _ _ _ _ _ W Fr Q3) in O1s.
    rewrite O8, manages_enc by exact O2. cbn [bind]. apply ends_check; [apply can_manage_holds; exact M|].
    apply ends_then; [apply set_can_data; assumption|]. intros w1 Hw1. apply set_data_only in Hw1 as (S1 & _ & S6).
    rewrite O7, O1s in S1. pose proof S1 as (_ & S2 & _).
    replace (skipn 4 (c_metas cx)) with (@nil meta) by (symmetry; apply skipn_all2; lia).
    assert (Ex : sat_sub (a_lamports (w1 (acct cx 0))) (rent E (length (enc_config s))) = extra) by (unfold sat_sub, extra; rewrite S6; reflexivity).
    rewrite Ex.
    apply ends_then.
    { unfold move_lamports. destruct (extra =? 0) eqn:Q; [apply can_ok|]. replace (beq (acct cx 0) (acct cx 1)) with false by (symmetry; apply beq_neq; auto).
      apply can_check; [rewrite A2, Ww; reflexivity|]. apply can_check; [rewrite S2, O; apply beq_refl|]. rewrite !S6.
      apply can_check; [unfold extra in *; lia|]. apply can_check; [lia|]. apply can_ok. }
    intros w2 Hw2. apply move_lamports_moved in Hw2 as [Hw2 _]. apply ends_can; [apply can_ok|]. intros w3 Hw3. cbn in Hw3. apply ok_inj in Hw3. subst w3.
    exists w1. split; [exact S1|]. split; [rewrite <- O1s; exact W1|]. split; [exact S6|exact Hw2]. }
  destruct Hn as (w' & Hn & w1 & D1 & W' & D2 & (D3 & _ & D4)). exists w'. split.
  - apply (dispatched E cx w s); try assumption; try lia.
    + change (~ In (tag (c_data cx)) [9; 11; 20]). rewrite T. cbn. lia.
    + unfold dispatch. replace (2 <=? length (c_data cx))%nat with true by lia. cbn [check bind].
      change (u16_at 0 (c_data cx)) with (tag (c_data cx)). rewrite T. exact Hn.
  - destruct (D4 ltac:(auto)) as (E1 & E2 & E3). rewrite D2 in E1, E2.
    pose proof (only_data_cfg w w1 _ s _ C D1 W') as (G1 & G2 & G3). destruct (D3 (acct cx 0)) as [H1 H2].
    split; [split; [congruence|split; [congruence|exact G3]]|]. split; [exact E1|]. split; [exact E2|].
    split; [intros k B1 B2; rewrite E3 by assumption; apply D2|]. intros k B. destruct D1 as (_ & _ & D1). destruct (D1 k B), (D3 k). split; congruence.
Qed.

(** ** A wallet that holds too much cannot be closed *)
Theorem full_not_closed E cx w s : is_cfg (w (acct cx 0)) s -> tag (c_data cx) = 15 ->
  rent E (length (enc_config s)) < a_lamports (w (acct cx 0)) \/ rent E 0 < a_lamports (w (fst (find_pda E (seeds_wallet0 (acct cx 0))))) ->
  forall w', ~ succeeds E cx w w'.
Proof.
  intros C T L w' H. unfold succeeds, process in H. apply bind_ok in H as (cs & _ & H). apply bind_ok in H as (u & _ & H).
  change (u16_at 0 (c_data cx)) with (tag (c_data cx)) in H. rewrite T in H. cbn [Z.eqb Pos.eqb] in H. unfold dispatch in H.
  apply bind_ok in H as (u' & _ & H). change (u16_at 0 (c_data cx)) with (tag (c_data cx)) in H. rewrite T in H. cbn [Z.eqb Pos.eqb] in H.
  destruct C as (O & Dd & W). destruct (close_swig_spec _ _ _ _ _ H Dd W) as (r1 & s1 & _ & _ & _ & Wa & L1 & L2 & _).
  cbv zeta in *. change (mkey (c_metas cx)) with (acct cx) in *. rewrite Wa in L2. lia.
Qed.

(** ** In the words of the properties *)
Theorem update_edits E cx w s r tr op x l' : wf_ctx cx -> is_cfg (w (acct cx 0)) s -> usual_accounts 3 cx w s -> acct cx 2 = SYSTEM ->
  In r (s_roles s) -> In tr (s_roles s) -> manager r -> asks E cx r (ChangeRole (r_id tr) op x) ->
  upd_result op x (r_acts tr) l' -> (op = 3 -> Nat.even (length x) = true) -> wf_actions l' -> Forall unspent l' ->
  let s' := on_role (r_id tr) (fun r0 => with_acts r0 l') s in
  let old := length (enc_config s) in let new := length (enc_config s') in
  Z.of_nat new <= 10485760 -> Z.of_nat new <= Z.of_nat old + 10240 ->
  ((old < new)%nat -> funded E cx w (acct cx 0) (acct cx 1) new) ->
  ((new < old)%nat -> rent_grows E /\ 0 <= a_lamports (w (acct cx 0)) /\ writable (c_metas cx) (acct cx 1) = true
     /\ a_lamports (w (acct cx 1)) + a_lamports (w (acct cx 0)) < U64) ->
  exists w', succeeds E cx w w' /\ is_cfg (w' (acct cx 0)) (on_role (r_id tr) (fun r0 => with_acts r0 l') (used (r_id r) s)).
Proof.
  intros A1 A2 A3 A4 A5 A6 A7 A8 A9 A10 A11 A12 s' old new A13 A14 A15 A16. apply (update_asked E cx w s r tr op x l'); try assumption.
  apply unspent_laid_out; [apply A11|exact A12].
Qed.
Theorem gift_blocks E w s k n : is_cfg (w k) s -> a_lamports (w k) = rent E (length (enc_config s)) -> 0 < n ->
  forall cx w', acct cx 0 = k -> tag (c_data cx) = 15 -> ~ succeeds E cx (gift w k n) w'.
Proof.
  intros C L P cx w' K T. apply full_not_closed with (s := s); [|exact T|].
  - rewrite K. unfold gift, upd. rewrite beq_refl. exact C.
  - left. rewrite K. unfold gift, upd. rewrite beq_refl. cbn [a_lamports]. lia.
Qed.

