(** * Which calls succeed: closing token accounts, moving tokens *)
From Verif Require Import BaseFacts SpecConfig ConfigFacts ConfigEdit NewCredential ConfigEdit2 ConfigEdit3.
From Verif Require Import Frame HandlerRoles HandlerRoles2 HandlerAssets HandlerSub HandlerV2 HandlerLife LifeProps Actors ConfigProps AuthFacts SpecAvail Avail Avail2 Avail3.
From Verif Require Import SpecRent SignProcess SignSpec Parse SpecSign SpecClient SpecWorks Avail4 AllRun Avail5 ConfigCan Avail8 SpecSub2 Avail9 Avail10 SpecSub1 Avail11 SpecTok2.

Lemma order_tclose d n : order_of d = Some (CloseTokens n) -> tag d = 14 /\ n = u16_at 2 d.
Proof. intros H. read_order H. subst. auto. Qed.
Lemma token_program_is p : token_program p -> is_token_program p = true.
Proof. unfold is_token_program. intros [-> | ->]; rewrite beq_refl; [reflexivity|apply orb_true_r]. Qed.

Lemma close_all_can E ms v2 swig wallet dest prog ws ss : swig <> wallet ->
  existsb (beq wallet) ws = true -> existsb (beq swig) ss = true -> writable ms dest = true ->
  forall ts, (forall t, In t ts -> writable ms (m_key t) = true) ->
  forall w w', all_closed E prog dest swig wallet (map m_key ts) w w' -> close_all E ms v2 swig wallet dest prog ws ss ts w = Ok w'.
Proof.
  intros N Hw Hs Wd. induction ts as [|t r IH]; intros Wt w w' H; cbn [map close_all] in *.
  - inversion H; subst. reflexivity.
  - inversion H as [|t' ts' w0 w1 w2 auth A (T1 & T2 & T3) F R]; subst. unfold close_one. rewrite beq_refl. cbn [check bind].
    replace (72 <=? length (a_data (w (m_key t))))%nat with true by (symmetry; apply Nat.leb_le; exact T2). cbn [check bind].
    set (auth := sub 32 32 (a_data (w (m_key t)))) in *.
    assert (P : forall pdas, existsb (beq auth) pdas = true ->
      cpi E ms pdas w (token_close_ix (a_owner (w (m_key t))) (m_key t) dest auth) = Ok w1).
    { intros pdas Hp. unfold cpi, privileges_ok, token_close_ix. cbn [ix_metas forallb m_signer m_writable m_key negb orb andb].
      rewrite (Wt t) by (left; reflexivity). rewrite Wd, Hp, orb_true_r. cbn [orb andb check bind]. exact F. }
    assert (X : (beq auth wallet || beq auth swig = true) /\
      (if if v2 then beq auth wallet else negb (beq auth swig)
       then cpi E ms ws w (token_close_ix (a_owner (w (m_key t))) (m_key t) dest wallet)
       else cpi E ms ss w (token_close_ix (a_owner (w (m_key t))) (m_key t) dest swig)) = Ok w1).
    { destruct A as [A|A].
      - assert (B : beq auth wallet = false) by (apply beq_neq; congruence). rewrite B, A, beq_refl. split; [reflexivity|].
        rewrite <- A in *. destruct v2; apply P; exact Hs.
      - assert (B : beq auth swig = false) by (apply beq_neq; congruence). rewrite B, A, beq_refl. split; [reflexivity|].
        rewrite <- A in *. destruct v2; apply P; exact Hw. }
    destruct X as [X1 X2]. rewrite X1. cbn [check bind]. rewrite X2. cbn [bind].
    apply IH; [intros t' Ht; apply Wt; right; exact Ht|exact R].
Qed.

Theorem tclose_asked E cx w s r from : wf_ctx cx -> is_cfg (w (acct cx 0)) s -> usual_accounts 4 cx w s ->
  In r (s_roles s) -> holds 7 r \/ holds 8 r \/ holds 20 r -> asks E cx r (CloseTokens from) ->
  let swig := acct cx 0 in let wallet := acct cx 1 in let dest := acct cx 2 in let prog := acct cx 3 in
  let listed := skipn (Z.to_nat from) (c_metas cx) in
  search_sound E -> wallet = fst (find_pda E (seeds_wallet0 swig)) -> pda E (seeds_swig (s_id s) (s_bump s)) = Some swig -> swig <> wallet ->
  token_program prog -> (forall k, s_claimer s = Some k -> dest = k) -> writable (c_metas cx) dest = true ->
  listed <> [] -> (forall m, In m listed -> writable (c_metas cx) (m_key m) = true) ->
  exists w0, is_cfg (w0 swig) (used (r_id r) s) /\ only_here swig w w0
    /\ forall w', all_closed E prog dest swig wallet (map m_key listed) w0 w' -> succeeds E cx w w'.
Proof.
  intros Wc C (A1 & A2 & A3) I M (Q1 & Q2 & a & Q3) swig wallet dest prog listed Sf Pw Ps Nw Tp Cl Wd Ln Wl.
  pose proof C as (O & Dd & W). fold swig in C, O, Dd, A2.
  assert (Fr : find_role (r_id r) s = Some r) by (apply find_role_mine; [exact W|exact I]).
  apply order_tclose in Q2 as (T & T1). laid T Q1 Q3. rewrite ?Nat.sub_0_r in Q3.
  pose proof (payload_there _ _ _ _ _ _ _ _ Q3) as L. pose proof (enc_config_length s W) as Lc.
  destruct (open_can E cx s (r_id r) r _ _ _ W Fr Q3) as [o Ho]. pose proof Ho as Ho'.
  opened W Fr Q3 Ho' r1 s0.
  change (s0 = shown r a s) in O1s. rewrite (shown_used _ _ _ _ _ _ _ W Fr Q3) in O1s.
  destruct (set_can_data (c_metas cx) w swig (o_bytes o) A2 O) as [w0 Hw0].
  pose proof (set_data_only _ _ _ _ _ Hw0) as (D0 & L0). rewrite O7, O1s in D0.
  exists w0. split; [exact (only_data_cfg w w0 _ s _ C D0 ltac:(rewrite <- O1s; exact W1))|].
  split; [eapply only_here_of; [exact D0|apply L0]|]. intros w' R.
  apply (dispatched E cx w s); try assumption; try lia.
  { change (~ In (tag (c_data cx)) [9; 11; 20]). rewrite T. cbn. lia. }
  unfold dispatch. replace (2 <=? length (c_data cx))%nat with true by lia. cbn [check bind].
  change (u16_at 0 (c_data cx)) with (tag (c_data cx)). rewrite T. cbn [Z.eqb Pos.eqb].
  unfold close_token_account_v1. cbv zeta. unfold need. replace (4 <=? length (c_metas cx))%nat with true by lia. cbn [check bind].
  change (mkey (c_metas cx) 0) with swig. change (mkey (c_metas cx) 1) with wallet. change (mkey (c_metas cx) 2) with dest. change (mkey (c_metas cx) 3) with prog.
  unfold owned_by. rewrite O, beq_refl. cbn [check bind]. replace (8 <=? length (c_data cx))%nat with true by lia. cbn [check bind].
  rewrite Dd. replace (HDR <=? length (enc_config s))%nat with true by (symmetry; apply Nat.leb_le; lia). cbn [guard bind].
  rewrite (load_config_can _ _ _ C). cbn [bind]. rewrite <- Pw, beq_refl. cbn [check bind]. rewrite Q1, Ho. cbn [bind].
  rewrite O8, may_close_enc by exact O2. cbn [bind]. apply can_close_holds in M. rewrite M. cbn [check bind]. rewrite O6.
  assert (Hcl : check_claimer (enc_claimer (s_claimer s0)) dest = Ok tt).
  { unfold check_claimer. assert (Sc : s_claimer s0 = s_claimer s) by (rewrite O1s; reflexivity). rewrite read_strict_enc by (intros k Hk; apply W1; exact Hk).
    cbn [bind]. rewrite Sc. destruct (s_claimer s) as [k|] eqn:Ck; [|reflexivity]. rewrite (Cl k eq_refl), beq_refl. reflexivity. }
  rewrite Hcl. cbn [bind]. rewrite token_program_is by exact Tp. cbn [check bind].
  change (nat_of (u16_at 2 (c_data cx))) with (Z.to_nat (u16_at 2 (c_data cx))). rewrite <- T1.
  assert (Lf : (Z.to_nat from < length (c_metas cx))%nat).
  { destruct (Nat.lt_ge_cases (Z.to_nat from) (length (c_metas cx))) as [B|B]; [exact B|]. exfalso. apply Ln. apply skipn_all2. exact B. }
  replace (Z.to_nat from <? length (c_metas cx))%nat with true by (symmetry; apply Nat.ltb_lt; exact Lf). cbn [check bind].
  rewrite Hw0. cbn [bind]. fold listed.
  apply close_all_can; try assumption.
  - apply pda_signs. unfold seeds_wallet. apply Sf. rewrite Pw. destruct (find_pda E (seeds_wallet0 swig)); reflexivity.
  - apply pda_signs. unfold enc_config. pose proof W as (_ & (V2 & _) & _ & _ & V5 & _).
    rewrite hf_id, hf_bump by assumption. exact Ps.
Qed.

(** ** Moving the tokens of the configuration account *)
Lemma transfer_triples_can E ms swig wallet sig : existsb (beq swig) sig = true ->
  forall ts w w', all_moved E ms swig wallet ts w w' -> transfer_triples E ms swig wallet sig ts w = Ok w'.
Proof.
  intros Hs ts w w' H. induction H as [w|a b c ts w w1 w2 n Wa Wb Tp (A1 & A2 & A3) (B1 & B2 & B3) Nz F R IH]; [reflexivity|].
  cbn [transfer_triples]. unfold transfer_one. rewrite token_program_is by exact Tp. cbn [negb].
  replace (length (a_data (w (m_key a))) <? 72)%nat with false by (symmetry; apply Nat.ltb_ge; exact A2).
  rewrite A3, beq_refl. cbn [negb].
  replace (length (a_data (w (m_key b))) <? 72)%nat with false by (symmetry; apply Nat.ltb_ge; exact B2).
  rewrite B3, beq_refl. cbn [negb]. change (u64_at 64 (a_data (w (m_key a)))) with n.
  replace (n =? 0) with false by (symmetry; apply Z.eqb_neq; exact Nz).
  unfold cpi, privileges_ok, token_transfer_ix. cbn [ix_metas forallb m_signer m_writable m_key negb orb andb].
  rewrite Wa, Wb, Hs, orb_true_r. cbn [orb andb check bind].
  change (mk_ix _ _ _) with (move_request (m_key c) (m_key a) (m_key b) swig n). rewrite F. cbn [bind]. exact IH.
Qed.

Theorem gather_tokens_asked E cx w s r : wf_ctx cx -> is_cfg (w (acct cx 0)) s -> usual_accounts 4 cx w s ->
  In r (s_roles s) -> manager r -> asks E cx r TransferAssets ->
  s_wbump s <> 0 -> pda E (seeds_wallet (acct cx 0) (s_wbump s)) = Some (acct cx 1) -> acct cx 1 <> acct cx 0 ->
  pda E (seeds_swig (s_id s) (s_bump s)) = Some (acct cx 0) ->
  writable (c_metas cx) (acct cx 1) = true -> 0 <= rent E (length (enc_config s)) ->
  let extra := Z.max 0 (a_lamports (w (acct cx 0)) - rent E (length (enc_config s))) in
  a_lamports (w (acct cx 1)) + extra < U64 ->
  exists w0, is_cfg (w0 (acct cx 0)) (used (r_id r) s)
    /\ a_lamports (w0 (acct cx 0)) = a_lamports (w (acct cx 0)) - extra /\ a_lamports (w0 (acct cx 1)) = a_lamports (w (acct cx 1)) + extra
    /\ (forall k, k <> acct cx 0 -> k <> acct cx 1 -> a_lamports (w0 k) = a_lamports (w k))
    /\ (forall k, k <> acct cx 0 -> kept_acct (w k) (w0 k))
    /\ forall w', all_moved E (c_metas cx) (acct cx 0) (acct cx 1) (skipn 4 (c_metas cx)) w0 w' -> succeeds E cx w w'.
Proof.
  intros Wc C (A1 & A2 & A3) I M (Q1 & Q2 & a & Q3) Wb Pw Ne Ps Ww R0 extra L1. pose proof C as (O & Dd & W).
  assert (Fr : find_role (r_id r) s = Some r) by (apply find_role_mine; [exact W|exact I]).
  apply order_transfer in Q2 as T. laid T Q1 Q3. rewrite ?Nat.sub_0_r in Q3.
  pose proof (payload_there _ _ _ _ _ _ _ _ Q3) as L.
  destruct (open_can E cx s (r_id r) r _ _ _ W Fr Q3) as [o Ho]. pose proof Ho as Ho'.
  opened W Fr Q3 Ho' r1 s0.
  change (s0 = shown r a s) in O1s. rewrite (shown_used _ _ _ _ _ _ _ W Fr Q3) in O1s.
  destruct (set_can_data (c_metas cx) w (acct cx 0) (o_bytes o) A2 O) as [w1 Hw1].
  pose proof (set_data_only _ _ _ _ _ Hw1) as (D0 & _ & S6). rewrite O7, O1s in D0.
  pose proof (only_data_cfg w w1 _ s _ C D0 ltac:(rewrite <- O1s; exact W1)) as (G1 & G2 & G3). pose proof D0 as (_ & S2 & D1).
  assert (Ex : sat_sub (a_lamports (w1 (acct cx 0))) (rent E (length (enc_config s))) = extra) by (unfold sat_sub, extra; rewrite S6; reflexivity).
  assert (Hm : can (move_lamports (c_metas cx) w1 (acct cx 0) (acct cx 1) extra)).
  { unfold move_lamports. destruct (extra =? 0) eqn:Q; [apply can_ok|]. replace (beq (acct cx 0) (acct cx 1)) with false by (symmetry; apply beq_neq; auto).
    apply can_check; [rewrite A2, Ww; reflexivity|]. apply can_check; [rewrite G1; apply beq_refl|]. rewrite !S6.
    apply can_check; [unfold extra in *; lia|]. apply can_check; [lia|]. apply can_ok. }
  destruct Hm as [w0 Hm]. pose proof Hm as Hm'. apply move_lamports_moved in Hm' as [(D3 & _ & D4) _].
  destruct (D4 ltac:(auto)) as (E1 & E2 & E3). rewrite S6 in E1, E2. destruct (D3 (acct cx 0)) as [H1 H2].
  exists w0. split; [split; [congruence|split; [congruence|exact G3]]|]. split; [exact E1|]. split; [exact E2|].
  split; [intros k B1 B2; rewrite E3 by assumption; apply S6|].
  split; [intros k B; destruct (D1 k B), (D3 k); split; congruence|]. intros w' R.
  apply (dispatched E cx w s); try assumption; try lia.
  { change (~ In (tag (c_data cx)) [9; 11; 20]). rewrite T. cbn. lia. }
  unfold dispatch. replace (2 <=? length (c_data cx))%nat with true by lia. cbn [check bind].
  change (u16_at 0 (c_data cx)) with (tag (c_data cx)). rewrite T. cbn [Z.eqb Pos.eqb].
  unfold transfer_assets_v1. cbv zeta. unfold need. replace (4 <=? length (c_metas cx))%nat with true by lia. cbn [check bind].
  change (mkey (c_metas cx)) with (acct cx).
  unfold owned_by. rewrite O, beq_refl. cbn [check bind]. replace (8 <=? length (c_data cx))%nat with true by lia. cbn [check bind].
  rewrite (load_config_can _ _ _ C). cbn [bind]. rewrite split_parts_enc by exact W. cbn [bind]. rewrite hdr_wbump by exact W.
  replace (s_wbump s =? 0) with false by (symmetry; apply Z.eqb_neq; exact Wb). cbn [negb check bind].
  rewrite (pda_checked _ _ _ _ Pw). cbn [bind]. rewrite Q1, Ho. cbn [bind].
  rewrite O8, manages_enc by exact O2. cbn [bind]. apply can_manage_holds in M. rewrite M. cbn [check bind].
  rewrite Hw1. cbn [bind]. rewrite Ex, Hm. cbn [bind].
  apply transfer_triples_can; [|exact R]. apply pda_signs. pose proof W as (_ & (V2 & _) & _ & _ & V5 & _).
  rewrite <- (app_nil_r (enc_header s)). rewrite hf_id, hf_bump by assumption. exact Ps.
Qed.

(** ** Tokens of sub-accounts *)
Theorem withdraw1_tokens E cx w s r x : wf_ctx cx -> is_cfg (w (acct cx 0)) s -> usual_accounts 9 cx w s ->
  In r (s_roles s) -> may_empty E s r (acct cx 2) -> asks E cx r (WithdrawSub x) ->
  acct cx 4 = fst (find_pda E (seeds_wallet0 (acct cx 0))) -> a_owner (w (acct cx 2)) = SYSTEM -> a_owner (w (acct cx 4)) = SYSTEM ->
  let prog := a_owner (w (acct cx 6)) in
  token_program prog -> token_of prog (acct cx 4) (w (acct cx 7)) -> writable (c_metas cx) (acct cx 6) = true -> writable (c_metas cx) (acct cx 7) = true ->
  exists w0, is_cfg (w0 (acct cx 0)) (used (r_id r) s) /\ only_here (acct cx 0) w w0
    /\ forall w', foreign E w0 (move_request prog (acct cx 6) (acct cx 7) (acct cx 2) x) = Ok w' -> succeeds E cx w w'.
Proof.
  intros Wc C (A1 & A2 & A3) I M (Q1 & Q2 & a & Q3) Pw So Wo prog Tp (T7 & T8 & T9) W6 W7. pose proof C as (O & Dd & W).
  assert (Fr : find_role (r_id r) s = Some r) by (apply find_role_mine; [exact W|exact I]).
  apply order_withdraw1 in Q2 as (T & T1). laid T Q1 Q3. rewrite ?Nat.sub_0_r in Q3.
  pose proof (payload_there _ _ _ _ _ _ _ _ Q3) as L.
  assert (K : wf_key (acct cx 2)) by (apply nth_wf; [apply Wc|lia]).
  assert (N6 : acct cx 6 <> acct cx 0).
  { intros Q. unfold prog in Tp. rewrite Q, O in Tp. destruct Tp as [Tp|Tp]; discriminate Tp. }
  assert (N7 : acct cx 7 <> acct cx 0).
  { intros Q. rewrite Q, O in T7. rewrite <- T7 in Tp. destruct Tp as [Tp|Tp]; discriminate Tp. }
  destruct (open_can E cx s (r_id r) r _ _ _ W Fr Q3) as [o Ho]. pose proof Ho as Ho'.
  opened W Fr Q3 Ho' r1 s0.
  change (s0 = shown r a s) in O1s. rewrite (shown_used _ _ _ _ _ _ _ W Fr Q3) in O1s.
  destruct (set_can_data (c_metas cx) w (acct cx 0) (o_bytes o) A2 O) as [w0 Hw0].
  pose proof (set_data_only _ _ _ _ _ Hw0) as (D0 & L0). rewrite O7, O1s in D0.
  exists w0. split; [exact (only_data_cfg w w0 _ s _ C D0 ltac:(rewrite <- O1s; exact W1))|].
  split; [eapply only_here_of; [exact D0|apply L0]|]. intros w' R.
  apply (dispatched E cx w s); try assumption; try lia.
  { change (~ In (tag (c_data cx)) [9; 11; 20]). rewrite T. cbn. lia. }
  unfold dispatch. replace (2 <=? length (c_data cx))%nat with true by lia. cbn [check bind].
  change (u16_at 0 (c_data cx)) with (tag (c_data cx)). rewrite T. cbn [Z.eqb Pos.eqb].
  unfold withdraw_v1. cbv zeta. unfold need. replace (6 <=? length (c_metas cx))%nat with true by lia. cbn [check bind].
  change (mkey (c_metas cx)) with (acct cx).
  unfold owned_by. rewrite O, So, Wo, !beq_refl. cbn [check bind]. replace (16 <=? length (c_data cx))%nat with true by lia. cbn [check bind].
  rewrite (load_config_can _ _ _ C). cbn [bind]. rewrite <- Pw, beq_refl. cbn [check bind]. rewrite Q1, Ho. cbn [bind].
  assert (Hid : h_id (o_hdr o) = s_id s) by (rewrite O4, hdr_id by exact W1; rewrite O1s; reflexivity). rewrite Hid.
  rewrite O8, !has_action_enc by exact O2. cbn [bind]. rewrite <- T1, Hw0.
  assert (Rest : forall c b, pda E (seeds_sub (s_id s) c b) = Some (acct cx 2) -> (
     let* w1 := Ok w0 in
     if (7 <=? length (c_metas cx))%nat then
       guard (8 <=? length (c_metas cx))%nat ;;
       guard (64 <=? length (a_data (w1 (acct cx 7))))%nat ;;
       check (beq (acct cx 4) (sub 32 32 (a_data (w1 (acct cx 7))))) SInvalidSwigTokenAccountOwner ;;
       guard (9 <=? length (c_metas cx))%nat ;;
       check (is_token_program (a_owner (w1 (acct cx 6)))) SOwnerMismatchTokenAccount ;;
       check (beq (a_owner (w1 (acct cx 7))) (a_owner (w1 (acct cx 6)))) SInvalidOperation ;;
       cpi E (c_metas cx) (pda_list E (seeds_sub (s_id s) c b)) w1 (token_transfer_ix (a_owner (w1 (acct cx 6))) (acct cx 6) (acct cx 7) (acct cx 2) x)
     else
       check (x <=? a_lamports (w1 (acct cx 2))) AInsufficientBalance ;;
       sys_transfer (c_metas cx) (pda_list E (seeds_sub (s_id s) c b)) w1 (acct cx 2) (acct cx 4) x) = Ok w').
  { intros c b P. cbn [bind]. destruct D0 as (_ & _ & D0). destruct (D0 (acct cx 6) N6) as [S4 S5]. destruct (D0 (acct cx 7) N7) as [S7 S8].
    replace (7 <=? length (c_metas cx))%nat with true by lia. replace (8 <=? length (c_metas cx))%nat with true by lia.
    replace (9 <=? length (c_metas cx))%nat with true by lia. cbn [guard bind]. rewrite S7, S8, S5.
    replace (64 <=? length (a_data (w (acct cx 7))))%nat with true by (symmetry; apply Nat.leb_le; lia). cbn [guard bind].
    rewrite T9, beq_refl. cbn [check bind]. fold prog. rewrite token_program_is by exact Tp. cbn [check bind]. rewrite T7, beq_refl. cbn [check bind].
    unfold cpi, privileges_ok, token_transfer_ix. cbn [ix_metas forallb m_signer m_writable m_key negb orb andb].
    rewrite W6, W7, (pda_signs _ _ _ P), orb_true_r. cbn [orb andb check bind]. exact R. }
  destruct M as [(l1 & d & l2 & b & M & (U1 & U2 & U3 & U4) & P)|(M1 & M2 & M3 & Sd' & c & Mc & Mf)].
  - destruct (perm_got r (acct cx 2) l1 d l2 O2 ltac:(apply K) M) as (off & G1 & G2). rewrite G1. cbn [bind is_some].
    rewrite orb_true_r. cbn [check bind]. rewrite G2.
    change (sa_swig_id d) with (sub 40 32 d). change (sa_role d) with (le (sub 36 4 d)). change (sa_enabled d) with (nth 33 d 0). change (sa_bump d) with (nth 32 d 0).
    rewrite U4, U3, U2, beq_refl, Z.eqb_refl. cbn [check bind]. replace (nth 33 d 0 =? 0) with false by (symmetry; apply Z.eqb_neq; exact U1). cbn [negb check bind].
    apply (Rest (r_id r) b). exact P.
  - destruct (get_action_role P_SubAccount (acct cx 2) r SA_LEN O2 eq_refl) as (oo & G1 & G2).
    pose proof (perm_absent r (acct cx 2) ltac:(apply K) M1) as Fn. destruct oo as [off|]; [destruct G2 as (d & G2 & _); congruence|].
    rewrite G1. cbn [bind].
    assert (H7 : has P_All [] r = true) by (apply has_holds; [intros q0 d0; reflexivity|exact M2]).
    assert (H8 : has P_ManageAuthority [] r = false).
    { destruct (has P_ManageAuthority [] r) eqn:Q; [|reflexivity]. apply has_holds in Q; [contradiction|intros q0 d0; reflexivity]. }
    rewrite H7, H8. cbn [orb check bind].
    destruct (find_creator_found E (s_id s) (acct cx 2) (snd (find_pda E (seeds_sub0 (s_id s) c))) c 11 0) as (c' & b' & Y1 & _ & Y2).
    { change (Z.of_nat 11) with 11. lia. }
    { destruct (find_pda E (seeds_sub0 (s_id s) c)); cbn in *; congruence. }
    rewrite Y1. cbn [ok_or bind]. apply (Rest c' b'). apply Sd'. exact Y2.
Qed.

Theorem withdraw2_tokens E cx w s r n x : wf_ctx cx -> is_cfg (w (acct cx 0)) s -> usual_accounts 10 cx w s -> length (c_metas cx) = 10%nat -> second_version s ->
  In r (s_roles s) -> holds_for 25 n r \/ holds_for 23 n r -> asks E cx r (WithdrawSub2 n x) ->
  sub_record E w s (acct cx 2) (acct cx 3) n 1 -> pda E (seeds_wallet (acct cx 0) (s_wbump s)) = Some (acct cx 4) ->
  a_owner (w (acct cx 3)) = SYSTEM -> a_owner (w (acct cx 4)) = SYSTEM ->
  let prog := acct cx 9 in let src := w (acct cx 7) in let dst := w (acct cx 8) in
  token_program prog -> token_of prog (acct cx 3) src -> token_of prog (acct cx 4) dst ->
  (165 <= length (a_data src))%nat -> (165 <= length (a_data dst))%nat -> nth 108 (a_data src) 0 = 1 -> nth 108 (a_data dst) 0 = 1 ->
  sub 0 32 (a_data src) = sub 0 32 (a_data dst) -> writable (c_metas cx) (acct cx 7) = true -> writable (c_metas cx) (acct cx 8) = true ->
  exists w0, is_cfg (w0 (acct cx 0)) (used (r_id r) s) /\ only_here (acct cx 0) w w0
    /\ forall w', foreign E w0 (move_request prog (acct cx 7) (acct cx 8) (acct cx 3) x) = Ok w' -> succeeds E cx w w'.
Proof.
  intros Wc C (A1 & A2 & A3) A10 V I M (Q1 & Q2 & a & Q3) R Pw So Wo prog src dst Tp (B1 & B2 & B3) (B4 & B5 & B6) L7 L8 I7 I8 Mt W7 W8. pose proof C as (O & Dd & W).
  assert (Fr : find_role (r_id r) s = Some r) by (apply find_role_mine; [exact W|exact I]).
  apply order_withdraw2 in Q2 as (T & T1 & T2). laid T Q1 Q3. rewrite ?Nat.sub_0_r in Q3.
  pose proof (payload_there _ _ _ _ _ _ _ _ Q3) as L.
  assert (Un : is_u32 n) by (rewrite T1; apply u32_bound, Wc).
  assert (K : wf_key (acct cx 3)) by (apply nth_wf; [apply Wc|lia]).
  destruct (record_read _ _ _ _ _ _ _ W Un K R ltac:(auto)) as (R1 & R2 & R3 & R4 & R5 & R6). pose proof R as (b & ab & Ro & Rd & _).
  assert (Ne : acct cx 2 <> acct cx 0) by (intros Q; rewrite Q, Dd in Rd; discriminate Rd).
  assert (Np : prog <> SELF) by (intros Q; rewrite Q in Tp; destruct Tp as [Tp|Tp]; discriminate Tp).
  assert (N7 : acct cx 7 <> acct cx 0) by (intros Q; unfold src in B1; rewrite Q, O in B1; auto).
  assert (N8 : acct cx 8 <> acct cx 0) by (intros Q; unfold dst in B4; rewrite Q, O in B4; auto).
  destruct (open_can E cx s (r_id r) r _ _ _ W Fr Q3) as [o Ho]. pose proof Ho as Ho'.
  opened W Fr Q3 Ho' r1 s0.
  change (s0 = shown r a s) in O1s. rewrite (shown_used _ _ _ _ _ _ _ W Fr Q3) in O1s.
  destruct (set_can_data (c_metas cx) w (acct cx 0) (o_bytes o) A2 O) as [w0 Hw0].
  pose proof (set_data_only _ _ _ _ _ Hw0) as (D0 & L0). rewrite O7, O1s in D0.
  exists w0. split; [exact (only_data_cfg w w0 _ s _ C D0 ltac:(rewrite <- O1s; exact W1))|].
  split; [eapply only_here_of; [exact D0|apply L0]|]. intros w' F.
  apply (dispatched E cx w s); try assumption; try lia.
  { change (~ In (tag (c_data cx)) [9; 11; 20]). rewrite T. cbn. lia. }
  unfold dispatch. replace (2 <=? length (c_data cx))%nat with true by lia. cbn [check bind].
  change (u16_at 0 (c_data cx)) with (tag (c_data cx)). rewrite T. cbn [Z.eqb Pos.eqb].
  unfold withdraw_v2. cbv zeta. unfold need. replace (7 <=? length (c_metas cx))%nat with true by lia. cbn [check bind].
  change (mkey (c_metas cx)) with (acct cx).
  unfold owned_by. rewrite O, So, Wo, !beq_refl. cbn [check bind]. replace (24 <=? length (c_data cx))%nat with true by lia. cbn [check bind].
  rewrite (load_config_can _ _ _ C). cbn [bind]. rewrite require_v2_can by assumption. cbn [bind].
  rewrite split_parts_enc by exact W. cbn [bind]. rewrite hdr_wbump by exact W. rewrite Pw. cbn [ok_or bind]. rewrite beq_refl. cbn [check bind].
  rewrite Q1, Ho. cbn [bind].
  rewrite O8, <- T1, <- T2, authorize_can; [|cbn; auto|exact Un|exact O2|exact M]. cbn [bind]. rewrite Hw0. cbn [bind].
  assert (Hid : h_id (o_hdr o) = s_id s) by (rewrite O4, hdr_id by exact W1; rewrite O1s; reflexivity). rewrite Hid.
  destruct D0 as (_ & _ & D0). destruct (D0 (acct cx 2) Ne) as [S4 S5]. destruct (D0 (acct cx 7) N7) as [S7 S7']. destruct (D0 (acct cx 8) N8) as [S8 S8'].
  unfold validate_v2_state, owned_by. rewrite S5, Ro. unfold check_v2_record in *. rewrite S4, R1, beq_refl. cbn [check bind].
  rewrite R4. cbn [Z.eqb Pos.eqb check bind]. rewrite (pda_checked _ _ _ _ R2), R5, beq_refl. cbn [check bind].
  rewrite A10. cbn [Nat.eqb]. rewrite S7, S7', S8, S8'. fold src dst prog. rewrite B1, B4, !beq_refl, token_program_is by exact Tp. cbn [check bind].
  replace (165 <=? length (a_data src))%nat with true by (symmetry; apply Nat.leb_le; exact L7).
  replace (165 <=? length (a_data dst))%nat with true by (symmetry; apply Nat.leb_le; exact L8). cbn [andb check bind].
  change (byte_at 108 ?d) with (nth 108 d 0). rewrite I7, I8. cbn [Z.eqb Pos.eqb andb check bind]. rewrite Mt, beq_refl. cbn [check bind].
  rewrite B3, B6, !beq_refl. cbn [check bind].
  unfold cpi, privileges_ok, token_transfer_ix. cbn [ix_metas forallb m_signer m_writable m_key negb orb andb].
  rewrite W7, W8, (pda_signs _ _ _ R3), orb_true_r. cbn [orb andb check bind]. exact F.
Qed.

(** ** Moving a wallet to a wallet account *)
Lemma low_byte o d : u64_at o d = 0 -> all_bytes d -> byte_at o d = 0.
Proof.
  intros H B. unfold u64_at, sub in H. unfold byte_at. destruct (Nat.lt_ge_cases o (length d)) as [L|L]; [|apply nth_overflow; exact L].
  pose proof (firstn_skipn o d) as X. assert (Ls : (0 < length (skipn o d))%nat) by (rewrite skipn_length; lia).
  destruct (skipn o d) as [|b t] eqn:Q; [cbn in Ls; lia|]. rewrite <- X in B. apply all_bytes_app in B as [_ B].
  inversion B as [|? ? Hb Ht]; subst. cbn [firstn le] in H.
  assert (0 <= le (firstn 7 t)) by (apply le_bound; exact (all_bytes_sub 0 7 t Ht)).
  rewrite <- X at 1. rewrite app_nth2 by (rewrite firstn_length; lia). rewrite firstn_length, Nat.min_l, Nat.sub_diag by lia. cbn [nth]. unfold is_byte in Hb. lia.
Qed.
Lemma enc_config_bytes s : wf_config s -> all_bytes (enc_config s).
Proof.
  intros W. pose proof (enc_claimer_bytes s W) as Cl. destruct W as (W1 & (W2 & W2') & W3 & W4 & W5 & W6 & W7 & W8 & _).
  unfold enc_config, enc_header. rewrite !all_bytes_app.
  assert (H1 : all_bytes [1; s_bump s]) by (constructor; [unfold is_byte; lia|constructor; [exact W1|constructor]]).
  assert (H2 : all_bytes [s_wbump s]) by (constructor; [exact W4|constructor]).
  auto 20 using le_enc_bytes, enc_roles_bytes.
Qed.
Theorem migrate_asked E cx w s r : wf_ctx cx -> is_cfg (w (acct cx 0)) s -> usual_accounts 5 cx w s ->
  In r (s_roles s) -> manager r -> tag (c_data cx) = 12 -> actor_of (c_data cx) = r_id r -> (exists a, passes E cx r a) ->
  let swig := acct cx 0 in let payer := acct cx 2 in let wallet := acct cx 3 in let b := nth 2 (c_data cx) 0 in
  pda E (seeds_wallet swig b) = Some wallet -> plain_acct (w wallet) -> payer <> wallet ->
  writable (c_metas cx) wallet = true -> signer (c_metas cx) payer = true -> writable (c_metas cx) payer = true ->
  0 <= a_lamports (w wallet) -> rent E 0 < U64 -> can_pay w payer (lack E w wallet 0) ->
  exists w', succeeds E cx w w' /\ is_cfg (w' swig) (migrated (used (r_id r) s) b)
    /\ a_lamports (w' payer) = a_lamports (w payer) - lack E w wallet 0 /\ a_lamports (w' wallet) = a_lamports (w wallet) + lack E w wallet 0
    /\ forall k, k <> swig -> kept_acct (w k) (w' k).
Proof.
  intros Wc C (A1 & A2 & A3) I M T Q1 (a & Q3) swig payer wallet b Pw (So & Sd) N1 Ws Sp Wp Lp Rn (Py1 & Py2 & Py3).
  pose proof C as (O & Dd & W). fold swig in C, O, Dd, A2.
  assert (Fr : find_role (r_id r) s = Some r) by (apply find_role_mine; [exact W|exact I]).
  laid T Q1 Q3. rewrite ?Nat.sub_0_r in Q3.
  pose proof (payload_there _ _ _ _ _ _ _ _ Q3) as L. pose proof (enc_config_length s W) as Lc.
  assert (Ne : swig <> wallet) by (intros Q; rewrite <- Q, O in So; discriminate So).
  assert (Np : payer <> swig) by (intros Q; rewrite Q, O in Py1; discriminate Py1).
  assert (Hn : ends (fun w' => a_lamports (w' payer) = a_lamports (w payer) - lack E w wallet 0 /\ a_lamports (w' wallet) = a_lamports (w wallet) + lack E w wallet 0) (migrate_v1 E cx w)).
  { unfold migrate_v1. cbv zeta. unfold need. apply ends_check; [lia|]. change (mkey (c_metas cx) 0) with swig.
    change (mkey (c_metas cx) 2) with payer. change (mkey (c_metas cx) 3) with wallet. change (byte_at 2 (c_data cx)) with b.
    apply ends_check; [lia|]. rewrite Dd. apply ends_check; [apply Nat.leb_le; lia|].
    pose proof W as (_ & (V2 & _) & _ & _ & V5 & _).
    apply ends_check; [unfold enc_config; rewrite hf_disc by assumption; reflexivity|].
    apply ends_check.
    { destruct (u64_at 40 (enc_config s) =? 0) eqn:Z0; [|reflexivity]. apply Z.eqb_eq in Z0.
      assert (B0 : byte_at 40 (enc_config s) = 0); [|rewrite B0; reflexivity].
      apply low_byte; [exact Z0|apply enc_config_bytes; exact W]. }
    rewrite Q1. apply ends_then; [eapply open_can; [exact W|exact Fr|exact Q3]|].
    intros o Ho. opened W Fr Q3 Ho r1 s0.
    change (s0 = shown r a s) in O1s. rewrite (shown_used _ _ _ _ _ _ _ W Fr Q3) in O1s.
    rewrite O8, manages_enc by exact O2. cbn [bind]. apply ends_check; [apply can_manage_holds; exact M|].
    unfold owned_by, no_data. apply ends_check; [rewrite So; apply beq_refl|]. apply ends_check; [rewrite Sd; reflexivity|].
    rewrite (pda_checked _ _ _ _ Pw). cbn [bind].
    apply ends_then; [apply set_can_data; assumption|]. intros w1 Hw1. apply set_data_only in Hw1 as ((_ & _ & S3) & _ & S6).
    destruct (S3 payer Np) as [S4 S5].
    assert (Lk : lack E w1 wallet 0 = lack E w wallet 0) by (unfold lack; rewrite S6; reflexivity).
    apply ends_can.
    - apply lack_pays; try assumption; [rewrite S6; exact Lp|]. rewrite Lk. split; [congruence|]. split; [congruence|]. rewrite S6. exact Py3.
    - intros w2 Hw2. apply topup_does in Hw2 as (_ & B1 & B2 & _); [|exact N1]. rewrite B1, B2, Lk, !S6. auto. }
  destruct Hn as (w' & Hn & B1 & B2). exists w'. split.
  - apply (dispatched E cx w s); try assumption; try lia.
    + change (~ In (tag (c_data cx)) [9; 11; 20]). rewrite T. cbn. lia.
    + unfold dispatch. replace (2 <=? length (c_data cx))%nat with true by lia. cbn [check bind].
      change (u16_at 0 (c_data cx)) with (tag (c_data cx)). rewrite T. exact Hn.
  - destruct (migrate_spec _ _ _ _ _ Wc Hn Dd W) as (r1 & s1 & (_ & X1 & a1 & X2 & X3) & _ & _ & _ & _ & _ & D1 & W').
    rewrite Q1 in *. rewrite Fr in X1. injection X1 as <-. change (s1 = shown r a1 s) in X3.
    rewrite (shown_used _ _ _ _ _ _ _ W Fr X2) in X3. subst s1. change (mkey (c_metas cx)) with (acct cx) in *. fold swig in D1, W'.
    change (byte_at 2 (c_data cx)) with b in D1, W'.
    split; [exact (only_data_cfg w w' _ s _ C D1 W')|]. split; [exact B1|]. split; [exact B2|].
    intros k Hk. destruct D1 as (_ & _ & D1). exact (D1 k Hk).
Qed.
