(** * Creating and closing wallets, sub-accounts, migration.

    Vocabulary: [paid], [only_counter], [tells_transfer], [tells_close], [made],
    [owns_sub], [state_record], [enabled_sub], [grants] (SpecLife); [acts],
    [holds], [holds_for], [manager], [others_kept] (SpecActs); [reach], [path],
    [is_closed] (SpecHistory).  [tag] is the instruction number, [acct cx i] the
    account at position [i] of the call; [pda E seeds] is the address of the
    wallet program for the seeds, if it exists, and [find_pda] the canonical one. *)
From Verif Require Import SpecConfig SpecSteps ConfigProps LifeProps SignRules DemoLife.

(** ** C41: the rent claimer *)
Theorem C41_claimer_set : forall E cx w w' s, hashes_ok E -> wf_ctx cx -> is_cfg (w (acct cx 0)) s -> succeeds E cx w w' ->
  tag (c_data cx) = 17 -> let k := acct cx 0 in let c := sub 8 32 (c_data cx) in
  exists r, acts E cx s r /\ (holds 7 r \/ holds 20 r) /\ s_claimer s = None
    /\ c <> zeros 32 /\ c <> k /\ pda E (seeds_wallet k (s_wbump s)) <> Some c
    /\ is_cfg (w' k) (set_claimer (used (actor_of (c_data cx)) s) c) /\ others_kept w w' k.
Proof. exact claimer_ok. Qed.
Print Assumptions C41_claimer_set.
Theorem C41_claimer_stays : forall E w w' k s c, foreign_ok E -> good_world E w -> reach E w w' ->
  is_cfg (w k) s -> s_claimer s = Some c ->
  is_closed (w' k) \/ exists s', is_cfg (w' k) s' /\ s_claimer s' = Some c.
Proof. exact claimer_stays. Qed.
Print Assumptions C41_claimer_stays.
Theorem C41_claimer_binds : forall E cx w w' s c, is_cfg (w (acct cx 0)) s -> In (tag (c_data cx)) [14; 15] ->
  succeeds E cx w w' -> s_claimer s = Some c -> acct cx 2 = c.
Proof. exact claimer_binds. Qed.
Print Assumptions C41_claimer_binds.

Example C41_case : let w := den [] in let cx := c_claim2 (K 40) in let w1 := den [Call cx] in
  hashes_ok toy /\ wf_ctx cx /\ is_cfg (w (acct cx 0)) (s_den 0 lm None) /\ tag (c_data cx) = 17
  /\ okb (process toy cx w) = true /\ foreign_ok toy /\ good_world toy w1
  /\ is_cfg (w1 SWIG2) (s_den 0 lm (Some (K 40)))
  /\ okb (process toy (c_claim2 (K 41)) w1) = false
  /\ okb (process toy (c_close2 (K 41)) w1) = false /\ okb (process toy (c_close2 (K 40)) w1) = true.
Proof. cbv zeta. life; calc. Qed.

(** ** C42: closing.  The configuration account keeps the rent of the one byte
    that marks it closed, everything else goes to the destination; afterwards
    nothing can be done with that account any more. *)
Theorem C42_close : forall E cx w w' s, hashes_ok E -> wf_ctx cx -> is_cfg (w (acct cx 0)) s -> succeeds E cx w w' ->
  tag (c_data cx) = 15 ->
  exists r, acts E cx s r /\ (holds 7 r \/ holds 8 r \/ holds 20 r)
    /\ acct cx 1 = fst (find_pda E (seeds_wallet0 (acct cx 0)))
    /\ a_lamports (w (acct cx 0)) <= rent E (length (a_data (w (acct cx 0)))) /\ a_lamports (w (acct cx 1)) <= rent E 0
    /\ is_closed (w' (acct cx 0)) /\ others_kept w w' (acct cx 0)
    /\ (0 <= rent E 1 -> 0 <= a_lamports (w (acct cx 1)) -> acct cx 2 <> acct cx 0 -> acct cx 2 <> acct cx 1 ->
          a_lamports (w' (acct cx 2)) = a_lamports (w (acct cx 2)) + a_lamports (w (acct cx 1)) + (a_lamports (w (acct cx 0)) - rent E 1)
          /\ a_lamports (w' (acct cx 1)) = 0 /\ a_lamports (w' (acct cx 0)) = rent E 1
          /\ forall k, k <> acct cx 0 -> k <> acct cx 1 -> k <> acct cx 2 -> a_lamports (w' k) = a_lamports (w k)).
Proof. exact close_ok. Qed.
Print Assumptions C42_close.
Theorem C42_closed_for_good : forall E w w' k, foreign_ok E -> good_world E w -> reach E w w' -> is_closed (w k) ->
  is_closed (w' k) /\ forall cx w2, acct cx 0 = k -> ~ succeeds E cx w' w2.
Proof. exact closed_final. Qed.
Print Assumptions C42_closed_for_good.

Example C42_case : let w := den [] in let cx := c_close2 (K 40) in let w' := den [Call cx] in
  hashes_ok toy /\ wf_ctx cx /\ is_cfg (w (acct cx 0)) (s_den 0 lm None) /\ okb (process toy cx w) = true
  /\ tag (c_data cx) = 15 /\ (0 <=? rent toy 1) = true /\ (0 <=? a_lamports (w (acct cx 1))) = true
  /\ acct cx 2 <> acct cx 0 /\ acct cx 2 <> acct cx 1
  /\ foreign_ok toy /\ good_world toy w' /\ a_owner (w' SWIG2) = SELF /\ a_data (w' SWIG2) = [255]
  /\ okb (process toy (c_create2 [p_all]) w') = false /\ okb (process toy cx w') = false.
Proof. cbv zeta. life; calc. Qed.

(** ** C55: closing pays out the assets of the wallet - refuted.  A wallet whose
    address does not have the canonical bump can be closed by naming the
    canonical address instead; what its real address holds is lost (C42). *)
Theorem C55_stranded_refuted : exists w cx w' s wallet, good_world toy w /\ reach toy genesis w
  /\ admissible toy w (Call cx) /\ is_cfg (w (acct cx 0)) s /\ tag (c_data cx) = 15 /\ succeeds toy cx w w'
  /\ pda toy (seeds_wallet (acct cx 0) (s_wbump s)) = Some wallet
  /\ is_closed (w' (acct cx 0)) /\ a_lamports (w' wallet) = 100890880.
Proof.
  exists home, c_close_home, (run toy home [Call c_close_home]), s_home, WALLET.
  later; lazymatch goal with |- is_closed _ => split; calc | |- _ => calc end.
Qed.
Print Assumptions C55_stranded_refuted.

(** ** C43: creation *)
Theorem C43_create : forall E cx w w', wf_ctx cx -> succeeds E cx w w' -> auth_layout (c_data cx) = None ->
  let data := c_data cx in let k := acct cx 0 in let wallet := acct cx 2 in
  let id := sub 8 32 data in let bump := byte_at 6 data in let wbump := byte_at 7 data in
  exists nr, is_cfg (w' k) (mk_config bump id 1 wbump (zeros 3) 0 [nr] None)
    /\ r_id nr = 0 /\ r_aty nr = u16_at 2 data /\ r_pad nr = zeros 2
    /\ r_auth nr = new_credential (r_aty nr) (sub 40 (nat_of (u16_at 4 data)) data)
    /\ parses (skipn (40 + nat_of (u16_at 4 data)) data) (r_acts nr)
    /\ pda E (seeds_swig id bump) = Some k /\ pda E (seeds_wallet k wbump) = Some wallet
    /\ a_owner (w k) = SYSTEM /\ a_data (w k) = [] /\ a_lamports (w k) = 0 /\ others_kept w w' k.
Proof. exact create_cfg. Qed.
Print Assumptions C43_create.
(** an instruction that names no acting role is an unknown one and does the same,
    except number 4, which fails *)
Theorem C43_unknown : forall E cx w, (2 <= length (c_data cx))%nat -> auth_layout (c_data cx) = None ->
  tag (c_data cx) <> 4 -> process E cx w = process E (renumber cx 0) w.
Proof. exact unknown_creates. Qed.
Print Assumptions C43_unknown.
(** the first role is a manager, if the permissions are encoded as clients do *)
Theorem C43_manager : forall E cx w w' s, wf_ctx cx -> succeeds E cx w w' -> auth_layout (c_data cx) = None ->
  is_cfg (w' (acct cx 0)) s ->
  exists r, s_roles s = [r]
    /\ (skipn (40 + nat_of (u16_at 4 (c_data cx))) (c_data cx) = enc_actions 0 (r_acts r) -> manager r).
Proof. exact create_manager. Qed.
Print Assumptions C43_manager.
(** ... but not in general: the check follows the boundary fields of the data *)
Theorem C43_manager_refuted : exists cx w w' s r, wf_ctx cx /\ admissible toy w (Call cx) /\ succeeds toy cx w w'
  /\ tag (c_data cx) = 0 /\ is_cfg (w' (acct cx 0)) s /\ s_roles s = [r] /\ ~ manager r.
Proof.
  exists c_fake, genesis, (result genesis (process toy c_fake genesis)), s_fake, r_fake. split; [demo|]. split.
  { apply eventb_ok; [apply fresh_roomy; exact genesis_fresh|calc]. }
  demo; try calc. intros [M|M]; revert M; apply holdsb_no; calc.
Qed.
Print Assumptions C43_manager_refuted.

Example C43_case : let w := genesis in let cx := c_create2 [p_all] in
  wf_ctx cx /\ okb (process toy cx w) = true /\ auth_layout (c_data cx) = None
  /\ auth_layout (c_data (renumber cx 77)) = None /\ okb (process toy (renumber cx 77) w) = true
  /\ okb (process toy cx (den [])) = false
  /\ skipn (40 + nat_of (u16_at 4 (c_data cx))) (c_data cx) = enc_actions 0 [p_all].
Proof. cbv zeta. life; calc. Qed.

(** ** C44: V2 sub-accounts *)
Theorem C44_creation : forall E cx w w' s, hashes_ok E -> wf_ctx cx -> is_cfg (w (acct cx 0)) s -> succeeds E cx w w' ->
  tag (c_data cx) = 18 -> let k := acct cx 0 in let n := s_subctr s in let st := acct cx 2 in let sa := acct cx 3 in
  exists r r' s' bump abump, acts E cx s r /\ holds 22 r
    /\ a_owner (w st) = SYSTEM /\ a_data (w st) = []
    /\ a_owner (w' st) = SELF /\ a_data (w' st) = state_record bump abump 1 n (s_id s) sa
    /\ pda E (seeds_v2_state (s_id s) n bump) = Some st /\ pda E (seeds_v2_asset (s_id s) n abump) = Some sa
    /\ is_cfg (w' k) s' /\ s_subctr s' = n + 1 /\ s_id s' = s_id s
    /\ find_role (r_id r) s' = Some r' /\ grants n r' = 1%nat
    /\ (forall k', k' <> k -> k' <> st -> kept_acct (w k') (w' k')).
Proof. exact v2_creates. Qed.
Print Assumptions C44_creation.
(** the numbers increase along every history without migration *)
Theorem C44_increasing : forall E cx w w1 w2 s s2, hashes_ok E -> foreign_ok E -> good_world E w -> admissible E w (Call cx) ->
  let k := acct cx 0 in is_cfg (w k) s -> tag (c_data cx) = 18 -> succeeds E cx w w1 -> reach E w1 w2 -> is_cfg (w2 k) s2 ->
  exists s1 ds, is_cfg (w1 k) s1 /\ s_subctr s1 = s_subctr s + 1 /\ path E k ds s1 s2
    /\ (Forall (fun d => tag d <> 12) ds -> s_subctr s < s_subctr s2).
Proof. exact v2_increase. Qed.
Print Assumptions C44_increasing.
(** records never change but for the enabled flag *)
Theorem C44_records_stay : forall E w w', foreign_ok E -> good_world E w -> reach E w w' ->
  good_world E w' /\ forall k, a_owner (w k) = SELF -> byte_at 0 (a_data (w k)) = 2 ->
  a_owner (w' k) = SELF /\ byte_at 0 (a_data (w' k)) = 2 /\ same_record (a_data (w k)) (a_data (w' k)).
Proof. exact (fun E w w' F G R => records_stay E w w' F G R G). Qed.
Print Assumptions C44_records_stay.

Example C44_case : let w := den [] in let cx := c_sub2 0 255 in let w' := den [Call cx] in
  hashes_ok toy /\ wf_ctx cx /\ is_cfg (w (acct cx 0)) (s_den 0 lm None) /\ okb (process toy cx w) = true
  /\ tag (c_data cx) = 18 /\ foreign_ok toy /\ good_world toy w' /\ a_owner (w' (STATE 0 255)) = SELF
  /\ is_cfg (w' SWIG2) (s_den 1 (lm ++ [p_v2all 0]) None)
  /\ okb (process toy cx w') = false /\ okb (process toy (c_sub2 1 255) w') = true.
Proof. cbv zeta. life; calc. Qed.

(** ** C45: powers over a V2 sub-account come from permissions naming it *)
Theorem C45_default_deny : forall E cx w w' s, hashes_ok E -> wf_ctx cx -> is_cfg (w (acct cx 0)) s -> succeeds E cx w w' ->
  good_world E w -> In (tag (c_data cx)) [19; 20; 21] -> let n := u32_at 8 (c_data cx) in
  exists r, acts E cx s r
    /\ (holds_for (if tag (c_data cx) =? 19 then 26 else if tag (c_data cx) =? 20 then 24 else 25) n r \/ holds_for 23 n r)
    /\ (tag (c_data cx) = 20 -> enabled_sub E w s (acct cx 1) (acct cx 2) n)
    /\ (tag (c_data cx) = 21 -> enabled_sub E w s (acct cx 2) (acct cx 3) n).
Proof. exact v2_denies. Qed.
Print Assumptions C45_default_deny.

(** the creator may sign for the sub-account; the owner of the wallet, who holds
    All, may not; a disabled sub-account is of no use *)
Example C45_case : let w := den [Call (c_sub2 0 255); pays (ASSET 0 255) 5000000] in let cx := c_subsign2 1 0 255 1000 in
  hashes_ok toy /\ wf_ctx cx /\ is_cfg (w (acct cx 0)) (s_den 1 (lm ++ [p_v2all 0]) None) /\ okb (process toy cx w) = true
  /\ good_world toy w /\ tag (c_data cx) = 20
  /\ okb (process toy (c_subsign2 0 0 255 1000) w) = false
  /\ okb (process toy (c_toggle2 0 0 255 0) w) = false
  /\ okb (process toy (c_toggle2 1 0 255 0) w) = true
  /\ okb (process toy cx (run toy w [Call (c_toggle2 1 0 255 0)])) = false.
Proof. cbv zeta. life; calc. Qed.

(** ** C46: V2 withdrawals go to the wallet *)
Theorem C46_withdraw : forall E cx w w' s, is_cfg (w (acct cx 0)) s -> succeeds E cx w w' ->
  tag (c_data cx) = 21 -> let k := acct cx 0 in let amt := u64_at 16 (c_data cx) in
  let sa := acct cx 3 in let wallet := acct cx 4 in
  pda E (seeds_wallet k (s_wbump s)) = Some wallet
  /\ exists w1, only_counter w w1 k
     /\ (paid w1 w' sa wallet amt
         \/ exists x, let src := acct cx 7 in let dst := acct cx 8 in let prog := acct cx 9 in
              tells_transfer x prog src dst sa amt /\ foreign E w1 x = Ok w'
              /\ (prog = SPL_TOKEN \/ prog = SPL_TOKEN_2022)
              /\ a_owner (w1 src) = prog /\ a_owner (w1 dst) = prog
              /\ tok_mint (w1 src) = tok_mint (w1 dst) /\ tok_owner (w1 src) = sa /\ tok_owner (w1 dst) = wallet).
Proof. exact v2_withdraws. Qed.
Print Assumptions C46_withdraw.

Example C46_case : let w := den [Call (c_sub2 0 255); pays (ASSET 0 255) 5000000] in let cx := c_wd2 1 0 255 700 in
  let w' := run toy w [Call cx] in
  is_cfg (w (acct cx 0)) (s_den 1 (lm ++ [p_v2all 0]) None) /\ okb (process toy cx w) = true /\ tag (c_data cx) = 21
  /\ a_lamports (w' WALLET2) = a_lamports (w WALLET2) + 700
  /\ okb (process toy (c_wd2 0 0 255 700) w) = false.
Proof. cbv zeta. life; calc. Qed.

(** ** C47: a V1 sub-account disabled by a manager stays unusable until a manager
    enables it - refuted: its own role can do that too *)
Theorem C47_kill_switch_refuted : let disabled := [Call c_sub1; pays SUB1 5000000; Call (c_toggle1 0 0)] in
  let w := den disabled in let w1 := den (disabled ++ [Call (c_toggle1 1 1)]) in
  reach toy genesis w /\ holds 7 m0 /\ ~ holds 7 (m1 lm) /\ ~ holds 8 (m1 lm)
  /\ okb (process toy (c_subsign1 1000) w) = false
  /\ okb (process toy (c_toggle1 1 1) w) = true /\ reach toy genesis w1
  /\ okb (process toy (c_subsign1 1000) w1) = true.
Proof. cbv zeta. life; calc. Qed.
Print Assumptions C47_kill_switch_refuted.

(** ** C48: V1 sub-accounts.  A manager can withdraw from the canonical
    sub-accounts of the roles 0 to 10. *)
Theorem C48_sign : forall E cx w w' s, hashes_ok E -> wf_ctx cx -> is_cfg (w (acct cx 0)) s -> succeeds E cx w w' ->
  tag (c_data cx) = 9 ->
  exists r bump, acts E cx s r /\ owns_sub s r (acct cx 1) bump /\ a_owner (w (acct cx 1)) = SYSTEM.
Proof. exact v1_sign_ok. Qed.
Print Assumptions C48_sign.
Theorem C48_withdraw : forall E cx w w' s, hashes_ok E -> wf_ctx cx -> is_cfg (w (acct cx 0)) s -> succeeds E cx w w' ->
  tag (c_data cx) = 7 -> let k := acct cx 0 in let sa := acct cx 2 in let wallet := acct cx 4 in
  let amt := u64_at 8 (c_data cx) in
  exists r, acts E cx s r
    /\ ((exists bump, owns_sub s r sa bump)
        \/ (manager r /\ exists i bump, 0 <= i <= 10 /\ find_pda E (seeds_sub0 (s_id s) i) = (sa, bump)))
    /\ wallet = fst (find_pda E (seeds_wallet0 k))
    /\ exists w1, only_counter w w1 k
       /\ (paid w1 w' sa wallet amt
           \/ exists x, let src := acct cx 6 in let dst := acct cx 7 in
                tells_transfer x (a_owner (w1 src)) src dst sa amt /\ foreign E w1 x = Ok w'
                /\ (a_owner (w1 src) = SPL_TOKEN \/ a_owner (w1 src) = SPL_TOKEN_2022)
                /\ a_owner (w1 dst) = a_owner (w1 src) /\ tok_owner (w1 dst) = wallet).
Proof. exact v1_withdraw_ok. Qed.
Print Assumptions C48_withdraw.

Example C48_case : let w := den [Call c_sub1; pays SUB1 5000000] in let cx := c_subsign1 1000 in
  hashes_ok toy /\ wf_ctx cx /\ is_cfg (w (acct cx 0)) (s_den 0 [p_v2create; p_sub1] None) /\ okb (process toy cx w) = true
  /\ tag (c_data cx) = 9 /\ tag (c_data (c_wd1 1 500)) = 7 /\ wf_ctx (c_wd1 1 500)
  /\ okb (process toy (c_wd1 1 500) w) = true /\ okb (process toy (c_wd1 0 500) w) = true
  /\ a_lamports (run toy w [Call (c_wd1 1 500)] WALLET2) = a_lamports (w WALLET2) + 500.
Proof. cbv zeta. life; calc. Qed.

(** ** C49: migration.  The check for an already migrated wallet never fires; the
    instruction can be repeated and sets the sub-account counter to 0. *)
Theorem C49_migration : forall E cx w w' s, hashes_ok E -> wf_ctx cx -> is_cfg (w (acct cx 0)) s -> succeeds E cx w w' ->
  tag (c_data cx) = 12 -> let k := acct cx 0 in let wb := byte_at 2 (c_data cx) in
  exists r, acts E cx s r /\ manager r /\ pda E (seeds_wallet k wb) = Some (acct cx 3)
    /\ is_cfg (w' k) (migrated (used (actor_of (c_data cx)) s) wb) /\ others_kept w w' k.
Proof. exact migrate_ok. Qed.
Print Assumptions C49_migration.
Theorem C49_once_refuted : let w := den [Call (c_sub2 0 255)] in let cx := c_migrate2 255 in
  reach toy genesis w /\ is_cfg (w SWIG2) (s_den 1 (lm ++ [p_v2all 0]) None)
  /\ okb (process toy cx w) = true
  /\ is_cfg (run toy w [Call cx] SWIG2) (s_den 0 (lm ++ [p_v2all 0]) None)
  /\ okb (process toy (c_sub2 1 255) (run toy w [Call cx])) = false.
Proof. cbv zeta. life; calc. Qed.
Print Assumptions C49_once_refuted.

(** ** C56: a sub-account number has one record - refuted: after migration the
    number 0 is given again, for other addresses (bump 254) *)
Theorem C56_second_record_refuted : let es := [Call (c_sub2 0 255); Call (c_migrate2 255); Call (c_sub2 0 254)] in
  let w := den es in
  reach toy genesis w /\ STATE 0 255 <> STATE 0 254 /\ ASSET 0 255 <> ASSET 0 254
  /\ a_owner (w (STATE 0 255)) = SELF /\ a_data (w (STATE 0 255)) = state_record 255 255 1 0 ID2 (ASSET 0 255)
  /\ a_owner (w (STATE 0 254)) = SELF /\ a_data (w (STATE 0 254)) = state_record 254 254 1 0 ID2 (ASSET 0 254).
Proof. cbv zeta. life; calc. Qed.
Print Assumptions C56_second_record_refuted.

(** ** C50: the assets of the configuration account move to the wallet address *)
Theorem C50_transfer : forall E cx w w' s, hashes_ok E -> wf_ctx cx -> is_cfg (w (acct cx 0)) s -> succeeds E cx w w' ->
  tag (c_data cx) = 13 -> let k := acct cx 0 in let wallet := acct cx 1 in
  exists r w1 w2, acts E cx s r /\ manager r
    /\ pda E (seeds_wallet k (s_wbump s)) = Some wallet
    /\ only_counter w w1 k
    /\ paid w1 w2 k wallet (Z.max 0 (a_lamports (w k) - rent E (length (a_data (w k)))))
    /\ made E (fun v x => exists prog src dst, tells_transfer x prog src dst k (SpecLife.tok_amount (v src))
                 /\ (prog = SPL_TOKEN \/ prog = SPL_TOKEN_2022) /\ tok_owner (v src) = k /\ tok_owner (v dst) = wallet) w2 w'.
Proof. exact transfer_ok. Qed.
Print Assumptions C50_transfer.

Example C50_case : let w := den [pays SWIG2 300] in let cx := c_xfer2 [] in
  hashes_ok toy /\ wf_ctx cx /\ is_cfg (w (acct cx 0)) (s_den 0 lm None) /\ okb (process toy cx w) = true
  /\ tag (c_data cx) = 13 /\ a_lamports (run toy w [Call cx] WALLET2) = a_lamports (w WALLET2) + 300.
Proof. cbv zeta. life; calc. Qed.
(** tokens move from account 91 of the configuration account to account 90 of
    the wallet address, but not to account 71 of somebody else *)
Example C50_tokens : let w := den_tokens in let cx := c_xfer2 [rw (K 91); rw (K 90); ro SPL_TOKEN] in
  okb (process toy cx w) = true
  /\ SpecLife.tok_amount (run toy w [Call cx] (K 90)) = 33 /\ SpecLife.tok_amount (run toy w [Call cx] (K 91)) = 0
  /\ SpecLife.tok_amount (run toy w [Call (c_xfer2 [rw (K 91); rw (K 71); ro SPL_TOKEN])] (K 91)) = 33.
Proof. cbv zeta. life; calc. Qed.

(** ** C57: closing token accounts *)
Theorem C57_close_token : forall E cx w w' s, hashes_ok E -> wf_ctx cx -> is_cfg (w (acct cx 0)) s -> succeeds E cx w w' ->
  tag (c_data cx) = 14 -> let k := acct cx 0 in
  let wallet := acct cx 1 in let dest := acct cx 2 in let prog := acct cx 3 in
  exists r w1, acts E cx s r /\ (holds 7 r \/ holds 8 r \/ holds 20 r)
    /\ wallet = fst (find_pda E (seeds_wallet0 k)) /\ (prog = SPL_TOKEN \/ prog = SPL_TOKEN_2022)
    /\ only_counter w w1 k
    /\ made E (fun v x => exists t auth, tells_close x prog t dest auth
                 /\ (auth = k \/ auth = wallet) /\ a_owner (v t) = prog /\ tok_owner (v t) = auth) w1 w'.
Proof. exact close_token_ok. Qed.
Print Assumptions C57_close_token.

(** a token account of the wallet address can be closed, one of another owner
    cannot *)
Example C57_case : let w := den_tokens in let cx := c_tclose2 (K 90) in
  hashes_ok toy /\ wf_ctx cx /\ is_cfg (w (acct cx 0)) (s_den 0 lm None) /\ okb (process toy cx w) = true
  /\ tag (c_data cx) = 14 /\ a_owner (run toy w [Call cx] (K 90)) = SYSTEM
  /\ a_lamports (run toy w [Call cx] (K 40)) = a_lamports (w (K 40)) + a_lamports (w (K 90))
  /\ okb (process toy (c_tclose2 (K 71)) w) = false.
Proof. cbv zeta. life; calc. Qed.
