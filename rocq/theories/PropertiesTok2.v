(** * Property theorems: token accounts can be closed and emptied, and a wallet can
    be moved to its wallet account (see SpecTok2.v) *)
From Verif Require Import BaseFacts SpecConfig SpecWorks SpecSub2 SpecSub1 SpecTok2 Avail12 DemoTok2.

(** ** C85: token accounts *)
(** A role holding permission 7, 8 or 20 closes the token accounts it lists: the
    call succeeds whenever the token program does what it is asked to *)
Theorem C85_close : forall E cx w s r from, wf_ctx cx -> is_cfg (w (acct cx 0)) s -> usual_accounts 4 cx w s ->
  In r (s_roles s) -> holds 7 r \/ holds 8 r \/ holds 20 r -> asks E cx r (CloseTokens from) ->
  let swig := acct cx 0 in let wallet := acct cx 1 in let dest := acct cx 2 in let prog := acct cx 3 in
  let listed := skipn (Z.to_nat from) (c_metas cx) in
  search_sound E -> wallet = fst (find_pda E (seeds_wallet0 swig)) -> pda E (seeds_swig (s_id s) (s_bump s)) = Some swig -> swig <> wallet ->
  token_program prog -> (forall k, s_claimer s = Some k -> dest = k) -> writable (c_metas cx) dest = true ->
  listed <> [] -> (forall m, In m listed -> writable (c_metas cx) (m_key m) = true) ->
  exists w0, is_cfg (w0 swig) (used (r_id r) s) /\ only_here swig w w0
    /\ forall w', all_closed E prog dest swig wallet (map m_key listed) w0 w' -> succeeds E cx w w'.
Proof. exact tclose_asked. Qed.
Print Assumptions C85_close.

(** A manager moves what the configuration account holds beyond its rent, and all
    its tokens, to the wallet account *)
Theorem C85_gather : forall E cx w s r, wf_ctx cx -> is_cfg (w (acct cx 0)) s -> usual_accounts 4 cx w s ->
  In r (s_roles s) -> manager r -> asks E cx r TransferAssets ->
  s_wbump s <> 0 -> pda E (seeds_wallet (acct cx 0) (s_wbump s)) = Some (acct cx 1) -> acct cx 1 <> acct cx 0 ->
  pda E (seeds_swig (s_id s) (s_bump s)) = Some (acct cx 0) ->
  writable (c_metas cx) (acct cx 1) = true -> 0 <= rent E (length (enc_config s)) ->
  let extra := Z.max 0 (a_lamports (w (acct cx 0)) - rent E (length (enc_config s))) in
  a_lamports (w (acct cx 1)) + extra < U64 ->
  exists w0, is_cfg (w0 (acct cx 0)) (used (r_id r) s)
    /\ a_lamports (w0 (acct cx 0)) = a_lamports (w (acct cx 0)) - extra /\ a_lamports (w0 (acct cx 1)) = a_lamports (w (acct cx 1)) + extra
    /\ (forall k, k <> acct cx 0 -> k <> acct cx 1 -> a_lamports (w0 k) = a_lamports (w k))
    /\ (forall k, k <> acct cx 0 -> kept_acct (w k) (w0 k))
    /\ forall w', all_moved E (c_metas cx) (acct cx 0) (acct cx 1) (skipn 4 (c_metas cx)) w0 w' -> succeeds E cx w w'.
Proof. exact gather_tokens_asked. Qed.
Print Assumptions C85_gather.

(** Whoever may empty a sub-account may withdraw its tokens *)
Theorem C85_withdraw_first : forall E cx w s r x, wf_ctx cx -> is_cfg (w (acct cx 0)) s -> usual_accounts 9 cx w s ->
  In r (s_roles s) -> may_empty E s r (acct cx 2) -> asks E cx r (WithdrawSub x) ->
  acct cx 4 = fst (find_pda E (seeds_wallet0 (acct cx 0))) -> a_owner (w (acct cx 2)) = SYSTEM -> a_owner (w (acct cx 4)) = SYSTEM ->
  let prog := a_owner (w (acct cx 6)) in
  token_program prog -> token_of prog (acct cx 4) (w (acct cx 7)) -> writable (c_metas cx) (acct cx 6) = true -> writable (c_metas cx) (acct cx 7) = true ->
  exists w0, is_cfg (w0 (acct cx 0)) (used (r_id r) s) /\ only_here (acct cx 0) w w0
    /\ forall w', foreign E w0 (move_request prog (acct cx 6) (acct cx 7) (acct cx 2) x) = Ok w' -> succeeds E cx w w'.
Proof. exact withdraw1_tokens. Qed.
Print Assumptions C85_withdraw_first.

Theorem C85_withdraw_second : forall E cx w s r n x, wf_ctx cx -> is_cfg (w (acct cx 0)) s -> usual_accounts 10 cx w s -> length (c_metas cx) = 10%nat -> second_version s ->
  In r (s_roles s) -> holds_for 25 n r \/ holds_for 23 n r -> asks E cx r (WithdrawSub2 n x) ->
  sub_record E w s (acct cx 2) (acct cx 3) n 1 -> pda E (seeds_wallet (acct cx 0) (s_wbump s)) = Some (acct cx 4) ->
  a_owner (w (acct cx 3)) = SYSTEM -> a_owner (w (acct cx 4)) = SYSTEM ->
  let prog := acct cx 9 in let src := w (acct cx 7) in let dst := w (acct cx 8) in
  token_program prog -> token_of prog (acct cx 3) src -> token_of prog (acct cx 4) dst ->
  (165 <= length (a_data src))%nat -> (165 <= length (a_data dst))%nat -> nth 108 (a_data src) 0 = 1 -> nth 108 (a_data dst) 0 = 1 ->
  sub 0 32 (a_data src) = sub 0 32 (a_data dst) -> writable (c_metas cx) (acct cx 7) = true -> writable (c_metas cx) (acct cx 8) = true ->
  exists w0, is_cfg (w0 (acct cx 0)) (used (r_id r) s) /\ only_here (acct cx 0) w w0
    /\ forall w', foreign E w0 (move_request prog (acct cx 7) (acct cx 8) (acct cx 3) x) = Ok w' -> succeeds E cx w w'.
Proof. exact withdraw2_tokens. Qed.
Print Assumptions C85_withdraw_second.

(** ** C86: moving a wallet to a wallet account *)
Theorem C86_migrate : forall E cx w s r, wf_ctx cx -> is_cfg (w (acct cx 0)) s -> usual_accounts 5 cx w s ->
  In r (s_roles s) -> manager r -> tag (c_data cx) = 12 -> actor_of (c_data cx) = r_id r -> (exists a, passes E cx r a) ->
  let swig := acct cx 0 in let payer := acct cx 2 in let wallet := acct cx 3 in let b := nth 2 (c_data cx) 0 in
  pda E (seeds_wallet swig b) = Some wallet -> plain_acct (w wallet) -> payer <> wallet ->
  writable (c_metas cx) wallet = true -> signer (c_metas cx) payer = true -> writable (c_metas cx) payer = true ->
  0 <= a_lamports (w wallet) -> rent E 0 < U64 -> can_pay w payer (lack E w wallet 0) ->
  exists w', succeeds E cx w w' /\ is_cfg (w' swig) (migrated (used (r_id r) s) b)
    /\ a_lamports (w' payer) = a_lamports (w payer) - lack E w wallet 0 /\ a_lamports (w' wallet) = a_lamports (w wallet) + lack E w wallet 0
    /\ forall k, k <> swig -> kept_acct (w k) (w' k).
Proof. exact migrate_asked. Qed.
Print Assumptions C86_migrate.

(** role 0 closes token account 90 of the wallet *)
Example C85_close_case : let cx := c_tclose2 (K 90) in let w := den_tokens in let s := s_den 0 lm None in
  wf_ctx cx /\ is_cfg (w (acct cx 0)) s /\ usual_accounts 4 cx w s /\ In m0 (s_roles s) /\ holds 7 m0 /\ asks toy cx m0 (CloseTokens 5)
  /\ search_sound toy /\ acct cx 1 = fst (find_pda toy (seeds_wallet0 (acct cx 0))) /\ pda toy (seeds_swig (s_id s) (s_bump s)) = Some (acct cx 0)
  /\ acct cx 0 <> acct cx 1 /\ token_program (acct cx 3) /\ writable (c_metas cx) (acct cx 2) = true
  /\ skipn 5 (c_metas cx) = [rw (K 90)] /\ writable (c_metas cx) (K 90) = true
  /\ exists w', all_closed toy (acct cx 3) (acct cx 2) (acct cx 0) (acct cx 1) [K 90] w w'.
Proof.
  cbv zeta. split; [demo|]. split; [apply cfgb_ok; calc|]. split; [apply usualb_ok; calc|]. split; [left; reflexivity|].
  split; [apply holdsb_yes; calc|]. split; [apply asksb_ok; calc|]. split; [exact toy_search|]. split; [calc|]. split; [calc|].
  split; [apply beq_neq; calc|]. split; [left; reflexivity|]. split; [calc|]. split; [reflexivity|]. split; [calc|].
  eexists. eapply closed_one; [right; reflexivity|apply token_ofb_ok; calc|vm_compute; reflexivity|constructor].
Qed.
(** role 0 moves the 33 tokens of account 91 to account 90 of the wallet *)
Example C85_gather_case : let cx := c_xfer2 [rw (K 91); rw (K 90); ro SPL_TOKEN] in let w := den_tokens in let s := s_den 0 lm None in
  wf_ctx cx /\ is_cfg (w (acct cx 0)) s /\ usual_accounts 4 cx w s /\ In m0 (s_roles s) /\ manager m0 /\ asks toy cx m0 TransferAssets
  /\ s_wbump s <> 0 /\ pda toy (seeds_wallet (acct cx 0) (s_wbump s)) = Some (acct cx 1) /\ acct cx 1 <> acct cx 0
  /\ pda toy (seeds_swig (s_id s) (s_bump s)) = Some (acct cx 0) /\ writable (c_metas cx) (acct cx 1) = true
  /\ a_lamports (w (acct cx 1)) + Z.max 0 (a_lamports (w (acct cx 0)) - rent toy (length (enc_config s))) < U64
  /\ exists w', all_moved toy (c_metas cx) (acct cx 0) (acct cx 1) (skipn 4 (c_metas cx)) w w'.
Proof.
  cbv zeta. split; [demo|]. split; [apply cfgb_ok; calc|]. split; [apply usualb_ok; calc|]. split; [left; reflexivity|].
  split; [left; apply holdsb_yes; calc|]. split; [apply asksb_ok; calc|]. split; [discriminate|]. split; [calc|]. split; [apply beq_neq; calc|].
  split; [calc|]. split; [calc|]. split; [apply Z.ltb_lt; calc|].
  eexists. eapply moved_one; [calc|calc|left; reflexivity|apply token_ofb_ok; calc|apply token_ofb_ok; calc|vm_compute; discriminate|vm_compute; reflexivity|constructor].
Qed.
(** role 1 withdraws tokens of its sub-accounts *)
Example C85_first_case : let w := den_subtok1 in let s := s_den 0 with_sub1 None in let r := m1 with_sub1 in let cx := c_wdtok1 40 in
  wf_ctx cx /\ is_cfg (w (acct cx 0)) s /\ usual_accounts 9 cx w s /\ In r (s_roles s) /\ may_empty toy s r (acct cx 2)
  /\ asks toy cx r (WithdrawSub 40) /\ acct cx 4 = fst (find_pda toy (seeds_wallet0 (acct cx 0)))
  /\ a_owner (w (acct cx 2)) = SYSTEM /\ a_owner (w (acct cx 4)) = SYSTEM
  /\ token_program (a_owner (w (acct cx 6))) /\ token_of (a_owner (w (acct cx 6))) (acct cx 4) (w (acct cx 7))
  /\ writable (c_metas cx) (acct cx 6) = true /\ writable (c_metas cx) (acct cx 7) = true
  /\ okb (foreign toy w (move_request SPL_TOKEN (acct cx 6) (acct cx 7) (acct cx 2) 40)) = true.
Proof.
  cbv zeta. split; [demo|]. split; [apply cfgb_ok; calc|]. split; [apply usualb_ok; calc|]. split; [right; left; reflexivity|].
  split; [left; exists [p_v2create], (ac_data p_sub1), [], 255; split; [apply sub_permb_ok; [reflexivity|calc]|]; split; [split; [discriminate|repeat split; calc]|calc]|].
  split; [apply asksb_ok; calc|]. split; [calc|]. split; [calc|]. split; [calc|]. split; [left; calc|]. split; [apply token_ofb_ok; calc|].
  split; [calc|]. split; calc.
Qed.
Example C85_second_case : let w := den_subtok2 in let s := s_den 1 with_sub None in let r := m1 with_sub in let cx := c_wdtok2 50 in
  let src := w (acct cx 7) in let dst := w (acct cx 8) in
  wf_ctx cx /\ is_cfg (w (acct cx 0)) s /\ usual_accounts 10 cx w s /\ length (c_metas cx) = 10%nat /\ second_version s
  /\ In r (s_roles s) /\ holds_for 23 0 r /\ asks toy cx r (WithdrawSub2 0 50)
  /\ sub_record toy w s (acct cx 2) (acct cx 3) 0 1 /\ pda toy (seeds_wallet (acct cx 0) (s_wbump s)) = Some (acct cx 4)
  /\ a_owner (w (acct cx 3)) = SYSTEM /\ a_owner (w (acct cx 4)) = SYSTEM /\ token_program (acct cx 9)
  /\ token_of (acct cx 9) (acct cx 3) src /\ token_of (acct cx 9) (acct cx 4) dst
  /\ length (a_data src) = 165%nat /\ length (a_data dst) = 165%nat /\ nth 108 (a_data src) 0 = 1 /\ nth 108 (a_data dst) 0 = 1
  /\ sub 0 32 (a_data src) = sub 0 32 (a_data dst) /\ writable (c_metas cx) (acct cx 7) = true /\ writable (c_metas cx) (acct cx 8) = true
  /\ okb (foreign toy w (move_request SPL_TOKEN (acct cx 7) (acct cx 8) (acct cx 3) 50)) = true.
Proof.
  cbv zeta. split; [demo|]. split; [apply cfgb_ok; calc|]. split; [apply usualb_ok; calc|]. split; [reflexivity|]. split; [apply second_den|].
  split; [right; left; reflexivity|]. split; [exists (p_v2all 0); split; [right; right; left; reflexivity|split; calc]|]. split; [apply asksb_ok; calc|].
  split; [eapply sub_recordb_ok with (b := 255) (ab := 255); calc|]. split; [calc|]. split; [calc|]. split; [calc|]. split; [left; reflexivity|].
  split; [apply token_ofb_ok; calc|]. split; [apply token_ofb_ok; calc|]. repeat (split; [calc|]). calc.
Qed.
(** role 0 moves the wallet to the account of bump 254 *)
Example C86_case : let cx := c_migrate2 254 in let w := den [] in let s := s_den 0 lm None in
  reach toy genesis w /\ wf_ctx cx /\ is_cfg (w (acct cx 0)) s /\ usual_accounts 5 cx w s /\ In m0 (s_roles s) /\ manager m0
  /\ tag (c_data cx) = 12 /\ (actor_of (c_data cx) = r_id m0 /\ exists a, passes toy cx m0 a)
  /\ pda toy (seeds_wallet (acct cx 0) 254) = Some (acct cx 3) /\ nth 2 (c_data cx) 0 = 254 /\ plain_acct (w (acct cx 3)) /\ acct cx 2 <> acct cx 3
  /\ writable (c_metas cx) (acct cx 3) = true /\ signer (c_metas cx) (acct cx 2) = true /\ writable (c_metas cx) (acct cx 2) = true
  /\ can_pay w (acct cx 2) (lack toy w (acct cx 3) 0).
Proof.
  cbv zeta. split; [apply den_ok; calc|]. split; [demo|]. split; [apply den_cfg; calc|]. split; [apply usualb_ok; calc|]. split; [left; reflexivity|].
  split; [left; apply holdsb_yes; calc|]. split; [calc|]. split; [apply asksb_passes; calc|]. split; [calc|]. split; [calc|]. split; [split; calc|].
  split; [apply beq_neq; calc|]. split; [calc|]. split; [calc|]. split; [calc|]. split; [calc|]. split; [calc|apply Z.leb_le; calc].
Qed.
