(** * What is asked for is done

    [asks], [usual_accounts], [funded], [by_others], [sol_covered], [tokens_fine],
    [payment], [system_pays] are in SpecWorks; [passes], the check of the
    credential, is met by what the client library builds (C69). *)
From Verif Require Import SpecWorks ClientAuth Avail4 Avail5 Avail7 ClientWorks DemoWorks.

(** ** C71: a wallet can be managed with every kind of credential: what a role asks
    for with an accepted credential, and may do, succeeds.  Adding a role: *)
Theorem C71_add : forall E cx w s r ty c l, wf_ctx cx -> is_cfg (w (acct cx 0)) s -> admin_accounts cx w s ->
  In r (s_roles s) -> manager r -> asks E cx r (AddRole ty c (enc_actions 0 l)) ->
  room 1 s -> credential_ok ty c -> wf_actions l -> Forall unspent l ->
  let nr := new_role s ty c l in let size := length (enc_config (add_to s nr)) in
  Z.of_nat (role_len nr) <= 10240 -> Z.of_nat size <= 10485760 -> funded E cx w (acct cx 0) (acct cx 1) size ->
  exists w', succeeds E cx w w' /\ is_cfg (w' (acct cx 0)) (add_to (used (r_id r) s) nr).
Proof. exact add_asked. Qed.
Print Assumptions C71_add.
(** removing a role, also one's own, but not role 0 *)
Theorem C71_remove : forall E cx w s r tr, wf_ctx cx -> is_cfg (w (acct cx 0)) s -> admin_accounts cx w s ->
  In r (s_roles s) -> In tr (s_roles s) -> r_id tr <> 0 -> manager r \/ r = tr -> asks E cx r (RemoveRole (r_id tr)) ->
  rent_grows E -> exempt E (w (acct cx 0)) ->
  a_lamports (w (acct cx 1)) + (rent E (length (enc_config s)) - rent E (length (enc_config (drop_role (r_id tr) s)))) < U64 ->
  exists w', succeeds E cx w w' /\ is_cfg (w' (acct cx 0)) (drop_role (r_id tr) (used (r_id r) s)).
Proof. exact remove_asked. Qed.
Print Assumptions C71_remove.
(** opening a session, not longer than the role may *)
Theorem C71_session : forall E cx w s r k n, wf_ctx cx -> is_cfg (w (acct cx 0)) s -> usual_accounts 3 cx w s ->
  In r (s_roles s) -> is_session (r_aty r) = true -> asks E cx r (OpenSession k n) -> n <= session_max (r_aty r) (r_auth r) ->
  exists w', succeeds E cx w w'
    /\ is_cfg (w' (acct cx 0)) (on_role (r_id r) (fun r0 => with_auth r0 (with_session (r_aty r) k ((c_slot cx + n) mod 2 ^ 64)
         (if is_secp (r_aty r) then count_up (r_auth r) else r_auth r))) s).
Proof. exact session_asked. Qed.
Print Assumptions C71_session.
(** naming the claimer, once *)
Theorem C71_claimer : forall E cx w s r k wal, wf_ctx cx -> is_cfg (w (acct cx 0)) s -> usual_accounts 3 cx w s -> acct cx 2 = SYSTEM ->
  In r (s_roles s) -> holds 7 r \/ holds 20 r -> asks E cx r (NameClaimer k) ->
  s_claimer s = None -> k <> zeros 32 -> k <> acct cx 0 -> pda E (seeds_wallet (acct cx 0) (s_wbump s)) = Some wal -> k <> wal ->
  let size := length (enc_config (set_claimer s k)) in
  Z.of_nat size <= 10485760 -> funded E cx w (acct cx 0) (acct cx 1) size ->
  exists w', succeeds E cx w w' /\ is_cfg (w' (acct cx 0)) (set_claimer (used (r_id r) s) k).
Proof. exact claimer_asked. Qed.
Print Assumptions C71_claimer.
(** replacing a key (a program-execution role needs a witness for that, C62) *)
Theorem C71_replace : forall E cx w s r tr c, wf_ctx cx -> is_cfg (w (acct cx 0)) s -> usual_accounts 1 cx w s ->
  In r (s_roles s) -> In tr (s_roles s) -> manager r \/ holds_for 21 (r_id tr) r -> r_aty r <> 7 ->
  asks E cx r (ReplaceKey (r_id tr) c) -> sub 2 2 (c_data cx) = zeros 2 -> sub 14 2 (c_data cx) = zeros 2 ->
  key_fits (r_aty tr) c -> let pk := new_key (r_aty tr) c in firstn (length pk) (r_auth tr) <> pk ->
  exists w', succeeds E cx w w'
    /\ is_cfg (w' (acct cx 0)) (on_role (r_id tr) (fun r0 => with_auth r0 (rotated (r_aty r0) (r_auth r0) pk)) (used (r_id r) s)).
Proof. exact replace_asked. Qed.
Print Assumptions C71_replace.

Example C71_add_case : let cx := post 6 x_add in let l := [p_sol 5] in
  let nr := new_role s_home 1 (K 40) l in let size := length (enc_config (add_to s_home nr)) in
  reach toy genesis home /\ wf_ctx cx /\ is_cfg (home (acct cx 0)) s_home /\ admin_accounts cx home s_home /\ In r0 (s_roles s_home)
  /\ manager r0 /\ asks toy cx r0 (AddRole 1 (K 40) (enc_actions 0 l)) /\ room 1 s_home /\ credential_ok 1 (K 40) /\ wf_actions l
  /\ Forall unspent l /\ Z.of_nat (role_len nr) <= 10240 /\ Z.of_nat size <= 10485760 /\ funded toy cx home (acct cx 0) (acct cx 1) size.
Proof.
  cbv zeta. at_home; avail; try (apply asksb_ok; calc); try (apply fundedb_ok; calc).
  left; reflexivity. left. exists p_all. split; [left; reflexivity|reflexivity]. left. split; reflexivity.
Qed.
Example C71_remove_case : let cx := post 6 x_drop in
  wf_ctx cx /\ is_cfg (home (acct cx 0)) s_home /\ admin_accounts cx home s_home /\ In r0 (s_roles s_home) /\ In r2 (s_roles s_home)
  /\ r_id r2 <> 0 /\ (manager r0 \/ r0 = r2) /\ asks toy cx r0 (RemoveRole (r_id r2)) /\ rent_grows toy /\ exempt toy (home (acct cx 0))
  /\ a_lamports (home (acct cx 1)) + (rent toy (length (enc_config s_home)) - rent toy (length (enc_config (drop_role (r_id r2) s_home)))) < U64.
Proof.
  cbv zeta. split; [demo|]. split; [exact home_cfg|]. split; [apply adminb_ok; calc|]. split; [left; reflexivity|]. split; [right; right; left; reflexivity|].
  split; [discriminate|]. split; [left; left; exists p_all; split; [left; reflexivity|reflexivity]|]. split; [apply asksb_ok; calc|].
  split; [exact toy_rent_grows|]. split; [exact exempt_home|]. apply Z.ltb_lt. calc.
Qed.
Example C71_session_case : let cx := post 30 x_open in
  wf_ctx cx /\ is_cfg (home (acct cx 0)) s_home /\ usual_accounts 3 cx home s_home /\ In r3 (s_roles s_home)
  /\ is_session (r_aty r3) = true /\ asks toy cx r3 (OpenSession (K 50) 50) /\ 50 <= session_max (r_aty r3) (r_auth r3).
Proof.
  cbv zeta. split; [demo|]. split; [exact home_cfg|]. split; [apply usualb_ok; calc|]. split; [right; right; right; left; reflexivity|].
  split; [reflexivity|]. split; [apply asksb_ok; calc|]. apply Z.leb_le. calc.
Qed.
(** with a secp256r1 key *)
Example C71_claimer_case : let cx := post2 30 l_r1 in let size := length (enc_config (set_claimer s_home (K 70))) in
  wf_ctx cx /\ is_cfg (home (acct cx 0)) s_home /\ usual_accounts 3 cx home s_home /\ acct cx 2 = SYSTEM /\ In r4 (s_roles s_home)
  /\ (holds 7 r4 \/ holds 20 r4) /\ asks toy cx r4 (NameClaimer (K 70)) /\ s_claimer s_home = None
  /\ K 70 <> zeros 32 /\ K 70 <> acct cx 0 /\ pda toy (seeds_wallet (acct cx 0) (s_wbump s_home)) = Some WALLET /\ K 70 <> WALLET
  /\ Z.of_nat size <= 10485760 /\ funded toy cx home (acct cx 0) (acct cx 1) size.
Proof.
  cbv zeta. split; [demo|]. split; [exact home_cfg|]. split; [apply usualb_ok; calc|]. split; [calc|]. split; [right; right; right; right; left; reflexivity|].
  split; [right; exists p_close; split; [left; reflexivity|reflexivity]|]. split; [apply asksb_ok; calc|]. split; [reflexivity|].
  split; [apply beq_neq; calc|]. split; [apply beq_neq; calc|]. split; [calc|]. split; [apply beq_neq; calc|]. split; [apply Z.leb_le; calc|].
  apply fundedb_ok. calc.
Qed.
(** with a secp256k1 key *)
Example C71_replace_case : let cx := post 30 x_swap in
  wf_ctx cx /\ is_cfg (home (acct cx 0)) s_home /\ usual_accounts 1 cx home s_home /\ In r2 (s_roles s_home) /\ In r1 (s_roles s_home)
  /\ holds_for 21 (r_id r1) r2 /\ r_aty r2 <> 7 /\ asks toy cx r2 (ReplaceKey (r_id r1) (K 33))
  /\ sub 2 2 (c_data cx) = zeros 2 /\ sub 14 2 (c_data cx) = zeros 2 /\ key_fits (r_aty r1) (K 33)
  /\ firstn (length (new_key (r_aty r1) (K 33))) (r_auth r1) <> new_key (r_aty r1) (K 33).
Proof.
  cbv zeta. split; [demo|]. split; [exact home_cfg|]. split; [apply usualb_ok; calc|]. split; [right; right; left; reflexivity|].
  split; [right; left; reflexivity|]. split; [exists (p_replace 1); split; [right; right; left; reflexivity|split; calc]|].
  split; [discriminate|]. split; [apply asksb_ok; calc|]. split; [calc|]. split; [calc|]. split; [left; split; [left; reflexivity|reflexivity]|].
  apply beq_neq. calc.
Qed.

(** ** C72: signing works.  A role with All or AllButManageAuthority: first the
    credential is recorded as used - the world [w0] -, and if the inner instructions
    then succeed one after the other, so does the call, and nothing else happens *)
Theorem C72_full_access : forall E cx w s r payload xs, wf_ctx cx -> is_cfg (w (acct cx 0)) s -> usual_accounts 3 cx w s -> c_height cx = 1%nat ->
  pda E (seeds_wallet (acct cx 0) (s_wbump s)) = Some (acct cx 1) -> a_owner (w (acct cx 1)) = SYSTEM ->
  In r (s_roles s) -> holds 7 r \/ holds 15 r -> asks E cx r (Sign payload) -> inner_ixs (c_metas cx) (acct cx 1) payload xs ->
  exists w0, is_cfg (w0 (acct cx 0)) (used (r_id r) s) /\ only_here (acct cx 0) w w0
    /\ forall w', in_turn (by_others E (acct cx 1)) xs w0 w' -> succeeds E cx w w'.
Proof. exact sign_asked. Qed.
Print Assumptions C72_full_access.
(** A role with limits: the same, if what leaves the wallet is covered by its limits *)
Theorem C72_within_limits : forall E cx w s r payload xs, wf_ctx cx -> foreign_ok E -> is_cfg (w (acct cx 0)) s ->
  usual_accounts 3 cx w s -> (length (c_metas cx) <= 100)%nat -> c_height cx = 1%nat -> 0 <= c_slot cx ->
  pda E (seeds_wallet (acct cx 0) (s_wbump s)) = Some (acct cx 1) -> a_owner (w (acct cx 1)) = SYSTEM ->
  In r (s_roles s) -> limited r -> asks E cx r (Sign payload) -> inner_ixs (c_metas cx) (acct cx 1) payload xs ->
  (forall x, In x xs -> carries (acct cx 1) x -> holds 13 r \/ allowed r (ix_prog x)) ->
  exists w0, is_cfg (w0 (acct cx 0)) (used (r_id r) s) /\ only_here (acct cx 0) w w0
  /\ forall ws, stages (by_others E (acct cx 1)) xs w0 ws ->
     rent E (length (a_data (last ws w (acct cx 1)))) <= a_lamports (last ws w (acct cx 1)) ->
     sol_covered cx r xs (falls (lamports_of (acct cx 1)) (a_lamports (w (acct cx 1))) ws) ->
     tokens_fine cx r xs w ws ->
     exists w', succeeds E cx w w' /\ only_here (acct cx 0) (last ws w0) w'.
Proof. exact limited_asked. Qed.
Print Assumptions C72_within_limits.

Example C72_full_access_case : let cx := post 40 x_pay in let payload := packed [SWIG] [w_ SWIG; w_ WALLET; ros (K 50)] [pay_ix (K 40) 5] in
  reach toy genesis sitting /\ wf_ctx cx /\ is_cfg (sitting (acct cx 0)) s_sitting /\ usual_accounts 3 cx sitting s_sitting /\ c_height cx = 1%nat
  /\ pda toy (seeds_wallet (acct cx 0) (s_wbump s_sitting)) = Some (acct cx 1) /\ a_owner (sitting (acct cx 1)) = SYSTEM
  /\ In r3' (s_roles s_sitting) /\ holds 7 r3' /\ asks toy cx r3' (Sign payload)
  /\ inner_ixs (c_metas cx) (acct cx 1) payload [payment WALLET (K 40) 5].
Proof.
  cbv zeta. split; [exact sitting_reach|]. split; [demo|]. split; [exact sitting_cfg|]. split; [apply usualb_ok; calc|]. split; [reflexivity|].
  split; [calc|]. split; [calc|]. split; [right; right; right; left; reflexivity|]. split; [exists p_all; split; [left; reflexivity|reflexivity]|].
  split; [apply asksb_ok; calc|]. apply full_inner.
Qed.
Example C72_within_limits_case : let cx := post 30 x_k1 in let payload := packed [SWIG] [w_ SWIG; w_ WALLET; SYS] [pay_ix (K 40) 5] in
  let xs := [payment WALLET (K 40) 5] in
  wf_ctx cx /\ foreign_ok toy /\ is_cfg (home (acct cx 0)) s_home /\ usual_accounts 3 cx home s_home /\ (length (c_metas cx) <= 100)%nat
  /\ c_height cx = 1%nat /\ 0 <= c_slot cx /\ pda toy (seeds_wallet (acct cx 0) (s_wbump s_home)) = Some (acct cx 1)
  /\ a_owner (home (acct cx 1)) = SYSTEM /\ In r2 (s_roles s_home) /\ limited r2 /\ asks toy cx r2 (Sign payload)
  /\ inner_ixs (c_metas cx) (acct cx 1) payload xs /\ holds 13 r2
  (* its limit covers 5 lamports *)
  /\ sol_covered cx r2 xs 5.
Proof.
  cbv zeta. split; [demo|]. split; [exact toy_foreign_ok|]. split; [exact home_cfg|]. split; [apply usualb_ok; calc|]. split; [apply Nat.leb_le; calc|].
  split; [reflexivity|]. split; [discriminate|]. split; [calc|]. split; [calc|]. split; [right; right; left; reflexivity|].
  split; [exact r2_limited|]. split; [apply asksb_ok; calc|]. split; [apply limited_inner|].
  split; [exists p_program_all; split; [right; left; reflexivity|reflexivity]|]. apply r2_covered.
Qed.

(** ** C73: from the client to the effect.  The library wraps a payment of [n]
    lamports by the wallet; if the program accepts the credential, [n] lamports
    arrive, and nothing else changes but the configuration.  For a role with full access *)
Theorem C73_payment : forall E cx w s r swig wal to n x ms a, wf_ctx cx -> system_pays E -> wallet_is E w s swig wal ->
  In r (s_roles s) -> wraps swig (r_id r) [payment wal to n] [swig] ms wal x -> sent cx x ->
  agree [wal; swig] (ms ++ ix_metas (payment wal to n)) -> passes E cx r a ->
  c_height cx = 1%nat -> (length (c_metas cx) <= 100)%nat -> (forall m, In m (tl (c_metas cx)) -> ordinary w s (m_key m)) ->
  is_u64 n -> to <> wal -> can_pay w wal n -> a_lamports (w to) + n < U64 -> holds 7 r \/ holds 15 r ->
  exists w', succeeds E cx w w' /\ is_cfg (w' swig) (used (r_id r) s)
    /\ a_lamports (w' wal) = a_lamports (w wal) - n /\ a_lamports (w' to) = a_lamports (w to) + n
    /\ (forall k, k <> wal -> k <> to -> a_lamports (w' k) = a_lamports (w k))
    /\ forall k, k <> swig -> kept_acct (w k) (w' k).
Proof. exact payment_full. Qed.
Print Assumptions C73_payment.
(** with an Ed25519 key, in full *)
Theorem C73_payment_ed : forall E cx w s r swig wal to n auth signers, wf_ctx cx -> system_pays E -> wallet_is E w s swig wal ->
  In r (s_roles s) -> holds 7 r \/ holds 15 r ->
  sent cx (sign_ed swig wal auth (payment wal to n) (r_id r) signers) -> ed_key (Sign []) (c_slot cx) r auth -> ~ In auth [swig; wal; to] ->
  c_height cx = 1%nat -> (forall m, In m (tl (c_metas cx)) -> ordinary w s (m_key m)) ->
  is_u64 n -> to <> wal -> can_pay w wal n -> a_lamports (w to) + n < U64 ->
  exists w', succeeds E cx w w' /\ is_cfg (w' swig) (used (r_id r) s)
    /\ a_lamports (w' wal) = a_lamports (w wal) - n /\ a_lamports (w' to) = a_lamports (w to) + n
    /\ (forall k, k <> wal -> k <> to -> a_lamports (w' k) = a_lamports (w k))
    /\ forall k, k <> swig -> kept_acct (w k) (w' k).
Proof. exact payment_ed. Qed.
Print Assumptions C73_payment_ed.
(** for a role with limits that cover it *)
Theorem C73_payment_limited : forall E cx w s r swig wal to n x ms a, wf_ctx cx -> system_pays E -> wallet_is E w s swig wal ->
  In r (s_roles s) -> wraps swig (r_id r) [payment wal to n] [swig] ms wal x -> sent cx x ->
  agree [wal; swig] (ms ++ ix_metas (payment wal to n)) -> passes E cx r a ->
  c_height cx = 1%nat -> (length (c_metas cx) <= 100)%nat -> (forall m, In m (tl (c_metas cx)) -> ordinary w s (m_key m)) ->
  is_u64 n -> to <> wal -> can_pay w wal n -> a_lamports (w to) + n < U64 ->
  foreign_ok E -> 0 <= c_slot cx -> limited r -> holds 13 r \/ allowed r SYSTEM ->
  sol_covered cx r [payment wal to n] n -> rent E 0 <= a_lamports (w wal) - n ->
  (forall m, In m (rest_of cx) -> ~ ours cx w (m_key m)) ->
  exists w', succeeds E cx w w'
    /\ a_lamports (w' wal) = a_lamports (w wal) - n /\ a_lamports (w' to) = a_lamports (w to) + n
    /\ (forall k, k <> wal -> k <> to -> a_lamports (w' k) = a_lamports (w k))
    /\ forall k, k <> swig -> kept_acct (w k) (w' k).
Proof. exact payment_limited. Qed.
Print Assumptions C73_payment_limited.

Example C73_ed_case : let cx := post 40 x_pay in
  wf_ctx cx /\ system_pays toy /\ wallet_is toy sitting s_sitting SWIG WALLET /\ In r3' (s_roles s_sitting) /\ holds 7 r3'
  /\ x_pay = sign_ed SWIG WALLET (K 50) (payment WALLET (K 40) 5) (r_id r3') [] /\ sent cx x_pay
  /\ ed_key (Sign []) (c_slot cx) r3' (K 50) /\ ~ In (K 50) [SWIG; WALLET; K 40] /\ c_height cx = 1%nat
  /\ (forall m, In m (tl (c_metas cx)) -> ordinary sitting s_sitting (m_key m)) /\ is_u64 5 /\ K 40 <> WALLET
  /\ can_pay sitting WALLET 5 /\ a_lamports (sitting (K 40)) + 5 < U64.
Proof.
  cbv zeta. split; [demo|]. split; [exact toy_pays|]. split; [split; [exact sitting_cfg|calc]|]. split; [right; right; right; left; reflexivity|].
  split; [exists p_all; split; [left; reflexivity|reflexivity]|]. split; [reflexivity|]. split; [apply exact_sent, post_sent|].
  split; [split; [calc|apply Z.leb_le; calc]|]. split; [apply not_inb; calc|]. split; [reflexivity|].
  split; [apply (usualb_ok 3 (post 40 x_pay)); calc|]. split; [split; [discriminate|reflexivity]|]. split; [apply beq_neq; calc|].
  split; [|apply Z.ltb_lt; calc]. split; [calc|]. split; [calc|]. apply Z.leb_le. calc.
Qed.
Example C73_limited_case : let cx := post 30 x_k1 in let ms := [w_ SWIG; w_ WALLET; SYS] in
  wf_ctx cx /\ wallet_is toy home s_home SWIG WALLET /\ In r2 (s_roles s_home)
  /\ wraps SWIG (r_id r2) [payment WALLET (K 40) 5] [SWIG] ms WALLET x_k1 /\ sent cx x_k1
  /\ agree [WALLET; SWIG] (ms ++ ix_metas (payment WALLET (K 40) 5)) /\ (exists a, passes toy cx r2 a)
  /\ c_height cx = 1%nat /\ (length (c_metas cx) <= 100)%nat /\ (forall m, In m (tl (c_metas cx)) -> ordinary home s_home (m_key m))
  /\ can_pay home WALLET 5 /\ a_lamports (home (K 40)) + 5 < U64 /\ limited r2 /\ holds 13 r2
  /\ sol_covered cx r2 [payment WALLET (K 40) 5] 5 /\ rent toy 0 <= a_lamports (home WALLET) - 5
  /\ (forall m, In m (rest_of cx) -> ~ ours cx home (m_key m)).
Proof.
  cbv zeta. split; [demo|]. split; [split; [exact home_cfg|calc]|]. split; [right; right; left; reflexivity|].
  split; [apply (wr_sign_k1 SWIG 2 toy k1_sign 20 1 WALLET (pay_ix (K 40) 5) [])|]. split; [apply exact_sent, post_sent|]. split; [apply agreeb_ok; calc|].
  split; [apply (asksb_ok (post 30 x_k1) r2 (Sign (packed [SWIG] [w_ SWIG; w_ WALLET; SYS] [pay_ix (K 40) 5]))); calc|].
  split; [reflexivity|]. split; [apply Nat.leb_le; calc|]. split; [apply (usualb_ok 3 (post 30 x_k1)); calc|].
  split; [split; [calc|split; [calc|apply Z.leb_le; calc]]|]. split; [apply Z.ltb_lt; calc|]. split; [exact r2_limited|].
  split; [exists p_program_all; split; [right; left; reflexivity|reflexivity]|]. split; [apply r2_covered|]. split; [apply Z.leb_le; calc|].
  apply no_tokens. calc.
Qed.
