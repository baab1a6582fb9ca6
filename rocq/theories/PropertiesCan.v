(** * Requests that succeed: editing permissions, closing a wallet, sub-accounts *)
From Verif Require Import BaseFacts SpecSub2 Avail8 Avail9 Avail10 DemoCan.

(** ** C81: a manager can change the permissions of every role *)
Theorem C81_permission_edits : forall E cx w s r tr op x l', wf_ctx cx -> is_cfg (w (acct cx 0)) s -> usual_accounts 3 cx w s -> acct cx 2 = SYSTEM ->
  In r (s_roles s) -> In tr (s_roles s) -> manager r -> asks E cx r (ChangeRole (r_id tr) op x) ->
  upd_result op x (r_acts tr) l' -> (op = 3 -> Nat.even (length x) = true) -> wf_actions l' -> Forall unspent l' ->
  let s' := on_role (r_id tr) (fun r0 => with_acts r0 l') s in
  let old := length (enc_config s) in let new := length (enc_config s') in
  Z.of_nat new <= 10485760 -> Z.of_nat new <= Z.of_nat old + 10240 ->
  ((old < new)%nat -> funded E cx w (acct cx 0) (acct cx 1) new) ->
  ((new < old)%nat -> rent_grows E /\ 0 <= a_lamports (w (acct cx 0)) /\ writable (c_metas cx) (acct cx 1) = true
     /\ a_lamports (w (acct cx 1)) + a_lamports (w (acct cx 0)) < U64) ->
  exists w', succeeds E cx w w' /\ is_cfg (w' (acct cx 0)) (on_role (r_id tr) (fun r0 => with_acts r0 l') (used (r_id r) s)).
Proof. exact update_edits. Qed.
Print Assumptions C81_permission_edits.

(** role 0 gives role 1 another permission; it takes the second one away *)
Example C81_append_case : let l' := lm ++ [p_sol 7] in let x := enc_actions 0 [p_sol 7] in let cx := c_update2 1 1 x in
  let w := den [] in let s := s_den 0 lm None in let tr := m1 lm in
  let new := length (enc_config (on_role 1 (fun r0 => with_acts r0 l') s)) in
  reach toy genesis w /\ wf_ctx cx /\ is_cfg (w (acct cx 0)) s /\ usual_accounts 3 cx w s /\ acct cx 2 = SYSTEM /\ manager m0
  /\ asks toy cx m0 (ChangeRole (r_id tr) 1 x) /\ upd_result 1 x (r_acts tr) l' /\ wf_actions l' /\ Forall unspent l'
  /\ (length (enc_config s) < new)%nat /\ funded toy cx w (acct cx 0) (acct cx 1) new.
Proof.
  cbv zeta. split; [apply den_ok; calc|]. split; [demo|]. split; [apply den_cfg; calc|]. split; [apply usualb_ok; calc|]. split; [reflexivity|].
  split; [left; exists p_all; split; [left; reflexivity|reflexivity]|]. split; [apply asksb_ok; calc|].
  split; [right; left; split; [reflexivity|]; exists [p_sol 7]; split; [exact sol7_parses|reflexivity]|].
  split; [apply wf_actionsb_ok; calc|]. split; [apply Forall_app; split; [exact lm_unspent|apply unspentb_ok; calc]|].
  split; [apply Nat.ltb_lt; calc|apply fundedb_ok; calc].
Qed.
Example C81_remove_case : let l' := [p_v2create] in let x := [1; 0] in let cx := c_update2 1 3 x in
  let w := den [] in let s := s_den 0 lm None in let tr := m1 lm in
  let new := length (enc_config (on_role 1 (fun r0 => with_acts r0 l') s)) in
  wf_ctx cx /\ is_cfg (w (acct cx 0)) s /\ usual_accounts 3 cx w s /\ asks toy cx m0 (ChangeRole (r_id tr) 3 x)
  /\ upd_result 3 x (r_acts tr) l' /\ wf_actions l' /\ Forall unspent l' /\ (new < length (enc_config s))%nat
  /\ rent_grows toy /\ 0 <= a_lamports (w (acct cx 0)) /\ writable (c_metas cx) (acct cx 1) = true
  /\ a_lamports (w (acct cx 1)) + a_lamports (w (acct cx 0)) < U64.
Proof.
  cbv zeta. split; [demo|]. split; [apply den_cfg; calc|]. split; [apply usualb_ok; calc|]. split; [apply asksb_ok; calc|].
  split; [right; right; right; split; reflexivity|]. split; [apply wf_actionsb_ok; calc|]. split; [apply unspentb_ok; calc|].
  split; [apply Nat.ltb_lt; calc|]. split; [exact toy_rent_grows|]. split; [apply Z.leb_le; calc|]. split; [calc|apply Z.ltb_lt; calc].
Qed.

(** ** C82: a wallet can be closed when it holds nothing but its rent, and only then *)
Theorem C82_close : forall E cx w s r, wf_ctx cx -> is_cfg (w (acct cx 0)) s -> usual_accounts 4 cx w s -> acct cx 3 = SYSTEM ->
  In r (s_roles s) -> holds 7 r \/ holds 8 r \/ holds 20 r -> asks E cx r CloseWallet ->
  acct cx 1 = fst (find_pda E (seeds_wallet0 (acct cx 0))) -> pda E (seeds_wallet (acct cx 0) (s_wbump s)) = Some (acct cx 1) ->
  plain_acct (w (acct cx 1)) -> writable (c_metas cx) (acct cx 1) = true -> writable (c_metas cx) (acct cx 2) = true ->
  (forall k, s_claimer s = Some k -> acct cx 2 = k) -> acct cx 2 <> acct cx 0 -> acct cx 2 <> acct cx 1 ->
  rent_grows E -> 0 <= a_lamports (w (acct cx 1)) <= rent E 0 -> a_lamports (w (acct cx 0)) = rent E (length (enc_config s)) ->
  0 <= a_lamports (w (acct cx 2)) -> a_lamports (w (acct cx 2)) + a_lamports (w (acct cx 1)) + a_lamports (w (acct cx 0)) < U64 ->
  exists w', succeeds E cx w w' /\ a_owner (w' (acct cx 0)) = SELF /\ a_data (w' (acct cx 0)) = [255]
    /\ a_lamports (w' (acct cx 2)) = a_lamports (w (acct cx 2)) + a_lamports (w (acct cx 1)) + (a_lamports (w (acct cx 0)) - rent E 1)
    /\ a_lamports (w' (acct cx 1)) = 0 /\ a_lamports (w' (acct cx 0)) = rent E 1.
Proof. exact close_asked. Qed.
Print Assumptions C82_close.
Theorem C82_full_not_closed : forall E cx w s, is_cfg (w (acct cx 0)) s -> tag (c_data cx) = 15 ->
  rent E (length (enc_config s)) < a_lamports (w (acct cx 0)) \/ rent E 0 < a_lamports (w (fst (find_pda E (seeds_wallet0 (acct cx 0))))) ->
  forall w', ~ succeeds E cx w w'.
Proof. exact full_not_closed. Qed.
Print Assumptions C82_full_not_closed.
(** so whoever sends a lamport to the configuration account prevents it *)
Theorem C82_gift_blocks_closing : forall E w s k n, is_cfg (w k) s -> a_lamports (w k) = rent E (length (enc_config s)) -> 0 < n ->
  forall cx w', acct cx 0 = k -> tag (c_data cx) = 15 -> ~ succeeds E cx (gift w k n) w'.
Proof. exact gift_blocks. Qed.
Print Assumptions C82_gift_blocks_closing.
(** until a manager collects the surplus *)
Theorem C82_collect : forall E cx w s r, wf_ctx cx -> is_cfg (w (acct cx 0)) s -> usual_accounts 4 cx w s -> length (c_metas cx) = 4%nat ->
  In r (s_roles s) -> manager r -> asks E cx r TransferAssets ->
  s_wbump s <> 0 -> pda E (seeds_wallet (acct cx 0) (s_wbump s)) = Some (acct cx 1) -> acct cx 1 <> acct cx 0 ->
  writable (c_metas cx) (acct cx 1) = true -> 0 <= rent E (length (enc_config s)) ->
  let extra := Z.max 0 (a_lamports (w (acct cx 0)) - rent E (length (enc_config s))) in
  a_lamports (w (acct cx 1)) + extra < U64 ->
  exists w', succeeds E cx w w' /\ is_cfg (w' (acct cx 0)) (used (r_id r) s)
    /\ a_lamports (w' (acct cx 0)) = a_lamports (w (acct cx 0)) - extra /\ a_lamports (w' (acct cx 1)) = a_lamports (w (acct cx 1)) + extra
    /\ (forall k, k <> acct cx 0 -> k <> acct cx 1 -> a_lamports (w' k) = a_lamports (w k))
    /\ forall k, k <> acct cx 0 -> kept_acct (w k) (w' k).
Proof. exact gather_asked. Qed.
Print Assumptions C82_collect.

Example C82_close_case : let cx := c_close2 (K 40) in let w := den [] in let s := s_den 0 lm None in
  reach toy genesis w /\ wf_ctx cx /\ is_cfg (w (acct cx 0)) s /\ usual_accounts 4 cx w s /\ acct cx 3 = SYSTEM /\ holds 7 m0
  /\ asks toy cx m0 CloseWallet /\ acct cx 1 = fst (find_pda toy (seeds_wallet0 (acct cx 0)))
  /\ pda toy (seeds_wallet (acct cx 0) (s_wbump s)) = Some (acct cx 1) /\ plain_acct (w (acct cx 1))
  /\ writable (c_metas cx) (acct cx 1) = true /\ writable (c_metas cx) (acct cx 2) = true /\ s_claimer s = None
  /\ acct cx 2 <> acct cx 0 /\ acct cx 2 <> acct cx 1 /\ 0 <= a_lamports (w (acct cx 1)) <= rent toy 0
  /\ a_lamports (w (acct cx 0)) = rent toy (length (enc_config s))
  /\ a_lamports (w (acct cx 2)) + a_lamports (w (acct cx 1)) + a_lamports (w (acct cx 0)) < U64.
Proof.
  cbv zeta. split; [apply den_ok; calc|]. split; [demo|]. split; [apply den_cfg; calc|]. split; [apply usualb_ok; calc|]. split; [reflexivity|].
  split; [exists p_all; split; [left; reflexivity|reflexivity]|]. split; [apply asksb_ok; calc|].
  split; [calc|]. split; [calc|]. split; [split; calc|]. split; [calc|]. split; [calc|]. split; [reflexivity|].
  split; [apply beq_neq; calc|]. split; [apply beq_neq; calc|]. split; [split; apply Z.leb_le; calc|]. split; [calc|apply Z.ltb_lt; calc].
Qed.
Example C82_collect_case : let cx := c_xfer2 [] in let w := den [pays SWIG2 5] in let s := s_den 0 lm None in
  reach toy genesis w /\ wf_ctx cx /\ is_cfg (w (acct cx 0)) s /\ usual_accounts 4 cx w s /\ length (c_metas cx) = 4%nat /\ manager m0
  /\ asks toy cx m0 TransferAssets /\ s_wbump s <> 0 /\ pda toy (seeds_wallet (acct cx 0) (s_wbump s)) = Some (acct cx 1)
  /\ acct cx 1 <> acct cx 0 /\ writable (c_metas cx) (acct cx 1) = true
  /\ a_lamports (w (acct cx 0)) - rent toy (length (enc_config s)) = 5 /\ a_lamports (w (acct cx 1)) + 5 < U64.
Proof.
  cbv zeta. split; [apply den_ok; calc|]. split; [demo|]. split; [apply den_cfg; calc|]. split; [apply usualb_ok; calc|]. split; [reflexivity|].
  split; [left; exists p_all; split; [left; reflexivity|reflexivity]|]. split; [apply asksb_ok; calc|]. split; [discriminate|].
  split; [calc|]. split; [apply beq_neq; calc|]. split; [calc|]. split; [calc|apply Z.ltb_lt; calc].
Qed.

(** ** C83: sub-accounts of the second version can be opened, used, switched and emptied *)
Theorem C83_open : forall E cx w s r b1 b2, wf_ctx cx -> is_cfg (w (acct cx 0)) s -> usual_accounts 5 cx w s -> acct cx 4 = SYSTEM -> second_version s ->
  In r (s_roles s) -> holds 22 r -> asks E cx r (CreateSub2 b1 b2) ->
  let n := s_subctr s in let swig := acct cx 0 in let payer := acct cx 1 in let st := acct cx 2 in let sa := acct cx 3 in
  let size := (length (enc_config s) + 16)%nat in
  n + 1 < U32 -> Forall unspent (r_acts r) -> (length (r_acts r) < 255)%nat -> ~ holds_for 23 n r ->
  pda E (seeds_v2_state (s_id s) n b1) = Some st -> pda E (seeds_v2_asset (s_id s) n b2) = Some sa ->
  plain_acct (w st) -> a_owner (w sa) = SYSTEM -> payer <> st -> payer <> sa -> st <> sa ->
  writable (c_metas cx) st = true -> writable (c_metas cx) sa = true -> signer (c_metas cx) payer = true -> writable (c_metas cx) payer = true ->
  (forall k, In k [swig; st; sa] -> 0 <= a_lamports (w k)) -> (forall m, In m [72%nat; 0%nat; size] -> rent E m < U64) -> Z.of_nat size <= 10485760 ->
  let cost := lack E w st 72 + lack E w sa 0 + lack E w swig size in
  can_pay w payer cost ->
  exists w', succeeds E cx w w'
    /\ is_cfg (w' swig) (on_role (r_id r) (put_in_charge n) (next_sub (n + 1) (used (r_id r) s)))
    /\ sub_record E w' s st sa n 1
    /\ a_lamports (w' payer) = a_lamports (w payer) - cost
    /\ forall k, k <> swig -> k <> st -> kept_acct (w k) (w' k).
Proof. exact create2_asked. Qed.
Print Assumptions C83_open.
Theorem C83_sign : forall E cx w s r n payload xs, wf_ctx cx -> is_cfg (w (acct cx 0)) s -> usual_accounts 4 cx w s -> c_height cx = 1%nat -> second_version s ->
  In r (s_roles s) -> holds_for 24 n r \/ holds_for 23 n r -> asks E cx r (SignSub2 n payload) ->
  sub_record E w s (acct cx 1) (acct cx 2) n 1 -> a_owner (w (acct cx 2)) = SYSTEM -> inner_ixs (c_metas cx) (acct cx 2) payload xs ->
  exists w0, is_cfg (w0 (acct cx 0)) (used (r_id r) s) /\ only_here (acct cx 0) w w0
    /\ forall w', in_turn (by_others E (acct cx 2)) xs w0 w' ->
       rent E (length (a_data (w' (acct cx 2)))) <= a_lamports (w' (acct cx 2)) -> succeeds E cx w w'.
Proof. exact sign2_asked. Qed.
Print Assumptions C83_sign.
Theorem C83_switch : forall E cx w s r sa n on on0, wf_ctx cx -> is_cfg (w (acct cx 0)) s -> usual_accounts 3 cx w s -> second_version s ->
  In r (s_roles s) -> holds_for 26 n r \/ holds_for 23 n r -> asks E cx r (ToggleSub2 n on) -> on = 0 \/ on = 1 ->
  wf_key sa -> sub_record E w s (acct cx 2) sa n on0 -> on0 = 0 \/ on0 = 1 -> writable (c_metas cx) (acct cx 2) = true ->
  exists w', succeeds E cx w w' /\ is_cfg (w' (acct cx 0)) (used (r_id r) s) /\ sub_record E w' s (acct cx 2) sa n on
    /\ forall k, k <> acct cx 0 -> k <> acct cx 2 -> kept_acct (w k) (w' k).
Proof. exact toggle2_asked. Qed.
Print Assumptions C83_switch.
Theorem C83_withdraw : forall E cx w s r n x, wf_ctx cx -> is_cfg (w (acct cx 0)) s -> usual_accounts 7 cx w s -> length (c_metas cx) = 7%nat -> second_version s ->
  In r (s_roles s) -> holds_for 25 n r \/ holds_for 23 n r -> asks E cx r (WithdrawSub2 n x) ->
  sub_record E w s (acct cx 2) (acct cx 3) n 1 -> pda E (seeds_wallet (acct cx 0) (s_wbump s)) = Some (acct cx 4) ->
  plain_acct (w (acct cx 3)) -> a_owner (w (acct cx 4)) = SYSTEM -> acct cx 3 <> acct cx 4 ->
  writable (c_metas cx) (acct cx 3) = true -> writable (c_metas cx) (acct cx 4) = true ->
  x <= a_lamports (w (acct cx 3)) -> a_lamports (w (acct cx 4)) + x < U64 ->
  exists w', succeeds E cx w w' /\ is_cfg (w' (acct cx 0)) (used (r_id r) s)
    /\ a_lamports (w' (acct cx 3)) = a_lamports (w (acct cx 3)) - x /\ a_lamports (w' (acct cx 4)) = a_lamports (w (acct cx 4)) + x
    /\ (forall k, k <> acct cx 3 -> k <> acct cx 4 -> a_lamports (w' k) = a_lamports (w k))
    /\ forall k, k <> acct cx 0 -> kept_acct (w k) (w' k).
Proof. exact withdraw2_asked. Qed.
Print Assumptions C83_withdraw.

Example C83_open_case : let cx := c_sub2 0 255 in let w := den [] in let s := s_den 0 lm None in let r := m1 lm in
  let n := s_subctr s in let size := (length (enc_config s) + 16)%nat in
  reach toy genesis w /\ wf_ctx cx /\ is_cfg (w (acct cx 0)) s /\ usual_accounts 5 cx w s /\ acct cx 4 = SYSTEM /\ second_version s
  /\ In r (s_roles s) /\ holds 22 r /\ asks toy cx r (CreateSub2 255 255) /\ Forall unspent (r_acts r) /\ ~ holds_for 23 n r
  /\ pda toy (seeds_v2_state (s_id s) n 255) = Some (acct cx 2) /\ pda toy (seeds_v2_asset (s_id s) n 255) = Some (acct cx 3)
  /\ plain_acct (w (acct cx 2)) /\ a_owner (w (acct cx 3)) = SYSTEM /\ acct cx 1 <> acct cx 2 /\ acct cx 1 <> acct cx 3 /\ acct cx 2 <> acct cx 3
  /\ writable (c_metas cx) (acct cx 2) = true /\ writable (c_metas cx) (acct cx 3) = true
  /\ signer (c_metas cx) (acct cx 1) = true /\ writable (c_metas cx) (acct cx 1) = true
  /\ can_pay w (acct cx 1) (lack toy w (acct cx 2) 72 + lack toy w (acct cx 3) 0 + lack toy w (acct cx 0) size).
Proof.
  cbv zeta. split; [apply den_ok; calc|]. split; [demo|]. split; [apply den_cfg; calc|]. split; [apply usualb_ok; calc|]. split; [reflexivity|].
  split; [apply second_den|]. split; [right; left; reflexivity|]. split; [exists p_v2create; split; [left; reflexivity|reflexivity]|].
  split; [apply asksb_ok; calc|]. split; [exact lm_unspent|].
  split; [intros (a & I & T & _); cbn in I; repeat destruct I as [<-|I]; try contradiction; discriminate T|].
  split; [calc|]. split; [calc|]. split; [split; calc|]. split; [calc|]. split; [apply beq_neq; calc|]. split; [apply beq_neq; calc|].
  split; [apply beq_neq; calc|]. split; [calc|]. split; [calc|]. split; [calc|]. split; [calc|]. split; [calc|]. split; [calc|apply Z.leb_le; calc].
Qed.
Example C83_use_case : let w := den opened in let s := s_den 1 with_sub None in let r := m1 with_sub in
  let c1 := c_subsign2 1 0 255 70 in let c2 := c_toggle2 1 0 255 0 in let c3 := c_wd2 1 0 255 70 in
  reach toy genesis w /\ is_cfg (w SWIG2) s /\ second_version s /\ In r (s_roles s) /\ holds_for 23 0 r
  /\ sub_record toy w s (STATE 0 255) (ASSET 0 255) 0 1
  /\ (wf_ctx c1 /\ usual_accounts 4 c1 w s /\ asks toy c1 r (SignSub2 0 (into_bytes [i_ix 3 [2; 4] (sys_pay 70)]))
      /\ acct c1 1 = STATE 0 255 /\ acct c1 2 = ASSET 0 255
      /\ inner_ixs (c_metas c1) (acct c1 2) (into_bytes [i_ix 3 [2; 4] (sys_pay 70)]) [payment (ASSET 0 255) (K 40) 70])
  /\ (wf_ctx c2 /\ usual_accounts 3 c2 w s /\ asks toy c2 r (ToggleSub2 0 0) /\ acct c2 2 = STATE 0 255 /\ writable (c_metas c2) (acct c2 2) = true)
  /\ (wf_ctx c3 /\ usual_accounts 7 c3 w s /\ length (c_metas c3) = 7%nat /\ asks toy c3 r (WithdrawSub2 0 70) /\ acct c3 2 = STATE 0 255
      /\ acct c3 3 = ASSET 0 255 /\ plain_acct (w (acct c3 3)) /\ a_owner (w (acct c3 4)) = SYSTEM
      /\ pda toy (seeds_wallet (acct c3 0) (s_wbump s)) = Some (acct c3 4) /\ 70 <= a_lamports (w (acct c3 3))).
Proof.
  cbv zeta. split; [apply den_ok; calc|]. split; [apply den_cfg; calc|]. split; [apply second_den|]. split; [right; left; reflexivity|].
  split; [exists (p_v2all 0); split; [right; right; left; reflexivity|split; reflexivity]|].
  split; [apply (sub_recordb_ok _ _ _ _ _ _ 255 255); calc|].
  split; [|split].
  - split; [demo|]. split; [apply usualb_ok; calc|]. split; [apply asksb_ok; calc|]. split; [reflexivity|]. split; [reflexivity|exact asset_inner].
  - split; [demo|]. split; [apply usualb_ok; calc|]. split; [apply asksb_ok; calc|]. split; [reflexivity|calc].
  - split; [demo|]. split; [apply usualb_ok; calc|]. split; [reflexivity|]. split; [apply asksb_ok; calc|]. split; [reflexivity|]. split; [reflexivity|].
    split; [split; calc|]. split; [calc|]. split; [calc|apply Z.leb_le; calc].
Qed.
