(** * Sub-accounts of the first version: who can use them *)
From Verif Require Import BaseFacts SpecSub1 Avail11 DemoSub1.

(** ** C84: the owner of a first-version sub-account can open, use, switch and empty it *)
Theorem C84_open : forall E cx w s r b l1 d l2, wf_ctx cx -> is_cfg (w (acct cx 0)) s -> usual_accounts 4 cx w s ->
  In r (s_roles s) -> sub_perm r (zeros 32) l1 d l2 -> asks E cx r (CreateSub b) ->
  let swig := acct cx 0 in let payer := acct cx 1 in let sa := acct cx 2 in
  pda E (seeds_sub (s_id s) (r_id r) b) = Some sa -> a_owner (w sa) = SYSTEM -> payer <> sa ->
  writable (c_metas cx) sa = true -> signer (c_metas cx) payer = true -> writable (c_metas cx) payer = true ->
  0 <= a_lamports (w sa) -> rent E 0 < U64 -> can_pay w payer (lack E w sa 0) ->
  exists w', succeeds E cx w w'
    /\ is_cfg (w' swig) (permissions (r_id r) (l1 ++ mk_action 9 (sub_v1 sa b 1 (sub 34 2 d) (r_id r) (s_id s)) :: l2) (used (r_id r) s))
    /\ a_lamports (w' payer) = a_lamports (w payer) - lack E w sa 0 /\ a_lamports (w' sa) = a_lamports (w sa) + lack E w sa 0
    /\ forall k, k <> swig -> kept_acct (w k) (w' k).
Proof. exact create1_asked. Qed.
Print Assumptions C84_open.
Theorem C84_sign : forall E cx w s r payload xs l1 d l2 b, wf_ctx cx -> is_cfg (w (acct cx 0)) s -> usual_accounts 3 cx w s -> c_height cx = 1%nat ->
  In r (s_roles s) -> sub_perm r (acct cx 1) l1 d l2 -> opens_sub s d (r_id r) b -> asks E cx r (SignSub payload) ->
  pda E (seeds_sub (s_id s) (r_id r) b) = Some (acct cx 1) -> a_owner (w (acct cx 1)) = SYSTEM -> inner_ixs (c_metas cx) (acct cx 1) payload xs ->
  exists w0, is_cfg (w0 (acct cx 0)) (used (r_id r) s) /\ only_here (acct cx 0) w w0
    /\ forall w', in_turn (by_others E (acct cx 1)) xs w0 w' ->
       rent E (length (a_data (w' (acct cx 1)))) <= a_lamports (w' (acct cx 1)) -> succeeds E cx w w'.
Proof. exact sign1_asked. Qed.
Print Assumptions C84_sign.
Theorem C84_switch : forall E cx w s r tr on l1 d l2, wf_ctx cx -> is_cfg (w (acct cx 0)) s -> usual_accounts 3 cx w s ->
  In r (s_roles s) -> In tr (s_roles s) -> r_id r = r_id tr \/ manager r -> asks E cx r (ToggleSub (r_id tr) on) ->
  sub_perm tr (acct cx 2) l1 d l2 -> a_owner (w (acct cx 2)) = SYSTEM ->
  exists w', succeeds E cx w w'
    /\ is_cfg (w' (acct cx 0)) (permissions (r_id tr) (l1 ++ mk_action 9 (switched on d) :: l2) (used (r_id r) s))
    /\ forall k, k <> acct cx 0 -> kept_acct (w k) (w' k).
Proof. exact toggle1_asked. Qed.
Print Assumptions C84_switch.
Theorem C84_withdraw : forall E cx w s r x, wf_ctx cx -> is_cfg (w (acct cx 0)) s -> usual_accounts 6 cx w s -> length (c_metas cx) = 6%nat ->
  In r (s_roles s) -> may_empty E s r (acct cx 2) -> asks E cx r (WithdrawSub x) ->
  acct cx 4 = fst (find_pda E (seeds_wallet0 (acct cx 0))) ->
  plain_acct (w (acct cx 2)) -> a_owner (w (acct cx 4)) = SYSTEM -> acct cx 2 <> acct cx 4 ->
  writable (c_metas cx) (acct cx 2) = true -> writable (c_metas cx) (acct cx 4) = true ->
  x <= a_lamports (w (acct cx 2)) -> a_lamports (w (acct cx 4)) + x < U64 ->
  exists w', succeeds E cx w w' /\ is_cfg (w' (acct cx 0)) (used (r_id r) s)
    /\ a_lamports (w' (acct cx 2)) = a_lamports (w (acct cx 2)) - x /\ a_lamports (w' (acct cx 4)) = a_lamports (w (acct cx 4)) + x
    /\ (forall k, k <> acct cx 2 -> k <> acct cx 4 -> a_lamports (w' k) = a_lamports (w k))
    /\ forall k, k <> acct cx 0 -> kept_acct (w k) (w' k).
Proof. exact withdraw1_asked. Qed.
Print Assumptions C84_withdraw.
(** A role that manages roles is refused the sub-accounts of other roles, even if
    it holds all powers; nobody but its owner can empty one of a role 11 or above *)
Theorem C84_withdraw_refused : forall E cx w s r, wf_ctx cx -> is_cfg (w (acct cx 0)) s -> tag (c_data cx) = 7 -> In r (s_roles s) -> actor_of (c_data cx) = r_id r ->
  (3 <= length (c_metas cx))%nat -> no_sub_perm r (acct cx 2) ->
  (holds 8 r /\ fst (find_pda E (seeds_sub0 (s_id s) (r_id r))) <> acct cx 2)
  \/ (forall c, 0 <= c <= 10 -> fst (find_pda E (seeds_sub0 (s_id s) c)) <> acct cx 2) ->
  forall w', ~ succeeds E cx w w'.
Proof. exact withdraw1_refused. Qed.
Print Assumptions C84_withdraw_refused.

(** role 1 opens its sub-account *)
Example C84_open_case : let cx := c_sub1 in let w := den [] in let s := s_den 0 lm None in let r := m1 lm in
  reach toy genesis w /\ wf_ctx cx /\ is_cfg (w (acct cx 0)) s /\ usual_accounts 4 cx w s /\ In r (s_roles s)
  /\ sub_perm r (zeros 32) [p_v2create] (ac_data p_sub) [] /\ asks toy cx r (CreateSub 255)
  /\ pda toy (seeds_sub (s_id s) (r_id r) 255) = Some (acct cx 2) /\ a_owner (w (acct cx 2)) = SYSTEM /\ acct cx 1 <> acct cx 2
  /\ writable (c_metas cx) (acct cx 2) = true /\ signer (c_metas cx) (acct cx 1) = true /\ writable (c_metas cx) (acct cx 1) = true
  /\ can_pay w (acct cx 1) (lack toy w (acct cx 2) 0) /\ 0 < lack toy w (acct cx 2) 0.
Proof.
  cbv zeta. split; [apply den_ok; calc|]. split; [demo|]. split; [apply den_cfg; calc|]. split; [apply usualb_ok; calc|]. split; [right; left; reflexivity|].
  split; [apply sub_permb_ok; [reflexivity|calc]|]. split; [apply asksb_ok; calc|]. split; [calc|]. split; [calc|]. split; [apply beq_neq; calc|].
  split; [calc|]. split; [calc|]. split; [calc|]. split; [split; [calc|]; split; [calc|apply Z.leb_le; calc]|apply Z.ltb_lt; calc].
Qed.
(** it uses it, it or role 0 switches it off, it or role 0 empties it *)
Example C84_use_case : let w := den opened1 in let s := s_den 0 with_sub1 None in let r := m1 with_sub1 in let d := ac_data p_sub1 in
  let c1 := c_subsign1 70 in let c2 := c_toggle1 1 0 in let c3 := c_wd1 1 70 in let c4 := c_toggle1 0 0 in let c5 := c_wd1 0 70 in
  reach toy genesis w /\ is_cfg (w SWIG2) s /\ In m0 (s_roles s) /\ In r (s_roles s)
  /\ sub_perm r SUB1 [p_v2create] d [] /\ opens_sub s d (r_id r) 255 /\ pda toy (seeds_sub (s_id s) (r_id r) 255) = Some SUB1
  /\ (wf_ctx c1 /\ usual_accounts 3 c1 w s /\ asks toy c1 r (SignSub (into_bytes [i_ix 2 [1; 3] (sys_pay 70)])) /\ acct c1 1 = SUB1
      /\ inner_ixs (c_metas c1) (acct c1 1) (into_bytes [i_ix 2 [1; 3] (sys_pay 70)]) [payment SUB1 (K 40) 70])
  /\ (wf_ctx c2 /\ usual_accounts 3 c2 w s /\ asks toy c2 r (ToggleSub (r_id r) 0) /\ acct c2 2 = SUB1 /\ a_owner (w SUB1) = SYSTEM)
  /\ (wf_ctx c3 /\ usual_accounts 6 c3 w s /\ length (c_metas c3) = 6%nat /\ asks toy c3 r (WithdrawSub 70) /\ acct c3 2 = SUB1
      /\ may_empty toy s r (acct c3 2) /\ acct c3 4 = fst (find_pda toy (seeds_wallet0 (acct c3 0))) /\ plain_acct (w (acct c3 2))
      /\ a_owner (w (acct c3 4)) = SYSTEM /\ acct c3 2 <> acct c3 4 /\ 70 <= a_lamports (w (acct c3 2)))
  /\ (wf_ctx c4 /\ usual_accounts 3 c4 w s /\ manager m0 /\ asks toy c4 m0 (ToggleSub (r_id r) 0))
  /\ (wf_ctx c5 /\ usual_accounts 6 c5 w s /\ asks toy c5 m0 (WithdrawSub 70) /\ may_empty toy s m0 (acct c5 2)).
Proof.
  cbv zeta. split; [apply den_ok; calc|]. split; [apply den_cfg; calc|]. split; [left; reflexivity|]. split; [right; left; reflexivity|].
  split; [apply sub_permb_ok; [reflexivity|calc]|]. split; [split; [discriminate|repeat split; calc]|]. split; [calc|].
  split; [|split; [|split; [|split]]].
  - split; [demo|]. split; [apply usualb_ok; calc|]. split; [apply asksb_ok; calc|]. split; [reflexivity|exact sub1_inner].
  - split; [demo|]. split; [apply usualb_ok; calc|]. split; [apply asksb_ok; calc|]. split; [reflexivity|calc].
  - split; [demo|]. split; [apply usualb_ok; calc|]. split; [reflexivity|]. split; [apply asksb_ok; calc|]. split; [reflexivity|].
    split; [left; exists [p_v2create], (ac_data p_sub1), [], 255; split; [apply sub_permb_ok; [reflexivity|calc]|]; split; [split; [discriminate|repeat split; calc]|calc]|].
    split; [calc|]. split; [split; calc|]. split; [calc|]. split; [apply beq_neq; calc|apply Z.leb_le; calc].
  - split; [demo|]. split; [apply usualb_ok; calc|]. split; [left; exists p_all; split; [left; reflexivity|reflexivity]|apply asksb_ok; calc].
  - split; [demo|]. split; [apply usualb_ok; calc|]. split; [apply asksb_ok; calc|]. right. split; [apply no_permb_ok; calc|].
    split; [exists p_all; split; [left; reflexivity|reflexivity]|]. split; [apply holdsb_no; calc|]. split; [exact toy_search|].
    exists 1. split; [split; discriminate|calc].
Qed.
(** role 0 is refused once it holds the permission to manage roles as well; before
    that, the same call succeeds *)
Example C84_narrowed_case : let cx := c_wd1 0 70 in let w := den narrowed in
  reach toy genesis w /\ wf_ctx cx /\ is_cfg (w (acct cx 0)) s_narrowed /\ tag (c_data cx) = 7 /\ In m0' (s_roles s_narrowed)
  /\ actor_of (c_data cx) = r_id m0' /\ no_sub_perm m0' (acct cx 2) /\ holds 7 m0' /\ holds 8 m0'
  /\ fst (find_pda toy (seeds_sub0 (s_id s_narrowed) (r_id m0'))) <> acct cx 2
  /\ exists w', succeeds toy cx (den opened1) w'.
Proof.
  cbv zeta. split; [apply den_ok; calc|]. split; [demo|]. split; [apply cfgb_ok; calc|]. split; [calc|]. split; [left; reflexivity|].
  split; [calc|]. split; [apply no_permb_ok; calc|]. split; [apply holdsb_yes; calc|]. split; [apply holdsb_yes; calc|]. split; [apply beq_neq; calc|].
  eexists. unfold succeeds. vm_compute. reflexivity.
Qed.
Example C84_role_11_case : let cx := c_wd11 70 in let w := den opened1 in let s := s_den 0 with_sub1 None in
  wf_ctx cx /\ is_cfg (w (acct cx 0)) s /\ tag (c_data cx) = 7 /\ In m0 (s_roles s) /\ actor_of (c_data cx) = r_id m0
  /\ no_sub_perm m0 (acct cx 2) /\ acct cx 2 = fst (find_pda toy (seeds_sub0 (s_id s) 11))
  /\ forall c, 0 <= c <= 10 -> fst (find_pda toy (seeds_sub0 (s_id s) c)) <> acct cx 2.
Proof.
  cbv zeta. split; [demo|]. split; [apply den_cfg; calc|]. split; [calc|]. split; [left; reflexivity|]. split; [calc|].
  split; [apply no_permb_ok; calc|]. split; [calc|exact far_away].
Qed.
