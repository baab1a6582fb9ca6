(** * Opening and switching sub-accounts.

    Vocabulary: [acts], [used], [others_kept], [on_role], [with_acts] (SpecActs);
    [sub_v1] is the permission (number 9) of a role for its V1 sub-account and
    [state_record] the contents of the state account of a V2 sub-account
    (SpecLife). *)
From Verif Require Import SpecConfig SpecSteps ConfigProps LifeProps DemoLife SubProps.

(** ** C59: a V1 sub-account is opened only by a role that holds an unused
    sub-account permission, which from then on names the address derived from
    wallet, role and bump; the flag of a V1 sub-account is switched only by the role
    it belongs to or by a manager; the flag of a V2 sub-account only by a role with
    the permission to do so.  Nothing else changes. *)
Theorem C59_create : forall E cx w w' s, hashes_ok E -> wf_ctx cx -> is_cfg (w (acct cx 0)) s -> succeeds E cx w w' ->
  tag (c_data cx) = 6 -> let k := acct cx 0 in let sa := acct cx 2 in let bump := byte_at 8 (c_data cx) in
  exists r before a after, acts E cx s r /\ r_acts r = before ++ a :: after
    /\ ac_ty a = 9 /\ sub 0 32 (ac_data a) = zeros 32
    /\ pda E (seeds_sub (s_id s) (r_id r) bump) = Some sa /\ a_owner (w sa) = SYSTEM
    /\ is_cfg (w' k) (on_role (r_id r) (fun r0 => with_acts r0
         (before ++ mk_action 9 (sub_v1 sa bump 1 (sub 34 2 (ac_data a)) (r_id r) (s_id s)) :: after))
         (used (actor_of (c_data cx)) s))
    /\ others_kept w w' k.
Proof. exact sub1_created. Qed.
Print Assumptions C59_create.
Theorem C59_toggle : forall E cx w w' s, hashes_ok E -> wf_ctx cx -> is_cfg (w (acct cx 0)) s -> succeeds E cx w w' ->
  tag (c_data cx) = 10 -> let k := acct cx 0 in let rid := u32_at 8 (c_data cx) in
  exists r tr before a after, acts E cx s r /\ (r_id r = rid \/ manager r)
    /\ find_role rid s = Some tr /\ r_acts tr = before ++ a :: after
    /\ ac_ty a = 9 /\ sub 0 32 (ac_data a) = acct cx 2
    /\ is_cfg (w' k) (on_role rid (fun r0 => with_acts r0
         (before ++ mk_action 9 (splice 33 [byte_at 2 (c_data cx)] (ac_data a)) :: after))
         (used (actor_of (c_data cx)) s))
    /\ others_kept w w' k.
Proof. exact sub1_toggled. Qed.
Print Assumptions C59_toggle.
Theorem C59_toggle_v2 : forall E cx w w' s, hashes_ok E -> wf_ctx cx -> is_cfg (w (acct cx 0)) s -> succeeds E cx w w' ->
  good_world E w -> tag (c_data cx) = 19 -> let k := acct cx 0 in
  let n := u32_at 8 (c_data cx) in let st := acct cx 2 in let en := byte_at 2 (c_data cx) in
  exists r bump abump en0 sa, acts E cx s r /\ (holds_for 26 n r \/ holds_for 23 n r) /\ (en = 0 \/ en = 1)
    /\ a_owner (w st) = SELF /\ a_data (w st) = state_record bump abump en0 n (s_id s) sa
    /\ a_owner (w' st) = SELF /\ a_data (w' st) = state_record bump abump en n (s_id s) sa
    /\ is_cfg (w' k) (used (actor_of (c_data cx)) s) /\ (forall k', k' <> k -> k' <> st -> kept_acct (w k') (w' k')).
Proof. exact sub2_toggled. Qed.
Print Assumptions C59_toggle_v2.

(** role 1 opens its sub-account, once *)
Example C59_create_case : let w := den [] in let cx := c_sub1 in let w' := result w (process toy cx w) in
  hashes_ok toy /\ wf_ctx cx /\ is_cfg (w (acct cx 0)) (s_den 0 lm None) /\ succeeds toy cx w w' /\ tag (c_data cx) = 6
  /\ is_cfg (w' SWIG2) (s_den 0 [p_v2create; p_sub1] None)
  /\ okb (process toy c_sub1 w') = false.
Proof. cbv zeta. life; calc. Qed.
(** the manager (role 0) disables it, and role 1 cannot do so for role 0 *)
Example C59_toggle_case : let w := den [Call c_sub1] in let cx := c_toggle1 0 0 in let w' := result w (process toy cx w) in
  hashes_ok toy /\ wf_ctx cx /\ is_cfg (w (acct cx 0)) (s_den 0 [p_v2create; p_sub1] None) /\ succeeds toy cx w w' /\ tag (c_data cx) = 10
  /\ is_cfg (w' SWIG2) (s_den 0 [p_v2create; mk_action 9 (sub_v1 SUB1 255 0 (zeros 2) 1 ID2)] None)
  /\ okb (process toy (c_subsign1 5) (run toy w [pays SUB1 900])) = true
  /\ okb (process toy (c_subsign1 5) (run toy w' [pays SUB1 900])) = false.
Proof. cbv zeta. life; calc. Qed.
Example C59_toggle_v2_case : let w := den [Call (c_sub2 0 255)] in let cx := c_toggle2 1 0 255 0 in let w' := result w (process toy cx w) in
  hashes_ok toy /\ wf_ctx cx /\ is_cfg (w (acct cx 0)) (s_den 1 (lm ++ [p_v2all 0]) None) /\ succeeds toy cx w w'
  /\ good_world toy w /\ tag (c_data cx) = 19
  /\ a_data (w (STATE 0 255)) = state_record 255 255 1 0 ID2 (ASSET 0 255)
  /\ a_data (w' (STATE 0 255)) = state_record 255 255 0 0 ID2 (ASSET 0 255)
  /\ okb (process toy (c_toggle2 1 1 255 0) w) = false.
Proof. cbv zeta. life; calc. Qed.
