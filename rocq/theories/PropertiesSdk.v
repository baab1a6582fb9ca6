(** * The Rust SDK: what it reports about a wallet, and how its clients keep up
    with the signature counter. [tells p g]: the permission [p] that a role holds
    on chain is what the SDK calls [g]. *)
From Verif Require Import DemoSdk.

(** ** C76: the listing of a role's permissions *)
(** nothing is listed that the role does not hold, and all it can use is listed, up to [left_out] *)
Theorem C76_listing : forall a s i r, is_cfg a s -> find_role i s = Some r ->
  exists l, get_role_permissions (a_data a) i = Ok l
    /\ (forall g, In g l -> exists p, in_use (r_acts r) p /\ tells p g)
    /\ (forall p g, in_use (r_acts r) p -> tells p g -> ~ left_out g -> In g l).
Proof. exact report_fair. Qed.
Print Assumptions C76_listing.
Theorem C76_no_role : forall a s i, is_cfg a s -> find_role i s = None -> get_role_permissions (a_data a) i = Err PInvalidArgument.
Proof. exact report_none. Qed.
Print Assumptions C76_no_role.
(** what is granted to a new role is listed afterwards, renewing limits as full *)
Theorem C76_granted : forall E cx w s r ty c gs, wf_ctx cx -> is_cfg (w (acct cx 0)) s -> admin_accounts cx w s ->
  In r (s_roles s) -> manager r -> let l := to_client_actions gs in asks E cx r (AddRole ty c (enc_actions 0 l)) ->
  room 1 s -> credential_ok ty c -> (1 <= length gs <= 255)%nat -> Forall grantable gs -> NoDup (v2_scopes l) ->
  let nr := new_role s ty c l in let size := length (enc_config (add_to s nr)) in
  Z.of_nat (role_len nr) <= 10240 -> Z.of_nat size <= 10485760 -> funded E cx w (acct cx 0) (acct cx 1) size ->
  exists w' given, succeeds E cx w w' /\ get_role_permissions (a_data (w' (acct cx 0))) (s_counter s) = Ok given
    /\ forall g, In g gs -> in_use l (client_action g) -> ~ left_out g -> In (at_start g) given.
Proof. exact granted_listed. Qed.
Print Assumptions C76_granted.
(** the question whether a role has a permission *)
Theorem C76_question : forall a s i r g, is_cfg a s -> find_role i s = Some r -> exists b,
  role_has_permission (a_data a) i g = Ok b
  /\ (b = true -> exists p, in_use (r_acts r) p /\ tells p g)
  /\ (forall p, in_use (r_acts r) p -> tells p g -> ~ left_out g -> b = true).
Proof. exact asked_permission. Qed.
Print Assumptions C76_question.
(** a role that may close the wallet and use an account of a program appears to hold nothing *)
Theorem C76_hidden_refuted : exists E w0 w k s i r, foreign_ok E /\ fresh w0 /\ reach E w0 w /\ is_cfg (w k) s /\ find_role i s = Some r
  /\ holds 20 r /\ holds 4 r /\ get_role_permissions (a_data (w k)) i = Ok [].
Proof.
  exists toy, genesis, (hired [p_close; p_scope 0 0]), SWIG, (s_hired [p_close; p_scope 0 0]), 6, (r6 [p_close; p_scope 0 0]).
  unfold hired. later; try calc.
  - exists p_close. split; [left; reflexivity|reflexivity].
  - exists (p_scope 0 0). split; [right; left; reflexivity|reflexivity].
Qed.
Print Assumptions C76_hidden_refuted.
(** what was just granted is denied *)
Theorem C76_denied_refuted : exists E w0 w cx w' swig payer auth rid ty c gs g, foreign_ok E /\ fresh w0 /\ reach E w0 w
  /\ sent_exactly cx (sdk_add_ed swig payer auth rid ty c gs) /\ succeeds E cx w w' /\ In g gs
  /\ role_has_permission (a_data (w' swig)) 6 g = Ok false /\ role_has_permission (a_data (w' swig)) 6 (at_start g) = Ok true.
Proof.
  exists toy, genesis, home, (post 6 (x_lend gs6)), (lent gs6), SWIG, (K 10), (K 11), 1, 1, (K 13), gs6, (GSol 500 (Some (mk_renewal 100 0 0))).
  unfold lent. later; try (apply post_sent); try calc. left; reflexivity.
Qed.
Print Assumptions C76_denied_refuted.
(** taking one permission away, as the SDK does it by the number of its kind, takes others away *)
Theorem C76_take_refuted : exists E w0 w cx w' swig payer auth rid target g g' l l', foreign_ok E /\ fresh w0 /\ reach E w0 w
  /\ sent_exactly cx (update_ed swig payer auth rid target (RemoveByType [to_action_type g])) /\ succeeds E cx w w'
  /\ get_role_permissions (a_data (w swig)) target = Ok l /\ In g l /\ In g' l /\ g <> g'
  /\ get_role_permissions (a_data (w' swig)) target = Ok l' /\ ~ In g' l'.
Proof.
  exists toy, genesis, (lent gs6), (post 7 x_take), (run toy (lent gs6) [Call (post 7 x_take)]), SWIG, (K 10), (K 11), 1, 6,
    (GToken (K 70) 9 None), (GToken (K 71) 8 None), given6, left6.
  unfold lent. later; try (apply post_sent); try calc.
  - right; left; reflexivity.
  - right; right; left; reflexivity.
  - intros Q. apply (f_equal (fun g => match g with GToken _ n _ => n | _ => 0 end)) in Q. discriminate Q.
  - cbn. intuition discriminate.
Qed.
Print Assumptions C76_take_refuted.

Example C76_case : is_cfg (lent gs6 SWIG) (s_lent gs6) /\ reach toy genesis (lent gs6)
  /\ find_role 6 (s_lent gs6) = Some (r6 (to_client_actions gs6)) /\ find_role 9 (s_lent gs6) = None
  /\ get_role_permissions (a_data (lent gs6 SWIG)) 6 = Ok given6
  /\ in_use (to_client_actions gs6) (client_action (GToken (K 71) 8 None))
  /\ tells (client_action (GToken (K 71) 8 None)) (GToken (K 71) 8 None) /\ ~ left_out (GToken (K 71) 8 None).
Proof.
  unfold lent, s_lent. split; [later; calc|]. split; [later; calc|]. split; [reflexivity|]. split; [reflexivity|]. split; [calc|]. split; [|split].
  - exists (firstn 2 (to_client_actions gs6)), (skipn 3 (to_client_actions gs6)). split; [reflexivity|discriminate].
  - apply t_token; [reflexivity|split; [discriminate|reflexivity]].
  - exact (fun x => x).
Qed.
Example C76_granted_case : let cx := post 6 (x_lend gs6) in let l := to_client_actions gs6 in
  let nr := new_role s_home 1 (K 13) l in let size := length (enc_config (add_to s_home nr)) in
  reach toy genesis home /\ wf_ctx cx /\ is_cfg (home (acct cx 0)) s_home /\ admin_accounts cx home s_home /\ In r1 (s_roles s_home)
  /\ manager r1 /\ asks toy cx r1 (AddRole 1 (K 13) (enc_actions 0 l)) /\ room 1 s_home /\ credential_ok 1 (K 13)
  /\ (1 <= length gs6 <= 255)%nat /\ Forall grantable gs6 /\ NoDup (v2_scopes l)
  /\ Z.of_nat (role_len nr) <= 10240 /\ Z.of_nat size <= 10485760 /\ funded toy cx home (acct cx 0) (acct cx 1) size.
Proof.
  cbv zeta. at_home; avail; try (apply asksb_ok; calc); try (apply fundedb_ok; calc).
  right; left; reflexivity. right. exists p_manage. split; [left; reflexivity|reflexivity]. left. split; reflexivity.
  all: try (cbn; lia). all: try (apply grants6_ok). apply (nodupb_ok pairb); [|calc]. intros [x y]. unfold pairb. rewrite !Z.eqb_refl. reflexivity.
Qed.

(** ** C77: what the SDK answers about a role *)
Theorem C77_all : forall a s i r l, is_cfg a s -> find_role i s = Some r -> get_role_permissions (a_data a) i = Ok l ->
  (has_all_permissions l = true <-> holds 7 r).
Proof. exact says_all. Qed.
Print Assumptions C77_all.
Theorem C77_manage : forall a s i r l, is_cfg a s -> find_role i s = Some r -> get_role_permissions (a_data a) i = Ok l ->
  (can_manage_authority l = true <-> holds 8 r).
Proof. exact says_manage. Qed.
Print Assumptions C77_manage.
(** yes for all permissions or a SOL limit that is not lower, spent or not *)
Theorem C77_spend : forall a s i r l, is_cfg a s -> find_role i s = Some r -> get_role_permissions (a_data a) i = Ok l -> forall n,
  can_spend_sol l n = true <->
  holds 7 r \/ exists p lim q, in_use (r_acts r) p /\ tells p (GSol lim q)
    /\ (n <= lim \/ exists x, q = Some x /\ n <= rn_left x).
Proof. exact says_spend. Qed.
Print Assumptions C77_spend.
Theorem C77_counts : forall a s, is_cfg a s ->
  get_role_count (a_data a) = Ok (s_counter s) /\ get_sub_account_v2_counter (a_data a) = Ok (s_subctr s).
Proof. intros a s C. split; [exact (count_says a s C)|exact (subs_says a s C)]. Qed.
Print Assumptions C77_counts.
(** the answer yes, but the program refuses the amount, and takes less *)
Theorem C77_yes_refuted : exists E w0 w swig wallet auth to i l n m cx cx', foreign_ok E /\ fresh w0 /\ reach E w0 w
  /\ get_role_permissions (a_data (w swig)) i = Ok l /\ can_spend_sol l n = true
  /\ let pay := fun n => sign_ed swig wallet auth (mk_ix SYSTEM [sw wallet; rw to] (sys_pay n)) i [] in
     sent_exactly cx (pay n) /\ okb (process E cx w) = false
  /\ sent_exactly cx' (pay m) /\ okb (process E cx' w) = true /\ m < n /\ rent E 0 + n <= a_lamports (w wallet).
Proof.
  exists toy, genesis, (run toy home [Call (post 6 (x_lend renewing)); Call (pay6 300)]), SWIG, WALLET, (K 13), (K 40), 6,
    [GSol 500 (Some (mk_renewal 1000 0 200)); GProgram SYSTEM], 300, 200, (pay6 300), (pay6 200).
  cbv zeta. later; try (apply post_sent); try calc. apply Z.leb_le. calc.
Qed.
Print Assumptions C77_yes_refuted.
(** the answer no, but the program lets the role spend *)
Theorem C77_no_refuted : exists E w0 w swig wallet auth to i l n cx, foreign_ok E /\ fresh w0 /\ reach E w0 w
  /\ get_role_permissions (a_data (w swig)) i = Ok l /\ can_spend_sol l n = false
  /\ sent_exactly cx (sign_ed swig wallet auth (mk_ix SYSTEM [sw wallet; rw to] (sys_pay n)) i []) /\ okb (process E cx w) = true.
Proof.
  exists toy, genesis, (lent [GAllButManage]), SWIG, WALLET, (K 13), (K 40), 6, [GAllButManage], 5, (pay6 5).
  unfold lent. later; try (apply post_sent); calc.
Qed.
Print Assumptions C77_no_refuted.
(** a role said to be unable to manage adds a role *)
Theorem C77_manage_refuted : exists E w0 w swig payer auth i l ty c gs cx, foreign_ok E /\ fresh w0 /\ reach E w0 w
  /\ get_role_permissions (a_data (w swig)) i = Ok l /\ can_manage_authority l = false
  /\ sent_exactly cx (sdk_add_ed swig payer auth i ty c gs) /\ okb (process E cx w) = true.
Proof.
  exists toy, genesis, home, SWIG, (K 10), (K 10), 0, [GAll], 1, (K 13), gs6, (post 6 (sdk_add_ed SWIG (K 10) (K 10) 0 1 (K 13) gs6)).
  later; try (apply post_sent); calc.
Qed.
Print Assumptions C77_manage_refuted.
(** the number of roles counts those that were removed *)
Theorem C77_count_refuted : exists E w0 w k s, foreign_ok E /\ fresh w0 /\ reach E w0 w /\ is_cfg (w k) s
  /\ get_role_count (a_data (w k)) = Ok 6 /\ length (s_roles s) = 5%nat.
Proof.
  exists toy, genesis, (run toy home [Call (post 7 x_fire)]), SWIG, (mk_config 255 WID 6 254 (zeros 3) 0 [r0; r1; r2; r4; r5] None).
  later; calc.
Qed.
Print Assumptions C77_count_refuted.
Example C77_case : is_cfg (lent renewing SWIG) (s_lent renewing) /\ find_role 6 (s_lent renewing) = Some (r6 (to_client_actions renewing))
  /\ (let l := [GSol 500 (Some (mk_renewal 1000 0 500)); GProgram SYSTEM] in
      get_role_permissions (a_data (lent renewing SWIG)) 6 = Ok l /\ can_spend_sol l 500 = true /\ can_spend_sol l 501 = false
      /\ has_all_permissions l = false)
  /\ get_role_permissions (a_data (home SWIG)) 0 = Ok [GAll] /\ has_all_permissions [GAll] = true
  /\ find_role 1 s_home = Some r1 /\ get_role_permissions (a_data (home SWIG)) 1 = Ok [GManage; GSol 1000000 None; GProgram SYSTEM]
  /\ get_sub_account_v2_counter (a_data (home SWIG)) = Ok 0.
Proof. unfold lent, s_lent. later; try calc; reflexivity. Qed.

(** ** C78: looking up a role, and its signature counter *)
Theorem C78_lookup : forall a s q, is_cfg a s -> exists o, lookup_role_id (a_data a) q = Ok o
  /\ match o with
     | Some i => exists l1 r l2, s_roles s = l1 ++ r :: l2 /\ r_id r = i /\ named_by q r /\ forall r', In r' l1 -> ~ named_by q r'
     | None => forall r, In r (s_roles s) -> ~ named_by q r
     end.
Proof. exact looked_up. Qed.
Print Assumptions C78_lookup.
(** of several roles with one key only the first can be looked up *)
Theorem C78_shadowed : forall a s q r r' l1 l2, is_cfg a s -> s_roles s = l1 ++ r :: l2 -> In r' l1 ->
  r_aty r' = r_aty r -> r_aty r <= 6 -> firstn (key_size (r_aty r)) (r_auth r') = firstn (key_size (r_aty r)) (r_auth r) ->
  lookup_role_id (a_data a) q <> Ok (Some (r_id r)).
Proof. exact shadowed. Qed.
Print Assumptions C78_shadowed.
(** ... and the program does allow such roles *)
Example C78_shadowed_case : reach toy genesis twins /\ is_cfg (twins SWIG) s_twins
  /\ s_roles s_twins = [r0; r1; r2; r3; r4; r5] ++ r_twin :: [] /\ In r1 [r0; r1; r2; r3; r4; r5] /\ r_aty r1 = r_aty r_twin
  /\ r_aty r_twin <= 6 /\ firstn (key_size (r_aty r_twin)) (r_auth r1) = firstn (key_size (r_aty r_twin)) (r_auth r_twin)
  /\ lookup_role_id (a_data (twins SWIG)) (K 11) = Ok (Some 1) /\ lookup_role_id (a_data (twins SWIG)) (K 99) = Ok None.
Proof.
  unfold twins, s_twins. later; try calc; try reflexivity. right; left; reflexivity. discriminate.
Qed.
Theorem C78_counter : forall ty a s q n, is_cfg a s -> signature_counter ty (a_data a) q = Ok n ->
  exists i r, lookup_role_id (a_data a) q = Ok (Some i) /\ find_role i s = Some r /\ named_by q r /\ r_aty r = ty /\ n = cred_counter (r_auth r).
Proof. exact counter_says. Qed.
Print Assumptions C78_counter.
(** a request built with the counter just read passes the program's check *)
Theorem C78_up_to_date : forall E swig rid sign slot q n o ks x cx a s r, is_cfg a s -> signature_counter 3 (a_data a) q = Ok n ->
  lookup_role_id (a_data a) q = Ok (Some rid) -> find_role rid s = Some r ->
  in_range o -> starts_session o = false -> built_k1 swig rid E sign slot (next_odometer n) o ks x ->
  sent_exactly cx x -> (length (ix_metas x) <= 64)%nat ->
  (forall m, k1_signs E (cred_key (r_auth r)) (keccak E m) (sign (keccak E m))) ->
  is_u64 slot -> in_time (c_slot cx) slot -> passes E cx r (count_up (r_auth r)).
Proof. exact fresh_client. Qed.
Print Assumptions C78_up_to_date.
Example C78_case : let cx := post 30 x_k1 in
  is_cfg (home SWIG) s_home /\ signature_counter 3 (a_data (home SWIG)) ([2] ++ k1_x) = Ok 0
  /\ lookup_role_id (a_data (home SWIG)) ([2] ++ k1_x) = Ok (Some 2) /\ find_role 2 s_home = Some r2
  /\ in_range (Sign (packed [SWIG] [w_ SWIG; w_ WALLET; SYS] [pay_ix (K 40) 5]))
  /\ built_k1 SWIG 2 toy k1_sign 20 (next_odometer 0) (Sign (packed [SWIG] [w_ SWIG; w_ WALLET; SYS] [pay_ix (K 40) 5])) [WALLET] x_k1
  /\ sent_exactly cx x_k1 /\ (length (ix_metas x_k1) <= 64)%nat
  /\ (forall m, k1_signs toy (cred_key (r_auth r2)) (keccak toy m) (k1_sign (keccak toy m)))
  /\ is_u64 20 /\ in_time (c_slot cx) 20 /\ succeeds toy cx home (run toy home [Call cx]).
Proof.
  cbv zeta. split; [exact home_cfg|]. split; [calc|]. split; [calc|]. split; [reflexivity|]. split; [reflexivity|].
  split; [apply k_sign|]. split; [apply post_sent|]. split; [apply Nat.leb_le; calc|]. split; [intros m; exact (k1_signs_toy m)|].
  split; [split; [discriminate|reflexivity]|]. split; [|apply run_one; calc]. apply in_time_20.
Qed.

(** ** C79: clients and the signature counter *)
(** a request is refused unless it was built with the next counter *)
Theorem C79_behind_k1 : forall E swig rid sign slot n o ks x cx w w' s r,
  foreign_ok E -> hashes_ok E -> good_world E w -> admissible E w (Call cx) ->
  is_u32 rid -> in_range o -> is_u32 n -> built_k1 swig rid E sign slot n o ks x -> sent cx x ->
  is_cfg (w swig) s -> find_role rid s = Some r -> by_counter cx r -> succeeds E cx w w' ->
  n = (cred_counter (r_auth r) + 1) mod 2 ^ 32.
Proof. exact stale_k1. Qed.
Print Assumptions C79_behind_k1.
Theorem C79_behind_r1 : forall E swig rid sign pk slot n o ks v x cx w w' s r,
  foreign_ok E -> hashes_ok E -> good_world E w -> admissible E w (Call cx) ->
  is_u32 rid -> in_range o -> is_u32 n -> built_r1 swig rid E sign pk slot n o ks [v; x] -> sent cx x ->
  is_cfg (w swig) s -> find_role rid s = Some r -> by_counter cx r -> succeeds E cx w w' ->
  n = (cred_counter (r_auth r) + 1) mod 2 ^ 32.
Proof. exact stale_r1. Qed.
Print Assumptions C79_behind_r1.
(** Payments built at once by a secp256k1 or secp256r1 client: after one of them was
    accepted, another one of them or it again is not, until the key is replaced *)
Theorem C79_batch_k1 : forall E swig wallet rid sign slot odo signers inners i j x1 x2 cx1 cx2 w w1 w2 w3 s s2 r1 r2,
  foreign_ok E -> hashes_ok E -> good_world E w -> is_u32 rid ->
  Forall (fun i => in_range (Sign (packed [swig] [w_ swig; w_ wallet; SYS] [i]))) inners ->
  let l := sdk_sign_k1 E sign slot odo swig wallet rid signers inners in
  nth_error l i = Some x1 -> nth_error l j = Some x2 ->
  sent cx1 x1 -> admissible E w (Call cx1) ->
  is_cfg (w swig) s -> find_role rid s = Some r1 -> by_counter cx1 r1 -> succeeds E cx1 w w1 ->
  reach E w1 w2 ->
  sent cx2 x2 -> admissible E w2 (Call cx2) ->
  is_cfg (w2 swig) s2 -> find_role rid s2 = Some r2 -> by_counter cx2 r2 -> succeeds E cx2 w2 w3 ->
  exists ts, path E swig ts s s2 /\ (Exists (rotates rid) ts \/ 2 ^ 32 <= Z.of_nat (steps_by rid ts) + 1).
Proof. exact batch_k1. Qed.
Print Assumptions C79_batch_k1.
Theorem C79_batch_r1 : forall E swig wallet rid sign pk slot odo signers inners i j v1 v2 x1 x2 cx1 cx2 w w1 w2 w3 s s2 r1 r2,
  foreign_ok E -> hashes_ok E -> good_world E w -> is_u32 rid ->
  Forall (fun i => in_range (Sign (packed [swig] [w_ swig; w_ wallet; SYS; IXS] [i]))) inners ->
  let l := sdk_sign_r1 E sign pk slot odo swig wallet rid signers inners in
  nth_error l i = Some [v1; x1] -> nth_error l j = Some [v2; x2] ->
  sent cx1 x1 -> admissible E w (Call cx1) ->
  is_cfg (w swig) s -> find_role rid s = Some r1 -> by_counter cx1 r1 -> succeeds E cx1 w w1 ->
  reach E w1 w2 ->
  sent cx2 x2 -> admissible E w2 (Call cx2) ->
  is_cfg (w2 swig) s2 -> find_role rid s2 = Some r2 -> by_counter cx2 r2 -> succeeds E cx2 w2 w3 ->
  exists ts, path E swig ts s s2 /\ (Exists (rotates rid) ts \/ 2 ^ 32 <= Z.of_nat (steps_by rid ts) + 1).
Proof. exact batch_r1. Qed.
Print Assumptions C79_batch_r1.
(** After a client has added a role or opened a session, its next request is not accepted *)
Theorem C79_forgotten_k1 : forall E swig rid sign1 sign2 slot1 slot2 odo o1 o2 ks1 ks2 x1 x2 cx1 cx2 w w1 w2 w3 s s2 r1 r2,
  foreign_ok E -> hashes_ok E -> good_world E w -> is_u32 rid -> in_range o1 -> in_range o2 ->
  match o1 with AddRole _ _ _ | OpenSession _ _ => True | _ => False end ->
  built_k1 swig rid E sign1 slot1 (next_odometer odo) o1 ks1 x1 -> sent cx1 x1 -> admissible E w (Call cx1) ->
  is_cfg (w swig) s -> find_role rid s = Some r1 -> by_counter cx1 r1 -> succeeds E cx1 w w1 ->
  reach E w1 w2 ->
  built_k1 swig rid E sign2 slot2 (next_odometer (odometer_after o1 odo)) o2 ks2 x2 -> sent cx2 x2 -> admissible E w2 (Call cx2) ->
  is_cfg (w2 swig) s2 -> find_role rid s2 = Some r2 -> by_counter cx2 r2 -> succeeds E cx2 w2 w3 ->
  exists ts, path E swig ts s s2 /\ (Exists (rotates rid) ts \/ 2 ^ 32 <= Z.of_nat (steps_by rid ts) + 1).
Proof. exact lost_k1. Qed.
Print Assumptions C79_forgotten_k1.
Theorem C79_forgotten_r1 : forall E swig rid sign1 sign2 pk1 pk2 slot1 slot2 odo o1 o2 ks1 ks2 v1 v2 x1 x2 cx1 cx2 w w1 w2 w3 s s2 r1 r2,
  foreign_ok E -> hashes_ok E -> good_world E w -> is_u32 rid -> in_range o1 -> in_range o2 ->
  match o1 with AddRole _ _ _ | OpenSession _ _ => True | _ => False end ->
  built_r1 swig rid E sign1 pk1 slot1 (next_odometer odo) o1 ks1 [v1; x1] -> sent cx1 x1 -> admissible E w (Call cx1) ->
  is_cfg (w swig) s -> find_role rid s = Some r1 -> by_counter cx1 r1 -> succeeds E cx1 w w1 ->
  reach E w1 w2 ->
  built_r1 swig rid E sign2 pk2 slot2 (next_odometer (odometer_after o1 odo)) o2 ks2 [v2; x2] -> sent cx2 x2 -> admissible E w2 (Call cx2) ->
  is_cfg (w2 swig) s2 -> find_role rid s2 = Some r2 -> by_counter cx2 r2 -> succeeds E cx2 w2 w3 ->
  exists ts, path E swig ts s s2 /\ (Exists (rotates rid) ts \/ 2 ^ 32 <= Z.of_nat (steps_by rid ts) + 1).
Proof. exact lost_r1. Qed.
Print Assumptions C79_forgotten_r1.
(** each of the two payments is accepted alone; the second is not accepted after the first,
    unless the key was replaced and put back *)
Example C79_batch_case : let cx1 := post 30 first_of in let cx2 := post 30 second_of in
  let w1 := run toy home [Call cx1] in let w2 := run toy home [Call cx1; Call (c_rotate 2 ([2] ++ K 60)); Call (c_rotate 2 ([2] ++ k1_x))] in
  foreign_ok toy /\ hashes_ok toy /\ good_world toy home
  /\ Forall (fun i => in_range (Sign (packed [SWIG] [w_ SWIG; w_ WALLET; SYS] [i]))) [pay_ix (K 40) 5; pay_ix (K 40) 6]
  /\ nth_error both 0 = Some first_of /\ nth_error both 1 = Some second_of /\ sent cx1 first_of /\ sent cx2 second_of
  /\ admissible toy home (Call cx1) /\ is_cfg (home SWIG) s_home /\ find_role 2 s_home = Some r2 /\ by_counter cx1 r2
  /\ succeeds toy cx1 home w1 /\ reach toy w1 w2 /\ admissible toy w2 (Call cx2) /\ by_counter cx2 r2
  /\ succeeds toy cx2 w2 (run toy w2 [Call cx2])
  /\ okb (process toy cx2 home) = true /\ okb (process toy cx2 w1) = false.
Proof.
  cbv zeta. split; [exact toy_foreign_ok|]. split; [exact toy_hashes|]. split; [exact home_good|].
  split; [repeat constructor|]. split; [reflexivity|]. split; [reflexivity|].
  split; [apply exact_sent, post_sent|]. split; [apply exact_sent, post_sent|]. later; try calc.
  eapply reach_app.
  - apply (later_reach [Call (post 30 first_of)] (Call (c_rotate 2 ([2] ++ K 60)))); calc.
  - apply (later_reach [Call (post 30 first_of); Call (c_rotate 2 ([2] ++ K 60))] (Call (c_rotate 2 ([2] ++ k1_x)))); calc.
Qed.
Example C79_forgotten_case : let cx1 := post 30 x_hire in let cx2 := post 30 x_after in
  foreign_ok toy /\ hashes_ok toy /\ good_world toy (ruled []) /\ in_range o_hire
  /\ built_k1 SWIG 6 toy k1_sign 20 (next_odometer 0) o_hire [K 10] x_hire /\ sent cx1 x_hire
  /\ admissible toy (ruled []) (Call cx1) /\ is_cfg (ruled [] SWIG) s_ruled /\ find_role 6 s_ruled = Some (r_chief 0) /\ by_counter cx1 (r_chief 0)
  /\ succeeds toy cx1 (ruled []) (run toy (ruled []) [Call cx1])
  /\ okb (process toy cx2 (ruled [])) = true /\ okb (process toy cx2 (ruled [Call cx1])) = false.
Proof.
  cbv zeta. unfold ruled. split; [exact toy_foreign_ok|]. split; [exact toy_hashes|]. split; [apply home_later; calc|].
  split; [repeat split; discriminate || reflexivity|]. split; [apply k_add|]. split; [apply exact_sent, post_sent|]. later; calc.
Qed.

(** ** C80: requests of the SDK that the program never accepts *)
(** the secp256k1 client drops the first byte of the new credential *)
Theorem C80_first_byte : forall E sign slot odo swig payer rid ty c gs x cx w w', is_u32 rid -> short (enc_actions 0 (to_client_actions gs)) ->
  credential_ok ty c ->
  sdk_add_k1 E sign slot odo swig payer rid ty c gs = Ok x -> wf_ctx cx -> sent cx x -> ~ succeeds E cx w w'.
Proof. exact stripped. Qed.
Print Assumptions C80_first_byte.
(** adding and removing roles, opening sessions and naming a claimer are signed by the fee
    payer alone: an Ed25519 role cannot do it with any other key *)
Theorem C80_fee_payer : forall swig rid auth o ks x fee kp, built_ed swig rid auth o ks x ->
  match o with AddRole _ _ _ | RemoveRole _ | OpenSession _ _ | NameClaimer _ => True | _ => False end ->
  can_sign (signing_keys o fee kp) fee [x] = true -> auth = fee.
Proof. exact fee_payer_only. Qed.
Print Assumptions C80_fee_payer.
(** the credential that is refused would be accepted with a byte in front of it *)
Example C80_case : exists x y, sdk_add_k1 toy k1_sign 20 0 SWIG (K 10) 6 1 (K 40) [GAll] = Ok x
  /\ sdk_add_k1 toy k1_sign 20 0 SWIG (K 10) 6 1 (9 :: K 40) [GAll] = Ok y /\ credential_ok 1 (K 40)
  /\ wf_ctx (post 30 x) /\ okb (process toy (post 30 x) (ruled [])) = false /\ okb (process toy (post 30 y) (ruled [])) = true.
Proof.
  eexists. eexists. split; [reflexivity|]. split; [reflexivity|]. split; [left; split; reflexivity|]. split; [apply ctxb_ok; calc|]. split; calc.
Qed.
Example C80_fee_payer_case : let o := OpenSession (K 50) 50 in
  built_ed SWIG 3 (K 12) o [] (session_ed SWIG (K 12) (K 12) 3 (K 50) 50)
  /\ can_sign (signing_keys o (K 12) None) (K 12) [session_ed SWIG (K 12) (K 12) 3 (K 50) 50] = true
  /\ can_sign (signing_keys o (K 10) (Some (K 12))) (K 10) [session_ed SWIG (K 10) (K 12) 3 (K 50) 50] = false.
Proof. cbv zeta. split; [apply e_session|]. split; calc. Qed.
