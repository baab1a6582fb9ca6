(** * Properties of the client library (interface crate) together with the program

    [order], [order_of], [says], [built_*], [sent], [passes], [wraps] are in SpecClient. *)
From Verif Require Import SpecSign SpecLife SpecActs SpecAuth SpecClient ClientFacts ClientAuth ClientInner ClientRefuse DemoClient.

(** ** C67: what the library builds, the program reads as it was asked for *)
Theorem C67_create : forall swig bump payer wallet wbump ty c l id,
  let o := Found id bump wbump ty c (enc_actions 0 l) in let x := create swig bump payer wallet wbump ty c l id in
  in_range o -> order_of (ix_data x) = Some o /\ map m_key (firstn 3 (ix_metas x)) = [swig; payer; wallet].
Proof. exact (fun swig bump payer wallet wbump ty c l id G => conj (reads_create id bump ty c wbump l G) eq_refl). Qed.
Print Assumptions C67_create.
Theorem C67_ed : forall swig rid auth o ks x, is_u32 rid -> in_range o ->
  built_ed swig rid auth o ks x -> says swig rid o ks x.
Proof. exact says_ed. Qed.
Print Assumptions C67_ed.
Theorem C67_k1 : forall swig rid E sign slot counter o ks x, is_u32 rid -> in_range o ->
  built_k1 swig rid E sign slot counter o ks x -> says swig rid o ks x.
Proof. exact says_k1. Qed.
Print Assumptions C67_k1.
Theorem C67_k1_old : forall swig rid E sign slot o ks x, is_u32 rid -> in_range o ->
  built_k1_old swig rid E sign slot o ks x -> says swig rid o ks x.
Proof. exact says_k1_old. Qed.
Print Assumptions C67_k1_old.
Theorem C67_r1 : forall swig rid E sign pk slot counter o ks l, is_u32 rid -> in_range o ->
  built_r1 swig rid E sign pk slot counter o ks l -> exists v x, l = [v; x] /\ says swig rid o ks x.
Proof. exact says_r1. Qed.
Print Assumptions C67_r1.
Theorem C67_r1_old : forall swig rid E sign pk slot counter o ks l, is_u32 rid -> in_range o ->
  built_r1_old swig rid E sign pk slot counter o ks l -> exists v x, l = [v; x] /\ says swig rid o ks x.
Proof. exact says_r1_old. Qed.
Print Assumptions C67_r1_old.
Theorem C67_exec : forall swig rid pre tix o ks l, is_u32 rid -> in_range o ->
  built_exec swig rid pre tix o ks l -> exists x, l = [pre; x] /\ says swig rid o ks x.
Proof. exact says_exec. Qed.
Print Assumptions C67_exec.

Example C67_case : let o := AddRole 1 (K 40) (enc_actions 0 [p_sol 5]) in
  is_u32 0 /\ in_range o /\ built_ed SWIG 0 (K 10) o [K 10] x_add
  (* ... and the program does it *)
  /\ is_cfg (run toy home [Call (post 6 x_add)] SWIG)
       (mk_config 255 WID 7 254 (zeros 3) 0 [r0; r1; r2; r3; r4; r5; mk_role 6 1 (zeros 2) (K 40) [p_sol 5]] None).
Proof.
  cbv zeta. split; [apply u32b_ok; calc|]. split; [repeat split; lia|]. split; [apply e_add|demo].
Qed.
Example C67_create_case : let x := create SWIG 255 (K 10) WALLET 254 1 (K 10) [p_all] WID in
  in_range (Found WID 255 254 1 (K 10) (enc_actions 0 [p_all])) /\ okb (process toy (post 5 x) genesis) = true.
Proof. cbv zeta. split; [repeat split; cbn; lia|calc]. Qed.
Example C67_k1_case : exists o ks, built_k1 SWIG 2 toy k1_sign 20 1 o ks x_k1 /\ is_u32 2 /\ in_range o.
Proof. do 2 eexists. split; [apply k_sign|]. split; [apply u32b_ok; calc|]. apply Z.ltb_lt. calc. Qed.
Example C67_r1_case : exists o ks, built_r1 SWIG 4 toy r1_sign r1_key 20 1 o ks l_r1 /\ is_u32 4 /\ in_range o.
Proof. do 2 eexists. split; [apply r1_claimer|]. split; [apply u32b_ok; calc|]. calc. Qed.
Example C67_exec_case : exists o ks, built_exec SWIG 5 pre5 None o ks l_exec /\ is_u32 5 /\ in_range o.
Proof. do 2 eexists. split; [apply x_sign|]. split; [apply u32b_ok; calc|]. apply Z.ltb_lt. calc. Qed.

(** ** C68: inner instructions arrive as they were given ... *)
Theorem C68_inner : forall swig rid inner ns ms sk x cx, is_u32 rid -> short (packed ns ms inner) ->
  wraps swig rid inner ns ms sk x -> sent cx x ->
  (length (ix_metas x) <= 256)%nat -> (length inner <= 255)%nat -> Forall fits inner ->
  exists o ixs xs, order_of (c_data cx) = Some o /\ ixs_of o = Some ixs /\ parse_all (c_metas cx) sk ixs = Ok xs
    /\ Forall2 same_call inner (map in_ix xs)
    (* ... and, if no two mentions of an account differ, with the privileges asked for *)
    /\ (agree (sk :: ns) (ms ++ flat_map ix_metas inner) ->
        Forall2 (fun x y => Forall2 (granted ns) (ix_metas x) (ix_metas y)) inner (map in_ix xs)).
Proof. exact wraps_carries. Qed.
Print Assumptions C68_inner.
Example C68_case : let l := [pay_ix (K 40) 5] in let ms := [w_ SWIG; w_ WALLET; ros (K 50)] in
  is_u32 3 /\ short (packed [SWIG] ms l) /\ wraps SWIG 3 l [SWIG] ms WALLET x_pay
  /\ sent (post 40 x_pay) x_pay /\ (length (ix_metas x_pay) <= 256)%nat /\ (length l <= 255)%nat /\ Forall fits l
  /\ agree [WALLET; SWIG] (ms ++ flat_map ix_metas l).
Proof.
  cbv zeta. split; [apply u32b_ok; calc|]. split; [apply Z.ltb_lt; calc|]. split; [apply wr_sign_ed|].
  split; [apply exact_sent, post_sent|]. split; [apply Nat.leb_le; calc|]. split; [apply Nat.leb_le; calc|].
  split; [constructor; [split; [apply Nat.leb_le; calc|apply Z.ltb_lt; calc]|constructor]|apply agreeb_ok; calc].
Qed.

(** Claim under test: an inner instruction always gets the privileges it asks for.
    False: an account that is mentioned before keeps the privileges of the first
    mention.  The wallet cannot pay the key that signs the request. *)
Theorem C68_privileges_refuted : exists swig rid wallet auth i x cx xs m m',
  x = sign_ed swig wallet auth i rid [] /\ sent_exactly cx x
  /\ parse_all (c_metas cx) wallet (packed [swig] [w_ swig; w_ wallet; ros auth] [i]) = Ok xs
  /\ nth_error (ix_metas i) 1 = Some m /\ m_writable m = true
  /\ nth_error (ix_metas (in_ix (hd (mk_inner i false) xs))) 1 = Some m' /\ m_key m' = m_key m /\ m_writable m' = false
  (* the program refuses it, but executes it if the account is made writable *)
  /\ exists E w0 w, foreign_ok E /\ hashes_ok E /\ fresh w0 /\ reach E w0 w /\ okb (process E cx w) = false
     /\ okb (process E (mk_ctx (c_slot cx) (c_height cx) (c_ixs cx) (c_cur cx)
          (map (fun m => mk_meta (m_key m) (m_signer m) (m_writable m || beq (m_key m) auth)) (c_metas cx)) (c_data cx)) w) = true.
Proof.
  exists SWIG, 0, WALLET, (K 10), (pay_ix (K 10) 5), (sign_ed SWIG WALLET (K 10) (pay_ix (K 10) 5) 0 []),
    (post 30 (sign_ed SWIG WALLET (K 10) (pay_ix (K 10) 5) 0 [])).
  eexists. exists (rw (K 10)), (sg (K 10)). split; [reflexivity|]. split; [apply post_sent|]. split; [vm_compute; reflexivity|].
  repeat (split; [calc|]). exists toy, genesis, home. later; calc.
Qed.
Print Assumptions C68_privileges_refuted.

(** ** C69: the program accepts the credential of what the library builds *)
Theorem C69_ed : forall E swig rid auth o ks x cx r, is_u32 rid -> in_range o -> built_ed swig rid auth o ks x ->
  sent cx x -> ed_key o (c_slot cx) r auth -> passes E cx r (r_auth r).
Proof. exact passes_ed. Qed.
Print Assumptions C69_ed.
Theorem C69_k1 : forall E swig rid sign slot o ks x cx r, is_u32 rid -> in_range o ->
  built_k1 swig rid E sign slot (next_counter (r_auth r)) o ks x ->
  sent_exactly cx x -> (length (ix_metas x) <= 64)%nat -> root_type 3 4 o r ->
  (forall m, k1_signs E (cred_key (r_auth r)) (keccak E m) (sign (keccak E m))) ->
  is_u64 slot -> in_time (c_slot cx) slot -> passes E cx r (count_up (r_auth r)).
Proof. exact passes_k1. Qed.
Print Assumptions C69_k1.
Theorem C69_r1 : forall E swig rid sign pk slot o ks l v x cx r, hashes_ok E -> is_u32 rid -> in_range o ->
  built_r1 swig rid E sign pk slot (next_counter (r_auth r)) o ks l -> l = [v; x] ->
  sent_exactly cx x -> previous cx v -> (length (ix_metas x) <= 64)%nat -> root_type 5 6 o r ->
  pk = cred_key (r_auth r) -> length pk = 33%nat -> (forall m, length (sign (keccak E m)) = 64%nat) ->
  is_u64 slot -> in_time (c_slot cx) slot -> passes E cx r (count_up (r_auth r)).
Proof. exact passes_r1. Qed.
Print Assumptions C69_r1.
Theorem C69_exec : forall E swig rid pre tix o ks x cx r m1, is_u32 rid -> in_range o -> built_exec swig rid pre tix o ks [pre; x] ->
  sent cx x -> (length (ix_metas x) <= 256)%nat -> Forall wf_meta (c_metas cx) -> root_type 7 8 o r -> (80 <= length (r_auth r))%nat ->
  earlier cx (checked_place cx tix) pre ->
  nth_error (ix_metas x) 1 = Some m1 -> right_call (r_auth r) pre swig (m_key m1) ->
  passes E cx r (r_auth r).
Proof. exact passes_exec. Qed.
Print Assumptions C69_exec.
(** ... the instruction that vouches for a replacement says what it must say *)
Theorem C69_proof : forall E swig wallet rid target ty cur new d i x m0 m1 rest cx,
  proof_data E swig wallet rid target ty cur new = Some d ->
  (i < c_cur cx)%nat -> nth_error (c_ixs cx) i = Some x -> ix_data x = d -> ix_metas x = m0 :: m1 :: rest ->
  m_key m0 = swig -> m_key m1 = wallet -> acct cx 0 = swig -> acct cx 1 = wallet ->
  1 <= ty <= 6 /\ replacement_shown E cx rid target ty (new_key ty cur) (new_key ty new).
Proof. exact proof_shows. Qed.
Print Assumptions C69_proof.

(** role 3 opens a session and its key signs *)
Example C69_ed_case : exists o ks o' ks', built_ed SWIG 3 (K 12) o ks x_open /\ is_u32 3 /\ in_range o
  /\ sent (post 30 x_open) x_open /\ ed_key o 30 r3 (K 12)
  /\ built_ed SWIG 3 (K 50) o' ks' x_pay /\ in_range o' /\ sent (post 40 x_pay) x_pay
  /\ let w1 := run toy home [Call (post 30 x_open)] in
     let r3' := mk_role 3 2 (zeros 2) (K 12 ++ K 50 ++ le_enc 8 100 ++ le_enc 8 80) l3 in
     is_cfg (w1 SWIG) (mk_config 255 WID 6 254 (zeros 3) 0 [r0; r1; r2; r3'; r4; r5] None)
     /\ ed_key o' 40 r3' (K 50) /\ okb (process toy (post 40 x_pay) w1) = true.
Proof.
  do 4 eexists. split; [apply e_session|]. split; [apply u32b_ok; calc|]. split; [split; [calc|split; [discriminate|calc]]|].
  split; [apply exact_sent, post_sent|]. split; [split; [right; calc|calc]|]. split; [apply e_sign|].
  split; [apply Z.ltb_lt; calc|]. split; [apply exact_sent, post_sent|]. cbv zeta.
  split; [demo|]. split; [|calc]. split; [calc|]. apply Z.leb_le. calc.
Qed.
Example C69_k1_case : exists o ks, built_k1 SWIG 2 toy k1_sign 20 (next_counter (r_auth r2)) o ks x_k1 /\ is_u32 2 /\ in_range o
  /\ sent_exactly (post 30 x_k1) x_k1 /\ (length (ix_metas x_k1) <= 64)%nat /\ root_type 3 4 o r2
  /\ (forall m, k1_signs toy (cred_key (r_auth r2)) (keccak toy m) (k1_sign (keccak toy m)))
  /\ is_u64 20 /\ in_time (c_slot (post 30 x_k1)) 20 /\ okb (process toy (post 30 x_k1) home) = true.
Proof.
  do 2 eexists. split; [apply k_sign|]. split; [apply u32b_ok; calc|]. split; [apply Z.ltb_lt; calc|].
  split; [apply post_sent|]. split; [apply Nat.leb_le; calc|]. split; [left; calc|]. split; [exact k1_signs_toy|].
  split; [split; [discriminate|calc]|]. split; [split; apply Z.leb_le; calc|calc].
Qed.
Example C69_r1_case : exists o ks v x, built_r1 SWIG 4 toy r1_sign r1_key 20 (next_counter (r_auth r4)) o ks l_r1 /\ l_r1 = [v; x]
  /\ is_u32 4 /\ in_range o /\ sent_exactly (post2 30 l_r1) x /\ previous (post2 30 l_r1) v /\ (length (ix_metas x) <= 64)%nat
  /\ root_type 5 6 o r4 /\ r1_key = cred_key (r_auth r4) /\ length r1_key = 33%nat
  /\ (forall m, length (r1_sign (keccak toy m)) = 64%nat)
  /\ is_u64 20 /\ in_time 30 20 /\ okb (process toy (post2 30 l_r1) home) = true.
Proof.
  do 4 eexists. split; [apply r1_claimer|]. split; [reflexivity|]. split; [apply u32b_ok; calc|]. split; [calc|].
  split; [split; reflexivity|]. split; [split; [apply Nat.ltb_lt; calc|reflexivity]|]. split; [apply Nat.leb_le; calc|].
  split; [left; calc|]. split; [calc|]. split; [calc|]. split; [reflexivity|].
  split; [split; [discriminate|calc]|]. split; [split; apply Z.leb_le; calc|calc].
Qed.
Example C69_exec_case : exists o ks x m1, built_exec SWIG 5 pre5 None o ks l_exec /\ l_exec = [pre5; x]
  /\ is_u32 5 /\ in_range o /\ sent (post2 30 l_exec) x /\ (length (ix_metas x) <= 256)%nat
  /\ Forall wf_meta (c_metas (post2 30 l_exec)) /\ root_type 7 8 o r5 /\ (80 <= length (r_auth r5))%nat
  /\ earlier (post2 30 l_exec) (checked_place (post2 30 l_exec) None) pre5
  /\ nth_error (ix_metas x) 1 = Some m1 /\ right_call (r_auth r5) pre5 SWIG (m_key m1)
  /\ okb (process toy (post2 30 l_exec) home) = true.
Proof.
  do 4 eexists. split; [apply x_sign|]. split; [reflexivity|]. split; [apply u32b_ok; calc|]. split; [apply Z.ltb_lt; calc|].
  split; [apply exact_sent; split; reflexivity|]. split; [apply Nat.leb_le; calc|].
  split; [repeat (constructor; [apply keyb_ok; calc|]); constructor|]. split; [left; calc|]. split; [apply Nat.leb_le; calc|].
  split; [split; [apply Nat.ltb_lt; calc|calc]|]. split; [calc|].
  split; [|calc]. split; [calc|]. split; [apply Z.leb_le; calc|]. split; [apply Nat.leb_le; calc|]. split; [split; apply Z.leb_le; calc|].
  split; [exists [8]; calc|]. do 3 eexists. split; [reflexivity|]. split; calc.
Qed.
Example C69_proof_case : exists d, proof_data toy SWIG WALLET 5 1 1 (K 11) (K 33) = Some d
  /\ let x := mk_ix (K 30) [ro SWIG; ro WALLET] d in
     replacement_shown toy (mk_ctx 30 1 [x] 1 [rw SWIG; ro WALLET] []) 5 1 1 (K 11) (K 33).
Proof.
  eexists. split; [reflexivity|]. cbv zeta. eapply (proof_shows toy SWIG WALLET 5 1 1 (K 11) (K 33) _ 0); try reflexivity. cbn. lia.
Qed.

(** ** C70: claim under test: what the library builds, with a correctly signing
    key, is not refused for its form.  False: the program never accepts what these
    builders make. *)
Theorem C70_k1_refused : forall E swig rid sign slot o ks x cx w w' s r, is_u32 rid -> in_range o ->
  built_k1_old swig rid E sign slot o ks x -> (forall m, length (sign (keccak E m)) = 65%nat) ->
  wf_ctx cx -> sent cx x -> is_cfg (w (acct cx 0)) s -> find_role rid s = Some r -> r_aty r = 3 ->
  ~ succeeds E cx w w'.
Proof. exact refused_k1_old. Qed.
Print Assumptions C70_k1_refused.
Theorem C70_r1_refused : forall E swig rid sign pk slot counter o ks v x cx w w' s r, is_u32 rid -> in_range o ->
  built_r1_old swig rid E sign pk slot counter o ks [v; x] ->
  wf_ctx cx -> sent cx x -> is_cfg (w (acct cx 0)) s -> find_role rid s = Some r -> r_aty r = 5 ->
  ~ succeeds E cx w w'.
Proof. exact refused_r1_old. Qed.
Print Assumptions C70_r1_refused.
(** Program execution: the SOL withdrawal puts the system program where the wallet is
    expected, the token withdrawal the source of the tokens *)
Theorem C70_withdraw_refused : forall E swig rid pre tix payer sa wallet amount x cx w w',
  withdraw_sol_exec swig payer pre sa wallet rid amount tix = [pre; x] -> sent cx x ->
  succeeds E cx w w' -> fst (find_pda E (seeds_wallet0 swig)) = SYSTEM.
Proof. exact misplaced_withdraw. Qed.
Print Assumptions C70_withdraw_refused.
Theorem C70_withdraw_token_refused : forall E swig rid pre tix payer sa wallet src dst prog amount x cx w w',
  withdraw_token_exec swig payer pre sa wallet src dst prog rid amount tix = [pre; x] -> sent cx x ->
  succeeds E cx w w' -> fst (find_pda E (seeds_wallet0 swig)) = src /\ a_owner (w src) = SYSTEM.
Proof. exact misplaced_withdraw_token. Qed.
Print Assumptions C70_withdraw_token_refused.
(** and the sub-account signature the payer where the sub-account is expected *)
Theorem C70_sub_sign_refused : forall E swig rid pre tix sa payer inner x cx w w' s r, is_u32 rid ->
  short (packed [swig; sa] [ro_ swig; ros payer; w_ sa; SYS; IXS] inner) ->
  sub_sign_exec swig sa payer pre rid inner tix = [pre; x] -> sent cx x -> wf_ctx cx -> wf_key payer ->
  is_cfg (w (acct cx 0)) s -> find_role rid s = Some r ->
  succeeds E cx w w' -> exists b, owns_sub s r payer b.
Proof. exact misplaced_sub_sign. Qed.
Print Assumptions C70_sub_sign_refused.

(** role 6, secp256k1, may create a sub-account: refused with the library's
    payload, accepted with the payload of the other builders *)
Example C70_k1_case : let w := run toy home [Call (c_plus 3 ([2] ++ k1_x) [p_sub])] in
  let x := sub_k1 toy k1_sign 20 SWIG (K 10) SUB6 6 255 in let cx := post 30 x in
  let r6 := mk_role 6 3 (zeros 2) ([2] ++ k1_x ++ zeros 7) [p_sub] in
  let s := mk_config 255 WID 7 254 (zeros 3) 0 [r0; r1; r2; r3; r4; r5; r6] None in
  is_u32 6 /\ in_range (CreateSub 255) /\ built_k1_old SWIG 6 toy k1_sign 20 (CreateSub 255) [K 10; SUB6] x
  /\ (forall m, length (k1_sign (keccak toy m)) = 65%nat) /\ wf_ctx cx /\ sent cx x /\ is_cfg (w (acct cx 0)) s
  /\ find_role 6 s = Some r6 /\ r_aty r6 = 3
  /\ okb (process toy (post 30 (by_k1 toy k1_sign 20 1 (ix_metas x) (sub_head 6 255) (sub_head 6 255))) w) = true.
Proof.
  cbv zeta. split; [apply u32b_ok; calc|]. split; [split; [discriminate|reflexivity]|]. split; [apply ko_sub|].
  split; [exact k1_sign_length|]. split; [demo|]. split; [apply exact_sent, post_sent|]. split; [demo|]. split; [calc|]. split; calc.
Qed.
(** role 4, secp256r1, too *)
Example C70_r1_case : let l := sub_r1 toy r1_sign r1_key 20 1 SWIG (K 10) SUB4 4 255 in let cx := post2 30 l in
  exists v x, l = [v; x] /\ is_u32 4 /\ in_range (CreateSub 255)
  /\ built_r1_old SWIG 4 toy r1_sign r1_key 20 1 (CreateSub 255) [K 10; SUB4] l
  /\ wf_ctx cx /\ sent cx x /\ is_cfg (home (acct cx 0)) s_home /\ find_role 4 s_home = Some r4 /\ r_aty r4 = 5
  /\ okb (process toy (post2 30 (by_r1 toy r1_sign r1_key 20 1 (ix_metas x) (sub_head 4 255) (sub_head 4 255) 4)) home) = true.
Proof.
  cbv zeta. do 2 eexists. split; [reflexivity|]. split; [apply u32b_ok; calc|]. split; [split; [discriminate|reflexivity]|]. split; [apply r1o_sub|].
  split; [demo|]. split; [apply exact_sent; split; reflexivity|]. split; [demo|]. split; [calc|]. split; calc.
Qed.
(** role 6, program execution, has created a sub-account with the library; it can
    sign for it, but not with what the library builds *)
Definition r6x : role := mk_role 6 7 (zeros 2) pe_cred [mk_action 9 (sub_v1 SUB6 255 1 (zeros 2) 6 WID)].
Definition w_exec : world := run toy home
  [Call (c_plus 7 pe_cred [p_sub]);
   Call (post2 30 (sub_exec SWIG (K 10) (mk_ix (K 30) [ro SWIG; ro (K 10)] [7; 7; 7; 8]) SUB6 6 255 None));
   Other (mk_ix SYSTEM [sw (K 10); rw SUB6] (sys_pay 5000000))].
Example C70_exec_case : let s := mk_config 255 WID 7 254 (zeros 3) 0 [r0; r1; r2; r3; r4; r5; r6x] None in
  let sa := SUB6 in let inner := [mk_ix SYSTEM [sw sa; rw (K 40)] (sys_pay 5)] in
  let pre k := mk_ix (K 30) [ro SWIG; ro k] [7; 7; 7; 8] in
  let l k := sub_sign_exec SWIG sa (K 10) (pre k) 6 inner None in let cx k := post2 40 (l k) in
  let by_hand := let '(ms, cs) := compact_instructions [SWIG; sa] [ro_ SWIG; w_ sa; ros (K 10); SYS; IXS] inner in
    by_exec (pre sa) ms (sub_sign_head 6 (into_bytes cs) ++ into_bytes cs) 4 None in
  is_cfg (w_exec SWIG) s /\ find_role 6 s = Some r6x
  /\ (exists x, l (K 10) = [pre (K 10); x] /\ sent (cx (K 10)) x) /\ wf_ctx (cx (K 10)) /\ wf_key (K 10) /\ is_u32 6
  /\ short (packed [SWIG; sa] [ro_ SWIG; ros (K 10); w_ sa; SYS; IXS] inner)
  /\ okb (process toy (cx (K 10)) w_exec) = false /\ okb (process toy (cx sa) w_exec) = false
  /\ okb (process toy (post2 40 by_hand) w_exec) = true.
Proof.
  cbv zeta. split; [demo|]. split; [calc|]. split; [eexists; split; [vm_compute; reflexivity|apply exact_sent; split; calc]|].
  split; [demo|]. split; [demo|]. split; [apply u32b_ok; calc|]. split; [apply Z.ltb_lt; calc|]. split; [calc|]. split; calc.
Qed.
(** a withdrawal the way the library builds it *)
Example C70_withdraw_case : let pre := mk_ix (K 30) [ro SWIG; ro (K 10)] [7; 7; 7; 8] in
  let l := withdraw_sol_exec SWIG (K 10) pre SUB6 WALLET 6 5 None in let cx := post2 40 l in
  exists x, l = [pre; x] /\ sent cx x /\ fst (find_pda toy (seeds_wallet0 SWIG)) <> SYSTEM
  /\ okb (process toy cx w_exec) = false.
Proof.
  cbv zeta. eexists. split; [vm_compute; reflexivity|]. split; [apply exact_sent; split; calc|]. split; [apply beq_neq|]; calc.
Qed.
Example C70_withdraw_token_case : let pre := mk_ix (K 30) [ro SWIG; ro (K 10)] [7; 7; 7; 8] in
  let l := withdraw_token_exec SWIG (K 10) pre SUB6 WALLET (K 70) (K 71) SPL_TOKEN 6 5 None in let cx := post2 40 l in
  exists x, l = [pre; x] /\ sent cx x /\ a_owner (w_exec (K 70)) = SPL_TOKEN /\ okb (process toy cx w_exec) = false.
Proof. cbv zeta. eexists. split; [vm_compute; reflexivity|]. split; [apply exact_sent; split; calc|]. split; calc. Qed.
