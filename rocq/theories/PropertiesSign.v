(** * What signing instructions can do to the wallet and its assets.

    Vocabulary: [limited], [perm], [pays], [pays_either], [lacks], [inner_ixs],
    [sol_out], [token_out], [own_token], [own_stake], [spends], [sane],
    [collides], [only_counters], [allowed], [in_turn], [course], [falls], [stirs]
    (SpecSign); [holds],
    [succeeds], [actor_of] (SpecActs, SpecWorld); [run] and [admissible]
    (SpecHistory).  [foreign E] is any behaviour of the called programs. *)
From Verif Require Import SpecSign SignProps SignRules Spend Roundtrip Parse AllRun DemoSign.

(** ** C14: all or nothing.  A failed call changes nothing; when a signing call
    succeeds, all its inner instructions have run, in order, successfully, and
    before and after them only the data of the configuration account changed. *)
Theorem C14_failed_calls_change_nothing : forall E cx w, (forall w', ~ succeeds E cx w w') -> run E w [Call cx] = w.
Proof. exact failed_nothing. Qed.
Print Assumptions C14_failed_calls_change_nothing.
Theorem C14_all_inner_run : forall E cx w w' s, foreign_ok E -> good_world E w -> admissible E w (Call cx) ->
  is_cfg (w (acct cx 0)) s -> In (tag (c_data cx)) [9; 11; 20] -> succeeds E cx w w' ->
  exists ps xs w0 w1,
    inner_ixs (c_metas cx) (signs_for cx) (inner_payload (c_data cx)) xs
    /\ only_here (acct cx 0) w w0
    /\ in_turn (fun v x v' => run_inner E cx (signs_for cx) ps v x = Ok v') xs w0 w1
    /\ only_here (acct cx 0) w1 w'.
Proof. exact all_run. Qed.
Print Assumptions C14_all_inner_run.

(** two payments; when the second is too large the first does not happen either *)
Example C14_case : let w := hired l6 in let cx := by6 [x_sol 30; x_sol 20] in
  foreign_ok toy /\ good_world toy w /\ admissible toy w (Call cx) /\ is_cfg (w (acct cx 0)) (s_hired l6)
  /\ tag (c_data cx) = 11 /\ succeeds toy cx w (run toy w [Call cx])
  /\ a_lamports (run toy w [Call cx] (K 40)) = a_lamports (w (K 40)) + 50
  /\ okb (process toy (by6 [x_sol 30; x_sol 999999999]) w) = false.
Proof. cbv zeta. unfold hired. signing; calc. Qed.

(** ** C30: SOL.  [spent] is the gross outflow: the sum of what the wallet loses
    in each inner instruction, without setting off what it gains in others.  It
    comes out of the role's SOL allowance, unless the role has destination limits
    only (C31). *)
Theorem C30_sol_allowance : forall E cx w w' s r, foreign_ok E -> good_world E w -> admissible E w (Call cx) ->
  is_cfg (w (acct cx 0)) s -> tag (c_data cx) = 11 -> succeeds E cx w w' ->
  find_role (actor_of (c_data cx)) s = Some r -> limited r ->
  0 <= c_slot cx < U64 -> sane cx w -> sane cx w' ->
  let wal := acct cx 1 in
  exists s' r' xs ws, is_cfg (w' (acct cx 0)) s' /\ find_role (r_id r) s' = Some r'
  /\ inner_ixs (c_metas cx) wal (inner_payload (c_data cx)) xs /\ course E cx w w' xs ws
  /\ let spent := capped (falls (lamports_of wal) (a_lamports (w wal)) ws) in
  0 <= spent /\ a_lamports (w wal) - a_lamports (w' wal) <= spent
  /\ rent E (length (a_data (w' wal))) <= a_lamports (w' wal)
  /\ (spent = 0 \/ pays_either 1 2 [] (c_slot cx) [spent] r r' \/ lacks [1; 2] [] r /\ (holds 16 r \/ holds 17 r)).
Proof. exact sol_bound. Qed.
Print Assumptions C30_sol_allowance.

(** the one-shot allowance in plain numbers *)
Theorem C30_one_shot : forall E cx w w' s r, foreign_ok E -> good_world E w -> admissible E w (Call cx) ->
  is_cfg (w (acct cx 0)) s -> tag (c_data cx) = 11 -> succeeds E cx w w' ->
  find_role (actor_of (c_data cx)) s = Some r -> limited r ->
  0 <= c_slot cx < U64 -> sane cx w -> sane cx w' ->
  let wal := acct cx 1 in
  forall p, perm 1 [] (r_acts r) = Some p -> exists s' r' p' xs ws,
  is_cfg (w' (acct cx 0)) s' /\ find_role (r_id r) s' = Some r' /\ perm 1 [] (r_acts r') = Some p'
  /\ inner_ixs (c_metas cx) wal (inner_payload (c_data cx)) xs /\ course E cx w w' xs ws
  /\ let spent := capped (falls (lamports_of wal) (a_lamports (w wal)) ws) in
  a_lamports (w wal) - a_lamports (w' wal) <= spent /\ spent <= u64_at 0 p
  /\ (0 < spent -> u64_at 0 p' = u64_at 0 p - spent).
Proof. exact sol_once. Qed.
Print Assumptions C30_one_shot.

(** without a SOL permission nothing leaves the wallet *)
Theorem C30_no_permission : forall E cx w w' s r, foreign_ok E -> good_world E w -> admissible E w (Call cx) ->
  is_cfg (w (acct cx 0)) s -> tag (c_data cx) = 11 -> succeeds E cx w w' ->
  find_role (actor_of (c_data cx)) s = Some r -> limited r ->
  0 <= c_slot cx < U64 -> sane cx w -> sane cx w' ->
  ~ holds 1 r -> ~ holds 2 r -> ~ holds 16 r -> ~ holds 17 r ->
  a_lamports (w (acct cx 1)) <= a_lamports (w' (acct cx 1)).
Proof. exact sol_none. Qed.
Print Assumptions C30_no_permission.

Example C30_case : let w := home in let cx := k1_pays 2 20 1 500 in let w' := run toy w [Call cx] in
  foreign_ok toy /\ good_world toy w /\ admissible toy w (Call cx) /\ is_cfg (w (acct cx 0)) s_home
  /\ tag (c_data cx) = 11 /\ succeeds toy cx w w' /\ find_role (actor_of (c_data cx)) s_home = Some r2 /\ limited r2
  /\ 0 <= c_slot cx < U64 /\ sane cx w /\ sane cx w'
  /\ perm 1 [] (r_acts r2) = Some (le_enc 8 500) /\ a_lamports (w (acct cx 1)) - a_lamports (w' (acct cx 1)) = 500
  /\ okb (process toy (k1_pays 2 20 1 501) w) = false.
Proof. cbv zeta. signing; calc. Qed.

(** ** C31: SOL destination limits.  If the role has any, the outflow is exactly
    the system transfers out of the wallet among the inner instructions, and
    each destination's own limit pays for the transfers to it. *)
Theorem C31_sol_destinations : forall E cx w w' s r, foreign_ok E -> good_world E w -> admissible E w (Call cx) ->
  is_cfg (w (acct cx 0)) s -> tag (c_data cx) = 11 -> succeeds E cx w w' ->
  find_role (actor_of (c_data cx)) s = Some r -> limited r ->
  0 <= c_slot cx < U64 -> sane cx w -> sane cx w' ->
  let wal := acct cx 1 in
  holds 16 r \/ holds 17 r -> exists s' r' xs ws,
  is_cfg (w' (acct cx 0)) s' /\ find_role (r_id r) s' = Some r' /\ inner_ixs (c_metas cx) wal (inner_payload (c_data cx)) xs
  /\ course E cx w w' xs ws
  /\ let spent := capped (falls (lamports_of wal) (a_lamports (w wal)) ws) in
  0 <= spent /\ a_lamports (w wal) - a_lamports (w' wal) <= spent
  /\ (spent = 0
      \/ let ts := outs (sol_out wal) xs in
         ts <> [] /\ sum (map snd ts) = spent /\ forall k, In k (map fst ts) -> pays_either 17 16 k (c_slot cx) (to k ts) r r').
Proof. exact sol_destinations. Qed.
Print Assumptions C31_sol_destinations.

(** role 6 may send 60 to account 40 *)
Example C31_case : let w := hired l6 in let cx := by6 [x_sol 30; x_sol 30] in let w' := run toy w [Call cx] in
  foreign_ok toy /\ good_world toy w /\ admissible toy w (Call cx) /\ is_cfg (w (acct cx 0)) (s_hired l6)
  /\ tag (c_data cx) = 11 /\ succeeds toy cx w w' /\ find_role (actor_of (c_data cx)) (s_hired l6) = Some (r6 l6) /\ limited (r6 l6)
  /\ 0 <= c_slot cx < U64 /\ sane cx w /\ sane cx w' /\ holds 16 (r6 l6)
  /\ a_lamports (w (acct cx 1)) - a_lamports (w' (acct cx 1)) = 60
  /\ okb (process toy (by6 [x_sol 30; x_sol 31]) w) = false.
Proof. cbv zeta. unfold hired. signing; calc. Qed.

(** ** C32: tokens.  [sp] lists, for each account after the first two, what it
    spent in total (gross).  A token account of the wallet that still exists keeps everything but
    its amount; one that is gone was closed by a role allowed to close.  For
    each mint the spent amounts come out of the role's allowance for the mint,
    and if it has destination limits for the mint, they are transfers found
    among the inner instructions, paid for by the limit of their destination. *)
Theorem C32_token_allowance : forall E cx w w' s r, foreign_ok E -> good_world E w -> admissible E w (Call cx) ->
  is_cfg (w (acct cx 0)) s -> tag (c_data cx) = 11 -> succeeds E cx w w' ->
  find_role (actor_of (c_data cx)) s = Some r -> limited r ->
  0 <= c_slot cx < U64 -> sane cx w -> sane cx w' -> ~ collides E cx w w' ->
  exists s' r' xs ws sp,
  is_cfg (w' (acct cx 0)) s' /\ find_role (r_id r) s' = Some r' /\ inner_ixs (c_metas cx) (acct cx 1) (inner_payload (c_data cx)) xs
  /\ course E cx w w' xs ws
  /\ length sp = length (rest_of cx)
  /\ (forall m x, In (m, x) (combine (rest_of cx) sp) -> own_token cx w m = true ->
       let a := w (m_key m) in let a' := w' (m_key m) in
       x = capped (falls (tokens_of (m_key m)) (amount a) ws)
       /\ if alive a' then a_owner a' = a_owner a /\ firstn 64 (a_data a') = firstn 64 (a_data a) /\ skipn 72 (a_data a') = skipn 72 (a_data a)
         /\ length (a_data a') = length (a_data a) /\ sub 32 32 (a_data a') = acct cx 1 /\ amount a - amount a' <= x
       else holds 20 r /\ a_lamports a' = 0 /\ a_owner a' = SYSTEM)
  /\ (forall mint, length mint = 32%nat ->
       on_mint cx w w' mint sp = [] \/ pays_either 5 6 mint (c_slot cx) (on_mint cx w w' mint sp) r r'
       \/ lacks [5; 6] mint r /\ token_dests mint r)
  /\ (forall mint, token_dests mint r -> length mint = 32%nat ->
       (forall t, In t (combine (rest_of cx) sp) -> spends cx w w' mint t = true ->
          let ts := outs (token_out (m_key (fst t))) xs in
          ts <> [] /\ sum (map snd ts) = snd t /\ forall k, In k (map fst ts) -> ~ lacks [18; 19] (mint ++ k) r)
       /\ forall k, length k = 32%nat ->
            on_dest cx w w' mint k xs sp = [] \/ pays_either 19 18 (mint ++ k) (c_slot cx) (on_dest cx w w' mint k xs sp) r r').
Proof. exact token_spend. Qed.
Print Assumptions C32_token_allowance.

Example C32_case : let w := hired l6 in let cx := by6 [x_token 100; x_sol 5; x_token 200] in let w' := run toy w [Call cx] in
  foreign_ok toy /\ good_world toy w /\ admissible toy w (Call cx) /\ is_cfg (w (acct cx 0)) (s_hired l6)
  /\ tag (c_data cx) = 11 /\ succeeds toy cx w w' /\ find_role (actor_of (c_data cx)) (s_hired l6) = Some (r6 l6) /\ limited (r6 l6)
  /\ 0 <= c_slot cx < U64 /\ sane cx w /\ sane cx w' /\ ~ collides toy cx w w'
  /\ own_token cx w (rw (K 70)) = true /\ amount (w (K 70)) - amount (w' (K 70)) = 300
  /\ okb (process toy (by6 [x_token 100; x_sol 5; x_token 201]) w) = false.
Proof. cbv zeta. unfold hired. signing; calc. Qed.

(** ** C33, refuted: a role with no permission about a mint can take all the
    wallet's tokens of it, if it may close accounts and call the token program *)
Theorem C33_drain_by_closing_refuted : exists E cx w0 w w' s r a b, foreign_ok E /\ fresh w0 /\ reach E w0 w /\ admissible E w (Call cx)
  /\ is_cfg (w (acct cx 0)) s /\ tag (c_data cx) = 11 /\ succeeds E cx w w'
  /\ find_role (actor_of (c_data cx)) s = Some r /\ limited r
  /\ ~ holds 5 r /\ ~ holds 6 r /\ ~ holds 18 r /\ ~ holds 19 r
  /\ own_token cx w (rw a) = true /\ amount (w a) = 1000
  /\ mint_of (w b) = mint_of (w a) /\ amount (w b) = 0 /\ amount (w' b) = 1000 /\ alive (w' a) = false.
Proof.
  pose (l := [p_close; p_program SPL_TOKEN]).
  exists toy, (by6 [x_token 1000; x_close]), genesis, (hired l), (run toy (hired l) [Call (by6 [x_token 1000; x_close])]),
    (s_hired l), (r6 l), (K 70), (K 71). unfold hired. signing; calc.
Qed.
Print Assumptions C33_drain_by_closing_refuted.

(** ** C34, refuted: a role with an allowance of 100 lamports that may call the
    system program hands the wallet address to another program, which then takes
    everything *)
Theorem C34_wallet_reassigned_refuted : exists E cx x w0 w w' w'' s s' r, foreign_ok E /\ fresh w0 /\ reach E w0 w /\ admissible E w (Call cx)
  /\ is_cfg (w (acct cx 0)) s /\ tag (c_data cx) = 11 /\ succeeds E cx w w'
  /\ find_role (actor_of (c_data cx)) s = Some r /\ limited r /\ perm 1 [] (r_acts r) = Some (le_enc 8 100) /\ ~ holds 2 r
  /\ is_cfg (w' (acct cx 0)) s' /\ find_role (r_id r) s' = Some r
  /\ 100000000 <= a_lamports (w (acct cx 1)) /\ a_owner (w (acct cx 1)) = SYSTEM /\ a_owner (w' (acct cx 1)) <> SYSTEM
  /\ foreign E w' x = Ok w'' /\ a_lamports (w'' (acct cx 1)) = 0.
Proof.
  pose (l := [p_sol 100; p_program SYSTEM]). pose (w := hired l). pose (cx := by6 [x_assign]). pose (w' := run toy w [Call cx]).
  pose (x := x_loot (a_lamports (w' WALLET))).
  exists toy, cx, x, genesis, w, w', (result w' (foreign toy w' x)), (s_hired l), (s_hired l), (r6 l).
  subst x w' cx w. unfold hired. signing; first [calc|vm_compute; discriminate|idtac].
Qed.
Print Assumptions C34_wallet_reassigned_refuted.

(** ** C35: programs.  Unless the role may call all programs, an inner
    instruction carrying the wallet's signature goes to a program the role is
    allowed, or comes after a call of the wallet program itself (which may have
    changed the role's permissions). *)
Theorem C35_allowed_programs : forall E cx w w' s r, foreign_ok E -> good_world E w -> admissible E w (Call cx) ->
  is_cfg (w (acct cx 0)) s -> tag (c_data cx) = 11 -> succeeds E cx w w' ->
  find_role (actor_of (c_data cx)) s = Some r -> limited r -> ~ holds 13 r ->
  let wal := acct cx 1 in
  exists xs, inner_ixs (c_metas cx) wal (inner_payload (c_data cx)) xs
  /\ forall pre x post, xs = pre ++ x :: post -> carries wal x ->
     allowed r (ix_prog x) \/ exists y, In y pre /\ ix_prog y = SELF.
Proof. exact programs_allowed. Qed.
Print Assumptions C35_allowed_programs.

Example C35_case : let w := hired l6 in let cx := by6 [x_sol 5] in let w' := run toy w [Call cx] in
  foreign_ok toy /\ good_world toy w /\ admissible toy w (Call cx) /\ is_cfg (w (acct cx 0)) (s_hired l6)
  /\ tag (c_data cx) = 11 /\ succeeds toy cx w w' /\ find_role (actor_of (c_data cx)) (s_hired l6) = Some (r6 l6)
  /\ limited (r6 l6) /\ ~ holds 13 (r6 l6)
  /\ okb (process toy cx (hired [p_sol 100; p_program SPL_TOKEN])) = false.
Proof. cbv zeta. unfold hired. signing; calc. Qed.

(** ** C36: the configuration after a signing call of a limited role is the one
    before, with the acting role's signature counter advanced ([used]) and the
    counters inside its own permissions changed *)
Theorem C36_config_kept : forall E cx w w' s r, foreign_ok E -> good_world E w -> admissible E w (Call cx) ->
  is_cfg (w (acct cx 0)) s -> tag (c_data cx) = 11 -> succeeds E cx w w' ->
  find_role (actor_of (c_data cx)) s = Some r -> limited r -> 0 <= c_slot cx < U64 ->
  exists l', is_cfg (w' (acct cx 0)) (on_role (r_id r) (fun r0 => with_acts r0 l') (used (r_id r) s))
    /\ Forall2 only_counters (r_acts r) l'.
Proof. exact config_kept. Qed.
Print Assumptions C36_config_kept.

(** an inner call of the wallet program that would add a role *)
Definition sneaky : ctx :=
  call 30 [rw SWIG; rw WALLET; sg (K 11); ro SELF; payer; ro SYSTEM]
    (d_sign 1 (into_bytes [i_ix 3 [0; 4; 5; 2] (d_add 1 1 (K 77) [p_manage] ++ ed 3)]) ++ ed 2).
Example C36_case : let w := hired l6 in let cx := by6 [x_sol 5; x_token 7; x_stake 4900] in let w' := run toy w [Call cx] in
  foreign_ok toy /\ good_world toy w /\ admissible toy w (Call cx) /\ is_cfg (w (acct cx 0)) (s_hired l6)
  /\ tag (c_data cx) = 11 /\ succeeds toy cx w w' /\ find_role (actor_of (c_data cx)) (s_hired l6) = Some (r6 l6)
  /\ limited (r6 l6) /\ 0 <= c_slot cx < U64
  /\ beq (a_data (w' (acct cx 0))) (a_data (w (acct cx 0))) = false
  /\ okb (process toy sneaky home) = false.
Proof. cbv zeta. unfold hired. signing; calc. Qed.

(** ** C37, refuted: a role's limit of 100 on bytes 0 to 8 of an account is not
    charged when these bytes drop from 777 to 0, because another role has an
    older entry about the account; without that role the call is refused. *)
Theorem C37_scope_uncharged_refuted : exists E cx w0 w w' s s' r p k, foreign_ok E /\ fresh w0 /\ reach E w0 w /\ admissible E w (Call cx)
  /\ is_cfg (w (acct cx 0)) s /\ tag (c_data cx) = 11 /\ succeeds E cx w w'
  /\ find_role (actor_of (c_data cx)) s = Some r /\ limited r
  /\ In (mk_action 4 p) (r_acts r) /\ sub 80 32 p = k /\ u64_at 112 p = 1 /\ le (sub 16 16 p) = 100
  /\ u64_at 128 p = 0 /\ u64_at 136 p = 8
  /\ u64_at 0 (a_data (w k)) = 777 /\ u64_at 0 (a_data (w' k)) = 0
  /\ is_cfg (w' (acct cx 0)) s' /\ find_role (r_id r) s' = Some r.
Proof.
  pose (w := run toy home [Call c_basic; Call c_scoped]).
  pose (l := [p_program (K 86); p_scope 0 0]). pose (l' := [p_program (K 86); p_scope 1 100]).
  pose (r := mk_role 7 1 (zeros 2) (K 14) l').
  pose (s := mk_config 255 WID 8 254 (zeros 3) 0 [r0; r1; r2; r3; r4; r5; r6 l; r] None).
  exists toy, (by_scoped 7), genesis, w, (run toy w [Call (by_scoped 7)]), s, s, r, (ac_data (p_scope 1 100)), (K 85).
  subst w. signing; first [calc|right; left; reflexivity].
Qed.
Print Assumptions C37_scope_uncharged_refuted.
Example C37_alone : okb (process toy (by_scoped 6) (run toy home [Call c_scoped])) = false.
Proof. calc. Qed.

(** ** C38: stake accounts of the wallet.  What one spends in an inner
    instruction is what it loses in lamports or what its stake changes. *)
Theorem C38_stake_allowance : forall E cx w w' s r, foreign_ok E -> good_world E w -> admissible E w (Call cx) ->
  is_cfg (w (acct cx 0)) s -> tag (c_data cx) = 11 -> succeeds E cx w w' ->
  find_role (actor_of (c_data cx)) s = Some r -> limited r ->
  0 <= c_slot cx < U64 -> sane cx w -> sane cx w' -> ~ collides E cx w w' ->
  exists s' r' xs ws sp,
  is_cfg (w' (acct cx 0)) s' /\ find_role (r_id r) s' = Some r' /\ inner_ixs (c_metas cx) (acct cx 1) (inner_payload (c_data cx)) xs
  /\ course E cx w w' xs ws
  /\ length sp = length (rest_of cx)
  /\ (forall m x, In (m, x) (combine (rest_of cx) sp) -> own_stake cx w m = true ->
       let a := w (m_key m) in let a' := w' (m_key m) in
       x = capped (stirs (m_key m) (a_lamports a) (stake_of a) ws)
       /\ a_owner a' = a_owner a /\ sub 4 120 (a_data a') = sub 4 120 (a_data a) /\ skipn 200 (a_data a') = skipn 200 (a_data a)
       /\ a_lamports a - a_lamports a' <= x
       /\ ((164 <= length (a_data a'))%nat -> Z.abs (stake_of a - stake_of a') <= x))
  /\ (on_stake cx w sp = [] \/ holds 12 r \/ pays_either 10 11 [] (c_slot cx) (on_stake cx w sp) r r').
Proof. exact stake_spend. Qed.
Print Assumptions C38_stake_allowance.

Example C38_case : let w := hired l6 in let cx := by6 [x_stake 4500; x_stake 4000] in let w' := run toy w [Call cx] in
  foreign_ok toy /\ good_world toy w /\ admissible toy w (Call cx) /\ is_cfg (w (acct cx 0)) (s_hired l6)
  /\ tag (c_data cx) = 11 /\ succeeds toy cx w w' /\ find_role (actor_of (c_data cx)) (s_hired l6) = Some (r6 l6) /\ limited (r6 l6)
  /\ 0 <= c_slot cx < U64 /\ sane cx w /\ sane cx w' /\ ~ collides toy cx w w'
  /\ own_stake cx w (rw (K 80)) = true /\ stake_of (w (K 80)) - stake_of (w' (K 80)) = 1000
  /\ okb (process toy (by6 [x_stake 4500; x_stake 3999]) w) = false.
Proof. cbv zeta. unfold hired. signing; calc. Qed.

(** ** C39: what a client encodes is what the program decodes *)
Theorem C39_compact_roundtrip : forall no_sign ms ixs ms' cs sk extra,
  compact_instructions no_sign ms ixs = (ms', cs) -> (length ms' <= 256)%nat -> (length ixs <= 255)%nat -> Forall fits ixs ->
  exists xs, parse_all ms' sk (into_bytes cs ++ extra) = Ok xs /\ Forall2 same_call ixs (map in_ix xs).
Proof. exact roundtrip. Qed.
Print Assumptions C39_compact_roundtrip.

Definition two : list ix := [mk_ix SYSTEM [sw WALLET; rw (K 40)] (sys_pay 5); mk_ix SPL_TOKEN [rw (K 70); rw (K 71); sg WALLET] [9]].
Example C39_case : let p := compact_instructions [WALLET] [rw SWIG; rw WALLET; sg (K 11)] two in
  compact_instructions [WALLET] [rw SWIG; rw WALLET; sg (K 11)] two = p
  /\ (length (fst p) <=? 256)%nat = true /\ (length two <=? 255)%nat = true
  /\ forallb (fun x => (length (ix_metas x) <=? 254)%nat && (Z.of_nat (length (ix_data x)) <? 65536)) two = true
  /\ length (fst p) = 8%nat.
Proof. cbv zeta. repeat split; calc. Qed.

(** ** C40: privileges.  An account of an executed inner instruction is writable
    as in the call itself, and signs only if it signed the call or is the
    address the call signs for. *)
Theorem C40_inner_privileges : forall ms sk payload xs, inner_ixs ms sk payload xs ->
  forall x m, In x xs -> In m (ix_metas x) ->
  exists m0, In m0 ms /\ m_key m = m_key m0 /\ m_writable m = m_writable m0
    /\ (m_signer m = true -> m_signer m0 = true \/ m_key m = sk).
Proof. exact inner_privileges. Qed.
Print Assumptions C40_inner_privileges.
(** what is decoded is a list of inner instructions in this sense *)
Theorem C40_decoded : forall ms sk l xs, all_bytes l -> parse_all ms sk l = Ok xs ->
  inner_ixs ms sk l (map in_ix xs).
Proof. exact parse_all_inner. Qed.
Print Assumptions C40_decoded.
Example C40_case : let ms := ms_pay [sg (K 11)] in let l := inner_pay 5 in
  all_bytes l /\ exists xs, parse_all ms WALLET l = Ok xs
  /\ map ix_metas (map in_ix xs) = [[sw WALLET; rw (K 40)]].
Proof. cbv zeta. split; [demo|]. eexists. split; [vm_compute; reflexivity|]. calc. Qed.
