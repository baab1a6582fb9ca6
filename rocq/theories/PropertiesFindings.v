(** * Fresh permissions, updates after use, curated programs, the compact encoder.

    Vocabulary: [unspent] (SpecActs) is a permission as it is first given;
    [limited], [perm], [carries], [inner_ixs] (SpecSign); [curated] is permission
    14; [compact_instructions] and [into_bytes] model the client, [parse_all] the
    program's decoder. *)
From Verif Require Import SpecConfig SpecSteps ConfigProps LifeProps SpecSign SignRules DemoSign DemoLife FreshPerms.

(** ** C58: permissions are handed out unspent *)
Theorem C58_create : forall E cx w w', wf_ctx cx -> succeeds E cx w w' ->
  forall s', auth_layout (c_data cx) = None -> is_cfg (w' (acct cx 0)) s' ->
  exists r, s_roles s' = [r] /\ Forall unspent (r_acts r).
Proof. exact create_unspent. Qed.
Print Assumptions C58_create.
Theorem C58_add : forall E cx w w' s, hashes_ok E -> wf_ctx cx -> succeeds E cx w w' ->
  is_cfg (w (acct cx 0)) s -> tag (c_data cx) = 1 -> room 1 s ->
  exists nr, Forall unspent (r_acts nr) /\ is_cfg (w' (acct cx 0)) (add_to (used (actor_of (c_data cx)) s) nr).
Proof. exact add_unspent. Qed.
Print Assumptions C58_add.
(** for updates see C04_update *)

(** a recurring limit of 100 lamports per 50 slots, [left] of it left *)
Definition p_rec (left : Z) := mk_action 2 (le_enc 8 100 ++ le_enc 8 50 ++ zeros 8 ++ le_enc 8 left).
Example C58_case : let cx := c_plus 1 (K 13) [p_rec 100; p_program_all] in let w' := result home (process toy cx home) in
  hashes_ok toy /\ wf_ctx cx /\ succeeds toy cx home w' /\ is_cfg (home (acct cx 0)) s_home /\ tag (c_data cx) = 1 /\ room 1 s_home
  /\ okb (process toy (c_plus 1 (K 13) [p_rec 99; p_program_all]) home) = false.
Proof. cbv zeta. signing; calc. Qed.
Example C58_create_case : let cx := c_create2 [p_all; p_rec 100] in
  wf_ctx cx /\ okb (process toy cx genesis) = true /\ auth_layout (c_data cx) = None
  /\ okb (process toy (c_create2 [p_all; p_rec 99]) genesis) = false.
Proof. cbv zeta. life; calc. Qed.

(** ** C51: a role holding a spent permission cannot be given another one *)
Theorem C51_add_permissions : forall E cx w w' s, hashes_ok E -> wf_ctx cx -> succeeds E cx w w' ->
  forall tr, is_cfg (w (acct cx 0)) s -> tag (c_data cx) = 3 -> fst (update_op (c_data cx)) = 1 ->
  find_role (u32_at 12 (c_data cx)) s = Some tr -> Forall unspent (r_acts tr).
Proof. exact spent_stuck. Qed.
Print Assumptions C51_add_permissions.
Theorem C51_create_sub_account : forall E cx w w' s, hashes_ok E -> wf_ctx cx -> succeeds E cx w w' ->
  is_cfg (w (acct cx 0)) s -> tag (c_data cx) = 18 ->
  exists r, acts E cx s r /\ (holds_for 23 (s_subctr s) r \/ Forall unspent (r_acts r)).
Proof. exact v2_create_unspent. Qed.
Print Assumptions C51_create_sub_account.
(** the manager of a wallet can add a permission to a role and create a V2
    sub-account; after its own V1 sub-account was created it can do neither *)
Theorem C51_edit_after_use_refuted : exists E w0 w1 add sub1 sub2, let w2 := run E w1 [Call sub1] in
  foreign_ok E /\ fresh w0 /\ reach E w0 w1 /\ reach E w0 w2
  /\ tag (c_data add) = 3 /\ fst (update_op (c_data add)) = 1 /\ tag (c_data sub1) = 6 /\ tag (c_data sub2) = 18
  /\ okb (process E add w1) = true /\ okb (process E sub1 w1) = true /\ okb (process E sub2 w1) = true
  /\ okb (process E add w2) = false /\ okb (process E sub2 w2) = false.
Proof.
  exists toy, genesis, (den []), (c_update2 1 1 (enc_actions 0 [p_sol 5])), c_sub1, (c_sub2 0 255).
  cbv zeta. change (run toy (den []) [Call c_sub1]) with (den [Call c_sub1]). life; first [exact genesis_fresh|calc].
Qed.
Print Assumptions C51_edit_after_use_refuted.

(** ** C52: the curated programs do not include Token-2022 and the stake program *)
Theorem C52_curated_lacks : forall E cx w w' s r prog, foreign_ok E -> good_world E w -> admissible E w (Call cx) ->
  is_cfg (w (acct cx 0)) s -> tag (c_data cx) = 11 -> succeeds E cx w w' ->
  find_role (actor_of (c_data cx)) s = Some r -> limited r -> ~ holds 13 r ->
  In prog [SPL_TOKEN_2022; STAKING] -> perm 3 prog (r_acts r) = None ->
  exists xs, inner_ixs (c_metas cx) (acct cx 1) (inner_payload (c_data cx)) xs
  /\ forall pre x post, xs = pre ++ x :: post -> carries (acct cx 1) x -> ix_prog x = prog ->
     exists y, In y pre /\ ix_prog y = SELF.
Proof. exact curated_lacks. Qed.
Print Assumptions C52_curated_lacks.
Definition p_curated := mk_action 14 (zeros 32).
Definition lc := [p_sol 100; p_token 300; p_stake 1000; p_curated].
(* the stake program with the wallet's signature *)
Definition x_stake_signed (n : Z) : cix := i_ix 5 [9; 1] ([1] ++ stake_data n).
Example C52_case : let w := hired lc in let cx := by6 [x_sol 5; x_token 7] in let w' := run toy w [Call cx] in
  foreign_ok toy /\ good_world toy w /\ admissible toy w (Call cx) /\ is_cfg (w (acct cx 0)) (s_hired lc)
  /\ tag (c_data cx) = 11 /\ succeeds toy cx w w' /\ find_role (actor_of (c_data cx)) (s_hired lc) = Some (r6 lc)
  /\ limited (r6 lc) /\ ~ holds 13 (r6 lc) /\ perm 3 STAKING (r_acts (r6 lc)) = None
  /\ okb (process toy (by6 [x_stake_signed 4900]) w) = false
  /\ okb (process toy (by6 [x_stake_signed 4900]) (hired l6)) = true.
Proof. cbv zeta. unfold hired. signing; calc. Qed.

(** ** C54, refuted: the client's encoding keeps the accounts' privileges.  An
    account that is read-only in the first instruction and writable in the second
    is decoded read-only in both. *)
Theorem C54_privileges_kept_refuted : exists ms ixs x0 x1 k,
  ixs = [x0; x1] /\ ix_metas x0 = [mk_meta k false false] /\ ix_metas x1 = [mk_meta k false true]
  /\ let p := compact_instructions [] ms ixs in
     exists xs y0 y1, parse_all (fst p) WALLET (into_bytes (snd p)) = Ok xs /\ map in_ix xs = [y0; y1]
     /\ ix_prog y1 = ix_prog x1 /\ ix_data y1 = ix_data x1 /\ ix_metas y1 = [mk_meta k false false].
Proof.
  exists [rw SWIG; rw WALLET], [mk_ix SYSTEM [ro (K 40)] [1]; mk_ix SPL_TOKEN [rw (K 40)] [2]].
  do 3 eexists. split; [reflexivity|]. split; [reflexivity|]. split; [reflexivity|]. cbv zeta.
  do 3 eexists. split; [vm_compute; reflexivity|]. split; [vm_compute; reflexivity|]. split; [calc|]. split; calc.
Qed.
Print Assumptions C54_privileges_kept_refuted.
