(** * Availability: what those who hold the permission can do

    [shows], [credential_ok], [add_data], [remove_data], [admin_accounts],
    [can_pay], [locked] and the other words of these statements are in SpecAvail.v. *)
From Verif Require Import BaseFacts SpecConfig Avail3 Lock Lock2 DemoAvail.

(** ** C64: AddAuthority works for a manager.  Who holds All or ManageAuthority and
    signs adds any role: every kind of credential, every list of permissions that
    is well formed and unspent.  What it takes: a role counter and a number of roles
    that are not exhausted, at most 10240 bytes more and 10 MiB in all, a payer who
    can pay the rent that is missing, and no stake account or account watched by a
    role among the accounts after the first. *)
Theorem C64_manager_can_add : forall E cx w s r ty c l i,
  wf_ctx cx -> is_cfg (w (acct cx 0)) s -> admin_accounts cx w s ->
  In r (s_roles s) -> manager r -> shows cx r i -> c_data cx = add_data (r_id r) ty c l i ->
  room 1 s -> credential_ok ty c -> wf_actions l -> Forall unspent l ->
  let nr := new_role s ty c l in let size := length (enc_config (add_to s nr)) in
  let had := a_lamports (w (acct cx 0)) in
  Z.of_nat (role_len nr) <= 10240 -> Z.of_nat size <= 10485760 -> 0 <= had -> rent E size < U64 ->
  (had < rent E size -> can_pay w (acct cx 1) (rent E size - had)) ->
  exists w', succeeds E cx w w' /\ is_cfg (w' (acct cx 0)) (add_to s nr).
Proof. exact add_works. Qed.
Print Assumptions C64_manager_can_add.

(** the manager of the second wallet adds account 14 with a permission *)
Example C64_manager_can_add_case : let w := ward [hire] in let s := s_ward [m2] in let l := [p_sol 5; p_program_all] in
  let cx := c_by2 (add_data 2 1 (K 14) l 3) in
  let nr := new_role s 1 (K 14) l in let size := length (enc_config (add_to s nr)) in let had := a_lamports (w SWIG2) in
  reach solid dawn w /\ wf_ctx cx /\ is_cfg (w (acct cx 0)) s /\ admin_accounts cx w s /\ In m2 (s_roles s) /\ holds 8 m2
  /\ shows cx m2 3 /\ room 1 s /\ credential_ok 1 (K 14) /\ wf_actions l /\ Forall unspent l
  /\ Z.of_nat (role_len nr) <= 10240 /\ Z.of_nat size <= 10485760 /\ 0 <= had < rent solid size /\ rent solid size < U64
  /\ a_owner (w (acct cx 1)) = SYSTEM /\ a_data (w (acct cx 1)) = [] /\ rent solid size - had <= a_lamports (w (acct cx 1)).
Proof.
  cbv zeta. avail; try calc; try (right; right; left; reflexivity); try (left; split; reflexivity).
  exact (shows_by2 _).
Qed.

(** ** C65: RemoveAuthority works for a manager, and for everybody's own role, if the
    role is not role 0.  The same accounts as for C64; the configuration account
    holds its rent (C60) and the payer's balance has room for the refund. *)
Theorem C65_manager_can_remove : forall E cx w s r tr i,
  is_cfg (w (acct cx 0)) s -> admin_accounts cx w s ->
  In r (s_roles s) -> In tr (s_roles s) -> r_id tr <> 0 -> manager r \/ r = tr -> shows cx r i ->
  c_data cx = remove_data (r_id r) (r_id tr) i -> rent_grows E -> exempt E (w (acct cx 0)) ->
  let s' := drop_role (r_id tr) s in
  a_lamports (w (acct cx 1)) + (rent E (length (enc_config s)) - rent E (length (enc_config s'))) < U64 ->
  exists w', succeeds E cx w w' /\ is_cfg (w' (acct cx 0)) s'.
Proof. exact remove_works. Qed.
Print Assumptions C65_manager_can_remove.

(** the manager removes role 1 *)
Example C65_manager_can_remove_case : let w := ward [hire] in let s := s_ward [m2] in
  let cx := c_by2 (remove_data 2 1 3) in let s' := drop_role 1 s in
  reach solid dawn w /\ is_cfg (w (acct cx 0)) s /\ admin_accounts cx w s
  /\ In m2 (s_roles s) /\ In (m1 lm) (s_roles s) /\ holds 8 m2 /\ shows cx m2 3
  /\ rent_grows solid /\ rent solid (length (a_data (w SWIG2))) <= a_lamports (w SWIG2)
  /\ a_lamports (w (acct cx 1)) + (rent solid (length (enc_config s)) - rent solid (length (enc_config s'))) < U64.
Proof.
  cbv zeta. avail; try calc; try exact toy_rent_grows; try (right; right; left; reflexivity); try (right; left; reflexivity).
  exact (shows_by2 _).
Qed.

(** ** C66: what an owner relies on, namely that a wallet with a root role stays
    manageable.  It does not.  A wallet is [locked] when some role has a
    ProgramScope permission for the system program's account and every such
    permission asks for a balance that the account is too short to contain.  Then
    adding (1), removing (2) and updating (3) roles, closing (15), setting a claimer
    (17), creating V2 sub-accounts (18) fail, and so does every instruction that
    names the system program after its first account, for example one that pays SOL. *)
Theorem C66_locked_fails : forall E cx w s w', is_cfg (w (acct cx 0)) s -> native w -> locked w s ->
  In (tag (c_data cx)) [1; 2; 3; 15; 17; 18] \/ In SYSTEM (map m_key (tl (c_metas cx))) -> ~ succeeds E cx w w'.
Proof. exact locked_fails. Qed.
Print Assumptions C66_locked_fails.
(** Nothing that happens later unlocks it. *)
Theorem C66_locked_forever : forall E w w' k s, foreign_ok E -> system_kept E -> good_world E w -> reach E w w' ->
  native w -> is_cfg (w k) s -> locked w s -> native w' /\ exists s', is_cfg (w' k) s' /\ locked w' s'.
Proof. exact (fun E w w' k s F S => locked_forever E F S w w' k s). Qed.
Print Assumptions C66_locked_forever.
(** And a role that may only manage can bring it about with one AddAuthority: in a
    reachable world where all six instructions work. *)
Theorem C66_stays_manageable_refuted :
  exists E w0 w1 cx w2 k s r, foreign_ok E /\ system_kept E /\ fresh w0 /\ native w0 /\ reach E w0 w1
  /\ is_cfg (w1 k) s
  /\ (forall t, In t [1; 2; 3; 15; 17; 18] -> exists cx' w', tag (c_data cx') = t /\ acct cx' 0 = k /\ succeeds E cx' w1 w')
  /\ find_role (actor_of (c_data cx)) s = Some r /\ ~ holds 7 r /\ tag (c_data cx) = 1 /\ acct cx 0 = k
  /\ succeeds E cx w1 w2
  /\ forall w3, reach E w2 w3 -> (exists s3, is_cfg (w3 k) s3)
     /\ forall cx' w4, acct cx' 0 = k -> In (tag (c_data cx')) [1; 2; 3; 15; 17; 18] \/ In SYSTEM (map m_key (tl (c_metas cx'))) ->
        ~ succeeds E cx' w3 w4.
Proof. exact locked_out. Qed.
Print Assumptions C66_stays_manageable_refuted.

Example C66_locked_case : let w := ward [hire; Call (c_watch bad)] in
  reach solid dawn w /\ good_world solid w /\ is_cfg (w SWIG2) (s_ward [m2; m3 bad]) /\ native w /\ locked w (s_ward [m2; m3 bad])
  /\ foreign_ok solid /\ system_kept solid.
Proof. cbv zeta. avail. Qed.
(** a permission for bytes the account has does not lock *)
Example C66_not_locked_case : let w := ward [hire; Call (c_watch (p_watch 1 14))] in
  is_cfg (w SWIG2) (s_ward [m2; m3 (p_watch 1 14)]) /\ okb (process solid (c_plus2 (K 15) [p_all]) w) = true.
Proof. cbv zeta. avail; calc. Qed.
