(** * Properties C01-C13: what the instructions do to a wallet configuration.

    Vocabulary: configurations and their layout in SpecConfig.v ([config],
    [enc_config], [wf_config], [parses], [upd_result], [new_credential]);
    instructions and edits in SpecSteps.v, SpecWorld.v ([is_cfg], [tag],
    [add_to], [drop_role], [on_role]); who acts in SpecAuth.v, SpecActs.v
    ([acts], [manager], [holds_for], [used]); histories in SpecHistory.v
    ([reach], [fresh]). Examples run in the chain of Demo.v and start from the
    wallet [home] of DemoWallet.v, reached from an empty chain. *)
From Verif Require Import BaseFacts SpecConfig SpecActs ConfigProps HistoryProps DemoWallet.

(** ** C01: configuration accounts stay well-formed through every history *)
Theorem C01_well_formed : forall E w w' k, foreign_ok E -> fresh w -> reach E w w' ->
  a_owner (w' k) = SELF -> nth 0 (a_data (w' k)) 0 = 1 ->
  exists s, a_data (w' k) = enc_config s /\ wf_config s
    /\ forall s2, a_data (w' k) = enc_config s2 -> wf_config s2 -> s2 = s.
Proof. exact reachable_config. Qed.
Print Assumptions C01_well_formed.

(** Every successful instruction except creation (no acting role) and migration
    (12) works on such an account, so the theorems below, which start from a
    well-formed configuration, cover every reachable state. *)
Theorem C01_instructions_see_configurations : forall E w0 w w' cx, foreign_ok E -> fresh w0 -> reach E w0 w ->
  succeeds E cx w w' -> auth_layout (c_data cx) <> None -> tag (c_data cx) <> 12 ->
  exists s, is_cfg (w (acct cx 0)) s.
Proof. exact (fun E w0 w w' cx F Fr R => operates E cx w w' (reach_good E w0 w F (fresh_good E w0 Fr) R)). Qed.
Print Assumptions C01_instructions_see_configurations.

Example C01_case : foreign_ok toy /\ fresh genesis /\ reach toy genesis home
  /\ a_owner (home SWIG) = SELF /\ nth 0 (a_data (home SWIG)) 0 = 1 /\ a_data (home SWIG) = enc_config s_home.
Proof. at_home; calc. Qed.
Example C01_instructions_case : let cx := c_plus 1 (K 13) [p_sol 7] in
  reach toy genesis home /\ succeeds toy cx home (result home (process toy cx home))
  /\ auth_layout (c_data cx) <> None /\ tag (c_data cx) <> 12.
Proof. cbv zeta. at_home; vm_compute; discriminate. Qed.

(** ** C02: adding an authority *)
Theorem C02_add : forall E cx w w' s, hashes_ok E -> wf_ctx cx -> is_cfg (w (acct cx 0)) s -> succeeds E cx w w' ->
  let data := c_data cx in let s1 := used (actor_of data) s in
  tag data = 1 -> room 1 s ->
  exists r nr, acts E cx s r /\ manager r
    /\ r_id nr = s_counter s /\ r_aty nr = u16_at 6 data /\ r_pad nr = zeros 2
    /\ r_auth nr = new_credential (r_aty nr) (sub 16 (arg_len data) data)
    /\ parses (sub (16 + arg_len data) (nat_of (u16_at 4 data)) data) (r_acts nr)
    /\ is_cfg (w' (acct cx 0)) (add_to s1 nr) /\ others_kept w w' (acct cx 0).
Proof. exact add_ok. Qed.
Print Assumptions C02_add.

Example C02_case : let cx := c_plus 1 (K 13) [p_sol 7; p_program SYSTEM] in let w' := result home (process toy cx home) in
  hashes_ok toy /\ wf_ctx cx /\ is_cfg (home (acct cx 0)) s_home /\ succeeds toy cx home w'
  /\ tag (c_data cx) = 1 /\ room 1 s_home
  /\ is_cfg (w' SWIG) (add_to s_home (mk_role 6 1 (zeros 2) (K 13) [p_sol 7; p_program SYSTEM])).
Proof. cbv zeta. demo; calc. Qed.

(** ** C03: removing an authority *)
Theorem C03_remove : forall E cx w w' s, hashes_ok E -> wf_ctx cx -> is_cfg (w (acct cx 0)) s -> succeeds E cx w w' ->
  let data := c_data cx in let s1 := used (actor_of data) s in
  tag data = 2 ->
  exists r tr, acts E cx s r /\ (manager r \/ r_id r = u32_at 12 data)
    /\ u32_at 12 data <> 0 /\ find_role (u32_at 12 data) s = Some tr
    /\ is_cfg (w' (acct cx 0)) (drop_role (u32_at 12 data) s1) /\ others_kept w w' (acct cx 0).
Proof. exact remove_ok. Qed.
Print Assumptions C03_remove.

Definition c_remove (actor target : Z) : ctx := call 7 [rw SWIG; payer; ro SYSTEM; sg (K 11)] (d_remove actor target ++ ed 3).
Example C03_case : let cx := c_remove 1 3 in let w' := result home (process toy cx home) in
  hashes_ok toy /\ wf_ctx cx /\ is_cfg (home (acct cx 0)) s_home /\ succeeds toy cx home w'
  /\ tag (c_data cx) = 2
  /\ is_cfg (w' SWIG) (mk_config 255 WID 6 254 (zeros 3) 0 [r0; r1; r2; r4; r5] None).
Proof. cbv zeta. demo; calc. Qed.

(** ** C04: updating permissions *)
Theorem C04_update : forall E cx w w' s, hashes_ok E -> wf_ctx cx -> is_cfg (w (acct cx 0)) s -> succeeds E cx w w' ->
  let data := c_data cx in let s1 := used (actor_of data) s in
  tag data = 3 ->
  let target := u32_at 12 data in
  exists r tr l', acts E cx s r /\ manager r /\ find_role target s = Some tr
    /\ upd_result (fst (update_op data)) (snd (update_op data)) (r_acts tr) l'
    /\ is_cfg (w' (acct cx 0)) (on_role target (fun r => with_acts r l') s1) /\ others_kept w w' (acct cx 0)
    /\ Forall unspent l'.
Proof. exact update_ok. Qed.
Print Assumptions C04_update.

Definition c_update (actor target op : Z) (arg : bytes) : ctx :=
  call 7 [rw SWIG; payer; ro SYSTEM; sg (K 11)] (d_update actor target op arg ++ ed 3).
Definition upd_world (op : Z) (arg : bytes) : world := result home (process toy (c_update 1 2 op arg) home).
Example C04_case :
  let ok op arg := hashes_ok toy /\ wf_ctx (c_update 1 2 op arg) /\ is_cfg (home (acct (c_update 1 2 op arg) 0)) s_home
    /\ succeeds toy (c_update 1 2 op arg) home (upd_world op arg) /\ tag (c_data (c_update 1 2 op arg)) = 3 in
  let now op arg l := is_cfg (upd_world op arg SWIG) (on_role 2 (fun r => with_acts r l) s_home) in
  let grow := enc_actions 0 [p_close] in
  (ok 0 grow /\ now 0 grow [p_close])
  /\ (ok 1 grow /\ now 1 grow [p_sol 500; p_program_all; p_replace 1; p_close])
  /\ (ok 2 [13] /\ now 2 [13] [p_sol 500; p_replace 1])
  /\ (ok 3 [0; 0; 2; 0] /\ now 3 [0; 0; 2; 0] [p_program_all]).
Proof. cbv zeta. demo; calc. Qed.

(** ** C05: replacing a credential; C12: who may do so *)
Theorem C05_C12_replace : forall E cx w w' s, hashes_ok E -> wf_ctx cx -> is_cfg (w (acct cx 0)) s -> succeeds E cx w w' ->
  let data := c_data cx in let s1 := used (actor_of data) s in
  tag data = 16 ->
  let target := u32_at 8 data in let c := sub 16 (nat_of (u16_at 12 data)) data in
  exists r tr, let pk := new_key (r_aty tr) c in
    acts E cx s r /\ (manager r \/ holds_for 21 target r) /\ find_role target s = Some tr
    /\ 1 <= r_aty tr <= 6 /\ firstn (length pk) (r_auth tr) <> pk
    /\ (length c = length pk \/ (length c = 64%nat /\ (r_aty tr = 3 \/ r_aty tr = 4)))
    /\ (r_aty r = 7 -> replacement_shown E cx (actor_of data) target (r_aty tr) (firstn (length pk) (r_auth tr)) pk)
    /\ is_cfg (w' (acct cx 0)) (on_role target (fun r => with_auth r (rotated (r_aty r) (r_auth r) pk)) s1)
    /\ others_kept w w' (acct cx 0).
Proof. exact replace_ok. Qed.
Print Assumptions C05_C12_replace.

(** the secp256k1 role 2 holds the permission to replace the key of role 1 *)
Definition replace_metas : list meta := [rw SWIG; ro WALLET; payer].
Definition c_replace : ctx := let d := d_replace 2 1 (K 33) in
  call 30 replace_metas (d ++ k1_pay k1_x [] 20 1 replace_metas d).
Example C05_C12_case : let cx := c_replace in let w' := result home (process toy cx home) in
  hashes_ok toy /\ wf_ctx cx /\ is_cfg (home (acct cx 0)) s_home /\ succeeds toy cx home w'
  /\ tag (c_data cx) = 16
  /\ is_cfg (w' SWIG) (on_role 1 (fun r => with_auth r (K 33)) (used 2 s_home)).
Proof. cbv zeta. demo; calc. Qed.

(** ** C06: role ids are unique and never reused *)
Theorem C06_ids_not_reused : forall E, foreign_ok E -> forall w w' k s s', good_world E w -> reach E w w' ->
  is_cfg (w k) s -> is_cfg (w' k) s' ->
  NoDup (ids s') /\ (forall i, In i (ids s') -> i < s_counter s')
  /\ s_counter s <= s_counter s' /\ forall i, In i (ids s') -> In i (ids s) \/ s_counter s <= i.
Proof.
  exact (fun E F w w' k s s' G R C C' => match proj2 (proj2 C') with
    conj _ (conj _ (conj _ (conj _ (conj _ (conj _ (conj _ (conj _ (conj N (conj L _))))))))) =>
      conj N (conj L (history_ids E F w w' k s s' G R C C')) end).
Qed.
Print Assumptions C06_ids_not_reused.

(** role 3 removed and a role added: the id 3 does not come back *)
Definition e_swap : list event := [Call (c_remove 1 3); Call (c_plus 1 (K 13) [p_sol 7])].
Example C06_case : good_world toy home /\ reach toy home (run toy home e_swap) /\ is_cfg (home SWIG) s_home
  /\ is_cfg (run toy home e_swap SWIG)
       (mk_config 255 WID 7 254 (zeros 3) 0 [r0; r1; r2; r4; r5; mk_role 6 1 (zeros 2) (K 13) [p_sol 7]] None).
Proof.
  at_home.
Qed.

(** ** C07: the root authority cannot be removed *)
Theorem C07_root_stays : forall E, foreign_ok E -> forall w w', fresh w -> reach E w w' ->
  forall k s, is_cfg (w' k) s -> In 0 (ids s).
Proof. exact root_stays. Qed.
Print Assumptions C07_root_stays.

Example C07_case : foreign_ok toy /\ fresh genesis /\ reach toy genesis home /\ is_cfg (home SWIG) s_home
  /\ okb (process toy (c_remove 1 0) home) = false.
Proof. at_home; calc. Qed.

(** ** C08: a wallet can lose its last manager *)
Definition e_unmanaged : list event :=
  [Call c_new; Call (call 6 admin (d_update 0 0 0 (enc_actions 0 [p_sol 5]) ++ ed 1))].
Theorem C08_last_manager_refuted : exists E w w' k s, foreign_ok E /\ hashes_ok E /\ fresh w /\ reach E w w'
  /\ is_cfg (w' k) s /\ forall r, In r (s_roles s) -> ~ manager r.
Proof.
  exists toy, genesis, (run toy genesis e_unmanaged), SWIG,
    (mk_config 255 WID 1 254 (zeros 3) 0 [mk_role 0 1 (zeros 2) (K 10) [p_sol 5]] None).
  at_home.
  intros r [<-|[]] [(a & [<-|[]] & Q)|(a & [<-|[]] & Q)]; discriminate Q.
Qed.
Print Assumptions C08_last_manager_refuted.

(** ** C09: permissions of every role *)
Theorem C09_permissions : forall E w w' k, foreign_ok E -> fresh w -> reach E w w' ->
  a_owner (w' k) = SELF -> nth 0 (a_data (w' k)) 0 = 1 ->
  exists s, a_data (w' k) = enc_config s /\ forall r, In r (s_roles s) ->
    (1 <= length (r_acts r) <= 255)%nat
    /\ In (r_aty r, Z.of_nat (length (r_auth r))) credentials
    /\ (forall a, In a (r_acts r) -> In (ac_ty a, Z.of_nat (length (ac_data a))) kinds)
    /\ NoDup (v2_scopes (r_acts r)).
Proof. exact reachable_permissions. Qed.
Print Assumptions C09_permissions.

Example C09_case : foreign_ok toy /\ fresh genesis /\ reach toy genesis home
  /\ a_owner (home SWIG) = SELF /\ nth 0 (a_data (home SWIG)) 0 = 1
  /\ In r4 (s_roles s_home) /\ v2_scopes (r_acts r4) = [(22, 0)].
Proof. at_home; try calc. cbn; tauto. Qed.

(** ** C10: permission lookup; both lookup functions of the program *)
Theorem C10_lookup : forall p q r n, wf_role r -> In (p, Z.of_nat n) kinds ->
  length q = target_len p \/ (p = 9 /\ q = []) ->
  finds p q r n (get_action p q (enc_actions 0 (r_acts r)))
  /\ get_action_mut p q (enc_actions 0 (r_acts r)) = get_action p q (enc_actions 0 (r_acts r)).
Proof. exact (fun p q r n W K L => conj (lookup_answer p q r n W K L) (lookup_both p q r W)). Qed.
Print Assumptions C10_lookup.

Example C10_case : wf_role r1 /\ In (3, 32) kinds /\ length SYSTEM = target_len 3
  /\ get_action 3 SYSTEM (enc_actions 0 (r_acts r1)) = Ok (Some 32%nat)
  /\ get_action 3 SELF (enc_actions 0 (r_acts r1)) = Ok None.
Proof. demo; try calc. cbn; tauto. Qed.

(** ** C11: only managers change roles *)
Theorem C11_only_managers : forall E cx w w' s, hashes_ok E -> wf_ctx cx -> is_cfg (w (acct cx 0)) s -> succeeds E cx w w' ->
  let data := c_data cx in
  tag data = 1 /\ room 1 s \/ tag data = 2 \/ tag data = 3 ->
  exists r, acts E cx s r /\ (manager r \/ (tag data = 2 /\ r_id r = u32_at 12 data)).
Proof. exact only_managers. Qed.
Print Assumptions C11_only_managers.

(** role 1 holds ManageAuthority; role 2 does not and is refused *)
Example C11_case : let cx := c_remove 1 3 in
  hashes_ok toy /\ wf_ctx cx /\ is_cfg (home (acct cx 0)) s_home /\ succeeds toy cx home (result home (process toy cx home))
  /\ tag (c_data cx) = 2
  /\ (let d := d_remove 2 3 in let ms := admin in
      okb (process toy (call 30 ms (d ++ k1_pay k1_x [] 20 1 ms d)) home) = false)
  /\ (let d := d_remove 2 2 in let ms := admin in
      okb (process toy (call 30 ms (d ++ k1_pay k1_x [] 20 1 ms d)) home) = true).
Proof. cbv zeta. demo; calc. Qed.

(** ** C13: no change without an authenticated role *)
Theorem C13_no_change_without_role : forall E cx w w' k s, foreign_ok E -> hashes_ok E -> good_world E w ->
  admissible E w (Call cx) -> succeeds E cx w w' -> is_cfg (w k) s -> a_data (w' k) <> a_data (w k) ->
  exists cx1 r, (cx1 = cx \/ nested E cx cx1) /\ k = acct cx1 0 /\ acts E cx1 s r.
Proof. exact change_needs_actor. Qed.
Print Assumptions C13_no_change_without_role.

Example C13_case : let cx := c_replace in let w' := result home (process toy cx home) in
  foreign_ok toy /\ hashes_ok toy /\ good_world toy home /\ admissible toy home (Call cx)
  /\ succeeds toy cx home w' /\ is_cfg (home SWIG) s_home /\ beq (a_data (w' SWIG)) (a_data (home SWIG)) = false.
Proof.
  cbv zeta. at_home. calc.
Qed.
