(** * What the configuration account pays and receives when roles are edited

    [moved_only w w' from to n] (SpecFlow) says that exactly [n] lamports went from
    one account to the other and that no other balance changed; [size w k] is the
    length of the account's data.  Account 0 of the instructions is the
    configuration account, account 1 the payer. *)
From Verif Require Import SpecConfig SpecSteps DemoFlow Flow.

(** ** C95: adding a role costs the payer exactly what the configuration account
    lacks to the rent of its new size; nobody else pays. *)
Theorem C95_add_costs_rent : forall E cx w w' s, wf_ctx cx -> is_cfg (w (acct cx 0)) s -> room 1 s -> succeeds E cx w w' ->
  tag (c_data cx) = 1 ->
  moved_only w w' (acct cx 1) (acct cx 0) (Z.max 0 (rent E (size w' (acct cx 0)) - a_lamports (w (acct cx 0)))).
Proof. exact flow_add. Qed.
Print Assumptions C95_add_costs_rent.

(** Removing a role refunds exactly the difference of the rents to the payer; what
    else lies on the configuration account stays. *)
Theorem C95_remove_refunds_rent : forall E cx w w' s, is_cfg (w (acct cx 0)) s -> succeeds E cx w w' ->
  tag (c_data cx) = 2 ->
  moved_only w w' (acct cx 0) (acct cx 1) (rent E (size w (acct cx 0)) - rent E (size w' (acct cx 0))).
Proof. exact flow_remove. Qed.
Print Assumptions C95_remove_refunds_rent.

(** Editing permissions costs what is lacking to the new rent if the account grows;
    if it shrinks, EVERYTHING above the new rent goes to the payer, also what was
    deposited there and is no refund. *)
Theorem C95_update_flow : forall E cx w w' s, is_cfg (w (acct cx 0)) s -> succeeds E cx w w' ->
  tag (c_data cx) = 3 ->
  let k := acct cx 0 in let p := acct cx 1 in
  ((size w k < size w' k)%nat -> moved_only w w' p k (Z.max 0 (rent E (size w' k) - a_lamports (w k))))
  /\ ((size w' k < size w k)%nat -> moved_only w w' k p (Z.max 0 (a_lamports (w k) - rent E (size w' k)))).
Proof. exact flow_update. Qed.
Print Assumptions C95_update_flow.

(** the payer (10) pays for the role of account 13 what the 900000 lamports of
    surplus do not cover *)
Example C95_add_case : let w := den e_flow in let cx := c_plus2 (K 13) (repeat (p_sol 5) 9) in let w' := run toy w [Call cx] in
  wf_ctx cx /\ (exists s, is_cfg (w (acct cx 0)) s /\ room 1 s) /\ succeeds toy cx w w' /\ tag (c_data cx) = 1
  /\ acct cx 0 = SWIG2 /\ acct cx 1 = K 10
  /\ size w SWIG2 = 232%nat /\ size w' SWIG2 = 424%nat
  /\ a_lamports (w (K 10)) - a_lamports (w' (K 10)) = 6960 * 192 - 900000.
Proof. cbv zeta. life; try (eexists; split; [apply flow_cfg|exact flow_room]); calc. Qed.

(** Role 1 may only manage roles.  Both times it names account 99, which does not
    sign, as the payer.  Removing role 2 refunds the rent; cutting role 2 down by
    one permission takes the 900000 lamports deposited on the configuration
    account as well. *)
Example C95_remove_case : let w := den e_flow in let w' := run toy w [Call c_drop] in
  (exists s, is_cfg (w (acct c_drop 0)) s) /\ succeeds toy c_drop w w' /\ tag (c_data c_drop) = 2
  /\ acct c_drop 1 = K 99 /\ size w SWIG2 = 232%nat /\ size w' SWIG2 = 160%nat
  /\ a_lamports (w' (K 99)) = 6960 * 72 /\ a_lamports (w' SWIG2) = rent toy 160 + 900000.
Proof. cbv zeta. life; try (eexists; apply flow_cfg); calc. Qed.
Example C95_update_takes_deposits : let w := den e_flow in let w' := run toy w [Call c_trim] in
  reach toy genesis w /\ is_cfg (w (acct c_trim 0)) s_flow /\ succeeds toy c_trim w w' /\ tag (c_data c_trim) = 3
  /\ actor_of (c_data c_trim) = 1 /\ find_role 1 s_flow = Some (m1 [p_manage])
  /\ acct c_trim 1 = K 99 /\ signer (c_metas c_trim) (K 99) = false
  /\ size w SWIG2 = 232%nat /\ size w' SWIG2 = 216%nat
  /\ a_lamports (w SWIG2) = rent toy 232 + 900000 /\ a_lamports (w' SWIG2) = rent toy 216
  /\ a_lamports (w' (K 99)) = a_lamports (w (K 99)) + 900000 + (rent toy 232 - rent toy 216).
Proof. cbv zeta. life; try apply flow_cfg; calc. Qed.
