(** * What the other instructions that write the configuration cost

    [moved_only w w' from to n], [no_flow w w'] and [paid_out w w' from l]
    (SpecFlow) say which balances change and that no other does; [size w k] is the
    length of the account's data.  Account 0 of the instructions is the
    configuration account. *)
From Verif Require Import SpecConfig SpecSteps DemoFlow Flow2.

(** ** C101: opening a session (tag 5), replacing a credential (16) and switching
    a sub-account on or off (10, 19) move no money. *)
Theorem C101_free_of_charge : forall E cx w w', succeeds E cx w w' -> In (tag (c_data cx)) [5; 10; 16; 19] -> no_flow w w'.
Proof. exact flow_none. Qed.
Print Assumptions C101_free_of_charge.

(** Setting the rent claimer costs the payer (account 1) exactly what the
    configuration account lacks to the rent of its new size. *)
Theorem C101_claimer_costs_rent : forall E cx w w', succeeds E cx w w' -> forall s, wf_ctx cx -> is_cfg (w (acct cx 0)) s ->
  tag (c_data cx) = 17 ->
  moved_only w w' (acct cx 1) (acct cx 0) (Z.max 0 (rent E (size w' (acct cx 0)) - a_lamports (w (acct cx 0)))).
Proof. exact flow_claimer. Qed.
Print Assumptions C101_claimer_costs_rent.

(** Migrating costs the payer (account 2) exactly what the wallet address
    (account 3) lacks to the rent of an empty account. *)
Theorem C101_migrate_costs_rent : forall E cx w w', succeeds E cx w w' -> tag (c_data cx) = 12 ->
  moved_only w w' (acct cx 2) (acct cx 3) (Z.max 0 (rent E 0 - a_lamports (w (acct cx 3)))).
Proof. exact flow_migrate. Qed.
Print Assumptions C101_migrate_costs_rent.

(** Creating a sub-account of the first kind costs the payer (account 1) exactly
    what the sub-account (account 2) lacks to the rent of an empty account. *)
Theorem C101_sub_v1_costs_rent : forall E cx w w', succeeds E cx w w' -> tag (c_data cx) = 6 ->
  moved_only w w' (acct cx 1) (acct cx 2) (Z.max 0 (rent E 0 - a_lamports (w (acct cx 2)))).
Proof. exact flow_sub1. Qed.
Print Assumptions C101_sub_v1_costs_rent.

(** Creating one of the second kind costs the payer (account 1) exactly what the
    record (account 2), the sub-account (account 3) and, if it grows, the
    configuration account lack to the rent of their sizes. *)
Theorem C101_sub_v2_costs_rent : forall E cx w w', succeeds E cx w w' -> forall s, is_cfg (w (acct cx 0)) s ->
  tag (c_data cx) = 18 -> NoDup [acct cx 1; acct cx 2; acct cx 3; acct cx 0] ->
  let lack k n := Z.max 0 (rent E n - a_lamports (w k)) in
  exists n, paid_out w w' (acct cx 1) [(acct cx 2, lack (acct cx 2) 72%nat); (acct cx 3, lack (acct cx 3) 0%nat); (acct cx 0, n)]
    /\ (size w' (acct cx 0) = size w (acct cx 0) /\ n = 0 \/ n = lack (acct cx 0) (size w' (acct cx 0))).
Proof. exact flow_sub2. Qed.
Print Assumptions C101_sub_v2_costs_rent.

Example C101_free_case : let w := den [Call c_sub1] in let cx := c_toggle1 0 0 in let w' := run toy w [Call cx] in
  succeeds toy cx w w' /\ In (tag (c_data cx)) [5; 10; 16; 19].
Proof. cbv zeta. life; try (right; left; reflexivity); calc. Qed.
Example C101_claimer_case : let w := den [] in let cx := c_claim2 (K 40) in let w' := run toy w [Call cx] in
  succeeds toy cx w w' /\ wf_ctx cx /\ is_cfg (w (acct cx 0)) (s_den 0 lm None) /\ tag (c_data cx) = 17
  /\ (size w' SWIG2 = size w SWIG2 + 40)%nat /\ a_lamports (w (acct cx 1)) - a_lamports (w' (acct cx 1)) = 6960 * 40.
Proof. cbv zeta. life; try apply den_ok; calc. Qed.
Example C101_migrate_case : let w := den [Call (c_sub2 0 255)] in let cx := c_migrate2 255 in let w' := run toy w [Call cx] in
  succeeds toy cx w w' /\ tag (c_data cx) = 12 /\ acct cx 3 = WALLET2.
Proof. cbv zeta. life; calc. Qed.
Example C101_sub_v1_case : let w := den [] in let cx := c_sub1 in let w' := run toy w [Call cx] in
  succeeds toy cx w w' /\ tag (c_data cx) = 6 /\ a_lamports (w (acct cx 2)) = 0
  /\ a_lamports (w' (acct cx 2)) = rent toy 0 /\ a_lamports (w (acct cx 1)) - a_lamports (w' (acct cx 1)) = rent toy 0.
Proof. cbv zeta. life; calc. Qed.
Example C101_sub_v2_case : let w := den [] in let cx := c_sub2 0 255 in let w' := run toy w [Call cx] in
  succeeds toy cx w w' /\ is_cfg (w (acct cx 0)) (s_den 0 lm None) /\ tag (c_data cx) = 18
  /\ NoDup [acct cx 1; acct cx 2; acct cx 3; acct cx 0]
  /\ (size w' SWIG2 = size w SWIG2 + 16)%nat
  /\ a_lamports (w (acct cx 1)) - a_lamports (w' (acct cx 1)) = rent toy 72 + rent toy 0 + 6960 * 16.
Proof. cbv zeta. life; try (apply (nodupb_ok beq); [exact beq_refl|calc]); calc. Qed.

(** ** C95, the remaining case: an edit of permissions that leaves the size of the
    configuration account as it is moves no money, also when more than the rent
    lies there *)
Theorem C95_same_size_is_free : forall E cx w w', succeeds E cx w w' -> forall s, wf_ctx cx -> is_cfg (w (acct cx 0)) s ->
  tag (c_data cx) = 3 -> size w' (acct cx 0) = size w (acct cx 0) -> no_flow w w'.
Proof. exact flow_same. Qed.
Print Assumptions C95_same_size_is_free.
Example C95_same_size_case : let w := den e_flow in let cx := c_update2 1 0 (enc_actions 0 [mk_action 20 []]) in let w' := run toy w [Call cx] in
  succeeds toy cx w w' /\ wf_ctx cx /\ is_cfg (w (acct cx 0)) s_flow /\ tag (c_data cx) = 3
  /\ size w' (acct cx 0) = size w (acct cx 0) /\ a_lamports (w (acct cx 0)) = rent toy 232 + 900000.
Proof. cbv zeta. life; try apply flow_cfg; calc. Qed.
