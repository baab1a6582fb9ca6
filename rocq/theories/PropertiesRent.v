(** * Rent, and who pays for configuration changes.

    Vocabulary: [exempt] (the balance covers the rent of the account's size) and
    [rent_grows] (the rent of a size is not negative and does not shrink when
    the size grows), from SpecRent. *)
From Verif Require Import SpecConfig SpecSteps ConfigProps LifeProps DemoRent Rent3 Spare.

(** ** C60: an account of the wallet program whose balance covers its rent keeps
    covering it, whatever instructions, inner instructions and foreign programs
    run, and a new configuration account covers it from the start. *)
Theorem C60_stays_exempt : forall E w w' k, foreign_ok E -> rent_grows E -> good_world E w -> reach E w w' ->
  a_owner (w k) = SELF -> exempt E (w k) -> exempt E (w' k).
Proof. exact (fun E w w' k F Hr G R O X => proj2 (reach_safe E F Hr w w' k G R O X)). Qed.
Print Assumptions C60_stays_exempt.
Theorem C60_created_exempt : forall E cx w w', rent_grows E -> wf_ctx cx -> succeeds E cx w w' ->
  auth_layout (c_data cx) = None -> exempt E (w' (acct cx 0)).
Proof. exact (fun E cx w w' Hr => created_exempt E Hr cx w w'). Qed.
Print Assumptions C60_created_exempt.

(** an update, a sub-account, a claimer and the closing of the wallet *)
Example C60_case : let w := den [] in let w' := run toy w e_rent in
  foreign_ok toy /\ rent_grows toy /\ good_world toy w /\ reach toy w w' /\ a_owner (w SWIG2) = SELF
  /\ map (fun n => surplus (den (firstn n e_rent))) [0; 1; 2; 3; 4]%nat
     = [(240%nat, 0); (160%nat, 0); (176%nat, 0); (216%nat, 0); (1%nat, 0)].
Proof. cbv zeta. life; try exact toy_rent_grows; try (apply den_then; calc); calc. Qed.
Example C60_created_case : let cx := c_create2 [p_all] in wf_ctx cx /\ succeeds toy cx genesis (run toy genesis [Call cx])
  /\ auth_layout (c_data cx) = None /\ a_lamports (run toy genesis [Call cx] SWIG2) = rent toy 104.
Proof. cbv zeta. life; calc. Qed.

(** ** C61: only instructions that sign, withdraw, transfer assets or close (7, 9,
    11, 13, 14, 15, 20, 21) can take lamports from an account other than the
    configuration account, unless that account signed the call. *)
Theorem C61_configuration_spares : forall E cx w w' k, succeeds E cx w w' ->
  ~ In (tag (c_data cx)) [7; 9; 11; 13; 14; 15; 20; 21] -> k <> acct cx 0 -> signer (c_metas cx) k = false ->
  a_lamports (w k) <= a_lamports (w' k).
Proof. exact config_spares. Qed.
Print Assumptions C61_configuration_spares.

(** the payer (10) signs and pays for the new role, the wallet keeps its funds *)
Example C61_case : let w := den [pays WALLET2 5000] in let cx := c_plus2 (K 12) [p_sol 5] in let w' := result w (process toy cx w) in
  succeeds toy cx w w' /\ ~ In (tag (c_data cx)) [7; 9; 11; 13; 14; 15; 20; 21]
  /\ signer (c_metas cx) WALLET2 = false /\ a_lamports (w' WALLET2) = a_lamports (w WALLET2)
  /\ a_lamports (w' SWIG2) = a_lamports (w SWIG2) + 6960 * 64 /\ a_lamports (w' (K 10)) = a_lamports (w (K 10)) - 6960 * 64.
Proof. cbv zeta. life; try (vm_compute; intuition discriminate); calc. Qed.
