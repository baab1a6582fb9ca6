(** * Property theorems: what signing leaves in a sub-account, and who can ask for it

    Vocabulary: [exempt] (SpecRent) - the account holds the rent-exempt minimum for
    its size; [at_height] (SpecTop) - the same request made by a program instead
    of the transaction; [succeeds] (SpecActs). *)
From Verif Require Import Top DemoLife DemoCan SpecHistory.

(** ** C92: a sub-account that signs keeps its rent *)
Theorem C92_signing_keeps_rent : forall E cx w w', succeeds E cx w w' ->
  (tag (c_data cx) = 9 -> exempt E (w' (acct cx 1))) /\ (tag (c_data cx) = 20 -> exempt E (w' (acct cx 2))).
Proof. intros E cx w w' H. split; intros T; [exact (sub1_keeps E cx w w' H T)|exact (sub2_keeps E cx w w' H T)]. Qed.
Print Assumptions C92_signing_keeps_rent.

(** Withdrawals do not look: both versions of a sub-account can be emptied by them *)
Theorem C92_withdrawing_refuted :
  let w1 := den [Call c_sub1; pays SUB1 5000000] in let all1 := a_lamports (w1 SUB1) in
  let w2 := den [Call (c_sub2 0 255); pays (ASSET 0 255) 5000000] in let all2 := a_lamports (w2 (ASSET 0 255)) in
  reach toy genesis w1 /\ reach toy genesis w2 /\ 0 < rent toy 0
  /\ okb (process toy (c_wd1 1 all1) w1) = true /\ a_lamports (run toy w1 [Call (c_wd1 1 all1)] SUB1) = 0
  /\ okb (process toy (c_wd2 1 0 255 all2) w2) = true /\ a_lamports (run toy w2 [Call (c_wd2 1 0 255 all2)] (ASSET 0 255)) = 0.
Proof.
  cbv zeta. split; [apply den_ok; calc|]. split; [apply den_ok; calc|]. split; [apply Z.ltb_lt; calc|].
  repeat (split; [calc|]). calc.
Qed.
Print Assumptions C92_withdrawing_refuted.

(** both versions sign for what they hold above the rent, and not for a lamport more *)
Example C92_case : 
  let w1 := den [Call c_sub1; pays SUB1 5000000] in let more1 := a_lamports (w1 SUB1) - rent toy 0 in
  let w2 := den [Call (c_sub2 0 255); pays (ASSET 0 255) 5000000] in let more2 := a_lamports (w2 (ASSET 0 255)) - rent toy 0 in
  okb (process toy (c_subsign1 more1) w1) = true /\ okb (process toy (c_subsign1 (more1 + 1)) w1) = false
  /\ okb (process toy (c_subsign2 1 0 255 more2) w2) = true /\ okb (process toy (c_subsign2 1 0 255 (more2 + 1)) w2) = false.
Proof. cbv zeta. repeat (split; [calc|]). calc. Qed.

(** ** C93: programs cannot ask the wallet to sign *)
(** Both kinds of sub-accounts and the wallet sign only for instructions of the transaction itself *)
Theorem C93_top_level : forall E cx w w', succeeds E cx w w' -> In (tag (c_data cx)) [9; 11; 20] -> c_height cx = 1%nat.
Proof. exact top_level. Qed.
Print Assumptions C93_top_level.
(** Every other request has the same outcome whoever makes it, for the same accounts, signers and data *)
Theorem C93_others_anywhere : forall E n cx w, ~ In (tag (c_data cx)) [9; 11; 20] ->
  process E (at_height n cx) w = process E cx w.
Proof. exact any_height. Qed.
Print Assumptions C93_others_anywhere.
(** a program cannot have the sub-account pay; it can have it emptied into the wallet *)
Example C93_case : let w := den [Call (c_sub2 0 255); pays (ASSET 0 255) 5000000] in
  let cx := c_subsign2 1 0 255 1000 in let wd := c_wd2 1 0 255 700 in
  In (tag (c_data cx)) [9; 11; 20] /\ okb (process toy cx w) = true /\ okb (process toy (at_height 2 cx) w) = false
  /\ ~ In (tag (c_data wd)) [9; 11; 20] /\ okb (process toy (at_height 2 wd) w) = true.
Proof.
  cbv zeta. split; [cbn; auto|]. split; [calc|]. split; [calc|]. split; [cbn; intuition discriminate|calc].
Qed.
