(** * Property theorems: what the SDK says of sub-accounts and of the balance.

    [sdk_sub_account_v2], [sdk_sub_account] and [sdk_balance] are
    get_sub_account_v2, get_sub_account and get_balance of the SDK (SdkRead.v);
    [sub_record] (SpecSub2.v) is a sub-account of a wallet. *)
From Verif Require Import BaseFacts SdkRead2 SpecSub1 DemoSub1 DemoRent.

(** ** C87: sub-accounts as the SDK sees them *)
(** A sub-account opened with the addresses the SDK uses is found in all later
    states, on or off *)
Theorem C87_found_ever_after : forall E cx w w1 w' s, foreign_ok E -> rent_grows E -> 0 < rent E 72 ->
  good_world E w -> admissible E w (Call cx) -> is_cfg (w (acct cx 0)) s -> succeeds E cx w w1 -> tag (c_data cx) = 18 -> acct cx 1 <> acct cx 2 ->
  find_pda E (seeds_v2_state0 (s_id s) (s_subctr s)) = (acct cx 2, nth 8 (c_data cx) 0) ->
  find_pda E (seeds_v2_asset0 (s_id s) (s_subctr s)) = (acct cx 3, nth 9 (c_data cx) 0) ->
  reach E w1 w' -> sdk_sub_account_v2 E w' (s_id s) (s_subctr s) = Ok (Some (acct cx 3)).
Proof. exact sdk_finds. Qed.
Print Assumptions C87_found_ever_after.

(** What is found is a sub-account of the wallet *)
Theorem C87_found_is_real : forall E w s n a, good_world E w -> sdk_sub_account_v2 E w (s_id s) n = Ok (Some a) -> is_u32 n -> wf_key (s_id s) ->
  exists st on, (on = 0 \/ on = 1) /\ sub_record E w s st a n on
    /\ st = fst (find_pda E (seeds_v2_state0 (s_id s) n)) /\ a = fst (find_pda E (seeds_v2_asset0 (s_id s) n)).
Proof. exact sdk_found. Qed.
Print Assumptions C87_found_is_real.

(** Findings.  A sub-account can be missed: role 1 opened sub-account 0 with another
    bump, it exists and is enabled, and the SDK says there is none *)
Theorem C87_missed_refuted : let w := den [Call (c_sub2 0 254)] in let s := s_den 1 (lm ++ [p_v2all 0]) None in
  reach toy genesis w /\ is_cfg (w SWIG2) s /\ sub_record toy w s (STATE 0 254) (ASSET 0 254) 0 1 /\ sdk_sub_account_v2 toy w (s_id s) 0 = Ok None.
Proof.
  cbv zeta. split; [apply den_ok; calc|]. split; [apply den_cfg; calc|]. split; [eapply sub_recordb_ok with (b := 254) (ab := 254); calc|]. calc.
Qed.
Print Assumptions C87_missed_refuted.
(** Before sub-account 0 is opened the SDK says so; one lamport sent to its address
    by anybody turns this into an error *)
Theorem C87_gift_refuted : let w := den [] in let w' := den [pays (STATE 0 255) 1] in
  reach toy genesis w' /\ sdk_sub_account_v2 toy w ID2 0 = Ok None /\ sdk_sub_account_v2 toy w' ID2 0 = Err PInvalidAccountData.
Proof. cbv zeta. split; [apply den_ok; calc|]. split; calc. Qed.
Print Assumptions C87_gift_refuted.
(** A sub-account of the first version is reported although it was never opened: a
    lamport was sent to its address *)
Theorem C87_first_version_refuted : let w := den [pays SUB1 1] in let s := s_den 0 lm None in
  reach toy genesis w /\ is_cfg (w SWIG2) s /\ (forall r, In r (s_roles s) -> no_sub_perm r SUB1)
  /\ sdk_sub_account toy w (s_id s) 1 = Some SUB1.
Proof.
  cbv zeta. split; [apply den_ok; calc|]. split; [apply den_cfg; calc|]. split; [|calc].
  intros r [<-|[<-|[]]]; apply no_permb_ok; calc.
Qed.
Print Assumptions C87_first_version_refuted.
(** The balance the SDK reports does not include what the wallet holds *)
Theorem C87_balance_refuted : let w := den [] in let w' := den [pays WALLET2 5000] in
  reach toy genesis w' /\ a_lamports (w' WALLET2) = a_lamports (w WALLET2) + 5000 /\ sdk_balance toy w' ID2 = sdk_balance toy w ID2.
Proof. cbv zeta. split; [apply den_ok; calc|]. split; calc. Qed.
Print Assumptions C87_balance_refuted.

(** role 1 opens sub-account 0, later switches it off; it is found *)
Example C87_case : let cx := c_sub2 0 255 in let w := den [] in let w1 := run toy w [Call cx] in let s := s_den 0 lm None in
  let w' := run toy w1 [Call (c_toggle2 1 0 255 0)] in
  foreign_ok toy /\ rent_grows toy /\ 0 < rent toy 72 /\ reach toy genesis w /\ good_world toy w /\ reach toy genesis (den [Call cx]) /\ wf_ctx cx /\ is_cfg (w (acct cx 0)) s /\ succeeds toy cx w w1
  /\ tag (c_data cx) = 18 /\ acct cx 1 <> acct cx 2
  /\ find_pda toy (seeds_v2_state0 (s_id s) (s_subctr s)) = (acct cx 2, nth 8 (c_data cx) 0)
  /\ find_pda toy (seeds_v2_asset0 (s_id s) (s_subctr s)) = (acct cx 3, nth 9 (c_data cx) 0)
  /\ v2_enabled (a_data (w' (acct cx 2))) = 0 /\ sdk_sub_account_v2 toy w' ID2 0 = Ok (Some (acct cx 3)).
Proof.
  cbv zeta. split; [exact toy_foreign_ok|]. split; [exact toy_rent_grows|]. split; [reflexivity|]. split; [apply den_ok; calc|]. split; [apply den_ok; calc|]. split; [apply den_ok; calc|]. split; [demo|].
  split; [apply den_cfg; calc|]. split; [apply run_one; calc|]. split; [calc|]. split; [apply beq_neq; calc|]. split; [calc|]. split; [calc|]. split; calc.
Qed.
