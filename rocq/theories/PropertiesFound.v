(** * Creating a wallet, and accounts that have nothing to do with it *)
From Verif Require Import SpecConfig SpecWorld SpecActs SpecClient SpecWorks SpecFound Client Found Found2 Bystander.
From Verif Require Import BaseFacts DemoFound.

(** ** C74: anyone who pays can create a wallet under an unused id *)
Theorem C74_create : forall E cx w id b wb ty c l, wf_ctx cx -> founding_accounts cx w ->
  vacant w (acct cx 0) -> vacant w (acct cx 2) -> a_lamports (w (acct cx 0)) = 0 ->
  pda E (seeds_swig id b) = Some (acct cx 0) -> pda E (seeds_wallet (acct cx 0) wb) = Some (acct cx 2) ->
  order_of (c_data cx) = Some (Found id b wb ty c (enc_actions 0 l)) ->
  credential_ok ty c -> wf_actions l -> Forall unspent l -> (exists a, In a l /\ (ac_ty a = 7 \/ ac_ty a = 8)) ->
  let s := founded id b wb ty c l in let n := length (enc_config s) in
  Z.of_nat n <= 10240 -> 0 <= rent E n < U64 -> rent E 0 < U64 ->
  can_pay w (acct cx 1) (rent E n + missing E w (acct cx 2) 0) ->
  exists w', succeeds E cx w w' /\ settled E w w' (acct cx 0) (acct cx 1) (acct cx 2) s.
Proof. exact found_asked. Qed.
Print Assumptions C74_create.
(** in particular with the instruction of the client library *)
Theorem C74_client : forall E cx w k b payer wal wb ty c l id, sent cx (create k b payer wal wb ty c l id) -> wf_ctx cx ->
  length id = 32%nat -> is_byte b -> is_byte wb -> NoDup [k; payer; wal] -> native w ->
  vacant w k -> vacant w wal -> a_lamports (w k) = 0 ->
  pda E (seeds_swig id b) = Some k -> pda E (seeds_wallet k wb) = Some wal ->
  credential_ok ty c -> wf_actions l -> Forall unspent l -> (exists a, In a l /\ (ac_ty a = 7 \/ ac_ty a = 8)) ->
  let s := founded id b wb ty c l in let n := length (enc_config s) in
  Z.of_nat n <= 10240 -> 0 <= rent E n < U64 -> rent E 0 < U64 -> can_pay w payer (rent E n + missing E w wal 0) ->
  exists w', succeeds E cx w w' /\ settled E w w' k payer wal s.
Proof. exact client_founds. Qed.
Print Assumptions C74_client.
(** An address that holds any lamports never becomes a wallet *)
Theorem C74_squatted : forall E k w w' cx w'', foreign_ok E -> good_world E w -> guarded E k -> no_asset E k ->
  vacant w k -> 0 < a_lamports (w k) -> unsigned_history E k w w' ->
  wf_ctx cx -> acct cx 0 = k -> auth_layout (c_data cx) = None -> ~ succeeds E cx w' w''.
Proof. exact squatted. Qed.
Print Assumptions C74_squatted.
(** so that one lamport, sent by anyone, takes that address from its future owner for ever *)
Theorem C74_prefunded_refuted :
  exists E w0 w1 cx k payer wal id b wb ty c l, let n := length (enc_config (founded id b wb ty c l)) in
  foreign_ok E /\ fresh w0 /\ native w0 /\ unsigned_history E k w0 w1 /\ a_lamports (w0 k) = 0 /\ a_lamports (w1 k) = 1
  /\ sent cx (create k b payer wal wb ty c l id) /\ wf_ctx cx /\ length id = 32%nat /\ is_byte b /\ is_byte wb
  /\ NoDup [k; payer; wal] /\ native w1 /\ vacant w1 k /\ vacant w1 wal
  /\ pda E (seeds_swig id b) = Some k /\ pda E (seeds_wallet k wb) = Some wal
  /\ credential_ok ty c /\ wf_actions l /\ Forall unspent l /\ (exists a, In a l /\ (ac_ty a = 7 \/ ac_ty a = 8))
  /\ Z.of_nat n <= 10240 /\ 0 <= rent E n < U64 /\ rent E 0 < U64 /\ can_pay w1 payer (rent E n + missing E w1 wal 0)
  /\ (exists w', succeeds E cx w0 w')
  /\ forall w2, unsigned_history E k w1 w2 -> vacant w2 k /\ forall w3, ~ succeeds E cx w2 w3.
Proof. exact nudge_blocks. Qed.
Print Assumptions C74_prefunded_refuted.

Example C74_case : let cx := post 5 x_new in let s := founded WID 255 254 1 (K 10) [p_all; p_sol 500] in
  wf_ctx cx /\ founding_accounts cx dawn /\ vacant dawn (acct cx 0) /\ vacant dawn (acct cx 2)
  /\ a_lamports (dawn (acct cx 0)) = 0
  /\ pda solid (seeds_swig WID 255) = Some (acct cx 0) /\ pda solid (seeds_wallet (acct cx 0) 254) = Some (acct cx 2)
  /\ order_of (c_data cx) = Some (Found WID 255 254 1 (K 10) (enc_actions 0 [p_all; p_sol 500]))
  /\ sent cx x_new /\ native dawn /\ credential_ok 1 (K 10) /\ wf_actions [p_all; p_sol 500] /\ Forall unspent [p_all; p_sol 500]
  /\ Z.of_nat (length (enc_config s)) <= 10240 /\ 0 <= rent solid (length (enc_config s)) < U64
  /\ can_pay dawn (acct cx 1) (rent solid (length (enc_config s)) + missing solid dawn (acct cx 2) 0)
  /\ missing solid dawn (acct cx 2) 0 = 890880.
Proof.
  cbv zeta. split; [demo|]. split; [apply foundingb_ok; calc|]. split; [split; calc|]. split; [split; calc|]. split; [calc|].
  split; [calc|]. split; [calc|]. split; [calc|]. split; [apply exact_sent, post_sent|]. split; [apply nativeb_ok; calc|].
  split; [left; split; reflexivity|]. split; [apply wf_actionsb_ok; calc|]. split; [apply unspentb_ok; calc|].
  split; [apply Z.leb_le; calc|]. split; [split; [apply Z.leb_le; calc|apply Z.ltb_lt; calc]|].
  split; [split; [calc|split; [calc|apply Z.leb_le; calc]]|calc].
Qed.
Example C74_squatted_case : foreign_ok (moat SWIG) /\ guarded (moat SWIG) SWIG /\ no_asset (moat SWIG) SWIG
  /\ vacant nudged SWIG /\ 0 < a_lamports (nudged SWIG) /\ acct (post 5 x_new) 0 = SWIG /\ auth_layout (c_data (post 5 x_new)) = None
  /\ exists w', succeeds (moat SWIG) (post 5 x_new) dawn w'.
Proof.
  split; [apply moat_foreign_ok|]. split; [apply moat_guarded|]. split; [apply moat_no_asset|]. split; [split; calc|].
  split; [apply Z.ltb_lt; calc|]. split; [calc|]. split; [calc|]. eexists. run_it.
Qed.

(** ** C75: accounts that do not sign lose nothing *)
Theorem C75_bystanders : forall E k, guarded E k -> no_asset E k -> forall w w', foreign_ok E -> good_world E w ->
  unsigned_history E k w w' -> stays w w' k.
Proof. exact bystander. Qed.
Print Assumptions C75_bystanders.

Example C75_case : let E := moat (K 40) in
  guarded E (K 40) /\ no_asset E (K 40) /\ foreign_ok E /\ good_world E dawn /\ vacant dawn (K 40) /\ 0 < a_lamports (dawn (K 40))
  /\ unsigned_history E (K 40) dawn (run E dawn bustle) /\ a_lamports (run E dawn bustle (K 40)) = a_lamports (dawn (K 40)) + 7.
Proof.
  cbv zeta. split; [apply moat_guarded|]. split; [apply moat_no_asset|]. split; [apply moat_foreign_ok|].
  split; [apply fresh_good; exact dawn_fresh|]. split; [split; calc|]. split; [apply Z.ltb_lt; calc|]. split; [|calc].
  apply fresh_unsigned; [apply moat_foreign_ok|exact dawn_fresh|cbn; lia|calc|calc].
Qed.
