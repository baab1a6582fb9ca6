(** * Who may act: signatures, sessions, program execution.

    Vocabulary: [acts E cx s r], [by_counter] (SpecActs) and [signed_by],
    [k1_signed], [r1_signed], [program_ran], [in_time], [request] (SpecAuth);
    [auth_layout], [actor_of], [signed_of] and [payload_of] (SpecWorld) say which
    instructions need a role and where they name it, the bytes that are signed
    and the proof; [path] (SpecHistory) is a sequence of steps of one wallet. *)
From Verif Require Import SpecActs AuthProps2 DemoWallet.

(** ** C15: Ed25519 *)
Theorem C15_ed25519 : forall E cx w w' s, hashes_ok E -> wf_ctx cx -> is_cfg (w (acct cx 0)) s -> room 1 s -> succeeds E cx w w' ->
  let data := c_data cx in auth_layout data <> None ->
  exists r, find_role (actor_of data) s = Some r
    /\ (r_aty r = 1 -> signed_by cx (r_auth r))
    /\ (r_aty r = 2 -> tag data = 5 -> signed_by cx (firstn 32 (r_auth r)))
    /\ (is_session (r_aty r) = true -> tag data <> 5 ->
          signed_by cx (session_key (r_aty r) (r_auth r)) /\ c_slot cx <= session_end (r_aty r) (r_auth r)).
Proof.
  exact (fun E cx w w' s He Wc C Rm H La => match process_acts E cx w w' s He Wc C Rm H La with
    ex_intro _ r A => ex_intro _ r (conj (proj1 A) (conj (acts_plain E cx s r (proj2 (proj2 C)) A)
      (conj (acts_root E cx s r A) (fun S N => acts_session E cx s r A N S)))) end).
Qed.
Print Assumptions C15_ed25519.

(** role 1 pays with its key 11; without that signature the payment is refused *)
Definition ed_pays (m : meta) : ctx := call 30 (ms_pay [m]) (d_sign 1 (inner_pay 5) ++ ed 4).
Example C15_case : let cx := ed_pays (sg (K 11)) in
  hashes_ok toy /\ wf_ctx cx /\ is_cfg (home (acct cx 0)) s_home /\ room 1 s_home
  /\ succeeds toy cx home (result home (process toy cx home)) /\ find_role (actor_of (c_data cx)) s_home = Some r1
  /\ okb (process toy (ed_pays (ro (K 11))) home) = false /\ okb (process toy (ed_pays (sg (K 12))) home) = false.
Proof. cbv zeta. demo; calc. Qed.

(** ** C16: sessions end on time.  A session opened by [cx1] and used by [cx2],
    unless the role opened another session or its credential was replaced in
    between. *)
Theorem C16_sessions_end : forall E cx1 cx2 w w1 w2 w3 s s2 r1 r2,
  foreign_ok E -> hashes_ok E -> good_world E w ->
  admissible E w (Call cx1) -> is_cfg (w (acct cx1 0)) s -> succeeds E cx1 w w1 -> tag (c_data cx1) = 5 ->
  find_role (actor_of (c_data cx1)) s = Some r1 -> 0 <= c_slot cx1 ->
  reach E w1 w2 ->
  admissible E w2 (Call cx2) -> is_cfg (w2 (acct cx2 0)) s2 -> succeeds E cx2 w2 w3 -> auth_layout (c_data cx2) <> None -> tag (c_data cx2) <> 5 ->
  acct cx2 0 = acct cx1 0 -> actor_of (c_data cx2) = actor_of (c_data cx1) -> find_role (actor_of (c_data cx2)) s2 = Some r2 ->
  let i := actor_of (c_data cx1) in let duration := u64_at 8 (c_data cx1) in let key := sub 16 32 (c_data cx1) in
  (* it was opened by the role's root credential, for at most the configured maximum *)
  acts E cx1 s r1 /\ is_session (r_aty r1) = true /\ duration <= session_max (r_aty r1) (r_auth r1)
  /\ exists s' ts, is_cfg (w1 (acct cx1 0)) s' /\ path E (acct cx1 0) ts s' s2
       /\ (Exists (opens i) ts \/ Exists (rotates i) ts
           \/ (signed_by cx2 key /\ c_slot cx2 <= c_slot cx1 + duration)).
Proof. exact session_on_time. Qed.
Print Assumptions C16_sessions_end.

(** role 3 opens a session of 50 slots for key 50 in slot 10 *)
Definition c_open : ctx := call 10 [rw SWIG; ro SYSTEM; sg (K 12)] (d_session 3 50 (K 50) ++ ed 2).
Definition c_use (slot : Z) : ctx := call slot (ms_pay [sg (K 50)]) (d_sign 3 (inner_pay 5) ++ ed 4).
Definition opened : world := run toy home [Call c_open].
Example C16_case : let cx1 := c_open in let cx2 := c_use 60 in
  foreign_ok toy /\ hashes_ok toy /\ good_world toy home
  /\ admissible toy home (Call cx1) /\ is_cfg (home (acct cx1 0)) s_home /\ succeeds toy cx1 home opened /\ tag (c_data cx1) = 5
  /\ find_role (actor_of (c_data cx1)) s_home = Some r3 /\ c_slot cx1 = 10
  /\ reach toy opened opened
  /\ admissible toy opened (Call cx2) /\ succeeds toy cx2 opened (result opened (process toy cx2 opened))
  /\ tag (c_data cx2) = 11 /\ acct cx2 0 = acct cx1 0 /\ actor_of (c_data cx2) = actor_of (c_data cx1)
  (* too late, too long, too early *)
  /\ okb (process toy (c_use 61) opened) = false
  /\ okb (process toy (call 10 [rw SWIG; ro SYSTEM; sg (K 12)] (d_session 3 101 (K 50) ++ ed 2)) home) = false
  /\ okb (process toy (c_use 60) home) = false.
Proof. cbv zeta. unfold opened. later; calc. Qed.

(** A new session role has no usable session after slot 0 *)
Theorem C16_new_role_has_no_session : forall E cx1 cx2 w w1 w2 w3 s s2 r2,
  foreign_ok E -> hashes_ok E -> good_world E w ->
  admissible E w (Call cx1) -> is_cfg (w (acct cx1 0)) s -> succeeds E cx1 w w1 -> tag (c_data cx1) = 1 ->
  reach E w1 w2 ->
  admissible E w2 (Call cx2) -> is_cfg (w2 (acct cx2 0)) s2 -> succeeds E cx2 w2 w3 -> auth_layout (c_data cx2) <> None -> tag (c_data cx2) <> 5 ->
  acct cx2 0 = acct cx1 0 -> actor_of (c_data cx2) = s_counter s -> find_role (actor_of (c_data cx2)) s2 = Some r2 ->
  is_session (u16_at 6 (c_data cx1)) = true -> 0 < c_slot cx2 ->
  exists s' ts, is_cfg (w1 (acct cx1 0)) s' /\ path E (acct cx1 0) ts s' s2
    /\ (Exists (opens (s_counter s)) ts \/ Exists (rotates (s_counter s)) ts).
Proof. exact new_session_unusable. Qed.
Print Assumptions C16_new_role_has_no_session.

(** a role with session key 50 and maximal duration 2^64 - 1 is added as role 6; it can pay in
    slot 30 only after it opened a session *)
Definition c_plus_session : ctx := c_plus 2 (K 12 ++ K 50 ++ le_enc 8 (2 ^ 64 - 1)) [p_all].
Definition c_open6 : ctx := call 10 [rw SWIG; ro SYSTEM; sg (K 12)] (d_session 6 50 (K 50) ++ ed 2).
Definition c_use6 : ctx := call 30 (ms_pay [sg (K 50)]) (d_sign 6 (inner_pay 5) ++ ed 4).
Example C16_new_case : let cx1 := c_plus_session in let cx2 := c_use6 in
  let w1 := run toy home [Call cx1] in let w2 := run toy home [Call cx1; Call c_open6] in
  foreign_ok toy /\ hashes_ok toy /\ good_world toy home
  /\ admissible toy home (Call cx1) /\ is_cfg (home (acct cx1 0)) s_home /\ succeeds toy cx1 home w1 /\ tag (c_data cx1) = 1
  /\ reach toy w1 w2 /\ admissible toy w2 (Call cx2) /\ succeeds toy cx2 w2 (result w2 (process toy cx2 w2))
  /\ acct cx2 0 = acct cx1 0 /\ actor_of (c_data cx2) = s_counter s_home /\ is_session (u16_at 6 (c_data cx1)) = true
  /\ okb (process toy cx2 w1) = false.
Proof.
  cbv zeta. later; first [apply (later_reach [Call c_plus_session] (Call c_open6)); calc|calc].
Qed.

(** ** C17: each secp signature is accepted once *)
Theorem C17_next_counter : forall E cx w w' s r, foreign_ok E -> hashes_ok E -> good_world E w -> admissible E w (Call cx) ->
  is_cfg (w (acct cx 0)) s -> succeeds E cx w w' -> auth_layout (c_data cx) <> None ->
  find_role (actor_of (c_data cx)) s = Some r -> by_counter cx r ->
  let i := actor_of (c_data cx) in let payload := payload_of (c_data cx) in
  (* the signature carries the next counter and is at most 60 slots old *)
  u32_at 8 payload = (cred_counter (r_auth r) + 1) mod 2 ^ 32
  /\ in_time (c_slot cx) (u64_at 0 payload)
  (* afterwards the counter has moved by one, and by at most the role's further steps in the same call *)
  /\ (is_closed (w' (acct cx 0)) \/ exists s' ts, is_cfg (w' (acct cx 0)) s' /\ path E (acct cx 0) ts s s'
       /\ (Exists (rotates i) ts \/ forall r', find_role i s' = Some r' ->
             cred_key (r_auth r') = cred_key (r_auth r)
             /\ exists m, (m <= steps_by i ts)%nat /\ cred_counter (r_auth r') = (cred_counter (r_auth r) + 1 + Z.of_nat m) mod 2 ^ 32)).
Proof. exact signature_counts. Qed.
Print Assumptions C17_next_counter.

Theorem C17_signature_once : forall E cx1 cx2 w w1 w2 w3 s s2 r1 r2,
  foreign_ok E -> hashes_ok E -> good_world E w ->
  admissible E w (Call cx1) -> is_cfg (w (acct cx1 0)) s -> succeeds E cx1 w w1 ->
  reach E w1 w2 ->
  admissible E w2 (Call cx2) -> is_cfg (w2 (acct cx2 0)) s2 -> succeeds E cx2 w2 w3 ->
  acct cx2 0 = acct cx1 0 -> actor_of (c_data cx2) = actor_of (c_data cx1) ->
  auth_layout (c_data cx1) <> None -> find_role (actor_of (c_data cx1)) s = Some r1 ->
  auth_layout (c_data cx2) <> None -> find_role (actor_of (c_data cx2)) s2 = Some r2 ->
  by_counter cx1 r1 -> by_counter cx2 r2 ->
  let i := actor_of (c_data cx1) in
  exists ts, path E (acct cx1 0) ts s s2
    /\ (Exists (rotates i) ts \/ 2 ^ 32 <= Z.of_nat (steps_by i ts) + 1
        \/ u32_at 8 (payload_of (c_data cx1)) <> u32_at 8 (payload_of (c_data cx2))).
Proof. exact counters_differ. Qed.
Print Assumptions C17_signature_once.

(** role 2 pays twice; the first signature is not accepted again, nor one that is too old *)
Definition paid_once : world := run toy home [Call (k1_pays 2 20 1 5)].
Example C17_case : let cx1 := k1_pays 2 20 1 5 in let cx2 := k1_pays 2 20 2 5 in
  foreign_ok toy /\ hashes_ok toy /\ good_world toy home
  /\ admissible toy home (Call cx1) /\ is_cfg (home (acct cx1 0)) s_home /\ succeeds toy cx1 home paid_once
  /\ reach toy paid_once paid_once
  /\ admissible toy paid_once (Call cx2) /\ succeeds toy cx2 paid_once (result paid_once (process toy cx2 paid_once))
  /\ acct cx2 0 = acct cx1 0 /\ actor_of (c_data cx2) = actor_of (c_data cx1)
  /\ tag (c_data cx1) = 11 /\ find_role (actor_of (c_data cx1)) s_home = Some r2 /\ by_counter cx1 r2
  /\ okb (process toy cx1 paid_once) = false
  /\ okb (process toy (mk_ctx 80 1 [] 0 (c_metas cx1) (c_data cx1)) home) = true
  /\ okb (process toy (mk_ctx 81 1 [] 0 (c_metas cx1) (c_data cx1)) home) = false
  /\ okb (process toy (mk_ctx 19 1 [] 0 (c_metas cx1) (c_data cx1)) home) = false.
Proof. cbv zeta. unfold paid_once. later; calc. Qed.

(** ** C18: replay protection does not survive rotation.  The same call, with the
    same signature, succeeds twice. *)
Theorem C18_replay_refuted : exists E cx w0 w w1 w2 s r, foreign_ok E /\ hashes_ok E /\ fresh w0 /\ reach E w0 w
  /\ is_cfg (w (acct cx 0)) s /\ find_role (actor_of (c_data cx)) s = Some r /\ by_counter cx r
  /\ succeeds E cx w w1 /\ reach E w1 w2 /\ okb (process E cx w2) = true.
Proof.
  exists toy, (k1_pays 2 20 1 5), genesis, home, (run toy home [Call (k1_pays 2 20 1 5)]),
    (run toy home [Call (k1_pays 2 20 1 5); Call (c_rotate 2 ([2] ++ K 60)); Call (c_rotate 2 ([2] ++ k1_x))]), s_home, r2.
  later; first [exact replay_reach|calc].
Qed.
Print Assumptions C18_replay_refuted.

(** ** C19: what a secp signature commits to.  The hashed text determines signed
    data, accounts with flags, slot and counter, among requests with equally
    many accounts; a secp256k1 signature also fixes the text prefix. *)
Theorem C19_k1_commits : forall E d ms t c p d' ms' t' c' p', hashes_ok E ->
  Forall (fun m => length (m_key m) = 32%nat) ms -> Forall (fun m => length (m_key m) = 32%nat) ms' -> length ms = length ms' ->
  0 <= t < 2 ^ 64 -> 0 <= t' < 2 ^ 64 -> 0 <= c < 2 ^ 32 -> 0 <= c' < 2 ^ 32 ->
  keccak E (p ++ hex (sha256 E (request d ms t c))) = keccak E (p' ++ hex (sha256 E (request d' ms' t' c'))) ->
  (d = d' /\ ms = ms' /\ t = t' /\ c = c' /\ p = p') \/ collides (keccak E) \/ collides (sha256 E).
Proof. exact k1_commits. Qed.
Print Assumptions C19_k1_commits.

Theorem C19_r1_commits : forall E d ms t c d' ms' t' c',
  Forall (fun m => length (m_key m) = 32%nat) ms -> Forall (fun m => length (m_key m) = 32%nat) ms' -> length ms = length ms' ->
  0 <= t < 2 ^ 64 -> 0 <= t' < 2 ^ 64 -> 0 <= c < 2 ^ 32 -> 0 <= c' < 2 ^ 32 ->
  keccak E (request d ms t c) = keccak E (request d' ms' t' c') ->
  (d = d' /\ ms = ms' /\ t = t' /\ c = c') \/ collides (keccak E).
Proof. exact r1_commits. Qed.
Print Assumptions C19_r1_commits.

Example C19_case : let ms := ms_pay [] in let ms' := [rw SWIG; rw WALLET; ro SYSTEM; ro (K 40)] in
  Forall (fun m => length (m_key m) = 32%nat) ms /\ Forall (fun m => length (m_key m) = 32%nat) ms' /\ length ms = length ms'
  /\ beq (request (inner_pay 5) ms 20 1) (request (inner_pay 5) ms' 20 1) = false.
Proof. cbv zeta. split; [|split]; [repeat constructor..|]. split; calc. Qed.

(** with different numbers of accounts the text is ambiguous *)
Theorem C19_account_count_refuted : exists d ms d' ms' t c,
  Forall (fun m => length (m_key m) = 32%nat) ms /\ Forall (fun m => length (m_key m) = 32%nat) ms' /\ d <> d'
  /\ request d ms t c = request d' ms' t c.
Proof.
  exists (inner_pay 5 ++ account_line (rw SWIG)), [rw WALLET], (inner_pay 5), [rw SWIG; rw WALLET], 20, 1.
  split; [repeat constructor|]. split; [repeat constructor|]. split; [discriminate|apply request_shift].
Qed.
Print Assumptions C19_account_count_refuted.

(** ** C20: a SignV2 signature for one role works for another.  Two calls that
    differ only in the role number both succeed, on the same signature. *)
Theorem C20_cross_role_refuted : exists E w0 w cx cx' i j, foreign_ok E /\ hashes_ok E /\ fresh w0 /\ reach E w0 w
  /\ okb (process E cx w) = true /\ okb (process E cx' w) = true
  /\ c_data cx' = splice 4 (le_enc 4 j) (c_data cx) /\ actor_of (c_data cx) = i /\ actor_of (c_data cx') = j /\ i <> j
  /\ (c_metas cx', c_slot cx', c_ixs cx', c_cur cx') = (c_metas cx, c_slot cx, c_ixs cx, c_cur cx).
Proof.
  exists toy, genesis, (run toy home [Call (c_plus 3 ([2] ++ k1_x) [p_all])]),
    (k1_pays 2 20 1 5), (k1_pays 6 20 1 5), 2, 6.
  later; try calc. discriminate.
Qed.
Print Assumptions C20_cross_role_refuted.

(** ** C21: secp256r1 and the precompile *)
Theorem C21_precompile : forall E cx w w' s r, hashes_ok E -> admissible E w (Call cx) ->
  is_cfg (w (acct cx 0)) s -> succeeds E cx w w' -> auth_layout (c_data cx) <> None ->
  find_role (actor_of (c_data cx)) s = Some r -> by_counter cx r -> r_aty r = 5 \/ r_aty r = 6 ->
  exists t x msg, in_time (c_slot cx) t
    (* the instruction right before this one verifies one signature, by the stored key, over [msg] *)
    /\ previous cx x /\ ix_prog x = SECP256R1_ID /\ verifies_one (ix_data x) (cred_key (r_auth r)) msg
    (* which is the digest of the request, or WebAuthn data with the digest as challenge *)
    /\ r1_signs E (keccak E (request (signed_of (c_data cx)) (c_metas cx) t (next_counter (r_auth r)))) msg.
Proof. exact precompile. Qed.
Print Assumptions C21_precompile.

(** role 4 sets a rent claimer *)
Definition r1_check (pk msg : bytes) : ix :=
  mk_ix SECP256R1_ID [] ([1; 0] ++ le_enc 2 49 ++ le_enc 2 65535 ++ le_enc 2 16 ++ le_enc 2 65535 ++ le_enc 2 113
    ++ le_enc 2 (len msg) ++ le_enc 2 65535 ++ pk ++ zeros 64 ++ msg).
Definition ms_r1 : list meta := [rw SWIG; payer; ro SYSTEM; ro INSTRUCTIONS_ID].
Definition d_r1 : bytes := d_claimer 4 (K 70).
Definition h_r1 : bytes := keccak toy (request d_r1 ms_r1 20 1).
Definition r1_head : bytes := le_enc 8 20 ++ le_enc 4 1 ++ [3] ++ zeros 4.
Definition r1_call (pre : ix) (extra : bytes) : ctx := mk_ctx 30 1 [pre; mk_ix SELF ms_r1 []] 1 ms_r1 (d_r1 ++ r1_head ++ extra).
Example C21_case : let cx := r1_call (r1_check r1_key h_r1) [] in
  hashes_ok toy /\ admissible toy home (Call cx) /\ is_cfg (home (acct cx 0)) s_home
  /\ succeeds toy cx home (result home (process toy cx home)) /\ tag (c_data cx) = 17
  /\ find_role (actor_of (c_data cx)) s_home = Some r4 /\ by_counter cx r4 /\ r_aty r4 = 5
  /\ okb (process toy (r1_call (r1_check ([2] ++ K 21) h_r1) []) home) = false
  /\ okb (process toy (r1_call (r1_check r1_key (zeros 32)) []) home) = false.
Proof. cbv zeta. later; calc. Qed.

(** ** C22: WebAuthn.  If a passkey signs client data in the usual form whose
    challenge is the digest [d], no other digest is accepted with it. *)
Theorem C22_challenge_bound : forall E d d' authdata json tl,
  length d = 32%nat -> all_bytes d -> length d' = 32%nat -> all_bytes d' -> hashes_ok E ->
  authdata <> [] -> json = usual_start ++ b64url d ++ [34] ++ tl -> r1_signs E d' (authdata ++ sha256 E json) ->
  d' = d \/ collides (sha256 E).
Proof. exact webauthn_bound. Qed.
Print Assumptions C22_challenge_bound.

(** Client data that the program rebuilds itself, with any permitted field order
    and any origins, carries one challenge only *)
Theorem C22_rebuilt : forall E order o o' h h' json, length h = length h' -> all_bytes h -> all_bytes h' -> field_order_ok order = true ->
  client_json E order o h = Ok json -> client_json E order o' h' = Ok json -> h = h'.
Proof. exact client_json_inj. Qed.
Print Assumptions C22_rebuilt.

(** a raw-JSON payload is accepted, with the digest as challenge; with another challenge it is not *)
Definition ad37 : bytes := zeros 37.
Definition json_of (h : bytes) : bytes := usual_start ++ b64url h ++ [34; 125].
Definition web_extra (h : bytes) : bytes := le_enc 2 2 ++ le_enc 2 37 ++ ad37 ++ le_enc 2 (len (json_of h)) ++ json_of h.
Definition web_call (h : bytes) : ctx := r1_call (r1_check r1_key (ad37 ++ sha256 toy (json_of h))) (web_extra h).
Example C22_case : okb (process toy (web_call h_r1) home) = true /\ okb (process toy (web_call (zeros 32)) home) = false
  /\ length h_r1 = 32%nat /\ all_bytes h_r1 /\ field_order_ok [1; 2; 3; 4] = true /\ field_order_ok [3; 2; 1; 3] = true
  /\ okb (client_json toy [1; 2; 3; 4] (K 5) h_r1) = true.
Proof. demo; calc. Qed.

(** ** C23: program execution *)
Theorem C23_program_ran : forall E cx w w' s r, hashes_ok E -> admissible E w (Call cx) ->
  is_cfg (w (acct cx 0)) s -> succeeds E cx w w' -> auth_layout (c_data cx) <> None ->
  find_role (actor_of (c_data cx)) s = Some r -> r_aty r = 7 \/ (r_aty r = 8 /\ tag (c_data cx) = 5) ->
  exists i x, (i < c_cur cx)%nat /\ nth_error (c_ixs cx) i = Some x
    /\ ix_prog x = firstn 32 (r_auth r)
    /\ starts_with (sub 40 (Z.to_nat (nth 32 (r_auth r) 0)) (r_auth r)) (ix_data x)
    /\ (Forall (fun m => length (m_key m) = 32%nat) (ix_metas x) -> forall m0 rest, ix_metas x = m0 :: rest ->
          m_key m0 = acct cx 0 /\ forall m1 rest', rest = m1 :: rest' -> m_key m1 = acct cx 1).
Proof. exact ran_before. Qed.
Print Assumptions C23_program_ran.

(** role 5 pays after a call of program 30 with prefix 7 7 7 *)
Definition pe_ix (ms : list meta) (data : bytes) : ix := mk_ix (K 30) ms data.
Definition pe_metas (m : meta) : list meta := [rw SWIG; m; ro SYSTEM; rw (K 40); ro INSTRUCTIONS_ID].
Definition pe_pays (m : meta) (inner : bytes) (pre : ix) : ctx :=
  mk_ctx 30 1 [pre; mk_ix SELF (pe_metas m) []] 1 (pe_metas m) (d_sign 5 inner ++ [4]).
Example C23_case : let cx := pe_pays (rw WALLET) (inner_pay 5) (pe_ix [ro SWIG; ro WALLET] [7; 7; 7; 8]) in
  hashes_ok toy /\ admissible toy home (Call cx) /\ is_cfg (home (acct cx 0)) s_home
  /\ succeeds toy cx home (result home (process toy cx home)) /\ tag (c_data cx) = 11
  /\ find_role (actor_of (c_data cx)) s_home = Some r5 /\ r_aty r5 = 7
  /\ okb (process toy (pe_pays (rw WALLET) (inner_pay 5) (pe_ix [ro SWIG; ro (K 40)] [7; 7; 7; 8])) home) = false
  /\ okb (process toy (pe_pays (rw WALLET) (inner_pay 5) (pe_ix [ro SWIG; ro WALLET] [7; 7; 8; 8])) home) = false.
Proof. cbv zeta. at_home; calc. Qed.

(** the two accounts are not required to exist: an earlier instruction with one account passes,
    the second address being read from the bytes that follow (program id and data length) *)
Definition ghost : key := skipn 1 (K 30) ++ [3].
Definition e_fund : event := Other (mk_ix SYSTEM [payer; rw ghost] (sys_pay 10000000)).
Theorem C23_one_account_refuted : exists E cx w0 w s r x, foreign_ok E /\ hashes_ok E /\ fresh w0 /\ reach E w0 w
  /\ admissible E w (Call cx) /\ is_cfg (w (acct cx 0)) s /\ okb (process E cx w) = true
  /\ find_role (actor_of (c_data cx)) s = Some r /\ r_aty r = 7
  /\ c_ixs cx = [x; mk_ix SELF (c_metas cx) []] /\ c_cur cx = 1%nat /\ length (ix_metas x) = 1%nat.
Proof.
  exists toy, (pe_pays (rw ghost) (into_bytes []) (pe_ix [ro SWIG] [7; 7; 7])), genesis, (run toy home [e_fund]), s_home, r5,
    (pe_ix [ro SWIG] [7; 7; 7]).
  later; calc.
Qed.
Print Assumptions C23_one_account_refuted.

(** ** C24: prefixes that never authenticate.  A prefix of two or more bytes whose
    first two make the number 0 or 1 makes the role useless. *)
Theorem C24_dead_prefix : forall E cx w w' s r p q rest, hashes_ok E -> admissible E w (Call cx) ->
  is_cfg (w (acct cx 0)) s -> succeeds E cx w w' -> auth_layout (c_data cx) <> None ->
  find_role (actor_of (c_data cx)) s = Some r -> r_aty r = 7 ->
  sub 40 (Z.to_nat (nth 32 (r_auth r) 0)) (r_auth r) = p :: q :: rest -> 2 <= p + 256 * q.
Proof.
  exact (fun E cx w w' s r p q rest He Ad C H La Fr T => dead_prefix cx (r_auth r) p q rest
    (acts_exec E cx s r (call_acts E cx w w' s r He Ad C H La Fr) (or_introl T))).
Qed.
Print Assumptions C24_dead_prefix.

(** Such roles can be created, and a call that meets every documented condition is refused *)
Definition c_dead : ctx := c_plus 7 (K 30 ++ [3] ++ zeros 7 ++ [1; 0; 7] ++ zeros 37) l5.
Definition dead_pays (x : bytes) : ctx :=
  let c := pe_pays (rw WALLET) (inner_pay 5) (pe_ix [ro SWIG; ro WALLET] x) in
  mk_ctx 30 1 (c_ixs c) 1 (c_metas c) (d_sign 6 (inner_pay 5) ++ [4]).
Theorem C24_dead_prefix_refuted : exists E cx w0 w s r, foreign_ok E /\ hashes_ok E /\ fresh w0 /\ reach E w0 w
  /\ admissible E w (Call cx) /\ is_cfg (w (acct cx 0)) s
  /\ find_role (actor_of (c_data cx)) s = Some r /\ r_aty r = 7
  /\ (exists x m0 m1, c_ixs cx = [x; mk_ix SELF (c_metas cx) []] /\ c_cur cx = 1%nat /\ ix_prog x = firstn 32 (r_auth r)
       /\ starts_with (sub 40 (Z.to_nat (nth 32 (r_auth r) 0)) (r_auth r)) (ix_data x)
       /\ ix_metas x = [m0; m1] /\ m_key m0 = acct cx 0 /\ m_key m1 = acct cx 1)
  /\ okb (process E cx w) = false
  (* with prefix 7 7 7 in place of 1 0 7, for role 5, the same call succeeds *)
  /\ (let x := pe_pays (rw WALLET) (inner_pay 5) (pe_ix [ro SWIG; ro WALLET] [7; 7; 7; 8]) in okb (process E x w) = true).
Proof.
  exists toy, (dead_pays [1; 0; 7; 8]), genesis, (run toy home [Call c_dead]),
    (mk_config 255 WID 7 254 (zeros 3) 0 [r0; r1; r2; r3; r4; r5; mk_role 6 7 (zeros 2) (K 30 ++ [3] ++ zeros 7 ++ [1; 0; 7] ++ zeros 37) l5] None),
    (mk_role 6 7 (zeros 2) (K 30 ++ [3] ++ zeros 7 ++ [1; 0; 7] ++ zeros 37) l5).
  later; try calc.
  - exists (pe_ix [ro SWIG; ro WALLET] [1; 0; 7; 8]), (ro SWIG), (ro WALLET). repeat (split; [calc|]).
    split; [exists [8]; calc|]. repeat (split; [calc|]). calc.
Qed.
Print Assumptions C24_dead_prefix_refuted.
