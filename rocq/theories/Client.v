(** * The client library that builds instructions.

    Models interface/src/lib.rs and interface/src/replace_authority.rs: the
    public builders, one definition each.  The variants that differ only in
    defaults are merged: [SignV2Instruction::new_*] is [new_*_with_signers] with
    no further signers, and [new_with_program_exec] / [..._ix_index] are one
    definition with an optional index.  Integers that Rust types bound (u8, u16,
    u32, u64) are [Z], written with their width; [as u16] and [as u8] cut by
    writing that many bytes.  Serialisation errors cannot occur (all structs have
    a fixed size).  The signing callback is a function from the digest to the
    signature; it is called once. *)
From Coq Require Import String.
From Verif Require Export Compact SpecConfig Authority.

(** solana_sdk [AccountMeta::new], [AccountMeta::new_readonly], both with and without signature *)
Definition w_ (k : key) : meta := mk_meta k false true.
Definition ws (k : key) : meta := mk_meta k true true.
Definition ro_ (k : key) : meta := mk_meta k false false.
Definition ros (k : key) : meta := mk_meta k true false.
Notation IXS := (ro_ INSTRUCTIONS_ID).
Notation SYS := (ro_ SYSTEM).

(** interface/src/lib.rs:99-202 [ClientAction::write]: header with kind, length
    and the end counted from the start of the buffer, then the fields.  An
    [action] holds the fields serialised; its length is that of the kind. *)
Definition write_action (data : bytes) (a : action) : bytes :=
  data ++ le_enc 2 (ac_ty a) ++ le_enc 2 (Z.of_nat (length (ac_data a)))
  ++ le_enc 4 (Z.of_nat (length data + 8 + length (ac_data a))) ++ ac_data a.
Definition write_actions (l : list action) : bytes := fold_left write_action l [].

(** interface/src/lib.rs:229-237 [build_program_exec_authority_payload] *)
Definition exec_payload (i : Z) (target : option Z) : bytes :=
  match target with Some t => [i; t] | None => [i] end.

(** interface/src/lib.rs:244-264 [prepare_secp256k1_payload] *)
Definition prepare_k1 (E : env) (slot counter : Z) (data accounts prefix : bytes) : bytes :=
  keccak E (prefix ++ hex_encode (sha256 E (data ++ accounts ++ le_enc 8 slot ++ le_enc 4 counter))).

(** interface/src/lib.rs:266-268, 4528-4538 [accounts_payload_from_meta], [secp_account_payload]:
    [accounts_payload] of Authority.v *)

(** ** The shapes that all builders share *)
Definition build (ms : list meta) (data : bytes) : ix := mk_ix SELF ms data.
(** Ed25519: one byte, the place of the signer *)
Definition by_ed (ms : list meta) (head : bytes) (i : Z) : ix := build ms (head ++ [i]).
(** interface/src/lib.rs:4507-4526 [secp256k1_v2_authority_payload] and the same
    lines in the V1 builders: slot, counter, signature.  [signed] is what the
    program authenticates, [head] what precedes the payload. *)
Definition by_k1 (E : env) (sign : bytes -> bytes) (slot counter : Z) (ms : list meta) (signed head : bytes) : ix :=
  build ms (head ++ le_enc 8 slot ++ le_enc 4 counter
            ++ sign (prepare_k1 E slot counter signed (accounts_payload ms) [])).
(** The older form (e.g. interface/src/lib.rs:1908-1957): no counter in the
    payload, 0 in the digest *)
Definition by_k1_old (E : env) (sign : bytes -> bytes) (slot : Z) (ms : list meta) (signed head : bytes) : ix :=
  build ms (head ++ le_enc 8 slot ++ sign (prepare_k1 E slot 0 signed (accounts_payload ms) [])).
(** solana_secp256r1_program [new_secp256r1_instruction_with_signature]: one
    signature, offsets into the instruction's own data, key, signature, message *)
Definition verify_ix (msg sig pk : bytes) : ix :=
  mk_ix SECP256R1_ID []
    ([1; 0] ++ le_enc 2 49 ++ le_enc 2 65535 ++ le_enc 2 16 ++ le_enc 2 65535
     ++ le_enc 2 113 ++ le_enc 2 (Z.of_nat (length msg)) ++ le_enc 2 65535 ++ pk ++ sig ++ msg).
(** interface/src/lib.rs:4548-4597 [secp256r1_v2_instructions] and the same lines
    in the V1 builders: a verification and the instruction, whose payload is
    slot, counter, place of the instructions sysvar, four zeros *)
Definition r1_hash (E : env) (slot counter : Z) (ms : list meta) (signed : bytes) : bytes :=
  keccak E (signed ++ accounts_payload ms ++ le_enc 8 slot ++ le_enc 4 counter).
Definition by_r1 (E : env) (sign : bytes -> bytes) (pk : bytes) (slot counter : Z) (ms : list meta)
  (signed head : bytes) (i : Z) : list ix :=
  let h := r1_hash E slot counter ms signed in
  [verify_ix h (sign h) pk; build ms (head ++ le_enc 8 slot ++ le_enc 4 counter ++ [i] ++ zeros 4)].
(** The older form (e.g. interface/src/lib.rs:1959-2034): without the zeros *)
Definition by_r1_old (E : env) (sign : bytes -> bytes) (pk : bytes) (slot counter : Z) (ms : list meta)
  (signed head : bytes) (i : Z) : list ix :=
  let h := r1_hash E slot counter ms signed in
  [verify_ix h (sign h) pk; build ms (head ++ le_enc 8 slot ++ le_enc 4 counter ++ [i])].
(** Program execution: the instruction to be checked comes first *)
Definition by_exec (pre : ix) (ms : list meta) (head : bytes) (i : Z) (target : option Z) : list ix :=
  [pre; build ms (head ++ exec_payload i target)].

(** ** CreateInstruction: interface/src/lib.rs:272-313; program/src/actions/create_v1.rs [CreateV1Args] *)
Definition create_head (id : bytes) (bump ty len wbump : Z) : bytes :=
  le_enc 2 0 ++ le_enc 2 ty ++ le_enc 2 len ++ le_enc 1 bump ++ le_enc 1 wbump ++ id.
Definition create (swig : key) (bump : Z) (payer wallet : key) (wbump ty : Z) (c : bytes) (l : list action) (id : bytes) : ix :=
  build [w_ swig; ws payer; w_ wallet; w_ SYSTEM]
    (create_head id bump ty (Z.of_nat (length c)) wbump ++ c ++ write_actions l).

(** ** AddAuthorityInstruction; program/src/actions/add_authority_v1.rs [AddAuthorityV1Args] *)
Definition add_head (rid ty : Z) (c : bytes) (l : list action) : bytes :=
  le_enc 2 1 ++ le_enc 2 (Z.of_nat (length c)) ++ le_enc 2 (Z.of_nat (length (write_actions l))) ++ le_enc 2 ty
  ++ le_enc 1 (Z.of_nat (length l)) ++ zeros 3 ++ le_enc 4 rid.
Definition add_body (rid ty : Z) (c : bytes) (l : list action) : bytes := add_head rid ty c l ++ c ++ write_actions l.
(** interface/src/lib.rs:318-358 *)
Definition add_ed (swig payer auth : key) (rid ty : Z) (c : bytes) (l : list action) : ix :=
  by_ed [w_ swig; ws payer; SYS; ros auth] (add_body rid ty c l) 3.
(** interface/src/lib.rs:360-430 *)
Definition add_k1 E sign slot counter (swig payer : key) (rid ty : Z) (c : bytes) (l : list action) : ix :=
  by_k1 E sign slot counter [w_ swig; ws payer; SYS] (add_body rid ty c l) (add_body rid ty c l).
(** interface/src/lib.rs:432-529 *)
Definition add_r1 E sign pk slot counter (swig payer : key) (rid ty : Z) (c : bytes) (l : list action) : list ix :=
  by_r1 E sign pk slot counter [w_ swig; ws payer; SYS; IXS] (add_body rid ty c l) (add_body rid ty c l) 3.
(** interface/src/lib.rs:531-646 *)
Definition add_exec (swig payer : key) (pre : ix) (rid ty : Z) (c : bytes) (l : list action) target : list ix :=
  by_exec pre [w_ swig; ws payer; SYS; IXS] (add_body rid ty c l) 3 target.

(** ** SignV2Instruction; program/src/actions/sign_v2.rs [SignV2Args].
    [transaction_signers] are marked as signers after compaction. *)
Definition sign_head (rid : Z) (ixb : bytes) : bytes := le_enc 2 11 ++ le_enc 2 (Z.of_nat (length ixb)) ++ le_enc 4 rid.
Definition mark (signers : list key) (m : meta) : meta :=
  if existsb (beq (m_key m)) signers then mk_meta (m_key m) true (m_writable m) else m.
(** interface/src/lib.rs:668-701 (and 651-666) *)
Definition sign_ed (swig wallet auth : key) (inner : ix) (rid : Z) (signers : list key) : ix :=
  let '(ms, cs) := compact_instructions [swig] [w_ swig; w_ wallet; ros auth] [inner] in
  by_ed (map (mark signers) ms) (sign_head rid (into_bytes cs) ++ into_bytes cs) 2.
(** interface/src/lib.rs:810-875 (and 786-808) *)
Definition sign_k1 E sign slot counter (swig wallet : key) (inner : ix) (rid : Z) (signers : list key) : ix :=
  let '(ms, cs) := compact_instructions [swig] [w_ swig; w_ wallet; SYS] [inner] in
  by_k1 E sign slot counter (map (mark signers) ms) (into_bytes cs) (sign_head rid (into_bytes cs) ++ into_bytes cs).
(** interface/src/lib.rs:903-988 (and 877-901) *)
Definition sign_r1 E sign pk slot counter (swig wallet : key) (inner : ix) (rid : Z) (signers : list key) : list ix :=
  let '(ms, cs) := compact_instructions [swig] [w_ swig; w_ wallet; SYS; IXS] [inner] in
  by_r1 E sign pk slot counter (map (mark signers) ms) (into_bytes cs) (sign_head rid (into_bytes cs) ++ into_bytes cs) 3.
(** interface/src/lib.rs:703-784: the sysvar comes last *)
Definition sign_exec (swig wallet payer : key) (pre inner : ix) (rid : Z) target : list ix :=
  let '(ms, cs) := compact_instructions [swig] [w_ swig; w_ wallet; ws payer] [inner] in
  by_exec pre (ms ++ [IXS]) (sign_head rid (into_bytes cs) ++ into_bytes cs) (Z.of_nat (length ms) mod U8) target.

(** ** RemoveAuthorityInstruction; program/src/actions/remove_authority_v1.rs
    [RemoveAuthorityV1Args], whose payload length nobody reads *)
Definition remove_head (len rid target : Z) : bytes :=
  le_enc 2 2 ++ le_enc 2 len ++ zeros 4 ++ le_enc 4 rid ++ le_enc 4 target.
(** interface/src/lib.rs:993-1016 *)
Definition remove_ed (swig payer auth : key) (rid target : Z) : ix :=
  by_ed [w_ swig; ws payer; SYS; ros auth] (remove_head 1 rid target) 3.
(** interface/src/lib.rs:1018-1069 *)
Definition remove_k1 E sign slot counter (swig payer : key) (rid target : Z) : ix :=
  by_k1 E sign slot counter [w_ swig; ws payer; SYS] (remove_head 65 rid target) (remove_head 65 rid target).
(** interface/src/lib.rs:1071-1145 *)
Definition remove_r1 E sign pk slot counter (swig payer : key) (rid target : Z) : list ix :=
  by_r1 E sign pk slot counter [w_ swig; ws payer; SYS; IXS] (remove_head 17 rid target) (remove_head 17 rid target) 3.
(** interface/src/lib.rs:1147-1218 *)
Definition remove_exec (swig payer : key) (pre : ix) (rid target : Z) tix : list ix :=
  by_exec pre [w_ swig; ws payer; SYS; IXS] (remove_head 1 rid target) 3 tix.

(** ** UpdateAuthorityInstruction; program/src/actions/update_authority_v1.rs:101-106
    [AuthorityUpdateOperation], 131-138 [UpdateAuthorityV1Args] *)
Inductive update_data :=
| ReplaceAll (l : list action) | AddActions (l : list action)
| RemoveByType (tys : bytes) | RemoveByIndex (is : list Z).
(** interface/src/lib.rs:1227-1259 [to_operation_and_data] *)
Definition operation_and_data (u : update_data) : Z * bytes :=
  match u with
  | ReplaceAll l => (0, write_actions l)
  | AddActions l => (1, write_actions l)
  | RemoveByType tys => (2, tys)
  | RemoveByIndex is => (3, flat_map (le_enc 2) is)
  end.
Definition encoded (u : update_data) : bytes := fst (operation_and_data u) :: snd (operation_and_data u).
Definition update_head (rid target : Z) (u : update_data) : bytes :=
  le_enc 2 3 ++ le_enc 2 (Z.of_nat (length (encoded u))) ++ le_enc 1 0 ++ zeros 3 ++ le_enc 4 rid ++ le_enc 4 target.
Definition update_body (rid target : Z) (u : update_data) : bytes := update_head rid target u ++ encoded u.
(** interface/src/lib.rs:1265-1323 *)
Definition update_ed (swig payer auth : key) (rid target : Z) (u : update_data) : ix :=
  by_ed [w_ swig; ws payer; SYS; ros auth] (update_body rid target u) 3.
(** interface/src/lib.rs:1326-1415 *)
Definition update_k1 E sign slot counter (swig payer : key) (rid target : Z) (u : update_data) : ix :=
  by_k1 E sign slot counter [w_ swig; ws payer; SYS] (update_body rid target u) (update_body rid target u).
(** interface/src/lib.rs:1418-1535 *)
Definition update_r1 E sign pk slot counter (swig payer : key) (rid target : Z) (u : update_data) : list ix :=
  by_r1 E sign pk slot counter [w_ swig; ws payer; SYS; IXS] (update_body rid target u) (update_body rid target u) 3.
(** interface/src/lib.rs:1537-1633 *)
Definition update_exec (swig payer : key) (pre : ix) (rid target : Z) (u : update_data) tix : list ix :=
  by_exec pre [w_ swig; ws payer; SYS; IXS] (update_body rid target u) 3 tix.

(** ** CreateSessionInstruction; program/src/actions/create_session_v1.rs:34-40 [CreateSessionV1Args] *)
Definition open_head (rid : Z) (k : key) (dur : Z) : bytes :=
  le_enc 2 5 ++ zeros 2 ++ le_enc 4 rid ++ le_enc 8 dur ++ k.
(** interface/src/lib.rs:1639-1663 *)
Definition session_ed (swig payer auth : key) (rid : Z) (k : key) (dur : Z) : ix :=
  by_ed [w_ swig; ws payer; ros auth] (open_head rid k dur) 2.
(** interface/src/lib.rs:1665-1718 *)
Definition session_k1 E sign slot counter (swig payer : key) (rid : Z) (k : key) (dur : Z) : ix :=
  by_k1 E sign slot counter [w_ swig; ws payer; SYS] (open_head rid k dur) (open_head rid k dur).
(** interface/src/lib.rs:1720-1796 *)
Definition session_r1 E sign pk slot counter (swig payer : key) (rid : Z) (k : key) (dur : Z) : list ix :=
  by_r1 E sign pk slot counter [w_ swig; ws payer; SYS; IXS] (open_head rid k dur) (open_head rid k dur) 3.
(** interface/src/lib.rs:1798-1874 *)
Definition session_exec (swig payer : key) (pre : ix) (rid : Z) (k : key) (dur : Z) tix : list ix :=
  by_exec pre [w_ swig; ws payer; SYS; IXS] (open_head rid k dur) 3 tix.

(** ** CreateSubAccountInstruction; program/src/actions/create_sub_account_v1.rs:49-55 *)
Definition sub_head (rid bump : Z) : bytes := le_enc 2 6 ++ zeros 2 ++ le_enc 4 rid ++ le_enc 1 bump ++ zeros 7.
(** interface/src/lib.rs:1880-1906 *)
Definition sub_ed (swig auth payer sa : key) (rid bump : Z) : ix :=
  by_ed [w_ swig; ws payer; w_ sa; SYS; ros auth] (sub_head rid bump) 4.
(** interface/src/lib.rs:1908-1957 *)
Definition sub_k1 E sign slot (swig payer sa : key) (rid bump : Z) : ix :=
  by_k1_old E sign slot [w_ swig; ws payer; w_ sa; SYS] (sub_head rid bump) (sub_head rid bump).
(** interface/src/lib.rs:1959-2034 *)
Definition sub_r1 E sign pk slot counter (swig payer sa : key) (rid bump : Z) : list ix :=
  by_r1_old E sign pk slot counter [w_ swig; ws payer; w_ sa; SYS; IXS] (sub_head rid bump) (sub_head rid bump) 4.
(** interface/src/lib.rs:2036-2111 *)
Definition sub_exec (swig payer : key) (pre : ix) (sa : key) (rid bump : Z) tix : list ix :=
  by_exec pre [w_ swig; ws payer; w_ sa; SYS; IXS] (sub_head rid bump) 4 tix.

(** ** WithdrawFromSubAccountInstruction; program/src/actions/withdraw_from_sub_account_v1.rs:46-51.
    [t] is [None] for SOL and (source, destination, token program) for tokens. *)
Definition withdraw_head (rid amount : Z) : bytes := le_enc 2 7 ++ zeros 2 ++ le_enc 4 rid ++ le_enc 8 amount.
Definition tokens (t : option (key * key * key)) : list meta :=
  match t with Some (src, dst, prog) => [w_ src; w_ dst; ro_ prog] | None => [] end.
(** interface/src/lib.rs:2117-2145, 2201-2235 *)
Definition withdraw_ed (swig auth payer sa wallet : key) t (rid amount : Z) : ix :=
  by_ed ([w_ swig; ros payer; w_ sa; ros auth; w_ wallet; SYS] ++ tokens t) (withdraw_head rid amount) 3.
(** interface/src/lib.rs:2147-2199, 2237-2295 *)
Definition withdraw_k1 E sign slot (swig payer sa wallet : key) t (rid amount : Z) : ix :=
  by_k1_old E sign slot ([w_ swig; ros payer; w_ sa; SYS; w_ wallet; SYS] ++ tokens t)
    (withdraw_head rid amount) (withdraw_head rid amount).
(** interface/src/lib.rs:2297-2376 *)
Definition withdraw_sol_r1 E sign pk slot counter (swig payer sa wallet : key) (rid amount : Z) : list ix :=
  by_r1 E sign pk slot counter [w_ swig; ros payer; w_ sa; IXS; w_ wallet; SYS]
    (withdraw_head rid amount) (withdraw_head rid amount) 3.
(** interface/src/lib.rs:2378-2461 *)
Definition withdraw_token_r1 E sign pk slot counter (swig payer sa wallet src dst prog : key) (rid amount : Z) : list ix :=
  by_r1_old E sign pk slot counter ([w_ swig; ros payer; w_ sa; IXS; w_ wallet; SYS] ++ tokens (Some (src, dst, prog)))
    (withdraw_head rid amount) (withdraw_head rid amount) 3.
(** interface/src/lib.rs:2463-2502, 2551-2589 *)
Definition withdraw_sol_exec (swig payer : key) (pre : ix) (sa wallet : key) (rid amount : Z) tix : list ix :=
  by_exec pre [w_ swig; ros payer; w_ sa; w_ wallet; SYS; IXS] (withdraw_head rid amount) 5 tix.
(** interface/src/lib.rs:2504-2549, 2591-2636 *)
Definition withdraw_token_exec (swig payer : key) (pre : ix) (sa wallet src dst prog : key) (rid amount : Z) tix : list ix :=
  by_exec pre [w_ swig; ros payer; w_ sa; w_ wallet; w_ src; w_ dst; SYS; ro_ prog; IXS] (withdraw_head rid amount) 8 tix.

(** ** SubAccountSignInstruction; program/src/actions/sub_account_sign_v1.rs:41-46.
    [compact_instructions_sub_account] (instructions/src/compact_instructions.rs:91-136)
    is [compact_instructions] with two keys whose signer bit is cleared. *)
Definition sub_sign_head (rid : Z) (ixb : bytes) : bytes :=
  le_enc 2 9 ++ le_enc 2 (Z.of_nat (length ixb)) ++ le_enc 4 rid ++ zeros 8.
(** interface/src/lib.rs:2641-2666 *)
Definition sub_sign_ed (swig sa auth : key) (rid : Z) (inner : list ix) : ix :=
  let '(ms, cs) := compact_instructions [swig; sa] [ro_ swig; w_ sa; SYS; ros auth] inner in
  by_ed ms (sub_sign_head rid (into_bytes cs) ++ into_bytes cs) 3.
(** interface/src/lib.rs:2668-2716 *)
Definition sub_sign_k1 E sign slot (swig sa : key) (rid : Z) (inner : list ix) : ix :=
  let '(ms, cs) := compact_instructions [swig; sa] [ro_ swig; w_ sa; SYS] inner in
  by_k1_old E sign slot ms (into_bytes cs) (sub_sign_head rid (into_bytes cs) ++ into_bytes cs).
(** interface/src/lib.rs:2718-2794: the sysvar is account 3, the payload says 4 *)
Definition sub_sign_r1 E sign pk slot counter (swig sa : key) (rid : Z) (inner : list ix) : list ix :=
  let '(ms, cs) := compact_instructions [swig; sa] [ro_ swig; w_ sa; SYS; IXS] inner in
  by_r1_old E sign pk slot counter ms (into_bytes cs) (sub_sign_head rid (into_bytes cs) ++ into_bytes cs) 4.
(** interface/src/lib.rs:2796-2877 *)
Definition sub_sign_exec (swig sa payer : key) (pre : ix) (rid : Z) (inner : list ix) tix : list ix :=
  let '(ms, cs) := compact_instructions [swig; sa] [ro_ swig; ros payer; w_ sa; SYS; IXS] inner in
  by_exec pre ms (sub_sign_head rid (into_bytes cs) ++ into_bytes cs) 4 tix.

(** ** ToggleSubAccountInstruction; program/src/actions/toggle_sub_account_v1.rs:42-48 *)
Definition toggle_head (target rid : Z) (on : bool) : bytes :=
  le_enc 2 10 ++ [b2z on] ++ zeros 5 ++ le_enc 4 target ++ le_enc 4 rid.
(** interface/src/lib.rs:2883-2909 *)
Definition toggle_ed (swig auth payer sa : key) (target rid : Z) (on : bool) : ix :=
  by_ed [w_ swig; ros payer; w_ sa; ros auth] (toggle_head target rid on) 3.
(** interface/src/lib.rs:2911-2967 *)
Definition toggle_k1 E sign slot (swig payer sa : key) (target rid : Z) (on : bool) : ix :=
  by_k1_old E sign slot [w_ swig; ros payer; w_ sa] (toggle_head target rid on) (toggle_head target rid on).
(** interface/src/lib.rs:2969-3045 *)
Definition toggle_r1 E sign pk slot counter (swig payer sa : key) (target rid : Z) (on : bool) : list ix :=
  by_r1_old E sign pk slot counter [w_ swig; ros payer; w_ sa; SYS; IXS] (toggle_head target rid on) (toggle_head target rid on) 4.
(** interface/src/lib.rs:3047-3122 *)
Definition toggle_exec (swig payer : key) (pre : ix) (sa : key) (target rid : Z) (on : bool) tix : list ix :=
  by_exec pre [w_ swig; ros payer; w_ sa; IXS] (toggle_head target rid on) 3 tix.

(** ** TransferAssetsV1Instruction; program/src/actions/transfer_assets_v1.rs:45-49 *)
Definition transfer_head (rid : Z) : bytes := le_enc 2 13 ++ zeros 2 ++ le_enc 4 rid.
(** interface/src/lib.rs:3128-3153 *)
Definition transfer_ed (swig wallet payer auth : key) (rid : Z) : ix :=
  by_ed [w_ swig; w_ wallet; ws payer; SYS; ros auth] (transfer_head rid) 4.
(** interface/src/lib.rs:3155-3209 *)
Definition transfer_k1 E sign slot (swig wallet payer : key) (rid : Z) : ix :=
  by_k1_old E sign slot [w_ swig; w_ wallet; ws payer; SYS] (transfer_head rid) (transfer_head rid).
(** interface/src/lib.rs:3211-3286 *)
Definition transfer_r1 E sign pk slot counter (swig wallet payer : key) (rid : Z) : list ix :=
  by_r1_old E sign pk slot counter [w_ swig; w_ wallet; ws payer; SYS; IXS] (transfer_head rid) (transfer_head rid) 4.
(** interface/src/lib.rs:3288-3362 *)
Definition transfer_exec (swig wallet payer : key) (pre : ix) (rid : Z) tix : list ix :=
  by_exec pre [w_ swig; w_ wallet; ws payer; SYS; IXS] (transfer_head rid) 4 tix.

(** ** SetRentClaimerV1Instruction; program/src/actions/set_rent_claimer_v1.rs:27-32 *)
Definition claimer_head (rid : Z) (c : key) : bytes := le_enc 2 17 ++ zeros 2 ++ le_enc 4 rid ++ c.
(** interface/src/lib.rs:3369-3393 *)
Definition claimer_ed (swig payer auth : key) (rid : Z) (c : key) : ix :=
  by_ed [w_ swig; ws payer; SYS; ros auth] (claimer_head rid c) 3.
(** interface/src/lib.rs:3396-3446 *)
Definition claimer_k1 E sign slot counter (swig payer : key) (rid : Z) (c : key) : ix :=
  by_k1 E sign slot counter [w_ swig; ws payer; SYS] (claimer_head rid c) (claimer_head rid c).
(** interface/src/lib.rs:3449-3512 *)
Definition claimer_r1 E sign pk slot counter (swig payer : key) (rid : Z) (c : key) : list ix :=
  by_r1 E sign pk slot counter [w_ swig; ws payer; SYS; IXS] (claimer_head rid c) (claimer_head rid c) 3.

(** ** CloseTokenAccountV1Instruction; program/src/actions/close_token_account_v1.rs:39-43 *)
Definition close_token_head (rid off : Z) : bytes := le_enc 2 14 ++ le_enc 2 off ++ le_enc 4 rid.
(** interface/src/lib.rs:3531-3568 *)
Definition close_token_ed (swig wallet auth dest prog : key) (toks : list key) (rid : Z) : ix :=
  by_ed ([w_ swig; w_ wallet; w_ dest; ro_ prog; ros auth] ++ map w_ toks) (close_token_head rid 5) 4.
(** interface/src/lib.rs:3571-3635 *)
Definition close_token_k1 E sign slot counter (swig wallet dest prog : key) (toks : list key) (rid : Z) : ix :=
  by_k1 E sign slot counter ([w_ swig; w_ wallet; w_ dest; ro_ prog] ++ map w_ toks)
    (close_token_head rid 4) (close_token_head rid 4).
(** interface/src/lib.rs:3638-3715 *)
Definition close_token_r1 E sign pk slot counter (swig wallet dest prog : key) (toks : list key) (rid : Z) : list ix :=
  by_r1 E sign pk slot counter ([w_ swig; w_ wallet; w_ dest; ro_ prog; IXS] ++ map w_ toks)
    (close_token_head rid 5) (close_token_head rid 5) 4.

(** ** CloseSwigV1Instruction; program/src/actions/close_swig_v1.rs:36-40 *)
Definition close_head (rid : Z) : bytes := le_enc 2 15 ++ zeros 2 ++ le_enc 4 rid.
(** interface/src/lib.rs:3729-3754 *)
Definition close_ed (swig wallet auth dest : key) (rid : Z) : ix :=
  by_ed [w_ swig; w_ wallet; w_ dest; SYS; ros auth] (close_head rid) 4.
(** interface/src/lib.rs:3757-3808 *)
Definition close_k1 E sign slot counter (swig wallet dest : key) (rid : Z) : ix :=
  by_k1 E sign slot counter [w_ swig; w_ wallet; w_ dest; SYS] (close_head rid) (close_head rid).
(** interface/src/lib.rs:3811-3879 *)
Definition close_r1 E sign pk slot counter (swig wallet dest : key) (rid : Z) : list ix :=
  by_r1 E sign pk slot counter [w_ swig; w_ wallet; w_ dest; SYS; IXS] (close_head rid) (close_head rid) 4.

(** ** CreateSubAccountV2Instruction; program/src/actions/create_sub_account_v2.rs:43-53 *)
Definition sub2_head (rid b1 b2 : Z) : bytes :=
  le_enc 2 18 ++ zeros 2 ++ le_enc 4 rid ++ le_enc 1 b1 ++ le_enc 1 b2 ++ zeros 6.
(** interface/src/lib.rs:3888-3916 *)
Definition sub2_ed (swig auth payer state sa : key) (rid b1 b2 : Z) : ix :=
  by_ed [w_ swig; ws payer; w_ state; w_ sa; SYS; ros auth] (sub2_head rid b1 b2) 5.
(** interface/src/lib.rs:3918-3957 *)
Definition sub2_k1 E sign slot counter (swig payer state sa : key) (rid b1 b2 : Z) : ix :=
  by_k1 E sign slot counter [w_ swig; ws payer; w_ state; w_ sa; SYS] (sub2_head rid b1 b2) (sub2_head rid b1 b2).
(** interface/src/lib.rs:3959-3998 *)
Definition sub2_r1 E sign pk slot counter (swig payer state sa : key) (rid b1 b2 : Z) : list ix :=
  by_r1 E sign pk slot counter [w_ swig; ws payer; w_ state; w_ sa; SYS; IXS] (sub2_head rid b1 b2) (sub2_head rid b1 b2) 5.

(** ** ToggleSubAccountV2Instruction; program/src/actions/toggle_sub_account_v2.rs:34-44 *)
Definition toggle2_head (rid id : Z) (on : bool) : bytes :=
  le_enc 2 19 ++ [b2z on; 0] ++ le_enc 4 rid ++ le_enc 4 id ++ zeros 4.
(** interface/src/lib.rs:4004-4033 *)
Definition toggle2_ed (swig auth payer state : key) (rid id : Z) (on : bool) : ix :=
  by_ed [w_ swig; ws payer; w_ state; ros auth] (toggle2_head rid id on) 3.
(** interface/src/lib.rs:4035-4071 *)
Definition toggle2_k1 E sign slot counter (swig payer state : key) (rid id : Z) (on : bool) : ix :=
  by_k1 E sign slot counter [w_ swig; ws payer; w_ state] (toggle2_head rid id on) (toggle2_head rid id on).
(** interface/src/lib.rs:4073-4110 *)
Definition toggle2_r1 E sign pk slot counter (swig payer state : key) (rid id : Z) (on : bool) : list ix :=
  by_r1 E sign pk slot counter [w_ swig; ws payer; w_ state; SYS; IXS] (toggle2_head rid id on) (toggle2_head rid id on) 4.

(** ** SubAccountSignV2Instruction; program/src/actions/sub_account_sign_v2.rs:131-137 *)
Definition sub_sign2_head (rid id : Z) (ixb : bytes) : bytes :=
  le_enc 2 20 ++ le_enc 2 (Z.of_nat (length ixb)) ++ le_enc 4 rid ++ le_enc 4 id ++ zeros 4.
(** interface/src/lib.rs:4116-4144 *)
Definition sub_sign2_ed (swig state sa auth : key) (rid id : Z) (inner : list ix) : ix :=
  let '(ms, cs) := compact_instructions [swig; sa] [w_ swig; ro_ state; w_ sa; SYS; ros auth] inner in
  by_ed ms (sub_sign2_head rid id (into_bytes cs) ++ into_bytes cs) 4.
(** interface/src/lib.rs:4146-4187 *)
Definition sub_sign2_k1 E sign slot counter (swig state sa : key) (rid id : Z) (inner : list ix) : ix :=
  let '(ms, cs) := compact_instructions [swig; sa] [w_ swig; ro_ state; w_ sa; SYS] inner in
  by_k1 E sign slot counter ms (sub_sign2_head rid id (into_bytes cs) ++ into_bytes cs)
    (sub_sign2_head rid id (into_bytes cs) ++ into_bytes cs).
(** interface/src/lib.rs:4189-4231 *)
Definition sub_sign2_r1 E sign pk slot counter (swig state sa : key) (rid id : Z) (inner : list ix) : list ix :=
  let '(ms, cs) := compact_instructions [swig; sa] [w_ swig; ro_ state; w_ sa; SYS; IXS] inner in
  by_r1 E sign pk slot counter ms (sub_sign2_head rid id (into_bytes cs) ++ into_bytes cs)
    (sub_sign2_head rid id (into_bytes cs) ++ into_bytes cs) 4.

(** ** WithdrawFromSubAccountV2Instruction; program/src/actions/withdraw_from_sub_account_v2.rs:41-48.
    [t] as above. *)
Definition withdraw2_head (rid id amount : Z) : bytes :=
  le_enc 2 21 ++ zeros 2 ++ le_enc 4 rid ++ le_enc 4 id ++ zeros 4 ++ le_enc 8 amount.
(** interface/src/lib.rs:4238-4308 *)
Definition withdraw2_ed (swig auth payer state sa wallet : key) t (rid id amount : Z) : ix :=
  by_ed ([w_ swig; ws payer; ro_ state; w_ sa; w_ wallet; ros auth; SYS] ++ tokens t) (withdraw2_head rid id amount) 5.
(** interface/src/lib.rs:4310-4406 *)
Definition withdraw2_k1 E sign slot counter (swig payer state sa wallet : key) t (rid id amount : Z) : ix :=
  by_k1 E sign slot counter ([w_ swig; ws payer; ro_ state; w_ sa; w_ wallet; SYS; SYS] ++ tokens t)
    (withdraw2_head rid id amount) (withdraw2_head rid id amount).
(** interface/src/lib.rs:4408-4499 *)
Definition withdraw2_r1 E sign pk slot counter (swig payer state sa wallet : key) t (rid id amount : Z) : list ix :=
  by_r1 E sign pk slot counter ([w_ swig; ws payer; ro_ state; w_ sa; w_ wallet; IXS; SYS] ++ tokens t)
    (withdraw2_head rid id amount) (withdraw2_head rid id amount) 5.

(** ** ReplaceAuthorityInstruction: interface/src/replace_authority.rs; the
    builders fail unless the new key has 32, 33 or 64 bytes (24-42) *)
Definition replace_head (rid target : Z) (c : bytes) : bytes :=
  le_enc 2 16 ++ zeros 2 ++ le_enc 4 rid ++ le_enc 4 target ++ le_enc 2 (Z.of_nat (length c)) ++ zeros 2 ++ c.
Definition replace_fits (c : bytes) : bool := ((length c =? 32) || (length c =? 33) || (length c =? 64))%nat.
(** replace_authority.rs:102-121 *)
Definition replace_ed (swig auth : key) (rid target : Z) (c : bytes) : option ix :=
  if replace_fits c then Some (by_ed [w_ swig; ros auth] (replace_head rid target c) 1) else None.
(** replace_authority.rs:123-161 *)
Definition replace_k1 E sign slot counter (swig : key) (rid target : Z) (c : bytes) : option ix :=
  if replace_fits c
  then Some (by_k1 E sign slot counter [w_ swig] (replace_head rid target c) (replace_head rid target c)) else None.
(** replace_authority.rs:163-219 *)
Definition replace_r1 E sign pk slot counter (swig : key) (rid target : Z) (c : bytes) : option (list ix) :=
  if replace_fits c
  then Some (by_r1 E sign pk slot counter [w_ swig; IXS] (replace_head rid target c) (replace_head rid target c) 1) else None.
(** replace_authority.rs:221-247 *)
Definition replace_exec (swig wallet : key) (pre : ix) (rid target : Z) (c : bytes) : option (list ix) :=
  if replace_fits c
  then Some (by_exec pre [w_ swig; ro_ wallet; IXS] (replace_head rid target c) 2 None) else None.
(** replace_authority.rs:249-266 [normalize_secp256k1_authority] *)
Definition normal_k1 (c : bytes) : option bytes :=
  if (length c =? 33)%nat then Some c else if (length c =? 64)%nat then Some (compress c) else None.
(** replace_authority.rs:46-99 [program_exec_proof_data]: the data of the
    instruction that must run before a replacement authorised by program
    execution; the discriminator and the domain are program/src/actions/replace_authority_v1.rs:44-45 *)
Definition same_len (n : nat) (cur new : bytes) : option (bytes * bytes) :=
  if ((length cur =? n) && (length new =? n))%nat then Some (cur, new) else None.
Definition proof_data (E : env) (swig wallet : key) (rid target ty : Z) (cur new : bytes) : option bytes :=
  let keys :=
    if (ty =? T_Ed25519) || (ty =? T_Ed25519Session) then same_len 32 cur new
    else if (ty =? T_Secp256k1) || (ty =? T_Secp256k1Session) then
      match normal_k1 cur, normal_k1 new with Some a, Some b => Some (a, b) | _, _ => None end
    else if (ty =? T_Secp256r1) || (ty =? T_Secp256r1Session) then same_len 33 cur new
    else None in
  match keys with
  | None => None
  | Some (a, b) =>
    Some (ascii_bytes "rplauth1"
          ++ sha256 E (ascii_bytes "swig-replace-authority-v1" ++ swig ++ wallet
                       ++ le_enc 4 rid ++ le_enc 4 target ++ le_enc 2 ty ++ a ++ b))
  end.
