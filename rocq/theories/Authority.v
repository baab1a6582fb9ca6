(** * Authorities: who may act for a role.

    Models state/src/authority/{mod,ed25519,secp256k1,secp256r1}.rs and
    state/src/authority/programexec/{mod,session}.rs.  An authority is the byte
    string stored in the role; [authenticate] returns the updated bytes (the
    signature counter moves). *)
From Coq Require Import String Ascii.
From Verif Require Export Env.

(** state/src/authority/mod.rs:126-160 [AuthorityType], [TryFrom<u16>] *)
Definition T_Ed25519 := 1.
Definition T_Ed25519Session := 2.
Definition T_Secp256k1 := 3.
Definition T_Secp256k1Session := 4.
Definition T_Secp256r1 := 5.
Definition T_Secp256r1Session := 6.
Definition T_ProgramExec := 7.
Definition T_ProgramExecSession := 8.

Definition authority_type (v : Z) : res Z :=
  if (1 <=? v) && (v <=? 8) then Ok v else Err PInvalidInstructionData.

(** state/src/authority/mod.rs:166-182 [authority_type_to_length] (the struct sizes) *)
Definition authority_len (ty : Z) : option nat :=
  if ty =? T_Ed25519 then Some 32%nat
  else if ty =? T_Ed25519Session then Some 80%nat
  else if ty =? T_Secp256k1 then Some 40%nat
  else if ty =? T_Secp256k1Session then Some 88%nat
  else if ty =? T_Secp256r1 then Some 40%nat
  else if ty =? T_Secp256r1Session then Some 88%nat
  else if ty =? T_ProgramExec then Some 80%nat
  else if ty =? T_ProgramExecSession then Some 128%nat
  else None.

(** [AuthorityInfo::session_based] *)
Definition session_based (ty : Z) : bool :=
  (ty =? T_Ed25519Session) || (ty =? T_Secp256k1Session)
  || (ty =? T_Secp256r1Session) || (ty =? T_ProgramExecSession).

(** secp256k1.rs:571-576 [compress]; [key[63] & 1] *)
Definition compress (k : bytes) : bytes :=
  (if Z.even (byte_at 63 k) then 2 else 3) :: sub 0 32 k.

(** ** Creation: [Authority::set_into_bytes].
    [old] is the destination slice, of which some bytes may survive (struct
    padding, and the expiration field of most session authorities). *)
Definition set_into_bytes (ty : Z) (create old : bytes) : res bytes :=
  if ty =? T_Ed25519 then                                  (* ed25519.rs:51-58 *)
    check (length create =? 32)%nat TInvalidRoleData ;;
    Ok create
  else if ty =? T_Ed25519Session then                      (* ed25519.rs:215-222 *)
    check (length create =? 72)%nat PInvalidAccountData ;;
    Ok (splice 0 create old)
  else if ty =? T_Secp256k1 then                           (* secp256k1.rs:103-127 *)
    let* pk := if (length create =? 33)%nat then Ok create
               else if (length create =? 64)%nat then Ok (compress create)
               else Err TInvalidRoleData in
    Ok (splice 36 (zeros 4) (splice 0 pk old))
  else if ty =? T_Secp256k1Session then                    (* secp256k1.rs:220-235 *)
    check (length create =? 104)%nat PInvalidAccountData ;;
    let pk := if beq (sub 33 31 create) (zeros 31) then sub 0 33 create
              else compress (sub 0 64 create) in
    Ok (splice 40 (sub 64 40 create) (splice 36 (zeros 4) (splice 0 pk old)))
  else if ty =? T_Secp256r1 then                           (* secp256r1.rs:167-175 *)
    check (length create =? 33)%nat TInvalidRoleData ;;
    Ok (splice 36 (zeros 4) (splice 0 create old))
  else if ty =? T_Secp256r1Session then                    (* secp256r1.rs:260-268 *)
    check (length create =? 80)%nat PInvalidAccountData ;;
    Ok (splice 40 (sub 40 40 create) (splice 36 (zeros 4) (splice 0 (sub 0 33 create) old)))
  else if ty =? T_ProgramExec then                         (* programexec/mod.rs:104-122 *)
    check (length create =? 80)%nat TInvalidRoleData ;;
    check (byte_at 32 create <=? 40) TInvalidRoleData ;;
    check (negb (beq (sub 0 32 create) SELF)) AProgramExecCannotBeSwig ;;
    let n := nat_of (byte_at 32 create) in
    Ok (splice 40 (sub 40 n create) (splice 32 (sub 32 1 create) (splice 0 (sub 0 32 create) old)))
  else if ty =? T_ProgramExecSession then                  (* programexec/session.rs:144-166 *)
    (* [CreateProgramExecSessionAuthority::LEN] is declared as the size of the
       full 128-byte authority struct *)
    check (length create =? 128)%nat PInvalidAccountData ;;
    check (byte_at 32 create <=? 40) TInvalidRoleData ;;
    check (negb (beq (sub 0 32 create) SELF)) AProgramExecCannotBeSwig ;;
    Ok (splice 120 (zeros 8)
         (splice 40 (sub 40 80 create) (splice 0 (sub 0 33 create) old)))
  else Err TInvalidAuthorityData.

(** ** Ed25519: ed25519.rs:316-329 [ed25519_authenticate] *)
Definition ed25519_authenticate (ms : list meta) (idx : Z) (pk : bytes) : res unit :=
  match nth_error ms (nat_of idx) with
  | None => Err AMissingAuthorityAccount
  | Some m => check (beq pk (m_key m) && m_signer m) APermissionDenied
  end.

(** ** The message signed by secp256k1/secp256r1 authorities *)
Definition b2z (b : bool) : Z := if b then 1 else 0.

(** secp256k1.rs:580-625 [AccountsPayload] of one account: key, writable, signer, padding *)
Definition account_payload (m : meta) : bytes :=
  m_key m ++ [b2z (m_writable m); b2z (m_signer m)] ++ zeros 6.
Definition accounts_payload (ms : list meta) : bytes := flat_map account_payload ms.

(** secp256k1.rs:486-492, secp256r1.rs:580-585: the four hashed slices *)
Definition signed_bytes (data : bytes) (ms : list meta) (slot counter : Z) : bytes :=
  data ++ accounts_payload ms ++ le_enc 8 slot ++ le_enc 4 counter.

(** secp256k1.rs:627-634 [hex_encode] *)
Definition hex_digit (n : Z) : Z := if n <? 10 then 48 + n else 87 + n.
Definition hex_encode (l : bytes) : bytes := flat_map (fun b => [hex_digit (b / 16); hex_digit (b mod 16)]) l.

(** big-endian scalar *)
Definition be (l : bytes) : Z := le (rev l).
Definition SECP_N : Z := 0xFFFFFFFFFFFFFFFFFFFFFFFFFFFFFFFEBAAEDCE6AF48A03BBFD25E8CD0364141.
(** libsecp256k1 [Signature::parse_standard_slice]: both scalars below the group order *)
Definition sig_parses (sig : bytes) : bool := (be (sub 0 32 sig) <? SECP_N) && (be (sub 32 32 sig) <? SECP_N).
(** libsecp256k1 [Scalar::is_high]: s > n/2 *)
Definition sig_high (sig : bytes) : bool := SECP_N / 2 <? be (sub 32 32 sig).

Definition MAX_SIGNATURE_AGE : Z := 60.   (* secp256k1.rs:24, secp256r1.rs:24 *)

(** secp256k1.rs:439-551 [secp256k1_authenticate] *)
Definition secp256k1_authenticate (E : env) (pk sig65 data : bytes) (auth_slot slot : Z)
  (ms : list meta) (prefix : bytes) (counter : Z) : res unit :=
  check (negb ((slot <? auth_slot) || (MAX_SIGNATURE_AGE <? slot - auth_slot))) ASecp256k1InvalidSignature ;;
  check (length ms <=? 64)%nat AInvalidAuthorityPayload ;;
  let sig := sub 0 64 sig65 in
  check (sig_parses sig) ASecp256k1InvalidSignature ;;
  check (negb (sig_high sig)) ASecp256k1InvalidSignature ;;
  let h := sha256 E (signed_bytes data ms auth_slot counter) in
  let digest := keccak E (prefix ++ hex_encode h) in
  let rid := if byte_at 64 sig65 =? 27 then 0 else 1 in
  let* rk := ok_or (recover E digest rid sig) ASecp256k1InvalidSignature in
  check (beq (compress rk) pk) APermissionDenied.

(** secp256k1.rs:343-381, 396-431 [secp_authority_authenticate] and the session
    variant: public key at 0, odometer at 36 *)
Definition secp256k1_auth (E : env) (auth payload data : bytes) (slot : Z) (ms : list meta) : res bytes :=
  check (77 <=? length payload)%nat AInvalidAuthorityPayload ;;
  let auth_slot := u64_at 0 payload in
  let counter := u32_at 8 payload in
  check (counter =? (u32_at 36 auth + 1) mod U32) ASecp256k1SignatureReused ;;
  secp256k1_authenticate E (sub 0 33 auth) (sub 12 65 payload) data auth_slot slot ms
    (skipn 77 payload) counter ;;
  Ok (splice 36 (le_enc 4 counter) auth).

(** ** Instructions sysvar access (pinocchio sysvars/instructions) *)
Definition find_ix (cx : ctx) (i : nat) : option ix := nth_error (c_ixs cx) i.

(** ** Secp256r1 *)
(** secp256r1.rs:607-667 [verify_secp256r1_instruction_data] *)
Definition verify_r1_data (d pk msg : bytes) : res unit :=
  check (16 <=? length d)%nat ASecp256r1InvalidInstruction ;;
  check (byte_at 0 d =? 1) ASecp256r1InvalidInstruction ;;
  check (145 <=? length d)%nat ASecp256r1InvalidInstruction ;;
  check (u16_at 4 d =? 65535) ASecp256r1InvalidInstruction ;;
  check (u16_at 8 d =? 65535) ASecp256r1InvalidInstruction ;;
  check (u16_at 14 d =? 65535) ASecp256r1InvalidInstruction ;;
  check (u16_at 6 d =? 16) ASecp256r1InvalidInstruction ;;
  check (u16_at 10 d =? 113) ASecp256r1InvalidInstruction ;;
  check (u16_at 12 d =? Z.of_nat (length msg)) ASecp256r1InvalidInstruction ;;
  let* m := slice 113 (length msg) d in
  check (beq (sub 16 33 d) pk) ASecp256r1InvalidPubkey ;;
  check (beq m msg) ASecp256r1InvalidMessageHash.

(** ASCII literals as byte strings *)
Fixpoint ascii_bytes (s : string) : bytes :=
  match s with
  | EmptyString => []
  | String c t => Z.of_N (N_of_ascii c) :: ascii_bytes t
  end.

(** secp256r1.rs:1141-1177 [base64url_encode_no_pad] *)
Definition b64_chars : bytes :=
  ascii_bytes "ABCDEFGHIJKLMNOPQRSTUVWXYZabcdefghijklmnopqrstuvwxyz0123456789-_".
Definition b64 (n : Z) : Z := nth (nat_of n) b64_chars 0.
Fixpoint base64url (l : bytes) : bytes :=
  match l with
  | [] => []
  | [b1] => [b64 (b1 / 4); b64 ((b1 mod 4) * 16)]
  | [b1; b2] => [b64 (b1 / 4); b64 ((b1 mod 4) * 16 + b2 / 16); b64 ((b2 mod 16) * 4)]
  | b1 :: b2 :: b3 :: t =>
      b64 (b1 / 4) :: b64 ((b1 mod 4) * 16 + b2 / 16) :: b64 ((b2 mod 16) * 4 + b3 / 64)
      :: b64 (b3 mod 64) :: base64url t
  end.

(** secp256r1.rs:1046-1108 [decode_huffman_origin].  The bits of every encoded
    byte, most significant first. *)
Definition bits_of (b : Z) : list bool :=
  [Z.testbit b 7; Z.testbit b 6; Z.testbit b 5; Z.testbit b 4;
   Z.testbit b 3; Z.testbit b 2; Z.testbit b 1; Z.testbit b 0].
Fixpoint huffman_loop (bits : list bool) (tree : bytes) (nodes cur : nat) (want : nat) (acc : bytes)
  : res bytes :=
  match bits with
  | [] => Ok (rev acc)
  | b :: t =>
    if (length acc =? want)%nat then Ok (rev acc)
    else
      check (negb (byte_at (cur * 3) tree =? 0)) ASecp256r1InvalidMessage ;;
      let nxt := nat_of (if b then byte_at (cur * 3 + 2) tree else byte_at (cur * 3 + 1) tree) in
      check (nxt <? nodes)%nat ASecp256r1InvalidMessage ;;
      if byte_at (nxt * 3) tree =? 0
      then huffman_loop t tree nodes (nodes - 1) want (byte_at (nxt * 3 + 1) tree :: acc)
      else huffman_loop t tree nodes nxt want acc
  end.
Definition decode_huffman (tree enc : bytes) (want : nat) : res bytes :=
  check ((length tree mod 3 =? 0) && negb (length tree =? 0))%nat ASecp256r1InvalidMessage ;;
  let nodes := (length tree / 3)%nat in
  huffman_loop (flat_map bits_of enc) tree nodes (nodes - 1) want [].

(** secp256r1.rs:1111-1138 [reconstruct_client_data_json] *)
Definition field_text (origin challenge : bytes) (f : Z) : res (list bytes) :=
  if f =? 0 then Ok []
  else if f =? 1 then Ok [ascii_bytes """type"":""webauthn.get"""]
  else if f =? 2 then Ok [ascii_bytes """challenge"":""" ++ challenge ++ [34]]
  else if f =? 3 then Ok [ascii_bytes """origin"":""" ++ origin ++ [34]]
  else if f =? 4 then Ok [ascii_bytes """crossOrigin"":false"]
  else Err ASecp256r1InvalidMessage.
Fixpoint fields_text (origin challenge : bytes) (order : bytes) : res (list bytes) :=
  match order with
  | [] => Ok []
  | f :: t =>
      let* a := field_text origin challenge f in
      let* b := fields_text origin challenge t in
      Ok (a ++ b)%list
  end.
Fixpoint join_comma (l : list bytes) : bytes :=
  match l with
  | [] => []
  | [x] => x
  | x :: t => x ++ [44] ++ join_comma t
  end.
Definition client_json (E : env) (order origin hash : bytes) : res bytes :=
  check (utf8_ok E origin) ASecp256r1InvalidMessage ;;
  let* fs := fields_text origin (base64url hash) order in
  Ok ([123] ++ join_comma fs ++ [125]).

(** secp256r1.rs:839-856 [validate_webauthn_field_order] *)
Definition count_z (x : Z) (l : bytes) : nat := length (filter (Z.eqb x) l).
Definition field_order_ok (order : bytes) : bool :=
  forallb (fun f => (0 <=? f) && (f <=? 4)) order
  && (count_z 2 order =? 1)%nat && (count_z 1 order =? 1)%nat.

(** secp256r1.rs:733-837 [webauthn_message] *)
Definition webauthn_message (E : env) (p hash : bytes) : res bytes :=
  check (6 <=? length p)%nat ASecp256r1InvalidMessage ;;
  let al := nat_of (u16_at 2 p) in
  check (u16_at 2 p <? 196) ASecp256r1InvalidMessage ;;
  check (4 + al + 4 <=? length p)%nat ASecp256r1InvalidMessage ;;
  let auth_data := sub 4 al p in
  let order := sub (4 + al) 4 p in
  check (field_order_ok order) ASecp256r1InvalidMessage ;;
  let o := (4 + al + 4)%nat in
  check (o + 2 <=? length p)%nat ASecp256r1InvalidMessage ;;
  check (o + 4 <=? length p)%nat ASecp256r1InvalidMessage ;;
  check (o + 6 <=? length p)%nat ASecp256r1InvalidMessage ;;
  let olen := nat_of (u16_at o p) in
  let tlen := nat_of (u16_at (o + 2) p) in
  let elen := nat_of (u16_at (o + 4) p) in
  check (o + 6 + tlen + elen <=? length p)%nat ASecp256r1InvalidMessage ;;
  let* origin := decode_huffman (sub (o + 6) tlen p) (sub (o + 6 + tlen) elen p) olen in
  let* json := client_json E order origin hash in
  Ok (auth_data ++ sha256 E json).

(** secp256r1.rs:925-1043 [extract_top_level_string_field].
    [is_ws] is [u8::is_ascii_whitespace]. *)
Definition is_ws (b : Z) : bool := (b =? 32) || (b =? 9) || (b =? 10) || (b =? 12) || (b =? 13).
Fixpoint skip_ws (l : bytes) : bytes :=
  match l with b :: t => if is_ws b then skip_ws t else l | [] => [] end.
(** Read up to the closing quote; a backslash or the end of input is an error. *)
Fixpoint read_string (l : bytes) : option (bytes * bytes) :=
  match l with
  | [] => None
  | b :: t =>
    if b =? 34 then Some ([], t)
    else if b =? 92 then None
    else match read_string t with Some (s, r) => Some (b :: s, r) | None => None end
  end.
(** The skipping of a non-matching string value tolerates a missing closing
    quote (the loop just ends); a backslash is an error. *)
Fixpoint skip_string (l : bytes) : option bytes :=
  match l with
  | [] => Some []
  | b :: t => if b =? 34 then Some t else if b =? 92 then None else skip_string t
  end.
Fixpoint extract_loop (fuel : nat) (depth : nat) (l : bytes) (field : bytes) : res bytes :=
  match fuel with
  | O => Err RComputeExhausted
  | S f =>
    match l with
    | [] => Err ASecp256r1InvalidMessage
    | b :: t =>
      if b =? 123 then extract_loop f (S depth) t field
      else if b =? 125 then
        match depth with O => Err ASecp256r1InvalidMessage | S d => extract_loop f d t field end
      else if (depth =? 1)%nat && (b =? 34) then
        match read_string t with
        | None => Err ASecp256r1InvalidMessage
        | Some (k, r) =>
          match skip_ws r with
          | c :: r1 =>
            if c =? 58 then
              match skip_ws r1 with
              | [] => Err ASecp256r1InvalidMessage
              | v :: r2 =>
                if beq k field then
                  if v =? 34 then
                    match read_string r2 with
                    | Some (s, _) => Ok s
                    | None => Err ASecp256r1InvalidMessage
                    end
                  else Err ASecp256r1InvalidMessage
                else if v =? 34 then
                  match skip_string r2 with
                  | Some r3 => extract_loop f depth r3 field
                  | None => Err ASecp256r1InvalidMessage
                  end
                else extract_loop f depth (v :: r2) field
              end
            else Err ASecp256r1InvalidMessage
          | [] => Err ASecp256r1InvalidMessage
          end
        end
      else extract_loop f depth t field
    end
  end.
Definition extract_field (json field : bytes) : res bytes :=
  let l := skip_ws json in
  match l with
  | b :: _ => check (b =? 123) ASecp256r1InvalidMessage ;;
              extract_loop (S (length l)) 0 l field
  | [] => Err ASecp256r1InvalidMessage
  end.

(** secp256r1.rs:858-923 [webauthn_raw_client_data_json_message] *)
Definition raw_json_message (E : env) (p hash : bytes) : res bytes :=
  check (6 <=? length p)%nat ASecp256r1InvalidMessage ;;
  let al := nat_of (u16_at 2 p) in
  check (u16_at 2 p <? 196) ASecp256r1InvalidMessage ;;
  check (4 + al + 2 <=? length p)%nat ASecp256r1InvalidMessage ;;
  let jl := u16_at (4 + al) p in
  check (negb (jl =? 0) && (jl <=? 1024)) ASecp256r1InvalidMessage ;;
  check (length p =? 4 + al + 2 + nat_of jl)%nat ASecp256r1InvalidMessage ;;
  let json := sub (4 + al + 2) (nat_of jl) p in
  let* ch := extract_field json (ascii_bytes "challenge") in
  check (beq ch (base64url hash)) ASecp256r1InvalidMessageHash ;;
  let* ty := extract_field json (ascii_bytes "type") in
  check (beq ty (ascii_bytes "webauthn.get")) ASecp256r1InvalidMessage ;;
  Ok (sub 4 al p ++ sha256 E json).

(** secp256r1.rs:499-523: the message the precompile must have verified *)
Definition r1_message (E : env) (extra hash : bytes) : res bytes :=
  match extra with
  | [] => Ok hash
  | _ =>
    check (2 <=? length extra)%nat ASecp256r1InvalidMessage ;;
    let kind := u16_at 0 extra in
    if kind =? 1 then webauthn_message E extra hash
    else if kind =? 2 then raw_json_message E extra hash
    else Err ASecp256r1InvalidAuthenticationKind
  end.

(** secp256r1.rs:479-552 [secp256r1_authenticate] *)
Definition secp256r1_authenticate (E : env) (cx : ctx) (pk data : bytes) (auth_slot : Z)
  (idx counter : Z) (extra : bytes) : res unit :=
  let slot := c_slot cx in
  check (negb ((slot <? auth_slot) || (MAX_SIGNATURE_AGE <? slot - auth_slot))) ASecp256k1InvalidSignatureAge ;;
  check (length (c_metas cx) <=? 64)%nat AInvalidAuthorityPayload ;;
  let hash := keccak E (signed_bytes data (c_metas cx) auth_slot counter) in
  let* msg := r1_message E extra hash in
  let* sv := ok_or (nth_error (c_metas cx) (nat_of idx)) AInvalidAuthorityPayload in
  check (beq (m_key sv) INSTRUCTIONS_ID) ASecp256r1InvalidInstruction ;;
  check (negb (c_cur cx =? 0)%nat) ASecp256r1InvalidInstruction ;;
  match find_ix cx (c_cur cx - 1) with
  | None => Panic
  | Some x =>
    check (beq (ix_prog x) SECP256R1_ID) ASecp256r1InvalidInstruction ;;
    verify_r1_data (ix_data x) pk msg
  end.

(** secp256r1.rs:374-417, 431-469: public key at 0, odometer at 36 *)
Definition secp256r1_auth (E : env) (cx : ctx) (auth payload data : bytes) : res bytes :=
  check (17 <=? length payload)%nat AInvalidAuthorityPayload ;;
  let auth_slot := u64_at 0 payload in
  let counter := u32_at 8 payload in
  check (counter =? (u32_at 36 auth + 1) mod U32) ASecp256r1SignatureReused ;;
  secp256r1_authenticate E cx (sub 0 33 auth) data auth_slot (byte_at 12 payload) counter
    (skipn 17 payload) ;;
  Ok (splice 36 (le_enc 4 counter) auth).

(** ** Program execution authority *)
(** Serialised form of the instructions sysvar from one instruction on, which
    the unchecked reads of programexec/mod.rs:280-335 look into: account count,
    (flags, key)*, program id, data length, data, then the next instruction. *)
Definition raw_meta (m : meta) : bytes := (b2z (m_signer m) + 2 * b2z (m_writable m)) :: m_key m.
Definition raw_ix (x : ix) : bytes :=
  le_enc 2 (Z.of_nat (length (ix_metas x))) ++ flat_map raw_meta (ix_metas x)
  ++ ix_prog x ++ le_enc 2 (Z.of_nat (length (ix_data x))) ++ ix_data x.
Definition raw_from (cx : ctx) (i : nat) : bytes :=
  flat_map raw_ix (skipn i (c_ixs cx)) ++ le_enc 2 (Z.of_nat (c_cur cx)).
(** [get_account_meta_at_unchecked(j).key]: no bound check against the count *)
Definition raw_meta_key (cx : ctx) (i j : nat) : bytes := sub (2 + 33 * j + 1) 32 (raw_from cx i).
(** the two bytes at the start of the instruction *data* (programexec/mod.rs:296-298);
    for data shorter than two bytes the read continues into what follows *)
Definition raw_data_head (cx : ctx) (i : nat) (x : ix) : Z :=
  le (sub 0 2 (ix_data x ++ raw_from cx (S i))).

(** programexec/mod.rs:240-346 [program_exec_authenticate] *)
Definition program_exec_authenticate (cx : ctx) (payload pid prefix : bytes) (plen : nat) : res unit :=
  let* sv := ok_or (nth_error (c_metas cx) (nat_of (byte_at 0 payload))) AInvalidAuthorityPayload in
  check (beq (m_key sv) INSTRUCTIONS_ID) AProgramExecInvalidInstruction ;;
  let* cfg := ok_or (nth_error (c_metas cx) 0) AInvalidAuthorityPayload in
  let* wal := ok_or (nth_error (c_metas cx) 1) AInvalidAuthorityPayload in
  let* i := if (length payload =? 2)%nat then
              let t := nat_of (byte_at 1 payload) in
              check (t <? c_cur cx)%nat AProgramExecInvalidInstruction ;; Ok t
            else
              check (negb (c_cur cx =? 0)%nat) AProgramExecInvalidInstruction ;;
              Ok (c_cur cx - 1)%nat in
  match find_ix cx i with
  | None => Panic
  | Some x =>
    check (2 <=? raw_data_head cx i x) AProgramExecInvalidInstructionData ;;
    check (beq (ix_prog x) pid) AProgramExecInvalidProgram ;;
    check (plen <=? length (ix_data x))%nat AProgramExecInvalidInstructionData ;;
    guard (plen <=? length prefix)%nat ;;
    check (beq (sub 0 plen (ix_data x)) (sub 0 plen prefix)) AProgramExecInvalidInstructionData ;;
    check (beq (raw_meta_key cx i 0) (m_key cfg)) AProgramExecInvalidConfigAccount ;;
    check (beq (raw_meta_key cx i 1) (m_key wal)) AProgramExecInvalidWalletAccount
  end.

(** ** [AuthorityInfo::authenticate] (root credential), by authority type *)
Definition authenticate (E : env) (cx : ctx) (ty : Z) (auth payload data : bytes) : res bytes :=
  if (ty =? T_Ed25519) || (ty =? T_Ed25519Session) then
    check (length payload =? 1)%nat AInvalidAuthorityPayload ;;
    ed25519_authenticate (c_metas cx) (byte_at 0 payload) (sub 0 32 auth) ;;
    Ok auth
  else if (ty =? T_Secp256k1) || (ty =? T_Secp256k1Session) then
    secp256k1_auth E auth payload data (c_slot cx) (c_metas cx)
  else if (ty =? T_Secp256r1) || (ty =? T_Secp256r1Session) then
    secp256r1_auth E cx auth payload data
  else if (ty =? T_ProgramExec) || (ty =? T_ProgramExecSession) then
    check (negb (length payload =? 0)%nat && (length payload <=? 2)%nat) AInvalidAuthorityPayload ;;
    program_exec_authenticate cx payload (sub 0 32 auth) (sub 40 40 auth) (nat_of (byte_at 32 auth)) ;;
    Ok auth
  else Err PInvalidAccountData.

(** Offsets of (session_key, max_session_length, current_session_expiration) *)
Definition session_offsets (ty : Z) : option (nat * nat * nat) :=
  if ty =? T_Ed25519Session then Some (32, 64, 72)%nat
  else if (ty =? T_Secp256k1Session) || (ty =? T_Secp256r1Session) then Some (40, 72, 80)%nat
  else if ty =? T_ProgramExecSession then Some (80, 112, 120)%nat
  else None.

(** ** [AuthorityInfo::authenticate_session]: ed25519.rs:268-286,
    secp256k1.rs:294-309 (no length check: panics on an empty payload),
    secp256r1.rs:319-340, programexec/session.rs:229-247 *)
Definition authenticate_session (cx : ctx) (ty : Z) (auth payload : bytes) : res unit :=
  match session_offsets ty with
  | None => Err ANoSessionSupport
  | Some (ko, _, eo) =>
    (if (ty =? T_Ed25519Session) || (ty =? T_ProgramExecSession) then
       check (length payload =? 1)%nat AInvalidAuthorityPayload
     else if ty =? T_Secp256r1Session then
       check (negb (length payload =? 0)%nat) AInvalidAuthorityPayload
     else Ok tt) ;;
    check (c_slot cx <=? u64_at eo auth) ASessionExpired ;;
    guard (negb (length payload =? 0)%nat) ;;
    ed25519_authenticate (c_metas cx) (byte_at 0 payload) (sub ko 32 auth)
  end.

(** ** [AuthorityInfo::start_session]: ed25519.rs:254-266, secp256k1.rs:311-324,
    secp256r1.rs:342-355, programexec/session.rs:215-227.
    [current_slot + duration] wraps in a release build. *)
Definition start_session (ty : Z) (auth skey : bytes) (slot duration : Z) : res bytes :=
  match session_offsets ty with
  | None => Err ANoSessionSupport
  | Some (ko, mo, eo) =>
    check (duration <=? u64_at mo auth) AInvalidSessionDuration ;;
    Ok (splice ko skey (splice eo (le_enc 8 ((slot + duration) mod U64)) auth))
  end.

(** The pattern used by every handler except CreateSession:
    [if session_based { authenticate_session } else { authenticate }]. *)
Definition role_authenticate (E : env) (cx : ctx) (ty : Z) (auth payload data : bytes) : res bytes :=
  if session_based ty then authenticate_session cx ty auth payload ;; Ok auth
  else authenticate E cx ty auth payload data.
