(** * What it takes to act for a role.

    The eight credential types, described without reference to the code that
    checks them.  Stored credentials are byte strings; the parts used here:
    - 1 Ed25519: the 32-byte key;
    - 3 secp256k1, 5 secp256r1: 33-byte compressed key at 0, signature counter
      (4 bytes) at 36;
    - 7 program execution: program at 0, prefix length at 32, prefix at 40;
    - 2, 4, 6, 8: the same followed by session key (32 bytes), maximal session
      length (8) and current session end (8). *)
From Verif Require Export SpecConfig Env.

(** [k] signed the transaction, as far as this instruction sees *)
Definition signed_by (cx : ctx) (k : key) : Prop :=
  exists m, In m (c_metas cx) /\ m_key m = k /\ m_signer m = true.

Definition cred_key (a : bytes) : bytes := firstn 33 a.
Definition cred_counter (a : bytes) : Z := le (sub 36 4 a).
(** the credential after one more accepted signature *)
Definition next_counter (a : bytes) : Z := (cred_counter a + 1) mod 2 ^ 32.
Definition count_up (a : bytes) : bytes := firstn 36 a ++ le_enc 4 (next_counter a) ++ skipn 40 a.

Definition is_session (ty : Z) : bool := (ty =? 2) || (ty =? 4) || (ty =? 6) || (ty =? 8).
Definition is_secp (ty : Z) : bool := (ty =? 3) || (ty =? 4) || (ty =? 5) || (ty =? 6).
Definition session_at (ty : Z) : nat :=
  if ty =? 2 then 32%nat else if (ty =? 4) || (ty =? 6) then 40%nat else 80%nat.
Definition session_key (ty : Z) (a : bytes) : key := sub (session_at ty) 32 a.
Definition session_max (ty : Z) (a : bytes) : Z := le (sub (session_at ty + 32) 8 a).
Definition session_end (ty : Z) (a : bytes) : Z := le (sub (session_at ty + 40) 8 a).
(** the credential with a new session *)
Definition with_session (ty : Z) (k : key) (fin : Z) (a : bytes) : bytes :=
  firstn (session_at ty) a ++ k ++ sub (session_at ty + 32) 8 a ++ le_enc 8 fin.

(** The role after its root credential was used: signature counter moved *)
Definition after_use (r : role) : role :=
  if (r_aty r =? 3) || (r_aty r =? 5) then with_auth r (count_up (r_auth r)) else r.

(** A signature made at slot [t] is used at slot [now], at most 60 slots later *)
Definition in_time (now t : Z) : Prop := t <= now <= t + 60.

(** The hash functions return 32 bytes *)
Definition hashes_ok (E : env) : Prop := forall x,
  length (sha256 E x) = 32%nat /\ all_bytes (sha256 E x)
  /\ length (keccak E x) = 32%nat /\ all_bytes (keccak E x).

(** ** The message a secp256k1 or secp256r1 signature commits to: instruction
    payload, every account with its flags, slot and counter *)
Definition account_line (m : meta) : bytes :=
  m_key m ++ [if m_writable m then 1 else 0; if m_signer m then 1 else 0; 0; 0; 0; 0; 0; 0].
Definition request (data : bytes) (ms : list meta) (slot counter : Z) : bytes :=
  data ++ concat (map account_line ms) ++ le_enc 8 slot ++ le_enc 4 counter.

(** lower-case hexadecimal *)
Definition hex_char (n : Z) : Z := if n <? 10 then 48 + n else 97 + (n - 10).
Definition hex (l : bytes) : bytes := concat (map (fun b => [hex_char (b / 16); hex_char (b mod 16)]) l).

(** a curve point x,y (64 bytes) in compressed form *)
Definition compressed (p : bytes) : bytes := (if Z.even (nth 63 p 0) then 2 else 3) :: firstn 32 p.

(** ** secp256k1: [payload] carries slot, counter, a 64-byte signature with
    recovery byte, and a text prefix; the signature recovers to the stored key
    for the hash of prefix and hexadecimal request digest *)
Definition k1_signed (E : env) (cx : ctx) (pk payload data : bytes) (t c : Z) : Prop :=
  exists sig v prefix public,
    payload = le_enc 8 t ++ le_enc 4 c ++ sig ++ [v] ++ prefix /\ length sig = 64%nat
    /\ 0 <= t < 2 ^ 64 /\ 0 <= c < 2 ^ 32
    /\ recover E (keccak E (prefix ++ hex (sha256 E (request data (c_metas cx) t c))))
         (if v =? 27 then 0 else 1) sig = Some public
    /\ compressed public = pk.

(** ** secp256r1: the precompile instruction [d] asks the runtime to verify one
    signature, everything taken from [d] itself, by [pk] over [msg] *)
Definition verifies_one (d pk msg : bytes) : Prop :=
  nth 0 d 0 = 1
  /\ le (sub 4 2 d) = 65535 /\ le (sub 8 2 d) = 65535 /\ le (sub 14 2 d) = 65535
  /\ sub (Z.to_nat (le (sub 6 2 d))) 33 d = pk
  /\ le (sub 12 2 d) = Z.of_nat (length msg)
  /\ sub (Z.to_nat (le (sub 10 2 d))) (length msg) d = msg.

(** the instruction right before this one in the transaction *)
Definition previous (cx : ctx) (x : ix) : Prop :=
  (0 < c_cur cx)%nat /\ nth_error (c_ixs cx) (c_cur cx - 1) = Some x.

(** [sub'] occurs in [l] *)
Definition occurs (s l : bytes) : Prop := exists a b, l = a ++ s ++ b.

(** base64url without padding: groups of six bits *)
Definition b64_alphabet : bytes :=
  [65;66;67;68;69;70;71;72;73;74;75;76;77;78;79;80;81;82;83;84;85;86;87;88;89;90;
   97;98;99;100;101;102;103;104;105;106;107;108;109;110;111;112;113;114;115;116;117;118;119;120;121;122;
   48;49;50;51;52;53;54;55;56;57;45;95].
Fixpoint b64url (l : bytes) : bytes :=
  let c n := nth (Z.to_nat n) b64_alphabet 0 in
  match l with
  | [] => []
  | [x] => [c (x / 4); c (x * 16 mod 64)]
  | [x; y] => let v := x * 256 + y in [c (v / 1024); c (v / 16 mod 64); c (v * 4 mod 64)]
  | x :: y :: z :: t => let v := x * 65536 + y * 256 + z in
      c (v / 262144) :: c (v / 4096 mod 64) :: c (v / 64 mod 64) :: c (v mod 64) :: b64url t
  end.

(** The message over which the precompile must have verified the signature:
    the digest itself, or authenticator data followed by the hash of a client
    data JSON text that carries the digest as its challenge *)
Definition quoted (s : bytes) : bytes := [34] ++ s ++ [34].
Definition spaces (l : bytes) : Prop := Forall (fun b => In b [9; 10; 12; 13; 32]) l.
(* name : value, with optional white space around the colon *)
Definition json_pair (name value : bytes) (text : bytes) : Prop :=
  exists s1 s2, spaces s1 /\ spaces s2 /\ occurs (quoted name ++ s1 ++ [58] ++ s2 ++ quoted value) text.
(* challenge, type, webauthn.get *)
Definition n_challenge : bytes := [99; 104; 97; 108; 108; 101; 110; 103; 101].
Definition n_type : bytes := [116; 121; 112; 101].
Definition v_get : bytes := [119; 101; 98; 97; 117; 116; 104; 110; 46; 103; 101; 116].
(* the usual client data starts with an object of type webauthn.get, whose second member is the challenge *)
Definition usual_start : bytes :=
  [123] ++ quoted n_type ++ [58] ++ quoted v_get ++ [44] ++ quoted n_challenge ++ [58; 34].
Definition r1_signs (E : env) (digest msg : bytes) : Prop :=
  msg = digest
  \/ exists authdata json, msg = authdata ++ sha256 E json
       /\ json_pair n_challenge (b64url digest) json /\ json_pair n_type v_get json
       /\ (forall rest, json = usual_start ++ rest -> exists tl, rest = b64url digest ++ [34] ++ tl).

Definition r1_signed (E : env) (cx : ctx) (pk payload data : bytes) (t c : Z) : Prop :=
  exists rest x msg, payload = le_enc 8 t ++ le_enc 4 c ++ rest
    /\ 0 <= t < 2 ^ 64 /\ 0 <= c < 2 ^ 32
    /\ r1_signs E (keccak E (request data (c_metas cx) t c)) msg
    /\ previous cx x /\ ix_prog x = SECP256R1_ID /\ verifies_one (ix_data x) pk msg.

(** ** Program execution: an earlier instruction of the transaction called the
    registered program with the registered prefix, its first two accounts being
    the wallet's configuration account and the account in the wallet position
    (unless it had fewer than two accounts, see [C23_one_account_refuted]) *)
Definition starts_with (p l : bytes) : Prop := exists t, l = p ++ t.
Definition program_ran (cx : ctx) (a : bytes) : Prop :=
  exists i x c wl, (i < c_cur cx)%nat /\ nth_error (c_ixs cx) i = Some x
    /\ ix_prog x = firstn 32 a
    /\ starts_with (sub 40 (Z.to_nat (nth 32 a 0)) a) (ix_data x)
    /\ nth_error (c_metas cx) 0 = Some c /\ nth_error (c_metas cx) 1 = Some wl
    /\ (Forall (fun m => length (m_key m) = 32%nat) (ix_metas x) ->
        forall m0 rest, ix_metas x = m0 :: rest -> m_key m0 = m_key c
          /\ forall m1 rest', rest = m1 :: rest' -> m_key m1 = m_key wl)
    (* the code refuses data starting with the two-byte numbers 0 and 1 *)
    /\ ((2 <= length (ix_data x))%nat -> 2 <= le (firstn 2 (ix_data x))).

(** ** The root credential [a] of type [ty] approves [data]; [a'] is what is
    stored afterwards *)
Definition approves (E : env) (cx : ctx) (ty : Z) (a payload data a' : bytes) : Prop :=
  ((ty = 1 \/ ty = 2) /\ signed_by cx (firstn 32 a) /\ a' = a)
  \/ ((ty = 3 \/ ty = 4) /\ a' = count_up a
      /\ exists t, in_time (c_slot cx) t /\ k1_signed E cx (cred_key a) payload data t (next_counter a))
  \/ ((ty = 5 \/ ty = 6) /\ a' = count_up a
      /\ exists t, in_time (c_slot cx) t /\ r1_signed E cx (cred_key a) payload data t (next_counter a))
  \/ ((ty = 7 \/ ty = 8) /\ program_ran cx a /\ a' = a).

(** Who may act for a role: a plain role by its root credential; a session role
    by its session key, until the session ends *)
Definition may_act (E : env) (cx : ctx) (ty : Z) (a payload data a' : bytes) : Prop :=
  if is_session ty
  then signed_by cx (session_key ty a) /\ c_slot cx <= session_end ty a /\ a' = a
  else approves E cx ty a payload data a'.
