(** * Who acts in an instruction *)
From Verif Require Export SpecAuth SpecWorld SpecHistory.

(** Role [r] of [s] is the one named in the instruction and may act: CreateSession
    needs the root credential, every other instruction follows [may_act] *)
Definition acts (E : env) (cx : ctx) (s : config) (r : role) : Prop :=
  let data := c_data cx in
  find_role (actor_of data) s = Some r
  /\ exists a', (if tag data =? 5 then approves else may_act) E cx (r_aty r) (r_auth r)
                  (payload_of data) (signed_of data) a'.

(** Role [r] acts by a signature of its secp256k1 or secp256r1 key: a plain role
    always, a session role when it opens a session *)
Definition by_counter (cx : ctx) (r : role) : Prop :=
  is_secp (r_aty r) = true /\ is_session (r_aty r) = (tag (c_data cx) =? 5).

(** [s] with the signature counter of role [i] moved by one, if it has one *)
Definition used (i : Z) (s : config) : config := on_role i after_use s.

(** The configuration account of an instruction is its first account *)
Definition acct (cx : ctx) (i : nat) : key := mkey (c_metas cx) i.

(** a successful call of the wallet program *)
Definition succeeds (E : env) (cx : ctx) (w w' : world) : Prop := process E cx w = Ok w'.

(** all accounts but [k] keep data, owner and - up to payments by and to other
    accounts - everything else *)
Definition others_kept (w w' : world) (k : key) : Prop := forall k', k' <> k -> kept_acct (w k') (w' k').

(** ** Permissions, by number: 7 All, 8 ManageAuthority, 20 CloseSwigAuthority,
    21 ReplaceAuthority (for one role), 22 SubAccountV2Create, 23 to 26
    SubAccountV2All / Sign / Withdraw / Toggle (for one sub-account) *)
Definition holds (p : Z) (r : role) : Prop := exists a, In a (r_acts r) /\ ac_ty a = p.
Definition holds_for (p n : Z) (r : role) : Prop :=
  exists a, In a (r_acts r) /\ ac_ty a = p /\ le (firstn 4 (ac_data a)) = n.
Definition manager (r : role) : Prop := holds 7 r \/ holds 8 r.

(** What a permission is about: the program, mint, destination, account, role
    or sub-account it names; kinds that name nothing have an empty target *)
Definition target_of (a : action) : bytes :=
  let t := ac_ty a in
  if (t =? 3) || (t =? 5) || (t =? 6) || (t =? 9) || (t =? 16) || (t =? 17) then firstn 32 (ac_data a)
  else if t =? 4 then sub 80 32 (ac_data a)
  else if (t =? 18) || (t =? 19) then firstn 64 (ac_data a)
  else if (t =? 21) || (t =? 23) || (t =? 24) || (t =? 25) || (t =? 26) then firstn 4 (ac_data a)
  else [].
(** length of the target, by kind *)
Definition target_len (p : Z) : nat :=
  if existsb (Z.eqb p) [3; 4; 5; 6; 9; 16; 17] then 32%nat
  else if existsb (Z.eqb p) [18; 19] then 64%nat
  else if existsb (Z.eqb p) [21; 23; 24; 25; 26] then 4%nat else 0%nat.
(** [a] is a permission of kind [p] about [q]; a sub-account permission (9)
    without target is one whose sub-account does not exist yet *)
Definition answers (p : Z) (q : bytes) (a : action) : Prop :=
  ac_ty a = p /\ (target_of a = q \/ (p = 9 /\ q = [] /\ target_of a = zeros 32)).

(** The result of looking up a permission of kind [p], with payload length [n],
    about [q]: the place of the payload of the first one, or nothing *)
Definition finds (p : Z) (q : bytes) (r : role) (n : nat) (res : Base.res (option nat)) : Prop :=
  (res = Ok None /\ forall a, In a (r_acts r) -> ~ answers p q a)
  \/ exists o before a after, res = Ok (Some o) /\ r_acts r = before ++ a :: after
       /\ (forall b, In b before -> ~ answers p q b) /\ answers p q a
       /\ sub o n (enc_actions 0 (r_acts r)) = ac_data a.

(** ** Sizes.  The permission kinds with the length of their payload, and the
    credential types with the length of their stored form *)
Definition kinds : list (Z * Z) :=
  [(1, 8); (2, 32); (3, 32); (4, 144); (5, 40); (6, 64); (7, 0); (8, 0); (9, 72); (10, 8); (11, 32); (12, 0);
   (13, 0); (14, 32); (15, 0); (16, 40); (17, 64); (18, 72); (19, 96); (20, 0); (21, 8); (22, 0); (23, 8);
   (24, 8); (25, 8); (26, 8)].
Definition credentials : list (Z * Z) :=
  [(1, 32); (2, 80); (3, 40); (4, 88); (5, 40); (6, 88); (7, 80); (8, 128)].

(** ** A permission as it is first given: a recurring limit with its full amount
    and no period started (those with a destination: at most the full amount, and
    a period that is not 0), a V1 sub-account permission without sub-account *)
Definition unspent (a : action) : Prop :=
  let d := ac_data a in
  (In (ac_ty a) [2; 11] -> sub 24 8 d = sub 0 8 d /\ sub 16 8 d = zeros 8)
  /\ (ac_ty a = 6 -> sub 48 8 d = sub 40 8 d /\ sub 56 8 d = zeros 8)
  /\ (ac_ty a = 17 -> u64_at 40 d <> 0 /\ u64_at 56 d <= u64_at 32 d)
  /\ (ac_ty a = 19 -> u64_at 72 d <> 0 /\ u64_at 88 d <= u64_at 64 d)
  /\ (ac_ty a = 9 -> sub 0 32 d = zeros 32).

(** ** A rotated credential: new key, signature counter 0, no session; the
    maximal session length stays *)
Definition new_key (ty : Z) (c : bytes) : bytes := if (ty =? 1) || (ty =? 2) then c else key33 c.
Definition rotated (ty : Z) (a pk : bytes) : bytes :=
  if ty =? 1 then pk
  else if ty =? 2 then pk ++ zeros 32 ++ sub 64 8 a ++ zeros 8
  else if (ty =? 3) || (ty =? 5) then pk ++ sub 33 3 a ++ zeros 4
  else pk ++ sub 33 3 a ++ zeros 4 ++ zeros 32 ++ sub 72 8 a ++ zeros 8.

(** What a program-execution role must additionally show to rotate the key of
    role [target] from [cur] to [new]: an earlier instruction of the transaction
    whose data is the text rplauth1 and the hash of the replacement, and whose
    first two accounts are configuration and wallet *)
Definition proof_tag : bytes := [114; 112; 108; 97; 117; 116; 104; 49].
(* swig-replace-authority-v1 *)
Definition proof_domain : bytes :=
  [115; 119; 105; 103; 45; 114; 101; 112; 108; 97; 99; 101; 45; 97; 117; 116; 104; 111; 114; 105; 116; 121; 45; 118; 49].
Definition replacement_shown (E : env) (cx : ctx) (actor target ty : Z) (cur new : bytes) : Prop :=
  exists i x m0 m1 rest, (i < c_cur cx)%nat /\ nth_error (c_ixs cx) i = Some x
    /\ ix_metas x = m0 :: m1 :: rest /\ m_key m0 = acct cx 0 /\ m_key m1 = acct cx 1
    /\ ix_data x = proof_tag ++ sha256 E (proof_domain ++ acct cx 0 ++ acct cx 1
         ++ le_enc 4 actor ++ le_enc 4 target ++ le_enc 2 ty ++ cur ++ new).
