(** * What a wallet configuration is, independently of how handlers edit it.

    A wallet configuration is a list of roles, each with a credential and a
    list of permissions, a role-id counter, and an optional rent claimer.
    [enc_config] is the account layout the clients read; the handlers of the
    model work on raw bytes and know nothing of these records. *)
From Verif Require Import Base Actions Authority.

Record action := mk_action { ac_ty : Z; ac_data : bytes }.

Record role := mk_role
  { r_id : Z;                  (* role id *)
    r_aty : Z;                 (* credential type *)
    r_pad : bytes;             (* two unused bytes of the on-chain header *)
    r_auth : bytes;            (* credential *)
    r_acts : list action }.    (* permissions *)

Record config := mk_config
  { s_bump : Z; s_id : bytes;
    s_counter : Z;             (* next role id *)
    s_wbump : Z; s_pad : bytes;
    s_subctr : Z;              (* next sub-account id *)
    s_roles : list role;
    s_claimer : option key }.  (* rent claimer *)

(** ** Layout *)

(** An action: type, length, boundary (offset just past it), payload *)
Definition enc_action (start : nat) (a : action) : bytes :=
  le_enc 2 (ac_ty a) ++ le_enc 2 (Z.of_nat (length (ac_data a)))
  ++ le_enc 4 (Z.of_nat (start + 8 + length (ac_data a))) ++ ac_data a.
Fixpoint enc_actions (start : nat) (l : list action) : bytes :=
  match l with
  | [] => []
  | a :: t => enc_action start a ++ enc_actions (start + 8 + length (ac_data a)) t
  end.
Fixpoint acts_len (l : list action) : nat :=
  match l with [] => O | a :: t => (8 + length (ac_data a) + acts_len t)%nat end.

(** A role: type, credential length, number of actions, padding, id, boundary,
    credential, actions *)
Definition role_len (r : role) : nat := (16 + length (r_auth r) + acts_len (r_acts r))%nat.
Definition enc_role (start : nat) (r : role) : bytes :=
  le_enc 2 (r_aty r) ++ le_enc 2 (Z.of_nat (length (r_auth r)))
  ++ le_enc 2 (Z.of_nat (length (r_acts r))) ++ r_pad r ++ le_enc 4 (r_id r)
  ++ le_enc 4 (Z.of_nat (start + role_len r))
  ++ r_auth r ++ enc_actions 0 (r_acts r).
Fixpoint enc_roles (start : nat) (l : list role) : bytes :=
  match l with
  | [] => []
  | r :: t => enc_role start r ++ enc_roles (start + role_len r) t
  end.
Fixpoint roles_size (l : list role) : nat :=
  match l with [] => O | r :: t => (role_len r + roles_size t)%nat end.

(** header, 48 bytes: kind 1, bump, id, number of roles, role-id counter,
    wallet bump, padding, sub-account counter *)
Definition enc_header (s : config) : bytes :=
  [1; s_bump s] ++ s_id s ++ le_enc 2 (Z.of_nat (length (s_roles s))) ++ le_enc 4 (s_counter s)
  ++ [s_wbump s] ++ s_pad s ++ le_enc 4 (s_subctr s).
Definition enc_claimer (k : option key) : bytes :=
  match k with
  | None => []
  | Some k => [1; 1; 32; 0; 0; 0; 0; 0] ++ k
  end.
Definition enc_config (s : config) : bytes :=
  enc_header s ++ enc_roles 0 (s_roles s) ++ enc_claimer (s_claimer s).

(** ** Well-formedness *)
Definition wf_key (k : key) : Prop := length k = 32%nat /\ all_bytes k.

(** Known type, payload of the length that type has *)
Definition wf_action (a : action) : Prop :=
  action_len (ac_ty a) = Some (length (ac_data a)) /\ all_bytes (ac_data a).

(** The permissions about one V2 sub-account: which one, if any *)
Definition v2_scope (a : action) : option (Z * Z) :=
  if ac_ty a =? 22 then Some (22, 0)
  else if (23 <=? ac_ty a) && (ac_ty a <=? 26) then Some (ac_ty a, le (firstn 4 (ac_data a)))
  else None.
Fixpoint v2_scopes (l : list action) : list (Z * Z) :=
  match l with
  | [] => []
  | a :: t => match v2_scope a with Some k => k :: v2_scopes t | None => v2_scopes t end
  end.

(** Between 1 and 255 well-formed permissions, no V2 scope twice *)
Definition wf_actions (l : list action) : Prop :=
  (1 <= length l <= 255)%nat /\ Forall wf_action l /\ NoDup (v2_scopes l).

Definition wf_role (r : role) : Prop :=
  is_u32 (r_id r) /\ authority_len (r_aty r) = Some (length (r_auth r)) /\ all_bytes (r_auth r)
  /\ length (r_pad r) = 2%nat /\ all_bytes (r_pad r) /\ wf_actions (r_acts r).

Definition ids (s : config) : list Z := map r_id (s_roles s).

Definition wf_config (s : config) : Prop :=
  is_byte (s_bump s) /\ wf_key (s_id s) /\ is_u32 (s_counter s) /\ is_byte (s_wbump s)
  /\ length (s_pad s) = 3%nat /\ all_bytes (s_pad s) /\ is_u32 (s_subctr s)
  /\ Forall wf_role (s_roles s)
  /\ NoDup (ids s) /\ (forall i, In i (ids s) -> i < s_counter s)
  /\ Z.of_nat (length (s_roles s)) < 65536
  /\ Z.of_nat (length (enc_config s)) <= 10485760
  /\ (forall k, s_claimer s = Some k -> wf_key k).

(** ** Lookups and edits on configurations *)
Definition find_role (i : Z) (s : config) : option role :=
  find (fun r => r_id r =? i) (s_roles s).
Definition has (p : Z) (q : bytes) (r : role) : bool :=
  existsb (fun a => (ac_ty a =? p) && action_matches p q (ac_data a)) (r_acts r).

Definition with_roles (s : config) (l : list role) : config :=
  mk_config (s_bump s) (s_id s) (s_counter s) (s_wbump s) (s_pad s) (s_subctr s) l (s_claimer s).
Definition with_auth (r : role) (a : bytes) : role :=
  mk_role (r_id r) (r_aty r) (r_pad r) a (r_acts r).
Definition with_acts (r : role) (l : list action) : role :=
  mk_role (r_id r) (r_aty r) (r_pad r) (r_auth r) l.
(** apply [f] to the role with id [i] *)
Definition on_role (i : Z) (f : role -> role) (s : config) : config :=
  with_roles s (map (fun r => if r_id r =? i then f r else r) (s_roles s)).

(** ** Permission updates *)
Fixpoint keep_if (f : action -> Z -> bool) (i : Z) (l : list action) : list action :=
  match l with
  | [] => []
  | a :: t => if f a i then a :: keep_if f (i + 1) t else keep_if f (i + 1) t
  end.
Definition drop_types (types : list Z) (l : list action) : list action :=
  filter (fun a => negb (existsb (Z.eqb (ac_ty a)) types)) l.
(** positions counted from 0 *)
Definition drop_indices (idx : list Z) (l : list action) : list action :=
  keep_if (fun _ i => negb (existsb (Z.eqb i) idx)) 0 l.
(** the role with the given id is gone *)
Definition drop_role (i : Z) (s : config) : config :=
  with_roles s (filter (fun r => negb (r_id r =? i)) (s_roles s)).

(** ** Permission lists as a client sends them.
    [parses d l]: the bytes [d] are exactly the permissions [l], each with a
    known type and the length that type has; the boundary field is ignored. *)
Inductive parses : bytes -> list action -> Prop :=
| parses_nil : parses [] []
| parses_cons ty bnd data rest l :
    action_len ty = Some (length data) -> length bnd = 4%nat -> parses rest l ->
    parses (le_enc 2 ty ++ le_enc 2 (Z.of_nat (length data)) ++ bnd ++ data ++ rest)
           (mk_action ty data :: l).

Fixpoint u16_list (l : bytes) : list Z :=
  match l with a :: b :: t => le [a; b] :: u16_list t | _ => [] end.

(** The four permission updates: 0 replaces the whole list, 1 appends, 2 removes
    by type (one byte per type), 3 removes by position (two bytes each) *)
Definition upd_result (op : Z) (arg : bytes) (l l' : list action) : Prop :=
  (op = 0 /\ parses arg l')
  \/ (op = 1 /\ exists la, parses arg la /\ l' = l ++ la)
  \/ (op = 2 /\ l' = drop_types arg l)
  \/ (op = 3 /\ l' = drop_indices (u16_list arg) l).

(** ** Credentials of a new role.
    [new_credential ty c] is what the account stores for a new role of
    credential type [ty] created with the client bytes [c]:
    - 1 Ed25519: the key;
    - 2 Ed25519 session: key, session key, maximal duration; no expiry yet;
    - 3, 5 secp256k1, secp256r1: compressed key, signature counter 0;
    - 4, 6 their session variants: the same, then session key and maximal
      duration; no expiry yet;
    - 7 program execution: program, prefix length, prefix;
    - 8 its session variant: the same, then session key and maximal duration;
      no expiry yet.
    A secp256k1 key may come uncompressed (64 bytes). *)
Definition key33 (c : bytes) : bytes :=
  if (length c =? 33)%nat then c
  else (if Z.even (nth 63 c 0) then 2 else 3) :: firstn 32 c.
Definition new_credential (ty : Z) (c : bytes) : bytes :=
  match ty with
  | 1 => c
  | 2 => c ++ zeros 8
  | 3 | 5 => key33 c ++ zeros 7
  | 4 => key33 (if forallb (Z.eqb 0) (sub 33 31 c) then sub 0 33 c else sub 0 64 c) ++ zeros 7
         ++ sub 64 40 c ++ zeros 8
  | 6 => sub 0 33 c ++ zeros 7 ++ sub 40 40 c ++ zeros 8
  | 7 => let n := Z.to_nat (nth 32 c 0) in sub 0 33 c ++ zeros 7 ++ sub 40 n c ++ zeros (40 - n)
  | 8 => sub 0 33 c ++ zeros 7 ++ sub 40 80 c ++ zeros 8
  | _ => []
  end.
(** A program-execution credential (types 7 and 8) names a program other than the
    wallet program and a prefix of at most 40 bytes. *)
Definition exec_outside (r : role) : Prop :=
  r_aty r = 7 \/ r_aty r = 8 -> firstn 32 (r_auth r) <> SELF /\ nth 32 (r_auth r) 0 <= 40.
