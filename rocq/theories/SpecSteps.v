(** * What one instruction may do to a wallet configuration.

    Written in terms of configurations ([SpecConfig]), not of bytes.  The
    instruction data is cut into the part a credential signs and the part that
    carries the authentication payload. *)
From Verif Require Export Env Actions Authority SpecConfig.

(** Role [rid] of [s] is [r]; it authenticated over the signed bytes [sdata]
    with the authentication payload [payload]; [s1] is [s] with that role's
    credential bytes (its signature counter) updated, nothing else. *)
Definition acting (E : env) (cx : ctx) (s : config) (rid : Z) (payload sdata : bytes)
  (r : role) (s1 : config) : Prop :=
  find_role rid s = Some r
  /\ exists auth, role_authenticate E cx (r_aty r) (r_auth r) payload sdata = Ok auth
     /\ s1 = on_role rid (fun r => with_auth r auth) s.

(** The same where the first [n] bytes of the instruction data are signed and
    the rest is the authentication payload *)
Definition acts_as (E : env) (cx : ctx) (s : config) (rid : Z) (n : nat) (r : role) (s1 : config) : Prop :=
  (n <= length (c_data cx))%nat
  /\ acting E cx s rid (skipn n (c_data cx)) (firstn n (c_data cx)) r s1.

Definition can_manage (r : role) : bool := has P_All [] r || has P_ManageAuthority [] r.
Definition can_replace (target : Z) (r : role) : bool :=
  has P_All [] r || has P_ManageAuthority [] r || has P_ReplaceAuthority (le_enc 4 target) r.
Definition can_claim (r : role) : bool := has P_All [] r || has P_CloseSwigAuthority [] r.
Definition can_close (r : role) : bool :=
  has P_All [] r || has P_ManageAuthority [] r || has P_CloseSwigAuthority [] r.

(** [nr] appended, the role counter advanced *)
Definition add_to (s : config) (nr : role) : config :=
  mk_config (s_bump s) (s_id s) (s_counter s + 1) (s_wbump s) (s_pad s) (s_subctr s)
    (s_roles s ++ [nr]) (s_claimer s).
Definition set_claimer (s : config) (k : key) : config :=
  mk_config (s_bump s) (s_id s) (s_counter s) (s_wbump s) (s_pad s) (s_subctr s) (s_roles s) (Some k).
Definition set_subctr (s : config) (n : Z) : config :=
  mk_config (s_bump s) (s_id s) (s_counter s) (s_wbump s) (s_pad s) n (s_roles s) (s_claimer s).
Definition migrated (s : config) (wbump : Z) : config :=
  mk_config (s_bump s) (s_id s) (s_counter s) wbump (zeros 3) 0 (s_roles s) (s_claimer s).
(** the first permission of kind [ty] matching [q] replaced by [p'] *)
Fixpoint set_first (ty : Z) (q p' : bytes) (l : list action) : list action :=
  match l with
  | [] => []
  | a :: t => if (ac_ty a =? ty) && action_matches ty q (ac_data a) then mk_action ty p' :: t
              else a :: set_first ty q p' t
  end.
Fixpoint first_of (ty : Z) (q : bytes) (l : list action) : option bytes :=
  match l with
  | [] => None
  | a :: t => if (ac_ty a =? ty) && action_matches ty q (ac_data a) then Some (ac_data a)
              else first_of ty q t
  end.

(** There is room for [n] more roles: the on-chain counters do not wrap *)
Definition room (n : Z) (s : config) : Prop :=
  s_counter s + n < U32 /\ Z.of_nat (length (s_roles s)) + n < U16.

(** UpdateAuthorityV1 arguments: data from byte 16; when byte 4 is zero the first
    argument byte selects the operation, otherwise (old clients) it is replace *)
Definition update_op (data : bytes) : Z * bytes :=
  let opdata := sub 16 (nat_of (u16_at 2 data)) data in
  if (byte_at 4 data =? 0) && negb (length opdata =? 0)%nat
  then (byte_at 0 opdata, skipn 1 opdata) else (0, opdata).

(** Permission [p] (or the all-powers permission) for V2 sub-account [id] *)
Definition scoped (p id : Z) (r : role) : bool :=
  has p (le_enc 4 id) r || has P_SubAccountV2All (le_enc 4 id) r.
(** the all-powers permission for V2 sub-account [id] *)
Definition all_powers (id : Z) : action := mk_action P_SubAccountV2All (le_enc 4 id ++ zeros 4).
(** The layout version a wallet must have for V2 instructions *)
Definition is_v2 (s : config) : Prop := s_wbump s <> 0 /\ s_pad s = zeros 3.

(** ** Contexts: instruction data are bytes, account addresses are 32 bytes *)
Definition wf_meta (m : meta) : Prop := wf_key (m_key m).
Definition wf_ctx (cx : ctx) : Prop := all_bytes (c_data cx) /\ Forall wf_meta (c_metas cx).
