(** * What one instruction may do to the accounts of the wallet program.

    Written in terms of configurations; handlers and byte edits do not appear. *)
From Verif Require Export SpecSteps Program.

(** ** Who acts, and what they sign.
    For every instruction: the id of the acting role, the part of the
    instruction data handed to the credential check as the signed message, and
    the part handed over as the authentication payload. *)
Definition tag (data : bytes) : Z := u16_at 0 data.
Definition arg_len (data : bytes) : nat := nat_of (u16_at 2 data).

(** (role id field offset, start of the signed bytes, end of the signed bytes) *)
Definition auth_layout (data : bytes) : option (nat * nat * nat) :=
  let t := tag data in
  if t =? 1 then Some (12, 0, 16 + arg_len data + nat_of (u16_at 4 data))%nat      (* add authority *)
  else if t =? 2 then Some (8, 0, 16)%nat                                          (* remove authority *)
  else if t =? 3 then Some (8, 0, 16 + arg_len data)%nat                           (* update authority *)
  else if t =? 5 then Some (4, 0, 48)%nat                                          (* create session *)
  else if t =? 6 then Some (4, 0, 16)%nat                                          (* create sub-account *)
  else if t =? 7 then Some (4, 0, 16)%nat                                          (* withdraw from sub-account *)
  else if t =? 9 then Some (4, 16, 16 + arg_len data)%nat                          (* sub-account sign *)
  else if t =? 10 then Some (12, 0, 16)%nat                                        (* toggle sub-account *)
  else if t =? 11 then Some (4, 8, 8 + arg_len data)%nat                           (* sign *)
  else if t =? 12 then Some (4, 0, 8)%nat                                          (* migrate *)
  else if t =? 13 then Some (4, 0, 8)%nat                                          (* transfer assets *)
  else if t =? 14 then Some (4, 0, 8)%nat                                          (* close token account *)
  else if t =? 15 then Some (4, 0, 8)%nat                                          (* close wallet *)
  else if t =? 16 then Some (4, 0, 16 + nat_of (u16_at 12 data))%nat               (* replace authority *)
  else if t =? 17 then Some (4, 0, 40)%nat                                         (* set rent claimer *)
  else if t =? 18 then Some (4, 0, 16)%nat                                         (* create sub-account V2 *)
  else if t =? 19 then Some (4, 0, 16)%nat                                         (* toggle sub-account V2 *)
  else if t =? 20 then Some (4, 0, 16 + arg_len data)%nat                          (* sub-account sign V2 *)
  else if t =? 21 then Some (4, 0, 24)%nat                                         (* withdraw from sub-account V2 *)
  else None.                                                                       (* create: nobody *)

Definition actor_of (data : bytes) : Z :=
  match auth_layout data with Some (o, _, _) => u32_at o data | None => 0 end.
Definition signed_of (data : bytes) : bytes :=
  match auth_layout data with Some (_, b, e) => sub b (e - b) data | None => [] end.
Definition payload_of (data : bytes) : bytes :=
  match auth_layout data with Some (_, _, e) => skipn e data | None => [] end.

(** Role [r] of [s] authenticated for the instruction in [cx]; [s1] is [s] with
    that role's signature counter updated *)
Definition acted (E : env) (cx : ctx) (s : config) (r : role) (s1 : config) : Prop :=
  acting E cx s (actor_of (c_data cx)) (payload_of (c_data cx)) (signed_of (c_data cx)) r s1.

(** Who may withdraw from the V1 sub-account [sa], and which (role, bump) the
    program then signs for: the permission record of the acting role, or - for a
    role with All or ManageAuthority and no such record - the first of the role
    ids 0 to 10 whose canonical sub-account address is [sa] *)
Definition v1_signs (E : env) (s : config) (rid : Z) (r : role) (sa : key) (srole sbump : Z) : Prop :=
  (exists p, first_of P_SubAccount sa (r_acts r) = Some p /\ sa_swig_id p = s_id s /\ sa_role p = rid
     /\ sa_enabled p <> 0 /\ srole = rid /\ sbump = sa_bump p)
  \/ (first_of P_SubAccount sa (r_acts r) = None /\ can_manage r = true
      /\ (has P_ManageAuthority [] r = true -> fst (find_pda E (seeds_sub0 (s_id s) rid)) = sa)
      /\ 0 <= srole <= 10 /\ find_pda E (seeds_sub0 (s_id s) srole) = (sa, sbump)).

(** What a role must find in the state record of an enabled V2 sub-account *)
Definition v2_enabled_for (E : env) (w : world) (s : config) (state sa : key) (id : Z) : Prop :=
  let rd := a_data (w state) in
  a_owner (w state) = SELF /\ length rd = V2_LEN /\ byte_at 0 rd = D_SubV2 /\ v2_enabled rd = 1
  /\ v2_swig_id rd = s_id s /\ v2_id rd = id /\ v2_key rd = sa
  /\ pda E (seeds_v2_state (s_id s) id (v2_bump rd)) = Some state.

(** ** Charging a limit *)
Definition limit_run (ty : Z) (p : bytes) (amt slot : Z) : res bytes :=
  if (ty =? P_SolLimit) || (ty =? P_StakeLimit) then sol_limit_bytes p amt
  else if (ty =? P_SolRecurringLimit) || (ty =? P_StakeRecurringLimit) then sol_recurring_bytes p amt slot
  else if ty =? P_TokenLimit then token_limit_bytes p amt
  else if ty =? P_TokenRecurringLimit then token_recurring_bytes p amt slot
  else if ty =? P_SolDestinationLimit then sol_dest_bytes p amt
  else if ty =? P_SolRecurringDestinationLimit then sol_rec_dest_bytes p amt slot
  else if ty =? P_TokenDestinationLimit then token_dest_bytes p amt
  else if ty =? P_TokenRecurringDestinationLimit then token_rec_dest_bytes p amt slot
  else if ty =? P_ProgramScope then scope_bytes p amt slot
  else Err AMissingPermission.
(** [p'] is the permission payload [p] after some charges at [slot] *)
Inductive charged (ty slot : Z) : bytes -> bytes -> Prop :=
| charged_refl p : charged ty slot p p
| charged_step p p1 p2 amt :
    charged ty slot p p1 -> 0 <= amt -> limit_run ty p1 amt slot = Ok p2 -> charged ty slot p p2.
Definition charged_act (slot : Z) (a a' : action) : Prop :=
  ac_ty a' = ac_ty a /\ charged (ac_ty a) slot (ac_data a) (ac_data a').

(** ** Changes to a configuration *)
Section Step.
Variables (E : env) (cx : ctx) (k : key).
Notation data := (c_data cx).
Notation ms := (c_metas cx).
Notation t := (tag (c_data cx)).

(** The acting role [r] of [s] turns [s1] ([s] after authentication) into [s'] *)
Inductive edit (w : world) (s : config) (r : role) (s1 : config) : config -> Prop :=
| ed_use : In t [7; 9; 11; 13; 14; 19; 20; 21] -> edit w s r s1 s1
| ed_add nr : t = 1 -> can_manage r = true ->
    r_id nr = s_counter s -> r_aty nr = u16_at 6 data ->
    r_auth nr = new_credential (r_aty nr) (sub 16 (arg_len data) data) -> r_pad nr = zeros 2 ->
    parses (sub (16 + arg_len data) (nat_of (u16_at 4 data)) data) (r_acts nr) -> exec_outside nr ->
    edit w s r s1 (add_to s1 nr)
| ed_remove tr : t = 2 -> let target := u32_at 12 data in
    can_manage r = true \/ r_id r = target -> target <> 0 -> find_role target s = Some tr ->
    edit w s r s1 (drop_role target s1)
| ed_update tr l' : t = 3 -> can_manage r = true -> let target := u32_at 12 data in
    find_role target s1 = Some tr ->
    upd_result (fst (update_op data)) (snd (update_op data)) (r_acts tr) l' -> wf_actions l' ->
    edit w s r s1 (on_role target (fun r => with_acts r l') s1)
| ed_replace tr pk : t = 16 -> let target := u32_at 8 data in can_replace target r = true ->
    find_role target s1 = Some tr ->
    normalize_signer (r_aty tr) (sub 16 (nat_of (u16_at 12 data)) data) = Ok pk ->
    sub 0 (length pk) (r_auth tr) <> pk ->
    (r_aty r = T_ProgramExec -> exists wal, load_proof E cx (payload_of data)
       = Ok (wal, proof_hash E k wal (actor_of data) target (r_aty tr) (sub 0 (length pk) (r_auth tr)) pk)) ->
    edit w s r s1 (on_role target (fun r => with_auth r (replaced_authority (r_aty tr) (r_auth tr) pk)) s1)
| ed_claimer : t = 17 -> let c := sub 8 32 data in can_claim r = true -> s_claimer s = None ->
    c <> zeros 32 -> c <> k -> pda E (seeds_wallet k (s_wbump s)) <> Some c ->
    edit w s r s1 (set_claimer s1 c)
| ed_migrate : t = 12 -> can_manage r = true ->
    pda E (seeds_wallet k (byte_at 2 data)) = Some (mkey ms 3) ->
    a_owner (w (mkey ms 3)) = SYSTEM -> a_data (w (mkey ms 3)) = [] ->
    edit w s r s1 (migrated s1 (byte_at 2 data))
| ed_sub_v1 old : t = 6 -> let sa := mkey ms 2 in let bump := byte_at 8 data in
    first_of P_SubAccount [] (r_acts r) = Some old ->
    pda E (seeds_sub (s_id s) (r_id r) bump) = Some sa ->
    edit w s r s1 (on_role (r_id r) (fun r0 => with_acts r0
      (set_first P_SubAccount [] (sa ++ [bump; 1] ++ sub 34 2 old ++ le_enc 4 (r_id r) ++ s_id s) (r_acts r))) s1)
| ed_toggle_v1 tr old : t = 10 -> let sa := mkey ms 2 in let rid := u32_at 8 data in
    r_id r = rid \/ can_manage r = true ->
    find_role rid s1 = Some tr -> first_of P_SubAccount sa (r_acts tr) = Some old ->
    edit w s r s1 (on_role rid (fun r0 => with_acts r0
      (set_first P_SubAccount sa (splice 33 [byte_at 2 data] old) (r_acts tr))) s1)
| ed_sub_v2 : t = 18 -> let id := s_subctr s in
    has P_SubAccountV2Create [] r = true -> is_v2 s -> id + 1 < U32 ->
    pda E (seeds_v2_state (s_id s) id (byte_at 8 data)) = Some (mkey ms 2) ->
    edit w s r s1 (let s2 := set_subctr s1 (id + 1) in
      if has P_SubAccountV2All (le_enc 4 id) r then s2
      else on_role (r_id r) (fun r0 => with_acts r0 (r_acts r0 ++ [all_powers id])) s2).

Inductive config_step (w : world) (s : config) : config -> Prop :=
| by_role r s1 s' : k = mkey ms 0 -> acted E cx s r s1 -> edit w s r s1 s' -> config_step w s s'
(* a session role starts a session with its own credential *)
| by_session r a a' : k = mkey ms 0 -> t = 5 -> find_role (actor_of data) s = Some r ->
    session_based (r_aty r) = true ->
    authenticate E cx (r_aty r) (r_auth r) (payload_of data) (signed_of data) = Ok a ->
    start_session (r_aty r) a (sub 16 32 data) (c_slot cx) (u64_at 8 data) = Ok a' -> (48 <= length data)%nat ->
    config_step w s (on_role (r_id r) (fun r => with_auth r a') s)
(* a role that authenticated for this SignV2 has its own limits charged *)
| by_spending r s0 l : k = mkey ms 0 -> t = 11 -> c_height cx = 1%nat -> acted E cx s0 r s ->
    Forall2 (charged_act (c_slot cx)) (r_acts r) l ->
    config_step w s (on_role (r_id r) (fun r0 => with_acts r0 l) s).

(** same data and owner *)
Definition kept_acct (a a' : account) : Prop := a_data a' = a_data a /\ a_owner a' = a_owner a.

(** ** Changes to one account, from world [w] to world [w'] *)
Definition is_cfg (a : account) (s : config) : Prop :=
  a_owner a = SELF /\ a_data a = enc_config s /\ wf_config s.

(** The state record of V2 sub-account [id] of wallet [sid], at address [k] *)
Definition record_at (d : bytes) : Prop :=
  exists bump abump en id sid sa, d = v2_record bump abump en id sid sa
    /\ (en = 0 \/ en = 1) /\ is_byte bump /\ is_byte abump /\ is_u32 id /\ wf_key sid /\ wf_key sa
    /\ pda E (seeds_v2_state sid id bump) = Some k /\ pda E (seeds_v2_asset sid id abump) = Some sa.

Inductive change (w w' : world) : Prop :=
(* nothing but possibly its lamports *)
| ch_same : kept_acct (w k) (w' k) -> change w w'
(* a configuration makes a step *)
| ch_config s s' : is_cfg (w k) s -> config_step w s s' -> is_cfg (w' k) s' -> change w w'
(* a wallet is created *)
| ch_created nr : let id := sub 8 32 data in let bump := byte_at 6 data in let wbump := byte_at 7 data in
    let s' := mk_config bump id 1 wbump (zeros 3) 0 [nr] None in
    auth_layout data = None -> k = mkey ms 0 ->
    a_owner (w k) = SYSTEM -> a_data (w k) = [] -> a_lamports (w k) = 0 ->
    pda E (seeds_swig id bump) = Some k ->
    r_id nr = 0 -> r_aty nr = u16_at 2 data ->
    r_auth nr = new_credential (r_aty nr) (sub 40 (nat_of (u16_at 4 data)) data) -> r_pad nr = zeros 2 ->
    parses (skipn (40 + nat_of (u16_at 4 data)) data) (r_acts nr) ->
    is_cfg (w' k) s' -> exec_outside nr -> change w w'
(* the state record of a new V2 sub-account, by a wallet whose counter gives its id *)
| ch_record swig s s' bump abump sa : is_cfg (w swig) s -> is_cfg (w' swig) s' ->
    t = 18 -> swig = mkey ms 0 -> k = mkey ms 2 -> sa = mkey ms 3 ->
    s_subctr s' = s_subctr s + 1 ->
    a_owner (w k) = SYSTEM -> a_data (w k) = [] ->
    pda E (seeds_v2_state (s_id s) (s_subctr s) bump) = Some k ->
    pda E (seeds_v2_asset (s_id s) (s_subctr s) abump) = Some sa ->
    is_byte bump -> is_byte abump -> wf_key sa ->
    a_owner (w' k) = SELF -> a_data (w' k) = v2_record bump abump 1 (s_subctr s) (s_id s) sa ->
    change w w'
(* a V2 sub-account is enabled or disabled by a role of its wallet *)
| ch_toggled swig s r s1 en : is_cfg (w swig) s -> swig = mkey ms 0 -> k = mkey ms 2 ->
    t = 19 -> acted E cx s r s1 ->
    let rd := a_data (w k) in
    scoped P_SubAccountV2Toggle (v2_id rd) r = true -> v2_id rd = u32_at 8 data ->
    v2_swig_id rd = s_id s -> length rd = V2_LEN -> byte_at 0 rd = D_SubV2 ->
    en = 0 \/ en = 1 -> en = byte_at 2 data ->
    a_owner (w k) = SELF -> a_owner (w' k) = SELF -> a_data (w' k) = splice 3 [en] rd -> change w w'
(* a wallet is closed *)
| ch_closed s r s1 : is_cfg (w k) s -> k = mkey ms 0 -> t = 15 -> acted E cx s r s1 -> can_close r = true ->
    (forall c, s_claimer s = Some c -> mkey ms 2 = c) ->
    a_owner (w' k) = SELF -> a_data (w' k) = [D_Closed] -> change w w'
(* an account of another program *)
| ch_outside : a_owner (w k) <> SELF ->
    (a_owner (w' k) = SELF -> exists n, a_data (w' k) = zeros n) -> change w w'.
End Step.

(** ** Other programs.
    The rules the chain enforces on a call of another program: an account of the
    wallet program keeps its data and owner and loses no lamports; an account
    that becomes the wallet program's has all-zero data. *)
Definition foreign_ok (E : env) : Prop :=
  forall w x w', foreign E w x = Ok w' -> forall k,
    (a_owner (w k) = SELF -> kept_acct (w k) (w' k) /\ a_lamports (w k) <= a_lamports (w' k))
    /\ (a_owner (w k) <> SELF -> a_owner (w' k) = SELF -> exists n, a_data (w' k) = zeros n).

(** ** Calls of the wallet program by itself, while running [cx].
    Same transaction, one level deeper; nobody signs who did not already sign
    the outer instruction, except the wallet or sub-account address for which
    the outer instruction signs.  The outer instruction lists the wallet program. *)
Definition asset_seeds (sd : list bytes) : Prop :=
  (exists k b, sd = seeds_wallet k b) \/ (exists id i b, sd = seeds_sub id i b)
  \/ (exists id i b, sd = seeds_v2_asset id i b).
Definition nested (E : env) (cx cx' : ctx) : Prop :=
  c_slot cx' = c_slot cx /\ c_ixs cx' = c_ixs cx /\ c_cur cx' = c_cur cx
  /\ c_height cx = 1%nat /\ c_height cx' = 2%nat /\ wf_ctx cx'
  /\ In SELF (map m_key (c_metas cx))
  /\ forall k, signer (c_metas cx') k = true ->
       signer (c_metas cx) k = true \/ exists sd, asset_seeds sd /\ pda E sd = Some k.

(** A call is a sequence of at most [n] such steps, its own or nested *)
Inductive trace (E : env) (cx : ctx) : nat -> world -> world -> Prop :=
| tr_nil w : trace E cx 0 w w
| tr_own n w w1 w2 : trace E cx n w w1 -> (forall k, change E cx k w1 w2) -> trace E cx (S n) w w2
| tr_inner n w w1 w2 cx' : trace E cx n w w1 -> nested E cx cx' ->
    (forall k, change E cx' k w1 w2) -> trace E cx (S n) w w2.

(** ** Good worlds: what the accounts of the wallet program may contain *)
Definition good_data (E : env) (k : key) (d : bytes) : Prop :=
  (exists n, d = zeros n) \/ (exists s, d = enc_config s /\ wf_config s) \/ record_at E k d \/ d = [D_Closed].
Definition good_world (E : env) (w : world) : Prop :=
  forall k, a_owner (w k) = SELF -> good_data E k (a_data (w k)).
(** every wallet has room for [n] more roles *)
Definition roomy (n : Z) (w : world) : Prop := forall k s, is_cfg (w k) s -> room n s.

(** The runtime gives all mentions of one account in an instruction the same flags *)
Definition flags_ok (ms : list meta) : Prop :=
  forall m m', In m ms -> In m' ms -> m_key m = m_key m' -> m_writable m = m_writable m' /\ m_signer m = m_signer m'.

(** The SignV2 call [cx], made in [w], exhibits a SHA-256 collision: its inner
    instructions turn the contents of the configuration account into different
    contents with the same hash *)
Definition clash (E : env) (cx : ctx) (w : world) : Prop :=
  let k := mkey (c_metas cx) 0 in
  exists cs w1 w2, tag (c_data cx) = 11 /\ classify_all w (c_metas cx) = Ok cs
    /\ sign_v2_inner E cx cs w = Ok (w1, w2)
    /\ a_data (w1 k) <> a_data (w2 k)
    /\ sha256 E (SELF ++ a_data (w1 k)) = sha256 E (SELF ++ a_data (w2 k)).
