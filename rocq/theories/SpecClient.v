(** * What the client library is asked to do.

    The requests a client can make, how they are read off instruction data, and
    the instructions the library builds for them (Client.v), family by family. *)
From Verif Require Export SpecAvail Client.

(** ** Requests, without the acting role *)
Inductive order :=
| Found (id : bytes) (bump wbump ty : Z) (c acts : bytes)   (* create a wallet *)
| AddRole (ty : Z) (c acts : bytes)
| RemoveRole (target : Z)
| ChangeRole (target op : Z) (d : bytes)
| OpenSession (k : key) (duration : Z)
| CreateSub (bump : Z)
| WithdrawSub (amount : Z)
| SignSub (ixs : bytes)
| ToggleSub (target on : Z)
| Sign (ixs : bytes)
| TransferAssets
| CloseTokens (from : Z)                                    (* token accounts from this place on *)
| CloseWallet
| ReplaceKey (target : Z) (c : bytes)
| NameClaimer (k : key)
| CreateSub2 (b1 b2 : Z)
| ToggleSub2 (id on : Z)
| SignSub2 (id : Z) (ixs : bytes)
| WithdrawSub2 (id amount : Z).

(** How the program reads the instruction data: the offsets are those of [edit]
    (SpecWorld.v) and of [auth_layout] *)
Definition order_of (d : bytes) : option order :=
  let t := tag d in
  let n := arg_len d in
  if t =? 0 then let l := Z.to_nat (u16_at 4 d) in
    Some (Found (sub 8 32 d) (byte_at 6 d) (byte_at 7 d) (u16_at 2 d) (sub 40 l d) (skipn (40 + l) d))
  else if t =? 1 then Some (AddRole (u16_at 6 d) (sub 16 n d) (sub (16 + n) (Z.to_nat (u16_at 4 d)) d))
  else if t =? 2 then Some (RemoveRole (u32_at 12 d))
  else if t =? 3 then Some (ChangeRole (u32_at 12 d) (fst (update_op d)) (snd (update_op d)))
  else if t =? 5 then Some (OpenSession (sub 16 32 d) (u64_at 8 d))
  else if t =? 6 then Some (CreateSub (byte_at 8 d))
  else if t =? 7 then Some (WithdrawSub (u64_at 8 d))
  else if t =? 9 then Some (SignSub (sub 16 n d))
  else if t =? 10 then Some (ToggleSub (u32_at 8 d) (byte_at 2 d))
  else if t =? 11 then Some (Sign (sub 8 n d))
  else if t =? 13 then Some TransferAssets
  else if t =? 14 then Some (CloseTokens (u16_at 2 d))
  else if t =? 15 then Some CloseWallet
  else if t =? 16 then Some (ReplaceKey (u32_at 8 d) (sub 16 (Z.to_nat (u16_at 12 d)) d))
  else if t =? 17 then Some (NameClaimer (sub 8 32 d))
  else if t =? 18 then Some (CreateSub2 (byte_at 8 d) (byte_at 9 d))
  else if t =? 19 then Some (ToggleSub2 (u32_at 8 d) (byte_at 2 d))
  else if t =? 20 then Some (SignSub2 (u32_at 8 d) (sub 16 n d))
  else if t =? 21 then Some (WithdrawSub2 (u32_at 8 d) (u64_at 16 d))
  else None.

(** The arguments have the ranges of their Rust types, and what goes into a
    two-byte length fits into one *)
Definition short (l : bytes) : Prop := Z.of_nat (length l) < 65536.
Definition in_range (o : order) : Prop :=
  match o with
  | Found id bump wbump ty c _ => length id = 32%nat /\ is_byte bump /\ is_byte wbump /\ is_u16 ty /\ short c
  | AddRole ty c acts => is_u16 ty /\ short c /\ short acts
  | RemoveRole target => is_u32 target
  | ChangeRole target op d => is_u32 target /\ Z.of_nat (length d) < 65535
  | OpenSession k dur => length k = 32%nat /\ is_u64 dur
  | CreateSub bump => is_byte bump
  | WithdrawSub amount => is_u64 amount
  | SignSub ixs => short ixs
  | ToggleSub target _ => is_u32 target
  | Sign ixs => short ixs
  | TransferAssets | CloseTokens _ | CloseWallet => True
  | ReplaceKey target c => is_u32 target /\ short c
  | NameClaimer k => length k = 32%nat
  | CreateSub2 b1 b2 => is_byte b1 /\ is_byte b2
  | ToggleSub2 id _ => is_u32 id
  | SignSub2 id ixs => is_u32 id /\ short ixs
  | WithdrawSub2 id amount => is_u32 id /\ is_u64 amount
  end.

(** an update, as operation and data *)
Definition change_of (target : Z) (u : update_data) : order :=
  match u with
  | ReplaceAll l => ChangeRole target 0 (enc_actions 0 l)
  | AddActions l => ChangeRole target 1 (enc_actions 0 l)
  | RemoveByType tys => ChangeRole target 2 tys
  | RemoveByIndex is => ChangeRole target 3 (flat_map (le_enc 2) is)
  end.
Definition on_off (b : bool) : Z := if b then 1 else 0.
(** the compact form of inner instructions *)
Definition packed (no_sign : list key) (ms : list meta) (inner : list ix) : bytes :=
  into_bytes (snd (compact_instructions no_sign ms inner)).

(** (source, destination, token program), for tokens *)
Definition token_keys (t : option (key * key * key)) : list key :=
  match t with Some (src, dst, prog) => [src; dst; prog] | None => [] end.

(** The accounts the program works on, besides the wallet's configuration
    account, are found at these places of [n] accounts *)
Definition places (o : order) (n : nat) : list nat :=
  match o with
  | Found _ _ _ _ _ _ => [1; 2]                                     (* payer, wallet *)
  | AddRole _ _ _ | RemoveRole _ | ChangeRole _ _ _ | NameClaimer _ => [1]   (* payer *)
  | OpenSession _ _ | ReplaceKey _ _ => []
  | CreateSub _ => [1; 2]                                           (* payer, sub-account *)
  | WithdrawSub _ => [2; 4] ++ (if (7 <=? n)%nat then [6; 7; 8] else [])   (* sub-account, wallet, tokens *)
  | SignSub _ => [1]                                                (* sub-account *)
  | ToggleSub _ _ => [2]                                            (* sub-account *)
  | Sign _ | TransferAssets => [1]                                  (* wallet *)
  | CloseTokens from => [1; 2; 3] ++ seq (Z.to_nat from) (n - Z.to_nat from)  (* wallet, destination, token program, token accounts *)
  | CloseWallet => [1; 2]                                           (* wallet, destination *)
  | CreateSub2 _ _ => [1; 2; 3]                                     (* payer, state, sub-account *)
  | ToggleSub2 _ _ => [2]                                           (* state *)
  | SignSub2 _ _ => [1; 2]                                          (* state, sub-account *)
  | WithdrawSub2 _ _ => [2; 3; 4] ++ (if (n =? 10)%nat then [7; 8; 9] else [])  (* state, sub-account, wallet, tokens *)
  end%nat.

(** ** What the library builds for wallet [swig] and role [rid] *)
Section Built.
Variables (swig : key) (rid : Z).

(** with an Ed25519 key [auth] *)
Inductive built_ed (auth : key) : order -> list key -> ix -> Prop :=
| e_add payer ty c l : built_ed auth (AddRole ty c (enc_actions 0 l)) [payer] (add_ed swig payer auth rid ty c l)
| e_sign wallet inner signers :
    built_ed auth (Sign (packed [swig] [w_ swig; w_ wallet; ros auth] [inner])) [wallet] (sign_ed swig wallet auth inner rid signers)
| e_remove payer target : built_ed auth (RemoveRole target) [payer] (remove_ed swig payer auth rid target)
| e_update payer target u : built_ed auth (change_of target u) [payer] (update_ed swig payer auth rid target u)
| e_session payer k dur : built_ed auth (OpenSession k dur) [] (session_ed swig payer auth rid k dur)
| e_sub payer sa bump : built_ed auth (CreateSub bump) [payer; sa] (sub_ed swig auth payer sa rid bump)
| e_withdraw payer sa wallet t amount : built_ed auth (WithdrawSub amount) ([sa; wallet] ++ token_keys t) (withdraw_ed swig auth payer sa wallet t rid amount)
| e_sub_sign sa inner :
    built_ed auth (SignSub (packed [swig; sa] [ro_ swig; w_ sa; SYS; ros auth] inner)) [sa] (sub_sign_ed swig sa auth rid inner)
| e_toggle payer sa target on : built_ed auth (ToggleSub target (on_off on)) [sa] (toggle_ed swig auth payer sa target rid on)
| e_transfer wallet payer : built_ed auth TransferAssets [wallet] (transfer_ed swig wallet payer auth rid)
| e_claimer payer c : built_ed auth (NameClaimer c) [payer] (claimer_ed swig payer auth rid c)
| e_close_token wallet dest prog toks : built_ed auth (CloseTokens 5) ([wallet; dest; prog] ++ toks) (close_token_ed swig wallet auth dest prog toks rid)
| e_close wallet dest : built_ed auth CloseWallet [wallet; dest] (close_ed swig wallet auth dest rid)
| e_sub2 payer state sa b1 b2 : built_ed auth (CreateSub2 b1 b2) [payer; state; sa] (sub2_ed swig auth payer state sa rid b1 b2)
| e_toggle2 payer state id on : built_ed auth (ToggleSub2 id (on_off on)) [state] (toggle2_ed swig auth payer state rid id on)
| e_sub_sign2 state sa id inner :
    built_ed auth (SignSub2 id (packed [swig; sa] [w_ swig; ro_ state; w_ sa; SYS; ros auth] inner)) [state; sa]
      (sub_sign2_ed swig state sa auth rid id inner)
| e_withdraw2 payer state sa wallet t id amount :
    built_ed auth (WithdrawSub2 id amount) ([state; sa; wallet] ++ token_keys t) (withdraw2_ed swig auth payer state sa wallet t rid id amount)
| e_replace target c x : replace_ed swig auth rid target c = Some x -> built_ed auth (ReplaceKey target c) [] x.

Section Secp.
Variables (E : env) (sign : bytes -> bytes) (pk : bytes) (slot counter : Z).

(** with a secp256k1 key that signs by [sign] *)
Inductive built_k1 : order -> list key -> ix -> Prop :=
| k_add payer ty c l : built_k1 (AddRole ty c (enc_actions 0 l)) [payer] (add_k1 E sign slot counter swig payer rid ty c l)
| k_sign wallet inner signers :
    built_k1 (Sign (packed [swig] [w_ swig; w_ wallet; SYS] [inner])) [wallet] (sign_k1 E sign slot counter swig wallet inner rid signers)
| k_remove payer target : built_k1 (RemoveRole target) [payer] (remove_k1 E sign slot counter swig payer rid target)
| k_update payer target u : built_k1 (change_of target u) [payer] (update_k1 E sign slot counter swig payer rid target u)
| k_session payer k dur : built_k1 (OpenSession k dur) [] (session_k1 E sign slot counter swig payer rid k dur)
| k_claimer payer c : built_k1 (NameClaimer c) [payer] (claimer_k1 E sign slot counter swig payer rid c)
| k_close_token wallet dest prog toks :
    built_k1 (CloseTokens 4) ([wallet; dest; prog] ++ toks) (close_token_k1 E sign slot counter swig wallet dest prog toks rid)
| k_close wallet dest : built_k1 CloseWallet [wallet; dest] (close_k1 E sign slot counter swig wallet dest rid)
| k_sub2 payer state sa b1 b2 : built_k1 (CreateSub2 b1 b2) [payer; state; sa] (sub2_k1 E sign slot counter swig payer state sa rid b1 b2)
| k_toggle2 payer state id on : built_k1 (ToggleSub2 id (on_off on)) [state] (toggle2_k1 E sign slot counter swig payer state rid id on)
| k_sub_sign2 state sa id inner :
    built_k1 (SignSub2 id (packed [swig; sa] [w_ swig; ro_ state; w_ sa; SYS] inner)) [state; sa]
      (sub_sign2_k1 E sign slot counter swig state sa rid id inner)
| k_withdraw2 payer state sa wallet t id amount :
    built_k1 (WithdrawSub2 id amount) ([state; sa; wallet] ++ token_keys t) (withdraw2_k1 E sign slot counter swig payer state sa wallet t rid id amount)
| k_replace target c x : replace_k1 E sign slot counter swig rid target c = Some x -> built_k1 (ReplaceKey target c) [] x.
(** ... by the builders that know no counter *)
Inductive built_k1_old : order -> list key -> ix -> Prop :=
| ko_sub payer sa bump : built_k1_old (CreateSub bump) [payer; sa] (sub_k1 E sign slot swig payer sa rid bump)
| ko_withdraw payer sa wallet t amount : built_k1_old (WithdrawSub amount) ([sa; wallet] ++ token_keys t) (withdraw_k1 E sign slot swig payer sa wallet t rid amount)
| ko_sub_sign sa inner :
    built_k1_old (SignSub (packed [swig; sa] [ro_ swig; w_ sa; SYS] inner)) [sa] (sub_sign_k1 E sign slot swig sa rid inner)
| ko_toggle payer sa target on : built_k1_old (ToggleSub target (on_off on)) [sa] (toggle_k1 E sign slot swig payer sa target rid on)
| ko_transfer wallet payer : built_k1_old TransferAssets [wallet] (transfer_k1 E sign slot swig wallet payer rid).

(** with the secp256r1 key [pk] that signs by [sign]: a verification and the instruction *)
Inductive built_r1 : order -> list key -> list ix -> Prop :=
| r1_add payer ty c l : built_r1 (AddRole ty c (enc_actions 0 l)) [payer] (add_r1 E sign pk slot counter swig payer rid ty c l)
| r1_sign wallet inner signers :
    built_r1 (Sign (packed [swig] [w_ swig; w_ wallet; SYS; IXS] [inner])) [wallet] (sign_r1 E sign pk slot counter swig wallet inner rid signers)
| r1_remove payer target : built_r1 (RemoveRole target) [payer] (remove_r1 E sign pk slot counter swig payer rid target)
| r1_update payer target u : built_r1 (change_of target u) [payer] (update_r1 E sign pk slot counter swig payer rid target u)
| r1_session payer k dur : built_r1 (OpenSession k dur) [] (session_r1 E sign pk slot counter swig payer rid k dur)
| r1_withdraw payer sa wallet amount : built_r1 (WithdrawSub amount) [sa; wallet] (withdraw_sol_r1 E sign pk slot counter swig payer sa wallet rid amount)
| r1_claimer payer c : built_r1 (NameClaimer c) [payer] (claimer_r1 E sign pk slot counter swig payer rid c)
| r1_close_token wallet dest prog toks :
    built_r1 (CloseTokens 5) ([wallet; dest; prog] ++ toks) (close_token_r1 E sign pk slot counter swig wallet dest prog toks rid)
| r1_close wallet dest : built_r1 CloseWallet [wallet; dest] (close_r1 E sign pk slot counter swig wallet dest rid)
| r1_sub2 payer state sa b1 b2 : built_r1 (CreateSub2 b1 b2) [payer; state; sa] (sub2_r1 E sign pk slot counter swig payer state sa rid b1 b2)
| r1_toggle2 payer state id on : built_r1 (ToggleSub2 id (on_off on)) [state] (toggle2_r1 E sign pk slot counter swig payer state rid id on)
| r1_sub_sign2 state sa id inner :
    built_r1 (SignSub2 id (packed [swig; sa] [w_ swig; ro_ state; w_ sa; SYS; IXS] inner)) [state; sa]
      (sub_sign2_r1 E sign pk slot counter swig state sa rid id inner)
| r1_withdraw2 payer state sa wallet t id amount :
    built_r1 (WithdrawSub2 id amount) ([state; sa; wallet] ++ token_keys t) (withdraw2_r1 E sign pk slot counter swig payer state sa wallet t rid id amount)
| r1_replace target c l : replace_r1 E sign pk slot counter swig rid target c = Some l -> built_r1 (ReplaceKey target c) [] l.
(** ... by the builders that leave out the four zeros *)
Inductive built_r1_old : order -> list key -> list ix -> Prop :=
| r1o_sub payer sa bump : built_r1_old (CreateSub bump) [payer; sa] (sub_r1 E sign pk slot counter swig payer sa rid bump)
| r1o_withdraw payer sa wallet src dst prog amount :
    built_r1_old (WithdrawSub amount) ([sa; wallet] ++ token_keys (Some (src, dst, prog))) (withdraw_token_r1 E sign pk slot counter swig payer sa wallet src dst prog rid amount)
| r1o_sub_sign sa inner :
    built_r1_old (SignSub (packed [swig; sa] [ro_ swig; w_ sa; SYS; IXS] inner)) [sa] (sub_sign_r1 E sign pk slot counter swig sa rid inner)
| r1o_toggle payer sa target on : built_r1_old (ToggleSub target (on_off on)) [sa] (toggle_r1 E sign pk slot counter swig payer sa target rid on)
| r1o_transfer wallet payer : built_r1_old TransferAssets [wallet] (transfer_r1 E sign pk slot counter swig wallet payer rid).
End Secp.

(** with a program execution: the instruction [pre] and the instruction, which
    refers to the place [tix] of [pre] in the transaction or to the one before *)
Inductive built_exec (pre : ix) (tix : option Z) : order -> list key -> list ix -> Prop :=
| x_add payer ty c l : built_exec pre tix (AddRole ty c (enc_actions 0 l)) [payer] (add_exec swig payer pre rid ty c l tix)
| x_sign wallet payer inner :
    built_exec pre tix (Sign (packed [swig] [w_ swig; w_ wallet; ws payer] [inner])) [wallet] (sign_exec swig wallet payer pre inner rid tix)
| x_remove payer target : built_exec pre tix (RemoveRole target) [payer] (remove_exec swig payer pre rid target tix)
| x_update payer target u : built_exec pre tix (change_of target u) [payer] (update_exec swig payer pre rid target u tix)
| x_session payer k dur : built_exec pre tix (OpenSession k dur) [] (session_exec swig payer pre rid k dur tix)
| x_sub payer sa bump : built_exec pre tix (CreateSub bump) [payer; sa] (sub_exec swig payer pre sa rid bump tix)
| x_toggle payer sa target on : built_exec pre tix (ToggleSub target (on_off on)) [sa] (toggle_exec swig payer pre sa target rid on tix)
| x_transfer wallet payer : built_exec pre tix TransferAssets [wallet] (transfer_exec swig wallet payer pre rid tix)
| x_replace wallet target c l : tix = None -> replace_exec swig wallet pre rid target c = Some l ->
    built_exec pre tix (ReplaceKey target c) [] l.
End Built.

(** ** The instruction [x] is for wallet [swig], and says role [rid] asks for [o]
    with the accounts [ks] *)
Definition says (swig : key) (rid : Z) (o : order) (ks : list key) (x : ix) : Prop :=
  ix_prog x = SELF /\ option_map m_key (nth_error (ix_metas x) 0) = Some swig
  /\ actor_of (ix_data x) = rid /\ order_of (ix_data x) = Some o
  /\ map (fun i => option_map m_key (nth_error (ix_metas x) i)) (places o (length (ix_metas x))) = map Some ks.

(** ** Sending.  [cx] executes the instruction [x]; the runtime may have made
    accounts writable or signers, because another instruction of the transaction
    wants them so or because they pay the fee *)
Definition wider (m m' : meta) : Prop :=
  m_key m' = m_key m /\ (m_signer m = true -> m_signer m' = true) /\ (m_writable m = true -> m_writable m' = true).
Definition sent (cx : ctx) (x : ix) : Prop :=
  c_data cx = ix_data x /\ Forall2 wider (ix_metas x) (c_metas cx).
(** ... or has left all flags as they were *)
Definition sent_exactly (cx : ctx) (x : ix) : Prop := c_data cx = ix_data x /\ c_metas cx = ix_metas x.

(** ** The program's check of the credential of role [r] passes, and leaves the
    credential [a'] *)
Definition passes (E : env) (cx : ctx) (r : role) (a' : bytes) : Prop :=
  (if tag (c_data cx) =? 5 then authenticate else role_authenticate) E cx (r_aty r) (r_auth r)
    (payload_of (c_data cx)) (signed_of (c_data cx)) = Ok a'.
Definition starts_session (o : order) : bool := match o with OpenSession _ _ => true | _ => false end.

(** [k] is the key with which role [r] does [o] at slot [now]: the key of its
    running session, if it has sessions and [o] is not to open one *)
Definition ed_key (o : order) (now : Z) (r : role) (k : key) : Prop :=
  if is_session (r_aty r) && negb (starts_session o)
  then k = session_key (r_aty r) (r_auth r) /\ now <= session_end (r_aty r) (r_auth r)
  else (r_aty r = 1 \/ r_aty r = 2) /\ firstn 32 (r_auth r) = k.
(** role [r] does [o] by signatures of its root key of the given curve (plain and session type) *)
Definition root_type (plain session : Z) (o : order) (r : role) : Prop :=
  r_aty r = plain \/ r_aty r = session /\ starts_session o = true.

(** [sign] signs [digest] for the secp256k1 key [pk]: 64 bytes of signature in
    canonical form - two numbers, most significant byte first, below the order of
    the curve, the second one not above its half - and a recovery byte *)
Definition curve_order : Z := 115792089237316195423570985008687907852837564279074904382605163141518161494337.
Definition big (l : bytes) : Z := le (rev l).
Definition canonical (sig : bytes) : Prop :=
  big (firstn 32 sig) < curve_order /\ big (sub 32 32 sig) <= curve_order / 2.
Definition k1_signs (E : env) (pk digest sig : bytes) : Prop :=
  exists rs v public, sig = rs ++ [v] /\ length rs = 64%nat /\ canonical rs
    /\ recover E digest (if v =? 27 then 0 else 1) rs = Some public /\ compressed public = pk.

(** The instruction at place [i] of the transaction, before this one, is [x] *)
Definition earlier (cx : ctx) (i : nat) (x : ix) : Prop := (i < c_cur cx)%nat /\ nth_error (c_ixs cx) i = Some x.
Definition checked_place (cx : ctx) (tix : option Z) : nat :=
  match tix with Some t => Z.to_nat t | None => c_cur cx - 1 end.
(** [pre] is a call of the registered program with the registered prefix, its
    first two accounts being [c] and [wl] *)
Definition right_call (a : bytes) (pre : ix) (c wl : key) : Prop :=
  ix_prog pre = firstn 32 a /\ 2 <= le (firstn 2 (ix_data pre)) /\ (2 <= length (ix_data pre))%nat
  /\ 0 <= nth 32 a 0 <= 40 /\ starts_with (sub 40 (Z.to_nat (nth 32 a 0)) a) (ix_data pre)
  /\ exists m0 m1 rest, ix_metas pre = m0 :: m1 :: rest /\ m_key m0 = c /\ m_key m1 = wl.

(** ** Inner instructions.  [x], built by the library for wallet [swig] and role
    [rid], carries [inner]; it is packed behind the accounts [ms], clearing the
    signer flag of [ns], and the program executes it in the name of [sk] *)
Definition ixs_of (o : order) : option bytes :=
  match o with Sign x | SignSub x | SignSub2 _ x => Some x | _ => None end.
Inductive wraps (swig : key) (rid : Z) : list ix -> list key -> list meta -> key -> ix -> Prop :=
| wr_sign_ed wallet auth i signers :
    wraps swig rid [i] [swig] [w_ swig; w_ wallet; ros auth] wallet (sign_ed swig wallet auth i rid signers)
| wr_sign_k1 E sign slot counter wallet i signers :
    wraps swig rid [i] [swig] [w_ swig; w_ wallet; SYS] wallet (sign_k1 E sign slot counter swig wallet i rid signers)
| wr_sign_r1 E sign pk slot counter wallet i signers v x :
    sign_r1 E sign pk slot counter swig wallet i rid signers = [v; x] ->
    wraps swig rid [i] [swig] [w_ swig; w_ wallet; SYS; IXS] wallet x
| wr_sign_exec wallet payer pre i tix v x : sign_exec swig wallet payer pre i rid tix = [v; x] ->
    wraps swig rid [i] [swig] [w_ swig; w_ wallet; ws payer] wallet x
| wr_sub_ed sa auth inner :
    wraps swig rid inner [swig; sa] [ro_ swig; w_ sa; SYS; ros auth] sa (sub_sign_ed swig sa auth rid inner)
| wr_sub2_ed state sa auth id inner : is_u32 id ->
    wraps swig rid inner [swig; sa] [w_ swig; ro_ state; w_ sa; SYS; ros auth] sa (sub_sign2_ed swig state sa auth rid id inner)
| wr_sub2_k1 E sign slot counter state sa id inner : is_u32 id ->
    wraps swig rid inner [swig; sa] [w_ swig; ro_ state; w_ sa; SYS] sa (sub_sign2_k1 E sign slot counter swig state sa rid id inner)
| wr_sub2_r1 E sign pk slot counter state sa id inner v x : is_u32 id ->
    sub_sign2_r1 E sign pk slot counter swig state sa rid id inner = [v; x] ->
    wraps swig rid inner [swig; sa] [w_ swig; ro_ state; w_ sa; SYS; IXS] sa x.

(** No mention of an account asks for a privilege that another one does not ask
    for; the signatures of the keys [free] do not count *)
Definition agree (free : list key) (l : list meta) : Prop :=
  forall m m', In m l -> In m' l -> m_key m = m_key m' ->
    (m_writable m = true -> m_writable m' = true) /\ (m_signer m = true -> In (m_key m) free \/ m_signer m' = true).
(** the account [m'] has the privileges asked for by [m], except for signatures of [ns] *)
Definition granted (ns : list key) (m m' : meta) : Prop :=
  m_key m' = m_key m /\ (m_writable m = true -> m_writable m' = true)
  /\ (m_signer m = true -> In (m_key m) ns \/ m_signer m' = true).
