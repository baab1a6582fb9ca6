(** * The signing instructions.

    Models program/src/actions/sign_v2.rs, sub_account_sign_v1.rs and
    sub_account_sign_v2.rs. *)
From Verif Require Export Inner.

(** ** SignV2, unrestricted and limited roles *)

(** program_curated.rs:13-36: the literal byte arrays of the source *)
Definition CURATED : list bytes :=
  [ [0; 0; 0; 0; 0; 0; 0; 0; 0; 0; 0; 0; 0; 0; 0; 0; 0; 0; 0; 0; 0; 0; 0; 0; 0; 0; 0; 0; 0; 0; 0; 0];
    [6; 221; 246; 225; 215; 101; 161; 147; 217; 203; 225; 70; 206; 235; 121; 172; 28; 180; 133; 237;
     95; 91; 55; 145; 58; 140; 245; 133; 126; 255; 0; 169];
    [6; 221; 246; 225; 238; 117; 143; 222; 138; 60; 137; 215; 166; 35; 250; 133; 224; 81; 209; 114;
     91; 157; 99; 29; 94; 145; 213; 104; 233; 4; 16; 238];
    [6; 161; 216; 23; 145; 55; 84; 42; 152; 52; 55; 189; 254; 42; 122; 178; 85; 86; 165; 18; 7; 142;
     233; 0; 0; 0; 0; 0; 0; 0; 0; 0] ].
Definition is_curated (k : key) : bool := existsb (beq k) CURATED.

(** [RoleMut::get_action_mut::<T>(actions, q)?.is_some()] *)
Definition has_mut (ty : Z) (q acts : bytes) : res bool :=
  let* o := get_action_mut ty q acts in Ok (is_some o).

(** The action payload found at an offset *)
Definition payload_at (ty : Z) (off : nat) (acts : bytes) : bytes :=
  match action_len ty with Some n => sub off n acts | None => [] end.

(** Find the action, run its limit, write it back in place; None if absent *)
Definition charge (ty : Z) (q : bytes) (f : bytes -> res bytes) (acts : bytes) : res (option bytes) :=
  let* o := get_action_mut ty q acts in
  match o with
  | None => Ok None
  | Some off => let* p := f (payload_at ty off acts) in Ok (Some (splice off p acts))
  end.

(** *** Snapshots: sign_v2.rs:312-370, util/mod.rs:418-480 [hash_except] *)
Definition hash_full (E : env) (a : account) : bytes := sha256 E (a_owner a ++ a_data a).
Definition hash_skip (E : env) (a : account) (s e : nat) : bytes :=
  sha256 E (a_owner a ++ firstn s (a_data a) ++ skipn e (a_data a)).
Definition hash_stake (E : env) (a : account) : bytes :=
  sha256 E (a_owner a ++ sub 4 120 (a_data a) ++ skipn 200 (a_data a)).

Definition snapshot (E : env) (w : world) (acts : bytes) (i : nat) (m : meta) (c : cls)
  : res (option bytes) :=
  if negb (m_writable m) then Ok None
  else
    let a := w (m_key m) in
    let* h :=
      match c with
      | CThisSwig => Ok (Some (hash_full E a))
      | CToken _ _ => Ok (Some (hash_skip E a 64 72))
      | CStake _ _ _ => Ok (Some (hash_stake E a))
      | CScope _ _ =>
        let* o := get_action_mut P_ProgramScope (m_key m) acts in
        match o with
        | None => Ok None
        | Some off =>
          let p := payload_at P_ProgramScope off acts in
          if (ps_start p <? ps_end p) && (ps_end p <=? Z.of_nat (length (a_data a)))
          then Ok (Some (hash_skip E a (nat_of (ps_start p)) (nat_of (ps_end p))))
          else Ok None
        end
      | _ => Ok None
      end in
    match h with
    | None => Ok None
    | Some v => check (i <? 100)%nat SInvalidAccountsLength ;; Ok (Some v)
    end.
Fixpoint snapshots (E : env) (w : world) (acts : bytes) (i : nat) (ms : list meta) (cs : list cls)
  : res (list (option bytes)) :=
  match ms, cs with
  | m :: mr, c :: cr =>
    let* s := snapshot E w acts i m c in
    let* r := snapshots E w acts (S i) mr cr in
    Ok (s :: r)
  | _, _ => Ok []
  end.

(** *** Spending tracked after each inner instruction: sign_v2.rs:405-500 *)
Definition track1 (w : world) (acts : bytes) (m : meta) (c : cls) : res cls :=
  if negb (m_writable m) then Ok c
  else
    let a := w (m_key m) in
    let d := a_data a in
    match c with
    | CToken bal sp =>
      if (length d <? 72)%nat then Ok c
      else
        let cur := u64_at 64 d in
        Ok (CToken cur (if cur <? bal then sat_add U64 sp (bal - cur) else sp))
    | CStake bal lam sp =>
      let ls := if a_lamports a <? lam then lam - a_lamports a else 0 in
      let short := (length d <? 164)%nat in
      let cur := u64_at 156 d in
      let ss := if short then 0 else Z.abs (cur - bal) in
      Ok (CStake (if short then bal else cur) (a_lamports a) (sat_add U64 sp (Z.max ls ss)))
    | CScope bal sp =>
      let* o := get_action_mut P_ProgramScope (m_key m) acts in
      match o with
      | None => Ok c
      | Some off =>
        match scope_balance (payload_at P_ProgramScope off acts) d with
        | None => Ok c
        | Some cur => Ok (CScope cur (if cur <? bal then sat_add U128 sp (bal - cur) else sp))
        end
      end
    | _ => Ok c
    end.
Fixpoint track (w : world) (acts : bytes) (ms : list meta) (cs : list cls) : res (list cls) :=
  match ms, cs with
  | m :: mr, c :: cr =>
    let* c' := track1 w acts m c in
    let* r := track w acts mr cr in
    Ok (c' :: r)
  | _, _ => Ok []
  end.

(** The acting role's actions as the code sees them through its pointer into
    the config account: fixed offset and length in the account's current data *)
Definition acts_now (w : world) (swig : key) (off len : nat) : bytes := sub off len (a_data (w swig)).

(** sign_v2.rs:378-393: may the role call this program with the wallet's signature? *)
Definition program_allowed (curated : bool) (acts : bytes) (p : key) : res bool :=
  if curated && is_curated p then Ok true else has_mut P_Program p acts.

(** sign_v2.rs:375-503: run the inner instructions of a limited role *)
Fixpoint limited_loop (E : env) (cx : ctx) (swig wallet : key) (pdas : list key) (off len : nat)
  (pall curated : bool) (xs : list inner) (w : world) (sol : Z) (cs : list cls)
  : res (world * Z * list cls) :=
  match xs with
  | [] => Ok (w, sol, cs)
  | x :: r =>
    (if negb pall && in_uses x then
       let* ok := program_allowed curated (acts_now w swig off len) (ix_prog (in_ix x)) in
       check ok AMissingPermission
     else Ok tt) ;;
    let before := a_lamports (w wallet) in
    let* w1 := run_inner E cx wallet pdas w (in_ix x) in
    let after := a_lamports (w1 wallet) in
    let sol1 := if after <? before then sat_add U64 sol (before - after) else sol in
    let* cs1 := track w1 (acts_now w1 swig off len) (c_metas cx) cs in
    limited_loop E cx swig wallet pdas off len pall curated r w1 sol1 cs1
  end.

(** *** Destination limits *)

(** sign_v2.rs:820-842, 844-876: walks that follow the stored boundaries *)
Fixpoint any_action_loop (fuel : nat) (f : Z -> nat -> nat -> bool) (acts : bytes) (cursor : nat) : res bool :=
  match fuel with
  | O => Err RComputeExhausted
  | S n =>
    if (cursor + 8 <=? length acts)%nat then
      let* p := permission (hdr_ty cursor acts) in
      if f p (cursor + 8)%nat (hdr_boundary cursor acts) then Ok true
      else any_action_loop n f acts (hdr_boundary cursor acts)
    else Ok false
  end.
Definition has_sol_dest (acts : bytes) : res bool :=
  any_action_loop (S (length acts))
    (fun p _ _ => (p =? P_SolDestinationLimit) || (p =? P_SolRecurringDestinationLimit)) acts 0.
Definition has_token_dest (acts : bytes) (mint : bytes) : res bool :=
  any_action_loop (S (length acts))
    (fun p s b => ((p =? P_TokenDestinationLimit) || (p =? P_TokenRecurringDestinationLimit))
                  && (s + 32 <=? b)%nat && (s + 32 <=? length acts)%nat
                  && beq mint (sub s 32 acts)) acts 0.

(** sign_v2.rs:888-955 [process_sol_transfers]: (destination, amount) of each
    inner system transfer out of [wallet] *)
Definition sol_transfer_of (wallet : key) (x : ix) : option (key * Z) :=
  if beq (ix_prog x) SYSTEM && (12 <=? length (ix_data x))%nat && (u32_at 0 (ix_data x) =? 2)
     && (2 <=? length (ix_metas x))%nat && beq (mkey (ix_metas x) 0) wallet
  then Some (mkey (ix_metas x) 1, u64_at 4 (ix_data x)) else None.
(** sign_v2.rs:964-1040 [process_token_destinations] *)
Definition token_transfer_of (src : key) (x : ix) : option (key * Z) :=
  let d := ix_data x in
  let ty := byte_at 0 d in
  if is_token_program (ix_prog x) && (1 <=? length d)%nat && ((ty =? 3) || (ty =? 12)) then
    let (ml, di) := if ty =? 3 then (9, 1)%nat else (10, 2)%nat in
    if (ml <=? length d)%nat && (di <? length (ix_metas x))%nat && beq (mkey (ix_metas x) 0) src
    then Some (mkey (ix_metas x) di, u64_at 1 d) else None
  else None.

(** sign_v2.rs:566-600 and 683-722: charge every parsed transfer to its
    destination limit (the recurring one first) and compare the total.
    [q] builds the lookup key from the destination. *)
Fixpoint charge_dests (q : key -> bytes) (tyr tyo : Z) (fr fo : bytes -> Z -> res bytes)
  (ts : list (key * Z)) (parsed : Z) (acts : bytes) : res (Z * bytes) :=
  match ts with
  | [] => Ok (parsed, acts)
  | (k, amt) :: r =>
    check (parsed + amt <? U64) AMissingPermission ;;
    let* o := charge tyr (q k) (fun p => fr p amt) acts in
    match o with
    | Some acts1 => charge_dests q tyr tyo fr fo r (parsed + amt) acts1
    | None =>
      let* o2 := charge tyo (q k) (fun p => fo p amt) acts in
      match o2 with
      | Some acts1 => charge_dests q tyr tyo fr fo r (parsed + amt) acts1
      | None => Err AMissingPermission
      end
    end
  end.
Fixpoint filter_map {A B} (f : A -> option B) (l : list A) : list B :=
  match l with
  | [] => []
  | a :: r => match f a with Some b => b :: filter_map f r | None => filter_map f r end
  end.

(** A general limit (one-shot first, else recurring) *)
Definition charge_general (ty1 ty2 : Z) (q : bytes) (f1 f2 : bytes -> res bytes) (acts : bytes)
  : res (bool * bytes) :=
  let* o := charge ty1 q f1 acts in
  match o with
  | Some a => Ok (true, a)
  | None =>
    let* o2 := charge ty2 q f2 acts in
    match o2 with Some a => Ok (true, a) | None => Ok (false, acts) end
  end.

(** sign_v2.rs:545-617: SOL *)
Definition settle_sol (slot : Z) (wallet : key) (xs : list inner) (sol : Z) (acts : bytes) : res bytes :=
  let* ' (gen, acts1) :=
    charge_general P_SolLimit P_SolRecurringLimit [] (fun p => sol_limit_bytes p sol)
      (fun p => sol_recurring_bytes p sol slot) acts in
  let* hd := has_sol_dest acts1 in
  if hd then
    let ts := filter_map (fun x => sol_transfer_of wallet (in_ix x)) xs in
    let* ' (parsed, acts2) :=
      charge_dests (fun k => k) P_SolRecurringDestinationLimit P_SolDestinationLimit
        (fun p a => sol_rec_dest_bytes p a slot) sol_dest_bytes ts 0 acts1 in
    check (negb (length ts =? 0)%nat && (parsed =? sol)) AMissingPermission ;;
    Ok acts2
  else check gen AMissingPermission ;; Ok acts1.

(** sign_v2.rs:660-735: one token account *)
Definition settle_token (slot : Z) (src : key) (mint : bytes) (xs : list inner) (sp : Z) (acts : bytes)
  : res bytes :=
  let* ' (gen, acts1) :=
    charge_general P_TokenLimit P_TokenRecurringLimit mint (fun p => token_limit_bytes p sp)
      (fun p => token_recurring_bytes p sp slot) acts in
  let* hd := has_token_dest acts1 mint in
  if hd then
    let ts := filter_map (fun x => token_transfer_of src (in_ix x)) xs in
    let* ' (parsed, acts2) :=
      charge_dests (fun k => mint ++ k) P_TokenRecurringDestinationLimit P_TokenDestinationLimit
        (fun p a => token_rec_dest_bytes p a slot) token_dest_bytes ts 0 acts1 in
    check (negb (length ts =? 0)%nat && (parsed =? sp)) AMissingPermission ;;
    Ok acts2
  else check gen AMissingPermission ;; Ok acts1.

(** sign_v2.rs:737-775: stake *)
Definition settle_stake (slot sp : Z) (acts : bytes) : res bytes :=
  let* all := has_mut P_StakeAll [] acts in
  if all then Ok acts
  else
    let* ' (ok, acts1) :=
      charge_general P_StakeLimit P_StakeRecurringLimit [] (fun p => sol_limit_bytes p sp)
        (fun p => sol_recurring_bytes p sp slot) acts in
    check ok AMissingPermission ;; Ok acts1.

(** The snapshot must exist for a writable account (otherwise the Rust code
    reads uninitialised memory) and match *)
Definition check_snapshot (m : meta) (snap : option bytes) (h : bytes) : res unit :=
  if m_writable m then
    match snap with
    | None => Panic
    | Some s => check (beq s h) SAccountDataModifiedUnexpectedly
    end
  else Ok tt.

(** sign_v2.rs:506-811: final checks for one account, charging the limits *)
Definition settle1 (E : env) (slot : Z) (w : world) (wallet : key) (xs : list inner) (sol : Z)
  (m : meta) (c : cls) (snap : option bytes) (acts : bytes) : res bytes :=
  let a := w (m_key m) in
  let d := a_data a in
  match c with
  | CThisSwig =>
    check_snapshot m snap (hash_full E a) ;;
    check (rent E (length (a_data (w wallet))) <=? a_lamports (w wallet)) AInsufficientBalance ;;
    if sol =? 0 then Ok acts else settle_sol slot wallet xs sol acts
  | CToken _ sp =>
    if (length d =? 0)%nat || (a_lamports a =? 0) then
      let* c := has_mut P_CloseSwigAuthority [] acts in
      check c AMissingPermission ;;
      check ((a_lamports a =? 0) && beq (a_owner a) SYSTEM) SAccountDataModifiedUnexpectedly ;;
      Ok acts
    else
      check (165 <=? length d)%nat SAccountDataModifiedUnexpectedly ;;
      check_snapshot m snap (hash_skip E a 64 72) ;;
      check (beq (sub 32 32 d) wallet) ATokenAccountAuthorityNotSwig ;;
      check (byte_at 108 d =? 1) ATokenAccountNotInitialized ;;
      if sp =? 0 then Ok acts else settle_token slot (m_key m) (sub 0 32 d) xs sp acts
  | CStake _ _ sp =>
    (if m_writable m then guard (124 <=? length d)%nat else Ok tt) ;;
    check_snapshot m snap (hash_stake E a) ;;
    if sp =? 0 then Ok acts else settle_stake slot sp acts
  | CScope _ sp =>
    let* o := get_action_mut P_ProgramScope (m_key m) acts in
    let* off := ok_or o AMissingPermission in
    let p := payload_at P_ProgramScope off acts in
    check ((ps_start p <? ps_end p) && (ps_end p <=? Z.of_nat (length d)))
      SInvalidProgramScopeBalanceFields ;;
    check_snapshot m snap (hash_skip E a (nat_of (ps_start p)) (nat_of (ps_end p))) ;;
    if sp =? 0 then Ok acts
    else let* p' := scope_bytes p sp slot in Ok (splice off p' acts)
  | _ => Ok acts
  end.
Fixpoint settle (E : env) (slot : Z) (w : world) (wallet : key) (xs : list inner) (sol : Z)
  (ms : list meta) (cs : list cls) (snaps : list (option bytes)) (acts : bytes) : res bytes :=
  match ms, cs, snaps with
  | m :: mr, c :: cr, s :: sr =>
    let* acts1 := settle1 E slot w wallet xs sol m c s acts in
    settle E slot w wallet xs sol mr cr sr acts1
  | _, _, _ => Ok acts
  end.

Definition is_this (c : option cls) : bool := match c with Some CThisSwig => true | _ => false end.
Definition is_wal (c : option cls) : bool := match c with Some CWallet => true | _ => false end.

(** sign_v2.rs:212-811 *)
Definition sign_v2 (E : env) (cx : ctx) (cs : list cls) (w : world) : res world :=
  let ms := c_metas cx in let data := c_data cx in
  need ms 3 ;;
  check (c_height cx =? 1)%nat SCpi ;;
  let swig := mkey ms 0 in let wallet := mkey ms 1 in
  check (is_this (nth_error cs 0)) SInvalidSwigAccountDiscriminator ;;
  check (is_wal (nth_error cs 1)) SInvalidSwigAccountDiscriminator ;;
  check (8 <=? length data)%nat SInvalidInstructionDataTooShort ;;
  let n := nat_of (u16_at 2 data) in
  check (8 + n <=? length data)%nat SInvalidInstructionDataTooShort ;;
  let ipay := sub 8 n data in
  let* d := load_config w swig in
  let* o := open_role E cx d (u32_at 4 data) (skipn (8 + n) data) ipay in
  let* w0 := set_data ms w swig (o_bytes o) in
  let* xs := parse_all ms wallet ipay in
  let pdas := pda_list E (seeds_wallet swig (h_wbump (o_hdr o))) in
  let acts := o_acts o in
  let* all := has_mut P_All [] acts in
  let* abm := if all then Ok true else has_mut P_AllButManageAuthority [] acts in
  if abm then run_all E cx wallet pdas xs w0
  else
    let* pall := has_mut P_ProgramAll [] acts in
    let* pcur := if pall then Ok false else has_mut P_ProgramCurated [] acts in
    let* snaps := snapshots E w0 acts 0 ms cs in
    let off := (HDR + rv_off (o_role o) + POS + length (rv_auth (o_role o)))%nat in
    let len := length acts in
    let* ' (w1, sol, cs1) := limited_loop E cx swig wallet pdas off len pall pcur xs w0 0 cs in
    let* acts' := settle E (c_slot cx) w1 wallet xs sol ms cs1 snaps (acts_now w1 swig off len) in
    set_data ms w1 swig (splice off acts' (a_data (w1 swig))).

(** The states before and after the inner instructions of a SignV2 call by a
    limited role: the same code as [sign_v2], cut off there.  It is not part of
    the program; it is used to say which two states a hash collision is about. *)
Definition sign_v2_inner (E : env) (cx : ctx) (cs : list cls) (w : world) : res (world * world) :=
  let ms := c_metas cx in let data := c_data cx in
  need ms 3 ;;
  check (c_height cx =? 1)%nat SCpi ;;
  let swig := mkey ms 0 in let wallet := mkey ms 1 in
  check (is_this (nth_error cs 0)) SInvalidSwigAccountDiscriminator ;;
  check (is_wal (nth_error cs 1)) SInvalidSwigAccountDiscriminator ;;
  check (8 <=? length data)%nat SInvalidInstructionDataTooShort ;;
  let n := nat_of (u16_at 2 data) in
  check (8 + n <=? length data)%nat SInvalidInstructionDataTooShort ;;
  let ipay := sub 8 n data in
  let* d := load_config w swig in
  let* o := open_role E cx d (u32_at 4 data) (skipn (8 + n) data) ipay in
  let* w0 := set_data ms w swig (o_bytes o) in
  let* xs := parse_all ms wallet ipay in
  let pdas := pda_list E (seeds_wallet swig (h_wbump (o_hdr o))) in
  let acts := o_acts o in
  let* pall := has_mut P_ProgramAll [] acts in
  let* pcur := if pall then Ok false else has_mut P_ProgramCurated [] acts in
  let off := (HDR + rv_off (o_role o) + POS + length (rv_auth (o_role o)))%nat in
  let* ' (w1, _, _) := limited_loop E cx swig wallet pdas off (length acts) pall pcur xs w0 0 cs in
  Ok (w0, w1).

(** ** SubAccountSignV1: sub_account_sign_v1.rs:132-235 *)
Definition sub_account_sign_v1 (E : env) (cx : ctx) (w : world) : res world :=
  let ms := c_metas cx in let data := c_data cx in
  need ms 3 ;;
  check (c_height cx =? 1)%nat SCpi ;;
  let swig := mkey ms 0 in let sa := mkey ms 1 in
  owned_by w swig SELF SOwnerMismatchSubAccount ;;
  owned_by w sa SYSTEM SOwnerMismatchSubAccount ;;
  check (16 <=? length data)%nat SInvalidInstructionDataTooShort ;;
  let n := nat_of (u16_at 2 data) in
  check (16 + n <=? length data)%nat SInvalidInstructionDataTooShort ;;
  let ipay := sub 16 n data in
  let rid := u32_at 4 data in
  let* d := load_config w swig in
  let* o := open_role E cx d rid (skipn (16 + n) data) ipay in
  let* sp := get_action P_SubAccount sa (o_acts o) in
  let* off := ok_or sp SInvalidSwigSubAccountSwigIdMismatch in
  let p := sub off SA_LEN (o_acts o) in
  check (beq (sa_swig_id p) (h_id (o_hdr o))) SInvalidSwigSubAccountSwigIdMismatch ;;
  check (sa_role p =? rid) SInvalidSwigSubAccountRoleIdMismatch ;;
  check (negb (sa_enabled p =? 0)) SInvalidSwigSubAccountDisabled ;;
  let* w0 := set_data ms w swig (o_bytes o) in
  let* xs := parse_all ms sa ipay in
  let* w1 := run_all E cx sa (pda_list E (seeds_sub (sa_swig_id p) (sa_role p) (sa_bump p))) xs w0 in
  check (rent E (length (a_data (w1 sa))) <=? a_lamports (w1 sa)) AInsufficientBalance ;;
  Ok w1.

(** ** SubAccountSignV2: sub_account_sign_v2.rs:196-290 *)
Definition sub_account_sign_v2 (E : env) (cx : ctx) (w : world) : res world :=
  let ms := c_metas cx in let data := c_data cx in
  need ms 4 ;;
  check (c_height cx =? 1)%nat SCpi ;;
  let swig := mkey ms 0 in let state := mkey ms 1 in let sa := mkey ms 2 in
  owned_by w swig SELF SOwnerMismatchSwigAccount ;;
  owned_by w sa SYSTEM SOwnerMismatchSubAccount ;;
  check (16 <=? length data)%nat SInvalidInstructionDataTooShort ;;
  let n := nat_of (u16_at 2 data) in
  check (16 + n <=? length data)%nat SInvalidInstructionDataTooShort ;;
  let ipay := sub 16 n data in
  let id := u32_at 8 data in
  let* d := load_config w swig in
  require_swig_v2 d ;;
  let* o := open_role E cx d (u32_at 4 data) (skipn (16 + n) data) (sub 0 (16 + n) data) in
  authorize_scoped_v2 (o_acts o) P_SubAccountV2Sign id ;;
  let* w0 := set_data ms w swig (o_bytes o) in
  let swig_id := h_id (o_hdr o) in
  let* abump := validate_v2_state E w0 state sa swig_id id in
  let* xs := parse_all ms sa ipay in
  let* w1 := run_all E cx sa (pda_list E (seeds_v2_asset swig_id id abump)) xs w0 in
  check (rent E (length (a_data (w1 sa))) <=? a_lamports (w1 sa)) AInsufficientBalance ;;
  Ok w1.
