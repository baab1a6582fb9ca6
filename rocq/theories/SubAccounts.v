(** * Sub-account handlers (creation, enabling, withdrawal).

    Models program/src/actions/{create,toggle,withdraw_from}_sub_account_{v1,v2}.rs
    and the V2 authorisation helpers of sub_account_sign_v2.rs. *)
From Coq Require Import String.
From Verif Require Export Handlers.

(** ** V1: the sub-account lives in the role's SubAccount action, 72 bytes:
    address@0, bump@32, enabled@33, role id@36, wallet id@40
    (state/src/action/sub_account.rs:13-30) *)
Definition sa_key (p : bytes) : bytes := sub 0 32 p.
Definition sa_bump (p : bytes) : Z := byte_at 32 p.
Definition sa_enabled (p : bytes) : Z := byte_at 33 p.
Definition sa_role (p : bytes) : Z := u32_at 36 p.
Definition sa_swig_id (p : bytes) : bytes := sub 40 32 p.
Definition SA_LEN : nat := 72.

(** create_sub_account_v1.rs:138-250 *)
Definition create_sub_account_v1 (E : env) (cx : ctx) (w : world) : res world :=
  let ms := c_metas cx in let data := c_data cx in
  need ms 4 ;;
  let swig := mkey ms 0 in let payer := mkey ms 1 in let sa := mkey ms 2 in
  owned_by w swig SELF SOwnerMismatchSwigAccount ;;
  owned_by w sa SYSTEM SOwnerMismatchSubAccount ;;
  check (16 <=? length data)%nat SInvalidInstructionDataTooShort ;;
  let rid := u32_at 4 data in
  let bump := byte_at 8 data in
  let* d := load_config w swig in
  let* o := open_role E cx d rid (skipn 16 data) (sub 0 16 data) in
  let* _ := get_action_mut P_All [] (o_acts o) in
  let* p := get_action_mut P_SubAccount [] (o_acts o) in
  let* off := ok_or p SAuthorityCannotCreateSubAccount in
  check_pda E (seeds_sub (h_id (o_hdr o)) rid bump) sa SInvalidSeedSwigAccount ;;
  let* w1 := rent_topup E ms w payer sa 0 in
  let old := sub off SA_LEN (o_acts o) in
  let new := sa ++ [bump; 1] ++ sub 34 2 old ++ le_enc 4 rid ++ h_id (o_hdr o) in
  set_data ms w1 swig (o_hdr o ++ put_acts (o_role o) off new (o_roles o) ++ o_tail o).

(** toggle_sub_account_v1.rs:131-245.  [enabled] is a Rust bool read from a raw
    byte (any other value than 0 or 1 is undefined behaviour there); the model
    copies the byte and treats non-zero as enabled. *)
Definition toggle_sub_account_v1 (E : env) (cx : ctx) (w : world) : res world :=
  let ms := c_metas cx in let data := c_data cx in
  need ms 3 ;;
  let swig := mkey ms 0 in let sa := mkey ms 2 in
  owned_by w swig SELF SOwnerMismatchSwigAccount ;;
  owned_by w sa SYSTEM SOwnerMismatchSubAccount ;;
  check (16 <=? length data)%nat SInvalidInstructionDataTooShort ;;
  let en := byte_at 2 data in
  let rid := u32_at 8 data in
  let arid := u32_at 12 data in
  let* d := load_config w swig in
  let* o := open_role E cx d arid (skipn 16 data) (sub 0 16 data) in
  let* v :=
    if negb (arid =? rid) then
      let* mgr := manages (o_acts o) in
      check mgr AMissingPermission ;;
      let* t := get_mut_role rid (o_roles o) in
      ok_or t SInvalidAuthorityNotFoundByRoleId
    else Ok (o_role o) in
  let* p := get_action_mut P_SubAccount sa (rv_acts v) in
  let* off := ok_or p AMissingPermission in
  check (beq (sub off 32 (rv_acts v)) sa) SInvalidSwigSubAccountSwigIdMismatch ;;
  set_data ms w swig (o_hdr o ++ put_acts v (off + 33) [en] (o_roles o) ++ o_tail o).

(** withdraw_from_sub_account_v1.rs:195-215: search role ids 0..=10 *)
Fixpoint find_creator (E : env) (id : bytes) (sa : key) (n : nat) (r : Z) : option (Z * Z) :=
  match n with
  | O => None
  | S n' =>
    let f := find_pda E (seeds_sub0 id r) in
    if beq (fst f) sa then Some (r, snd f) else find_creator E id sa n' (r + 1)
  end.

(** withdraw_from_sub_account_v1.rs:107-300 *)
Definition withdraw_v1 (E : env) (cx : ctx) (w : world) : res world :=
  let ms := c_metas cx in let data := c_data cx in
  need ms 6 ;;
  let swig := mkey ms 0 in let sa := mkey ms 2 in let wallet := mkey ms 4 in
  owned_by w swig SELF SOwnerMismatchSwigAccount ;;
  owned_by w sa SYSTEM SOwnerMismatchSubAccount ;;
  owned_by w wallet SYSTEM SOwnerMismatchSwigAccount ;;
  check (16 <=? length data)%nat SInvalidInstructionDataTooShort ;;
  let rid := u32_at 4 data in
  let amount := u64_at 8 data in
  let* d := load_config w swig in
  check (beq (fst (find_pda E (seeds_wallet0 swig))) wallet) SInvalidSwigSubAccountSwigIdMismatch ;;
  let* o := open_role E cx d rid (skipn 16 data) (sub 0 16 data) in
  let id := h_id (o_hdr o) in
  let* all := has_action P_All [] (o_acts o) in
  let* mgr := has_action P_ManageAuthority [] (o_acts o) in
  let* sp := get_action P_SubAccount sa (o_acts o) in
  check (all || mgr || is_some sp) AMissingPermission ;;
  let* ' (srole, sbump) :=
    match sp with
    | Some off =>
      let p := sub off SA_LEN (o_acts o) in
      check (beq (sa_swig_id p) id) SInvalidSwigSubAccountSwigIdMismatch ;;
      check (sa_role p =? rid) SInvalidSwigSubAccountRoleIdMismatch ;;
      check (negb (sa_enabled p =? 0)) SInvalidSwigSubAccountDisabled ;;
      Ok (sa_role p, sa_bump p)
    | None =>
      check (if mgr then beq (fst (find_pda E (seeds_sub0 id rid))) sa else true)
        SInvalidSwigSubAccountSwigIdMismatch ;;
      ok_or (find_creator E id sa 11 0) SInvalidSwigSubAccountSwigIdMismatch
    end in
  let sig := pda_list E (seeds_sub id srole sbump) in
  let* w1 := set_data ms w swig (o_bytes o) in
  if (7 <=? length ms)%nat then
    let src := mkey ms 6 in
    guard (8 <=? length ms)%nat ;;
    let dst := mkey ms 7 in
    guard (64 <=? length (a_data (w1 dst)))%nat ;;
    check (beq wallet (sub 32 32 (a_data (w1 dst)))) SInvalidSwigTokenAccountOwner ;;
    guard (9 <=? length ms)%nat ;;
    check (is_token_program (a_owner (w1 src))) SOwnerMismatchTokenAccount ;;
    check (beq (a_owner (w1 dst)) (a_owner (w1 src))) SInvalidOperation ;;
    cpi E ms sig w1 (token_transfer_ix (a_owner (w1 src)) src dst sa amount)
  else
    check (amount <=? a_lamports (w1 sa)) AInsufficientBalance ;;
    sys_transfer ms sig w1 sa wallet amount.

(** ** V2 *)

(** sub_account_v2.rs:20-100: 72-byte state record
    discriminator@0, bump@1, asset bump@2, enabled@3, id@4, wallet id@8, address@40 *)
Definition V2_LEN : nat := 72.
Definition v2_bump (d : bytes) : Z := byte_at 1 d.
Definition v2_asset_bump (d : bytes) : Z := byte_at 2 d.
Definition v2_enabled (d : bytes) : Z := byte_at 3 d.
Definition v2_id (d : bytes) : Z := u32_at 4 d.
Definition v2_swig_id (d : bytes) : bytes := sub 8 32 d.
Definition v2_key (d : bytes) : bytes := sub 40 32 d.
Definition v2_record (bump abump en id : Z) (swig_id sa : bytes) : bytes :=
  [D_SubV2; bump; abump; en] ++ le_enc 4 id ++ swig_id ++ sa.

(** sub_account_sign_v2.rs:37-66 [has_scoped_v2] *)
Fixpoint scoped_loop (fuel : nat) (acts : bytes) (specific id : Z) (accept_all : bool) (cursor : nat)
  : res bool :=
  match fuel with
  | O => Err RComputeExhausted
  | S f =>
    if (cursor + 8 <=? length acts)%nat then
      let n := hdr_len cursor acts in
      check (cursor + 8 + n <=? length acts)%nat SStateError ;;
      let* p := permission (hdr_ty cursor acts) in
      if ((p =? specific) || (accept_all && (p =? P_SubAccountV2All)))
         && (4 <=? n)%nat && beq (sub (cursor + 8) 4 acts) (le_enc 4 id)
      then Ok true
      else scoped_loop f acts specific id accept_all (cursor + 8 + n)
    else Ok false
  end.
Definition has_scoped_v2 (acts : bytes) (specific id : Z) (accept_all : bool) : res bool :=
  scoped_loop (S (length acts)) acts specific id accept_all 0.
(** sub_account_sign_v2.rs:75-85 [authorize_scoped_v2] *)
Definition authorize_scoped_v2 (acts : bytes) (specific id : Z) : res unit :=
  let* b := has_scoped_v2 acts specific id true in
  check b SPermissionDeniedMissingSubAccountV2Permission.

(** The checks on the state record shared by [validate_v2_state]
    (sub_account_sign_v2.rs:93-135) and toggle (toggle_sub_account_v2.rs:150-180) *)
Definition check_v2_record (w : world) (state : key) (swig_id : bytes) (id : Z) : res bytes :=
  let s := a_data (w state) in
  check (length s =? V2_LEN)%nat PInvalidAccountData ;;
  check (byte_at 0 s =? D_SubV2) PInvalidAccountData ;;
  check ((v2_enabled s =? 0) || (v2_enabled s =? 1)) PInvalidAccountData ;;
  check (beq (v2_swig_id s) swig_id) SInvalidSwigSubAccountV2SwigIdMismatch ;;
  check (v2_id s =? id) SInvalidSwigSubAccountV2IdMismatch ;;
  Ok s.

(** sub_account_sign_v2.rs:93-135 [validate_v2_state]; returns the asset bump.
    (The validity test of the enabled byte comes after the id tests in the Rust
    code; only the error code differs.) *)
Definition validate_v2_state (E : env) (w : world) (state sa : key) (swig_id : bytes) (id : Z) : res Z :=
  owned_by w state SELF SOwnerMismatchSubAccountV2State ;;
  let* s := check_v2_record w state swig_id id in
  check (v2_enabled s =? 1) SInvalidSwigSubAccountV2Disabled ;;
  check_pda E (seeds_v2_state swig_id id (v2_bump s)) state SInvalidSeedSubAccountV2 ;;
  check (beq (v2_key s) sa) SInvalidSeedSubAccountV2 ;;
  Ok (v2_asset_bump s).

(** create_sub_account_v2.rs:103-112 [build_all_action_bytes] *)
Definition v2_all_action (id : Z) : bytes :=
  le_enc 2 P_SubAccountV2All ++ le_enc 2 8 ++ zeros 4 ++ le_enc 4 id ++ zeros 4.

(** create_sub_account_v2.rs:115-270 *)
Definition create_sub_account_v2 (E : env) (cx : ctx) (w : world) : res world :=
  let ms := c_metas cx in let data := c_data cx in
  need ms 5 ;;
  let swig := mkey ms 0 in let payer := mkey ms 1 in
  let state := mkey ms 2 in let sa := mkey ms 3 in
  owned_by w swig SELF SOwnerMismatchSwigAccount ;;
  owned_by w state SYSTEM SOwnerMismatchSubAccountV2State ;;
  owned_by w sa SYSTEM SOwnerMismatchSubAccount ;;
  check (beq (mkey ms 4) SYSTEM) SInvalidSystemProgram ;;
  no_data w state PInvalidAccountData ;;
  check (16 <=? length data)%nat SInvalidInstructionDataTooShort ;;
  let rid := u32_at 4 data in
  let bump := byte_at 8 data in
  let abump := byte_at 9 data in
  let* d := load_config w swig in
  require_swig_v2 d ;;
  let* o := open_role E cx d rid (skipn 16 data) (sub 0 16 data) in
  let* c := has_action P_SubAccountV2Create [] (o_acts o) in
  check c SAuthorityCannotCreateSubAccountV2 ;;
  let id := h_subctr (o_hdr o) in
  let swig_id := h_id (o_hdr o) in
  check (id + 1 <? U32) SStateError ;;
  let hdr := splice 44 (le_enc 4 (id + 1)) (o_hdr o) in
  let* granted := has_scoped_v2 (o_acts o) P_SubAccountV2All id false in
  check_pda E (seeds_v2_state swig_id id bump) state SInvalidSeedSubAccountV2 ;;
  check_pda E (seeds_v2_asset swig_id id abump) sa SInvalidSeedSubAccountV2 ;;
  let* w1 := rent_topup E ms w payer state V2_LEN in
  let* w2 := sys_allocate_assign ms (pda_list E (seeds_v2_state swig_id id bump)) w1 state V2_LEN in
  let* w3 := set_data ms w2 state (v2_record bump abump 1 id swig_id sa) in
  let* w4 := rent_topup E ms w3 payer sa 0 in
  let d1 := hdr ++ o_roles o ++ o_tail o in
  if granted then set_data ms w4 swig d1
  else
    let* d2 := append_actions d1 rid (v2_all_action id) in
    let* w5 := rent_topup E ms w4 payer swig (length d2) in
    write_data ms w5 swig d2.

(** toggle_sub_account_v2.rs:96-185 *)
Definition toggle_sub_account_v2 (E : env) (cx : ctx) (w : world) : res world :=
  let ms := c_metas cx in let data := c_data cx in
  need ms 3 ;;
  let swig := mkey ms 0 in let state := mkey ms 2 in
  owned_by w swig SELF SOwnerMismatchSwigAccount ;;
  owned_by w state SELF SOwnerMismatchSubAccountV2State ;;
  check (16 <=? length data)%nat SInvalidInstructionDataTooShort ;;
  let en := byte_at 2 data in
  check (en <=? 1) PInvalidInstructionData ;;
  let id := u32_at 8 data in
  let* d := load_config w swig in
  require_swig_v2 d ;;
  let* o := open_role E cx d (u32_at 4 data) (skipn 16 data) (sub 0 16 data) in
  authorize_scoped_v2 (o_acts o) P_SubAccountV2Toggle id ;;
  let* w1 := set_data ms w swig (o_bytes o) in
  let* s := check_v2_record w1 state (h_id (o_hdr o)) id in
  check_pda E (seeds_v2_state (h_id (o_hdr o)) id (v2_bump s)) state SInvalidSeedSubAccountV2 ;;
  set_data ms w1 state (splice 3 [en] s).

(** withdraw_from_sub_account_v2.rs:97-270 *)
Definition withdraw_v2 (E : env) (cx : ctx) (w : world) : res world :=
  let ms := c_metas cx in let data := c_data cx in
  need ms 7 ;;
  let swig := mkey ms 0 in let state := mkey ms 2 in let sa := mkey ms 3 in let wallet := mkey ms 4 in
  owned_by w swig SELF SOwnerMismatchSwigAccount ;;
  owned_by w sa SYSTEM SOwnerMismatchSubAccount ;;
  owned_by w wallet SYSTEM SOwnerMismatchSwigAccount ;;
  check (24 <=? length data)%nat SInvalidInstructionDataTooShort ;;
  let id := u32_at 8 data in
  let amount := u64_at 16 data in
  let* d := load_config w swig in
  require_swig_v2 d ;;
  let* ' (h, _, _) := split_parts d in
  let* wa := ok_or (pda E (seeds_wallet swig (h_wbump h))) PInvalidSeeds in
  check (beq wa wallet) SInvalidSwigSubAccountV2SwigIdMismatch ;;
  let* o := open_role E cx d (u32_at 4 data) (skipn 24 data) (sub 0 24 data) in
  authorize_scoped_v2 (o_acts o) P_SubAccountV2Withdraw id ;;
  let* w1 := set_data ms w swig (o_bytes o) in
  let swig_id := h_id (o_hdr o) in
  let* abump := validate_v2_state E w1 state sa swig_id id in
  let sig := pda_list E (seeds_v2_asset swig_id id abump) in
  if (length ms =? 10)%nat then
    let src := mkey ms 7 in let dst := mkey ms 8 in let prog := mkey ms 9 in
    check (is_token_program (a_owner (w1 src))) SOwnerMismatchTokenAccount ;;
    check (beq (a_owner (w1 dst)) (a_owner (w1 src))) SInvalidOperation ;;
    check (beq prog (a_owner (w1 src))) SOwnerMismatchTokenAccount ;;
    let sd := a_data (w1 src) in
    let dd := a_data (w1 dst) in
    check ((165 <=? length sd)%nat && (165 <=? length dd)%nat) PInvalidAccountData ;;
    check ((byte_at 108 sd =? 1) && (byte_at 108 dd =? 1)) PInvalidAccountData ;;
    check (beq (sub 0 32 sd) (sub 0 32 dd)) SInvalidOperation ;;
    check (beq sa (sub 32 32 sd)) SInvalidSwigTokenAccountOwner ;;
    check (beq wallet (sub 32 32 dd)) SInvalidSwigTokenAccountOwner ;;
    cpi E ms sig w1 (token_transfer_ix prog src dst sa amount)
  else if (length ms =? 7)%nat then
    check (amount <=? a_lamports (w1 sa)) AInsufficientBalance ;;
    sys_transfer ms sig w1 sa wallet amount
  else Err SInvalidAccountsLength.
