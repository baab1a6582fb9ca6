(** * The instruction handlers that manage configuration, sessions and closing.

    Models program/src/actions/*.rs.  A handler takes the environment, the
    instruction context and the world, and returns the new world.  Errors of the
    "instruction data too short" family, which differ only in their code per
    instruction, are all [SInvalidInstructionDataTooShort].

    Simplification: where the Rust code edits the config account in place in
    several steps, the model computes the final bytes and writes them once.
    Between those steps the Rust code only performs system transfers, which do
    not read or write this account's data. *)
From Coq Require Import String.
From Verif Require Export Limits Roles.

(** ** Account access *)
Definition mkey (ms : list meta) (i : nat) : key := m_key (nth i ms (mk_meta [] false false)).
(** [Accounts::context] (derived): the named accounts must be present *)
Definition need (ms : list meta) (n : nat) : res unit :=
  check (n <=? length ms)%nat PNotEnoughAccountKeys.
(** assertions/src/lib.rs [check_self_owned], [check_system_owner], [check_zero_data] *)
Definition owned_by (w : world) (k owner : key) (e : err) : res unit :=
  check (beq (a_owner (w k)) owner) e.
Definition no_data (w : world) (k : key) (e : err) : res unit :=
  check (length (a_data (w k)) =? 0)%nat e.
(** assertions/src/lib.rs [check_self_pda] *)
Definition check_pda (E : env) (seeds : list bytes) (k : key) (e : err) : res unit :=
  let* a := ok_or (pda E seeds) PInvalidSeeds in check (beq a k) e.
(** the address a [Signer] built from [seeds] signs for *)
Definition pda_list (E : env) (seeds : list bytes) : list key :=
  match pda E seeds with Some k => [k] | None => [] end.
Definition align8 (n : nat) : nat := ((n + 7) / 8 * 8)%nat.

(** ** Seeds: swig.rs:28-170 *)
Definition seeds_swig (id : bytes) (bump : Z) : list bytes := [ascii_bytes "swig"; id; [bump]].
Definition seeds_wallet0 (swig : key) : list bytes := [ascii_bytes "swig-wallet-address"; swig].
Definition seeds_wallet (swig : key) (bump : Z) : list bytes := seeds_wallet0 swig ++ [[bump]].
Definition seeds_sub0 (id : bytes) (role : Z) : list bytes := [ascii_bytes "sub-account"; id; le_enc 4 role].
Definition seeds_sub (id : bytes) (role bump : Z) : list bytes := seeds_sub0 id role ++ [[bump]].
Definition seeds_v2_state (id : bytes) (sid bump : Z) : list bytes :=
  [ascii_bytes "sub-account-v2-state"; id; le_enc 4 sid; [bump]].
Definition seeds_v2_asset (id : bytes) (sid bump : Z) : list bytes :=
  [ascii_bytes "sub-account-v2"; id; le_enc 4 sid; [bump]].

(** ** Shared steps *)

(** Pay the rent-exempt minimum for [n] bytes from [payer] when [k] lacks it *)
Definition rent_topup (E : env) (ms : list meta) (w : world) (payer k : key) (n : nat) : res world :=
  if a_lamports (w k) <? rent E n
  then sys_transfer ms [] w payer k (rent E n - a_lamports (w k))
  else Ok w.

(** Write account data of a possibly different length ([resize] plus writes) *)
Definition write_data (ms : list meta) (w : world) (k : key) (d : bytes) : res world :=
  check (Z.of_nat (length d) <=? 10485760) RInvalidRealloc ;;
  check (Z.of_nat (length d) <=? Z.of_nat (length (a_data (w k))) + 10240) RInvalidRealloc ;;
  set_data ms w k d.

(** [swig_account_data[0] != Discriminator::SwigConfigAccount]; empty data panics *)
Definition load_config (w : world) (k : key) : res bytes :=
  let d := a_data (w k) in
  guard (1 <=? length d)%nat ;;
  check (h_disc d =? D_Config) SInvalidSwigAccountDiscriminator ;;
  Ok d.

(** A config account taken apart, with one role authenticated *)
Record opened := mk_opened
  { o_hdr : bytes; o_roles : bytes; o_tail : bytes; o_role : rview }.
Definition o_bytes (o : opened) : bytes := o_hdr o ++ o_roles o ++ o_tail o.
Definition o_acts (o : opened) : bytes := rv_acts (o_role o).

(** The opening every handler shares: split the account, look up the acting
    role, authenticate it over [sdata]; [authf] is [role_authenticate] except
    in CreateSession.  The authority bytes are updated in place. *)
Definition open_with (authf : rview -> res bytes) (d : bytes) (rid : Z) : res opened :=
  let* ' (h, roles, tail) := split_parts d in
  let* o := get_mut_role rid roles in
  let* v := ok_or o SInvalidAuthorityNotFoundByRoleId in
  let* auth := authf v in
  Ok (mk_opened h (put_auth v auth roles) tail v).
Definition open_role (E : env) (cx : ctx) (d : bytes) (rid : Z) (payload sdata : bytes) : res opened :=
  open_with (fun v => role_authenticate E cx (rv_ty v) (rv_auth v) payload sdata) d rid.

(** [All] or [ManageAuthority]: both lookups are always evaluated *)
Definition manages (acts : bytes) : res bool :=
  let* a := has_action P_All [] acts in
  let* m := has_action P_ManageAuthority [] acts in
  Ok (a || m).

(** The target role's offset, actions offset and actions size:
    update_authority_v1.rs:441-470 [find_role_action_offsets] and 750-790.
    [boundary - actions_offset] wraps when negative, after which slicing panics. *)
Fixpoint find_offsets (n : nat) (id : Z) (roles : bytes) (cursor : nat) : res (nat * nat * nat) :=
  match n with
  | O => Err SInvalidAuthorityNotFoundByRoleId
  | S n' =>
    check (cursor + POS <=? length roles)%nat PInvalidAccountData ;;
    let b := p_bound cursor roles in
    check ((cursor + POS <=? b)%nat && (b <=? length roles)%nat) PInvalidAccountData ;;
    if p_id cursor roles =? id then
      let ao := (cursor + POS + p_alen cursor roles)%nat in
      guard (ao <=? b)%nat ;;
      Ok (cursor, ao, (b - ao)%nat)
    else find_offsets n' id roles b
  end.

(** ** CreateV1: create_v1.rs:148-254 *)
Definition create_v1 (E : env) (cx : ctx) (w : world) : res world :=
  let ms := c_metas cx in let data := c_data cx in
  need ms 4 ;;
  let swig := mkey ms 0 in let payer := mkey ms 1 in let wallet := mkey ms 2 in
  owned_by w swig SYSTEM SOwnerMismatchSwigAccount ;;
  no_data w swig SAccountNotEmptySwigAccount ;;
  check (40 <=? length data)%nat SInvalidInstructionDataTooShort ;;
  let alen := nat_of (u16_at 4 data) in
  let bump := byte_at 6 data in
  let wbump := byte_at 7 data in
  let id := sub 8 32 data in
  check (40 + alen <=? length data)%nat SInvalidInstructionDataTooShort ;;
  let adata := sub 40 alen data in
  let acts := skipn (40 + alen) data in
  check_pda E (seeds_swig id bump) swig SInvalidSeedSwigAccount ;;
  owned_by w wallet SYSTEM SOwnerMismatchSwigAccount ;;
  no_data w wallet SAccountNotEmptySwigAccount ;;
  check_pda E (seeds_wallet swig wbump) wallet SInvalidSeedSwigAccount ;;
  let* m := find_action P_ManageAuthority acts in
  let* a := find_action P_All acts in
  check (m || a) SInvalidAuthorityType ;;
  let* ty := authority_type (u16_at 2 data) in
  let* al := ok_or (authority_len ty) TInvalidAuthorityData in
  let size := align8 (HDR + POS + al + length acts) in
  let* w1 := sys_create_account ms (pda_list E (seeds_swig id bump)) w payer swig
               (sat_sub (rent E size) (a_lamports (w swig))) size in
  let* w2 := rent_topup E ms w1 payer wallet 0 in
  let* ' (h, b) := add_role (new_header id bump wbump) (skipn HDR (a_data (w2 swig))) ty adata acts in
  set_data ms w2 swig (h ++ b).

(** ** AddAuthorityV1: add_authority_v1.rs:163-278 *)
Definition add_authority_v1 (E : env) (cx : ctx) (w : world) : res world :=
  let ms := c_metas cx in let data := c_data cx in
  need ms 3 ;;
  let swig := mkey ms 0 in let payer := mkey ms 1 in
  owned_by w swig SELF SOwnerMismatchSwigAccount ;;
  check (beq (mkey ms 2) SYSTEM) SInvalidSystemProgram ;;
  check (16 <=? length data)%nat PInvalidInstructionData ;;
  let alen := nat_of (u16_at 2 data) in
  let actlen := nat_of (u16_at 4 data) in
  check (16 + alen + actlen <=? length data)%nat PInvalidInstructionData ;;
  let adata := sub 16 alen data in
  let acts := sub (16 + alen) actlen data in
  let sdata := sub 0 (16 + alen + actlen) data in
  let payload := skipn (16 + alen + actlen) data in
  let* ty := authority_type (u16_at 6 data) in
  let* d := load_config w swig in
  let* ' (_, _, tail0) := split_parts d in
  let* tail := take_tail tail0 in
  let* o := open_role E cx d (u32_at 12 data) payload sdata in
  let* mgr := manages (o_acts o) in
  check mgr AToManageAuthority ;;
  let* al := ok_or (authority_len ty) TInvalidAuthorityData in
  let size := align8 (length d + (POS + al + length acts)) in
  let* w1 := rent_topup E ms w payer swig size in
  let d2 := resize_bytes size (o_bytes o) in
  guard (HDR + length tail <=? length d2)%nat ;;
  let* ' (h, b) := add_role (firstn HDR d2) (sub HDR (length d2 - HDR - length tail) d2) ty adata acts in
  let* d3 := seal_tail tail (h ++ b ++ skipn (length d2 - length tail) d2) in
  write_data ms w1 swig d3.

(** ** RemoveAuthorityV1: remove_authority_v1.rs:133-239 *)
Definition remove_authority_v1 (E : env) (cx : ctx) (w : world) : res world :=
  let ms := c_metas cx in let data := c_data cx in
  need ms 3 ;;
  let swig := mkey ms 0 in let payer := mkey ms 1 in
  owned_by w swig SELF SOwnerMismatchSwigAccount ;;
  check (beq (mkey ms 2) SYSTEM) SInvalidSystemProgram ;;
  check (16 <=? length data)%nat PInvalidInstructionData ;;
  let acting := u32_at 8 data in
  let target := u32_at 12 data in
  check (negb (target =? 0)) ACannotRemoveRootAuthority ;;
  let* d := load_config w swig in
  let* ' (_, _, tail0) := split_parts d in
  let* tail := take_tail tail0 in
  let* o := open_role E cx d acting (skipn 16 data) (sub 0 16 data) in
  let* mgr := manages (o_acts o) in
  check (mgr || (acting =? target)) AToManageAuthority ;;
  let* t := get_mut_role target (o_roles o) in
  let* _ := ok_or t SInvalidAuthorityNotFoundByRoleId in
  let* ' (h, b, freed) := remove_role (o_hdr o) (o_roles o) target in
  let new_size := (length d - freed)%nat in
  check (rent E new_size <=? rent E (length d)) RUnbalanced ;;
  let* d3 := seal_tail tail (resize_bytes new_size (h ++ b ++ o_tail o)) in
  let* w1 := write_data ms w swig d3 in
  move_lamports ms w1 swig payer (rent E (length d) - rent E new_size).

(** ** UpdateAuthorityV1 *)

(** update_authority_v1.rs:332-358: the boundary walk.  [(b as i64 + diff) as u32] *)
Fixpoint upd_fix (fuel : nat) (role_end : nat) (diff : Z) (id : Z) (acts : bytes)
  (new_len cursor : nat) (buf : bytes) : res bytes :=
  match fuel with
  | O => Err RComputeExhausted
  | S f =>
    if (cursor <? new_len)%nat then
      if (new_len <? cursor + POS)%nat then Ok buf
      else
        guard (cursor + POS <=? length buf)%nat ;;
        let b := u32_at (cursor + 12) buf in
        let b1 := if Z.of_nat role_end <? b then (b + diff) mod U32 else b in
        if p_id cursor buf =? id then
          let b2 := (b1 + diff) mod U32 in
          let* n := calculate_num_actions acts in
          upd_fix f role_end diff id acts new_len (nat_of b2)
            (splice (cursor + 4) (le_enc 2 n) (splice (cursor + 12) (le_enc 4 b2) buf))
        else
          upd_fix f role_end diff id acts new_len (nat_of b1)
            (splice (cursor + 12) (le_enc 4 b1) buf)
    else Ok buf
  end.

(** update_authority_v1.rs:374-402: validate and copy the actions *)
Fixpoint copy_while (fuel : nat) (acts : bytes) (ac start cur : nat) (buf : bytes) : res bytes :=
  match fuel with
  | O => Err RComputeExhausted
  | S f =>
    if (ac <? length acts)%nat then
      check (ac + 8 <=? length acts)%nat PInvalidInstructionData ;;
      let alen := hdr_len ac acts in
      check (ac + 8 + alen <=? length acts)%nat TInvalidAuthorityMustHaveAtLeastOneAction ;;
      let* p := permission (hdr_ty ac acts) in
      let data := sub (ac + 8) alen acts in
      let* ok := validate_layout p data in
      check ok PInvalidInstructionData ;;
      guard (cur + 8 + alen <=? length buf)%nat ;;
      let next := (cur - start + 8 + alen)%nat in
      let buf1 := splice cur (sub ac 8 acts) buf in
      let buf2 := splice (cur + 4) (le_enc 4 (Z.of_nat next)) buf1 in
      let buf3 := splice (cur + 8) data buf2 in
      copy_while f acts (ac + 8 + alen) start (cur + 8 + alen) buf3
    else Ok buf
  end.

(** update_authority_v1.rs:284-405 [perform_replace_all_operation]; returns the
    buffer and the size difference *)
Definition replace_all (buf : bytes) (roles_len ao acto cur_size : nat) (new : bytes) (id : Z)
  : res (bytes * Z) :=
  reject_duplicate_v2_scoped new ;;
  let diff := Z.of_nat (length new) - Z.of_nat cur_size in
  let new_len := (roles_len + length new - cur_size)%nat in
  let* buf2 :=
    if negb (diff =? 0) then
      let role_end := (acto + cur_size)%nat in
      let remaining := (roles_len - role_end)%nat in
      let new_end := (acto + length new)%nat in
      let* buf1 :=
        if (0 <? remaining)%nat then
          (if 0 <? diff then check (new_end + remaining <=? length buf)%nat SStateError
           else guard (role_end + remaining <=? length buf)%nat) ;;
          Ok (splice new_end (sub role_end remaining buf) buf)
        else Ok buf in
      upd_fix (S (length buf)) role_end diff id new new_len 0 buf1
    else
      let* n := calculate_num_actions new in
      guard (ao + POS <=? length buf)%nat ;;
      Ok (splice (ao + 4) (le_enc 2 n) buf) in
  check (acto + length new <=? new_len)%nat SStateError ;;
  let* buf3 := copy_while (S (length new)) new 0 acto acto buf2 in
  Ok (buf3, diff).

(** Filtering of existing actions, update_authority_v1.rs:566-595 and 625-655.
    [keep] decides from the header type and the index. *)
Fixpoint filter_loop (fuel : nat) (keep : Z -> Z -> res bool) (acts : bytes) (cursor : nat) (i : Z)
  (acc : bytes) : res bytes :=
  match fuel with
  | O => Err RComputeExhausted
  | S f =>
    if (cursor <? length acts)%nat then
      check (cursor + 8 <=? length acts)%nat PInvalidInstructionData ;;
      let n := (8 + hdr_len cursor acts)%nat in
      check (cursor + n <=? length acts)%nat TInvalidAuthorityMustHaveAtLeastOneAction ;;
      let* k := keep (hdr_ty cursor acts) i in
      filter_loop f keep acts (cursor + n) (i + 1)
        (if k then acc ++ sub cursor n acts else acc)
    else Ok acc
  end.
Definition keep_types (types : bytes) (ty _ : Z) : res bool :=
  let* p := permission ty in Ok (negb (existsb (Z.eqb p) types)).
Fixpoint u16s (l : bytes) : list Z :=
  match l with a :: b :: t => le [a; b] :: u16s t | _ => [] end.
Definition keep_indices (idx : list Z) (_ i : Z) : res bool := Ok (negb (existsb (Z.eqb i) idx)).

(** The new action list an update operation produces from the current one;
    [op] is 0 ReplaceAll, 1 AddActions, 2 RemoveActionsByType,
    3 RemoveActionsByIndex.  update_authority_v1.rs:408-440, 556-668, 231-280 *)
Definition updated_actions (op : Z) (arg cur : bytes) : res bytes :=
  if op =? 0 then Ok arg
  else if op =? 1 then Ok (cur ++ arg)
  else
    let* f :=
      if op =? 2 then filter_loop (S (length cur)) (keep_types arg) cur 0 0 []
      else
        check (Nat.even (length arg)) PInvalidInstructionData ;;
        filter_loop (S (length cur)) (keep_indices (u16s arg)) cur 0 0 [] in
    check (negb (length f =? 0)%nat) TInvalidAuthorityMustHaveAtLeastOneAction ;;
    Ok f.

(** Grow by [grow] bytes, put the tail at the end, and apply an operation to
    the target role's actions (update_authority_v1.rs:797-900 and 476-553).
    Returns the account bytes (before the final seal) and the size difference. *)
Definition apply_update (d tail : bytes) (roles_len ao acto cur_size : nat) (id : Z) (op : Z) (arg : bytes)
  (size : nat) : res (bytes * Z) :=
  let d2 := resize_bytes size d in
  guard (HDR + length tail <=? length d2)%nat ;;
  let* d3 := restore_at tail (length d2 - length tail) d2 in
  let cap := (length d3 - HDR - length tail)%nat in
  let buf := sub HDR cap d3 in
  guard (acto + cur_size <=? length buf)%nat ;;
  let* new := updated_actions op arg (sub acto cur_size buf) in
  let* ' (b, diff) := replace_all buf roles_len ao acto cur_size new id in
  Ok (firstn HDR d3 ++ b ++ skipn (HDR + cap) d3, diff).

(** update_authority_v1.rs:687-947 *)
Definition update_authority_v1 (E : env) (cx : ctx) (w : world) : res world :=
  let ms := c_metas cx in let data := c_data cx in
  need ms 3 ;;
  let swig := mkey ms 0 in let payer := mkey ms 1 in
  owned_by w swig SELF SOwnerMismatchSwigAccount ;;
  check (beq (mkey ms 2) SYSTEM) SInvalidSystemProgram ;;
  check (16 <=? length data)%nat PInvalidInstructionData ;;
  let oplen := nat_of (u16_at 2 data) in
  check (16 + oplen <=? length data)%nat PInvalidInstructionData ;;
  let opdata := sub 16 oplen data in
  let sdata := sub 0 (16 + oplen) data in
  let payload := skipn (16 + oplen) data in
  let target := u32_at 12 data in
  let new_format := (byte_at 4 data =? 0) && negb (length opdata =? 0)%nat in
  let op := if new_format then byte_at 0 opdata else 0 in
  let arg := if new_format then skipn 1 opdata else opdata in
  check (op <=? 3) PInvalidInstructionData ;;
  let* d := load_config w swig in
  let* ' (_, _, tail0) := split_parts d in
  let* tail := take_tail tail0 in
  let* o := open_role E cx d (u32_at 8 data) payload sdata in
  let* mgr := manages (o_acts o) in
  check mgr AToManageAuthority ;;
  let* ' (ao, acto, cur_size) := find_offsets (nat_of (h_roles (o_hdr o))) target (o_roles o) 0 in
  let pre := if op =? 0 then Z.of_nat (length arg) - Z.of_nat cur_size
             else if op =? 1 then Z.of_nat (length arg) else 0 in
  let size := if 0 <? pre then align8 (length d + nat_of pre) else length d in
  let* w1 := if 0 <? pre then rent_topup E ms w payer swig size else Ok w in
  let* ' (d4, diff) := apply_update (o_bytes o) tail (length (o_roles o)) ao acto cur_size target op arg size in
  let size5 := if diff <? 0 then align8 (nat_of (Z.of_nat size + diff)) else size in
  let* d5 := seal_tail tail (resize_bytes size5 d4) in
  let* w2 := write_data ms w1 swig d5 in
  if diff <? 0 then move_lamports ms w2 swig payer (sat_sub (a_lamports (w2 swig)) (rent E size5))
  else Ok w2.

(** update_authority_v1.rs:476-553 [append_actions_to_role] on the bytes [d] of
    the config account; the caller pays the rent.  Returns the new bytes. *)
Definition append_actions (d : bytes) (id : Z) (new : bytes) : res bytes :=
  guard (1 <=? length d)%nat ;;
  check (h_disc d =? D_Config) SInvalidSwigAccountDiscriminator ;;
  let* ' (h, roles, tail0) := split_parts d in
  let* tail := take_tail tail0 in
  let* ' (ao, acto, cur_size) := find_offsets (nat_of (h_roles h)) id roles 0 in
  let size := if (0 <? length new)%nat then align8 (length d + length new) else length d in
  let* ' (d4, _) := apply_update d tail (length roles) ao acto cur_size id 1 new size in
  Ok d4.

(** ** ReplaceAuthorityV1: replace_authority_v1.rs:128-570 *)
Definition PROOF_TAG : bytes := ascii_bytes "rplauth1".
Definition PROOF_DOMAIN : bytes := ascii_bytes "swig-replace-authority-v1".

(** replace_authority_v1.rs:530-565 [replacement_proof_hash] *)
Definition proof_hash (E : env) (swig wallet : key) (acting target ty : Z) (cur new : bytes) : bytes :=
  sha256 E (PROOF_DOMAIN ++ swig ++ wallet ++ le_enc 4 acting ++ le_enc 4 target ++ le_enc 2 ty
            ++ cur ++ new).

(** replace_authority_v1.rs:452-527; returns the wallet address and the hash *)
Definition load_proof (E : env) (cx : ctx) (payload : bytes) : res (key * bytes) :=
  let swig := mkey (c_metas cx) 0 in
  let* wm := ok_or (nth_error (c_metas cx) 1) AInvalidAuthorityPayload in
  check (beq (m_key wm) (fst (find_pda E (seeds_wallet0 swig)))) SInvalidSeedSwigAccount ;;
  check (negb (length payload =? 0)%nat && (length payload <=? 2)%nat) AInvalidAuthorityPayload ;;
  let* sv := ok_or (nth_error (c_metas cx) (nat_of (byte_at 0 payload))) AInvalidAuthorityPayload in
  check (beq (m_key sv) INSTRUCTIONS_ID) AProgramExecInvalidInstruction ;;
  let* i := if (length payload =? 2)%nat then
              let t := nat_of (byte_at 1 payload) in
              check (t <? c_cur cx)%nat SReplaceAuthorityProofInvalidInstruction ;; Ok t
            else
              check (negb (c_cur cx =? 0)%nat) SReplaceAuthorityProofInvalidInstruction ;;
              Ok (c_cur cx - 1)%nat in
  match find_ix cx i with
  | None => Panic
  | Some x =>
    check ((length (ix_data x) =? 40)%nat && beq (sub 0 8 (ix_data x)) PROOF_TAG)
      SReplaceAuthorityProofInvalidData ;;
    let* m0 := ok_or (nth_error (ix_metas x) 0) SReplaceAuthorityProofInvalidAccounts in
    let* m1 := ok_or (nth_error (ix_metas x) 1) SReplaceAuthorityProofInvalidAccounts in
    check (beq (m_key m0) swig) SReplaceAuthorityProofInvalidAccounts ;;
    check (beq (m_key m1) (m_key wm)) SReplaceAuthorityProofInvalidAccounts ;;
    Ok (m_key wm, sub 8 32 (ix_data x))
  end.

(** replace_authority_v1.rs:225-240, 409-421: the new key in stored form, by target type *)
Definition normalize_signer (ty : Z) (new : bytes) : res bytes :=
  if (ty =? T_Ed25519) || (ty =? T_Ed25519Session) then
    check (length new =? 32)%nat SReplaceAuthorityInvalidSignerLength ;; Ok new
  else if (ty =? T_Secp256k1) || (ty =? T_Secp256k1Session) then
    if (length new =? 33)%nat then Ok new
    else check (length new =? 64)%nat SReplaceAuthorityInvalidSignerLength ;; Ok (compress new)
  else if (ty =? T_Secp256r1) || (ty =? T_Secp256r1Session) then
    check (length new =? 33)%nat SReplaceAuthorityInvalidSignerLength ;; Ok new
  else Err SUnsupportedReplaceAuthorityType.

(** The in-place edits of replace_authority_v1.rs:243-392: new public key,
    signature odometer reset, session cleared *)
Definition replaced_authority (ty : Z) (auth pk : bytes) : bytes :=
  let a1 := splice 0 pk auth in
  let a2 := if (ty =? T_Ed25519) || (ty =? T_Ed25519Session) then a1 else splice 36 (zeros 4) a1 in
  match session_offsets ty with
  | Some (ko, _, eo) => splice eo (zeros 8) (splice ko (zeros 32) a2)
  | None => a2
  end.

(** replace_authority_v1.rs:209-400 [replace_target_signer] *)
Fixpoint replace_loop (E : env) (n : nat) (roles : bytes) (swig : key) (acting target : Z) (new : bytes)
  (proof : option (key * bytes)) (cursor : nat) : res bytes :=
  match n with
  | O => Err SInvalidAuthorityNotFoundByRoleId
  | S n' =>
    guard (cursor + POS <=? length roles)%nat ;;
    if p_id cursor roles =? target then
      let* ty := authority_type (p_type cursor roles) in
      let* pk := normalize_signer ty new in
      let* al := ok_or (authority_len ty) SUnsupportedReplaceAuthorityType in
      let* auth := slice (cursor + POS) al roles in
      let cur := sub 0 (length pk) auth in
      (match proof with
       | None => Ok tt
       | Some (wal, h) => check (beq (proof_hash E swig wal acting target ty cur pk) h)
                            SReplaceAuthorityProofMismatch
       end) ;;
      check (negb (beq cur pk)) SReplaceAuthoritySameSigner ;;
      Ok (splice (cursor + POS) (replaced_authority ty auth pk) roles)
    else replace_loop E n' roles swig acting target new proof (p_bound cursor roles)
  end.

Definition replace_authority_v1 (E : env) (cx : ctx) (w : world) : res world :=
  let ms := c_metas cx in let data := c_data cx in
  need ms 1 ;;
  let swig := mkey ms 0 in
  owned_by w swig SELF SOwnerMismatchSwigAccount ;;
  check (16 <=? length data)%nat SInvalidInstructionDataTooShort ;;
  check (beq (sub 2 2 data) (zeros 2) && beq (sub 14 2 data) (zeros 2)) SReplaceAuthorityInvalidPayload ;;
  let nl := u16_at 12 data in
  check ((nl =? 32) || (nl =? 33) || (nl =? 64)) SReplaceAuthorityInvalidSignerLength ;;
  let n := nat_of nl in
  check (16 + n <=? length data)%nat SReplaceAuthorityInvalidPayload ;;
  let new := sub 16 n data in
  let sdata := sub 0 (16 + n) data in
  let payload := skipn (16 + n) data in
  let acting := u32_at 4 data in
  let target := u32_at 8 data in
  let* d := load_config w swig in
  let* o := open_role E cx d acting payload sdata in
  let* a := has_action P_All [] (o_acts o) in
  let* ok := if a then Ok true
             else let* m := has_action P_ManageAuthority [] (o_acts o) in
                  if m then Ok true
                  else has_action P_ReplaceAuthority (le_enc 4 target) (o_acts o) in
  check ok AMissingPermission ;;
  let* proof := if rv_ty (o_role o) =? T_ProgramExec
                then let* p := load_proof E cx payload in Ok (Some p)
                else Ok None in
  let* roles := replace_loop E (nat_of (h_roles (o_hdr o))) (o_roles o) swig acting target new proof 0 in
  set_data ms w swig (o_hdr o ++ roles ++ o_tail o).

(** ** CreateSessionV1: create_session_v1.rs:126-165 *)
Definition create_session_v1 (E : env) (cx : ctx) (w : world) : res world :=
  let ms := c_metas cx in let data := c_data cx in
  need ms 3 ;;
  let swig := mkey ms 0 in
  owned_by w swig SELF SOwnerMismatchSwigAccount ;;
  check (48 <=? length data)%nat PInvalidInstructionData ;;
  let* d := load_config w swig in
  let* o := open_with (fun v =>
              check (session_based (rv_ty v)) ANoSessionSupport ;;
              let* a := authenticate E cx (rv_ty v) (rv_auth v) (skipn 48 data) (sub 0 48 data) in
              start_session (rv_ty v) a (sub 16 32 data) (c_slot cx) (u64_at 8 data))
            d (u32_at 4 data) in
  set_data ms w swig (o_bytes o).

(** ** SetRentClaimerV1: set_rent_claimer_v1.rs:76-180 *)
Definition set_rent_claimer_v1 (E : env) (cx : ctx) (w : world) : res world :=
  let ms := c_metas cx in let data := c_data cx in
  need ms 3 ;;
  let swig := mkey ms 0 in let payer := mkey ms 1 in
  owned_by w swig SELF SOwnerMismatchSwigAccount ;;
  check (beq (mkey ms 2) SYSTEM) SInvalidSystemProgram ;;
  check (40 <=? length data)%nat SInvalidInstructionDataTooShort ;;
  let claimer := sub 8 32 data in
  check (negb (beq claimer (zeros 32))) SInvalidRentClaimerValue ;;
  check (negb (beq claimer swig)) SInvalidRentClaimerValue ;;
  let* d := load_config w swig in
  let* ' (h, _, _) := split_parts d in
  let* wa := ok_or (pda E (seeds_wallet swig (h_wbump h))) PInvalidSeeds in
  check (negb (beq claimer wa)) SInvalidRentClaimerValue ;;
  let* o := open_role E cx d (u32_at 4 data) (skipn 40 data) (sub 0 40 data) in
  let* a := has_action P_All [] (o_acts o) in
  let* c := has_action P_CloseSwigAuthority [] (o_acts o) in
  check (a || c) AMissingPermission ;;
  let* r := read_strict (o_tail o) in
  check (negb (is_some r)) SRentClaimerAlreadySet ;;
  let* w1 := rent_topup E ms w payer swig (length d + ENTRY_LEN) in
  write_data ms w1 swig (o_bytes o ++ claimer_entry claimer).

(** All, ManageAuthority or CloseSwigAuthority (close_swig_v1.rs:143-148,
    close_token_account_v1.rs:143-148) *)
Definition may_close (acts : bytes) : res bool :=
  let* a := has_action P_All [] acts in
  let* m := has_action P_ManageAuthority [] acts in
  let* c := has_action P_CloseSwigAuthority [] acts in
  Ok (a || m || c).

(** The configured rent claimer, if any, must be the destination *)
Definition check_claimer (tail : bytes) (dest : key) : res unit :=
  let* r := read_strict tail in
  match r with
  | Some k => check (beq dest k) SInvalidRentClaimerDestination
  | None => Ok tt
  end.

(** ** CloseSwigV1: close_swig_v1.rs:84-213 *)

(** close_swig_v1.rs:194-202: lamports are assigned directly.  The runtime
    requires the total to be unchanged and both accounts to be writable. *)
Definition pay_out (ms : list meta) (w : world) (swig dest : key) (swig_lamports keep : Z) : res world :=
  let amt := sat_sub swig_lamports keep in
  let w1 := upd w swig (mk_account keep (a_owner (w swig)) (a_data (w swig))) in
  let w2 := upd w1 dest (mk_account (a_lamports (w1 dest) + amt) (a_owner (w1 dest)) (a_data (w1 dest))) in
  check (writable ms swig && writable ms dest) RNotWritable ;;
  check (a_lamports (w2 dest) <? U64) RUnbalanced ;;
  check (if beq swig dest then a_lamports (w2 swig) =? a_lamports (w swig)
         else a_lamports (w2 swig) + a_lamports (w2 dest) =? a_lamports (w swig) + a_lamports (w dest))
    RUnbalanced ;;
  Ok w2.

Definition close_swig_v1 (E : env) (cx : ctx) (w : world) : res world :=
  let ms := c_metas cx in let data := c_data cx in
  need ms 4 ;;
  let swig := mkey ms 0 in let wallet := mkey ms 1 in let dest := mkey ms 2 in
  owned_by w swig SELF SOwnerMismatchSwigAccount ;;
  check (beq (mkey ms 3) SYSTEM) SInvalidSystemProgram ;;
  check (8 <=? length data)%nat SInvalidInstructionDataTooShort ;;
  let* d := load_config w swig in
  check (beq wallet (fst (find_pda E (seeds_wallet0 swig)))) SInvalidSeedSwigAccount ;;
  let* o := open_role E cx d (u32_at 4 data) (skipn 8 data) (sub 0 8 data) in
  let* ok := may_close (o_acts o) in
  check ok AMissingPermission ;;
  check_claimer (o_tail o) dest ;;
  let sl := a_lamports (w swig) in
  check (sl <=? rent E (length d)) SWalletNotEmpty ;;
  let wl := a_lamports (w wallet) in
  check (wl <=? rent E 0) SWalletNotEmpty ;;
  let* w1 := if 0 <? wl
             then sys_transfer ms (pda_list E (seeds_wallet swig (h_wbump (o_hdr o)))) w wallet dest wl
             else Ok w in
  let* w2 := pay_out ms w1 swig dest sl (rent E 1) in
  write_data ms w2 swig [D_Closed].

(** ** CloseTokenAccountV1: close_token_account_v1.rs:91-270 *)

(** program/src/lib.rs:205-222 [is_swig_v2] *)
Definition is_swig_v2 (d : bytes) : bool := negb (byte_at 40 d =? 0) && beq (sub 41 3 d) (zeros 3).
(** program/src/lib.rs:224-235 [require_swig_v2] *)
Definition require_swig_v2 (d : bytes) : res unit :=
  check (HDR <=? length d)%nat SInvalidSwigAccountDiscriminator ;;
  check (is_swig_v2 d) SSignV2CannotBeUsedWithSwigV1.

(** util/mod.rs:230-290 [TokenTransfer], 292-350 [TokenClose] *)
Definition token_transfer_ix (prog from to auth : key) (amount : Z) : ix :=
  mk_ix prog [mk_meta from false true; mk_meta to false true; mk_meta auth true false]
    ([3] ++ le_enc 8 amount).
Definition token_close_ix (prog acct dest auth : key) : ix :=
  mk_ix prog [mk_meta acct false true; mk_meta dest false true; mk_meta auth true false] [9].

Definition is_token_program (k : key) : bool := beq k SPL_TOKEN || beq k SPL_TOKEN_2022.

(** One iteration of close_token_account_v1.rs:215-266 *)
Definition close_one (E : env) (ms : list meta) (v2 : bool) (swig wallet dest prog : key)
  (wsigner ssigner : list key) (w : world) (t : key) : res world :=
  check (beq (a_owner (w t)) prog) SOwnerMismatchTokenAccount ;;
  let td := a_data (w t) in
  check (72 <=? length td)%nat PInvalidAccountData ;;
  let auth := sub 32 32 td in
  let is_w := beq auth wallet in
  let is_s := beq auth swig in
  check (is_w || is_s) SInvalidSwigTokenAccountOwner ;;
  (* the wallet signs when it is the expected (V2) or the fallback (V1) authority *)
  let use_w := if v2 then is_w else negb is_s in
  if use_w then cpi E ms wsigner w (token_close_ix prog t dest wallet)
  else cpi E ms ssigner w (token_close_ix prog t dest swig).

Fixpoint close_all (E : env) (ms : list meta) (v2 : bool) (swig wallet dest prog : key)
  (wsigner ssigner : list key) (ts : list meta) (w : world) : res world :=
  match ts with
  | [] => Ok w
  | t :: r =>
    let* w1 := close_one E ms v2 swig wallet dest prog wsigner ssigner w (m_key t) in
    close_all E ms v2 swig wallet dest prog wsigner ssigner r w1
  end.

Definition close_token_account_v1 (E : env) (cx : ctx) (w : world) : res world :=
  let ms := c_metas cx in let data := c_data cx in
  need ms 4 ;;
  let swig := mkey ms 0 in let wallet := mkey ms 1 in let dest := mkey ms 2 in let prog := mkey ms 3 in
  owned_by w swig SELF SOwnerMismatchSwigAccount ;;
  check (8 <=? length data)%nat SInvalidInstructionDataTooShort ;;
  guard (HDR <=? length (a_data (w swig)))%nat ;;
  let* d := load_config w swig in
  let wf := find_pda E (seeds_wallet0 swig) in
  check (beq wallet (fst wf)) SInvalidSeedSwigAccount ;;
  let* o := open_role E cx d (u32_at 4 data) (skipn 8 data) (sub 0 8 data) in
  let* ok := may_close (o_acts o) in
  check ok AMissingPermission ;;
  check_claimer (o_tail o) dest ;;
  check (is_token_program prog) PIncorrectProgramId ;;
  let off := nat_of (u16_at 2 data) in
  check (off <? length ms)%nat SInvalidInstructionDataTooShort ;;
  let* w1 := set_data ms w swig (o_bytes o) in
  close_all E ms (is_swig_v2 d) swig wallet dest prog
    (pda_list E (seeds_wallet swig (snd wf))) (pda_list E (seeds_swig (h_id d) (h_bump d)))
    (skipn off ms) w1.

(** ** TransferAssetsV1: transfer_assets_v1.rs:122-300 *)
Definition transfer_one (E : env) (ms : list meta) (swig wallet : key) (sig : list key)
  (w : world) (src dst prog : key) : res world :=
  let sd := a_data (w src) in
  let dd := a_data (w dst) in
  if negb (is_token_program prog) then Ok w
  else if (length sd <? 72)%nat then Ok w
  else if negb (beq (sub 32 32 sd) swig) then Ok w
  else if (length dd <? 72)%nat then Ok w
  else if negb (beq (sub 32 32 dd) wallet) then Ok w
  else if u64_at 64 sd =? 0 then Ok w
  else cpi E ms sig w (token_transfer_ix prog src dst swig (u64_at 64 sd)).
Fixpoint transfer_triples (E : env) (ms : list meta) (swig wallet : key) (sig : list key)
  (ts : list meta) (w : world) : res world :=
  match ts with
  | a :: b :: c :: r =>
    let* w1 := transfer_one E ms swig wallet sig w (m_key a) (m_key b) (m_key c) in
    transfer_triples E ms swig wallet sig r w1
  | _ => Ok w
  end.

Definition transfer_assets_v1 (E : env) (cx : ctx) (w : world) : res world :=
  let ms := c_metas cx in let data := c_data cx in
  need ms 4 ;;
  let swig := mkey ms 0 in let wallet := mkey ms 1 in
  owned_by w swig SELF SOwnerMismatchSwigAccount ;;
  check (8 <=? length data)%nat SInvalidInstructionDataTooShort ;;
  let* d := load_config w swig in
  let* ' (h, _, _) := split_parts d in
  check (negb (h_wbump h =? 0)) SInvalidInstructionDataTooShort ;;
  check_pda E (seeds_wallet swig (h_wbump h)) wallet SInvalidSeedSwigAccount ;;
  let* o := open_role E cx d (u32_at 4 data) (skipn 8 data) (sub 0 8 data) in
  let* mgr := manages (o_acts o) in
  check mgr AMissingPermission ;;
  let* w1 := set_data ms w swig (o_bytes o) in
  let* w2 := move_lamports ms w1 swig wallet (sat_sub (a_lamports (w1 swig)) (rent E (length d))) in
  transfer_triples E ms swig wallet (pda_list E (seeds_swig (h_id h) (h_bump h))) (skipn 4 ms) w2.

(** ** MigrateToWalletAddressV1: migrate_to_wallet_address_v1.rs:141-270.
    The ownership of the config account is not checked by the handler; the
    runtime rejects the write when the program does not own it.
    [already migrated] compares bytes 40..48 (as the old reserved_lamports) to
    zero while byte 40 is non-zero, which cannot happen. *)
Definition migrate_v1 (E : env) (cx : ctx) (w : world) : res world :=
  let ms := c_metas cx in let data := c_data cx in
  need ms 5 ;;
  let swig := mkey ms 0 in let payer := mkey ms 2 in let wallet := mkey ms 3 in
  check (8 <=? length data)%nat SInvalidInstructionDataTooShort ;;
  let d := a_data (w swig) in
  check (HDR <=? length d)%nat SStateError ;;
  check (h_disc d =? D_Config) SInvalidSwigAccountDiscriminator ;;
  check (negb ((u64_at 40 d =? 0) && negb (byte_at 40 d =? 0))) SStateError ;;
  let* o := open_role E cx d (u32_at 4 data) (skipn 8 data) (sub 0 8 data) in
  let* mgr := manages (o_acts o) in
  check mgr AToManageAuthority ;;
  owned_by w wallet SYSTEM SOwnerMismatchSwigAccount ;;
  no_data w wallet SAccountNotEmptySwigAccount ;;
  let wbump := byte_at 2 data in
  check_pda E (seeds_wallet swig wbump) wallet SInvalidSeedSwigAccount ;;
  let h := header (h_bump d) (h_id d) (h_roles d) (h_counter d) wbump (zeros 3) 0 in
  let* w1 := set_data ms w swig (h ++ o_roles o ++ o_tail o) in
  rent_topup E ms w1 payer wallet 0.
