(** * The records of the code that are read and written as raw bytes

    One definition for each struct with [#[derive(NoPadding)]], in the order of the
    files: the fields in the order of the declaration, with their types.  [Pubkey] is
    32 bytes; [SwigInstruction] is the instruction tag (program/src/instruction.rs:21:
    [repr(u16)]). *)
From Coq Require Import String.
From Verif Require Import Base Layout.
Local Open Scope string_scope.

(* program/src/actions/add_authority_v1.rs:59-67 *)
Definition d_AddAuthorityV1Args : decl := mk_decl "AddAuthorityV1Args" [RC; RAlign 8]
  [("instruction", TTag); ("new_authority_data_len", TU16); ("actions_data_len", TU16); ("new_authority_type", TU16); ("num_actions", TU8); ("_padding", TBytes 3); ("acting_role_id", TU32)].
(* program/src/actions/close_swig_v1.rs:36-40 *)
Definition d_CloseSwigV1Args : decl := mk_decl "CloseSwigV1Args" [RC; RAlign 8]
  [("discriminator", TTag); ("_padding", TBytes 2); ("role_id", TU32)].
(* program/src/actions/close_token_account_v1.rs:39-43 *)
Definition d_CloseTokenAccountV1Args : decl := mk_decl "CloseTokenAccountV1Args" [RC; RAlign 8]
  [("discriminator", TTag); ("token_account_offset", TU16); ("role_id", TU32)].
(* program/src/actions/create_session_v1.rs:34-40 *)
Definition d_CreateSessionV1Args : decl := mk_decl "CreateSessionV1Args" [RC; RAlign 8]
  [("instruction", TTag); ("_padding", TU16); ("role_id", TU32); ("session_duration", TU64); ("session_key", TBytes 32)].
(* program/src/actions/create_sub_account_v1.rs:49-55 *)
Definition d_CreateSubAccountV1Args : decl := mk_decl "CreateSubAccountV1Args" [RC; RAlign 8]
  [("discriminator", TTag); ("_padding1", TU16); ("role_id", TU32); ("sub_account_bump", TU8); ("_padding2", TBytes 7)].
(* program/src/actions/create_sub_account_v2.rs:43-53 *)
Definition d_CreateSubAccountV2Args : decl := mk_decl "CreateSubAccountV2Args" [RC; RAlign 8]
  [("discriminator", TTag); ("_padding1", TU16); ("role_id", TU32); ("state_bump", TU8); ("asset_bump", TU8); ("_padding2", TBytes 6)].
(* program/src/actions/create_v1.rs:43-50 *)
Definition d_CreateV1Args : decl := mk_decl "CreateV1Args" [RC; RAlign 8]
  [("discriminator", TTag); ("authority_type", TU16); ("authority_data_len", TU16); ("bump", TU8); ("wallet_address_bump", TU8); ("id", TBytes 32)].
(* program/src/actions/migrate_to_wallet_address_v1.rs:38-43 *)
Definition d_MigrateToWalletAddressV1Args : decl := mk_decl "MigrateToWalletAddressV1Args" [RC; RAlign 8]
  [("discriminator", TTag); ("wallet_address_bump", TU8); ("_padding", TU8); ("role_id", TU32)].
(* program/src/actions/migrate_to_wallet_address_v1.rs:105-118 *)
Definition d_OldSwig : decl := mk_decl "OldSwig" [RC; RAlign 8]
  [("discriminator", TU8); ("bump", TU8); ("id", TBytes 32); ("roles", TU16); ("role_counter", TU32); ("reserved_lamports", TU64)].
(* program/src/actions/remove_authority_v1.rs:50-56 *)
Definition d_RemoveAuthorityV1Args : decl := mk_decl "RemoveAuthorityV1Args" [RC; RAlign 8]
  [("instruction", TTag); ("authority_payload_len", TU16); ("_padding", TWords 2); ("acting_role_id", TU32); ("authority_to_remove_id", TU32)].
(* program/src/actions/replace_authority_v1.rs:50-60 *)
Definition d_ReplaceAuthorityV1Args : decl := mk_decl "ReplaceAuthorityV1Args" [RC; RAlign 8]
  [("instruction", TTag); ("_padding", TBytes 2); ("acting_role_id", TU32); ("target_role_id", TU32); ("new_authority_len", TU16); ("_trailing_padding", TBytes 2)].
(* program/src/actions/set_rent_claimer_v1.rs:27-32 *)
Definition d_SetRentClaimerV1Args : decl := mk_decl "SetRentClaimerV1Args" [RC; RAlign 8]
  [("discriminator", TTag); ("_padding", TBytes 2); ("role_id", TU32); ("rent_claimer", TBytes 32)].
(* program/src/actions/sign_v2.rs:121-125 *)
Definition d_SignV2Args : decl := mk_decl "SignV2Args" [RC; RAlign 8]
  [("instruction", TTag); ("instruction_payload_len", TU16); ("role_id", TU32)].
(* program/src/actions/sub_account_sign_v1.rs:41-46 *)
Definition d_SubAccountSignV1Args : decl := mk_decl "SubAccountSignV1Args" [RC; RAlign 8]
  [("instruction", TTag); ("instruction_payload_len", TU16); ("role_id", TU32); ("_padding", TBytes 8)].
(* program/src/actions/sub_account_sign_v2.rs:131-137 *)
Definition d_SubAccountSignV2Args : decl := mk_decl "SubAccountSignV2Args" [RC; RAlign 8]
  [("instruction", TTag); ("instruction_payload_len", TU16); ("role_id", TU32); ("subacc_id", TU32); ("_padding", TBytes 4)].
(* program/src/actions/toggle_sub_account_v1.rs:42-48 *)
Definition d_ToggleSubAccountV1Args : decl := mk_decl "ToggleSubAccountV1Args" [RC; RAlign 8]
  [("discriminator", TTag); ("enabled", TBool); ("_padding", TBytes 5); ("role_id", TU32); ("auth_role_id", TU32)].
(* program/src/actions/toggle_sub_account_v2.rs:34-44 *)
Definition d_ToggleSubAccountV2Args : decl := mk_decl "ToggleSubAccountV2Args" [RC; RAlign 8]
  [("discriminator", TTag); ("enabled", TU8); ("_padding", TU8); ("auth_role_id", TU32); ("subacc_id", TU32); ("_padding2", TU32)].
(* program/src/actions/transfer_assets_v1.rs:45-49 *)
Definition d_TransferAssetsV1Args : decl := mk_decl "TransferAssetsV1Args" [RC; RAlign 8]
  [("discriminator", TTag); ("_padding", TU16); ("role_id", TU32)].
(* program/src/actions/update_authority_v1.rs:131-138 *)
Definition d_UpdateAuthorityV1Args : decl := mk_decl "UpdateAuthorityV1Args" [RC; RAlign 8]
  [("instruction", TTag); ("actions_data_len", TU16); ("num_actions", TU8); ("_padding", TBytes 3); ("acting_role_id", TU32); ("authority_to_update_id", TU32)].
(* program/src/actions/withdraw_from_sub_account_v1.rs:46-51 *)
Definition d_WithdrawFromSubAccountV1Args : decl := mk_decl "WithdrawFromSubAccountV1Args" [RC; RAlign 8]
  [("discriminator", TTag); ("_padding", TU16); ("role_id", TU32); ("amount", TU64)].
(* program/src/actions/withdraw_from_sub_account_v2.rs:41-48 *)
Definition d_WithdrawFromSubAccountV2Args : decl := mk_decl "WithdrawFromSubAccountV2Args" [RC; RAlign 8]
  [("discriminator", TTag); ("_padding", TU16); ("role_id", TU32); ("subacc_id", TU32); ("_padding2", TU32); ("amount", TU64)].
(* state/src/action/mod.rs:67-74 *)
Definition d_Action : decl := mk_decl "Action" [RC; RAlign 8]
  [("action_type", TU16); ("length", TU16); ("boundary", TU32)].
(* state/src/action/program.rs:19-22 *)
Definition d_Program : decl := mk_decl "Program" [RC; RAlign 8]
  [("program_id", TBytes 32)].
(* state/src/action/program_curated.rs:44-47 *)
Definition d_ProgramCurated : decl := mk_decl "ProgramCurated" [RC; RAlign 8]
  [("_reserved", TBytes 32)].
(* state/src/action/program_scope.rs:88-109 *)
Definition d_ProgramScope : decl := mk_decl "ProgramScope" [RC; RAlign 8]
  [("current_amount", TU128); ("limit", TU128); ("window", TU64); ("last_reset", TU64); ("program_id", TBytes 32); ("target_account", TBytes 32); ("scope_type", TU64); ("numeric_type", TU64); ("balance_field_start", TU64); ("balance_field_end", TU64)].
(* state/src/action/replace_authority.rs:17-21 *)
Definition d_ReplaceAuthority : decl := mk_decl "ReplaceAuthority" [RC; RAlign 8]
  [("role_id", TU32); ("_padding", TBytes 4)].
(* state/src/action/sol_destination_limit.rs:20-26 *)
Definition d_SolDestinationLimit : decl := mk_decl "SolDestinationLimit" [RC; RAlign 8]
  [("destination", TBytes 32); ("amount", TU64)].
(* state/src/action/sol_limit.rs:18-21 *)
Definition d_SolLimit : decl := mk_decl "SolLimit" [RC; RAlign 8]
  [("amount", TU64)].
(* state/src/action/sol_recurring_destination_limit.rs:22-33 *)
Definition d_SolRecurringDestinationLimit : decl := mk_decl "SolRecurringDestinationLimit" [RC; RAlign 8]
  [("destination", TBytes 32); ("recurring_amount", TU64); ("window", TU64); ("last_reset", TU64); ("current_amount", TU64)].
(* state/src/action/sol_recurring_limit.rs:20-29 *)
Definition d_SolRecurringLimit : decl := mk_decl "SolRecurringLimit" [RC; RAlign 8]
  [("recurring_amount", TU64); ("window", TU64); ("last_reset", TU64); ("current_amount", TU64)].
(* state/src/action/stake_limit.rs:20-23 *)
Definition d_StakeLimit : decl := mk_decl "StakeLimit" [RC; RAlign 8]
  [("amount", TU64)].
(* state/src/action/stake_recurring_limit.rs:21-30 *)
Definition d_StakeRecurringLimit : decl := mk_decl "StakeRecurringLimit" [RC; RAlign 8]
  [("recurring_amount", TU64); ("window", TU64); ("last_reset", TU64); ("current_amount", TU64)].
(* state/src/action/sub_account.rs:21-33 *)
Definition d_SubAccount : decl := mk_decl "SubAccount" [RC; RAlign 8]
  [("sub_account", TBytes 32); ("bump", TU8); ("enabled", TBool); ("_padding", TBytes 2); ("role_id", TU32); ("swig_id", TBytes 32)].
(* state/src/action/sub_account_v2.rs:54-58 *)
Definition d_ScopedV2 : decl := mk_decl "scoped_v2_permission!" [RC; RAlign 8]
  [("subacc_id", TU32); ("_padding", TBytes 4)].
(* state/src/action/token_destination_limit.rs:22-29 *)
Definition d_TokenDestinationLimit : decl := mk_decl "TokenDestinationLimit" [RC; RAlign 8]
  [("token_mint", TBytes 32); ("destination", TBytes 32); ("amount", TU64)].
(* state/src/action/token_limit.rs:20-25 *)
Definition d_TokenLimit : decl := mk_decl "TokenLimit" [RC; RAlign 8]
  [("token_mint", TBytes 32); ("current_amount", TU64)].
(* state/src/action/token_recurring_destination_limit.rs:25-38 *)
Definition d_TokenRecurringDestinationLimit : decl := mk_decl "TokenRecurringDestinationLimit" [RC; RAlign 8]
  [("token_mint", TBytes 32); ("destination", TBytes 32); ("recurring_amount", TU64); ("window", TU64); ("last_reset", TU64); ("current_amount", TU64)].
(* state/src/action/token_recurring_limit.rs:22-33 *)
Definition d_TokenRecurringLimit : decl := mk_decl "TokenRecurringLimit" [RC; RAlign 8]
  [("token_mint", TBytes 32); ("window", TU64); ("limit", TU64); ("current", TU64); ("last_reset", TU64)].
(* state/src/authority/ed25519.rs:24-27 *)
Definition d_ED25519Authority : decl := mk_decl "ED25519Authority" [RC; RAlign 8]
  [("public_key", TBytes 32)].
(* state/src/authority/ed25519.rs:125-132 *)
Definition d_CreateEd25519SessionAuthority : decl := mk_decl "CreateEd25519SessionAuthority" [RC; RAlign 8]
  [("public_key", TBytes 32); ("session_key", TBytes 32); ("max_session_length", TU64)].
(* state/src/authority/ed25519.rs:169-178 *)
Definition d_Ed25519SessionAuthority : decl := mk_decl "Ed25519SessionAuthority" [RC; RAlign 8]
  [("public_key", TBytes 32); ("session_key", TBytes 32); ("max_session_length", TU64); ("current_session_expiration", TU64)].
(* state/src/authority/programexec/mod.rs:32-40 *)
Definition d_ProgramExecAuthority : decl := mk_decl "ProgramExecAuthority" [RC; RAlign 8]
  [("program_id", TBytes 32); ("instruction_prefix_len", TU8); ("_padding", TBytes 7); ("instruction_prefix", TBytes 40)].
(* state/src/authority/programexec/session.rs:19-32 *)
Definition d_CreateProgramExecSessionAuthority : decl := mk_decl "CreateProgramExecSessionAuthority" [RC; RAlign 8]
  [("program_id", TBytes 32); ("instruction_prefix_len", TU8); ("_padding", TBytes 7); ("instruction_prefix", TBytes 40); ("session_key", TBytes 32); ("max_session_length", TU64)].
(* state/src/authority/programexec/session.rs:80-96 *)
Definition d_ProgramExecSessionAuthority : decl := mk_decl "ProgramExecSessionAuthority" [RC; RAlign 8]
  [("program_id", TBytes 32); ("instruction_prefix_len", TU8); ("_padding", TBytes 7); ("instruction_prefix", TBytes 40); ("session_key", TBytes 32); ("max_session_length", TU64); ("current_session_expiration", TU64)].
(* state/src/authority/secp256k1.rs:28-35 *)
Definition d_CreateSecp256k1SessionAuthority : decl := mk_decl "CreateSecp256k1SessionAuthority" [RC; RAlign 8]
  [("public_key", TBytes 64); ("session_key", TBytes 32); ("max_session_length", TU64)].
(* state/src/authority/secp256k1.rs:73-80 *)
Definition d_Secp256k1Authority : decl := mk_decl "Secp256k1Authority" [RC; RAlign 8]
  [("public_key", TBytes 33); ("_padding", TBytes 3); ("signature_odometer", TU32)].
(* state/src/authority/secp256k1.rs:196-208 *)
Definition d_Secp256k1SessionAuthority : decl := mk_decl "Secp256k1SessionAuthority" [RC; RAlign 8]
  [("public_key", TBytes 33); ("_padding", TBytes 3); ("signature_odometer", TU32); ("session_key", TBytes 32); ("max_session_age", TU64); ("current_session_expiration", TU64)].
(* state/src/authority/secp256k1.rs:582-590 *)
Definition d_AccountsPayload : decl := mk_decl "AccountsPayload" [RC; RAlign 8]
  [("pubkey", TBytes 32); ("is_writable", TBool); ("is_signer", TBool); ("_padding", TBytes 6)].
(* state/src/authority/secp256r1.rs:89-98 *)
Definition d_CreateSecp256r1SessionAuthority : decl := mk_decl "CreateSecp256r1SessionAuthority" [RC; RAlign 8]
  [("public_key", TBytes 33); ("_padding", TBytes 7); ("session_key", TBytes 32); ("max_session_length", TU64)].
(* state/src/authority/secp256r1.rs:137-144 *)
Definition d_Secp256r1Authority : decl := mk_decl "Secp256r1Authority" [RC; RAlign 8]
  [("public_key", TBytes 33); ("_padding", TBytes 3); ("signature_odometer", TU32)].
(* state/src/authority/secp256r1.rs:236-248 *)
Definition d_Secp256r1SessionAuthority : decl := mk_decl "Secp256r1SessionAuthority" [RC; RAlign 8]
  [("public_key", TBytes 33); ("_padding", TBytes 3); ("signature_odometer", TU32); ("session_key", TBytes 32); ("max_session_age", TU64); ("current_session_expiration", TU64)].
(* state/src/role.rs:22-34 *)
Definition d_Position : decl := mk_decl "Position" [RC; RAlign 8]
  [("authority_type", TU16); ("authority_length", TU16); ("num_actions", TU16); ("padding", TU16); ("id", TU32); ("boundary", TU32)].
(* state/src/sub_account_v2.rs:10-25 *)
Definition d_SubAccountV2 : decl := mk_decl "SubAccountV2" [RC; RAlign 8]
  [("discriminator", TU8); ("bump", TU8); ("asset_bump", TU8); ("enabled", TU8); ("subacc_id", TU32); ("swig_id", TBytes 32); ("sub_account", TBytes 32)].
(* state/src/swig.rs:484-503 *)
Definition d_Swig : decl := mk_decl "Swig" [RC; RAlign 8]
  [("discriminator", TU8); ("bump", TU8); ("id", TBytes 32); ("roles", TU16); ("role_counter", TU32); ("wallet_bump", TU8); ("_padding", TBytes 3); ("sub_account_counter", TU32)].

(* all of them *)
Definition declared : list decl :=
  [d_AddAuthorityV1Args; d_CloseSwigV1Args; d_CloseTokenAccountV1Args; d_CreateSessionV1Args;
   d_CreateSubAccountV1Args; d_CreateSubAccountV2Args; d_CreateV1Args; d_MigrateToWalletAddressV1Args;
   d_OldSwig; d_RemoveAuthorityV1Args; d_ReplaceAuthorityV1Args; d_SetRentClaimerV1Args;
   d_SignV2Args; d_SubAccountSignV1Args; d_SubAccountSignV2Args; d_ToggleSubAccountV1Args;
   d_ToggleSubAccountV2Args; d_TransferAssetsV1Args; d_UpdateAuthorityV1Args; d_WithdrawFromSubAccountV1Args;
   d_WithdrawFromSubAccountV2Args; d_Action; d_Program; d_ProgramCurated;
   d_ProgramScope; d_ReplaceAuthority; d_SolDestinationLimit; d_SolLimit;
   d_SolRecurringDestinationLimit; d_SolRecurringLimit; d_StakeLimit; d_StakeRecurringLimit;
   d_SubAccount; d_ScopedV2; d_TokenDestinationLimit; d_TokenLimit;
   d_TokenRecurringDestinationLimit; d_TokenRecurringLimit; d_ED25519Authority; d_CreateEd25519SessionAuthority;
   d_Ed25519SessionAuthority; d_ProgramExecAuthority; d_CreateProgramExecSessionAuthority; d_ProgramExecSessionAuthority;
   d_CreateSecp256k1SessionAuthority; d_Secp256k1Authority; d_Secp256k1SessionAuthority; d_AccountsPayload;
   d_CreateSecp256r1SessionAuthority; d_Secp256r1Authority; d_Secp256r1SessionAuthority; d_Position;
   d_SubAccountV2; d_Swig].

(* with the constant LEN of each; the line is that of the constant *)
Definition lengths : list (decl * len_const) := [
  (* program/src/actions/add_authority_v1.rs:70 *) (d_AddAuthorityV1Args, fun A => size_of A d_AddAuthorityV1Args);
  (* program/src/actions/close_swig_v1.rs:53 *) (d_CloseSwigV1Args, fun A => size_of A d_CloseSwigV1Args);
  (* program/src/actions/close_token_account_v1.rs:56 *) (d_CloseTokenAccountV1Args, fun A => size_of A d_CloseTokenAccountV1Args);
  (* program/src/actions/create_session_v1.rs:43 *) (d_CreateSessionV1Args, fun A => size_of A d_CreateSessionV1Args);
  (* program/src/actions/create_sub_account_v1.rs:75 *) (d_CreateSubAccountV1Args, fun A => size_of A d_CreateSubAccountV1Args);
  (* program/src/actions/create_sub_account_v2.rs:69 *) (d_CreateSubAccountV2Args, fun A => size_of A d_CreateSubAccountV2Args);
  (* program/src/actions/create_v1.rs:80 *) (d_CreateV1Args, fun A => size_of A d_CreateV1Args);
  (* program/src/actions/migrate_to_wallet_address_v1.rs:62 *) (d_MigrateToWalletAddressV1Args, fun A => size_of A d_MigrateToWalletAddressV1Args);
  (* program/src/actions/migrate_to_wallet_address_v1.rs:121 *) (d_OldSwig, fun A => size_of A d_OldSwig);
  (* program/src/actions/remove_authority_v1.rs:59 *) (d_RemoveAuthorityV1Args, fun A => size_of A d_RemoveAuthorityV1Args);
  (* program/src/actions/replace_authority_v1.rs:63 *) (d_ReplaceAuthorityV1Args, fun A => size_of A d_ReplaceAuthorityV1Args);
  (* program/src/actions/set_rent_claimer_v1.rs:46 *) (d_SetRentClaimerV1Args, fun A => size_of A d_SetRentClaimerV1Args);
  (* program/src/actions/sign_v2.rs:143 *) (d_SignV2Args, fun A => size_of A d_SignV2Args);
  (* program/src/actions/sub_account_sign_v1.rs:65 *) (d_SubAccountSignV1Args, fun A => size_of A d_SubAccountSignV1Args);
  (* program/src/actions/sub_account_sign_v2.rs:152 *) (d_SubAccountSignV2Args, fun A => size_of A d_SubAccountSignV2Args);
  (* program/src/actions/toggle_sub_account_v1.rs:68 *) (d_ToggleSubAccountV1Args, fun A => size_of A d_ToggleSubAccountV1Args);
  (* program/src/actions/toggle_sub_account_v2.rs:60 *) (d_ToggleSubAccountV2Args, fun A => size_of A d_ToggleSubAccountV2Args);
  (* program/src/actions/transfer_assets_v1.rs:66 *) (d_TransferAssetsV1Args, fun A => size_of A d_TransferAssetsV1Args);
  (* program/src/actions/update_authority_v1.rs:141 *) (d_UpdateAuthorityV1Args, fun A => size_of A d_UpdateAuthorityV1Args);
  (* program/src/actions/withdraw_from_sub_account_v1.rs:70 *) (d_WithdrawFromSubAccountV1Args, fun A => size_of A d_WithdrawFromSubAccountV1Args);
  (* program/src/actions/withdraw_from_sub_account_v2.rs:64 *) (d_WithdrawFromSubAccountV2Args, fun A => size_of A d_WithdrawFromSubAccountV2Args);
  (* state/src/action/mod.rs:85 *) (d_Action, fun A => size_of A d_Action);
  (* state/src/action/program.rs:26 *) (d_Program, fun _ => (32)%nat);
  (* state/src/action/program_curated.rs:74 *) (d_ProgramCurated, fun _ => (32)%nat);
  (* state/src/action/program_scope.rs:410 *) (d_ProgramScope, fun _ => 144%nat);
  (* state/src/action/replace_authority.rs:33 *) (d_ReplaceAuthority, fun _ => (8)%nat);
  (* state/src/action/sol_destination_limit.rs:60 *) (d_SolDestinationLimit, fun A => size_of A d_SolDestinationLimit);
  (* state/src/action/sol_limit.rs:43 *) (d_SolLimit, fun A => size_of A d_SolLimit);
  (* state/src/action/sol_recurring_destination_limit.rs:84 *) (d_SolRecurringDestinationLimit, fun A => size_of A d_SolRecurringDestinationLimit);
  (* state/src/action/sol_recurring_limit.rs:62 *) (d_SolRecurringLimit, fun A => size_of A d_SolRecurringLimit);
  (* state/src/action/stake_limit.rs:49 *) (d_StakeLimit, fun A => size_of A d_StakeLimit);
  (* state/src/action/stake_recurring_limit.rs:64 *) (d_StakeRecurringLimit, fun A => size_of A d_StakeRecurringLimit);
  (* state/src/action/sub_account.rs:39 *) (d_SubAccount, fun _ => (72)%nat);
  (* state/src/action/sub_account_v2.rs:72 *) (d_ScopedV2, fun _ => (8)%nat);
  (* state/src/action/token_destination_limit.rs:71 *) (d_TokenDestinationLimit, fun A => size_of A d_TokenDestinationLimit);
  (* state/src/action/token_limit.rs:48 *) (d_TokenLimit, fun _ => (40)%nat);
  (* state/src/action/token_recurring_destination_limit.rs:95 *) (d_TokenRecurringDestinationLimit, fun A => size_of A d_TokenRecurringDestinationLimit);
  (* state/src/action/token_recurring_limit.rs:64 *) (d_TokenRecurringLimit, fun _ => (64)%nat);
  (* state/src/authority/ed25519.rs:109 *) (d_ED25519Authority, fun A => size_of A d_ED25519Authority);
  (* state/src/authority/ed25519.rs:159 *) (d_CreateEd25519SessionAuthority, fun _ => (64 + 8)%nat);
  (* state/src/authority/ed25519.rs:198 *) (d_Ed25519SessionAuthority, fun A => size_of A d_Ed25519SessionAuthority);
  (* state/src/authority/programexec/mod.rs:95 *) (d_ProgramExecAuthority, fun A => size_of A d_ProgramExecAuthority);
  (* state/src/authority/programexec/session.rs:62 *) (d_CreateProgramExecSessionAuthority, fun A => size_of A d_ProgramExecSessionAuthority);
  (* state/src/authority/programexec/session.rs:127 *) (d_ProgramExecSessionAuthority, fun A => size_of A d_ProgramExecSessionAuthority);
  (* state/src/authority/secp256k1.rs:54 *) (d_CreateSecp256k1SessionAuthority, fun _ => (64 + 32 + 8)%nat);
  (* state/src/authority/secp256k1.rs:94 *) (d_Secp256k1Authority, fun A => size_of A d_Secp256k1Authority);
  (* state/src/authority/secp256k1.rs:211 *) (d_Secp256k1SessionAuthority, fun A => size_of A d_Secp256k1SessionAuthority);
  (* state/src/authority/secp256k1.rs:610 *) (d_AccountsPayload, fun A => size_of A d_AccountsPayload);
  (* state/src/authority/secp256r1.rs:118 *) (d_CreateSecp256r1SessionAuthority, fun _ => (33 + 7 + 32 + 8)%nat);
  (* state/src/authority/secp256r1.rs:158 *) (d_Secp256r1Authority, fun A => size_of A d_Secp256r1Authority);
  (* state/src/authority/secp256r1.rs:251 *) (d_Secp256r1SessionAuthority, fun A => size_of A d_Secp256r1SessionAuthority);
  (* state/src/role.rs:222 *) (d_Position, fun A => size_of A d_Position);
  (* state/src/sub_account_v2.rs:30 *) (d_SubAccountV2, fun _ => (72)%nat);
  (* state/src/swig.rs:676 *) (d_Swig, fun A => size_of A d_Swig)].
