{
 "claims": [
  {
   "property": "C01",
   "status": "proved",
   "theorems": [
    "C01_well_formed",
    "C01_instructions_see_configurations"
   ],
   "note": "every history of admissible events from a chain without wallets; uniqueness of the decoding included"
  },
  {
   "property": "C02",
   "status": "proved",
   "theorems": [
    "C02_add"
   ],
   "note": "the acting role's signature counter is the only other change ([used]); needs room for one more role (see C53)"
  },
  {
   "property": "C03",
   "status": "proved",
   "theorems": [
    "C03_remove"
   ],
   "note": ""
  },
  {
   "property": "C04",
   "status": "proved",
   "theorems": [
    "C04_update"
   ],
   "note": ""
  },
  {
   "property": "C05",
   "status": "proved",
   "theorems": [
    "C05_C12_replace"
   ],
   "note": ""
  },
  {
   "property": "C06",
   "status": "proved",
   "theorems": [
    "C06_ids_not_reused"
   ],
   "note": "admissible events keep 300 ids in reserve below 2^32 and 2^16 roles (see C53)"
  },
  {
   "property": "C07",
   "status": "proved",
   "theorems": [
    "C07_root_stays"
   ],
   "note": ""
  },
  {
   "property": "C08",
   "status": "proved",
   "theorems": [
    "C08_last_manager_refuted"
   ],
   "note": "the claim under test is false; witness history"
  },
  {
   "property": "C09",
   "status": "proved",
   "theorems": [
    "C09_permissions"
   ],
   "note": ""
  },
  {
   "property": "C10",
   "status": "proved",
   "theorems": [
    "C10_lookup"
   ],
   "note": ""
  },
  {
   "property": "C11",
   "status": "proved",
   "theorems": [
    "C11_only_managers"
   ],
   "note": ""
  },
  {
   "property": "C12",
   "status": "proved",
   "theorems": [
    "C05_C12_replace"
   ],
   "note": ""
  },
  {
   "property": "C13",
   "status": "proved",
   "theorems": [
    "C13_no_change_without_role"
   ],
   "note": ""
  },
  {
   "property": "C14",
   "status": "proved",
   "theorems": [
    "C14_failed_calls_change_nothing",
    "C14_all_inner_run"
   ],
   "note": "Atomicity of a failed call is the definition of a history step, as on chain; the theorem about inner instructions is over all payloads and all behaviours of called programs."
  },
  {
   "property": "C15",
   "status": "proved",
   "theorems": [
    "C15_ed25519"
   ],
   "note": "For every successful instruction that needs a role, on any account list."
  },
  {
   "property": "C16",
   "status": "proved",
   "theorems": [
    "C16_sessions_end",
    "C16_new_role_has_no_session"
   ],
   "note": "Over all histories; excludes only histories in which that role opens another session or its credential is replaced in between."
  },
  {
   "property": "C17",
   "status": "proved",
   "theorems": [
    "C17_next_counter",
    "C17_signature_once"
   ],
   "note": "Over all histories with fewer than 2^32 steps by that role and no replacement of its credential."
  },
  {
   "property": "C18",
   "status": "proved",
   "theorems": [
    "C18_replay_refuted"
   ],
   "note": "Finding: the claim under test is false; the theorem exhibits a history in which the same signed call succeeds twice."
  },
  {
   "property": "C19",
   "status": "proved",
   "theorems": [
    "C19_k1_commits",
    "C19_r1_commits",
    "C19_account_count_refuted"
   ],
   "note": "Up to an explicit hash collision; without equal account counts the text is ambiguous, which is refuted by a witness."
  },
  {
   "property": "C20",
   "status": "proved",
   "theorems": [
    "C20_cross_role_refuted"
   ],
   "note": "Finding: the claim under test is false; two calls with the same signature act as different roles."
  },
  {
   "property": "C21",
   "status": "proved",
   "theorems": [
    "C21_precompile"
   ],
   "note": "The precompile's own signature offset (bytes 2-3) is not checked by the code and is not part of the statement; the runtime's verification itself is outside the model."
  },
  {
   "property": "C22",
   "status": "proved",
   "theorems": [
    "C22_challenge_bound",
    "C22_rebuilt"
   ],
   "note": "C22_challenge_bound is for client data in the usual form (type first, challenge second), up to a SHA-256 collision; C22_rebuilt for every permitted field order."
  },
  {
   "property": "C23",
   "status": "proved",
   "theorems": [
    "C23_program_ran",
    "C23_one_account_refuted"
   ],
   "note": "An earlier instruction with fewer than two accounts is not excluded by the code: shown by the refutation."
  },
  {
   "property": "C24",
   "status": "proved",
   "theorems": [
    "C24_dead_prefix",
    "C24_dead_prefix_refuted"
   ],
   "note": "Finding: the claim under test is false; roles with such prefixes can never act."
  },
  {
   "property": "C25",
   "status": "proved",
   "theorems": [
    "C25_one_shot_limits"
   ],
   "note": ""
  },
  {
   "property": "C26",
   "status": "proved",
   "theorems": [
    "C26_recurring_limits"
   ],
   "note": "for payloads accepted by validation with positive window; also completeness of granting"
  },
  {
   "property": "C27",
   "status": "proved",
   "theorems": [
    "C27_sliding_window_refuted",
    "C27_zero_window_aborts"
   ],
   "note": "the claim under test is refuted by a witness; zero-window abort is universal"
  },
  {
   "property": "C28",
   "status": "proved",
   "theorems": [
    "C28_recurring_destination_limits",
    "C28_future_refresh",
    "C28_not_before_refresh_refuted"
   ],
   "note": ""
  },
  {
   "property": "C29",
   "status": "proved",
   "theorems": [
    "C29_program_scope_limits"
   ],
   "note": "limit below 2^128-1 (saturating addition)"
  },
  {
   "property": "C30",
   "status": "proved",
   "theorems": [
    "C30_sol_allowance",
    "C30_one_shot",
    "C30_no_permission"
   ],
   "note": "For every behaviour of the called programs that respects account ownership (foreign_ok)."
  },
  {
   "property": "C31",
   "status": "proved",
   "theorems": [
    "C31_sol_destinations"
   ],
   "note": ""
  },
  {
   "property": "C32",
   "status": "proved",
   "theorems": [
    "C32_token_allowance"
   ],
   "note": "Up to an explicit SHA-256 collision on the protected bytes of an account. Accounts closed in the call are the subject of C33."
  },
  {
   "property": "C33",
   "status": "proved",
   "theorems": [
    "C33_drain_by_closing_refuted"
   ],
   "note": "Finding: the claim under test is false."
  },
  {
   "property": "C34",
   "status": "proved",
   "theorems": [
    "C34_wallet_reassigned_refuted"
   ],
   "note": "Finding: the claim under test is false."
  },
  {
   "property": "C35",
   "status": "proved",
   "theorems": [
    "C35_allowed_programs"
   ],
   "note": ""
  },
  {
   "property": "C36",
   "status": "proved",
   "theorems": [
    "C36_config_kept"
   ],
   "note": "admissible excludes a collision of the configuration hash (clash)."
  },
  {
   "property": "C37",
   "status": "proved",
   "theorems": [
    "C37_own_scope",
    "C37_scope_uncharged_refuted"
   ],
   "note": "Proved when no other role of the wallet has a scope on the account and the call does not give the wallet program itself. Finding: the unrestricted claim is false when another role has an older entry about the account."
  },
  {
   "property": "C38",
   "status": "proved",
   "theorems": [
    "C38_stake_allowance"
   ],
   "note": "Up to an explicit SHA-256 collision on the protected bytes of an account."
  },
  {
   "property": "C39",
   "status": "proved",
   "theorems": [
    "C39_compact_roundtrip"
   ],
   "note": ""
  },
  {
   "property": "C40",
   "status": "proved",
   "theorems": [
    "C40_inner_privileges",
    "C40_decoded"
   ],
   "note": ""
  },
  {
   "property": "C41",
   "status": "proved",
   "theorems": [
    "C41_claimer_set",
    "C41_claimer_stays",
    "C41_claimer_binds"
   ],
   "note": "That the claimer is not the wallet address holds when it is set; a later migration may move the wallet address."
  },
  {
   "property": "C42",
   "status": "proved",
   "theorems": [
    "C42_close",
    "C42_closed_for_good"
   ],
   "note": "The payout is for a destination other than the configuration account and the wallet address."
  },
  {
   "property": "C43",
   "status": "proved",
   "theorems": [
    "C43_create",
    "C43_unknown",
    "C43_manager",
    "C43_manager_refuted"
   ],
   "note": "The last part of the claim holds for permissions encoded as clients encode them and is refuted for crafted bytes."
  },
  {
   "property": "C44",
   "status": "proved",
   "theorems": [
    "C44_creation",
    "C44_increasing",
    "C44_records_stay"
   ],
   "note": ""
  },
  {
   "property": "C45",
   "status": "proved",
   "theorems": [
    "C45_default_deny"
   ],
   "note": ""
  },
  {
   "property": "C46",
   "status": "proved",
   "theorems": [
    "C46_withdraw"
   ],
   "note": ""
  },
  {
   "property": "C47",
   "status": "proved",
   "theorems": [
    "C47_kill_switch_refuted"
   ],
   "note": "Finding: the claim under test is false."
  },
  {
   "property": "C48",
   "status": "proved",
   "theorems": [
    "C48_sign",
    "C48_withdraw"
   ],
   "note": ""
  },
  {
   "property": "C49",
   "status": "proved",
   "theorems": [
    "C49_migration",
    "C49_once_refuted"
   ],
   "note": "Finding: the claim under test is false."
  },
  {
   "property": "C50",
   "status": "proved",
   "theorems": [
    "C50_transfer"
   ],
   "note": ""
  },
  {
   "property": "C51",
   "status": "proved",
   "theorems": [
    "C51_add_permissions",
    "C51_create_sub_account",
    "C51_edit_after_use_refuted"
   ],
   "note": "Refuted claim with a witness history; the two general theorems say when AddActions and the automatic V2 grant can succeed at all."
  },
  {
   "property": "C52",
   "status": "proved",
   "theorems": [
    "C52_curated_lacks"
   ],
   "note": "General consequence of the byte arrays in the source; the example shows the refused stake call."
  },
  {
   "property": "C53",
   "status": "proved",
   "theorems": [
    "C53_add_to_full_erases",
    "C53_others_stay_refuted"
   ],
   "note": "Finding: the claim under test is false for wallets with 65535 roles. Arithmetic wraps because the workspace does not enable overflow checks; the compute budget of a transaction, which may stop the last steps, is not modelled."
  },
  {
   "property": "C54",
   "status": "proved",
   "theorems": [
    "C54_privileges_kept_refuted"
   ],
   "note": "Refuted with a two-instruction witness."
  },
  {
   "property": "C55",
   "status": "proved",
   "theorems": [
    "C55_stranded_refuted"
   ],
   "note": "Finding: the claim under test is false."
  },
  {
   "property": "C56",
   "status": "proved",
   "theorems": [
    "C56_second_record_refuted"
   ],
   "note": "Finding: the claim under test is false."
  },
  {
   "property": "C57",
   "status": "proved",
   "theorems": [
    "C57_close_token"
   ],
   "note": ""
  },
  {
   "property": "C58",
   "status": "proved",
   "theorems": [
    "C58_create",
    "C58_add",
    "C04_update"
   ],
   "note": "Updates are covered by the last conjunct of C04_update."
  },
  {
   "property": "C59",
   "status": "proved",
   "theorems": [
    "C59_create",
    "C59_toggle",
    "C59_toggle_v2"
   ],
   "note": ""
  },
  {
   "property": "C60",
   "status": "proved",
   "theorems": [
    "C60_stays_exempt",
    "C60_created_exempt"
   ],
   "note": "The rent function is arbitrary as long as it is non-negative and monotone in the size."
  },
  {
   "property": "C61",
   "status": "proved",
   "theorems": [
    "C61_configuration_spares"
   ],
   "note": ""
  },
  {
   "property": "C62",
   "status": "proved",
   "theorems": [
    "C62_address",
    "C62_vouchers"
   ],
   "note": "Over all histories from a chain without wallets."
  },
  {
   "property": "C63",
   "status": "proved",
   "theorems": [
    "C63_id_and_bump",
    "C63_one_wallet_per_id_refuted",
    "C63_sub_v1_refuted",
    "C63_sub_v2_refuted"
   ],
   "note": "Finding: the claim under test is false; creation accepts any bump, sub-account addresses derive from the id alone, so a stranger's wallet with the same id reaches them. The general theorem is for id and bump together."
  },
  {
   "property": "C64",
   "status": "proved",
   "theorems": [
    "C64_manager_can_add"
   ],
   "note": "Credential shown by a signing key (Ed25519 or a running session); the accounts of the instruction are neither stake accounts nor watched by a ProgramScope permission."
  },
  {
   "property": "C65",
   "status": "proved",
   "theorems": [
    "C65_manager_can_remove"
   ],
   "note": "As C64."
  },
  {
   "property": "C66",
   "status": "proved",
   "theorems": [
    "C66_locked_fails",
    "C66_locked_forever",
    "C66_stays_manageable_refuted"
   ],
   "note": "Finding: the claim under test is false; a role that may only manage locks everybody out for good with one AddAuthority. The two general theorems say what stops working and that it never works again."
  },
  {
   "property": "C67",
   "status": "proved",
   "theorems": [
    "C67_create",
    "C67_ed",
    "C67_k1",
    "C67_k1_old",
    "C67_r1",
    "C67_r1_old",
    "C67_exec"
   ],
   "note": "The three program-execution builders of C70 that misplace accounts are not covered."
  },
  {
   "property": "C68",
   "status": "proved",
   "theorems": [
    "C68_inner",
    "C68_privileges_refuted"
   ],
   "note": "Finding: the part about privileges is false in general. The V1 signing builders for secp256k1, secp256r1 and program execution, which C70 shows unusable, are not covered."
  },
  {
   "property": "C69",
   "status": "proved",
   "theorems": [
    "C69_ed",
    "C69_k1",
    "C69_r1",
    "C69_exec",
    "C69_proof"
   ],
   "note": "At most 64 accounts for secp256k1 and secp256r1, 256 for program execution; the flags of the accounts are as built for secp256k1 and secp256r1 (the digest covers them)."
  },
  {
   "property": "C70",
   "status": "proved",
   "theorems": [
    "C70_k1_refused",
    "C70_r1_refused",
    "C70_withdraw_refused",
    "C70_withdraw_token_refused",
    "C70_sub_sign_refused"
   ],
   "note": "Finding: the claim under test is false; general theorems, one per kind of builder. Session types of secp256k1 and secp256r1 are not covered by the first two."
  },
  {
   "property": "C71",
   "status": "proved",
   "theorems": [
    "C71_add",
    "C71_remove",
    "C71_session",
    "C71_claimer",
    "C71_replace"
   ],
   "note": "For any accepted credential (C69 shows which ones of the client library are). UpdateAuthority, and key replacement by program-execution roles, are not covered. The accounts are not watched by a role and are no stake accounts (C66 shows why)."
  },
  {
   "property": "C72",
   "status": "proved",
   "theorems": [
    "C72_full_access",
    "C72_within_limits"
   ],
   "note": "The inner instructions are those of other programs and have an account. For limited roles: at most 100 accounts, at most one token account of the wallet loses tokens, no stake accounts and no watched accounts are listed, at most one destination if destinations are limited."
  },
  {
   "property": "C73",
   "status": "proved",
   "theorems": [
    "C73_payment",
    "C73_payment_ed",
    "C73_payment_limited"
   ],
   "note": "Assumes that the system program does what a transfer asks for (system_pays); for limited roles no token account of the wallet is listed."
  },
  {
   "property": "C74",
   "status": "proved",
   "theorems": [
    "C74_create",
    "C74_client",
    "C74_squatted",
    "C74_prefunded_refuted"
   ],
   "note": "The listed accounts belong neither to the wallet program nor to the stake program, and permissions that carry counters start unspent. Finding (C74_prefunded_refuted): create_v1 computes what a prefunded address lacks, but then calls CreateAccount, which refuses any address with lamports. Another bump of the same id gives another address."
  },
  {
   "property": "C75",
   "status": "proved",
   "theorems": [
    "C75_bystanders"
   ],
   "note": "Assumes of other programs only that they respect missing signatures (guarded) and the runtime's ownership rules (foreign_ok). Extends C61 to every instruction, nested calls and histories."
  },
  {
   "property": "C76",
   "status": "proved",
   "theorems": [
    "C76_listing",
    "C76_no_role",
    "C76_granted",
    "C76_question",
    "C76_hidden_refuted",
    "C76_denied_refuted",
    "C76_take_refuted"
   ],
   "note": "Findings: the listing leaves out limits on accounts of programs, the permission to close, and used sub-account permissions; a renewing limit that was just granted is denied, because the SDK compares it with its remaining amount; taking one permission away by its kind takes all of the kind away."
  },
  {
   "property": "C77",
   "status": "proved",
   "theorems": [
    "C77_all",
    "C77_manage",
    "C77_spend",
    "C77_counts",
    "C77_yes_refuted",
    "C77_no_refuted",
    "C77_manage_refuted",
    "C77_count_refuted"
   ],
   "note": "The answers are exactly characterised; each of them differs from what the program decides, as the four refutations show."
  },
  {
   "property": "C78",
   "status": "proved",
   "theorems": [
    "C78_lookup",
    "C78_shadowed",
    "C78_counter",
    "C78_up_to_date"
   ],
   "note": "C78_shadowed covers Ed25519 and secp keys. C78_up_to_date is for secp256k1 roles without sessions."
  },
  {
   "property": "C79",
   "status": "proved",
   "theorems": [
    "C79_behind_k1",
    "C79_behind_r1",
    "C79_batch_k1",
    "C79_batch_r1",
    "C79_forgotten_k1",
    "C79_forgotten_r1"
   ],
   "note": "Finding: a batch of payments, and any request after adding a role or opening a session, reuses a counter. Exceptions in the conclusion: the key was replaced in between, or 2^32 further requests of the role were made."
  },
  {
   "property": "C80",
   "status": "proved",
   "theorems": [
    "C80_first_byte",
    "C80_fee_payer"
   ],
   "note": "Findings about builders of the SDK that never work."
  },
  {
   "property": "C81",
   "status": "proved",
   "theorems": [
    "C81_permission_edits"
   ],
   "note": "All four operations. The edited list must consist of unused permissions (otherwise the program refuses: C51)."
  },
  {
   "property": "C82",
   "status": "proved",
   "theorems": [
    "C82_close",
    "C82_full_not_closed",
    "C82_gift_blocks_closing",
    "C82_collect"
   ],
   "note": "Finding: one lamport sent to the configuration account, or enough to the wallet address, makes closing impossible for a role that may only close; a manager has to collect it first. C82_collect is for calls without token accounts."
  },
  {
   "property": "C83",
   "status": "proved",
   "theorems": [
    "C83_open",
    "C83_sign",
    "C83_switch",
    "C83_withdraw"
   ],
   "note": "Lamports only for C83_withdraw. C83_open is for roles without an earlier grant over the new number; a role holding a used permission cannot open one (C51)."
  },
  {
   "property": "C84",
   "status": "proved",
   "theorems": [
    "C84_open",
    "C84_sign",
    "C84_switch",
    "C84_withdraw",
    "C84_withdraw_refused"
   ],
   "note": "Finding: a role that holds the permission to manage roles is refused the sub-accounts of other roles even if it also holds all powers, and the sub-account of a role numbered 11 or more can be emptied by its owner only."
  },
  {
   "property": "C85",
   "status": "proved",
   "theorems": [
    "C85_close",
    "C85_gather",
    "C85_withdraw_first",
    "C85_withdraw_second"
   ],
   "note": "The calls succeed whenever the token program does what it is asked to do; the request to it is given exactly. The token program itself is not modelled."
  },
  {
   "property": "C86",
   "status": "proved",
   "theorems": [
    "C86_migrate"
   ],
   "note": "Any bump that derives the address, as often as wanted (C49_once_refuted)."
  },
  {
   "property": "C87",
   "status": "proved",
   "theorems": [
    "C87_found_ever_after",
    "C87_found_is_real",
    "C87_missed_refuted",
    "C87_gift_refuted",
    "C87_first_version_refuted",
    "C87_balance_refuted"
   ],
   "note": "Findings: a sub-account opened with another bump is missed; a gift of one lamport turns the answer into an error (second version) or into a wrong yes (first version); the balance is that of the configuration account, not of the wallet."
  },
  {
   "property": "C88",
   "status": "proved",
   "theorems": [
    "C88_name_size",
    "C88_same_wallet",
    "C88_long_names",
    "C88_names_refuted"
   ],
   "note": "Finding: names that differ in zeros at the end are one wallet."
  },
  {
   "property": "C89",
   "status": "proved",
   "theorems": [
    "C89_as_written",
    "C89_only_written",
    "C89_amount_refuted",
    "C89_cut_refuted",
    "C89_manual_refuted",
    "C89_sub_refuted",
    "C89_kinds_refuted"
   ],
   "note": "Serde_json and base58 are parameters; of the JSON reader it is used only that an object has at most one field more than its text has commas, and that a value starts with one of the JSON starting characters. Findings as in the statement."
  },
  {
   "property": "C90",
   "status": "proved",
   "theorems": [
    "C90_whole_key",
    "C90_r1_key",
    "C90_own_key_refuted",
    "C90_added",
    "C90_remove_refuted"
   ],
   "note": "Findings as in the statement; the base58 reader is a parameter that returns 32 bytes."
  },
  {
   "property": "C91",
   "status": "proved",
   "theorems": [
    "C91_joins",
    "C91_creates",
    "C91_session_refuted",
    "C91_gift_refuted"
   ],
   "note": "The RPC connection is reduced to reading the chain state. Findings as in the statement."
  },
  {
   "property": "C92",
   "status": "proved",
   "theorems": [
    "C92_signing_keeps_rent",
    "C92_withdrawing_refuted"
   ],
   "note": "Finding: a withdrawal can leave a sub-account of either version below the rent-exempt minimum, down to nothing."
  },
  {
   "property": "C93",
   "status": "proved",
   "theorems": [
    "C93_top_level",
    "C93_others_anywhere"
   ],
   "note": ""
  },
  {
   "property": "C94",
   "status": "proved",
   "theorems": [
    "C94_packed",
    "C94_offsets",
    "C94_reads",
    "C94_gaps",
    "C94_declared",
    "C94_lengths",
    "C94_overread_refuted",
    "C94_header",
    "C94_role",
    "C94_action",
    "C94_sub_account",
    "C94_actor",
    "C94_recurring",
    "C94_limits"
   ],
   "note": "Finding: CreateProgramExecSessionAuthority declares the length of a larger struct, so its bytes include eight bytes of memory behind it."
  },
  {
   "property": "C95",
   "status": "proved",
   "theorems": [
    "C95_add_costs_rent",
    "C95_remove_refunds_rent",
    "C95_update_flow",
    "C95_same_size_is_free"
   ],
   "note": "Finding (C95_update_takes_deposits): an edit that shrinks the configuration account pays everything above the new rent to the named payer."
  },
  {
   "property": "C96",
   "status": "proved",
   "theorems": [
    "C96_lifetime_sol",
    "C96_lifetime_tokens",
    "C96_lifetime_stake"
   ],
   "note": "Assumes that no event edits the role's permissions and that no call in the history is given the wallet program itself as an account (nested wallet calls, where the limit can be bypassed: C34). Tokens in accounts closed by the role are not counted (C33)."
  },
  {
   "property": "C97",
   "status": "proved",
   "theorems": [
    "C97_windows_sol",
    "C97_windows_tokens",
    "C97_windows_stake"
   ],
   "note": "Same assumptions as C96; the window length is positive."
  },
  {
   "property": "C98",
   "status": "proved",
   "theorems": [
    "C98_destinations_sol",
    "C98_destinations_tokens"
   ],
   "note": "Same assumptions as C96, for a role whose destination limits are one-time ones."
  },
  {
   "property": "C99",
   "status": "proved",
   "theorems": [
    "C99_close_on_itself",
    "C99_strands_itself_refuted",
    "C99_claimer_saves"
   ],
   "note": "The claim that closing gets the money out of the wallet is refuted for wallets without a rent claimer: the destination may be the wallet's own address or the configuration account. With a rent claimer it is proved."
  },
  {
   "property": "C100",
   "status": "proved",
   "theorems": [
    "C100_destinations_sol",
    "C100_destinations_tokens"
   ],
   "note": "Same assumptions as C96; slots of the calls do not decrease (the runtime's clock), and no window starts after the first slot. Covers one-time and renewed destination limits together."
  },
  {
   "property": "C101",
   "status": "proved",
   "theorems": [
    "C101_free_of_charge",
    "C101_claimer_costs_rent",
    "C101_migrate_costs_rent",
    "C101_sub_v1_costs_rent",
    "C101_sub_v2_costs_rent"
   ],
   "note": "For sub-accounts of the second kind the payer, the record, the sub-account and the configuration account are assumed to be four different accounts."
  }
 ]
}