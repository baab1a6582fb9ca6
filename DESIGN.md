# Formal model of swig-wallet: design

Source: `/repo` (anagrambuild/swig-wallet). Model and proofs: `/verif/rocq/theories` (Coq 8.16.1, standard library only).

## Files

**The model** (each definition cites the file and lines it models)

| file | models |
|---|---|
| `Base` | byte strings, little-endian integers, slices and in-place writes (`splice`), the result type `Ok`/`Err`/`Panic` |
| `Env` | accounts, instructions, the account operations with the runtime's rules, and the record `env` of everything external |
| `Actions`, `Limits` | `state/src/action/*.rs`: layout, validation, lookup, the `run` methods of the limits |
| `Authority` | `state/src/authority/*`: creation, authentication, sessions of the eight credential types, the WebAuthn reconstruction |
| `Roles` | `state/src/swig.rs`, `role.rs`, `tail.rs`: header, role table, add, remove, update, tail |
| `Handlers`, `SubAccounts` | `program/src/actions/*.rs` except the signing instructions |
| `Compact` | `instructions/src/lib.rs` (decoder) and the client's encoder |
| `Classify` | account classification of `program/src/lib.rs` |
| `Inner`, `Sign` | inner instructions, nested calls, `sign_v2.rs`, `sub_account_sign_v1.rs`, `sub_account_sign_v2.rs` |
| `Client` | `interface/src/lib.rs`, `interface/src/replace_authority.rs`: the instruction builders |
| `Sdk`, `SdkClient` | `rust-sdk/src/types.rs`, parts of `wallet.rs` and `client_role.rs`: reading permissions, roles and counters; the clients' counters and signers |
| `Cli` | `cli/src/commands.rs`, `cli/src/main.rs` in command mode (names, permissions, keys), `SwigWallet::new` of the Rust SDK |
| `Layout`, `LayoutTable` | `no-padding/src/lib.rs`, `state/src/transmute.rs`, the declarations of all structs that are read as raw bytes (`LayoutTable` was extracted from the source) |
| `Program` | entry point, dispatch, histories of events |

**The specification** (no handler and no byte edit appears in it): `SpecLimits` (histories of charges), `SpecConfig` (a configuration is a
list of roles with permission lists, and its encoding), `SpecAuth` (what each credential type demands), `SpecSteps` and `SpecWorld` (what one
instruction may do to a configuration and to the accounts of the program), `SpecHistory` (admissible events, reachable worlds), `SpecActs` (who acts),
`SpecSign`, `SpecLife`, `SpecRent`, `SpecIdent`, `SpecAvail`, `SpecWrap`, `SpecClient` (what a client asks for, and how the program reads it), `SpecWorks` (when what is asked for is done), `SpecFound` (creating a wallet; bystanders), `SpecSdk` (permissions as the Rust SDK shows them), `SpecCli` (what a typed text says), `SpecTop` (requests made by programs), `SpecScope` (limits on a field of another program's account), `SpecLayout` (records as bytes), `SpecFlow` (one payment and no other), `SpecBudget` (sums over a history).

**The theorems**: `Properties*.v`. Each theorem is followed by `Print Assumptions` and by an `Example` with a concrete, non-trivial case that
meets its hypotheses. `Demo*.v` hold the example chain and wallets; no theorem that is not an example or a refutation depends on them.
All other files are proofs.

## How the model is built

1. **Bytes.** Account data and instruction data are `list Z`. A Rust panic is the explicit outcome `Panic`. Release-mode integer wrap is written out
   where the code can wrap (the workspace does not enable overflow checks).
2. **World.** A world maps an address to lamports, owner and data; an untouched address is the empty system account, as on chain. The same account may
   be listed repeatedly in one instruction.
3. **Environment.** Hash functions, secp256k1 recovery, address derivation, the rent table and the behaviour of other programs are fields of `env`;
   every theorem quantifies over it.
4. **Handlers.** One function per instruction; `process` classifies the accounts and dispatches; `step` leaves the world unchanged when a call fails or panics.
5. **Refinement.** For every handler: on the encoding of a well-formed configuration it yields the encoding of the configuration given by the
   specification. The byte walkers are proved equal to list functions on encodings (`ConfigFacts`, `ConfigEdit*`). From this, `change` (what one step may do to
   one account) is proved for every handler (`World`, `World2`) and every inner instruction (`SignTrace`), and lifted to histories (`History`).
6. **Inner instructions.** `foreign` is an arbitrary partial function restricted by `foreign_ok`. Calls of the wallet program by itself are
   modelled as nested runs of `dispatch` (direct recursion is the only re-entrancy the runtime allows). A call of the wallet program by another program is a
   separate event with call depth 2.

## Hypotheses used in theorems

* `foreign_ok E`: a call of another program leaves data and owner of the wallet program's accounts alone and takes no lamports from them; an account that
  becomes the wallet program's has all-zero data. These are rules of the runtime. Nothing else is assumed of other programs.
* `wf_ctx`: addresses have 32 bytes, instruction data are bytes. `flags_ok`: all mentions of an account carry the same flags, as the runtime guarantees.
* `roomy n`: no wallet is within `n` of the end of its 16-bit role count and its 32-bit id counter (C53 shows what happens at the end).
* `~ clash`: the call exhibits no SHA-256 collision on the contents of the configuration account. `collides`: the same for token and stake accounts (a
  disjunct in the conclusions of C32 and C38). No hash function is assumed to be injective.
* `hashes_ok`: digests have 32 bytes. `sane`: balances are 64-bit, owners have 32 bytes. `rent_grows`: rent is non-negative and monotone in the size.
* `fresh w`: no account belongs to the program yet (start of a history). `good_world`: every account of the program is a well-formed configuration,
  V2 record or closed account; an invariant of histories from fresh worlds (C01).

## Properties

Refuted means that the claim a user might rely on is false of the code; the theorem exhibits a witness (a reachable state and a call).

| id | title | modelled | proof | theorems |
|---|---|---|---|---|
| C01 | Config account stays well-formed through every history | all handlers writing an account of the program; `Roles`, `Handlers`, `Sign` | each handler maps the encoding of a configuration to the encoding of the specified one (refinement); invariant over histories (`lift_reach`) | `C01_well_formed`, `C01_instructions_see_configurations` |
| C02 | Adding an authority appends exactly that authority | `add_authority_v1`, `add_role` | refinement to the list of roles | `C02_add` |
| C03 | Removing an authority removes exactly that authority | `remove_authority_v1`, `remove_role` | refinement | `C03_remove` |
| C04 | Updating an authority changes only that authority's permissions | `update_authority_v1` with its four operations | refinement, case analysis over the operations | `C04_update` |
| C05 | Replacing an authority changes only its credential | `replace_authority_v1` | refinement | `C05_C12_replace` |
| C06 | Role ids are unique and never reused | all handlers | invariant over histories: ids below the counter, counter never falls | `C06_ids_not_reused` |
| C07 | The root authority cannot be removed | all handlers | invariant over histories | `C07_root_stays` |
| C08 | A wallet can lose its last manager | `update_authority_v1` | refuted: witness history | `C08_last_manager_refuted` |
| C09 | Every role has at least one permission, each well-formed | all handlers | part of the well-formedness invariant | `C09_permissions` |
| C10 | Permission lookup answers exactly for the role's action list | `get_action`, `get_action_mut`, `has_action`, scoped V2 lookup on bytes | induction over the permission list | `C10_lookup` |
| C11 | Only managers change roles | `process` | inversion of the successful run | `C11_only_managers` |
| C12 | Credential rotation needs permission | `replace_authority_v1` | inversion of the successful run | `C05_C12_replace` |
| C13 | No wallet configuration change without an authenticated role | `process` | every change of a configuration is a `config_step`, whose constructors name the acting role | `C13_no_change_without_role` |
| C14 | A failed instruction changes nothing | `step`, `run_all`, `limited_loop` | definition of a history step; induction over the inner instructions | `C14_failed_calls_change_nothing`, `C14_all_inner_run` |
| C15 | Ed25519 roles act only with their key's signature | `ed25519_authenticate` and the session types | inversion of authentication inside `process` | `C15_ed25519` |
| C16 | Sessions end on time | session types, `start_session` | invariant over histories: expiry never grows without a new session | `C16_sessions_end`, `C16_new_role_has_no_session` |
| C17 | A secp signature is accepted at most once per role | `secp256k1_authenticate`, `secp256r1_authenticate` | the counter grows by one per use; invariant over histories | `C17_next_counter`, `C17_signature_once` |
| C18 | Replay protection survives credential rotation | `replace_authority_v1` resets the counter | refuted: witness history | `C18_replay_refuted` |
| C19 | What a secp signature commits to | hashed payloads | injectivity of the hashed text up to a collision; refuted without equal account counts | `C19_k1_commits`, `C19_r1_commits`, `C19_account_count_refuted` |
| C20 | A secp signature for one role is not usable for another | hashed payloads | refuted: two calls with one signature | `C20_cross_role_refuted` |
| C21 | Secp256r1 requests are tied to the precompile's verification | precompile instruction layout | inversion | `C21_precompile` |
| C22 | WebAuthn challenge is bound to the request | WebAuthn client data reconstruction incl. Huffman decoding | injectivity of base64 and of the rebuilt text | `C22_challenge_bound`, `C22_rebuilt` |
| C23 | Program-exec roles act only after the registered program ran | `program_exec_authenticate`, instructions sysvar | inversion; refuted for single-account instructions | `C23_program_ran`, `C23_one_account_refuted` |
| C24 | Some program-exec prefixes can never authenticate | same | case analysis on the prefix | `C24_dead_prefix`, `C24_dead_prefix_refuted` |
| C25 | One-shot limits bound lifetime spend | `run` of the one-shot limits (`Limits`) | invariant over sequences of charges | `C25_one_shot_limits` |
| C26 | Recurring limits bound spend per window | `run` of the recurring limits | invariant over sequences of charges | `C26_recurring_limits` |
| C27 | A recurring limit does not bound every window | same | refuted: witness; zero window: universal | `C27_sliding_window_refuted`, `C27_zero_window_aborts` |
| C28 | Recurring destination limits | destination recurring limits | invariant; refutation | `C28_recurring_destination_limits`, `C28_future_refresh`, `C28_not_before_refresh_refuted` |
| C29 | Program-scope limits bound recorded spend | `ProgramScope::run` | invariant | `C29_program_scope_limits` |
| C30 | SignV2: a limited role cannot spend more SOL than its allowance | `sign_v2` with arbitrary inner programs | invariant over the inner instructions (gross outflow), settlement on permission lists | `C30_sol_allowance`, `C30_one_shot`, `C30_no_permission` |
| C31 | SignV2: destination limits | `sign_v2`, transfer parsing | same | `C31_sol_destinations` |
| C32 | SignV2: token limits | `sign_v2`, token accounts | same, up to a hash collision | `C32_token_allowance` |
| C33 | SignV2: draining by closing | `sign_v2` | refuted: witness | `C33_drain_by_closing_refuted` |
| C34 | SignV2: the wallet stays under the system program | `sign_v2` | refuted: witness | `C34_wallet_reassigned_refuted` |
| C35 | SignV2: limited roles call only allowed programs with the wallet's signature | `sign_v2` program checks | induction over the inner instructions | `C35_allowed_programs` |
| C36 | SignV2: inner calls cannot rewrite the wallet's configuration | `sign_v2` with nested calls of the program | induction; config hash | `C36_config_kept` |
| C37 | SignV2: program-scope spending is charged | `sign_v2` program scope: cache, snapshot, inner instructions, charge | the starting number is the one cached from the only entry about the account; induction over the inner instructions on what was added up; the last check charges it; refutation by a concrete run | `C37_own_scope`, `C37_scope_uncharged_refuted` |
| C38 | SignV2: stake accounts | `sign_v2`, stake accounts | as C32 | `C38_stake_allowance` |
| C39 | Compact instructions round-trip | `into_bytes`, `parse_all` | induction over the instruction list | `C39_compact_roundtrip` |
| C40 | Inner instructions gain no foreign signatures | `parse_all`, `privileges_ok` | induction | `C40_inner_privileges`, `C40_decoded` |
| C41 | Rent claimer is set once and binds closing | tail codec, `set_rent_claimer_v1`, `close_swig_v1` | refinement; invariant over histories | `C41_claimer_set`, `C41_claimer_stays`, `C41_claimer_binds` |
| C42 | Closing is authorised, pays out fully and is final | `close_swig_v1` | inversion; invariant (closed accounts stay closed) | `C42_close`, `C42_closed_for_good` |
| C43 | Creation makes a fresh one-role wallet | `create_v1` | inversion; refutation for crafted bytes | `C43_create`, `C43_unknown`, `C43_manager`, `C43_manager_refuted` |
| C44 | V2 sub-account ids are fresh and their records immutable | `create_sub_account_v2` | inversion; invariant over histories | `C44_creation`, `C44_increasing`, `C44_records_stay` |
| C45 | V2 sub-accounts are default-deny | V2 handlers | inversion | `C45_default_deny` |
| C46 | V2 withdrawals go only to the wallet | `withdraw_v2` | inversion | `C46_withdraw` |
| C47 | V1 sub-account kill switch | `withdraw_v1` | refuted: witness | `C47_kill_switch_refuted` |
| C48 | V1 sub-account access | `sub_account_sign_v1`, `withdraw_v1` | inversion | `C48_sign`, `C48_withdraw` |
| C49 | Migration detection | `migrate_v1` | inversion; refutation | `C49_migration`, `C49_once_refuted` |
| C50 | Asset transfer to the wallet address | `transfer_assets_v1` | inversion | `C50_transfer` |
| C51 | Permission edits after use | `update_authority_v1`, `create_sub_account_v2` | inversion; refutation | `C51_add_permissions`, `C51_create_sub_account`, `C51_edit_after_use_refuted` |
| C52 | The curated program list | the curated list | computation over the constants | `C52_curated_lacks` |
| C53 | More than 65535 roles | `add_authority_v1`, `add_role` at 65535 roles | general theorem for full wallets; refuted: history of 65534 additions built by induction | `C53_add_to_full_erases`, `C53_others_stay_refuted` |
| C54 | The compact encoder and privileges | `compact_instructions` (client encoder) | refuted: witness | `C54_privileges_kept_refuted` |
| C55 | Closing pays out the wallet | `close_swig_v1` | refuted: witness | `C55_stranded_refuted` |
| C56 | One record per sub-account number | `create_sub_account_v2` | refuted: witness | `C56_second_record_refuted` |
| C57 | Closing token accounts | `close_token_account_v1` | inversion | `C57_close_token` |
| C58 | Permissions are handed out unspent | `create_v1`, `add_authority_v1`, `update_authority_v1` | layout validation on encodings | `C58_create`, `C58_add`, `C04_update` |
| C59 | Opening and switching sub-accounts | `create_sub_account_v1`, `toggle_sub_account_v1/v2` | inversion | `C59_create`, `C59_toggle`, `C59_toggle_v2` |
| C60 | Accounts of the program stay rent-exempt | all handlers, resize and lamport moves | invariant over histories | `C60_stays_exempt`, `C60_created_exempt` |
| C61 | Configuration changes spend nobody else's money | all configuration handlers | case analysis over the instructions | `C61_configuration_spares` |
| C62 | Where a wallet lives and who may vouch | `create_v1`, `add_authority_v1`, `set_into_bytes` of program execution | invariant over histories | `C62_address`, `C62_vouchers` |
| C63 | The id belongs to one wallet, and its sub-accounts to its roles | `create_v1`, `withdraw_v1`, `sub_account_sign_v2` | invariant; refuted for the id alone: witness histories | `C63_id_and_bump`, `C63_one_wallet_per_id_refuted`, `C63_sub_v1_refuted`, `C63_sub_v2_refuted` |
| C64 | A manager can add roles | `process` for AddAuthority, account classification | every check on the path is shown to succeed (`can`), end to end | `C64_manager_can_add` |
| C65 | A manager can remove roles, everybody their own | `process` for RemoveAuthority | same | `C65_manager_can_remove` |
| C66 | A wallet stays manageable | account classification, the six handlers | the scan of the accounts fails; invariant over histories; refuted: witness history | `C66_locked_fails`, `C66_locked_forever`, `C66_stays_manageable_refuted` |
| C67 | Client instructions say what was asked | `interface/src/lib.rs` (all builders), the offsets of the program | per request: reading the written bytes back; per family: the shape of the built instruction | `C67_create`, `C67_ed`, `C67_k1`, `C67_k1_old`, `C67_r1`, `C67_r1_old`, `C67_exec` |
| C68 | Inner instructions arrive as given | `compact_instructions`, decoder, the builders that wrap instructions | simulation of encoder and decoder; privileges: invariant of the account table; refuted: witness | `C68_inner`, `C68_privileges_refuted` |
| C69 | Client instructions are accepted | builders and `authenticate` of all credential types | the payload parses to the signed digest; equality of the two preimages | `C69_ed`, `C69_k1`, `C69_r1`, `C69_exec`, `C69_proof` |
| C70 | No client builder is unusable | the older builders, five handlers | every success authenticates; the payload is too short, or the account differs | `C70_k1_refused`, `C70_r1_refused`, `C70_withdraw_refused`, `C70_withdraw_token_refused`, `C70_sub_sign_refused` |
| C71 | A wallet can be managed with every kind of credential | `process` for the five administration calls | every check on the path is shown to succeed, for an arbitrary credential that `authenticate` accepts | `C71_add`, `C71_remove`, `C71_session`, `C71_claimer`, `C71_replace` |
| C72 | Signing within one's permissions succeeds | `sign_v2` with snapshots, tracking and settlement | the loop is run along the given course; settlement on permission lists; room in a limit gives a successful charge | `C72_full_access`, `C72_within_limits` |
| C73 | A payment built by the client library arrives | client library, `process`, an assumed system transfer | C67/C68 give the request, C72 the call, the assumption the effect | `C73_payment`, `C73_payment_ed`, `C73_payment_limited` |
| C74 | Anyone who pays can create a wallet at an unused address | `create_v1`, the system program's CreateAccount and Transfer, the client's builder | every check on the path succeeds; refuted: invariant of an address with lamports, and a witness | `C74_create`, `C74_client`, `C74_squatted`, `C74_prefunded_refuted` |
| C75 | Accounts that do not sign lose nothing | `process` with all handlers | per handler, then induction over nested calls and over histories | `C75_bystanders` |
| C76 | The SDK lists a role's permissions correctly | `SwigWallet::get_role_permissions`, `role_has_permission`, `Permission::from_role`, `to_client_actions` | the reader is run on encodings and proved to find each permission in use; granting by C71_add; refuted by concrete wallets | `C76_listing`, `C76_no_role`, `C76_granted`, `C76_question`, `C76_hidden_refuted`, `C76_denied_refuted`, `C76_take_refuted` |
| C77 | What the SDK's yes/no questions and counts mean | `has_all_permissions`, `can_manage_authority`, `can_spend_sol`, `get_role_count`, `get_sub_account_v2_counter` | from C76_listing; refuted by concrete wallets | `C77_all`, `C77_manage`, `C77_spend`, `C77_counts`, `C77_yes_refuted`, `C77_no_refuted`, `C77_manage_refuted`, `C77_count_refuted` |
| C78 | Looking up roles and signature counters | `lookup_role_id`, `match_data` of all credential types, the counter readers of `utils.rs` | the reader's search is the search in the role list; counter by C69_k1 | `C78_lookup`, `C78_shadowed`, `C78_counter`, `C78_up_to_date` |
| C79 | Clients with a signature counter get out of step | the SDK clients' odometers and `sign_v2_instruction` for several instructions | the counter inside what is built, then C17 | `C79_behind_k1`, `C79_behind_r1`, `C79_batch_k1`, `C79_batch_r1`, `C79_forgotten_k1`, `C79_forgotten_r1` |
| C80 | Requests of the SDK that are never accepted | `Secp256k1ClientRole::add_authority_instruction`, the signers the SDK gives to a transaction | lengths of credentials; membership of signer lists | `C80_first_byte`, `C80_fee_payer` |
| C81 | A manager can change the permissions of every role | `update_authority_v1` with its four operations, resizing and refund | every step of the in-place edit is shown to succeed on encodings, result by C08 | `C81_permission_edits` |
| C82 | A wallet that holds only its rent can be closed, and only then | `close_swig_v1`, `transfer_assets_v1` | each check is shown to pass; conversely a call that succeeds has passed the balance checks | `C82_close`, `C82_full_not_closed`, `C82_gift_blocks_closing`, `C82_collect` |
| C83 | Sub-accounts of the second version can be opened, used, switched and emptied | `create_sub_account_v2`, `sub_account_sign_v2`, `toggle_sub_account_v2`, `withdraw_from_sub_account_v2` | each check is shown to pass on encodings, with the exact balance of the payer through the three top-ups | `C83_open`, `C83_sign`, `C83_switch`, `C83_withdraw` |
| C84 | Sub-accounts of the first version can be opened, used, switched and emptied - by whom | `create_sub_account_v1`, `sub_account_sign_v1`, `toggle_sub_account_v1`, `withdraw_from_sub_account_v1` | each check is shown to pass on encodings; the refusals by following the search for the creator | `C84_open`, `C84_sign`, `C84_switch`, `C84_withdraw`, `C84_withdraw_refused` |
| C85 | Token accounts can be closed and emptied when asked for | `close_token_account_v1`, `transfer_assets_v1`, the token branches of both withdrawals | each check is shown to pass on encodings; induction over the listed accounts | `C85_close`, `C85_gather`, `C85_withdraw_first`, `C85_withdraw_second` |
| C86 | A manager can move a wallet to a wallet account | `migrate_to_wallet_address_v1` | each check is shown to pass on encodings; balance of the payer by the top-up lemma | `C86_migrate` |
| C87 | What the SDK reports of sub-accounts and of the balance | `get_sub_account_v2`, `get_sub_account`, `get_balance` of the SDK | sub-account records persist in all reachable states (C44), their fields determine the SDK's reading; findings by running the model | `C87_found_ever_after`, `C87_found_is_real`, `C87_missed_refuted`, `C87_gift_refuted`, `C87_first_version_refuted`, `C87_balance_refuted` |
| C88 | The wallet that a name stands for | `format!("{:0<32}")` and the cut to 32 bytes in the command mode | list reasoning on padding and cutting | `C88_name_size`, `C88_same_wallet`, `C88_long_names`, `C88_names_refuted` |
| C89 | Permissions given as JSON to the command line tool | `parse_permission_from_json`, the cutting at commas, the words of `--action-types` | case analysis over the words; a piece without a comma has at most one field; the program's decoder for the sub-account permission | `C89_as_written`, `C89_only_written`, `C89_amount_refuted`, `C89_cut_refuted`, `C89_manual_refuted`, `C89_sub_refuted`, `C89_kinds_refuted` |
| C90 | Keys typed at the command line tool | `format_authority`, `Generate`'s output, `RemoveAuthority`'s lookup | hex decoding inverts encoding; the program's size checks on credentials; the SDK's lookup (C78) with typeable text | `C90_whole_key`, `C90_r1_key`, `C90_own_key_refuted`, `C90_added`, `C90_remove_refuted` |
| C91 | Opening a wallet with the SDK | `SwigWallet::new`, `build_swig_account` | lookup of C78 in the stored configuration; creation succeeds by C74 and what it stores determines the second opening | `C91_joins`, `C91_creates`, `C91_session_refuted`, `C91_gift_refuted` |
| C92 | A sub-account that signs keeps its rent | `sub_account_sign_v1`, `sub_account_sign_v2`, both withdrawals | inversion of the handlers' last check; a concrete run for the refutation | `C92_signing_keeps_rent`, `C92_withdrawing_refuted` |
| C93 | Programs cannot ask the wallet to sign | `process_action` with the stack height as part of the context | inversion of the first check of the three handlers; the dispatcher of the others does not read the height | `C93_top_level`, `C93_others_anywhere` |
| C94 | Records are their fields, one after the other | the derive macro of `no-padding`, the layout rules of `repr(C)`, all 54 structs that derive it, the `LEN` constants | the size check leaves no room for gaps: induction over the fields; filling gaps with two different bytes for the converse; the structs and constants by computation for both alignments of u128 | `C94_packed`, `C94_offsets`, `C94_reads`, `C94_gaps`, `C94_declared`, `C94_lengths`, `C94_overread_refuted`, `C94_header`, `C94_role`, `C94_action`, `C94_sub_account`, `C94_actor`, `C94_recurring`, `C94_limits` |
| C95 | What editing roles costs and refunds | `add_authority_v1`, `remove_authority_v1`, `update_authority_v1` with their top-up and refund | the size the handler pays for is the size it writes; an edit that frees room never took a top-up, as the size difference decides both; a concrete run for the finding | `C95_add_costs_rent`, `C95_remove_refunds_rent`, `C95_update_flow`, `C95_same_size_is_free` |
| C96 | Lifetime spending of a role | every instruction and every foreign event, as in C16 | an invariant over the history: the permissions of the role only go down (order and targets kept), and each signed call takes at most what the balance goes down by; a role that is gone never acts again as ids are not reused | `C96_lifetime_sol`, `C96_lifetime_tokens`, `C96_lifetime_stake` |
| C97 | Lifetime spending under a renewed limit | as for C96 | as for C96, with what is left plus the full amount per window edge still to come as the quantity that only goes down | `C97_windows_sol`, `C97_windows_tokens`, `C97_windows_stake` |
| C98 | Lifetime spending under destination limits | as for C96 | as for C96, with the sum of the destination limits as the quantity that only goes down: the amounts of a call, grouped by destination, come out of distinct permissions | `C98_destinations_sol`, `C98_destinations_tokens` |
| C99 | Closing a wallet onto itself | CloseSwigV1 with any destination, including the wallet's own accounts, and the runtime's balance check | case analysis of the payout; a concrete wallet as counterexample; with a claimer, the set-once theorem C41 and closedness C42 over any history in between | `C99_close_on_itself`, `C99_strands_itself_refuted`, `C99_claimer_saves` |
| C100 | Lifetime spending under renewed destination limits | as for C96, with the slots of the calls non-decreasing | as for C98; the quantity that only goes down is what is left plus the limit times the number of windows, of window plus one slots each, that fit until M; a renewal at a payment moves the start of the window and uses up at least one of them | `C100_destinations_sol`, `C100_destinations_tokens` |
| C101 | What the other instructions cost | the handlers of these instructions, the system transfer and the rent function as a parameter | case analysis of the handlers; payments are composed as balance changes | `C101_free_of_charge`, `C101_claimer_costs_rent`, `C101_migrate_costs_rent`, `C101_sub_v1_costs_rent`, `C101_sub_v2_costs_rent` |

## Trusted base

* Coq's kernel (also rechecked by `coqchk`). `Print Assumptions` prints "Closed under the global context" for every theorem in
  `Properties*.v`: none rests on an axiom. (`coqchk` lists the `Coq.ssr.ssrunder.Under_rel.*` constants of the standard library because that library is loaded;
  no theorem uses them.) No axiom is added, no kernel check is switched off.
* The reading of the source: that each definition does what the cited lines do.
* The runtime rules written in `Env`: who may write data, debit lamports, resize; the system program's transfer and account creation; a failed
  instruction leaves no trace.

## Wrong programs

`seeded/LOG.jsonl` records each edit of the model that was built. How to read it:

- `theorems_failed` lists only proofs seen to fail. `make` stops at the first one, which is mostly a lemma about the handler, not the property theorem itself.
- `not_reached_theorems_of_the_claim` lists theorems of the broken claim in files that depend on the failed one. They could not be built as written. The list is attributed by hand and filtered by file dependency. Their own failure was not observed.
- A failed lemma shows that the proof as written notices the edit. It does not show that the theorem above it is unprovable for the edited model, since a proof script can also break for lack of generality.
- Up to commit 4fa8730 the log named the attributed theorems under `theorems_failed`. That overstated what was observed.

## Not modelled

* Compute budget, heap and stack limits; the transaction size limit.
* Memory safety of `unsafe` blocks (dangling slices of `InstructionHolder`, unaligned reads); where a missing snapshot makes the code read uninitialised memory, the
  model has the outcome `Panic`.
* The end-of-transaction checks of the runtime: deletion of accounts with no lamports, rent state transitions.
* The entry-point deserialiser, logging, IDL attributes, tests, of the CLI: the interactive mode, the configuration file, key generation, printing (serde_json and base58 are parameters),  the TypeScript SDK, and of the Rust SDK: the RPC connection, token transfers, program-execution clients and everything not named in `Sdk`, `SdkClient`, `SdkRead` and `Cli`. `set_rent_claimer`, `swap` and other wrappers of the interface crate are modelled only as far as C79 and C80 need.
  The counter readers (`signature_counter`) are those of `rust-sdk/src/utils.rs`.
* The verification inside the secp256r1 precompile and the truth of `sol_secp256k1_recover`: these are the environment's.
