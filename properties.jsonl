{"id": "C01", "title": "Config account stays well-formed through every history", "statement": "After a successful CreateV1 and any sequence of further successful program instructions on the wallet, the config account's bytes are exactly: a 48-byte header, the roles one after another in the documented encoding (role record, authority bytes, actions with consistent offsets), and then either nothing or one 40-byte rent-claimer entry; there is no slack and every length, count and offset in it is consistent.", "quantifier": "every wallet, every finite history of instructions with any arguments, any interleaving with other programs", "why_tests_cant": "The history is unbounded and each operation rewrites offsets in place; a test explores only a handful of role/action size combinations.", "anchors": ["state/src/swig.rs: SwigBuilder::add_role, SwigBuilder::remove_role, Swig::roles_end_offset", "program/src/actions/add_authority_v1.rs", "program/src/actions/remove_authority_v1.rs", "program/src/actions/update_authority_v1.rs", "state/src/tail"]}
{"id": "C02", "title": "Adding an authority appends exactly that authority", "statement": "A successful AddAuthorityV1 appends one role with the next id, the requested authority and exactly the requested actions, and leaves every existing role (key, counters, session, actions, spent allowances) and the rent claimer unchanged; the only further change is the advance of the signature counter of the acting role.", "quantifier": "every well-formed wallet, authority kind, action list", "why_tests_cant": "Offsets are recomputed for arbitrary sizes and the new role overlays the bytes of the old tail; all combinations cannot be enumerated.", "anchors": ["state/src/swig.rs: SwigBuilder::add_role", "program/src/actions/add_authority_v1.rs: add_authority_v1", "state/src/tail/mod.rs: SavedTail"]}
{"id": "C03", "title": "Removing an authority removes exactly that authority", "statement": "A successful RemoveAuthorityV1 removes exactly the role with the given id; every other role is unchanged and stays in order, the rent claimer is unchanged and no bytes of the removed role remain; the only further change is the advance of the signature counter of the acting role.", "quantifier": "every well-formed wallet with any number of roles of any size, every target", "why_tests_cant": "In-place compaction with offset fix-up must be right for every position and size of the removed role.", "anchors": ["state/src/swig.rs: SwigBuilder::remove_role", "program/src/actions/remove_authority_v1.rs"]}
{"id": "C04", "title": "Updating an authority changes only that authority's permissions", "statement": "A successful UpdateAuthorityV1 changes only the action list of the target role, to exactly the requested list (replace), the old list followed by the new actions (add), or the old list without the named ones (remove); ids, keys, other roles, the rent claimer and the header are unchanged; the only further change is the advance of the signature counter of the acting role.", "quantifier": "every well-formed wallet, target, operation and action list (growing, shrinking or same size)", "why_tests_cant": "Bytes after the target are shifted left or right by arbitrary amounts and offsets rewritten.", "anchors": ["program/src/actions/update_authority_v1.rs: perform_replace_all_operation, perform_add_actions_operation, perform_remove_by_type_operation, perform_remove_by_index_operation"]}
{"id": "C05", "title": "Replacing an authority changes only its credential", "statement": "A successful ReplaceAuthorityV1 changes only the target role's key material: its id and permissions, all other roles, the rent claimer and the header stay unchanged; any session of the target is ended and its signature counter restarts at zero; the only further change is the advance of the signature counter of the acting role.", "quantifier": "every well-formed wallet, acting role, target role, new credential", "why_tests_cant": "Must hold for every authority kind and every position of the role.", "anchors": ["program/src/actions/replace_authority_v1.rs: replace_authority_v1, replace_target_signer"]}
{"id": "C06", "title": "Role ids are unique and never reused", "statement": "In every reachable wallet no two roles have the same id and every id is below the wallet's role counter, as long as fewer than 2^32 authorities were ever added; so the id returned for a new authority was never used before by another one.", "quantifier": "every history of adds, removes and updates", "why_tests_cant": "Depends on the entire history of the wallet.", "anchors": ["state/src/swig.rs: SwigBuilder::add_role, Swig.role_counter"]}
{"id": "C07", "title": "The root authority cannot be removed", "statement": "No instruction sequence removes the role with id 0: once created it exists until the wallet is closed.", "quantifier": "every history", "why_tests_cant": "A universally quantified statement about all histories of instructions.", "anchors": ["program/src/actions/remove_authority_v1.rs", "state/src/swig.rs: SwigBuilder::remove_role"]}
{"id": "C08", "title": "A wallet can lose its last manager", "statement": "Claim under test: in every reachable wallet some role holds All or ManageAuthority. It is false: UpdateAuthorityV1 may strip the last manager (even the root).", "quantifier": "exists a history", "why_tests_cant": "The negative is established by a concrete reachable history; tests never looked for it.", "anchors": ["program/src/actions/update_authority_v1.rs", "program/src/actions/create_v1.rs"]}
{"id": "C09", "title": "Every role has at least one permission, each well-formed", "statement": "In every reachable wallet each role has between 1 and 255 actions, each of a known kind with the payload size of its kind, and no role holds the same scoped V2 sub-account permission twice.", "quantifier": "every history, every role", "why_tests_cant": "Every write path must re-validate; a state invariant.", "anchors": ["state/src/swig.rs: calculate_num_actions", "state/src/action/mod.rs: ActionLoader::validate_layout, reject_duplicate_v2_scoped"]}
{"id": "C10", "title": "Permission lookup answers exactly for the role's action list", "statement": "Asking a role for a permission kind (and, for target-scoped kinds, a target) finds it exactly when the role's action list holds a matching action, and finds the first such; lookup never reads past the role or errors on a well-formed wallet.", "quantifier": "every well-formed role, every kind and target", "why_tests_cant": "The scan follows stored offsets over arbitrary action lists.", "anchors": ["state/src/role.rs: Role::get_action, RoleMut::get_action_mut", "program/src/actions/sub_account_sign_v2.rs: has_scoped_v2"]}
{"id": "C11", "title": "Only managers change roles", "statement": "If AddAuthorityV1, RemoveAuthorityV1 or UpdateAuthorityV1 succeeds, then the acting role named in the instruction existed and authenticated over that instruction, and it held All or ManageAuthority before the instruction, or (remove only) it removed itself.", "quantifier": "every state, accounts list, instruction bytes, slot", "why_tests_cant": "Access-control property over all inputs.", "anchors": ["program/src/actions/add_authority_v1.rs", "program/src/actions/remove_authority_v1.rs", "program/src/actions/update_authority_v1.rs"]}
{"id": "C12", "title": "Credential rotation needs permission", "statement": "If ReplaceAuthorityV1 succeeds, the acting role authenticated over the complete arguments and new credential and held All, ManageAuthority, or ReplaceAuthority for exactly that target; a program-exec acting role additionally needs a matching replacement proof.", "quantifier": "every state and input", "why_tests_cant": "Access-control property over all inputs.", "anchors": ["program/src/actions/replace_authority_v1.rs"]}
{"id": "C13", "title": "No wallet configuration change without an authenticated role", "statement": "If any program instruction succeeds and changes a wallet's config bytes, then some role stored in that config account before the instruction was authenticated during it. Unauthenticated callers cannot change any role, counter, session, limit or rent claimer.", "quantifier": "every instruction kind, input, account list, CPI behaviour", "why_tests_cant": "Quantifies over all instructions and all inputs including unknown discriminators.", "anchors": ["program/src/actions/mod.rs: process_action", "program/src/instruction.rs: SwigInstruction"]}
{"id": "C14", "title": "A failed instruction changes nothing", "statement": "If an instruction fails (error or panic) the wallet, its allowances, counters and all balances are as before; if a signing instruction succeeds, all its inner instructions were executed successfully, in order.", "quantifier": "every failing instruction", "why_tests_cant": "Follows from transaction atomicity, modelled, and no effect escaping the result; over all inputs.", "anchors": ["program/src/lib.rs: process_instruction"]}
{"id": "C15", "title": "Ed25519 roles act only with their key's signature", "statement": "A role with a plain Ed25519 authority authenticates only if the stored 32-byte key is present among the accounts as a transaction signer; a session role acting through its session only if the stored session key is.", "quantifier": "every account list and payload", "why_tests_cant": "Index-based lookup over arbitrary accounts.", "anchors": ["state/src/authority/ed25519.rs"]}
{"id": "C16", "title": "Sessions end on time", "statement": "A session opened with CreateSessionV1 never authenticates at a slot later than the opening slot plus the requested duration, which is at most the role's configured maximum; only the role's root credential can open it; a freshly added session role has no usable session after slot 0.", "quantifier": "every duration (including those that overflow), slot, session authority kind, history", "why_tests_cant": "Includes 64-bit wrap-around and all later slots.", "anchors": ["state/src/authority/ed25519.rs: start_session, authenticate_session", "state/src/authority/secp256k1.rs", "state/src/authority/secp256r1.rs", "state/src/authority/programexec/session.rs", "program/src/actions/create_session_v1.rs"]}
{"id": "C17", "title": "A secp signature is accepted at most once per role", "statement": "For a Secp256k1/Secp256r1 role, each accepted signature advances the role's counter by exactly one and must carry exactly the next value; hence along any history, as long as fewer than 2^32 signatures are accepted and the credential is not replaced, no two accepted requests carry the same counter, and a signature older than 60 slots or from the future is refused.", "quantifier": "every history of authentications, every slot", "why_tests_cant": "Replay protection is a property of all histories.", "anchors": ["state/src/authority/secp256k1.rs: secp256k1_authority_authenticate", "state/src/authority/secp256r1.rs"]}
{"id": "C18", "title": "Replay protection survives credential rotation", "statement": "Claim under test: a signed request accepted once is never accepted again for the same role. It is false across ReplaceAuthorityV1: rotating A to B and back to A resets the counter to zero, so a recent signature by A with counter 1 is accepted again.", "quantifier": "exists a history", "why_tests_cant": "Found by trying to prove the history theorem.", "anchors": ["program/src/actions/replace_authority_v1.rs: replace_target_signer", "state/src/authority/secp256k1.rs"]}
{"id": "C19", "title": "What a secp signature commits to", "statement": "Two authorisations whose signed digests coincide have the same instruction payload, the same accounts with the same writable/signer flags in the same order, the same slot and counter, provided the hash has no collision and both use equally many accounts; without the equal-count proviso the claim is false.", "quantifier": "every pair of payloads and account lists", "why_tests_cant": "Injectivity of an encoding over all byte strings.", "anchors": ["state/src/authority/secp256k1.rs: secp256k1_authenticate", "state/src/authority/secp256r1.rs", "state/src/authority/mod.rs: AccountsPayload"]}
{"id": "C20", "title": "A secp signature for one role is not usable for another", "statement": "Claim under test: a request signed for role r can be executed only as role r. It is false for SignV2: the role id is not part of the signed bytes, so with two roles sharing a key and counter the relayer chooses which role acts.", "quantifier": "exists a state", "why_tests_cant": "A negative found by modelling the signed bytes.", "anchors": ["program/src/actions/sign_v2.rs: SignV2::from_instruction_bytes"]}
{"id": "C21", "title": "Secp256r1 requests are tied to the precompile's verification", "statement": "A Secp256r1 role authenticates only if the instruction right before this one in the transaction is the secp256r1 precompile verifying exactly one signature, entirely from its own data, by the stored public key over exactly the message derived from this request.", "quantifier": "every instruction sysvar content", "why_tests_cant": "All byte layouts of the precompile instruction.", "anchors": ["state/src/authority/secp256r1.rs: verify_secp256r1_instruction_data, secp256r1_authenticate"]}
{"id": "C22", "title": "WebAuthn challenge is bound to the request", "statement": "In WebAuthn mode the signed message determines the request digest: base64url encoding is injective on digests and two requests that reconstruct the same client-data JSON with the same field order carry the same challenge.", "quantifier": "every digest, origin and field order", "why_tests_cant": "String-level injectivity over all inputs.", "anchors": ["state/src/authority/secp256r1.rs: webauthn_message, reconstruct_client_data_json, base64url_encode_no_pad"]}
{"id": "C23", "title": "Program-exec roles act only after the registered program ran", "statement": "A program-exec role authenticates only if an earlier instruction of the same transaction called exactly the registered program, with data starting with exactly the registered prefix and with the wallet config and the account in the wallet position as its first two accounts (the code checks the two accounts only when the earlier instruction has at least two; the gap for fewer is shown by a witness).", "quantifier": "every transaction", "why_tests_cant": "Quantifies over all instruction lists.", "anchors": ["state/src/authority/programexec/mod.rs: program_exec_authenticate"]}
{"id": "C24", "title": "Some program-exec prefixes can never authenticate", "statement": "Claim under test: a program-exec role accepts every preceding call to its program whose data starts with the prefix and names the right accounts. False: the code reads the account count from the instruction data, so calls whose data begins with little-endian 0 or 1 are always refused.", "quantifier": "exists a role", "why_tests_cant": "A liveness gap invisible in tests that use other prefixes.", "anchors": ["state/src/authority/programexec/mod.rs: program_exec_authenticate"]}
{"id": "C25", "title": "One-shot limits bound lifetime spend", "statement": "For SolLimit, TokenLimit, StakeLimit and the destination limits: over any sequence of charges the total successfully charged plus the remaining allowance equals the allowance at the start; a charge above the remaining allowance is refused and changes nothing.", "quantifier": "every sequence of charges", "why_tests_cant": "Unbounded sequences.", "anchors": ["state/src/action/sol_limit.rs", "state/src/action/token_limit.rs", "state/src/action/stake_limit.rs", "state/src/action/sol_destination_limit.rs", "state/src/action/token_destination_limit.rs"]}
{"id": "C26", "title": "Recurring limits bound spend per window", "statement": "For SolRecurringLimit, TokenRecurringLimit and StakeRecurringLimit with a positive window W: along any sequence of charges at non-decreasing slots the total charged within any aligned window (kW,(k+1)W] is at most the limit, and within any W consecutive slots at most twice the limit.", "quantifier": "every sequence of charges and slots, every limit and window", "why_tests_cant": "Sliding windows over unbounded histories.", "anchors": ["state/src/action/sol_recurring_limit.rs", "state/src/action/token_recurring_limit.rs", "state/src/action/stake_recurring_limit.rs"]}
{"id": "C27", "title": "A recurring limit does not bound every window", "statement": "Claim under test: within any W consecutive slots at most the limit is spent. False: a full limit just before a window edge and another just after are both accepted. Also a zero window passes validation and makes every charge after slot 0 abort.", "quantifier": "exists a schedule", "why_tests_cant": "Counterexample schedule.", "anchors": ["state/src/action/sol_recurring_limit.rs: run, valid_layout"]}
{"id": "C28", "title": "Recurring destination limits", "statement": "For SolRecurringDestinationLimit and TokenRecurringDestinationLimit with last-reset not in the future: total spend between two resets is at most the limit and two resets are more than W slots apart. With a last-reset in the future (accepted by validation) the unsigned subtraction wraps and the allowance is refreshed immediately.", "quantifier": "every sequence of charges and slots", "why_tests_cant": "Unbounded histories, wrap-around arithmetic.", "anchors": ["state/src/action/sol_recurring_destination_limit.rs", "state/src/action/token_recurring_destination_limit.rs"]}
{"id": "C29", "title": "Program-scope limits bound recorded spend", "statement": "For a program-scope permission of kind Limit the recorded total never exceeds the limit, and of kind RecurringLimit the amount recorded within an aligned window never exceeds it; Basic scope is never charged.", "quantifier": "every sequence of charges", "why_tests_cant": "Unbounded histories.", "anchors": ["state/src/action/program_scope.rs: run"]}
{"id": "C30", "title": "SignV2: a limited role cannot spend more SOL than its allowance", "statement": "If SignV2 by a role without All/AllButManageAuthority succeeds, then whatever the inner programs did, the gross outflow (the sum of what the wallet's lamports fall in each inner instruction, without setting off what flows back) is at most the role's SOL allowance (one-shot or recurring for that slot), that allowance is reduced by the gross outflow, and the wallet keeps its rent-exempt minimum; a role with no SOL permission cannot reduce the balance at all.", "quantifier": "every inner instruction list and every behaviour of the called programs", "why_tests_cant": "CPI behaviour is arbitrary code.", "anchors": ["program/src/actions/sign_v2.rs: sign_v2", "instructions/src/lib.rs: InstructionHolder::execute"]}
{"id": "C31", "title": "SignV2: destination limits", "statement": "If a role has SOL destination limits, a successful SignV2 that spent SOL did so only in parsed system transfers each to a destination for which the role holds a limit with enough allowance, and their sum equals the wallet's measured outflow.", "quantifier": "every inner instruction list and CPI behaviour", "why_tests_cant": "CPI behaviour is arbitrary code.", "anchors": ["program/src/actions/sign_v2.rs: process_sol_transfers, has_sol_destination_limits"]}
{"id": "C32", "title": "SignV2: token limits", "statement": "If SignV2 by a limited role succeeds, each writable wallet-owned token account passed in that still exists keeps its owner program, mint, authority, delegate and close authority, and its gross outflow (summed over the inner instructions, without setting off inflows) is paid from the role's allowance for its mint; without an allowance it did not drop.", "quantifier": "every inner instruction list and CPI behaviour", "why_tests_cant": "CPI behaviour is arbitrary code.", "anchors": ["program/src/actions/sign_v2.rs: sign_v2", "program/src/util/mod.rs: hash_except"]}
{"id": "C33", "title": "SignV2: draining by closing", "statement": "Claim under test: a role without a token allowance for a mint cannot reduce the wallet's holdings of it. False: a role holding CloseSwigAuthority and the token program can transfer the whole balance out and close the account in one SignV2; the spent amount is never charged.", "quantifier": "exists a state and instruction list", "why_tests_cant": "A combination no test covers.", "anchors": ["program/src/actions/sign_v2.rs: sign_v2"]}
{"id": "C34", "title": "SignV2: the wallet stays under the system program", "statement": "Claim under test: a role limited to a SOL allowance cannot cause the wallet address to lose control of its remaining SOL. False: with permission for the system program the role can assign the wallet address to another program; no lamports move in that instruction, no check sees it, and the new owner can take everything.", "quantifier": "exists a state and instruction list", "why_tests_cant": "A combination no test covers.", "anchors": ["program/src/actions/sign_v2.rs: sign_v2", "program/src/lib.rs: classify_account"]}
{"id": "C35", "title": "SignV2: limited roles call only allowed programs with the wallet's signature", "statement": "If SignV2 by a role without All/AllButManageAuthority/ProgramAll succeeds, every inner instruction executed in which the wallet appears as signer targets a program the role is allowed (Program entry, or curated list with ProgramCurated), unless an earlier inner instruction of the same call invoked the wallet program itself.", "quantifier": "every inner instruction list", "why_tests_cant": "Arbitrary lists.", "anchors": ["program/src/actions/sign_v2.rs: sign_v2"]}
{"id": "C36", "title": "SignV2: inner calls cannot rewrite the wallet's configuration", "statement": "If SignV2 by a limited role succeeds, the config account after it equals the one before except for the acting role's own authority counter and its own allowance counters, whatever the inner programs did.", "quantifier": "every inner instruction list and CPI behaviour", "why_tests_cant": "CPI behaviour is arbitrary code; includes re-entry into this program.", "anchors": ["program/src/actions/sign_v2.rs: sign_v2", "program/src/util/mod.rs: hash_except"]}
{"id": "C37", "title": "SignV2: program-scope spending is charged", "statement": "If SignV2 by a role with a program-scope Limit or RecurringLimit on an account succeeds, and no other role of the wallet has a scope on that account, everything by which the scoped number falls in the inner instructions is charged to the scope and fits its limit, and nothing else in the account changes. Finding: without the restriction it is false. When another role with a lower id holds a Basic scope on the same account, the starting balance is taken as 0 and the drop goes uncounted.", "quantifier": "all states, accounts, scopes and sequences of inner instructions; for the finding, exists a state", "why_tests_cant": "Needs two roles with interacting scopes.", "anchors": ["program/src/util/mod.rs: ProgramScopeCache", "program/src/lib.rs: classify_account", "program/src/actions/sign_v2.rs"]}
{"id": "C38", "title": "SignV2: stake accounts", "statement": "If SignV2 by a limited role succeeds, every writable stake account it passed in whose withdraw authority is the wallet keeps its staker, withdrawer and lockup, and the larger of its lamport drop and stake change (per inner instruction, summed) is within the role's stake allowance unless it holds StakeAll.", "quantifier": "every inner instruction list and CPI behaviour", "why_tests_cant": "CPI behaviour is arbitrary code.", "anchors": ["program/src/actions/sign_v2.rs: sign_v2"]}
{"id": "C39", "title": "Compact instructions round-trip", "statement": "Decoding the client's compact encoding of a list of instructions yields exactly these instructions (program, accounts in order, data), provided at most 255 instructions, 254 accounts and 65535 data bytes each; bytes after the encoded list are ignored.", "quantifier": "every instruction list", "why_tests_cant": "Codec law over all inputs.", "anchors": ["instructions/src/compact_instructions.rs: CompactInstructions::into_bytes", "instructions/src/lib.rs: InstructionIterator"]}
{"id": "C40", "title": "Inner instructions gain no foreign signatures", "statement": "In a decoded inner instruction an account is marked signer only if it already signed the outer instruction or is the wallet (or sub-account) being signed for; it is marked writable exactly if it was writable in the outer instruction.", "quantifier": "every payload and account list", "why_tests_cant": "All payload bytes are attacker-controlled.", "anchors": ["instructions/src/lib.rs: InstructionIterator::parse_next_instruction"]}
{"id": "C41", "title": "Rent claimer is set once and binds closing", "statement": "Once SetRentClaimerV1 succeeded, the claimer never changes until the wallet is closed, whatever instructions follow; setting it needs All or CloseSwigAuthority and no claimer set before; when set it is not the zero key, the config account or the current wallet address; and CloseSwigV1/CloseTokenAccountV1 succeed only with the claimer as destination.", "quantifier": "every history", "why_tests_cant": "Every operation that moves bytes must preserve the tail.", "anchors": ["program/src/actions/set_rent_claimer_v1.rs", "state/src/tail/rent_claimer.rs", "program/src/actions/close_swig_v1.rs", "program/src/actions/close_token_account_v1.rs"]}
{"id": "C42", "title": "Closing is authorised, pays out fully and is final", "statement": "If CloseSwigV1 succeeds, an authenticated role held All, ManageAuthority or CloseSwigAuthority, the destination (if it is neither the config account nor the named wallet address) received all lamports of the named wallet address, which is the canonical one, and of the config account except the one-byte rent, and afterwards the config account is permanently marked closed: no program instruction on it succeeds any more, in particular CreateV1 for the same id fails.", "quantifier": "every history after closing", "why_tests_cant": "All later histories.", "anchors": ["program/src/actions/close_swig_v1.rs", "program/src/actions/create_v1.rs"]}
{"id": "C43", "title": "Creation makes a fresh one-role wallet", "statement": "CreateV1 succeeds only on an uninitialised address derived from the given id, and produces a wallet whose only role has id 0 and the given authority and actions; it never alters an existing wallet. Unknown instruction numbers behave as CreateV1, except 4, which fails. Claim under test: that role holds All or ManageAuthority. True if the action bytes are laid out as clients do; false in general, because the check follows the client-supplied boundary fields.", "quantifier": "every input", "why_tests_cant": "All inputs, including unknown discriminators.", "anchors": ["program/src/actions/create_v1.rs", "program/src/instruction.rs"]}
{"id": "C44", "title": "V2 sub-account ids are fresh and their records immutable", "statement": "Each successful CreateSubAccountV2 uses the wallet's next sub-account number; numbers of successful creations are strictly increasing (while the wallet is not re-migrated), the creator ends with SubAccountV2All for it exactly once, and later instructions never change a sub-account record except its enabled flag.", "quantifier": "every history", "why_tests_cant": "History property.", "anchors": ["program/src/actions/create_sub_account_v2.rs", "state/src/sub_account_v2.rs", "program/src/actions/toggle_sub_account_v2.rs"]}
{"id": "C45", "title": "V2 sub-accounts are default-deny", "statement": "SubAccountSignV2, WithdrawFromSubAccountV2 and ToggleSubAccountV2 succeed only if the acting role authenticated and holds the matching scoped permission or SubAccountV2All for exactly that sub-account; All or ManageAuthority alone never suffices; sign and withdraw also need the sub-account enabled and its record to belong to this wallet.", "quantifier": "every state and input", "why_tests_cant": "Access-control property over all inputs.", "anchors": ["program/src/actions/sub_account_sign_v2.rs: authorize_scoped_v2, validate_v2_state", "program/src/actions/withdraw_from_sub_account_v2.rs", "program/src/actions/toggle_sub_account_v2.rs"]}
{"id": "C46", "title": "V2 withdrawals go only to the wallet", "statement": "A successful WithdrawFromSubAccountV2 moves the requested amount from the sub-account to the wallet address (or between token accounts of equal mint owned by them) and nowhere else.", "quantifier": "every state and input", "why_tests_cant": "All account lists including duplicates.", "anchors": ["program/src/actions/withdraw_from_sub_account_v2.rs"]}
{"id": "C47", "title": "V1 sub-account kill switch", "statement": "Claim under test: a V1 sub-account disabled by a manager stays unusable until a manager re-enables it. False: the sub-account's own role may re-enable it with ToggleSubAccountV1.", "quantifier": "exists a history", "why_tests_cant": "Needs an adversarial role.", "anchors": ["program/src/actions/toggle_sub_account_v1.rs"]}
{"id": "C48", "title": "V1 sub-account access", "statement": "SubAccountSignV1 succeeds only if the acting role authenticated and holds the enabled SubAccount permission for exactly that account recorded for this wallet and role; WithdrawFromSubAccountV1 only with that permission (enabled) or All or ManageAuthority, and pays only to the wallet address.", "quantifier": "every state and input", "why_tests_cant": "Access-control property over all inputs.", "anchors": ["program/src/actions/sub_account_sign_v1.rs", "program/src/actions/withdraw_from_sub_account_v1.rs"]}
{"id": "C49", "title": "Migration detection", "statement": "Claim under test: MigrateToWalletAddressV1 refuses an already migrated wallet. False: the check contradicts itself and never fires; a manager can re-run it, which resets the sub-account counter to 0, after which CreateSubAccountV2 with the next number fails. In every successful run a manager acted, the wallet bump becomes the given one and the roles stay.", "quantifier": "every migrated wallet", "why_tests_cant": "The guard is unsatisfiable: a statement over all byte values.", "anchors": ["program/src/actions/migrate_to_wallet_address_v1.rs"]}
{"id": "C50", "title": "Asset transfer to the wallet address", "statement": "A successful TransferAssetsV1 was authorised by All or ManageAuthority, leaves the config account rent-exempt, gives exactly the surplus to the wallet address, and moves tokens only from accounts of the config account to accounts of the wallet address.", "quantifier": "every state and input", "why_tests_cant": "All account lists.", "anchors": ["program/src/actions/transfer_assets_v1.rs"]}
{"id": "C51", "title": "Permission edits after use", "statement": "Claim under test: a manager can always add an action to a role. False: once a recurring limit of the role was used (or its V1 sub-account created), every add/remove-style update of that role and the automatic grant of CreateSubAccountV2 are refused.", "quantifier": "exists a state", "why_tests_cant": "Needs a used limit.", "anchors": ["program/src/actions/update_authority_v1.rs: perform_add_actions_operation", "state/src/action/sol_recurring_limit.rs: valid_layout"]}
{"id": "C52", "title": "The curated program list", "statement": "Claim under test: ProgramCurated lets a role call the system, token, token-2022 and stake programs. False: two of the four addresses in the list differ from the real program ids, so calls to Token-2022 and to the stake program with the wallet's signature are refused.", "quantifier": "every call", "why_tests_cant": "Byte arrays written by hand; tests use the other two.", "anchors": ["state/src/action/program_curated.rs", "program/src/actions/sign_v2.rs"]}
{"id": "C53", "title": "More than 65535 roles", "statement": "Claim under test: adding an authority never destroys others. False in principle: the role count is 16 bits and wraps; adding the 65536th role to any wallet with 65535 roles succeeds and erases every role, and such a wallet can be built by additions that all succeed.", "quantifier": "every wallet with 65535 roles", "why_tests_cant": "No test builds such a wallet.", "anchors": ["state/src/swig.rs: SwigBuilder::add_role"]}
{"id": "C54", "title": "The compact encoder and privileges", "statement": "Claim under test: the client's compact encoding preserves account privileges. False: an account listed read-only in an earlier instruction (or in the outer list) and writable in a later one is decoded read-only for both.", "quantifier": "exists an instruction list", "why_tests_cant": "Needs the same account with different flags.", "anchors": ["instructions/src/compact_instructions.rs: compact_instructions"]}
{"id": "C55", "title": "Closing pays out the wallet", "statement": "Claim under test: when CloseSwigV1 succeeds, the wallet's own address (the one recorded by its bump) has been emptied. False: creation and migration accept any valid bump for the wallet address, closing checks and empties only the canonical address, so a wallet with another bump can be closed while its address holds funds, which nobody can move afterwards.", "quantifier": "exists a reachable state and a call", "why_tests_cant": "Tests always use the canonical bump.", "anchors": ["program/src/actions/close_swig_v1.rs", "program/src/actions/create_v1.rs", "program/src/actions/migrate_to_wallet_address_v1.rs"]}
{"id": "C56", "title": "One record per sub-account number", "statement": "Claim under test: a wallet has at most one V2 sub-account record for each number. False: after migration is re-run the counter starts again at 0 and CreateSubAccountV2 accepts addresses with another bump, so number 0 gets a second record and a second address.", "quantifier": "exists a history", "why_tests_cant": "Needs re-migration and non-canonical bumps.", "anchors": ["program/src/actions/create_sub_account_v2.rs", "program/src/actions/migrate_to_wallet_address_v1.rs"]}
{"id": "C57", "title": "Closing token accounts", "statement": "If CloseTokenAccountV1 succeeds, an authenticated role held All, ManageAuthority or CloseSwigAuthority, and the only effects besides the role's counter are close instructions of the named token program for accounts whose owner is the config account or the canonical wallet address, with rent going to the named destination.", "quantifier": "every state and input", "why_tests_cant": "All account lists.", "anchors": ["program/src/actions/close_token_account_v1.rs"]}
{"id": "C58", "title": "Permissions are handed out unspent", "statement": "After CreateV1, AddAuthorityV1 and UpdateAuthorityV1, every permission of the new or updated role is in its initial state: a recurring limit has its full amount left and no period started (with a destination: at most the full amount left and a period different from 0), a V1 sub-account permission names no sub-account yet.", "quantifier": "every state, call and permission list", "why_tests_cant": "All permission bytes a client can send.", "anchors": ["state/src/action/mod.rs: validate_layout", "state/src/action/sol_recurring_limit.rs: valid_layout", "program/src/actions/update_authority_v1.rs"]}
{"id": "C59", "title": "Opening and switching sub-accounts", "statement": "CreateSubAccountV1 succeeds only for an authenticated role that holds an unused V1 sub-account permission and only at the address derived from wallet id, role id and bump; afterwards that permission names this address, the role and the wallet, is enabled, and nothing else of the configuration changes. ToggleSubAccountV1 succeeds only for the role the sub-account belongs to or a role with All or ManageAuthority, and changes only the enabled flag of the permission that names the sub-account. ToggleSubAccountV2 succeeds only for a role with the Toggle or All permission of that sub-account and changes only the enabled flag of its state record.", "quantifier": "every state and input", "why_tests_cant": "All combinations of roles, permissions, sub-accounts and request bytes.", "anchors": ["program/src/actions/create_sub_account_v1.rs", "program/src/actions/toggle_sub_account_v1.rs", "program/src/actions/toggle_sub_account_v2.rs"]}
{"id": "C60", "title": "Accounts of the program stay rent-exempt", "statement": "An account owned by the wallet program whose balance covers the rent-exempt minimum for its size keeps covering it through every history of instructions, inner instructions and other programs' actions: growing an account is always paid for first, shrinking pays out only the difference, and neither signing nor asset transfers nor closing take it below the minimum. A configuration account is created with its minimum.", "quantifier": "every state, every history, every account", "why_tests_cant": "All sizes, orders of resizing instructions and inner instructions.", "anchors": ["program/src/actions/add_authority_v1.rs", "program/src/actions/remove_authority_v1.rs", "program/src/actions/update_authority_v1.rs", "program/src/actions/transfer_assets_v1.rs", "program/src/actions/close_swig_v1.rs", "program/src/actions/set_rent_claimer_v1.rs", "program/src/actions/create_sub_account_v2.rs", "instructions/src/lib.rs: InstructionHolder::execute"]}
{"id": "C61", "title": "Configuration changes spend nobody else's money", "statement": "An instruction that does not sign, withdraw, transfer assets or close (that is: create, add, remove, update, replace, session, claimer, migration, opening and toggling of sub-accounts) never lowers the balance of any account other than the configuration account itself, unless that account signed the call. In particular it cannot touch the wallet's or a sub-account's funds.", "quantifier": "every state, input and account", "why_tests_cant": "All account lists, including ones where payer and other accounts coincide.", "anchors": ["program/src/actions/*.rs", "program/src/util/mod.rs"]}
{"id": "C62", "title": "Where a wallet lives and who may vouch", "statement": "After every history a wallet's configuration account is at the program address derived from the id and bump it records, and each of its program-execution credentials names a program other than the wallet program and a comparison prefix of at most 40 bytes.", "quantifier": "every history from a chain without wallets, every wallet, every role", "why_tests_cant": "All sequences of instructions that create, add, replace, or re-session credentials.", "anchors": ["program/src/actions/create_v1.rs", "state/src/authority/programexec/mod.rs: set_into_bytes", "state/src/authority/programexec/session.rs", "assertions/src/lib.rs: check_self_pda"]}
{"id": "C63", "title": "The id belongs to one wallet, and its sub-accounts to its roles", "statement": "Claim under test: no two wallets share an id, so that only roles of a wallet can move what its sub-accounts (whose addresses derive from the id) hold. Holds for id and bump together; false for the id alone: a stranger can create a second wallet with the same id and another bump and withdraw from the first wallet's V1 sub-accounts and sign for its V2 sub-accounts.", "quantifier": "every history; every pair of wallets; every sub-account", "why_tests_cant": "Tests create wallets with the canonical bump only; the claim is about every bump and every later call.", "anchors": ["program/src/actions/create_v1.rs:147-155", "assertions/src/lib.rs: check_self_pda", "program/src/actions/withdraw_from_sub_account_v1.rs", "program/src/actions/sub_account_sign_v2.rs: load_sub_account_v2_state", "state/src/swig.rs: sub_account_seeds, sub_account_v2_state_seeds"]}
{"id": "C64", "title": "A manager can add roles", "statement": "Whoever holds All or ManageAuthority and signs succeeds with AddAuthority for every kind of credential and every well-formed list of permissions, and the role is then in the configuration, provided the role counter and the number of roles are not exhausted, the account grows by at most 10240 bytes to at most 10 MiB, the payer can pay the missing rent, and none of the listed accounts is a stake account or watched by a role.", "quantifier": "every wallet state, every manager role, credential, permission list, payer and extra account", "why_tests_cant": "The claim is that no combination of stored roles, credential type and permission list makes the instruction fail; there are infinitely many.", "anchors": ["program/src/actions/add_authority_v1.rs", "program/src/lib.rs: process_instruction, classify_account", "state/src/swig.rs: SwigBuilder::add_role"]}
{"id": "C65", "title": "A manager can remove roles, everybody their own", "statement": "Whoever holds All or ManageAuthority and signs succeeds with RemoveAuthority for every role but role 0, everybody else for their own role, and exactly that role is then gone, provided the configuration account holds its rent and the payer's balance has room for the refund.", "quantifier": "every wallet state, every acting role, every role to remove", "why_tests_cant": "Every layout of roles around the removed one and every size must work.", "anchors": ["program/src/actions/remove_authority_v1.rs", "state/src/swig.rs: SwigBuilder::remove_role"]}
{"id": "C66", "title": "A wallet stays manageable", "statement": "Claim under test: as long as a wallet has a role with All, roles can be added, removed and updated and the wallet can be closed. False: one AddAuthority by a role that may only manage - a ProgramScope permission for the system program's own account whose balance field lies beyond that account's data - makes every instruction that names the system program fail, for every later state, so that no role can be added, removed or updated, and the wallet can neither be closed nor pay SOL.", "quantifier": "every history after the AddAuthority; every later instruction", "why_tests_cant": "That no later sequence of instructions repairs the wallet is a statement about all histories.", "anchors": ["program/src/lib.rs: classify_account (364-527)", "program/src/util/mod.rs: ProgramScopeCache, read_numeric_balance (140-226)", "program/src/actions/add_authority_v1.rs"]}
{"id": "C67", "title": "Client instructions say what was asked", "statement": "Every instruction built by the interface crate for a wallet, a role and a request (create, add, remove, update, sessions, sub-accounts of both versions, signing, closing, replacing, claimer, transfer) is addressed to the wallet program, names the wallet first, has the requested accounts at the places where the program looks for them, and its data, read at the program's offsets, gives the acting role and exactly the requested arguments; for every credential family.", "quantifier": "all arguments in the ranges of their Rust types, all builders", "why_tests_cant": "The builders and the parsers are separate code with separate layouts; a test fixes one set of arguments.", "anchors": ["interface/src/lib.rs: CreateInstruction .. WithdrawFromSubAccountV2Instruction", "program/src/actions/*.rs: *Args", "state/src/lib.rs: AuthorityType"]}
{"id": "C68", "title": "Inner instructions arrive as given", "statement": "The instructions a client wraps for signing are decoded by the program as the same calls (program, accounts, data) in the same order, whatever flags the runtime adds and whatever accounts are appended; if no two mentions of an account differ in privileges, each account also has the privileges asked for. Claim under test: the privileges always arrive. False: an account that is already listed keeps the flags of its first mention, so with the Ed25519 builder the wallet cannot pay the key that signs.", "quantifier": "all wallets, roles, inner instructions within the format's sizes, all eight builders", "why_tests_cant": "Depends on the positions of all accounts and on coincidences between them.", "anchors": ["instructions/src/compact_instructions.rs", "instructions/src/lib.rs: InstructionIterator", "interface/src/lib.rs: SignV2Instruction, SubAccountSignInstruction, SubAccountSignV2Instruction"]}
{"id": "C69", "title": "Client instructions are accepted", "statement": "What the interface crate builds with the right key passes the program's check of the credential: Ed25519 keys and keys of running sessions, secp256k1 and secp256r1 keys for the next counter and a recent slot, program executions whose instruction calls the registered program with the registered prefix; the proof data built for a replacement is the one the program demands.", "quantifier": "all requests, roles, keys, slots, counters, transactions", "why_tests_cant": "The digest covers data and all accounts with their flags; acceptance for all of them is a statement about two hash preimages built by separate code.", "anchors": ["interface/src/lib.rs", "state/src/authority/ed25519.rs", "state/src/authority/secp256k1.rs", "state/src/authority/secp256r1.rs", "state/src/authority/programexec/mod.rs", "interface/src/replace_authority.rs: program_exec_proof_data"]}
{"id": "C70", "title": "No client builder is unusable", "statement": "Claim under test: what a builder of the interface crate makes with a correctly signing key is not refused for its form. False: the V1 sub-account and asset-transfer builders for secp256k1 and (except the SOL withdrawal) secp256r1 write payloads that the program refuses for every plain role; the program-execution builders for V1 withdrawals put the wrong account where the program expects the wallet, and the one for V1 signing the payer where it expects the sub-account.", "quantifier": "all requests, worlds, roles of the plain types, signing functions", "why_tests_cant": "That no input makes the builder work is a statement about all inputs.", "anchors": ["interface/src/lib.rs: CreateSubAccountInstruction, WithdrawFromSubAccountInstruction, SubAccountSignInstruction, ToggleSubAccountInstruction, TransferAssetsV1Instruction", "state/src/authority/secp256k1.rs", "state/src/authority/secp256r1.rs", "program/src/actions/withdraw_from_sub_account_v1.rs"]}
{"id": "C71", "title": "A wallet can be managed with every kind of credential", "statement": "A role that may do it, and whose credential the program accepts, can add a role, remove a role other than role 0, open a session within its maximum, name the claimer if none is named, and replace a key: the instruction succeeds and the configuration afterwards is the expected one, if the listed accounts are ordinary, the configuration account is writable and somebody pays the missing rent.", "quantifier": "all worlds, configurations, roles, credential types, credentials, permissions, account lists", "why_tests_cant": "That no further check can fail must hold for every configuration layout, credential type and account list.", "anchors": ["program/src/lib.rs: process_instruction, classify_account", "program/src/actions/add_authority_v1.rs", "program/src/actions/remove_authority_v1.rs", "program/src/actions/create_session_v1.rs", "program/src/actions/set_rent_claimer_v1.rs", "program/src/actions/replace_authority_v1.rs", "state/src/swig.rs"]}
{"id": "C72", "title": "Signing within one's permissions succeeds", "statement": "A SignV2 call with an accepted credential succeeds if its inner instructions do, when the role has full access, or when the role's limits cover the lamports and tokens that leave the wallet along the way, the called programs are allowed, the wallet keeps its rent and the listed token accounts of the wallet stay intact but for their amount. Nothing but the configuration changes beyond what the inner instructions do.", "quantifier": "all worlds, roles, permission lists, inner instructions, courses of events, credentials", "why_tests_cant": "Snapshots, tracking and settlement must not refuse any permitted course; the courses are unbounded.", "anchors": ["program/src/actions/sign_v2.rs: sign_v2", "state/src/action/*.rs: run", "program/src/lib.rs: classify_account"]}
{"id": "C73", "title": "A payment built by the client library arrives", "statement": "The library wraps a system transfer from the wallet; when the program accepts the credential and the role has full access, or limits that cover the amount, exactly that amount moves from the wallet to the destination, and nothing else changes but the configuration. For Ed25519 keys this needs no assumption about the credential but that the key signs and, for session types, that the session runs.", "quantifier": "all wallets, roles, amounts, destinations, credential types", "why_tests_cant": "It joins encoder, decoder, authentication, limits and execution for all inputs at once.", "anchors": ["interface/src/lib.rs: SignV2Instruction", "instructions/src/compact_instructions.rs", "program/src/actions/sign_v2.rs", "program/src/lib.rs: process_instruction"]}
{"id": "C74", "title": "Anyone who pays can create a wallet at an unused address", "statement": "A creation request for the addresses derived from its id and bumps succeeds when both addresses are unused, the wallet's future configuration address holds no lamports, the credential has the right size for its type, the permission list is well formed and includes full access or management, and the payer can pay. The new wallet has exactly one role, number 0, with that credential and those permissions; the payer pays exactly the rent of the two accounts and nothing else changes. The instruction of the client library is such a request. Under test: sending lamports to the address beforehand does no harm (the code appears to provide for it). This is false: an address that holds any lamports never becomes a wallet, so one lamport sent by a stranger blocks it for ever.", "quantifier": "all worlds, ids, bumps, credentials, permission lists; for the refutation all later histories the address itself does not sign", "why_tests_cant": "Success must hold for all sizes, types and balances, and the blocking for all later histories.", "anchors": ["program/src/actions/create_v1.rs: create_v1", "state/src/swig.rs: SwigBuilder::add_role", "interface/src/lib.rs: CreateInstruction"]}
{"id": "C75", "title": "Accounts that do not sign lose nothing", "statement": "An ordinary account with lamports that is not one of the addresses derived for wallets and sub-accounts keeps its owner, stays without data and never loses a lamport, whatever instructions of the wallet program (and nested calls) and of other programs are executed, as long as it signs none of them.", "quantifier": "all histories of calls, all accounts, all instruction data", "why_tests_cant": "Handlers take lamports from accounts listed by the caller; the claim ranges over all lists, all handlers and all histories.", "anchors": ["program/src/actions/*.rs", "program/src/lib.rs: process_instruction"]}
{"id": "C76", "title": "The SDK lists a role's permissions correctly", "statement": "For every wallet and role, the SDK's listing of the role's permissions contains only permissions the role holds and can use, with the amounts stored on chain; it contains all of them except limits on accounts of programs, sub-account permissions that are in use, and the permission to close. What is granted through the SDK to a new role is listed afterwards, renewing limits as full. The question whether a role has a permission is answered by this listing. Under test, and false: the listing is empty only for a role that can do nothing; a role has the permission that it was just given; removing one permission leaves the others.", "quantifier": "all wallet configurations, roles, permission lists, all grants", "why_tests_cant": "The reader walks raw bytes with type-specific layouts; agreement must hold for every combination of permissions.", "anchors": ["rust-sdk/src/types.rs: Permission::from_role, to_client_actions, to_action_type", "rust-sdk/src/wallet.rs: get_role_permissions, role_has_permission"]}
{"id": "C77", "title": "What the SDK's yes/no questions and counts mean", "statement": "has_all_permissions is true exactly for roles with All; can_manage_authority exactly for roles with ManageAuthority; can_spend_sol(n) exactly for roles with All or a SOL limit whose configured or remaining amount is at least n; the role count is the next role id; the sub-account count is the next sub-account id. Under test, and false: can_spend_sol says what the program will do (in both directions); can_manage_authority says who can add roles; the role count is the number of roles.", "quantifier": "all wallet configurations, roles, amounts", "why_tests_cant": "A claim about all permission lists and amounts; unit tests only use roles with one limit.", "anchors": ["rust-sdk/src/wallet.rs: has_all_permissions, can_spend_sol, get_role_count", "rust-sdk/src/types.rs: Permission"]}
{"id": "C78", "title": "Looking up roles and signature counters", "statement": "Looking up a key or credential gives the first role it names, by the naming rule of each credential type, and no role exactly if none is named. A role whose key an earlier role of the same type has can never be looked up. The counter that is read is that of the named role, and a request built with the next counter passes the program's check.", "quantifier": "all wallet configurations, all byte strings", "why_tests_cant": "Eight credential types with different matching rules, all lengths of queries, all role orders.", "anchors": ["state/src/swig.rs: SwigWithRoles::lookup_role_id", "state/src/authority/*.rs: match_data", "rust-sdk/src/wallet.rs: get_role_id"]}
{"id": "C79", "title": "Clients with a signature counter get out of step", "statement": "A secp256k1 or secp256r1 request is accepted only if it was built with the role's counter plus one. Hence of several payments built at once by the SDK client only one is ever accepted, and after the client has added a role or opened a session its next request is not accepted, whatever happens in between, unless the role's key is replaced or the counter wraps.", "quantifier": "all histories between the two requests, all keys, roles and instructions", "why_tests_cant": "The second request must be refused in every later state; a test sees one of them.", "anchors": ["rust-sdk/src/client_role.rs: Secp256k1ClientRole, Secp256r1ClientRole: sign_v2_instruction, add_authority_instruction", "rust-sdk/src/wallet.rs: add_authority, create_session, sign_v2"]}
{"id": "C80", "title": "Requests of the SDK that are never accepted", "statement": "When the SDK's secp256k1 client adds a role with a credential that the program would accept, the request is refused, as the client drops the first byte. Adding and removing roles, opening sessions and naming a claimer with an Ed25519 role is only possible if the role's key is the fee payer's.", "quantifier": "all credentials, permissions, wallets, states", "why_tests_cant": "Refusal must hold for every credential type and every state.", "anchors": ["rust-sdk/src/client_role.rs: Secp256k1ClientRole::add_authority_instruction", "rust-sdk/src/wallet.rs: add_authority, remove_authority, create_session, set_rent_claimer"]}
{"id": "C81", "title": "A manager can change the permissions of every role", "statement": "If a role that may manage authorities asks to replace, extend or cut down the permissions of any role of the wallet, the resulting list is a list of 1 to 255 unused permissions, the account does not grow by more than 10240 bytes and somebody pays the rent, then the call succeeds and the role has exactly the resulting permissions.", "quantifier": "all wallets, roles, operations, permission lists, credentials", "why_tests_cant": "The edit moves bytes inside the account and adjusts offsets; it must work for every position and length.", "anchors": ["program/src/actions/update_authority_v1.rs: update_authority_v1", "state/src/swig.rs: SwigBuilder"]}
{"id": "C82", "title": "A wallet that holds only its rent can be closed, and only then", "statement": "If a role that may close, manage or do everything asks to close, the wallet and configuration accounts hold no more than their rent, and the destination is the rent claimer if there is one, then the call succeeds, the destination receives everything but the rent of one byte and the configuration is marked closed. If either account holds more, no closing call succeeds; so anybody who sends lamports to the configuration account prevents closing until a manager collects them, which the manager can do.", "quantifier": "all wallets, roles, destinations, balances, environments", "why_tests_cant": "Whether a close succeeds depends on balances that strangers can change.", "anchors": ["program/src/actions/close_swig_v1.rs: close_swig_v1", "program/src/actions/transfer_assets_v1.rs: transfer_assets_v1"]}
{"id": "C83", "title": "Sub-accounts of the second version can be opened, used, switched and emptied", "statement": "A role that may create sub-accounts can open the next one, paying exactly the missing rent, and is put in charge of it. A role in charge of an enabled sub-account (or with the particular power) can sign for it, provided the inner instructions succeed and its rent remains, and withdraw lamports from it to the wallet; it can switch it on and off in any state.", "quantifier": "all wallets, roles, sub-account numbers, amounts, inner instructions", "why_tests_cant": "Success must hold for every state that meets the conditions.", "anchors": ["program/src/actions/create_sub_account_v2.rs", "program/src/actions/sub_account_sign_v2.rs", "program/src/actions/toggle_sub_account_v2.rs", "program/src/actions/withdraw_from_sub_account_v2.rs"]}
{"id": "C84", "title": "Sub-accounts of the first version can be opened, used, switched and emptied - by whom", "statement": "A role holding a fresh sub-account permission can open the sub-account, paying exactly the missing rent. The owner of an enabled sub-account can sign for it and withdraw lamports from it to the wallet; the owner or a role that may manage roles can switch it on and off; a role with all powers can empty the sub-accounts of roles 0 to 10. Refused: a role that holds the permission to manage roles cannot empty other roles' sub-accounts, whatever else it holds; nobody but the owner can empty the sub-account of a role numbered 11 or more.", "quantifier": "all wallets, roles, permission lists, amounts, inner instructions", "why_tests_cant": "Success, and refusal, must hold for every state that meets the conditions.", "anchors": ["program/src/actions/create_sub_account_v1.rs", "program/src/actions/sub_account_sign_v1.rs", "program/src/actions/toggle_sub_account_v1.rs", "program/src/actions/withdraw_from_sub_account_v1.rs"]}
{"id": "C85", "title": "Token accounts can be closed and emptied when asked for", "statement": "A role with all powers, the permission to manage roles or to close can close any number of token accounts of the wallet or its configuration account; a manager can move all tokens of the configuration account to token accounts of the wallet; whoever may withdraw from a sub-account can withdraw its tokens. Each call succeeds whenever the token program carries out the requests named in the statement, one after the other.", "quantifier": "all wallets, roles, lists of token accounts of any length, amounts, behaviours of the token program", "why_tests_cant": "The number of token accounts and the behaviour of the token program are arbitrary.", "anchors": ["program/src/actions/close_token_account_v1.rs", "program/src/actions/transfer_assets_v1.rs", "program/src/actions/withdraw_from_sub_account_v1.rs", "program/src/actions/withdraw_from_sub_account_v2.rs"]}
{"id": "C86", "title": "A manager can move a wallet to a wallet account", "statement": "A manager can migrate a wallet to the wallet account of any bump that derives an address, whether or not it was migrated before; the payer pays exactly the missing rent, and nothing but the wallet bump and the role's counter changes in the configuration.", "quantifier": "all wallets, managers, bumps", "why_tests_cant": "Success must hold for every state that meets the conditions.", "anchors": ["program/src/actions/migrate_to_wallet_address_v1.rs"]}
{"id": "C87", "title": "What the SDK reports of sub-accounts and of the balance", "statement": "A sub-account of the second version that was opened at the addresses the SDK derives is reported by the SDK in every later state, whether it is switched on or off, and whatever the SDK reports is a sub-account of that wallet. Findings: a sub-account opened with another bump is reported as missing although it exists; one lamport sent to the address of a sub-account that does not exist turns the answer into an error; for the first version such a lamport makes the SDK report a sub-account that was never opened; the reported balance does not include what the wallet address holds.", "quantifier": "all wallets, sub-account numbers, histories after the opening", "why_tests_cant": "The answer must stay right after every history of instructions by anyone, and be right in every state.", "anchors": ["rust-sdk/src/wallet.rs: get_sub_account_v2, get_sub_account, get_balance", "state/src/sub_account_v2.rs"]}
{"id": "C88", "title": "The wallet that a name stands for", "statement": "Every name given to the command line tool becomes an identifier of 32 bytes. Two names of at most 32 one-byte characters stand for the same wallet exactly if one is the other followed by zeros, and what follows the first 32 bytes of a longer name is ignored. Finding: different names such as savings1 and savings10 are the same wallet.", "quantifier": "all names", "why_tests_cant": "Which pairs of names collide is a statement about all pairs of texts.", "anchors": ["cli/src/commands.rs: run_command_mode (format_swig_id, {:0<32})"]}
{"id": "C89", "title": "Permissions given as JSON to the command line tool", "statement": "A permission written as JSON is granted as written, and nothing else is granted if the numbers in it are given as numbers. Findings: an amount that is not a number from 0 to 2^64 - 1 silently means one SOL; because the value is cut at its commas, no permission with a second field can be given, so that every limit granted by the command mode is one SOL; the form shown in the manual (all,sol) is always refused; a sub-account permission is always refused by the program; renewing limits and the newer permissions cannot be named for removal.", "quantifier": "all JSON values, all texts, all JSON and base58 readers", "why_tests_cant": "The claim covers every text that a user may type and every value that may be in it.", "anchors": ["cli/src/commands.rs: parse_permission_from_json, Command::AddAuthority, Command::UpdateAuthority", "cli/src/main.rs: Command (value_delimiter)", "cli/README.md"]}
{"id": "C90", "title": "Keys typed at the command line tool", "statement": "A secp256k1 key with both coordinates and the leading 04, with or without 0x, and a compressed secp256r1 key are taken exactly as they are. Findings: the tool refuses the secp256k1 keys in the form in which it prints those it generates; no role with sessions and no role from a compressed secp256k1 key that it adds is accepted by the program; a role can be removed only if its key happens to consist of typeable characters, since the typed text is not decoded.", "quantifier": "all keys, all texts, all wallets", "why_tests_cant": "It is about every key and every text, and about the program's answer to each resulting request.", "anchors": ["cli/src/main.rs: format_authority", "cli/src/commands.rs: Command::Generate, Command::RemoveAuthority", "rust-sdk/src/wallet.rs: remove_authority"]}
{"id": "C91", "title": "Opening a wallet with the SDK", "statement": "Opening a wallet that exists joins it with the first role that the credential names and sends nothing; if no role is named there is an error. Opening a wallet that does not exist creates it, whatever the command was, and opening it again joins role 0. Findings: with the session credentials of secp256k1, secp256r1 and program execution the second opening always fails; an address that holds lamports but no wallet can never be opened.", "quantifier": "all chain states, identifiers, credentials and fee payers", "why_tests_cant": "The answer depends on every stored role and on the whole state of the chain.", "anchors": ["rust-sdk/src/wallet.rs: SwigWallet::new", "rust-sdk/src/instruction_builder.rs: build_swig_account", "cli/src/commands.rs: create_swig_instance"]}
{"id": "C92", "title": "A sub-account that signs keeps its rent", "statement": "After a successful signing by a sub-account of either version the sub-account holds at least the rent-exempt minimum for its size. Finding: this does not hold for withdrawals, which can leave a sub-account with less or nothing.", "quantifier": "all chain states, requests, inner instructions and hash functions", "why_tests_cant": "The inner instructions are arbitrary calls to arbitrary programs.", "anchors": ["program/src/actions/sub_account_sign_v1.rs: sub_account_sign_v1", "program/src/actions/sub_account_sign_v2.rs: sub_account_sign_v2", "program/src/actions/withdraw_from_sub_account_v1.rs", "program/src/actions/withdraw_from_sub_account_v2.rs"]}
{"id": "C93", "title": "Programs cannot ask the wallet to sign", "statement": "A wallet and its sub-accounts sign only for an instruction of the transaction itself, never for a call made by a program. Every other request has the same outcome when a program makes it with the same accounts, signers and data.", "quantifier": "all requests, chain states and call depths", "why_tests_cant": "Every instruction and every state of the chain is covered, at every call depth.", "anchors": ["program/src/actions/sign_v2.rs:218", "program/src/actions/sub_account_sign_v1.rs:138", "program/src/actions/sub_account_sign_v2.rs:202", "program/src/actions/mod.rs: process_action"]}
{"id": "C94", "title": "Records are their fields, one after the other", "statement": "Every struct that the derive macro NoPadding accepts has no gaps: its bytes are those of its fields in the declared order, so equal records have equal bytes and reading a field returns what was written. Every struct that the macro refuses for its size has bytes that its values do not determine. All structs of the program are accepted on all targets, they are the encodings used in the other properties, and each is read and written with its true length. Finding: the last is false for CreateProgramExecSessionAuthority, whose bytes include eight bytes of foreign memory.", "quantifier": "all struct declarations, field values and buffers; all structs of the code; both alignments of u128", "why_tests_cant": "A test sees the layout of one struct on one target; the claim is about every declaration the macro accepts.", "anchors": ["no-padding/src/lib.rs: impl_no_padding, generate_size_assertions", "state/src/transmute.rs: Transmutable", "state/src/authority/programexec/session.rs: CreateProgramExecSessionAuthority", "state/src/swig.rs: Swig", "state/src/role.rs: Position", "state/src/action/mod.rs: Action"]}
{"id": "C95", "title": "What editing roles costs and refunds", "statement": "Adding a role costs the named payer exactly what the configuration account lacks to the rent-exempt minimum of its new size. Removing a role refunds exactly the difference of the two minimums to the named payer and leaves everything else on the configuration account. Editing permissions costs what is lacking if the account grows. An edit that leaves the size as it is moves no money. No other balance changes in any of the three. Finding: when an edit shrinks the account, everything above the new minimum goes to the account named as payer, which need not sign, so a role that may only manage roles can take whatever was deposited on the configuration account.", "quantifier": "all configuration accounts with any balance, all instructions that add, remove or edit, all payers, all rent functions", "why_tests_cant": "The amounts must be right for every size, balance and operation, and that no third account pays is a claim about all accounts.", "anchors": ["program/src/actions/add_authority_v1.rs: add_authority_v1", "program/src/actions/remove_authority_v1.rs: remove_authority_v1", "program/src/actions/update_authority_v1.rs: update_authority_v1"]}
{"id": "C96", "title": "Lifetime spending of a role", "statement": "Over any history, the calls signed as a role together take no more lamports out of the wallet than the one-time SOL limit the role had at the start, no more tokens of a mint than its one-time limit for that mint, and no more stake than its one-time stake limit. As long as the role exists, what was taken plus what the limit still shows is at most what it showed at the start. No sequence of other calls, such as changing keys, adding or removing roles, sessions, or creating sub-accounts, raises a limit. Only editing the permissions of the role does.", "quantifier": "all histories of calls and outside events of any length in which the role is not edited and no call is given the wallet program as an account, all wallets and roles, all behaviours of other programs", "why_tests_cant": "A test runs one short history. The claim is about sums over all histories, with any calls in between that might reset or raise a limit.", "anchors": ["program/src/actions/sign_v2.rs: sign_v2", "state/src/action/sol_limit.rs: SolLimit::run", "state/src/action/token_limit.rs: TokenLimit::run", "state/src/action/stake_limit.rs: StakeLimit::run", "program/src/actions/mod.rs: process_action"]}
{"id": "C97", "title": "Lifetime spending under a renewed limit", "statement": "If a role's SOL, token or stake limit is renewed every window of W slots, then over any history up to slot M the calls signed as that role together take at most what is left of the current window plus the full amount once for each multiple of W between the last renewal and M. No sequence of other calls makes a window start again early or adds to what is left.", "quantifier": "all histories of any length up to any slot M in which the role is not edited and no call is given the wallet program as an account, all wallets and roles with a positive window, all behaviours of other programs", "why_tests_cant": "The number of renewals grows with the history; a test sees a few windows of one history.", "anchors": ["program/src/actions/sign_v2.rs: sign_v2", "state/src/action/sol_recurring_limit.rs: SolRecurringLimit::run", "state/src/action/token_recurring_limit.rs: TokenRecurringLimit::run", "state/src/action/stake_recurring_limit.rs: StakeRecurringLimit::run"]}
{"id": "C98", "title": "Lifetime spending under destination limits", "statement": "If a role's payments are limited per destination, by one-time limits for SOL or for the tokens of one mint, then over any history the calls signed as that role together take no more SOL, or tokens of that mint, out of the wallet than the destination limits the role had at the beginning add up to, whatever its other allowances; and what they took plus what is left of the limits never exceeds what there was.", "quantifier": "all histories of any length in which the role is not edited and no call is given the wallet program as an account, all wallets, roles and sets of destination limits, all behaviours of other programs", "why_tests_cant": "Payments to different destinations, in one call or spread over many, are charged to different limits; a test tries a few splits of a few amounts.", "anchors": ["program/src/actions/sign_v2.rs: sign_v2", "state/src/action/sol_destination_limit.rs: SolDestinationLimit::run", "state/src/action/token_destination_limit.rs: TokenDestinationLimit::run"]}
{"id": "C99", "title": "Closing a wallet onto itself", "statement": "After a wallet was closed, the money it held and the rent of its configuration account are at a destination outside of the wallet. (Refuted for wallets without a rent claimer: closing accepts the wallet's own address, or the configuration account, as destination, and the money stays at an address for which nobody can sign any more. True for wallets with a rent claimer: from the moment it is set, through any history, closing pays neither the configuration account nor the wallet address.)", "quantifier": "all closing instructions with any destination, all wallet states; all histories between setting the claimer and closing, all behaviours of other programs", "why_tests_cant": "The destination is any account, including those of the wallet; that a claimer excludes them must hold through every history.", "anchors": ["program/src/actions/close_swig_v1.rs: close_swig_v1", "program/src/actions/set_rent_claimer_v1.rs: set_rent_claimer_v1"]}
{"id": "C100", "title": "Lifetime spending under renewed destination limits", "statement": "If a role's payments are limited per destination, by one-time limits, by limits that are renewed after a window, or by both, for SOL or for the tokens of one mint, then over any history up to a slot M the calls signed as that role together take no more SOL, or tokens of that mint, out of the wallet than: the one-time limits, plus what is left of the renewed limits, plus the full amount of each renewed limit for each time its window and a slot more fits between the start of the window and M. What they took plus what may still come never exceeds what there was.", "quantifier": "all histories of any length with non-decreasing slots up to any M, in which the role is not edited and no call is given the wallet program as an account, all wallets, roles and sets of destination limits with windows that do not start in the future, all behaviours of other programs", "why_tests_cant": "When a limit is renewed depends on the slots of all earlier payments to the same destination; a test tries a few payments in a few windows.", "anchors": ["program/src/actions/sign_v2.rs: sign_v2", "state/src/action/sol_recurring_destination_limit.rs: SolRecurringDestinationLimit::run", "state/src/action/token_recurring_destination_limit.rs: TokenRecurringDestinationLimit::run"]}
{"id": "C101", "title": "What the other instructions cost", "statement": "Opening a session, replacing a credential and switching a sub-account on or off move no money. Setting the rent claimer costs the named payer exactly what the configuration account lacks to the rent-exempt minimum of its new size. Migrating costs exactly what the wallet address lacks to the minimum of an empty account. Creating a sub-account costs exactly what the new accounts and, if it grows, the configuration account lack to their minimums. No other balance changes in any of them.", "quantifier": "all successful instructions of these kinds, all accounts and balances, all payers, all rent functions", "why_tests_cant": "The amounts must be right for every size and balance, and that no third account pays is a claim about all accounts.", "anchors": ["program/src/actions/create_session_v1.rs: create_session_v1", "program/src/actions/replace_authority_v1.rs: replace_authority_v1", "program/src/actions/set_rent_claimer_v1.rs: set_rent_claimer_v1", "program/src/actions/migrate_to_wallet_address_v1.rs: migrate_to_wallet_address_v1", "program/src/actions/create_sub_account_v1.rs: create_sub_account_v1", "program/src/actions/create_sub_account_v2.rs: create_sub_account_v2"]}
