{"id": "C01", "title": "Instruction encoding round-trips", "statement": "Decoding the bytes produced by packing any TokenWrapInstruction returns exactly that instruction, for every amount in u64, every flag and every 32-byte program id.", "quantifier": "all instructions, all u64 amounts, all 32-byte keys", "why_tests_cant": "2^64 amounts and 2^256 keys cannot be enumerated", "anchors": ["program/src/instruction.rs: TokenWrapInstruction::pack, unpack"]}
{"id": "C02", "title": "Instruction decoding is strict and canonical", "statement": "Every byte string either decodes to an instruction whose packing is that very byte string, or is rejected with InvalidInstructionData; decoding never panics, and no two different byte strings decode to the same instruction (no trailing bytes, no alternative booleans).", "quantifier": "all byte strings of any length", "why_tests_cant": "unbounded set of malformed inputs", "anchors": ["program/src/instruction.rs: TokenWrapInstruction::unpack"]}
{"id": "C03", "title": "Error codes are stable and invertible", "statement": "Every program-specific error maps to a distinct custom code 0..15 and back; every other u32 is rejected with InvalidArgument.", "quantifier": "all u32 codes, all errors", "why_tests_cant": "2^32 codes; injectivity is a universal claim", "anchors": ["program/src/error.rs: From<TokenWrapError>, TryFrom<u32>"]}
{"id": "C04", "title": "Derived addresses never collide", "statement": "The wrapped mint, mint authority, backpointer, escrow and canonical-pointer addresses are pairwise different kinds of addresses, and each determines its arguments: equal addresses imply equal unwrapped mint / token program / wrapped mint. At byte level, two derivations of different kinds or with different arguments never hash the same preimage.", "quantifier": "all mints, token programs, bumps and deployments", "why_tests_cant": "quantifies over all 32-byte keys", "anchors": ["program/src/lib.rs: get_wrapped_mint_address, get_wrapped_mint_authority, get_wrapped_mint_backpointer_address, get_escrow_address, get_canonical_pointer_address"]}
{"id": "C05", "title": "CreateMint creates exactly the promised accounts", "statement": "A successful CreateMint on fresh accounts leaves the wrapped mint owned by the chosen token program, initialised with supply 0, the unwrapped mint's decimals and freeze authority, the authority PDA as only mint authority and (for Token-2022) exactly an immutable auto-approving auditor-less confidential-transfer config and a self metadata pointer controlled by the authority PDA; the backpointer is owned by token-wrap and stores the unwrapped mint; lamports and every other account are unchanged.", "quantifier": "all ledgers, account lists and oracles for rent and curve membership", "why_tests_cant": "every ledger state and every account aliasing", "anchors": ["program/src/processor.rs: process_create_mint", "program/src/mint_customizer/default_token_2022.rs: DefaultToken2022Customizer"]}
{"id": "C06", "title": "CreateMint succeeds exactly when it should", "statement": "With the addresses the client library derives, writable, unallocated PDAs and a real unwrapped mint, CreateMint succeeds iff both PDAs hold at least their rent-exempt minimum; any amount of over-funding by a third party cannot block it.", "quantifier": "all lamport balances, rents, mints", "why_tests_cant": "quantifies over all balances and pre-funding histories", "anchors": ["program/src/processor.rs: process_create_mint"]}
{"id": "C07", "title": "CreateMint idempotency", "statement": "When wrapped mint or backpointer already holds data, CreateMint never changes any account: with idempotent=true it succeeds as a no-op when the owners are right, otherwise it fails; with idempotent=false it fails with AccountAlreadyInitialized.", "quantifier": "all ledgers and account lists", "why_tests_cant": "all pre-existing states", "anchors": ["program/src/processor.rs: process_create_mint"]}
{"id": "C08", "title": "Only genuine mints can be wrapped", "statement": "If CreateMint creates a wrapped mint then the unwrapped account is an initialised mint owned by SPL Token or Token-2022 and the wrapped mint lives under SPL Token or Token-2022; no foreign token program can ever be used on either side of CreateMint, Wrap or Unwrap, nor for the mint and the escrow of CloseStuckEscrow (which only asks of the wrapped mint that its address is the derived one).", "quantifier": "all account lists, all foreign program ids", "why_tests_cant": "all possible program ids and forged account data", "anchors": ["program/src/processor.rs: process_create_mint, process_wrap, process_unwrap"]}
{"id": "C09", "title": "Backpointer is correct and immutable", "statement": "In every reachable state, if a wrapped mint exists for an unwrapped mint then its backpointer account is owned by token-wrap and holds the unwrapped mint's address, and this never changes afterwards.", "quantifier": "all histories of token-wrap, token-program and foreign steps", "why_tests_cant": "unbounded histories with adversarial interleaving", "anchors": ["program/src/processor.rs: process_create_mint", "program/src/state.rs: Backpointer"]}
{"id": "C10", "title": "Wrapped mint and backpointer exist together", "statement": "In every reachable state the wrapped mint PDA is initialised iff its backpointer is; neither half-created state nor a wrapped mint under a foreign program is reachable.", "quantifier": "all histories", "why_tests_cant": "all crash points and histories", "anchors": ["program/src/processor.rs: process_create_mint"]}
{"id": "C11", "title": "Wrapped mint configuration is immutable", "statement": "Once created, the wrapped mint's decimals, mint authority, owning token program, confidential-transfer config and metadata pointer never change and the mint is never closed, whatever anybody does.", "quantifier": "all later histories", "why_tests_cant": "adversarial unbounded histories", "anchors": ["program/src/processor.rs: process_create_mint", "program/src/mint_customizer/default_token_2022.rs"]}
{"id": "C12", "title": "Zero amounts are rejected", "statement": "Wrap and Unwrap with amount 0 always fail with ZeroWrapAmount, before looking at any account.", "quantifier": "all account lists and ledgers", "why_tests_cant": "all account lists", "anchors": ["program/src/processor.rs: process_wrap, process_unwrap"]}
{"id": "C13", "title": "Wrap moves exactly the right amounts", "statement": "A successful Wrap of a debits the source by a, credits the escrow by a minus the mint's current transfer fee, mints exactly the escrow credit to the recipient and to the wrapped supply, withholds the fee on the escrow, and changes no other account.", "quantifier": "all ledgers, amounts, fee schedules, epochs, account lists", "why_tests_cant": "all amounts/fees/aliasings", "anchors": ["program/src/processor.rs: process_wrap"]}
{"id": "C14", "title": "Wrap needs the source holder's consent", "statement": "Wrap succeeds only if the source account's owner, its delegate with sufficient allowance, or the mint's permanent delegate signed the transaction (directly or by an M-of-N multisig); token-wrap's own authority never signs the transfer out of a source.", "quantifier": "all ledgers, signers, account lists", "why_tests_cant": "adversarial account lists", "anchors": ["program/src/processor.rs: process_wrap"]}
{"id": "C15", "title": "Unwrap moves exactly the right amounts", "statement": "A successful Unwrap of a burns exactly a from the given wrapped account and from the wrapped supply, debits the escrow by exactly a, credits the recipient by a minus the current transfer fee, and changes no other account.", "quantifier": "all ledgers, amounts, fee schedules, account lists", "why_tests_cant": "all amounts/fees/aliasings", "anchors": ["program/src/processor.rs: process_unwrap"]}
{"id": "C16", "title": "Unwrap needs the wrapped holder's consent", "statement": "Unwrap succeeds only if the owner (or sufficiently approved delegate, or multisig quorum) of the burned wrapped account signed. Exception: token accounts owned by the system program or the incinerator, whose tokens the token programs let anybody burn, can be unwrapped by anybody.", "quantifier": "all ledgers, signers, account lists", "why_tests_cant": "adversarial account lists", "anchors": ["program/src/processor.rs: process_unwrap"]}
{"id": "C17", "title": "Wrapped tokens are always fully backed", "statement": "In every reachable state, for every unwrapped mint that never had a permanent delegate, the wrapped supply never exceeds the tokens held in the wrapped mint's escrow.", "quantifier": "all histories of any interleaving of all instructions by anybody", "why_tests_cant": "global invariant over unbounded adversarial histories", "anchors": ["program/src/processor.rs: process_wrap, process_unwrap, process_close_stuck_escrow"]}
{"id": "C18", "title": "Escrow only pays out against burns", "statement": "No step ever lowers an escrow balance (of a mint without permanent delegate) except an Unwrap of that pair, which lowers the wrapped supply by the same amount.", "quantifier": "all steps in all reachable states", "why_tests_cant": "adversarial histories", "anchors": ["program/src/processor.rs: process_unwrap"]}
{"id": "C19", "title": "Redeemability", "statement": "In every reachable state (no permanent delegate so far), any holder's wrapped balance is covered by the escrow: an Unwrap with proper accounts of any positive amount up to the holder's balance succeeds, provided the unwrapped mint can be transferred at all (not paused, no transfer hook, escrow and recipient not frozen, escrow not created when the mint was non-transferable) and the recipient can receive.", "quantifier": "all reachable states, all holders, all amounts", "why_tests_cant": "universally quantified liveness over reachable states", "anchors": ["program/src/processor.rs: process_unwrap"]}
{"id": "C20", "title": "Wrap then Unwrap returns the tokens", "statement": "For a fee-free mint, wrapping a and unwrapping a restores every balance, supply and account to what it was.", "quantifier": "all ledgers and amounts", "why_tests_cant": "all amounts and states", "anchors": ["program/src/processor.rs: process_wrap, process_unwrap"]}
{"id": "C21", "title": "Permanent-delegate exposure", "statement": "(Finding) The permanent delegate of a Token-2022 mint can Wrap with the escrow itself as the source: wrapped tokens are minted while the escrow balance does not grow, so backing is lost.", "quantifier": "existence of an execution", "why_tests_cant": "shows why C17 needs its hypothesis", "anchors": ["program/src/processor.rs: process_wrap"]}
{"id": "C22", "title": "CloseStuckEscrow only closes empty mismatched escrows", "statement": "CloseStuckEscrow succeeds only for the escrow of the given pair, under Token-2022, owned by the authority PDA, with zero balance, in Initialized state, whose extensions differ from those the mint requires (plus ImmutableOwner); it moves exactly all its lamports to the destination, deletes it and touches nothing else.", "quantifier": "all ledgers, extension sets, account lists", "why_tests_cant": "all extension sets and states", "anchors": ["program/src/processor.rs: process_close_stuck_escrow"]}
{"id": "C23", "title": "Healthy escrows cannot be closed", "statement": "An escrow whose extension set equals the set the mint requires plus ImmutableOwner (in particular one just created by the associated-token program for the current mint) is always refused with EscrowInGoodState, and an escrow in a mismatched state with zero balance can always be closed by anybody.", "quantifier": "all mints' extension sets", "why_tests_cant": "all extension lists in any order", "anchors": ["program/src/processor.rs: process_close_stuck_escrow"]}
{"id": "C24", "title": "Metadata sync to Token-2022 copies the source", "statement": "After a successful SyncMetadataToToken2022 the wrapped mint's name, symbol and uri equal the source's, and its additional fields are exactly the source's fields (last value wins for a repeated key, no stale keys), whether the metadata was absent or had arbitrary earlier content, and whatever order the hash map is iterated in.", "quantifier": "all source and previous metadata, all iteration orders", "why_tests_cant": "all metadata contents and hash-map orders", "anchors": ["program/src/processor.rs: process_sync_metadata_to_token_2022, update_fields_if_changed"]}
{"id": "C25", "title": "Metadata sync is idempotent and confined", "statement": "Syncing twice equals syncing once; a sync changes only the wrapped mint's metadata extension (and account size): supply, authorities, decimals, other extensions and all other accounts are unchanged.", "quantifier": "all ledgers", "why_tests_cant": "all states", "anchors": ["program/src/processor.rs: process_sync_metadata_to_token_2022"]}
{"id": "C26", "title": "Metadata comes from an authentic source", "statement": "The metadata used by a sync is determined by the unwrapped mint alone: SPL mints and Token-2022 mints without pointer use the Metaplex PDA of that very mint; a self pointer uses the mint's own extension; any other pointer uses exactly the pointed account, read as Metaplex or through its owner program's answer; everything else is rejected with the documented error.", "quantifier": "all mints, pointers, source accounts, owners", "why_tests_cant": "full decision table over all account combinations", "anchors": ["program/src/metadata.rs: extract_token_metadata, resolve_token_2022_source_metadata, read_metaplex_for_mint, cpi_emit_and_decode"]}
{"id": "C27", "title": "Metaplex conversion", "statement": "Converting Metaplex metadata to token metadata and back to DataV2 preserves name, symbol, uri, seller fee, collection and uses, and preserves creators with every verified flag cleared (empty creator lists become none); seller fees outside u16 or malformed JSON are rejected.", "quantifier": "all Metaplex metadata, all additional-metadata lists", "why_tests_cant": "all field combinations", "anchors": ["program/src/metaplex.rs: extract_additional_metadata, metaplex_to_token_2022_metadata, token_2022_metadata_to_metaplex"]}
{"id": "C28", "title": "Metadata sync to SPL Token upserts", "statement": "SyncMetadataToSplToken succeeds only for the SPL wrapped mint of the given unwrapped mint with the right Metaplex PDA; it creates the Metaplex account when empty and updates its data otherwise, with creators never marked verified, and touches only the Metaplex account (and the authority PDA's lamports on creation).", "quantifier": "all ledgers, account lists", "why_tests_cant": "all states", "anchors": ["program/src/processor.rs: process_sync_metadata_to_spl_token"]}
{"id": "C29", "title": "Only the mint authority sets the canonical pointer", "statement": "SetCanonicalPointer succeeds only if the current mint authority of a genuine, initialised mint signed and the pointer PDA of that mint was passed; mints without authority are always refused; on success the pointer holds exactly the given program id and nothing else changes.", "quantifier": "all ledgers, account lists", "why_tests_cant": "adversarial account lists", "anchors": ["program/src/processor.rs: process_set_canonical_pointer"]}
{"id": "C30", "title": "Canonical pointer changes only by its instruction", "statement": "In every history a pointer account's content changes only in a SetCanonicalPointer step for that mint signed by its current mint authority.", "quantifier": "all histories", "why_tests_cant": "unbounded adversarial histories", "anchors": ["program/src/processor.rs: process_set_canonical_pointer"]}
{"id": "C31", "title": "Instruction builders match the processor", "statement": "For each instruction, the account list and data produced by the client builder are decoded by the program to the same instruction and the same roles (for the Sync builders: provided an owner program is only given together with a source metadata account; given alone it is misread as the source), and grant exactly the write/sign privileges the program needs: they suffice whenever any privileges do, and none of them can be withheld from a run that uses it.", "quantifier": "all argument keys, signer lists, amounts, environments and ledgers", "why_tests_cant": "all keys", "anchors": ["program/src/instruction.rs: create_mint, wrap, unwrap, close_stuck_escrow, sync_metadata_to_token_2022, sync_metadata_to_spl_token, set_canonical_pointer"]}
{"id": "C32", "title": "No partial effects", "statement": "A failing instruction changes nothing; in particular every error after a CPI rolls everything back.", "quantifier": "all failing executions", "why_tests_cant": "all failure points", "anchors": ["program/src/processor.rs: process_instruction"]}
{"id": "C33", "title": "Lamports are conserved", "statement": "Every successful token-wrap instruction preserves the total of lamports over any finite set of accounts containing all accounts it was given.", "quantifier": "all instructions, ledgers", "why_tests_cant": "all states", "anchors": ["program/src/processor.rs"]}
{"id": "C34", "title": "Instructions touch only the accounts passed as writable", "statement": "Every account changed by a successful instruction was passed to it with the writable flag, and accounts owned by other programs keep owner and data unless owned by SPL Token, Token-2022, Metaplex or token-wrap.", "quantifier": "all instructions, ledgers, account lists", "why_tests_cant": "all states", "anchors": ["program/src/processor.rs"]}
{"id": "C35", "title": "Wrapped tokens are only issued by Wrap", "statement": "In every reachable state, a step that raises the supply of a wrapped mint (of a mint without permanent delegate) is a Wrap of that very pair; the rise is at most the amount wrapped and at most what the escrow gains in that step.", "quantifier": "all steps (token-wrap, token programs, everything else) in all reachable states", "why_tests_cant": "adversarial histories", "anchors": ["program/src/processor.rs: process_wrap"]}
{"id": "C36", "title": "Wrapping is always possible", "statement": "In every reachable state, once the wrapped mint, its escrow account and the recipient's account exist, any holder of unwrapped tokens can wrap any positive amount up to their balance: no history of other users' actions can make the escrow, the wrapped supply or the recipient's balance overflow, or otherwise block a well-formed Wrap (the mint's own authorities can: freezing, pausing, hooks, and an escrow that is stale after the mint was re-created).", "quantifier": "all histories, pairs of mint and token program, holders (single or multisig), amounts", "why_tests_cant": "liveness over all adversarial histories", "anchors": ["program/src/processor.rs: process_wrap"]}
{"id": "C37", "title": "Escrows are genuine", "statement": "In every reachable state the escrow address of a pair is unused or is a token account of the unwrapped mint's program, for that mint, owned by the pair's authority PDA, without delegate, close authority, CPI guard, memo requirement or confidential balance; nobody can put anything else there, and whenever the address is unused anybody can create the escrow.", "quantifier": "all histories, mints, token programs", "why_tests_cant": "adversarial squatting over all histories of all programs", "anchors": ["program/src/processor.rs: process_wrap, process_unwrap, process_close_stuck_escrow", "program/src/lib.rs: get_escrow_address"]}
{"id": "C38", "title": "Escrows fit their mint unless the mint was re-created", "statement": "An escrow of a Token-2022 mint that never had a close authority always carries exactly the extensions its mint demands, so CloseStuckEscrow never applies to it. (Finding) After a non-transferable mint is closed and re-created as an ordinary mint, the old escrow still accepts Wrap but can never pay out: tokens wrapped there are locked for ever and CloseStuckEscrow refuses a non-empty escrow.", "quantifier": "all histories, mints, amounts", "why_tests_cant": "ranges over all histories, including mint close and re-creation", "anchors": ["program/src/processor.rs: process_close_stuck_escrow, process_wrap, process_unwrap"]}
{"id": "C39", "title": "Client transactions are atomic, carry only signatures that were given, and preserve every invariant", "statement": "A transaction that is refused charges at most its fee and changes nothing else; one that is accepted carried every signature its instructions demand. Every transaction the command line client builds asks the configured payer to pay, carries only the payer's signature and those handed to it, and leaves the ledger in a state for which all history properties hold, whether it is accepted or not.", "quantifier": "all commands, arguments, ledgers, fees", "why_tests_cant": "quantifies over all commands, arguments and ledger states", "anchors": ["clients/cli/src/create_mint.rs: command_create_mint", "clients/cli/src/wrap.rs: command_wrap", "clients/cli/src/unwrap.rs: command_unwrap", "clients/cli/src/common.rs: process_transaction"]}
{"id": "C40", "title": "create-mint creates the wrapped mint at exactly the missing rent", "statement": "For an existing mint whose wrapped mint does not exist, the create-mint command, run by a payer who can afford it, creates the wrapped mint and its backpointer as promised, whatever lamports their addresses already hold; the payer pays the fee plus exactly the missing rent and nothing else changes. Run again, it costs only the fee: accepted with --idempotent, refused without.", "quantifier": "all mints, programs, payers, prior lamports, rent tables, fees", "why_tests_cant": "all combinations of pre-funding, rents and mints", "anchors": ["clients/cli/src/create_mint.rs: command_create_mint", "program/src/processor.rs: process_create_mint"]}
{"id": "C41", "title": "create-escrow-account creates the genuine escrow, unless its address was touched", "statement": "For an existing mint whose escrow address is untouched, the create-escrow-account command creates the genuine escrow; the payer pays the fee and the escrow's rent and nothing else changes. If the escrow exists nothing is sent. (Finding) Anybody can send one lamport to the address beforehand; the command then never creates the escrow, and with --idempotent reports success.", "quantifier": "all reachable states, mints, programs, payers, fees", "why_tests_cant": "all reachable ledgers, including adversarial pre-funding", "anchors": ["clients/cli/src/create_escrow_account.rs: command_create_escrow_account"]}
{"id": "C42", "title": "The wrap command wraps what was asked, and nothing else", "statement": "In every reachable state in which the holder, the mint, the wrapped mint, the escrow and the recipient are in order, the wrap command \u2014 optional arguments given or left out, single owner or multisig with any mix of present and earlier signatures \u2014 sends a transaction that is accepted: the source pays the amount, the escrow and the recipient gain it less the mint's transfer fee, the payer pays the network fee, nothing else changes. Whatever the state, a transaction the command sends is a single Wrap of exactly the amount, source, mint and recipient asked for, into the genuine escrow.", "quantifier": "all reachable states, arguments, signer combinations, mints, amounts, fees", "why_tests_cant": "quantifies over all histories and argument combinations", "anchors": ["clients/cli/src/wrap.rs: command_wrap", "clients/cli/src/common.rs: get_mint_for_token_account, get_account_owner", "program/src/processor.rs: process_wrap"]}
{"id": "C43", "title": "The unwrap command redeems what was asked, and refuses arguments that disagree with the ledger", "statement": "In every reachable state (no permanent delegate so far) the unwrap command of a holder with proper accounts sends a transaction that is accepted: the holder's wrapped tokens are burned, the recipient gets the same number of unwrapped tokens less the mint's transfer fee out of the escrow, the payer pays the network fee, nothing else changes. Whatever the state, a transaction the command sends is a single Unwrap of the amount asked for, and every optional argument given agrees with the ledger; otherwise nothing is sent.", "quantifier": "all reachable states, arguments, signer combinations, mints, amounts, fees", "why_tests_cant": "quantifies over all histories and argument combinations", "anchors": ["clients/cli/src/unwrap.rs: command_unwrap, resolve_addresses", "program/src/processor.rs: process_unwrap"]}
{"id": "C44", "title": "close-stuck-escrow closes exactly the stuck escrows, and pays the destination", "statement": "In every reachable state with a stuck escrow (empty, thawed, no withheld fees, no longer fitting its mint) the close-stuck-escrow command sends an accepted transaction: the escrow is gone, its lamports are the destination's, the payer pays the fee, nothing else changes. If the escrow still fits its mint the transaction is refused at the price of the fee. Whatever the state, if the command's transaction is accepted then the escrow was stuck and is gone. For SPL Token mints nothing is ever sent.", "quantifier": "all reachable states, mints, payers, destinations (the payer included), fees", "why_tests_cant": "quantifies over all histories", "anchors": ["clients/cli/src/close_stuck_escrow.rs: command_close_stuck_escrow", "program/src/processor.rs: process_close_stuck_escrow"]}
{"id": "C45", "title": "find-pdas reports the addresses that matter, now and in every state", "statement": "The addresses find-pdas prints are the wrapped mint, its authority, its backpointer and the escrow; in every reachable state the wrapped mint is there iff the backpointer is, and each of the accounts, if there, is genuine: the mint is the authority's, the backpointer names the unwrapped mint, the escrow is a token account of the unwrapped mint owned by the authority.", "quantifier": "all reachable states, mints, token programs", "why_tests_cant": "quantifies over all histories", "anchors": ["clients/cli/src/find_pdas.rs: command_get_pdas", "program/src/lib.rs"]}
{"id": "C46", "title": "sync-metadata-to-token-2022 copies the metadata, finding its source by itself", "statement": "For every mint with authentic metadata \u2014 on the mint, on its Metaplex account, on the account its pointer names \u2014 the command, with the source left out or named, sends a transaction that copies name, symbol, URI and all additional fields, changes nothing else about the wrapped mint, and costs the fee. It is accepted iff the wrapped mint keeps its size or has the rent for its new size. (Findings) Funded by create-mint alone it never has: the first sync is always refused. For a mint whose pointer is unset the command always sends something that is refused.", "quantifier": "all reachable states, mints, metadata, sources, payers, fees, rent tables", "why_tests_cant": "all histories and all metadata", "anchors": ["clients/cli/src/sync_metadata_to_token2022.rs: command_sync_metadata_to_token2022", "clients/cli/src/common.rs", "program/src/processor.rs: process_sync_metadata_to_token_2022"]}
{"id": "C47", "title": "sync-metadata-to-spl-token makes or updates the Metaplex account, if the source is named", "statement": "For every mint with authentic metadata that Metaplex accepts, the command \u2014 with the source named, unless the mint holds its metadata itself \u2014 sends an accepted transaction: the wrapped mint's Metaplex account shows the metadata with no creator verified and belongs to the mint's authority, who pays for it if it is new; nothing else changes but the payer's fee. (Finding) The command never finds the source by itself: without it, metadata anywhere but on the mint is refused.", "quantifier": "all reachable states, mints, metadata, payers, fees, Metaplex costs", "why_tests_cant": "all histories and all metadata", "anchors": ["clients/cli/src/sync_metadata_to_spl_token.rs: command_sync_metadata_to_spl_token", "program/src/processor.rs: process_sync_metadata_to_spl_token"]}
{"id": "C48", "title": "The JavaScript instruction builders make the instructions of the Rust crate", "statement": "For all accounts and amounts the JavaScript builders of CreateMint, Wrap, Unwrap, CloseStuckEscrow and of the two Syncs with both optional accounts return exactly the instruction of the Rust builders, for single owners and for multisigs; amounts that do not fit 64 bits throw. With an optional account of a Sync left out, the JavaScript instruction has token-wrap's address in its place; whatever the Rust-built instruction achieves, it achieves too, and each account given stands in its own place (unlike C31_optional_accounts_refuted).", "quantifier": "all accounts, amounts (integers of any size), signers, ledgers", "why_tests_cant": "all amounts and addresses; simulation of one account list by another over all ledgers", "anchors": ["clients/js/src/generated/instructions/*.ts", "program/src/instruction.rs"]}
{"id": "C49", "title": "The JavaScript parsers tell what an instruction does", "statement": "For every instruction the program can decode and every account list, the JavaScript parser returns an answer iff there are at least as many accounts as it names, and then kind, data and every account are the ones the program uses; its error table is the program's. (Findings) SetCanonicalPointer is unknown to it; trailing bytes, which the program refuses, are accepted; Rust-built Syncs without both optional accounts throw.", "quantifier": "all instruction bytes and account lists", "why_tests_cant": "all byte strings and account lists", "anchors": ["clients/js/src/generated/programs/tokenWrap.ts: identifyTokenWrapInstruction, parseTokenWrapInstruction", "clients/js/src/generated/instructions/*.ts: parse*Instruction", "clients/js/src/generated/errors/tokenWrap.ts"]}
{"id": "C50", "title": "JavaScript createMint sends the transaction of the create-mint command", "statement": "For every ledger, payer, mint and program the transaction of JavaScript's createMint is the create-mint command's; so it creates the wrapped mint and its backpointer at exactly the missing rent, and nothing else changes.", "quantifier": "all ledgers, mints, programs, payers, rent tables, fees", "why_tests_cant": "all combinations of pre-funding, rents and mints", "anchors": ["clients/js/src/create-mint.ts: createMint"]}
{"id": "C51", "title": "JavaScript createEscrowAccount creates the genuine escrow, unless its address was touched", "statement": "If the escrow's address holds no lamports, createEscrowAccount sends the transaction of the create-escrow-account command, which creates the genuine escrow at the price of fee and rent; an existing escrow is reported. (Finding) One lamport sent to the address by anybody makes the helper throw; it never creates the escrow then.", "quantifier": "all reachable states, mints, programs, payers, fees", "why_tests_cant": "all reachable ledgers, including adversarial pre-funding", "anchors": ["clients/js/src/utilities.ts: createEscrowAccount"]}
{"id": "C52", "title": "JavaScript singleSignerWrap wraps what was asked, with the holder's consent", "statement": "In every reachable state with everything in order, singleSignerWrap \u2014 optional arguments given or left out \u2014 returns a transaction that is accepted: the source pays the amount, escrow and recipient gain it less the mint's transfer fee, the payer pays the network fee, nothing else changes. Whatever the state, what it returns is a single Wrap of exactly the amount, source, mint and recipient asked for into the genuine escrow, signed for by the authority named, the payer by default. If the network accepts it, the owner of the source, its delegate or the mint's permanent delegate signed, and the only signatures are those of the payer and the signer named.", "quantifier": "all reachable states, arguments, signers, mints, amounts, fees", "why_tests_cant": "quantifies over all histories and argument combinations", "anchors": ["clients/js/src/wrap.ts: singleSignerWrap, buildWrapTransaction, resolveAddrs", "clients/js/src/utilities.ts"]}
{"id": "C53", "title": "JavaScript singleSignerUnwrap redeems what was asked, and inconsistent arguments cannot succeed", "statement": "In every reachable state (no permanent delegate so far) singleSignerUnwrap of a holder with proper accounts returns a transaction that is accepted: the wrapped tokens are burned, the recipient gets as many unwrapped tokens less the mint's transfer fee out of the escrow, nothing else changes. Whatever the state, what it returns is one Unwrap of exactly the amount, source and recipient asked for. Although it checks nothing against the ledger, an accepted transaction means that the source's mint is the wrapped mint of the recipient's mint, every argument given agrees with the ledger, and the recipient was paid from the genuine escrow.", "quantifier": "all reachable states, arguments, signers, mints, amounts, fees; for the last part all ledgers", "why_tests_cant": "quantifies over all histories and argument combinations", "anchors": ["clients/js/src/unwrap.ts: singleSignerUnwrap, resolveUnwrapAddrs, buildUnwrapTransaction"]}
{"id": "C54", "title": "Offline multisig signing: the combined copies carry exactly the participants' consent, and are accepted when all have signed", "statement": "combinedMultisigTx returns a transaction only if all copies hold the same message and every signature slot of the first is filled by some copy; every signature in it stands in some copy under the same key. If every required key signed some copy, it succeeds. Whatever copies are combined, the network accepts the result only if payer and every required signer really signed this message in one of the copies. When each participant (payer and multisig members) signs a copy made with the same arguments, the combined transaction of an offline wrap or unwrap is accepted in every reachable state with everything in order, with the effects of wrap and unwrap. (Finding) The last copy wins: anybody who contributes a later copy with a bogus signature turns a complete collection into a refused transaction (nothing is charged).", "quantifier": "all lists of copies, signatures (genuine or forged bytes), participants, reachable states, amounts, mints", "why_tests_cant": "all partitions of signatures over any number of copies, including malicious ones, and all histories", "anchors": ["clients/js/src/wrap.ts: multisigOfflineSignWrap", "clients/js/src/unwrap.ts: multisigOfflineSignUnwrap", "clients/js/src/utilities.ts: combinedMultisigTx, messageBytesEqual"]}
{"id": "C55", "title": "Mint customizers: what another customizer can change about a wrapped mint, and what the shipped ones produce", "statement": "Whatever customizer the program is built with, a CreateMint that succeeds on empty accounts yields, at the derived address, an initialised mint of the named token program with supply zero whose mint authority is the derived authority, and a backpointer holding the unwrapped mint. A customizer that adds a list of extensions gives a Token-2022 mint exactly these (and an SPL Token mint none), in an account of exactly the size they need, with the unwrapped mint's decimals and the freeze authority the customizer chooses, and changes nothing else; it succeeds exactly when both accounts are funded for rent, and otherwise reports EAccountNotRentExempt. The compliance customizer adds a permanent delegate, confidential transfers with its authority and auditor, a default state of initialized and pausing; the no-extension customizer adds none. (Finding) Mints of both have no metadata pointer, so SyncMetadataToToken2022 never succeeds on them.", "quantifier": "all customizers, ledgers, account lists, mints, rents", "why_tests_cant": "quantifies over every customizer and all states; the suite exercises only the default", "anchors": ["program/src/mint_customizer/interface.rs: MintCustomizer", "program/src/mint_customizer/compliance.rs", "program/src/mint_customizer/no_extensions.rs", "program/src/processor.rs: process_create_mint"]}
{"id": "C56", "title": "The error reported is that of the first requirement that is not met", "statement": "Each instruction states, in order, what it requires of its accounts (amount, wrapped mint address, backpointer, mint authority, escrow address, escrow readable and owned by the authority, unwrapped mint readable, owning programs, Metaplex account and program, signature and authority, pointer address and rent). If a requirement is violated and all before it are met, the instruction fails with exactly the error documented for it. With too few accounts it fails with NotEnoughAccountKeys, and a Wrap or Unwrap of zero with ZeroWrapAmount whatever the accounts.", "quantifier": "all ledgers, account lists, amounts, addresses, violations", "why_tests_cant": "a test picks one violation and one ledger; the claim ranges over all combinations of simultaneous violations", "anchors": ["program/src/processor.rs: all process_* functions", "program/src/error.rs: TokenWrapError"]}
{"id": "C57", "title": "Wrapped tokens wrapped again, to any depth, stay backed by the original tokens and redeemable level by level", "statement": "If the unwrapped mint never had a permanent delegate, then all holders of a wrapped token and of every token wrapped from it, by either token program, to any depth and in any branching, together never claim more than the original escrow holds (escrows themselves not counted as holders); the supply at any height of such a tower is at most the original escrow. A holder at any level can always unwrap one level: whatever the history of the mints in between, only a frozen escrow or recipient can prevent it.", "quantifier": "all histories, mints, trees of nested wrappings of any depth, holders, amounts", "why_tests_cant": "ranges over unbounded nesting depth and all histories; the suite wraps once", "anchors": ["program/src/processor.rs: process_create_mint, process_wrap, process_unwrap", "program/src/lib.rs: get_wrapped_mint_address"]}
{"id": "C58", "title": "A copy of the program at another address is inert", "statement": "The same binary deployed at any other address, called with any data and accounts in any state token-wrap can reach, changes nothing: no wrapped mint, escrow, backpointer or pointer can be created, minted, moved or closed through it. It refuses every instruction except a metadata sync that finds nothing to change.", "quantifier": "all program addresses, inputs, account lists, reachable states", "why_tests_cant": "all program addresses and inputs", "anchors": ["program/src/lib.rs: derivations with the declared program id", "program/src/processor.rs: all process_* functions, invoke_signed"]}
{"id": "C59", "title": "From a wrapped mint alone, the backpointer tells the unwrapped mint; nothing else can pose as one", "statement": "In every reachable state, reading the backpointer derived from any key returns u only if that key is the wrapped mint of u and has been created; for every wrapped mint it returns its unwrapped mint. 'Does not exist' means the key is no wrapped mint. A holder of wrapped tokens who knows only their mint can read the backpointer, derive all other addresses, and unwrap. (Finding) Lamports sent by anybody to the backpointer address of a mint not yet wrapped make the JavaScript reader throw instead of answering 'does not exist'.", "quantifier": "all reachable states, keys, mints, holders, amounts", "why_tests_cant": "claims that no reachable ledger holds a misleading account at any backpointer address", "anchors": ["program/src/state.rs: Backpointer", "clients/js/src/generated/accounts/backpointer.ts: fetchBackpointerFromSeeds, fetchMaybeBackpointer, fetchAllBackpointer, getBackpointerDecoder"]}
{"id": "C60", "title": "JavaScript createTokenAccount creates usable accounts for every wrapped mint, but not for mints that demand account extensions", "statement": "For a fresh key and a payer with enough lamports, the instructions createTokenAccount returns create an empty token account of the mint for the owner named, at the price of the rent of 165 bytes and the transaction fee; nothing else changes and the state reached is a reachable one. For wrapped mints this always works and the account is usable at once. Programs other than the two token programs are refused. (Finding) For Token-2022 mints with transfer fees, a transfer hook, non-transferable or pausable tokens, the transaction always fails, since 165 bytes are too few.", "quantifier": "all reachable states, mints, owners, payers, rents, fees", "why_tests_cant": "all mints with any extensions and all reachable ledgers", "anchors": ["clients/js/src/utilities.ts: createTokenAccount, getInitializeTokenFn"]}
{"id": "C61", "title": "The JavaScript client's example flow works from nothing: create mint, escrow and account, wrap, unwrap; a round trip restores everything but fees", "statement": "For a mint that can be transferred, with nothing set up, a payer with enough lamports and a fresh key, createMint, createEscrowAccount and createTokenAccount succeed one after the other and leave an empty wrapped mint, an empty open escrow and an empty account of the owner, for exactly the rents and network fees. singleSignerWrap of n then succeeds and gives n - f wrapped tokens (f: the mint's transfer fee), and singleSignerUnwrap of any part q of these succeeds after it: the source has back q less the mint's fee, and escrow, wrapped account and wrapped supply all stand at n - f - q. In any state with tokens already wrapped, a wrap followed by an unwrap of what it gave restores escrow, supply and holder's balance. Nothing else changes and the payer pays exactly rents and fees.", "quantifier": "all reachable states, unwrapped mints of either program, wrapped programs, owners, amounts, fees, parts unwrapped", "why_tests_cant": "composition of five transactions, each made from the state the previous ones left, for all starting states and amounts", "anchors": ["clients/js/src/examples/single-signer.ts", "clients/js/src/create-mint.ts: createMint", "clients/js/src/utilities.ts: createEscrowAccount, createTokenAccount", "clients/js/src/wrap.ts: singleSignerWrap", "clients/js/src/unwrap.ts: singleSignerUnwrap"]}
{"id": "C62", "title": "Wrapped tokens leave an account, or the account is given away, frozen or closed, only with the consent of those with power over it", "statement": "Whatever happens next in a reachable state - any token-wrap instruction, any token program instruction, anything else - an account of wrapped tokens keeps its mint; its balance falls only if its owner signed (a multisig through its members), or its delegate within the allowance, which shrinks by what is spent; ownership, a new delegate, a larger allowance or a smaller confidential balance need the owner; freezing or thawing needs the wrapped mint's freeze authority, which only itself can hand on; closing needs a zero balance and the owner or close authority. Hence over any course of actions in which owner, delegate and close authority sign nothing, the account keeps at least its tokens, and stays unfrozen if the freeze authority is idle too. While only the delegate acts, at most its allowance is lost, however it is spent. Exceptions stated: escrows, accounts owned by the system program or the incinerator; for SPL Token wrapped mints, transfer hook programs are assumed not to touch the account with signatures they were passed. (Finding) The copied freeze authority can freeze holders' wrapped accounts.", "quantifier": "all reachable states, all actions and unbounded courses of actions, accounts, mints, owners, delegates", "why_tests_cant": "quantifies over everything anybody could do next, in any number of steps", "anchors": ["program/src/processor.rs: process_create_mint, process_wrap, process_unwrap", "program/src/mint_customizer/default_token_2022.rs: DefaultToken2022Customizer"]}
{"id": "C63", "title": "Wrap, walk away, come back, unwrap: tokens left alone can always be exchanged back", "statement": "If the unwrapped mint never has a permanent delegate, then after any course of actions by anybody during which neither the owner, delegate or close authority of an account of wrapped tokens nor the wrapped mint's freeze authority signs anything, an Unwrap of any amount the account held at the start succeeds, and pays that amount less the mint's transfer fee of the day to the recipient; the only further conditions concern moving unwrapped tokens at that time (mint not paused or hooked, escrow not frozen, recipient able to receive). In particular what a Wrap of n gave (n less the fee then) can be unwrapped after any such course.", "quantifier": "all histories, courses of actions of any length, holders, amounts, mints of both programs, single owners and multisigs", "why_tests_cant": "a liveness guarantee over every possible interference of unbounded length between two calls", "anchors": ["program/src/processor.rs: process_wrap, process_unwrap", "README.md: the 1:1 relationship between wrapped and unwrapped tokens is maintained through the escrow mechanism"]}
{"id": "C64", "title": "What an instruction does depends only on the accounts it names, and non-conflicting instructions may run in any order", "statement": "The outcome of a token-wrap instruction (the error, or the resulting contents of the accounts it names) is a function of those accounts alone: two ledgers that agree on them give the same error or the same accounts. Hence whatever anybody does in the meantime to other accounts (through token-wrap, the token programs, the associated-token program or anything else) cannot change it; two requests neither of which names an account the other may write commute, each getting the verdict it would get alone; and a list of pairwise non-conflicting requests leaves the same ledger in every order, failing requests included.", "quantifier": "all seven instructions and arbitrary input bytes, all account lists, all ledgers, all environments whose foreign programs see only the accounts passed to them, all sequences of intervening steps, all lists of requests and all their permutations", "why_tests_cant": "a test runs one schedule on one ledger; that nothing outside the named accounts is ever consulted, for any schedule of any length, needs an argument over every read the program and its callees make", "anchors": ["program/src/processor.rs: process_instruction and all process_* functions (every read goes through a named AccountInfo)", "program/src/metadata.rs: extract_token_metadata", "program/src/instruction.rs: which accounts are writable"]}
{"id": "C65", "title": "Running the client: nothing is sent unless asked, signatures are bound to one message, and signing on separate machines equals signing on one", "statement": "With --sign-only or --dry-run no command changes the chain, and a command that is not confirmed changes at most the fee. What --sign-only prints is the message the same command would send, with genuine signatures over exactly that message from key pairs or signatures supplied to this run; with mint, program and block hash on the command line a wrap signs the same message on every machine whatever it sees of the chain. A signature handed to a run with --signer is refused unless it signs that run's own message. A confirmed run carried its own message under a current block hash, and everyone the message asks for had signed it. If participants sign on separate machines and one sends with everything they printed, the outcome is that of one machine holding all key pairs; so a team in the situations of C42 and C43 wraps and unwraps exactly what was asked. A run that sends does what the commands of C42 and C43 do. A dry run reports success exactly when the command can be put together and signed - what the chain makes of it does not enter (refuted expectation: C65_dry_run_blind).", "quantifier": "all commands and arguments, all combinations of key pairs, addresses and supplied signatures, any number of participants, their views of the chain, all ledgers, block hashes and configurations", "why_tests_cant": "the tests run one two-member example; that no run mode has an effect or accepts a foreign signature, and that any distribution of keys over machines is equivalent, quantifies over all command lines and participants", "anchors": ["clients/cli/src/common.rs: process_transaction, parse_presigner", "clients/cli/src/config.rs: Config::new, fee_payer", "clients/cli/src/wrap.rs: command_wrap, WrapArgs", "clients/cli/src/unwrap.rs: command_unwrap, resolve_addresses", "clients/cli/src/cli.rs: Command::execute"]}
{"id": "C66", "title": "Many users of one wrapped mint: nobody can block, help or shortchange anybody, and the order does not matter", "statement": "Any number of Wraps and Unwraps of the same mint by strangers (none names another's paying or receiving account), all writing the same escrow and the same wrapped mint: they all go through, one after the other, exactly if each of them goes through alone; an order goes through after any orders of strangers exactly if it goes through without them; everybody's paying and receiving accounts end as if they had been alone; escrow balance, withheld fees and wrapped supply move by the totals (amounts less transfer fees in, amounts out); nothing else changes; and every order of execution gives the same ledger. Needs that the unwrapped mint never had a permanent delegate and has no transfer hook; with a permanent delegate two unwraps can each go through alone but not both (C66_permanent_delegate).", "quantifier": "all reachable states, all mints of both token programs (fees, any number of orders, wraps and unwraps mixed, all amounts, owners, delegates and multisigs), all permutations", "why_tests_cant": "a test fixes the users, amounts and schedule; that no interleaving of any number of strangers can make one fail needs the backing invariant, conservation of supply and an induction over the orders", "anchors": ["program/src/processor.rs: process_wrap, process_unwrap", "README.md: the 1:1 relationship between wrapped and unwrapped tokens is maintained through the escrow mechanism"]}
{"id": "C67", "title": "A run on the escrow: all holders can redeem everything, in any order, and the last is paid in full", "statement": "In every reachable state, if the unwrapped mint never had a permanent delegate, any number of holders of wrapped tokens who can each act for their own account (owner or multisig, not frozen) and name a recipient able to receive, can all unwrap any amounts up to all they hold, one after the other in any order: all Unwraps go through; each holder's account falls by exactly the amount, each recipient's rises by it less the mint's transfer fee; escrow balance and wrapped supply fall by the total; what remains is still fully backed. If together they redeem the whole supply, no wrapped token is left.", "quantifier": "all reachable states, any number of holders, amounts, recipients, orders of execution, mints of both token programs", "why_tests_cant": "a solvency guarantee for every set of holders and every sequence of withdrawals; tests exercise one holder at a time", "anchors": ["program/src/processor.rs: process_unwrap", "README.md: the 1:1 relationship between wrapped and unwrapped tokens is maintained through the escrow mechanism"]}
{"id": "C68", "title": "Two multisigs through the JavaScript client: set up, offline-signed wrap and unwrap, all of it back", "statement": "In every reachable state where nothing of the mint has been wrapped yet, a payer can create the wrapped mint, the escrow and a wrapped-token account owned by a multisig with the JavaScript client, as in its multisig example; then, if the payer and the members of the multisig that holds the unwrapped tokens each sign a copy of the same wrap on their own and the copies are combined, the network accepts it, the tokens are in escrow and the second multisig's account holds as many wrapped tokens, less the mint's transfer fee; any amount up to that can then be unwrapped by copies signed by the second multisig's members. Supply, escrow and balances are exact at each step, the payer pays exactly rents and fees, and nothing else changes.", "quantifier": "all reachable states, mints of both token programs without default-frozen or non-transferable extensions, multisigs, sets of participants, amounts, fees and block hashes", "why_tests_cant": "the example runs one 2-of-2 multisig with fixed amounts; here the whole composition of independently signed transactions is proved for any multisigs and participants", "anchors": ["clients/js/src/examples/multisig.ts: main", "clients/js/src/wrap.ts: multisigOfflineSignWrap", "clients/js/src/unwrap.ts: multisigOfflineSignUnwrap", "clients/js/src/utilities.ts: combinedMultisigTx, createTokenAccount, createEscrowAccount", "clients/js/src/create-mint.ts: createMint"]}
{"id": "C69", "title": "The JavaScript client's metadata-sync programs do what they say", "statement": "sync-spl-to-token2022: for an SPL Token mint with a Metaplex account whose Token-2022 wrapped mint exists, the program's transaction would leave the wrapped mint showing exactly that metadata (name, symbol, URI and all fields), its mint fields as they were; it is accepted if the wrapped mint keeps its size or has rent for the new one, and then only the payer's fee is paid besides; otherwise it is refused for rent. sync-token2022-to-spl: for a Token-2022 mint holding its own metadata whose SPL Token wrapped mint exists, the program's transaction is accepted and leaves the wrapped mint's Metaplex account - created at the wrapped mint authority's expense, or updated - showing that metadata, and nothing else changes but the fee. Refuted expectation: with only the prerequisites the first program states - the wrapped mint freshly made by createMint - its transaction is always refused for rent.", "quantifier": "all reachable states, mints, metadata contents, payers, fees and rents", "why_tests_cant": "the programs run against one fixture mint; here the transaction is evaluated for any metadata and any reachable state, including how JavaScript's stand-in for omitted optional accounts is read by the program", "anchors": ["clients/js/src/examples/sync-spl-to-token2022.ts: main", "clients/js/src/examples/sync-token2022-to-spl.ts: main", "clients/js/src/generated/instructions/syncMetadataToToken2022.ts: getSyncMetadataToToken2022Instruction", "clients/js/src/generated/instructions/syncMetadataToSplToken.ts: getSyncMetadataToSplTokenInstruction"]}
{"id": "C70", "title": "Transfer hooks: called exactly once per Wrap and Unwrap, on exactly the tokens moved; never bypassed, never a way in", "statement": "If the unwrapped mint names a transfer-hook program, every successful Wrap calls it once, with the paying account, the mint, the escrow and the transfer authority, the accounts the transfer helper added, and the amount, after the tokens have moved; every successful Unwrap likewise with escrow, mint, recipient and wrapped-mint authority, after the burn. The hook gets no account writable, and no signature (but the wrapped-mint authority's), that the caller did not pass; what it does reaches only accounts passed writable that belong neither to Token-2022 nor to token-wrap, and the parties' accounts end as it saw them. If the hook refuses, Wrap and Unwrap fail: nobody gets tokens in or out around it. If it agrees, the liveness guarantees C36 and C19, and C63 for those who walk away, hold as for mints without a hook. With the repository's own hook program, every Wrap and Unwrap raises the counter by exactly one and changes nothing else; when the counter is full, no token can be wrapped, or unwrapped, any more.", "quantifier": "all hook programs, ledgers, account lists, amounts; for liveness all histories", "why_tests_cant": "the repository tests one counter program on one wrap and one unwrap; here the hook is arbitrary code and the claims hold for every state and call", "anchors": ["program/src/processor.rs: process_wrap, process_unwrap (invoke_transfer_checked)", "program/test-transfer-hook/src/processor.rs: process_instruction", "program/tests/test_wrap.rs: test_wrap_with_transfer_hook", "program/tests/test_unwrap.rs: test_unwrap_with_transfer_hook"]}
{"id": "C71", "title": "Metadata found through a mint's pointer: the third-party program is asked and its answer copied; whose metadata it is, nobody checks", "statement": "If a Token-2022 mint's metadata pointer names an account of a third-party program (here: the repository's own), anybody can sync, the wrapped mint then shows exactly the metadata that program answers, and nothing else changes; if the program has no metadata there, cannot read the account, has more than fits into an answer, or answers nothing, both syncs fail with its error or ExternalProgramReturnedNoData. Refuted expectation: that the metadata shown by a wrapped mint belongs to the token that was wrapped. A mint may point at the Metaplex account of any other token; Sync accepts it, and the wrapped mint then names itself as pointer target and as the metadata's mint, so it passes the mutual check that exposes the unwrapped mint; likewise the Metaplex account made for an SPL Token wrapped mint.", "quantifier": "all reachable states, mints, pointers, metadata contents and callers", "why_tests_cant": "the tests run fixed accounts; which token's metadata can end up on a wrapped mint ranges over all pointers and all Metaplex accounts", "anchors": ["program/src/metadata.rs: resolve_token_2022_source_metadata, cpi_emit_and_decode", "program/src/metaplex.rs: metaplex_to_token_2022_metadata", "program/test-metadata-owner/src/processor.rs: process_instruction", "program/tests/test_extract_token_metadata.rs"]}
{"id": "C72", "title": "Transactions on the wire: every one fits into a packet unless a large multisig signs; the bytes that are signed determine the transaction", "statement": "Every transaction the command line client or the JavaScript client makes fits into a network packet (1232 bytes), whatever the addresses and amounts, as long as at most seven multisig members sign; it is then delivered as it is. The limit is exact: with pairwise different accounts a Wrap or Unwrap fits if and only if the signing members number at most seven, one more if the payer is one of them, one more if both token programs are the same (97 bytes per member and 475 for the rest; 96 less, 32 less; 2 more in version 0). Refuted expectation: that any multisig of the token programs (up to eleven members) can wrap and unwrap; ten required signers never fit, and neither client warns. Two transaction messages have the same bytes only if they agree in payer, program, accounts in order, each account's signer and writable rights, data and block hash; and a legacy message never has the bytes of a version 0 one: who signs the bytes signs exactly that, and comparing bytes when combining offline signatures compares the transactions.", "quantifier": "all addresses, amounts, commands, ledgers, numbers of members, encodings of addresses into 32 bytes and orders of accounts, legacy and version 0 messages", "why_tests_cant": "tests send a few transactions with two members; size for every combination of accounts and injectivity of the encoding are universal statements", "anchors": ["clients/cli/src/wrap.rs: command_wrap (Transaction::new_with_payer)", "clients/cli/src/unwrap.rs: command_unwrap", "clients/js/src/wrap.ts: multisigOfflineSignWrap", "clients/js/src/unwrap.ts: multisigOfflineSignUnwrap", "clients/js/src/utilities.ts: combinedMultisigTx", "clients/js/src/examples/multisig.ts: main"]}
{"id": "C73", "title": "Tokens in an escrow beyond the wrapped supply are out of reach for good; one of them blocks the repair of a stuck escrow", "statement": "Whatever anybody does, the surplus of an escrow - its tokens less the wrapped tokens in circulation - never shrinks, if the unwrapped mint never had a permanent delegate. So tokens sent straight to an escrow, tokens behind wrapped tokens that were burnt without Unwrap, and tokens unwrapped with the escrow itself named as recipient (which Unwrap accepts: it burns the wrapped tokens and pays nobody) can never be taken out; the escrow and the mint can never be closed again. Refuted expectation: that CloseStuckEscrow repairs a stuck escrow whenever nobody has wrapped anything yet. If anybody sends a single token to the stuck escrow before, neither CloseStuckEscrow nor Unwrap can ever succeed for that pair.", "quantifier": "all histories of token-wrap, token-program and third-party steps, all pairs, amounts and environments", "why_tests_cant": "never is a statement about every continuation of every history; tests check one instruction at a time", "anchors": ["program/src/processor.rs: process_unwrap, process_close_stuck_escrow", "program/src/instruction.rs: TokenWrapInstruction::CloseStuckEscrow"]}
{"id": "C74", "title": "Freezing: a frozen account stops Wrap and Unwrap, a frozen escrow stops everybody until the freeze authority thaws it - or for ever", "statement": "A Wrap that succeeds found neither paying account nor escrow frozen and leaves an unfrozen recipient; an Unwrap that succeeds found neither the burnt account, nor the escrow, nor the recipient frozen. Once an escrow is frozen, every later action either leaves it frozen or was consented to by the freeze authority the unwrapped mint had at that time; so while that authority does not act, whoever does whatever, nobody can wrap into, unwrap from or close that escrow. If at some time the escrow was frozen and the mint had no freeze authority (and, for Token-2022, no close authority), it stays so in every later state of every history, whatever transfer hooks run. Refuted expectations: that backed wrapped tokens stay redeemable (the freeze authority can freeze the escrow and then renounce its power: the tokens are locked up for good); that renouncing the freeze authority of the unwrapped mint frees the holders of the wrapped token (the wrapped mint keeps the old freeze authority, which can still freeze them out of Unwrap).", "quantifier": "all ledgers, accounts, amounts and environments; all reachable states and courses of actions of any length, all histories", "why_tests_cant": "the tests never freeze an account; and nobody, never and until are statements about every caller and every continuation", "anchors": ["README.md: Security (freeze authority)", "program/src/instruction.rs: TokenWrapInstruction::SetCanonicalPointer (freeze the unwrapped mint's escrow)", "program/src/processor.rs: process_wrap, process_unwrap, process_close_stuck_escrow, process_create_mint (freeze authority copied)"]}
{"id": "C75", "title": "Wrapping creates no tokens and does not re-denominate them, unless the unwrapped mint is closed and re-created", "statement": "For a mint that never had a permanent delegate (and is not wrapped SOL): in every state, all its wrapped tokens (as SPL Token and as Token-2022 together) plus what any set of other accounts holds of it never exceed its supply. As long as wrapped tokens exist, the unwrapped mint exists, has at least that supply, and after any action of anybody is still there under the same token program with the same decimals; so its decimals are constant over any period during which there are wrapped tokens. If the unwrapped mint never has a close authority, the wrapped mint always has the same decimals. (Finding) A mint with a close authority can be wrapped before it has supply, closed, and re-created with other decimals: Wrap still works, and the wrapped mint keeps the old decimals for ever, so equal displayed quantities differ by powers of ten.", "quantifier": "every history of instructions and third-party actions, every unwrapped mint, both wrapped mints, every set of distinct token accounts, every environment and bump", "why_tests_cant": "A test sees a few accounts of one history; the bound ranges over all accounts at once and all histories, and the decimals claims exclude every sequence of closings, re-creations and updates by anybody.", "anchors": ["program/src/processor.rs:process_create_mint", "program/src/processor.rs:process_wrap", "program/src/processor.rs:process_unwrap", "program/src/mint_customizer/default_token_2022.rs:get_freeze_auth_and_decimals"]}
{"id": "C76", "title": "The rules of the unwrapped mint stay its own: token-wrap never changes them; a paused mint stops Wrap and Unwrap until its pause authority acts - or for ever", "statement": "For every Token-2022 mint, every action of anybody leaves the mint in place with its pause switch, transfer hook, permanent delegate and close authority as they were, except for a setting whose own current authority consented to the action, and except that the close authority may close a mint without tokens. No token-wrap instruction, whatever accounts it gets, changes any of them. A mint without close authority never gets a pause switch, hook or permanent delegate it does not have. While a mint is paused, every Wrap and Unwrap of its tokens is refused; so while the pause authority (and, once no token is left, the close authority) does not act, whatever others do, nobody wraps or unwraps; if it was ever paused without pause authority and close authority, that holds in every later state. Refuted expectations: that a paused token does not circulate (the wrapped token does); that backed wrapped tokens stay redeemable (the pause authority can pause and then renounce).", "quantifier": "all reachable states, mints, actions of any program, accounts, amounts, environments and hooks; courses of actions of any length; all histories", "why_tests_cant": "no test pauses a mint; never, nobody and for ever range over every caller and every continuation", "anchors": ["program/src/processor.rs: process_wrap, process_unwrap (transfer of the unwrapped token), process_sync_metadata_to_token_2022 (the only writer of a mint that exists)", "program/src/mint_customizer/default_token_2022.rs: DefaultToken2022Customizer::initialize_extensions (no Pausable)", "README.md: Security"]}
{"id": "C77", "title": "The price of wrapping and unwrapping: set by the fee authority alone, fixed for ever once there is none, and up to everything while there is one", "statement": "Whatever anybody does, the transfer-fee schedule of a Token-2022 mint stays, unless its own fee authority consented to the action (or the close authority closed the mint when it had no tokens); no token-wrap instruction changes it, whatever accounts it gets. If a mint ever had no fee authority (or no fees) and no close authority, then in every later state and every epoch each successful Unwrap of n pays exactly n less the fee of the schedule known then, and burns n; each successful Wrap of n takes n and mints n less that fee; without fees both are one to one for ever. Refuted expectation: that backed wrapped tokens are worth their backing (the fee authority can raise the fee to all: Unwrap then burns the tokens and pays nothing).", "quantifier": "all reachable states and histories, actions of any program, mints, schedules, epochs, amounts, accounts and environments", "why_tests_cant": "tests fix one fee configuration and one epoch; that nobody else can change it and that it then holds for ever ranges over all actions and histories", "anchors": ["program/src/processor.rs: process_wrap (fee subtracted from the minted amount), process_unwrap", "program/tests/helpers/extensions.rs: MintExtension::TransferFeeConfig", "program/src/instruction.rs: TokenWrapInstruction::Wrap, Unwrap"]}
{"id": "C78", "title": "Tokens frozen by default need the freeze authority to agree before they can be wrapped", "statement": "If a Token-2022 mint creates its accounts frozen, every escrow of it is created frozen, whoever creates it (creating escrows is open to all and needs no consent of the mint). Only the freeze authority changes that default (or the close authority closes a mint without tokens). So for such a mint without close authority and an escrow address that holds nothing yet: whatever anybody does, in any order and for any length, as long as whoever is the freeze authority consents to nothing, the escrow stays absent or frozen, and every Wrap, Unwrap and CloseStuckEscrow with it is refused - for holders, too, whose own accounts have been thawed. A played history shows the refusal, and the same Wrap succeeding once the freeze authority has thawed the escrow too.", "quantifier": "all reachable states, Token-2022 mints, both wrapped-token programs, courses of actions of any length by anybody, all later accounts, amounts, sizes and environments", "why_tests_cant": "no test wraps a token that is frozen by default; that nobody gets around the freeze authority ranges over every sequence of instructions of all programs", "anchors": ["program/src/processor.rs: process_wrap, process_unwrap, process_close_stuck_escrow", "clients/cli/src/create_escrow_account.rs: command_create_escrow_account", "program/src/instruction.rs: TokenWrapInstruction::Wrap, Unwrap, CloseStuckEscrow"]}
