# Formal model of solana-program/token-wrap in Rocq (Coq 8.16.1)

Sources: `/repo` at the pinned commit. Model and proofs: `rocq/theories/`. Properties: `properties.jsonl`;
theorem names per property: `MANIFEST.json`; wrong programs tried: `seeded/LOG.jsonl`.

## 1. Trusted base

* Coq 8.16.1's kernel, and `vm_compute` (used for concrete examples and `_refuted` witnesses only, inside the kernel).
* `Print Assumptions` is run after every property theorem in the `Prop*.v` files: each prints
  **"Closed under the global context"** – no axiom is used by any theorem.
* Loading the standard library's `Lia` brings in seven declarations (parameters of a module in `Coq.ssr.ssrunder`)
  that count as library axioms; no theorem uses any of them:
  `Coq.ssr.ssrunder.Under_rel.Over_rel`, `Coq.ssr.ssrunder.Under_rel.Under_rel_from_rel`,
  `Coq.ssr.ssrunder.Under_rel.over_rel`, `Coq.ssr.ssrunder.Under_rel.over_rel_done`,
  `Coq.ssr.ssrunder.Under_rel.Under_rel`, `Coq.ssr.ssrunder.Under_rel.Under_relE`,
  `Coq.ssr.ssrunder.Under_rel.under_rel_done`.
* No axioms, `Admitted`, functors, module types or disabled checks of our own.
* The faithfulness of the model to the Rust code and to the external programs (sections 2–4): this is what a
  reader has to review. Every definition of the model cites the lines it models; simplifications are marked
  `SIMPLIFICATION` there and collected in section 4.

## 2. What is modelled

| Part | Files in /repo | Model |
|---|---|---|
| wire format, error codes | `program/src/instruction.rs`, `error.rs` | `Codec.v`, `Base.v` |
| address derivation (all `get_*`, incl. bump search and its panic) | `program/src/lib.rs` | `Pda.v`; byte level: `PdaBytes.v` |
| account records | `program/src/state.rs` | `State.v` (`DKey`) |
| every `process_*` function, check by check and CPI by CPI, `process_instruction` | `program/src/processor.rs` | `Processor.v` |
| mint customizers (default, compliance, no-extensions) | `program/src/mint_customizer/*.rs` | `Processor.v` |
| metadata source resolution, Metaplex conversion | `program/src/metadata.rs`, `metaplex.rs` | `Meta.v` |
| instruction builders | `program/src/instruction.rs:271-466` | `Builders.v` |
| command line client: all seven commands and `find-pdas`, from arguments and account reads to the signed transaction; the network's treatment of it (fee, signatures, rent) | `clients/cli/src/*.rs` | `Cli.v`; vocabulary: `CliSpec.v` |
| the transfer-hook program and the third-party metadata program used in tests | `program/test-transfer-hook/src/processor.rs`, `program/test-metadata-owner/src/processor.rs` | `TestHook.v`, `TestMetadataOwner.v` |
| transactions on the wire and the packet limit (external: solana_message, @solana/kit) | `clients/cli/src/{wrap,unwrap}.rs`, `clients/js/src/{wrap,unwrap,utilities}.ts` | `Wire.v` |
| JavaScript client: generated builders, parsers, addresses and errors; createMint, createEscrowAccount, singleSignerWrap, singleSignerUnwrap, the offline multisig helpers and the combination of signatures; backpointer reader, createTokenAccount; the two sync example programs | `clients/js/src/**/*.ts` | `Js.v`, `JsAccounts.v`, `JsSync.v`; vocabulary: `JsSpec.v` |

Environment (external code token-wrap relies on):

| Part | Model |
|---|---|
| Solana runtime: CPI privilege checks, PDA signing, borrow conflicts, owner/writable rules, atomic rollback | `Cpi.v`, `Processor.v` (`run_instruction`, `run_transaction`) |
| system program (allocate, assign), Metaplex create/update | `Cpi.v` |
| SPL Token and Token-2022: the instructions token-wrap calls and those third parties can call (26 constructors of `tok_ix`: mints, accounts, transfers with fees/hooks/pause/CPI guard/memo, burn, close, freeze, approve, authorities, multisig, metadata, confidential deposit/withdraw/transfer, withheld fees, wrapped SOL, excess lamports) | `TokenProg.v` |
| associated-token-account program (Create) | `Ata.v` |
| everything else: an arbitrary relation restricted only by what the runtime forbids | `HistorySpec.v` (`world_change`) |

## 3. Modelling decisions

* **Pubkeys are symbolic** (`PkRaw n` or `PkDerived seeds program`): hashing is ideal, and nobody has a private key
  for a derived address. `C04_preimages_distinct`, `C04_bytes_or_hash_collision` and `C04_escrow_bytes` are at byte
  level, over arbitrary 32-byte keys and an arbitrary hash: a real collision between two derivations is a collision
  of the hash. Whether a preimage falls on the curve is an arbitrary oracle; the bump search is modelled.
* **Ledger** = total function from pubkeys to accounts (lamports, owner, data). Data is structured (mint, token
  account, multisig, Metaplex metadata, 32-byte key record, raw bytes); any variant may sit under any owner, so
  forged accounts are covered.
* **Oracles** (record `env`; theorems quantify over every `env`): curve membership, rent, epoch, memo presence, transfer-hook
  behaviour, extra CPI accounts and multisig signers picked by spl-token-2022's `onchain` helpers, answers to
  `Emit`, JSON codecs, hash-map iteration order, realloc limit, reading of 32 bytes as a key.
* **Instructions** take a context (program id, account metas) and a ledger, and return a ledger or an error; an error
  leaves the ledger as it was (`run_instruction`), and a transaction is all or nothing (`run_transaction`).
* **Histories** (`HistorySpec.v`): sequences of steps from a genesis state. A step is a token-wrap instruction, a
  token-program instruction by anybody (or any program), creation of an associated token account, or `world_change`
  (any effect of all other programs and users that the runtime permits). Token-wrap's PDAs never carry a signature
  except through token-wrap's own `invoke_signed`. Associated token addresses may sign only through the associated
  token program (so nobody else can allocate there).
* **Transfer hooks** during Wrap/Unwrap may do any `foreign_steps` confined to the accounts passed to them. Runtime
  re-entrancy rules exclude calls back into token-wrap and Token-2022 while these are on the stack. A hook that calls
  token-wrap from a *direct* Token-2022 transfer is represented by separate steps before or after.

## 4. Not modelled, and simplifications

* Compute budget, CPI depth, logs, ELF loading, sysvar caching, purge of accounts with zero
  lamports.  The rent-state check at the end of a transaction is modelled for client transactions only (`send` in
  `Cli.v`); the history theorems do not need it.
* `world_change` may create lamports (no global lamport cap): theorems on wrapped SOL carry a no-overflow hypothesis.
* Hooks that burn or change the freeze authority of an *SPL Token* wrapped mint during a Wrap/Unwrap of the same
  mint are excluded (`hook_may`).
* Token-2022: the confidential-transfer *fee* variant and ConfidentialMintBurn instructions; encrypted amounts are
  represented by their plain value; extensions without influence on token-wrap are one constructor `MxOther`/`AxOther`.
  CreateNativeMint is one clause of `world_change`.
* The associated-token program: only Create (rent is paid beforehand by a separate step); CreateIdempotent is Create or
  nothing; RecoverNested is a sequence of token-program steps signed by an associated token address.
* Wrap's transfer authority flag (`auth_is_signer`): a multisig account is recognised by its data; `C36_wrappable`
  asks that a multisig owner belongs to the unwrapped token program.
* Strings are lists of characters with a byte-length function; JSON text is opaque apart from round-tripping.
* Of the JavaScript client (`Js.v`, `JsAccounts.v`) the scripts under `examples/` are followed by C61, C68 and
  C69 (sending and confirmation as in `send`); the key pairs that sign createTokenAccount's transaction are taken for
  granted; the token decoder is a parameter that reads the mint of a token account and may do anything on other data.  Signatures
  are symbolic: genuine (a key over a message) or junk.
* The packet limit (`Wire.v`, `deliver`) is applied by C72 only; elsewhere `send` takes transactions of any size.  Address
  lookup tables are left out (neither client uses them).  That different addresses have different 32 bytes is a
  hypothesis of `C72_same_bytes` (symbolic derived addresses, as in C04).
* Of the CLI, `Cli.v` models the path from arguments and account reads to the signed transaction, `CliRun.v` the run
  around it: sources of signatures, block hashes, `--sign-only`, `--dry-run`, sending.  Printed text and its formats,
  RPC failures, the node's preflight check and the reading of key files are not modelled, and each command reads one
  consistent ledger.  Which sources [signer_from_source_with_config] yields is an input (a key pair or an address).

## 5. How each property is proved

| Property | Theorems in | Method |
|---|---|---|
| C01 C02 C03 | `PropCodec` | case analysis on byte strings, little-endian lemmas; independent relation `wire` |
| C04 | `PropPda` | injectivity of symbolic derivation; byte-level preimages with lengths |
| C05–C08 | `PropCreate` | inversion and forward evaluation of every CPI of CreateMint |
| C09 C10 C11 | `PropHistory` | invariant of reachable states (`InvState`, `InvTw`, `InvHist`) |
| C12–C16, C20 | `PropWrap` | inversion of successful runs into token-program effects |
| C17 C18 C35 | `PropHistory` | invariant: sum over all token accounts ≤ supply; supply ≤ escrow; per-step accounting |
| C19 | `PropRedeem` | invariant + forward evaluation of Unwrap (liveness) |
| C36 | `PropLive` | invariant (no overflow) + forward evaluation of Wrap |
| C21 | `PropWrap` | witness history (`_refuted`) |
| C22 C23 | `PropClose` | inversion, set equality of extension types |
| C24 C25 C26 C28 | `PropSync` | induction over field lists; decision table for sources; liveness |
| C27 | `PropSync` | codec laws |
| C29 | `PropCanonical` | inversion and forward evaluation |
| C30 | `PropHistory` | step analysis over histories |
| C31 | `PropBuilders` | simulation between privilege sets (suffices), inversion (needed), exact flags (least privilege) |
| C32 C33 C34 | `PropGlobal` | frame lemmas for every CPI |
| C08 C17 C19 C23 C24 C25 C36, in reachable states | `PropReach`, `PropReach2` | the invariant discharges the hypotheses about accounts |
| C42 C43 | `PropCliWrap`, `PropCliUnwrap` | resolution of the arguments, signatures, then C36 and C13 (C19 and C15) in the state after the fee; rent check by size and lamports |
| C44 C45 | `PropCliClose` | evaluation of the command, then C22/C23 in the state after the fee; C45 from the invariant |
| C46 C47 | `PropCliSync`, `PropCliSyncSpl` | resolution of the source, then C24–C28 in the state after the fee; size of the mint before and after for the rent |
| C48 C49 | `PropJs` | computation over all arguments; for left-out accounts a simulation: more accounts never make an instruction fail; case analysis on decoded instructions |
| C50–C53 | `PropJsTx`, `PropJsUnwrap` | the helper's transaction equals the command's (C40–C43); consent and agreement from C14–C16 in the state after the fee |
| C54 | `PropJsMulti` | folds over the copies (keys, filled slots, no duplicates); symbolic signatures: a signature is genuine only for the key and message it was made from; then C42/C43 on the compiled message |
| C55 | `PropCustom` | induction over the extensions a customizer initialises (`init_all`), then the create proofs of C06 with the customizer as a parameter |
| C56 | `PropErrors` | a list of requirements with their errors per instruction (`first_wrong`), peeled one at a time against the processor |
| C57 | `PropNested` | a tree of holders by structural induction over the conservation invariant at every wrapped mint; redeemability from C09-style liveness, with the facts about the middle mint derived from its own history |
| C58 | `PropFork` | every CPI the program makes needs a signature of an address derived with the declared id, which the copy cannot give |
| C59 | `PropDiscover` (model `JsAccounts`) | the invariant on token-wrap's addresses says what can stand at the backpointer address of any key; decoding it; composed with C19 |
| C60 | `PropTokenAccount` (model `JsAccounts`) | system CreateAccount and InitializeAccount run in sequence; the extensions of wrapped mints force no account extensions (C11) |
| C61 | `PropLifecycle` | the history is followed through each transaction (what it cannot write stays the same in every state passed through); C50–C53, C60 composed |
| C62 | `PropCustody` | what each token program instruction may do to a token account and whose signature it needs (`InvTok`), followed through the CPIs of Wrap and Unwrap and through hooks; induction over the course of actions |
| C63 | `PropWalkAway` | C62 carries the account through the course, the history is extended by it, then C19; effects by C15 and C13 |
| C64 | `PropLocal` (spec `LocalSpec`, lemmas `Local`) | relational proof over every function of the model: runs on ledgers that agree on the named accounts stay in step; with C34 (only writable accounts change) this gives commutation and, by what each request writes, order independence for any permutation |
| C65 | `PropCliRun` (spec `CliRunSpec`, lemmas `CliRunProofs`) | slot-by-slot characterisation of partial signing (the last source of a key counts), then the run is a function of message, sources and mode; C42/C43 are reached through C65_sent |
| C66 | `PropOrders` (spec `OrdersSpec`, lemmas `OrdersProofs`, `OrdersStep`) | simulation: Wrap and Unwrap read the escrow and the wrapped mint only up to balance and supply (`wrap_again`, `unwrap_again`), the room they need follows from backing and conservation in every reachable state; then induction over the orders done, with exact totals; permutations by functionality of the totals |
| C67 | `PropRun` | each Unwrap alone by C19's lemma, all together by C66, totals from the exact escrow and supply |
| C68 | `PropMultiLife` | composition of C61's set-up with C54's wraps and unwraps; the combined copies name the message, so what the wrap leaves is exact |
| C69 | `PropJsSync` (model `JsSync`) | the programs' transactions are the command line tool's, with the token-wrap program in place of the optional accounts left out (evaluation); then C46 and C47; the finding composes C50 with C46_first_sync |
| C70 | `PropHook` (vocabulary `HookSpec`, model `TestHook`) | inversion of Wrap and Unwrap through `transfer_checked` to its single `run_hook` (frame, rights and amount follow); liveness: the C36 and C19 arguments, generalised from no hook to any hook that agrees; the repository's counter program by evaluation |
| C71 | `PropForeign` (model `TestMetadataOwner`) | the third-party program by evaluation; then the sync theorems C24-C26, C28 in reachable states; the wrapped mint's pointer and the metadata's mint by the configuration invariant; concrete impostors |
| C72 | `PropWire` (model `Wire`) | counting distinct keys per class (lists without duplicates); size as a function of signers, keys and account lists; injectivity field by field from the front of the message |
| C73 | `PropSurplus` | the step trichotomy behind C17 and C18 (quiet, wrap, unwrap) gives monotonicity per step; induction over histories; the stuck escrow of C38 with one stray token |
| C74 | `PropFreeze` | inversion of the token programs' freeze checks; per-step analysis of every way an account can change (`InvTok.change`) for a frozen escrow and for a mint without freeze and close authority, through hooks too; induction over courses and histories |
| C75 | `PropCirc` | conservation (sum over distinct accounts at most the supply) applied to both escrows and the given accounts, with C17; closing a mint needs supply 0 (`InvTok.change`), so a mint with wrapped tokens survives every step (case analysis over all instructions, hooks and world changes); birth of wrapped mints only by CreateMint, then induction over histories |
| C76 | `PropPause` | one lemma for any mint setting with its own authority (`rule`, proved for pause switch, hook, permanent delegate, close authority): case analysis of every token-program change, every token-wrap instruction, hooks (which cannot re-enter Token-2022), ATA and other programs; refusals from the inversion of the transfer; induction over courses and histories; refuted expectations on played histories |
| C77 | `PropFees` | the setting lemma of `PropPause` for the fee schedule (withheld fees apart), kept along histories together with `MatchProofs.mints_kept`; then C13 and C15 with the fee of the old schedule; confiscation on a played history. The model lets the fee authority change rates at once, Token-2022 only from the epoch after next on: the claims hold for both, and the refutation keeps to the latter |
| C78 | `PropDefault` | the setting lemma of `PropPause` for the default account state; `InvHist.ata_created` (the escrow is born in that state); then an induction over courses: the mint keeps its default, the escrow stays blank (`InvState.Esc` with `EscProofs.types_kept`) or frozen (C74); refusal by the inversions of the three instructions. |
| C39 C40 C41 | `PropCli`, `PropCliEscrow` | evaluation of the command, then of its transaction, through C05/C06/C07/C37; C39 by cases of `send` and a step-by-step embedding into histories |
| C37 C38 | `PropEscrow` | invariant on associated token accounts of token-wrap's authorities (`EscProofs`, `MatchProofs`) |

Vocabulary of the statements: `Spec.v` and `HistorySpec.v` (small, no proofs). Next to each theorem an `Example …_nonvacuous`
meets its hypotheses with a concrete run or history (`Demo.v`, `Demo2.v`, `DemoHist.v`).

## 6. Findings (theorems named `_refuted`, or notes)

1. `C21_backing_refuted`: a mint's permanent delegate can Wrap *from the escrow itself*; wrapped tokens are minted
   although the escrow gains nothing. C17/C18/C35 therefore assume the mint never had a permanent delegate.
2. `C38_stale_escrow_refuted`: a non-transferable mint that is closed and re-created as an ordinary mint leaves a stale
   escrow; Wrap succeeds, and the wrapped tokens can never be redeemed nor the escrow closed.
3. `C16_ownerless_refuted`: wrapped tokens sent to accounts owned by the system program or the incinerator can be
   unwrapped by anybody.
4. `C28_verified_collection_refuted`: a verified collection is copied verbatim and makes the Metaplex create call fail.
5. `C31_optional_accounts_refuted`: Sync builders given only the owner program misplace it.
6. `C29_multisig` (example): a multisig mint authority cannot act through its members.
7. CloseStuckEscrow accepts a not yet created wrapped mint address derived with the system program as its token
   program (the owner of an unused address); harmless, but see C08.
8. The order of additional metadata fields is not preserved by a sync (C24 states equality as maps).
9. `C41_squatted`: one lamport sent to the escrow's address makes create-escrow-account never create it; with
   `--idempotent` it even reports success.
10. `C46_first_sync`: create-mint funds the wrapped mint for its size without metadata, and sync-metadata-to-token-2022
    adds no lamports, so the first sync of a mint is always refused for rent unless somebody tops it up.
11. `C46_unset`: for an unset metadata pointer sync-metadata-to-token-2022 falls back to the Metaplex account, but the
    program never accepts that (`MetadataPointerUnset`).
12. `C47_no_source`: sync-metadata-to-spl-token, unlike its sibling, never looks for the source; without
    `--source-metadata` it is refused unless the mint holds its own metadata.
13. `C49_rust_sync_refuted`: the JavaScript parser throws on Sync instructions built by the Rust crate unless both
    optional accounts are given; it also does not know SetCanonicalPointer, and accepts trailing bytes the program
    refuses (`C49_lenient`).
14. `C51_squatted_refuted`: one lamport sent to the escrow's address makes JavaScript's createEscrowAccount throw.
15. `C54_junk_refuted`: combinedMultisigTx lets later copies overwrite earlier signatures without checking them, so one
    bogus copy spoils a complete collection (the network refuses the result, at no cost).
16. `C55_unsyncable_refuted`: wrapped mints made with the compliance or no-extension customizer have no metadata pointer,
    so SyncMetadataToToken2022 can never succeed on them.
17. `C59_prefunded_refuted`: lamports sent to the backpointer address of a mint not yet wrapped make JavaScript's
    fetchMaybeBackpointer throw instead of answering that it does not exist.
18. `C60_demanding_refuted`: createTokenAccount always allocates 165 bytes, so it cannot work for Token-2022 mints with
    transfer fees, hooks, non-transferable or pausable tokens.
19. `C65_dry_run_blind`: `--dry-run` prints "Simulation succeeded" whatever the simulation said: the `err` of the node's
    answer is not looked at.  Also (`C65_untidy`): naming the payer again by address as a multisig signer empties its
    already signed slot.
20. `C69_prerequisites_refuted`: the prerequisites stated in sync-spl-to-token2022.ts (mint, Metaplex metadata, wrapped mint
    made by createMint) do not suffice: right after createMint its transaction is always refused for rent.
21. `C71_impersonation_refuted`, `C71_impersonation_spl_refuted`: a Token-2022 mint may point at the Metaplex account of any
    other token; the syncs do not compare the metadata's mint with the unwrapped mint.  The wrapped mint (or its new
    Metaplex account) then shows the other token's name while naming itself, so the usual mutual check passes.
22. `C72_large_multisig_refuted`: the token programs allow multisigs of eleven signers, but a Wrap or Unwrap with more than
    seven required signers (eight if the payer is one, one more if both token programs are equal; never ten) exceeds the
    packet limit in both clients; nothing warns.
23. `C73_one_token_blocks_refuted`: anybody holding one token can send it to a stuck escrow; CloseStuckEscrow then fails
    for good (and Unwrap, if the escrow is non-transferable), although nothing was ever wrapped.
24. `C73_into_escrow`: Unwrap accepts the escrow itself as recipient and burns the holder's wrapped tokens for nothing.
25. `C74_locked_refuted`: whoever is freeze authority of the unwrapped mint can freeze the escrow and renounce the power; all
    wrapped tokens, though backed, are then unredeemable for ever.
26. `C74_renounced_refuted`: renouncing the freeze authority of the unwrapped mint leaves the wrapped mint's copy in force;
    the former authority can still freeze holders out of Unwrap (token-wrap has no instruction to bring the copy up to date).
27. `C75_redenominated_refuted`: a mint with a close authority can be wrapped while it has no supply, closed, and re-created with
    other decimals; Wrap still works, and the wrapped mint keeps the old decimals for ever.
28. `C76_bypass_refuted`: the default wrapped mint has no pause switch; while the issuer has paused the token, its wrapped form
    goes on circulating (only Wrap and Unwrap stop).
29. `C76_locked_refuted`: the pause authority of the unwrapped mint can pause it and renounce; all wrapped tokens, though backed,
    are then unredeemable for ever.
30. `C77_confiscation_refuted`: the fee authority of the unwrapped mint can raise the transfer fee to 100%: Unwrap (which has no
    slippage limit) then burns the wrapped tokens and pays nothing.
31. `C78_permission`, `C78_story`: for a token frozen by default, anybody can create the escrow, but it is created frozen: nobody can
    wrap until the freeze authority thaws it (each of the two escrows by itself). Neither the CLI nor the documentation says so.
