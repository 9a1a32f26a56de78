# Formal model of orca-so/xorca in Rocq (Coq 8.16.1)

`/repo` was read as text only; nothing there was built or run.

## 1. Approach

The on-chain program is a state machine over Solana accounts.  The model is an
executable byte-level interpreter of the whole program, of the instructions it
invokes in other programs, and of the clients that talk to it, followed by proofs
about those interpreters.

* **Bytes.**  Account data, instruction data and events are `list byte`; amounts
  are `Z` decoded little-endian.  Public keys are 32-byte strings.
* **Ledger.**  A total function `pubkey -> account` (lamports, owner, data).
  A missing account is a zero-lamport, system-owned, empty account, which is
  what a Solana program sees.
* **Cryptography.**  SHA-256 and the ed25519 on-curve test are a record
  `crypto`; every theorem quantifies over it.  Collision resistance is never
  assumed.  Theorems that depend on it conclude "... or `collision C us`":
  two *different* strings among those the program itself hashes while looking
  for the addresses of the State account, its vault and the records of the users
  `us` (`address_input` in `Spec.v`) have the same hash.  This disjunct is not
  true by counting: for one user there are 256 + 256 + 65536 such strings of fixed
  form, and `spread_free` in `DemoMore.v` (used by `C08_no_collision_ex`) exhibits a hash
  without such a collision.  A concrete `real_crypto` (SHA-256 and the curve test written
  in Gallina) is checked in `RealPda.v`: the State address and bump of the
  repository are found, the two PDA test vectors of records are reproduced, and the two
  side conditions on addresses (`ordinary_state_address`, `deployer_has_key`)
  hold for it.
* **Callee programs** (SPL token, system, associated token account) are
  modelled from their published behaviour because the program's effects are the
  callee's effects.  They are part of the trusted base.
* **Histories** (`History.v`).  A history is any finite list of steps: xORCA calls
  (with any accounts and any data), token / system / ATA calls, arbitrary rewrites by other
  programs of accounts they own, native rewrites by the runtime (fees, nonces, rewards) and
  purging of accounts without lamports.  The clock is an argument of each call and is
  arbitrary (not even monotone).  Signers are arbitrary except that xORCA's own
  PDAs never sign outside xORCA (runtime rule).
* **Genesis.**  The ledger before the program is used: no account owned by the
  program holds data, addresses the program signs for are untouched (they may
  hold lamports), both mints exist, xORCA balances do not exceed the supply.
* **Invariant** (`Pool.v`).  vault >= escrow + supply, escrow = sum of live
  records, well-formed State / vault / mint, canonical bumps, cooldown >= 0.  It
  is established by Initialize and preserved by every step.
* **Borrow flags** (`Borrow.v`).  The five instructions once more, with every `Ref` and
  `RefMut` as a guard and pinocchio's checks of them.  C68 shows that the flags
  change nothing, so all other theorems use the plain interpreter.
* **Runtime comparison** (`Runtime.v`).  The five instructions again, with the runtime's
  check of what a program did to accounts, made at every cross-program call and at the
  end.  `close_program_account` is there as compiled (wrapping addition); the plain
  interpreter answers `EPanic` where it would wrap.  C70 shows that nothing is ever
  refused and that the plain interpreter accepts the same calls.
* **Transactions** (`Transaction.v`).  A list of steps executed in order, all or nothing.
* **Clients** (`Client.v`, `Rpc.v`, `ClientMath.v`, `Schema.v`).  Instruction
  builders of the Rust and JS clients and the scripts, codecs, error tables,
  address derivation, fetch helpers and conversion helpers.  JS numbers are a small type
  (integer, fraction, NaN).  Every RPC request reads one ledger; helpers that make
  several requests take one ledger per request.

Statements live in `P_*.v` and use the vocabulary of `Spec.v`, `ClientSpec.v`,
`GuardSpec.v`, `ToolSpec.v`, `ErrorSpec.v` and `MistakeSpec.v` only (plus the model's entry points).  Beside each theorem a concrete `Example`
meets its hypotheses, mostly on a demo history (`Demo.v`) in which two users
stake, donate, unstake, withdraw, and the authority changes the settings.  The demo uses
`demo_crypto`, an injective-looking toy hash, so that examples evaluate quickly.

## 2. Plan per property

| id | modelled by | proof idea | theorems in |
|----|-------------|-----------|---|
| C01, C02, C21, C23 | history model | invariant by induction over steps | P_History |
| C38 | history model | invariant | P_Effects |
| C03, C40, C41 | history model | invariant + completeness lemma "these checks imply success" | P_Live |
| C04, C05, C06, C20 | history model | inversion of each instruction, induction over later steps | P_History |
| C08 | history model | inversion + address injectivity up to collision | P_Live |
| C07, C34 | PDA derivation | injectivity of the hashed string, else collision | P_History, P_Client |
| C09, C10, C39, C32, C37 | conversion functions of program and clients | exact characterisation with u128/u64 bounds, nonlinear arithmetic | P_Math |
| C11, C12, C46 | instructions on reachable ledgers | arithmetic lifted through exact effects; refutations by witness | P_Trade |
| C13, C42, C43 | history model | price inequality per step | P_History |
| C14-C18, C24, C26, C44 | instruction interpreter | inversion: success implies every check and exact effect, with frame over all other accounts | P_Effects |
| C19 | interpreter and histories | inversion; State stays | P_Effects, P_History |
| C22 | interpreter, transactions | case analysis on the result type | P_Effects |
| C25 | interpreter | sums over NoDup account lists | P_Effects |
| C27 | create_account_secure | both branches succeed | P_Live |
| C28, C29 | event encoder, histories | inversion; induction over histories | P_Effects, P_Codec, P_History |
| C30, C31, C47, C48 | Borsh, Codama and repr(C) codecs; error tables | round trip, layout computation, enumeration | P_Codec |
| C33 | client builders | evaluation of role checks on symbolic account lists | P_Client |
| C35, C36 | client fetch helpers over ledgers | invariant + list lemmas; refutations by witness | P_Client |
| C45 | histories | positive case, permanent block, refutation by witness | P_Limits |
| C49, C50, C51, C58 | history model | case analysis of each step over the invariant; sums over the log | P_Guard |
| C52, C53, C57 | history model | price inequality per step; floor arithmetic; refutation by witness | P_Guard |
| C54, C55, C56 | interpreter and histories | completeness of Set; permanent block; refutation by witness | P_Guard |
| C59 | Rust builders, CPI structs, runtime privilege rules | evaluation on symbolic accounts; refutation by witness | P_Tools |
| C60 | JS parsers | evaluation on symbolic accounts; inversion of accepted calls | P_Tools |
| C61 | scripts as transactions | effects of each step composed; completeness lemmas; refutations by witness | P_Scripts, P_Sends |
| C62 | scripts as transactions | token program effects and the invariant; refutation by witness | P_Scripts, P_Sends |
| C63 | interpreter | every `Err` of every instruction traced to its check | P_Errors |
| C64 | interpreter on reachable ledgers | completeness lemmas and precedence of the checks | P_Errors |
| C65 | status script over ledgers | invariant; exact effects of stake and unstake; refutations by witness | P_Status |
| C66 | interpreter | two runs compared step by step; monotone account lookup | P_Local |
| C67 | interpreter | an accepted and a mistaken run compared step by step | P_Mistakes |
| C68 | Borrow | runs with and without borrow flags compared step by step; owners keep the accounts apart | P_Borrow |
| C69 | interpreter, rent check as specification | exact effects on lamports and sizes; rent of records over histories | P_Rent |
| C70 | Runtime | runs with and without the comparison matched step by step; lamport sums over the given accounts | P_Runtime |
| C71 | Log | every check followed by hand for the line it writes; base58 and decimal texts read back | P_Log |
| C72 | Cli | texts characterised by grammar (numerals, blanks, prefixes) and by nearest doubles, independently of the reading functions; base58 texts shown unique | P_Cli |
| C73 | interpreter | floor arithmetic on the exact effects of accepted calls; supply <= free ORCA in every reachable ledger | P_Share |
| C74 | interpreter | induction over histories without trades, floor arithmetic | P_Share |
| C75 | Wire (web3.js compile / serialize, runtime decode / sanitize / account flags) | permutations and sorting of key lists, encoding and decoding of the bytes inverse to each other in both directions, monotonicity of the interpreter in account flags | P_Wire |
| C76 | Exec (instructions of four programs decoded and executed, packets) over Wire | simulation: executed packet = transaction of steps; steps of scripts = their decoded packets | P_Exec |
| C77 | Exec | invariants of histories transported along C76; induction over the steps of a packet | P_Exec |
| C78 | KeyFile (hexadecimal texts, JSON arrays of integers, key pairs, upload-image.ts) | grammar of texts against the scanner, both directions | P_KeyFile |
| C81 | Land, Wire, Exec, Scripts | induction over the packets with the per-packet theorems of C79; the price by C13, since a holder who does not sign keeps the supply positive at every step; then the liveness of C80 in the state after the packets | P_Wait |
| C80 | Land, Wire, Exec, Scripts | liveness of the instructions on the ledger after the fee, carried through the execution of packets; the rent check holds because only the sender's wallet, the record and the opened account change lamports | P_LandLive |
| C79 | Land (fee and rent check around Exec) | the fee is a native step of the histories that changes no data; invariants of C77 transported; unwritable accounts shown unchanged, so that checking the touched ones suffices | P_Land |

Every property is expressible; parts that are not modelled are listed in section 4.

## 3. Files

`rocq/_CoqProject` lists the files in dependency order.

* **Model** (definitions only): Base, Bytes, Sha256, Ed25519, Base58, Solana,
  Errors, Borsh, Math, Layout, Pda, Instr, Event, SystemProg, TokenProg, AtaProg,
  Assertions, Cpi, Program, ClientMath, History, Transaction, Schema, Client, Rpc,
  Builders, Scripts, Borrow, Runtime, Log, Cli, Wire, Exec, Land, KeyFile.
* **Specification vocabulary**: Spec, ClientSpec, GuardSpec, ToolSpec, ErrorSpec, MistakeSpec, RentSpec, LogSpec, CliSpec, ShareSpec, WireSpec, AcceptSpec, ExecSpec, MessageSpec, LandSpec, WaitSpec, SendSpec, KeyFileSpec.
* **Proofs**: *Facts.v, LogTruth, LogMain, CliKeys, CliMain, WireKeys, WireBytes, WirePrivileges, WireRuntime, WireScripts, AcceptFacts, ExecWrites, PacketFunds, PacketBirth, ScriptExec, LandScripts, LandLive, LandFirst, LandOpen, LandInit, LandGive, LandSend, WaitFacts, WaitLive, ScriptRun, ScriptMore, ScriptSends, ScriptThrough, FreezeStep, Economics, PoolMath, Totals, TokenStep, VaultStep, Calm, Pool,
  PoolStake, PoolUnstake, PoolInit, PoolHistory.
* **Concrete cases**: Demo, DemoMore, DemoStory, DemoClient, DemoStale, DemoMistake, DemoScripts, DemoBorrow, DemoRent, DemoRuntime, DemoLog, DemoCli, DemoShare, DemoWire, DemoExec, DemoLand, DemoLive, DemoShut, DemoGive, DemoWait, DemoKey, RealPda,
  Refuted, GuardRefuted, ToolRefuted, ScriptRefuted, StatusRefuted.
* **Statements**: P_Math, P_History, P_Effects, P_Live, P_Trade, P_Limits, P_Codec,
  P_Client, P_Guard, P_Tools, P_Scripts, P_Sends, P_Errors, P_Status, P_Local, P_Mistakes, P_Borrow, P_Rent, P_Runtime, P_Log, P_Cli, P_Share, P_Wire, P_Exec, P_Land, P_LandLive, P_Wait, P_KeyFile: theorems closed by `exact lemma`, examples and `Print Assumptions`.

`seeded/LOG.jsonl` records the mutation tests (section 6).

## 4. Trusted base

* Coq's kernel, including its virtual machine for `vm_compute`.
* `Print Assumptions` prints "Closed under the global context" for every theorem in
  `P_*.v`: no axiom is used, not even one of the standard library.  (A whole-library
  listing by `coqchk -o` mentions seven constants of `Coq.ssr.ssrunder.Under_rel`;
  they belong to a module type of the standard library loaded through `Lia` and friends and
  no theorem here depends on them.)
* The reading of the Rust and TypeScript sources; each model definition cites
  its lines.
* The models of the callee programs and of the Solana runtime rules
  (`SystemProg.v`, `TokenProg.v`, `AtaProg.v`, `Cpi.v`, `History.v`).
* What three dependencies do to a log line (`Log.v`): base58's encoder, strum's variant
  names, and pinocchio-log's buffer of 200 bytes whose last byte becomes '@' when a line does not fit.
* How JavaScript reads text (`Cli.v`): `parseInt`, `BigInt` and bs58 decoding, written from
  their specifications.
* What web3.js does to a legacy transaction and how the runtime reads it (`Wire.v`), written from
  web3.js 1.x `Transaction` and the runtime's `Message` and `v0::Message`; signatures are a function assumed to
  be 64 bytes long and, for the keys that sign, accepted by its verification.
* Node's `Buffer.from(s, 'hex')`, `JSON`, `Uint8Array` and the key pairs of @solana/web3.js as in `KeyFile.v`; the
  derivation of public keys is a parameter.
* How the token, system and associated token programs read their accounts and data (`Exec.v`), and that
  verification accepts only points of the curve (`curve_only`) and no associated token address is an
  address of this program (`ata_apart`); the last two are hypotheses of C76 and C77.

Modelled code (all of it unless excluded below):

* `solana-program/src`: entrypoint, all five instructions, account assertions, account
  creation and closing, conversion math, PDAs, State / PendingWithdraw, events,
  error codes, token layouts, CPI wrappers.
* `rust-client/src`: generated instruction builders, CPI structs and CPI builders, accounts, events, errors;
  PDA helpers, conversion math, fetch helpers.
* `js-client/src`: generated builders, parsers, codecs and errors; PDA, conversion and fetch helpers.
* `ts-scripts`: initialize, set, stake, unstake, withdraw, pending-withdraws, transfer-orca,
  transfer-orca-to-vault, update-xorca-mint-authority: the transactions they send and the
  numbers they print, from the command line on; generate-keypair, upload-image.  A script reads one ledger before and one after its transaction.

Not modelled:

* The lines that the runtime, the panic handler and called programs add to the log (the
  program's own are in `Log.v`, which is Program.v with its log), compute-unit limits, stack/heap limits, program upgrades.
* Fees and the transaction-level rent-state check (an account may not become rent-paying) are in
  `Land.v`, around the execution of packets.  The histories take fees as arbitrary native rewrites and
  leave the rent check out, so the runtime may reject a transaction that they accept;
  C69 says which accepted calls these are.  Land leaves out priority fees, nonce accounts as payers and
  where the fees go.
* `delivered` in `ClientSpec.v` assumes that the flags asked for arrive; `C75_scripts_arrive` proves it for
  the scripts' transactions.
* Exec: the system program's nonce and seed instructions, RecoverNested, the token program's batch and
  excess-lamports instructions; a packet with these or with calls of other programs is not executed
  (other programs are the foreign steps of the histories).  A multisig owner that is listed
  without signing is skipped.
* Wire: how lookup tables get their contents (messages of version 0 read them from a parameter that may differ for every packet), the limit on account locks, the age of the block hash, preflight simulation.
  web3.js marks a given signer that no instruction asks for without sorting again; C75 assumes that
  all given signers are needed, which holds for every script.  In `redelivered`, calls of the token and associated
  token programs keep the signers of the model's step.
* Token program: instructions appear after decoding; batch and
  withdraw-excess-lamports are omitted; Checked and numbered variants reduce to
  the base ones.
* JS `programAddress` overrides; display formatting; command-line arguments outside ASCII;
  key files other than JSON arrays of integers (`KeyFile.v` refuses them; JS would turn fractions, strings and
  nested values into bytes); normalization of paths; negative amounts
  given to transfer-orca and transfer-orca-to-vault.
* What the Irys library does with an upload.
* RPC: a server answers from one ledger per request; commitment levels and
  retries are not modelled.  The cap on getMultipleAccounts is a parameter.

## 5. Findings

Statements of the code, its comments or its documentation that turned out false
are theorems named `..._refuted` (with a witness) or are stated with the needed
side condition:

* `C11_emptied_pool_refuted`, `C46_supply_stays_positive_refuted`: the comment in
  `math.rs` that supply can never return to 0 is false (xORCA owned by the
  incinerator can be burned by anyone); the next staker captures the residual.
* `C37_attacker_never_profits_refuted`: with more than 100 victims the inflation
  attack can make a profit of a few units.
* `C45_always_initializable_refuted`: anyone can block Initialize forever by
  creating the vault's associated token account first.
* `C32_js_never_quotes_refused_calls_refuted`: the JS conversion returns numbers
  for calls the program refuses.
* `C34_js_indices_distinct_refuted`: the JS client takes indices modulo 256.
* `C35_rust_always_answers_refuted`, `C35_index_255_never_listed`: the Rust listing fails
  when dust is sent to a record address; index 255 is never listed.
* `C36_rate_of_some_ledger_refuted`: the rate helper can report a rate no ledger had.
* `C56_unfrozen_mint_enough_refuted`: Initialize compares the freeze-authority bytes of
  the xORCA mint and ignores the option tag.  The token program clears only the
  tag when an authority is revoked, so a mint whose freeze authority was revoked can
  never be initialized (error 6007).
* `C57_rate_monotone_refuted`: the displayed rate can fall when someone stakes, because
  the price includes the virtual units.
* `C55_authority_can_stop_unstaking`: Set accepts any non-negative cooldown; with
  i64::MAX every Unstake fails until it is lowered.
* `C59_cpi_builder_flags_refuted`: the generated CpiBuilders store added accounts as
  (account, is_writable, is_signer) and invoke reads them as (account, is_signer,
  is_writable).
* `C61_stake_received_refuted`, `C61_unstake_received_refuted`: "xORCA received" and "ORCA
  received" are whole balances; an unstake pays nothing yet.
* `C61_stake_dusted`, `C61_withdraw_dusted`: the scripts take an address with lamports for an
  existing token account, so one lamport sent there makes them fail.
* `C62_deposit_received_refuted`: "Vault received" is twice the amount: the script prints
  after - (before - amount).
* `C65_rates_are_swapped`, `C65_rate_line_refuted`: `status.ts` prints the two exchange rates
  with their labels swapped.
* `C65_free_line_may_be_negative`: it combines answers to three requests, so its
  "Non-Escrowed ORCA" can be negative.
* `C69_unstake_rejected_ex`: an Unstake that leaves its signer with a little more than
  nothing succeeds in the program and is undone by the runtime's rent check.
* `C71_holder_line_complete_refuted`: the line on a token account of another holder does not
  fit the 200 bytes of a log line; the end of the mint's address is cut off.
* `C72_index_number_refuted`, `C72_withdraw_no_index`: the withdraw and unstake scripts take an
  index that is no number for 0, so `withdraw.ts staker.json next` withdraws index 0.
* `C72_period_number_refuted`, `C72_gift_number_refuted`, `C72_cut_period`: periods and gifts are cut
  at the first character that is no digit (`update-cooldown 7d` sets 7 seconds, `1e6` sets
  one second), and above 2^53 they are rounded (`C72_period_exact_refuted`, `C72_longest_period`).
* `C73_stake_formula_refuted`, `C73_unstake_formula_refuted`: the README's conversion formulas omit the
  virtual units (with 1000 ORCA for 1 xORCA, staking 1000 mints 91 and not 1); `C73_initialize_accounts`: its list of
  accounts for Initialize is too short.
* `C75_flags_exact_refuted`: privileges belong to the transaction and not to the instruction; an account
  listed read-only arrives writable if it pays or is listed writable elsewhere.
* Documentation mismatches without a theorem:
  `pending-withdraws.ts` labels an ORCA amount as xORCA and computes the creation time
  from the current cooldown (`C35_script_ex`).

No property is partial.
* `C78_all_hex_refuted`: generate-keypair.ts ignores whatever follows the key, so a 64-byte pair with a typing error
  at the beginning of its public half is taken for a seed.  `C78_only_bytes_refuted`: numbers in key files are taken modulo 256.
  `C78_upload_checks_refuted`: upload-image.ts does not check that the public half of a key file belongs to its seed.
* `C76_create_refused`: a script that found no token account sends a Create which fails, with the whole transaction, if
  somebody else creates the account first.

## 6. Mutation tests

Scratch copies of the model are edited the way a bug would change the program.
Because one broken inversion lemma would make every later proof fail, the harness
works in two steps.  First the edit is applied together with the matching change of the *internal*
description of the instruction (its success conditions and effect, e.g.
`withdraw_pre` / `withdraw_effect`), and the inversion lemma of that instruction is
granted.  Then every lemma whose proof breaks is admitted in the scratch copy and the
build continues; a public theorem counts as failed if `Print Assumptions` then
lists an admitted lemma other than the granted ones.  The log gives the lemmas
that broke first (`broken_lemmas`) and the public theorems resting on them
(`failed`).
