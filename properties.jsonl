{"id": "C01", "title": "Solvency: the vault always covers escrow and supply", "statement": "After any history that starts before Initialize, once the pool exists the ORCA held by the vault is at least escrowed_orca_amount plus the xORCA supply; in particular no sequence of calls can make promised withdrawals exceed the ORCA held.", "quantifier": "every genesis ledger without program data, every finite interleaving of xORCA calls, token/system/ATA calls and steps of arbitrary other programs, with any accounts, amounts, signers and clocks", "why_tests_cant": "a test runs one schedule; insolvency could need an unbounded mix of stakes, unstakes, donations, burns, account aliasing and rounding", "anchors": ["solana-program/src/instructions/stake.rs: process_instruction", "solana-program/src/instructions/unstake.rs: process_instruction", "solana-program/src/instructions/withdraw.rs: process_instruction", "solana-program/src/util/math.rs"]}
{"id": "C02", "title": "Escrow equals the sum of outstanding pending withdrawals", "statement": "In every reachable state, State.escrowed_orca_amount equals the sum of withdrawable_orca_amount over all live PendingWithdraw accounts of all users.", "quantifier": "every reachable ledger; the set of live records is unbounded", "why_tests_cant": "the sum ranges over all accounts on chain; tests look at a handful of records", "anchors": ["solana-program/src/instructions/unstake.rs", "solana-program/src/instructions/withdraw.rs", "solana-program/src/util/account.rs: close_program_account"]}
{"id": "C03", "title": "A matured withdrawal can always be claimed", "statement": "In every reachable state, if a PendingWithdraw of user u with index i exists and the clock has reached its timestamp, then Withdraw signed by u with the documented accounts succeeds (ORCA accounts not frozen, receiver balances do not overflow) whatever other users did in between.", "quantifier": "every reachable ledger, every user, every index, every clock at or after maturity", "why_tests_cant": "liveness after arbitrary adversarial histories cannot be enumerated", "anchors": ["solana-program/src/instructions/withdraw.rs: process_instruction"]}
{"id": "C04", "title": "Cooldown is enforced", "statement": "Withdraw never succeeds while the clock is below the record's withdrawable_timestamp, and in any history each payout happens at a clock of at least (clock at its Unstake + cooldown in force at that Unstake).", "quantifier": "every ledger, account list, instruction data and clock; every history", "why_tests_cant": "needs all clocks and all orders of Set, Unstake, Withdraw", "anchors": ["solana-program/src/instructions/withdraw.rs:109-112", "solana-program/src/instructions/unstake.rs:168-172"]}
{"id": "C05", "title": "A pending withdrawal is immutable until it is claimed", "statement": "Between the Unstake that creates a record and the Withdraw that removes it, no call by anyone (including Set by the update authority, donations, later unstakes) changes the record's owner, amount or maturity.", "quantifier": "every history after the Unstake", "why_tests_cant": "non-interference over all later histories", "anchors": ["solana-program/src/instructions/set.rs", "solana-program/src/instructions/unstake.rs", "solana-program/src/instructions/withdraw.rs", "solana-program/src/state/pending_withdraw.rs"]}
{"id": "C06", "title": "A pending withdrawal pays at most once", "statement": "A successful Withdraw removes the record, and no further Withdraw for the same user and index succeeds until a new successful Unstake recreates it.", "quantifier": "every history", "why_tests_cant": "double-claim schedules, same-transaction re-use and revival of closed accounts cannot be enumerated", "anchors": ["solana-program/src/instructions/withdraw.rs", "solana-program/src/util/account.rs: close_program_account"]}
{"id": "C07", "title": "Only the creator of a pending withdrawal can claim it", "statement": "If Withdraw succeeds on a record, the signer is the user who created that record with that index; otherwise the execution exhibits an explicit SHA-256 collision.", "quantifier": "every reachable ledger, every signer, account list and index", "why_tests_cant": "every forged account list would have to be tried", "anchors": ["solana-program/src/instructions/withdraw.rs:72-79", "solana-program/src/state/pending_withdraw.rs: verify_address_with_bump"]}
{"id": "C08", "title": "An index in use cannot be overwritten", "statement": "Unstake with an index whose record is still live fails and changes nothing, so no call can overwrite or merge an existing claim; after the claim is withdrawn the same index can be used again.", "quantifier": "every ledger and call", "why_tests_cant": "needs all account lists, incl. prefunded and aliased accounts", "anchors": ["solana-program/src/instructions/unstake.rs:64-75", "solana-program/src/util/account.rs: create_account_secure"]}
{"id": "C09", "title": "ORCA to xORCA conversion is exact", "statement": "The minted amount is the stake amount when supply or non-escrowed ORCA is zero, and otherwise floor(amount*(supply+100)/(non_escrowed+100)); the call errors exactly when the 128-bit product or the 64-bit result does not fit, and never wraps or panics.", "quantifier": "all u64 triples", "why_tests_cant": "2^192 inputs; the overflow boundary is not sampled by tests", "anchors": ["solana-program/src/util/math.rs: convert_orca_to_xorca"]}
{"id": "C10", "title": "xORCA to ORCA conversion is exact", "statement": "The withdrawable amount is floor(amount*(non_escrowed+100)/(supply+100)) when both are non-zero; the call errors exactly when either is zero or the 128-bit product or the 64-bit result does not fit.", "quantifier": "all u64 triples", "why_tests_cant": "2^192 inputs", "anchors": ["solana-program/src/util/math.rs: convert_xorca_to_orca"]}
{"id": "C11", "title": "Staking and unstaking back never makes a profit", "statement": "If a user stakes a ORCA into a pool that has xORCA in circulation (or holds no free ORCA) and immediately unstakes the xORCA received, the withdrawable amount is at most a; and the loss is bounded by the value of one xORCA unit plus one. For a pool emptied of xORCA with ORCA left over the claim is false (see C46).", "quantifier": "all pool states, all amounts", "why_tests_cant": "rounding exploits live at unsampled inputs", "anchors": ["solana-program/src/util/math.rs", "solana-program/src/instructions/stake.rs", "solana-program/src/instructions/unstake.rs"]}
{"id": "C12", "title": "Splitting an operation never gains", "statement": "Staking a then b mints at most as much as staking a+b at once, and unstaking x then y yields at most as much as unstaking x+y at once.", "quantifier": "all pool states, all splits", "why_tests_cant": "tests compare a few splits", "anchors": ["solana-program/src/util/math.rs", "solana-program-test/src/tests/stake.rs: stake_rounding_many_small_vs_one_large", "solana-program-test/src/tests/unstake.rs: test_unstake_rounding_many_small_vs_one_large"]}
{"id": "C13", "title": "Holders are never diluted", "statement": "While supply stays positive, no step of any history (stakes, unstakes, withdrawals, parameter changes, donations, burns) lowers the price (non_escrowed+100)/(supply+100); hence the ORCA quoted for a fixed xORCA amount never decreases.", "quantifier": "all histories", "why_tests_cant": "monotonicity along unbounded histories", "anchors": ["solana-program/src/util/math.rs", "solana-program/src/instructions"]}
{"id": "C14", "title": "No dust conversions", "statement": "Every successful Stake mints at least one unit of xORCA and every successful Unstake records at least one unit of ORCA; calls that would round to zero fail with InsufficientStakeAmount / InsufficientUnstakeAmount and take nothing.", "quantifier": "all ledgers and calls", "why_tests_cant": "all inputs", "anchors": ["solana-program/src/instructions/stake.rs:106-108", "solana-program/src/instructions/unstake.rs:136-138"]}
{"id": "C15", "title": "Stake does exactly what it says", "statement": "A successful Stake moves exactly the requested ORCA from the staker's account to the vault, mints exactly the converted xORCA to the staker's account and to the supply, leaves State and every other account untouched, and requires the staker's signature.", "quantifier": "all ledgers, account lists (with aliasing), amounts", "why_tests_cant": "frame conditions quantify over every other account", "anchors": ["solana-program/src/instructions/stake.rs: process_instruction"]}
{"id": "C16", "title": "Unstake does exactly what it says", "statement": "A successful Unstake burns exactly the requested xORCA from the unstaker's account and supply, adds exactly the converted ORCA to the escrow, creates one record with the unstaker, index, amount and clock+cooldown, charges the unstaker exactly the missing rent, moves no ORCA and touches no other account.", "quantifier": "all ledgers, account lists, amounts, indices, clocks", "why_tests_cant": "frame conditions quantify over every other account", "anchors": ["solana-program/src/instructions/unstake.rs: process_instruction", "solana-program/src/util/account.rs"]}
{"id": "C17", "title": "Withdraw does exactly what it says", "statement": "A successful Withdraw moves exactly the recorded ORCA from the vault to a token account owned by the unstaker, lowers the escrow by the same amount, closes the record, returns all its lamports to the unstaker, and touches no other account.", "quantifier": "all ledgers, account lists, indices, clocks", "why_tests_cant": "frame conditions quantify over every other account", "anchors": ["solana-program/src/instructions/withdraw.rs: process_instruction", "solana-program/src/util/account.rs: close_program_account"]}
{"id": "C18", "title": "Set is authorised and touches one field", "statement": "Set succeeds only when signed by the stored update authority; it changes only cool_down_period_s (to a non-negative value) or only update_authority, and no other byte of any account.", "quantifier": "all ledgers, account lists, arguments", "why_tests_cant": "frame conditions quantify over every byte and account", "anchors": ["solana-program/src/instructions/set.rs: process_instruction"]}
{"id": "C19", "title": "Initialize happens at most once and only by the deployer", "statement": "Initialize succeeds only when the hard-coded deployer signs as payer and the pool does not exist; it creates State with zero escrow, the given non-negative cooldown and the given co-signing authority, and an empty vault owned by State; afterwards no Initialize ever succeeds again.", "quantifier": "all ledgers and calls; all later histories", "why_tests_cant": "at-most-once over unbounded histories", "anchors": ["solana-program/src/instructions/initialize.rs: process_instruction", "solana-program/src/lib.rs: DEPLOYER_ADDRESS"]}
{"id": "C20", "title": "Authority succession", "statement": "In any history the update authority in force is the one named at Initialize or the one named by the latest successful Set, and every such Set was signed by its predecessor; nobody else can ever change cooldown or authority.", "quantifier": "all histories", "why_tests_cant": "induction over histories", "anchors": ["solana-program/src/instructions/set.rs", "solana-program/src/instructions/initialize.rs"]}
{"id": "C21", "title": "The cooldown is never negative and maturity is never before the unstake", "statement": "In every reachable state cool_down_period_s >= 0 and every record created by Unstake matures no earlier than the clock of that Unstake.", "quantifier": "all histories and clocks", "why_tests_cant": "all histories", "anchors": ["solana-program/src/instructions/set.rs:41-45", "solana-program/src/instructions/initialize.rs:128-131", "solana-program/src/instructions/unstake.rs:169-172"]}
{"id": "C22", "title": "Failed calls have no effect", "statement": "If any check or inner call fails, no account changes and no event is emitted; a transaction of several calls applies all of them or none.", "quantifier": "all ledgers, calls and transactions", "why_tests_cant": "every failing branch incl. those after CPIs (escrow overflow, cooldown overflow)", "anchors": ["solana-program/src/entrypoint.rs: process_instruction", "solana-program/src/instructions"]}
{"id": "C23", "title": "Program accounts cannot be forged", "statement": "In every reachable state the only accounts the program accepts as State or PendingWithdraw are those it created itself: anyone can create accounts owned by the program, but they stay all-zero and are rejected.", "quantifier": "all histories incl. arbitrary other programs creating and assigning accounts", "why_tests_cant": "all adversarial account constructions", "anchors": ["solana-program/src/assertions/account.rs: assert_account_data, assert_account_discriminator", "solana-program/src/state/mod.rs"]}
{"id": "C24", "title": "Wrong accounts are rejected", "statement": "Whenever a call succeeds, every account slot holds the expected account: fixed ORCA and xORCA mints, fixed token/system/ATA programs, the unique State and vault addresses, token accounts of the right mint owned by the signer, with the documented signer and writable flags.", "quantifier": "all account lists", "why_tests_cant": "substitution attacks over all accounts", "anchors": ["solana-program/src/assertions/account.rs", "solana-program/src/instructions"]}
{"id": "C25", "title": "Conservation of ORCA, xORCA and lamports", "statement": "Every successful call preserves total lamports; it preserves total ORCA over any set of accounts containing the involved ones; and the change of total xORCA balances equals the change of supply.", "quantifier": "all ledgers, calls and finite account sets", "why_tests_cant": "sums over arbitrary account sets", "anchors": ["solana-program/src/instructions", "solana-program/src/util/account.rs"]}
{"id": "C26", "title": "Rent is returned in full", "statement": "Unstake charges max(0, rent - lamports already on the address) and the matching Withdraw returns every lamport then on the record to the unstaker, including anything third parties sent to it.", "quantifier": "all prefunded amounts, rents and later donations", "why_tests_cant": "all amounts", "anchors": ["solana-program/src/util/account.rs: create_account_secure, close_program_account"]}
{"id": "C27", "title": "Prefunding cannot block an unstake", "statement": "If Unstake would succeed with the record address empty, it still succeeds when a third party has sent any number of lamports to that address beforehand.", "quantifier": "all ledgers and prefund amounts", "why_tests_cant": "tests try a few amounts", "anchors": ["solana-program/src/util/account.rs: create_account_secure", "solana-program-test/src/tests/dos_protection.rs"]}
{"id": "C28", "title": "Events tell the truth", "statement": "Each successful Stake, Unstake, Withdraw and authority change emits exactly one event whose fields equal the call's arguments and the resulting vault balance, escrow, supply, cooldown and amounts in the ledger; cooldown changes and Initialize emit none; failed calls emit none.", "quantifier": "all ledgers and calls", "why_tests_cant": "final amounts are computed by unchecked arithmetic instead of re-reading accounts", "anchors": ["solana-program/src/event.rs", "solana-program/src/instructions/stake.rs:128-138", "solana-program/src/instructions/unstake.rs:174-186", "solana-program/src/instructions/withdraw.rs:141-147"]}
{"id": "C29", "title": "Escrow can be reconstructed from the event log", "statement": "Along any history the escrow equals the sum of withdrawable_orca_amount over Unstake events minus the sum over Withdraw events, and minted minus unstaked xORCA in the events equals supply plus tokens burned directly.", "quantifier": "all histories", "why_tests_cant": "unbounded logs", "anchors": ["solana-program/src/event.rs"]}
{"id": "C30", "title": "Account encodings agree", "statement": "The zero-copy view of State and PendingWithdraw and the Borsh codec used by the program, the Rust client and the JS client read the same fields from the same bytes: decode(encode(x)) = x, encode(decode(b)) = b for valid b, lengths are 2048 and 1024, and repr(C) inserts no hidden padding.", "quantifier": "all field values and all byte strings", "why_tests_cant": "the layout tests use one value", "anchors": ["solana-program/src/state/state.rs", "solana-program/src/state/pending_withdraw.rs", "solana-program/src/state/mod.rs", "rust-client/src/generated/accounts", "js-client/src/generated/accounts"]}
{"id": "C31", "title": "Instruction encoding is unambiguous", "statement": "Every instruction the clients encode is decoded by the program to the same instruction and arguments, different instructions have different encodings, trailing bytes are ignored, and any byte string that is no instruction is rejected with error 6000.", "quantifier": "all byte strings and arguments", "why_tests_cant": "all byte strings", "anchors": ["solana-program/src/instructions/mod.rs", "solana-program/src/entrypoint.rs", "rust-client/src/generated/instructions", "js-client/src/generated/instructions", "ts-scripts"]}
{"id": "C32", "title": "Client quotes equal on-chain results", "statement": "For all u64 inputs the Rust client conversion returns the same number as the program or an error exactly when the program errors; the JS conversion returns the same number whenever the program succeeds.", "quantifier": "all u64 triples", "why_tests_cant": "2^192 inputs", "anchors": ["rust-client/src/conversion.rs", "js-client/src/utils/conversion.ts", "solana-program/src/util/math.rs"]}
{"id": "C33", "title": "Client-built instructions meet the program's account rules", "statement": "Account lists produced by the Rust and JS builders and by the scripts have the order, signer and writable flags the program checks, so no client-built call is rejected for roles or account count.", "quantifier": "all inputs to the builders", "why_tests_cant": "all builders and inputs", "anchors": ["rust-client/src/generated/instructions", "js-client/src/generated/instructions", "ts-scripts", "solana-program/src/instructions"]}
{"id": "C34", "title": "Address derivation agrees everywhere", "statement": "The addresses the clients derive for State, vault and PendingWithdraw are the ones the program creates and accepts; distinct (user, index) pairs have distinct addresses unless SHA-256 collides.", "quantifier": "all users and indices", "why_tests_cant": "all keys", "anchors": ["solana-program/src/pda.rs", "rust-client/src/pda/mod.rs", "js-client/src/utils/index.ts"]}
{"id": "C35", "title": "Listing pending withdrawals is sound and complete for the searched range", "statement": "On any reachable ledger the fetch helpers return exactly the live records of the staker with index below the search limit; deviations (index 255 can never be listed; the Rust helper fails outright when a searched address merely holds lamports) are stated as refutations.", "quantifier": "all reachable ledgers, stakers and limits", "why_tests_cant": "all ledgers", "anchors": ["rust-client/src/utils/mod.rs: fetch_pending_withdraws_for_staker", "js-client/src/utils/index.ts: fetchPendingWithdrawsForStaker"]}
{"id": "C36", "title": "Fetched exchange rate", "statement": "If nothing changes between its reads, the exchange-rate helper returns non-escrowed ORCA over supply of the ledger; with interleaved transactions the three separate reads can mix states (stated as a refutation with a witness).", "quantifier": "all ledgers and interleavings of reads", "why_tests_cant": "schedules between RPC reads", "anchors": ["rust-client/src/utils/mod.rs: fetch_staking_exchange_rate", "js-client/src/utils/index.ts: fetchStakingExchangeRate"]}
{"id": "C37", "title": "The inflation attack does not pay", "statement": "In an empty pool an attacker who stakes s first, donates D to the vault, lets up to 100 victims stake any amounts and then redeems everything receives at most s + D plus one unit per victim, and at most s + D for a single victim. With more than 100 victims a profit is possible (stated as a refutation of 'guaranteeing a loss for the attacker').", "quantifier": "all stakes, donations and victim amounts", "why_tests_cant": "the test tries one set of numbers", "anchors": ["solana-program/src/util/math.rs:25-32", "solana-program-test/src/tests/vault_inflation.rs"]}
{"id": "C38", "title": "Defensive errors are unreachable", "statement": "In reachable states Stake/Unstake never fail with InsufficientVaultBacking, Withdraw never fails with InsufficientEscrow and the branch marked 'should be unreachable' in the conversion is not reached by a holder of xORCA.", "quantifier": "all reachable ledgers and calls", "why_tests_cant": "unreachability over all histories", "anchors": ["solana-program/src/instructions/stake.rs:95-98", "solana-program/src/instructions/unstake.rs:126-129", "solana-program/src/instructions/withdraw.rs:114-120", "solana-program/src/util/math.rs:53-56"]}
{"id": "C39", "title": "Arithmetic errors need absurd amounts", "statement": "In a solvent pool conversions never overflow as long as the amounts stay below 2^63; real ORCA supply is far below that, so users never meet ArithmeticError.", "quantifier": "all pool states below the bound", "why_tests_cant": "overflow boundary", "anchors": ["solana-program/src/util/math.rs"]}
{"id": "C40", "title": "Anyone holding xORCA can unstake", "statement": "In every reachable state a holder with a free index, enough lamports for rent and an amount quoted at one unit or more can unstake successfully (amounts below 2^63, clock + cooldown in range).", "quantifier": "all reachable ledgers and holders", "why_tests_cant": "liveness under all histories", "anchors": ["solana-program/src/instructions/unstake.rs"]}
{"id": "C41", "title": "Anyone can stake", "statement": "In every reachable state a user with ORCA, token accounts for both mints and an amount quoted at one unit or more can stake successfully, whatever other users did before.", "quantifier": "all reachable ledgers and users", "why_tests_cant": "liveness under all histories", "anchors": ["solana-program/src/instructions/stake.rs"]}
{"id": "C42", "title": "Donations only help holders", "statement": "Sending ORCA directly to the vault never changes escrow, supply or any pending claim and never lowers what any holder can redeem.", "quantifier": "all reachable ledgers and amounts", "why_tests_cant": "all states", "anchors": ["solana-program/src/util/math.rs", "ts-scripts/transfer-orca-to-vault.ts"]}
{"id": "C43", "title": "Withdrawals and settings never move the exchange rate", "statement": "Withdraw and Set leave non-escrowed ORCA and supply unchanged; withdrawals of different records commute: the final ledger does not depend on their order.", "quantifier": "all ledgers and pairs of calls", "why_tests_cant": "all orders", "anchors": ["solana-program/src/instructions/withdraw.rs", "solana-program/src/instructions/set.rs"]}
{"id": "C44", "title": "Aliased accounts gain nothing", "statement": "Passing the same account in several slots never breaks the accounting: the exact-effect statements of Stake, Unstake and Withdraw hold for aliased account lists too.", "quantifier": "all account lists with repetitions", "why_tests_cant": "all aliasing patterns", "anchors": ["solana-program/src/instructions"]}
{"id": "C45", "title": "Initialization can be delayed by a third party (negative result)", "statement": "The intended property 'the deployer can always initialize' is false: anyone may create the vault's associated token account first, after which Initialize fails with IncorrectOwner forever.", "quantifier": "existence of a ledger and a permissionless step", "why_tests_cant": "needs the adversarial step before deployment", "anchors": ["solana-program/src/instructions/initialize.rs:94-96"]}
{"id": "C46", "title": "Pool re-emptying (negative result)", "statement": "The comment 'the xORCA token supply can never become 0 again' is false for the token program (tokens owned by the incinerator can be burned by anyone), and when supply is zero with ORCA left the next staker mints 1:1 and captures the residual.", "quantifier": "existence of histories", "why_tests_cant": "needs an unusual token-program path", "anchors": ["solana-program/src/util/math.rs:12-17"]}
{"id": "C47", "title": "Errors are the same numbers everywhere", "statement": "Every error the program can return from its own checks is a code 6000..6019 listed with the same number in both clients, and distinct errors have distinct codes.", "quantifier": "all calls", "why_tests_cant": "all error paths", "anchors": ["solana-program/src/error.rs", "rust-client/src/generated/errors", "js-client/src/generated/errors"]}
{"id": "C48", "title": "Calls addressed to another program id are refused", "statement": "The entry point rejects every instruction when invoked under a different program id, before reading any account.", "quantifier": "all program ids, accounts and data", "why_tests_cant": "all ids", "anchors": ["solana-program/src/entrypoint.rs:21-23"]}
{"id": "C49", "title": "Every movement of the vault", "statement": "In any single step of any execution the vault's ORCA balance stays the same, rises by a deposit made outside the program, rises by exactly the amount of a successful Stake, or falls by exactly the amount of one matured record paid to an ORCA account owned by the withdrawer who signed; the vault never has a delegate or a close authority and is always owned by the State account.", "quantifier": "all reachable ledgers, all steps", "why_tests_cant": "all steps of all programs from all reachable states", "anchors": ["solana-program/src/instructions/stake.rs", "solana-program/src/instructions/withdraw.rs", "solana-program/src/cpi/token"]}
{"id": "C50", "title": "Every movement of the xORCA supply", "statement": "In any single step the xORCA supply stays the same, is burned outside the program, grows by exactly the quoted amount of a successful Stake, or falls by exactly the amount of a successful Unstake; once the pool exists the State account is the only mint authority, the mint has no freeze authority and no xORCA account becomes frozen.", "quantifier": "all reachable ledgers, all steps and histories", "why_tests_cant": "all executions", "anchors": ["solana-program/src/instructions/initialize.rs", "solana-program/src/instructions/stake.rs", "solana-program/src/instructions/unstake.rs"]}
{"id": "C51", "title": "Calls take only from their first signer", "statement": "If a call of the program lowers the tokens in any token account, that account belongs to the call's first signer, or it is the vault paying a record; if it lowers the lamports of any account, that account is the first signer (or the signer's wrapped-SOL account), or a record being paid whose lamports all go to the first signer.", "quantifier": "all reachable ledgers, all calls, all accounts", "why_tests_cant": "every account outside the call as well", "anchors": ["solana-program/src/instructions", "solana-program/src/util/account.rs"]}
{"id": "C52", "title": "Waiting never costs", "statement": "As long as an account keeps at least x xORCA, the ORCA that unstaking x would promise never falls, and an Unstake of x promises exactly that amount: waiting before unstaking never yields less.", "quantifier": "all histories, all amounts", "why_tests_cant": "arbitrary interleavings of other users", "anchors": ["solana-program/src/util/math.rs", "solana-program/src/instructions/unstake.rs"]}
{"id": "C53", "title": "All holders together can be redeemed", "statement": "At every moment the ORCA that is not promised to records covers the sum of what all xORCA accounts together would be promised if each unstaked.", "quantifier": "all reachable ledgers, all sets of accounts", "why_tests_cant": "sums over all holders", "anchors": ["solana-program/src/util/math.rs"]}
{"id": "C54", "title": "The authority is never locked out", "statement": "On every reachable ledger with a State account, a Set call signed by the stored authority with a non-negative cooldown (or any new authority) succeeds.", "quantifier": "all reachable ledgers, clocks and updates", "why_tests_cant": "all histories", "anchors": ["solana-program/src/instructions/set.rs"]}
{"id": "C55", "title": "The authority can stop unstaking (limit)", "statement": "A successful Unstake needs now + cooldown to fit in an i64; after the authority sets the cooldown to i64::MAX no Unstake succeeds at any positive time until the cooldown is changed again.", "quantifier": "all histories after the Set call", "why_tests_cant": "unbounded future", "anchors": ["solana-program/src/instructions/set.rs", "solana-program/src/instructions/unstake.rs"]}
{"id": "C56", "title": "A revoked freeze authority blocks Initialize (negative result)", "statement": "The token program's revocation of a mint's freeze authority clears the option tag and leaves the key bytes; Initialize compares the bytes, so after revoking the xORCA mint's freeze authority Initialize fails for ever, although the mint has no freeze authority.", "quantifier": "all histories after the revocation", "why_tests_cant": "needs an unusual token-program path and an unbounded future", "anchors": ["solana-program/src/instructions/initialize.rs"]}
{"id": "C57", "title": "How the displayed rate moves", "statement": "The displayed rate (free ORCA over xORCA supply) is at least 1; only a Stake can lower it, and it never falls below an earlier virtual price (free ORCA + 100) / (supply + 100) while xORCA is in circulation. It is not monotone (refuted with a witness).", "quantifier": "all reachable ledgers, steps and histories", "why_tests_cant": "nonlinear inequality over all executions", "anchors": ["solana-program/src/util/math.rs", "rust-client/src/utils", "js-client/src"]}
{"id": "C58", "title": "The event log accounts for the vault", "statement": "Since Initialize, the vault balance equals ORCA staked minus ORCA paid according to the emitted events, plus ORCA deposited by steps outside the program; the deposits are never negative, so payouts never exceed stakes plus deposits.", "quantifier": "all histories from genesis", "why_tests_cant": "unbounded logs", "anchors": ["solana-program/src/event.rs"]}
{"id": "C59", "title": "Rust builders and cross-program calls", "statement": "Each generated Rust instruction builder panics exactly when a required account or argument was not set and otherwise builds the instruction of the plain constructor. A program that holds the documented privileges (possibly through its own PDA seeds) can invoke xORCA through the generated Cpi struct, and xORCA then receives the documented accounts and instruction; a program lacking one of the privileges is refused by the runtime. CpiBuilder passes an account added with add_remaining_account(account, is_writable, is_signer) with the two flags swapped, so that adding a writable account is refused (refuted with a witness).", "quantifier": "all account choices, optional settings, caller privileges, signer seeds and remaining accounts", "why_tests_cant": "all combinations of set/unset fields and privileges; the generated CPI code is not exercised by any test in the repository", "anchors": ["rust-client/src/generated/instructions/stake.rs", "rust-client/src/generated/instructions/unstake.rs", "rust-client/src/generated/instructions/withdraw.rs", "rust-client/src/generated/instructions/initialize.rs", "rust-client/src/generated/instructions/set.rs"]}
{"id": "C60", "title": "The JS instruction parsers name accounts truthfully", "statement": "The generated JS parsers applied to a call return its instruction, its arguments and every account under its documented name. They throw exactly when the data does not decode or accounts are missing, hence never on a call the program accepted; and on such a call the names stateAccount and vaultAccount denote the State account and its vault.", "quantifier": "all account lists and data; all accepted calls on reachable ledgers", "why_tests_cant": "all byte strings and account lists", "anchors": ["js-client/src/generated/instructions", "js-client/src/generated/programs"]}
{"id": "C61", "title": "The stake, unstake and withdraw scripts", "statement": "The transactions of stake.ts, unstake.ts and withdraw.ts (with the missing token account created first) succeed under stated conditions on the ledger. stake.ts reports the staked amount truly; its 'xORCA received' line is the whole xORCA balance after the call, not what was received (refuted with a witness). unstake.ts reports the unstaked amount truly; its 'ORCA received' line is the whole ORCA balance although nothing has been received yet (refuted). A withdraw.ts that succeeds pays exactly the recorded amount to the owner's associated account, and while the seconds it prints are positive it fails and changes nothing. If lamports have been sent to the address of the missing token account, stake.ts and withdraw.ts fail although the account could be created. stake.ts and unstake.ts send their transaction exactly if the user's token account exists with at least the amount (and, for unstake.ts, the index is a byte); withdraw.ts sends it exactly if the record's account exists with at least 56 bytes, whatever the time. Under conditions on the ledger alone the scripts both send and succeed; withdraw.ts sends for every record of its user.", "quantifier": "all ledgers (reachable ones for the success theorems), users, amounts, indices and clocks", "why_tests_cant": "all ledger states; the scripts have no tests", "anchors": ["ts-scripts/stake.ts", "ts-scripts/unstake.ts", "ts-scripts/withdraw.ts"]}
{"id": "C62", "title": "The donation, transfer and deployment scripts", "statement": "transfer-orca-to-vault.ts moves exactly the amount from the sender to the vault, mints nothing, leaves the escrow alone and never lowers what xORCA can be redeemed for; its 'Vault received' line is twice the amount (refuted with a witness). transfer-orca.ts moves exactly the amount to the recipient's associated account, creating it if missing; its lines and its verdict are right unless sender and recipient are the same account. update-xorca-mint-authority.ts hands the xORCA mint authority from its signer to the State address, changes nothing else, is refused for any other signer and cannot be repeated. Followed by initialize.ts it deploys the program; initialize.ts before it, or a second time, is refused. For nonnegative amounts transfer-orca-to-vault.ts sends its transaction exactly if the sender's account holds the amount and the vault exists, and transfer-orca.ts exactly if the sender's account holds the amount and the recipient's account is missing or a token account; initialize.ts sends negative cooldowns, which set.ts refuses.", "quantifier": "all ledgers, senders, recipients, amounts and signers", "why_tests_cant": "all ledger states; the scripts have no tests", "anchors": ["ts-scripts/transfer-orca-to-vault.ts", "ts-scripts/transfer-orca.ts", "ts-scripts/initialize.ts", "ts-scripts/update-xorca-mint-authority.ts"]}
{"id": "C63", "title": "Error numbers tell the truth", "statement": "Whatever accounts, ledger, clock and data a call is given: if it returns one of the program's error numbers, what the number's name says is true of the call (a demanded signature or writable flag is missing, an account has the wrong owner, address or contents, a balance is below the amount, the record has not matured, and so on, per instruction). NotEnoughAccountKeys is returned exactly when accounts are missing, UnknownInstructionDiscriminator exactly when the data encodes no instruction, and both before any other program error.", "quantifier": "all hash functions, clocks, account lists, ledgers and data; no hypothesis on the ledger", "why_tests_cant": "22 error numbers over all inputs; tests provoke each error in one way", "anchors": ["solana-program/src/error.rs", "solana-program/src/assertions/account.rs", "solana-program/src/instructions"]}
{"id": "C64", "title": "What a correctly addressed call answers", "statement": "On every reachable ledger a correctly addressed call has exactly the documented answer. Stake: InsufficientFunds above the balance, InsufficientStakeAmount for an amount worth less than one xORCA unit, success otherwise. Unstake: IncorrectOwner if the index is taken, InsufficientFunds above the balance, InsufficientUnstakeAmount for zero (ArithmeticError if no xORCA exists), CoolDownOverflow if the maturity date leaves 64 bits, success otherwise. Withdraw: IncorrectOwner without a record, CoolDownPeriodStillActive before maturity, success from then on. Set: IncorrectAccountAddress for anyone but the authority, InvalidCoolDownPeriod for a negative period, success otherwise. Initialize after initialization: UnauthorizedDeployerAccess for anyone but the deployer, else StateAccountAlreadyInitialized. The first Initialize, with the documented accounts: UnauthorizedDeployerAccess for anyone but the deployer; IncorrectAccountAddress if the State account is not the xORCA mint authority; InvalidAccountData if the mints do not qualify otherwise; IncorrectOwner if the vault already exists; InvalidCoolDownPeriod for a negative period.", "quantifier": "all reachable ledgers, users, amounts, indices, clocks and update arguments", "why_tests_cant": "exhaustive case split over all reachable ledgers and amounts, including boundaries and precedence of errors", "anchors": ["solana-program/src/instructions/stake.rs", "solana-program/src/instructions/unstake.rs", "solana-program/src/instructions/withdraw.rs", "solana-program/src/instructions/set.rs", "solana-program/src/instructions/initialize.rs"]}
{"id": "C65", "title": "What the status script prints", "statement": "On every reachable initialized ledger, status.ts prints the State account's cooldown, escrow, update authority and bumps, the vault balance, the free ORCA, the xORCA supply and two rates built from them with the virtual offset of 100. Before Initialize it says so, unless lamports were sent to the State address. The number labelled \"1 ORCA = ... xORCA\" is what one xORCA is redeemed for and vice versa: the labels are swapped. If a withdrawal lands between its requests, the free ORCA it prints can be negative.", "quantifier": "all hash functions and all triples of reachable ledgers the three requests may see", "why_tests_cant": "the figures hold for every reachable ledger and every interleaving of requests with calls", "anchors": ["ts-scripts/status.ts"]}
{"id": "C66", "title": "Calls depend on and change only what they are given", "statement": "Two ledgers that agree on the accounts passed to a call give the same error, or the same events and the same new contents of those accounts. A call changes only accounts passed to it as writable. Appending accounts to a successful call changes nothing. Stake, Set and Initialize do not depend on the clock. A withdrawal that succeeds gives the identical result at every later time. An unstake at another time has the same events and effects except that the record's maturity shifts by exactly the difference, or fails with CoolDownOverflow if the maturity leaves 64 bits.", "quantifier": "all program ids, hash functions, clocks, account lists, ledgers and data", "why_tests_cant": "compares two executions over all pairs of ledgers, account lists and clocks", "anchors": ["solana-program/src/entrypoint.rs", "solana-program/src/util/account.rs", "solana-program/src/cpi", "solana-program/src/instructions"]}
{"id": "C67", "title": "A call that is wrong in one place is told which", "statement": "Take any accepted call and make one mistake. Dropping a demanded signature or write permission is answered InvalidAccountRole; another mint or program, IncorrectAccountAddress (at Initialize, which reads the mints first, IncorrectOwner or InvalidAccountData if they are not mints); another State account, IncorrectOwner if the program does not own it and InvalidAccountData if it does (InvalidSeeds at Initialize); another vault, InvalidSeeds, or at Unstake and Initialize the fault of its owner or contents; another record, IncorrectOwner, InvalidAccountData or InvalidSeeds according to what it is; another token account, IncorrectOwner, InvalidAccountData or InsufficientFunds; another signer, InvalidAccountData at Stake, IncorrectAccountAddress at Set, UnauthorizedDeployerAccess at Initialize and InvalidSeeds at Unstake and Withdraw; another index, InvalidSeeds. For another signer or index at Unstake or Withdraw, and another record at Withdraw, the alternative is a hash collision; at Unstake also that the derivation of the other record address finds none.", "quantifier": "all hash functions, clocks, accepted calls, replacement accounts and flags, and all ledgers (reachable ones for the State account and the record)", "why_tests_cant": "the tests try one wrong account per check; the replacement account and the ledger are arbitrary here", "anchors": ["solana-program/src/assertions/account.rs", "solana-program/src/instructions", "solana-program/src/state"]}
{"id": "C68", "title": "No call fails because an account is borrowed", "statement": "With every Ref and RefMut of the program and the borrow checks of pinocchio's account views and cross-program calls modelled, no call on a reachable ledger is answered AccountBorrowFailed, even if the same account fills several slots: each call ends exactly as it does when the flags are ignored. On any ledger at all the same calls succeed with the same results; the only call in which a borrow can fail is an Unstake signed by the State account itself, and that one fails anyway because an account with data cannot pay rent.", "quantifier": "all hash functions, clocks, account lists (including repeated accounts), ledgers and data; the first part for reachable ledgers and honest signers", "why_tests_cant": "a guard held across a cross-program call only fails for particular coincidences of accounts; tests pass distinct accounts", "anchors": ["solana-program/src/instructions/stake.rs", "solana-program/src/instructions/unstake.rs", "solana-program/src/instructions/withdraw.rs", "solana-program/src/util/account.rs", "solana-program/src/assertions/account.rs"]}
{"id": "C69", "title": "What the runtime's rent check makes of accepted calls", "statement": "After a transaction the runtime refuses writable accounts that have become rent-paying. Stake (from an ordinary ORCA account) and Set leave every account passing this check. After Unstake and Initialize every account but the signer passes, because the new accounts are exempt; the signer, who pays for them, passes exactly if it is left with nothing, or with at least its own rent minimum, or was already below it. After Withdraw every account passes, the signer if its lamports with the refund reach its minimum; the rent paid with the Unstake is enough for that by itself whenever an account of the signer's size needs no more than the 1024 bytes of the record did.", "quantifier": "all hash functions, clocks, rent parameters, account lists and data, all ledgers (Stake, Set, others at Unstake) or all reachable ledgers", "why_tests_cant": "the test runtime checks rent for the balances of one scenario; the theorem gives the exact condition for all", "anchors": ["solana-program/src/util/account.rs", "solana-program/src/instructions/unstake.rs", "solana-program/src/instructions/withdraw.rs", "solana-program/src/instructions/initialize.rs"]}
{"id": "C70", "title": "The runtime never refuses what the program does to accounts", "statement": "At every cross-program call and when the program returns, the Solana runtime compares the instruction's accounts with what they were at the last such point. It demands that an account of another program has lost no lamports and kept its data, that an account not passed as writable is unchanged, that no data grew by more than 10240 bytes, that an account changed owner only if it was the program's, writable and all zero, and that the lamports of the accounts add up to the same total. On every ledger, a call succeeds with these comparisons exactly if it succeeds without them, with the same result. On every ledger reachable by chain operations, for account lists in which none of the program's derived addresses signs and no two accounts hold more than 2^64-1 lamports together, no comparison ever fails: the call is answered exactly as without them. (Without that bound a refund at Withdraw could wrap around; the runtime then refuses the call.)", "quantifier": "all hash functions, clocks, account lists (with any aliasing) and data, all ledgers without negative balances / all reachable ledgers", "why_tests_cant": "the test runtime makes the comparisons for one scenario each; a write to a read-only or foreign account on some path would only show there", "anchors": ["solana-program/src/util/account.rs", "solana-program/src/instructions/unstake.rs", "solana-program/src/instructions/withdraw.rs", "solana-program/src/instructions/initialize.rs", "solana-program/src/instructions/set.rs", "solana-program/src/instructions/stake.rs"]}
{"id": "C71", "title": "What the program writes to the log", "statement": "Writing the log changes no answer and no account. A call with another program id or with data that is no instruction writes nothing, every other call begins with 'Instruction: ' and the instruction's name. An accepted call then writes the data of its events, in order, and nothing else. A refused call writes at most one further line. That line is one of nine sentences and it is true: the account it names is at a position of the instruction where it had to sign, be writable, belong to the named program, have another address or be derived from other seeds, and does not; or is one of the program's accounts with the size given in the line or another first byte; or the two token account owners (or mints) in it differ and belong to the token account and to the account that must hold it. The error code is the one belonging to the sentence. A refusal without a line never has the role, owner or address code, and has the seeds or data code only for stored-bump checks, unreadable token accounts and mints, and wrong mint fields. So event data appears in the log exactly of accepted calls. Addresses in the lines are base58 texts that decode to the address alone and numbers are decimal. Every sentence fits the log line of 200 bytes except the one on a token account's holder, which always shows both holders and at least 32 characters of the mint; refuted: it is always complete.", "quantifier": "all hash functions, clocks, program ids, account lists (with any aliasing), ledgers and data", "why_tests_cant": "tests look at error codes, not at the log; a line naming the wrong account, or an event written before a check that can still fail, would mislead indexers and users on paths no test reads", "anchors": ["solana-program/src/entrypoint.rs:27", "solana-program/src/assertions/account.rs:39-227", "solana-program/src/event.rs:36-52"]}
{"id": "C72", "title": "What the scripts make of their command lines", "statement": "The amounts of stake.ts, unstake.ts and transfer-orca.ts are sent exactly if the whole text is a number: blanks around it, nothing, a decimal numeral with or without sign, or a hexadecimal, octal or binary one. Indices, periods and gifts to the vault are read from the beginning of the text: blanks, a sign, and as many digits as follow; what comes after changes nothing. Periods and gifts beyond 2^53 become the nearest double, ties to the even one. An address is accepted exactly if it is the base58 text of 32 bytes, and then it is that key. Whenever stake.ts, unstake.ts, withdraw.ts, initialize.ts, set.ts or transfer-orca-to-vault.ts sends something, the key of the given file signs a call of the instruction with the number or address read this way, after at most one creation of their own token account; with too few arguments nothing is sent, and by set.ts nothing is sent before the state exists. set.ts sends whenever the state exists and the text is such a period (not negative, at most i64::MAX) or address. An index text that does not begin with a number counts as 0. Periods from 2^63 - 512 on are refused by set.ts. Refuted: an index was typed whenever withdraw.ts sends something; the text of a period or gift is a number; the period sent is the number typed.", "quantifier": "all hash functions, clocks, ledgers, key files and argument lists of ASCII texts", "why_tests_cant": "tests try a few well-formed arguments; the grammar of accepted texts is infinite and the silent cases (a unit or a separator after the number, a word instead of an index, a number beyond 2^53) are those nobody types into a test", "anchors": ["ts-scripts/stake.ts:26-35", "ts-scripts/unstake.ts:26-35", "ts-scripts/withdraw.ts:26-34", "ts-scripts/initialize.ts:23-33", "ts-scripts/set.ts:15-110", "ts-scripts/transfer-orca.ts:21-51", "ts-scripts/transfer-orca-to-vault.ts:21-30", "ts-scripts/pending-withdraws.ts:14-22", "ts-scripts/update-xorca-mint-authority.ts:15-22"]}
{"id": "C73", "title": "How far the documented conversion is off", "statement": "The README tells integrators that a stake of a mints a*supply/free (a if the pool is empty) and an unstake of x promises x*free/supply, where free is the non-escrowed ORCA. The program differs because of the 100 virtual units, always to the same side: an accepted Stake mints at least the documented amount and at most 100*a/(free+100)+1 more; an accepted Unstake promises at most the documented amount and at most 100*(free-supply)/(supply+100)+1 less; at a price of one (or an empty pool) both are exact. That the formulas hold is refuted with witnesses. An Initialize call with the six accounts listed in the README is always refused with 6003.", "quantifier": "all hash functions, reachable ledgers, accepted calls, amounts", "why_tests_cant": "nonlinear bounds over all pools; tests compare single numbers computed by the program's own formula", "anchors": ["solana-program/README.md: Conversion Details (for integrators), Instructions Overview", "solana-program/src/util/math.rs"]}
{"id": "C74", "title": "Rounding costs units, gifts are shared in proportion", "statement": "When somebody else stakes, what a holder of x can redeem does not fall and grows by at most the price of one unit of xORCA plus one; when somebody else unstakes it grows by at most one unit of ORCA. Over any history without stakes and unstakes that leaves the supply unchanged it grows by x*gifts/(supply+100), up to one unit, where gifts is the ORCA sent to the vault. Whoever stakes a for m xORCA, waits through any history of gifts, burns, withdrawals and settings, and unstakes the m is promised at most a + (m*gifts + a*burned)/(supply+100): frontrunning a gift earns at most the share of it.", "quantifier": "all hash functions, reachable ledgers, amounts and histories between the two trades", "why_tests_cant": "floor arithmetic over all pools and arbitrarily long histories", "anchors": ["solana-program/src/util/math.rs", "solana-program/src/instructions/stake.rs", "solana-program/src/instructions/unstake.rs", "ts-scripts/transfer-orca-to-vault.ts"]}
{"id": "C75", "title": "From the scripts to the runtime and back: nothing is lost on the wire", "statement": "The bytes that web3.js makes of a transaction (key list, header, indices, signatures) are decoded by the runtime to the same instructions in the same order, with the same programs, data and accounts; an account arrives as a signer exactly if it pays or any instruction lists it as a signer, and writable exactly if it pays or any instruction lists it writable and it is neither reserved nor a called program. A transaction is sent exactly if all needed signers are at hand and it fits into 1232 bytes; nothing is sent with a signer whom it does not name; its length is a formula of the numbers of signers, keys, accounts and data bytes; every script's transaction fits. A call accepted with the accounts as written is accepted with the same effects with the accounts as they arrive. The packets that the runtime accepts are characterized exactly, with legacy messages and with messages of version 0 (whose further accounts come from address lookup tables): by their bytes, the signatures and the lists of keys, together with what each instruction receives. Whatever packet is received, a signer's flag needs a signature of that key, so no address of the program's comes as a signer, and a key has the same flags wherever it occurs. That flags arrive exactly as written is refuted: the mint authority script lists its signer read-only, it arrives writable.", "quantifier": "all instructions, signers, payers, signature schemes, orders of equal keys, packets (also malicious ones, legacy and version 0), lookup tables, ledgers", "why_tests_cant": "index and header arithmetic over all key sets and orders; arbitrary packets; tests use the same library on both ends", "anchors": ["ts-scripts/stake.ts:135-162", "ts-scripts/initialize.ts:118-126", "ts-scripts/update-xorca-mint-authority.ts:76-91", "ts-scripts/package.json:26"]}
{"id": "C76", "title": "Executing arbitrary packets: every packet is a transaction of the histories", "statement": "Let the runtime execute any sequence of bytes as a packet (decode, verify signatures, run its instructions for the staking, token, system and associated token programs in order, all or nothing). The result is that of a transaction of the model's histories: every step runs at the packet's clock, no signer is an address of the program's, and every signature a step uses is contained in the packet as a signature over its message. Hence packets lead from reachable states to reachable states, and all properties of histories hold of all runs of packets. All instructions run in order, each with success, or nothing happens at all; in particular nothing happens if a call of the staking program is refused, or if the packet starts with the creation of an associated account that exists already. A packet changes only accounts that it contains as writable and that are not reserved. If a script's transaction works, then the packet the script sends has exactly its effects and logs. The instructions of the token, system and associated token programs, as their libraries write them, are executed as what they say (the checked ones exactly if mint and decimals are right; Create exactly where there is no account), provided that they leave read-only accounts unchanged.", "quantifier": "all packets (also malicious ones, legacy and version 0 with any lookup tables), sequences of packets, ledgers, clocks, signature schemes accepting only points of the curve, all scripts and their arguments", "why_tests_cant": "all byte strings; the link between transport, four programs and the state machine is never exercised with hostile packets by the tests", "anchors": ["solana-program/src/entrypoint.rs:16-53", "ts-scripts/stake.ts:135-162", "ts-scripts/transfer-orca.ts:95-140", "ts-scripts/initialize.ts:118-126"]}
{"id": "C77", "title": "Whose signature a packet must carry", "statement": "Whatever bytes are submitted: the cool-down period or the update authority changes only if the packet carries a signature of the current update authority over its message; a pending withdrawal is unchanged before its time and afterwards changes only if the packet carries its owner's signature (or one whose derived address collides with it, exhibited); a new pending withdrawal carries its owner's signature and lies not before the clock; the vault loses ORCA only if the packet carries the signature of the owner of a pending withdrawal that is due while it runs; xORCA supply grows only with a signature of an owner of an ORCA account; the state comes into being only with the deployer's signature. Whoever did not sign (an ordinary wallet) keeps all lamports and, in ordinary token accounts without delegate and close authority, all tokens, and these stay so.", "quantifier": "all packets (legacy and version 0 with any lookup tables), reachable ledgers, clocks, wallets, records, token accounts", "why_tests_cant": "quantifies over all byte strings an attacker could submit, including combinations of instructions of several programs", "anchors": ["solana-program/src/instructions/set.rs:17-40", "solana-program/src/instructions/withdraw.rs:28-62", "solana-program/src/instructions/unstake.rs:52-71", "solana-program/src/instructions/stake.rs:33-60", "solana-program/src/instructions/initialize.rs:26-60"]}
{"id": "C78", "title": "Key files: what is typed, written, read and acted by", "statement": "generate-keypair.ts accepts a text exactly if it begins with the hexadecimal digits of a 32-byte seed, or of a seed and its own public key, not followed by a further pair of digits; it writes the JSON array of the pair under the given name and shows its public key. Whatever it wrote, every script reads back as exactly the key shown, so a stake with that file is signed by that key. A script acts by key k exactly if its file is a JSON array of integers which, rounded to doubles and taken modulo 256, are a seed and the public key k of that seed; the first 32 numbers decide the key. Not everything is checked: text after the key is ignored, numbers that are no bytes are accepted, and upload-image.ts accepts files whose public half is wrong, which no other script does. upload-image.ts sends the bytes of the image, the 64 bytes of the key file and the content type of the file's ending (in any case of letters) to the server of the network named.", "quantifier": "all command lines and file contents (ASCII), all public key derivations", "why_tests_cant": "there are no tests of the scripts; quantifies over all texts and files", "anchors": ["ts-scripts/generate-keypair.ts:16-82", "ts-scripts/upload-image.ts:16-127", "ts-scripts/stake.ts:50-51", "ts-scripts/initialize.ts:46-54"]}
{"id": "C79", "title": "Packets on the chain: fee, rent check, and what stays true with them", "statement": "Put any bytes on the chain as a packet. If they are a well-signed message, its first signer is a plain account, and that account can pay 5000 lamports for every signature without becoming rent-paying, then exactly this fee is taken from the first signer, and the packet is executed on the ledger after the fee; its effects and logs stay exactly if no account became rent-paying, otherwise only the fee is gone. In every other case nothing happens at all. A script's transaction that works on the ledger after its fee therefore has exactly its effects, for 5000 lamports for each key that must sign. Packets lead from reachable states to reachable states, so everything that holds in all reachable states holds on the chain; and with fees it remains true who can do what: settings change only with the update authority's signature, pending withdrawals only when due and with their owner's (or a colliding) signature, new ones with their owner's, ORCA leaves the vault only for a due withdrawal whose owner signed, xORCA comes only with a signature of an owner of ORCA, the state only with the deployer's, and who did not sign loses neither lamports nor tokens.", "quantifier": "all packets (legacy and version 0), ledgers, clocks, rent tables, lookup tables, signature schemes accepting only points of the curve, sequences of packets; all scripts", "why_tests_cant": "the tests run in a simulator without hostile packets; quantifies over all byte strings and all states of the payer and of the accounts involved", "anchors": ["ts-scripts/stake.ts:135-162", "ts-scripts/initialize.ts:118-126", "solana-program/src/util/account.rs", "solana-program/src/entrypoint.rs:16-53"]}
{"id": "C80", "title": "The scripts' packets take effect on the chain, for stated balances", "statement": "Take any reachable state, whoever acted before. If the sender's wallet can pay 5000 lamports and stays rent exempt, the packet that the script makes and signs is accepted and executed, in any later state that meets the conditions: (withdraw) a due record of the sender disappears, its amount comes from the vault to their ORCA account and its lamports to them; (stake) the sender with enough ORCA gets a*(supply+100)/(free+100) xORCA for a ORCA, 1 for 1 when there is no supply; (first stake) the same when they have no xORCA account, which the same packet opens for the rent of 165 bytes; (unstake) with a free index the record is made with the stated amount and the time now+cooldown, at the cost of the rent of 1024 bytes, or two different inputs of the address hash collide; the same for withdraw and unstake when they have no ORCA account, which the packet opens; (cooldown, authority) the authority's change is made. Before there is a pool, the initialize packet of the deployer makes the state and the empty vault, for one or two signatures and the rent of both. The sender's lamports afterwards are stated exactly in each case. (Donation) the vault has the donated ORCA, and no xORCA is worth less; (transfer) the recipient has the ORCA, in an account that the packet opens if there is none; (mint authority) the state address becomes the mint authority of xORCA.", "quantifier": "all reachable ledgers, senders, amounts, clocks, rent tables, signature schemes; the state in which the script looked may differ from the one in which its packet arrives", "why_tests_cant": "a liveness claim over all reachable states with fees, rent and the wire format included; tests send a few transactions to a simulator in chosen states", "anchors": ["ts-scripts/stake.ts:60-162", "ts-scripts/unstake.ts:60-165", "ts-scripts/withdraw.ts:60-175", "ts-scripts/set.ts:40-110", "solana-program/src/instructions/stake.rs:20-120"]}
{"id": "C81", "title": "Who signs nothing loses nothing on the chain, and is paid after any wait", "statement": "Take any reachable state and any list of packets of which u signed none. After them (1) u's wallet has at least the lamports it had, and each ordinary token account of u without delegate and close authority is still u's and has at least the tokens it had; (2) if u holds xORCA, the price (free ORCA + 100)/(supply + 100) has not fallen, and x xORCA are worth at least as much; (3) a pending-withdraw record of u is unchanged, or two inputs of the address hash collided while one of the packets ran; (4) if the record is due and the account and the vault are not frozen, the packet of the withdraw script then pays: u has at least their earlier ORCA plus the amount of the record, and at least their earlier lamports minus the fee of 5000; (5) the packet of the unstake script for x of the xORCA makes a record of at least what x was worth before the packets.", "quantifier": "all reachable ledgers, all lists of packets (any bytes, any senders, any clocks that are 64-bit numbers) not signed by the owner, all amounts, all signature schemes", "why_tests_cant": "the others may send any number of any packets; tests try a few orders of a few transactions", "anchors": ["solana-program/src/instructions/withdraw.rs:18-110", "solana-program/src/instructions/unstake.rs:20-130", "solana-program/src/instructions/stake.rs:20-120", "ts-scripts/withdraw.ts:60-175", "ts-scripts/unstake.ts:60-165"]}
