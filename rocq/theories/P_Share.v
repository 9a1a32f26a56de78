(** The documented conversion (C73), rounding and gifts (C74).
    Only statements, one-line proofs, examples and [Print Assumptions]. *)
From Verif Require Import GuardSpec ShareSpec HistoryFacts PoolHistory DocFacts ShareFacts Demo DemoMore DemoStory DemoShare.
From Coq Require Import List Lia.
Import ListNotations.
Open Scope Z_scope.

(** ** C73 *)
(** solana-program/README.md, "Conversion Details (for integrators)", leaves out the 100 virtual
    units.  A stake mints at least the documented amount, and at most 100 a / (free + 100) + 1 more ... *)
Theorem C73_stake_quote : forall C l o a accs t sk vk,
  ordinary_state_address C -> reaches C l -> is_state l sk -> is_vault C sk vk -> op_ok C l o ->
  performs C l o (Stake a) accs t ->
  let minted := supply (fst (run_op C l o)) - supply l in
  let free := free_orca l sk vk in
  let quote := if (supply l =? 0) || (free =? 0) then a else a * supply l / free in
  quote <= minted /\
  (supply l <> 0 -> minted <= quote + 100 * a / (free + 100) + 1) /\
  (supply l = 0 \/ free = supply l -> minted = quote).
Proof. exact stake_quote. Qed.

(** ... and an unstake promises at most the documented amount, and at most
    100 (free - supply) / (supply + 100) + 1 less. *)
Theorem C73_unstake_quote : forall C l o x i accs t sk vk,
  ordinary_state_address C -> reaches C l -> is_state l sk -> is_vault C sk vk -> op_ok C l o ->
  performs C l o (Unstake x i) accs t ->
  let owed := escrow (fst (run_op C l o)) sk - escrow l sk in
  let free := free_orca l sk vk in
  let quote := x * free / supply l in
  0 < supply l <= free /\
  owed <= quote <= owed + 100 * (free - supply l) / (supply l + 100) + 1 /\
  (free = supply l -> owed = quote).
Proof. exact unstake_quote. Qed.

(** At 6 ORCA for 5 xORCA: 3 ORCA give 2.500008 xORCA (documented: 2.5); then 1 xORCA gives
    1.199996 ORCA (documented: 1.199998). *)
Example C73_quote_ex :
  performs demo_crypto (demo 3) (demo_call 1300 (stake_accs bob bob_orca bob_xorca) (Stake 3000000))
    (Stake 3000000) (stake_accs bob bob_orca bob_xorca) 1300 /\
  supply (demo 3) = 5000000 /\ free_orca (demo 3) demo_state demo_vault = 6000000 /\
  supply (demo 4) = 7500008 /\ 3000000 * 5000000 / 6000000 = 2500000 /\
  performs demo_crypto (demo 4) (demo_call 2000 (unstake_accs alice alice_xorca alice_record) (Unstake 1000000 0))
    (Unstake 1000000 0) (unstake_accs alice alice_xorca alice_record) 2000 /\
  free_orca (demo 4) demo_state demo_vault = 9000000 /\
  escrow (demo 4) demo_state = 0 /\ escrow (demo 5) demo_state = 1199996 /\
  1000000 * 9000000 / 7500008 = 1199998.
Proof.
  split; [demo_call_ok 3%nat|]. split; [see 3%nat|]. split; [see 3%nat|]. split; [see 4%nat|].
  split; [reflexivity|]. split; [demo_call_ok 4%nat|]. split; [see 4%nat|]. split; [see 4%nat|].
  split; [see 5%nat|reflexivity].
Qed.

(** The documented formulas are false: with 1000 ORCA for 1 xORCA, 1000 ORCA give 91 xORCA and not 1. *)
Theorem C73_stake_formula_refuted :
  ~ (forall C l o a accs t sk vk,
      ordinary_state_address C -> reaches C l -> is_state l sk -> is_vault C sk vk -> op_ok C l o ->
      performs C l o (Stake a) accs t -> supply l <> 0 -> free_orca l sk vk <> 0 ->
      supply (fst (run_op C l o)) - supply l = a * supply l / free_orca l sk vk).
Proof. exact stake_formula_wrong. Qed.
Theorem C73_unstake_formula_refuted :
  ~ (forall C l o x i accs t sk vk,
      ordinary_state_address C -> reaches C l -> is_state l sk -> is_vault C sk vk -> op_ok C l o ->
      performs C l o (Unstake x i) accs t ->
      escrow (fst (run_op C l o)) sk - escrow l sk = x * free_orca l sk vk / supply l).
Proof. exact unstake_formula_wrong. Qed.

(** The README lists six accounts for Initialize; a call with six accounts is always refused. *)
Theorem C73_initialize_accounts : forall C E accs l data c,
  encodes data (Initialize c) -> length accs = 6%nat ->
  process_instruction C E xorca_id accs l data = Err (ECustom 6003).
Proof. exact documented_initialize_accounts. Qed.

Example C73_initialize_ex : encodes (instruction_bytes (Initialize 100)) (Initialize 100) /\ length (firstn 6 (init_accs admin)) = 6%nat.
Proof. split; [apply instruction_encodes; cbn; unfold is_i64; lia|reflexivity]. Qed.

(** ** C74 *)
(** Rounding: when somebody stakes, a holder of [x] gains less than the price of one unit of xORCA (and a fraction) ... *)
Theorem C74_stake_rounding : forall C l o a accs t sk vk x,
  ordinary_state_address C -> reaches C l -> is_state l sk -> is_vault C sk vk -> op_ok C l o ->
  performs C l o (Stake a) accs t -> 0 < supply l -> 0 <= x <= supply l ->
  let l' := fst (run_op C l o) in
  worth l sk vk x <= worth l' sk vk x <= worth l sk vk x + worth l sk vk 1 + 1.
Proof. exact stake_rounding. Qed.

(** ... when somebody unstakes, at most one unit of ORCA. *)
Theorem C74_unstake_rounding : forall C l o y i accs t sk vk x,
  ordinary_state_address C -> reaches C l -> is_state l sk -> is_vault C sk vk -> op_ok C l o ->
  performs C l o (Unstake y i) accs t ->
  let l' := fst (run_op C l o) in
  0 <= x <= supply l' ->
  worth l sk vk x <= worth l' sk vk x <= worth l sk vk x + 1.
Proof. exact unstake_rounding. Qed.

Example C74_rounding_ex :
  worth (demo 3) demo_state demo_vault 4999999 = 5999978 /\ worth (demo 4) demo_state demo_vault 4999999 = 5999979 /\
  worth (demo 5) demo_state demo_vault 4999999 = 5999979 /\ worth (demo 3) demo_state demo_vault 1 = 1 /\
  supply (demo 5) = 6500008.
Proof.
  unfold worth. split; [see 3%nat|]. split; [see 4%nat|]. split; [see 5%nat|]. split; [see 3%nat|see 5%nat].
Qed.

(** Gifts are shared in proportion. *)
Theorem C74_gift_shared : forall C l ops l' evs sk vk x,
  ordinary_state_address C -> reaches C l -> is_state l sk -> is_vault C sk vk ->
  history C l ops l' evs -> no_trades C l ops -> supply l' = supply l -> 0 <= x ->
  let share := x * deposited_outside C vk l ops / (supply l + 100) in
  worth l sk vk x + share <= worth l' sk vk x <= worth l sk vk x + share + 1.
Proof. exact gift_shared. Qed.

(** Whoever stakes before gifts and burns and unstakes after them gets back at most the stake, a share of the
    gifts and a share of what was burned. *)
Theorem C74_sandwich : forall C l o1 a accs1 t1 ops l2 evs o2 i accs2 t2 sk vk k,
  ordinary_state_address C -> reaches C l -> is_state l sk -> is_vault C sk vk -> 0 < supply l ->
  op_ok C l o1 -> performs C l o1 (Stake a) accs1 t1 ->
  let l1 := fst (run_op C l o1) in
  let m := supply l1 - supply l in
  history C l1 ops l2 evs -> no_trades C l1 ops ->
  op_ok C l2 o2 -> performs C l2 o2 (Unstake m i) accs2 t2 -> slot accs2 2 k ->
  let owed := rec_amount (fst (run_op C l2 o2)) k in
  owed <= a + (m * deposited_outside C vk l1 ops + a * burned_outside C l1 ops) / (supply l2 + 100).
Proof. exact sandwich. Qed.

(** alice stakes 1 ORCA for 0.833336 of then 8.333344 xORCA, bob gives 1 ORCA, alice unstakes for 1.099998. *)
Example C74_gift_ex :
  reaches demo_crypto (demo 4) /\ is_state (demo 4) demo_state /\ is_vault demo_crypto demo_state demo_vault /\
  performs demo_crypto (tale 4 gift_story 0)
    (demo_call 1400 (stake_accs alice alice_orca alice_xorca) (Stake 1000000)) (Stake 1000000)
    (stake_accs alice alice_orca alice_xorca) 1400 /\
  supply (demo 4) = 7500008 /\ supply (tale 4 gift_story 1) = 8333344 /\
  (exists evs, history demo_crypto (tale 4 gift_story 1) (firstn 1 (skipn 1 gift_story)) (tale 4 gift_story 2) evs) /\
  no_trades demo_crypto (tale 4 gift_story 1) (firstn 1 (skipn 1 gift_story)) /\
  deposited_outside demo_crypto demo_vault (tale 4 gift_story 1) (firstn 1 (skipn 1 gift_story)) = 1000000 /\
  supply (tale 4 gift_story 2) = 8333344 /\
  worth (tale 4 gift_story 1) demo_state demo_vault 833336 = 999999 /\
  worth (tale 4 gift_story 2) demo_state demo_vault 833336 = 1099998 /\
  performs demo_crypto (tale 4 gift_story 2)
    (demo_call 1500 (unstake_accs alice alice_xorca alice_record) (Unstake 833336 0)) (Unstake 833336 0)
    (unstake_accs alice alice_xorca alice_record) 1500 /\
  rec_amount (tale 4 gift_story 3) alice_record = 1099998 /\
  1000000 + (833336 * 1000000 + 1000000 * 0) / (8333344 + 100) = 1099998.
Proof.
  split; [apply demo_reaches|]. split; [see 4%nat|]. split; [exact demo_is_vault|]. split; [tells 4%nat 4%nat 0%nat|].
  split; [see 4%nat|]. split; [told 4%nat 4%nat 0%nat|]. split; [exact gift_history|]. split; [apply gift_no_trades|].
  split; [exact (proj1 gift_amounts)|]. split; [told 4%nat 4%nat 1%nat|].
  unfold worth. split; [told 4%nat 4%nat 0%nat|]. split; [told 4%nat 4%nat 1%nat|].
  split; [tells 4%nat 4%nat 2%nat|]. split; [told 4%nat 4%nat 2%nat|reflexivity].
Qed.

Print Assumptions C73_stake_quote.
Print Assumptions C73_unstake_quote.
Print Assumptions C73_stake_formula_refuted.
Print Assumptions C73_unstake_formula_refuted.
Print Assumptions C73_initialize_accounts.
Print Assumptions C74_stake_rounding.
Print Assumptions C74_unstake_rounding.
Print Assumptions C74_gift_shared.
Print Assumptions C74_sandwich.
