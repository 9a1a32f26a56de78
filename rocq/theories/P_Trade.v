(** Trading against the pool: C11, C12, C46.
    Only statements, one-line proofs, examples and [Print Assumptions]. *)
From Verif Require Import Spec Transaction BytesFacts HistoryFacts LifeFacts PoolMath TradeFacts EmptyFacts Demo DemoMore DemoStory Refuted.

(** ** C11 *)
(** Staking [a] and unstaking the xORCA received: at most [a] comes back, and what
    is lost is at most one unit plus the price of one unit of xORCA. *)
Theorem C11_round_trip_never_profits : forall C l o1 o2 sk vk a i accs1 t1 accs2 t2 k,
  ordinary_state_address C -> reaches C l -> is_state l sk -> is_vault C sk vk ->
  supply l <> 0 \/ free_orca l sk vk = 0 ->
  let l1 := fst (run_op C l o1) in let l2 := fst (run_op C l1 o2) in
  op_ok C l o1 -> performs C l o1 (Stake a) accs1 t1 ->
  op_ok C l1 o2 -> performs C l1 o2 (Unstake (supply l1 - supply l) i) accs2 t2 -> slot accs2 2 k ->
  rec_amount l2 k <= a /\
  (a - rec_amount l2 k - 1) * (supply l1 + 100) < free_orca l sk vk + 100.
Proof. exact stake_then_unstake. Qed.

Theorem C11_round_trip_quote : forall a ne s m w,
  is_u64 a -> is_u64 (ne + a) -> is_u64 (s + m) -> is_u64 ne -> is_u64 s -> live_pool ne s ->
  convert_orca_to_xorca a ne s = Ok m ->
  convert_xorca_to_orca m (ne + a) (s + m) = Ok w ->
  w <= a /\ (a - w - 1) * (s + m + 100) < ne + 100.
Proof. exact round_trip. Qed.

(** At stage 4 of the demo alice stakes 1000000 for 833336 xORCA and unstakes them
    for 999999. *)
Example C11_ex :
  reaches demo_crypto (demo 4) /\ is_state (demo 4) demo_state /\ is_vault demo_crypto demo_state demo_vault /\
  supply (demo 4) = 7500008 /\ free_orca (demo 4) demo_state demo_vault = 9000000 /\
  performs demo_crypto (tale 4 trade_story 0)
    (demo_call 1400 (stake_accs alice alice_orca alice_xorca) (Stake 1000000)) (Stake 1000000)
    (stake_accs alice alice_orca alice_xorca) 1400 /\
  supply (tale 4 trade_story 1) = 7500008 + 833336 /\
  performs demo_crypto (tale 4 trade_story 1)
    (demo_call 1400 (unstake_accs alice alice_xorca alice_record) (Unstake 833336 0)) (Unstake 833336 0)
    (unstake_accs alice alice_xorca alice_record) 1400 /\
  rec_amount (tale 4 trade_story 2) alice_record = 999999.
Proof.
  split; [apply demo_reaches|]. split; [see 4%nat|]. split; [exact demo_is_vault|].
  split; [see 4%nat|]. split; [see 4%nat|]. split; [tells 4%nat 0%nat 0%nat|]. split; [told 4%nat 0%nat 0%nat|].
  split; [tells 4%nat 0%nat 1%nat|told 4%nat 0%nat 1%nat].
Qed.

(** The condition on the pool is needed: when all xORCA is gone and ORCA is left,
    the claim is false. *)
Theorem C11_emptied_pool_refuted :
  ~ (forall C l o1 o2 sk vk a i accs1 t1 accs2 t2 k,
      ordinary_state_address C -> reaches C l -> is_state l sk -> is_vault C sk vk ->
      let l1 := fst (run_op C l o1) in let l2 := fst (run_op C l1 o2) in
      op_ok C l o1 -> performs C l o1 (Stake a) accs1 t1 ->
      op_ok C l1 o2 -> performs C l1 o2 (Unstake (supply l1 - supply l) i) accs2 t2 -> slot accs2 2 k ->
      rec_amount l2 k <= a).
Proof. exact round_trip_emptied. Qed.

(** ** C12 *)
Theorem C12_two_stakes : forall C l o1 o2 o sk vk a b accs1 t1 accs2 t2 accs t,
  ordinary_state_address C -> reaches C l -> is_state l sk -> is_vault C sk vk ->
  let l1 := fst (run_op C l o1) in let l2 := fst (run_op C l1 o2) in
  let l' := fst (run_op C l o) in
  op_ok C l o1 -> performs C l o1 (Stake a) accs1 t1 ->
  op_ok C l1 o2 -> performs C l1 o2 (Stake b) accs2 t2 ->
  op_ok C l o -> performs C l o (Stake (a + b)) accs t ->
  supply l2 <= supply l'.
Proof. exact stake_in_two. Qed.

Theorem C12_two_unstakes : forall C l o1 o2 o sk vk x y i1 i2 i accs1 t1 accs2 t2 accs t k1 k2 k,
  ordinary_state_address C -> reaches C l -> is_state l sk -> is_vault C sk vk ->
  let l1 := fst (run_op C l o1) in let l2 := fst (run_op C l1 o2) in
  let l' := fst (run_op C l o) in
  op_ok C l o1 -> performs C l o1 (Unstake x i1) accs1 t1 -> slot accs1 2 k1 ->
  op_ok C l1 o2 -> performs C l1 o2 (Unstake y i2) accs2 t2 -> slot accs2 2 k2 ->
  op_ok C l o -> performs C l o (Unstake (x + y) i) accs t -> slot accs 2 k ->
  rec_amount l1 k1 + rec_amount l2 k2 <= rec_amount l' k.
Proof. exact unstake_in_two. Qed.

Theorem C12_two_stakes_quote : forall a b ne s m1 m2 m,
  is_u64 a -> is_u64 b -> is_u64 (a + b) -> is_u64 ne -> is_u64 s ->
  is_u64 (ne + a) -> is_u64 (s + m1) -> 0 <= s <= ne ->
  convert_orca_to_xorca a ne s = Ok m1 ->
  convert_orca_to_xorca b (ne + a) (s + m1) = Ok m2 ->
  convert_orca_to_xorca (a + b) ne s = Ok m ->
  m1 + m2 <= m.
Proof. exact split_stake. Qed.

Theorem C12_two_unstakes_quote : forall x y ne s w1 w2 w,
  is_u64 x -> is_u64 y -> is_u64 (x + y) -> is_u64 ne -> is_u64 s ->
  is_u64 (ne - w1) -> x + y <= s ->
  convert_xorca_to_orca x ne s = Ok w1 ->
  convert_xorca_to_orca y (ne - w1) (s - x) = Ok w2 ->
  convert_xorca_to_orca (x + y) ne s = Ok w ->
  w1 + w2 <= w.
Proof. exact split_unstake. Qed.

(** 300000 then 700000 against 1000000: 8333343 < 8333344 xORCA, and
    359998 + 839997 < 1199996 ORCA. *)
Example C12_ex :
  reaches demo_crypto (demo 4) /\ is_state (demo 4) demo_state /\ is_vault demo_crypto demo_state demo_vault /\
  performs demo_crypto (tale 4 two_stakes 0)
    (demo_call 1400 (stake_accs alice alice_orca alice_xorca) (Stake 300000)) (Stake 300000)
    (stake_accs alice alice_orca alice_xorca) 1400 /\
  performs demo_crypto (tale 4 two_stakes 1)
    (demo_call 1400 (stake_accs alice alice_orca alice_xorca) (Stake 700000)) (Stake 700000)
    (stake_accs alice alice_orca alice_xorca) 1400 /\
  supply (tale 4 two_stakes 2) = 8333343 /\ supply (tale 4 trade_story 1) = 8333344 /\
  performs demo_crypto (tale 4 two_unstakes 0)
    (demo_call 2000 (unstake_accs alice alice_xorca alice_record) (Unstake 300000 0)) (Unstake 300000 0)
    (unstake_accs alice alice_xorca alice_record) 2000 /\
  performs demo_crypto (tale 4 two_unstakes 1)
    (demo_call 2000 (unstake_accs bob bob_xorca bob_record) (Unstake 700000 7)) (Unstake 700000 7)
    (unstake_accs bob bob_xorca bob_record) 2000 /\
  rec_amount (tale 4 two_unstakes 1) alice_record = 359998 /\
  rec_amount (tale 4 two_unstakes 2) bob_record = 839997 /\
  performs demo_crypto (demo 4) (demo_call 2000 (unstake_accs alice alice_xorca alice_record) (Unstake 1000000 0))
    (Unstake 1000000 0) (unstake_accs alice alice_xorca alice_record) 2000 /\
  rec_amount (demo 5) alice_record = 1199996.
Proof.
  split; [apply demo_reaches|]. split; [see 4%nat|]. split; [exact demo_is_vault|].
  split; [tells 4%nat 1%nat 0%nat|]. split; [tells 4%nat 1%nat 1%nat|]. split; [told 4%nat 1%nat 1%nat|].
  split; [told 4%nat 0%nat 0%nat|]. split; [tells 4%nat 2%nat 0%nat|]. split; [tells 4%nat 2%nat 1%nat|].
  split; [told 4%nat 2%nat 0%nat|]. split; [told 4%nat 2%nat 1%nat|]. split; [demo_call_ok 4%nat|see 5%nat].
Qed.

(** ** C46 *)
(** Anyone can burn xORCA held by an account of the incinerator. *)
Theorem C46_incinerated_xorca_burnable : forall C l sk k n E anyone,
  ordinary_state_address C -> reaches C l -> is_state l sk ->
  active_account l k xorca_mint_id incinerator_id -> is_u64 n -> n <= balance l k ->
  let l' := fst (run_op C l (OpToken E [] [] (TC_Burn k xorca_mint_id anyone n))) in
  supply l' = supply l - n /\ balance l' k = balance l k - n /\
  forall a, a <> k -> a <> xorca_mint_id -> l' a = l a.
Proof. exact incinerated_burnable. Qed.

(** math.rs:13-15: "the xORCA token supply can never become 0 again". *)
Theorem C46_supply_stays_positive_refuted :
  ~ (forall C l sk k ops l' evs,
      ordinary_state_address C -> reaches C l -> is_state l sk ->
      active_account l k xorca_mint_id incinerator_id -> 0 < balance l k ->
      history C l ops l' evs -> supply l' <> 0).
Proof. exact supply_to_zero. Qed.

(** With the supply at 0 the next staker mints 1:1 and can take the ORCA left
    behind, apart from the share of the 100 virtual units. *)
Theorem C46_residual_captured : forall C l o1 o2 sk vk a i accs1 t1 accs2 t2 k,
  ordinary_state_address C -> reaches C l -> is_state l sk -> is_vault C sk vk ->
  supply l = 0 ->
  let l1 := fst (run_op C l o1) in let l2 := fst (run_op C l1 o2) in
  op_ok C l o1 -> performs C l o1 (Stake a) accs1 t1 ->
  op_ok C l1 o2 -> performs C l1 o2 (Unstake a i) accs2 t2 -> slot accs2 2 k ->
  supply l1 = a /\ rec_amount l2 k = a + a * free_orca l sk vk / (a + 100).
Proof. exact emptied_capture. Qed.

(** bob's xORCA account is given to the incinerator and receives one unit; alice
    leaves; someone burns the unit; alice stakes 1000 for 1000 xORCA and gets 1020. *)
Example C46_ex :
  reaches demo_crypto (tale 3 burn_story 4) /\ is_state (tale 3 burn_story 4) demo_state /\
  active_account (tale 3 burn_story 4) bob_xorca xorca_mint_id incinerator_id /\
  balance (tale 3 burn_story 4) bob_xorca = 1 /\
  reaches demo_crypto (tale 3 burn_story 5) /\ is_state (tale 3 burn_story 5) demo_state /\
  supply (tale 3 burn_story 5) = 0 /\ free_orca (tale 3 burn_story 5) demo_state demo_vault = 22 /\
  performs demo_crypto (tale 3 burn_story 5)
    (demo_call 1400 (stake_accs alice alice_orca alice_xorca) (Stake 1000)) (Stake 1000)
    (stake_accs alice alice_orca alice_xorca) 1400 /\
  supply (tale 3 burn_story 6) = 1000 /\
  performs demo_crypto (tale 3 burn_story 6)
    (demo_call 1400 (unstake_accs alice alice_xorca alice_record) (Unstake 1000 0)) (Unstake 1000 0)
    (unstake_accs alice alice_xorca alice_record) 1400 /\
  rec_amount (tale 3 burn_story 7) alice_record = 1020.
Proof.
  split; [exact (tale_reaches 3 0 _ 4 eq_refl)|]. split; [told 3%nat 0%nat 3%nat|].
  split; [exact tale_incinerated|]. split; [told 3%nat 0%nat 3%nat|].
  split; [exact (tale_reaches 3 0 _ 5 eq_refl)|]. split; [told 3%nat 0%nat 4%nat|].
  split; [told 3%nat 0%nat 4%nat|]. split; [told 3%nat 0%nat 4%nat|]. split; [tells 3%nat 0%nat 5%nat|].
  split; [told 3%nat 0%nat 5%nat|]. split; [tells 3%nat 0%nat 6%nat|told 3%nat 0%nat 6%nat].
Qed.

Print Assumptions C11_round_trip_never_profits.
Print Assumptions C11_round_trip_quote.
Print Assumptions C12_two_stakes.
Print Assumptions C12_two_unstakes.
Print Assumptions C12_two_stakes_quote.
Print Assumptions C12_two_unstakes_quote.
Print Assumptions C46_incinerated_xorca_burnable.
Print Assumptions C46_residual_captured.
Print Assumptions C11_emptied_pool_refuted.
Print Assumptions C46_supply_stays_positive_refuted.
