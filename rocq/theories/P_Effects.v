(** Properties of single calls and transactions: C14-C19, C22, C24-C28, C38, C43, C44.
    Only statements, one-line proofs, examples and [Print Assumptions].  The
    vocabulary is in Spec.v; the examples use the executions of Demo.v and the
    extra calls of DemoMore.v. *)
From Verif Require Import Spec Transaction BytesFacts HistoryFacts LifeFacts RateFacts EffectFacts ClaimFacts
  EventFacts SlotFacts ExactFacts ConserveFacts FailFacts TransactionFacts RentFacts CommuteFacts Demo DemoMore.

(** ** C14 (success means at least one unit: see C15 and C16) *)
Theorem C14_stake_dust_refused : forall C l E accs data data' a a' sk vk,
  encodes data (Stake a) -> encodes data' (Stake a') -> a <= a' ->
  is_ok (process_instruction C E xorca_id accs l data') = true ->
  slot accs 5 sk -> slot accs 1 vk ->
  a = 0 \/ supply l <> 0 /\ free_orca l sk vk <> 0 /\ a * (supply l + 100) < free_orca l sk vk + 100 ->
  process_instruction C E xorca_id accs l data = Err (custom InsufficientStakeAmount).
Proof. exact stake_dust_call. Qed.

Theorem C14_unstake_dust_refused : forall C l E accs data data' x x' i sk vk,
  encodes data (Unstake x i) -> encodes data' (Unstake x' i) -> x <= x' ->
  is_ok (process_instruction C E xorca_id accs l data') = true ->
  slot accs 1 sk -> slot accs 6 vk ->
  x * (free_orca l sk vk + 100) < supply l + 100 ->
  process_instruction C E xorca_id accs l data = Err (custom InsufficientUnstakeAmount).
Proof. exact unstake_dust_call. Qed.

(** At stage 4 one unit of ORCA is worth less than one unit of xORCA, two are enough. *)
Example C14_ex :
  supply (demo 4) = 7500008 /\ free_orca (demo 4) demo_state demo_vault = 9000000 /\
  process_instruction demo_crypto (demo_env 1400) xorca_id (stake_accs alice alice_orca alice_xorca) (demo 4)
    (instruction_bytes (Stake 1)) = Err (custom InsufficientStakeAmount) /\
  is_ok (process_instruction demo_crypto (demo_env 1400) xorca_id (stake_accs alice alice_orca alice_xorca) (demo 4)
    (instruction_bytes (Stake 2))) = true /\
  process_instruction demo_crypto (demo_env 1400) xorca_id (unstake_accs alice alice_xorca alice_record) (demo 4)
    (instruction_bytes (Unstake 0 0)) = Err (custom InsufficientUnstakeAmount).
Proof.
  split; [see 4%nat|]. split; [see 4%nat|]. split; [probe 4%nat 0%nat|]. split; [probe 4%nat 1%nat|].
  probe 4%nat 2%nat.
Qed.

(** ** C15 *)
Theorem C15_stake_exact : forall C l E accs data a l' evs,
  honest_metas C accs -> encodes data (Stake a) ->
  process_instruction C E xorca_id accs l data = Ok (l', evs) ->
  exists staker vk so sx sk m,
    signed_slot accs 0 staker /\ slot accs 1 vk /\ slot accs 2 so /\ slot accs 3 sx /\ slot accs 5 sk /\
    is_state l sk /\ sk = state_address_with_bump C (st_bump (a_data (l sk))) /\
    vk = vault_address_with_bump C sk orca_mint_id (st_vault_bump (a_data (l sk))) /\
    token_account_of l so orca_mint_id staker /\ token_account_of l sx xorca_mint_id staker /\
    token_account_of l vk orca_mint_id sk /\
    (supply l = 0 \/ free_orca l sk vk = 0 -> m = a) /\
    (supply l <> 0 -> free_orca l sk vk <> 0 -> m = a * (supply l + 100) / (free_orca l sk vk + 100)) /\
    0 < m /\
    NoDup [so; vk; sx; xorca_mint_id] /\
    balance l' so = balance l so - a /\ balance l' vk = balance l vk + a /\
    balance l' sx = balance l sx + m /\ supply l' = supply l + m /\
    same_bytes_except (spend_fields l so staker) (a_data (l so)) (a_data (l' so)) /\
    same_bytes_except [amount_field] (a_data (l vk)) (a_data (l' vk)) /\
    same_bytes_except [amount_field] (a_data (l sx)) (a_data (l' sx)) /\
    same_bytes_except [supply_field] (a_data (l xorca_mint_id)) (a_data (l' xorca_mint_id)) /\
    (forall k, a_owner (l' k) = a_owner (l k)) /\
    (forall k, ~ In k [so; vk; sx; xorca_mint_id] -> a_data (l' k) = a_data (l k)) /\
    (ordinary l so -> forall k, a_lamports (l' k) = a_lamports (l k)) /\
    evs = [event_bytes (EvStake a (balance l' vk) (escrow l' sk) (supply l') m)].
Proof. exact stake_exact_at. Qed.

Theorem C15_stake_keeps_state : forall C l E accs data a l' evs,
  honest_metas C accs -> encodes data (Stake a) ->
  process_instruction C E xorca_id accs l data = Ok (l', evs) ->
  forall k, a_owner (l k) <> token_id -> a_data (l' k) = a_data (l k).
Proof. exact stake_keeps_state. Qed.

(** bob stakes 3 ORCA when 6 ORCA back 5 xORCA. *)
Example C15_ex :
  performs demo_crypto (demo 3) (demo_call 1300 (stake_accs bob bob_orca bob_xorca) (Stake 3000000))
    (Stake 3000000) (stake_accs bob bob_orca bob_xorca) 1300 /\
  honest_metas demo_crypto (stake_accs bob bob_orca bob_xorca) /\
  balance (demo 3) demo_vault = 6000000 /\ balance (demo 4) demo_vault = 9000000 /\
  balance (demo 3) bob_orca = 9000000 /\ balance (demo 4) bob_orca = 6000000 /\
  balance (demo 3) bob_xorca = 0 /\ balance (demo 4) bob_xorca = 2500008 /\
  supply (demo 3) = 5000000 /\ supply (demo 4) = 7500008 /\
  3000000 * (5000000 + 100) / (6000000 + 100) = 2500008.
Proof.
  split; [demo_call_ok 3%nat|]. split; [apply (demo_op_ok 3 _ eq_refl (demo 3))|].
  do 4 (split; [see 3%nat|]; split; [see 4%nat|]). reflexivity.
Qed.

(** ** C16 *)
Theorem C16_unstake_exact : forall C l E accs data x i l' evs,
  sysvars_ok E -> honest_metas C accs -> encodes data (Unstake x i) ->
  process_instruction C E xorca_id accs l data = Ok (l', evs) ->
  exists un sk k ux vk w,
    signed_slot accs 0 un /\ slot accs 1 sk /\ slot accs 2 k /\ slot accs 3 ux /\ slot accs 6 vk /\
    is_state l sk /\ sk = state_address_with_bump C (st_bump (a_data (l sk))) /\
    vk = vault_address_with_bump C sk orca_mint_id (st_vault_bump (a_data (l sk))) /\
    token_account_of l ux xorca_mint_id un /\ reads_as_account l vk orca_mint_id sk /\
    (exists b, find_pending_withdraw_address C un i = Some (k, b)) /\
    a_owner (l k) = system_id /\ a_data (l k) = [] /\
    supply l <> 0 /\ free_orca l sk vk <> 0 /\
    w = x * (free_orca l sk vk + 100) / (supply l + 100) /\ 0 < w /\
    NoDup [ux; xorca_mint_id; sk; k; vk] /\ un <> k /\
    balance l' ux = balance l ux - x /\ supply l' = supply l - x /\
    escrow l' sk = escrow l sk + w /\ balance l' vk = balance l vk /\
    a_owner (l' k) = xorca_id /\ length (a_data (l' k)) = 1024%nat /\ is_record l' k /\
    rec_owner l' k = un /\ rec_index l' k = i /\ rec_amount l' k = w /\
    rec_time l' k = now E + cooldown l sk /\
    a_lamports (l' k) = Z.max (rent_min E 1024) (a_lamports (l k)) /\
    a_lamports (l' un) = a_lamports (l un) - Z.max 0 (rent_min E 1024 - a_lamports (l k)) /\
    same_bytes_except (spend_fields l ux un) (a_data (l ux)) (a_data (l' ux)) /\
    same_bytes_except [supply_field] (a_data (l xorca_mint_id)) (a_data (l' xorca_mint_id)) /\
    same_bytes_except [escrow_field] (a_data (l sk)) (a_data (l' sk)) /\
    (forall a, a <> k -> a_owner (l' a) = a_owner (l a)) /\
    (forall a, ~ In a [ux; xorca_mint_id; sk; k] -> a_data (l' a) = a_data (l a)) /\
    (forall a, a <> k -> a <> un -> a_lamports (l' a) = a_lamports (l a)) /\
    evs = [event_bytes (EvUnstake x (balance l' vk) (escrow l' sk) (supply l') w (cooldown l' sk) i)].
Proof. exact unstake_exact_at. Qed.

(** alice unstakes 1 xORCA, worth 1.199996 ORCA, at 2000 with cooldown 100. *)
Example C16_ex :
  performs demo_crypto (demo 4) (demo_call 2000 (unstake_accs alice alice_xorca alice_record) (Unstake 1000000 0))
    (Unstake 1000000 0) (unstake_accs alice alice_xorca alice_record) 2000 /\
  op_ok demo_crypto (demo 4) (demo_call 2000 (unstake_accs alice alice_xorca alice_record) (Unstake 1000000 0)) /\
  balance (demo 4) alice_xorca = 5000000 /\ balance (demo 5) alice_xorca = 4000000 /\
  supply (demo 4) = 7500008 /\ supply (demo 5) = 6500008 /\
  escrow (demo 4) demo_state = 0 /\ escrow (demo 5) demo_state = 1199996 /\
  1000000 * (9000000 + 100) / (7500008 + 100) = 1199996 /\
  is_record (demo 5) alice_record /\ rec_owner (demo 5) alice_record = alice /\
  rec_index (demo 5) alice_record = 0 /\ rec_amount (demo 5) alice_record = 1199996 /\
  rec_time (demo 5) alice_record = 2100 /\
  a_lamports (demo 4 alice) = 10000000000 /\ a_lamports (demo 5 alice) = 10000000000 - 8017920 /\
  a_lamports (demo 5 alice_record) = 8017920 /\
  rent_min (demo_env 2000) 1024 = 8017920.
Proof.
  split; [demo_call_ok 4%nat|]. split; [apply (demo_op_ok 4 _ eq_refl)|].
  split; [see 4%nat|]. split; [see 5%nat|]. split; [see 4%nat|]. split; [see 5%nat|].
  split; [see 4%nat|]. split; [see 5%nat|]. split; [reflexivity|].
  do 5 (split; [see 5%nat|]). split; [see 4%nat|]. split; [see 5%nat|]. split; [see 5%nat|reflexivity].
Qed.

(** ** C17 *)
Theorem C17_withdraw_exact : forall C l E accs data i l' evs,
  honest_metas C accs -> encodes data (Withdraw i) ->
  process_instruction C E xorca_id accs l data = Ok (l', evs) ->
  exists un sk k uo vk,
    signed_slot accs 0 un /\ slot accs 1 sk /\ slot accs 2 k /\ slot accs 3 uo /\ slot accs 4 vk /\
    is_state l sk /\ sk = state_address_with_bump C (st_bump (a_data (l sk))) /\
    vk = vault_address_with_bump C sk orca_mint_id (st_vault_bump (a_data (l sk))) /\ is_record l k /\ rec_time l k <= now E /\
    k = pending_address_with_bump C un i (pw_bump (a_data (l k))) /\
    token_account_of l uo orca_mint_id un /\ token_account_of l vk orca_mint_id sk /\
    NoDup [vk; uo; sk; k] /\
    balance l' vk = balance l vk - rec_amount l k /\
    balance l' uo = balance l uo + rec_amount l k /\
    escrow l' sk = escrow l sk - rec_amount l k /\
    a_lamports (l' k) = 0 /\ a_owner (l' k) = system_id /\ a_data (l' k) = [] /\
    same_bytes_except (spend_fields l vk sk) (a_data (l vk)) (a_data (l' vk)) /\
    same_bytes_except [amount_field] (a_data (l uo)) (a_data (l' uo)) /\
    same_bytes_except [escrow_field] (a_data (l sk)) (a_data (l' sk)) /\
    (forall a, a <> k -> a_owner (l' a) = a_owner (l a)) /\
    (forall a, ~ In a [vk; uo; sk; k] -> a_data (l' a) = a_data (l a)) /\
    (ordinary l vk ->
       (un <> k -> a_lamports (l' un) = a_lamports (l un) + a_lamports (l k)) /\
       forall a, a <> k -> a <> un -> a_lamports (l' a) = a_lamports (l a)) /\
    evs = [event_bytes (EvWithdraw (escrow l' sk) (rec_amount l k) (cooldown l' sk) i)].
Proof. exact withdraw_exact_at. Qed.

Example C17_ex :
  performs demo_crypto (demo 9) (demo_call 2100 (withdraw_accs alice alice_orca alice_record) (Withdraw 0))
    (Withdraw 0) (withdraw_accs alice alice_orca alice_record) 2100 /\
  op_ok demo_crypto (demo 9) (demo_call 2100 (withdraw_accs alice alice_orca alice_record) (Withdraw 0)) /\
  rec_amount (demo 9) alice_record = 1199996 /\
  balance (demo 9) demo_vault = 9000000 /\ balance (demo 10) demo_vault = 7800004 /\
  balance (demo 9) alice_orca = 15000000 /\ balance (demo 10) alice_orca = 16199996 /\
  escrow (demo 9) demo_state = 1799994 /\ escrow (demo 10) demo_state = 599998 /\
  ~ is_record (demo 10) alice_record.
Proof.
  split; [demo_call_ok 9%nat|]. split; [apply (demo_op_ok 9 _ eq_refl)|]. split; [see 9%nat|].
  split; [see 9%nat|]. split; [see 10%nat|]. split; [see 9%nat|]. split; [see 10%nat|].
  split; [see 9%nat|]. split; see 10%nat.
Qed.

(** ** C18 *)
Theorem C18_set_exact : forall C l E accs data u l' evs,
  encodes data (Set_ u) ->
  process_instruction C E xorca_id accs l data = Ok (l', evs) ->
  exists sk,
    slot accs 1 sk /\ is_state l sk /\ sk = state_address_with_bump C (st_bump (a_data (l sk))) /\ signed_slot accs 0 (authority l sk) /\
    (forall a, a_owner (l' a) = a_owner (l a) /\ a_lamports (l' a) = a_lamports (l a)) /\
    (forall a, a <> sk -> a_data (l' a) = a_data (l a)) /\
    match u with
    | UpdateCoolDownPeriod c =>
        0 <= c /\ cooldown l' sk = c /\
        same_bytes_except [cooldown_field] (a_data (l sk)) (a_data (l' sk)) /\ evs = []
    | UpdateUpdateAuthority a =>
        authority l' sk = a /\
        same_bytes_except [authority_field] (a_data (l sk)) (a_data (l' sk)) /\
        evs = [event_bytes (EvUpdateAuthoritySet (authority l' sk) (authority l sk))]
    end.
Proof. exact set_exact_at. Qed.

(** admin may change the cooldown; bob may not; a negative cooldown is refused;
    after handing over, admin may not either. *)
Example C18_ex :
  performs demo_crypto (demo 5) (demo_call 2001 (set_accs admin) (Set_ (UpdateCoolDownPeriod 50)))
    (Set_ (UpdateCoolDownPeriod 50)) (set_accs admin) 2001 /\
  authority (demo 5) demo_state = admin /\
  cooldown (demo 5) demo_state = 100 /\ cooldown (demo 6) demo_state = 50 /\
  process_instruction demo_crypto (demo_env 2001) xorca_id (set_accs bob) (demo 5)
    (instruction_bytes (Set_ (UpdateCoolDownPeriod 50))) = Err (custom IncorrectAccountAddress) /\
  process_instruction demo_crypto (demo_env 2001) xorca_id (set_accs admin) (demo 5)
    (instruction_bytes (Set_ (UpdateCoolDownPeriod (-1)))) = Err (custom InvalidCoolDownPeriod) /\
  authority (demo 11) demo_state = admin2 /\
  process_instruction demo_crypto (demo_env 2300) xorca_id (set_accs admin) (demo 11)
    (instruction_bytes (Set_ (UpdateCoolDownPeriod 10))) = Err (custom IncorrectAccountAddress).
Proof.
  split; [demo_call_ok 5%nat|]. split; [see 5%nat|]. split; [see 5%nat|]. split; [see 6%nat|].
  split; [probe 5%nat 0%nat|]. split; [probe 5%nat 1%nat|]. split; [see 11%nat|probe 11%nat 0%nat].
Qed.

(** ** C19 (at most once: see P_History.v) *)
Theorem C19_initialize_exact : forall C l E accs data c l' evs,
  sysvars_ok E -> honest_metas C accs -> encodes data (Initialize c) ->
  process_instruction C E xorca_id accs l data = Ok (l', evs) ->
  exists sk vk au sb vb,
    signed_slot accs 0 deployer_address /\ signed_slot accs 1 au /\ slot accs 2 sk /\ slot accs 3 vk /\
    find_state_address C = Some (sk, sb) /\
    find_vault_address C sk token_id orca_mint_id = Some (vk, vb) /\ sk <> vk /\
    a_owner (l sk) = system_id /\ a_data (l sk) = [] /\
    a_owner (l vk) = system_id /\ a_data (l vk) = [] /\
    supply l = 0 /\ mint_auth_flag (a_data (l xorca_mint_id)) = 1 /\
    mint_auth (a_data (l xorca_mint_id)) = sk /\ mint_freeze_flag (a_data (l xorca_mint_id)) = 0 /\
    mint_decimals (a_data (l xorca_mint_id)) = 6 /\ mint_decimals (a_data (l orca_mint_id)) = 6 /\
    0 <= c /\
    is_state l' sk /\ length (a_data (l' sk)) = 2048%nat /\
    st_bump (a_data (l' sk)) = byte_to_Z sb /\ st_vault_bump (a_data (l' sk)) = byte_to_Z vb /\
    escrow l' sk = 0 /\ cooldown l' sk = c /\ authority l' sk = au /\
    token_account_of l' vk orca_mint_id sk /\ balance l' vk = 0 /\ ordinary l' vk /\
    ta_delegate_flag (a_data (l' vk)) = 0 /\
    a_lamports (l' sk) = Z.max (rent_min E 2048) (a_lamports (l sk)) /\
    (deployer_address <> vk -> 0 <= a_lamports (l vk) ->
       a_lamports (l' vk) = Z.max (Z.max 1 (rent_min E 165)) (a_lamports (l vk)) /\
       a_lamports (l' deployer_address) = a_lamports (l deployer_address)
         - Z.max 0 (rent_min E 2048 - a_lamports (l sk))
         - Z.max 0 (Z.max 1 (rent_min E 165) - a_lamports (l vk))) /\
    (forall a, a <> sk -> a <> vk -> a_owner (l' a) = a_owner (l a) /\ a_data (l' a) = a_data (l a)) /\
    (forall a, a <> sk -> a <> vk -> a <> deployer_address -> a_lamports (l' a) = a_lamports (l a)) /\
    evs = [].
Proof. exact init_exact. Qed.

(** alice cannot initialize; the deployer can; nobody can a second time. *)
Example C19_effect_ex :
  performs demo_crypto (demo 0) (demo_call 1000 (init_accs admin) (Initialize 100))
    (Initialize 100) (init_accs admin) 1000 /\
  op_ok demo_crypto (demo 0) (demo_call 1000 (init_accs admin) (Initialize 100)) /\
  process_instruction demo_crypto (demo_env 950) xorca_id
    [ws alice; ws admin; w_ demo_state; w_ demo_vault; r_ xorca_mint_id; r_ orca_mint_id; r_ system_id;
     r_ token_id; r_ ata_id] (demo 0)
    (instruction_bytes (Initialize 100)) = Err (custom UnauthorizedDeployerAccess) /\
  is_state (demo 1) demo_state /\ escrow (demo 1) demo_state = 0 /\ cooldown (demo 1) demo_state = 100 /\
  authority (demo 1) demo_state = admin /\ balance (demo 1) demo_vault = 0 /\
  process_instruction demo_crypto (demo_env 1050) xorca_id (init_accs admin) (demo 1)
    (instruction_bytes (Initialize 100)) = Err (custom StateAccountAlreadyInitialized).
Proof.
  split; [demo_call_ok 0%nat|]. split; [apply (demo_op_ok 0 _ eq_refl)|]. split; [probe 0%nat 1%nat|].
  do 5 (split; [see 1%nat|]). probe 1%nat 0%nat.
Qed.

(** ** C22 *)
Theorem C22_failed_step_changes_nothing : forall C l o e,
  attempt C l o = Err e -> run_op C l o = (l, []).
Proof. exact failed_step. Qed.

Theorem C22_transaction_all_or_nothing : forall C l ops,
  (exists e, attempt_all C l ops = Err e /\ transaction C l ops = (l, [])) \/
  (transaction C l ops = (after C l ops, snd (transaction C l ops)) /\
   forall n o, nth_error ops n = Some o -> exists r, attempt C (after C l (firstn n ops)) o = Ok r).
Proof. exact all_or_nothing. Qed.

Theorem C22_transactions_reach : forall C l0 txs l evs,
  genesis C l0 -> tx_history C l0 txs l evs -> reaches C l.
Proof. exact tx_reaches. Qed.

(** A transaction that withdraws the same claim twice fails as a whole; one that
    withdraws it and hands over the authority succeeds. *)
Example C22_ex :
  let pay := demo_call 2100 (withdraw_accs alice alice_orca alice_record) (Withdraw 0) in
  let hand_over := demo_call 2200 (set_accs admin) (Set_ (UpdateUpdateAuthority admin2)) in
  transaction demo_crypto (demo 9) [pay; pay] = (demo 9, []) /\
  fst (transaction demo_crypto (demo 9) [pay; hand_over]) = demo 11.
Proof.
  cbv zeta. split.
  - eapply tx_second_fails; [eapply (demo_step_ok 9); [reflexivity|reflexivity|exact I]|].
    probe_attempt 10%nat 1%nat.
  - eapply tx_two; [eapply (demo_step_ok 9); [reflexivity|reflexivity|exact I]|].
    eapply (demo_step_ok 10); [reflexivity|reflexivity|exact I].
Qed.

(** ** C24 *)
Theorem C24_stake_accounts : forall C l E accs data a l' evs,
  honest_metas C accs -> encodes data (Stake a) ->
  process_instruction C E xorca_id accs l data = Ok (l', evs) ->
  exists staker vk so sx sk,
    fills accs (stake_roles staker vk so sx sk) /\
    is_state l sk /\ sk = state_address_with_bump C (st_bump (a_data (l sk))) /\
    vk = vault_address_with_bump C sk orca_mint_id (st_vault_bump (a_data (l sk))) /\
    token_account_of l vk orca_mint_id sk /\
    token_account_of l so orca_mint_id staker /\ token_account_of l sx xorca_mint_id staker.
Proof. exact stake_slots. Qed.

Theorem C24_unstake_accounts : forall C l E accs data x i l' evs,
  sysvars_ok E -> honest_metas C accs -> encodes data (Unstake x i) ->
  process_instruction C E xorca_id accs l data = Ok (l', evs) ->
  exists un sk k ux vk,
    fills accs (unstake_roles un sk k ux vk) /\
    is_state l sk /\ sk = state_address_with_bump C (st_bump (a_data (l sk))) /\
    vk = vault_address_with_bump C sk orca_mint_id (st_vault_bump (a_data (l sk))) /\
    (exists b, find_pending_withdraw_address C un i = Some (k, b)) /\
    a_owner (l k) = system_id /\ a_data (l k) = [] /\
    reads_as_account l vk orca_mint_id sk /\ token_account_of l ux xorca_mint_id un.
Proof. exact unstake_slots. Qed.

Theorem C24_withdraw_accounts : forall C l E accs data i l' evs,
  honest_metas C accs -> encodes data (Withdraw i) ->
  process_instruction C E xorca_id accs l data = Ok (l', evs) ->
  exists un sk k uo vk,
    fills accs (withdraw_roles un sk k uo vk) /\
    is_state l sk /\ sk = state_address_with_bump C (st_bump (a_data (l sk))) /\
    vk = vault_address_with_bump C sk orca_mint_id (st_vault_bump (a_data (l sk))) /\
    is_record l k /\ k = pending_address_with_bump C un i (pw_bump (a_data (l k))) /\
    token_account_of l vk orca_mint_id sk /\ token_account_of l uo orca_mint_id un.
Proof. exact withdraw_slots. Qed.

Theorem C24_initialize_accounts : forall C l E accs data c l' evs,
  sysvars_ok E -> honest_metas C accs -> encodes data (Initialize c) ->
  process_instruction C E xorca_id accs l data = Ok (l', evs) ->
  exists au sk vk sb vb,
    fills accs (init_roles deployer_address au sk vk) /\
    find_state_address C = Some (sk, sb) /\
    find_vault_address C sk token_id orca_mint_id = Some (vk, vb).
Proof. exact init_slots. Qed.

Theorem C24_set_accounts : forall C l E accs data u l' evs,
  encodes data (Set_ u) ->
  process_instruction C E xorca_id accs l data = Ok (l', evs) ->
  exists sk,
    fills accs (set_roles (authority l sk) sk) /\
    is_state l sk /\ sk = state_address_with_bump C (st_bump (a_data (l sk))).
Proof. exact set_slots. Qed.

Theorem C24_unique_state_and_vault : forall C l o i accs t sk vk,
  ordinary_state_address C -> reaches C l -> is_state l sk -> is_vault C sk vk -> op_ok C l o ->
  performs C l o i accs t ->
  match i with
  | Stake _ => slot accs 1 vk /\ slot accs 5 sk
  | Unstake _ _ => slot accs 1 sk /\ slot accs 6 vk
  | Withdraw _ => slot accs 1 sk /\ slot accs 4 vk
  | Initialize _ => False
  | Set_ _ => slot accs 1 sk
  end.
Proof. exact call_slots. Qed.

(** Another user's account as source, or the vault itself as source, is refused. *)
Example C24_ex :
  process_instruction demo_crypto (demo_env 1400) xorca_id (stake_accs alice bob_orca alice_xorca) (demo 4)
    (instruction_bytes (Stake 2)) = Err (custom InvalidAccountData) /\
  process_instruction demo_crypto (demo_env 1400) xorca_id (stake_accs alice demo_vault alice_xorca) (demo 4)
    (instruction_bytes (Stake 2)) = Err (custom InvalidAccountData) /\
  process_instruction demo_crypto (demo_env 2100) xorca_id (withdraw_accs bob bob_orca alice_record) (demo 9)
    (instruction_bytes (Withdraw 0)) = Err (custom InvalidSeeds).
Proof. split; [probe 4%nat 4%nat|]. split; [probe 4%nat 3%nat|probe 9%nat 2%nat]. Qed.

(** ** C25 *)
Theorem C25_conservation : forall C l E accs data l' evs ks,
  ordinary_state_address C -> deployer_has_key C -> reaches C l -> op_ok C l (OpCall E accs data) ->
  process_instruction C E xorca_id accs l data = Ok (l', evs) -> covers ks accs ->
  lamport_total l' ks = lamport_total l ks /\
  total l' orca_mint_id ks = total l orca_mint_id ks /\
  total l' xorca_mint_id ks - total l xorca_mint_id ks = supply l' - supply l.
Proof. exact call_conserves. Qed.

(** alice's withdrawal: ORCA moves from the vault to her account, lamports from
    the record to her. *)
Example C25_ex :
  deployer_has_key demo_crypto /\
  covers [alice; demo_state; alice_record; alice_orca; demo_vault; orca_mint_id; system_id; token_id]
    (withdraw_accs alice alice_orca alice_record) /\
  balance (demo 9) demo_vault + balance (demo 9) alice_orca = 24000000 /\
  balance (demo 10) demo_vault + balance (demo 10) alice_orca = 24000000 /\
  a_lamports (demo 9 alice) + a_lamports (demo 9 alice_record) = 10000000000 /\
  a_lamports (demo 10 alice) + a_lamports (demo 10 alice_record) = 10000000000.
Proof.
  split; [reflexivity|]. split; [apply demo_covers|].
  split; [see 9%nat|]. split; [see 10%nat|]. split; [see 9%nat|see 10%nat].
Qed.

(** ** C26 *)
Theorem C26_unstake_charge : forall C l o sk x i accs t un k,
  ordinary_state_address C -> reaches C l -> is_state l sk ->
  op_ok C l o -> performs C l o (Unstake x i) accs t -> slot accs 0 un -> slot accs 2 k ->
  exists E data, o = OpCall E accs data /\
    let l' := fst (run_op C l o) in
    un <> k /\
    a_lamports (l' un) = a_lamports (l un) - Z.max 0 (rent_min E 1024 - a_lamports (l k)) /\
    a_lamports (l' k) = Z.max (rent_min E 1024) (a_lamports (l k)).
Proof. exact unstake_rent. Qed.

Theorem C26_withdraw_returns : forall C l o sk i accs t un k,
  ordinary_state_address C -> reaches C l -> is_state l sk ->
  op_ok C l o -> performs C l o (Withdraw i) accs t -> slot accs 0 un -> slot accs 2 k ->
  let l' := fst (run_op C l o) in
  a_lamports (l' un) = a_lamports (l un) + a_lamports (l k) /\ a_lamports (l' k) = 0.
Proof. exact withdraw_rent. Qed.

Theorem C26_round_trip : forall C l o1 sk x i accs1 t1 un k ops l2 evs o2 j accs2 t2,
  ordinary_state_address C -> reaches C l -> is_state l sk ->
  op_ok C l o1 -> performs C l o1 (Unstake x i) accs1 t1 -> slot accs1 0 un -> slot accs1 2 k ->
  let l1 := fst (run_op C l o1) in
  history C l1 ops l2 evs -> unchanged_during C l1 ops k ->
  op_ok C l2 o2 -> performs C l2 o2 (Withdraw j) accs2 t2 -> slot accs2 0 un -> slot accs2 2 k ->
  let l3 := fst (run_op C l2 o2) in
  exists E data, o1 = OpCall E accs1 data /\
    a_lamports (l un) - a_lamports (l1 un) = Z.max 0 (rent_min E 1024 - a_lamports (l k)) /\
    a_lamports (l1 k) = Z.max (rent_min E 1024) (a_lamports (l k)) /\
    a_lamports (l1 k) <= a_lamports (l2 k) /\
    a_lamports (l3 un) - a_lamports (l2 un) = a_lamports (l2 k) /\ a_lamports (l3 k) = 0.
Proof. exact rent_round_trip. Qed.

(** bob's record address held 7 lamports before, so bob pays 7 less. *)
Example C26_ex :
  a_lamports (demo 7 bob_record) = 7 /\
  a_lamports (demo 7 bob) = 9999999993 /\ a_lamports (demo 8 bob) = 9999999993 - (8017920 - 7) /\
  a_lamports (demo 8 bob_record) = 8017920 /\
  a_lamports (demo 9 alice) = 9991982080 /\ a_lamports (demo 10 alice) = 9991982080 + 8017920.
Proof.
  split; [see 7%nat|]. split; [see 7%nat|]. split; [see 8%nat|]. split; [see 8%nat|].
  split; [see 9%nat|see 10%nat].
Qed.

(** ** C28 *)
Theorem C28_stake_event : forall C l E accs data a l' evs,
  honest_metas C accs -> encodes data (Stake a) ->
  process_instruction C E xorca_id accs l data = Ok (l', evs) ->
  exists b vk sk, evs = [b] /\ slot accs 1 vk /\ slot accs 5 sk /\
    logs b (EvStake a (balance l' vk) (escrow l' sk) (supply l') (supply l' - supply l)).
Proof. exact stake_event_true. Qed.

Theorem C28_unstake_event : forall C l E accs data x i l' evs,
  sysvars_ok E -> honest_metas C accs -> encodes data (Unstake x i) ->
  process_instruction C E xorca_id accs l data = Ok (l', evs) ->
  exists b k vk sk, evs = [b] /\ slot accs 1 sk /\ slot accs 2 k /\ slot accs 6 vk /\
    logs b (EvUnstake x (balance l' vk) (escrow l' sk) (supply l') (rec_amount l' k) (cooldown l' sk) i).
Proof. exact unstake_event_true. Qed.

Theorem C28_withdraw_event : forall C l E accs data i l' evs,
  honest_metas C accs -> encodes data (Withdraw i) ->
  process_instruction C E xorca_id accs l data = Ok (l', evs) ->
  exists b k sk, evs = [b] /\ slot accs 1 sk /\ slot accs 2 k /\
    logs b (EvWithdraw (escrow l' sk) (rec_amount l k) (cooldown l' sk) i).
Proof. exact withdraw_event_true. Qed.

Theorem C28_set_event : forall C l E accs data u l' evs,
  encodes data (Set_ u) ->
  process_instruction C E xorca_id accs l data = Ok (l', evs) ->
  match u with
  | UpdateCoolDownPeriod _ => evs = []
  | UpdateUpdateAuthority k =>
      exists b sk, evs = [b] /\ slot accs 1 sk /\ authority l' sk = k /\
        logs b (EvUpdateAuthoritySet k (authority l sk))
  end.
Proof. exact set_event_true. Qed.

Theorem C28_initialize_no_event : forall C l E accs data c l' evs,
  sysvars_ok E -> honest_metas C accs -> encodes data (Initialize c) ->
  process_instruction C E xorca_id accs l data = Ok (l', evs) -> evs = [].
Proof. exact init_event_none. Qed.

Example C28_ex :
  snd (run_op demo_crypto (demo 3) (demo_call 1300 (stake_accs bob bob_orca bob_xorca) (Stake 3000000)))
    = [event_bytes (EvStake 3000000 9000000 0 7500008 2500008)] /\
  snd (run_op demo_crypto (demo 9) (demo_call 2100 (withdraw_accs alice alice_orca alice_record) (Withdraw 0)))
    = [event_bytes (EvWithdraw 599998 1199996 50 0)] /\
  snd (run_op demo_crypto (demo 8) (demo_call 2099 (withdraw_accs alice alice_orca alice_record) (Withdraw 0)))
    = [].
Proof.
  split; [exact (proj1 (demo_does 3 _ _ _ _ eq_refl eq_refl))|].
  split; [exact (proj1 (demo_does 9 _ _ _ _ eq_refl eq_refl))|exact (proj1 (demo_does 8 _ _ _ _ eq_refl eq_refl))].
Qed.

(** ** C38 *)
Theorem C38_defensive_errors : forall C l E accs data,
  ordinary_state_address C -> reaches C l -> op_ok C l (OpCall E accs data) ->
  (forall a, encodes data (Stake a) ->
     process_instruction C E xorca_id accs l data <> Err (custom InsufficientVaultBacking)) /\
  (forall x i, encodes data (Unstake x i) ->
     process_instruction C E xorca_id accs l data <> Err (custom InsufficientVaultBacking)) /\
  (forall i, encodes data (Withdraw i) ->
     process_instruction C E xorca_id accs l data <> Err (custom InsufficientEscrow)).
Proof. exact defensive_errors. Qed.

Theorem C38_holder_never_meets_empty_pool : forall C l sk vk E accs data x i ux un,
  ordinary_state_address C -> reaches C l -> is_state l sk -> is_vault C sk vk ->
  op_ok C l (OpCall E accs data) -> encodes data (Unstake x i) ->
  slot accs 3 ux -> token_account_of l ux xorca_mint_id un -> 0 < balance l ux ->
  (0 < supply l /\ 0 < free_orca l sk vk) /\
  (balance l vk < 2 ^ 63 ->
   process_instruction C E xorca_id accs l data <> Err (custom ArithmeticError)).
Proof. exact holder_no_arithmetic_error. Qed.

Theorem C38_staker_no_arithmetic_error : forall C l sk vk E accs data a,
  ordinary_state_address C -> reaches C l -> is_state l sk -> is_vault C sk vk ->
  op_ok C l (OpCall E accs data) -> encodes data (Stake a) ->
  a < 2 ^ 63 -> balance l vk < 2 ^ 63 ->
  process_instruction C E xorca_id accs l data <> Err (custom ArithmeticError).
Proof. exact staker_no_arithmetic_error. Qed.

(** The errors that do occur in the demo are others. *)
Example C38_ex :
  reaches demo_crypto (demo 8) /\ ordinary_state_address demo_crypto /\
  op_ok demo_crypto (demo 8) (demo_call 2099 (withdraw_accs alice alice_orca alice_record) (Withdraw 0)) /\
  process_instruction demo_crypto (demo_env 2099) xorca_id (withdraw_accs alice alice_orca alice_record) (demo 8)
    (instruction_bytes (Withdraw 0)) = Err (custom CoolDownPeriodStillActive) /\
  token_account_of (demo 4) alice_xorca xorca_mint_id alice /\ 0 < balance (demo 4) alice_xorca /\
  balance (demo 4) demo_vault < 2 ^ 63.
Proof.
  split; [apply demo_reaches|]. split; [exact demo_ordinary|]. split; [apply (demo_op_ok 8 _ eq_refl)|].
  split; [probe 8%nat 0%nat|]. split; [apply (du_ax _ (demo_usable_at 4 _ eq_refl))|].
  split; see 4%nat.
Qed.

(** ** C43, second half *)
Theorem C43_withdrawals_commute : forall C l sk E1 accs1 data1 i1 E2 accs2 data2 i2 l1 ev1 l12 ev2,
  ordinary_state_address C -> reaches C l -> is_state l sk ->
  op_ok C l (OpCall E1 accs1 data1) -> op_ok C l (OpCall E2 accs2 data2) ->
  encodes data1 (Withdraw i1) -> encodes data2 (Withdraw i2) ->
  process_instruction C E1 xorca_id accs1 l data1 = Ok (l1, ev1) ->
  process_instruction C E2 xorca_id accs2 l1 data2 = Ok (l12, ev2) ->
  exists l2 ev2' l21 ev1',
    process_instruction C E2 xorca_id accs2 l data2 = Ok (l2, ev2') /\
    process_instruction C E1 xorca_id accs1 l2 data1 = Ok (l21, ev1') /\
    forall a, l21 a = l12 a.
Proof. exact withdrawals_commute. Qed.

(** alice then bob; bob is able to go first as well. *)
Example C43_commute_ex :
  performs demo_crypto (demo 9) (demo_call 2100 (withdraw_accs alice alice_orca alice_record) (Withdraw 0))
    (Withdraw 0) (withdraw_accs alice alice_orca alice_record) 2100 /\
  (exists l evs, process_instruction demo_crypto (demo_env 2100) xorca_id (withdraw_accs bob bob_orca bob_record)
     (demo 10) (instruction_bytes (Withdraw 7)) = Ok (l, evs) /\ escrow l demo_state = 0) /\
  (exists l evs, process_instruction demo_crypto (demo_env 2100) xorca_id (withdraw_accs bob bob_orca bob_record)
     (demo 9) (instruction_bytes (Withdraw 7)) = Ok (l, evs) /\ escrow l demo_state = 1199996).
Proof.
  split; [demo_call_ok 9%nat|].
  split; [probe_escrow 10%nat 0%nat|probe_escrow 9%nat 0%nat].
Qed.

(** ** C44 *)
Theorem C44_stake_aliased : forall C l E accs data a i j k,
  honest_metas C accs -> encodes data (Stake a) ->
  In i [1; 2; 3; 4]%nat -> In j [1; 2; 3; 4]%nat -> i <> j -> slot accs i k -> slot accs j k ->
  run_op C l (OpCall E accs data) = (l, []).
Proof. exact stake_aliased. Qed.

Theorem C44_unstake_aliased : forall C l E accs data x i n m k,
  sysvars_ok E -> honest_metas C accs -> encodes data (Unstake x i) ->
  In n [3; 4; 1; 2; 6]%nat -> In m [3; 4; 1; 2; 6]%nat -> n <> m -> slot accs n k -> slot accs m k ->
  run_op C l (OpCall E accs data) = (l, []).
Proof. exact unstake_aliased. Qed.

Theorem C44_withdraw_aliased : forall C l E accs data i n m k,
  honest_metas C accs -> encodes data (Withdraw i) ->
  In n [4; 3; 1; 2]%nat -> In m [4; 3; 1; 2]%nat -> n <> m -> slot accs n k -> slot accs m k ->
  run_op C l (OpCall E accs data) = (l, []).
Proof. exact withdraw_aliased. Qed.

Example C44_ex :
  slot (stake_accs alice demo_vault alice_xorca) 1 demo_vault /\
  slot (stake_accs alice demo_vault alice_xorca) 2 demo_vault /\
  run_op demo_crypto (demo 4) (demo_call 1400 (stake_accs alice demo_vault alice_xorca) (Stake 2)) = (demo 4, []).
Proof.
  split; [exists (w_ demo_vault); auto|]. split; [exists (w_ demo_vault); auto|].
  apply (failed_step _ _ _ (custom InvalidAccountData)). probe_attempt 4%nat 3%nat.
Qed.

Print Assumptions C14_stake_dust_refused.
Print Assumptions C14_unstake_dust_refused.
Print Assumptions C15_stake_exact.
Print Assumptions C15_stake_keeps_state.
Print Assumptions C16_unstake_exact.
Print Assumptions C17_withdraw_exact.
Print Assumptions C18_set_exact.
Print Assumptions C19_initialize_exact.
Print Assumptions C22_failed_step_changes_nothing.
Print Assumptions C22_transaction_all_or_nothing.
Print Assumptions C22_transactions_reach.
Print Assumptions C24_stake_accounts.
Print Assumptions C24_unstake_accounts.
Print Assumptions C24_withdraw_accounts.
Print Assumptions C24_initialize_accounts.
Print Assumptions C24_set_accounts.
Print Assumptions C24_unique_state_and_vault.
Print Assumptions C25_conservation.
Print Assumptions C26_unstake_charge.
Print Assumptions C26_withdraw_returns.
Print Assumptions C26_round_trip.
Print Assumptions C28_stake_event.
Print Assumptions C28_unstake_event.
Print Assumptions C28_withdraw_event.
Print Assumptions C28_set_event.
Print Assumptions C28_initialize_no_event.
Print Assumptions C38_defensive_errors.
Print Assumptions C38_holder_never_meets_empty_pool.
Print Assumptions C38_staker_no_arithmetic_error.
Print Assumptions C43_withdrawals_commute.
Print Assumptions C44_stake_aliased.
Print Assumptions C44_unstake_aliased.
Print Assumptions C44_withdraw_aliased.
