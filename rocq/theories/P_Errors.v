(** What the error numbers mean and what correctly addressed calls answer: C63, C64.
    Only statements, one-line proofs, examples and [Print Assumptions]. *)
From Verif Require Import ErrorSpec BytesFacts HistoryFacts ErrorFacts VerdictFacts FirstFacts Demo DemoMore DemoStory DemoMistake.
From Coq Require Import List.
Import ListNotations.

(** ** C63 *)
(** Whatever the accounts and the ledger, an error number of the program is true of
    the call ([ErrorSpec.blames]). *)
Theorem C63_errors_tell_the_truth : forall C E accs l data i c,
  encodes data i -> process_instruction C E xorca_id accs l data = Err (ECustom (code c)) ->
  blames C E accs l i c /\ (c <> NotEnoughAccountKeys -> (length (rules i) <= length accs)%nat).
Proof. exact error_truth. Qed.

(** Too few accounts is reported exactly when there are too few, before anything else. *)
Theorem C63_too_few_accounts : forall C E accs l data i,
  encodes data i ->
  (process_instruction C E xorca_id accs l data = Err (ECustom (code NotEnoughAccountKeys)) <->
   (length accs < length (rules i))%nat).
Proof. exact too_few_accounts. Qed.

(** Data is called undecodable exactly when no instruction's encoding is a prefix of it. *)
Theorem C63_undecodable_data : forall C E accs l data,
  process_instruction C E xorca_id accs l data = Err (ECustom (code UnknownInstructionDiscriminator)) <->
  (forall i, ~ encodes data i).
Proof. exact undecodable_iff. Qed.

(** Five failing calls of the demo; each error is true of its call. *)
Example C63_ex :
  process_instruction demo_crypto (demo_env 1400) xorca_id (stake_accs alice alice_orca alice_xorca) (demo 4)
    (instruction_bytes (Stake 1000000000)) = Err (ECustom (code InsufficientFunds)) /\
  balance (demo 4) alice_orca = 15000000 /\
  process_instruction demo_crypto (demo_env (2 ^ 63 - 1)) xorca_id (unstake_accs alice alice_xorca alice_record) (demo 4)
    (instruction_bytes (Unstake 1000000 0)) = Err (ECustom (code CoolDownOverflow)) /\
  cooldown (demo 4) demo_state = 100 /\
  process_instruction demo_crypto (demo_env 1400) xorca_id (firstn 5 (stake_accs alice alice_orca alice_xorca)) (demo 4)
    (instruction_bytes (Stake 2)) = Err (ECustom (code NotEnoughAccountKeys)) /\
  process_instruction demo_crypto (demo_env 2001) xorca_id (set_accs bob) (demo 5)
    (instruction_bytes (Set_ (UpdateCoolDownPeriod 50))) = Err (ECustom (code IncorrectAccountAddress)) /\
  authority (demo 5) demo_state = admin /\
  process_instruction demo_crypto (demo_env 2099) xorca_id (withdraw_accs alice alice_orca alice_record) (demo 8)
    (instruction_bytes (Withdraw 0)) = Err (ECustom (code CoolDownPeriodStillActive)) /\
  rec_time (demo 8) alice_record = 2100.
Proof.
  split; [probe 4%nat 6%nat|]. split; [see 4%nat|]. split; [probe 4%nat 8%nat|]. split; [see 4%nat|].
  split; [probe 4%nat 9%nat|]. split; [probe 5%nat 0%nat|]. split; [see 5%nat|]. split; [probe 8%nat 0%nat|see 8%nat].
Qed.

(** The theorem at work: what the error of the second call above says. *)
Example C63_use_ex : ~ is_i64 (now (demo_env (2 ^ 63 - 1)) + cooldown (demo 4) demo_state).
Proof.
  apply (C63_errors_tell_the_truth demo_crypto (demo_env (2 ^ 63 - 1)) (unstake_accs alice alice_xorca alice_record)
    (demo 4) (instruction_bytes (Unstake 1000000 0)) (Unstake 1000000 0) CoolDownOverflow).
  - apply instruction_encodes. cbn. unfold is_u64, is_u8, u64_max. lia.
  - probe 4%nat 8%nat.
Qed.

(** ** C64 *)
Theorem C64_stake_answers : forall C E l sk vk accs data st so sx a,
  ordinary_state_address C -> reaches C l -> is_state l sk -> is_vault C sk vk ->
  op_ok C l (OpCall E accs data) -> encodes data (Stake a) ->
  fills accs (stake_roles st vk so sx sk) -> a_owner (l st) <> token_id ->
  active_account l so orca_mint_id st -> ordinary l so -> no_self_delegate l so st ->
  active_account l sx xorca_mint_id st -> ta_state (a_data (l vk)) = 1 -> balance l vk + a < 2 ^ 63 ->
  let answer := process_instruction C E xorca_id accs l data in
  let dust := a = 0 \/ supply l <> 0 /\ a * (supply l + 100) < free_orca l sk vk + 100 in
  (balance l so < a -> answer = Err (ECustom (code InsufficientFunds))) /\
  (a <= balance l so -> dust -> answer = Err (ECustom (code InsufficientStakeAmount))) /\
  (a <= balance l so -> ~ dust -> is_ok answer = true).
Proof. exact stake_answers. Qed.

Example C64_stake_ex :
  reaches demo_crypto (demo 4) /\ is_state (demo 4) demo_state /\ is_vault demo_crypto demo_state demo_vault /\
  fills (stake_accs alice alice_orca alice_xorca) (stake_roles alice demo_vault alice_orca alice_xorca demo_state) /\
  a_owner (demo 4 alice) <> token_id /\
  active_account (demo 4) alice_orca orca_mint_id alice /\ ordinary (demo 4) alice_orca /\
  no_self_delegate (demo 4) alice_orca alice /\ active_account (demo 4) alice_xorca xorca_mint_id alice /\
  ta_state (a_data (demo 4 demo_vault)) = 1 /\
  process_instruction demo_crypto (demo_env 1400) xorca_id (stake_accs alice alice_orca alice_xorca) (demo 4)
    (instruction_bytes (Stake 1000000000)) = Err (ECustom (code InsufficientFunds)) /\
  process_instruction demo_crypto (demo_env 1400) xorca_id (stake_accs alice alice_orca alice_xorca) (demo 4)
    (instruction_bytes (Stake 1)) = Err (ECustom (code InsufficientStakeAmount)) /\
  is_ok (process_instruction demo_crypto (demo_env 1400) xorca_id (stake_accs alice alice_orca alice_xorca) (demo 4)
    (instruction_bytes (Stake 2))) = true.
Proof.
  pose proof (demo_usable_at 4 _ eq_refl) as U.
  split; [apply demo_reaches|]. split; [see 4%nat|]. split; [exact demo_is_vault|]. split; [demo_fills|].
  split; [rewrite (proj1 (du_a _ U)); apply not_eq_sym, UnstakeFacts.token_ne_system|].
  split; [exact (usable_active _ _ _ _ (du_ao _ U))|]. split; [exact (usable_ordinary _ _ _ _ (du_ao _ U))|].
  split; [exact (usable_no_delegate _ _ _ _ _ (du_ao _ U))|].
  split; [exact (usable_active _ _ _ _ (du_ax _ U))|]. split; [exact (usable_state _ _ _ _ (du_vault _ U))|].
  split; [probe 4%nat 6%nat|]. split; [probe 4%nat 0%nat|probe 4%nat 1%nat].
Qed.

Theorem C64_unstake_answers : forall C E l sk vk accs data un k b ux x i,
  ordinary_state_address C -> reaches C l -> is_state l sk -> is_vault C sk vk ->
  op_ok C l (OpCall E accs data) -> encodes data (Unstake x i) ->
  fills accs (unstake_roles un sk k ux vk) ->
  find_pending_withdraw_address C un i = Some (k, b) ->
  active_account l ux xorca_mint_id un -> no_self_delegate l ux un -> wallet l un ->
  rent_min E 1024 - a_lamports (l k) <= a_lamports (l un) -> balance l vk < 2 ^ 63 ->
  let answer := process_instruction C E xorca_id accs l data in
  let in_time := is_i64 (now E + cooldown l sk) in
  (is_record l k -> answer = Err (ECustom (code IncorrectOwner))) /\
  (~ is_record l k ->
   collision C (eq un) \/
   (balance l ux < x -> answer = Err (ECustom (code InsufficientFunds))) /\
   (x = 0 -> supply l <> 0 -> answer = Err (ECustom (code InsufficientUnstakeAmount))) /\
   (x = 0 -> supply l = 0 -> answer = Err (ECustom (code ArithmeticError))) /\
   (0 < x <= balance l ux -> ~ in_time -> answer = Err (ECustom (code CoolDownOverflow))) /\
   (0 < x <= balance l ux -> in_time -> is_ok answer = true)).
Proof. exact unstake_answers. Qed.

(** The remaining hypotheses are those of [C40_ex]; index 0 is free at stage 4 and
    taken at stage 9. *)
Example C64_unstake_ex :
  (exists b, find_pending_withdraw_address demo_crypto alice 0 = Some (alice_record, b)) /\
  ~ is_record (demo 4) alice_record /\ supply (demo 4) <> 0 /\
  process_instruction demo_crypto (demo_env 1400) xorca_id (unstake_accs alice alice_xorca alice_record) (demo 4)
    (instruction_bytes (Unstake 6000000 0)) = Err (ECustom (code InsufficientFunds)) /\
  process_instruction demo_crypto (demo_env 1400) xorca_id (unstake_accs alice alice_xorca alice_record) (demo 4)
    (instruction_bytes (Unstake 0 0)) = Err (ECustom (code InsufficientUnstakeAmount)) /\
  process_instruction demo_crypto (demo_env (2 ^ 63 - 1)) xorca_id (unstake_accs alice alice_xorca alice_record) (demo 4)
    (instruction_bytes (Unstake 1000000 0)) = Err (ECustom (code CoolDownOverflow)) /\
  performs demo_crypto (demo 4) (demo_call 2000 (unstake_accs alice alice_xorca alice_record) (Unstake 1000000 0))
    (Unstake 1000000 0) (unstake_accs alice alice_xorca alice_record) 2000 /\
  is_record (demo 9) alice_record /\
  process_instruction demo_crypto (demo_env 2100) xorca_id (unstake_accs alice alice_xorca alice_record) (demo 9)
    (instruction_bytes (Unstake 1000 0)) = Err (ECustom (code IncorrectOwner)).
Proof.
  split; [exists (Z_to_byte alice_bump); exact alice_found|]. split; [see 4%nat|]. split; [see 4%nat; discriminate|].
  split; [probe 4%nat 7%nat|]. split; [probe 4%nat 2%nat|]. split; [probe 4%nat 8%nat|]. split; [demo_call_ok 4%nat|].
  split; [see 9%nat|probe 9%nat 1%nat].
Qed.

Theorem C64_withdraw_answers : forall C E l sk vk accs data un k uo i,
  ordinary_state_address C -> reaches C l -> is_state l sk -> is_vault C sk vk ->
  op_ok C l (OpCall E accs data) -> encodes data (Withdraw i) ->
  fills accs (withdraw_roles un sk k uo vk) ->
  active_account l uo orca_mint_id un -> ta_state (a_data (l vk)) = 1 ->
  balance l uo + rec_amount l k <= u64_max -> a_lamports (l un) + a_lamports (l k) <= u64_max ->
  let answer := process_instruction C E xorca_id accs l data in
  (a_owner (l k) <> xorca_id -> answer = Err (ECustom (code IncorrectOwner))) /\
  (is_record l k -> rec_owner l k = un -> rec_index l k = i -> now E < rec_time l k ->
   answer = Err (ECustom (code CoolDownPeriodStillActive))) /\
  (is_record l k -> rec_owner l k = un -> rec_index l k = i -> rec_time l k <= now E ->
   is_ok answer = true).
Proof. exact withdraw_answers. Qed.

Example C64_withdraw_ex :
  reaches demo_crypto (demo 8) /\ is_state (demo 8) demo_state /\ is_vault demo_crypto demo_state demo_vault /\
  fills (withdraw_accs alice alice_orca alice_record)
    (withdraw_roles alice demo_state alice_record alice_orca demo_vault) /\
  active_account (demo 8) alice_orca orca_mint_id alice /\ ta_state (a_data (demo 8 demo_vault)) = 1 /\
  is_record (demo 8) alice_record /\ rec_owner (demo 8) alice_record = alice /\
  process_instruction demo_crypto (demo_env 2099) xorca_id (withdraw_accs alice alice_orca alice_record) (demo 8)
    (instruction_bytes (Withdraw 0)) = Err (ECustom (code CoolDownPeriodStillActive)) /\
  performs demo_crypto (demo 9) (demo_call 2100 (withdraw_accs alice alice_orca alice_record) (Withdraw 0))
    (Withdraw 0) (withdraw_accs alice alice_orca alice_record) 2100 /\
  process_instruction demo_crypto (demo_env 2100) xorca_id (withdraw_accs alice alice_orca alice_record) (demo 10)
    (instruction_bytes (Withdraw 0)) = Err (ECustom (code IncorrectOwner)).
Proof.
  pose proof (demo_usable_at 8 _ eq_refl) as U.
  split; [apply demo_reaches|]. split; [see 8%nat|]. split; [exact demo_is_vault|]. split; [demo_fills|].
  split; [exact (usable_active _ _ _ _ (du_ao _ U))|]. split; [exact (usable_state _ _ _ _ (du_vault _ U))|].
  split; [see 8%nat|]. split; [see 8%nat|]. split; [probe 8%nat 0%nat|]. split; [demo_call_ok 9%nat|probe 10%nat 1%nat].
Qed.

Theorem C64_set_answers : forall C E l sk accs data au u,
  ordinary_state_address C -> reaches C l -> is_state l sk ->
  encodes data (Set_ u) -> fills accs (set_roles au sk) ->
  let answer := process_instruction C E xorca_id accs l data in
  let negative := exists c, u = UpdateCoolDownPeriod c /\ c < 0 in
  (au <> authority l sk -> answer = Err (ECustom (code IncorrectAccountAddress))) /\
  (au = authority l sk -> negative -> answer = Err (ECustom (code InvalidCoolDownPeriod))) /\
  (au = authority l sk -> ~ negative -> is_ok answer = true).
Proof. exact set_answers. Qed.

Example C64_set_ex :
  reaches demo_crypto (demo 5) /\ is_state (demo 5) demo_state /\ authority (demo 5) demo_state = admin /\
  fills (set_accs bob) (set_roles bob demo_state) /\ fills (set_accs admin) (set_roles admin demo_state) /\
  process_instruction demo_crypto (demo_env 2001) xorca_id (set_accs bob) (demo 5)
    (instruction_bytes (Set_ (UpdateCoolDownPeriod 50))) = Err (ECustom (code IncorrectAccountAddress)) /\
  process_instruction demo_crypto (demo_env 2001) xorca_id (set_accs admin) (demo 5)
    (instruction_bytes (Set_ (UpdateCoolDownPeriod (-1)))) = Err (ECustom (code InvalidCoolDownPeriod)) /\
  performs demo_crypto (demo 5) (demo_call 2001 (set_accs admin) (Set_ (UpdateCoolDownPeriod 50)))
    (Set_ (UpdateCoolDownPeriod 50)) (set_accs admin) 2001.
Proof.
  split; [apply demo_reaches|]. split; [see 5%nat|]. split; [see 5%nat|]. split; [demo_fills|]. split; [demo_fills|].
  split; [probe 5%nat 0%nat|]. split; [probe 5%nat 1%nat|demo_call_ok 5%nat].
Qed.

Theorem C64_initialize_answers : forall C E l sk vk accs data payer auth c,
  ordinary_state_address C -> reaches C l -> is_state l sk -> is_vault C sk vk ->
  encodes data (Initialize c) -> fills accs (init_roles payer auth sk vk) ->
  let answer := process_instruction C E xorca_id accs l data in
  (payer <> deployer_address -> answer = Err (ECustom (code UnauthorizedDeployerAccess))) /\
  (payer = deployer_address -> answer = Err (ECustom (code StateAccountAlreadyInitialized))).
Proof. exact initialize_answers. Qed.

Example C64_initialize_ex :
  reaches demo_crypto (demo 1) /\ is_state (demo 1) demo_state /\ is_vault demo_crypto demo_state demo_vault /\
  fills (init_accs admin) (init_roles deployer_address admin demo_state demo_vault) /\
  process_instruction demo_crypto (demo_env 1050) xorca_id (init_accs admin) (demo 1)
    (instruction_bytes (Initialize 100)) = Err (ECustom (code StateAccountAlreadyInitialized)) /\
  process_instruction demo_crypto (demo_env 1050) xorca_id
    [ws alice; ws admin; w_ demo_state; w_ demo_vault; r_ xorca_mint_id;
      r_ orca_mint_id; r_ system_id; r_ token_id; r_ ata_id] (demo 1)
    (instruction_bytes (Initialize 100)) = Err (ECustom (code UnauthorizedDeployerAccess)).
Proof.
  split; [apply demo_reaches|]. split; [see 1%nat|]. split; [exact demo_is_vault|]. split; [demo_fills|].
  split; [probe 1%nat 0%nat|probe 1%nat 1%nat].
Qed.

(** The first Initialize: the mints are looked at first, then the vault's address, then the period. *)
Theorem C64_first_initialize_answers : forall C E l sk sb vk accs data payer auth c,
  ordinary_state_address C -> reaches C l -> (forall k, ~ is_state l k) ->
  find_state_address C = Some (sk, sb) -> is_vault C sk vk ->
  encodes data (Initialize c) -> fills accs (init_roles payer auth sk vk) ->
  a_owner (l xorca_mint_id) = token_id -> mint_unpack (a_data (l xorca_mint_id)) = Ok tt ->
  let answer := process_instruction C E xorca_id accs l data in
  let mint := a_data (l xorca_mint_id) in
  (payer <> deployer_address -> answer = Err (ECustom (code UnauthorizedDeployerAccess))) /\
  (payer = deployer_address ->
    (mint_auth mint <> sk -> answer = Err (ECustom (code IncorrectAccountAddress))) /\
    (mint_auth mint = sk -> ~ mints_ready l sk -> answer = Err (ECustom (code InvalidAccountData))) /\
    (mints_ready l sk -> a_owner (l vk) <> system_id -> answer = Err (ECustom (code IncorrectOwner))) /\
    (mints_ready l sk -> a_owner (l vk) = system_id -> c < 0 ->
       answer = Err (ECustom (code InvalidCoolDownPeriod)))).
Proof. exact first_initialize_answers. Qed.

Example C64_first_initialize_ex :
  reaches demo_crypto (demo 0) /\ (forall k, ~ is_state (demo 0) k) /\
  find_state_address demo_crypto = Some (demo_state, Z_to_byte 255) /\ is_vault demo_crypto demo_state demo_vault /\
  encodes (instruction_bytes (Initialize (-1))) (Initialize (-1)) /\
  fills (init_accs admin) (init_roles deployer_address admin demo_state demo_vault) /\
  mints_ready (demo 0) demo_state /\ a_owner (demo 0 demo_vault) = system_id /\
  process_instruction demo_crypto (demo_env 1000) xorca_id (init_accs admin) (demo 0)
    (instruction_bytes (Initialize (-1))) = Err (ECustom 6013) /\
  is_ok (process_instruction demo_crypto (demo_env 1000) xorca_id (init_accs admin) (demo 0)
    (instruction_bytes (Initialize 100))) = true.
Proof.
  destruct demo_start as (W1 & W2 & W3 & L1 & L2 & L3 & L4 & M).
  assert (En : encodes (instruction_bytes (Initialize (-1))) (Initialize (-1))) by demo_encodes.
  assert (Fi : fills (init_accs admin) (init_roles deployer_address admin demo_state demo_vault)) by demo_fills.
  split; [apply demo_reaches|]. split; [exact demo_start_fresh|]. split; [exact demo_state_found|].
  split; [exact demo_is_vault|]. split; [exact En|]. split; [exact Fi|]. split; [exact M|]. split; [apply W1|].
  split.
  - destruct (first_initialize_answers demo_crypto (demo_env 1000) (demo 0) _ _ _ _ _ _ _ _ demo_ordinary (demo_reaches 0)
      demo_start_fresh demo_state_found demo_is_vault En Fi (proj1 M) (proj1 (proj2 M))) as [_ A].
    destruct (A eq_refl) as (_ & _ & _ & B). apply B; [exact M|apply W1|reflexivity].
  - assert (P : performs demo_crypto (demo 0) (demo_call 1000 (init_accs admin) (Initialize 100)) (Initialize 100)
      (init_accs admin) 1000) by demo_call_ok 0%nat.
    destruct P as (E & data & H & _ & _ & K). unfold demo_call in H. injection H as <- <-. exact K.
Qed.

Print Assumptions C63_errors_tell_the_truth.
Print Assumptions C63_too_few_accounts.
Print Assumptions C63_undecodable_data.
Print Assumptions C64_stake_answers.
Print Assumptions C64_unstake_answers.
Print Assumptions C64_withdraw_answers.
Print Assumptions C64_set_answers.
Print Assumptions C64_initialize_answers.
Print Assumptions C64_first_initialize_answers.
