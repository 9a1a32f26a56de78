(** The clients' calls, addresses and reads: C33, C34, C35, C36.
    Only statements, one-line proofs, examples and [Print Assumptions]. *)
From Coq Require Import String Sorted.
From Verif Require Import Spec ClientSpec BytesFacts HistoryFacts LifeFacts PoolHistory LiveFacts RoleFacts AddressFacts ScriptFacts
  RpcFacts ReadFacts Demo DemoMore DemoStory DemoClient.
Import List ListNotations.
Open Scope list_scope.
Open Scope Z_scope.

(** ** C33 *)
(** Whatever a client builds (from any keys and arguments, with any bytes appended)
    is not refused for its shape: 6000 discriminator, 6001 program id, 6002 roles,
    6003 missing accounts, nor by the runtime for missing privileges. *)
Theorem C33_never_refused_for_shape : forall C E b i accs l rest e,
  sends C b i -> delivered (b_accounts b) accs ->
  process_instruction C E (b_program b) accs l (b_data b ++ rest) = Err e ->
  e <> custom InvalidAccountRole /\ e <> custom NotEnoughAccountKeys /\
  e <> custom UnknownInstructionDiscriminator /\ e <> custom IncorrectProgramId /\
  e <> ERuntime RE_PrivilegeEscalation /\ e <> ERuntime RE_MissingAccount.
Proof. exact sent_not_refused. Qed.

(** The Rust and JS builders put every account in its documented place. *)
Theorem C33_stake_accounts : forall st vk so sx sk a rem b accs,
  b = rust_stake st vk so sx xorca_mint_id sk orca_mint_id token_id rem a \/
  js_stake st vk so sx xorca_mint_id sk orca_mint_id token_id a = Some b ->
  delivered (b_accounts b) accs -> fills accs (stake_roles st vk so sx sk).
Proof. exact stake_accounts. Qed.

Theorem C33_unstake_accounts : forall un sk k ux vk a i j rem b accs,
  b = rust_unstake un sk k ux xorca_mint_id orca_mint_id vk system_id token_id rem a i \/
  js_unstake un sk k ux xorca_mint_id orca_mint_id vk system_id token_id a j = Some b ->
  delivered (b_accounts b) accs -> fills accs (unstake_roles un sk k ux vk).
Proof. exact unstake_accounts. Qed.

Theorem C33_withdraw_accounts : forall un sk k uo vk i j rem b accs,
  b = rust_withdraw un sk k uo vk orca_mint_id system_id token_id rem i \/
  js_withdraw un sk k uo vk orca_mint_id system_id token_id j = Some b ->
  delivered (b_accounts b) accs -> fills accs (withdraw_roles un sk k uo vk).
Proof. exact withdraw_accounts. Qed.

Theorem C33_initialize_accounts : forall payer auth sk vk c rem b accs,
  b = rust_initialize payer auth sk vk xorca_mint_id orca_mint_id system_id token_id ata_id rem c \/
  js_initialize payer auth sk vk xorca_mint_id orca_mint_id system_id token_id ata_id c = Some b ->
  delivered (b_accounts b) accs -> fills accs (init_roles payer auth sk vk).
Proof. exact initialize_accounts. Qed.

Theorem C33_set_accounts : forall auth sk u rem b accs,
  b = rust_set auth sk rem u \/ js_set auth sk u = Some b ->
  delivered (b_accounts b) accs -> fills accs (set_roles auth sk).
Proof. exact set_accounts. Qed.

(** So do the scripts, which derive the addresses too. *)
Theorem C33_script_stake_accounts : forall C st a b accs,
  script_stake C st a = Some b -> delivered (b_accounts b) accs ->
  exists sk vk so sx, client_state C sk /\ client_vault C sk vk /\
    is_ata C st orca_mint_id so /\ is_ata C st xorca_mint_id sx /\ fills accs (stake_roles st vk so sx sk).
Proof. exact script_stake_accounts. Qed.

Theorem C33_script_unstake_accounts : forall C un a j b accs,
  script_unstake C un a j = Some b -> delivered (b_accounts b) accs ->
  exists sk vk k ux, client_state C sk /\ client_vault C sk vk /\ client_record C un (js_trunc j) k /\
    is_ata C un xorca_mint_id ux /\ fills accs (unstake_roles un sk k ux vk).
Proof. exact script_unstake_accounts. Qed.

Theorem C33_script_withdraw_accounts : forall C un j b accs,
  script_withdraw C un j = Some b -> delivered (b_accounts b) accs ->
  exists sk vk k uo, client_state C sk /\ client_vault C sk vk /\ client_record C un (js_trunc j) k /\
    is_ata C un orca_mint_id uo /\ fills accs (withdraw_roles un sk k uo vk).
Proof. exact script_withdraw_accounts. Qed.

Theorem C33_script_initialize_accounts : forall C dep auth c b accs,
  script_initialize C dep auth c = Some b -> delivered (b_accounts b) accs ->
  dep = deployer_address /\ exists sk vk, client_state C sk /\ client_vault C sk vk /\ fills accs (init_roles dep auth sk vk).
Proof. exact script_initialize_accounts. Qed.

Theorem C33_script_set_accounts : forall C auth j new b accs,
  script_set_cooldown C auth j = Some b \/ script_set_authority C auth new = Some b ->
  delivered (b_accounts b) accs -> exists sk, client_state C sk /\ fills accs (set_roles auth sk).
Proof. exact script_set_accounts. Qed.

(** A user who meets the economic conditions succeeds with the scripts' calls. *)
Theorem C33_script_stake_works : forall C E l sk vk b accs st so sx a,
  ordinary_state_address C -> reaches C l -> is_state l sk -> client_vault C sk vk ->
  script_stake C st a = Some b -> delivered (b_accounts b) accs -> op_ok C l (OpCall E accs (b_data b)) ->
  a_owner (l st) <> token_id ->
  is_ata C st orca_mint_id so -> active_account l so orca_mint_id st -> ordinary l so -> no_self_delegate l so st ->
  a <= balance l so ->
  is_ata C st xorca_mint_id sx -> active_account l sx xorca_mint_id st -> ta_state (a_data (l vk)) = 1 ->
  0 < a -> (supply l <> 0 -> free_orca l sk vk + 100 <= a * (supply l + 100)) -> balance l vk + a < 2 ^ 63 ->
  is_ok (process_instruction C E (b_program b) accs l (b_data b)) = true.
Proof. exact script_stake_live. Qed.

Theorem C33_script_unstake_works : forall C E l sk vk b accs un ux x j k,
  ordinary_state_address C -> reaches C l -> is_state l sk -> client_vault C sk vk ->
  script_unstake C un x j = Some b -> delivered (b_accounts b) accs -> op_ok C l (OpCall E accs (b_data b)) ->
  client_record C un (js_trunc j) k -> ~ is_record l k ->
  is_ata C un xorca_mint_id ux -> active_account l ux xorca_mint_id un -> no_self_delegate l ux un -> 0 < x <= balance l ux ->
  wallet l un -> rent_min E 1024 - a_lamports (l k) <= a_lamports (l un) ->
  is_i64 (now E + cooldown l sk) -> balance l vk < 2 ^ 63 ->
  is_ok (process_instruction C E (b_program b) accs l (b_data b)) = true \/ collision C (eq un).
Proof. exact script_unstake_live. Qed.

Theorem C33_script_withdraw_works : forall C E l sk vk b accs un k uo j,
  ordinary_state_address C -> reaches C l -> is_state l sk -> client_vault C sk vk ->
  script_withdraw C un j = Some b -> delivered (b_accounts b) accs -> op_ok C l (OpCall E accs (b_data b)) ->
  is_record l k -> rec_owner l k = un -> rec_index l k = js_trunc j -> rec_time l k <= now E ->
  is_ata C un orca_mint_id uo -> active_account l uo orca_mint_id un -> ta_state (a_data (l vk)) = 1 ->
  balance l uo + rec_amount l k <= u64_max -> a_lamports (l un) + a_lamports (l k) <= u64_max ->
  is_ok (process_instruction C E (b_program b) accs l (b_data b)) = true.
Proof. exact script_withdraw_live. Qed.

Example C33_ex :
  sends demo_crypto alice_withdraw (Withdraw 0) /\ delivered (b_accounts alice_withdraw) (b_accounts alice_withdraw) /\
  process_instruction demo_crypto (demo_env 2099) (b_program alice_withdraw) (b_accounts alice_withdraw) (demo 8)
    (b_data alice_withdraw ++ []) = Err (ECustom 6011) /\
  script_unstake demo_crypto alice 1000000 (JInt 0) = Some alice_unstake /\
  script_initialize demo_crypto deployer_address admin (JInt 100) = Some admin_init /\
  script_set_cooldown demo_crypto admin (JInt 50) = Some admin_cooldown /\
  b_accounts (rust_withdraw alice demo_state alice_record alice_orca demo_vault orca_mint_id system_id token_id [] 0) =
    b_accounts alice_withdraw /\
  js_withdraw alice demo_state alice_record alice_orca demo_vault orca_mint_id system_id token_id (JInt 0) = Some alice_withdraw.
Proof.
  split; [apply (ScriptWithdraw _ alice (JInt 0)); exact alice_withdraw_built|]. split; [apply delivered_refl|].
  split; [rewrite app_nil_r; probe 8%nat 0%nat|]. split; [exact alice_unstake_built|]. split; [exact admin_init_built|].
  split; [exact admin_cooldown_built|]. split; reflexivity.
Qed.

(** alice's withdrawal by the script meets every condition, and pays. *)
Example C33_works_ex :
  reaches demo_crypto (demo 9) /\ is_state (demo 9) demo_state /\ client_vault demo_crypto demo_state demo_vault /\
  script_withdraw demo_crypto alice (JInt 0) = Some alice_withdraw /\
  op_ok demo_crypto (demo 9) (OpCall (demo_env 2100) (b_accounts alice_withdraw) (b_data alice_withdraw)) /\
  is_record (demo 9) alice_record /\ rec_owner (demo 9) alice_record = alice /\
  rec_index (demo 9) alice_record = js_trunc (JInt 0) /\ rec_time (demo 9) alice_record <= now (demo_env 2100) /\
  is_ata demo_crypto alice orca_mint_id alice_orca /\ active_account (demo 9) alice_orca orca_mint_id alice /\
  ta_state (a_data (demo 9 demo_vault)) = 1 /\
  balance (demo 9) alice_orca + rec_amount (demo 9) alice_record <= u64_max /\
  a_lamports (demo 9 alice) + a_lamports (demo 9 alice_record) <= u64_max.
Proof.
  split; [apply demo_reaches|]. split; [see 9%nat|]. split; [exact demo_client_vault|].
  split; [exact alice_withdraw_built|]. split; [apply (demo_op_ok 9 _ eq_refl)|].
  do 3 (split; [see 9%nat|]). split; [see 9%nat; cbn; lia|]. split; [exact alice_orca_found|].
  split; [exact (usable_active _ _ _ _ (du_ao _ (demo_usable_at 9 _ eq_refl)))|].
  split; [exact (usable_state _ _ _ _ (du_vault _ (demo_usable_at 9 _ eq_refl)))|].
  split; see 9%nat; unfold u64_max; lia.
Qed.
(** So do the stake of step 1 and the unstake of step 4. *)
Example C33_stake_works_ex :
  script_stake demo_crypto alice 5000000 = Some alice_stake /\
  op_ok demo_crypto (demo 1) (OpCall (demo_env 1100) (b_accounts alice_stake) (b_data alice_stake)) /\
  is_ata demo_crypto alice orca_mint_id alice_orca /\ is_ata demo_crypto alice xorca_mint_id alice_xorca /\
  is_ok (process_instruction demo_crypto (demo_env 1100) (b_program alice_stake) (b_accounts alice_stake) (demo 1)
    (b_data alice_stake)) = true.
Proof.
  split; [exact alice_stake_built|]. split; [apply (demo_op_ok 1 _ eq_refl)|]. split; [exact alice_orca_found|].
  split; [exact alice_xorca_found|].
  assert (P : performs demo_crypto (demo 1) (demo_call 1100 (stake_accs alice alice_orca alice_xorca) (Stake 5000000))
    (Stake 5000000) (stake_accs alice alice_orca alice_xorca) 1100) by demo_call_ok 1%nat.
  destruct P as (E & data & H & _ & _ & K). injection H as <- <-. exact K.
Qed.
Example C33_unstake_works_ex :
  script_unstake demo_crypto alice 1000000 (JInt 0) = Some alice_unstake /\
  delivered (unstake_accs alice alice_xorca alice_record) (b_accounts alice_unstake) /\
  client_record demo_crypto alice 0 alice_record /\ ~ is_record (demo 4) alice_record /\
  is_ata demo_crypto alice xorca_mint_id alice_xorca /\ active_account (demo 4) alice_xorca xorca_mint_id alice /\
  1000000 <= balance (demo 4) alice_xorca /\ wallet (demo 4) alice.
Proof.
  split; [exact alice_unstake_built|]. split; [repeat (apply Forall2_cons; [cbn; auto|]); apply Forall2_nil|].
  split; [apply client_record_is; eexists; exact alice_found|]. split; [see 4%nat|]. split; [exact alice_xorca_found|].
  split; [exact (usable_active _ _ _ _ (du_ax _ (demo_usable_at 4 _ eq_refl)))|].
  split; [see 4%nat; lia|exact (du_a _ (demo_usable_at 4 _ eq_refl))].
Qed.

(** ** C34 *)
(** The clients hash what the program hashes ... *)
Theorem C34_same_derivations : forall C sk un i j,
  rust_find_state C = find_state_address C /\ js_find_state C = find_state_address C /\
  script_state C = option_map fst (find_state_address C) /\
  rust_find_vault C sk token_id orca_mint_id = find_vault_address C sk token_id orca_mint_id /\
  js_find_vault C sk token_id orca_mint_id = find_vault_address C sk token_id orca_mint_id /\
  script_vault C sk = option_map fst (find_vault_address C sk token_id orca_mint_id) /\
  rust_find_pending C un i = find_pending_withdraw_address C un i /\
  js_find_pending C un j = find_pending_withdraw_address C un (js_trunc j) /\
  script_pending C un j = option_map fst (find_pending_withdraw_address C un (js_trunc j)).
Proof. exact finders_agree. Qed.

Theorem C34_script_constants :
  script_xorca_id = xorca_id /\ script_orca_mint = orca_mint_id /\ script_xorca_mint = xorca_mint_id /\
  script_system_id = system_id /\ script_token_id = token_id /\ script_ata_id = ata_id /\
  script_deployer = deployer_address.
Proof. exact script_ids. Qed.

(** ... so the State account, its vault and every record are where they look ... *)
Theorem C34_state_and_vault : forall C l sk,
  ordinary_state_address C -> reaches C l -> is_state l sk ->
  client_state C sk /\ exists vk, client_vault C sk vk /\ token_account_of l vk orca_mint_id sk.
Proof. exact state_where. Qed.

Theorem C34_records : forall C l sk k,
  ordinary_state_address C -> reaches C l -> is_state l sk -> is_record l k ->
  client_record C (rec_owner l k) (rec_index l k) k.
Proof. exact record_where. Qed.

(** ... and every successful call was given the addresses they derive. *)
Theorem C34_accepted_addresses : forall C l o i accs t,
  ordinary_state_address C -> reaches C l -> op_ok C l o -> performs C l o i accs t ->
  exists sk, client_state C sk /\
  match i with
  | Stake _ => exists vk, client_vault C sk vk /\ slot accs 1 vk /\ slot accs 5 sk
  | Unstake _ i => exists vk un k, client_vault C sk vk /\ client_record C un i k /\
      slot accs 0 un /\ slot accs 1 sk /\ slot accs 2 k /\ slot accs 6 vk
  | Withdraw i => exists vk un k, client_vault C sk vk /\ (client_record C un i k \/ collision C (claimants l un)) /\
      slot accs 0 un /\ slot accs 1 sk /\ slot accs 2 k /\ slot accs 4 vk
  | Initialize _ => exists vk, client_vault C sk vk /\ slot accs 2 sk /\ slot accs 3 vk
  | Set_ _ => slot accs 1 sk
  end.
Proof. exact call_addresses. Qed.

(** Different users or indices have different record addresses, and the three kinds
    of addresses differ. *)
Theorem C34_records_distinct : forall C u i u' i' k,
  is_u8 i -> is_u8 i' -> client_record C u i k -> client_record C u' i' k ->
  u = u' /\ i = i' \/ collision C (fun x => x = u \/ x = u').
Proof. exact record_addresses_distinct. Qed.

Theorem C34_kinds_distinct : forall C sk vk u i k,
  client_state C sk -> client_vault C sk vk -> client_record C u i k ->
  (k <> sk /\ k <> vk /\ sk <> vk) \/ collision C (eq u).
Proof. exact roles_distinct. Qed.

(** The JS client reduces the index modulo 256 instead of refusing it ... *)
Theorem C34_js_index_wraps : forall C un z,
  js_find_pending C un (JInt (z + 256)) = js_find_pending C un (JInt z).
Proof. exact js_index_wraps. Qed.

(** ... (and takes NaN for 0) ... *)
Theorem C34_js_index_nan : forall C un,
  js_find_pending C un JNaN = js_find_pending C un (JInt 0).
Proof. exact js_index_nan. Qed.

(** ... so the claim is false for its integer arguments in general. *)
Theorem C34_js_indices_distinct_refuted :
  ~ (forall C staker i j p, js_find_pending C staker (JInt i) = Some p -> js_find_pending C staker (JInt j) = Some p ->
       i = j \/ collision C (eq staker)).
Proof. exact js_indices_distinct_refuted. Qed.

Example C34_ex :
  client_state demo_crypto demo_state /\ client_vault demo_crypto demo_state demo_vault /\
  client_record demo_crypto alice 0 alice_record /\ is_record (demo 9) alice_record /\ is_record (demo 9) bob_record /\
  rec_owner (demo 9) bob_record = bob /\ rec_index (demo 9) bob_record = 7 /\
  js_find_pending demo_crypto bob (JInt 263) = Some (bob_record, xff).
Proof.
  split; [exact demo_client_state|]. split; [exact demo_client_vault|].
  split; [apply client_record_is; eexists; exact alice_found|]. do 4 (split; [see 9%nat|]). exact (proj2 bob_searched).
Qed.

(** ** C35 *)
(** What the helpers return is exactly the staker's records below the limit ... *)
Theorem C35_js_sound : forall C cap l staker n vs,
  ordinary_state_address C -> reaches C l ->
  js_pending_withdraws C cap l staker (Some (JInt n)) = Some vs -> lists_records l staker n vs \/ collision C (claimants l staker).
Proof. exact js_lists_sound. Qed.

Theorem C35_rust_sound : forall C cap l staker n vs,
  ordinary_state_address C -> reaches C l -> 0 <= n <= 255 ->
  rust_pending_withdraws C cap l staker (Some n) = Some vs -> lists_records l staker n vs \/ collision C (claimants l staker).
Proof. exact rust_lists_sound. Qed.

(** ... and they return it whenever the server accepts that many addresses (and, in
    Rust, no searched address merely holds lamports). *)
Theorem C35_js_lists : forall C cap l staker n,
  ordinary_state_address C -> reaches C l -> 0 <= n <= 255 -> n <= Z.of_nat cap -> addressable C staker n ->
  (exists vs, js_pending_withdraws C cap l staker (Some (JInt n)) = Some vs /\ lists_records l staker n vs) \/ collision C (claimants l staker).
Proof. exact js_lists. Qed.

Theorem C35_rust_lists : forall C cap l staker n,
  ordinary_state_address C -> reaches C l -> 0 <= n <= 255 -> n <= Z.of_nat cap -> addressable C staker n ->
  (forall i k, 0 <= i < n -> client_record C staker i k -> a_lamports (l k) = 0 \/ is_record l k) ->
  (exists vs, rust_pending_withdraws C cap l staker (Some n) = Some vs /\ lists_records l staker n vs) \/ collision C (claimants l staker).
Proof. exact rust_lists. Qed.

Theorem C35_default_limit : forall C cap l staker,
  rust_pending_withdraws C cap l staker None = rust_pending_withdraws C cap l staker (Some 15) /\
  js_pending_withdraws C cap l staker None = js_pending_withdraws C cap l staker (Some (JInt 15)).
Proof. exact list_defaults. Qed.

Theorem C35_js_limits : forall C cap l staker max vs,
  js_pending_withdraws C cap l staker (Some max) = Some vs -> exists n, max = JInt n /\ 0 <= n <= 255.
Proof. exact js_limit_range. Qed.

(** The server's maximum bounds the limit. *)
Theorem C35_server_limit : forall C cap l staker n vs,
  0 <= n <= 255 ->
  (rust_pending_withdraws C cap l staker (Some n) = Some vs \/ js_pending_withdraws C cap l staker (Some (JInt n)) = Some vs) ->
  n <= Z.of_nat cap.
Proof. exact list_cap. Qed.

(** Anyone can break the Rust helper by sending lamports to a searched address ... *)
Theorem C35_rust_dust : forall C cap l staker n i k,
  ordinary_state_address C -> reaches C l -> 0 <= i < n -> n <= 255 ->
  client_record C staker i k -> ~ is_record l k -> a_lamports (l k) <> 0 ->
  rust_pending_withdraws C cap l staker (Some n) = None \/ collision C (claimants l staker).
Proof. exact rust_list_dust. Qed.

(** ... so it does not always answer. *)
Theorem C35_rust_always_answers_refuted :
  ~ (forall C cap l staker n,
       ordinary_state_address C -> reaches C l -> 0 <= n <= 255 -> n <= Z.of_nat cap -> addressable C staker n ->
       exists vs, rust_pending_withdraws C cap l staker (Some n) = Some vs).
Proof. exact rust_lists_always_refuted. Qed.

(** Index 255 is never listed. *)
Theorem C35_index_255_never_listed : forall C cap l staker k n vs,
  ordinary_state_address C -> reaches C l -> is_record l k -> rec_index l k = 255 -> is_u8 n ->
  rust_pending_withdraws C cap l staker (Some n) = Some vs \/ js_pending_withdraws C cap l staker (Some (JInt n)) = Some vs ->
  (forall v, In v vs -> ~ shows l k v) \/ collision C (claimants l staker).
Proof. exact last_never_listed. Qed.

(** pending-withdraws.ts prints the records with index below 15. *)
Theorem C35_script_lists : forall C l0 ls clocks staker sk,
  ordinary_state_address C -> reaches C l0 -> is_state l0 sk -> (forall i, reaches C (ls i)) ->
  (exists lines, script_pendings C l0 ls clocks staker = Some lines /\
     (forall s, In s lines <-> exists i k, 0 <= i < 15 /\ is_record (ls i) k /\ rec_owner (ls i) k = staker /\
        rec_index (ls i) k = i /\ s = line_of (ls i) k (clocks i) (cooldown l0 sk)) /\
     StronglySorted Z.lt (map sl_index lines)) \/ exists i, 0 <= i < 15 /\ collision C (claimants (ls i) staker).
Proof. exact script_lists. Qed.

(** bob's record has index 7: searched up to 7 it is not there, up to 8 it is.  Before
    bob unstaked, its address held 7 lamports: the JS helper returned nothing, the Rust
    helper failed. *)
Example C35_ex :
  reaches demo_crypto (demo 9) /\ addressable demo_crypto bob 8 /\
  option_map (map shown_index) (rust_pending_withdraws demo_crypto 100 (demo 9) bob (Some 7)) = Some [] /\
  option_map (map shown_index) (rust_pending_withdraws demo_crypto 100 (demo 9) bob (Some 8)) = Some [7] /\
  option_map (map shown_index) (js_pending_withdraws demo_crypto 100 (demo 9) bob (Some (JInt 8))) = Some [7] /\
  js_pending_withdraws demo_crypto 100 (demo 7) bob (Some (JInt 8)) = Some [] /\
  rust_pending_withdraws demo_crypto 100 (demo 7) bob (Some 8) = None /\
  a_lamports (demo 7 bob_record) = 7 /\ ~ is_record (demo 7) bob_record.
Proof.
  destruct demo_reads_each as (R1 & R2 & R3 & R4 & R5 & _).
  split; [apply demo_reaches|]. split; [exact bob_addressable|]. do 5 (split; [assumption|]). split; see 7%nat.
Qed.
(** alice's record with index 255. *)
Example C35_255_ex :
  reaches demo_crypto (tale 4 last_index 1) /\ is_record (tale 4 last_index 1) alice_last /\
  rec_owner (tale 4 last_index 1) alice_last = alice /\ rec_index (tale 4 last_index 1) alice_last = 255 /\
  rec_amount (tale 4 last_index 1) alice_last = 1199.
Proof. split; [exact (tale_reaches 4 3 _ 1 eq_refl)|]. exact tale_last. Qed.
(** The script's line for alice's record: 40 seconds to wait.  It claims the record is
    10 seconds old; it is 60 seconds old, but the cooldown went from 100 to 50 since. *)
Example C35_script_ex :
  script_pendings demo_crypto (demo 9) (fun _ => demo 9) (fun _ => 2060) alice =
    Some [line_of (demo 9) alice_record 2060 (cooldown (demo 9) demo_state)] /\
  line_of (demo 9) alice_record 2060 (cooldown (demo 9) demo_state) = ScriptLine 0 alice_record 1199996 2100 false 40 10.
Proof.
  assert (L : line_of (demo 9) alice_record 2060 (cooldown (demo 9) demo_state) = ScriptLine 0 alice_record 1199996 2100 false 40 10).
  { unfold line_of. see 9%nat. }
  rewrite L. destruct demo_reads_each as (_ & _ & _ & _ & _ & R). auto.
Qed.

(** ** C36 *)
Theorem C36_state_reads : forall C cap l sk,
  ordinary_state_address C -> reaches C l -> is_state l sk -> (0 < cap)%nat ->
  rust_escrow C cap l = Some (escrow l sk) /\ js_escrow C cap l = Some (escrow l sk) /\
  rust_cooldown C cap l = Some (cooldown l sk) /\ js_cooldown C cap l = Some (cooldown l sk).
Proof. exact state_reads. Qed.

Theorem C36_vault_reads : forall C l sk vk,
  ordinary_state_address C -> reaches C l -> is_state l sk -> client_vault C sk vk ->
  rust_vault_state C l = Some (vk, sk, orca_mint_id, balance l vk) /\
  js_vault_state C l = Some (vk, sk, orca_mint_id, balance l vk).
Proof. exact vault_reads. Qed.

Theorem C36_supply_reads : forall C l sk,
  ordinary_state_address C -> reaches C l -> is_state l sk ->
  rust_xorca_supply l = Some (supply l) /\ js_xorca_supply l = Some (supply l).
Proof. exact supply_reads. Qed.

(** With one ledger for all reads the answer is exact ... *)
Theorem C36_rate_of_one_ledger : forall C cap l sk vk,
  ordinary_state_address C -> (0 < cap)%nat -> reaches C l -> is_state l sk -> client_vault C sk vk ->
  rust_exchange_rate C cap l l l = Some (free_orca l sk vk, supply l) /\
  js_exchange_rate C cap l l l = Some (free_orca l sk vk, supply l) /\
  script_status C l l l = Some (free_orca l sk vk + 100, supply l + 100).
Proof. exact rate_still. Qed.

(** ... with three it is this mixture ... *)
Theorem C36_rate_of_three_ledgers : forall C cap l1 l2 l3 sk vk,
  ordinary_state_address C -> (0 < cap)%nat -> reaches C l1 -> reaches C l2 -> reaches C l3 ->
  is_state l1 sk -> is_state l2 sk -> is_state l3 sk -> client_vault C sk vk ->
  js_exchange_rate C cap l1 l2 l3 = Some (balance l2 vk - escrow l1 sk, supply l3) /\
  (escrow l1 sk <= balance l2 vk ->
   rust_exchange_rate C cap l1 l2 l3 = Some (balance l2 vk - escrow l1 sk, supply l3)) /\
  (balance l2 vk < escrow l1 sk -> rust_exchange_rate C cap l1 l2 l3 = None) /\
  script_status C l1 l2 l3 = Some (balance l2 vk - escrow l1 sk + 100, supply l3 + 100).
Proof. exact rate_reads. Qed.

(** ... which a withdrawal between the first two reads lowers by the amount paid ... *)
Theorem C36_withdrawal_between_reads : forall C cap l sk vk o i accs t k,
  ordinary_state_address C -> (0 < cap)%nat -> reaches C l -> is_state l sk -> client_vault C sk vk ->
  op_ok C l o -> performs C l o (Withdraw i) accs t -> slot accs 2 k ->
  let l' := fst (run_op C l o) in
  free_orca l' sk vk = free_orca l sk vk /\
  js_exchange_rate C cap l l' l' = Some (free_orca l sk vk - rec_amount l k, supply l) /\
  rust_exchange_rate C cap l l' l' =
    if free_orca l sk vk <? rec_amount l k then None else Some (free_orca l sk vk - rec_amount l k, supply l).
Proof. exact rate_withdraw_between. Qed.

(** ... so it is the rate of neither ledger ... *)
Theorem C36_rate_of_some_ledger_refuted :
  ~ (forall C cap l o sk vk r, ordinary_state_address C -> (0 < cap)%nat -> reaches C l -> is_state l sk -> client_vault C sk vk ->
       op_ok C l o -> let l' := fst (run_op C l o) in
       rust_exchange_rate C cap l l' l' = Some r \/ js_exchange_rate C cap l l' l' = Some r ->
       r = (free_orca l sk vk, supply l) \/ r = (free_orca l' sk vk, supply l')).
Proof. exact mixed_rate_refuted. Qed.

(** ... and may be negative in JS and an error in Rust. *)
Theorem C36_rate_may_fail :
  exists C cap l o sk vk n,
  ordinary_state_address C /\ (0 < cap)%nat /\ reaches C l /\ is_state l sk /\ client_vault C sk vk /\ op_ok C l o /\
  let l' := fst (run_op C l o) in
  rust_exchange_rate C cap l l' l' = None /\ js_exchange_rate C cap l l' l' = Some (n, supply l) /\ n < 0 /\
  0 <= free_orca l sk vk /\ free_orca l' sk vk = free_orca l sk vk /\ supply l > 0.
Proof. exact mixed_rate_fails. Qed.

Example C36_ex :
  reaches demo_crypto (demo 9) /\ is_state (demo 9) demo_state /\ client_vault demo_crypto demo_state demo_vault /\
  free_orca (demo 9) demo_state demo_vault = 7200006 /\ supply (demo 9) = 6000008 /\
  op_ok demo_crypto (demo 9) (demo_call 2100 (withdraw_accs alice alice_orca alice_record) (Withdraw 0)) /\
  performs demo_crypto (demo 9) (demo_call 2100 (withdraw_accs alice alice_orca alice_record) (Withdraw 0))
    (Withdraw 0) (withdraw_accs alice alice_orca alice_record) 2100 /\
  slot (withdraw_accs alice alice_orca alice_record) 2 alice_record /\ rec_amount (demo 9) alice_record = 1199996.
Proof.
  split; [apply demo_reaches|]. split; [see 9%nat|]. split; [exact demo_client_vault|].
  do 2 (split; [see 9%nat|]). split; [apply (demo_op_ok 9 _ eq_refl)|]. split; [demo_call_ok 9%nat|].
  split; [eexists; split; reflexivity|see 9%nat].
Qed.

Print Assumptions C33_never_refused_for_shape.
Print Assumptions C33_stake_accounts.
Print Assumptions C33_unstake_accounts.
Print Assumptions C33_withdraw_accounts.
Print Assumptions C33_initialize_accounts.
Print Assumptions C33_set_accounts.
Print Assumptions C33_script_stake_accounts.
Print Assumptions C33_script_unstake_accounts.
Print Assumptions C33_script_withdraw_accounts.
Print Assumptions C33_script_initialize_accounts.
Print Assumptions C33_script_set_accounts.
Print Assumptions C33_script_stake_works.
Print Assumptions C33_script_unstake_works.
Print Assumptions C33_script_withdraw_works.
Print Assumptions C34_same_derivations.
Print Assumptions C34_script_constants.
Print Assumptions C34_state_and_vault.
Print Assumptions C34_records.
Print Assumptions C34_accepted_addresses.
Print Assumptions C34_records_distinct.
Print Assumptions C34_kinds_distinct.
Print Assumptions C34_js_index_wraps.
Print Assumptions C34_js_index_nan.
Print Assumptions C34_js_indices_distinct_refuted.
Print Assumptions C35_js_sound.
Print Assumptions C35_rust_sound.
Print Assumptions C35_js_lists.
Print Assumptions C35_rust_lists.
Print Assumptions C35_default_limit.
Print Assumptions C35_js_limits.
Print Assumptions C35_server_limit.
Print Assumptions C35_rust_dust.
Print Assumptions C35_rust_always_answers_refuted.
Print Assumptions C35_index_255_never_listed.
Print Assumptions C35_script_lists.
Print Assumptions C36_state_reads.
Print Assumptions C36_vault_reads.
Print Assumptions C36_supply_reads.
Print Assumptions C36_rate_of_one_ledger.
Print Assumptions C36_rate_of_three_ledgers.
Print Assumptions C36_withdrawal_between_reads.
Print Assumptions C36_rate_of_some_ledger_refuted.
Print Assumptions C36_rate_may_fail.
