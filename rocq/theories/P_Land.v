(** C79: packets on the chain: fees and the rent check. *)
From Verif Require Import LandSpec LandFacts LandScripts WireSpec ExecSpec
  Demo DemoMore DemoClient DemoScripts DemoWire DemoExec DemoLand.
Import List ListNotations.
Open Scope list_scope.
Open Scope Z_scope.

(** The first signer pays 5000 lamports for every signature.  Then the instructions run, and
    what they did stays only if no account became rent-paying; the fee stays paid. *)
Theorem C79_pays : forall C E verify reserved tables l d y payer rest,
  says verify tables d y -> lay_signers y = payer :: rest -> can_pay E l payer (fee_of y) ->
  let l1 := paid l payer (fee_of y) in
  let r := packet C E verify reserved tables l1 d in
  (all_pass E l1 (fst r) -> land C E verify reserved tables l d = r) /\
  (~ all_pass E l1 (fst r) -> land C E verify reserved tables l d = (l1, [])).
Proof. exact land_pays. Qed.

(** Packets that say nothing, or whose payer cannot pay, do nothing. *)
Theorem C79_free : forall C E verify reserved tables l d,
  (forall y payer rest, says verify tables d y -> lay_signers y = payer :: rest -> ~ can_pay E l payer (fee_of y)) ->
  land C E verify reserved tables l d = (l, []).
Proof. exact land_free. Qed.

(** There is nothing else. *)
Theorem C79_cases : forall C E verify reserved tables l d,
  land C E verify reserved tables l d = (l, []) \/
  exists y payer rest, says verify tables d y /\ lay_signers y = payer :: rest /\ can_pay E l payer (fee_of y) /\
    carries verify d payer /\
    let l1 := paid l payer (fee_of y) in
    let r := packet C E verify reserved tables l1 d in
    (land C E verify reserved tables l d = r /\ all_pass E l1 (fst r)) \/
    land C E verify reserved tables l d = (l1, []).
Proof. exact land_cases. Qed.

Example C79_ex :
  (* Alice's withdrawal *)
  (exists y rest, says toy_verify toy_tables withdraw_packet y /\ lay_signers y = alice :: rest /\
    fee_of y = 5000 /\ can_pay (demo_env 2100) (chain 7) alice 5000 /\
    all_pass (demo_env 2100) (paid (chain 7) alice 5000)
      (fst (packet demo_crypto (demo_env 2100) toy_verify toy_reserved toy_tables (paid (chain 7) alice 5000) withdraw_packet)) /\
    chain 8 = fst (packet demo_crypto (demo_env 2100) toy_verify toy_reserved toy_tables (paid (chain 7) alice 5000) withdraw_packet)) /\
  (* too early it costs the fee *)
  chain 7 = fst (land demo_crypto (demo_env 2050) toy_verify toy_reserved toy_tables (chain 6) withdraw_packet) /\
  a_lamports (chain 6 alice) = 9991972080 /\ a_lamports (chain 7 alice) = 9991967080 /\
  balance (chain 6) demo_vault = 15000000 /\ balance (chain 7) demo_vault = 15000000 /\ is_record (chain 7) alice_record /\
  balance (chain 8) demo_vault = 13800004 /\ ~ is_record (chain 8) alice_record /\
  (* too few lamports for an account *)
  (exists y rest, says toy_verify toy_tables dust_packet y /\ lay_signers y = alice :: rest /\ fee_of y = 5000) /\
  can_pay (demo_env 0) shop0 alice 5000 /\
  ~ all_pass (demo_env 0) (paid shop0 alice 5000)
      (fst (packet demo_crypto (demo_env 0) toy_verify toy_reserved toy_tables (paid shop0 alice 5000) dust_packet)) /\
  a_lamports (fst (land demo_crypto (demo_env 0) toy_verify toy_reserved toy_tables shop0 dust_packet) alice) = 9999995000 /\
  a_lamports (fst (land demo_crypto (demo_env 0) toy_verify toy_reserved toy_tables shop0 dust_packet) demo_vault) = 0 /\
  (* a poor payer *)
  (forall y payer rest, says toy_verify toy_tables dust_packet y -> lay_signers y = payer :: rest ->
     ~ can_pay (demo_env 0) (paid shop0 alice 9999996000) payer (fee_of y)).
Proof.
  split; [exact withdraw_lands|]. split; [exact (chain_step 6 2050 withdraw_packet eq_refl)|].
  split; [chain_see 6%nat|]. split; [chain_see 7%nat|]. split; [chain_see 6%nat|]. split; [chain_see 7%nat|].
  split; [exact (seen_record 7 _ _ eq_refl)|]. split; [chain_see 8%nat|]. split; [exact (seen_no_record 8 _ _ eq_refl)|].
  split; [exact (packet_layout _ _ alice 1 dust_receives eq_refl)|].
  split; [apply may_pay_iff; vm_compute; reflexivity|]. split; [exact (proj2 dust_fails)|].
  split; [vm_compute; reflexivity|]. split; [vm_compute; reflexivity|].
  intros y payer rest S Q P. destruct (says_fee _ _ _ _ S) as (payer' & rest' & Q' & F).
  assert (F' : fee_parts dust_packet = Some (alice, 1%nat)) by (vm_compute; reflexivity).
  rewrite F' in F. assert (payer = alice) by congruence. subst payer.
  assert (L : length (lay_signers y) = 1%nat) by congruence.
  unfold fee_of in P. rewrite L in P. apply may_pay_iff in P. vm_compute in P. discriminate P.
Qed.

(** The packet of a script's transaction does what the script's steps do, for the fee. *)
Theorem C79_script : forall C E l0 l before signature verify reserved tables hash fee signers ops ixs payer ss r,
  signs_well signature verify signers -> script_sends C E l0 fee signers ops -> is_payer fee signers payer ->
  instructions_of ops = Some ixs -> ~ is_called ixs payer ->
  (forall b m, In b ixs -> In m (b_accounts b) -> m_writable m = true ->
     reserved (m_key m) = false /\ ~ is_called ixs (m_key m)) ->
  lists ss (must_sign payer ixs) ->
  let n := 5000 * Z.of_nat (length ss) in
  let l1 := paid l payer n in
  can_pay E l payer n -> creates_new l1 ops -> attempt_all C l1 ops = Ok r ->
  exists d, wire before signature hash fee signers ixs = Some d /\
    (all_pass E l1 (fst r) -> land C E verify reserved tables l d = r) /\
    (~ all_pass E l1 (fst r) -> land C E verify reserved tables l d = (l1, [])).
Proof. exact land_script. Qed.

Example C79_script_ex :
  script_sends demo_crypto (demo_env 1000) (shop 1) None [deployer_address; admin] (nth 1 shop_txs []) /\
  instructions_of (nth 1 shop_txs []) = Some start_ixs /\
  lists (signing deployer_address start_ixs) (must_sign deployer_address start_ixs) /\
  length (signing deployer_address start_ixs) = 2%nat /\
  wire toy_before toy_signature admin None [deployer_address; admin] start_ixs = Some start_packet /\
  chain 2 = fst (land demo_crypto (demo_env 1000) toy_verify toy_reserved toy_tables (chain 1) start_packet) /\
  a_lamports (chain 1 deployer_address) = 10000000000 /\ a_lamports (chain 2 deployer_address) = 9982805760 /\
  10000000000 - 9982805760 = 2 * 5000 + rent_min (demo_env 1000) 2048 + rent_min (demo_env 1000) 165.
Proof.
  split; [eapply SendsInitialize; shop_asks 1%nat 0%nat|]. split; [vm_compute; reflexivity|].
  split; [apply signing_lists|]. split; [vm_compute; reflexivity|]. split; [vm_compute; reflexivity|].
  split; [exact (chain_step 1 1000 start_packet eq_refl)|]. split; [chain_see 1%nat|]. split; [chain_see 2%nat|].
  vm_compute. reflexivity.
Qed.

(** Packets lead from reachable states to reachable states, one ... *)
Theorem C79_reaches : forall C E verify reserved tables l d,
  ordinary_state_address C -> curve_only C verify -> ata_apart C -> sysvars_ok E ->
  reaches C l -> reaches C (fst (land C E verify reserved tables l d)).
Proof. exact land_reaches. Qed.
(** ... or many, at any times; so what holds in all reachable states holds on the chain. *)
Theorem C79_reach : forall C verify reserved,
  forall ds l,
  ordinary_state_address C -> curve_only C verify -> ata_apart C -> Forall (fun p => sysvars_ok (fst (fst p))) ds ->
  reaches C l -> reaches C (fst (lands C verify reserved l ds)).
Proof. exact lands_reach. Qed.

Example C79_reaches_ex :
  reaches demo_crypto (chain 9) /\
  chain 9 = fst (lands demo_crypto toy_verify toy_reserved shop0
    (map (fun p => (demo_env (fst p), toy_tables, snd p)) chain_packets)) /\
  reaches demo_crypto shop0 /\ curve_only demo_crypto toy_verify /\ ata_apart demo_crypto /\ ordinary_state_address demo_crypto.
Proof.
  split; [apply chain_reaches|]. split; [reflexivity|]. split; [exact (shop_reaches 0)|].
  split; [exact toy_curve_only|]. split; [exact demo_ata_apart|exact demo_ordinary].
Qed.

(** Who can do what (C77) stays true. *)
Theorem C79_settings : forall C E verify reserved tables l d sk,
  ordinary_state_address C -> curve_only C verify -> ata_apart C -> sysvars_ok E ->
  reaches C l -> is_state l sk ->
  let l' := fst (land C E verify reserved tables l d) in
  is_state l' sk /\
  (authority l' sk <> authority l sk \/ cooldown l' sk <> cooldown l sk -> carries verify d (authority l sk)).
Proof. exact land_settings. Qed.

Example C79_settings_ex :
  reaches demo_crypto (chain 8) /\ is_state (chain 8) demo_state /\ sysvars_ok (demo_env 2200) /\
  chain 9 = fst (land demo_crypto (demo_env 2200) toy_verify toy_reserved toy_tables (chain 8) cooldown_packet) /\
  cooldown (chain 8) demo_state = 100 /\ cooldown (chain 9) demo_state = 50.
Proof.
  split; [apply chain_reaches|]. split; [exact (seen_state 8 _ _ eq_refl)|]. split; [now apply demo_time|].
  split; [exact (chain_step 8 2200 cooldown_packet eq_refl)|]. split; [chain_see 8%nat|chain_see 9%nat].
Qed.

Theorem C79_record : forall C E verify reserved tables l d sk k,
  ordinary_state_address C -> curve_only C verify -> ata_apart C -> sysvars_ok E ->
  reaches C l -> is_state l sk -> is_record l k ->
  let l' := fst (land C E verify reserved tables l d) in
  (is_record l' k /\ a_data (l' k) = a_data (l k)) \/
  (rec_time l k <= now E /\
   (carries verify d (rec_owner l k) \/
    exists l1 un, landing C E verify d l l1 /\ carries verify d un /\ collision C (claimants l1 un))).
Proof. exact land_record. Qed.

Theorem C79_new_record : forall C E verify reserved tables l d sk k,
  ordinary_state_address C -> curve_only C verify -> ata_apart C -> sysvars_ok E ->
  reaches C l -> is_state l sk ->
  let l' := fst (land C E verify reserved tables l d) in
  ~ is_record l k -> is_record l' k -> carries verify d (rec_owner l' k) /\ now E <= rec_time l' k.
Proof. exact land_new_record. Qed.

Theorem C79_vault : forall C E verify reserved tables l d sk vk,
  ordinary_state_address C -> curve_only C verify -> ata_apart C -> sysvars_ok E ->
  reaches C l -> is_state l sk -> is_vault C sk vk ->
  let l' := fst (land C E verify reserved tables l d) in
  balance l' vk < balance l vk ->
  exists l1 un k, landing C E verify d l l1 /\ is_record l1 k /\ rec_time l1 k <= now E /\ carries verify d un /\
    (rec_owner l1 k = un \/ collision C (claimants l1 un)).
Proof. exact land_vault. Qed.

Example C79_record_ex :
  reaches demo_crypto (chain 5) /\ is_state (chain 5) demo_state /\ ~ is_record (chain 5) alice_record /\
  chain 6 = fst (land demo_crypto (demo_env 2000) toy_verify toy_reserved toy_tables (chain 5) unstake_packet) /\
  is_record (chain 6) alice_record /\
  reaches demo_crypto (chain 7) /\ is_state (chain 7) demo_state /\ is_record (chain 7) alice_record /\
  is_vault demo_crypto demo_state demo_vault /\
  chain 8 = fst (land demo_crypto (demo_env 2100) toy_verify toy_reserved toy_tables (chain 7) withdraw_packet) /\
  balance (chain 7) demo_vault = 15000000 /\ balance (chain 8) demo_vault = 13800004.
Proof.
  split; [apply chain_reaches|]. split; [exact (seen_state 5 _ _ eq_refl)|]. split; [exact (seen_no_record 5 _ _ eq_refl)|].
  split; [exact (chain_step 5 2000 unstake_packet eq_refl)|]. split; [exact (seen_record 6 _ _ eq_refl)|].
  split; [apply chain_reaches|]. split; [exact (seen_state 7 _ _ eq_refl)|]. split; [exact (seen_record 7 _ _ eq_refl)|].
  split; [exact demo_is_vault|]. split; [exact (chain_step 7 2100 withdraw_packet eq_refl)|].
  split; [chain_see 7%nat|chain_see 8%nat].
Qed.

Theorem C79_supply : forall C E verify reserved tables l d sk vk,
  ordinary_state_address C -> curve_only C verify -> ata_apart C -> sysvars_ok E ->
  reaches C l -> is_state l sk -> is_vault C sk vk ->
  let l' := fst (land C E verify reserved tables l d) in
  supply l < supply l' ->
  exists l1 staker so, landing C E verify d l l1 /\ token_account_of l1 so orca_mint_id staker /\ carries verify d staker.
Proof. exact land_supply. Qed.

Example C79_supply_ex :
  reaches demo_crypto (chain 2) /\ is_state (chain 2) demo_state /\ is_vault demo_crypto demo_state demo_vault /\
  chain 3 = fst (land demo_crypto (demo_env 1100) toy_verify toy_reserved toy_tables (chain 2) stake_packet) /\
  supply (chain 2) = 0 /\ supply (chain 3) = 5000000.
Proof.
  split; [apply chain_reaches|]. split; [exact (seen_state 2 _ _ eq_refl)|]. split; [exact demo_is_vault|].
  split; [exact (chain_step 2 1100 stake_packet eq_refl)|]. split; [chain_see 2%nat|chain_see 3%nat].
Qed.

Theorem C79_birth : forall C E verify reserved tables l d,
  ordinary_state_address C -> curve_only C verify -> ata_apart C -> sysvars_ok E ->
  reaches C l -> (forall k, ~ is_state l k) ->
  let l' := fst (land C E verify reserved tables l d) in
  (exists sk, is_state l' sk) -> carries verify d deployer_address.
Proof. exact land_birth. Qed.

Example C79_birth_ex :
  reaches demo_crypto (chain 1) /\ (forall k, ~ is_state (chain 1) k) /\
  chain 2 = fst (land demo_crypto (demo_env 1000) toy_verify toy_reserved toy_tables (chain 1) start_packet) /\
  is_state (chain 2) demo_state.
Proof.
  split; [apply chain_reaches|]. split; [exact chain1_no_state|].
  split; [exact (chain_step 1 1000 start_packet eq_refl)|exact (seen_state 2 _ _ eq_refl)].
Qed.

(** Whoever did not sign loses nothing, no fee either. *)
Theorem C79_funds : forall C E verify reserved tables l d u,
  ordinary_state_address C -> curve_only C verify -> ata_apart C -> sysvars_ok E -> reaches C l ->
  on_curve C u = true -> a_owner (l u) = system_id -> system_or_incinerator u = false -> ~ carries verify d u ->
  let l' := fst (land C E verify reserved tables l d) in
  a_owner (l' u) = system_id /\ a_lamports (l u) <= a_lamports (l' u) /\
  forall k mint, token_account_of l k mint u -> ordinary l k ->
    ta_delegate_flag (a_data (l k)) = 0 -> ta_close_flag (a_data (l k)) = 0 ->
    token_account_of l' k mint u /\ ordinary l' k /\
    ta_delegate_flag (a_data (l' k)) = 0 /\ ta_close_flag (a_data (l' k)) = 0 /\ balance l k <= balance l' k.
Proof. exact land_funds. Qed.

Example C79_funds_ex :
  reaches demo_crypto shop0 /\ on_curve demo_crypto alice = true /\ a_owner (shop0 alice) = system_id /\
  system_or_incinerator alice = false /\ ~ carries toy_verify mint_packet alice /\
  token_account_of shop0 alice_orca orca_mint_id alice /\ ordinary shop0 alice_orca /\
  ta_delegate_flag (a_data (shop0 alice_orca)) = 0 /\ ta_close_flag (a_data (shop0 alice_orca)) = 0 /\
  a_lamports (shop0 admin) = 10000000000 /\
  chain 1 = fst (land demo_crypto (demo_env 900) toy_verify toy_reserved toy_tables shop0 mint_packet) /\
  a_lamports (chain 1 admin) = 9999995000 /\ a_lamports (chain 1 alice) = 10000000000.
Proof.
  split; [exact (shop_reaches 0)|]. do 3 (split; [vm_compute; reflexivity|]).
  split; [apply not_carried; vm_compute; reflexivity|].
  split; [repeat split; vm_compute; reflexivity|]. do 4 (split; [vm_compute; reflexivity|]).
  split; [exact (chain_step 0 900 mint_packet eq_refl)|]. split; [chain_see 1%nat|chain_see 1%nat].
Qed.

Print Assumptions C79_pays.
Print Assumptions C79_free.
Print Assumptions C79_cases.
Print Assumptions C79_script.
Print Assumptions C79_reaches.
Print Assumptions C79_reach.
Print Assumptions C79_settings.
Print Assumptions C79_record.
Print Assumptions C79_new_record.
Print Assumptions C79_vault.
Print Assumptions C79_supply.
Print Assumptions C79_birth.
Print Assumptions C79_funds.
