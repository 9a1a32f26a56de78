(** Who can move what, waiting, limits of the authority, the displayed rate: C49-C58.
    Only statements, one-line proofs, examples and [Print Assumptions]. *)
From Verif Require Import GuardSpec Transaction BytesFacts HistoryFacts LifeFacts PoolHistory TransactionFacts
  GuardFacts FreezeStep TakeFacts ShownFacts Demo DemoMore DemoStory DemoStale GuardRefuted.
From Coq Require Import List.
Import ListNotations.

(** ** C49 *)
(** In any step the vault keeps its balance, receives a deposit from outside,
    receives a stake, or pays one matured record to its owner. *)
Theorem C49_vault_moves : forall C l o sk vk,
  ordinary_state_address C -> reaches C l -> is_state l sk -> is_vault C sk vk -> op_ok C l o ->
  let l' := fst (run_op C l o) in
  balance l' vk = balance l vk \/
  (not_a_call o /\ balance l vk < balance l' vk) \/
  (exists a accs t, performs C l o (Stake a) accs t /\ balance l' vk = balance l vk + a) \/
  (exists i accs t un k uo,
     performs C l o (Withdraw i) accs t /\ pays C l o k /\
     signed_slot accs 0 un /\ slot accs 2 k /\ slot accs 3 uo /\ token_account_of l uo orca_mint_id un /\
     balance l' vk = balance l vk - rec_amount l k /\ balance l' uo = balance l uo + rec_amount l k).
Proof. exact vault_moves. Qed.

(** Nobody has a handle on it: no delegate, no close authority, and the State
    account as only owner. *)
Theorem C49_vault_guarded : forall C l sk vk,
  ordinary_state_address C -> reaches C l -> is_state l sk -> is_vault C sk vk ->
  token_account_of l vk orca_mint_id sk /\ ordinary l vk /\
  ta_delegate_flag (a_data (l vk)) = 0 /\ ta_close_flag (a_data (l vk)) = 0.
Proof. exact vault_guarded. Qed.

(** The donation (deposit), bob's stake, and alice's payout. *)
Example C49_ex :
  reaches demo_crypto (demo 9) /\ is_state (demo 9) demo_state /\ is_vault demo_crypto demo_state demo_vault /\
  op_ok demo_crypto (demo 9) (demo_call 2100 (withdraw_accs alice alice_orca alice_record) (Withdraw 0)) /\
  balance (demo 2) demo_vault = 5000000 /\ balance (demo 3) demo_vault = 6000000 /\
  balance (demo 4) demo_vault = 9000000 /\ balance (demo 9) demo_vault = 9000000 /\
  rec_amount (demo 9) alice_record = 1199996 /\ balance (demo 10) demo_vault = 7800004 /\
  balance (demo 9) alice_orca = 15000000 /\ balance (demo 10) alice_orca = 16199996.
Proof.
  split; [apply demo_reaches|]. split; [see 9%nat|]. split; [exact demo_is_vault|].
  split; [apply (demo_op_ok 9 _ eq_refl)|]. split; [see 2%nat|]. split; [see 3%nat|]. split; [see 4%nat|].
  split; [see 9%nat|]. split; [see 9%nat|]. split; [see 10%nat|]. split; [see 9%nat|see 10%nat].
Qed.

(** ** C50 *)
(** In any step the supply stays, is burned from outside, grows by a stake at the
    quoted price, or shrinks by an unstake. *)
Theorem C50_supply_moves : forall C l o sk vk,
  ordinary_state_address C -> reaches C l -> is_state l sk -> is_vault C sk vk -> op_ok C l o ->
  let l' := fst (run_op C l o) in
  supply l' = supply l \/
  (not_a_call o /\ supply l' < supply l) \/
  (exists a accs t, performs C l o (Stake a) accs t /\
     supply l' = supply l + (if supply l =? 0 then a
                             else a * (supply l + 100) / (free_orca l sk vk + 100))) \/
  (exists x i accs t, performs C l o (Unstake x i) accs t /\ supply l' = supply l - x).
Proof. exact supply_moves. Qed.

(** The State account is the only mint authority and there is no freeze authority. *)
Theorem C50_mint_guarded : forall C l sk,
  ordinary_state_address C -> reaches C l -> is_state l sk ->
  a_owner (l xorca_mint_id) = token_id /\ mint_unpack (a_data (l xorca_mint_id)) = Ok tt /\
  mint_auth_flag (a_data (l xorca_mint_id)) = 1 /\ mint_auth (a_data (l xorca_mint_id)) = sk /\
  mint_freeze_flag (a_data (l xorca_mint_id)) = 0.
Proof. exact mint_guarded. Qed.

(** No xORCA account is ever frozen once the pool exists. *)
Theorem C50_never_frozen : forall C l ops l' evs sk k,
  ordinary_state_address C -> reaches C l -> is_state l sk -> history C l ops l' evs ->
  frozen l' xorca_mint_id k -> frozen l xorca_mint_id k.
Proof. exact never_frozen. Qed.

Example C50_ex :
  reaches demo_crypto (demo 4) /\ is_state (demo 4) demo_state /\
  supply (demo 3) = 5000000 /\ free_orca (demo 3) demo_state demo_vault = 6000000 /\
  supply (demo 4) = 5000000 + 3000000 * (5000000 + 100) / (6000000 + 100) /\
  supply (demo 5) = 6500008 /\
  (exists evs, history demo_crypto (demo 4) (firstn 7 (skipn 4 demo_ops)) (demo 11) evs) /\
  ~ frozen (demo 11) xorca_mint_id alice_xorca.
Proof.
  split; [apply demo_reaches|]. split; [see 4%nat|]. split; [see 3%nat|]. split; [see 3%nat|].
  split; [see 4%nat|]. split; [see 5%nat|]. split; [exact (demo_between 4 7)|].
  intros (_ & _ & _ & H). rewrite (usable_state _ _ _ _ (du_ax _ (demo_usable_at 11 _ eq_refl))) in H. discriminate H.
Qed.

(** ** C51 *)
(** A call takes tokens only from accounts of its first signer, or from the vault to
    pay a record ... *)
Theorem C51_tokens_taken : forall C l E accs data k,
  ordinary_state_address C -> reaches C l -> op_ok C l (OpCall E accs data) ->
  let o := OpCall E accs data in let l' := fst (run_op C l o) in
  loses_tokens l l' k ->
  (exists s mint, signed_slot accs 0 s /\ token_account_of l k mint s) \/
  (exists sk r, is_state l sk /\ is_vault C sk k /\ pays C l o r /\
     balance l' k = balance l k - rec_amount l r).
Proof. exact call_takes_tokens. Qed.

(** ... and lamports only from its first signer (or the signer's wrapped-SOL account),
    or from a record that is paid, which go to the signer. *)
Theorem C51_lamports_taken : forall C l E accs data k,
  ordinary_state_address C -> reaches C l -> op_ok C l (OpCall E accs data) ->
  let o := OpCall E accs data in let l' := fst (run_op C l o) in
  loses_lamports l l' k ->
  (exists s, signed_slot accs 0 s /\
     (k = s \/ (token_account_of l k orca_mint_id s /\ ~ ordinary l k))) \/
  (pays C l o k /\ exists s, signed_slot accs 0 s /\
     a_lamports (l' k) = 0 /\ a_lamports (l' s) = a_lamports (l s) + a_lamports (l k)).
Proof. exact call_takes_lamports. Qed.

(** alice's unstake takes xORCA and rent from alice; the payout empties the record. *)
Example C51_ex :
  reaches demo_crypto (demo 4) /\
  op_ok demo_crypto (demo 4) (demo_call 2000 (unstake_accs alice alice_xorca alice_record) (Unstake 1000000 0)) /\
  token_account_of (demo 4) alice_xorca xorca_mint_id alice /\
  balance (demo 4) alice_xorca = 5000000 /\ balance (demo 5) alice_xorca = 4000000 /\
  a_lamports (demo 4 alice) = 10000000000 /\ a_lamports (demo 5 alice) = 9991982080 /\
  a_lamports (demo 9 alice_record) = 8017920 /\ a_lamports (demo 10 alice_record) = 0 /\
  a_lamports (demo 10 alice) = 10000000000.
Proof.
  split; [apply demo_reaches|]. split; [apply (demo_op_ok 4 _ eq_refl)|].
  split; [apply (usable_active _ _ _ _ (du_ax _ (demo_usable_at 4 _ eq_refl)))|].
  split; [see 4%nat|]. split; [see 5%nat|]. split; [see 4%nat|]. split; [see 5%nat|].
  split; [see 9%nat|]. split; [see 10%nat|see 10%nat].
Qed.

(** ** C52 *)
(** While an account keeps x xORCA, what x is worth never falls ... *)
Theorem C52_waiting_never_costs : forall C l ops l' evs sk vk k x,
  ordinary_state_address C -> reaches C l -> is_state l sk -> is_vault C sk vk ->
  history C l ops l' evs -> 0 < x ->
  (forall n, (n < length ops)%nat -> x <= holds (after C l (firstn n ops)) xorca_mint_id k) ->
  worth l sk vk x <= worth l' sk vk x.
Proof. exact waiting_never_costs. Qed.

(** ... an unstake promises exactly that worth ... *)
Theorem C52_unstake_promises : forall C l o x i accs t sk vk k,
  ordinary_state_address C -> reaches C l -> is_state l sk -> is_vault C sk vk -> op_ok C l o ->
  performs C l o (Unstake x i) accs t -> slot accs 2 k ->
  rec_amount (fst (run_op C l o)) k = worth l sk vk x.
Proof. exact unstake_promises. Qed.

(** ... so whoever waits is promised at least what was quoted before. *)
Theorem C52_patience_pays : forall C l ops l' evs sk vk h x o i accs t k,
  ordinary_state_address C -> reaches C l -> is_state l sk -> is_vault C sk vk ->
  history C l ops l' evs -> 0 < x ->
  (forall n, (n < length ops)%nat -> x <= holds (after C l (firstn n ops)) xorca_mint_id h) ->
  op_ok C l' o -> performs C l' o (Unstake x i) accs t -> slot accs 2 k ->
  worth l sk vk x <= rec_amount (fst (run_op C l' o)) k.
Proof. exact patience_pays. Qed.

Example C52_ex :
  reaches demo_crypto (demo 4) /\ is_state (demo 4) demo_state /\
  (exists evs, history demo_crypto (demo 4) (firstn 3 (skipn 4 demo_ops)) (demo 7) evs) /\
  (forall n, (n < 3)%nat ->
     500000 <= holds (after demo_crypto (demo 4) (firstn n (firstn 3 (skipn 4 demo_ops)))) xorca_mint_id bob_xorca) /\
  worth (demo 4) demo_state demo_vault 500000 = 599998 /\
  op_ok demo_crypto (demo 7) (demo_call 2010 (unstake_accs bob bob_xorca bob_record) (Unstake 500000 7)) /\
  performs demo_crypto (demo 7) (demo_call 2010 (unstake_accs bob bob_xorca bob_record) (Unstake 500000 7))
    (Unstake 500000 7) (unstake_accs bob bob_xorca bob_record) 2010 /\
  slot (unstake_accs bob bob_xorca bob_record) 2 bob_record /\
  rec_amount (demo 8) bob_record = 599998.
Proof.
  split; [apply demo_reaches|]. split; [see 4%nat|]. split; [exact (demo_between 4 3)|].
  split; [exact bob_keeps|]. split; [unfold worth; see 4%nat|]. split; [apply (demo_op_ok 7 _ eq_refl)|].
  split; [demo_call_ok 7%nat|]. split; [eexists; split; reflexivity|see 8%nat].
Qed.

(** ** C53 *)
(** The free ORCA covers what all xORCA accounts together are worth. *)
Theorem C53_all_redeemable : forall C l sk vk ks,
  ordinary_state_address C -> reaches C l -> is_state l sk -> is_vault C sk vk -> NoDup ks ->
  sumZ (map (fun k => worth l sk vk (holds l xorca_mint_id k)) ks) <= free_orca l sk vk.
Proof. exact all_redeemable. Qed.

Example C53_ex :
  reaches demo_crypto (demo 9) /\ is_state (demo 9) demo_state /\ NoDup [alice_xorca; bob_xorca] /\
  sumZ (map (fun k => worth (demo 9) demo_state demo_vault (holds (demo 9) xorca_mint_id k)) [alice_xorca; bob_xorca])
    = 7199985 /\
  free_orca (demo 9) demo_state demo_vault = 7200006.
Proof.
  split; [apply demo_reaches|]. split; [see 9%nat|]. split; [exact demo_holders|].
  split; [exact demo_worths|see 9%nat].
Qed.

(** ** C54 *)
(** The stored authority can always change the settings, whatever else happened. *)
Theorem C54_authority_can_act : forall C E l sk accs data u,
  ordinary_state_address C -> reaches C l -> is_state l sk -> encodes data (Set_ u) ->
  match u with UpdateCoolDownPeriod c => 0 <= c | UpdateUpdateAuthority _ => True end ->
  fills accs (set_roles (authority l sk) sk) ->
  is_ok (process_instruction C E xorca_id accs l data) = true.
Proof. exact set_available. Qed.

Example C54_ex :
  reaches demo_crypto (demo 5) /\ is_state (demo 5) demo_state /\ authority (demo 5) demo_state = admin /\
  fills (set_accs admin) (set_roles admin demo_state) /\
  performs demo_crypto (demo 5) (demo_call 2001 (set_accs admin) (Set_ (UpdateCoolDownPeriod 50)))
    (Set_ (UpdateCoolDownPeriod 50)) (set_accs admin) 2001.
Proof.
  split; [apply demo_reaches|]. split; [see 5%nat|]. split; [see 5%nat|]. split; [demo_fills|demo_call_ok 5%nat].
Qed.

(** ** C55 *)
(** Unstake needs now + cooldown to fit an i64 ... *)
Theorem C55_unstake_needs_time : forall C l o sk x i accs t,
  ordinary_state_address C -> reaches C l -> is_state l sk -> op_ok C l o ->
  performs C l o (Unstake x i) accs t -> t + cooldown l sk <= 9223372036854775807.
Proof. exact cooldown_blocks. Qed.

(** ... so an authority that sets the cooldown to i64::MAX stops every unstake until
    the cooldown is lowered again.  Records already made stay payable (C03, C05). *)
Theorem C55_authority_can_stop_unstaking : forall C E l sk accs data,
  ordinary_state_address C -> reaches C l -> is_state l sk ->
  encodes data (Set_ (UpdateCoolDownPeriod 9223372036854775807)) ->
  fills accs (set_roles (authority l sk) sk) -> op_ok C l (OpCall E accs data) ->
  let l' := fst (run_op C l (OpCall E accs data)) in
  forall ops l2 evs o x i accs2 t,
    history C l' ops l2 evs -> cooldown l2 sk = cooldown l' sk -> 0 < t -> op_ok C l2 o ->
    ~ performs C l2 o (Unstake x i) accs2 t.
Proof. exact block_possible. Qed.

Example C55_ex :
  reaches demo_crypto (demo 5) /\ is_state (demo 5) demo_state /\
  encodes (instruction_bytes (Set_ (UpdateCoolDownPeriod 9223372036854775807)))
    (Set_ (UpdateCoolDownPeriod 9223372036854775807)) /\
  fills (set_accs admin) (set_roles (authority (demo 5) demo_state) demo_state) /\
  op_ok demo_crypto (demo 5) (demo_call 2001 (set_accs admin) (Set_ (UpdateCoolDownPeriod 9223372036854775807))) /\
  performs demo_crypto (demo 4) (demo_call 2000 (unstake_accs alice alice_xorca alice_record) (Unstake 1000000 0))
    (Unstake 1000000 0) (unstake_accs alice alice_xorca alice_record) 2000 /\
  2000 + cooldown (demo 4) demo_state <= 9223372036854775807.
Proof.
  split; [apply demo_reaches|]. split; [see 5%nat|].
  split; [apply instruction_encodes; cbn; unfold is_i64, i64_min, i64_max; lia|].
  split; [assert (E : authority (demo 5) demo_state = admin) by see 5%nat; rewrite E; demo_fills|].
  split; [exact (demo_set_ok _ _)|]. split; [demo_call_ok 4%nat|see 4%nat; lia].
Qed.

(** ** C56 *)
(** A mint without freeze authority, but with bytes left where it was stored, can
    never be used: Initialize fails for ever ... *)
Theorem C56_left_over_bytes_block : forall C l ops l' evs,
  ordinary_state_address C -> reaches C l -> (forall k, ~ is_state l k) ->
  a_owner (l xorca_mint_id) = token_id -> mint_unpack (a_data (l xorca_mint_id)) = Ok tt ->
  0 < a_lamports (l xorca_mint_id) ->
  mint_freeze_flag (a_data (l xorca_mint_id)) = 0 ->
  mint_freeze (a_data (l xorca_mint_id)) <> zero_key ->
  history C l ops l' evs ->
  (forall k, ~ is_state l' k) /\ evs = [] /\
  forall o' c accs t, op_ok C l' o' -> ~ performs C l' o' (Initialize c) accs t.
Proof. exact stale_blocks. Qed.

(** ... which is what revoking a freeze authority leaves behind. *)
Theorem C56_revoking_blocks : forall C l E signers extra a ops l' evs,
  ordinary_state_address C -> reaches C l -> (forall k, ~ is_state l k) ->
  let o := OpToken E signers extra (TC_SetAuthority xorca_mint_id a FreezeAccount None) in
  let l1 := fst (run_op C l o) in
  op_ok C l o ->
  0 < a_lamports (l xorca_mint_id) ->
  mint_freeze_flag (a_data (l xorca_mint_id)) = 1 -> mint_freeze (a_data (l xorca_mint_id)) <> zero_key ->
  mint_freeze_flag (a_data (l1 xorca_mint_id)) = 0 ->
  history C l1 ops l' evs ->
  (forall k, ~ is_state l' k) /\ evs = [] /\
  forall o' c accs t, op_ok C l' o' -> ~ performs C l' o' (Initialize c) accs t.
Proof. exact revoked_blocks. Qed.

(** So "Initialize works when the mint has no freeze authority" is false. *)
Theorem C56_unfrozen_mint_enough_refuted :
  ~ (forall C E l accs data c auth sk sb vk,
      ordinary_state_address C -> deployer_has_key C -> reaches C l -> (forall k, ~ is_state l k) ->
      mints_unfrozen l sk ->
      find_state_address C = Some (sk, sb) -> is_vault C sk vk -> sk <> vk ->
      op_ok C l (OpCall E accs data) ->
      fills accs (init_roles deployer_address auth sk vk) -> encodes data (Initialize c) -> 0 <= c ->
      wallet l vk -> wallet l deployer_address ->
      rent_min E 2048 + rent_min E 165 <= a_lamports (l deployer_address) ->
      a_lamports (l sk) + a_lamports (l vk) + a_lamports (l deployer_address) <= u64_max ->
      is_ok (process_instruction C E xorca_id accs l data) = true).
Proof. exact unfrozen_not_enough. Qed.

Example C56_ex :
  reaches demo_crypto iced0 /\ (forall k, ~ is_state iced0 k) /\ op_ok demo_crypto iced0 revoke /\
  0 < a_lamports (iced0 xorca_mint_id) /\ mint_freeze_flag (a_data (iced0 xorca_mint_id)) = 1 /\
  mint_freeze (a_data (iced0 xorca_mint_id)) <> zero_key /\
  iced1 = fst (run_op demo_crypto iced0 revoke) /\
  mints_unfrozen iced1 demo_state /\ mint_freeze (a_data (iced1 xorca_mint_id)) = admin /\
  process_instruction demo_crypto (demo_env 1000) xorca_id (init_accs admin) iced1
    (instruction_bytes (Initialize 100)) = Err (custom InvalidAccountData).
Proof.
  split; [exact iced_reaches|]. split; [exact iced_fresh|]. split; [exact (revoke_ok _)|].
  split; [vm_compute; reflexivity|]. split; [vm_compute; reflexivity|].
  split; [intros H; apply (f_equal key_bytes) in H; vm_compute in H; discriminate H|].
  split; [reflexivity|]. split; [apply revoked_summary|]. split; [apply revoked_summary|exact revoked_initialize].
Qed.

(** ** C57 *)
(** The displayed rate, free ORCA over supply, is at least 1 ... *)
Theorem C57_rate_at_least_one : forall C l sk vk,
  ordinary_state_address C -> reaches C l -> is_state l sk -> is_vault C sk vk ->
  supply l <= free_orca l sk vk.
Proof. exact shown_at_least_one. Qed.

(** ... only a Stake can lower it ... *)
Theorem C57_only_stake_lowers : forall C l o sk vk,
  ordinary_state_address C -> reaches C l -> is_state l sk -> is_vault C sk vk -> op_ok C l o ->
  (forall a accs t, ~ performs C l o (Stake a) accs t) ->
  let l' := fst (run_op C l o) in
  free_orca l sk vk * supply l' <= free_orca l' sk vk * supply l.
Proof. exact shown_step. Qed.

(** ... and it never falls below any earlier price with the 100 virtual units. *)
Theorem C57_rate_floor : forall C l ops l' evs sk vk,
  ordinary_state_address C -> reaches C l -> is_state l sk -> is_vault C sk vk ->
  history C l ops l' evs ->
  (forall n, (n < length ops)%nat -> 0 < supply (after C l (firstn n ops))) ->
  (free_orca l sk vk + 100) * supply l' <= free_orca l' sk vk * (supply l + 100).
Proof. exact shown_floor. Qed.

(** But it can fall: the price of a stake includes the virtual units. *)
Theorem C57_rate_monotone_refuted :
  ~ (forall C l o sk vk,
      ordinary_state_address C -> reaches C l -> is_state l sk -> is_vault C sk vk -> op_ok C l o ->
      0 < supply l ->
      let l' := fst (run_op C l o) in
      free_orca l sk vk * supply l' <= free_orca l' sk vk * supply l).
Proof. exact shown_can_fall. Qed.

(** alice stakes 1, bob donates 999, alice stakes 1000: the rate drops from 1000 to
    21.7, still above the price (1000 + 100) / (1 + 100) paid. *)
Example C57_ex :
  reaches demo_crypto (tale 1 tiny_story 2) /\ is_state (tale 1 tiny_story 2) demo_state /\
  free_orca (tale 1 tiny_story 2) demo_state demo_vault = 1000 /\ supply (tale 1 tiny_story 2) = 1 /\
  performs demo_crypto (tale 1 tiny_story 2)
    (demo_call 1200 (stake_accs alice alice_orca alice_xorca) (Stake 1000)) (Stake 1000)
    (stake_accs alice alice_orca alice_xorca) 1200 /\
  free_orca (tale 1 tiny_story 3) demo_state demo_vault = 2000 /\ supply (tale 1 tiny_story 3) = 92.
Proof.
  split; [exact (tale_reaches 1 0 _ 2 eq_refl)|]. split; [told 1%nat 0%nat 1%nat|].
  split; [told 1%nat 0%nat 1%nat|]. split; [told 1%nat 0%nat 1%nat|]. split; [tells 1%nat 0%nat 2%nat|].
  split; [told 1%nat 0%nat 2%nat|told 1%nat 0%nat 2%nat].
Qed.

(** ** C58 *)
(** The vault's balance is what the events say was staked, minus what they say was
    paid, plus outside deposits; so payouts never exceed stakes and deposits. *)
Theorem C58_vault_from_log : forall C l0 ops l evs sk vk,
  ordinary_state_address C -> genesis C l0 -> history C l0 ops l evs -> is_state l sk -> is_vault C sk vk ->
  exists ops1 o ops2 c accs t,
    ops = ops1 ++ o :: ops2 /\ performs C (after C l0 ops1) o (Initialize c) accs t /\
    let d := deposited_outside C vk (after C l0 (ops1 ++ [o])) ops2 in
    balance l vk = over ev_staked evs - over ev_paid evs + d /\ 0 <= d /\
    over ev_paid evs <= over ev_staked evs + d.
Proof. exact vault_log. Qed.

Example C58_ex :
  let log := concat (map (fun p => snd (fst p)) demo_trace) in
  over ev_staked log = 8000000 /\ over ev_paid log = 1199996 /\
  balance (demo 2) demo_vault = 5000000 /\ balance (demo 3) demo_vault = 6000000 /\
  balance (demo 11) demo_vault = 8000000 - 1199996 + 1000000.
Proof.
  cbn zeta. do 2 (split; [vm_compute; reflexivity|]). split; [see 2%nat|]. split; [see 3%nat|see 11%nat].
Qed.

Print Assumptions C49_vault_moves.
Print Assumptions C49_vault_guarded.
Print Assumptions C50_supply_moves.
Print Assumptions C50_mint_guarded.
Print Assumptions C50_never_frozen.
Print Assumptions C51_tokens_taken.
Print Assumptions C51_lamports_taken.
Print Assumptions C52_waiting_never_costs.
Print Assumptions C52_unstake_promises.
Print Assumptions C52_patience_pays.
Print Assumptions C53_all_redeemable.
Print Assumptions C54_authority_can_act.
Print Assumptions C55_unstake_needs_time.
Print Assumptions C55_authority_can_stop_unstaking.
Print Assumptions C56_left_over_bytes_block.
Print Assumptions C56_revoking_blocks.
Print Assumptions C57_rate_at_least_one.
Print Assumptions C57_only_stake_lowers.
Print Assumptions C57_rate_floor.
Print Assumptions C58_vault_from_log.
Print Assumptions C56_unfrozen_mint_enough_refuted.
Print Assumptions C57_rate_monotone_refuted.
