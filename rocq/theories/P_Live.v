(** What users can always do: C03, C08, C27, C40, C41.
    Only statements, one-line proofs, examples and [Print Assumptions]. *)
From Verif Require Import Spec Transaction BytesFacts HistoryFacts LifeFacts ClaimFacts LiveFacts Demo DemoMore.

(** ** C03 *)
Theorem C03_matured_withdrawal_claimable : forall C E l sk vk accs data un k uo i,
  ordinary_state_address C -> reaches C l -> is_state l sk -> is_vault C sk vk ->
  op_ok C l (OpCall E accs data) -> encodes data (Withdraw i) ->
  fills accs (withdraw_roles un sk k uo vk) ->
  is_record l k -> rec_owner l k = un -> rec_index l k = i -> rec_time l k <= now E ->
  active_account l uo orca_mint_id un -> ta_state (a_data (l vk)) = 1 ->
  balance l uo + rec_amount l k <= u64_max -> a_lamports (l un) + a_lamports (l k) <= u64_max ->
  is_ok (process_instruction C E xorca_id accs l data) = true.
Proof. exact withdraw_live. Qed.

Example C03_ex :
  reaches demo_crypto (demo 9) /\ is_state (demo 9) demo_state /\ is_vault demo_crypto demo_state demo_vault /\
  op_ok demo_crypto (demo 9) (demo_call 2100 (withdraw_accs alice alice_orca alice_record) (Withdraw 0)) /\
  fills (withdraw_accs alice alice_orca alice_record)
    (withdraw_roles alice demo_state alice_record alice_orca demo_vault) /\
  is_record (demo 9) alice_record /\ rec_owner (demo 9) alice_record = alice /\
  rec_index (demo 9) alice_record = 0 /\ rec_time (demo 9) alice_record = 2100 /\
  active_account (demo 9) alice_orca orca_mint_id alice /\ ta_state (a_data (demo 9 demo_vault)) = 1 /\
  balance (demo 9) alice_orca + rec_amount (demo 9) alice_record <= u64_max /\
  a_lamports (demo 9 alice) + a_lamports (demo 9 alice_record) <= u64_max.
Proof.
  split; [apply demo_reaches|]. split; [see 9%nat|]. split; [exact demo_is_vault|].
  split; [apply (demo_op_ok 9 _ eq_refl)|]. split; [demo_fills|].
  do 4 (split; [see 9%nat|]).
  split; [exact (usable_active _ _ _ _ (du_ao _ (demo_usable_at 9 _ eq_refl)))|]. split; [exact (usable_state _ _ _ _ (du_vault _ (demo_usable_at 9 _ eq_refl)))|].
  split; see 9%nat; unfold u64_max; lia.
Qed.

(** ** C08 *)
Theorem C08_index_in_use : forall C l E accs data x i un k b,
  sysvars_ok E -> honest_metas C accs -> encodes data (Unstake x i) -> slot accs 0 un ->
  find_pending_withdraw_address C un i = Some (k, b) ->
  a_owner (l k) <> system_id \/ a_data (l k) <> [] ->
  run_op C l (OpCall E accs data) = (l, []).
Proof. exact index_in_use. Qed.

Theorem C08_index_freed : forall C l o sk i accs t un k,
  ordinary_state_address C -> reaches C l -> is_state l sk -> op_ok C l o ->
  performs C l o (Withdraw i) accs t -> slot accs 0 un -> slot accs 2 k ->
  collision C (claimants l un) \/
  ((exists b, find_pending_withdraw_address C un i = Some (k, b)) /\
   ~ is_record (fst (run_op C l o)) k /\ a_lamports (fst (run_op C l o) k) = 0).
Proof. exact index_freed. Qed.

Theorem C08_index_reusable : forall C l o sk vk i accs t un k E accs' data x ux,
  ordinary_state_address C -> reaches C l -> is_state l sk -> is_vault C sk vk -> op_ok C l o ->
  performs C l o (Withdraw i) accs t -> slot accs 0 un -> slot accs 2 k ->
  let l' := fst (run_op C l o) in
  op_ok C l' (OpCall E accs' data) -> encodes data (Unstake x i) ->
  fills accs' (unstake_roles un sk k ux vk) ->
  active_account l' ux xorca_mint_id un -> no_self_delegate l' ux un -> 0 < x <= balance l' ux ->
  wallet l' un -> rent_min E 1024 <= a_lamports (l' un) ->
  is_i64 (now E + cooldown l' sk) -> balance l' vk < 2 ^ 63 ->
  is_ok (process_instruction C E xorca_id accs' l' data) = true \/ collision C (claimants l un).
Proof. exact index_reusable. Qed.

(** [collision] is not always true: a hash without one for alice and bob. *)
Example C08_no_collision_ex : ~ collision spread (fun u => u = alice \/ u = bob).
Proof. exact spread_free. Qed.

(** Index 0 of alice is refused while its record exists and accepted after the
    withdrawal. *)
Example C08_ex :
  is_record (demo 9) alice_record /\
  process_instruction demo_crypto (demo_env 2100) xorca_id (unstake_accs alice alice_xorca alice_record) (demo 9)
    (instruction_bytes (Unstake 1000 0)) = Err (custom IncorrectOwner) /\
  performs demo_crypto (demo 9) (demo_call 2100 (withdraw_accs alice alice_orca alice_record) (Withdraw 0))
    (Withdraw 0) (withdraw_accs alice alice_orca alice_record) 2100 /\
  is_ok (process_instruction demo_crypto (demo_env 2150) xorca_id (unstake_accs alice alice_xorca alice_record)
    (demo 10) (instruction_bytes (Unstake 1000 0))) = true.
Proof.
  split; [see 9%nat|]. split; [probe 9%nat 1%nat|]. split; [demo_call_ok 9%nat|probe 10%nat 2%nat].
Qed.

(** ** C27 *)
Theorem C27_prefunding_cannot_block : forall C E accs data x i l l2 un k,
  sysvars_ok E -> honest_metas C accs -> encodes data (Unstake x i) -> slot accs 0 un -> slot accs 2 k ->
  (forall a, a_owner (l2 a) = a_owner (l a) /\ a_data (l2 a) = a_data (l a)) ->
  0 <= a_lamports (l k) <= a_lamports (l2 k) -> a_lamports (l un) <= a_lamports (l2 un) ->
  is_ok (process_instruction C E xorca_id accs l data) = true ->
  is_ok (process_instruction C E xorca_id accs l2 data) = true.
Proof. exact prefund. Qed.

(** bob's record address with and without 7 lamports on it (stages 6 and 7 of the
    demo), and with a million. *)
Example C27_ex :
  is_ok (process_instruction demo_crypto (demo_env 2010) xorca_id (unstake_accs bob bob_xorca bob_record)
    (demo 6) (instruction_bytes (Unstake 500000 7))) = true /\
  performs demo_crypto (demo 7) (demo_call 2010 (unstake_accs bob bob_xorca bob_record) (Unstake 500000 7))
    (Unstake 500000 7) (unstake_accs bob bob_xorca bob_record) 2010 /\
  is_ok (process_instruction demo_crypto (demo_env 2010) xorca_id (unstake_accs bob bob_xorca bob_record)
    (set_lamports (demo 6) bob_record 1000000) (instruction_bytes (Unstake 500000 7))) = true.
Proof.
  assert (Q : is_ok (process_instruction demo_crypto (demo_env 2010) xorca_id (unstake_accs bob bob_xorca bob_record)
    (demo 6) (instruction_bytes (Unstake 500000 7))) = true) by probe 6%nat 0%nat.
  split; [exact Q|]. split; [demo_call_ok 7%nat|].
  refine (C27_prefunding_cannot_block demo_crypto (demo_env 2010) (unstake_accs bob bob_xorca bob_record) _ 500000 7
    (demo 6) _ bob bob_record _ _ _ _ _ _ _ _ Q).
  - apply demo_sysvars. unfold is_i64, i64_min, i64_max. lia.
  - apply (demo_op_ok 7 _ eq_refl (demo 7)).
  - apply instruction_encodes. cbn. unfold is_u64, is_u8, u64_max. lia.
  - exists (ws bob). auto.
  - exists (w_ bob_record). auto.
  - intros a. split; [exact (LedgerFacts.set_lamports_owner _ _ _ _)|exact (LedgerFacts.set_lamports_data _ _ _ _)].
  - exact (demo_prefunded 6 _ _ _ eq_refl ltac:(cbn; lia)).
  - rewrite (LedgerFacts.set_lamports_other (demo 6) bob_record 1000000 bob demo_bob_ne). lia.
Qed.

(** ** C40 *)
Theorem C40_holder_can_unstake : forall C E l sk vk accs data un k b ux x i,
  ordinary_state_address C -> reaches C l -> is_state l sk -> is_vault C sk vk ->
  op_ok C l (OpCall E accs data) -> encodes data (Unstake x i) ->
  fills accs (unstake_roles un sk k ux vk) ->
  find_pending_withdraw_address C un i = Some (k, b) -> ~ is_record l k ->
  active_account l ux xorca_mint_id un -> no_self_delegate l ux un -> 0 < x <= balance l ux ->
  wallet l un -> rent_min E 1024 - a_lamports (l k) <= a_lamports (l un) ->
  is_i64 (now E + cooldown l sk) -> balance l vk < 2 ^ 63 ->
  is_ok (process_instruction C E xorca_id accs l data) = true \/ collision C (eq un).
Proof. exact unstake_live. Qed.

Example C40_ex :
  reaches demo_crypto (demo 4) /\ is_state (demo 4) demo_state /\ is_vault demo_crypto demo_state demo_vault /\
  op_ok demo_crypto (demo 4) (demo_call 2000 (unstake_accs alice alice_xorca alice_record) (Unstake 1000000 0)) /\
  fills (unstake_accs alice alice_xorca alice_record)
    (unstake_roles alice demo_state alice_record alice_xorca demo_vault) /\
  (exists b, find_pending_withdraw_address demo_crypto alice 0 = Some (alice_record, b)) /\
  ~ is_record (demo 4) alice_record /\
  active_account (demo 4) alice_xorca xorca_mint_id alice /\ no_self_delegate (demo 4) alice_xorca alice /\
  0 < 1000000 <= balance (demo 4) alice_xorca /\ wallet (demo 4) alice /\
  rent_min (demo_env 2000) 1024 - a_lamports (demo 4 alice_record) <= a_lamports (demo 4 alice) /\
  is_i64 (now (demo_env 2000) + cooldown (demo 4) demo_state) /\ balance (demo 4) demo_vault < 2 ^ 63.
Proof.
  split; [apply demo_reaches|]. split; [see 4%nat|]. split; [exact demo_is_vault|].
  split; [apply (demo_op_ok 4 _ eq_refl)|]. split; [demo_fills|].
  split; [exists (Z_to_byte alice_bump); exact alice_found|].
  split; [see 4%nat|].
  split; [exact (usable_active _ _ _ _ (du_ax _ (demo_usable_at 4 _ eq_refl)))|].
  split; [exact (usable_no_delegate _ _ _ _ _ (du_ax _ (demo_usable_at 4 _ eq_refl)))|].
  split; [see 4%nat; lia|]. split; [exact (du_a _ (demo_usable_at 4 _ eq_refl))|].
  split; [cbn [rent_min demo_env]; see 4%nat; unfold u64_max; lia|].
  split; [cbn [now demo_env]; see 4%nat; unfold is_i64, i64_min, i64_max; lia|see 4%nat].
Qed.

(** ** C41 *)
Theorem C41_anyone_can_stake : forall C E l sk vk accs data st so sx a,
  ordinary_state_address C -> reaches C l -> is_state l sk -> is_vault C sk vk ->
  op_ok C l (OpCall E accs data) -> encodes data (Stake a) ->
  fills accs (stake_roles st vk so sx sk) ->
  a_owner (l st) <> token_id ->
  active_account l so orca_mint_id st -> ordinary l so -> no_self_delegate l so st -> a <= balance l so ->
  active_account l sx xorca_mint_id st -> ta_state (a_data (l vk)) = 1 ->
  0 < a -> (supply l <> 0 -> free_orca l sk vk + 100 <= a * (supply l + 100)) ->
  balance l vk + a < 2 ^ 63 ->
  is_ok (process_instruction C E xorca_id accs l data) = true.
Proof. exact stake_live. Qed.

Example C41_ex :
  reaches demo_crypto (demo 3) /\ is_state (demo 3) demo_state /\ is_vault demo_crypto demo_state demo_vault /\
  op_ok demo_crypto (demo 3) (demo_call 1300 (stake_accs bob bob_orca bob_xorca) (Stake 3000000)) /\
  fills (stake_accs bob bob_orca bob_xorca) (stake_roles bob demo_vault bob_orca bob_xorca demo_state) /\
  a_owner (demo 3 bob) <> token_id /\
  active_account (demo 3) bob_orca orca_mint_id bob /\ ordinary (demo 3) bob_orca /\
  no_self_delegate (demo 3) bob_orca bob /\ 3000000 <= balance (demo 3) bob_orca /\
  active_account (demo 3) bob_xorca xorca_mint_id bob /\ ta_state (a_data (demo 3 demo_vault)) = 1 /\
  free_orca (demo 3) demo_state demo_vault + 100 <= 3000000 * (supply (demo 3) + 100) /\
  balance (demo 3) demo_vault + 3000000 < 2 ^ 63.
Proof.
  pose proof (demo_usable_at 3 _ eq_refl) as U.
  split; [apply demo_reaches|]. split; [see 3%nat|]. split; [exact demo_is_vault|].
  split; [apply (demo_op_ok 3 _ eq_refl)|]. split; [demo_fills|].
  split; [rewrite (proj1 (du_b _ U)); apply not_eq_sym, UnstakeFacts.token_ne_system|].
  split; [exact (usable_active _ _ _ _ (du_bo _ U))|]. split; [exact (usable_ordinary _ _ _ _ (du_bo _ U))|].
  split; [exact (usable_no_delegate _ _ _ _ _ (du_bo _ U))|].
  split; [see 3%nat; lia|]. split; [exact (usable_active _ _ _ _ (du_bx _ U))|]. split; [exact (usable_state _ _ _ _ (du_vault _ U))|].
  split; see 3%nat; lia.
Qed.

Print Assumptions C03_matured_withdrawal_claimable.
Print Assumptions C08_index_in_use.
Print Assumptions C08_index_freed.
Print Assumptions C08_index_reusable.
Print Assumptions C27_prefunding_cannot_block.
Print Assumptions C40_holder_can_unstake.
Print Assumptions C41_anyone_can_stake.
