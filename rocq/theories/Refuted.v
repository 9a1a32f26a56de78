(** Counterexamples, taken from the stories of DemoStory.v. *)
From Verif Require Import Spec Transaction BytesFacts HistoryFacts LifeFacts PoolHistory TransactionFacts BlockFacts Demo DemoMore DemoStory.
From Coq Require Import List.

Lemma round_trip_emptied :
  ~ (forall C l o1 o2 sk vk a i accs1 t1 accs2 t2 k,
      ordinary_state_address C -> reaches C l -> is_state l sk -> is_vault C sk vk ->
      let l1 := fst (run_op C l o1) in let l2 := fst (run_op C l1 o2) in
      op_ok C l o1 -> performs C l o1 (Stake a) accs1 t1 ->
      op_ok C l1 o2 -> performs C l1 o2 (Unstake (supply l1 - supply l) i) accs2 t2 -> slot accs2 2 k ->
      rec_amount l2 k <= a).
Proof.
  intros H.
  specialize (H demo_crypto (tale 3 burn_story 5)
    (demo_call 1400 (stake_accs alice alice_orca alice_xorca) (Stake 1000))
    (demo_call 1400 (unstake_accs alice alice_xorca alice_record) (Unstake 1000 0))
    demo_state demo_vault 1000 0 (stake_accs alice alice_orca alice_xorca) 1400
    (unstake_accs alice alice_xorca alice_record) 1400 alice_record
    demo_ordinary (tale_reaches 3 0 _ 5 eq_refl)).
  cbv zeta in H.
  rewrite <- (tale_next 3 burn_story 5 _ eq_refl) in H. rewrite <- (tale_next 3 burn_story 6 _ eq_refl) in H.
  assert (E : supply (tale 3 burn_story 6) - supply (tale 3 burn_story 5) = 1000).
  { assert (E1 : supply (tale 3 burn_story 6) = 1000) by told 3%nat 0%nat 5%nat.
    assert (E2 : supply (tale 3 burn_story 5) = 0) by told 3%nat 0%nat 4%nat. lia. }
  rewrite E in H. assert (E3 : rec_amount (tale 3 burn_story 7) alice_record = 1020) by told 3%nat 0%nat 6%nat.
  enough (rec_amount (tale 3 burn_story 7) alice_record <= 1000) by lia.
  apply H.
  - told 3%nat 0%nat 4%nat.
  - exact demo_is_vault.
  - exact (story_op_ok 3 0 _ 5 _ _ eq_refl eq_refl).
  - tells 3%nat 0%nat 5%nat.
  - exact (story_op_ok 3 0 _ 6 _ _ eq_refl eq_refl).
  - tells 3%nat 0%nat 6%nat.
  - eexists. split; reflexivity.
Qed.

Lemma supply_to_zero :
  ~ (forall C l sk k ops l' evs,
      ordinary_state_address C -> reaches C l -> is_state l sk ->
      active_account l k xorca_mint_id incinerator_id -> 0 < balance l k ->
      history C l ops l' evs -> supply l' <> 0).
Proof.
  intros H.
  set (o := OpToken (demo_env 1370) [] [] (TC_Burn bob_xorca xorca_mint_id bob 1)).
  assert (Ho : op_ok demo_crypto (tale 3 burn_story 4) o) by exact (story_op_ok 3 0 _ 4 _ _ eq_refl eq_refl).
  pose proof (history_step demo_crypto _ _ _ _ o (history_nil demo_crypto (tale 3 burn_story 4)) Ho) as Hh.
  unfold o in Hh. rewrite <- (tale_next 3 burn_story 4 _ eq_refl) in Hh.
  refine (H demo_crypto (tale 3 burn_story 4) demo_state bob_xorca _ _ _
    demo_ordinary (tale_reaches 3 0 _ 4 eq_refl) _ tale_incinerated _ Hh _).
  - told 3%nat 0%nat 3%nat.
  - told 3%nat 0%nat 3%nat.
  - told 3%nat 0%nat 4%nat.
Qed.

Definition readyb (l : ledger) : bool :=
  key_eqb (a_owner (l xorca_mint_id)) token_id && is_ok (mint_unpack (a_data (l xorca_mint_id))) &&
  (mint_auth_flag (a_data (l xorca_mint_id)) =? 1) && key_eqb (mint_auth (a_data (l xorca_mint_id))) demo_state &&
  (mint_freeze_flag (a_data (l xorca_mint_id)) =? 0) && key_eqb (mint_freeze (a_data (l xorca_mint_id))) zero_key &&
  (supply l =? 0) && (mint_decimals (a_data (l xorca_mint_id)) =? 6) &&
  (mint_decimals (a_data (l orca_mint_id)) =? 6) && walletb l deployer_address &&
  (a_lamports (l deployer_address) =? 10000000000) && (a_lamports (l demo_state) =? 0) &&
  (a_lamports (l demo_vault) =? 2039280).

Transparent demo.
Lemma squatted_ready : readyb (tale 0 init_story 1) = true.
Proof. vm_cast_no_check (eq_refl true). Qed.
Global Opaque demo.

Lemma readyb_ok l : readyb l = true ->
  mints_ready l demo_state /\ wallet l deployer_address /\ a_lamports (l deployer_address) = 10000000000 /\ a_lamports (l demo_state) = 0 /\ a_lamports (l demo_vault) = 2039280.
Proof.
  unfold readyb, mints_ready. rewrite !andb_true_iff, !Z.eqb_eq.
  intros ((((((((((((H1 & H2) & H3) & H4) & H5) & H6) & H7) & H8) & H9) & H10) & H11) & H12) & H13).
  apply key_eqb_true in H1. apply key_eqb_true in H4. apply key_eqb_true in H6. apply walletb_ok in H10.
  destruct (mint_unpack (a_data (l xorca_mint_id))) as [[]|]; [|discriminate]. auto 20.
Qed.

Lemma squatted_no_state k : ~ is_state (tale 0 init_story 1) k.
Proof.
  revert k. destruct demo_start as (W1 & W2 & W3 & L1 & L2 & L3 & L4 & M).
  refine (proj1 (proj2 (initialize_blocked demo_crypto (demo 0) (demo_env 900) alice demo_state (Z_to_byte 255) demo_vault
    [] _ [] demo_ordinary (demo_reaches 0) demo_start_fresh demo_state_found demo_is_vault W1 W2 demo_alice_ne_vault _ _ _ _))).
  - rewrite L3. cbn. unfold u64_max. lia.
  - rewrite L1, L3. unfold u64_max. lia.
  - exact (story_op_ok 0 0 _ 0 _ _ eq_refl eq_refl).
  - rewrite (tale_next 0 init_story 0 _ eq_refl). constructor.
Qed.

Lemma initialize_not_always :
  ~ (forall C E l accs data c auth sk sb vk,
      ordinary_state_address C -> deployer_has_key C -> reaches C l -> (forall k, ~ is_state l k) -> mints_ready l sk ->
      find_state_address C = Some (sk, sb) -> is_vault C sk vk -> sk <> vk ->
      op_ok C l (OpCall E accs data) ->
      fills accs (init_roles deployer_address auth sk vk) -> encodes data (Initialize c) -> 0 <= c ->
      wallet l deployer_address ->
      rent_min E 2048 + rent_min E 165 <= a_lamports (l deployer_address) ->
      a_lamports (l sk) + a_lamports (l vk) + a_lamports (l deployer_address) <= u64_max ->
      is_ok (process_instruction C E xorca_id accs l data) = true).
Proof.
  intros H. destruct (readyb_ok _ squatted_ready) as (M & W & L1 & L2 & L3).
  assert (E : attempt demo_crypto (tale 0 init_story 1) (demo_call 1000 (init_accs admin) (Initialize 100)) = Err (ECustom 6004)).
  { apply probe_attempt_err. exact (tale_step 0 0 _ _ _ 1 _ _ eq_refl eq_refl eq_refl eq_refl eq_refl). }
  cbn [attempt demo_call] in E.
  specialize (H demo_crypto (demo_env 1000) (tale 0 init_story 1) (init_accs admin) (instruction_bytes (Initialize 100))
    100 admin demo_state (Z_to_byte 255) demo_vault demo_ordinary demo_deployer (tale_reaches 0 0 _ 1 eq_refl)
    squatted_no_state M demo_state_found demo_is_vault demo_state_ne_vault
    (story_op_ok 0 0 _ 1 _ _ eq_refl eq_refl)).
  destruct (process_instruction _ _ _ _ _ _); [discriminate E|].
  discriminate H; clear H.
  - demo_fills.
  - apply instruction_encodes. cbn. unfold is_i64, i64_min, i64_max. lia.
  - lia.
  - exact W.
  - rewrite L1. cbn. unfold u64_max. lia.
  - rewrite L1, L2, L3. unfold u64_max. lia.
Qed.
