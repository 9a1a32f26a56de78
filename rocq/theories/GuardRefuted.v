(** Counterexamples to natural readings of C56 and C57. *)
From Verif Require Import GuardSpec Transaction BytesFacts HistoryFacts LifeFacts PoolHistory TransactionFacts BlockFacts Demo DemoMore DemoStory DemoStale Refuted.
From Coq Require Import List.
Import ListNotations.

Lemma revoked_summary :
  mints_unfrozen iced1 demo_state /\ mint_freeze (a_data (iced1 xorca_mint_id)) = admin /\
  wallet iced1 deployer_address /\ wallet iced1 demo_vault /\
  a_lamports (iced1 deployer_address) = 10000000000 /\ a_lamports (iced1 demo_state) = 0 /\
  a_lamports (iced1 demo_vault) = 0 /\ a_lamports (iced1 xorca_mint_id) = 1461600.
Proof.
  pose proof revoked_facts as H. unfold stale_facts in H. revert H. generalize iced1. intros l H.
  rewrite !andb_true_iff, !Z.eqb_eq in H.
  destruct H as ((((((((((((((H1 & H2) & H3) & H4) & H5) & H6) & H7) & H8) & H9) & H10) & H11) & H12) & H13) & H14) & H15).
  apply key_eqb_true in H1, H4, H6. apply walletb_ok in H10, H11.
  destruct (mint_unpack (a_data (l xorca_mint_id))) as [[]|] eqn:Q; [|discriminate H2].
  unfold mints_unfrozen. rewrite Q. repeat split; auto; apply H10 || apply H11.
Qed.

Lemma unfrozen_not_enough :
  ~ (forall C E l accs data c auth sk sb vk,
      ordinary_state_address C -> deployer_has_key C -> reaches C l -> (forall k, ~ is_state l k) ->
      mints_unfrozen l sk ->
      find_state_address C = Some (sk, sb) -> is_vault C sk vk -> sk <> vk ->
      op_ok C l (OpCall E accs data) ->
      fills accs (init_roles deployer_address auth sk vk) -> encodes data (Initialize c) -> 0 <= c ->
      wallet l vk -> wallet l deployer_address ->
      rent_min E 2048 + rent_min E 165 <= a_lamports (l deployer_address) ->
      a_lamports (l sk) + a_lamports (l vk) + a_lamports (l deployer_address) <= u64_max ->
      is_ok (process_instruction C E xorca_id accs l data) = true).
Proof.
  intros H. destruct revoked_summary as (M & _ & W1 & W2 & L1 & L2 & L3 & _).
  specialize (H demo_crypto (demo_env 1000) iced1 (init_accs admin) (instruction_bytes (Initialize 100))
    100 admin demo_state (Z_to_byte 255) demo_vault demo_ordinary demo_deployer revoked_reaches
    revoked_fresh M demo_state_found demo_is_vault demo_state_ne_vault (demo_op_ok 0 _ eq_refl _)).
  rewrite revoked_initialize in H. discriminate H; clear H.
  - demo_fills.
  - apply instruction_encodes. cbn. unfold is_i64, i64_min, i64_max. lia.
  - lia.
  - exact W2.
  - exact W1.
  - rewrite L1. cbn. unfold u64_max. lia.
  - rewrite L1, L2, L3. unfold u64_max. lia.
Qed.

Lemma shown_can_fall :
  ~ (forall C l o sk vk,
      ordinary_state_address C -> reaches C l -> is_state l sk -> is_vault C sk vk -> op_ok C l o ->
      0 < supply l ->
      let l' := fst (run_op C l o) in
      free_orca l sk vk * supply l' <= free_orca l' sk vk * supply l).
Proof.
  intros H.
  specialize (H demo_crypto (tale 1 tiny_story 2) (demo_call 1200 (stake_accs alice alice_orca alice_xorca) (Stake 1000))
    demo_state demo_vault demo_ordinary (tale_reaches 1 0 _ 2 eq_refl)).
  cbv zeta in H. rewrite <- (tale_next 1 tiny_story 2 _ eq_refl) in H.
  assert (F1 : free_orca (tale 1 tiny_story 2) demo_state demo_vault = 1000) by told 1%nat 0%nat 1%nat.
  assert (S1 : supply (tale 1 tiny_story 2) = 1) by told 1%nat 0%nat 1%nat.
  assert (F2 : free_orca (tale 1 tiny_story 3) demo_state demo_vault = 2000) by told 1%nat 0%nat 2%nat.
  assert (S2 : supply (tale 1 tiny_story 3) = 92) by told 1%nat 0%nat 2%nat.
  rewrite F1, S1, F2, S2 in H.
  enough (1000 * 92 <= 2000 * 1) by lia. apply H.
  - told 1%nat 0%nat 1%nat.
  - exact demo_is_vault.
  - exact (story_op_ok 1 0 _ 2 _ _ eq_refl eq_refl).
  - lia.
Qed.
