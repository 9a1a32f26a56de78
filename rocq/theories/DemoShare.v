(** Concrete cases for C73 and C74. *)
From Coq Require Import Lia.
From Verif Require Import GuardSpec ShareSpec BytesFacts HistoryFacts PoolHistory Demo DemoMore DemoStory.
From Coq Require Import List.
Import ListNotations.
Open Scope Z_scope.

(** The README's formulas. *)
Lemma stake_formula_wrong :
  ~ (forall C l o a accs t sk vk,
      ordinary_state_address C -> reaches C l -> is_state l sk -> is_vault C sk vk -> op_ok C l o ->
      performs C l o (Stake a) accs t -> supply l <> 0 -> free_orca l sk vk <> 0 ->
      supply (fst (run_op C l o)) - supply l = a * supply l / free_orca l sk vk).
Proof.
  intros H.
  specialize (H demo_crypto (tale 1 tiny_story 2) (demo_call 1200 (stake_accs alice alice_orca alice_xorca) (Stake 1000))
    1000 (stake_accs alice alice_orca alice_xorca) 1200 demo_state demo_vault demo_ordinary (tale_reaches 1 0 _ 2 eq_refl)).
  rewrite <- (tale_next 1 tiny_story 2 _ eq_refl) in H.
  assert (F1 : free_orca (tale 1 tiny_story 2) demo_state demo_vault = 1000) by told 1%nat 0%nat 1%nat.
  assert (S1 : supply (tale 1 tiny_story 2) = 1) by told 1%nat 0%nat 1%nat.
  assert (S2 : supply (tale 1 tiny_story 3) = 92) by told 1%nat 0%nat 2%nat.
  rewrite F1, S1, S2 in H.
  enough (92 - 1 = 1000 * 1 / 1000) by discriminate. apply H.
  - told 1%nat 0%nat 1%nat.
  - exact demo_is_vault.
  - exact (story_op_ok 1 0 _ 2 _ _ eq_refl eq_refl).
  - tells 1%nat 0%nat 2%nat.
  - lia.
  - lia.
Qed.

Lemma unstake_formula_wrong :
  ~ (forall C l o x i accs t sk vk,
      ordinary_state_address C -> reaches C l -> is_state l sk -> is_vault C sk vk -> op_ok C l o ->
      performs C l o (Unstake x i) accs t ->
      escrow (fst (run_op C l o)) sk - escrow l sk = x * free_orca l sk vk / supply l).
Proof.
  intros H.
  specialize (H demo_crypto (demo 4) (demo_call 2000 (unstake_accs alice alice_xorca alice_record) (Unstake 1000000 0))
    1000000 0 (unstake_accs alice alice_xorca alice_record) 2000 demo_state demo_vault demo_ordinary (demo_reaches 4)).
  rewrite <- (demo_next 4 _ eq_refl) in H.
  assert (F1 : free_orca (demo 4) demo_state demo_vault = 9000000) by see 4%nat.
  assert (S1 : supply (demo 4) = 7500008) by see 4%nat.
  assert (E1 : escrow (demo 4) demo_state = 0) by see 4%nat.
  assert (E2 : escrow (demo 5) demo_state = 1199996) by see 5%nat.
  rewrite F1, S1, E1, E2 in H.
  enough (1199996 - 0 = 1000000 * 9000000 / 7500008) by discriminate. apply H.
  - see 4%nat.
  - exact demo_is_vault.
  - apply (demo_op_ok 4 _ eq_refl).
  - demo_call_ok 4%nat.
Qed.

Lemma token_no_trade C l E ks pdas c : no_trade C l (OpToken E ks pdas c).
Proof. intros accs t. split; intros; intros (? & ? & K & _); discriminate K. Qed.

Lemma gift_no_trades l : no_trades demo_crypto l (firstn 1 (skipn 1 gift_story)).
Proof.
  intros [|n] o H; [|destruct n; discriminate H].
  assert (o = OpToken (demo_env 1450) [bob] [] (TC_Transfer bob_orca demo_vault bob 1000000)) as -> by (cbn in H; congruence).
  apply token_no_trade.
Qed.

Lemma gift_history : exists evs,
  history demo_crypto (tale 4 gift_story 1) (firstn 1 (skipn 1 gift_story)) (tale 4 gift_story 2) evs.
Proof.
  rewrite (tale_next 4 gift_story 1 _ eq_refl).
  eexists. refine (history_step demo_crypto (tale 4 gift_story 1) [] _ [] _ (history_nil _ _) _).
  exact (story_op_ok 4 4 _ 1 _ _ eq_refl eq_refl).
Qed.

Lemma gift_amounts :
  deposited_outside demo_crypto demo_vault (tale 4 gift_story 1) (firstn 1 (skipn 1 gift_story)) = 1000000 /\
  burned_outside demo_crypto (tale 4 gift_story 1) (firstn 1 (skipn 1 gift_story)) = 0.
Proof.
  cbn [firstn skipn gift_story deposited_outside burned_outside].
  rewrite <- (tale_next 4 gift_story 1 _ eq_refl).
  assert (B1 : balance (tale 4 gift_story 1) demo_vault = 10000000) by told 4%nat 4%nat 0%nat.
  assert (B2 : balance (tale 4 gift_story 2) demo_vault = 11000000) by told 4%nat 4%nat 1%nat.
  assert (S1 : supply (tale 4 gift_story 1) = 8333344) by told 4%nat 4%nat 0%nat.
  assert (S2 : supply (tale 4 gift_story 2) = 8333344) by told 4%nat 4%nat 1%nat.
  rewrite B1, B2, S1, S2. split; reflexivity.
Qed.
