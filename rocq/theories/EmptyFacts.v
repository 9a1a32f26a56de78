(** A pool whose supply returns to zero (C46). *)
From Verif Require Import Spec BytesFacts FieldFacts LedgerFacts TokenFacts MathFacts PoolMath Totals HistoryFacts LifeFacts
  LayoutFacts Pool PoolStake PoolUnstake PoolHistory TradeFacts.

Lemma incinerated_burnable C l sk k n E anyone :
  ordinary_state_address C -> reaches C l -> is_state l sk ->
  active_account l k xorca_mint_id incinerator_id -> is_u64 n -> n <= balance l k ->
  let l' := fst (run_op C l (OpToken E [] [] (TC_Burn k xorca_mint_id anyone n))) in
  supply l' = supply l - n /\ balance l' k = balance l k - n /\
  forall a, a <> k -> a <> xorca_mint_id -> l' a = l a.
Proof.
  intros Hord Hr Hs [(A1 & A2 & A3 & A4) A5] Hn Hb.
  destruct (reaches_pool _ _ _ Hord Hr Hs) as (vk & P & HP).
  pose proof (po_tok _ _ _ _ _ HP) as [TL TN TB].
  assert (Hsup : balance l k <= supply l).
  { specialize (TB [k]). unfold total in TB. cbn [map sumZ fold_right] in TB. unfold holds in TB.
    rewrite A1, key_eqb_refl, A2, A3, key_eqb_refl in TB. cbn [is_ok andb] in TB. unfold balance, supply.
    assert (NoDup [k]) by (constructor; [intros []|constructor]). specialize (TB H). lia. }
  assert (Nk : k <> xorca_mint_id).
  { intros ->. apply ta_unpack_ok in A2. destruct A2 as [W _]. destruct TL as (_ & M & _).
    eapply ta_not_mint; eassumption. }
  pose proof TL as (M1 & M2 & M3). pose proof A2 as A2'. apply ta_unpack_ok in A2'. destruct A2' as [W W0].
  pose proof (ta_wf_len _ W) as L. pose proof (mint_wf_len _ M2) as L2.
  assert (B : token_burn (signs []) [] l k xorca_mint_id anyone n = Ok (burned l k xorca_mint_id n (a_data (l k)))).
  { apply token_burn_ok. exists (a_data (l k)).
    split; [repeat split; auto|]. split; [exact TL|]. split; [now apply TN|]. split; [exact Hb|]. split; [exact A3|].
    split; [unfold burn_auth; now rewrite A4|]. unfold balance, supply in *. split; [lia|reflexivity]. }
  cbn zeta. cbn [run_op token_exec]. rewrite B. cbn [keep fst]. unfold burned.
  pose proof (mint_supply_range (a_data (l xorca_mint_id))) as R1.
  pose proof (ta_amount_range (a_data (l k))) as R2. unfold balance, supply, is_u64 in *.
  rewrite set_data_same, !set_data_other by congruence. rewrite set_data_same. cbn [a_data].
  split; [apply set_supply_same; [exact L2|unfold is_u64; lia]|].
  split; [apply set_amount_same; [exact L|unfold is_u64; lia]|]. intros a N1 N2.
  now rewrite !set_data_other by congruence.
Qed.

(** The next staker is minted 1:1; their units are then worth a share of the ORCA left over. *)
Lemma emptied_capture C l o1 o2 sk vk a i accs1 t1 accs2 t2 k :
  ordinary_state_address C -> reaches C l -> is_state l sk -> is_vault C sk vk ->
  supply l = 0 ->
  let l1 := fst (run_op C l o1) in let l2 := fst (run_op C l1 o2) in
  op_ok C l o1 -> performs C l o1 (Stake a) accs1 t1 ->
  op_ok C l1 o2 -> performs C l1 o2 (Unstake a i) accs2 t2 -> slot accs2 2 k ->
  supply l1 = a /\ rec_amount l2 k = a + a * free_orca l sk vk / (a + 100).
Proof.
  intros Hord Hr Hs Hv Hz l1 l2 Ho1 Hp1 Ho2 Hp2 Hk.
  destruct (stake_step _ _ _ _ _ _ _ _ Hord Hr Hs Hv Ho1 Hp1) as (R1 & S1 & Ha & F1 & Q1).
  destruct (unstake_step _ _ _ _ _ _ _ _ _ Hord R1 S1 Hv Ho2 Hp2) as (k' & Hk' & R2 & S2 & Hm & Su & F2 & Q2).
  assert (k' = k) by (eapply slot_fun; eassumption). subst k'.
  destruct (reaches_pool_vault _ _ _ _ Hord Hr Hs Hv) as [P HP].
  destruct (reaches_pool_vault _ _ _ _ Hord R1 S1 Hv) as [P1 HP1].
  destruct (pool_ranges _ _ _ _ _ HP) as (A1 & A2 & A3 & _).
  destruct (pool_ranges _ _ _ _ _ HP1) as (B1 & B2 & B3 & _).
  fold l1 in F1, Q1, B1, B2, B3, Q2. fold l2 in Q2.
  destruct (orca_to_xorca_char a (free_orca l sk vk) (supply l)) as (C1 & _); auto.
  rewrite (C1 (or_introl Hz)) in Q1. injection Q1 as E1. rewrite Hz in E1.
  assert (E2 : supply l1 = a) by lia. split; [exact E2|].
  apply xorca_to_orca_ok in Q2; auto. destruct Q2 as (_ & _ & _ & Ew). rewrite Ew, E2, F1. unfold redeem_quote.
  replace (a * (free_orca l sk vk + a + 100)) with (a * free_orca l sk vk + a * (a + 100)) by ring.
  unfold is_u64 in *. rewrite Z.div_add by lia. ring.
Qed.
