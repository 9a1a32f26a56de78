(** The rate free ORCA : supply that the clients show (C57). *)
From Coq Require Import Lia.
From Verif Require Import GuardSpec BytesFacts FieldFacts LedgerFacts TokenFacts ParseFacts CpiFacts
  AssertFacts LayoutFacts MathFacts Economics StakeFacts UnstakeFacts WithdrawFacts InitFacts CodecFacts Totals TokenStep VaultStep Calm
  HistoryFacts LifeFacts Pool PoolStake PoolUnstake PoolInit PoolHistory FailFacts EffectFacts RateFacts TakeFacts.
Import List ListNotations.
Open Scope Z_scope.

Lemma shown_at_least_one C l sk vk :
  ordinary_state_address C -> reaches C l -> is_state l sk -> is_vault C sk vk ->
  supply l <= free_orca l sk vk.
Proof.
  intros Hord Hr Hs Hv. destruct (reaches_pool_vault _ _ _ _ Hord Hr Hs Hv) as [P HP].
  destruct (pool_ranges _ _ _ _ _ HP) as (R0 & _). lia.
Qed.

Lemma redeem_raw x F S w :
  0 <= x -> 0 < S <= F -> w = x * (F + 100) / (S + 100) -> w * S <= F * x.
Proof.
  intros Hx HS ->. pose proof (Z.mul_div_le (x * (F + 100)) (S + 100) ltac:(lia)) as D.
  set (w := x * (F + 100) / (S + 100)) in *. clearbody w.
  apply (Z.mul_le_mono_pos_r _ _ (S + 100)); [lia|].
  assert (A : (S + 100) * w * S <= x * (F + 100) * S) by (apply Z.mul_le_mono_nonneg_r; lia).
  assert (B : x * ((F + 100) * S) <= x * (F * (S + 100))) by (apply Z.mul_le_mono_nonneg_l; lia).
  lia.
Qed.

Lemma shown_step C l o sk vk :
  ordinary_state_address C -> reaches C l -> is_state l sk -> is_vault C sk vk -> op_ok C l o ->
  (forall a accs t, ~ performs C l o (Stake a) accs t) ->
  let l' := fst (run_op C l o) in
  free_orca l sk vk * supply l' <= free_orca l' sk vk * supply l.
Proof.
  intros Hord Hr Hs Hv Ho Hns. cbn zeta. destruct (reaches_pool_vault _ _ _ _ Hord Hr Hs Hv) as [P HP].
  destruct (pool_ranges _ _ _ _ _ HP) as (R0 & R1 & R2 & R3).
  destruct (pool_ne _ _ _ _ _ HP) as (N1 & N2 & _).
  destruct (is_call o) eqn:Ec.
  2:{ destruct (outside_calm C l o (po_lam _ _ _ _ _ HP) Ho Ec) as [HC HE].
      destruct (pool_calm _ _ _ _ _ _ HP HC) as (H1 & H2 & H3 & H4 & H5).
      destruct (pool_ranges _ _ _ _ _ H1) as (Q0 & _).
      assert (free_orca l sk vk <= free_orca (fst (run_op C l o)) sk vk).
      { unfold free_orca, balance, escrow. rewrite H3. lia. }
      assert (supply (fst (run_op C l o)) <= supply l) by (unfold supply; lia).
      transitivity (free_orca l sk vk * supply l);
        [apply Z.mul_le_mono_nonneg_l|apply Z.mul_le_mono_nonneg_r]; lia. }
  destruct o as [E accs data| | | | | |]; try discriminate. destruct Ho as [HE Hh]. cbn [run_op] in *.
  destruct (process_instruction C E xorca_id accs l data) as [[l' evs]|e] eqn:H; cbn [fst]; [|lia].
  pose proof H as Hx. unfold process_instruction in Hx. inv_bind Hx u0.
  destruct (deserialize read_instruction data) as [ins|] eqn:Ed; [|discriminate].
  pose proof Ed as He. apply decode_encodes in He. destruct ins as [a|x i|i|c|u].
  - destruct (Hns a accs (now E)). eapply performs_of; eassumption.
  - pose proof (pool_unstake _ _ _ _ _ _ _ _ _ _ _ HP (proj1 (proj1 He)) (proj2 (proj1 He)) HE Hh Hx) as W.
    destruct W as (un & st & pd & ux & xm & om & v & sp & tp & w & b & sd1 & Pre & Es & Ev & _).
    destruct Pre. destruct up_accs.
    apply (unstake_exact _ _ _ _ _ _ _ _ _ HE Hh He) in H.
    destruct H as (un' & st' & pk & ux' & v' & w' & H). decompose [and] H. clear H.
    assert (st' = sk) by (rewrite <- Es; eapply slot_fun; [eassumption|exists st; eauto]).
    assert (v' = vk) by (rewrite <- Ev; eapply slot_fun; [eassumption|exists v; eauto]). subst st' v'.
    assert (Rx := proj1 (proj1 He)). unfold is_u64 in Rx.
    assert (D : w' * supply l <= free_orca l sk vk * x).
    { eapply redeem_raw; [lia|lia|eassumption]. }
    assert (EF : free_orca l' sk vk = free_orca l sk vk - w') by (unfold free_orca; lia).
    rewrite EF. match goal with Q : supply l' = _ |- _ => rewrite Q end. lia.
  - pose proof (pool_withdraw _ _ _ _ _ _ _ _ _ _ HP (proj1 He) Hh Hx) as W.
    destruct W as (un' & st' & pd' & uo' & v' & om & sp & tp & vd1 & Pre & E1 & E2 & _ & _ & Ch & _).
    destruct (withdraw_free _ _ _ _ _ _ Ch) as [-> ->]. lia.
  - destruct (pool_no_init _ _ _ _ _ _ _ _ _ HP HE Hh Hx).
  - pose proof (pool_set _ _ _ _ _ _ _ _ _ HP (proj1 He) Hx) as W.
    destruct W as (au & st & H1 & H2 & H3 & H4 & H5 & H6).
    destruct (set_free l l' sk vk P u N1 N2 H5) as [-> ->]. lia.
Qed.

Lemma shown_floor C l ops l' evs sk vk :
  ordinary_state_address C -> reaches C l -> is_state l sk -> is_vault C sk vk ->
  history C l ops l' evs ->
  (forall n, (n < length ops)%nat -> 0 < supply (after C l (firstn n ops))) ->
  (free_orca l sk vk + 100) * supply l' <= free_orca l' sk vk * (supply l + 100).
Proof.
  intros Hord Hr Hs Hv H Hn.
  destruct (never_diluted C l ops l' evs sk vk 0 Hord Hr Hs Hv H Hn ltac:(lia)) as [A _].
  destruct (reaches_pool_vault _ _ _ _ Hord Hr Hs Hv) as [P HP].
  destruct (pool_history _ _ _ _ _ _ _ _ HP H) as [P' HP'].
  destruct (pool_ranges _ _ _ _ _ HP) as (R0 & _). destruct (pool_ranges _ _ _ _ _ HP') as (R1 & _).
  set (F := free_orca l sk vk) in *. set (S := supply l) in *.
  set (F' := free_orca l' sk vk) in *. set (S' := supply l') in *.
  destruct (Z.eq_dec S' 0) as [->|N].
  { assert (0 <= F' * (S + 100)) by (apply Z.mul_nonneg_nonneg; lia). lia. }
  assert (B : (F' + 100) * S' <= F' * (S' + 100)) by lia.
  apply (Z.mul_le_mono_pos_r _ _ (S' + 100)); [lia|].
  assert (D1 : (F + 100) * (S' + 100) * S' <= (F' + 100) * (S + 100) * S') by (apply Z.mul_le_mono_nonneg_r; lia).
  assert (D2 : (F' + 100) * S' * (S + 100) <= F' * (S' + 100) * (S + 100)) by (apply Z.mul_le_mono_nonneg_r; lia).
  lia.
Qed.
