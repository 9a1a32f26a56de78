(** Two trades in a row through the program (C11, C12). *)
From Verif Require Import Spec HistoryFacts LifeFacts LayoutFacts CodecFacts Pool PoolStake PoolUnstake MathFacts
  PoolMath StakeFacts UnstakeFacts AssertFacts PoolHistory.

Lemma stake_step C l o sk vk a accs t :
  ordinary_state_address C -> reaches C l -> is_state l sk -> is_vault C sk vk -> op_ok C l o ->
  performs C l o (Stake a) accs t ->
  let l' := fst (run_op C l o) in
  reaches C l' /\ is_state l' sk /\ is_u64 a /\ free_orca l' sk vk = free_orca l sk vk + a /\
  convert_orca_to_xorca a (free_orca l sk vk) (supply l) = Ok (supply l' - supply l).
Proof.
  intros Hord Hr Hs Hv Ho Hp. destruct (reaches_pool_vault _ _ _ _ Hord Hr Hs Hv) as [P HP].
  destruct (pool_step _ _ _ _ _ _ HP Ho) as (P' & HP' & Hc). cbn zeta.
  split; [exact (reaches_step _ _ _ Hr Ho)|]. split; [eapply pool_is_state, HP'|].
  destruct (performs_run _ _ _ _ _ _ Hp) as (E & data & l' & evs & -> & Ht & He & H & Hrun).
  pose proof (proj1 He) as Ha. cbn in Ha.
  split; [exact Ha|]. rewrite Hrun in *. cbn [fst snd] in *.
  assert (H0 : stake_process C accs l a = Ok (l', evs)) by (apply (honest_call _ _ _ _ _ _ _ _ He) in H; exact H).
  destruct (pool_stake _ _ _ _ _ _ _ _ _ HP Ha (proj2 Ho) H0)
    as (staker & so & sx & xm & st & v & om & tp & m & sd1 & H1 & H2 & H3 & H4 & [] & H6).
  unfold free_orca, balance, escrow, supply, non_escrowed in *. rewrite sc_state, sc_vault, sc_supply.
  split; [lia|]. rewrite sc_quote. f_equal. lia.
Qed.

Lemma unstake_step C l o sk vk x i accs t :
  ordinary_state_address C -> reaches C l -> is_state l sk -> is_vault C sk vk -> op_ok C l o ->
  performs C l o (Unstake x i) accs t ->
  let l' := fst (run_op C l o) in
  exists k, slot accs 2 k /\
    reaches C l' /\ is_state l' sk /\ is_u64 x /\ supply l' = supply l - x /\
    free_orca l' sk vk = free_orca l sk vk - rec_amount l' k /\
    convert_xorca_to_orca x (free_orca l sk vk) (supply l) = Ok (rec_amount l' k).
Proof.
  intros Hord Hr Hs Hv Ho Hp. destruct (reaches_pool_vault _ _ _ _ Hord Hr Hs Hv) as [P HP].
  destruct (pool_step _ _ _ _ _ _ HP Ho) as (P' & HP' & Hc). cbn zeta.
  destruct (performs_run _ _ _ _ _ _ Hp) as (E & data & l' & evs & -> & Ht & He & H & Hrun).
  pose proof (proj1 He) as [Hx Hi].
  pose proof (reaches_step _ _ _ Hr Ho) as R. rewrite Hrun in *. cbn [fst snd] in *.
  assert (H0 : unstake_process C E accs l x i = Ok (l', evs)) by (apply (honest_call _ _ _ _ _ _ _ _ He) in H; exact H).
  destruct (pool_unstake _ _ _ _ _ _ _ _ _ _ _ HP Hx Hi (proj1 Ho) (proj2 Ho) H0)
    as (un & st & pd & ux & xm & om & v & sp & tp & w & b & sd1 & H1 & H2 & H3 & H4 & H5 & [] & H7).
  exists (m_key pd). split.
  { destruct H1. destruct up_accs. exists pd. auto. }
  split; [exact R|]. split; [eapply pool_is_state, HP'|]. split; [exact Hx|].
  assert (T : is_i64 (now E + st_cooldown (a_data (l sk)))).
  { rewrite <- H2. apply H1. }
  destruct (pool_quote_back _ _ _ _ _ _ _ HP Hx uc_quote) as (Q1 & Q2 & Q3).
  destruct (pending_bytes_fields (byte_to_Z b) i (m_key un) w (now E + st_cooldown (a_data (l sk)))
              (byte_is_u8 b) Hi Q2 T) as (_ & _ & _ & _ & W & _).
  unfold rec_amount, free_orca, balance, escrow, supply, non_escrowed in *.
  rewrite uc_new_record, W, uc_vault, uc_escrow, uc_supply.
  split; [reflexivity|]. split; [lia|]. exact uc_quote.
Qed.

(** ** C11 *)
Lemma stake_then_unstake C l o1 o2 sk vk a i accs1 t1 accs2 t2 k :
  ordinary_state_address C -> reaches C l -> is_state l sk -> is_vault C sk vk ->
  supply l <> 0 \/ free_orca l sk vk = 0 ->
  let l1 := fst (run_op C l o1) in let l2 := fst (run_op C l1 o2) in
  op_ok C l o1 -> performs C l o1 (Stake a) accs1 t1 ->
  op_ok C l1 o2 -> performs C l1 o2 (Unstake (supply l1 - supply l) i) accs2 t2 -> slot accs2 2 k ->
  rec_amount l2 k <= a /\
  (a - rec_amount l2 k - 1) * (supply l1 + 100) < free_orca l sk vk + 100.
Proof.
  intros Hord Hr Hs Hv Hlive l1 l2 Ho1 Hp1 Ho2 Hp2 Hk.
  destruct (stake_step _ _ _ _ _ _ _ _ Hord Hr Hs Hv Ho1 Hp1) as (R1 & S1 & Ha & F1 & Q1).
  destruct (unstake_step _ _ _ _ _ _ _ _ _ Hord R1 S1 Hv Ho2 Hp2) as (k' & Hk' & R2 & S2 & Hm & Su & F2 & Q2).
  assert (k' = k) by (eapply slot_fun; eassumption). subst k'.
  destruct (reaches_pool_vault _ _ _ _ Hord Hr Hs Hv) as [P HP].
  destruct (reaches_pool_vault _ _ _ _ Hord R1 S1 Hv) as [P1 HP1].
  destruct (pool_ranges _ _ _ _ _ HP) as (A1 & A2 & A3 & _).
  destruct (pool_ranges _ _ _ _ _ HP1) as (B1 & B2 & B3 & _).
  fold l1 in F1, Q1, A1, B1, B2, B3, Q2. fold l2 in Q2. rewrite F1 in *.
  replace (supply l1 + 100) with (supply l + (supply l1 - supply l) + 100) by ring.
  apply (round_trip a (free_orca l sk vk) (supply l) (supply l1 - supply l)); try assumption.
  - replace (supply l + (supply l1 - supply l)) with (supply l1) by ring. assumption.
  - split; [lia|]. destruct Hlive; [lia|auto].
  - replace (supply l + (supply l1 - supply l)) with (supply l1) by ring. exact Q2.
Qed.

(** ** C12 *)
Lemma stake_in_two C l o1 o2 o sk vk a b accs1 t1 accs2 t2 accs t :
  ordinary_state_address C -> reaches C l -> is_state l sk -> is_vault C sk vk ->
  let l1 := fst (run_op C l o1) in let l2 := fst (run_op C l1 o2) in
  let l' := fst (run_op C l o) in
  op_ok C l o1 -> performs C l o1 (Stake a) accs1 t1 ->
  op_ok C l1 o2 -> performs C l1 o2 (Stake b) accs2 t2 ->
  op_ok C l o -> performs C l o (Stake (a + b)) accs t ->
  supply l2 <= supply l'.
Proof.
  intros Hord Hr Hs Hv l1 l2 l' Ho1 Hp1 Ho2 Hp2 Ho Hp.
  destruct (stake_step _ _ _ _ _ _ _ _ Hord Hr Hs Hv Ho1 Hp1) as (R1 & S1 & Ha & F1 & Q1).
  destruct (stake_step _ _ _ _ _ _ _ _ Hord R1 S1 Hv Ho2 Hp2) as (R2 & S2 & Hb & F2 & Q2).
  destruct (stake_step _ _ _ _ _ _ _ _ Hord Hr Hs Hv Ho Hp) as (_ & _ & Hab & F & Q).
  destruct (reaches_pool_vault _ _ _ _ Hord Hr Hs Hv) as [P HP].
  destruct (reaches_pool_vault _ _ _ _ Hord R1 S1 Hv) as [P1 HP1].
  destruct (pool_ranges _ _ _ _ _ HP) as (A1 & A2 & A3 & _).
  destruct (pool_ranges _ _ _ _ _ HP1) as (B1 & B2 & B3 & _).
  fold l1 in F1, Q1, F2, Q2, B1, B2, B3. fold l2 in Q2, F2. fold l' in Q, F. rewrite F1 in *.
  assert (E1 : supply l1 = supply l + (supply l1 - supply l)) by ring.
  assert (supply l1 - supply l + (supply l2 - supply l1) <= supply l' - supply l); [|lia].
  eapply (split_stake a b (free_orca l sk vk) (supply l)); try eassumption.
  - now rewrite <- E1.
  - now rewrite <- E1.
Qed.

Lemma unstake_in_two C l o1 o2 o sk vk x y i1 i2 i accs1 t1 accs2 t2 accs t k1 k2 k :
  ordinary_state_address C -> reaches C l -> is_state l sk -> is_vault C sk vk ->
  let l1 := fst (run_op C l o1) in let l2 := fst (run_op C l1 o2) in
  let l' := fst (run_op C l o) in
  op_ok C l o1 -> performs C l o1 (Unstake x i1) accs1 t1 -> slot accs1 2 k1 ->
  op_ok C l1 o2 -> performs C l1 o2 (Unstake y i2) accs2 t2 -> slot accs2 2 k2 ->
  op_ok C l o -> performs C l o (Unstake (x + y) i) accs t -> slot accs 2 k ->
  rec_amount l1 k1 + rec_amount l2 k2 <= rec_amount l' k.
Proof.
  intros Hord Hr Hs Hv l1 l2 l' Ho1 Hp1 Hk1 Ho2 Hp2 Hk2 Ho Hp Hk.
  destruct (unstake_step _ _ _ _ _ _ _ _ _ Hord Hr Hs Hv Ho1 Hp1) as (k1' & Hk1' & R1 & S1 & Hx & U1 & F1 & Q1).
  destruct (unstake_step _ _ _ _ _ _ _ _ _ Hord R1 S1 Hv Ho2 Hp2) as (k2' & Hk2' & R2 & S2 & Hy & U2 & F2 & Q2).
  destruct (unstake_step _ _ _ _ _ _ _ _ _ Hord Hr Hs Hv Ho Hp) as (k' & Hk' & R & S & Hxy & U & F & Q).
  assert (k1' = k1) by (eapply slot_fun; eassumption). subst k1'.
  assert (k2' = k2) by (eapply slot_fun; eassumption). subst k2'.
  assert (k' = k) by (eapply slot_fun; eassumption). subst k'.
  destruct (reaches_pool_vault _ _ _ _ Hord Hr Hs Hv) as [P HP].
  destruct (reaches_pool_vault _ _ _ _ Hord R1 S1 Hv) as [P1 HP1].
  destruct (reaches_pool_vault _ _ _ _ Hord R S Hv) as [P' HP'].
  destruct (pool_ranges _ _ _ _ _ HP) as (A1 & A2 & A3 & _).
  destruct (pool_ranges _ _ _ _ _ HP1) as (B1 & B2 & B3 & _).
  destruct (pool_ranges _ _ _ _ _ HP') as (D1 & D2 & D3 & _).
  fold l1 in F1, Q1, F2, Q2, B1, B2, B3, U1, U2. fold l2 in Q2, F2. fold l' in Q, F, U, D1, D2, D3.
  rewrite F1, U1 in *.
  eapply (split_unstake x y (free_orca l sk vk) (supply l)); try eassumption.
  - lia.
Qed.
