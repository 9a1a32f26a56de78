(** Rounding and gifts: how the worth of xORCA moves (C74). *)
From Coq Require Import Lia.
From Verif Require Import GuardSpec BytesFacts FieldFacts LedgerFacts TokenFacts ParseFacts CpiFacts
  AssertFacts LayoutFacts MathFacts PoolMath Economics StakeFacts UnstakeFacts WithdrawFacts InitFacts CodecFacts Totals TokenStep VaultStep Calm
  HistoryFacts LifeFacts Pool PoolStake PoolUnstake PoolInit PoolHistory FailFacts EffectFacts RateFacts TakeFacts GuardFacts TradeFacts ShareSpec.
Import List ListNotations.
Open Scope Z_scope.

Lemma quiet_step C l o sk vk :
  ordinary_state_address C -> reaches C l -> is_state l sk -> is_vault C sk vk -> op_ok C l o ->
  no_trade C l o ->
  let l' := fst (run_op C l o) in
  is_state l' sk /\
  free_orca l' sk vk = free_orca l sk vk + deposited_outside C vk l [o] /\
  supply l' = supply l - burned_outside C l [o] /\
  0 <= deposited_outside C vk l [o] /\ 0 <= burned_outside C l [o].
Proof.
  intros Hord Hr Hs Hv Ho Hns. cbn zeta. destruct (reaches_pool_vault _ _ _ _ Hord Hr Hs Hv) as [P HP].
  destruct (pool_step _ _ _ _ _ _ HP Ho) as (P' & HP' & Hc).
  split; [eapply pool_is_state, HP'|].
  destruct (pool_ne _ _ _ _ _ HP) as (N1 & N2 & _).
  destruct (is_call o) eqn:Ec.
  2:{ destruct (outside_calm C l o (po_lam _ _ _ _ _ HP) Ho Ec) as [HC HE].
      destruct (pool_calm _ _ _ _ _ _ HP HC) as (H1 & H2 & H3 & H4 & H5).
      assert (free_orca (fst (run_op C l o)) sk vk = free_orca l sk vk + (balance (fst (run_op C l o)) vk - balance l vk)).
      { unfold free_orca, balance, escrow. rewrite H3. lia. }
      destruct o; try discriminate; cbn [deposited_outside burned_outside]; unfold balance, supply in *; lia. }
  destruct o as [E accs data| | | | | |]; try discriminate. cbn [deposited_outside burned_outside].
  destruct Ho as [HE Hh]. cbn [run_op] in *.
  destruct (process_instruction C E xorca_id accs l data) as [[l' evs]|e] eqn:H; cbn [fst]; [|lia].
  pose proof H as Hx. unfold process_instruction in Hx. inv_bind Hx u0.
  destruct (deserialize read_instruction data) as [ins|] eqn:Ed; [|discriminate].
  pose proof Ed as He. apply decode_encodes in He. destruct ins as [a|x i|i|c|u].
  - destruct (Hns accs (now E)) as [N _]. destruct (N a). eapply performs_of; eassumption.
  - destruct (Hns accs (now E)) as [_ N]. destruct (N x i). eapply performs_of; eassumption.
  - pose proof (pool_withdraw _ _ _ _ _ _ _ _ _ _ HP (proj1 He) Hh Hx) as W.
    destruct W as (un' & st' & pd' & uo' & v' & om & sp & tp & vd1 & Pre & E1 & E2 & _ & _ & Ch & _).
    destruct (withdraw_free _ _ _ _ _ _ Ch) as [-> ->]. lia.
  - destruct (pool_no_init _ _ _ _ _ _ _ _ _ HP HE Hh Hx).
  - pose proof (pool_set _ _ _ _ _ _ _ _ _ HP (proj1 He) Hx) as W.
    destruct W as (au & st & H1 & H2 & H3 & H4 & H5 & H6).
    destruct (set_free l l' sk vk P u N1 N2 H5) as [-> ->]. lia.
Qed.

Lemma burned_app C l ops1 ops2 :
  burned_outside C l (ops1 ++ ops2) = burned_outside C l ops1 + burned_outside C (after C l ops1) ops2.
Proof.
  revert l. induction ops1 as [|o ops1 IH]; intros l; [reflexivity|].
  cbn [app burned_outside]. rewrite IH. unfold after. cbn [fold_left]. lia.
Qed.

Lemma quiet_history C l ops l' evs sk vk :
  ordinary_state_address C -> reaches C l -> is_state l sk -> is_vault C sk vk ->
  history C l ops l' evs -> no_trades C l ops ->
  is_state l' sk /\
  free_orca l' sk vk = free_orca l sk vk + deposited_outside C vk l ops /\
  supply l' = supply l - burned_outside C l ops /\
  0 <= deposited_outside C vk l ops /\ 0 <= burned_outside C l ops.
Proof.
  intros Hord Hr Hs Hv H. induction H as [|ops l1 evs o H IH Ho]; intros Hq.
  - cbn [deposited_outside burned_outside]. split; [exact Hs|lia].
  - destruct IH as (S1 & F1 & U1 & D1 & B1).
    { intros n o' Hn. specialize (Hq n o').
      rewrite nth_error_app1 in Hq by (eapply nth_error_Some; congruence).
      rewrite firstn_app in Hq. replace (n - length ops)%nat with 0%nat in Hq
        by (assert (n < length ops)%nat by (eapply nth_error_Some; congruence); lia).
      cbn [firstn] in Hq. rewrite app_nil_r in Hq. exact (Hq Hn). }
    specialize (Hq (length ops) o). rewrite nth_error_app2, Nat.sub_diag in Hq by lia. specialize (Hq eq_refl).
    rewrite firstn_app, Nat.sub_diag, firstn_all in Hq. cbn [firstn] in Hq. rewrite app_nil_r in Hq.
    rewrite <- (history_after _ _ _ _ _ H) in Hq.
    assert (R1 : reaches C l1) by (eapply reaches_history; eassumption).
    destruct (quiet_step C l1 o sk vk Hord R1 S1 Hv Ho Hq) as (S2 & F2 & U2 & D2 & B2).
    rewrite deposited_app, burned_app, <- (history_after _ _ _ _ _ H).
    split; [exact S2|lia].
Qed.

(** ** The arithmetic *)
Lemma floor_le n d q : 0 < d -> n < d * (q + 1) -> n / d <= q.
Proof. intros Hd H. apply Z.lt_succ_r. apply Z.div_lt_upper_bound; lia. Qed.
Lemma le_floor n d q : 0 < d -> d * q <= n -> q <= n / d.
Proof. intros Hd H. apply Z.div_le_lower_bound; lia. Qed.

(** Somebody stakes [a] for [m]: a holder of [x] gains less than the price of one unit. *)
Lemma stake_gain F S a m x :
  0 <= x <= S -> 0 < S <= F -> 0 <= a -> 0 <= m -> m = mint_quote a F S ->
  x * (F + 100) / (S + 100) <= x * (F + a + 100) / (S + m + 100) <=
  x * (F + 100) / (S + 100) + (F + 100) / (S + 100) + 1.
Proof.
  intros Hx HS Ha Hm Q. destruct (mint_quote_spec a F S ltac:(lia)) as [M1 M2]. rewrite <- Q in *. clear Q.
  destruct (floor_spec (x * (F + 100)) (S + 100) ltac:(lia)) as [W1 W2].
  destruct (floor_spec (F + 100) (S + 100) ltac:(lia)) as [P1 P2].
  set (w := x * (F + 100) / (S + 100)) in *. set (p := (F + 100) / (S + 100)) in *. clearbody w p.
  split.
  - apply le_floor; [lia|].
    (* (S + m + 100) w (S + 100) <= (S + m + 100) x (F + 100) <= x (F + a + 100) (S + 100) *)
    apply (Z.mul_le_mono_pos_r _ _ (S + 100)); [lia|].
    assert (A : (S + m + 100) * ((S + 100) * w) <= (S + m + 100) * (x * (F + 100)))
      by (apply Z.mul_le_mono_nonneg_l; lia).
    assert (B : x * ((F + 100) * m) <= x * (a * (S + 100))) by (apply Z.mul_le_mono_nonneg_l; lia).
    lia.
  - apply floor_le; [lia|].
    (* x (F + a + 100) (S + 100) < x (F + 100) (S + m + 100) + (S + 100) (F + 100), see the comment of the statement *)
    apply (Z.mul_lt_mono_pos_r (S + 100)); [lia|].
    assert (A : x * (a * (S + 100)) <= x * ((F + 100) * m + (F + 100))) by (apply Z.mul_le_mono_nonneg_l; lia).
    assert (B : x * (F + 100) <= (S + m + 100) * (F + 100)) by (apply Z.mul_le_mono_nonneg_r; lia).
    assert (D : (S + m + 100) * (x * (F + 100)) <= (S + m + 100) * ((S + 100) * w + (S + 100) - 1))
      by (apply Z.mul_le_mono_nonneg_l; lia).
    assert (G : (S + m + 100) * (F + 100) <= (S + m + 100) * ((S + 100) * p + (S + 100) - 1))
      by (apply Z.mul_le_mono_nonneg_l; lia).
    lia.
Qed.

(** Somebody unstakes [y] for [v]: a holder of [x] gains at most one unit. *)
Lemma unstake_gain F S y v x :
  0 <= y -> 0 <= x -> x + y <= S -> 0 < S <= F -> v = redeem_quote y F S ->
  x * (F + 100) / (S + 100) <= x * (F - v + 100) / (S - y + 100) <= x * (F + 100) / (S + 100) + 1.
Proof.
  intros Hy Hx Hxy HS Q. destruct (redeem_quote_spec y F S ltac:(lia)) as [M1 M2]. rewrite <- Q in *. clear Q.
  destruct (floor_spec (x * (F + 100)) (S + 100) ltac:(lia)) as [W1 W2].
  set (w := x * (F + 100) / (S + 100)) in *. clearbody w.
  split.
  - apply le_floor; [lia|]. apply (Z.mul_le_mono_pos_r _ _ (S + 100)); [lia|].
    assert (A : (S - y + 100) * ((S + 100) * w) <= (S - y + 100) * (x * (F + 100)))
      by (apply Z.mul_le_mono_nonneg_l; lia).
    assert (B : x * ((S + 100) * v) <= x * (y * (F + 100))) by (apply Z.mul_le_mono_nonneg_l; lia).
    lia.
  - apply floor_le; [lia|]. apply (Z.mul_lt_mono_pos_r (S + 100)); [lia|].
    assert (A : x * (y * (F + 100)) <= x * ((S + 100) * v + (S + 100))) by (apply Z.mul_le_mono_nonneg_l; lia).
    assert (D : (S - y + 100) * (x * (F + 100)) <= (S - y + 100) * ((S + 100) * w + (S + 100) - 1))
      by (apply Z.mul_le_mono_nonneg_l; lia).
    assert (G : x * (S + 100) <= (S - y) * (S + 100)) by (apply Z.mul_le_mono_nonneg_r; lia).
    lia.
Qed.

(** Gifts of [d]: a holder of [x] gains the share [x] of [s + 100]. *)
Lemma gift_gain F S d x :
  0 <= x -> 0 <= S -> 0 <= F -> 0 <= d ->
  x * (F + 100) / (S + 100) + x * d / (S + 100) <= x * (F + d + 100) / (S + 100) <=
  x * (F + 100) / (S + 100) + x * d / (S + 100) + 1.
Proof.
  intros Hx HS HF Hd.
  destruct (floor_spec (x * (F + 100)) (S + 100) ltac:(lia)) as [W1 W2].
  destruct (floor_spec (x * d) (S + 100) ltac:(lia)) as [P1 P2].
  split; [apply le_floor|apply floor_le]; lia.
Qed.

(** Staking before gifts [d] and burns [b] and unstaking after. *)
Lemma sandwich_math F S a m d b :
  0 <= a -> 0 <= m -> 0 < S <= F -> m = mint_quote a F S -> 0 <= d -> 0 <= b <= S + m ->
  m * (F + a + d + 100) / (S + m - b + 100) <= a + (m * d + a * b) / (S + m - b + 100).
Proof.
  intros Ha Hm HS Q Hd Hb. destruct (mint_quote_spec a F S ltac:(lia)) as [M1 M2]. rewrite <- Q in *. clear Q.
  assert (E : m * (F + a + d + 100) <= a * (S + m - b + 100) + (m * d + a * b)) by lia.
  transitivity ((a * (S + m - b + 100) + (m * d + a * b)) / (S + m - b + 100)).
  - apply Z.div_le_mono; lia.
  - rewrite Z.add_comm, Z.div_add by lia. lia.
Qed.

(** ** The program *)
Lemma stake_rounding C l o a accs t sk vk x :
  ordinary_state_address C -> reaches C l -> is_state l sk -> is_vault C sk vk -> op_ok C l o ->
  performs C l o (Stake a) accs t -> 0 < supply l -> 0 <= x <= supply l ->
  let l' := fst (run_op C l o) in
  worth l sk vk x <= worth l' sk vk x <= worth l sk vk x + worth l sk vk 1 + 1.
Proof.
  intros Hord Hr Hs Hv Ho Hp S0 Hx. cbn zeta.
  destruct (stake_step _ _ _ _ _ _ _ _ Hord Hr Hs Hv Ho Hp) as (R1 & S1 & Ha & F1 & Q1).
  destruct (reaches_pool_vault _ _ _ _ Hord Hr Hs Hv) as [P HP].
  destruct (pool_ranges _ _ _ _ _ HP) as (A1 & A2 & A3 & _).
  apply (orca_to_xorca_ok _ _ _ _ Ha A2 A3) in Q1.
  destruct Q1 as (Mu & [[[Z0|Z0] _]|(_ & _ & Q)]); [lia|lia|].
  unfold worth. rewrite F1. unfold is_u64 in *.
  replace (supply (fst (run_op C l o))) with (supply l + (supply (fst (run_op C l o)) - supply l)) by lia.
  rewrite Z.mul_1_l. eapply stake_gain; try eassumption; lia.
Qed.

Lemma unstake_rounding C l o y i accs t sk vk x :
  ordinary_state_address C -> reaches C l -> is_state l sk -> is_vault C sk vk -> op_ok C l o ->
  performs C l o (Unstake y i) accs t ->
  let l' := fst (run_op C l o) in
  0 <= x <= supply l' ->
  worth l sk vk x <= worth l' sk vk x <= worth l sk vk x + 1.
Proof.
  intros Hord Hr Hs Hv Ho Hp. cbn zeta. intros Hx.
  destruct (unstake_step _ _ _ _ _ _ _ _ _ Hord Hr Hs Hv Ho Hp) as (k & _ & R1 & S1 & Ha & U1 & F1 & Q1).
  destruct (reaches_pool_vault _ _ _ _ Hord Hr Hs Hv) as [P HP].
  destruct (pool_ranges _ _ _ _ _ HP) as (A1 & A2 & A3 & _).
  apply (xorca_to_orca_ok _ _ _ _ Ha A2 A3) in Q1. destruct Q1 as (Mu & S0 & F0 & Q).
  unfold worth. rewrite F1, U1 in *. unfold is_u64 in *.
  eapply unstake_gain; try eassumption; lia.
Qed.

Lemma gift_shared C l ops l' evs sk vk x :
  ordinary_state_address C -> reaches C l -> is_state l sk -> is_vault C sk vk ->
  history C l ops l' evs -> no_trades C l ops -> supply l' = supply l -> 0 <= x ->
  let share := x * deposited_outside C vk l ops / (supply l + 100) in
  worth l sk vk x + share <= worth l' sk vk x <= worth l sk vk x + share + 1.
Proof.
  intros Hord Hr Hs Hv H Hq Hu Hx. cbn zeta.
  destruct (quiet_history _ _ _ _ _ _ _ Hord Hr Hs Hv H Hq) as (S1 & F1 & U1 & D1 & B1).
  destruct (reaches_pool_vault _ _ _ _ Hord Hr Hs Hv) as [P HP].
  destruct (pool_ranges _ _ _ _ _ HP) as (A1 & A2 & A3 & _).
  unfold worth. rewrite F1, Hu. apply gift_gain; lia.
Qed.

Lemma sandwich C l o1 a accs1 t1 ops l2 evs o2 i accs2 t2 sk vk k :
  ordinary_state_address C -> reaches C l -> is_state l sk -> is_vault C sk vk -> 0 < supply l ->
  op_ok C l o1 -> performs C l o1 (Stake a) accs1 t1 ->
  let l1 := fst (run_op C l o1) in
  let m := supply l1 - supply l in
  history C l1 ops l2 evs -> no_trades C l1 ops ->
  op_ok C l2 o2 -> performs C l2 o2 (Unstake m i) accs2 t2 -> slot accs2 2 k ->
  let owed := rec_amount (fst (run_op C l2 o2)) k in
  owed <= a + (m * deposited_outside C vk l1 ops + a * burned_outside C l1 ops) / (supply l2 + 100).
Proof.
  intros Hord Hr Hs Hv S0 Ho1 Hp1. cbn zeta. intros Hh Hq Ho2 Hp2 Hk.
  destruct (stake_step _ _ _ _ _ _ _ _ Hord Hr Hs Hv Ho1 Hp1) as (R1 & S1 & Ha & F1 & Q1).
  set (l1 := fst (run_op C l o1)) in *.
  destruct (quiet_history _ _ _ _ _ _ _ Hord R1 S1 Hv Hh Hq) as (S2 & F2 & U2 & D2 & B2).
  assert (R2 : reaches C l2) by (eapply reaches_history; eassumption).
  destruct (unstake_step _ _ _ _ _ _ _ _ _ Hord R2 S2 Hv Ho2 Hp2) as (k' & Hk' & R3 & S3 & Hm & U3 & F3 & Q3).
  assert (k' = k) by (eapply slot_fun; eassumption). subst k'.
  destruct (reaches_pool_vault _ _ _ _ Hord Hr Hs Hv) as [P HP].
  destruct (pool_ranges _ _ _ _ _ HP) as (A1 & A2 & A3 & _).
  destruct (reaches_pool_vault _ _ _ _ Hord R2 S2 Hv) as [P2 HP2].
  destruct (pool_ranges _ _ _ _ _ HP2) as (B3 & B4 & B5 & _).
  apply (orca_to_xorca_ok _ _ _ _ Ha A2 A3) in Q1.
  destruct Q1 as (Mu & [[[Z0|Z0] _]|(_ & _ & Q)]); [lia|lia|].
  apply (xorca_to_orca_ok _ _ _ _ Hm B4 B5) in Q3. destruct Q3 as (_ & _ & _ & ->). unfold redeem_quote.
  rewrite F2, F1, U2. unfold is_u64 in *.
  set (m := supply l1 - supply l) in *. replace (supply l1) with (supply l + m) by (unfold m; lia).
  assert (Eu : supply l1 = supply l + m) by (unfold m; lia). rewrite Eu in U2.
  apply sandwich_math; try assumption; lia.
Qed.
