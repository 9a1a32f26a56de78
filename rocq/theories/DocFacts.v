(** How far the conversion documented in solana-program/README.md is from the program's (C73). *)
From Coq Require Import Lia.
From Verif Require Import GuardSpec ErrorSpec BytesFacts FieldFacts LedgerFacts TokenFacts ParseFacts CpiFacts
  AssertFacts LayoutFacts MathFacts Economics StakeFacts UnstakeFacts WithdrawFacts InitFacts CodecFacts Totals TokenStep VaultStep Calm
  HistoryFacts LifeFacts Pool PoolStake PoolUnstake PoolInit PoolHistory FailFacts EffectFacts RateFacts TakeFacts ErrorFacts.
Import List ListNotations.
Open Scope Z_scope.

Lemma div_between n d q : 0 < d -> q * d <= n < (q + 1) * d -> n / d = q.
Proof. intros Hd H. symmetry. apply (Z.div_unique_pos n d q (n - d * q)); lia. Qed.

Lemma div_bounds n d : 0 < d -> d * (n / d) <= n < d * (n / d) + d.
Proof.
  intros Hd. pose proof (Z.mul_div_le n d Hd). pose proof (Z.mul_succ_div_gt n d Hd). lia.
Qed.

(** a (S + 100) / (F + 100) against a S / F. *)
Lemma stake_quote_math a F S :
  0 <= a -> 0 < S <= F ->
  a * S / F <= a * (S + 100) / (F + 100) <= a * S / F + 100 * a / (F + 100) + 1.
Proof.
  intros Ha HS.
  destruct (div_bounds (a * S) F ltac:(lia)) as [A1 A2].
  destruct (div_bounds (a * (S + 100)) (F + 100) ltac:(lia)) as [B1 B2].
  destruct (div_bounds (100 * a) (F + 100) ltac:(lia)) as [C1 C2].
  set (q := a * S / F) in *. set (m := a * (S + 100) / (F + 100)) in *. set (r := 100 * a / (F + 100)) in *.
  clearbody q m r. split.
  - (* q F <= a S, so q (F + 100) F <= a S (F + 100) <= a (S + 100) F *)
    assert (X : q * (F + 100) <= a * (S + 100)).
    { apply (Z.mul_le_mono_pos_r _ _ F); [lia|]. nia. }
    nia.
  - (* m (F + 100) <= a S + 100 a < (q F + F) + (r + 1) (F + 100) *)
    nia.
Qed.

(** x (F + 100) / (S + 100) against x F / S. *)
Lemma unstake_quote_math x F S :
  0 <= x <= S -> 0 < S <= F ->
  x * (F + 100) / (S + 100) <= x * F / S <= x * (F + 100) / (S + 100) + 100 * (F - S) / (S + 100) + 1.
Proof.
  intros Hx HS.
  destruct (div_bounds (x * F) S ltac:(lia)) as [A1 A2].
  destruct (div_bounds (x * (F + 100)) (S + 100) ltac:(lia)) as [B1 B2].
  destruct (div_bounds (100 * (F - S)) (S + 100) ltac:(lia)) as [C1 C2].
  set (q := x * F / S) in *. set (w := x * (F + 100) / (S + 100)) in *. set (r := 100 * (F - S) / (S + 100)) in *.
  clearbody q w r. split.
  - assert (X : w * S <= x * F).
    { apply (Z.mul_le_mono_pos_r _ _ (S + 100)); [lia|]. nia. }
    nia.
  - (* x F / S - x (F + 100) / (S + 100) = 100 x (F - S) / (S (S + 100)) <= 100 (F - S) / (S + 100) *)
    assert (X : x * F * (S + 100) <= S * (x * (F + 100) + 100 * (F - S))).
    { assert (x * (100 * (F - S)) <= S * (100 * (F - S))) by (apply Z.mul_le_mono_nonneg_r; lia). lia. }
    assert (Y : S * q * (S + 100) <= S * (x * (F + 100) + 100 * (F - S))).
    { assert (S * q * (S + 100) <= x * F * (S + 100)) by (apply Z.mul_le_mono_nonneg_r; lia). lia. }
    assert (Z0 : q * (S + 100) <= x * (F + 100) + 100 * (F - S)).
    { apply (Z.mul_le_mono_pos_l _ _ S); [lia|]. lia. }
    nia.
Qed.

Lemma even_quote a F : 0 < F -> a * (F + 100) / (F + 100) = a /\ a * F / F = a.
Proof. intros H. split; apply Z.div_mul; lia. Qed.

Lemma stake_quote C l o a accs t sk vk :
  ordinary_state_address C -> reaches C l -> is_state l sk -> is_vault C sk vk -> op_ok C l o ->
  performs C l o (Stake a) accs t ->
  let minted := supply (fst (run_op C l o)) - supply l in
  let free := free_orca l sk vk in
  let quote := if (supply l =? 0) || (free =? 0) then a else a * supply l / free in
  quote <= minted /\
  (supply l <> 0 -> minted <= quote + 100 * a / (free + 100) + 1) /\
  (supply l = 0 \/ free = supply l -> minted = quote).
Proof.
  intros Hord Hr Hs Hv Ho (E & data & -> & He & Ht & Hok). cbn zeta.
  destruct (reaches_pool_vault _ _ _ _ Hord Hr Hs Hv) as [P HP].
  destruct (pool_ranges _ _ _ _ _ HP) as (R0 & R1 & R2 & R3).
  destruct Ho as [HE Hh]. cbn [run_op] in *.
  destruct (process_instruction C E xorca_id accs l data) as [[l' evs]|e] eqn:H; cbn [fst]; [|discriminate].
  pose proof H as Hx. unfold process_instruction in Hx. inv_bind Hx u0.
  pose proof (proj2 (decode_encodes data _) He) as Ed. rewrite Ed in Hx.
  destruct (pool_stake _ _ _ _ _ _ _ _ _ HP (proj1 He) Hh Hx) as
    (staker & so & sx & xm & st & vault & om & tp & m & sd1 & Pre & Es & Ev & _ & _ & _).
  destruct Pre. destruct sp_accs.
  apply (stake_exact _ _ _ _ _ _ _ _ Hh He) in H.
  destruct H as (staker' & v' & so' & sx' & st' & m' & H). decompose [and] H. clear H.
  assert (st' = sk) by (rewrite <- Es; eapply slot_fun; [eassumption|exists st; eauto]).
  assert (v' = vk) by (rewrite <- Ev; eapply slot_fun; [eassumption|exists vault; eauto]). subst st' v'.
  match goal with Q : supply l' = _ |- _ => rewrite Q end.
  match goal with
  | Q1 : _ \/ _ -> m' = a, Q2 : supply l <> 0 -> _ -> m' = _ |- _ => rename Q1 into K1; rename Q2 into K2
  end.
  assert (Ra : is_u64 a) by exact (proj1 He). unfold is_u64 in Ra.
  replace (supply l + m' - supply l) with m' by lia.
  destruct (Z.eqb_spec (supply l) 0) as [Z0|Z0]; cbn [orb].
  - rewrite (K1 (or_introl Z0)). repeat split; try lia.
  - destruct (Z.eqb_spec (free_orca l sk vk) 0) as [F0|F0]; [lia|].
    rewrite (K2 Z0 F0).
    destruct (stake_quote_math a (free_orca l sk vk) (supply l) ltac:(lia) ltac:(lia)) as [M1 M2].
    split; [exact M1|]. split; [intros _; exact M2|]. intros [?|Q]; [lia|]. rewrite Q.
    destruct (even_quote a (supply l) ltac:(lia)) as [-> ->]. reflexivity.
Qed.

Lemma unstake_quote C l o x i accs t sk vk :
  ordinary_state_address C -> reaches C l -> is_state l sk -> is_vault C sk vk -> op_ok C l o ->
  performs C l o (Unstake x i) accs t ->
  let owed := escrow (fst (run_op C l o)) sk - escrow l sk in
  let free := free_orca l sk vk in
  let quote := x * free / supply l in
  0 < supply l <= free /\
  owed <= quote <= owed + 100 * (free - supply l) / (supply l + 100) + 1 /\
  (free = supply l -> owed = quote).
Proof.
  intros Hord Hr Hs Hv Ho (E & data & -> & He & Ht & Hok). cbn zeta.
  destruct (reaches_pool_vault _ _ _ _ Hord Hr Hs Hv) as [P HP].
  destruct (pool_ranges _ _ _ _ _ HP) as (R0 & R1 & R2 & R3).
  destruct Ho as [HE Hh]. cbn [run_op] in *.
  destruct (process_instruction C E xorca_id accs l data) as [[l' evs]|e] eqn:H; cbn [fst]; [|discriminate].
  pose proof H as Hx. unfold process_instruction in Hx. inv_bind Hx u0.
  pose proof (proj2 (decode_encodes data _) He) as Ed. rewrite Ed in Hx.
  pose proof (pool_unstake _ _ _ _ _ _ _ _ _ _ _ HP (proj1 (proj1 He)) (proj2 (proj1 He)) HE Hh Hx) as W.
  destruct W as (un & st & pd & ux & xm & om & v & sp & tp & w & b & sd1 & Pre & Es & Ev & W).
  destruct W as (_ & HP' & _).
  destruct (pool_ranges _ _ _ _ _ HP') as (Q0 & _).
  destruct Pre. destruct up_accs.
  apply (unstake_exact _ _ _ _ _ _ _ _ _ HE Hh He) in H.
  destruct H as (un' & st' & pk & ux' & v' & w' & H). decompose [and] H. clear H.
  assert (st' = sk) by (rewrite <- Es; eapply slot_fun; [eassumption|exists st; eauto]).
  assert (v' = vk) by (rewrite <- Ev; eapply slot_fun; [eassumption|exists v; eauto]). subst st' v'.
  assert (Rx := proj1 (proj1 He)). unfold is_u64 in Rx.
  match goal with Q : escrow l' sk = _ |- _ => rewrite Q end.
  replace (escrow l sk + w' - escrow l sk) with w' by lia.
  assert (S0 : 0 < supply l <= free_orca l sk vk) by lia.
  assert (X0 : 0 <= x <= supply l) by lia.
  match goal with Q : w' = _ |- _ => rewrite Q end.
  destruct (unstake_quote_math x (free_orca l sk vk) (supply l) X0 S0) as [M1 M2].
  split; [exact S0|]. split; [split; [exact M1|exact M2]|]. intros Q. rewrite Q.
  destruct (even_quote x (supply l) ltac:(lia)) as [-> ->]. reflexivity.
Qed.

Lemma documented_initialize_accounts C E accs l data c :
  encodes data (Initialize c) -> length accs = 6%nat ->
  process_instruction C E xorca_id accs l data = Err (ECustom 6003).
Proof.
  intros He Hn. change 6003 with (code NotEnoughAccountKeys). apply (too_few_accounts C E accs l data _ He). rewrite Hn. cbn. lia.
Qed.
