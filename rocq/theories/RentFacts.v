(** Rent: what Unstake charges comes back with the Withdraw (C26), and Stake leaves
    the State account alone (C15). *)
From Verif Require Import Spec BytesFacts FieldFacts LedgerFacts TokenFacts ParseFacts CpiFacts
  AssertFacts LayoutFacts MathFacts Economics StakeFacts UnstakeFacts WithdrawFacts SetFacts InitFacts
  CodecFacts Totals VaultStep Calm Pool PoolStake PoolUnstake PoolInit PoolHistory HistoryFacts LifeFacts RateFacts
  EffectFacts ClaimFacts.

Lemma stake_keeps_state C l E accs data a l' evs :
  honest_metas C accs -> encodes data (Stake a) ->
  process_instruction C E xorca_id accs l data = Ok (l', evs) ->
  forall k, a_owner (l k) <> token_id -> a_data (l' k) = a_data (l k).
Proof.
  intros Hh He H k Hk.
  assert (Hm : a_owner (l xorca_mint_id) = token_id).
  { apply (honest_call _ _ _ _ _ _ _ _ He) in H. apply stake_inv in H; [|apply He|exact Hh].
    destruct H as (m0 & m1 & m2 & m3 & m4 & m5 & m6 & m7 & m & sd1 & Pre & _). destruct Pre.
    exact (proj1 sp_xm_live). }
  destruct (stake_exact _ _ _ _ _ _ _ _ Hh He H) as (staker & vk & so & sx & sk & m & A). decompose [and] A.
  match goal with Q : forall k, ~ In k [so; vk; sx; xorca_mint_id] -> _ |- _ => apply Q end.
  intros [Q|[Q|[Q|[Q|[]]]]]; subst k; apply Hk; try assumption; unfold token_account_of in *; tauto.
Qed.

Lemma change_lamports C l sk vk P P' o k :
  change C l (fst (run_op C l o)) (snd (run_op C l o)) sk vk P P' o -> In k P -> In k P' ->
  a_lamports (l k) <= a_lamports (fst (run_op C l o) k).
Proof.
  intros Hc Hk Hk'. set (r := run_op C l o) in *. destruct r as [l' evs] eqn:Er.
  cbn [fst snd] in *. inversion Hc; subst.
  - now apply H2.
  - destruct H6. now apply sc_recs.
  - destruct H8. now apply uc_recs.
  - destruct H7. now apply wc_recs.
  - destruct H6. now apply tc_recs.
Qed.

(** While a record exists nobody can take lamports from it. *)
Lemma record_lamports C l ops l' evs sk vk P k :
  pool C l sk vk P -> history C l ops l' evs -> is_record l k -> unchanged_during C l ops k ->
  a_lamports (l k) <= a_lamports (l' k).
Proof.
  intros HP H Hk. induction H as [|ops l' evs o H IH Ho]; intros U; [lia|].
  assert (U1 : unchanged_during C l ops k).
  { intros n. specialize (U (Nat.min n (length ops))).
    rewrite firstn_app in U. replace (Nat.min n (length ops) - length ops)%nat with 0%nat in U by lia.
    cbn [firstn] in U. rewrite app_nil_r in U.
    destruct (Nat.le_gt_cases n (length ops)) as [L|L].
    - now rewrite Nat.min_l in U by exact L.
    - rewrite Nat.min_r, firstn_all in U by lia. now rewrite (firstn_all2 ops) by lia. }
  specialize (IH U1).
  destruct (pool_history _ _ _ _ _ _ _ _ HP H) as [P1 HP1].
  destruct (pool_step _ _ _ _ _ _ HP1 Ho) as (P2 & HP2 & Hc).
  assert (Q : forall l2, a_owner (l2 k) = a_owner (l k) /\ a_data (l2 k) = a_data (l k) -> is_record l2 k).
  { intros l2 [Q1 Q2]. unfold is_record. rewrite Q1, Q2. exact Hk. }
  assert (I1 : In k P1).
  { apply (pool_is_record _ _ _ _ _ _ HP1), Q. specialize (U1 (length ops)). rewrite firstn_all in U1.
    now rewrite (history_after _ _ _ _ _ H). }
  assert (I2 : In k P2).
  { apply (pool_is_record _ _ _ _ _ _ HP2), Q. specialize (U (length (ops ++ [o]))). rewrite firstn_all, after_app in U.
    rewrite <- (history_after _ _ _ _ _ H) in U. exact U. }
  pose proof (change_lamports _ _ _ _ _ _ _ _ Hc I1 I2). lia.
Qed.

(** What the record costs, and what comes back. *)
Lemma unstake_rent C l o sk x i accs t un k :
  ordinary_state_address C -> reaches C l -> is_state l sk ->
  op_ok C l o -> performs C l o (Unstake x i) accs t -> slot accs 0 un -> slot accs 2 k ->
  exists E data, o = OpCall E accs data /\
    let l' := fst (run_op C l o) in
    un <> k /\
    a_lamports (l' un) = a_lamports (l un) - Z.max 0 (rent_min E 1024 - a_lamports (l k)) /\
    a_lamports (l' k) = Z.max (rent_min E 1024) (a_lamports (l k)).
Proof.
  intros Hord Hr Hs Ho Hp S0 S2.
  destruct (performs_run _ _ _ _ _ _ Hp) as (E & data & l' & evs & -> & Et & He & Hrun & ->).
  exists E, data. split; [reflexivity|]. cbn [fst]. destruct Ho as [HE Hh].
  destruct (unstake_exact _ _ _ _ _ _ _ _ _ HE Hh He Hrun) as (un' & sk' & k' & ux & vk & w & A). decompose [and] A.
  assert (k' = k) as -> by (eapply slot_fun; eassumption).
  assert (un' = un) as ->.
  { eapply slot_fun; [|exact S0]. match goal with Q : signed_slot _ _ un' |- _ => destruct Q as (m & M1 & M2 & _) end.
    now exists m. }
  auto.
Qed.

Lemma withdraw_rent C l o sk i accs t un k :
  ordinary_state_address C -> reaches C l -> is_state l sk ->
  op_ok C l o -> performs C l o (Withdraw i) accs t -> slot accs 0 un -> slot accs 2 k ->
  let l' := fst (run_op C l o) in
  a_lamports (l' un) = a_lamports (l un) + a_lamports (l k) /\ a_lamports (l' k) = 0.
Proof.
  cbn zeta. intros Hord Hr Hs Ho Hp S0 S2. destruct (reaches_pool _ _ _ Hord Hr Hs) as (vk & P & HP).
  destruct (performs_run _ _ _ _ _ _ Hp) as (E & data & l' & evs & -> & Et & He & Hrun & ->).
  cbn [fst]. destruct Ho as [HE Hh].
  destruct (withdraw_exact _ _ _ _ _ _ _ _ Hh He Hrun)
    as (un' & sk' & k' & uo & vk' & A0 & A1 & A2 & A3 & A4 & A5 & A6 & A7 & A8 & A9 & A10 & A11 & A12 & A13 & A14 & A15 & A16 & A17 & A18 & A19 & A20 & A21 & A22 & A23 & _).
  assert (k' = k) as -> by (eapply slot_fun; eassumption).
  assert (un' = un) as -> by (destruct A0 as (m & M1 & M2 & _); eapply slot_fun; [exists m; split; eassumption|exact S0]).
  split; [|exact A15].
  assert (sk' = sk) as -> by (destruct (pool_state_is _ _ _ _ _ sk' HP); [apply A5..|];
     symmetry; eapply pool_state_is; [exact HP|apply Hs|apply Hs]).
  assert (vk' = vk) as ->.
  { apply (honest_call _ _ _ _ _ _ _ _ He) in Hrun. apply withdraw_inv in Hrun; [|apply He|exact Hh].
    destruct Hrun as (m0 & m1 & m2 & m3 & m4 & m5 & m6 & m7 & vd1 & Pre & _). destruct Pre. destruct wp_accs.
    rewrite <- (pool_vault_is _ _ _ _ _ HP). 
    assert (E1 : m_key m1 = sk) by (eapply slot_fun; [exists m1; split; [eassumption|reflexivity]|exact A1]).
    assert (E4 : m_key m4 = vk') by (eapply slot_fun; [exists m4; split; [eassumption|reflexivity]|exact A4]).
    rewrite <- E4, <- E1. exact wp_v_key. }
  apply A23; [apply (po_vault _ _ _ _ _ HP)|].
  intros ->. destruct A0 as (m & M1 & M2 & M3). apply (Hh m); [eapply nth_error_In, M1|exact M3|].
  rewrite M2. eapply record_pda. apply (po_records _ _ _ _ _ HP). now apply (pool_is_record _ _ _ _ _ _ HP).
Qed.

Theorem rent_round_trip C l o1 sk x i accs1 t1 un k ops l2 evs o2 j accs2 t2 :
  ordinary_state_address C -> reaches C l -> is_state l sk ->
  op_ok C l o1 -> performs C l o1 (Unstake x i) accs1 t1 -> slot accs1 0 un -> slot accs1 2 k ->
  let l1 := fst (run_op C l o1) in
  history C l1 ops l2 evs -> unchanged_during C l1 ops k ->
  op_ok C l2 o2 -> performs C l2 o2 (Withdraw j) accs2 t2 -> slot accs2 0 un -> slot accs2 2 k ->
  let l3 := fst (run_op C l2 o2) in
  exists E data, o1 = OpCall E accs1 data /\
    a_lamports (l un) - a_lamports (l1 un) = Z.max 0 (rent_min E 1024 - a_lamports (l k)) /\
    a_lamports (l1 k) = Z.max (rent_min E 1024) (a_lamports (l k)) /\
    a_lamports (l1 k) <= a_lamports (l2 k) /\
    a_lamports (l3 un) - a_lamports (l2 un) = a_lamports (l2 k) /\ a_lamports (l3 k) = 0.
Proof.
  cbn zeta. intros Hord Hr Hs Ho1 Hp1 S0 S2 Hh U Ho2 Hp2 T0 T2.
  destruct (unstake_rent _ _ _ _ _ _ _ _ _ _ Hord Hr Hs Ho1 Hp1 S0 S2) as (E & data & Eo & N & R1 & R2).
  exists E, data. split; [exact Eo|].
  destruct (reaches_pool _ _ _ Hord Hr Hs) as (vk & P & HP).
  destruct (pool_step _ _ _ _ _ _ HP Ho1) as (P1 & HP1 & Hc).
  pose proof (reaches_step _ _ _ Hr Ho1) as Hr1. pose proof (reaches_history _ _ _ _ _ Hr1 Hh) as Hr2.
  destruct (pool_history _ _ _ _ _ _ _ _ HP1 Hh) as [P2 HP2].
  assert (Hs2 : is_state l2 sk) by (eapply pool_is_state; eassumption).
  destruct (withdraw_rent _ _ _ _ _ _ _ _ _ Hord Hr2 Hs2 Ho2 Hp2 T0 T2) as [W1 W2].
  assert (Hk : is_record (fst (run_op C l o1)) k).
  { destruct (performs_run _ _ _ _ _ _ Hp1) as (E' & data' & l' & evs' & -> & Et & He & Hrun & ->). destruct Ho1 as [HE Hm].
    destruct (unstake_exact _ _ _ _ _ _ _ _ _ HE Hm He Hrun) as (un' & sk' & k' & ux & vk' & w & A). decompose [and] A.
    assert (k' = k) as -> by (eapply slot_fun; eassumption). assumption. }
  pose proof (record_lamports _ _ _ _ _ _ _ _ _ HP1 Hh Hk U).
  cbn zeta in *. split; [lia|]. split; [exact R2|]. split; [assumption|]. split; [lia|exact W2].
Qed.
