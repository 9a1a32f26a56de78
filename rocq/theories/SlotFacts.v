(** Which accounts a successful call was given (C24), and aliasing (C44). *)
From Verif Require Import Spec BytesFacts FieldFacts LedgerFacts TokenFacts ParseFacts CpiFacts
  AssertFacts LayoutFacts MathFacts Economics StakeFacts UnstakeFacts WithdrawFacts SetFacts InitFacts
  CodecFacts Totals Calm Pool PoolStake PoolUnstake PoolInit PoolHistory HistoryFacts LifeFacts RateFacts
  EffectFacts ClaimFacts.

Ltac fill :=
  let n := fresh in let k := fresh in let s := fresh in let w := fresh in
  intros n k s w; repeat (destruct n as [|n]; [cbn; intros [= <- <- <-]; eexists; split;
    [eassumption|split; [first [reflexivity|eassumption]|split; [try discriminate; auto|try discriminate; auto]]]|]);
  destruct n; discriminate.

Lemma stake_slots C l E accs data a l' evs :
  honest_metas C accs -> encodes data (Stake a) ->
  process_instruction C E xorca_id accs l data = Ok (l', evs) ->
  exists staker vk so sx sk,
    fills accs (stake_roles staker vk so sx sk) /\
    is_state l sk /\ sk = state_address_with_bump C (st_bump (a_data (l sk))) /\
    vk = vault_address_with_bump C sk orca_mint_id (st_vault_bump (a_data (l sk))) /\
    token_account_of l vk orca_mint_id sk /\
    token_account_of l so orca_mint_id staker /\ token_account_of l sx xorca_mint_id staker.
Proof.
  intros Hh He H. pose proof (proj1 He) as Ha. cbn in Ha. apply (honest_call _ _ _ _ _ _ _ _ He) in H.
  apply stake_inv in H; [|assumption|exact Hh].
  destruct H as (staker & vault & so & sx & xm & st & om & tp & m & sd1 & Pre & _). destruct Pre. destruct sp_accs.
  exists (m_key staker), (m_key vault), (m_key so), (m_key sx), (m_key st).
  split; [unfold stake_roles; fill|]. split; [split; [assumption|apply sp_st_shape]|].
  split; [assumption|]. split; [assumption|]. split; [now apply ta_live_token|].
  split; now apply ta_live_token.
Qed.

Lemma unstake_slots C l E accs data x i l' evs :
  sysvars_ok E -> honest_metas C accs -> encodes data (Unstake x i) ->
  process_instruction C E xorca_id accs l data = Ok (l', evs) ->
  exists un sk k ux vk,
    fills accs (unstake_roles un sk k ux vk) /\
    is_state l sk /\ sk = state_address_with_bump C (st_bump (a_data (l sk))) /\
    vk = vault_address_with_bump C sk orca_mint_id (st_vault_bump (a_data (l sk))) /\
    (exists b, find_pending_withdraw_address C un i = Some (k, b)) /\
    a_owner (l k) = system_id /\ a_data (l k) = [] /\
    reads_as_account l vk orca_mint_id sk /\ token_account_of l ux xorca_mint_id un.
Proof.
  intros HE Hh He H. pose proof (proj1 He) as [Hx Hi]. apply (honest_call _ _ _ _ _ _ _ _ He) in H.
  apply unstake_inv in H; [|assumption..|now apply sysvars_env|exact Hh].
  destruct H as (un & st & pd & ux & xm & om & v & sp & tp & w & b & sd1 & Pre & _).
  destruct Pre. destruct up_accs.
  exists (m_key un), (m_key st), (m_key pd), (m_key ux), (m_key v).
  split; [unfold unstake_roles; fill|]. split; [split; [assumption|apply up_st_shape]|].
  split; [assumption|]. split; [assumption|]. split; [exists b; assumption|]. split; [assumption|].
  split; [assumption|]. split; [|now apply ta_live_token].
  destruct up_v as (V1 & V2 & V3 & V4). split; [exact V1|]. split; [destruct V2; unfold zlen in *; lia|]. auto.
Qed.

Lemma withdraw_slots C l E accs data i l' evs :
  honest_metas C accs -> encodes data (Withdraw i) ->
  process_instruction C E xorca_id accs l data = Ok (l', evs) ->
  exists un sk k uo vk,
    fills accs (withdraw_roles un sk k uo vk) /\
    is_state l sk /\ sk = state_address_with_bump C (st_bump (a_data (l sk))) /\
    vk = vault_address_with_bump C sk orca_mint_id (st_vault_bump (a_data (l sk))) /\
    is_record l k /\ k = pending_address_with_bump C un i (pw_bump (a_data (l k))) /\
    token_account_of l vk orca_mint_id sk /\ token_account_of l uo orca_mint_id un.
Proof.
  intros Hh He H. apply (honest_call _ _ _ _ _ _ _ _ He) in H.
  apply withdraw_inv in H; [|apply He|exact Hh].
  destruct H as (un & st & pd & uo & v & om & sp & tp & vd1 & Pre & _). destruct Pre. destruct wp_accs.
  exists (m_key un), (m_key st), (m_key pd), (m_key uo), (m_key v).
  split; [unfold withdraw_roles; fill|]. split; [split; [assumption|apply wp_st_shape]|].
  split; [assumption|]. split; [assumption|]. split; [split; [assumption|apply wp_pd_shape]|].
  split; [assumption|]. split; now apply ta_live_token.
Qed.

Lemma init_slots C l E accs data c l' evs :
  sysvars_ok E -> honest_metas C accs -> encodes data (Initialize c) ->
  process_instruction C E xorca_id accs l data = Ok (l', evs) ->
  exists au sk vk sb vb,
    fills accs (init_roles deployer_address au sk vk) /\
    find_state_address C = Some (sk, sb) /\
    find_vault_address C sk token_id orca_mint_id = Some (vk, vb).
Proof.
  intros HE Hh He H. apply (honest_call _ _ _ _ _ _ _ _ He) in H.
  apply init_inv in H; [|now apply sysvars_env|exact Hh].
  destruct H as (pa & ua & st & v & xm & om & sp & tp & ap & sb & vb & Pre & _). destruct Pre. destruct ip_accs.
  exists (m_key ua), (m_key st), (m_key v), sb, vb.
  split; [unfold init_roles; fill|]. auto.
Qed.

Lemma set_slots C l E accs data u l' evs :
  encodes data (Set_ u) ->
  process_instruction C E xorca_id accs l data = Ok (l', evs) ->
  exists sk,
    fills accs (set_roles (authority l sk) sk) /\
    is_state l sk /\ sk = state_address_with_bump C (st_bump (a_data (l sk))).
Proof.
  intros He H. apply (honest_call _ _ _ _ _ _ _ _ He) in H.
  apply set_ok in H. destruct H as (au & st & Pre & _). destruct Pre.
  exists (m_key st). split; [unfold set_roles; fill|]. split; [split; [assumption|apply tp_st_shape]|]. assumption.
Qed.

(** ** The unique State and vault in executions *)
Lemma fills_slot accs rs n k s w : fills accs rs -> nth_error rs n = Some (k, s, w) -> slot accs n k.
Proof. intros H Hn. destruct (H _ _ _ _ Hn) as (m & H1 & H2 & _). exists m. auto. Qed.

Lemma call_slots C l o i accs t sk vk :
  ordinary_state_address C -> reaches C l -> is_state l sk -> is_vault C sk vk -> op_ok C l o ->
  performs C l o i accs t ->
  match i with
  | Stake _ => slot accs 1 vk /\ slot accs 5 sk
  | Unstake _ _ => slot accs 1 sk /\ slot accs 6 vk
  | Withdraw _ => slot accs 1 sk /\ slot accs 4 vk
  | Initialize _ => False
  | Set_ _ => slot accs 1 sk
  end.
Proof.
  intros Hord Hr Hs Hv Ho Hp. destruct (reaches_pool_vault _ _ _ _ Hord Hr Hs Hv) as [P HP].
  destruct (performs_run _ _ _ _ _ _ Hp) as (E & data & l' & evs & -> & Et & He & Hrun & _).
  pose proof Ho as [HE Hh].
  assert (Q : forall k, is_state l k -> k = sk) by (intros k K; eapply state_unique; eassumption).
  pose proof (pool_vault_is _ _ _ _ _ HP) as V.
  destruct i as [a|x i|i|c|u].
  - destruct (stake_slots _ _ _ _ _ _ _ _ Hh He Hrun) as (st & v & so & sx & s & F & S & _ & E1 & _).
    apply Q in S. subst s. rewrite V in E1. subst v.
    split; eapply fills_slot; try eassumption; reflexivity.
  - destruct (unstake_slots _ _ _ _ _ _ _ _ _ HE Hh He Hrun) as (un & s & k & ux & v & F & S & _ & E1 & _).
    apply Q in S. subst s. rewrite V in E1. subst v.
    split; eapply fills_slot; try eassumption; reflexivity.
  - destruct (withdraw_slots _ _ _ _ _ _ _ _ Hh He Hrun) as (un & s & k & uo & v & F & S & _ & E1 & _).
    apply Q in S. subst s. rewrite V in E1. subst v.
    split; eapply fills_slot; try eassumption; reflexivity.
  - eapply initialize_once; eassumption.
  - destruct (set_slots _ _ _ _ _ _ _ _ He Hrun) as (s & F & S & _).
    apply Q in S. subst s. eapply fills_slot; try eassumption; reflexivity.
Qed.

(** ** Aliasing *)
Lemma nodup_nth {A} (xs : list A) i j x : NoDup xs -> nth_error xs i = Some x -> nth_error xs j = Some x -> i = j.
Proof.
  intros H H1 H2. eapply NoDup_nth_error; [exact H| |congruence].
  apply nth_error_Some. congruence.
Qed.

(** Pairwise distinct slots cannot be aliased. *)
Lemma alias_fails C l E accs data (ns : list nat) i j k :
  (forall l' evs, process_instruction C E xorca_id accs l data = Ok (l', evs) ->
     exists ks', NoDup ks' /\ forall n m, nth_error ns n = Some m -> exists k, nth_error ks' n = Some k /\ slot accs m k) ->
  In i ns -> In j ns -> i <> j -> slot accs i k -> slot accs j k ->
  run_op C l (OpCall E accs data) = (l, []).
Proof.
  intros H Hi Hj N Si Sj. cbn [run_op].
  destruct (process_instruction C E xorca_id accs l data) as [[l' evs]|e] eqn:R; [|reflexivity]. exfalso.
  destruct (H _ _ eq_refl) as (ks' & Nd & F).
  apply In_nth_error in Hi. destruct Hi as [n Hn]. apply In_nth_error in Hj. destruct Hj as [m Hm].
  destruct (F _ _ Hn) as (k1 & K1 & S1). destruct (F _ _ Hm) as (k2 & K2 & S2).
  assert (k1 = k) by (eapply slot_fun; eassumption). assert (k2 = k) by (eapply slot_fun; eassumption). subst.
  assert (n = m) by (eapply nodup_nth; eassumption). congruence.
Qed.

Ltac list_slots :=
  let n := fresh in let m := fresh in
  intros n m; repeat (destruct n as [|n]; [cbn; intros [= <-]; eexists; split; [reflexivity|eassumption]|]);
  destruct n; discriminate.

Lemma stake_aliased C l E accs data a i j k :
  honest_metas C accs -> encodes data (Stake a) ->
  In i [1; 2; 3; 4]%nat -> In j [1; 2; 3; 4]%nat -> i <> j -> slot accs i k -> slot accs j k ->
  run_op C l (OpCall E accs data) = (l, []).
Proof.
  intros Hh He Hi Hj N Si Sj. refine (alias_fails C l E accs data [1;2;3;4]%nat _ _ k _ Hi Hj N Si Sj).
  intros l' evs H.
  destruct (stake_slots _ _ _ _ _ _ _ _ Hh He H) as (st' & vk' & so' & sx' & sk' & F & _).
  destruct (stake_exact _ _ _ _ _ _ _ _ Hh He H)
    as (staker & vk & so & sx & sk & m & A0 & A1 & A2 & A3 & A5 & _ & _ & _ & _ & _ & _ & _ & Nd & _).
  pose proof (fills_slot _ _ 4 _ _ _ F eq_refl) as S4.
  exists [vk; so; sx; xorca_mint_id]. split; [|list_slots].
  inversion Nd as [|? ? N1 Nd1]; subst. inversion Nd1 as [|? ? N2 Nd2]; subst. cbn in N1, N2.
  constructor; [cbn; intuition congruence|]. constructor; [cbn; intuition congruence|]. exact Nd2.
Qed.

Lemma unstake_aliased C l E accs data x i n m k :
  sysvars_ok E -> honest_metas C accs -> encodes data (Unstake x i) ->
  In n [3; 4; 1; 2; 6]%nat -> In m [3; 4; 1; 2; 6]%nat -> n <> m -> slot accs n k -> slot accs m k ->
  run_op C l (OpCall E accs data) = (l, []).
Proof.
  intros HE Hh He Hi Hj N Si Sj. refine (alias_fails C l E accs data [3;4;1;2;6]%nat _ _ k _ Hi Hj N Si Sj).
  intros l' evs H.
  destruct (unstake_slots _ _ _ _ _ _ _ _ _ HE Hh He H) as (un' & sk' & k' & ux' & vk' & F & _).
  destruct (unstake_exact _ _ _ _ _ _ _ _ _ HE Hh He H)
    as (un & sk & pk & ux & vk & w & A0 & A1 & A2 & A3 & A6 & _ & _ & _ & _ & _ & _ & _ & _ & _ & _ & Nd & _).
  pose proof (fills_slot _ _ 4 _ _ _ F eq_refl) as S4.
  exists [ux; xorca_mint_id; sk; pk; vk]. split; [exact Nd|list_slots].
Qed.

Lemma withdraw_aliased C l E accs data i n m k :
  honest_metas C accs -> encodes data (Withdraw i) ->
  In n [4; 3; 1; 2]%nat -> In m [4; 3; 1; 2]%nat -> n <> m -> slot accs n k -> slot accs m k ->
  run_op C l (OpCall E accs data) = (l, []).
Proof.
  intros Hh He Hi Hj N Si Sj. refine (alias_fails C l E accs data [4;3;1;2]%nat _ _ k _ Hi Hj N Si Sj).
  intros l' evs H.
  destruct (withdraw_exact _ _ _ _ _ _ _ _ Hh He H)
    as (un & sk & pk & uo & vk & A0 & A1 & A2 & A3 & A4 & _ & _ & _ & _ & _ & _ & Nd & _).
  exists [vk; uo; sk; pk]. split; [exact Nd|list_slots].
Qed.
