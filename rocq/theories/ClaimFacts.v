(** Authority succession, index reuse, forged accounts, and the event log. *)
From Verif Require Import Spec BytesFacts FieldFacts LedgerFacts TokenFacts ParseFacts CpiFacts
  AssertFacts LayoutFacts MathFacts Economics StakeFacts UnstakeFacts WithdrawFacts SetFacts InitFacts
  CodecFacts Totals Calm Pool PoolStake PoolUnstake PoolInit PoolHistory HistoryFacts LifeFacts RateFacts
  EffectFacts.

(** ** C20 *)
Lemma reaches_genesis C l0 ops l evs : genesis C l0 -> history C l0 ops l evs -> reaches C l.
Proof. intros H H'. exists l0, ops, evs. auto. Qed.

Theorem authority_from C l ops l' evs sk :
  ordinary_state_address C -> reaches C l -> is_state l sk -> history C l ops l' evs ->
  (forall n, authority (after C l (firstn n ops)) sk = authority l' sk) \/
  (exists ops1 o ops2 accs t, ops = ops1 ++ o :: ops2 /\
     performs C (after C l ops1) o (Set_ (UpdateUpdateAuthority (authority l' sk))) accs t /\
     signed_slot accs 0 (authority (after C l ops1) sk) /\ slot accs 1 sk /\
     forall n, authority (after C l (ops1 ++ o :: firstn n ops2)) sk = authority l' sk).
Proof.
  intros Hord Hr Hs H. induction H as [|ops l1 evs o H IH Ho].
  - left. intros n. now rewrite firstn_nil.
  - pose proof (reaches_history _ _ _ _ _ Hr H) as Hr1.
    pose proof (history_after _ _ _ _ _ H) as Ea.
    assert (Hs1 : is_state l1 sk).
    { destruct (reaches_pool _ _ _ Hord Hr Hs) as (vk & P & HP).
      destruct (pool_history _ _ _ _ _ _ _ _ HP H) as [P' HP']. eapply pool_is_state, HP'. }
    pose proof (settings_step _ _ _ _ Hord Hr1 Hs1 Ho) as Hst. cbn zeta in Hst.
    set (l2 := fst (run_op C l1 o)) in *.
    assert (Hsame : authority l2 sk = authority l1 sk ->
      (forall n, authority (after C l (firstn n (ops ++ [o]))) sk = authority l2 sk) \/
      (exists ops1 o1 ops2 accs t, ops ++ [o] = ops1 ++ o1 :: ops2 /\
         performs C (after C l ops1) o1 (Set_ (UpdateUpdateAuthority (authority l2 sk))) accs t /\
         signed_slot accs 0 (authority (after C l ops1) sk) /\ slot accs 1 sk /\
         forall n, authority (after C l (ops1 ++ o1 :: firstn n ops2)) sk = authority l2 sk)).
    { intros Q. destruct IH as [IH|(ops1 & o1 & ops2 & accs & t & -> & A & B & D & F)].
      - left. intros n. destruct (firstn_snoc n ops o) as [Z|Z]; rewrite Z; [rewrite IH; congruence|].
        rewrite after_app, <- Ea. cbn [after fold_left]. reflexivity.
      - right. exists ops1, o1, (ops2 ++ [o]), accs, t. rewrite <- app_assoc. split; [reflexivity|].
        rewrite Q. split; [exact A|]. split; [exact B|]. split; [exact D|]. intros n.
        destruct (firstn_snoc n ops2 o) as [Z|Z]; rewrite Z; [apply F|].
        rewrite app_comm_cons, app_assoc, after_app, <- Ea. cbn [after fold_left]. fold l2. exact Q. }
    destruct Hst as [[Q _]|[(accs & t & k & Hp & S0 & S1 & Q & _)|(accs & t & c & Hp & S0 & S1 & _ & Q & _)]];
      [auto| |auto].
    right. exists ops, o, [], accs, t. rewrite <- Ea. split; [reflexivity|]. rewrite Q. split; [exact Hp|].
    split; [exact S0|]. split; [exact S1|]. intros n. rewrite firstn_nil, after_app, <- Ea. exact Q.
Qed.

Theorem authority_history C l0 ops l evs sk :
  ordinary_state_address C -> genesis C l0 -> history C l0 ops l evs -> is_state l sk ->
  exists ops1 o ops2 accs t,
    ops = ops1 ++ o :: ops2 /\
    ((exists c, performs C (after C l0 ops1) o (Initialize c) accs t /\
        signed_slot accs 0 deployer_address /\ signed_slot accs 1 (authority l sk)) \/
     (performs C (after C l0 ops1) o (Set_ (UpdateUpdateAuthority (authority l sk))) accs t /\
        signed_slot accs 0 (authority (after C l0 ops1) sk) /\ slot accs 1 sk)) /\
    forall n, authority (after C l0 (ops1 ++ o :: firstn n ops2)) sk = authority l sk.
Proof.
  intros Hord Hg H Hs. pose proof H as H0.
  destruct (pool_birth _ _ _ _ _ _ Hord Hg H Hs)
    as (ops1 & o1 & ops2 & vk & l2 & evs2 & E & accs & data & c & -> & El & Eo & Hd & Hp & Hb & HP & Hh & ->).
  assert (Hr2 : reaches C l2).
  { apply (history_prefix _ _ (ops1 ++ [o1]) ops2) in H0; [|rewrite <- app_assoc; reflexivity].
    destruct H0 as (e & H0). rewrite El. eapply reaches_genesis; eassumption. }
  destruct (authority_from _ _ _ _ _ _ Hord Hr2 (pool_is_state _ _ _ _ _ HP) Hh)
    as [A|(p1 & o & p2 & accs' & t & -> & A & B & D & F)].
  - exists ops1, o1, ops2, accs, (now E). split; [reflexivity|]. split.
    + left. exists c. split; [exact Hp|]. destruct Hb. pose proof (A 0%nat) as A0. cbn in A0.
      split; [destruct bi_payer as (m & M1 & M2 & M3); exists m; auto|].
      rewrite <- A0. destruct bi_authority as (m & M1 & M2 & M3). exists m. auto.
    + intros n. rewrite after_split, <- El. apply A.
  - exists ((ops1 ++ [o1]) ++ p1), o, p2, accs', t. split; [now rewrite <- !app_assoc|].
    rewrite after_app, <- El. split; [right; auto|]. intros n.
    rewrite <- app_assoc, (after_app C l0 (ops1 ++ [o1])), <- El. apply F.
Qed.

(** ** C21 *)
Lemma cooldown_nonneg C l sk :
  ordinary_state_address C -> reaches C l -> is_state l sk -> 0 <= cooldown l sk.
Proof.
  intros Ho Hr Hs. destruct (reaches_pool _ _ _ Ho Hr Hs) as (vk & P & HP). apply HP.
Qed.

Lemma maturity_after C l o x i accs t k :
  ordinary_state_address C -> reaches C l -> op_ok C l o -> performs C l o (Unstake x i) accs t ->
  slot accs 2 k ->
  is_record (fst (run_op C l o)) k /\ t <= rec_time (fst (run_op C l o)) k.
Proof.
  intros Hord Hr Ho Hp Hk.
  destruct (performs_run _ _ _ _ _ _ Hp) as (E & data & l' & evs & -> & Et & He & Hrun & ->).
  destruct Ho as [HE Hh]. cbn [fst].
  destruct (unstake_exact _ _ _ _ _ _ _ _ _ HE Hh He Hrun)
    as (un & sk & k' & ux & vk & w & A0 & A1 & A2 & A3 & A4 & A5 & _ & _ & _ & _ & _ & _ & _ & _ & _ & _ & _ &
        _ & _ & _ & _ & _ & _ & R & _ & _ & _ & T & _).
  assert (k' = k) by (eapply slot_fun; eassumption). subst k'.
  pose proof (cooldown_nonneg _ _ _ Hord Hr A5). split; [exact R|lia].
Qed.

(** ** C08 *)
Lemma index_in_use C l E accs data x i un k b :
  sysvars_ok E -> honest_metas C accs -> encodes data (Unstake x i) -> slot accs 0 un ->
  find_pending_withdraw_address C un i = Some (k, b) ->
  a_owner (l k) <> system_id \/ a_data (l k) <> [] ->
  run_op C l (OpCall E accs data) = (l, []).
Proof.
  intros HE Hh He Hs Hf Hn. cbn [run_op].
  destruct (process_instruction C E xorca_id accs l data) as [[l' evs]|e] eqn:H; [|reflexivity].
  exfalso. destruct (unstake_exact _ _ _ _ _ _ _ _ _ HE Hh He H)
    as (un' & sk & k' & ux & vk & w & A0 & A1 & A2 & A3 & A4 & A5 & _ & _ & (b' & F) & O & D & _).
  assert (un' = un).
  { eapply slot_fun; [|exact Hs]. destruct A0 as (m & M1 & M2 & _). exists m. auto. }
  subst un'. rewrite Hf in F. injection F as -> _. tauto.
Qed.

(** ** C23 *)
Lemma program_accounts C l k :
  ordinary_state_address C -> reaches C l -> a_owner (l k) = xorca_id ->
  all_zero (a_data (l k)) = true \/
  (is_state l k /\ exists b, find_state_address C = Some (k, b)) \/
  (is_record l k /\ exists b, find_pending_withdraw_address C (rec_owner l k) (rec_index l k) = Some (k, b)).
Proof.
  intros Hord (l0 & ops & evs & Hg & H) Ho.
  destruct (reachable _ _ _ _ _ Hord Hg H) as [[HF _]|(sk & vk & P & HP)].
  - left. now apply HF.
  - destruct (po_only _ _ _ _ _ HP k Ho) as [->|[K|K]]; [right; left|right; right|now left].
    + split; [eapply pool_is_state, HP|]. destruct (po_find _ _ _ _ _ HP) as (b & F & _). eauto.
    + pose proof (po_records _ _ _ _ _ HP k K) as R. split; [split; apply R|].
      eexists. apply (ro_addr _ _ _ R).
Qed.

Lemma state_origin C l0 ops l evs sk :
  ordinary_state_address C -> genesis C l0 -> history C l0 ops l evs -> is_state l sk ->
  exists ops1 o ops2 c accs t, ops = ops1 ++ o :: ops2 /\
    performs C (after C l0 ops1) o (Initialize c) accs t /\ slot accs 2 sk.
Proof.
  intros Hord Hg H Hs.
  destruct (pool_birth _ _ _ _ _ _ Hord Hg H Hs)
    as (ops1 & o1 & ops2 & vk & l2 & evs2 & E & accs & data & c & -> & El & Eo & Hd & Hp & Hb & HP & Hh & ->).
  exists ops1, o1, ops2, c, accs, (now E). split; [reflexivity|]. split; [exact Hp|].
  destruct (performs_run _ _ _ _ _ _ Hp) as (E' & data' & l' & evs & Eo' & Et & He & Hrun & Hr).
  assert (Hok : op_ok C (after C l0 ops1) o1).
  { apply (history_prefix _ _ (ops1 ++ [o1]) ops2) in H; [|rewrite <- app_assoc; reflexivity].
    destruct H as (e & H). rewrite after_app in H. now apply history_last in H. }
  rewrite Eo' in Hok. destruct Hok as [HE Hm].
  destruct (init_exact _ _ _ _ _ _ _ _ HE Hm He Hrun)
    as (sk' & vk' & au & sb & vb & A0 & A1 & A2 & A3 & F & _).
  assert (sk' = sk) by (destruct (po_find _ _ _ _ _ HP) as (b & F' & _); congruence). now subst sk'.
Qed.

(** ** C06 for a user and an index *)
Lemma withdraw_record C l sk o i accs t u :
  ordinary_state_address C -> reaches C l -> is_state l sk -> op_ok C l o ->
  performs C l o (Withdraw i) accs t -> signed_slot accs 0 u ->
  collision C (claimants l u) \/
  exists k b, slot accs 2 k /\ find_pending_withdraw_address C u i = Some (k, b) /\
    is_record l k /\ rec_owner l k = u /\ rec_index l k = i /\ pays C l o k.
Proof.
  intros Hord Hr Hs Ho Hp Su.
  destruct (performs_run _ _ _ _ _ _ Hp) as (E & data & l' & evs & -> & Et & He & Hrun & Hrn).
  pose proof Ho as [HE Hh].
  destruct (withdraw_facts _ _ _ _ _ _ _ _ Hh He Hrun) as (u' & k & S0 & S2 & R & _).
  assert (S0' : slot accs 0 u) by (destruct Su as (m & ? & ? & _); exists m; auto).
  destruct (only_owner _ _ _ _ _ _ _ _ _ _ _ Hord Hr Hs Hh He Hrun S0' S2) as (_ & _ & [[A B]|A]); [right|auto].
  destruct (reaches_pool _ _ _ Hord Hr Hs) as (vk & P & HP).
  pose proof R as R0. apply (pool_is_record _ _ _ _ _ _ HP) in R0. apply (po_records _ _ _ _ _ HP) in R0.
  exists k, (Z_to_byte (pw_bump (a_data (l k)))). split; [exact S2|].
  split; [rewrite <- A, <- B; apply R0|]. do 3 (split; [assumption|]).
  eapply withdraw_pays; eassumption.
Qed.

Lemma paid_once C l sk o i accs t u ops l2 evs o2 accs2 t2 :
  ordinary_state_address C -> reaches C l -> is_state l sk ->
  op_ok C l o -> performs C l o (Withdraw i) accs t -> signed_slot accs 0 u ->
  history C (fst (run_op C l o)) ops l2 evs ->
  op_ok C l2 o2 -> performs C l2 o2 (Withdraw i) accs2 t2 -> signed_slot accs2 0 u ->
  collision C (claimants l u) \/ collision C (claimants l2 u) \/
  exists ops1 o1 ops2 x accs1 t1,
    ops = ops1 ++ o1 :: ops2 /\
    performs C (after C (fst (run_op C l o)) ops1) o1 (Unstake x i) accs1 t1 /\
    signed_slot accs1 0 u.
Proof.
  intros Hord Hr Hs Ho Hp Su Hh Ho2 Hp2 Su2.
  pose proof (reaches_history _ _ _ _ _ (reaches_step _ _ _ Hr Ho) Hh) as Hr2.
  destruct (reaches_pool _ _ _ Hord Hr Hs) as (vk & P & HP).
  destruct (pool_step _ _ _ _ _ _ HP Ho) as (P' & HP' & _).
  destruct (pool_history _ _ _ _ _ _ _ _ HP' Hh) as (P2 & HP2).
  destruct (withdraw_record _ _ _ _ _ _ _ _ Hord Hr Hs Ho Hp Su) as [A|(k & b & S2 & F & R & _ & _ & Py)]; [now left|].
  destruct (withdraw_record _ _ _ _ _ _ _ _ Hord Hr2 (pool_is_state _ _ _ _ _ HP2) Ho2 Hp2 Su2)
    as [A|(k' & b' & S2' & F' & R' & O' & I' & _)]; [auto|right; right].
  assert (k' = k) by congruence. subst k'. destruct Py as (_ & _ & _ & _ & _ & _ & _ & _ & _ & Hn).
  destruct (record_origin _ _ _ _ _ _ _ _ _ HP' Hh R') as [[_ I]|(p1 & o1 & p2 & E & Hc & U)].
  { exfalso. apply Hn. now apply (pool_is_record _ _ _ _ _ _ HP'). }
  destruct Hc as (x & j & accs1 & t1 & un & Hp1 & S & _ & _ & Hc). cbn zeta in Hc.
  destruct Hc as (_ & A & B & _).
  exists p1, o1, p2, x, accs1, t1. split; [exact E|].
  pose proof (creation_unchanged _ _ _ _ _ _ U) as Q. cbn zeta in Q. rewrite <- E in Q.
  rewrite <- (history_after _ _ _ _ _ Hh) in Q. destruct Q as (Q1 & Q2 & _).
  assert (H1 : un = u) by congruence. assert (H2 : j = i) by congruence. rewrite H1 in S. rewrite H2 in Hp1.
  split; assumption.
Qed.

(** ** C05 *)
Lemma record_immutable C l ops l' evs sk k :
  ordinary_state_address C -> reaches C l -> is_state l sk -> is_record l k -> history C l ops l' evs ->
  (unchanged_during C l ops k /\ is_record l' k) \/
  (exists ops1 o ops2, ops = ops1 ++ o :: ops2 /\ unchanged_during C l ops1 k /\
     pays C (after C l ops1) o k).
Proof.
  intros Hord Hr Hs Hk Hh. destruct (reaches_pool _ _ _ Hord Hr Hs) as (vk & P & HP).
  eapply record_fate; [exact HP|exact Hh|]. now apply (pool_is_record _ _ _ _ _ _ HP).
Qed.

(** ** C19 *)
Lemma initialize_once C l sk o c accs t :
  ordinary_state_address C -> reaches C l -> is_state l sk -> op_ok C l o ->
  ~ performs C l o (Initialize c) accs t.
Proof.
  intros Hord Hr Hs Ho Hp. destruct (reaches_pool _ _ _ Hord Hr Hs) as (vk & P & HP).
  destruct (performs_run _ _ _ _ _ _ Hp) as (E & data & l' & evs & -> & Et & He & Hrun & Hrn).
  destruct Ho as [HE Hh]. apply (call_result _ _ _ _ _ _ _ _ He) in Hrun.
  exact (pool_no_init _ _ _ _ _ _ _ _ _ HP HE Hh Hrun).
Qed.

Lemma state_stays C l ops l' evs sk :
  ordinary_state_address C -> reaches C l -> is_state l sk -> history C l ops l' evs -> is_state l' sk.
Proof.
  intros Hord Hr Hs Hh. destruct (reaches_pool _ _ _ Hord Hr Hs) as (vk & P & HP).
  destruct (pool_history _ _ _ _ _ _ _ _ HP Hh) as [P' HP']. eapply pool_is_state, HP'.
Qed.

Lemma state_unique C l sk sk' :
  ordinary_state_address C -> reaches C l -> is_state l sk -> is_state l sk' -> sk' = sk.
Proof.
  intros Hord Hr Hs [H1 H2]. destruct (reaches_pool _ _ _ Hord Hr Hs) as (vk & P & HP).
  eapply pool_state_is; eassumption.
Qed.

(** ** C43, first half *)
Lemma rate_unmoved C l o sk vk i accs t :
  ordinary_state_address C -> reaches C l -> is_state l sk -> is_vault C sk vk -> op_ok C l o ->
  performs C l o i accs t ->
  match i with Withdraw _ | Set_ _ => True | _ => False end ->
  let l' := fst (run_op C l o) in
  free_orca l' sk vk = free_orca l sk vk /\ supply l' = supply l.
Proof.
  intros Hord Hr Hs Hv Ho Hp Hi. cbn zeta.
  destruct (reaches_pool_vault _ _ _ _ Hord Hr Hs Hv) as [P HP].
  destruct (performs_run _ _ _ _ _ _ Hp) as (E & data & l' & evs & -> & Et & He & Hrun & ->).
  destruct Ho as [HE Hh]. apply (call_result _ _ _ _ _ _ _ _ He) in Hrun. cbn [fst].
  destruct i as [a|x j|j|c|u]; try contradiction.
  - apply (pool_withdraw _ _ _ _ _ _ _ _ _ _ HP (proj1 He) Hh) in Hrun.
    destruct Hrun as (un & st & pd & uo & v & om & sp & tp & vd1 & _ & _ & _ & _ & _ & Q & _).
    now apply withdraw_free in Q.
  - apply (pool_set _ _ _ _ _ _ _ _ _ HP (proj1 He)) in Hrun.
    destruct Hrun as (au & st & _ & _ & _ & _ & Q & _). destruct (pool_ne _ _ _ _ _ HP) as (N1 & N2 & _).
    exact (set_free _ _ _ _ _ _ N1 N2 Q).
Qed.
