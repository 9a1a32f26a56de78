(** The events of each instruction, and what can be reconstructed from the log. *)
From Verif Require Import Spec BytesFacts FieldFacts LedgerFacts TokenFacts ParseFacts CpiFacts
  AssertFacts LayoutFacts MathFacts Economics StakeFacts UnstakeFacts WithdrawFacts SetFacts InitFacts
  CodecFacts Totals Calm Pool PoolStake PoolUnstake PoolInit PoolHistory HistoryFacts LifeFacts RateFacts
  EffectFacts ClaimFacts.

Lemma logs_event e : event_ok e -> logs (event_bytes e) e.
Proof. intros H. apply read_event_some. rewrite app_nil_r. auto. Qed.

Lemma u64_between a b : 0 <= a <= b -> is_u64 b -> is_u64 a.
Proof. unfold is_u64. lia. Qed.

Lemma supply_u64 l : is_u64 (supply l).
Proof. apply get_u64_range. Qed.
Lemma balance_u64 l k : is_u64 (balance l k).
Proof. apply get_u64_range. Qed.
Lemma escrow_u64 l k : is_u64 (escrow l k).
Proof. apply get_u64_range. Qed.
Lemma cooldown_i64 l k : is_i64 (cooldown l k).
Proof. apply get_i64_range. Qed.
Lemma rec_amount_u64 l k : is_u64 (rec_amount l k).
Proof. apply get_u64_range. Qed.

Lemma stake_event_true C l E accs data a l' evs :
  honest_metas C accs -> encodes data (Stake a) ->
  process_instruction C E xorca_id accs l data = Ok (l', evs) ->
  exists b vk sk, evs = [b] /\ slot accs 1 vk /\ slot accs 5 sk /\
    logs b (EvStake a (balance l' vk) (escrow l' sk) (supply l') (supply l' - supply l)).
Proof.
  intros Hh He H. pose proof (proj1 He) as Ha. cbn in Ha.
  apply (stake_exact _ _ _ _ _ _ _ _ Hh He) in H.
  destruct H as (staker & vk & so & sx & sk & m & _ & A1 & _ & _ & A5 & _ & _ & _ & _ & _ & _ & Hm & _ & _ &
    _ & _ & Hs & _ & _ & _ & _ & _ & _ & _ & ->).
  eexists _, vk, sk. split; [reflexivity|]. split; [exact A1|]. split; [exact A5|].
  replace (supply l' - supply l) with m by lia. apply logs_event. cbn [event_ok].
  pose proof (supply_u64 l) as R1. pose proof (supply_u64 l') as R2.
  split; [exact Ha|]. split; [apply balance_u64|]. split; [apply escrow_u64|]. split; [exact R2|].
  unfold is_u64 in *. lia.
Qed.

Lemma unstake_event_true C l E accs data x i l' evs :
  sysvars_ok E -> honest_metas C accs -> encodes data (Unstake x i) ->
  process_instruction C E xorca_id accs l data = Ok (l', evs) ->
  exists b k vk sk, evs = [b] /\ slot accs 1 sk /\ slot accs 2 k /\ slot accs 6 vk /\
    logs b (EvUnstake x (balance l' vk) (escrow l' sk) (supply l') (rec_amount l' k) (cooldown l' sk) i).
Proof.
  intros HE Hh He H. pose proof (proj1 He) as [Hx Hi].
  apply (unstake_exact _ _ _ _ _ _ _ _ _ HE Hh He) in H.
  destruct H as (un & sk & k & ux & vk & w & _ & A1 & A2 & _ & A6 & H). decompose [and] H. subst evs.
  eexists _, k, vk, sk. split; [reflexivity|]. do 3 (split; [assumption|]).
  replace (rec_amount l' k) with w by congruence. apply logs_event. cbn [event_ok].
  split; [exact Hx|]. split; [apply balance_u64|]. split; [apply escrow_u64|]. split; [apply supply_u64|].
  split; [|split; [apply cooldown_i64|exact Hi]]. replace w with (rec_amount l' k) by congruence.
  apply rec_amount_u64.
Qed.

Lemma withdraw_event_true C l E accs data i l' evs :
  honest_metas C accs -> encodes data (Withdraw i) ->
  process_instruction C E xorca_id accs l data = Ok (l', evs) ->
  exists b k sk, evs = [b] /\ slot accs 1 sk /\ slot accs 2 k /\
    logs b (EvWithdraw (escrow l' sk) (rec_amount l k) (cooldown l' sk) i).
Proof.
  intros Hh He H. pose proof (proj1 He) as Hi. apply (withdraw_exact _ _ _ _ _ _ _ _ Hh He) in H.
  destruct H as (un & sk & k & uo & vk & _ & A1 & A2 & H). decompose [and] H. subst evs.
  eexists _, k, sk. split; [reflexivity|]. do 2 (split; [assumption|]). apply logs_event. cbn [event_ok].
  split; [apply escrow_u64|]. split; [apply rec_amount_u64|]. split; [apply cooldown_i64|exact Hi].
Qed.

Lemma set_event_true C l E accs data u l' evs :
  encodes data (Set_ u) ->
  process_instruction C E xorca_id accs l data = Ok (l', evs) ->
  match u with
  | UpdateCoolDownPeriod _ => evs = []
  | UpdateUpdateAuthority k =>
      exists b sk, evs = [b] /\ slot accs 1 sk /\ authority l' sk = k /\
        logs b (EvUpdateAuthoritySet k (authority l sk))
  end.
Proof.
  intros He H. apply (set_exact _ _ _ _ _ _ _ _ He) in H.
  destruct H as (sk & A & _ & _ & _ & _ & H). destruct u as [c|k].
  - apply H.
  - destruct H as (H1 & _ & ->). eexists _, sk. split; [reflexivity|]. split; [exact A|]. split; [exact H1|].
    rewrite H1. apply logs_event. exact I.
Qed.

Lemma init_event_none C l E accs data c l' evs :
  sysvars_ok E -> honest_metas C accs -> encodes data (Initialize c) ->
  process_instruction C E xorca_id accs l data = Ok (l', evs) -> evs = [].
Proof.
  intros HE Hh He H. apply (init_exact _ _ _ _ _ _ _ _ HE Hh He) in H.
  destruct H as (sk & vk & au & sb & vb & H). decompose [and] H. assumption.
Qed.

(** ** C29 *)
Lemma over_app f xs ys : over f (xs ++ ys) = over f xs + over f ys.
Proof. unfold over. now rewrite map_app, sumZ_app. Qed.

Lemma over_nil f : over f [] = 0.
Proof. reflexivity. Qed.

Lemma over_one f b : over f [b] = f b.
Proof. unfold over. cbn. lia. Qed.

Lemma burned_app C ops1 : forall l ops2,
  burned_outside C l (ops1 ++ ops2) = burned_outside C l ops1 + burned_outside C (after C l ops1) ops2.
Proof.
  induction ops1 as [|o ops1 IH]; intros l ops2; [reflexivity|].
  cbn [app burned_outside]. rewrite IH. unfold after. cbn [fold_left]. lia.
Qed.

Lemma log_step C l sk vk P o :
  pool C l sk vk P -> op_ok C l o ->
  let r := run_op C l o in
  escrow (fst r) sk = escrow l sk + over ev_promised (snd r) - over ev_paid (snd r) /\
  supply (fst r) = supply l + over ev_minted (snd r) - over ev_burned (snd r) - burned_outside C l [o] /\
  0 <= burned_outside C l [o].
Proof.
  intros HP Ho. cbn zeta. destruct (is_call o) eqn:Ec.
  2:{ destruct (outside_calm C l o (po_lam _ _ _ _ _ HP) Ho Ec) as [HC HE].
      destruct (pool_calm _ _ _ _ _ _ HP HC) as (H1 & H2 & H3 & H4 & H5). rewrite HE, !over_nil.
      unfold escrow. rewrite H3. unfold supply in *. destruct o; try discriminate; cbn [burned_outside]; unfold supply; lia. }
  destruct o as [E accs data| | | | | |]; try discriminate. cbn [burned_outside].
  destruct Ho as [HE Hh]. cbn [run_op].
  destruct (process_instruction C E xorca_id accs l data) as [[l' evs]|e] eqn:H; cbn [fst snd];
    [|rewrite !over_nil; lia].
  destruct (deserialize read_instruction data) as [ins|] eqn:Ed.
  2:{ unfold process_instruction in H. rewrite key_eqb_refl, Ed in H. discriminate. }
  apply decode_encodes in Ed.
  assert (Hsk : forall k, is_state l k -> k = sk) by (intros k [K1 K2]; eapply pool_state_is; eassumption).
  destruct ins as [a|x i|i|c|u].
  - destruct (stake_event_true _ _ _ _ _ _ _ _ Hh Ed H) as (b & vk' & sk' & -> & _ & _ & L).
    destruct (stake_exact _ _ _ _ _ _ _ _ Hh Ed H)
      as (staker & vk1 & so & sx & sk1 & m & _ & A1 & _ & _ & A5 & S & So & Sx & Sv & _ & _ & Hm & _ & _ &
          _ & _ & Hs & _ & _ & _ & _ & _ & Hd & _).
    apply Hsk in S as S'. subst sk1. unfold logs in L. rewrite !over_one.
    unfold ev_promised, ev_paid, ev_minted, ev_burned. rewrite L. split; [|lia].
    unfold escrow. rewrite Hd; [lia|]. destruct S as [S _]. intros Q.
    pose proof xt_ne as Nt. destruct So as [So _]. destruct Sx as [Sx _]. destruct Sv as [Sv _].
    assert (Mo : a_owner (l xorca_mint_id) = token_id) by apply (po_mint _ _ _ _ _ HP).
    destruct Q as [Q|[Q|[Q|[Q|[]]]]]; subst; congruence.
  - destruct (unstake_event_true _ _ _ _ _ _ _ _ _ HE Hh Ed H) as (b & k & vk' & sk' & -> & S1 & S2 & _ & L).
    apply (unstake_exact _ _ _ _ _ _ _ _ _ HE Hh Ed) in H.
    destruct H as (un & sk1 & k1 & ux & vk1 & w & _ & A1 & A2 & _ & A6 & S & H). decompose [and] H.
    apply Hsk in S as S'. subst sk1. assert (k1 = k) by (eapply slot_fun; eassumption). subst k1.
    unfold logs in L. rewrite !over_one. unfold ev_promised, ev_paid, ev_minted, ev_burned. rewrite L. lia.
  - destruct (withdraw_event_true _ _ _ _ _ _ _ _ Hh Ed H) as (b & k & sk' & -> & S1 & S2 & L).
    pose proof H as H0. apply (withdraw_exact _ _ _ _ _ _ _ _ Hh Ed) in H.
    destruct H as (un & sk1 & k1 & uo & vk1 & _ & A1 & A2 & _ & _ & S & R & _ & _ & So & Sv & _ & _ & _ & He & _ & _ & _ &
      _ & _ & _ & _ & Hd & _).
    apply Hsk in S as S'. subst sk1. assert (k1 = k) by (eapply slot_fun; eassumption). subst k1.
    unfold logs in L. rewrite !over_one. unfold ev_promised, ev_paid, ev_minted, ev_burned. rewrite L.
    split; [lia|]. apply (call_result _ _ _ _ _ _ _ _ Ed) in H0.
    apply (pool_withdraw _ _ _ _ _ _ _ _ _ _ HP (proj1 Ed) Hh) in H0.
    destruct H0 as (un' & st & pd & uo' & v & om & sp & tp & vd1 & _ & _ & _ & _ & _ & Q & _).
    apply withdraw_free in Q. lia.
  - exfalso. apply (call_result _ _ _ _ _ _ _ _ Ed) in H. exact (pool_no_init _ _ _ _ _ _ _ _ _ HP HE Hh H).
  - pose proof (set_event_true _ _ _ _ _ _ _ _ Ed H) as L. apply (call_result _ _ _ _ _ _ _ _ Ed) in H.
    apply (pool_set _ _ _ _ _ _ _ _ _ HP (proj1 Ed)) in H.
    destruct H as (au & st & _ & _ & _ & _ & Q & _). destruct (pool_ne _ _ _ _ _ HP) as (N1 & N2 & _).
    pose proof (set_free _ _ _ _ _ _ N1 N2 Q) as [_ Q2]. destruct Q. unfold escrow. rewrite Q2.
    destruct u as [c|a].
    + subst evs. rewrite !over_nil. lia.
    + destruct L as (b & sk' & -> & _ & _ & L). unfold logs in L. rewrite !over_one.
      unfold ev_promised, ev_paid, ev_minted, ev_burned. rewrite L. lia.
Qed.

Lemma log_from C l ops l' evs sk vk P :
  pool C l sk vk P -> history C l ops l' evs ->
  escrow l' sk = escrow l sk + over ev_promised evs - over ev_paid evs /\
  supply l' = supply l + over ev_minted evs - over ev_burned evs - burned_outside C l ops /\
  0 <= burned_outside C l ops.
Proof.
  intros HP H. induction H as [|ops l1 evs o H IH Ho]; [rewrite !over_nil; cbn; lia|].
  destruct (pool_history _ _ _ _ _ _ _ _ HP H) as [P1 HP1].
  pose proof (log_step _ _ _ _ _ _ HP1 Ho) as S. cbn zeta in S.
  rewrite !over_app, burned_app, <- (history_after _ _ _ _ _ H). lia.
Qed.

Theorem log_reconstructs C l0 ops l evs sk :
  ordinary_state_address C -> genesis C l0 -> history C l0 ops l evs -> is_state l sk ->
  escrow l sk = over ev_promised evs - over ev_paid evs /\
  exists ops1 o ops2 c accs t,
    ops = ops1 ++ o :: ops2 /\ performs C (after C l0 ops1) o (Initialize c) accs t /\
    over ev_minted evs - over ev_burned evs =
      supply l + burned_outside C (after C l0 (ops1 ++ [o])) ops2 /\
    0 <= burned_outside C (after C l0 (ops1 ++ [o])) ops2.
Proof.
  intros Hord Hg H Hs.
  destruct (pool_birth _ _ _ _ _ _ Hord Hg H Hs)
    as (ops1 & o & ops2 & vk & l2 & evs2 & E & accs & data & c & -> & El & Eo & Hd & Hp & Hb & HP & Hh & ->).
  destruct (log_from _ _ _ _ _ _ _ _ HP Hh) as (H1 & H2 & H3). destruct Hb.
  unfold escrow at 2 in H1. unfold supply at 2 in H2.
  split; [lia|]. exists ops1, o, ops2, c, accs, (now E). rewrite <- El. split; [reflexivity|].
  split; [exact Hp|]. lia.
Qed.
