(** Who can move what: the vault, the supply, prices over time. *)
From Coq Require Import Lia.
From Verif Require Import GuardSpec BytesFacts FieldFacts LedgerFacts TokenFacts ParseFacts CpiFacts
  AssertFacts LayoutFacts MathFacts Economics StakeFacts UnstakeFacts WithdrawFacts SetFacts InitFacts
  CodecFacts Totals OutsideFacts TokenStep VaultStep Calm Pool PoolStake PoolUnstake PoolInit PoolHistory
  HistoryFacts LifeFacts RateFacts EffectFacts ClaimFacts EventFacts.
Import List ListNotations.
Open Scope Z_scope.

Lemma not_call o : is_call o = false -> not_a_call o.
Proof. intros H E accs data ->. discriminate. Qed.

(** ** C49 *)
Lemma vault_moves C l o sk vk :
  ordinary_state_address C -> reaches C l -> is_state l sk -> is_vault C sk vk -> op_ok C l o ->
  let l' := fst (run_op C l o) in
  balance l' vk = balance l vk \/
  (not_a_call o /\ balance l vk < balance l' vk) \/
  (exists a accs t, performs C l o (Stake a) accs t /\ balance l' vk = balance l vk + a) \/
  (exists i accs t un k uo,
     performs C l o (Withdraw i) accs t /\ pays C l o k /\
     signed_slot accs 0 un /\ slot accs 2 k /\ slot accs 3 uo /\ token_account_of l uo orca_mint_id un /\
     balance l' vk = balance l vk - rec_amount l k /\ balance l' uo = balance l uo + rec_amount l k).
Proof.
  intros Hord Hr Hs Hv Ho. cbn zeta.
  destruct (reaches_pool_vault _ _ _ _ Hord Hr Hs Hv) as [P HP].
  destruct (is_call o) eqn:Ec.
  2:{ destruct (outside_calm C l o (po_lam _ _ _ _ _ HP) Ho Ec) as [HC HE].
      destruct (pool_calm _ _ _ _ _ _ HP HC) as (_ & _ & _ & H4 & _). unfold balance.
      destruct (Z.eq_dec (ta_amount (a_data (fst (run_op C l o) vk))) (ta_amount (a_data (l vk)))); [now left|].
      right. left. split; [now apply not_call|lia]. }
  destruct o as [E accs data| | | | | |]; try discriminate. destruct Ho as [HE Hh]. cbn [run_op].
  destruct (process_instruction C E xorca_id accs l data) as [[l' evs]|e] eqn:H; cbn [fst]; [|now left].
  destruct (deserialize read_instruction data) as [ins|] eqn:Ed.
  2:{ unfold process_instruction in H. rewrite key_eqb_refl, Ed in H. discriminate. }
  apply decode_encodes in Ed. destruct (call_performs _ _ _ _ _ _ _ _ Ed H) as [Hp Hrun].
  assert (Hrun' := H). apply (call_result _ _ _ _ _ _ _ _ Ed) in Hrun'.
  destruct ins as [a|x i|i|c|u].
  - right. right. left. exists a, accs, (now E). split; [exact Hp|].
    apply (pool_stake _ _ _ _ _ _ _ _ _ HP (proj1 Ed) Hh) in Hrun'.
    destruct Hrun' as (staker & so & sx & xm & st & v & om & tp & m & sd1 & _ & _ & _ & _ & Q & _).
    apply Q.
  - left. apply (pool_unstake _ _ _ _ _ _ _ _ _ _ _ HP (proj1 (proj1 Ed)) (proj2 (proj1 Ed)) HE Hh) in Hrun'.
    destruct Hrun' as (un & st & pd & ux & xm & om & v & sp & tp & w & b & sd1 & _ & _ & _ & _ & _ & Q & _).
    unfold balance. now rewrite (uc_vault _ _ _ _ _ _ _ _ _ _ _ _ Q).
  - right. right. right. destruct (withdraw_exact _ _ _ _ _ _ _ _ Hh Ed H)
      as (un & sk1 & k & uo & vk1 & A0 & A1 & A2 & A3 & A4 & B1 & B2 & B3 & B4 & B5 & B6 & B7 & B8 & B9 & _).
    assert (S : sk1 = sk) by (destruct B1; eapply pool_state_is; eassumption). subst sk1.
    exists i, accs, (now E), un, k, uo. split; [exact Hp|].
    split; [eapply withdraw_pays; [exact HP|now split|exact Hp|exact A2]|].
    do 4 (split; [assumption|]).
    apply (pool_withdraw _ _ _ _ _ _ _ _ _ _ HP (proj1 Ed) Hh) in Hrun'.
    destruct Hrun' as (un' & st & pd & uo' & v & om & sp & tp & vd1 & Pre & _ & _ & _ & _ & Q & _).
    split; [|exact B9]. destruct Pre. destruct wp_accs.
    assert (m_key pd = k) by (eapply slot_fun; [exists pd; eauto|exact A2]). subst k. apply Q.
  - exfalso. exact (pool_no_init _ _ _ _ _ _ _ _ _ HP HE Hh Hrun').
  - left. apply (pool_set _ _ _ _ _ _ _ _ _ HP (proj1 Ed)) in Hrun'.
    destruct Hrun' as (au & st & _ & _ & _ & _ & Q & _). destruct (pool_ne _ _ _ _ _ HP) as (N & _).
    unfold balance. now rewrite (tc_other _ _ _ _ _ _ Q vk (not_eq_sym N)).
Qed.

(** The vault belongs to State, nobody may spend from it or close it. *)
Lemma vault_guarded C l sk vk :
  ordinary_state_address C -> reaches C l -> is_state l sk -> is_vault C sk vk ->
  token_account_of l vk orca_mint_id sk /\ ordinary l vk /\
  ta_delegate_flag (a_data (l vk)) = 0 /\ ta_close_flag (a_data (l vk)) = 0.
Proof.
  intros Hord Hr Hs Hv. destruct (reaches_pool_vault _ _ _ _ Hord Hr Hs Hv) as [P HP].
  destruct (po_vault _ _ _ _ _ HP). split; [|auto]. split; [assumption|].
  split; [apply ta_unpack_ok; auto|auto].
Qed.

(** ** C50 *)
Lemma supply_moves C l o sk vk :
  ordinary_state_address C -> reaches C l -> is_state l sk -> is_vault C sk vk -> op_ok C l o ->
  let l' := fst (run_op C l o) in
  supply l' = supply l \/
  (not_a_call o /\ supply l' < supply l) \/
  (exists a accs t, performs C l o (Stake a) accs t /\
     supply l' = supply l + (if supply l =? 0 then a
                             else a * (supply l + 100) / (free_orca l sk vk + 100))) \/
  (exists x i accs t, performs C l o (Unstake x i) accs t /\ supply l' = supply l - x).
Proof.
  intros Hord Hr Hs Hv Ho. cbn zeta.
  destruct (reaches_pool_vault _ _ _ _ Hord Hr Hs Hv) as [P HP].
  destruct (is_call o) eqn:Ec.
  2:{ destruct (outside_calm C l o (po_lam _ _ _ _ _ HP) Ho Ec) as [HC HE].
      destruct (pool_calm _ _ _ _ _ _ HP HC) as (_ & _ & _ & _ & H5). fold (supply l) in H5.
      fold (supply (fst (run_op C l o))) in H5.
      destruct (Z.eq_dec (supply (fst (run_op C l o))) (supply l)); [now left|].
      right. left. split; [now apply not_call|lia]. }
  destruct o as [E accs data| | | | | |]; try discriminate. destruct Ho as [HE Hh]. cbn [run_op].
  destruct (process_instruction C E xorca_id accs l data) as [[l' evs]|e] eqn:H; cbn [fst]; [|now left].
  destruct (deserialize read_instruction data) as [ins|] eqn:Ed.
  2:{ unfold process_instruction in H. rewrite key_eqb_refl, Ed in H. discriminate. }
  apply decode_encodes in Ed. destruct (call_performs _ _ _ _ _ _ _ _ Ed H) as [Hp Hrun].
  assert (Hrun' := H). apply (call_result _ _ _ _ _ _ _ _ Ed) in Hrun'.
  destruct ins as [a|x i|i|c|u].
  - right. right. left. exists a, accs, (now E). split; [exact Hp|].
    apply (pool_stake _ _ _ _ _ _ _ _ _ HP (proj1 Ed) Hh) in Hrun'.
    destruct Hrun' as (staker & so & sx & xm & st & v & om & tp & m & sd1 & _ & _ & _ & _ & Q & _).
    destruct Q. destruct (pool_quote _ _ _ _ _ _ _ HP (proj1 Ed) sc_quote) as [_ [[Q1 Q2]|[Q1 Q2]]]; unfold supply in *.
    + rewrite Q1. cbn [Z.eqb]. lia.
    + destruct (Z.eqb_spec (mint_supply (a_data (l xorca_mint_id))) 0); [lia|]. lia.
  - right. right. right. exists x, i, accs, (now E). split; [exact Hp|].
    apply (pool_unstake _ _ _ _ _ _ _ _ _ _ _ HP (proj1 (proj1 Ed)) (proj2 (proj1 Ed)) HE Hh) in Hrun'.
    destruct Hrun' as (un & st & pd & ux & xm & om & v & sp & tp & w & b & sd1 & _ & _ & _ & _ & _ & Q & _).
    apply Q.
  - left. apply (pool_withdraw _ _ _ _ _ _ _ _ _ _ HP (proj1 Ed) Hh) in Hrun'.
    destruct Hrun' as (un' & st & pd & uo' & v & om & sp & tp & vd1 & _ & _ & _ & _ & _ & Q & _).
    unfold supply. now rewrite (wc_supply _ _ _ _ _ _ Q).
  - exfalso. exact (pool_no_init _ _ _ _ _ _ _ _ _ HP HE Hh Hrun').
  - left. apply (pool_set _ _ _ _ _ _ _ _ _ HP (proj1 Ed)) in Hrun'.
    destruct Hrun' as (au & st & _ & _ & _ & _ & Q & _). destruct (pool_ne _ _ _ _ _ HP) as (_ & N & _).
    unfold supply. now rewrite (tc_other _ _ _ _ _ _ Q _ (not_eq_sym N)).
Qed.

Lemma mint_guarded C l sk :
  ordinary_state_address C -> reaches C l -> is_state l sk ->
  a_owner (l xorca_mint_id) = token_id /\ mint_unpack (a_data (l xorca_mint_id)) = Ok tt /\
  mint_auth_flag (a_data (l xorca_mint_id)) = 1 /\ mint_auth (a_data (l xorca_mint_id)) = sk /\
  mint_freeze_flag (a_data (l xorca_mint_id)) = 0.
Proof.
  intros Hord Hr Hs. destruct (reaches_pool _ _ _ Hord Hr Hs) as (vk & P & HP).
  destruct (po_mint _ _ _ _ _ HP) as [(A & B & D)]. split; [exact A|].
  split; [apply mint_unpack_ok; auto|auto].
Qed.

(** ** C52 *)
Lemma holds_bounded l m k : tok_bounded l m -> holds l m k <= mint_supply (a_data (l m)).
Proof.
  intros H. pose proof (tb_bound _ _ H [k]) as B. unfold total in B. cbn [map sumZ fold_right] in B.
  specialize (B ltac:(repeat constructor; intros [])). lia.
Qed.

Lemma holder_supply C l sk vk P k x :
  pool C l sk vk P -> 0 < x -> x <= holds l xorca_mint_id k -> 0 < supply l.
Proof.
  intros HP Hx Hk. pose proof (holds_bounded _ _ k (po_tok _ _ _ _ _ HP)). unfold supply. lia.
Qed.

Lemma prefix_pool C l ops l' evs sk vk P n :
  pool C l sk vk P -> history C l ops l' evs -> exists P', pool C (after C l (firstn n ops)) sk vk P'.
Proof.
  intros HP H. destruct (history_prefix C l (firstn n ops) (skipn n ops) ops l' evs H) as [e He].
  - symmetry. apply firstn_skipn.
  - eapply pool_history; eassumption.
Qed.

Lemma waiting_never_costs C l ops l' evs sk vk k x :
  ordinary_state_address C -> reaches C l -> is_state l sk -> is_vault C sk vk ->
  history C l ops l' evs -> 0 < x ->
  (forall n, (n < length ops)%nat -> x <= holds (after C l (firstn n ops)) xorca_mint_id k) ->
  worth l sk vk x <= worth l' sk vk x.
Proof.
  intros Hord Hr Hs Hv H Hx Hk. destruct (reaches_pool_vault _ _ _ _ Hord Hr Hs Hv) as [P HP].
  apply (never_diluted C l ops l' evs sk vk x); auto; [|lia].
  intros n N. destruct (prefix_pool _ _ _ _ _ _ _ _ n HP H) as [P' HP'].
  eapply holder_supply; [exact HP'|exact Hx|auto].
Qed.

Lemma unstake_promises C l o x i accs t sk vk k :
  ordinary_state_address C -> reaches C l -> is_state l sk -> is_vault C sk vk -> op_ok C l o ->
  performs C l o (Unstake x i) accs t -> slot accs 2 k ->
  rec_amount (fst (run_op C l o)) k = worth l sk vk x.
Proof.
  intros Hord Hr Hs Hv Ho Hp Hk. destruct (reaches_pool_vault _ _ _ _ Hord Hr Hs Hv) as [P HP].
  destruct (performs_run _ _ _ _ _ _ Hp) as (E & data & l' & evs & -> & Et & He & Hrun & Hr').
  destruct Ho as [HE Hh]. rewrite Hr'. cbn [fst].
  apply (call_result _ _ _ _ _ _ _ _ He) in Hrun as Hrun'.
  apply (pool_unstake _ _ _ _ _ _ _ _ _ _ _ HP (proj1 (proj1 He)) (proj2 (proj1 He)) HE Hh) in Hrun'.
  destruct Hrun' as (un & st & pd & ux & xm & om & v & sp & tp & w & b & sd1 & Pre & Es & Ev & _ & _ & _ & _).
  apply (unstake_exact _ _ _ _ _ _ _ _ _ HE Hh He) in Hrun.
  destruct Hrun as (un' & sk1 & k1 & ux' & vk1 & w' & _ & A1 & A2 & _ & A6 & S & H). decompose [and] H.
  assert (k1 = k) by (eapply slot_fun; eassumption). subst k1.
  destruct Pre. destruct up_accs.
  assert (m_key st = sk1) by (eapply slot_fun; [exists st; eauto|exact A1]).
  assert (m_key v = vk1) by (eapply slot_fun; [exists v; eauto|exact A6]).
  unfold worth. replace sk with sk1 by congruence. replace vk with vk1 by congruence. congruence.
Qed.

Lemma patience_pays C l ops l' evs sk vk h x o i accs t k :
  ordinary_state_address C -> reaches C l -> is_state l sk -> is_vault C sk vk ->
  history C l ops l' evs -> 0 < x ->
  (forall n, (n < length ops)%nat -> x <= holds (after C l (firstn n ops)) xorca_mint_id h) ->
  op_ok C l' o -> performs C l' o (Unstake x i) accs t -> slot accs 2 k ->
  worth l sk vk x <= rec_amount (fst (run_op C l' o)) k.
Proof.
  intros Hord Hr Hs Hv H Hx Hk Ho Hp Hsl.
  destruct (reaches_pool_vault _ _ _ _ Hord Hr Hs Hv) as [P HP].
  destruct (pool_history _ _ _ _ _ _ _ _ HP H) as [P' HP'].
  rewrite (unstake_promises C l' o x i accs t sk vk k); auto.
  - eapply waiting_never_costs; eassumption.
  - eapply reaches_history; eassumption.
  - eapply pool_is_state, HP'.
Qed.

(** ** C53 *)
Lemma div_sum_le (q r : Z) (xs : list Z) :
  0 < r -> 0 <= q -> (forall x, In x xs -> 0 <= x) ->
  sumZ (map (fun x => x * q / r) xs) * r <= sumZ xs * q.
Proof.
  intros Hr Hq. induction xs as [|x xs IH]; intros H; cbn [map sumZ fold_right]; [lia|].
  fold (sumZ (map (fun x => x * q / r) xs)). fold (sumZ xs).
  specialize (IH (fun y Y => H y (or_intror Y))).
  pose proof (Z.mul_div_le (x * q) r Hr). lia.
Qed.

Lemma holds_pos l m k : 0 <= holds l m k.
Proof.
  unfold holds. destruct (_ && _); [|lia]. pose proof (ta_amount_range (a_data (l k))) as R.
  unfold is_u64 in R. lia.
Qed.

Lemma all_redeemable C l sk vk ks :
  ordinary_state_address C -> reaches C l -> is_state l sk -> is_vault C sk vk -> NoDup ks ->
  sumZ (map (fun k => worth l sk vk (holds l xorca_mint_id k)) ks) <= free_orca l sk vk.
Proof.
  intros Hord Hr Hs Hv Hn. destruct (reaches_pool_vault _ _ _ _ Hord Hr Hs Hv) as [P HP].
  destruct (pool_ranges _ _ _ _ _ HP) as (R0 & R1 & R2 & _).
  pose proof (tb_bound _ _ (po_tok _ _ _ _ _ HP) ks Hn) as B. fold (supply l) in B. unfold total in B.
  pose proof (div_sum_le (free_orca l sk vk + 100) (supply l + 100) (map (holds l xorca_mint_id) ks)
                ltac:(lia) ltac:(lia)) as D.
  rewrite map_map in D. unfold worth.
  set (T := sumZ (map (fun k => holds l xorca_mint_id k * (free_orca l sk vk + 100) / (supply l + 100)) ks)) in *.
  set (W := sumZ (map (holds l xorca_mint_id) ks)) in *.
  assert (D' : T * (supply l + 100) <= W * (free_orca l sk vk + 100)).
  { apply D. intros y Y. apply in_map_iff in Y. destruct Y as (k & <- & _). apply holds_pos. }
  assert (W * (free_orca l sk vk + 100) <= supply l * (free_orca l sk vk + 100)) by (apply Z.mul_le_mono_nonneg_r; lia).
  assert (supply l * (free_orca l sk vk + 100) <= free_orca l sk vk * (supply l + 100)) by lia.
  apply Z.mul_le_mono_pos_r with (p := supply l + 100); lia.
Qed.

(** ** C54 *)
Lemma set_available C E l sk accs data u :
  ordinary_state_address C -> reaches C l -> is_state l sk -> encodes data (Set_ u) ->
  match u with UpdateCoolDownPeriod c => 0 <= c | UpdateUpdateAuthority _ => True end ->
  fills accs (set_roles (authority l sk) sk) ->
  is_ok (process_instruction C E xorca_id accs l data) = true.
Proof.
  intros Hord Hr Hs He Hu Hf. destruct (reaches_pool _ _ _ Hord Hr Hs) as (vk & P & HP).
  destruct (Hf 0%nat (authority l sk) true true eq_refl) as (au & A0 & K0 & S0 & W0).
  destruct (Hf 1%nat sk false true eq_refl) as (st & A1 & K1 & _ & W1).
  assert (Pre : set_pre C accs l au st).
  { destruct (po_find _ _ _ _ _ HP) as (sb & F & B).
    constructor; auto; rewrite ?K1, ?K0; try reflexivity; [apply HP|split; [unfold zlen; rewrite (po_slen _ _ _ _ _ HP); lia|apply HP]|].
    rewrite B. apply find_state_bump in F. congruence. }
  assert (Q : set_process C accs l u = Ok (set_effect l (m_key st) u, map event_bytes (set_events l (m_key st) u))).
  { apply set_ok. exists au, st. split; [exact Pre|]. split; [destruct u; cbn; exact Hu|auto]. }
  apply (proj2 (call_result C E accs data _ l _ _ He)) in Q. now rewrite Q.
Qed.

(** ** C55 *)
Lemma cooldown_blocks C l o sk x i accs t :
  ordinary_state_address C -> reaches C l -> is_state l sk -> op_ok C l o ->
  performs C l o (Unstake x i) accs t -> t + cooldown l sk <= 9223372036854775807.
Proof.
  intros Hord Hr Hs Ho Hp. destruct (reaches_pool _ _ _ Hord Hr Hs) as (vk & P & HP).
  destruct (performs_run _ _ _ _ _ _ Hp) as (E & data & l' & evs & -> & Et & He & Hrun & Hr').
  destruct Ho as [HE Hh]. apply (unstake_exact _ _ _ _ _ _ _ _ _ HE Hh He) in Hrun.
  destruct Hrun as (un' & sk1 & k1 & ux' & vk1 & w' & _ & A1 & A2 & _ & A6 & S & H). decompose [and] H.
  assert (sk1 = sk) by (destruct S; eapply pool_state_is; eassumption). subst sk1.
  assert (R : is_i64 (rec_time l' k1)) by apply get_i64_range.
  unfold is_i64 in R. subst t. lia.
Qed.

Lemma block_possible C E l sk accs data :
  ordinary_state_address C -> reaches C l -> is_state l sk ->
  encodes data (Set_ (UpdateCoolDownPeriod 9223372036854775807)) ->
  fills accs (set_roles (authority l sk) sk) -> op_ok C l (OpCall E accs data) ->
  let l' := fst (run_op C l (OpCall E accs data)) in
  forall ops l2 evs o x i accs2 t,
    history C l' ops l2 evs -> cooldown l2 sk = cooldown l' sk -> 0 < t -> op_ok C l2 o ->
    ~ performs C l2 o (Unstake x i) accs2 t.
Proof.
  intros Hord Hr Hs He Hf Ho l' ops l2 evs o x i accs2 t H Hc Ht Ho2 Hp.
  pose proof (set_available C E l sk accs data (UpdateCoolDownPeriod 9223372036854775807) Hord Hr Hs He (proj1 (Z.leb_le 0 9223372036854775807) eq_refl) Hf) as Hok.
  destruct (reaches_pool _ _ _ Hord Hr Hs) as (vk & P & HP).
  destruct (pool_step _ _ _ _ _ _ HP Ho) as (P1 & HP1 & _). fold l' in HP1.
  destruct (pool_history _ _ _ _ _ _ _ _ HP1 H) as [P2 HP2].
  assert (Hr2 : reaches C l2).
  { eapply reaches_history; [|exact H]. now apply reaches_step. }
  pose proof (cooldown_blocks C l2 o sk x i accs2 t Hord Hr2 (pool_is_state _ _ _ _ _ HP2) Ho2 Hp) as Q.
  assert (cooldown l' sk = 9223372036854775807); [|lia].
  unfold l' in *. cbn [run_op] in *. destruct (process_instruction C E xorca_id accs l data) as [[l1 ev1]|e] eqn:Er; [|discriminate].
  cbn [fst] in *. apply (set_exact _ _ _ _ _ _ _ _ He) in Er.
  destruct Er as (sk1 & _ & S & _ & _ & _ & _ & Q1 & _).
  assert (sk1 = sk) by (destruct S; eapply pool_state_is; [exact HP|assumption..]). now subst sk1.
Qed.

(** ** C58 *)
Lemma deposited_app C vk ops1 : forall l ops2,
  deposited_outside C vk l (ops1 ++ ops2) =
  deposited_outside C vk l ops1 + deposited_outside C vk (after C l ops1) ops2.
Proof.
  induction ops1 as [|o ops1 IH]; intros l ops2; [reflexivity|].
  cbn [app deposited_outside]. rewrite IH. unfold after. cbn [fold_left]. lia.
Qed.

Lemma vault_log_step C l sk vk P o :
  pool C l sk vk P -> op_ok C l o ->
  let r := run_op C l o in
  balance (fst r) vk = balance l vk + over ev_staked (snd r) - over ev_paid (snd r) + deposited_outside C vk l [o] /\
  0 <= deposited_outside C vk l [o].
Proof.
  intros HP Ho. cbn zeta. destruct (is_call o) eqn:Ec.
  2:{ destruct (outside_calm C l o (po_lam _ _ _ _ _ HP) Ho Ec) as [HC HE].
      destruct (pool_calm _ _ _ _ _ _ HP HC) as (H1 & H2 & H3 & H4 & H5). rewrite HE, !over_nil.
      destruct o; try discriminate; cbn [deposited_outside]; unfold balance; lia. }
  destruct o as [E accs data| | | | | |]; try discriminate. cbn [deposited_outside].
  destruct Ho as [HE Hh]. cbn [run_op].
  destruct (process_instruction C E xorca_id accs l data) as [[l' evs]|e] eqn:H; cbn [fst snd];
    [|rewrite !over_nil; lia].
  destruct (deserialize read_instruction data) as [ins|] eqn:Ed.
  2:{ unfold process_instruction in H. rewrite key_eqb_refl, Ed in H. discriminate. }
  apply decode_encodes in Ed. pose proof H as H0. apply (call_result _ _ _ _ _ _ _ _ Ed) in H0.
  destruct ins as [a|x i|i|c|u].
  - destruct (stake_event_true _ _ _ _ _ _ _ _ Hh Ed H) as (b & vk' & sk' & -> & _ & _ & L).
    apply (pool_stake _ _ _ _ _ _ _ _ _ HP (proj1 Ed) Hh) in H0.
    destruct H0 as (staker & so & sx & xm & st & v & om & tp & m & sd1 & _ & _ & _ & _ & Q & _).
    unfold logs in L. rewrite !over_one. unfold ev_staked, ev_paid. rewrite L.
    pose proof (sc_vault _ _ _ _ _ _ _ Q). unfold balance. lia.
  - destruct (unstake_event_true _ _ _ _ _ _ _ _ _ HE Hh Ed H) as (b & k & vk' & sk' & -> & S1 & S2 & _ & L).
    apply (pool_unstake _ _ _ _ _ _ _ _ _ _ _ HP (proj1 (proj1 Ed)) (proj2 (proj1 Ed)) HE Hh) in H0.
    destruct H0 as (un & st & pd & ux & xm & om & v & sp & tp & w & b' & sd1 & _ & _ & _ & _ & _ & Q & _).
    unfold logs in L. rewrite !over_one. unfold ev_staked, ev_paid, balance. rewrite L.
    rewrite (uc_vault _ _ _ _ _ _ _ _ _ _ _ _ Q). lia.
  - destruct (withdraw_event_true _ _ _ _ _ _ _ _ Hh Ed H) as (b & k & sk' & -> & S1 & S2 & L).
    apply (pool_withdraw _ _ _ _ _ _ _ _ _ _ HP (proj1 Ed) Hh) in H0.
    destruct H0 as (un' & st & pd & uo' & v & om & sp & tp & vd1 & Pre & _ & _ & _ & _ & Q & _).
    destruct Pre. destruct wp_accs.
    assert (m_key pd = k) by (eapply slot_fun; [exists pd; eauto|exact S2]). subst k.
    unfold logs in L. rewrite !over_one. unfold ev_staked, ev_paid. rewrite L.
    pose proof (wc_vault _ _ _ _ _ _ Q) as W. unfold claim in W. unfold balance, rec_amount. lia.
  - exfalso. exact (pool_no_init _ _ _ _ _ _ _ _ _ HP HE Hh H0).
  - pose proof (set_event_true _ _ _ _ _ _ _ _ Ed H) as L.
    apply (pool_set _ _ _ _ _ _ _ _ _ HP (proj1 Ed)) in H0.
    destruct H0 as (au & st & _ & _ & _ & _ & Q & _). destruct (pool_ne _ _ _ _ _ HP) as (N1 & _).
    unfold balance. rewrite (tc_other _ _ _ _ _ _ Q vk (not_eq_sym N1)).
    destruct u as [c|a].
    + subst evs. rewrite !over_nil. lia.
    + destruct L as (b & sk' & -> & _ & _ & L). unfold logs in L. rewrite !over_one.
      unfold ev_staked, ev_paid. rewrite L. lia.
Qed.

Lemma vault_log_from C l ops l' evs sk vk P :
  pool C l sk vk P -> history C l ops l' evs ->
  balance l' vk = balance l vk + over ev_staked evs - over ev_paid evs + deposited_outside C vk l ops /\
  0 <= deposited_outside C vk l ops.
Proof.
  intros HP H. induction H as [|ops l1 evs o H IH Ho]; [rewrite !over_nil; cbn; lia|].
  destruct (pool_history _ _ _ _ _ _ _ _ HP H) as [P1 HP1].
  pose proof (vault_log_step _ _ _ _ _ _ HP1 Ho) as S. cbn zeta in S.
  rewrite !over_app, deposited_app, <- (history_after _ _ _ _ _ H). lia.
Qed.

Theorem vault_log C l0 ops l evs sk vk :
  ordinary_state_address C -> genesis C l0 -> history C l0 ops l evs -> is_state l sk -> is_vault C sk vk ->
  exists ops1 o ops2 c accs t,
    ops = ops1 ++ o :: ops2 /\ performs C (after C l0 ops1) o (Initialize c) accs t /\
    let d := deposited_outside C vk (after C l0 (ops1 ++ [o])) ops2 in
    balance l vk = over ev_staked evs - over ev_paid evs + d /\ 0 <= d /\
    over ev_paid evs <= over ev_staked evs + d.
Proof.
  intros Hord Hg H Hs [vb Hv].
  destruct (pool_birth _ _ _ _ _ _ Hord Hg H Hs)
    as (ops1 & o & ops2 & vk' & l2 & evs2 & E & accs & data & c & -> & El & Eo & Hd & Hp & Hb & HP & Hh & ->).
  destruct (po_findv _ _ _ _ _ HP) as (b & F & _). assert (vk' = vk) by congruence. subst vk'.
  destruct (vault_log_from _ _ _ _ _ _ _ _ HP Hh) as (H1 & H2). destruct Hb.
  unfold balance at 2 in H1. rewrite bi_vault in H1.
  exists ops1, o, ops2, c, accs, (now E). rewrite <- El. split; [reflexivity|].
  split; [exact Hp|]. cbn zeta. pose proof (balance_u64 l vk) as R. unfold is_u64 in R. lia.
Qed.
