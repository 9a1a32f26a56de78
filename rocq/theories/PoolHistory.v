(** Every step of every execution, once a pool exists. *)
From Verif Require Import History BytesFacts FieldFacts LedgerFacts TokenFacts ParseFacts CpiFacts
  AssertFacts LayoutFacts MathFacts Economics StakeFacts UnstakeFacts WithdrawFacts SetFacts InitFacts
  CodecFacts Totals OutsideFacts TokenStep VaultStep Calm Pool PoolStake PoolUnstake PoolInit.

(** What one step can do to a pool. *)
Inductive change (C : crypto) (l l' : ledger) (evs : list (list byte)) (sk vk : pubkey)
    (P P' : list pubkey) : op -> Prop :=
| Ch_quiet o :
    is_call o = false \/ l' = l -> calm C l l' -> P' = P -> recs_kept P l l' -> a_data (l' sk) = a_data (l sk) ->
    ta_amount (a_data (l vk)) <= ta_amount (a_data (l' vk)) ->
    mint_supply (a_data (l' xorca_mint_id)) <= mint_supply (a_data (l xorca_mint_id)) ->
    evs = [] -> change C l l' evs sk vk P P' o
| Ch_stake E accs data a staker so sx xm st vault om tp m sd1 :
    deserialize read_instruction data = Some (Stake a) -> is_u64 a ->
    stake_process C accs l a = Ok (l', evs) ->
    stake_pre C accs l a staker vault so sx xm st om tp m sd1 -> m_key st = sk -> m_key vault = vk ->
    P' = P -> stake_change l l' sk vk P a m -> evs = [event_bytes (stake_event l vk sk a m)] ->
    change C l l' evs sk vk P P' (OpCall E accs data)
| Ch_unstake E accs data x i un st pd ux xm om v sp tp w b sd1 :
    deserialize read_instruction data = Some (Unstake x i) -> is_u64 x -> is_u8 i ->
    unstake_process C E accs l x i = Ok (l', evs) ->
    unstake_pre C E accs l x i un st pd ux xm om v sp tp w b sd1 ->
    m_key st = sk -> m_key v = vk -> ~ In (m_key pd) P -> P' = m_key pd :: P ->
    unstake_change E l l' sk vk (m_key un) (m_key pd) P x i w b ->
    evs = [event_bytes (unstake_event l sk vk x i w)] ->
    change C l l' evs sk vk P P' (OpCall E accs data)
| Ch_withdraw E accs data i un st pd uo v om sp tp vd1 :
    deserialize read_instruction data = Some (Withdraw i) -> is_u8 i ->
    withdraw_process C E accs l i = Ok (l', evs) ->
    withdraw_pre C E accs l i un st pd uo v om sp tp vd1 ->
    m_key st = sk -> m_key v = vk -> In (m_key pd) P -> P' = remove key_eq_dec (m_key pd) P ->
    withdraw_change l l' sk vk (m_key pd) P ->
    leq l' (withdraw_effect l (m_key un) sk (m_key pd) (m_key uo) vk vd1) ->
    evs = [event_bytes (withdraw_event l sk (m_key pd) i)] ->
    change C l l' evs sk vk P P' (OpCall E accs data)
| Ch_set E accs data u au st :
    deserialize read_instruction data = Some (Set_ u) -> instruction_ok (Set_ u) ->
    set_process C accs l u = Ok (l', evs) ->
    set_pre C accs l au st -> m_key st = sk -> update_allowed u -> P' = P ->
    set_change l l' sk vk P u -> evs = map event_bytes (set_events l sk u) ->
    change C l l' evs sk vk P P' (OpCall E accs data).

Theorem pool_step C l sk vk P o :
  pool C l sk vk P -> op_ok C l o ->
  exists P', pool C (fst (run_op C l o)) sk vk P' /\
    change C l (fst (run_op C l o)) (snd (run_op C l o)) sk vk P P' o.
Proof.
  intros HP Ho. destruct (is_call o) eqn:Ec.
  2:{ destruct (outside_calm C l o (po_lam _ _ _ _ _ HP) Ho Ec) as [HC HE].
      destruct (pool_calm _ _ _ _ _ _ HP HC) as (H1 & H2 & H3 & H4 & H5).
      exists P. split; [exact H1|]. apply Ch_quiet; auto. }
  destruct o as [E accs data| | | | | |]; try discriminate. cbn [op_ok run_op] in *.
  destruct Ho as [HE Hh].
  destruct (process_instruction C E xorca_id accs l data) as [[l' evs]|e] eqn:H.
  2:{ cbn [fst snd]. exists P. split; [exact HP|].
      apply Ch_quiet; auto; try lia; [apply calm_refl; apply HP|intros k K; repeat split; lia]. }
  cbn [fst snd]. unfold process_instruction in H. rewrite key_eqb_refl in H.
  cbn [negb fail_if bind] in H.
  destruct (deserialize read_instruction data) as [ins|] eqn:Ed; [|discriminate].
  pose proof Ed as Ed'. apply decode_instruction in Ed'. destruct Ed' as (rest & _ & Hok).
  destruct ins as [a|x i|i|c|u].
  - pose proof H as H0. cbn [instruction_ok] in Hok. apply (pool_stake _ _ _ _ _ _ _ _ _ HP Hok Hh) in H.
    destruct H as (staker & so & sx & xm & st & v & om & tp & m & sd1 & H1 & H2 & H3 & H4 & H5 & H6).
    exists P. split; [exact H4|]. eapply Ch_stake; eauto.
  - pose proof H as H0. cbn [instruction_ok] in Hok. destruct Hok as [Hx Hi].
    apply (pool_unstake _ _ _ _ _ _ _ _ _ _ _ HP Hx Hi HE Hh) in H.
    destruct H as (un & st & pd & ux & xm & om & v & sp & tp & w & b & sd1 & H1 & H2 & H3 & H4 & H5 & H6 & H7).
    exists (m_key pd :: P). split; [exact H5|]. eapply Ch_unstake; eauto.
  - pose proof H as H0. cbn [instruction_ok] in Hok.
    apply (pool_withdraw _ _ _ _ _ _ _ _ _ _ HP Hok Hh) in H.
    destruct H as (un & st & pd & uo & v & om & sp & tp & vd1 & H1 & H2 & H3 & H4 & H5 & H6 & H7 & H8).
    exists (remove key_eq_dec (m_key pd) P). split; [exact H5|]. eapply Ch_withdraw; eauto.
  - destruct (pool_no_init _ _ _ _ _ _ _ _ _ HP HE Hh H).
  - pose proof H as H0. apply (pool_set _ _ _ _ _ _ _ _ _ HP Hok) in H.
    destruct H as (au & st & H1 & H2 & H3 & H4 & H5 & H6).
    exists P. split; [exact H4|]. eapply Ch_set; eauto.
Qed.

(** The step that creates the pool. *)
Record birth (C : crypto) (E : env) (accs : list meta) (c : Z) (l l' : ledger) (sk vk : pubkey) : Prop := {
  bi_payer : exists m, nth_error accs 0 = Some m /\ m_signer m = true /\ m_key m = deployer_address;
  bi_authority : exists m, nth_error accs 1 = Some m /\ m_signer m = true /\
                   st_authority (a_data (l' sk)) = m_key m;
  bi_cooldown : st_cooldown (a_data (l' sk)) = c;
  bi_escrow : st_escrow (a_data (l' sk)) = 0;
  bi_vault : ta_amount (a_data (l' vk)) = 0;
  bi_supply : mint_supply (a_data (l' xorca_mint_id)) = 0
}.

Theorem fresh_step C l o :
  ordinary_state_address C -> fresh C l -> op_ok C l o ->
  (fresh C (fst (run_op C l o)) /\ snd (run_op C l o) = []) \/
  (exists E accs data c sk vk,
     o = OpCall E accs data /\ deserialize read_instruction data = Some (Initialize c) /\
     birth C E accs c l (fst (run_op C l o)) sk vk /\
     pool C (fst (run_op C l o)) sk vk [] /\ snd (run_op C l o) = []).
Proof.
  intros Hord HF Ho. destruct (is_call o) eqn:Ec.
  2:{ left. destruct (outside_calm C l o (fr_lam _ _ HF) Ho Ec) as [HC HE].
      split; [eapply fresh_calm; eassumption|exact HE]. }
  destruct o as [E accs data| | | | | |]; try discriminate. cbn [op_ok run_op] in *.
  destruct Ho as [HE Hh].
  destruct (process_instruction C E xorca_id accs l data) as [[l' evs]|e] eqn:H; [|left; auto].
  right. destruct (fresh_others_fail _ _ _ _ _ _ _ HF HE Hh H) as (c & Hc & Hd & Hi).
  destruct (pool_init _ _ _ _ _ _ _ HF Hord Hc HE Hh Hi)
    as (pa & ua & st & v & xm & om & sp & tp & ap & sb & vb & Pre & HP & A1 & A2 & A3 & A4 & A5 & ->).
  exists E, accs, data, c, (m_key st), (m_key v). cbn [fst snd]. split; [reflexivity|].
  split; [exact Hd|]. split; [|auto]. destruct Pre. destruct ip_accs.
  constructor; auto; [exists pa|exists ua]; auto.
Qed.

(** Reachable ledgers either have no pool yet, or exactly one. *)
Theorem reachable C l0 ops l evs :
  ordinary_state_address C -> genesis C l0 -> history C l0 ops l evs ->
  (fresh C l /\ evs = []) \/ exists sk vk P, pool C l sk vk P.
Proof.
  intros Hord Hg H. induction H as [|ops l evs o H IH Ho].
  - left. split; [now apply genesis_fresh|reflexivity].
  - destruct IH as [[HF ->]|(sk & vk & P & HP)].
    + destruct (fresh_step _ _ _ Hord HF Ho) as [[H1 H2]|(E & accs & data & c & sk & vk & _ & _ & _ & HP & _)].
      * left. rewrite H2. auto.
      * right. eauto.
    + right. destruct (pool_step _ _ _ _ _ _ HP Ho) as (P' & HP' & _). eauto.
Qed.

Lemma pool_sk C l l' sk vk P sk' vk' P' :
  pool C l sk vk P -> pool C l' sk' vk' P' -> sk = sk' /\ vk = vk'.
Proof.
  intros H H'. destruct (po_find _ _ _ _ _ H) as (b & F & _).
  destruct (po_find _ _ _ _ _ H') as (b' & F' & _). assert (sk = sk') by congruence. subst sk'.
  destruct (po_findv _ _ _ _ _ H) as (c & G & _).
  destruct (po_findv _ _ _ _ _ H') as (c' & G' & _). split; congruence.
Qed.

(** A ledger with a State account is a pool. *)
Theorem reachable_pool C l0 ops l evs k :
  ordinary_state_address C -> genesis C l0 -> history C l0 ops l evs ->
  a_owner (l k) = xorca_id -> st_disc (a_data (l k)) = 1 ->
  exists vk P, pool C l k vk P.
Proof.
  intros Hord Hg H Ho Hd. destruct (reachable _ _ _ _ _ Hord Hg H) as [[HF _]|(sk & vk & P & HP)].
  - exfalso. eapply fresh_no_state; eassumption.
  - assert (k = sk) by (eapply pool_state_is; eassumption). subst sk. eauto.
Qed.

(** Histories compose. *)
Lemma history_app C l0 o1 l1 e1 o2 l2 e2 :
  history C l0 o1 l1 e1 -> history C l1 o2 l2 e2 -> history C l0 (o1 ++ o2) l2 (e1 ++ e2).
Proof.
  intros H1 H2. induction H2 as [|ops l evs o H2 IH Ho].
  - now rewrite !app_nil_r.
  - rewrite !app_assoc. constructor; assumption.
Qed.

(** A pool lives for ever. *)
Theorem pool_history C l0 ops l evs sk vk P :
  pool C l0 sk vk P -> history C l0 ops l evs -> exists P', pool C l sk vk P'.
Proof.
  intros HP H. induction H as [|ops l evs o H IH Ho]; [eauto|].
  destruct IH as [P' HP']. destruct (pool_step _ _ _ _ _ _ HP' Ho) as (P'' & H'' & _). eauto.
Qed.
