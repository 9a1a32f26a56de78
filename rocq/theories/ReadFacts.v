(** State, vault, supply and exchange-rate reads. *)
From Coq Require Import String Sorted.
From Verif Require Import BytesFacts LedgerFacts TokenFacts VaultStep CodecFacts SchemaFacts AssertFacts Pool PoolInit PoolHistory HistoryFacts LifeFacts
  EffectFacts SlotFacts LiveFacts BlockFacts ClientSpec RaiseFacts EncodeFacts DecodeFacts RoleFacts AddressFacts RpcFacts.
Import List ListNotations.
Open Scope list_scope.
Open Scope Z_scope.

Lemma get_live l k : 0 < a_lamports (l k) -> rpc_get l k = Some (a_data (l k)).
Proof. intros H. unfold rpc_get. destruct (a_lamports (l k) =? 0) eqn:E; [apply Z.eqb_eq in E; lia|reflexivity]. Qed.

Theorem state_reads C cap l sk :
  ordinary_state_address C -> reaches C l -> is_state l sk -> (0 < cap)%nat ->
  rust_escrow C cap l = Some (escrow l sk) /\ js_escrow C cap l = Some (escrow l sk) /\
  rust_cooldown C cap l = Some (cooldown l sk) /\ js_cooldown C cap l = Some (cooldown l sk).
Proof.
  intros Ho Hr Hs Hc. destruct (reaches_pool _ _ _ Ho Hr Hs) as (vk & P & HP).
  destruct (state_decoded _ _ _ Ho Hr Hs) as (_ & p1 & b & vb & p2 & D1 & D2 & _).
  destruct (state_where _ _ _ Ho Hr Hs) as [(bs & F1 & F2 & _) _].
  pose proof (get_live _ _ (po_slam _ _ _ _ _ HP)) as G.
  assert (M : rpc_many cap l [sk] = Some [Some (a_data (l sk))]).
  { unfold rpc_many. cbn [length map]. replace (cap <? 1)%nat with false by (symmetry; apply Nat.ltb_ge; lia). now rewrite G. }
  assert (R1 : rust_state_data C cap l = decode_struct rust_state (a_data (l sk))).
  { unfold rust_state_data. rewrite F1. cbn [obind fst]. rewrite M. reflexivity. }
  assert (R2 : js_state_data C cap l = decode_struct js_state (a_data (l sk))).
  { unfold js_state_data. rewrite F2. cbn [obind fst]. rewrite M. reflexivity. }
  unfold rust_escrow, js_escrow, rust_cooldown, js_cooldown. rewrite R1, R2, D1, D2. cbn. auto.
Qed.

Theorem vault_reads C l sk vk :
  ordinary_state_address C -> reaches C l -> is_state l sk -> client_vault C sk vk ->
  rust_vault_state C l = Some (vk, sk, orca_mint_id, balance l vk) /\
  js_vault_state C l = Some (vk, sk, orca_mint_id, balance l vk).
Proof.
  intros Ho Hr Hs Hv. pose proof (proj1 (client_vault_is _ _ _) Hv) as Hv'.
  destruct (reaches_pool_vault _ _ _ _ Ho Hr Hs Hv') as (P & HP).
  destruct (state_where _ _ _ Ho Hr Hs) as [(bs & F1 & F2 & _) _]. destruct Hv as (bv & V1 & V2 & _).
  pose proof (get_live _ _ (po_vlam _ _ _ _ _ HP)) as G. destruct (po_vault _ _ _ _ _ HP).
  assert (U : ta_unpack (a_data (l vk)) = Ok tt) by (apply ta_unpack_ok; auto).
  unfold rust_vault_state, js_vault_state. rewrite F1, F2. cbn [obind fst]. rewrite V1, V2. cbn [obind fst]. rewrite G. cbn [obind].
  rewrite U, vo_holder, vo_mint. split; [reflexivity|].
  unfold js_token_decode. unfold ta_wf in vo_wf. rewrite !andb_true_iff in vo_wf. destruct vo_wf as ((((W1 & _) & W2) & _) & _).
  apply Z.eqb_eq in W1. apply Z.leb_le in W2. unfold zlen, ta_len in W1.
  replace (length (a_data (l vk)) <? 165)%nat with false by (symmetry; apply Nat.ltb_ge; lia).
  replace (2 <? ta_state (a_data (l vk))) with false by (symmetry; apply Z.ltb_ge; lia).
  cbn [obind]. now rewrite vo_holder, vo_mint.
Qed.

Theorem supply_reads C l sk :
  ordinary_state_address C -> reaches C l -> is_state l sk ->
  rust_xorca_supply l = Some (supply l) /\ js_xorca_supply l = Some (supply l).
Proof.
  intros Ho Hr Hs. destruct (reaches_pool _ _ _ Ho Hr Hs) as (vk & P & HP).
  pose proof (get_live _ _ (po_mlam _ _ _ _ _ HP)) as G. destruct (mo_live _ _ _ (po_mint _ _ _ _ _ HP)) as (M1 & M2 & M3).
  assert (U : mint_unpack (a_data (l xorca_mint_id)) = Ok tt) by (apply mint_unpack_ok; split; [exact M2|lia]).
  unfold rust_xorca_supply, js_xorca_supply. rewrite G. cbn [obind]. rewrite U. split; [reflexivity|].
  unfold js_mint_decode. unfold mint_wf in M2. rewrite !andb_true_iff in M2. destruct M2 as (((W1 & _) & _) & _).
  apply Z.eqb_eq in W1. unfold zlen, mint_len in W1.
  replace (length (a_data (l xorca_mint_id)) <? 82)%nat with false by (symmetry; apply Nat.ltb_ge; lia). reflexivity.
Qed.

(** ** The exchange rate *)
Theorem rate_reads C cap l1 l2 l3 sk vk :
  ordinary_state_address C -> (0 < cap)%nat -> reaches C l1 -> reaches C l2 -> reaches C l3 ->
  is_state l1 sk -> is_state l2 sk -> is_state l3 sk -> client_vault C sk vk ->
  js_exchange_rate C cap l1 l2 l3 = Some (balance l2 vk - escrow l1 sk, supply l3) /\
  (escrow l1 sk <= balance l2 vk ->
   rust_exchange_rate C cap l1 l2 l3 = Some (balance l2 vk - escrow l1 sk, supply l3)) /\
  (balance l2 vk < escrow l1 sk -> rust_exchange_rate C cap l1 l2 l3 = None) /\
  script_status C l1 l2 l3 = Some (balance l2 vk - escrow l1 sk + 100, supply l3 + 100).
Proof.
  intros Ho Hc R1 R2 R3 S1 S2 S3 V.
  destruct (state_reads C cap l1 sk Ho R1 S1 Hc) as (E1 & E2 & _).
  destruct (vault_reads C l2 sk vk Ho R2 S2 V) as (V1 & V2). destruct (supply_reads C l3 sk Ho R3 S3) as (M1 & M2).
  unfold js_exchange_rate, rust_exchange_rate. rewrite E1, E2. cbn [obind]. rewrite V1, V2. cbn [obind]. rewrite M1, M2.
  split; [reflexivity|]. split; [|split].
  - intros H. apply Z.ltb_ge in H. rewrite H. reflexivity.
  - intros H. apply Z.ltb_lt in H. rewrite H. reflexivity.
  - destruct (state_where _ _ _ Ho R1 S1) as [(bs & _ & _ & F) _]. pose proof (proj1 (client_vault_is _ _ _) V) as V'.
    destruct V as (bv & _ & _ & W).
    destruct (reaches_pool _ _ _ Ho R1 S1) as (v1 & P1 & HP1). destruct (reaches_pool_vault _ _ _ _ Ho R2 S2 V') as (P2 & HP2).
    destruct (reaches_pool _ _ _ Ho R3 S3) as (v3 & P3 & HP3).
    destruct (state_decoded _ _ _ Ho R1 S1) as (_ & p1 & b & vb & p2 & _ & D & _).
    unfold script_status. rewrite F. cbn [obind]. rewrite W. cbn [obind].
    rewrite (get_live _ _ (po_slam _ _ _ _ _ HP1)). cbn [obind]. rewrite D. cbn [obind nth_error].
    unfold spl_js_account, spl_js_mint. change script_xorca_mint with xorca_mint_id.
    rewrite (get_live _ _ (po_vlam _ _ _ _ _ HP2)), (get_live _ _ (po_mlam _ _ _ _ _ HP3)). cbn [obind].
    destruct (po_vault _ _ _ _ _ HP2), (mo_live _ _ _ (po_mint _ _ _ _ _ HP3)) as (N1 & N2 & _).
    rewrite vo_owner, N1, !key_eqb_refl, (ta_wf_len _ vo_wf), (mint_wf_len _ N2). reflexivity.
Qed.

Lemma free_nonneg C l sk vk :
  ordinary_state_address C -> reaches C l -> is_state l sk -> client_vault C sk vk -> 0 <= free_orca l sk vk.
Proof.
  intros Ho R S V. apply client_vault_is in V. destruct (reaches_pool_vault _ _ _ _ Ho R S V) as (P & HP).
  pose proof (pool_ranges _ _ _ _ _ HP). unfold free_orca in *. lia.
Qed.

Theorem rate_still C cap l sk vk :
  ordinary_state_address C -> (0 < cap)%nat -> reaches C l -> is_state l sk -> client_vault C sk vk ->
  rust_exchange_rate C cap l l l = Some (free_orca l sk vk, supply l) /\
  js_exchange_rate C cap l l l = Some (free_orca l sk vk, supply l) /\
  script_status C l l l = Some (free_orca l sk vk + 100, supply l + 100).
Proof.
  intros Ho Hc R S V. pose proof (free_nonneg _ _ _ _ Ho R S V) as F.
  destruct (rate_reads C cap l l l sk vk Ho Hc R R R S S S V) as (H1 & H2 & _ & H4). unfold free_orca in *.
  rewrite H2 by lia. auto.
Qed.

(** A withdrawal between the first two reads is missing from the answer. *)
Theorem rate_withdraw_between C cap l sk vk o i accs t k :
  ordinary_state_address C -> (0 < cap)%nat -> reaches C l -> is_state l sk -> client_vault C sk vk ->
  op_ok C l o -> performs C l o (Withdraw i) accs t -> slot accs 2 k ->
  let l' := fst (run_op C l o) in
  free_orca l' sk vk = free_orca l sk vk /\
  js_exchange_rate C cap l l' l' = Some (free_orca l sk vk - rec_amount l k, supply l) /\
  rust_exchange_rate C cap l l' l' =
    if free_orca l sk vk <? rec_amount l k then None else Some (free_orca l sk vk - rec_amount l k, supply l).
Proof.
  intros Ho Hc R S V Hok Hp S2 l'. pose proof (proj1 (client_vault_is _ _ _) V) as V'.
  assert (R' : reaches C l') by (eapply reaches_step; eassumption).
  destruct (reaches_pool_vault _ _ _ _ Ho R S V') as (P & HP).
  destruct (performs_run _ _ _ _ _ _ Hp) as (E & data & l2 & evs & -> & Et & He & Hrun & Hrn).
  destruct (call_slots _ _ _ _ _ _ sk vk Ho R S V' Hok Hp) as [T1 T4].
  pose proof Hok as [_ Hh].
  destruct (withdraw_exact _ _ _ _ _ _ _ _ Hh He Hrun)
    as (un & sk0 & k0 & uo & vk0 & _ & A1 & A2 & _ & A4 & Hs0 & Hk0 & _ & _ & Huo & _ & ND & B1 & _ & B3 & _ & _ & _ & _ & _ & _ & Q1 & Q2 & _).
  assert (J : forall n a b, slot accs n a -> slot accs n b -> a = b) by (intros n a b (m & M1 & M2) (m' & M1' & M2'); congruence).
  pose proof (J _ _ _ A1 T1). pose proof (J _ _ _ A2 S2). pose proof (J _ _ _ A4 T4). subst sk0 k0 vk0.
  assert (El : l' = l2) by (unfold l'; now rewrite Hrn). clearbody l'. subst l2.
  destruct (pool_step _ _ _ _ _ _ HP Hok) as (P' & HP' & _). rewrite Hrn in HP'. cbn [fst] in HP'.
  pose proof (pool_is_state _ _ _ _ _ HP') as S'.
  assert (Es : supply l' = supply l).
  { unfold supply. rewrite Q2; [reflexivity|].
    destruct (mo_live _ _ _ (po_mint _ _ _ _ _ HP)) as (N1 & N2 & _). apply mint_wf_len in N2.
    pose proof (ta_wf_len _ (vo_wf _ _ _ _ (po_vault _ _ _ _ _ HP))) as N3.
    destruct Huo as (_ & N4 & _). apply ta_unpack_ok in N4. destruct N4 as [N4 _]. apply ta_wf_len in N4.
    pose proof (proj1 S) as N5. pose proof (proj1 Hk0) as N6.
    intros [X|[X|[X|[X|[]]]]]; rewrite X in *; [congruence|congruence| |]; apply xt_ne; congruence. }
  assert (Ef : free_orca l' sk vk = free_orca l sk vk) by (unfold free_orca; lia).
  destruct (rate_reads C cap l l' l' sk vk Ho Hc R R' R' S S' S' V) as (H1 & H2 & H3 & _).
  assert (Eb : balance l' vk - escrow l sk = free_orca l sk vk - rec_amount l k) by (unfold free_orca; lia).
  rewrite Eb, Es in *. split; [exact Ef|]. split; [exact H1|].
  destruct (free_orca l sk vk <? rec_amount l k) eqn:Q; [apply Z.ltb_lt in Q|apply Z.ltb_ge in Q].
  - apply H3. lia.
  - apply H2. lia.
Qed.

(** ** pending-withdraws.ts *)
Theorem script_lists C l0 ls clocks staker sk :
  ordinary_state_address C -> reaches C l0 -> is_state l0 sk -> (forall i, reaches C (ls i)) ->
  (exists lines, script_pendings C l0 ls clocks staker = Some lines /\
     (forall s, In s lines <-> exists i k, 0 <= i < 15 /\ is_record (ls i) k /\ rec_owner (ls i) k = staker /\
        rec_index (ls i) k = i /\ s = line_of (ls i) k (clocks i) (cooldown l0 sk)) /\
     StronglySorted Z.lt (map sl_index lines)) \/ exists i, 0 <= i < 15 /\ collision C (claimants (ls i) staker).
Proof.
  intros Ho R0 S0 R. destruct (reaches_pool _ _ _ Ho R0 S0) as (vk & P & HP).
  destruct (state_where _ _ _ Ho R0 S0) as [(bs & _ & _ & F) _].
  set (f := fun i => get! k := script_pending C staker (JInt i) in
    get! d := rpc_get (ls i) k in script_parse (clocks i) (get_i64 16 (a_data (l0 sk))) k d).
  assert (Hf : script_pendings C l0 ls clocks staker = Some (somes (map f (below 15)))).
  { unfold script_pendings. rewrite F. cbn [obind]. rewrite (get_live _ _ (po_slam _ _ _ _ _ HP)). cbn [obind].
    rewrite (po_slen _ _ _ _ _ HP). reflexivity. }
  assert (G : forall i, In i (below 15) ->
    ((exists k, is_record (ls i) k /\ rec_owner (ls i) k = staker /\ rec_index (ls i) k = i /\
       f i = Some (line_of (ls i) k (clocks i) (cooldown l0 sk))) \/
     ((forall k, is_record (ls i) k -> rec_owner (ls i) k = staker -> rec_index (ls i) k <> i) /\ f i = None)) \/ exists i, 0 <= i < 15 /\ collision C (claimants (ls i) staker)).
  { intros i Hi. apply in_below in Hi. unfold f.
    destruct (script_pending C staker (JInt i)) as [k|] eqn:Ek; cbn [obind].
    - assert (Hk : client_record C staker i k).
      { apply client_record_is. change (option_map fst (find_pending_withdraw_address C staker i) = Some k) in Ek.
        destruct (find_pending_withdraw_address C staker i) as [[k' b]|]; [injection Ek as ->; eauto|discriminate]. }
      destruct (searched C (ls i) staker i k Ho (R i)) as [D|D]; [unfold is_u8; lia|exact Hk| |right; eauto]. left.
      destruct D as [(Rk & O & I & La & L & _)|(Rk & _ & D)].
      + left. exists k. refine (conj Rk (conj O (conj I _))). rewrite (get_live _ _ La). cbn [obind].
        unfold script_parse. rewrite L. cbn [Nat.ltb Nat.leb].
        unfold line_of, rec_index, rec_amount, rec_time, cooldown, pw_index, pw_amount, pw_timestamp, st_cooldown.
        cbv zeta. f_equal. f_equal. destruct (get_i64 48 (a_data (ls i k)) <=? clocks i) eqn:Q;
          [apply Z.leb_le in Q|apply Z.leb_gt in Q]; lia.
      + right. split.
        * intros k' Rk' O' I'. pose proof (record_where' _ _ _ Ho (R i) Rk') as W. rewrite O', I' in W.
          apply client_record_is in W, Hk. destruct W as (b & W), Hk as (b' & Hk). assert (k' = k) by congruence. now subst.
        * unfold rpc_get. destruct (_ =? 0); [reflexivity|]. rewrite D. reflexivity.
    - left. right. split; [|reflexivity]. intros k' Rk' O' I'. pose proof (record_where' _ _ _ Ho (R i) Rk') as W.
      rewrite O', I' in W. destruct W as (b & _ & _ & W). congruence. }
  apply forall_or in G. destruct G as [G|G]; [|now right]. left. eexists. split; [exact Hf|]. split.
  - intros s. rewrite in_somes, in_map_iff. split.
    + intros (i & Ei & Hi). destruct (G i Hi) as [(k & Rk & O & I & E)|[_ E]]; [|congruence].
      apply in_below in Hi. exists i, k. rewrite E in Ei. injection Ei as <-. auto.
    + intros (i & k & Hi & Rk & O & I & ->). apply in_below in Hi. exists i. split; [|exact Hi].
      destruct (G i Hi) as [(k' & Rk' & O' & I' & E)|[N _]]; [|now apply N in I].
      pose proof (record_where' _ _ _ Ho (R i) Rk) as W. pose proof (record_where' _ _ _ Ho (R i) Rk') as W'.
      rewrite O, I in W. rewrite O', I' in W'. apply client_record_is in W, W'. destruct W as (b & W), W' as (b' & W').
      assert (k' = k) by congruence. now subst.
  - apply somes_sorted; [|apply below_sorted]. intros i v Hi E.
    destruct (G i Hi) as [(k & _ & _ & I & E')|[_ E']]; [|congruence].
    rewrite E in E'. injection E' as ->. exact I.
Qed.
