(** Proofs of the history properties. *)
From Verif Require Import Spec BytesFacts FieldFacts LedgerFacts TokenFacts ParseFacts CpiFacts
  AssertFacts LayoutFacts MathFacts Economics StakeFacts UnstakeFacts WithdrawFacts SetFacts InitFacts
  CodecFacts Totals OutsideFacts TokenStep VaultStep Calm Pool PoolStake PoolUnstake PoolInit PoolHistory
  HistoryFacts.

(** Where the pool of a history comes from. *)
Theorem pool_birth C l0 ops l evs sk :
  ordinary_state_address C -> genesis C l0 -> history C l0 ops l evs -> is_state l sk ->
  exists ops1 o ops2 vk l2 evs2 E accs data c,
    ops = ops1 ++ o :: ops2 /\ l2 = after C l0 (ops1 ++ [o]) /\
    o = OpCall E accs data /\ encodes data (Initialize c) /\
    performs C (after C l0 ops1) o (Initialize c) accs (now E) /\
    birth C E accs c (after C l0 ops1) l2 sk vk /\
    pool C l2 sk vk [] /\ history C l2 ops2 l evs2 /\ evs = evs2.
Proof.
  intros Hord Hg H. induction H as [|ops l evs o H IH Ho]; intros Hs.
  - exfalso. destruct Hs as [H1 H2]. eapply fresh_no_state; [apply genesis_fresh, Hg|exact H1|exact H2].
  - pose proof (history_after _ _ _ _ _ H) as Ea.
    destruct (reachable _ _ _ _ _ Hord Hg H) as [[HF ->]|(sk1 & vk & P & HP)].
    + destruct (fresh_step _ _ _ Hord HF Ho) as [[H1 H2]|(E & accs & data & c & sk1 & vk & Eo & Hd & Hb & HP & He)].
      { exfalso. destruct Hs as [H3 H4]. eapply fresh_no_state; eassumption. }
      assert (sk = sk1) by (eapply pool_state_is; [exact HP|apply Hs..]). subst sk1.
      apply decode_encodes in Hd.
      exists ops, o, [], vk, (fst (run_op C l o)), [], E, accs, data, c.
      rewrite after_app, <- Ea, He. cbn [after fold_left app].
      do 2 (split; [reflexivity|]). split; [exact Eo|]. split; [exact Hd|]. split.
      { subst o. exists E, data. split; [reflexivity|]. split; [exact Hd|]. split; [reflexivity|].
        cbn [run_op] in HP.
        destruct (process_instruction C E xorca_id accs l data); [reflexivity|].
        exfalso. eapply fresh_no_state; [exact HF|apply HP..]. }
      split; [exact Hb|]. split; [exact HP|]. split; [constructor|reflexivity].
    + destruct (pool_step _ _ _ _ _ _ HP Ho) as (P' & HP' & _).
      assert (sk = sk1) by (eapply pool_state_is; [exact HP'|apply Hs..]). subst sk1.
      destruct (IH (pool_is_state _ _ _ _ _ HP))
        as (ops1 & o1 & ops2 & vk1 & l2 & evs2 & E & accs & data & c & -> & El & Eo & A & B & D & F & G & ->).
      exists ops1, o1, (ops2 ++ [o]), vk1, l2, (evs2 ++ snd (run_op C l o)), E, accs, data, c.
      rewrite <- app_assoc. cbn [app]. do 7 (split; [auto; fail|]). split; [|reflexivity].
      now constructor.
Qed.

(** ** C01, C02 *)
Lemma solvency C l sk vk :
  ordinary_state_address C -> reaches C l -> is_state l sk -> is_vault C sk vk ->
  escrow l sk + supply l <= balance l vk.
Proof.
  intros Ho Hr Hs Hv. destruct (reaches_pool_vault _ _ _ _ Ho Hr Hs Hv) as [P HP]. apply HP.
Qed.

Lemma escrow_sum C l sk :
  ordinary_state_address C -> reaches C l -> is_state l sk ->
  exists ks, NoDup ks /\ (forall k, In k ks <-> is_record l k) /\
    escrow l sk = sumZ (map (rec_amount l) ks).
Proof.
  intros Ho Hr Hs. destruct (reaches_pool _ _ _ Ho Hr Hs) as (vk & P & HP).
  exists P. split; [apply HP|]. split; [|apply HP].
  intros k. symmetry. now apply (pool_is_record _ _ _ _ _ _ HP).
Qed.

Lemma sum_incl (f : pubkey -> Z) (ks : list pubkey) : forall P,
  (forall k, In k P -> 0 <= f k) -> NoDup ks -> NoDup P -> incl ks P ->
  sumZ (map f ks) <= sumZ (map f P).
Proof.
  induction ks as [|k ks IH]; intros P Hf Hn HnP Hi.
  - cbn. clear Hi HnP. induction P as [|p P IHP]; cbn; [lia|].
    pose proof (Hf p (or_introl eq_refl)).
    assert (0 <= sumZ (map f P)) by (apply IHP; intros; apply Hf; now right).
    unfold sumZ in *. lia.
  - inversion Hn; subst. assert (Hk : In k P) by (apply Hi; now left).
    apply in_split in Hk. destruct Hk as (P1 & P2 & ->).
    assert (HnP' : NoDup (P1 ++ P2)) by (eapply NoDup_remove_1, HnP).
    assert (Hk' : ~ In k (P1 ++ P2)) by (eapply NoDup_remove_2, HnP).
    specialize (IH (P1 ++ P2)).
    assert (sumZ (map f ks) <= sumZ (map f (P1 ++ P2))).
    { apply IH; auto.
      - intros q Q. apply Hf. rewrite in_app_iff in *. cbn. tauto.
      - intros q Q. pose proof (Hi q (or_intror Q)) as I. rewrite in_app_iff in I |- *. cbn in I.
        destruct I as [I|[I|I]]; auto. subst. contradiction. }
    rewrite map_app, sumZ_app in *. cbn [map sumZ fold_right] in *. unfold sumZ in *. lia.
Qed.

Lemma promises_covered C l sk vk ks :
  ordinary_state_address C -> reaches C l -> is_state l sk -> is_vault C sk vk ->
  NoDup ks -> (forall k, In k ks -> is_record l k) ->
  sumZ (map (rec_amount l) ks) + supply l <= balance l vk.
Proof.
  intros Ho Hr Hs Hv Hn Hk. destruct (reaches_pool_vault _ _ _ _ Ho Hr Hs Hv) as [P HP].
  pose proof (po_backed _ _ _ _ _ HP) as B. rewrite (po_escrow _ _ _ _ _ HP) in B.
  assert (sumZ (map (rec_amount l) ks) <= sumZ (map (claim l) P)).
  { apply (sum_incl (claim l)); auto; [|apply HP|].
    - intros k K. pose proof (ro_claim _ _ _ (po_records _ _ _ _ _ HP k K)). lia.
    - intros k K. apply (pool_is_record _ _ _ _ _ _ HP). auto. }
  unfold supply, balance in *. lia.
Qed.

(** ** Records: origin (C04, C07, C21), fate (C05), single payout (C06) *)
Lemma after_split C l0 ops1 o ops2 :
  after C l0 (ops1 ++ o :: ops2) = after C (after C l0 (ops1 ++ [o])) ops2.
Proof. rewrite <- after_app, <- app_assoc. reflexivity. Qed.

Lemma record_history C l0 ops l evs sk vk k :
  ordinary_state_address C -> genesis C l0 -> history C l0 ops l evs ->
  is_state l sk -> is_vault C sk vk -> is_record l k ->
  exists ops1 o ops2, ops = ops1 ++ o :: ops2 /\ creates C (after C l0 ops1) o sk vk k /\
     unchanged_during C (after C l0 (ops1 ++ [o])) ops2 k.
Proof.
  intros Hord Hg H Hs Hv Hk.
  destruct (pool_birth _ _ _ _ _ _ Hord Hg H Hs)
    as (ops1 & o1 & ops2 & vk1 & l2 & evs2 & E & accs & data & c & -> & El & _ & _ & _ & _ & HP & Hh & _).
  destruct (po_findv _ _ _ _ _ HP) as (b & F & _). destruct Hv as (b' & F').
  assert (vk1 = vk) by congruence. subst vk1.
  destruct (record_origin _ _ _ _ _ _ _ _ _ HP Hh Hk) as [[_ []]|(p1 & o & p2 & -> & Hc & U)].
  exists ((ops1 ++ [o1]) ++ p1), o, p2. subst l2.
  split; [rewrite <- !app_assoc; reflexivity|].
  rewrite <- (app_assoc (ops1 ++ [o1]) p1 [o]), !(after_app C l0 (ops1 ++ [o1])). auto.
Qed.

Lemma creation_unchanged C l0 ops1 o ops2 k :
  unchanged_during C (after C l0 (ops1 ++ [o])) ops2 k ->
  let l2 := fst (run_op C (after C l0 ops1) o) in let l := after C l0 (ops1 ++ o :: ops2) in
  rec_owner l k = rec_owner l2 k /\ rec_index l k = rec_index l2 k /\
  rec_time l k = rec_time l2 k /\ rec_amount l k = rec_amount l2 k.
Proof.
  intros H. apply unchanged_end in H. destruct H as [_ H]. cbn zeta.
  rewrite after_split. unfold rec_owner, rec_index, rec_time, rec_amount. rewrite H.
  rewrite after_app. cbn [after fold_left]. auto.
Qed.

Lemma honest_call C E accs data i l l' evs :
  encodes data i -> process_instruction C E xorca_id accs l data = Ok (l', evs) ->
  match i with
  | Stake a => stake_process C accs l a
  | Unstake x i => unstake_process C E accs l x i
  | Withdraw i => withdraw_process C E accs l i
  | Initialize c => initialize_process C E accs l c
  | Set_ u => set_process C accs l u
  end = Ok (l', evs).
Proof. intros H H'. now apply (call_result C E accs data i l l' evs H). Qed.

Lemma slot_fun accs n k k' : slot accs n k -> slot accs n k' -> k = k'.
Proof. intros (m & H & <-) (m' & H' & <-). congruence. Qed.
Lemma signed_slot_fun accs n k k' : signed_slot accs n k -> signed_slot accs n k' -> k = k'.
Proof. intros (m & H & <- & _) (m' & H' & <- & _). congruence. Qed.

Lemma performs_run C l o i accs t :
  performs C l o i accs t ->
  exists E data l' evs, o = OpCall E accs data /\ now E = t /\ encodes data i /\
    process_instruction C E xorca_id accs l data = Ok (l', evs) /\ run_op C l o = (l', evs).
Proof.
  intros (E & data & -> & He & <- & Hok). destruct (process_instruction C E xorca_id accs l data) as [[l' evs]|e] eqn:H;
    [|discriminate]. exists E, data, l', evs. do 2 (split; [reflexivity|]).
  split; [exact He|]. split; [exact H|]. cbn [run_op]. now rewrite H.
Qed.

(** A Withdraw in any ledger. *)
Lemma withdraw_facts C l E accs data i l' evs :
  honest_metas C accs -> encodes data (Withdraw i) ->
  process_instruction C E xorca_id accs l data = Ok (l', evs) ->
  exists un k, signed_slot accs 0 un /\ slot accs 2 k /\ is_record l k /\ rec_time l k <= now E /\
    k = pending_address_with_bump C un i (pw_bump (a_data (l k))).
Proof.
  intros Hh He H. apply (honest_call _ _ _ _ _ _ _ _ He) in H.
  apply withdraw_inv in H; [|apply He|exact Hh].
  destruct H as (un & st & pd & uo & v & om & sp & tp & vd1 & Pre & _). destruct Pre. destruct wp_accs.
  exists (m_key un), (m_key pd). split; [exists un; auto|]. split; [exists pd; auto|].
  split; [split; [assumption|apply wp_pd_shape]|]. auto.
Qed.

(** In a pool a Withdraw pays the record in slot 2. *)
Lemma withdraw_pays C l sk vk P o i accs t k :
  pool C l sk vk P -> op_ok C l o -> performs C l o (Withdraw i) accs t -> slot accs 2 k -> pays C l o k.
Proof.
  intros HP Ho Hp Hk.
  destruct (performs_run _ _ _ _ _ _ Hp) as (E & data & l' & evs & -> & Et & He & Hrun & Hr).
  destruct Ho as [HE Hh]. destruct (withdraw_facts _ _ _ _ _ _ _ _ Hh He Hrun) as (un & k1 & S1 & S2 & S3 & S4 & S5).
  assert (k1 = k) by (eapply slot_fun; eassumption). subst k1.
  exists i, accs, t, un. split; [exact Hp|]. split; [exact S1|]. split; [exact S2|]. split; [exact S3|].
  split; [lia|]. rewrite Hr. cbn [fst].
  apply (honest_call _ _ _ _ _ _ _ _ He) in Hrun.
  destruct (pool_withdraw _ _ _ _ _ _ _ _ _ _ HP (proj1 He) Hh Hrun)
    as (un' & st & pd & uo & v & om & sp & tp & vd1 & Pre & _ & _ & _ & HP' & _).
  rewrite (pool_is_record _ _ _ _ _ _ HP').
  destruct Pre. destruct wp_accs. assert (m_key pd = k) by (eapply slot_fun; [exists pd; eauto|exact S2]).
  subst k. apply remove_In.
Qed.

Lemma cooldown_history C l0 ops l evs sk vk o i accs t k :
  ordinary_state_address C -> genesis C l0 -> history C l0 ops l evs ->
  is_state l sk -> is_vault C sk vk ->
  op_ok C l o -> performs C l o (Withdraw i) accs t -> slot accs 2 k ->
  exists ops1 o1 ops2 x j accs1 t1 un,
    ops = ops1 ++ o1 :: ops2 /\
    performs C (after C l0 ops1) o1 (Unstake x j) accs1 t1 /\ signed_slot accs1 0 un /\
    slot accs1 2 k /\ un = rec_owner l k /\ j = rec_index l k /\
    unchanged_during C (after C l0 (ops1 ++ [o1])) ops2 k /\
    t1 + cooldown (after C l0 ops1) sk <= t.
Proof.
  intros Hord Hg H Hs Hv Ho Hp Hk.
  assert (Hr : reaches C l) by (exists l0, ops, evs; auto).
  destruct (reaches_pool_vault _ _ _ _ Hord Hr Hs Hv) as [P HP].
  destruct (withdraw_pays _ _ _ _ _ _ _ _ _ _ HP Ho Hp Hk) as (i' & accs' & t' & un & Hp' & S1 & S2 & R & T & _).
  assert (t' = t).
  { destruct Hp as (E & data & -> & _ & <- & _). destruct Hp' as (E' & data' & Q & _ & <- & _). congruence. }
  subst t'.
  destruct (record_history _ _ _ _ _ _ _ _ Hord Hg H Hs Hv R) as (ops1 & o1 & ops2 & -> & Hc & U).
  destruct Hc as (x & j & accs1 & t1 & un1 & C1 & C2 & C3 & C4 & C5 & C6 & C7 & C8 & _).
  exists ops1, o1, ops2, x, j, accs1, t1, un1.
  pose proof (creation_unchanged _ _ _ _ _ _ U) as (A & B & D & _).
  rewrite <- (history_after _ _ _ _ _ H) in A, B, D.
  repeat split; auto; try congruence; try apply U; lia.
Qed.

Lemma single_payout C l sk vk o k ops l2 evs o2 :
  ordinary_state_address C -> reaches C l -> is_state l sk -> is_vault C sk vk ->
  op_ok C l o -> pays C l o k ->
  history C (fst (run_op C l o)) ops l2 evs -> op_ok C l2 o2 -> pays C l2 o2 k ->
  exists ops1 o1 ops2, ops = ops1 ++ o1 :: ops2 /\
    creates C (after C (fst (run_op C l o)) ops1) o1 sk vk k.
Proof.
  intros Hord Hr Hs Hv Ho Hp Hh Ho2 Hp2.
  destruct (reaches_pool_vault _ _ _ _ Hord Hr Hs Hv) as [P HP].
  destruct (pool_step _ _ _ _ _ _ HP Ho) as (P' & HP' & _).
  destruct Hp as (_ & _ & _ & _ & _ & _ & _ & _ & _ & Hn).
  destruct Hp2 as (_ & _ & _ & _ & _ & _ & _ & R & _).
  destruct (record_origin _ _ _ _ _ _ _ _ _ HP' Hh R) as [[_ I]|(p1 & o1 & p2 & -> & Hc & _)]; eauto.
  apply (pool_is_record _ _ _ _ _ _ HP') in I. contradiction.
Qed.

(** ** C07: derived addresses determine user and index *)
Lemma app_eq_len {A} (a b c d : list A) :
  length a = length c -> a ++ b = c ++ d -> a = c /\ b = d.
Proof.
  revert c. induction a as [|x a IH]; intros [|y c] L H; cbn in *; try discriminate; [auto|].
  injection H as -> H. destruct (IH c ltac:(lia) H) as [-> ->]. auto.
Qed.

Lemma input_state C us b : address_input C us (pda_preimage (state_seeds ++ [[b]]) xorca_id).
Proof. exact (InputState C us b). Qed.
Lemma input_vault C us sk sb b :
  find_state_address C = Some (sk, sb) ->
  address_input C us (pda_preimage (vault_seeds sk token_id orca_mint_id ++ [[b]]) ata_id).
Proof.
  intros H. unfold pda_preimage, vault_seeds. cbn [app concat]. rewrite <- !app_assoc.
  exact (InputVault C us sk sb b H).
Qed.
Lemma input_record C (us : pubkey -> Prop) u i b :
  us u -> address_input C us (pda_preimage (pending_seeds u i ++ [[b]]) xorca_id).
Proof.
  intros H. unfold pda_preimage, pending_seeds. cbn [app concat]. rewrite <- !app_assoc.
  exact (InputRecord C us u (Z_to_byte i) b H).
Qed.
Lemma collision_more C (us us' : pubkey -> Prop) :
  (forall u, us u -> us' u) -> collision C us -> collision C us'.
Proof.
  intros H (a & b & A & B & Q). exists a, b.
  assert (M : forall x, address_input C us x -> address_input C us' x) by (intros x []; econstructor; eauto).
  auto.
Qed.

Lemma pending_address_inj C (us : pubkey -> Prop) u i u' i' b :
  is_u8 i -> is_u8 i' -> us u -> us u' ->
  pending_address_with_bump C u i b = pending_address_with_bump C u' i' b ->
  u = u' /\ i = i' \/ collision C us.
Proof.
  intros Hi Hi' Hu Hu' H. unfold pending_address_with_bump, derive_address in H.
  match type of H with sha256 C ?x = sha256 C ?y => set (p := x) in *; set (q := y) in * end.
  destruct (list_eq_dec Byte.byte_eq_dec p q) as [Q|Q].
  - left. unfold p, q, pda_preimage, pending_seeds in Q. cbn [app concat] in Q.
    rewrite <- !app_assoc in Q. apply app_inv_head in Q.
    assert (Lk : length (key_bytes u) = length (key_bytes u')) by now rewrite !key_bytes_length.
    apply app_eq_len in Q; [|exact Lk]. destruct Q as [Q1 Q2]. cbn [app] in Q2.
    injection Q2 as Q2. apply pubkey_eq in Q1. split; [exact Q1|].
    apply (f_equal byte_to_Z) in Q2. rewrite !Z_to_byte_to_Z in Q2. unfold is_u8 in *.
    rewrite !Z.mod_small in Q2 by lia. exact Q2.
  - right. exists p, q. split; [now apply input_record|]. split; [now apply input_record|auto].
Qed.

Lemma pw_index_range d : is_u8 (pw_index d).
Proof. apply get_u8_range. Qed.

Lemma only_owner C l sk E accs data i l' evs un k :
  ordinary_state_address C -> reaches C l -> is_state l sk -> honest_metas C accs ->
  encodes data (Withdraw i) -> process_instruction C E xorca_id accs l data = Ok (l', evs) ->
  slot accs 0 un -> slot accs 2 k ->
  signed_slot accs 0 un /\ is_record l k /\
  (rec_owner l k = un /\ rec_index l k = i \/ collision C (claimants l un)).
Proof.
  intros Hord Hr Hs Hh He Hrun S0 S2. destruct (reaches_pool _ _ _ Hord Hr Hs) as (vk & P & HP).
  destruct (withdraw_facts _ _ _ _ _ _ _ _ Hh He Hrun) as (un' & k' & A0 & A2 & R & T & K).
  assert (un' = un) by (eapply slot_fun; [destruct A0 as (m & ? & ? & _); exists m; eauto|exact S0]).
  assert (k' = k) by (eapply slot_fun; eassumption). subst un' k'.
  split; [exact A0|]. split; [exact R|].
  assert (Hcl : claimants l un (rec_owner l k)) by (right; eauto).
  apply (pool_is_record _ _ _ _ _ _ HP) in R. apply (po_records _ _ _ _ _ HP) in R. destruct R.
  apply find_pending_bump in ro_addr.
  assert (B : Z_to_byte (byte_to_Z (Z_to_byte (pw_bump (a_data (l k))))) = Z_to_byte (pw_bump (a_data (l k))))
    by apply byte_to_Z_to_byte.
  unfold pending_address_with_bump in ro_addr. rewrite B in ro_addr.
  fold (pending_address_with_bump C (pw_unstaker (a_data (l k))) (pw_index (a_data (l k))) (pw_bump (a_data (l k)))) in ro_addr.
  rewrite ro_addr in K at 1.
  apply (pending_address_inj C (claimants l un)) in K; [|apply pw_index_range|apply He|exact Hcl|now left].
  destruct K as [[A B']|K]; auto.
Qed.
