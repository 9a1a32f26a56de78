(** Before Initialize, and Initialize itself. *)
From Verif Require Import History BytesFacts FieldFacts LedgerFacts TokenFacts ParseFacts CpiFacts
  AssertFacts LayoutFacts MathFacts Economics StakeFacts UnstakeFacts WithdrawFacts SetFacts InitFacts
  CodecFacts Totals OutsideFacts TokenStep VaultStep Calm Pool PoolStake PoolUnstake.

(** No pool yet. *)
Record fresh (C : crypto) (l : ledger) : Prop := {
  fr_lam : lamports_ok l;
  fr_only : forall k, a_owner (l k) = xorca_id -> all_zero (a_data (l k)) = true;
  fr_pdas : forall k, program_signs_for C k -> a_owner (l k) = system_id /\ a_data (l k) = [];
  fr_orca : mint_live l orca_mint_id;
  fr_olam : 0 < a_lamports (l orca_mint_id);
  fr_mlam : 0 < a_lamports (l xorca_mint_id);
  fr_tok : tok_bounded l xorca_mint_id
}.

Lemma genesis_fresh C l : genesis C l -> fresh C l.
Proof.
  intros []. constructor; auto.
  - apply unit_tt, mint_unpack_ok in gen_orca. destruct gen_orca. repeat split; auto.
  - constructor; auto.
    apply unit_tt, mint_unpack_ok in gen_mint. destruct gen_mint. repeat split; auto.
Qed.

Theorem fresh_calm C l l' : fresh C l -> calm C l l' -> fresh C l'.
Proof.
  intros [] HC. destruct (ca_mint _ _ _ HC _ fr_mlam0 (tb_live _ _ fr_tok0)) as [_ M].
  destruct (ca_mint _ _ _ HC _ fr_olam0 fr_orca0) as [O1 O2].
  constructor; auto; try lia.
  - apply HC.
  - intros k K. destruct (ca_new _ _ _ HC k K) as [Z|[A B]]; [assumption|]. rewrite B. auto.
  - intros k K. destruct (fr_pdas0 k K) as [A B].
    destruct (ca_pda _ _ _ HC k K A B) as (A' & B' & _). auto.
  - now apply (ca_tok _ _ _ HC).
Qed.

Theorem pool_init C E l accs c l' evs :
  fresh C l -> ordinary_state_address C -> is_i64 c -> sysvars_ok E -> honest_metas C accs ->
  initialize_process C E accs l c = Ok (l', evs) ->
  exists pa ua st v xm om sp tp ap sb vb,
    init_pre C E accs l c pa ua st v xm om sp tp ap sb vb /\
    pool C l' (m_key st) (m_key v) [] /\
    st_cooldown (a_data (l' (m_key st))) = c /\ st_authority (a_data (l' (m_key st))) = m_key ua /\
    st_escrow (a_data (l' (m_key st))) = 0 /\ ta_amount (a_data (l' (m_key v))) = 0 /\
    mint_supply (a_data (l' xorca_mint_id)) = 0 /\ evs = [].
Proof.
  intros HF Hord Hc HE Hh H. apply init_inv in H; [|now apply sysvars_env|exact Hh].
  destruct H as (pa & ua & st & v & xm & om & sp & tp & ap & sb & vb & Pre & Nsv & Hfund & Hl & ->).
  exists pa, ua, st, v, xm, om, sp, tp, ap, sb, vb. split; [exact Pre|].
  assert (Hpa : ~ program_signs_for C (m_key pa)).
  { apply Hh; [|apply Pre]. eapply nth_error_In, (ia0 _ _ _ _ _ _ _ _ _ _ (ip_accs _ _ _ _ _ _ _ _ _ _ _ _ _ _ _ _ Pre)). }
  destruct Pre.
  set (sk := m_key st) in *. set (vk := m_key v) in *. set (pk := m_key pa) in *.
  set (sd := state_borsh (initial_state c (byte_to_Z sb) (byte_to_Z vb) (m_key ua))) in *.
  assert (Psk : program_signs_for C sk) by (eapply find_is_pda; exact ip_find_st).
  assert (Nps : pk <> sk) by (intros Q; rewrite Q in Hpa; contradiction).
  pose proof token_ne_system as Nt. pose proof xorca_ne_system as Nx. pose proof xt_ne as Nxt.
  assert (Mo : a_owner (l xorca_mint_id) = token_id) by assumption.
  assert (Oo : a_owner (l orca_mint_id) = token_id) by apply HF.
  set (L2 := set_data (created E l pk sk STATE_LEN xorca_id) sk sd) in *.
  set (need := rent_need E l sk STATE_LEN) in *.
  set (an := ata_need E L2 vk) in *.
  assert (Rs : 0 < rent_min E STATE_LEN).
  { apply (proj2 HE). unfold STATE_LEN. lia. }
  assert (Hneed : 0 <= need) by (unfold need, rent_need; lia).
  assert (Hnf : 0 < need -> a_owner (l pk) = system_id /\ need <= a_lamports (l pk)).
  { intros Q. destruct ip_fund as (_ & F1 & F2 & _); [right; exact Q|]. split; [apply F2, Q|exact F1]. }
  assert (L2s : L2 sk = Account (a_lamports (l sk) + need) xorca_id sd).
  { unfold L2. rewrite set_data_same, created_same. reflexivity. }
  assert (L2k : forall k, k <> sk -> a_owner (L2 k) = a_owner (l k) /\ a_data (L2 k) = a_data (l k) /\
            a_lamports (L2 k) = a_lamports (l k) - (if key_eqb pk k then need else 0)).
  { intros k K. unfold L2. rewrite set_data_other by congruence. apply created_other. congruence. }
  unfold init_effect in Hl. fold sk vk pk in Hl. fold sd in Hl. fold L2 in Hl. clearbody L2.
  assert (L2nn : forall k, 0 <= a_lamports (L2 k)).
  { intros k. pose proof (fr_lam _ _ HF k). destruct (key_eq_dec k sk) as [->|K].
    - rewrite L2s. cbn [a_lamports]. lia.
    - destruct (L2k k K) as (_ & _ & ->). destruct (key_eqb pk k) eqn:Q; [|lia].
      apply key_eqb_true in Q. subst k. destruct (Z.eq_dec need 0) as [->|Q]; [lia|].
      destruct (Hnf ltac:(lia)). lia. }
  assert (Han : 0 <= an /\ 0 < a_lamports (L2 vk) + an).
  { unfold an, ata_need. pose proof (L2nn vk). destruct (0 <? a_lamports (L2 vk)) eqn:Q;
      [apply Z.ltb_lt in Q|]; lia. }
  unfold ata_fund in Hfund. fold an in Hfund.
  destruct (L2k pk Nps) as (Lpo & _ & Lpl). rewrite key_eqb_refl in Lpl.
  assert (Hv : l' vk = Account (a_lamports (L2 vk) + an) token_id (init_ta orca_mint_id sk (zeros ta_len))).
  { rewrite (Hl vk). unfold ata_created. apply upd_same. }
  assert (Hk : forall k, k <> vk -> a_owner (l' k) = a_owner (L2 k) /\ a_data (l' k) = a_data (L2 k) /\
            a_lamports (l' k) = a_lamports (L2 k) - (if key_eqb pk k then an else 0)).
  { intros k K. rewrite (Hl k). unfold ata_created. fold an.
    rewrite upd_other by congruence. autorewrite with ledger. split; [reflexivity|].
    split; [reflexivity|]. destruct (key_eqb pk k) eqn:Q.
    - apply key_eqb_true in Q. subst k. apply set_lamports_same_lamports.
    - apply key_eqb_false in Q. rewrite set_lamports_other by exact Q. lia. }
  assert (Ho : forall k, k <> vk -> k <> sk -> a_owner (l' k) = a_owner (l k) /\ a_data (l' k) = a_data (l k)).
  { intros k K1 K2. destruct (Hk k K1) as (-> & -> & _). destruct (L2k k K2) as (-> & -> & _). auto. }
  assert (Hlam : forall k, k <> vk -> k <> sk -> a_owner (l k) <> system_id ->
            a_lamports (l' k) = a_lamports (l k)).
  { intros k K1 K2 K3. destruct (Hk k K1) as (_ & _ & ->). destruct (L2k k K2) as (_ & _ & ->).
    destruct (key_eqb pk k) eqn:Q; [|lia]. apply key_eqb_true in Q. subst k.
    destruct (Z.eq_dec need 0) as [->|Q1]; [|destruct (Hnf ltac:(lia)); congruence].
    destruct (Z.eq_dec an 0) as [->|Q2]; [lia|]. destruct (Hfund ltac:(lia)) as (_ & F & _).
    congruence. }
  assert (Hs : l' sk = Account (a_lamports (l sk) + need) xorca_id sd).
  { destruct (Hk sk Nsv) as (A & B & D). rewrite L2s in A, B, D. cbn [a_owner a_data a_lamports] in *.
    rewrite (key_eqb_neq pk sk Nps) in D. destruct (l' sk) as [x1 x2 x3]. cbn in *. f_equal; auto. lia. }
  assert (Mv : xorca_mint_id <> vk) by (intros Q; rewrite Q in Mo; congruence).
  assert (Ms : xorca_mint_id <> sk) by (intros Q; rewrite Q in Mo; congruence).
  assert (Ov : orca_mint_id <> vk) by (intros Q; rewrite Q in Oo; congruence).
  assert (Os : orca_mint_id <> sk) by (intros Q; rewrite Q in Oo; congruence).
  destruct (initial_state_fields c (byte_to_Z sb) (byte_to_Z vb) (m_key ua) Hc (byte_is_u8 _) (byte_is_u8 _))
    as (S1 & S2 & S3 & S4 & S5 & S6).
  fold sd in S1, S2, S3, S4, S5, S6.
  assert (Ltz : length (zeros ta_len) = 165%nat) by reflexivity.
  destruct (init_ta_fields orca_mint_id sk (zeros ta_len) Ltz)
    as (T0 & T1 & T2 & T3 & T4 & T5 & T6 & T7 & T8).
  destruct (Ho _ Mv Ms) as [MO MD]. destruct (Ho _ Ov Os) as [OO OD].
  rewrite Hs, Hv, MD. cbn [a_data].
  split; [|repeat split; auto].
  destruct HF. destruct (fr_tok0) as [ML _ _]. constructor; rewrite ?Hs, ?Hv, ?MD; cbn [a_owner a_data a_lamports]; auto.
  - intros k. destruct (key_eq_dec k vk) as [->|K].
    + rewrite Hv. cbn [a_lamports]. lia.
    + destruct (Hk k K) as (_ & _ & ->). pose proof (L2nn k). destruct (key_eqb pk k) eqn:Q; [|lia].
      apply key_eqb_true in Q. subst k. destruct (Z.eq_dec an 0) as [->|Q2]; [lia|].
      destruct (Hfund ltac:(lia)) as (_ & _ & F). lia.
  - eapply Hord. exact ip_find_st.
  - exists sb. auto.
  - exists vb. auto.
  - unfold sd. apply state_borsh_length.
  - pose proof (fr_lam0 sk). unfold need, rent_need. lia.
  - rewrite S5. assumption.
  - constructor; rewrite Hv; cbn [a_owner a_data]; auto. rewrite T5. discriminate.
  - lia.
  - constructor; rewrite ?MD; auto. unfold mint_live. rewrite MO, MD. exact ML.
  - rewrite Hlam; auto. congruence.
  - unfold mint_live. rewrite OO, OD. exact fr_orca0.
  - rewrite Hlam; auto. congruence.
  - constructor.
  - intros k [].
  - intros k K. destruct (key_eq_dec k sk) as [->|Ks]; [auto|].
    destruct (key_eq_dec k vk) as [->|Kv]; [rewrite Hv in K; cbn in K; congruence|].
    destruct (Ho k Kv Ks) as [A B]. rewrite B. right. right. apply fr_only0. congruence.
  - intros k K. destruct (key_eq_dec k sk) as [->|Ks]; [auto|].
    destruct (key_eq_dec k vk) as [->|Kv]; [auto|].
    destruct (Ho k Kv Ks) as [A B]. rewrite A, B. do 3 right. now apply fr_pdas0.
  - rewrite S4, T3, ip_xm_supply. lia.
  - apply (tok_bounded_frame l); auto. intros k K1 K2 K3.
    destruct (key_eq_dec k sk) as [->|Ks]; [rewrite Hs in K1; cbn in K1; congruence|].
    destruct (key_eq_dec k vk) as [->|Kv].
    { rewrite Hv in K3. cbn [a_data] in K3. rewrite T1 in K3. now apply ids_distinct in K3. }
    destruct (Ho k Kv Ks) as [A B]. split; congruence.
Qed.

(** Other instructions need a State account, Initialize needs none. *)
Lemma fresh_no_state C l k : fresh C l -> a_owner (l k) = xorca_id -> st_disc (a_data (l k)) <> 1.
Proof. intros HF Ho. apply all_zero_not_state. now apply HF. Qed.

Lemma fresh_others_fail C E l accs data l' evs :
  fresh C l -> sysvars_ok E -> honest_metas C accs ->
  process_instruction C E xorca_id accs l data = Ok (l', evs) ->
  exists c, is_i64 c /\ deserialize read_instruction data = Some (Initialize c) /\
    initialize_process C E accs l c = Ok (l', evs).
Proof.
  intros HF HE Hh H. unfold process_instruction in H. rewrite key_eqb_refl in H.
  cbn [negb fail_if bind] in H.
  destruct (deserialize read_instruction data) as [ins|] eqn:Ed; [|discriminate].
  pose proof Ed as Ed'. apply decode_instruction in Ed'. destruct Ed' as (rest & -> & Hok).
  destruct ins as [a|x i|i|c|u]; cbn [instruction_ok] in Hok.
  - apply stake_inv in H; [|exact Hok|exact Hh].
    destruct H as (? & ? & ? & ? & ? & st & ? & ? & ? & ? & Pre & _).
    destruct (fresh_no_state C l (m_key st) HF); apply Pre.
  - apply unstake_inv in H; [|apply Hok..|now apply sysvars_env|exact Hh].
    destruct H as (? & st & ? & ? & ? & ? & ? & ? & ? & ? & ? & ? & Pre & _).
    destruct (fresh_no_state C l (m_key st) HF); apply Pre.
  - apply withdraw_inv in H; [|exact Hok|exact Hh].
    destruct H as (? & st & ? & ? & ? & ? & ? & ? & ? & Pre & _).
    destruct (fresh_no_state C l (m_key st) HF); apply Pre.
  - eauto.
  - apply set_ok in H. destruct H as (? & st & Pre & _).
    destruct (fresh_no_state C l (m_key st) HF); apply Pre.
Qed.

Lemma pool_no_init C E l sk vk P accs c r :
  pool C l sk vk P -> sysvars_ok E -> honest_metas C accs ->
  initialize_process C E accs l c = Ok r -> False.
Proof.
  intros HP HE Hh H. destruct r as [l' evs]. apply init_inv in H; [|now apply sysvars_env|exact Hh].
  destruct H as (? & ? & st & ? & ? & ? & ? & ? & ? & sb & ? & Pre & _). destruct Pre.
  destruct (po_find _ _ _ _ _ HP) as (sb' & Q & _). rewrite Q in ip_find_st.
  injection ip_find_st as Q1 _. rewrite <- Q1, (po_state _ _ _ _ _ HP) in ip_st_owner.
  now apply xorca_ne_system in ip_st_owner.
Qed.
