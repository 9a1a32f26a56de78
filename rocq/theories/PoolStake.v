(** Stake and Set preserve the pool invariant. *)
From Verif Require Import History BytesFacts FieldFacts LedgerFacts TokenFacts ParseFacts CpiFacts
  AssertFacts LayoutFacts MathFacts Economics StakeFacts UnstakeFacts WithdrawFacts SetFacts InitFacts
  CodecFacts Totals OutsideFacts TokenStep VaultStep Calm Pool.

Lemma native_moves_nonneg l f t n k : 0 <= n -> k <> f -> 0 <= native_moves l f t n k.
Proof.
  intros Hn Hk. unfold native_moves. rewrite (key_eqb_neq f k) by congruence.
  destruct (ta_is_native _); [|lia]. destruct (key_eqb t k); lia.
Qed.

Lemma u64_le_le x : is_u64 x -> 0 <= x <= u64_max.
Proof. unfold is_u64, u64_max. lia. Qed.

Lemma mint_ok_supply l l' m sk v :
  mint_ok l m sk -> is_u64 v -> a_owner (l' m) = a_owner (l m) ->
  a_data (l' m) = set_supply v (a_data (l m)) ->
  mint_ok l' m sk /\ mint_supply (a_data (l' m)) = v.
Proof.
  intros [(M1 & M2 & M3) M4 M5 M6] Hv Ho Hd. pose proof (mint_wf_len _ M2) as L.
  destruct (set_supply_same (a_data (l m)) v L Hv) as (S1 & S2 & S3 & S4 & S5 & S6 & S7 & S8 & S9).
  split; [constructor; unfold mint_live; rewrite ?Ho, ?Hd; repeat split; congruence|congruence].
Qed.

(** What Stake changes, for the pool. *)
Record stake_change (l l' : ledger) (sk vk : pubkey) (P : list pubkey) (a m : Z) : Prop := {
  sc_quote : convert_orca_to_xorca a (non_escrowed l vk sk) (mint_supply (a_data (l xorca_mint_id)))
             = Ok m;
  sc_pos : 0 < m;
  sc_state : a_data (l' sk) = a_data (l sk);
  sc_vault : ta_amount (a_data (l' vk)) = ta_amount (a_data (l vk)) + a;
  sc_supply : mint_supply (a_data (l' xorca_mint_id)) = mint_supply (a_data (l xorca_mint_id)) + m;
  sc_recs : recs_kept P l l'
}.

Theorem pool_stake C l sk vk P accs a l' evs :
  pool C l sk vk P -> is_u64 a -> honest_metas C accs ->
  stake_process C accs l a = Ok (l', evs) ->
  exists staker so sx xm st vault om tp m sd1,
    stake_pre C accs l a staker vault so sx xm st om tp m sd1 /\
    m_key st = sk /\ m_key vault = vk /\ pool C l' sk vk P /\ stake_change l l' sk vk P a m /\
    evs = [event_bytes (stake_event l vk sk a m)].
Proof.
  intros HP Ha Hh H. apply stake_inv in H; [|exact Ha|exact Hh].
  destruct H as (staker & vault & so & sx & xm & st & om & tp & m & sd1 & Pre & Hm & Hmu & Hne & Hd &
                 _ & Hl & Hln & ->).
  exists staker, so, sx, xm, st, vault, om, tp, m, sd1. split; [exact Pre|].
  assert (Est : m_key st = sk).
  { eapply pool_state_is; [exact HP|apply Pre|apply Pre]. }
  assert (Evk : m_key vault = vk).
  { rewrite (sp_v_key _ _ _ _ _ _ _ _ _ _ _ _ _ _ Pre), Est. eapply pool_vault_is, HP. }
  split; [exact Est|]. split; [exact Evk|]. rewrite Est, Evk in *.
  destruct Pre. rewrite Est, Evk in *.
  set (sok := m_key so) in *. set (sxk := m_key sx) in *.
  pose proof (pool_ne _ _ _ _ _ HP) as (N1 & N2 & N3 & N4 & N5).
  assert (So : a_owner (l sok) = token_id) by apply sp_so_live.
  assert (Sx : a_owner (l sxk) = token_id) by apply sp_sx_live.
  assert (Vo : a_owner (l vk) = token_id) by apply sp_v_live.
  assert (Mo : a_owner (l xorca_mint_id) = token_id) by apply sp_xm_live.
  assert (D1 : xorca_mint_id <> sok) by (eapply mint_ne_ta; eassumption).
  assert (D2 : xorca_mint_id <> sxk) by (eapply mint_ne_ta; eassumption).
  assert (D3 : vk <> sxk) by (eapply orca_ne_xorca; eassumption).
  assert (D4 : sok <> sxk) by (eapply orca_ne_xorca; eassumption).
  assert (D5 : orca_mint_id <> sok) by (eapply mint_ne_ta; [apply HP|assumption]).
  assert (D6 : orca_mint_id <> sxk) by (eapply mint_ne_ta; [apply HP|assumption]).
  assert (D7 : orca_mint_id <> xorca_mint_id) by apply ids_distinct.
  pose proof (u64_le_le _ Ha) as Ra. pose proof (u64_le_le _ Hmu) as Rm.
  assert (Hown : forall k, a_owner (l' k) = a_owner (l k)).
  { intros k. destruct (Hd k) as [_ ->]. unfold stake_effect. autorewrite with ledger.
    apply transferred_owner. }
  assert (Hoth : forall k, k <> sok -> k <> vk -> k <> sxk -> k <> xorca_mint_id ->
            a_data (l' k) = a_data (l k)).
  { intros k K1 K2 K3 K4. destruct (Hd k) as [-> _]. unfold stake_effect.
    rewrite !set_data_other by congruence. now rewrite transferred_data_other. }
  assert (Hnt : forall k, a_owner (l k) <> token_id -> a_data (l' k) = a_data (l k)).
  { intros k K. apply Hoth; intros ->; contradiction. }
  assert (Hvd : a_data (l' vk) = set_amount (ta_amount (a_data (l vk)) + a) (a_data (l vk))).
  { destruct (Hd vk) as [-> _]. unfold stake_effect. rewrite !set_data_other by congruence.
    unfold transferred. apply upd_data_same. }
  assert (Hxd : a_data (l' xorca_mint_id) =
                set_supply (mint_supply (a_data (l xorca_mint_id)) + m) (a_data (l xorca_mint_id))).
  { destruct (Hd xorca_mint_id) as [-> _]. unfold stake_effect. apply upd_data_same. }
  assert (Hlam : forall k, k <> sok -> a_lamports (l k) <= a_lamports (l' k)).
  { intros k K. rewrite Hl. pose proof (native_moves_nonneg l sok vk a k ltac:(lia) K). lia. }
  destruct (vault_raise l vk a orca_mint_id sk (po_vault _ _ _ _ _ HP) ltac:(lia) sp_v_room l'
              (Hown vk) Hvd) as [V1 V2].
  assert (Hsu : is_u64 (mint_supply (a_data (l xorca_mint_id)) + m)).
  { pose proof (mint_supply_range (a_data (l xorca_mint_id))). unfold is_u64, u64_max in *. lia. }
  destruct (mint_ok_supply l l' xorca_mint_id sk _ (po_mint _ _ _ _ _ HP) Hsu (Hown _) Hxd) as [M1 M2].
  assert (HR : recs_kept P l l').
  { intros k K. pose proof (po_records _ _ _ _ _ HP k K) as R.
    assert (Kt : a_owner (l k) <> token_id) by (rewrite (ro_owner _ _ _ R); apply xt_ne).
    split; [apply Hown|]. split; [now apply Hnt|]. apply Hlam. intros ->. contradiction. }
  assert (Hsd : a_data (l' sk) = a_data (l sk)).
  { apply Hnt. rewrite (po_state _ _ _ _ _ HP). apply xt_ne. }
  split; [|split; [|reflexivity]].
  2:{ constructor; auto. }
  destruct HP. constructor; rewrite ?Hsd; auto.
  - intros k. destruct (key_eq_dec k sok) as [->|K].
    + rewrite Hl. unfold native_moves. rewrite key_eqb_refl, (key_eqb_neq vk sok) by congruence.
      pose proof (po_lam sok). destruct (ta_is_native (a_data (l sok))); [|lia].
      specialize (Hln eq_refl). lia.
    + pose proof (Hlam k K). pose proof (po_lam k). lia.
  - rewrite Hown. assumption.
  - assert (Q : sk <> sok) by (intros E; rewrite E in po_state; pose proof xt_ne; congruence).
    pose proof (Hlam sk Q). lia.
  - pose proof (Hlam vk ltac:(congruence)). lia.
  - pose proof (Hlam xorca_mint_id D1). lia.
  - destruct po_orca as (O1 & O2 & O3). unfold mint_live. rewrite Hown.
    rewrite Hoth by congruence. auto.
  - pose proof (Hlam orca_mint_id D5). lia.
  - intros k K. destruct (HR k K) as (R1 & R2 & R3). eapply record_ok_ext; eauto.
  - intros k K. rewrite Hown in K. rewrite Hnt by (rewrite K; apply xt_ne). auto.
  - intros k K. destruct (po_pdas k K) as [Q|[Q|[Q|[Q1 Q2]]]]; auto.
    do 3 right. rewrite Hown. split; [assumption|]. rewrite Hnt; [assumption|].
    rewrite Q1. apply not_eq_sym, token_ne_system.
  - rewrite (claims_kept _ _ _ HR). assumption.
  - rewrite V2, M2.
    pose proof (non_escrowed_range l vk sk sp_backed) as Rn.
    pose proof (mint_supply_range (a_data (l xorca_mint_id))) as Rs.
    apply orca_to_xorca_ok in sp_quote; auto. destruct sp_quote as [_ [[_ ->]|(_ & _ & ->)]].
    + lia.
    + assert (mint_quote a (non_escrowed l vk sk) (mint_supply (a_data (l xorca_mint_id))) <= a).
      { apply mint_le_stake; [lia|]. unfold non_escrowed, is_u64 in *. lia. }
      lia.
  - apply tok_bounded_deq with (l := stake_effect l vk sok sxk a m sd1); [exact Hd|].
    assert (HT : tok_bounded (transferred l sok vk a sd1) xorca_mint_id).
    { apply bounded_transferred; auto; try lia; [congruence|].
      eapply spend_auth_same; [|eassumption]. apply ta_wf_len, sp_so_live. }
    assert (Tx : transferred l sok vk a sd1 xorca_mint_id = l xorca_mint_id)
      by (apply transferred_data_other; congruence).
    assert (Ts : transferred l sok vk a sd1 sxk = l sxk)
      by (apply transferred_data_other; congruence).
    apply (bounded_minted (transferred l sok vk a sd1) xorca_mint_id xorca_mint_id sxk m) in HT.
    + unfold minted in HT. rewrite Tx, Ts in HT. exact HT.
    + unfold mint_live. rewrite Tx. exact sp_xm_live.
    + unfold ta_live. rewrite Ts. exact sp_sx_live.
    + now rewrite Ts.
    + lia.
    + rewrite Ts. assumption.
    + rewrite Tx. assumption.
Qed.

(** ** Set *)
Record set_change (l l' : ledger) (sk vk : pubkey) (P : list pubkey) (u : state_update) : Prop := {
  tc_state : a_data (l' sk) = match u with
                              | UpdateCoolDownPeriod c => set_cooldown c (a_data (l sk))
                              | UpdateUpdateAuthority k => set_authority k (a_data (l sk))
                              end;
  tc_escrow : st_escrow (a_data (l' sk)) = st_escrow (a_data (l sk));
  tc_other : forall k, k <> sk -> l' k = l k;
  tc_recs : recs_kept P l l'
}.

Theorem pool_set C l sk vk P accs u l' evs :
  pool C l sk vk P -> instruction_ok (Set_ u) ->
  set_process C accs l u = Ok (l', evs) ->
  exists au st,
    set_pre C accs l au st /\ m_key st = sk /\ update_allowed u /\
    pool C l' sk vk P /\ set_change l l' sk vk P u /\
    evs = map event_bytes (set_events l sk u).
Proof.
  intros HP Hi H. apply set_ok in H. destruct H as (au & st & Pre & Hu & El & Ee).
  exists au, st. split; [exact Pre|].
  assert (Est : m_key st = sk).
  { eapply pool_state_is; [exact HP|apply Pre|apply Pre]. }
  split; [exact Est|]. split; [exact Hu|]. rewrite Est in *. subst l' evs.
  pose proof (pool_ne _ _ _ _ _ HP) as (N1 & N2 & N3 & N4 & N5).
  pose proof (pool_state_not_record _ _ _ _ _ HP) as NP.
  assert (L : (2048 <= length (a_data (l sk)))%nat) by (rewrite (po_slen _ _ _ _ _ HP); lia).
  set (d' := match u with
             | UpdateCoolDownPeriod c => set_cooldown c (a_data (l sk))
             | UpdateUpdateAuthority k => set_authority k (a_data (l sk))
             end).
  assert (F : length d' = length (a_data (l sk)) /\ st_disc d' = st_disc (a_data (l sk)) /\
    st_bump d' = st_bump (a_data (l sk)) /\ st_vault_bump d' = st_vault_bump (a_data (l sk)) /\
    st_escrow d' = st_escrow (a_data (l sk)) /\ 0 <= st_cooldown d').
  { pose proof (po_cool _ _ _ _ _ HP). destruct u as [c|k]; unfold d'.
    - destruct (set_cooldown_same c (a_data (l sk)) L Hi) as (A & B & D & E & F & G & I).
      rewrite A. repeat split; auto.
    - destruct (set_authority_same k (a_data (l sk)) L) as (A & B & D & E & F & G & I).
      rewrite I. repeat split; auto. }
  destruct F as (F1 & F2 & F3 & F4 & F5 & F6).
  change (set_effect l sk u) with (set_data l sk d').
  assert (Hoth : forall k, k <> sk -> set_data l sk d' k = l k)
    by (intros; apply set_data_other; congruence).
  assert (Hsd : a_data (set_data l sk d' sk) = d') by apply upd_data_same.
  assert (HR : recs_kept P l (set_data l sk d')).
  { intros k K. rewrite Hoth by (intros ->; contradiction). repeat split. lia. }
  split; [|split; [|reflexivity]].
  2:{ constructor; auto. rewrite Hsd. exact F5. }
  destruct HP.
  constructor; rewrite ?Hsd, ?F1, ?F2, ?F3, ?F4, ?F5, ?Hoth by congruence;
    autorewrite with ledger; auto.
  - now apply lamports_ok_set_data.
  - apply (vault_ok_ext l); auto; now rewrite Hoth by congruence.
  - apply (mint_ok_ext l); auto; now rewrite Hoth by congruence.
  - unfold mint_live. now rewrite Hoth by congruence.
  - intros k K. destruct (HR k K) as (R1 & R2 & R3). eapply record_ok_ext; eauto.
  - intros k K. destruct (key_eq_dec k sk) as [->|N]; [auto|]. rewrite Hoth in * by exact N. auto.
  - intros k K. destruct (key_eq_dec k sk) as [->|N]; [auto|]. rewrite Hoth by exact N. auto.
  - rewrite (claims_kept _ _ _ HR). assumption.
  - apply (tok_bounded_frame l); auto.
    + now rewrite Hoth by congruence.
    + now rewrite Hoth by congruence.
    + intros k K1 K2 K3. destruct (key_eq_dec k sk) as [->|N].
      * rewrite set_data_owner, po_state in K1. now destruct xt_ne.
      * rewrite Hoth in * by exact N. auto.
Qed.
