(** Unstake and Withdraw preserve the pool invariant. *)
From Verif Require Import History BytesFacts FieldFacts LedgerFacts TokenFacts ParseFacts CpiFacts
  AssertFacts LayoutFacts MathFacts Economics StakeFacts UnstakeFacts WithdrawFacts SetFacts InitFacts
  CodecFacts Totals OutsideFacts TokenStep VaultStep Calm Pool PoolStake.

Lemma sysvars_env E : sysvars_ok E -> env_ok E.
Proof. intros [H1 H2]. split; [exact H1|]. intros n Hn. apply H2, Hn. Qed.

Lemma created_same E l f k n o :
  created E l f k n o k = Account (a_lamports (l k) + rent_need E l k n) o (zeros n).
Proof. unfold created. apply upd_same. Qed.

Lemma created_other E l f k n o k' :
  k <> k' ->
  a_owner (created E l f k n o k') = a_owner (l k') /\ a_data (created E l f k n o k') = a_data (l k') /\
  a_lamports (created E l f k n o k') =
    a_lamports (l k') - (if key_eqb f k' then rent_need E l k n else 0).
Proof.
  intros N. unfold created. rewrite upd_other by exact N. autorewrite with ledger.
  split; [reflexivity|]. split; [reflexivity|]. destruct (key_eqb f k') eqn:Q.
  - apply key_eqb_true in Q. subst k'. apply set_lamports_same_lamports.
  - apply key_eqb_false in Q. rewrite set_lamports_other by exact Q. lia.
Qed.

Record unstake_change (E : env) (l l' : ledger) (sk vk un k : pubkey) (P : list pubkey)
    (x i w : Z) (b : byte) : Prop := {
  uc_quote : convert_xorca_to_orca x (non_escrowed l vk sk) (mint_supply (a_data (l xorca_mint_id)))
             = Ok w;
  uc_pos : 0 < w;
  uc_range : is_u64 (st_escrow (a_data (l sk)) + w);
  uc_state : a_data (l' sk) = set_escrow (st_escrow (a_data (l sk)) + w) (a_data (l sk));
  uc_escrow : st_escrow (a_data (l' sk)) = st_escrow (a_data (l sk)) + w;
  uc_vault : a_data (l' vk) = a_data (l vk);
  uc_supply : mint_supply (a_data (l' xorca_mint_id)) = mint_supply (a_data (l xorca_mint_id)) - x;
  uc_recs : recs_kept P l l';
  uc_new_record : a_data (l' k) = pending_bytes (byte_to_Z b) i un w
                                    (now E + st_cooldown (a_data (l sk)));
  uc_new_lam : a_lamports (l' k) = Z.max (rent_min E PENDING_LEN) (a_lamports (l k))
}.

Lemma byte_is_u8 b : is_u8 (byte_to_Z b).
Proof. destruct b; vm_compute; split; congruence. Qed.

Theorem pool_unstake C E l sk vk P accs x i l' evs :
  pool C l sk vk P -> is_u64 x -> is_u8 i -> sysvars_ok E -> honest_metas C accs ->
  unstake_process C E accs l x i = Ok (l', evs) ->
  exists un st pd ux xm om v sp tp w b sd1,
    unstake_pre C E accs l x i un st pd ux xm om v sp tp w b sd1 /\
    m_key st = sk /\ m_key v = vk /\ ~ In (m_key pd) P /\
    pool C l' sk vk (m_key pd :: P) /\
    unstake_change E l l' sk vk (m_key un) (m_key pd) P x i w b /\
    evs = [event_bytes (unstake_event l sk vk x i w)].
Proof.
  intros HP Hx Hi HE Hh H. apply unstake_inv in H; [|assumption..|now apply sysvars_env|exact Hh].
  destruct H as (un & st & pd & ux & xm & om & v & sp & tp & w & b & sd1 & Pre & Hw & Hwu & Hl & ->).
  exists un, st, pd, ux, xm, om, v, sp, tp, w, b, sd1. split; [exact Pre|].
  assert (Est : m_key st = sk).
  { eapply pool_state_is; [exact HP|apply Pre|apply Pre]. }
  assert (Evk : m_key v = vk).
  { rewrite (up_v_key _ _ _ _ _ _ _ _ _ _ _ _ _ _ _ _ _ _ Pre), Est. eapply pool_vault_is, HP. }
  split; [exact Est|]. split; [exact Evk|]. rewrite Est, Evk in *.
  assert (Hun : ~ program_signs_for C (m_key un)).
  { apply Hh; [|apply Pre]. eapply nth_error_In, (ua0 _ _ _ _ _ _ _ _ _ _ (up_accs _ _ _ _ _ _ _ _ _ _ _ _ _ _ _ _ _ _ Pre)). }
  destruct Pre. rewrite Est, Evk in *.
  set (pk := m_key pd) in *. set (uk := m_key un) in *. set (uxk := m_key ux) in *.
  pose proof (pool_ne _ _ _ _ _ HP) as (N1 & N2 & N3 & N4 & N5).
  assert (Ppk : program_signs_for C pk) by (eapply find_is_pda; exact up_pd_find).
  assert (Nup : uk <> pk) by (intros Q; rewrite Q in Hun; contradiction).
  assert (Np : forall k o, a_owner (l k) = o -> o <> system_id -> k <> pk)
    by (intros k o K1 K2 ->; congruence).
  assert (Hnp : ~ In pk P).
  { intros Q. apply (po_records _ _ _ _ _ HP) in Q. destruct Q as [Q _ _ _ _ _].
    rewrite Q in up_pd_owner. now apply xorca_ne_system in up_pd_owner. }
  split; [exact Hnp|].
  assert (So : a_owner (l sk) = xorca_id) by apply HP.
  assert (Vo : a_owner (l vk) = token_id) by apply up_v.
  assert (Mo : a_owner (l xorca_mint_id) = token_id) by apply up_xm_live.
  assert (Uo : a_owner (l uxk) = token_id) by apply up_ux_live.
  assert (Vp : vk <> pk) by (apply (Np _ _ Vo), token_ne_system).
  assert (Sp : sk <> pk) by (apply (Np _ _ So), xorca_ne_system).
  assert (Mp : xorca_mint_id <> pk) by (apply (Np _ _ Mo), token_ne_system).
  assert (Op : orca_mint_id <> pk) by (apply (Np _ _ up_om_owner), token_ne_system).
  assert (Up : uxk <> pk) by (apply (Np _ _ Uo), token_ne_system).
  assert (D1 : xorca_mint_id <> uxk) by (eapply mint_ne_ta; eassumption).
  assert (D2 : orca_mint_id <> uxk) by (eapply mint_ne_ta; [apply HP|assumption]).
  assert (D3 : vk <> uxk).
  { eapply orca_ne_xorca; [apply (po_vault _ _ _ _ _ HP)|assumption]. }
  assert (D4 : sk <> uxk) by (eapply xorca_owned_ne; eassumption).
  assert (D7 : orca_mint_id <> xorca_mint_id) by apply ids_distinct.
  set (need := rent_need E l pk PENDING_LEN).
  set (L1 := set_data (burned l uxk xorca_mint_id x sd1) sk
               (set_escrow (st_escrow (a_data (l sk)) + w) (a_data (l sk)))).
  assert (L1o : forall k, a_owner (L1 k) = a_owner (l k))
    by (intros; unfold L1; autorewrite with ledger; apply burned_owner).
  assert (L1l : forall k, a_lamports (L1 k) = a_lamports (l k))
    by (intros; unfold L1; autorewrite with ledger; apply burned_lamports).
  assert (L1n : rent_need E L1 pk PENDING_LEN = need) by (apply rent_need_ext, L1l).
  assert (Hpk : l' pk = Account (a_lamports (l pk) + need) xorca_id
            (pending_bytes (byte_to_Z b) i uk w (now E + st_cooldown (a_data (l sk))))).
  { rewrite (Hl pk). unfold unstake_effect. fold L1. rewrite set_data_same, created_same.
    cbn [a_lamports a_owner]. now rewrite L1l, L1n. }
  assert (Hk : forall k, k <> pk -> a_owner (l' k) = a_owner (l k) /\ a_data (l' k) = a_data (L1 k) /\
            a_lamports (l' k) = a_lamports (l k) - (if key_eqb uk k then need else 0)).
  { intros k K. rewrite (Hl k). unfold unstake_effect. fold L1. rewrite set_data_other by congruence.
    destruct (created_other E L1 uk pk PENDING_LEN xorca_id k) as (A & B & D); [congruence|].
    rewrite A, B, D, L1o, L1l, L1n. auto. }
  assert (Hown : forall k, k <> pk -> a_owner (l' k) = a_owner (l k)) by (intros k K; apply Hk, K).
  assert (Hoth : forall k, k <> pk -> k <> uxk -> k <> xorca_mint_id -> k <> sk ->
            a_data (l' k) = a_data (l k)).
  { intros k K1 K2 K3 K4. destruct (Hk k K1) as (_ & -> & _). unfold L1.
    rewrite set_data_other by congruence. now rewrite burned_other. }
  assert (Hneed : 0 <= need) by (unfold need, rent_need; lia).
  assert (Hfund : need <= a_lamports (l uk) \/ need = 0).
  { destruct (Z.eq_dec need 0) as [Q|Q]; [now right|left].
    destruct up_fund as (_ & F & _); [right; fold need; lia|exact F]. }
  assert (Hlam : forall k, k <> pk -> a_owner (l k) <> system_id -> a_lamports (l' k) = a_lamports (l k)).
  { intros k K1 K2. destruct (Hk k K1) as (_ & _ & ->). destruct (key_eqb uk k) eqn:Q; [|lia].
    apply key_eqb_true in Q. subst k. destruct (Z.eq_dec need 0) as [->|Q]; [lia|].
    destruct up_fund as (_ & _ & F & _); [right; fold need; lia|]. rewrite F in K2; [congruence|].
    fold need. lia. }
  assert (Hsd : a_data (l' sk) = set_escrow (st_escrow (a_data (l sk)) + w) (a_data (l sk))).
  { destruct (Hk sk Sp) as (_ & -> & _). unfold L1. apply upd_data_same. }
  assert (Hxd : a_data (l' xorca_mint_id) =
                set_supply (mint_supply (a_data (l xorca_mint_id)) - x) (a_data (l xorca_mint_id))).
  { destruct (Hk xorca_mint_id Mp) as (_ & -> & _). unfold L1.
    rewrite set_data_other by congruence. unfold burned. apply upd_data_same. }
  assert (Hvd : a_data (l' vk) = a_data (l vk)) by (apply Hoth; congruence).
  pose proof (u64_le_le _ Hx) as Rx.
  assert (Hsu : is_u64 (mint_supply (a_data (l xorca_mint_id)) - x)).
  { pose proof (mint_supply_range (a_data (l xorca_mint_id))). unfold is_u64, u64_max in *. lia. }
  destruct (mint_ok_supply l l' xorca_mint_id sk _ (po_mint _ _ _ _ _ HP) Hsu (Hown _ Mp) Hxd) as [M1 M2].
  assert (Hesc : is_u64 (st_escrow (a_data (l sk)) + w)).
  { pose proof (get_u64_range 8 (a_data (l sk))). unfold st_escrow, is_u64, u64_max in *. lia. }
  assert (L : (2048 <= length (a_data (l sk)))%nat) by (rewrite (po_slen _ _ _ _ _ HP); lia).
  destruct (set_escrow_same _ _ L Hesc) as [Es1 Es2]. rewrite <- Hsd in Es1, Es2. destruct Es2.
  assert (HR : recs_kept P l l').
  { intros k K. pose proof (po_records _ _ _ _ _ HP k K) as R.
    pose proof (ro_owner _ _ _ R) as Ro.
    assert (Kp : k <> pk) by (intros ->; contradiction).
    split; [now apply Hown|]. split.
    - apply Hoth; try assumption; intros ->; pose proof xt_ne; try congruence.
      now apply (pool_state_not_record _ _ _ _ _ HP).
    - rewrite Hlam; [lia|assumption|]. rewrite Ro. apply xorca_ne_system. }
  assert (Hpd : a_data (l' pk) = pending_bytes (byte_to_Z b) i uk w (now E + st_cooldown (a_data (l sk))))
    by (now rewrite Hpk).
  destruct (pending_bytes_fields (byte_to_Z b) i uk w (now E + st_cooldown (a_data (l sk))))
    as (P1 & P2 & P3 & P4 & P5 & P6); [apply byte_is_u8|assumption..|].
  rewrite <- Hpd in P1, P2, P3, P4, P5, P6.
  assert (Hpl : a_lamports (l' pk) = Z.max (rent_min E PENDING_LEN) (a_lamports (l pk))).
  { rewrite Hpk. cbn [a_lamports]. unfold need, rent_need. lia. }
  split; [|split; [|reflexivity]].
  2:{ constructor; auto. }
  destruct HP. constructor; rewrite ?sse_len, ?sse_disc, ?sse_bump, ?sse_vbump, ?sse_cooldown; auto.
  - intros k. destruct (key_eq_dec k pk) as [->|K].
    + rewrite Hpk. cbn [a_lamports]. pose proof (po_lam pk). lia.
    + destruct (Hk k K) as (_ & _ & ->). pose proof (po_lam k).
      destruct (key_eqb uk k) eqn:Q; [|lia]. apply key_eqb_true in Q. subst k. lia.
  - rewrite Hown by assumption. assumption.
  - rewrite Hlam; [assumption|assumption|]. rewrite po_state. apply xorca_ne_system.
  - apply (vault_ok_ext l); auto.
  - rewrite Hlam; [assumption|assumption|]. rewrite Vo. apply token_ne_system.
  - rewrite Hlam; [assumption|assumption|]. rewrite Mo. apply token_ne_system.
  - unfold mint_live. rewrite Hown, Hoth by congruence. exact po_orca.
  - rewrite Hlam; [assumption|assumption|]. rewrite up_om_owner. apply token_ne_system.
  - now constructor.
  - intros k [<-|K].
    + constructor.
      * now rewrite Hpk.
      * rewrite Hpd. apply pending_bytes_length.
      * exact P1.
      * rewrite P2, P3, P4, byte_round. exact up_pd_find.
      * rewrite Hpl. pose proof (proj2 HE PENDING_LEN ltac:(unfold PENDING_LEN; lia)). lia.
      * unfold claim. rewrite P5. exact Hw.
    + destruct (HR k K) as (R1 & R2 & R3). eapply record_ok_ext; eauto.
  - intros k K. destruct (key_eq_dec k pk) as [->|Kp]; [right; left; now left|].
    rewrite Hown in K by exact Kp. destruct (po_only k K) as [Q|[Q|Q]]; [auto|right; left; now right|].
    destruct (key_eq_dec k sk) as [->|Ks]; [auto|].
    do 2 right. rewrite Hoth; auto; intros ->; pose proof xt_ne; congruence.
  - intros k K. destruct (key_eq_dec k pk) as [->|Kp]; [right; right; left; now left|].
    destruct (po_pdas k K) as [Q|[Q|[Q|[Q1 Q2]]]]; [auto|auto|do 2 right; left; now right|].
    do 3 right. rewrite Hown by exact Kp. split; [assumption|].
    pose proof token_ne_system. pose proof xorca_ne_system.
    rewrite Hoth; auto; intros ->; congruence.
  - cbn [map]. change (sumZ (claim l' pk :: map (claim l') P))
      with (claim l' pk + sumZ (map (claim l') P)).
    rewrite (claims_kept _ _ _ HR), Es1. unfold claim at 1. rewrite P5. lia.
  - rewrite Hvd, M2, Es1.
    pose proof (non_escrowed_range l vk sk up_backed) as Rn.
    pose proof (mint_supply_range (a_data (l xorca_mint_id))) as Rs.
    apply xorca_to_orca_ok in up_quote; auto. destruct up_quote as (_ & _ & _ & ->).
    pose proof (redeem_keeps_solvent x (non_escrowed l vk sk) (mint_supply (a_data (l xorca_mint_id)))).
    unfold non_escrowed in *. lia.
  - assert (HB : tok_bounded (burned l uxk xorca_mint_id x sd1) xorca_mint_id).
    { apply bounded_burned; auto; try lia. eapply burn_auth_same; [|eassumption].
      apply ta_wf_len, up_ux_live. }
    apply (tok_bounded_frame (burned l uxk xorca_mint_id x sd1)); [| | |exact HB].
    + rewrite Hown, burned_owner by assumption. reflexivity.
    + rewrite Hxd. unfold burned. symmetry. apply upd_data_same.
    + intros k K1 K2 K3. assert (Kp : k <> pk).
      { intros ->. rewrite Hpk in K1. cbn [a_owner] in K1. now apply xt_ne in K1. }
      assert (Ks : k <> sk).
      { intros ->. rewrite Hown, So in K1 by assumption. now apply xt_ne in K1. }
      rewrite burned_owner, <- Hown by assumption. split; [assumption|].
      destruct (Hk k Kp) as (_ & -> & _). unfold L1. now rewrite set_data_other by congruence.
Qed.

(** ** Withdraw *)
Lemma vault_ok_amount l l' k mint sk v :
  vault_ok l k mint sk -> is_u64 v -> a_owner (l' k) = a_owner (l k) ->
  a_data (l' k) = set_amount v (a_data (l k)) ->
  vault_ok l' k mint sk /\ ta_amount (a_data (l' k)) = v.
Proof.
  intros [] Hv Ho Hd. pose proof (ta_wf_len _ vo_wf) as L.
  destruct (set_amount_same (a_data (l k)) v L Hv) as
    (F1 & F2 & F3 & F4 & F5 & F6 & F7 & F8 & F9 & F10 & F11).
  split; [|congruence]. constructor; rewrite ?Ho, ?Hd; congruence.
Qed.

Record withdraw_change (l l' : ledger) (sk vk k : pubkey) (P : list pubkey) : Prop := {
  wc_state : a_data (l' sk) = set_escrow (st_escrow (a_data (l sk)) - claim l k) (a_data (l sk));
  wc_escrow : st_escrow (a_data (l' sk)) = st_escrow (a_data (l sk)) - claim l k;
  wc_vault : ta_amount (a_data (l' vk)) = ta_amount (a_data (l vk)) - claim l k;
  wc_supply : a_data (l' xorca_mint_id) = a_data (l xorca_mint_id);
  wc_recs : recs_kept (remove key_eq_dec k P) l l';
  wc_closed : l' k = Account 0 system_id []
}.

Theorem pool_withdraw C E l sk vk P accs i l' evs :
  pool C l sk vk P -> is_u8 i -> honest_metas C accs ->
  withdraw_process C E accs l i = Ok (l', evs) ->
  exists un st pd uo v om sp tp vd1,
    withdraw_pre C E accs l i un st pd uo v om sp tp vd1 /\
    m_key st = sk /\ m_key v = vk /\ In (m_key pd) P /\
    pool C l' sk vk (remove key_eq_dec (m_key pd) P) /\
    withdraw_change l l' sk vk (m_key pd) P /\
    leq l' (withdraw_effect l (m_key un) sk (m_key pd) (m_key uo) vk vd1) /\
    evs = [event_bytes (withdraw_event l sk (m_key pd) i)].
Proof.
  intros HP Hi Hh H. apply withdraw_inv in H; [|assumption|exact Hh].
  destruct H as (un & st & pd & uo & v & om & sp & tp & vd1 & Pre & Hne & _ & Hl & _ & _ & ->).
  exists un, st, pd, uo, v, om, sp, tp, vd1. split; [exact Pre|].
  assert (Est : m_key st = sk).
  { eapply pool_state_is; [exact HP|apply Pre|apply Pre]. }
  assert (Evk : m_key v = vk).
  { rewrite (wp_v_key _ _ _ _ _ _ _ _ _ _ _ _ _ _ Pre), Est. eapply pool_vault_is, HP. }
  split; [exact Est|]. split; [exact Evk|]. rewrite Est, Evk in *.
  assert (Hun : ~ program_signs_for C (m_key un)).
  { apply Hh; [|apply Pre]. eapply nth_error_In, (wa0 _ _ _ _ _ _ _ _ _ (wp_accs _ _ _ _ _ _ _ _ _ _ _ _ _ _ Pre)). }
  destruct Pre. rewrite Est, Evk in *.
  specialize (Hl (vo_native _ _ _ _ (po_vault _ _ _ _ _ HP))).
  set (pk := m_key pd) in *. set (uk := m_key un) in *. set (uok := m_key uo) in *.
  pose proof (pool_ne _ _ _ _ _ HP) as (N1 & N2 & N3 & N4 & N5).
  assert (Hin : In pk P).
  { apply (pool_record_is _ _ _ _ _ _ HP). split; [assumption|apply wp_pd_shape]. }
  split; [exact Hin|].
  assert (Hvd1 : vd1 = a_data (l vk)).
  { rewrite spend_auth_no_delegate in wp_v_auth by apply (po_vault _ _ _ _ _ HP).
    inv_bind wp_v_auth u. congruence. }
  subst vd1.
  assert (Nup : uk <> pk).
  { intros Q. rewrite Q in Hun. apply Hun. eapply record_pda. apply (po_records _ _ _ _ _ HP), Hin. }
  assert (Nsp : sk <> pk).
  { intros Q. apply (pool_state_not_record _ _ _ _ _ HP). now rewrite Q. }
  assert (Vo : a_owner (l vk) = token_id) by apply wp_v_live.
  assert (Uo : a_owner (l uok) = token_id) by apply wp_uo_live.
  assert (Mo : a_owner (l xorca_mint_id) = token_id) by apply HP.
  assert (Vp : vk <> pk) by (apply not_eq_sym; eapply xorca_owned_ne; eassumption).
  assert (Up : uok <> pk) by (apply not_eq_sym; eapply xorca_owned_ne; eassumption).
  assert (Us : uok <> sk) by (apply not_eq_sym; eapply xorca_owned_ne; eassumption).
  assert (Mp : xorca_mint_id <> pk) by (apply not_eq_sym; eapply xorca_owned_ne; eassumption).
  assert (Op : orca_mint_id <> pk) by (apply not_eq_sym; eapply xorca_owned_ne; eassumption).
  assert (Mu : xorca_mint_id <> uok) by (eapply mint_ne_ta; [apply HP|assumption]).
  assert (Ou : orca_mint_id <> uok) by (eapply mint_ne_ta; [apply HP|assumption]).
  set (c := claim l pk) in *.
  set (T := transferred l vk uok c (a_data (l vk))) in *.
  assert (To : forall k, a_owner (T k) = a_owner (l k)) by (intros; apply transferred_owner).
  assert (Tl : forall k, a_lamports (T k) = a_lamports (l k)) by (intros; apply transferred_lamports).
  assert (Hpk : l' pk = Account 0 system_id []).
  { rewrite (Hl pk). unfold withdraw_effect. rewrite set_data_other by assumption. apply upd_same. }
  assert (Hk : forall k, k <> pk ->
            a_owner (l' k) = a_owner (l k) /\
            a_lamports (l' k) = a_lamports (l k) + (if key_eqb uk k then a_lamports (l pk) else 0) /\
            (k <> sk -> a_data (l' k) = a_data (T k))).
  { intros k K. rewrite (Hl k). unfold withdraw_effect. fold c T. autorewrite with ledger.
    rewrite upd_other by congruence. autorewrite with ledger. split; [apply To|]. split.
    - destruct (key_eqb uk k) eqn:Q.
      + apply key_eqb_true in Q. subst k. rewrite set_lamports_same_lamports. reflexivity.
      + apply key_eqb_false in Q. rewrite set_lamports_other by exact Q. rewrite Tl. lia.
    - intros Ks. rewrite set_data_other by congruence. rewrite upd_other by congruence.
      now autorewrite with ledger. }
  assert (Hown : forall k, k <> pk -> a_owner (l' k) = a_owner (l k)) by (intros k K; apply Hk, K).
  assert (Hlam : forall k, k <> pk -> a_lamports (l k) <= a_lamports (l' k)).
  { intros k K. destruct (Hk k K) as (_ & -> & _). pose proof (po_lam _ _ _ _ _ HP pk).
    destruct (key_eqb uk k); lia. }
  assert (Hoth : forall k, k <> pk -> k <> sk -> k <> vk -> k <> uok -> a_data (l' k) = a_data (l k)).
  { intros k K1 K2 K3 K4. destruct (Hk k K1) as (_ & _ & ->); [|assumption]. unfold T.
    now rewrite transferred_data_other. }
  assert (Hsd : a_data (l' sk) = set_escrow (st_escrow (a_data (l sk)) - c) (a_data (l sk))).
  { rewrite (Hl sk). unfold withdraw_effect. apply upd_data_same. }
  assert (Hvd : a_data (l' vk) = set_amount (ta_amount (a_data (l vk)) - c) (a_data (l vk))).
  { destruct (Hk vk Vp) as (_ & _ & ->); [|congruence]. unfold T, transferred.
    rewrite set_data_other by congruence. apply upd_data_same. }
  assert (Hc : is_u64 c) by (apply get_u64_range).
  assert (Hva : is_u64 (ta_amount (a_data (l vk)) - c)).
  { pose proof (ta_amount_range (a_data (l vk))). unfold is_u64 in *. lia. }
  destruct (vault_ok_amount l l' vk orca_mint_id sk _ (po_vault _ _ _ _ _ HP) Hva (Hown _ Vp) Hvd)
    as [V1 V2].
  assert (Hesc : is_u64 (st_escrow (a_data (l sk)) - c)).
  { pose proof (get_u64_range 8 (a_data (l sk))). unfold st_escrow, is_u64 in *. lia. }
  assert (L : (2048 <= length (a_data (l sk)))%nat) by (rewrite (po_slen _ _ _ _ _ HP); lia).
  destruct (set_escrow_same _ _ L Hesc) as [Es1 Es2]. rewrite <- Hsd in Es1, Es2. destruct Es2.
  assert (HR : recs_kept (remove key_eq_dec pk P) l l').
  { intros k K. apply in_remove in K. destruct K as [K Kp].
    pose proof (po_records _ _ _ _ _ HP k K) as R. pose proof (ro_owner _ _ _ R) as Ro.
    split; [now apply Hown|]. split; [|now apply Hlam].
    apply Hoth; try assumption; intros ->; pose proof xt_ne; try congruence.
    now apply (pool_state_not_record _ _ _ _ _ HP). }
  split; [|split; [|split; [exact Hl|reflexivity]]].
  2:{ constructor; auto. }
  assert (Hsum : sumZ (map (claim l) P) = c + sumZ (map (claim l) (remove key_eq_dec pk P)))
    by (apply sum_remove; [apply HP|exact Hin]).
  destruct HP. constructor; rewrite ?sse_len, ?sse_disc, ?sse_bump, ?sse_vbump, ?sse_cooldown; auto.
  - intros k. destruct (key_eq_dec k pk) as [->|K].
    + rewrite Hpk. cbn. lia.
    + pose proof (Hlam k K). pose proof (po_lam k). lia.
  - rewrite Hown by assumption. assumption.
  - pose proof (Hlam sk Nsp). lia.
  - pose proof (Hlam vk Vp). lia.
  - apply (mint_ok_ext l); auto.
  - pose proof (Hlam xorca_mint_id Mp). lia.
  - unfold mint_live. rewrite Hown, Hoth by congruence. exact po_orca.
  - pose proof (Hlam orca_mint_id Op). lia.
  - now apply NoDup_remove_key.
  - intros k K. destruct (HR k K) as (R1 & R2 & R3). apply in_remove in K.
    eapply record_ok_ext; eauto. now apply po_records.
  - intros k K. destruct (key_eq_dec k pk) as [->|Kp].
    { rewrite Hpk in K. cbn in K. symmetry in K. now apply xorca_ne_system in K. }
    rewrite Hown in K by exact Kp. destruct (po_only k K) as [Q|[Q|Q]]; [auto| |].
    + right. left. now apply in_in_remove.
    + destruct (key_eq_dec k sk) as [->|Ks]; [auto|].
      do 2 right. rewrite Hoth; auto; intros ->; pose proof xt_ne; congruence.
  - intros k K. destruct (key_eq_dec k pk) as [->|Kp]; [do 3 right; now rewrite Hpk|].
    destruct (po_pdas k K) as [Q|[Q|[Q|[Q1 Q2]]]]; [auto|auto|do 2 right; left; now apply in_in_remove|].
    do 3 right. rewrite Hown by exact Kp. split; [assumption|].
    pose proof token_ne_system. pose proof xorca_ne_system.
    rewrite Hoth; auto; intros ->; congruence.
  - rewrite (claims_kept _ _ _ HR), Es1. lia.
  - rewrite V2, Es1. rewrite (Hoth xorca_mint_id) by congruence. lia.
  - assert (HT : tok_bounded T xorca_mint_id).
    { apply bounded_transferred; auto.
      - pose proof (u64_le_le _ Hc). lia.
      - congruence.
      - apply same_but_delegate_refl. }
    apply (tok_bounded_frame T); [| | |exact HT].
    + rewrite Hown, To by assumption. reflexivity.
    + destruct (Hk _ Mp) as (_ & _ & D). apply D. congruence.
    + intros k K1 K2 K3. assert (Kp : k <> pk).
      { intros ->. rewrite Hpk in K1. cbn [a_owner] in K1. symmetry in K1. now apply token_ne_system in K1. }
      assert (Ks : k <> sk).
      { intros ->. rewrite Hown, po_state in K1 by assumption. now apply xt_ne in K1. }
      rewrite To, <- Hown by assumption. split; [assumption|]. apply Hk; assumption.
Qed.
