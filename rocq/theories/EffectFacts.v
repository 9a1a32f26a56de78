(** Exact effects of the calls, for every ledger and account list. *)
From Verif Require Import Spec BytesFacts FieldFacts LedgerFacts TokenFacts ParseFacts CpiFacts
  AssertFacts LayoutFacts MathFacts Economics StakeFacts UnstakeFacts WithdrawFacts SetFacts InitFacts
  CodecFacts Totals HistoryFacts LifeFacts Pool PoolStake PoolUnstake.

(** ** Byte ranges *)
Lemma same_refl rs d : same_bytes_except rs d d.
Proof. split; auto. Qed.

Lemma same_splice off (new d : list byte) rs :
  (off + length new <= length d)%nat -> In (off, length new) rs -> same_bytes_except rs d (splice off new d).
Proof.
  intros Hl Hin. split; [now apply splice_length|]. intros i Hi. specialize (Hi _ _ Hin).
  unfold splice. destruct (Nat.lt_ge_cases i off) as [H|H].
  - rewrite nth_error_app1 by (rewrite firstn_length; lia).
    rewrite <- (firstn_skipn off d) at 2. rewrite nth_error_app1 by (rewrite firstn_length; lia). reflexivity.
  - rewrite nth_error_app2 by (rewrite firstn_length; lia).
    rewrite firstn_length, Nat.min_l by lia.
    rewrite nth_error_app2 by lia.
    rewrite <- (firstn_skipn (off + length new) d) at 2.
    rewrite nth_error_app2 by (rewrite firstn_length; lia).
    rewrite firstn_length, Nat.min_l by lia. f_equal. lia.
Qed.

Lemma same_trans rs a b c : same_bytes_except rs a b -> same_bytes_except rs b c -> same_bytes_except rs a c.
Proof.
  intros [L1 H1] [L2 H2]. split; [congruence|]. intros i Hi. rewrite H2, H1; auto.
Qed.

Lemma same_u64 off v d rs :
  (off + 8 <= length d)%nat -> In (off, 8%nat) rs -> same_bytes_except rs d (set_u64 off v d).
Proof.
  intros Hl Hin. unfold set_u64. apply same_splice; rewrite le_enc_length; assumption.
Qed.
Lemma same_u32 off v d rs :
  (off + 4 <= length d)%nat -> In (off, 4%nat) rs -> same_bytes_except rs d (set_u32 off v d).
Proof.
  intros Hl Hin. unfold set_u32. apply same_splice; rewrite le_enc_length; assumption.
Qed.
Lemma same_key off v d rs :
  (off + 32 <= length d)%nat -> In (off, 32%nat) rs -> same_bytes_except rs d (set_key off v d).
Proof.
  intros Hl Hin. unfold set_key. apply same_splice; rewrite key_bytes_length; assumption.
Qed.

Lemma spend_fields_ok l sg ex k a n d1 v :
  length (a_data (l k)) = 165%nat ->
  spend_auth l sg ex (a_data (l k)) a n true = Ok d1 ->
  same_bytes_except (spend_fields l k a) (a_data (l k)) (set_amount v d1).
Proof.
  intros Hl H. pose proof (spend_auth_same _ _ _ _ _ _ _ _ Hl H) as S. destruct S as [SL _ _ _ _ _ _ _ _ _].
  apply same_trans with d1.
  2:{ apply same_u64; [lia|]. unfold spend_fields. destruct (ta_has_delegate _ _); now left. }
  unfold spend_fields, spend_auth in *. destruct (ta_has_delegate (a_data (l k)) a).
  - inv_bind H u1. inv_bind H u2. injection H as <-.
    set (d := a_data (l k)) in *.
    assert (A : same_bytes_except [amount_field; delegate_tag; allowance_field] d
                  (set_u64 121 (ta_delegated d - n) d)).
    { apply same_u64; [lia|]. cbn. auto. }
    destruct (_ =? 0); [|exact A]. eapply same_trans; [exact A|].
    apply same_u32; [|cbn; auto]. rewrite set_u64_length by lia. lia.
  - inv_bind H u. injection H as <-. apply same_refl.
Qed.

Lemma burn_fields_ok l sg ex k a n d1 v :
  length (a_data (l k)) = 165%nat ->
  burn_auth l sg ex (a_data (l k)) a n = Ok d1 ->
  same_bytes_except (spend_fields l k a) (a_data (l k)) (set_amount v d1).
Proof.
  intros Hl H. unfold burn_auth in H. destruct (system_or_incinerator _).
  - injection H as <-. apply same_u64; [lia|]. unfold spend_fields. destruct (ta_has_delegate _ _); now left.
  - eapply spend_fields_ok; eassumption.
Qed.

Lemma amount_of_write d1 d v :
  same_but_delegate d d1 -> length d = 165%nat -> is_u64 v -> ta_amount (set_amount v d1) = v.
Proof. intros [] L Hv. apply set_amount_same; [lia|assumption]. Qed.

Lemma ta_live_token l k mint owner : ta_live l k -> ta_mint (a_data (l k)) = mint ->
  ta_owner (a_data (l k)) = owner -> token_account_of l k mint owner.
Proof.
  intros (H1 & H2 & H3) H4 H5. repeat split; auto. apply ta_unpack_ok. split; [assumption|]. lia.
Qed.

(** ** Stake (C14, C15) *)
Lemma stake_exact C l E accs data a l' evs :
  honest_metas C accs -> encodes data (Stake a) ->
  process_instruction C E xorca_id accs l data = Ok (l', evs) ->
  exists staker vk so sx sk m,
    signed_slot accs 0 staker /\ slot accs 1 vk /\ slot accs 2 so /\ slot accs 3 sx /\ slot accs 5 sk /\
    is_state l sk /\
    token_account_of l so orca_mint_id staker /\ token_account_of l sx xorca_mint_id staker /\
    token_account_of l vk orca_mint_id sk /\
    (supply l = 0 \/ free_orca l sk vk = 0 -> m = a) /\
    (supply l <> 0 -> free_orca l sk vk <> 0 -> m = a * (supply l + 100) / (free_orca l sk vk + 100)) /\
    0 < m /\
    NoDup [so; vk; sx; xorca_mint_id] /\
    balance l' so = balance l so - a /\ balance l' vk = balance l vk + a /\
    balance l' sx = balance l sx + m /\ supply l' = supply l + m /\
    same_bytes_except (spend_fields l so staker) (a_data (l so)) (a_data (l' so)) /\
    same_bytes_except [amount_field] (a_data (l vk)) (a_data (l' vk)) /\
    same_bytes_except [amount_field] (a_data (l sx)) (a_data (l' sx)) /\
    same_bytes_except [supply_field] (a_data (l xorca_mint_id)) (a_data (l' xorca_mint_id)) /\
    (forall k, a_owner (l' k) = a_owner (l k)) /\
    (forall k, ~ In k [so; vk; sx; xorca_mint_id] -> a_data (l' k) = a_data (l k)) /\
    (ordinary l so -> forall k, a_lamports (l' k) = a_lamports (l k)) /\
    evs = [event_bytes (EvStake a (balance l' vk) (escrow l' sk) (supply l') m)].
Proof.
  intros Hh He H. pose proof (proj1 He) as Ha. cbn in Ha. apply (honest_call _ _ _ _ _ _ _ _ He) in H.
  apply stake_inv in H; [|exact Ha|exact Hh].
  destruct H as (staker & vault & so & sx & xm & st & om & tp & m & sd1 & Pre & Hm & Hmu & Hne & Hd &
                 _ & Hl & Hln & ->).
  destruct Pre. destruct sp_accs.
  exists (m_key staker), (m_key vault), (m_key so), (m_key sx), (m_key st), m.
  set (sk := m_key st) in *. set (vk := m_key vault) in *.
  set (sok := m_key so) in *. set (sxk := m_key sx) in *. set (un := m_key staker) in *.
  assert (D1 : xorca_mint_id <> sok) by (eapply mint_ne_ta; eassumption).
  assert (D2 : xorca_mint_id <> sxk) by (eapply mint_ne_ta; eassumption).
  assert (D2' : xorca_mint_id <> vk) by (eapply mint_ne_ta; eassumption).
  assert (D3 : vk <> sxk) by (eapply orca_ne_xorca; eassumption).
  assert (D4 : sok <> sxk) by (eapply orca_ne_xorca; eassumption).
  assert (Ds : forall k, a_owner (l k) = token_id -> sk <> k) by (intros; eapply xorca_owned_ne; eassumption).
  pose proof (ta_amount_range (a_data (l sok))) as R1. pose proof (ta_amount_range (a_data (l vk))) as R2.
  pose proof (ta_amount_range (a_data (l sxk))) as R3. pose proof (mint_supply_range (a_data (l xorca_mint_id))) as R4.
  assert (Lso : length (a_data (l sok)) = 165%nat) by apply ta_wf_len, sp_so_live.
  assert (Lsx : length (a_data (l sxk)) = 165%nat) by apply ta_wf_len, sp_sx_live.
  assert (Lv : length (a_data (l vk)) = 165%nat) by apply ta_wf_len, sp_v_live.
  assert (Lm : length (a_data (l xorca_mint_id)) = 82%nat) by apply mint_wf_len, sp_xm_live.
  pose proof (spend_auth_same _ _ _ _ _ _ _ _ Lso sp_so_auth) as Sd.
  assert (Hown : forall k, a_owner (l' k) = a_owner (l k)).
  { intros k. destruct (Hd k) as [_ ->]. unfold stake_effect. autorewrite with ledger.
    apply transferred_owner. }
  assert (Hoth : forall k, k <> sok -> k <> vk -> k <> sxk -> k <> xorca_mint_id ->
            a_data (l' k) = a_data (l k)).
  { intros k K1 K2 K3 K4. destruct (Hd k) as [-> _]. unfold stake_effect.
    rewrite !set_data_other by congruence. now rewrite transferred_data_other. }
  assert (Hvd : a_data (l' vk) = set_amount (ta_amount (a_data (l vk)) + a) (a_data (l vk))).
  { destruct (Hd vk) as [-> _]. unfold stake_effect. rewrite !set_data_other by congruence.
    unfold transferred. apply upd_data_same. }
  assert (Hsd : a_data (l' sok) = set_amount (ta_amount (a_data (l sok)) - a) sd1).
  { destruct (Hd sok) as [-> _]. unfold stake_effect. rewrite !set_data_other by congruence.
    unfold transferred. rewrite set_data_other by congruence. apply upd_data_same. }
  assert (Hsxd : a_data (l' sxk) = set_amount (ta_amount (a_data (l sxk)) + m) (a_data (l sxk))).
  { destruct (Hd sxk) as [-> _]. unfold stake_effect. rewrite set_data_other by congruence. apply upd_data_same. }
  assert (Hxd : a_data (l' xorca_mint_id) =
                set_supply (mint_supply (a_data (l xorca_mint_id)) + m) (a_data (l xorca_mint_id))).
  { destruct (Hd xorca_mint_id) as [-> _]. unfold stake_effect. apply upd_data_same. }
  assert (Hst : a_data (l' sk) = a_data (l sk)).
  { apply Hoth; apply Ds; [apply sp_so_live|apply sp_v_live|apply sp_sx_live|apply sp_xm_live]. }
  assert (Q : balance l' vk = balance l vk + a).
  { unfold balance. rewrite Hvd. apply set_amount_same; [exact Lv|]. unfold is_u64, u64_max in *. lia. }
  assert (Q2 : supply l' = supply l + m).
  { unfold supply. rewrite Hxd. apply set_supply_same; [exact Lm|]. unfold is_u64, u64_max in *. lia. }
  assert (Hq := sp_quote). apply orca_to_xorca_ok in Hq;
    [|exact Ha|apply non_escrowed_range; exact sp_backed|exact R4].
  destruct Hq as [_ Hq]. change (non_escrowed l vk sk) with (free_orca l sk vk) in Hq. fold (supply l) in Hq.
  split; [exists staker; auto|]. split; [exists vault; auto|]. split; [exists so; auto|].
  split; [exists sx; auto|]. split; [exists st; auto|].
  split; [split; [assumption|apply sp_st_shape]|].
  split; [now apply ta_live_token|]. split; [now apply ta_live_token|]. split; [now apply ta_live_token|].
  split; [intros K; destruct Hq as [[_ Hq]|(K1 & K2 & _)]; [exact Hq|lia]|].
  split; [intros K1 K2; destruct Hq as [[K _]|(_ & _ & Hq)]; [lia|exact Hq]|].
  split; [exact Hm|].
  split.
  { repeat constructor; cbn; intuition congruence. }
  split.
  { unfold balance. rewrite Hsd. eapply amount_of_write; [exact Sd|exact Lso|]. unfold is_u64 in *. lia. }
  split; [exact Q|].
  split.
  { unfold balance. rewrite Hsxd. apply set_amount_same; [exact Lsx|]. unfold is_u64, u64_max in *. lia. }
  split; [exact Q2|].
  split; [rewrite Hsd; eapply spend_fields_ok; eassumption|].
  split; [rewrite Hvd; apply same_u64; [lia|now left]|].
  split; [rewrite Hsxd; apply same_u64; [lia|now left]|].
  split; [rewrite Hxd; apply same_u64; [lia|now left]|].
  split; [exact Hown|].
  split.
  { intros k K. cbn in K. apply Hoth; intuition congruence. }
  split.
  { intros K k. rewrite Hl. unfold native_moves, ta_is_native. rewrite K. cbn. lia. }
  unfold stake_event. fold (balance l vk) (supply l). rewrite <- Q, <- Q2. unfold escrow. now rewrite Hst.
Qed.

(** ** Unstake (C14, C16, C26) *)
Lemma unstake_exact C l E accs data x i l' evs :
  sysvars_ok E -> honest_metas C accs -> encodes data (Unstake x i) ->
  process_instruction C E xorca_id accs l data = Ok (l', evs) ->
  exists un sk k ux vk w,
    signed_slot accs 0 un /\ slot accs 1 sk /\ slot accs 2 k /\ slot accs 3 ux /\ slot accs 6 vk /\
    is_state l sk /\
    token_account_of l ux xorca_mint_id un /\ reads_as_account l vk orca_mint_id sk /\
    (exists b, find_pending_withdraw_address C un i = Some (k, b)) /\
    a_owner (l k) = system_id /\ a_data (l k) = [] /\
    supply l <> 0 /\ free_orca l sk vk <> 0 /\
    w = x * (free_orca l sk vk + 100) / (supply l + 100) /\ 0 < w /\
    NoDup [ux; xorca_mint_id; sk; k; vk] /\ un <> k /\
    balance l' ux = balance l ux - x /\ supply l' = supply l - x /\
    escrow l' sk = escrow l sk + w /\ balance l' vk = balance l vk /\
    a_owner (l' k) = xorca_id /\ length (a_data (l' k)) = 1024%nat /\ is_record l' k /\
    rec_owner l' k = un /\ rec_index l' k = i /\ rec_amount l' k = w /\
    rec_time l' k = now E + cooldown l sk /\
    a_lamports (l' k) = Z.max (rent_min E 1024) (a_lamports (l k)) /\
    a_lamports (l' un) = a_lamports (l un) - Z.max 0 (rent_min E 1024 - a_lamports (l k)) /\
    same_bytes_except (spend_fields l ux un) (a_data (l ux)) (a_data (l' ux)) /\
    same_bytes_except [supply_field] (a_data (l xorca_mint_id)) (a_data (l' xorca_mint_id)) /\
    same_bytes_except [escrow_field] (a_data (l sk)) (a_data (l' sk)) /\
    (forall a, a <> k -> a_owner (l' a) = a_owner (l a)) /\
    (forall a, ~ In a [ux; xorca_mint_id; sk; k] -> a_data (l' a) = a_data (l a)) /\
    (forall a, a <> k -> a <> un -> a_lamports (l' a) = a_lamports (l a)) /\
    evs = [event_bytes (EvUnstake x (balance l' vk) (escrow l' sk) (supply l') w (cooldown l' sk) i)].
Proof.
  intros HE Hh He H. pose proof (proj1 He) as [Hx Hi]. apply (honest_call _ _ _ _ _ _ _ _ He) in H.
  apply unstake_inv in H; [|assumption..|now apply sysvars_env|exact Hh].
  destruct H as (un & st & pd & ux & xm & om & v & sp & tp & w & b & sd1 & Pre & Hw & Hwu & Hl & ->).
  assert (Hun : ~ program_signs_for C (m_key un)).
  { apply Hh; [|apply Pre]. eapply nth_error_In, (ua0 _ _ _ _ _ _ _ _ _ _ (up_accs _ _ _ _ _ _ _ _ _ _ _ _ _ _ _ _ _ _ Pre)). }
  destruct Pre. destruct up_accs.
  exists (m_key un), (m_key st), (m_key pd), (m_key ux), (m_key v), w.
  set (pk := m_key pd) in *. set (uk := m_key un) in *. set (uxk := m_key ux) in *.
  set (sk := m_key st) in *. set (vk := m_key v) in *.
  assert (Ppk : program_signs_for C pk) by (eapply find_is_pda; exact up_pd_find).
  assert (Nup : uk <> pk) by (intros Q; rewrite Q in Hun; contradiction).
  assert (Np : forall k o, a_owner (l k) = o -> o <> system_id -> k <> pk)
    by (intros k o K1 K2 ->; congruence).
  assert (So : a_owner (l sk) = xorca_id) by assumption.
  destruct up_v as (Vo & Vi & Vm & Vow).
  assert (Mo : a_owner (l xorca_mint_id) = token_id) by apply up_xm_live.
  assert (Uo : a_owner (l uxk) = token_id) by apply up_ux_live.
  assert (Vp : vk <> pk) by (apply (Np _ _ Vo), token_ne_system).
  assert (Sp : sk <> pk) by (apply (Np _ _ So), xorca_ne_system).
  assert (Mp : xorca_mint_id <> pk) by (apply (Np _ _ Mo), token_ne_system).
  assert (Up : uxk <> pk) by (apply (Np _ _ Uo), token_ne_system).
  assert (D1 : xorca_mint_id <> uxk) by (eapply mint_ne_ta; eassumption).
  assert (D4 : sk <> uxk) by (eapply xorca_owned_ne; eassumption).
  assert (D5 : sk <> xorca_mint_id) by (eapply xorca_owned_ne; eassumption).
  assert (D6 : sk <> vk) by (eapply xorca_owned_ne; eassumption).
  assert (Lux : length (a_data (l uxk)) = 165%nat) by apply ta_wf_len, up_ux_live.
  assert (Lm : length (a_data (l xorca_mint_id)) = 82%nat) by apply mint_wf_len, up_xm_live.
  assert (Ls : (2048 <= length (a_data (l sk)))%nat) by (destruct up_st_shape; unfold zlen in *; lia).
  set (need := rent_need E l pk PENDING_LEN).
  set (L1 := set_data (burned l uxk xorca_mint_id x sd1) sk
               (set_escrow (st_escrow (a_data (l sk)) + w) (a_data (l sk)))).
  assert (L1o : forall k, a_owner (L1 k) = a_owner (l k))
    by (intros; unfold L1; autorewrite with ledger; apply burned_owner).
  assert (L1l : forall k, a_lamports (L1 k) = a_lamports (l k))
    by (intros; unfold L1; autorewrite with ledger; apply burned_lamports).
  assert (L1n : rent_need E L1 pk PENDING_LEN = need) by (apply rent_need_ext, L1l).
  assert (Hpk : l' pk = Account (a_lamports (l pk) + need) xorca_id
            (pending_bytes (byte_to_Z b) i uk w (now E + st_cooldown (a_data (l sk))))).
  { rewrite (Hl pk). unfold unstake_effect. fold L1. rewrite set_data_same, created_same.
    cbn [a_lamports a_owner]. now rewrite L1l, L1n. }
  assert (Hk : forall k, k <> pk -> a_owner (l' k) = a_owner (l k) /\ a_data (l' k) = a_data (L1 k) /\
            a_lamports (l' k) = a_lamports (l k) - (if key_eqb uk k then need else 0)).
  { intros k K. rewrite (Hl k). unfold unstake_effect. fold L1. rewrite set_data_other by congruence.
    destruct (created_other E L1 uk pk PENDING_LEN xorca_id k) as (A & B & D); [congruence|].
    rewrite A, B, D, L1o, L1l, L1n. auto. }
  assert (Hoth : forall k, k <> pk -> k <> uxk -> k <> xorca_mint_id -> k <> sk ->
            a_data (l' k) = a_data (l k)).
  { intros k K1 K2 K3 K4. destruct (Hk k K1) as (_ & -> & _). unfold L1.
    rewrite set_data_other by congruence. now rewrite burned_other. }
  assert (Hsd : a_data (l' sk) = set_escrow (st_escrow (a_data (l sk)) + w) (a_data (l sk))).
  { destruct (Hk sk Sp) as (_ & -> & _). unfold L1. apply upd_data_same. }
  assert (Hxd : a_data (l' xorca_mint_id) =
                set_supply (mint_supply (a_data (l xorca_mint_id)) - x) (a_data (l xorca_mint_id))).
  { destruct (Hk xorca_mint_id Mp) as (_ & -> & _). unfold L1.
    rewrite set_data_other by congruence. unfold burned. apply upd_data_same. }
  assert (Hux : a_data (l' uxk) = set_amount (ta_amount (a_data (l uxk)) - x) sd1).
  { destruct (Hk uxk Up) as (_ & -> & _). unfold L1. rewrite set_data_other by congruence.
    unfold burned. rewrite set_data_other by congruence. apply upd_data_same. }
  pose proof (ta_amount_range (a_data (l uxk))) as R1.
  pose proof (mint_supply_range (a_data (l xorca_mint_id))) as R2.
  pose proof (u64_le_le _ Hx) as Rx.
  assert (Dv : uxk <> vk).
  { intros Q. rewrite <- Q in Vm. rewrite up_ux_mint in Vm.
    enough (xorca_mint_id <> orca_mint_id) by contradiction. apply not_eq_sym, ids_distinct. }
  assert (Dm : xorca_mint_id <> vk).
  { intros Q. destruct Vi as [Vi _]. rewrite <- Q in Vi. unfold zlen in Vi. lia. }
  assert (Hvd : a_data (l' vk) = a_data (l vk)) by (apply Hoth; congruence).
  assert (Hesc : is_u64 (st_escrow (a_data (l sk)) + w)).
  { pose proof (get_u64_range 8 (a_data (l sk))). unfold st_escrow, is_u64, u64_max in *. lia. }
  destruct (set_escrow_same _ _ Ls Hesc) as [Es1 Es2]. rewrite <- Hsd in Es1, Es2. destruct Es2.
  destruct (pending_bytes_fields (byte_to_Z b) i uk w (now E + st_cooldown (a_data (l sk))))
    as (P1 & P2 & P3 & P4 & P5 & P6); [apply byte_is_u8|assumption..|].
  assert (Hpd : a_data (l' pk) = pending_bytes (byte_to_Z b) i uk w (now E + st_cooldown (a_data (l sk))))
    by (now rewrite Hpk).
  rewrite <- Hpd in P1, P2, P3, P4, P5, P6.
  assert (Q2 : supply l' = supply l - x).
  { unfold supply. rewrite Hxd. apply set_supply_same; [exact Lm|]. unfold is_u64, u64_max in *. lia. }
  assert (Hq := up_quote). apply xorca_to_orca_ok in Hq;
    [|exact Hx|apply non_escrowed_range; exact up_backed|exact R2].
  destruct Hq as (_ & Hs0 & Hn0 & Hq). change (non_escrowed l vk sk) with (free_orca l sk vk) in Hq, Hn0.
  fold (supply l) in Hq, Hs0.
  split; [exists un; auto|]. split; [exists st; auto|]. split; [exists pd; auto|].
  split; [exists ux; auto|]. split; [exists v; auto|].
  split; [split; [assumption|apply up_st_shape]|].
  split; [now apply ta_live_token|].
  split; [repeat split; try assumption; destruct Vi; unfold zlen in *; lia|].
  split; [exists b; exact up_pd_find|]. split; [assumption|]. split; [assumption|].
  split; [assumption|]. split; [assumption|]. split; [exact Hq|]. split; [exact Hw|].
  split; [repeat constructor; cbn; intuition congruence|]. split; [exact Nup|].
  split.
  { unfold balance. rewrite Hux. eapply amount_of_write; [eapply burn_auth_same; eassumption|exact Lux|].
    unfold is_u64 in *. lia. }
  split; [exact Q2|]. split; [exact Es1|]. split; [unfold balance; now rewrite Hvd|].
  split; [rewrite Hpk; reflexivity|]. split; [rewrite Hpd; apply pending_bytes_length|].
  split; [split; [rewrite Hpk; reflexivity|exact P1]|].
  split; [assumption|]. split; [assumption|]. split; [assumption|]. split; [assumption|].
  split; [rewrite Hpk; cbn [a_lamports]; unfold need, rent_need, PENDING_LEN; lia|].
  split.
  { destruct (Hk uk Nup) as (_ & _ & ->). rewrite key_eqb_refl. unfold need, rent_need, PENDING_LEN. lia. }
  split; [rewrite Hux; eapply burn_fields_ok; eassumption|].
  split; [rewrite Hxd; apply same_u64; [lia|now left]|].
  split; [rewrite Hsd; apply same_u64; [lia|now left]|].
  split; [intros a A; apply Hk, A|].
  split; [intros a A; cbn in A; apply Hoth; intuition congruence|].
  split.
  { intros a A1 A2. destruct (Hk a A1) as (_ & _ & ->). rewrite (key_eqb_neq uk a) by congruence. lia. }
  unfold unstake_event. rewrite Q2. unfold balance. rewrite Hvd.
  change (escrow l' sk) with (st_escrow (a_data (l' sk))).
  change (cooldown l' sk) with (st_cooldown (a_data (l' sk))).
  rewrite sse_cooldown. rewrite Es1. reflexivity.
Qed.

(** ** Withdraw (C17, C26) *)
Lemma withdraw_exact C l E accs data i l' evs :
  honest_metas C accs -> encodes data (Withdraw i) ->
  process_instruction C E xorca_id accs l data = Ok (l', evs) ->
  exists un sk k uo vk,
    signed_slot accs 0 un /\ slot accs 1 sk /\ slot accs 2 k /\ slot accs 3 uo /\ slot accs 4 vk /\
    is_state l sk /\ is_record l k /\ rec_time l k <= now E /\
    k = pending_address_with_bump C un i (pw_bump (a_data (l k))) /\
    token_account_of l uo orca_mint_id un /\ token_account_of l vk orca_mint_id sk /\
    NoDup [vk; uo; sk; k] /\
    balance l' vk = balance l vk - rec_amount l k /\
    balance l' uo = balance l uo + rec_amount l k /\
    escrow l' sk = escrow l sk - rec_amount l k /\
    a_lamports (l' k) = 0 /\ a_owner (l' k) = system_id /\ a_data (l' k) = [] /\
    same_bytes_except (spend_fields l vk sk) (a_data (l vk)) (a_data (l' vk)) /\
    same_bytes_except [amount_field] (a_data (l uo)) (a_data (l' uo)) /\
    same_bytes_except [escrow_field] (a_data (l sk)) (a_data (l' sk)) /\
    (forall a, a <> k -> a_owner (l' a) = a_owner (l a)) /\
    (forall a, ~ In a [vk; uo; sk; k] -> a_data (l' a) = a_data (l a)) /\
    (ordinary l vk ->
       (un <> k -> a_lamports (l' un) = a_lamports (l un) + a_lamports (l k)) /\
       forall a, a <> k -> a <> un -> a_lamports (l' a) = a_lamports (l a)) /\
    evs = [event_bytes (EvWithdraw (escrow l' sk) (rec_amount l k) (cooldown l' sk) i)].
Proof.
  intros Hh He H. apply (honest_call _ _ _ _ _ _ _ _ He) in H.
  apply withdraw_inv in H; [|apply He|exact Hh].
  destruct H as (un & st & pd & uo & v & om & sp & tp & vd1 & Pre & Hne & Hd & _ & Hl & _ & ->).
  destruct Pre. destruct wp_accs.
  exists (m_key un), (m_key st), (m_key pd), (m_key uo), (m_key v).
  set (pk := m_key pd) in *. set (uk := m_key un) in *. set (uok := m_key uo) in *.
  set (sk := m_key st) in *. set (vk := m_key v) in *.
  assert (Vo : a_owner (l vk) = token_id) by apply wp_v_live.
  assert (Uo : a_owner (l uok) = token_id) by apply wp_uo_live.
  assert (Vp : pk <> vk) by (eapply xorca_owned_ne; eassumption).
  assert (Up : pk <> uok) by (eapply xorca_owned_ne; eassumption).
  assert (Us : sk <> uok) by (eapply xorca_owned_ne; eassumption).
  assert (Vs : sk <> vk) by (eapply xorca_owned_ne; eassumption).
  assert (Sp : sk <> pk).
  { intros Q. destruct wp_st_shape as [_ S1]. destruct wp_pd_shape as [_ S2]. rewrite Q in S1.
    unfold st_disc, pw_disc in *. lia. }
  set (c := claim l pk) in *.
  assert (Rc : is_u64 c) by (apply get_u64_range).
  assert (Luo : length (a_data (l uok)) = 165%nat) by apply ta_wf_len, wp_uo_live.
  assert (Lv : length (a_data (l vk)) = 165%nat) by apply ta_wf_len, wp_v_live.
  assert (Ls : (2048 <= length (a_data (l sk)))%nat) by (destruct wp_st_shape; unfold zlen in *; lia).
  pose proof (ta_amount_range (a_data (l vk))) as R1. pose proof (ta_amount_range (a_data (l uok))) as R2.
  pose proof (get_u64_range 8 (a_data (l sk))) as R3. change (get_u64 8 (a_data (l sk))) with (st_escrow (a_data (l sk))) in R3.
  pose proof (spend_auth_same _ _ _ _ _ _ _ _ Lv wp_v_auth) as Sd.
  assert (Hpk : a_owner (l' pk) = system_id /\ a_data (l' pk) = []).
  { destruct (Hd pk) as [-> ->]. unfold withdraw_effect. rewrite set_data_other by assumption.
    rewrite upd_same. auto. }
  assert (Hk : forall k, k <> pk -> a_owner (l' k) = a_owner (l k) /\
            (k <> sk -> a_data (l' k) = a_data (transferred l vk uok c vd1 k))).
  { intros k K. destruct (Hd k) as [-> ->]. unfold withdraw_effect. fold c. autorewrite with ledger.
    rewrite upd_other by congruence. autorewrite with ledger. split; [apply transferred_owner|].
    intros Ks. rewrite set_data_other by congruence. rewrite upd_other by congruence.
    now autorewrite with ledger. }
  assert (Hoth : forall k, k <> pk -> k <> sk -> k <> vk -> k <> uok -> a_data (l' k) = a_data (l k)).
  { intros k K1 K2 K3 K4. destruct (Hk k K1) as (_ & ->); [|assumption].
    now rewrite transferred_data_other. }
  assert (Hsd : a_data (l' sk) = set_escrow (st_escrow (a_data (l sk)) - c) (a_data (l sk))).
  { destruct (Hd sk) as [-> _]. unfold withdraw_effect. apply upd_data_same. }
  assert (Hvd : a_data (l' vk) = set_amount (ta_amount (a_data (l vk)) - c) vd1).
  { destruct (Hk vk (not_eq_sym Vp)) as (_ & ->); [|congruence]. unfold transferred.
    rewrite set_data_other by congruence. apply upd_data_same. }
  assert (Hud : a_data (l' uok) = set_amount (ta_amount (a_data (l uok)) + c) (a_data (l uok))).
  { destruct (Hk uok (not_eq_sym Up)) as (_ & ->); [|congruence]. unfold transferred. apply upd_data_same. }
  assert (Hesc : is_u64 (st_escrow (a_data (l sk)) - c)) by (unfold is_u64 in *; lia).
  destruct (set_escrow_same _ _ Ls Hesc) as [Es1 Es2]. rewrite <- Hsd in Es1, Es2. destruct Es2.
  split; [exists un; auto|]. split; [exists st; auto|]. split; [exists pd; auto|].
  split; [exists uo; auto|]. split; [exists v; auto|].
  split; [split; [assumption|apply wp_st_shape]|]. split; [split; [assumption|apply wp_pd_shape]|].
  split; [exact wp_time|]. split; [exact wp_pd_key|].
  split; [now apply ta_live_token|]. split; [now apply ta_live_token|].
  split; [repeat constructor; cbn; intuition congruence|].
  change (rec_amount l pk) with c.
  split.
  { unfold balance. rewrite Hvd. eapply amount_of_write; [exact Sd|exact Lv|]. unfold is_u64 in *. lia. }
  split.
  { unfold balance. rewrite Hud. apply set_amount_same; [exact Luo|]. unfold is_u64, u64_max in *. lia. }
  split; [exact Es1|].
  split; [rewrite Hl, key_eqb_refl; reflexivity|]. split; [apply Hpk|]. split; [apply Hpk|].
  split; [rewrite Hvd; eapply spend_fields_ok; eassumption|].
  split; [rewrite Hud; apply same_u64; [lia|now left]|].
  split; [rewrite Hsd; apply same_u64; [lia|now left]|].
  split; [intros a A; apply Hk, A|].
  split; [intros a A; cbn in A; apply Hoth; intuition congruence|].
  split.
  { intros O. assert (M : forall a, native_moves l vk uok c a = 0).
    { intros a. unfold native_moves, ta_is_native. rewrite O. reflexivity. }
    split.
    - intros N. rewrite Hl, M, key_eqb_refl, key_eqb_neq by congruence. lia.
    - intros a A1 A2. rewrite Hl, M, !key_eqb_neq by congruence. lia. }
  unfold withdraw_event. fold c.
  change (escrow l' sk) with (st_escrow (a_data (l' sk))).
  change (cooldown l' sk) with (st_cooldown (a_data (l' sk))).
  rewrite sse_cooldown. rewrite Es1. reflexivity.
Qed.

(** ** Set (C18) *)
Lemma set_exact C l E accs data u l' evs :
  encodes data (Set_ u) ->
  process_instruction C E xorca_id accs l data = Ok (l', evs) ->
  exists sk,
    slot accs 1 sk /\ is_state l sk /\ signed_slot accs 0 (authority l sk) /\
    (forall a, a_owner (l' a) = a_owner (l a) /\ a_lamports (l' a) = a_lamports (l a)) /\
    (forall a, a <> sk -> a_data (l' a) = a_data (l a)) /\
    match u with
    | UpdateCoolDownPeriod c =>
        0 <= c /\ cooldown l' sk = c /\
        same_bytes_except [cooldown_field] (a_data (l sk)) (a_data (l' sk)) /\ evs = []
    | UpdateUpdateAuthority a =>
        authority l' sk = a /\
        same_bytes_except [authority_field] (a_data (l sk)) (a_data (l' sk)) /\
        evs = [event_bytes (EvUpdateAuthoritySet (authority l' sk) (authority l sk))]
    end.
Proof.
  intros He H. pose proof (proj1 He) as Hu. apply (honest_call _ _ _ _ _ _ _ _ He) in H.
  apply set_ok in H. destruct H as (au & st & Pre & Ha & -> & ->). destruct Pre.
  exists (m_key st). set (sk := m_key st) in *.
  assert (Ls : (2048 <= length (a_data (l sk)))%nat) by (destruct tp_st_shape; unfold zlen in *; lia).
  split; [exists st; auto|]. split; [split; [assumption|apply tp_st_shape]|].
  split; [exists au; auto|].
  split; [intros a; unfold set_effect; now autorewrite with ledger|].
  split; [intros a A; unfold set_effect; rewrite set_data_other by congruence; reflexivity|].
  destruct u as [c|a]; unfold set_effect; fold sk;
    unfold cooldown, authority; rewrite upd_data_same.
  - split; [exact Ha|]. split; [apply set_cooldown_same; assumption|].
    split; [|reflexivity]. apply same_u64; [lia|now left].
  - destruct (set_authority_same a _ Ls) as [-> _]. split; [reflexivity|]. split; [|reflexivity].
    apply same_key; [lia|now left].
Qed.

(** ** Initialize (C19) *)
Lemma init_exact C l E accs data c l' evs :
  sysvars_ok E -> honest_metas C accs -> encodes data (Initialize c) ->
  process_instruction C E xorca_id accs l data = Ok (l', evs) ->
  exists sk vk au sb vb,
    signed_slot accs 0 deployer_address /\ signed_slot accs 1 au /\ slot accs 2 sk /\ slot accs 3 vk /\
    find_state_address C = Some (sk, sb) /\
    find_vault_address C sk token_id orca_mint_id = Some (vk, vb) /\ sk <> vk /\
    a_owner (l sk) = system_id /\ a_data (l sk) = [] /\
    a_owner (l vk) = system_id /\ a_data (l vk) = [] /\
    supply l = 0 /\ mint_auth_flag (a_data (l xorca_mint_id)) = 1 /\
    mint_auth (a_data (l xorca_mint_id)) = sk /\ mint_freeze_flag (a_data (l xorca_mint_id)) = 0 /\
    mint_decimals (a_data (l xorca_mint_id)) = 6 /\ mint_decimals (a_data (l orca_mint_id)) = 6 /\
    0 <= c /\
    is_state l' sk /\ length (a_data (l' sk)) = 2048%nat /\
    st_bump (a_data (l' sk)) = byte_to_Z sb /\ st_vault_bump (a_data (l' sk)) = byte_to_Z vb /\
    escrow l' sk = 0 /\ cooldown l' sk = c /\ authority l' sk = au /\
    token_account_of l' vk orca_mint_id sk /\ balance l' vk = 0 /\ ordinary l' vk /\
    ta_delegate_flag (a_data (l' vk)) = 0 /\
    a_lamports (l' sk) = Z.max (rent_min E 2048) (a_lamports (l sk)) /\
    (deployer_address <> vk -> 0 <= a_lamports (l vk) ->
       a_lamports (l' vk) = Z.max (Z.max 1 (rent_min E 165)) (a_lamports (l vk)) /\
       a_lamports (l' deployer_address) = a_lamports (l deployer_address)
         - Z.max 0 (rent_min E 2048 - a_lamports (l sk))
         - Z.max 0 (Z.max 1 (rent_min E 165) - a_lamports (l vk))) /\
    (forall a, a <> sk -> a <> vk -> a_owner (l' a) = a_owner (l a) /\ a_data (l' a) = a_data (l a)) /\
    (forall a, a <> sk -> a <> vk -> a <> deployer_address -> a_lamports (l' a) = a_lamports (l a)) /\
    evs = [].
Proof.
  intros HE Hh He H. pose proof (proj1 He) as Hc. cbn in Hc. apply (honest_call _ _ _ _ _ _ _ _ He) in H.
  apply init_inv in H; [|now apply sysvars_env|exact Hh].
  destruct H as (pa & ua & st & v & xm & om & sp & tp & ap & sb & vb & Pre & Nsv & Hfund & Hl & ->).
  assert (Hpa : ~ program_signs_for C (m_key pa)).
  { apply Hh; [|apply Pre]. eapply nth_error_In, (ia0 _ _ _ _ _ _ _ _ _ _ (ip_accs _ _ _ _ _ _ _ _ _ _ _ _ _ _ _ _ Pre)). }
  destruct Pre. destruct ip_accs.
  exists (m_key st), (m_key v), (m_key ua), sb, vb.
  set (sk := m_key st) in *. set (vk := m_key v) in *. rewrite ip_payer in *.
  set (pk := deployer_address) in *.
  set (sd := state_borsh (initial_state c (byte_to_Z sb) (byte_to_Z vb) (m_key ua))) in *.
  assert (Psk : program_signs_for C sk) by (eapply find_is_pda; exact ip_find_st).
  assert (Nps : pk <> sk) by (intros Q; rewrite Q in Hpa; contradiction).
  set (L2 := set_data (created E l pk sk STATE_LEN xorca_id) sk sd) in *.
  set (need := rent_need E l sk STATE_LEN) in *.
  set (an := ata_need E L2 vk) in *.
  assert (L2s : L2 sk = Account (a_lamports (l sk) + need) xorca_id sd).
  { unfold L2. rewrite set_data_same, created_same. reflexivity. }
  assert (L2k : forall k, k <> sk -> a_owner (L2 k) = a_owner (l k) /\ a_data (L2 k) = a_data (l k) /\
            a_lamports (L2 k) = a_lamports (l k) - (if key_eqb pk k then need else 0)).
  { intros k K. unfold L2. rewrite set_data_other by congruence. apply created_other. congruence. }
  unfold init_effect in Hl. fold sk vk in Hl. fold sd in Hl. fold L2 in Hl. clearbody L2.
  assert (Hv : l' vk = Account (a_lamports (L2 vk) + an) token_id (init_ta orca_mint_id sk (zeros ta_len))).
  { rewrite (Hl vk). unfold ata_created. apply upd_same. }
  assert (Hk : forall k, k <> vk -> a_owner (l' k) = a_owner (L2 k) /\ a_data (l' k) = a_data (L2 k) /\
            a_lamports (l' k) = a_lamports (L2 k) - (if key_eqb pk k then an else 0)).
  { intros k K. rewrite (Hl k). unfold ata_created. fold an.
    rewrite upd_other by congruence. autorewrite with ledger. split; [reflexivity|].
    split; [reflexivity|]. destruct (key_eqb pk k) eqn:Q.
    - apply key_eqb_true in Q. subst k. apply set_lamports_same_lamports.
    - apply key_eqb_false in Q. rewrite set_lamports_other by exact Q. lia. }
  assert (Hs : l' sk = Account (a_lamports (l sk) + need) xorca_id sd).
  { destruct (Hk sk Nsv) as (A & B & D). rewrite L2s in A, B, D. cbn [a_owner a_data a_lamports] in *.
    rewrite (key_eqb_neq pk sk Nps) in D. destruct (l' sk) as [x1 x2 x3]. cbn in *. f_equal; auto. lia. }
  destruct (initial_state_fields c (byte_to_Z sb) (byte_to_Z vb) (m_key ua) Hc (byte_is_u8 _) (byte_is_u8 _))
    as (S1 & S2 & S3 & S4 & S5 & S6).
  fold sd in S1, S2, S3, S4, S5, S6.
  assert (Ltz : length (zeros ta_len) = 165%nat) by reflexivity.
  destruct (init_ta_fields orca_mint_id sk (zeros ta_len) Ltz)
    as (T0 & T1 & T2 & T3 & T4 & T5 & T6 & T7 & T8).
  unfold is_state, escrow, cooldown, authority, token_account_of, balance, ordinary.
  rewrite Hs, Hv; cbn [a_owner a_data a_lamports].
  split; [exists pa; auto|]. split; [exists ua; auto|]. split; [exists st; auto|]. split; [exists v; auto|].
  do 2 (split; [assumption|]). split; [exact Nsv|].
  do 11 (split; [assumption|]).
  split; [split; [reflexivity|assumption]|].
  split; [unfold sd; apply state_borsh_length|].
  do 5 (split; [assumption|]).
  split.
  { split; [reflexivity|]. split; [|split; assumption].
    apply ta_unpack_ok. split; [exact T8|]. rewrite T5. discriminate. }
  do 3 (split; [assumption|]).
  split; [unfold need, rent_need, STATE_LEN; lia|].
  split.
  { intros N Hp. destruct (Hk pk N) as (_ & _ & ->). destruct (L2k pk Nps) as (_ & _ & ->).
    rewrite key_eqb_refl. destruct (L2k vk (not_eq_sym Nsv)) as (_ & _ & Lv).
    rewrite key_eqb_neq in Lv by exact N.
    unfold an, ata_need. rewrite Lv. unfold need, rent_need, STATE_LEN, ta_len.
    destruct (0 <? a_lamports (l vk) - 0) eqn:Q; [apply Z.ltb_lt in Q|apply Z.ltb_ge in Q]; lia. }
  split.
  { intros a A1 A2. destruct (Hk a A2) as (-> & -> & _). destruct (L2k a A1) as (-> & -> & _). auto. }
  split; [|reflexivity].
  intros a A1 A2 A3. destruct (Hk a A2) as (_ & _ & ->). destruct (L2k a A1) as (_ & _ & ->).
  rewrite key_eqb_neq by congruence. lia.
Qed.
