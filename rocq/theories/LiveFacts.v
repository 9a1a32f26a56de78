(** Calls that must succeed (C03, C08, C27, C40, C41) and the order of
    withdrawals (C43). *)
From Verif Require Import Spec BytesFacts FieldFacts LedgerFacts TokenFacts ParseFacts CpiFacts
  AssertFacts LayoutFacts MathFacts Economics PoolMath StakeFacts UnstakeFacts WithdrawFacts SetFacts InitFacts
  CodecFacts Totals OutsideFacts TokenStep VaultStep Calm Pool PoolStake PoolUnstake PoolInit PoolHistory HistoryFacts
  LifeFacts RateFacts EffectFacts FailFacts.

Lemma active_live l k mint owner :
  active_account l k mint owner ->
  ta_live l k /\ ta_mint (a_data (l k)) = mint /\ ta_owner (a_data (l k)) = owner.
Proof.
  intros [(H1 & H2 & H3 & H4) H5]. apply ta_unpack_ok in H2. repeat split; auto. apply H2.
Qed.

Lemma own_sign l d a n c :
  ta_has_delegate d a = false -> ta_owner d = a -> a_owner (l a) <> token_id ->
  spend_auth l (owner_signs a) [] d a n c = Ok d.
Proof.
  intros H1 H2 H3. unfold spend_auth. rewrite H1. unfold validate_owner. rewrite H2, key_eqb_refl.
  cbn [negb fail_if bind]. rewrite (key_eqb_neq _ _ H3). cbn [andb].
  unfold owner_signs. rewrite key_eqb_refl. reflexivity.
Qed.

Lemma honest_ne C accs m k :
  honest_metas C accs -> In m accs -> m_signer m = true -> program_signs_for C k -> m_key m <> k.
Proof. intros H1 H2 H3 H4 K. apply (H1 m H2 H3). now rewrite K. Qed.

Lemma pool_sk_signs C l sk vk P : pool C l sk vk P -> program_signs_for C sk.
Proof. intros HP. destruct (po_find _ _ _ _ _ HP) as (sb & H & _). apply find_create in H. eexists. exact H. Qed.

Lemma pool_state_bump C l sk vk P :
  pool C l sk vk P ->
  sk = state_address_with_bump C (st_bump (a_data (l sk))) /\
  create_program_address C (state_seeds ++ [[Z_to_byte (st_bump (a_data (l sk)))]]) xorca_id = Some sk.
Proof.
  intros HP. destruct (po_find _ _ _ _ _ HP) as (sb & H & ->). split; [now apply find_state_bump|].
  rewrite byte_round. now apply find_create.
Qed.

Lemma vault_spend C l sk vk P n c :
  pool C l sk vk P -> spend_auth l (owner_signs sk) [] (a_data (l vk)) sk n c = Ok (a_data (l vk)).
Proof.
  intros HP. apply own_sign.
  - unfold ta_has_delegate. now rewrite (vo_delegate _ _ _ _ (po_vault _ _ _ _ _ HP)).
  - apply (vo_holder _ _ _ _ (po_vault _ _ _ _ _ HP)).
  - rewrite (po_state _ _ _ _ _ HP). apply xt_ne.
Qed.

Lemma fills_nth accs rs n k s w :
  fills accs rs -> nth_error rs n = Some (k, s, w) ->
  exists m, nth_error accs n = Some m /\ m_key m = k /\ (s = true -> m_signer m = true) /\
    (w = true -> m_writable m = true).
Proof. intros H Hn. apply (H n k s w Hn). Qed.

(** ** Withdraw *)
Lemma withdraw_ready C E l sk vk P accs un k uo i :
  pool C l sk vk P -> honest_metas C accs -> fills accs (withdraw_roles un sk k uo vk) ->
  is_record l k -> k = pending_address_with_bump C un i (pw_bump (a_data (l k))) -> rec_time l k <= now E ->
  active_account l uo orca_mint_id un -> ta_state (a_data (l vk)) = 1 ->
  balance l uo + rec_amount l k <= u64_max -> a_lamports (l un) + a_lamports (l k) <= u64_max ->
  exists m0 m1 m2 m3 m4 m5 m6 m7,
    withdraw_pre C E accs l i m0 m1 m2 m3 m4 m5 m6 m7 (a_data (l vk)) /\
    m_key m0 = un /\ m_key m1 = sk /\ m_key m2 = k /\ m_key m3 = uo /\ m_key m4 = vk /\ vk <> uo /\ un <> k.
Proof.
  intros HP Hh Hf Hr Hkey Ht Huo Hvs Hroom Hlam.
  destruct (fills_nth _ _ 0 _ _ _ Hf eq_refl) as (m0 & N0 & K0 & S0 & W0).
  destruct (fills_nth _ _ 1 _ _ _ Hf eq_refl) as (m1 & N1 & K1 & _ & W1).
  destruct (fills_nth _ _ 2 _ _ _ Hf eq_refl) as (m2 & N2 & K2 & _ & W2).
  destruct (fills_nth _ _ 3 _ _ _ Hf eq_refl) as (m3 & N3 & K3 & _ & W3).
  destruct (fills_nth _ _ 4 _ _ _ Hf eq_refl) as (m4 & N4 & K4 & _ & W4).
  destruct (fills_nth _ _ 5 _ _ _ Hf eq_refl) as (m5 & N5 & K5 & _ & _).
  destruct (fills_nth _ _ 6 _ _ _ Hf eq_refl) as (m6 & N6 & K6 & _ & _).
  destruct (fills_nth _ _ 7 _ _ _ Hf eq_refl) as (m7 & N7 & K7 & _ & _).
  exists m0, m1, m2, m3, m4, m5, m6, m7.
  pose proof (pool_state_bump _ _ _ _ _ HP) as [B1 B2].
  pose proof (proj1 (pool_is_record _ _ _ _ _ _ HP) Hr) as Hin.
  pose proof (po_records _ _ _ _ _ HP k Hin) as [R1 R2 R3 R4 R5 R6].
  pose proof (po_vault _ _ _ _ _ HP) as V. pose proof (active_live _ _ _ _ Huo) as (U1 & U2 & U3).
  assert (Hun_sk : un <> sk).
  { rewrite <- K0. apply (honest_ne C accs); auto; [eapply nth_error_In; eassumption|]. eapply pool_sk_signs; eassumption. }
  assert (Hun_k : un <> k).
  { rewrite <- K0. apply (honest_ne C accs); auto; [eapply nth_error_In; eassumption|].
    apply find_create in R4. eexists. exact R4. }
  assert (Hv_uo : vk <> uo).
  { intros K. rewrite <- K in U3. rewrite (vo_holder _ _ _ _ V) in U3. congruence. }
  assert (Hcl : claim l k <= escrow l sk).
  { unfold escrow. rewrite (po_escrow _ _ _ _ _ HP). apply in_split in Hin. destruct Hin as (p1 & p2 & ->).
    rewrite map_app. cbn [map]. assert (Hn : forall ks, 0 <= sumZ (map (claim l) ks)).
    { induction ks as [|k' ks IH]; cbn [map sumZ fold_right]; [lia|]. unfold sumZ in IH.
      pose proof (get_u64_range 40 (a_data (l k'))). unfold claim, pw_amount, is_u64 in *. lia. }
    pose proof (Hn p1). pose proof (Hn p2).
    rewrite Totals.sumZ_app. cbn [sumZ fold_right]. unfold sumZ in *. lia. }
  pose proof (pool_ranges _ _ _ _ _ HP) as (R0 & _ & _ & R9).
  split; [|auto 10].
  constructor; rewrite ?K0, ?K1, ?K2, ?K3, ?K4; auto.
  - constructor; assumption.
  - apply (po_orca _ _ _ _ _ HP).
  - apply (po_state _ _ _ _ _ HP).
  - split; [unfold zlen; rewrite (po_slen _ _ _ _ _ HP); lia|apply (po_sdisc _ _ _ _ _ HP)].
  - symmetry. eapply pool_vault_is; eassumption.
  - destruct V. repeat split; auto.
  - apply (vo_mint _ _ _ _ V).
  - apply (vo_holder _ _ _ _ V).
  - fold (balance l vk). unfold free_orca in R0. lia.
  - eapply vault_spend; eassumption.
  - split; [unfold zlen; rewrite R2; lia|assumption].
Qed.

Lemma record_key C l sk vk P k :
  pool C l sk vk P -> is_record l k ->
  k = pending_address_with_bump C (rec_owner l k) (rec_index l k) (pw_bump (a_data (l k))).
Proof.
  intros HP Hr. apply (pool_is_record _ _ _ _ _ _ HP) in Hr. apply (po_records _ _ _ _ _ HP) in Hr.
  destruct Hr as [_ _ _ R4 _ _]. apply find_pending_bump in R4. fold (rec_owner l k) (rec_index l k) in R4.
  rewrite R4 at 1. f_equal. unfold pw_bump. rewrite Z_to_byte_to_Z. apply Z.mod_small, get_u8_range.
Qed.

Theorem withdraw_live C E l sk vk accs data un k uo i :
  ordinary_state_address C -> reaches C l -> is_state l sk -> is_vault C sk vk ->
  op_ok C l (OpCall E accs data) -> encodes data (Withdraw i) ->
  fills accs (withdraw_roles un sk k uo vk) ->
  is_record l k -> rec_owner l k = un -> rec_index l k = i -> rec_time l k <= now E ->
  active_account l uo orca_mint_id un -> ta_state (a_data (l vk)) = 1 ->
  balance l uo + rec_amount l k <= u64_max -> a_lamports (l un) + a_lamports (l k) <= u64_max ->
  is_ok (process_instruction C E xorca_id accs l data) = true.
Proof.
  intros Ho Hr Hs Hv [HE Hh] Henc Hf Hrec Hown Hidx Ht Huo Hvs Hroom Hlam.
  destruct (reaches_pool_vault _ _ _ _ Ho Hr Hs Hv) as (P & HP).
  pose proof (record_key _ _ _ _ _ _ HP Hrec) as Hkey. rewrite Hown, Hidx in Hkey.
  destruct (withdraw_ready C E l sk vk P accs un k uo i HP Hh Hf Hrec Hkey Ht Huo Hvs Hroom Hlam)
    as (m0 & m1 & m2 & m3 & m4 & m5 & m6 & m7 & Pre & K0 & K1 & K2 & K3 & K4 & Hne & _).
  rewrite (call_is _ _ _ _ _ _ Henc).
  destruct (withdraw_run C E accs l i m0 m1 m2 m3 m4 m5 m6 m7 (a_data (l vk))) as (l' & -> & _);
    [apply Henc|congruence|rewrite K4; apply (vo_native _ _ _ _ (po_vault _ _ _ _ _ HP))|exact Pre|reflexivity].
Qed.

(** ** Stake *)
Lemma stake_ready C l sk vk P accs st so sx a m :
  pool C l sk vk P -> honest_metas C accs -> fills accs (stake_roles st vk so sx sk) ->
  a_owner (l st) <> token_id ->
  active_account l so orca_mint_id st -> no_self_delegate l so st -> a <= balance l so ->
  active_account l sx xorca_mint_id st -> ta_state (a_data (l vk)) = 1 ->
  convert_orca_to_xorca a (free_orca l sk vk) (supply l) = Ok m -> m <> 0 ->
  balance l vk + a <= u64_max -> supply l + m <= u64_max ->
  exists m0 m1 m2 m3 m4 m5 m6 m7,
    stake_pre C accs l a m0 m1 m2 m3 m4 m5 m6 m7 m (a_data (l so)) /\
    m_key m0 = st /\ m_key m1 = vk /\ m_key m2 = so /\ m_key m3 = sx /\ m_key m5 = sk /\ so <> vk.
Proof.
  intros HP Hh Hf Hst Hso Hsd Ha Hsx Hvs Hq Hm R1 R2.
  destruct (fills_nth _ _ 0 _ _ _ Hf eq_refl) as (m0 & N0 & K0 & S0 & W0).
  destruct (fills_nth _ _ 1 _ _ _ Hf eq_refl) as (m1 & N1 & K1 & _ & W1).
  destruct (fills_nth _ _ 2 _ _ _ Hf eq_refl) as (m2 & N2 & K2 & _ & W2).
  destruct (fills_nth _ _ 3 _ _ _ Hf eq_refl) as (m3 & N3 & K3 & _ & W3).
  destruct (fills_nth _ _ 4 _ _ _ Hf eq_refl) as (m4 & N4 & K4 & _ & W4).
  destruct (fills_nth _ _ 5 _ _ _ Hf eq_refl) as (m5 & N5 & K5 & _ & _).
  destruct (fills_nth _ _ 6 _ _ _ Hf eq_refl) as (m6 & N6 & K6 & _ & _).
  destruct (fills_nth _ _ 7 _ _ _ Hf eq_refl) as (m7 & N7 & K7 & _ & _).
  exists m0, m1, m2, m3, m4, m5, m6, m7.
  pose proof (pool_state_bump _ _ _ _ _ HP) as [B1 B2].
  pose proof (po_vault _ _ _ _ _ HP) as V. pose proof (po_mint _ _ _ _ _ HP) as M.
  pose proof (active_live _ _ _ _ Hso) as (U1 & U2 & U3). pose proof (active_live _ _ _ _ Hsx) as (X1 & X2 & X3).
  assert (Hun_sk : st <> sk).
  { rewrite <- K0. apply (honest_ne C accs); auto; [eapply nth_error_In; eassumption|]. eapply pool_sk_signs; eassumption. }
  assert (Hv_so : so <> vk).
  { intros K. rewrite K in U3. rewrite (vo_holder _ _ _ _ V) in U3. congruence. }
  pose proof (holder_le _ _ _ _ _ _ _ HP (proj1 Hsx)) as Hle.
  pose proof (pool_ranges _ _ _ _ _ HP) as (R0 & _ & _ & R9).
  split; [|auto 10].
  constructor; rewrite ?K0, ?K1, ?K2, ?K3, ?K4, ?K5; auto.
  - constructor; assumption.
  - apply (po_orca _ _ _ _ _ HP).
  - apply own_sign; assumption.
  - destruct Hsx as [(Q1 & Q2 & Q3 & Q4) _]. now apply (tb_native _ _ (po_tok _ _ _ _ _ HP)).
  - fold (balance l sx). lia.
  - apply (mo_live _ _ _ M).
  - apply (mo_flag _ _ _ M).
  - apply (mo_auth _ _ _ M).
  - apply (po_state _ _ _ _ _ HP).
  - split; [unfold zlen; rewrite (po_slen _ _ _ _ _ HP); lia|apply (po_sdisc _ _ _ _ _ HP)].
  - symmetry. eapply pool_vault_is; eassumption.
  - destruct V. repeat split; auto.
  - apply (vo_mint _ _ _ _ V).
  - apply (vo_holder _ _ _ _ V).
  - fold (balance l vk) (escrow l sk). unfold free_orca in R0. lia.
Qed.

Theorem stake_live C E l sk vk accs data st so sx a :
  ordinary_state_address C -> reaches C l -> is_state l sk -> is_vault C sk vk ->
  op_ok C l (OpCall E accs data) -> encodes data (Stake a) ->
  fills accs (stake_roles st vk so sx sk) ->
  a_owner (l st) <> token_id ->
  active_account l so orca_mint_id st -> ordinary l so -> no_self_delegate l so st -> a <= balance l so ->
  active_account l sx xorca_mint_id st -> ta_state (a_data (l vk)) = 1 ->
  0 < a -> (supply l <> 0 -> free_orca l sk vk + 100 <= a * (supply l + 100)) ->
  balance l vk + a < 2 ^ 63 ->
  is_ok (process_instruction C E xorca_id accs l data) = true.
Proof.
  intros Ho Hr Hs Hv [HE Hh] Henc Hf Hst Hso Hon Hsd Ha Hsx Hvs Hpos Hq Hlt.
  destruct (reaches_pool_vault _ _ _ _ Ho Hr Hs Hv) as (P & HP).
  pose proof (pool_ranges _ _ _ _ _ HP) as (R0 & R1 & R2 & R3).
  assert (Hfv : free_orca l sk vk <= balance l vk) by (unfold free_orca; lia).
  destruct (no_overflow_stake a (free_orca l sk vk) (supply l)) as (m & Em & Hm); [lia|lia|lia|].
  assert (Hm0 : 0 < m).
  { destruct (orca_to_xorca_char a (free_orca l sk vk) (supply l)) as (C1 & C2 & _); [apply Henc|exact R1|exact R2|].
    destruct (Z.eq_dec (supply l) 0) as [e|e]; [rewrite C1 in Em by auto; injection Em as <-; lia|].
    destruct (Z.eq_dec (free_orca l sk vk) 0) as [e'|e']; [rewrite C1 in Em by auto; injection Em as <-; lia|].
    specialize (Hq e).
    assert (D1 : 1 <= a * (supply l + 100) / (free_orca l sk vk + 100)) by (apply Z.div_le_lower_bound; lia).
    assert (D2 : a * (supply l + 100) / (free_orca l sk vk + 100) <= a).
    { apply Z.div_le_upper_bound; [lia|]. rewrite (Z.mul_comm _ a). apply Z.mul_le_mono_nonneg_l; lia. }
    assert (D3 : a * (supply l + 100) <= 2 ^ 63 * (2 ^ 63 + 100)) by (apply Z.mul_le_mono_nonneg; lia).
    rewrite C2 in Em by (auto; lia). injection Em as <-. lia. }
  destruct (stake_ready C l sk vk P accs st so sx a m) as
    (m0 & m1 & m2 & m3 & m4 & m5 & m6 & m7 & Pre & K0 & K1 & K2 & K3 & K5 & Hne); auto.
  { lia. } { unfold u64_max. lia. } { unfold u64_max. lia. }
  rewrite (call_is _ _ _ _ _ _ Henc).
  rewrite (stake_run C accs l a m0 m1 m2 m3 m4 m5 m6 m7 m (a_data (l so)));
    [reflexivity|apply Henc|lia|exact Pre|congruence|rewrite K2; exact Hon].
Qed.

(** ** Unstake *)

Lemma derive_diff C us s b p s' b' p' :
  address_input C us (pda_preimage (s ++ [[b]]) p) -> address_input C us (pda_preimage (s' ++ [[b']]) p') ->
  length (concat s) <> length (concat s') ->
  derive_address C s b p = derive_address C s' b' p' -> collision C us.
Proof.
  intros I I' Hl H. unfold derive_address in H.
  exists (pda_preimage (s ++ [[b]]) p), (pda_preimage (s' ++ [[b']]) p').
  split; [exact I|]. split; [exact I'|]. split; [|exact H]. intros K. apply Hl. apply (f_equal (@length byte)) in K.
  unfold pda_preimage in K. rewrite !concat_app, !app_length, !key_bytes_length in K. cbn in K. lia.
Qed.

Lemma free_index C l sk vk P un i k b :
  pool C l sk vk P -> find_pending_withdraw_address C un i = Some (k, b) -> ~ is_record l k ->
  collision C (eq un) \/ (a_owner (l k) = system_id /\ a_data (l k) = []).
Proof.
  intros HP Hf Hn. pose proof (find_create _ _ _ _ _ Hf) as Hc.
  pose proof (create_derive _ _ _ _ _ Hc) as Hd.
  destruct (po_pdas _ _ _ _ _ HP k) as [K|[K|[K|K]]]; [eexists; exact Hc| | | |right; exact K].
  - left. destruct (po_find _ _ _ _ _ HP) as (sb & F & _). apply find_create, create_derive in F.
    rewrite <- K, Hd in F. eapply derive_diff; [now apply input_record|apply input_state| |exact F].
    unfold pending_seeds, state_seeds. cbn [concat]. rewrite !app_length, key_bytes_length. cbn. lia.
  - left. destruct (po_find _ _ _ _ _ HP) as (sb & Fs & _).
    destruct (po_findv _ _ _ _ _ HP) as (vb & F & _). apply find_create, create_derive in F.
    rewrite <- K, Hd in F. eapply derive_diff; [now apply input_record|eapply input_vault, Fs| |exact F].
    unfold pending_seeds, vault_seeds. cbn [concat]. rewrite !app_length, !key_bytes_length. cbn. lia.
  - exfalso. apply Hn. now apply (pool_is_record _ _ _ _ _ _ HP).
Qed.

Lemma unstake_ready C E l sk vk P accs un k b ux x i w :
  pool C l sk vk P -> honest_metas C accs -> fills accs (unstake_roles un sk k ux vk) -> sysvars_ok E ->
  find_pending_withdraw_address C un i = Some (k, b) -> wallet l k ->
  active_account l ux xorca_mint_id un -> no_self_delegate l ux un -> x <= balance l ux ->
  convert_xorca_to_orca x (free_orca l sk vk) (supply l) = Ok w -> w <> 0 -> w <= free_orca l sk vk ->
  wallet l un -> rent_min E 1024 - a_lamports (l k) <= a_lamports (l un) ->
  is_i64 (now E + cooldown l sk) ->
  exists m0 m1 m2 m3 m4 m5 m6 m7 m8 sd1,
    unstake_pre C E accs l x i m0 m1 m2 m3 m4 m5 m6 m7 m8 w b sd1 /\
    m_key m0 = un /\ m_key m1 = sk /\ m_key m2 = k /\ m_key m3 = ux /\ m_key m6 = vk /\ un <> k.
Proof.
  intros HP Hh Hf HE Hfind Hk Hux Hsd Hx Hq Hw0 Hw Hun Hrent Hclock.
  destruct (fills_nth _ _ 0 _ _ _ Hf eq_refl) as (m0 & N0 & K0 & S0 & W0).
  destruct (fills_nth _ _ 1 _ _ _ Hf eq_refl) as (m1 & N1 & K1 & _ & W1).
  destruct (fills_nth _ _ 2 _ _ _ Hf eq_refl) as (m2 & N2 & K2 & _ & W2).
  destruct (fills_nth _ _ 3 _ _ _ Hf eq_refl) as (m3 & N3 & K3 & _ & W3).
  destruct (fills_nth _ _ 4 _ _ _ Hf eq_refl) as (m4 & N4 & K4 & _ & W4).
  destruct (fills_nth _ _ 5 _ _ _ Hf eq_refl) as (m5 & N5 & K5 & _ & _).
  destruct (fills_nth _ _ 6 _ _ _ Hf eq_refl) as (m6 & N6 & K6 & _ & _).
  destruct (fills_nth _ _ 7 _ _ _ Hf eq_refl) as (m7 & N7 & K7 & _ & _).
  destruct (fills_nth _ _ 8 _ _ _ Hf eq_refl) as (m8 & N8 & K8 & _ & _).
  exists m0, m1, m2, m3, m4, m5, m6, m7, m8, (a_data (l ux)).
  pose proof (pool_state_bump _ _ _ _ _ HP) as [B1 B2].
  pose proof (po_vault _ _ _ _ _ HP) as V. pose proof (po_mint _ _ _ _ _ HP) as M.
  pose proof (active_live _ _ _ _ Hux) as (X1 & X2 & X3).
  pose proof (holder_le _ _ _ _ _ _ _ HP (proj1 Hux)) as Hle.
  pose proof (pool_ranges _ _ _ _ _ HP) as (R0 & R1 & _ & R9).
  pose proof (ta_amount_range (a_data (l vk))) as R5. fold (balance l vk) in R5.
  assert (Hun_k : un <> k).
  { rewrite <- K0. apply (honest_ne C accs); auto; [eapply nth_error_In; eassumption|].
    apply find_create in Hfind. eexists. exact Hfind. }
  destruct Hk as [Hk1 Hk2]. destruct Hun as [Hu1 Hu2].
  assert (Hut : a_owner (l un) <> token_id) by (rewrite Hu1; apply not_eq_sym, token_ne_system).
  split; [|auto 10].
  constructor; rewrite ?K0, ?K1, ?K2, ?K3, ?K4, ?K5, ?K6; auto.
  - constructor; assumption.
  - apply (po_state _ _ _ _ _ HP).
  - split; [unfold zlen; rewrite (po_slen _ _ _ _ _ HP); lia|apply (po_sdisc _ _ _ _ _ HP)].
  - symmetry. eapply pool_vault_is; eassumption.
  - destruct V. split; [assumption|]. split; [|auto].
    pose proof (ta_wf_len _ vo_wf) as L. split; [unfold zlen; lia|].
    unfold ta_wf in vo_wf. clean_bool. lia.
  - destruct Hux as [(Q1 & Q2 & Q3 & Q4) _]. now apply (tb_native _ _ (po_tok _ _ _ _ _ HP)).
  - unfold burn_auth. rewrite (own_sign l (a_data (l ux)) un x true Hsd X3 Hut). now destruct (system_or_incinerator _).
  - apply (mo_live _ _ _ M).
  - apply (mo_flag _ _ _ M).
  - apply (mo_auth _ _ _ M).
  - apply (mo_freeze _ _ _ M).
  - fold (supply l). lia.
  - apply (po_orca _ _ _ _ _ HP).
  - destruct (po_orca _ _ _ _ _ HP) as (_ & O2 & O3). pose proof (mint_wf_len _ O2).
    split; [unfold zlen; lia|lia].
  - fold (balance l vk) (escrow l sk). unfold free_orca in *. lia.
  - fold (escrow l sk). unfold free_orca, is_u64, u64_max in *. lia.
  - intros Hc. pose proof (proj2 HE 1024 ltac:(lia)) as [E1 E2].
    unfold rent_need, PENDING_LEN in *. repeat split; auto.
    + pose proof (po_lam _ _ _ _ _ HP un). lia.
    + unfold is_u64, u64_max in *. lia.
Qed.

Theorem unstake_live C E l sk vk accs data un k b ux x i :
  ordinary_state_address C -> reaches C l -> is_state l sk -> is_vault C sk vk ->
  op_ok C l (OpCall E accs data) -> encodes data (Unstake x i) ->
  fills accs (unstake_roles un sk k ux vk) ->
  find_pending_withdraw_address C un i = Some (k, b) -> ~ is_record l k ->
  active_account l ux xorca_mint_id un -> no_self_delegate l ux un -> 0 < x <= balance l ux ->
  wallet l un -> rent_min E 1024 - a_lamports (l k) <= a_lamports (l un) ->
  is_i64 (now E + cooldown l sk) -> balance l vk < 2 ^ 63 ->
  is_ok (process_instruction C E xorca_id accs l data) = true \/ collision C (eq un).
Proof.
  intros Ho Hr Hs Hv [HE Hh] Henc Hf Hfind Hfree Hux Hsd Hx Hun Hrent Hclock Hlt.
  destruct (reaches_pool_vault _ _ _ _ Ho Hr Hs Hv) as (P & HP).
  destruct (free_index _ _ _ _ _ _ _ _ _ HP Hfind Hfree) as [Hc|Hk]; [right; exact Hc|left].
  pose proof (pool_ranges _ _ _ _ _ HP) as (R0 & R1 & R2 & R3).
  pose proof (holder_le _ _ _ _ _ _ _ HP (proj1 Hux)) as Hle.
  assert (Hfv : free_orca l sk vk <= balance l vk) by (unfold free_orca; lia).
  destruct (no_overflow_unstake x (free_orca l sk vk) (supply l)) as (w & Ew & Hw); [lia|lia|lia|].
  assert (Hw0 : w <> 0).
  { destruct (xorca_to_orca_char x (free_orca l sk vk) (supply l)) as (_ & C2 & C3);
      [apply Henc|exact R1|exact R2|].
    assert (D3 : x * (free_orca l sk vk + 100) <= 2 ^ 63 * (2 ^ 63 + 100)) by (apply Z.mul_le_mono_nonneg; lia).
    assert (D1 : x <= x * (free_orca l sk vk + 100) / (supply l + 100)).
    { apply Z.div_le_lower_bound; [lia|]. rewrite (Z.mul_comm _ x). apply Z.mul_le_mono_nonneg_l; lia. }
    destruct (Z_lt_le_dec (x * (free_orca l sk vk + 100) / (supply l + 100)) (2 ^ 64)) as [L|L].
    - rewrite C2 in Ew by lia. injection Ew as <-. lia.
    - rewrite C3 in Ew by lia. discriminate. }
  destruct (unstake_ready C E l sk vk P accs un k b ux x i w) as
    (m0 & m1 & m2 & m3 & m4 & m5 & m6 & m7 & m8 & sd1 & Pre & K0 & K1 & K2 & K3 & K6 & Hne); auto; try lia.
  rewrite (call_is _ _ _ _ _ _ Henc).
  destruct (unstake_run C E accs l x i m0 m1 m2 m3 m4 m5 m6 m7 m8 w b sd1) as (l' & -> & _);
    [apply Henc|apply Henc| |congruence|exact Pre|reflexivity].
  split; [apply HE|]. intros n Hn. now apply HE.
Qed.

(** ** Reusing an index (C08) *)
Lemma index_freed C l o sk i accs t un k :
  ordinary_state_address C -> reaches C l -> is_state l sk -> op_ok C l o ->
  performs C l o (Withdraw i) accs t -> slot accs 0 un -> slot accs 2 k ->
  collision C (claimants l un) \/
  ((exists b, find_pending_withdraw_address C un i = Some (k, b)) /\
   ~ is_record (fst (run_op C l o)) k /\ a_lamports (fst (run_op C l o) k) = 0).
Proof.
  intros Ho Hr Hs Hok Hp S0 S2.
  destruct (performs_run _ _ _ _ _ _ Hp) as (E & data & l' & evs & -> & Et & He & Hrun & ->). cbn [fst].
  destruct Hok as [HE Hh]. destruct (reaches_pool _ _ _ Ho Hr Hs) as (vk & P & HP).
  destruct (only_owner _ _ _ _ _ _ _ _ _ _ _ Ho Hr Hs Hh He Hrun S0 S2) as (_ & Hrec & [[R1 R2]|Hc]); [|now left].
  right. pose proof (proj1 (pool_is_record _ _ _ _ _ _ HP) Hrec) as Hin.
  pose proof (ro_addr _ _ _ (po_records _ _ _ _ _ HP k Hin)) as Ha.
  fold (rec_owner l k) (rec_index l k) in Ha. rewrite R1, R2 in Ha. split; [eauto|].
  destruct (withdraw_exact _ _ _ _ _ _ _ _ Hh He Hrun)
    as (un' & sk' & k' & uo & vk' & A0 & A1 & A2 & A3 & A4 & A5 & A6 & A7 & A8 & A9 & A10 & A11 & A12 & A13 & A14 & L & O & D & _).
  assert (k' = k) as -> by (eapply slot_fun; eassumption).
  split; [|exact L]. intros [K _]. rewrite O in K. now apply xorca_ne_system.
Qed.

Theorem index_reusable C l o sk vk i accs t un k E accs' data x ux :
  ordinary_state_address C -> reaches C l -> is_state l sk -> is_vault C sk vk -> op_ok C l o ->
  performs C l o (Withdraw i) accs t -> slot accs 0 un -> slot accs 2 k ->
  let l' := fst (run_op C l o) in
  op_ok C l' (OpCall E accs' data) -> encodes data (Unstake x i) ->
  fills accs' (unstake_roles un sk k ux vk) ->
  active_account l' ux xorca_mint_id un -> no_self_delegate l' ux un -> 0 < x <= balance l' ux ->
  wallet l' un -> rent_min E 1024 <= a_lamports (l' un) ->
  is_i64 (now E + cooldown l' sk) -> balance l' vk < 2 ^ 63 ->
  is_ok (process_instruction C E xorca_id accs' l' data) = true \/ collision C (claimants l un).
Proof.
  cbn zeta. intros Ho Hr Hs Hv Hok Hp S0 S2 Hok' He Hf Hux Hsd Hx Hun Hrent Hclock Hlt.
  destruct (index_freed _ _ _ _ _ _ _ _ _ Ho Hr Hs Hok Hp S0 S2) as [Hc|((b & F) & Hn & Hz)]; [now right|].
  pose proof (reaches_step _ _ _ Hr Hok) as Hr'.
  destruct (reaches_pool _ _ _ Ho Hr Hs) as (vk' & P & HP).
  destruct (pool_step _ _ _ _ _ _ HP Hok) as (P' & HP' & _).
  assert (Hl : is_ok (process_instruction C E xorca_id accs' (fst (run_op C l o)) data) = true \/ collision C (eq un)).
  { eapply unstake_live; try eassumption; [|lia]. eapply pool_is_state; eassumption. }
  destruct Hl as [Hl|Hl]; [now left|right]. eapply collision_more; [|exact Hl]. intros u <-. now left.
Qed.

(** ** Prefunding (C27) *)
Lemma validate_owner_data l l2 sg ex e a :
  (forall k, a_owner (l2 k) = a_owner (l k) /\ a_data (l2 k) = a_data (l k)) ->
  validate_owner l2 sg ex e a = validate_owner l sg ex e a.
Proof. intros H. unfold validate_owner. destruct (H a) as [-> ->]. reflexivity. Qed.

Theorem prefund C E accs data x i l l2 un k :
  sysvars_ok E -> honest_metas C accs -> encodes data (Unstake x i) -> slot accs 0 un -> slot accs 2 k ->
  (forall a, a_owner (l2 a) = a_owner (l a) /\ a_data (l2 a) = a_data (l a)) ->
  0 <= a_lamports (l k) <= a_lamports (l2 k) -> a_lamports (l un) <= a_lamports (l2 un) ->
  is_ok (process_instruction C E xorca_id accs l data) = true ->
  is_ok (process_instruction C E xorca_id accs l2 data) = true.
Proof.
  intros HE Hh Henc S0 S2 Hd Hk Hun Hok. rewrite (call_is _ _ _ _ _ l Henc) in Hok.
  rewrite (call_is _ _ _ _ _ l2 Henc).
  destruct (unstake_process C E accs l x i) as [[l' evs]|] eqn:H; [|discriminate].
  assert (HE' : env_ok E) by (split; [apply HE|intros n Hn; now apply HE]).
  apply unstake_inv in H; [|apply Henc|apply Henc|exact HE'|exact Hh].
  destruct H as (m0 & m1 & m2 & m3 & m4 & m5 & m6 & m7 & m8 & w & b & sd1 & Pre & Hw & _).
  assert (E0 : m_key m0 = un) by (eapply slot_fun; [exists m0; split; [apply Pre|reflexivity]|exact S0]).
  assert (E2 : m_key m2 = k) by (eapply slot_fun; [exists m2; split; [apply Pre|reflexivity]|exact S2]).
  assert (Hne : m_key m0 <> m_key m2).
  { apply (honest_ne C accs); [exact Hh|eapply nth_error_In; apply Pre|apply Pre|].
    pose proof (up_pd_find _ _ _ _ _ _ _ _ _ _ _ _ _ _ _ _ _ _ Pre) as F. apply find_create in F. eexists. exact F. }
  destruct (unstake_run C E accs l2 x i m0 m1 m2 m3 m4 m5 m6 m7 m8 w b sd1) as (l2' & -> & _);
    [apply Henc|apply Henc|exact HE'|exact Hne| |reflexivity].
  assert (Ho : forall a, a_owner (l2 a) = a_owner (l a)) by (intros a; apply Hd).
  assert (Hda : forall a, a_data (l2 a) = a_data (l a)) by (intros a; apply Hd).
  destruct Pre. constructor; rewrite ?Ho, ?Hda; auto.
  - destruct up_v as (V1 & V2 & V3 & V4). repeat split; rewrite ?Ho, ?Hda; auto; apply V2.
  - destruct up_ux_live as (V1 & V2 & V3). repeat split; rewrite ?Ho, ?Hda; auto.
  - rewrite <- up_ux_auth. unfold burn_auth. destruct (system_or_incinerator _); [reflexivity|].
    unfold spend_auth. now rewrite !(validate_owner_data l l2) by exact Hd.
  - destruct up_xm_live as (V1 & V2 & V3). repeat split; rewrite ?Ho, ?Hda; auto.
  - unfold non_escrowed in *. rewrite !Hda. exact up_quote.
  - pose proof (proj2 HE 1024 ltac:(lia)) as [E3 E4]. unfold can_fund, rent_need, PENDING_LEN in *.
    rewrite E0, E2 in *. rewrite Ho, Hda. intros Hc.
    destruct up_fund as (F1 & F2 & F3 & F4); [lia|].
    split; [exact F1|]. split; [lia|]. split; [intros Hpos; apply F3; lia|].
    unfold is_u64, u64_max in *. lia.
Qed.
