(** Initialize: success conditions and effect. *)
From Verif Require Import Program BytesFacts FieldFacts LedgerFacts TokenFacts ParseFacts CpiFacts AssertFacts
  LayoutFacts StakeFacts UnstakeFacts.

(** Data written by the token program's InitializeAccount (not wrapped SOL). *)
Definition init_ta (mint owner : pubkey) (d : list byte) : list byte :=
  set_u32 109 0 (set_amount 0 (set_u8 108 1 (set_u32 129 0 (set_u64 121 0 (set_u32 72 0
    (set_key 0 mint (set_key 32 owner d))))))).

Lemma init_ta_fields mint owner d :
  length d = 165%nat ->
  let d' := init_ta mint owner d in
  length d' = 165%nat /\ ta_mint d' = mint /\ ta_owner d' = owner /\ ta_amount d' = 0 /\
  ta_delegate_flag d' = 0 /\ ta_state d' = 1 /\ ta_native_flag d' = 0 /\ ta_close_flag d' = 0 /\
  ta_wf d' = true.
Proof.
  intros HL d'.
  assert (L7 : length d' = 165%nat) by (unfold d', init_ta, set_amount; slen).
  assert (F1 : ta_mint d' = mint) by (unfold d', init_ta, ta_mint, set_amount; getset; reflexivity).
  assert (F2 : ta_owner d' = owner)
    by (unfold d', init_ta, ta_owner, set_amount; getset; reflexivity).
  assert (F3 : ta_amount d' = 0)
    by (unfold d', init_ta, ta_amount, set_amount; getset; reflexivity).
  assert (F4 : ta_delegate_flag d' = 0)
    by (unfold d', init_ta, ta_delegate_flag, set_amount; getset; reflexivity).
  assert (F5 : ta_state d' = 1) by (unfold d', init_ta, ta_state, set_amount; getset; reflexivity).
  assert (F6 : ta_native_flag d' = 0)
    by (unfold d', init_ta, ta_native_flag, set_amount; getset; reflexivity).
  assert (F7 : ta_close_flag d' = 0)
    by (unfold d', init_ta, ta_close_flag, set_amount; getset; reflexivity).
  assert (F8 : ta_wf d' = true).
  { unfold ta_wf. rewrite F4, F5, F6, F7. unfold zlen. rewrite L7. reflexivity. }
  repeat (split; [assumption|]). assumption.
Qed.

Lemma init_account_ok E l k mint owner l' :
  mint <> native_mint_id ->
  token_init_account E l k mint owner = Ok l' <->
  a_owner (l k) = token_id /\ ta_wf (a_data (l k)) = true /\ ta_state (a_data (l k)) = 0 /\
  rent_min E ta_len <= a_lamports (l k) /\
  mint_wf (a_data (l mint)) = true /\ mint_init (a_data (l mint)) = 1 /\
  l' = set_data l k (init_ta mint owner (a_data (l k))).
Proof.
  intros Hn. unfold token_init_account. rewrite (key_eqb_neq _ _ Hn).
  unfold token_owned. split.
  - intros H. inv_bind H u1. apply fail_if_ok, negb_false_iff, key_eqb_true in Hx.
    inv_bind H u2. apply fail_if_ok, negb_false_iff in Hx0.
    inv_bind H u3. apply fail_if_ok, negb_false_iff, Z.eqb_eq in Hx1.
    inv_bind H u4. apply fail_if_ok, Z.ltb_ge in Hx2.
    inv_bind H u5.
    destruct (mint_unpack (a_data (l mint))) as [[]|] eqn:Em; [|discriminate].
    apply mint_unpack_ok in Em. destruct Em as [Em1 Em2].
    injection H as <-. repeat split; auto.
  - intros (H1 & H2 & H3 & H4 & H5 & H6 & ->). rewrite H1, key_eqb_refl, H2, H3.
    cbn [negb fail_if bind Z.eqb].
    rewrite (fail_if_Ok (_ <? _)) by (now apply Z.ltb_ge). cbn [bind].
    rewrite (proj2 (mint_unpack_ok _)) by auto. reflexivity.
Qed.

Lemma zeros_ta_wf : ta_wf (zeros ta_len) = true.
Proof. reflexivity. Qed.

(** Lamports the ATA program moves from the payer to a new token account. *)
Definition ata_need (E : env) (l : ledger) (k : pubkey) : Z :=
  if 0 <? a_lamports (l k) then Z.max (Z.max (rent_min E ta_len) 1 - a_lamports (l k)) 0
  else Z.max (rent_min E ta_len) 1.

Definition ata_created (E : env) (l : ledger) (payer k wallet mint : pubkey) : ledger :=
  upd (set_lamports l payer (a_lamports (l payer) - ata_need E l k))
      k (Account (a_lamports (l k) + ata_need E l k) token_id (init_ta mint wallet (zeros ta_len))).

Lemma sys_transfer_self sg l f n l' :
  sys_transfer sg l f f n = Ok l' -> leq l' l.
Proof.
  unfold sys_transfer. intros H. inv_bind H u1. inv_bind H u2. inv_bind H u3. inv_bind H u4.
  inv_bind H u5. injection H as <-. intros k.
  destruct (key_eq_dec f k) as [<-|K].
  - rewrite set_lamports_same. autorewrite with ledger.
    rewrite (acct_eta (l f)) at 1. cbn. rewrite acct_eta. cbn. f_equal. lia.
  - now rewrite !set_lamports_other.
Qed.

(** The payer can cover what is missing. *)
Definition ata_fund (E : env) (l : ledger) (payer k : pubkey) : Prop :=
  0 < ata_need E l k ->
  payer <> k /\ a_owner (l payer) = system_id /\ ata_need E l k <= a_lamports (l payer).

(** A fresh associated token account. *)
Lemma ata_create_fresh C E sg l payer k wallet mint l' :
  a_owner (l k) = system_id -> mint <> native_mint_id -> mint <> k ->
  ata_create_idempotent C E sg l payer k wallet mint = Ok l' ->
  (exists b, find_program_address C (ata_seeds wallet mint) ata_id = Some (k, b)) /\
  a_data (l k) = [] /\
  mint_wf (a_data (l mint)) = true /\ mint_init (a_data (l mint)) = 1 /\
  ata_fund E l payer k /\
  leq l' (ata_created E l payer k wallet mint).
Proof.
  intros Ho Hn Hmk H. unfold ata_create_idempotent in H.
  destruct (find_program_address C (ata_seeds wallet mint) ata_id) as [[addr b]|] eqn:Ef;
    [|discriminate].
  inv_bind H u1. apply fail_if_ok, negb_false_iff, key_eqb_true in Hx. subst addr.
  rewrite Ho in H. rewrite (key_eqb_neq system_id token_id) in H
    by (apply not_eq_sym, token_ne_system).
  cbn [andb] in H. rewrite key_eqb_refl in H. cbn [negb fail_if bind] in H.
  inv_bind H l1.
  split; [eauto|].
  apply init_account_ok in H; [|exact Hn].
  destruct H as (H1 & H2 & H3 & H4 & H5 & H6 & ->).
  (* the funded, allocated and assigned account *)
  assert (Hl1 : a_data (l k) = [] /\ ata_fund E l payer k /\
    leq l1 (upd (set_lamports l payer (a_lamports (l payer) - ata_need E l k)) k
              (Account (a_lamports (l k) + ata_need E l k) token_id (zeros ta_len)))).
  { unfold ata_fund, ata_need in *. destruct (0 <? a_lamports (l k)) eqn:El.
    - apply Z.ltb_lt in El. inv_bind Hx la. inv_bind Hx lb.
      apply sys_allocate_ok in Hx1. destruct Hx1 as (_ & D1 & D2 & _ & ->).
      apply sys_assign_ok in Hx; [|rewrite set_data_owner, D2; apply not_eq_sym, token_ne_system].
      destruct Hx as (_ & _ & _ & ->).
      set (need := Z.max (Z.max (rent_min E ta_len) 1 - a_lamports (l k)) 0) in *.
      destruct (0 <? need) eqn:En.
      + apply Z.ltb_lt in En.
        destruct (key_eq_dec payer k) as [->|Hpk].
        * exfalso. apply sys_transfer_self in Hx0.
          rewrite set_owner_lamports, set_data_lamports, Hx0 in H4. lia.
        * apply sys_transfer_ok in Hx0; [|exact Hpk].
          destruct Hx0 as (_ & _ & Y1 & Y2 & _ & ->).
          autorewrite with ledger in D1. rewrite ?set_lamports_data in D1.
          split; [exact D1|split; [auto|]].
          intros k'. destruct (key_eq_dec k k') as [<-|Kk].
          -- rewrite set_owner_same, upd_same, set_data_same. cbn. now autorewrite with ledger.
          -- rewrite set_owner_other, set_data_other, upd_other, set_lamports_other by exact Kk.
             reflexivity.
      + apply Z.ltb_ge in En. injection Hx0 as <-.
        assert (need = 0) by lia. rewrite H.
        split; [exact D1|split; [lia|]].
        intros k'. destruct (key_eq_dec k k') as [<-|Kk].
        * rewrite set_owner_same, upd_same, set_data_same. cbn. f_equal. lia.
        * rewrite set_owner_other, set_data_other, upd_other by exact Kk.
          destruct (key_eq_dec payer k') as [<-|Kp].
          -- rewrite set_lamports_same. rewrite (acct_eta (l payer)) at 1. f_equal. lia.
          -- now rewrite set_lamports_other.
    - unfold sys_create_account in Hx. inv_bind Hx u2. inv_bind Hx la. inv_bind Hx lb.
      apply sys_allocate_ok in Hx1. destruct Hx1 as (_ & D1 & D2 & _ & ->).
      apply sys_assign_ok in Hx2; [|rewrite set_data_owner, D2; apply not_eq_sym, token_ne_system].
      destruct Hx2 as (_ & _ & _ & ->).
      apply Z.ltb_ge in El.
      destruct (key_eq_dec payer k) as [->|Hpk].
      + exfalso. unfold sys_transfer in Hx. inv_bind Hx u3. inv_bind Hx u4. inv_bind Hx u5.
        apply fail_if_ok, Z.ltb_ge in Hx3. autorewrite with ledger in Hx3. lia.
      + apply sys_transfer_ok in Hx; [|exact Hpk]. destruct Hx as (_ & _ & Y1 & Y2 & _ & ->).
        rewrite set_owner_other, set_data_other in Y1, Y2 by congruence.
        split; [exact D1|split; [auto|]].
        intros k'. destruct (key_eq_dec k k') as [<-|Kk].
        * rewrite set_lamports_same, upd_same. autorewrite with ledger. reflexivity.
        * rewrite set_lamports_other, upd_other by exact Kk.
          destruct (key_eq_dec payer k') as [<-|Kp].
          -- rewrite !set_lamports_same. autorewrite with ledger.
             now rewrite set_owner_other, set_data_other by exact Kk.
          -- rewrite !set_lamports_other by exact Kp.
             now rewrite set_owner_other, set_data_other by exact Kk. }
  destruct Hl1 as (D1 & Dp & Hleq).
  assert (Hm : a_data (l1 mint) = a_data (l mint)).
  { rewrite Hleq. rewrite upd_other by congruence. apply set_lamports_data. }
  rewrite Hm in *. do 3 (split; [assumption|]). split; [exact Dp|].
  intros k'. unfold ata_created. destruct (key_eq_dec k k') as [<-|Kk].
  - rewrite set_data_same, upd_same, Hleq, upd_same. reflexivity.
  - rewrite set_data_other, upd_other by exact Kk. rewrite Hleq. now rewrite upd_other.
Qed.

Record init_accounts (accs : list meta) (pa ua st v xm om sp tp ap : meta) : Prop := {
  ia0 : nth_error accs 0 = Some pa;
  ia1 : nth_error accs 1 = Some ua;
  ia2 : nth_error accs 2 = Some st;
  ia3 : nth_error accs 3 = Some v;
  ia4 : nth_error accs 4 = Some xm;
  ia5 : nth_error accs 5 = Some om;
  ia6 : nth_error accs 6 = Some sp;
  ia7 : nth_error accs 7 = Some tp;
  ia8 : nth_error accs 8 = Some ap
}.

(** Everything a successful Initialize has checked, in terms of the ledger before. *)
Record init_pre (C : crypto) (E : env) (accs : list meta) (l : ledger) (c : Z)
    (pa ua st v xm om sp tp ap : meta) (sb vb : byte) : Prop := {
  ip_accs : init_accounts accs pa ua st v xm om sp tp ap;
  ip_payer : m_key pa = deployer_address;
  ip_signer0 : m_signer pa = true;
  ip_w0 : m_writable pa = true;
  ip_signer1 : m_signer ua = true;
  ip_w1 : m_writable ua = true;
  ip_w2 : m_writable st = true;
  ip_w3 : m_writable v = true;
  ip_xm : m_key xm = xorca_mint_id;
  ip_om : m_key om = orca_mint_id;
  ip_sp : m_key sp = system_id;
  ip_tp : m_key tp = token_id;
  ip_ap : m_key ap = ata_id;
  ip_find_st : find_state_address C = Some (m_key st, sb);
  ip_find_v : find_vault_address C (m_key st) token_id orca_mint_id = Some (m_key v, vb);
  ip_st_owner : a_owner (l (m_key st)) = system_id;
  ip_st_data : a_data (l (m_key st)) = [];
  ip_v_owner : a_owner (l (m_key v)) = system_id;
  ip_v_data : a_data (l (m_key v)) = [];
  ip_xm_owner : a_owner (l xorca_mint_id) = token_id;
  ip_xm_shape : mint_shaped (a_data (l xorca_mint_id));
  ip_xm_flag : mint_auth_flag (a_data (l xorca_mint_id)) = 1;
  ip_xm_auth : mint_auth (a_data (l xorca_mint_id)) = m_key st;
  ip_xm_supply : mint_supply (a_data (l xorca_mint_id)) = 0;
  ip_xm_freeze : mint_freeze_flag (a_data (l xorca_mint_id)) = 0;
  ip_xm_freeze_key : mint_freeze (a_data (l xorca_mint_id)) = zero_key;
  ip_xm_decimals : mint_decimals (a_data (l xorca_mint_id)) = 6;
  ip_om_live : mint_live l orca_mint_id;
  ip_om_decimals : mint_decimals (a_data (l orca_mint_id)) = 6;
  ip_cooldown : 0 <= c;
  ip_fund : can_fund E l (m_key pa) (m_key st) STATE_LEN
}.

(** The accounts Initialize writes, in terms of the ledger before. *)
Definition init_effect (E : env) (l : ledger) (pa ua st v : pubkey) (c : Z) (sb vb : byte)
  : ledger :=
  ata_created E
    (set_data (created E l pa st STATE_LEN xorca_id) st
       (state_borsh (initial_state c (byte_to_Z sb) (byte_to_Z vb) ua)))
    pa v st orca_mint_id.

Lemma splice_all {A} (new d : list A) : length new = length d -> splice 0 new d = new.
Proof.
  intros H. unfold splice. cbn [firstn app]. rewrite H. cbn [Nat.add].
  rewrite skipn_all. apply app_nil_r.
Qed.

Lemma orca_not_native : orca_mint_id <> native_mint_id.
Proof. apply ids_distinct. Qed.

Theorem init_inv C E accs l c l' evs :
  env_ok E -> no_pda_signers C accs ->
  initialize_process C E accs l c = Ok (l', evs) ->
  exists pa ua st v xm om sp tp ap sb vb,
    init_pre C E accs l c pa ua st v xm om sp tp ap sb vb /\
    m_key st <> m_key v /\
    ata_fund E (set_data (created E l (m_key pa) (m_key st) STATE_LEN xorca_id) (m_key st)
       (state_borsh (initial_state c (byte_to_Z sb) (byte_to_Z vb) (m_key ua)))) (m_key pa) (m_key v) /\
    leq l' (init_effect E l (m_key pa) (m_key ua) (m_key st) (m_key v) c sb vb) /\
    evs = [].
Proof.
  intros HE Hnp H. unfold initialize_process in H.
  inv_bind H pa. inv_bind H ua. inv_bind H st. inv_bind H v. inv_bind H xm.
  inv_bind H om. inv_bind H sp. inv_bind H tp. inv_bind H ap.
  apply get_account_ok in Hx, Hx0, Hx1, Hx2, Hx3, Hx4, Hx5, Hx6, Hx7.
  assert (Hacc : init_accounts accs pa ua st v xm om sp tp ap) by (constructor; assumption).
  inv_bind H u1. apply role_sw in Hx8. destruct Hx8 as [Spa Wpa].
  inv_bind H u2. apply fail_if_ok, negb_false_iff, key_eqb_true in Hx8.
  inv_bind H u3. apply role_w in Hx9.
  inv_bind H sbz. apply seeds_ok_iff in Hx10. destruct Hx10 as (sb & Hfs & ->).
  inv_bind H u4. apply fail_if_ok, Z.ltb_ge in Hx10.
  inv_bind H u5. apply owner_ok in Hx11.
  inv_bind H u6. apply owner_ok in Hx12.
  inv_bind H xmd. apply mint_data_ok in Hx13. destruct Hx13 as [-> Hxms].
  cbn [parse_mint tm_supply tm_mint_authority_flag tm_mint_authority tm_freeze_authority_flag
       tm_freeze_authority tm_decimals] in H.
  inv_bind H u7. apply address_ok in Hx13.
  inv_bind H u8. apply fail_if_ok, negb_false_iff, Z.eqb_eq in Hx14.
  inv_bind H u9. apply address_ok in Hx15.
  inv_bind H u10. apply fail_if_ok, negb_false_iff, Z.eqb_eq in Hx16.
  inv_bind H u11. apply fail_if_ok, negb_false_iff, Z.eqb_eq in Hx17.
  inv_bind H u12. apply fail_if_ok, negb_false_iff, key_eqb_true in Hx18.
  inv_bind H u13. apply fail_if_ok, negb_false_iff, Z.eqb_eq in Hx19.
  inv_bind H u14. apply owner_ok in Hx20.
  inv_bind H omd. apply mint_data_ok in Hx21. destruct Hx21 as [-> Homs].
  cbn [parse_mint tm_decimals] in H.
  inv_bind H u15. apply address_ok in Hx21.
  inv_bind H u16. apply fail_if_ok, negb_false_iff, Z.eqb_eq in Hx22.
  inv_bind H u17. apply role_sw in Hx23. destruct Hx23 as [Sua Wua].
  inv_bind H u18. apply address_ok in Hx23.
  inv_bind H u19. apply role_w in Hx24.
  inv_bind H u20. apply owner_ok in Hx25.
  inv_bind H u21. apply address_ok in Hx26.
  inv_bind H u22. apply address_ok in Hx27.
  destruct (find_vault_address C (m_key st) token_id (m_key om)) as [[vk vb]|] eqn:Efv;
    [|discriminate].
  inv_bind H vbz. apply seeds_ok_iff in Hx28. destruct Hx28 as (vb' & Hfv & ->).
  unfold find_vault_address in Efv. rewrite Hfv in Efv. injection Efv as <- <-.
  inv_bind H u23. apply fail_if_ok, Z.ltb_ge in Hx28.
  inv_bind H l1. inv_bind H l2. injection H as <- <-.
  rewrite byte_round in *.
  assert (Hd0 : a_data (l (m_key st)) = []).
  { apply zlen_nil. pose proof (zlen_nonneg (a_data (l (m_key st)))). lia. }
  assert (Hpda : create_program_address C (state_seeds ++ [[sb]]) xorca_id = Some (m_key st))
    by (apply find_create; exact Hfs).
  assert (Hpa_st : m_key pa <> m_key st).
  { intros K. apply (Hnp pa); [eapply nth_error_In; eassumption|assumption|].
    rewrite K. eexists. exact Hpda. }
  assert (Hsys : caller_has_key accs system_id = true).
  { rewrite <- Hx23. apply has_key_in. eapply nth_error_In; eassumption. }
  (* state creation *)
  unfold create_state_account in Hx29. inv_bind Hx29 lc. inv_bind Hx29 u24.
  injection Hx29 as <-.
  assert (Ipa : In pa accs) by (eapply nth_error_In; eassumption).
  assert (Ist : In st accs) by (eapply nth_error_In; eassumption).
  apply create_secure_ok in Hx31; auto;
    [|unfold STATE_LEN, max_data_len; lia|apply xorca_ne_system|apply HE; unfold STATE_LEN; lia].
  destruct Hx31 as (_ & Hfund & Hleq).
  assert (Hlcst : a_data (lc (m_key st)) = zeros STATE_LEN).
  { rewrite Hleq. unfold created. now rewrite upd_same. }
  rewrite Hlcst in *.
  rewrite splice_all in Hx30 by (rewrite state_borsh_length, zeros_length; reflexivity).
  set (sd := state_borsh (initial_state c (byte_to_Z sb) (byte_to_Z vb') (m_key ua))) in *.
  (* vault creation *)
  unfold cpi_ata_create in Hx30. apply invoke_signed_ok in Hx30.
  destruct Hx30 as (pdas & _ & _ & _ & Hat).
  rewrite Hx21 in *.
  assert (Hst_v : m_key st <> m_key v).
  { intros K. rewrite <- K in Hat. unfold ata_create_idempotent in Hat.
    destruct (find_program_address C (ata_seeds (m_key st) orca_mint_id) ata_id) as [[? ?]|];
      [|discriminate Hat].
    inv_bind Hat u25.
    assert (Ko : a_owner (set_data lc (m_key st) sd (m_key st)) = xorca_id).
    { rewrite set_data_owner, Hleq. unfold created. now rewrite upd_same. }
    rewrite Ko in Hat. rewrite (key_eqb_neq xorca_id token_id) in Hat
      by (apply not_eq_sym, ids_distinct).
    cbn [andb] in Hat. rewrite (key_eqb_neq _ _ xorca_ne_system) in Hat. discriminate. }
  assert (Hom_st : orca_mint_id <> m_key st).
  { intros K. rewrite K in Hx20. rewrite Hx11 in Hx20. symmetry in Hx20.
    now apply token_ne_system in Hx20. }
  assert (Hom_v : orca_mint_id <> m_key v).
  { intros K. rewrite K in Hx20. rewrite Hx25 in Hx20. symmetry in Hx20.
    now apply token_ne_system in Hx20. }
  assert (Hl1o : forall k, k <> m_key st -> a_owner (set_data lc (m_key st) sd k) = a_owner (l k)).
  { intros k K. rewrite set_data_owner, Hleq. unfold created. rewrite upd_other by congruence.
    apply set_lamports_owner. }
  assert (Hl1d : forall k, k <> m_key st -> a_data (set_data lc (m_key st) sd k) = a_data (l k)).
  { intros k K. rewrite set_data_other by congruence. rewrite Hleq. unfold created.
    rewrite upd_other by congruence. apply set_lamports_data. }
  apply ata_create_fresh in Hat;
    [|rewrite Hl1o by congruence; assumption|exact orca_not_native|exact Hom_v].
  destruct Hat as (_ & Hvd & Hmw & Hmi & Hfu & Hfin).
  rewrite Hl1d in Hvd by congruence. rewrite Hl1d in Hmw, Hmi by congruence.
  exists pa, ua, st, v, xm, om, sp, tp, ap, sb, vb'.
  assert (Hq : leq (set_data lc (m_key st) sd)
                   (set_data (created E l (m_key pa) (m_key st) STATE_LEN xorca_id) (m_key st) sd))
    by (now apply leq_set_data).
  split; [|split; [exact Hst_v|split; [|split; [|reflexivity]]]].
  - rewrite Hx15 in *. constructor; auto. repeat split; auto.
  - fold sd. unfold ata_fund, ata_need in *. now rewrite <- !Hq.
  - unfold init_effect. fold sd. eapply leq_trans; [exact Hfin|].
    unfold ata_created, ata_need. rewrite !Hq. apply leq_upd. now apply leq_set_lamports.
Qed.
