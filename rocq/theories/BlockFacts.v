(** Creating the vault's associated token account early blocks Initialize (C45). *)
From Verif Require Import Spec BytesFacts FieldFacts LedgerFacts TokenFacts ParseFacts CpiFacts AssertFacts
  LayoutFacts StakeFacts UnstakeFacts InitFacts Totals TokenStep VaultStep Calm HistoryFacts LifeFacts Pool PoolStake PoolUnstake PoolInit PoolHistory FailFacts LiveFacts ConserveFacts.

(** No pool, and the vault's address is taken. *)
Record blocked (C : crypto) (l : ledger) (sk vk : pubkey) : Prop := {
  bl_fresh : fresh C l;
  bl_vault : vault_ok l vk orca_mint_id sk;
  bl_lam : 0 < a_lamports (l vk)
}.

Lemma blocked_no_init C l sk vk E accs c r sb :
  blocked C l sk vk -> find_state_address C = Some (sk, sb) -> is_vault C sk vk ->
  sysvars_ok E -> honest_metas C accs ->
  initialize_process C E accs l c = Ok r -> False.
Proof.
  intros HB Hs [vb Hv] HE Hh H. destruct r as [l' evs]. apply init_inv in H; [|now apply sysvars_env|exact Hh].
  destruct H as (? & ? & st & v & ? & ? & ? & ? & ? & sb' & vb' & Pre & _). destruct Pre.
  rewrite ip_find_st in Hs. injection Hs as <- <-. rewrite ip_find_v in Hv. injection Hv as <- <-.
  rewrite (vo_owner _ _ _ _ (bl_vault _ _ _ _ HB)) in ip_v_owner. now apply token_ne_system in ip_v_owner.
Qed.

Lemma blocked_step C l sk vk sb o :
  ordinary_state_address C -> blocked C l sk vk -> find_state_address C = Some (sk, sb) -> is_vault C sk vk ->
  op_ok C l o -> blocked C (fst (run_op C l o)) sk vk.
Proof.
  intros Hord HB Hs Hv Ho. destruct (is_call o) eqn:Ec.
  - destruct o as [E accs data| | | | | |]; try discriminate. cbn [op_ok run_op] in *. destruct Ho as [HE Hh].
    destruct (process_instruction C E xorca_id accs l data) as [[l' evs]|e] eqn:H; [|exact HB].
    destruct (fresh_others_fail _ _ _ _ _ _ _ (bl_fresh _ _ _ _ HB) HE Hh H) as (c & _ & _ & Hi).
    destruct (blocked_no_init _ _ _ _ _ _ _ _ _ HB Hs Hv HE Hh Hi).
  - destruct HB as [HF HV HL].
    destruct (outside_calm C l o (fr_lam _ _ HF) Ho Ec) as [HC _].
    assert (Hp : program_signs_for C sk) by (eapply find_is_pda; exact Hs).
    assert (Hctl : controls C l sk).
    { split; [exact Hp|]. split; [eapply Hord, Hs|]. right. now apply (fr_pdas _ _ HF). }
    destruct (ca_vault _ _ _ HC vk orca_mint_id sk Hctl HL HV) as (A1 & A2 & A3).
    constructor; [eapply fresh_calm; eassumption|exact A1|lia].
Qed.

Lemma blocked_history C l sk vk sb ops l' evs :
  ordinary_state_address C -> blocked C l sk vk -> find_state_address C = Some (sk, sb) -> is_vault C sk vk ->
  history C l ops l' evs -> blocked C l' sk vk.
Proof.
  intros Hord HB Hs Hv H. induction H as [|ops l' evs o H IH Ho]; [exact HB|].
  eapply blocked_step; eauto.
Qed.

(** Creating the account succeeds whenever the address is unused and the payer has the rent. *)
Lemma ata_live C E sg l payer vk sk mint b :
  mint <> native_mint_id -> sg payer = true ->
  find_program_address C (ata_seeds sk mint) ata_id = Some (vk, b) ->
  wallet l vk -> wallet l payer -> payer <> vk -> mint <> vk -> mint <> payer ->
  mint_live l mint -> is_u64 (rent_min E ta_len) -> 0 <= a_lamports (l vk) ->
  Z.max (rent_min E ta_len) 1 <= a_lamports (l payer) ->
  a_lamports (l vk) + a_lamports (l payer) <= u64_max ->
  exists l', ata_create_idempotent C E sg l payer vk sk mint = Ok l' /\
    a_data (l' vk) = init_ta mint sk (zeros ta_len) /\ a_owner (l' vk) = token_id /\
    0 < a_lamports (l' vk).
Proof.
  intros Nn Sp Hf [W1 W2] [P1 P2] Npv Nov Nop (M1 & M2 & M3) Hr Hl0 Hl1 Hl2.
  assert (Sv : with_signer sg vk vk = true) by (unfold with_signer; now rewrite key_eqb_refl).
  assert (Sp' : with_signer sg vk payer = true) by (unfold with_signer; now rewrite Sp, orb_true_r).
  assert (Ln : ta_len <= max_data_len) by (vm_compute; discriminate).
  unfold ata_create_idempotent. rewrite Hf, key_eqb_refl. cbn [negb fail_if bind].
  rewrite W1. rewrite (key_eqb_neq system_id token_id) by (apply not_eq_sym, token_ne_system).
  cbn [andb]. rewrite key_eqb_refl. cbn [negb fail_if bind]. cbv zeta.
  set (rent := Z.max (rent_min E ta_len) 1) in *.
  assert (K : exists l1,
    (if 0 <? a_lamports (l vk)
     then let? la := if 0 <? Z.max (rent - a_lamports (l vk)) 0
              then sys_transfer sg l payer vk (Z.max (rent - a_lamports (l vk)) 0) else Ok l in
          let? lb := sys_allocate (with_signer sg vk) la vk ta_len in
          sys_assign (with_signer sg vk) lb vk token_id
     else sys_create_account (with_signer sg vk) l payer vk rent ta_len token_id) = Ok l1 /\
    a_owner (l1 vk) = token_id /\ a_data (l1 vk) = zeros ta_len /\ rent <= a_lamports (l1 vk) /\
    a_data (l1 mint) = a_data (l mint)).
  { destruct (0 <? a_lamports (l vk)) eqn:Q.
    - apply Z.ltb_lt in Q. set (need := Z.max (rent - a_lamports (l vk)) 0).
      assert (T : exists la, (if 0 <? need then sys_transfer sg l payer vk need else Ok l) = Ok la /\
        a_owner (la vk) = system_id /\ a_data (la vk) = [] /\ rent <= a_lamports (la vk) /\
        a_data (la mint) = a_data (l mint)).
      { destruct (0 <? need) eqn:N.
        - apply Z.ltb_lt in N.
          exists (set_lamports (set_lamports l payer (a_lamports (l payer) - need)) vk (a_lamports (l vk) + need)).
          split.
          + apply sys_transfer_ok; [exact Npv|]. unfold need. repeat split; auto; lia.
          + autorewrite with ledger. rewrite ?set_lamports_same_lamports. unfold need in *.
            repeat split; auto. lia.
        - apply Z.ltb_ge in N. exists l. unfold need in N. repeat split; auto. lia. }
      destruct T as (la & -> & T1 & T2 & T3 & T4). cbn [bind].
      rewrite (proj2 (sys_allocate_ok _ _ _ _ _) (conj Sv (conj T2 (conj T1 (conj Ln eq_refl))))). cbn [bind].
      exists (set_owner (set_data la vk (zeros ta_len)) vk token_id). split.
      + apply sys_assign_ok; [rewrite set_data_owner, T1; apply not_eq_sym, token_ne_system|].
        rewrite set_data_owner, T1. repeat split; auto. rewrite set_data_same. reflexivity.
      + rewrite set_owner_same, set_owner_other by congruence.
        rewrite set_data_same, set_data_other by congruence. cbn. repeat split; auto.
    - apply Z.ltb_ge in Q. assert (L0 : a_lamports (l vk) = 0) by lia.
      unfold sys_create_account. rewrite L0. cbn [Z.ltb Z.compare fail_if bind].
      rewrite (proj2 (sys_allocate_ok _ _ _ _ _) (conj Sv (conj W2 (conj W1 (conj Ln eq_refl))))). cbn [bind].
      assert (As : sys_assign (with_signer sg vk) (set_data l vk (zeros ta_len)) vk token_id
                   = Ok (set_owner (set_data l vk (zeros ta_len)) vk token_id)).
      { apply sys_assign_ok; [rewrite set_data_owner, W1; apply not_eq_sym, token_ne_system|].
        rewrite set_data_owner, W1. repeat split; auto. rewrite set_data_same. reflexivity. }
      rewrite As. cbn [bind].
      set (l2 := set_owner (set_data l vk (zeros ta_len)) vk token_id).
      assert (Ep : l2 payer = l payer)
        by (unfold l2; rewrite set_owner_other, set_data_other by congruence; reflexivity).
      exists (set_lamports (set_lamports l2 payer (a_lamports (l payer) - rent)) vk (a_lamports (l2 vk) + rent)).
      assert (E2 : a_lamports (l2 vk) = 0).
      { unfold l2. rewrite set_owner_same. cbn. rewrite set_data_same. cbn. exact L0. }
      split.
      + rewrite <- Ep. apply sys_transfer_ok; [exact Npv|]. rewrite Ep, E2. repeat split; auto; lia.
      + rewrite set_lamports_same_lamports, !set_lamports_owner, !set_lamports_data, E2. unfold l2.
        rewrite set_owner_same, set_owner_other by congruence.
        rewrite set_data_same, set_data_other by congruence. cbn. repeat split; auto. lia. }
  destruct K as (l1 & -> & K1 & K2 & K3 & K4). cbn [bind].
  exists (set_data l1 vk (init_ta mint sk (zeros ta_len))). split.
  - apply init_account_ok; [exact Nn|]. rewrite K1, K2, K4. unfold rent in K3.
    repeat split; auto; lia.
  - rewrite set_data_same. cbn. repeat split; auto. lia.
Qed.

Lemma precreate C E sg l payer vk sk b :
  sg payer = true ->
  find_program_address C (ata_seeds sk orca_mint_id) ata_id = Some (vk, b) ->
  wallet l vk -> wallet l payer -> payer <> vk -> orca_mint_id <> vk -> orca_mint_id <> payer ->
  mint_live l orca_mint_id -> is_u64 (rent_min E ta_len) -> 0 <= a_lamports (l vk) ->
  Z.max (rent_min E ta_len) 1 <= a_lamports (l payer) ->
  a_lamports (l vk) + a_lamports (l payer) <= u64_max ->
  exists l', ata_create_idempotent C E sg l payer vk sk orca_mint_id = Ok l' /\
    a_data (l' vk) = init_ta orca_mint_id sk (zeros ta_len) /\ a_owner (l' vk) = token_id /\
    0 < a_lamports (l' vk).
Proof. apply ata_live, orca_not_native. Qed.

Lemma no_state_fresh C l :
  ordinary_state_address C -> reaches C l -> (forall k, ~ is_state l k) -> fresh C l.
Proof.
  intros Hord (l0 & ops & evs & Hg & H) Hn. destruct (reachable _ _ _ _ _ Hord Hg H) as [[HF _]|(sk & vk & P & HP)].
  - exact HF.
  - destruct (Hn sk). eapply pool_is_state, HP.
Qed.

Lemma mint_not_wallet l k m : mint_live l m -> wallet l k -> m <> k.
Proof. intros (H & _) [K _] E. subst. rewrite H in K. now apply token_ne_system in K. Qed.

Lemma initialize_blocked C l E payer sk sb vk ops l' evs :
  ordinary_state_address C -> reaches C l -> (forall k, ~ is_state l k) ->
  find_state_address C = Some (sk, sb) -> is_vault C sk vk ->
  wallet l vk -> wallet l payer -> payer <> vk ->
  Z.max (rent_min E 165) 1 <= a_lamports (l payer) ->
  a_lamports (l vk) + a_lamports (l payer) <= u64_max ->
  let o := OpAta E [payer] payer vk sk orca_mint_id in
  op_ok C l o ->
  history C (fst (run_op C l o)) ops l' evs ->
  token_account_of l' vk orca_mint_id sk /\ (forall k, ~ is_state l' k) /\
  forall o' c accs t, op_ok C l' o' -> ~ performs C l' o' (Initialize c) accs t.
Proof.
  intros Hord Hr Hn Hs Hv Wv Wp Npv Hl1 Hl2 o Ho H.
  pose proof (no_state_fresh _ _ Hord Hr Hn) as HF.
  assert (HB : blocked C (fst (run_op C l o)) sk vk).
  { pose proof Ho as Ho'. cbn [o op_ok] in Ho. destruct Ho as [HE Hh]. destruct Hv as [vb Hv].
    assert (Nov : orca_mint_id <> vk) by (eapply mint_not_wallet; [apply HF|exact Wv]).
    assert (Nop : orca_mint_id <> payer) by (eapply mint_not_wallet; [apply HF|exact Wp]).
    destruct (precreate C E (signs [payer]) l payer vk sk vb) as (l1 & R & D & O & L); auto.
    - unfold signs. cbn. now rewrite key_eqb_refl.
    - apply HF.
    - apply HE. unfold ta_len. lia.
    - apply HF.
    - destruct (outside_calm C l o (fr_lam _ _ HF) Ho' eq_refl) as [HC _].
      assert (Er : fst (run_op C l o) = l1) by (cbn [o run_op]; rewrite R; reflexivity).
      constructor; [eapply fresh_calm; eassumption|..]; rewrite Er; [|exact L].
      destruct (init_ta_fields orca_mint_id sk (zeros ta_len) eq_refl)
        as (T0 & T1 & T2 & T3 & T4 & T5 & T6 & T7 & T8).
      constructor; rewrite ?D, ?O; auto. rewrite T5. discriminate. }
  pose proof (blocked_history _ _ _ _ _ _ _ _ Hord HB Hs Hv H) as HB'.
  destruct (bl_vault _ _ _ _ HB'). split; [|split].
  - repeat split; auto. apply ta_unpack_ok. split; assumption.
  - intros k [K1 K2]. exact (fresh_no_state _ _ _ (bl_fresh _ _ _ _ HB') K1 K2).
  - intros o' c accs t Ho' Hp.
    destruct (performs_run _ _ _ _ _ _ Hp) as (E' & data & l2 & evs' & -> & Et & He & Hrun & Hrn).
    destruct Ho' as [HE' Hh']. apply (call_result _ _ _ _ _ _ _ _ He) in Hrun.
    exact (blocked_no_init _ _ _ _ _ _ _ _ _ HB' Hs Hv HE' Hh' Hrun).
Qed.

(** ** Initialize with the documented accounts *)
Lemma init_prefix C E l accs c auth sk sb vk vb :
  fresh C l -> mints_ready l sk ->
  find_state_address C = Some (sk, sb) -> find_vault_address C sk token_id orca_mint_id = Some (vk, vb) ->
  fills accs (init_roles deployer_address auth sk vk) -> 0 <= c ->
  exists pa st v om sp tp,
    In pa accs /\ In st accs /\ In v accs /\ In om accs /\ In sp accs /\ In tp accs /\
    caller_has_key accs ata_id = true /\
    m_key pa = deployer_address /\ m_signer pa = true /\ m_writable pa = true /\
    m_key st = sk /\ m_writable st = true /\ m_key v = vk /\ m_writable v = true /\
    m_key om = orca_mint_id /\ m_key sp = system_id /\ m_key tp = token_id /\
    initialize_process C E accs l c =
      if key_eqb (a_owner (l vk)) system_id then
        let? l1 := create_state_account C E accs l pa st [state_seeds ++ [[Z_to_byte (byte_to_Z sb)]]]
                     (initial_state c (byte_to_Z sb) (byte_to_Z vb) auth) in
        let? l2 := cpi_ata_create C E accs l1 pa v st om sp tp in
        Ok (l2, [])
      else Err (ECustom 6004).
Proof.
  intros HF (M1 & M2 & M3 & M4 & M5 & M6 & M7 & M8 & M9) Hs Hv Hf Hc.
  destruct (fills_nth _ _ 0 _ _ _ Hf eq_refl) as (m0 & N0 & K0 & S0 & W0).
  destruct (fills_nth _ _ 1 _ _ _ Hf eq_refl) as (m1 & N1 & K1 & S1 & W1).
  destruct (fills_nth _ _ 2 _ _ _ Hf eq_refl) as (m2 & N2 & K2 & _ & W2).
  destruct (fills_nth _ _ 3 _ _ _ Hf eq_refl) as (m3 & N3 & K3 & _ & W3).
  destruct (fills_nth _ _ 4 _ _ _ Hf eq_refl) as (m4 & N4 & K4 & _ & _).
  destruct (fills_nth _ _ 5 _ _ _ Hf eq_refl) as (m5 & N5 & K5 & _ & _).
  destruct (fills_nth _ _ 6 _ _ _ Hf eq_refl) as (m6 & N6 & K6 & _ & _).
  destruct (fills_nth _ _ 7 _ _ _ Hf eq_refl) as (m7 & N7 & K7 & _ & _).
  destruct (fills_nth _ _ 8 _ _ _ Hf eq_refl) as (m8 & N8 & K8 & _ & _).
  exists m0, m2, m3, m5, m6, m7.
  do 6 (split; [eapply nth_error_In; eassumption|]).
  split; [rewrite <- K8; apply has_key_in; eapply nth_error_In; eassumption|].
  do 10 (split; [auto|]).
  destruct (fr_pdas _ _ HF sk) as [P1 P2]; [eapply find_is_pda; exact Hs|].
  pose proof (fr_orca _ _ HF) as O.
  assert (X : mint_shaped (a_data (l xorca_mint_id))).
  { apply mint_live_shaped. apply unit_tt, mint_unpack_ok in M2. destruct M2. repeat split; auto. }
  pose proof (mint_live_shaped _ _ O) as Y.
  unfold initialize_process.
  rewrite (proj2 (get_account_ok _ _ _) N0), (proj2 (get_account_ok _ _ _) N1), (proj2 (get_account_ok _ _ _) N2),
    (proj2 (get_account_ok _ _ _) N3), (proj2 (get_account_ok _ _ _) N4), (proj2 (get_account_ok _ _ _) N5),
    (proj2 (get_account_ok _ _ _) N6), (proj2 (get_account_ok _ _ _) N7), (proj2 (get_account_ok _ _ _) N8).
  cbn [bind].
  rewrite (proj2 (role_sw m0 tt) (conj (S0 eq_refl) (W0 eq_refl))). cbn [bind].
  rewrite K0, key_eqb_refl. cbn [negb fail_if bind].
  rewrite (proj2 (role_w m2 tt) (W2 eq_refl)). cbn [bind].
  rewrite (proj2 (seeds_ok_iff C m2 xorca_id state_seeds (byte_to_Z sb))) by (exists sb; rewrite K2; auto).
  cbn [bind]. cbv zeta. rewrite K2, P2. change (0 <? zlen (@nil byte)) with false. cbn [fail_if bind].
  rewrite (proj2 (owner_ok l m2 system_id tt)) by (now rewrite K2). cbn [bind].
  rewrite (proj2 (owner_ok l m4 token_id tt)) by (now rewrite K4). cbn [bind].
  rewrite (proj2 (mint_data_ok l m4 _)) by (split; [reflexivity|now rewrite K4]). cbn [bind]. rewrite K4.
  cbn [parse_mint tm_supply tm_mint_authority_flag tm_mint_authority tm_freeze_authority_flag
       tm_freeze_authority tm_decimals].
  rewrite (proj2 (address_ok m2 _ tt)) by congruence. cbn [bind].
  unfold supply in M7. rewrite M7. cbn [Z.eqb negb fail_if bind].
  rewrite (proj2 (address_ok m4 _ tt)) by congruence. cbn [bind].
  rewrite M3, M5, M6, M8, key_eqb_refl. cbn [Z.eqb Pos.eqb negb fail_if bind].
  rewrite (proj2 (owner_ok l m5 token_id tt)) by (rewrite K5; apply O). cbn [bind].
  rewrite (proj2 (mint_data_ok l m5 _)) by (split; [reflexivity|now rewrite K5]). cbn [bind]. rewrite K5.
  cbn [parse_mint tm_decimals]. rewrite M9.
  rewrite (proj2 (address_ok m5 _ tt)) by congruence. cbn [Z.eqb Pos.eqb negb fail_if bind].
  rewrite (proj2 (role_sw m1 tt) (conj (S1 eq_refl) (W1 eq_refl))). cbn [bind].
  rewrite (proj2 (address_ok m6 _ tt)) by congruence. cbn [bind].
  rewrite (proj2 (role_w m3 tt) (W3 eq_refl)). cbn [bind].
  unfold assert_account_owner at 1. rewrite K3. destruct (key_eqb (a_owner (l vk)) system_id); [|reflexivity].
  cbn [negb fail_if bind].
  rewrite (proj2 (address_ok m7 _ tt)) by congruence. cbn [bind].
  rewrite (proj2 (address_ok m8 _ tt)) by congruence. cbn [bind].
  rewrite Hv.
  rewrite (proj2 (seeds_ok_iff C m3 ata_id (vault_seeds sk token_id orca_mint_id) (byte_to_Z vb)))
    by (exists vb; rewrite K3; auto).
  cbn [bind]. rewrite (fail_if_Ok (_ <? _)) by (now apply Z.ltb_ge). cbn [bind]. rewrite K1. reflexivity.
Qed.

Lemma initialize_error C E l accs data c auth sk sb vk :
  ordinary_state_address C -> reaches C l -> (forall k, ~ is_state l k) -> mints_ready l sk ->
  find_state_address C = Some (sk, sb) -> is_vault C sk vk ->
  fills accs (init_roles deployer_address auth sk vk) -> encodes data (Initialize c) -> 0 <= c ->
  a_owner (l vk) <> system_id ->
  process_instruction C E xorca_id accs l data = Err (ECustom 6004).
Proof.
  intros Hord Hr Hn Hm Hs [vb Hv] Hf He Hc Ho. pose proof (no_state_fresh _ _ Hord Hr Hn) as HF.
  destruct (init_prefix C E l accs c auth sk sb vk vb HF Hm Hs Hv Hf Hc)
    as (pa & st & v & om & sp & tp & _ & _ & _ & _ & _ & _ & _ & _ & _ & _ & _ & _ & _ & _ & _ & _ & _ & H).
  rewrite (call_is C E accs data (Initialize c) l He). rewrite H. now rewrite (key_eqb_neq _ _ Ho).
Qed.

Lemma initialize_live C E l accs data c auth sk sb vk :
  ordinary_state_address C -> deployer_has_key C -> reaches C l -> (forall k, ~ is_state l k) -> mints_ready l sk ->
  find_state_address C = Some (sk, sb) -> is_vault C sk vk -> sk <> vk ->
  op_ok C l (OpCall E accs data) ->
  fills accs (init_roles deployer_address auth sk vk) -> encodes data (Initialize c) -> 0 <= c ->
  wallet l vk -> wallet l deployer_address ->
  rent_min E 2048 + rent_min E 165 <= a_lamports (l deployer_address) ->
  a_lamports (l sk) + a_lamports (l vk) + a_lamports (l deployer_address) <= u64_max ->
  is_ok (process_instruction C E xorca_id accs l data) = true.
Proof.
  intros Hord Hdep Hr Hn Hm Hs [vb Hv] Nsv [HE Hh] Hf He Hc [Wv1 Wv2] [Wd1 Wd2] Hl1 Hl2.
  pose proof (no_state_fresh _ _ Hord Hr Hn) as HF.
  destruct (init_prefix C E l accs c auth sk sb vk vb HF Hm Hs Hv Hf Hc)
    as (pa & st & v & om & sp & tp & I1 & I2 & I3 & I4 & I5 & I6 & I7 & K1 & S1 & W1 & K2 & W2 & K3 & W3 & K4 & K5 & K6 & H).
  rewrite (call_is C E accs data (Initialize c) l He), H, Wv1, key_eqb_refl. clear H.
  pose proof (fr_lam _ _ HF) as L0. pose proof (L0 sk). pose proof (L0 vk). pose proof (L0 deployer_address).
  destruct (fr_pdas _ _ HF sk) as [P1 P2]; [eapply find_is_pda; exact Hs|].
  assert (Nds : deployer_address <> sk).
  { intros Q. apply program_address_off_curve in Hs. unfold deployer_has_key in Hdep. congruence. }
  assert (Ndv : deployer_address <> vk).
  { intros Q. apply program_address_off_curve in Hv. unfold deployer_has_key in Hdep. congruence. }
  pose proof (proj2 HE 2048 ltac:(lia)) as [R1 R2]. pose proof (proj2 HE 165 ltac:(lia)) as [R3 R4].
  unfold create_state_account. rewrite byte_round.
  assert (Hsys : caller_has_key accs system_id = true) by (rewrite <- K5; now apply has_key_in).
  assert (Hpda : create_program_address C (state_seeds ++ [[sb]]) xorca_id = Some (m_key st))
    by (rewrite K2; apply find_create; exact Hs).
  assert (Hst1 : a_owner (l (m_key st)) = system_id) by (now rewrite K2).
  assert (Hst2 : a_data (l (m_key st)) = []) by (now rewrite K2).
  assert (Hne : m_key pa <> m_key st) by congruence.
  assert (Hsp : 0 <= STATE_LEN <= max_data_len) by (unfold STATE_LEN, max_data_len; lia).
  assert (Hrm : 0 <= rent_min E STATE_LEN) by (unfold is_u64, STATE_LEN in *; lia).
  destruct (create_secure_run C E accs l pa st STATE_LEN xorca_id (state_seeds ++ [[sb]])) as [lc Hlc]; auto.
  { apply xorca_ne_system. }
  { intros _. unfold rent_need, STATE_LEN in *. rewrite K1, K2. repeat split; auto; lia. }
  rewrite Hlc. cbn [bind].
  apply create_secure_ok in Hlc; auto; [|apply xorca_ne_system]. destruct Hlc as (_ & _ & Hq).
  rewrite K1, K2 in Hq.
  assert (Hd : a_data (lc sk) = zeros STATE_LEN) by (rewrite Hq; unfold created; now rewrite upd_same).
  rewrite K2, Hd. set (sd := state_borsh _).
  assert (Lsd : length sd = length (zeros STATE_LEN)) by (unfold sd; rewrite state_borsh_length, zeros_length; reflexivity).
  rewrite splice_all by exact Lsd. unfold zlen at 2. rewrite Lsd.
  rewrite fail_if_Ok by (apply Z.ltb_irrefl). cbn [bind].
  set (l1 := set_data lc sk sd).
  assert (Q : forall k, k <> sk -> a_owner (l1 k) = a_owner (l k) /\ a_data (l1 k) = a_data (l k)).
  { intros k K. unfold l1. rewrite set_data_other by congruence. rewrite Hq. unfold created.
    rewrite upd_other by congruence. now autorewrite with ledger. }
  assert (Qv : a_lamports (l1 vk) = a_lamports (l vk)).
  { unfold l1. rewrite set_data_other by congruence. rewrite Hq. unfold created.
    rewrite upd_other by congruence. now rewrite set_lamports_other by congruence. }
  assert (Qd : a_lamports (l1 deployer_address) = a_lamports (l deployer_address) - rent_need E l sk STATE_LEN).
  { unfold l1. rewrite set_data_other by congruence. rewrite Hq. unfold created.
    rewrite upd_other by congruence. apply set_lamports_same_lamports. }
  assert (Nos : orca_mint_id <> sk) by (eapply mint_not_wallet; [apply HF|split; assumption]).
  assert (Nov : orca_mint_id <> vk) by (eapply mint_not_wallet; [apply HF|split; assumption]).
  assert (Nod : orca_mint_id <> deployer_address) by (eapply mint_not_wallet; [apply HF|split; assumption]).
  destruct (Q vk) as [V1 V2]; [congruence|]. destruct (Q deployer_address Nds) as [D1 D2].
  destruct (Q orca_mint_id Nos) as [O1 O2].
  pose proof (fr_orca _ _ HF) as HO.
  destruct (precreate C E (signer_of [Meta deployer_address true true; Meta vk false true; Meta sk false false;
     Meta orca_mint_id false false; Meta system_id false false; Meta token_id false false]) l1
     deployer_address vk sk vb) as (l2 & Hrun & _); auto.
  { split; congruence. }
  { split; congruence. }
  { unfold mint_live. rewrite O1, O2. exact HO. }
  { rewrite Qv. lia. }
  { rewrite Qd. unfold rent_need, STATE_LEN, ta_len. lia. }
  { rewrite Qv, Qd. unfold rent_need, STATE_LEN, is_u64 in *. lia. }
  unfold cpi_ata_create. rewrite K1, K2, K3, K4, K5, K6.
  match goal with |- is_ok (let? x := ?e in _) = true => assert (Hc2 : e = Ok l2) end.
  { apply invoke_signed_ok. exists []. split; [reflexivity|]. split; [exact I7|]. split; [|exact Hrun].
    cbn [forallb]. rewrite <- K1 at 1. rewrite <- K2 at 1. rewrite <- K3 at 1. rewrite <- K4 at 1. rewrite <- K5 at 1. rewrite <- K6 at 1.
    rewrite allowed_sw, allowed_w, !allowed_r by assumption. reflexivity. }
  rewrite Hc2. reflexivity.
Qed.
