(** What the first Initialize answers (C64). *)
From Verif Require Import Spec ErrorSpec BytesFacts FieldFacts LedgerFacts TokenFacts ParseFacts CpiFacts
  AssertFacts LayoutFacts MathFacts StakeFacts InitFacts CodecFacts Totals OutsideFacts PoolInit PoolHistory HistoryFacts
  LifeFacts EffectFacts ClientSpec FailFacts LiveFacts RaiseFacts ErrorFacts BlockFacts VerdictFacts.

Theorem first_initialize_answers C E l sk sb vk accs data payer auth c :
  ordinary_state_address C -> reaches C l -> (forall k, ~ is_state l k) ->
  find_state_address C = Some (sk, sb) -> is_vault C sk vk ->
  encodes data (Initialize c) -> fills accs (init_roles payer auth sk vk) ->
  a_owner (l xorca_mint_id) = token_id -> mint_unpack (a_data (l xorca_mint_id)) = Ok tt ->
  let answer := process_instruction C E xorca_id accs l data in
  let mint := a_data (l xorca_mint_id) in
  (payer <> deployer_address -> answer = Err (ECustom (code UnauthorizedDeployerAccess))) /\
  (payer = deployer_address ->
    (mint_auth mint <> sk -> answer = Err (ECustom (code IncorrectAccountAddress))) /\
    (mint_auth mint = sk -> ~ mints_ready l sk -> answer = Err (ECustom (code InvalidAccountData))) /\
    (mints_ready l sk -> a_owner (l vk) <> system_id -> answer = Err (ECustom (code IncorrectOwner))) /\
    (mints_ready l sk -> a_owner (l vk) = system_id -> c < 0 ->
       answer = Err (ECustom (code InvalidCoolDownPeriod)))).
Proof.
  intros Hord Hr Hn Hs [vb Hv] Henc Hf M1 M2. cbv zeta.
  pose proof (no_state_fresh _ _ Hord Hr Hn) as HF.
  rewrite (call_is _ _ _ _ _ _ Henc).
  split; [intros Hp; eapply init_stranger; eauto|]. intros ->.
  stake_start tt Hf. destruct (fills_nth _ _ 8 _ _ _ Hf eq_refl) as (m8 & N8 & K8 & _ & W8).
  destruct (fills_nth _ _ 1 _ _ _ Hf eq_refl) as (m1' & N1' & _ & S1 & _).
  rewrite N1 in N1'. assert (m1' = m1) by congruence. subst m1'. clear N1'.
  destruct (fr_pdas _ _ HF sk) as [P1 P2]; [eapply find_is_pda; exact Hs|].
  pose proof (fr_orca _ _ HF) as O.
  assert (X : mint_shaped (a_data (l xorca_mint_id))).
  { apply mint_live_shaped. apply unit_tt, mint_unpack_ok in M2. destruct M2. repeat split; auto. }
  pose proof (mint_live_shaped _ _ O) as Y.
  assert (A : forall r, (forall r', r' = r ->
    (check? assert_account_address m2 (mint_auth (a_data (l xorca_mint_id))) in
     check? fail_if (negb (supply l =? 0)) (custom InvalidAccountData) in
     check? fail_if (negb (mint_auth_flag (a_data (l xorca_mint_id)) =? 1)) (custom InvalidAccountData) in
     check? fail_if (negb (mint_freeze_flag (a_data (l xorca_mint_id)) =? 0)) (custom InvalidAccountData) in
     check? fail_if (negb (key_eqb (mint_freeze (a_data (l xorca_mint_id))) zero_key)) (custom InvalidAccountData) in
     check? fail_if (negb (mint_decimals (a_data (l xorca_mint_id)) =? 6)) (custom InvalidAccountData) in
     check? fail_if (negb (mint_decimals (a_data (l orca_mint_id)) =? 6)) (custom InvalidAccountData) in
     check? fail_if (negb (key_eqb (a_owner (l vk)) system_id)) (custom IncorrectOwner) in
     check? fail_if (c <? 0) (custom InvalidCoolDownPeriod) in Ok tt) = Err r') ->
    initialize_process C E accs l c = Err r).
  { intros r H. specialize (H r eq_refl). unfold initialize_process.
    got. ok role_sw (auto). rewrite K0, key_eqb_refl. cbn [negb fail_if bind].
    ok role_w (auto). ok seeds_ok_iff (exists sb; rewrite K2; split; [exact Hs|reflexivity]). cbv zeta.
    rewrite K2, P2. change (0 <? zlen (@nil byte)) with false. cbn [fail_if bind].
    ok owner_ok (rewrite K2; exact P1). ok owner_ok (rewrite K4; exact M1).
    rewrite (proj2 (mint_data_ok l m4 _)) by (split; [reflexivity|now rewrite K4]). cbn [bind]. rewrite K4.
    cbn [parse_mint tm_supply tm_mint_authority_flag tm_mint_authority tm_freeze_authority_flag
       tm_freeze_authority tm_decimals].
    unfold supply in H.
    destruct (assert_account_address m2 (mint_auth (a_data (l xorca_mint_id)))); cbn [bind] in *; [|now inversion H].
    destruct (negb (mint_supply (a_data (l xorca_mint_id)) =? 0)); cbn [fail_if bind] in *; [now inversion H|].
    ok address_ok (exact K4).
    destruct (negb (mint_auth_flag (a_data (l xorca_mint_id)) =? 1)); cbn [fail_if bind] in *; [now inversion H|].
    destruct (negb (mint_freeze_flag (a_data (l xorca_mint_id)) =? 0)); cbn [fail_if bind] in *; [now inversion H|].
    destruct (negb (key_eqb (mint_freeze (a_data (l xorca_mint_id))) zero_key)); cbn [fail_if bind] in *; [now inversion H|].
    destruct (negb (mint_decimals (a_data (l xorca_mint_id)) =? 6)); cbn [fail_if bind] in *; [now inversion H|].
    ok owner_ok (rewrite K5; apply O).
    rewrite (proj2 (mint_data_ok l m5 _)) by (split; [reflexivity|now rewrite K5]). cbn [bind]. rewrite K5.
    cbn [parse_mint tm_decimals]. ok address_ok (exact K5).
    destruct (negb (mint_decimals (a_data (l orca_mint_id)) =? 6)); cbn [fail_if bind] in *; [now inversion H|].
    ok role_sw (auto). ok address_ok (exact K6). ok role_w (auto).
    unfold assert_account_owner at 1. rewrite K3.
    destruct (negb (key_eqb (a_owner (l vk)) system_id)); cbn [fail_if bind] in *; [now inversion H|].
    ok address_ok (exact K7). ok address_ok (exact K8). rewrite Hv.
    ok seeds_ok_iff (exists vb; rewrite K3; split; [exact Hv|reflexivity]).
    destruct (c <? 0); cbn [fail_if bind] in *; [now inversion H|discriminate]. }
  split; [|split; [|split]].
  - intros Q. apply A. intros r' ->. unfold assert_account_address. rewrite K2, key_eqb_neq by congruence. reflexivity.
  - intros Q R. apply A. intros r' ->. ok address_ok (congruence).
    destruct (Z.eqb_spec (supply l) 0) as [Q1|]; [|reflexivity]. cbn [negb fail_if bind].
    destruct (Z.eqb_spec (mint_auth_flag (a_data (l xorca_mint_id))) 1) as [Q2|]; [|reflexivity]. cbn [negb fail_if bind].
    destruct (Z.eqb_spec (mint_freeze_flag (a_data (l xorca_mint_id))) 0) as [Q3|]; [|reflexivity]. cbn [negb fail_if bind].
    destruct (key_eqb (mint_freeze (a_data (l xorca_mint_id))) zero_key) eqn:Q4; [|reflexivity]. cbn [negb fail_if bind].
    destruct (Z.eqb_spec (mint_decimals (a_data (l xorca_mint_id))) 6) as [Q5|]; [|reflexivity]. cbn [negb fail_if bind].
    destruct (Z.eqb_spec (mint_decimals (a_data (l orca_mint_id))) 6) as [Q6|]; [|reflexivity].
    destruct R. apply key_eqb_true in Q4. unfold mints_ready. auto 10.
  - intros (_ & _ & R1 & R2 & R3 & R4 & R5 & R6 & R7) Q. apply A. intros r' ->. ok address_ok (congruence).
    rewrite R5, R1, R3, R4, R6, R7, key_eqb_refl, (key_eqb_neq _ _ Q). reflexivity.
  - intros (_ & _ & R1 & R2 & R3 & R4 & R5 & R6 & R7) Q Hc. apply A. intros r' ->. ok address_ok (congruence).
    rewrite R5, R1, R3, R4, R6, R7, Q, !key_eqb_refl. cbn [Z.eqb Pos.eqb negb fail_if bind].
    destruct (Z.ltb_spec c 0); [reflexivity|lia].
Qed.
