(** What a correctly addressed call answers (C64). *)
From Verif Require Import Spec ErrorSpec BytesFacts FieldFacts LedgerFacts TokenFacts ParseFacts CpiFacts
  AssertFacts LayoutFacts MathFacts Economics PoolMath StakeFacts UnstakeFacts WithdrawFacts SetFacts InitFacts
  CodecFacts Totals OutsideFacts TokenStep VaultStep Calm Pool PoolStake PoolUnstake PoolInit PoolHistory HistoryFacts
  LifeFacts RateFacts EffectFacts ClientSpec FailFacts LiveFacts RaiseFacts ErrorFacts.

Lemma of_account l k mint owner : token_account_of l k mint owner -> ta_of l k mint owner.
Proof.
  intros (H1 & H2 & H3 & H4). apply ta_unpack_ok in H2. destruct H2 as [W N].
  split; [exact H1|]. split; [|auto]. pose proof (ta_wf_len _ W). split; [unfold zlen; lia|].
  unfold ta_wf in W. clean_bool. lia.
Qed.
Lemma of_vault l vk mint sk : vault_ok l vk mint sk -> ta_of l vk mint sk.
Proof.
  intros []. split; [assumption|]. split; [|auto]. pose proof (ta_wf_len _ vo_wf). split; [unfold zlen; lia|].
  unfold ta_wf in vo_wf. clean_bool. lia.
Qed.

(** One passing check. *)
Ltac got :=
  repeat match goal with
  | H : nth_error ?accs ?n = Some ?m |- bind (get_account_info ?accs ?n) _ = _ =>
      unfold get_account_info at 1; rewrite H; cbn [bind]
  end.
Tactic Notation "ok" uconstr(L) tactic1(t) :=
  match goal with
  | |- bind ?m _ = _ => let H := fresh in
      first [assert (H : m = Ok tt) by (apply L; t)|eassert (H : m = Ok _) by (apply L; t)];
      rewrite H; clear H; cbn [bind]
  end.

Ltac stake_start HP Hf :=
  destruct (fills_nth _ _ 0 _ _ _ Hf eq_refl) as (m0 & N0 & K0 & S0 & W0);
  destruct (fills_nth _ _ 1 _ _ _ Hf eq_refl) as (m1 & N1 & K1 & _ & W1);
  destruct (fills_nth _ _ 2 _ _ _ Hf eq_refl) as (m2 & N2 & K2 & _ & W2);
  destruct (fills_nth _ _ 3 _ _ _ Hf eq_refl) as (m3 & N3 & K3 & _ & W3);
  destruct (fills_nth _ _ 4 _ _ _ Hf eq_refl) as (m4 & N4 & K4 & _ & W4);
  destruct (fills_nth _ _ 5 _ _ _ Hf eq_refl) as (m5 & N5 & K5 & _ & W5);
  destruct (fills_nth _ _ 6 _ _ _ Hf eq_refl) as (m6 & N6 & K6 & _ & W6);
  destruct (fills_nth _ _ 7 _ _ _ Hf eq_refl) as (m7 & N7 & K7 & _ & W7).

Lemma stake_poor C l sk vk P accs st so sx a :
  pool C l sk vk P -> fills accs (stake_roles st vk so sx sk) ->
  token_account_of l so orca_mint_id st -> balance l so < a ->
  stake_process C accs l a = Err (custom InsufficientFunds).
Proof.
  intros HP Hf Hso Ha. apply of_account in Hso. stake_start HP Hf. unfold stake_process. got.
  ok role_sw (auto). ok address_ok (exact K6). ok address_ok (exact K4). ok address_ok (exact K7).
  ok owner_ta_ok (rewrite K0, K2, K6; auto). cbn [parse_ta tk_amount]. fold (balance l so).
  destruct (Z.ltb_spec (balance l so) a); [reflexivity|lia].
Qed.

Lemma stake_dust C l sk vk P accs st so sx a :
  pool C l sk vk P -> fills accs (stake_roles st vk so sx sk) -> is_u64 a ->
  token_account_of l so orca_mint_id st -> token_account_of l sx xorca_mint_id st -> a <= balance l so ->
  a = 0 \/ supply l <> 0 /\ a * (supply l + 100) < free_orca l sk vk + 100 ->
  stake_process C accs l a = Err (custom InsufficientStakeAmount).
Proof.
  intros HP Hf Ra Hso Hsx Ha Hd. apply of_account in Hso, Hsx. stake_start HP Hf.
  pose proof (po_mint _ _ _ _ _ HP) as M. pose proof (of_vault _ _ _ _ (po_vault _ _ _ _ _ HP)) as V.
  pose proof (pool_ranges _ _ _ _ _ HP) as (R0 & R1 & R2 & R3). pose proof (pool_state_bump _ _ _ _ _ HP) as [B1 _].
  unfold stake_process. got.
  ok role_sw (auto). ok address_ok (exact K6). ok address_ok (exact K4). ok address_ok (exact K7).
  ok owner_ta_ok (rewrite K0, K2, K6; auto). cbn [parse_ta tk_amount]. fold (balance l so).
  destruct (Z.ltb_spec (balance l so) a); [lia|]. cbn [fail_if bind].
  ok owner_ta_ok (rewrite K0, K3, K4; auto).
  ok role_w (auto). ok owner_ok (rewrite K4; apply (mo_live _ _ _ M)).
  ok mint_data_ok (rewrite K4; split; [reflexivity|apply mint_live_shaped, (mo_live _ _ _ M)]).
  ok owner_ok (rewrite K6; apply (po_orca _ _ _ _ _ HP)).
  ok owner_ok (rewrite K5; apply (po_state _ _ _ _ _ HP)).
  ok state_data_ok (rewrite K5; split; [reflexivity|split; [unfold zlen; rewrite (po_slen _ _ _ _ _ HP); lia|apply (po_sdisc _ _ _ _ _ HP)]]).
  ok verify_state_ok (rewrite K5; exact B1).
  ok verify_vault_ok (rewrite K1, K5, K6; symmetry; eapply pool_vault_is; eassumption).
  cbv zeta. ok owner_ta_ok (rewrite K1, K5, K6; auto). cbn [parse_ta parse_mint tk_amount tm_supply].
  fold (balance l vk) (escrow l sk) (supply l).
  ok checked_sub_ok (split; [unfold free_orca in *; lia|reflexivity]). fold (free_orca l sk vk).
  destruct (orca_to_xorca_char a (free_orca l sk vk) (supply l)) as (C1 & C2 & _); [exact Ra|exact R1|exact R2|].
  destruct (Z.eq_dec (supply l) 0) as [e|e].
  { rewrite C1 by auto. cbn [bind]. destruct Hd as [->|[? _]]; [reflexivity|contradiction]. }
  assert (F : free_orca l sk vk <> 0) by lia.
  assert (Q : a * (supply l + 100) / (free_orca l sk vk + 100) = 0).
  { apply Z.div_small. unfold is_u64 in *. destruct Hd as [->|[_ Hd]]; nia. }
  assert (U : a * (supply l + 100) < 2 ^ 128).
  { unfold is_u64 in *. destruct Hd as [->|[_ Hd]]; lia. }
  rewrite C2; [|exact e|exact F|exact U|rewrite Q; lia]. rewrite Q. reflexivity.
Qed.

(** ** Unstake *)
Ltac unstake_start HP Hf := stake_start HP Hf; destruct (fills_nth _ _ 8 _ _ _ Hf eq_refl) as (m8 & N8 & K8 & _ & W8).

(** The checks up to the record. *)
Ltac unstake_first HP B1 V :=
  unfold unstake_process; got;
  ok role_sw (auto); ok address_ok (assumption); ok address_ok (assumption); ok address_ok (assumption); ok address_ok (assumption);
  ok role_w (auto);
  match goal with K1 : m_key ?m1 = ?sk |- bind (assert_account_owner _ ?m1 _) _ = _ =>
    ok owner_ok (rewrite K1; apply (po_state _ _ _ _ _ HP)) end.

Lemma unstake_taken C E l sk vk P accs un k ux x i :
  pool C l sk vk P -> fills accs (unstake_roles un sk k ux vk) -> a_owner (l k) <> system_id ->
  unstake_process C E accs l x i = Err (custom IncorrectOwner).
Proof.
  intros HP Hf Hk. unstake_start HP Hf. pose proof (of_vault _ _ _ _ (po_vault _ _ _ _ _ HP)) as V.
  unstake_first HP B1 V. ok owner_ta_ok (rewrite K1, K5, K6; split; [intros; discriminate|split; [exact V|reflexivity]]).
  ok role_w (auto). unfold assert_account_owner. rewrite K2, key_eqb_neq by exact Hk. reflexivity.
Qed.

Lemma unstake_poor C E l sk vk P accs un k b ux x i :
  pool C l sk vk P -> fills accs (unstake_roles un sk k ux vk) ->
  find_pending_withdraw_address C un i = Some (k, b) -> a_owner (l k) = system_id ->
  token_account_of l ux xorca_mint_id un -> balance l ux < x ->
  unstake_process C E accs l x i = Err (custom InsufficientFunds).
Proof.
  intros HP Hf Hfind Hk Hux Hx. apply of_account in Hux.
  unstake_start HP Hf. pose proof (of_vault _ _ _ _ (po_vault _ _ _ _ _ HP)) as V.
  unstake_first HP B1 V. ok owner_ta_ok (rewrite K1, K5, K6; split; [intros; discriminate|split; [exact V|reflexivity]]).
  ok role_w (auto). ok owner_ok (rewrite K2; exact Hk).
  ok seeds_ok_iff (exists b; rewrite K0, K2; split; [exact Hfind|reflexivity]). cbv zeta.
  ok owner_ta_ok (rewrite K0, K3, K4; auto). cbn [parse_ta tk_amount]. fold (balance l ux).
  destruct (Z.ltb_spec (balance l ux) x); [reflexivity|lia].
Qed.

Lemma unstake_zero C E l sk vk P accs un k b ux i :
  pool C l sk vk P -> fills accs (unstake_roles un sk k ux vk) ->
  find_pending_withdraw_address C un i = Some (k, b) -> a_owner (l k) = system_id ->
  token_account_of l ux xorca_mint_id un ->
  unstake_process C E accs l 0 i =
    Err (custom (if supply l =? 0 then ArithmeticError else InsufficientUnstakeAmount)).
Proof.
  intros HP Hf Hfind Hk Hux. apply of_account in Hux.
  unstake_start HP Hf. pose proof (of_vault _ _ _ _ (po_vault _ _ _ _ _ HP)) as V.
  pose proof (po_mint _ _ _ _ _ HP) as M.
  pose proof (pool_ranges _ _ _ _ _ HP) as (R0 & R1 & R2 & R3). pose proof (pool_state_bump _ _ _ _ _ HP) as [B1 _].
  pose proof (ta_amount_range (a_data (l ux))) as Rb. fold (balance l ux) in Rb.
  unstake_first HP B1 V. ok owner_ta_ok (rewrite K1, K5, K6; split; [intros; discriminate|split; [exact V|reflexivity]]).
  ok role_w (auto). ok owner_ok (rewrite K2; exact Hk).
  ok seeds_ok_iff (exists b; rewrite K0, K2; split; [exact Hfind|reflexivity]). cbv zeta.
  ok owner_ta_ok (rewrite K0, K3, K4; auto). cbn [parse_ta tk_amount]. fold (balance l ux).
  destruct (Z.ltb_spec (balance l ux) 0); [unfold is_u64 in Rb; lia|]. cbn [fail_if bind].
  ok owner_ok (rewrite K4; apply (mo_live _ _ _ M)). ok role_w (auto).
  ok mint_data_ok (rewrite K4; split; [reflexivity|apply mint_live_shaped, (mo_live _ _ _ M)]).
  cbn [parse_mint tm_mint_authority_flag tm_mint_authority tm_freeze_authority_flag tm_supply].
  rewrite (mo_flag _ _ _ M), (mo_auth _ _ _ M), (mo_freeze _ _ _ M), K1, key_eqb_refl. cbn [Z.eqb negb orb fail_if bind].
  ok owner_ok (rewrite K5; apply (po_orca _ _ _ _ _ HP)).
  ok mint_data_ok (rewrite K5; split; [reflexivity|apply mint_live_shaped, (po_orca _ _ _ _ _ HP)]).
  ok state_data_ok (rewrite K1; split; [reflexivity|split; [unfold zlen; rewrite (po_slen _ _ _ _ _ HP); lia|apply (po_sdisc _ _ _ _ _ HP)]]).
  ok verify_state_ok (rewrite K1; exact B1).
  ok verify_vault_ok (rewrite K1, K5, K6; symmetry; eapply pool_vault_is; eassumption).
  fold (balance l vk) (escrow l sk) (supply l).
  ok checked_sub_ok (split; [unfold free_orca in *; lia|reflexivity]). fold (free_orca l sk vk).
  destruct (xorca_to_orca_char 0 (free_orca l sk vk) (supply l)) as (C1 & C2 & _); [unfold is_u64; lia|exact R1|exact R2|].
  destruct (Z.eqb_spec (supply l) 0) as [e|e].
  { rewrite C1 by auto. reflexivity. }
  rewrite C2; [|exact e|lia|lia|cbn; lia]. reflexivity.
Qed.

Ltac again H :=
  let x := fresh "a" in let Hx := fresh "G" in
  apply bind_ok in H; destruct H as (x & Hx & H); rewrite Hx; cbn [bind].
(** The clock is looked at last. *)
Lemma unstake_clock C E t accs l x i r sk :
  unstake_process C {| now := t; rent_min := rent_min E |} accs l x i = Ok r ->
  is_u64 x -> acct accs 1 = sk -> ~ is_i64 (now E + cooldown l sk) ->
  unstake_process C E accs l x i = Err (custom CoolDownOverflow).
Proof.
  intros H Rx Hk Hc. unfold unstake_process in *.
  destruct (get_account_info accs 0) as [m0|] eqn:G0; [|discriminate H]. cbn [bind] in *.
  destruct (get_account_info accs 1) as [m1|] eqn:G1; [|discriminate H]. cbn [bind] in *.
  apply get_account_ok in G1. rewrite (acct_of _ _ _ G1) in Hk. subst sk.
  do 7 again H. do 5 again H. again H. apply bind_ok in H. destruct H as (u6 & O1 & H). rewrite O1. cbn [bind].
  apply owner_ok in O1.
  do 2 again H. apply bind_ok in H. destruct H as (u8 & O2 & H). rewrite O2. cbn [bind]. apply owner_ok in O2.
  again H. cbv zeta in *. do 9 again H.
  apply bind_ok in H. destruct H as (sd & S1 & H). rewrite S1. cbn [bind]. apply state_data_ok in S1. destruct S1 as [-> S1].
  do 2 again H. apply bind_ok in H. destruct H as (ne & Q1 & H). rewrite Q1. cbn [bind].
  apply bind_ok in H. destruct H as (w & Q2 & H). rewrite Q2. cbn [bind]. again H.
  apply bind_ok in H. destruct H as (l1 & B1 & H). rewrite B1. cbn [bind].
  assert (D1 : l1 (m_key m1) = l (m_key m1)) by (eapply burn_data; [exact B1|now apply xorca_not_token]).
  apply bind_ok in H. destruct H as (sd & S2 & H). rewrite S2. cbn [bind]. apply state_data_ok in S2. destruct S2 as [-> _].
  rewrite D1 in *.
  apply bind_ok in H. destruct H as (e & He & H). rewrite He. cbn [bind]. cbv zeta in *.
  apply bind_ok in H. destruct H as (l3 & B3 & H).
  change (create_pending_account C {| now := t; rent_min := rent_min E |}) with (create_pending_account C E) in B3.
  rewrite B3. cbn [bind]. clear H.
  assert (N : m_key a <> m_key m1).
  { intros X. rewrite X, O1 in O2. now apply ids_distinct in O2. }
  rewrite (set_data_other _ _ _ _ N), (create_pending_data _ _ _ _ _ _ _ _ _ B3 N), set_data_same. cbn [a_data].
  assert (L : (2048 <= length (a_data (l (m_key m1))))%nat) by (destruct S1 as [S1 _]; unfold zlen in S1; lia).
  assert (F : st_cooldown (set_escrow e (a_data (l (m_key m1)))) = cooldown l (m_key m1)).
  { unfold cooldown, set_escrow, st_cooldown. field_tac. reflexivity. }
  rewrite F. unfold i64_checked_add. destruct (_ && _) eqn:B; [|reflexivity].
  exfalso. apply Hc. unfold i64_min, i64_max in B. unfold is_i64. clean_bool. lia.
Qed.

(** ** Withdraw *)
Ltac withdraw_first HP :=
  unfold withdraw_process; got;
  ok role_sw (auto); ok address_ok (assumption).

Lemma withdraw_absent C E l sk vk P accs un k uo i :
  pool C l sk vk P -> fills accs (withdraw_roles un sk k uo vk) -> a_owner (l k) <> xorca_id ->
  withdraw_process C E accs l i = Err (custom IncorrectOwner).
Proof.
  intros HP Hf Hk. stake_start HP Hf. pose proof (pool_state_bump _ _ _ _ _ HP) as [B1 _]. withdraw_first HP.
  ok owner_ok (rewrite K5; apply (po_orca _ _ _ _ _ HP)). ok role_w (auto).
  ok owner_ok (rewrite K1; apply (po_state _ _ _ _ _ HP)).
  ok state_data_ok (rewrite K1; split; [reflexivity|split; [unfold zlen; rewrite (po_slen _ _ _ _ _ HP); lia|apply (po_sdisc _ _ _ _ _ HP)]]).
  ok verify_state_ok (rewrite K1; exact B1).
  ok verify_vault_ok (rewrite K1, K4, K5; symmetry; eapply pool_vault_is; eassumption). cbv zeta.
  ok role_w (auto). unfold assert_account_owner. rewrite K2, key_eqb_neq by exact Hk. reflexivity.
Qed.

Lemma withdraw_early C E l sk vk P accs un k uo i :
  pool C l sk vk P -> fills accs (withdraw_roles un sk k uo vk) ->
  is_record l k -> rec_owner l k = un -> rec_index l k = i ->
  token_account_of l uo orca_mint_id un -> now E < rec_time l k ->
  withdraw_process C E accs l i = Err (custom CoolDownPeriodStillActive).
Proof.
  intros HP Hf Hr Hown Hidx Huo Ht. apply of_account in Huo. stake_start HP Hf.
  pose proof (pool_state_bump _ _ _ _ _ HP) as [B1 _]. pose proof (of_vault _ _ _ _ (po_vault _ _ _ _ _ HP)) as V.
  pose proof (record_key _ _ _ _ _ _ HP Hr) as Hkey. rewrite Hown, Hidx in Hkey.
  assert (HI := Hr). apply (pool_is_record _ _ _ _ _ _ HP) in HI. apply (po_records _ _ _ _ _ HP) in HI.
  withdraw_first HP.
  ok owner_ok (rewrite K5; apply (po_orca _ _ _ _ _ HP)). ok role_w (auto).
  ok owner_ok (rewrite K1; apply (po_state _ _ _ _ _ HP)).
  ok state_data_ok (rewrite K1; split; [reflexivity|split; [unfold zlen; rewrite (po_slen _ _ _ _ _ HP); lia|apply (po_sdisc _ _ _ _ _ HP)]]).
  ok verify_state_ok (rewrite K1; exact B1).
  ok verify_vault_ok (rewrite K1, K4, K5; symmetry; eapply pool_vault_is; eassumption). cbv zeta.
  ok role_w (auto). ok owner_ok (rewrite K2; apply Hr).
  ok pending_data_ok (rewrite K2; split; [reflexivity|split; [unfold zlen; destruct HI; lia|apply Hr]]).
  ok verify_pending_ok (rewrite K0, K2; exact Hkey).
  ok owner_ta_ok (rewrite K0, K3, K5; auto). ok owner_ta_ok (rewrite K1, K4, K5; auto).
  ok address_ok (assumption). ok address_ok (assumption).
  fold (rec_time l k). destruct (Z.ltb_spec (now E) (rec_time l k)); [reflexivity|lia].
Qed.

(** ** Set *)
Lemma set_stranger C l sk vk P accs au u :
  pool C l sk vk P -> fills accs (set_roles au sk) -> au <> authority l sk ->
  set_process C accs l u = Err (custom IncorrectAccountAddress).
Proof.
  intros HP Hf Ha. pose proof (pool_state_bump _ _ _ _ _ HP) as [B1 _].
  destruct (fills_nth _ _ 0 _ _ _ Hf eq_refl) as (m0 & N0 & K0 & S0 & W0).
  destruct (fills_nth _ _ 1 _ _ _ Hf eq_refl) as (m1 & N1 & K1 & _ & W1).
  unfold set_process. got. ok role_sw (auto). ok role_w (auto).
  ok owner_ok (rewrite K1; apply (po_state _ _ _ _ _ HP)).
  ok state_data_ok (rewrite K1; split; [reflexivity|split; [unfold zlen; rewrite (po_slen _ _ _ _ _ HP); lia|apply (po_sdisc _ _ _ _ _ HP)]]).
  ok verify_state_ok (rewrite K1; exact B1).
  unfold assert_account_address. rewrite K0. fold (authority l sk). rewrite key_eqb_neq by exact Ha. reflexivity.
Qed.
Lemma set_negative C l sk vk P accs c :
  pool C l sk vk P -> fills accs (set_roles (authority l sk) sk) -> c < 0 ->
  set_process C accs l (UpdateCoolDownPeriod c) = Err (custom InvalidCoolDownPeriod).
Proof.
  intros HP Hf Ha. pose proof (pool_state_bump _ _ _ _ _ HP) as [B1 _].
  destruct (fills_nth _ _ 0 _ _ _ Hf eq_refl) as (m0 & N0 & K0 & S0 & W0).
  destruct (fills_nth _ _ 1 _ _ _ Hf eq_refl) as (m1 & N1 & K1 & _ & W1).
  unfold set_process. got. ok role_sw (auto). ok role_w (auto).
  ok owner_ok (rewrite K1; apply (po_state _ _ _ _ _ HP)).
  ok state_data_ok (rewrite K1; split; [reflexivity|split; [unfold zlen; rewrite (po_slen _ _ _ _ _ HP); lia|apply (po_sdisc _ _ _ _ _ HP)]]).
  ok verify_state_ok (rewrite K1; exact B1).
  ok address_ok (rewrite K0; reflexivity).
  destruct (Z.ltb_spec c 0); [reflexivity|lia].
Qed.

(** ** Initialize *)
Lemma init_stranger C E l accs c payer auth sk vk :
  fills accs (init_roles payer auth sk vk) -> payer <> deployer_address ->
  initialize_process C E accs l c = Err (custom UnauthorizedDeployerAccess).
Proof.
  intros Hf Hp. stake_start tt Hf. destruct (fills_nth _ _ 8 _ _ _ Hf eq_refl) as (m8 & N8 & K8 & _ & W8).
  unfold initialize_process. got. ok role_sw (auto). rewrite K0, key_eqb_neq by exact Hp. reflexivity.
Qed.
Lemma init_again C E l sk vk P accs c auth :
  pool C l sk vk P -> fills accs (init_roles deployer_address auth sk vk) ->
  initialize_process C E accs l c = Err (custom StateAccountAlreadyInitialized).
Proof.
  intros HP Hf. stake_start HP Hf. destruct (fills_nth _ _ 8 _ _ _ Hf eq_refl) as (m8 & N8 & K8 & _ & W8).
  destruct (po_find _ _ _ _ _ HP) as (sb & F & _).
  unfold initialize_process. got. ok role_sw (auto). rewrite K0, key_eqb_refl. cbn [negb fail_if bind].
  ok role_w (auto). ok seeds_ok_iff (exists sb; rewrite K2; split; [exact F|reflexivity]). cbv zeta.
  rewrite K2. unfold zlen. rewrite (po_slen _ _ _ _ _ HP). reflexivity.
Qed.

(** ** Together *)
Theorem stake_answers C E l sk vk accs data st so sx a :
  ordinary_state_address C -> reaches C l -> is_state l sk -> is_vault C sk vk ->
  op_ok C l (OpCall E accs data) -> encodes data (Stake a) ->
  fills accs (stake_roles st vk so sx sk) -> a_owner (l st) <> token_id ->
  active_account l so orca_mint_id st -> ordinary l so -> no_self_delegate l so st ->
  active_account l sx xorca_mint_id st -> ta_state (a_data (l vk)) = 1 -> balance l vk + a < 2 ^ 63 ->
  let answer := process_instruction C E xorca_id accs l data in
  let dust := a = 0 \/ supply l <> 0 /\ a * (supply l + 100) < free_orca l sk vk + 100 in
  (balance l so < a -> answer = Err (ECustom (code InsufficientFunds))) /\
  (a <= balance l so -> dust -> answer = Err (ECustom (code InsufficientStakeAmount))) /\
  (a <= balance l so -> ~ dust -> is_ok answer = true).
Proof.
  intros Ho Hr Hs Hv Hop Henc Hf Hst Hso Hon Hsd Hsx Hvs Hlt. cbv zeta.
  destruct (reaches_pool_vault _ _ _ _ Ho Hr Hs Hv) as (P & HP).
  assert (Ra : is_u64 a) by apply Henc.
  split; [|split].
  - intros Ha. rewrite (call_is _ _ _ _ _ _ Henc). eapply stake_poor; [exact HP|exact Hf|apply Hso|exact Ha].
  - intros Ha Hd. rewrite (call_is _ _ _ _ _ _ Henc). eapply stake_dust; eauto; [apply Hso|apply Hsx].
  - intros Ha Hd. unfold is_u64 in Ra. eapply (stake_live C E l sk vk accs data st so sx a); eauto; lia.
Qed.

Theorem unstake_answers C E l sk vk accs data un k b ux x i :
  ordinary_state_address C -> reaches C l -> is_state l sk -> is_vault C sk vk ->
  op_ok C l (OpCall E accs data) -> encodes data (Unstake x i) ->
  fills accs (unstake_roles un sk k ux vk) ->
  find_pending_withdraw_address C un i = Some (k, b) ->
  active_account l ux xorca_mint_id un -> no_self_delegate l ux un -> wallet l un ->
  rent_min E 1024 - a_lamports (l k) <= a_lamports (l un) -> balance l vk < 2 ^ 63 ->
  let answer := process_instruction C E xorca_id accs l data in
  let in_time := is_i64 (now E + cooldown l sk) in
  (is_record l k -> answer = Err (ECustom (code IncorrectOwner))) /\
  (~ is_record l k ->
   collision C (eq un) \/
   (balance l ux < x -> answer = Err (ECustom (code InsufficientFunds))) /\
   (x = 0 -> supply l <> 0 -> answer = Err (ECustom (code InsufficientUnstakeAmount))) /\
   (x = 0 -> supply l = 0 -> answer = Err (ECustom (code ArithmeticError))) /\
   (0 < x <= balance l ux -> ~ in_time -> answer = Err (ECustom (code CoolDownOverflow))) /\
   (0 < x <= balance l ux -> in_time -> is_ok answer = true)).
Proof.
  intros Ho Hr Hs Hv Hop Henc Hf Hfind Hux Hsd Hun Hrent Hlt. cbv zeta.
  destruct (reaches_pool_vault _ _ _ _ Ho Hr Hs Hv) as (P & HP).
  assert (Rx : is_u64 x) by apply Henc.
  split.
  { intros Hk. rewrite (call_is _ _ _ _ _ _ Henc). eapply unstake_taken; [exact HP|exact Hf|].
    destruct Hk as [-> _]. apply xorca_ne_system. }
  intros Hn. destruct (free_index _ _ _ _ _ _ _ _ _ HP Hfind Hn) as [Hc|[Hk Hk']]; [left; exact Hc|].
  assert (HL : forall E', op_ok C l (OpCall E' accs data) -> rent_min E' = rent_min E -> 0 < x <= balance l ux ->
    is_i64 (now E' + cooldown l sk) ->
    is_ok (process_instruction C E' xorca_id accs l data) = true \/ collision C (eq un)).
  { intros E' Hop' Hre Hx Hi. eapply (unstake_live C E' l sk vk accs data un k b ux x i); eauto. now rewrite Hre. }
  assert (Rc : is_i64 (cooldown l sk)) by apply get_i64_range.
  set (E0 := {| now := 0; rent_min := rent_min E |}).
  assert (Hop0 : op_ok C l (OpCall E0 accs data)).
  { destruct Hop as [[H1 H2] H3]. split; [|exact H3]. split; [unfold E0, is_i64; cbn; lia|exact H2]. }
  destruct (Z_lt_le_dec (balance l ux) x) as [Hx|Hx].
  { right. split; [intros _|].
    - rewrite (call_is _ _ _ _ _ _ Henc). eapply unstake_poor; eauto; apply Hux.
    - unfold is_u64 in Rx. pose proof (ta_amount_range (a_data (l ux))) as Rb. unfold balance, is_u64 in *.
      do 3 (split; [intros; lia|]). intros; lia. }
  destruct (Z.eq_dec x 0) as [Hx0|Hx0].
  { right. subst x. split; [lia|].
    pose proof (unstake_zero C E l sk vk P accs un k b ux i HP Hf Hfind Hk (proj1 Hux)) as Q.
    rewrite (call_is _ _ _ _ _ _ Henc), Q.
    split; [intros _ S; now rewrite (proj2 (Z.eqb_neq _ _) S)|].
    split; [intros _ S; now rewrite (proj2 (Z.eqb_eq _ _) S)|]. split; intros; lia. }
  assert (Hx1 : 0 < x <= balance l ux) by (unfold is_u64 in Rx; lia).
  destruct (HL E0 Hop0 eq_refl Hx1) as [H0|Hc]; [exact Rc| |left; exact Hc].
  assert (D : is_i64 (now E + cooldown l sk) \/ ~ is_i64 (now E + cooldown l sk)) by (unfold is_i64; lia).
  destruct D as [D|D].
  - destruct (HL E Hop eq_refl Hx1 D) as [H1|Hc]; [|left; exact Hc]. right.
    split; [lia|]. split; [lia|]. split; [lia|]. split; [intros _ N; destruct (N D)|intros _ _; exact H1].
  - right. split; [lia|]. split; [lia|]. split; [lia|]. split; [intros _ _|intros _ N; destruct (D N)].
    rewrite (call_is _ E _ _ _ _ Henc). rewrite (call_is _ E0 _ _ _ _ Henc) in H0. 
    destruct (unstake_process C E0 accs l x i) as [r|] eqn:Q; [|discriminate H0].
    eapply unstake_clock; [exact Q|exact Rx| |exact D].
    destruct (fills_nth _ _ 1 _ _ _ Hf eq_refl) as (m1 & N1 & K1 & _). now rewrite (acct_of _ _ _ N1).
Qed.

Theorem withdraw_answers C E l sk vk accs data un k uo i :
  ordinary_state_address C -> reaches C l -> is_state l sk -> is_vault C sk vk ->
  op_ok C l (OpCall E accs data) -> encodes data (Withdraw i) ->
  fills accs (withdraw_roles un sk k uo vk) ->
  active_account l uo orca_mint_id un -> ta_state (a_data (l vk)) = 1 ->
  balance l uo + rec_amount l k <= u64_max -> a_lamports (l un) + a_lamports (l k) <= u64_max ->
  let answer := process_instruction C E xorca_id accs l data in
  (a_owner (l k) <> xorca_id -> answer = Err (ECustom (code IncorrectOwner))) /\
  (is_record l k -> rec_owner l k = un -> rec_index l k = i -> now E < rec_time l k ->
   answer = Err (ECustom (code CoolDownPeriodStillActive))) /\
  (is_record l k -> rec_owner l k = un -> rec_index l k = i -> rec_time l k <= now E ->
   is_ok answer = true).
Proof.
  intros Ho Hr Hs Hv Hop Henc Hf Huo Hvs H1 H2. cbv zeta.
  destruct (reaches_pool_vault _ _ _ _ Ho Hr Hs Hv) as (P & HP).
  split; [|split].
  - intros Hk. rewrite (call_is _ _ _ _ _ _ Henc). eapply withdraw_absent; eauto.
  - intros Hk Hw Hi Ht. rewrite (call_is _ _ _ _ _ _ Henc). eapply withdraw_early; eauto. apply Huo.
  - intros Hk Hw Hi Ht. eapply (withdraw_live C E l sk vk accs data un k uo i); eauto.
Qed.

Theorem set_answers C E l sk accs data au u :
  ordinary_state_address C -> reaches C l -> is_state l sk ->
  encodes data (Set_ u) -> fills accs (set_roles au sk) ->
  let answer := process_instruction C E xorca_id accs l data in
  let negative := exists c, u = UpdateCoolDownPeriod c /\ c < 0 in
  (au <> authority l sk -> answer = Err (ECustom (code IncorrectAccountAddress))) /\
  (au = authority l sk -> negative -> answer = Err (ECustom (code InvalidCoolDownPeriod))) /\
  (au = authority l sk -> ~ negative -> is_ok answer = true).
Proof.
  intros Ho Hr Hs Henc Hf. cbv zeta.
  destruct (reaches_pool _ _ _ Ho Hr Hs) as (vk & P & HP). rewrite (call_is _ _ _ _ _ _ Henc).
  split; [|split].
  - intros Ha. eapply set_stranger; eauto.
  - intros -> (c & -> & Hc). eapply set_negative; eauto.
  - intros -> Hn. pose proof (pool_state_bump _ _ _ _ _ HP) as [B1 _].
    destruct (fills_nth _ _ 0 _ _ _ Hf eq_refl) as (m0 & N0 & K0 & S0 & W0).
    destruct (fills_nth _ _ 1 _ _ _ Hf eq_refl) as (m1 & N1 & K1 & _ & W1).
    assert (X : exists r, set_process C accs l u = Ok r).
    { eexists (_, _). apply set_ok. exists m0, m1. split; [|split; [|split; reflexivity]].
      - constructor; rewrite ?K0, ?K1; auto; [apply (po_state _ _ _ _ _ HP)|].
        split; [unfold zlen; rewrite (po_slen _ _ _ _ _ HP); lia|apply (po_sdisc _ _ _ _ _ HP)].
      - destruct u as [c|?]; cbn; [|exact I]. destruct (Z_lt_le_dec c 0); [|assumption]. destruct Hn. eauto. }
    destruct X as [r ->]. reflexivity.
Qed.

Theorem initialize_answers C E l sk vk accs data payer auth c :
  ordinary_state_address C -> reaches C l -> is_state l sk -> is_vault C sk vk ->
  encodes data (Initialize c) -> fills accs (init_roles payer auth sk vk) ->
  let answer := process_instruction C E xorca_id accs l data in
  (payer <> deployer_address -> answer = Err (ECustom (code UnauthorizedDeployerAccess))) /\
  (payer = deployer_address -> answer = Err (ECustom (code StateAccountAlreadyInitialized))).
Proof.
  intros Ho Hr Hs Hv Henc Hf. cbv zeta.
  destruct (reaches_pool_vault _ _ _ _ Ho Hr Hs Hv) as (P & HP). rewrite (call_is _ _ _ _ _ _ Henc).
  split.
  - intros Hp. eapply init_stranger; eauto.
  - intros ->. eapply init_again; eauto.
Qed.
