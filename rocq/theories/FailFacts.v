(** How calls fail: which errors cannot occur on reachable ledgers (C38) and the
    errors of dust conversions (C14). *)
From Verif Require Import Spec BytesFacts FieldFacts LedgerFacts TokenFacts ParseFacts CpiFacts
  AssertFacts LayoutFacts MathFacts Economics PoolMath StakeFacts UnstakeFacts WithdrawFacts SetFacts InitFacts
  CodecFacts Totals OutsideFacts TokenStep VaultStep Calm Pool PoolStake PoolUnstake PoolInit PoolHistory HistoryFacts
  LifeFacts RateFacts EffectFacts.

Lemma ne_bind {A B} (m : res err A) (f : A -> res err B) e :
  m <> Err e -> (forall a, m = Ok a -> f a <> Err e) -> bind m f <> Err e.
Proof. intros H1 H2. destruct m as [a|e']; cbn; [now apply H2|congruence]. Qed.

(** The callee programs never return one of this program's codes. *)
Ltac noerr :=
  repeat first
  [ discriminate
  | match goal with
    | |- bind _ _ <> Err _ => apply ne_bind; [|intros ? _]
    | |- fail_if ?b _ <> Err _ => unfold fail_if
    | |- (if ?b then _ else _) <> Err _ => destruct b
    | |- (match ?x with _ => _ end) <> Err _ => destruct x
    | |- (let _ := _ in _) <> Err _ => cbv zeta
    end ].

Lemma validate_owner_ne l sg ex e a c : validate_owner l sg ex e a <> Err (ECustom c).
Proof. unfold validate_owner. noerr. Qed.

Lemma spend_auth_ne l sg ex d a n b c : spend_auth l sg ex d a n b <> Err (ECustom c).
Proof. unfold spend_auth. noerr; apply validate_owner_ne. Qed.

Lemma unpack_ne d c : ta_unpack d <> Err (ECustom c).
Proof. unfold ta_unpack. noerr. Qed.
Lemma mint_unpack_ne d c : mint_unpack d <> Err (ECustom c).
Proof. unfold mint_unpack. noerr. Qed.

Lemma invoke_ne C accs seeds callee inner body c :
  (forall sg, body sg <> Err (ECustom c)) -> invoke_signed C accs seeds callee inner body <> Err (ECustom c).
Proof.
  intros H. unfold invoke_signed. apply ne_bind.
  - induction seeds as [|s seeds IH]; cbn [pda_signers]; [discriminate|].
    destruct (create_program_address C s xorca_id); [|discriminate]. apply ne_bind; [exact IH|discriminate].
  - intros p _. noerr. apply H.
Qed.

Lemma cpi_transfer_ne C accs seeds l f t a n c : cpi_token_transfer C accs seeds l f t a n <> Err (ECustom c).
Proof.
  apply invoke_ne. intros sg. unfold token_transfer, token_owned.
  noerr; first [apply unpack_ne|apply spend_auth_ne].
Qed.
Lemma cpi_mint_ne C accs seeds l f t a n c : cpi_token_mint_to C accs seeds l f t a n <> Err (ECustom c).
Proof.
  apply invoke_ne. intros sg. unfold token_mint_to, token_owned.
  noerr; first [apply unpack_ne|apply mint_unpack_ne|apply validate_owner_ne].
Qed.
Lemma cpi_burn_ne C accs seeds l f t a n c : cpi_token_burn C accs seeds l f t a n <> Err (ECustom c).
Proof.
  apply invoke_ne. intros sg. unfold token_burn, token_owned.
  noerr; first [apply unpack_ne|apply mint_unpack_ne|apply spend_auth_ne].
Qed.

Lemma create_pending_ne C E accs l f k seeds c : create_pending_account C E accs l f k seeds <> Err (ECustom c).
Proof.
  unfold create_pending_account, create_account_secure, set_first_byte.
  apply ne_bind; [|intros ? _; noerr].
  noerr; unfold cpi_system_create, cpi_system_transfer, cpi_system_allocate, cpi_system_assign;
    apply invoke_ne; intros sg; unfold sys_create_account, sys_transfer, sys_allocate, sys_assign; noerr.
Qed.

Lemma close_ne l a b c : close_program_account l a b <> Err (ECustom c).
Proof. unfold close_program_account, set_first_byte. noerr. Qed.

(** One step of a call: the check does not fail with the error in question. *)
Ltac easy_step :=
  unfold get_account_info, make_owner_token_account_assertions, assert_account_role, assert_account_owner,
    assert_account_address, assert_account_seeds, assert_token_account_data, assert_mint_data,
    assert_state_data, assert_pending_data, assert_account_len, assert_account_discriminator,
    verify_state_address, verify_vault_address, verify_pending_address;
  solve [noerr].
Tactic Notation "pass" ident(x) ident(H) := apply ne_bind; [try easy_step|intros x H].

(** Wherever a State account is, its pool is in order (true of reachable ledgers). *)
Definition pooled (C : crypto) (l : ledger) : Prop :=
  forall k, is_state l k -> exists vk P, pool C l k vk P.

Lemma stake_fails C accs l a e :
  pooled C l -> is_u64 a ->
  e = InsufficientVaultBacking \/ (e = ArithmeticError /\ a < 2 ^ 63 /\
    forall sk vk, is_state l sk -> is_vault C sk vk -> balance l vk < 2 ^ 63) ->
  stake_process C accs l a <> Err (custom e).
Proof.
  intros HPP Ha He.
  assert (Hc : exists c, custom e = ECustom c) by (now exists (code e)).
  unfold stake_process.
  destruct He as [->|(-> & A1 & A2)].
  - pass m0 H0. pass m1 H1. pass m2 H2. pass m3 H3. pass m4 H4. pass m5 H5. pass m6 H6. pass m7 H7.
    pass u0 K0. pass u1 K1. pass u2 K2. pass u3 K3. pass sod K4. pass u5 K5. pass u6 K6. pass u7 K7. pass u8 K8.
    pass xmd K9. pass u10 K10. pass u11 K11. pass sd K12. pass u13 K13. pass u14 K14. cbv zeta. pass vd K15.
    apply address_ok in K1. apply owner_ok in K11. apply state_data_ok in K12. destruct K12 as [-> Hst].
    apply verify_vault_ok in K14. apply owner_ta_ok in K15. destruct K15 as (_ & _ & ->).
    assert (Hs : is_state l (m_key m5)) by (split; [exact K11|apply Hst]).
    assert (exists sk, m_key m5 = sk) as [sk Es] by eauto. rewrite Es in Hs.
    destruct (HPP _ Hs) as (vk & P & HP). pose proof (pool_ranges _ _ _ _ _ HP) as (R0 & R1 & R2 & R3).
    rewrite Es, K1, (pool_vault_is _ _ _ _ _ HP) in K14.
    cbn [parse_ta tk_amount]. rewrite Es, K14. fold (balance l vk) (escrow l sk).
    apply ne_bind.
    { unfold u64_checked_sub. destruct (Z.leb_spec (escrow l sk) (balance l vk)); [discriminate|].
      unfold free_orca in R0. lia. }
    intros ne _. apply ne_bind.
    { unfold convert_orca_to_xorca, u128_checked_add, u128_checked_mul, u128_checked_div, u64_try_from. noerr. }
    intros m _. pass u17 K17. apply ne_bind; [apply cpi_transfer_ne|]. intros l1 _.
    apply ne_bind; [apply cpi_mint_ne|]. intros l2 _. discriminate.
  - pass m0 H0. pass m1 H1. pass m2 H2. pass m3 H3. pass m4 H4. pass m5 H5. pass m6 H6. pass m7 H7.
    pass u0 K0. pass u1 K1. pass u2 K2. pass u3 K3. pass sod K4. pass u5 K5. pass u6 K6. pass u7 K7. pass u8 K8.
    pass xmd K9. pass u10 K10. pass u11 K11. pass sd K12. pass u13 K13. pass u14 K14. cbv zeta. pass vd K15.
    apply address_ok in K1, K2. apply owner_ok in K11. apply state_data_ok in K12. destruct K12 as [-> Hst].
    apply verify_vault_ok in K14. apply owner_ta_ok in K15. destruct K15 as (_ & _ & ->).
    apply mint_data_ok in K9. destruct K9 as [-> _].
    assert (Hs : is_state l (m_key m5)) by (split; [exact K11|apply Hst]).
    assert (exists sk, m_key m5 = sk) as [sk Es] by eauto. rewrite Es in Hs.
    destruct (HPP _ Hs) as (vk & P & HP). pose proof (pool_ranges _ _ _ _ _ HP) as (R0 & R1 & R2 & R3).
    specialize (A2 _ _ Hs (pool_is_vault _ _ _ _ _ HP)).
    rewrite Es, K1, (pool_vault_is _ _ _ _ _ HP) in K14.
    cbn [parse_ta tk_amount parse_mint tm_supply]. rewrite Es, K14, K2. fold (balance l vk) (escrow l sk) (supply l).
    apply ne_bind; [unfold u64_checked_sub; noerr|]. intros ne Hne.
    apply checked_sub_ok in Hne. destruct Hne as [_ ->]. fold (free_orca l sk vk).
    apply ne_bind.
    { destruct (no_overflow_stake a (free_orca l sk vk) (supply l)) as (m & -> & _);
        [unfold is_u64 in Ha; lia|exact R0|unfold free_orca in *; lia|discriminate]. }
    intros m _. pass u17 K17. apply ne_bind; [apply cpi_transfer_ne|]. intros l1 _.
    apply ne_bind; [apply cpi_mint_ne|]. intros l2 _. discriminate.
Qed.

(** Nobody holds more xORCA than exists. *)
Lemma holder_le C l sk vk P k un :
  pool C l sk vk P -> token_account_of l k xorca_mint_id un -> balance l k <= supply l.
Proof.
  intros HP (Ho & Hu & Hm & _). pose proof (tb_bound _ _ (po_tok _ _ _ _ _ HP) [k]) as B.
  assert (N : NoDup [k]) by (constructor; [intros []|constructor]). specialize (B N).
  unfold total in B. cbn [map sumZ fold_right] in B. unfold sumZ in B. cbn [fold_right] in B.
  assert (Hh : holds l xorca_mint_id k = balance l k).
  { unfold holds. now rewrite Ho, Hu, Hm, !key_eqb_refl. }
  rewrite Hh in B. unfold supply. lia.
Qed.

(** The first part of Unstake, up to the conversion. *)
Lemma unstake_fails C E accs l x i e :
  pooled C l -> is_u64 x ->
  e = InsufficientVaultBacking \/
  (e = ArithmeticError /\ (forall sk vk, is_state l sk -> is_vault C sk vk -> balance l vk < 2 ^ 63) /\
   exists ux un, slot accs 3 ux /\ token_account_of l ux xorca_mint_id un /\ 0 < balance l ux) ->
  unstake_process C E accs l x i <> Err (custom e).
Proof.
  intros HPP Hx He.
  unfold unstake_process.
  destruct He as [->|(-> & A2 & ux & un & S3 & Tux & Bux)].
  - pass m0 H0. pass m1 H1. pass m2 H2. pass m3 H3. pass m4 H4. pass m5 H5. pass m6 H6. pass m7 H7. pass m8 H8.
    pass u0 K0. pass u1 K1. pass u2 K2. pass u3 K3. pass u4 K4. pass u5 K5. pass u6 K6. pass vd K7.
    pass u8 K8. pass u9 K9. pass pb K10. cbv zeta. pass uxd K11. pass u12 K12. pass u13 K13. pass u14 K14. pass xmd K15.
    pass u16 K16. pass u17 K17. pass u18 K18. pass omd K19. pass sd K20. pass u21 K21. pass u22 K22.
    apply address_ok in K2. apply owner_ok in K6. apply state_data_ok in K20. destruct K20 as [-> Hst].
    apply verify_vault_ok in K22. apply owner_ta_ok in K7. destruct K7 as (_ & _ & ->).
    assert (Hs : is_state l (m_key m1)) by (split; [exact K6|apply Hst]).
    assert (exists sk, m_key m1 = sk) as [sk Es] by eauto. rewrite Es in Hs.
    destruct (HPP _ Hs) as (vk & P & HP). pose proof (pool_ranges _ _ _ _ _ HP) as (R0 & R1 & R2 & R3).
    rewrite Es, K2, (pool_vault_is _ _ _ _ _ HP) in K22.
    cbn [parse_ta tk_amount]. rewrite Es, K22. fold (balance l vk) (escrow l sk).
    apply ne_bind.
    { unfold u64_checked_sub. destruct (Z.leb_spec (escrow l sk) (balance l vk)); [discriminate|].
      unfold free_orca in R0. lia. }
    intros ne _. apply ne_bind.
    { unfold convert_xorca_to_orca, u128_checked_add, u128_checked_mul, u128_checked_div, u64_try_from. noerr. }
    intros w _. pass u23 K23. apply ne_bind; [apply cpi_burn_ne|]. intros l1 _.
    pass sd1 K24. apply ne_bind; [unfold u64_checked_add; noerr|]. intros esc _.
    apply ne_bind; [apply create_pending_ne|]. intros l3 _.
    apply ne_bind; [unfold i64_checked_add; noerr|]. intros ts _. discriminate.
  - pass m0 H0. pass m1 H1. pass m2 H2. pass m3 H3. pass m4 H4. pass m5 H5. pass m6 H6. pass m7 H7. pass m8 H8.
    pass u0 K0. pass u1 K1. pass u2 K2. pass u3 K3. pass u4 K4. pass u5 K5. pass u6 K6. pass vd K7.
    pass u8 K8. pass u9 K9. pass pb K10. cbv zeta. pass uxd K11. pass u12 K12. pass u13 K13. pass u14 K14. pass xmd K15.
    pass u16 K16. pass u17 K17. pass u18 K18. pass omd K19. pass sd K20. pass u21 K21. pass u22 K22.
    apply address_ok in K1, K2. apply owner_ok in K6. apply state_data_ok in K20. destruct K20 as [-> Hst].
    apply verify_vault_ok in K22. apply owner_ta_ok in K7. destruct K7 as (_ & _ & ->).
    apply owner_ta_ok in K11. destruct K11 as (_ & Tx & ->). apply mint_data_ok in K15. destruct K15 as [-> _].
    assert (Hs : is_state l (m_key m1)) by (split; [exact K6|apply Hst]).
    assert (exists sk, m_key m1 = sk) as [sk Es] by eauto. rewrite Es in Hs.
    destruct (HPP _ Hs) as (vk & P & HP). pose proof (pool_ranges _ _ _ _ _ HP) as (R0 & R1 & R2 & R3).
    specialize (A2 _ _ Hs (pool_is_vault _ _ _ _ _ HP)).
    rewrite Es, K2, (pool_vault_is _ _ _ _ _ HP) in K22.
    apply get_account_ok in H3. assert (Eu : m_key m3 = ux).
    { destruct S3 as (m & Q & <-). rewrite Q in H3. congruence. }
    cbn [parse_ta tk_amount parse_mint tm_supply] in *. rewrite Es, K22, K1, Eu in *.
    fold (balance l vk) (escrow l sk) (supply l).
    apply fail_if_ok, Z.ltb_ge in K12. fold (balance l ux) in K12.
    pose proof (holder_le _ _ _ _ _ _ _ HP Tux) as Hle.
    apply ne_bind; [unfold u64_checked_sub; noerr|]. intros ne Hne.
    apply checked_sub_ok in Hne. destruct Hne as [_ ->]. fold (free_orca l sk vk).
    destruct (no_overflow_unstake x (free_orca l sk vk) (supply l)) as (w & Ew & Hw);
      [unfold is_u64 in Hx; lia|lia|unfold free_orca in *; lia|].
    rewrite Ew. cbn [bind]. pass u23 K23. apply ne_bind; [apply cpi_burn_ne|]. intros l1 Hb.
    unfold cpi_token_burn in Hb. apply invoke_signed_ok in Hb. destruct Hb as (pdas & _ & _ & _ & Hb).
    apply token_burn_ok in Hb. destruct Hb as (sd1 & Lux & Lxm & _ & _ & _ & _ & _ & ->).
    pass sd2 K24. apply state_data_ok in K24. destruct K24 as [-> _].
    rewrite Es, Eu, K1 in *.
    assert (N1 : sk <> ux) by (apply (xorca_owned_ne l); [exact K6|apply Lux]).
    assert (N2 : sk <> xorca_mint_id) by (apply (xorca_owned_ne l); [exact K6|apply Lxm]).
    rewrite burned_other by congruence. fold (escrow l sk).
    apply ne_bind.
    { unfold u64_checked_add. destruct (Z.leb_spec (escrow l sk + w) u64_max); [discriminate|].
      unfold free_orca, u64_max in *. lia. }
    intros esc _. apply ne_bind; [apply create_pending_ne|]. intros l3 _.
    apply ne_bind; [unfold i64_checked_add; noerr|]. intros ts _. discriminate.
Qed.

Lemma withdraw_fails C E accs l i :
  pooled C l -> no_pda_signers C accs ->
  withdraw_process C E accs l i <> Err (custom InsufficientEscrow).
Proof.
  intros HPP Hnp. unfold withdraw_process.
  pass m0 H0. pass m1 H1. pass m2 H2. pass m3 H3. pass m4 H4. pass m5 H5. pass m6 H6. pass m7 H7.
  pass u0 K0. pass u1 K1. pass u2 K2. pass u3 K3. pass u4 K4. pass sd K5. pass u6 K6. pass u7 K7. cbv zeta.
  pass u8 K8. pass u9 K9. pass pdd K10. pass u11 K11. pass uod K12. pass vd K13. pass u14 K14. pass u15 K15.
  pass u16 K16.
  apply owner_ok in K4, K9. apply state_data_ok in K5. destruct K5 as [-> Hst].
  apply pending_data_ok in K10. destruct K10 as [-> Hpd].
  apply owner_ta_ok in K12, K13. destruct K12 as (_ & Uo & _). destruct K13 as (_ & Vo & _).
  assert (Hs : is_state l (m_key m1)) by (split; [exact K4|apply Hst]).
    assert (exists sk, m_key m1 = sk) as [sk Es] by eauto. rewrite Es in Hs.
    destruct (HPP _ Hs) as (vk & P & HP). pose proof (pool_ranges _ _ _ _ _ HP) as (R0 & R1 & R2 & R3).
  assert (Hin : In (m_key m2) P) by (apply (pool_record_is _ _ _ _ _ _ HP); split; [exact K9|apply Hpd]).
  rewrite Es in *.
  assert (Hle : claim l (m_key m2) <= escrow l sk).
  { unfold escrow. rewrite (po_escrow _ _ _ _ _ HP). apply in_split in Hin. destruct Hin as (p1 & p2 & ->).
    rewrite map_app. cbn [map]. assert (Hn : forall ks, 0 <= sumZ (map (claim l) ks)).
    { induction ks as [|k ks IH]; cbn [map sumZ fold_right]; [lia|]. unfold sumZ in IH.
      pose proof (get_u64_range 40 (a_data (l k))). unfold claim, pw_amount, is_u64 in *. lia. }
    pose proof (Hn p1). pose proof (Hn p2).
    rewrite Totals.sumZ_app. cbn [sumZ fold_right]. unfold sumZ in *. lia. }
  apply ne_bind.
  { fold (escrow l sk) (claim l (m_key m2)). destruct (Z.ltb_spec (escrow l sk) (claim l (m_key m2))); [lia|discriminate]. }
  intros u _. apply ne_bind; [apply cpi_transfer_ne|]. intros l1 Htr. apply ne_bind; [apply close_ne|].
  intros l2 Hcl. pass sd2 K20. apply state_data_ok in K20. destruct K20 as [-> _].
  assert (E2 : a_data (l2 (m_key m1)) = a_data (l sk)).
  { rewrite Es.
    unfold cpi_token_transfer in Htr. apply invoke_signed_ok in Htr. destruct Htr as (pdas & Hpd0 & _ & _ & Htr).
    apply pda_signers_inv in Hpd0. destruct Hpd0 as (kk & Hkk & ->).
    apply verify_state_ok in K6. rewrite Es in K6.
    assert (Ek : kk = sk) by (rewrite (create_derive _ _ _ _ _ Hkk); symmetry; exact K6). rewrite Ek in Hkk.
    apply role_sw in K0. apply get_account_ok in H0. apply nth_error_In in H0.
    assert (N0 : m_key m0 <> sk).
    { intros K. apply (Hnp m0 H0); [apply K0|]. rewrite K. eexists. exact Hkk. }
    destruct Uo as (Uo & Ul & Um & Uw). destruct Vo as (Vo & Vl & Vm & Vw).
    assert (N1 : m_key m4 <> m_key m3) by (intros K; rewrite K in Vw; congruence).
    apply token_transfer_inv in Htr; [|exact N1].
    destruct Htr as (vd1 & Lv & Luo & Ha1 & Ha2 & Ha3 & Ha4 & Hdeq & _).
    assert (S1 : sk <> m_key m4) by (apply (xorca_owned_ne l); assumption).
    assert (S2 : sk <> m_key m3) by (apply (xorca_owned_ne l); assumption).
    assert (S3 : m_key m2 <> sk).
    { intros K. rewrite K in Hpd. destruct Hpd as [_ D1]. destruct Hst as [_ D2].
      unfold pw_disc, st_disc in *. congruence. }
    apply close_ok in Hcl. destruct Hcl as (_ & _ & _ & ->). cbv zeta. autorewrite with ledger.
    rewrite set_data_other by exact S3. autorewrite with ledger. rewrite set_data_other by exact S3.
    destruct (Hdeq sk) as [E1 _]. rewrite E1. now rewrite transferred_data_other. }
  rewrite E2. fold (escrow l sk) (claim l (m_key m2)).
  apply ne_bind; [|discriminate].
  unfold u64_checked_sub. destruct (Z.leb_spec (claim l (m_key m2)) (escrow l sk)); [discriminate|lia].
Qed.

Lemma reaches_pooled C l : ordinary_state_address C -> reaches C l -> pooled C l.
Proof. intros Ho Hr k Hk. eapply reaches_pool; eassumption. Qed.

Lemma call_is C E accs data i l :
  encodes data i ->
  process_instruction C E xorca_id accs l data =
  match i with
  | Stake a => stake_process C accs l a
  | Unstake x i => unstake_process C E accs l x i
  | Withdraw i => withdraw_process C E accs l i
  | Initialize c => initialize_process C E accs l c
  | Set_ u => set_process C accs l u
  end.
Proof.
  intros H. apply decode_encodes in H. unfold process_instruction. rewrite key_eqb_refl.
  cbn [negb fail_if bind]. rewrite H. destruct i; reflexivity.
Qed.

Theorem defensive_errors C l E accs data :
  ordinary_state_address C -> reaches C l -> op_ok C l (OpCall E accs data) ->
  (forall a, encodes data (Stake a) ->
     process_instruction C E xorca_id accs l data <> Err (custom InsufficientVaultBacking)) /\
  (forall x i, encodes data (Unstake x i) ->
     process_instruction C E xorca_id accs l data <> Err (custom InsufficientVaultBacking)) /\
  (forall i, encodes data (Withdraw i) ->
     process_instruction C E xorca_id accs l data <> Err (custom InsufficientEscrow)).
Proof.
  intros Ho Hr Hok. pose proof (reaches_pooled _ _ Ho Hr) as HP. destruct Hok as [HE Hh].
  repeat split; intros.
  - rewrite (call_is _ _ _ _ _ _ H). apply stake_fails; [exact HP|apply H|now left].
  - rewrite (call_is _ _ _ _ _ _ H). apply unstake_fails; [exact HP|apply H|now left].
  - rewrite (call_is _ _ _ _ _ _ H). apply withdraw_fails; [exact HP|]. exact Hh.
Qed.

(** A holder of xORCA never meets the branch for an empty pool, nor an overflow
    while the vault holds less than 2^63. *)
Theorem holder_no_arithmetic_error C l sk vk E accs data x i ux un :
  ordinary_state_address C -> reaches C l -> is_state l sk -> is_vault C sk vk ->
  op_ok C l (OpCall E accs data) -> encodes data (Unstake x i) ->
  slot accs 3 ux -> token_account_of l ux xorca_mint_id un -> 0 < balance l ux ->
  (0 < supply l /\ 0 < free_orca l sk vk) /\
  (balance l vk < 2 ^ 63 ->
   process_instruction C E xorca_id accs l data <> Err (custom ArithmeticError)).
Proof.
  intros Ho Hr Hs Hv Hok Henc H3 Ht Hb. pose proof (reaches_pooled _ _ Ho Hr) as HPP.
  destruct (reaches_pool_vault _ _ _ _ Ho Hr Hs Hv) as (P & HP).
  pose proof (holder_le _ _ _ _ _ _ _ HP Ht). pose proof (pool_ranges _ _ _ _ _ HP) as (R0 & _).
  split; [lia|]. intros Hlt. rewrite (call_is _ _ _ _ _ _ Henc).
  apply unstake_fails; [exact HPP|apply Henc|right]. split; [reflexivity|]. split; [|eauto 6].
  intros sk' vk' Hs' Hv'. assert (sk' = sk) as ->.
  { eapply pool_state_is; [exact HP|apply Hs'|apply Hs']. }
  assert (vk' = vk) as ->; [|exact Hlt]. destruct Hv as [b Hv], Hv' as [b' Hv']. congruence.
Qed.

Theorem staker_no_arithmetic_error C l sk vk E accs data a :
  ordinary_state_address C -> reaches C l -> is_state l sk -> is_vault C sk vk ->
  op_ok C l (OpCall E accs data) -> encodes data (Stake a) ->
  a < 2 ^ 63 -> balance l vk < 2 ^ 63 ->
  process_instruction C E xorca_id accs l data <> Err (custom ArithmeticError).
Proof.
  intros Ho Hr Hs Hv Hok Henc Ha Hlt. pose proof (reaches_pooled _ _ Ho Hr) as HPP.
  destruct (reaches_pool_vault _ _ _ _ Ho Hr Hs Hv) as (P & HP).
  rewrite (call_is _ _ _ _ _ _ Henc).
  apply stake_fails; [exact HPP|apply Henc|right]. split; [reflexivity|]. split; [exact Ha|].
  intros sk' vk' Hs' Hv'. assert (sk' = sk) as ->.
  { eapply pool_state_is; [exact HP|apply Hs'|apply Hs']. }
  assert (vk' = vk) as ->; [|exact Hlt]. destruct Hv as [b Hv], Hv' as [b' Hv']. congruence.
Qed.

(** ** Dust *)
(** Same check in the call that succeeds and in the call in question. *)
Ltac lock1 H :=
  match type of H with bind ?m _ = Ok _ =>
    match goal with |- bind m _ = _ =>
      let E := fresh "Q" in destruct m eqn:E; cbn [bind] in H |- *; [|discriminate H]
    end
  end.
Ltac lock H := repeat (cbv beta zeta in H |- *; lock1 H).

Theorem stake_dust C accs l a a' r sk vk :
  is_u64 a -> stake_process C accs l a' = Ok r -> a <= a' -> slot accs 5 sk -> slot accs 1 vk ->
  a = 0 \/ supply l <> 0 /\ free_orca l sk vk <> 0 /\ a * (supply l + 100) < free_orca l sk vk + 100 ->
  stake_process C accs l a = Err (custom InsufficientStakeAmount).
Proof.
  intros Ha H Hle (m5 & N5 & <-) (m1 & N1 & <-) Hq. unfold stake_process in *. lock H.
  rewrite fail_if_Ok; [|].
  2: { destruct (fail_if _ _) eqn:F in H; [|discriminate H]. apply fail_if_ok, Z.ltb_ge in F. apply Z.ltb_ge. lia. }
  destruct (fail_if _ _) eqn:F in H; [|discriminate H]. cbn [bind] in H |- *. lock H.
  match goal with Q : get_account_info accs 5 = Ok ?m |- _ => apply get_account_ok in Q; rewrite N5 in Q; injection Q as <- end.
  match goal with Q : get_account_info accs 1 = Ok ?m |- _ => apply get_account_ok in Q; rewrite N1 in Q; injection Q as <- end.
  match goal with Q : assert_state_data l m5 = Ok _ |- _ => apply state_data_ok in Q; destruct Q as [-> Hst] end.
  match goal with Q : assert_account_address _ xorca_mint_id = Ok _ |- _ => apply address_ok in Q; rename Q into Ax end.
  match goal with Q : assert_mint_data l _ = Ok _ |- _ => apply mint_data_ok in Q; destruct Q as [-> _]; rewrite Ax in * end.
  match goal with Q : make_owner_token_account_assertions l m1 _ _ _ = Ok _ |- _ => apply owner_ta_ok in Q; destruct Q as (_ & _ & ->) end.
  match goal with Q : u64_checked_sub _ _ _ = Ok _ |- _ => apply checked_sub_ok in Q; destruct Q as [Qle ->] end.
  cbn [parse_ta tk_amount parse_mint tm_supply] in *.
  fold (balance l (m_key m1)) (escrow l (m_key m5)) (supply l) in *.
  fold (free_orca l (m_key m5) (m_key m1)) in *.
  assert (R1 : is_u64 (free_orca l (m_key m5) (m_key m1))).
  { pose proof (ta_amount_range (a_data (l (m_key m1)))). pose proof (get_u64_range 8 (a_data (l (m_key m5)))).
    unfold free_orca, escrow, balance, st_escrow, is_u64 in *. lia. }
  assert (R2 : is_u64 (supply l)) by apply mint_supply_range.
  destruct (orca_to_xorca_char a _ _ Ha R1 R2) as (C1 & C2 & _). unfold is_u64 in *.
  assert (Ez : convert_orca_to_xorca a (free_orca l (m_key m5) (m_key m1)) (supply l) = Ok 0).
  { destruct Hq as [->|(S1 & S2 & S3)].
    - destruct (Z.eq_dec (supply l) 0) as [e|e]; [apply C1; auto|].
      destruct (Z.eq_dec (free_orca l (m_key m5) (m_key m1)) 0) as [e'|e']; [apply C1; auto|].
      rewrite C2; auto; rewrite Z.mul_0_l, ?Z.div_0_l; lia.
    - assert (Ed : a * (supply l + 100) / (free_orca l (m_key m5) (m_key m1) + 100) = 0)
        by (apply Z.div_small; split; [apply Z.mul_nonneg_nonneg; lia|exact S3]).
      rewrite C2; auto; rewrite ?Ed; try lia. f_equal. }
  rewrite Ez. reflexivity.
Qed.

Theorem unstake_dust C E accs l x x' i r sk vk :
  is_u64 x -> unstake_process C E accs l x' i = Ok r -> x <= x' -> slot accs 1 sk -> slot accs 6 vk ->
  x * (free_orca l sk vk + 100) < supply l + 100 ->
  unstake_process C E accs l x i = Err (custom InsufficientUnstakeAmount).
Proof.
  intros Hx H Hle (m5 & N5 & <-) (m1 & N1 & <-) Hq. unfold unstake_process in *. lock H.
  rewrite fail_if_Ok; [|].
  2: { destruct (fail_if _ _) eqn:F in H; [|discriminate H]. apply fail_if_ok, Z.ltb_ge in F. apply Z.ltb_ge. lia. }
  destruct (fail_if _ _) eqn:F in H; [|discriminate H]. cbn [bind] in H |- *. lock H.
  match goal with Q : get_account_info accs 1 = Ok ?m |- _ => apply get_account_ok in Q; rewrite N5 in Q; injection Q as <- end.
  match goal with Q : get_account_info accs 6 = Ok ?m |- _ => apply get_account_ok in Q; rewrite N1 in Q; injection Q as <- end.
  match goal with Q : assert_state_data l m5 = Ok _ |- _ => apply state_data_ok in Q; destruct Q as [-> Hst] end.
  match goal with Q : assert_account_address ?m xorca_mint_id = Ok _ |- _ => apply address_ok in Q; rename Q into Ax;
    match goal with Q : assert_mint_data l m = Ok _ |- _ => apply mint_data_ok in Q; destruct Q as [-> _]; rewrite Ax in * end end.
  match goal with Q : make_owner_token_account_assertions l m1 _ _ _ = Ok _ |- _ => apply owner_ta_ok in Q; destruct Q as (_ & _ & ->) end.
  match goal with Q : u64_checked_sub _ _ _ = Ok _ |- _ => apply checked_sub_ok in Q; destruct Q as [Qle ->] end.
  cbn [parse_ta tk_amount parse_mint tm_supply] in *.
  fold (balance l (m_key m1)) (escrow l (m_key m5)) (supply l) in *.
  fold (free_orca l (m_key m5) (m_key m1)) in *.
  assert (R1 : is_u64 (free_orca l (m_key m5) (m_key m1))).
  { pose proof (ta_amount_range (a_data (l (m_key m1)))). pose proof (get_u64_range 8 (a_data (l (m_key m5)))).
    unfold free_orca, escrow, balance, st_escrow, is_u64 in *. lia. }
  assert (R2 : is_u64 (supply l)) by apply mint_supply_range.
  destruct (xorca_to_orca_char x _ _ Hx R1 R2) as (_ & C2 & _).
  destruct (convert_xorca_to_orca x' _ _) as [w'|] eqn:W; [|discriminate H].
  assert (S1 : supply l <> 0) by (intros e; unfold convert_xorca_to_orca in W; rewrite e in W; discriminate W).
  assert (S2 : free_orca l (m_key m5) (m_key m1) <> 0).
  { intros e; unfold convert_xorca_to_orca in W; rewrite e, orb_true_r in W; discriminate W. }
  assert (Ez : convert_xorca_to_orca x (free_orca l (m_key m5) (m_key m1)) (supply l) = Ok 0).
  { unfold is_u64 in *.
    assert (Ed : x * (free_orca l (m_key m5) (m_key m1) + 100) / (supply l + 100) = 0)
      by (apply Z.div_small; split; [apply Z.mul_nonneg_nonneg; lia|exact Hq]).
    rewrite C2; auto; rewrite ?Ed; try lia. f_equal. }
  rewrite Ez. reflexivity.
Qed.

Theorem stake_dust_call C l E accs data data' a a' sk vk :
  encodes data (Stake a) -> encodes data' (Stake a') -> a <= a' ->
  is_ok (process_instruction C E xorca_id accs l data') = true ->
  slot accs 5 sk -> slot accs 1 vk ->
  a = 0 \/ supply l <> 0 /\ free_orca l sk vk <> 0 /\ a * (supply l + 100) < free_orca l sk vk + 100 ->
  process_instruction C E xorca_id accs l data = Err (custom InsufficientStakeAmount).
Proof.
  intros H1 H2 Hle Hok S5 S1 Hq. rewrite (call_is _ _ _ _ _ _ H1). rewrite (call_is _ _ _ _ _ _ H2) in Hok.
  destruct (stake_process C accs l a') eqn:Hs; [|discriminate].
  eapply stake_dust; try eassumption. apply H1.
Qed.

Theorem unstake_dust_call C l E accs data data' x x' i sk vk :
  encodes data (Unstake x i) -> encodes data' (Unstake x' i) -> x <= x' ->
  is_ok (process_instruction C E xorca_id accs l data') = true ->
  slot accs 1 sk -> slot accs 6 vk ->
  x * (free_orca l sk vk + 100) < supply l + 100 ->
  process_instruction C E xorca_id accs l data = Err (custom InsufficientUnstakeAmount).
Proof.
  intros H1 H2 Hle Hok S5 S1 Hq. rewrite (call_is _ _ _ _ _ _ H1). rewrite (call_is _ _ _ _ _ _ H2) in Hok.
  destruct (unstake_process C E accs l x' i) eqn:Hs; [|discriminate].
  eapply unstake_dust; try eassumption. apply H1.
Qed.
