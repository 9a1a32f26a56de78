(** Proofs for C80: the scripts' packets take effect on the chain. *)
From Verif Require Import ConserveFacts UnstakeFacts BytesFacts LedgerFacts EncodeFacts Pool PoolHistory LifeFacts AddressFacts EffectFacts RentCheckFacts HistoryFacts ScriptRun SlotFacts RoleFacts GuardFacts FreezeStep.
From Verif Require Export LandScripts ScriptFacts.
Import List ListNotations.
Open Scope list_scope.
Open Scope Z_scope.

Lemma created_one E l u k v m b b' :
  instructions_of (create_if_missing E l u k v m ++ [send E b]) = Some [b'] ->
  create_if_missing E l u k v m ++ [send E b] = [send E b] /\ b' = Built script_xorca_id (b_accounts b) (b_data b).
Proof.
  unfold create_if_missing. destruct (rpc_get l k); cbn.
  - intros Q. injection Q as <-. auto.
  - discriminate.
Qed.
Lemma script_signs C E l0 u ops ixs :
  script_sends C E l0 (Some u) [u] ops -> instructions_of ops = Some ixs ->
  lists [u] (must_sign u ixs) /\
  forall b m, In b ixs -> In m (b_accounts b) -> m_signer m = true -> m_key m = u.
Proof.
  intros H I. destruct (sends_scripted _ _ _ _ _ _ H) as (_ & _ & ixs' & I' & T).
  assert (ixs' = ixs) by congruence. subst ixs'. apply script_tidy in T. destruct T as ((A & B & _) & _).
  assert (O : forall b m, In b ixs -> In m (b_accounts b) -> m_signer m = true -> m_key m = u).
  { intros b m Ib Im Sm. destruct (A (m_key m)) as [Q|[]]; [|now symmetry]. exists b, m. auto. }
  split; [|exact O]. split; [repeat constructor; intros []|].
  intros k. split.
  - intros [<-|[]]. now left.
  - intros [->|(b & m & Ib & Im & <- & Sm)]; [now left|]. left. symmetry. eauto.
Qed.
Lemma one_honest C E l0 u b :
  script_sends C E l0 (Some u) [u] [send E b] -> on_curve C u = true -> honest_metas C (b_accounts b).
Proof.
  intros H V m Im Sm. destruct (script_signs _ _ _ _ _ _ H eq_refl) as [_ O].
  rewrite (O _ m (or_introl eq_refl) Im Sm). now apply curve_not_program.
Qed.
Lemma first_writes accs k rs : fills accs ((k, true, true) :: rs) -> exists m, In m accs /\ m_key m = k /\ m_writable m = true.
Proof.
  intros F. destruct (F 0%nat k true true eq_refl) as (m & A & B & _ & W). exists m. split; [eapply nth_error_In; eassumption|auto].
Qed.
Lemma first_not_called reserved ixs b k rs : may_arrive reserved ixs -> In b ixs ->
  fills (b_accounts b) ((k, true, true) :: rs) -> ~ is_called ixs k.
Proof. intros M I F. apply first_writes in F. destruct F as (m & J & <- & W). now apply (M b m). Qed.
Lemma one_lands C E l0 l before signature verify reserved tables hash u b rs l' evs :
  signs_well signature verify [u] -> script_sends C E l0 (Some u) [u] [send E b] ->
  let b1 := Built script_xorca_id (b_accounts b) (b_data b) in
  may_arrive reserved [b1] -> fills (b_accounts b) ((u, true, true) :: rs) -> can_pay E l u 5000 ->
  let l1 := paid l u 5000 in
  process_instruction C E xorca_id (b_accounts b) l1 (b_data b) = Ok (l', evs) -> all_pass E l1 l' ->
  exists d, wire before signature hash (Some u) [u] [b1] = Some d /\
    land C E verify reserved tables l d = (l', evs).
Proof.
  intros Sg H b1 MA F Cp l1 Run AP. destruct (script_signs _ _ _ _ _ _ H eq_refl) as [Ls _].
  destruct (land_script C E l0 l before signature verify reserved tables hash (Some u) [u] [send E b] [b1] u [u] (l', evs))
    as (d & W & A & _); auto.
  - now left.
  - eapply first_not_called; [exact MA|now left|exact F].
  - intros E1 sgs payer ata w mint [Q|[]]. discriminate Q.
  - cbn [attempt_all attempt send]. change (5000 * Z.of_nat (length [u])) with 5000. fold l1. rewrite Run. cbn. now rewrite app_nil_r.
  - exists d. split; [exact W|]. now apply A.
Qed.

Ltac paid_simpl :=
  unfold free_orca, is_state, is_record, rec_owner, rec_index, rec_time, rec_amount, active_account, token_account_of, balance,
    ordinary, no_self_delegate, supply, escrow, cooldown, wallet in *;
  rewrite ?paid_owner, ?paid_data in *.

Theorem land_withdraw C E l0 l before signature verify reserved tables hash sk vk un j ops b k uo :
  ordinary_state_address C -> signs_well signature verify [un] -> reaches C l -> is_state l sk -> client_vault C sk vk ->
  sysvars_ok E -> withdraw_script C E l0 un j = Some ops -> instructions_of ops = Some [b] -> may_arrive reserved [b] ->
  is_record l k -> rec_owner l k = un -> rec_index l k = js_trunc j -> rec_time l k <= now E ->
  is_ata C un orca_mint_id uo -> active_account l uo orca_mint_id un -> ta_state (a_data (l vk)) = 1 ->
  balance l uo + rec_amount l k <= u64_max -> a_lamports (l un) - 5000 + a_lamports (l k) <= u64_max ->
  can_pay E l un 5000 -> rent_min E 0 <= a_lamports (l un) - 5000 + a_lamports (l k) ->
  exists d, wire before signature hash (Some un) [un] [b] = Some d /\
    let l' := fst (land C E verify reserved tables l d) in
    ~ is_record l' k /\ balance l' uo = balance l uo + rec_amount l k /\
    balance l' vk = balance l vk - rec_amount l k /\ escrow l' sk = escrow l sk - rec_amount l k /\
    a_lamports (l' un) = a_lamports (l un) - 5000 + a_lamports (l k).
Proof.
  intros Hord Sg Hr Hs Hv SV Hscript I MA Hk Hu Hi Ht Ao Hao Hvs Hb1 Hb2 Cp Rn.
  assert (Hs0 : script_sends C E l0 (Some un) [un] ops) by (eapply SendsWithdraw; eassumption).
  unfold withdraw_script in Hscript. repeat build_step Hscript.
  injection Hscript as <-. match goal with X : script_withdraw _ _ _ = Some ?b |- _ => rename b into b0 end.
  destruct (created_one _ _ _ _ _ _ _ _ I) as [Q ->]. rewrite Q in *. clear I Q.
  match goal with X : script_withdraw _ _ _ = Some b0 |- _ => rename X into Hb end.
  assert (V : on_curve C un = true) by (match goal with X : script_ata _ _ _ = Some _ |- _ => apply script_ata_some in X; apply X end).
  pose proof (one_honest _ _ _ _ _ Hs0 V) as Hh.
  assert (Pl : reaches C (paid l un 5000)) by (eapply paid_reaches; eauto; lia).
  pose proof (paid_is_state l un 5000 sk Hs) as Ps.
  assert (Ho : op_ok C (paid l un 5000) (OpCall E (b_accounts b0) (b_data b0))) by (split; assumption).
  assert (Pk : is_record (paid l un 5000) k) by now apply paid_is_record.
  destruct (script_withdraw_accounts _ _ _ _ _ Hb (delivered_refl _)) as (sk' & vk' & k' & uo' & A1 & A2 & A3 & A4 & F).
  pose proof (state_where _ _ _ Hord Hr Hs) as [W _]. pose proof (client_state_unique _ _ _ A1 W) as ->.
  pose proof (client_vault_unique _ _ _ _ A2 Hv) as ->. pose proof (is_ata_unique _ _ _ _ _ A4 Ao) as ->.
  pose proof (record_where _ _ _ _ Hord Hr Hs Hk) as R. rewrite Hu, Hi in R. pose proof (client_record_unique _ _ _ _ _ A3 R) as ->.
  assert (Nk : un <> k).
  { intros <-. destruct Cp as (X & _). destruct Hk as [Y _]. rewrite X in Y. now apply xorca_ne_system. }
  assert (Live : is_ok (process_instruction C E xorca_id (b_accounts b0) (paid l un 5000) (b_data b0)) = true).
  { assert (Hc : sends C b0 (Withdraw (js_trunc j))) by now apply (ScriptWithdraw C un).
    destruct (sends_bytes _ _ _ Hc) as (<- & _).
    apply (script_withdraw_live C E (paid l un 5000) sk vk b0 (b_accounts b0) un k uo j); auto using delivered_refl;
      try (paid_simpl; assumption).
    rewrite paid_same, paid_other by exact Nk. exact Hb2. }
  destruct (process_instruction C E xorca_id (b_accounts b0) (paid l un 5000) (b_data b0)) as [[l' evs]|] eqn:Run; [|discriminate].
  assert (He : encodes (b_data b0) (Withdraw (js_trunc j))) by (eapply sends_encodes; now apply (ScriptWithdraw C un)).
  pose proof (fills_slot _ _ 0 _ _ _ F eq_refl) as S0. pose proof (fills_slot _ _ 2 _ _ _ F eq_refl) as S2.
  pose proof (fills_slot _ _ 1 _ _ _ F eq_refl) as S1. pose proof (fills_slot _ _ 3 _ _ _ F eq_refl) as S3.
  pose proof (fills_slot _ _ 4 _ _ _ F eq_refl) as S4.
  destruct (call_performs _ _ _ _ _ _ _ _ He Run) as [Hp Rn'].
  destruct (withdraw_passes _ _ _ _ _ _ _ _ _ Hord Pl Ps Ho Hp S0 S2) as (E' & data' & Q & P1 & P2). injection Q as <- <-.
  cbv zeta in P1, P2. rewrite Rn' in P1, P2. cbn [fst] in P1, P2.
  assert (AP : all_pass E (paid l un 5000) l').
  { intros a _. destruct (key_eq_dec a un) as [->|D]; [|auto]. apply P2.
    rewrite paid_same, paid_other by exact Nk. cbn [a_data a_lamports]. destruct Cp as (_ & -> & _). exact Rn. }
  destruct (one_lands C E l0 l before signature verify reserved tables hash un b0 _ l' evs
    Sg Hs0 MA F Cp Run AP) as (d & Wd & L).
  exists d. split; [exact Wd|]. rewrite L. cbn [fst].
  destruct (withdraw_exact _ _ _ _ _ _ _ _ Hh He Run) as (un1 & sk1 & k1 & uo1 & vk1 & T0 & T1 & T2 & T3 & T4 & X).
  apply signed_is_slot in T0.
  pose proof (slot_unique _ _ _ _ T0 S0) as ->. pose proof (slot_unique _ _ _ _ T1 S1) as ->.
  pose proof (slot_unique _ _ _ _ T2 S2) as ->. pose proof (slot_unique _ _ _ _ T3 S3) as ->.
  pose proof (slot_unique _ _ _ _ T4 S4) as ->.
  destruct X as (_ & _ & _ & _ & _ & _ & _ & B1 & B2 & B3 & _ & O & _ & _ & _ & _ & _ & _ & Lm & _).
  destruct (reaches_pool _ _ _ Hord Hr Hs) as (vk2 & P & HP).
  assert (vk2 = vk) as ->.
  { pose proof (pool_is_vault _ _ _ _ _ HP) as Y. apply client_vault_is in Hv. destruct Hv as (vb & Hv). destruct Y as (vb' & Y). congruence. }
  assert (Ov : ordinary (paid l un 5000) vk) by (unfold ordinary; rewrite paid_data; apply (po_vault _ _ _ _ _ HP)).
  destruct (Lm Ov) as [Ln _]. specialize (Ln Nk). rewrite paid_same, paid_other in Ln by exact Nk. cbn [a_lamports] in Ln.
  split; [intros [Y _]; rewrite O in Y; now apply xorca_ne_system|].
  clear - B1 B2 B3 Ln. unfold balance, rec_amount, escrow in *. rewrite !paid_data in *. auto.
Qed.

Theorem land_stake C E l0 l before signature verify reserved tables hash sk vk st a ops b so sx :
  ordinary_state_address C -> signs_well signature verify [st] -> reaches C l -> is_state l sk -> client_vault C sk vk ->
  sysvars_ok E -> stake_script C E l0 st a = Some ops -> instructions_of ops = Some [b] -> may_arrive reserved [b] ->
  is_ata C st orca_mint_id so -> active_account l so orca_mint_id st -> ordinary l so -> no_self_delegate l so st ->
  0 < a <= balance l so ->
  is_ata C st xorca_mint_id sx -> active_account l sx xorca_mint_id st -> ta_state (a_data (l vk)) = 1 ->
  (supply l <> 0 -> free_orca l sk vk + 100 <= a * (supply l + 100)) -> balance l vk + a < 2 ^ 63 ->
  can_pay E l st 5000 ->
  exists d, wire before signature hash (Some st) [st] [b] = Some d /\
    let l' := fst (land C E verify reserved tables l d) in
    exists m,
      (supply l = 0 \/ free_orca l sk vk = 0 -> m = a) /\
      (supply l <> 0 -> free_orca l sk vk <> 0 -> m = a * (supply l + 100) / (free_orca l sk vk + 100)) /\
      0 < m /\ balance l' so = balance l so - a /\ balance l' vk = balance l vk + a /\
      balance l' sx = balance l sx + m /\ supply l' = supply l + m /\
      a_lamports (l' st) = a_lamports (l st) - 5000.
Proof.
  intros Hord Sg Hr Hs Hv SV Hscript I MA Ao Hao Hon Hsd Ha Ax Hax Hvs Hq Hlt Cp.
  assert (Hs0 : script_sends C E l0 (Some st) [st] ops) by (eapply SendsStake; eassumption).
  unfold stake_script in Hscript. repeat build_step Hscript.
  injection Hscript as <-. match goal with X : script_stake _ _ _ = Some ?b |- _ => rename b into b0 end.
  destruct (created_one _ _ _ _ _ _ _ _ I) as [Q ->]. rewrite Q in *. clear I Q.
  match goal with X : script_stake _ _ _ = Some b0 |- _ => rename X into Hb end.
  assert (V : on_curve C st = true) by (match goal with X : script_ata _ _ _ = Some _ |- _ => apply script_ata_some in X; apply X end).
  pose proof (one_honest _ _ _ _ _ Hs0 V) as Hh.
  assert (Pl : reaches C (paid l st 5000)) by (eapply paid_reaches; eauto; lia).
  pose proof (paid_is_state l st 5000 sk Hs) as Ps.
  assert (Ho : op_ok C (paid l st 5000) (OpCall E (b_accounts b0) (b_data b0))) by (split; assumption).
  destruct (script_stake_accounts _ _ _ _ _ Hb (delivered_refl _)) as (sk' & vk' & so' & sx' & A1 & A2 & A3 & A4 & F).
  pose proof (state_where _ _ _ Hord Hr Hs) as [W _]. pose proof (client_state_unique _ _ _ A1 W) as ->.
  pose proof (client_vault_unique _ _ _ _ A2 Hv) as ->. pose proof (is_ata_unique _ _ _ _ _ A3 Ao) as ->.
  pose proof (is_ata_unique _ _ _ _ _ A4 Ax) as ->.
  assert (Live : is_ok (process_instruction C E xorca_id (b_accounts b0) (paid l st 5000) (b_data b0)) = true).
  { assert (Hc : sends C b0 (Stake a)) by now apply (ScriptStake C st).
    destruct (sends_bytes _ _ _ Hc) as (<- & _).
    apply (script_stake_live C E (paid l st 5000) sk vk b0 (b_accounts b0) st so sx a); auto using delivered_refl;
      try (clear - Hao Hax Hon Hsd Hvs Hq Hlt Ha; paid_simpl; lia || assumption).
    rewrite paid_owner. destruct Cp as (-> & _). intros Y. symmetry in Y. now apply token_ne_system in Y. }
  destruct (process_instruction C E xorca_id (b_accounts b0) (paid l st 5000) (b_data b0)) as [[l' evs]|] eqn:Run; [|discriminate].
  assert (He : encodes (b_data b0) (Stake a)) by (eapply sends_encodes; now apply (ScriptStake C st)).
  pose proof (fills_slot _ _ 0 _ _ _ F eq_refl) as S0. pose proof (fills_slot _ _ 1 _ _ _ F eq_refl) as S1.
  pose proof (fills_slot _ _ 2 _ _ _ F eq_refl) as S2. pose proof (fills_slot _ _ 3 _ _ _ F eq_refl) as S3.
  pose proof (fills_slot _ _ 5 _ _ _ F eq_refl) as S5.
  assert (On : ordinary (paid l st 5000) so) by (unfold ordinary; rewrite paid_data; exact Hon).
  assert (AP : all_pass E (paid l st 5000) l').
  { intros k _. eapply stake_passes; [exact Hh|exact He| |exact Run]. intros so1 T. now rewrite (slot_unique _ _ _ _ T S2). }
  destruct (one_lands C E l0 l before signature verify reserved tables hash st b0 _ l' evs
    Sg Hs0 MA F Cp Run AP) as (d & Wd & L).
  exists d. split; [exact Wd|]. rewrite L. cbn [fst].
  destruct (stake_exact _ _ _ _ _ _ _ _ Hh He Run) as (st1 & vk1 & so1 & sx1 & sk1 & m & T0 & T1 & T2 & T3 & T5 & X).
  apply signed_is_slot in T0.
  pose proof (slot_unique _ _ _ _ T0 S0) as ->. pose proof (slot_unique _ _ _ _ T1 S1) as ->.
  pose proof (slot_unique _ _ _ _ T2 S2) as ->. pose proof (slot_unique _ _ _ _ T3 S3) as ->.
  pose proof (slot_unique _ _ _ _ T5 S5) as ->.
  destruct X as (_ & _ & _ & _ & M1 & M2 & M3 & _ & B1 & B2 & B3 & B4 & _ & _ & _ & _ & _ & _ & Lm & _).
  specialize (Lm On st). rewrite paid_same in Lm. cbn [a_lamports] in Lm.
  exists m. clear - M1 M2 M3 B1 B2 B3 B4 Lm. unfold free_orca, balance, supply, escrow in *. rewrite !paid_data in *. tauto.
Qed.

Theorem land_unstake C E l0 l before signature verify reserved tables hash sk vk un x j ops b k ux :
  ordinary_state_address C -> signs_well signature verify [un] -> reaches C l -> is_state l sk -> client_vault C sk vk ->
  sysvars_ok E -> unstake_script C E l0 un x j = Some ops -> instructions_of ops = Some [b] -> may_arrive reserved [b] ->
  client_record C un (js_trunc j) k -> ~ is_record l k ->
  is_ata C un xorca_mint_id ux -> active_account l ux xorca_mint_id un -> no_self_delegate l ux un -> 0 < x <= balance l ux ->
  is_i64 (now E + cooldown l sk) -> balance l vk < 2 ^ 63 ->
  can_pay E l un 5000 ->
  rent_min E 0 <= a_lamports (l un) - 5000 - Z.max 0 (rent_min E 1024 - a_lamports (l k)) ->
  collision C (eq un) \/
  exists d, wire before signature hash (Some un) [un] [b] = Some d /\
    let l' := fst (land C E verify reserved tables l d) in
    is_record l' k /\ rec_owner l' k = un /\ rec_index l' k = js_trunc j /\
    rec_amount l' k = x * (free_orca l sk vk + 100) / (supply l + 100) /\
    rec_time l' k = now E + cooldown l sk /\
    balance l' ux = balance l ux - x /\ supply l' = supply l - x /\
    escrow l' sk = escrow l sk + rec_amount l' k /\ balance l' vk = balance l vk /\
    a_lamports (l' un) = a_lamports (l un) - 5000 - Z.max 0 (rent_min E 1024 - a_lamports (l k)).
Proof.
  intros Hord Sg Hr Hs Hv SV Hscript I MA Hk Hn Ax Hax Hsd Hx Hclock Hlt Cp Rn.
  assert (Hs0 : script_sends C E l0 (Some un) [un] ops) by (eapply SendsUnstake; eassumption).
  unfold unstake_script in Hscript. repeat build_step Hscript.
  injection Hscript as <-. match goal with X : script_unstake _ _ _ _ = Some ?b |- _ => rename b into b0 end.
  destruct (created_one _ _ _ _ _ _ _ _ I) as [Q ->]. rewrite Q in *. clear I Q.
  match goal with X : script_unstake _ _ _ _ = Some b0 |- _ => rename X into Hb end.
  assert (V : on_curve C un = true) by (match goal with X : script_ata _ _ _ = Some _ |- _ => apply script_ata_some in X; apply X end).
  pose proof (one_honest _ _ _ _ _ Hs0 V) as Hh.
  assert (Pl : reaches C (paid l un 5000)) by (eapply paid_reaches; eauto; lia).
  pose proof (paid_is_state l un 5000 sk Hs) as Ps.
  assert (Ho : op_ok C (paid l un 5000) (OpCall E (b_accounts b0) (b_data b0))) by (split; assumption).
  destruct (script_unstake_accounts _ _ _ _ _ _ Hb (delivered_refl _)) as (sk' & vk' & k' & ux' & A1 & A2 & A3 & A4 & F).
  pose proof (state_where _ _ _ Hord Hr Hs) as [W _]. pose proof (client_state_unique _ _ _ A1 W) as ->.
  pose proof (client_vault_unique _ _ _ _ A2 Hv) as ->. pose proof (is_ata_unique _ _ _ _ _ A4 Ax) as ->.
  pose proof (client_record_unique _ _ _ _ _ A3 Hk) as ->.
  assert (Nk : un <> k).
  { intros <-. apply client_record_is in Hk. destruct Hk as (kb & Hk). apply program_address_off_curve in Hk. congruence. }
  assert (Live : is_ok (process_instruction C E xorca_id (b_accounts b0) (paid l un 5000) (b_data b0)) = true \/ collision C (eq un)).
  { assert (Hc : sends C b0 (Unstake x (js_trunc j))) by now apply (ScriptUnstake C un).
    destruct (sends_bytes _ _ _ Hc) as (<- & _).
    apply (script_unstake_live C E (paid l un 5000) sk vk b0 (b_accounts b0) un ux x j k); auto using delivered_refl;
      try (clear - Hax Hsd Hx Hclock Hlt; paid_simpl; lia || assumption).
    - now rewrite paid_is_record.
    - destruct Cp as (X & Y & _). split; [now rewrite paid_owner|now rewrite paid_data].
    - rewrite paid_same, paid_other by exact Nk. cbn [a_lamports].
      destruct SV as [_ SV]. destruct (SV 0); lia. }
  destruct Live as [Live|Cl]; [right|now left].
  destruct (process_instruction C E xorca_id (b_accounts b0) (paid l un 5000) (b_data b0)) as [[l' evs]|] eqn:Run; [|discriminate].
  assert (He : encodes (b_data b0) (Unstake x (js_trunc j))) by (eapply sends_encodes; now apply (ScriptUnstake C un)).
  pose proof (fills_slot _ _ 0 _ _ _ F eq_refl) as S0. pose proof (fills_slot _ _ 1 _ _ _ F eq_refl) as S1.
  pose proof (fills_slot _ _ 2 _ _ _ F eq_refl) as S2. pose proof (fills_slot _ _ 3 _ _ _ F eq_refl) as S3.
  pose proof (fills_slot _ _ 6 _ _ _ F eq_refl) as S6.
  destruct (unstake_exact _ _ _ _ _ _ _ _ _ SV Hh He Run) as (un1 & sk1 & k1 & ux1 & vk1 & w & T0 & T1 & T2 & T3 & T6 & X).
  apply signed_is_slot in T0.
  pose proof (slot_unique _ _ _ _ T0 S0) as ->. pose proof (slot_unique _ _ _ _ T1 S1) as ->.
  pose proof (slot_unique _ _ _ _ T2 S2) as ->. pose proof (slot_unique _ _ _ _ T3 S3) as ->.
  pose proof (slot_unique _ _ _ _ T6 S6) as ->.
  destruct X as (_ & _ & _ & _ & _ & _ & _ & _ & M1 & _ & _ & _ & B1 & B2 & B3 & B4 & _ & _ & R1 & R2 & R3 & R4 & R5 & _ & Lm & _).
  rewrite paid_same, paid_other in Lm by exact Nk. cbn [a_lamports] in Lm.
  assert (AP : all_pass E (paid l un 5000) l').
  { intros a _. destruct (key_eq_dec a un) as [->|D].
    - apply (unstake_signer_passes _ _ _ _ _ _ _ _ _ _ Hord Pl Ho He S0 Run). right. left.
      rewrite paid_data, Lm. destruct Cp as (_ & -> & _). exact Rn.
    - eapply unstake_others_pass; eassumption. }
  destruct (one_lands C E l0 l before signature verify reserved tables hash un b0 _ l' evs
    Sg Hs0 MA F Cp Run AP) as (d & Wd & L).
  exists d. split; [exact Wd|]. rewrite L. cbn [fst]. rewrite R4.
  split; [exact R1|]. split; [exact R2|]. split; [exact R3|].
  clear - M1 B1 B2 B3 B4 R5 Lm. unfold free_orca, balance, supply, escrow, cooldown in *. rewrite !paid_data in *. auto 10.
Qed.

(** ** The authority's calls *)
Lemma nth_error_nth_same {A} (a b : list A) n (x : A) : nth_error a n = nth_error b n -> nth n a x = nth n b x.
Proof.
  intros Q. destruct (nth_error a n) as [y|] eqn:H; symmetry in Q.
  - now rewrite (nth_error_nth _ _ x H), (nth_error_nth _ _ x Q).
  - apply nth_error_None in H, Q. now rewrite !nth_overflow by assumption.
Qed.
Lemma land_set C E l0 l before signature verify reserved tables hash sk au b u :
  ordinary_state_address C -> signs_well signature verify [au] -> on_curve C au = true -> reaches C l -> is_state l sk ->
  authority l sk = au -> script_set_cooldown C au (match u with UpdateCoolDownPeriod c => JInt c | _ => JInt 0 end) = Some b \/
    script_set_authority C au (match u with UpdateUpdateAuthority k => k | _ => au end) = Some b ->
  script_sends C E l0 (Some au) [au] [send E b] -> sends C b (Set_ u) ->
  match u with UpdateCoolDownPeriod c => 0 <= c | UpdateUpdateAuthority _ => True end ->
  may_arrive reserved [b] -> can_pay E l au 5000 ->
  exists d, wire before signature hash (Some au) [au] [b] = Some d /\
    let l' := fst (land C E verify reserved tables l d) in
    is_state l' sk /\
    match u with
    | UpdateCoolDownPeriod c => cooldown l' sk = c /\ authority l' sk = au
    | UpdateUpdateAuthority k => authority l' sk = k /\ cooldown l' sk = cooldown l sk
    end /\
    escrow l' sk = escrow l sk /\ a_lamports (l' au) = a_lamports (l au) - 5000.
Proof.
  intros Hord Sg V Hr Hs Au Hb Hs0 Hc Hu MA Cp.
  assert (Bb : b = Built script_xorca_id (b_accounts b) (b_data b)).
  { destruct Hb as [H|H]; [unfold script_set_cooldown in H|unfold script_set_authority in H]; repeat build_step H;
      injection H as <-; reflexivity. }
  assert (Pl : reaches C (paid l au 5000)) by (eapply paid_reaches; eauto; lia).
  pose proof (paid_is_state l au 5000 sk Hs) as Ps.
  destruct (script_set_accounts C au _ _ b (b_accounts b) Hb (delivered_refl _)) as (sk' & A1 & F).
  pose proof (state_where _ _ _ Hord Hr Hs) as [W _]. pose proof (client_state_unique _ _ _ A1 W) as ->.
  pose proof (sends_encodes _ _ _ Hc) as He.
  assert (Live : is_ok (process_instruction C E xorca_id (b_accounts b) (paid l au 5000) (b_data b)) = true).
  { eapply (set_available C E _ sk); eauto. unfold authority in *. rewrite paid_data, Au. exact F. }
  destruct (process_instruction C E xorca_id (b_accounts b) (paid l au 5000) (b_data b)) as [[l' evs]|] eqn:Run; [|discriminate].
  assert (AP : all_pass E (paid l au 5000) l') by (intros k _; eapply set_passes; eassumption).
  rewrite Bb in MA.
  destruct (one_lands C E l0 l before signature verify reserved tables hash au b _ l' evs Sg Hs0 MA F Cp Run AP) as (d & Wd & L).
  rewrite <- Bb in Wd. exists d. split; [exact Wd|]. rewrite L. cbn [fst].
  destruct (set_exact _ _ _ _ _ _ _ _ He Run) as (sk1 & T1 & _ & _ & Ow & _ & X).
  pose proof (slot_unique _ _ _ _ T1 (fills_slot _ _ 1 _ _ _ F eq_refl)) as ->.
  destruct (Ow sk) as [O _]. destruct (Ow au) as [_ La]. rewrite paid_same in La. cbn [a_lamports] in La.
  assert (G : forall rs, same_bytes_except rs (a_data (paid l au 5000 sk)) (a_data (l' sk)) -> rs = [cooldown_field] \/ rs = [authority_field] ->
    is_state l' sk /\ escrow l' sk = escrow l sk).
  { intros rs Sm [->| ->]; rewrite paid_data in Sm.
    - split; [split; [rewrite O, paid_owner; apply Hs|]|].
      + destruct Hs as [_ Hs]. rewrite <- Hs. unfold st_disc, get_u8. f_equal.
        pose proof (proj2 Sm 0%nat) as N. apply nth_error_nth_same. apply N. intros off n [K|[]]. injection K as <- <-. lia.
      + unfold escrow, st_escrow, get_u64. f_equal. eapply same_slice_out; [exact Sm|]. intros o m [K|[]]. injection K as <- <-. lia.
    - split; [split; [rewrite O, paid_owner; apply Hs|]|].
      + destruct Hs as [_ Hs]. rewrite <- Hs. unfold st_disc, get_u8. f_equal.
        pose proof (proj2 Sm 0%nat) as N. apply nth_error_nth_same. apply N. intros off n [K|[]]. injection K as <- <-. lia.
      + unfold escrow, st_escrow, get_u64. f_equal. eapply same_slice_out; [exact Sm|]. intros o m [K|[]]. injection K as <- <-. lia. }
  destruct u as [c|k].
  - destruct X as (_ & X1 & X2 & _). destruct (G _ X2 (or_introl eq_refl)) as [G1 G2].
    split; [exact G1|]. split; [split; [exact X1|]|split; [exact G2|exact La]].
    rewrite paid_data in X2. unfold authority, st_authority, get_key in *. rewrite <- Au. f_equal.
    eapply same_slice_out; [exact X2|]. intros o m [K|[]]. injection K as <- <-. lia.
  - destruct X as (X1 & X2 & _). destruct (G _ X2 (or_intror eq_refl)) as [G1 G2].
    split; [exact G1|]. split; [split; [exact X1|]|split; [exact G2|exact La]].
    rewrite paid_data in X2. unfold cooldown, st_cooldown, get_i64. do 2 f_equal.
    eapply same_slice_out; [exact X2|]. intros o m [K|[]]. injection K as <- <-. lia.
Qed.
Theorem land_cooldown C E l before signature verify reserved tables hash sk au b c :
  ordinary_state_address C -> signs_well signature verify [au] -> on_curve C au = true -> reaches C l -> is_state l sk ->
  authority l sk = au -> script_set_cooldown C au (JInt c) = Some b -> may_arrive reserved [b] -> can_pay E l au 5000 ->
  exists d, wire before signature hash (Some au) [au] [b] = Some d /\
    let l' := fst (land C E verify reserved tables l d) in
    is_state l' sk /\ (cooldown l' sk = c /\ authority l' sk = au) /\ escrow l' sk = escrow l sk /\
    a_lamports (l' au) = a_lamports (l au) - 5000.
Proof.
  intros Hord Sg V Hr Hs Au Hb MA Cp.
  apply (land_set C E l l before signature verify reserved tables hash sk au b (UpdateCoolDownPeriod c)); auto.
  - now apply (SendsCooldown C E l au (JInt c)).
  - now apply (ScriptCooldown C au).
  - unfold script_set_cooldown in Hb. repeat build_step Hb. cbn in *.
    match goal with X : Some c = Some _ |- _ => injection X as <- | X : _ = Some _ |- _ => idtac end.
    match goal with X : (_ <? 0) = false |- _ => apply Z.ltb_ge in X; assumption end.
Qed.
Theorem land_authority C E l before signature verify reserved tables hash sk au b k :
  ordinary_state_address C -> signs_well signature verify [au] -> on_curve C au = true -> reaches C l -> is_state l sk ->
  authority l sk = au -> script_set_authority C au k = Some b -> may_arrive reserved [b] -> can_pay E l au 5000 ->
  exists d, wire before signature hash (Some au) [au] [b] = Some d /\
    let l' := fst (land C E verify reserved tables l d) in
    is_state l' sk /\ (authority l' sk = k /\ cooldown l' sk = cooldown l sk) /\ escrow l' sk = escrow l sk /\
    a_lamports (l' au) = a_lamports (l au) - 5000.
Proof.
  intros Hord Sg V Hr Hs Au Hb MA Cp.
  apply (land_set C E l l before signature verify reserved tables hash sk au b (UpdateUpdateAuthority k)); auto.
  - now apply (SendsAuthority C E l au k).
  - now apply (ScriptAuthority C au).
Qed.
