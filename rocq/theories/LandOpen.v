(** Proofs for C80: a withdrawal opens the owner's ORCA account. *)
From Verif Require Import ConserveFacts UnstakeFacts BytesFacts LedgerFacts TokenFacts InitFacts BlockFacts EncodeFacts Pool PoolHistory LifeFacts AddressFacts
  EffectFacts RentCheckFacts HistoryFacts ScriptRun SlotFacts RoleFacts ToolSpec VaultStep FreezeStep.
From Verif Require Export LandFirst.
Import List ListNotations.
Open Scope list_scope.
Open Scope Z_scope.

Theorem land_first_withdraw C E l0 l before signature verify reserved tables hash sk vk un j ops b1 b2 k uo :
  ordinary_state_address C -> ata_apart C -> signs_well signature verify [un] -> reaches C l -> is_state l sk -> client_vault C sk vk ->
  sysvars_ok E -> withdraw_script C E l0 un j = Some ops -> instructions_of ops = Some [b1; b2] -> may_arrive reserved [b1; b2] ->
  is_record l k -> rec_owner l k = un -> rec_index l k = js_trunc j -> rec_time l k <= now E ->
  is_ata C un orca_mint_id uo -> wallet l uo -> a_lamports (l uo) = 0 -> ta_state (a_data (l vk)) = 1 ->
  can_pay E l un 5000 -> rent_min E 165 <= a_lamports (l un) - 5000 ->
  rent_min E 0 <= a_lamports (l un) - 5000 - rent_min E 165 + a_lamports (l k) ->
  a_lamports (l un) + a_lamports (l k) <= u64_max ->
  exists d, wire before signature hash (Some un) [un] [b1; b2] = Some d /\
    let l' := fst (land C E verify reserved tables l d) in
    ~ is_record l' k /\ reads_as_account l' uo orca_mint_id un /\ balance l' uo = rec_amount l k /\
    balance l' vk = balance l vk - rec_amount l k /\ escrow l' sk = escrow l sk - rec_amount l k /\
    a_lamports (l' un) = a_lamports (l un) - 5000 - rent_min E 165 + a_lamports (l k).
Proof.
  intros Hord AP Sg Hr Hs Hv SV Hscript I MA Hk Hu Hi Ht Ao Wo Lo Hvs Cp Rp Rn Lu.
  assert (Hs0 : script_sends C E l0 (Some un) [un] ops) by (eapply SendsWithdraw; eassumption).
  unfold withdraw_script in Hscript. repeat build_step Hscript.
  injection Hscript as <-. match goal with X : script_withdraw _ _ _ = Some ?b |- _ => rename b into b0; rename X into Hb end.
  match goal with X : script_ata C script_orca_mint un = Some ?a |- _ =>
    destruct (script_ata_some _ _ _ _ X) as [V A1]; pose proof (is_ata_unique _ _ _ _ _ A1 Ao); subst a end.
  assert (Q : create_if_missing E l0 un uo un script_orca_mint ++ [send E b0] =
    [OpAta E [un] un uo un orca_mint_id; send E b0] /\ b2 = Built script_xorca_id (b_accounts b0) (b_data b0)).
  { unfold create_if_missing in *. rewrite (proj1 script_mints) in *. destruct (rpc_get l0 uo); [discriminate I|].
    cbn in I. injection I as _ <-. auto. }
  destruct Q as [Q ->]. rewrite Q in *. clear Q.
  destruct (script_signs _ _ _ _ _ _ Hs0 I) as [Ls On1].
  assert (Hh : honest_metas C (b_accounts b0)).
  { intros m Im Sm. rewrite (On1 (Built script_xorca_id (b_accounts b0) (b_data b0)) m (or_intror (or_introl eq_refl)) Im Sm). now apply curve_not_program. }
  set (l1 := paid l un 5000) in *.
  assert (Pl : reaches C l1) by (eapply paid_reaches; eauto; lia).
  pose proof (paid_is_state l un 5000 sk Hs) as Ps. fold l1 in Ps.
  assert (Nun : un <> uo) by (intros ->; apply is_ata_off_curve in Ao; congruence).
  assert (Wun : wallet l1 un) by (destruct Cp as (X & Y & _); split; unfold l1; [now rewrite paid_owner|now rewrite paid_data]).
  assert (L1un : a_lamports (l1 un) = a_lamports (l un) - 5000) by (unfold l1; now rewrite paid_same).
  assert (L1uo : l1 uo = l uo) by (unfold l1; now rewrite paid_other).
  assert (Lk0 : 0 <= a_lamports (l k)) by (eapply reaches_lam; eassumption).
  destruct (open_fresh C E l1 un uo orca_mint_id orca_not_native (state_orca_live _ _ _ Hord Pl Ps) Ao V AP Pl SV)
    as (l2 & Q2 & R2 & Act & B0 & D165 & Luo & Lun & Same); auto.
  { unfold wallet. rewrite L1uo. exact Wo. }
  { now rewrite L1uo. }
  { rewrite L1un. lia. }
  assert (Tk : token_id <> system_id) by apply token_ne_system.
  assert (N : forall a, a_owner (l a) <> system_id -> l2 a = l a).
  { intros a Na. assert (a <> uo) by (intros ->; destruct Wo as [X _]; congruence).
    assert (a <> un) by (intros ->; destruct Cp as (X & _); congruence).
    rewrite Same by assumption. unfold l1. now rewrite paid_other by congruence. }
  assert (Nsk : l2 sk = l sk) by (apply N; destruct Hs as [-> _]; apply xorca_ne_system).
  assert (Nk : l2 k = l k) by (apply N; destruct Hk as [-> _]; apply xorca_ne_system).
  destruct (reaches_pool_vault _ _ _ vk Hord Hr Hs) as (P & HP); [now apply client_vault_is|].
  assert (Nvk : l2 vk = l vk) by (apply N; rewrite (vo_owner _ _ _ _ (po_vault _ _ _ _ _ HP)); exact Tk).
  assert (Ho : op_ok C l2 (OpCall E (b_accounts b0) (b_data b0))) by (split; assumption).
  assert (Is2 : is_state l2 sk) by (unfold is_state; now rewrite Nsk).
  assert (Ik2 : is_record l2 k) by (unfold is_record; now rewrite Nk).
  destruct (script_withdraw_accounts _ _ _ _ _ Hb (delivered_refl _)) as (sk' & vk' & k' & uo' & C1 & C2 & C3 & C4 & F).
  pose proof (state_where _ _ _ Hord Hr Hs) as [W _]. pose proof (client_state_unique _ _ _ C1 W) as ->.
  pose proof (client_vault_unique _ _ _ _ C2 Hv) as ->. pose proof (is_ata_unique _ _ _ _ _ C4 Ao) as ->.
  pose proof (record_where _ _ _ _ Hord Hr Hs Hk) as R. rewrite Hu, Hi in R. pose proof (client_record_unique _ _ _ _ _ C3 R) as ->.
  assert (Nuk : un <> k).
  { intros <-. destruct Cp as (X & _). destruct Hk as [Y _]. rewrite X in Y. now apply xorca_ne_system. }
  assert (Lun2 : a_lamports (l2 un) = a_lamports (l un) - 5000 - rent_min E 165) by (rewrite Lun; cbn [a_lamports]; now rewrite L1un).
  pose proof (proj2 SV 165 ltac:(lia)) as [RA RB].
  assert (Bam : rec_amount l k <= u64_max).
  { unfold rec_amount, pw_amount. pose proof (get_u64_range 40 (a_data (l k))). unfold is_u64, u64_max in *. lia. }
  assert (Live : is_ok (process_instruction C E xorca_id (b_accounts b0) l2 (b_data b0)) = true).
  { assert (Hc : sends C b0 (Withdraw (js_trunc j))) by now apply (ScriptWithdraw C un).
    destruct (sends_bytes _ _ _ Hc) as (<- & _).
    apply (script_withdraw_live C E l2 sk vk b0 (b_accounts b0) un k uo j); auto using delivered_refl;
      unfold rec_owner, rec_index, rec_time, rec_amount in *; rewrite ?Nk, ?Nvk, ?B0, ?Lun2; auto; lia. }
  destruct (process_instruction C E xorca_id (b_accounts b0) l2 (b_data b0)) as [[l' evs]|] eqn:Run; [|discriminate].
  assert (He : encodes (b_data b0) (Withdraw (js_trunc j))) by (eapply sends_encodes; now apply (ScriptWithdraw C un)).
  pose proof (fills_slot _ _ 0 _ _ _ F eq_refl) as S0. pose proof (fills_slot _ _ 1 _ _ _ F eq_refl) as S1.
  pose proof (fills_slot _ _ 2 _ _ _ F eq_refl) as S2. pose proof (fills_slot _ _ 3 _ _ _ F eq_refl) as S3.
  pose proof (fills_slot _ _ 4 _ _ _ F eq_refl) as S4.
  destruct (call_performs _ _ _ _ _ _ _ _ He Run) as [Hp Rn'].
  destruct (withdraw_passes _ _ _ _ _ _ _ _ _ Hord R2 Is2 Ho Hp S0 S2) as (E' & data' & Q & P1 & _). injection Q as <- <-.
  cbv zeta in P1. rewrite Rn' in P1. cbn [fst] in P1.
  destruct (withdraw_exact _ _ _ _ _ _ _ _ Hh He Run) as (un1 & sk1 & k1 & uo1 & vk1 & T0 & T1 & T2 & T3 & T4 & X).
  apply signed_is_slot in T0.
  pose proof (slot_unique _ _ _ _ T0 S0) as ->. pose proof (slot_unique _ _ _ _ T1 S1) as ->.
  pose proof (slot_unique _ _ _ _ T2 S2) as ->. pose proof (slot_unique _ _ _ _ T3 S3) as ->.
  pose proof (slot_unique _ _ _ _ T4 S4) as ->.
  destruct X as (_ & _ & _ & _ & _ & _ & _ & B1 & B2 & B3 & _ & O & _ & _ & Yu & _ & Ow & Oth & Lm & _).
  assert (Ov : ordinary l2 vk) by (unfold ordinary; rewrite Nvk; apply (po_vault _ _ _ _ _ HP)).
  destruct (Lm Ov) as [Ln Lother]. specialize (Ln Nuk). rewrite Lun2, Nk in Ln.
  assert (Nuok : uo <> k).
  { intros ->. destruct Wo as [X _]. destruct Hk as [Y _]. rewrite X in Y. now apply xorca_ne_system. }
  assert (Duo : length (a_data (l' uo)) = 165%nat) by (rewrite <- D165; apply Yu).
  assert (Dun : a_data (l' un) = []).
  { rewrite Oth; [rewrite Lun; apply Wun|]. intros [J|[J|[J|[J|[]]]]]; try congruence.
    - subst vk. destruct Cp as (X & _). rewrite (vo_owner _ _ _ _ (po_vault _ _ _ _ _ HP)) in X. contradiction.
    - subst sk. destruct Cp as (X & _). destruct Hs as [Y _]. rewrite X in Y. now apply xorca_ne_system. }
  assert (AllP : all_pass E l1 l').
  { intros a _. destruct (key_eq_dec a uo) as [->|D1].
    { apply exempt_passes. unfold zlen. rewrite Duo, Lother, Luo by congruence. change (Z.of_nat 165) with 165. lia. }
    destruct (key_eq_dec a un) as [->|D2].
    { apply exempt_passes. rewrite Dun, Ln. exact Rn. }
    specialize (P1 a D2). unfold passes_rent in *. now rewrite (Same a D1 D2) in P1. }
  destruct (land_script C E l0 l before signature verify reserved tables hash (Some un) [un]
    [OpAta E [un] un uo un orca_mint_id; send E b0] [b1; Built script_xorca_id (b_accounts b0) (b_data b0)] un [un] (l', evs))
    as (d & Wd & A & _); auto.
  - now left.
  - eapply first_not_called; [exact MA|right; now left|exact F].
  - intros E1' sgs payer ata w mint [Q|[Q|[]]]; [|discriminate Q]. injection Q as _ _ _ <- _ _.
    change (5000 * Z.of_nat (length [un])) with 5000. fold l1. rewrite L1uo. apply Wo.
  - change (5000 * Z.of_nat (length [un])) with 5000. fold l1. cbn [attempt_all attempt send]. rewrite Q2. cbn [bind fst snd].
    rewrite Run. cbn. now rewrite app_nil_r.
  - exists d. split; [exact Wd|]. rewrite A by exact AllP. cbn [fst].
    split; [intros [Y _]; rewrite O in Y; now apply xorca_ne_system|].
    assert (Tx : reads_as_account l' uo orca_mint_id un).
    { destruct Act as [(X1 & _ & X3 & X4) _].
      split; [now rewrite Ow|]. split; [rewrite Duo; lia|].
      unfold ta_mint, ta_owner, get_key in *. rewrite <- X3, <- X4.
      split; f_equal; eapply same_slice_out; try exact Yu; intros o n [K|[]]; injection K as <- <-; lia. }
    rewrite B0 in B2. clear - B1 B2 B3 Ln Tx Nsk Nvk Nk. unfold balance, escrow, rec_amount in *.
    rewrite ?Nsk, ?Nvk, ?Nk in *. cbn [Z.add] in *. auto 10.
Qed.

Theorem land_first_unstake C E l0 l before signature verify reserved tables hash sk vk un x j ops b1 b2 k ux uo :
  ordinary_state_address C -> ata_apart C -> signs_well signature verify [un] -> reaches C l -> is_state l sk -> client_vault C sk vk ->
  sysvars_ok E -> unstake_script C E l0 un x j = Some ops -> instructions_of ops = Some [b1; b2] -> may_arrive reserved [b1; b2] ->
  client_record C un (js_trunc j) k -> ~ is_record l k ->
  is_ata C un xorca_mint_id ux -> active_account l ux xorca_mint_id un -> no_self_delegate l ux un -> 0 < x <= balance l ux ->
  is_ata C un orca_mint_id uo -> uo <> k -> wallet l uo -> a_lamports (l uo) = 0 ->
  is_i64 (now E + cooldown l sk) -> balance l vk < 2 ^ 63 ->
  can_pay E l un 5000 -> a_lamports (l un) <= u64_max ->
  rent_min E 0 <= a_lamports (l un) - 5000 - rent_min E 165 - Z.max 0 (rent_min E 1024 - a_lamports (l k)) ->
  collision C (eq un) \/
  exists d, wire before signature hash (Some un) [un] [b1; b2] = Some d /\
    let l' := fst (land C E verify reserved tables l d) in
    is_record l' k /\ rec_owner l' k = un /\ rec_index l' k = js_trunc j /\
    rec_amount l' k = x * (free_orca l sk vk + 100) / (supply l + 100) /\
    rec_time l' k = now E + cooldown l sk /\
    reads_as_account l' uo orca_mint_id un /\ balance l' uo = 0 /\
    balance l' ux = balance l ux - x /\ supply l' = supply l - x /\
    escrow l' sk = escrow l sk + rec_amount l' k /\ balance l' vk = balance l vk /\
    a_lamports (l' un) = a_lamports (l un) - 5000 - rent_min E 165 - Z.max 0 (rent_min E 1024 - a_lamports (l k)).
Proof.
  intros Hord AP Sg Hr Hs Hv SV Hscript I MA Hk Hn Ax Hax Hsd Hx Ao Nok Wo Lo Hclock Hlt Cp Lu Rn.
  assert (Hs0 : script_sends C E l0 (Some un) [un] ops) by (eapply SendsUnstake; eassumption).
  unfold unstake_script in Hscript. repeat build_step Hscript.
  injection Hscript as <-. match goal with X : script_unstake _ _ _ _ = Some ?b |- _ => rename b into b0; rename X into Hb end.
  match goal with X : script_ata C script_orca_mint un = Some ?a |- _ =>
    destruct (script_ata_some _ _ _ _ X) as [V A1]; pose proof (is_ata_unique _ _ _ _ _ A1 Ao); subst a end.
  assert (Q : create_if_missing E l0 un uo un script_orca_mint ++ [send E b0] =
    [OpAta E [un] un uo un orca_mint_id; send E b0] /\ b2 = Built script_xorca_id (b_accounts b0) (b_data b0)).
  { unfold create_if_missing in *. rewrite (proj1 script_mints) in *. destruct (rpc_get l0 uo); [discriminate I|].
    cbn in I. injection I as _ <-. auto. }
  destruct Q as [Q ->]. rewrite Q in *. clear Q.
  destruct (script_signs _ _ _ _ _ _ Hs0 I) as [Ls On1].
  assert (Hh : honest_metas C (b_accounts b0)).
  { intros m Im Sm. rewrite (On1 (Built script_xorca_id (b_accounts b0) (b_data b0)) m (or_intror (or_introl eq_refl)) Im Sm). now apply curve_not_program. }
  set (l1 := paid l un 5000) in *.
  assert (Pl : reaches C l1) by (eapply paid_reaches; eauto; lia).
  pose proof (paid_is_state l un 5000 sk Hs) as Ps. fold l1 in Ps.
  assert (Nun : un <> uo) by (intros ->; apply is_ata_off_curve in Ao; congruence).
  assert (Wun : wallet l1 un) by (destruct Cp as (X & Y & _); split; unfold l1; [now rewrite paid_owner|now rewrite paid_data]).
  assert (L1un : a_lamports (l1 un) = a_lamports (l un) - 5000) by (unfold l1; now rewrite paid_same).
  assert (L1uo : l1 uo = l uo) by (unfold l1; now rewrite paid_other).
  pose proof (proj2 SV 165 ltac:(lia)) as [RA RB]. pose proof (proj2 SV 0 ltac:(lia)) as [RC RD].
  destruct (open_fresh C E l1 un uo orca_mint_id orca_not_native (state_orca_live _ _ _ Hord Pl Ps) Ao V AP Pl SV)
    as (l2 & Q2 & R2 & Act & B0 & D165 & Luo & Lun & Same); auto.
  { unfold wallet. rewrite L1uo. exact Wo. }
  { now rewrite L1uo. }
  { rewrite L1un. lia. }
  assert (Tk : token_id <> system_id) by apply token_ne_system.
  assert (N : forall a, a_owner (l a) <> system_id -> l2 a = l a).
  { intros a Na. assert (a <> uo) by (intros ->; destruct Wo as [X _]; congruence).
    assert (a <> un) by (intros ->; destruct Cp as (X & _); congruence).
    rewrite Same by assumption. unfold l1. now rewrite paid_other by congruence. }
  assert (Nsk : l2 sk = l sk) by (apply N; destruct Hs as [-> _]; apply xorca_ne_system).
  assert (Nuk : un <> k).
  { intros <-. apply client_record_is in Hk. destruct Hk as (kb & Hk). apply program_address_off_curve in Hk. congruence. }
  assert (Nk : l2 k = l k).
  { rewrite Same by congruence. unfold l1. now rewrite paid_other by congruence. }
  destruct (reaches_pool_vault _ _ _ vk Hord Hr Hs) as (P & HP); [now apply client_vault_is|].
  assert (Nvk : l2 vk = l vk) by (apply N; rewrite (vo_owner _ _ _ _ (po_vault _ _ _ _ _ HP)); exact Tk).
  assert (Nm : l2 xorca_mint_id = l xorca_mint_id).
  { apply N. destruct (state_mint_live _ _ _ Hord Hr Hs) as (O & _). rewrite O. exact Tk. }
  assert (Nux : l2 ux = l ux) by (apply N; destruct Hax as [(O & _) _]; rewrite O; exact Tk).
  assert (Ho : op_ok C l2 (OpCall E (b_accounts b0) (b_data b0))) by (split; assumption).
  destruct (script_unstake_accounts _ _ _ _ _ _ Hb (delivered_refl _)) as (sk' & vk' & k' & ux' & C1 & C2 & C3 & C4 & F).
  pose proof (state_where _ _ _ Hord Hr Hs) as [W _]. pose proof (client_state_unique _ _ _ C1 W) as ->.
  pose proof (client_vault_unique _ _ _ _ C2 Hv) as ->. pose proof (is_ata_unique _ _ _ _ _ C4 Ax) as ->.
  pose proof (client_record_unique _ _ _ _ _ C3 Hk) as ->.
  assert (Lun2 : a_lamports (l2 un) = a_lamports (l un) - 5000 - rent_min E 165) by (rewrite Lun; cbn [a_lamports]; now rewrite L1un).
  assert (Live : is_ok (process_instruction C E xorca_id (b_accounts b0) l2 (b_data b0)) = true \/ collision C (eq un)).
  { assert (Hc : sends C b0 (Unstake x (js_trunc j))) by now apply (ScriptUnstake C un).
    destruct (sends_bytes _ _ _ Hc) as (<- & _).
    apply (script_unstake_live C E l2 sk vk b0 (b_accounts b0) un ux x j k); auto using delivered_refl.
    - unfold is_state. now rewrite Nsk.
    - unfold is_record. now rewrite Nk.
    - unfold active_account, token_account_of. now rewrite Nux.
    - unfold no_self_delegate. now rewrite Nux.
    - unfold balance. now rewrite Nux.
    - unfold wallet. rewrite Lun. exact Wun.
    - rewrite Nk, Lun2. lia.
    - unfold cooldown. now rewrite Nsk.
    - unfold balance. now rewrite Nvk. }
  destruct Live as [Live|Cl]; [right|now left].
  destruct (process_instruction C E xorca_id (b_accounts b0) l2 (b_data b0)) as [[l' evs]|] eqn:Run; [|discriminate].
  assert (He : encodes (b_data b0) (Unstake x (js_trunc j))) by (eapply sends_encodes; now apply (ScriptUnstake C un)).
  pose proof (fills_slot _ _ 0 _ _ _ F eq_refl) as S0. pose proof (fills_slot _ _ 1 _ _ _ F eq_refl) as S1.
  pose proof (fills_slot _ _ 2 _ _ _ F eq_refl) as S2. pose proof (fills_slot _ _ 3 _ _ _ F eq_refl) as S3.
  pose proof (fills_slot _ _ 6 _ _ _ F eq_refl) as S6.
  destruct (unstake_exact _ _ _ _ _ _ _ _ _ SV Hh He Run) as (un1 & sk1 & k1 & ux1 & vk1 & w & T0 & T1 & T2 & T3 & T6 & X).
  apply signed_is_slot in T0.
  pose proof (slot_unique _ _ _ _ T0 S0) as ->. pose proof (slot_unique _ _ _ _ T1 S1) as ->.
  pose proof (slot_unique _ _ _ _ T2 S2) as ->. pose proof (slot_unique _ _ _ _ T3 S3) as ->.
  pose proof (slot_unique _ _ _ _ T6 S6) as ->.
  destruct X as (_ & _ & _ & _ & _ & _ & _ & _ & M1 & _ & _ & _ & Y1 & Y2 & Y3 & Y4 & _ & _ & Z1 & Z2 & Z3 & Z4 & Z5 & _ & Lm & _ & _ & _ & Ow & Oth & Lam & _).
  rewrite Lun2, Nk in Lm.
  assert (Sy : forall a, a_owner (l a) <> system_id -> uo <> a /\ un <> a).
  { intros a Na. split; intros <-; [destruct Wo as [X _]|destruct Cp as (X & _)]; congruence. }
  assert (Osk : a_owner (l sk) <> system_id) by (destruct Hs as [-> _]; apply xorca_ne_system).
  assert (Oux : a_owner (l ux) <> system_id) by (destruct Hax as [(O & _) _]; now rewrite O).
  assert (Om : a_owner (l xorca_mint_id) <> system_id) by (destruct (state_mint_live _ _ _ Hord Hr Hs) as (O & _); now rewrite O).
  assert (Duo : a_data (l' uo) = a_data (l2 uo)).
  { apply Oth. intros [J|[J|[J|[J|[]]]]]; try congruence; symmetry in J; revert J; now apply Sy. }
  assert (Dun : a_data (l' un) = []).
  { rewrite Oth; [rewrite Lun; apply Wun|]. intros [J|[J|[J|[J|[]]]]]; try congruence; symmetry in J; revert J; now apply Sy. }
  assert (AllP : all_pass E l1 l').
  { intros a _. destruct (key_eq_dec a uo) as [->|D1].
    { apply exempt_passes. unfold zlen. rewrite Duo, D165, Lam, Luo by congruence. change (Z.of_nat 165) with 165. lia. }
    destruct (key_eq_dec a un) as [->|D2].
    { apply exempt_passes. rewrite Dun, Lm. exact Rn. }
    pose proof (unstake_others_pass _ _ _ _ _ _ _ _ _ _ SV Hh He S0 Run a D2) as P1.
    unfold passes_rent in *. now rewrite (Same a D1 D2) in P1. }
  destruct (land_script C E l0 l before signature verify reserved tables hash (Some un) [un]
    [OpAta E [un] un uo un orca_mint_id; send E b0] [b1; Built script_xorca_id (b_accounts b0) (b_data b0)] un [un] (l', evs))
    as (d & Wd & A & _); auto.
  - now left.
  - eapply first_not_called; [exact MA|right; now left|exact F].
  - intros E1' sgs payer ata w' mint [Q|[Q|[]]]; [|discriminate Q]. injection Q as _ _ _ <- _ _.
    change (5000 * Z.of_nat (length [un])) with 5000. fold l1. rewrite L1uo. apply Wo.
  - change (5000 * Z.of_nat (length [un])) with 5000. fold l1. cbn [attempt_all attempt send]. rewrite Q2. cbn [bind fst snd].
    rewrite Run. cbn. now rewrite app_nil_r.
  - exists d. split; [exact Wd|]. rewrite A by exact AllP. cbn [fst].
    assert (Tx : reads_as_account l' uo orca_mint_id un).
    { destruct Act as [(X1 & _ & X3 & X4) _]. split; [rewrite Ow; congruence|]. rewrite Duo. split; [rewrite D165; lia|auto]. }
    assert (Bx : balance l' uo = 0) by (unfold balance in *; now rewrite Duo).
    rewrite Z4. split; [exact Z1|]. split; [exact Z2|]. split; [exact Z3|].
    clear - M1 Y1 Y2 Y3 Y4 Z5 Lm Tx Bx Nsk Nvk Nm Nux. unfold free_orca, balance, supply, escrow, cooldown in *.
    rewrite ?Nsk, ?Nvk, ?Nm, ?Nux in *. auto 15.
Qed.
