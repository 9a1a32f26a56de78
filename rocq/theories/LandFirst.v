(** Proofs for C80: the first stake opens the staker's xORCA account. *)
From Verif Require Import ConserveFacts UnstakeFacts BytesFacts LedgerFacts TokenFacts InitFacts BlockFacts EncodeFacts Pool PoolHistory LifeFacts AddressFacts
  EffectFacts RentCheckFacts HistoryFacts ScriptRun SlotFacts RoleFacts ToolSpec VaultStep FreezeStep.
From Verif Require Export LandLive.
Import List ListNotations.
Open Scope list_scope.
Open Scope Z_scope.

Lemma open_fresh C E l u k mint :
  mint <> native_mint_id -> mint_live l mint -> is_ata C u mint k -> on_curve C u = true -> ata_apart C -> reaches C l ->
  sysvars_ok E -> wallet l k -> a_lamports (l k) = 0 -> wallet l u -> rent_min E 165 <= a_lamports (l u) <= u64_max ->
  exists l1, ata_create_idempotent C E (signs [u]) l u k u mint = Ok l1 /\ reaches C l1 /\
    active_account l1 k mint u /\ balance l1 k = 0 /\ length (a_data (l1 k)) = 165%nat /\
    a_lamports (l1 k) = rent_min E 165 /\
    l1 u = Account (a_lamports (l u) - rent_min E 165) (a_owner (l u)) (a_data (l u)) /\
    forall k', k' <> k -> k' <> u -> l1 k' = l k'.
Proof.
  intros Hn Hm Ha V AP Hr SV W Z0 Wu L.
  assert (Nuk : u <> k) by (intros ->; apply is_ata_off_curve in Ha; congruence).
  pose proof (proj2 SV 165 ltac:(lia)) as [R1 R2].
  assert (Nmk : mint <> k) by (eapply mint_not_wallet; eassumption).
  assert (Nmu : mint <> u) by (eapply mint_not_wallet; eassumption).
  assert (Q : exists l1, ata_create_idempotent C E (signs [u]) l u k u mint = Ok l1).
  { destruct Ha as (b & Hf). destruct (ata_live C E (signs [u]) l u k u mint b) as (l1 & Q & _); auto; [..|eauto].
    - unfold signs. cbn. now rewrite key_eqb_refl.
    - lia.
    - unfold ta_len. lia.
    - rewrite Z0. lia. }
  destruct Q as (l1 & Q). exists l1. split; [exact Q|]. split.
  { assert (Hop : op_ok C l (OpAta E [u] u k u mint)).
    { split; [exact SV|]. intros x [<-|[<-|[]]]; [now apply (AP u mint)|now apply curve_not_program]. }
    pose proof (reaches_step _ _ _ Hr Hop) as R. cbn [run_op] in R. rewrite Q in R. exact R. }
  destruct W as [W1 W2]. apply ata_create_fresh in Q; auto. destruct Q as (_ & _ & _ & _ & _ & Hq). unfold ata_created in Hq.
  destruct (init_ta_fields mint u (zeros ta_len) eq_refl) as (F1 & F2 & F3 & F4 & F5 & F6 & F7 & F8 & F9).
  assert (Nd : ata_need E l k = rent_min E 165).
  { unfold ata_need. rewrite Z0. cbn [Z.ltb Z.compare]. unfold ta_len. lia. }
  assert (Lk : l1 k = Account (rent_min E 165) token_id (init_ta mint u (zeros ta_len))).
  { rewrite (Hq k), upd_same, Nd, Z0. reflexivity. }
  split.
  { split; [split; [now rewrite Lk|]|now rewrite Lk]. rewrite Lk. cbn [a_data]. split; [|auto]. apply ta_unpack_ok. split; [exact F9|]. now rewrite F6. }
  split; [unfold balance; now rewrite Lk|].
  split; [rewrite Lk; cbn [a_data]; now apply ta_wf_len|]. split; [now rewrite Lk|].
  split.
  { rewrite (Hq u), upd_other by congruence. rewrite set_lamports_same, Nd. reflexivity. }
  intros k' K1 K2. rewrite (Hq k'), upd_other by congruence. now rewrite set_lamports_other by congruence.
Qed.

Theorem land_first_stake C E l0 l before signature verify reserved tables hash sk vk st a ops b1 b2 so sx :
  ordinary_state_address C -> ata_apart C -> signs_well signature verify [st] -> reaches C l -> is_state l sk -> client_vault C sk vk ->
  sysvars_ok E -> stake_script C E l0 st a = Some ops -> instructions_of ops = Some [b1; b2] -> may_arrive reserved [b1; b2] ->
  is_ata C st orca_mint_id so -> active_account l so orca_mint_id st -> ordinary l so -> no_self_delegate l so st ->
  0 < a <= balance l so ->
  is_ata C st xorca_mint_id sx -> wallet l sx -> a_lamports (l sx) = 0 -> ta_state (a_data (l vk)) = 1 ->
  (supply l <> 0 -> free_orca l sk vk + 100 <= a * (supply l + 100)) -> balance l vk + a < 2 ^ 63 ->
  can_pay E l st 5000 -> rent_min E 0 <= a_lamports (l st) - 5000 - rent_min E 165 -> a_lamports (l st) <= u64_max ->
  exists d, wire before signature hash (Some st) [st] [b1; b2] = Some d /\
    let l' := fst (land C E verify reserved tables l d) in
    exists m,
      (supply l = 0 \/ free_orca l sk vk = 0 -> m = a) /\
      (supply l <> 0 -> free_orca l sk vk <> 0 -> m = a * (supply l + 100) / (free_orca l sk vk + 100)) /\
      0 < m /\ balance l' so = balance l so - a /\ balance l' vk = balance l vk + a /\
      reads_as_account l' sx xorca_mint_id st /\ balance l' sx = m /\ supply l' = supply l + m /\
      a_lamports (l' st) = a_lamports (l st) - 5000 - rent_min E 165.
Proof.
  intros Hord AP Sg Hr Hs Hv SV Hscript I MA Ao Hao Hon Hsd Ha Ax Wx Lx Hvs Hq Hlt Cp Rn Lu.
  assert (Hs0 : script_sends C E l0 (Some st) [st] ops) by (eapply SendsStake; eassumption).
  unfold stake_script in Hscript. repeat build_step Hscript.
  injection Hscript as <-. match goal with X : script_stake _ _ _ = Some ?b |- _ => rename b into b0; rename X into Hb end.
  match goal with X : script_ata C script_orca_mint st = Some ?k |- _ => destruct (script_ata_some _ _ _ _ X) as [V A0] end.
  match goal with X : script_ata C script_xorca_mint st = Some ?k |- _ =>
    destruct (script_ata_some _ _ _ _ X) as [_ A1]; pose proof (is_ata_unique _ _ _ _ _ A1 Ax); subst k end.
  assert (Q : create_if_missing E l0 st sx st script_xorca_mint ++ [send E b0] =
    [OpAta E [st] st sx st xorca_mint_id; send E b0] /\ b2 = Built script_xorca_id (b_accounts b0) (b_data b0)).
  { unfold create_if_missing in *. rewrite (proj2 script_mints) in *. destruct (rpc_get l0 sx); [discriminate I|].
    cbn in I. injection I as _ <-. auto. }
  destruct Q as [Q ->]. rewrite Q in *. clear Q.
  destruct (script_signs _ _ _ _ _ _ Hs0 I) as [Ls On1].
  assert (Hh : honest_metas C (b_accounts b0)).
  { intros m Im Sm. rewrite (On1 (Built script_xorca_id (b_accounts b0) (b_data b0)) m (or_intror (or_introl eq_refl)) Im Sm). now apply curve_not_program. }
  set (l1 := paid l st 5000) in *.
  assert (Pl : reaches C l1) by (eapply paid_reaches; eauto; lia).
  pose proof (paid_is_state l st 5000 sk Hs) as Ps. fold l1 in Ps.
  assert (Nst : st <> sx) by (intros ->; apply is_ata_off_curve in Ax; congruence).
  assert (Wst : wallet l1 st) by (destruct Cp as (X & Y & _); split; unfold l1; [now rewrite paid_owner|now rewrite paid_data]).
  assert (L1st : a_lamports (l1 st) = a_lamports (l st) - 5000) by (unfold l1; now rewrite paid_same).
  assert (L1sx : l1 sx = l sx) by (unfold l1; now rewrite paid_other).
  destruct (open_fresh C E l1 st sx xorca_mint_id xorca_not_native (state_mint_live _ _ _ Hord Pl Ps) Ax V AP Pl SV)
    as (l2 & Q2 & R2 & Act & B0 & D165 & Lsx & Lst & Same); auto.
  { unfold wallet. rewrite L1sx. exact Wx. }
  { now rewrite L1sx. }
  { rewrite L1st. pose proof (proj2 (proj2 SV 0 ltac:(lia))). lia. }
  assert (Tk : token_id <> system_id) by apply token_ne_system.
  assert (N : forall k, a_owner (l k) <> system_id -> l2 k = l k).
  { intros k Hk. assert (k <> sx) by (intros ->; destruct Wx as [X _]; congruence).
    assert (k <> st) by (intros ->; destruct Cp as (X & _); congruence).
    rewrite Same by assumption. unfold l1. now rewrite paid_other by congruence. }
  assert (Nsk : l2 sk = l sk) by (apply N; destruct Hs as [-> _]; apply xorca_ne_system).
  destruct (reaches_pool_vault _ _ _ vk Hord Hr Hs) as (P & HP); [now apply client_vault_is|].
  assert (Nvk : l2 vk = l vk) by (apply N; rewrite (vo_owner _ _ _ _ (po_vault _ _ _ _ _ HP)); exact Tk).
  assert (Nm : l2 xorca_mint_id = l xorca_mint_id).
  { apply N. destruct (state_mint_live _ _ _ Hord Hr Hs) as (O & _). rewrite O. exact Tk. }
  assert (Nso : l2 so = l so) by (apply N; destruct Hao as [(O & _) _]; rewrite O; exact Tk).
  assert (Ho : op_ok C l2 (OpCall E (b_accounts b0) (b_data b0))) by (split; assumption).
  destruct (script_stake_accounts _ _ _ _ _ Hb (delivered_refl _)) as (sk' & vk' & so' & sx' & C1 & C2 & C3 & C4 & F).
  pose proof (state_where _ _ _ Hord Hr Hs) as [W _]. pose proof (client_state_unique _ _ _ C1 W) as ->.
  pose proof (client_vault_unique _ _ _ _ C2 Hv) as ->. pose proof (is_ata_unique _ _ _ _ _ C3 Ao) as ->.
  pose proof (is_ata_unique _ _ _ _ _ C4 Ax) as ->.
  assert (Live : is_ok (process_instruction C E xorca_id (b_accounts b0) l2 (b_data b0)) = true).
  { assert (Hc : sends C b0 (Stake a)) by now apply (ScriptStake C st).
    destruct (sends_bytes _ _ _ Hc) as (<- & _).
    apply (script_stake_live C E l2 sk vk b0 (b_accounts b0) st so sx a); auto using delivered_refl.
    - unfold is_state. now rewrite Nsk.
    - rewrite Lst. cbn [a_owner]. destruct Wst as [-> _]. auto.
    - unfold active_account, token_account_of. now rewrite Nso.
    - unfold ordinary. now rewrite Nso.
    - unfold no_self_delegate. now rewrite Nso.
    - unfold balance. rewrite Nso. apply Ha.
    - now rewrite Nvk.
    - lia.
    - unfold supply, free_orca, balance, escrow. now rewrite Nm, Nvk, Nsk.
    - unfold balance. now rewrite Nvk. }
  destruct (process_instruction C E xorca_id (b_accounts b0) l2 (b_data b0)) as [[l' evs]|] eqn:Run; [|discriminate].
  assert (He : encodes (b_data b0) (Stake a)) by (eapply sends_encodes; now apply (ScriptStake C st)).
  pose proof (fills_slot _ _ 0 _ _ _ F eq_refl) as S0. pose proof (fills_slot _ _ 1 _ _ _ F eq_refl) as S1.
  pose proof (fills_slot _ _ 2 _ _ _ F eq_refl) as S2. pose proof (fills_slot _ _ 3 _ _ _ F eq_refl) as S3.
  pose proof (fills_slot _ _ 5 _ _ _ F eq_refl) as S5.
  destruct (stake_exact _ _ _ _ _ _ _ _ Hh He Run) as (st1 & vk1 & so1 & sx1 & sk1 & m & T0 & T1 & T2 & T3 & T5 & X).
  apply signed_is_slot in T0.
  pose proof (slot_unique _ _ _ _ T0 S0) as ->. pose proof (slot_unique _ _ _ _ T1 S1) as ->.
  pose proof (slot_unique _ _ _ _ T2 S2) as ->. pose proof (slot_unique _ _ _ _ T3 S3) as ->.
  pose proof (slot_unique _ _ _ _ T5 S5) as ->.
  destruct X as (_ & _ & _ & _ & M1 & M2 & M3 & ND & B1 & B2 & B3 & B4 & Y1 & Y2 & Y3 & Y4 & Ow & Oth & Lm & _).
  assert (On2 : ordinary l2 so) by (unfold ordinary; now rewrite Nso).
  specialize (Lm On2).
  assert (Len : forall k, length (a_data (l' k)) = length (a_data (l2 k))).
  { intros k. destruct (in_dec key_eq_dec k [so; vk; sx; xorca_mint_id]) as [J|J]; [|f_equal; auto].
    destruct J as [<-|[<-|[<-|[<-|[]]]]]; [apply Y1|apply Y2|apply Y3|apply Y4]. }
  assert (AllP : all_pass E l1 l').
  { intros k _. destruct (key_eq_dec k sx) as [->|D1].
    { apply exempt_passes. unfold zlen. rewrite Len, D165, Lm, Lsx. change (Z.of_nat 165) with 165. lia. }
    destruct (key_eq_dec k st) as [->|D2].
    { apply exempt_passes. unfold zlen. rewrite Len, Lm, Lst. cbn [a_data a_lamports]. destruct Wst as [_ ->].
      cbn [length]. change (Z.of_nat 0) with 0. rewrite L1st. exact Rn. }
    apply unmoved_passes; [rewrite Lm, Same by assumption; reflexivity|rewrite Len, Same by assumption; reflexivity]. }
  destruct (land_script C E l0 l before signature verify reserved tables hash (Some st) [st]
    [OpAta E [st] st sx st xorca_mint_id; send E b0] [b1; Built script_xorca_id (b_accounts b0) (b_data b0)] st [st] (l', evs))
    as (d & Wd & A & _); auto.
  - now left.
  - eapply first_not_called; [exact MA|right; now left|exact F].
  - intros E1' sgs payer ata w mint [Q|[Q|[]]]; [|discriminate Q]. injection Q as _ _ _ <- _ _.
    change (5000 * Z.of_nat (length [st])) with 5000. fold l1. rewrite L1sx. apply Wx.
  - change (5000 * Z.of_nat (length [st])) with 5000. fold l1. cbn [attempt_all attempt send]. rewrite Q2. cbn [bind fst snd].
    rewrite Run. cbn. now rewrite app_nil_r.
  - exists d. split; [exact Wd|]. rewrite A by exact AllP. cbn [fst]. exists m.
    rewrite B0 in B3. assert (Lf : a_lamports (l' st) = a_lamports (l st) - 5000 - rent_min E 165).
    { rewrite Lm, Lst. cbn [a_lamports]. now rewrite L1st. }
    assert (Tx : reads_as_account l' sx xorca_mint_id st).
    { destruct Act as [(X1 & _ & X3 & X4) _].
      split; [now rewrite Ow|]. split; [rewrite Len, D165; lia|].
      unfold ta_mint, ta_owner, get_key in *. rewrite <- X3, <- X4.
      split; f_equal; eapply same_slice_out; try exact Y3; intros o n [K|[]]; injection K as <- <-; lia. }
    clear - M1 M2 M3 B1 B2 B3 B4 Lf Tx Nsk Nvk Nm Nso. unfold free_orca, balance, supply, escrow in *.
    rewrite ?Nsk, ?Nvk, ?Nm, ?Nso in *. tauto.
Qed.
