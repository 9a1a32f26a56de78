(** Proofs for C80: the packet of the initialize script starts the pool. *)
From Verif Require Import ConserveFacts UnstakeFacts BytesFacts LedgerFacts TokenFacts InitFacts BlockFacts EncodeFacts Pool PoolHistory LifeFacts AddressFacts
  EffectFacts RentCheckFacts HistoryFacts ScriptRun SlotFacts RoleFacts ToolSpec VaultStep FreezeStep.
From Verif Require Export LandLive.
Import List ListNotations.
Open Scope list_scope.
Open Scope Z_scope.

Theorem land_initialize C E l before signature verify reserved tables hash sk vk au c ops b n :
  ordinary_state_address C -> deployer_has_key C -> on_curve C au = true -> signs_well signature verify [deployer_address; au] ->
  reaches C l -> (forall k, ~ is_state l k) -> mints_ready l sk ->
  client_state C sk -> client_vault C sk vk -> sk <> vk -> sysvars_ok E ->
  initialize_script C E deployer_address au (JInt c) = Some ops -> instructions_of ops = Some [b] -> may_arrive reserved [b] ->
  0 <= c -> wallet l vk ->
  (au = deployer_address /\ n = 5000 \/ au <> deployer_address /\ n = 10000) ->
  can_pay E l deployer_address n ->
  rent_min E 2048 + rent_min E 165 + rent_min E 0 <= a_lamports (l deployer_address) - n ->
  a_lamports (l sk) + a_lamports (l vk) + a_lamports (l deployer_address) <= u64_max ->
  exists d, wire before signature hash None [deployer_address; au] [b] = Some d /\
    let l' := fst (land C E verify reserved tables l d) in
    is_state l' sk /\ authority l' sk = au /\ cooldown l' sk = c /\ escrow l' sk = 0 /\
    reads_as_account l' vk orca_mint_id sk /\ balance l' vk = 0 /\ ordinary l' vk /\
    a_lamports (l' deployer_address) = a_lamports (l deployer_address) - n
      - Z.max 0 (rent_min E 2048 - a_lamports (l sk)) - Z.max 0 (Z.max 1 (rent_min E 165) - a_lamports (l vk)).
Proof.
  intros Hord Hdep V Sg Hr Hn Hm Hs Hv Nsv SV Hscript I MA Hc Wv Hf Cp Rn Lu.
  assert (Hs0 : script_sends C E l None [deployer_address; au] ops) by (eapply SendsInitialize; eassumption).
  assert (N0 : 0 <= n) by (destruct Hf as [[_ ->]|[_ ->]]; lia).
  unfold initialize_script in Hscript. repeat build_step Hscript. injection Hscript as <-.
  match goal with X : script_initialize _ _ _ _ = Some ?b |- _ => rename b into b0; rename X into Hb end.
  cbn in I. injection I as <-. set (b1 := Built script_xorca_id (b_accounts b0) (b_data b0)) in *.
  assert (Ac : exists rs, b_accounts b0 = Meta deployer_address true true :: Meta au true true :: rs /\
    forall m, In m rs -> m_signer m = false).
  { unfold script_initialize in Hb. repeat build_step Hb. injection Hb as <-. eexists. split; [reflexivity|].
    intros m J. repeat (destruct J as [<-|J]; [reflexivity|]). destruct J. }
  destruct Ac as (rs & Ac & Acs).
  assert (Sgn : forall m, In m (b_accounts b0) -> m_signer m = true -> m_key m = deployer_address \/ m_key m = au).
  { rewrite Ac. intros m [<-|[<-|J]] Sm; cbn; auto. rewrite (Acs m J) in Sm. discriminate. }
  assert (Hh : honest_metas C (b_accounts b0)).
  { intros m Im Sm. destruct (Sgn m Im Sm) as [->| ->]; now apply curve_not_program. }
  set (l1 := paid l deployer_address n) in *.
  assert (Pl : reaches C l1) by (eapply paid_reaches; eauto; lia).
  assert (Ho : op_ok C l1 (OpCall E (b_accounts b0) (b_data b0))) by (split; assumption).
  destruct (script_initialize_accounts _ _ _ _ _ _ Hb (delivered_refl _)) as (_ & sk' & vk' & S1 & S2 & F).
  pose proof (client_state_unique _ _ _ S1 Hs). subst sk'. pose proof (client_vault_unique _ _ _ _ S2 Hv). subst vk'.
  assert (He : encodes (b_data b0) (Initialize c)) by (apply (sends_encodes C); now apply (ScriptInitialize C deployer_address au)).
  assert (Hv' : is_vault C sk vk) by now apply client_vault_is.
  destruct Hs as (sb & Hs & Hs').
  assert (Nds : deployer_address <> sk).
  { intros Q. apply program_address_off_curve in Hs. unfold deployer_has_key in Hdep. congruence. }
  assert (Ndv : deployer_address <> vk).
  { destruct Hv' as (vb & Hv'). intros Q. apply program_address_off_curve in Hv'. unfold deployer_has_key in Hdep. congruence. }
  assert (Ld : a_lamports (l1 deployer_address) = a_lamports (l deployer_address) - n) by (unfold l1; now rewrite paid_same).
  assert (Lsk : l1 sk = l sk) by (unfold l1; now rewrite paid_other).
  assert (Lvk : l1 vk = l vk) by (unfold l1; now rewrite paid_other).
  assert (Dd : forall k, a_data (l1 k) = a_data (l k)) by (intros k; apply paid_data).
  assert (Od : forall k, a_owner (l1 k) = a_owner (l k)) by (intros k; apply paid_owner).
  pose proof (proj2 SV 0 ltac:(lia)) as [RA RB]. pose proof (proj2 SV 165 ltac:(lia)) as [RC RD].
  pose proof (proj2 SV 2048 ltac:(lia)) as [RE RF].
  pose proof (reaches_lam _ _ Hord Hr sk) as L0. pose proof (reaches_lam _ _ Hord Hr vk) as L0'.
  assert (Live : is_ok (process_instruction C E xorca_id (b_accounts b0) l1 (b_data b0)) = true).
  { apply (initialize_live C E l1 (b_accounts b0) (b_data b0) c au sk sb vk); auto.
    - intros k [K1 K2]. rewrite Od in K1. rewrite Dd in K2. now apply (Hn k).
    - unfold wallet in *. now rewrite Od, Dd.
    - destruct Cp as (X & Y & _). unfold wallet. now rewrite Od, Dd.
    - rewrite Ld. lia.
    - rewrite Lsk, Lvk, Ld. lia. }
  destruct (process_instruction C E xorca_id (b_accounts b0) l1 (b_data b0)) as [[l' evs]|] eqn:Run; [|discriminate].
  destruct (init_exact _ _ _ _ _ _ _ _ SV Hh He Run) as (sk1 & vk1 & au1 & sb1 & vb1 & T0 & T1 & T2 & T3 & X).
  rewrite (slot_unique _ _ _ _ T2 (fills_slot _ _ 2%nat _ _ _ F eq_refl)) in *.
  rewrite (slot_unique _ _ _ _ T3 (fills_slot _ _ 3%nat _ _ _ F eq_refl)) in *.
  apply signed_is_slot in T1. rewrite (slot_unique _ _ _ _ T1 (fills_slot _ _ 1%nat _ _ _ F eq_refl)) in *.
  destruct X as (_ & _ & _ & _ & _ & _ & _ & _ & _ & _ & _ & _ & _ & _ & R1 & R2 & _ & _ & R3 & R4 & R5 & R6 & R7 & R8 & _ & R9 & R10 & R11 & R12 & _).
  rewrite Lsk in R9, R10. rewrite Lvk, Ld in R10. destruct (R10 Ndv ltac:(lia)) as [R13 R14]. clear R10.
  assert (D165 : length (a_data (l' vk)) = 165%nat).
  { destruct R6 as (_ & Y & _). apply ta_unpack_ok in Y. apply ta_wf_len. apply Y. }
  assert (AllP : all_pass E l1 l').
  { intros a _. destruct (key_eq_dec a sk) as [->|D1].
    { apply exempt_passes. unfold zlen. rewrite R2, R9. change (Z.of_nat 2048) with 2048. lia. }
    destruct (key_eq_dec a vk) as [->|D2].
    { apply exempt_passes. unfold zlen. rewrite D165, R13. change (Z.of_nat 165) with 165. lia. }
    destruct (R11 a D1 D2) as [_ Da].
    destruct (key_eq_dec a deployer_address) as [->|D3].
    { apply exempt_passes. rewrite Da, Dd, R14. destruct Cp as (_ & -> & _). change (zlen []) with 0. lia. }
    apply unmoved_passes; [now apply R12|now rewrite Da]. }
  assert (Ms : forall k, must_sign deployer_address [b1] k <-> k = deployer_address \/ k = au).
  { intros k. split.
    - intros [->|(b & m & [<-|[]] & Im & <- & Sm)]; [now left|]. now apply Sgn.
    - intros [->| ->]; [now left|]. right. exists b1, (Meta au true true). split; [now left|]. split; [cbn; rewrite Ac; cbn; auto|auto]. }
  assert (Ls : exists ss, lists ss (must_sign deployer_address [b1]) /\ n = 5000 * Z.of_nat (length ss)).
  { destruct Hf as [[Q ->]|[Q ->]].
    - exists [deployer_address]. split; [|reflexivity]. split; [repeat constructor; intros []|]. intros k. rewrite Ms. cbn. rewrite Q. intuition.
    - exists [deployer_address; au]. split; [|reflexivity]. split; [repeat constructor; cbn; intuition|]. intros k. rewrite Ms. cbn. intuition. }
  destruct Ls as (ss & Ls & En).
  destruct (land_script C E l l before signature verify reserved tables hash None [deployer_address; au]
    [send E b0] [b1] deployer_address ss (l', evs)) as (d & Wd & A & _); auto.
  - right. split; [reflexivity|]. now exists [au].
  - eapply first_not_called; [exact MA|now left|exact F].
  - rewrite <- En. exact Cp.
  - intros E1 sgs payer ata w mint [Q|[]]. discriminate Q.
  - rewrite <- En. fold l1. cbn [attempt_all attempt send]. rewrite Run. cbn. now rewrite app_nil_r.
  - exists d. split; [exact Wd|]. rewrite <- En in A. rewrite A by exact AllP. cbn [fst].
    destruct R6 as (Y1 & _ & Y2 & Y3).
    split; [exact R1|]. split; [exact R5|]. split; [exact R4|]. split; [exact R3|].
    split; [split; [exact Y1|]; split; [rewrite D165; lia|auto]|]. auto.
Qed.
