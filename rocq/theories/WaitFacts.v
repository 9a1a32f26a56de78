(** Proofs for C81: who waits loses nothing. *)
From Verif Require Import BytesFacts LedgerFacts TokenFacts HistoryFacts PoolHistory Pool VaultStep FailFacts RateFacts GuardFacts ClaimFacts PacketFunds PacketFacts ConserveFacts FreezeStep.
From Verif Require Export WaitSpec LandFacts.
Import List ListNotations.
Open Scope list_scope.
Open Scope Z_scope.

Theorem wait_wallet C verify reserved u : forall ds l,
  ordinary_state_address C -> curve_only C verify -> ata_apart C -> reaches C l -> regular ds -> quiet verify u ds ->
  on_curve C u = true -> a_owner (l u) = system_id -> system_or_incinerator u = false ->
  let l' := fst (lands C verify reserved l ds) in
  a_owner (l' u) = system_id /\ a_lamports (l u) <= a_lamports (l' u) /\
  forall k mint, plainly_owned l k mint u -> plainly_owned l' k mint u /\ balance l k <= balance l' k.
Proof.
  intros ds. induction ds as [|[[E tables] d] ds IH]; intros l Ho V AP R Rg Q Cu O I; cbv zeta; cbn [lands fst].
  - split; [exact O|]. split; [lia|]. intros k mint P. split; [exact P|lia].
  - inversion Rg as [|? ? SV Rg']. inversion Q as [|? ? N Q']. subst. cbn [fst snd] in *.
    destruct (land_funds C E verify reserved tables l d u Ho V AP SV R Cu O I N) as (A1 & A2 & A3).
    destruct (IH (fst (land C E verify reserved tables l d)) Ho V AP (land_reaches _ _ _ _ _ _ _ Ho V AP SV R) Rg' Q' Cu A1 I)
      as (B1 & B2 & B3).
    split; [exact B1|]. split; [lia|]. intros k mint (P1 & P2 & P3 & P4).
    destruct (A3 k mint P1 P2 P3 P4) as (T1 & T2 & T3 & T4 & T5).
    destruct (B3 k mint (conj T1 (conj T2 (conj T3 T4)))) as [U1 U2]. split; [exact U1|lia].
Qed.

Theorem wait_record C verify reserved sk k : forall ds l,
  ordinary_state_address C -> curve_only C verify -> ata_apart C -> reaches C l -> is_state l sk -> regular ds ->
  is_record l k -> quiet verify (rec_owner l k) ds ->
  let l' := fst (lands C verify reserved l ds) in
  is_state l' sk /\ (is_record l' k /\ a_data (l' k) = a_data (l k) \/ clash C verify reserved l ds).
Proof.
  intros ds. induction ds as [|[[E tables] d] ds IH]; intros l Ho V AP R S Rg K Q; cbv zeta; cbn [lands fst]; [auto|].
  inversion Rg as [|? ? SV Rg']. inversion Q as [|? ? N Q']. subst. cbn [fst snd] in *.
  destruct (land_settings C E verify reserved tables l d sk Ho V AP SV R S) as [S' _].
  pose proof (land_reaches C E verify reserved tables l d Ho V AP SV R) as R'.
  assert (St : is_state (fst (lands C verify reserved (fst (land C E verify reserved tables l d)) ds)) sk).
  { clear - Ho V AP R' S' Rg'. revert R' S'. generalize (fst (land C E verify reserved tables l d)). clear l.
    induction ds as [|[[E' t'] d'] ds IH]; intros l R S; [exact S|]. inversion Rg' as [|? ? SV Rg]. subst. cbn [fst] in SV.
    cbn [lands fst]. apply IH; [exact Rg|now apply land_reaches|now apply land_settings]. }
  split; [exact St|].
  destruct (land_record C E verify reserved tables l d sk k Ho V AP SV R S K) as [[K1 D]|(_ & [X|(l1 & un & L & Cy & X)])].
  - assert (Ow : rec_owner (fst (land C E verify reserved tables l d)) k = rec_owner l k) by (unfold rec_owner; now rewrite D).
    destruct (IH _ Ho V AP R' S' Rg' K1) as [_ [[K2 D2]|X]]; [now rewrite Ow|left; split; [exact K2|congruence]|right].
    destruct X as (ds1 & E1 & t1 & d1 & ds2 & l1 & un & -> & L & Cy & X).
    exists ((E, tables, d) :: ds1), E1, t1, d1, ds2, l1, un. split; [reflexivity|]. split; [exact L|auto].
  - contradiction.
  - right. exists [], E, tables, d, ds, l1, un. split; [reflexivity|]. auto.
Qed.

(** ** The price *)
Lemma purse_prefix C E l ops l' evs u n :
  ordinary_state_address C -> sysvars_ok E -> reaches C l -> history C l ops l' evs ->
  Forall (fun o => runs_at E o /\ ~ uses_signature o u) ops ->
  a_owner (l u) = system_id -> system_or_incinerator u = false -> on_curve C u = true ->
  purse_kept u l (after C l (firstn n ops)) /\ reaches C (after C l (firstn n ops)) /\
  exists e, history C l (firstn n ops) (after C l (firstn n ops)) e.
Proof.
  intros Ho SV R H F O I Cu.
  destruct (history_prefix _ _ (firstn n ops) (skipn n ops) _ _ _ H) as (e & H1); [now rewrite firstn_skipn|].
  split; [|split; [exact (reaches_history _ _ _ _ _ R H1)|now exists e]].
  eapply purse_history; try eassumption. rewrite Forall_forall in *. intros o J. apply F.
  rewrite <- (firstn_skipn n ops). apply in_or_app. now left.
Qed.
Lemma plainly_vault_ok l k mint u : plainly_owned l k mint u -> vault_ok l k mint u.
Proof.
  intros ((T1 & T2 & T3 & T4) & Or & D & Cl). apply ta_unpack_ok in T2. destruct T2 as [T2 T2']. now constructor.
Qed.
Lemma land_price C E verify reserved tables l d u k sk vk :
  ordinary_state_address C -> curve_only C verify -> ata_apart C -> sysvars_ok E -> reaches C l -> is_state l sk -> is_vault C sk vk ->
  on_curve C u = true -> a_owner (l u) = system_id -> system_or_incinerator u = false -> ~ carries verify d u ->
  plainly_owned l k xorca_mint_id u -> 0 < balance l k ->
  let l' := fst (land C E verify reserved tables l d) in
  (free_orca l sk vk + 100) * (supply l' + 100) <= (free_orca l' sk vk + 100) * (supply l + 100).
Proof.
  intros Ho V AP SV R S Vk Cu O I N P B. cbv zeta.
  destruct (land_through C E verify reserved tables l d Ho V R) as [->|(payer & n & N0 & Cp & R1 & H)]; cbn [fst]; [lia|].
  set (l1 := paid l payer n) in *.
  assert (Q1 : free_orca l1 sk vk = free_orca l sk vk) by (unfold free_orca, balance, escrow, l1; now rewrite !paid_data).
  assert (Q2 : supply l1 = supply l) by (unfold supply, l1; now rewrite paid_data).
  rewrite <- Q1, <- Q2. destruct H as [->| ->]; cbn [fst]; [lia|].
  destruct (packet_history C E verify reserved tables l1 d V AP SV) as (ops & H & F).
  assert (F' : Forall (fun o => runs_at E o /\ ~ uses_signature o u) ops).
  { eapply Forall_impl; [|exact F]. intros o [X Y]. split; [exact X|]. intros U. exact (N (Y _ U)). }
  assert (P1 : plainly_owned l1 k xorca_mint_id u).
  { unfold plainly_owned, token_account_of, ordinary, l1 in *. now rewrite paid_owner, !paid_data. }
  assert (B1 : 0 < balance l1 k) by (unfold balance, l1 in *; now rewrite paid_data).
  assert (O1 : a_owner (l1 u) = system_id) by (unfold l1; now rewrite paid_owner).
  pose proof (paid_is_state l payer n sk S) as S1. fold l1 in S1.
  apply (never_diluted C l1 ops _ _ sk vk 0 Ho R1 S1 Vk H); [|lia].
  intros i _. destruct (purse_prefix C E l1 ops _ _ u i Ho SV R1 H F' O1 I Cu) as (Pk & R2 & e & H2).
  destruct (pk_tokens _ _ _ Pk k xorca_mint_id (plainly_vault_ok _ _ _ _ P1)) as [V2 B2].
  pose proof (state_stays _ _ _ _ _ _ Ho R1 S1 H2) as S2.
  destruct (reaches_pool_vault _ _ _ vk Ho R2 S2 Vk) as (Pd & HP).
  assert (T : token_account_of (after C l1 (firstn i ops)) k xorca_mint_id u).
  { destruct V2. split; [assumption|]. split; [now apply ta_unpack_ok|auto]. }
  pose proof (holder_le _ _ _ _ _ _ _ HP T). lia.
Qed.
Lemma state_lands C verify reserved sk : forall ds l,
  ordinary_state_address C -> curve_only C verify -> ata_apart C -> reaches C l -> is_state l sk -> regular ds ->
  is_state (fst (lands C verify reserved l ds)) sk.
Proof.
  intros ds. induction ds as [|[[E t] d] ds IH]; intros l Ho V AP R S Rg; [exact S|].
  inversion Rg as [|? ? SV Rg']. subst. cbn [fst] in SV. cbn [lands fst].
  apply IH; auto; [now apply land_reaches|now apply land_settings].
Qed.
Lemma reaches_bounds C l sk vk :
  ordinary_state_address C -> reaches C l -> is_state l sk -> is_vault C sk vk -> 0 <= supply l /\ 0 <= free_orca l sk vk.
Proof.
  intros Ho R S Vk. destruct (reaches_pool_vault _ _ _ vk Ho R S Vk) as (P & HP).
  destruct (pool_ranges _ _ _ _ _ HP) as (X & _). lia.
Qed.
Theorem wait_holder C verify reserved u k sk vk : forall ds l,
  ordinary_state_address C -> curve_only C verify -> ata_apart C -> reaches C l -> is_state l sk -> is_vault C sk vk ->
  regular ds -> quiet verify u ds ->
  on_curve C u = true -> a_owner (l u) = system_id -> system_or_incinerator u = false ->
  plainly_owned l k xorca_mint_id u -> 0 < balance l k ->
  let l' := fst (lands C verify reserved l ds) in
  balance l k <= balance l' k /\
  (free_orca l sk vk + 100) * (supply l' + 100) <= (free_orca l' sk vk + 100) * (supply l + 100) /\
  forall x y, 0 <= x <= y -> worth l sk vk x <= worth l' sk vk y.
Proof.
  intros ds l Ho V AP R S Vk Rg Q Cu O I P B l'.
  assert (W : balance l k <= balance l' k).
  { destruct (wait_wallet C verify reserved u ds l Ho V AP R Rg Q Cu O I) as (_ & _ & X). now apply (X k xorca_mint_id). }
  assert (Pr : (free_orca l sk vk + 100) * (supply l' + 100) <= (free_orca l' sk vk + 100) * (supply l + 100)).
  { subst l'. clear W. revert l R S Rg Q O P B.
    induction ds as [|[[E t] d] ds IH]; intros l R S Rg Q O P B; cbn [lands fst]; [lia|].
    inversion Rg as [|? ? SV Rg']. inversion Q as [|? ? N Q']. subst. cbn [fst snd] in *.
    pose proof (land_price C E verify reserved t l d u k sk vk Ho V AP SV R S Vk Cu O I N P B) as L1. cbv zeta in L1.
    pose proof (land_reaches C E verify reserved t l d Ho V AP SV R) as R'.
    destruct (land_settings C E verify reserved t l d sk Ho V AP SV R S) as [S' _].
    destruct (land_funds C E verify reserved t l d u Ho V AP SV R Cu O I N) as (A1 & A2 & A3).
    destruct P as (P1 & P2 & P3 & P4). destruct (A3 k _ P1 P2 P3 P4) as (T1 & T2 & T3 & T4 & T5).
    set (l1 := fst (land C E verify reserved t l d)) in *.
    specialize (IH l1 R' S' Rg' Q' A1 (conj T1 (conj T2 (conj T3 T4))) ltac:(lia)).
    assert (S2 : is_state (fst (lands C verify reserved l1 ds)) sk) by now apply state_lands.
    pose proof (lands_reach C verify reserved ds l1 Ho V AP Rg' R') as R2.
    destruct (reaches_bounds _ _ _ _ Ho R S Vk) as (X1 & X2).
    destruct (reaches_bounds _ _ _ _ Ho R' S' Vk) as (Y1 & Y2).
    destruct (reaches_bounds _ _ _ _ Ho R2 S2 Vk) as (Z1 & Z2).
    set (l2 := fst (lands C verify reserved l1 ds)) in *. nia. }
  split; [exact W|]. split; [exact Pr|]. intros x y Hx. unfold worth.
  assert (S2 : is_state l' sk) by now apply state_lands.
  pose proof (lands_reach C verify reserved ds l Ho V AP Rg R) as R2. fold l' in R2.
  destruct (reaches_bounds _ _ _ _ Ho R S Vk) as (X1 & X2). destruct (reaches_bounds _ _ _ _ Ho R2 S2 Vk) as (Y1 & Y2).
  apply Z.div_le_lower_bound; [lia|].
  pose proof (Z.mul_div_le (x * (free_orca l sk vk + 100)) (supply l + 100) ltac:(lia)) as D.
  set (q := x * (free_orca l sk vk + 100) / (supply l + 100)) in *. nia.
Qed.
