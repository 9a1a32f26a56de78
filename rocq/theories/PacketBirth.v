(** Who must sign a packet that mints xORCA or sets the program up (C77). *)
From Verif Require Export PacketFunds.
From Verif Require Import History BytesFacts LedgerFacts TokenFacts AssertFacts HistoryFacts PoolHistory
  EffectFacts ExactFacts GuardFacts BlockFacts Pool LifeFacts TakeFacts RateFacts ClaimFacts PoolInit.
Import List ListNotations.
Open Scope list_scope.
Open Scope Z_scope.

Lemma supply_history C l ops l' evs sk vk :
  ordinary_state_address C -> reaches C l -> is_state l sk -> is_vault C sk vk -> history C l ops l' evs ->
  supply l' <= supply l \/
  exists ops1 o ops2 l1 evs1 a accs t, ops = ops1 ++ o :: ops2 /\ history C l ops1 l1 evs1 /\ op_ok C l1 o /\ performs C l1 o (Stake a) accs t.
Proof.
  intros Ho R S Vk H. induction H as [|ops l1 evs o H IH Hok]; [left; lia|].
  assert (R1 : reaches C l1) by exact (reaches_history _ _ _ _ _ R H).
  assert (S1 : is_state l1 sk) by exact (state_stays _ _ _ _ _ _ Ho R S H).
  destruct IH as [B|(ops1 & o' & ops2 & lx & ex & a & accs & t & Q & X)].
  2:{ right. exists ops1, o', (ops2 ++ [o]), lx, ex, a, accs, t. split; [now rewrite Q, <- app_assoc|exact X]. }
  destruct (supply_moves C l1 o sk vk Ho R1 S1 Vk Hok) as [E1|[[_ E1]|[(a & accs & t & P & E1)|(x & i & accs & t & P & E1)]]].
  - left. lia.
  - left. lia.
  - right. exists ops, o, [], l1, evs, a, accs, t. auto.
  - left. destruct P as (E' & data & _ & [Oi _] & _). cbn in Oi. destruct Oi as [[Oi _] _]. lia.
Qed.

Theorem packet_supply C E verify reserved tables l d sk vk :
  ordinary_state_address C -> curve_only C verify -> ata_apart C -> sysvars_ok E ->
  reaches C l -> is_state l sk -> is_vault C sk vk ->
  let l' := fst (packet C E verify reserved tables l d) in
  supply l < supply l' ->
  exists l1 staker so, during C E verify d l l1 /\ token_account_of l1 so orca_mint_id staker /\ carries verify d staker.
Proof.
  intros Ho V AP SV R S Vk l' B. destruct (packet_history C E verify reserved tables l d V AP SV) as (ops & H & F).
  destruct (supply_history _ _ _ _ _ _ _ Ho R S Vk H) as 
    [X|(ops1 & o & ops2 & l1 & e1 & a & accs & t & Qo & H1 & O1 & P)]; [fold l' in X; lia|].
  assert (I : In o ops) by (rewrite Qo; apply in_or_app; right; now left).
  pose proof P as (E' & data & Q & He & _ & Ok1). subst o.
  destruct (process_instruction C E' xorca_id accs l1 data) as [[l2 e2]|] eqn:X; [|discriminate].
  destruct (stake_exact_at _ _ _ _ _ _ _ _ (proj2 O1) He X) as
      (st & vk' & so & sx & sk' & m & S0 & _ & _ & _ & _ & Sk & _ & _ & T1 & _).
  exists l1, st, so.
  split; [exists ops1, e1; split; [exact H1|]; rewrite Qo in F; now apply Forall_app in F|]. split; [exact T1|].
  eapply signer_in; [exact F|exact I|]. eapply signed_uses; eassumption.
Qed.

Lemma birth_history C l ops l' evs :
  ordinary_state_address C -> fresh C l -> history C l ops l' evs ->
  fresh C l' \/ exists sk vk P o au, pool C l' sk vk P /\ In o ops /\
    uses_signature o deployer_address /\ uses_signature o au.
Proof.
  intros Ho Fr H. induction H as [|ops l1 evs o H IH Hok]; [now left|].
  destruct IH as [F|(sk & vk & P & o' & au & HP & I & U)].
  - destruct (fresh_step C l1 o Ho F Hok) as [[F' _]|(E & accs & data & c & sk & vk & -> & _ & Bi & HP & _)]; [now left|].
    right. destruct (bi_payer _ _ _ _ _ _ _ _ Bi) as (m & N & S & K).
    destruct (bi_authority _ _ _ _ _ _ _ _ Bi) as (m' & N' & S' & K').
    exists sk, vk, [], (OpCall E accs data), (m_key m'). split; [exact HP|]. split; [apply in_or_app; right; now left|].
    apply nth_error_In in N, N'. split; [exists m|exists m']; auto.
  - right. destruct (pool_step _ _ _ _ _ _ HP Hok) as (P' & HP' & _).
    exists sk, vk, P', o', au. split; [exact HP'|]. split; [apply in_or_app; now left|exact U].
Qed.

Theorem packet_birth C E verify reserved tables l d :
  ordinary_state_address C -> curve_only C verify -> ata_apart C -> sysvars_ok E ->
  reaches C l -> (forall k, ~ is_state l k) ->
  let l' := fst (packet C E verify reserved tables l d) in
  (exists sk, is_state l' sk) -> carries verify d deployer_address.
Proof.
  intros Ho V AP SV R N l' [sk S]. destruct (packet_history C E verify reserved tables l d V AP SV) as (ops & H & F).
  destruct (birth_history _ _ _ _ _ Ho (no_state_fresh _ _ Ho R N) H) as [Fr|(sk' & vk & P & o & au & _ & I & U & _)].
  - destruct S as [S1 S2]. destruct (fresh_no_state _ _ _ Fr S1 S2).
  - eapply signer_in; eassumption.
Qed.
