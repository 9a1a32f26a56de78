(** The scripts send and go through (C61). *)
From Verif Require Import BytesFacts LedgerFacts HistoryFacts Pool PoolHistory AddressFacts TokenFacts.
From Verif Require Export SendSpec ScriptRun ScriptMore ScriptSends.
Import List ListNotations.
Open Scope list_scope.
Open Scope Z_scope.

Theorem stake_script_through C E l sk vk st so sx a :
  ordinary_state_address C -> reaches C l -> is_state l sk -> client_vault C sk vk ->
  on_curve C st = true -> wallet l st -> is_ata C st orca_mint_id so -> active_account l so orca_mint_id st ->
  a_lamports (l so) <> 0 -> ordinary l so -> no_self_delegate l so st ->
  is_ata C st xorca_mint_id sx -> can_open E l st sx xorca_mint_id st -> ta_state (a_data (l vk)) = 1 ->
  0 < a <= balance l so -> (supply l <> 0 -> free_orca l sk vk + 100 <= a * (supply l + 100)) -> balance l vk + a < 2 ^ 63 ->
  exists ops, stake_script C E l st a = Some ops /\ (steps_ok C l ops -> exists l' evs, attempt_all C l ops = Ok (l', evs)).
Proof.
  intros Ho Hr Hs Hv Cv W Ao Act Lm Hon Nd Ax Op Vs [A0 A1] Q B. destruct (state_where _ _ _ Ho Hr Hs) as [S _].
  assert (X : exists ops, stake_script C E l st a = Some ops).
  { apply (stake_script_sends C E l sk vk st so sx a S Hv Ao Ax). split; [exact Cv|].
    destruct Act as [(T1 & T2 & _) _]. unfold shows. repeat split; auto; lia. }
  destruct X as (ops & X). exists ops. split; [exact X|]. intros Hok.
  exact (stake_script_live C E l sk vk st so sx a ops Ho Hr Hs Hv X Hok W Ao Act Hon Nd Ax Op Vs A0 Q B).
Qed.
Theorem unstake_script_through C E l sk vk un x i k ux uo :
  ordinary_state_address C -> reaches C l -> is_state l sk -> client_vault C sk vk ->
  on_curve C un = true -> wallet l un -> 0 <= i <= 255 -> client_record C un i k -> ~ is_record l k ->
  is_ata C un xorca_mint_id ux -> active_account l ux xorca_mint_id un -> a_lamports (l ux) <> 0 -> no_self_delegate l ux un ->
  0 < x <= balance l ux -> is_ata C un orca_mint_id uo -> can_open E l un uo orca_mint_id un -> uo <> k ->
  Z.max (rent_min E 165) 1 + rent_min E 1024 <= a_lamports (l un) + a_lamports (l k) ->
  is_i64 (now E + cooldown l sk) -> balance l vk < 2 ^ 63 ->
  exists ops, unstake_script C E l un x (JInt i) = Some ops /\
    (steps_ok C l ops -> (exists l' evs, attempt_all C l ops = Ok (l', evs)) \/ collision C (eq un)).
Proof.
  intros Ho Hr Hs Hv Cv W I K Nk Ax Act Lm Nd [X0 X1] Ao Op Nu Re T B. destruct (state_where _ _ _ Ho Hr Hs) as [S _].
  assert (X : exists ops, unstake_script C E l un x (JInt i) = Some ops).
  { apply (unstake_script_sends C E l sk vk un ux uo i k x S Hv Ao Ax K). split; [exact Cv|]. split; [|exact I].
    destruct Act as [(T1 & T2 & _) _]. unfold shows. repeat split; auto; lia. }
  destruct X as (ops & X). exists ops. split; [exact X|]. intros Hok.
  exact (unstake_script_live C E l sk vk un x (JInt i) k ux uo ops Ho Hr Hs Hv X Hok K Nk Ax Act Nd X0 Ao Op Nu W Re T B).
Qed.
(** For every record of the user, withdraw.ts sends, and goes through when it is due. *)
Theorem withdraw_script_through C E l sk vk k uo :
  ordinary_state_address C -> reaches C l -> is_state l sk -> client_vault C sk vk ->
  is_record l k -> on_curve C (rec_owner l k) = true -> is_ata C (rec_owner l k) orca_mint_id uo ->
  exists ops, withdraw_script C E l (rec_owner l k) (JInt (rec_index l k)) = Some ops /\
    (steps_ok C l ops -> rec_time l k <= now E -> can_open E l (rec_owner l k) uo orca_mint_id (rec_owner l k) ->
     ta_state (a_data (l vk)) = 1 -> balance l uo + rec_amount l k <= u64_max ->
     a_lamports (l (rec_owner l k)) + a_lamports (l k) <= u64_max -> exists l' evs, attempt_all C l ops = Ok (l', evs)).
Proof.
  intros Ho Hr Hs Hv Hk Cv Ao. destruct (state_where _ _ _ Ho Hr Hs) as [S _].
  pose proof (record_where _ _ _ _ Ho Hr Hs Hk) as K.
  assert (X : exists ops, withdraw_script C E l (rec_owner l k) (JInt (rec_index l k)) = Some ops).
  { apply (withdraw_script_sends C E l sk vk _ uo _ k S Hv Ao K). split; [exact Cv|].
    destruct (reaches_pool _ _ _ Ho Hr Hs) as (vk' & P & HP).
    pose proof Hk as R. apply (pool_is_record _ _ _ _ _ _ HP), (po_records _ _ _ _ _ HP) in R.
    pose proof (ro_lam _ _ _ R). pose proof (ro_len _ _ _ R) as L. rewrite L. split; [lia|]. split; [lia|].
    pose proof (get_u8_range 7 (a_data (l k))) as U. unfold rec_index, pw_index. unfold is_u8 in U. lia. }
  destruct X as (ops & X). exists ops. split; [exact X|]. intros Hok T Op Vs B1 B2.
  exact (withdraw_script_live C E l sk vk _ _ k uo ops Ho Hr Hs Hv X Hok Hk eq_refl eq_refl T Ao Op Vs B1 B2).
Qed.
Theorem deposit_script_through C E l sk vk u so n :
  ordinary_state_address C -> reaches C l -> is_state l sk -> client_vault C sk vk ->
  on_curve C u = true -> a_owner (l u) <> token_id -> is_ata C u orca_mint_id so -> active_account l so orca_mint_id u ->
  a_lamports (l so) <> 0 -> ordinary l so -> no_self_delegate l so u -> ta_state (a_data (l vk)) = 1 ->
  0 <= n <= balance l so -> balance l vk + n <= u64_max ->
  exists ops, deposit_script C E l u (JInt n) = Some ops /\ (steps_ok C l ops -> exists l' evs, attempt_all C l ops = Ok (l', evs)).
Proof.
  intros Ho Hr Hs Hv Cv W Ao Act Lm Hon Nd Vs [N0 N1] B. destruct (state_where _ _ _ Ho Hr Hs) as [S _].
  assert (X : exists ops, deposit_script C E l u (JInt n) = Some ops).
  { apply (deposit_script_sends C E l sk vk u so (JInt n) S Hv Ao); [intros m [=<-]; exact N0|]. split; [exact Cv|].
    destruct (reaches_pool_vault _ _ _ vk Ho Hr Hs) as (P & HP); [now apply client_vault_is|].
    pose proof (po_vlam _ _ _ _ _ HP) as Lv. destruct (po_vault _ _ _ _ _ HP). destruct Act as [(T1 & T2 & _) _].
    apply ta_unpack_ok in T2. destruct T2 as [T2 _]. unfold holds_165.
    split; [split; [exact Lm|split; [exact T1|now apply ta_wf_len]]|].
    split; [split; [lia|split; [assumption|now apply ta_wf_len]]|eauto]. }
  destruct X as (ops & X). exists ops. split; [exact X|]. intros Hok.
  exact (deposit_script_live C E l sk vk u so n ops Ho Hr Hs Hv X Hok W Ao Act Hon Nd Vs B).
Qed.
Theorem transfer_script_through C E l u w n from to :
  ordinary_state_address C -> reaches C l -> on_curve C u = true -> on_curve C w = true ->
  is_ata C u orca_mint_id from -> is_ata C w orca_mint_id to ->
  active_account l from orca_mint_id u -> a_lamports (l from) <> 0 -> ordinary l from -> no_self_delegate l from u ->
  a_owner (l u) <> token_id -> can_open E l u to orca_mint_id w -> 0 <= n <= balance l from -> balance l to + n <= u64_max ->
  exists ops, transfer_script C E l u w n = Some ops /\ (steps_ok C l ops -> exists l' evs, attempt_all C l ops = Ok (l', evs)).
Proof.
  intros Ho Hr Cu Cw Af At Act Lm Hon Nd W Op [N0 N1] B.
  assert (X : exists ops, transfer_script C E l u w n = Some ops).
  { apply (transfer_script_sends C E l u w from to n Af At N0). split; [exact Cu|]. split; [exact Cw|].
    destruct Act as [(T1 & T2 & _) _]. split; [unfold shows; repeat split; auto; lia|].
    destruct (Z.eq_dec (a_lamports (l to)) 0) as [Q|Q]; [now left|right].
    destruct Op as [[(O1 & O2 & _) _]|(_ & O & _)]; [|contradiction Q].
    pose proof (ta_amount_range (a_data (l to))) as R. unfold shows, balance, is_u64 in *. repeat split; auto; lia. }
  destruct X as (ops & X). exists ops. split; [exact X|]. intros Hok.
  exact (transfer_script_live C E l u w n ops from to X Hok Ho Hr Af At Act Hon Nd W Op B).
Qed.
