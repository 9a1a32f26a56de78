(** The accounts the scripts pass, and client-built calls end to end. *)
From Coq Require Import String.
From Verif Require Import BytesFacts LedgerFacts CodecFacts AssertFacts Pool PoolHistory HistoryFacts LifeFacts EffectFacts SlotFacts
  LiveFacts BlockFacts ClientSpec RaiseFacts EncodeFacts RoleFacts AddressFacts.
Import List ListNotations.
Open Scope list_scope.
Open Scope Z_scope.

Ltac build_step H :=
  match type of H with
  | obind ?o _ = Some _ =>
      let x := fresh "x" in let E := fresh "E" in
      destruct o as [x|] eqn:E; [cbn [obind] in H|discriminate H]
  | (if ?c then _ else _) = Some _ => let E := fresh "E" in destruct c eqn:E; try discriminate H
  end.

Lemma script_state_some C k : script_state C = Some k -> client_state C k.
Proof.
  intros H. apply client_state_is. change (option_map fst (find_state_address C) = Some k) in H.
  destruct (find_state_address C) as [[k' b]|]; [injection H as ->; eauto|discriminate].
Qed.
Lemma script_vault_some C sk k : script_vault C sk = Some k -> client_vault C sk k.
Proof.
  intros H. apply client_vault_is.
  change (option_map fst (find_vault_address C sk token_id orca_mint_id) = Some k) in H. unfold is_vault.
  destruct (find_vault_address C sk token_id orca_mint_id) as [[k' b]|]; [injection H as ->; eauto|discriminate].
Qed.
Lemma script_pending_some C un j k : script_pending C un j = Some k -> client_record C un (js_trunc j) k.
Proof.
  intros H. apply client_record_is.
  change (option_map fst (find_pending_withdraw_address C un (js_trunc j)) = Some k) in H.
  destruct (find_pending_withdraw_address C un (js_trunc j)) as [[k' b]|]; [injection H as ->; eauto|discriminate].
Qed.
Lemma script_ata_some C mint owner k : script_ata C mint owner = Some k -> on_curve C owner = true /\ is_ata C owner mint k.
Proof.
  unfold script_ata, is_ata. intros H. destruct (on_curve C owner); [|discriminate]. split; [reflexivity|].
  change (option_map fst (find_program_address C [key_bytes owner; key_bytes token_id; key_bytes mint] ata_id) = Some k) in H.
  destruct (find_program_address C _ ata_id) as [[k' b]|]; [injection H as ->; eauto|discriminate].
Qed.

Theorem script_stake_accounts C st a b accs :
  script_stake C st a = Some b -> delivered (b_accounts b) accs ->
  exists sk vk so sx, client_state C sk /\ client_vault C sk vk /\
    is_ata C st orca_mint_id so /\ is_ata C st xorca_mint_id sx /\ fills accs (stake_roles st vk so sx sk).
Proof.
  intros H D. unfold script_stake in H. repeat build_step H. injection H as <-.
  exists x, x0, x1, x2. split; [now apply script_state_some|]. split; [now apply script_vault_some|].
  apply script_ata_some in E1, E2. split; [apply E1|]. split; [apply E2|].
  eapply delivered_fills; [exact D|]. cbn.
  apply (fills_list [Meta st true true; Meta x0 false true; Meta x1 false true; Meta x2 false true;
      Meta xorca_mint_id false true; Meta x false false; Meta orca_mint_id false false; Meta token_id false false] []).
Qed.

Theorem script_unstake_accounts C un a j b accs :
  script_unstake C un a j = Some b -> delivered (b_accounts b) accs ->
  exists sk vk k ux, client_state C sk /\ client_vault C sk vk /\ client_record C un (js_trunc j) k /\
    is_ata C un xorca_mint_id ux /\ fills accs (unstake_roles un sk k ux vk).
Proof.
  intros H D. unfold script_unstake in H. repeat build_step H. injection H as <-.
  exists x, x0, x2, x1. split; [now apply script_state_some|]. split; [now apply script_vault_some|].
  split; [now apply script_pending_some|]. apply script_ata_some in E1. split; [apply E1|].
  eapply delivered_fills; [exact D|]. cbn.
  intros n k s w H.
  destruct (fills_list [Meta un true true; Meta x false true; Meta x2 false true; Meta x1 false true;
      Meta xorca_mint_id false true; Meta orca_mint_id false false; Meta x0 false true;
      Meta system_id false false; Meta token_id false false] [] n k s
      (match n with 6%nat => true | _ => w end)) as (m & M1 & M2 & M3 & M4).
  { do 9 (destruct n as [|n]; [cbn in *; congruence|]). destruct n; discriminate H. }
  exists m. rewrite app_nil_r in M1. repeat split; auto. intros ->. apply M4. do 7 (destruct n as [|n]; [reflexivity|]). reflexivity.
Qed.

Theorem script_withdraw_accounts C un j b accs :
  script_withdraw C un j = Some b -> delivered (b_accounts b) accs ->
  exists sk vk k uo, client_state C sk /\ client_vault C sk vk /\ client_record C un (js_trunc j) k /\
    is_ata C un orca_mint_id uo /\ fills accs (withdraw_roles un sk k uo vk).
Proof.
  intros H D. unfold script_withdraw in H. repeat build_step H. injection H as <-.
  exists x, x1, x0, x2. split; [now apply script_state_some|]. split; [now apply script_vault_some|].
  split; [now apply script_pending_some|]. apply script_ata_some in E2. split; [apply E2|].
  eapply delivered_fills; [exact D|]. cbn.
  apply (fills_list [Meta un true true; Meta x false true; Meta x0 false true; Meta x2 false true;
      Meta x1 false true; Meta orca_mint_id false false; Meta system_id false false; Meta token_id false false] []).
Qed.

Theorem script_initialize_accounts C dep auth c b accs :
  script_initialize C dep auth c = Some b -> delivered (b_accounts b) accs ->
  dep = deployer_address /\ exists sk vk, client_state C sk /\ client_vault C sk vk /\ fills accs (init_roles dep auth sk vk).
Proof.
  intros H D. unfold script_initialize in H. repeat build_step H. injection H as <-.
  split; [apply negb_false_iff, key_eqb_true in E; exact E|].
  exists x, x0. split; [now apply script_state_some|]. split; [now apply script_vault_some|].
  eapply delivered_fills; [exact D|]. cbn.
  apply (fills_list [Meta dep true true; Meta auth true true; Meta x false true; Meta x0 false true;
      Meta xorca_mint_id false false; Meta orca_mint_id false false; Meta system_id false false;
      Meta token_id false false; Meta ata_id false false] []).
Qed.

Theorem script_set_accounts C auth j new b accs :
  script_set_cooldown C auth j = Some b \/ script_set_authority C auth new = Some b ->
  delivered (b_accounts b) accs -> exists sk, client_state C sk /\ fills accs (set_roles auth sk).
Proof.
  intros H D. destruct H as [H|H].
  - unfold script_set_cooldown in H. repeat build_step H. injection H as <-.
    exists x. split; [now apply script_state_some|]. eapply delivered_fills; [exact D|]. cbn.
    apply (fills_list [Meta auth true true; Meta x false true] []).
  - unfold script_set_authority in H. repeat build_step H. injection H as <-.
    exists x. split; [now apply script_state_some|]. eapply delivered_fills; [exact D|]. cbn.
    apply (fills_list [Meta auth true true; Meta x false true] []).
Qed.

(** ** The scripts' calls go through *)
Lemma client_state_unique C k k' : client_state C k -> client_state C k' -> k = k'.
Proof. rewrite !client_state_is. intros (b & H) (b' & H'). congruence. Qed.
Lemma client_vault_unique C sk k k' : client_vault C sk k -> client_vault C sk k' -> k = k'.
Proof. rewrite !client_vault_is. intros (b & H) (b' & H'). congruence. Qed.
Lemma client_record_unique C u i k k' : client_record C u i k -> client_record C u i k' -> k = k'.
Proof. rewrite !client_record_is. intros (b & H) (b' & H'). congruence. Qed.
Lemma is_ata_unique C u m k k' : is_ata C u m k -> is_ata C u m k' -> k = k'.
Proof. intros (b & H) (b' & H'). congruence. Qed.

Lemma sends_encodes C b i : sends C b i -> encodes (b_data b) i.
Proof. intros H. destruct (sends_bytes _ _ _ H) as (_ & O & ->). split; [exact O|]. exists []. now rewrite app_nil_r. Qed.

Theorem script_withdraw_live C E l sk vk b accs un k uo j :
  ordinary_state_address C -> reaches C l -> is_state l sk -> client_vault C sk vk ->
  script_withdraw C un j = Some b -> delivered (b_accounts b) accs -> op_ok C l (OpCall E accs (b_data b)) ->
  is_record l k -> rec_owner l k = un -> rec_index l k = js_trunc j -> rec_time l k <= now E ->
  is_ata C un orca_mint_id uo -> active_account l uo orca_mint_id un -> ta_state (a_data (l vk)) = 1 ->
  balance l uo + rec_amount l k <= u64_max -> a_lamports (l un) + a_lamports (l k) <= u64_max ->
  is_ok (process_instruction C E (b_program b) accs l (b_data b)) = true.
Proof.
  intros Ho Hr Hs Hv Hb D Hok Hk Hu Hi Ht Hu0 Hua Hvs Hb1 Hb2.
  destruct (script_withdraw_accounts _ _ _ _ _ Hb D) as (sk' & vk' & k' & uo' & A1 & A2 & A3 & A4 & F).
  assert (Hc : sends C b (Withdraw (js_trunc j))) by now apply (ScriptWithdraw C un).
  pose proof (state_where _ _ _ Ho Hr Hs) as [W _]. rewrite (client_state_unique _ _ _ A1 W) in *.
  rewrite (client_vault_unique _ _ _ _ A2 Hv) in *. rewrite (is_ata_unique _ _ _ _ _ A4 Hu0) in *.
  pose proof (record_where _ _ _ _ Ho Hr Hs Hk) as R. rewrite Hu, Hi in R. rewrite (client_record_unique _ _ _ _ _ A3 R) in *.
  destruct (sends_bytes _ _ _ Hc) as (-> & _).
  apply (withdraw_live C E l sk vk accs (b_data b) un k uo (js_trunc j)); auto; [now apply client_vault_is|now apply (sends_encodes C)].
Qed.

Theorem script_stake_live C E l sk vk b accs st so sx a :
  ordinary_state_address C -> reaches C l -> is_state l sk -> client_vault C sk vk ->
  script_stake C st a = Some b -> delivered (b_accounts b) accs -> op_ok C l (OpCall E accs (b_data b)) ->
  a_owner (l st) <> token_id ->
  is_ata C st orca_mint_id so -> active_account l so orca_mint_id st -> ordinary l so -> no_self_delegate l so st ->
  a <= balance l so ->
  is_ata C st xorca_mint_id sx -> active_account l sx xorca_mint_id st -> ta_state (a_data (l vk)) = 1 ->
  0 < a -> (supply l <> 0 -> free_orca l sk vk + 100 <= a * (supply l + 100)) -> balance l vk + a < 2 ^ 63 ->
  is_ok (process_instruction C E (b_program b) accs l (b_data b)) = true.
Proof.
  intros Ho Hr Hs Hv Hb D Hok Hst Ao Hao Hon Hsd Ha Ax Hax Hvs Hpos Hq Hlt.
  destruct (script_stake_accounts _ _ _ _ _ Hb D) as (sk' & vk' & so' & sx' & A1 & A2 & A3 & A4 & F).
  assert (Hc : sends C b (Stake a)) by now apply (ScriptStake C st).
  pose proof (state_where _ _ _ Ho Hr Hs) as [W _]. rewrite (client_state_unique _ _ _ A1 W) in *.
  rewrite (client_vault_unique _ _ _ _ A2 Hv) in *. rewrite (is_ata_unique _ _ _ _ _ A3 Ao) in *.
  rewrite (is_ata_unique _ _ _ _ _ A4 Ax) in *.
  destruct (sends_bytes _ _ _ Hc) as (-> & _).
  apply (stake_live C E l sk vk accs (b_data b) st so sx a); auto; [now apply client_vault_is|now apply (sends_encodes C)].
Qed.

Theorem script_unstake_live C E l sk vk b accs un ux x j k :
  ordinary_state_address C -> reaches C l -> is_state l sk -> client_vault C sk vk ->
  script_unstake C un x j = Some b -> delivered (b_accounts b) accs -> op_ok C l (OpCall E accs (b_data b)) ->
  client_record C un (js_trunc j) k -> ~ is_record l k ->
  is_ata C un xorca_mint_id ux -> active_account l ux xorca_mint_id un -> no_self_delegate l ux un -> 0 < x <= balance l ux ->
  wallet l un -> rent_min E 1024 - a_lamports (l k) <= a_lamports (l un) ->
  is_i64 (now E + cooldown l sk) -> balance l vk < 2 ^ 63 ->
  is_ok (process_instruction C E (b_program b) accs l (b_data b)) = true \/ collision C (eq un).
Proof.
  intros Ho Hr Hs Hv Hb D Hok Hk Hn Ax Hax Hsd Hx Hw Hrent Hclock Hlt.
  destruct (script_unstake_accounts _ _ _ _ _ _ Hb D) as (sk' & vk' & k' & ux' & A1 & A2 & A3 & A4 & F).
  assert (Hc : sends C b (Unstake x (js_trunc j))) by now apply (ScriptUnstake C un).
  pose proof (state_where _ _ _ Ho Hr Hs) as [W _]. rewrite (client_state_unique _ _ _ A1 W) in *.
  rewrite (client_vault_unique _ _ _ _ A2 Hv) in *. rewrite (is_ata_unique _ _ _ _ _ A4 Ax) in *.
  rewrite (client_record_unique _ _ _ _ _ A3 Hk) in *. apply client_record_is in Hk. destruct Hk as (kb & Hk).
  destruct (sends_bytes _ _ _ Hc) as (-> & _).
  apply (unstake_live C E l sk vk accs (b_data b) un k kb ux x (js_trunc j)); auto;
    [now apply client_vault_is|now apply (sends_encodes C)].
Qed.
