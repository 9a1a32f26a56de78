(** Addresses derived by the clients. *)
From Coq Require Import String.
From Verif Require Import BytesFacts LedgerFacts TokenFacts VaultStep CodecFacts AssertFacts Pool PoolHistory HistoryFacts LifeFacts EffectFacts SlotFacts
  LiveFacts ClientSpec RaiseFacts EncodeFacts RoleFacts.
Import List ListNotations.
Open Scope list_scope.
Open Scope Z_scope.

Lemma script_ids :
  script_xorca_id = xorca_id /\ script_orca_mint = orca_mint_id /\ script_xorca_mint = xorca_mint_id /\
  script_system_id = system_id /\ script_token_id = token_id /\ script_ata_id = ata_id /\
  script_deployer = deployer_address.
Proof. repeat split; reflexivity. Qed.

(** ** The clients' derivations are the program's *)
Lemma le_enc_1 z : le_enc 1 z = [Z_to_byte z].
Proof. reflexivity. Qed.

Theorem finders_agree C sk un i j :
  rust_find_state C = find_state_address C /\ js_find_state C = find_state_address C /\
  script_state C = option_map fst (find_state_address C) /\
  rust_find_vault C sk token_id orca_mint_id = find_vault_address C sk token_id orca_mint_id /\
  js_find_vault C sk token_id orca_mint_id = find_vault_address C sk token_id orca_mint_id /\
  script_vault C sk = option_map fst (find_vault_address C sk token_id orca_mint_id) /\
  rust_find_pending C un i = find_pending_withdraw_address C un i /\
  js_find_pending C un j = find_pending_withdraw_address C un (js_trunc j) /\
  script_pending C un j = option_map fst (find_pending_withdraw_address C un (js_trunc j)).
Proof. repeat split; reflexivity. Qed.

Lemma client_state_is C k : client_state C k <-> exists b, find_state_address C = Some (k, b).
Proof.
  unfold client_state. split; intros (b & H); exists b.
  - exact (proj1 H).
  - repeat split; [exact H|exact H|]. change (option_map fst (find_state_address C) = Some k). now rewrite H.
Qed.
Lemma client_vault_is C sk k : client_vault C sk k <-> is_vault C sk k.
Proof.
  unfold client_vault, is_vault. split; intros (b & H); exists b.
  - exact (proj1 H).
  - repeat split; [exact H|exact H|].
    change (option_map fst (find_vault_address C sk token_id orca_mint_id) = Some k). now rewrite H.
Qed.
Lemma client_record_is C un i k : client_record C un i k <-> exists b, find_pending_withdraw_address C un i = Some (k, b).
Proof.
  unfold client_record. split; intros (b & H); exists b.
  - exact (proj1 H).
  - repeat split; [exact H|exact H|].
    change (option_map fst (find_pending_withdraw_address C un i) = Some k). now rewrite H.
Qed.

(** ** What is on the ledger is where the clients look *)
Theorem state_where C l sk :
  ordinary_state_address C -> reaches C l -> is_state l sk ->
  client_state C sk /\ exists vk, client_vault C sk vk /\ token_account_of l vk orca_mint_id sk.
Proof.
  intros Ho Hr Hs. destruct (reaches_pool _ _ _ Ho Hr Hs) as (vk & P & HP). split.
  - apply client_state_is. destruct (po_find _ _ _ _ _ HP) as (b & H & _). eauto.
  - exists vk. split; [apply client_vault_is; eapply pool_is_vault, HP|].
    destruct (po_vault _ _ _ _ _ HP). unfold token_account_of. rewrite ta_unpack_ok. auto 8.
Qed.
Theorem record_where C l sk k :
  ordinary_state_address C -> reaches C l -> is_state l sk -> is_record l k ->
  client_record C (rec_owner l k) (rec_index l k) k.
Proof.
  intros Ho Hr Hs Hk. destruct (reaches_pool _ _ _ Ho Hr Hs) as (vk & P & HP).
  apply (pool_is_record _ _ _ _ _ _ HP), (po_records _ _ _ _ _ HP) in Hk. destruct Hk.
  apply client_record_is. eauto.
Qed.

(** ** What successful calls were given is what the clients derive *)
Theorem call_addresses C l o i accs t :
  ordinary_state_address C -> reaches C l -> op_ok C l o -> performs C l o i accs t ->
  exists sk, client_state C sk /\
  match i with
  | Stake _ => exists vk, client_vault C sk vk /\ slot accs 1 vk /\ slot accs 5 sk
  | Unstake _ i => exists vk un k, client_vault C sk vk /\ client_record C un i k /\
      slot accs 0 un /\ slot accs 1 sk /\ slot accs 2 k /\ slot accs 6 vk
  | Withdraw i => exists vk un k, client_vault C sk vk /\ (client_record C un i k \/ collision C (claimants l un)) /\
      slot accs 0 un /\ slot accs 1 sk /\ slot accs 2 k /\ slot accs 4 vk
  | Initialize _ => exists vk, client_vault C sk vk /\ slot accs 2 sk /\ slot accs 3 vk
  | Set_ _ => slot accs 1 sk
  end.
Proof.
  intros Ho Hr Hok Hp.
  destruct (performs_run _ _ _ _ _ _ Hp) as (E & data & l' & evs & -> & Et & He & Hrun & _).
  pose proof Hok as [HE Hh].
  destruct i as [a|x i|i|c|u].
  - destruct (stake_slots _ _ _ _ _ _ _ _ Hh He Hrun) as (st & v & so & sx & sk & F & S & _).
    destruct (reaches_pool _ _ _ Ho Hr S) as (vk & P & HP).
    destruct (call_slots _ _ _ _ _ _ sk vk Ho Hr S (pool_is_vault _ _ _ _ _ HP) Hok Hp) as [S1 S5].
    exists sk. split; [apply (state_where C l sk Ho Hr S)|]. exists vk. split; [apply client_vault_is; eapply pool_is_vault, HP|auto].
  - destruct (unstake_slots _ _ _ _ _ _ _ _ _ HE Hh He Hrun) as (un & sk & k & ux & v & F & S & _ & _ & R & _).
    destruct (reaches_pool _ _ _ Ho Hr S) as (vk & P & HP).
    destruct (call_slots _ _ _ _ _ _ sk vk Ho Hr S (pool_is_vault _ _ _ _ _ HP) Hok Hp) as [S1 S6].
    exists sk. split; [apply (state_where C l sk Ho Hr S)|]. exists vk, un, k.
    split; [apply client_vault_is; eapply pool_is_vault, HP|]. split; [now apply client_record_is|].
    split; [eapply fills_slot; [exact F|reflexivity]|]. split; [exact S1|]. split; [eapply fills_slot; [exact F|reflexivity]|exact S6].
  - destruct (withdraw_slots _ _ _ _ _ _ _ _ Hh He Hrun) as (un & sk & k & uo & v & F & S & _).
    destruct (reaches_pool _ _ _ Ho Hr S) as (vk & P & HP).
    destruct (call_slots _ _ _ _ _ _ sk vk Ho Hr S (pool_is_vault _ _ _ _ _ HP) Hok Hp) as [S1 S4].
    assert (S0 : slot accs 0 un) by (eapply fills_slot; [exact F|reflexivity]).
    assert (S2 : slot accs 2 k) by (eapply fills_slot; [exact F|reflexivity]).
    destruct (only_owner _ _ _ _ _ _ _ _ _ _ _ Ho Hr S Hh He Hrun S0 S2) as (_ & R & Q).
    exists sk. split; [apply (state_where C l sk Ho Hr S)|]. exists vk, un, k.
    split; [apply client_vault_is; eapply pool_is_vault, HP|]. split; [|auto].
    destruct Q as [[<- <-]|Q]; [left|right; exact Q]. eapply record_where; eassumption.
  - destruct (init_slots _ _ _ _ _ _ _ _ HE Hh He Hrun) as (au & sk & vk & sb & vb & F & F1 & F2).
    exists sk. split; [apply client_state_is; eauto|]. exists vk. split; [apply client_vault_is; exists vb; exact F2|].
    split; eapply fills_slot; try exact F; reflexivity.
  - destruct (set_slots _ _ _ _ _ _ _ _ He Hrun) as (sk & F & S & _).
    exists sk. split; [apply (state_where C l sk Ho Hr S)|]. eapply fills_slot; [exact F|reflexivity].
Qed.

(** ** Distinct stakers or indices, distinct addresses *)
Lemma preimages_differ C us s b p s' b' p' :
  address_input C us (pda_preimage (s ++ [[b]]) p) -> address_input C us (pda_preimage (s' ++ [[b']]) p') ->
  derive_address C s b p = derive_address C s' b' p' ->
  pda_preimage (s ++ [[b]]) p = pda_preimage (s' ++ [[b']]) p' \/ collision C us.
Proof.
  intros I I' H. unfold derive_address in H.
  destruct (list_eq_dec Byte.byte_eq_dec (pda_preimage (s ++ [[b]]) p) (pda_preimage (s' ++ [[b']]) p')) as [Q|Q];
    [now left|right; eexists _, _; split; [exact I|split; [exact I'|split; eassumption]]].
Qed.

Theorem record_addresses_distinct C u i u' i' k :
  is_u8 i -> is_u8 i' -> client_record C u i k -> client_record C u' i' k ->
  u = u' /\ i = i' \/ collision C (fun x => x = u \/ x = u').
Proof.
  intros Hi Hi' H H'. apply client_record_is in H, H'. destruct H as (b & H), H' as (b' & H').
  apply find_create, create_derive in H. apply find_create, create_derive in H'.
  rewrite H in H'. apply (preimages_differ C (fun x => x = u \/ x = u')) in H'; [|apply input_record; auto|apply input_record; auto]. destruct H' as [Q|Q]; [left|now right].
  unfold pda_preimage, pending_seeds in Q. cbn [app concat] in Q. rewrite <- !app_assoc in Q. apply app_inv_head in Q.
  assert (Lk : length (key_bytes u) = length (key_bytes u')) by now rewrite !key_bytes_length.
  apply app_eq_len in Q; [|exact Lk]. destruct Q as [Q1 Q2]. cbn [app] in Q2.
  injection Q2 as Q2 _. apply pubkey_eq in Q1. split; [exact Q1|].
  apply (f_equal byte_to_Z) in Q2. rewrite !Z_to_byte_to_Z in Q2. unfold is_u8 in *.
  rewrite !Z.mod_small in Q2 by lia. exact Q2.
Qed.

Theorem roles_distinct C sk vk u i k :
  client_state C sk -> client_vault C sk vk -> client_record C u i k ->
  (k <> sk /\ k <> vk /\ sk <> vk) \/ collision C (eq u).
Proof.
  intros H1 H2 H3. apply client_state_is in H1. apply client_vault_is in H2. apply client_record_is in H3.
  destruct H1 as (b1 & H1), H2 as (b2 & H2), H3 as (b3 & H3).
  pose proof H1 as Hst. apply find_create, create_derive in H1, H2, H3.
  assert (D1 : k = sk -> collision C (eq u)).
  { intros Q. rewrite H3, H1 in Q. eapply derive_diff; [now apply input_record|apply input_state| |exact Q].
    unfold pending_seeds, state_seeds. cbn [concat]. rewrite !app_length, key_bytes_length. cbn. lia. }
  assert (D2 : k = vk -> collision C (eq u)).
  { intros Q. rewrite H3, H2 in Q. eapply derive_diff; [now apply input_record|eapply input_vault, Hst| |exact Q].
    unfold pending_seeds, vault_seeds. cbn [concat]. rewrite !app_length, !key_bytes_length. cbn. lia. }
  assert (D3 : sk = vk -> collision C (eq u)).
  { intros Q. rewrite H1, H2 in Q. eapply derive_diff; [apply input_state|eapply input_vault, Hst| |exact Q].
    unfold state_seeds, vault_seeds. cbn [concat]. rewrite !app_length, !key_bytes_length. cbn. lia. }
  destruct (key_eqb k sk) eqn:E1; [apply key_eqb_true in E1; auto|apply key_eqb_false in E1].
  destruct (key_eqb k vk) eqn:E2; [apply key_eqb_true in E2; auto|apply key_eqb_false in E2].
  destruct (key_eqb sk vk) eqn:E3; [apply key_eqb_true in E3; auto|apply key_eqb_false in E3]. auto.
Qed.

(** ** The JS client reduces indices modulo 256 without complaint *)
Theorem js_index_wraps C un z : js_find_pending C un (JInt (z + 256)) = js_find_pending C un (JInt z).
Proof.
  unfold js_find_pending, js_uint8, js_trunc. replace (Z_to_byte (z + 256)) with (Z_to_byte z); [reflexivity|].
  unfold Z_to_byte. replace ((z + 256) mod 256) with (z mod 256); [reflexivity|].
  replace (z + 256) with (z + 1 * 256) by lia. now rewrite Z.mod_add.
Qed.
Theorem js_index_nan C un : js_find_pending C un JNaN = js_find_pending C un (JInt 0).
Proof. reflexivity. Qed.
