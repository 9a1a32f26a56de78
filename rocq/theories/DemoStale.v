(** The accounts of Demo.v, but the xORCA mint was created with a freeze
    authority, which is then revoked. *)
From Verif Require Import GuardSpec Transaction BytesFacts LedgerFacts HistoryFacts LifeFacts Pool PoolInit PoolHistory TransactionFacts Demo DemoMore DemoStory.
From Coq Require Import List.
Import ListNotations.

Definition iced_mint : list byte := Eval vm_compute in
  set_key 50 admin (set_u32 46 1 (demo_mint demo_state 0)).
Definition iced_accounts : list (pubkey * account) := Eval vm_compute in
  map (fun p => if key_eqb (fst p) xorca_mint_id then (xorca_mint_id, Account 1461600 token_id iced_mint) else p)
    demo_accounts.
Definition iced0 : ledger := ledger_of iced_accounts.
Definition revoke : op :=
  OpToken (demo_env 900) [admin] [] (TC_SetAuthority xorca_mint_id admin FreezeAccount None).
Definition iced1 : ledger := fst (run_op demo_crypto iced0 revoke).

Lemma iced_all (P : pubkey -> account -> Prop) :
  Forall (fun p => P (fst p) (snd p)) iced_accounts -> (forall k, P k empty_account) ->
  forall k, P k (iced0 k).
Proof.
  intros H0 H1 k. destruct (ledger_of_cases iced_accounts k) as [(a & H & E)|E]; unfold iced0; rewrite E; [|apply H1].
  rewrite Forall_forall in H0. exact (H0 _ H).
Qed.

Lemma iced_genesis : genesis demo_crypto iced0.
Proof.
  constructor; [ | | |vm_compute; reflexivity..| |].
  - intros k. apply (iced_all (fun _ a => 0 <= a_lamports a)); [|cbn; lia].
    repeat (apply Forall_cons; [vm_compute; discriminate|]). apply Forall_nil.
  - intros k. apply (iced_all (fun _ a => a_owner a = xorca_id -> all_zero (a_data a) = true)); [|reflexivity].
    repeat (apply Forall_cons; [intros H; exfalso; apply (f_equal key_bytes) in H; vm_compute in H; discriminate H|]).
    apply Forall_nil.
  - intros k Hk.
    destruct (ledger_of_cases iced_accounts k) as [(a & H & E)|E]; unfold iced0; rewrite E; [|auto].
    exfalso. apply (demo_not_pda k); [|exact Hk].
    change demo_keys with (map fst iced_accounts). now apply (in_map fst) in H.
  - intros k. apply (iced_all (fun _ a => a_owner a = token_id -> ta_unpack (a_data a) = Ok tt ->
      ta_mint (a_data a) = xorca_mint_id -> ta_native_flag (a_data a) = 0)); [|reflexivity].
    repeat (apply Forall_cons; [vm_compute; reflexivity|]). apply Forall_nil.
  - intros ks _. replace (total iced0 xorca_mint_id ks) with 0; [vm_compute; discriminate|].
    unfold total. induction ks as [|k ks IH]; [reflexivity|]. cbn [map sumZ fold_right].
    unfold sumZ in IH. rewrite <- IH.
    enough (holds iced0 xorca_mint_id k = 0) by lia. unfold holds.
    apply (iced_all (fun _ a => (if key_eqb (a_owner a) token_id && is_ok (ta_unpack (a_data a))
       && key_eqb (ta_mint (a_data a)) xorca_mint_id then ta_amount (a_data a) else 0) = 0)); [|reflexivity].
    repeat (apply Forall_cons; [vm_compute; reflexivity|]). apply Forall_nil.
Qed.

Lemma iced_reaches : reaches demo_crypto iced0.
Proof. exists iced0, [], []. split; [apply iced_genesis|constructor]. Qed.
Lemma revoke_ok l : op_ok demo_crypto l revoke.
Proof.
  cbn [op_ok revoke]. split; [apply demo_sysvars; unfold is_i64, i64_min, i64_max; lia|].
  split; [|reflexivity]. intros k K. cbn in K. destruct K as [<-|[]]. apply demo_not_pda. demo_in.
Qed.
Lemma revoked_reaches : reaches demo_crypto iced1.
Proof. eapply reaches_step; [apply iced_reaches|apply revoke_ok]. Qed.

Lemma iced_fresh k : ~ is_state iced0 k.
Proof.
  intros [H1 H2]. revert H1 H2.
  apply (iced_all (fun k a => a_owner a = xorca_id -> st_disc (a_data a) = 1 -> False)).
  - repeat (apply Forall_cons; [intros H _; apply (f_equal key_bytes) in H; vm_compute in H; discriminate H|]). apply Forall_nil.
  - intros k' H. apply (f_equal key_bytes) in H. vm_compute in H. discriminate H.
Qed.

(** After the revocation only the tag is cleared. *)
Definition stale_facts (l : ledger) : bool :=
  key_eqb (a_owner (l xorca_mint_id)) token_id && is_ok (mint_unpack (a_data (l xorca_mint_id))) &&
  (mint_auth_flag (a_data (l xorca_mint_id)) =? 1) && key_eqb (mint_auth (a_data (l xorca_mint_id))) demo_state &&
  (mint_freeze_flag (a_data (l xorca_mint_id)) =? 0) && key_eqb (mint_freeze (a_data (l xorca_mint_id))) admin &&
  (supply l =? 0) && (mint_decimals (a_data (l xorca_mint_id)) =? 6) &&
  (mint_decimals (a_data (l orca_mint_id)) =? 6) && walletb l deployer_address && walletb l demo_vault &&
  (a_lamports (l deployer_address) =? 10000000000) && (a_lamports (l demo_state) =? 0) &&
  (a_lamports (l demo_vault) =? 0) && (a_lamports (l xorca_mint_id) =? 1461600).
Lemma revoked_facts : stale_facts iced1 = true.
Proof. vm_cast_no_check (eq_refl true). Qed.

Lemma revoked_fresh k : ~ is_state iced1 k.
Proof.
  destruct (fresh_step demo_crypto iced0 revoke demo_ordinary (genesis_fresh _ _ iced_genesis) (revoke_ok _))
    as [[HF _]|(E & accs & data & c & sk & vk & Q & _)]; [|discriminate Q].
  intros [K1 K2]. eapply fresh_no_state; [exact HF|eassumption..].
Qed.

(** Initialize then fails with InvalidAccountData. *)
Lemma revoked_initialize :
  process_instruction demo_crypto (demo_env 1000) xorca_id (init_accs admin) iced1 (instruction_bytes (Initialize 100))
  = Err (custom InvalidAccountData).
Proof.
  assert (E : outcome_of (attempt demo_crypto iced1 (demo_call 1000 (init_accs admin) (Initialize 100)))
    = Err (custom InvalidAccountData)).
  { vm_cast_no_check (eq_refl (@Err err (list Z) (custom InvalidAccountData))). }
  apply probe_attempt_err in E. exact E.
Qed.

(** ** More facts about Demo.v *)
Lemma usable_holds l k mint owner : usable l k mint owner -> holds l mint k = balance l k.
Proof.
  intros (((H1 & H2 & H3 & H4) & H5) & _). unfold holds. rewrite H1, H2, H3, !key_eqb_refl. reflexivity.
Qed.

Lemma bob_keeps n : (n < 3)%nat ->
  500000 <= holds (after demo_crypto (demo 4) (firstn n (firstn 3 (skipn 4 demo_ops)))) xorca_mint_id bob_xorca.
Proof.
  intros H. assert (E : firstn n (firstn 3 (skipn 4 demo_ops)) = firstn n (skipn 4 demo_ops)).
  { rewrite firstn_firstn. f_equal. lia. }
  rewrite E, <- demo_split. destruct n as [|[|[|n]]]; [..|lia]; cbn [Nat.add].
  - rewrite (usable_holds _ _ _ _ (du_bx _ (demo_usable_at 4 _ eq_refl))). see 4%nat. lia.
  - rewrite (usable_holds _ _ _ _ (du_bx _ (demo_usable_at 5 _ eq_refl))). see 5%nat. lia.
  - rewrite (usable_holds _ _ _ _ (du_bx _ (demo_usable_at 6 _ eq_refl))). see 6%nat. lia.
Qed.

Lemma demo_holders : NoDup [alice_xorca; bob_xorca].
Proof.
  constructor.
  - intros [H|[]]. apply (f_equal key_bytes) in H. vm_compute in H. discriminate H.
  - constructor; [intros []|constructor].
Qed.

Lemma demo_worths :
  sumZ (map (fun k => worth (demo 9) demo_state demo_vault (holds (demo 9) xorca_mint_id k)) [alice_xorca; bob_xorca])
  = 7199985.
Proof.
  cbn [map sumZ fold_right].
  rewrite (usable_holds _ _ _ _ (du_ax _ (demo_usable_at 9 _ eq_refl))),
    (usable_holds _ _ _ _ (du_bx _ (demo_usable_at 9 _ eq_refl))).
  unfold worth. see 9%nat.
Qed.

Lemma demo_set_ok l c :
  op_ok demo_crypto l (demo_call 2001 (set_accs admin) (Set_ (UpdateCoolDownPeriod c))).
Proof.
  unfold demo_call, set_accs. cbn [op_ok].
  split; [apply demo_sysvars; unfold is_i64, i64_min, i64_max; lia|demo_honest].
Qed.
