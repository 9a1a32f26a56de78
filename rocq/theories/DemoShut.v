(** A state in which Alice has a due record and no ORCA account, for the Examples of C80. *)
From Verif Require Import LandSpec LandFacts RentCheckFacts BytesFacts LedgerFacts AddressFacts Client ClientSpec Scripts ToolSpec HistoryFacts Transaction TransactionFacts
  Demo DemoMore DemoClient DemoScripts DemoWire DemoExec DemoLand DemoLive.
Import List ListNotations.
Open Scope list_scope.
Open Scope Z_scope.

(** After stage 7 of the shop, Alice sends all her ORCA to Bob and closes the account. *)
Definition shut_ops : list op :=
  [OpToken (demo_env 2060) [alice] [] (TC_Transfer alice_orca bob_orca alice 14999000);
   OpToken (demo_env 2060) [alice] [] (TC_Close alice_orca alice alice)].
Definition shut : ledger := fst (transaction demo_crypto (shop 7) shut_ops).
Definition second_record : pubkey := Eval vm_compute in
  match find_pending_withdraw_address demo_crypto alice 1 with Some (k, _) => k | None => alice end.
Lemma second_found : client_record demo_crypto alice 1 second_record.
Proof.
  apply client_record_is.
  assert (H : option_map fst (find_pending_withdraw_address demo_crypto alice 1) = Some second_record)
    by (vm_cast_no_check (eq_refl (Some second_record))).
  destruct (find_pending_withdraw_address demo_crypto alice 1) as [[k b]|]; [|discriminate H].
  exists b. cbn in H. congruence.
Qed.
Definition shut_flags (l : ledger) : list bool :=
  [is_stateb l demo_state; is_recordb l alice_record; key_eqb (rec_owner l alice_record) alice; is_recordb l second_record;
   walletb l alice; walletb l alice_orca; usableb l alice_xorca xorca_mint_id alice; usableb l demo_vault orca_mint_id demo_state].
Definition shut_numbers (l : ledger) : list Z :=
  [rec_index l alice_record; rec_time l alice_record; rec_amount l alice_record; a_lamports (l alice); a_lamports (l alice_record);
   a_lamports (l alice_orca); a_lamports (l second_record); balance l demo_vault; supply l; escrow l demo_state; cooldown l demo_state;
   balance l alice_xorca].
Definition shut_scripts (E : Z -> env) (l : ledger) : list (option (list op)) :=
  [withdraw_script demo_crypto (E 2100) l alice (JInt 0); unstake_script demo_crypto (E 2100) l alice 1000000 (JInt 1)].
Definition open_alice (E : Z -> env) : op := OpAta (E 2100) [alice] alice alice_orca alice orca_mint_id.
Definition shut_withdraw (E : Z -> env) : list op :=
  [open_alice E; env_call E 2100 (withdraw_accs alice alice_orca alice_record) (Withdraw 0)].
Definition shut_unstake (E : Z -> env) : list op :=
  [open_alice E; env_call E 2100 (script_unstake_accs alice alice_xorca second_record) (Unstake 1000000 1)].
Definition shut_values : list bool * list Z := Eval vm_compute in (shut_flags shut, shut_numbers shut).
Definition shut_all (E : Z -> env) (l : ledger) := (shut_flags l, shut_numbers l, shut_scripts E l).
Lemma shut_is E : shut_all E shut = (shut_values, [Some (shut_withdraw E); Some (shut_unstake E)]).
Proof. vm_cast_no_check (eq_refl (shut_values, [Some (shut_withdraw E); Some (shut_unstake E)])). Qed.
Transparent shop.
Lemma shop_history n : exists txs evs, tx_history demo_crypto shop0 txs (shop n) evs.
Proof.
  induction n as [|n (txs & evs & IH)]; [exists [], []; constructor|].
  exists (txs ++ [nth n shop_txs []]), (evs ++ snd (transaction demo_crypto (shop n) (nth n shop_txs []))).
  cbn [shop]. constructor; [exact IH|apply shop_steps].
Qed.
Global Opaque shop.
Lemma shut_reaches : reaches demo_crypto shut.
Proof.
  assert (S : steps_ok demo_crypto (shop 7) shut_ops).
  { apply steps_any. intros l. unfold shut_ops. repeat (apply Forall_cons; [shop_op|]). apply Forall_nil. }
  assert (H : exists txs evs, tx_history demo_crypto shop0 txs (shop 7) evs) by exact (shop_history 7).
  destruct H as (txs & evs & H). eapply tx_reaches; [exact shop_genesis|]. apply tx_step; [exact H|exact S].
Qed.
Global Opaque shut.
Lemma two_same {A} (a b c d : A) : [a; b] = [c; d] -> a = c /\ b = d.
Proof. intros H. now inversion H. Qed.
Lemma shut_facts :
  (is_state shut demo_state /\ is_record shut alice_record /\ rec_owner shut alice_record = alice /\ ~ is_record shut second_record) /\
  (wallet shut alice /\ wallet shut alice_orca /\ usable shut alice_xorca xorca_mint_id alice /\ usable shut demo_vault orca_mint_id demo_state) /\
  (rec_index shut alice_record = 0 /\ rec_time shut alice_record = 2100 /\ rec_amount shut alice_record = 1199956 /\
   a_lamports (shut alice) = 9994021360 /\ a_lamports (shut alice_record) = 8017920 /\ a_lamports (shut alice_orca) = 0 /\
   a_lamports (shut second_record) = 0 /\ balance shut demo_vault = 15001000 /\ supply shut = 11501274 /\ escrow shut demo_state = 1199956 /\
   cooldown shut demo_state = 100 /\ balance shut alice_xorca = 4001000) /\
  withdraw_script demo_crypto (demo_env 2100) shut alice (JInt 0) = Some (shut_withdraw demo_env) /\
  unstake_script demo_crypto (demo_env 2100) shut alice 1000000 (JInt 1) = Some (shut_unstake demo_env).
Proof.
  pose proof (shut_is demo_env) as H. unfold shut_all in H.
  pose proof (f_equal (fun p => fst (fst p)) H) as F. pose proof (f_equal (fun p => snd (fst p)) H) as N.
  pose proof (f_equal snd H) as S. cbn [fst snd] in F, N, S.
  clear H.
  pose proof (fun i => f_equal (fun l => nth i l false) F) as G. pose proof (fun i => f_equal (fun l => nth i l 0) N) as M.
  clear F N.
  split.
  { split; [exact (stateb_is _ _ (G 0%nat))|]. split; [exact (proj1 (recordb_is _ _) (G 1%nat))|].
    split; [exact (proj1 (key_eqb_true _ _) (G 2%nat))|].
    intros K. apply recordb_is in K. pose proof (G 3%nat) as X. cbn [nth shut_flags shut_values fst] in X. rewrite K in X. discriminate X. }
  split.
  { split; [exact (walletb_ok _ _ (G 4%nat))|]. split; [exact (walletb_ok _ _ (G 5%nat))|].
    split; [exact (usableb_ok _ _ _ _ (G 6%nat))|exact (usableb_ok _ _ _ _ (G 7%nat))]. }
  split.
  { split; [exact (M 0%nat)|]. split; [exact (M 1%nat)|]. split; [exact (M 2%nat)|]. split; [exact (M 3%nat)|].
    split; [exact (M 4%nat)|]. split; [exact (M 5%nat)|]. split; [exact (M 6%nat)|]. split; [exact (M 7%nat)|].
    split; [exact (M 8%nat)|]. split; [exact (M 9%nat)|]. split; [exact (M 10%nat)|exact (M 11%nat)]. }
  unfold shut_scripts in S. apply two_same in S. destruct S as [S1 S2].
  split; [exact S1|exact S2].
Qed.
Definition shut_out : list built := Eval vm_compute in match instructions_of (shut_withdraw demo_env) with Some x => x | None => [] end.
Definition shut_in : list built := Eval vm_compute in match instructions_of (shut_unstake demo_env) with Some x => x | None => [] end.
Definition start_pool : built := Eval vm_compute in
  match instructions_of (nth 1 shop_txs []) with Some (b :: _) => b | _ => alice_stake end.
Lemma demo_pays_more t l k n : wallet l k -> 890880 + n <= a_lamports (l k) -> 0 <= n -> can_pay (demo_env t) l k n.
Proof.
  intros [A B] L N. split; [exact A|]. split; [exact B|]. split; [lia|]. split; [lia|].
  apply exempt_passes. rewrite paid_data, paid_same, B. cbn [a_lamports].
  change (rent_min (demo_env t) (zlen [])) with 890880. lia.
Qed.
