(** The scripts in [ts-scripts] as whole transactions, with what they print: C61, C62.
    Only statements, one-line proofs, examples and [Print Assumptions]. *)
From Coq Require Import String.
From Verif Require Import Spec ClientSpec GuardSpec ToolSpec BytesFacts LedgerFacts HistoryFacts LifeFacts PoolHistory AddressFacts
  ScriptRun ScriptMore Demo DemoMore DemoStory DemoClient DemoScripts ScriptRefuted.
Import List ListNotations.
Open Scope list_scope.
Open Scope Z_scope.

(** ** C61 *)
(** What the stake script prints: the ORCA staked is right; the "xORCA received" is the
    staker's whole balance afterwards ... *)
Theorem C61_stake_says : forall C E l st a ops l' evs s r,
  stake_script C E l st a = Some ops -> steps_ok C l ops -> attempt_all C l ops = Ok (l', evs) ->
  stake_script_report C l l' st = Some (s, r) ->
  exists sx, is_ata C st xorca_mint_id sx /\ s = a /\ supply l < supply l' /\
    balance l' sx = balance l sx + (supply l' - supply l) /\ r = balance l' sx.
Proof. exact stake_script_says. Qed.

(** ... not what was received. *)
Theorem C61_stake_received_refuted :
  ~ (forall C E l st a ops l' evs s r,
       stake_script C E l st a = Some ops -> steps_ok C l ops -> attempt_all C l ops = Ok (l', evs) ->
       stake_script_report C l l' st = Some (s, r) -> r = supply l' - supply l).
Proof. exact stake_line_refuted. Qed.

Example C61_stake_says_ex :
  stake_script demo_crypto (demo_env 1150) (shop 3) alice 1000 = Some (nth 3 shop_txs []) /\
  steps_ok demo_crypto (shop 3) (nth 3 shop_txs []) /\
  (exists evs, attempt_all demo_crypto (shop 3) (nth 3 shop_txs []) = Ok (shop 4, evs)) /\
  stake_script_report demo_crypto (shop 3) (shop 4) alice = Some (1000, 5001000) /\
  supply (shop 3) = 5000000 /\ supply (shop 4) = 5001000.
Proof.
  split; [shop_asks 3%nat 0%nat|]. split; [apply shop_steps|]. split; [exact (shop_runs 3 _ _ _ _ _ eq_refl)|].
  split; [shop_prints 3%nat|]. split; [shop_see 3%nat|shop_see 4%nat].
Qed.

(** The stake script goes through, with the xORCA account created if missing ... *)
Theorem C61_stake_works : forall C E l sk vk st so sx a ops,
  ordinary_state_address C -> reaches C l -> is_state l sk -> client_vault C sk vk ->
  stake_script C E l st a = Some ops -> steps_ok C l ops ->
  wallet l st -> is_ata C st orca_mint_id so -> active_account l so orca_mint_id st -> ordinary l so ->
  no_self_delegate l so st -> is_ata C st xorca_mint_id sx -> can_open E l st sx xorca_mint_id st ->
  ta_state (a_data (l vk)) = 1 ->
  0 < a -> (supply l <> 0 -> free_orca l sk vk + 100 <= a * (supply l + 100)) -> balance l vk + a < 2 ^ 63 ->
  exists l' evs, attempt_all C l ops = Ok (l', evs).
Proof. exact stake_script_live. Qed.

Example C61_stake_works_ex :
  reaches demo_crypto (shop 5) /\ is_state (shop 5) demo_state /\ client_vault demo_crypto demo_state demo_vault /\
  stake_script demo_crypto (demo_env 1300) (shop 5) bob 9000000 = Some (nth 5 shop_txs []) /\
  length (nth 5 shop_txs []) = 2%nat /\ steps_ok demo_crypto (shop 5) (nth 5 shop_txs []) /\
  wallet (shop 5) bob /\ is_ata demo_crypto bob orca_mint_id bob_orca /\ active_account (shop 5) bob_orca orca_mint_id bob /\
  ordinary (shop 5) bob_orca /\ no_self_delegate (shop 5) bob_orca bob /\
  is_ata demo_crypto bob xorca_mint_id bob_xorca /\
  can_open (demo_env 1300) (shop 5) bob bob_xorca xorca_mint_id bob /\
  ta_state (a_data (shop 5 demo_vault)) = 1 /\
  free_orca (shop 5) demo_state demo_vault + 100 <= 9000000 * (supply (shop 5) + 100) /\
  balance (shop 5) demo_vault + 9000000 < 2 ^ 63.
Proof.
  split; [apply shop_reaches|]. split; [shop_see 5%nat|]. split; [exact demo_client_vault|]. split; [shop_asks 5%nat 0%nat|].
  split; [reflexivity|]. split; [apply shop_steps|]. split; [shop_has 5%nat|]. split; [exact bob_orca_found|].
  do 3 (split; [shop_has 5%nat|]). split; [exact bob_xorca_found|].
  split; [right; do 2 (split; [shop_has 5%nat; reflexivity|]); split; [shop_has 5%nat|]; shop_has 5%nat; vm_compute; split; discriminate|].
  split; [shop_has 5%nat|]. split; shop_see 5%nat; lia.
Qed.

(** ... but not if someone has sent lamports to the missing account's address. *)
Theorem C61_stake_dusted : forall C E l st a sx ops,
  stake_script C E l st a = Some ops -> steps_ok C l ops -> is_ata C st xorca_mint_id sx ->
  wallet l sx -> 0 < a_lamports (l sx) -> exists e, attempt_all C l ops = Err e.
Proof. exact stake_script_dusted. Qed.

Example C61_stake_dusted_ex :
  stake_script demo_crypto (demo_env 2300) (shop 10) admin 4000 = Some (admin_stake demo_env) /\
  steps_ok demo_crypto (shop 10) (admin_stake demo_env) /\
  is_ata demo_crypto admin xorca_mint_id admin_xorca /\ wallet (shop 10) admin_xorca /\
  a_lamports (shop 10 admin_xorca) = 1.
Proof.
  split; [shop_asks 10%nat 1%nat|]. split; [unfold admin_stake, alice_early, bob_late; shop_also|].
  split; [exact admin_xorca_found|]. split; shop_has 10%nat; reflexivity.
Qed.

(** What the unstake script prints: the xORCA unstaked is right; the "ORCA received" is the
    unstaker's whole balance, which has not changed ... *)
Theorem C61_unstake_says : forall C E l un x j ops l' evs u r,
  unstake_script C E l un x j = Some ops -> steps_ok C l ops -> attempt_all C l ops = Ok (l', evs) ->
  unstake_script_report C l l' un = Some (u, r) ->
  exists ux uo, is_ata C un xorca_mint_id ux /\ is_ata C un orca_mint_id uo /\ u = x /\
    balance l' ux = balance l ux - x /\
    (uo <> ux -> uo <> xorca_mint_id -> r = shown_balance l uo /\ shown_balance l' uo = shown_balance l uo).
Proof. exact unstake_script_says. Qed.

(** ... and nothing was received. *)
Theorem C61_unstake_received_refuted :
  ~ (forall C E l un x j ops l' evs u r uo,
       unstake_script C E l un x j = Some ops -> steps_ok C l ops -> attempt_all C l ops = Ok (l', evs) ->
       unstake_script_report C l l' un = Some (u, r) -> is_ata C un orca_mint_id uo ->
       r = balance l' uo - balance l uo).
Proof. exact unstake_line_refuted. Qed.

Example C61_unstake_says_ex :
  unstake_script demo_crypto (demo_env 2000) (shop 6) alice 1000000 (JInt 0) = Some (nth 6 shop_txs []) /\
  steps_ok demo_crypto (shop 6) (nth 6 shop_txs []) /\
  (exists evs, attempt_all demo_crypto (shop 6) (nth 6 shop_txs []) = Ok (shop 7, evs)) /\
  unstake_script_report demo_crypto (shop 6) (shop 7) alice = Some (1000000, 14999000) /\
  balance (shop 6) alice_orca = 14999000 /\ balance (shop 7) alice_orca = 14999000 /\
  balance (shop 6) alice_xorca = 5001000 /\ balance (shop 7) alice_xorca = 4001000 /\
  alice_orca <> alice_xorca /\ alice_orca <> xorca_mint_id.
Proof.
  split; [shop_asks 6%nat 0%nat|]. split; [apply shop_steps|]. split; [exact (shop_runs 6 _ _ _ _ _ eq_refl)|].
  split; [shop_prints 6%nat|]. split; [shop_see 6%nat|]. split; [shop_see 7%nat|]. split; [shop_see 6%nat|]. split; [shop_see 7%nat|].
  split; intros H; apply (f_equal key_bytes) in H; vm_compute in H; discriminate H.
Qed.

(** The unstake script goes through. *)
Theorem C61_unstake_works : forall C E l sk vk un x j k ux uo ops,
  ordinary_state_address C -> reaches C l -> is_state l sk -> client_vault C sk vk ->
  unstake_script C E l un x j = Some ops -> steps_ok C l ops ->
  client_record C un (js_trunc j) k -> ~ is_record l k ->
  is_ata C un xorca_mint_id ux -> active_account l ux xorca_mint_id un -> no_self_delegate l ux un -> 0 < x ->
  is_ata C un orca_mint_id uo -> can_open E l un uo orca_mint_id un -> uo <> k ->
  wallet l un -> Z.max (rent_min E 165) 1 + rent_min E 1024 <= a_lamports (l un) + a_lamports (l k) ->
  is_i64 (now E + cooldown l sk) -> balance l vk < 2 ^ 63 ->
  (exists l' evs, attempt_all C l ops = Ok (l', evs)) \/ collision C (eq un).
Proof. exact unstake_script_live. Qed.

Example C61_unstake_works_ex :
  reaches demo_crypto (shop 6) /\ is_state (shop 6) demo_state /\ client_vault demo_crypto demo_state demo_vault /\
  unstake_script demo_crypto (demo_env 2000) (shop 6) alice 1000000 (JInt 0) = Some (nth 6 shop_txs []) /\
  steps_ok demo_crypto (shop 6) (nth 6 shop_txs []) /\
  client_record demo_crypto alice (js_trunc (JInt 0)) alice_record /\ ~ is_record (shop 6) alice_record /\
  is_ata demo_crypto alice xorca_mint_id alice_xorca /\ active_account (shop 6) alice_xorca xorca_mint_id alice /\
  no_self_delegate (shop 6) alice_xorca alice /\ is_ata demo_crypto alice orca_mint_id alice_orca /\
  can_open (demo_env 2000) (shop 6) alice alice_orca orca_mint_id alice /\ alice_orca <> alice_record /\
  wallet (shop 6) alice /\
  Z.max (rent_min (demo_env 2000) 165) 1 + rent_min (demo_env 2000) 1024 <= a_lamports (shop 6 alice) + a_lamports (shop 6 alice_record) /\
  is_i64 (now (demo_env 2000) + cooldown (shop 6) demo_state) /\ balance (shop 6) demo_vault < 2 ^ 63.
Proof.
  split; [apply shop_reaches|]. split; [shop_see 6%nat|]. split; [exact demo_client_vault|]. split; [shop_asks 6%nat 0%nat|].
  split; [apply shop_steps|]. split; [apply client_record_is; eexists; exact alice_found|]. split; [shop_see 6%nat|].
  split; [exact alice_xorca_found|]. do 2 (split; [shop_has 6%nat|]). split; [exact alice_orca_found|].
  split; [left; shop_has 6%nat|].
  split; [intros H; apply (f_equal key_bytes) in H; vm_compute in H; discriminate H|].
  split; [shop_has 6%nat|]. split; [shop_see 6%nat; vm_compute; discriminate|]. split; shop_see 6%nat; vm_compute; repeat split; discriminate.
Qed.

(** A withdraw script that goes through pays the recorded amount into the owner's account, and
    the seconds it prints were not positive ... *)
Theorem C61_withdraw_pays : forall C E l un j ops l' evs,
  withdraw_script C E l un j = Some ops -> steps_ok C l ops -> attempt_all C l ops = Ok (l', evs) ->
  exists k uo, client_record C un (js_trunc j) k /\ is_ata C un orca_mint_id uo /\
    is_record l k /\ ~ is_record l' k /\ balance l' uo = balance l uo + rec_amount l k /\
    rec_time l k <= now E /\
    withdraw_script_seconds C l (now E) un j = Some (rec_time l k - now E).
Proof. exact withdraw_script_pays. Qed.

Example C61_withdraw_pays_ex :
  withdraw_script demo_crypto (demo_env 2100) (shop 7) alice (JInt 0) = Some (nth 7 shop_txs []) /\
  steps_ok demo_crypto (shop 7) (nth 7 shop_txs []) /\
  (exists evs, attempt_all demo_crypto (shop 7) (nth 7 shop_txs []) = Ok (shop 8, evs)) /\
  rec_amount (shop 7) alice_record = balance (shop 8) alice_orca - balance (shop 7) alice_orca /\
  rec_amount (shop 7) alice_record = 1199956 /\ rec_time (shop 7) alice_record = 2100.
Proof.
  split; [shop_asks 7%nat 0%nat|]. split; [apply shop_steps|]. split; [exact (shop_runs 7 _ _ _ _ _ eq_refl)|].
  assert (A : balance (shop 8) alice_orca = 16198956) by shop_see 8%nat. rewrite A. split; [|split]; shop_see 7%nat.
Qed.

(** ... and while they are positive it fails and changes nothing. *)
Theorem C61_withdraw_early : forall C E l un j ops s,
  withdraw_script C E l un j = Some ops -> steps_ok C l ops ->
  withdraw_script_seconds C l (now E) un j = Some s -> 0 < s ->
  (exists e, attempt_all C l ops = Err e) /\ transaction C l ops = (l, []).
Proof. exact withdraw_script_early. Qed.

Example C61_withdraw_early_ex :
  withdraw_script demo_crypto (demo_env 2050) (shop 7) alice (JInt 0) = Some (alice_early demo_env) /\
  steps_ok demo_crypto (shop 7) (alice_early demo_env) /\
  withdraw_script_seconds demo_crypto (shop 7) 2050 alice (JInt 0) = Some 50.
Proof.
  split; [shop_asks 7%nat 1%nat|]. split; [unfold admin_stake, alice_early, bob_late; shop_also|].
  apply one_line. exact (shop_printed 7 _ _ _ _ _ _ eq_refl).
Qed.

(** A matured record is paid, with the ORCA account created if missing ... *)
Theorem C61_withdraw_works : forall C E l sk vk un j k uo ops,
  ordinary_state_address C -> reaches C l -> is_state l sk -> client_vault C sk vk ->
  withdraw_script C E l un j = Some ops -> steps_ok C l ops ->
  is_record l k -> rec_owner l k = un -> rec_index l k = js_trunc j -> rec_time l k <= now E ->
  is_ata C un orca_mint_id uo -> can_open E l un uo orca_mint_id un -> ta_state (a_data (l vk)) = 1 ->
  balance l uo + rec_amount l k <= u64_max -> a_lamports (l un) + a_lamports (l k) <= u64_max ->
  exists l' evs, attempt_all C l ops = Ok (l', evs).
Proof. exact withdraw_script_live. Qed.

Example C61_withdraw_works_ex :
  reaches demo_crypto (shop 7) /\ is_state (shop 7) demo_state /\ client_vault demo_crypto demo_state demo_vault /\
  withdraw_script demo_crypto (demo_env 2100) (shop 7) alice (JInt 0) = Some (nth 7 shop_txs []) /\
  steps_ok demo_crypto (shop 7) (nth 7 shop_txs []) /\
  is_record (shop 7) alice_record /\ rec_owner (shop 7) alice_record = alice /\
  rec_index (shop 7) alice_record = js_trunc (JInt 0) /\ rec_time (shop 7) alice_record <= now (demo_env 2100) /\
  is_ata demo_crypto alice orca_mint_id alice_orca /\
  can_open (demo_env 2100) (shop 7) alice alice_orca orca_mint_id alice /\
  ta_state (a_data (shop 7 demo_vault)) = 1 /\
  balance (shop 7) alice_orca + rec_amount (shop 7) alice_record <= u64_max /\
  a_lamports (shop 7 alice) + a_lamports (shop 7 alice_record) <= u64_max.
Proof.
  split; [apply shop_reaches|]. split; [shop_see 7%nat|]. split; [exact demo_client_vault|]. split; [shop_asks 7%nat 0%nat|].
  split; [apply shop_steps|]. do 3 (split; [shop_see 7%nat|]). split; [shop_see 7%nat; vm_compute; discriminate|].
  split; [exact alice_orca_found|]. split; [left; shop_has 7%nat|]. split; [shop_has 7%nat|].
  split; shop_see 7%nat; vm_compute; discriminate.
Qed.

(** ... but not if someone has sent lamports to the missing account's address. *)
Theorem C61_withdraw_dusted : forall C E l un j uo ops,
  withdraw_script C E l un j = Some ops -> steps_ok C l ops -> is_ata C un orca_mint_id uo ->
  wallet l uo -> 0 < a_lamports (l uo) -> exists e, attempt_all C l ops = Err e.
Proof. exact withdraw_script_dusted. Qed.

Example C61_withdraw_dusted_ex :
  withdraw_script demo_crypto (demo_env 2300) (shop 10) bob (JInt 7) = Some (bob_late demo_env) /\
  steps_ok demo_crypto (shop 10) (bob_late demo_env) /\
  is_record (shop 10) bob_record /\ rec_time (shop 10) bob_record = 2300 /\
  is_ata demo_crypto bob orca_mint_id bob_orca /\ wallet (shop 10) bob_orca /\ a_lamports (shop 10 bob_orca) = 1.
Proof.
  split; [shop_asks 10%nat 0%nat|]. split; [unfold admin_stake, alice_early, bob_late; shop_also|].
  split; [shop_see 10%nat|]. split; [shop_see 10%nat|]. split; [exact bob_orca_found|]. split; shop_has 10%nat; reflexivity.
Qed.

(** ** C62 *)
(** The donation script moves the amount to the vault and adds it to the ORCA that backs xORCA;
    the vault's gain is printed twice as large ... *)
Theorem C62_deposit_does : forall C E l sk vk sender j ops l' evs,
  ordinary_state_address C -> reaches C l -> is_state l sk -> client_vault C sk vk ->
  deposit_script C E l sender j = Some ops -> steps_ok C l ops -> attempt_all C l ops = Ok (l', evs) ->
  exists n so, j = JInt n /\ 0 <= n /\ is_ata C sender orca_mint_id so /\
    balance l' vk = balance l vk + n /\ balance l' so = balance l so - n /\
    escrow l' sk = escrow l sk /\ supply l' = supply l /\ free_orca l' sk vk = free_orca l sk vk + n /\
    evs = [] /\ deposit_script_report C l l' j = Some (n, 2 * n).
Proof. exact deposit_script_does. Qed.

(** ... as it is. *)
Theorem C62_deposit_received_refuted :
  ~ (forall C E l sender j ops l' evs s r sk vk,
       client_state C sk -> client_vault C sk vk ->
       deposit_script C E l sender j = Some ops -> steps_ok C l ops -> attempt_all C l ops = Ok (l', evs) ->
       deposit_script_report C l l' j = Some (s, r) -> r = balance l' vk - balance l vk).
Proof. exact deposit_line_refuted. Qed.

Example C62_deposit_does_ex :
  reaches demo_crypto (shop 4) /\ is_state (shop 4) demo_state /\ client_vault demo_crypto demo_state demo_vault /\
  deposit_script demo_crypto (demo_env 1200) (shop 4) bob (JInt 1000000) = Some (nth 4 shop_txs []) /\
  steps_ok demo_crypto (shop 4) (nth 4 shop_txs []) /\
  (exists evs, attempt_all demo_crypto (shop 4) (nth 4 shop_txs []) = Ok (shop 5, evs)) /\
  balance (shop 4) demo_vault = 5001000 /\ balance (shop 5) demo_vault = 6001000.
Proof.
  split; [apply shop_reaches|]. split; [shop_see 4%nat|]. split; [exact demo_client_vault|]. split; [shop_asks 4%nat 0%nat|].
  split; [apply shop_steps|]. split; [exact (shop_runs 4 _ _ _ _ _ eq_refl)|]. split; [shop_see 4%nat|shop_see 5%nat].
Qed.

Theorem C62_deposit_works : forall C E l sk vk sender so n ops,
  ordinary_state_address C -> reaches C l -> is_state l sk -> client_vault C sk vk ->
  deposit_script C E l sender (JInt n) = Some ops -> steps_ok C l ops ->
  a_owner (l sender) <> token_id ->
  is_ata C sender orca_mint_id so -> active_account l so orca_mint_id sender -> ordinary l so ->
  no_self_delegate l so sender -> ta_state (a_data (l vk)) = 1 -> balance l vk + n <= u64_max ->
  exists l' evs, attempt_all C l ops = Ok (l', evs).
Proof. exact deposit_script_live. Qed.

Example C62_deposit_works_ex :
  a_owner (shop 4 bob) <> token_id /\ is_ata demo_crypto bob orca_mint_id bob_orca /\
  active_account (shop 4) bob_orca orca_mint_id bob /\ ordinary (shop 4) bob_orca /\
  no_self_delegate (shop 4) bob_orca bob /\ ta_state (a_data (shop 4 demo_vault)) = 1 /\
  balance (shop 4) demo_vault + 1000000 <= u64_max.
Proof.
  assert (W : wallet (shop 4) bob) by shop_has 4%nat.
  split; [destruct W as [W _]; rewrite W; vm_compute; discriminate|]. split; [exact bob_orca_found|].
  do 3 (split; [shop_has 4%nat|]). split; [shop_has 4%nat|]. shop_see 4%nat; vm_compute; discriminate.
Qed.

(** A donation never lowers what xORCA can be redeemed for. *)
Theorem C62_deposit_worth : forall C E l sk vk sender j ops l' evs x,
  ordinary_state_address C -> reaches C l -> is_state l sk -> client_vault C sk vk ->
  deposit_script C E l sender j = Some ops -> steps_ok C l ops -> attempt_all C l ops = Ok (l', evs) ->
  0 <= x -> worth l sk vk x <= worth l' sk vk x.
Proof. exact deposit_script_worth. Qed.

Example C62_deposit_worth_ex :
  worth (shop 4) demo_state demo_vault 1000000 = 1000000 /\ worth (shop 5) demo_state demo_vault 1000000 = 1199956.
Proof. unfold worth. split; [shop_see 4%nat|shop_see 5%nat]; vm_compute; reflexivity. Qed.

(** The transfer script moves the amount between the two associated accounts, creating the
    recipient's; its lines are right unless the two are one account. *)
Theorem C62_transfer_does : forall C E l sender recipient n ops l' evs,
  transfer_script C E l sender recipient n = Some ops -> steps_ok C l ops -> attempt_all C l ops = Ok (l', evs) ->
  exists from to, is_ata C sender orca_mint_id from /\ is_ata C recipient orca_mint_id to /\ is_u64 n /\ evs = [] /\
    (from <> to -> n <= balance l from /\ balance l' from = balance l from - n /\ balance l' to = balance l to + n) /\
    (from = to -> l' = l) /\
    forall t r ok, transfer_script_report C l l' sender recipient n = Some (t, r, ok) -> ordinary l from ->
      (from <> to -> t = n /\ r = n /\ ok = true) /\ (from = to -> t = 0 /\ r = 0 /\ ok = (n =? 0)).
Proof. exact transfer_script_does. Qed.

Example C62_transfer_does_ex :
  transfer_script demo_crypto (demo_env 2150) (shop 8) alice admin 4000 = Some (nth 8 shop_txs []) /\
  length (nth 8 shop_txs []) = 2%nat /\ steps_ok demo_crypto (shop 8) (nth 8 shop_txs []) /\
  (exists evs, attempt_all demo_crypto (shop 8) (nth 8 shop_txs []) = Ok (shop 9, evs)) /\
  is_ata demo_crypto alice orca_mint_id alice_orca /\ is_ata demo_crypto admin orca_mint_id admin_orca /\
  alice_orca <> admin_orca /\ ordinary (shop 8) alice_orca /\
  transfer_script_report demo_crypto (shop 8) (shop 9) alice admin 4000 = Some (4000, 4000, true) /\
  transfer_script demo_crypto (demo_env 2150) (shop 8) alice alice 4000 = Some (alice_to_alice demo_env).
Proof.
  split; [shop_asks 8%nat 0%nat|]. split; [reflexivity|]. split; [apply shop_steps|]. split; [exact (shop_runs 8 _ _ _ _ _ eq_refl)|].
  split; [exact alice_orca_found|]. split; [exact admin_orca_found|].
  split; [intros H; apply (f_equal key_bytes) in H; vm_compute in H; discriminate H|]. split; [shop_has 8%nat|].
  split; [|shop_asks 8%nat 1%nat]. apply (triple_line _ _ _ true). exact (shop_printed 8 _ _ _ _ _ _ eq_refl).
Qed.

Theorem C62_transfer_works : forall C E l sender recipient n ops from to,
  transfer_script C E l sender recipient n = Some ops -> steps_ok C l ops ->
  ordinary_state_address C -> reaches C l ->
  is_ata C sender orca_mint_id from -> is_ata C recipient orca_mint_id to ->
  active_account l from orca_mint_id sender -> ordinary l from -> no_self_delegate l from sender ->
  a_owner (l sender) <> token_id ->
  can_open E l sender to orca_mint_id recipient -> balance l to + n <= u64_max ->
  exists l' evs, attempt_all C l ops = Ok (l', evs).
Proof. exact transfer_script_live. Qed.

Example C62_transfer_works_ex :
  reaches demo_crypto (shop 8) /\
  active_account (shop 8) alice_orca orca_mint_id alice /\ ordinary (shop 8) alice_orca /\
  no_self_delegate (shop 8) alice_orca alice /\ a_owner (shop 8 alice) <> token_id /\
  can_open (demo_env 2150) (shop 8) alice admin_orca orca_mint_id admin /\ balance (shop 8) admin_orca + 4000 <= u64_max.
Proof.
  split; [apply shop_reaches|]. do 3 (split; [shop_has 8%nat|]).
  assert (W : wallet (shop 8) alice) by shop_has 8%nat. assert (W' : wallet (shop 8) admin_orca) by shop_has 8%nat.
  split; [destruct W as [W _]; rewrite W; vm_compute; discriminate|].
  split; [right; split; [exact W'|]; split; [shop_has 8%nat; reflexivity|]; split; [exact W|]; shop_has 8%nat; vm_compute; split; discriminate|].
  rewrite (empty_balance _ _ (proj2 W')). vm_compute. discriminate.
Qed.

(** The mint authority script hands the right to mint xORCA from its signer to the State's
    address, changes nothing else, and says so ... *)
Theorem C62_authority_does : forall C E l current sk ops l' evs,
  client_state C sk -> authority_script C E current = Some ops -> attempt_all C l ops = Ok (l', evs) ->
  evs = [] /\ a_owner (l xorca_mint_id) = token_id /\ mint_unpack (a_data (l xorca_mint_id)) = Ok tt /\
  mint_auth_flag (a_data (l xorca_mint_id)) = 1 /\ mint_auth (a_data (l xorca_mint_id)) = current /\
  mint_auth_flag (a_data (l' xorca_mint_id)) = 1 /\ mint_auth (a_data (l' xorca_mint_id)) = sk /\
  same_bytes_except mint_authority_fields (a_data (l xorca_mint_id)) (a_data (l' xorca_mint_id)) /\
  (forall k, a_owner (l' k) = a_owner (l k) /\ a_lamports (l' k) = a_lamports (l k) /\
     (k <> xorca_mint_id -> a_data (l' k) = a_data (l k))) /\
  (a_lamports (l xorca_mint_id) <> 0 -> authority_script_verdict C l' = Some true).
Proof. exact authority_script_does. Qed.

Example C62_authority_does_ex :
  client_state demo_crypto demo_state /\
  authority_script demo_crypto (demo_env 900) admin = Some (nth 0 shop_txs []) /\
  (exists evs, attempt_all demo_crypto (shop 0) (nth 0 shop_txs []) = Ok (shop 1, evs)) /\
  a_lamports (shop 0 xorca_mint_id) <> 0 /\ admin <> demo_state.
Proof.
  split; [exact demo_client_state|]. split; [shop_asks 0%nat 0%nat|]. split; [exact (shop_runs 0 _ _ _ _ _ eq_refl)|].
  rewrite shop_start. split; [vm_compute; discriminate|].
  intros H; apply (f_equal key_bytes) in H; vm_compute in H; discriminate H.
Qed.

(** ... is refused for any other signer ... *)
Theorem C62_authority_refused : forall C E l current ops,
  authority_script C E current = Some ops -> mint_auth (a_data (l xorca_mint_id)) <> current ->
  exists e, attempt_all C l ops = Err e.
Proof. exact authority_script_refused. Qed.

Example C62_authority_refused_ex :
  (exists ops, authority_script demo_crypto (demo_env 900) alice = Some ops) /\
  mint_auth (a_data (shop 0 xorca_mint_id)) <> alice.
Proof.
  split; [exact (authority_built (demo_env 900) alice)|]. rewrite shop_start.
  intros H; apply (f_equal key_bytes) in H; vm_compute in H; discriminate H.
Qed.

(** ... and can be run with effect only once. *)
Theorem C62_authority_once : forall C E l current sk ops,
  client_state C sk -> mint_auth (a_data (l xorca_mint_id)) = sk ->
  authority_script C E current = Some ops -> steps_ok C l ops -> exists e, attempt_all C l ops = Err e.
Proof. exact authority_script_once. Qed.

Example C62_authority_once_ex :
  mint_auth (a_data (shop 1 xorca_mint_id)) = demo_state /\
  authority_script demo_crypto (demo_env 900) admin = Some (nth 0 shop_txs []) /\
  steps_ok demo_crypto (shop 1) (nth 0 shop_txs []).
Proof. split; [exact shop_handed|]. split; [shop_asks 0%nat 0%nat|apply shop_steps]. Qed.

Theorem C62_authority_works : forall C E l current ops,
  authority_script C E current = Some ops ->
  a_owner (l xorca_mint_id) = token_id -> mint_unpack (a_data (l xorca_mint_id)) = Ok tt ->
  mint_auth_flag (a_data (l xorca_mint_id)) = 1 -> mint_auth (a_data (l xorca_mint_id)) = current ->
  a_owner (l current) <> token_id ->
  exists l', attempt_all C l ops = Ok (l', []).
Proof. exact authority_script_live. Qed.

Example C62_authority_works_ex :
  a_owner (shop 0 xorca_mint_id) = token_id /\ mint_unpack (a_data (shop 0 xorca_mint_id)) = Ok tt /\
  mint_auth_flag (a_data (shop 0 xorca_mint_id)) = 1 /\ mint_auth (a_data (shop 0 xorca_mint_id)) = admin /\
  a_owner (shop 0 admin) <> token_id.
Proof.
  rewrite shop_start. do 4 (split; [vm_compute; reflexivity|]). intros H. apply (f_equal key_bytes) in H. vm_compute in H. discriminate H.
Qed.

(** Deployment: the mint authority script and then the initialize script go through ... *)
Theorem C62_deploy_works : forall C E1 E2 l current auth c sk vk ops1 ops2,
  ordinary_state_address C -> deployer_has_key C -> reaches C l -> (forall k, ~ is_state l k) ->
  client_state C sk -> client_vault C sk vk -> sk <> vk ->
  mints_ready l current -> a_owner (l current) <> token_id ->
  authority_script C E1 current = Some ops1 ->
  initialize_script C E2 deployer_address auth (JInt c) = Some ops2 ->
  steps_ok C l ops1 -> (forall l1, attempt_all C l ops1 = Ok (l1, []) -> steps_ok C l1 ops2) ->
  0 <= c -> wallet l vk -> wallet l deployer_address ->
  rent_min E2 2048 + rent_min E2 165 <= a_lamports (l deployer_address) ->
  a_lamports (l sk) + a_lamports (l vk) + a_lamports (l deployer_address) <= u64_max ->
  exists l1 l2 evs, attempt_all C l ops1 = Ok (l1, []) /\ attempt_all C l1 ops2 = Ok (l2, evs) /\
    is_state l2 sk /\ cooldown l2 sk = c /\ authority l2 sk = auth /\ escrow l2 sk = 0 /\ balance l2 vk = 0.
Proof. exact deploy_works. Qed.

Example C62_deploy_works_ex :
  deployer_has_key demo_crypto /\ reaches demo_crypto (shop 0) /\ (forall k, ~ is_state (shop 0) k) /\
  client_state demo_crypto demo_state /\ client_vault demo_crypto demo_state demo_vault /\ demo_state <> demo_vault /\
  mints_ready (shop 0) admin /\ a_owner (shop 0 admin) <> token_id /\
  authority_script demo_crypto (demo_env 900) admin = Some (nth 0 shop_txs []) /\
  initialize_script demo_crypto (demo_env 1000) deployer_address admin (JInt 100) = Some (nth 1 shop_txs []) /\
  steps_ok demo_crypto (shop 0) (nth 0 shop_txs []) /\ (forall l1, steps_ok demo_crypto l1 (nth 1 shop_txs [])) /\
  wallet (shop 0) demo_vault /\ wallet (shop 0) deployer_address /\
  rent_min (demo_env 1000) 2048 + rent_min (demo_env 1000) 165 <= a_lamports (shop 0 deployer_address) /\
  a_lamports (shop 0 demo_state) + a_lamports (shop 0 demo_vault) + a_lamports (shop 0 deployer_address) <= u64_max.
Proof.
  split; [exact demo_deployer|]. split; [apply shop_reaches|]. split; [exact shop_no_state|]. split; [exact demo_client_state|].
  split; [exact demo_client_vault|].
  split; [intros H; apply (f_equal key_bytes) in H; vm_compute in H; discriminate H|].
  split; [rewrite shop_start; repeat split; vm_compute; reflexivity|].
  split; [rewrite shop_start; intros H; apply (f_equal key_bytes) in H; vm_compute in H; discriminate H|].
  split; [shop_asks 0%nat 0%nat|]. split; [shop_asks 1%nat 0%nat|]. split; [apply shop_steps|]. split; [intros; apply shop_steps|].
  rewrite shop_start. split; [split; vm_compute; reflexivity|]. split; [split; vm_compute; reflexivity|].
  split; vm_compute; discriminate.
Qed.

(** ... not in the other order ... *)
Theorem C62_deploy_early : forall C E l deployer auth j sk ops,
  client_state C sk -> initialize_script C E deployer auth j = Some ops -> steps_ok C l ops ->
  mint_auth (a_data (l xorca_mint_id)) <> sk -> exists e, attempt_all C l ops = Err e.
Proof. exact deploy_early. Qed.

Example C62_deploy_early_ex :
  client_state demo_crypto demo_state /\
  initialize_script demo_crypto (demo_env 1000) deployer_address admin (JInt 100) = Some (nth 1 shop_txs []) /\
  steps_ok demo_crypto (shop 0) (nth 1 shop_txs []) /\ mint_auth (a_data (shop 0 xorca_mint_id)) <> demo_state.
Proof.
  split; [exact demo_client_state|]. split; [shop_asks 1%nat 0%nat|]. split; [apply shop_steps|]. rewrite shop_start.
  intros H; apply (f_equal key_bytes) in H; vm_compute in H; discriminate H.
Qed.

(** ... and not twice. *)
Theorem C62_deploy_again : forall C E l deployer auth j sk ops,
  ordinary_state_address C -> reaches C l -> is_state l sk ->
  initialize_script C E deployer auth j = Some ops -> steps_ok C l ops -> exists e, attempt_all C l ops = Err e.
Proof. exact deploy_again. Qed.

Example C62_deploy_again_ex :
  reaches demo_crypto (shop 2) /\ is_state (shop 2) demo_state /\
  initialize_script demo_crypto (demo_env 1000) deployer_address admin (JInt 100) = Some (nth 1 shop_txs []) /\
  steps_ok demo_crypto (shop 2) (nth 1 shop_txs []).
Proof.
  split; [apply shop_reaches|]. split; [shop_see 2%nat|]. split; [shop_asks 1%nat 0%nat|apply shop_steps].
Qed.

Print Assumptions C61_stake_says.
Print Assumptions C61_stake_received_refuted.
Print Assumptions C61_stake_works.
Print Assumptions C61_stake_dusted.
Print Assumptions C61_unstake_says.
Print Assumptions C61_unstake_received_refuted.
Print Assumptions C61_unstake_works.
Print Assumptions C61_withdraw_pays.
Print Assumptions C61_withdraw_early.
Print Assumptions C61_withdraw_works.
Print Assumptions C61_withdraw_dusted.
Print Assumptions C62_deposit_does.
Print Assumptions C62_deposit_received_refuted.
Print Assumptions C62_deposit_works.
Print Assumptions C62_deposit_worth.
Print Assumptions C62_transfer_does.
Print Assumptions C62_transfer_works.
Print Assumptions C62_authority_does.
Print Assumptions C62_authority_refused.
Print Assumptions C62_authority_once.
Print Assumptions C62_authority_works.
Print Assumptions C62_deploy_works.
Print Assumptions C62_deploy_early.
Print Assumptions C62_deploy_again.
