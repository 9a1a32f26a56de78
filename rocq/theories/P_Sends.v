(** When the scripts in [ts-scripts] send their transaction: C61, C62.
    Only statements, one-line proofs, examples and [Print Assumptions]. *)
From Verif Require Import Spec SendSpec GuardSpec HistoryFacts LifeFacts PoolHistory BytesFacts LedgerFacts AddressFacts ScriptSends ScriptThrough Demo DemoMore DemoStory DemoClient DemoScripts.
Import List ListNotations.
Open Scope list_scope.
Open Scope Z_scope.

(** ** C61 *)
(** stake.ts sends exactly if the staker's ORCA account has the amount. *)
Theorem C61_stake_sends : forall C E l sk vk st so sx a,
  client_state C sk -> client_vault C sk vk -> is_ata C st orca_mint_id so -> is_ata C st xorca_mint_id sx ->
  (exists ops, stake_script C E l st a = Some ops) <-> on_curve C st = true /\ shows l so a.
Proof. exact stake_script_sends. Qed.

(** Alice can stake everything, and not one more. *)
Example C61_stake_sends_ex :
  (client_state demo_crypto demo_state /\ client_vault demo_crypto demo_state demo_vault /\
   is_ata demo_crypto alice orca_mint_id alice_orca /\ is_ata demo_crypto alice xorca_mint_id alice_xorca) /\
  shows (shop 3) alice_orca 15000000 /\ ~ shows (shop 3) alice_orca 15000001.
Proof.
  split; [split; [exact demo_client_state|split; [exact demo_client_vault|split; [exact alice_orca_found|exact alice_xorca_found]]]|].
  split; [|apply shows_bound; shop_see 3%nat; lia].
  apply (shows_other _ _ 1000); [|shop_see 3%nat; lia].
  apply (stake_script_sends demo_crypto (demo_env 1150) _ _ _ _ _ _ _ demo_client_state demo_client_vault alice_orca_found alice_xorca_found).
  eexists. shop_asks 3%nat 0%nat.
Qed.

(** unstake.ts sends exactly if the xORCA account has the amount and the index is a byte. *)
Theorem C61_unstake_sends : forall C E l sk vk un ux uo z k x,
  client_state C sk -> client_vault C sk vk -> is_ata C un orca_mint_id uo -> is_ata C un xorca_mint_id ux -> client_record C un z k ->
  (exists ops, unstake_script C E l un x (JInt z) = Some ops) <-> on_curve C un = true /\ shows l ux x /\ 0 <= z <= 255.
Proof. exact unstake_script_sends. Qed.

Example C61_unstake_sends_ex :
  (client_state demo_crypto demo_state /\ client_vault demo_crypto demo_state demo_vault /\
   is_ata demo_crypto alice orca_mint_id alice_orca /\ is_ata demo_crypto alice xorca_mint_id alice_xorca /\
   client_record demo_crypto alice 0 alice_record) /\
  shows (shop 6) alice_xorca 5001000 /\ ~ shows (shop 6) alice_xorca 5001001.
Proof.
  assert (K : client_record demo_crypto alice 0 alice_record) by (apply client_record_is; eexists; exact alice_found).
  split; [split; [exact demo_client_state|split; [exact demo_client_vault|split; [exact alice_orca_found|split; [exact alice_xorca_found|exact K]]]]|].
  split; [|apply shows_bound; shop_see 6%nat; lia].
  apply (shows_other _ _ 1000000); [|shop_see 6%nat; lia].
  apply (unstake_script_sends demo_crypto (demo_env 2000) _ _ _ _ _ _ _ _ _ demo_client_state demo_client_vault alice_orca_found alice_xorca_found K).
  eexists. shop_asks 6%nat 0%nat.
Qed.

(** withdraw.ts sends exactly if the record's account exists with room for a record. It does
    not look at the time or the owner. *)
Theorem C61_withdraw_sends : forall C E l sk vk un uo z k,
  client_state C sk -> client_vault C sk vk -> is_ata C un orca_mint_id uo -> client_record C un z k ->
  (exists ops, withdraw_script C E l un (JInt z) = Some ops) <->
  on_curve C un = true /\ a_lamports (l k) <> 0 /\ (56 <= length (a_data (l k)))%nat /\ 0 <= z <= 255.
Proof. exact withdraw_script_sends. Qed.

(** 50 seconds too early it sends. *)
Example C61_withdraw_sends_ex :
  (client_state demo_crypto demo_state /\ client_vault demo_crypto demo_state demo_vault /\
   is_ata demo_crypto alice orca_mint_id alice_orca /\ client_record demo_crypto alice 0 alice_record) /\
  (exists ops, withdraw_script demo_crypto (demo_env 2050) (shop 7) alice (JInt 0) = Some ops) /\
  rec_time (shop 7) alice_record = 2100.
Proof.
  assert (K : client_record demo_crypto alice 0 alice_record) by (apply client_record_is; eexists; exact alice_found).
  split; [split; [exact demo_client_state|split; [exact demo_client_vault|split; [exact alice_orca_found|exact K]]]|].
  split; [eexists; shop_asks 7%nat 1%nat|shop_see 7%nat].
Qed.

(** stake.ts sends and goes through under conditions on the ledger alone. *)
Theorem C61_stake_through : forall C E l sk vk st so sx a,
  ordinary_state_address C -> reaches C l -> is_state l sk -> client_vault C sk vk ->
  on_curve C st = true -> wallet l st -> is_ata C st orca_mint_id so -> active_account l so orca_mint_id st ->
  a_lamports (l so) <> 0 -> ordinary l so -> no_self_delegate l so st ->
  is_ata C st xorca_mint_id sx -> can_open E l st sx xorca_mint_id st -> ta_state (a_data (l vk)) = 1 ->
  0 < a <= balance l so -> (supply l <> 0 -> free_orca l sk vk + 100 <= a * (supply l + 100)) -> balance l vk + a < 2 ^ 63 ->
  exists ops, stake_script C E l st a = Some ops /\ (steps_ok C l ops -> exists l' evs, attempt_all C l ops = Ok (l', evs)).
Proof. exact stake_script_through. Qed.

(** Bob stakes, with a new xORCA account. *)
Example C61_stake_through_ex :
  reaches demo_crypto (shop 5) /\ is_state (shop 5) demo_state /\ client_vault demo_crypto demo_state demo_vault /\
  on_curve demo_crypto bob = true /\ wallet (shop 5) bob /\ is_ata demo_crypto bob orca_mint_id bob_orca /\
  active_account (shop 5) bob_orca orca_mint_id bob /\ a_lamports (shop 5 bob_orca) <> 0 /\ ordinary (shop 5) bob_orca /\
  no_self_delegate (shop 5) bob_orca bob /\ is_ata demo_crypto bob xorca_mint_id bob_xorca /\
  can_open (demo_env 1300) (shop 5) bob bob_xorca xorca_mint_id bob /\ ta_state (a_data (shop 5 demo_vault)) = 1 /\
  9000000 <= balance (shop 5) bob_orca /\
  free_orca (shop 5) demo_state demo_vault + 100 <= 9000000 * (supply (shop 5) + 100) /\
  balance (shop 5) demo_vault + 9000000 < 2 ^ 63.
Proof.
  assert (X : exists ops, stake_script demo_crypto (demo_env 1300) (shop 5) bob 9000000 = Some ops) by (eexists; shop_asks 5%nat 0%nat).
  apply (stake_script_sends demo_crypto (demo_env 1300) _ _ _ _ _ _ _ demo_client_state demo_client_vault bob_orca_found bob_xorca_found) in X.
  destruct X as (X1 & X2 & _).
  split; [apply shop_reaches|]. split; [shop_see 5%nat|]. split; [exact demo_client_vault|]. split; [exact X1|].
  split; [shop_has 5%nat|]. split; [exact bob_orca_found|]. split; [shop_has 5%nat|]. split; [exact X2|].
  do 2 (split; [shop_has 5%nat|]). split; [exact bob_xorca_found|].
  split; [right; do 2 (split; [shop_has 5%nat; reflexivity|]); split; [shop_has 5%nat|]; shop_has 5%nat; vm_compute; split; discriminate|].
  split; [shop_has 5%nat|]. repeat split; shop_see 5%nat; lia.
Qed.

(** unstake.ts, too. *)
Theorem C61_unstake_through : forall C E l sk vk un x i k ux uo,
  ordinary_state_address C -> reaches C l -> is_state l sk -> client_vault C sk vk ->
  on_curve C un = true -> wallet l un -> 0 <= i <= 255 -> client_record C un i k -> ~ is_record l k ->
  is_ata C un xorca_mint_id ux -> active_account l ux xorca_mint_id un -> a_lamports (l ux) <> 0 -> no_self_delegate l ux un ->
  0 < x <= balance l ux -> is_ata C un orca_mint_id uo -> can_open E l un uo orca_mint_id un -> uo <> k ->
  Z.max (rent_min E 165) 1 + rent_min E 1024 <= a_lamports (l un) + a_lamports (l k) ->
  is_i64 (now E + cooldown l sk) -> balance l vk < 2 ^ 63 ->
  exists ops, unstake_script C E l un x (JInt i) = Some ops /\
    (steps_ok C l ops -> (exists l' evs, attempt_all C l ops = Ok (l', evs)) \/ collision C (eq un)).
Proof. exact unstake_script_through. Qed.

Example C61_unstake_through_ex :
  reaches demo_crypto (shop 6) /\ is_state (shop 6) demo_state /\ client_vault demo_crypto demo_state demo_vault /\
  on_curve demo_crypto alice = true /\ wallet (shop 6) alice /\ client_record demo_crypto alice 0 alice_record /\
  ~ is_record (shop 6) alice_record /\ is_ata demo_crypto alice xorca_mint_id alice_xorca /\
  active_account (shop 6) alice_xorca xorca_mint_id alice /\ a_lamports (shop 6 alice_xorca) <> 0 /\
  no_self_delegate (shop 6) alice_xorca alice /\ 1000000 <= balance (shop 6) alice_xorca /\
  is_ata demo_crypto alice orca_mint_id alice_orca /\
  can_open (demo_env 2000) (shop 6) alice alice_orca orca_mint_id alice /\ alice_orca <> alice_record /\
  Z.max (rent_min (demo_env 2000) 165) 1 + rent_min (demo_env 2000) 1024 <= a_lamports (shop 6 alice) + a_lamports (shop 6 alice_record) /\
  is_i64 (now (demo_env 2000) + cooldown (shop 6) demo_state) /\ balance (shop 6) demo_vault < 2 ^ 63.
Proof.
  assert (K : client_record demo_crypto alice 0 alice_record) by (apply client_record_is; eexists; exact alice_found).
  assert (X : exists ops, unstake_script demo_crypto (demo_env 2000) (shop 6) alice 1000000 (JInt 0) = Some ops) by (eexists; shop_asks 6%nat 0%nat).
  apply (unstake_script_sends demo_crypto (demo_env 2000) _ _ _ _ _ _ _ _ _ demo_client_state demo_client_vault alice_orca_found alice_xorca_found K) in X.
  destruct X as (X1 & (X2 & _) & _).
  split; [apply shop_reaches|]. split; [shop_see 6%nat|]. split; [exact demo_client_vault|]. split; [exact X1|].
  split; [shop_has 6%nat|]. split; [exact K|]. split; [shop_see 6%nat|]. split; [exact alice_xorca_found|].
  split; [shop_has 6%nat|]. split; [exact X2|]. split; [shop_has 6%nat|]. split; [shop_see 6%nat; lia|].
  split; [exact alice_orca_found|]. split; [left; shop_has 6%nat|].
  split; [intros H; apply (f_equal key_bytes) in H; vm_compute in H; discriminate H|].
  split; [shop_see 6%nat; vm_compute; discriminate|]. split; shop_see 6%nat; vm_compute; repeat split; discriminate.
Qed.

(** withdraw.ts sends for every record of the user, and goes through when it is due. *)
Theorem C61_withdraw_through : forall C E l sk vk k uo,
  ordinary_state_address C -> reaches C l -> is_state l sk -> client_vault C sk vk ->
  is_record l k -> on_curve C (rec_owner l k) = true -> is_ata C (rec_owner l k) orca_mint_id uo ->
  exists ops, withdraw_script C E l (rec_owner l k) (JInt (rec_index l k)) = Some ops /\
    (steps_ok C l ops -> rec_time l k <= now E -> can_open E l (rec_owner l k) uo orca_mint_id (rec_owner l k) ->
     ta_state (a_data (l vk)) = 1 -> balance l uo + rec_amount l k <= u64_max ->
     a_lamports (l (rec_owner l k)) + a_lamports (l k) <= u64_max -> exists l' evs, attempt_all C l ops = Ok (l', evs)).
Proof. exact withdraw_script_through. Qed.

Example C61_withdraw_through_ex :
  reaches demo_crypto (shop 7) /\ is_state (shop 7) demo_state /\ client_vault demo_crypto demo_state demo_vault /\
  is_record (shop 7) alice_record /\ rec_owner (shop 7) alice_record = alice /\ on_curve demo_crypto alice = true /\
  is_ata demo_crypto alice orca_mint_id alice_orca /\ rec_time (shop 7) alice_record <= now (demo_env 2100) /\
  can_open (demo_env 2100) (shop 7) alice alice_orca orca_mint_id alice /\
  ta_state (a_data (shop 7 demo_vault)) = 1 /\
  balance (shop 7) alice_orca + rec_amount (shop 7) alice_record <= u64_max /\
  a_lamports (shop 7 alice) + a_lamports (shop 7 alice_record) <= u64_max.
Proof.
  assert (K : client_record demo_crypto alice 0 alice_record) by (apply client_record_is; eexists; exact alice_found).
  assert (X : exists ops, withdraw_script demo_crypto (demo_env 2100) (shop 7) alice (JInt 0) = Some ops) by (eexists; shop_asks 7%nat 0%nat).
  apply (withdraw_script_sends demo_crypto (demo_env 2100) _ _ _ _ _ _ _ demo_client_state demo_client_vault alice_orca_found K) in X.
  destruct X as (X1 & _).
  split; [apply shop_reaches|]. split; [shop_see 7%nat|]. split; [exact demo_client_vault|]. do 2 (split; [shop_see 7%nat|]).
  split; [exact X1|]. split; [exact alice_orca_found|]. split; [shop_see 7%nat; vm_compute; discriminate|].
  split; [left; shop_has 7%nat|]. split; [shop_has 7%nat|]. split; shop_see 7%nat; vm_compute; discriminate.
Qed.

(** ** C62 *)
(** transfer-orca-to-vault.ts sends exactly if the sender's account has the amount and the
    vault is there. *)
Theorem C62_deposit_sends : forall C E l sk vk u so j,
  client_state C sk -> client_vault C sk vk -> is_ata C u orca_mint_id so -> (forall n, j = JInt n -> 0 <= n) ->
  (exists ops, deposit_script C E l u j = Some ops) <->
  on_curve C u = true /\ holds_165 l so /\ holds_165 l vk /\ exists n, j = JInt n /\ n <= balance l so.
Proof. exact deposit_script_sends. Qed.

Example C62_deposit_sends_ex :
  (client_state demo_crypto demo_state /\ client_vault demo_crypto demo_state demo_vault /\
   is_ata demo_crypto bob orca_mint_id bob_orca) /\
  holds_165 (shop 4) bob_orca /\ holds_165 (shop 4) demo_vault /\ 1000000 <= balance (shop 4) bob_orca /\
  balance (shop 4) bob_orca = 10000000.
Proof.
  split; [split; [exact demo_client_state|split; [exact demo_client_vault|exact bob_orca_found]]|].
  assert (N : forall n, JInt 1000000 = JInt n -> 0 <= n) by (intros n [=<-]; lia).
  assert (X : exists ops, deposit_script demo_crypto (demo_env 1200) (shop 4) bob (JInt 1000000) = Some ops) by (eexists; shop_asks 4%nat 0%nat).
  apply (deposit_script_sends demo_crypto (demo_env 1200) _ _ _ _ _ _ demo_client_state demo_client_vault bob_orca_found N) in X.
  destruct X as (_ & A & B & _). split; [exact A|]. split; [exact B|]. split; shop_see 4%nat. lia.
Qed.

(** transfer-orca.ts sends exactly if the sender's account has the amount and the
    recipient's account is missing or a token account. *)
Theorem C62_transfer_sends : forall C E l u w from to n,
  is_ata C u orca_mint_id from -> is_ata C w orca_mint_id to -> 0 <= n ->
  (exists ops, transfer_script C E l u w n = Some ops) <->
  on_curve C u = true /\ on_curve C w = true /\ shows l from n /\ (a_lamports (l to) = 0 \/ shows l to 0).
Proof. exact transfer_script_sends. Qed.

(** Alice can give everything to a recipient without an account, and not one more. *)
Example C62_transfer_sends_ex :
  (is_ata demo_crypto alice orca_mint_id alice_orca /\ is_ata demo_crypto admin orca_mint_id admin_orca) /\
  shows (shop 8) alice_orca 16198956 /\ ~ shows (shop 8) alice_orca 16198957 /\ a_lamports (shop 8 admin_orca) = 0.
Proof.
  split; [split; [exact alice_orca_found|exact admin_orca_found]|].
  split; [|split; [apply shows_bound; shop_see 8%nat; lia|shop_has 8%nat; reflexivity]].
  apply (shows_other _ _ 4000); [|shop_see 8%nat; lia].
  assert (N : 0 <= 4000) by lia.
  apply (transfer_script_sends demo_crypto (demo_env 2150) _ _ _ _ _ _ alice_orca_found admin_orca_found N).
  eexists. shop_asks 8%nat 0%nat.
Qed.

(** The settings and deployment scripts look at no account: set.ts refuses negative
    cooldowns, initialize.ts sends them; initialize.ts accepts one deployer. *)
Theorem C62_settings_send : forall C E sk deployer authority u j,
  client_state C sk -> (exists vk, client_vault C sk vk) ->
  ((exists b, script_set_cooldown C u j = Some b) <-> exists c, j = JInt c /\ 0 <= c <= i64_max) /\
  (forall new, exists b, script_set_authority C u new = Some b) /\
  ((exists ops, initialize_script C E deployer authority j = Some ops) <->
     deployer = deployer_address /\ exists c, j = JInt c /\ i64_min <= c <= i64_max) /\
  (exists ops, authority_script C E u = Some ops).
Proof. exact settings_scripts_send. Qed.

Example C62_settings_send_ex :
  client_state demo_crypto demo_state /\ (exists vk, client_vault demo_crypto demo_state vk).
Proof. split; [exact demo_client_state|eexists; exact demo_client_vault]. Qed.

(** The donation and the transfer, too. *)
Theorem C62_deposit_through : forall C E l sk vk u so n,
  ordinary_state_address C -> reaches C l -> is_state l sk -> client_vault C sk vk ->
  on_curve C u = true -> a_owner (l u) <> token_id -> is_ata C u orca_mint_id so -> active_account l so orca_mint_id u ->
  a_lamports (l so) <> 0 -> ordinary l so -> no_self_delegate l so u -> ta_state (a_data (l vk)) = 1 ->
  0 <= n <= balance l so -> balance l vk + n <= u64_max ->
  exists ops, deposit_script C E l u (JInt n) = Some ops /\ (steps_ok C l ops -> exists l' evs, attempt_all C l ops = Ok (l', evs)).
Proof. exact deposit_script_through. Qed.

Example C62_deposit_through_ex :
  reaches demo_crypto (shop 4) /\ is_state (shop 4) demo_state /\ client_vault demo_crypto demo_state demo_vault /\
  on_curve demo_crypto bob = true /\ a_owner (shop 4 bob) <> token_id /\ is_ata demo_crypto bob orca_mint_id bob_orca /\
  active_account (shop 4) bob_orca orca_mint_id bob /\ a_lamports (shop 4 bob_orca) <> 0 /\ ordinary (shop 4) bob_orca /\
  no_self_delegate (shop 4) bob_orca bob /\ ta_state (a_data (shop 4 demo_vault)) = 1 /\
  1000000 <= balance (shop 4) bob_orca /\ balance (shop 4) demo_vault + 1000000 <= u64_max.
Proof.
  assert (N : forall n, JInt 1000000 = JInt n -> 0 <= n) by (intros n [=<-]; lia).
  assert (X : exists ops, deposit_script demo_crypto (demo_env 1200) (shop 4) bob (JInt 1000000) = Some ops) by (eexists; shop_asks 4%nat 0%nat).
  apply (deposit_script_sends demo_crypto (demo_env 1200) _ _ _ _ _ _ demo_client_state demo_client_vault bob_orca_found N) in X.
  destruct X as (X1 & (X2 & _) & _). assert (W : wallet (shop 4) bob) by shop_has 4%nat.
  split; [apply shop_reaches|]. split; [shop_see 4%nat|]. split; [exact demo_client_vault|]. split; [exact X1|].
  split; [destruct W as [W _]; rewrite W; vm_compute; discriminate|]. split; [exact bob_orca_found|].
  split; [shop_has 4%nat|]. split; [exact X2|]. do 2 (split; [shop_has 4%nat|]). split; [shop_has 4%nat|].
  split; shop_see 4%nat; [lia|vm_compute; discriminate].
Qed.

Theorem C62_transfer_through : forall C E l u w n from to,
  ordinary_state_address C -> reaches C l -> on_curve C u = true -> on_curve C w = true ->
  is_ata C u orca_mint_id from -> is_ata C w orca_mint_id to ->
  active_account l from orca_mint_id u -> a_lamports (l from) <> 0 -> ordinary l from -> no_self_delegate l from u ->
  a_owner (l u) <> token_id -> can_open E l u to orca_mint_id w -> 0 <= n <= balance l from -> balance l to + n <= u64_max ->
  exists ops, transfer_script C E l u w n = Some ops /\ (steps_ok C l ops -> exists l' evs, attempt_all C l ops = Ok (l', evs)).
Proof. exact transfer_script_through. Qed.

Example C62_transfer_through_ex :
  reaches demo_crypto (shop 8) /\ on_curve demo_crypto alice = true /\ on_curve demo_crypto admin = true /\
  is_ata demo_crypto alice orca_mint_id alice_orca /\ is_ata demo_crypto admin orca_mint_id admin_orca /\
  active_account (shop 8) alice_orca orca_mint_id alice /\ a_lamports (shop 8 alice_orca) <> 0 /\
  ordinary (shop 8) alice_orca /\ no_self_delegate (shop 8) alice_orca alice /\ a_owner (shop 8 alice) <> token_id /\
  can_open (demo_env 2150) (shop 8) alice admin_orca orca_mint_id admin /\ 4000 <= balance (shop 8) alice_orca /\
  balance (shop 8) admin_orca + 4000 <= u64_max.
Proof.
  assert (N : 0 <= 4000) by lia.
  assert (X : exists ops, transfer_script demo_crypto (demo_env 2150) (shop 8) alice admin 4000 = Some ops) by (eexists; shop_asks 8%nat 0%nat).
  apply (transfer_script_sends demo_crypto (demo_env 2150) _ _ _ _ _ _ alice_orca_found admin_orca_found N) in X.
  destruct X as (X1 & X2 & (X3 & _) & _). assert (W : wallet (shop 8) alice) by shop_has 8%nat.
  split; [apply shop_reaches|]. split; [exact X1|]. split; [exact X2|]. split; [exact alice_orca_found|]. split; [exact admin_orca_found|].
  split; [shop_has 8%nat|]. split; [exact X3|]. do 2 (split; [shop_has 8%nat|]).
  split; [destruct W as [W _]; rewrite W; vm_compute; discriminate|].
  split; [right; do 2 (split; [shop_has 8%nat; reflexivity|]); split; [shop_has 8%nat|]; shop_has 8%nat; vm_compute; split; discriminate|].
  split; [shop_see 8%nat; lia|]. assert (W' : wallet (shop 8) admin_orca) by shop_has 8%nat.
  rewrite (empty_balance _ _ (proj2 W')). vm_compute. discriminate.
Qed.

Print Assumptions C61_stake_sends.
Print Assumptions C61_unstake_sends.
Print Assumptions C61_withdraw_sends.
Print Assumptions C61_stake_through.
Print Assumptions C61_unstake_through.
Print Assumptions C61_withdraw_through.
Print Assumptions C62_deposit_sends.
Print Assumptions C62_transfer_sends.
Print Assumptions C62_settings_send.
Print Assumptions C62_deposit_through.
Print Assumptions C62_transfer_through.
