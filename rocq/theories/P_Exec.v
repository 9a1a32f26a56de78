(** C76, C77: packets, executed. *)
From Verif Require Import ExecSpec ExecWrites MessageSpec MessageFacts WireSpec WireFacts WireScripts PacketFacts PacketFunds PacketBirth ScriptExec
  Demo DemoMore DemoClient DemoScripts DemoWire DemoExec.
Import List ListNotations.
Open Scope list_scope.
Open Scope Z_scope.

(** ** C76 *)
(** A packet does what a transaction of the histories does, all or nothing; the steps run
    at the packet's clock, and every signature they use is in the packet ... *)
Theorem C76_steps : forall C E verify reserved tables l d,
  curve_only C verify -> ata_apart C -> sysvars_ok E ->
  exists ops, steps_ok C l ops /\ packet C E verify reserved tables l d = transaction C l ops /\
    Forall (fun o => runs_at E o /\ forall k, uses_signature o k -> carries verify d k) ops.
Proof. exact packet_steps. Qed.

(** ... so that packets lead from reachable states to reachable states ... *)
Theorem C76_reaches : forall C E verify reserved tables l d,
  curve_only C verify -> ata_apart C -> sysvars_ok E ->
  reaches C l -> reaches C (fst (packet C E verify reserved tables l d)).
Proof. exact packet_reaches. Qed.

(** ... and every run of packets is a history of steps. *)
Theorem C76_history : forall C verify reserved ds,
  forall l0 ops l evs,
  curve_only C verify -> ata_apart C -> Forall (fun p => sysvars_ok (fst (fst p))) ds ->
  history C l0 ops l evs ->
  exists ops', history C l0 (ops ++ ops') (fst (packets C verify reserved l ds)) (evs ++ snd (packets C verify reserved l ds)).
Proof. exact packets_reach. Qed.

Example C76_ex :
  curve_only demo_crypto toy_verify /\ ata_apart demo_crypto /\ sysvars_ok (demo_env 900) /\ sysvars_ok (demo_env 1000) /\
  reaches demo_crypto (shop 0) /\
  fst (packets demo_crypto toy_verify toy_reserved (shop 0) [(demo_env 900, toy_tables, mint_packet); (demo_env 1000, toy_tables, start_packet)]) = shop 2 /\
  (forall k, ~ is_state (shop 0) k) /\ is_state (shop 2) demo_state.
Proof.
  split; [exact toy_curve_only|]. split; [exact demo_ata_apart|].
  split; [apply demo_sysvars; unfold is_i64, i64_min, i64_max; lia|]. split; [apply demo_sysvars; unfold is_i64, i64_min, i64_max; lia|].
  split; [apply shop_reaches|]. split; [|split; [exact shop_no_state|shop_see 2%nat]].
  destruct mint_arrives as (e1 & H1). destruct start_arrives as (e2 & H2). unfold runs_packet in *.
  cbn [packets fst]. rewrite H1. cbn [fst]. now rewrite H2.
Qed.

(** A packet changes only accounts that some instruction receives writable, and no reserved ones. *)
Theorem C76_writes : forall C E verify reserved tables l d k,
  fst (packet C E verify reserved tables l d) k <> l k ->
  exists got, receive verify reserved tables d = Some got /\ arrives_writable got k /\ reserved k = false.
Proof. exact packet_writes. Qed.

Example C76_writes_ex :
  fst (packet demo_crypto (demo_env 1300) toy_verify toy_reserved toy_tables (shop 5) bob_packet) demo_vault <> shop 5 demo_vault /\
  exists got, receive toy_verify toy_reserved toy_tables bob_packet = Some got /\ arrives_writable got demo_vault.
Proof.
  split.
  - destruct bob_arrives as (evs & H). unfold runs_packet in H. rewrite H. cbn [fst]. intros Q.
    assert (A : balance (shop 5) demo_vault = 6001000) by (shop_see 5%nat).
    assert (B : balance (shop 6) demo_vault = 15001000) by (shop_see 6%nat).
    unfold balance in *. rewrite Q in B. lia.
  - exists bob_received. split; [exact bob_receives|].
    exists (nth 1 bob_received (Built bob [] [])), (Meta demo_vault false true).
    split; [vm_compute; auto|]. split; [vm_compute; auto 10|]. split; reflexivity.
Qed.

(** All instructions run, one after the other and each with success, or nothing happens ... *)
Theorem C76_whole : forall C E verify reserved tables l d,
  packet C E verify reserved tables l d = (l, []) \/
  exists got, receive verify reserved tables d = Some got /\ ran C E l got (packet C E verify reserved tables l d).
Proof. exact packet_whole. Qed.

(** ... in particular if one of this program's is refused. *)
Theorem C76_refused : forall C E verify reserved tables l d bs1 b bs2,
  receive verify reserved tables d = Some (bs1 ++ b :: bs2) -> b_program b = xorca_id ->
  (forall l1 evs, ran C E l bs1 (l1, evs) -> is_ok (process_instruction C E xorca_id (b_accounts b) l1 (b_data b)) = false) ->
  packet C E verify reserved tables l d = (l, []).
Proof. exact packet_refused. Qed.

Example C76_refused_ex :
  exists b, receive toy_verify toy_reserved toy_tables withdraw_packet = Some ([] ++ b :: []) /\ b_program b = xorca_id /\
    (forall l1 evs, ran demo_crypto (demo_env 2050) (shop 7) [] (l1, evs) ->
       is_ok (process_instruction demo_crypto (demo_env 2050) xorca_id (b_accounts b) l1 (b_data b)) = false) /\
    fst (packet demo_crypto (demo_env 2100) toy_verify toy_reserved toy_tables (shop 7) withdraw_packet) = shop 8 /\
    is_record (shop 7) alice_record /\ ~ is_record (shop 8) alice_record.
Proof.
  exists withdraw_received. split; [exact withdraw_receives|]. split; [vm_compute; reflexivity|]. split.
  - intros l1 evs H. apply ran_nothing in H. rewrite H. exact early_refused.
  - split; [|split; [shop_see 7%nat|shop_see 8%nat]].
    destruct withdraw_arrives as (evs & H). unfold runs_packet in H. now rewrite H.
Qed.

(** A packet that begins with Create for an associated account that exists does nothing. *)
Theorem C76_create_refused : forall C E verify reserved tables l d b bs payer ata rest,
  receive verify reserved tables d = Some (b :: bs) -> b_program b = ata_id -> b_data b = [] \/ b_data b = [x00] ->
  map m_key (b_accounts b) = payer :: ata :: rest -> a_owner (l ata) <> system_id ->
  packet C E verify reserved tables l d = (l, []).
Proof. exact packet_create_refused. Qed.

Example C76_create_refused_ex :
  exists b bs rest, receive toy_verify toy_reserved toy_tables bob_packet = Some (b :: bs) /\ b_program b = ata_id /\ b_data b = [] /\
    map m_key (b_accounts b) = bob :: bob_xorca :: rest /\ a_owner (shop 6 bob_xorca) <> system_id.
Proof.
  exists (nth 0 bob_received (Built bob [] [])), (tl bob_received), (skipn 2 (map m_key (b_accounts (nth 0 bob_received (Built bob [] []))))).
  split; [exact bob_receives|]. do 3 (split; [vm_compute; reflexivity|]).
  assert (U : usable (shop 6) bob_xorca xorca_mint_id bob) by (shop_has 6%nat).
  destruct U as [[[U _] _] _]. rewrite U. intros Q. apply (f_equal key_bytes) in Q. vm_compute in Q. discriminate Q.
Qed.

(** The packet of a script's transaction does exactly what the script's steps do. *)
Theorem C76_script : forall C E l l1 before signature verify reserved tables hash fee signers ops ixs payer r,
  signs_well signature verify signers -> script_sends C E l fee signers ops -> is_payer fee signers payer ->
  instructions_of ops = Some ixs -> ~ is_called ixs payer ->
  (forall b m, In b ixs -> In m (b_accounts b) -> m_writable m = true ->
     reserved (m_key m) = false /\ ~ is_called ixs (m_key m)) ->
  creates_new l1 ops -> attempt_all C l1 ops = Ok r ->
  exists d, wire before signature hash fee signers ixs = Some d /\
    packet C E verify reserved tables l1 d = r.
Proof. exact script_packet. Qed.

Example C76_script_ex :
  script_sends demo_crypto (demo_env 1300) (shop 5) (Some bob) [bob] (nth 5 shop_txs []) /\
  script_sends demo_crypto (demo_env 1000) (shop 1) None [deployer_address; admin] (nth 1 shop_txs []) /\
  instructions_of (nth 5 shop_txs []) = Some bob_ixs /\ creates_new (shop 5) (nth 5 shop_txs []) /\
  wire toy_before toy_signature admin (Some bob) [bob] bob_ixs = Some bob_packet /\
  exists evs, attempt_all demo_crypto (shop 5) (nth 5 shop_txs []) = Ok (shop 6, evs) /\
    packet demo_crypto (demo_env 1300) toy_verify toy_reserved toy_tables (shop 5) bob_packet = (shop 6, evs).
Proof.
  split; [eapply SendsStake; shop_asks 5%nat 0%nat|]. split; [eapply SendsInitialize; shop_asks 1%nat 0%nat|].
  split; [vm_compute; reflexivity|]. split; [exact bob_creates|]. split; [vm_compute; reflexivity|].
  destruct (shop_runs 5 _ _ _ _ _ eq_refl) as (evs & A). exists evs. split; [exact A|].
  change (runs_packet 1300 (shop 5) bob_packet = (shop 6, evs)).
  apply (toy_packet 1300 (shop 5) (shop 5) (Some bob) [bob] (nth 5 shop_txs []) bob_ixs bob);
    [vm_compute; reflexivity|eapply SendsStake; shop_asks 5%nat 0%nat|left; reflexivity|vm_compute; reflexivity..
    |exact bob_creates|exact A|vm_compute; reflexivity].
Qed.

(** The instructions of the token program, as its library writes them, do what they say ... *)
Theorem C76_token : forall C E l accs c ks extra data l',
  token_says c ks extra data -> token_call_ok c = true ->
  map m_key accs = ks ++ extra ->
  execute_one C E l (Built token_id accs data) = Ok (l', []) <->
  token_exec E (signs (signers_of accs)) (filter (signs (signers_of accs)) extra) l c = Ok l' /\ read_only_kept accs l l'.
Proof. exact token_says_runs. Qed.
(** ... so do the checked ones, if mint and decimals are right ... *)
Theorem C76_token_checked : forall C E l accs c ks extra data src mint dec l',
  token_says_checked c ks extra data src mint dec ->
  token_call_ok c = true -> is_u8 dec -> map m_key accs = ks ++ extra ->
  execute_one C E l (Built token_id accs data) = Ok (l', []) <->
  (forall k, src = Some k -> ta_mint (a_data (l k)) = mint) /\
  mint_unpack (a_data (l mint)) = Ok tt /\ mint_decimals (a_data (l mint)) = dec /\
  token_exec E (signs (signers_of accs)) (filter (signs (signers_of accs)) extra) l c = Ok l' /\ read_only_kept accs l l'.
Proof. exact token_checked_runs. Qed.

Example C76_token_ex :
  token_says (TC_SetAuthority alice_orca alice CloseAuthority (Some bob)) [alice_orca; alice] [] (x06 :: x03 :: x01 :: key_bytes bob) /\
  token_says (TC_SetAuthority alice_orca alice AccountOwner None) [alice_orca; alice] [] [x06; x02; x00] /\
  match execute_one demo_crypto (demo_env 0) demo0
          (Built token_id [w_ alice_orca; r_ orca_mint_id; w_ bob_orca; ws alice] (x0c :: le_enc 8 500 ++ [x06])) with
  | Ok (l', []) => balance l' bob_orca = 10000500 /\ balance l' alice_orca = 19999500
  | _ => False
  end /\
  (forall l', execute_one demo_crypto (demo_env 0) demo0
     (Built token_id [w_ alice_orca; r_ orca_mint_id; w_ bob_orca; ws alice] (x0c :: le_enc 8 500 ++ [x05])) <> Ok l') /\
  (forall l', execute_one demo_crypto (demo_env 0) demo0
     (Built token_id [w_ alice_orca; w_ bob_orca; r_ alice] (x03 :: le_enc 8 500)) <> Ok l').
Proof.
  split; [repeat constructor|]. split; [exact (says_authority _ _ _ _ None [] tag_owner)|].
  split; [vm_compute; split; reflexivity|]. split; intros l' H; vm_compute in H; discriminate H.
Qed.

(** ... those of the system program ... *)
Theorem C76_system : forall C E l accs c ks data l',
  system_says c ks data -> map m_key accs = ks ->
  execute_one C E l (Built system_id accs data) = Ok (l', []) <->
  system_exec (signs (signers_of accs)) l c = Ok l' /\ read_only_kept accs l l'.
Proof. exact system_says_runs. Qed.
(** ... and of the associated token program. *)
Theorem C76_ata : forall C E l accs payer ata wallet mint more data l',
  map m_key accs = payer :: ata :: wallet :: mint :: more ->
  execute_one C E l (Built ata_id accs data) = Ok (l', []) <->
  (data = [] \/ data = [x00] \/ data = [x01]) /\ (data = [x01] \/ a_owner (l ata) = system_id) /\
  ata_create_idempotent C E (signs (signers_of accs)) l payer ata wallet mint = Ok l' /\ read_only_kept accs l l'.
Proof. exact ata_says_runs. Qed.

Example C76_system_ex :
  match execute_one demo_crypto (demo_env 0) demo0 (Built system_id [ws alice; w_ bob] (le_enc 4 2 ++ le_enc 8 700)) with
  | Ok (l', []) => a_lamports (l' bob) = 10000000700 /\ a_lamports (l' alice) = 9999999300
  | _ => False
  end /\
  match execute_one demo_crypto (demo_env 0) demo0 (Built ata_id [ws bob; w_ alice_orca; r_ alice; r_ orca_mint_id] [x01]) with
  | Ok (l', []) => balance l' alice_orca = 20000000
  | _ => False
  end /\
  (forall l', execute_one demo_crypto (demo_env 0) demo0
     (Built ata_id [ws bob; w_ alice_orca; r_ alice; r_ orca_mint_id] []) <> Ok l').
Proof. split; [vm_compute; split; reflexivity|]. split; [vm_compute; reflexivity|]. intros l' H. vm_compute in H. discriminate H. Qed.

(** ** C77 *)
(** The settings change only by a packet that the update authority signed. *)
Theorem C77_settings : forall C E verify reserved tables l d sk,
  ordinary_state_address C -> curve_only C verify -> ata_apart C -> sysvars_ok E ->
  reaches C l -> is_state l sk ->
  let l' := fst (packet C E verify reserved tables l d) in
  is_state l' sk /\
  (authority l' sk <> authority l sk \/ cooldown l' sk <> cooldown l sk -> carries verify d (authority l sk)).
Proof. exact packet_settings. Qed.

Example C77_settings_ex :
  reaches demo_crypto (shop 5) /\ is_state (shop 5) demo_state /\ authority (shop 5) demo_state = admin /\
  cooldown (shop 5) demo_state = 100 /\
  cooldown (fst (packet demo_crypto (demo_env 1300) toy_verify toy_reserved toy_tables (shop 5) cooldown_packet)) demo_state = 50.
Proof.
  split; [apply shop_reaches|]. split; [shop_see 5%nat|]. split; [shop_see 5%nat|].
  destruct cooldown_arrives as (l' & evs & H & A & B). unfold runs_packet in H. rewrite H. now split.
Qed.

(** A pending withdrawal stays as it is until its time, and after that unless its owner signs
    (or somebody whose address derivation collides). *)
Theorem C77_record : forall C E verify reserved tables l d sk k,
  ordinary_state_address C -> curve_only C verify -> ata_apart C -> sysvars_ok E ->
  reaches C l -> is_state l sk -> is_record l k ->
  let l' := fst (packet C E verify reserved tables l d) in
  (is_record l' k /\ a_data (l' k) = a_data (l k)) \/
  (rec_time l k <= now E /\
   (carries verify d (rec_owner l k) \/
    exists l1 un, during C E verify d l l1 /\ carries verify d un /\ collision C (claimants l1 un))).
Proof. exact packet_record. Qed.

(** A new pending withdrawal was signed for by its owner. *)
Theorem C77_new_record : forall C E verify reserved tables l d sk k,
  ordinary_state_address C -> curve_only C verify -> ata_apart C -> sysvars_ok E ->
  reaches C l -> is_state l sk ->
  let l' := fst (packet C E verify reserved tables l d) in
  ~ is_record l k -> is_record l' k -> carries verify d (rec_owner l' k) /\ now E <= rec_time l' k.
Proof. exact packet_new_record. Qed.

Example C77_record_ex :
  reaches demo_crypto (shop 6) /\ is_state (shop 6) demo_state /\ ~ is_record (shop 6) alice_record /\
  fst (packet demo_crypto (demo_env 2000) toy_verify toy_reserved toy_tables (shop 6) unstake_packet) = shop 7 /\
  reaches demo_crypto (shop 7) /\ is_state (shop 7) demo_state /\ is_record (shop 7) alice_record /\
  rec_owner (shop 7) alice_record = alice /\
  fst (packet demo_crypto (demo_env 2100) toy_verify toy_reserved toy_tables (shop 7) withdraw_packet) = shop 8 /\
  ~ is_record (shop 8) alice_record.
Proof.
  split; [apply shop_reaches|]. split; [shop_see 6%nat|]. split; [shop_see 6%nat|].
  split; [destruct unstake_arrives as (evs & H); unfold runs_packet in H; now rewrite H|].
  split; [apply shop_reaches|]. split; [shop_see 7%nat|]. split; [shop_see 7%nat|]. split; [shop_see 7%nat|].
  split; [destruct withdraw_arrives as (evs & H); unfold runs_packet in H; now rewrite H|shop_see 8%nat].
Qed.

(** ORCA leaves the vault only by a packet signed by the owner of a pending withdrawal that
    is due. *)
Theorem C77_vault : forall C E verify reserved tables l d sk vk,
  ordinary_state_address C -> curve_only C verify -> ata_apart C -> sysvars_ok E ->
  reaches C l -> is_state l sk -> is_vault C sk vk ->
  let l' := fst (packet C E verify reserved tables l d) in
  balance l' vk < balance l vk ->
  exists l1 un k, during C E verify d l l1 /\ is_record l1 k /\ rec_time l1 k <= now E /\ carries verify d un /\
    (rec_owner l1 k = un \/ collision C (claimants l1 un)).
Proof. exact packet_vault. Qed.

Example C77_vault_ex :
  reaches demo_crypto (shop 7) /\ is_state (shop 7) demo_state /\ is_vault demo_crypto demo_state demo_vault /\
  balance (fst (packet demo_crypto (demo_env 2100) toy_verify toy_reserved toy_tables (shop 7) withdraw_packet)) demo_vault
    < balance (shop 7) demo_vault.
Proof.
  split; [apply shop_reaches|]. split; [shop_see 7%nat|]. split; [exact demo_is_vault|].
  destruct withdraw_arrives as (evs & H). unfold runs_packet in H. rewrite H. cbn [fst].
  assert (A : balance (shop 7) demo_vault = 15001000) by (shop_see 7%nat).
  assert (B : balance (shop 8) demo_vault < 15001000) by (shop_see 8%nat; lia). lia.
Qed.

(** xORCA comes into being only by a packet signed by the owner of an ORCA account. *)
Theorem C77_supply : forall C E verify reserved tables l d sk vk,
  ordinary_state_address C -> curve_only C verify -> ata_apart C -> sysvars_ok E ->
  reaches C l -> is_state l sk -> is_vault C sk vk ->
  let l' := fst (packet C E verify reserved tables l d) in
  supply l < supply l' ->
  exists l1 staker so, during C E verify d l l1 /\ token_account_of l1 so orca_mint_id staker /\ carries verify d staker.
Proof. exact packet_supply. Qed.

Example C77_supply_ex :
  reaches demo_crypto (shop 5) /\ is_state (shop 5) demo_state /\ is_vault demo_crypto demo_state demo_vault /\
  supply (shop 5) < supply (fst (packet demo_crypto (demo_env 1300) toy_verify toy_reserved toy_tables (shop 5) bob_packet)).
Proof.
  split; [apply shop_reaches|]. split; [shop_see 5%nat|]. split; [exact demo_is_vault|].
  destruct bob_arrives as (evs & H). unfold runs_packet in H. rewrite H. cbn [fst].
  assert (A : supply (shop 5) = 5001000) by (shop_see 5%nat).
  assert (B : 5001000 < supply (shop 6)) by (shop_see 6%nat; lia). lia.
Qed.

(** The program starts only by a packet that the deployer signed. *)
Theorem C77_birth : forall C E verify reserved tables l d,
  ordinary_state_address C -> curve_only C verify -> ata_apart C -> sysvars_ok E ->
  reaches C l -> (forall k, ~ is_state l k) ->
  let l' := fst (packet C E verify reserved tables l d) in
  (exists sk, is_state l' sk) -> carries verify d deployer_address.
Proof. exact packet_birth. Qed.

Example C77_birth_ex :
  reaches demo_crypto (shop 1) /\ (forall k, ~ is_state (shop 1) k) /\
  is_state (fst (packet demo_crypto (demo_env 1000) toy_verify toy_reserved toy_tables (shop 1) start_packet)) demo_state.
Proof.
  split; [apply shop_reaches|]. split; [exact shop1_no_state|].
  destruct start_arrives as (evs & H). unfold runs_packet in H. rewrite H. shop_see 2%nat.
Qed.

(** Whoever did not sign the packet loses neither lamports nor tokens. *)
Theorem C77_funds : forall C E verify reserved tables l d u,
  ordinary_state_address C -> curve_only C verify -> ata_apart C -> sysvars_ok E -> reaches C l ->
  on_curve C u = true -> a_owner (l u) = system_id -> system_or_incinerator u = false -> ~ carries verify d u ->
  let l' := fst (packet C E verify reserved tables l d) in
  a_owner (l' u) = system_id /\ a_lamports (l u) <= a_lamports (l' u) /\
  forall k mint, token_account_of l k mint u -> ordinary l k ->
    ta_delegate_flag (a_data (l k)) = 0 -> ta_close_flag (a_data (l k)) = 0 ->
    token_account_of l' k mint u /\ ordinary l' k /\
    ta_delegate_flag (a_data (l' k)) = 0 /\ ta_close_flag (a_data (l' k)) = 0 /\ balance l k <= balance l' k.
Proof. exact packet_funds. Qed.

Example C77_funds_ex :
  ordinary_state_address demo_crypto /\ sysvars_ok (demo_env 1300) /\ reaches demo_crypto (shop 5) /\
  on_curve demo_crypto alice = true /\ wallet (shop 5) alice /\ system_or_incinerator alice = false /\
  ~ carries toy_verify bob_packet alice /\
  token_account_of (shop 5) alice_orca orca_mint_id alice /\ ordinary (shop 5) alice_orca /\
  ta_delegate_flag (a_data (shop 5 alice_orca)) = 0 /\
  balance (shop 5) alice_orca = 14999000 /\
  fst (packet demo_crypto (demo_env 1300) toy_verify toy_reserved toy_tables (shop 5) bob_packet) = shop 6.
Proof.
  split; [exact demo_ordinary|]. split; [apply demo_sysvars; unfold is_i64, i64_min, i64_max; lia|].
  split; [apply shop_reaches|]. split; [vm_compute; reflexivity|]. split; [shop_has 5%nat|]. split; [vm_compute; reflexivity|].
  split; [apply not_carried; vm_compute; reflexivity|].
  assert (U : usable (shop 5) alice_orca orca_mint_id alice) by (shop_has 5%nat).
  split; [exact (proj1 (proj1 U))|]. split; [exact (proj1 (proj2 U))|]. split; [exact (proj2 (proj2 U))|].
  split; [shop_see 5%nat|]. destruct bob_arrives as (evs & H). unfold runs_packet in H. now rewrite H.
Qed.

Print Assumptions C76_steps.
Print Assumptions C76_reaches.
Print Assumptions C76_history.
Print Assumptions C76_writes.
Print Assumptions C76_whole.
Print Assumptions C76_refused.
Print Assumptions C76_create_refused.
Print Assumptions C76_script.
Print Assumptions C76_token.
Print Assumptions C76_token_checked.
Print Assumptions C76_system.
Print Assumptions C76_ata.
Print Assumptions C77_settings.
Print Assumptions C77_record.
Print Assumptions C77_new_record.
Print Assumptions C77_vault.
Print Assumptions C77_supply.
Print Assumptions C77_birth.
Print Assumptions C77_funds.
