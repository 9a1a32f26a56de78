(** C81: who signs nothing loses nothing on the chain, and is paid after any wait. *)
From Verif Require Import WaitSpec WaitFacts WaitLive LandSpec LandFacts WireSpec ExecSpec AddressFacts
  Demo DemoMore DemoClient DemoScripts DemoWire DemoExec DemoLand DemoLive DemoWait.
Import List ListNotations.
Open Scope list_scope.
Open Scope Z_scope.

(** Packets that a wallet has not signed, however many, take nothing from it: not its lamports,
    nor tokens of its accounts. *)
Theorem C81_wallet : forall C verify reserved u,
  forall ds l,
  ordinary_state_address C -> curve_only C verify -> ata_apart C -> reaches C l -> regular ds -> quiet verify u ds ->
  on_curve C u = true -> a_owner (l u) = system_id -> system_or_incinerator u = false ->
  let l' := fst (lands C verify reserved l ds) in
  a_owner (l' u) = system_id /\ a_lamports (l u) <= a_lamports (l' u) /\
  forall k mint, plainly_owned l k mint u -> plainly_owned l' k mint u /\ balance l k <= balance l' k.
Proof. exact wait_wallet. Qed.

Example C81_wallet_ex :
  reaches demo_crypto (shop 4) /\ regular (bob_acts demo_env) /\ quiet toy_verify alice (bob_acts demo_env) /\
  on_curve demo_crypto alice = true /\ a_owner (shop 4 alice) = system_id /\ system_or_incinerator alice = false /\
  plainly_owned (shop 4) alice_xorca xorca_mint_id alice /\ balance (shop 4) alice_xorca = 5001000 /\
  away = fst (lands demo_crypto toy_verify toy_reserved (shop 4) (bob_acts demo_env)) /\
  a_lamports (away alice) = 10000000000 /\ balance away alice_xorca = 5001000 /\
  balance (shop 4) demo_vault = 5001000 /\ balance away demo_vault = 15001000.
Proof.
  split; [apply shop_reaches|]. split; [exact bob_acts_regular|]. split; [exact bob_acts_quiet|].
  split; [vm_compute; reflexivity|]. split; [assert (W : wallet (shop 4) alice) by shop_has 4%nat; apply W|].
  split; [vm_compute; reflexivity|]. split; [exact staked_plain|]. split; [shop_see 4%nat|]. split; [symmetry; exact away_is|].
  destruct away_facts as (_ & A & _ & B & _ & _ & _ & D). split; [exact A|]. split; [exact D|]. split; [shop_see 4%nat|exact B].
Qed.

(** The price of xORCA in ORCA does not fall while someone holds xORCA and signs nothing: their
    xORCA is there and is worth as much as before. *)
Theorem C81_holder : forall C verify reserved u k sk vk,
  forall ds l,
  ordinary_state_address C -> curve_only C verify -> ata_apart C -> reaches C l -> is_state l sk -> is_vault C sk vk ->
  regular ds -> quiet verify u ds ->
  on_curve C u = true -> a_owner (l u) = system_id -> system_or_incinerator u = false ->
  plainly_owned l k xorca_mint_id u -> 0 < balance l k ->
  let l' := fst (lands C verify reserved l ds) in
  balance l k <= balance l' k /\
  (free_orca l sk vk + 100) * (supply l' + 100) <= (free_orca l' sk vk + 100) * (supply l + 100) /\
  forall x y, 0 <= x <= y -> worth l sk vk x <= worth l' sk vk y.
Proof. exact wait_holder. Qed.

(** Bob's donation makes Alice's 1000000 xORCA worth 1199956 instead of 1000000; Bob's stake
    leaves it at that. *)
Example C81_holder_ex :
  is_state (shop 4) demo_state /\ is_vault demo_crypto demo_state demo_vault /\ 0 < balance (shop 4) alice_xorca /\
  regular (bob_acts demo_env) /\ quiet toy_verify alice (bob_acts demo_env) /\
  plainly_owned (shop 4) alice_xorca xorca_mint_id alice /\
  away = fst (lands demo_crypto toy_verify toy_reserved (shop 4) (bob_acts demo_env)) /\
  worth (shop 4) demo_state demo_vault 1000000 = 1000000 /\ worth away demo_state demo_vault 1000000 = 1199956.
Proof.
  split; [shop_see 4%nat|]. split; [apply client_vault_is; exact demo_client_vault|]. split; [shop_see 4%nat; lia|].
  split; [exact bob_acts_regular|]. split; [exact bob_acts_quiet|]. split; [exact staked_plain|]. split; [symmetry; exact away_is|].
  destruct away_facts as (_ & _ & _ & A & B & D & _). split; unfold worth; [shop_see 4%nat|].
  unfold free_orca. rewrite A, B, D. reflexivity.
Qed.

(** A record stays as it is through all packets that its owner has not signed, unless the
    address hash gives two inputs the same result on the way. *)
Theorem C81_record : forall C verify reserved sk k,
  forall ds l,
  ordinary_state_address C -> curve_only C verify -> ata_apart C -> reaches C l -> is_state l sk -> regular ds ->
  is_record l k -> quiet verify (rec_owner l k) ds ->
  let l' := fst (lands C verify reserved l ds) in
  is_state l' sk /\ (is_record l' k /\ a_data (l' k) = a_data (l k) \/ clash C verify reserved l ds).
Proof. exact wait_record. Qed.

Example C81_record_ex :
  reaches demo_crypto (shop 7) /\ is_state (shop 7) demo_state /\ is_record (shop 7) alice_record /\
  regular (they_act demo_env) /\ quiet toy_verify (rec_owner (shop 7) alice_record) (they_act demo_env) /\
  late = fst (lands demo_crypto toy_verify toy_reserved (shop 7) (they_act demo_env)) /\ is_record late alice_record /\
  cooldown (shop 7) demo_state = 100 /\ cooldown late demo_state = 50.
Proof.
  split; [apply shop_reaches|]. split; [shop_see 7%nat|]. split; [shop_see 7%nat|]. split; [exact they_act_regular|].
  split. { assert (O : rec_owner (shop 7) alice_record = alice) by shop_see 7%nat. rewrite O. exact they_act_quiet. }
  split; [symmetry; exact late_is|].
  destruct late_facts as ((A & _) & _ & _ & B & _). split; [exact A|]. split; [shop_see 7%nat|exact B].
Qed.

(** Whatever the others have sent in the meantime, the withdraw packet of the owner of a due
    record pays: they have at least what they had plus the amount of the record. *)
Theorem C81_withdraw : forall C E l0 l ds before signature verify reserved tables hash sk vk un j ops b k uo,
  ordinary_state_address C -> curve_only C verify -> ata_apart C -> signs_well signature verify [un] ->
  reaches C l -> is_state l sk -> client_vault C sk vk -> regular ds -> quiet verify un ds ->
  is_record l k -> rec_owner l k = un -> rec_index l k = js_trunc j ->
  on_curve C un = true -> a_owner (l un) = system_id -> system_or_incinerator un = false ->
  is_ata C un orca_mint_id uo -> plainly_owned l uo orca_mint_id un ->
  let l2 := fst (lands C verify reserved l ds) in
  sysvars_ok E -> rec_time l k <= now E ->
  withdraw_script C E l0 un j = Some ops -> instructions_of ops = Some [b] -> may_arrive reserved [b] ->
  ta_state (a_data (l2 uo)) = 1 -> ta_state (a_data (l2 vk)) = 1 ->
  balance l2 uo + rec_amount l k <= u64_max -> a_lamports (l2 un) - 5000 + a_lamports (l2 k) <= u64_max ->
  can_pay E l2 un 5000 -> rent_min E 0 <= a_lamports (l2 un) - 5000 + a_lamports (l2 k) ->
  clash C verify reserved l ds \/
  exists d, wire before signature hash (Some un) [un] [b] = Some d /\
    let l' := fst (land C E verify reserved tables l2 d) in
    ~ is_record l' k /\ balance l uo + rec_amount l k <= balance l' uo /\
    balance l' uo = balance l2 uo + rec_amount l k /\ a_lamports (l un) - 5000 <= a_lamports (l' un).
Proof. exact wait_withdraw. Qed.

Example C81_withdraw_ex :
  clash demo_crypto toy_verify toy_reserved (shop 7) (they_act demo_env) \/ exists d,
  wire toy_before toy_signature admin (Some alice) [alice] [alice_withdraw] = Some d /\
  let l' := fst (land demo_crypto (demo_env 2100) toy_verify toy_reserved toy_tables late d) in
  ~ is_record l' alice_record /\ balance l' alice_orca = 14999000 + 1199956 /\
  9991982080 - 5000 <= a_lamports (l' alice).
Proof.
  destruct late_facts as ((_ & W & U & V) & L1 & L2 & _ & B).
  assert (O : rec_owner (shop 7) alice_record = alice) by shop_see 7%nat.
  assert (A : rec_amount (shop 7) alice_record = 1199956) by shop_see 7%nat.
  assert (W7 : wallet (shop 7) alice) by shop_has 7%nat.
  assert (L7 : a_lamports (shop 7 alice) = 9991982080) by shop_see 7%nat.
  pose proof (wait_withdraw demo_crypto (demo_env 2100) (shop 7) (shop 7) (they_act demo_env) toy_before toy_signature toy_verify
    toy_reserved toy_tables admin demo_state demo_vault alice (JInt 0) (nth 7 shop_txs []) alice_withdraw alice_record alice_orca
    demo_ordinary toy_curve_only demo_ata_apart) as H.
  cbv zeta in H. rewrite late_is in H. rewrite A, L7 in H.
  destruct H as [X|(d & Wd & G1 & _ & G2 & G3)];
    [apply toy_signs_well; vm_compute; reflexivity|apply shop_reaches|shop_see 7%nat|exact demo_client_vault
    |exact they_act_regular|exact they_act_quiet|shop_see 7%nat|exact O|shop_see 7%nat
    |vm_compute; reflexivity|apply W7|vm_compute; reflexivity|exact alice_orca_found|exact due_plain
    |now apply demo_time|shop_see 7%nat; cbn; lia|shop_asks 7%nat 0%nat|vm_compute; reflexivity|apply arrives; vm_compute; reflexivity
    |apply U|apply V|rewrite B; unfold u64_max; lia|rewrite L1, L2; unfold u64_max; lia
    |apply demo_pays; [exact W|rewrite L1; lia]|rewrite L1, L2; vm_compute; discriminate|now left|].
  right. exists d. split; [exact Wd|]. cbv zeta. split; [exact G1|]. split; [rewrite G2, B; reflexivity|exact G3].
Qed.

(** And the unstake packet of a holder who has waited promises at least what the xORCA was worth
    before the wait. *)
Theorem C81_unstake : forall C E l0 l ds before signature verify reserved tables hash sk vk un x j ops b k ux,
  ordinary_state_address C -> curve_only C verify -> ata_apart C -> signs_well signature verify [un] ->
  reaches C l -> is_state l sk -> client_vault C sk vk -> regular ds -> quiet verify un ds ->
  on_curve C un = true -> a_owner (l un) = system_id -> system_or_incinerator un = false ->
  is_ata C un xorca_mint_id ux -> plainly_owned l ux xorca_mint_id un -> 0 < x <= balance l ux ->
  let l2 := fst (lands C verify reserved l ds) in
  sysvars_ok E -> unstake_script C E l0 un x j = Some ops -> instructions_of ops = Some [b] -> may_arrive reserved [b] ->
  client_record C un (js_trunc j) k -> ~ is_record l2 k -> ta_state (a_data (l2 ux)) = 1 ->
  is_i64 (now E + cooldown l2 sk) -> balance l2 vk < 2 ^ 63 -> can_pay E l2 un 5000 ->
  rent_min E 0 <= a_lamports (l2 un) - 5000 - Z.max 0 (rent_min E 1024 - a_lamports (l2 k)) ->
  collision C (eq un) \/
  exists d, wire before signature hash (Some un) [un] [b] = Some d /\
    let l' := fst (land C E verify reserved tables l2 d) in
    is_record l' k /\ rec_owner l' k = un /\ worth l sk vk x <= rec_amount l' k /\
    rec_time l' k = now E + cooldown l2 sk /\ balance l ux - x <= balance l' ux.
Proof. exact wait_unstake. Qed.

Example C81_unstake_ex : collision demo_crypto (eq alice) \/ exists d,
  wire toy_before toy_signature admin (Some alice) [alice] [alice_unstake] = Some d /\
  let l' := fst (land demo_crypto (demo_env 2000) toy_verify toy_reserved toy_tables away d) in
  is_record l' alice_record /\ rec_owner l' alice_record = alice /\ 1000000 <= rec_amount l' alice_record /\
  rec_time l' alice_record = 2100 /\ 4001000 <= balance l' alice_xorca.
Proof.
  destruct away_facts as ((N & W & U) & L1 & L2 & B & S & _ & Co & _).
  assert (W4 : wallet (shop 4) alice) by shop_has 4%nat.
  assert (Wo : worth (shop 4) demo_state demo_vault 1000000 = 1000000) by (unfold worth; shop_see 4%nat).
  assert (Ba : balance (shop 4) alice_xorca = 5001000) by shop_see 4%nat.
  pose proof (wait_unstake demo_crypto (demo_env 2000) (shop 6) (shop 4) (bob_acts demo_env) toy_before toy_signature toy_verify
    toy_reserved toy_tables admin demo_state demo_vault alice 1000000 (JInt 0) (nth 6 shop_txs []) alice_unstake alice_record alice_xorca
    demo_ordinary toy_curve_only demo_ata_apart) as H.
  cbv zeta in H. rewrite away_is in H. rewrite Wo, Ba in H.
  destruct H as [X|(d & Wd & G1 & G2 & G3 & G4 & G5)];
    [apply toy_signs_well; vm_compute; reflexivity|apply shop_reaches|shop_see 4%nat|exact demo_client_vault
    |exact bob_acts_regular|exact bob_acts_quiet|vm_compute; reflexivity|apply W4|vm_compute; reflexivity
    |exact alice_xorca_found|exact staked_plain|lia|now apply demo_time|shop_asks 6%nat 0%nat|vm_compute; reflexivity
    |apply arrives; vm_compute; reflexivity|apply client_record_is; eexists; exact alice_found|exact N|apply U
    |rewrite Co; vm_compute; repeat split; discriminate|rewrite B; lia
    |apply demo_pays; [exact W|rewrite L1; lia]|rewrite L1, L2; vm_compute; discriminate|now left|].
  right. exists d. split; [exact Wd|]. cbv zeta. split; [exact G1|]. split; [exact G2|]. split; [exact G3|].
  split; [rewrite G4, Co; reflexivity|exact G5].
Qed.

Print Assumptions C81_wallet.
Print Assumptions C81_holder.
Print Assumptions C81_record.
Print Assumptions C81_withdraw.
Print Assumptions C81_unstake.
