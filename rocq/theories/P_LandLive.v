(** C80: the scripts' packets take effect on the chain, for stated fees, rents and balances. *)
From Verif Require Import LandSpec LandFacts LandLive LandFirst LandOpen LandInit LandGive LandSend WireSpec ExecSpec RentCheckFacts
  Demo DemoMore DemoClient DemoScripts DemoWire DemoExec DemoLand DemoLive DemoShut DemoGive DemoStory AddressFacts.
Import List ListNotations.
Open Scope list_scope.
Open Scope Z_scope.

(** A withdrawal whose time has come goes through: the packet that the script makes is
    accepted and executed, the record is gone, its ORCA is on the owner's account, and the
    owner has its lamports minus the fee. *)
Theorem C80_withdraw : forall C E l0 l before signature verify reserved tables hash sk vk un j ops b k uo,
  ordinary_state_address C -> signs_well signature verify [un] -> reaches C l -> is_state l sk -> client_vault C sk vk ->
  sysvars_ok E -> withdraw_script C E l0 un j = Some ops -> instructions_of ops = Some [b] -> may_arrive reserved [b] ->
  is_record l k -> rec_owner l k = un -> rec_index l k = js_trunc j -> rec_time l k <= now E ->
  is_ata C un orca_mint_id uo -> active_account l uo orca_mint_id un -> ta_state (a_data (l vk)) = 1 ->
  balance l uo + rec_amount l k <= u64_max -> a_lamports (l un) - 5000 + a_lamports (l k) <= u64_max ->
  can_pay E l un 5000 -> rent_min E 0 <= a_lamports (l un) - 5000 + a_lamports (l k) ->
  exists d, wire before signature hash (Some un) [un] [b] = Some d /\
    let l' := fst (land C E verify reserved tables l d) in
    ~ is_record l' k /\ balance l' uo = balance l uo + rec_amount l k /\
    balance l' vk = balance l vk - rec_amount l k /\ escrow l' sk = escrow l sk - rec_amount l k /\
    a_lamports (l' un) = a_lamports (l un) - 5000 + a_lamports (l k).
Proof. exact land_withdraw. Qed.

Example C80_withdraw_ex : exists d,
  wire toy_before toy_signature admin (Some alice) [alice] [alice_withdraw] = Some d /\
  let l' := fst (land demo_crypto (demo_env 2100) toy_verify toy_reserved toy_tables (shop 7) d) in
  ~ is_record l' alice_record /\ balance l' alice_orca = 14999000 + 1199956 /\
  balance l' demo_vault = 15001000 - 1199956 /\ escrow l' demo_state = 1199956 - 1199956 /\
  a_lamports (l' alice) = 9991982080 - 5000 + 8017920.
Proof.
  destruct (land_withdraw demo_crypto (demo_env 2100) (shop 7) (shop 7) toy_before toy_signature toy_verify toy_reserved toy_tables admin
    demo_state demo_vault alice (JInt 0) (nth 7 shop_txs []) alice_withdraw alice_record alice_orca demo_ordinary)
    as (d & W & A & B & D & F & G);
    [apply toy_signs_well; vm_compute; reflexivity|apply shop_reaches|shop_see 7%nat|exact demo_client_vault|now apply demo_time
    |shop_asks 7%nat 0%nat|vm_compute; reflexivity|apply arrives; vm_compute; reflexivity
    |shop_see 7%nat|shop_see 7%nat|shop_see 7%nat|shop_see 7%nat; cbn; lia|exact alice_orca_found|shop_has 7%nat|shop_has 7%nat
    |shop_see 7%nat; unfold u64_max; lia|shop_see 7%nat; unfold u64_max; lia
    |apply demo_pays; [shop_has 7%nat|shop_see 7%nat; lia]|shop_see 7%nat; vm_compute; discriminate|].
  exists d. split; [exact W|]. cbv zeta. split; [exact A|]. rewrite B, D, F, G.
  split; [shop_see 7%nat|]. split; [shop_see 7%nat|]. split; shop_see 7%nat.
Qed.

(** A stake of someone who has an xORCA account: the stated price is what they get. *)
Theorem C80_stake : forall C E l0 l before signature verify reserved tables hash sk vk st a ops b so sx,
  ordinary_state_address C -> signs_well signature verify [st] -> reaches C l -> is_state l sk -> client_vault C sk vk ->
  sysvars_ok E -> stake_script C E l0 st a = Some ops -> instructions_of ops = Some [b] -> may_arrive reserved [b] ->
  is_ata C st orca_mint_id so -> active_account l so orca_mint_id st -> ordinary l so -> no_self_delegate l so st ->
  0 < a <= balance l so ->
  is_ata C st xorca_mint_id sx -> active_account l sx xorca_mint_id st -> ta_state (a_data (l vk)) = 1 ->
  (supply l <> 0 -> free_orca l sk vk + 100 <= a * (supply l + 100)) -> balance l vk + a < 2 ^ 63 ->
  can_pay E l st 5000 ->
  exists d, wire before signature hash (Some st) [st] [b] = Some d /\
    let l' := fst (land C E verify reserved tables l d) in
    exists m,
      (supply l = 0 \/ free_orca l sk vk = 0 -> m = a) /\
      (supply l <> 0 -> free_orca l sk vk <> 0 -> m = a * (supply l + 100) / (free_orca l sk vk + 100)) /\
      0 < m /\ balance l' so = balance l so - a /\ balance l' vk = balance l vk + a /\
      balance l' sx = balance l sx + m /\ supply l' = supply l + m /\
      a_lamports (l' st) = a_lamports (l st) - 5000.
Proof. exact land_stake. Qed.

Example C80_stake_ex : exists d m b,
  instructions_of (nth 3 shop_txs []) = Some [b] /\
  wire toy_before toy_signature admin (Some alice) [alice] [b] = Some d /\
  let l' := fst (land demo_crypto (demo_env 1150) toy_verify toy_reserved toy_tables (shop 3) d) in
  m = 1000 * (5000000 + 100) / (5000000 + 100) /\
  balance l' alice_orca = 15000000 - 1000 /\ balance l' demo_vault = 5000000 + 1000 /\
  balance l' alice_xorca = 5000000 + m /\ supply l' = 5000000 + m /\ a_lamports (l' alice) = 10000000000 - 5000.
Proof.
  destruct (land_stake demo_crypto (demo_env 1150) (shop 3) (shop 3) toy_before toy_signature toy_verify toy_reserved toy_tables admin
    demo_state demo_vault alice 1000 (nth 3 shop_txs []) stake_again alice_orca alice_xorca demo_ordinary)
    as (d & W & m & _ & M & _ & A & B & D & F & G);
    [apply toy_signs_well; vm_compute; reflexivity|apply shop_reaches|shop_see 3%nat|exact demo_client_vault|now apply demo_time
    |shop_asks 3%nat 0%nat|vm_compute; reflexivity|apply arrives; vm_compute; reflexivity
    |exact alice_orca_found|shop_has 3%nat|shop_has 3%nat|shop_has 3%nat|shop_see 3%nat; lia
    |exact alice_xorca_found|shop_has 3%nat|shop_has 3%nat|intros _; shop_see 3%nat; lia|shop_see 3%nat; lia
    |apply demo_pays; [shop_has 3%nat|shop_see 3%nat; lia]|].
  exists d, m, stake_again. split; [vm_compute; reflexivity|]. split; [exact W|]. cbv zeta. split.
  - rewrite M by (shop_see 3%nat; lia). shop_see 3%nat.
  - rewrite A, B, D, F, G. split; [shop_see 3%nat|]. split; [shop_see 3%nat|]. split; [shop_see 3%nat|]. split; shop_see 3%nat.
Qed.

(** A first stake: the packet also opens the staker's xORCA account. *)
Theorem C80_first_stake : forall C E l0 l before signature verify reserved tables hash sk vk st a ops b1 b2 so sx,
  ordinary_state_address C -> ata_apart C -> signs_well signature verify [st] -> reaches C l -> is_state l sk -> client_vault C sk vk ->
  sysvars_ok E -> stake_script C E l0 st a = Some ops -> instructions_of ops = Some [b1; b2] -> may_arrive reserved [b1; b2] ->
  is_ata C st orca_mint_id so -> active_account l so orca_mint_id st -> ordinary l so -> no_self_delegate l so st ->
  0 < a <= balance l so ->
  is_ata C st xorca_mint_id sx -> wallet l sx -> a_lamports (l sx) = 0 -> ta_state (a_data (l vk)) = 1 ->
  (supply l <> 0 -> free_orca l sk vk + 100 <= a * (supply l + 100)) -> balance l vk + a < 2 ^ 63 ->
  can_pay E l st 5000 -> rent_min E 0 <= a_lamports (l st) - 5000 - rent_min E 165 -> a_lamports (l st) <= u64_max ->
  exists d, wire before signature hash (Some st) [st] [b1; b2] = Some d /\
    let l' := fst (land C E verify reserved tables l d) in
    exists m,
      (supply l = 0 \/ free_orca l sk vk = 0 -> m = a) /\
      (supply l <> 0 -> free_orca l sk vk <> 0 -> m = a * (supply l + 100) / (free_orca l sk vk + 100)) /\
      0 < m /\ balance l' so = balance l so - a /\ balance l' vk = balance l vk + a /\
      reads_as_account l' sx xorca_mint_id st /\ balance l' sx = m /\ supply l' = supply l + m /\
      a_lamports (l' st) = a_lamports (l st) - 5000 - rent_min E 165.
Proof. exact land_first_stake. Qed.

Example C80_first_stake_ex : exists d m,
  wire toy_before toy_signature admin (Some bob) [bob] bob_ixs = Some d /\
  let l' := fst (land demo_crypto (demo_env 1300) toy_verify toy_reserved toy_tables (shop 5) d) in
  m = 9000000 * (5001000 + 100) / (6001000 + 100) /\
  balance l' bob_orca = 9000000 - 9000000 /\ balance l' demo_vault = 6001000 + 9000000 /\
  a_owner (shop 5 bob_xorca) = system_id /\ reads_as_account l' bob_xorca xorca_mint_id bob /\ balance l' bob_xorca = m /\
  supply l' = 5001000 + m /\ a_lamports (l' bob) = 10000000000 - 5000 - 2039280.
Proof.
  assert (W0 : wallet (shop 5) bob_xorca) by shop_has 5%nat.
  destruct (land_first_stake demo_crypto (demo_env 1300) (shop 5) (shop 5) toy_before toy_signature toy_verify toy_reserved toy_tables admin
    demo_state demo_vault bob 9000000 (nth 5 shop_txs []) (nth 0 bob_ixs alice_stake) (nth 1 bob_ixs alice_stake)
    bob_orca bob_xorca demo_ordinary demo_ata_apart)
    as (d & W & m & _ & M & _ & A & B & R & D & F & G);
    [apply toy_signs_well; vm_compute; reflexivity|apply shop_reaches|shop_see 5%nat|exact demo_client_vault|now apply demo_time
    |shop_asks 5%nat 0%nat|vm_compute; reflexivity|apply arrives; vm_compute; reflexivity
    |exact bob_orca_found|shop_has 5%nat|shop_has 5%nat|shop_has 5%nat|shop_see 5%nat; lia
    |exact bob_xorca_found|exact W0|shop_has 5%nat; reflexivity|shop_has 5%nat|intros _; shop_see 5%nat; lia|shop_see 5%nat; lia
    |apply demo_pays; [shop_has 5%nat|shop_see 5%nat; lia]|shop_see 5%nat; vm_compute; discriminate
    |shop_see 5%nat; unfold u64_max; lia|].
  exists d, m. split; [exact W|]. cbv zeta. split; [rewrite M by (shop_see 5%nat; lia); shop_see 5%nat|].
  rewrite A, B, D, F, G. split; [shop_see 5%nat|]. split; [shop_see 5%nat|]. split; [apply W0|]. split; [exact R|].
  split; [reflexivity|]. split; shop_see 5%nat.
Qed.

(** An unstake: the record is there with the stated amount and time.  (If its address is
    taken by another input of the hash, there is a collision.) *)
Theorem C80_unstake : forall C E l0 l before signature verify reserved tables hash sk vk un x j ops b k ux,
  ordinary_state_address C -> signs_well signature verify [un] -> reaches C l -> is_state l sk -> client_vault C sk vk ->
  sysvars_ok E -> unstake_script C E l0 un x j = Some ops -> instructions_of ops = Some [b] -> may_arrive reserved [b] ->
  client_record C un (js_trunc j) k -> ~ is_record l k ->
  is_ata C un xorca_mint_id ux -> active_account l ux xorca_mint_id un -> no_self_delegate l ux un -> 0 < x <= balance l ux ->
  is_i64 (now E + cooldown l sk) -> balance l vk < 2 ^ 63 ->
  can_pay E l un 5000 ->
  rent_min E 0 <= a_lamports (l un) - 5000 - Z.max 0 (rent_min E 1024 - a_lamports (l k)) ->
  collision C (eq un) \/
  exists d, wire before signature hash (Some un) [un] [b] = Some d /\
    let l' := fst (land C E verify reserved tables l d) in
    is_record l' k /\ rec_owner l' k = un /\ rec_index l' k = js_trunc j /\
    rec_amount l' k = x * (free_orca l sk vk + 100) / (supply l + 100) /\
    rec_time l' k = now E + cooldown l sk /\
    balance l' ux = balance l ux - x /\ supply l' = supply l - x /\
    escrow l' sk = escrow l sk + rec_amount l' k /\ balance l' vk = balance l vk /\
    a_lamports (l' un) = a_lamports (l un) - 5000 - Z.max 0 (rent_min E 1024 - a_lamports (l k)).
Proof. exact land_unstake. Qed.

Example C80_unstake_ex : collision demo_crypto (eq alice) \/ exists d,
  wire toy_before toy_signature admin (Some alice) [alice] [alice_unstake] = Some d /\
  let l' := fst (land demo_crypto (demo_env 2000) toy_verify toy_reserved toy_tables (shop 6) d) in
  is_record l' alice_record /\ rec_owner l' alice_record = alice /\ rec_index l' alice_record = 0 /\
  rec_amount l' alice_record = 1000000 * (15001000 + 100) / (12501274 + 100) /\
  rec_time l' alice_record = 2000 + 100 /\ a_lamports (l' alice) = 10000000000 - 5000 - 8017920.
Proof.
  destruct (land_unstake demo_crypto (demo_env 2000) (shop 6) (shop 6) toy_before toy_signature toy_verify toy_reserved toy_tables admin
    demo_state demo_vault alice 1000000 (JInt 0) (nth 6 shop_txs []) alice_unstake alice_record alice_xorca demo_ordinary)
    as [X|(d & W & A & B & D & F & G & _ & _ & _ & _ & L)];
    [apply toy_signs_well; vm_compute; reflexivity|apply shop_reaches|shop_see 6%nat|exact demo_client_vault|now apply demo_time
    |shop_asks 6%nat 0%nat|vm_compute; reflexivity|apply arrives; vm_compute; reflexivity
    |apply client_record_is; eexists; exact alice_found|shop_see 6%nat|exact alice_xorca_found|shop_has 6%nat|shop_has 6%nat|shop_see 6%nat; lia
    |shop_see 6%nat; vm_compute; repeat split; discriminate|shop_see 6%nat; lia
    |apply demo_pays; [shop_has 6%nat|shop_see 6%nat; lia]|shop_see 6%nat; vm_compute; discriminate|now left|].
  right. exists d. split; [exact W|]. cbv zeta. split; [exact A|]. split; [exact B|]. split; [exact D|].
  rewrite F, G, L. split; [shop_see 6%nat|]. split; shop_see 6%nat.
Qed.

(** The authority changes the waiting period ... *)
Theorem C80_cooldown : forall C E l before signature verify reserved tables hash sk au b c,
  ordinary_state_address C -> signs_well signature verify [au] -> on_curve C au = true -> reaches C l -> is_state l sk ->
  authority l sk = au -> script_set_cooldown C au (JInt c) = Some b -> may_arrive reserved [b] -> can_pay E l au 5000 ->
  exists d, wire before signature hash (Some au) [au] [b] = Some d /\
    let l' := fst (land C E verify reserved tables l d) in
    is_state l' sk /\ (cooldown l' sk = c /\ authority l' sk = au) /\ escrow l' sk = escrow l sk /\
    a_lamports (l' au) = a_lamports (l au) - 5000.
Proof. exact land_cooldown. Qed.
(** ... and hands over. *)
Theorem C80_authority : forall C E l before signature verify reserved tables hash sk au b k,
  ordinary_state_address C -> signs_well signature verify [au] -> on_curve C au = true -> reaches C l -> is_state l sk ->
  authority l sk = au -> script_set_authority C au k = Some b -> may_arrive reserved [b] -> can_pay E l au 5000 ->
  exists d, wire before signature hash (Some au) [au] [b] = Some d /\
    let l' := fst (land C E verify reserved tables l d) in
    is_state l' sk /\ (authority l' sk = k /\ cooldown l' sk = cooldown l sk) /\ escrow l' sk = escrow l sk /\
    a_lamports (l' au) = a_lamports (l au) - 5000.
Proof. exact land_authority. Qed.

Example C80_cooldown_ex : exists d,
  wire toy_before toy_signature admin (Some admin) [admin] [admin_cooldown] = Some d /\ cooldown (shop 5) demo_state = 100 /\
  let l' := fst (land demo_crypto (demo_env 1300) toy_verify toy_reserved toy_tables (shop 5) d) in
  cooldown l' demo_state = 50 /\ a_lamports (l' admin) = 10000000000 - 5000.
Proof.
  destruct (land_cooldown demo_crypto (demo_env 1300) (shop 5) toy_before toy_signature toy_verify toy_reserved toy_tables admin
    demo_state admin admin_cooldown 50 demo_ordinary) as (d & W & _ & (A & _) & _ & B);
    [apply toy_signs_well; vm_compute; reflexivity|vm_compute; reflexivity|apply shop_reaches|shop_see 5%nat|shop_see 5%nat
    |exact admin_cooldown_built|apply arrives; vm_compute; reflexivity
    |apply demo_pays; [shop_has 5%nat|shop_has 5%nat; lia]|].
  exists d. split; [exact W|]. split; [shop_see 5%nat|]. cbv zeta. split; [exact A|]. rewrite B. shop_has 5%nat. reflexivity.
Qed.
Example C80_authority_ex : exists b d,
  script_set_authority demo_crypto admin alice = Some b /\
  wire toy_before toy_signature admin (Some admin) [admin] [b] = Some d /\ authority (shop 5) demo_state = admin /\
  authority (fst (land demo_crypto (demo_env 1300) toy_verify toy_reserved toy_tables (shop 5) d)) demo_state = alice.
Proof.
  destruct (land_authority demo_crypto (demo_env 1300) (shop 5) toy_before toy_signature toy_verify toy_reserved toy_tables admin
    demo_state admin hand_over alice demo_ordinary) as (d & W & _ & (A & _) & _);
    [apply toy_signs_well; vm_compute; reflexivity|vm_compute; reflexivity|apply shop_reaches|shop_see 5%nat|shop_see 5%nat
    |exact hand_over_built|apply arrives; vm_compute; reflexivity
    |apply demo_pays; [shop_has 5%nat|shop_has 5%nat; lia]|].
  exists hand_over, d. split; [exact hand_over_built|]. split; [exact W|]. split; [shop_see 5%nat|exact A].
Qed.

(** Someone without an ORCA account: the withdrawal opens one and fills it ... *)
Theorem C80_first_withdraw : forall C E l0 l before signature verify reserved tables hash sk vk un j ops b1 b2 k uo,
  ordinary_state_address C -> ata_apart C -> signs_well signature verify [un] -> reaches C l -> is_state l sk -> client_vault C sk vk ->
  sysvars_ok E -> withdraw_script C E l0 un j = Some ops -> instructions_of ops = Some [b1; b2] -> may_arrive reserved [b1; b2] ->
  is_record l k -> rec_owner l k = un -> rec_index l k = js_trunc j -> rec_time l k <= now E ->
  is_ata C un orca_mint_id uo -> wallet l uo -> a_lamports (l uo) = 0 -> ta_state (a_data (l vk)) = 1 ->
  can_pay E l un 5000 -> rent_min E 165 <= a_lamports (l un) - 5000 ->
  rent_min E 0 <= a_lamports (l un) - 5000 - rent_min E 165 + a_lamports (l k) ->
  a_lamports (l un) + a_lamports (l k) <= u64_max ->
  exists d, wire before signature hash (Some un) [un] [b1; b2] = Some d /\
    let l' := fst (land C E verify reserved tables l d) in
    ~ is_record l' k /\ reads_as_account l' uo orca_mint_id un /\ balance l' uo = rec_amount l k /\
    balance l' vk = balance l vk - rec_amount l k /\ escrow l' sk = escrow l sk - rec_amount l k /\
    a_lamports (l' un) = a_lamports (l un) - 5000 - rent_min E 165 + a_lamports (l k).
Proof. exact land_first_withdraw. Qed.

Example C80_first_withdraw_ex : exists d b1 b2,
  instructions_of (shut_withdraw demo_env) = Some [b1; b2] /\
  wire toy_before toy_signature admin (Some alice) [alice] [b1; b2] = Some d /\ a_owner (shut alice_orca) = system_id /\
  let l' := fst (land demo_crypto (demo_env 2100) toy_verify toy_reserved toy_tables shut d) in
  ~ is_record l' alice_record /\ reads_as_account l' alice_orca orca_mint_id alice /\ balance l' alice_orca = 1199956 /\
  balance l' demo_vault = 15001000 - 1199956 /\ a_lamports (l' alice) = 9994021360 - 5000 - 2039280 + 8017920.
Proof.
  destruct shut_facts as ((S1 & S2 & S3 & S4) & (U1 & U2 & U3 & U4) & (N1 & N2 & N3 & N4 & N5 & N6 & N7 & N8 & N9 & N10 & N11 & N12) & Q1 & Q2).
  destruct (land_first_withdraw demo_crypto (demo_env 2100) shut shut toy_before toy_signature toy_verify toy_reserved toy_tables admin
    demo_state demo_vault alice (JInt 0) (shut_withdraw demo_env) (nth 0 shut_out alice_stake) (nth 1 shut_out alice_stake)
    alice_record alice_orca demo_ordinary demo_ata_apart)
    as (d & W & A & B & D & F & _ & G);
    [apply toy_signs_well; vm_compute; reflexivity|exact shut_reaches|exact S1|exact demo_client_vault|now apply demo_time
    |exact Q1|vm_compute; reflexivity|apply arrives; vm_compute; reflexivity
    |exact S2|exact S3|exact N1|rewrite N2; cbn; lia|exact alice_orca_found|exact U2|exact N6|exact (usable_state _ _ _ _ U4)
    |apply demo_pays; [exact U1|rewrite N4; lia]|rewrite N4; vm_compute; discriminate|rewrite N4, N5; vm_compute; discriminate
    |rewrite N4, N5; vm_compute; discriminate|].
  exists d, (nth 0 shut_out alice_stake), (nth 1 shut_out alice_stake). split; [vm_compute; reflexivity|]. split; [exact W|].
  split; [apply U2|]. cbv zeta. split; [exact A|]. split; [exact B|]. rewrite D, F, G, N3, N4, N5, N8.
  split; [reflexivity|]. split; reflexivity.
Qed.

(** ... and so does the unstake. *)
Theorem C80_first_unstake : forall C E l0 l before signature verify reserved tables hash sk vk un x j ops b1 b2 k ux uo,
  ordinary_state_address C -> ata_apart C -> signs_well signature verify [un] -> reaches C l -> is_state l sk -> client_vault C sk vk ->
  sysvars_ok E -> unstake_script C E l0 un x j = Some ops -> instructions_of ops = Some [b1; b2] -> may_arrive reserved [b1; b2] ->
  client_record C un (js_trunc j) k -> ~ is_record l k ->
  is_ata C un xorca_mint_id ux -> active_account l ux xorca_mint_id un -> no_self_delegate l ux un -> 0 < x <= balance l ux ->
  is_ata C un orca_mint_id uo -> uo <> k -> wallet l uo -> a_lamports (l uo) = 0 ->
  is_i64 (now E + cooldown l sk) -> balance l vk < 2 ^ 63 ->
  can_pay E l un 5000 -> a_lamports (l un) <= u64_max ->
  rent_min E 0 <= a_lamports (l un) - 5000 - rent_min E 165 - Z.max 0 (rent_min E 1024 - a_lamports (l k)) ->
  collision C (eq un) \/
  exists d, wire before signature hash (Some un) [un] [b1; b2] = Some d /\
    let l' := fst (land C E verify reserved tables l d) in
    is_record l' k /\ rec_owner l' k = un /\ rec_index l' k = js_trunc j /\
    rec_amount l' k = x * (free_orca l sk vk + 100) / (supply l + 100) /\
    rec_time l' k = now E + cooldown l sk /\
    reads_as_account l' uo orca_mint_id un /\ balance l' uo = 0 /\
    balance l' ux = balance l ux - x /\ supply l' = supply l - x /\
    escrow l' sk = escrow l sk + rec_amount l' k /\ balance l' vk = balance l vk /\
    a_lamports (l' un) = a_lamports (l un) - 5000 - rent_min E 165 - Z.max 0 (rent_min E 1024 - a_lamports (l k)).
Proof. exact land_first_unstake. Qed.

Example C80_first_unstake_ex : collision demo_crypto (eq alice) \/ exists d b1 b2,
  instructions_of (shut_unstake demo_env) = Some [b1; b2] /\
  wire toy_before toy_signature admin (Some alice) [alice] [b1; b2] = Some d /\ a_owner (shut alice_orca) = system_id /\
  let l' := fst (land demo_crypto (demo_env 2100) toy_verify toy_reserved toy_tables shut d) in
  is_record l' second_record /\ rec_amount l' second_record = 1000000 * (15001000 - 1199956 + 100) / (11501274 + 100) /\
  rec_time l' second_record = 2100 + 100 /\ reads_as_account l' alice_orca orca_mint_id alice /\ balance l' alice_orca = 0 /\
  a_lamports (l' alice) = 9994021360 - 5000 - 2039280 - 8017920.
Proof.
  destruct shut_facts as ((S1 & S2 & S3 & S4) & (U1 & U2 & U3 & U4) & (N1 & N2 & N3 & N4 & N5 & N6 & N7 & N8 & N9 & N10 & N11 & N12) & Q1 & Q2).
  destruct (land_first_unstake demo_crypto (demo_env 2100) shut shut toy_before toy_signature toy_verify toy_reserved toy_tables admin
    demo_state demo_vault alice 1000000 (JInt 1) (shut_unstake demo_env) (nth 0 shut_in alice_stake) (nth 1 shut_in alice_stake)
    second_record alice_xorca alice_orca demo_ordinary demo_ata_apart)
    as [X|(d & W & A & _ & _ & B & D & F & G & _ & _ & _ & _ & L)];
    [apply toy_signs_well; vm_compute; reflexivity|exact shut_reaches|exact S1|exact demo_client_vault|now apply demo_time
    |exact Q2|vm_compute; reflexivity|apply arrives; vm_compute; reflexivity
    |exact second_found|exact S4|exact alice_xorca_found|exact (usable_active _ _ _ _ U3)|exact (usable_no_delegate _ _ _ _ _ U3)|rewrite N12; lia
    |exact alice_orca_found|intros H; apply (f_equal key_bytes) in H; vm_compute in H; discriminate H|exact U2|exact N6
    |rewrite N11; vm_compute; repeat split; discriminate|rewrite N8; lia
    |apply demo_pays; [exact U1|rewrite N4; lia]|rewrite N4; vm_compute; discriminate|rewrite N4, N7; vm_compute; discriminate|now left|].
  right. exists d, (nth 0 shut_in alice_stake), (nth 1 shut_in alice_stake). split; [vm_compute; reflexivity|]. split; [exact W|].
  split; [apply U2|]. cbv zeta. split; [exact A|]. rewrite B, D, L, G. unfold free_orca. rewrite N4, N7, N8, N9, N10, N11.
  split; [reflexivity|]. split; [reflexivity|]. split; [exact F|]. split; reflexivity.
Qed.

(** The pool starts: the fee is for one signature or two. *)
Theorem C80_initialize : forall C E l before signature verify reserved tables hash sk vk au c ops b n,
  ordinary_state_address C -> deployer_has_key C -> on_curve C au = true -> signs_well signature verify [deployer_address; au] ->
  reaches C l -> (forall k, ~ is_state l k) -> mints_ready l sk ->
  client_state C sk -> client_vault C sk vk -> sk <> vk -> sysvars_ok E ->
  initialize_script C E deployer_address au (JInt c) = Some ops -> instructions_of ops = Some [b] -> may_arrive reserved [b] ->
  0 <= c -> wallet l vk ->
  (au = deployer_address /\ n = 5000 \/ au <> deployer_address /\ n = 10000) ->
  can_pay E l deployer_address n ->
  rent_min E 2048 + rent_min E 165 + rent_min E 0 <= a_lamports (l deployer_address) - n ->
  a_lamports (l sk) + a_lamports (l vk) + a_lamports (l deployer_address) <= u64_max ->
  exists d, wire before signature hash None [deployer_address; au] [b] = Some d /\
    let l' := fst (land C E verify reserved tables l d) in
    is_state l' sk /\ authority l' sk = au /\ cooldown l' sk = c /\ escrow l' sk = 0 /\
    reads_as_account l' vk orca_mint_id sk /\ balance l' vk = 0 /\ ordinary l' vk /\
    a_lamports (l' deployer_address) = a_lamports (l deployer_address) - n
      - Z.max 0 (rent_min E 2048 - a_lamports (l sk)) - Z.max 0 (Z.max 1 (rent_min E 165) - a_lamports (l vk)).
Proof. exact land_initialize. Qed.

Example C80_initialize_ex : exists d b,
  instructions_of (nth 1 shop_txs []) = Some [b] /\
  wire toy_before toy_signature admin None [deployer_address; admin] [b] = Some d /\ (forall k, ~ is_state (demo 0) k) /\
  let l' := fst (land demo_crypto (demo_env 1000) toy_verify toy_reserved toy_tables (demo 0) d) in
  is_state l' demo_state /\ authority l' demo_state = admin /\ cooldown l' demo_state = 100 /\ balance l' demo_vault = 0 /\
  a_lamports (l' deployer_address) = 10000000000 - 10000 - rent_min (demo_env 1000) 2048 - 2039280.
Proof.
  destruct demo_start as (W1 & W2 & W3 & L1 & L2 & L3 & L4 & M).
  destruct (land_initialize demo_crypto (demo_env 1000) (demo 0) toy_before toy_signature toy_verify toy_reserved toy_tables admin
    demo_state demo_vault admin 100 (nth 1 shop_txs []) start_pool 10000 demo_ordinary demo_deployer)
    as (d & W & A & B & D & _ & _ & F & _ & G);
    [vm_compute; reflexivity|apply toy_signs_well; vm_compute; reflexivity|apply demo_reaches|exact demo_start_fresh|exact M
    |exact demo_client_state|exact demo_client_vault|exact demo_state_ne_vault|now apply demo_time
    |shop_asks 1%nat 0%nat|vm_compute; reflexivity|apply arrives; vm_compute; reflexivity|lia|exact W1
    |right; split; [intros H; apply (f_equal key_bytes) in H; vm_compute in H; discriminate H|reflexivity]
    |apply demo_pays_more; [exact W3|rewrite L4; lia|lia]|rewrite L4; vm_compute; discriminate|rewrite L1, L2, L4; vm_compute; discriminate|].
  exists d, start_pool. split; [vm_compute; reflexivity|]. split; [exact W|]. split; [exact demo_start_fresh|]. cbv zeta.
  split; [exact A|]. split; [exact B|]. split; [exact D|]. split; [exact F|]. rewrite G, L1, L2, L4. vm_compute. reflexivity.
Qed.

(** A donation raises what every xORCA is worth, and only takes the donor's ORCA and fee. *)
Theorem C80_deposit : forall C E l0 l before signature verify reserved tables hash sk vk u n ops b so,
  ordinary_state_address C -> signs_well signature verify [u] -> reaches C l -> is_state l sk -> client_vault C sk vk ->
  deposit_script C E l0 u (JInt n) = Some ops -> instructions_of ops = Some [b] -> may_arrive reserved [b] -> u <> token_id ->
  is_ata C u orca_mint_id so -> active_account l so orca_mint_id u -> ordinary l so -> no_self_delegate l so u ->
  n <= balance l so -> ta_state (a_data (l vk)) = 1 -> balance l vk + n <= u64_max -> can_pay E l u 5000 ->
  exists d, wire before signature hash (Some u) [u] [b] = Some d /\
    let l' := fst (land C E verify reserved tables l d) in
    0 <= n /\ balance l' so = balance l so - n /\ balance l' vk = balance l vk + n /\
    free_orca l' sk vk = free_orca l sk vk + n /\ supply l' = supply l /\ escrow l' sk = escrow l sk /\
    a_lamports (l' u) = a_lamports (l u) - 5000 /\
    forall x, 0 <= x -> worth l sk vk x <= worth l' sk vk x.
Proof. exact land_deposit. Qed.

Example C80_deposit_ex : exists d,
  wire toy_before toy_signature admin (Some bob) [bob] [donate] = Some d /\
  let l' := fst (land demo_crypto (demo_env 1200) toy_verify toy_reserved toy_tables (shop 4) d) in
  balance l' demo_vault = 5001000 + 1000000 /\ free_orca l' demo_state demo_vault = 5001000 + 1000000 /\
  supply l' = 5001000 /\ a_lamports (l' bob) = 10000000000 - 5000.
Proof.
  destruct (land_deposit demo_crypto (demo_env 1200) (shop 4) (shop 4) toy_before toy_signature toy_verify toy_reserved toy_tables admin
    demo_state demo_vault bob 1000000 (nth 4 shop_txs []) donate bob_orca demo_ordinary)
    as (d & W & _ & _ & A & B & D & _ & L & _);
    [apply toy_signs_well; vm_compute; reflexivity|apply shop_reaches|shop_see 4%nat|exact demo_client_vault
    |shop_asks 4%nat 0%nat|vm_compute; reflexivity|apply arrives; vm_compute; reflexivity
    |intros Q; apply (f_equal key_bytes) in Q; vm_compute in Q; discriminate Q
    |exact bob_orca_found|shop_has 4%nat|shop_has 4%nat|shop_has 4%nat|shop_see 4%nat; lia|shop_has 4%nat|shop_see 4%nat; unfold u64_max; lia
    |apply demo_pays; [shop_has 4%nat|shop_has 4%nat; lia]|].
  exists d. split; [exact W|]. cbv zeta. rewrite A, B, D, L.
  split; [shop_see 4%nat|]. split; [shop_see 4%nat|]. split; [shop_see 4%nat|shop_has 4%nat; reflexivity].
Qed.

(** A transfer to someone who has an ORCA account ... *)
Theorem C80_transfer : forall C E l0 l before signature verify reserved tables hash u w n ops b from to,
  signs_well signature verify [u] -> transfer_script C E l0 u w n = Some ops -> instructions_of ops = Some [b] ->
  may_arrive reserved [b] -> u <> token_id -> u <> w ->
  is_ata C u orca_mint_id from -> active_account l from orca_mint_id u -> ordinary l from -> no_self_delegate l from u ->
  n <= balance l from -> is_ata C w orca_mint_id to -> active_account l to orca_mint_id w -> balance l to + n <= u64_max ->
  can_pay E l u 5000 ->
  exists d, wire before signature hash (Some u) [u] [b] = Some d /\
    let l' := fst (land C E verify reserved tables l d) in
    0 <= n /\ balance l' from = balance l from - n /\ balance l' to = balance l to + n /\
    a_lamports (l' u) = a_lamports (l u) - 5000 /\
    forall k, k <> from -> k <> to -> a_data (l' k) = a_data (l k).
Proof. exact land_transfer. Qed.

Example C80_transfer_ex : exists d,
  wire toy_before toy_signature admin (Some alice) [alice] [give] = Some d /\
  let l' := fst (land demo_crypto (demo_env 2060) toy_verify toy_reserved toy_tables (shop 7) d) in
  balance l' alice_orca = 14999000 - 4000 /\ balance l' bob_orca = balance (shop 7) bob_orca + 4000 /\
  a_lamports (l' alice) = 9991982080 - 5000.
Proof.
  destruct (land_transfer demo_crypto (demo_env 2060) (shop 7) (shop 7) toy_before toy_signature toy_verify toy_reserved toy_tables admin
    alice bob 4000 (give_ops demo_env) give alice_orca bob_orca) as (d & W & _ & A & B & L & _);
    [apply toy_signs_well; vm_compute; reflexivity|exact (give_is demo_env)|vm_compute; reflexivity|apply arrives; vm_compute; reflexivity
    |intros Q; apply (f_equal key_bytes) in Q; vm_compute in Q; discriminate Q
    |intros Q; apply (f_equal key_bytes) in Q; vm_compute in Q; discriminate Q
    |exact alice_orca_found|shop_has 7%nat|shop_has 7%nat|shop_has 7%nat|shop_see 7%nat; lia|exact bob_orca_found|shop_has 7%nat
    |shop_see 7%nat; unfold u64_max; lia|apply demo_pays; [shop_has 7%nat|shop_see 7%nat; lia]|].
  exists d. split; [exact W|]. cbv zeta. rewrite A, B, L. split; [shop_see 7%nat|]. split; [reflexivity|shop_see 7%nat].
Qed.

(** ... and to someone who has none: the packet opens it at the sender's cost. *)
Theorem C80_first_transfer : forall C E l0 l before signature verify reserved tables hash u w n ops b1 b2 from to,
  ordinary_state_address C -> signs_well signature verify [u] -> reaches C l -> sysvars_ok E ->
  transfer_script C E l0 u w n = Some ops -> instructions_of ops = Some [b1; b2] ->
  may_arrive reserved [b1; b2] -> u <> token_id -> u <> ata_id ->
  is_ata C u orca_mint_id from -> active_account l from orca_mint_id u -> ordinary l from -> no_self_delegate l from u ->
  n <= balance l from -> is_ata C w orca_mint_id to -> wallet l to -> a_lamports (l to) = 0 ->
  can_pay E l u 5000 -> rent_min E 0 <= a_lamports (l u) - 5000 - rent_min E 165 -> a_lamports (l u) <= u64_max ->
  exists d, wire before signature hash (Some u) [u] [b1; b2] = Some d /\
    let l' := fst (land C E verify reserved tables l d) in
    0 <= n /\ balance l' from = balance l from - n /\ balance l' to = n /\
    a_lamports (l' to) = rent_min E 165 /\ a_lamports (l' u) = a_lamports (l u) - 5000 - rent_min E 165 /\
    forall k, k <> from -> k <> to -> a_data (l' k) = a_data (l k).
Proof. exact land_first_transfer. Qed.

Example C80_first_transfer_ex : exists d b1 b2,
  instructions_of (nth 8 shop_txs []) = Some [b1; b2] /\
  wire toy_before toy_signature admin (Some alice) [alice] [b1; b2] = Some d /\
  let l' := fst (land demo_crypto (demo_env 2150) toy_verify toy_reserved toy_tables (shop 8) d) in
  balance l' alice_orca = balance (shop 8) alice_orca - 4000 /\ balance l' admin_orca = 4000 /\
  a_lamports (l' alice) = a_lamports (shop 8 alice) - 5000 - 2039280.
Proof.
  assert (I : exists b1 b2, instructions_of (nth 8 shop_txs []) = Some [b1; b2] /\ transfer_ixs = [b1; b2])
    by (do 2 eexists; split; vm_compute; reflexivity).
  destruct I as (b1 & b2 & I & Tx).
  destruct (land_first_transfer demo_crypto (demo_env 2150) (shop 8) (shop 8) toy_before toy_signature toy_verify toy_reserved toy_tables admin
    alice admin 4000 (nth 8 shop_txs []) b1 b2 alice_orca admin_orca demo_ordinary) as (d & W & _ & A & B & _ & L & _);
    [apply toy_signs_well; vm_compute; reflexivity|apply shop_reaches|now apply demo_time|shop_asks 8%nat 0%nat|exact I
    |rewrite <- Tx; apply arrives; vm_compute; reflexivity
    |intros Q; apply (f_equal key_bytes) in Q; vm_compute in Q; discriminate Q
    |intros Q; apply (f_equal key_bytes) in Q; vm_compute in Q; discriminate Q
    |exact alice_orca_found|shop_has 8%nat|shop_has 8%nat|shop_has 8%nat|shop_see 8%nat; lia|exact admin_orca_found|shop_has 8%nat
    |shop_has 8%nat; reflexivity|apply demo_pays; [shop_has 8%nat|shop_see 8%nat; lia]|shop_see 8%nat; vm_compute; discriminate
    |shop_see 8%nat; unfold u64_max; lia|].
  exists d, b1, b2. split; [exact I|]. split; [exact W|]. cbv zeta.
  assert (R : rent_min (demo_env 2150) 165 = 2039280) by (vm_compute; reflexivity).
  rewrite R in L. split; [exact A|]. split; [exact B|exact L].
Qed.

(** The mint authority goes to the program's state address. *)
Theorem C80_mint_authority : forall C E l before signature verify reserved tables hash sk u ops b,
  signs_well signature verify [u] -> client_state C sk -> authority_script C E u = Some ops -> instructions_of ops = Some [b] ->
  may_arrive reserved [b] -> u <> token_id ->
  a_owner (l xorca_mint_id) = token_id -> mint_unpack (a_data (l xorca_mint_id)) = Ok tt ->
  mint_auth_flag (a_data (l xorca_mint_id)) = 1 -> mint_auth (a_data (l xorca_mint_id)) = u -> can_pay E l u 5000 ->
  exists d, wire before signature hash (Some u) [u] [b] = Some d /\
    let l' := fst (land C E verify reserved tables l d) in
    mint_auth_flag (a_data (l' xorca_mint_id)) = 1 /\ mint_auth (a_data (l' xorca_mint_id)) = sk /\
    supply l' = supply l /\ a_lamports (l' u) = a_lamports (l u) - 5000 /\
    forall k, k <> xorca_mint_id -> a_data (l' k) = a_data (l k).
Proof. exact land_mint_authority. Qed.

Example C80_mint_authority_ex : exists d,
  wire toy_before toy_signature admin (Some admin) [admin] [hand_mint] = Some d /\
  let l' := fst (land demo_crypto (demo_env 900) toy_verify toy_reserved toy_tables (shop 0) d) in
  mint_auth (a_data (l' xorca_mint_id)) = demo_state /\ a_lamports (l' admin) = a_lamports (shop 0 admin) - 5000.
Proof.
  destruct (land_mint_authority demo_crypto (demo_env 900) (shop 0) toy_before toy_signature toy_verify toy_reserved toy_tables admin
    demo_state admin (nth 0 shop_txs []) hand_mint) as (d & W & _ & A & _ & L & _);
    [apply toy_signs_well; vm_compute; reflexivity|exact demo_client_state|shop_asks 0%nat 0%nat|vm_compute; reflexivity
    |apply arrives; vm_compute; reflexivity
    |intros Q; apply (f_equal key_bytes) in Q; vm_compute in Q; discriminate Q
    |rewrite shop_start; vm_compute; reflexivity|rewrite shop_start; vm_compute; reflexivity
    |rewrite shop_start; vm_compute; reflexivity|rewrite shop_start; vm_compute; reflexivity
    |apply demo_pays; rewrite shop_start; [split; vm_compute; reflexivity|vm_compute; discriminate]|].
  exists d. split; [exact W|]. cbv zeta. split; [exact A|exact L].
Qed.

Print Assumptions C80_withdraw.
Print Assumptions C80_stake.
Print Assumptions C80_first_stake.
Print Assumptions C80_unstake.
Print Assumptions C80_cooldown.
Print Assumptions C80_authority.
Print Assumptions C80_first_withdraw.
Print Assumptions C80_first_unstake.
Print Assumptions C80_initialize.
Print Assumptions C80_deposit.
Print Assumptions C80_transfer.
Print Assumptions C80_first_transfer.
Print Assumptions C80_mint_authority.
