(** C69: the runtime's rent check after a call. *)
From Verif Require Import RentSpec RentCheckFacts HistoryFacts LifeFacts Transaction Demo DemoMore DemoStory DemoMistake DemoRent.
Import List ListNotations.
Open Scope list_scope.
Open Scope Z_scope.

(** ** C69 *)
(** Stake and Set leave every account able to pass. *)
Theorem C69_stake_passes : forall C l E accs data a l' evs,
  honest_metas C accs -> encodes data (Stake a) -> (forall so, slot accs 2 so -> ordinary l so) ->
  process_instruction C E xorca_id accs l data = Ok (l', evs) -> forall k, passes_rent E l l' k.
Proof. exact stake_passes. Qed.
Theorem C69_set_passes : forall C l E accs data u l' evs,
  encodes data (Set_ u) -> process_instruction C E xorca_id accs l data = Ok (l', evs) -> forall k, passes_rent E l l' k.
Proof. exact set_passes. Qed.

Example C69_stake_set_ex :
  (forall k, passes_rent (demo_env 1300) (demo 3) (demo 4) k) /\
  (forall k, passes_rent (demo_env 2001) (demo 5) (demo 6) k).
Proof.
  split.
  - pose proof (demo_step_ok 3 _ _ _ eq_refl eq_refl I) as H. cbn [attempt demo_call] in H.
    refine (C69_stake_passes _ _ _ _ _ 3000000 _ _ _ _ _ H); [apply (demo_op_ok 3 _ eq_refl (demo 3))|demo_encodes|].
    intros so (m & [= <-] & <-). apply (du_bo _ (demo_usable_at 3 _ eq_refl)).
  - pose proof (demo_step_ok 5 _ _ _ eq_refl eq_refl I) as H. cbn [attempt demo_call] in H.
    refine (C69_set_passes _ _ _ _ _ (UpdateCoolDownPeriod 50) _ _ _ H). demo_encodes.
Qed.

(** After Unstake every account but the signer passes; the new record does because it is exempt. *)
Theorem C69_unstake_others_pass : forall C l E accs data x i l' evs un,
  sysvars_ok E -> honest_metas C accs -> encodes data (Unstake x i) -> slot accs 0 un ->
  process_instruction C E xorca_id accs l data = Ok (l', evs) -> forall k, k <> un -> passes_rent E l l' k.
Proof. exact unstake_others_pass. Qed.
(** The signer, who pays for the record, passes in exactly these cases. *)
Theorem C69_unstake_signer : forall C l E accs data x i l' evs un,
  ordinary_state_address C -> reaches C l -> op_ok C l (OpCall E accs data) -> encodes data (Unstake x i) -> slot accs 0 un ->
  process_instruction C E xorca_id accs l data = Ok (l', evs) ->
  passes_rent E l l' un <->
  a_lamports (l' un) = 0 \/ rent_min E (zlen (a_data (l un))) <= a_lamports (l' un) \/
  a_lamports (l un) < rent_min E (zlen (a_data (l un))).
Proof. exact unstake_signer_passes. Qed.

Example C69_unstake_ex :
  (forall k, k <> alice -> passes_rent (demo_env 2000) (demo 4) (demo 5) k) /\
  passes_rent (demo_env 2000) (demo 4) (demo 5) alice.
Proof.
  pose proof (demo_step_ok 4 _ _ _ eq_refl eq_refl I) as H. cbn [attempt demo_call] in H.
  assert (He : encodes (instruction_bytes (Unstake 1000000 0)) (Unstake 1000000 0)) by demo_encodes.
  assert (S0 : slot (unstake_accs alice alice_xorca alice_record) 0 alice) by (exists (ws alice); auto).
  pose proof (demo_op_ok 4 _ eq_refl (demo 4)) as Ho.
  split.
  - exact (C69_unstake_others_pass _ _ _ _ _ _ _ _ _ _ (proj1 Ho) (proj2 Ho) He S0 H).
  - apply (C69_unstake_signer _ _ _ _ _ _ _ _ _ _ demo_ordinary (demo_reaches 4) Ho He S0 H). right. left.
    destruct (du_a _ (demo_usable_at 4 _ eq_refl)) as (_ & D). rewrite D.
    assert (L : a_lamports (demo 5 alice) = 10000000000 - 8017920) by see 5%nat. rewrite L. vm_compute. discriminate.
Qed.

(** A signer left with one lamport does not: the call itself succeeds and the runtime undoes the transaction. *)
Example C69_unstake_rejected_ex :
  reaches demo_crypto poor /\
  exists l' evs,
    process_instruction demo_crypto (demo_env 2000) xorca_id (unstake_accs alice alice_xorca alice_record) poor
      (instruction_bytes (Unstake 1000000 0)) = Ok (l', evs) /\
    a_lamports (l' alice) = 1 /\ ~ passes_rent (demo_env 2000) poor l' alice.
Proof.
  split; [exact poor_reached|]. destruct poor_called as (l' & evs & H & L1 & L2 & L3). exists l', evs.
  split; [exact H|]. split; [exact L3|].
  assert (He : encodes (instruction_bytes (Unstake 1000000 0)) (Unstake 1000000 0)) by demo_encodes.
  assert (S0 : slot (unstake_accs alice alice_xorca alice_record) 0 alice) by (exists (ws alice); auto).
  pose proof (demo_op_ok 4 _ eq_refl poor) as Ho.
  rewrite (C69_unstake_signer _ _ _ _ _ _ _ _ _ _ demo_ordinary poor_reached Ho He S0 H).
  unfold zlen. rewrite L1, L2, L3. cbn. lia.
Qed.

(** So with Initialize and the deployer. *)
Theorem C69_initialize_others_pass : forall C l E accs data c l' evs,
  ordinary_state_address C -> deployer_has_key C -> reaches C l -> op_ok C l (OpCall E accs data) -> encodes data (Initialize c) ->
  process_instruction C E xorca_id accs l data = Ok (l', evs) -> forall k, k <> deployer_address -> passes_rent E l l' k.
Proof. exact initialize_others_pass. Qed.
Theorem C69_initialize_signer : forall C l E accs data c l' evs,
  ordinary_state_address C -> deployer_has_key C -> reaches C l -> op_ok C l (OpCall E accs data) -> encodes data (Initialize c) ->
  process_instruction C E xorca_id accs l data = Ok (l', evs) ->
  passes_rent E l l' deployer_address <->
  a_lamports (l' deployer_address) = 0 \/
  rent_min E (zlen (a_data (l deployer_address))) <= a_lamports (l' deployer_address) \/
  a_lamports (l deployer_address) < rent_min E (zlen (a_data (l deployer_address))).
Proof. exact initialize_signer_passes. Qed.

Example C69_initialize_ex :
  (forall k, k <> deployer_address -> passes_rent (demo_env 1000) (demo 0) (demo 1) k).
Proof.
  pose proof (demo_step_ok 0 _ _ _ eq_refl eq_refl I) as H. cbn [attempt demo_call] in H.
  refine (C69_initialize_others_pass _ _ _ _ _ 100 _ _ demo_ordinary demo_deployer (demo_reaches 0) (demo_op_ok 0 _ eq_refl _) _ H).
  demo_encodes.
Qed.

(** After Withdraw every account passes, the signer if the refund makes it exempt; *)
Theorem C69_withdraw_passes : forall C l o sk i accs t un k,
  ordinary_state_address C -> reaches C l -> is_state l sk ->
  op_ok C l o -> performs C l o (Withdraw i) accs t -> slot accs 0 un -> slot accs 2 k ->
  exists E data, o = OpCall E accs data /\
    let l' := fst (run_op C l o) in
    (forall a, a <> un -> passes_rent E l l' a) /\
    (rent_min E (zlen (a_data (l un))) <= a_lamports (l un) + a_lamports (l k) -> passes_rent E l l' un).
Proof. exact withdraw_passes. Qed.
(** which the rent paid with Unstake does by itself, whatever the signer holds. *)
Theorem C69_claim_passes : forall C l o1 sk x i accs1 t1 un k ops l2 evs o2 j accs2 t2,
  ordinary_state_address C -> reaches C l -> is_state l sk ->
  op_ok C l o1 -> performs C l o1 (Unstake x i) accs1 t1 -> slot accs1 0 un -> slot accs1 2 k ->
  let l1 := fst (run_op C l o1) in
  history C l1 ops l2 evs -> unchanged_during C l1 ops k ->
  op_ok C l2 o2 -> performs C l2 o2 (Withdraw j) accs2 t2 -> slot accs2 0 un -> slot accs2 2 k ->
  let l3 := fst (run_op C l2 o2) in
  exists E1 data1 E2 data2, o1 = OpCall E1 accs1 data1 /\ o2 = OpCall E2 accs2 data2 /\
    (rent_min E2 (zlen (a_data (l2 un))) <= rent_min E1 1024 -> forall a, passes_rent E2 l2 l3 a).
Proof. exact claim_passes. Qed.

Example C69_withdraw_ex :
  (forall k, k <> alice -> passes_rent (demo_env 2100) (demo 9) (demo 10) k) /\
  rent_min (demo_env 2100) 0 <= rent_min (demo_env 2000) 1024 /\
  a_lamports (demo 9 alice_record) = 8017920 /\ rent_min (demo_env 2100) 0 = 890880.
Proof.
  split; [|split; [vm_compute; discriminate|split; [see 9%nat|reflexivity]]].
  destruct (C69_withdraw_passes demo_crypto (demo 9) (demo_call 2100 (withdraw_accs alice alice_orca alice_record) (Withdraw 0))
    demo_state 0 (withdraw_accs alice alice_orca alice_record) 2100 alice alice_record) as (E & data & Eo & A & _).
  - exact demo_ordinary.
  - apply demo_reaches.
  - see 9%nat.
  - apply (demo_op_ok 9 _ eq_refl).
  - demo_call_ok 9%nat.
  - exists (ws alice); auto.
  - exists (w_ alice_record); auto.
  - injection Eo as <- <-. rewrite <- (demo_next 9 _ eq_refl) in A. exact A.
Qed.

Print Assumptions C69_stake_passes.
Print Assumptions C69_set_passes.
Print Assumptions C69_unstake_others_pass.
Print Assumptions C69_unstake_signer.
Print Assumptions C69_initialize_others_pass.
Print Assumptions C69_initialize_signer.
Print Assumptions C69_withdraw_passes.
Print Assumptions C69_claim_passes.
