(** Properties of executions: C01, C02, C04-C07, C13, C19-C21, C23, C29, C42, C43.
    Only statements, one-line proofs, examples and [Print Assumptions].  The
    vocabulary is in Spec.v; the examples use the execution of Demo.v. *)
From Verif Require Import Spec BytesFacts HistoryFacts LifeFacts RateFacts EffectFacts ClaimFacts EventFacts
  Demo.

(** ** C01 *)
Theorem C01_solvency : forall C l sk vk,
  ordinary_state_address C -> reaches C l -> is_state l sk -> is_vault C sk vk ->
  escrow l sk + supply l <= balance l vk.
Proof. exact solvency. Qed.

Theorem C01_promises_covered : forall C l sk vk ks,
  ordinary_state_address C -> reaches C l -> is_state l sk -> is_vault C sk vk ->
  NoDup ks -> (forall k, In k ks -> is_record l k) ->
  sumZ (map (rec_amount l) ks) + supply l <= balance l vk.
Proof. exact promises_covered. Qed.

Example C01_ex :
  ordinary_state_address demo_crypto /\ reaches demo_crypto (demo 9) /\
  is_state (demo 9) demo_state /\ is_vault demo_crypto demo_state demo_vault /\
  escrow (demo 9) demo_state = 1799994 /\ supply (demo 9) = 6000008 /\ balance (demo 9) demo_vault = 9000000.
Proof.
  split; [exact demo_ordinary|]. split; [apply demo_reaches|]. split; [see 9%nat|].
  split; [exact demo_is_vault|]. split; [see 9%nat|]. split; see 9%nat.
Qed.

(** ** C02 *)
Theorem C02_escrow_is_sum_of_claims : forall C l sk,
  ordinary_state_address C -> reaches C l -> is_state l sk ->
  exists ks, NoDup ks /\ (forall k, In k ks <-> is_record l k) /\
    escrow l sk = sumZ (map (rec_amount l) ks).
Proof. exact escrow_sum. Qed.

Example C02_ex :
  is_record (demo 9) alice_record /\ is_record (demo 9) bob_record /\
  rec_amount (demo 9) alice_record = 1199996 /\ rec_amount (demo 9) bob_record = 599998 /\
  escrow (demo 9) demo_state = 1199996 + 599998.
Proof.
  do 4 (split; [see 9%nat|]). see 9%nat.
Qed.

(** ** C04 *)
Theorem C04_not_before_maturity : forall C l E accs data i l' evs,
  honest_metas C accs -> encodes data (Withdraw i) ->
  process_instruction C E xorca_id accs l data = Ok (l', evs) ->
  exists un k, signed_slot accs 0 un /\ slot accs 2 k /\ is_record l k /\ rec_time l k <= now E /\
    k = pending_address_with_bump C un i (pw_bump (a_data (l k))).
Proof. exact withdraw_facts. Qed.

Theorem C04_cooldown_enforced : forall C l0 ops l evs sk vk o i accs t k,
  ordinary_state_address C -> genesis C l0 -> history C l0 ops l evs ->
  is_state l sk -> is_vault C sk vk ->
  op_ok C l o -> performs C l o (Withdraw i) accs t -> slot accs 2 k ->
  exists ops1 o1 ops2 x j accs1 t1 un,
    ops = ops1 ++ o1 :: ops2 /\
    performs C (after C l0 ops1) o1 (Unstake x j) accs1 t1 /\ signed_slot accs1 0 un /\
    slot accs1 2 k /\ un = rec_owner l k /\ j = rec_index l k /\
    unchanged_during C (after C l0 (ops1 ++ [o1])) ops2 k /\
    t1 + cooldown (after C l0 ops1) sk <= t.
Proof. exact cooldown_history. Qed.

(** The withdrawal at 2099 fails, the one at 2100 succeeds, although the cooldown
    was lowered in between. *)
Example C04_ex :
  cooldown (demo 4) demo_state = 100 /\ cooldown (demo 9) demo_state = 50 /\
  rec_time (demo 9) alice_record = 2100 /\
  succeeds demo_crypto (demo 8) (demo_call 2099 (withdraw_accs alice alice_orca alice_record) (Withdraw 0)) = false /\
  performs demo_crypto (demo 9) (demo_call 2100 (withdraw_accs alice alice_orca alice_record) (Withdraw 0))
    (Withdraw 0) (withdraw_accs alice alice_orca alice_record) 2100.
Proof.
  split; [see 4%nat|]. split; [see 9%nat|]. split; [see 9%nat|].
  split; [exact (proj2 (demo_does 8 _ _ _ _ eq_refl eq_refl))|]. demo_call_ok 9%nat.
Qed.

(** ** C05 *)
Theorem C05_pending_immutable : forall C l ops l' evs sk k,
  ordinary_state_address C -> reaches C l -> is_state l sk -> is_record l k -> history C l ops l' evs ->
  (unchanged_during C l ops k /\ is_record l' k) \/
  (exists ops1 o ops2, ops = ops1 ++ o :: ops2 /\ unchanged_during C l ops1 k /\
     pays C (after C l ops1) o k).
Proof. exact record_immutable. Qed.

Theorem C05_contents_from_creation : forall C l0 ops l evs sk vk k,
  ordinary_state_address C -> genesis C l0 -> history C l0 ops l evs ->
  is_state l sk -> is_vault C sk vk -> is_record l k ->
  exists ops1 o ops2, ops = ops1 ++ o :: ops2 /\ creates C (after C l0 ops1) o sk vk k /\
     unchanged_during C (after C l0 (ops1 ++ [o])) ops2 k.
Proof. exact record_history. Qed.

Example C05_ex :
  is_record (demo 5) alice_record /\
  (exists evs, history demo_crypto (demo 5) (firstn 4 (skipn 5 demo_ops)) (demo 9) evs) /\
  rec_amount (demo 5) alice_record = 1199996 /\ rec_amount (demo 9) alice_record = 1199996 /\
  rec_time (demo 5) alice_record = 2100 /\ rec_time (demo 9) alice_record = 2100.
Proof.
  split; [see 5%nat|]. split; [apply (demo_between 5 4)|]. split; [see 5%nat|]. split; [see 9%nat|].
  split; [see 5%nat|see 9%nat].
Qed.

(** ** C06 *)
Theorem C06_record_pays_once : forall C l sk vk o k ops l2 evs o2,
  ordinary_state_address C -> reaches C l -> is_state l sk -> is_vault C sk vk ->
  op_ok C l o -> pays C l o k ->
  history C (fst (run_op C l o)) ops l2 evs -> op_ok C l2 o2 -> pays C l2 o2 k ->
  exists ops1 o1 ops2, ops = ops1 ++ o1 :: ops2 /\
    creates C (after C (fst (run_op C l o)) ops1) o1 sk vk k.
Proof. exact single_payout. Qed.

Theorem C06_user_paid_once : forall C l sk o i accs t u ops l2 evs o2 accs2 t2,
  ordinary_state_address C -> reaches C l -> is_state l sk ->
  op_ok C l o -> performs C l o (Withdraw i) accs t -> signed_slot accs 0 u ->
  history C (fst (run_op C l o)) ops l2 evs ->
  op_ok C l2 o2 -> performs C l2 o2 (Withdraw i) accs2 t2 -> signed_slot accs2 0 u ->
  collision C (claimants l u) \/ collision C (claimants l2 u) \/
  exists ops1 o1 ops2 x accs1 t1,
    ops = ops1 ++ o1 :: ops2 /\
    performs C (after C (fst (run_op C l o)) ops1) o1 (Unstake x i) accs1 t1 /\
    signed_slot accs1 0 u.
Proof. exact paid_once. Qed.

Example C06_ex :
  performs demo_crypto (demo 9) (demo_call 2100 (withdraw_accs alice alice_orca alice_record) (Withdraw 0))
    (Withdraw 0) (withdraw_accs alice alice_orca alice_record) 2100 /\
  signed_slot (withdraw_accs alice alice_orca alice_record) 0 alice /\
  balance (demo 9) alice_orca = 15000000 /\ balance (demo 10) alice_orca = 16199996 /\
  ~ is_record (demo 10) alice_record.
Proof.
  split; [demo_call_ok 9%nat|]. split; [exists (ws alice); auto|]. split; [see 9%nat|].
  split; see 10%nat.
Qed.

(** ** C07 *)
Theorem C07_only_creator_claims : forall C l sk E accs data i l' evs un k,
  ordinary_state_address C -> reaches C l -> is_state l sk -> honest_metas C accs ->
  encodes data (Withdraw i) -> process_instruction C E xorca_id accs l data = Ok (l', evs) ->
  slot accs 0 un -> slot accs 2 k ->
  signed_slot accs 0 un /\ is_record l k /\
  (rec_owner l k = un /\ rec_index l k = i \/ collision C (claimants l un)).
Proof. exact only_owner. Qed.

Example C07_ex :
  rec_owner (demo 9) alice_record = alice /\ rec_index (demo 9) alice_record = 0 /\
  rec_owner (demo 9) bob_record = bob /\ rec_index (demo 9) bob_record = 7.
Proof.
  do 3 (split; [see 9%nat|]). see 9%nat.
Qed.

(** ** C13 *)
Theorem C13_never_diluted : forall C l ops l' evs sk vk x,
  ordinary_state_address C -> reaches C l -> is_state l sk -> is_vault C sk vk ->
  history C l ops l' evs ->
  (forall n, (n < length ops)%nat -> 0 < supply (after C l (firstn n ops))) ->
  0 <= x ->
  (free_orca l sk vk + 100) * (supply l' + 100) <= (free_orca l' sk vk + 100) * (supply l + 100) /\
  x * (free_orca l sk vk + 100) / (supply l + 100) <=
  x * (free_orca l' sk vk + 100) / (supply l' + 100).
Proof. exact never_diluted. Qed.

(** From alice's first stake to the end of the demo the value of her 5 ORCA of
    shares goes from 5 to 6 ORCA. *)
Example C13_ex :
  (exists evs, history demo_crypto (demo 2) (firstn 9 (skipn 2 demo_ops)) (demo 11) evs) /\
  5000000 * (free_orca (demo 2) demo_state demo_vault + 100) / (supply (demo 2) + 100) = 5000000 /\
  5000000 * (free_orca (demo 11) demo_state demo_vault + 100) / (supply (demo 11) + 100) = 5999980.
Proof.
  split; [apply (demo_between 2 9)|]. split; [see 2%nat|see 11%nat].
Qed.

(** ** C19, second half *)
Theorem C19_initialize_once : forall C l sk o c accs t,
  ordinary_state_address C -> reaches C l -> is_state l sk -> op_ok C l o ->
  ~ performs C l o (Initialize c) accs t.
Proof. exact initialize_once. Qed.

Theorem C19_state_stays : forall C l ops l' evs sk,
  ordinary_state_address C -> reaches C l -> is_state l sk -> history C l ops l' evs -> is_state l' sk.
Proof. exact state_stays. Qed.

Theorem C19_state_unique : forall C l sk sk',
  ordinary_state_address C -> reaches C l -> is_state l sk -> is_state l sk' -> sk' = sk.
Proof. exact state_unique. Qed.

Example C19_ex_history : is_state (demo 1) demo_state /\
  performs demo_crypto (demo 0) (demo_call 1000 (init_accs admin) (Initialize 100)) (Initialize 100)
    (init_accs admin) 1000.
Proof.
  split; [see 1%nat|demo_call_ok 0%nat].
Qed.

(** ** C20 *)
Theorem C20_settings_change_only_by_authority : forall C l o sk,
  ordinary_state_address C -> reaches C l -> is_state l sk -> op_ok C l o ->
  let l' := fst (run_op C l o) in
  (authority l' sk = authority l sk /\ cooldown l' sk = cooldown l sk) \/
  (exists accs t k, performs C l o (Set_ (UpdateUpdateAuthority k)) accs t /\
     signed_slot accs 0 (authority l sk) /\ slot accs 1 sk /\
     authority l' sk = k /\ cooldown l' sk = cooldown l sk) \/
  (exists accs t c, performs C l o (Set_ (UpdateCoolDownPeriod c)) accs t /\
     signed_slot accs 0 (authority l sk) /\ slot accs 1 sk /\ 0 <= c /\
     authority l' sk = authority l sk /\ cooldown l' sk = c).
Proof. exact settings_step. Qed.

Theorem C20_authority_succession : forall C l0 ops l evs sk,
  ordinary_state_address C -> genesis C l0 -> history C l0 ops l evs -> is_state l sk ->
  exists ops1 o ops2 accs t,
    ops = ops1 ++ o :: ops2 /\
    ((exists c, performs C (after C l0 ops1) o (Initialize c) accs t /\
        signed_slot accs 0 deployer_address /\ signed_slot accs 1 (authority l sk)) \/
     (performs C (after C l0 ops1) o (Set_ (UpdateUpdateAuthority (authority l sk))) accs t /\
        signed_slot accs 0 (authority (after C l0 ops1) sk) /\ slot accs 1 sk)) /\
    forall n, authority (after C l0 (ops1 ++ o :: firstn n ops2)) sk = authority l sk.
Proof. exact authority_history. Qed.

Example C20_ex :
  authority (demo 10) demo_state = admin /\ authority (demo 11) demo_state = admin2 /\
  performs demo_crypto (demo 10) (demo_call 2200 (set_accs admin) (Set_ (UpdateUpdateAuthority admin2)))
    (Set_ (UpdateUpdateAuthority admin2)) (set_accs admin) 2200.
Proof.
  split; [see 10%nat|]. split; [see 11%nat|demo_call_ok 10%nat].
Qed.

(** ** C21 *)
Theorem C21_cooldown_nonneg : forall C l sk,
  ordinary_state_address C -> reaches C l -> is_state l sk -> 0 <= cooldown l sk.
Proof. exact cooldown_nonneg. Qed.

Theorem C21_matures_after_unstake : forall C l o x i accs t k,
  ordinary_state_address C -> reaches C l -> op_ok C l o -> performs C l o (Unstake x i) accs t ->
  slot accs 2 k ->
  is_record (fst (run_op C l o)) k /\ t <= rec_time (fst (run_op C l o)) k.
Proof. exact maturity_after. Qed.

Example C21_ex :
  cooldown (demo 7) demo_state = 50 /\ rec_time (demo 8) bob_record = 2060 /\
  performs demo_crypto (demo 7) (demo_call 2010 (unstake_accs bob bob_xorca bob_record) (Unstake 500000 7))
    (Unstake 500000 7) (unstake_accs bob bob_xorca bob_record) 2010.
Proof.
  split; [see 7%nat|]. split; [see 8%nat|demo_call_ok 7%nat].
Qed.

(** ** C23 *)
Theorem C23_no_forged_accounts : forall C l k,
  ordinary_state_address C -> reaches C l -> a_owner (l k) = xorca_id ->
  all_zero (a_data (l k)) = true \/
  (is_state l k /\ exists b, find_state_address C = Some (k, b)) \/
  (is_record l k /\ exists b, find_pending_withdraw_address C (rec_owner l k) (rec_index l k) = Some (k, b)).
Proof. exact program_accounts. Qed.

Theorem C23_state_origin : forall C l0 ops l evs sk,
  ordinary_state_address C -> genesis C l0 -> history C l0 ops l evs -> is_state l sk ->
  exists ops1 o ops2 c accs t, ops = ops1 ++ o :: ops2 /\
    performs C (after C l0 ops1) o (Initialize c) accs t /\ slot accs 2 sk.
Proof. exact state_origin. Qed.

Example C23_ex : a_owner (demo 9 demo_state) = xorca_id /\ a_owner (demo 9 bob_record) = xorca_id.
Proof.
  split; [assert (H : is_state (demo 9) demo_state) by see 9%nat|
          assert (H : is_record (demo 9) bob_record) by see 9%nat]; apply H.
Qed.

(** ** C29 *)
Theorem C29_log_reconstructs : forall C l0 ops l evs sk,
  ordinary_state_address C -> genesis C l0 -> history C l0 ops l evs -> is_state l sk ->
  escrow l sk = over ev_promised evs - over ev_paid evs /\
  exists ops1 o ops2 c accs t,
    ops = ops1 ++ o :: ops2 /\ performs C (after C l0 ops1) o (Initialize c) accs t /\
    over ev_minted evs - over ev_burned evs =
      supply l + burned_outside C (after C l0 (ops1 ++ [o])) ops2 /\
    0 <= burned_outside C (after C l0 (ops1 ++ [o])) ops2.
Proof. exact log_reconstructs. Qed.

Example C29_ex :
  let log := concat (map (fun p => snd (fst p)) demo_trace) in
  over ev_promised log = 1799994 /\ over ev_paid log = 1199996 /\
  over ev_minted log = 7500008 /\ over ev_burned log = 1500000 /\
  escrow (demo 11) demo_state = 599998 /\ supply (demo 11) = 6000008.
Proof.
  cbn zeta. do 4 (split; [vm_compute; reflexivity|]). split; see 11%nat.
Qed.

(** ** C42 *)
Theorem C42_outside_steps_only_help : forall C l o sk vk,
  ordinary_state_address C -> reaches C l -> is_state l sk -> is_vault C sk vk -> op_ok C l o ->
  (forall E accs data, o <> OpCall E accs data) ->
  let l' := fst (run_op C l o) in
  a_data (l' sk) = a_data (l sk) /\ balance l vk <= balance l' vk /\ supply l' <= supply l /\
  (forall k, is_record l k -> is_record l' k /\ a_data (l' k) = a_data (l k)) /\
  (forall k, is_record l' k -> is_record l k) /\
  (forall x, 0 <= x -> x * (free_orca l sk vk + 100) / (supply l + 100) <=
                       x * (free_orca l' sk vk + 100) / (supply l' + 100)) /\
  snd (run_op C l o) = [].
Proof. exact outside_step. Qed.

Example C42_ex :
  balance (demo 2) demo_vault = 5000000 /\ balance (demo 3) demo_vault = 6000000 /\
  supply (demo 2) = 5000000 /\ supply (demo 3) = 5000000 /\
  escrow (demo 2) demo_state = 0 /\ escrow (demo 3) demo_state = 0.
Proof.
  split; [see 2%nat|]. split; [see 3%nat|]. split; [see 2%nat|]. split; [see 3%nat|]. split; [see 2%nat|see 3%nat].
Qed.

(** ** C43, first half *)
Theorem C43_rate_unmoved : forall C l o sk vk i accs t,
  ordinary_state_address C -> reaches C l -> is_state l sk -> is_vault C sk vk -> op_ok C l o ->
  performs C l o i accs t ->
  match i with Withdraw _ | Set_ _ => True | _ => False end ->
  let l' := fst (run_op C l o) in
  free_orca l' sk vk = free_orca l sk vk /\ supply l' = supply l.
Proof. exact rate_unmoved. Qed.

Example C43_ex :
  balance (demo 9) demo_vault = 9000000 /\ balance (demo 10) demo_vault = 7800004 /\
  free_orca (demo 9) demo_state demo_vault = 7200006 /\ free_orca (demo 10) demo_state demo_vault = 7200006.
Proof.
  split; [see 9%nat|]. split; [see 10%nat|]. split; [see 9%nat|see 10%nat].
Qed.

Print Assumptions C01_solvency.
Print Assumptions C01_promises_covered.
Print Assumptions C02_escrow_is_sum_of_claims.
Print Assumptions C04_not_before_maturity.
Print Assumptions C04_cooldown_enforced.
Print Assumptions C05_pending_immutable.
Print Assumptions C05_contents_from_creation.
Print Assumptions C06_record_pays_once.
Print Assumptions C06_user_paid_once.
Print Assumptions C07_only_creator_claims.
Print Assumptions C13_never_diluted.
Print Assumptions C19_initialize_once.
Print Assumptions C19_state_stays.
Print Assumptions C19_state_unique.
Print Assumptions C20_settings_change_only_by_authority.
Print Assumptions C20_authority_succession.
Print Assumptions C21_cooldown_nonneg.
Print Assumptions C21_matures_after_unstake.
Print Assumptions C23_no_forged_accounts.
Print Assumptions C23_state_origin.
Print Assumptions C29_log_reconstructs.
Print Assumptions C42_outside_steps_only_help.
Print Assumptions C43_rate_unmoved.
