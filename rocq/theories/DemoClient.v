(** The clients run against the execution of Demo.v, and refutations of plausible
    claims about them. *)
From Coq Require Import String.
From Verif Require Import Spec ClientSpec BytesFacts LedgerFacts HistoryFacts LifeFacts PoolHistory AddressFacts
  RpcFacts ReadFacts Demo DemoMore DemoStory.
Import List ListNotations.
Open Scope list_scope.
Open Scope Z_scope.

(** ** Scripts *)
Definition alice_withdraw : built := {|
  b_program := xorca_id; b_accounts := withdraw_accs alice alice_orca alice_record;
  b_data := instruction_bytes (Withdraw 0) |}.
Lemma alice_withdraw_built : script_withdraw demo_crypto alice (JInt 0) = Some alice_withdraw.
Proof. vm_cast_no_check (eq_refl (Some alice_withdraw)). Qed.
Definition alice_stake : built := {|
  b_program := xorca_id; b_accounts := stake_accs alice alice_orca alice_xorca;
  b_data := instruction_bytes (Stake 5000000) |}.
Lemma alice_stake_built : script_stake demo_crypto alice 5000000 = Some alice_stake.
Proof. vm_cast_no_check (eq_refl (Some alice_stake)). Qed.
(** The script marks the vault writable, which the program does not ask for. *)
Definition alice_unstake : built := {|
  b_program := xorca_id;
  b_accounts := [ws alice; w_ demo_state; w_ alice_record; w_ alice_xorca; w_ xorca_mint_id; r_ orca_mint_id;
                 w_ demo_vault; r_ system_id; r_ token_id];
  b_data := instruction_bytes (Unstake 1000000 0) |}.
Lemma alice_unstake_built : script_unstake demo_crypto alice 1000000 (JInt 0) = Some alice_unstake.
Proof. vm_cast_no_check (eq_refl (Some alice_unstake)). Qed.
Definition admin_init : built := {|
  b_program := xorca_id; b_accounts := init_accs admin; b_data := instruction_bytes (Initialize 100) |}.
Lemma admin_init_built : script_initialize demo_crypto deployer_address admin (JInt 100) = Some admin_init.
Proof. vm_cast_no_check (eq_refl (Some admin_init)). Qed.
Definition admin_cooldown : built := {|
  b_program := xorca_id; b_accounts := set_accs admin; b_data := instruction_bytes (Set_ (UpdateCoolDownPeriod 50)) |}.
Lemma admin_cooldown_built : script_set_cooldown demo_crypto admin (JInt 50) = Some admin_cooldown.
Proof. vm_cast_no_check (eq_refl (Some admin_cooldown)). Qed.

Lemma delivered_refl sent : delivered sent sent.
Proof. induction sent; constructor; auto. Qed.

(** ** Addresses *)
Lemma alice_orca_found : is_ata demo_crypto alice orca_mint_id alice_orca.
Proof. exists xff. vm_cast_no_check (eq_refl (Some (alice_orca, xff))). Qed.
Lemma alice_xorca_found : is_ata demo_crypto alice xorca_mint_id alice_xorca.
Proof. exists xff. vm_cast_no_check (eq_refl (Some (alice_xorca, xff))). Qed.
Lemma demo_client_state : client_state demo_crypto demo_state.
Proof. apply client_state_is. eexists. exact demo_state_found. Qed.
Lemma demo_client_vault : client_vault demo_crypto demo_state demo_vault.
Proof. apply client_vault_is. exact demo_is_vault. Qed.
Lemma bob_searched : all_some (map (fun i => rust_find_pending demo_crypto bob i) (below 8)) <> None /\
  js_find_pending demo_crypto bob (JInt 263) = Some (bob_record, xff).
Proof.
  split; [|vm_cast_no_check (eq_refl (Some (bob_record, xff)))].
  assert (H : match all_some (map (fun i => rust_find_pending demo_crypto bob i) (below 8)) with Some _ => true | None => false end = true)
    by vm_cast_no_check (eq_refl true).
  destruct (all_some _); [discriminate|discriminate H].
Qed.
Lemma bob_addressable : addressable demo_crypto bob 8.
Proof.
  intros i Hi. apply in_below in Hi. destruct bob_searched as [H _].
  destruct (all_some (map (fun i => rust_find_pending demo_crypto bob i) (below 8))) as [ps|] eqn:E; [clear H|contradiction].
  apply all_some_map in E. induction E as [|j p js ps Hp E IH]; [destruct Hi|].
  destruct Hi as [->|Hi]; [|exact (IH Hi)]. exists (fst p). now apply find_client.
Qed.

(** ** Lists *)
Definition client_reads (l7 l9 : ledger) :=
  (rust_pending_withdraws demo_crypto 100 l7 bob (Some 8),
   js_pending_withdraws demo_crypto 100 l7 bob (Some (JInt 8)),
   option_map (map shown_index) (rust_pending_withdraws demo_crypto 100 l9 bob (Some 8)),
   option_map (map shown_index) (js_pending_withdraws demo_crypto 100 l9 bob (Some (JInt 8))),
   option_map (map shown_index) (rust_pending_withdraws demo_crypto 100 l9 bob (Some 7)),
   script_pendings demo_crypto l9 (fun _ => l9) (fun _ => 2060) alice).
Definition client_answers :=
  (@None (list (list fval)), Some (@nil (list fval)), Some [7], Some [7], Some (@nil Z),
   Some [ScriptLine 0 alice_record 1199996 2100 false 40 10]).
Lemma client_reads_are :
  let l7 := after demo_crypto demo0 (firstn 7 demo_ops) in
  client_reads l7 (after demo_crypto l7 (firstn 2 (skipn 7 demo_ops))) = client_answers.
Proof. vm_cast_no_check (eq_refl client_answers). Qed.
Transparent demo.
Lemma demo_reads : client_reads (demo 7) (demo 9) = client_answers.
Proof. pose proof client_reads_are as H. cbv zeta in H. rewrite <- after_app in H. exact H. Qed.
Global Opaque demo.

Lemma six {A B X D F G} (a a' : A) (b b' : B) (c c' : X) (d d' : D) (e e' : F) (f f' : G) :
  (a, b, c, d, e, f) = (a', b', c', d', e', f') -> a = a' /\ b = b' /\ c = c' /\ d = d' /\ e = e' /\ f = f'.
Proof. intros H. injection H as -> -> -> -> -> ->. auto 8. Qed.
Lemma demo_reads_each :
  rust_pending_withdraws demo_crypto 100 (demo 7) bob (Some 8) = None /\
  js_pending_withdraws demo_crypto 100 (demo 7) bob (Some (JInt 8)) = Some [] /\
  option_map (map shown_index) (rust_pending_withdraws demo_crypto 100 (demo 9) bob (Some 8)) = Some [7] /\
  option_map (map shown_index) (js_pending_withdraws demo_crypto 100 (demo 9) bob (Some (JInt 8))) = Some [7] /\
  option_map (map shown_index) (rust_pending_withdraws demo_crypto 100 (demo 9) bob (Some 7)) = Some [] /\
  script_pendings demo_crypto (demo 9) (fun _ => demo 9) (fun _ => 2060) alice =
    Some [ScriptLine 0 alice_record 1199996 2100 false 40 10].
Proof.
  pose proof demo_reads as H. unfold client_reads, client_answers in H.
  exact (six _ _ _ _ _ _ _ _ _ _ _ _ H).
Qed.

(** ** Refutations *)
Theorem rust_lists_always_refuted :
  ~ (forall C cap l staker n,
       ordinary_state_address C -> reaches C l -> 0 <= n <= 255 -> n <= Z.of_nat cap -> addressable C staker n ->
       exists vs, rust_pending_withdraws C cap l staker (Some n) = Some vs).
Proof.
  intros H. destruct (H demo_crypto 100%nat (demo 7) bob 8 demo_ordinary (demo_reaches 7)) as (vs & K); [lia|lia|exact bob_addressable|].
  rewrite (proj1 demo_reads_each) in K. discriminate.
Qed.

Theorem js_indices_distinct_refuted :
  ~ (forall C staker i j p, js_find_pending C staker (JInt i) = Some p -> js_find_pending C staker (JInt j) = Some p ->
       i = j \/ collision C (eq staker)).
Proof.
  intros H. assert (E : exists p, js_find_pending spread alice (JInt 0) = Some p).
  { destruct (js_find_pending spread alice (JInt 0)) eqn:E; [eauto|].
    exfalso. revert E. vm_compute. discriminate. }
  destruct E as (p & E). pose proof E as E'. rewrite <- js_index_wraps in E'.
  destruct (H spread alice _ _ p E E') as [K|K]; [discriminate|].
  apply spread_free. eapply collision_more; [|exact K]. intros u <-. now left.
Qed.

(** The rate read around a withdrawal belongs to no ledger. *)
Theorem mixed_rate_refuted :
  ~ (forall C cap l o sk vk r, ordinary_state_address C -> (0 < cap)%nat -> reaches C l -> is_state l sk -> client_vault C sk vk ->
       op_ok C l o -> let l' := fst (run_op C l o) in
       rust_exchange_rate C cap l l' l' = Some r \/ js_exchange_rate C cap l l' l' = Some r ->
       r = (free_orca l sk vk, supply l) \/ r = (free_orca l' sk vk, supply l')).
Proof.
  intros H.
  assert (O : op_ok demo_crypto (demo 9) (demo_call 2100 (withdraw_accs alice alice_orca alice_record) (Withdraw 0)))
    by exact (demo_op_ok 9 _ eq_refl (demo 9)).
  assert (P : performs demo_crypto (demo 9) (demo_call 2100 (withdraw_accs alice alice_orca alice_record) (Withdraw 0))
    (Withdraw 0) (withdraw_accs alice alice_orca alice_record) 2100) by demo_call_ok 9%nat.
  assert (S : is_state (demo 9) demo_state) by see 9%nat.
  assert (L : slot (withdraw_accs alice alice_orca alice_record) 2 alice_record) by (eexists; split; reflexivity).
  destruct (rate_withdraw_between demo_crypto 100 (demo 9) demo_state demo_vault _ _ _ _ _ demo_ordinary ltac:(lia) (demo_reaches 9)
    S demo_client_vault O P L) as (F & J & _).
  destruct (H demo_crypto 100%nat (demo 9) _ demo_state demo_vault _ demo_ordinary ltac:(lia) (demo_reaches 9) S demo_client_vault O
    (or_intror J)) as [K|K]; apply (f_equal fst) in K; cbn [fst] in K; [|rewrite F in K];
    assert (A : rec_amount (demo 9) alice_record = 1199996) by see 9%nat; lia.
Qed.

(** It can even be negative in JS and an error in Rust. *)
Theorem mixed_rate_fails : exists C cap l o sk vk n,
  ordinary_state_address C /\ (0 < cap)%nat /\ reaches C l /\ is_state l sk /\ client_vault C sk vk /\ op_ok C l o /\
  let l' := fst (run_op C l o) in
  rust_exchange_rate C cap l l' l' = None /\ js_exchange_rate C cap l l' l' = Some (n, supply l) /\ n < 0 /\
  0 <= free_orca l sk vk /\ free_orca l' sk vk = free_orca l sk vk /\ supply l > 0.
Proof.
  set (accs := withdraw_accs alice alice_orca alice_record).
  assert (O : forall l, op_ok demo_crypto l (demo_call 1360 accs (Withdraw 0)))
    by (intros l; exact (story_op_ok 3 0 _ 3 _ l eq_refl eq_refl)).
  assert (P : performs demo_crypto (tale 3 burn_story 3) (demo_call 1360 accs (Withdraw 0)) (Withdraw 0) accs 1360) by tells 3%nat 0%nat 3%nat.
  assert (S : is_state (tale 3 burn_story 3) demo_state) by told 3%nat 0%nat 2%nat.
  assert (L : slot accs 2 alice_record) by (eexists; split; reflexivity).
  pose proof (tale_reaches 3 0 _ 3 eq_refl : reaches demo_crypto (tale 3 burn_story 3)) as R.
  destruct (rate_withdraw_between demo_crypto 100 (tale 3 burn_story 3) demo_state demo_vault _ _ _ _ _ demo_ordinary ltac:(lia) R
    S demo_client_vault (O _) P L) as (F & J & Q).
  exists demo_crypto, 100%nat, (tale 3 burn_story 3), (demo_call 1360 accs (Withdraw 0)), demo_state, demo_vault, (-5999956).
  do 6 (split; [first [exact demo_ordinary | lia | exact R | exact S | exact demo_client_vault | apply O]|]). cbv zeta.
  assert (E1 : rec_amount (tale 3 burn_story 3) alice_record = 5999978) by told 3%nat 0%nat 2%nat.
  assert (E2 : free_orca (tale 3 burn_story 3) demo_state demo_vault = 22) by told 3%nat 0%nat 2%nat.
  assert (E3 : supply (tale 3 burn_story 3) = 1) by told 3%nat 0%nat 2%nat.
  rewrite E1, E2, E3 in *. split; [exact Q|]. split; [exact J|]. rewrite F. lia.
Qed.
