(** What status.ts prints: C65.
    Only statements, one-line proofs, examples and [Print Assumptions]. *)
From Coq Require Import String.
From Verif Require Import Spec ClientSpec GuardSpec ToolSpec BytesFacts HistoryFacts LifeFacts PoolHistory StatusFacts
  Demo DemoMore DemoStory DemoClient StatusRefuted.
Import List ListNotations.
Open Scope list_scope.
Open Scope Z_scope.

(** ** C65 *)
(** One ledger per request.  With [l1 = l2 = l3] every figure is that ledger's, and
    "Non-Escrowed ORCA" is its free ORCA. *)
Theorem C65_status_lines : forall C l1 l2 l3 sk vk,
  ordinary_state_address C -> reaches C l1 -> reaches C l2 -> reaches C l3 ->
  is_state l1 sk -> is_state l2 sk -> is_state l3 sk -> is_vault C sk vk ->
  exists b vb,
    sk = state_address_with_bump C b /\ vk = vault_address_with_bump C sk orca_mint_id vb /\
    let free := balance l2 vk - escrow l1 sk in
    status_script C l1 l2 l3 =
      Some (StatusFull (StatusState (cooldown l1 sk) (escrow l1 sk) (authority l1 sk) b vb)
        (balance l2 vk) free (supply l3) (free + 100, supply l3 + 100) (supply l3 + 100, free + 100)).
Proof. exact status_reads. Qed.

(** Before Initialize; lamports sent to the State address change the message. *)
Theorem C65_before_initialize : forall C l l2 l3 sk vk b,
  ordinary_state_address C -> reaches C l -> (forall k, ~ is_state l k) ->
  find_state_address C = Some (sk, b) -> is_vault C sk vk ->
  status_script C l l2 l3 = Some (if a_lamports (l sk) =? 0 then StatusNotFound else StatusBadState).
Proof. exact status_fresh. Qed.

(** The number printed as "1 ORCA = ... xORCA" is what one xORCA is redeemed for, and the
    other way round. *)
Theorem C65_rates_are_swapped : forall C l sk vk s total free sup p q p' q',
  ordinary_state_address C -> reaches C l -> is_state l sk -> is_vault C sk vk ->
  status_script C l l l = Some (StatusFull s total free sup (p, q) (p', q')) ->
  0 < p /\ 0 < q /\ p' = q /\ q' = p /\
  (forall o a accs t, op_ok C l o -> performs C l o (Stake a) accs t -> supply l <> 0 ->
     supply (fst (run_op C l o)) - supply l = a * p' / q') /\
  (forall o x i accs t k, op_ok C l o -> performs C l o (Unstake x i) accs t -> slot accs 2 k ->
     rec_amount (fst (run_op C l o)) k = x * p / q).
Proof. exact status_rates. Qed.

Theorem C65_rate_line_refuted :
  ~ (forall C l sk vk s total free sup p q r o a accs t,
       ordinary_state_address C -> reaches C l -> is_state l sk -> is_vault C sk vk ->
       status_script C l l l = Some (StatusFull s total free sup (p, q) r) ->
       op_ok C l o -> performs C l o (Stake a) accs t -> supply l <> 0 ->
       supply (fst (run_op C l o)) - supply l = a * p / q).
Proof. exact rate_line_refuted. Qed.

(** A withdrawal between the requests can make "Non-Escrowed ORCA" negative. *)
Theorem C65_free_line_may_be_negative :
  exists C l o sk vk s total free sup r r',
  ordinary_state_address C /\ reaches C l /\ is_state l sk /\ is_vault C sk vk /\ op_ok C l o /\
  let l' := fst (run_op C l o) in
  status_script C l l' l' = Some (StatusFull s total free sup r r') /\ free < 0 /\ 0 < sup /\
  0 <= free_orca l sk vk /\ free_orca l' sk vk = free_orca l sk vk.
Proof. exact free_line_negative. Qed.

(** 6 ORCA back 5 xORCA: the script prints "1 ORCA = 1.19... xORCA", and 3 ORCA buy 2.5 xORCA. *)
Example C65_ex :
  reaches demo_crypto (demo 3) /\ is_state (demo 3) demo_state /\ is_vault demo_crypto demo_state demo_vault /\
  (exists s, status_script demo_crypto (demo 3) (demo 3) (demo 3) =
     Some (StatusFull s 6000000 6000000 5000000 (6000100, 5000100) (5000100, 6000100)) /\
     line_cooldown s = 100 /\ line_escrow s = 0 /\ line_authority s = admin) /\
  op_ok demo_crypto (demo 3) (demo_call 1300 (stake_accs bob bob_orca bob_xorca) (Stake 3000000)) /\
  performs demo_crypto (demo 3) (demo_call 1300 (stake_accs bob bob_orca bob_xorca) (Stake 3000000))
    (Stake 3000000) (stake_accs bob bob_orca bob_xorca) 1300 /\
  supply (demo 3) = 5000000 /\ supply (demo 4) = 7500008 /\ 3000000 * 6000100 / 5000100 = 3599988.
Proof.
  assert (S : is_state (demo 3) demo_state) by see 3%nat.
  split; [apply demo_reaches|]. split; [exact S|]. split; [exact demo_is_vault|].
  split.
  { destruct (status_reads demo_crypto (demo 3) (demo 3) (demo 3) demo_state demo_vault demo_ordinary (demo_reaches 3)
      (demo_reaches 3) (demo_reaches 3) S S S demo_is_vault) as (b & vb & _ & _ & E). cbv zeta in E.
    assert (V : balance (demo 3) demo_vault = 6000000) by see 3%nat.
    assert (X : escrow (demo 3) demo_state = 0) by see 3%nat.
    assert (M : supply (demo 3) = 5000000) by see 3%nat.
    assert (D : cooldown (demo 3) demo_state = 100) by see 3%nat.
    assert (A : authority (demo 3) demo_state = admin) by see 3%nat.
    rewrite V, X, M, D, A in E. eexists. split; [exact E|]. repeat split. }
  split; [apply (demo_op_ok 3 _ eq_refl)|]. split; [demo_call_ok 3%nat|].
  split; [see 3%nat|]. split; [see 4%nat|reflexivity].
Qed.

Example C65_before_ex :
  reaches demo_crypto (demo 0) /\ (forall k, ~ is_state (demo 0) k) /\
  find_state_address demo_crypto = Some (demo_state, Z_to_byte 255) /\ is_vault demo_crypto demo_state demo_vault /\
  a_lamports (demo 0 demo_state) = 0.
Proof.
  split; [apply demo_reaches|]. split; [exact demo_start_fresh|]. split; [exact demo_state_found|].
  split; [exact demo_is_vault|]. see 0%nat.
Qed.

Print Assumptions C65_status_lines.
Print Assumptions C65_before_initialize.
Print Assumptions C65_rates_are_swapped.
Print Assumptions C65_rate_line_refuted.
Print Assumptions C65_free_line_may_be_negative.
