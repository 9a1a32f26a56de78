(** C70: what the runtime accepts of the program's changes to accounts. *)
From Coq Require Import Init.Byte.
From Verif Require Import Runtime RuntimeFacts LocalFacts HistoryFacts MistakeSpec Demo DemoMore DemoStory DemoMistake DemoRuntime.
Import List ListNotations.
Open Scope list_scope.
Open Scope Z_scope.

(** ** C70 *)
(** What the runtime asks of the accounts when the program calls another program or returns. *)
Theorem C70_comparison : forall accs l l',
  permitted accs l l' = Ok tt <->
  (forall k, In k (map m_key accs) ->
     (a_owner (l k) <> xorca_id -> a_lamports (l k) <= a_lamports (l' k) /\ a_data (l' k) = a_data (l k)) /\
     (~ given_writable accs k -> a_lamports (l' k) = a_lamports (l k) /\ a_data (l' k) = a_data (l k)) /\
     zlen (a_data (l' k)) <= zlen (a_data (l k)) + 10240 /\
     (a_owner (l' k) = a_owner (l k) \/
      a_owner (l k) = xorca_id /\ given_writable accs k /\ all_zero (a_data (l' k)) = true)) /\
  (forall ks, NoDup ks -> (forall k, In k ks <-> In k (map m_key accs)) -> lamport_total l' ks = lamport_total l ks).
Proof. exact permitted_iff. Qed.

Example C70_comparison_ex :
  permitted (two true) before (set_data before demo_state [x02; x03]) = Ok tt /\
  permitted (two true) before (set_lamports (set_lamports before demo_state 4) alice_orca 6) = Ok tt /\
  permitted (two true) before (set_owner (set_data before demo_state [x00]) demo_state system_id) = Ok tt /\
  permitted (two true) before (set_lamports (set_lamports before demo_state 6) alice_orca 4) = Err (Refused ExternalAccountLamportSpend) /\
  permitted (two false) before (set_lamports (set_lamports before demo_state 4) alice_orca 6) = Err (Refused ReadonlyLamportChange) /\
  permitted (two false) before (set_data before demo_state [x02]) = Err (Refused ReadonlyDataModified) /\
  permitted (two true) before (set_data before alice_orca [x02]) = Err (Refused ExternalAccountDataModified) /\
  permitted (two true) before (set_data before alice_orca []) = Err (Refused AccountDataSizeChanged) /\
  permitted (two true) before (set_data before demo_state (repeat x00 10242)) = Err (Refused InvalidRealloc) /\
  permitted (two true) before (set_owner before demo_state system_id) = Err (Refused ModifiedProgramId) /\
  permitted (two true) before (set_lamports before demo_state 4) = Err (Refused UnbalancedInstruction).
Proof. repeat split; vm_compute; reflexivity. Qed.

(** On any ledger and with any accounts, the calls that succeed are those that succeed without the comparison. *)
Theorem C70_same_successes : forall C E p accs l data r,
  lamports_ok l -> (process_instruction_r C E p accs l data = Ok r <-> process_instruction C E p accs l data = Ok r).
Proof. exact runtime_same_successes. Qed.

Example C70_same_successes_ex :
  exists o, process_instruction_r demo_crypto (demo_env 2000) xorca_id (unstake_accs alice alice_xorca alice_record) (demo 4)
    (instruction_bytes (Unstake 1000000 0)) = Ok o.
Proof.
  assert (A : accepted demo_crypto (demo_env 2000) (unstake_accs alice alice_xorca alice_record) (demo 4)
    (instruction_bytes (Unstake 1000000 0))) by demo_accepted 4%nat.
  unfold accepted in A. destruct (process_instruction _ _ _ _ _ _) as [o|e] eqn:Q; [|discriminate A].
  exists o. apply C70_same_successes; [|exact Q]. apply (FreezeStep.reaches_lam _ _ demo_ordinary (demo_reaches 4)).
Qed.

(** On a ledger the chain can reach, no change the program makes is ever refused. *)
Theorem C70_never_refused : forall C E p accs l data,
  ordinary_state_address C -> reaches C l -> honest_metas C accs ->
  (forall j k, In j (map m_key accs) -> In k (map m_key accs) -> j <> k ->
     a_lamports (l j) + a_lamports (l k) <= u64_max) ->
  process_instruction_r C E p accs l data = own (process_instruction C E p accs l data).
Proof. exact runtime_never_refuses. Qed.

Example C70_never_refused_ex :
  process_instruction_r demo_crypto (demo_env 2100) xorca_id (withdraw_accs alice alice_orca alice_record) (demo 9)
    (instruction_bytes (Withdraw 0)) =
  own (process_instruction demo_crypto (demo_env 2100) xorca_id (withdraw_accs alice alice_orca alice_record) (demo 9)
    (instruction_bytes (Withdraw 0))).
Proof.
  apply C70_never_refused; [exact demo_ordinary|apply demo_reaches|apply (demo_op_ok 9 _ eq_refl (demo 9))|].
  assert (S : forall k, In k (map m_key (withdraw_accs alice alice_orca alice_record)) -> a_lamports (demo 9 k) < 2 ^ 62).
  { intros k I. apply in_map_iff in I. destruct I as (m & <- & I). pose proof demo_small as D. rewrite forallb_forall in D.
    apply Z.ltb_lt, D, I. }
  intros j k J K _. pose proof (S _ J). pose proof (S _ K). unfold u64_max. lia.
Qed.

(** The bound on lamports is needed: a refund that does not fit wraps around and the runtime refuses the call. *)
Example C70_overflow_ex :
  verdict (process_instruction_r demo_crypto (demo_env 2100) xorca_id (withdraw_accs alice alice_orca alice_record) rich
    (instruction_bytes (Withdraw 0))) = Some (Refused ExternalAccountLamportSpend) /\
  verdict (process_instruction demo_crypto (demo_env 2100) xorca_id (withdraw_accs alice alice_orca alice_record) rich
    (instruction_bytes (Withdraw 0))) = Some EPanic.
Proof. apply pair_equal_spec, rich_refused. Qed.

Print Assumptions C70_comparison.
Print Assumptions C70_same_successes.
Print Assumptions C70_never_refused.
