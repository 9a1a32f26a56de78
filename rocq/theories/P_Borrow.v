(** C68: the run-time borrow flags. *)
From Verif Require Import Borrow BorrowFacts HistoryFacts MistakeSpec Demo DemoMore DemoStory DemoMistake DemoBorrow.
Import List ListNotations.
Open Scope list_scope.
Open Scope Z_scope.

(** ** C68 *)
(** On a ledger the chain can reach no call is answered [AccountBorrowFailed]. *)
Theorem C68_no_borrow_error : forall C E accs l data,
  ordinary_state_address C -> reaches C l -> honest_metas C accs ->
  process_instruction_b C E xorca_id accs l data <> Err BorrowFailed.
Proof. exact no_borrow_error. Qed.

Example C68_no_borrow_error_ex :
  process_instruction_b demo_crypto (demo_env 2000) xorca_id (unstake_accs alice alice_xorca alice_record) (demo 4)
    (instruction_bytes (Unstake 1000000 0)) <> Err BorrowFailed /\
  invoke_checked [Guard demo_state DataCell true] [Meta demo_state true false] (Ok (demo 4)) = Err BorrowFailed /\
  invoke_checked [Guard demo_state DataCell false] [Meta demo_state false true] (Ok (demo 4)) = Err BorrowFailed /\
  try_borrow_mut [Guard demo_state DataCell false] demo_state DataCell = Err BorrowFailed.
Proof.
  split; [apply C68_no_borrow_error; [exact demo_ordinary|apply demo_reaches|demo_honest]|].
  split; [|split]; vm_compute; reflexivity.
Qed.

(** It ends as it does without the flags. *)
Theorem C68_flags_change_nothing : forall C E accs l data,
  ordinary_state_address C -> reaches C l -> honest_metas C accs ->
  process_instruction_b C E xorca_id accs l data = plain (process_instruction C E xorca_id accs l data).
Proof. exact borrows_never_fail. Qed.

Example C68_flags_change_nothing_ex :
  process_instruction_b demo_crypto (demo_env 2000) xorca_id (stake_accs alice alice_orca alice_xorca) (demo 4)
    (instruction_bytes (Stake 1000000)) =
  plain (process_instruction demo_crypto (demo_env 2000) xorca_id (stake_accs alice alice_orca alice_xorca) (demo 4)
    (instruction_bytes (Stake 1000000))).
Proof. apply C68_flags_change_nothing; [exact demo_ordinary|apply demo_reaches|demo_honest]. Qed.

(** On any ledger and with any accounts the flags forbid no call that would succeed. *)
Theorem C68_same_successes : forall C E accs l data o,
  process_instruction_b C E xorca_id accs l data = Ok o <-> process_instruction C E xorca_id accs l data = Ok o.
Proof. exact same_successes. Qed.

Example C68_same_successes_ex :
  exists o, process_instruction_b demo_crypto (demo_env 2000) xorca_id (unstake_accs alice alice_xorca alice_record) (demo 4)
    (instruction_bytes (Unstake 1000000 0)) = Ok o.
Proof.
  assert (A : accepted demo_crypto (demo_env 2000) (unstake_accs alice alice_xorca alice_record) (demo 4)
    (instruction_bytes (Unstake 1000000 0))) by demo_accepted 4%nat.
  unfold accepted in A. destruct (process_instruction _ _ _ _ _ _) as [o|e] eqn:Q; [|discriminate A].
  exists o. apply C68_same_successes, Q.
Qed.

(** The one place where a borrow can fail: Unstake with the State account itself as signer; such a call fails anyway. *)
Theorem C68_only_possible_error : forall C E accs l data,
  process_instruction_b C E xorca_id accs l data = plain (process_instruction C E xorca_id accs l data) \/
  process_instruction_b C E xorca_id accs l data = Err BorrowFailed /\
  (exists e, process_instruction C E xorca_id accs l data = Err e) /\
  (exists x i, encodes data (Unstake x i)) /\
  exists k, signed_slot accs 0 k /\ slot accs 1 k /\ is_state l k.
Proof. exact borrows_harmless. Qed.

Example C68_only_possible_error_ex :
  process_instruction_b demo_crypto (demo_env 2000) xorca_id (withdraw_accs alice alice_orca alice_record) (demo 4)
    (instruction_bytes (Withdraw 0)) =
  plain (process_instruction demo_crypto (demo_env 2000) xorca_id (withdraw_accs alice alice_orca alice_record) (demo 4)
    (instruction_bytes (Withdraw 0))) /\
  process_instruction_b demo_crypto (demo_env 2000) xorca_id odd_accs odd_ledger
    (instruction_bytes (Unstake 1000000 0)) = Err BorrowFailed.
Proof.
  split; [|exact odd_borrow].
  destruct (C68_only_possible_error demo_crypto (demo_env 2000) (withdraw_accs alice alice_orca alice_record) (demo 4)
    (instruction_bytes (Withdraw 0))) as [Q|[_ [_ [[x [i D]] _]]]]; [exact Q|].
  apply decode_encodes in D. vm_compute in D. discriminate D.
Qed.

Print Assumptions C68_no_borrow_error.
Print Assumptions C68_flags_change_nothing.
Print Assumptions C68_same_successes.
Print Assumptions C68_only_possible_error.
