(** A ledger no chain reaches, with the State account as a signer that holds
    xORCA: here a borrow does fail. *)
From Verif Require Import Borrow Demo.
Import List ListNotations.
Open Scope list_scope.
Open Scope Z_scope.

Definition odd_record : pubkey := Eval vm_compute in
  found (find_pending_withdraw_address demo_crypto demo_state 0).
Definition odd_ledger : ledger := ledger_of [
  (demo_state, Account 10000000000 xorca_id
     (splice 0 (state_borsh (initial_state 100 255 255 admin)) (zeros STATE_LEN)));
  (demo_vault, Account 2039280 token_id (demo_ta orca_mint_id demo_state 5000000));
  (orca_mint_id, Account 1461600 token_id (demo_mint admin 30000000));
  (xorca_mint_id, Account 1461600 token_id (demo_mint demo_state 5000000));
  (alice_xorca, Account 2039280 token_id (demo_ta xorca_mint_id demo_state 5000000))].
Definition odd_accs : list meta := unstake_accs demo_state alice_xorca odd_record.

Lemma odd_borrow :
  process_instruction_b demo_crypto (demo_env 2000) xorca_id odd_accs odd_ledger (instruction_bytes (Unstake 1000000 0))
  = Err BorrowFailed.
Proof. vm_compute. reflexivity. Qed.
