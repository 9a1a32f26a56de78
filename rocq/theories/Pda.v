(** /repo/solana-program/src/pda.rs and the [verify_address_with_bump] helpers. *)
From Verif Require Export Solana.
From Verif Require Import Base58.
From Coq Require Import String List.

(** /repo/solana-program/src/pda.rs:9-11 *)
Definition state_seed : list byte := Eval vm_compute in str_bytes "state".
Definition state_seeds : list (list byte) := [state_seed].

(** /repo/solana-program/src/pda.rs:19-24 *)
Definition pending_seed : list byte := Eval vm_compute in str_bytes "pending_withdraw".
Definition pending_seeds (unstaker : pubkey) (index : Z) : list (list byte) :=
  [pending_seed; key_bytes unstaker; [Z_to_byte index]].

(** /repo/solana-program/src/pda.rs:38-44 *)
Definition vault_seeds (state token_program orca_mint : pubkey) : list (list byte) :=
  [key_bytes state; key_bytes token_program; key_bytes orca_mint].

(** /repo/solana-program/src/pda.rs:65-68 *)
Definition find_state_address (C : crypto) : option (pubkey * byte) :=
  find_program_address C state_seeds xorca_id.

(** /repo/solana-program/src/pda.rs:71-74 *)
Definition find_pending_withdraw_address (C : crypto) (unstaker : pubkey) (index : Z)
  : option (pubkey * byte) :=
  find_program_address C (pending_seeds unstaker index) xorca_id.

(** /repo/solana-program/src/pda.rs:77-84 *)
Definition find_vault_address (C : crypto) (state token_program orca_mint : pubkey)
  : option (pubkey * byte) :=
  find_program_address C (vault_seeds state token_program orca_mint) ata_id.

(** /repo/solana-program/src/state/state.rs:58-72 (address compared by the caller) *)
Definition state_address_with_bump (C : crypto) (bump : Z) : pubkey :=
  derive_address C state_seeds (Z_to_byte bump) xorca_id.

(** /repo/solana-program/src/state/state.rs:74-93 *)
Definition vault_address_with_bump (C : crypto) (state orca_mint : pubkey) (bump : Z) : pubkey :=
  derive_address C (vault_seeds state token_id orca_mint) (Z_to_byte bump) ata_id.

(** /repo/solana-program/src/state/pending_withdraw.rs:52-68 *)
Definition pending_address_with_bump (C : crypto) (unstaker : pubkey) (index bump : Z) : pubkey :=
  derive_address C (pending_seeds unstaker index) (Z_to_byte bump) xorca_id.
