(** /repo/solana-program/src/instructions/mod.rs:20-87: the instruction enum and
    its Borsh encoding. *)
From Verif Require Export Borsh.
Open Scope reader_scope.

Inductive state_update :=
| UpdateCoolDownPeriod (new_cool_down_period_s : Z)
| UpdateUpdateAuthority (new_authority : pubkey).

Inductive instruction :=
| Stake (orca_stake_amount : Z)
| Unstake (xorca_unstake_amount : Z) (withdraw_index : Z)
| Withdraw (withdraw_index : Z)
| Initialize (cool_down_period_s : Z)
| Set_ (instruction_data : state_update).

(** derive(BorshDeserialize) for [StateUpdateInstruction], mod.rs:84-87 *)
Definition read_state_update : reader state_update :=
  t <- read_u8;;
  if t =? 0 then c <- read_i64;; rret (UpdateCoolDownPeriod c)
  else if t =? 1 then k <- read_key;; rret (UpdateUpdateAuthority k)
  else rfail.

(** derive(BorshDeserialize) for [Instruction], mod.rs:20-71 *)
Definition read_instruction : reader instruction :=
  t <- read_u8;;
  if t =? 0 then a <- read_u64;; rret (Stake a)
  else if t =? 1 then a <- read_u64;; i <- read_u8;; rret (Unstake a i)
  else if t =? 2 then i <- read_u8;; rret (Withdraw i)
  else if t =? 3 then c <- read_i64;; rret (Initialize c)
  else if t =? 4 then u <- read_state_update;; rret (Set_ u)
  else rfail.

(** derive(BorshSerialize) *)
Definition state_update_bytes (u : state_update) : list byte :=
  match u with
  | UpdateCoolDownPeriod c => le_enc 1 0 ++ le_enc 8 c
  | UpdateUpdateAuthority k => le_enc 1 1 ++ key_bytes k
  end.

Definition instruction_bytes (i : instruction) : list byte :=
  match i with
  | Stake a => le_enc 1 0 ++ le_enc 8 a
  | Unstake a x => le_enc 1 1 ++ le_enc 8 a ++ le_enc 1 x
  | Withdraw x => le_enc 1 2 ++ le_enc 1 x
  | Initialize c => le_enc 1 3 ++ le_enc 8 c
  | Set_ u => le_enc 1 4 ++ state_update_bytes u
  end.

(** Argument ranges of the Rust types. *)
Definition instruction_ok (i : instruction) : Prop :=
  match i with
  | Stake a => is_u64 a
  | Unstake a x => is_u64 a /\ is_u8 x
  | Withdraw x => is_u8 x
  | Initialize c => is_i64 c
  | Set_ (UpdateCoolDownPeriod c) => is_i64 c
  | Set_ (UpdateUpdateAuthority _) => True
  end.
