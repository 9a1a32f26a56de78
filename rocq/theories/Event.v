(** /repo/solana-program/src/event.rs:6-34: events and their Borsh encoding. *)
From Verif Require Export Borsh.
Open Scope reader_scope.

Inductive event :=
| EvStake (orca_stake_amount vault_orca_amount vault_escrowed_orca_amount
           xorca_mint_supply xorca_to_mint : Z)
| EvUnstake (xorca_unstake_amount vault_orca_amount vault_escrowed_orca_amount
             xorca_mint_supply withdrawable_orca_amount cool_down_period_s withdraw_index : Z)
| EvWithdraw (vault_escrowed_orca_amount withdrawable_orca_amount cool_down_period_s
              withdraw_index : Z)
| EvUpdateAuthoritySet (new_authority set_by : pubkey).

(** [borsh::to_vec(self)], event.rs:46-52: the payload of [sol_log_data]. *)
Definition event_bytes (e : event) : list byte :=
  match e with
  | EvStake a v e s m =>
      le_enc 1 0 ++ le_enc 8 a ++ le_enc 8 v ++ le_enc 8 e ++ le_enc 8 s ++ le_enc 8 m
  | EvUnstake x v e s w c i =>
      le_enc 1 1 ++ le_enc 8 x ++ le_enc 8 v ++ le_enc 8 e ++ le_enc 8 s ++ le_enc 8 w
      ++ le_enc 8 c ++ le_enc 1 i
  | EvWithdraw e w c i => le_enc 1 2 ++ le_enc 8 e ++ le_enc 8 w ++ le_enc 8 c ++ le_enc 1 i
  | EvUpdateAuthoritySet n s => le_enc 1 3 ++ key_bytes n ++ key_bytes s
  end.

(** The decoder a client uses:
    /repo/rust-client/src/generated/types/event.rs:14-49 (derive(BorshDeserialize)). *)
Definition read_event : reader event :=
  t <- read_u8;;
  if t =? 0 then
    a <- read_u64;; v <- read_u64;; e <- read_u64;; s <- read_u64;; m <- read_u64;;
    rret (EvStake a v e s m)
  else if t =? 1 then
    x <- read_u64;; v <- read_u64;; e <- read_u64;; s <- read_u64;; w <- read_u64;;
    c <- read_i64;; i <- read_u8;;
    rret (EvUnstake x v e s w c i)
  else if t =? 2 then
    e <- read_u64;; w <- read_u64;; c <- read_i64;; i <- read_u8;;
    rret (EvWithdraw e w c i)
  else if t =? 3 then
    n <- read_key;; s <- read_key;; rret (EvUpdateAuthoritySet n s)
  else rfail.

Definition event_ok (e : event) : Prop :=
  match e with
  | EvStake a v e s m => is_u64 a /\ is_u64 v /\ is_u64 e /\ is_u64 s /\ is_u64 m
  | EvUnstake x v e s w c i =>
      is_u64 x /\ is_u64 v /\ is_u64 e /\ is_u64 s /\ is_u64 w /\ is_i64 c /\ is_u8 i
  | EvWithdraw e w c i => is_u64 e /\ is_u64 w /\ is_i64 c /\ is_u8 i
  | EvUpdateAuthoritySet _ _ => True
  end.
