(** Account layouts: /repo/solana-program/src/state and
    /repo/solana-program/src/cpi/token/state.rs.

    [State] and [PendingWithdraw] are read and written on chain through a
    [repr(C)] pointer cast (state/mod.rs:24-37), i.e. at fixed byte offsets; the
    Initialize instruction and the clients use Borsh. *)
From Verif Require Export Errors Borsh.

(** ** Discriminators: /repo/solana-program/src/state/mod.rs:9-18 *)
Definition DISC_UNINITIALIZED : Z := 0.
Definition DISC_STATE : Z := 1.
Definition DISC_PENDING : Z := 2.
Definition DISC_CLOSED : Z := 3.

(** ** State: /repo/solana-program/src/state/state.rs:10-29 *)
Definition STATE_LEN : Z := 2048.
Definition st_disc (d : list byte) : Z := get_u8 0 d.
Definition st_bump (d : list byte) : Z := get_u8 6 d.
Definition st_vault_bump (d : list byte) : Z := get_u8 7 d.
Definition st_escrow (d : list byte) : Z := get_u64 8 d.
Definition st_cooldown (d : list byte) : Z := get_i64 16 d.
Definition st_authority (d : list byte) : pubkey := get_key 24 d.

(** Field assignments through [&mut State]. *)
Definition set_escrow (v : Z) (d : list byte) : list byte := set_u64 8 v d.
Definition set_cooldown (v : Z) (d : list byte) : list byte := set_u64 16 v d.
Definition set_authority (k : pubkey) (d : list byte) : list byte := set_key 24 k d.

(** The Rust struct, used where it is built as a value. *)
Record state := {
  s_disc : Z;
  s_padding1 : list byte;
  s_bump : Z;
  s_vault_bump : Z;
  s_escrow : Z;
  s_cooldown : Z;
  s_authority : pubkey;
  s_padding2 : list byte
}.

(** [borsh::to_vec(&State)]: fields in declaration order, no gaps. *)
Definition state_borsh (s : state) : list byte :=
  le_enc 1 (s_disc s) ++ s_padding1 s ++ le_enc 1 (s_bump s) ++ le_enc 1 (s_vault_bump s)
  ++ le_enc 8 (s_escrow s) ++ le_enc 8 (s_cooldown s) ++ key_bytes (s_authority s)
  ++ s_padding2 s.

(** /repo/solana-program/src/state/state.rs:31-44 [State::default()] with the
    assignments of /repo/solana-program/src/instructions/initialize.rs:127-134. *)
Definition initial_state (cooldown bump vault_bump : Z) (authority : pubkey) : state := {|
  s_disc := DISC_STATE;
  s_padding1 := zeros 5;
  s_bump := bump;
  s_vault_bump := vault_bump;
  s_escrow := 0;
  s_cooldown := cooldown;
  s_authority := authority;
  s_padding2 := zeros 1992
|}.

(** ** PendingWithdraw: /repo/solana-program/src/state/pending_withdraw.rs:10-29 *)
Definition PENDING_LEN : Z := 1024.
Definition pw_disc (d : list byte) : Z := get_u8 0 d.
Definition pw_bump (d : list byte) : Z := get_u8 6 d.
Definition pw_index (d : list byte) : Z := get_u8 7 d.
Definition pw_unstaker (d : list byte) : pubkey := get_key 8 d.
Definition pw_amount (d : list byte) : Z := get_u64 40 d.
Definition pw_timestamp (d : list byte) : Z := get_i64 48 d.

(** ** External token layouts as Borsh structs *)

(** /repo/solana-program/src/cpi/token/state.rs:4-13 *)
Record token_mint := {
  tm_mint_authority_flag : Z;
  tm_mint_authority : pubkey;
  tm_supply : Z;
  tm_decimals : Z;
  tm_is_initialized : bool;
  tm_freeze_authority_flag : Z;
  tm_freeze_authority : pubkey
}.

Open Scope reader_scope.

Definition read_token_mint : reader token_mint :=
  f <- read_u32;; a <- read_key;; s <- read_u64;; d <- read_u8;; i <- read_bool;;
  ff <- read_u32;; fa <- read_key;;
  rret {| tm_mint_authority_flag := f; tm_mint_authority := a; tm_supply := s;
          tm_decimals := d; tm_is_initialized := i; tm_freeze_authority_flag := ff;
          tm_freeze_authority := fa |}.

(** /repo/solana-program/src/cpi/token/state.rs:15-44 *)
Record token_account := {
  tk_mint : pubkey;
  tk_owner : pubkey;
  tk_amount : Z;
  tk_delegate_flag : Z;
  tk_delegate : pubkey;
  tk_state : Z;
  tk_is_native_flag : Z;
  tk_native_amount : Z;
  tk_delegate_amount : Z;
  tk_close_authority_flag : Z;
  tk_close_authority : pubkey
}.

Definition read_token_account : reader token_account :=
  m <- read_key;; o <- read_key;; a <- read_u64;; df <- read_u32;; d <- read_key;;
  s <- read_enum 3;; nf <- read_u32;; n <- read_u64;; da <- read_u64;; cf <- read_u32;;
  c <- read_key;;
  rret {| tk_mint := m; tk_owner := o; tk_amount := a; tk_delegate_flag := df;
          tk_delegate := d; tk_state := s; tk_is_native_flag := nf; tk_native_amount := n;
          tk_delegate_amount := da; tk_close_authority_flag := cf; tk_close_authority := c |}.
