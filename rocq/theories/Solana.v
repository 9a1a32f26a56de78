(** Solana runtime vocabulary: accounts, ledger, account metas, errors, program
    derived addresses. *)
From Verif Require Export Bytes.
From Verif Require Import Base58 Sha256 Ed25519.
From Coq Require Import String List.

(** ** Cryptography *)

(** SHA-256 and the curve test, as an abstract record.  Every theorem holds for
    every instance; [real_crypto] is the one the chain uses. *)
Record crypto := {
  sha256 : list byte -> pubkey;
  on_curve : pubkey -> bool
}.

Definition real_crypto : crypto := {|
  sha256 := fun l => key_of (sha256_bytes l);
  on_curve := fun k => ed_on_curve_bytes (key_bytes k)
|}.

(** ** Addresses *)

(** /repo/solana-program/src/lib.rs:14 *)
Definition xorca_id : pubkey := Eval vm_compute in
  b58_key "StaKE6XNKVVhG8Qu9hDJBqCW3eRe7MDGLz17nJZetLT".
(** /repo/solana-program/src/lib.rs:17-18 (the non-test constant) *)
Definition deployer_address : pubkey := Eval vm_compute in
  b58_key "94kZD71sbTKhqhcvY9D9Ra5BsLzKRZgznbBbQpBWmKrT".
(** /repo/solana-program/src/cpi/token/mod.rs:7 *)
Definition orca_mint_id : pubkey := Eval vm_compute in
  b58_key "orcaEKTdK7LKz57vaAYr9QeNsVEPfiu6QeMU1kektZE".
(** /repo/solana-program/src/cpi/token/mod.rs:8 *)
Definition xorca_mint_id : pubkey := Eval vm_compute in
  b58_key "xorcaYqbXUNz3474ubUMJAdu2xgPsew3rUCe5ughT3N".
(** [pinocchio_token::ID] *)
Definition token_id : pubkey := Eval vm_compute in
  b58_key "TokenkegQfeZyiNwAJbNbGKPFXCWuBvf9Ss623VQ5DA".
(** [pinocchio_associated_token_account::ID] *)
Definition ata_id : pubkey := Eval vm_compute in
  b58_key "ATokenGPvbdGVxr1b2hvZbsiqW5xWH25efTNsLJA8knL".
(** [pinocchio_system::ID] = the all-zero key *)
Definition system_id : pubkey := Eval vm_compute in
  b58_key "11111111111111111111111111111111".
(** The incinerator address; spl-token lets anyone burn tokens it owns. *)
Definition incinerator_id : pubkey := Eval vm_compute in
  b58_key "1nc1nerator11111111111111111111111111111111".
(** Wrapped SOL mint (spl-token's [native_mint]). *)
Definition native_mint_id : pubkey := Eval vm_compute in
  b58_key "So11111111111111111111111111111111111111112".

(** ** Accounts *)
Record account := Account {
  a_lamports : Z;
  a_owner : pubkey;
  a_data : list byte
}.

(** The whole ledger.  Addresses without an account map to a zero-lamport,
    system-owned, empty account, which is what the runtime hands to a program. *)
Definition ledger := pubkey -> account.

Definition empty_account : account := Account 0 system_id [].

Definition upd (l : ledger) (k : pubkey) (a : account) : ledger :=
  fun k' => if key_eqb k k' then a else l k'.

Definition set_lamports (l : ledger) (k : pubkey) (n : Z) : ledger :=
  upd l k (Account n (a_owner (l k)) (a_data (l k))).
Definition set_data (l : ledger) (k : pubkey) (d : list byte) : ledger :=
  upd l k (Account (a_lamports (l k)) (a_owner (l k)) d).
Definition set_owner (l : ledger) (k : pubkey) (o : pubkey) : ledger :=
  upd l k (Account (a_lamports (l k)) o (a_data (l k))).

(** One entry of an instruction's account list ([AccountInfo]: key and flags;
    lamports, owner and data are read from the ledger through the key, so
    aliased entries share them). *)
Record meta := Meta {
  m_key : pubkey;
  m_signer : bool;
  m_writable : bool
}.

(** ** Errors *)
Inductive token_error :=
| TE_InvalidAccountData | TE_Uninitialized | TE_AlreadyInUse | TE_AccountFrozen
| TE_InsufficientFunds | TE_MintMismatch | TE_OwnerMismatch | TE_MissingSignature
| TE_FixedSupply | TE_Overflow | TE_NativeNotSupported | TE_IncorrectProgramId
| TE_InvalidMint | TE_NotRentExempt | TE_NonNativeHasBalance | TE_InvalidState
| TE_MintCannotFreeze | TE_AuthorityTypeNotSupported | TE_NonNativeNotSupported
| TE_NotEnoughSigners | TE_MintDecimalsMismatch.

Inductive system_error :=
| SE_AccountAlreadyInUse | SE_MissingSignature | SE_InvalidArgument
| SE_InsufficientLamports | SE_InvalidDataLength | SE_Overflow | SE_ExternalLamportSpend.

Inductive ata_error :=
| AE_InvalidSeeds | AE_IllegalOwner | AE_InvalidOwner.

Inductive runtime_error :=
| RE_PrivilegeEscalation   (* CPI asks for a signer/writable flag the caller lacks *)
| RE_MissingAccount        (* callee program not among the instruction accounts *)
| RE_InvalidSeeds.         (* invoke_signed seeds are not a valid PDA *)

Inductive err :=
| ECustom (code : Z)       (* ProgramError::Custom *)
| EInvalidAccountData      (* ProgramError::InvalidAccountData *)
| EPanic                   (* Rust panic: the instruction aborts *)
| EToken (e : token_error)
| ESystem (e : system_error)
| EAta (e : ata_error)
| ERuntime (e : runtime_error).

(** ** Per-call environment: sysvars *)
Record env := {
  now : Z;                 (* Clock::unix_timestamp, an i64 *)
  rent_min : Z -> Z        (* Rent::minimum_balance(space) *)
}.

(** ** Program derived addresses *)
Definition pda_marker : list byte := Eval vm_compute in str_bytes "ProgramDerivedAddress".

(** The hashed string: seeds, bump, program id, marker, concatenated without
    separators. *)
Definition pda_preimage (seeds : list (list byte)) (pid : pubkey) : list byte :=
  concat seeds ++ key_bytes pid ++ pda_marker.

(** [pinocchio_pubkey::derive_address(seeds, Some(bump), program_id)]: hash only,
    no curve check. *)
Definition derive_address (C : crypto) (seeds : list (list byte)) (bump : byte) (pid : pubkey)
  : pubkey :=
  sha256 C (pda_preimage (seeds ++ [[bump]]) pid).

(** [create_program_address]: at most 16 seeds of at most 32 bytes, and the
    result must be off the curve. *)
Definition seeds_ok (seeds : list (list byte)) : bool :=
  (Nat.leb (length seeds) 16) && forallb (fun s => Nat.leb (length s) 32) seeds.

Definition create_program_address (C : crypto) (seeds : list (list byte)) (pid : pubkey)
  : option pubkey :=
  if seeds_ok seeds then
    let h := sha256 C (pda_preimage seeds pid) in
    if on_curve C h then None else Some h
  else None.

(** The runtime's bump search: bumps 255 down to 1. *)
Fixpoint find_bump (C : crypto) (seeds : list (list byte)) (pid : pubkey) (fuel : nat) (bump : Z)
  : option (pubkey * byte) :=
  match fuel with
  | O => None
  | S fuel' =>
      match create_program_address C (seeds ++ [[Z_to_byte bump]]) pid with
      | Some k => Some (k, Z_to_byte bump)
      | None => find_bump C seeds pid fuel' (bump - 1)
      end
  end.

(** [find_program_address]; [None] is the panic "unable to find a viable program
    address". *)
Definition find_program_address (C : crypto) (seeds : list (list byte)) (pid : pubkey)
  : option (pubkey * byte) :=
  find_bump C seeds pid 255 255.
