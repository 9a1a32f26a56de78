(** /repo/solana-program/src/error.rs:3-63: the program's error codes. *)
From Verif Require Export Solana.

Inductive error_code :=
| UnknownInstructionDiscriminator
| IncorrectProgramId
| InvalidAccountRole
| NotEnoughAccountKeys
| IncorrectOwner
| InvalidSeeds
| IncorrectAccountAddress
| InvalidAccountData
| ArithmeticError
| InsufficientFunds
| StateAccountAlreadyInitialized
| CoolDownPeriodStillActive
| EmitEventError
| InvalidCoolDownPeriod
| InsufficientStakeAmount
| InsufficientUnstakeAmount
| InsufficientEscrow
| CoolDownOverflow
| InsufficientVaultBacking
| UnauthorizedDeployerAccess.

(** /repo/solana-program/src/error.rs:5-62 (explicit discriminants) *)
Definition code (e : error_code) : Z :=
  match e with
  | UnknownInstructionDiscriminator => 6000
  | IncorrectProgramId => 6001
  | InvalidAccountRole => 6002
  | NotEnoughAccountKeys => 6003
  | IncorrectOwner => 6004
  | InvalidSeeds => 6005
  | IncorrectAccountAddress => 6006
  | InvalidAccountData => 6007
  | ArithmeticError => 6008
  | InsufficientFunds => 6009
  | StateAccountAlreadyInitialized => 6010
  | CoolDownPeriodStillActive => 6011
  | EmitEventError => 6012
  | InvalidCoolDownPeriod => 6013
  | InsufficientStakeAmount => 6014
  | InsufficientUnstakeAmount => 6015
  | InsufficientEscrow => 6016
  | CoolDownOverflow => 6017
  | InsufficientVaultBacking => 6018
  | UnauthorizedDeployerAccess => 6019
  end.

(** /repo/solana-program/src/error.rs:65-69: [From<ErrorCode> for ProgramError]. *)
Definition custom (e : error_code) : err := ECustom (code e).
