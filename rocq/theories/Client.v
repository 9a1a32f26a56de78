(** The clients: instruction data, account lists, error tables and address
    derivation of the Rust client, the JS client and the scripts. *)
From Coq Require Import Ascii String.
From Verif Require Export Schema Instr Pda.
From Verif Require Import Base58.
Import List ListNotations.
Open Scope list_scope.
Open Scope Z_scope.

(** An instruction as the clients hand it to the network. *)
Record built := Built {
  b_program : pubkey;
  b_accounts : list meta;
  b_data : list byte
}.

(** ** JS numbers.  [JFrac z] is some number strictly between [z] and [z + 1];
    infinities behave like large integers here. *)
Inductive jsnum := JInt (z : Z) | JFrac (z : Z) | JNaN.

(** ToUint8, applied by [new Uint8Array([x])], [Buffer.from([x])] and
    [DataView.setUint8]: truncate towards zero, then modulo 256; NaN becomes 0. *)
Definition js_trunc (n : jsnum) : Z :=
  match n with JInt z => z | JFrac z => if z <? 0 then z + 1 else z | JNaN => 0 end.
Definition js_uint8 (n : jsnum) : byte := Z_to_byte (js_trunc n).

(** [x < lo || x > hi], false on NaN: the range test of the Codama number encoders
    (@solana/codecs-numbers [assertNumberIsBetweenForCodec]) and of node's
    [Buffer.write*]. *)
Definition js_outside (lo hi : Z) (n : jsnum) : bool :=
  match n with
  | JInt z => (z <? lo) || (hi <? z)
  | JFrac z => (z <? lo) || (hi <=? z)
  | JNaN => false
  end.
(** [getU8Encoder] and [Buffer.writeUInt8]; [None] is an exception. *)
Definition js_u8 (n : jsnum) : option (list byte) :=
  if js_outside 0 u8_max n then None else Some [js_uint8 n].
(** [getU64Encoder], [getI64Encoder], [writeBigUInt64LE], [writeBigInt64LE] on a bigint. *)
Definition js_u64 (z : Z) : option (list byte) :=
  if (z <? 0) || (u64_max <? z) then None else Some (le_enc 8 z).
Definition js_i64 (z : Z) : option (list byte) :=
  if (z <? i64_min) || (i64_max <? z) then None else Some (le_enc 8 z).
(** [BigInt(x)] on a number: throws unless it is an integer. *)
Definition js_bigint (n : jsnum) : option Z := match n with JInt z => Some z | _ => None end.

Definition obind {A B} (o : option A) (f : A -> option B) : option B :=
  match o with Some a => f a | None => None end.
Notation "'get!' x := e 'in' k" := (obind e (fun x => k)) (at level 200, x name, k at level 200).

(** * Rust client *)
(** [AccountMeta::new] and [AccountMeta::new_readonly] *)
Definition am (k : pubkey) (signer : bool) : meta := Meta k signer true.
Definition am_readonly (k : pubkey) (signer : bool) : meta := Meta k signer false.

(** rust-client/src/generated/instructions/stake.rs:33-88, 91-111: the
    discriminator struct, then the arguments, both in Borsh. *)
Definition rust_stake (staker vault staker_orca staker_xorca xorca_mint state orca_mint token : pubkey)
    (remaining : list meta) (amount : Z) : built :=
  Built xorca_id
    ([am staker true; am vault false; am staker_orca false; am staker_xorca false; am xorca_mint false;
      am_readonly state false; am_readonly orca_mint false; am_readonly token false] ++ remaining)
    (fields_bytes [FU8] [VInt 0] ++ fields_bytes [FU64] [VInt amount]).

(** rust-client/src/generated/instructions/unstake.rs:35-94, 97-118 *)
Definition rust_unstake
    (unstaker state pending unstaker_xorca xorca_mint orca_mint vault system token : pubkey)
    (remaining : list meta) (amount index : Z) : built :=
  Built xorca_id
    ([am unstaker true; am state false; am pending false; am unstaker_xorca false; am xorca_mint false;
      am_readonly orca_mint false; am_readonly vault false; am_readonly system false;
      am_readonly token false] ++ remaining)
    (fields_bytes [FU8] [VInt 1] ++ fields_bytes [FU64; FU8] [VInt amount; VInt index]).

(** rust-client/src/generated/instructions/withdraw.rs:33-88, 91-111 *)
Definition rust_withdraw (unstaker state pending unstaker_orca vault orca_mint system token : pubkey)
    (remaining : list meta) (index : Z) : built :=
  Built xorca_id
    ([am unstaker true; am state false; am pending false; am unstaker_orca false; am vault false;
      am_readonly orca_mint false; am_readonly system false; am_readonly token false] ++ remaining)
    (fields_bytes [FU8] [VInt 2] ++ fields_bytes [FU8] [VInt index]).

(** rust-client/src/generated/instructions/initialize.rs:35-94, 97-117 *)
Definition rust_initialize
    (payer authority state vault xorca_mint orca_mint system token ata : pubkey)
    (remaining : list meta) (cooldown : Z) : built :=
  Built xorca_id
    ([am payer true; am authority true; am state false; am vault false; am_readonly xorca_mint false;
      am_readonly orca_mint false; am_readonly system false; am_readonly token false;
      am_readonly ata false] ++ remaining)
    (fields_bytes [FU8] [VInt 3] ++ fields_bytes [FI64] [VInt cooldown]).

(** rust-client/src/generated/instructions/set.rs:22-54 and
    types/state_update_instruction.rs (derived Borsh of a two-variant enum) *)
Definition rust_update (u : state_update) : list byte :=
  match u with
  | UpdateCoolDownPeriod c => fields_bytes [FU8; FI64] [VInt 0; VInt c]
  | UpdateUpdateAuthority k => fields_bytes [FU8; FKey] [VInt 1; VKey k]
  end.
Definition rust_set (authority state : pubkey) (remaining : list meta) (u : state_update) : built :=
  Built xorca_id ([am authority true; am state false] ++ remaining)
    (fields_bytes [FU8] [VInt 4] ++ rust_update u).

(** * JS client *)
(** An account input: an address, or an object that can sign
    (js-client/src/generated/shared/index.ts). *)
Inductive js_account := JAddress (k : pubkey) | JSigner (k : pubkey).
(** shared/index.ts [getAccountMetaFactory]: the signer flag comes from the value,
    the writable flag from the instruction. *)
Definition js_meta (v : js_account) (writable : bool) : meta :=
  match v with JAddress k => Meta k false writable | JSigner k => Meta k true writable end.

(** js-client/src/generated/instructions/stake.ts:91-99 and 173-211; [program] is
    [config?.programAddress ?? XORCA_STAKING_PROGRAM_PROGRAM_ADDRESS]. *)
Definition js_stake (staker vault staker_orca staker_xorca xorca_mint state orca_mint token : pubkey)
    (amount : Z) : option built :=
  get! a := js_u64 amount in
  Some (Built xorca_id
    [js_meta (JSigner staker) true; js_meta (JAddress vault) true; js_meta (JAddress staker_orca) true;
     js_meta (JAddress staker_xorca) true; js_meta (JAddress xorca_mint) true;
     js_meta (JAddress state) false; js_meta (JAddress orca_mint) false; js_meta (JAddress token) false]
    ([Z_to_byte 0] ++ a)).

(** js-client/src/generated/instructions/unstake.ts:100-110 and 190-239 *)
Definition js_unstake
    (unstaker state pending unstaker_xorca xorca_mint orca_mint vault system token : pubkey)
    (amount : Z) (index : jsnum) : option built :=
  get! a := js_u64 amount in
  get! i := js_u8 index in
  Some (Built xorca_id
    [js_meta (JSigner unstaker) true; js_meta (JAddress state) true; js_meta (JAddress pending) true;
     js_meta (JAddress unstaker_xorca) true; js_meta (JAddress xorca_mint) true;
     js_meta (JAddress orca_mint) false; js_meta (JAddress vault) false; js_meta (JAddress system) false;
     js_meta (JAddress token) false]
    ([Z_to_byte 1] ++ a ++ i)).

(** js-client/src/generated/instructions/withdraw.ts:90-99 and 172-213 *)
Definition js_withdraw (unstaker state pending unstaker_orca vault orca_mint system token : pubkey)
    (index : jsnum) : option built :=
  get! i := js_u8 index in
  Some (Built xorca_id
    [js_meta (JSigner unstaker) true; js_meta (JAddress state) true; js_meta (JAddress pending) true;
     js_meta (JAddress unstaker_orca) true; js_meta (JAddress vault) true;
     js_meta (JAddress orca_mint) false; js_meta (JAddress system) false; js_meta (JAddress token) false]
    ([Z_to_byte 2] ++ i)).

(** js-client/src/generated/instructions/initialize.ts:98-107 and 185-234 *)
Definition js_initialize
    (payer authority state vault xorca_mint orca_mint system token ata : pubkey) (cooldown : Z)
  : option built :=
  get! c := js_i64 cooldown in
  Some (Built xorca_id
    [js_meta (JSigner payer) true; js_meta (JSigner authority) true; js_meta (JAddress state) true;
     js_meta (JAddress vault) true; js_meta (JAddress xorca_mint) false;
     js_meta (JAddress orca_mint) false; js_meta (JAddress system) false; js_meta (JAddress token) false;
     js_meta (JAddress ata) false]
    ([Z_to_byte 3] ++ c)).

(** js-client/src/generated/instructions/set.ts:73-82 and 116-135, and
    types/stateUpdateInstruction.ts:35-40 *)
Definition js_update (u : state_update) : option (list byte) :=
  match u with
  | UpdateCoolDownPeriod c => get! b := js_i64 c in Some ([Z_to_byte 0] ++ b)
  | UpdateUpdateAuthority k => Some ([Z_to_byte 1] ++ key_bytes k)
  end.
Definition js_set (authority state : pubkey) (u : state_update) : option built :=
  get! b := js_update u in
  Some (Built xorca_id [js_meta (JSigner authority) true; js_meta (JAddress state) true]
    ([Z_to_byte 4] ++ b)).

(** Reading instructions back: programs/xorcaStakingProgram.ts:54-76
    ([identifyXorcaStakingProgramInstruction], first byte) followed by the data
    decoder of that instruction (e.g. stake.ts:101-106). *)
Definition js_instruction_structs : list struct :=
  [[("discriminator", FU8); ("orcaStakeAmount", FU64)];
   [("discriminator", FU8); ("xorcaUnstakeAmount", FU64); ("withdrawIndex", FU8)];
   [("discriminator", FU8); ("withdrawIndex", FU8)];
   [("discriminator", FU8); ("coolDownPeriodS", FI64)]]%string.
(** types/stateUpdateInstruction.ts:42-47 *)
Definition js_update_structs : list struct :=
  [[("newCoolDownPeriodS", FI64)]; [("newAuthority", FKey)]]%string.
Definition js_identify_instruction (d : list byte) : option Z :=
  match d with
  | [] => None
  | b :: _ => if byte_to_Z b <? 5 then Some (byte_to_Z b) else None
  end.
(** The decoded fields after the discriminator. *)
Definition js_parse_instruction (d : list byte) : option (Z * list fval) :=
  get! t := js_identify_instruction d in
  if t =? 4 then
    get! u := decode_union js_update_structs (skipn 1 d) in Some (t, VInt (fst u) :: snd u)
  else
    get! vs := decode_struct (nth (Z.to_nat t) js_instruction_structs []) d in Some (t, skipn 1 vs).
(** programs/xorcaStakingProgram.ts:27-44 ([identifyXorcaStakingProgramAccount]):
    2 is PendingWithdraw, 1 is State. *)
Definition js_identify_account (d : list byte) : option Z :=
  match d with
  | [] => None
  | b :: _ => if (byte_to_Z b =? 2) || (byte_to_Z b =? 1) then Some (byte_to_Z b) else None
  end.

(** * Address derivation *)
(** Seeds as strings; addresses as bytes.
    rust-client/src/pda/mod.rs:8-11 *)
Definition rust_find_state (C : crypto) : option (pubkey * byte) :=
  find_program_address C [str_bytes "state"] xorca_id.
(** rust-client/src/pda/mod.rs:13-20 *)
Definition rust_find_vault (C : crypto) (state token orca_mint : pubkey) : option (pubkey * byte) :=
  find_program_address C [key_bytes state; key_bytes token; key_bytes orca_mint] ata_id.
(** rust-client/src/pda/mod.rs:22-29 *)
Definition rust_find_pending (C : crypto) (unstaker : pubkey) (index : Z) : option (pubkey * byte) :=
  find_program_address C [str_bytes "pending_withdraw"; key_bytes unstaker; le_enc 1 index] xorca_id.

(** [getProgramDerivedAddress] of @solana/addresses: bumps 255 down to 1, at most
    16 seeds of at most 32 bytes, result off the curve.
    js-client/src/utils/index.ts:29-34 *)
Definition js_find_state (C : crypto) : option (pubkey * byte) :=
  find_program_address C [str_bytes "state"] xorca_id.
(** js-client/src/utils/index.ts:36-50 *)
Definition js_find_pending (C : crypto) (unstaker : pubkey) (index : jsnum) : option (pubkey * byte) :=
  find_program_address C [str_bytes "pending_withdraw"; key_bytes unstaker; [js_uint8 index]] xorca_id.
(** js-client/src/utils/index.ts:52-66 *)
Definition js_find_vault (C : crypto) (state token orca_mint : pubkey) : option (pubkey * byte) :=
  find_program_address C [key_bytes state; key_bytes token; key_bytes orca_mint] ata_id.

(** * Scripts (ts-scripts), with @solana/web3.js [findProgramAddressSync] *)
(** constants.ts:25-52; the scripts have their own copies of the addresses. *)
Definition script_xorca_id : pubkey := Eval vm_compute in b58_key "StaKE6XNKVVhG8Qu9hDJBqCW3eRe7MDGLz17nJZetLT".
Definition script_orca_mint : pubkey := Eval vm_compute in b58_key "orcaEKTdK7LKz57vaAYr9QeNsVEPfiu6QeMU1kektZE".
Definition script_xorca_mint : pubkey := Eval vm_compute in b58_key "xorcaYqbXUNz3474ubUMJAdu2xgPsew3rUCe5ughT3N".
Definition script_system_id : pubkey := Eval vm_compute in b58_key "11111111111111111111111111111111".
Definition script_token_id : pubkey := Eval vm_compute in b58_key "TokenkegQfeZyiNwAJbNbGKPFXCWuBvf9Ss623VQ5DA".
Definition script_ata_id : pubkey := Eval vm_compute in b58_key "ATokenGPvbdGVxr1b2hvZbsiqW5xWH25efTNsLJA8knL".
Definition script_deployer : pubkey := Eval vm_compute in b58_key "94kZD71sbTKhqhcvY9D9Ra5BsLzKRZgznbBbQpBWmKrT".

Definition script_state (C : crypto) : option pubkey :=
  option_map fst (find_program_address C [str_bytes "state"] script_xorca_id).
Definition script_pending (C : crypto) (staker : pubkey) (index : jsnum) : option pubkey :=
  option_map fst (find_program_address C
    [str_bytes "pending_withdraw"; key_bytes staker; [js_uint8 index]] script_xorca_id).
Definition script_vault (C : crypto) (state : pubkey) : option pubkey :=
  option_map fst (find_program_address C
    [key_bytes state; key_bytes script_token_id; key_bytes script_orca_mint] script_ata_id).
(** @solana/spl-token [getAssociatedTokenAddressSync] with [allowOwnerOffCurve = false] *)
Definition script_ata (C : crypto) (mint owner : pubkey) : option pubkey :=
  if on_curve C owner then
    option_map fst (find_program_address C
      [key_bytes owner; key_bytes script_token_id; key_bytes mint] script_ata_id)
  else None.

(** The instruction each script sends if it gets that far (the scripts stop
    earlier on missing accounts or balances, and may create an associated token
    account in the same transaction). The amount is [BigInt(arg)], the index
    [parseInt(arg)]. *)

(** ts-scripts/stake.ts:55-131 *)
Definition script_stake (C : crypto) (staker : pubkey) (amount : Z) : option built :=
  get! state := script_state C in
  get! vault := script_vault C state in
  get! orca := script_ata C script_orca_mint staker in
  get! xorca := script_ata C script_xorca_mint staker in
  get! a := js_u64 amount in
  Some (Built script_xorca_id
    [Meta staker true true; Meta vault false true; Meta orca false true; Meta xorca false true;
     Meta script_xorca_mint false true; Meta state false false; Meta script_orca_mint false false;
     Meta script_token_id false false]
    ([Z_to_byte 0] ++ a)).

(** ts-scripts/unstake.ts:57-160 *)
Definition script_unstake (C : crypto) (staker : pubkey) (amount : Z) (index : jsnum) : option built :=
  get! state := script_state C in
  get! vault := script_vault C state in
  get! xorca := script_ata C script_xorca_mint staker in
  get! pending := script_pending C staker index in
  get! a := js_u64 amount in
  get! i := js_u8 index in
  Some (Built script_xorca_id
    [Meta staker true true; Meta state false true; Meta pending false true; Meta xorca false true;
     Meta script_xorca_mint false true; Meta script_orca_mint false false; Meta vault false true;
     Meta script_system_id false false; Meta script_token_id false false]
    ([Z_to_byte 1] ++ a ++ i)).

(** ts-scripts/withdraw.ts:57-170 *)
Definition script_withdraw (C : crypto) (staker : pubkey) (index : jsnum) : option built :=
  get! state := script_state C in
  get! pending := script_pending C staker index in
  get! vault := script_vault C state in
  get! orca := script_ata C script_orca_mint staker in
  get! i := js_u8 index in
  Some (Built script_xorca_id
    [Meta staker true true; Meta state false true; Meta pending false true; Meta orca false true;
     Meta vault false true; Meta script_orca_mint false false; Meta script_system_id false false;
     Meta script_token_id false false]
    ([Z_to_byte 2] ++ i)).

(** ts-scripts/initialize.ts:62-113 *)
Definition script_initialize (C : crypto) (deployer authority : pubkey) (cooldown : jsnum)
  : option built :=
  if negb (key_eqb deployer script_deployer) then None else
  get! state := script_state C in
  get! vault := script_vault C state in
  get! z := js_bigint cooldown in
  get! c := js_i64 z in
  Some (Built script_xorca_id
    [Meta deployer true true; Meta authority true true; Meta state false true; Meta vault false true;
     Meta script_xorca_mint false false; Meta script_orca_mint false false;
     Meta script_system_id false false; Meta script_token_id false false;
     Meta script_ata_id false false]
    ([Z_to_byte 3] ++ c)).

(** ts-scripts/set.ts:52-119 *)
Definition script_set_cooldown (C : crypto) (payer : pubkey) (cooldown : jsnum) : option built :=
  get! state := script_state C in
  get! z := js_bigint cooldown in
  if z <? 0 then None else
  get! c := js_i64 z in
  Some (Built script_xorca_id [Meta payer true true; Meta state false true]
    ([Z_to_byte 4; Z_to_byte 0] ++ c)).
Definition script_set_authority (C : crypto) (payer new : pubkey) : option built :=
  get! state := script_state C in
  Some (Built script_xorca_id [Meta payer true true; Meta state false true]
    ([Z_to_byte 4; Z_to_byte 1] ++ key_bytes new)).

(** * Error tables *)
Open Scope string_scope.
(** rust-client/src/generated/errors/xorca_staking_program.rs:11-73 *)
Definition rust_errors : list (string * Z) :=
  [("UnknownInstructionDiscriminator", 0x1770); ("IncorrectProgramId", 0x1771);
   ("InvalidAccountRole", 0x1772); ("NotEnoughAccountKeys", 0x1773); ("IncorrectOwner", 0x1774);
   ("InvalidSeeds", 0x1775); ("IncorrectAccountAddress", 0x1776); ("InvalidAccountData", 0x1777);
   ("ArithmeticError", 0x1778); ("InsufficientFunds", 0x1779);
   ("StateAccountAlreadyInitialized", 0x177A); ("CoolDownPeriodStillActive", 0x177B);
   ("EmitEventError", 0x177C); ("InvalidCoolDownPeriod", 0x177D); ("InsufficientStakeAmount", 0x177E);
   ("InsufficientUnstakeAmount", 0x177F); ("InsufficientEscrow", 0x1780); ("CoolDownOverflow", 0x1781);
   ("InsufficientVaultBacking", 0x1782); ("UnauthorizedDeployerAccess", 0x1783)].
(** js-client/src/generated/errors/xorcaStakingProgram.ts:17-56 *)
Definition js_errors : list (string * Z) :=
  [("UNKNOWN_INSTRUCTION_DISCRIMINATOR", 0x1770); ("INCORRECT_PROGRAM_ID", 0x1771);
   ("INVALID_ACCOUNT_ROLE", 0x1772); ("NOT_ENOUGH_ACCOUNT_KEYS", 0x1773); ("INCORRECT_OWNER", 0x1774);
   ("INVALID_SEEDS", 0x1775); ("INCORRECT_ACCOUNT_ADDRESS", 0x1776); ("INVALID_ACCOUNT_DATA", 0x1777);
   ("ARITHMETIC_ERROR", 0x1778); ("INSUFFICIENT_FUNDS", 0x1779);
   ("STATE_ACCOUNT_ALREADY_INITIALIZED", 0x177a); ("COOL_DOWN_PERIOD_STILL_ACTIVE", 0x177b);
   ("EMIT_EVENT_ERROR", 0x177c); ("INVALID_COOL_DOWN_PERIOD", 0x177d);
   ("INSUFFICIENT_STAKE_AMOUNT", 0x177e); ("INSUFFICIENT_UNSTAKE_AMOUNT", 0x177f);
   ("INSUFFICIENT_ESCROW", 0x1780); ("COOL_DOWN_OVERFLOW", 0x1781);
   ("INSUFFICIENT_VAULT_BACKING", 0x1782); ("UNAUTHORIZED_DEPLOYER_ACCESS", 0x1783)].

(** Name of a variant of the program's enum (solana-program/src/error.rs:5-62). *)
Definition error_name (e : error_code) : string :=
  match e with
  | UnknownInstructionDiscriminator => "UnknownInstructionDiscriminator"
  | IncorrectProgramId => "IncorrectProgramId"
  | InvalidAccountRole => "InvalidAccountRole"
  | NotEnoughAccountKeys => "NotEnoughAccountKeys"
  | IncorrectOwner => "IncorrectOwner"
  | InvalidSeeds => "InvalidSeeds"
  | IncorrectAccountAddress => "IncorrectAccountAddress"
  | InvalidAccountData => "InvalidAccountData"
  | ArithmeticError => "ArithmeticError"
  | InsufficientFunds => "InsufficientFunds"
  | StateAccountAlreadyInitialized => "StateAccountAlreadyInitialized"
  | CoolDownPeriodStillActive => "CoolDownPeriodStillActive"
  | EmitEventError => "EmitEventError"
  | InvalidCoolDownPeriod => "InvalidCoolDownPeriod"
  | InsufficientStakeAmount => "InsufficientStakeAmount"
  | InsufficientUnstakeAmount => "InsufficientUnstakeAmount"
  | InsufficientEscrow => "InsufficientEscrow"
  | CoolDownOverflow => "CoolDownOverflow"
  | InsufficientVaultBacking => "InsufficientVaultBacking"
  | UnauthorizedDeployerAccess => "UnauthorizedDeployerAccess"
  end.
(** PascalCase to SCREAMING_SNAKE_CASE, the JS generator's naming rule. *)
Definition is_upper (c : ascii) : bool :=
  Nat.leb 65 (nat_of_ascii c) && Nat.leb (nat_of_ascii c) 90.
Fixpoint shout_from (first : bool) (s : string) : string :=
  match s with
  | EmptyString => EmptyString
  | String c s =>
      if is_upper c then
        if first then String c (shout_from false s) else String "_" (String c (shout_from false s))
      else String (ascii_of_nat (nat_of_ascii c - 32)) (shout_from false s)
  end.
Definition shout (s : string) : string := shout_from true s.
Close Scope string_scope.
