(** The xORCA staking program: account utilities, the five instructions and the
    entrypoint.  Each definition follows the statement order of the Rust source.
    A result is the new ledger and the list of emitted event payloads; on [Err]
    the runtime discards every effect. *)
From Verif Require Export Cpi Math Instr Event.

(** Release-mode [u64] addition and subtraction wrap. *)
Definition wrap_u64 (z : Z) : Z := z mod 2 ^ 64.

(** u64 [checked_sub] / [checked_add], i64 [checked_add]; the caller supplies the error. *)
Definition u64_checked_sub (a b : Z) (e : error_code) : res err Z :=
  if b <=? a then Ok (a - b) else Err (custom e).
Definition u64_checked_add (a b : Z) (e : error_code) : res err Z :=
  if a + b <=? u64_max then Ok (a + b) else Err (custom e).
Definition i64_checked_add (a b : Z) (e : error_code) : res err Z :=
  if (i64_min <=? a + b) && (a + b <=? i64_max) then Ok (a + b) else Err (custom e).

(** * /repo/solana-program/src/util/account.rs *)

(** util/account.rs:30-86 *)
Definition create_account_secure (C : crypto) (E : env) (accounts : list meta) (l : ledger)
    (funder new_account : meta) (space : Z) (owner : pubkey) (seeds : list (list (list byte)))
  : res err ledger :=
  if negb (key_eqb (a_owner (l (m_key new_account))) system_id) then Ok l else
  let required := rent_min E space in
  let current := a_lamports (l (m_key new_account)) in
  if current =? 0 then
    cpi_system_create C accounts seeds l funder new_account required space owner
  else
    let to_transfer := Z.max (required - current) 0 in
    let? l1 := (if 0 <? to_transfer
                then cpi_system_transfer C accounts seeds l funder new_account to_transfer
                else Ok l) in
    let? l2 := cpi_system_allocate C accounts seeds l1 new_account space in
    cpi_system_assign C accounts seeds l2 new_account owner.

(** [data[0] = v]: panics on an empty slice. *)
Definition set_first_byte (v : Z) (d : list byte) : res err (list byte) :=
  if zlen d =? 0 then Err EPanic else Ok (set_u8 0 v d).

(** util/account.rs:89-98 for [PendingWithdraw]; the mutable view is the account
    data in the returned ledger. *)
Definition create_pending_account (C : crypto) (E : env) (accounts : list meta) (l : ledger)
    (funder new_account : meta) (seeds : list (list (list byte))) : res err ledger :=
  let? l1 := create_account_secure C E accounts l funder new_account PENDING_LEN xorca_id seeds in
  let? d := set_first_byte DISC_PENDING (a_data (l1 (m_key new_account))) in
  Ok (set_data l1 (m_key new_account) d).

(** util/account.rs:100-118 for [State] *)
Definition create_state_account (C : crypto) (E : env) (accounts : list meta) (l : ledger)
    (funder new_account : meta) (seeds : list (list (list byte))) (s : state) : res err ledger :=
  let? l1 := create_account_secure C E accounts l funder new_account STATE_LEN xorca_id seeds in
  let bytes := state_borsh s in
  let d := a_data (l1 (m_key new_account)) in
  check? fail_if (zlen d <? zlen bytes) EInvalidAccountData in
  Ok (set_data l1 (m_key new_account) (splice 0 bytes d)).

(** util/account.rs:122-139.  [*lamports += n] wraps in release mode, but the
    runtime then rejects the instruction because lamports are not conserved, so
    overflow is an error here; so is an account closed into itself. *)
Definition close_program_account (l : ledger) (account receiver : meta) : res err ledger :=
  let? d := set_first_byte DISC_CLOSED (a_data (l (m_key account))) in
  let l1 := set_data l (m_key account) d in
  check? fail_if (u64_max <? a_lamports (l1 (m_key receiver)) + a_lamports (l1 (m_key account)))
                 EPanic in
  check? fail_if (key_eqb (m_key receiver) (m_key account)
                  && (0 <? a_lamports (l1 (m_key account)))) EPanic in
  let l2 := set_lamports l1 (m_key receiver)
              (a_lamports (l1 (m_key receiver)) + a_lamports (l1 (m_key account))) in
  let l3 := set_lamports l2 (m_key account) 0 in
  let l4 := set_data l3 (m_key account) [] in
  Ok (set_owner l4 (m_key account) system_id).

Definition outcome := (ledger * list (list byte))%type.

(** * /repo/solana-program/src/instructions/stake.rs:18-141 *)
Definition stake_process (C : crypto) (accounts : list meta) (l : ledger) (orca_stake_amount : Z)
  : res err outcome :=
  let? staker := get_account_info accounts 0 in
  let? vault := get_account_info accounts 1 in
  let? staker_orca := get_account_info accounts 2 in
  let? staker_xorca := get_account_info accounts 3 in
  let? xorca_mint := get_account_info accounts 4 in
  let? state := get_account_info accounts 5 in
  let? orca_mint := get_account_info accounts 6 in
  let? token_program := get_account_info accounts 7 in
  (* 1. Staker Account Assertions *)
  check? assert_account_role staker [Signer; Writable] in
  (* 2. Account Address Assertions *)
  check? assert_account_address orca_mint orca_mint_id in
  check? assert_account_address xorca_mint xorca_mint_id in
  check? assert_account_address token_program token_id in
  (* 3. Staker Orca ATA Assertions *)
  let? staker_orca_data := make_owner_token_account_assertions l staker_orca staker orca_mint true in
  check? fail_if (tk_amount staker_orca_data <? orca_stake_amount) (custom InsufficientFunds) in
  (* 4. Staker xORCA ATA Assertions *)
  check? make_owner_token_account_assertions l staker_xorca staker xorca_mint true in
  (* 5. xOrca Mint Account Assertions *)
  check? assert_account_role xorca_mint [Writable] in
  check? assert_account_owner l xorca_mint token_id in
  let? xorca_mint_data := assert_mint_data l xorca_mint in
  (* 7. Orca Mint Account Assertions *)
  check? assert_account_owner l orca_mint token_id in
  (* 6. State Account Assertions *)
  check? assert_account_owner l state xorca_id in
  let? state_view := assert_state_data l state in
  check? verify_state_address C state (st_bump state_view) in
  check? verify_vault_address C state vault orca_mint (st_vault_bump state_view) in
  let seeds := state_seeds ++ [[Z_to_byte (st_bump state_view)]] in
  (* 2. Vault Account Assertions *)
  let? vault_data := make_owner_token_account_assertions l vault state orca_mint true in
  (* Calculate xOrca to mint *)
  let? non_escrowed := u64_checked_sub (tk_amount vault_data) (st_escrow state_view)
                                       InsufficientVaultBacking in
  let? xorca_to_mint := convert_orca_to_xorca orca_stake_amount non_escrowed
                                              (tm_supply xorca_mint_data) in
  check? fail_if (xorca_to_mint =? 0) (custom InsufficientStakeAmount) in
  (* Transfer Orca from staker ATA to vault *)
  let? l1 := cpi_token_transfer C accounts [] l staker_orca vault staker orca_stake_amount in
  (* Mint xOrca to staker xOrca ATA *)
  let? l2 := cpi_token_mint_to C accounts [seeds] l1 xorca_mint staker_xorca state xorca_to_mint in
  let final_vault_amount := wrap_u64 (tk_amount vault_data + orca_stake_amount) in
  let final_xorca_supply := wrap_u64 (tm_supply xorca_mint_data + xorca_to_mint) in
  Ok (l2, [event_bytes (EvStake orca_stake_amount final_vault_amount
             (st_escrow (a_data (l2 (m_key state)))) final_xorca_supply xorca_to_mint)]).

(** * /repo/solana-program/src/instructions/unstake.rs:23-189 *)
Definition unstake_process (C : crypto) (E : env) (accounts : list meta) (l : ledger)
    (xorca_unstake_amount withdraw_index : Z) : res err outcome :=
  let? unstaker := get_account_info accounts 0 in
  let? state := get_account_info accounts 1 in
  let? pending := get_account_info accounts 2 in
  let? unstaker_xorca := get_account_info accounts 3 in
  let? xorca_mint := get_account_info accounts 4 in
  let? orca_mint := get_account_info accounts 5 in
  let? vault := get_account_info accounts 6 in
  let? system_program := get_account_info accounts 7 in
  let? token_program := get_account_info accounts 8 in
  (* 1. Unstaker Account Assertions *)
  check? assert_account_role unstaker [Signer; Writable] in
  (* 2. Account Address Assertions *)
  check? assert_account_address xorca_mint xorca_mint_id in
  check? assert_account_address orca_mint orca_mint_id in
  check? assert_account_address token_program token_id in
  check? assert_account_address system_program system_id in
  (* 2. xOrca State Account Assertions *)
  check? assert_account_role state [Writable] in
  check? assert_account_owner l state xorca_id in
  (* 3. Vault Account Assertions *)
  let? vault_data := make_owner_token_account_assertions l vault state orca_mint false in
  (* 4. Pending Withdraw Account Assertions *)
  check? assert_account_role pending [Writable] in
  check? assert_account_owner l pending system_id in
  let? pending_bump := assert_account_seeds C pending xorca_id
                         (pending_seeds (m_key unstaker) withdraw_index) in
  let seeds := pending_seeds (m_key unstaker) withdraw_index ++ [[Z_to_byte pending_bump]] in
  (* 5. Unstaker LST Account assertions *)
  let? unstaker_xorca_data :=
    make_owner_token_account_assertions l unstaker_xorca unstaker xorca_mint true in
  check? fail_if (tk_amount unstaker_xorca_data <? xorca_unstake_amount)
                 (custom InsufficientFunds) in
  (* 6. xOrca Mint Account Assertions *)
  check? assert_account_owner l xorca_mint token_id in
  check? assert_account_role xorca_mint [Writable] in
  let? xorca_mint_data := assert_mint_data l xorca_mint in
  check? fail_if ((tm_mint_authority_flag xorca_mint_data =? 0)
                  || negb (key_eqb (tm_mint_authority xorca_mint_data) (m_key state)))
                 (custom InvalidAccountData) in
  check? fail_if (negb (tm_freeze_authority_flag xorca_mint_data =? 0))
                 (custom InvalidAccountData) in
  (* 7. Orca Mint Account Assertions *)
  check? assert_account_owner l orca_mint token_id in
  check? assert_mint_data l orca_mint in
  (* Calculate withdrawable ORCA amount using checked math *)
  let? state_view := assert_state_data l state in
  check? verify_state_address C state (st_bump state_view) in
  check? verify_vault_address C state vault orca_mint (st_vault_bump state_view) in
  let? non_escrowed := u64_checked_sub (tk_amount vault_data) (st_escrow state_view)
                                       InsufficientVaultBacking in
  let? withdrawable := convert_xorca_to_orca xorca_unstake_amount non_escrowed
                                             (tm_supply xorca_mint_data) in
  check? fail_if (withdrawable =? 0) (custom InsufficientUnstakeAmount) in
  (* Burn unstaker's LST tokens *)
  let? l1 := cpi_token_burn C accounts [] l unstaker_xorca xorca_mint unstaker
                            xorca_unstake_amount in
  (* Add the unstake ORCA amount to escrowed ORCA amount *)
  let? state_view1 := assert_state_data l1 state in
  let? new_escrow := u64_checked_add (st_escrow state_view1) withdrawable ArithmeticError in
  let l2 := set_data l1 (m_key state) (set_escrow new_escrow state_view1) in
  (* Create new pending withdraw account *)
  let? l3 := create_pending_account C E accounts l2 unstaker pending [seeds] in
  (* Populate pending withdraw account data *)
  let pd := a_data (l3 (m_key pending)) in
  let pd := set_u8 6 pending_bump pd in
  let pd := set_u8 7 withdraw_index pd in
  let pd := set_key 8 (m_key unstaker) pd in
  let pd := set_u64 40 withdrawable pd in
  let l4 := set_data l3 (m_key pending) pd in
  let cooldown := st_cooldown (a_data (l4 (m_key state))) in
  let? timestamp := i64_checked_add (now E) cooldown CoolDownOverflow in
  let l5 := set_data l4 (m_key pending) (set_u64 48 timestamp pd) in
  let final_vault_amount := tk_amount vault_data in
  let final_xorca_supply := wrap_u64 (tm_supply xorca_mint_data - xorca_unstake_amount) in
  Ok (l5, [event_bytes (EvUnstake xorca_unstake_amount final_vault_amount
             (st_escrow (a_data (l5 (m_key state)))) final_xorca_supply withdrawable
             (st_cooldown (a_data (l5 (m_key state)))) withdraw_index)]).

(** * /repo/solana-program/src/instructions/withdraw.rs:16-150 *)
Definition withdraw_process (C : crypto) (E : env) (accounts : list meta) (l : ledger)
    (withdraw_index : Z) : res err outcome :=
  let? unstaker := get_account_info accounts 0 in
  let? state := get_account_info accounts 1 in
  let? pending := get_account_info accounts 2 in
  let? unstaker_orca := get_account_info accounts 3 in
  let? vault := get_account_info accounts 4 in
  let? orca_mint := get_account_info accounts 5 in
  let? system_program := get_account_info accounts 6 in
  let? token_program := get_account_info accounts 7 in
  (* 1. Unstaker Account Assertions *)
  check? assert_account_role unstaker [Signer; Writable] in
  (* 6. Orca Mint Account Assertions *)
  check? assert_account_address orca_mint orca_mint_id in
  check? assert_account_owner l orca_mint token_id in
  (* 3. Xorca State Account Assertions *)
  check? assert_account_role state [Writable] in
  check? assert_account_owner l state xorca_id in
  let? state_view := assert_state_data l state in
  check? verify_state_address C state (st_bump state_view) in
  check? verify_vault_address C state vault orca_mint (st_vault_bump state_view) in
  let seeds := state_seeds ++ [[Z_to_byte (st_bump state_view)]] in
  (* 4. Pending Withdraw Account Assertions *)
  check? assert_account_role pending [Writable] in
  check? assert_account_owner l pending xorca_id in
  let? pending_view := assert_pending_data l pending in
  check? verify_pending_address C pending (m_key unstaker) withdraw_index (pw_bump pending_view) in
  let withdrawable := pw_amount pending_view in
  let timestamp := pw_timestamp pending_view in
  (* 5. Unstaker Stake Token Account Assertions *)
  check? make_owner_token_account_assertions l unstaker_orca unstaker orca_mint true in
  (* 6. Vault Account Assertions *)
  check? make_owner_token_account_assertions l vault state orca_mint true in
  (* 7. System Program Account Assertions *)
  check? assert_account_address system_program system_id in
  (* 8. Token Program Account Assertions *)
  check? assert_account_address token_program token_id in
  (* Validate pending withdraw *)
  check? fail_if (now E <? timestamp) (custom CoolDownPeriodStillActive) in
  (* Pre-check escrow underflow before CPI *)
  check? fail_if (st_escrow state_view <? withdrawable) (custom InsufficientEscrow) in
  (* Transfer withdrawable stake tokens from xOrca state ATA to unstaker ATA *)
  let? l1 := cpi_token_transfer C accounts [seeds] l vault unstaker_orca state withdrawable in
  (* Close the pending_withdraw account and refund lamports to unstaker *)
  let? l2 := close_program_account l1 pending unstaker in
  (* Remove tokens from escrow *)
  let? state_view1 := assert_state_data l2 state in
  let? new_escrow := u64_checked_sub (st_escrow state_view1) withdrawable InsufficientEscrow in
  let l3 := set_data l2 (m_key state) (set_escrow new_escrow state_view1) in
  Ok (l3, [event_bytes (EvWithdraw new_escrow withdrawable
             (st_cooldown (a_data (l3 (m_key state)))) withdraw_index)]).

(** * /repo/solana-program/src/instructions/initialize.rs:21-155 *)
Definition initialize_process (C : crypto) (E : env) (accounts : list meta) (l : ledger)
    (cool_down_period_s : Z) : res err outcome :=
  let? payer := get_account_info accounts 0 in
  let? update_authority := get_account_info accounts 1 in
  let? state := get_account_info accounts 2 in
  let? vault := get_account_info accounts 3 in
  let? xorca_mint := get_account_info accounts 4 in
  let? orca_mint := get_account_info accounts 5 in
  let? system_program := get_account_info accounts 6 in
  let? token_program := get_account_info accounts 7 in
  let? ata_program := get_account_info accounts 8 in
  (* 1. Payer Account Assertions *)
  check? assert_account_role payer [Signer; Writable] in
  (* 1.1. Deployer Authorization *)
  check? fail_if (negb (key_eqb (m_key payer) deployer_address))
                 (custom UnauthorizedDeployerAccess) in
  (* 2. xOrca State Account Assertions *)
  check? assert_account_role state [Writable] in
  let? state_bump := assert_account_seeds C state xorca_id state_seeds in
  let seeds := state_seeds ++ [[Z_to_byte state_bump]] in
  check? fail_if (0 <? zlen (a_data (l (m_key state)))) (custom StateAccountAlreadyInitialized) in
  check? assert_account_owner l state system_id in
  (* 3. xOrca Mint Account Assertions *)
  check? assert_account_owner l xorca_mint token_id in
  let? xm := assert_mint_data l xorca_mint in
  check? assert_account_address state (tm_mint_authority xm) in
  check? fail_if (negb (tm_supply xm =? 0)) (custom InvalidAccountData) in
  check? assert_account_address xorca_mint xorca_mint_id in
  check? fail_if (negb (tm_mint_authority_flag xm =? 1)) (custom InvalidAccountData) in
  check? fail_if (negb (tm_freeze_authority_flag xm =? 0)) (custom InvalidAccountData) in
  check? fail_if (negb (key_eqb (tm_freeze_authority xm) zero_key)) (custom InvalidAccountData) in
  check? fail_if (negb (tm_decimals xm =? 6)) (custom InvalidAccountData) in
  (* 4. Orca Mint Account Assertions *)
  check? assert_account_owner l orca_mint token_id in
  let? om := assert_mint_data l orca_mint in
  check? assert_account_address orca_mint orca_mint_id in
  check? fail_if (negb (tm_decimals om =? 6)) (custom InvalidAccountData) in
  (* 5. Update Authority Account Assertions *)
  check? assert_account_role update_authority [Signer; Writable] in
  (* 6. System Program Account Assertions *)
  check? assert_account_address system_program system_id in
  (* 7. Vault Account Assertions *)
  check? assert_account_role vault [Writable] in
  check? assert_account_owner l vault system_id in
  (* 8. Token Program Account Assertions *)
  check? assert_account_address token_program token_id in
  (* 9. Associated Token Program Account Assertions *)
  check? assert_account_address ata_program ata_id in
  (* Calculate vault bump; lines 109-116 and the check at 119-124 use the same seeds *)
  match find_vault_address C (m_key state) token_id (m_key orca_mint) with
  | None => Err EPanic
  | Some (_, vault_bump) =>
      check? assert_account_seeds C vault ata_id
               (vault_seeds (m_key state) token_id (m_key orca_mint)) in
      (* Create the State struct *)
      check? fail_if (cool_down_period_s <? 0) (custom InvalidCoolDownPeriod) in
      let s := initial_state cool_down_period_s state_bump (byte_to_Z vault_bump)
                             (m_key update_authority) in
      let? l1 := create_state_account C E accounts l payer state [seeds] s in
      (* Create the vault ATA *)
      let? l2 := cpi_ata_create C E accounts l1 payer vault state orca_mint system_program
                                token_program in
      Ok (l2, [])
  end.

(** * /repo/solana-program/src/instructions/set.rs:14-58 *)
Definition set_process (C : crypto) (accounts : list meta) (l : ledger) (u : state_update)
  : res err outcome :=
  let? update_authority := get_account_info accounts 0 in
  let? state := get_account_info accounts 1 in
  (* 1. Update Authority Account Assertions *)
  check? assert_account_role update_authority [Signer; Writable] in
  (* 2. xOrca State Account Assertions *)
  check? assert_account_role state [Writable] in
  check? assert_account_owner l state xorca_id in
  let? view := assert_state_data l state in
  check? verify_state_address C state (st_bump view) in
  check? assert_account_address update_authority (st_authority view) in
  match u with
  | UpdateCoolDownPeriod c =>
      check? fail_if (c <? 0) (custom InvalidCoolDownPeriod) in
      Ok (set_data l (m_key state) (set_cooldown c view), [])
  | UpdateUpdateAuthority k =>
      Ok (set_data l (m_key state) (set_authority k view),
          [event_bytes (EvUpdateAuthoritySet k (st_authority view))])
  end.

(** * /repo/solana-program/src/entrypoint.rs:16-53 *)
Definition process_instruction (C : crypto) (E : env) (program_id : pubkey)
    (accounts : list meta) (l : ledger) (data : list byte) : res err outcome :=
  check? fail_if (negb (key_eqb program_id xorca_id)) (custom IncorrectProgramId) in
  match deserialize read_instruction data with
  | None => Err (custom UnknownInstructionDiscriminator)
  | Some (Initialize c) => initialize_process C E accounts l c
  | Some (Stake a) => stake_process C accounts l a
  | Some (Unstake a i) => unstake_process C E accounts l a i
  | Some (Withdraw i) => withdraw_process C E accounts l i
  | Some (Set_ u) => set_process C accounts l u
  end.
