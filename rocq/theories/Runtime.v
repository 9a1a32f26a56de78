(** The five instructions once more, with the runtime's checks of what a program does
    to accounts (agave: transaction-context/src/lib.rs, [BorrowedAccount];
    program-runtime/src/serialization.rs; program-runtime/src/invoke_context.rs).

    A program writes to its own copy of the accounts.  At every cross-program call and
    at its end the runtime compares them with the state after the last such point and
    refuses changes the program may not make.  The runtime looks at the accounts
    handed to the callee first and at the others when the instruction ends; here all
    are compared at both, so that even a change undone later would be noticed. *)
From Verif Require Export Program.
Import List ListNotations.
Open Scope list_scope.
Open Scope Z_scope.

Inductive refusal :=
| ExternalAccountLamportSpend | ReadonlyLamportChange | InvalidRealloc | AccountDataSizeChanged
| ReadonlyDataModified | ExternalAccountDataModified | ModifiedProgramId | UnbalancedInstruction.
(** Refused by the runtime, or an error of the program or a callee. *)
Inductive run_err := Refused (r : refusal) | Own (e : err).
Definition own {A} (r : res err A) : res run_err A :=
  match r with Ok a => Ok a | Err e => Err (Own e) end.

(** One account: [BorrowedAccount::set_lamports], [can_data_be_resized],
    [can_data_be_changed], [set_owner]. *)
Definition change_permitted (accounts : list meta) (k : pubkey) (a b : account) : res run_err unit :=
  let writable := caller_writes accounts k in
  let owned := key_eqb (a_owner a) xorca_id in
  let same_data := bytes_eqb (a_data a) (a_data b) in
  check? fail_if (negb owned && (a_lamports b <? a_lamports a)) (Refused ExternalAccountLamportSpend) in
  check? fail_if (negb writable && negb (a_lamports b =? a_lamports a)) (Refused ReadonlyLamportChange) in
  check? fail_if (zlen (a_data a) + 10240 <? zlen (a_data b)) (Refused InvalidRealloc) in
  check? fail_if (negb owned && negb (zlen (a_data b) =? zlen (a_data a))) (Refused AccountDataSizeChanged) in
  check? fail_if (negb writable && negb same_data) (Refused ReadonlyDataModified) in
  check? fail_if (negb owned && negb same_data) (Refused ExternalAccountDataModified) in
  fail_if (negb (key_eqb (a_owner a) (a_owner b))
           && negb (owned && writable && all_zero (a_data b)))
          (Refused ModifiedProgramId).
Fixpoint changes_permitted (accounts : list meta) (ks : list pubkey) (l l' : ledger) : res run_err unit :=
  match ks with
  | [] => Ok tt
  | k :: rest => check? change_permitted accounts k (l k) (l' k) in changes_permitted accounts rest l l'
  end.
(** The lamports of the instruction's accounts, each counted once. *)
Fixpoint distinct (ks : list pubkey) : list pubkey :=
  match ks with
  | [] => []
  | k :: rest => if existsb (key_eqb k) rest then distinct rest else k :: distinct rest
  end.
Definition lamport_sum (l : ledger) (ks : list pubkey) : Z :=
  fold_right (fun k n => a_lamports (l k) + n) 0 (distinct ks).
Definition permitted (accounts : list meta) (l l' : ledger) : res run_err unit :=
  let ks := map m_key accounts in
  check? changes_permitted accounts ks l l' in
  fail_if (negb (lamport_sum l ks =? lamport_sum l' ks)) (Refused UnbalancedInstruction).

(** A cross-program call made when the accounts were last compared at [l0]. *)
Definition call_checked (accounts : list meta) (l0 l : ledger) (call : res err ledger) : res run_err ledger :=
  check? permitted accounts l0 l in
  own call.

(** util/account.rs:30-86; with the result, the ledger last compared *)
Definition create_account_r (C : crypto) (E : env) (accounts : list meta) (l0 l : ledger)
    (funder new_account : meta) (space : Z) (owner : pubkey) (seeds : list (list (list byte)))
  : res run_err (ledger * ledger) :=
  if negb (key_eqb (a_owner (l (m_key new_account))) system_id) then Ok (l0, l) else
  let required := rent_min E space in
  let current := a_lamports (l (m_key new_account)) in
  if current =? 0 then
    let? l1 := call_checked accounts l0 l
      (cpi_system_create C accounts seeds l funder new_account required space owner) in
    Ok (l1, l1)
  else
    let to_transfer := Z.max (required - current) 0 in
    let? at1 := (if 0 <? to_transfer
                 then let? l1 := call_checked accounts l0 l
                        (cpi_system_transfer C accounts seeds l funder new_account to_transfer) in
                      Ok (l1, l1)
                 else Ok (l0, l)) in
    let? l2 := call_checked accounts (fst at1) (snd at1)
      (cpi_system_allocate C accounts seeds (snd at1) new_account space) in
    let? l3 := call_checked accounts l2 l2
      (cpi_system_assign C accounts seeds l2 new_account owner) in
    Ok (l3, l3).
(** util/account.rs:89-98 *)
Definition create_pending_r (C : crypto) (E : env) (accounts : list meta) (l0 l : ledger)
    (funder new_account : meta) (seeds : list (list (list byte))) : res run_err (ledger * ledger) :=
  let? at1 := create_account_r C E accounts l0 l funder new_account PENDING_LEN xorca_id seeds in
  let l1 := snd at1 in
  let? d := own (set_first_byte DISC_PENDING (a_data (l1 (m_key new_account)))) in
  Ok (fst at1, set_data l1 (m_key new_account) d).
(** util/account.rs:100-118 *)
Definition create_state_r (C : crypto) (E : env) (accounts : list meta) (l0 l : ledger)
    (funder new_account : meta) (seeds : list (list (list byte))) (s : state) : res run_err (ledger * ledger) :=
  let? at1 := create_account_r C E accounts l0 l funder new_account STATE_LEN xorca_id seeds in
  let l1 := snd at1 in
  let bytes := state_borsh s in
  let d := a_data (l1 (m_key new_account)) in
  check? own (fail_if (zlen d <? zlen bytes) EInvalidAccountData) in
  Ok (fst at1, set_data l1 (m_key new_account) (splice 0 bytes d)).
(** util/account.rs:122-139, as compiled in release mode: the addition wraps, and an
    account closed into itself loses its lamports. *)
Definition close_r (l : ledger) (account receiver : meta) : res run_err ledger :=
  let? d := own (set_first_byte DISC_CLOSED (a_data (l (m_key account)))) in
  let l1 := set_data l (m_key account) d in
  let l2 := set_lamports l1 (m_key receiver)
              (wrap_u64 (a_lamports (l1 (m_key receiver)) + a_lamports (l1 (m_key account)))) in
  let l3 := set_lamports l2 (m_key account) 0 in
  let l4 := set_data l3 (m_key account) [] in
  Ok (set_owner l4 (m_key account) system_id).

(** instructions/stake.rs:18-141 *)
Definition stake_r (C : crypto) (accounts : list meta) (l : ledger) (orca_stake_amount : Z)
  : res run_err outcome :=
  let? staker := own (get_account_info accounts 0) in
  let? vault := own (get_account_info accounts 1) in
  let? staker_orca := own (get_account_info accounts 2) in
  let? staker_xorca := own (get_account_info accounts 3) in
  let? xorca_mint := own (get_account_info accounts 4) in
  let? state := own (get_account_info accounts 5) in
  let? orca_mint := own (get_account_info accounts 6) in
  let? token_program := own (get_account_info accounts 7) in
  check? own (assert_account_role staker [Signer; Writable]) in
  check? own (assert_account_address orca_mint orca_mint_id) in
  check? own (assert_account_address xorca_mint xorca_mint_id) in
  check? own (assert_account_address token_program token_id) in
  let? staker_orca_data := own (make_owner_token_account_assertions l staker_orca staker orca_mint true) in
  check? own (fail_if (tk_amount staker_orca_data <? orca_stake_amount) (custom InsufficientFunds)) in
  check? own (make_owner_token_account_assertions l staker_xorca staker xorca_mint true) in
  check? own (assert_account_role xorca_mint [Writable]) in
  check? own (assert_account_owner l xorca_mint token_id) in
  let? xorca_mint_data := own (assert_mint_data l xorca_mint) in
  check? own (assert_account_owner l orca_mint token_id) in
  check? own (assert_account_owner l state xorca_id) in
  let? state_view := own (assert_state_data l state) in
  check? own (verify_state_address C state (st_bump state_view)) in
  check? own (verify_vault_address C state vault orca_mint (st_vault_bump state_view)) in
  let seeds := state_seeds ++ [[Z_to_byte (st_bump state_view)]] in
  let? vault_data := own (make_owner_token_account_assertions l vault state orca_mint true) in
  let? non_escrowed := own (u64_checked_sub (tk_amount vault_data)
      (st_escrow state_view) InsufficientVaultBacking) in
  let? xorca_to_mint := own (convert_orca_to_xorca orca_stake_amount non_escrowed
      (tm_supply xorca_mint_data)) in
  check? own (fail_if (xorca_to_mint =? 0) (custom InsufficientStakeAmount)) in
  let? l1 := call_checked accounts l l
    (cpi_token_transfer C accounts [] l staker_orca vault staker orca_stake_amount) in
  let? l2 := call_checked accounts l1 l1
    (cpi_token_mint_to C accounts [seeds] l1 xorca_mint staker_xorca state xorca_to_mint) in
  let final_vault_amount := wrap_u64 (tk_amount vault_data + orca_stake_amount) in
  let final_xorca_supply := wrap_u64 (tm_supply xorca_mint_data + xorca_to_mint) in
  check? permitted accounts l2 l2 in
  Ok (l2, [event_bytes (EvStake orca_stake_amount final_vault_amount
             (st_escrow (a_data (l2 (m_key state)))) final_xorca_supply xorca_to_mint)]).

(** instructions/unstake.rs:23-189 *)
Definition unstake_r (C : crypto) (E : env) (accounts : list meta) (l : ledger)
    (xorca_unstake_amount withdraw_index : Z) : res run_err outcome :=
  let? unstaker := own (get_account_info accounts 0) in
  let? state := own (get_account_info accounts 1) in
  let? pending := own (get_account_info accounts 2) in
  let? unstaker_xorca := own (get_account_info accounts 3) in
  let? xorca_mint := own (get_account_info accounts 4) in
  let? orca_mint := own (get_account_info accounts 5) in
  let? vault := own (get_account_info accounts 6) in
  let? system_program := own (get_account_info accounts 7) in
  let? token_program := own (get_account_info accounts 8) in
  check? own (assert_account_role unstaker [Signer; Writable]) in
  check? own (assert_account_address xorca_mint xorca_mint_id) in
  check? own (assert_account_address orca_mint orca_mint_id) in
  check? own (assert_account_address token_program token_id) in
  check? own (assert_account_address system_program system_id) in
  check? own (assert_account_role state [Writable]) in
  check? own (assert_account_owner l state xorca_id) in
  let? vault_data := own (make_owner_token_account_assertions l vault state orca_mint false) in
  check? own (assert_account_role pending [Writable]) in
  check? own (assert_account_owner l pending system_id) in
  let? pending_bump := own (assert_account_seeds C pending xorca_id (pending_seeds
      (m_key unstaker) withdraw_index)) in
  let seeds := pending_seeds (m_key unstaker) withdraw_index ++ [[Z_to_byte pending_bump]] in
  let? unstaker_xorca_data := own (make_owner_token_account_assertions l unstaker_xorca unstaker xorca_mint
      true) in
  check? own (fail_if (tk_amount unstaker_xorca_data <? xorca_unstake_amount) (custom InsufficientFunds)) in
  check? own (assert_account_owner l xorca_mint token_id) in
  check? own (assert_account_role xorca_mint [Writable]) in
  let? xorca_mint_data := own (assert_mint_data l xorca_mint) in
  check? own (fail_if ((tm_mint_authority_flag xorca_mint_data =? 0) || negb (key_eqb
      (tm_mint_authority xorca_mint_data) (m_key state))) (custom InvalidAccountData)) in
  check? own (fail_if (negb (tm_freeze_authority_flag xorca_mint_data =? 0)) (custom InvalidAccountData)) in
  check? own (assert_account_owner l orca_mint token_id) in
  check? own (assert_mint_data l orca_mint) in
  let? state_view := own (assert_state_data l state) in
  check? own (verify_state_address C state (st_bump state_view)) in
  check? own (verify_vault_address C state vault orca_mint (st_vault_bump state_view)) in
  let? non_escrowed := own (u64_checked_sub (tk_amount vault_data)
      (st_escrow state_view) InsufficientVaultBacking) in
  let? withdrawable := own (convert_xorca_to_orca xorca_unstake_amount non_escrowed
      (tm_supply xorca_mint_data)) in
  check? own (fail_if (withdrawable =? 0) (custom InsufficientUnstakeAmount)) in
  let? l1 := call_checked accounts l l
    (cpi_token_burn C accounts [] l unstaker_xorca xorca_mint unstaker xorca_unstake_amount) in
  let? state_view1 := own (assert_state_data l1 state) in
  let? new_escrow := own (u64_checked_add (st_escrow state_view1) withdrawable ArithmeticError) in
  let l2 := set_data l1 (m_key state) (set_escrow new_escrow state_view1) in
  let? created := create_pending_r C E accounts l1 l2 unstaker pending [seeds] in
  let l3 := snd created in
  let pd := a_data (l3 (m_key pending)) in
  let pd := set_u8 6 pending_bump pd in
  let pd := set_u8 7 withdraw_index pd in
  let pd := set_key 8 (m_key unstaker) pd in
  let pd := set_u64 40 withdrawable pd in
  let l4 := set_data l3 (m_key pending) pd in
  let cooldown := st_cooldown (a_data (l4 (m_key state))) in
  let? timestamp := own (i64_checked_add (now E) cooldown CoolDownOverflow) in
  let l5 := set_data l4 (m_key pending) (set_u64 48 timestamp pd) in
  let final_vault_amount := tk_amount vault_data in
  let final_xorca_supply := wrap_u64 (tm_supply xorca_mint_data - xorca_unstake_amount) in
  check? permitted accounts (fst created) l5 in
  Ok (l5, [event_bytes (EvUnstake xorca_unstake_amount final_vault_amount
             (st_escrow (a_data (l5 (m_key state)))) final_xorca_supply withdrawable
             (st_cooldown (a_data (l5 (m_key state)))) withdraw_index)]).

(** instructions/withdraw.rs:16-150 *)
Definition withdraw_r (C : crypto) (E : env) (accounts : list meta) (l : ledger)
    (withdraw_index : Z) : res run_err outcome :=
  let? unstaker := own (get_account_info accounts 0) in
  let? state := own (get_account_info accounts 1) in
  let? pending := own (get_account_info accounts 2) in
  let? unstaker_orca := own (get_account_info accounts 3) in
  let? vault := own (get_account_info accounts 4) in
  let? orca_mint := own (get_account_info accounts 5) in
  let? system_program := own (get_account_info accounts 6) in
  let? token_program := own (get_account_info accounts 7) in
  check? own (assert_account_role unstaker [Signer; Writable]) in
  check? own (assert_account_address orca_mint orca_mint_id) in
  check? own (assert_account_owner l orca_mint token_id) in
  check? own (assert_account_role state [Writable]) in
  check? own (assert_account_owner l state xorca_id) in
  let? state_view := own (assert_state_data l state) in
  check? own (verify_state_address C state (st_bump state_view)) in
  check? own (verify_vault_address C state vault orca_mint (st_vault_bump state_view)) in
  let seeds := state_seeds ++ [[Z_to_byte (st_bump state_view)]] in
  check? own (assert_account_role pending [Writable]) in
  check? own (assert_account_owner l pending xorca_id) in
  let? pending_view := own (assert_pending_data l pending) in
  check? own (verify_pending_address C pending (m_key unstaker) withdraw_index (pw_bump pending_view)) in
  let withdrawable := pw_amount pending_view in
  let timestamp := pw_timestamp pending_view in
  check? own (make_owner_token_account_assertions l unstaker_orca unstaker orca_mint true) in
  check? own (make_owner_token_account_assertions l vault state orca_mint true) in
  check? own (assert_account_address system_program system_id) in
  check? own (assert_account_address token_program token_id) in
  check? own (fail_if (now E <? timestamp) (custom CoolDownPeriodStillActive)) in
  check? own (fail_if (st_escrow state_view <? withdrawable) (custom InsufficientEscrow)) in
  let? l1 := call_checked accounts l l
    (cpi_token_transfer C accounts [seeds] l vault unstaker_orca state withdrawable) in
  let? l2 := close_r l1 pending unstaker in
  let? state_view1 := own (assert_state_data l2 state) in
  let? new_escrow := own (u64_checked_sub (st_escrow state_view1) withdrawable InsufficientEscrow) in
  let l3 := set_data l2 (m_key state) (set_escrow new_escrow state_view1) in
  check? permitted accounts l1 l3 in
  Ok (l3, [event_bytes (EvWithdraw new_escrow withdrawable
             (st_cooldown (a_data (l3 (m_key state)))) withdraw_index)]).

(** instructions/initialize.rs:21-155 *)
Definition initialize_r (C : crypto) (E : env) (accounts : list meta) (l : ledger)
    (cool_down_period_s : Z) : res run_err outcome :=
  let? payer := own (get_account_info accounts 0) in
  let? update_authority := own (get_account_info accounts 1) in
  let? state := own (get_account_info accounts 2) in
  let? vault := own (get_account_info accounts 3) in
  let? xorca_mint := own (get_account_info accounts 4) in
  let? orca_mint := own (get_account_info accounts 5) in
  let? system_program := own (get_account_info accounts 6) in
  let? token_program := own (get_account_info accounts 7) in
  let? ata_program := own (get_account_info accounts 8) in
  check? own (assert_account_role payer [Signer; Writable]) in
  check? own (fail_if (negb (key_eqb (m_key payer) deployer_address)) (custom UnauthorizedDeployerAccess)) in
  check? own (assert_account_role state [Writable]) in
  let? state_bump := own (assert_account_seeds C state xorca_id state_seeds) in
  let seeds := state_seeds ++ [[Z_to_byte state_bump]] in
  check? own (fail_if (0 <? zlen (a_data (l (m_key state)))) (custom StateAccountAlreadyInitialized)) in
  check? own (assert_account_owner l state system_id) in
  check? own (assert_account_owner l xorca_mint token_id) in
  let? xm := own (assert_mint_data l xorca_mint) in
  check? own (assert_account_address state (tm_mint_authority xm)) in
  check? own (fail_if (negb (tm_supply xm =? 0)) (custom InvalidAccountData)) in
  check? own (assert_account_address xorca_mint xorca_mint_id) in
  check? own (fail_if (negb (tm_mint_authority_flag xm =? 1)) (custom InvalidAccountData)) in
  check? own (fail_if (negb (tm_freeze_authority_flag xm =? 0)) (custom InvalidAccountData)) in
  check? own (fail_if (negb (key_eqb (tm_freeze_authority xm) zero_key)) (custom InvalidAccountData)) in
  check? own (fail_if (negb (tm_decimals xm =? 6)) (custom InvalidAccountData)) in
  check? own (assert_account_owner l orca_mint token_id) in
  let? om := own (assert_mint_data l orca_mint) in
  check? own (assert_account_address orca_mint orca_mint_id) in
  check? own (fail_if (negb (tm_decimals om =? 6)) (custom InvalidAccountData)) in
  check? own (assert_account_role update_authority [Signer; Writable]) in
  check? own (assert_account_address system_program system_id) in
  check? own (assert_account_role vault [Writable]) in
  check? own (assert_account_owner l vault system_id) in
  check? own (assert_account_address token_program token_id) in
  check? own (assert_account_address ata_program ata_id) in
  match find_vault_address C (m_key state) token_id (m_key orca_mint) with
  | None => Err (Own EPanic)
  | Some (_, vault_bump) =>
      check? own (assert_account_seeds C vault ata_id (vault_seeds (m_key state) token_id (m_key orca_mint))) in
      check? own (fail_if (cool_down_period_s <? 0) (custom InvalidCoolDownPeriod)) in
      let s := initial_state cool_down_period_s state_bump (byte_to_Z vault_bump)
                             (m_key update_authority) in
      let? created := create_state_r C E accounts l l payer state [seeds] s in
      let l1 := snd created in
      let? l2 := call_checked accounts (fst created) l1
        (cpi_ata_create C E accounts l1 payer vault state orca_mint system_program token_program) in
      check? permitted accounts l2 l2 in
      Ok (l2, [])
  end.

(** instructions/set.rs:14-58 *)
Definition set_r (C : crypto) (accounts : list meta) (l : ledger) (u : state_update)
  : res run_err outcome :=
  let? update_authority := own (get_account_info accounts 0) in
  let? state := own (get_account_info accounts 1) in
  check? own (assert_account_role update_authority [Signer; Writable]) in
  check? own (assert_account_role state [Writable]) in
  check? own (assert_account_owner l state xorca_id) in
  let? view := own (assert_state_data l state) in
  check? own (verify_state_address C state (st_bump view)) in
  check? own (assert_account_address update_authority (st_authority view)) in
  match u with
  | UpdateCoolDownPeriod c =>
      check? own (fail_if (c <? 0) (custom InvalidCoolDownPeriod)) in
      let l1 := set_data l (m_key state) (set_cooldown c view) in
      check? permitted accounts l l1 in
      Ok (l1, [])
  | UpdateUpdateAuthority k =>
      let l1 := set_data l (m_key state) (set_authority k view) in
      check? permitted accounts l l1 in
      Ok (l1,
          [event_bytes (EvUpdateAuthoritySet k (st_authority view))])
  end.

(** entrypoint.rs:16-53 *)
Definition process_instruction_r (C : crypto) (E : env) (program_id : pubkey)
    (accounts : list meta) (l : ledger) (data : list byte) : res run_err outcome :=
  check? own (fail_if (negb (key_eqb program_id xorca_id)) (custom IncorrectProgramId)) in
  match deserialize read_instruction data with
  | None => Err (Own (custom UnknownInstructionDiscriminator))
  | Some (Initialize c) => initialize_r C E accounts l c
  | Some (Stake a) => stake_r C accounts l a
  | Some (Unstake a i) => unstake_r C E accounts l a i
  | Some (Withdraw i) => withdraw_r C E accounts l i
  | Some (Set_ u) => set_r C accounts l u
  end.
