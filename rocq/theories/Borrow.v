(** The five instructions once more, with pinocchio's run-time borrow flags.

    Every [Ref] / [RefMut] of the Rust source is a guard; a guard lives to the end
    of the Rust block that declares it, a temporary to the end of its statement.
    [B] is the list of live guards.  Everything that cannot touch a borrow flag is
    taken from Program.v ([plain]).  Entries of the account list with the same key
    share their flags, as duplicated accounts do in pinocchio. *)
From Verif Require Export Program.
Import List ListNotations.
Open Scope list_scope.
Open Scope Z_scope.

(** pinocchio keeps one set of flags for the data and one for the lamports. *)
Inductive cell := DataCell | LamportCell.
Record guard := Guard { g_key : pubkey; g_cell : cell; g_mut : bool }.

(** [AccountBorrowFailed], or any other error. *)
Inductive borrow_err := BorrowFailed | Other (e : err).
Definition plain {A} (r : res err A) : res borrow_err A :=
  match r with Ok a => Ok a | Err e => Err (Other e) end.

Definition same_cell (a b : cell) : bool :=
  match a, b with DataCell, DataCell | LamportCell, LamportCell => true | _, _ => false end.
Definition guards_on (B : list guard) (k : pubkey) (c : cell) : list guard :=
  filter (fun g => key_eqb (g_key g) k && same_cell (g_cell g) c) B.

(** pinocchio [AccountInfo::try_borrow_data]: no exclusive borrow, at most seven shared ones. *)
Definition try_borrow (B : list guard) (k : pubkey) (c : cell) : res borrow_err guard :=
  check? fail_if (existsb g_mut (guards_on B k c) || (7 <=? zlen (guards_on B k c))) BorrowFailed in
  Ok (Guard k c false).
(** pinocchio [try_borrow_mut_data], [try_borrow_mut_lamports]: no borrow at all. *)
Definition try_borrow_mut (B : list guard) (k : pubkey) (c : cell) : res borrow_err guard :=
  check? fail_if (0 <? zlen (guards_on B k c)) BorrowFailed in
  Ok (Guard k c true).

(** pinocchio [cpi::invoke_signed]: accounts passed as writable must not be
    borrowed, the others not exclusively; checked before the call is made. *)
Definition passable (B : list guard) (m : meta) : bool :=
  negb (existsb (fun g => key_eqb (g_key g) (m_key m) && (g_mut g || m_writable m)) B).
Definition invoke_checked (B : list guard) (inner : list meta) (call : res err ledger) : res borrow_err ledger :=
  check? fail_if (negb (forallb (passable B) inner)) BorrowFailed in
  plain call.

(** assertions/account.rs:163-187 *)
Definition discriminator_b (B : list guard) (l : ledger) (m : meta) (disc : Z) : res borrow_err unit :=
  check? try_borrow B (m_key m) DataCell in
  plain (assert_account_discriminator l m disc).
(** assertions/account.rs:130-138 *)
Definition data_b (len disc : Z) (B : list guard) (l : ledger) (m : meta) : res borrow_err (list byte * guard) :=
  check? plain (assert_account_len l m len) in
  check? discriminator_b B l m disc in
  let? g := try_borrow B (m_key m) DataCell in
  Ok (a_data (l (m_key m)), g).
(** assertions/account.rs:140-148 *)
Definition data_mut_b (len disc : Z) (B : list guard) (l : ledger) (m : meta) : res borrow_err (list byte * guard) :=
  check? plain (assert_account_len l m len) in
  check? discriminator_b B l m disc in
  let? g := try_borrow_mut B (m_key m) DataCell in
  Ok (a_data (l (m_key m)), g).
(** assertions/account.rs:189-195: the guard ends with the function *)
Definition mint_b (B : list guard) (l : ledger) (m : meta) : res borrow_err token_mint :=
  check? try_borrow B (m_key m) DataCell in
  plain (assert_mint_data l m).
Definition token_b (B : list guard) (l : ledger) (m : meta) : res borrow_err token_account :=
  check? try_borrow B (m_key m) DataCell in
  plain (assert_token_account_data l m).
(** assertions/account.rs:197-227 *)
Definition owner_token_b (B : list guard) (l : ledger) (ta owner mint : meta) (verify_writable : bool)
  : res borrow_err token_account :=
  check? plain (if verify_writable then assert_account_role ta [Writable] else Ok tt) in
  check? plain (assert_account_owner l ta token_id) in
  let? d := token_b B l ta in
  check? plain (fail_if (negb (key_eqb (tk_owner d) (m_key owner))) (custom InvalidAccountData)) in
  check? plain (fail_if (negb (key_eqb (tk_mint d) (m_key mint))) (custom InvalidAccountData)) in
  Ok d.

(** util/account.rs:30-86 *)
Definition create_account_b (C : crypto) (E : env) (B : list guard) (accounts : list meta) (l : ledger)
    (funder new_account : meta) (space : Z) (owner : pubkey) (seeds : list (list (list byte)))
  : res borrow_err ledger :=
  if negb (key_eqb (a_owner (l (m_key new_account))) system_id) then Ok l else
  let required := rent_min E space in
  let current := a_lamports (l (m_key new_account)) in
  let self := [Meta (m_key new_account) true true] in
  if current =? 0 then
    invoke_checked B [Meta (m_key funder) true true; Meta (m_key new_account) true true]
      (cpi_system_create C accounts seeds l funder new_account required space owner)
  else
    let to_transfer := Z.max (required - current) 0 in
    let? l1 := (if 0 <? to_transfer
                then invoke_checked B [Meta (m_key funder) true true; Meta (m_key new_account) false true]
                       (cpi_system_transfer C accounts seeds l funder new_account to_transfer)
                else Ok l) in
    let? l2 := invoke_checked B self (cpi_system_allocate C accounts seeds l1 new_account space) in
    invoke_checked B self (cpi_system_assign C accounts seeds l2 new_account owner).
(** util/account.rs:89-98; the exclusive borrow of the new account is returned *)
Definition create_pending_b (C : crypto) (E : env) (B : list guard) (accounts : list meta) (l : ledger)
    (funder new_account : meta) (seeds : list (list (list byte))) : res borrow_err (ledger * guard) :=
  let? l1 := create_account_b C E B accounts l funder new_account PENDING_LEN xorca_id seeds in
  let? g := try_borrow_mut B (m_key new_account) DataCell in
  let? d := plain (set_first_byte DISC_PENDING (a_data (l1 (m_key new_account)))) in
  Ok (set_data l1 (m_key new_account) d, g).
(** util/account.rs:100-118; the borrow ends with the function *)
Definition create_state_b (C : crypto) (E : env) (B : list guard) (accounts : list meta) (l : ledger)
    (funder new_account : meta) (seeds : list (list (list byte))) (s : state) : res borrow_err ledger :=
  let? l1 := create_account_b C E B accounts l funder new_account STATE_LEN xorca_id seeds in
  let bytes := state_borsh s in
  check? try_borrow_mut B (m_key new_account) DataCell in
  let d := a_data (l1 (m_key new_account)) in
  check? plain (fail_if (zlen d <? zlen bytes) EInvalidAccountData) in
  Ok (set_data l1 (m_key new_account) (splice 0 bytes d)).
(** util/account.rs:122-139.  The data borrow is dropped before [resize], which
    needs the data unborrowed. *)
Definition close_b (B : list guard) (l : ledger) (account receiver : meta) : res borrow_err ledger :=
  let? g := try_borrow_mut B (m_key account) DataCell in
  let? d := plain (set_first_byte DISC_CLOSED (a_data (l (m_key account)))) in
  let l1 := set_data l (m_key account) d in
  check? try_borrow_mut (g :: B) (m_key receiver) LamportCell in
  check? plain (fail_if (u64_max <? a_lamports (l1 (m_key receiver)) + a_lamports (l1 (m_key account))) EPanic) in
  check? try_borrow_mut (g :: B) (m_key account) LamportCell in
  check? plain (fail_if (key_eqb (m_key receiver) (m_key account)
                         && (0 <? a_lamports (l1 (m_key account)))) EPanic) in
  let l2 := set_lamports l1 (m_key receiver)
              (a_lamports (l1 (m_key receiver)) + a_lamports (l1 (m_key account))) in
  let l3 := set_lamports l2 (m_key account) 0 in
  check? try_borrow_mut B (m_key account) DataCell in
  let l4 := set_data l3 (m_key account) [] in
  Ok (set_owner l4 (m_key account) system_id).

(** instructions/stake.rs:18-141: the shared borrow of the State account is held
    from line 72 to the end *)
Definition stake_b (C : crypto) (accounts : list meta) (l : ledger) (orca_stake_amount : Z)
  : res borrow_err outcome :=
  let? staker := plain (get_account_info accounts 0) in
  let? vault := plain (get_account_info accounts 1) in
  let? staker_orca := plain (get_account_info accounts 2) in
  let? staker_xorca := plain (get_account_info accounts 3) in
  let? xorca_mint := plain (get_account_info accounts 4) in
  let? state := plain (get_account_info accounts 5) in
  let? orca_mint := plain (get_account_info accounts 6) in
  let? token_program := plain (get_account_info accounts 7) in
  check? plain (assert_account_role staker [Signer; Writable]) in
  check? plain (assert_account_address orca_mint orca_mint_id) in
  check? plain (assert_account_address xorca_mint xorca_mint_id) in
  check? plain (assert_account_address token_program token_id) in
  let? staker_orca_data := owner_token_b [] l staker_orca staker orca_mint true in
  check? plain (fail_if (tk_amount staker_orca_data <? orca_stake_amount) (custom InsufficientFunds)) in
  check? owner_token_b [] l staker_xorca staker xorca_mint true in
  check? plain (assert_account_role xorca_mint [Writable]) in
  check? plain (assert_account_owner l xorca_mint token_id) in
  let? xorca_mint_data := mint_b [] l xorca_mint in
  check? plain (assert_account_owner l orca_mint token_id) in
  check? plain (assert_account_owner l state xorca_id) in
  let? sv := data_b STATE_LEN DISC_STATE [] l state in
  let state_view := fst sv in
  let B := [snd sv] in
  check? plain (verify_state_address C state (st_bump state_view)) in
  check? plain (verify_vault_address C state vault orca_mint (st_vault_bump state_view)) in
  let seeds := state_seeds ++ [[Z_to_byte (st_bump state_view)]] in
  let? vault_data := owner_token_b B l vault state orca_mint true in
  let? non_escrowed := plain (u64_checked_sub (tk_amount vault_data) (st_escrow state_view)
                                              InsufficientVaultBacking) in
  let? xorca_to_mint := plain (convert_orca_to_xorca orca_stake_amount non_escrowed
                                                     (tm_supply xorca_mint_data)) in
  check? plain (fail_if (xorca_to_mint =? 0) (custom InsufficientStakeAmount)) in
  let? l1 := invoke_checked B
    [Meta (m_key staker_orca) false true; Meta (m_key vault) false true; Meta (m_key staker) true false]
    (cpi_token_transfer C accounts [] l staker_orca vault staker orca_stake_amount) in
  let? l2 := invoke_checked B
    [Meta (m_key xorca_mint) false true; Meta (m_key staker_xorca) false true; Meta (m_key state) true false]
    (cpi_token_mint_to C accounts [seeds] l1 xorca_mint staker_xorca state xorca_to_mint) in
  let final_vault_amount := wrap_u64 (tk_amount vault_data + orca_stake_amount) in
  let final_xorca_supply := wrap_u64 (tm_supply xorca_mint_data + xorca_to_mint) in
  Ok (l2, [event_bytes (EvStake orca_stake_amount final_vault_amount
             (st_escrow (a_data (l2 (m_key state)))) final_xorca_supply xorca_to_mint)]).

(** instructions/unstake.rs:23-189: the shared borrow of the State account ends
    with its block (line 124); the exclusive one of line 150 is held to the end, and
    so is the one of the record *)
Definition unstake_b (C : crypto) (E : env) (accounts : list meta) (l : ledger)
    (xorca_unstake_amount withdraw_index : Z) : res borrow_err outcome :=
  let? unstaker := plain (get_account_info accounts 0) in
  let? state := plain (get_account_info accounts 1) in
  let? pending := plain (get_account_info accounts 2) in
  let? unstaker_xorca := plain (get_account_info accounts 3) in
  let? xorca_mint := plain (get_account_info accounts 4) in
  let? orca_mint := plain (get_account_info accounts 5) in
  let? vault := plain (get_account_info accounts 6) in
  let? system_program := plain (get_account_info accounts 7) in
  let? token_program := plain (get_account_info accounts 8) in
  check? plain (assert_account_role unstaker [Signer; Writable]) in
  check? plain (assert_account_address xorca_mint xorca_mint_id) in
  check? plain (assert_account_address orca_mint orca_mint_id) in
  check? plain (assert_account_address token_program token_id) in
  check? plain (assert_account_address system_program system_id) in
  check? plain (assert_account_role state [Writable]) in
  check? plain (assert_account_owner l state xorca_id) in
  let? vault_data := owner_token_b [] l vault state orca_mint false in
  check? plain (assert_account_role pending [Writable]) in
  check? plain (assert_account_owner l pending system_id) in
  let? pending_bump := plain (assert_account_seeds C pending xorca_id
                                (pending_seeds (m_key unstaker) withdraw_index)) in
  let seeds := pending_seeds (m_key unstaker) withdraw_index ++ [[Z_to_byte pending_bump]] in
  let? unstaker_xorca_data := owner_token_b [] l unstaker_xorca unstaker xorca_mint true in
  check? plain (fail_if (tk_amount unstaker_xorca_data <? xorca_unstake_amount)
                        (custom InsufficientFunds)) in
  check? plain (assert_account_owner l xorca_mint token_id) in
  check? plain (assert_account_role xorca_mint [Writable]) in
  let? xorca_mint_data := mint_b [] l xorca_mint in
  check? plain (fail_if ((tm_mint_authority_flag xorca_mint_data =? 0)
                         || negb (key_eqb (tm_mint_authority xorca_mint_data) (m_key state)))
                        (custom InvalidAccountData)) in
  check? plain (fail_if (negb (tm_freeze_authority_flag xorca_mint_data =? 0))
                        (custom InvalidAccountData)) in
  check? plain (assert_account_owner l orca_mint token_id) in
  check? mint_b [] l orca_mint in
  let? initial_escrow :=
    (let? sv := data_b STATE_LEN DISC_STATE [] l state in
     check? plain (verify_state_address C state (st_bump (fst sv))) in
     check? plain (verify_vault_address C state vault orca_mint (st_vault_bump (fst sv))) in
     Ok (st_escrow (fst sv))) in
  let? non_escrowed := plain (u64_checked_sub (tk_amount vault_data) initial_escrow
                                              InsufficientVaultBacking) in
  let? withdrawable := plain (convert_xorca_to_orca xorca_unstake_amount non_escrowed
                                                    (tm_supply xorca_mint_data)) in
  check? plain (fail_if (withdrawable =? 0) (custom InsufficientUnstakeAmount)) in
  let? l1 := invoke_checked []
    [Meta (m_key unstaker_xorca) false true; Meta (m_key xorca_mint) false true; Meta (m_key unstaker) true false]
    (cpi_token_burn C accounts [] l unstaker_xorca xorca_mint unstaker xorca_unstake_amount) in
  let? sv := data_mut_b STATE_LEN DISC_STATE [] l1 state in
  let B := [snd sv] in
  let? new_escrow := plain (u64_checked_add (st_escrow (fst sv)) withdrawable ArithmeticError) in
  let l2 := set_data l1 (m_key state) (set_escrow new_escrow (fst sv)) in
  let? created := create_pending_b C E B accounts l2 unstaker pending [seeds] in
  let l3 := fst created in
  let pd := a_data (l3 (m_key pending)) in
  let pd := set_u8 6 pending_bump pd in
  let pd := set_u8 7 withdraw_index pd in
  let pd := set_key 8 (m_key unstaker) pd in
  let pd := set_u64 40 withdrawable pd in
  let l4 := set_data l3 (m_key pending) pd in
  let cooldown := st_cooldown (a_data (l4 (m_key state))) in
  let? timestamp := plain (i64_checked_add (now E) cooldown CoolDownOverflow) in
  let l5 := set_data l4 (m_key pending) (set_u64 48 timestamp pd) in
  let final_vault_amount := tk_amount vault_data in
  let final_xorca_supply := wrap_u64 (tm_supply xorca_mint_data - xorca_unstake_amount) in
  Ok (l5, [event_bytes (EvUnstake xorca_unstake_amount final_vault_amount
             (st_escrow (a_data (l5 (m_key state)))) final_xorca_supply withdrawable
             (st_cooldown (a_data (l5 (m_key state)))) withdraw_index)]).

(** instructions/withdraw.rs:16-150: all shared borrows end with their blocks; the
    exclusive one of the State account starts after the last call *)
Definition withdraw_b (C : crypto) (E : env) (accounts : list meta) (l : ledger)
    (withdraw_index : Z) : res borrow_err outcome :=
  let? unstaker := plain (get_account_info accounts 0) in
  let? state := plain (get_account_info accounts 1) in
  let? pending := plain (get_account_info accounts 2) in
  let? unstaker_orca := plain (get_account_info accounts 3) in
  let? vault := plain (get_account_info accounts 4) in
  let? orca_mint := plain (get_account_info accounts 5) in
  let? system_program := plain (get_account_info accounts 6) in
  let? token_program := plain (get_account_info accounts 7) in
  check? plain (assert_account_role unstaker [Signer; Writable]) in
  check? plain (assert_account_address orca_mint orca_mint_id) in
  check? plain (assert_account_owner l orca_mint token_id) in
  check? plain (assert_account_role state [Writable]) in
  check? plain (assert_account_owner l state xorca_id) in
  let? state_bump :=
    (let? sv := data_b STATE_LEN DISC_STATE [] l state in
     check? plain (verify_state_address C state (st_bump (fst sv))) in
     check? plain (verify_vault_address C state vault orca_mint (st_vault_bump (fst sv))) in
     Ok (st_bump (fst sv))) in
  let seeds := state_seeds ++ [[Z_to_byte state_bump]] in
  check? plain (assert_account_role pending [Writable]) in
  check? plain (assert_account_owner l pending xorca_id) in
  let? pending_bump :=
    (let? pv := data_b PENDING_LEN DISC_PENDING [] l pending in Ok (pw_bump (fst pv))) in
  check? plain (verify_pending_address C pending (m_key unstaker) withdraw_index pending_bump) in
  let? promised :=
    (let? pv := data_b PENDING_LEN DISC_PENDING [] l pending in
     Ok (pw_amount (fst pv), pw_timestamp (fst pv))) in
  let withdrawable := fst promised in
  let timestamp := snd promised in
  check? owner_token_b [] l unstaker_orca unstaker orca_mint true in
  check? owner_token_b [] l vault state orca_mint true in
  check? plain (assert_account_address system_program system_id) in
  check? plain (assert_account_address token_program token_id) in
  check? plain (fail_if (now E <? timestamp) (custom CoolDownPeriodStillActive)) in
  check? (let? sv := data_b STATE_LEN DISC_STATE [] l state in
          plain (fail_if (st_escrow (fst sv) <? withdrawable) (custom InsufficientEscrow))) in
  let? l1 := invoke_checked []
    [Meta (m_key vault) false true; Meta (m_key unstaker_orca) false true; Meta (m_key state) true false]
    (cpi_token_transfer C accounts [seeds] l vault unstaker_orca state withdrawable) in
  let? l2 := close_b [] l1 pending unstaker in
  let? sv := data_mut_b STATE_LEN DISC_STATE [] l2 state in
  let? new_escrow := plain (u64_checked_sub (st_escrow (fst sv)) withdrawable InsufficientEscrow) in
  let l3 := set_data l2 (m_key state) (set_escrow new_escrow (fst sv)) in
  Ok (l3, [event_bytes (EvWithdraw new_escrow withdrawable
             (st_cooldown (a_data (l3 (m_key state)))) withdraw_index)]).

(** instructions/initialize.rs:21-155: the borrow of the new State account ends
    with [create_program_account_borsh] *)
Definition initialize_b (C : crypto) (E : env) (accounts : list meta) (l : ledger)
    (cool_down_period_s : Z) : res borrow_err outcome :=
  let? payer := plain (get_account_info accounts 0) in
  let? update_authority := plain (get_account_info accounts 1) in
  let? state := plain (get_account_info accounts 2) in
  let? vault := plain (get_account_info accounts 3) in
  let? xorca_mint := plain (get_account_info accounts 4) in
  let? orca_mint := plain (get_account_info accounts 5) in
  let? system_program := plain (get_account_info accounts 6) in
  let? token_program := plain (get_account_info accounts 7) in
  let? ata_program := plain (get_account_info accounts 8) in
  check? plain (assert_account_role payer [Signer; Writable]) in
  check? plain (fail_if (negb (key_eqb (m_key payer) deployer_address))
                        (custom UnauthorizedDeployerAccess)) in
  check? plain (assert_account_role state [Writable]) in
  let? state_bump := plain (assert_account_seeds C state xorca_id state_seeds) in
  let seeds := state_seeds ++ [[Z_to_byte state_bump]] in
  check? plain (fail_if (0 <? zlen (a_data (l (m_key state)))) (custom StateAccountAlreadyInitialized)) in
  check? plain (assert_account_owner l state system_id) in
  check? plain (assert_account_owner l xorca_mint token_id) in
  let? xm := mint_b [] l xorca_mint in
  check? plain (assert_account_address state (tm_mint_authority xm)) in
  check? plain (fail_if (negb (tm_supply xm =? 0)) (custom InvalidAccountData)) in
  check? plain (assert_account_address xorca_mint xorca_mint_id) in
  check? plain (fail_if (negb (tm_mint_authority_flag xm =? 1)) (custom InvalidAccountData)) in
  check? plain (fail_if (negb (tm_freeze_authority_flag xm =? 0)) (custom InvalidAccountData)) in
  check? plain (fail_if (negb (key_eqb (tm_freeze_authority xm) zero_key)) (custom InvalidAccountData)) in
  check? plain (fail_if (negb (tm_decimals xm =? 6)) (custom InvalidAccountData)) in
  check? plain (assert_account_owner l orca_mint token_id) in
  let? om := mint_b [] l orca_mint in
  check? plain (assert_account_address orca_mint orca_mint_id) in
  check? plain (fail_if (negb (tm_decimals om =? 6)) (custom InvalidAccountData)) in
  check? plain (assert_account_role update_authority [Signer; Writable]) in
  check? plain (assert_account_address system_program system_id) in
  check? plain (assert_account_role vault [Writable]) in
  check? plain (assert_account_owner l vault system_id) in
  check? plain (assert_account_address token_program token_id) in
  check? plain (assert_account_address ata_program ata_id) in
  match find_vault_address C (m_key state) token_id (m_key orca_mint) with
  | None => Err (Other EPanic)
  | Some (_, vault_bump) =>
      check? plain (assert_account_seeds C vault ata_id
                      (vault_seeds (m_key state) token_id (m_key orca_mint))) in
      check? plain (fail_if (cool_down_period_s <? 0) (custom InvalidCoolDownPeriod)) in
      let s := initial_state cool_down_period_s state_bump (byte_to_Z vault_bump)
                             (m_key update_authority) in
      let? l1 := create_state_b C E [] accounts l payer state [seeds] s in
      let? l2 := invoke_checked []
        [Meta (m_key payer) true true; Meta (m_key vault) false true; Meta (m_key state) false false;
         Meta (m_key orca_mint) false false; Meta (m_key system_program) false false;
         Meta (m_key token_program) false false]
        (cpi_ata_create C E accounts l1 payer vault state orca_mint system_program token_program) in
      Ok (l2, [])
  end.

(** instructions/set.rs:14-58: the exclusive borrow of the State account is held
    from line 31 to the end *)
Definition set_b (C : crypto) (accounts : list meta) (l : ledger) (u : state_update)
  : res borrow_err outcome :=
  let? update_authority := plain (get_account_info accounts 0) in
  let? state := plain (get_account_info accounts 1) in
  check? plain (assert_account_role update_authority [Signer; Writable]) in
  check? plain (assert_account_role state [Writable]) in
  check? plain (assert_account_owner l state xorca_id) in
  let? sv := data_mut_b STATE_LEN DISC_STATE [] l state in
  let view := fst sv in
  check? plain (verify_state_address C state (st_bump view)) in
  check? plain (assert_account_address update_authority (st_authority view)) in
  match u with
  | UpdateCoolDownPeriod c =>
      check? plain (fail_if (c <? 0) (custom InvalidCoolDownPeriod)) in
      Ok (set_data l (m_key state) (set_cooldown c view), [])
  | UpdateUpdateAuthority k =>
      Ok (set_data l (m_key state) (set_authority k view),
          [event_bytes (EvUpdateAuthoritySet k (st_authority view))])
  end.

(** entrypoint.rs:16-53 *)
Definition process_instruction_b (C : crypto) (E : env) (program_id : pubkey)
    (accounts : list meta) (l : ledger) (data : list byte) : res borrow_err outcome :=
  check? plain (fail_if (negb (key_eqb program_id xorca_id)) (custom IncorrectProgramId)) in
  match deserialize read_instruction data with
  | None => Err (Other (custom UnknownInstructionDiscriminator))
  | Some (Initialize c) => initialize_b C E accounts l c
  | Some (Stake a) => stake_b C accounts l a
  | Some (Unstake a i) => unstake_b C E accounts l a i
  | Some (Withdraw i) => withdraw_b C E accounts l i
  | Some (Set_ u) => set_b C accounts l u
  end.
