(** The five instructions once more, with what the program itself writes to the
    transaction's log: the lines of [log!] and the payloads of [sol_log_data].  The
    log of a refused call is kept.  Lines of the runtime, of the panic handler and of
    called programs are not here. *)
From Coq Require Import String Ascii.
From Verif Require Export Program Base58.
Import List ListNotations.
Open Scope list_scope.
Open Scope Z_scope.

Inductive entry :=
| Text (line : string)          (* "Program log: ..." *)
| Payload (d : list byte).      (* "Program data: ..." *)

(** base58 0.2 [ToBase58::to_base58] (assertions/account.rs:6): one '1' for each leading
    zero byte, then the digits of the big-endian number. *)
Definition b58_char (d : Z) : ascii :=
  match String.get (Z.to_nat d) b58_alphabet with Some c => c | None => "1"%char end.
Fixpoint b58_digits (fuel : nat) (v : Z) (acc : string) : string :=
  match fuel with
  | O => acc
  | S f => if v =? 0 then acc else b58_digits f (v / 58) (String (b58_char (v mod 58)) acc)
  end.
Fixpoint b58_zeros (d : list byte) (s : string) : string :=
  match d with
  | b :: rest => if byte_to_Z b =? 0 then String "1" (b58_zeros rest s) else s
  | [] => s
  end.
Definition to_base58 (k : pubkey) : string :=
  b58_zeros (key_bytes k) (b58_digits 44 (le_dec (rev (key_bytes k))) EmptyString).

(** pinocchio-log 0.5 prints a [u64] in decimal. *)
Definition dec_char (d : Z) : ascii := ascii_of_nat (48 + Z.to_nat d).
Fixpoint dec_digits (fuel : nat) (v : Z) (acc : string) : string :=
  match fuel with
  | O => acc
  | S f => let acc := String (dec_char (v mod 10)) acc in
           if v <? 10 then acc else dec_digits f (v / 10) acc
  end.
Definition to_decimal (v : Z) : string := dec_digits 20 v EmptyString.

(** A result and the entries written on the way to it. *)
Definition logged (A : Type) := (list entry * res err A)%type.
Definition quiet {A} (r : res err A) : logged A := ([], r).
Definition lbind {A B} (m : logged A) (f : A -> logged B) : logged B :=
  match snd m with
  | Ok a => let r := f a in (fst m ++ fst r, snd r)
  | Err e => (fst m, Err e)
  end.
Notation "'let!' x ':=' m 'in' k" := (lbind m (fun x => k))
  (at level 200, x binder, m at level 100, k at level 200) : res_scope.
Notation "'check!' m 'in' k" := (lbind m (fun _ => k))
  (at level 200, m at level 100, k at level 200) : res_scope.

(** pinocchio-log 0.5 [log!]: the line is put together in a buffer of 200 bytes; what
    does not fit is cut off and '@' becomes the last byte. *)
Definition shown (s : string) : string :=
  if (String.length s <=? 200)%nat then s else (substring 0 199 s ++ "@")%string.
Definition log (s : string) : logged unit := ([Text (shown s)], Ok tt).
(** event.rs:46-52 *)
Definition emit (e : event) : logged unit := ([Payload (event_bytes e)], Ok tt).
(** [if b { log!(s); return Err(e) }] *)
Definition refuse_if (b : bool) (s : string) (e : error_code) : logged unit :=
  if b then check! log s in quiet (Err (custom e)) else quiet (Ok tt).

(** assertions/account.rs:39-60 *)
Fixpoint role_l (m : meta) (roles : list role) : logged unit :=
  match roles with
  | [] => quiet (Ok tt)
  | r :: rest =>
      check! (match r with
              | Signer => refuse_if (negb (m_signer m))
                            ("Account " ++ to_base58 (m_key m) ++ " is not a signer")%string InvalidAccountRole
              | Writable => refuse_if (negb (m_writable m))
                            ("Account " ++ to_base58 (m_key m) ++ " is not writable")%string InvalidAccountRole
              end) in
      role_l m rest
  end.
(** assertions/account.rs:62-72 *)
Definition owner_l (l : ledger) (m : meta) (owner : pubkey) : logged unit :=
  refuse_if (negb (key_eqb (a_owner (l (m_key m))) owner))
    ("Account " ++ to_base58 (m_key m) ++ " is not owned by " ++ to_base58 owner)%string IncorrectOwner.
(** assertions/account.rs:74-92 *)
Definition seeds_l (C : crypto) (m : meta) (pid : pubkey) (seeds : list (list byte)) : logged Z :=
  match find_program_address C seeds pid with
  | None => quiet (Err EPanic)
  | Some (address, bump) =>
      check! refuse_if (negb (key_eqb (m_key m) address))
               ("Account " ++ to_base58 (m_key m) ++ " has wrong seeds")%string InvalidSeeds in
      quiet (Ok (byte_to_Z bump))
  end.
(** assertions/account.rs:119-128 *)
Definition address_l (m : meta) (address : pubkey) : logged unit :=
  refuse_if (negb (key_eqb (m_key m) address))
    ("Account " ++ to_base58 (m_key m) ++ " has wrong address")%string IncorrectAccountAddress.
(** assertions/account.rs:150-161 *)
Definition len_l (l : ledger) (m : meta) (len : Z) : logged unit :=
  let n := zlen (a_data (l (m_key m))) in
  refuse_if (n <? len)
    ("Account " ++ to_base58 (m_key m) ++ " is incorrect size. Expected at least " ++ to_decimal len
     ++ " but got " ++ to_decimal n)%string InvalidAccountData.
(** assertions/account.rs:163-187 with one discriminator *)
Definition discriminator_l (l : ledger) (m : meta) (disc : Z) : logged unit :=
  let d := a_data (l (m_key m)) in
  let line := ("Invalid discriminator for account: " ++ to_base58 (m_key m))%string in
  check! refuse_if (zlen d <? 1) line InvalidAccountData in
  refuse_if (negb (disc =? get_u8 0 d)) line InvalidAccountData.
(** assertions/account.rs:130-148 for [State] and for [PendingWithdraw] *)
Definition state_data_l (l : ledger) (m : meta) : logged (list byte) :=
  check! len_l l m STATE_LEN in
  check! discriminator_l l m DISC_STATE in
  quiet (Ok (a_data (l (m_key m)))).
Definition pending_data_l (l : ledger) (m : meta) : logged (list byte) :=
  check! len_l l m PENDING_LEN in
  check! discriminator_l l m DISC_PENDING in
  quiet (Ok (a_data (l (m_key m)))).
(** assertions/account.rs:197-227 *)
Definition owner_token_l (l : ledger) (ta owner mint : meta) (verify_writable : bool) : logged token_account :=
  check! (if verify_writable then role_l ta [Writable] else quiet (Ok tt)) in
  check! owner_l l ta token_id in
  let! d := quiet (assert_token_account_data l ta) in
  check! refuse_if (negb (key_eqb (tk_owner d) (m_key owner)))
           ("Token account data owner " ++ to_base58 (tk_owner d) ++ " does not match owner account "
            ++ to_base58 (m_key owner) ++ " for token mint account " ++ to_base58 (m_key mint) ++ ".")%string
           InvalidAccountData in
  check! refuse_if (negb (key_eqb (tk_mint d) (m_key mint)))
           ("Token account data mint " ++ to_base58 (tk_mint d) ++ " does not match token mint account "
            ++ to_base58 (m_key mint) ++ ".")%string
           InvalidAccountData in
  quiet (Ok d).

(** instructions/stake.rs:18-141 *)
Definition stake_l (C : crypto) (accounts : list meta) (l : ledger) (orca_stake_amount : Z)
  : logged ledger :=
  let! staker := quiet (get_account_info accounts 0) in
  let! vault := quiet (get_account_info accounts 1) in
  let! staker_orca := quiet (get_account_info accounts 2) in
  let! staker_xorca := quiet (get_account_info accounts 3) in
  let! xorca_mint := quiet (get_account_info accounts 4) in
  let! state := quiet (get_account_info accounts 5) in
  let! orca_mint := quiet (get_account_info accounts 6) in
  let! token_program := quiet (get_account_info accounts 7) in
  check! role_l staker [Signer; Writable] in
  check! address_l orca_mint orca_mint_id in
  check! address_l xorca_mint xorca_mint_id in
  check! address_l token_program token_id in
  let! staker_orca_data := owner_token_l l staker_orca staker orca_mint true in
  check! quiet (fail_if (tk_amount staker_orca_data <? orca_stake_amount) (custom InsufficientFunds)) in
  check! owner_token_l l staker_xorca staker xorca_mint true in
  check! role_l xorca_mint [Writable] in
  check! owner_l l xorca_mint token_id in
  let! xorca_mint_data := quiet (assert_mint_data l xorca_mint) in
  check! owner_l l orca_mint token_id in
  check! owner_l l state xorca_id in
  let! state_view := state_data_l l state in
  check! quiet (verify_state_address C state (st_bump state_view)) in
  check! quiet (verify_vault_address C state vault orca_mint (st_vault_bump state_view)) in
  let seeds := state_seeds ++ [[Z_to_byte (st_bump state_view)]] in
  let! vault_data := owner_token_l l vault state orca_mint true in
  let! non_escrowed := quiet (u64_checked_sub (tk_amount vault_data)
      (st_escrow state_view) InsufficientVaultBacking) in
  let! xorca_to_mint := quiet (convert_orca_to_xorca orca_stake_amount non_escrowed
      (tm_supply xorca_mint_data)) in
  check! quiet (fail_if (xorca_to_mint =? 0) (custom InsufficientStakeAmount)) in
  let! l1 := quiet (cpi_token_transfer C accounts [] l staker_orca vault staker orca_stake_amount) in
  let! l2 := quiet (cpi_token_mint_to C accounts [seeds] l1 xorca_mint staker_xorca state xorca_to_mint) in
  let final_vault_amount := wrap_u64 (tk_amount vault_data + orca_stake_amount) in
  let final_xorca_supply := wrap_u64 (tm_supply xorca_mint_data + xorca_to_mint) in
  check! emit (EvStake orca_stake_amount final_vault_amount (st_escrow (a_data (l2
      (m_key state)))) final_xorca_supply xorca_to_mint) in
  quiet (Ok l2).

(** instructions/unstake.rs:23-189 *)
Definition unstake_l (C : crypto) (E : env) (accounts : list meta) (l : ledger)
    (xorca_unstake_amount withdraw_index : Z) : logged ledger :=
  let! unstaker := quiet (get_account_info accounts 0) in
  let! state := quiet (get_account_info accounts 1) in
  let! pending := quiet (get_account_info accounts 2) in
  let! unstaker_xorca := quiet (get_account_info accounts 3) in
  let! xorca_mint := quiet (get_account_info accounts 4) in
  let! orca_mint := quiet (get_account_info accounts 5) in
  let! vault := quiet (get_account_info accounts 6) in
  let! system_program := quiet (get_account_info accounts 7) in
  let! token_program := quiet (get_account_info accounts 8) in
  check! role_l unstaker [Signer; Writable] in
  check! address_l xorca_mint xorca_mint_id in
  check! address_l orca_mint orca_mint_id in
  check! address_l token_program token_id in
  check! address_l system_program system_id in
  check! role_l state [Writable] in
  check! owner_l l state xorca_id in
  let! vault_data := owner_token_l l vault state orca_mint false in
  check! role_l pending [Writable] in
  check! owner_l l pending system_id in
  let! pending_bump := seeds_l C pending xorca_id (pending_seeds (m_key unstaker) withdraw_index) in
  let seeds := pending_seeds (m_key unstaker) withdraw_index ++ [[Z_to_byte pending_bump]] in
  let! unstaker_xorca_data := owner_token_l l unstaker_xorca unstaker xorca_mint true in
  check! quiet (fail_if (tk_amount unstaker_xorca_data <? xorca_unstake_amount) (custom InsufficientFunds)) in
  check! owner_l l xorca_mint token_id in
  check! role_l xorca_mint [Writable] in
  let! xorca_mint_data := quiet (assert_mint_data l xorca_mint) in
  check! quiet (fail_if ((tm_mint_authority_flag xorca_mint_data =? 0) || negb (key_eqb
      (tm_mint_authority xorca_mint_data) (m_key state))) (custom InvalidAccountData)) in
  check! quiet (fail_if (negb (tm_freeze_authority_flag xorca_mint_data =? 0)) (custom InvalidAccountData)) in
  check! owner_l l orca_mint token_id in
  check! quiet (assert_mint_data l orca_mint) in
  let! state_view := state_data_l l state in
  check! quiet (verify_state_address C state (st_bump state_view)) in
  check! quiet (verify_vault_address C state vault orca_mint (st_vault_bump state_view)) in
  let! non_escrowed := quiet (u64_checked_sub (tk_amount vault_data)
      (st_escrow state_view) InsufficientVaultBacking) in
  let! withdrawable := quiet (convert_xorca_to_orca xorca_unstake_amount non_escrowed
      (tm_supply xorca_mint_data)) in
  check! quiet (fail_if (withdrawable =? 0) (custom InsufficientUnstakeAmount)) in
  let! l1 := quiet (cpi_token_burn C accounts [] l unstaker_xorca xorca_mint unstaker xorca_unstake_amount) in
  let! state_view1 := state_data_l l1 state in
  let! new_escrow := quiet (u64_checked_add (st_escrow state_view1) withdrawable ArithmeticError) in
  let l2 := set_data l1 (m_key state) (set_escrow new_escrow state_view1) in
  let! l3 := quiet (create_pending_account C E accounts l2 unstaker pending [seeds]) in
  let pd := a_data (l3 (m_key pending)) in
  let pd := set_u8 6 pending_bump pd in
  let pd := set_u8 7 withdraw_index pd in
  let pd := set_key 8 (m_key unstaker) pd in
  let pd := set_u64 40 withdrawable pd in
  let l4 := set_data l3 (m_key pending) pd in
  let cooldown := st_cooldown (a_data (l4 (m_key state))) in
  let! timestamp := quiet (i64_checked_add (now E) cooldown CoolDownOverflow) in
  let l5 := set_data l4 (m_key pending) (set_u64 48 timestamp pd) in
  let final_vault_amount := tk_amount vault_data in
  let final_xorca_supply := wrap_u64 (tm_supply xorca_mint_data - xorca_unstake_amount) in
  check! emit (EvUnstake xorca_unstake_amount final_vault_amount (st_escrow (a_data (l5
      (m_key state)))) final_xorca_supply withdrawable (st_cooldown (a_data (l5
          (m_key state)))) withdraw_index) in
  quiet (Ok l5).

(** instructions/withdraw.rs:16-150 *)
Definition withdraw_l (C : crypto) (E : env) (accounts : list meta) (l : ledger)
    (withdraw_index : Z) : logged ledger :=
  let! unstaker := quiet (get_account_info accounts 0) in
  let! state := quiet (get_account_info accounts 1) in
  let! pending := quiet (get_account_info accounts 2) in
  let! unstaker_orca := quiet (get_account_info accounts 3) in
  let! vault := quiet (get_account_info accounts 4) in
  let! orca_mint := quiet (get_account_info accounts 5) in
  let! system_program := quiet (get_account_info accounts 6) in
  let! token_program := quiet (get_account_info accounts 7) in
  check! role_l unstaker [Signer; Writable] in
  check! address_l orca_mint orca_mint_id in
  check! owner_l l orca_mint token_id in
  check! role_l state [Writable] in
  check! owner_l l state xorca_id in
  let! state_view := state_data_l l state in
  check! quiet (verify_state_address C state (st_bump state_view)) in
  check! quiet (verify_vault_address C state vault orca_mint (st_vault_bump state_view)) in
  let seeds := state_seeds ++ [[Z_to_byte (st_bump state_view)]] in
  check! role_l pending [Writable] in
  check! owner_l l pending xorca_id in
  let! pending_view := pending_data_l l pending in
  check! quiet (verify_pending_address C pending (m_key unstaker) withdraw_index (pw_bump pending_view)) in
  let withdrawable := pw_amount pending_view in
  let timestamp := pw_timestamp pending_view in
  check! owner_token_l l unstaker_orca unstaker orca_mint true in
  check! owner_token_l l vault state orca_mint true in
  check! address_l system_program system_id in
  check! address_l token_program token_id in
  check! quiet (fail_if (now E <? timestamp) (custom CoolDownPeriodStillActive)) in
  check! quiet (fail_if (st_escrow state_view <? withdrawable) (custom InsufficientEscrow)) in
  let! l1 := quiet (cpi_token_transfer C accounts [seeds] l vault unstaker_orca state withdrawable) in
  let! l2 := quiet (close_program_account l1 pending unstaker) in
  let! state_view1 := state_data_l l2 state in
  let! new_escrow := quiet (u64_checked_sub (st_escrow state_view1) withdrawable InsufficientEscrow) in
  let l3 := set_data l2 (m_key state) (set_escrow new_escrow state_view1) in
  check! emit (EvWithdraw new_escrow withdrawable (st_cooldown (a_data (l3 (m_key state)))) withdraw_index) in
  quiet (Ok l3).

(** instructions/initialize.rs:21-155 *)
Definition initialize_l (C : crypto) (E : env) (accounts : list meta) (l : ledger)
    (cool_down_period_s : Z) : logged ledger :=
  let! payer := quiet (get_account_info accounts 0) in
  let! update_authority := quiet (get_account_info accounts 1) in
  let! state := quiet (get_account_info accounts 2) in
  let! vault := quiet (get_account_info accounts 3) in
  let! xorca_mint := quiet (get_account_info accounts 4) in
  let! orca_mint := quiet (get_account_info accounts 5) in
  let! system_program := quiet (get_account_info accounts 6) in
  let! token_program := quiet (get_account_info accounts 7) in
  let! ata_program := quiet (get_account_info accounts 8) in
  check! role_l payer [Signer; Writable] in
  check! quiet (fail_if (negb (key_eqb (m_key payer) deployer_address)) (custom UnauthorizedDeployerAccess)) in
  check! role_l state [Writable] in
  let! state_bump := seeds_l C state xorca_id state_seeds in
  let seeds := state_seeds ++ [[Z_to_byte state_bump]] in
  check! quiet (fail_if (0 <? zlen (a_data (l (m_key state)))) (custom StateAccountAlreadyInitialized)) in
  check! owner_l l state system_id in
  check! owner_l l xorca_mint token_id in
  let! xm := quiet (assert_mint_data l xorca_mint) in
  check! address_l state (tm_mint_authority xm) in
  check! quiet (fail_if (negb (tm_supply xm =? 0)) (custom InvalidAccountData)) in
  check! address_l xorca_mint xorca_mint_id in
  check! quiet (fail_if (negb (tm_mint_authority_flag xm =? 1)) (custom InvalidAccountData)) in
  check! quiet (fail_if (negb (tm_freeze_authority_flag xm =? 0)) (custom InvalidAccountData)) in
  check! quiet (fail_if (negb (key_eqb (tm_freeze_authority xm) zero_key)) (custom InvalidAccountData)) in
  check! quiet (fail_if (negb (tm_decimals xm =? 6)) (custom InvalidAccountData)) in
  check! owner_l l orca_mint token_id in
  let! om := quiet (assert_mint_data l orca_mint) in
  check! address_l orca_mint orca_mint_id in
  check! quiet (fail_if (negb (tm_decimals om =? 6)) (custom InvalidAccountData)) in
  check! role_l update_authority [Signer; Writable] in
  check! address_l system_program system_id in
  check! role_l vault [Writable] in
  check! owner_l l vault system_id in
  check! address_l token_program token_id in
  check! address_l ata_program ata_id in
  match find_vault_address C (m_key state) token_id (m_key orca_mint) with
  | None => quiet (Err EPanic)
  | Some (_, vault_bump) =>
      check! seeds_l C vault ata_id (vault_seeds (m_key state) token_id (m_key orca_mint)) in
      check! quiet (fail_if (cool_down_period_s <? 0) (custom InvalidCoolDownPeriod)) in
      let s := initial_state cool_down_period_s state_bump (byte_to_Z vault_bump)
                             (m_key update_authority) in
      let! l1 := quiet (create_state_account C E accounts l payer state [seeds] s) in
      let! l2 := quiet (cpi_ata_create C E accounts l1 payer vault state orca_mint system_program
          token_program) in
      quiet (Ok l2)
  end.

(** instructions/set.rs:14-58 *)
Definition set_l (C : crypto) (accounts : list meta) (l : ledger) (u : state_update)
  : logged ledger :=
  let! update_authority := quiet (get_account_info accounts 0) in
  let! state := quiet (get_account_info accounts 1) in
  check! role_l update_authority [Signer; Writable] in
  check! role_l state [Writable] in
  check! owner_l l state xorca_id in
  let! view := state_data_l l state in
  check! quiet (verify_state_address C state (st_bump view)) in
  check! address_l update_authority (st_authority view) in
  match u with
  | UpdateCoolDownPeriod c =>
      check! quiet (fail_if (c <? 0) (custom InvalidCoolDownPeriod)) in
      quiet (Ok (set_data l (m_key state) (set_cooldown c view)))
  | UpdateUpdateAuthority k =>
      check! emit (EvUpdateAuthoritySet k (st_authority view)) in
      quiet (Ok (set_data l (m_key state) (set_authority k view)))
  end.

(** instructions/mod.rs:10-15, 73: [strum::Display] prints the name of the variant *)
Definition instruction_name (i : instruction) : string :=
  match i with
  | Stake _ => "Stake" | Unstake _ _ => "Unstake" | Withdraw _ => "Withdraw"
  | Initialize _ => "Initialize" | Set_ _ => "Set"
  end%string.
(** entrypoint.rs:16-53 *)
Definition process_instruction_l (C : crypto) (E : env) (program_id : pubkey)
    (accounts : list meta) (l : ledger) (data : list byte) : logged ledger :=
  check! quiet (fail_if (negb (key_eqb program_id xorca_id)) (custom IncorrectProgramId)) in
  match deserialize read_instruction data with
  | None => quiet (Err (custom UnknownInstructionDiscriminator))
  | Some i =>
      check! log ("Instruction: " ++ instruction_name i)%string in
      match i with
      | Initialize c => initialize_l C E accounts l c
      | Stake a => stake_l C accounts l a
      | Unstake a i => unstake_l C E accounts l a i
      | Withdraw i => withdraw_l C E accounts l i
      | Set_ u => set_l C accounts l u
      end
  end.
