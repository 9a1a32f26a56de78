(** /repo/solana-program/src/assertions/account.rs: account checks.

    The lines the checks write to the log are in Log.v, the borrow flags of
    [try_borrow_data] in Borrow.v. *)
From Verif Require Export Layout Pda TokenProg.

(** /repo/solana-program/src/util/account.rs:17-25 *)
Definition get_account_info (accounts : list meta) (index : nat) : res err meta :=
  match nth_error accounts index with
  | Some m => Ok m
  | None => Err (custom NotEnoughAccountKeys)
  end.

(** assertions/account.rs:34-37 *)
Inductive role := Signer | Writable.

(** assertions/account.rs:39-60 *)
Fixpoint assert_account_role (m : meta) (roles : list role) : res err unit :=
  match roles with
  | [] => Ok tt
  | r :: rest =>
      check? (match r with
              | Signer => fail_if (negb (m_signer m)) (custom InvalidAccountRole)
              | Writable => fail_if (negb (m_writable m)) (custom InvalidAccountRole)
              end) in
      assert_account_role m rest
  end.

(** assertions/account.rs:62-72 *)
Definition assert_account_owner (l : ledger) (m : meta) (owner : pubkey) : res err unit :=
  fail_if (negb (key_eqb (a_owner (l (m_key m))) owner)) (custom IncorrectOwner).

(** assertions/account.rs:74-92; [find_program_address] panics when no bump works. *)
Definition assert_account_seeds (C : crypto) (m : meta) (pid : pubkey) (seeds : list (list byte))
  : res err Z :=
  match find_program_address C seeds pid with
  | None => Err EPanic
  | Some (address, bump) =>
      check? fail_if (negb (key_eqb (m_key m) address)) (custom InvalidSeeds) in
      Ok (byte_to_Z bump)
  end.

(** assertions/account.rs:119-128 *)
Definition assert_account_address (m : meta) (address : pubkey) : res err unit :=
  fail_if (negb (key_eqb (m_key m) address)) (custom IncorrectAccountAddress).

(** assertions/account.rs:150-161 *)
Definition assert_account_len (l : ledger) (m : meta) (len : Z) : res err unit :=
  fail_if (zlen (a_data (l (m_key m))) <? len) (custom InvalidAccountData).

(** assertions/account.rs:163-187 with one discriminator *)
Definition assert_account_discriminator (l : ledger) (m : meta) (disc : Z) : res err unit :=
  let d := a_data (l (m_key m)) in
  check? fail_if (zlen d <? 1) (custom InvalidAccountData) in
  fail_if (negb (disc =? get_u8 0 d)) (custom InvalidAccountData).

(** assertions/account.rs:130-148 [assert_account_data::<State>] and its [_mut]
    twin; returns the viewed bytes. *)
Definition assert_state_data (l : ledger) (m : meta) : res err (list byte) :=
  check? assert_account_len l m STATE_LEN in
  check? assert_account_discriminator l m DISC_STATE in
  Ok (a_data (l (m_key m))).

(** assertions/account.rs:130-148 [assert_account_data::<PendingWithdraw>] *)
Definition assert_pending_data (l : ledger) (m : meta) : res err (list byte) :=
  check? assert_account_len l m PENDING_LEN in
  check? assert_account_discriminator l m DISC_PENDING in
  Ok (a_data (l (m_key m))).

(** assertions/account.rs:189-195 for [TokenMint] *)
Definition assert_mint_data (l : ledger) (m : meta) : res err token_mint :=
  match deserialize read_token_mint (a_data (l (m_key m))) with
  | Some t => Ok t
  | None => Err (custom InvalidAccountData)
  end.

(** assertions/account.rs:189-195 for [TokenAccount] *)
Definition assert_token_account_data (l : ledger) (m : meta) : res err token_account :=
  match deserialize read_token_account (a_data (l (m_key m))) with
  | Some t => Ok t
  | None => Err (custom InvalidAccountData)
  end.

(** assertions/account.rs:197-227 *)
Definition make_owner_token_account_assertions (l : ledger) (ta owner mint : meta)
    (verify_writable : bool) : res err token_account :=
  check? (if verify_writable then assert_account_role ta [Writable] else Ok tt) in
  check? assert_account_owner l ta token_id in
  let? d := assert_token_account_data l ta in
  check? fail_if (negb (key_eqb (tk_owner d) (m_key owner))) (custom InvalidAccountData) in
  check? fail_if (negb (key_eqb (tk_mint d) (m_key mint))) (custom InvalidAccountData) in
  Ok d.

(** /repo/solana-program/src/state/state.rs:58-72 *)
Definition verify_state_address (C : crypto) (m : meta) (bump : Z) : res err unit :=
  fail_if (negb (key_eqb (m_key m) (state_address_with_bump C bump))) (custom InvalidSeeds).

(** /repo/solana-program/src/state/state.rs:74-93 *)
Definition verify_vault_address (C : crypto) (state vault orca_mint : meta) (bump : Z)
  : res err unit :=
  fail_if (negb (key_eqb (m_key vault)
                         (vault_address_with_bump C (m_key state) (m_key orca_mint) bump)))
          (custom InvalidSeeds).

(** /repo/solana-program/src/state/pending_withdraw.rs:52-68 *)
Definition verify_pending_address (C : crypto) (m : meta) (unstaker : pubkey) (index bump : Z)
  : res err unit :=
  fail_if (negb (key_eqb (m_key m) (pending_address_with_bump C unstaker index bump)))
          (custom InvalidSeeds).
