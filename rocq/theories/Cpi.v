(** Cross-program invocation: the runtime's privilege rules and the CPI wrappers
    of pinocchio_token, pinocchio_system and pinocchio_associated_token_account
    as used by /repo/solana-program/src. *)
From Verif Require Export AtaProg Assertions.

Definition caller_has_key (accounts : list meta) (k : pubkey) : bool :=
  existsb (fun m => key_eqb (m_key m) k) accounts.
Definition caller_signs (accounts : list meta) (k : pubkey) : bool :=
  existsb (fun m => key_eqb (m_key m) k && m_signer m) accounts.
Definition caller_writes (accounts : list meta) (k : pubkey) : bool :=
  existsb (fun m => key_eqb (m_key m) k && m_writable m) accounts.

(** Addresses the program signs for: [invoke_signed]'s seed lists. *)
Fixpoint pda_signers (C : crypto) (seeds : list (list (list byte))) : res err (list pubkey) :=
  match seeds with
  | [] => Ok []
  | s :: rest =>
      match create_program_address C s xorca_id with
      | None => Err (ERuntime RE_InvalidSeeds)
      | Some k => let? ks := pda_signers C rest in Ok (k :: ks)
      end
  end.

(** An inner instruction may use an account only with privileges the caller has
    (or, for signatures, that the program's own seeds provide). *)
Definition meta_allowed (accounts : list meta) (pdas : list pubkey) (m : meta) : bool :=
  caller_has_key accounts (m_key m)
  && (negb (m_signer m)
      || caller_signs accounts (m_key m) || existsb (key_eqb (m_key m)) pdas)
  && (negb (m_writable m) || caller_writes accounts (m_key m)).

(** [invoke_signed]: privilege check, then the callee runs with the signers named
    by the inner instruction. *)
Definition invoke_signed (C : crypto) (accounts : list meta)
    (seeds : list (list (list byte))) (callee : pubkey) (inner : list meta)
    (body : (pubkey -> bool) -> res err ledger) : res err ledger :=
  let? pdas := pda_signers C seeds in
  check? fail_if (negb (caller_has_key accounts callee)) (ERuntime RE_MissingAccount) in
  check? fail_if (negb (forallb (meta_allowed accounts pdas) inner))
                 (ERuntime RE_PrivilegeEscalation) in
  body (fun k => existsb (fun m => key_eqb (m_key m) k && m_signer m) inner).

(** pinocchio_token [Transfer { from, to, authority, amount }] *)
Definition cpi_token_transfer C accounts seeds (l : ledger) (from to authority : meta) amount :=
  invoke_signed C accounts seeds token_id
    [Meta (m_key from) false true; Meta (m_key to) false true; Meta (m_key authority) true false]
    (fun sg => token_transfer sg [] l (m_key from) (m_key to) (m_key authority) amount).

(** pinocchio_token [MintTo { mint, account, mint_authority, amount }] *)
Definition cpi_token_mint_to C accounts seeds (l : ledger) (mint account authority : meta) amount :=
  invoke_signed C accounts seeds token_id
    [Meta (m_key mint) false true; Meta (m_key account) false true;
     Meta (m_key authority) true false]
    (fun sg => token_mint_to sg [] l (m_key mint) (m_key account) (m_key authority) amount).

(** pinocchio_token [Burn { account, mint, authority, amount }] *)
Definition cpi_token_burn C accounts seeds (l : ledger) (account mint authority : meta) amount :=
  invoke_signed C accounts seeds token_id
    [Meta (m_key account) false true; Meta (m_key mint) false true;
     Meta (m_key authority) true false]
    (fun sg => token_burn sg [] l (m_key account) (m_key mint) (m_key authority) amount).

(** pinocchio_system [CreateAccount], [Transfer], [Allocate], [Assign] *)
Definition cpi_system_create C accounts seeds (l : ledger) (from to : meta) lamports space owner :=
  invoke_signed C accounts seeds system_id
    [Meta (m_key from) true true; Meta (m_key to) true true]
    (fun sg => sys_create_account sg l (m_key from) (m_key to) lamports space owner).
Definition cpi_system_transfer C accounts seeds (l : ledger) (from to : meta) lamports :=
  invoke_signed C accounts seeds system_id
    [Meta (m_key from) true true; Meta (m_key to) false true]
    (fun sg => sys_transfer sg l (m_key from) (m_key to) lamports).
Definition cpi_system_allocate C accounts seeds (l : ledger) (account : meta) space :=
  invoke_signed C accounts seeds system_id [Meta (m_key account) true true]
    (fun sg => sys_allocate sg l (m_key account) space).
Definition cpi_system_assign C accounts seeds (l : ledger) (account : meta) owner :=
  invoke_signed C accounts seeds system_id [Meta (m_key account) true true]
    (fun sg => sys_assign sg l (m_key account) owner).

(** pinocchio_associated_token_account [CreateIdempotent]; its inner calls need
    the system and token programs among the accounts it receives. *)
Definition cpi_ata_create C E accounts (l : ledger) (funding account wallet mint system token : meta) :=
  invoke_signed C accounts [] ata_id
    [Meta (m_key funding) true true; Meta (m_key account) false true;
     Meta (m_key wallet) false false; Meta (m_key mint) false false;
     Meta (m_key system) false false; Meta (m_key token) false false]
    (fun sg => ata_create_idempotent C E sg l (m_key funding) (m_key account) (m_key wallet)
                 (m_key mint)).
