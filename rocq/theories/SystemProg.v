(** Model of the system program instructions that
    /repo/solana-program/src/util/account.rs:30-86 invokes (CreateAccount,
    Transfer, Allocate, Assign).  The system program is not part of /repo; this
    is its published behaviour and belongs to the trusted base.  [sg] is the set
    of keys that sign the (inner) instruction. *)
From Verif Require Export Solana.

(** MAX_PERMITTED_DATA_LENGTH = 10 MiB *)
Definition max_data_len : Z := 10485760.

(** [system_processor::transfer]: the funder signs, carries no data and can only
    be debited while owned by the system program. *)
Definition sys_transfer (sg : pubkey -> bool) (l : ledger) (from to : pubkey) (n : Z)
  : res err ledger :=
  check? fail_if (negb (sg from)) (ESystem SE_MissingSignature) in
  check? fail_if (negb (zlen (a_data (l from)) =? 0)) (ESystem SE_InvalidArgument) in
  check? fail_if (a_lamports (l from) <? n) (ESystem SE_InsufficientLamports) in
  check? fail_if (negb (key_eqb (a_owner (l from)) system_id) && (0 <? n))
                 (ESystem SE_ExternalLamportSpend) in
  let l1 := set_lamports l from (a_lamports (l from) - n) in
  check? fail_if (u64_max <? a_lamports (l1 to) + n) (ESystem SE_Overflow) in
  Ok (set_lamports l1 to (a_lamports (l1 to) + n)).

(** [system_processor::allocate] *)
Definition sys_allocate (sg : pubkey -> bool) (l : ledger) (k : pubkey) (space : Z)
  : res err ledger :=
  check? fail_if (negb (sg k)) (ESystem SE_MissingSignature) in
  check? fail_if (negb (zlen (a_data (l k)) =? 0) || negb (key_eqb (a_owner (l k)) system_id))
                 (ESystem SE_AccountAlreadyInUse) in
  check? fail_if (max_data_len <? space) (ESystem SE_InvalidDataLength) in
  Ok (set_data l k (zeros space)).

(** [system_processor::assign]; only the owner (the system program) may change
    the owner field. *)
Definition sys_assign (sg : pubkey -> bool) (l : ledger) (k owner : pubkey)
  : res err ledger :=
  if key_eqb (a_owner (l k)) owner then Ok l else
  check? fail_if (negb (sg k)) (ESystem SE_MissingSignature) in
  check? fail_if (negb (key_eqb (a_owner (l k)) system_id)) (ESystem SE_InvalidArgument) in
  check? fail_if (negb (all_zero (a_data (l k)))) (ESystem SE_InvalidArgument) in
  Ok (set_owner l k owner).

(** [system_processor::create_account] *)
Definition sys_create_account (sg : pubkey -> bool) (l : ledger) (from to : pubkey)
    (lamports space : Z) (owner : pubkey) : res err ledger :=
  check? fail_if (0 <? a_lamports (l to)) (ESystem SE_AccountAlreadyInUse) in
  let? l1 := sys_allocate sg l to space in
  let? l2 := sys_assign sg l1 to owner in
  sys_transfer sg l2 from to lamports.
