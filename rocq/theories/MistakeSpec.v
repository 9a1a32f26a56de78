(** The vocabulary for calls that are wrong in one place.  Definitions only;
    nothing here is used by the model. *)
From Verif Require Export ErrorSpec.
Import List ListNotations.
Open Scope list_scope.
Open Scope Z_scope.

Definition accepted (C : crypto) (E : env) (accs : list meta) (l : ledger) (data : list byte) : Prop :=
  is_ok (process_instruction C E xorca_id accs l data) = true.
Definition answers (C : crypto) (E : env) (accs : list meta) (l : ledger) (data : list byte) (c : error_code) : Prop :=
  process_instruction C E xorca_id accs l data = Err (ECustom (code c)).

(** [accs] with entry [n] replaced. *)
Definition with_entry (accs : list meta) (n : nat) (m : meta) : list meta :=
  firstn n accs ++ m :: skipn (S n) accs.
(** [accs] with another account, passed with the same privileges, in place [n]. *)
Definition with_key (accs : list meta) (n : nat) (k : pubkey) : list meta :=
  match nth_error accs n with
  | Some m => with_entry accs n (Meta k (m_signer m) (m_writable m))
  | None => accs
  end.
(** [accs] with other privileges for the account in place [n]. *)
Definition with_flags (accs : list meta) (n : nat) (signer writable : bool) : list meta :=
  match nth_error accs n with
  | Some m => with_entry accs n (Meta (m_key m) signer writable)
  | None => accs
  end.

(** The places of the State account, of the vault, of the record and of the
    signer's token accounts (with their mints). *)
Definition state_place (i : instruction) : nat :=
  match i with Stake _ => 5 | Unstake _ _ | Withdraw _ | Set_ _ => 1 | Initialize _ => 2 end%nat.
Definition vault_place (i : instruction) : option nat :=
  match i with
  | Stake _ => Some 1 | Unstake _ _ => Some 6 | Withdraw _ => Some 4 | Initialize _ => Some 3 | Set_ _ => None
  end%nat.
Definition token_places (i : instruction) : list (nat * pubkey) :=
  match i with
  | Stake _ => [(2, orca_mint_id); (3, xorca_mint_id)]
  | Unstake _ _ => [(3, xorca_mint_id)]
  | Withdraw _ => [(3, orca_mint_id)]
  | Initialize _ | Set_ _ => []
  end%nat.

(** The record index of an instruction, and the same instruction with another one. *)
Definition with_index (i : instruction) (j : Z) : instruction :=
  match i with Unstake x _ => Unstake x j | Withdraw _ => Withdraw j | _ => i end.
