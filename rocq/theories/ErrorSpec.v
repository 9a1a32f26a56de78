(** What each error number of the program says about the call and the ledger.
    Definitions only; nothing here is used by the model. *)
From Verif Require Export Spec.
Import List ListNotations.
Open Scope list_scope.
Open Scope Z_scope.

(** ** The documented demands on the accounts of a call *)
Record rule := Rule {
  needs_signature : bool;
  needs_writable : bool;
  needs_owner : option pubkey;     (* the program that must own the account *)
  needs_address : option pubkey    (* the only address allowed here *)
}.
Definition rules (i : instruction) : list rule :=
  match i with
  | Stake _ =>
      [Rule true true None None; Rule false true (Some token_id) None; Rule false true (Some token_id) None;
       Rule false true (Some token_id) None; Rule false true (Some token_id) (Some xorca_mint_id);
       Rule false false (Some xorca_id) None; Rule false false (Some token_id) (Some orca_mint_id);
       Rule false false None (Some token_id)]
  | Unstake _ _ =>
      [Rule true true None None; Rule false true (Some xorca_id) None; Rule false true (Some system_id) None;
       Rule false true (Some token_id) None; Rule false true (Some token_id) (Some xorca_mint_id);
       Rule false false (Some token_id) (Some orca_mint_id); Rule false false (Some token_id) None;
       Rule false false None (Some system_id); Rule false false None (Some token_id)]
  | Withdraw _ =>
      [Rule true true None None; Rule false true (Some xorca_id) None; Rule false true (Some xorca_id) None;
       Rule false true (Some token_id) None; Rule false true (Some token_id) None;
       Rule false false (Some token_id) (Some orca_mint_id);
       Rule false false None (Some system_id); Rule false false None (Some token_id)]
  | Initialize _ =>
      [Rule true true None None; Rule true true None None; Rule false true (Some system_id) None;
       Rule false true (Some system_id) None; Rule false false (Some token_id) (Some xorca_mint_id);
       Rule false false (Some token_id) (Some orca_mint_id);
       Rule false false None (Some system_id); Rule false false None (Some token_id); Rule false false None (Some ata_id)]
  | Set_ _ => [Rule true true None None; Rule false true (Some xorca_id) None]
  end.

(** Account number [n] of the call. *)
Definition acct (accs : list meta) (n : nat) : pubkey :=
  match nth_error accs n with Some m => m_key m | None => zero_key end.

(** ** Contents *)
Definition token_bytes (l : ledger) (k mint owner : pubkey) : Prop :=
  (165 <= length (a_data (l k)))%nat /\ ta_state (a_data (l k)) <= 2 /\
  ta_mint (a_data (l k)) = mint /\ ta_owner (a_data (l k)) = owner.
Definition mint_bytes (l : ledger) (k : pubkey) : Prop :=
  (82 <= length (a_data (l k)))%nat /\ mint_init (a_data (l k)) <= 1.
Definition state_bytes (l : ledger) (k : pubkey) : Prop :=
  (2048 <= length (a_data (l k)))%nat /\ st_disc (a_data (l k)) = 1.
Definition record_bytes (l : ledger) (k : pubkey) : Prop :=
  (1024 <= length (a_data (l k)))%nat /\ pw_disc (a_data (l k)) = 2.

Definition bad_data (accs : list meta) (l : ledger) (i : instruction) : Prop :=
  let k := acct accs in
  let xm := a_data (l (k 4%nat)) in
  match i with
  | Stake _ =>
      ~ token_bytes l (k 2%nat) orca_mint_id (k 0%nat) \/ ~ token_bytes l (k 3%nat) xorca_mint_id (k 0%nat) \/
      ~ mint_bytes l xorca_mint_id \/ ~ state_bytes l (k 5%nat) \/ ~ token_bytes l (k 1%nat) orca_mint_id (k 5%nat)
  | Unstake _ _ =>
      ~ token_bytes l (k 6%nat) orca_mint_id (k 1%nat) \/ ~ token_bytes l (k 3%nat) xorca_mint_id (k 0%nat) \/
      ~ mint_bytes l xorca_mint_id \/ mint_auth_flag xm = 0 \/ mint_auth xm <> k 1%nat \/
      mint_freeze_flag xm <> 0 \/ ~ mint_bytes l orca_mint_id \/ ~ state_bytes l (k 1%nat)
  | Withdraw _ =>
      ~ state_bytes l (k 1%nat) \/ ~ record_bytes l (k 2%nat) \/
      ~ token_bytes l (k 3%nat) orca_mint_id (k 0%nat) \/ ~ token_bytes l (k 4%nat) orca_mint_id (k 1%nat)
  | Initialize _ =>
      ~ mint_bytes l (k 4%nat) \/ mint_supply xm <> 0 \/ mint_auth_flag xm <> 1 \/ mint_freeze_flag xm <> 0 \/
      mint_freeze xm <> zero_key \/ mint_decimals xm <> 6 \/
      ~ mint_bytes l (k 5%nat) \/ mint_decimals (a_data (l (k 5%nat))) <> 6
  | Set_ _ => ~ state_bytes l (k 1%nat)
  end.

(** The State account or the vault or the record is not where its bump says. *)
Definition bad_seeds (C : crypto) (accs : list meta) (l : ledger) (i : instruction) : Prop :=
  let k := acct accs in
  let bad_state s := s <> state_address_with_bump C (st_bump (a_data (l s))) in
  let bad_vault s v := v <> vault_address_with_bump C s orca_mint_id (st_vault_bump (a_data (l s))) in
  match i with
  | Stake _ => bad_state (k 5%nat) \/ bad_vault (k 5%nat) (k 1%nat)
  | Unstake _ j =>
      (forall b, find_pending_withdraw_address C (k 0%nat) j <> Some (k 2%nat, b)) \/
      bad_state (k 1%nat) \/ bad_vault (k 1%nat) (k 6%nat)
  | Withdraw j =>
      bad_state (k 1%nat) \/ bad_vault (k 1%nat) (k 4%nat) \/
      k 2%nat <> pending_address_with_bump C (k 0%nat) j (pw_bump (a_data (l (k 2%nat))))
  | Initialize _ =>
      (forall b, find_state_address C <> Some (k 2%nat, b)) \/
      (forall b, find_vault_address C (k 2%nat) token_id orca_mint_id <> Some (k 3%nat, b))
  | Set_ _ => bad_state (k 1%nat)
  end.

(** ** The meaning of the error numbers *)
Definition blames (C : crypto) (E : env) (accs : list meta) (l : ledger) (i : instruction) (c : error_code) : Prop :=
  let k := acct accs in
  match c with
  | UnknownInstructionDiscriminator | IncorrectProgramId | EmitEventError => False
  | NotEnoughAccountKeys => (length accs < length (rules i))%nat
  | InvalidAccountRole =>
      exists n r m, nth_error (rules i) n = Some r /\ nth_error accs n = Some m /\
        (needs_signature r = true /\ m_signer m = false \/ needs_writable r = true /\ m_writable m = false)
  | IncorrectOwner =>
      exists n r o, nth_error (rules i) n = Some r /\ needs_owner r = Some o /\ a_owner (l (k n)) <> o
  | IncorrectAccountAddress =>
      (exists n r a, nth_error (rules i) n = Some r /\ needs_address r = Some a /\ k n <> a) \/
      match i with
      | Set_ _ => k 0%nat <> authority l (k 1%nat)
      | Initialize _ => k 2%nat <> mint_auth (a_data (l (k 4%nat)))
      | _ => False
      end
  | InvalidSeeds => bad_seeds C accs l i
  | InvalidAccountData => bad_data accs l i
  | InsufficientFunds =>
      match i with
      | Stake a => balance l (k 2%nat) < a
      | Unstake x _ => balance l (k 3%nat) < x
      | _ => False
      end
  | InsufficientStakeAmount =>
      match i with
      | Stake a =>
          let free := free_orca l (k 5%nat) (k 1%nat) in
          a = 0 \/ supply l <> 0 /\ free <> 0 /\ a * (supply l + 100) < free + 100
      | _ => False
      end
  | InsufficientUnstakeAmount =>
      match i with
      | Unstake x _ => x * (free_orca l (k 1%nat) (k 6%nat) + 100) < supply l + 100
      | _ => False
      end
  | InsufficientVaultBacking =>
      match i with
      | Stake _ => balance l (k 1%nat) < escrow l (k 5%nat)
      | Unstake _ _ => balance l (k 6%nat) < escrow l (k 1%nat)
      | _ => False
      end
  | ArithmeticError =>
      match i with
      | Stake a =>
          let free := free_orca l (k 5%nat) (k 1%nat) in
          supply l <> 0 /\ free <> 0 /\
          (u128_max < a * (supply l + 100) \/ u64_max < a * (supply l + 100) / (free + 100))
      | Unstake x _ =>
          let free := free_orca l (k 1%nat) (k 6%nat) in
          supply l = 0 \/ free = 0 \/ u128_max < x * (free + 100) \/
          u64_max < escrow l (k 1%nat) + x * (free + 100) / (supply l + 100)
      | _ => False
      end
  | CoolDownOverflow =>
      match i with Unstake _ _ => ~ is_i64 (now E + cooldown l (k 1%nat)) | _ => False end
  | CoolDownPeriodStillActive =>
      match i with Withdraw _ => is_record l (k 2%nat) /\ now E < rec_time l (k 2%nat) | _ => False end
  | InsufficientEscrow =>
      match i with Withdraw _ => escrow l (k 1%nat) < rec_amount l (k 2%nat) | _ => False end
  | InvalidCoolDownPeriod =>
      match i with Initialize c | Set_ (UpdateCoolDownPeriod c) => c < 0 | _ => False end
  | StateAccountAlreadyInitialized =>
      match i with
      | Initialize _ => (exists b, find_state_address C = Some (k 2%nat, b)) /\ a_data (l (k 2%nat)) <> []
      | _ => False
      end
  | UnauthorizedDeployerAccess =>
      match i with Initialize _ => k 0%nat <> deployer_address | _ => False end
  end.
