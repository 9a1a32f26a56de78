(** What the scripts of /repo/ts-scripts send and report.  A script first reads some
    accounts, then sends one transaction, then reads again; [l] is the ledger of the
    first reads (the scripts make several requests; all see the same ledger here), and
    [l'] that of the last ones.  [None] means that the script stops before sending
    (error, exception or exit) or prints no such line. *)
From Coq Require Import Ascii String.
From Verif Require Export Rpc Transaction.
Import List ListNotations.
Open Scope list_scope.
Open Scope Z_scope.

(** getTokenAccountBalance, and the amount in a parsed token account: an error unless
    the account is an initialized token account. *)
Definition rpc_token_amount (l : ledger) (k : pubkey) : option Z :=
  get! d := rpc_get l k in
  if key_eqb (a_owner (l k)) token_id && is_ok (ta_unpack d) then Some (ta_amount d) else None.
(** [info.value?.data?.parsed.info.tokenAmount.amount || 0] *)
Definition rpc_amount_or_0 (l : ledger) (k : pubkey) : option Z :=
  match rpc_get l k with None => Some 0 | Some _ => rpc_token_amount l k end.

(** [createAssociatedTokenAccountInstruction] if the account is missing.  The scripts
    use the variant that fails if the account has appeared meanwhile; the model uses
    the idempotent one, which is the same on a missing account. *)
Definition create_if_missing (E : env) (l : ledger) (payer k owner mint : pubkey) : list op :=
  match rpc_get l k with None => [OpAta E [payer] payer k owner mint] | Some _ => [] end.

Definition send (E : env) (b : built) : op := OpCall E (b_accounts b) (b_data b).

(** ** stake.ts *)
(** stake.ts:86-152 *)
Definition stake_script (C : crypto) (E : env) (l : ledger) (staker : pubkey) (amount : Z)
  : option (list op) :=
  get! orca := script_ata C script_orca_mint staker in
  get! xorca := script_ata C script_xorca_mint staker in
  get! have := rpc_token_amount l orca in
  if have <? amount then None else
  get! b := script_stake C staker amount in
  Some (create_if_missing E l staker xorca staker script_xorca_mint ++ [send E b]).
(** stake.ts:172-182: the lines "ORCA staked" and "xORCA received" *)
Definition stake_script_report (C : crypto) (l l' : ledger) (staker : pubkey) : option (Z * Z) :=
  get! orca := script_ata C script_orca_mint staker in
  get! xorca := script_ata C script_xorca_mint staker in
  get! before := rpc_token_amount l orca in
  get! final_orca := rpc_token_amount l' orca in
  get! final_xorca := rpc_token_amount l' xorca in
  Some (before - final_orca, final_xorca).

(** ** unstake.ts *)
(** unstake.ts:92-181 *)
Definition unstake_script (C : crypto) (E : env) (l : ledger) (staker : pubkey) (amount : Z)
    (index : jsnum) : option (list op) :=
  get! xorca := script_ata C script_xorca_mint staker in
  get! orca := script_ata C script_orca_mint staker in
  get! have := rpc_token_amount l xorca in
  if have <? amount then None else
  get! b := script_unstake C staker amount index in
  Some (create_if_missing E l staker orca staker script_orca_mint ++ [send E b]).
(** unstake.ts:201-218: the lines "xORCA unstaked" and "ORCA received" *)
Definition unstake_script_report (C : crypto) (l l' : ledger) (staker : pubkey) : option (Z * Z) :=
  get! xorca := script_ata C script_xorca_mint staker in
  get! orca := script_ata C script_orca_mint staker in
  get! before := rpc_token_amount l xorca in
  get! final_xorca := rpc_amount_or_0 l' xorca in
  get! final_orca := rpc_amount_or_0 l' orca in
  Some (before - final_xorca, final_orca - (if 0 <? before then 0 else 0)).

(** ** withdraw.ts *)
(** withdraw.ts:91-183 *)
Definition withdraw_script (C : crypto) (E : env) (l : ledger) (staker : pubkey) (index : jsnum)
  : option (list op) :=
  get! pending := script_pending C staker index in
  get! orca := script_ata C script_orca_mint staker in
  get! d := rpc_get l pending in
  if (length d <? 56)%nat then None else
  get! b := script_withdraw C staker index in
  Some (create_if_missing E l staker orca staker script_orca_mint ++ [send E b]).
(** withdraw.ts:101-118: the line "Seconds remaining", [clock] being the local clock
    ([Number] is exact for times below 2^53). *)
Definition withdraw_script_seconds (C : crypto) (l : ledger) (clock : Z) (staker : pubkey)
    (index : jsnum) : option Z :=
  get! pending := script_pending C staker index in
  get! d := rpc_get l pending in
  if (length d <? 56)%nat then None else Some (get_i64 48 d - clock).

(** ** transfer-orca-to-vault.ts *)
(** transfer-orca-to-vault.ts:30 and 48-107; the amount is [BigInt(parseInt(arg))].
    Negative amounts, which the token library does not encode properly, are left out. *)
Definition deposit_script (C : crypto) (E : env) (l : ledger) (sender : pubkey) (amount : jsnum)
  : option (list op) :=
  get! n := js_bigint amount in
  get! state := script_state C in
  get! vault := script_vault C state in
  get! orca := script_ata C script_orca_mint sender in
  get! have := spl_js_account l orca in
  if have <? n then None else
  get! _vault := spl_js_account l vault in
  get! _bytes := js_u64 n in
  Some [OpToken E [sender] [] (TC_Transfer orca vault sender n)].
(** transfer-orca-to-vault.ts:125-136: the lines "ORCA transferred" and "Vault received" *)
Definition deposit_script_report (C : crypto) (l l' : ledger) (amount : jsnum) : option (Z * Z) :=
  get! n := js_bigint amount in
  get! state := script_state C in
  get! vault := script_vault C state in
  get! before := spl_js_account l vault in
  get! final := spl_js_account l' vault in
  Some (n, final - (before - n)).

(** ** transfer-orca.ts *)
(** transfer-orca.ts:55-129 (negative amounts are left out, as above) *)
Definition transfer_script (C : crypto) (E : env) (l : ledger) (sender recipient : pubkey) (amount : Z)
  : option (list op) :=
  get! from := script_ata C script_orca_mint sender in
  get! to := script_ata C script_orca_mint recipient in
  get! have := rpc_token_amount l from in
  if have <? amount then None else
  get! _to := rpc_amount_or_0 l to in
  get! _bytes := js_u64 amount in
  Some (create_if_missing E l sender to recipient script_orca_mint
        ++ [OpToken E [sender] [] (TC_Transfer from to sender amount)]).
(** transfer-orca.ts:149-169: the lines "ORCA transferred", "ORCA received by recipient",
    and whether the script then prints "Transfer completed successfully" *)
Definition transfer_script_report (C : crypto) (l l' : ledger) (sender recipient : pubkey) (amount : Z)
  : option (Z * Z * bool) :=
  get! from := script_ata C script_orca_mint sender in
  get! to := script_ata C script_orca_mint recipient in
  get! from_before := rpc_token_amount l from in
  get! to_before := rpc_amount_or_0 l to in
  get! from_after := rpc_token_amount l' from in
  get! to_after := rpc_token_amount l' to in
  let transferred := from_before - from_after in
  let received := to_after - to_before in
  Some (transferred, received, (transferred =? amount) && (received =? amount)).

(** ** update-xorca-mint-authority.ts *)
(** update-xorca-mint-authority.ts:44-76 *)
Definition authority_script (C : crypto) (E : env) (current : pubkey) : option (list op) :=
  get! state := script_state C in
  Some [OpToken E [current] [] (TC_SetAuthority script_xorca_mint current MintTokens (Some state))].
(** update-xorca-mint-authority.ts:101-115: whether it prints "Mint authority successfully
    updated" *)
Definition authority_script_verdict (C : crypto) (l' : ledger) : option bool :=
  get! state := script_state C in
  get! d := rpc_get l' script_xorca_mint in
  if key_eqb (a_owner (l' script_xorca_mint)) token_id && is_ok (mint_unpack d) then
    Some ((mint_auth_flag d =? 1) && key_eqb (mint_auth d) state)
  else None.

(** ** initialize.ts *)
(** initialize.ts:62-126 *)
Definition initialize_script (C : crypto) (E : env) (deployer authority : pubkey) (cooldown : jsnum)
  : option (list op) :=
  get! b := script_initialize C deployer authority cooldown in Some [send E b].

(** ** status.ts *)
Record status_state := StatusState {
  line_cooldown : Z; line_escrow : Z; line_authority : pubkey; line_bump : Z; line_vault_bump : Z }.
(** How far the script comes, with what it has printed.  A rate is a pair (dividend,
    divisor); the conversion of both to JS numbers is exact below 2^53, and their
    display with ten digits is left out. *)
Inductive status_lines :=
| StatusNotFound                                 (* "State account not found" *)
| StatusBadState                                 (* "Error parsing state account" *)
| StatusNoVault (s : status_state)               (* "Error fetching vault account" *)
| StatusNoMint (s : status_state) (total free : Z)   (* the same message, two lines later *)
| StatusFull (s : status_state) (total free supply : Z)
    (orca_to_xorca : Z * Z)                      (* "1 ORCA = ... xORCA" *)
    (xorca_to_orca : Z * Z).                     (* "1 xORCA = ... ORCA" *)
(** status.ts:58-80 *)
Definition status_parse (d : list byte) : option status_state :=
  get! fields := decode_struct js_state d in
  match fields with
  | [_; _; VInt bump; VInt vault_bump; VInt escrowed; VInt cooldown; VKey authority; _] =>
      Some (StatusState cooldown escrowed authority bump vault_bump)
  | _ => None
  end.
(** status.ts:23-150, one ledger per request.  [None] if the addresses do not exist. *)
Definition status_script (C : crypto) (l1 l2 l3 : ledger) : option status_lines :=
  get! state := script_state C in
  get! vault := script_vault C state in
  Some (match rpc_get l1 state with
  | None => StatusNotFound
  | Some d =>
    match status_parse d with
    | None => StatusBadState
    | Some s =>
      match spl_js_account l2 vault with
      | None => StatusNoVault s
      | Some total =>
        let free := total - line_escrow s in
        match spl_js_mint l3 script_xorca_mint with
        | None => StatusNoMint s total free
        | Some supply =>
          let numerator := free + 100 in
          let denominator := supply + 100 in
          StatusFull s total free supply (numerator, denominator) (denominator, numerator)
        end
      end
    end
  end).
