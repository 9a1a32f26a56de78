(** The clients' read helpers, run against ledgers.  Every RPC request sees one
    ledger; helpers that make several requests take one ledger per request. *)
From Coq Require Import Ascii String.
From Verif Require Export Client Program.
Import List ListNotations.
Open Scope list_scope.
Open Scope Z_scope.

(** ** The RPC server *)
(** getAccountInfo: an account without lamports does not exist. *)
Definition rpc_get (l : ledger) (k : pubkey) : option (list byte) :=
  if a_lamports (l k) =? 0 then None else Some (a_data (l k)).
(** getMultipleAccounts: one ledger for all addresses; the server refuses more than
    [cap] of them (100 unless configured otherwise). *)
Definition rpc_many (cap : nat) (l : ledger) (ks : list pubkey) : option (list (option (list byte))) :=
  if (cap <? length ks)%nat then None else Some (map (rpc_get l) ks).

Fixpoint all_some {A} (xs : list (option A)) : option (list A) :=
  match xs with
  | [] => Some []
  | o :: xs => get! x := o in get! xs' := all_some xs in Some (x :: xs')
  end.
Fixpoint somes {A} (xs : list (option A)) : list A :=
  match xs with [] => [] | Some x :: xs => x :: somes xs | None :: xs => somes xs end.

(** 0, 1, ..., n - 1 *)
Definition below (n : Z) : list Z := map Z.of_nat (seq 0 (Z.to_nat n)).

(** ** Rust client *)
(** rust-client/src/utils/mod.rs:43-47 with generated/accounts/state.rs:53-83
    (an absent account is an error) *)
Definition rust_state_data (C : crypto) (cap : nat) (l : ledger) : option (list fval) :=
  get! p := rust_find_state C in
  get! accounts := rpc_many cap l [fst p] in
  match accounts with
  | [Some d] => decode_struct rust_state d
  | _ => None
  end.
(** mod.rs:59-62; the field is [cool_down_period_s] *)
Definition rust_cooldown (C : crypto) (cap : nat) (l : ledger) : option Z :=
  get! fields := rust_state_data C cap l in
  match nth_error fields 5 with Some (VInt c) => Some c | _ => None end.
Definition rust_escrow (C : crypto) (cap : nat) (l : ledger) : option Z :=
  get! fields := rust_state_data C cap l in
  match nth_error fields 4 with Some (VInt e) => Some e | _ => None end.

(** generated/accounts/pending_withdraw.rs:97-121: an existing account that does not
    decode fails the whole request *)
Definition rust_maybe (o : option (list byte)) : option (option (list fval)) :=
  match o with
  | Some d => get! fields := decode_struct rust_pending d in Some (Some fields)
  | None => Some None
  end.
Definition rust_fetch_all_maybe (cap : nat) (l : ledger) (ks : list pubkey) : option (list (option (list fval))) :=
  get! accounts := rpc_many cap l ks in
  all_some (map rust_maybe accounts).
(** mod.rs:77-105; [max] is a [u8] *)
Definition rust_pending_withdraws (C : crypto) (cap : nat) (l : ledger) (staker : pubkey) (max : option Z)
  : option (list (list fval)) :=
  let n := match max with Some n => n | None => 15 end in
  get! ps := all_some (map (rust_find_pending C staker) (below n)) in
  get! maybes := rust_fetch_all_maybe cap l (map fst ps) in
  Some (somes maybes).

(** mod.rs:117-136; [VaultState] as address, owner, mint, amount. [Account::unpack] is
    the token program's own ([ta_unpack]). *)
Definition rust_vault_state (C : crypto) (l : ledger) : option (pubkey * pubkey * pubkey * Z) :=
  get! s := rust_find_state C in
  get! v := rust_find_vault C (fst s) token_id orca_mint_id in
  get! d := rpc_get l (fst v) in
  match ta_unpack d with
  | Ok _ => Some (fst v, ta_owner d, ta_mint d, ta_amount d)
  | Err _ => None
  end.
(** mod.rs:147-156 *)
Definition rust_xorca_supply (l : ledger) : option Z :=
  get! d := rpc_get l xorca_mint_id in
  match mint_unpack d with
  | Ok _ => Some (mint_supply d)
  | Err _ => None
  end.
(** mod.rs:172-185: three requests; [checked_sub] *)
Definition rust_exchange_rate (C : crypto) (cap : nat) (l1 l2 l3 : ledger) : option (Z * Z) :=
  get! e := rust_escrow C cap l1 in
  get! v := rust_vault_state C l2 in
  let '(_, _, _, amount) := v in
  get! n := (if amount <? e then None else Some (amount - e)) in
  get! d := rust_xorca_supply l3 in
  Some (n, d).

(** ** JS client *)
(** js-client/src/utils/index.ts:68-78 *)
Definition js_state_data (C : crypto) (cap : nat) (l : ledger) : option (list fval) :=
  get! p := js_find_state C in
  get! accounts := rpc_many cap l [fst p] in
  match accounts with
  | [Some d] => decode_struct js_state d
  | _ => None
  end.
(** index.ts:80-85 *)
Definition js_cooldown (C : crypto) (cap : nat) (l : ledger) : option Z :=
  get! fields := js_state_data C cap l in
  match nth_error fields 5 with Some (VInt c) => Some c | _ => None end.
Definition js_escrow (C : crypto) (cap : nat) (l : ledger) : option Z :=
  get! fields := js_state_data C cap l in
  match nth_error fields 4 with Some (VInt e) => Some e | _ => None end.

(** index.ts:117-127: the limit must be an integer from 0 to 255 *)
Definition js_limit (max : jsnum) : option Z :=
  match max with
  | JInt n => if (n <? 0) || (255 <? n) then None else Some n
  | _ => None
  end.
(** index.ts:87-115: accounts that do not decode are dropped *)
Definition js_pending_withdraws (C : crypto) (cap : nat) (l : ledger) (staker : pubkey) (max : option jsnum)
  : option (list (list fval)) :=
  get! n := js_limit (match max with Some n => n | None => JInt 15 end) in
  get! ps := all_some (map (fun i => js_find_pending C staker (JInt i)) (below n)) in
  get! accounts := rpc_many cap l (map fst ps) in
  Some (somes (map (decode_struct js_pending) (somes accounts))).

(** @solana-program/token [getTokenDecoder]: fixed-size fields, options with a [u32]
    flag of which only 1 counts as present, a three-variant state; trailing bytes are
    ignored.  Only the fields used here are returned. *)
Definition js_token_decode (d : list byte) : option (pubkey * pubkey * Z) :=
  if (length d <? 165)%nat then None else
  if 2 <? ta_state d then None else
  Some (ta_owner d, ta_mint d, ta_amount d).
(** [getMintDecoder] *)
Definition js_mint_decode (d : list byte) : option Z :=
  if (length d <? 82)%nat then None else Some (mint_supply d).
(** index.ts:129-154 *)
Definition js_vault_state (C : crypto) (l : ledger) : option (pubkey * pubkey * pubkey * Z) :=
  get! s := js_find_state C in
  get! v := js_find_vault C (fst s) token_id orca_mint_id in
  get! d := rpc_get l (fst v) in
  get! t := js_token_decode d in
  let '(owner, mint, amount) := t in
  Some (fst v, owner, mint, amount).
(** index.ts:156-165 *)
Definition js_xorca_supply (l : ledger) : option Z :=
  get! d := rpc_get l xorca_mint_id in
  js_mint_decode d.
(** index.ts:167-181: bigints, no underflow check *)
Definition js_exchange_rate (C : crypto) (cap : nat) (l1 l2 l3 : ledger) : option (Z * Z) :=
  get! e := js_escrow C cap l1 in
  get! v := js_vault_state C l2 in
  let '(_, _, _, amount) := v in
  get! d := js_xorca_supply l3 in
  Some (amount - e, d).

(** ** Scripts *)
(** One line of ts-scripts/pending-withdraws.ts. *)
Record script_line := ScriptLine {
  sl_index : Z; sl_address : pubkey; sl_amount : Z; sl_time : Z;
  sl_ready : bool; sl_remaining : Z; sl_elapsed : Z
}.
(** pending-withdraws.ts:80-123: Buffer reads past the end throw (and the index is
    skipped); nothing else is checked.  [clock] is the local clock in seconds,
    [cool] the cool-down read from the State account at the start. *)
Definition script_parse (clock cool : Z) (k : pubkey) (d : list byte) : option script_line :=
  if (length d <? 56)%nat then None else
  let time := get_i64 48 d in
  let ready := time <=? clock in
  Some (ScriptLine (get_u8 7 d) k (get_u64 40 d) time ready
    (if ready then 0 else time - clock) (clock - (time - cool))).
(** pending-withdraws.ts:34-131: one request for the State account ([l0]), then one per
    index ([ls i]); [clocks i] is the local clock at that moment *)
Definition script_pendings (C : crypto) (l0 : ledger) (ls : Z -> ledger) (clocks : Z -> Z) (staker : pubkey)
  : option (list script_line) :=
  get! state := script_state C in
  get! s := rpc_get l0 state in
  if (length s <? 24)%nat then None else
  Some (somes (map (fun i =>
    get! k := script_pending C staker (JInt i) in
    get! d := rpc_get (ls i) k in
    script_parse (clocks i) (get_i64 16 s) k d) (below 15))).

(** ts-scripts/status.ts:28-115: three requests; [getAccount] and [getMint] of
    @solana/spl-token check the owner and the size (accounts longer than the plain
    layouts, which this token program cannot make, are taken as failures). *)
Definition spl_js_account (l : ledger) (k : pubkey) : option Z :=
  get! d := rpc_get l k in
  if key_eqb (a_owner (l k)) token_id && (length d =? 165)%nat then Some (ta_amount d) else None.
Definition spl_js_mint (l : ledger) (k : pubkey) : option Z :=
  get! d := rpc_get l k in
  if key_eqb (a_owner (l k)) token_id && (length d =? 82)%nat then Some (mint_supply d) else None.
(** Numerator and denominator: the script prints their quotient as "1 ORCA = ... xORCA"
    (status.ts:112-122). *)
Definition script_status (C : crypto) (l1 l2 l3 : ledger) : option (Z * Z) :=
  get! state := script_state C in
  get! vault := script_vault C state in
  get! d := rpc_get l1 state in
  get! fields := decode_struct js_state d in
  get! e := match nth_error fields 4 with Some (VInt e) => Some e | _ => None end in
  get! amount := spl_js_account l2 vault in
  get! s := spl_js_mint l3 script_xorca_mint in
  Some (amount - e + 100, s + 100).
