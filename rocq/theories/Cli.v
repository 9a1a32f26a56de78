(** How the scripts of /repo/ts-scripts read their command lines.  Arguments are ASCII
    strings (JS also skips blanks outside ASCII, which are left out). *)
From Coq Require Import Ascii String.
From Verif Require Export Scripts.
From Verif Require Import Base58.
Import List ListNotations.
Open Scope list_scope.
Open Scope Z_scope.

(** ** Numbers in text *)
(** ECMAScript WhiteSpace and LineTerminator *)
Definition js_blank (c : ascii) : bool :=
  let n := nat_of_ascii c in ((9 <=? n) && (n <=? 13) || (n =? 32))%nat.
Fixpoint trim_start (s : string) : string :=
  match s with
  | String c s' => if js_blank c then trim_start s' else s
  | EmptyString => EmptyString
  end.
Fixpoint trim_end (s : string) : string :=
  match s with
  | String c s' =>
      match trim_end s' with
      | EmptyString => if js_blank c then EmptyString else String c EmptyString
      | t => String c t
      end
  | EmptyString => EmptyString
  end.
Definition digit_value (c : ascii) : Z :=
  let n := Z.of_nat (nat_of_ascii c) in
  if (48 <=? n) && (n <=? 57) then n - 48
  else if (65 <=? n) && (n <=? 90) then n - 55
  else if (97 <=? n) && (n <=? 122) then n - 87
  else 99.
(** The digits at the beginning of a text; [None] if there is none. *)
Fixpoint leading_number (radix : Z) (s : string) (acc : option Z) : option Z :=
  match s with
  | String c s' =>
      if digit_value c <? radix
      then leading_number radix s' (Some (radix * match acc with Some v => v | None => 0 end + digit_value c))
      else acc
  | EmptyString => acc
  end.
(** The same for a text of digits only. *)
Fixpoint whole_number (radix : Z) (s : string) (acc : option Z) : option Z :=
  match s with
  | String c s' =>
      if digit_value c <? radix
      then whole_number radix s' (Some (radix * match acc with Some v => v | None => 0 end + digit_value c))
      else None
  | EmptyString => acc
  end.
(** IEEE 754 double: 53 significant bits, ties to even.  There is no infinity: numbers
    from 2^1024 on behave like other large integers (see [jsnum]). *)
Definition to_double (v : Z) : Z :=
  if v <=? 2 ^ 53 then v
  else
    let e := Z.log2 v - 52 in
    let q := v / 2 ^ e in
    let r := v mod 2 ^ e in
    let up := (2 ^ e <? 2 * r) || (2 ^ e =? 2 * r) && Z.odd q in
    (if up then q + 1 else q) * 2 ^ e.
Definition signed (s : string) : bool * string :=
  match s with
  | String c s' =>
      if Ascii.eqb c "-" then (true, s') else if Ascii.eqb c "+" then (false, s') else (false, s)
  | EmptyString => (false, s)
  end.
(** [parseInt(s)] and [parseInt(s, 10)]: without a radix, 0x begins a hexadecimal number. *)
Definition hexadecimal (s : string) : option string :=
  match s with
  | String a (String b s') =>
      if Ascii.eqb a "0" && (Ascii.eqb b "x" || Ascii.eqb b "X") then Some s' else None
  | _ => None
  end.
Definition parse_int (radix10 : bool) (s : string) : jsnum :=
  let (negative, s) := signed (trim_start s) in
  let v := match (if radix10 then None else hexadecimal s) with
           | Some s' => leading_number 16 s' None
           | None => leading_number 10 s None
           end in
  match v with
  | Some v => JInt (if negative then - to_double v else to_double v)
  | None => JNaN
  end.
(** [BigInt(s)] on a string; [None] is a SyntaxError. *)
Definition big_int (s : string) : option Z :=
  let s := trim_end (trim_start s) in
  match s with
  | EmptyString => Some 0
  | String a (String b s') =>
      if Ascii.eqb a "0" && (Ascii.eqb b "x" || Ascii.eqb b "X") then whole_number 16 s' None
      else if Ascii.eqb a "0" && (Ascii.eqb b "o" || Ascii.eqb b "O") then whole_number 8 s' None
      else if Ascii.eqb a "0" && (Ascii.eqb b "b" || Ascii.eqb b "B") then whole_number 2 s' None
      else let (negative, d) := signed s in
           option_map (fun v => if negative then - v else v) (whole_number 10 d None)
  | _ => whole_number 10 s None
  end.

(** ** Addresses in text *)
(** [new PublicKey(s)] of @solana/web3.js 1 on a string: bs58 gives a zero byte for each
    '1' at the beginning and the bytes of the number of the rest, 32 in all. *)
Fixpoint ones (s : string) : Z :=
  match s with
  | String c s' => if Ascii.eqb c "1" then 1 + ones s' else 0
  | EmptyString => 0
  end.
Definition byte_size (v : Z) : Z := if v =? 0 then 0 else Z.log2 v / 8 + 1.
Definition public_key (s : string) : option pubkey :=
  get! v := b58_value s 0 in
  if ones s + byte_size v =? 32 then Some (key_of (rev (le_enc 32 v))) else None.

(** ** The scripts *)
(** [load path] is the public key of the key pair in a file. *)
(** stake.ts:26-35 *)
Definition stake_cli (C : crypto) (E : env) (load : string -> option pubkey) (l : ledger) (args : list string)
  : option (list op) :=
  match args with
  | path :: amount :: _ =>
      get! n := big_int amount in
      get! staker := load path in
      stake_script C E l staker n
  | _ => None
  end.
(** unstake.ts:26-35 *)
Definition unstake_cli (C : crypto) (E : env) (load : string -> option pubkey) (l : ledger) (args : list string)
  : option (list op) :=
  match args with
  | path :: amount :: index :: _ =>
      get! n := big_int amount in
      get! staker := load path in
      unstake_script C E l staker n (parse_int true index)
  | _ => None
  end.
(** withdraw.ts:26-34 *)
Definition withdraw_cli (C : crypto) (E : env) (load : string -> option pubkey) (l : ledger) (args : list string)
  : option (list op) :=
  match args with
  | path :: index :: _ =>
      get! staker := load path in
      withdraw_script C E l staker (parse_int true index)
  | _ => None
  end.
(** initialize.ts:23-33 *)
Definition initialize_cli (C : crypto) (E : env) (load : string -> option pubkey) (args : list string)
  : option (list op) :=
  match args with
  | path :: authority_path :: period :: _ =>
      get! deployer := load path in
      get! authority := load authority_path in
      initialize_script C E deployer authority (parse_int false period)
  | _ => None
  end.
(** set.ts:15-30, 52-119 *)
Definition set_cli (C : crypto) (E : env) (load : string -> option pubkey) (l : ledger) (args : list string)
  : option (list op) :=
  match args with
  | path :: operation :: value :: _ =>
      get! payer := load path in
      get! state := script_state C in
      get! _state := rpc_get l state in
      if String.eqb operation "update-cooldown" then
        get! b := script_set_cooldown C payer (parse_int false value) in Some [send E b]
      else if String.eqb operation "update-authority" then
        get! new := public_key value in
        get! b := script_set_authority C payer new in Some [send E b]
      else None
  | _ => None
  end.
(** transfer-orca-to-vault.ts:21-30 *)
Definition deposit_cli (C : crypto) (E : env) (load : string -> option pubkey) (l : ledger) (args : list string)
  : option (list op) :=
  match args with
  | path :: amount :: _ =>
      get! sender := load path in
      deposit_script C E l sender (parse_int false amount)
  | _ => None
  end.
(** transfer-orca.ts:21-32, 49-53 *)
Definition transfer_cli (C : crypto) (E : env) (load : string -> option pubkey) (l : ledger) (args : list string)
  : option (list op) :=
  match args with
  | path :: recipient :: amount :: _ =>
      get! n := big_int amount in
      get! sender := load path in
      get! to := public_key recipient in
      transfer_script C E l sender to n
  | _ => None
  end.
(** update-xorca-mint-authority.ts:15-22 *)
Definition authority_cli (C : crypto) (E : env) (load : string -> option pubkey) (args : list string)
  : option (list op) :=
  match args with
  | path :: _ => get! current := load path in authority_script C E current
  | [] => None
  end.
(** pending-withdraws.ts:14-22 *)
Definition pendings_cli (C : crypto) (l0 : ledger) (ls : Z -> ledger) (clocks : Z -> Z) (args : list string)
  : option (list script_line) :=
  match args with
  | staker :: _ => get! k := public_key staker in script_pendings C l0 ls clocks k
  | [] => None
  end.
