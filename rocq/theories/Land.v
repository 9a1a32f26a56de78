(** A packet on the chain: the fee and the rent check around its execution (agave:
    [validate_fee_payer], [FeeStructure], [verify_changes] of svm/src/rent_calculator.rs;
    trusted base).  Left out: priority fees and the compute budget (a packet with such
    instructions is not executed, see [Exec.v]), nonce accounts as payers, the age of the
    block hash, account locks, and where the fees go.  Definitions only. *)
From Verif Require Export Exec.
Import List ListNotations.
Open Scope list_scope.
Open Scope Z_scope.

Definition lamports_per_signature : Z := 5000.
(** Who pays, and for how many signatures *)
Definition fee_parts (d : list byte) : option (pubkey * nat) :=
  get! sigs := take_list (take_bytes 64) d in
  get! m := (match take_message (snd sigs) with
             | Some m => Some (fst m)
             | None => get! m := take_message_v0 (snd sigs) in Some (fst (fst m))
             end) in
  get! k := head (msg_keys m) in Some (k, num_signatures m).

(** [RentState] transitions: unfunded or exempt afterwards, or rent-paying as before *)
Definition rent_exempt (E : env) (a : account) : bool := rent_min E (zlen (a_data a)) <=? a_lamports a.
Definition rent_ok (E : env) (a a' : account) : bool :=
  (a_lamports a' =? 0) || rent_exempt E a'
  || (negb (a_lamports a =? 0) && negb (rent_exempt E a)
      && (zlen (a_data a') =? zlen (a_data a)) && (a_lamports a' <=? a_lamports a)).
Definition charge (l : ledger) (payer : pubkey) (fee : Z) : ledger :=
  set_lamports l payer (a_lamports (l payer) - fee).
Definition may_pay (E : env) (l : ledger) (payer : pubkey) (fee : Z) : bool :=
  key_eqb (a_owner (l payer)) system_id && (zlen (a_data (l payer)) =? 0)
  && (0 <? a_lamports (l payer)) && (fee <=? a_lamports (l payer))
  && rent_ok E (l payer) (charge l payer fee payer).
Definition touched (payer : pubkey) (bs : list built) : list pubkey :=
  payer :: map m_key (filter m_writable (flat_map b_accounts bs)).

(** The fee stays paid if the execution fails. *)
Definition land (C : crypto) (E : env) (verify : pubkey -> list byte -> list byte -> bool)
    (reserved : pubkey -> bool) (tables : pubkey -> list pubkey) (l : ledger) (d : list byte) : outcome :=
  match receive verify reserved tables d, fee_parts d with
  | Some bs, Some (payer, n) =>
      let fee := lamports_per_signature * Z.of_nat n in
      if negb (may_pay E l payer fee) then (l, []) else
      let l1 := charge l payer fee in
      match execute C E l1 bs with
      | Err _ => (l1, [])
      | Ok r =>
          if forallb (fun k => key_eqb k incinerator_id || rent_ok E (l1 k) (fst r k)) (touched payer bs)
          then r else (l1, [])
      end
  | _, _ => (l, [])
  end.
