(** Transactions: a list of instructions executed in order, all or nothing
    (Solana runtime; the wrapper of /repo/solana-program/src/entrypoint.rs:16-55
    returns the error of the failing instruction to the runtime).  Definitions only. *)
From Verif Require Export History.

(** Run one step and report its error, if any. *)
Definition attempt (C : crypto) (l : ledger) (o : op) : res err outcome :=
  match o with
  | OpCall E accs data => process_instruction C E xorca_id accs l data
  | OpToken E sgs extra c => let? l' := token_exec E (signs sgs) extra l c in Ok (l', [])
  | OpSystem sgs c => let? l' := system_exec (signs sgs) l c in Ok (l', [])
  | OpAta E sgs payer ata wallet mint =>
      let? l' := ata_create_idempotent C E (signs sgs) l payer ata wallet mint in Ok (l', [])
  | OpForeign _ l' => Ok (l', [])
  | OpNative l' => Ok (l', [])
  | OpPurge k => Ok (upd l k empty_account, [])
  end.

(** Run the steps in order; stop at the first error. *)
Fixpoint attempt_all (C : crypto) (l : ledger) (ops : list op) : res err outcome :=
  match ops with
  | [] => Ok (l, [])
  | o :: ops =>
      let? r := attempt C l o in
      let? r' := attempt_all C (fst r) ops in
      Ok (fst r', snd r ++ snd r')
  end.

(** A transaction: keep the result of all steps, or of none. *)
Definition transaction (C : crypto) (l : ledger) (ops : list op) : outcome :=
  match attempt_all C l ops with Ok r => r | Err _ => (l, []) end.

(** The runtime guarantees about each step of a transaction (see [op_ok]), for
    the steps that are executed. *)
Fixpoint steps_ok (C : crypto) (l : ledger) (ops : list op) : Prop :=
  match ops with
  | [] => True
  | o :: ops =>
      op_ok C l o /\
      match attempt C l o with Ok r => steps_ok C (fst r) ops | Err _ => True end
  end.

(** A sequence of transactions, its final ledger and event log. *)
Inductive tx_history (C : crypto) (l0 : ledger) :
    list (list op) -> ledger -> list (list byte) -> Prop :=
| tx_nil : tx_history C l0 [] l0 []
| tx_step txs l evs ops :
    tx_history C l0 txs l evs -> steps_ok C l ops ->
    tx_history C l0 (txs ++ [ops]) (fst (transaction C l ops)) (evs ++ snd (transaction C l ops)).
