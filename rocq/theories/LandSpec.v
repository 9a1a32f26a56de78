(** What is said about packets on the chain (C79). *)
From Verif Require Export Land AcceptSpec ExecSpec RentSpec.
Import List ListNotations.
Open Scope list_scope.
Open Scope Z_scope.

(** 5000 lamports for every signature. *)
Definition fee_of (y : layout) : Z := 5000 * Z.of_nat (length (lay_signers y)).
(** The ledger after [k] has paid [n] lamports. *)
Definition paid (l : ledger) (k : pubkey) (n : Z) : ledger :=
  fun k' => if key_eqb k k' then Account (a_lamports (l k) - n) (a_owner (l k)) (a_data (l k)) else l k'.
(** A plain account that can pay: enough lamports, and it does not become rent-paying. *)
Definition can_pay (E : env) (l : ledger) (k : pubkey) (n : Z) : Prop :=
  a_owner (l k) = system_id /\ a_data (l k) = [] /\ 0 < a_lamports (l k) /\ n <= a_lamports (l k) /\
  passes_rent E l (paid l k n) k.
(** Nobody becomes rent-paying. *)
Definition all_pass (E : env) (l l' : ledger) : Prop :=
  forall k, k <> incinerator_id -> passes_rent E l l' k.
(** A state that occurs while the packet runs, after the fee. *)
Definition landing (C : crypto) (E : env) (verify : pubkey -> list byte -> list byte -> bool)
    (d : list byte) (l l1 : ledger) : Prop :=
  exists payer n, 0 <= n /\ carries verify d payer /\ during C E verify d (paid l payer n) l1.
(** Packets one after the other. *)
Fixpoint lands (C : crypto) (verify : pubkey -> list byte -> list byte -> bool) (reserved : pubkey -> bool)
    (l : ledger) (ds : list (env * (pubkey -> list pubkey) * list byte)) : outcome :=
  match ds with
  | [] => (l, [])
  | (E, tables, d) :: ds =>
      let r := land C E verify reserved tables l d in
      let r' := lands C verify reserved (fst r) ds in (fst r', snd r ++ snd r')
  end.
(** None of the accounts to be written is a sysvar or builtin, or a program that is called. *)
Definition may_arrive (reserved : pubkey -> bool) (ixs : list built) : Prop :=
  forall b m, In b ixs -> In m (b_accounts b) -> m_writable m = true ->
    reserved (m_key m) = false /\ ~ is_called ixs (m_key m).
