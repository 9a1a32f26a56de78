(** Executions: every finite interleaving of xORCA calls with everything else that
    can happen to the accounts on the chain.  Definitions only.

    Not part of /repo: this file states the Solana runtime rules the program
    relies on (trusted base).  It over-approximates: steps may do more than the
    real runtime allows (for example lamports may appear), never less, except for
    what DESIGN.md lists as not modelled. *)
From Verif Require Export Program.

(** [k] is an address that xORCA, and only xORCA, can sign for. *)
Definition program_signs_for (C : crypto) (k : pubkey) : Prop :=
  exists seeds, create_program_address C seeds xorca_id = Some k.

(** Calls to the system program. *)
Inductive system_call :=
| SC_Transfer (from to : pubkey) (n : Z)
| SC_Create (from to : pubkey) (n space : Z) (owner : pubkey)
| SC_Allocate (k : pubkey) (space : Z)
| SC_Assign (k owner : pubkey).

Definition system_exec (sg : pubkey -> bool) (l : ledger) (c : system_call) : res err ledger :=
  match c with
  | SC_Transfer f t n => sys_transfer sg l f t n
  | SC_Create f t n space owner => sys_create_account sg l f t n space owner
  | SC_Allocate k space => sys_allocate sg l k space
  | SC_Assign k owner => sys_assign sg l k owner
  end.

Definition system_call_ok (c : system_call) : Prop :=
  match c with
  | SC_Transfer _ _ n => 0 <= n
  | SC_Create _ _ n space _ => 0 <= n /\ 0 <= space
  | SC_Allocate _ space => 0 <= space
  | SC_Assign _ _ => True
  end.

(** One step of an execution. *)
Inductive op :=
| OpCall (E : env) (accounts : list meta) (data : list byte)
    (* an instruction of this program, directly or from another program *)
| OpToken (E : env) (signers extra : list pubkey) (c : token_call)
| OpSystem (signers : list pubkey) (c : system_call)
| OpAta (E : env) (signers : list pubkey) (payer ata wallet mint : pubkey)
| OpForeign (program : pubkey) (l' : ledger)
    (* any other program rewrites the accounts it owns *)
| OpNative (l' : ledger)
    (* fees, nonces, rewards: the runtime rewrites system-owned accounts *)
| OpPurge (k : pubkey).
    (* the runtime deletes an account without lamports *)

Definition signs (signers : list pubkey) : pubkey -> bool :=
  fun k => existsb (key_eqb k) signers.

(** What the runtime guarantees about the sysvars: the clock is an i64, and rent
    minima are positive u64 numbers. *)
Definition sysvars_ok (E : env) : Prop :=
  is_i64 (now E) /\ forall n, 0 <= n -> is_u64 (rent_min E n) /\ 0 < rent_min E n.

(** Signatures come from key holders and other programs, never from xORCA's own
    derived addresses. *)
Definition honest_signers (C : crypto) (ks : list pubkey) : Prop :=
  forall k, In k ks -> ~ program_signs_for C k.
Definition honest_metas (C : crypto) (accounts : list meta) : Prop :=
  forall m, In m accounts -> m_signer m = true -> ~ program_signs_for C (m_key m).

(** Program [p] may rewrite its own accounts, give an all-zero one away, and send
    lamports anywhere. *)
Definition foreign_write (p : pubkey) (l l' : ledger) : Prop :=
  forall k,
    (a_owner (l k) <> p ->
       a_owner (l' k) = a_owner (l k) /\ a_data (l' k) = a_data (l k) /\
       a_lamports (l k) <= a_lamports (l' k)) /\
    (a_owner (l' k) <> a_owner (l k) -> all_zero (a_data (l' k)) = true).

(** Balances are unsigned. *)
Definition lamports_ok (l : ledger) : Prop := forall k, 0 <= a_lamports (l k).

Definition native_write (C : crypto) (l l' : ledger) : Prop :=
  forall k,
    a_owner (l' k) = a_owner (l k) /\
    (a_owner (l k) <> system_id \/ program_signs_for C k ->
       a_data (l' k) = a_data (l k) /\ a_lamports (l k) <= a_lamports (l' k)).

Definition op_ok (C : crypto) (l : ledger) (o : op) : Prop :=
  match o with
  | OpCall E accs _ => sysvars_ok E /\ honest_metas C accs
  | OpToken E sgs _ c => sysvars_ok E /\ honest_signers C sgs /\ token_call_ok c = true
  | OpSystem sgs c => honest_signers C sgs /\ system_call_ok c
  | OpAta E sgs _ ata _ _ => sysvars_ok E /\ honest_signers C (ata :: sgs)
  | OpForeign p l' =>
      p <> xorca_id /\ p <> token_id /\ p <> system_id /\ foreign_write p l l' /\
      lamports_ok l'
  | OpNative l' => native_write C l l' /\ lamports_ok l'
  | OpPurge k => a_lamports (l k) = 0
  end.

(** A failed call changes nothing and emits nothing. *)
Definition keep (l : ledger) (r : res err ledger) : outcome :=
  match r with Ok l' => (l', []) | Err _ => (l, []) end.

Definition run_op (C : crypto) (l : ledger) (o : op) : outcome :=
  match o with
  | OpCall E accs data =>
      match process_instruction C E xorca_id accs l data with
      | Ok r => r
      | Err _ => (l, [])
      end
  | OpToken E sgs extra c => keep l (token_exec E (signs sgs) extra l c)
  | OpSystem sgs c => keep l (system_exec (signs sgs) l c)
  | OpAta E sgs payer ata wallet mint =>
      keep l (ata_create_idempotent C E (signs sgs) l payer ata wallet mint)
  | OpForeign _ l' => (l', [])
  | OpNative l' => (l', [])
  | OpPurge k => (upd l k empty_account, [])
  end.

(** A history and its event log. *)
Inductive history (C : crypto) (l0 : ledger) : list op -> ledger -> list (list byte) -> Prop :=
| history_nil : history C l0 [] l0 []
| history_step ops l evs o :
    history C l0 ops l evs -> op_ok C l o ->
    history C l0 (ops ++ [o]) (fst (run_op C l o)) (evs ++ snd (run_op C l o)).

(** The chain before the program is used: no account owned by the program holds
    data, addresses only the program can sign for are untouched (they may hold
    lamports), both mints are initialized, and the xORCA balances do not exceed
    the xORCA supply. *)
Definition holds (l : ledger) (mint k : pubkey) : Z :=
  if key_eqb (a_owner (l k)) token_id && is_ok (ta_unpack (a_data (l k)))
     && key_eqb (ta_mint (a_data (l k))) mint
  then ta_amount (a_data (l k)) else 0.

Definition sumZ (xs : list Z) : Z := fold_right Z.add 0 xs.

Definition total (l : ledger) (mint : pubkey) (ks : list pubkey) : Z :=
  sumZ (map (holds l mint) ks).

Record genesis (C : crypto) (l : ledger) : Prop := {
  gen_lamports : lamports_ok l;
  gen_no_data : forall k, a_owner (l k) = xorca_id -> all_zero (a_data (l k)) = true;
  gen_pdas : forall k, program_signs_for C k -> a_owner (l k) = system_id /\ a_data (l k) = [];
  gen_orca_owner : a_owner (l orca_mint_id) = token_id;
  gen_orca : mint_unpack (a_data (l orca_mint_id)) = Ok tt;
  gen_orca_lamports : 0 < a_lamports (l orca_mint_id);
  gen_mint_owner : a_owner (l xorca_mint_id) = token_id;
  gen_mint : mint_unpack (a_data (l xorca_mint_id)) = Ok tt;
  gen_mint_lamports : 0 < a_lamports (l xorca_mint_id);
  gen_no_native : forall k, a_owner (l k) = token_id -> ta_unpack (a_data (l k)) = Ok tt ->
    ta_mint (a_data (l k)) = xorca_mint_id -> ta_native_flag (a_data (l k)) = 0;
  gen_supply : forall ks, NoDup ks ->
    total l xorca_mint_id ks <= mint_supply (a_data (l xorca_mint_id))
}.

(** State and vault addresses differ from the two addresses that anyone may burn
    for; holds on chain (checked for [real_crypto]). *)
Definition ordinary_state_address (C : crypto) : Prop :=
  forall k b, find_state_address C = Some (k, b) -> system_or_incinerator k = false.
