(** What should happen to a transaction's instructions on their way to the runtime,
    in terms of the instructions alone. *)
From Verif Require Export Wire ClientSpec.

(** Who must sign, and which accounts may be written: the fee payer, and what any
    instruction of the transaction asks for. *)
Definition must_sign (payer : pubkey) (ixs : list built) (k : pubkey) : Prop :=
  k = payer \/
  exists b m, In b ixs /\ In m (b_accounts b) /\ m_key m = k /\ m_signer m = true.
Definition may_write (payer : pubkey) (ixs : list built) (k : pubkey) : Prop :=
  k = payer \/
  exists b m, In b ixs /\ In m (b_accounts b) /\ m_key m = k /\ m_writable m = true.
Definition is_called (ixs : list built) (k : pubkey) : Prop :=
  exists b, In b ixs /\ b_program b = k.
(** The keys a transaction lists. *)
Definition is_named (payer : pubkey) (ixs : list built) (k : pubkey) : Prop :=
  k = payer \/ is_called ixs k \/
  exists b m, In b ixs /\ In m (b_accounts b) /\ m_key m = k.
(** The runtime takes the right to write away from reserved accounts, and from called
    programs unless the upgradeable loader is listed. *)
Definition is_written (reserved : pubkey -> bool) (payer : pubkey) (ixs : list built) (k : pubkey)
  : Prop :=
  may_write payer ixs k /\ reserved k = false /\
  (is_called ixs k -> is_named payer ixs upgradeable_loader).

(** The same programs, data and accounts in the same order, each account with the
    privileges of its key. *)
Definition arrives (reserved : pubkey -> bool) (payer : pubkey) (ixs got : list built) : Prop :=
  Forall2 (fun b b' =>
    b_program b' = b_program b /\ b_data b' = b_data b /\
    Forall2 (fun m m' =>
      m_key m' = m_key m /\
      (m_signer m' = true <-> must_sign payer ixs (m_key m)) /\
      (m_writable m' = true <-> is_written reserved payer ixs (m_key m)))
      (b_accounts b) (b_accounts b')) ixs got.

(** Signatures are 64 bytes long, and those that a signer makes are accepted. *)
Definition signs_well (signature : pubkey -> list byte -> list byte)
    (verify : pubkey -> list byte -> list byte -> bool) (signers : list pubkey) : Prop :=
  forall k m, length (signature k m) = 64%nat /\
    (In k signers -> verify k m (signature k m) = true).

(** Who pays. *)
Definition is_payer (fee_payer : option pubkey) (signers : list pubkey) (payer : pubkey) : Prop :=
  fee_payer = Some payer \/ fee_payer = None /\ exists rest, signers = payer :: rest.

(** The size of a packet: [ss] lists the keys that sign, [ks] all keys. *)
Definition len_size (n : nat) : nat :=
  if (Z.of_nat n <? 128)%Z then 1%nat else if (Z.of_nat n <? 16384)%Z then 2%nat else 3%nat.
Definition list_size (n each : nat) : nat := (len_size n + n * each)%nat.
Definition call_size (b : built) : nat :=
  (1 + list_size (length (b_accounts b)) 1 + list_size (length (b_data b)) 1)%nat.
Definition packet_length (ss ks : list pubkey) (ixs : list built) : nat :=
  (list_size (length ss) 64 + 3 + list_size (length ks) 32 + 32
   + len_size (length ixs) + list_sum (map call_size ixs))%nat.
Definition lists (ks : list pubkey) (P : pubkey -> Prop) : Prop :=
  NoDup ks /\ forall k, In k ks <-> P k.

(** The transactions of the scripts: fee payer, signers and instructions.
    stake.ts:135-162, unstake.ts:164-191, withdraw.ts:166-196, set.ts:123-134,
    initialize.ts:118-126, transfer-orca.ts:112-139, transfer-orca-to-vault.ts:107-117,
    update-xorca-mint-authority.ts:76-91 *)
Inductive script_transaction (C : crypto) (E : env) (l : ledger)
  : option pubkey -> list pubkey -> list built -> Prop :=
| TxStake u n ops ixs :
    stake_script C E l u n = Some ops -> instructions_of ops = Some ixs ->
    script_transaction C E l (Some u) [u] ixs
| TxUnstake u n i ops ixs :
    unstake_script C E l u n i = Some ops -> instructions_of ops = Some ixs ->
    script_transaction C E l (Some u) [u] ixs
| TxWithdraw u i ops ixs :
    withdraw_script C E l u i = Some ops -> instructions_of ops = Some ixs ->
    script_transaction C E l (Some u) [u] ixs
| TxCooldown u c b :
    script_set_cooldown C u c = Some b -> script_transaction C E l (Some u) [u] [b]
| TxAuthority u k b :
    script_set_authority C u k = Some b -> script_transaction C E l (Some u) [u] [b]
| TxInitialize deployer authority c ops ixs :
    initialize_script C E deployer authority c = Some ops -> instructions_of ops = Some ixs ->
    script_transaction C E l None [deployer; authority] ixs
| TxTransfer u to n ops ixs :
    transfer_script C E l u to n = Some ops -> instructions_of ops = Some ixs ->
    script_transaction C E l (Some u) [u] ixs
| TxDeposit u n ops ixs :
    deposit_script C E l u n = Some ops -> instructions_of ops = Some ixs ->
    script_transaction C E l (Some u) [u] ixs
| TxMintAuthority u ops ixs :
    authority_script C E u = Some ops -> instructions_of ops = Some ixs ->
    script_transaction C E l (Some u) [u] ixs.

(** The steps of a transaction as executed: the calls of this program with the accounts
    and data that arrived. *)
Definition redelivered_op (o : op) (b : built) : op :=
  match o with OpCall E _ _ => OpCall E (b_accounts b) (b_data b) | _ => o end.
Definition redelivered (ops : list op) (got : list built) : list op :=
  map (fun p => redelivered_op (fst p) (snd p)) (combine ops got).
