(** Vocabulary for statements about the clients.  Definitions only. *)
From Coq Require Import Sorted.
From Verif Require Export Client Rpc Spec.

(** Some builder of the Rust client, the JS client or the scripts, given
    well-typed inputs, produces [b]; [i] is the instruction asked for. *)
Inductive sends (C : crypto) : built -> instruction -> Prop :=
| RustStake k0 k1 k2 k3 k4 k5 k6 k7 rem a : is_u64 a ->
    sends C (rust_stake k0 k1 k2 k3 k4 k5 k6 k7 rem a) (Stake a)
| RustUnstake k0 k1 k2 k3 k4 k5 k6 k7 k8 rem a i : is_u64 a -> is_u8 i ->
    sends C (rust_unstake k0 k1 k2 k3 k4 k5 k6 k7 k8 rem a i) (Unstake a i)
| RustWithdraw k0 k1 k2 k3 k4 k5 k6 k7 rem i : is_u8 i ->
    sends C (rust_withdraw k0 k1 k2 k3 k4 k5 k6 k7 rem i) (Withdraw i)
| RustInitialize k0 k1 k2 k3 k4 k5 k6 k7 k8 rem c : is_i64 c ->
    sends C (rust_initialize k0 k1 k2 k3 k4 k5 k6 k7 k8 rem c) (Initialize c)
| RustSet k0 k1 rem u : instruction_ok (Set_ u) ->
    sends C (rust_set k0 k1 rem u) (Set_ u)
| JsStake k0 k1 k2 k3 k4 k5 k6 k7 a b :
    js_stake k0 k1 k2 k3 k4 k5 k6 k7 a = Some b -> sends C b (Stake a)
| JsUnstake k0 k1 k2 k3 k4 k5 k6 k7 k8 a i b :
    js_unstake k0 k1 k2 k3 k4 k5 k6 k7 k8 a i = Some b -> sends C b (Unstake a (js_trunc i))
| JsWithdraw k0 k1 k2 k3 k4 k5 k6 k7 i b :
    js_withdraw k0 k1 k2 k3 k4 k5 k6 k7 i = Some b -> sends C b (Withdraw (js_trunc i))
| JsInitialize k0 k1 k2 k3 k4 k5 k6 k7 k8 c b :
    js_initialize k0 k1 k2 k3 k4 k5 k6 k7 k8 c = Some b -> sends C b (Initialize c)
| JsSet k0 k1 u b :
    js_set k0 k1 u = Some b -> sends C b (Set_ u)
| ScriptStake staker a b :
    script_stake C staker a = Some b -> sends C b (Stake a)
| ScriptUnstake staker a i b :
    script_unstake C staker a i = Some b -> sends C b (Unstake a (js_trunc i))
| ScriptWithdraw staker i b :
    script_withdraw C staker i = Some b -> sends C b (Withdraw (js_trunc i))
| ScriptInitialize deployer authority c b :
    script_initialize C deployer authority (JInt c) = Some b -> sends C b (Initialize c)
| ScriptCooldown payer c b :
    script_set_cooldown C payer (JInt c) = Some b -> sends C b (Set_ (UpdateCoolDownPeriod c))
| ScriptAuthority payer k b :
    script_set_authority C payer k = Some b -> sends C b (Set_ (UpdateUpdateAuthority k)).

(** What the program receives: the listed accounts in order, possibly with more
    privileges (a transaction merges the flags of all its instructions). *)
Definition delivered (sent accs : list meta) : Prop :=
  Forall2 (fun m m' => m_key m' = m_key m /\ (m_signer m = true -> m_signer m' = true) /\
                       (m_writable m = true -> m_writable m' = true)) sent accs.

(** The handler of a decoded instruction. *)
Definition handle (C : crypto) (E : env) (accs : list meta) (l : ledger) (i : instruction)
  : res err outcome :=
  match i with
  | Initialize c => initialize_process C E accs l c
  | Stake a => stake_process C accs l a
  | Unstake a i => unstake_process C E accs l a i
  | Withdraw i => withdraw_process C E accs l i
  | Set_ u => set_process C accs l u
  end.

(** Tag and arguments of an instruction, in declaration order. *)
Definition instruction_fields (i : instruction) : Z * list fval :=
  match i with
  | Stake a => (0, [VInt a])
  | Unstake a x => (1, [VInt a; VInt x])
  | Withdraw x => (2, [VInt x])
  | Initialize c => (3, [VInt c])
  | Set_ (UpdateCoolDownPeriod c) => (4, [VInt 0; VInt c])
  | Set_ (UpdateUpdateAuthority k) => (4, [VInt 1; VKey k])
  end.

(** The address the Rust client, the JS client and the scripts all derive for the
    State account, for its vault and for the record of a staker and index. *)
Definition client_state (C : crypto) (k : pubkey) : Prop :=
  exists b, rust_find_state C = Some (k, b) /\ js_find_state C = Some (k, b) /\ script_state C = Some k.
Definition client_vault (C : crypto) (sk k : pubkey) : Prop :=
  exists b, rust_find_vault C sk token_id orca_mint_id = Some (k, b) /\
            js_find_vault C sk token_id orca_mint_id = Some (k, b) /\ script_vault C sk = Some k.
Definition client_record (C : crypto) (staker : pubkey) (i : Z) (k : pubkey) : Prop :=
  exists b, rust_find_pending C staker i = Some (k, b) /\ js_find_pending C staker (JInt i) = Some (k, b) /\
            script_pending C staker (JInt i) = Some k.
(** [k] is the associated token account of [owner] for [mint]. *)
Definition is_ata (C : crypto) (owner mint k : pubkey) : Prop :=
  exists b, find_program_address C [key_bytes owner; key_bytes token_id; key_bytes mint] ata_id = Some (k, b).

(** The decoded fields [v] are those of record [k] (paddings and bump are whatever
    the account holds). *)
Definition shows (l : ledger) (k : pubkey) (v : list fval) : Prop :=
  exists pad1 bump pad2,
    v = [VInt 2; VBytes pad1; VInt bump; VInt (rec_index l k); VKey (rec_owner l k);
         VInt (rec_amount l k); VInt (rec_time l k); VBytes pad2].
Definition shown_index (v : list fval) : Z := match nth_error v 3 with Some (VInt i) => i | _ => -1 end.
(** [vs] is the list of [staker]'s records with index below [n]: nothing else,
    none missing, each once, by increasing index. *)
Definition lists_records (l : ledger) (staker : pubkey) (n : Z) (vs : list (list fval)) : Prop :=
  (forall v, In v vs -> exists k, is_record l k /\ rec_owner l k = staker /\ 0 <= rec_index l k < n /\ shows l k v) /\
  (forall k, is_record l k -> rec_owner l k = staker -> rec_index l k < n -> exists v, In v vs /\ shows l k v) /\
  StronglySorted Z.lt (map shown_index vs).
(** Every index below [n] has an address (a bump exists for it). *)
Definition addressable (C : crypto) (staker : pubkey) (n : Z) : Prop :=
  forall i, 0 <= i < n -> exists k, client_record C staker i k.

(** What pending-withdraws.ts should print for record [k] at time [clock], given the
    cooldown [cool]. *)
Definition line_of (l : ledger) (k : pubkey) (clock cool : Z) : script_line :=
  ScriptLine (rec_index l k) k (rec_amount l k) (rec_time l k) (rec_time l k <=? clock)
    (Z.max 0 (rec_time l k - clock)) (clock - (rec_time l k - cool)).
