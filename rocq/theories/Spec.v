(** The vocabulary of the property statements about ledgers, calls and
    executions.  Definitions only; nothing here is used by the model. *)
From Coq Require Import String.
From Verif Require Import Base58.
From Verif Require Export History.
Import List ListNotations.
Open Scope list_scope.
Open Scope Z_scope.

(** ** Accounts *)
Definition is_state (l : ledger) (k : pubkey) : Prop :=
  a_owner (l k) = xorca_id /\ st_disc (a_data (l k)) = 1.
Definition is_record (l : ledger) (k : pubkey) : Prop :=
  a_owner (l k) = xorca_id /\ pw_disc (a_data (l k)) = 2.

(** [vk] is the associated ORCA account of [sk]. *)
Definition is_vault (C : crypto) (sk vk : pubkey) : Prop :=
  exists bump, find_vault_address C sk token_id orca_mint_id = Some (vk, bump).

Definition escrow (l : ledger) (sk : pubkey) : Z := st_escrow (a_data (l sk)).
Definition cooldown (l : ledger) (sk : pubkey) : Z := st_cooldown (a_data (l sk)).
Definition authority (l : ledger) (sk : pubkey) : pubkey := st_authority (a_data (l sk)).
Definition balance (l : ledger) (k : pubkey) : Z := ta_amount (a_data (l k)).
Definition supply (l : ledger) : Z := mint_supply (a_data (l xorca_mint_id)).
(** ORCA in the vault that is not promised to pending withdrawals. *)
Definition free_orca (l : ledger) (sk vk : pubkey) : Z := balance l vk - escrow l sk.

Definition rec_owner (l : ledger) (k : pubkey) : pubkey := pw_unstaker (a_data (l k)).
Definition rec_index (l : ledger) (k : pubkey) : Z := pw_index (a_data (l k)).
Definition rec_amount (l : ledger) (k : pubkey) : Z := pw_amount (a_data (l k)).
Definition rec_time (l : ledger) (k : pubkey) : Z := pw_timestamp (a_data (l k)).

(** ** Calls *)
Definition slot (accs : list meta) (n : nat) (k : pubkey) : Prop :=
  exists m, nth_error accs n = Some m /\ m_key m = k.
Definition signed_slot (accs : list meta) (n : nat) (k : pubkey) : Prop :=
  exists m, nth_error accs n = Some m /\ m_key m = k /\ m_signer m = true.

(** [data] starts with the encoding of [i]. *)
Definition encodes (data : list byte) (i : instruction) : Prop :=
  instruction_ok i /\ exists rest, data = instruction_bytes i ++ rest.

(** Step [o] is a successful call of [i] with accounts [accs] at clock [t]. *)
Definition performs (C : crypto) (l : ledger) (o : op) (i : instruction) (accs : list meta) (t : Z)
  : Prop :=
  exists E data,
    o = OpCall E accs data /\ encodes data i /\ now E = t /\
    is_ok (process_instruction C E xorca_id accs l data) = true.

(** ** Executions *)
Definition reaches (C : crypto) (l : ledger) : Prop :=
  exists l0 ops evs, genesis C l0 /\ history C l0 ops l evs.

(** The ledger after some steps. *)
Definition after (C : crypto) (l : ledger) (ops : list op) : ledger :=
  fold_left (fun l o => fst (run_op C l o)) ops l.

(** Owner and bytes of [k] are the same after each of the steps. *)
Definition unchanged_during (C : crypto) (l : ledger) (ops : list op) (k : pubkey) : Prop :=
  forall n, a_owner (after C l (firstn n ops) k) = a_owner (l k) /\
            a_data (after C l (firstn n ops) k) = a_data (l k).

(** The strings hashed while looking for the addresses of the State account, of
    its vault and of the records of the users [us].  There are 256 for the State
    account, 256 for its vault and 65536 for each user, all of known form, so no
    counting argument makes two of them collide. *)
Inductive address_input (C : crypto) (us : pubkey -> Prop) : list byte -> Prop :=
| InputState b : address_input C us
    (str_bytes "state"%string ++ b :: key_bytes xorca_id ++ str_bytes "ProgramDerivedAddress"%string)
| InputVault sk sb b : find_state_address C = Some (sk, sb) -> address_input C us
    (key_bytes sk ++ key_bytes token_id ++ key_bytes orca_mint_id ++
     b :: key_bytes ata_id ++ str_bytes "ProgramDerivedAddress"%string)
| InputRecord u i b : us u -> address_input C us
    (str_bytes "pending_withdraw"%string ++ key_bytes u ++ i :: b :: key_bytes xorca_id ++
     str_bytes "ProgramDerivedAddress"%string).
(** Two of them are different and have the same hash. *)
Definition collision (C : crypto) (us : pubkey -> Prop) : Prop :=
  exists a b, address_input C us a /\ address_input C us b /\ a <> b /\ sha256 C a = sha256 C b.
(** [un] and everyone who has a record. *)
Definition claimants (l : ledger) (un u : pubkey) : Prop :=
  u = un \/ exists k, is_record l k /\ rec_owner l k = u.

(** ** What a step does to a record *)
(** [o], run in [l], creates the record at [k] with the advertised contents. *)
Definition creates (C : crypto) (l : ledger) (o : op) (sk vk k : pubkey) : Prop :=
  exists x i accs t un,
    performs C l o (Unstake x i) accs t /\
    signed_slot accs 0 un /\ slot accs 2 k /\
    ~ is_record l k /\
    let l' := fst (run_op C l o) in
    is_record l' k /\ rec_owner l' k = un /\ rec_index l' k = i /\
    rec_time l' k = t + cooldown l sk /\
    rec_amount l' k = x * (free_orca l sk vk + 100) / (supply l + 100) /\ 0 < rec_amount l' k.

(** [o], run in [l], is a Withdraw, at clock [t], of the record at [k]. *)
Definition pays (C : crypto) (l : ledger) (o : op) (k : pubkey) : Prop :=
  exists i accs t un,
    performs C l o (Withdraw i) accs t /\ signed_slot accs 0 un /\ slot accs 2 k /\
    is_record l k /\ rec_time l k <= t /\
    ~ is_record (fst (run_op C l o)) k.

(** ** Exact changes *)
(** [d'] has the length of [d] and differs at most inside the byte ranges
    (offset, length) of [rs]. *)
Definition same_bytes_except (rs : list (nat * nat)) (d d' : list byte) : Prop :=
  length d' = length d /\
  forall i, (forall off n, In (off, n) rs -> ~ (off <= i < off + n)%nat) ->
    nth_error d' i = nth_error d i.

(** Byte ranges of single fields. *)
Definition amount_field : nat * nat := (64, 8)%nat.       (* token account: amount *)
Definition delegate_tag : nat * nat := (72, 4)%nat.       (* token account: is a delegate set *)
Definition allowance_field : nat * nat := (121, 8)%nat.   (* token account: delegated amount *)
Definition supply_field : nat * nat := (36, 8)%nat.       (* mint: supply *)
Definition escrow_field : nat * nat := (8, 8)%nat.        (* State: escrowed_orca_amount *)
Definition cooldown_field : nat * nat := (16, 8)%nat.     (* State: cool_down_period_s *)
Definition authority_field : nat * nat := (24, 32)%nat.   (* State: update_authority *)

(** The fields a transfer or burn out of token account [k] may touch when
    [owner] signs: the amount, and the allowance if the owner made themself the
    delegate. *)
Definition spend_fields (l : ledger) (k owner : pubkey) : list (nat * nat) :=
  if ta_has_delegate (a_data (l k)) owner then [amount_field; delegate_tag; allowance_field]
  else [amount_field].

(** An ordinary token account (not wrapped SOL, whose lamports move with it). *)
Definition ordinary (l : ledger) (k : pubkey) : Prop := ta_native_flag (a_data (l k)) = 0.

(** A usable token account of [mint] owned by [owner]. *)
Definition token_account_of (l : ledger) (k mint owner : pubkey) : Prop :=
  a_owner (l k) = token_id /\ ta_unpack (a_data (l k)) = Ok tt /\
  ta_mint (a_data (l k)) = mint /\ ta_owner (a_data (l k)) = owner.

(** Bytes owned by the token program that read as an account of [mint] and [owner]. *)
Definition reads_as_account (l : ledger) (k mint owner : pubkey) : Prop :=
  a_owner (l k) = token_id /\ (165 <= length (a_data (l k)))%nat /\
  ta_mint (a_data (l k)) = mint /\ ta_owner (a_data (l k)) = owner.

(** ** The event log *)
(** [b] is the complete encoding of event [e]. *)
Definition logs (b : list byte) (e : event) : Prop := read_event b = Some (e, []).

(** ORCA promised, ORCA paid, xORCA minted and xORCA burned according to one log entry. *)
Definition ev_promised (b : list byte) : Z :=
  match read_event b with Some (EvUnstake _ _ _ _ w _ _, _) => w | _ => 0 end.
Definition ev_paid (b : list byte) : Z :=
  match read_event b with Some (EvWithdraw _ w _ _, _) => w | _ => 0 end.
Definition ev_minted (b : list byte) : Z :=
  match read_event b with Some (EvStake _ _ _ _ m, _) => m | _ => 0 end.
Definition ev_burned (b : list byte) : Z :=
  match read_event b with Some (EvUnstake x _ _ _ _ _ _, _) => x | _ => 0 end.
Definition over (f : list byte -> Z) (log : list (list byte)) : Z := sumZ (map f log).

Definition not_a_call (o : op) : Prop := forall E accs data, o <> OpCall E accs data.

(** xORCA destroyed by steps that are not calls of the program (token burns). *)
Fixpoint burned_outside (C : crypto) (l : ledger) (ops : list op) : Z :=
  match ops with
  | [] => 0
  | o :: ops =>
      let l' := fst (run_op C l o) in
      match o with OpCall _ _ _ => 0 | _ => supply l - supply l' end + burned_outside C l' ops
  end.

(** ** Account lists *)
(** Entry [n] of [accs] is account [k], a signer if [s], writable if [w]; more
    privileges and more accounts than listed are allowed. *)
Definition fills (accs : list meta) (rs : list (pubkey * bool * bool)) : Prop :=
  forall n k s w, nth_error rs n = Some (k, s, w) ->
    exists m, nth_error accs n = Some m /\ m_key m = k /\
      (s = true -> m_signer m = true) /\ (w = true -> m_writable m = true).

(** The documented account lists (README and lib.rs): key, signer, writable. *)
Definition stake_roles (staker vault so sx state : pubkey) : list (pubkey * bool * bool) :=
  [(staker, true, true); (vault, false, true); (so, false, true); (sx, false, true);
   (xorca_mint_id, false, true); (state, false, false); (orca_mint_id, false, false);
   (token_id, false, false)].
Definition unstake_roles (un state rec ux vault : pubkey) : list (pubkey * bool * bool) :=
  [(un, true, true); (state, false, true); (rec, false, true); (ux, false, true);
   (xorca_mint_id, false, true); (orca_mint_id, false, false); (vault, false, false);
   (system_id, false, false); (token_id, false, false)].
Definition withdraw_roles (un state rec uo vault : pubkey) : list (pubkey * bool * bool) :=
  [(un, true, true); (state, false, true); (rec, false, true); (uo, false, true);
   (vault, false, true); (orca_mint_id, false, false); (system_id, false, false);
   (token_id, false, false)].
Definition init_roles (payer auth state vault : pubkey) : list (pubkey * bool * bool) :=
  [(payer, true, true); (auth, true, true); (state, false, true); (vault, false, true);
   (xorca_mint_id, false, false); (orca_mint_id, false, false); (system_id, false, false);
   (token_id, false, false); (ata_id, false, false)].
Definition set_roles (auth state : pubkey) : list (pubkey * bool * bool) :=
  [(auth, true, true); (state, false, true)].

(** ** Totals *)
Definition lamport_total (l : ledger) (ks : list pubkey) : Z := sumZ (map (fun k => a_lamports (l k)) ks).
(** Every account of the call is in [ks]. *)
Definition covers (ks : list pubkey) (accs : list meta) : Prop :=
  NoDup ks /\ forall m, In m accs -> In (m_key m) ks.

(** The hard-coded deployer is a key pair, not a derived address; holds on chain
    (checked for [real_crypto]). *)
Definition deployer_has_key (C : crypto) : Prop := on_curve C deployer_address = true.

(** ** Conditions for success *)
(** A usable token account that is not frozen. *)
Definition active_account (l : ledger) (k mint owner : pubkey) : Prop :=
  token_account_of l k mint owner /\ ta_state (a_data (l k)) = 1.
(** The owner has not made themself the delegate (whose allowance would count). *)
Definition no_self_delegate (l : ledger) (k owner : pubkey) : Prop :=
  ta_has_delegate (a_data (l k)) owner = false.
(** A plain wallet. *)
Definition wallet (l : ledger) (k : pubkey) : Prop := a_owner (l k) = system_id /\ a_data (l k) = [].

(** What Initialize expects of the two mints. *)
Definition mints_ready (l : ledger) (sk : pubkey) : Prop :=
  a_owner (l xorca_mint_id) = token_id /\
  mint_unpack (a_data (l xorca_mint_id)) = Ok tt /\
  mint_auth_flag (a_data (l xorca_mint_id)) = 1 /\ mint_auth (a_data (l xorca_mint_id)) = sk /\
  mint_freeze_flag (a_data (l xorca_mint_id)) = 0 /\ mint_freeze (a_data (l xorca_mint_id)) = zero_key /\
  supply l = 0 /\ mint_decimals (a_data (l xorca_mint_id)) = 6 /\
  mint_decimals (a_data (l orca_mint_id)) = 6.
