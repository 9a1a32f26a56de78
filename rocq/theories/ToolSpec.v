(** Vocabulary for statements about the builders, parsers and scripts.  Definitions only. *)
From Coq Require Import String.
From Verif Require Export Builders ClientSpec Scripts.
Import List ListNotations.
Open Scope list_scope.
Open Scope Z_scope.

(** A Rust [Cpi] of the client, given the documented accounts and the remaining
    accounts [rem]; [i] is the instruction, [rs] the documented account list. *)
Inductive rust_cpi (rem : list extra) : built * list pubkey -> instruction -> list (pubkey * bool * bool) -> Prop :=
| CpiStake st vk so sx sk a : is_u64 a ->
    rust_cpi rem (rust_stake_cpi xorca_id st vk so sx xorca_mint_id sk orca_mint_id token_id rem a)
      (Stake a) (stake_roles st vk so sx sk)
| CpiUnstake un sk k ux vk a i : is_u64 a -> is_u8 i ->
    rust_cpi rem (rust_unstake_cpi xorca_id un sk k ux xorca_mint_id orca_mint_id vk system_id token_id rem a i)
      (Unstake a i) (unstake_roles un sk k ux vk)
| CpiWithdraw un sk k uo vk i : is_u8 i ->
    rust_cpi rem (rust_withdraw_cpi xorca_id un sk k uo vk orca_mint_id system_id token_id rem i)
      (Withdraw i) (withdraw_roles un sk k uo vk)
| CpiInitialize payer auth sk vk c : is_i64 c ->
    rust_cpi rem (rust_initialize_cpi xorca_id payer auth sk vk xorca_mint_id orca_mint_id system_id token_id
        ata_id rem c)
      (Initialize c) (init_roles payer auth sk vk)
| CpiSet auth sk u : instruction_ok (Set_ u) ->
    rust_cpi rem (rust_set_cpi xorca_id auth sk rem u) (Set_ u) (set_roles auth sk).

(** The same through a [CpiBuilder] with every field set; [added] lists the arguments
    (account, is_writable, is_signer) of [add_remaining_account]. *)
Inductive rust_cpi_builder (added : list (pubkey * bool * bool)) :
    option (built * list pubkey) -> instruction -> list (pubkey * bool * bool) -> Prop :=
| CpiBuilderStake st vk so sx sk a : is_u64 a ->
    rust_cpi_builder added
      (rust_stake_cpi_builder xorca_id (Some st) (Some vk) (Some so) (Some sx) (Some xorca_mint_id) (Some sk)
         (Some orca_mint_id) (Some token_id) added (Some a))
      (Stake a) (stake_roles st vk so sx sk)
| CpiBuilderUnstake un sk k ux vk a i : is_u64 a -> is_u8 i ->
    rust_cpi_builder added
      (rust_unstake_cpi_builder xorca_id (Some un) (Some sk) (Some k) (Some ux) (Some xorca_mint_id)
         (Some orca_mint_id) (Some vk) (Some system_id) (Some token_id) added (Some a) (Some i))
      (Unstake a i) (unstake_roles un sk k ux vk)
| CpiBuilderWithdraw un sk k uo vk i : is_u8 i ->
    rust_cpi_builder added
      (rust_withdraw_cpi_builder xorca_id (Some un) (Some sk) (Some k) (Some uo) (Some vk) (Some orca_mint_id)
         (Some system_id) (Some token_id) added (Some i))
      (Withdraw i) (withdraw_roles un sk k uo vk)
| CpiBuilderInitialize payer auth sk vk c : is_i64 c ->
    rust_cpi_builder added
      (rust_initialize_cpi_builder xorca_id (Some payer) (Some auth) (Some sk) (Some vk) (Some xorca_mint_id)
         (Some orca_mint_id) (Some system_id) (Some token_id) (Some ata_id) added (Some c))
      (Initialize c) (init_roles payer auth sk vk)
| CpiBuilderSet auth sk u : instruction_ok (Set_ u) ->
    rust_cpi_builder added (rust_set_cpi_builder xorca_id (Some auth) (Some sk) added (Some u))
      (Set_ u) (set_roles auth sk).

(** A program that was given [accounts] and signs for [pdas] may pass on account [k]
    as a signer if [s] and writable if [w]. *)
Definition may_pass (accounts : list meta) (pdas : list pubkey) (r : pubkey * bool * bool) : Prop :=
  let '(k, s, w) := r in
  (exists m, In m accounts /\ m_key m = k) /\
  (s = true -> In k pdas \/ exists m, In m accounts /\ m_key m = k /\ m_signer m = true) /\
  (w = true -> exists m, In m accounts /\ m_key m = k /\ m_writable m = true).
(** The seed lists are those of [pdas], for program [caller]. *)
Definition seeds_of (C : crypto) (caller : pubkey) (seeds : list (list (list byte))) (pdas : list pubkey) : Prop :=
  Forall2 (fun s k => create_program_address C s caller = Some k) seeds pdas.

(** The parser returned account [k] under this name. *)
Definition named (p : js_parsed) (name : string) (k : pubkey) : Prop :=
  exists m, js_named p name = Some m /\ m_key m = k.

(** The balance a server shows for an account ([0] if the account is missing). *)
Definition shown_balance (l : ledger) (k : pubkey) : Z :=
  if a_lamports (l k) =? 0 then 0 else balance l k.

(** [k] is a usable token account, or missing, with the rent of one in [payer]'s wallet. *)
Definition can_open (E : env) (l : ledger) (payer k mint owner : pubkey) : Prop :=
  active_account l k mint owner \/
  (wallet l k /\ a_lamports (l k) = 0 /\ wallet l payer /\
   Z.max (rent_min E 165) 1 <= a_lamports (l payer) <= u64_max).

(** Byte ranges of a mint: the tag and the key of the mint authority. *)
Definition mint_authority_fields : list (nat * nat) := [(0, 4); (4, 32)]%nat.
