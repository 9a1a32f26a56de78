(** Model of the SPL token program (TokenkegQfe...), byte level.

    The token program is not part of /repo; xORCA's effects are its effects
    (/repo/solana-program/src/instructions/stake.rs:110-126, unstake.rs:140-147,
    withdraw.rs:122-129), so it is modelled here from its published behaviour
    and belongs to the trusted base.  The account layouts are the ones in
    /repo/solana-program/src/cpi/token/state.rs.

    Simplifications: instructions appear after decoding; the [*Checked] and [2]/[3]
    variants reduce to the base variants; amount-to-UI and data-size queries have
    no effect and are omitted.  [sg] is the set of signing keys, [extra] the
    additional multisig signer accounts. *)
From Verif Require Export Solana.

(** ** Token account layout: mint 0, owner 32, amount 64, delegate option 72/76,
    state 108, is_native option 109/113, delegated_amount 121, close authority
    option 129/133; 165 bytes.
    /repo/solana-program/src/cpi/token/state.rs:32-44 *)
Definition ta_len : Z := 165.
Definition ta_mint (d : list byte) : pubkey := get_key 0 d.
Definition ta_owner (d : list byte) : pubkey := get_key 32 d.
Definition ta_amount (d : list byte) : Z := get_u64 64 d.
Definition ta_delegate_flag (d : list byte) : Z := get_u32 72 d.
Definition ta_delegate (d : list byte) : pubkey := get_key 76 d.
Definition ta_state (d : list byte) : Z := get_u8 108 d.
Definition ta_native_flag (d : list byte) : Z := get_u32 109 d.
Definition ta_native_reserve (d : list byte) : Z := get_u64 113 d.
Definition ta_delegated (d : list byte) : Z := get_u64 121 d.
Definition ta_close_flag (d : list byte) : Z := get_u32 129 d.
Definition ta_close (d : list byte) : pubkey := get_key 133 d.

(** ** Mint layout: mint authority option 0/4, supply 36, decimals 44,
    is_initialized 45, freeze authority option 46/50; 82 bytes.
    /repo/solana-program/src/cpi/token/state.rs:4-13 *)
Definition mint_len : Z := 82.
Definition mint_auth_flag (d : list byte) : Z := get_u32 0 d.
Definition mint_auth (d : list byte) : pubkey := get_key 4 d.
Definition mint_supply (d : list byte) : Z := get_u64 36 d.
Definition mint_decimals (d : list byte) : Z := get_u8 44 d.
Definition mint_init (d : list byte) : Z := get_u8 45 d.
Definition mint_freeze_flag (d : list byte) : Z := get_u32 46 d.
Definition mint_freeze (d : list byte) : pubkey := get_key 50 d.

(** ** Multisig layout: m 0, n 1, is_initialized 2, signers from 3; 355 bytes. *)
Definition multisig_len : Z := 355.

Definition flag_ok (z : Z) : bool := (z =? 0) || (z =? 1).

(** [Account::unpack_unchecked] succeeds. *)
Definition ta_wf (d : list byte) : bool :=
  (zlen d =? ta_len) && flag_ok (ta_delegate_flag d) && (ta_state d <=? 2)
  && flag_ok (ta_native_flag d) && flag_ok (ta_close_flag d).

(** [Mint::unpack_unchecked] succeeds. *)
Definition mint_wf (d : list byte) : bool :=
  (zlen d =? mint_len) && flag_ok (mint_auth_flag d) && (mint_init d <=? 1)
  && flag_ok (mint_freeze_flag d).

(** [Account::unpack]: well-formed and initialized. *)
Definition ta_unpack (d : list byte) : res err unit :=
  check? fail_if (negb (ta_wf d)) (EToken TE_InvalidAccountData) in
  fail_if (ta_state d =? 0) (EToken TE_Uninitialized).

Definition mint_unpack (d : list byte) : res err unit :=
  check? fail_if (negb (mint_wf d)) (EToken TE_InvalidAccountData) in
  fail_if (mint_init d =? 0) (EToken TE_Uninitialized).

(** Only accounts owned by the token program can be written by it (runtime rule,
    or [check_program_account] for zero amounts). *)
Definition token_owned (l : ledger) (k : pubkey) : res err unit :=
  fail_if (negb (key_eqb (a_owner (l k)) token_id)) (EToken TE_IncorrectProgramId).

(** m-of-n check of a multisig account. *)
Definition multisig_key (i : nat) (d : list byte) : pubkey := get_key (3 + 32 * i) d.
Definition multisig_matches (d : list byte) (extra : list pubkey) : Z :=
  zlen (filter (fun i => existsb (key_eqb (multisig_key i d)) extra)
               (seq 0 (Nat.min (Z.to_nat (get_u8 1 d)) 11))).

(** [Processor::validate_owner] *)
Definition validate_owner (l : ledger) (sg : pubkey -> bool) (extra : list pubkey)
    (expected authority : pubkey) : res err unit :=
  check? fail_if (negb (key_eqb expected authority)) (EToken TE_OwnerMismatch) in
  let d := a_data (l authority) in
  if key_eqb (a_owner (l authority)) token_id && (zlen d =? multisig_len) then
    check? fail_if (negb (get_u8 2 d =? 1)) (EToken TE_Uninitialized) in
    check? fail_if (negb (forallb sg extra)) (EToken TE_MissingSignature) in
    fail_if (multisig_matches d extra <? get_u8 0 d) (EToken TE_MissingSignature)
  else fail_if (negb (sg authority)) (EToken TE_MissingSignature).

Definition ta_frozen (d : list byte) : bool := ta_state d =? 2.
Definition ta_is_native (d : list byte) : bool := ta_native_flag d =? 1.
Definition ta_has_delegate (d : list byte) (k : pubkey) : bool :=
  (ta_delegate_flag d =? 1) && key_eqb (ta_delegate d) k.

Definition set_amount (v : Z) (d : list byte) : list byte := set_u64 64 v d.
Definition set_supply (v : Z) (d : list byte) : list byte := set_u64 36 v d.

(** Spending authorisation shared by Transfer and Burn: the delegate (bounded by
    and consuming the delegated amount) or else the owner.  Returns the new
    account data before the amount changes. *)
Definition spend_auth (l : ledger) (sg : pubkey -> bool) (extra : list pubkey)
    (d : list byte) (authority : pubkey) (amount : Z) (consume : bool) : res err (list byte) :=
  if ta_has_delegate d authority then
    check? validate_owner l sg extra (ta_delegate d) authority in
    check? fail_if (ta_delegated d <? amount) (EToken TE_InsufficientFunds) in
    if consume then
      let d1 := set_u64 121 (ta_delegated d - amount) d in
      Ok (if ta_delegated d - amount =? 0 then set_u32 72 0 d1 else d1)
    else Ok d
  else
    check? validate_owner l sg extra (ta_owner d) authority in
    Ok d.

(** [Processor::process_transfer] *)
Definition token_transfer (sg : pubkey -> bool) (extra : list pubkey) (l : ledger)
    (from to authority : pubkey) (amount : Z) : res err ledger :=
  let sd := a_data (l from) in
  let dd := a_data (l to) in
  check? token_owned l from in
  check? token_owned l to in
  check? ta_unpack sd in
  check? ta_unpack dd in
  check? fail_if (ta_frozen sd || ta_frozen dd) (EToken TE_AccountFrozen) in
  check? fail_if (ta_amount sd <? amount) (EToken TE_InsufficientFunds) in
  check? fail_if (negb (key_eqb (ta_mint sd) (ta_mint dd))) (EToken TE_MintMismatch) in
  let self := key_eqb from to in
  let? sd1 := spend_auth l sg extra sd authority amount (negb self) in
  if self then Ok l
  else
    check? fail_if (u64_max <? ta_amount dd + amount) (EToken TE_Overflow) in
    let l1 := set_data l from (set_amount (ta_amount sd - amount) sd1) in
    let l2 := set_data l1 to (set_amount (ta_amount dd + amount) dd) in
    if ta_is_native sd then
      check? fail_if (a_lamports (l from) <? amount) (EToken TE_Overflow) in
      check? fail_if (u64_max <? a_lamports (l to) + amount) (EToken TE_Overflow) in
      Ok (set_lamports (set_lamports l2 from (a_lamports (l from) - amount))
                       to (a_lamports (l to) + amount))
    else Ok l2.

(** [Processor::process_mint_to] *)
Definition token_mint_to (sg : pubkey -> bool) (extra : list pubkey) (l : ledger)
    (mint to authority : pubkey) (amount : Z) : res err ledger :=
  let md := a_data (l mint) in
  let dd := a_data (l to) in
  check? token_owned l mint in
  check? token_owned l to in
  check? ta_unpack dd in
  check? fail_if (ta_frozen dd) (EToken TE_AccountFrozen) in
  check? fail_if (ta_is_native dd) (EToken TE_NativeNotSupported) in
  check? fail_if (negb (key_eqb mint (ta_mint dd))) (EToken TE_MintMismatch) in
  check? mint_unpack md in
  check? fail_if (mint_auth_flag md =? 0) (EToken TE_FixedSupply) in
  check? validate_owner l sg extra (mint_auth md) authority in
  check? fail_if (u64_max <? ta_amount dd + amount) (EToken TE_Overflow) in
  check? fail_if (u64_max <? mint_supply md + amount) (EToken TE_Overflow) in
  let l1 := set_data l to (set_amount (ta_amount dd + amount) dd) in
  Ok (set_data l1 mint (set_supply (mint_supply md + amount) md)).

Definition system_or_incinerator (k : pubkey) : bool :=
  key_eqb k system_id || key_eqb k incinerator_id.

(** [Processor::process_burn]; accounts owned by the system program or the
    incinerator need no authority. *)
Definition token_burn (sg : pubkey -> bool) (extra : list pubkey) (l : ledger)
    (from mint authority : pubkey) (amount : Z) : res err ledger :=
  let sd := a_data (l from) in
  let md := a_data (l mint) in
  check? token_owned l from in
  check? token_owned l mint in
  check? ta_unpack sd in
  check? mint_unpack md in
  check? fail_if (ta_frozen sd) (EToken TE_AccountFrozen) in
  check? fail_if (ta_is_native sd) (EToken TE_NativeNotSupported) in
  check? fail_if (ta_amount sd <? amount) (EToken TE_InsufficientFunds) in
  check? fail_if (negb (key_eqb mint (ta_mint sd))) (EToken TE_MintMismatch) in
  let? sd1 := (if system_or_incinerator (ta_owner sd) then Ok sd
               else spend_auth l sg extra sd authority amount true) in
  check? fail_if (mint_supply md <? amount) (EToken TE_Overflow) in
  let l1 := set_data l from (set_amount (ta_amount sd - amount) sd1) in
  Ok (set_data l1 mint (set_supply (mint_supply md - amount) md)).

(** [Processor::process_approve] *)
Definition token_approve (sg : pubkey -> bool) (extra : list pubkey) (l : ledger)
    (source delegate authority : pubkey) (amount : Z) : res err ledger :=
  let sd := a_data (l source) in
  check? token_owned l source in
  check? ta_unpack sd in
  check? fail_if (ta_frozen sd) (EToken TE_AccountFrozen) in
  check? validate_owner l sg extra (ta_owner sd) authority in
  Ok (set_data l source (set_u64 121 amount (set_key 76 delegate (set_u32 72 1 sd)))).

(** [Processor::process_revoke] *)
Definition token_revoke (sg : pubkey -> bool) (extra : list pubkey) (l : ledger)
    (source authority : pubkey) : res err ledger :=
  let sd := a_data (l source) in
  check? token_owned l source in
  check? ta_unpack sd in
  check? fail_if (ta_frozen sd) (EToken TE_AccountFrozen) in
  check? validate_owner l sg extra (ta_owner sd) authority in
  Ok (set_data l source (set_u64 121 0 (set_u32 72 0 sd))).

Inductive authority_type := MintTokens | FreezeAccount | AccountOwner | CloseAuthority.

(** Packing a [COption<Pubkey>] over existing bytes: [None] clears the tag only. *)
Definition pack_option_key (off : nat) (o : option pubkey) (d : list byte) : list byte :=
  match o with
  | Some k => set_key (off + 4) k (set_u32 off 1 d)
  | None => set_u32 off 0 d
  end.

(** [Processor::process_set_authority] *)
Definition token_set_authority (sg : pubkey -> bool) (extra : list pubkey) (l : ledger)
    (k authority : pubkey) (ty : authority_type) (new : option pubkey) : res err ledger :=
  let d := a_data (l k) in
  check? token_owned l k in
  if zlen d =? ta_len then
    check? ta_unpack d in
    check? fail_if (ta_frozen d) (EToken TE_AccountFrozen) in
    match ty with
    | AccountOwner =>
        check? validate_owner l sg extra (ta_owner d) authority in
        match new with
        | None => Err (EToken TE_InvalidState)
        | Some o =>
            let d1 := set_u64 121 0 (set_u32 72 0 (set_key 32 o d)) in
            Ok (set_data l k (if ta_is_native d then set_u32 129 0 d1 else d1))
        end
    | CloseAuthority =>
        let cur := if ta_close_flag d =? 1 then ta_close d else ta_owner d in
        check? validate_owner l sg extra cur authority in
        Ok (set_data l k (pack_option_key 129 new d))
    | _ => Err (EToken TE_AuthorityTypeNotSupported)
    end
  else if zlen d =? mint_len then
    check? mint_unpack d in
    match ty with
    | MintTokens =>
        check? fail_if (mint_auth_flag d =? 0) (EToken TE_FixedSupply) in
        check? validate_owner l sg extra (mint_auth d) authority in
        Ok (set_data l k (pack_option_key 0 new d))
    | FreezeAccount =>
        check? fail_if (mint_freeze_flag d =? 0) (EToken TE_MintCannotFreeze) in
        check? validate_owner l sg extra (mint_freeze d) authority in
        Ok (set_data l k (pack_option_key 46 new d))
    | _ => Err (EToken TE_AuthorityTypeNotSupported)
    end
  else Err (EToken TE_InvalidAccountData).

(** [Processor::process_close_account] *)
Definition token_close (sg : pubkey -> bool) (extra : list pubkey) (l : ledger)
    (k dest authority : pubkey) : res err ledger :=
  let d := a_data (l k) in
  check? token_owned l k in
  check? fail_if (key_eqb k dest) (EToken TE_InvalidAccountData) in
  check? ta_unpack d in
  check? fail_if (negb (ta_is_native d) && negb (ta_amount d =? 0))
                 (EToken TE_NonNativeHasBalance) in
  let cur := if ta_close_flag d =? 1 then ta_close d else ta_owner d in
  check? (if system_or_incinerator (ta_owner d)
          then fail_if (negb (key_eqb dest incinerator_id)) (EToken TE_InvalidAccountData)
          else validate_owner l sg extra cur authority) in
  check? fail_if (u64_max <? a_lamports (l dest) + a_lamports (l k)) (EToken TE_Overflow) in
  Ok (upd (set_lamports l dest (a_lamports (l dest) + a_lamports (l k))) k empty_account).

(** [Processor::process_toggle_freeze_account] *)
Definition token_toggle_freeze (sg : pubkey -> bool) (extra : list pubkey) (l : ledger)
    (k mint authority : pubkey) (freeze : bool) : res err ledger :=
  let d := a_data (l k) in
  let md := a_data (l mint) in
  check? token_owned l k in
  check? ta_unpack d in
  check? fail_if (Bool.eqb freeze (ta_frozen d)) (EToken TE_InvalidState) in
  check? fail_if (ta_is_native d) (EToken TE_NativeNotSupported) in
  check? fail_if (negb (key_eqb mint (ta_mint d))) (EToken TE_MintMismatch) in
  check? mint_unpack md in
  check? fail_if (mint_freeze_flag md =? 0) (EToken TE_MintCannotFreeze) in
  check? validate_owner l sg extra (mint_freeze md) authority in
  Ok (set_data l k (set_u8 108 (if freeze then 2 else 1) d)).

(** [Processor::_process_initialize_mint] *)
Definition token_init_mint (E : env) (l : ledger) (mint : pubkey) (decimals : Z)
    (auth : pubkey) (freeze : option pubkey) : res err ledger :=
  let d := a_data (l mint) in
  check? token_owned l mint in
  check? fail_if (negb (mint_wf d)) (EToken TE_InvalidAccountData) in
  check? fail_if (mint_init d =? 1) (EToken TE_AlreadyInUse) in
  check? fail_if (a_lamports (l mint) <? rent_min E mint_len) (EToken TE_NotRentExempt) in
  Ok (set_data l mint
        (pack_option_key 46 freeze
          (set_u8 45 1 (set_u8 44 decimals (pack_option_key 0 (Some auth) d))))).

(** [Processor::_process_initialize_account].  The real code checks rent before
    AlreadyInUse's sibling checks in the same order as here. *)
Definition token_init_account (E : env) (l : ledger) (k mint owner : pubkey) : res err ledger :=
  let d := a_data (l k) in
  check? token_owned l k in
  check? fail_if (negb (ta_wf d)) (EToken TE_InvalidAccountData) in
  check? fail_if (negb (ta_state d =? 0)) (EToken TE_AlreadyInUse) in
  check? fail_if (a_lamports (l k) <? rent_min E ta_len) (EToken TE_NotRentExempt) in
  let native := key_eqb mint native_mint_id in
  check? (if native then Ok tt else
            match mint_unpack (a_data (l mint)) with
            | Ok _ => Ok tt
            | Err _ => Err (EToken TE_InvalidMint)
            end) in
  let d1 := set_key 0 mint (set_key 32 owner d) in
  let d2 := set_u32 129 0 (set_u64 121 0 (set_u32 72 0 d1)) in
  let d3 := set_u8 108 1 d2 in
  Ok (set_data l k
        (if native
         then set_u64 113 (rent_min E ta_len)
                (set_u32 109 1 (set_amount (a_lamports (l k) - rent_min E ta_len) d3))
         else set_u32 109 0 (set_amount 0 d3))).

(** [Processor::process_initialize_multisig] *)
Definition token_init_multisig (E : env) (l : ledger) (k : pubkey) (m : Z) (keys : list pubkey)
  : res err ledger :=
  let d := a_data (l k) in
  check? token_owned l k in
  check? fail_if (negb (zlen d =? multisig_len)) (EToken TE_InvalidAccountData) in
  check? fail_if (negb (get_u8 2 d =? 0)) (EToken TE_AlreadyInUse) in
  check? fail_if (a_lamports (l k) <? rent_min E multisig_len) (EToken TE_NotRentExempt) in
  check? fail_if ((zlen keys <? 1) || (11 <? zlen keys) || (m <? 1) || (11 <? m))
                 (EToken TE_NotEnoughSigners) in
  Ok (set_data l k
        (splice 0 (le_enc 1 m ++ le_enc 1 (zlen keys) ++ [x01] ++ concat (map key_bytes keys)) d)).

(** [Processor::process_sync_native] *)
Definition token_sync_native (l : ledger) (k : pubkey) : res err ledger :=
  let d := a_data (l k) in
  check? token_owned l k in
  check? ta_unpack d in
  check? fail_if (negb (ta_is_native d)) (EToken TE_NonNativeNotSupported) in
  check? fail_if (a_lamports (l k) <? ta_native_reserve d) (EToken TE_Overflow) in
  check? fail_if (a_lamports (l k) - ta_native_reserve d <? ta_amount d) (EToken TE_InvalidState) in
  Ok (set_data l k (set_amount (a_lamports (l k) - ta_native_reserve d) d)).

(** A token program call by anyone, after decoding. *)
Inductive token_call :=
| TC_Transfer (from to authority : pubkey) (amount : Z)
| TC_MintTo (mint to authority : pubkey) (amount : Z)
| TC_Burn (from mint authority : pubkey) (amount : Z)
| TC_Approve (source delegate authority : pubkey) (amount : Z)
| TC_Revoke (source authority : pubkey)
| TC_SetAuthority (k authority : pubkey) (ty : authority_type) (new : option pubkey)
| TC_Close (k dest authority : pubkey)
| TC_Freeze (k mint authority : pubkey)
| TC_Thaw (k mint authority : pubkey)
| TC_InitMint (mint : pubkey) (decimals : Z) (auth : pubkey) (freeze : option pubkey)
| TC_InitAccount (k mint owner : pubkey)
| TC_InitMultisig (k : pubkey) (m : Z) (keys : list pubkey)
| TC_SyncNative (k : pubkey).

(** Amounts and decimals arrive as u64/u8. *)
Definition token_call_ok (c : token_call) : bool :=
  match c with
  | TC_Transfer _ _ _ n | TC_MintTo _ _ _ n | TC_Burn _ _ _ n | TC_Approve _ _ _ n =>
      (0 <=? n) && (n <=? u64_max)
  | TC_InitMint _ n _ _ => (0 <=? n) && (n <=? u8_max)
  | TC_InitMultisig _ n _ => (0 <=? n) && (n <=? u8_max)
  | _ => true
  end.

Definition token_exec (E : env) (sg : pubkey -> bool) (extra : list pubkey) (l : ledger)
    (c : token_call) : res err ledger :=
  match c with
  | TC_Transfer f t a n => token_transfer sg extra l f t a n
  | TC_MintTo m t a n => token_mint_to sg extra l m t a n
  | TC_Burn f m a n => token_burn sg extra l f m a n
  | TC_Approve s d a n => token_approve sg extra l s d a n
  | TC_Revoke s a => token_revoke sg extra l s a
  | TC_SetAuthority k a ty n => token_set_authority sg extra l k a ty n
  | TC_Close k d a => token_close sg extra l k d a
  | TC_Freeze k m a => token_toggle_freeze sg extra l k m a true
  | TC_Thaw k m a => token_toggle_freeze sg extra l k m a false
  | TC_InitMint m d a f => token_init_mint E l m d a f
  | TC_InitAccount k m o => token_init_account E l k m o
  | TC_InitMultisig k m ks => token_init_multisig E l k m ks
  | TC_SyncNative k => token_sync_native l k
  end.
