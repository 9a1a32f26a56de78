(** What the runtime does with a received packet: the instructions are executed in order,
    all or none.  The account lists and data of the token, system and associated token
    programs are decoded here; these programs are not part of /repo (trusted base).
    Left out: the system program's nonce and seed instructions, RecoverNested, the token
    program's batch and excess-lamports instructions, and calls of other programs (such a
    packet is not executed; these steps are [OpForeign] and [OpNative] in [History.v]);
    which error an undecodable instruction gives.  Definitions only. *)
From Verif Require Export Wire Transaction.
Import List ListNotations.
Open Scope list_scope.
Open Scope Z_scope.

Definition signing_keys (accs : list meta) : list pubkey := map m_key (filter m_signer accs).

(** ** Fields *)
Definition field_u64 (d : list byte) : option (Z * list byte) :=
  get! r := take_bytes 8 d in Some (le_dec (fst r), snd r).
Definition field_u8 (d : list byte) : option (Z * list byte) :=
  match d with [] => None | b :: d' => Some (byte_to_Z b, d') end.
(** [TokenInstruction::unpack_pubkey_option] *)
Definition field_option_key (d : list byte) : option (option pubkey) :=
  get! r := field_u8 d in
  if fst r =? 0 then Some None
  else if fst r =? 1 then get! k := take_key (snd r) in Some (Some (fst k))
  else None.

(** ** The token program: [TokenInstruction::unpack] and the account lists of [Processor] *)
(** [tq_call] is [None] for instructions without effect.  [tq_check] is what the Checked
    variants compare: the account whose mint it is, the mint, its decimals. *)
Record token_request := TokenRequest {
  tq_call : option token_call;
  tq_extra : list pubkey;
  tq_check : option (option pubkey * pubkey * Z)
}.
Definition authority_of (z : Z) : option authority_type :=
  if z =? 0 then Some MintTokens else if z =? 1 then Some FreezeAccount
  else if z =? 2 then Some AccountOwner else if z =? 3 then Some CloseAuthority else None.

Definition token_request_of (ks : list pubkey) (data : list byte) : option token_request :=
  get! t := field_u8 data in
  let d := snd t in
  let init_mint m :=
    get! n := field_u8 d in get! a := take_key (snd n) in get! f := field_option_key (snd a) in
    Some (TokenRequest (Some (TC_InitMint m (fst n) (fst a) f)) [] None) in
  let init_multisig k owners :=
    get! n := field_u8 d in Some (TokenRequest (Some (TC_InitMultisig k (fst n) owners)) [] None) in
  let amount extra c :=
    get! n := field_u64 d in Some (TokenRequest (Some (c (fst n))) extra None) in
  let checked extra src mint c :=
    get! n := field_u64 d in get! dec := field_u8 (snd n) in
    Some (TokenRequest (Some (c (fst n))) extra (Some (src, mint, fst dec))) in
  match fst t, ks with
  | 0, m :: _rent :: _ => init_mint m
  | 1, k :: m :: owner :: _rent :: _ => Some (TokenRequest (Some (TC_InitAccount k m owner)) [] None)
  | 2, k :: _rent :: owners => init_multisig k owners
  | 3, from :: to :: auth :: extra => amount extra (TC_Transfer from to auth)
  | 4, src :: delegate :: owner :: extra => amount extra (TC_Approve src delegate owner)
  | 5, src :: owner :: extra => Some (TokenRequest (Some (TC_Revoke src owner)) extra None)
  | 6, k :: auth :: extra =>
      get! ty := field_u8 d in get! ty' := authority_of (fst ty) in get! new := field_option_key (snd ty) in
      Some (TokenRequest (Some (TC_SetAuthority k auth ty' new)) extra None)
  | 7, mint :: to :: auth :: extra => amount extra (TC_MintTo mint to auth)
  | 8, from :: mint :: auth :: extra => amount extra (TC_Burn from mint auth)
  | 9, k :: dest :: auth :: extra => Some (TokenRequest (Some (TC_Close k dest auth)) extra None)
  | 10, k :: mint :: auth :: extra => Some (TokenRequest (Some (TC_Freeze k mint auth)) extra None)
  | 11, k :: mint :: auth :: extra => Some (TokenRequest (Some (TC_Thaw k mint auth)) extra None)
  | 12, from :: mint :: to :: auth :: extra => checked extra (Some from) mint (TC_Transfer from to auth)
  | 13, src :: mint :: delegate :: owner :: extra => checked extra (Some src) mint (TC_Approve src delegate owner)
  | 14, mint :: to :: auth :: extra => checked extra None mint (TC_MintTo mint to auth)
  | 15, from :: mint :: auth :: extra => checked extra None mint (TC_Burn from mint auth)
  | 16, k :: m :: _rent :: _ => get! o := take_key d in Some (TokenRequest (Some (TC_InitAccount k m (fst o))) [] None)
  | 17, k :: _ => Some (TokenRequest (Some (TC_SyncNative k)) [] None)
  | 18, k :: m :: _ => get! o := take_key d in Some (TokenRequest (Some (TC_InitAccount k m (fst o))) [] None)
  | 19, k :: owners => init_multisig k owners
  | 20, m :: _ => init_mint m
  | 21, _ | 22, _ | 23, _ | 24, _ => Some (TokenRequest None [] None)
  | _, _ => None
  end.

Definition token_expect (l : ledger) (c : option pubkey * pubkey * Z) : res err unit :=
  let '(src, mint, decimals) := c in
  check? match src with
         | Some k => fail_if (negb (key_eqb (ta_mint (a_data (l k))) mint)) (EToken TE_MintMismatch)
         | None => Ok tt
         end in
  check? mint_unpack (a_data (l mint)) in
  fail_if (negb (mint_decimals (a_data (l mint)) =? decimals)) (EToken TE_MintDecimalsMismatch).

(** A further signer that does not sign is skipped; the real program refuses it if it is
    one of the multisig's owners. *)
Definition exec_token (E : env) (accs : list meta) (l : ledger) (data : list byte) : res err ledger :=
  let sg := signs (signing_keys accs) in
  match token_request_of (map m_key accs) data with
  | None => Err EInvalidAccountData
  | Some q =>
      check? match tq_check q with Some c => token_expect l c | None => Ok tt end in
      match tq_call q with
      | None => Ok l
      | Some c => token_exec E sg (filter sg (tq_extra q)) l c
      end
  end.

(** ** The system program: bincode, a u32 and the fields *)
Definition system_call_of (ks : list pubkey) (data : list byte) : option system_call :=
  get! t := take_bytes 4 data in
  let d := snd t in
  match le_dec (fst t), ks with
  | 0, from :: to :: _ =>
      get! n := field_u64 d in get! s := field_u64 (snd n) in get! o := take_key (snd s) in
      Some (SC_Create from to (fst n) (fst s) (fst o))
  | 1, k :: _ => get! o := take_key d in Some (SC_Assign k (fst o))
  | 2, from :: to :: _ => get! n := field_u64 d in Some (SC_Transfer from to (fst n))
  | 8, k :: _ => get! s := field_u64 d in Some (SC_Allocate k (fst s))
  | _, _ => None
  end.
Definition exec_system (accs : list meta) (l : ledger) (data : list byte) : res err ledger :=
  match system_call_of (map m_key accs) data with
  | None => Err EInvalidAccountData
  | Some c => system_exec (signs (signing_keys accs)) l c
  end.

(** ** The associated token program: Create (no data or 0) and CreateIdempotent (1) *)
Definition exec_ata (C : crypto) (E : env) (accs : list meta) (l : ledger) (data : list byte)
  : res err ledger :=
  match map m_key accs with
  | payer :: ata :: wallet :: mint :: _ =>
      let create := ata_create_idempotent C E (signs (signing_keys accs)) l payer ata wallet mint in
      match map byte_to_Z data with
      | [] | [0] =>
          check? fail_if (negb (key_eqb (a_owner (l ata)) system_id)) (EAta AE_IllegalOwner) in create
      | [1] => create
      | _ => Err EInvalidAccountData
      end
  | _ => Err EInvalidAccountData
  end.

(** ** One instruction *)
(** The runtime's check after each instruction: read-only accounts are as before. *)
Definition same_account (a b : account) : bool :=
  (a_lamports a =? a_lamports b) && key_eqb (a_owner a) (a_owner b) && bytes_eqb (a_data a) (a_data b).
Definition readonly_kept (accs : list meta) (l l' : ledger) : bool :=
  forallb (fun m => m_writable m || same_account (l (m_key m)) (l' (m_key m))) accs.
Definition execute_one (C : crypto) (E : env) (l : ledger) (b : built) : res err outcome :=
  let accs := b_accounts b in
  let silent r := let? l' := r in Ok (l', []) in
  let? r := (if key_eqb (b_program b) xorca_id then process_instruction C E xorca_id accs l (b_data b)
             else if key_eqb (b_program b) token_id then silent (exec_token E accs l (b_data b))
             else if key_eqb (b_program b) system_id then silent (exec_system accs l (b_data b))
             else if key_eqb (b_program b) ata_id then silent (exec_ata C E accs l (b_data b))
             else Err EInvalidAccountData) in
  check? fail_if (negb (readonly_kept accs l (fst r))) (ERuntime RE_PrivilegeEscalation) in
  Ok r.

(** ** A packet: all its instructions or nothing *)
Fixpoint execute (C : crypto) (E : env) (l : ledger) (bs : list built) : res err outcome :=
  match bs with
  | [] => Ok (l, [])
  | b :: bs' =>
      let? r := execute_one C E l b in
      let? r' := execute C E (fst r) bs' in
      Ok (fst r', snd r ++ snd r')
  end.
Definition packet (C : crypto) (E : env) (verify : pubkey -> list byte -> list byte -> bool)
    (reserved : pubkey -> bool) (tables : pubkey -> list pubkey) (l : ledger) (d : list byte) : outcome :=
  match receive verify reserved tables d with
  | None => (l, [])
  | Some bs => match execute C E l bs with Ok r => r | Err _ => (l, []) end
  end.
