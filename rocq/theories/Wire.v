(** From a script's instructions to the bytes on the wire, and back in the runtime.
    Sending: @solana/web3.js 1.x [Transaction] (ts-scripts/package.json:26), as used by
    [sendAndConfirmTransaction] in stake.ts:135-162, unstake.ts:164-191,
    withdraw.ts:166-196, set.ts:123-134, initialize.ts:118-126,
    transfer-orca.ts:112-139, transfer-orca-to-vault.ts:107-117 and
    update-xorca-mint-authority.ts:76-91.  Receiving: the runtime's decoding of a legacy
    transaction, its sanity checks and its account flags.  Retries, the age of the block
    hash, fees, compute budgets and preflight simulation are left out.  Definitions only. *)
From Coq Require Import String.
From Verif Require Export Scripts.
Import List ListNotations.
Open Scope list_scope.
Open Scope Z_scope.

(** ** web3.js: compileMessage *)
(** The account entries of all instructions, then the called programs. *)
Fixpoint add_key (ks : list pubkey) (k : pubkey) : list pubkey :=
  match ks with
  | [] => [k]
  | x :: ks' => if key_eqb x k then ks else x :: add_key ks' k
  end.
Definition called_programs (ixs : list built) : list pubkey :=
  fold_left (fun ks b => add_key ks (b_program b)) ixs [].
Definition all_metas (ixs : list built) : list meta :=
  flat_map b_accounts ixs ++ map (fun p => Meta p false false) (called_programs ixs).

(** "Cull duplicate account metas": privileges of equal keys are joined. *)
Fixpoint cull_one (u : list meta) (m : meta) : list meta :=
  match u with
  | [] => [m]
  | x :: u' =>
      if key_eqb (m_key x) (m_key m)
      then Meta (m_key x) (m_signer x || m_signer m) (m_writable x || m_writable m) :: u'
      else x :: cull_one u' m
  end.
Definition cull (ms : list meta) : list meta := fold_left cull_one ms [].

(** "Sort. Prioritizing first by signer, then by writable", then by a comparison of the
    addresses written in base 58, [before] here. *)
Definition meta_class (m : meta) : nat :=
  match m_signer m, m_writable m with
  | true, true => 0 | true, false => 1 | false, true => 2 | false, false => 3
  end%nat.
Definition goes_first (before : pubkey -> pubkey -> bool) (a b : meta) : bool :=
  (meta_class a <? meta_class b)%nat
  || ((meta_class a =? meta_class b)%nat && before (m_key a) (m_key b)).
Fixpoint insert_meta before (m : meta) (u : list meta) : list meta :=
  match u with
  | [] => [m]
  | x :: u' => if goes_first before m x then m :: u else x :: insert_meta before m u'
  end.
Definition sort_metas before (u : list meta) : list meta :=
  fold_right (insert_meta before) [] u.

(** "Move fee payer to the front" *)
Definition payer_first (payer : pubkey) (u : list meta) : list meta :=
  Meta payer true true :: filter (fun m => negb (key_eqb (m_key m) payer)) u.

(** "Disallow unknown signers"; one that no instruction asks for is marked as a signer
    where it stands. *)
Fixpoint mark_signer (u : list meta) (k : pubkey) : option (list meta) :=
  match u with
  | [] => None
  | x :: u' =>
      if key_eqb (m_key x) k then Some (Meta (m_key x) true (m_writable x) :: u')
      else get! r := mark_signer u' k in Some (x :: r)
  end.
Fixpoint mark_signers (u : list meta) (ks : list pubkey) : option (list meta) :=
  match ks with
  | [] => Some u
  | k :: ks' => get! v := mark_signer u k in mark_signers v ks'
  end.

Record message := Message {
  num_signatures : nat;          (* header.numRequiredSignatures *)
  num_readonly_signed : nat;
  num_readonly_unsigned : nat;
  msg_keys : list pubkey;
  msg_hash : pubkey;             (* recentBlockhash: 32 bytes *)
  msg_calls : list (nat * list nat * list byte)
    (* programIdIndex, account indices, data *)
}.

Fixpoint index_of (ks : list pubkey) (k : pubkey) : nat :=
  match ks with [] => 0 | x :: ks' => if key_eqb x k then 0 else S (index_of ks' k) end%nat.

Definition compile_message before (hash payer : pubkey) (signers : list pubkey) (ixs : list built)
  : option message :=
  get! u := mark_signers (payer_first payer (sort_metas before (cull (all_metas ixs)))) signers in
  let signed := filter m_signer u in
  let unsigned := filter (fun m => negb (m_signer m)) u in
  let keys := map m_key signed ++ map m_key unsigned in
  Some (Message (length signed)
    (length (filter (fun m => negb (m_writable m)) signed))
    (length (filter (fun m => negb (m_writable m)) unsigned))
    keys hash
    (map (fun b => (index_of keys (b_program b),
                    map (fun m => index_of keys (m_key m)) (b_accounts b), b_data b)) ixs)).

(** ** web3.js: serialization *)
(** [encodeLength], on lengths below 2^21 *)
Definition short_len (n : nat) : list byte :=
  let z := Z.of_nat n in
  if z <? 128 then [Z_to_byte z]
  else if z <? 16384 then [Z_to_byte (z mod 128 + 128); Z_to_byte (z / 128)]
  else [Z_to_byte (z mod 128 + 128); Z_to_byte (z / 128 mod 128 + 128); Z_to_byte (z / 16384)].
Definition u8_of_nat (n : nat) : byte := Z_to_byte (Z.of_nat n).

Definition call_bytes (c : nat * list nat * list byte) : list byte :=
  let '(p, accs, data) := c in
  [u8_of_nat p] ++ short_len (length accs) ++ map u8_of_nat accs ++ short_len (length data) ++ data.
Definition message_bytes (m : message) : list byte :=
  [u8_of_nat (num_signatures m); u8_of_nat (num_readonly_signed m); u8_of_nat (num_readonly_unsigned m)]
  ++ short_len (length (msg_keys m)) ++ flat_map key_bytes (msg_keys m)
  ++ key_bytes (msg_hash m)
  ++ short_len (length (msg_calls m)) ++ flat_map call_bytes (msg_calls m).

(** PACKET_DATA_SIZE *)
Definition packet_size : nat := 1232.

(** [sign] and [serialize]: [signature k m] is the signature of message [m] by the owner
    of key [k].  Without a fee payer the first signer pays.  [None] is an exception:
    no payer, an unknown signer, a missing signature, or a transaction too large. *)
Definition wire (before : pubkey -> pubkey -> bool) (signature : pubkey -> list byte -> list byte)
    (hash : pubkey) (fee_payer : option pubkey) (signers : list pubkey) (ixs : list built)
  : option (list byte) :=
  get! payer := match fee_payer with Some p => Some p | None => head signers end in
  get! m := compile_message before hash payer signers ixs in
  let required := firstn (num_signatures m) (msg_keys m) in
  if negb (forallb (fun k => existsb (key_eqb k) signers) required) then None else
  let d := short_len (length required)
           ++ flat_map (fun k => signature k (message_bytes m)) required ++ message_bytes m in
  if (packet_size <? length d)%nat then None else Some d.

(** The instructions the scripts put into their transactions: this program's as built,
    [createAssociatedTokenAccountInstruction], [createTransferInstruction] and
    [createSetAuthorityInstruction] of @solana/spl-token. *)
Definition instruction_of (o : op) : option built :=
  match o with
  | OpCall _ accs data => Some (Built script_xorca_id accs data)
  | OpAta _ _ payer ata wallet mint =>
      Some (Built script_ata_id
        [Meta payer true true; Meta ata false true; Meta wallet false false; Meta mint false false;
         Meta script_system_id false false; Meta script_token_id false false] [])
  | OpToken _ _ _ (TC_Transfer from to authority n) =>
      Some (Built script_token_id
        [Meta from false true; Meta to false true; Meta authority true false]
        (Z_to_byte 3 :: le_enc 8 n))
  | OpToken _ _ _ (TC_SetAuthority k authority MintTokens (Some new)) =>
      Some (Built script_token_id [Meta k false true; Meta authority true false]
        ([Z_to_byte 6; Z_to_byte 0; Z_to_byte 1] ++ key_bytes new))
  | _ => None
  end.
Fixpoint instructions_of (ops : list op) : option (list built) :=
  match ops with
  | [] => Some []
  | o :: ops' => get! b := instruction_of o in get! bs := instructions_of ops' in Some (b :: bs)
  end.

(** ** The runtime: decoding *)
(** ShortU16: at most three bytes, below 2^16, no needless byte *)
Definition take_short (d : list byte) : option (nat * list byte) :=
  match d with
  | [] => None
  | a :: d1 =>
    let a := byte_to_Z a in
    if a <? 128 then Some (Z.to_nat a, d1) else
    match d1 with
    | [] => None
    | b :: d2 =>
      let b := byte_to_Z b in
      if b =? 0 then None else
      if b <? 128 then Some (Z.to_nat (a - 128 + 128 * b), d2) else
      match d2 with
      | [] => None
      | c :: d3 =>
        let c := byte_to_Z c in
        if (c =? 0) || (3 <? c) then None
        else Some (Z.to_nat (a - 128 + 128 * (b - 128) + 16384 * c), d3)
      end
    end
  end.
Definition take_bytes (n : nat) (d : list byte) : option (list byte * list byte) :=
  if (length d <? n)%nat then None else Some (firstn n d, skipn n d).
Definition take_u8 (d : list byte) : option (nat * list byte) :=
  match d with [] => None | b :: d' => Some (Z.to_nat (byte_to_Z b), d') end.
Definition take_key (d : list byte) : option (pubkey * list byte) :=
  get! r := take_bytes 32 d in Some (key_of (fst r), snd r).
Fixpoint take_many {A} (read : list byte -> option (A * list byte)) (n : nat) (d : list byte)
  : option (list A * list byte) :=
  match n with
  | O => Some ([], d)
  | S n' =>
      get! x := read d in
      get! xs := take_many read n' (snd x) in
      Some (fst x :: fst xs, snd xs)
  end.
Definition take_list {A} (read : list byte -> option (A * list byte)) (d : list byte)
  : option (list A * list byte) :=
  get! n := take_short d in take_many read (fst n) (snd n).
Definition take_call (d : list byte) : option ((nat * list nat * list byte) * list byte) :=
  get! p := take_u8 d in
  get! accs := take_list take_u8 (snd p) in
  get! n := take_short (snd accs) in
  get! data := take_bytes (fst n) (snd n) in
  Some ((fst p, fst accs, fst data), snd data).
(** A first byte of 128 or more marks a versioned message. *)
Definition take_message (d : list byte) : option (message * list byte) :=
  get! a := take_u8 d in
  if (128 <=? fst a)%nat then None else
  get! b := take_u8 (snd a) in
  get! c := take_u8 (snd b) in
  get! ks := take_list take_key (snd c) in
  get! h := take_key (snd ks) in
  get! calls := take_list take_call (snd h) in
  Some (Message (fst a) (fst b) (fst c) (fst ks) (fst h) (fst calls), snd calls).

(** ** The runtime: checks *)
Fixpoint distinct_keys (ks : list pubkey) : bool :=
  match ks with [] => true | k :: ks' => negb (existsb (key_eqb k) ks') && distinct_keys ks' end.
(** [sanitize]: as many signatures as required, which are at least one writable one;
    indices in range; the fee payer is no program; and no key is listed twice. *)
Definition sane (sigs : nat) (m : message) : bool :=
  let n := length (msg_keys m) in
  (sigs =? num_signatures m)%nat
  && (num_signatures m + num_readonly_unsigned m <=? n)%nat
  && (num_readonly_signed m <? num_signatures m)%nat
  && forallb (fun c => let '(p, accs, _) := c in
                (p <? n)%nat && negb (p =? 0)%nat && forallb (fun i => (i <? n)%nat) accs) (msg_calls m)
  && distinct_keys (msg_keys m).
Fixpoint signed_by (verify : pubkey -> list byte -> list byte -> bool) (d : list byte)
    (ks : list pubkey) (sigs : list (list byte)) : bool :=
  match ks, sigs with
  | [], [] => true
  | k :: ks', s :: sigs' => verify k d s && signed_by verify d ks' sigs'
  | _, _ => false
  end.

(** BPFLoaderUpgradeab1e11111111111111111111111 *)
Definition upgradeable_loader : pubkey := Eval vm_compute in
  Base58.b58_key "BPFLoaderUpgradeab1e11111111111111111111111"%string.

Definition key_at (m : message) (i : nat) : pubkey := nth i (msg_keys m) zero_key.
(** [is_signer] and [is_writable]: by position, except that a reserved account (a sysvar
    or built-in program) and, unless the upgradeable loader is among the accounts, a
    called program are read-only. *)
Definition signer_at (m : message) (i : nat) : bool := (i <? num_signatures m)%nat.
Definition writable_at (reserved : pubkey -> bool) (m : message) (i : nat) : bool :=
  ((i <? num_signatures m - num_readonly_signed m)%nat
   || ((num_signatures m <=? i)%nat && (i <? length (msg_keys m) - num_readonly_unsigned m)%nat))
  && negb (reserved (key_at m i))
  && negb (existsb (fun c => (fst (fst c) =? i)%nat) (msg_calls m)
           && negb (existsb (key_eqb upgradeable_loader) (msg_keys m))).
Definition received_call (reserved : pubkey -> bool) (m : message) (c : nat * list nat * list byte)
  : built :=
  let '(p, accs, data) := c in
  Built (key_at m p)
    (map (fun i => Meta (key_at m i) (signer_at m i) (writable_at reserved m i)) accs) data.

(** The instructions that a packet with a legacy message makes the runtime execute, one
    after the other; [None] if it is refused. *)
Definition receive_legacy (verify : pubkey -> list byte -> list byte -> bool) (reserved : pubkey -> bool)
    (d : list byte) : option (list built) :=
  if (packet_size <? length d)%nat then None else
  get! sigs := take_list (take_bytes 64) d in
  get! m := take_message (snd sigs) in
  match snd m with _ :: _ => None | [] =>
  if sane (length (fst sigs)) (fst m)
     && signed_by verify (snd sigs) (firstn (num_signatures (fst m)) (msg_keys (fst m))) (fst sigs)
  then Some (map (received_call reserved (fst m)) (msg_calls (fst m)))
  else None
  end.

(** ** Messages of version 0 *)
(** A lookup: an address lookup table and indices into it. *)
Record lookup := Lookup {
  lk_table : pubkey;
  lk_writable : list nat;
  lk_readonly : list nat
}.
Definition take_lookup (d : list byte) : option (lookup * list byte) :=
  get! k := take_key d in
  get! w := take_list take_u8 (snd k) in
  get! r := take_list take_u8 (snd w) in
  Some (Lookup (fst k) (fst w) (fst r), snd r).
(** [v0::Message]: the version, then as a legacy message, then the lookups *)
Definition take_message_v0 (d : list byte) : option ((message * list lookup) * list byte) :=
  get! v := take_u8 d in
  if negb (fst v =? 128)%nat then None else
  get! a := take_u8 (snd v) in
  get! b := take_u8 (snd a) in
  get! c := take_u8 (snd b) in
  get! ks := take_list take_key (snd c) in
  get! h := take_key (snd ks) in
  get! calls := take_list take_call (snd h) in
  get! lks := take_list take_lookup (snd calls) in
  Some ((Message (fst a) (fst b) (fst c) (fst ks) (fst h) (fst calls), fst lks), snd lks).
(** The keys that the lookups name; [tables k] are the addresses in table [k] (none if
    there is no such table).  [None]: an index beyond the table *)
Fixpoint find_keys (table : list pubkey) (is : list nat) : option (list pubkey) :=
  match is with
  | [] => Some []
  | i :: is' => get! k := nth_error table i in get! ks := find_keys table is' in Some (k :: ks)
  end.
Fixpoint load_keys (tables : pubkey -> list pubkey) (indices : lookup -> list nat) (lks : list lookup)
  : option (list pubkey) :=
  match lks with
  | [] => Some []
  | x :: lks' =>
      get! ks := find_keys (tables (lk_table x)) (indices x) in
      get! more := load_keys tables indices lks' in Some (ks ++ more)
  end.
(** The accounts of the transaction: those of the message, the writable and the read-only
    ones of the lookups. *)
Record loaded := Loaded {
  lo_message : message;
  lo_writable : list pubkey;
  lo_readonly : list pubkey
}.
Definition lo_keys (m : loaded) : list pubkey :=
  msg_keys (lo_message m) ++ lo_writable m ++ lo_readonly m.
(** [sanitize] of version 0: every lookup names something, at most 256 accounts, programs are
    named in the message; and no key is listed twice. *)
Definition sane_v0 (sigs : nat) (lks : list lookup) (m : loaded) : bool :=
  let static := length (msg_keys (lo_message m)) in
  let n := length (lo_keys m) in
  (sigs =? num_signatures (lo_message m))%nat
  && (num_signatures (lo_message m) + num_readonly_unsigned (lo_message m) <=? static)%nat
  && (num_readonly_signed (lo_message m) <? num_signatures (lo_message m))%nat
  && forallb (fun x => negb (length (lk_writable x) + length (lk_readonly x) =? 0)%nat) lks
  && (n <=? 256)%nat
  && forallb (fun c => let '(p, accs, _) := c in
                (p <? static)%nat && negb (p =? 0)%nat && forallb (fun i => (i <? n)%nat) accs)
       (msg_calls (lo_message m))
  && distinct_keys (lo_keys m).
Definition lo_key_at (m : loaded) (i : nat) : pubkey := nth i (lo_keys m) zero_key.
(** [is_writable] of version 0: also the writable ones of the lookups *)
Definition lo_writable_at (reserved : pubkey -> bool) (m : loaded) (i : nat) : bool :=
  let h := lo_message m in
  let static := length (msg_keys h) in
  ((i <? num_signatures h - num_readonly_signed h)%nat
   || ((num_signatures h <=? i)%nat && (i <? static - num_readonly_unsigned h)%nat)
   || ((static <=? i)%nat && (i <? static + length (lo_writable m))%nat))
  && negb (reserved (lo_key_at m i))
  && negb (existsb (fun c => (fst (fst c) =? i)%nat) (msg_calls h)
           && negb (existsb (key_eqb upgradeable_loader) (lo_keys m))).
Definition loaded_call (reserved : pubkey -> bool) (m : loaded) (c : nat * list nat * list byte)
  : built :=
  let '(p, accs, data) := c in
  Built (lo_key_at m p)
    (map (fun i => Meta (lo_key_at m i) (signer_at (lo_message m) i) (lo_writable_at reserved m i)) accs) data.
Definition receive_v0 (verify : pubkey -> list byte -> list byte -> bool) (reserved : pubkey -> bool)
    (tables : pubkey -> list pubkey) (d : list byte) : option (list built) :=
  if (packet_size <? length d)%nat then None else
  get! sigs := take_list (take_bytes 64) d in
  get! m := take_message_v0 (snd sigs) in
  match snd m with _ :: _ => None | [] =>
  get! w := load_keys tables lk_writable (snd (fst m)) in
  get! r := load_keys tables lk_readonly (snd (fst m)) in
  let lo := Loaded (fst (fst m)) w r in
  if sane_v0 (length (fst sigs)) (snd (fst m)) lo
     && signed_by verify (snd sigs) (firstn (num_signatures (lo_message lo)) (msg_keys (lo_message lo))) (fst sigs)
  then Some (map (loaded_call reserved lo) (msg_calls (lo_message lo)))
  else None
  end.

(** The instructions of a packet with a message of either kind (other versions are refused) *)
Definition receive (verify : pubkey -> list byte -> list byte -> bool) (reserved : pubkey -> bool)
    (tables : pubkey -> list pubkey) (d : list byte) : option (list built) :=
  match receive_legacy verify reserved d with
  | Some got => Some got
  | None => receive_v0 verify reserved tables d
  end.
