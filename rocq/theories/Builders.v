(** The rest of the generated clients: the Rust builders, the Rust helpers for
    calls from other programs, and the JS instruction parsers. *)
From Coq Require Import Ascii String.
From Verif Require Export Client Cpi.
Import List ListNotations.
Open Scope list_scope.
Open Scope Z_scope.

(** * Rust (rust-client/src/generated/instructions) *)
(** Every instruction has a [Builder] whose fields start as [None]; [instruction]
    panics ([None] here) when one is not set.  A [Cpi] builds the same kind of
    instruction for a call from another program and lists the account infos handed
    to the runtime, the program first.  A [CpiBuilder] collects the fields of a
    [Cpi].  Account infos are represented by their keys. *)

(** A remaining account of a [Cpi] (stake.rs:316-320): a tuple of an account info and
    two flags, read as signer and writable (stake.rs:354-360 and likewise in the
    other four files). *)
Definition extra : Type := pubkey * bool * bool.
Definition extra_key (x : extra) : pubkey := fst (fst x).
Definition extra_meta (x : extra) : meta := Meta (extra_key x) (snd (fst x)) (snd x).
(** [CpiBuilder::add_remaining_account(account, is_writable, is_signer)] (stake.rs:496-507
    and likewise in the other four files) pushes its arguments in this order; here
    the argument is the tuple of the three. *)
Definition add_remaining_account (x : pubkey * bool * bool) : extra :=
  let '(account, is_writable, is_signer) := x in (account, is_writable, is_signer).

(** stake.rs:127-234 *)
Definition rust_stake_builder (staker vault staker_orca staker_xorca xorca_mint state orca_mint token :
    option pubkey) (remaining : list meta) (amount : option Z)
  : option built :=
  get! staker := staker in
  get! vault := vault in
  get! staker_orca := staker_orca in
  get! staker_xorca := staker_xorca in
  get! xorca_mint := xorca_mint in
  get! state := state in
  get! orca_mint := orca_mint in
  get! token := token in
  get! amount := amount in
  Some (rust_stake staker vault staker_orca staker_xorca xorca_mint state orca_mint token remaining amount).
(** stake.rs:299-390 *)
Definition rust_stake_cpi (program staker vault staker_orca staker_xorca xorca_mint state orca_mint token
    : pubkey) (remaining : list extra) (amount : Z) : built * list pubkey :=
  (Built xorca_id
     ([am staker true; am vault false; am staker_orca false; am staker_xorca false; am xorca_mint false;
       am_readonly state false; am_readonly orca_mint false; am_readonly token false]
      ++ map extra_meta remaining)
     (fields_bytes [FU8] [VInt 0] ++ fields_bytes [FU64] [VInt amount]),
   program :: [staker; vault; staker_orca; staker_xorca; xorca_mint; state; orca_mint; token] ++ map
     extra_key remaining).
(** stake.rs:409-585; [added] in the order of the calls of [add_remaining_account] *)
Definition rust_stake_cpi_builder (program : pubkey) (staker vault staker_orca staker_xorca xorca_mint
    state orca_mint token : option pubkey)
    (added : list (pubkey * bool * bool)) (amount : option Z) : option (built * list pubkey) :=
  get! staker := staker in
  get! vault := vault in
  get! staker_orca := staker_orca in
  get! staker_xorca := staker_xorca in
  get! xorca_mint := xorca_mint in
  get! state := state in
  get! orca_mint := orca_mint in
  get! token := token in
  get! amount := amount in
  Some (rust_stake_cpi program staker vault staker_orca staker_xorca xorca_mint state orca_mint token (map
    add_remaining_account added) amount).

(** unstake.rs:135-271 *)
Definition rust_unstake_builder (unstaker state pending unstaker_xorca xorca_mint orca_mint vault system
    token : option pubkey) (remaining : list meta) (amount : option Z) (index : option Z)
  : option built :=
  get! unstaker := unstaker in
  get! state := state in
  get! pending := pending in
  get! unstaker_xorca := unstaker_xorca in
  get! xorca_mint := xorca_mint in
  get! orca_mint := orca_mint in
  get! vault := vault in
  get! system := system in
  get! token := token in
  get! amount := amount in
  get! index := index in
  Some (rust_unstake unstaker state pending unstaker_xorca xorca_mint orca_mint vault system token
    remaining amount index).
(** unstake.rs:341-437 *)
Definition rust_unstake_cpi (program unstaker state pending unstaker_xorca xorca_mint orca_mint vault
    system token : pubkey) (remaining : list extra) (amount : Z) (index : Z) : built * list pubkey :=
  (Built xorca_id
     ([am unstaker true; am state false; am pending false; am unstaker_xorca false; am xorca_mint false;
       am_readonly orca_mint false; am_readonly vault false; am_readonly system false; am_readonly token
       false]
      ++ map extra_meta remaining)
     (fields_bytes [FU8] [VInt 1] ++ fields_bytes [FU64; FU8] [VInt amount; VInt index]),
   program :: [unstaker; state; pending; unstaker_xorca; xorca_mint; orca_mint; vault; system; token] ++
     map extra_key remaining).
(** unstake.rs:457-658; [added] in the order of the calls of [add_remaining_account] *)
Definition rust_unstake_cpi_builder (program : pubkey) (unstaker state pending unstaker_xorca xorca_mint
    orca_mint vault system token : option pubkey)
    (added : list (pubkey * bool * bool)) (amount : option Z) (index : option Z) : option (built * list
      pubkey) :=
  get! unstaker := unstaker in
  get! state := state in
  get! pending := pending in
  get! unstaker_xorca := unstaker_xorca in
  get! xorca_mint := xorca_mint in
  get! orca_mint := orca_mint in
  get! vault := vault in
  get! system := system in
  get! token := token in
  get! amount := amount in
  get! index := index in
  Some (rust_unstake_cpi program unstaker state pending unstaker_xorca xorca_mint orca_mint vault system
    token (map add_remaining_account added) amount index).

(** withdraw.rs:127-244 *)
Definition rust_withdraw_builder (unstaker state pending unstaker_orca vault orca_mint system token :
    option pubkey) (remaining : list meta) (index : option Z)
  : option built :=
  get! unstaker := unstaker in
  get! state := state in
  get! pending := pending in
  get! unstaker_orca := unstaker_orca in
  get! vault := vault in
  get! orca_mint := orca_mint in
  get! system := system in
  get! token := token in
  get! index := index in
  Some (rust_withdraw unstaker state pending unstaker_orca vault orca_mint system token remaining index).
(** withdraw.rs:309-400 *)
Definition rust_withdraw_cpi (program unstaker state pending unstaker_orca vault orca_mint system token :
    pubkey) (remaining : list extra) (index : Z) : built * list pubkey :=
  (Built xorca_id
     ([am unstaker true; am state false; am pending false; am unstaker_orca false; am vault false;
       am_readonly orca_mint false; am_readonly system false; am_readonly token false]
      ++ map extra_meta remaining)
     (fields_bytes [FU8] [VInt 2] ++ fields_bytes [FU8] [VInt index]),
   program :: [unstaker; state; pending; unstaker_orca; vault; orca_mint; system; token] ++ map extra_key
     remaining).
(** withdraw.rs:419-595; [added] in the order of the calls of [add_remaining_account] *)
Definition rust_withdraw_cpi_builder (program : pubkey) (unstaker state pending unstaker_orca vault
    orca_mint system token : option pubkey)
    (added : list (pubkey * bool * bool)) (index : option Z) : option (built * list pubkey) :=
  get! unstaker := unstaker in
  get! state := state in
  get! pending := pending in
  get! unstaker_orca := unstaker_orca in
  get! vault := vault in
  get! orca_mint := orca_mint in
  get! system := system in
  get! token := token in
  get! index := index in
  Some (rust_withdraw_cpi program unstaker state pending unstaker_orca vault orca_mint system token (map
    add_remaining_account added) index).

(** initialize.rs:134-263 *)
Definition rust_initialize_builder (payer authority state vault xorca_mint orca_mint system token ata :
    option pubkey) (remaining : list meta) (cooldown : option Z)
  : option built :=
  get! payer := payer in
  get! authority := authority in
  get! state := state in
  get! vault := vault in
  get! xorca_mint := xorca_mint in
  get! orca_mint := orca_mint in
  get! system := system in
  get! token := token in
  get! ata := ata in
  get! cooldown := cooldown in
  Some (rust_initialize payer authority state vault xorca_mint orca_mint system token ata remaining
    cooldown).
(** initialize.rs:333-429 *)
Definition rust_initialize_cpi (program payer authority state vault xorca_mint orca_mint system token ata
    : pubkey) (remaining : list extra) (cooldown : Z) : built * list pubkey :=
  (Built xorca_id
     ([am payer true; am authority true; am state false; am vault false; am_readonly xorca_mint false;
       am_readonly orca_mint false; am_readonly system false; am_readonly token false; am_readonly ata
       false]
      ++ map extra_meta remaining)
     (fields_bytes [FU8] [VInt 3] ++ fields_bytes [FI64] [VInt cooldown]),
   program :: [payer; authority; state; vault; xorca_mint; orca_mint; system; token; ata] ++ map extra_key
     remaining).
(** initialize.rs:449-639; [added] in the order of the calls of [add_remaining_account] *)
Definition rust_initialize_cpi_builder (program : pubkey) (payer authority state vault xorca_mint
    orca_mint system token ata : option pubkey)
    (added : list (pubkey * bool * bool)) (cooldown : option Z) : option (built * list pubkey) :=
  get! payer := payer in
  get! authority := authority in
  get! state := state in
  get! vault := vault in
  get! xorca_mint := xorca_mint in
  get! orca_mint := orca_mint in
  get! system := system in
  get! token := token in
  get! ata := ata in
  get! cooldown := cooldown in
  Some (rust_initialize_cpi program payer authority state vault xorca_mint orca_mint system token ata (map
    add_remaining_account added) cooldown).

(** set.rs:86-147 *)
Definition rust_set_builder (authority state : option pubkey) (remaining : list meta) (u : option
    state_update)
  : option built :=
  get! authority := authority in
  get! state := state in
  get! u := u in
  Some (rust_set authority state remaining u).
(** set.rs:182-243 *)
Definition rust_set_cpi (program authority state : pubkey) (remaining : list extra) (u : state_update) :
    built * list pubkey :=
  (Built xorca_id
     ([am authority true; am state false]
      ++ map extra_meta remaining)
     (fields_bytes [FU8] [VInt 4] ++ rust_update u),
   program :: [authority; state] ++ map extra_key remaining).
(** set.rs:256-348; [added] in the order of the calls of [add_remaining_account] *)
Definition rust_set_cpi_builder (program : pubkey) (authority state : option pubkey)
    (added : list (pubkey * bool * bool)) (u : option state_update) : option (built * list pubkey) :=
  get! authority := authority in
  get! state := state in
  get! u := u in
  Some (rust_set_cpi program authority state (map add_remaining_account added) u).

(** ** The runtime's side of such a call (trusted base, not in /repo) *)
(** Seeds are resolved for the calling program. *)
Fixpoint seed_signers (C : crypto) (caller : pubkey) (seeds : list (list (list byte))) : res err (list
  pubkey) :=
  match seeds with
  | [] => Ok []
  | s :: rest =>
      match create_program_address C s caller with
      | None => Err (ERuntime RE_InvalidSeeds)
      | Some k => let? ks := seed_signers C caller rest in Ok (k :: ks)
      end
  end.
(** The callee sees each listed account with the privileges of all its entries. *)
Definition merged (ms : list meta) : list meta :=
  map (fun m => Meta (m_key m) (caller_signs ms (m_key m)) (caller_writes ms (m_key m))) ms.
(** [invoke_signed] by program [caller], which was given [accounts]: every account
    of the instruction and the program must be among the infos, the infos among the
    caller's accounts, and no privilege may be invented. *)
Definition runtime_cpi (C : crypto) (caller : pubkey) (accounts : list meta)
    (seeds : list (list (list byte))) (call : built * list pubkey) : res err (list meta) :=
  let (b, infos) := call in
  let? pdas := seed_signers C caller seeds in
  check? fail_if (negb (forallb (caller_has_key accounts) infos)) (ERuntime RE_MissingAccount) in
  check? fail_if (negb (existsb (key_eqb (b_program b)) infos)) (ERuntime RE_MissingAccount) in
  check? fail_if (negb (forallb (fun m => existsb (key_eqb (m_key m)) infos) (b_accounts b)))
                 (ERuntime RE_MissingAccount) in
  check? fail_if (negb (forallb (meta_allowed accounts pdas) (b_accounts b)))
                 (ERuntime RE_PrivilegeEscalation) in
  Ok (merged (b_accounts b)).

(** * JS instruction parsers *)
(** Account names by position.  js-client/src/generated/instructions/stake.ts:263-272,
    unstake.ts:293-303, withdraw.ts:265-274, initialize.ts:288-298, set.ts:171-174 *)
Definition js_account_names (tag : Z) : list string :=
  if tag =? 0 then
     ["stakerAccount"; "vaultAccount"; "stakerOrcaAta"; "stakerXorcaAta"; "xorcaMintAccount";
      "stateAccount"; "orcaMintAccount"; "tokenProgramAccount"]%string
  else if tag =? 1 then
     ["unstakerAccount"; "stateAccount"; "pendingWithdrawAccount"; "unstakerXorcaAta";
      "xorcaMintAccount"; "orcaMintAccount"; "vaultAccount"; "systemProgramAccount";
      "tokenProgramAccount"]%string
  else if tag =? 2 then
     ["unstakerAccount"; "stateAccount"; "pendingWithdrawAccount"; "unstakerOrcaAta";
      "vaultAccount"; "orcaMintAccount"; "systemProgramAccount"; "tokenProgramAccount"]%string
  else if tag =? 3 then
     ["payerAccount"; "updateAuthorityAccount"; "stateAccount"; "vaultAccount";
      "xorcaMintAccount"; "orcaMintAccount"; "systemProgramAccount"; "tokenProgramAccount";
      "associatedTokenProgramAccount"]%string
  else ["updateAuthorityAccount"; "stateAccount"]%string.
(** stake.ts:251, unstake.ts:281, withdraw.ts:253, initialize.ts:276, set.ts:159 *)
Definition js_account_count (tag : Z) : nat :=
  if tag =? 0 then 8 else if tag =? 1 then 9 else if tag =? 2 then 8 else if tag =? 3 then 9 else 2.

Record js_parsed := JsParsed {
  jp_program : pubkey;
  jp_accounts : list (string * meta);
  jp_tag : Z;
  jp_fields : list fval
}.
(** Identify the instruction (programs/xorcaStakingProgram.ts:54-76), then the parser
    of that instruction (e.g. stake.ts:243-275): count, accounts, data. *)
Definition js_parse (b : built) : option js_parsed :=
  get! tag := js_identify_instruction (b_data b) in
  if (length (b_accounts b) <? js_account_count tag)%nat then None else
  get! d := js_parse_instruction (b_data b) in
  Some (JsParsed (b_program b) (combine (js_account_names tag) (b_accounts b)) (fst d) (snd d)).
(** [parsed.accounts.name] *)
Definition js_named (p : js_parsed) (name : string) : option meta :=
  option_map snd (find (fun x => String.eqb (fst x) name) (jp_accounts p)).
