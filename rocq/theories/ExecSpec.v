(** What is said about executed packets (C76, C77). *)
From Verif Require Export Exec WireSpec Spec.
Import List ListNotations.
Open Scope list_scope.

(** Only points of the curve are public keys of signatures. *)
Definition curve_only (C : crypto) (verify : pubkey -> list byte -> list byte -> bool) : Prop :=
  forall k m s, verify k m s = true -> on_curve C k = true.
(** No associated token address is at the same time an address of this program. *)
Definition ata_apart (C : crypto) : Prop :=
  forall w m k, is_ata C w m k -> ~ program_signs_for C k.

(** The packet consists of the number of its signatures, these, and a message, which one
    of them signs with the key [k]. *)
Definition carries (verify : pubkey -> list byte -> list byte -> bool) (d : list byte) (k : pubkey)
  : Prop :=
  exists count sigs msg s,
    d = count ++ concat sigs ++ msg /\ (length count <= 3)%nat /\
    Forall (fun s => length s = 64%nat) sigs /\ In s sigs /\ verify k msg s = true.
(** Whose signature a step uses, and the clock it reads. *)
Definition uses_signature (o : op) (k : pubkey) : Prop :=
  match o with
  | OpCall _ accs _ => exists m, In m accs /\ m_key m = k /\ m_signer m = true
  | OpToken _ sgs _ _ | OpSystem sgs _ | OpAta _ sgs _ _ _ _ => In k sgs
  | OpForeign _ _ | OpNative _ | OpPurge _ => False
  end.
Definition runs_at (E : env) (o : op) : Prop :=
  match o with
  | OpCall E' _ _ | OpToken E' _ _ _ | OpAta E' _ _ _ _ _ => E' = E
  | OpSystem _ _ => True
  | OpForeign _ _ | OpNative _ | OpPurge _ => False
  end.

(** The state [l1] occurs while the packet runs on [l]: steps at its clock, with its
    signatures, lead there. *)
Definition during (C : crypto) (E : env) (verify : pubkey -> list byte -> list byte -> bool)
    (d : list byte) (l l1 : ledger) : Prop :=
  exists ops evs, history C l ops l1 evs /\
    Forall (fun o => runs_at E o /\ forall k, uses_signature o k -> carries verify d k) ops.

(** Packets one after the other, with the clock and the address lookup tables at each. *)
Fixpoint packets (C : crypto) (verify : pubkey -> list byte -> list byte -> bool)
    (reserved : pubkey -> bool) (l : ledger) (ds : list (env * (pubkey -> list pubkey) * list byte)) : outcome :=
  match ds with
  | [] => (l, [])
  | (E, tables, d) :: ds' =>
      let r := packet C E verify reserved tables l d in
      let r' := packets C verify reserved (fst r) ds' in
      (fst r', snd r ++ snd r')
  end.

(** The transactions of the scripts as steps: fee payer, signers and steps (compare
    [script_transaction]). *)
Inductive script_sends (C : crypto) (E : env) (l : ledger) : option pubkey -> list pubkey -> list op -> Prop :=
| SendsStake u n ops : stake_script C E l u n = Some ops -> script_sends C E l (Some u) [u] ops
| SendsUnstake u n i ops : unstake_script C E l u n i = Some ops -> script_sends C E l (Some u) [u] ops
| SendsWithdraw u i ops : withdraw_script C E l u i = Some ops -> script_sends C E l (Some u) [u] ops
| SendsCooldown u c b : script_set_cooldown C u c = Some b -> script_sends C E l (Some u) [u] [send E b]
| SendsAuthority u k b : script_set_authority C u k = Some b -> script_sends C E l (Some u) [u] [send E b]
| SendsInitialize deployer authority c ops :
    initialize_script C E deployer authority c = Some ops -> script_sends C E l None [deployer; authority] ops
| SendsTransfer u to n ops : transfer_script C E l u to n = Some ops -> script_sends C E l (Some u) [u] ops
| SendsDeposit u n ops : deposit_script C E l u n = Some ops -> script_sends C E l (Some u) [u] ops
| SendsMintAuthority u ops : authority_script C E u = Some ops -> script_sends C E l (Some u) [u] ops.

(** Associated accounts are created where there is none. *)
Definition creates_new (l : ledger) (ops : list op) : Prop :=
  forall E sgs payer ata wallet mint, In (OpAta E sgs payer ata wallet mint) ops -> a_owner (l ata) = system_id.

(** The instructions run one after the other, each with success: this program is entered
    with its instructions, the others do one step (or, for some of the token program's
    instructions, nothing). *)
Definition calls_other (b : built) (o : op) : Prop :=
  match o with
  | OpToken _ _ _ _ => b_program b = token_id
  | OpSystem _ _ => b_program b = system_id
  | OpAta _ _ payer ata wallet mint =>
      b_program b = ata_id /\ firstn 4 (map m_key (b_accounts b)) = [payer; ata; wallet; mint]
  | _ => False
  end.
Inductive ran (C : crypto) (E : env) : ledger -> list built -> outcome -> Prop :=
| RanNone l : ran C E l [] (l, [])
| RanProgram l b bs l1 evs r :
    b_program b = xorca_id -> process_instruction C E xorca_id (b_accounts b) l (b_data b) = Ok (l1, evs) ->
    ran C E l1 bs r -> ran C E l (b :: bs) (fst r, evs ++ snd r)
| RanOther l b bs o l1 r :
    calls_other b o -> runs_at E o -> attempt C l o = Ok (l1, []) -> ran C E l1 bs r -> ran C E l (b :: bs) r
| RanIdle l b bs r : b_program b = token_id -> ran C E l bs r -> ran C E l (b :: bs) r.

(** Some instruction may write the account. *)
Definition arrives_writable (got : list built) (k : pubkey) : Prop :=
  exists b m, In b got /\ In m (b_accounts b) /\ m_key m = k /\ m_writable m = true.
