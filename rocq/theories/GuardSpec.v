(** Vocabulary of the properties about who can move what (C49 and later). *)
From Verif Require Export Spec.
Import List ListNotations.
Open Scope Z_scope.

(** ORCA staked according to one log entry. *)
Definition ev_staked (b : list byte) : Z :=
  match read_event b with Some (EvStake a _ _ _ _, _) => a | _ => 0 end.

(** ORCA that reached token account [vk] by steps that are not calls of the program. *)
Fixpoint deposited_outside (C : crypto) (vk : pubkey) (l : ledger) (ops : list op) : Z :=
  match ops with
  | [] => 0
  | o :: ops =>
      let l' := fst (run_op C l o) in
      match o with OpCall _ _ _ => 0 | _ => balance l' vk - balance l vk end +
      deposited_outside C vk l' ops
  end.

(** A frozen token account of [mint]. *)
Definition frozen (l : ledger) (mint k : pubkey) : Prop :=
  a_owner (l k) = token_id /\ ta_unpack (a_data (l k)) = Ok tt /\
  ta_mint (a_data (l k)) = mint /\ ta_state (a_data (l k)) = 2.

(** ORCA an unstake of [x] would promise now. *)
Definition worth (l : ledger) (sk vk : pubkey) (x : Z) : Z :=
  x * (free_orca l sk vk + 100) / (supply l + 100).

(** ** Tokens and lamports taken by a call *)
(** [k] is a token account that loses tokens. *)
Definition loses_tokens (l l' : ledger) (k : pubkey) : Prop :=
  a_owner (l k) = token_id /\ ta_unpack (a_data (l k)) = Ok tt /\ balance l' k < balance l k.
Definition loses_lamports (l l' : ledger) (k : pubkey) : Prop :=
  a_lamports (l' k) < a_lamports (l k).

(** What Initialize expects of the two mints, except that only the absence of a
    freeze authority is asked for, not that its bytes are zero. *)
Definition mints_unfrozen (l : ledger) (sk : pubkey) : Prop :=
  a_owner (l xorca_mint_id) = token_id /\
  mint_unpack (a_data (l xorca_mint_id)) = Ok tt /\
  mint_auth_flag (a_data (l xorca_mint_id)) = 1 /\ mint_auth (a_data (l xorca_mint_id)) = sk /\
  mint_freeze_flag (a_data (l xorca_mint_id)) = 0 /\
  supply l = 0 /\ mint_decimals (a_data (l xorca_mint_id)) = 6 /\
  mint_decimals (a_data (l orca_mint_id)) = 6.
