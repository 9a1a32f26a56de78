(** What the scripts look at before they send (C61, C62). *)
From Verif Require Export ClientSpec ToolSpec.
Import List ListNotations.
Open Scope list_scope.
Open Scope Z_scope.

(** There is a token account with at least [n] tokens. *)
Definition shows (l : ledger) (k : pubkey) (n : Z) : Prop :=
  a_lamports (l k) <> 0 /\ a_owner (l k) = token_id /\ ta_unpack (a_data (l k)) = Ok tt /\ 0 <= n <= balance l k.
(** An account of the token program of the length of token accounts. *)
Definition holds_165 (l : ledger) (k : pubkey) : Prop :=
  a_lamports (l k) <> 0 /\ a_owner (l k) = token_id /\ length (a_data (l k)) = 165%nat.
