(** Vocabulary of C74. *)
From Verif Require Import GuardSpec.
Import List ListNotations.

(** Step [o] neither stakes nor unstakes. *)
Definition no_trade (C : crypto) (l : ledger) (o : op) : Prop :=
  forall accs t, (forall a, ~ performs C l o (Stake a) accs t) /\ (forall x i, ~ performs C l o (Unstake x i) accs t).

(** No step of a history does. *)
Definition no_trades (C : crypto) (l : ledger) (ops : list op) : Prop :=
  forall n o, nth_error ops n = Some o -> no_trade C (after C l (firstn n ops)) o.
