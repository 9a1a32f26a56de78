(** Words for C81: waiting while others send packets. *)
From Verif Require Export LandSpec GuardSpec.
Import List ListNotations.
Open Scope list_scope.
Open Scope Z_scope.

(** Packets with the environment and the lookup tables of their time. *)
Definition traffic := list (env * (pubkey -> list pubkey) * list byte).
(** [u] signed none of them. *)
Definition quiet (verify : pubkey -> list byte -> list byte -> bool) (u : pubkey) (ds : traffic) : Prop :=
  Forall (fun p => ~ carries verify (snd p) u) ds.
Definition regular (ds : traffic) : Prop := Forall (fun p => sysvars_ok (fst (fst p))) ds.
(** [k] is an account of [u] with tokens of [mint] over which [u] has given no powers. *)
Definition plainly_owned (l : ledger) (k mint u : pubkey) : Prop :=
  token_account_of l k mint u /\ ordinary l k /\ ta_delegate_flag (a_data (l k)) = 0 /\ ta_close_flag (a_data (l k)) = 0.
(** While one of the packets ran, two inputs of the address hash for its signer or the
    owner of a record had the same result. *)
Definition clash (C : crypto) (verify : pubkey -> list byte -> list byte -> bool) (reserved : pubkey -> bool)
    (l : ledger) (ds : traffic) : Prop :=
  exists ds1 E tables d ds2 l1 un, ds = ds1 ++ (E, tables, d) :: ds2 /\
    landing C E verify d (fst (lands C verify reserved l ds1)) l1 /\ carries verify d un /\ collision C (claimants l1 un).
