(** The runtime's rent check (agave, svm/src/rent_calculator.rs): after a
    transaction no writable account may have become rent-paying.  Definitions only;
    nothing here is used by the model. *)
From Verif Require Export Spec.
Open Scope Z_scope.

Inductive rent_class := Unfunded | Paying (lamports size : Z) | Exempt.

Definition rent_class_of (E : env) (a : account) : rent_class :=
  if a_lamports a =? 0 then Unfunded
  else if rent_min E (zlen (a_data a)) <=? a_lamports a then Exempt
  else Paying (a_lamports a) (zlen (a_data a)).

(** Becoming unfunded or exempt is always allowed; staying rent-paying is, with the
    same size and no more lamports. *)
Definition class_change_allowed (before after : rent_class) : bool :=
  match after with
  | Unfunded | Exempt => true
  | Paying n size =>
      match before with
      | Paying n0 size0 => (size =? size0) && (n <=? n0)
      | Unfunded | Exempt => false
      end
  end.
Definition passes_rent (E : env) (l l' : ledger) (k : pubkey) : Prop :=
  class_change_allowed (rent_class_of E (l k)) (rent_class_of E (l' k)) = true.
