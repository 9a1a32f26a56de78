(** Alice gives Bob ORCA, for an Example of C80. *)
From Verif Require Import LandSpec Scripts Demo DemoMore DemoClient DemoScripts DemoWire DemoExec.
Import List ListNotations.
Open Scope list_scope.
Open Scope Z_scope.

Definition give_ops (E : Z -> env) : list op := [OpToken (E 2060) [alice] [] (TC_Transfer alice_orca bob_orca alice 4000)].
Lemma give_is E : transfer_script demo_crypto (E 2060) (shop 7) alice bob 4000 = Some (give_ops E).
Proof. vm_cast_no_check (eq_refl (Some (give_ops E))). Qed.
Definition give : built := Eval vm_compute in match instructions_of (give_ops demo_env) with Some (b :: _) => b | _ => alice_stake end.
Definition donate : built := Eval vm_compute in match deposit_ixs with b :: _ => b | [] => alice_stake end.
Definition hand_mint : built := Eval vm_compute in
  match instructions_of (nth 0 shop_txs []) with Some (b :: _) => b | _ => alice_stake end.
