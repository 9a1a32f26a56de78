(** The runtime's comparison at work. *)
From Verif Require Import Runtime HistoryFacts Demo DemoMore.
From Coq Require Import Init.Byte.
Import List ListNotations.
Open Scope list_scope.
Open Scope Z_scope.

(** A signer so rich that the refund would overflow. *)
Definition rich : ledger := set_lamports (demo 9) alice u64_max.
Definition verdict {E A} (r : res E A) : option E := match r with Ok _ => None | Err e => Some e end.

Transparent demo.
Lemma demo_small :
  forallb (fun m => a_lamports (demo 9 (m_key m)) <? 2 ^ 62) (withdraw_accs alice alice_orca alice_record) = true.
Proof. vm_cast_no_check (eq_refl true). Qed.
Lemma rich_refused :
  (verdict (process_instruction_r demo_crypto (demo_env 2100) xorca_id (withdraw_accs alice alice_orca alice_record) rich
     (instruction_bytes (Withdraw 0))),
   verdict (process_instruction demo_crypto (demo_env 2100) xorca_id (withdraw_accs alice alice_orca alice_record) rich
     (instruction_bytes (Withdraw 0)))) = (Some (Refused ExternalAccountLamportSpend), Some EPanic).
Proof. vm_cast_no_check (eq_refl (Some (Refused ExternalAccountLamportSpend), Some EPanic)). Qed.
Global Opaque demo.

(** Changes a program may not make, to a ledger holding one account of its own and one of the token program. *)
Definition before : ledger :=
  upd (upd (fun _ => empty_account) demo_state (Account 5 xorca_id [x01]))
      alice_orca (Account 5 token_id [x01]).
Definition two (s : bool) : list meta := [Meta demo_state false s; Meta alice_orca false true].
