(** For the Examples of C80. *)
From Verif Require Import LandSpec LandFacts RentCheckFacts AddressFacts Client ClientSpec
  Demo DemoMore DemoClient DemoScripts DemoWire DemoExec DemoLand.
Import List ListNotations.
Open Scope list_scope.
Open Scope Z_scope.

Lemma demo_pays t l k : wallet l k -> 895880 <= a_lamports (l k) -> can_pay (demo_env t) l k 5000.
Proof.
  intros [A B] L. split; [exact A|]. split; [exact B|]. split; [lia|]. split; [lia|].
  apply exempt_passes. rewrite paid_data, paid_same, B. cbn [a_lamports].
  change (rent_min (demo_env t) (zlen [])) with 890880. lia.
Qed.
Definition stake_again : built := Eval vm_compute in
  match instructions_of (nth 3 shop_txs []) with Some (b :: _) => b | _ => alice_stake end.
Definition hand_over : built := Eval vm_compute in
  match script_set_authority demo_crypto admin alice with Some b => b | None => alice_stake end.
Lemma hand_over_built : script_set_authority demo_crypto admin alice = Some hand_over.
Proof. vm_cast_no_check (eq_refl (Some hand_over)). Qed.
Lemma arrives reserved ixs :
  forallb (fun b => forallb (fun m => negb (m_writable m) ||
    negb (reserved (m_key m)) && negb (is_calledb ixs (m_key m))) (b_accounts b)) ixs = true -> may_arrive reserved ixs.
Proof. exact (writes_kept reserved ixs). Qed.
