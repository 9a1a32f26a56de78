(** A user who keeps one lamport more than a record costs. *)
From Verif Require Import RentSpec HistoryFacts LifeFacts Demo DemoMore.
Import List ListNotations.
Open Scope list_scope.
Open Scope Z_scope.

Definition spend : op := OpSystem [alice] (SC_Transfer alice bob 9991982079).
Definition poor : ledger := fst (run_op demo_crypto (demo 2) spend).
Definition poor_unstake : op := demo_call 2000 (unstake_accs alice alice_xorca alice_record) (Unstake 1000000 0).

Lemma poor_reached : reaches demo_crypto poor.
Proof.
  apply reaches_step; [apply demo_reaches|]. split; [|cbn; unfold is_u64, u64_max; lia].
  intros k [<-|[]]. apply demo_not_pda. demo_in.
Qed.

Definition left_over (r : res err (ledger * list (list byte))) : option (Z * nat) :=
  match r with Ok (l, _) => Some (a_lamports (l alice), length (a_data (l alice))) | Err _ => None end.
Transparent demo.
Lemma poor_ends :
  (a_lamports (poor alice), length (a_data (poor alice)),
   left_over (process_instruction demo_crypto (demo_env 2000) xorca_id (unstake_accs alice alice_xorca alice_record) poor
     (instruction_bytes (Unstake 1000000 0)))) = (8017921, 0%nat, Some (1, 0%nat)).
Proof. vm_cast_no_check (eq_refl (8017921, 0%nat, Some (1, 0%nat))). Qed.
Global Opaque demo.

Lemma poor_called : exists l' evs,
  process_instruction demo_crypto (demo_env 2000) xorca_id (unstake_accs alice alice_xorca alice_record) poor
    (instruction_bytes (Unstake 1000000 0)) = Ok (l', evs) /\
  a_lamports (poor alice) = 8017921 /\ length (a_data (poor alice)) = 0%nat /\ a_lamports (l' alice) = 1.
Proof.
  pose proof poor_ends as H. apply pair_equal_spec in H. destruct H as [H H3]. apply pair_equal_spec in H. destruct H as [H1 H2].
  destruct (process_instruction _ _ _ _ _ _) as [[l' evs]|e]; cbn [left_over] in H3; [|discriminate H3].
  exists l', evs. split; [reflexivity|]. split; [exact H1|]. split; [exact H2|]. congruence.
Qed.
