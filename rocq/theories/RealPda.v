(** The real hash and curve test: the addresses in the repository's own tests
    (/repo/rust-client/src/pda/mod.rs:36-58) and the assumptions on [crypto] made by
    the theorems.  Nothing else depends on this file. *)
From Coq Require Import String.
From Verif Require Import Base58 Spec Client.
Import List ListNotations.
Open Scope list_scope.
Open Scope Z_scope.

Definition real_state : pubkey := Eval vm_compute in b58_key "CSqKhyW1cpdyjheAx5HXx4ibcnYrzpL5JywEMAkZixBK".
Definition test_unstaker : pubkey := Eval vm_compute in b58_key "A1tYHa3233WKDX5fZuZNmHMUVTSB12sR1RoVeGT8XV85".
Definition test_record_0 : pubkey := Eval vm_compute in b58_key "7hA1R5rPjcj6m7G2HcxnQ82aNumKT9FKQ6ALS2yYXeq6".
Definition test_record_1 : pubkey := Eval vm_compute in b58_key "D6i7r2sBNozTvdKuSSE2HdfqPb9sTd7gNd8jsCtR8quW".

Lemma real_state_found : find_state_address real_crypto = Some (real_state, xfa).
Proof. vm_cast_no_check (eq_refl (Some (real_state, xfa))). Qed.

(** pda/mod.rs:38-42 and :44-58 *)
Example real_state_ex : rust_find_state real_crypto = Some (real_state, xfa).
Proof.
  assert (E : forall C, rust_find_state C = find_state_address C) by reflexivity. rewrite E. exact real_state_found.
Qed.
Example real_record_0_ex : rust_find_pending real_crypto test_unstaker 0 = Some (test_record_0, xff).
Proof. vm_cast_no_check (eq_refl (Some (test_record_0, xff))). Qed.
Example real_record_1_ex :
  create_program_address real_crypto (pending_seeds test_unstaker 1 ++ [[xfb]]) xorca_id = Some test_record_1.
Proof. vm_cast_no_check (eq_refl (Some test_record_1)). Qed.

(** The two conditions on [crypto] hold on chain. *)
Theorem real_ordinary : ordinary_state_address real_crypto.
Proof. intros k b H. rewrite real_state_found in H. injection H as <- _. reflexivity. Qed.
Theorem real_deployer : deployer_has_key real_crypto.
Proof. vm_cast_no_check (eq_refl true). Qed.

Print Assumptions real_ordinary.
Print Assumptions real_deployer.
