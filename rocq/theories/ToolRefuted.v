(** A CPI builder swaps the flags of the accounts added to it. *)
From Coq Require Import String.
From Verif Require Import BytesFacts LedgerFacts ToolSpec BuilderFacts Demo.
Import List ListNotations.
Open Scope list_scope.
Open Scope Z_scope.

(** A program that was given the accounts of Set and bob's ORCA account, writable. *)
Definition caller_accs : list meta := [ws admin; w_ demo_state; w_ bob_orca; r_ xorca_id].

Lemma caller_may_pass : Forall (may_pass caller_accs []) (set_roles admin demo_state).
Proof.
  repeat apply Forall_cons; [| |apply Forall_nil].
  - split; [|split]; intros; [|right|]; exists (ws admin); cbn; auto.
  - split; [|split]; intros; [|discriminate|]; exists (w_ demo_state); cbn; auto.
Qed.
Lemma caller_may_pass_bob : may_pass caller_accs [] (bob_orca, false, true).
Proof. split; [|split]; intros; [|discriminate|]; exists (w_ bob_orca); cbn; auto. Qed.
Lemma caller_has_program : exists m, In m caller_accs /\ m_key m = xorca_id.
Proof. exists (r_ xorca_id). cbn; auto 6. Qed.

Lemma cpi_builder_flags_refuted :
  ~ (forall C caller accounts added o i rs,
       rust_cpi_builder added o i rs ->
       (exists m, In m accounts /\ m_key m = xorca_id) ->
       Forall (may_pass accounts []) rs ->
       (forall account is_writable is_signer, In (account, is_writable, is_signer) added ->
          may_pass accounts [] (account, is_signer, is_writable)) ->
       exists call accs, o = Some call /\ runtime_cpi C caller accounts [] call = Ok accs).
Proof.
  intros H.
  destruct (H demo_crypto alice caller_accs [(bob_orca, true, false)] _ _ _
    (CpiBuilderSet [(bob_orca, true, false)] admin demo_state (UpdateCoolDownPeriod 50) ltac:(cbn; unfold is_i64, i64_min, i64_max; lia))
    caller_has_program caller_may_pass) as (call & accs & E & R).
  - intros k w s [[=<- <- <-]|[]]. exact caller_may_pass_bob.
  - injection E as <-. vm_compute in R. discriminate.
Qed.
