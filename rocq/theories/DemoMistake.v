(** Accepted calls of the demo, for the examples about mistakes. *)
From Verif Require Import MistakeSpec HistoryFacts Transaction Demo DemoMore.
Import List ListNotations.
Open Scope list_scope.
Open Scope Z_scope.

Lemma demo_accepts n v evs E accs data :
  nth_error demo_trace n = Some (v, evs, true) -> nth_error demo_ops n = Some (OpCall E accs data) ->
  accepted demo_crypto E accs (demo n) data.
Proof.
  intros H Ho. pose proof (demo_step_ok n v evs _ H Ho I) as S. cbn [attempt] in S. unfold accepted.
  now rewrite S.
Qed.
Ltac demo_accepted n := exact (demo_accepts n _ _ _ _ _ eq_refl eq_refl).
Ltac demo_encodes :=
  split; [cbn; unfold is_u8, is_u64, is_i64, i64_min, i64_max, u64_max; try lia; try exact I
         |eexists; symmetry; apply app_nil_r].
