(** Transactions are all or nothing, and executions made of transactions are
    executions in the sense of [history] (C22). *)
From Verif Require Import Spec Transaction HistoryFacts PoolHistory.

Lemma run_op_attempt C l o :
  run_op C l o = match attempt C l o with Ok r => r | Err _ => (l, []) end.
Proof.
  destruct o; cbn [run_op attempt]; try reflexivity.
  - now destruct (token_exec _ _ _ _ _).
  - now destruct (system_exec _ _ _).
  - now destruct (ata_create_idempotent _ _ _ _ _ _ _ _).
Qed.

Lemma attempt_all_ok C ops : forall l r,
  attempt_all C l ops = Ok r ->
  forall l0 ops0 evs0, history C l0 ops0 l evs0 -> steps_ok C l ops ->
  history C l0 (ops0 ++ ops) (fst r) (evs0 ++ snd r).
Proof.
  induction ops as [|o ops IH]; cbn [attempt_all steps_ok]; intros l r H l0 ops0 evs0 Hh Hok.
  - injection H as <-. cbn. now rewrite !app_nil_r.
  - destruct Hok as [Ho Hrest]. destruct (attempt C l o) as [r1|] eqn:E1; [|discriminate]. cbn [bind] in H.
    destruct (attempt_all C (fst r1) ops) as [r2|] eqn:E2; [|discriminate]. injection H as <-. cbn [fst snd].
    assert (Hr : run_op C l o = r1) by (rewrite run_op_attempt, E1; reflexivity).
    pose proof (history_step C l0 ops0 l evs0 o Hh Ho) as Hs. rewrite Hr in Hs.
    specialize (IH _ _ E2 _ _ _ Hs Hrest). now rewrite <- !app_assoc in IH.
Qed.

Theorem failed_step C l o e : attempt C l o = Err e -> run_op C l o = (l, []).
Proof. intros H. now rewrite run_op_attempt, H. Qed.

Theorem all_or_nothing C l ops :
  (exists e, attempt_all C l ops = Err e /\ transaction C l ops = (l, [])) \/
  (transaction C l ops = (after C l ops, snd (transaction C l ops)) /\
   forall n o, nth_error ops n = Some o -> exists r, attempt C (after C l (firstn n ops)) o = Ok r).
Proof.
  unfold transaction. destruct (attempt_all C l ops) as [r|e] eqn:H; [right|left; eauto].
  revert l r H. induction ops as [|o ops IH]; intros l r H; cbn [attempt_all] in H.
  - injection H as <-. split; [reflexivity|]. intros n o Hn. now destruct n.
  - destruct (attempt C l o) as [r1|] eqn:E1; [|discriminate]. cbn [bind] in H.
    destruct (attempt_all C (fst r1) ops) as [r2|] eqn:E2; [|discriminate]. injection H as <-. cbn [fst snd].
    assert (Hr : run_op C l o = r1) by (rewrite run_op_attempt, E1; reflexivity).
    destruct (IH _ _ E2) as [I1 I2]. split.
    + unfold after. cbn [fold_left]. rewrite Hr. unfold after in I1. now rewrite (f_equal fst I1).
    + intros [|n] o' Hn; cbn [nth_error firstn] in *.
      * injection Hn as <-. cbn. eauto.
      * unfold after. cbn [fold_left]. rewrite Hr. apply I2. exact Hn.
Qed.

Theorem tx_is_history C l0 txs l evs :
  tx_history C l0 txs l evs -> exists ops, history C l0 ops l evs.
Proof.
  induction 1 as [|txs l evs ops H [ops0 IH] Hok]; [exists []; constructor|].
  unfold transaction. destruct (attempt_all C l ops) as [r|] eqn:E.
  - exists (ops0 ++ ops). eapply attempt_all_ok; eassumption.
  - exists ops0. cbn. now rewrite app_nil_r.
Qed.

Theorem tx_reaches C l0 txs l evs : genesis C l0 -> tx_history C l0 txs l evs -> reaches C l.
Proof. intros Hg H. apply tx_is_history in H. destruct H as [ops H]. exists l0, ops, evs. auto. Qed.
