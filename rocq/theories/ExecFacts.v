(** Executed packets are transactions of the model. *)
From Verif Require Export ExecSpec WireRuntime.
From Verif Require Import BytesFacts LedgerFacts TransactionFacts HistoryFacts.
Import List ListNotations.
Open Scope list_scope.
Open Scope Z_scope.

Lemma attempt_one C l o r : attempt C l o = Ok r -> attempt_all C l [o] = Ok r.
Proof.
  intros H. cbn [attempt_all]. rewrite H. cbn [bind fst snd]. rewrite app_nil_r. now destruct r.
Qed.

Lemma attempt_app C a : forall l b r r',
  attempt_all C l a = Ok r -> attempt_all C (fst r) b = Ok r' ->
  attempt_all C l (a ++ b) = Ok (fst r', snd r ++ snd r').
Proof.
  induction a as [|o a IH]; intros l b r r' H H'.
  - cbn in H. inversion H. subst r. cbn [fst snd app] in *. rewrite H'. now destruct r'.
  - cbn [app attempt_all] in *. destruct (attempt C l o) as [x|]; [|discriminate]. cbn [bind] in *.
    destruct (attempt_all C (fst x) a) as [y|] eqn:Y; [|discriminate]. cbn [bind] in H. inversion H. subst r.
    cbn [fst snd] in *. rewrite (IH _ _ _ _ Y H'). cbn [bind fst snd]. now rewrite app_assoc.
Qed.

Lemma steps_app C a : forall l b r,
  steps_ok C l a -> attempt_all C l a = Ok r -> steps_ok C (fst r) b -> steps_ok C l (a ++ b).
Proof.
  induction a as [|o a IH]; intros l b r S H S'.
  - cbn in H. inversion H. subst r. exact S'.
  - cbn [app steps_ok attempt_all] in *. destruct S as [O S]. split; [exact O|].
    destruct (attempt C l o) as [x|]; [|exact I]. cbn [bind] in H.
    destruct (attempt_all C (fst x) a) as [y|] eqn:Y; [|discriminate]. cbn [bind] in H. inversion H. subst r.
    eapply IH; [exact S|exact Y|exact S'].
Qed.

Lemma signing_honest C accs : honest_metas C accs -> honest_signers C (signing_keys accs).
Proof.
  intros H k I. apply in_map_iff in I. destruct I as (m & <- & I). apply filter_In in I. now apply H.
Qed.

Lemma byte_range b : 0 <= byte_to_Z b <= 255.
Proof. pose proof (byte_to_Z_range b). lia. Qed.

Lemma u64_field d n r : field_u64 d = Some (n, r) -> (0 <=? n) && (n <=? u64_max) = true.
Proof.
  unfold field_u64. intros H. apply obind_some in H. destruct H as ([x s] & H & Q). cbn [fst snd] in Q.
  apply take_bytes_is in H. destruct H as [L _]. assert (n = le_dec x) by congruence. subst n.
  pose proof (le_dec_range x) as R. unfold zlen in R. rewrite L in R. apply andb_true_iff. unfold u64_max.
  split; apply Z.leb_le; change (256 ^ Z.of_nat 8) with 18446744073709551616 in R; lia.
Qed.

Lemma u8_field d n r : field_u8 d = Some (n, r) -> (0 <=? n) && (n <=? u8_max) = true.
Proof.
  unfold field_u8. destruct d as [|b d]; [discriminate|]. intros H. assert (n = byte_to_Z b) by congruence. subst n.
  pose proof (byte_range b). apply andb_true_iff. unfold u8_max. split; apply Z.leb_le; lia.
Qed.

Ltac fields H :=
  repeat match type of H with
  | obind _ _ = Some _ =>
      let x := fresh "x" in let r := fresh "r" in let F := fresh "F" in
      apply obind_some in H; destruct H as ([x r] & F & H); cbn [fst snd] in H
  end.

Lemma token_request_ok ks data q c :
  token_request_of ks data = Some q -> tq_call q = Some c -> token_call_ok c = true.
Proof.
  unfold token_request_of. intros H T. apply obind_some in H. destruct H as ([t d] & _ & H).
  cbv zeta in H. cbn [fst snd] in H.
  assert (U : forall x r, field_u64 d = Some (x, r) -> (0 <=? x) && (x <=? u64_max) = true) by (intros; eapply u64_field; eassumption).
  assert (V : forall x r, field_u8 d = Some (x, r) -> (0 <=? x) && (x <=? u8_max) = true) by (intros; eapply u8_field; eassumption).
  repeat match type of H with
  | match ?x with _ => _ end = Some _ => destruct x; try discriminate
  end;
  repeat match type of H with
  | obind ?o _ = Some _ =>
      let x := fresh "x" in let F := fresh "F" in
      apply obind_some in H; destruct H as (x & F & H)
  end;
  inversion H; subst q; cbn [tq_call] in T; inversion T; subst c; cbn [token_call_ok];
  try reflexivity;
  repeat match goal with
  | F : field_u64 d = Some ?p |- _ => destruct p; eapply U; exact F
  | F : field_u8 d = Some ?p |- _ => destruct p; eapply V; exact F
  end.
Qed.

Lemma field_nonneg d n r : field_u64 d = Some (n, r) -> 0 <= n.
Proof. intros H. apply u64_field in H. apply andb_true_iff in H. destruct H as [H _]. now apply Z.leb_le. Qed.

Lemma system_call_of_ok ks data c : system_call_of ks data = Some c -> system_call_ok c.
Proof.
  unfold system_call_of. intros H. apply obind_some in H. destruct H as ([t d] & _ & H).
  cbv zeta in H. cbn [fst snd] in H.
  repeat match type of H with
  | match ?x with _ => _ end = Some _ => destruct x; try discriminate
  end;
  fields H; inversion H; subst c; cbn [system_call_ok]; auto;
  repeat match goal with F : field_u64 _ = Some _ |- _ => apply field_nonneg in F end; auto.
Qed.

(** The steps that one instruction makes. *)
Definition instruction_step (E : env) (bs : list built) (o : op) : Prop :=
  match o with
  | OpCall E' accs data => E' = E /\ exists b, In b bs /\ b_program b = xorca_id /\ b_accounts b = accs /\ b_data b = data
  | OpToken E' sgs _ _ | OpAta E' sgs _ _ _ _ => E' = E /\ exists b, In b bs /\ sgs = signing_keys (b_accounts b)
  | OpSystem sgs _ => exists b, In b bs /\ sgs = signing_keys (b_accounts b)
  | _ => False
  end.

Lemma ata_made C E sg l p a w m l' : ata_create_idempotent C E sg l p a w m = Ok l' -> is_ata C w m a.
Proof.
  unfold ata_create_idempotent, is_ata, ata_seeds.
  destruct (find_program_address C _ ata_id) as [[k b]|]; [|discriminate].
  unfold fail_if. destruct (key_eqb k a) eqn:K; [|discriminate]. intros _. apply key_eqb_true in K. subst. now exists b.
Qed.

Lemma one_step C E l b o r :
  op_ok C l o -> instruction_step E [b] o -> attempt C l o = Ok r ->
  exists ops, steps_ok C l ops /\ attempt_all C l ops = Ok r /\ Forall (instruction_step E [b]) ops.
Proof.
  intros O I A. exists [o]. split; [|split; [now apply attempt_one|now repeat constructor]].
  cbn [steps_ok]. split; [exact O|]. now rewrite A.
Qed.

Lemma execute_one_steps C E l b r :
  sysvars_ok E -> ata_apart C -> honest_metas C (b_accounts b) ->
  execute_one C E l b = Ok r ->
  exists ops, steps_ok C l ops /\ attempt_all C l ops = Ok r /\ Forall (instruction_step E [b]) ops.
Proof.
  intros SV AP HM. pose proof (signing_honest C _ HM) as HS. unfold execute_one. cbv zeta. intros H.
  match type of H with bind ?x _ = _ => destruct x as [r0|] eqn:R; [|discriminate] end. cbn [bind] in H.
  destruct (readonly_kept _ _ _); [|discriminate]. cbn in H. assert (r0 = r) by congruence. subst r0. clear H.
  assert (IB : In b [b]) by now left.
  destruct (key_eqb (b_program b) xorca_id) eqn:P1.
  { apply key_eqb_true in P1. apply (one_step C E l b (OpCall E (b_accounts b) (b_data b))).
    - split; assumption.
    - split; [reflexivity|]. exists b. auto.
    - exact R. }
  destruct (key_eqb (b_program b) token_id).
  { unfold exec_token in R. destruct (token_request_of _ _) as [q|] eqn:T; [|discriminate].
    destruct (match tq_check q with Some _ => _ | None => _ end) as [[]|]; [|discriminate]. cbn [bind] in R.
    destruct (tq_call q) as [c|] eqn:Tc.
    - apply (one_step C E l b (OpToken E (signing_keys (b_accounts b)) (filter (signs (signing_keys (b_accounts b))) (tq_extra q)) c)).
      + split; [assumption|]. split; [assumption|]. eapply token_request_ok; eassumption.
      + split; [reflexivity|]. now exists b.
      + exact R.
    - exists []. cbn in *. split; [exact I|]. split; [exact R|constructor]. }
  destruct (key_eqb (b_program b) system_id).
  { unfold exec_system in R. destruct (system_call_of _ _) as [c|] eqn:T; [|discriminate].
    apply (one_step C E l b (OpSystem (signing_keys (b_accounts b)) c)).
    - split; [assumption|]. eapply system_call_of_ok; eassumption.
    - now exists b.
    - exact R. }
  destruct (key_eqb (b_program b) ata_id); [|discriminate].
  unfold exec_ata in R. destruct (map m_key (b_accounts b)) as [|payer [|ata [|wallet [|mint rest]]]]; try discriminate.
  assert (R' : attempt C l (OpAta E (signing_keys (b_accounts b)) payer ata wallet mint) = Ok r).
  { cbn [attempt]. destruct (map byte_to_Z (b_data b)) as [|[| |] []]; try discriminate;
    repeat match type of R with context [match ?p with xH => _ | _ => _ end] => destruct p; try discriminate end;
    try exact R; (destruct (key_eqb (a_owner (l ata)) system_id); [exact R|discriminate]). }
  apply (one_step C E l b (OpAta E (signing_keys (b_accounts b)) payer ata wallet mint)).
  - split; [assumption|]. intros k [<-|Ik]; [|now apply HS]. cbn [attempt] in R'.
    destruct (ata_create_idempotent _ _ _ _ _ _ _ _) as [l'|] eqn:A; [|discriminate]. eapply AP. eapply ata_made. exact A.
  - split; [reflexivity|]. now exists b.
  - exact R'.
Qed.

Lemma instruction_step_more E bs bs' o : incl bs bs' -> instruction_step E bs o -> instruction_step E bs' o.
Proof.
  intros S. destruct o; cbn [instruction_step]; try tauto;
    [intros [Q (b & Ib & H)]|intros [Q (b & Ib & H)]|intros (b & Ib & H)|intros [Q (b & Ib & H)]];
    try (split; [exact Q|]); exists b; (split; [now apply S|exact H]).
Qed.

Lemma execute_steps C E : sysvars_ok E -> ata_apart C ->
  forall bs l r, (forall b, In b bs -> honest_metas C (b_accounts b)) ->
  execute C E l bs = Ok r ->
  exists ops, steps_ok C l ops /\ attempt_all C l ops = Ok r /\ Forall (instruction_step E bs) ops.
Proof.
  intros SV AP. induction bs as [|b bs IH]; intros l r H X; cbn [execute] in X.
  - exists []. cbn in *. auto.
  - destruct (execute_one C E l b) as [r1|] eqn:X1; [|discriminate]. cbn [bind] in X.
    destruct (execute C E (fst r1) bs) as [r2|] eqn:X2; [|discriminate]. cbn [bind] in X.
    destruct (execute_one_steps C E l b r1 SV AP (H b (or_introl eq_refl)) X1) as (a & S1 & A1 & F1).
    destruct (IH (fst r1) r2 (fun x i => H x (or_intror i)) X2) as (c & S2 & A2 & F2).
    exists (a ++ c). split; [eapply steps_app; eassumption|]. split.
    + rewrite <- X. now apply attempt_app.
    + apply Forall_app. split; (eapply Forall_impl; [|eassumption]); intros o; apply instruction_step_more;
        intros x; cbn; tauto.
Qed.
