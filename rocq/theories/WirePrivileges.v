(** More privileges never change what an accepted call does. *)
From Verif Require Export WireSpec.
From Verif Require Import BytesFacts LedgerFacts LocalFacts.
Import List ListNotations.
Open Scope list_scope.

Definition more (m m' : meta) : Prop :=
  m_key m' = m_key m /\ (m_signer m = true -> m_signer m' = true) /\
  (m_writable m = true -> m_writable m' = true).

Lemma le_got {B} accs accs' n (f f' : meta -> res err B) :
  delivered accs accs' ->
  (forall k s s' w w', (s = true -> s' = true) -> (w = true -> w' = true) ->
     ok_le (f (Meta k s w)) (f' (Meta k s' w'))) ->
  ok_le (bind (get_account_info accs n) f) (bind (get_account_info accs' n) f').
Proof.
  intros D H. unfold get_account_info.
  assert (N : forall m, nth_error accs n = Some m -> exists m', nth_error accs' n = Some m' /\ more m m').
  { clear H. revert n. induction D as [|m m' a a' M D IH]; intros [|n] x; cbn [nth_error]; try discriminate.
    - intros Q. injection Q as <-. exists m'. split; [reflexivity|exact M].
    - apply IH. }
  destruct (nth_error accs n) as [m|]; [|now intros x Q].
  destruct (N m eq_refl) as (m' & -> & Q & S & W). cbn [bind]. destruct m, m'. cbn in *. subst. now apply H.
Qed.

Lemma le_role k s s' w w' roles :
  (s = true -> s' = true) -> (w = true -> w' = true) ->
  ok_le (assert_account_role (Meta k s w) roles) (assert_account_role (Meta k s' w') roles).
Proof.
  intros S W. induction roles as [|r roles IH]; [apply LocalFacts.le_refl|]. cbn [assert_account_role].
  apply le_bind; [|intros _; exact IH].
  destruct r; cbn [m_signer m_writable]; intros x.
  - destruct s; [|discriminate]. rewrite (S eq_refl). auto.
  - destruct w; [|discriminate]. rewrite (W eq_refl). auto.
Qed.

Lemma existsb_delivered (p : meta -> bool) accs accs' :
  (forall m m', more m m' -> p m = true -> p m' = true) ->
  delivered accs accs' -> existsb p accs = true -> existsb p accs' = true.
Proof.
  intros P D. induction D as [|m m' a a' M D IH]; [discriminate|]. cbn [existsb].
  rewrite !orb_true_iff. intros [H|H]; [left; now apply (P m m')|right; now apply IH].
Qed.

Lemma le_privileged C accs accs' seeds callee inner body :
  delivered accs accs' ->
  ok_le (invoke_signed C accs seeds callee inner body) (invoke_signed C accs' seeds callee inner body).
Proof.
  intros D.
  assert (H1 : forall k, caller_has_key accs k = true -> caller_has_key accs' k = true).
  { intros k. apply existsb_delivered; [|exact D]. intros m m' (-> & _). auto. }
  assert (H2 : forall k, caller_signs accs k = true -> caller_signs accs' k = true).
  { intros k. apply existsb_delivered; [|exact D]. intros m m' (-> & S & _).
    rewrite !andb_true_iff. tauto. }
  assert (H3 : forall k, caller_writes accs k = true -> caller_writes accs' k = true).
  { intros k. apply existsb_delivered; [|exact D]. intros m m' (-> & _ & S).
    rewrite !andb_true_iff. tauto. }
  unfold invoke_signed. apply le_bind; [apply LocalFacts.le_refl|]. intros pdas. apply le_bind.
  { intros x. unfold fail_if. destruct (caller_has_key accs callee) eqn:K; [|discriminate].
    rewrite (H1 _ K). auto. }
  intros _. apply le_bind; [|intros _; apply LocalFacts.le_refl].
  intros x. unfold fail_if. destruct (forallb (meta_allowed accs pdas) inner) eqn:F; [|discriminate].
  replace (forallb (meta_allowed accs' pdas) inner) with true; [auto|]. symmetry.
  rewrite forallb_forall in F |- *. intros m Hm. specialize (F m Hm). unfold meta_allowed in *.
  rewrite !andb_true_iff, !orb_true_iff in *. destruct F as [[F1 F2] F3].
  split; [split|]; [now apply H1|destruct F2 as [[F2|F2]|F2]; auto|destruct F3; auto].
Qed.

Lemma le_owner_assertions l ka sa sa' wa wa' kb sb sb' wb wb' kc sc sc' wc wc' w :
  (sa = true -> sa' = true) -> (wa = true -> wa' = true) ->
  ok_le (make_owner_token_account_assertions l (Meta ka sa wa) (Meta kb sb wb) (Meta kc sc wc) w)
        (make_owner_token_account_assertions l (Meta ka sa' wa') (Meta kb sb' wb') (Meta kc sc' wc') w).
Proof.
  intros S W. unfold make_owner_token_account_assertions. apply le_bind; [|intros _; apply LocalFacts.le_refl].
  destruct w; [now apply le_role|apply LocalFacts.le_refl].
Qed.

Lemma le_created C E accs accs' l f f' a a' s o seeds :
  delivered accs accs' -> m_key f' = m_key f -> m_key a' = m_key a ->
  ok_le (create_account_secure C E accs l f a s o seeds) (create_account_secure C E accs' l f' a' s o seeds).
Proof.
  intros D Ef Ea. unfold create_account_secure. rewrite Ea. cbv zeta.
  unfold cpi_system_create, cpi_system_transfer, cpi_system_allocate, cpi_system_assign. rewrite Ef, Ea.
  apply le_if; [apply LocalFacts.le_refl|]. apply le_if; [now apply le_privileged|].
  apply le_bind; [apply le_if; [now apply le_privileged|apply LocalFacts.le_refl]|]. intros l1.
  apply le_bind; [now apply le_privileged|]. intros l2. now apply le_privileged.
Qed.

Ltac mores D := repeat lazymatch goal with
  | |- ok_le (bind (get_account_info _ _) _) _ => apply (le_got _ _ _ _ _ D); intros ? ? ? ? ? ? ?
  | |- ok_le (bind (assert_account_role _ _) _) _ => apply le_bind; [now apply le_role|intros ?]
  | |- ok_le (bind (make_owner_token_account_assertions _ _ _ _ _) _) _ =>
      apply le_bind; [now apply le_owner_assertions|intros ?]
  | |- ok_le (bind (invoke_signed _ _ _ _ _ _) _) _ => apply le_bind; [now apply le_privileged|intros ?]
  | |- ok_le (bind (create_account_secure _ _ _ _ _ _ _ _ _) _) _ =>
      apply le_bind; [now apply le_created|intros ?]
  | |- ok_le (bind (bind _ _) _) _ => apply le_bind; [|intros ?]
  | |- ok_le (bind ?x _) _ => apply le_bind; [exact (LocalFacts.le_refl x)|intros ?]
  | |- ok_le (if _ then _ else _) _ => apply le_if
  | |- ok_le ?x _ => exact (LocalFacts.le_refl x)
  end.

Theorem privileges_keep C E pid accs accs' l data r :
  delivered accs accs' ->
  process_instruction C E pid accs l data = Ok r -> process_instruction C E pid accs' l data = Ok r.
Proof.
  intros D. revert r.
  change (ok_le (process_instruction C E pid accs l data) (process_instruction C E pid accs' l data)).
  unfold process_instruction. apply le_bind; [apply LocalFacts.le_refl|]. intros _.
  destruct (deserialize read_instruction data) as [[]|]; [..|apply LocalFacts.le_refl].
  - unfold stake_process, cpi_token_transfer, cpi_token_mint_to. mores D.
  - unfold unstake_process, cpi_token_burn, create_pending_account. repeat (mores D; cbv zeta).
  - unfold withdraw_process, cpi_token_transfer. mores D.
  - unfold initialize_process, cpi_ata_create, create_state_account. repeat (mores D; cbv zeta).
    destruct (find_vault_address _ _ _ _) as [[v vb]|]; [|apply LocalFacts.le_refl]. repeat (mores D; cbv zeta).
  - unfold set_process. mores D.
Qed.
