(** What steps outside the program can do to the program's accounts, the vault and
    the xORCA mint. *)
From Verif Require Import History BytesFacts FieldFacts LedgerFacts TokenFacts ParseFacts CpiFacts
  AssertFacts LayoutFacts StakeFacts UnstakeFacts InitFacts.

(** ** Ownership: which accounts a callee writes *)

(** Owners are kept; data and lamports of accounts not owned by [p] are kept. *)
Definition own_write (p : pubkey) (l l' : ledger) : Prop :=
  forall k, a_owner (l' k) = a_owner (l k) /\
    (a_owner (l k) <> p -> a_data (l' k) = a_data (l k) /\ a_lamports (l k) <= a_lamports (l' k)).

Lemma own_write_refl p l : own_write p l l.
Proof. intros k. split; [reflexivity|intros _; split; [reflexivity|lia]]. Qed.

Lemma own_write_trans p a b c : own_write p a b -> own_write p b c -> own_write p a c.
Proof.
  intros H1 H2 k. destruct (H1 k) as [O1 D1], (H2 k) as [O2 D2]. split; [congruence|].
  intros Hn. destruct (D1 Hn) as [E1 L1]. rewrite <- O1 in Hn. destruct (D2 Hn) as [E2 L2].
  split; [congruence|lia].
Qed.

Lemma own_write_set_data p l k d : a_owner (l k) = p -> own_write p l (set_data l k d).
Proof.
  intros H k'. autorewrite with ledger. split; [reflexivity|]. intros Hn.
  rewrite set_data_other by (intros ->; contradiction). split; [reflexivity|lia].
Qed.

Lemma own_write_set_lamports p l k n : a_owner (l k) = p -> own_write p l (set_lamports l k n).
Proof.
  intros H k'. autorewrite with ledger. split; [reflexivity|]. intros Hn.
  rewrite set_lamports_other by (intros ->; contradiction). split; [reflexivity|lia].
Qed.

Lemma own_write_foreign p l l' : own_write p l l' -> foreign_write p l l'.
Proof.
  intros H k. destruct (H k) as [O D]. split; [|congruence]. intros Hn.
  destruct (D Hn). auto.
Qed.

Lemma token_owned_ok l k u : token_owned l k = Ok u -> a_owner (l k) = token_id.
Proof. unfold token_owned. intros H. clean_bool. assumption. Qed.

Ltac token_own H :=
  repeat match type of H with
  | bind (token_owned ?l ?k) _ = Ok _ =>
      let u := fresh "u" in let T := fresh "T" in
      apply bind_ok in H; destruct H as (u & T & H); apply token_owned_ok in T
  | bind (A := unit) _ _ = Ok _ =>
      let u := fresh "u" in let T := fresh "T" in
      apply bind_ok in H; destruct H as (u & T & H)
  | bind _ _ = Ok _ =>
      let u := fresh "x" in let T := fresh "T" in
      apply bind_ok in H; destruct H as (u & T & H)
  | (if ?b then _ else _) = Ok _ => let Q := fresh "Q" in destruct b eqn:Q
  | (match ?x with _ => _ end) = Ok _ => let Q := fresh "Q" in destruct x eqn:Q
  | Err _ = Ok _ => discriminate H
  | Ok _ = Ok _ => injection H as <-
  end.

(** The token program writes only its own accounts and gives none away except by
    closing them. *)
Theorem token_exec_write E sg ex l c l' :
  lamports_ok l -> token_exec E sg ex l c = Ok l' -> foreign_write token_id l l'.
Proof.
  intros Hnn. destruct c; cbn [token_exec]; intros H.
  1:{ unfold token_transfer in H. token_own H; try (apply own_write_foreign, own_write_refl).
      all: apply own_write_foreign.
      - eapply own_write_trans; [eapply own_write_trans; [eapply own_write_trans|]|];
          [apply own_write_set_data|apply own_write_set_data|apply own_write_set_lamports
          |apply own_write_set_lamports]; autorewrite with ledger; assumption.
      - eapply own_write_trans; apply own_write_set_data; autorewrite with ledger; assumption. }
  1:{ unfold token_mint_to in H. token_own H. apply own_write_foreign.
      eapply own_write_trans; apply own_write_set_data; autorewrite with ledger; assumption. }
  1:{ unfold token_burn in H. token_own H. all: apply own_write_foreign;
      eapply own_write_trans; apply own_write_set_data; autorewrite with ledger; assumption. }
  1:{ unfold token_approve in H. token_own H. now apply own_write_foreign, own_write_set_data. }
  1:{ unfold token_revoke in H. token_own H. now apply own_write_foreign, own_write_set_data. }
  1:{ unfold token_set_authority in H. token_own H; now apply own_write_foreign, own_write_set_data. }
  1:{ unfold token_close in H. token_own H. clean_bool. apply key_eqb_false in T0.
      intros k'. destruct (key_eq_dec k k') as [<-|K].
      - split; [congruence|]. rewrite upd_same. reflexivity.
      - rewrite upd_other by exact K. autorewrite with ledger. split; [|congruence].
        intros _. split; [reflexivity|split; [reflexivity|]].
        destruct (key_eq_dec dest k') as [<-|K2].
        + rewrite set_lamports_same_lamports. pose proof (Hnn k). lia.
        + rewrite set_lamports_other by exact K2. lia. }
  1:{ unfold token_toggle_freeze in H. token_own H. now apply own_write_foreign, own_write_set_data. }
  1:{ unfold token_toggle_freeze in H. token_own H. now apply own_write_foreign, own_write_set_data. }
  1:{ unfold token_init_mint in H. token_own H. now apply own_write_foreign, own_write_set_data. }
  1:{ unfold token_init_account in H. token_own H. now apply own_write_foreign, own_write_set_data. }
  1:{ unfold token_init_multisig in H. token_own H. now apply own_write_foreign, own_write_set_data. }
  1:{ unfold token_sync_native in H. token_own H. now apply own_write_foreign, own_write_set_data. }
Qed.

Lemma lamports_ok_set_data l k d : lamports_ok l -> lamports_ok (set_data l k d).
Proof. intros H k'. rewrite set_data_lamports. apply H. Qed.

Lemma lamports_ok_set l k n : lamports_ok l -> 0 <= n -> lamports_ok (set_lamports l k n).
Proof.
  intros H Hn k'. destruct (key_eq_dec k k') as [<-|K].
  - now rewrite set_lamports_same_lamports.
  - rewrite set_lamports_other by exact K. apply H.
Qed.

Lemma lamports_ok_upd l k a : lamports_ok l -> 0 <= a_lamports a -> lamports_ok (upd l k a).
Proof.
  intros H Hn k'. destruct (key_eq_dec k k') as [<-|K].
  - now rewrite upd_same.
  - rewrite upd_other by exact K. apply H.
Qed.

Lemma lamports_ok_set_owner l k o : lamports_ok l -> lamports_ok (set_owner l k o).
Proof. intros H k'. rewrite set_owner_lamports. apply H. Qed.

Theorem token_exec_lamports E sg ex l c l' :
  lamports_ok l -> token_call_ok c = true -> token_exec E sg ex l c = Ok l' -> lamports_ok l'.
Proof.
  intros Hnn Hc. destruct c; cbn [token_exec token_call_ok] in *; intros H.
  1:{ unfold token_transfer in H. token_own H; auto.
      all: clean_bool; repeat apply lamports_ok_set; repeat apply lamports_ok_set_data; auto.
      - lia.
      - pose proof (Hnn to). lia. }
  1:{ unfold token_mint_to in H. token_own H. repeat apply lamports_ok_set_data; auto. }
  1:{ unfold token_burn in H. token_own H; repeat apply lamports_ok_set_data; auto. }
  1:{ unfold token_approve in H. token_own H. repeat apply lamports_ok_set_data; auto. }
  1:{ unfold token_revoke in H. token_own H. repeat apply lamports_ok_set_data; auto. }
  1:{ unfold token_set_authority in H. token_own H; repeat apply lamports_ok_set_data; auto. }
  1:{ unfold token_close in H. token_own H. apply lamports_ok_upd; [|cbn; lia].
      apply lamports_ok_set; auto. pose proof (Hnn k). pose proof (Hnn dest). lia. }
  1:{ unfold token_toggle_freeze in H. token_own H. repeat apply lamports_ok_set_data; auto. }
  1:{ unfold token_toggle_freeze in H. token_own H. repeat apply lamports_ok_set_data; auto. }
  1:{ unfold token_init_mint in H. token_own H. repeat apply lamports_ok_set_data; auto. }
  1:{ unfold token_init_account in H. token_own H. repeat apply lamports_ok_set_data; auto. }
  1:{ unfold token_init_multisig in H. token_own H. repeat apply lamports_ok_set_data; auto. }
  1:{ unfold token_sync_native in H. token_own H. repeat apply lamports_ok_set_data; auto. }
Qed.

(** ** The system program *)

Lemma sys_transfer_write sg l f t n l' :
  0 <= n -> sys_transfer sg l f t n = Ok l' -> own_write system_id l l'.
Proof.
  unfold sys_transfer. intros Hn H. inv_bind H u1. inv_bind H u2. inv_bind H u3. inv_bind H u4.
  inv_bind H u5. injection H as <-. clean_bool.
  intros k. autorewrite with ledger. split; [reflexivity|]. intros Ho. split; [reflexivity|].
  destruct (key_eq_dec t k) as [<-|Kt].
  - rewrite set_lamports_same_lamports. destruct (key_eq_dec f t) as [<-|Kf].
    + rewrite set_lamports_same_lamports. lia.
    + rewrite set_lamports_other by exact Kf. lia.
  - rewrite set_lamports_other by exact Kt. destruct (key_eq_dec f k) as [<-|Kf].
    + rewrite set_lamports_same_lamports. rewrite (key_eqb_neq _ _ Ho) in Hx2.
      cbn [negb andb] in Hx2. clean_bool. lia.
    + rewrite set_lamports_other by exact Kf. lia.
Qed.

Lemma sys_transfer_lamports sg l f t n l' :
  0 <= n -> lamports_ok l -> sys_transfer sg l f t n = Ok l' -> lamports_ok l'.
Proof.
  unfold sys_transfer. intros Hn Hl H. inv_bind H u1. inv_bind H u2. inv_bind H u3. inv_bind H u4.
  inv_bind H u5. injection H as <-. clean_bool.
  assert (lamports_ok (set_lamports l f (a_lamports (l f) - n))) by (apply lamports_ok_set; [auto|lia]).
  apply lamports_ok_set; auto. pose proof (H t). lia.
Qed.

Lemma sys_allocate_write sg l k n l' :
  sys_allocate sg l k n = Ok l' -> own_write system_id l l' /\ l' = set_data l k (zeros n) /\
  a_owner (l k) = system_id /\ sg k = true.
Proof.
  intros H. apply sys_allocate_ok in H. destruct H as (H1 & _ & H2 & _ & ->).
  split; [now apply own_write_set_data|auto].
Qed.

Lemma sys_assign_cases sg l k o l' :
  sys_assign sg l k o = Ok l' ->
  l' = l \/ (a_owner (l k) = system_id /\ sg k = true /\ all_zero (a_data (l k)) = true /\
            l' = set_owner l k o).
Proof.
  unfold sys_assign. destruct (key_eqb (a_owner (l k)) o); [intros [=<-]; now left|].
  intros H. inv_bind H u1. inv_bind H u2. inv_bind H u3. injection H as <-. clean_bool.
  right. auto.
Qed.

(** Direct calls write only system-owned accounts; changes of owner need the
    account's signature and all-zero data. *)
Theorem system_exec_write sg l c l' :
  system_call_ok c -> system_exec sg l c = Ok l' ->
  foreign_write system_id l l' /\
  (forall k, a_owner (l' k) <> a_owner (l k) -> sg k = true).
Proof.
  destruct c; cbn [system_call_ok system_exec]; intros Hc H.
  - apply sys_transfer_write in H; [|exact Hc]. split; [now apply own_write_foreign|].
    intros k K. now destruct (H k).
  - unfold sys_create_account in H. inv_bind H u1. inv_bind H l1. inv_bind H l2.
    apply sys_allocate_write in Hx0. destruct Hx0 as (W1 & E1 & O1 & S1).
    apply sys_transfer_write in H; [|apply Hc].
    apply sys_assign_cases in Hx1. destruct Hx1 as [->|(O2 & S2 & Z2 & ->)].
    + assert (W : own_write system_id l l') by (eapply own_write_trans; eassumption).
      split; [now apply own_write_foreign|]. intros k K. now destruct (W k).
    + subst l1. split.
      * intros k. destruct (H k) as [Ho Hd]. autorewrite with ledger in Hd.
        destruct (key_eq_dec to k) as [<-|K].
        -- split; [congruence|]. intros Hne.
           destruct (key_eq_dec owner system_id) as [->|Hsys].
           { rewrite Ho, set_owner_same_owner, O1 in Hne. congruence. }
           rewrite set_owner_same_owner in *.
           destruct (Hd Hsys) as [D _]. rewrite D, upd_data_same. apply all_zero_zeros.
        -- rewrite set_owner_other in * by exact K.
           rewrite set_data_owner in *. rewrite set_data_other in * by exact K.
           split; [|congruence]. intros Hne. destruct (Hd Hne). auto.
      * intros k Hne. destruct (H k) as [Ho _].
        destruct (key_eq_dec to k) as [<-|K]; [assumption|].
        rewrite set_owner_other in Ho by exact K. rewrite set_data_owner in Ho. congruence.
  - apply sys_allocate_write in H. destruct H as (W & _). split; [now apply own_write_foreign|].
    intros k0 K. now destruct (W k0).
  - apply sys_assign_cases in H. destruct H as [->|(O2 & S2 & Z2 & ->)].
    + split; [apply own_write_foreign, own_write_refl|congruence].
    + split.
      * intros k'. destruct (key_eq_dec k k') as [<-|K].
        -- rewrite set_owner_data. split; [congruence|auto].
        -- rewrite set_owner_other by exact K. split; [|congruence]. intros _.
           split; [reflexivity|split; [reflexivity|lia]].
      * intros k' Hne. destruct (key_eq_dec k k') as [<-|K]; [assumption|].
        rewrite set_owner_other in Hne by exact K. congruence.
Qed.

Theorem system_exec_lamports sg l c l' :
  lamports_ok l -> system_call_ok c -> system_exec sg l c = Ok l' -> lamports_ok l'.
Proof.
  intros Hl. destruct c; cbn [system_call_ok system_exec]; intros Hc H.
  - eapply sys_transfer_lamports; eassumption.
  - unfold sys_create_account in H. inv_bind H u1. inv_bind H l1. inv_bind H l2.
    apply sys_allocate_write in Hx0. destruct Hx0 as (_ & -> & _).
    apply sys_transfer_lamports in H; [exact H|apply Hc|].
    apply sys_assign_cases in Hx1. destruct Hx1 as [->|(_ & _ & _ & ->)];
      repeat first [apply lamports_ok_set_owner|apply lamports_ok_set_data]; exact Hl.
  - apply sys_allocate_write in H. destruct H as (_ & -> & _). now apply lamports_ok_set_data.
  - apply sys_assign_cases in H. destruct H as [->|(_ & _ & _ & ->)]; [exact Hl|].
    now apply lamports_ok_set_owner.
Qed.
