(** A mint without freeze authority never gets one, and its accounts are never
    frozen (C50, C56). *)
From Coq Require Import Lia.
From Verif Require Import GuardSpec BytesFacts FieldFacts LedgerFacts TokenFacts ParseFacts CpiFacts
  AssertFacts LayoutFacts StakeFacts UnstakeFacts InitFacts Totals OutsideFacts TokenStep VaultStep Calm.
Import List ListNotations.
Open Scope Z_scope.

Record unfreezable (l : ledger) (m : pubkey) : Prop := {
  uf_lam : 0 < a_lamports (l m);
  uf_live : mint_live l m;
  uf_flag : mint_freeze_flag (a_data (l m)) = 0
}.

(** Steps after which every frozen account was frozen before. *)
Definition thaws (m : pubkey) (l l' : ledger) : Prop := forall k, frozen l' m k -> frozen l m k.
Definition mint_fixed (m : pubkey) (l l' : ledger) : Prop :=
  mint_freeze_flag (a_data (l' m)) = 0 /\ mint_freeze (a_data (l' m)) = mint_freeze (a_data (l m)).
Definition cool (m : pubkey) (l l' : ledger) : Prop :=
  unfreezable l m -> unfreezable l' m /\ mint_fixed m l l' /\ thaws m l l'.

Lemma cool_refl m l : cool m l l.
Proof. intros H. split; [exact H|]. split; [split; [apply H|reflexivity]|now intros k]. Qed.
Lemma cool_trans m a b c : cool m a b -> cool m b c -> cool m a c.
Proof.
  intros H1 H2 H. destruct (H1 H) as (A & [B1 B2] & D). destruct (H2 A) as (A' & [B1' B2'] & D').
  split; [exact A'|]. split; [split; [exact B1'|congruence]|]. intros k K. auto.
Qed.

(** ** Token calls *)
Lemma frozen_write l m k d :
  a_owner (l k) = token_id -> ta_unpack (a_data (l k)) = Ok tt ->
  ta_mint d = ta_mint (a_data (l k)) -> ta_state d = ta_state (a_data (l k)) ->
  thaws m l (set_data l k d).
Proof.
  intros H1 H2 H3 H4 k' (F1 & F2 & F3 & F4). rewrite set_data_owner in F1.
  rewrite set_data_data in *. destruct (key_eqb k k') eqn:Q; [|now repeat split].
  apply key_eqb_true in Q. subst k'. repeat split; congruence.
Qed.

Lemma frozen_write_not l m k d : ta_state d <> 2 -> thaws m l (set_data l k d).
Proof.
  intros H k' (F1 & F2 & F3 & F4). rewrite set_data_owner in F1. rewrite set_data_data in *.
  destruct (key_eqb k k'); [contradiction|now repeat split].
Qed.

Lemma frozen_write_len l m k d : length d <> 165%nat -> thaws m l (set_data l k d).
Proof.
  intros H k' (F1 & F2 & F3 & F4). rewrite set_data_owner in F1. rewrite set_data_data in *.
  destruct (key_eqb k k'); [|now repeat split]. apply ta_unpack_ok in F2.
  destruct F2 as [F2 _]. apply ta_wf_len in F2. contradiction.
Qed.

Lemma thaws_deq m l l' : deq l' l -> thaws m l l'.
Proof. intros H k (F1 & F2 & F3 & F4). destruct (H k) as [D O]. rewrite D, O in *. now repeat split. Qed.

Lemma thaws_trans m a b c : thaws m a b -> thaws m b c -> thaws m a c.
Proof. intros H1 H2 k K. auto. Qed.

Lemma token_exec_thaws E sg ex l c l' m :
  token_call_ok c = true -> token_exec E sg ex l c = Ok l' ->
  mint_freeze_flag (a_data (l m)) = 0 -> thaws m l l'.
Proof.
  intros Hc H Hm. destruct c; cbn [token_exec token_call_ok] in *; clean_bool.
  - destruct (key_eq_dec from to) as [<-|Hne].
    + unfold token_transfer in H. token_own H; [now intros k| |]; rewrite key_eqb_refl in Q; discriminate.
    + apply token_transfer_inv in H; [|exact Hne].
      destruct H as (sd1 & J1 & J2 & J3 & J4 & J5 & J6 & J7 & _).
      pose proof (ta_wf_len _ (proj1 (proj2 J1))) as L1. pose proof (ta_wf_len _ (proj1 (proj2 J2))) as L2.
      pose proof (spend_auth_same _ _ _ _ _ _ _ _ L1 J5) as S.
      pose proof (ta_amount_range (a_data (l from))) as R1. pose proof (ta_amount_range (a_data (l to))) as R2.
      assert (Q1 : is_u64 (ta_amount (a_data (l from)) - amount)) by (unfold is_u64, u64_max in *; lia).
      assert (Q2 : is_u64 (ta_amount (a_data (l to)) + amount)) by (unfold is_u64, u64_max in *; lia).
      destruct (spent_fields _ _ _ (proj1 (proj2 J1)) S Q1) as (_ & S1 & S2 & _).
      destruct (set_amount_same _ _ L2 Q2) as (_ & M1 & _ & M2 & _).
      eapply thaws_trans; [|apply thaws_deq, J7]. unfold transferred. eapply thaws_trans.
      * apply frozen_write; [apply J1|now apply live_unpacks|exact S2|exact S1].
      * apply frozen_write; rewrite ?set_data_owner, ?set_data_data, ?(key_eqb_neq from to Hne); auto;
          [apply J2|now apply live_unpacks].
  - apply token_mint_to_ok in H. destruct H as (J1 & J2 & J3 & J4 & J5 & J6 & J7 & J8 & ->).
    pose proof (ta_wf_len _ (proj1 (proj2 J2))) as L2. pose proof (ta_amount_range (a_data (l to))) as R2.
    destruct (set_amount_same (a_data (l to)) (ta_amount (a_data (l to)) + amount) L2) as (_ & M1 & _ & M2 & _);
      [unfold is_u64, u64_max in *; lia|].
    unfold minted. eapply thaws_trans.
    + apply frozen_write; [apply J2|now apply live_unpacks|exact M1|exact M2].
    + apply frozen_write_len. pose proof (mint_wf_len _ (proj1 (proj2 J1))) as L.
      unfold set_supply. assert (length (set_u64 36 (mint_supply (a_data (l mint)) + amount) (a_data (l mint))) = 82%nat) by slen.
      lia.
  - apply token_burn_ok in H. destruct H as (sd1 & J1 & J2 & J3 & J4 & J5 & J6 & J7 & ->).
    pose proof (ta_wf_len _ (proj1 (proj2 J1))) as L1. pose proof (ta_amount_range (a_data (l from))) as R1.
    pose proof (burn_auth_same _ _ _ _ _ _ _ L1 J6) as S.
    assert (Q1 : is_u64 (ta_amount (a_data (l from)) - amount)) by (unfold is_u64, u64_max in *; lia).
    destruct (spent_fields _ _ _ (proj1 (proj2 J1)) S Q1) as (_ & S1 & S2 & _).
    unfold burned. eapply thaws_trans.
    + apply frozen_write; [apply J1|now apply live_unpacks|exact S2|exact S1].
    + apply frozen_write_len. pose proof (mint_wf_len _ (proj1 (proj2 J2))) as L.
      unfold set_supply. assert (length (set_u64 36 (mint_supply (a_data (l mint)) - amount) (a_data (l mint))) = 82%nat) by slen.
      lia.
  - unfold token_approve in H. token_own H. apply unit_tt in T0.
    pose proof (proj1 (ta_unpack_ok _) T0) as [W _]. apply ta_wf_len in W.
    apply frozen_write; auto; unfold ta_mint, ta_state; getset; reflexivity.
  - unfold token_revoke in H. token_own H. apply unit_tt in T0.
    pose proof (proj1 (ta_unpack_ok _) T0) as [W _]. apply ta_wf_len in W.
    apply frozen_write; auto; unfold ta_mint, ta_state; getset; reflexivity.
  - unfold token_set_authority in H. token_own H.
    + apply unit_tt in T0. pose proof (proj1 (ta_unpack_ok _) T0) as [W _]. apply ta_wf_len in W.
      apply frozen_write; auto; destruct (ta_is_native (a_data (l k))); unfold ta_mint, ta_state; getset; reflexivity.
    + apply unit_tt in T0. pose proof (proj1 (ta_unpack_ok _) T0) as [W _]. apply ta_wf_len in W.
      apply frozen_write; auto; unfold pack_option_key; destruct new; cbn [Nat.add];
        unfold ta_mint, ta_state; getset; reflexivity.
    + apply unit_tt in T0. apply mint_unpack_ok in T0. destruct T0 as [W I]. apply mint_wf_len in W.
      apply frozen_write_len. destruct (pack_mint_auth _ new W) as (P1 & _). lia.
    + apply unit_tt in T0. apply mint_unpack_ok in T0. destruct T0 as [W I]. apply mint_wf_len in W.
      apply frozen_write_len. destruct (pack_mint_freeze _ new W) as (P1 & _). lia.
  - unfold token_close in H. token_own H. intros k' (F1 & F2 & F3 & F4).
    destruct (key_eq_dec k k') as [<-|Hne].
    + rewrite upd_same in F1. cbn in F1. symmetry in F1. now apply ids_distinct in F1.
    + rewrite upd_other in * by assumption. autorewrite with ledger in *. now repeat split.
  - unfold token_toggle_freeze in H. token_own H. clean_bool. apply unit_tt in T0.
    destruct (key_eq_dec mint m) as [->|Nm]; [contradiction|].
    pose proof (proj1 (ta_unpack_ok _) T0) as [W _]. apply ta_wf_len in W.
    intros k' (F1 & F2 & F3 & F4). rewrite set_data_owner in F1. rewrite set_data_data in *.
    destruct (key_eqb k k') eqn:Q; [|now repeat split]. exfalso. revert F3. unfold ta_mint. getset.
    intros F3. apply Nm. unfold ta_mint in *. congruence.
  - unfold token_toggle_freeze in H. token_own H. apply unit_tt in T0.
    pose proof (proj1 (ta_unpack_ok _) T0) as [W _]. apply ta_wf_len in W.
    apply frozen_write_not. unfold ta_state. getset. lia.
  - unfold token_init_mint in H. token_own H. clean_bool. pose proof (mint_wf_len _ T0) as L.
    apply frozen_write_len. unfold pack_option_key; destruct freeze; cbn [Nat.add];
    match goal with |- length ?d <> _ => assert (length d = 82%nat) by slen; lia end.
  - unfold token_init_account in H.
    destruct (key_eqb mint native_mint_id) eqn:Q; token_own H; clean_bool; pose proof (ta_wf_len _ T0) as L;
      apply frozen_write_not; unfold ta_state, set_amount; getset; lia.
  - unfold token_init_multisig in H. token_own H. clean_bool. apply frozen_write_len.
    assert (355 <= length (a_data (l k)))%nat by (unfold zlen, multisig_len in *; lia).
    match goal with |- length (splice 0 ?x ?d) <> _ => pose proof (splice_length_ge 0 x d); lia end.
  - unfold token_sync_native in H. token_own H. apply unit_tt in T0.
    pose proof (proj1 (ta_unpack_ok _) T0) as [W _]. apply ta_wf_len in W.
    apply frozen_write; auto; unfold ta_mint, ta_state, set_amount; getset; reflexivity.
Qed.

Lemma fixed_write l m k d : k <> m -> mint_freeze_flag (a_data (l m)) = 0 -> mint_fixed m l (set_data l k d).
Proof. intros H1 H2. unfold mint_fixed. rewrite set_data_other by exact H1. auto. Qed.

Lemma token_exec_fixed E sg ex l c l' m :
  token_call_ok c = true -> token_exec E sg ex l c = Ok l' ->
  mint_live l m -> mint_freeze_flag (a_data (l m)) = 0 -> mint_fixed m l l'.
Proof.
  intros Hc H Hm H0.
  assert (Hnt : ta_wf (a_data (l m)) = true -> False).
  { intros W. eapply ta_not_mint; [exact W|]. apply Hm. }
  assert (Hnt' : forall u, ta_unpack (a_data (l m)) = Ok u -> False).
  { intros u W. apply unit_tt, ta_unpack_ok in W. apply Hnt, W. }
  assert (Hsup : forall v, is_u64 v -> mint_freeze_flag (set_supply v (a_data (l m))) = 0 /\
                   mint_freeze (set_supply v (a_data (l m))) = mint_freeze (a_data (l m))).
  { intros v V. destruct Hm as (_ & W & _). apply mint_wf_len in W.
    destruct (set_supply_same _ v W V) as (_ & _ & _ & _ & _ & A & B & _). split; congruence. }
  destruct c; cbn [token_exec token_call_ok] in *; clean_bool.
  - destruct (key_eq_dec from to) as [<-|Hne].
    + unfold token_transfer in H. token_own H; [now split| |]; rewrite key_eqb_refl in Q; discriminate.
    + apply token_transfer_inv in H; [|exact Hne].
      destruct H as (sd1 & J1 & J2 & J3 & J4 & J5 & J6 & J7 & _).
      assert (Nf : from <> m) by (intros ->; apply Hnt, J1).
      assert (Nt : to <> m) by (intros ->; apply Hnt, J2).
      destruct (J7 m) as [D O]. rewrite transferred_data_other in D by congruence.
      unfold mint_fixed. rewrite D. auto.
  - apply token_mint_to_ok in H. destruct H as (J1 & J2 & J3 & J4 & J5 & J6 & J7 & J8 & ->).
    assert (Nt : to <> m) by (intros ->; apply Hnt, J2).
    unfold minted, mint_fixed. rewrite set_data_data. destruct (key_eqb mint m) eqn:Q.
    + apply key_eqb_true in Q. rewrite Q in *. apply Hsup.
      pose proof (mint_supply_range (a_data (l m))). unfold is_u64, u64_max in *. lia.
    + rewrite set_data_other by exact Nt. auto.
  - apply token_burn_ok in H. destruct H as (sd1 & J1 & J2 & J3 & J4 & J5 & J6 & J7 & ->).
    assert (Nf : from <> m) by (intros ->; apply Hnt, J1).
    unfold burned, mint_fixed. rewrite set_data_data. destruct (key_eqb mint m) eqn:Q.
    + apply key_eqb_true in Q. rewrite Q in *. apply Hsup.
      pose proof (mint_supply_range (a_data (l m))). unfold is_u64, u64_max in *. lia.
    + rewrite set_data_other by exact Nf. auto.
  - unfold token_approve in H. token_own H. apply fixed_write; [|exact H0]. intros ->. eapply Hnt', T0.
  - unfold token_revoke in H. token_own H. apply fixed_write; [|exact H0]. intros ->. eapply Hnt', T0.
  - unfold token_set_authority in H. token_own H.
    + apply fixed_write; [|exact H0]. intros ->. eapply Hnt', T0.
    + apply fixed_write; [|exact H0]. intros ->. eapply Hnt', T0.
    + unfold mint_fixed. rewrite set_data_data. destruct (key_eqb k m) eqn:QQ; [|auto].
      apply key_eqb_true in QQ. subst k. destruct Hm as (_ & W & _). apply mint_wf_len in W.
      unfold pack_option_key, mint_freeze_flag, mint_freeze in *. destruct new; cbn [Nat.add]; getset; auto.
    + apply fixed_write; [|exact H0]. intros ->. clean_bool. contradiction.
  - unfold token_close in H. token_own H. clean_bool.
    assert (Nk : k <> m) by (intros ->; eapply Hnt', T1).
    unfold mint_fixed. rewrite upd_other by assumption. autorewrite with ledger. auto.
  - unfold token_toggle_freeze in H. token_own H. apply fixed_write; [|exact H0]. intros ->. eapply Hnt', T0.
  - unfold token_toggle_freeze in H. token_own H. apply fixed_write; [|exact H0]. intros ->. eapply Hnt', T0.
  - unfold token_init_mint in H. token_own H. clean_bool. apply fixed_write; [|exact H0].
    intros ->. apply T1, Hm.
  - unfold token_init_account in H. destruct (key_eqb mint native_mint_id); token_own H; clean_bool;
      (apply fixed_write; [|exact H0]); intros ->; auto.
  - unfold token_init_multisig in H. token_own H. clean_bool. apply fixed_write; [|exact H0].
    intros ->. destruct Hm as (_ & W & _). apply mint_wf_zlen in W. unfold multisig_len in *. congruence.
  - unfold token_sync_native in H. token_own H. clean_bool. apply fixed_write; [|exact H0].
    intros ->. eapply Hnt', T0.
Qed.

Lemma cool_token E sg ex l c l' m :
  lamports_ok l -> token_call_ok c = true -> token_exec E sg ex l c = Ok l' -> cool m l l'.
Proof.
  intros Hl Hc H [U1 U2 U3].
  pose proof (token_exec_fixed _ _ _ _ _ _ _ Hc H U2 U3) as F.
  destruct (token_exec_mint_live _ _ _ _ _ _ _ Hl Hc H U2) as [L1 L2].
  split; [constructor; [lia|exact L1|apply F]|]. split; [exact F|].
  eapply token_exec_thaws; eassumption.
Qed.

(** ** Steps that leave token accounts alone *)
Lemma cool_soft m l l' :
  (forall k, a_owner (l k) = token_id -> 0 < a_lamports (l k) ->
     a_owner (l' k) = token_id /\ a_data (l' k) = a_data (l k) /\ a_lamports (l k) <= a_lamports (l' k)) ->
  (forall k, a_owner (l' k) = token_id ->
     all_zero (a_data (l' k)) = true \/ (a_owner (l k) = token_id /\ a_data (l' k) = a_data (l k))) ->
  cool m l l'.
Proof.
  intros H1 H2 [U1 U2 U3]. destruct (H1 m (proj1 U2) U1) as (A & B & D).
  split; [constructor; [lia|unfold mint_live in *; now rewrite A, B|now rewrite B]|].
  split; [unfold mint_fixed; now rewrite B|].
  intros k (F1 & F2 & F3 & F4). destruct (H2 k F1) as [Z|[O E]].
  - unfold ta_state in F4. rewrite all_zero_u8 in F4 by exact Z. discriminate.
  - rewrite E in *. now repeat split.
Qed.

Lemma cool_foreign m p l l' : p <> token_id -> foreign_write p l l' -> cool m l l'.
Proof.
  intros Hp Hw. apply cool_soft.
  - intros k K1 K2. destruct (Hw k) as [W _]. destruct W as (A & B & D); [congruence|].
    split; [congruence|auto].
  - intros k K. destruct (Hw k) as [W1 W2].
    destruct (key_eq_dec (a_owner (l' k)) (a_owner (l k))) as [E|E]; [|left; now apply W2].
    right. split; [congruence|]. apply W1. congruence.
Qed.

Lemma cool_system m sg l c l' :
  system_call_ok c -> system_exec sg l c = Ok l' -> cool m l l'.
Proof.
  intros Hc H. apply cool_foreign with (p := system_id); [apply not_eq_sym, ids_distinct|].
  eapply system_exec_write; eassumption.
Qed.

Lemma cool_ata C E sg l payer ata wallet mint l' m :
  lamports_ok l ->
  ata_create_idempotent C E sg l payer ata wallet mint = Ok l' -> cool m l l'.
Proof.
  intros Hl H. unfold ata_create_idempotent in H.
  destruct (find_program_address C (ata_seeds wallet mint) ata_id) as [[addr b]|]; [|discriminate].
  inv_bind H u1. destruct (_ && _) in H.
  - inv_bind H u2. inv_bind H u3. injection H as <-. apply cool_refl.
  - inv_bind H u2. inv_bind H l1.
    assert (C1 : lamports_ok l1 /\ cool m l l1).
    { destruct (0 <? a_lamports (l ata)).
      - inv_bind Hx1 la. inv_bind Hx1 lb.
        assert (Ca : lamports_ok la /\ cool m l la).
        { destruct (0 <? Z.max (Z.max (rent_min E ta_len) 1 - a_lamports (l ata)) 0) eqn:Q.
          - apply Z.ltb_lt in Q.
            assert (K : system_call_ok (SC_Transfer payer ata
              (Z.max (Z.max (rent_min E ta_len) 1 - a_lamports (l ata)) 0))) by (cbn [system_call_ok]; lia).
            split; [exact (system_exec_lamports _ _ (SC_Transfer _ _ _) _ Hl K Hx2)
                   |exact (cool_system m _ _ (SC_Transfer _ _ _) _ K Hx2)].
          - injection Hx2 as <-. split; [exact Hl|apply cool_refl]. }
        destruct Ca as [La Ca].
        assert (K : system_call_ok (SC_Allocate ata ta_len)) by (cbn; unfold ta_len; lia).
        pose proof (system_exec_lamports _ _ (SC_Allocate _ _) _ La K Hx3) as Lb.
        pose proof (system_exec_lamports _ _ (SC_Assign _ _) _ Lb I Hx1) as Lc.
        split; [exact Lc|]. eapply cool_trans; [eapply cool_trans; [exact Ca|]|].
        + exact (cool_system m _ _ (SC_Allocate _ _) _ K Hx3).
        + exact (cool_system m _ _ (SC_Assign _ _) _ I Hx1).
      - assert (K : system_call_ok (SC_Create payer ata (Z.max (rent_min E ta_len) 1) ta_len token_id))
          by (cbn [system_call_ok]; unfold ta_len; lia).
        split; [exact (system_exec_lamports _ _ (SC_Create _ _ _ _ _) _ Hl K Hx1)
               |exact (cool_system m _ _ (SC_Create _ _ _ _ _) _ K Hx1)]. }
    destruct C1 as [L1 C1]. eapply cool_trans; [exact C1|].
    exact (cool_token E (fun _ => false) [] l1 (TC_InitAccount ata mint wallet) l' m L1 eq_refl H).
Qed.

Theorem outside_cool C l o m :
  lamports_ok l -> op_ok C l o -> is_call o = false -> cool m l (fst (run_op C l o)).
Proof.
  intros Hl Ho Hc. destruct o; cbn [op_ok run_op is_call fst snd] in *; try discriminate.
  - destruct Ho as (H1 & H2 & H3). destruct (token_exec E (signs signers) extra l c) eqn:Q;
      cbn [keep fst]; [eapply cool_token; eassumption|apply cool_refl].
  - destruct Ho as (H2 & H3). destruct (system_exec (signs signers) l c) eqn:Q;
      cbn [keep fst]; [eapply cool_system; eassumption|apply cool_refl].
  - destruct (ata_create_idempotent C E (signs signers) l payer ata wallet mint) eqn:Q;
      cbn [keep fst]; [eapply cool_ata; eassumption|apply cool_refl].
  - destruct Ho as (H1 & H2 & H3 & H4 & H5). eapply cool_foreign; eassumption.
  - destruct Ho as [Hn _]. apply cool_soft.
    + intros k K1 K2. destruct (Hn k) as [A B]. split; [congruence|]. apply B. left. rewrite K1. apply ids_distinct.
    + intros k K. destruct (Hn k) as [A B]. right. rewrite A in K. split; [exact K|]. apply B. left. rewrite K. apply ids_distinct.
  - apply cool_soft.
    + intros k' K1 K2. assert (k <> k') by (intros ->; lia). rewrite upd_other by assumption.
      split; [exact K1|]. split; [reflexivity|lia].
    + intros k' K. destruct (key_eq_dec k k') as [<-|N].
      * rewrite upd_same in *. now left.
      * rewrite upd_other in * by exact N. now right.
Qed.
