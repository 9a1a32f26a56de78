(** Token program calls not signed by the State address leave the vault funded and
    the xORCA mint under the program's control. *)
From Verif Require Import History BytesFacts FieldFacts LedgerFacts TokenFacts ParseFacts CpiFacts
  AssertFacts LayoutFacts StakeFacts UnstakeFacts InitFacts Totals OutsideFacts TokenStep.

(** A token account of [mint] owned by [sk] without delegate or close authority. *)
Record vault_ok (l : ledger) (vk mint sk : pubkey) : Prop := {
  vo_owner : a_owner (l vk) = token_id;
  vo_wf : ta_wf (a_data (l vk)) = true;
  vo_init : ta_state (a_data (l vk)) <> 0;
  vo_mint : ta_mint (a_data (l vk)) = mint;
  vo_holder : ta_owner (a_data (l vk)) = sk;
  vo_delegate : ta_delegate_flag (a_data (l vk)) = 0;
  vo_close : ta_close_flag (a_data (l vk)) = 0;
  vo_native : ta_native_flag (a_data (l vk)) = 0
}.

(** An initialized mint controlled by [sk], without freeze authority. *)
Record mint_ok (l : ledger) (m sk : pubkey) : Prop := {
  mo_live : mint_live l m;
  mo_flag : mint_auth_flag (a_data (l m)) = 1;
  mo_auth : mint_auth (a_data (l m)) = sk;
  mo_freeze : mint_freeze_flag (a_data (l m)) = 0
}.

Lemma vault_ok_ext l l' vk mint sk :
  a_owner (l' vk) = a_owner (l vk) -> a_data (l' vk) = a_data (l vk) ->
  vault_ok l vk mint sk -> vault_ok l' vk mint sk.
Proof. intros H1 H2 []. constructor; rewrite ?H1, ?H2; assumption. Qed.

Lemma mint_ok_ext l l' m sk :
  a_owner (l' m) = a_owner (l m) -> a_data (l' m) = a_data (l m) ->
  mint_ok l m sk -> mint_ok l' m sk.
Proof. intros H1 H2 [(A & B & D)]. constructor; unfold mint_live; rewrite ?H1, ?H2; auto. Qed.

(** What is needed to keep the owner [sk] from acting. *)
Definition silent (sg : pubkey -> bool) (l : ledger) (sk : pubkey) : Prop :=
  sg sk = false /\ a_owner (l sk) <> token_id /\ system_or_incinerator sk = false.

Lemma silent_owner sg l sk ex a u : silent sg l sk -> validate_owner l sg ex sk a = Ok u -> False.
Proof.
  intros (H1 & H2 & _) H. pose proof (validate_owner_eq _ _ _ _ _ _ H) as <-.
  apply unit_tt, validate_owner_plain in H; [|exact H2]. destruct H. congruence.
Qed.

Lemma silent_spend sg l sk ex d a n c d1 :
  silent sg l sk -> ta_owner d = sk -> ta_delegate_flag d = 0 ->
  spend_auth l sg ex d a n c = Ok d1 -> False.
Proof.
  intros Hs Ho Hd H. rewrite spend_auth_no_delegate in H by exact Hd. inv_bind H u.
  rewrite Ho in Hx. eapply silent_owner; eassumption.
Qed.

Lemma silent_burn sg l sk ex d a n d1 :
  silent sg l sk -> ta_owner d = sk -> ta_delegate_flag d = 0 ->
  burn_auth l sg ex d a n = Ok d1 -> False.
Proof.
  intros Hs Ho Hd H. unfold burn_auth in H. rewrite Ho in H.
  destruct Hs as (H1 & H2 & H3). rewrite H3 in H.
  eapply silent_spend; [|exact Ho|exact Hd|exact H]. repeat split; assumption.
Qed.

Lemma vault_raise l k n mint sk :
  vault_ok l k mint sk -> 0 <= n -> ta_amount (a_data (l k)) + n <= u64_max ->
  forall l', a_owner (l' k) = a_owner (l k) ->
    a_data (l' k) = set_amount (ta_amount (a_data (l k)) + n) (a_data (l k)) ->
    vault_ok l' k mint sk /\ ta_amount (a_data (l' k)) = ta_amount (a_data (l k)) + n.
Proof.
  intros [] Hn Hr l' Ho Hd. pose proof (ta_wf_len _ vo_wf0) as L.
  pose proof (ta_amount_range (a_data (l k))) as R.
  destruct (set_amount_same (a_data (l k)) (ta_amount (a_data (l k)) + n) L) as
    (F1 & F2 & F3 & F4 & F5 & F6 & F7 & F8 & F9 & F10 & F11);
    [unfold is_u64, u64_max in *; lia|].
  split; [|congruence]. constructor; rewrite ?Ho, ?Hd; congruence.
Qed.

Lemma vault_not_mint l vk mint sk : vault_ok l vk mint sk -> mint_wf (a_data (l vk)) = true -> False.
Proof. intros [] H. eapply ta_not_mint; eassumption. Qed.

(** The vault neither loses tokens nor lamports. *)
Definition vault_kept (l l' : ledger) (vk mint sk : pubkey) : Prop :=
  vault_ok l' vk mint sk /\ ta_amount (a_data (l vk)) <= ta_amount (a_data (l' vk)) /\
  a_lamports (l vk) <= a_lamports (l' vk).

Lemma vault_kept_same l l' vk mint sk :
  vault_ok l vk mint sk -> a_owner (l' vk) = a_owner (l vk) -> a_data (l' vk) = a_data (l vk) ->
  a_lamports (l vk) <= a_lamports (l' vk) -> vault_kept l l' vk mint sk.
Proof.
  intros H1 H2 H3 H4. split; [eapply vault_ok_ext; eassumption|]. rewrite H3. lia.
Qed.

Lemma vault_kept_write l k d vk mint sk :
  vault_ok l vk mint sk -> k <> vk -> vault_kept l (set_data l k d) vk mint sk.
Proof.
  intros H1 H2. apply vault_kept_same; [assumption|..]; rewrite set_data_other by assumption;
    reflexivity || lia.
Qed.

Theorem token_exec_vault E sg ex l c l' vk mint sk :
  lamports_ok l -> token_call_ok c = true -> token_exec E sg ex l c = Ok l' ->
  silent sg l sk -> vault_ok l vk mint sk -> vault_kept l l' vk mint sk.
Proof.
  intros Hlam Hc H Hs Hv. pose proof (vault_not_mint _ _ _ _ Hv) as Hnm.
  destruct c; cbn [token_exec token_call_ok] in *; clean_bool.
  - (* Transfer *)
    destruct (key_eq_dec from to) as [<-|Hne].
    + unfold token_transfer in H. token_own H;
        [|rewrite key_eqb_refl in Q; discriminate|rewrite key_eqb_refl in Q; discriminate].
      apply vault_kept_same; auto. lia.
    + apply token_transfer_inv in H; [|exact Hne].
      destruct H as (sd1 & J1 & J2 & J3 & J4 & J5 & J6 & J7 & _ & J8 & J9).
      assert (Nf : from <> vk).
      { intros ->. destruct Hv. eapply silent_spend; eassumption. }
      assert (Hl : a_lamports (l vk) <= a_lamports (l' vk)).
      { rewrite J8. unfold native_moves. rewrite (key_eqb_neq from vk) by exact Nf.
        destruct (ta_is_native _); [destruct (key_eqb to vk)|]; lia. }
      destruct (J7 vk) as [D O]. rewrite transferred_owner in O.
      unfold transferred in D. destruct (key_eq_dec to vk) as [->|Nt].
      * rewrite upd_data_same in D.
        destruct (vault_raise l vk amount mint sk Hv ltac:(lia) J6 l' O D) as [V A].
        repeat split; auto; [apply V..|lia].
      * rewrite !set_data_other in D by assumption. now apply vault_kept_same.
  - apply token_mint_to_ok in H. destruct H as (J1 & J2 & J3 & J4 & J5 & J6 & J7 & J8 & ->).
    assert (Nm : mint0 <> vk) by (intros ->; apply Hnm, J1).
    destruct (key_eq_dec to vk) as [->|Nt].
    + destruct (vault_raise l vk amount mint sk Hv ltac:(lia) J7 (minted l mint0 vk amount))
        as [V A].
      * unfold minted. now autorewrite with ledger.
      * unfold minted. rewrite set_data_other by assumption. apply upd_data_same.
      * split; [exact V|]. unfold minted in *. autorewrite with ledger. lia.
    + unfold minted. apply vault_kept_same; [assumption|..];
        rewrite !set_data_other by assumption; reflexivity || lia.
  - apply token_burn_ok in H. destruct H as (sd1 & J1 & J2 & J3 & J4 & J5 & J6 & J7 & ->).
    assert (Nm : mint0 <> vk) by (intros ->; apply Hnm, J2).
    assert (Nf : from <> vk).
    { intros ->. destruct Hv. eapply silent_burn; eassumption. }
    unfold burned. apply vault_kept_same; [assumption|..];
        rewrite !set_data_other by assumption; reflexivity || lia.
  - unfold token_approve in H. token_own H. apply vault_kept_write; [exact Hv|].
    intros ->. rewrite (vo_holder _ _ _ _ Hv) in T2. eapply silent_owner; eassumption.
  - unfold token_revoke in H. token_own H. apply vault_kept_write; [exact Hv|].
    intros ->. rewrite (vo_holder _ _ _ _ Hv) in T2. eapply silent_owner; eassumption.
  - unfold token_set_authority in H. token_own H.
    + apply vault_kept_write; [exact Hv|].
      intros ->. rewrite (vo_holder _ _ _ _ Hv) in T2. eapply silent_owner; eassumption.
    + apply vault_kept_write; [exact Hv|]. intros ->.
      rewrite (vo_close _ _ _ _ Hv), (vo_holder _ _ _ _ Hv) in T2. cbn [Z.eqb] in T2.
      eapply silent_owner; eassumption.
    + apply vault_kept_write; [exact Hv|]. intros ->. apply Hnm.
      apply unit_tt, mint_unpack_ok in T0. apply T0.
    + apply vault_kept_write; [exact Hv|]. intros ->. apply Hnm.
      apply unit_tt, mint_unpack_ok in T0. apply T0.
  - unfold token_close in H. token_own H. clean_bool. apply key_eqb_false in T0.
    assert (Nk : k <> vk).
    { intros ->. rewrite (vo_holder _ _ _ _ Hv) in T3. destruct Hs as (S1 & S2 & S3).
      rewrite S3, (vo_close _ _ _ _ Hv) in T3. cbn [Z.eqb] in T3.
      eapply (silent_owner sg l sk); [repeat split|]; eassumption. }
    apply vault_kept_same; [assumption|..]; rewrite upd_other by assumption;
      autorewrite with ledger; try reflexivity.
    destruct (key_eq_dec dest vk) as [->|Nd].
    + rewrite set_lamports_same_lamports. pose proof (Hlam k). lia.
    + rewrite set_lamports_other by assumption. lia.
  - unfold token_toggle_freeze in H. token_own H. destruct (key_eq_dec k vk) as [->|N];
      [|now apply vault_kept_write].
    split; [|autorewrite with ledger; split; [|lia]].
    + destruct Hv. pose proof (ta_wf_len _ vo_wf0) as L. unfold ta_wf in vo_wf0. clean_bool.
      constructor; autorewrite with ledger; auto.
      1:{ unfold ta_wf, zlen, ta_state, ta_native_flag, ta_close_flag, ta_delegate_flag in *.
          getset. rewrite set_u8_length by lia. rewrite L, vo_delegate0, vo_close0, vo_native0.
          reflexivity. }
      all: unfold ta_state, ta_native_flag, ta_close_flag, ta_delegate_flag, ta_mint, ta_owner in *;
        getset; auto; discriminate.
    + destruct Hv. pose proof (ta_wf_len _ vo_wf0) as L. unfold ta_amount. getset. lia.
  - unfold token_toggle_freeze in H. token_own H. destruct (key_eq_dec k vk) as [->|N];
      [|now apply vault_kept_write].
    split; [|autorewrite with ledger; split; [|lia]].
    + destruct Hv. pose proof (ta_wf_len _ vo_wf0) as L. unfold ta_wf in vo_wf0. clean_bool.
      constructor; autorewrite with ledger; auto.
      1:{ unfold ta_wf, zlen, ta_state, ta_native_flag, ta_close_flag, ta_delegate_flag in *.
          getset. rewrite set_u8_length by lia. rewrite L, vo_delegate0, vo_close0, vo_native0.
          reflexivity. }
      all: unfold ta_state, ta_native_flag, ta_close_flag, ta_delegate_flag, ta_mint, ta_owner in *;
        getset; auto; discriminate.
    + destruct Hv. pose proof (ta_wf_len _ vo_wf0) as L. unfold ta_amount. getset. lia.
  - unfold token_init_mint in H. token_own H. clean_bool. apply vault_kept_write; [exact Hv|].
    intros ->. auto.
  - unfold token_init_account in H. destruct (key_eqb mint0 native_mint_id); token_own H; clean_bool;
      (apply vault_kept_write; [exact Hv|]); intros ->; now apply (vo_init _ _ _ _ Hv).
  - unfold token_init_multisig in H. token_own H. clean_bool. apply vault_kept_write; [exact Hv|].
    intros ->. pose proof (ta_wf_zlen _ (vo_wf _ _ _ _ Hv)). unfold multisig_len in *. congruence.
  - unfold token_sync_native in H. token_own H. clean_bool. apply vault_kept_write; [exact Hv|].
    intros ->. unfold ta_is_native in T1. rewrite (vo_native _ _ _ _ Hv) in T1. discriminate.
Qed.

(** ** The mint *)
Definition mint_kept (l l' : ledger) (m sk : pubkey) : Prop :=
  mint_ok l' m sk /\ mint_supply (a_data (l' m)) <= mint_supply (a_data (l m)).

Lemma mint_kept_same l l' m sk :
  mint_ok l m sk -> a_owner (l' m) = a_owner (l m) -> a_data (l' m) = a_data (l m) ->
  mint_kept l l' m sk.
Proof. intros H1 H2 H3. split; [eapply mint_ok_ext; eassumption|]. rewrite H3. lia. Qed.

Lemma mint_kept_write l k d m sk :
  mint_ok l m sk -> k <> m -> mint_kept l (set_data l k d) m sk.
Proof. intros H1 H2. apply mint_kept_same; [assumption|..]; now rewrite set_data_other. Qed.

Theorem token_exec_mint E sg ex l c l' m sk :
  token_call_ok c = true -> token_exec E sg ex l c = Ok l' ->
  silent sg l sk -> mint_ok l m sk -> mint_kept l l' m sk.
Proof.
  intros Hc H Hs Hm.
  assert (Hnt : ta_wf (a_data (l m)) = true -> False).
  { intros W. eapply ta_not_mint; [exact W|]. apply Hm. }
  assert (Hnt' : forall u, ta_unpack (a_data (l m)) = Ok u -> False).
  { intros u W. apply unit_tt, ta_unpack_ok in W. apply Hnt, W. }
  destruct c; cbn [token_exec token_call_ok] in *; clean_bool.
  - destruct (key_eq_dec from to) as [<-|Hne].
    + unfold token_transfer in H. token_own H;
        [|rewrite key_eqb_refl in Q; discriminate|rewrite key_eqb_refl in Q; discriminate].
      now apply mint_kept_same.
    + apply token_transfer_inv in H; [|exact Hne].
      destruct H as (sd1 & J1 & J2 & J3 & J4 & J5 & J6 & J7 & _ & J8 & J9).
      assert (Nf : from <> m) by (intros ->; apply Hnt, J1).
      assert (Nt : to <> m) by (intros ->; apply Hnt, J2).
      destruct (J7 m) as [D O]. rewrite transferred_data_other in D, O by congruence.
      now apply mint_kept_same.
  - apply token_mint_to_ok in H. destruct H as (J1 & J2 & J3 & J4 & J5 & J6 & J7 & J8 & ->).
    assert (Nt : to <> m) by (intros ->; apply Hnt, J2).
    assert (Nm : mint <> m).
    { intros ->. rewrite (mo_auth _ _ _ Hm) in J6. eapply silent_owner; eassumption. }
    unfold minted. apply mint_kept_same; [assumption|..]; now rewrite !set_data_other.
  - apply token_burn_ok in H. destruct H as (sd1 & J1 & J2 & J3 & J4 & J5 & J6 & J7 & ->).
    assert (Nf : from <> m) by (intros ->; apply Hnt, J1).
    destruct (key_eq_dec mint m) as [->|Nm].
    + pose proof (mint_supply_range (a_data (l m))) as R.
      destruct Hm as [(M1 & M2 & M3) M4 M5 M6]. pose proof (mint_wf_len _ M2) as L.
      destruct (set_supply_same (a_data (l m)) (mint_supply (a_data (l m)) - amount) L)
        as (S1 & S2 & S3 & S4 & S5 & S6 & S7 & S8 & S9); [unfold is_u64 in *; lia|].
      split; [constructor|]; unfold mint_live, burned; autorewrite with ledger.
      * repeat split; congruence.
      * congruence.
      * congruence.
      * congruence.
      * lia.
    + unfold burned. apply mint_kept_same; [assumption|..]; now rewrite !set_data_other.
  - unfold token_approve in H. token_own H. apply mint_kept_write; [exact Hm|].
    intros ->. eapply Hnt', T0.
  - unfold token_revoke in H. token_own H. apply mint_kept_write; [exact Hm|].
    intros ->. eapply Hnt', T0.
  - unfold token_set_authority in H. token_own H; (apply mint_kept_write; [exact Hm|]); intros ->.
    + eapply Hnt', T0.
    + eapply Hnt', T0.
    + rewrite (mo_auth _ _ _ Hm) in T2. eapply silent_owner; eassumption.
    + clean_bool. rewrite (mo_freeze _ _ _ Hm) in T1. now apply T1.
  - unfold token_close in H. token_own H. clean_bool.
    assert (Nk : k <> m) by (intros ->; eapply Hnt', T1).
    apply mint_kept_same; [assumption|..]; rewrite upd_other by assumption;
      now autorewrite with ledger.
  - unfold token_toggle_freeze in H. token_own H. apply mint_kept_write; [exact Hm|].
    intros ->. eapply Hnt', T0.
  - unfold token_toggle_freeze in H. token_own H. apply mint_kept_write; [exact Hm|].
    intros ->. eapply Hnt', T0.
  - unfold token_init_mint in H. token_own H. clean_bool. apply mint_kept_write; [exact Hm|].
    intros ->. apply T1, Hm.
  - unfold token_init_account in H. destruct (key_eqb mint native_mint_id); token_own H; clean_bool;
      (apply mint_kept_write; [exact Hm|]); intros ->; auto.
  - unfold token_init_multisig in H. token_own H. clean_bool. apply mint_kept_write; [exact Hm|].
    intros ->. destruct Hm as [(_ & W & _)]. apply mint_wf_zlen in W. unfold multisig_len in *.
    congruence.
  - unfold token_sync_native in H. token_own H. clean_bool. apply mint_kept_write; [exact Hm|].
    intros ->. eapply Hnt', T0.
Qed.

(** Mints are never closed and keep their lamports. *)
Theorem token_exec_mint_live E sg ex l c l' m :
  lamports_ok l -> token_call_ok c = true -> token_exec E sg ex l c = Ok l' ->
  mint_live l m -> mint_live l' m /\ a_lamports (l m) <= a_lamports (l' m).
Proof.
  intros Hlam Hc H Hm.
  assert (Hnt : ta_wf (a_data (l m)) = true -> False).
  { intros W. eapply ta_not_mint; [exact W|]. apply Hm. }
  assert (Hnt' : forall u, ta_unpack (a_data (l m)) = Ok u -> False).
  { intros u W. apply unit_tt, ta_unpack_ok in W. apply Hnt, W. }
  assert (Hsame : forall l2, a_owner (l2 m) = a_owner (l m) -> a_data (l2 m) = a_data (l m) ->
            mint_live l2 m).
  { intros l2 E1 E2. unfold mint_live. now rewrite E1, E2. }
  assert (Hw : forall k d, k <> m -> mint_live (set_data l k d) m /\
            a_lamports (l m) <= a_lamports (set_data l k d m)).
  { intros k d N. rewrite set_data_lamports. split; [|lia].
    apply Hsame; now rewrite set_data_other. }
  destruct c; cbn [token_exec token_call_ok] in *; clean_bool.
  - destruct (key_eq_dec from to) as [<-|Hne].
    + unfold token_transfer in H. token_own H;
        [|rewrite key_eqb_refl in Q; discriminate|rewrite key_eqb_refl in Q; discriminate].
      split; [assumption|lia].
    + apply token_transfer_inv in H; [|exact Hne].
      destruct H as (sd1 & J1 & J2 & J3 & J4 & J5 & J6 & J7 & _ & J8 & J9).
      assert (Nf : from <> m) by (intros ->; apply Hnt, J1).
      assert (Nt : to <> m) by (intros ->; apply Hnt, J2).
      destruct (J7 m) as [D O]. rewrite transferred_data_other in D, O by congruence.
      split; [now apply Hsame|]. rewrite J8. unfold native_moves.
      rewrite (key_eqb_neq from m), (key_eqb_neq to m) by assumption.
      destruct (ta_is_native _); lia.
  - apply token_mint_to_ok in H. destruct H as (J1 & J2 & J3 & J4 & J5 & J6 & J7 & J8 & ->).
    pose proof (mint_supply_range (a_data (l mint))) as R.
    assert (Nt : to <> m) by (intros ->; apply Hnt, J2).
    assert (Nt' : mint <> to) by (eapply mint_ne_ta; eassumption).
    unfold minted. split; [|autorewrite with ledger; lia].
    destruct (Hw to (set_amount (ta_amount (a_data (l to)) + amount) (a_data (l to))) Nt) as [W _].
    destruct (key_eq_dec mint m) as [->|Nm].
    + assert (Hv : is_u64 (mint_supply (a_data (l m)) + amount)) by (unfold is_u64, u64_max in *; lia).
      pose proof (proj2 (mint_write_live l m _ m Hm Hv) Hm) as K.
      unfold mint_live in *. autorewrite with ledger in *. exact K.
    + apply Hsame; rewrite !set_data_other by assumption; reflexivity.
  - apply token_burn_ok in H. destruct H as (sd1 & J1 & J2 & J3 & J4 & J5 & J6 & J7 & ->).
    assert (Nf : from <> m) by (intros ->; apply Hnt, J1).
    pose proof (mint_supply_range (a_data (l mint))) as R.
    unfold burned. split; [|autorewrite with ledger; lia].
    destruct (Hw from (set_amount (ta_amount (a_data (l from)) - amount) sd1) Nf) as [W _].
    destruct (key_eq_dec mint m) as [->|Nm].
    + assert (Hv : is_u64 (mint_supply (a_data (l m)) - amount)) by (unfold is_u64, u64_max in *; lia).
      pose proof (proj2 (mint_write_live l m _ m Hm Hv) Hm) as K.
      unfold mint_live in *. autorewrite with ledger in *. exact K.
    + apply Hsame; rewrite !set_data_other by assumption; reflexivity.
  - unfold token_approve in H. token_own H. apply Hw. intros ->. eapply Hnt', T0.
  - unfold token_revoke in H. token_own H. apply Hw. intros ->. eapply Hnt', T0.
  - unfold token_set_authority in H. token_own H.
    + apply Hw. intros ->. eapply Hnt', T0.
    + apply Hw. intros ->. eapply Hnt', T0.
    + destruct (key_eq_dec k m) as [->|N]; [|now apply Hw].
      split; [|autorewrite with ledger; lia].
      destruct Hm as (M1 & M2 & M3). pose proof (mint_wf_flags _ M2) as [FA FF].
      apply mint_wf_len in M2. destruct (pack_mint_auth _ new M2) as (P1 & P2 & P3 & P4 & P5 & _).
      unfold mint_live. autorewrite with ledger. split; [assumption|]. split; [|congruence].
      apply flags_wf_mint; rewrite ?P5; auto; congruence.
    + destruct (key_eq_dec k m) as [->|N]; [|now apply Hw].
      split; [|autorewrite with ledger; lia].
      destruct Hm as (M1 & M2 & M3). pose proof (mint_wf_flags _ M2) as [FA FF].
      apply mint_wf_len in M2. destruct (pack_mint_freeze _ new M2) as (P1 & P2 & P3 & P4 & P5 & _).
      unfold mint_live. autorewrite with ledger. split; [assumption|]. split; [|congruence].
      apply flags_wf_mint; rewrite ?P5; auto; congruence.
  - unfold token_close in H. token_own H. clean_bool.
    assert (Nk : k <> m) by (intros ->; eapply Hnt', T1).
    split; [apply Hsame|]; rewrite upd_other by assumption; autorewrite with ledger; try reflexivity.
    destruct (key_eq_dec dest m) as [->|Nd].
    + rewrite set_lamports_same_lamports. pose proof (Hlam k). lia.
    + rewrite set_lamports_other by assumption. lia.
  - unfold token_toggle_freeze in H. token_own H. apply Hw. intros ->. eapply Hnt', T0.
  - unfold token_toggle_freeze in H. token_own H. apply Hw. intros ->. eapply Hnt', T0.
  - unfold token_init_mint in H. token_own H. clean_bool. apply Hw. intros ->. apply T1, Hm.
  - unfold token_init_account in H. destruct (key_eqb mint native_mint_id); token_own H; clean_bool;
      apply Hw; intros ->; auto.
  - unfold token_init_multisig in H. token_own H. clean_bool. apply Hw.
    intros ->. destruct Hm as (_ & W & _). apply mint_wf_zlen in W. unfold multisig_len in *.
    congruence.
  - unfold token_sync_native in H. token_own H. clean_bool. apply Hw.
    intros ->. eapply Hnt', T0.
Qed.
