(** Success conditions of the account assertions. *)
From Verif Require Import Program BytesFacts LedgerFacts TokenFacts ParseFacts CpiFacts.

Lemma role_sw m u :
  assert_account_role m [Signer; Writable] = Ok u <-> m_signer m = true /\ m_writable m = true.
Proof.
  cbn [assert_account_role]. split.
  - intros H. inv_bind H v. inv_bind H v0. clean_bool. auto.
  - intros [-> ->]. now destruct u.
Qed.
Lemma role_w m u : assert_account_role m [Writable] = Ok u <-> m_writable m = true.
Proof.
  cbn [assert_account_role]. split.
  - intros H. inv_bind H v. clean_bool. auto.
  - intros ->. now destruct u.
Qed.
Lemma owner_ok l m o u : assert_account_owner l m o = Ok u <-> a_owner (l (m_key m)) = o.
Proof.
  unfold assert_account_owner. rewrite fail_if_ok, negb_false_iff. split.
  - apply key_eqb_true.
  - intros ->. apply key_eqb_refl.
Qed.
Lemma address_ok m a u : assert_account_address m a = Ok u <-> m_key m = a.
Proof.
  unfold assert_account_address. rewrite fail_if_ok, negb_false_iff. split.
  - apply key_eqb_true.
  - intros ->. apply key_eqb_refl.
Qed.
Lemma seeds_ok_iff C m pid seeds b :
  assert_account_seeds C m pid seeds = Ok b <->
  exists bump, find_program_address C seeds pid = Some (m_key m, bump) /\ b = byte_to_Z bump.
Proof.
  unfold assert_account_seeds. destruct (find_program_address C seeds pid) as [[k bump]|].
  - split.
    + intros H. inv_bind H u. injection H as <-. clean_bool. rewrite Hx. eauto.
    + intros (b' & [= -> ->] & ->). rewrite key_eqb_refl. reflexivity.
  - split; [discriminate|]. now intros (b' & H & _).
Qed.

(** A State account: long enough and carrying its discriminator. *)
Definition state_shaped (d : list byte) : Prop := 2048 <= zlen d /\ st_disc d = 1.
Definition pending_shaped (d : list byte) : Prop := 1024 <= zlen d /\ pw_disc d = 2.

Lemma state_data_ok l m d :
  assert_state_data l m = Ok d <-> d = a_data (l (m_key m)) /\ state_shaped d.
Proof.
  unfold assert_state_data, assert_account_len, assert_account_discriminator, state_shaped,
    STATE_LEN, DISC_STATE, st_disc. split.
  - intros H. inv_bind H u. inv_bind H v. injection H as <-. inv_bind Hx0 w. clean_bool. auto.
  - intros (-> & H1 & H2).
    rewrite (fail_if_Ok (_ <? _)) by (apply Z.ltb_ge; lia). cbn [bind].
    rewrite (fail_if_Ok (_ <? 1)) by (apply Z.ltb_ge; lia). cbn [bind].
    now rewrite H2.
Qed.
Lemma pending_data_ok l m d :
  assert_pending_data l m = Ok d <-> d = a_data (l (m_key m)) /\ pending_shaped d.
Proof.
  unfold assert_pending_data, assert_account_len, assert_account_discriminator, pending_shaped,
    PENDING_LEN, DISC_PENDING, pw_disc. split.
  - intros H. inv_bind H u. inv_bind H v. injection H as <-. inv_bind Hx0 w. clean_bool. auto.
  - intros (-> & H1 & H2).
    rewrite (fail_if_Ok (_ <? _)) by (apply Z.ltb_ge; lia). cbn [bind].
    rewrite (fail_if_Ok (_ <? 1)) by (apply Z.ltb_ge; lia). cbn [bind].
    now rewrite H2.
Qed.

Definition mint_shaped (d : list byte) : Prop := 82 <= zlen d /\ mint_init d <= 1.
Definition ta_shaped (d : list byte) : Prop := 165 <= zlen d /\ ta_state d <= 2.

Lemma mint_data_ok l m t :
  assert_mint_data l m = Ok t <->
  t = parse_mint (a_data (l (m_key m))) /\ mint_shaped (a_data (l (m_key m))).
Proof.
  unfold assert_mint_data, mint_shaped. rewrite read_mint_spec.
  destruct (_ && _) eqn:Eb.
  - clean_bool. split; [intros [=<-]; auto|intros (-> & _); reflexivity].
  - split; [discriminate|]. intros (_ & H1 & H2). apply andb_false_iff in Eb.
    destruct Eb; clean_bool; lia.
Qed.
Lemma ta_data_ok l m t :
  assert_token_account_data l m = Ok t <->
  t = parse_ta (a_data (l (m_key m))) /\ ta_shaped (a_data (l (m_key m))).
Proof.
  unfold assert_token_account_data, ta_shaped. rewrite read_ta_spec.
  destruct (_ && _) eqn:Eb.
  - clean_bool. split; [intros [=<-]; auto|intros (-> & _); reflexivity].
  - split; [discriminate|]. intros (_ & H1 & H2). apply andb_false_iff in Eb.
    destruct Eb; clean_bool; lia.
Qed.

Lemma ta_live_shaped l k : ta_live l k -> ta_shaped (a_data (l k)).
Proof.
  intros (_ & Hw & Hs). split; [|lia]. apply ta_wf_zlen in Hw. lia.
Qed.
Lemma mint_live_shaped l k : mint_live l k -> mint_shaped (a_data (l k)).
Proof.
  intros (_ & Hw & Hs). split; [|lia]. apply mint_wf_zlen in Hw. lia.
Qed.

(** What [make_owner_token_account_assertions] accepts. *)
Definition ta_of (l : ledger) (k mint owner : pubkey) : Prop :=
  a_owner (l k) = token_id /\ ta_shaped (a_data (l k)) /\
  ta_mint (a_data (l k)) = mint /\ ta_owner (a_data (l k)) = owner.

Lemma owner_ta_ok l ta owner mint w t :
  make_owner_token_account_assertions l ta owner mint w = Ok t <->
  (w = true -> m_writable ta = true) /\ ta_of l (m_key ta) (m_key mint) (m_key owner) /\
  t = parse_ta (a_data (l (m_key ta))).
Proof.
  unfold make_owner_token_account_assertions, ta_of. split.
  - intros H. inv_bind H u. inv_bind H v. inv_bind H d. inv_bind H w0. inv_bind H w1.
    injection H as <-. apply ta_data_ok in Hx1. destruct Hx1 as [-> Hsh].
    apply owner_ok in Hx0. clean_bool. cbn in Hx2, Hx3.
    repeat split; auto; try apply Hsh. intros ->. now apply role_w in Hx.
  - intros (Hw & (H1 & H2 & H3 & H4) & ->).
    assert (E1 : (if w then assert_account_role ta [Writable] else Ok tt) = Ok tt).
    { destruct w; [|reflexivity]. apply role_w. auto. }
    rewrite E1. cbn [bind].
    assert (E2 : assert_account_owner l ta token_id = Ok tt) by now apply owner_ok.
    rewrite E2. cbn [bind].
    assert (E3 : assert_token_account_data l ta = Ok (parse_ta (a_data (l (m_key ta)))))
      by (apply ta_data_ok; auto).
    rewrite E3. cbn [bind parse_ta tk_owner tk_mint]. rewrite H3, H4, !key_eqb_refl. reflexivity.
Qed.

Lemma verify_state_ok C m b u :
  verify_state_address C m b = Ok u <-> m_key m = state_address_with_bump C b.
Proof.
  unfold verify_state_address. rewrite fail_if_ok, negb_false_iff. split.
  - apply key_eqb_true.
  - intros ->. apply key_eqb_refl.
Qed.
Lemma verify_vault_ok C s v o b u :
  verify_vault_address C s v o b = Ok u <->
  m_key v = vault_address_with_bump C (m_key s) (m_key o) b.
Proof.
  unfold verify_vault_address. rewrite fail_if_ok, negb_false_iff. split.
  - apply key_eqb_true.
  - intros ->. apply key_eqb_refl.
Qed.
Lemma verify_pending_ok C m un i b u :
  verify_pending_address C m un i b = Ok u <->
  m_key m = pending_address_with_bump C un i b.
Proof.
  unfold verify_pending_address. rewrite fail_if_ok, negb_false_iff. split.
  - apply key_eqb_true.
  - intros ->. apply key_eqb_refl.
Qed.
Lemma checked_sub_ok a b e r : u64_checked_sub a b e = Ok r <-> b <= a /\ r = a - b.
Proof.
  unfold u64_checked_sub. destruct (Z.leb_spec b a); split; intros; try discriminate.
  - injection H0. auto.
  - destruct H0 as [_ ->]. reflexivity.
  - lia.
Qed.
Lemma checked_add_ok a b e r : u64_checked_add a b e = Ok r <-> a + b <= u64_max /\ r = a + b.
Proof.
  unfold u64_checked_add. destruct (Z.leb_spec (a + b) u64_max); split; intros; try discriminate.
  - injection H0. auto.
  - destruct H0 as [_ ->]. reflexivity.
  - lia.
Qed.
Lemma checked_add_i64_ok a b e r :
  i64_checked_add a b e = Ok r <-> is_i64 (a + b) /\ r = a + b.
Proof.
  unfold i64_checked_add, is_i64, i64_min, i64_max.
  destruct (_ && _) eqn:Eb; clean_bool; split; intros; try discriminate.
  - injection H1. split; auto; lia.
  - destruct H1 as [_ ->]. reflexivity.
  - apply andb_false_iff in Eb. destruct Eb; clean_bool; lia.
Qed.

(** ** Addresses *)
(** [k] is an address the program can sign for. *)
Definition is_pda (C : crypto) (k : pubkey) : Prop :=
  exists seeds, create_program_address C seeds xorca_id = Some k.

(** The runtime never lets the holder of a key sign for such an address. *)
Definition no_pda_signers (C : crypto) (accs : list meta) : Prop :=
  forall m, In m accs -> m_signer m = true -> ~ is_pda C (m_key m).

Lemma find_bump_create C seeds pid fuel : forall b k bump,
  find_bump C seeds pid fuel b = Some (k, bump) ->
  create_program_address C (seeds ++ [[bump]]) pid = Some k.
Proof.
  induction fuel as [|fuel IH]; intros b k bump; cbn [find_bump]; [discriminate|].
  destruct (create_program_address C (seeds ++ [[Z_to_byte b]]) pid) eqn:E.
  - intros [= <- <-]. exact E.
  - apply IH.
Qed.

Lemma find_create C seeds pid k bump :
  find_program_address C seeds pid = Some (k, bump) ->
  create_program_address C (seeds ++ [[bump]]) pid = Some k.
Proof. apply find_bump_create. Qed.

Lemma find_is_pda C seeds k bump :
  find_program_address C seeds xorca_id = Some (k, bump) -> is_pda C k.
Proof. intros H. apply find_create in H. eexists. exact H. Qed.

Lemma create_derive C seeds b pid k :
  create_program_address C (seeds ++ [[b]]) pid = Some k -> k = derive_address C seeds b pid.
Proof.
  unfold create_program_address, derive_address. destruct (seeds_ok _); [|discriminate].
  destruct (on_curve C _); congruence.
Qed.

Lemma byte_round b : Z_to_byte (byte_to_Z b) = b.
Proof. now destruct b. Qed.

Lemma find_state_bump C k bump :
  find_state_address C = Some (k, bump) -> k = state_address_with_bump C (byte_to_Z bump).
Proof.
  intros H. apply find_create in H. apply create_derive in H. unfold state_address_with_bump.
  now rewrite byte_round.
Qed.
Lemma find_pending_bump C u i k bump :
  find_pending_withdraw_address C u i = Some (k, bump) ->
  k = pending_address_with_bump C u i (byte_to_Z bump).
Proof.
  intros H. apply find_create in H. apply create_derive in H. unfold pending_address_with_bump.
  now rewrite byte_round.
Qed.
Lemma find_vault_bump C s m k bump :
  find_vault_address C s token_id m = Some (k, bump) ->
  k = vault_address_with_bump C s m (byte_to_Z bump).
Proof.
  intros H. apply find_create in H. apply create_derive in H. unfold vault_address_with_bump.
  now rewrite byte_round.
Qed.

(** The program ids are pairwise different. *)
Lemma ids_distinct :
  token_id <> xorca_id /\ token_id <> system_id /\ xorca_id <> system_id /\
  ata_id <> token_id /\ ata_id <> xorca_id /\ ata_id <> system_id /\
  orca_mint_id <> xorca_mint_id /\ orca_mint_id <> native_mint_id /\
  xorca_mint_id <> native_mint_id.
Proof. repeat split; intros H; apply (f_equal key_bytes) in H; vm_compute in H; discriminate. Qed.
