(** Instructions of the other programs are executed as they are meant. *)
From Verif Require Import BytesFacts LedgerFacts AssertFacts LocalFacts WireBytes ExecFacts ScriptExec ExecWrites MessageSpec.
Import List ListNotations.
Open Scope list_scope.
Open Scope Z_scope.

Lemma same_account_iff a b : same_account a b = true <-> a = b.
Proof.
  split; [apply same_account_eq|]. intros <-. unfold same_account. rewrite Z.eqb_refl, key_eqb_refl.
  now rewrite (proj2 (bytes_eqb_true _ _) eq_refl).
Qed.
Lemma readonly_kept_iff accs l l' : readonly_kept accs l l' = true <-> read_only_kept accs l l'.
Proof.
  unfold readonly_kept, read_only_kept. rewrite forallb_forall. split.
  - intros H m I W. specialize (H m I). rewrite W in H. cbn [orb] in H. symmetry. now apply same_account_iff.
  - intros H m I. destruct (m_writable m) eqn:W; [reflexivity|]. cbn [orb]. apply same_account_iff. symmetry. now apply H.
Qed.
Lemma one_other C E l p accs data run l' :
  (forall x : res err outcome, (if key_eqb p xorca_id then x
   else if key_eqb p token_id then let? l' := exec_token E accs l data in Ok (l', @nil (list byte))
   else if key_eqb p system_id then let? l' := exec_system accs l data in Ok (l', @nil (list byte))
   else if key_eqb p ata_id then let? l' := exec_ata C E accs l data in Ok (l', @nil (list byte))
   else Err EInvalidAccountData) = let? l' := run in Ok (l', @nil (list byte))) ->
  execute_one C E l (Built p accs data) = Ok (l', []) <-> run = Ok l' /\ read_only_kept accs l l'.
Proof.
  intros H. unfold execute_one. cbn [b_program b_accounts b_data]. rewrite H. clear H.
  rewrite <- readonly_kept_iff. destruct run as [l1|e]; cbn [bind fst].
  - destruct (readonly_kept accs l l1) eqn:K; cbn [negb fail_if bind].
    + split; [intros Q; injection Q as <-; auto|intros [Q _]; injection Q as <-; reflexivity].
    + split; [discriminate|intros [Q Q']; injection Q as <-; congruence].
  - split; [discriminate|intros [Q _]; discriminate].
Qed.
Lemma u8_byte n : 0 <= n <= u8_max -> byte_to_Z (Z_to_byte n) = n.
Proof. intros H. apply byte_small. unfold u8_max in H. lia. Qed.
Lemma u64_app n r : is_u64 n -> field_u64 (le_enc 8 n ++ r) = Some (n, r).
Proof.
  intros U. unfold field_u64. rewrite take_bytes_app by apply le_enc_length. cbn [obind fst snd].
  rewrite le_dec_enc, Z.mod_small; [reflexivity|exact U].
Qed.
Lemma option_key_field o : field_option_key (optional_key o) = Some o.
Proof.
  destruct o as [k|]; [|reflexivity]. unfold field_option_key, optional_key. cbn [field_u8 obind fst snd].
  change (byte_to_Z x01 =? 0) with false. change (byte_to_Z x01 =? 1) with true. cbv iota.
  now rewrite read_key_field.
Qed.
Lemma tag_read ty b : authority_tag ty b -> authority_of (byte_to_Z b) = Some ty.
Proof. intros []; reflexivity. Qed.

Lemma token_says_request c ks extra data : token_says c ks extra data -> token_call_ok c = true ->
  token_request_of (ks ++ extra) data = Some (TokenRequest (Some c) extra None).
Proof.
  intros H K. destruct H; cbn [token_call_ok] in K; try (apply andb_true_iff in K; destruct K as [K1 K2]; apply Z.leb_le in K1, K2);
    unfold token_request_of; cbn [field_u8 obind fst snd app];
    match goal with |- context [byte_to_Z ?b] => let z := eval vm_compute in (byte_to_Z b) in change (byte_to_Z b) with z end;
    cbv iota beta zeta;
    rewrite ?app_nil_r, ?read_key_field, ?take_key_app, ?u8_byte by (unfold u8_max in *; lia);
    rewrite ?read_u64_field by (unfold is_u64, u64_max in *; lia);
    cbn [obind fst snd]; rewrite ?take_key_app; cbn [obind fst snd]; rewrite ?option_key_field; cbn [obind fst snd];
    try reflexivity.
  erewrite tag_read by eassumption. cbn [obind fst snd]. rewrite ?option_key_field. reflexivity.
Qed.

Lemma token_checked_request c ks extra data src mint dec : token_says_checked c ks extra data src mint dec ->
  token_call_ok c = true -> is_u8 dec ->
  token_request_of (ks ++ extra) data = Some (TokenRequest (Some c) extra (Some (src, mint, dec))).
Proof.
  intros H K D. destruct H; cbn [token_call_ok] in K; apply andb_true_iff in K; destruct K as [K1 K2]; apply Z.leb_le in K1, K2;
    unfold token_request_of; cbn [field_u8 obind fst snd app];
    match goal with |- context [byte_to_Z ?b] => let z := eval vm_compute in (byte_to_Z b) in change (byte_to_Z b) with z end;
    cbv iota beta zeta;
    rewrite u64_app by (unfold is_u64, u64_max in *; lia); cbn [obind fst snd field_u8];
    rewrite u8_byte by (unfold is_u8, u8_max in *; lia); reflexivity.
Qed.
Theorem token_says_runs C E l accs c ks extra data l' : token_says c ks extra data -> token_call_ok c = true ->
  map m_key accs = ks ++ extra ->
  execute_one C E l (Built token_id accs data) = Ok (l', []) <->
  token_exec E (signs (signers_of accs)) (filter (signs (signers_of accs)) extra) l c = Ok l' /\ read_only_kept accs l l'.
Proof.
  intros S K M. apply one_other. intros x. change (key_eqb token_id xorca_id) with false. change (key_eqb token_id token_id) with true.
  cbv iota. unfold exec_token. rewrite M, (token_says_request _ _ _ _ S K). reflexivity.
Qed.
Theorem token_checked_runs C E l accs c ks extra data src mint dec l' : token_says_checked c ks extra data src mint dec ->
  token_call_ok c = true -> is_u8 dec -> map m_key accs = ks ++ extra ->
  execute_one C E l (Built token_id accs data) = Ok (l', []) <->
  (forall k, src = Some k -> ta_mint (a_data (l k)) = mint) /\
  mint_unpack (a_data (l mint)) = Ok tt /\ mint_decimals (a_data (l mint)) = dec /\
  token_exec E (signs (signers_of accs)) (filter (signs (signers_of accs)) extra) l c = Ok l' /\ read_only_kept accs l l'.
Proof.
  intros S K D M. rewrite (one_other C E l token_id accs data
    (check? token_expect l (src, mint, dec) in
     token_exec E (signs (signers_of accs)) (filter (signs (signers_of accs)) extra) l c)).
  2:{ intros x. change (key_eqb token_id xorca_id) with false. change (key_eqb token_id token_id) with true.
      cbv iota. unfold exec_token. rewrite M, (token_checked_request _ _ _ _ _ _ _ S K D). reflexivity. }
  assert (X : token_expect l (src, mint, dec) = Ok tt <-> (forall k, src = Some k -> ta_mint (a_data (l k)) = mint) /\
    mint_unpack (a_data (l mint)) = Ok tt /\ mint_decimals (a_data (l mint)) = dec).
  { unfold token_expect. destruct (mint_unpack (a_data (l mint))) as [[]|e].
    - destruct src as [k|].
      + destruct (key_eqb (ta_mint (a_data (l k))) mint) eqn:Q; cbn [negb fail_if bind].
        * apply key_eqb_true in Q. destruct (Z.eqb_spec (mint_decimals (a_data (l mint))) dec) as [N|N]; cbn [negb fail_if].
          -- split; [intros _|reflexivity]. split; [intros k' I; injection I as <-; exact Q|auto].
          -- split; [discriminate|intros (_ & _ & B); contradiction].
        * split; [discriminate|intros (A & _)]. specialize (A k eq_refl). rewrite A, key_eqb_refl in Q. discriminate.
      + cbn [bind]. destruct (Z.eqb_spec (mint_decimals (a_data (l mint))) dec) as [N|N]; cbn [negb fail_if].
        * split; [intros _; split; [discriminate|auto]|reflexivity].
        * split; [discriminate|intros (_ & _ & B); contradiction].
    - destruct src as [k|]; [destruct (negb _)|]; cbn [fail_if bind]; (split; [discriminate|intros (_ & B & _); discriminate B]). }
  destruct (token_expect l (src, mint, dec)) as [[]|e] eqn:T; cbn [bind].
  - assert (Y := proj1 X eq_refl). tauto.
  - split; [intros [Q _]; discriminate Q|]. intros (A & B & N & _). pose proof (proj2 X (conj A (conj B N))) as Q. discriminate Q.
Qed.
Theorem system_says_runs C E l accs c ks data l' : system_says c ks data -> map m_key accs = ks ->
  execute_one C E l (Built system_id accs data) = Ok (l', []) <->
  system_exec (signs (signers_of accs)) l c = Ok l' /\ read_only_kept accs l l'.
Proof.
  intros S M. apply one_other. intros x. change (key_eqb system_id xorca_id) with false. change (key_eqb system_id token_id) with false.
  change (key_eqb system_id system_id) with true. cbv iota. unfold exec_system. rewrite M.
  replace (system_call_of ks data) with (Some c); [reflexivity|]. symmetry. destruct S; unfold system_call_of;
    rewrite take_bytes_app by apply le_enc_length; cbn [obind fst snd];
    match goal with |- context [le_dec (le_enc 4 ?z)] => change (le_dec (le_enc 4 z)) with z end; cbv iota beta zeta;
    rewrite ?u64_app, ?read_u64_field, ?read_key_field by assumption; cbn [obind fst snd];
    rewrite ?u64_app by assumption; cbn [obind fst snd]; rewrite ?read_key_field; reflexivity.
Qed.
(** Create fails where there is an account, CreateIdempotent does nothing to it. *)
Theorem ata_says_runs C E l accs payer ata wallet mint more data l' : map m_key accs = payer :: ata :: wallet :: mint :: more ->
  execute_one C E l (Built ata_id accs data) = Ok (l', []) <->
  (data = [] \/ data = [x00] \/ data = [x01]) /\ (data = [x01] \/ a_owner (l ata) = system_id) /\
  ata_create_idempotent C E (signs (signers_of accs)) l payer ata wallet mint = Ok l' /\ read_only_kept accs l l'.
Proof.
  intros M. rewrite (one_other C E l ata_id accs data (exec_ata C E accs l data)) by reflexivity.
  unfold exec_ata. rewrite M. fold (signers_of accs). fold (signing_keys accs).
  change (signing_keys accs) with (signers_of accs).
  assert (Z : forall b, byte_to_Z b = 0 -> b = x00) by (intros b Q; now apply byte_to_Z_inj).
  assert (O : forall b, byte_to_Z b = 1 -> b = x01) by (intros b Q; now apply byte_to_Z_inj).
  assert (T : (check? fail_if (negb (key_eqb (a_owner (l ata)) system_id)) (EAta AE_IllegalOwner) in
      ata_create_idempotent C E (signs (signers_of accs)) l payer ata wallet mint) = Ok l' <->
      a_owner (l ata) = system_id /\ ata_create_idempotent C E (signs (signers_of accs)) l payer ata wallet mint = Ok l').
  { destruct (key_eqb (a_owner (l ata)) system_id) eqn:Q; cbn [negb fail_if bind].
    - apply key_eqb_true in Q. tauto.
    - split; [discriminate|]. intros [A _]. rewrite A in Q. rewrite key_eqb_refl in Q. discriminate. }
  destruct data as [|b [|b' data]]; cbn [map].
  - rewrite T. split; [intros [[A B] K]; auto 8|]. intros (_ & [A|A] & B & K); [discriminate A|auto].
  - destruct (Z.eq_dec (byte_to_Z b) 0) as [Q|Q].
    + rewrite Q, T. apply Z in Q. subst b. split; [intros [[A B] K]; auto 8|]. intros (_ & [A|A] & B & K); [discriminate A|auto].
    + destruct (Z.eq_dec (byte_to_Z b) 1) as [Q'|Q'].
      * rewrite Q'. apply O in Q'. subst b. tauto.
      * split.
        -- intros [A _]. exfalso. revert A. destruct (byte_to_Z b) as [|[p|p|]|p]; try discriminate; lia.
        -- intros ([A|[A|A]] & _); [discriminate A| |]; injection A as ->; exfalso; [now apply Q|now apply Q'].
  - split.
    + intros [A _]. exfalso. revert A. destruct (byte_to_Z b) as [|[p|p|]|p]; discriminate.
    + intros ([A|[A|A]] & _); discriminate A.
Qed.
