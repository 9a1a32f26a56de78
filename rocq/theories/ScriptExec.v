(** The scripts' packets do what the scripts' steps do (C76). *)
From Verif Require Export ExecSpec WireScripts.
From Verif Require Import BytesFacts LedgerFacts LocalFacts AddressFacts AssertFacts CodecFacts.
Import List ListNotations.
Open Scope list_scope.
Open Scope Z_scope.

(** ** More signers *)
Definition more_signs (sg sg' : pubkey -> bool) : Prop := forall k, sg k = true -> sg' k = true.

Lemma le_signed sg sg' k (e : err) : more_signs sg sg' -> ok_le (fail_if (negb (sg k)) e) (fail_if (negb (sg' k)) e).
Proof. intros M x. unfold fail_if. destruct (sg k) eqn:K; [|discriminate]. now rewrite (M _ K). Qed.

Ltac les := repeat lazymatch goal with
  | |- ok_le (bind (fail_if (negb (_ _)) _) _) (bind (fail_if (negb (_ _)) _) _) =>
      apply le_bind; [first [now apply le_signed|apply LocalFacts.le_refl]|intros ?]
  | |- ok_le (bind ?x _) (bind ?x _) => apply le_bind; [apply LocalFacts.le_refl|intros ?]
  | |- ok_le (if ?b then _ else _) (if ?b then _ else _) => apply le_if
  | |- ok_le ?x ?x => apply LocalFacts.le_refl
  end.

Lemma more_transfer sg sg' l a b n : more_signs sg sg' -> ok_le (sys_transfer sg l a b n) (sys_transfer sg' l a b n).
Proof. intros M. unfold sys_transfer. cbv zeta. les. Qed.
Lemma more_allocate sg sg' l a n : more_signs sg sg' -> ok_le (sys_allocate sg l a n) (sys_allocate sg' l a n).
Proof. intros M. unfold sys_allocate. les. Qed.
Lemma more_assign sg sg' l a n : more_signs sg sg' -> ok_le (sys_assign sg l a n) (sys_assign sg' l a n).
Proof. intros M. unfold sys_assign. les. Qed.
Lemma more_with sg sg' k : more_signs sg sg' -> more_signs (with_signer sg k) (with_signer sg' k).
Proof. intros M x. unfold with_signer. rewrite !orb_true_iff. intros [H|H]; auto. Qed.
Lemma more_create sg sg' l a b n s o : more_signs sg sg' ->
  ok_le (sys_create_account sg l a b n s o) (sys_create_account sg' l a b n s o).
Proof.
  intros M. unfold sys_create_account. les.
  apply le_bind; [now apply more_allocate|intros l1]. apply le_bind; [now apply more_assign|intros l2]. now apply more_transfer.
Qed.
Lemma more_ata C E sg sg' l p a w m : more_signs sg sg' ->
  ok_le (ata_create_idempotent C E sg l p a w m) (ata_create_idempotent C E sg' l p a w m).
Proof.
  intros M. pose proof (more_with _ _ a M) as W. unfold ata_create_idempotent.
  destruct (find_program_address C (ata_seeds w m) ata_id) as [[addr b]|]; [|apply LocalFacts.le_refl].
  cbv zeta. apply le_bind; [apply LocalFacts.le_refl|intros _]. apply le_if; [apply LocalFacts.le_refl|].
  apply le_bind; [apply LocalFacts.le_refl|intros _]. apply le_bind; [|intros l1; apply LocalFacts.le_refl].
  apply le_if; [|now apply more_create].
  apply le_bind; [apply le_if; [now apply more_transfer|apply LocalFacts.le_refl]|intros la].
  apply le_bind; [now apply more_allocate|intros lb]. now apply more_assign.
Qed.
Lemma more_validate l sg sg' o a : more_signs sg sg' -> ok_le (validate_owner l sg [] o a) (validate_owner l sg' [] o a).
Proof.
  intros M. unfold validate_owner. cbv zeta. apply le_bind; [apply LocalFacts.le_refl|intros _].
  apply le_if; [apply LocalFacts.le_refl|]. now apply le_signed.
Qed.
Lemma more_spend l sg sg' d a n c : more_signs sg sg' -> ok_le (spend_auth l sg [] d a n c) (spend_auth l sg' [] d a n c).
Proof.
  intros M. unfold spend_auth. apply le_if.
  - apply le_bind; [now apply more_validate|intros _]. apply LocalFacts.le_refl.
  - apply le_bind; [now apply more_validate|intros _]. apply LocalFacts.le_refl.
Qed.
Lemma more_token_transfer sg sg' l a b c n : more_signs sg sg' ->
  ok_le (token_transfer sg [] l a b c n) (token_transfer sg' [] l a b c n).
Proof.
  intros M. unfold token_transfer. cbv zeta. do 7 (apply le_bind; [apply LocalFacts.le_refl|intros _]).
  apply le_bind; [now apply more_spend|intros d]. apply LocalFacts.le_refl.
Qed.
Lemma more_mint_authority sg sg' l k a n : more_signs sg sg' ->
  ok_le (token_set_authority sg [] l k a MintTokens n) (token_set_authority sg' [] l k a MintTokens n).
Proof.
  intros M. unfold token_set_authority. cbv zeta. apply le_bind; [apply LocalFacts.le_refl|intros _].
  apply le_if; [apply LocalFacts.le_refl|]. apply le_if; [|apply LocalFacts.le_refl].
  do 2 (apply le_bind; [apply LocalFacts.le_refl|intros _]).
  apply le_bind; [now apply more_validate|intros d]. apply LocalFacts.le_refl.
Qed.

(** ** Read-only accounts *)
Definition one_flag (accs : list meta) : Prop :=
  forall m1 m2, In m1 accs -> In m2 accs -> m_key m1 = m_key m2 -> m1 = m2.

Lemma kept accs l l' :
  one_flag accs -> (forall k, ~ given_writable accs k -> l' k = l k) -> readonly_kept accs l l' = true.
Proof.
  intros O H. unfold readonly_kept. apply forallb_forall. intros m Im. apply orb_true_iff.
  destruct (m_writable m) eqn:W; [now left|right]. rewrite H.
  - unfold same_account. rewrite Z.eqb_refl, key_eqb_refl. cbn [andb]. now apply bytes_eqb_true.
  - intros (m' & Im' & K & W'). rewrite (O m' m Im' Im K) in W'. congruence.
Qed.

Lemma twin_start accs l : twin accs l l l l.
Proof. split; auto. Qed.

Lemma twin_kept accs l (r r' : res err ledger) l' :
  one_flag accs -> rel (twin accs l l) r r' -> r = Ok l' -> readonly_kept accs l l' = true.
Proof.
  intros O T ->. destruct r'; cbn [rel] in T; [|contradiction]. apply kept; [exact O|]. intros k N. now apply T.
Qed.

Lemma mint_authority_twin accs l sg ex k a n :
  given_writable accs k -> given accs a ->
  rel (twin accs l l) (token_set_authority sg ex l k a MintTokens n) (token_set_authority sg ex l k a MintTokens n).
Proof.
  intros W G. pose proof (twin_start accs l) as T. unfold token_set_authority. cbv zeta. walk.
Qed.

(** ** One step *)
Definition scripted (E : env) (o : op) : Prop :=
  match o with
  | OpCall E' _ _ => E' = E
  | OpToken E' sgs ex (TC_Transfer _ _ a n) => E' = E /\ sgs = [a] /\ ex = [] /\ is_u64 n
  | OpToken E' sgs ex (TC_SetAuthority _ a MintTokens (Some _)) => E' = E /\ sgs = [a] /\ ex = []
  | OpAta E' sgs p _ _ _ => E' = E /\ sgs = [p]
  | _ => False
  end.

Lemma delivered_keys accs accs' : delivered accs accs' -> map m_key accs' = map m_key accs.
Proof. intros D. induction D as [|m m' a a' (K & _) D IH]; cbn; [reflexivity|now rewrite K, IH]. Qed.

Lemma delivered_signs accs accs' k :
  delivered accs accs' -> (exists m, In m accs /\ m_key m = k /\ m_signer m = true) ->
  signs (signing_keys accs') k = true.
Proof.
  intros D (m & I & K & S).
  assert (X : exists m', In m' accs' /\ m_key m' = k /\ m_signer m' = true).
  { clear - D I K S. induction D as [|x x' a a' (K' & S' & _) D IH]; [destruct I|]. destruct I as [->|I].
    - exists x'. split; [now left|]. split; [congruence|auto].
    - destruct (IH I) as (m' & I' & R). exists m'. split; [now right|exact R]. }
  destruct X as (m' & I' & K' & S'). unfold signs, signing_keys. apply existsb_exists. exists k.
  split; [|apply key_eqb_refl]. apply in_map_iff. exists m'. split; [exact K'|]. now apply filter_In.
Qed.

Lemma delivered_writes accs accs' k :
  delivered accs accs' -> given_writable accs k -> given_writable accs' k.
Proof.
  intros D (m & I & K & S). induction D as [|x x' a a' (K' & _ & S') D IH]; [destruct I|]. destruct I as [->|I].
  - exists x'. split; [now left|]. split; [congruence|auto].
  - destruct (IH I) as (m' & I' & R). exists m'. split; [now right|exact R].
Qed.
Lemma delivered_given accs accs' k : delivered accs accs' -> given accs k -> given accs' k.
Proof.
  intros D (m & I & K). induction D as [|x x' a a' (K' & _) D IH]; [destruct I|]. destruct I as [->|I].
  - exists x'. split; [now left|congruence].
  - destruct (IH I) as (m' & I' & R). exists m'. split; [now right|exact R].
Qed.

Lemma signs_one a sg' : sg' a = true -> more_signs (signs [a]) sg'.
Proof.
  intros H k K. unfold signs in K. cbn [existsb] in K. rewrite orb_false_r in K. apply key_eqb_true in K. now subst.
Qed.

Lemma read_u64_field n : is_u64 n -> field_u64 (le_enc 8 n) = Some (n, []).
Proof.
  intros H. unfold field_u64, take_bytes. rewrite le_enc_length. cbn [Nat.ltb Nat.leb obind].
  rewrite firstn_all2, skipn_all2 by (rewrite le_enc_length; auto). cbn [fst snd]. rewrite le_dec_enc, Z.mod_small; [reflexivity|exact H].
Qed.

Lemma read_key_field k : take_key (key_bytes k) = Some (k, []).
Proof.
  unfold take_key, take_bytes. rewrite key_bytes_length. cbn [Nat.ltb Nat.leb obind].
  rewrite firstn_all2, skipn_all2 by (rewrite key_bytes_length; auto). cbn [fst snd]. now rewrite key_of_bytes.
Qed.

Theorem execute_op C E l o b b' r :
  scripted E o -> instruction_of o = Some b ->
  b_program b' = b_program b -> b_data b' = b_data b -> delivered (b_accounts b) (b_accounts b') ->
  one_flag (b_accounts b') -> creates_new l [o] ->
  attempt C l o = Ok r -> execute_one C E l b' = Ok r.
Proof.
  intros S I P D A O N X. destruct script_ids as (K1 & _ & _ & _ & K3 & K4 & _).
  destruct ids_distinct as (Q1 & Q2 & Q3 & Q4 & Q5 & Q6 & _).
  unfold execute_one. cbv zeta.
  destruct o as [E' accs data|E' sgs ex c| |E' sgs p a w m| | |]; try contradiction; cbn [instruction_of] in I.
  - cbn [scripted] in S. subst E'. built_in I. cbn [b_program b_data b_accounts] in *.
    rewrite P, K1, key_eqb_refl, D. cbn [attempt] in X.
    rewrite (privileges_keep _ _ _ _ _ _ _ _ A X). cbn [bind].
    replace (readonly_kept _ _ _) with true; [reflexivity|]. symmetry. destruct r as [r evs]. cbn [fst].
    apply kept; [exact O|]. intros k G. destruct (account_dec (r k) (l k)) as [Y|Y]; [exact Y|].
    destruct G. exact (call_changes_writable _ _ _ _ _ _ _ _ _ (privileges_keep _ _ _ _ _ _ _ _ A X) Y).
  - assert (Pt : b_program b = script_token_id).
    { destruct c; try contradiction; cbn in I; [|destruct ty, new; try contradiction]; injection I as <-; reflexivity. }
    rewrite P, Pt, K3, key_eqb_refl. rewrite key_eqb_neq by auto. cbn [attempt] in X. unfold exec_token.
    rewrite (delivered_keys _ _ A), D.
    assert (Sg : forall k, (exists m, In m (b_accounts b) /\ m_key m = k /\ m_signer m = true) -> signs (signing_keys (b_accounts b')) k = true)
      by (intros k; now apply delivered_signs).
    destruct c; try contradiction.
    + cbn [scripted] in S. destruct S as (-> & -> & -> & U). built_in I. cbn [b_accounts b_data map m_key] in *.
      unfold token_request_of. cbn [field_u8 obind fst snd]. change (byte_to_Z (Z_to_byte 3)) with 3. cbv beta iota zeta.
      rewrite (read_u64_field _ U). cbn [obind fst snd tq_check tq_call tq_extra filter bind token_exec].
      cbn [token_exec] in X. destruct (token_transfer (signs [authority]) [] l from to authority amount) as [l'|] eqn:T; [|discriminate].
      cbn [bind] in X. injection X as <-.
      assert (M : more_signs (signs [authority]) (signs (signing_keys (b_accounts b')))).
      { apply signs_one, Sg. eexists. split; [right; right; left; reflexivity|]. auto. }
      pose proof (more_token_transfer _ _ l from to authority amount M _ T) as T'. rewrite T'. cbn [bind fst].
      erewrite twin_kept; [reflexivity|exact O| |exact T'].
      apply token_transfer_twin; [apply twin_start|..].
      * eapply delivered_writes; [exact A|]. eexists. split; [left; reflexivity|]. auto.
      * eapply delivered_writes; [exact A|]. eexists. split; [right; left; reflexivity|]. auto.
      * eapply delivered_given; [exact A|]. eexists. split; [right; right; left; reflexivity|]. auto.
    + cbn [scripted] in S. destruct ty; try contradiction. destruct new as [new|]; [|contradiction].
      destruct S as (-> & -> & ->). built_in I. cbn [b_accounts b_data map m_key] in *.
      unfold token_request_of. cbn [app field_u8 obind fst snd].
      change (byte_to_Z (Z_to_byte 6)) with 6. change (byte_to_Z (Z_to_byte 0)) with 0. cbv beta iota zeta.
      unfold authority_of. cbn [Z.eqb obind fst snd]. unfold field_option_key. cbn [field_u8 obind fst snd].
      change (byte_to_Z (Z_to_byte 1)) with 1. cbn [Z.eqb Pos.eqb]. cbv iota beta.
      rewrite read_key_field. cbn [obind fst snd tq_check tq_call tq_extra filter bind token_exec].
      cbn [token_exec] in X. destruct (token_set_authority (signs [authority]) [] l k authority MintTokens (Some new)) as [l'|] eqn:T; [|discriminate].
      cbn [bind] in X. injection X as <-.
      assert (M : more_signs (signs [authority]) (signs (signing_keys (b_accounts b')))).
      { apply signs_one, Sg. eexists. split; [right; left; reflexivity|]. auto. }
      pose proof (more_mint_authority _ _ l k authority (Some new) M _ T) as T'. rewrite T'. cbn [bind fst].
      erewrite twin_kept; [reflexivity|exact O| |exact T'].
      apply mint_authority_twin.
      * eapply delivered_writes; [exact A|]. eexists. split; [left; reflexivity|]. auto.
      * eapply delivered_given; [exact A|]. eexists. split; [right; left; reflexivity|]. auto.
  - cbn [scripted] in S. destruct S as (-> & ->). built_in I. cbn [b_program b_data b_accounts] in *.
    rewrite P, K4. rewrite !key_eqb_neq by auto. rewrite key_eqb_refl. unfold exec_ata.
    rewrite (delivered_keys _ _ A), D. cbn [map m_key]. cbn [attempt] in X.
    destruct (ata_create_idempotent C E (signs [p]) l p a w m) as [l'|] eqn:T; [|discriminate].
    cbn [bind] in X. injection X as <-.
    rewrite (N E [p] p a w m (or_introl eq_refl)), key_eqb_refl. cbn [negb fail_if bind].
    assert (M : more_signs (signs [p]) (signs (signing_keys (b_accounts b')))).
    { apply signs_one. eapply delivered_signs; [exact A|]. eexists. split; [left; reflexivity|]. auto. }
    pose proof (more_ata C E _ _ l p a w m M _ T) as T'. rewrite T'. cbn [bind fst].
    erewrite twin_kept; [reflexivity|exact O| |exact T'].
    apply ata_twin; [apply twin_start|..].
    + eapply delivered_writes; [exact A|]. eexists. split; [left; reflexivity|]. auto.
    + eapply delivered_writes; [exact A|]. eexists. split; [right; left; reflexivity|]. auto.
    + eapply delivered_given; [exact A|]. eexists. split; [right; right; right; left; reflexivity|]. auto.
Qed.

(** ** Whole transactions *)
(** At most one associated account is created, first. *)
Definition creates_first (ops : list op) : Prop :=
  exists pre o, ops = pre ++ [o] /\ (length pre <= 1)%nat /\
    forall E sgs p a w m, o <> OpAta E sgs p a w m.

Lemma execute_all C E ixs got : forall ops l r,
  Forall (scripted E) ops -> instructions_of ops = Some ixs -> creates_first ops -> creates_new l ops ->
  Forall2 (fun b b' => b_program b' = b_program b /\ b_data b' = b_data b /\
                       delivered (b_accounts b) (b_accounts b')) ixs got ->
  Forall (fun b => one_flag (b_accounts b)) got ->
  attempt_all C l ops = Ok r -> execute C E l got = Ok r.
Proof.
  intros ops l r S I CF CN F O A.
  assert (One : forall o b b' l1 r1, scripted E o -> instruction_of o = Some b ->
    b_program b' = b_program b /\ b_data b' = b_data b /\ delivered (b_accounts b) (b_accounts b') ->
    one_flag (b_accounts b') -> creates_new l1 [o] -> attempt C l1 o = Ok r1 -> execute_one C E l1 b' = Ok r1).
  { intros o b b' l1 r1 S1 I1 (P & D & De) O1 N1 A1. eapply execute_op; eassumption. }
  destruct CF as (pre & o & -> & Lp & No).
  destruct pre as [|o1 [|o2 pre]]; [| |cbn in Lp; lia].
  - cbn [app] in *. cbn [instructions_of] in I. opened I. built_in I.
    match goal with H : Some [] = Some _ |- _ => built_in H end.
    inversion F as [|b b' bs gs R F' E1 E2]. subst. inversion F'. subst. inversion S. subst. inversion O. subst.
    cbn [attempt_all] in A. destruct (attempt C l o) as [r1|] eqn:A1; [|discriminate].
    cbn [execute]. erewrite One; [exact A|eassumption..].
  - cbn [app] in *. cbn [instructions_of] in I. opened I. built_in I. 
    match goal with H : obind _ _ = Some _ |- _ => opened H; built_in H end.
    match goal with H : Some [] = Some _ |- _ => built_in H end.
    inversion F as [|b b' bs gs R F' E1 E2]. subst. inversion F' as [|c c' cs hs R' F'' E1 E2]. subst. inversion F''. subst.
    inversion S as [|? ? S1 S2]. subst. inversion S2. subst. inversion O as [|? ? O1 O2]. subst. inversion O2. subst.
    cbn [attempt_all] in A. destruct (attempt C l o1) as [r1|] eqn:A1; [|discriminate]. cbn [bind] in A.
    destruct (attempt C (fst r1) o) as [r2|] eqn:A2; [|discriminate].
    cbn [execute]. rewrite (One o1 _ _ l r1 S1 ltac:(eassumption) R O1); [|intros ? ? ? ? ? ? [Q|[]]; eapply CN; left; exact Q|exact A1].
    cbn [bind]. erewrite One; [exact A|eassumption|eassumption|eassumption|eassumption| |exact A2]. intros ? ? ? ? ? ? [Q|[]]. destruct (No _ _ _ _ _ _ Q).
Qed.

Lemma create_first E l p k w m o :
  (forall E sgs p a w m, o <> OpAta E sgs p a w m) ->
  creates_first (create_if_missing E l p k w m ++ [o]).
Proof.
  intros N. exists (create_if_missing E l p k w m), o. split; [reflexivity|]. split; [|exact N].
  unfold create_if_missing. destruct (rpc_get l k); cbn; lia.
Qed.
Lemma single_first o : (forall E sgs p a w m, o <> OpAta E sgs p a w m) -> creates_first [o].
Proof. intros N. exists [], o. split; [reflexivity|]. split; [cbn; lia|exact N]. Qed.
Lemma create_scripted E l p k w m o :
  scripted E o -> Forall (scripted E) (create_if_missing E l p k w m ++ [o]).
Proof.
  intros S. apply Forall_app. split; [|now repeat constructor]. unfold create_if_missing.
  destruct (rpc_get l k); repeat constructor.
Qed.
Lemma create_instructions E l p k w m o b :
  instruction_of o = Some b -> exists ixs, instructions_of (create_if_missing E l p k w m ++ [o]) = Some ixs.
Proof.
  intros I. unfold create_if_missing. destruct (rpc_get l k); cbn [app instructions_of]; rewrite I; cbn; eauto.
Qed.
Lemma js_u64_range z x : js_u64 z = Some x -> is_u64 z.
Proof.
  unfold js_u64, is_u64, u64_max. destruct (_ || _) eqn:Q; [discriminate|]. intros _.
  apply orb_false_iff in Q. destruct Q as [Q1 Q2]. apply Z.ltb_ge in Q1, Q2. lia.
Qed.

Lemma sends_scripted C E l fee signers ops :
  script_sends C E l fee signers ops ->
  Forall (scripted E) ops /\ creates_first ops /\
  exists ixs, instructions_of ops = Some ixs /\ script_transaction C E l fee signers ixs.
Proof.
  intros H.
  assert (G : Forall (scripted E) ops /\ creates_first ops /\ exists ixs, instructions_of ops = Some ixs).
  { destruct H as [u n ops H|u n i ops H|u i ops H|u c b H|u k b H|dep au c ops H|u to n ops H|u n ops H|u ops H].
    - unfold stake_script in H. opened H. destruct (_ <? _); [discriminate|]. opened H. built_in H.
      split; [now apply create_scripted|]. split; [now apply create_first|]. eapply create_instructions. reflexivity.
    - unfold unstake_script in H. opened H. destruct (_ <? _); [discriminate|]. opened H. built_in H.
      split; [now apply create_scripted|]. split; [now apply create_first|]. eapply create_instructions. reflexivity.
    - unfold withdraw_script in H. opened H. destruct (_ <? _)%nat; [discriminate|]. opened H. built_in H.
      split; [now apply create_scripted|]. split; [now apply create_first|]. eapply create_instructions. reflexivity.
    - split; [now repeat constructor|]. split; [now apply single_first|]. eexists. reflexivity.
    - split; [now repeat constructor|]. split; [now apply single_first|]. eexists. reflexivity.
    - unfold initialize_script in H. opened H. built_in H.
      split; [now repeat constructor|]. split; [now apply single_first|]. eexists. reflexivity.
    - unfold transfer_script in H. opened H. destruct (_ <? _); [discriminate|]. opened H. built_in H.
      split; [apply create_scripted; repeat split; auto; eapply js_u64_range; eassumption|].
      split; [now apply create_first|]. eapply create_instructions. reflexivity.
    - unfold deposit_script in H. opened H. destruct (_ <? _); [discriminate|]. opened H. built_in H.
      split; [repeat constructor; eapply js_u64_range; eassumption|]. split; [now apply single_first|]. eexists. reflexivity.
    - unfold authority_script in H. opened H. built_in H.
      split; [now repeat constructor|]. split; [now apply single_first|]. eexists. reflexivity. }
  destruct G as (S & CF & ixs & I). split; [exact S|]. split; [exact CF|]. exists ixs. split; [exact I|].
  destruct H as [u n ops H|u n i ops H|u i ops H|u c b H|u k b H|dep au c ops H|u to n ops H|u n ops H|u ops H].
  - eapply TxStake; eassumption.
  - eapply TxUnstake; eassumption.
  - eapply TxWithdraw; eassumption.
  - rewrite send_last in I. built_in I. replace (Built _ _ _) with b; [eapply TxCooldown; exact H|].
    unfold script_set_cooldown in H. opened H. destruct (_ <? _); [discriminate|]. opened H. built_in H. reflexivity.
  - rewrite send_last in I. built_in I. replace (Built _ _ _) with b; [eapply TxAuthority; exact H|].
    unfold script_set_authority in H. opened H. built_in H. reflexivity.
  - eapply TxInitialize; eassumption.
  - eapply TxTransfer; eassumption.
  - eapply TxDeposit; eassumption.
  - eapply TxMintAuthority; eassumption.
Qed.

Theorem script_packet C E l l1 before signature verify reserved tables hash fee signers ops ixs payer r :
  signs_well signature verify signers -> script_sends C E l fee signers ops -> is_payer fee signers payer ->
  instructions_of ops = Some ixs -> ~ is_called ixs payer ->
  (forall b m, In b ixs -> In m (b_accounts b) -> m_writable m = true ->
     reserved (m_key m) = false /\ ~ is_called ixs (m_key m)) ->
  creates_new l1 ops -> attempt_all C l1 ops = Ok r ->
  exists d, wire before signature hash fee signers ixs = Some d /\
    packet C E verify reserved tables l1 d = r.
Proof.
  intros Sg H P I NC Wr CN A. destruct (sends_scripted _ _ _ _ _ _ H) as (S & CF & ixs' & I' & T).
  assert (ixs' = ixs) by congruence. subst ixs'.
  destruct (scripts_arrive C E l before signature verify reserved tables hash fee signers ixs payer Sg T P NC Wr) as (d & got & W & R & F).
  exists d. split; [exact W|]. unfold packet. rewrite R.
  rewrite (execute_all C E ixs got ops l1 r); auto. apply Forall_forall. intros b Ib m1 m2 I1 I2 Q.
  eapply receive_one_flag; eassumption.
Qed.
