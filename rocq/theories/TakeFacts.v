(** Whose tokens and lamports a call can take (C51). *)
From Coq Require Import Lia.
From Verif Require Import GuardSpec BytesFacts FieldFacts LedgerFacts TokenFacts ParseFacts CpiFacts
  AssertFacts LayoutFacts StakeFacts UnstakeFacts WithdrawFacts InitFacts CodecFacts Totals OutsideFacts TokenStep VaultStep Calm
  HistoryFacts LifeFacts Pool PoolStake PoolUnstake PoolInit PoolHistory FailFacts EffectFacts.
Import List ListNotations.
Open Scope Z_scope.

Lemma performs_of C E accs l data ins l' evs :
  encodes data ins -> process_instruction C E xorca_id accs l data = Ok (l', evs) ->
  performs C l (OpCall E accs data) ins accs (now E).
Proof. intros He H. exists E, data. rewrite H. auto. Qed.

Lemma untouched l l' k : a_data (l' k) = a_data (l k) -> ~ loses_tokens l l' k.
Proof. intros H (_ & _ & K). unfold balance in K. rewrite H in K. lia. Qed.

Lemma xorca_no_loss l l' k : a_owner (l k) <> token_id -> ~ loses_tokens l l' k.
Proof. intros H (K & _). contradiction. Qed.

Lemma mint_no_loss l l' k : length (a_data (l k)) = 82%nat -> ~ loses_tokens l l' k.
Proof. intros H (_ & K & _). apply ta_unpack_ok in K. destruct K as [K _]. apply ta_wf_len in K. congruence. Qed.

Lemma call_takes_tokens C l E accs data k :
  ordinary_state_address C -> reaches C l -> op_ok C l (OpCall E accs data) ->
  let o := OpCall E accs data in let l' := fst (run_op C l o) in
  loses_tokens l l' k ->
  (exists s mint, signed_slot accs 0 s /\ token_account_of l k mint s) \/
  (exists sk r, is_state l sk /\ is_vault C sk k /\ pays C l o r /\
     balance l' k = balance l k - rec_amount l r).
Proof.
  intros Hord (l0 & ops & evs0 & Hg & Hh0) [HE Hh]. cbn [run_op].
  destruct (process_instruction C E xorca_id accs l data) as [[l' evs]|e] eqn:H; cbn [fst];
    [|intros K; exfalso; eapply untouched; [|exact K]; reflexivity].
  intros K.
  pose proof H as Hx. unfold process_instruction in Hx. inv_bind Hx u0.
  destruct (deserialize read_instruction data) as [ins|] eqn:Ed; [|discriminate].
  pose proof Ed as He. apply decode_encodes in He.
  destruct (reachable _ _ _ _ _ Hord Hg Hh0) as [[HF _]|(sk & vk & P & HP)].
  { destruct (fresh_others_fail _ _ _ _ _ _ _ HF HE Hh H) as (c & _ & Hd & _).
    rewrite Ed in Hd. injection Hd as ->.
    apply (init_exact _ _ _ _ _ _ _ _ HE Hh He) in H.
    destruct H as (st & v & au & sb & vb & H). decompose [and] H. clear H. exfalso.
    destruct (key_eq_dec k st) as [->|N1].
    { eapply xorca_no_loss; [|exact K]. intros Q. apply token_ne_system. congruence. }
    destruct (key_eq_dec k v) as [->|N2].
    { eapply xorca_no_loss; [|exact K]. intros Q. apply token_ne_system. congruence. }
    eapply untouched; [|exact K].
    match goal with Q : forall a, a <> st -> a <> v -> _ /\ _ |- _ => now apply Q end. }
  pose proof (mo_live _ _ _ (po_mint _ _ _ _ _ HP)) as Lm. destruct Lm as (_ & Lm & _). apply mint_wf_len in Lm.
  destruct ins as [a|x i|i|c|u].
  - apply (stake_exact _ _ _ _ _ _ _ _ Hh He) in H. assert (R := proj1 He). cbn in R.
    destruct H as (staker & v & so & sx & st & m & H). decompose [and] H. clear H.
    destruct (in_dec key_eq_dec k [so; v; sx; xorca_mint_id]) as [I|I];
      [|exfalso; eapply untouched; [|exact K]; auto].
    unfold is_u64 in R. cbn in I. destruct I as [<-|[<-|[<-|[<-|[]]]]].
    + left. eauto.
    + destruct K as (_ & _ & K). lia.
    + destruct K as (_ & _ & K). lia.
    + exfalso. eapply mint_no_loss; [exact Lm|exact K].
  - apply (unstake_exact _ _ _ _ _ _ _ _ _ HE Hh He) in H.
    destruct H as (un & st & pk & ux & v & w & H). decompose [and] H. clear H.
    destruct (in_dec key_eq_dec k [ux; xorca_mint_id; st; pk]) as [I|I];
      [|exfalso; eapply untouched; [|exact K]; auto].
    cbn in I. destruct I as [<-|[<-|[<-|[<-|[]]]]].
    + left. eauto.
    + exfalso. eapply mint_no_loss; [exact Lm|exact K].
    + exfalso. eapply xorca_no_loss; [|exact K].
      match goal with Q : is_state l st |- _ => destruct Q as [Q _]; rewrite Q end.
      intros Q'. symmetry in Q'. now apply ids_distinct in Q'.
    + exfalso. eapply xorca_no_loss; [|exact K].
      match goal with Q : a_owner (l pk) = system_id |- _ => rewrite Q end.
      intros Q'. symmetry in Q'. now apply ids_distinct in Q'.
  - pose proof (performs_of _ _ _ _ _ _ _ _ He H) as Hp. pose proof H as Hr.
    apply (withdraw_exact _ _ _ _ _ _ _ _ Hh He) in H.
    destruct H as (un & st & pk & uo & v & H). decompose [and] H. clear H.
    destruct (in_dec key_eq_dec k [v; uo; st; pk]) as [I|I];
      [|exfalso; eapply untouched; [|exact K]; auto].
    assert (Rc : is_u64 (rec_amount l pk)) by apply get_u64_range. unfold is_u64 in Rc.
    cbn in I. destruct I as [<-|[<-|[<-|[<-|[]]]]].
    + right. exists st, pk. split; [assumption|]. split.
      * assert (st = sk) by (match goal with Q : is_state l st |- _ => destruct Q; eapply pool_state_is; eassumption end).
        subst st.
        pose proof (pool_withdraw _ _ _ _ _ _ _ _ _ _ HP (proj1 He) Hh Hx) as W.
        destruct W as (un' & st' & pd' & uo' & v' & om & sp & tp & vd1 & Pre & E1 & E2 & _).
        destruct Pre. destruct wp_accs.
        assert (v = m_key v') by (eapply slot_fun; [eassumption|exists v'; eauto]). subst v.
        rewrite E2. destruct (po_findv _ _ _ _ _ HP) as (b & F & _). exists b. exact F.
      * split; [|assumption]. eapply withdraw_pays; [exact HP|split; assumption|exact Hp|assumption].
    + destruct K as (_ & _ & K). lia.
    + exfalso. eapply xorca_no_loss; [|exact K].
      match goal with Q : is_state l st |- _ => destruct Q as [Q _]; rewrite Q end.
      intros Q'. symmetry in Q'. now apply ids_distinct in Q'.
    + exfalso. eapply xorca_no_loss; [|exact K].
      match goal with Q : is_record l pk |- _ => destruct Q as [Q _]; rewrite Q end.
      intros Q'. symmetry in Q'. now apply ids_distinct in Q'.
  - destruct (pool_no_init _ _ _ _ _ _ _ _ _ HP HE Hh Hx).
  - apply (set_exact _ _ _ _ _ _ _ _ He) in H.
    destruct H as (st & _ & [S _] & _ & O & D & _).
    exfalso. destruct (key_eq_dec k st) as [->|N].
    + eapply xorca_no_loss; [|exact K]. rewrite S. intros Q'. symmetry in Q'. now apply ids_distinct in Q'.
    + eapply untouched; [|exact K]. auto.
Qed.

Lemma call_takes_lamports C l E accs data k :
  ordinary_state_address C -> reaches C l -> op_ok C l (OpCall E accs data) ->
  let o := OpCall E accs data in let l' := fst (run_op C l o) in
  loses_lamports l l' k ->
  (exists s, signed_slot accs 0 s /\
     (k = s \/ (token_account_of l k orca_mint_id s /\ ~ ordinary l k))) \/
  (pays C l o k /\ exists s, signed_slot accs 0 s /\
     a_lamports (l' k) = 0 /\ a_lamports (l' s) = a_lamports (l s) + a_lamports (l k)).
Proof.
  intros Hord (l0 & ops & evs0 & Hg & Hh0) [HE Hh]. cbn [run_op].
  destruct (process_instruction C E xorca_id accs l data) as [[l' evs]|e] eqn:H; cbn [fst];
    [|unfold loses_lamports; lia].
  intros K.
  pose proof H as Hx. unfold process_instruction in Hx. inv_bind Hx u0.
  destruct (deserialize read_instruction data) as [ins|] eqn:Ed; [|discriminate].
  pose proof Ed as He. apply decode_encodes in He.
  destruct (reachable _ _ _ _ _ Hord Hg Hh0) as [[HF _]|(sk & vk & P & HP)].
  { destruct (fresh_others_fail _ _ _ _ _ _ _ HF HE Hh H) as (c & _ & Hd & _).
    rewrite Ed in Hd. injection Hd as ->.
    apply (init_exact _ _ _ _ _ _ _ _ HE Hh He) in H.
    destruct H as (st & v & au & sb & vb & H). decompose [and] H. clear H.
    left. exists deployer_address. split; [assumption|]. left.
    destruct (key_eq_dec k deployer_address) as [Q|N]; [exact Q|exfalso].
    destruct (key_eq_dec k st) as [->|N1]; [unfold loses_lamports in K; lia|].
    destruct (key_eq_dec k v) as [->|N2]; [|unfold loses_lamports in K; match goal with Q : forall a, a <> st -> a <> v -> a <> deployer_address -> _ |- _ => rewrite Q in K by assumption end; lia].
    match goal with Q : deployer_address <> v -> _ |- _ => destruct Q as [Q _]; [congruence|apply (fr_lam _ _ HF)|] end.
    unfold loses_lamports in K. lia. }
  destruct ins as [a|x i|i|c|u].
  - assert (R := proj1 He). cbn in R. left.
    pose proof (honest_call _ _ _ _ _ _ _ _ He H) as Hs.
    apply stake_inv in Hs; [|exact R|exact Hh].
    destruct Hs as (staker & vault & so & sx & xm & st & om & tp & m & sd1 & Pre & Hm & Hmu & Hne & Hd &
                 _ & Hl & Hln & _). destruct Pre. destruct sp_accs.
    exists (m_key staker). split; [exists staker; auto|]. right.
    unfold loses_lamports in K. rewrite Hl in K. unfold native_moves in K.
    destruct (ta_is_native (a_data (l (m_key so)))) eqn:Q; [|lia].
    unfold is_u64 in R. destruct (key_eqb (m_key so) k) eqn:Q2.
    + apply key_eqb_true in Q2. subst k. split; [now apply ta_live_token|].
      unfold ordinary. intros Q3. unfold ta_is_native in Q. rewrite Q3 in Q. discriminate.
    + destruct (key_eqb (m_key vault) k); lia.
  - apply (unstake_exact _ _ _ _ _ _ _ _ _ HE Hh He) in H.
    destruct H as (un & st & pk & ux & v & w & H). decompose [and] H. clear H.
    left. exists un. split; [assumption|]. left. unfold loses_lamports in K.
    destruct (key_eq_dec k pk) as [->|N1]; [lia|].
    destruct (key_eq_dec k un) as [->|N2]; [reflexivity|].
    match goal with Q : forall a, a <> pk -> a <> un -> _ |- _ => rewrite Q in K by assumption end. lia.
  - pose proof (performs_of _ _ _ _ _ _ _ _ He H) as Hp. pose proof H as Hr.
    apply (withdraw_exact _ _ _ _ _ _ _ _ Hh He) in H.
    destruct H as (un & st & pk & uo & v & H). decompose [and] H. clear H.
    assert (v = vk).
    { pose proof (pool_withdraw _ _ _ _ _ _ _ _ _ _ HP (proj1 He) Hh Hx) as W.
      destruct W as (un' & st' & pd' & uo' & v' & om & sp & tp & vd1 & Pre & E1 & E2 & _).
      destruct Pre. destruct wp_accs. rewrite <- E2. eapply slot_fun; [eassumption|exists v'; eauto]. }
    subst v. right.
    match goal with Q : ordinary l vk -> _ |- _ => destruct Q as [Q1 Q2]; [apply (po_vault _ _ _ _ _ HP)|] end.
    assert (Nu : un <> pk).
    { intros ->. match goal with Q : signed_slot accs 0 pk |- _ => destruct Q as (mm & M1 & M2 & M3) end.
      assert (Hn : ~ program_signs_for C (m_key mm)) by (apply Hh; [eapply nth_error_In; exact M1|exact M3]).
      apply Hn. rewrite M2.
      match goal with Q : is_record l pk |- _ => apply (pool_is_record _ _ _ _ _ _ HP) in Q; apply (po_records _ _ _ _ _ HP) in Q; destruct Q end.
      eapply find_is_pda; exact ro_addr. }
    specialize (Q1 Nu). unfold loses_lamports in K.
    destruct (key_eq_dec k pk) as [->|N1].
    + split; [eapply withdraw_pays; [exact HP|split; assumption|exact Hp|assumption]|].
      exists un. split; [assumption|]. split; assumption.
    + exfalso. destruct (key_eq_dec k un) as [->|N2].
      * pose proof (po_lam _ _ _ _ _ HP pk). lia.
      * rewrite Q2 in K by assumption. lia.
  - destruct (pool_no_init _ _ _ _ _ _ _ _ _ HP HE Hh Hx).
  - apply (set_exact _ _ _ _ _ _ _ _ He) in H.
    destruct H as (st & _ & [S _] & _ & O & D & _). unfold loses_lamports in K.
    destruct (O k) as [_ Q]. lia.
Qed.
