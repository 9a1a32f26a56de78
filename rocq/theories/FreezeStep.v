(** Freezing over whole histories (C50, C56). *)
From Coq Require Import Lia.
From Verif Require Import GuardSpec BytesFacts FieldFacts LedgerFacts TokenFacts ParseFacts CpiFacts
  AssertFacts LayoutFacts StakeFacts UnstakeFacts InitFacts CodecFacts Totals OutsideFacts TokenStep VaultStep Calm
  HistoryFacts LifeFacts Pool PoolStake PoolUnstake PoolInit PoolHistory FailFacts EffectFacts BlockFacts FreezeFacts.
Import List ListNotations.
Open Scope Z_scope.

(** ** Fields outside the touched byte ranges *)
Lemma nth_error_eq {A} (a b : list A) : (forall i, nth_error a i = nth_error b i) -> a = b.
Proof.
  revert b. induction a as [|x a IH]; intros [|y b] H; auto; try (specialize (H 0%nat); discriminate).
  pose proof (H 0%nat) as H0. injection H0 as ->. f_equal. apply IH. intros i. exact (H (S i)).
Qed.

Lemma nth_error_skip {A} n : forall (a : list A) i, nth_error (skipn n a) i = nth_error a (n + i).
Proof. induction n as [|n IH]; intros [|x a] i; auto; cbn [skipn Nat.add nth_error]; [now destruct i|apply IH]. Qed.

Lemma nth_error_first {A} n : forall (a : list A) i,
  nth_error (firstn n a) i = if (i <? n)%nat then nth_error a i else None.
Proof.
  induction n as [|n IH]; intros [|x a] [|i]; auto; cbn [firstn nth_error].
  - now destruct (_ <? _)%nat.
  - rewrite IH. reflexivity.
Qed.

Lemma same_slice_out rs d d' off n :
  same_bytes_except rs d d' ->
  (forall o m, In (o, m) rs -> (off + n <= o)%nat \/ (o + m <= off)%nat) ->
  slice off n d' = slice off n d.
Proof.
  intros [_ H] Hr. apply nth_error_eq. intros i. unfold slice. rewrite !nth_error_first, !nth_error_skip.
  destruct (i <? n)%nat eqn:Q; [|reflexivity]. apply Nat.ltb_lt in Q.
  apply H. intros o m I. specialize (Hr o m I). lia.
Qed.

Lemma spend_range l k a o m : In (o, m) (spend_fields l k a) ->
  (64 <= o /\ o + m <= 76)%nat \/ (121 <= o)%nat.
Proof.
  unfold spend_fields. destruct (ta_has_delegate _ _); cbn; intros H;
    repeat destruct H as [H|H]; try contradiction; injection H as <- <-; lia.
Qed.

Lemma spend_keeps l k a d' :
  same_bytes_except (spend_fields l k a) (a_data (l k)) d' ->
  ta_mint d' = ta_mint (a_data (l k)) /\ ta_state d' = ta_state (a_data (l k)).
Proof.
  intros H. split.
  - unfold ta_mint, get_key. f_equal. eapply same_slice_out; [exact H|]. intros o m I. apply spend_range in I. lia.
  - unfold ta_state, get_u8. f_equal. destruct H as [_ H].
    assert (N : nth_error d' 108 = nth_error (a_data (l k)) 108).
    { apply H. intros o m I. apply spend_range in I. lia. }
    destruct (nth_error d' 108) eqn:Q1; symmetry in N.
    + rewrite (nth_error_nth _ _ _ Q1), (nth_error_nth _ _ _ N). reflexivity.
    + apply nth_error_None in Q1, N. rewrite !nth_overflow by assumption. reflexivity.
Qed.

Lemma amount_spends l k a d d' : same_bytes_except [amount_field] d d' -> same_bytes_except (spend_fields l k a) d d'.
Proof.
  intros [L H]. split; [exact L|]. intros i Hi. apply H. intros off n [I|[]]. injection I as <- <-.
  apply Hi. unfold spend_fields. destruct (ta_has_delegate _ _); now left.
Qed.

(** Calls only touch amounts of token accounts. *)
Lemma thaws_call m l l' :
  (forall k, a_owner (l' k) = token_id ->
     a_owner (l k) = token_id /\
     (a_data (l' k) = a_data (l k) \/ length (a_data (l' k)) = 82%nat \/
      (ta_unpack (a_data (l k)) = Ok tt /\
       exists a, same_bytes_except (spend_fields l k a) (a_data (l k)) (a_data (l' k))))) ->
  thaws m l l'.
Proof.
  intros H k (F1 & F2 & F3 & F4). destruct (H k F1) as [O [E|[E|(U & a & E)]]].
  - rewrite E in *. now repeat split.
  - apply ta_unpack_ok in F2. destruct F2 as [F2 _]. apply ta_wf_len in F2. congruence.
  - apply spend_keeps in E. destruct E as [E1 E2]. repeat split; congruence.
Qed.

Lemma mint_live_len l m : mint_live l m -> length (a_data (l m)) = 82%nat.
Proof. intros (_ & W & _). now apply mint_wf_len. Qed.

Lemma pool_unfreezable C l sk vk P : pool C l sk vk P -> unfreezable l xorca_mint_id.
Proof. intros HP. constructor; apply HP. Qed.

Lemma pool_thaws C l sk vk P o :
  pool C l sk vk P -> op_ok C l o -> thaws xorca_mint_id l (fst (run_op C l o)).
Proof.
  intros HP Ho. destruct (is_call o) eqn:Ec.
  2:{ destruct (outside_cool C l o xorca_mint_id (po_lam _ _ _ _ _ HP) Ho Ec (pool_unfreezable _ _ _ _ _ HP))
        as (_ & _ & T). exact T. }
  destruct o as [E accs data| | | | | |]; try discriminate. destruct Ho as [HE Hh]. cbn [run_op].
  destruct (process_instruction C E xorca_id accs l data) as [[l' evs]|e] eqn:H; cbn [fst];
    [|now intros k].
  pose proof (mint_live_len _ _ (mo_live _ _ _ (po_mint _ _ _ _ _ HP))) as Lm.
  pose proof H as Hx. unfold process_instruction in Hx. inv_bind Hx u0.
  destruct (deserialize read_instruction data) as [ins|] eqn:Ed; [|discriminate].
  pose proof Ed as He. apply decode_encodes in He. destruct ins as [a|x i|i|c|u].
  - apply (stake_exact _ _ _ _ _ _ _ _ Hh He) in H.
    destruct H as (staker & v & so & sx & st & m & _ & _ & _ & _ & _ & _ & T1 & T2 & T3 & _ & _ & _ & _ & _ & _ & _ & _
                   & S1 & S2 & S3 & S4 & O & D & _).
    apply thaws_call. intros k K. rewrite O in K. split; [exact K|].
    destruct (in_dec key_eq_dec k [so; v; sx; xorca_mint_id]) as [I|I]; [|left; auto].
    cbn in I. destruct I as [<-|[<-|[<-|[<-|[]]]]].
    + right; right. split; [apply T1|eauto].
    + right; right. split; [apply T3|exists v; now apply amount_spends].
    + right; right. split; [apply T2|exists v; now apply amount_spends].
    + right; left. destruct S4. congruence.
  - apply (unstake_exact _ _ _ _ _ _ _ _ _ HE Hh He) in H.
    destruct H as (un & st & pk & ux & v & w & H). decompose [and] H. clear H.
    apply thaws_call. intros k K. destruct (key_eq_dec k pk) as [->|Np].
    { exfalso. match goal with Q : a_owner (l' pk) = xorca_id |- _ => rewrite Q in K end. symmetry in K; now apply ids_distinct in K. }
    match goal with Q : forall a, a <> pk -> a_owner (l' a) = a_owner (l a) |- _ => rewrite Q in K by exact Np end.
    split; [exact K|].
    destruct (in_dec key_eq_dec k [ux; xorca_mint_id; st; pk]) as [I|I]; [|left; auto].
    cbn in I. destruct I as [<-|[<-|[<-|[<-|[]]]]].
    + right; right. match goal with Q : token_account_of l ux _ _ |- _ => split; [apply Q|eauto] end.
    + right; left. match goal with Q : same_bytes_except [supply_field] _ _ |- _ => destruct Q end. congruence.
    + exfalso. match goal with Q : is_state l st |- _ => destruct Q as [Q _]; rewrite Q in K end. symmetry in K; now apply ids_distinct in K.
    + contradiction.
  - apply (withdraw_exact _ _ _ _ _ _ _ _ Hh He) in H.
    destruct H as (un & st & pk & uo & v & H). decompose [and] H. clear H.
    apply thaws_call. intros k K. destruct (key_eq_dec k pk) as [->|Np].
    { exfalso. match goal with Q : a_owner (l' pk) = system_id |- _ => rewrite Q in K end. symmetry in K; now apply ids_distinct in K. }
    match goal with Q : forall a, a <> pk -> a_owner (l' a) = a_owner (l a) |- _ => rewrite Q in K by exact Np end.
    split; [exact K|].
    destruct (in_dec key_eq_dec k [v; uo; st; pk]) as [I|I]; [|left; auto].
    cbn in I. destruct I as [<-|[<-|[<-|[<-|[]]]]].
    + right; right. match goal with Q : token_account_of l v _ _ |- _ => split; [apply Q|eauto] end.
    + right; right. match goal with Q : token_account_of l uo _ _ |- _ => split; [apply Q|] end.
      exists un. now apply amount_spends.
    + exfalso. match goal with Q : is_state l st |- _ => destruct Q as [Q _]; rewrite Q in K end. symmetry in K; now apply ids_distinct in K.
    + contradiction.
  - assert (Hx' := Hx). destruct (pool_no_init _ _ _ _ _ _ _ _ _ HP HE Hh Hx').
  - apply (set_exact _ _ _ _ _ _ _ _ He) in H.
    destruct H as (st & _ & [S _] & _ & O & D & _).
    apply thaws_call. intros k K. destruct (O k) as [Ok _]. rewrite Ok in K. split; [exact K|].
    left. apply D. intros ->. rewrite S in K. symmetry in K; now apply ids_distinct in K.
Qed.

Lemma never_frozen C l ops l' evs sk k :
  ordinary_state_address C -> reaches C l -> is_state l sk -> history C l ops l' evs ->
  frozen l' xorca_mint_id k -> frozen l xorca_mint_id k.
Proof.
  intros Hord Hr Hs H. destruct (reaches_pool _ _ _ Hord Hr Hs) as (vk & P & HP).
  induction H as [|ops l1 evs o H IH Ho]; [auto|]. intros F. apply IH.
  destruct (pool_history _ _ _ _ _ _ _ _ HP H) as [P1 HP1]. eapply pool_thaws; eassumption.
Qed.

(** ** Left-over freeze bytes (C56) *)
Record stale (C : crypto) (l : ledger) : Prop := {
  sl_fresh : fresh C l;
  sl_mint : unfreezable l xorca_mint_id;
  sl_key : mint_freeze (a_data (l xorca_mint_id)) <> zero_key
}.

Lemma stale_no_init C l E accs c r :
  stale C l -> sysvars_ok E -> honest_metas C accs -> initialize_process C E accs l c = Ok r -> False.
Proof.
  intros HB HE Hh H. destruct r as [l' evs]. apply init_inv in H; [|now apply sysvars_env|exact Hh].
  destruct H as (? & ? & st & v & ? & ? & ? & ? & ? & sb' & vb' & Pre & _). destruct Pre.
  now apply (sl_key _ _ HB).
Qed.

Lemma stale_step C l o : stale C l -> op_ok C l o -> stale C (fst (run_op C l o)).
Proof.
  intros HB Ho. destruct (is_call o) eqn:Ec.
  - destruct o as [E accs data| | | | | |]; try discriminate. cbn [op_ok run_op] in *. destruct Ho as [HE Hh].
    destruct (process_instruction C E xorca_id accs l data) as [[l' evs]|e] eqn:H; [|exact HB].
    destruct (fresh_others_fail _ _ _ _ _ _ _ (sl_fresh _ _ HB) HE Hh H) as (c & _ & _ & Hi).
    destruct (stale_no_init _ _ _ _ _ _ HB HE Hh Hi).
  - destruct HB as [HF HU HK].
    destruct (outside_calm C l o (fr_lam _ _ HF) Ho Ec) as [HC _].
    destruct (outside_cool C l o xorca_mint_id (fr_lam _ _ HF) Ho Ec HU) as (A & [_ B] & _).
    constructor; [eapply fresh_calm; eassumption|exact A|congruence].
Qed.

Lemma stale_history C l ops l' evs : stale C l -> history C l ops l' evs -> stale C l'.
Proof. intros HB H. induction H as [|ops l' evs o H IH Ho]; [exact HB|]. now apply stale_step. Qed.

Lemma stale_blocks C l ops l' evs :
  ordinary_state_address C -> reaches C l -> (forall k, ~ is_state l k) ->
  a_owner (l xorca_mint_id) = token_id -> mint_unpack (a_data (l xorca_mint_id)) = Ok tt ->
  0 < a_lamports (l xorca_mint_id) ->
  mint_freeze_flag (a_data (l xorca_mint_id)) = 0 ->
  mint_freeze (a_data (l xorca_mint_id)) <> zero_key ->
  history C l ops l' evs ->
  (forall k, ~ is_state l' k) /\ evs = [] /\
  forall o' c accs t, op_ok C l' o' -> ~ performs C l' o' (Initialize c) accs t.
Proof.
  intros Hord Hr Hn Ho Hu Hl Hf Hk H.
  assert (HB : stale C l).
  { constructor; [now apply no_state_fresh| |exact Hk]. constructor; auto.
    apply mint_unpack_ok in Hu. split; auto. }
  pose proof (stale_history _ _ _ _ _ HB H) as HB'.
  split; [|split].
  - intros k [K1 K2]. eapply fresh_no_state; [apply HB'|eassumption..].
  - clear Hr Hn Ho Hu Hl Hf Hk. induction H as [|ops l1 evs o H IH Ho]; [reflexivity|].
    pose proof (stale_history _ _ _ _ _ HB H) as HB1. rewrite (IH HB1). cbn [app].
    destruct (fresh_step _ _ _ Hord (sl_fresh _ _ HB1) Ho) as [[_ E]|(E & accs & data & c & sk & vk & -> & Hd & _ & HP & _)];
      [exact E|]. destruct (pool_is_state _ _ _ _ _ HP) as [K1 K2].
    exfalso. eapply fresh_no_state; [apply HB'|eassumption..].
  - intros o' c accs t Ho' Hp.
    destruct (performs_run _ _ _ _ _ _ Hp) as (E & data & l2 & evs2 & -> & Et & He & Hrun & Hr').
    destruct Ho' as [HE Hh]. apply (call_result _ _ _ _ _ _ _ _ He) in Hrun.
    eapply stale_no_init; eassumption.
Qed.

Lemma reaches_lam C l : ordinary_state_address C -> reaches C l -> lamports_ok l.
Proof.
  intros Hord (l0 & ops & evs & Hg & H). destruct (reachable _ _ _ _ _ Hord Hg H) as [[HF _]|(sk & vk & P & HP)];
    [apply HF|apply HP].
Qed.

Lemma revoked_blocks C l E signers extra a ops l' evs :
  ordinary_state_address C -> reaches C l -> (forall k, ~ is_state l k) ->
  let o := OpToken E signers extra (TC_SetAuthority xorca_mint_id a FreezeAccount None) in
  let l1 := fst (run_op C l o) in
  op_ok C l o ->
  0 < a_lamports (l xorca_mint_id) ->
  mint_freeze_flag (a_data (l xorca_mint_id)) = 1 -> mint_freeze (a_data (l xorca_mint_id)) <> zero_key ->
  mint_freeze_flag (a_data (l1 xorca_mint_id)) = 0 ->
  history C l1 ops l' evs ->
  (forall k, ~ is_state l' k) /\ evs = [] /\
  forall o' c accs t, op_ok C l' o' -> ~ performs C l' o' (Initialize c) accs t.
Proof.
  intros Hord Hr Hn o l1 Ho Hl Hf1 Hk Hf0 H.
  assert (Hr1 : reaches C l1) by (eapply reaches_step; eassumption).
  assert (N1 : forall k, ~ is_state l1 k).
  { intros k [K1 K2]. pose proof (no_state_fresh _ _ Hord Hr Hn) as HF.
    destruct (fresh_step _ _ _ Hord HF Ho) as [[HF1 _]|(E' & ? & ? & ? & ? & ? & Q & _)]; [|discriminate Q].
    eapply fresh_no_state; [exact HF1|eassumption..]. }
  assert (F : a_owner (l1 xorca_mint_id) = token_id /\ mint_unpack (a_data (l1 xorca_mint_id)) = Ok tt /\
              0 < a_lamports (l1 xorca_mint_id) /\ mint_freeze (a_data (l1 xorca_mint_id)) = mint_freeze (a_data (l xorca_mint_id))).
  { unfold l1, o in *. cbn [run_op] in *.
    destruct (token_exec E (signs signers) extra l (TC_SetAuthority xorca_mint_id a FreezeAccount None)) as [l2|] eqn:T;
      cbn [keep fst] in *; [|lia].
    destruct Ho as (_ & _ & Hc).
    pose proof T as T0. cbn [token_exec] in T. unfold token_set_authority in T. token_own T. clean_bool.
    match goal with Q : mint_unpack _ = Ok _ |- _ => apply unit_tt, mint_unpack_ok in Q; destruct Q as [M1 M2] end.
    pose proof (mint_wf_len _ M1) as L.
    assert (Hm : mint_live l xorca_mint_id) by (split; auto).
    destruct (token_exec_mint_live _ _ _ _ _ _ _ (reaches_lam _ _ Hord Hr) Hc T0 Hm) as [(A & B & D) G].
    split; [exact A|]. split; [apply mint_unpack_ok; auto|]. split; [lia|].
    rewrite set_data_data, key_eqb_refl. cbn [pack_option_key]. unfold mint_freeze. getset. reflexivity. }
  destruct F as (F1 & F2 & F3 & F4).
  apply (stale_blocks C l1 ops l' evs); auto. congruence.
Qed.
