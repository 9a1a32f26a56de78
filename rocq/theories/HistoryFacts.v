(** Facts about executions, from which the history properties follow. *)
From Verif Require Import Spec BytesFacts FieldFacts LedgerFacts TokenFacts ParseFacts CpiFacts
  AssertFacts LayoutFacts MathFacts Economics StakeFacts UnstakeFacts WithdrawFacts SetFacts InitFacts
  CodecFacts Totals OutsideFacts TokenStep VaultStep Calm Pool PoolStake PoolUnstake PoolInit PoolHistory.

Lemma after_app C l a b : after C l (a ++ b) = after C (after C l a) b.
Proof. apply fold_left_app. Qed.

Lemma history_after C l0 ops l evs : history C l0 ops l evs -> l = after C l0 ops.
Proof.
  induction 1 as [|ops l evs o H IH Ho]; [reflexivity|]. rewrite after_app, <- IH. reflexivity.
Qed.

Lemma history_prefix C l0 ops1 ops2 ops l evs :
  history C l0 ops l evs -> ops = ops1 ++ ops2 -> exists e, history C l0 ops1 (after C l0 ops1) e.
Proof.
  intros H. revert ops2. induction H as [|ops l evs o H IH Ho]; intros ops2 E.
  - symmetry in E. apply app_eq_nil in E. destruct E as [-> _]. exists []. constructor.
  - destruct ops2 as [|x ops2'] using rev_ind.
    + rewrite app_nil_r in E. subst ops1. eexists. rewrite after_app, <- (history_after _ _ _ _ _ H).
      cbn [after fold_left]. constructor; eassumption.
    + rewrite app_assoc in E. apply app_inj_tail in E. destruct E as [-> _]. now apply (IH ops2').
Qed.

Lemma history_last C l0 ops o l evs :
  history C l0 (ops ++ [o]) l evs -> op_ok C (after C l0 ops) o.
Proof.
  intros H. remember (ops ++ [o]) as ops' eqn:E. destruct H as [|ops1 l1 evs1 o1 H Ho].
  - destruct ops; discriminate.
  - apply app_inj_tail in E. destruct E as [-> ->]. now rewrite <- (history_after _ _ _ _ _ H).
Qed.

Lemma reaches_step C l o : reaches C l -> op_ok C l o -> reaches C (fst (run_op C l o)).
Proof.
  intros (l0 & ops & evs & Hg & H) Ho. exists l0, (ops ++ [o]), (evs ++ snd (run_op C l o)).
  split; [exact Hg|]. now constructor.
Qed.

Lemma reaches_history C l ops l' evs : reaches C l -> history C l ops l' evs -> reaches C l'.
Proof.
  intros (l0 & ops0 & evs0 & Hg & H) H'. exists l0, (ops0 ++ ops), (evs0 ++ evs).
  split; [exact Hg|]. eapply history_app; eassumption.
Qed.

Lemma reaches_pool C l sk :
  ordinary_state_address C -> reaches C l -> is_state l sk -> exists vk P, pool C l sk vk P.
Proof.
  intros Hord (l0 & ops & evs & Hg & H) [H1 H2]. eapply reachable_pool; eassumption.
Qed.

Lemma reaches_pool_vault C l sk vk :
  ordinary_state_address C -> reaches C l -> is_state l sk -> is_vault C sk vk ->
  exists P, pool C l sk vk P.
Proof.
  intros Hord Hr Hs (b & Hv). destruct (reaches_pool _ _ _ Hord Hr Hs) as (vk' & P & HP).
  destruct (po_findv _ _ _ _ _ HP) as (b' & Q & _). assert (vk' = vk) by congruence. subst. eauto.
Qed.

Lemma pool_is_state C l sk vk P : pool C l sk vk P -> is_state l sk.
Proof. intros HP. split; apply HP. Qed.

Lemma pool_is_vault C l sk vk P : pool C l sk vk P -> is_vault C sk vk.
Proof. intros HP. destruct (po_findv _ _ _ _ _ HP) as (b & H & _). now exists b. Qed.

Lemma pool_is_record C l sk vk P k : pool C l sk vk P -> is_record l k <-> In k P.
Proof. apply pool_record_is. Qed.

(** ** Prefixes *)
Lemma firstn_snoc {A} n (xs : list A) x :
  firstn n (xs ++ [x]) = firstn n xs \/ firstn n (xs ++ [x]) = xs ++ [x].
Proof.
  destruct (Nat.le_gt_cases n (length xs)) as [H|H].
  - left. rewrite firstn_app. replace (n - length xs)%nat with 0%nat by lia. cbn. apply app_nil_r.
  - right. apply firstn_all2. rewrite app_length. cbn. lia.
Qed.

Lemma unchanged_snoc C l ops o k :
  unchanged_during C l ops k ->
  a_owner (fst (run_op C (after C l ops) o) k) = a_owner (after C l ops k) ->
  a_data (fst (run_op C (after C l ops) o) k) = a_data (after C l ops k) ->
  unchanged_during C l (ops ++ [o]) k.
Proof.
  intros H H1 H2 n. destruct (H (length ops)) as [A B]. rewrite firstn_all in A, B.
  destruct (firstn_snoc n ops o) as [Q|Q]; rewrite Q; [apply H|].
  rewrite after_app. cbn [after fold_left]. fold (after C l ops) in *. split; congruence.
Qed.

Lemma unchanged_nil C l k : unchanged_during C l [] k.
Proof. intros n. rewrite firstn_nil. split; reflexivity. Qed.

Lemma unchanged_end C l ops k : unchanged_during C l ops k ->
  a_owner (after C l ops k) = a_owner (l k) /\ a_data (after C l ops k) = a_data (l k).
Proof. intros H. specialize (H (length ops)). now rewrite firstn_all in H. Qed.

(** ** What a step does to a record *)
Lemma decode_encodes data i : deserialize read_instruction data = Some i <-> encodes data i.
Proof.
  rewrite decode_instruction. unfold encodes. split.
  - intros (rest & -> & H). eauto.
  - intros (H & rest & ->). eauto.
Qed.

Lemma call_result C E accs data i l l' evs :
  encodes data i ->
  (process_instruction C E xorca_id accs l data = Ok (l', evs) <->
   match i with
   | Stake a => stake_process C accs l a
   | Unstake x i => unstake_process C E accs l x i
   | Withdraw i => withdraw_process C E accs l i
   | Initialize c => initialize_process C E accs l c
   | Set_ u => set_process C accs l u
   end = Ok (l', evs)).
Proof.
  intros H. apply decode_encodes in H. unfold process_instruction. rewrite key_eqb_refl.
  cbn [negb fail_if bind]. rewrite H. destruct i; reflexivity.
Qed.

Lemma call_performs C E accs data i l l' evs :
  encodes data i ->
  process_instruction C E xorca_id accs l data = Ok (l', evs) ->
  performs C l (OpCall E accs data) i accs (now E) /\
  run_op C l (OpCall E accs data) = (l', evs).
Proof.
  intros He H. split.
  - exists E, data. rewrite H. auto.
  - cbn [run_op]. now rewrite H.
Qed.

Lemma pool_ranges C l sk vk P :
  pool C l sk vk P ->
  0 <= supply l <= free_orca l sk vk /\ is_u64 (free_orca l sk vk) /\ is_u64 (supply l) /\
  0 <= escrow l sk.
Proof.
  intros HP. pose proof (po_backed _ _ _ _ _ HP). unfold free_orca, balance, escrow, supply, st_escrow in *.
  pose proof (mint_supply_range (a_data (l xorca_mint_id))) as R.
  pose proof (ta_amount_range (a_data (l vk))) as R2.
  pose proof (get_u64_range 8 (a_data (l sk))) as R3. unfold is_u64 in *. lia.
Qed.

Lemma pool_quote_back C l sk vk P x w :
  pool C l sk vk P -> is_u64 x ->
  convert_xorca_to_orca x (non_escrowed l vk sk) (mint_supply (a_data (l xorca_mint_id))) = Ok w ->
  0 < supply l /\ is_u64 w /\ w = x * (free_orca l sk vk + 100) / (supply l + 100).
Proof.
  intros HP Hx H. destruct (pool_ranges _ _ _ _ _ HP) as (R0 & R1 & R2 & R3).
  apply xorca_to_orca_ok in H; [|assumption..]. fold (supply l) in *.
  destruct H as (H1 & H2 & H3 & H4). repeat split; try assumption; try apply H1. lia.
Qed.

Lemma pool_quote C l sk vk P a m :
  pool C l sk vk P -> is_u64 a ->
  convert_orca_to_xorca a (non_escrowed l vk sk) (mint_supply (a_data (l xorca_mint_id))) = Ok m ->
  is_u64 m /\ (supply l = 0 /\ m = a \/
               0 < supply l /\ m = a * (supply l + 100) / (free_orca l sk vk + 100)).
Proof.
  intros HP Hx H. destruct (pool_ranges _ _ _ _ _ HP) as (R0 & R1 & R2 & R3).
  apply orca_to_xorca_ok in H; [|assumption..]. fold (supply l) in *.
  change (non_escrowed l vk sk) with (free_orca l sk vk) in H.
  destruct H as (H1 & [[H2 ->]|(H2 & H3 & ->)]); split; auto; [left; split; [lia|reflexivity]|].
  right. split; [lia|reflexivity].
Qed.

(** Every step keeps a live record as it is, unless it pays it; and a record that
    was not there before has just been created. *)
Lemma change_kept C l sk vk P P' o k :
  op_ok C l o ->
  pool C l sk vk P -> pool C (fst (run_op C l o)) sk vk P' ->
  change C l (fst (run_op C l o)) (snd (run_op C l o)) sk vk P P' o -> In k P ->
  (In k P' /\ a_owner (fst (run_op C l o) k) = a_owner (l k) /\
     a_data (fst (run_op C l o) k) = a_data (l k)) \/
  (~ In k P' /\ pays C l o k).
Proof.
  intros Ho HP HP' Hc Hk. set (r := run_op C l o) in *. destruct r as [l' evs] eqn:Er.
  cbn [fst snd] in *. inversion Hc; subst.
  - left. destruct (H2 k Hk) as (A & B & _). auto.
  - left. destruct H6. destruct (sc_recs k Hk) as (A & B & _). auto.
  - left. destruct H8. destruct (uc_recs k Hk) as (A & B & _). split; [now right|]. auto.
  - destruct (key_eq_dec (m_key pd) k) as [<-|N].
    2:{ left. destruct H7. assert (I : In k (remove key_eq_dec (m_key pd) P)) by (apply in_in_remove; auto).
        destruct (wc_recs k I) as (A & B & _). auto. }
    right. split; [apply remove_In|].
    apply decode_encodes in H. pose proof (proj2 (call_result C E accs data _ l l' _ H) H1) as Hrun.
    destruct (call_performs _ _ _ _ _ _ _ _ H Hrun) as [Hp Hr].
    destruct H2. destruct wp_accs.
    exists i, accs, (now E), (m_key un). split; [exact Hp|].
    split; [exists un; auto|]. split; [exists pd; auto|].
    split; [now apply (pool_is_record _ _ _ _ _ _ HP)|]. split; [exact wp_time|].
    rewrite Hr. cbn [fst]. rewrite (pool_is_record _ _ _ _ _ _ HP'). apply remove_In.
  - left. destruct H6. destruct (tc_recs k Hk) as (A & B & _). auto.
Qed.

Lemma change_new C l sk vk P P' o k :
  op_ok C l o ->
  pool C l sk vk P -> pool C (fst (run_op C l o)) sk vk P' ->
  change C l (fst (run_op C l o)) (snd (run_op C l o)) sk vk P P' o -> In k P' ->
  In k P \/ creates C l o sk vk k.
Proof.
  intros Ho HP HP' Hc Hk. set (r := run_op C l o) in *. destruct r as [l' evs] eqn:Er.
  cbn [fst snd] in *. inversion Hc; subst; auto.
  - destruct Hk as [<-|Hk]; [|auto]. right.
    apply decode_encodes in H. pose proof (proj2 (call_result C E accs data _ l l' _ H) H2) as Hrun.
    destruct (call_performs _ _ _ _ _ _ _ _ H Hrun) as [Hp Hr].
    destruct H3. destruct up_accs. destruct H8.
    destruct (pool_quote_back _ _ _ _ _ _ _ HP H0 uc_quote) as (Q1 & Q2 & Q3).
    destruct (pending_bytes_fields (byte_to_Z b) i (m_key un) w (now E + st_cooldown (a_data (l (m_key st)))))
      as (F1 & F2 & F3 & F4 & F5 & F6); [apply byte_is_u8|assumption..|].
    exists x, i, accs, (now E), (m_key un). split; [exact Hp|].
    split; [exists un; auto|]. split; [exists pd; auto|].
    split; [now rewrite (pool_is_record _ _ _ _ _ _ HP)|].
    rewrite Hr. cbn [fst]. unfold rec_owner, rec_index, rec_time, rec_amount, cooldown.
    split; [apply (pool_is_record _ _ _ _ _ _ HP'); now left|].
    rewrite uc_new_record, F3, F4, F5, F6. repeat split; auto.
  - left. eapply in_remove, Hk.
Qed.

(** ** The life of a record along an execution *)
Theorem record_fate C l ops l' evs sk vk P k :
  pool C l sk vk P -> history C l ops l' evs -> In k P ->
  (unchanged_during C l ops k /\ is_record l' k) \/
  (exists ops1 o ops2, ops = ops1 ++ o :: ops2 /\ unchanged_during C l ops1 k /\
     pays C (after C l ops1) o k).
Proof.
  intros HP H Hk. induction H as [|ops l' evs o H IH Ho].
  - left. split; [apply unchanged_nil|]. now apply (pool_is_record _ _ _ _ _ _ HP).
  - destruct IH as [[U R]|(ops1 & o1 & ops2 & -> & U & Q)].
    + destruct (pool_history _ _ _ _ _ _ _ _ HP H) as [P1 HP1].
      destruct (pool_step _ _ _ _ _ _ HP1 Ho) as (P2 & HP2 & Hc).
      apply (pool_is_record _ _ _ _ _ _ HP1) in R.
      pose proof (history_after _ _ _ _ _ H) as Ea.
      destruct (change_kept _ _ _ _ _ _ _ _ Ho HP1 HP2 Hc R) as [(A & B & D)|[_ A]].
      * left. split; [apply unchanged_snoc; [exact U|..]; rewrite <- Ea; assumption|].
        now apply (pool_is_record _ _ _ _ _ _ HP2).
      * right. exists ops, o, []. rewrite <- Ea. auto.
    + right. exists ops1, o1, (ops2 ++ [o]). rewrite <- app_assoc. auto.
Qed.

Theorem record_origin C l ops l' evs sk vk P k :
  pool C l sk vk P -> history C l ops l' evs -> is_record l' k ->
  (unchanged_during C l ops k /\ In k P) \/
  (exists ops1 o ops2, ops = ops1 ++ o :: ops2 /\ creates C (after C l ops1) o sk vk k /\
     unchanged_during C (after C l (ops1 ++ [o])) ops2 k).
Proof.
  intros HP H. induction H as [|ops l' evs o H IH Ho]; intros Hk.
  - left. split; [apply unchanged_nil|]. now apply (pool_is_record _ _ _ _ _ _ HP).
  - destruct (pool_history _ _ _ _ _ _ _ _ HP H) as [P1 HP1].
    destruct (pool_step _ _ _ _ _ _ HP1 Ho) as (P2 & HP2 & Hc).
    pose proof (history_after _ _ _ _ _ H) as Ea.
    apply (pool_is_record _ _ _ _ _ _ HP2) in Hk.
    destruct (change_new _ _ _ _ _ _ _ _ Ho HP1 HP2 Hc Hk) as [Hk1|Hcr].
    + destruct (change_kept _ _ _ _ _ _ _ _ Ho HP1 HP2 Hc Hk1) as [(A & B & D)|[A _]]; [|contradiction].
      destruct (IH (proj2 (pool_is_record _ _ _ _ _ _ HP1) Hk1)) as [[U I]|(ops1 & o1 & ops2 & -> & Q & U)].
      * left. split; [|exact I]. apply unchanged_snoc; [exact U|..]; rewrite <- Ea; assumption.
      * right. exists ops1, o1, (ops2 ++ [o]). rewrite <- app_assoc. split; [reflexivity|].
        split; [exact Q|]. replace (ops1 ++ o1 :: ops2) with ((ops1 ++ [o1]) ++ ops2) in Ea
          by (rewrite <- app_assoc; reflexivity). rewrite after_app in Ea.
        apply unchanged_snoc; [exact U|..]; rewrite <- Ea; assumption.
    + right. exists ops, o, []. rewrite <- Ea. split; [reflexivity|]. split; [exact Hcr|].
      apply unchanged_nil.
Qed.
