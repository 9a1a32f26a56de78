(** What packets can do: only what their signers may (C76, C77). *)
From Verif Require Export ExecFacts.
From Verif Require Import BytesFacts LedgerFacts TransactionFacts HistoryFacts PoolHistory RateFacts ClaimFacts LifeFacts GuardFacts.
Import List ListNotations.
Open Scope list_scope.
Open Scope Z_scope.

Theorem packet_steps C E verify reserved tables l d :
  curve_only C verify -> ata_apart C -> sysvars_ok E ->
  exists ops, steps_ok C l ops /\ packet C E verify reserved tables l d = transaction C l ops /\
    Forall (fun o => runs_at E o /\ forall k, uses_signature o k -> carries verify d k) ops.
Proof.
  intros V AP SV. unfold packet.
  assert (N : exists ops, steps_ok C l ops /\ (l, [] : list (list byte)) = transaction C l ops /\
    Forall (fun o => runs_at E o /\ forall k, uses_signature o k -> carries verify d k) ops).
  { exists []. split; [exact I|]. split; [reflexivity|constructor]. }
  destruct (receive verify reserved tables d) as [bs|] eqn:R; [|exact N].
  destruct (execute C E l bs) as [r|] eqn:X; [|exact N].
  destruct (execute_steps C E SV AP bs l r) as (ops & S & A & F);
    [intros b; now apply (receive_honest C verify reserved tables d)|exact X|].
  exists ops. split; [exact S|]. split; [unfold transaction; now rewrite A|].
  apply receive_signed in R. destruct R as (p & sigs & msg & D & Lp & Fs & R).
  assert (K : forall b k, In b bs -> In k (signing_keys (b_accounts b)) -> carries verify d k).
  { intros b k Ib Ik. apply in_map_iff in Ik. destruct Ik as (m & <- & Im). apply filter_In in Im.
    destruct (R b m Ib (proj1 Im) (proj2 Im)) as (s & Is & Vs). exists p, sigs, msg, s. auto. }
  eapply Forall_impl; [|exact F]. intros o.
  destruct o; cbn [instruction_step runs_at uses_signature]; try tauto.
  - intros [-> (b & Ib & _ & <- & _)]. split; [reflexivity|]. intros k (m & Im & Qk & Sm). apply (K b); [exact Ib|].
    apply in_map_iff. exists m. split; [exact Qk|]. apply filter_In. auto.
  - intros [-> (b & Ib & ->)]. split; [reflexivity|]. intros k. now apply K.
  - intros (b & Ib & ->). split; [exact I|]. intros k. now apply K.
  - intros [-> (b & Ib & ->)]. split; [reflexivity|]. intros k. now apply K.
Qed.

Lemma packet_history C E verify reserved tables l d :
  curve_only C verify -> ata_apart C -> sysvars_ok E ->
  exists ops, history C l ops (fst (packet C E verify reserved tables l d)) (snd (packet C E verify reserved tables l d)) /\
    Forall (fun o => runs_at E o /\ forall k, uses_signature o k -> carries verify d k) ops.
Proof.
  intros V AP SV. destruct (packet_steps C E verify reserved tables l d V AP SV) as (ops & S & -> & F).
  unfold transaction. destruct (attempt_all C l ops) as [r|] eqn:A.
  - exists ops. split; [|exact F]. apply (attempt_all_ok C ops l r A l [] []); [constructor|exact S].
  - exists []. split; [constructor|constructor].
Qed.

Theorem packet_reaches C E verify reserved tables l d :
  curve_only C verify -> ata_apart C -> sysvars_ok E ->
  reaches C l -> reaches C (fst (packet C E verify reserved tables l d)).
Proof.
  intros V AP SV R. destruct (packet_history C E verify reserved tables l d V AP SV) as (ops & H & _).
  eapply reaches_history; eassumption.
Qed.

Theorem packets_reach C verify reserved ds : forall l0 ops l evs,
  curve_only C verify -> ata_apart C -> Forall (fun p => sysvars_ok (fst (fst p))) ds ->
  history C l0 ops l evs ->
  exists ops', history C l0 (ops ++ ops') (fst (packets C verify reserved l ds)) (evs ++ snd (packets C verify reserved l ds)).
Proof.
  induction ds as [|[[E tables] d] ds IH]; intros l0 ops l evs V AP F H; cbn [packets].
  - exists []. cbn [fst snd]. now rewrite !app_nil_r.
  - inversion F as [|x y SV F']. subst. cbn [fst] in SV. cbn [fst snd].
    destruct (packet_history C E verify reserved tables l d V AP SV) as (o1 & H1 & _).
    assert (H2 := history_app _ _ _ _ _ _ _ _ H H1).
    destruct (IH _ _ _ _ V AP F' H2) as (o2 & H3). exists (o1 ++ o2). now rewrite !app_assoc.
Qed.

(** ** Settings *)
Lemma signed_uses C l o i accs t n k :
  performs C l o i accs t -> signed_slot accs n k -> uses_signature o k.
Proof.
  intros (E & data & -> & _) (m & N & Q & S). cbn. exists m. split; [now apply nth_error_In in N|auto].
Qed.

Lemma settings_history C l ops l' evs sk :
  ordinary_state_address C -> reaches C l -> is_state l sk -> history C l ops l' evs ->
  (authority l' sk = authority l sk /\ cooldown l' sk = cooldown l sk) \/
  exists o, In o ops /\ uses_signature o (authority l sk).
Proof.
  intros Ho Hr Hs H. induction H as [|ops l1 evs o H IH Hok]; [left; auto|].
  assert (Hr1 : reaches C l1) by (eapply reaches_history; eassumption).
  assert (Hs1 : is_state l1 sk) by exact (state_stays _ _ _ _ _ _ Ho Hr Hs H).
  destruct IH as [[Q1 Q2]|(o' & I' & U)]; [|right; exists o'; split; [apply in_or_app; now left|exact U]].
  destruct (settings_step C l1 o sk Ho Hr1 Hs1 Hok) as [[E1 E2]|[(accs & t & k & P & S & _)|(accs & t & c & P & S & _)]].
  - left. split; congruence.
  - right. exists o. split; [apply in_or_app; right; now left|]. rewrite <- Q1. eapply signed_uses; eassumption.
  - right. exists o. split; [apply in_or_app; right; now left|]. rewrite <- Q1. eapply signed_uses; eassumption.
Qed.

Theorem packet_settings C E verify reserved tables l d sk :
  ordinary_state_address C -> curve_only C verify -> ata_apart C -> sysvars_ok E ->
  reaches C l -> is_state l sk ->
  let l' := fst (packet C E verify reserved tables l d) in
  is_state l' sk /\
  (authority l' sk <> authority l sk \/ cooldown l' sk <> cooldown l sk -> carries verify d (authority l sk)).
Proof.
  intros Ho V AP SV R S l'. destruct (packet_history C E verify reserved tables l d V AP SV) as (ops & H & F).
  split; [exact (state_stays _ _ _ _ _ _ Ho R S H)|]. intros D.
  destruct (settings_history _ _ _ _ _ _ Ho R S H) as [[Q1 Q2]|(o & I & U)].
  - destruct D as [D|D]; contradiction.
  - rewrite Forall_forall in F. now apply (proj2 (F o I)).
Qed.

(** ** Records *)
Lemma signer_in ops o d verify (E : env) k :
  Forall (fun o => runs_at E o /\ forall k, uses_signature o k -> carries verify d k) ops ->
  In o ops -> uses_signature o k -> carries verify d k.
Proof. intros F I U. rewrite Forall_forall in F. exact (proj2 (F o I) k U). Qed.

Lemma history_split C l ops1 o ops2 : forall l' evs,
  history C l (ops1 ++ o :: ops2) l' evs ->
  exists evs1, history C l ops1 (after C l ops1) evs1 /\ op_ok C (after C l ops1) o.
Proof.
  induction ops2 as [|x ops2 IH] using rev_ind; intros l' evs H.
  - inversion H as [Q|ops l1 evs1 o1 H1 O1 Q]; [now destruct ops1|].
    apply app_inj_tail in Q. destruct Q as [-> ->].
    pose proof (history_after _ _ _ _ _ H1) as Ea. rewrite <- Ea. exists evs1. now split.
  - inversion H as [Q|ops l1 evs1 o1 H1 O1 Q]; [now destruct ops1|].
    rewrite app_comm_cons, app_assoc in Q. apply app_inj_tail in Q. destruct Q as [-> _].
    exact (IH _ _ H1).
Qed.

Theorem packet_record C E verify reserved tables l d sk k :
  ordinary_state_address C -> curve_only C verify -> ata_apart C -> sysvars_ok E ->
  reaches C l -> is_state l sk -> is_record l k ->
  let l' := fst (packet C E verify reserved tables l d) in
  (is_record l' k /\ a_data (l' k) = a_data (l k)) \/
  (rec_time l k <= now E /\
   (carries verify d (rec_owner l k) \/
    exists l1 un, during C E verify d l l1 /\ carries verify d un /\ collision C (claimants l1 un))).
Proof.
  intros Ho V AP SV R S K l'. destruct (packet_history C E verify reserved tables l d V AP SV) as (ops & H & F).
  destruct (record_immutable _ _ _ _ _ _ _ Ho R S K H) as [[U K']|(ops1 & o & ops2 & Q & U & P)].
  - left. split; [exact K'|]. pose proof (U (length ops)) as [_ D]. rewrite firstn_all in D.
    now rewrite <- (history_after _ _ _ _ _ H) in D.
  - right. rewrite Q in H. destruct (history_split _ _ _ _ _ _ _ H) as (e1 & H1 & O1).
    pose proof (reaches_history _ _ _ _ _ R H1) as R1.
    pose proof (state_stays _ _ _ _ _ _ Ho R S H1) as S1.
    pose proof (U (length ops1)) as [_ D]. rewrite firstn_all in D.
    destruct P as (i & accs & t & un & P & Su & Sk & K1 & T & _).
    assert (I : In o ops) by (rewrite Q; apply in_or_app; right; now left).
    assert (Cu : carries verify d un) by (eapply signer_in; [exact F|exact I|]; eapply signed_uses; eassumption).
    assert (Et : t = now E).
    { rewrite Forall_forall in F. destruct P as (E' & data & -> & _ & Et & _).
      pose proof (proj1 (F _ I)) as Q'. cbn in Q'. congruence. }
    split; [unfold rec_time in *; rewrite <- Et, <- D; exact T|].
    destruct P as (E' & data & -> & En & _ & Ok1).
    destruct (process_instruction C E' xorca_id accs (after C l ops1) data) as [[l2 e2]|] eqn:X; [|discriminate].
    assert (S0 : slot accs 0 un) by (destruct Su as (m & ? & ? & _); exists m; auto).
    destruct (only_owner _ _ _ _ _ _ _ _ _ _ _ Ho R1 S1 (proj2 O1) En X S0 Sk) as (_ & _ & [[A _]|Col]).
    + left. unfold rec_owner in *. rewrite <- D, A. exact Cu.
    + right. exists (after C l ops1), un. split; [|now split]. exists ops1, e1. split; [exact H1|].
      rewrite Q in F. now apply Forall_app in F.
Qed.

Theorem packet_new_record C E verify reserved tables l d sk k :
  ordinary_state_address C -> curve_only C verify -> ata_apart C -> sysvars_ok E ->
  reaches C l -> is_state l sk ->
  let l' := fst (packet C E verify reserved tables l d) in
  ~ is_record l k -> is_record l' k -> carries verify d (rec_owner l' k) /\ now E <= rec_time l' k.
Proof.
  intros Ho V AP SV R S l' N K. destruct (packet_history C E verify reserved tables l d V AP SV) as (ops & H & F).
  destruct (reaches_pool _ _ _ Ho R S) as (vk & P & HP).
  destruct (record_origin _ _ _ _ _ _ _ _ _ HP H K) as [[_ I]|(ops1 & o & ops2 & Q & Cr & U)].
  - destruct N. now apply (pool_is_record _ _ _ _ _ _ HP).
  - assert (I : In o ops) by (rewrite Q; apply in_or_app; right; now left).
    pose proof (creation_unchanged _ _ _ _ _ _ U) as W. cbn zeta in W. rewrite <- Q in W.
    rewrite <- (history_after _ _ _ _ _ H) in W. destruct W as (W1 & _ & W4 & _).
    rewrite Q in H. destruct (history_split _ _ _ _ _ _ _ H) as (e1 & H1 & O1).
    pose proof (reaches_history _ _ _ _ _ R H1) as R1.
    pose proof (state_stays _ _ _ _ _ _ Ho R S H1) as S1.
    pose proof (cooldown_nonneg _ _ _ Ho R1 S1) as Cd.
    destruct Cr as (x & i & accs & t & un & P1 & Su & _ & _ & Cr). cbn zeta in Cr.
    destruct Cr as (_ & A & _ & T & _). split.
    + fold l' in W1. rewrite W1, A. eapply signer_in; [exact F|exact I|]. eapply signed_uses; eassumption.
    + fold l' in W4. rewrite W4, T. rewrite Forall_forall in F. destruct P1 as (E' & data & -> & _ & Et & _).
      pose proof (proj1 (F _ I)) as Q'. cbn in Q'. subst E'. lia.
Qed.

(** ** The vault and the supply *)
Lemma vault_history C l ops l' evs sk vk :
  ordinary_state_address C -> reaches C l -> is_state l sk -> is_vault C sk vk -> history C l ops l' evs ->
  balance l vk <= balance l' vk \/
  exists ops1 o ops2 l1 evs1, ops = ops1 ++ o :: ops2 /\ history C l ops1 l1 evs1 /\ reaches C l1 /\ is_state l1 sk /\
    op_ok C l1 o /\ exists k, pays C l1 o k.
Proof.
  intros Ho R S Vk H. induction H as [|ops l1 evs o H IH Hok]; [left; lia|].
  assert (R1 : reaches C l1) by exact (reaches_history _ _ _ _ _ R H).
  assert (S1 : is_state l1 sk) by exact (state_stays _ _ _ _ _ _ Ho R S H).
  destruct IH as [B|(ops1 & o' & ops2 & lx & ex & Q & X)].
  2:{ right. exists ops1, o', (ops2 ++ [o]), lx, ex. split; [now rewrite Q, <- app_assoc|exact X]. }
  destruct (vault_moves C l1 o sk vk Ho R1 S1 Vk Hok) as [E1|[[_ E1]|[(a & accs & t & P & E1)|(i & accs & t & un & k & uo & P & Py & Su & _)]]].
  - left. lia.
  - left. lia.
  - left. destruct P as (E' & data & _ & [Oi _] & _). cbn in Oi. destruct Oi. lia.
  - right. exists ops, o, [], l1, evs. split; [reflexivity|]. do 4 (split; [assumption|]). now exists k.
Qed.

Theorem packet_vault C E verify reserved tables l d sk vk :
  ordinary_state_address C -> curve_only C verify -> ata_apart C -> sysvars_ok E ->
  reaches C l -> is_state l sk -> is_vault C sk vk ->
  let l' := fst (packet C E verify reserved tables l d) in
  balance l' vk < balance l vk ->
  exists l1 un k, during C E verify d l l1 /\ is_record l1 k /\ rec_time l1 k <= now E /\ carries verify d un /\
    (rec_owner l1 k = un \/ collision C (claimants l1 un)).
Proof.
  intros Ho V AP SV R S Vk l' B. destruct (packet_history C E verify reserved tables l d V AP SV) as (ops & H & F).
  destruct (vault_history _ _ _ _ _ _ _ Ho R S Vk H) as 
    [X|(ops1 & o & ops2 & l1 & e1 & Q & H1 & R1 & S1 & O1 & k & i & accs & t & un & P & Su & Sk & K & T & _)];
    [fold l' in X; lia|].
  assert (I : In o ops) by (rewrite Q; apply in_or_app; right; now left).
  assert (Cu : carries verify d un) by (eapply signer_in; [exact F|exact I|]; eapply signed_uses; eassumption).
  assert (Du : during C E verify d l l1).
  { exists ops1, e1. split; [exact H1|]. rewrite Q in F. now apply Forall_app in F. }
  destruct P as (E' & data & -> & En & Et & Ok1).
  rewrite Forall_forall in F. pose proof (proj1 (F _ I)) as Q'. cbn in Q'. subst E' t.
  exists l1, un, k. do 4 (split; [assumption|]).
  destruct (process_instruction C E xorca_id accs l1 data) as [[l2 e2]|] eqn:X; [|discriminate].
  assert (S0 : slot accs 0 un) by (destruct Su as (m & ? & ? & _); exists m; auto).
  destruct (only_owner _ _ _ _ _ _ _ _ _ _ _ Ho R1 S1 (proj2 O1) En X S0 Sk) as (_ & _ & [[A _]|Col]); auto.
Qed.
