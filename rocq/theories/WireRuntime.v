(** What the runtime's checks guarantee about every packet it accepts. *)
From Verif Require Export WireFacts.
From Verif Require Import BytesFacts LedgerFacts.
Import List ListNotations.
Open Scope list_scope.
Open Scope Z_scope.

Lemma obind_some {A B} (o : option A) (f : A -> option B) y :
  obind o f = Some y -> exists x, o = Some x /\ f x = Some y.
Proof. destruct o as [x|]; [eauto|discriminate]. Qed.

Lemma take_bytes_is n d x r : take_bytes n d = Some (x, r) -> length x = n /\ d = x ++ r.
Proof.
  unfold take_bytes. destruct (Nat.ltb_spec (length d) n) as [L|L]; [discriminate|].
  intros Q. apply (f_equal (fun o => match o with Some p => p | None => ([], []) end)) in Q. cbv beta iota in Q.
  apply pair_equal_spec in Q. destruct Q as [<- <-]. split; [|symmetry; apply firstn_skipn].
  rewrite firstn_length. lia.
Qed.

Lemma take_many_is n : forall d xs r, take_many (take_bytes 64) n d = Some (xs, r) ->
  Forall (fun x => length x = 64%nat) xs /\ d = concat xs ++ r.
Proof.
  induction n as [|n IH]; intros d xs r H; cbn [take_many] in H.
  - assert (Q : ([] : list (list byte), d) = (xs, r)) by congruence.
    apply pair_equal_spec in Q. destruct Q as [<- <-]. split; [constructor|reflexivity].
  - apply obind_some in H. destruct H as ([x s] & H1 & H). cbn [fst snd] in H.
    apply obind_some in H. destruct H as ([ys t] & H2 & H). cbn [fst snd] in H.
    assert (Q : (x :: ys, t) = (xs, r)) by congruence.
    apply pair_equal_spec in Q. destruct Q as [<- <-].
    apply take_bytes_is in H1. destruct H1 as [L ->]. apply IH in H2. destruct H2 as [F ->].
    split; [now constructor|]. cbn [concat]. now rewrite app_assoc.
Qed.

Lemma take_short_is d n r : take_short d = Some (n, r) -> exists p, d = p ++ r /\ (length p <= 3)%nat.
Proof.
  unfold take_short. destruct d as [|a d]; [discriminate|].
  destruct (_ <? 128); [intros Q; exists [a]; assert (d = r) by congruence; subst; cbn; auto|].
  destruct d as [|b d]; [discriminate|]. destruct (_ =? 0); [discriminate|].
  destruct (byte_to_Z b <? 128); [intros Q; exists [a; b]; assert (d = r) by congruence; subst; cbn; auto|].
  destruct d as [|c d]; [discriminate|]. destruct (_ || _); [discriminate|].
  intros Q; exists [a; b; c]; assert (d = r) by congruence; subst; cbn; auto.
Qed.

Lemma signed_by_each verify d ks : forall sigs, signed_by verify d ks sigs = true ->
  forall k, In k ks -> exists s, In s sigs /\ verify k d s = true.
Proof.
  induction ks as [|x ks IH]; intros [|s sigs] H k I; cbn [signed_by] in H; try discriminate; try destruct I.
  - apply andb_true_iff in H. destruct H as [H _]. subst x. exists s. split; [now left|assumption].
  - apply andb_true_iff in H. destruct H as [_ H]. destruct (IH _ H k H0) as (t & T & V).
    exists t. split; [now right|assumption].
Qed.

(** An accepted packet, taken apart. *)
Lemma legacy_parts verify reserved d got :
  receive_legacy verify reserved d = Some got ->
  exists p sigs msg m,
    d = p ++ concat sigs ++ msg /\ (length p <= 3)%nat /\ Forall (fun s => length s = 64%nat) sigs /\
    take_message msg = Some (m, []) /\ sane (length sigs) m = true /\
    signed_by verify msg (firstn (num_signatures m) (msg_keys m)) sigs = true /\
    got = map (received_call reserved m) (msg_calls m).
Proof.
  unfold receive_legacy. destruct (_ <? _)%nat; [discriminate|]. intros H.
  apply obind_some in H. destruct H as ([sigs msg] & H1 & H). cbn [fst snd] in H.
  apply obind_some in H. destruct H as ([m r] & H2 & H). cbn [fst snd] in H.
  destruct r; [|discriminate]. destruct (sane _ _ && _) eqn:S; [|discriminate].
  apply andb_true_iff in S. destruct S as [S1 S2].
  unfold take_list in H1. apply obind_some in H1. destruct H1 as ([n s] & H3 & H4). cbn [fst snd] in H4.
  apply take_short_is in H3. destruct H3 as (p & -> & Lp). apply take_many_is in H4. destruct H4 as [F ->].
  exists p, sigs, msg, m. repeat (split; [assumption || reflexivity|]). congruence.
Qed.

Lemma received_in reserved m b x :
  In b (map (received_call reserved m) (msg_calls m)) -> In x (b_accounts b) ->
  exists c i, In c (msg_calls m) /\ In i (snd (fst c)) /\
    x = Meta (key_at m i) (signer_at m i) (writable_at reserved m i).
Proof.
  intros I J. apply in_map_iff in I. destruct I as ([[p accs] data] & <- & I). cbn in J.
  apply in_map_iff in J. destruct J as (i & <- & J). exists (p, accs, data), i. auto.
Qed.

Lemma sane_index n m c i : sane n m = true -> In c (msg_calls m) -> In i (snd (fst c)) ->
  (i < length (msg_keys m))%nat.
Proof.
  unfold sane. rewrite !andb_true_iff. intros [[_ H] _] I J. rewrite forallb_forall in H.
  specialize (H c I). destruct c as [[p accs] data]. cbn in J. rewrite !andb_true_iff, forallb_forall in H.
  apply Nat.ltb_lt. now apply H.
Qed.

Lemma in_firstn {A} (l : list A) n i d : (i < n)%nat -> (i < length l)%nat -> In (nth i l d) (firstn n l).
Proof.
  revert n i. induction l as [|x l IH]; intros n i H L; [cbn in L; lia|].
  destruct n as [|n]; [lia|]. destruct i as [|i]; cbn [firstn nth]; [now left|]. right. cbn in L.
  apply IH; lia.
Qed.

Theorem legacy_signed verify reserved d got :
  receive_legacy verify reserved d = Some got ->
  exists p sigs msg,
    d = p ++ concat sigs ++ msg /\ (length p <= 3)%nat /\ Forall (fun s => length s = 64%nat) sigs /\
    forall b m, In b got -> In m (b_accounts b) -> m_signer m = true ->
      exists s, In s sigs /\ verify (m_key m) msg s = true.
Proof.
  intros H. apply legacy_parts in H. destruct H as (p & sigs & msg & m & -> & Lp & F & _ & S & V & ->).
  exists p, sigs, msg. split; [reflexivity|]. split; [exact Lp|]. split; [exact F|]. intros b x I J G.
  destruct (received_in _ _ _ _ I J) as (c & i & Ic & Ii & ->). cbn [m_key m_signer] in *.
  apply (signed_by_each _ _ _ _ V). unfold signer_at in G. apply Nat.ltb_lt in G.
  apply in_firstn; [exact G|]. eapply sane_index; eassumption.
Qed.

Lemma distinct_nodup ks : distinct_keys ks = true -> NoDup ks.
Proof.
  induction ks as [|k ks IH]; intros H; [constructor|]. cbn in H. apply andb_true_iff in H.
  destruct H as [N H]. constructor; [|auto]. intros I. apply negb_true_iff in N.
  apply not_true_iff_false in N. apply N. apply existsb_exists. exists k. now rewrite key_eqb_refl.
Qed.

Theorem legacy_one_flag verify reserved d got b1 b2 m1 m2 :
  receive_legacy verify reserved d = Some got -> In b1 got -> In b2 got ->
  In m1 (b_accounts b1) -> In m2 (b_accounts b2) -> m_key m1 = m_key m2 -> m1 = m2.
Proof.
  intros H I1 I2 J1 J2 Q. apply legacy_parts in H. destruct H as (p & sigs & msg & m & _ & _ & _ & _ & S & _ & ->).
  destruct (received_in _ _ _ _ I1 J1) as (c1 & i1 & Ic1 & Ii1 & ->).
  destruct (received_in _ _ _ _ I2 J2) as (c2 & i2 & Ic2 & Ii2 & ->). cbn [m_key] in Q.
  assert (L1 := sane_index _ _ _ _ S Ic1 Ii1). assert (L2 := sane_index _ _ _ _ S Ic2 Ii2).
  unfold sane in S. rewrite !andb_true_iff in S. destruct S as [_ S]. apply distinct_nodup in S.
  assert (E : i1 = i2) by (eapply (proj1 (NoDup_nth _ zero_key) S); eassumption).
  now subst.
Qed.

Lemma legacy_reserved verify reserved d got b m :
  receive_legacy verify reserved d = Some got -> In b got -> In m (b_accounts b) ->
  m_writable m = true -> reserved (m_key m) = false.
Proof.
  intros R I J W. apply legacy_parts in R.
  destruct R as (p & sigs & msg & g & _ & _ & _ & _ & _ & _ & ->).
  destruct (received_in _ _ _ _ I J) as (c & i & _ & _ & ->). cbn [m_key m_writable] in *.
  unfold writable_at in W. rewrite !andb_true_iff in W. destruct W as [[_ W] _]. now destruct (reserved (key_at g i)).
Qed.

(** ** Messages of version 0 *)
Lemma v0_parts verify reserved tables d got :
  receive_v0 verify reserved tables d = Some got ->
  exists p sigs msg m lks,
    d = p ++ concat sigs ++ msg /\ (length p <= 3)%nat /\ Forall (fun s => length s = 64%nat) sigs /\
    sane_v0 (length sigs) lks m = true /\
    signed_by verify msg (firstn (num_signatures (lo_message m)) (msg_keys (lo_message m))) sigs = true /\
    got = map (loaded_call reserved m) (msg_calls (lo_message m)).
Proof.
  unfold receive_v0. destruct (_ <? _)%nat; [discriminate|]. intros H.
  apply obind_some in H. destruct H as ([sigs msg] & H1 & H). cbn [fst snd] in H.
  apply obind_some in H. destruct H as ([[m lks] r] & H2 & H). cbn [fst snd] in H.
  destruct r; [|discriminate]. apply obind_some in H. destruct H as (w & _ & H).
  apply obind_some in H. destruct H as (ro & _ & H). cbv zeta in H.
  destruct (sane_v0 _ _ _ && _) eqn:S; [|discriminate].
  apply andb_true_iff in S. destruct S as [S1 S2].
  unfold take_list in H1. apply obind_some in H1. destruct H1 as ([n s] & H3 & H4). cbn [fst snd] in H4.
  apply take_short_is in H3. destruct H3 as (p & -> & Lp). apply take_many_is in H4. destruct H4 as [F ->].
  exists p, sigs, msg, (Loaded m w ro), lks. repeat (split; [assumption || reflexivity|]). congruence.
Qed.

Lemma loaded_in reserved m b x :
  In b (map (loaded_call reserved m) (msg_calls (lo_message m))) -> In x (b_accounts b) ->
  exists c i, In c (msg_calls (lo_message m)) /\ In i (snd (fst c)) /\
    x = Meta (lo_key_at m i) (signer_at (lo_message m) i) (lo_writable_at reserved m i).
Proof.
  intros I J. apply in_map_iff in I. destruct I as ([[p accs] data] & <- & I). cbn in J.
  apply in_map_iff in J. destruct J as (i & <- & J). exists (p, accs, data), i. auto.
Qed.

Lemma v0_index n lks m c i : sane_v0 n lks m = true -> In c (msg_calls (lo_message m)) -> In i (snd (fst c)) ->
  (i < length (lo_keys m))%nat.
Proof.
  unfold sane_v0. rewrite !andb_true_iff. intros [[_ H] _] I J. rewrite forallb_forall in H.
  specialize (H c I). destruct c as [[p accs] data]. cbn in J. rewrite !andb_true_iff, forallb_forall in H.
  apply Nat.ltb_lt. now apply H.
Qed.

Lemma v0_static n lks m : sane_v0 n lks m = true ->
  (num_signatures (lo_message m) <= length (msg_keys (lo_message m)))%nat.
Proof.
  unfold sane_v0. rewrite !andb_true_iff. intros [[[[[[_ H] _] _] _] _] _]. apply Nat.leb_le in H. lia.
Qed.

Theorem v0_signed verify reserved tables d got :
  receive_v0 verify reserved tables d = Some got ->
  exists p sigs msg,
    d = p ++ concat sigs ++ msg /\ (length p <= 3)%nat /\ Forall (fun s => length s = 64%nat) sigs /\
    forall b m, In b got -> In m (b_accounts b) -> m_signer m = true ->
      exists s, In s sigs /\ verify (m_key m) msg s = true.
Proof.
  intros H. apply v0_parts in H. destruct H as (p & sigs & msg & m & lks & -> & Lp & F & S & V & ->).
  exists p, sigs, msg. split; [reflexivity|]. split; [exact Lp|]. split; [exact F|]. intros b x I J G.
  destruct (loaded_in _ _ _ _ I J) as (c & i & Ic & Ii & ->). cbn [m_key m_signer] in *.
  apply (signed_by_each _ _ _ _ V). unfold signer_at in G. apply Nat.ltb_lt in G.
  apply v0_static in S. unfold lo_key_at, lo_keys. rewrite app_nth1 by lia. apply in_firstn; [exact G|lia].
Qed.

Theorem v0_one_flag verify reserved tables d got b1 b2 m1 m2 :
  receive_v0 verify reserved tables d = Some got -> In b1 got -> In b2 got ->
  In m1 (b_accounts b1) -> In m2 (b_accounts b2) -> m_key m1 = m_key m2 -> m1 = m2.
Proof.
  intros H I1 I2 J1 J2 Q. apply v0_parts in H. destruct H as (p & sigs & msg & m & lks & _ & _ & _ & S & _ & ->).
  destruct (loaded_in _ _ _ _ I1 J1) as (c1 & i1 & Ic1 & Ii1 & ->).
  destruct (loaded_in _ _ _ _ I2 J2) as (c2 & i2 & Ic2 & Ii2 & ->). cbn [m_key] in Q.
  assert (L1 := v0_index _ _ _ _ _ S Ic1 Ii1). assert (L2 := v0_index _ _ _ _ _ S Ic2 Ii2).
  unfold sane_v0 in S. rewrite !andb_true_iff in S. destruct S as [_ S]. apply distinct_nodup in S.
  assert (E : i1 = i2) by (eapply (proj1 (NoDup_nth _ zero_key) S); eassumption).
  now subst.
Qed.

Lemma v0_reserved verify reserved tables d got b m :
  receive_v0 verify reserved tables d = Some got -> In b got -> In m (b_accounts b) ->
  m_writable m = true -> reserved (m_key m) = false.
Proof.
  intros R I J W. apply v0_parts in R.
  destruct R as (p & sigs & msg & g & lks & _ & _ & _ & _ & _ & ->).
  destruct (loaded_in _ _ _ _ I J) as (c & i & _ & _ & ->). cbn [m_key m_writable] in *.
  unfold lo_writable_at in W. cbv zeta in W. rewrite !andb_true_iff in W. destruct W as [[_ W] _].
  now destruct (reserved (lo_key_at g i)).
Qed.

(** ** Either kind *)
Lemma receive_either verify reserved tables d got :
  receive verify reserved tables d = Some got ->
  receive_legacy verify reserved d = Some got \/ receive_v0 verify reserved tables d = Some got.
Proof. unfold receive. destruct (receive_legacy verify reserved d); auto. Qed.

Theorem receive_signed verify reserved tables d got :
  receive verify reserved tables d = Some got ->
  exists p sigs msg,
    d = p ++ concat sigs ++ msg /\ (length p <= 3)%nat /\ Forall (fun s => length s = 64%nat) sigs /\
    forall b m, In b got -> In m (b_accounts b) -> m_signer m = true ->
      exists s, In s sigs /\ verify (m_key m) msg s = true.
Proof. intros H. destruct (receive_either _ _ _ _ _ H); [now apply legacy_signed with reserved|now apply v0_signed with reserved tables]. Qed.

Theorem receive_honest C verify reserved tables d got b :
  (forall k m s, verify k m s = true -> on_curve C k = true) ->
  receive verify reserved tables d = Some got -> In b got -> honest_metas C (b_accounts b).
Proof.
  intros V H I m J S (seeds & Q). apply receive_signed in H. destruct H as (p & sigs & msg & _ & _ & _ & H).
  destruct (H b m I J S) as (s & _ & G). apply V in G. unfold create_program_address in Q.
  destruct (seeds_ok seeds); [|discriminate]. destruct (on_curve C (sha256 C _)) eqn:E; [discriminate|].
  assert (X : sha256 C (pda_preimage seeds xorca_id) = m_key m) by congruence. rewrite X in E. congruence.
Qed.

Theorem receive_one_flag verify reserved tables d got b1 b2 m1 m2 :
  receive verify reserved tables d = Some got -> In b1 got -> In b2 got ->
  In m1 (b_accounts b1) -> In m2 (b_accounts b2) -> m_key m1 = m_key m2 -> m1 = m2.
Proof.
  intros H. destruct (receive_either _ _ _ _ _ H) as [R|R];
    [eapply legacy_one_flag; exact R|eapply v0_one_flag; exact R].
Qed.

Theorem receive_reserved verify reserved tables d got b m :
  receive verify reserved tables d = Some got -> In b got -> In m (b_accounts b) ->
  m_writable m = true -> reserved (m_key m) = false.
Proof.
  intros H. destruct (receive_either _ _ _ _ _ H) as [R|R];
    [eapply legacy_reserved; exact R|eapply v0_reserved; exact R].
Qed.
