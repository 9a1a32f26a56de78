(** What the read helpers return. *)
From Coq Require Import String Sorted.
From Verif Require Import BytesFacts LedgerFacts TokenFacts VaultStep CodecFacts SchemaFacts AssertFacts Pool PoolInit PoolHistory HistoryFacts LifeFacts
  EffectFacts SlotFacts LiveFacts BlockFacts ClientSpec RaiseFacts EncodeFacts DecodeFacts RoleFacts AddressFacts.
Import List ListNotations.
Open Scope list_scope.
Open Scope Z_scope.

(** ** Lists *)
Lemma all_some_map {A B} (f : A -> option B) xs ys :
  all_some (map f xs) = Some ys <-> Forall2 (fun x y => f x = Some y) xs ys.
Proof.
  revert ys. induction xs as [|x xs IH]; intros ys; cbn.
  - split; [intros [= <-]; constructor|intros H; inversion H; reflexivity].
  - split.
    + intros H. destruct (f x) as [y|] eqn:E; [cbn in H|discriminate]. destruct (all_some (map f xs)) as [ys'|] eqn:E'; [cbn in H|discriminate].
      injection H as <-. constructor; [exact E|now apply IH].
    + intros H. inversion H as [|? y ? ys' H1 H2]; subst. rewrite H1. cbn. apply IH in H2. now rewrite H2.
Qed.
Lemma all_some_total {A B} (f : A -> option B) xs :
  (forall x, In x xs -> exists y, f x = Some y) -> exists ys, all_some (map f xs) = Some ys.
Proof.
  induction xs as [|x xs IH]; intros H; [now exists []|].
  destruct (H x (or_introl eq_refl)) as (y & E). destruct IH as (ys & Es); [intros; apply H; now right|].
  exists (y :: ys). cbn. now rewrite E, Es.
Qed.
Lemma in_below n i : In i (below n) <-> 0 <= i < n.
Proof.
  unfold below. rewrite in_map_iff. split.
  - intros (m & <- & H). apply in_seq in H. lia.
  - intros H. exists (Z.to_nat i). rewrite in_seq. lia.
Qed.
Lemma below_sorted n : StronglySorted Z.lt (below n).
Proof.
  unfold below. generalize 0%nat. induction (Z.to_nat n) as [|m IH]; intros s; cbn; constructor; [apply IH|].
  apply Forall_forall. intros x Hx. apply in_map_iff in Hx. destruct Hx as (y & <- & Hy). apply in_seq in Hy. lia.
Qed.
Lemma below_length n : length (below n) = Z.to_nat n.
Proof. unfold below. now rewrite map_length, seq_length. Qed.
Lemma in_somes {A} (xs : list (option A)) x : In x (somes xs) <-> In (Some x) xs.
Proof.
  induction xs as [|[y|] xs IH]; cbn; [tauto| |].
  - rewrite IH. split; (intros [H|H]; [left; congruence|now right]).
  - rewrite IH. split; [now right|intros [H|H]; [discriminate|exact H]].
Qed.
(** Dropping [None]s from per-index results that carry their index keeps the order. *)
Lemma somes_sorted {B} (f : Z -> option B) (g : B -> Z) is :
  (forall i v, In i is -> f i = Some v -> g v = i) -> StronglySorted Z.lt is ->
  StronglySorted Z.lt (map g (somes (map f is))).
Proof.
  intros Hg H. induction H as [|i is H IH Hi]; [constructor|]. cbn.
  assert (IH' : StronglySorted Z.lt (map g (somes (map f is)))) by (apply IH; intros; apply Hg; [now right|assumption]).
  destruct (f i) as [v|] eqn:E; [|exact IH']. cbn. constructor; [exact IH'|].
  apply Forall_forall. intros x Hx. apply in_map_iff in Hx. destruct Hx as (w & <- & Hw).
  apply in_somes, in_map_iff in Hw. destruct Hw as (j & Ej & Hj).
  rewrite (Hg j w (or_intror Hj) Ej), (Hg i v (or_introl eq_refl) E).
  rewrite Forall_forall in Hi. auto.
Qed.

Lemma Forall2_len {A B} (R : A -> B -> Prop) xs ys : Forall2 R xs ys -> length xs = length ys.
Proof. induction 1; cbn; auto. Qed.

(** ** What sits at a searched address *)
Lemma state_dec C l : ordinary_state_address C -> reaches C l -> (exists sk, is_state l sk) \/ forall k, ~ is_state l k.
Proof.
  intros Ho Hr. destruct (find_state_address C) as [[sk b]|] eqn:F.
  - destruct (key_eqb (a_owner (l sk)) xorca_id) eqn:E1.
    + destruct (st_disc (a_data (l sk)) =? 1) eqn:E2.
      * left. exists sk. split; [now apply key_eqb_true|now apply Z.eqb_eq].
      * right. intros k Hk. destruct (state_where _ _ _ Ho Hr Hk) as [W _]. apply client_state_is in W. destruct W as (b' & W).
        assert (k = sk) by congruence. subst. destruct Hk as [_ Hk]. apply Z.eqb_neq in E2. congruence.
    + right. intros k Hk. destruct (state_where _ _ _ Ho Hr Hk) as [W _]. apply client_state_is in W. destruct W as (b' & W).
      assert (k = sk) by congruence. subst. destruct Hk as [Hk _]. apply key_eqb_false in E1. congruence.
  - right. intros k Hk. destruct (state_where _ _ _ Ho Hr Hk) as [W _]. apply client_state_is in W. destruct W as (b' & W). congruence.
Qed.

(** At [k] is [staker]'s record [i], or nothing but perhaps lamports. *)
Definition searched_as (l : ledger) (staker : pubkey) (i : Z) (k : pubkey) : Prop :=
  (is_record l k /\ rec_owner l k = staker /\ rec_index l k = i /\ 0 < a_lamports (l k) /\ length (a_data (l k)) = 1024%nat /\
   exists v, decode_struct rust_pending (a_data (l k)) = Some v /\ decode_struct js_pending (a_data (l k)) = Some v /\ shows l k v) \/
  (~ is_record l k /\ a_owner (l k) = system_id /\ a_data (l k) = []).

Lemma not_record_system l k : a_owner (l k) = system_id -> ~ is_record l k.
Proof. intros H [H1 _]. rewrite H in H1. symmetry in H1. revert H1. apply ids_distinct. Qed.

Theorem searched C l staker i k :
  ordinary_state_address C -> reaches C l -> is_u8 i -> client_record C staker i k ->
  searched_as l staker i k \/ collision C (claimants l staker).
Proof.
  intros Ho Hr Hi Hk. pose proof (proj1 (client_record_is _ _ _ _) Hk) as (b & F).
  assert (Hp : program_signs_for C k) by (eapply find_is_pda; exact F).
  destruct (state_dec C l Ho Hr) as [(sk & Hs)|Hn].
  - destruct (reaches_pool _ _ _ Ho Hr Hs) as (vk & P & HP).
    assert (Hsk : client_state C sk) by apply (state_where C l sk Ho Hr Hs).
    assert (Hvk : client_vault C sk vk) by (apply client_vault_is; eapply pool_is_vault, HP).
    destruct (roles_distinct C sk vk staker i k Hsk Hvk Hk) as [(N1 & N2 & _)|Q];
      [|right; eapply collision_more; [|exact Q]; intros u <-; now left].
    destruct (po_pdas _ _ _ _ _ HP k Hp) as [Q|[Q|[Q|[Q1 Q2]]]]; [congruence|congruence| |].
    + pose proof (po_records _ _ _ _ _ HP k Q) as R. apply (pool_is_record _ _ _ _ _ k HP) in Q.
      pose proof (record_where _ _ _ _ Ho Hr Hs Q) as W.
      assert (Hi' : is_u8 (rec_index l k)) by apply get_u8_range.
      destruct (record_addresses_distinct C _ _ _ _ _ Hi' Hi W Hk) as [[E1 E2]|X];
        [left|right; eapply collision_more; [|exact X]; intros u [-> | ->]; [right; eauto|now left]].
      destruct (record_decoded _ _ _ _ Ho Hr Hs Q) as (L & p1 & bm & p2 & D1 & D2 & _).
      left. split; [exact Q|]. split; [exact E1|]. split; [exact E2|]. split; [apply (ro_lam _ _ _ R)|]. split; [exact L|].
      eexists. split; [exact D1|]. split; [exact D2|]. eexists _, _, _. reflexivity.
    + left. right. split; [now apply not_record_system|auto].
  - pose proof (no_state_fresh _ _ Ho Hr Hn) as HF. destruct (fr_pdas _ _ HF k Hp) as [Q1 Q2].
    left. right. split; [now apply not_record_system|auto].
Qed.

Lemma all_zero_not_record d : all_zero d = true -> pw_disc d <> 2.
Proof. intros H. unfold pw_disc, get_u8. destruct d as [|c d]; [discriminate|]. cbn in *. apply andb_prop in H. destruct H as [H _].
  destruct c; try discriminate H; discriminate. Qed.
Lemma record_where' C l k :
  ordinary_state_address C -> reaches C l -> is_record l k -> client_record C (rec_owner l k) (rec_index l k) k.
Proof.
  intros Ho Hr Hk. destruct (state_dec C l Ho Hr) as [(sk & Hs)|Hn]; [eapply record_where; eassumption|].
  pose proof (no_state_fresh _ _ Ho Hr Hn) as HF. destruct Hk as [H1 H2]. apply (fr_only _ _ HF) in H1.
  now apply all_zero_not_record in H1.
Qed.

Lemma forall_or {A} (P : A -> Prop) (Q : Prop) (xs : list A) :
  (forall x, In x xs -> P x \/ Q) -> (forall x, In x xs -> P x) \/ Q.
Proof.
  induction xs as [|x xs IH]; intros H; [left; intros ? []|].
  destruct (H x (or_introl eq_refl)) as [H1|H1]; [|now right].
  destruct IH as [H2|H2]; [intros; apply H; now right| |now right].
  left. intros y [<-|Hy]; auto.
Qed.

Lemma lists_from C l staker n (f : Z -> option (list fval)) :
  ordinary_state_address C -> reaches C l ->
  (forall i, 0 <= i < n -> exists k, client_record C staker i k /\
     ((is_record l k /\ rec_owner l k = staker /\ rec_index l k = i /\ exists v, f i = Some v /\ shows l k v) \/
      (~ is_record l k /\ f i = None))) ->
  lists_records l staker n (somes (map f (below n))).
Proof.
  intros Ho Hr H. split; [|split].
  - intros v Hv. apply in_somes, in_map_iff in Hv. destruct Hv as (i & Ei & Hi). apply in_below in Hi.
    destruct (H i Hi) as (k & _ & [(R & O & I & v' & E & S)|[_ E]]); [|congruence].
    exists k. split; [exact R|]. split; [exact O|]. split; [now rewrite I|]. congruence.
  - intros k Hk O Hi. assert (Hu : is_u8 (rec_index l k)) by apply get_u8_range.
    assert (Hi' : 0 <= rec_index l k < n) by (unfold is_u8 in Hu; lia).
    destruct (H _ Hi') as (k' & W & D). pose proof (record_where' _ _ _ Ho Hr Hk) as W'. rewrite O in W'.
    assert (k' = k).
    { apply client_record_is in W, W'. destruct W as (b & W), W' as (b' & W'). congruence. }
    subst k'. destruct D as [(_ & _ & _ & v & E & S)|[N _]]; [|contradiction].
    exists v. split; [|exact S]. apply in_somes, in_map_iff. exists (rec_index l k). split; [exact E|now apply in_below].
  - apply somes_sorted; [|apply below_sorted]. intros i v Hi E. apply in_below in Hi.
    destruct (H i Hi) as (k & _ & [(_ & _ & I & v' & E' & p1 & b & p2 & S)|[_ E']]); [|congruence].
    assert (v = v') by congruence. subst v. rewrite S. exact I.
Qed.

(** ** Listing pending withdrawals *)
Lemma js_results C l staker n ps :
  all_some (map (fun i => js_find_pending C staker (JInt i)) (below n)) = Some ps ->
  somes (map (decode_struct js_pending) (somes (map (rpc_get l) (map fst ps)))) =
  somes (map (fun i => obind (js_find_pending C staker (JInt i)) (fun p => obind (rpc_get l (fst p)) (decode_struct js_pending)))
    (below n)).
Proof.
  intros H. apply all_some_map in H. induction H as [|i p is ps Hp H IH]; [reflexivity|].
  cbn [map somes]. rewrite Hp. cbn [obind].
  destruct (rpc_get l (fst p)) as [d|]; cbn [map somes obind]; [|exact IH].
  destruct (decode_struct js_pending d); [f_equal|]; exact IH.
Qed.

Lemma decode_nil : decode_struct rust_pending [] = None /\ decode_struct js_pending [] = None.
Proof. split; reflexivity. Qed.

Theorem js_lists C cap l staker n :
  ordinary_state_address C -> reaches C l -> 0 <= n <= 255 -> n <= Z.of_nat cap -> addressable C staker n ->
  (exists vs, js_pending_withdraws C cap l staker (Some (JInt n)) = Some vs /\ lists_records l staker n vs) \/ collision C (claimants l staker).
Proof.
  intros Ho Hr Hn Hc Ha.
  destruct (forall_or (fun i => exists k, client_record C staker i k /\ searched_as l staker i k) (collision C (claimants l staker)) (below n)) as [H|H]; [| |now right].
  { intros i Hi. apply in_below in Hi. destruct (Ha i Hi) as (k & Hk).
    destruct (searched C l staker i k Ho Hr) as [F|F]; [unfold is_u8; lia|exact Hk|left; eauto|now right]. }
  left.
  destruct (all_some_total (fun i => js_find_pending C staker (JInt i)) (below n)) as (ps & Eps).
  { intros i Hi. apply in_below in Hi. destruct (Ha i Hi) as (k & b & _ & H1 & _). eauto. }
  unfold js_pending_withdraws, js_limit.
  replace ((n <? 0) || (255 <? n)) with false by (symmetry; apply orb_false_intro; apply Z.ltb_ge; lia).
  cbn [obind]. rewrite Eps. cbn [obind].
  assert (L : length (map fst ps) = Z.to_nat n).
  { rewrite map_length, <- below_length. apply all_some_map in Eps. symmetry. eapply Forall2_len, Eps. }
  unfold rpc_many. rewrite L. replace (cap <? Z.to_nat n)%nat with false by (symmetry; apply Nat.ltb_ge; lia).
  cbn [obind]. eexists. split; [reflexivity|]. rewrite (js_results C l staker n ps Eps).
  eapply lists_from; [eassumption|assumption|].
  intros i Hi. destruct (H i (proj2 (in_below n i) Hi)) as (k & Hk & F). exists k. split; [exact Hk|].
  destruct Hk as (b & _ & Hk & _). rewrite Hk. cbn [obind fst].
  destruct F as [(R & O & I & La & _ & v & _ & D & S)|(R & _ & D)].
  - left. refine (conj R (conj O (conj I _))). exists v. split; [|exact S]. unfold rpc_get.
    replace (a_lamports (l k) =? 0) with false by (symmetry; apply Z.eqb_neq; lia). exact D.
  - right. split; [exact R|]. unfold rpc_get. destruct (a_lamports (l k) =? 0); [reflexivity|]. rewrite D. reflexivity.
Qed.

Definition rust_at (C : crypto) (l : ledger) (staker : pubkey) (i : Z) : option (list fval) :=
  obind (rust_find_pending C staker i) (fun p => obind (rpc_get l (fst p)) (decode_struct rust_pending)).

Lemma rust_results C l staker is ps ms :
  all_some (map (rust_find_pending C staker) is) = Some ps ->
  all_some (map rust_maybe (map (rpc_get l) (map fst ps))) = Some ms ->
  ms = map (rust_at C l staker) is.
Proof.
  intros H. apply all_some_map in H. revert ms. induction H as [|i p is ps Hp H IH]; intros ms Hm.
  - cbn in Hm. now injection Hm as <-.
  - cbn [map all_some] in Hm. destruct (rust_maybe (rpc_get l (fst p))) as [m|] eqn:E; [cbn [obind] in Hm|discriminate].
    destruct (all_some _) as [ms'|] eqn:E'; [cbn [obind] in Hm|discriminate]. injection Hm as <-.
    cbn [map]. rewrite <- (IH ms' eq_refl). f_equal. unfold rust_at. rewrite Hp. cbn [obind].
    unfold rust_maybe in E. destruct (rpc_get l (fst p)) as [d|]; cbn [obind] in *; [|congruence].
    destruct (decode_struct rust_pending d); cbn [obind] in E; congruence.
Qed.

Lemma rust_some C cap l staker n vs :
  rust_pending_withdraws C cap l staker (Some n) = Some vs ->
  vs = somes (map (rust_at C l staker) (below n)) /\
  (forall i, 0 <= i < n -> exists p, rust_find_pending C staker i = Some p /\ rust_maybe (rpc_get l (fst p)) <> None) /\
  (Z.to_nat n <= cap)%nat.
Proof.
  unfold rust_pending_withdraws. intros H.
  destruct (all_some (map (rust_find_pending C staker) (below n))) as [ps|] eqn:Ep; [cbn [obind] in H|discriminate].
  unfold rust_fetch_all_maybe, rpc_many in H.
  assert (L : length (map fst ps) = Z.to_nat n).
  { rewrite map_length, <- below_length. pose proof Ep as E. apply all_some_map in E. symmetry. eapply Forall2_len, E. }
  rewrite L in H. destruct (cap <? Z.to_nat n)%nat eqn:Ec; [discriminate|]. cbn [obind] in H. apply Nat.ltb_ge in Ec.
  destruct (all_some (map rust_maybe _)) as [ms|] eqn:Em; [cbn [obind] in H|discriminate]. injection H as <-.
  split; [f_equal; eapply rust_results; eassumption|]. split; [|exact Ec].
  intros i Hi. apply in_below in Hi. apply all_some_map in Ep. rewrite map_map in Em. apply all_some_map in Em.
  clear L Ec. revert ms Em. induction Ep as [|j p js ps Hp Ep IH]; [destruct Hi|]. intros ms Em.
  inversion Em as [|x y xs ys H1 H2]; subst. destruct Hi as [->|Hi]; [exists p; split; [exact Hp|rewrite H1; discriminate]|exact (IH Hi ys H2)].
Qed.

Lemma found_all C l staker n :
  ordinary_state_address C -> reaches C l -> n <= 256 ->
  (forall i, 0 <= i < n -> exists k, client_record C staker i k) ->
  (forall i, 0 <= i < n -> exists k, client_record C staker i k /\ searched_as l staker i k) \/ collision C (claimants l staker).
Proof.
  intros Ho Hr Hn Ha.
  destruct (forall_or (fun i => exists k, client_record C staker i k /\ searched_as l staker i k) (collision C (claimants l staker)) (below n)) as [H|H]; [| |now right].
  { intros i Hi. apply in_below in Hi. destruct (Ha i Hi) as (k & Hk).
    destruct (searched C l staker i k Ho Hr) as [F|F]; [unfold is_u8; lia|exact Hk|left; eauto|now right]. }
  left. intros i Hi. apply H. now apply in_below.
Qed.
Lemma find_client C staker i p : rust_find_pending C staker i = Some p -> client_record C staker i (fst p).
Proof. intros H. apply client_record_is. exists (snd p). destruct p. exact H. Qed.

(** Whatever the Rust helper returns is right. *)
Theorem rust_lists_sound C cap l staker n vs :
  ordinary_state_address C -> reaches C l -> 0 <= n <= 255 ->
  rust_pending_withdraws C cap l staker (Some n) = Some vs -> lists_records l staker n vs \/ collision C (claimants l staker).
Proof.
  intros Ho Hr Hn H. apply rust_some in H. destruct H as (-> & Ha & _).
  destruct (found_all C l staker n Ho Hr) as [F|F]; [lia| | |now right].
  { intros i Hi. destruct (Ha i Hi) as (p & Hp & _). exists (fst p). now apply find_client. }
  left. apply (lists_from C); [assumption|assumption|].
  intros i Hi. destruct (F i Hi) as (k & Hk & D). exists k. split; [exact Hk|].
  destruct Hk as (b & Hk & _). unfold rust_at. rewrite Hk. cbn [obind fst].
  destruct D as [(R & O & I & La & _ & v & D & _ & S)|(R & _ & D)].
  - left. refine (conj R (conj O (conj I _))). exists v. split; [|exact S]. unfold rpc_get.
    replace (a_lamports (l k) =? 0) with false by (symmetry; apply Z.eqb_neq; lia). exact D.
  - right. split; [exact R|]. unfold rpc_get. destruct (a_lamports (l k) =? 0); [reflexivity|]. rewrite D. reflexivity.
Qed.

(** It answers when every searched address is empty or a record. *)
Theorem rust_lists C cap l staker n :
  ordinary_state_address C -> reaches C l -> 0 <= n <= 255 -> n <= Z.of_nat cap -> addressable C staker n ->
  (forall i k, 0 <= i < n -> client_record C staker i k -> a_lamports (l k) = 0 \/ is_record l k) ->
  (exists vs, rust_pending_withdraws C cap l staker (Some n) = Some vs /\ lists_records l staker n vs) \/ collision C (claimants l staker).
Proof.
  intros Ho Hr Hn Hc Ha Hd.
  destruct (found_all C l staker n Ho Hr) as [F|F]; [lia|exact Ha| |now right].
  destruct (all_some_total (rust_find_pending C staker) (below n)) as (ps & Eps).
  { intros i Hi. apply in_below in Hi. destruct (Ha i Hi) as (k & b & H1 & _). eauto. }
  destruct (all_some_total rust_maybe (map (rpc_get l) (map fst ps))) as (ms & Ems).
  { intros o Hin. rewrite map_map in Hin. apply in_map_iff in Hin. destruct Hin as (p & <- & Hp).
    assert (exists i, 0 <= i < n /\ rust_find_pending C staker i = Some p) as (i & Hi & E).
    { apply all_some_map in Eps. assert (Hb : forall i, In i (below n) -> 0 <= i < n) by (intros; now apply in_below).
      clear - Eps Hp Hb. induction Eps as [|j q js qs Hq Eps IH]; [destruct Hp|]. destruct Hp as [->|Hp]; [exists j; split; [apply Hb; now left|exact Hq]|].
      apply IH; [exact Hp|]. intros; apply Hb; now right. }
    pose proof (find_client _ _ _ _ E) as W. destruct (F i Hi) as (k & Wk & D).
    assert (k = fst p) by (destruct Wk as (b & Wk & _); rewrite E in Wk; injection Wk as ->; reflexivity). subst k.
    unfold rust_maybe, rpc_get. destruct (a_lamports (l (fst p)) =? 0) eqn:Z0; [eauto|]. apply Z.eqb_neq in Z0.
    destruct D as [(R & _ & _ & _ & _ & v & D & _)|(R & _ & _)]; [rewrite D; cbn; eauto|].
    destruct (Hd i (fst p) Hi W); contradiction. }
  assert (Hv : rust_pending_withdraws C cap l staker (Some n) = Some (somes ms)).
  { unfold rust_pending_withdraws. rewrite Eps. cbn [obind]. unfold rust_fetch_all_maybe, rpc_many.
    assert (L : length (map fst ps) = Z.to_nat n).
    { rewrite map_length, <- below_length. apply all_some_map in Eps. symmetry. eapply Forall2_len, Eps. }
    rewrite L. replace (cap <? Z.to_nat n)%nat with false by (symmetry; apply Nat.ltb_ge; lia).
    cbn [obind]. rewrite Ems. reflexivity. }
  destruct (rust_lists_sound _ _ _ _ _ _ Ho Hr Hn Hv) as [H|H]; [left; eauto|now right].
Qed.

(** It fails as soon as one searched address has lamports but no record. *)
Theorem rust_list_dust C cap l staker n i k :
  ordinary_state_address C -> reaches C l -> 0 <= i < n -> n <= 255 ->
  client_record C staker i k -> ~ is_record l k -> a_lamports (l k) <> 0 ->
  rust_pending_withdraws C cap l staker (Some n) = None \/ collision C (claimants l staker).
Proof.
  intros Ho Hr Hi Hn Hk Hnr Hl. destruct (searched C l staker i k Ho Hr) as [F|F]; [unfold is_u8; lia|exact Hk| |now right].
  destruct F as [(R & _)|(_ & _ & D)]; [contradiction|]. left.
  destruct (rust_pending_withdraws C cap l staker (Some n)) as [vs|] eqn:E; [|reflexivity].
  apply rust_some in E. destruct E as (_ & E & _). destruct (E i Hi) as (p & Hp & Hm). exfalso. apply Hm.
  destruct Hk as (b & Hk & _). rewrite Hp in Hk. injection Hk as ->. cbn [fst].
  unfold rpc_get. apply Z.eqb_neq in Hl. rewrite Hl, D. reflexivity.
Qed.

(** Limits: default, range, and what can never be listed. *)
Theorem list_defaults C cap l staker :
  rust_pending_withdraws C cap l staker None = rust_pending_withdraws C cap l staker (Some 15) /\
  js_pending_withdraws C cap l staker None = js_pending_withdraws C cap l staker (Some (JInt 15)).
Proof. split; reflexivity. Qed.
Theorem js_limit_range C cap l staker max vs :
  js_pending_withdraws C cap l staker (Some max) = Some vs -> exists n, max = JInt n /\ 0 <= n <= 255.
Proof.
  unfold js_pending_withdraws, js_limit. intros H. destruct max as [n|n|]; [|discriminate|discriminate].
  destruct ((n <? 0) || (255 <? n)) eqn:E; [discriminate|]. apply orb_false_iff in E. destruct E as [E1 E2].
  apply Z.ltb_ge in E1, E2. exists n. auto.
Qed.
Theorem list_cap C cap l staker n vs :
  0 <= n <= 255 ->
  (rust_pending_withdraws C cap l staker (Some n) = Some vs \/ js_pending_withdraws C cap l staker (Some (JInt n)) = Some vs) ->
  n <= Z.of_nat cap.
Proof.
  intros Hn [H|H].
  - apply rust_some in H. lia.
  - unfold js_pending_withdraws in H. destruct (js_limit (JInt n)) as [m|] eqn:E; [cbn [obind] in H|discriminate].
    assert (m = n) as ->. { unfold js_limit in E. destruct ((n <? 0) || (255 <? n)); congruence. }
    destruct (all_some _) as [ps|] eqn:Ep; [cbn [obind] in H|discriminate]. unfold rpc_many in H.
    assert (L : length (map fst ps) = Z.to_nat n).
    { rewrite map_length, <- below_length. apply all_some_map in Ep. symmetry. eapply Forall2_len, Ep. }
    rewrite L in H. destruct (cap <? Z.to_nat n)%nat eqn:Ec; [discriminate|]. apply Nat.ltb_ge in Ec. lia.
Qed.

Theorem js_lists_sound C cap l staker n vs :
  ordinary_state_address C -> reaches C l ->
  js_pending_withdraws C cap l staker (Some (JInt n)) = Some vs -> lists_records l staker n vs \/ collision C (claimants l staker).
Proof.
  intros Ho Hr H. destruct (js_limit_range _ _ _ _ _ _ H) as (n' & [= <-] & Hn).
  pose proof (list_cap C cap l staker n vs Hn (or_intror H)) as Hc.
  assert (Ha : addressable C staker n).
  { intros i Hi. unfold js_pending_withdraws in H. destruct (js_limit (JInt n)) as [m|] eqn:E; [cbn [obind] in H|discriminate].
    assert (m = n) as ->. { unfold js_limit in E. destruct ((n <? 0) || (255 <? n)); congruence. }
    destruct (all_some _) as [ps|] eqn:Ep; [clear H|discriminate]. apply in_below in Hi.
    apply all_some_map in Ep. induction Ep as [|j p js ps Hp Ep IH]; [destruct Hi|]. destruct Hi as [->|Hi]; [|exact (IH Hi)].
    exists (fst p). apply client_record_is. exists (snd p). destruct p. exact Hp. }
  destruct (js_lists C cap l staker n Ho Hr Hn Hc Ha) as [(vs' & H' & L)|?]; [left|now right].
  rewrite H in H'. injection H' as <-. exact L.
Qed.

(** A record with index 255 is in no answer. *)
Theorem last_never_listed C cap l staker k n vs :
  ordinary_state_address C -> reaches C l -> is_record l k -> rec_index l k = 255 -> is_u8 n ->
  rust_pending_withdraws C cap l staker (Some n) = Some vs \/ js_pending_withdraws C cap l staker (Some (JInt n)) = Some vs ->
  (forall v, In v vs -> ~ shows l k v) \/ collision C (claimants l staker).
Proof.
  intros Ho Hr Hk Hi Hn H.
  assert (L : lists_records l staker n vs \/ collision C (claimants l staker)).
  { destruct H as [H|H]; [eapply rust_lists_sound; try eassumption; unfold is_u8 in Hn; lia|eapply js_lists_sound; eassumption]. }
  destruct L as [(L & _)|?]; [left|now right]. intros v Hv (p1 & b & p2 & E).
  destruct (L v Hv) as (k' & _ & _ & R & p1' & b' & p2' & E'). rewrite E in E'. injection E' as _ _ E' _ _ _ _.
  unfold is_u8 in Hn. lia.
Qed.
