(** Facts about the key list of a compiled transaction. *)
From Coq Require Import Permutation Sorted.
From Verif Require Export WireSpec.
From Verif Require Import BytesFacts LedgerFacts Cpi.
Import List ListNotations.
Open Scope list_scope.

Lemma caller_signs_iff ms k :
  caller_signs ms k = true <-> exists m, In m ms /\ m_key m = k /\ m_signer m = true.
Proof.
  unfold caller_signs. rewrite existsb_exists. split.
  - intros (m & I & H). apply andb_true_iff in H. destruct H as [H S].
    apply key_eqb_true in H. eauto.
  - intros (m & I & <- & S). exists m. now rewrite key_eqb_refl, S.
Qed.

Lemma caller_writes_iff ms k :
  caller_writes ms k = true <-> exists m, In m ms /\ m_key m = k /\ m_writable m = true.
Proof.
  unfold caller_writes. rewrite existsb_exists. split.
  - intros (m & I & H). apply andb_true_iff in H. destruct H as [H S].
    apply key_eqb_true in H. eauto.
  - intros (m & I & <- & S). exists m. now rewrite key_eqb_refl, S.
Qed.

(** [u] lists each key of [ms] once, with all its privileges. *)
Definition joins (u ms : list meta) : Prop :=
  NoDup (map m_key u) /\ (forall k, In k (map m_key u) <-> In k (map m_key ms)) /\
  forall m, In m u -> m_signer m = caller_signs ms (m_key m) /\
                      m_writable m = caller_writes ms (m_key m).

Lemma cull_one_keys u m k :
  In k (map m_key (cull_one u m)) <-> In k (map m_key u) \/ k = m_key m.
Proof.
  induction u as [|x u IH]; cbn [cull_one map In]; [intuition congruence|].
  destruct (key_eqb (m_key x) (m_key m)) eqn:E; cbn [map In m_key].
  - apply key_eqb_true in E. intuition congruence.
  - rewrite IH. tauto.
Qed.

Lemma cull_one_nodup u m : NoDup (map m_key u) -> NoDup (map m_key (cull_one u m)).
Proof.
  induction u as [|x u IH]; intros H; cbn [cull_one map].
  - repeat constructor. auto.
  - inversion H as [|? ? N D]; subst. destruct (key_eqb (m_key x) (m_key m)) eqn:E; cbn [map m_key].
    + now constructor.
    + apply key_eqb_false in E. constructor; [|auto]. rewrite cull_one_keys. intuition congruence.
Qed.

Lemma cull_one_in u m y : NoDup (map m_key u) -> In y (cull_one u m) ->
  (In y u /\ m_key y <> m_key m) \/
  (m_key y = m_key m /\ ~ In (m_key m) (map m_key u) /\ y = m) \/
  (exists x, In x u /\ m_key x = m_key m /\
     y = Meta (m_key x) (m_signer x || m_signer m) (m_writable x || m_writable m)).
Proof.
  induction u as [|x u IH]; intros H I; cbn [cull_one] in I.
  - destruct I as [<-|[]]. right; left. cbn. auto.
  - inversion H as [|? ? N D]; subst. destruct (key_eqb (m_key x) (m_key m)) eqn:E.
    + apply key_eqb_true in E. destruct I as [<-|I].
      * right; right. exists x. cbn. auto.
      * left. split; [now right|]. intros Q. apply N. rewrite E, <- Q. now apply in_map.
    + apply key_eqb_false in E. destruct I as [<-|I].
      * left. split; [now left|assumption].
      * destruct (IH D I) as [[A B]|[(A & B & Q)|(z & A & B & Q)]].
        -- left. split; [now right|assumption].
        -- right; left. cbn. intuition.
        -- right; right. exists z. cbn. auto.
Qed.

Lemma caller_signs_app a b k : caller_signs (a ++ b) k = caller_signs a k || caller_signs b k.
Proof. apply existsb_app. Qed.
Lemma caller_writes_app a b k : caller_writes (a ++ b) k = caller_writes a k || caller_writes b k.
Proof. apply existsb_app. Qed.

Lemma joins_step u ms m : joins u ms -> joins (cull_one u m) (ms ++ [m]).
Proof.
  intros (N & K & F). split; [now apply cull_one_nodup|split].
  - intros k. rewrite cull_one_keys, K, map_app, in_app_iff. cbn. intuition congruence.
  - intros y I. rewrite caller_signs_app, caller_writes_app.
    unfold caller_signs at 2. unfold caller_writes at 2. cbn [existsb]. rewrite !orb_false_r.
    destruct (cull_one_in _ _ _ N I) as [[A B]|[(A & B & Q)|(z & A & B & Q)]].
    + rewrite (key_eqb_neq (m_key m)) by congruence. cbn. rewrite !orb_false_r. now apply F.
    + subst y. rewrite key_eqb_refl. cbn. rewrite K in B.
      replace (caller_signs ms (m_key m)) with false.
      2:{ symmetry. apply not_true_iff_false. intros Q. apply caller_signs_iff in Q.
          destruct Q as (x & X & Y & _). apply B. rewrite <- Y. now apply in_map. }
      replace (caller_writes ms (m_key m)) with false.
      2:{ symmetry. apply not_true_iff_false. intros Q. apply caller_writes_iff in Q.
          destruct Q as (x & X & Y & _). apply B. rewrite <- Y. now apply in_map. }
      auto.
    + subst y. cbn [m_key m_signer m_writable]. rewrite B, key_eqb_refl. cbn [andb].
      destruct (F z A) as [-> ->]. rewrite B. auto.
Qed.

Lemma cull_joins ms : joins (cull ms) ms.
Proof.
  unfold cull.
  assert (G : forall a u b, joins u b -> joins (fold_left cull_one a u) (b ++ a)).
  { induction a as [|m a IH]; intros u b J; cbn [fold_left].
    - now rewrite app_nil_r.
    - replace (b ++ m :: a) with ((b ++ [m]) ++ a) by (now rewrite <- app_assoc).
      apply IH. now apply joins_step. }
  apply (G ms [] []). split; [constructor|split; [tauto|intros m []]].
Qed.

(** ** Sorting *)
Definition class_le (a b : meta) : Prop := (meta_class a <= meta_class b)%nat.

Lemma insert_perm before m u : Permutation (insert_meta before m u) (m :: u).
Proof.
  induction u as [|x u IH]; cbn [insert_meta]; [reflexivity|].
  destruct (goes_first before m x); [reflexivity|].
  rewrite IH. constructor.
Qed.

Lemma sort_perm before u : Permutation (sort_metas before u) u.
Proof.
  induction u as [|x u IH]; cbn; [constructor|].
  rewrite insert_perm. now constructor.
Qed.

Lemma insert_sorted before m u :
  StronglySorted class_le u -> StronglySorted class_le (insert_meta before m u).
Proof.
  induction u as [|x u IH]; intros H; cbn [insert_meta]; [repeat constructor|].
  inversion H as [|? ? S F]; subst. destruct (goes_first before m x) eqn:E.
  - constructor; [assumption|].
    assert (L : class_le m x).
    { unfold goes_first in E. apply orb_true_iff in E. unfold class_le.
      destruct E as [E|E]; [apply Nat.ltb_lt in E; lia|].
      apply andb_true_iff in E. destruct E as [E _]. apply Nat.eqb_eq in E. lia. }
    constructor; [exact L|]. eapply Forall_impl; [|exact F]. unfold class_le in *. intros; lia.
  - constructor; [auto|]. rewrite Forall_forall in *. intros y I.
    apply (Permutation_in _ (insert_perm before m u)) in I. destruct I as [<-|I]; [|auto].
    unfold goes_first in E. apply orb_false_iff in E. destruct E as [E _].
    apply Nat.ltb_ge in E. exact E.
Qed.

Lemma sort_sorted before u : StronglySorted class_le (sort_metas before u).
Proof.
  induction u as [|x u IH]; cbn; [constructor|]. now apply insert_sorted.
Qed.

Lemma filter_sorted f u : StronglySorted class_le u -> StronglySorted class_le (filter f u).
Proof.
  induction u as [|x u IH]; intros H; cbn; [constructor|].
  inversion H as [|? ? S F]; subst. destruct (f x); [|auto].
  constructor; [auto|]. rewrite Forall_forall in *. intros y I. apply filter_In in I. now apply F.
Qed.

Lemma filter_map_nodup f u : NoDup (map m_key u) -> NoDup (map m_key (filter f u)).
Proof.
  induction u as [|x u IH]; intros H; cbn; [constructor|].
  inversion H as [|? ? N D]; subst. destruct (f x); [|auto]. cbn. constructor; [|auto].
  intros I. apply N. apply in_map_iff in I. destruct I as (y & Q & I). apply filter_In in I.
  rewrite <- Q. now apply in_map.
Qed.

(** ** All entries of a transaction *)
Lemma add_key_in ks p k : In k (add_key ks p) <-> In k ks \/ k = p.
Proof.
  induction ks as [|x ks IH]; cbn [add_key In]; [intuition congruence|].
  destruct (key_eqb x p) eqn:E; cbn [In].
  - apply key_eqb_true in E. intuition congruence.
  - rewrite IH. tauto.
Qed.

Lemma called_programs_in ixs k : In k (called_programs ixs) <-> is_called ixs k.
Proof.
  unfold called_programs.
  assert (G : forall ixs ks, In k (fold_left (fun ks b => add_key ks (b_program b)) ixs ks) <->
                             In k ks \/ is_called ixs k).
  { induction ixs0 as [|b ixs0 IH]; intros ks; cbn [fold_left].
    - unfold is_called. split; [auto|]. intros [H|(b & [] & _)]. exact H.
    - rewrite IH, add_key_in. unfold is_called. split.
      + intros [[H| ->]|(b' & I & Q)]; [auto| |].
        * right. exists b. split; [now left|reflexivity].
        * right. exists b'. split; [now right|assumption].
      + intros [H|(b' & [<-|I] & Q)]; [auto|auto|]. right. eauto. }
  rewrite G. cbn. tauto.
Qed.

Definition privileged (f : meta -> bool) (ixs : list built) (k : pubkey) : Prop :=
  exists b m, In b ixs /\ In m (b_accounts b) /\ m_key m = k /\ f m = true.

Lemma all_metas_signs ixs k :
  caller_signs (all_metas ixs) k = true <-> privileged m_signer ixs k.
Proof.
  rewrite caller_signs_iff. unfold all_metas, privileged. split.
  - intros (m & I & Q & S). apply in_app_iff in I. destruct I as [I|I].
    + apply in_flat_map in I. destruct I as (b & B & I). eauto 8.
    + apply in_map_iff in I. destruct I as (p & <- & _). discriminate.
  - intros (b & m & B & I & Q & S). exists m. split; [|auto]. apply in_app_iff. left.
    apply in_flat_map. eauto.
Qed.

Lemma all_metas_writes ixs k :
  caller_writes (all_metas ixs) k = true <-> privileged m_writable ixs k.
Proof.
  rewrite caller_writes_iff. unfold all_metas, privileged. split.
  - intros (m & I & Q & S). apply in_app_iff in I. destruct I as [I|I].
    + apply in_flat_map in I. destruct I as (b & B & I). eauto 8.
    + apply in_map_iff in I. destruct I as (p & <- & _). discriminate.
  - intros (b & m & B & I & Q & S). exists m. split; [|auto]. apply in_app_iff. left.
    apply in_flat_map. eauto.
Qed.

Lemma all_metas_keys ixs k :
  In k (map m_key (all_metas ixs)) <->
  is_called ixs k \/ exists b m, In b ixs /\ In m (b_accounts b) /\ m_key m = k.
Proof.
  unfold all_metas. rewrite map_app, in_app_iff, map_map. cbn [m_key]. rewrite map_id.
  rewrite called_programs_in, in_map_iff. split.
  - intros [(m & Q & I)|H]; [|auto]. apply in_flat_map in I. destruct I as (b & B & I). eauto 8.
  - intros [H|(b & m & B & I & Q)]; [auto|]. left. exists m. split; [assumption|].
    apply in_flat_map. eauto.
Qed.

(** The list before the signers are marked. *)
Definition key_list before payer ixs :=
  payer_first payer (sort_metas before (cull (all_metas ixs))).

Lemma key_list_tail before payer ixs m :
  In m (filter (fun m => negb (key_eqb (m_key m) payer)) (sort_metas before (cull (all_metas ixs)))) <->
  In m (cull (all_metas ixs)) /\ m_key m <> payer.
Proof.
  rewrite filter_In, negb_true_iff, key_eqb_false.
  split; intros [I N]; (split; [|exact N]).
  - now apply (Permutation_in _ (sort_perm before _)).
  - apply (Permutation_in _ (Permutation_sym (sort_perm before _))). exact I.
Qed.

Lemma key_list_ok before payer ixs :
  let u := key_list before payer ixs in
  NoDup (map m_key u) /\ StronglySorted class_le u /\
  (forall k, In k (map m_key u) <-> is_named payer ixs k) /\
  forall m, In m u -> (m_signer m = true <-> must_sign payer ixs (m_key m)) /\
                      (m_writable m = true <-> may_write payer ixs (m_key m)).
Proof.
  intros u. destruct (cull_joins (all_metas ixs)) as (N & K & F).
  pose proof (key_list_tail before payer ixs) as T.
  unfold u, key_list, payer_first in *. clear u. cbn [map m_key]. split; [|split; [|split]].
  - constructor.
    + intros I. apply in_map_iff in I. destruct I as (m & Q & I). apply T in I. tauto.
    + apply filter_map_nodup. eapply Permutation_NoDup; [|exact N].
      apply Permutation_map. apply Permutation_sym, sort_perm.
  - constructor.
    + apply filter_sorted, sort_sorted.
    + apply Forall_forall. intros m _. unfold class_le. cbn. lia.
  - intros k. cbn [In]. unfold is_named. rewrite <- all_metas_keys, <- K. split.
    + intros [<-|I]; [auto|]. right. apply in_map_iff in I. destruct I as (m & <- & I).
      apply T in I. now apply in_map.
    + intros [->|I]; [now left|]. destruct (key_eqb k payer) eqn:E.
      * apply key_eqb_true in E. left. congruence.
      * apply key_eqb_false in E. right. apply in_map_iff in I. destruct I as (m & <- & I).
        apply in_map. apply T. auto.
  - intros m [<-|I].
    + cbn. unfold must_sign, may_write. tauto.
    + apply T in I. destruct I as [I P]. destruct (F m I) as [-> ->].
      rewrite all_metas_signs, all_metas_writes. unfold must_sign, may_write, privileged. tauto.
Qed.

(** Marking changes nothing if every signer is needed. *)
Lemma mark_signer_id u k :
  (exists m, In m u /\ m_key m = k) -> (forall m, In m u -> m_key m = k -> m_signer m = true) ->
  mark_signer u k = Some u.
Proof.
  induction u as [|x u IH]; intros (m & I & Q) H; [destruct I|]. cbn [mark_signer].
  destruct (key_eqb (m_key x) k) eqn:E.
  - apply key_eqb_true in E. assert (S : m_signer x = true) by (apply H; [now left|assumption]).
    destruct x as [xk xs xw]. cbn in *. now rewrite S.
  - apply key_eqb_false in E. destruct I as [->|I]; [congruence|].
    rewrite IH; [reflexivity|eauto|]. intros y Y. apply H. now right.
Qed.

Lemma mark_signers_id u ks :
  (forall k, In k ks -> (exists m, In m u /\ m_key m = k) /\
     forall m, In m u -> m_key m = k -> m_signer m = true) ->
  mark_signers u ks = Some u.
Proof.
  induction ks as [|k ks IH]; intros H; cbn [mark_signers]; [reflexivity|].
  destruct (H k (or_introl eq_refl)) as [A B]. rewrite mark_signer_id by assumption.
  cbn [obind]. apply IH. intros k' I. apply H. now right.
Qed.

Lemma key_list_marked before payer ixs signers :
  (forall k, In k signers -> must_sign payer ixs k) ->
  mark_signers (key_list before payer ixs) signers = Some (key_list before payer ixs).
Proof.
  intros H. destruct (key_list_ok before payer ixs) as (_ & _ & K & F).
  apply mark_signers_id. intros k I. apply H in I. split.
  - assert (N : is_named payer ixs k).
    { unfold is_named. destruct I as [->|(b & m & A & B & Q & _)]; [auto|]. eauto 8. }
    apply K in N. apply in_map_iff in N. destruct N as (m & Q & M). eauto.
  - intros m M Q. apply (F m M). now rewrite Q.
Qed.

(** ** Positions *)
Definition of_class (c : nat) (m : meta) : bool := (meta_class m =? c)%nat.

Lemma filter_none {A} (f : A -> bool) l : (forall x, In x l -> f x = false) -> filter f l = [].
Proof.
  induction l as [|x l IH]; intros H; [reflexivity|]. cbn. rewrite (H x (or_introl eq_refl)).
  apply IH. intros y I. apply H. now right.
Qed.
Lemma filter_all {A} (f : A -> bool) l : (forall x, In x l -> f x = true) -> filter f l = l.
Proof.
  induction l as [|x l IH]; intros H; [reflexivity|]. cbn. rewrite (H x (or_introl eq_refl)).
  f_equal. apply IH. intros y I. apply H. now right.
Qed.

Lemma sorted_split u : StronglySorted class_le u ->
  u = filter (of_class 0) u ++ filter (of_class 1) u ++ filter (of_class 2) u ++ filter (of_class 3) u.
Proof.
  induction u as [|x u IH]; intros H; [reflexivity|].
  inversion H as [|? ? S F]; subst. specialize (IH S). rewrite Forall_forall in F.
  assert (Z : forall c, (c < meta_class x)%nat -> filter (of_class c) u = []).
  { intros c L. apply filter_none. intros y I. specialize (F y I). unfold class_le, of_class in *.
    apply Nat.eqb_neq. lia. }
  assert (Y : forall c, of_class c x = (meta_class x =? c)%nat) by reflexivity.
  cbn [filter]. rewrite !Y.
  assert (B : (meta_class x <= 3)%nat) by (unfold meta_class; destruct (m_signer x), (m_writable x); lia).
  clear Y. destruct (meta_class x) as [|[|[|[|n]]]] eqn:E; cbn [Nat.eqb]; try lia.
  - cbn [app]. f_equal. exact IH.
  - rewrite (Z 0%nat) in * by lia. cbn [app] in *. f_equal. exact IH.
  - rewrite (Z 0%nat), (Z 1%nat) in * by lia. cbn [app] in *. f_equal. exact IH.
  - rewrite (Z 0%nat), (Z 1%nat), (Z 2%nat) in * by lia. cbn [app] in *. f_equal. exact IH.
Qed.

Lemma class_flags c m : of_class c m = true ->
  m_signer m = (c <? 2)%nat /\ m_writable m = Nat.even c.
Proof.
  unfold of_class, meta_class. intros H. apply Nat.eqb_eq in H. subst c.
  destruct (m_signer m), (m_writable m); auto.
Qed.

(** Four blocks: the header counts describe the flags by position. *)
Definition blocks (u a b c d : list meta) : Prop :=
  u = a ++ b ++ c ++ d /\
  (forall m, In m a -> m_signer m = true /\ m_writable m = true) /\
  (forall m, In m b -> m_signer m = true /\ m_writable m = false) /\
  (forall m, In m c -> m_signer m = false /\ m_writable m = true) /\
  (forall m, In m d -> m_signer m = false /\ m_writable m = false).

Lemma sorted_blocks u : StronglySorted class_le u -> exists a b c d, blocks u a b c d.
Proof.
  intros H. apply sorted_split in H.
  exists (filter (of_class 0) u), (filter (of_class 1) u), (filter (of_class 2) u), (filter (of_class 3) u).
  split; [exact H|].
  repeat split; apply filter_In in H0; destruct H0 as [_ H0]; apply class_flags in H0; now destruct H0.
Qed.

Lemma blocks_filters u a b c d : blocks u a b c d ->
  filter m_signer u = a ++ b /\ filter (fun m => negb (m_signer m)) u = c ++ d /\
  filter (fun m => negb (m_writable m)) (a ++ b) = b /\
  filter (fun m => negb (m_writable m)) (c ++ d) = d.
Proof.
  intros (-> & A & B & Q & D). rewrite !filter_app.
  assert (Ha : forall x, In x a -> m_signer x = true) by (intros; now apply A).
  assert (Hb : forall x, In x b -> m_signer x = true) by (intros; now apply B).
  assert (Hc : forall x, In x c -> m_signer x = false) by (intros; now apply Q).
  assert (Hd : forall x, In x d -> m_signer x = false) by (intros; now apply D).
  split; [|split; [|split]].
  - rewrite (filter_all m_signer a), (filter_all m_signer b), (filter_none m_signer c), (filter_none m_signer d) by assumption.
    now rewrite !app_nil_r.
  - rewrite (filter_none _ a), (filter_none _ b), (filter_all _ c), (filter_all _ d); [reflexivity| | | |];
      intros x I; [rewrite Hd|rewrite Hc|rewrite Hb|rewrite Ha]; auto.
  - rewrite (filter_none _ a), (filter_all _ b); [reflexivity| |]; intros x I.
    + now rewrite (proj2 (B x I)).
    + now rewrite (proj2 (A x I)).
  - rewrite (filter_none _ c), (filter_all _ d); [reflexivity| |]; intros x I.
    + now rewrite (proj2 (D x I)).
    + now rewrite (proj2 (Q x I)).
Qed.

Lemma blocks_at u a b c d i m : blocks u a b c d -> nth_error u i = Some m ->
  m_signer m = (i <? length (a ++ b))%nat /\
  m_writable m = ((i <? length (a ++ b) - length b)%nat
                  || ((length (a ++ b) <=? i)%nat && (i <? length u - length d)%nat)).
Proof.
  intros (-> & A & B & Q & D) H. rewrite !app_length.
  destruct (Nat.lt_ge_cases i (length a)) as [L|L].
  { rewrite nth_error_app1 in H by exact L. apply nth_error_In in H. destruct (A m H) as [-> ->].
    split; symmetry; [apply Nat.ltb_lt; lia|]. apply orb_true_iff. left. apply Nat.ltb_lt. lia. }
  rewrite nth_error_app2 in H by exact L.
  destruct (Nat.lt_ge_cases (i - length a) (length b)) as [L2|L2].
  { rewrite nth_error_app1 in H by exact L2. apply nth_error_In in H. destruct (B m H) as [-> ->].
    split; symmetry; [apply Nat.ltb_lt; lia|]. apply orb_false_iff. split; [apply Nat.ltb_ge; lia|].
    apply andb_false_iff. left. apply Nat.leb_gt. lia. }
  rewrite nth_error_app2 in H by exact L2.
  destruct (Nat.lt_ge_cases (i - length a - length b) (length c)) as [L3|L3].
  { rewrite nth_error_app1 in H by exact L3. apply nth_error_In in H. destruct (Q m H) as [-> ->].
    split; symmetry; [apply Nat.ltb_ge; lia|]. apply orb_true_iff. right. apply andb_true_iff.
    split; [apply Nat.leb_le|apply Nat.ltb_lt]; lia. }
  rewrite nth_error_app2 in H by exact L3. apply nth_error_In in H. destruct (D m H) as [-> ->].
  split; symmetry; [apply Nat.ltb_ge; lia|]. apply orb_false_iff. split; [apply Nat.ltb_ge; lia|].
  apply andb_false_iff. right. apply Nat.ltb_ge. lia.
Qed.

(** ** Indices *)
Lemma index_of_lt ks k : In k ks -> (index_of ks k < length ks)%nat.
Proof.
  induction ks as [|x ks IH]; intros H; [destruct H|]. cbn [index_of length].
  destruct (key_eqb x k) eqn:E; [lia|]. apply key_eqb_false in E.
  destruct H as [->|H]; [congruence|]. specialize (IH H). lia.
Qed.
Lemma index_of_nth ks k d : In k ks -> nth (index_of ks k) ks d = k.
Proof.
  induction ks as [|x ks IH]; intros H; [destruct H|]. cbn [index_of].
  destruct (key_eqb x k) eqn:E; [now apply key_eqb_true|]. apply key_eqb_false in E.
  destruct H as [->|H]; [congruence|]. cbn [nth]. auto.
Qed.
Lemma index_of_inj ks a b : In a ks -> In b ks -> index_of ks a = index_of ks b -> a = b.
Proof. intros A B Q. rewrite <- (index_of_nth ks a zero_key A), Q. now apply index_of_nth. Qed.

Lemma distinct_keys_true ks : NoDup ks -> distinct_keys ks = true.
Proof.
  induction 1 as [|k ks N D IH]; cbn; [reflexivity|]. rewrite IH, andb_true_r.
  apply negb_true_iff, not_true_iff_false. intros H. apply existsb_exists in H.
  destruct H as (y & I & Q). apply key_eqb_true in Q. congruence.
Qed.
