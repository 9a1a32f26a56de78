(** The scripts' transactions reach the runtime as they were meant. *)
From Coq Require Import Permutation.
From Verif Require Export WireBytes.
From Verif Require Import BytesFacts LedgerFacts Cpi.
Import List ListNotations.
Open Scope list_scope.
Open Scope Z_scope.

Definition compiled_calls (keys : list pubkey) (ixs : list built) :=
  map (fun b => (index_of keys (b_program b),
                 map (fun m => index_of keys (m_key m)) (b_accounts b), b_data b)) ixs.

Lemma compile_is before hash payer signers ixs :
  (forall k, In k signers -> must_sign payer ixs k) ->
  let u := key_list before payer ixs in
  exists a b c d, blocks u a b c d /\
    compile_message before hash payer signers ixs =
    Some (Message (length (a ++ b)) (length b) (length d) (map m_key u) hash
            (compiled_calls (map m_key u) ixs)).
Proof.
  intros H u. destruct (key_list_ok before payer ixs) as (_ & S & _).
  destruct (sorted_blocks _ S) as (a & b & c & d & B). exists a, b, c, d. split; [exact B|].
  unfold compile_message. fold (key_list before payer ixs). rewrite key_list_marked by exact H.
  cbn [obind]. destruct (blocks_filters _ _ _ _ _ B) as (F1 & F2 & F3 & F4).
  rewrite F1, F2, F3, F4. destruct B as (B & _). unfold u, compiled_calls.
  replace (map m_key (a ++ b) ++ map m_key (c ++ d)) with (map m_key (key_list before payer ixs));
    [reflexivity|].
  rewrite B. now rewrite <- map_app, <- app_assoc.
Qed.

Lemma blocks_signers u a b c d k : blocks u a b c d ->
  firstn (length (a ++ b)) (map m_key u) = map m_key (a ++ b) /\
  (In k (map m_key (a ++ b)) <-> exists m, In m u /\ m_key m = k /\ m_signer m = true).
Proof.
  intros B. pose proof (blocks_filters _ _ _ _ _ B) as (F1 & _). destruct B as (B & _). split.
  - rewrite B, app_assoc, map_app, firstn_app, map_length, Nat.sub_diag. cbn [firstn].
    rewrite app_nil_r. rewrite <- (map_length m_key (a ++ b)) at 1. apply firstn_all.
  - rewrite <- F1. split.
    + intros I. apply in_map_iff in I. destruct I as (m & Q & I). apply filter_In in I. exists m. tauto.
    + intros (m & I & Q & S). apply in_map_iff. exists m. split; [exact Q|]. apply filter_In. auto.
Qed.

Lemma must_sign_named payer ixs k : must_sign payer ixs k -> is_named payer ixs k.
Proof. intros [->|(b & m & A & B & Q & _)]; unfold is_named; [auto|eauto 8]. Qed.

(** The keys in the first places are those that must sign. *)
Lemma required_are before payer ixs a b c d :
  blocks (key_list before payer ixs) a b c d ->
  lists (map m_key (a ++ b)) (must_sign payer ixs).
Proof.
  intros B. destruct (key_list_ok before payer ixs) as (N & _ & K & F). split.
  - destruct (blocks_filters _ _ _ _ _ B) as (F1 & _). rewrite <- F1. now apply filter_map_nodup.
  - intros k. rewrite (proj2 (blocks_signers _ _ _ _ _ k B)). split.
    + intros (m & I & <- & S). now apply (F m I).
    + intros M. pose proof (must_sign_named _ _ _ M) as Z. apply K in Z. apply in_map_iff in Z.
      destruct Z as (m & Q & I). exists m. split; [exact I|split; [exact Q|]]. apply (F m I). now rewrite Q.
Qed.

Lemma lists_length ks ks' P : lists ks P -> lists ks' P -> length ks = length ks'.
Proof.
  intros [N A] [N' A']. apply Permutation_length. apply NoDup_Permutation; [assumption|assumption|].
  intros k. rewrite A, A'. tauto.
Qed.

Lemma payer_is fee signers payer :
  is_payer fee signers payer ->
  match fee with Some p => Some p | None => head signers end = Some payer.
Proof. intros [->|[-> (r & ->)]]; reflexivity. Qed.

(** What [wire] computes. *)
Lemma wire_is before signature hash fee signers ixs payer :
  is_payer fee signers payer ->
  (forall k, In k signers -> must_sign payer ixs k) ->
  let u := key_list before payer ixs in
  exists a b c d, blocks u a b c d /\
  let m := Message (length (a ++ b)) (length b) (length d) (map m_key u) hash
             (compiled_calls (map m_key u) ixs) in
  wire before signature hash fee signers ixs =
  if negb (forallb (fun k => existsb (key_eqb k) signers) (map m_key (a ++ b))) then None else
  let dd := short_len (length (a ++ b))
           ++ flat_map (fun k => signature k (message_bytes m)) (map m_key (a ++ b)) ++ message_bytes m in
  if (packet_size <? length dd)%nat then None else Some dd.
Proof.
  intros P H u. destruct (compile_is before hash payer signers ixs H) as (a & b & c & d & B & Q).
  exists a, b, c, d. split; [exact B|]. intros m. unfold wire. rewrite (payer_is _ _ _ P). cbn [obind].
  rewrite Q. cbn [obind num_signatures msg_keys]. fold u m.
  pose proof (proj1 (blocks_signers _ _ _ _ _ zero_key B)) as R. fold u in R. rewrite R.
  rewrite map_length. reflexivity.
Qed.

Lemma all_signed signers req :
  forallb (fun k => existsb (key_eqb k) signers) req = true <-> forall k, In k req -> In k signers.
Proof.
  rewrite forallb_forall. split; intros H k I; specialize (H k I).
  - apply existsb_exists in H. destruct H as (x & X & Q). apply key_eqb_true in Q. congruence.
  - apply existsb_exists. exists k. now rewrite key_eqb_refl.
Qed.

Lemma packet_size_is (signature : pubkey -> list byte -> list byte) (m : message) req (ks : list pubkey) ixs
    (ss : list pubkey) :
  (forall k d, length (signature k d) = 64%nat) -> length req = length ss -> length (msg_keys m) = length ks ->
  msg_calls m = compiled_calls (msg_keys m) ixs ->
  length (short_len (length req) ++ flat_map (fun k => signature k (message_bytes m)) req ++ message_bytes m)
  = packet_length ss ks ixs.
Proof.
  intros S R K Q. rewrite !app_length, short_len_length, message_length.
  rewrite (flat_map_length_const _ _ 64%nat) by (intros; apply S).
  rewrite R, K, Q. unfold compiled_calls at 2. rewrite calls_length. unfold compiled_calls. rewrite map_length.
  unfold packet_length. unfold list_size at 2. lia.
Qed.

Theorem wire_sent before signature hash fee signers ixs payer ss ks :
  (forall k d, length (signature k d) = 64%nat) ->
  is_payer fee signers payer ->
  (forall k, In k signers -> must_sign payer ixs k) ->
  lists ss (must_sign payer ixs) -> lists ks (is_named payer ixs) ->
  (exists d, wire before signature hash fee signers ixs = Some d) <->
  (forall k, In k ss -> In k signers) /\ (packet_length ss ks ixs <= 1232)%nat.
Proof.
  intros S P H Ls Lk.
  destruct (wire_is before signature hash fee signers ixs payer P H) as (a & b & c & d & B & Q).
  cbv zeta in Q. rewrite Q. clear Q.
  pose proof (required_are _ _ _ _ _ _ _ B) as Lr.
  destruct (key_list_ok before payer ixs) as (N & _ & K & _).
  pose proof (lists_length _ _ _ Lr Ls) as Es.
  pose proof (lists_length _ _ _ (conj N K) Lk) as Ek.
  rewrite <- (map_length m_key (a ++ b)).
  erewrite packet_size_is; [|exact S|exact Es|exact Ek|reflexivity].
  assert (Z : forallb (fun k => existsb (key_eqb k) signers) (map m_key (a ++ b)) = true <->
              forall k, In k ss -> In k signers).
  { rewrite all_signed. destruct Lr as [_ Lr], Ls as [_ Ls].
    split; intros G k I; apply G; [now apply Lr, Ls|now apply Ls, Lr]. }
  destruct (forallb _ _); cbn [negb].
  - destruct (Nat.ltb_spec packet_size (packet_length ss ks ixs)); change packet_size with 1232%nat in *.
    + split; [intros (x & X); discriminate|lia].
    + split; [|eauto]. intros _. split; [now apply Z|lia].
  - split; [intros (x & X); discriminate|]. intros [G _]. apply Z in G. discriminate.
Qed.

Theorem wire_length before signature hash fee signers ixs payer ss ks d :
  (forall k d, length (signature k d) = 64%nat) ->
  is_payer fee signers payer ->
  (forall k, In k signers -> must_sign payer ixs k) ->
  lists ss (must_sign payer ixs) -> lists ks (is_named payer ixs) ->
  wire before signature hash fee signers ixs = Some d ->
  length d = packet_length ss ks ixs.
Proof.
  intros S P H Ls Lk W.
  destruct (wire_is before signature hash fee signers ixs payer P H) as (a & b & c & e & B & Q).
  cbv zeta in Q. rewrite Q in W. clear Q.
  pose proof (required_are _ _ _ _ _ _ _ B) as Lr.
  destruct (key_list_ok before payer ixs) as (N & _ & K & _).
  pose proof (lists_length _ _ _ Lr Ls) as Es.
  pose proof (lists_length _ _ _ (conj N K) Lk) as Ek.
  destruct (negb _); [discriminate|]. destruct (_ <? _)%nat; [discriminate|].
  apply (f_equal (fun o => match o with Some x => length x | None => 0%nat end)) in W. cbv beta iota in W.
  rewrite <- W, <- (map_length m_key (a ++ b)). now apply packet_size_is.
Qed.

(** ** Reading back *)
Lemma signed_by_own signature verify d ks :
  (forall k, In k ks -> verify k d (signature k d) = true) ->
  signed_by verify d ks (map (fun k => signature k d) ks) = true.
Proof.
  induction ks as [|k ks IH]; intros H; [reflexivity|]. cbn. rewrite IH, andb_true_r; [apply H; now left|].
  intros x I. apply H. now right.
Qed.

Lemma nth_key u i m : nth_error u i = Some m -> nth i (map m_key u) zero_key = m_key m.
Proof.
  intros H. apply nth_error_nth. now apply map_nth_error.
Qed.

Lemma key_found u k : In k (map m_key u) ->
  exists m, nth_error u (index_of (map m_key u) k) = Some m /\ In m u /\ m_key m = k.
Proof.
  intros I. pose proof (index_of_lt _ _ I) as L. rewrite map_length in L.
  destruct (nth_error u (index_of (map m_key u) k)) as [m|] eqn:E.
  - exists m. split; [reflexivity|]. split; [now apply nth_error_In in E|].
    rewrite <- (nth_key _ _ _ E). now apply index_of_nth.
  - apply nth_error_None in E. lia.
Qed.

Lemma legacy_first {A} (x y : option A) z : x = Some z -> match x with Some g => Some g | None => y end = Some z.
Proof. now intros ->. Qed.

Theorem wire_arrives_as before signature verify reserved tables hash fee signers ixs payer d :
  signs_well signature verify signers ->
  is_payer fee signers payer -> ~ is_called ixs payer ->
  (forall k, In k signers -> must_sign payer ixs k) ->
  wire before signature hash fee signers ixs = Some d ->
  exists got, (receive verify reserved tables d = Some got /\ arrives reserved payer ixs got) /\
  exists sigs m, take_list (take_bytes 64) d = Some (sigs, message_bytes m) /\ small_message m /\
    head (msg_keys m) = Some payer /\
    exists ss, lists ss (must_sign payer ixs) /\ num_signatures m = length ss.
Proof.
  intros S P NP H W.
  assert (S64 : forall k d, length (signature k d) = 64%nat) by (intros k x; exact (proj1 (S k x))).
  destruct (wire_is before signature hash fee signers ixs payer P H) as (a & b & c & e & B & Q).
  cbv zeta in Q. rewrite Q in W. clear Q.
  destruct (key_list_ok before payer ixs) as (N & _ & K & F).
  pose proof (required_are _ _ _ _ _ _ _ B) as Lr.
  pose proof (fun i m => blocks_at _ _ _ _ _ i m B) as At.
  pose proof (proj1 (blocks_signers _ _ _ _ _ zero_key B)) as Hreq.
  assert (Hlu : (length (a ++ b) + length e <= length (key_list before payer ixs))%nat).
  { destruct B as (-> & _). rewrite !app_length. lia. }
  assert (Hba : (length b < length (a ++ b))%nat).
  { destruct a as [|x a]; [|rewrite app_length; cbn [length]; lia]. exfalso.
    destruct B as (Bq & _ & B2 & B3 & B4). cbn [app] in Bq.
    assert (I : In (Meta payer true true) (key_list before payer ixs)) by now left.
    rewrite Bq in I. rewrite !in_app_iff in I. destruct I as [I|[I|I]].
    - apply B2 in I. destruct I; discriminate.
    - apply B3 in I. destruct I; discriminate.
    - apply B4 in I. destruct I; discriminate. }
  set (u := key_list before payer ixs) in *. set (keys := map m_key u) in *.
  set (m := Message (length (a ++ b)) (length b) (length e) keys hash (compiled_calls keys ixs)) in *.
  destruct (negb _) eqn:Sg; [discriminate|].
  destruct (Nat.ltb_spec packet_size (length (short_len (length (a ++ b)) ++
     flat_map (fun k => signature k (message_bytes m)) (map m_key (a ++ b)) ++ message_bytes m)))
    as [Big|Fits]; [discriminate|].
  apply (f_equal (fun o => match o with Some x => x | None => [] end)) in W. cbv beta iota in W. subst d.
  set (req := map m_key (a ++ b)) in *.
  assert (Lreq : length req = length (a ++ b)) by apply map_length.
  (* sizes *)
  pose proof Fits as Sz. rewrite !app_length, message_length in Sz. cbn [msg_keys msg_calls m] in Sz.
  unfold compiled_calls in Sz at 2. rewrite calls_length in Sz. change packet_size with 1232%nat in Sz.
  assert (Lk : (length keys <= 38)%nat) by (unfold list_size in Sz; lia).
  assert (Lku : length keys = length u) by apply map_length.
  assert (Ls : (length (a ++ b) <= 38)%nat) by lia.
  pose proof (sum_count ixs) as Ct.
  assert (Hin : forall k, is_named payer ixs k -> In k keys) by (intros k; apply K).
  assert (Hprog : forall x, In x ixs -> In (b_program x) keys).
  { intros x I. apply Hin. right; left. exists x. auto. }
  assert (Hacc : forall x y, In x ixs -> In y (b_accounts x) -> In (m_key y) keys).
  { intros x y I J. apply Hin. right; right. eauto. }
  assert (Sm : small_message m).
  { unfold small_message. cbn [num_signatures num_readonly_signed num_readonly_unsigned msg_keys msg_calls m].
    split; [lia|split; [lia|split; [lia|split; [lia|split]]]].
    - unfold compiled_calls. rewrite map_length. lia.
    - intros x I. unfold compiled_calls in I. apply in_map_iff in I. destruct I as (y & <- & I).
      pose proof (sum_bounds _ _ I) as Sb.
      pose proof (eq_refl (call_size y)) as Sc. unfold call_size at 1 in Sc. unfold list_size in Sc.
      unfold small_call. split; [pose proof (index_of_lt _ _ (Hprog y I)); lia|]. split; [|split].
      + intros i J. apply in_map_iff in J. destruct J as (z & <- & J).
        pose proof (index_of_lt _ _ (Hacc y z I J)). lia.
      + rewrite map_length. lia.
      + lia. }
  assert (Rd : take_list (take_bytes 64)
     (short_len (length req) ++ flat_map (fun k => signature k (message_bytes m)) req ++ message_bytes m)
     = Some (map (fun k => signature k (message_bytes m)) req, message_bytes m)).
  { pose proof (take_list_app (take_bytes 64) (fun s => s)
      (map (fun k => signature k (message_bytes m)) req) (message_bytes m)) as T.
    rewrite map_length in T. rewrite flat_map_concat_map, map_id, <- flat_map_concat_map in T.
    apply T; [lia|]. intros x s I. apply in_map_iff in I. destruct I as (k & <- & _).
    apply take_bytes_app. apply S64. }
  (* reading *)
  exists (map (received_call reserved m) (msg_calls m)). split.
  2:{ exists (map (fun k => signature k (message_bytes m)) req), m. rewrite <- Lreq. split; [exact Rd|].
      split; [exact Sm|]. split; [reflexivity|]. exists req. split; [exact Lr|]. symmetry; exact Lreq. }
  split.
  - unfold receive. apply legacy_first. unfold receive_legacy.
    destruct (Nat.ltb_spec packet_size (length (short_len (length (a ++ b)) ++
      flat_map (fun k => signature k (message_bytes m)) req ++ message_bytes m))) as [Z|_]; [lia|].
    rewrite <- Lreq.
    rewrite Rd. cbn [obind fst snd]. rewrite take_message_bytes by exact Sm. cbn [obind fst snd].
    rewrite map_length.
    replace (sane (length req) m) with true.
    2:{ symmetry. unfold sane. cbn [num_signatures num_readonly_signed num_readonly_unsigned msg_keys msg_calls m].
        rewrite !andb_true_iff. split; [split; [split; [split|]|]|].
        - apply Nat.eqb_eq. exact Lreq.
        - apply Nat.leb_le. lia.
        - apply Nat.ltb_lt. exact Hba.
        - apply forallb_forall. intros x I. unfold compiled_calls in I. apply in_map_iff in I.
          destruct I as (y & <- & I). rewrite !andb_true_iff. split; [split|].
          + apply Nat.ltb_lt. now apply index_of_lt, Hprog.
          + apply negb_true_iff, Nat.eqb_neq. intros Z.
            apply NP. exists y. split; [exact I|].
            pose proof (index_of_nth _ _ zero_key (Hprog y I)) as G. rewrite Z in G.
            rewrite <- G. reflexivity.
          + apply forallb_forall. intros i J. apply in_map_iff in J. destruct J as (z & <- & J).
            apply Nat.ltb_lt. apply index_of_lt. eauto.
        - now apply distinct_keys_true. }
    cbn [num_signatures msg_keys m]. fold m. rewrite Hreq, signed_by_own; [reflexivity|].
    intros k I. apply S. apply negb_false_iff in Sg. exact (proj1 (all_signed _ _) Sg k I).
  - cbn [msg_calls m]. unfold arrives.
    assert (G : forall xs, (forall x, In x xs -> In x ixs) ->
      Forall2 (fun b0 b' => b_program b' = b_program b0 /\ b_data b' = b_data b0 /\
        Forall2 (fun m0 m' => m_key m' = m_key m0 /\
          (m_signer m' = true <-> must_sign payer ixs (m_key m0)) /\
          (m_writable m' = true <-> is_written reserved payer ixs (m_key m0)))
          (b_accounts b0) (b_accounts b')) xs (map (received_call reserved m) (compiled_calls keys xs))).
    { intros xs. induction xs as [|x xs IH]; intros Sub; [constructor|]. cbn [compiled_calls map].
      constructor; [|apply IH; intros; apply Sub; now right].
      assert (Ix : In x ixs) by (apply Sub; now left). clear IH Sub.
      cbn [received_call b_program b_data b_accounts]. unfold key_at at 1. cbn [msg_keys m].
      split; [now apply index_of_nth, Hprog|]. split; [reflexivity|].
      assert (G : forall ys, (forall y, In y ys -> In y (b_accounts x)) ->
        Forall2 (fun m0 m' => m_key m' = m_key m0 /\
          (m_signer m' = true <-> must_sign payer ixs (m_key m0)) /\
          (m_writable m' = true <-> is_written reserved payer ixs (m_key m0))) ys
          (map (fun i => Meta (key_at m i) (signer_at m i) (writable_at reserved m i))
               (map (fun m0 => index_of keys (m_key m0)) ys))).
      { intros ys. induction ys as [|y ys IH]; intros Sub; [constructor|]. cbn [map].
        constructor; [|apply IH; intros; apply Sub; now right].
        assert (Iy : In y (b_accounts x)) by (apply Sub; now left). clear IH Sub.
        cbn [m_key m_signer m_writable]. pose proof (Hacc x y Ix Iy) as Ik.
        destruct (key_found u (m_key y) Ik) as (z & Z1 & Z2 & Z3). fold keys in Z1.
        destruct (At _ _ Z1) as [A1 A2]. destruct (F z Z2) as [F1 F2]. rewrite Z3 in F1, F2.
        unfold key_at, signer_at, writable_at. cbn [msg_keys num_signatures num_readonly_signed num_readonly_unsigned m].
        rewrite index_of_nth by exact Ik. split; [reflexivity|].
        rewrite <- A1. split; [exact F1|].
        unfold key_at. cbn [msg_keys msg_calls m].
        rewrite index_of_nth by exact Ik. rewrite Lku, <- A2.
        rewrite !andb_true_iff, !negb_true_iff. unfold is_written. rewrite F2.
        assert (Pc : existsb (fun c0 => (fst (fst c0) =? index_of keys (m_key y))%nat) (compiled_calls keys ixs) = true
                     <-> is_called ixs (m_key y)).
        { rewrite existsb_exists. unfold compiled_calls. split.
          - intros (c0 & I & E). apply in_map_iff in I. destruct I as (w & <- & I). cbn [fst] in E.
            apply Nat.eqb_eq in E. apply index_of_inj in E; [|now apply Hprog|exact Ik]. exists w. auto.
          - intros (w & I & E). eexists. split; [apply in_map_iff; exists w; split; [reflexivity|exact I]|].
            cbn [fst]. rewrite E. apply Nat.eqb_refl. }
        assert (Pl : existsb (key_eqb upgradeable_loader) keys = true <-> is_named payer ixs upgradeable_loader).
        { rewrite existsb_exists, <- K. fold u keys. split.
          - intros (w & I & E). apply key_eqb_true in E. now subst w.
          - intros I. exists upgradeable_loader. split; [exact I|apply key_eqb_refl]. }
        destruct (existsb (fun c0 => _) _), (existsb (key_eqb upgradeable_loader) keys); cbn [andb negb] in *;
          intuition congruence. }
      apply G. auto. }
    apply G. auto.
Qed.
Theorem wire_arrives before signature verify reserved tables hash fee signers ixs payer d :
  signs_well signature verify signers ->
  is_payer fee signers payer -> ~ is_called ixs payer ->
  (forall k, In k signers -> must_sign payer ixs k) ->
  wire before signature hash fee signers ixs = Some d ->
  exists got, receive verify reserved tables d = Some got /\ arrives reserved payer ixs got.
Proof.
  intros S P NP H W.
  destruct (wire_arrives_as before signature verify reserved tables hash fee signers ixs payer d S P NP H W)
    as (got & R & _). now exists got.
Qed.

(** ** Who must and who may sign *)
Lemma mark_signer_named u k v : mark_signer u k = Some v ->
  In k (map m_key u) /\ map m_key v = map m_key u /\
  forall m, In m u -> m_signer m = true -> exists m', In m' v /\ m_key m' = m_key m /\ m_signer m' = true.
Proof.
  revert v. induction u as [|x u IH]; intros v H; cbn [mark_signer] in H; [discriminate|].
  destruct (key_eqb (m_key x) k) eqn:E.
  - apply key_eqb_true in E. injection H as <-. cbn [map m_key]. split; [now left|]. split; [reflexivity|].
    intros m [<-|I] S; [eexists; split; [now left|now split]|exists m; split; [now right|auto]].
  - destruct (mark_signer u k) as [r|]; [|discriminate]. cbn [obind] in H. injection H as <-.
    destruct (IH _ eq_refl) as (A & B & F). cbn [map]. split; [now right|]. split; [now rewrite B|].
    intros m [<-|I] S; [exists x; split; [now left|auto]|].
    destruct (F m I S) as (m' & I' & Q). exists m'. split; [now right|exact Q].
Qed.
Lemma mark_signers_named ks : forall u v, mark_signers u ks = Some v ->
  (forall k, In k ks -> In k (map m_key u)) /\
  forall m, In m u -> m_signer m = true -> exists m', In m' v /\ m_key m' = m_key m /\ m_signer m' = true.
Proof.
  induction ks as [|k ks IH]; intros u v H; cbn [mark_signers] in H.
  - injection H as <-. split; [intros k []|]. intros m I S. exists m. auto.
  - destruct (mark_signer u k) as [w|] eqn:M; [|discriminate]. cbn [obind] in H.
    destruct (mark_signer_named _ _ _ M) as (A & B & F). destruct (IH _ _ H) as [A' F']. split.
    + intros k' [<-|I]; [exact A|]. rewrite <- B. auto.
    + intros m I S. destruct (F m I S) as (m' & I' & Q' & S'). destruct (F' m' I' S') as (m2 & I2 & Q2 & S2).
      exists m2. split; [exact I2|]. split; [congruence|exact S2].
Qed.
Theorem wire_signers before signature hash fee signers ixs payer d :
  is_payer fee signers payer -> wire before signature hash fee signers ixs = Some d ->
  (forall k, In k signers -> is_named payer ixs k) /\ (forall k, must_sign payer ixs k -> In k signers).
Proof.
  intros P H. unfold wire in H.
  replace (match fee with Some p => Some p | None => head signers end) with (Some payer) in H
    by (destruct P as [->|(-> & rest & ->)]; reflexivity).
  cbn [obind] in H. destruct (compile_message before hash payer signers ixs) as [m|] eqn:M; [|discriminate].
  cbn [obind] in H. cbv zeta in H.
  destruct (forallb _ _) eqn:R; [|discriminate]. cbn [negb] in H. clear H.
  unfold compile_message in M. fold (key_list before payer ixs) in M.
  destruct (mark_signers (key_list before payer ixs) signers) as [u|] eqn:U; [|discriminate].
  cbn [obind] in M. injection M as <-. cbn [num_signatures msg_keys] in R.
  destruct (key_list_ok before payer ixs) as (_ & _ & K & F). destruct (mark_signers_named _ _ _ U) as [A B]. split.
  - intros k I. apply K. now apply A.
  - intros k S. assert (N : is_named payer ixs k).
    { unfold is_named. destruct S as [->|(b & m & X & Y & Q & _)]; [auto|]. eauto 8. }
    apply K in N. apply in_map_iff in N. destruct N as (m & <- & I).
    destruct (B m I) as (m' & I' & Q' & S'); [now apply (F m I)|].
    rewrite <- (map_length m_key (filter m_signer u)), firstn_app, firstn_all, Nat.sub_diag, firstn_O, app_nil_r in R.
    rewrite forallb_forall in R. specialize (R (m_key m)).
    assert (T : existsb (key_eqb (m_key m)) signers = true).
    { apply R. rewrite <- Q'. apply in_map, filter_In. auto. }
    rewrite existsb_exists in T. destruct T as (x & Ix & Ex). apply key_eqb_true in Ex. now subst x.
Qed.
