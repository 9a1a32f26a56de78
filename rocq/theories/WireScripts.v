(** The transactions of the scripts: they fit, and their calls arrive. *)
From Verif Require Export WireRuntime WirePrivileges.
From Verif Require Import BytesFacts LedgerFacts.
Import List ListNotations.
Open Scope list_scope.
Open Scope Z_scope.

(** ** Sizes *)
Definition entries (ixs : list built) : nat := list_sum (map (fun b => S (length (b_accounts b))) ixs).
Definition bulk (ixs : list built) : nat :=
  list_sum (map (fun b => 7 + length (b_accounts b) + length (b_data b))%nat ixs).

Lemma len_size_3 n : (len_size n <= 3)%nat.
Proof. unfold len_size. destruct (_ <? _); [lia|]. destruct (_ <? _); lia. Qed.

Lemma calls_bulk ixs : (list_sum (map call_size ixs) <= bulk ixs)%nat.
Proof.
  unfold bulk. induction ixs as [|b ixs IH]; [reflexivity|]. cbn [map list_sum fold_right].
  unfold call_size at 1, list_size.
  pose proof (len_size_3 (length (b_accounts b))). pose proof (len_size_3 (length (b_data b))).
  unfold list_sum in IH. lia.
Qed.

Definition named_list (payer : pubkey) (ixs : list built) : list pubkey :=
  payer :: flat_map (fun b => b_program b :: map m_key (b_accounts b)) ixs.

Lemma named_in payer ixs k : is_named payer ixs k -> In k (named_list payer ixs).
Proof.
  unfold is_named, named_list. intros [->|[(b & I & <-)|(b & m & I & J & <-)]]; [now left| |];
    right; apply in_flat_map; exists b; (split; [exact I|]); [now left|].
  right. now apply in_map.
Qed.

Lemma named_length payer ixs : length (named_list payer ixs) = S (entries ixs).
Proof.
  unfold named_list, entries. cbn [length]. f_equal. induction ixs as [|b ixs IH]; [reflexivity|].
  cbn [flat_map map list_sum fold_right length app]. rewrite app_length, map_length, IH. reflexivity.
Qed.

(** A transaction whose signers are those it asks for is sent if it is small. *)
Theorem small_sent before signature hash fee signers ixs payer :
  (forall k d, length (signature k d) = 64%nat) ->
  is_payer fee signers payer ->
  (forall k, In k signers <-> must_sign payer ixs k) ->
  (3 + 64 * length signers + 6 + 32 * S (entries ixs) + 35 + bulk ixs <= 1232)%nat ->
  exists d, wire before signature hash fee signers ixs = Some d.
Proof.
  intros Sg P H L.
  destruct (key_list_ok before payer ixs) as (N & So & K & _).
  destruct (sorted_blocks _ So) as (a & b & c & e & B).
  pose proof (required_are _ _ _ _ _ _ _ B) as Lr.
  set (ss := map m_key (a ++ b)) in *. set (ks := map m_key (key_list before payer ixs)) in *.
  apply (wire_sent before signature hash fee signers ixs payer ss ks Sg P); [intros k I; now apply H|exact Lr|split; assumption|].
  split; [intros k I; now apply H, Lr|].
  assert (L1 : (length ss <= length signers)%nat).
  { apply NoDup_incl_length; [apply Lr|]. intros k I. now apply H, Lr. }
  assert (L2 : (length ks <= S (entries ixs))%nat).
  { rewrite <- (named_length payer ixs). apply NoDup_incl_length; [exact N|]. intros k I.
    now apply named_in, K. }
  unfold packet_length, list_size. pose proof (len_size_3 (length ss)). pose proof (len_size_3 (length ks)).
  pose proof (len_size_3 (length ixs)). pose proof (calls_bulk ixs). lia.
Qed.

(** ** The scripts' instructions *)
Lemma js_u64_length z x : js_u64 z = Some x -> length x = 8%nat.
Proof. unfold js_u64. destruct (_ || _); [discriminate|]. intros Q. replace x with (le_enc 8 z) by congruence. apply le_enc_length. Qed.
Lemma js_i64_length z x : js_i64 z = Some x -> length x = 8%nat.
Proof. unfold js_i64. destruct (_ || _); [discriminate|]. intros Q. replace x with (le_enc 8 z) by congruence. apply le_enc_length. Qed.
Lemma js_u8_length z x : js_u8 z = Some x -> length x = 1%nat.
Proof. unfold js_u8. destruct (js_outside _ _ _); [discriminate|]. intros Q. replace x with [js_uint8 z] by congruence. reflexivity. Qed.

(** What all of them have in common. *)
Definition tidy (signers : list pubkey) (ixs : list built) : Prop :=
  (forall k, privileged m_signer ixs k -> In k signers) /\
  (forall k, In k signers -> privileged m_signer ixs k) /\
  (length signers <= 2)%nat /\ (entries ixs <= 17)%nat /\ (bulk ixs <= 200)%nat.

Definition harmless (u : pubkey) (pre : list built) : Prop :=
  pre = [] \/ exists ata wallet mint,
    pre = [Built script_ata_id
        [Meta u true true; Meta ata false true; Meta wallet false false; Meta mint false false;
         Meta script_system_id false false; Meta script_token_id false false] []].

Lemma create_harmless E l payer k owner mint rest ixs :
  instructions_of (create_if_missing E l payer k owner mint ++ rest) = Some ixs ->
  exists pre tail, ixs = pre ++ tail /\ harmless payer pre /\ instructions_of rest = Some tail.
Proof.
  unfold create_if_missing. destruct (rpc_get l k).
  - cbn [app]. intros H. exists [], ixs. split; [reflexivity|]. split; [now left|exact H].
  - cbn [app instructions_of instruction_of obind]. intros H. apply obind_some in H. destruct H as (t & H & Q).
    exists [Built script_ata_id
        [Meta payer true true; Meta k false true; Meta owner false false; Meta mint false false;
         Meta script_system_id false false; Meta script_token_id false false] []], t.
    split; [cbn [app]; congruence|]. split; [right; eauto|exact H].
Qed.

Lemma signer_cases u ixs : 
  Forall (fun b => Forall (fun m => m_signer m = true -> m_key m = u) (b_accounts b)) ixs ->
  forall k, privileged m_signer ixs k -> In k [u].
Proof.
  intros H k (b & m & I & J & Q & S). rewrite Forall_forall in H. specialize (H b I).
  rewrite Forall_forall in H. left. rewrite <- Q. symmetry. now apply H.
Qed.

Ltac no_more := repeat first [apply Forall_nil | apply Forall_cons; [cbn; congruence|]].

Lemma one_signer u pre b :
  harmless u pre ->
  Forall (fun m => m_signer m = true -> m_key m = u) (b_accounts b) ->
  (exists m, In m (b_accounts b) /\ m_key m = u /\ m_signer m = true) ->
  (length (b_accounts b) <= 9)%nat -> (length (b_data b) <= 40)%nat ->
  tidy [u] (pre ++ [b]).
Proof.
  intros H F (m & I & Q & S) La Ld. split; [|split; [|split; [|split]]].
  - apply signer_cases. apply Forall_app. split; [|now repeat constructor].
    destruct H as [->|(x & y & z & ->)]; [constructor|]. constructor; [|constructor]. cbn [b_accounts]. no_more.
  - intros k [<-|[]]. exists b, m. split; [apply in_app_iff; right; now left|auto].
  - cbn. lia.
  - unfold entries. rewrite map_app, list_sum_app. cbn [map list_sum fold_right].
    destruct H as [->|(x & y & z & ->)]; cbn; lia.
  - unfold bulk. rewrite map_app, list_sum_app. cbn [map list_sum fold_right].
    destruct H as [->|(x & y & z & ->)]; cbn; lia.
Qed.

Ltac opened H := repeat (apply obind_some in H; destruct H as (? & ? & H)).
Ltac lengths := repeat match goal with
  | H : js_u64 _ = Some _ |- _ => apply js_u64_length in H
  | H : js_i64 _ = Some _ |- _ => apply js_i64_length in H
  | H : js_u8 _ = Some _ |- _ => apply js_u8_length in H
  end.
Ltac built_in H := match type of H with Some ?x = Some ?y => assert (y = x) by congruence; subst y; clear H end.
Ltac single := apply one_signer; cbn [b_accounts b_data];
  [assumption|no_more|eexists; split; [left; reflexivity|split; reflexivity]|cbn; lia
  |rewrite ?app_length, ?key_bytes_length; cbn; lia].

Lemma send_last E b : instructions_of [send E b] = Some [Built script_xorca_id (b_accounts b) (b_data b)].
Proof. reflexivity. Qed.

Lemma none_harmless u : harmless u []. Proof. now left. Qed.

Theorem script_tidy C E l fee signers ixs :
  script_transaction C E l fee signers ixs ->
  tidy signers ixs /\ exists payer, is_payer fee signers payer /\ In payer signers.
Proof.
  intros H. destruct H as [u n ops ixs H Q|u n i ops ixs H Q|u i ops ixs H Q|u c b H|u k b H
    |dep au c ops ixs H Q|u to n ops ixs H Q|u n ops ixs H Q|u ops ixs H Q].
  1-5,7-9: (split; [|exists u; split; [left; reflexivity|now left]]).
  - unfold stake_script in H. opened H. destruct (_ <? _); [discriminate|]. opened H. built_in H.
    apply create_harmless in Q. destruct Q as (pre & t & -> & Hp & Q). rewrite send_last in Q. built_in Q.
    match goal with X : script_stake _ _ _ = Some _ |- _ => unfold script_stake in X; opened X; lengths; built_in X end.
    single.
  - unfold unstake_script in H. opened H. destruct (_ <? _); [discriminate|]. opened H. built_in H.
    apply create_harmless in Q. destruct Q as (pre & t & -> & Hp & Q). rewrite send_last in Q. built_in Q.
    match goal with X : script_unstake _ _ _ _ = Some _ |- _ => unfold script_unstake in X; opened X; lengths; built_in X end.
    single.
  - unfold withdraw_script in H. opened H. destruct (_ <? _)%nat; [discriminate|]. opened H. built_in H.
    apply create_harmless in Q. destruct Q as (pre & t & -> & Hp & Q). rewrite send_last in Q. built_in Q.
    match goal with X : script_withdraw _ _ _ = Some _ |- _ => unfold script_withdraw in X; opened X; lengths; built_in X end.
    single.
  - unfold script_set_cooldown in H. opened H. destruct (_ <? _); [discriminate|]. opened H. lengths. built_in H.
    pose proof (none_harmless u). change [?b] with ([] ++ [b]). single.
  - unfold script_set_authority in H. opened H. built_in H.
    pose proof (none_harmless u). change [?b] with ([] ++ [b]). single.
  - unfold transfer_script in H. opened H. destruct (_ <? _); [discriminate|]. opened H. lengths. built_in H.
    apply create_harmless in Q. destruct Q as (pre & t & -> & Hp & Q). cbn [instructions_of instruction_of obind] in Q. built_in Q.
    apply one_signer; cbn [b_accounts b_data]; [assumption|no_more|eexists; split; [right; right; left; reflexivity|split; reflexivity]|cbn; lia
      |cbn; lia].
  - unfold deposit_script in H. opened H. destruct (_ <? _); [discriminate|]. opened H. lengths. built_in H.
    cbn [instructions_of instruction_of obind] in Q. built_in Q. pose proof (none_harmless u).
    change [?b] with ([] ++ [b]).
    apply one_signer; cbn [b_accounts b_data]; [assumption|no_more|eexists; split; [right; right; left; reflexivity|split; reflexivity]|cbn; lia
      |cbn; lia].
  - unfold authority_script in H. opened H. built_in H.
    cbn [instructions_of instruction_of obind] in Q. built_in Q. pose proof (none_harmless u).
    change [?b] with ([] ++ [b]).
    apply one_signer; cbn [b_accounts b_data]; [assumption|no_more|eexists; split; [right; left; reflexivity|split; reflexivity]|cbn; lia
      |rewrite app_length, key_bytes_length; cbn; lia].
  - split; [|exists dep; split; [right; split; [reflexivity|eauto]|now left]].
    unfold initialize_script in H. opened H. built_in H. rewrite send_last in Q. built_in Q.
    match goal with X : script_initialize _ _ _ _ = Some _ |- _ => unfold script_initialize in X end.
    destruct (negb _); [discriminate|].
    match goal with X : obind _ _ = Some _ |- _ => opened X; lengths; built_in X end.
    cbn [b_accounts b_data]. split; [|split; [|split; [|split]]].
    + intros k (b & m & [<-|[]] & J & <- & S). cbn [b_accounts] in J. cbn [In] in J.
      repeat (destruct J as [<-|J]; [cbn in *; try discriminate; auto|]). destruct J.
    + intros k [<-|[<-|[]]].
      * eexists _, (Meta dep true true). split; [now left|]. cbn. auto.
      * eexists _, (Meta au true true). split; [now left|]. cbn. auto.
    + cbn. lia.
    + cbn. lia.
    + unfold bulk. cbn [map b_accounts b_data list_sum fold_right]. rewrite app_length. cbn. lia.
Qed.

(** Every transaction of the scripts is sent. *)
Theorem scripts_sent C E l before signature hash fee signers ixs :
  (forall k d, length (signature k d) = 64%nat) ->
  script_transaction C E l fee signers ixs ->
  exists d, wire before signature hash fee signers ixs = Some d.
Proof.
  intros Sg H. apply script_tidy in H. destruct H as ((A & B & L1 & L2 & L3) & payer & P & I).
  apply (small_sent before signature hash fee signers ixs payer Sg P).
  - intros k. split; [intros J; right; now apply B|]. intros [->|J]; [exact I|now apply A].
  - lia.
Qed.

(** ... and its instructions reach their programs with at least the privileges asked for. *)
Theorem scripts_arrive C E l before signature verify reserved tables hash fee signers ixs payer :
  signs_well signature verify signers ->
  script_transaction C E l fee signers ixs -> is_payer fee signers payer ->
  ~ is_called ixs payer ->
  (forall b m, In b ixs -> In m (b_accounts b) -> m_writable m = true ->
     reserved (m_key m) = false /\ ~ is_called ixs (m_key m)) ->
  exists d got,
    wire before signature hash fee signers ixs = Some d /\
    receive verify reserved tables d = Some got /\
    Forall2 (fun b b' => b_program b' = b_program b /\ b_data b' = b_data b /\
                         delivered (b_accounts b) (b_accounts b')) ixs got.
Proof.
  intros Sg H P NC Wr.
  destruct (scripts_sent C E l before signature hash fee signers ixs (fun k x => proj1 (Sg k x)) H) as (d & W).
  apply script_tidy in H. destruct H as ((A & B & _) & _).
  destruct (wire_arrives before signature verify reserved tables hash fee signers ixs payer d Sg P NC) as (got & R & Ar);
    [intros k J; right; now apply B|exact W|].
  exists d, got. split; [exact W|]. split; [exact R|]. unfold arrives in Ar.
  assert (G : forall xs ys, (forall x, In x xs -> In x ixs) ->
    Forall2 (fun b b' => b_program b' = b_program b /\ b_data b' = b_data b /\
      Forall2 (fun m m' => m_key m' = m_key m /\ (m_signer m' = true <-> must_sign payer ixs (m_key m)) /\
        (m_writable m' = true <-> is_written reserved payer ixs (m_key m))) (b_accounts b) (b_accounts b')) xs ys ->
    Forall2 (fun b b' => b_program b' = b_program b /\ b_data b' = b_data b /\
                         delivered (b_accounts b) (b_accounts b')) xs ys).
  { intros xs ys Sub F. induction F as [|x y xs ys (Q1 & Q2 & Q3) F IH]; constructor.
    - split; [exact Q1|]. split; [exact Q2|].
      assert (Ix : In x ixs) by (apply Sub; now left). unfold delivered.
      assert (G : forall ms ms', (forall m, In m ms -> In m (b_accounts x)) ->
        Forall2 (fun m m' => m_key m' = m_key m /\ (m_signer m' = true <-> must_sign payer ixs (m_key m)) /\
        (m_writable m' = true <-> is_written reserved payer ixs (m_key m))) ms ms' ->
        Forall2 (fun m m' => m_key m' = m_key m /\ (m_signer m = true -> m_signer m' = true) /\
                       (m_writable m = true -> m_writable m' = true)) ms ms').
      { intros ms ms' Sm Fm. induction Fm as [|m m' ms ms' (K & S1 & S2) Fm IHm]; constructor.
        - assert (Im : In m (b_accounts x)) by (apply Sm; now left).
          split; [exact K|]. split.
          + intros T. apply S1. right. exists x, m. auto.
          + intros T. apply S2. destruct (Wr x m Ix Im T) as [R1 R2]. split; [right; exists x, m; auto|].
            split; [exact R1|]. intros Z. contradiction.
        - apply IHm. intros z Z. apply Sm. now right. }
      apply G; [auto|exact Q3].
    - apply IH. intros z Z. apply Sub. now right. }
  apply G; [auto|exact Ar].
Qed.

(** A transaction that works with the accounts as the script wrote them works the same
    with the accounts as they arrive. *)
Theorem arrived_runs C ops ixs got l r :
  instructions_of ops = Some ixs ->
  Forall2 (fun b b' => b_program b' = b_program b /\ b_data b' = b_data b /\
                       delivered (b_accounts b) (b_accounts b')) ixs got ->
  attempt_all C l ops = Ok r -> attempt_all C l (redelivered ops got) = Ok r.
Proof.
  revert ixs got l r. induction ops as [|o ops IH]; intros ixs got l r H F A.
  - cbn in H. assert (ixs = []) by congruence. subst ixs. inversion F. subst. exact A.
  - cbn [instructions_of] in H. opened H. built_in H. inversion F as [|b0 b' bs gs (Q1 & Q2 & Q3) F' E1 E2]. subst.
    cbn [attempt_all] in A. destruct (attempt C l o) as [r1|] eqn:A1; [|discriminate]. cbn [bind] in A.
    destruct (attempt_all C (fst r1) ops) as [r2|] eqn:A2; [|discriminate]. cbn [bind] in A.
    change (redelivered (o :: ops) (b' :: gs)) with
      (redelivered_op o b' :: redelivered ops gs).
    cbn [attempt_all].
    replace (attempt C l (redelivered_op o b'))
      with (Ok r1 : res err outcome).
    + cbn [bind]. erewrite IH; [|eassumption|eassumption|exact A2]. cbn [bind]. exact A.
    + symmetry. destruct o; try exact A1. cbn in H0. assert (Built script_xorca_id accounts data = x) by congruence.
      subst x. cbn [b_program b_accounts b_data] in *. cbn [redelivered_op attempt] in *. rewrite Q2.
      eapply privileges_keep; [exact Q3|exact A1].
Qed.
