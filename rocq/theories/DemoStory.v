(** Short continuations of the execution of Demo.v, for the Examples about
    several calls in a row. *)
From Verif Require Import Spec Transaction BytesFacts LedgerFacts HistoryFacts LifeFacts PoolHistory TransactionFacts Demo DemoMore.
From Coq Require Import List.

Definition burn_story : list op := [
  (* bob gives their xORCA account to the incinerator, alice sends it one unit *)
  OpToken (demo_env 1250) [bob] [] (TC_SetAuthority bob_xorca bob AccountOwner (Some incinerator_id));
  OpToken (demo_env 1250) [alice] [] (TC_Transfer alice_xorca bob_xorca alice 1);
  (* alice leaves *)
  demo_call 1260 (unstake_accs alice alice_xorca alice_record) (Unstake 4999999 0);
  demo_call 1360 (withdraw_accs alice alice_orca alice_record) (Withdraw 0);
  (* anyone burns the last unit *)
  OpToken (demo_env 1370) [] [] (TC_Burn bob_xorca xorca_mint_id bob 1);
  (* alice returns *)
  demo_call 1400 (stake_accs alice alice_orca alice_xorca) (Stake 1000);
  demo_call 1400 (unstake_accs alice alice_xorca alice_record) (Unstake 1000 0)].
Definition init_story : list op := [
  OpAta (demo_env 900) [alice] alice demo_vault demo_state orca_mint_id;
  demo_call 1000 (init_accs admin) (Initialize 100)].
Definition tiny_story : list op := [
  demo_call 1100 (stake_accs alice alice_orca alice_xorca) (Stake 1);
  OpToken (demo_env 1150) [bob] [] (TC_Transfer bob_orca demo_vault bob 999);
  demo_call 1200 (stake_accs alice alice_orca alice_xorca) (Stake 1000)].
Definition trade_story : list op := [
  demo_call 1400 (stake_accs alice alice_orca alice_xorca) (Stake 1000000);
  demo_call 1400 (unstake_accs alice alice_xorca alice_record) (Unstake 833336 0)].
Definition two_stakes : list op := [
  demo_call 1400 (stake_accs alice alice_orca alice_xorca) (Stake 300000);
  demo_call 1400 (stake_accs alice alice_orca alice_xorca) (Stake 700000)].
Definition two_unstakes : list op := [
  demo_call 2000 (unstake_accs alice alice_xorca alice_record) (Unstake 300000 0);
  demo_call 2000 (unstake_accs bob bob_xorca bob_record) (Unstake 700000 7)].

Definition alice_last : pubkey := Eval vm_compute in
  found (find_pending_withdraw_address demo_crypto alice 255).
Definition last_index : list op := [
  demo_call 1400 (unstake_accs alice alice_xorca alice_last) (Unstake 1000 255)].

Definition gift_story : list op := [
  demo_call 1400 (stake_accs alice alice_orca alice_xorca) (Stake 1000000);
  OpToken (demo_env 1450) [bob] [] (TC_Transfer bob_orca demo_vault bob 1000000);
  demo_call 1500 (unstake_accs alice alice_xorca alice_record) (Unstake 833336 0)].

Definition stories : list (list (list op)) := [
  [init_story]; [tiny_story]; []; [burn_story]; [trade_story; two_stakes; two_unstakes; last_index; gift_story]].

Fixpoint tell (C : crypto) (l : ledger) (q : list op) : list (res err (list Z)) :=
  match q with
  | [] => []
  | o :: q =>
      let r := attempt C l o in
      outcome_of r :: tell C (match r with Ok r => fst r | Err _ => l end) q
  end.

Fixpoint tell_all (C : crypto) (l : ledger) (ops : list op) (ss : list (list (list op))) {struct ss}
  : list (list (list (res err (list Z)))) :=
  match ss with
  | [] => []
  | qs :: ss =>
      map (tell C l) qs :: match ops with [] => [] | o :: ops => tell_all C (fst (run_op C l o)) ops ss end
  end.

Lemma tell_all_nth C l ops ss n ts :
  nth_error (tell_all C l ops ss) n = Some ts ->
  forall j q t, nth_error (nth n ss []) j = Some q -> nth_error ts j = Some t ->
    tell C (after C l (firstn n ops)) q = t.
Proof.
  revert l ops n. induction ss as [|qs ss IH]; intros l ops n H; [destruct n; discriminate H|].
  destruct n; cbn [nth_error tell_all] in H.
  - injection H as <-. intros j q t H1 H2. cbn [nth] in H1. rewrite nth_error_map, H1 in H2. now inversion H2.
  - destruct ops as [|o ops]; [destruct n; discriminate H|]. cbn [firstn after fold_left nth]. exact (IH _ _ _ H).
Qed.

Lemma tell_nth C q : forall l m o r,
  nth_error q m = Some o -> nth_error (tell C l q) m = Some r ->
  outcome_of (attempt C (after C l (firstn m q)) o) = r.
Proof.
  induction q as [|o' q IH]; intros l m o r H1 H2; [destruct m; discriminate|].
  destruct m; cbn [nth_error tell] in *.
  - injection H1 as ->. now injection H2 as <-.
  - cbn [firstn after fold_left]. rewrite run_op_attempt.
    specialize (IH _ _ _ _ H1 H2). now destruct (attempt C l o').
Qed.

Definition story_results : list (list (list (res err (list Z)))) :=
  Eval vm_compute in tell_all demo_crypto demo0 demo_ops stories.
Lemma story_results_are : tell_all demo_crypto demo0 demo_ops stories = story_results.
Proof. vm_cast_no_check (eq_refl story_results). Qed.

(** The ledger after [m] steps of [q] from stage [n]. *)
Definition tale (n : nat) (q : list op) (m : nat) : ledger := after demo_crypto (demo n) (firstn m q).

Transparent demo.
Lemma tale_step n j q ts t m o r :
  nth_error story_results n = Some ts -> nth_error (nth n stories []) j = Some q -> nth_error ts j = Some t ->
  nth_error q m = Some o -> nth_error t m = Some r ->
  outcome_of (attempt demo_crypto (tale n q m) o) = r.
Proof.
  intros H1 H2 H3 H4 H5. rewrite <- story_results_are in H1.
  pose proof (tell_all_nth _ _ _ _ _ _ H1 _ _ _ H2 H3) as H. fold (demo n) in H. subst t.
  eapply tell_nth; eassumption.
Qed.
Global Opaque demo.

Lemma tale_next n q m o : nth_error q m = Some o -> tale n q (S m) = fst (run_op demo_crypto (tale n q m) o).
Proof.
  intros H. unfold tale. assert (E : firstn (S m) q = firstn m q ++ [o]).
  { revert m H. induction q as [|x q IH]; intros [|m] H; cbn in *; try discriminate.
    - now injection H as ->.
    - f_equal. now apply IH. }
  now rewrite E, after_app.
Qed.

Lemma outcome_view C l o v :
  outcome_of (attempt C l o) = Ok v -> demo_view (fst (run_op C l o)) = v.
Proof. rewrite run_op_attempt. destruct (attempt C l o); cbn; [now intros [= <-]|discriminate]. Qed.

Lemma tale_view n j q ts t m o v :
  nth_error story_results n = Some ts -> nth_error (nth n stories []) j = Some q -> nth_error ts j = Some t ->
  nth_error q m = Some o -> nth_error t m = Some (Ok v) ->
  demo_facts (tale n q (S m)) v.
Proof.
  intros H1 H2 H3 H4 H5. rewrite (tale_next _ _ _ _ H4).
  rewrite <- (outcome_view _ _ _ _ (tale_step _ _ _ _ _ _ _ _ H1 H2 H3 H4 H5)). apply view_facts.
Qed.

Lemma tale_performs n j q ts t m v tm accs i :
  nth_error story_results n = Some ts -> nth_error (nth n stories []) j = Some q -> nth_error ts j = Some t ->
  nth_error q m = Some (demo_call tm accs i) -> nth_error t m = Some (Ok v) -> instruction_ok i ->
  performs demo_crypto (tale n q m) (demo_call tm accs i) i accs tm.
Proof.
  intros H1 H2 H3 H4 H5 Hi. pose proof (tale_step _ _ _ _ _ _ _ _ H1 H2 H3 H4 H5) as H.
  exists (demo_env tm), (instruction_bytes i). split; [reflexivity|].
  split; [now apply instruction_encodes|]. split; [reflexivity|]. exact (probe_is_ok _ _ _ _ _ _ H).
Qed.

Lemma demo_vault_mark : ~ program_signs_for demo_crypto demo_vault.
Proof. intros H. apply demo_pda_mark in H. vm_compute in H. discriminate. Qed.

Ltac story_ok :=
  unfold demo_call, init_accs, stake_accs, unstake_accs, withdraw_accs, set_accs; cbn [op_ok];
  split; [apply demo_sysvars; unfold is_i64, i64_min, i64_max; lia|];
  first [ solve [demo_honest]
        | split; [intros k K; cbn in K; repeat (destruct K as [<-|K]; [first [exact demo_vault_mark | apply demo_not_pda; demo_in]|]); destruct K|reflexivity] 
        | intros k K; cbn in K; repeat (destruct K as [<-|K]; [first [exact demo_vault_mark | apply demo_not_pda; demo_in]|]); destruct K ].

Lemma stories_ok l : Forall (Forall (Forall (op_ok demo_crypto l))) stories.
Proof.
  unfold stories, init_story, tiny_story, burn_story, trade_story, two_stakes, two_unstakes, last_index, gift_story.
  repeat (apply Forall_cons || apply Forall_nil); story_ok.
Qed.

Lemma story_op_ok n j q m o l :
  nth_error (nth n stories []) j = Some q -> nth_error q m = Some o -> op_ok demo_crypto l o.
Proof.
  intros H1 H2. pose proof (stories_ok l) as F. apply nth_error_In in H1. apply nth_error_In in H2.
  destruct (nth_in_or_default n stories []) as [K|K]; [|rewrite K in H1; destruct H1].
  rewrite Forall_forall in F. specialize (F _ K). rewrite Forall_forall in F. specialize (F _ H1).
  rewrite Forall_forall in F. now apply F.
Qed.

Lemma tale_history n j q m :
  nth_error (nth n stories []) j = Some q ->
  exists evs, history demo_crypto (demo n) (firstn m q) (tale n q m) evs.
Proof.
  intros H. apply history_any. intros l. apply Forall_firstn. apply Forall_forall. intros o Ho.
  apply In_nth_error in Ho. destruct Ho as [i Hi]. eapply story_op_ok; eassumption.
Qed.

Lemma tale_0 n q : tale n q 0 = demo n.
Proof. reflexivity. Qed.

Lemma tale_reaches n j q m :
  nth_error (nth n stories []) j = Some q -> reaches demo_crypto (tale n q m).
Proof.
  intros H. assert (K : forall o, In o q -> forall l, op_ok demo_crypto l o).
  { intros o Ho l. apply In_nth_error in Ho. destruct Ho as [i Hi]. eapply story_op_ok; eassumption. }
  clear H. unfold tale. pose proof (demo_reaches n) as R.
  revert q K R. generalize (demo n) as l. induction m as [|m IH]; intros l q K R; [exact R|].
  destruct q as [|o q]; [exact R|]. cbn [firstn after fold_left]. apply IH.
  - intros o' Ho'. apply K. now right.
  - eapply reaches_step; [exact R|]. apply K. now left.
Qed.

(** [told n j m] uses the numbers after step [m] of story [j] at stage [n]. *)
Ltac told n j m :=
  let H := fresh in
  pose proof (tale_view n j _ _ _ m _ _ eq_refl eq_refl eq_refl eq_refl eq_refl) as H;
  match goal with
  | |- is_state _ demo_state => exact (df_state _ _ H eq_refl)
  | |- is_record _ alice_record => exact (df_arec _ _ H eq_refl)
  | |- _ =>
      unfold free_orca;
      rewrite ?(df_escrow _ _ H), ?(df_cooldown _ _ H), ?(df_vault _ _ H), ?(df_supply _ _ H),
        ?(df_ao _ _ H), ?(df_ax _ _ H), ?(df_bo _ _ H), ?(df_bx _ _ H), ?(df_ra _ _ H), ?(df_ta _ _ H),
        ?(df_rb _ _ H), ?(df_tb _ _ H); cbn [nth]; clear H; try reflexivity
  end.
(** The call of step [m] of story [j] at stage [n] succeeds. *)
Ltac tells n j m :=
  refine (tale_performs n j _ _ _ m _ _ _ _ eq_refl eq_refl eq_refl eq_refl eq_refl _);
  cbn; unfold is_u64, is_u8, is_i64, u64_max, i64_min, i64_max; lia.

(** ** Before Initialize *)
Transparent demo.
Lemma demo_start :
  wallet (demo 0) demo_vault /\ wallet (demo 0) alice /\ wallet (demo 0) deployer_address /\
  a_lamports (demo 0 demo_vault) = 0 /\ a_lamports (demo 0 demo_state) = 0 /\
  a_lamports (demo 0 alice) = 10000000000 /\ a_lamports (demo 0 deployer_address) = 10000000000 /\
  mints_ready (demo 0) demo_state.
Proof.
  split; [apply walletb_ok; vm_compute; reflexivity|].
  split; [apply walletb_ok; vm_compute; reflexivity|].
  split; [apply walletb_ok; vm_compute; reflexivity|].
  do 4 (split; [vm_compute; reflexivity|]).
  unfold mints_ready. repeat (split; [vm_compute; reflexivity|]). vm_compute. reflexivity.
Qed.
Lemma demo_start_fresh k : ~ is_state (demo 0) k.
Proof.
  intros [H1 H2]. revert H1 H2.
  apply (demo_all (fun k a => a_owner a = xorca_id -> st_disc (a_data a) = 1 -> False)).
  - repeat (apply Forall_cons; [intros H _; apply (f_equal key_bytes) in H; vm_compute in H; discriminate H|]). apply Forall_nil.
  - intros k' H. apply (f_equal key_bytes) in H. vm_compute in H. discriminate H.
Qed.
Global Opaque demo.

Lemma demo_state_found : find_state_address demo_crypto = Some (demo_state, Z_to_byte 255).
Proof. vm_cast_no_check (eq_refl (Some (demo_state, Z_to_byte 255))). Qed.
Lemma demo_deployer : deployer_has_key demo_crypto.
Proof. vm_cast_no_check (eq_refl true). Qed.
Lemma demo_state_ne_vault : demo_state <> demo_vault.
Proof. intros H. apply (f_equal key_bytes) in H. vm_compute in H. discriminate H. Qed.
Lemma demo_alice_ne_vault : alice <> demo_vault.
Proof. intros H. apply (f_equal key_bytes) in H. vm_compute in H. discriminate H. Qed.

(** ** The incinerator's account *)
Lemma burn_ready :
  usableb (after demo_crypto demo0 (firstn 3 demo_ops ++ firstn 4 burn_story)) bob_xorca xorca_mint_id incinerator_id = true.
Proof. vm_cast_no_check (eq_refl true). Qed.
Transparent demo.
Lemma tale_incinerated : active_account (tale 3 burn_story 4) bob_xorca xorca_mint_id incinerator_id.
Proof.
  unfold tale, demo. rewrite <- after_app. eapply usable_active. apply usableb_ok. exact burn_ready.
Qed.
Global Opaque demo.

(** ** A record with index 255 *)
Lemma last_ready : let l := after demo_crypto demo0 (firstn 4 demo_ops ++ firstn 1 last_index) in
  recordb l alice_last && key_eqb (rec_owner l alice_last) alice && (rec_index l alice_last =? 255) &&
  (rec_amount l alice_last =? 1199) = true.
Proof. vm_cast_no_check (eq_refl true). Qed.
Transparent demo.
Lemma tale_last : is_record (tale 4 last_index 1) alice_last /\ rec_owner (tale 4 last_index 1) alice_last = alice /\ rec_index (tale 4 last_index 1) alice_last = 255 /\ rec_amount (tale 4 last_index 1) alice_last = 1199.
Proof.
  unfold tale, demo. rewrite <- after_app. pose proof last_ready as H. cbv zeta in H. revert H.
  generalize (after demo_crypto demo0 (firstn 4 demo_ops ++ firstn 1 last_index)). intros l H.
  rewrite !andb_true_iff in H. destruct H as (((H1 & H2) & H3) & H4).
  unfold recordb in H1. apply andb_true_iff in H1. destruct H1 as [H0 H1].
  apply key_eqb_true in H0, H2. apply Z.eqb_eq in H1, H3, H4. unfold is_record. auto.
Qed.
Global Opaque demo.
