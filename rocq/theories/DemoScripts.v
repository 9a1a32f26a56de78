(** The scripts run one after the other: the program is deployed, two users stake,
    donate, unstake and withdraw.  For the Examples about the scripts. *)
From Coq Require Import String.
From Verif Require Import Spec ClientSpec ToolSpec BytesFacts LedgerFacts HistoryFacts LifeFacts PoolHistory AddressFacts
  TransactionFacts ScriptMore Demo DemoMore DemoStory DemoClient.
Import List ListNotations.
Open Scope list_scope.
Open Scope Z_scope.

Definition admin_orca : pubkey := Eval vm_compute in demo_ata admin orca_mint_id.
Definition admin_xorca : pubkey := Eval vm_compute in demo_ata admin xorca_mint_id.

(** Bob has no xORCA account, admin may mint xORCA. *)
Definition shop_accounts : list (pubkey * account) := Eval vm_compute in [
  (deployer_address, Account 10000000000 system_id []);
  (alice, Account 10000000000 system_id []);
  (bob, Account 10000000000 system_id []);
  (admin, Account 10000000000 system_id []);
  (orca_mint_id, Account 1461600 token_id (demo_mint admin 30000000));
  (xorca_mint_id, Account 1461600 token_id (demo_mint admin 0));
  (alice_orca, Account 2039280 token_id (demo_ta orca_mint_id alice 20000000));
  (alice_xorca, Account 2039280 token_id (demo_ta xorca_mint_id alice 0));
  (bob_orca, Account 2039280 token_id (demo_ta orca_mint_id bob 10000000))].
Definition shop0 : ledger := ledger_of shop_accounts.

Definition env_call (E : Z -> env) (t : Z) (accs : list meta) (i : instruction) : op :=
  OpCall (E t) accs (instruction_bytes i).
Definition script_unstake_accs (user xorca rec : pubkey) : list meta :=
  [ws user; w_ demo_state; w_ rec; w_ xorca; w_ xorca_mint_id; r_ orca_mint_id; w_ demo_vault; r_ system_id; r_ token_id].

Definition shop_txs_in (E : Z -> env) : list (list op) := [
  (* 0 *) [OpToken (E 900) [admin] [] (TC_SetAuthority xorca_mint_id admin MintTokens (Some demo_state))];
  (* 1 *) [env_call E 1000 (init_accs admin) (Initialize 100)];
  (* 2 *) [env_call E 1100 (stake_accs alice alice_orca alice_xorca) (Stake 5000000)];
  (* 3 *) [env_call E 1150 (stake_accs alice alice_orca alice_xorca) (Stake 1000)];
  (* 4 *) [OpToken (E 1200) [bob] [] (TC_Transfer bob_orca demo_vault bob 1000000)];
  (* 5 *) [OpAta (E 1300) [bob] bob bob_xorca bob xorca_mint_id;
           env_call E 1300 (stake_accs bob bob_orca bob_xorca) (Stake 9000000)];
  (* 6 *) [env_call E 2000 (script_unstake_accs alice alice_xorca alice_record) (Unstake 1000000 0)];
  (* 7 *) [env_call E 2100 (withdraw_accs alice alice_orca alice_record) (Withdraw 0)];
  (* 8 *) [OpAta (E 2150) [alice] alice admin_orca admin orca_mint_id;
           OpToken (E 2150) [alice] [] (TC_Transfer alice_orca admin_orca alice 4000)];
  (* 9 *) [OpToken (E 2200) [bob] [] (TC_Close bob_orca bob bob);
           env_call E 2200 (unstake_accs bob bob_xorca bob_record) (Unstake 500000 7);
           OpSystem [alice] (SC_Transfer alice bob_orca 1);
           OpSystem [alice] (SC_Transfer alice admin_xorca 1)]].
Definition shop_txs : list (list op) := shop_txs_in demo_env.

Fixpoint shop (n : nat) : ledger :=
  match n with O => shop0 | S n => fst (transaction demo_crypto (shop n) (nth n shop_txs [])) end.

(** ** It is a history *)
Lemma shop_all (P : pubkey -> account -> Prop) :
  Forall (fun p => P (fst p) (snd p)) shop_accounts -> (forall k, P k empty_account) ->
  forall k, P k (shop0 k).
Proof.
  intros H0 H1 k. destruct (ledger_of_cases shop_accounts k) as [(a & H & E)|E]; unfold shop0; rewrite E; [|apply H1].
  rewrite Forall_forall in H0. exact (H0 _ H).
Qed.
Lemma shop_keys k a : In (k, a) shop_accounts -> In k demo_keys.
Proof.
  intros H. assert (I : incl (map fst shop_accounts) demo_keys).
  { intros k' H'. unfold shop_accounts in H'. cbn [map fst In] in H'.
    repeat (destruct H' as [<-|H']; [demo_in|]). destruct H'. }
  apply I. now apply (in_map fst) in H.
Qed.
Lemma shop_genesis : genesis demo_crypto shop0.
Proof.
  constructor; [ | | |vm_compute; reflexivity..| |].
  - intros k. apply (shop_all (fun _ a => 0 <= a_lamports a)); [|cbn; lia].
    repeat (apply Forall_cons; [vm_compute; discriminate|]). apply Forall_nil.
  - intros k. apply (shop_all (fun _ a => a_owner a = xorca_id -> all_zero (a_data a) = true)); [|reflexivity].
    repeat (apply Forall_cons; [intros H; exfalso; apply (f_equal key_bytes) in H; vm_compute in H; discriminate H|]).
    apply Forall_nil.
  - intros k Hk.
    destruct (ledger_of_cases shop_accounts k) as [(a & H & E)|E]; unfold shop0; rewrite E; [|auto].
    exfalso. apply (demo_not_pda k); [|exact Hk]. eapply shop_keys. exact H.
  - intros k. apply (shop_all (fun _ a => a_owner a = token_id -> ta_unpack (a_data a) = Ok tt ->
      ta_mint (a_data a) = xorca_mint_id -> ta_native_flag (a_data a) = 0)); [|reflexivity].
    repeat (apply Forall_cons; [vm_compute; reflexivity|]). apply Forall_nil.
  - intros ks _. replace (total shop0 xorca_mint_id ks) with 0; [vm_compute; discriminate|].
    unfold total. induction ks as [|k ks IH]; [reflexivity|]. cbn [map sumZ fold_right].
    unfold sumZ in IH. rewrite <- IH.
    enough (holds shop0 xorca_mint_id k = 0) by lia. unfold holds.
    apply (shop_all (fun _ a => (if key_eqb (a_owner a) token_id && is_ok (ta_unpack (a_data a))
       && key_eqb (ta_mint (a_data a)) xorca_mint_id then ta_amount (a_data a) else 0) = 0)); [|reflexivity].
    repeat (apply Forall_cons; [vm_compute; reflexivity|]). apply Forall_nil.
Qed.

Lemma marked_not_pda k : nth 31 (key_bytes k) x01 = x01 -> ~ program_signs_for demo_crypto k.
Proof. intros H S. apply demo_pda_mark in S. congruence. Qed.

Lemma steps_any C l ops : (forall l, Forall (op_ok C l) ops) -> steps_ok C l ops.
Proof.
  revert l. induction ops as [|o ops IH]; intros l H; [exact I|]. cbn [steps_ok].
  split; [specialize (H l); now inversion H|]. destruct (attempt C l o); [|exact I].
  apply IH. intros l'. specialize (H l'). now inversion H.
Qed.

Ltac shop_op :=
  cbn [op_ok demo_call];
  repeat match goal with
  | |- sysvars_ok _ => apply demo_sysvars; unfold is_i64, i64_min, i64_max; lia
  | |- honest_metas _ _ => demo_honest
  | |- honest_signers _ _ => let k := fresh in let H := fresh in intros k H; cbn [In] in H;
       repeat (destruct H as [<-|H]; [first [apply demo_not_pda; solve [demo_in]|apply marked_not_pda; vm_compute; reflexivity]|]); destruct H
  | |- _ /\ _ => split
  | |- token_call_ok _ = true => reflexivity
  | |- system_call_ok _ => cbn; lia
  end.
Lemma shop_txs_ok l : Forall (Forall (op_ok demo_crypto l)) shop_txs.
Proof.
  unfold shop_txs, shop_txs_in, env_call, script_unstake_accs, init_accs, stake_accs, unstake_accs, withdraw_accs.
  repeat (apply Forall_cons; [repeat (apply Forall_cons; [shop_op|]); apply Forall_nil|]). apply Forall_nil.
Qed.
Lemma shop_steps n l : steps_ok demo_crypto l (nth n shop_txs []).
Proof.
  apply steps_any. intros l'. destruct (nth_in_or_default n shop_txs []) as [K| ->]; [|apply Forall_nil].
  pose proof (shop_txs_ok l') as F. rewrite Forall_forall in F. now apply F.
Qed.
Ltac shop_also :=
  apply steps_any; intros; unfold env_call, stake_accs, withdraw_accs; apply Forall_cons; [shop_op|apply Forall_nil].
Lemma shop_reaches n : reaches demo_crypto (shop n).
Proof.
  assert (H : exists txs evs, tx_history demo_crypto shop0 txs (shop n) evs).
  { induction n as [|n (txs & evs & IH)]; [exists [], []; constructor|].
    exists (txs ++ [nth n shop_txs []]), (evs ++ snd (transaction demo_crypto (shop n) (nth n shop_txs []))).
    cbn [shop]. constructor; [exact IH|apply shop_steps]. }
  destruct H as (txs & evs & H). eapply tx_reaches; [exact shop_genesis|exact H].
Qed.

(** ** The scripts *)
(** What the scripts ask for at each stage; the first answer is the transaction sent. *)
Definition shop_calls (E : Z -> env) (n : nat) (l : ledger) : list (option (list op)) :=
  let C := demo_crypto in
  match n with
  | 0 => [authority_script C (E 900%Z) admin]
  | 1 => [initialize_script C (E 1000%Z) deployer_address admin (JInt 100)]
  | 2 => [stake_script C (E 1100%Z) l alice 5000000]
  | 3 => [stake_script C (E 1150%Z) l alice 1000]
  | 4 => [deposit_script C (E 1200%Z) l bob (JInt 1000000)]
  | 5 => [stake_script C (E 1300%Z) l bob 9000000]
  | 6 => [unstake_script C (E 2000%Z) l alice 1000000 (JInt 0)]
  | 7 => [withdraw_script C (E 2100%Z) l alice (JInt 0); withdraw_script C (E 2050%Z) l alice (JInt 0)]
  | 8 => [transfer_script C (E 2150%Z) l alice admin 4000; transfer_script C (E 2150%Z) l alice alice 4000]
  | 10 => [withdraw_script C (E 2300%Z) l bob (JInt 7); stake_script C (E 2300%Z) l admin 4000]
  | _ => []
  end%nat.
Definition alice_early (E : Z -> env) : list op := [env_call E 2050 (withdraw_accs alice alice_orca alice_record) (Withdraw 0)].
Definition alice_to_alice (E : Z -> env) : list op := [OpToken (E 2150) [alice] [] (TC_Transfer alice_orca alice_orca alice 4000)].
Definition bob_late (E : Z -> env) : list op := [env_call E 2300 (withdraw_accs bob bob_orca bob_record) (Withdraw 7)].
Definition admin_stake (E : Z -> env) : list op := [env_call E 2300 (stake_accs admin admin_orca admin_xorca) (Stake 4000)].
Definition shop_answers (E : Z -> env) : list (list (option (list op))) :=
  let tx n := nth n (shop_txs_in E) [] in
  [[Some (tx 0)]; [Some (tx 1)]; [Some (tx 2)]; [Some (tx 3)]; [Some (tx 4)]; [Some (tx 5)]; [Some (tx 6)];
   [Some (tx 7); Some (alice_early E)]; [Some (tx 8); Some (alice_to_alice E)]; [];
   [Some (bob_late E); Some (admin_stake E)]]%nat.

(** The lines printed after the transaction of each stage. *)
Definition shop_lines (n : nat) (l l' : ledger) : list Z :=
  let C := demo_crypto in
  let pair (o : option (Z * Z)) := match o with Some (a, b) => [a; b] | None => [] end in
  match n with
  | 0 => match authority_script_verdict C l' with Some b => [bit b] | None => [] end
  | 2 | 3 => pair (stake_script_report C l l' alice)
  | 4 => pair (deposit_script_report C l l' (JInt 1000000))
  | 5 => pair (stake_script_report C l l' bob)
  | 6 => pair (unstake_script_report C l l' alice)
  | 7 => match withdraw_script_seconds C l 2050 alice (JInt 0) with Some s => [s] | None => [] end
  | 8 => match transfer_script_report C l l' alice admin 4000 with Some (a, b, ok) => [a; b; bit ok] | None => [] end
  | _ => []
  end%nat.

Definition shop_good (l : ledger) : list bool :=
  [usableb l demo_vault orca_mint_id demo_state; usableb l alice_orca orca_mint_id alice;
   usableb l alice_xorca xorca_mint_id alice; usableb l bob_orca orca_mint_id bob; usableb l bob_xorca xorca_mint_id bob;
   walletb l alice; walletb l bob; walletb l bob_orca; walletb l bob_xorca; walletb l admin; walletb l admin_orca; walletb l admin_xorca].
Definition shop_lamports (l : ledger) : list Z :=
  map (fun k => a_lamports (l k)) [alice; bob; admin; bob_orca; bob_xorca; admin_orca; admin_xorca].

Definition shop_row := (list Z * list bool * list Z * list Z * bool)%type.
Fixpoint shop_walk (E : Z -> env) (n : nat) (l : ledger) (txs : list (list op)) : list (shop_row * list (option (list op))) :=
  let r := attempt_all demo_crypto l (match txs with [] => [] | ops :: _ => ops end) in
  let l' := match r with Ok r => fst r | Err _ => l end in
  (demo_view l, shop_good l, shop_lamports l, shop_lines n l l', is_ok r, shop_calls E n l) ::
  match txs with [] => [] | _ :: txs => shop_walk E (S n) l' txs end.
Definition shop_rows : list shop_row := Eval vm_compute in map fst (shop_walk demo_env 0 shop0 shop_txs).
Lemma shop_walk_is E : shop_walk E 0 shop0 shop_txs = combine shop_rows (shop_answers E).
Proof. vm_cast_no_check (eq_refl (combine shop_rows (shop_answers E))). Qed.

Lemma walk_nth txs n m l r a :
  nth_error (shop_walk demo_env m l txs) n = Some (r, a) ->
  forall sh : nat -> ledger, sh 0%nat = l ->
    (forall i, (i < n)%nat -> sh (S i) = fst (transaction demo_crypto (sh i) (nth i txs []))) ->
    let l1 := sh n in let tx := nth n txs [] in
    r = (demo_view l1, shop_good l1, shop_lamports l1, shop_lines (n + m) l1 (fst (transaction demo_crypto l1 tx)),
         is_ok (attempt_all demo_crypto l1 tx)) /\
    a = shop_calls demo_env (n + m) l1.
Proof.
  revert n m l. induction txs as [|tx txs IH]; intros n m l H sh H0 HS.
  - destruct n; [|destruct n; discriminate H]. cbn [shop_walk nth_error nth] in *.
    destruct (some_pair _ _ _ _ H) as [<- <-]. cbn zeta. rewrite H0. cbn [Nat.add]. split; reflexivity.
  - destruct n.
    + cbn [shop_walk nth_error nth] in *. destruct (some_pair _ _ _ _ H) as [<- <-]. cbn zeta. rewrite H0. cbn [Nat.add].
      split; [|reflexivity]. unfold transaction. now destruct (attempt_all demo_crypto l tx) as [[]|].
    + cbn [shop_walk nth_error] in H. cbn zeta.
      destruct (IH n (S m) _ H (fun i => sh (S i))) as [K1 K2].
      * rewrite (HS 0%nat) by lia. cbn [nth]. rewrite H0. unfold transaction. now destruct (attempt_all demo_crypto l tx) as [[]|].
      * intros i Hi. rewrite (HS (S i)) by lia. reflexivity.
      * replace (S n + m)%nat with (n + S m)%nat by lia. split; assumption.
Qed.
Lemma shop_nth n r a :
  nth_error (combine shop_rows (shop_answers demo_env)) n = Some (r, a) ->
  let l := shop n in
  r = (demo_view l, shop_good l, shop_lamports l, shop_lines n l (shop (S n)), is_ok (attempt_all demo_crypto l (nth n shop_txs []))) /\
  a = shop_calls demo_env n l.
Proof.
  intros H. rewrite <- shop_walk_is in H.
  destruct (walk_nth _ _ _ _ _ _ H shop eq_refl (fun i _ => eq_refl)) as [K1 K2].
  rewrite Nat.add_0_r in *. split; assumption.
Qed.
Lemma five {A B X D F} (a a' : A) (b b' : B) (c c' : X) (d d' : D) (e e' : F) :
  (a, b, c, d, e) = (a', b', c', d', e') -> a = a' /\ b = b' /\ c = c' /\ d = d' /\ e = e'.
Proof. intros H. now inversion H. Qed.
Global Opaque shop.

Lemma shop_stage n v g w s ok a :
  nth_error (combine shop_rows (shop_answers demo_env)) n = Some (v, g, w, s, ok, a) ->
  demo_facts (shop n) v /\ shop_good (shop n) = g /\ shop_lamports (shop n) = w /\
  shop_lines n (shop n) (shop (S n)) = s /\ is_ok (attempt_all demo_crypto (shop n) (nth n shop_txs [])) = ok /\
  shop_calls demo_env n (shop n) = a.
Proof.
  intros H. destruct (shop_nth _ _ _ H) as [K ->]. apply five in K. destruct K as (-> & -> & -> & -> & ->).
  do 5 (split; [first [apply view_facts|reflexivity]|]). reflexivity.
Qed.

Transparent shop.
Lemma shop_runs n v g w s a :
  nth_error (combine shop_rows (shop_answers demo_env)) n = Some (v, g, w, s, true, a) ->
  exists evs, attempt_all demo_crypto (shop n) (nth n shop_txs []) = Ok (shop (S n), evs).
Proof.
  intros H. destruct (shop_stage _ _ _ _ _ _ _ H) as (_ & _ & _ & _ & K & _). cbn [shop]. unfold transaction.
  destruct (attempt_all _ _ _) as [[l' evs]|]; [|discriminate]. exists evs. reflexivity.
Qed.
Global Opaque shop.

Lemma shop_call n m a o :
  nth_error (combine shop_rows (shop_answers demo_env)) n = Some a -> nth_error (snd a) m = Some o ->
  nth_error (shop_calls demo_env n (shop n)) m = Some o.
Proof. intros H K. destruct a as [[[[[v g] w] s] ok] a]. destruct (shop_stage _ _ _ _ _ _ _ H) as (_ & _ & _ & _ & _ & ->). exact K. Qed.

Lemma some_inj {A} (a b : A) : Some a = Some b -> a = b.
Proof. congruence. Qed.

(** [shop_asks n m] : the script's transaction number [m] of stage [n]. *)
Ltac shop_asks n m :=
  exact (some_inj _ _ (shop_call n m _ _ eq_refl eq_refl)).
(** [shop_see n] uses the numbers of stage [n]. *)
Ltac shop_see n :=
  let H := fresh in pose proof (proj1 (shop_stage n _ _ _ _ _ _ eq_refl)) as H;
  match goal with
  | |- is_state _ demo_state => exact (df_state _ _ H eq_refl)
  | |- is_record _ alice_record => exact (df_arec _ _ H eq_refl)
  | |- is_record _ bob_record => exact (df_brec _ _ H eq_refl)
  | |- ~ is_record _ alice_record => exact (df_norec _ _ H eq_refl)
  | |- rec_owner _ _ = alice => exact (df_oa _ _ H eq_refl)
  | |- authority _ _ = admin => exact (df_admin _ _ H eq_refl)
  | |- _ =>
      unfold free_orca;
      rewrite ?(df_escrow _ _ H), ?(df_cooldown _ _ H), ?(df_vault _ _ H), ?(df_supply _ _ H),
        ?(df_ao _ _ H), ?(df_ax _ _ H), ?(df_bo _ _ H), ?(df_bx _ _ H), ?(df_ra _ _ H), ?(df_ta _ _ H),
        ?(df_rb _ _ H), ?(df_tb _ _ H), ?(df_ia _ _ H), ?(df_ib _ _ H), ?(df_la _ _ H), ?(df_lra _ _ H),
        ?(df_lb _ _ H), ?(df_lrb _ _ H); cbn [nth]; clear H; try reflexivity
  end.

Lemma pair_line (o : option (Z * Z)) a b : match o with Some (a, b) => [a; b] | None => [] end = [a; b] -> o = Some (a, b).
Proof. destruct o as [[]|]; [|discriminate]. now intros [= -> ->]. Qed.
Lemma shop_printed n v g w s ok a :
  nth_error (combine shop_rows (shop_answers demo_env)) n = Some (v, g, w, s, ok, a) ->
  shop_lines n (shop n) (shop (S n)) = s.
Proof. intros H. apply (shop_stage _ _ _ _ _ _ _ H). Qed.
Ltac shop_prints n := apply pair_line; exact (shop_printed n _ _ _ _ _ _ eq_refl).

(** ** Accounts at each stage *)
Record shop_ready (l : ledger) (g : list bool) (w : list Z) : Prop := {
  sr_vault : nth 0 g false = true -> usable l demo_vault orca_mint_id demo_state;
  sr_ao : nth 1 g false = true -> usable l alice_orca orca_mint_id alice;
  sr_ax : nth 2 g false = true -> usable l alice_xorca xorca_mint_id alice;
  sr_bo : nth 3 g false = true -> usable l bob_orca orca_mint_id bob;
  sr_bx : nth 4 g false = true -> usable l bob_xorca xorca_mint_id bob;
  sr_alice : nth 5 g false = true -> wallet l alice;
  sr_bob : nth 6 g false = true -> wallet l bob;
  sr_no_bo : nth 7 g false = true -> wallet l bob_orca;
  sr_no_bx : nth 8 g false = true -> wallet l bob_xorca;
  sr_admin : nth 9 g false = true -> wallet l admin;
  sr_no_mo : nth 10 g false = true -> wallet l admin_orca;
  sr_no_mx : nth 11 g false = true -> wallet l admin_xorca;
  sr_la : a_lamports (l alice) = nth 0 w 0;
  sr_lb : a_lamports (l bob) = nth 1 w 0;
  sr_lm : a_lamports (l admin) = nth 2 w 0;
  sr_lbo : a_lamports (l bob_orca) = nth 3 w 0;
  sr_lbx : a_lamports (l bob_xorca) = nth 4 w 0;
  sr_lmo : a_lamports (l admin_orca) = nth 5 w 0;
  sr_lmx : a_lamports (l admin_xorca) = nth 6 w 0
}.
Lemma shop_is_ready n v g w s ok a :
  nth_error (combine shop_rows (shop_answers demo_env)) n = Some (v, g, w, s, ok, a) -> shop_ready (shop n) g w.
Proof.
  intros H. destruct (shop_stage _ _ _ _ _ _ _ H) as (_ & <- & <- & _). unfold shop_good, shop_lamports.
  constructor; cbn [nth map]; first [exact (usableb_ok _ _ _ _)|exact (walletb_ok _ _)|reflexivity].
Qed.
Ltac shop_has n :=
  let H := fresh in pose proof (shop_is_ready n _ _ _ _ _ _ eq_refl) as H;
  match goal with
  | |- wallet _ alice => exact (sr_alice _ _ _ H eq_refl)
  | |- wallet _ bob => exact (sr_bob _ _ _ H eq_refl)
  | |- wallet _ bob_orca => exact (sr_no_bo _ _ _ H eq_refl)
  | |- wallet _ bob_xorca => exact (sr_no_bx _ _ _ H eq_refl)
  | |- wallet _ admin => exact (sr_admin _ _ _ H eq_refl)
  | |- wallet _ admin_orca => exact (sr_no_mo _ _ _ H eq_refl)
  | |- wallet _ admin_xorca => exact (sr_no_mx _ _ _ H eq_refl)
  | |- active_account _ _ _ _ => eapply usable_active
  | |- ordinary _ _ => eapply usable_ordinary
  | |- no_self_delegate _ _ _ => eapply usable_no_delegate
  | |- ta_state _ = 1 => eapply usable_state
  | |- _ => rewrite ?(sr_la _ _ _ H), ?(sr_lb _ _ _ H), ?(sr_lm _ _ _ H), ?(sr_lbo _ _ _ H), ?(sr_lbx _ _ _ H),
      ?(sr_lmo _ _ _ H), ?(sr_lmx _ _ _ H); cbn [nth]
  end;
  match goal with
  | |- usable _ demo_vault _ _ => exact (sr_vault _ _ _ H eq_refl)
  | |- usable _ alice_orca _ _ => exact (sr_ao _ _ _ H eq_refl)
  | |- usable _ alice_xorca _ _ => exact (sr_ax _ _ _ H eq_refl)
  | |- usable _ bob_orca _ _ => exact (sr_bo _ _ _ H eq_refl)
  | |- usable _ bob_xorca _ _ => exact (sr_bx _ _ _ H eq_refl)
  | |- _ => clear H
  end.

Lemma bob_orca_found : is_ata demo_crypto bob orca_mint_id bob_orca.
Proof. exists xff. vm_cast_no_check (eq_refl (Some (bob_orca, xff))). Qed.
Lemma bob_xorca_found : is_ata demo_crypto bob xorca_mint_id bob_xorca.
Proof. exists xff. vm_cast_no_check (eq_refl (Some (bob_xorca, xff))). Qed.
Lemma admin_orca_found : is_ata demo_crypto admin orca_mint_id admin_orca.
Proof. exists xff. vm_cast_no_check (eq_refl (Some (admin_orca, xff))). Qed.
Lemma admin_xorca_found : is_ata demo_crypto admin xorca_mint_id admin_xorca.
Proof. exists xff. vm_cast_no_check (eq_refl (Some (admin_xorca, xff))). Qed.

Lemma one_line (o : option Z) a : match o with Some s => [s] | None => [] end = [a] -> o = Some a.
Proof. destruct o; congruence. Qed.
Lemma triple_line (o : option (Z * Z * bool)) a b ok :
  match o with Some (a, b, ok) => [a; b; bit ok] | None => [] end = [a; b; bit ok] -> o = Some (a, b, ok).
Proof. destruct o as [[[a' b'] ok']|]; [|discriminate]. intros [= -> -> H]. destruct ok, ok'; cbn in H; congruence. Qed.

Transparent shop.
Lemma shop_start : shop 0 = shop0.
Proof. reflexivity. Qed.
Global Opaque shop.
Lemma shop_no_state k : ~ is_state (shop 0) k.
Proof.
  rewrite shop_start. intros [H1 H2]. revert H1.
  apply (shop_all (fun _ a => a_owner a <> xorca_id)); [|intros _ H; apply (f_equal key_bytes) in H; vm_compute in H; discriminate H].
  repeat (apply Forall_cons; [intros H; apply (f_equal key_bytes) in H; vm_compute in H; discriminate H|]). apply Forall_nil.
Qed.
Lemma authority_built E k : exists ops, authority_script demo_crypto E k = Some ops.
Proof.
  pose proof (shop_call 0 0 _ _ eq_refl eq_refl) as H. apply some_inj in H. unfold authority_script in *.
  destruct (script_state demo_crypto); [eexists; reflexivity|discriminate H].
Qed.
Lemma shop_handed : mint_auth (a_data (shop 1 xorca_mint_id)) = demo_state.
Proof.
  destruct (shop_runs 0 _ _ _ _ _ eq_refl) as (evs & R).
  eapply (authority_script_does demo_crypto (demo_env 900) (shop 0) admin); [exact demo_client_state|shop_asks 0%nat 0%nat|exact R].
Qed.
