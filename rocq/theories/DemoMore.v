(** More about the execution of Demo.v, for the Examples: which token accounts are
    usable at each stage, and the outcome of calls that are not part of it. *)
From Verif Require Import Spec Transaction BytesFacts LedgerFacts HistoryFacts LifeFacts Demo.
From Coq Require Import List.

(** A token account that is active, not wrapped SOL, and without delegate. *)
Definition usable (l : ledger) (k mint owner : pubkey) : Prop :=
  active_account l k mint owner /\ ordinary l k /\ ta_delegate_flag (a_data (l k)) = 0.
Definition usableb (l : ledger) (k mint owner : pubkey) : bool :=
  key_eqb (a_owner (l k)) token_id && is_ok (ta_unpack (a_data (l k))) &&
  key_eqb (ta_mint (a_data (l k))) mint && key_eqb (ta_owner (a_data (l k))) owner &&
  (ta_state (a_data (l k)) =? 1) && (ta_native_flag (a_data (l k)) =? 0) &&
  (ta_delegate_flag (a_data (l k)) =? 0).
Definition walletb (l : ledger) (k : pubkey) : bool :=
  key_eqb (a_owner (l k)) system_id && match a_data (l k) with [] => true | _ => false end.

Lemma usableb_ok l k mint owner : usableb l k mint owner = true -> usable l k mint owner.
Proof.
  unfold usableb. rewrite !andb_true_iff, !Z.eqb_eq. intros ((((((H1 & H2) & H3) & H4) & H5) & H6) & H7).
  apply key_eqb_true in H1. apply key_eqb_true in H3. apply key_eqb_true in H4.
  unfold usable, active_account, token_account_of, ordinary.
  destruct (ta_unpack _) as [[]|]; [|discriminate H2]. tauto.
Qed.
Lemma walletb_ok l k : walletb l k = true -> wallet l k.
Proof.
  unfold walletb. rewrite andb_true_iff. intros [H1 H2]. apply key_eqb_true in H1. split; [exact H1|].
  now destruct (a_data (l k)).
Qed.
Lemma usable_active l k mint owner : usable l k mint owner -> active_account l k mint owner.
Proof. intros H. apply H. Qed.
Lemma usable_ordinary l k mint owner : usable l k mint owner -> ordinary l k.
Proof. intros H. apply H. Qed.
Lemma usable_state l k mint owner : usable l k mint owner -> ta_state (a_data (l k)) = 1.
Proof. intros ((_ & H) & _). exact H. Qed.
Lemma demo_bob_ne : bob_record <> bob.
Proof. intros H. apply (f_equal key_bytes) in H. vm_compute in H. discriminate H. Qed.
Lemma usable_no_delegate l k mint owner a : usable l k mint owner -> no_self_delegate l k a.
Proof. intros (_ & _ & H). unfold no_self_delegate, ta_has_delegate. now rewrite H. Qed.

(** All accounts of the demo that calls use. *)
Definition demo_good (l : ledger) : bool :=
  usableb l demo_vault orca_mint_id demo_state &&
  usableb l alice_orca orca_mint_id alice && usableb l alice_xorca xorca_mint_id alice &&
  usableb l bob_orca orca_mint_id bob && usableb l bob_xorca xorca_mint_id bob &&
  walletb l alice && walletb l bob.

(** The outcome of a step: the numbers after it, or the error. *)
Definition outcome_of (r : res err outcome) : res err (list Z) :=
  match r with Ok r => Ok (demo_view (fst r)) | Err e => Err e end.

(** Calls tried at each stage. *)
Definition probes : list (list op) := [
  (* 0: before Initialize *)
  [ demo_call 900 (stake_accs alice alice_orca alice_xorca) (Stake 10);
    OpCall (demo_env 950) [ws alice; ws admin; w_ demo_state; w_ demo_vault; r_ xorca_mint_id;
      r_ orca_mint_id; r_ system_id; r_ token_id; r_ ata_id] (instruction_bytes (Initialize 100)) ];
  (* 1 *)
  [ demo_call 1050 (init_accs admin) (Initialize 100);
    OpCall (demo_env 1050) [ws alice; ws admin; w_ demo_state; w_ demo_vault; r_ xorca_mint_id;
      r_ orca_mint_id; r_ system_id; r_ token_id; r_ ata_id] (instruction_bytes (Initialize 100)) ];
  [];
  [];
  (* 4 *)
  [ demo_call 1400 (stake_accs alice alice_orca alice_xorca) (Stake 1);
    demo_call 1400 (stake_accs alice alice_orca alice_xorca) (Stake 2);
    demo_call 1400 (unstake_accs alice alice_xorca alice_record) (Unstake 0 0);
    demo_call 1400 (stake_accs alice demo_vault alice_xorca) (Stake 2);
    demo_call 1400 (stake_accs alice bob_orca alice_xorca) (Stake 2);
    OpCall (demo_env 1400) (stake_accs alice alice_orca alice_xorca) [x07];
    demo_call 1400 (stake_accs alice alice_orca alice_xorca) (Stake 1000000000);
    demo_call 1400 (unstake_accs alice alice_xorca alice_record) (Unstake 6000000 0);
    demo_call (2 ^ 63 - 1) (unstake_accs alice alice_xorca alice_record) (Unstake 1000000 0);
    demo_call 1400 (firstn 5 (stake_accs alice alice_orca alice_xorca)) (Stake 2) ];
  (* 5 *)
  [ demo_call 2001 (set_accs bob) (Set_ (UpdateCoolDownPeriod 50));
    demo_call 2001 (set_accs admin) (Set_ (UpdateCoolDownPeriod (-1))) ];
  (* 6 *)
  [ demo_call 2010 (unstake_accs bob bob_xorca bob_record) (Unstake 500000 7) ];
  [];
  (* 8 *)
  [ demo_call 2099 (withdraw_accs alice alice_orca alice_record) (Withdraw 0) ];
  (* 9 *)
  [ demo_call 2100 (withdraw_accs bob bob_orca bob_record) (Withdraw 7);
    demo_call 2100 (unstake_accs alice alice_xorca alice_record) (Unstake 1000 0);
    demo_call 2100 (withdraw_accs bob bob_orca alice_record) (Withdraw 0) ];
  (* 10 *)
  [ demo_call 2100 (withdraw_accs bob bob_orca bob_record) (Withdraw 7);
    demo_call 2100 (withdraw_accs alice alice_orca alice_record) (Withdraw 0);
    demo_call 2150 (unstake_accs alice alice_xorca alice_record) (Unstake 1000 0) ];
  (* 11 *)
  [ demo_call 2300 (set_accs admin) (Set_ (UpdateCoolDownPeriod 10)) ]].

Fixpoint probe_all (C : crypto) (l : ledger) (ops : list op) (ps : list (list op)) {struct ps}
  : list (bool * list (res err (list Z))) :=
  match ps with
  | [] => []
  | qs :: ps =>
      (demo_good l, List.map (fun o => outcome_of (attempt C l o)) qs) ::
      match ops with [] => [] | o :: ops => probe_all C (fst (run_op C l o)) ops ps end
  end.

Lemma some_pair {A B} (a a' : A) (b b' : B) : Some (a, b) = Some (a', b') -> a = a' /\ b = b'.
Proof. intros H. now inversion H. Qed.

Lemma probe_nth C l ops ps n g rs :
  nth_error (probe_all C l ops ps) n = Some (g, rs) ->
  demo_good (after C l (firstn n ops)) = g /\
  forall m o r, nth_error (nth n ps []) m = Some o -> nth_error rs m = Some r ->
    outcome_of (attempt C (after C l (firstn n ops)) o) = r.
Proof.
  revert l ops n. induction ps as [|qs ps IH]; intros l ops n H; [destruct n; discriminate H|].
  destruct n; cbn [nth_error probe_all] in H.
  - apply some_pair in H. destruct H as [<- <-]. split; [reflexivity|]. intros m o r H1 H2. cbn [nth] in H1.
    rewrite nth_error_map, H1 in H2. cbn [option_map] in H2. now inversion H2.
  - destruct ops as [|o ops]; [destruct n; discriminate H|]. cbn [firstn after fold_left nth]. exact (IH _ _ _ H).
Qed.

Definition probe_results : list (bool * list (res err (list Z))) :=
  Eval vm_compute in probe_all demo_crypto demo0 demo_ops probes.
Lemma probe_results_are : probe_all demo_crypto demo0 demo_ops probes = probe_results.
Proof. vm_cast_no_check (eq_refl probe_results). Qed.

Transparent demo.
Lemma demo_is_good n rs : nth_error probe_results n = Some (true, rs) -> demo_good (demo n) = true.
Proof. intros H. rewrite <- probe_results_are in H. now apply probe_nth in H. Qed.
Lemma demo_probe n m g rs o r :
  nth_error probe_results n = Some (g, rs) -> nth_error (nth n probes []) m = Some o ->
  nth_error rs m = Some r -> outcome_of (attempt demo_crypto (demo n) o) = r.
Proof. intros H. rewrite <- probe_results_are in H. apply probe_nth in H. destruct H as [_ H]. eauto. Qed.
Global Opaque demo.

Record demo_usable (l : ledger) : Prop := {
  du_vault : usable l demo_vault orca_mint_id demo_state;
  du_ao : usable l alice_orca orca_mint_id alice;
  du_ax : usable l alice_xorca xorca_mint_id alice;
  du_bo : usable l bob_orca orca_mint_id bob;
  du_bx : usable l bob_xorca xorca_mint_id bob;
  du_a : wallet l alice;
  du_b : wallet l bob
}.
Lemma demo_usable_at n rs : nth_error probe_results n = Some (true, rs) -> demo_usable (demo n).
Proof.
  intros H. apply demo_is_good in H. unfold demo_good in H. rewrite !andb_true_iff in H.
  destruct H as ((((((H1 & H2) & H3) & H4) & H5) & H6) & H7).
  constructor; first [now apply usableb_ok | now apply walletb_ok].
Qed.

Lemma probe_err C E l accs data e :
  outcome_of (attempt C l (OpCall E accs data)) = Err e -> process_instruction C E xorca_id accs l data = Err e.
Proof. cbn [attempt]. now destruct (process_instruction _ _ _ _ _ _) as [r|]; cbn; [discriminate|intros [= ->]]. Qed.
Lemma probe_ok C E l accs data v :
  outcome_of (attempt C l (OpCall E accs data)) = Ok v ->
  exists l' evs, process_instruction C E xorca_id accs l data = Ok (l', evs) /\ demo_view l' = v.
Proof.
  cbn [attempt]. destruct (process_instruction _ _ _ _ _ _) as [[l' evs]|]; cbn; [|discriminate]. intros [= <-]. eauto.
Qed.
Lemma probe_is_ok C E l accs data v :
  outcome_of (attempt C l (OpCall E accs data)) = Ok v -> is_ok (process_instruction C E xorca_id accs l data) = true.
Proof. intros H. destruct (probe_ok _ _ _ _ _ _ H) as (l' & evs & -> & _). reflexivity. Qed.

(** [probe n m] uses call [m] of stage [n]. *)
Ltac probe n m :=
  first [eapply probe_err | eapply probe_is_ok | eapply probe_ok];
  exact (demo_probe n m _ _ _ _ eq_refl eq_refl eq_refl).

Lemma probe_attempt_err C l o e : outcome_of (attempt C l o) = Err e -> attempt C l o = Err e.
Proof. destruct (attempt C l o); cbn; [discriminate|intros [= ->]; reflexivity]. Qed.
Ltac probe_attempt n m :=
  apply probe_attempt_err; exact (demo_probe n m _ _ _ _ eq_refl eq_refl eq_refl).

Lemma probe_escrow_ok C E l accs data v :
  outcome_of (attempt C l (OpCall E accs data)) = Ok v ->
  exists l' evs, process_instruction C E xorca_id accs l data = Ok (l', evs) /\ escrow l' demo_state = nth 0 v 0.
Proof.
  intros H. destruct (probe_ok _ _ _ _ _ _ H) as (l' & evs & H1 & <-). exists l', evs. split; [exact H1|reflexivity].
Qed.
Ltac probe_escrow n m :=
  exact (probe_escrow_ok _ _ _ _ _ _ (demo_probe n m _ _ _ _ eq_refl eq_refl eq_refl)).

(** Successful steps of the demo, as attempts. *)
Lemma demo_step_ok n v evs o :
  nth_error demo_trace n = Some (v, evs, true) -> nth_error demo_ops n = Some o ->
  match o with OpCall _ _ _ => True | _ => False end ->
  attempt demo_crypto (demo n) o = Ok (demo (S n), evs).
Proof.
  intros H Ho Hc. destruct (demo_does _ _ _ _ _ H Ho) as [K1 K2]. rewrite (demo_next _ _ Ho).
  destruct o as [E accs data| | | | | |]; try contradiction. cbn [succeeds run_op attempt] in *.
  destruct (process_instruction _ _ _ _ _ _) as [[l' evs']|]; [|discriminate]. cbn in *. now subst.
Qed.

Lemma tx_second_fails C l o1 o2 l1 e evs :
  attempt C l o1 = Ok (l1, evs) -> attempt C l1 o2 = Err e -> transaction C l [o1; o2] = (l, []).
Proof. intros H1 H2. unfold transaction. cbn [attempt_all]. rewrite H1. cbn [bind fst]. now rewrite H2. Qed.
Lemma tx_two C l o1 o2 l1 l2 evs1 evs2 :
  attempt C l o1 = Ok (l1, evs1) -> attempt C l1 o2 = Ok (l2, evs2) -> fst (transaction C l [o1; o2]) = l2.
Proof. intros H1 H2. unfold transaction. cbn [attempt_all]. rewrite H1. cbn [bind fst]. now rewrite H2. Qed.

Definition nodup_keys (ks : list pubkey) : bool :=
  (fix go ks := match ks with [] => true | k :: ks => negb (existsb (key_eqb k) ks) && go ks end) ks.
Lemma nodup_keys_ok ks : nodup_keys ks = true -> NoDup ks.
Proof.
  induction ks as [|k ks IH]; [constructor|]. cbn. rewrite andb_true_iff, negb_true_iff. intros [H1 H2].
  constructor; [|now apply IH]. intros H. rewrite <- not_true_iff_false in H1. apply H1. apply existsb_exists.
  exists k. split; [exact H|apply key_eqb_refl].
Qed.
Lemma demo_covers :
  covers [alice; demo_state; alice_record; alice_orca; demo_vault; orca_mint_id; system_id; token_id]
    (withdraw_accs alice alice_orca alice_record).
Proof.
  split; [apply nodup_keys_ok; vm_compute; reflexivity|].
  intros m Hm. cbn in Hm. repeat (destruct Hm as [<-|Hm]; [cbn; tauto|]). destruct Hm.
Qed.

Ltac demo_fills :=
  let n := fresh in let k := fresh in let s := fresh in let w := fresh in
  intros n k s w; repeat (destruct n as [|n]; [cbn; intros [= <- <- <-]; eexists; split; [reflexivity|]; repeat split; cbn; try reflexivity; try discriminate|]);
  destruct n; discriminate.

Definition alice_bump : Z := Eval vm_compute in
  match find_pending_withdraw_address demo_crypto alice 0 with Some (_, b) => byte_to_Z b | None => 0 end.
Lemma alice_found : find_pending_withdraw_address demo_crypto alice 0 = Some (alice_record, Z_to_byte alice_bump).
Proof. vm_cast_no_check (eq_refl (Some (alice_record, Z_to_byte alice_bump))). Qed.

Lemma demo_prefunded n v evs ok : nth_error demo_trace n = Some (v, evs, ok) -> 0 <= nth 17 v 0 <= 1000000 ->
  0 <= a_lamports (demo n bob_record) <= a_lamports (set_lamports (demo n) bob_record 1000000 bob_record).
Proof.
  intros H K. rewrite set_lamports_same_lamports. now rewrite (df_lrb _ _ (demo_stage _ _ _ _ H)).
Qed.
(** [collision] is not always true: here is a hash without one for alice and bob. *)
Definition spread : crypto := {|
  sha256 := fun s => key_of [Z_to_byte (Z.of_nat (length s)); nth 16 s x00; nth 48 s x00;
                             nth 49 s x00; nth 5 s x00; nth 96 s x00];
  on_curve := fun _ => false |}.
Lemma spread_parts a b : sha256 spread a = sha256 spread b ->
  Z_to_byte (Z.of_nat (length a)) = Z_to_byte (Z.of_nat (length b)) /\ nth 16 a x00 = nth 16 b x00 /\
  nth 48 a x00 = nth 48 b x00 /\ nth 49 a x00 = nth 49 b x00 /\ nth 5 a x00 = nth 5 b x00 /\ nth 96 a x00 = nth 96 b x00.
Proof.
  intros H. apply (f_equal key_bytes) in H. unfold spread, sha256, key_of, key_bytes, pad32 in H.
  set (n := Z_to_byte (Z.of_nat (length a))) in *. set (m := Z_to_byte (Z.of_nat (length b))) in *.
  cbn [firstn app repeat] in H. injection H as H0 H1 H2 H3 H4 H5. auto 8.
Qed.
Lemma spread_free : ~ collision spread (fun u => u = alice \/ u = bob).
Proof.
  intros (a & b & A & B & N & H). apply N. apply spread_parts in H. destruct H as (H0 & H1 & H2 & H3 & H4 & H5).
  assert (L : forall u, length (key_bytes u) = 32%nat) by apply key_bytes_length.
  assert (V : forall k (c : byte) r, nth 96 (key_bytes k ++ key_bytes token_id ++ key_bytes orca_mint_id ++ c :: r) x00 = c).
  { intros k c r. rewrite app_nth2, L by (rewrite L; lia). reflexivity. }
  destruct A as [p|sk sb p F|u i p U], B as [q|sk' sb' q F'|u' j q U'].
  - cbn in H4. now rewrite H4.
  - exfalso. rewrite !app_length, !L in H0. discriminate H0.
  - exfalso. destruct U' as [-> | ->]; discriminate H0.
  - exfalso. rewrite !app_length, !L in H0. discriminate H0.
  - rewrite !V in H5. subst q. rewrite F in F'. injection F' as -> _. reflexivity.
  - exfalso. rewrite !app_length, !L in H0. discriminate H0.
  - exfalso. destruct U as [-> | ->]; discriminate H0.
  - exfalso. rewrite !app_length, !L in H0. discriminate H0.
  - destruct U as [-> | ->], U' as [-> | ->]; cbn in H1, H2, H3; try discriminate H1; now rewrite H2, H3.
Qed.
