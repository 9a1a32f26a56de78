(** The runtime's checks of account changes never get in the way. *)
From Verif Require Export Runtime Spec.
From Verif Require Import BytesFacts LayoutFacts Pool AssertFacts LedgerFacts CpiFacts OutsideFacts Totals ConserveFacts HistoryFacts
  PoolHistory FreezeStep LocalFacts BorrowFacts.
From Coq Require Import Permutation.
Import List ListNotations.
Open Scope list_scope.
Open Scope Z_scope.

(** ** What is permitted *)
Lemma permitted_one accs k a b :
  (a_owner a <> xorca_id -> a_lamports a <= a_lamports b /\ a_data b = a_data a) ->
  (caller_writes accs k = false -> a_lamports b = a_lamports a /\ a_data b = a_data a) ->
  zlen (a_data b) <= zlen (a_data a) + 10240 ->
  a_owner b = a_owner a \/ a_owner a = xorca_id /\ caller_writes accs k = true /\ all_zero (a_data b) = true ->
  change_permitted accs k a b = Ok tt.
Proof.
  intros H1 H2 H3 H4. unfold change_permitted.
  assert (Eq : a_data b = a_data a -> bytes_eqb (a_data a) (a_data b) = true) by (intros ->; now apply bytes_eqb_true).
  destruct (key_eqb (a_owner a) xorca_id) eqn:Q.
  - cbn [negb andb fail_if bind]. destruct (caller_writes accs k) eqn:W.
    + cbn [negb andb fail_if bind]. rewrite (fail_if_Ok (_ <? _)) by (apply Z.ltb_ge; lia). cbn [bind].
      destruct H4 as [H4|(_ & _ & H4)]; [rewrite H4, key_eqb_refl; reflexivity|].
      rewrite H4. cbn [negb]. rewrite andb_false_r. reflexivity.
    + destruct (H2 eq_refl) as [L D]. rewrite L, Z.eqb_refl, (Eq D). cbn [negb andb fail_if bind].
      rewrite (fail_if_Ok (_ <? _)) by (apply Z.ltb_ge; lia). cbn [bind].
      destruct H4 as [H4|(_ & ? & _)]; [rewrite H4, key_eqb_refl; reflexivity|discriminate].
  - apply key_eqb_false in Q. destruct (H1 Q) as [L D]. rewrite D, Z.eqb_refl, (proj2 (bytes_eqb_true _ _) eq_refl).
    rewrite (fail_if_Ok (negb false && _)) by (cbn; apply Z.ltb_ge; lia). cbn [bind negb andb].
    rewrite !andb_false_r. cbn [fail_if bind].
    rewrite (fail_if_Ok (_ && negb (_ =? _))).
    2:{ destruct (caller_writes accs k) eqn:W; [reflexivity|]. destruct (H2 eq_refl) as [-> _]. now rewrite Z.eqb_refl. }
    cbn [bind]. rewrite (fail_if_Ok (_ <? _)) by (apply Z.ltb_ge; lia). cbn [bind fail_if].
    destruct H4 as [->|(? & _)]; [now rewrite key_eqb_refl|contradiction].
Qed.

Lemma distinct_in ks k : In k (distinct ks) <-> In k ks.
Proof.
  induction ks as [|x r IH]; cbn; [tauto|]. destruct (existsb (key_eqb x) r) eqn:Q.
  - rewrite IH. split; [auto|]. intros [<-|H]; [|exact H]. apply existsb_exists in Q. destruct Q as (y & Y & Q).
    apply key_eqb_true in Q. now subst.
  - cbn. now rewrite IH.
Qed.
Lemma distinct_nodup ks : NoDup (distinct ks).
Proof.
  induction ks as [|x r IH]; cbn; [constructor|]. destruct (existsb (key_eqb x) r) eqn:Q; [exact IH|].
  constructor; [|exact IH]. rewrite distinct_in. intros H.
  assert (existsb (key_eqb x) r = true) by (apply existsb_exists; exists x; split; [exact H|apply key_eqb_refl]). congruence.
Qed.
Lemma lamport_sum_is l ks : lamport_sum l ks = lamport_total l (distinct ks).
Proof.
  unfold lamport_sum, lamport_total, sumZ. induction (distinct ks) as [|k r IH]; [reflexivity|]. cbn. now rewrite IH.
Qed.

Lemma permitted_ok accs l l' :
  (forall k, change_permitted accs k (l k) (l' k) = Ok tt) ->
  lamport_sum l (map m_key accs) = lamport_sum l' (map m_key accs) -> permitted accs l l' = Ok tt.
Proof.
  intros H1 H2. unfold permitted.
  assert (E : forall ks, changes_permitted accs ks l l' = Ok tt).
  { intros ks. induction ks as [|k r IH]; [reflexivity|]. cbn. now rewrite H1. }
  rewrite E. cbn [bind]. rewrite H2, Z.eqb_refl. reflexivity.
Qed.
Lemma permitted_same accs l : permitted accs l l = Ok tt.
Proof.
  apply permitted_ok; [|reflexivity]. intros k. apply permitted_one; auto; [|lia]. intros _; split; [lia|reflexivity].
Qed.
(** The program writes to the data of one writable account of its own. *)
Lemma permitted_data accs l k d :
  a_owner (l k) = xorca_id -> caller_writes accs k = true -> zlen d <= zlen (a_data (l k)) + 10240 ->
  permitted accs l (set_data l k d) = Ok tt.
Proof.
  intros Ho Hw Hd. apply permitted_ok.
  - intros j. apply permitted_one.
    + intros N. rewrite set_data_other by congruence. split; [lia|reflexivity].
    + intros N. rewrite set_data_other by congruence. auto.
    + destruct (key_eq_dec k j) as [<-|N]; [now rewrite upd_data_same|rewrite set_data_other by exact N; lia].
    + left. apply set_data_owner.
  - rewrite !lamport_sum_is. unfold lamport_total. apply sum_ext. intros j _. now rewrite set_data_lamports.
Qed.
Lemma splice_grows off (new d : list byte) : zlen (splice off new d) <= zlen d + zlen new.
Proof. unfold zlen, splice. rewrite !app_length, firstn_length, skipn_length. lia. Qed.

(** ** Lockstep *)
Lemma own_bind A B (r : res err A) (k : A -> res run_err B) (k' : A -> res err B) :
  (forall x, r = Ok x -> k x = own (k' x)) -> bind (own r) k = own (bind r k').
Proof. intros H. destruct r as [x|e]; cbn; [apply H; reflexivity|reflexivity]. Qed.
Lemma call_same accs l r : call_checked accs l l r = own r.
Proof. unfold call_checked. rewrite permitted_same. reflexivity. Qed.
Lemma call_ok accs l0 l r : permitted accs l0 l = Ok tt -> call_checked accs l0 l r = own r.
Proof. intros H. unfold call_checked. rewrite H. reflexivity. Qed.
Ltac step := apply own_bind; let x := fresh "x" in let H := fresh "H" in intros x H.

Lemma stake_same C accs l a : stake_r C accs l a = own (stake_process C accs l a).
Proof.
  unfold stake_r, stake_process. repeat step. rewrite call_same. step. rewrite call_same. step.
  rewrite permitted_same. reflexivity.
Qed.

Lemma slot_writes accs n m u : get_account_info accs n = Ok m -> assert_account_role m [Writable] = Ok u -> caller_writes accs (m_key m) = true.
Proof.
  intros H R. apply role_w in R. apply get_account_ok in H. apply nth_error_In in H. now apply writes_in.
Qed.
Lemma signer_writes accs n m u :
  get_account_info accs n = Ok m -> assert_account_role m [Signer; Writable] = Ok u -> caller_writes accs (m_key m) = true.
Proof.
  intros H R. apply role_sw in R. apply get_account_ok in H. apply nth_error_In in H. now apply writes_in.
Qed.

Lemma set_same C accs l u : set_r C accs l u = own (set_process C accs l u).
Proof.
  unfold set_r, set_process. do 8 step.
  assert (W : caller_writes accs (m_key x0) = true) by (eapply slot_writes; eassumption).
  apply owner_ok in H3. apply state_data_ok in H4. destruct H4 as [-> _].
  destruct u.
  - step. rewrite permitted_data; [reflexivity|assumption..|]. unfold set_cooldown, set_u64.
    etransitivity; [apply splice_grows|]. unfold zlen. rewrite le_enc_length. lia.
  - rewrite permitted_data; [reflexivity|assumption..|]. unfold set_authority, set_key.
    etransitivity; [apply splice_grows|]. unfold zlen. rewrite key_bytes_length. lia.
Qed.

(** ** New accounts *)
Lemma create_same C E accs l0 l f n sp o s :
  permitted accs l0 l = Ok tt -> a_owner (l (m_key n)) = system_id ->
  create_account_r C E accs l0 l f n sp o s =
  own (let? l1 := create_account_secure C E accs l f n sp o s in Ok (l1, l1)).
Proof.
  intros H Ho. unfold create_account_r, create_account_secure. rewrite Ho, key_eqb_refl. cbn [negb].
  destruct (_ =? 0).
  - rewrite call_ok by exact H. destruct (cpi_system_create _ _ _ _ _ _ _ _ _); reflexivity.
  - destruct (0 <? _).
    + rewrite call_ok by exact H. destruct (cpi_system_transfer _ _ _ _ _ _ _) as [l1|e]; [|reflexivity]. cbn [bind own fst snd].
      rewrite call_same. destruct (cpi_system_allocate _ _ _ _ _ _) as [l2|e]; [|reflexivity]. cbn [bind own].
      rewrite call_same. destruct (cpi_system_assign _ _ _ _ _ _); reflexivity.
    + cbn [bind fst snd]. rewrite call_ok by exact H.
      destruct (cpi_system_allocate _ _ _ _ _ _) as [l2|e]; [|reflexivity]. cbn [bind own].
      rewrite call_same. destruct (cpi_system_assign _ _ _ _ _ _); reflexivity.
Qed.
Lemma assign_owner sg l k o l' : sys_assign sg l k o = Ok l' -> a_owner (l' k) = o.
Proof.
  unfold sys_assign. destruct (key_eqb (a_owner (l k)) o) eqn:Q; [intros [= <-]; now apply key_eqb_true|].
  intros H. inv_bind H u. inv_bind H u0. inv_bind H u1. injection H as <-. apply set_owner_same_owner.
Qed.
Lemma transfer_owner sg l f t n l' k : sys_transfer sg l f t n = Ok l' -> a_owner (l' k) = a_owner (l k).
Proof.
  unfold sys_transfer. intros H. inv_bind H u. inv_bind H u0. inv_bind H u1. inv_bind H u2. inv_bind H u3. injection H as <-.
  now rewrite !set_lamports_owner.
Qed.
Lemma create_owner C E accs l f n sp o s l1 :
  a_owner (l (m_key n)) = system_id -> create_account_secure C E accs l f n sp o s = Ok l1 -> a_owner (l1 (m_key n)) = o.
Proof.
  intros Ho. unfold create_account_secure. rewrite Ho, key_eqb_refl. cbn [negb].
  assert (As : forall l2, cpi_system_assign C accs s l2 n o = Ok l1 -> a_owner (l1 (m_key n)) = o).
  { intros l2 H. unfold cpi_system_assign in H. apply invoke_signed_ok in H. destruct H as (p & _ & _ & _ & H).
    eapply assign_owner; exact H. }
  destruct (_ =? 0).
  - intros H. unfold cpi_system_create in H. apply invoke_signed_ok in H. destruct H as (p & _ & _ & _ & H).
    unfold sys_create_account in H. inv_bind H u. inv_bind H u1. inv_bind H u2.
    rewrite (transfer_owner _ _ _ _ _ _ _ H). eapply assign_owner; eassumption.
  - intros H. inv_bind H l2. inv_bind H l3. eapply As; exact H.
Qed.

(** Several writes to one account. *)
Lemma permitted_writes accs l l' k :
  (forall j, j <> k -> l' j = l j) -> a_owner (l k) = xorca_id -> a_owner (l' k) = xorca_id ->
  a_lamports (l' k) = a_lamports (l k) -> caller_writes accs k = true -> zlen (a_data (l' k)) <= zlen (a_data (l k)) + 10240 ->
  permitted accs l l' = Ok tt.
Proof.
  intros Hj Ho Ho' Hl Hw Hd. apply permitted_ok.
  - intros j. destruct (key_eq_dec j k) as [->|N].
    + apply permitted_one; [congruence|congruence|exact Hd|left; congruence].
    + rewrite (Hj j N). apply permitted_one; auto; [|lia]. intros _. split; [lia|reflexivity].
  - rewrite !lamport_sum_is. unfold lamport_total. apply sum_ext. intros j _.
    destruct (key_eq_dec j k) as [->|N]; [now symmetry|now rewrite Hj].
Qed.

Lemma token_keeps_owner E sg ex l c l' k :
  token_exec E sg ex l c = Ok l' -> lamports_ok l -> a_owner (l k) <> token_id -> a_owner (l' k) = a_owner (l k) /\ a_data (l' k) = a_data (l k).
Proof.
  intros H Hl Ho.
  destruct (token_exec_write _ _ _ _ _ _ Hl H k) as [W _]. destruct (W Ho) as (? & ? & _). auto.
Qed.

Lemma pending_same C E accs l0 l f n s :
  permitted accs l0 l = Ok tt -> a_owner (l (m_key n)) = system_id ->
  create_pending_r C E accs l0 l f n s =
  own (let? l1 := create_account_secure C E accs l f n PENDING_LEN xorca_id s in
       let? d := set_first_byte DISC_PENDING (a_data (l1 (m_key n))) in
       Ok (l1, set_data l1 (m_key n) d)).
Proof.
  intros H Ho. unfold create_pending_r. rewrite create_same by assumption.
  destruct (create_account_secure _ _ _ _ _ _ _ _ _) as [l1|e]; [|reflexivity]. cbn [own bind fst snd].
  destruct (set_first_byte _ _); reflexivity.
Qed.
Lemma state_same C E accs l0 l f n s x :
  permitted accs l0 l = Ok tt -> a_owner (l (m_key n)) = system_id ->
  create_state_r C E accs l0 l f n s x =
  own (let? l1 := create_account_secure C E accs l f n STATE_LEN xorca_id s in
       check? fail_if (zlen (a_data (l1 (m_key n))) <? zlen (state_borsh x)) EInvalidAccountData in
       Ok (l1, set_data l1 (m_key n) (splice 0 (state_borsh x) (a_data (l1 (m_key n)))))).
Proof.
  intros H Ho. unfold create_state_r. rewrite create_same by assumption.
  destruct (create_account_secure _ _ _ _ _ _ _ _ _) as [l1|e]; [|reflexivity]. cbn [own bind fst snd].
  destruct (fail_if _ _); reflexivity.
Qed.

Lemma initialize_same C E accs l c : initialize_r C E accs l c = own (initialize_process C E accs l c).
Proof.
  unfold initialize_r, initialize_process. do 34 step.
  destruct (find_vault_address _ _ _ _) as [[v b]|]; [|reflexivity]. do 2 step.
  assert (W : caller_writes accs (m_key x1) = true) by (eapply slot_writes; eassumption).
  assert (Ho : a_owner (l (m_key x1)) = system_id) by (eapply owner_ok; eassumption).
  rewrite state_same by (assumption || apply permitted_same). unfold create_state_account.
  destruct (create_account_secure C E accs l x x1 STATE_LEN xorca_id [state_seeds ++ [[Z_to_byte x11]]]) as [l1|e] eqn:Q; [|reflexivity].
  pose proof (create_owner _ _ _ _ _ _ _ _ _ _ Ho Q) as O1. cbn [bind].
  destruct (fail_if (zlen (a_data (l1 (m_key x1))) <? _) _) as [?|?]; [|reflexivity]. cbn [own bind fst snd].
  rewrite call_ok.
  - step. rewrite permitted_same. reflexivity.
  - apply permitted_data; [exact O1|exact W|]. etransitivity; [apply splice_grows|].
    unfold zlen. rewrite state_borsh_length. lia.
Qed.

Lemma set_u8_grows off v d : zlen (set_u8 off v d) <= zlen d + 1.
Proof. unfold set_u8. etransitivity; [apply splice_grows|]. unfold zlen at 2. cbn. lia. Qed.
Lemma set_u64_grows off v d : zlen (set_u64 off v d) <= zlen d + 8.
Proof. unfold set_u64. etransitivity; [apply splice_grows|]. unfold zlen at 2. rewrite le_enc_length. lia. Qed.
Lemma set_key_grows off v d : zlen (set_key off v d) <= zlen d + 32.
Proof. unfold set_key. etransitivity; [apply splice_grows|]. unfold zlen at 2. rewrite key_bytes_length. lia. Qed.
Lemma first_byte_len v d d' : set_first_byte v d = Ok d' -> zlen d' = zlen d.
Proof. unfold set_first_byte. destruct d as [|b r]; intros [=]; subst; reflexivity. Qed.

Lemma unstake_same C E accs l x i : lamports_ok l -> unstake_r C E accs l x i = own (unstake_process C E accs l x i).
Proof.
  intros Hlam. unfold unstake_r, unstake_process. do 35 step. rewrite call_same. do 3 step.
  assert (Ws : caller_writes accs (m_key x1) = true) by (eapply slot_writes; eassumption).
  assert (Wp : caller_writes accs (m_key x2) = true) by (eapply slot_writes; eassumption).
  assert (Os : a_owner (l (m_key x1)) = xorca_id) by (eapply owner_ok; eassumption).
  assert (Op : a_owner (l (m_key x2)) = system_id) by (eapply owner_ok; eassumption).
  destruct ids_apart as [Dt Ds].
  assert (K : forall k, a_owner (l k) <> token_id -> a_owner (x35 k) = a_owner (l k)).
  { intros k N. unfold cpi_token_burn in H34. apply invoke_signed_ok in H34. destruct H34 as (p & _ & _ & _ & B).
    eapply (token_keeps_owner E _ _ _ (TC_Burn (m_key x3) (m_key x4) (m_key x0) x)); [exact B|exact Hlam|exact N]. }
  assert (Os1 : a_owner (x35 (m_key x1)) = xorca_id) by (rewrite K; congruence).
  assert (Op1 : a_owner (x35 (m_key x2)) = system_id) by (rewrite K; [exact Op|]; rewrite Op; discriminate).
  rewrite pending_same.
  2:{ apply permitted_data; [exact Os1|exact Ws|]. unfold set_escrow. etransitivity; [apply set_u64_grows|].
      apply state_data_ok in H35. destruct H35 as [-> _]. lia. }
  2:{ rewrite set_data_owner. exact Op1. }
  unfold create_pending_account.
  match goal with |- context [create_account_secure ?C ?E ?a ?l ?f ?n ?s ?o ?d] =>
    destruct (create_account_secure C E a l f n s o d) as [l1|e] eqn:Q end; [|reflexivity].
  apply create_owner in Q; [|rewrite set_data_owner; exact Op1]. cbn [bind].
  destruct (set_first_byte DISC_PENDING (a_data (l1 (m_key x2)))) as [d|e] eqn:Qd; [|reflexivity]. cbn [own bind fst snd].
  step. rewrite (permitted_writes accs l1 _ (m_key x2)).
  - reflexivity.
  - intros j Hj. now rewrite !set_data_other by congruence.
  - exact Q.
  - now rewrite !set_data_owner.
  - now rewrite !set_data_lamports.
  - exact Wp.
  - rewrite !upd_data_same. apply first_byte_len in Qd.
    pose proof (set_u64_grows 48 x38 (set_u64 40 x33 (set_key 8 (m_key x0) (set_u8 7 i (set_u8 6 x19 d))))).
    pose proof (set_u64_grows 40 x33 (set_key 8 (m_key x0) (set_u8 7 i (set_u8 6 x19 d)))).
    pose proof (set_key_grows 8 (m_key x0) (set_u8 7 i (set_u8 6 x19 d))).
    pose proof (set_u8_grows 7 i (set_u8 6 x19 d)). pose proof (set_u8_grows 6 x19 d). lia.
Qed.
(** ** Closing *)
Definition end_r accs l1 (pending unstaker state : meta) amt i : res run_err outcome :=
  let? l2 := close_r l1 pending unstaker in
  let? state_view1 := own (assert_state_data l2 state) in
  let? new_escrow := own (u64_checked_sub (st_escrow state_view1) amt InsufficientEscrow) in
  let l3 := set_data l2 (m_key state) (set_escrow new_escrow state_view1) in
  check? permitted accs l1 l3 in
  Ok (l3, [event_bytes (EvWithdraw new_escrow amt (st_cooldown (a_data (l3 (m_key state)))) i)]).
Definition end_ l1 (pending unstaker state : meta) amt i : res err outcome :=
  let? l2 := close_program_account l1 pending unstaker in
  let? state_view1 := assert_state_data l2 state in
  let? new_escrow := u64_checked_sub (st_escrow state_view1) amt InsufficientEscrow in
  let l3 := set_data l2 (m_key state) (set_escrow new_escrow state_view1) in
  Ok (l3, [event_bytes (EvWithdraw new_escrow amt (st_cooldown (a_data (l3 (m_key state)))) i)]).

Lemma permitted_sum accs l l' u : permitted accs l l' = Ok u -> lamport_sum l (map m_key accs) = lamport_sum l' (map m_key accs).
Proof.
  unfold permitted. intros H. inv_bind H w. apply fail_if_ok, negb_false_iff, Z.eqb_eq in H. exact H.
Qed.
Lemma wrap_small n : 0 <= n <= u64_max -> wrap_u64 n = n.
Proof. intros H. unfold wrap_u64. apply Z.mod_small. unfold u64_max in H. lia. Qed.
Lemma wrap_big n : u64_max < n -> wrap_u64 n < n.
Proof. intros H. unfold wrap_u64. pose proof (Z.mod_pos_bound n (2 ^ 64) ltac:(lia)). unfold u64_max in H. lia. Qed.

(** What the end of a withdrawal does to lamports, whatever the total [n]. *)
Definition moved l p r n : ledger :=
  set_owner (set_data (set_lamports (set_lamports l r n) p 0) p []) p system_id.
Lemma moved_lam l p r n k :
  a_lamports (moved l p r n k) = if key_eqb p k then 0 else if key_eqb r k then n else a_lamports (l k).
Proof.
  unfold moved. rewrite set_owner_lamports, set_data_lamports. destruct (key_eqb p k) eqn:Q.
  - apply key_eqb_true in Q. subst. now rewrite set_lamports_same.
  - apply key_eqb_false in Q. rewrite set_lamports_other by exact Q. destruct (key_eqb r k) eqn:Q'.
    + apply key_eqb_true in Q'. subst. now rewrite set_lamports_same.
    + apply key_eqb_false in Q'. now rewrite set_lamports_other by exact Q'.
Qed.

Lemma moved_sum l p r n ks :
  NoDup ks -> In p ks -> In r ks ->
  lamport_total (moved l p r n) ks =
  lamport_total l ks - a_lamports (l p) + (if key_eqb p r then 0 else n - a_lamports (l r)).
Proof.
  intros N Hp Hr. unfold lamport_total.
  rewrite (sum_ext _ (fun k => a_lamports (l k) + (at_ p (- a_lamports (l p)) k + at_ r (if key_eqb p r then 0 else n - a_lamports (l r)) k))).
  - rewrite sum_add, sum_add, !sum_at by assumption. lia.
  - intros k _. rewrite moved_lam. unfold at_. destruct (key_eq_dec p k) as [->|Np]; [|destruct (key_eq_dec r k) as [->|Nr]].
    + rewrite key_eqb_refl. destruct (key_eq_dec r k) as [->|Nr].
      * rewrite key_eqb_refl. lia.
      * rewrite !(key_eqb_neq _ _ Nr). lia.
    + rewrite !(key_eqb_neq _ _ Np), key_eqb_refl. lia.
    + rewrite !(key_eqb_neq _ _ Np), !(key_eqb_neq _ _ Nr). lia.
Qed.

Lemma close_is l p r :
  close_program_account l p r =
  (let? d := set_first_byte DISC_CLOSED (a_data (l (m_key p))) in
   let n := a_lamports (l (m_key r)) + a_lamports (l (m_key p)) in
   check? fail_if (u64_max <? n) EPanic in
   check? fail_if (key_eqb (m_key r) (m_key p) && (0 <? a_lamports (l (m_key p)))) EPanic in
   Ok (moved (set_data l (m_key p) d) (m_key p) (m_key r) n)).
Proof.
  unfold close_program_account, moved. destruct (set_first_byte _ _); [|reflexivity]. cbn [bind]. cbn zeta.
  rewrite !set_data_lamports. reflexivity.
Qed.
Lemma close_r_is l p r :
  close_r l p r =
  own (let? d := set_first_byte DISC_CLOSED (a_data (l (m_key p))) in
   let n := a_lamports (l (m_key r)) + a_lamports (l (m_key p)) in
   Ok (moved (set_data l (m_key p) d) (m_key p) (m_key r) (wrap_u64 n))).
Proof.
  unfold close_r, moved. destruct (set_first_byte _ _); [|reflexivity]. cbn [bind own]. cbn zeta.
  rewrite !set_data_lamports. reflexivity.
Qed.

Lemma end_agrees accs l p r s amt i :
  lamports_ok l -> a_owner (l (m_key p)) = xorca_id -> a_owner (l (m_key s)) = xorca_id -> m_key s <> m_key p ->
  caller_writes accs (m_key p) = true -> caller_writes accs (m_key s) = true -> caller_writes accs (m_key r) = true ->
  In (m_key p) (map m_key accs) -> In (m_key r) (map m_key accs) ->
  end_r accs l p r s amt i = own (end_ l p r s amt i) \/
  end_ l p r s amt i = Err EPanic /\ (exists e, end_r accs l p r s amt i = Err e) /\
  (m_key r = m_key p \/ u64_max < a_lamports (l (m_key r)) + a_lamports (l (m_key p))).
Proof.
  intros Hl Op Os Nsp Wp Ws Wr Ip Ir. unfold end_r, end_. rewrite close_is, close_r_is.
  destruct (set_first_byte DISC_CLOSED (a_data (l (m_key p)))) as [d|e]; [|left; reflexivity]. cbn [own bind]. cbn zeta.
  set (n := a_lamports (l (m_key r)) + a_lamports (l (m_key p))).
  assert (Hn : 0 <= n) by (unfold n; pose proof (Hl (m_key r)); pose proof (Hl (m_key p)); lia).
  set (l0 := set_data l (m_key p) d).
  assert (L0 : forall k, a_lamports (l0 k) = a_lamports (l k)) by (intros k; unfold l0; apply set_data_lamports).
  assert (Sum : forall m q, lamport_sum (set_data (moved l0 (m_key p) (m_key r) m) (m_key s) q) (map m_key accs) =
    lamport_sum l (map m_key accs) - a_lamports (l (m_key p)) +
    (if key_eqb (m_key p) (m_key r) then 0 else m - a_lamports (l (m_key r)))).
  { intros m q. rewrite !lamport_sum_is.
    assert (X : lamport_total (set_data (moved l0 (m_key p) (m_key r) m) (m_key s) q) (distinct (map m_key accs)) =
                lamport_total (moved l0 (m_key p) (m_key r) m) (distinct (map m_key accs))).
    { unfold lamport_total. apply sum_ext. intros k _. apply set_data_lamports. }
    rewrite X, moved_sum by (apply distinct_nodup || now apply distinct_in). rewrite !L0. f_equal. f_equal.
    unfold lamport_total. apply sum_ext. intros k _. apply L0. }
  assert (Bad : forall m, (if key_eqb (m_key p) (m_key r) then 0 else m - a_lamports (l (m_key r))) <> a_lamports (l (m_key p)) ->
    exists e, (let? state_view1 := own (assert_state_data (moved l0 (m_key p) (m_key r) m) s) in
      let? new_escrow := own (u64_checked_sub (st_escrow state_view1) amt InsufficientEscrow) in
      check? permitted accs l (set_data (moved l0 (m_key p) (m_key r) m) (m_key s) (set_escrow new_escrow state_view1)) in
      Ok (set_data (moved l0 (m_key p) (m_key r) m) (m_key s) (set_escrow new_escrow state_view1),
        [event_bytes (EvWithdraw new_escrow amt (st_cooldown (a_data
           (set_data (moved l0 (m_key p) (m_key r) m) (m_key s) (set_escrow new_escrow state_view1) (m_key s)))) i)])) = Err e).
  { intros m Hm. destruct (assert_state_data _ _) as [sv|e]; [|eexists; reflexivity]. cbn [own bind].
    destruct (u64_checked_sub _ _ _) as [ne|e]; [|eexists; reflexivity]. cbn [own bind].
    destruct (permitted _ _ _) as [u|e] eqn:P; [|eexists; reflexivity]. apply permitted_sum in P. rewrite Sum in P. lia. }
  destruct (u64_max <? n) eqn:Qn.
  { cbn [fail_if bind]. right. split; [reflexivity|]. apply Z.ltb_lt in Qn. split; [|now right]. apply Bad.
    destruct (key_eqb (m_key p) (m_key r)) eqn:Q.
    - apply key_eqb_true in Q. unfold n in Qn. rewrite <- Q in Qn. unfold u64_max in Qn. lia.
    - pose proof (wrap_big _ Qn). unfold n in *. lia. }
  apply Z.ltb_ge in Qn. cbn [fail_if bind]. rewrite wrap_small by lia.
  destruct (key_eqb (m_key r) (m_key p) && (0 <? a_lamports (l (m_key p)))) eqn:Qs.
  { cbn [fail_if bind]. right. apply andb_true_iff in Qs. destruct Qs as [Qk Ql]. apply key_eqb_true in Qk. apply Z.ltb_lt in Ql.
    split; [reflexivity|]. split; [|now left]. apply Bad. rewrite Qk, key_eqb_refl. lia. }
  left. cbn [fail_if bind]. step. step.
  rewrite permitted_ok.
  - reflexivity.
  - apply state_data_ok in H. destruct H as [-> _].
    assert (M : forall k, k <> m_key p -> k <> m_key r -> moved l0 (m_key p) (m_key r) n k = l k).
    { intros k N1 N2. unfold moved, l0. rewrite set_owner_other, set_data_other, !set_lamports_other, set_data_other by congruence. reflexivity. }
    assert (Do : forall k, k <> m_key p -> a_data (moved l0 (m_key p) (m_key r) n k) = a_data (l k) /\
                                   a_owner (moved l0 (m_key p) (m_key r) n k) = a_owner (l k)).
    { intros k N1. unfold moved, l0. rewrite set_owner_data, (set_owner_other _ _ _ k), !set_data_owner, !set_lamports_owner, set_data_owner by congruence.
      split; [|reflexivity]. rewrite (set_data_other _ _ _ k), !set_lamports_data, set_data_other by congruence. reflexivity. }
    intros k. destruct (key_eq_dec k (m_key p)) as [->|Np].
    + rewrite set_data_other by exact Nsp.
      assert (Dp : a_data (moved l0 (m_key p) (m_key r) n (m_key p)) = []).
      { unfold moved. rewrite set_owner_data, set_data_same. reflexivity. }
      apply permitted_one; [congruence|congruence| |].
      * rewrite Dp. unfold zlen. cbn. lia.
      * right. rewrite Dp. auto.
    + destruct (Do k Np) as [D O]. apply permitted_one.
      * intros N. rewrite set_data_other by congruence. rewrite D. split; [|reflexivity]. rewrite moved_lam.
        rewrite key_eqb_neq by congruence. destruct (key_eqb (m_key r) k) eqn:Q; [|rewrite L0; lia].
        apply key_eqb_true in Q. subst k. unfold n. pose proof (Hl (m_key p)). lia.
      * intros N. rewrite set_data_other, M by congruence. auto.
      * destruct (key_eq_dec (m_key s) k) as [<-|Ns].
        -- rewrite upd_data_same. unfold set_escrow. etransitivity; [apply set_u64_grows|]. rewrite D. lia.
        -- rewrite set_data_other by exact Ns. rewrite D. lia.
      * left. rewrite set_data_owner. exact O.
  - rewrite Sum. apply andb_false_iff in Qs. destruct (key_eqb (m_key p) (m_key r)) eqn:Q.
    + apply key_eqb_true in Q. destruct Qs as [Qs|Qs]; [rewrite Q, key_eqb_refl in Qs; discriminate|].
      apply Z.ltb_ge in Qs. pose proof (Hl (m_key p)). lia.
    + unfold n. lia.
Qed.

Definition agree (K : Prop) {A} (r : res run_err A) (r' : res err A) : Prop :=
  r = own r' \/ r' = Err EPanic /\ (exists e, r = Err e) /\ K.
Lemma agree_bind (K : Prop) A B (r : res err A) (k : A -> res run_err B) (k' : A -> res err B) :
  (forall x, r = Ok x -> agree K (k x) (k' x)) -> agree K (bind (own r) k) (bind r k').
Proof. intros H. destruct r as [x|e]; cbn; [apply H; reflexivity|left; reflexivity]. Qed.
Ltac stepa := apply agree_bind; let x := fresh "x" in let H := fresh "H" in intros x H.

(** What is known when the refund cannot be paid. *)
Definition stuck C accs l : Prop := exists un st pd vk l1,
  get_account_info accs 0 = Ok un /\ get_account_info accs 1 = Ok st /\ get_account_info accs 2 = Ok pd /\
  m_signer un = true /\ is_state l (m_key st) /\ is_record l (m_key pd) /\
  vault_address_with_bump C (m_key st) orca_mint_id (st_vault_bump (a_data (l (m_key st)))) = vk /\
  (ordinary l vk -> forall k, a_lamports (l1 k) = a_lamports (l k)) /\
  (m_key un = m_key pd \/ u64_max < a_lamports (l1 (m_key un)) + a_lamports (l1 (m_key pd))).

Lemma transfer_lam sg ex l f t a n l' :
  token_transfer sg ex l f t a n = Ok l' -> ordinary l f -> forall k, a_lamports (l' k) = a_lamports (l k).
Proof.
  intros H Ho k. unfold token_transfer in H. repeat match type of H with bind _ _ = _ => let u := fresh in inv_bind H u end.
  unfold ta_is_native in H. unfold ordinary in Ho. rewrite Ho in H. cbn in H.
  destruct (key_eqb f t); [now injection H as <-|]. inv_bind H u. injection H as <-. now rewrite !set_data_lamports.
Qed.

Lemma withdraw_agrees C E accs l i :
  lamports_ok l -> agree (stuck C accs l) (withdraw_r C E accs l i) (withdraw_process C E accs l i).
Proof.
  intros Hlam. unfold withdraw_r, withdraw_process. do 26 stepa. rewrite call_same. stepa.
  fold (end_r accs x25 x1 x x0 (pw_amount x17) i). fold (end_ x25 x1 x x0 (pw_amount x17) i).
  assert (Ws : caller_writes accs (m_key x0) = true) by (eapply slot_writes; eassumption).
  assert (Wp : caller_writes accs (m_key x1) = true) by (eapply slot_writes; eassumption).
  assert (Wu : caller_writes accs (m_key x) = true) by (eapply signer_writes; eassumption).
  apply role_sw in H7. destruct H7 as [Su _].
  apply owner_ok in H11. apply owner_ok in H16.
  apply state_data_ok in H12. destruct H12 as [-> [_ D1]]. apply pending_data_ok in H17. destruct H17 as [-> [_ D2]].
  assert (N : m_key x0 <> m_key x1).
  { intros Q. rewrite Q in D1. unfold st_disc in D1. unfold pw_disc in D2. congruence. }
  destruct ids_apart as [Dt _].
  unfold cpi_token_transfer in H25. apply invoke_signed_ok in H25. destruct H25 as (pdas & _ & _ & _ & B).
  assert (B' := fun h => token_keeps_owner E _ _ _ (TC_Transfer (m_key x3) (m_key x2) (m_key x0) (pw_amount (a_data (l (m_key x1))))) _ h B Hlam).
  assert (L1 : lamports_ok x25).
  { eapply (token_exec_lamports E _ _ _ (TC_Transfer (m_key x3) (m_key x2) (m_key x0) (pw_amount (a_data (l (m_key x1))))));
      [exact Hlam| |exact B].
    cbn [token_call_ok]. unfold pw_amount. pose proof (get_u64_range 40 (a_data (l (m_key x1)))) as [R1 R2].
    apply andb_true_iff. split; apply Z.leb_le; [exact R1|]. unfold u64_max. lia. }
  destruct (end_agrees accs x25 x1 x x0 (pw_amount (a_data (l (m_key x1)))) i) as [Q|(Q1 & Q2 & Q3)]; try assumption.
  - destruct (B' (m_key x1)) as [-> _]; [congruence|exact H16].
  - destruct (B' (m_key x0)) as [-> _]; [congruence|exact H11].
  - apply in_map. apply get_account_ok in H1. now apply nth_error_In in H1.
  - apply in_map. apply get_account_ok in H. now apply nth_error_In in H.
  - left. exact Q.
  - right. split; [exact Q1|]. split; [exact Q2|].
    apply verify_vault_ok in H14. apply address_ok in H8. rewrite H8 in H14.
    exists x, x0, x1, (m_key x3), x25. repeat split; try assumption; [now symmetry|].
    intros Ho. eapply transfer_lam; eassumption.
Qed.

(** ** Whole calls *)
Theorem runtime_same_successes C E p accs l data r :
  lamports_ok l -> (process_instruction_r C E p accs l data = Ok r <-> process_instruction C E p accs l data = Ok r).
Proof.
  intros Hl. assert (O : forall A (x : res err A) a, own x = Ok a <-> x = Ok a) by (intros A [a0|e0] a; cbn; split; congruence).
  unfold process_instruction_r, process_instruction. destruct (fail_if _ _); cbn [own bind]; [|split; discriminate].
  destruct (deserialize read_instruction data) as [[]|]; [| | | | |split; discriminate].
  all: rewrite ?stake_same, ?initialize_same, ?set_same, ?unstake_same by exact Hl; try apply O.
  match goal with |- withdraw_r _ _ _ _ ?i = _ <-> _ => destruct (withdraw_agrees C E accs l i Hl) as [->|(-> & [e ->] & _)] end;
    [apply O|split; discriminate].
Qed.

Theorem runtime_never_refuses C E p accs l data :
  ordinary_state_address C -> reaches C l -> honest_metas C accs ->
  (forall j k, In j (map m_key accs) -> In k (map m_key accs) -> j <> k ->
     a_lamports (l j) + a_lamports (l k) <= u64_max) ->
  process_instruction_r C E p accs l data = own (process_instruction C E p accs l data).
Proof.
  intros Hord Hr Hh Hsum. pose proof (reaches_lam _ _ Hord Hr) as Hl.
  unfold process_instruction_r, process_instruction. destruct (fail_if _ _); cbn [own bind]; [|reflexivity].
  destruct (deserialize read_instruction data) as [[]|]; [| | | | |reflexivity].
  all: rewrite ?stake_same, ?initialize_same, ?set_same, ?unstake_same by exact Hl; try reflexivity.
  match goal with |- withdraw_r _ _ _ _ ?i = _ => destruct (withdraw_agrees C E accs l i Hl) as [->|(_ & _ & S)] end; [reflexivity|].
  exfalso. destruct S as (un & st & pd & vk & l1 & G0 & G1 & G2 & Su & Is & Ir & Hv & Hlam & K).
  destruct (reaches_pool _ _ _ Hord Hr Is) as (vk' & P & HP).
  assert (vk' = vk) as -> by (rewrite <- Hv; symmetry; eapply pool_vault_is; eassumption).
  assert (Np : m_key un <> m_key pd).
  { intros Q. apply get_account_ok in G0. apply nth_error_In in G0. apply (Hh _ G0 Su). rewrite Q.
    apply (record_pda _ l). apply (po_records _ _ _ _ _ HP). eapply pool_is_record; eassumption. }
  destruct K as [K|K]; [contradiction|].
  assert (Ov : ordinary l vk) by apply (po_vault _ _ _ _ _ HP).
  rewrite !(Hlam Ov) in K.
  assert (I : forall n m, get_account_info accs n = Ok m -> In (m_key m) (map m_key accs)).
  { intros n m G. apply in_map. apply get_account_ok in G. now apply nth_error_In in G. }
  pose proof (Hsum _ _ (I _ _ G0) (I _ _ G2) Np). lia.
Qed.

(** ** What the comparison asks *)
Lemma change_permitted_inv accs k a b :
  change_permitted accs k a b = Ok tt ->
  (a_owner a <> xorca_id -> a_lamports a <= a_lamports b /\ a_data b = a_data a) /\
  (caller_writes accs k = false -> a_lamports b = a_lamports a /\ a_data b = a_data a) /\
  zlen (a_data b) <= zlen (a_data a) + 10240 /\
  (a_owner b = a_owner a \/ a_owner a = xorca_id /\ caller_writes accs k = true /\ all_zero (a_data b) = true).
Proof.
  unfold change_permitted. intros H.
  assert (D : bytes_eqb (a_data a) (a_data b) = true -> a_data b = a_data a) by (intros Q; apply bytes_eqb_true in Q; congruence).
  assert (O : negb (key_eqb (a_owner a) (a_owner b)) = false -> a_owner b = a_owner a)
    by (intros Q; apply negb_false_iff, key_eqb_true in Q; congruence).
  destruct (key_eqb (a_owner a) xorca_id) eqn:Qo, (caller_writes accs k) eqn:Qw, (bytes_eqb (a_data a) (a_data b)) eqn:Qd.
  all: cbn [negb andb] in H; repeat match type of H with (check? fail_if ?c _ in _) = _ =>
         let Q := fresh "Q" in destruct c eqn:Q; cbn [fail_if bind] in H; [discriminate H|] end.
  all: try discriminate H.
  all: apply fail_if_ok in H.
  all: repeat match goal with Q : (_ <? _) = false |- _ => apply Z.ltb_ge in Q
                            | Q : negb (_ =? _) = false |- _ => apply negb_false_iff, Z.eqb_eq in Q end.
  all: first [apply key_eqb_true in Qo|apply key_eqb_false in Qo].
  all: repeat split; try (intros; solve [auto|congruence|contradiction|discriminate]); try lia; auto.
  all: try (destruct (negb (key_eqb (a_owner a) (a_owner b))) eqn:Qk; [|left; apply O; reflexivity]; cbn [andb] in H).
  all: try discriminate H.
  all: try (right; apply negb_false_iff in H; solve [auto]).
Qed.
Lemma given_iff accs k : caller_writes accs k = true <-> given_writable accs k.
Proof.
  split; [apply writes_given|]. intros (m & I & <- & W). now apply writes_in.
Qed.
Lemma given_not accs k : caller_writes accs k = false <-> ~ given_writable accs k.
Proof. rewrite <- given_iff. destruct (caller_writes accs k); split; congruence. Qed.
Lemma permitted_iff accs l l' :
  permitted accs l l' = Ok tt <->
  (forall k, In k (map m_key accs) ->
     (a_owner (l k) <> xorca_id -> a_lamports (l k) <= a_lamports (l' k) /\ a_data (l' k) = a_data (l k)) /\
     (~ given_writable accs k -> a_lamports (l' k) = a_lamports (l k) /\ a_data (l' k) = a_data (l k)) /\
     zlen (a_data (l' k)) <= zlen (a_data (l k)) + 10240 /\
     (a_owner (l' k) = a_owner (l k) \/
      a_owner (l k) = xorca_id /\ given_writable accs k /\ all_zero (a_data (l' k)) = true)) /\
  (forall ks, NoDup ks -> (forall k, In k ks <-> In k (map m_key accs)) -> lamport_total l' ks = lamport_total l ks).
Proof.
  assert (Ch : forall ks, changes_permitted accs ks l l' = Ok tt <-> (forall k, In k ks -> change_permitted accs k (l k) (l' k) = Ok tt)).
  { induction ks as [|k r IH]; cbn [changes_permitted]; [split; [intros _ k []|reflexivity]|].
    split.
    - intros H j [<-|I].
      + destruct (change_permitted _ _ _ _) as [[]|]; [reflexivity|discriminate H].
      + destruct (change_permitted accs k _ _) as [[]|]; [|discriminate H]. now apply IH.
    - intros H. rewrite (H k (or_introl eq_refl)). cbn [bind]. apply IH. intros j I. apply H. now right. }
  assert (Su : forall m ks, NoDup ks -> (forall k, In k ks <-> In k (map m_key accs)) ->
               lamport_total m ks = lamport_sum m (map m_key accs)).
  { intros m ks N I. rewrite lamport_sum_is. unfold lamport_total.
    assert (Pm : Permutation ks (distinct (map m_key accs))).
    { apply NoDup_Permutation; [exact N|apply distinct_nodup|]. intros k. now rewrite distinct_in, I. }
    clear - Pm. induction Pm; cbn; unfold sumZ in *; cbn in *; lia. }
  split.
  - intros H. pose proof (permitted_sum _ _ _ _ H) as S. unfold permitted in H. inv_bind H u. destruct u.
    split.
    + intros k I. rewrite Ch in Hx. specialize (Hx k I). apply change_permitted_inv in Hx.
      rewrite <- given_not, <- given_iff. exact Hx.
    + intros ks N I. rewrite !Su by assumption. congruence.
  - intros [H1 H2]. unfold permitted.
    assert (X : changes_permitted accs (map m_key accs) l l' = Ok tt).
    { apply Ch. intros k I. specialize (H1 k I). rewrite <- given_not, <- given_iff in H1. apply permitted_one; tauto. }
    rewrite X. cbn [bind]. specialize (H2 (distinct (map m_key accs)) (distinct_nodup _) (fun k => distinct_in _ k)).
    rewrite <- !lamport_sum_is in H2. rewrite H2, Z.eqb_refl. reflexivity.
Qed.
