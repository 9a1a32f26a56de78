(** A concrete execution used by the Examples beside the theorems: two users, a
    donation, two pending withdrawals, a payout and both kinds of Set.  Addresses
    are derived with SHA-256 whose last byte is replaced by a mark telling which
    program derives them, so that addresses of different programs visibly differ;
    the curve test is a list of the users and mints, because the real one (RealPda.v)
    is slow to check. *)
From Verif Require Import Spec BytesFacts LedgerFacts InitFacts HistoryFacts LifeFacts PoolHistory.
From Coq Require Import List.

(** ** Accounts *)
Definition demo_key (n : Z) : pubkey := key_of (Z_to_byte n :: repeat x00 30 ++ [x01]).
Definition alice : pubkey := Eval vm_compute in demo_key 1.
Definition bob : pubkey := Eval vm_compute in demo_key 2.
Definition admin : pubkey := Eval vm_compute in demo_key 3.
Definition admin2 : pubkey := Eval vm_compute in demo_key 15.

Definition curve_keys : list pubkey :=
  [deployer_address; alice; bob; admin; admin2; orca_mint_id; xorca_mint_id].
Definition derived_by (bs : list byte) : pubkey := key_of (firstn 32 (skipn (length bs - 53) bs)).
Definition demo_sha (bs : list byte) : pubkey :=
  key_of (firstn 31 (key_bytes (sha256 real_crypto bs)) ++ [if key_eqb (derived_by bs) xorca_id then x00 else x01]).
Definition demo_crypto : crypto := {|
  sha256 := demo_sha;
  on_curve := fun k => existsb (key_eqb k) curve_keys
|}.

Definition found (r : option (pubkey * byte)) : pubkey :=
  match r with Some (k, _) => k | None => zero_key end.
Definition demo_state : pubkey := Eval vm_compute in found (find_state_address demo_crypto).
Definition demo_vault : pubkey := Eval vm_compute in
  found (find_vault_address demo_crypto demo_state token_id orca_mint_id).
Definition alice_record : pubkey := Eval vm_compute in
  found (find_pending_withdraw_address demo_crypto alice 0).
Definition bob_record : pubkey := Eval vm_compute in
  found (find_pending_withdraw_address demo_crypto bob 7).

(** The users' token accounts are their associated accounts. *)
Definition demo_ata (owner mint : pubkey) : pubkey :=
  found (find_program_address demo_crypto [key_bytes owner; key_bytes token_id; key_bytes mint] ata_id).
Definition alice_orca : pubkey := Eval vm_compute in demo_ata alice orca_mint_id.
Definition alice_xorca : pubkey := Eval vm_compute in demo_ata alice xorca_mint_id.
Definition bob_orca : pubkey := Eval vm_compute in demo_ata bob orca_mint_id.
Definition bob_xorca : pubkey := Eval vm_compute in demo_ata bob xorca_mint_id.
Definition demo_keys : list pubkey := curve_keys ++ [alice_orca; alice_xorca; bob_orca; bob_xorca].

Definition demo_mint (auth : pubkey) (supply : Z) : list byte :=
  set_u8 45 1 (set_u8 44 6 (set_u64 36 supply (set_key 4 auth (set_u32 0 1 (zeros 82))))).
Definition demo_ta (mint owner : pubkey) (n : Z) : list byte :=
  set_amount n (init_ta mint owner (zeros ta_len)).

Definition demo_accounts : list (pubkey * account) := Eval vm_compute in [
  (deployer_address, Account 10000000000 system_id []);
  (alice, Account 10000000000 system_id []);
  (bob, Account 10000000000 system_id []);
  (admin, Account 1000000 system_id []);
  (admin2, Account 1000000 system_id []);
  (orca_mint_id, Account 1461600 token_id (demo_mint admin 30000000));
  (xorca_mint_id, Account 1461600 token_id (demo_mint demo_state 0));
  (alice_orca, Account 2039280 token_id (demo_ta orca_mint_id alice 20000000));
  (alice_xorca, Account 2039280 token_id (demo_ta xorca_mint_id alice 0));
  (bob_orca, Account 2039280 token_id (demo_ta orca_mint_id bob 10000000));
  (bob_xorca, Account 2039280 token_id (demo_ta xorca_mint_id bob 0))].

Definition ledger_of (xs : list (pubkey * account)) : ledger := fun k =>
  match find (fun p => key_eqb (fst p) k) xs with Some p => snd p | None => empty_account end.
Definition demo0 : ledger := ledger_of demo_accounts.

Definition demo_env (t : Z) : env :=
  {| now := t; rent_min := fun n => Z.min ((n + 128) * 6960) u64_max |}.

(** ** Calls *)
Definition ws (k : pubkey) : meta := Meta k true true.
Definition w_ (k : pubkey) : meta := Meta k false true.
Definition r_ (k : pubkey) : meta := Meta k false false.

Definition demo_call (t : Z) (accs : list meta) (i : instruction) : op :=
  OpCall (demo_env t) accs (instruction_bytes i).

Definition init_accs (authority : pubkey) : list meta :=
  [ws deployer_address; ws authority; w_ demo_state; w_ demo_vault; r_ xorca_mint_id;
   r_ orca_mint_id; r_ system_id; r_ token_id; r_ ata_id].
Definition stake_accs (user orca xorca : pubkey) : list meta :=
  [ws user; w_ demo_vault; w_ orca; w_ xorca; w_ xorca_mint_id; r_ demo_state; r_ orca_mint_id;
   r_ token_id].
Definition unstake_accs (user xorca rec : pubkey) : list meta :=
  [ws user; w_ demo_state; w_ rec; w_ xorca; w_ xorca_mint_id; r_ orca_mint_id; r_ demo_vault;
   r_ system_id; r_ token_id].
Definition withdraw_accs (user orca rec : pubkey) : list meta :=
  [ws user; w_ demo_state; w_ rec; w_ orca; w_ demo_vault; r_ orca_mint_id; r_ system_id;
   r_ token_id].
Definition set_accs (user : pubkey) : list meta := [ws user; w_ demo_state].

Definition demo_ops : list op := [
  demo_call 1000 (init_accs admin) (Initialize 100);
  demo_call 1100 (stake_accs alice alice_orca alice_xorca) (Stake 5000000);
  OpToken (demo_env 1200) [bob] [] (TC_Transfer bob_orca demo_vault bob 1000000);
  demo_call 1300 (stake_accs bob bob_orca bob_xorca) (Stake 3000000);
  demo_call 2000 (unstake_accs alice alice_xorca alice_record) (Unstake 1000000 0);
  demo_call 2001 (set_accs admin) (Set_ (UpdateCoolDownPeriod 50));
  OpSystem [bob] (SC_Transfer bob bob_record 7);
  demo_call 2010 (unstake_accs bob bob_xorca bob_record) (Unstake 500000 7);
  demo_call 2099 (withdraw_accs alice alice_orca alice_record) (Withdraw 0);   (* too early *)
  demo_call 2100 (withdraw_accs alice alice_orca alice_record) (Withdraw 0);
  demo_call 2200 (set_accs admin) (Set_ (UpdateUpdateAuthority admin2))].

Definition demo (n : nat) : ledger := after demo_crypto demo0 (firstn n demo_ops).

(** ** It is a history *)
Lemma ledger_of_cases xs k :
  (exists a, In (k, a) xs /\ ledger_of xs k = a) \/ ledger_of xs k = empty_account.
Proof.
  unfold ledger_of. destruct (find _ xs) as [[k' a]|] eqn:H; [left|now right].
  apply find_some in H. destruct H as [H1 H2]. apply key_eqb_true in H2. cbn in H2. subst k'.
  exists a. auto.
Qed.

Lemma on_curve_not_pda C k : on_curve C k = true -> ~ program_signs_for C k.
Proof.
  intros H (seeds & K). unfold create_program_address in K.
  destruct (seeds_ok seeds); [|discriminate]. cbv zeta in K.
  destruct (on_curve C (sha256 C (pda_preimage seeds xorca_id))) eqn:Q; [discriminate|]. congruence.
Qed.

Lemma demo_pda_mark k : program_signs_for demo_crypto k -> nth 31 (key_bytes k) x01 = x00.
Proof.
  intros [seeds H]. unfold create_program_address in H. destruct (seeds_ok seeds); [|discriminate].
  cbv zeta in H. destruct (on_curve _ _); [discriminate|]. injection H as <-.
  cbn [sha256 demo_crypto]. unfold demo_sha.
  assert (E : derived_by (pda_preimage seeds xorca_id) = xorca_id).
  { unfold derived_by, pda_preimage. rewrite !app_length, key_bytes_length.
    replace (length pda_marker) with 21%nat by reflexivity.
    replace (length (concat seeds) + (32 + 21) - 53)%nat with (length (concat seeds)) by lia.
    rewrite skipn_app, skipn_all, Nat.sub_diag. cbn [app skipn].
    rewrite firstn_app, key_bytes_length, Nat.sub_diag, firstn_O, app_nil_r.
    rewrite <- (key_bytes_length xorca_id), firstn_all. apply key_of_bytes. }
  rewrite E, key_eqb_refl.
  assert (L : length (firstn 31 (key_bytes (sha256 real_crypto (pda_preimage seeds xorca_id)))) = 31%nat)
    by (rewrite firstn_length, key_bytes_length; reflexivity).
  rewrite key_bytes_key_of by (rewrite app_length, L; reflexivity).
  now rewrite app_nth2, L by (rewrite L; lia).
Qed.

Lemma demo_marked :
  forallb (fun k => on_curve demo_crypto k || Byte.eqb (nth 31 (key_bytes k) x01) x01) demo_keys = true.
Proof. vm_cast_no_check (eq_refl true). Qed.

Lemma demo_not_pda k : In k demo_keys -> ~ program_signs_for demo_crypto k.
Proof.
  intros H. pose proof demo_marked as K. rewrite forallb_forall in K. specialize (K k H).
  apply orb_prop in K. destruct K as [K|K]; [now apply on_curve_not_pda|].
  intros S. apply demo_pda_mark in S. rewrite S in K. discriminate.
Qed.

Lemma demo_sysvars t : is_i64 t -> sysvars_ok (demo_env t).
Proof.
  intros H. split; [exact H|]. intros n Hn. cbn [rent_min demo_env].
  assert (0 < (n + 128) * 6960) by nia.
  unfold is_u64, u64_max in *. lia.
Qed.

(** Facts that hold for the eleven accounts hold for all. *)
Lemma demo_all (P : pubkey -> account -> Prop) :
  Forall (fun p => P (fst p) (snd p)) demo_accounts -> (forall k, P k empty_account) ->
  forall k, P k (demo0 k).
Proof.
  intros H0 H1 k. destruct (ledger_of_cases demo_accounts k) as [(a & H & E)|E]; unfold demo0; rewrite E; [|apply H1].
  rewrite Forall_forall in H0. exact (H0 _ H).
Qed.

Lemma demo_genesis : genesis demo_crypto demo0.
Proof.
  constructor; [ | | |vm_compute; reflexivity..| |].
  - intros k. apply (demo_all (fun _ a => 0 <= a_lamports a)); [|cbn; lia].
    repeat (apply Forall_cons; [vm_compute; discriminate|]). apply Forall_nil.
  - intros k. apply (demo_all (fun _ a => a_owner a = xorca_id -> all_zero (a_data a) = true)); [|reflexivity].
    repeat (apply Forall_cons; [intros H; exfalso; apply (f_equal key_bytes) in H; vm_compute in H; discriminate H|]).
    apply Forall_nil.
  - intros k Hk.
    destruct (ledger_of_cases demo_accounts k) as [(a & H & E)|E]; unfold demo0; rewrite E; [|auto].
    exfalso. apply (demo_not_pda k); [|exact Hk].
    change demo_keys with (map fst demo_accounts). now apply (in_map fst) in H.
  - intros k. apply (demo_all (fun _ a => a_owner a = token_id -> ta_unpack (a_data a) = Ok tt ->
      ta_mint (a_data a) = xorca_mint_id -> ta_native_flag (a_data a) = 0)); [|reflexivity].
    repeat (apply Forall_cons; [vm_compute; reflexivity|]). apply Forall_nil.
  - intros ks _. replace (total demo0 xorca_mint_id ks) with 0; [vm_compute; discriminate|].
    unfold total. induction ks as [|k ks IH]; [reflexivity|]. cbn [map sumZ fold_right].
    unfold sumZ in IH. rewrite <- IH.
    enough (holds demo0 xorca_mint_id k = 0) by lia. unfold holds.
    apply (demo_all (fun _ a => (if key_eqb (a_owner a) token_id && is_ok (ta_unpack (a_data a))
       && key_eqb (ta_mint (a_data a)) xorca_mint_id then ta_amount (a_data a) else 0) = 0)); [|reflexivity].
    repeat (apply Forall_cons; [vm_compute; reflexivity|]). apply Forall_nil.
Qed.

Lemma honest_metas_in C accs :
  Forall (fun m => m_signer m = true -> ~ program_signs_for C (m_key m)) accs -> honest_metas C accs.
Proof. intros H m Hm. rewrite Forall_forall in H. now apply H. Qed.

Ltac demo_in := unfold demo_keys, curve_keys; cbn [app]; repeat (first [left; reflexivity | right]).
Ltac demo_honest :=
  apply honest_metas_in; repeat (apply Forall_cons;
    [cbn [m_signer m_key ws w_ r_]; first [discriminate | intros _; apply demo_not_pda; solve [demo_in]]|]);
  apply Forall_nil.

Lemma demo_ops_ok l : Forall (op_ok demo_crypto l) demo_ops.
Proof.
  unfold demo_ops.
  repeat (apply Forall_cons; [|]); [..|apply Forall_nil];
    unfold demo_call, init_accs, stake_accs, unstake_accs, withdraw_accs, set_accs; cbn [op_ok].
  all: try (split; [apply demo_sysvars; unfold is_i64, i64_min, i64_max; lia|demo_honest]).
  - split; [apply demo_sysvars; unfold is_i64, i64_min, i64_max; lia|]. split; [|reflexivity].
    intros k [<-|[]]. apply demo_not_pda. demo_in.
  - split; [|cbn; lia]. intros k [<-|[]]. apply demo_not_pda. demo_in.
Qed.

Lemma history_any C l0 ops :
  (forall l, Forall (op_ok C l) ops) -> exists evs, history C l0 ops (after C l0 ops) evs.
Proof.
  induction ops as [|o ops IH] using rev_ind; intros H.
  - exists []. constructor.
  - destruct IH as [evs IH].
    { intros l. specialize (H l). rewrite Forall_app in H. apply H. }
    exists (evs ++ snd (run_op C (after C l0 ops) o)).
    rewrite after_app. cbn [after fold_left]. constructor; [exact IH|].
    specialize (H (after C l0 ops)). rewrite Forall_app in H. destruct H as [_ H].
    now inversion H.
Qed.

Lemma Forall_firstn {A} (P : A -> Prop) n xs : Forall P xs -> Forall P (firstn n xs).
Proof. revert n. induction xs; intros [|n] H; cbn; auto. inversion H; auto. Qed.

Lemma demo_history n : exists evs, history demo_crypto demo0 (firstn n demo_ops) (demo n) evs.
Proof. apply history_any. intros l. apply Forall_firstn, demo_ops_ok. Qed.

Lemma demo_reaches n : reaches demo_crypto (demo n).
Proof. destruct (demo_history n) as [evs H]. exists demo0, (firstn n demo_ops), evs. split; [apply demo_genesis|exact H]. Qed.

Lemma demo_is_vault : is_vault demo_crypto demo_state demo_vault.
Proof. exists (Z_to_byte 255). vm_cast_no_check (eq_refl (Some (demo_vault, Z_to_byte 255))). Qed.

Lemma demo_ordinary : ordinary_state_address demo_crypto.
Proof.
  intros k b H. assert (E : find_state_address demo_crypto = Some (demo_state, Z_to_byte 255))
    by (vm_cast_no_check (eq_refl (Some (demo_state, Z_to_byte 255)))).
  rewrite E in H. injection H as <- _. vm_compute. reflexivity.
Qed.

(** ** What happens along it *)
Definition bit (b : bool) : Z := if b then 1 else 0.
Definition stateb (l : ledger) (k : pubkey) : bool :=
  key_eqb (a_owner (l k)) xorca_id && (st_disc (a_data (l k)) =? 1).
Definition recordb (l : ledger) (k : pubkey) : bool :=
  key_eqb (a_owner (l k)) xorca_id && (pw_disc (a_data (l k)) =? 2).

Definition demo_view (l : ledger) : list Z :=
  [escrow l demo_state; cooldown l demo_state; balance l demo_vault; supply l;
   balance l alice_orca; balance l alice_xorca; balance l bob_orca; balance l bob_xorca;
   rec_amount l alice_record; rec_time l alice_record; rec_amount l bob_record; rec_time l bob_record;
   rec_index l alice_record; rec_index l bob_record;
   a_lamports (l alice); a_lamports (l alice_record); a_lamports (l bob); a_lamports (l bob_record);
   bit (stateb l demo_state); bit (recordb l alice_record); bit (recordb l bob_record);
   bit (key_eqb (authority l demo_state) admin); bit (key_eqb (authority l demo_state) admin2);
   bit (key_eqb (rec_owner l alice_record) alice); bit (key_eqb (rec_owner l bob_record) bob)].

Definition succeeds (C : crypto) (l : ledger) (o : op) : bool :=
  match o with OpCall E accs data => is_ok (process_instruction C E xorca_id accs l data) | _ => true end.

Definition step (C : crypto) (l : ledger) (o : op) : ledger * list (list byte) * bool :=
  match o with
  | OpCall E accs data =>
      match process_instruction C E xorca_id accs l data with
      | Ok r => (r, true)
      | Err _ => (l, [], false)
      end
  | _ => (run_op C l o, true)
  end.
Lemma step_is C l o : step C l o = (run_op C l o, succeeds C l o).
Proof.
  destruct o; cbn [step run_op succeeds]; try reflexivity.
  destruct (process_instruction _ _ _ _ _ _); reflexivity.
Qed.

(** For each step: the numbers before it, its events, whether it succeeded. *)
Fixpoint trace (C : crypto) (l : ledger) (ops : list op) : list (list Z * list (list byte) * bool) :=
  match ops with
  | [] => [(demo_view l, [], true)]
  | o :: ops => let '(l', evs, ok) := step C l o in (demo_view l, evs, ok) :: trace C l' ops
  end.

Lemma trace_nth (C : crypto) (l : ledger) (ops : list op) (n : nat) :
  (n <= length ops)%nat ->
  exists (evs : list (list byte)) (ok : bool), nth_error (trace C l ops) n = Some (demo_view (after C l (firstn n ops)), evs, ok) /\
    forall o, nth_error ops n = Some o ->
      evs = snd (run_op C (after C l (firstn n ops)) o) /\ ok = succeeds C (after C l (firstn n ops)) o.
Proof.
  revert l n. induction ops as [|o ops IH]; intros l n Hn.
  - destruct n; [|cbn in Hn; lia]. exists [], true. split; [reflexivity|discriminate].
  - cbn [trace]. rewrite step_is. destruct (run_op C l o) as [l' evs] eqn:H. destruct n.
    + exists evs, (succeeds C l o). split; [reflexivity|]. cbn. intros o' [=<-]. now rewrite H.
    + cbn [nth_error firstn]. destruct (IH l' n) as (evs' & ok' & H1 & H2); [cbn in Hn; lia|].
      exists evs', ok'. cbn [after fold_left]. rewrite H. cbn [fst]. auto.
Qed.

Definition demo_trace : list (list Z * list (list byte) * bool) := Eval vm_compute in trace demo_crypto demo0 demo_ops.
Lemma demo_trace_is : trace demo_crypto demo0 demo_ops = demo_trace.
Proof. vm_cast_no_check (eq_refl demo_trace). Qed.

Lemma demo_at n v evs ok :
  nth_error demo_trace n = Some (v, evs, ok) -> demo_view (demo n) = v.
Proof.
  intros H. destruct (trace_nth demo_crypto demo0 demo_ops n) as (evs' & ok' & H1 & _).
  { assert (n < length demo_trace)%nat by (apply nth_error_Some; rewrite H; discriminate). cbn in *. lia. }
  rewrite demo_trace_is, H in H1. injection H1 as -> _ _. reflexivity.
Qed.
Lemma demo_does n v evs ok o :
  nth_error demo_trace n = Some (v, evs, ok) -> nth_error demo_ops n = Some o ->
  snd (run_op demo_crypto (demo n) o) = evs /\ succeeds demo_crypto (demo n) o = ok.
Proof.
  intros H Ho. destruct (trace_nth demo_crypto demo0 demo_ops n) as (evs' & ok' & H1 & H2).
  { assert (n < length demo_trace)%nat by (apply nth_error_Some; rewrite H; discriminate). cbn in *. lia. }
  rewrite demo_trace_is, H in H1. injection H1 as _ -> ->. destruct (H2 o Ho) as [-> ->]. auto.
Qed.

(** Named facts of stage [n]. *)
Record demo_facts (l : ledger) (v : list Z) : Prop := {
  df_escrow : escrow l demo_state = nth 0 v 0;
  df_cooldown : cooldown l demo_state = nth 1 v 0;
  df_vault : balance l demo_vault = nth 2 v 0;
  df_supply : supply l = nth 3 v 0;
  df_ao : balance l alice_orca = nth 4 v 0;
  df_ax : balance l alice_xorca = nth 5 v 0;
  df_bo : balance l bob_orca = nth 6 v 0;
  df_bx : balance l bob_xorca = nth 7 v 0;
  df_ra : rec_amount l alice_record = nth 8 v 0;
  df_ta : rec_time l alice_record = nth 9 v 0;
  df_rb : rec_amount l bob_record = nth 10 v 0;
  df_tb : rec_time l bob_record = nth 11 v 0;
  df_ia : rec_index l alice_record = nth 12 v 0;
  df_ib : rec_index l bob_record = nth 13 v 0;
  df_la : a_lamports (l alice) = nth 14 v 0;
  df_lra : a_lamports (l alice_record) = nth 15 v 0;
  df_lb : a_lamports (l bob) = nth 16 v 0;
  df_lrb : a_lamports (l bob_record) = nth 17 v 0;
  df_state : nth 18 v 0 = 1 -> is_state l demo_state;
  df_arec : nth 19 v 0 = 1 -> is_record l alice_record;
  df_norec : nth 19 v 0 = 0 -> ~ is_record l alice_record;
  df_brec : nth 20 v 0 = 1 -> is_record l bob_record;
  df_nobrec : nth 20 v 0 = 0 -> ~ is_record l bob_record;
  df_admin : nth 21 v 0 = 1 -> authority l demo_state = admin;
  df_admin2 : nth 22 v 0 = 1 -> authority l demo_state = admin2;
  df_oa : nth 23 v 0 = 1 -> rec_owner l alice_record = alice;
  df_ob : nth 24 v 0 = 1 -> rec_owner l bob_record = bob
}.

Lemma bit_1 b : bit b = 1 -> b = true.
Proof. destruct b; [reflexivity|discriminate]. Qed.
Lemma bit_0 b : bit b = 0 -> b = false.
Proof. destruct b; [discriminate|reflexivity]. Qed.

Lemma view_facts l : demo_facts l (demo_view l).
Proof.
  constructor; unfold demo_view; cbn [nth]; try reflexivity; intros H;
    first [apply bit_1 in H | apply bit_0 in H].
  - unfold stateb in H. apply andb_true_iff in H. destruct H as [H1 H2].
    split; [now apply key_eqb_true|now apply Z.eqb_eq].
  - unfold recordb in H. apply andb_true_iff in H. destruct H as [H1 H2].
    split; [now apply key_eqb_true|now apply Z.eqb_eq].
  - unfold recordb in H. intros [K1 K2]. rewrite K1, K2, key_eqb_refl in H. discriminate.
  - unfold recordb in H. apply andb_true_iff in H. destruct H as [H1 H2].
    split; [now apply key_eqb_true|now apply Z.eqb_eq].
  - unfold recordb in H. intros [K1 K2]. rewrite K1, K2, key_eqb_refl in H. discriminate.
  - now apply key_eqb_true.
  - now apply key_eqb_true.
  - now apply key_eqb_true.
  - now apply key_eqb_true.
Qed.

Lemma demo_stage n v evs ok :
  nth_error demo_trace n = Some (v, evs, ok) -> demo_facts (demo n) v.
Proof. intros H. rewrite <- (demo_at _ _ _ _ H). apply view_facts. Qed.

(** ** Ready-made hypotheses for the Examples *)
Lemma instruction_encodes i : instruction_ok i -> encodes (instruction_bytes i) i.
Proof. intros H. split; [exact H|]. exists []. now rewrite app_nil_r. Qed.

Lemma demo_performs n v evs t accs i :
  nth_error demo_trace n = Some (v, evs, true) ->
  nth_error demo_ops n = Some (demo_call t accs i) -> instruction_ok i ->
  performs demo_crypto (demo n) (demo_call t accs i) i accs t.
Proof.
  intros H Ho Hi. destruct (demo_does _ _ _ _ _ H Ho) as [_ K]. cbn [succeeds demo_call] in K.
  exists (demo_env t), (instruction_bytes i). split; [reflexivity|].
  split; [now apply instruction_encodes|]. split; [reflexivity|exact K].
Qed.

Lemma demo_op_ok n o : nth_error demo_ops n = Some o -> forall l, op_ok demo_crypto l o.
Proof.
  intros H l. pose proof (demo_ops_ok l) as F. rewrite Forall_forall in F. apply F.
  eapply nth_error_In, H.
Qed.

Lemma Forall_skipn {A} (P : A -> Prop) n xs : Forall P xs -> Forall P (skipn n xs).
Proof. revert n. induction xs; intros [|n] H; cbn; auto. inversion H; auto. Qed.

Lemma firstn_plus {A} (m k : nat) (xs : list A) : firstn (m + k) xs = firstn m xs ++ firstn k (skipn m xs).
Proof. revert xs. induction m as [|m IH]; intros [|x xs]; cbn; [reflexivity|reflexivity|now rewrite firstn_nil|]. now rewrite IH. Qed.

Lemma demo_split m k : demo (m + k) = after demo_crypto (demo m) (firstn k (skipn m demo_ops)).
Proof. unfold demo. now rewrite firstn_plus, after_app. Qed.

Lemma demo_next n o : nth_error demo_ops n = Some o -> demo (S n) = fst (run_op demo_crypto (demo n) o).
Proof.
  intros H. replace (S n) with (n + 1)%nat by lia. rewrite demo_split.
  replace (firstn 1 (skipn n demo_ops)) with [o]; [reflexivity|].
  revert n H. generalize demo_ops as xs. induction xs as [|x xs IH]; intros [|n] H; cbn in *; try discriminate.
  - injection H as <-. now destruct xs.
  - now apply IH.
Qed.

Lemma demo_between m k :
  exists evs, history demo_crypto (demo m) (firstn k (skipn m demo_ops)) (demo (m + k)) evs.
Proof.
  rewrite demo_split. apply history_any. intros l. apply Forall_firstn, Forall_skipn, demo_ops_ok.
Qed.

Lemma demo_11 : demo 11 = after demo_crypto demo0 demo_ops.
Proof. reflexivity. Qed.

Global Opaque demo.

(** [see n] uses the numbers of stage [n]. *)
Ltac see n :=
  let H := fresh in pose proof (demo_stage n _ _ _ eq_refl) as H;
  match goal with
  | |- is_state _ demo_state => exact (df_state _ _ H eq_refl)
  | |- is_record _ alice_record => exact (df_arec _ _ H eq_refl)
  | |- is_record _ bob_record => exact (df_brec _ _ H eq_refl)
  | |- ~ is_record _ alice_record => exact (df_norec _ _ H eq_refl)
  | |- ~ is_record _ bob_record => exact (df_nobrec _ _ H eq_refl)
  | |- authority _ _ = admin => exact (df_admin _ _ H eq_refl)
  | |- authority _ _ = admin2 => exact (df_admin2 _ _ H eq_refl)
  | |- rec_owner _ _ = alice => exact (df_oa _ _ H eq_refl)
  | |- rec_owner _ _ = bob => exact (df_ob _ _ H eq_refl)
  | |- _ =>
      unfold free_orca;
      rewrite ?(df_escrow _ _ H), ?(df_cooldown _ _ H), ?(df_vault _ _ H), ?(df_supply _ _ H),
        ?(df_ao _ _ H), ?(df_ax _ _ H), ?(df_bo _ _ H), ?(df_bx _ _ H), ?(df_ra _ _ H), ?(df_ta _ _ H),
        ?(df_rb _ _ H), ?(df_tb _ _ H), ?(df_ia _ _ H), ?(df_ib _ _ H), ?(df_la _ _ H), ?(df_lra _ _ H),
        ?(df_lb _ _ H), ?(df_lrb _ _ H); cbn [nth]; clear H; try reflexivity
  end.
Ltac demo_call_ok n :=
  eapply (demo_performs n); [reflexivity|reflexivity|
    cbn; unfold is_u8, is_u64, is_i64, i64_min, i64_max, u64_max; try lia; try exact I].
