(** How calls depend on the clock. *)
From Verif Require Import Spec BytesFacts LedgerFacts HistoryFacts RaiseFacts ClientSpec EffectFacts CpiFacts AssertFacts FreezeStep LocalFacts.
Import List ListNotations.
Open Scope list_scope.
Open Scope Z_scope.

Lemma create_rent C E E' accs l f a s o seeds :
  (forall n, rent_min E n = rent_min E' n) ->
  create_account_secure C E accs l f a s o seeds = create_account_secure C E' accs l f a s o seeds.
Proof. intros R. unfold create_account_secure. now rewrite R. Qed.
Lemma bind_same {A B} (r : res err A) (f f' : A -> res err B) : (forall a, r = Ok a -> f a = f' a) -> bind r f = bind r f'.
Proof. intros H. destruct r; cbn; auto. Qed.
Lemma init_rent E E' l a m o :
  (forall n, rent_min E n = rent_min E' n) -> token_init_account E l a m o = token_init_account E' l a m o.
Proof. intros R. unfold token_init_account. now rewrite R. Qed.
Lemma ata_rent C E E' accs l p v s m sp tp :
  (forall n, rent_min E n = rent_min E' n) ->
  cpi_ata_create C E accs l p v s m sp tp = cpi_ata_create C E' accs l p v s m sp tp.
Proof.
  intros R. unfold cpi_ata_create, invoke_signed. do 3 (apply bind_same; intros ? _).
  unfold ata_create_idempotent. destruct (find_program_address _ _ _) as [[? ?]|]; [|exact eq_refl].
  apply bind_same; intros _ _. rewrite (R ta_len).
  destruct (key_eqb _ token_id && _); [exact eq_refl|]. apply bind_same; intros _ _. cbv zeta.
  apply bind_same; intros l1 _. now apply init_rent.
Qed.

Lemma initialize_rent C E E' accs l c :
  (forall n, rent_min E n = rent_min E' n) -> initialize_process C E accs l c = initialize_process C E' accs l c.
Proof.
  intros R. unfold initialize_process, create_state_account. do 9 (apply bind_same; intros ? _).
  repeat match goal with |- bind _ _ = bind _ _ => apply bind_same; intros ? _ end. cbv zeta.
  repeat match goal with |- bind _ _ = bind _ _ => apply bind_same; intros ? _ end.
  destruct (find_vault_address _ _ _ _) as [[? ?]|]; [|exact eq_refl].
  do 2 (apply bind_same; intros ? _). rewrite (create_rent C E E' _ _ _ _ _ _ _ R).
  apply bind_same; intros ? _. rewrite (ata_rent C E E' _ _ _ _ _ _ _ _ R). exact eq_refl.
Qed.

(** Staking, initialising and setting do not read the clock. *)
Theorem clock_unread C E E' accs l data i :
  encodes data i -> (match i with Unstake _ _ | Withdraw _ => False | _ => True end) ->
  (forall n, rent_min E n = rent_min E' n) ->
  process_instruction C E xorca_id accs l data = process_instruction C E' xorca_id accs l data.
Proof.
  intros He Hi R. rewrite !process_handle. apply decode_encodes in He. rewrite He.
  destruct i as [a|x j|j|c|u]; [exact eq_refl|destruct Hi|destruct Hi| |exact eq_refl].
  cbn [handle]. now apply initialize_rent.
Qed.

(** Waiting longer changes nothing about a withdrawal. *)
Lemma le_fail b b' e : (b' = true -> b = true) -> ok_le (fail_if b e) (fail_if b' e).
Proof. intros H x. unfold fail_if. destruct b, b'; try discriminate; auto. discriminate (H eq_refl). Qed.
Theorem withdraw_later C E E' accs l data i r :
  encodes data (Withdraw i) -> now E <= now E' ->
  process_instruction C E xorca_id accs l data = Ok r -> process_instruction C E' xorca_id accs l data = Ok r.
Proof.
  intros He Hn. rewrite !process_handle. apply decode_encodes in He. rewrite He. cbn [handle].
  revert r. change (ok_le (withdraw_process C E accs l i) (withdraw_process C E' accs l i)).
  unfold withdraw_process.
  repeat match goal with |- ok_le (bind (fail_if (now _ <? _) _) _) _ => fail 1
    | |- ok_le (bind _ _) (bind _ _) => apply le_bind; [apply le_refl|intros ?]; cbv zeta end.
  apply le_bind; [|intros ?; apply le_refl]. apply le_fail. rewrite !Z.ltb_lt. lia.
Qed.

(** Two unstakes from one ledger at different times. *)
Definition two_clocks (E' : env) (sk k : pubkey) (r r' : res err outcome) : Prop :=
  forall l1 evs, r = Ok (l1, evs) ->
    exists pd v, a_data (l1 k) = set_u64 48 v pd /\
      (is_i64 (now E' + cooldown l1 sk) -> exists l2, r' = Ok (l2, evs) /\
        (forall a, a <> k -> l2 a = l1 a) /\
        l2 k = Account (a_lamports (l1 k)) (a_owner (l1 k)) (set_u64 48 (now E' + cooldown l1 sk) pd)) /\
      (~ is_i64 (now E' + cooldown l1 sk) -> r' = Err (custom CoolDownOverflow)).
Lemma two_bind E' sk k {A} (x : res err A) f f' :
  (forall a, x = Ok a -> two_clocks E' sk k (f a) (f' a)) -> two_clocks E' sk k (bind x f) (bind x f').
Proof. intros H. destruct x; cbn [bind]; [now apply H|intros l1 evs [=]]. Qed.
Ltac two_step := lazymatch goal with
  | |- two_clocks _ _ _ (bind (i64_checked_add _ _ _) _) _ => fail
  | |- two_clocks _ _ _ (bind ?x _) (bind ?x _) => apply two_bind; intros ? ?
  end.
Lemma unstake_two C E E' accs l x i mu ms mp :
  (forall n, rent_min E n = rent_min E' n) ->
  get_account_info accs 0 = Ok mu -> get_account_info accs 1 = Ok ms -> get_account_info accs 2 = Ok mp ->
  two_clocks E' (m_key ms) (m_key mp) (unstake_process C E accs l x i) (unstake_process C E' accs l x i).
Proof.
  intros R Gu Gs Gp. unfold unstake_process, create_pending_account. rewrite Gu, Gs, Gp. cbn [bind].
  do 6 two_step. do 7 two_step.
  match goal with H : assert_account_owner _ ms _ = _ |- _ => apply owner_ok in H; rename H into Os end.
  do 3 two_step.
  match goal with H : assert_account_owner _ mp _ = _ |- _ => apply owner_ok in H; rename H into Op end.
  assert (N : m_key mp <> m_key ms).
  { intros K. rewrite K, Os in Op. discriminate Op. }
  repeat two_step. cbv zeta. repeat (two_step; cbv zeta).
  rewrite (create_rent C E E' _ _ _ _ _ _ _ R). cbv zeta. repeat (two_step; cbv zeta).
  intros l1 evs Hr. unfold i64_checked_add in Hr |- *.
  destruct (_ && _) in Hr; [cbn [bind] in Hr|discriminate Hr].
  match type of Hr with Ok (set_data (set_data ?l3 _ _) _ (set_u64 48 ?v ?pd), _) = _ =>
    set (d := pd) in *; set (t := v) in *; set (l4 := set_data l3 (m_key mp) d) in * end.
  injection Hr as X1 X2. symmetry in X1. rewrite <- X1 in X2.
  assert (S : l1 (m_key ms) = l4 (m_key ms)) by (rewrite X1; now apply set_data_other).
  exists d, t. split; [rewrite X1; apply upd_data_same|].
  unfold cooldown. rewrite S. split.
  - intros R2. unfold is_i64 in R2.
    replace ((i64_min <=? _) && (_ <=? i64_max)) with true by (unfold i64_min, i64_max; lia). cbn [bind].
    eexists. split; [|split].
    + rewrite set_data_other by assumption. rewrite <- X2, S. reflexivity.
    + intros q Hq. rewrite X1. rewrite !set_data_other; auto.
    + rewrite X1. rewrite !set_data_same. reflexivity.
  - intros R2. unfold is_i64 in R2.
    replace ((i64_min <=? _) && (_ <=? i64_max)) with false by (unfold i64_min, i64_max; lia). reflexivity.
Qed.

Theorem unstake_two_clocks C E E' accs l data x i l1 evs :
  sysvars_ok E -> honest_metas C accs -> encodes data (Unstake x i) ->
  (forall n, rent_min E n = rent_min E' n) ->
  process_instruction C E xorca_id accs l data = Ok (l1, evs) ->
  exists sk k, slot accs 1 sk /\ slot accs 2 k /\
    (is_i64 (now E' + cooldown l sk) ->
     exists l2, process_instruction C E' xorca_id accs l data = Ok (l2, evs) /\
       (forall a, a <> k -> l2 a = l1 a) /\
       a_lamports (l2 k) = a_lamports (l1 k) /\ a_owner (l2 k) = a_owner (l1 k) /\
       same_bytes_except [(48, 8)%nat] (a_data (l1 k)) (a_data (l2 k)) /\
       rec_time l2 k - rec_time l1 k = now E' - now E) /\
    (~ is_i64 (now E' + cooldown l sk) ->
     process_instruction C E' xorca_id accs l data = Err (custom CoolDownOverflow)).
Proof.
  intros HE Hh He R H.
  destruct (unstake_exact _ _ _ _ _ _ _ _ _ HE Hh He H) as (un & sk & k & ux & vk & w & F).
  destruct F as ((mu & Nu & _) & (ms & Ns & <-) & (mp & Np & <-) & F).
  assert (T : rec_time l1 (m_key mp) = now E + cooldown l (m_key ms)) by apply F.
  assert (L : length (a_data (l1 (m_key mp))) = 1024%nat) by apply F.
  assert (Sd : same_bytes_except [escrow_field] (a_data (l (m_key ms))) (a_data (l1 (m_key ms)))) by apply F.
  assert (St : is_state l (m_key ms)) by apply F. clear F.
  assert (K : cooldown l1 (m_key ms) = cooldown l (m_key ms)) by
    (unfold cooldown, st_cooldown, get_i64; rewrite (same_slice_out _ _ _ 16 8 Sd); [reflexivity|]; intros ? ? [[= <- <-]|[]]; lia).
  exists (m_key ms), (m_key mp). split; [now exists ms|]. split; [now exists mp|].
  rewrite !process_handle in *. apply decode_encodes in He. rewrite He in *. cbn [handle] in *.
  destruct (unstake_two C E E' accs l x i mu ms mp R (proj2 (get_account_ok _ _ _) Nu)
    (proj2 (get_account_ok _ _ _) Ns) (proj2 (get_account_ok _ _ _) Np) l1 evs H) as (pd & v & D & Y & Z).
  rewrite K in Y, Z. split; [|exact Z]. intros Hi. destruct (Y Hi) as (l2 & P & Q & W).
  assert (Lp : length pd = 1024%nat).
  { assert (56 <= length pd)%nat.
    { destruct (Nat.le_gt_cases 56 (length pd)) as [|G]; [assumption|]. exfalso. rewrite D in L. unfold set_u64, splice in L.
      rewrite !app_length, firstn_length, skipn_length, le_enc_length in L. lia. }
    rewrite D, set_u64_length in L by lia. exact L. }
  exists l2. split; [exact P|]. split; [exact Q|]. rewrite W. cbn [a_lamports a_owner a_data].
  split; [reflexivity|]. split; [reflexivity|]. split.
  - rewrite D. apply same_trans with pd; [|apply same_u64; [lia|now left]].
    split; [now rewrite set_u64_length by lia|]. intros j Hj. symmetry. now apply (same_u64 48 v pd [(48, 8)%nat]); [lia|left|].
  - rewrite T. unfold rec_time, pw_timestamp. rewrite W. cbn [a_data]. rewrite get_set_i64 by (assumption || lia). lia.
Qed.
