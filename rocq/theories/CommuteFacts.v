(** Withdrawals of different records can be made in either order (C43). *)
From Verif Require Import Spec BytesFacts FieldFacts LedgerFacts TokenFacts ParseFacts CpiFacts
  AssertFacts LayoutFacts MathFacts Economics PoolMath StakeFacts UnstakeFacts WithdrawFacts SetFacts InitFacts
  CodecFacts Totals OutsideFacts TokenStep VaultStep Calm Pool PoolStake PoolUnstake PoolInit PoolHistory HistoryFacts
  LifeFacts RateFacts EffectFacts FailFacts SlotFacts LiveFacts.

Lemma splice_twice {A} off (a b d : list A) :
  length a = length b -> (off + length a <= length d)%nat -> splice off a (splice off b d) = splice off a d.
Proof.
  intros Hl Hd. unfold splice at 1 3. f_equal; [|f_equal].
  - unfold splice. rewrite firstn_app, firstn_length, Nat.min_l by lia.
    rewrite Nat.sub_diag. cbn [firstn]. rewrite app_nil_r. rewrite firstn_firstn. now rewrite Nat.min_id.
  - unfold splice. rewrite skipn_app, firstn_length, Nat.min_l by lia.
    rewrite (skipn_all2 (firstn off d)) by (rewrite firstn_length; lia). cbn [app].
    replace (off + length a - off)%nat with (length b) by lia.
    rewrite skipn_app, Nat.sub_diag, skipn_all. cbn [app skipn]. now rewrite Hl.
Qed.

Lemma set_u64_twice off v w d :
  (off + 8 <= length d)%nat -> set_u64 off v (set_u64 off w d) = set_u64 off v d.
Proof. intros H. unfold set_u64. apply splice_twice; rewrite !le_enc_length; [reflexivity|exact H]. Qed.

(** What a Withdraw does, account by account. *)
Record paid (l l' : ledger) (un sk k uo vk : pubkey) : Prop := {
  pa_k : l' k = Account 0 system_id [];
  pa_sk : a_data (l' sk) = set_escrow (escrow l sk - rec_amount l k) (a_data (l sk));
  pa_uo : a_data (l' uo) = set_amount (balance l uo + rec_amount l k) (a_data (l uo));
  pa_vk : a_data (l' vk) = set_amount (balance l vk - rec_amount l k) (a_data (l vk));
  pa_rest : forall a, ~ In a [sk; k; uo; vk] -> a_data (l' a) = a_data (l a);
  pa_owner : forall a, a <> k -> a_owner (l' a) = a_owner (l a);
  pa_lam : forall a, a <> k -> a_lamports (l' a) =
             a_lamports (l a) + (if key_eqb un a then a_lamports (l k) else 0)
}.

Lemma effect_paid l l' un sk k uo vk :
  NoDup [sk; k; uo; vk] -> un <> k ->
  leq l' (withdraw_effect l un sk k uo vk (a_data (l vk))) -> paid l l' un sk k uo vk.
Proof.
  intros Hn Hk He. unfold withdraw_effect, claim in He. fold (escrow l sk) (rec_amount l k) in He.
  inversion Hn as [|? ? I1 Hn1]. inversion Hn1 as [|? ? I2 Hn2]. inversion Hn2 as [|? ? I3 _]. cbn in I1, I2, I3. subst.
  assert (D : sk <> k /\ sk <> uo /\ sk <> vk /\ k <> uo /\ k <> vk /\ uo <> vk) by (repeat split; intros K; subst; tauto).
  clear I1 I2 I3 Hn Hn1 Hn2. destruct D as (D1 & D2 & D3 & D4 & D5 & D6).
  constructor.
  - rewrite He. rewrite set_data_other, upd_same by congruence. reflexivity.
  - rewrite He. apply upd_data_same.
  - rewrite He. rewrite set_data_other, upd_other, set_lamports_data by congruence. unfold transferred. apply upd_data_same.
  - rewrite He. rewrite set_data_other, upd_other, set_lamports_data by congruence. unfold transferred.
    rewrite set_data_other by congruence. apply upd_data_same.
  - intros a Ha. cbn in Ha. rewrite He. rewrite set_data_other, upd_other, set_lamports_data by tauto.
    unfold transferred. rewrite !set_data_other by tauto. reflexivity.
  - intros a Ha. rewrite He. rewrite set_data_owner, upd_other, set_lamports_owner by congruence. unfold transferred.
    now rewrite !set_data_owner.
  - intros a Ha. rewrite He. rewrite set_data_lamports, upd_other by congruence.
    destruct (key_eq_dec un a) as [<-|N].
    + rewrite set_lamports_same_lamports, key_eqb_refl. reflexivity.
    + rewrite set_lamports_other by exact N. rewrite (key_eqb_neq _ _ N). unfold transferred.
      rewrite !set_data_lamports. lia.
Qed.

(** Everything a Withdraw needs besides the accounts of the call. *)
Definition payable (C : crypto) (E : env) (l : ledger) (vk un k uo : pubkey) (i : Z) : Prop :=
  is_record l k /\ k = pending_address_with_bump C un i (pw_bump (a_data (l k))) /\ rec_time l k <= now E /\
  active_account l uo orca_mint_id un /\ ta_state (a_data (l vk)) = 1 /\
  balance l uo + rec_amount l k <= u64_max /\ a_lamports (l un) + a_lamports (l k) <= u64_max.

Lemma pool_vault_ne C l sk vk P k : pool C l sk vk P -> a_owner (l k) = xorca_id -> vk <> k.
Proof. intros HP H K. pose proof (vo_owner _ _ _ _ (po_vault _ _ _ _ _ HP)). apply xt_ne. congruence. Qed.

Lemma pay_names C E l sk vk P accs un k uo i :
  pool C l sk vk P -> honest_metas C accs -> fills accs (withdraw_roles un sk k uo vk) ->
  payable C E l vk un k uo i -> NoDup [sk; k; uo; vk] /\ un <> k /\ un <> sk.
Proof.
  intros HP Hh Hf (Hr & Hkey & Ht & Huo & Hvs & Hroom & Hlam).
  destruct (withdraw_ready C E l sk vk P accs un k uo i HP Hh Hf Hr Hkey Ht Huo Hvs Hroom Hlam)
    as (m0 & m1 & m2 & m3 & m4 & m5 & m6 & m7 & Pre & K0 & K1 & K2 & K3 & K4 & Hne & Hnk).
  assert (Nsk : un <> sk).
  { rewrite <- K0. apply (honest_ne C accs); [exact Hh|eapply nth_error_In; apply Pre|apply Pre|].
    eapply pool_sk_signs; eassumption. }
  split; [|auto]. destruct Hr as [Ho Hd]. destruct Huo as [(Uo & _) _]. pose proof (po_state _ _ _ _ _ HP) as So.
  assert (sk <> k). { intros K. rewrite <- K in Hd. pose proof (po_sdisc _ _ _ _ _ HP). unfold pw_disc, st_disc in *. congruence. }
  assert (sk <> uo) by (intros K; apply xt_ne; congruence).
  assert (k <> uo) by (intros K; apply xt_ne; congruence).
  pose proof (pool_vault_ne _ _ _ _ _ _ HP Ho). pose proof (pool_vault_ne _ _ _ _ _ _ HP So).
  repeat constructor; cbn; intuition congruence.
Qed.

(** The call succeeds exactly then. *)
Lemma pay_run C E l sk vk P accs data un k uo i :
  pool C l sk vk P -> honest_metas C accs -> encodes data (Withdraw i) ->
  fills accs (withdraw_roles un sk k uo vk) -> payable C E l vk un k uo i ->
  exists l', process_instruction C E xorca_id accs l data
             = Ok (l', [event_bytes (EvWithdraw (escrow l sk - rec_amount l k) (rec_amount l k) (cooldown l sk) i)]) /\
    paid l l' un sk k uo vk.
Proof.
  intros HP Hh Henc Hf Hp. pose proof (pay_names _ _ _ _ _ _ _ _ _ _ _ HP Hh Hf Hp) as (Hn & Hnk & _).
  destruct Hp as (Hr & Hkey & Ht & Huo & Hvs & Hroom & Hlam).
  destruct (withdraw_ready C E l sk vk P accs un k uo i HP Hh Hf Hr Hkey Ht Huo Hvs Hroom Hlam)
    as (m0 & m1 & m2 & m3 & m4 & m5 & m6 & m7 & Pre & K0 & K1 & K2 & K3 & K4 & Hne & _).
  rewrite (call_is _ _ _ _ _ _ Henc).
  destruct (withdraw_run C E accs l i m0 m1 m2 m3 m4 m5 m6 m7 (a_data (l vk))) as (l' & -> & Hl);
    [apply Henc|congruence|rewrite K4; apply (vo_native _ _ _ _ (po_vault _ _ _ _ _ HP))|exact Pre|].
  exists l'. rewrite K0, K1, K2, K3, K4 in Hl. split; [unfold withdraw_event; now rewrite K1, K2|].
  now apply effect_paid.
Qed.

Lemma pay_inv C E l sk vk P accs data i l' evs :
  pool C l sk vk P -> honest_metas C accs -> encodes data (Withdraw i) ->
  process_instruction C E xorca_id accs l data = Ok (l', evs) ->
  exists un k uo, fills accs (withdraw_roles un sk k uo vk) /\ payable C E l vk un k uo i.
Proof.
  intros HP Hh Henc H. pose proof (withdraw_slots _ _ _ _ _ _ _ _ Hh Henc H) as
    (un & sk' & k & uo & vk' & Hf & Hs & _ & Hv & Hrec & Hkey & Tv & Tu).
  assert (sk' = sk) as -> by (eapply pool_state_is; [exact HP|apply Hs|apply Hs]).
  rewrite (pool_vault_is _ _ _ _ _ HP) in Hv. subst vk'.
  exists un, k, uo. split; [exact Hf|].
  apply (honest_call _ _ _ _ _ _ _ _ Henc) in H.
  apply withdraw_inv in H; [|apply Henc|exact Hh].
  destruct H as (m0 & m1 & m2 & m3 & m4 & m5 & m6 & m7 & vd1 & Pre & _).
  pose proof (wp_accs _ _ _ _ _ _ _ _ _ _ _ _ _ _ Pre) as [N0 N1 N2 N3 N4 N5 N6 N7].
  assert (K0 : m_key m0 = un).
  { destruct (Hf 0%nat _ _ _ eq_refl) as (m & Q & <- & _). congruence. }
  assert (K2 : m_key m2 = k).
  { destruct (Hf 2%nat _ _ _ eq_refl) as (m & Q & <- & _). congruence. }
  assert (K3 : m_key m3 = uo).
  { destruct (Hf 3%nat _ _ _ eq_refl) as (m & Q & <- & _). congruence. }
  assert (K4 : m_key m4 = vk).
  { destruct (Hf 4%nat _ _ _ eq_refl) as (m & Q & <- & _). congruence. }
  pose proof (vo_native _ _ _ _ (po_vault _ _ _ _ _ HP)) as Vn.
  destruct Pre. rewrite K0, K2, K3, K4 in *.
  split; [exact Hrec|]. split; [exact Hkey|]. split; [exact wp_time|].
  split; [split; [exact Tu|apply wp_uo_live]|]. split; [apply wp_v_live|]. split; [exact wp_uo_room|]. now apply wp_lam.
Qed.

Lemma nodup4 {A} (a b c d : A) : NoDup [a; b; c; d] ->
  a <> b /\ a <> c /\ a <> d /\ b <> c /\ b <> d /\ c <> d.
Proof.
  intros H. inversion H as [|? ? I1 J1]. inversion J1 as [|? ? I2 J2]. inversion J2 as [|? ? I3 _]. cbn in I1, I2, I3.
  clear H J1 J2. subst. repeat split; intros K; subst; tauto.
Qed.


(** Changing the amount keeps an account usable. *)
Lemma active_amount l l' k mint owner n :
  a_owner (l' k) = a_owner (l k) -> a_data (l' k) = set_amount n (a_data (l k)) -> is_u64 n ->
  active_account l k mint owner -> active_account l' k mint owner.
Proof.
  intros Ho Hd Hn [(T1 & T2 & T3 & T4) T5]. apply ta_unpack_ok in T2. destruct T2 as [W N].
  pose proof (ta_wf_len _ W) as L.
  destruct (set_amount_same (a_data (l k)) n L Hn) as (_ & S2 & S3 & S4 & _ & _ & _ & _ & _ & _ & S5).
  split; [|now rewrite Hd, S4]. split; [now rewrite Ho|]. rewrite Hd. split; [|now rewrite S2, S3].
  apply ta_unpack_ok. split; [|now rewrite S4]. now rewrite S5.
Qed.

Lemma active_same l l' k mint owner :
  a_owner (l' k) = a_owner (l k) -> a_data (l' k) = a_data (l k) ->
  active_account l k mint owner -> active_account l' k mint owner.
Proof.
  intros Ho Hd [(T1 & T2 & T3 & T4) T5]. unfold active_account, token_account_of. now rewrite Ho, Hd.
Qed.

(** The accounts and numbers two withdrawals have to do with each other. *)
Record apart (C : crypto) (l : ledger) (sk vk un1 k1 uo1 un2 k2 uo2 : pubkey) : Prop := {
  ap_kk : k1 <> k2;
  ap_u1 : un1 <> k1 /\ un1 <> k2 /\ un1 <> sk;
  ap_u2 : un2 <> k1 /\ un2 <> k2 /\ un2 <> sk;
  ap_n1 : NoDup [sk; k1; uo1; vk];
  ap_n2 : NoDup [sk; k2; uo2; vk];
  ap_x1 : k1 <> uo2;
  ap_x2 : k2 <> uo1
}.

Lemma record_signs C l sk vk P k : pool C l sk vk P -> is_record l k -> program_signs_for C k.
Proof.
  intros HP Hr. apply (pool_is_record _ _ _ _ _ _ HP) in Hr. apply (po_records _ _ _ _ _ HP) in Hr.
  pose proof (ro_addr _ _ _ Hr) as F. apply find_create in F. eexists. exact F.
Qed.

Lemma fills_signer C accs un sk k uo vk :
  honest_metas C accs -> fills accs (withdraw_roles un sk k uo vk) -> ~ program_signs_for C un.
Proof.
  intros Hh Hf. destruct (Hf 0%nat _ _ _ eq_refl) as (m & N & <- & S & _).
  apply Hh; [eapply nth_error_In; exact N|auto].
Qed.

Lemma amounts C l sk vk P k uo :
  pool C l sk vk P -> is_record l k -> balance l uo + rec_amount l k <= u64_max ->
  is_u64 (escrow l sk - rec_amount l k) /\ is_u64 (balance l uo + rec_amount l k) /\
  is_u64 (balance l vk - rec_amount l k) /\ 0 <= rec_amount l k.
Proof.
  intros HP Hr Hroom. pose proof (pool_ranges _ _ _ _ _ HP) as (R0 & R1 & R2 & R3).
  pose proof (ta_amount_range (a_data (l uo))) as Q1. pose proof (ta_amount_range (a_data (l vk))) as Q2.
  pose proof (get_u64_range 40 (a_data (l k))) as Q3. pose proof (get_u64_range 8 (a_data (l sk))) as Q4.
  assert (Hcl : claim l k <= escrow l sk).
  { apply (pool_is_record _ _ _ _ _ _ HP) in Hr.
    unfold escrow. rewrite (po_escrow _ _ _ _ _ HP). apply in_split in Hr. destruct Hr as (p1 & p2 & ->).
    rewrite map_app. cbn [map]. assert (Hn : forall ks, 0 <= sumZ (map (claim l) ks)).
    { induction ks as [|k' ks IH]; cbn [map sumZ fold_right]; [lia|]. unfold sumZ in IH.
      pose proof (get_u64_range 40 (a_data (l k'))). unfold claim, pw_amount, is_u64 in *. lia. }
    pose proof (Hn p1). pose proof (Hn p2).
    rewrite Totals.sumZ_app. cbn [sumZ fold_right]. unfold sumZ in *. lia. }
  unfold claim in Hcl. unfold free_orca, balance, escrow, rec_amount, st_escrow, pw_amount, is_u64, u64_max in *. lia.
Qed.

(** The second withdrawal could have been made first. *)
Lemma pay_back C E1 E2 l l1 sk vk P un1 k1 uo1 i1 un2 k2 uo2 i2 :
  pool C l sk vk P -> apart C l sk vk un1 k1 uo1 un2 k2 uo2 ->
  payable C E1 l vk un1 k1 uo1 i1 -> paid l l1 un1 sk k1 uo1 vk ->
  payable C E2 l1 vk un2 k2 uo2 i2 -> payable C E2 l vk un2 k2 uo2 i2.
Proof.
  intros HP [Akk (A1 & A2 & A3) (B1 & B2 & B3) N1 N2 X1 X2] (R1 & Y1 & T1 & U1 & V1 & M1 & L1) D
    (R2 & Y2 & T2 & U2 & V2 & M2 & L2).
  pose proof (nodup4 _ _ _ _ N1) as (F1 & F2 & F3 & F4 & F5 & F6).
  pose proof (nodup4 _ _ _ _ N2) as (G1 & G2 & G3 & G4 & G5 & G6).
  pose proof (amounts _ _ _ _ _ _ _ HP R1 M1) as (Q1 & Q2 & Q3 & Q4).
  assert (Ek : a_data (l1 k2) = a_data (l k2)) by (apply (pa_rest _ _ _ _ _ _ _ D); cbn; intuition congruence).
  assert (Eo : a_owner (l1 k2) = a_owner (l k2)) by (apply (pa_owner _ _ _ _ _ _ _ D); congruence).
  assert (Ea : rec_amount l1 k2 = rec_amount l k2) by (unfold rec_amount; now rewrite Ek).
  pose proof (pa_lam _ _ _ _ _ _ _ D k2 (not_eq_sym Akk)) as Ll. rewrite (key_eqb_neq un1 k2 A2) in Ll.
  pose proof (pa_lam _ _ _ _ _ _ _ D un2 B1) as Lu.
  pose proof (po_lam _ _ _ _ _ HP k1) as L0.
  split; [unfold is_record in *; now rewrite <- Eo, <- Ek|]. split; [now rewrite <- Ek|].
  split; [unfold rec_time in *; now rewrite <- Ek|].
  rewrite Ea in M2.
  destruct (key_eq_dec uo1 uo2) as [<-|Nu].
  - assert (un1 = un2).
    { destruct U1 as [(_ & W & _ & W1) _]. destruct U2 as [(_ & _ & _ & W2) _].
      apply ta_unpack_ok in W. destruct W as [W _]. rewrite (pa_uo _ _ _ _ _ _ _ D) in W2.
      destruct (set_amount_same (a_data (l uo1)) _ (ta_wf_len _ W) Q2) as (_ & _ & S3 & _). congruence. }
    subst un2. split; [exact U1|]. split; [exact V1|].
    assert (Eb : balance l1 uo1 = balance l uo1 + rec_amount l k1).
    { unfold balance. rewrite (pa_uo _ _ _ _ _ _ _ D). destruct U1 as [(_ & W & _) _]. apply ta_unpack_ok in W.
      now apply (set_amount_same (a_data (l uo1)) _ (ta_wf_len _ (proj1 W))). }
    rewrite key_eqb_refl in Lu. split; lia.
  - assert (Eu : a_data (l1 uo2) = a_data (l uo2)) by (apply (pa_rest _ _ _ _ _ _ _ D); cbn; intuition congruence).
    assert (Euo : a_owner (l1 uo2) = a_owner (l uo2)) by (apply (pa_owner _ _ _ _ _ _ _ D); congruence).
    split; [eapply active_same; [| |exact U2]; congruence|]. split; [exact V1|].
    unfold balance in *. rewrite Eu in M2. split; [exact M2|]. destruct (key_eqb un1 un2); lia.
Qed.

(** The first withdrawal can still be made after the second. *)
Lemma pay_forth C E1 E2 l l1 l2 sk vk P un1 k1 uo1 i1 un2 k2 uo2 i2 :
  pool C l sk vk P -> apart C l sk vk un1 k1 uo1 un2 k2 uo2 ->
  payable C E1 l vk un1 k1 uo1 i1 -> paid l l1 un1 sk k1 uo1 vk ->
  payable C E2 l1 vk un2 k2 uo2 i2 -> payable C E2 l vk un2 k2 uo2 i2 -> paid l l2 un2 sk k2 uo2 vk ->
  payable C E1 l2 vk un1 k1 uo1 i1.
Proof.
  intros HP [Akk (A1 & A2 & A3) (B1 & B2 & B3) N1 N2 X1 X2] (R1 & Y1 & T1 & U1 & V1 & M1 & L1) D
    (_ & _ & _ & _ & _ & M3 & L3) (R2 & Y2 & T2 & U2 & V2 & M2 & L2) D2.
  pose proof (nodup4 _ _ _ _ N1) as (F1 & F2 & F3 & F4 & F5 & F6).
  pose proof (nodup4 _ _ _ _ N2) as (G1 & G2 & G3 & G4 & G5 & G6).
  pose proof (amounts _ _ _ _ _ _ _ HP R1 M1) as (Q1 & Q2 & Q3 & Q4).
  pose proof (amounts _ _ _ _ _ _ _ HP R2 M2) as (Z1 & Z2 & Z3 & Z4).
  assert (Ek : a_data (l2 k1) = a_data (l k1)) by (apply (pa_rest _ _ _ _ _ _ _ D2); cbn; intuition congruence).
  assert (Eo : a_owner (l2 k1) = a_owner (l k1)) by (apply (pa_owner _ _ _ _ _ _ _ D2); congruence).
  assert (Ea : rec_amount l2 k1 = rec_amount l k1) by (unfold rec_amount; now rewrite Ek).
  assert (Ek2 : a_data (l1 k2) = a_data (l k2)) by (apply (pa_rest _ _ _ _ _ _ _ D); cbn; intuition congruence).
  assert (Ea2 : rec_amount l1 k2 = rec_amount l k2) by (unfold rec_amount; now rewrite Ek2).
  pose proof (pa_lam _ _ _ _ _ _ _ D k2 (not_eq_sym Akk)) as Ll. rewrite (key_eqb_neq un1 k2 A2) in Ll.
  pose proof (pa_lam _ _ _ _ _ _ _ D un2 B1) as Lu.
  pose proof (pa_lam _ _ _ _ _ _ _ D2 k1 Akk) as Ll2. rewrite (key_eqb_neq un2 k1 B1) in Ll2.
  pose proof (pa_lam _ _ _ _ _ _ _ D2 un1 A2) as Lu2.
  assert (LL : a_lamports (l2 un1) + a_lamports (l2 k1) <= u64_max).
  { destruct (key_eq_dec un1 un2) as [<-|Nu]; [rewrite key_eqb_refl in *; lia|].
    rewrite (key_eqb_neq un2 un1) in Lu2 by congruence. lia. }
  split; [unfold is_record in *; now rewrite Eo, Ek|]. split; [now rewrite Ek|].
  split; [unfold rec_time in *; now rewrite Ek|].
  assert (VV : ta_state (a_data (l2 vk)) = 1).
  { rewrite (pa_vk _ _ _ _ _ _ _ D2). pose proof (vo_wf _ _ _ _ (po_vault _ _ _ _ _ HP)) as W.
    destruct (set_amount_same (a_data (l vk)) _ (ta_wf_len _ W) Z3) as (_ & _ & _ & S4 & _). congruence. }
  rewrite Ea.
  assert (Euo : a_owner (l2 uo1) = a_owner (l uo1)) by (apply (pa_owner _ _ _ _ _ _ _ D2); congruence).
  destruct (key_eq_dec uo1 uo2) as [<-|Nu].
  - split; [eapply active_amount; [exact Euo|apply (pa_uo _ _ _ _ _ _ _ D2)|exact Z2|exact U1]|].
    split; [exact VV|]. split; [|exact LL]. destruct U1 as [(_ & W & _) _]. apply ta_unpack_ok in W. destruct W as [W _].
    unfold balance in M3. rewrite (pa_uo _ _ _ _ _ _ _ D), Ea2 in M3.
    destruct (set_amount_same (a_data (l uo1)) _ (ta_wf_len _ W) Q2) as (S1 & _). rewrite S1 in M3.
    unfold balance at 1. rewrite (pa_uo _ _ _ _ _ _ _ D2).
    destruct (set_amount_same (a_data (l uo1)) _ (ta_wf_len _ W) Z2) as (S2 & _). rewrite S2. lia.
  - assert (Eu : a_data (l2 uo1) = a_data (l uo1)) by (apply (pa_rest _ _ _ _ _ _ _ D2); cbn; intuition congruence).
    split; [eapply active_same; [exact Euo|exact Eu|exact U1]|]. split; [exact VV|]. split; [|exact LL].
    unfold balance. rewrite Eu. exact M1.
Qed.

(** Two payments in a row. *)
Lemma pay_pair C l l1 l12 sk vk P E1 i1 un1 k1 uo1 un2 k2 uo2 E2 i2 :
  pool C l sk vk P -> apart C l sk vk un1 k1 uo1 un2 k2 uo2 ->
  payable C E1 l vk un1 k1 uo1 i1 -> payable C E2 l vk un2 k2 uo2 i2 ->
  paid l l1 un1 sk k1 uo1 vk -> paid l1 l12 un2 sk k2 uo2 vk ->
  let c1 := rec_amount l k1 in let c2 := rec_amount l k2 in
  l12 k1 = Account 0 system_id [] /\ l12 k2 = Account 0 system_id [] /\
  a_data (l12 sk) = set_escrow (escrow l sk - (c1 + c2)) (a_data (l sk)) /\
  a_data (l12 vk) = set_amount (balance l vk - (c1 + c2)) (a_data (l vk)) /\
  (uo1 = uo2 -> a_data (l12 uo1) = set_amount (balance l uo1 + (c1 + c2)) (a_data (l uo1))) /\
  (uo1 <> uo2 -> a_data (l12 uo1) = set_amount (balance l uo1 + c1) (a_data (l uo1)) /\
                 a_data (l12 uo2) = set_amount (balance l uo2 + c2) (a_data (l uo2))) /\
  (forall a, ~ In a [sk; k1; k2; uo1; uo2; vk] -> a_data (l12 a) = a_data (l a)) /\
  (forall a, a <> k1 -> a <> k2 -> a_owner (l12 a) = a_owner (l a)) /\
  (forall a, a <> k1 -> a <> k2 -> a_lamports (l12 a) = a_lamports (l a) +
     ((if key_eqb un1 a then a_lamports (l k1) else 0) + (if key_eqb un2 a then a_lamports (l k2) else 0))).
Proof.
  intros HP [Akk (A1 & A2 & A3) (B1 & B2 & B3) N1 N2 X1 X2] (R1 & Y1 & T1 & U1 & V1 & M1 & L1)
    (R2 & Y2 & T2 & U2 & V2 & M2 & L2) D D2. cbn zeta.
  pose proof (nodup4 _ _ _ _ N1) as (F1 & F2 & F3 & F4 & F5 & F6).
  pose proof (nodup4 _ _ _ _ N2) as (G1 & G2 & G3 & G4 & G5 & G6).
  pose proof (amounts _ _ _ _ _ _ _ HP R1 M1) as (Q1 & Q2 & Q3 & Q4).
  assert (Ek2 : a_data (l1 k2) = a_data (l k2)) by (apply (pa_rest _ _ _ _ _ _ _ D); cbn; intuition congruence).
  assert (Ea2 : rec_amount l1 k2 = rec_amount l k2) by (unfold rec_amount; now rewrite Ek2).
  pose proof (po_slen _ _ _ _ _ HP) as Ls.
  pose proof (ta_wf_len _ (vo_wf _ _ _ _ (po_vault _ _ _ _ _ HP))) as Lv.
  assert (Lo : length (a_data (l uo1)) = 165%nat).
  { destruct U1 as [(_ & W & _) _]. apply ta_unpack_ok in W. apply ta_wf_len, W. }
  split.
  { rewrite (acct_eta (l12 k1)).
    rewrite (pa_lam _ _ _ _ _ _ _ D2 k1 Akk), (pa_owner _ _ _ _ _ _ _ D2 k1 Akk), (key_eqb_neq un2 k1 B1).
    rewrite (pa_rest _ _ _ _ _ _ _ D2) by (cbn; intuition congruence).
    rewrite (pa_k _ _ _ _ _ _ _ D). reflexivity. }
  split; [apply (pa_k _ _ _ _ _ _ _ D2)|].
  split.
  { rewrite (pa_sk _ _ _ _ _ _ _ D2), Ea2. unfold escrow at 1. rewrite (pa_sk _ _ _ _ _ _ _ D).
    destruct (set_escrow_same (escrow l sk - rec_amount l k1) (a_data (l sk))) as (-> & _); [lia|exact Q1|].
    unfold set_escrow. rewrite set_u64_twice by lia. f_equal. lia. }
  split.
  { rewrite (pa_vk _ _ _ _ _ _ _ D2), Ea2. unfold balance at 1. rewrite (pa_vk _ _ _ _ _ _ _ D).
    destruct (set_amount_same (a_data (l vk)) _ Lv Q3) as (-> & _).
    unfold set_amount. rewrite set_u64_twice by lia. f_equal. lia. }
  split.
  { intros <-. rewrite (pa_uo _ _ _ _ _ _ _ D2), Ea2. unfold balance at 1. rewrite (pa_uo _ _ _ _ _ _ _ D).
    destruct (set_amount_same (a_data (l uo1)) _ Lo Q2) as (-> & _).
    unfold set_amount. rewrite set_u64_twice by lia. f_equal. lia. }
  split.
  { intros Nu. split.
    - rewrite (pa_rest _ _ _ _ _ _ _ D2) by (cbn; intuition congruence). apply (pa_uo _ _ _ _ _ _ _ D).
    - rewrite (pa_uo _ _ _ _ _ _ _ D2), Ea2. unfold balance.
      now rewrite (pa_rest _ _ _ _ _ _ _ D) by (cbn; intuition congruence). }
  split.
  { intros a Ha. cbn in Ha. rewrite (pa_rest _ _ _ _ _ _ _ D2) by (cbn; tauto).
    apply (pa_rest _ _ _ _ _ _ _ D). cbn; tauto. }
  split.
  { intros a H1 H2. rewrite (pa_owner _ _ _ _ _ _ _ D2 a H2). now apply (pa_owner _ _ _ _ _ _ _ D). }
  intros a H1 H2. rewrite (pa_lam _ _ _ _ _ _ _ D2 a H2), (pa_lam _ _ _ _ _ _ _ D a H1).
  rewrite (pa_lam _ _ _ _ _ _ _ D k2) by congruence. rewrite (key_eqb_neq un1 k2 A2).
  destruct (key_eqb un2 a); lia.
Qed.

Lemma apart_sym C l sk vk un1 k1 uo1 un2 k2 uo2 :
  apart C l sk vk un1 k1 uo1 un2 k2 uo2 -> apart C l sk vk un2 k2 uo2 un1 k1 uo1.
Proof. intros []. constructor; auto; tauto. Qed.

Theorem withdrawals_commute C l sk E1 accs1 data1 i1 E2 accs2 data2 i2 l1 ev1 l12 ev2 :
  ordinary_state_address C -> reaches C l -> is_state l sk ->
  op_ok C l (OpCall E1 accs1 data1) -> op_ok C l (OpCall E2 accs2 data2) ->
  encodes data1 (Withdraw i1) -> encodes data2 (Withdraw i2) ->
  process_instruction C E1 xorca_id accs1 l data1 = Ok (l1, ev1) ->
  process_instruction C E2 xorca_id accs2 l1 data2 = Ok (l12, ev2) ->
  exists l2 ev2' l21 ev1',
    process_instruction C E2 xorca_id accs2 l data2 = Ok (l2, ev2') /\
    process_instruction C E1 xorca_id accs1 l2 data1 = Ok (l21, ev1') /\
    forall a, l21 a = l12 a.
Proof.
  intros Ho Hr Hs Hok1 Hok2 He1 He2 H1 H2. destruct (reaches_pool _ _ _ Ho Hr Hs) as (vk & P & HP).
  pose proof (proj2 Hok1) as Hh1. pose proof (proj2 Hok2) as Hh2.
  assert (Hn1 : run_op C l (OpCall E1 accs1 data1) = (l1, ev1)) by (cbn [run_op]; now rewrite H1).
  destruct (pool_step _ _ _ _ _ _ HP Hok1) as (P1 & HP1 & _). rewrite Hn1 in HP1. cbn [fst] in HP1.
  destruct (pay_inv _ _ _ _ _ _ _ _ _ _ _ HP Hh1 He1 H1) as (un1 & k1 & uo1 & Hf1 & Y1).
  destruct (pay_inv _ _ _ _ _ _ _ _ _ _ _ HP1 Hh2 He2 H2) as (un2 & k2 & uo2 & Hf2 & Y2).
  destruct (pay_run _ _ _ _ _ _ _ _ _ _ _ _ HP Hh1 He1 Hf1 Y1) as (l1' & Q1 & D1).
  rewrite Q1 in H1. injection H1 as -> _.
  destruct (pay_run _ _ _ _ _ _ _ _ _ _ _ _ HP1 Hh2 He2 Hf2 Y2) as (l12' & Q2 & D2).
  rewrite Q2 in H2. injection H2 as -> _.
  destruct (pay_names _ _ _ _ _ _ _ _ _ _ _ HP Hh1 Hf1 Y1) as (N1 & A1 & A3).
  destruct (pay_names _ _ _ _ _ _ _ _ _ _ _ HP1 Hh2 Hf2 Y2) as (N2 & B2 & B3).
  pose proof (fills_signer _ _ _ _ _ _ _ Hh1 Hf1) as G1. pose proof (fills_signer _ _ _ _ _ _ _ Hh2 Hf2) as G2.
  assert (Akk : k1 <> k2).
  { intros K. destruct Y2 as [[K2 _] _]. rewrite <- K, (pa_k _ _ _ _ _ _ _ D1) in K2. cbn in K2.
    now apply xorca_ne_system. }
  pose proof (nodup4 _ _ _ _ N1) as (F1 & F2 & F3 & F4 & F5 & F6).
  pose proof (nodup4 _ _ _ _ N2) as (J1 & J2 & J3 & J4 & J5 & J6).
  assert (Ap : apart C l sk vk un1 k1 uo1 un2 k2 uo2).
  { constructor; auto.
    - repeat split; auto. intros K. apply G1. rewrite K. eapply record_signs; [exact HP1|apply Y2].
    - repeat split; auto. intros K. apply G2. rewrite K. eapply record_signs; [exact HP|apply Y1].
    - intros K. destruct Y2 as (_ & _ & _ & [(K2 & _) _] & _). rewrite <- K, (pa_k _ _ _ _ _ _ _ D1) in K2.
      cbn in K2. now apply token_ne_system.
    - intros K. destruct Y2 as ([K2 _] & _). rewrite K, (pa_owner _ _ _ _ _ _ _ D1) in K2 by congruence.
      destruct Y1 as (_ & _ & _ & [(K3 & _) _] & _). apply xt_ne. congruence. }
  pose proof (pay_back _ _ _ _ _ _ _ _ _ _ _ _ _ _ _ _ HP Ap Y1 D1 Y2) as Y2'.
  destruct (pay_run _ _ _ _ _ _ _ _ _ _ _ _ HP Hh2 He2 Hf2 Y2') as (l2 & Q3 & D3).
  pose proof (pay_forth _ _ _ _ _ _ _ _ _ _ _ _ _ _ _ _ _ HP Ap Y1 D1 Y2 Y2' D3) as Y1'.
  assert (Hn2 : run_op C l (OpCall E2 accs2 data2) = (l2, _)) by (cbn [run_op]; rewrite Q3; reflexivity).
  destruct (pool_step _ _ _ _ _ _ HP Hok2) as (P2 & HP2 & _). rewrite Hn2 in HP2. cbn [fst] in HP2.
  destruct (pay_run _ _ _ _ _ _ _ _ _ _ _ _ HP2 Hh1 He1 Hf1 Y1') as (l21 & Q4 & D4).
  do 4 eexists. split; [exact Q3|]. split; [exact Q4|]. intros a.
  destruct (pay_pair _ _ _ _ _ _ _ _ _ _ _ _ _ _ _ _ _ HP Ap Y1 Y2' D1 D2)
    as (a1 & a2 & a3 & a4 & a5 & a6 & a7 & a8 & a9).
  destruct (pay_pair _ _ _ _ _ _ _ _ _ _ _ _ _ _ _ _ _ HP (apart_sym _ _ _ _ _ _ _ _ _ _ Ap) Y2' Y1 D3 D4)
    as (b1 & b2 & b3 & b4 & b5 & b6 & b7 & b8 & b9).
  destruct (key_eq_dec a k1) as [->|K1]; [congruence|]. destruct (key_eq_dec a k2) as [->|K2]; [congruence|].
  rewrite (acct_eta (l21 a)), (acct_eta (l12 a)). rewrite (a8 a K1 K2), (b8 a K2 K1). f_equal.
  - rewrite (a9 a K1 K2), (b9 a K2 K1). lia.
  - rewrite Z.add_comm in b3, b4. rewrite (Z.add_comm (rec_amount l k2)) in b5.
    destruct (key_eq_dec a sk) as [->|K3]; [congruence|]. destruct (key_eq_dec a vk) as [->|K4]; [congruence|].
    destruct (key_eq_dec uo1 uo2) as [e|e].
    + destruct (key_eq_dec a uo1) as [->|K5].
      * rewrite e at 1. rewrite b5 by congruence. rewrite a5 by exact e. now rewrite <- e.
      * rewrite a7, b7; [reflexivity| |]; cbn; intuition congruence.
    + destruct (a6 e) as [c1 c2]. destruct b6 as [d1 d2]; [congruence|].
      destruct (key_eq_dec a uo1) as [->|K5]; [congruence|]. destruct (key_eq_dec a uo2) as [->|K6]; [congruence|].
      rewrite a7, b7; [reflexivity| |]; cbn; intuition congruence.
Qed.
