(** Conservation of lamports, ORCA and xORCA by every call (C25). *)
From Verif Require Import Spec BytesFacts FieldFacts LedgerFacts TokenFacts ParseFacts CpiFacts
  AssertFacts LayoutFacts MathFacts Economics StakeFacts UnstakeFacts WithdrawFacts SetFacts InitFacts
  CodecFacts Totals OutsideFacts TokenStep Calm Pool PoolStake PoolUnstake PoolInit PoolHistory HistoryFacts
  LifeFacts RateFacts EffectFacts ClaimFacts SlotFacts VaultStep.

(** [c] at [p], nothing elsewhere. *)
Definition at_ (p : pubkey) (c : Z) (k : pubkey) : Z := if key_eqb p k then c else 0.

Lemma at_same p c : at_ p c p = c.
Proof. unfold at_. now rewrite key_eqb_refl. Qed.
Lemma at_other p c k : p <> k -> at_ p c k = 0.
Proof. intros H. unfold at_. now rewrite key_eqb_neq. Qed.

Lemma sum_at p c ks : NoDup ks -> In p ks -> sumZ (map (at_ p c) ks) = c.
Proof.
  intros N H. rewrite (sum_remove _ p) by assumption. rewrite at_same.
  rewrite (sum_ext _ (fun _ => 0)).
  - induction (remove key_eq_dec p ks) as [|x xs IH]; cbn in *; [lia|]. unfold sumZ in IH. lia.
  - intros k K. apply in_remove in K. apply at_other. intuition congruence.
Qed.

Lemma sum_add (f g : pubkey -> Z) ks : sumZ (map (fun k => f k + g k) ks) = sumZ (map f ks) + sumZ (map g ks).
Proof. induction ks as [|x xs IH]; cbn; [reflexivity|]. unfold sumZ in *. lia. Qed.
Lemma sum_sub (f g : pubkey -> Z) ks : sumZ (map (fun k => f k - g k) ks) = sumZ (map f ks) - sumZ (map g ks).
Proof. induction ks as [|x xs IH]; cbn; [reflexivity|]. unfold sumZ in *. lia. Qed.

Lemma sum_zero (ks : list pubkey) : sumZ (map (fun _ => 0) ks) = 0.
Proof. induction ks as [|x xs IH]; cbn; [reflexivity|]. unfold sumZ in *. lia. Qed.

(** ** Holdings of written accounts *)
Lemma holds_value (l : ledger) m k :
  a_owner (l k) = token_id -> ta_wf (a_data (l k)) = true -> ta_state (a_data (l k)) <> 0 ->
  holds l m k = if key_eqb (ta_mint (a_data (l k))) m then ta_amount (a_data (l k)) else 0.
Proof.
  intros H1 H2 H3. unfold holds. rewrite H1, key_eqb_refl. now rewrite (proj2 (is_ok_unpack _)) by auto.
Qed.

Lemma holds_spent (l l' : ledger) m k v d1 :
  ta_live l k -> same_but_delegate (a_data (l k)) d1 -> is_u64 v ->
  a_owner (l' k) = a_owner (l k) -> a_data (l' k) = set_amount v d1 ->
  holds l' m k = if key_eqb (ta_mint (a_data (l k))) m then v else 0.
Proof.
  intros (H1 & H2 & H3) S Hv Ho Hd. destruct (spent_fields _ _ _ H2 S Hv) as (F1 & F2 & F3 & F4 & _).
  rewrite holds_value; rewrite ?Hd, ?Ho, ?F1, ?F2, ?F3, ?F4; auto. lia.
Qed.

Lemma holds_foreign (l : ledger) m k : a_owner (l k) <> token_id -> holds l m k = 0.
Proof. intros H. unfold holds. now rewrite key_eqb_neq. Qed.

Lemma holds_mint (l : ledger) m k : length (a_data (l k)) = 82%nat -> holds l m k = 0.
Proof.
  intros H. destruct (holds_cases l m k) as [(_ & W & _)|E]; [|exact E]. apply ta_wf_len in W. lia.
Qed.

Lemma mints_ne : orca_mint_id <> xorca_mint_id.
Proof. intros H. apply (f_equal key_bytes) in H. vm_compute in H. discriminate. Qed.

Lemma same_refl_delegate d : same_but_delegate d d.
Proof. constructor; auto. Qed.

Lemma covered ks accs n m : covers ks accs -> nth_error accs n = Some m -> In (m_key m) ks.
Proof. intros [_ H] Hn. eapply H, nth_error_In, Hn. Qed.

Lemma native_none l k k' n a :
  ordinary l k -> native_moves l k k' n a = 0.
Proof. unfold ordinary. intros H. unfold native_moves, ta_is_native. now rewrite H. Qed.

(** ** Stake *)
Lemma stake_conserves C l E accs data a l' evs ks :
  honest_metas C accs -> encodes data (Stake a) ->
  process_instruction C E xorca_id accs l data = Ok (l', evs) -> covers ks accs ->
  lamport_total l' ks = lamport_total l ks /\
  total l' orca_mint_id ks = total l orca_mint_id ks /\
  total l' xorca_mint_id ks - total l xorca_mint_id ks = supply l' - supply l.
Proof.
  intros Hh He H Hc. pose proof (proj1 He) as Ha. cbn in Ha. pose proof H as H0.
  apply (stake_exact _ _ _ _ _ _ _ _ Hh He) in H0.
  destruct H0 as (st' & vk' & so' & sx' & sk' & m' & _ & _ & _ & _ & _ & _ & _ & _ & _ & _ & _ & _ & _ & _ & _ & _ & Hs' & _).
  apply (honest_call _ _ _ _ _ _ _ _ He) in H.
  apply stake_inv in H; [|assumption|exact Hh].
  destruct H as (staker & vault & so & sx & xm & st & om & tp & m & sd1 & Pre & Hm & Hmu & Hne & Hd & _ & Hlam & _ & _).
  destruct Pre. destruct sp_accs.
  pose proof (covered _ _ _ _ Hc sa1) as I1. pose proof (covered _ _ _ _ Hc sa2) as I2.
  pose proof (covered _ _ _ _ Hc sa3) as I3. destruct Hc as [Nd _].
  set (vk := m_key vault) in *. set (sok := m_key so) in *. set (sxk := m_key sx) in *.
  assert (Ls : length (a_data (l sok)) = 165%nat) by apply ta_wf_len, sp_so_live.
  assert (Lm : length (a_data (l xorca_mint_id)) = 82%nat) by apply mint_wf_len, sp_xm_live.
  pose proof (spend_auth_same _ _ _ _ _ _ _ _ Ls sp_so_auth) as Sd.
  assert (Msx : xorca_mint_id <> sxk) by (eapply mint_ne_ta; eassumption).
  assert (Mso : xorca_mint_id <> sok) by (eapply mint_ne_ta; eassumption).
  assert (Mv : xorca_mint_id <> vk) by (eapply mint_ne_ta; eassumption).
  assert (Nsx : sxk <> sok) by (intros Q; rewrite Q in *; pose proof mints_ne; congruence).
  assert (Nvx : sxk <> vk) by (intros Q; rewrite Q in *; pose proof mints_ne; congruence).
  assert (Hown : forall k, a_owner (l' k) = a_owner (l k)).
  { intros k. destruct (Hd k) as [_ O]. rewrite O. unfold stake_effect, transferred. now autorewrite with ledger. }
  assert (Dso : a_data (l' sok) = set_amount (ta_amount (a_data (l sok)) - a) sd1).
  { destruct (Hd sok) as [D _]. rewrite D. unfold stake_effect, transferred. rewrite !set_data_data.
    rewrite !key_eqb_neq by congruence. now rewrite key_eqb_refl. }
  assert (Dv : a_data (l' vk) = set_amount (ta_amount (a_data (l vk)) + a) (a_data (l vk))).
  { destruct (Hd vk) as [D _]. rewrite D. unfold stake_effect, transferred. rewrite !set_data_data.
    rewrite !key_eqb_refl. now rewrite !key_eqb_neq by congruence. }
  assert (Dx : a_data (l' sxk) = set_amount (ta_amount (a_data (l sxk)) + m) (a_data (l sxk))).
  { destruct (Hd sxk) as [D _]. rewrite D. unfold stake_effect, transferred. rewrite !set_data_data.
    rewrite !key_eqb_refl. now rewrite !key_eqb_neq by congruence. }
  assert (Dm : a_data (l' xorca_mint_id) = set_supply (mint_supply (a_data (l xorca_mint_id)) + m) (a_data (l xorca_mint_id))).
  { destruct (Hd xorca_mint_id) as [D _]. rewrite D. unfold stake_effect. rewrite set_data_data. now rewrite key_eqb_refl. }
  assert (Do : forall k, k <> sok -> k <> vk -> k <> sxk -> k <> xorca_mint_id -> a_data (l' k) = a_data (l k)).
  { intros k K1 K2 K3 K4. destruct (Hd k) as [D _]. rewrite D. unfold stake_effect, transferred. rewrite !set_data_data.
    now rewrite !key_eqb_neq by congruence. }
  assert (Ra : is_u64 (ta_amount (a_data (l sok)) - a)).
  { pose proof (ta_amount_range (a_data (l sok))). unfold is_u64, u64_max in *. lia. }
  assert (Rv : is_u64 (ta_amount (a_data (l vk)) + a)).
  { pose proof (ta_amount_range (a_data (l vk))). unfold is_u64, u64_max in *. lia. }
  assert (Rx : is_u64 (ta_amount (a_data (l sxk)) + m)).
  { pose proof (ta_amount_range (a_data (l sxk))). unfold is_u64, u64_max in *. lia. }
  assert (Hs : supply l' = supply l + m).
  { unfold supply. rewrite Dm. apply set_supply_same; [exact Lm|].
    pose proof (get_u64_range 36 (a_data (l xorca_mint_id))). unfold is_u64, u64_max, mint_supply in *. lia. }
  assert (Hall : forall mm k, holds l' mm k = holds l mm k
      + ((if key_eqb orca_mint_id mm then at_ vk a k - at_ sok a k else 0)
         + (if key_eqb xorca_mint_id mm then at_ sxk m k else 0))).
  { intros mm k.
    destruct (key_eq_dec sok k) as [<-|K1].
    { rewrite (holds_spent l l' mm sok _ _ sp_so_live Sd Ra (Hown _) Dso).
      rewrite (holds_value l mm sok); [|apply sp_so_live|apply sp_so_live|destruct sp_so_live as (_ & _ & Q); rewrite Q; lia].
      rewrite sp_so_mint, at_same, !at_other by congruence. destruct (key_eqb orca_mint_id mm), (key_eqb xorca_mint_id mm); lia. }
    destruct (key_eq_dec vk k) as [<-|K2].
    { rewrite (holds_spent l l' mm vk _ _ sp_v_live (same_refl_delegate _) Rv (Hown _) Dv).
      rewrite (holds_value l mm vk); [|apply sp_v_live|apply sp_v_live|destruct sp_v_live as (_ & _ & Q); rewrite Q; lia].
      rewrite sp_v_mint, at_same, !at_other by congruence. destruct (key_eqb orca_mint_id mm), (key_eqb xorca_mint_id mm); lia. }
    destruct (key_eq_dec sxk k) as [<-|K3].
    { rewrite (holds_spent l l' mm sxk _ _ sp_sx_live (same_refl_delegate _) Rx (Hown _) Dx).
      rewrite (holds_value l mm sxk); [|apply sp_sx_live|apply sp_sx_live|destruct sp_sx_live as (_ & _ & Q); rewrite Q; lia].
      rewrite sp_sx_mint, at_same, !at_other by congruence. destruct (key_eqb orca_mint_id mm), (key_eqb xorca_mint_id mm); lia. }
    rewrite !at_other by congruence.
    destruct (key_eq_dec xorca_mint_id k) as [<-|K4].
    { rewrite !holds_mint; [destruct (key_eqb orca_mint_id mm), (key_eqb xorca_mint_id mm); lia|exact Lm|].
      rewrite Dm. unfold set_supply. now rewrite set_u64_length by (rewrite Lm; lia). }
    rewrite (holds_ext l l'); [destruct (key_eqb orca_mint_id mm), (key_eqb xorca_mint_id mm); lia|apply Hown|].
    apply Do; congruence. }
  split; [|split].
  - unfold lamport_total. rewrite (sum_ext _ (fun k => a_lamports (l k) + native_moves l sok vk a k)) by (intros; apply Hlam).
    rewrite sum_add. unfold native_moves. destruct (ta_is_native (a_data (l sok))).
    + fold (at_ vk a). change (fun k => (if key_eqb vk k then a else 0) - (if key_eqb sok k then a else 0))
        with (fun k => at_ vk a k - at_ sok a k). rewrite sum_sub, !sum_at by assumption. lia.
    + rewrite sum_zero. lia.
  - unfold total. rewrite (sum_ext _ _ ks (fun k _ => Hall orca_mint_id k)). rewrite key_eqb_refl.
    rewrite (key_eqb_neq xorca_mint_id orca_mint_id) by (apply not_eq_sym, mints_ne).
    rewrite !sum_add, sum_sub, !sum_at, sum_zero by assumption. lia.
  - unfold total. rewrite (sum_ext _ _ ks (fun k _ => Hall xorca_mint_id k)). rewrite key_eqb_refl.
    rewrite (key_eqb_neq orca_mint_id xorca_mint_id) by apply mints_ne.
    rewrite !sum_add, !sum_at, sum_zero by assumption. lia.
Qed.

Lemma burn_auth_same l sg ex d a n d1 :
  length d = 165%nat -> burn_auth l sg ex d a n = Ok d1 -> same_but_delegate d d1.
Proof.
  intros L. unfold burn_auth. destruct (system_or_incinerator (ta_owner d)); intros H.
  - injection H as <-. apply same_refl_delegate.
  - eapply spend_auth_same; eassumption.
Qed.

Lemma created_lamports E l un k space o a :
  un <> k -> a_lamports (created E l un k space o a) =
    a_lamports (l a) + (at_ k (rent_need E l k space) a - at_ un (rent_need E l k space) a).
Proof.
  intros N. unfold created, upd, at_. destruct (key_eqb k a) eqn:Q.
  - apply key_eqb_true in Q. subst a. rewrite (key_eqb_neq un k N). cbn. lia.
  - unfold set_lamports, upd. destruct (key_eqb un a) eqn:Q2; [|lia].
    apply key_eqb_true in Q2. subst a. cbn. lia.
Qed.

(** ** Unstake *)
Lemma unstake_conserves C l E accs data x i l' evs ks :
  sysvars_ok E -> honest_metas C accs -> encodes data (Unstake x i) ->
  process_instruction C E xorca_id accs l data = Ok (l', evs) -> covers ks accs ->
  lamport_total l' ks = lamport_total l ks /\
  total l' orca_mint_id ks = total l orca_mint_id ks /\
  total l' xorca_mint_id ks - total l xorca_mint_id ks = supply l' - supply l.
Proof.
  intros HE Hh He H Hc. pose proof (proj1 He) as [Hx Hi]. pose proof H as H0.
  apply (honest_call _ _ _ _ _ _ _ _ He) in H.
  apply unstake_inv in H; [|assumption..|now apply sysvars_env|exact Hh].
  destruct H as (un & st & pd & ux & xm & om & v & sp & tp & w & b & sd1 & Pre & Hw & Hwu & Hl & ->).
  assert (Hun : ~ program_signs_for C (m_key un)).
  { apply Hh; [|apply Pre]. eapply nth_error_In, (ua0 _ _ _ _ _ _ _ _ _ _ (up_accs _ _ _ _ _ _ _ _ _ _ _ _ _ _ _ _ _ _ Pre)). }
  destruct Pre. destruct up_accs.
  pose proof (covered _ _ _ _ Hc ua0) as I0. pose proof (covered _ _ _ _ Hc ua2) as I2.
  pose proof (covered _ _ _ _ Hc ua3) as I3. destruct Hc as [Nd _].
  set (pk := m_key pd) in *. set (uk := m_key un) in *. set (uxk := m_key ux) in *.
  set (sk := m_key st) in *.
  assert (Nup : uk <> pk).
  { intros Q. apply Hun. rewrite Q. eapply find_is_pda, up_pd_find. }
  assert (Mo : a_owner (l xorca_mint_id) = token_id) by apply up_xm_live.
  assert (Uo : a_owner (l uxk) = token_id) by apply up_ux_live.
  pose proof token_ne_system as T1. pose proof xorca_ne_system as T2. pose proof xt_ne as T3.
  assert (Sp : sk <> pk) by (intros Q; rewrite Q in *; congruence).
  assert (Mp : xorca_mint_id <> pk) by (intros Q; rewrite Q in *; congruence).
  assert (Up : uxk <> pk) by (intros Q; rewrite Q in *; congruence).
  assert (D1 : xorca_mint_id <> uxk) by (eapply mint_ne_ta; eassumption).
  assert (D4 : sk <> uxk) by (eapply xorca_owned_ne; eassumption).
  assert (D5 : sk <> xorca_mint_id) by (eapply xorca_owned_ne; eassumption).
  assert (Lux : length (a_data (l uxk)) = 165%nat) by apply ta_wf_len, up_ux_live.
  assert (Lm : length (a_data (l xorca_mint_id)) = 82%nat) by apply mint_wf_len, up_xm_live.
  pose proof (burn_auth_same _ _ _ _ _ _ _ Lux up_ux_auth) as Sd.
  assert (Rx : is_u64 (ta_amount (a_data (l uxk)) - x)).
  { pose proof (ta_amount_range (a_data (l uxk))). unfold is_u64 in *. lia. }
  assert (Hpk : l' pk = Account (a_lamports (l pk) + rent_need E l pk PENDING_LEN) xorca_id
            (pending_bytes (byte_to_Z b) i uk w (now E + st_cooldown (a_data (l sk))))).
  { rewrite Hl. unfold unstake_effect, created, burned. rewrite set_data_same. cbn.
    rewrite upd_same. cbn. unfold rent_need. autorewrite with ledger. reflexivity. }
  assert (Hoth : forall k, k <> pk -> a_owner (l' k) = a_owner (l k) /\
      a_data (l' k) = if key_eqb sk k then set_escrow (st_escrow (a_data (l sk)) + w) (a_data (l sk))
                      else if key_eqb xorca_mint_id k then set_supply (mint_supply (a_data (l xorca_mint_id)) - x) (a_data (l xorca_mint_id))
                      else if key_eqb uxk k then set_amount (ta_amount (a_data (l uxk)) - x) sd1 else a_data (l k)).
  { intros k K. rewrite Hl. unfold unstake_effect, created, burned.
    rewrite set_data_other, upd_other by congruence. autorewrite with ledger. split; [reflexivity|].
    rewrite !set_data_data. destruct (key_eqb sk k); [reflexivity|]. destruct (key_eqb xorca_mint_id k); [|reflexivity].
    f_equal. }
  assert (Hs : supply l' = supply l - x).
  { unfold supply. destruct (Hoth xorca_mint_id Mp) as [_ D]. rewrite D, key_eqb_neq, key_eqb_refl by congruence.
    apply set_supply_same; [exact Lm|].
    pose proof (get_u64_range 36 (a_data (l xorca_mint_id))). unfold is_u64, u64_max, mint_supply in *. lia. }
  assert (Hall : forall mm k, holds l' mm k = holds l mm k
      - (if key_eqb xorca_mint_id mm then at_ uxk x k else 0)).
  { intros mm k.
    destruct (key_eq_dec pk k) as [<-|K1].
    { rewrite !holds_foreign; [|congruence|rewrite Hpk; cbn; congruence]. rewrite at_other by congruence.
      destruct (key_eqb xorca_mint_id mm); lia. }
    destruct (Hoth k ltac:(congruence)) as [O D].
    destruct (key_eq_dec uxk k) as [<-|K2].
    { rewrite !key_eqb_neq, key_eqb_refl in D by congruence.
      rewrite (holds_spent l l' mm uxk _ _ up_ux_live Sd Rx O D).
      rewrite (holds_value l mm uxk); [|apply up_ux_live|apply up_ux_live|destruct up_ux_live as (_ & _ & Q); rewrite Q; lia].
      rewrite up_ux_mint, at_same. destruct (key_eqb xorca_mint_id mm); lia. }
    rewrite at_other by congruence.
    destruct (key_eq_dec xorca_mint_id k) as [<-|K4].
    { rewrite !holds_mint; [destruct (key_eqb xorca_mint_id mm); lia|exact Lm|].
      rewrite key_eqb_neq, key_eqb_refl in D by congruence.
      rewrite D. unfold set_supply. now rewrite set_u64_length by (rewrite Lm; lia). }
    destruct (key_eq_dec sk k) as [<-|K5].
    { rewrite !holds_foreign by congruence. destruct (key_eqb xorca_mint_id mm); lia. }
    rewrite !key_eqb_neq in D by congruence.
    rewrite (holds_ext l l'); [destruct (key_eqb xorca_mint_id mm); lia|exact O|exact D]. }
  split; [|split].
  - unfold lamport_total. set (need := rent_need E l pk PENDING_LEN).
    rewrite (sum_ext _ (fun k => a_lamports (l k) + (at_ pk need k - at_ uk need k))).
    + rewrite sum_add, sum_sub, !sum_at by assumption. lia.
    + intros k _. rewrite Hl. unfold unstake_effect. autorewrite with ledger.
      rewrite created_lamports by exact Nup. unfold burned. unfold rent_need. autorewrite with ledger.
      subst need. unfold rent_need. reflexivity.
  - unfold total. rewrite (sum_ext _ _ ks (fun k _ => Hall orca_mint_id k)).
    rewrite (key_eqb_neq xorca_mint_id orca_mint_id) by (apply not_eq_sym, mints_ne).
    rewrite sum_sub, sum_zero. lia.
  - unfold total. rewrite (sum_ext _ _ ks (fun k _ => Hall xorca_mint_id k)). rewrite key_eqb_refl.
    rewrite sum_sub, sum_at by assumption. lia.
Qed.

(** ** Withdraw *)
Lemma withdraw_conserves C l E accs data i l' evs ks :
  honest_metas C accs -> encodes data (Withdraw i) ->
  process_instruction C E xorca_id accs l data = Ok (l', evs) -> covers ks accs ->
  (lamports_ok l -> (forall vk, slot accs 4 vk -> ordinary l vk) ->
     lamport_total l' ks = lamport_total l ks) /\
  total l' orca_mint_id ks = total l orca_mint_id ks /\
  total l' xorca_mint_id ks = total l xorca_mint_id ks /\
  (mint_live l xorca_mint_id -> supply l' = supply l).
Proof.
  intros Hh He H Hc. apply (honest_call _ _ _ _ _ _ _ _ He) in H.
  apply withdraw_inv in H; [|apply He|exact Hh].
  destruct H as (un & st & pd & uo & v & om & sp & tp & vd1 & Pre & Hne & Hd & _ & Hlam & _ & ->).
  destruct Pre. destruct wp_accs.
  pose proof (covered _ _ _ _ Hc wa0) as I0. pose proof (covered _ _ _ _ Hc wa2) as I2.
  pose proof (covered _ _ _ _ Hc wa3) as I3. pose proof (covered _ _ _ _ Hc wa4) as I4. destruct Hc as [Nd _].
  set (pk := m_key pd) in *. set (uk := m_key un) in *. set (uok := m_key uo) in *.
  set (sk := m_key st) in *. set (vk := m_key v) in *.
  assert (Vo : a_owner (l vk) = token_id) by apply wp_v_live.
  assert (Uo : a_owner (l uok) = token_id) by apply wp_uo_live.
  pose proof xt_ne as T3.
  assert (Vp : pk <> vk) by (eapply xorca_owned_ne; eassumption).
  assert (Up : pk <> uok) by (eapply xorca_owned_ne; eassumption).
  assert (Us : sk <> uok) by (eapply xorca_owned_ne; eassumption).
  assert (Vs : sk <> vk) by (eapply xorca_owned_ne; eassumption).
  assert (Sp : sk <> pk).
  { intros Q. destruct wp_st_shape as [_ S1]. destruct wp_pd_shape as [_ S2]. rewrite Q in S1.
    unfold st_disc, pw_disc in *. lia. }
  set (c := claim l pk) in *.
  assert (Rc : is_u64 c) by (apply get_u64_range).
  assert (Lv : length (a_data (l vk)) = 165%nat) by apply ta_wf_len, wp_v_live.
  pose proof (spend_auth_same _ _ _ _ _ _ _ _ Lv wp_v_auth) as Sd.
  assert (Rv : is_u64 (ta_amount (a_data (l vk)) - c)).
  { pose proof (ta_amount_range (a_data (l vk))). unfold is_u64 in *. lia. }
  assert (Ru : is_u64 (ta_amount (a_data (l uok)) + c)).
  { pose proof (ta_amount_range (a_data (l uok))). unfold is_u64, u64_max in *. lia. }
  assert (Hpk : a_owner (l' pk) = system_id).
  { destruct (Hd pk) as [_ O]. rewrite O. unfold withdraw_effect. autorewrite with ledger.
    now rewrite upd_same. }
  assert (Hoth : forall k, k <> pk -> a_owner (l' k) = a_owner (l k) /\
      a_data (l' k) = if key_eqb sk k then set_escrow (st_escrow (a_data (l sk)) - c) (a_data (l sk))
                      else if key_eqb uok k then set_amount (ta_amount (a_data (l uok)) + c) (a_data (l uok))
                      else if key_eqb vk k then set_amount (ta_amount (a_data (l vk)) - c) vd1 else a_data (l k)).
  { intros k K. destruct (Hd k) as [D O]. rewrite D, O. unfold withdraw_effect, transferred. split.
    - autorewrite with ledger. rewrite upd_other by congruence. now autorewrite with ledger.
    - rewrite set_data_data. destruct (key_eqb sk k); [reflexivity|]. rewrite upd_other by congruence.
      autorewrite with ledger. rewrite !set_data_data. reflexivity. }
  assert (Hall : forall mm k, holds l' mm k = holds l mm k
      + (if key_eqb orca_mint_id mm then at_ uok c k - at_ vk c k else 0)).
  { intros mm k.
    destruct (key_eq_dec pk k) as [<-|K1].
    { rewrite !holds_foreign; [|congruence|rewrite Hpk; apply not_eq_sym, token_ne_system].
      rewrite !at_other by congruence. destruct (key_eqb orca_mint_id mm); lia. }
    destruct (Hoth k ltac:(congruence)) as [O D].
    destruct (key_eq_dec uok k) as [<-|K2].
    { rewrite key_eqb_neq, key_eqb_refl in D by congruence.
      rewrite (holds_spent l l' mm uok _ _ wp_uo_live (same_refl_delegate _) Ru O D).
      rewrite (holds_value l mm uok); [|apply wp_uo_live|apply wp_uo_live|destruct wp_uo_live as (_ & _ & Q); rewrite Q; lia].
      rewrite wp_uo_mint, at_same, at_other by congruence. destruct (key_eqb orca_mint_id mm); lia. }
    destruct (key_eq_dec vk k) as [<-|K3].
    { rewrite !key_eqb_neq, key_eqb_refl in D by congruence.
      rewrite (holds_spent l l' mm vk _ _ wp_v_live Sd Rv O D).
      rewrite (holds_value l mm vk); [|apply wp_v_live|apply wp_v_live|destruct wp_v_live as (_ & _ & Q); rewrite Q; lia].
      rewrite wp_v_mint, at_same, at_other by congruence. destruct (key_eqb orca_mint_id mm); lia. }
    rewrite !at_other by congruence.
    destruct (key_eq_dec sk k) as [<-|K5].
    { rewrite !holds_foreign by congruence. destruct (key_eqb orca_mint_id mm); lia. }
    rewrite !key_eqb_neq in D by congruence.
    rewrite (holds_ext l l'); [destruct (key_eqb orca_mint_id mm); lia|exact O|exact D]. }
  split; [|split; [|split]].
  - intros Hp Hord. specialize (Hp pk). assert (Hnat : ta_native_flag (a_data (l vk)) = 0) by (apply Hord; exists v; auto).
    destruct (wp_lam Hnat) as [_ Hup]. unfold lamport_total.
    rewrite (sum_ext _ (fun k => a_lamports (l k) + (at_ uk (a_lamports (l pk)) k - at_ pk (a_lamports (l pk)) k))).
    + rewrite sum_add, sum_sub, !sum_at by assumption. lia.
    + intros k _. rewrite Hlam. rewrite native_none by assumption. unfold at_.
      destruct (key_eqb pk k) eqn:Q.
      * apply key_eqb_true in Q. subst k. destruct (key_eqb uk pk) eqn:Q2; [|lia].
        apply key_eqb_true in Q2. destruct (Z.eq_dec (a_lamports (l pk)) 0); [lia|]. exfalso. apply Hup; [lia|exact Q2].
      * lia.
  - unfold total. rewrite (sum_ext _ _ ks (fun k _ => Hall orca_mint_id k)). rewrite key_eqb_refl.
    rewrite sum_add, sum_sub, !sum_at by assumption. lia.
  - unfold total. rewrite (sum_ext _ _ ks (fun k _ => Hall xorca_mint_id k)).
    rewrite (key_eqb_neq orca_mint_id xorca_mint_id) by apply mints_ne. rewrite sum_add, sum_zero. lia.
  - intros (Mo & Mw & _). apply mint_wf_len in Mw. unfold supply.
    assert (xorca_mint_id <> pk) by (intros Q; rewrite Q in *; congruence).
    destruct (Hoth xorca_mint_id) as [_ D]; [assumption|].
    assert (xorca_mint_id <> uok).
    { intros Q. apply proj2, proj1, ta_wf_len in wp_uo_live. rewrite Q in *. lia. }
    assert (xorca_mint_id <> vk) by (intros Q; rewrite Q in *; lia).
    assert (xorca_mint_id <> sk) by (intros Q; rewrite Q in *; congruence).
    rewrite !key_eqb_neq in D by congruence. now rewrite D.
Qed.

(** ** Set *)
Lemma set_conserves C l E accs data u l' evs ks :
  encodes data (Set_ u) ->
  process_instruction C E xorca_id accs l data = Ok (l', evs) ->
  lamport_total l' ks = lamport_total l ks /\
  (forall m, total l' m ks = total l m ks) /\
  (mint_live l xorca_mint_id -> supply l' = supply l).
Proof.
  intros He H. apply (set_exact _ _ _ _ _ _ _ _ He) in H.
  destruct H as (sk & _ & [So _] & _ & Ho & Hd & _). split; [|split].
  - unfold lamport_total. apply sum_ext. intros k _. apply Ho.
  - intros m. unfold total. apply sum_ext. intros k _. destruct (key_eq_dec sk k) as [<-|N].
    + rewrite !holds_foreign; auto; destruct (Ho sk) as [Q _]; rewrite ?Q, So; apply xt_ne.
    + apply holds_ext; [apply Ho|apply Hd; congruence].
  - intros (Mo & _). unfold supply. rewrite Hd; [reflexivity|]. intros Q. rewrite Q in *. apply xt_ne. congruence.
Qed.

(** ** Initialize *)
Lemma init_conserves C l E accs data c l' evs ks :
  sysvars_ok E -> honest_metas C accs -> encodes data (Initialize c) -> lamports_ok l ->
  ~ slot accs 3 deployer_address ->
  process_instruction C E xorca_id accs l data = Ok (l', evs) -> covers ks accs ->
  lamport_total l' ks = lamport_total l ks /\
  (forall m, total l' m ks = total l m ks) /\ supply l' = supply l.
Proof.
  intros HE Hh He HL Hdep H Hc. pose proof H as H0.
  apply (init_exact _ _ _ _ _ _ _ _ HE Hh He) in H.
  destruct H as (sk & vk & au & sb & vb & S0 & _ & S2 & S3 & Hf & _ & Nsv & So & Sd & Vo & Vd & _ & Mf & _ & _ & _ & _ & _ &
    [So' _] & _ & _ & _ & _ & _ & _ & (Vo' & Vu' & Vm' & _) & Vb & _ & _ & Ls & Lv & Hd & Hl & _).
  assert (Nv : deployer_address <> vk) by (intros <-; now apply Hdep).
  destruct (Lv Nv (HL vk)) as [Lv1 Lv2].
  assert (Ns : deployer_address <> sk).
  { destruct S0 as (m0 & Q & <- & Sg). intros Q2. apply (Hh m0); [eapply nth_error_In; exact Q|exact Sg|].
    rewrite Q2. eapply find_is_pda; exact Hf. }
  split; [|split].
  - unfold lamport_total. set (na := Z.max 0 (rent_min E 2048 - a_lamports (l sk))) in *.
    set (nb := Z.max 0 (Z.max 1 (rent_min E 165) - a_lamports (l vk))) in *.
    destruct S0 as (m0 & I0 & K0 & _), S2 as (m2 & I2 & K2), S3 as (m3 & I3 & K3).
    pose proof (covered _ _ _ _ Hc I0). pose proof (covered _ _ _ _ Hc I2). pose proof (covered _ _ _ _ Hc I3).
    rewrite K0, K2, K3 in *. destruct Hc as [Nd _].
    rewrite (sum_ext _ (fun k => a_lamports (l k) + (at_ sk na k + (at_ vk nb k - at_ deployer_address (na + nb) k)))).
    + rewrite !sum_add, sum_sub, !sum_at by assumption. lia.
    + intros k _.
      destruct (key_eq_dec sk k) as [<-|K1]; [rewrite at_same, !at_other by congruence; lia|].
      destruct (key_eq_dec vk k) as [<-|K4]; [rewrite at_same, !at_other by congruence; lia|].
      destruct (key_eq_dec deployer_address k) as [<-|K5]; [rewrite at_same, !at_other by congruence; lia|].
      rewrite !at_other by congruence. rewrite Hl by congruence. lia.
  - intros m. unfold total. apply sum_ext. intros k _.
    destruct (key_eq_dec sk k) as [<-|K1].
    { rewrite !holds_foreign; [reflexivity|rewrite So; apply not_eq_sym, token_ne_system|rewrite So'; apply xt_ne]. }
    destruct (key_eq_dec vk k) as [<-|K2].
    { rewrite (holds_foreign l) by (rewrite Vo; apply not_eq_sym, token_ne_system).
      unfold holds. fold (balance l' vk). rewrite Vb. now destruct (_ && _). }
    apply holds_ext; apply Hd; congruence.
  - unfold supply. destruct (Hd xorca_mint_id) as [_ ->]; [| |reflexivity].
    + intros Q. rewrite Q, Sd in Mf. discriminate Mf.
    + intros Q. rewrite Q, Vd in Mf. discriminate Mf.
Qed.

(** ** Any call, on reachable ledgers (C25) *)
Lemma program_address_off_curve C seeds p k b :
  find_program_address C seeds p = Some (k, b) -> on_curve C k = false.
Proof.
  intros H. apply find_create in H. unfold create_program_address in H. destruct (seeds_ok _); [|discriminate].
  destruct (on_curve C _) eqn:Q; congruence.
Qed.

Lemma call_conserves C l E accs data l' evs ks :
  ordinary_state_address C -> deployer_has_key C -> reaches C l -> op_ok C l (OpCall E accs data) ->
  process_instruction C E xorca_id accs l data = Ok (l', evs) -> covers ks accs ->
  lamport_total l' ks = lamport_total l ks /\
  total l' orca_mint_id ks = total l orca_mint_id ks /\
  total l' xorca_mint_id ks - total l xorca_mint_id ks = supply l' - supply l.
Proof.
  intros Hord Hdep Hr Ho H Hc. pose proof Ho as [HE Hh].
  assert (Hdec : exists i, encodes data i).
  { unfold process_instruction in H. destruct (deserialize read_instruction data) as [i|] eqn:Q.
    - exists i. now apply decode_encodes.
    - destruct (key_eqb _ _); discriminate H. }
  destruct Hdec as [i He].
  assert (Hpool : (exists c, i = Initialize c) \/ exists sk, is_state l sk).
  { destruct i as [a|x n|n|c|u]; [right|right|right|left; now exists c|right].
    - destruct (stake_exact _ _ _ _ _ _ _ _ Hh He H) as (a1 & a2 & a3 & a4 & sk & a6 & Q). exists sk. tauto.
    - destruct (unstake_exact _ _ _ _ _ _ _ _ _ HE Hh He H) as (a1 & sk & a3 & a4 & a5 & a6 & Q). exists sk. tauto.
    - destruct (withdraw_exact _ _ _ _ _ _ _ _ Hh He H) as (a1 & sk & a3 & a4 & a5 & Q). exists sk. tauto.
    - destruct (set_exact _ _ _ _ _ _ _ _ He H) as (sk & _ & Q & _). now exists sk. }
  assert (HLam : lamports_ok l).
  { destruct Hr as (l0 & ops & ev0 & Hg & Hh0). destruct (reachable _ _ _ _ _ Hord Hg Hh0) as [[F _]|(sk & vk & P & F)]; apply F. }
  destruct Hpool as [[c ->]|[sk Hs]].
  - assert (Nd : ~ slot accs 3 deployer_address).
    { intros S. destruct (init_exact _ _ _ _ _ _ _ _ HE Hh He H) as (sk & vk & au & sb & vb & _ & _ & _ & S3 & _ & Hf & _).
      apply program_address_off_curve in Hf. rewrite (slot_fun _ _ _ _ S3 S), Hdep in Hf. discriminate. }
    destruct (init_conserves _ _ _ _ _ _ _ _ _ HE Hh He HLam Nd H Hc) as (A & B & D).
    rewrite !B, D. split; [exact A|]. split; [reflexivity|lia].
  - destruct (reaches_pool _ _ _ Hord Hr Hs) as (vk & P & HP).
    pose proof (mo_live _ _ _ (po_mint _ _ _ _ _ HP)) as Hm.
    destruct i as [a|x n|n|c|u].
    + eapply stake_conserves; eassumption.
    + eapply unstake_conserves; eassumption.
    + destruct (withdraw_conserves _ _ _ _ _ _ _ _ _ Hh He H Hc) as (A & B & D & F).
      split; [|split; [exact B|rewrite D, (F Hm); lia]].
      apply A; [exact HLam|]. intros v Hv.
      destruct (call_performs _ _ _ _ _ _ _ _ He H) as [Hp _].
      destruct (call_slots _ _ _ _ _ _ sk vk Hord Hr Hs (pool_is_vault _ _ _ _ _ HP) Ho Hp) as [_ S4].
      rewrite (slot_fun _ _ _ _ Hv S4). apply (po_vault _ _ _ _ _ HP).
    + exfalso. destruct (call_performs _ _ _ _ _ _ _ _ He H) as [Hp _].
      exact (call_slots _ _ _ _ _ _ sk vk Hord Hr Hs (pool_is_vault _ _ _ _ _ HP) Ho Hp).
    + destruct (set_conserves _ _ _ _ _ _ _ _ ks He H) as (A & B & D). rewrite !B, (D Hm). split; [exact A|]. split; [reflexivity|lia].
Qed.
