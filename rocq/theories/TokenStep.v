(** What a token program call can do to a mint, its total balance, and a token
    account whose owner does not sign. *)
From Verif Require Import History BytesFacts FieldFacts LedgerFacts TokenFacts ParseFacts CpiFacts
  AssertFacts LayoutFacts StakeFacts UnstakeFacts InitFacts Totals OutsideFacts.

(** ** Total balances under transfer, mint and burn *)

Lemma deq_sym l l' : deq l l' -> deq l' l.
Proof. intros H k. destruct (H k). split; congruence. Qed.

Lemma tok_bounded_deq l l' m : deq l' l -> tok_bounded l m -> tok_bounded l' m.
Proof.
  intros H. apply tok_bounded_frame; try apply H.
  intros k K1 _ _. destruct (H k) as [D O]. rewrite O in K1. auto.
Qed.

Lemma spent_fields d d1 v :
  ta_wf d = true -> same_but_delegate d d1 -> is_u64 v ->
  ta_wf (set_amount v d1) = true /\ ta_state (set_amount v d1) = ta_state d /\
  ta_mint (set_amount v d1) = ta_mint d /\ ta_amount (set_amount v d1) = v /\
  ta_native_flag (set_amount v d1) = ta_native_flag d /\ ta_owner (set_amount v d1) = ta_owner d /\
  ta_close_flag (set_amount v d1) = ta_close_flag d.
Proof.
  intros Hw S Hv. pose proof (ta_wf_len _ Hw) as L. destruct S.
  assert (L1 : length d1 = 165%nat) by congruence.
  destruct (set_amount_same d1 v L1 Hv) as (F1 & F2 & F3 & F4 & F5 & F6 & F7 & F8 & F9 & F10 & F11).
  specialize (sbd_wf Hw). repeat split; congruence.
Qed.

Lemma set_data_data l k d k' :
  a_data (set_data l k d k') = if key_eqb k k' then d else a_data (l k').
Proof.
  destruct (key_eqb k k') eqn:E.
  - apply key_eqb_true in E. subst. apply upd_data_same.
  - apply key_eqb_false in E. now rewrite set_data_other.
Qed.

Lemma no_native_write l m k d :
  a_owner (l k) = token_id -> ta_native_flag d = ta_native_flag (a_data (l k)) ->
  ta_mint d = ta_mint (a_data (l k)) -> ta_unpack (a_data (l k)) = Ok tt ->
  no_native l m -> no_native (set_data l k d) m.
Proof.
  intros Ho Hn Hm Hu H k'. autorewrite with ledger. rewrite set_data_data.
  destruct (key_eqb k k') eqn:E; [|apply H]. apply key_eqb_true in E. subst k'.
  intros _ _ Hm'. rewrite Hn. apply (H k); congruence.
Qed.

Lemma no_native_mint_write l m k d :
  mint_wf d = true -> no_native l m -> no_native (set_data l k d) m.
Proof.
  intros Hw H k'. autorewrite with ledger. rewrite set_data_data.
  destruct (key_eqb k k') eqn:E; [|apply H]. intros _ Hu. apply ta_unpack_ok in Hu.
  destruct Hu as [Hu _]. destruct (ta_not_mint d Hu Hw).
Qed.

Lemma live_unpacks l k : ta_live l k -> ta_unpack (a_data (l k)) = Ok tt.
Proof. intros (_ & H & H'). apply ta_unpack_ok. split; [assumption|lia]. Qed.

Lemma bounded_transferred l m f t n sd1 :
  f <> t -> ta_live l f -> ta_live l t -> 0 <= n <= ta_amount (a_data (l f)) ->
  ta_mint (a_data (l f)) = ta_mint (a_data (l t)) ->
  ta_amount (a_data (l t)) + n <= u64_max ->
  same_but_delegate (a_data (l f)) sd1 ->
  tok_bounded l m -> tok_bounded (transferred l f t n sd1) m.
Proof.
  intros Hne Hf Ht Hn Hm Hr Hs [Hl Hnn Hb].
  assert (Nf : m <> f) by (eapply mint_ne_ta; eassumption).
  assert (Nt : m <> t) by (eapply mint_ne_ta; eassumption).
  pose proof (ta_amount_range (a_data (l f))) as Rf. pose proof (ta_amount_range (a_data (l t))) as Rt.
  assert (Uf : is_u64 (ta_amount (a_data (l f)) - n)) by (unfold is_u64 in *; lia).
  assert (Ut : is_u64 (ta_amount (a_data (l t)) + n)) by (unfold is_u64, u64_max in *; lia).
  destruct Hf as (F1 & F2 & F3), Ht as (T1 & T2 & T3).
  destruct (spent_fields _ _ _ F2 Hs Uf) as (A1 & A2 & A3 & A4 & A5 & _).
  destruct (spent_fields _ _ _ T2 (same_but_delegate_refl _) Ut) as (B1 & B2 & B3 & B4 & B5 & _).
  assert (Ef : forall k, a_owner (transferred l f t n sd1 k) = a_owner (l k))
    by (intros; apply transferred_owner).
  assert (Ed1 : a_data (transferred l f t n sd1 f)
                = set_amount (ta_amount (a_data (l f)) - n) sd1).
  { unfold transferred. rewrite set_data_other by congruence. apply upd_data_same. }
  assert (Ed2 : a_data (transferred l f t n sd1 t)
                = set_amount (ta_amount (a_data (l t)) + n) (a_data (l t))).
  { unfold transferred. apply upd_data_same. }
  constructor.
  - unfold mint_live. rewrite transferred_data_other by congruence. exact Hl.
  - unfold transferred. apply no_native_write.
    + now autorewrite with ledger.
    + rewrite set_data_other by congruence. exact B5.
    + rewrite set_data_other by congruence. exact B3.
    + rewrite set_data_other by congruence. apply ta_unpack_ok. split; [assumption|lia].
    + apply no_native_write; auto. apply ta_unpack_ok. split; [assumption|lia].
  - rewrite transferred_data_other by congruence.
    rewrite <- (Z.add_0_r (mint_supply (a_data (l m)))).
    unfold total. apply (sums_move (holds l m) _ f t _ 0 Hne); [apply holds_nonneg| | |exact Hb].
    + intros k K1 K2. rewrite (holds_ext l); [lia|apply Ef|].
      now rewrite transferred_data_other.
    + destruct (key_eq_dec (ta_mint (a_data (l f))) m) as [Em|Em].
      * rewrite !holds_pos; rewrite ?Ef, ?Ed1, ?Ed2; auto; try congruence; try lia.
      * destruct (holds_cases (transferred l f t n sd1) m f) as [(_ & _ & _ & Q & _)| ->];
          [rewrite Ed1, A3 in Q; contradiction|].
        destruct (holds_cases (transferred l f t n sd1) m t) as [(_ & _ & _ & Q & _)| ->];
          [rewrite Ed2, B3 in Q; congruence|].
        pose proof (holds_nonneg l m f). pose proof (holds_nonneg l m t). lia.
Qed.

Lemma mint_write_live l m v k :
  mint_live l m -> is_u64 v ->
  mint_live (set_data l m (set_supply v (a_data (l m)))) k <-> mint_live l k.
Proof.
  intros (H1 & H2 & H3) Hv. unfold mint_live. rewrite set_data_owner, set_data_data.
  destruct (key_eqb m k) eqn:E; [|reflexivity]. apply key_eqb_true in E. subst k.
  pose proof (mint_wf_len _ H2) as L.
  destruct (set_supply_same (a_data (l m)) v L Hv) as (_ & _ & _ & _ & E1 & _ & _ & _ & E2).
  rewrite E1, E2. reflexivity.
Qed.

Lemma mint_live_write_ta l k d m :
  ta_wf d = true -> ta_wf (a_data (l k)) = true ->
  mint_live (set_data l k d) m <-> mint_live l m.
Proof.
  intros H1 H2. unfold mint_live. rewrite set_data_owner, set_data_data.
  destruct (key_eqb k m) eqn:E; [|reflexivity]. apply key_eqb_true in E. subst m.
  split; intros (_ & W & _); [destruct (ta_not_mint d)|destruct (ta_not_mint (a_data (l k)))];
    assumption.
Qed.

(** Writing an amount and a supply, as MintTo and Burn do. *)
Lemma bounded_supply l m t mm v s d1 :
  mint_live l mm -> ta_live l t -> ta_mint (a_data (l t)) = mm ->
  same_but_delegate (a_data (l t)) d1 -> is_u64 v -> is_u64 s ->
  s - mint_supply (a_data (l mm)) = v - ta_amount (a_data (l t)) ->
  tok_bounded l m ->
  tok_bounded (set_data (set_data l t (set_amount v d1)) mm (set_supply s (a_data (l mm)))) m.
Proof.
  intros Hmm Ht Hm Hs Hv Hsu Hd [Hl Hnn Hb].
  assert (Nt : mm <> t) by (eapply mint_ne_ta; eassumption).
  assert (Nt' : m <> t) by (eapply mint_ne_ta; eassumption).
  destruct Ht as (T1 & T2 & T3).
  destruct (spent_fields _ _ _ T2 Hs Hv) as (A1 & A2 & A3 & A4 & A5 & _).
  destruct Hmm as (M1 & M2 & M3). pose proof (mint_wf_len _ M2) as L.
  destruct (set_supply_same (a_data (l mm)) s L Hsu) as (S1 & _ & _ & _ & S2 & _ & _ & _ & S3).
  set (l1 := set_data l t (set_amount v d1)).
  set (l2 := set_data l1 mm (set_supply s (a_data (l mm)))).
  assert (Eo : forall k, a_owner (l2 k) = a_owner (l k))
    by (intros k; unfold l2, l1; now autorewrite with ledger).
  assert (Et : a_data (l2 t) = set_amount v d1).
  { unfold l2. rewrite set_data_other by congruence. apply upd_data_same. }
  assert (Em : a_data (l2 mm) = set_supply s (a_data (l mm))) by apply upd_data_same.
  assert (Ek : forall k, k <> t -> k <> mm -> a_data (l2 k) = a_data (l k)).
  { intros k K1 K2. unfold l2, l1. now rewrite !set_data_other by congruence. }
  assert (Hm0 : holds l2 m mm = 0).
  { destruct (holds_cases l2 m mm) as [(_ & W & _)|H]; [|exact H].
    rewrite Em in W. destruct (ta_not_mint _ W). congruence. }
  constructor.
  - unfold mint_live. rewrite Eo. destruct (key_eq_dec m mm) as [->|Hne].
    + rewrite Em, S2, S3. auto.
    + rewrite Ek by assumption. exact Hl.
  - unfold l2. apply no_native_mint_write; [congruence|]. unfold l1.
    apply no_native_write; auto. apply ta_unpack_ok. split; [assumption|lia].
  - destruct (key_eq_dec m mm) as [->|Hne].
    + rewrite Em, S1. replace s with (mint_supply (a_data (l mm)) + (s - mint_supply (a_data (l mm)))) by lia.
      unfold total. apply (sums_one (holds l mm) _ t); [apply holds_nonneg| | |exact Hb].
      * intros k K. destruct (key_eq_dec k mm) as [->|K'].
        -- rewrite Hm0. apply holds_nonneg.
        -- rewrite (holds_ext l l2); [lia|apply Eo|now apply Ek].
      * rewrite !holds_pos; rewrite ?Eo, ?Et; auto; try lia; congruence.
    + rewrite Ek by assumption. unfold total. apply (sums_mono (holds l m)); [|exact Hb].
      intros k. destruct (key_eq_dec k mm) as [->|K'].
      * rewrite Hm0. apply holds_nonneg.
      * destruct (key_eq_dec k t) as [->|K].
        -- destruct (holds_cases l2 m t) as [(_ & _ & _ & Q & _)| ->]; [|apply holds_nonneg].
           rewrite Et, A3 in Q. congruence.
        -- rewrite (holds_ext l l2); [lia|apply Eo|now apply Ek].
Qed.

Lemma bounded_minted l m mm t n :
  mint_live l mm -> ta_live l t -> ta_mint (a_data (l t)) = mm -> 0 <= n ->
  ta_amount (a_data (l t)) + n <= u64_max -> mint_supply (a_data (l mm)) + n <= u64_max ->
  tok_bounded l m -> tok_bounded (minted l mm t n) m.
Proof.
  intros. pose proof (ta_amount_range (a_data (l t))). pose proof (mint_supply_range (a_data (l mm))).
  unfold is_u64, u64_max in *.
  apply bounded_supply; auto; try apply same_but_delegate_refl; unfold is_u64; lia.
Qed.

Lemma bounded_burned l m mm f n sd1 :
  mint_live l mm -> ta_live l f -> ta_mint (a_data (l f)) = mm -> 0 <= n ->
  n <= ta_amount (a_data (l f)) -> n <= mint_supply (a_data (l mm)) ->
  same_but_delegate (a_data (l f)) sd1 ->
  tok_bounded l m -> tok_bounded (burned l f mm n sd1) m.
Proof.
  intros. pose proof (ta_amount_range (a_data (l f))). pose proof (mint_supply_range (a_data (l mm))).
  unfold is_u64, u64_max in *.
  apply bounded_supply; auto; unfold is_u64; lia.
Qed.

(** A data write that does not raise the balance of the account written. *)
Lemma bounded_write l m k d :
  (k = m -> mint_wf d = true /\ mint_init d = 1 /\ mint_supply d = mint_supply (a_data (l m))) ->
  (ta_wf d = true -> ta_state d <> 0 -> ta_mint d = m -> a_owner (l k) = token_id ->
     ta_native_flag d = 0 /\ ta_amount d <= holds l m k) ->
  tok_bounded l m -> tok_bounded (set_data l k d) m.
Proof.
  intros Hmint Hta [Hl Hnn Hb]. constructor.
  - unfold mint_live. rewrite set_data_owner, set_data_data.
    destruct (key_eqb k m) eqn:E; [|exact Hl]. apply key_eqb_true in E.
    destruct (Hmint E) as (H1 & H2 & _). split; [apply Hl|auto].
  - intros k'. autorewrite with ledger. rewrite set_data_data.
    destruct (key_eqb k k') eqn:E; [|apply Hnn]. apply key_eqb_true in E. subst k'.
    intros K1 K2 K3. apply ta_unpack_ok in K2. destruct K2. now apply Hta.
  - assert (Es : mint_supply (a_data (set_data l k d m)) = mint_supply (a_data (l m))).
    { rewrite set_data_data. destruct (key_eqb k m) eqn:E; [|reflexivity].
      apply key_eqb_true in E. now destruct (Hmint E) as (_ & _ & ->). }
    rewrite Es. unfold total. apply (sums_mono (holds l m)); [|exact Hb].
    intros k'. destruct (key_eq_dec k k') as [<-|Hne].
    + destruct (holds_cases (set_data l k d) m k) as [(K1 & K2 & K3 & K4 & ->)| ->];
        [|apply holds_nonneg].
      rewrite upd_data_same in *. rewrite set_data_owner in K1. now apply Hta.
    + rewrite (holds_ext l); [lia|now autorewrite with ledger|now rewrite set_data_other].
Qed.

(** Writes to an initialized token account that keep mint, amount and native flag. *)
Lemma bounded_same_ta l m k d :
  a_owner (l k) = token_id -> ta_unpack (a_data (l k)) = Ok tt -> ta_mint d = ta_mint (a_data (l k)) ->
  ta_amount d = ta_amount (a_data (l k)) -> ta_native_flag d = ta_native_flag (a_data (l k)) ->
  tok_bounded l m -> tok_bounded (set_data l k d) m.
Proof.
  intros Ho Hu Hm Ha Hn Hb. pose proof Hu as Hu'. apply ta_unpack_ok in Hu. destruct Hu as [Hw Hs].
  apply bounded_write; [| |exact Hb].
  - intros ->. destruct Hb as [(_ & Hw' & _) _ _]. destruct (ta_not_mint _ Hw Hw').
  - intros _ _ Hm' _. rewrite Hn, Ha. split.
    + apply (tb_native _ _ Hb k); congruence.
    + rewrite holds_pos; auto; [lia|congruence].
Qed.

Lemma len_ne_bounded l m k d :
  length d = length (a_data (l k)) -> length d <> 82%nat -> length d <> 165%nat ->
  tok_bounded l m -> tok_bounded (set_data l k d) m.
Proof.
  intros H0 H1 H2 Hb. apply bounded_write; [| |exact Hb].
  - intros ->. destruct Hb as [(_ & Hw' & _) _ _]. apply mint_wf_len in Hw'. congruence.
  - intros W. apply ta_wf_len in W. contradiction.
Qed.

Lemma bounded_mint_write l m k d :
  mint_wf d = true -> 
  (k = m -> mint_init d = 1 /\ mint_supply d = mint_supply (a_data (l m))) ->
  tok_bounded l m -> tok_bounded (set_data l k d) m.
Proof.
  intros H1 H2. apply bounded_write.
  - intros E. split; [assumption|auto].
  - intros W. destruct (ta_not_mint d W H1).
Qed.

Lemma flags_wf_mint d :
  length d = 82%nat -> mint_auth_flag d = 0 \/ mint_auth_flag d = 1 -> mint_init d = 1 ->
  mint_freeze_flag d = 0 \/ mint_freeze_flag d = 1 -> mint_wf d = true.
Proof.
  intros L F1 F2 F3. unfold mint_wf, zlen, mint_len. rewrite L, F2.
  apply flag_ok_cases in F1, F3. now rewrite F1, F3.
Qed.

Lemma mint_wf_flags d :
  mint_wf d = true -> (mint_auth_flag d = 0 \/ mint_auth_flag d = 1) /\
  (mint_freeze_flag d = 0 \/ mint_freeze_flag d = 1).
Proof. unfold mint_wf. intros H. clean_bool. now rewrite <- !flag_ok_cases. Qed.

(** Authority changes of a mint. *)
Lemma pack_mint_auth d o :
  length d = 82%nat ->
  let d' := pack_option_key 0 o d in
  length d' = 82%nat /\ (mint_auth_flag d' = 0 \/ mint_auth_flag d' = 1) /\
  mint_supply d' = mint_supply d /\ mint_init d' = mint_init d /\
  mint_freeze_flag d' = mint_freeze_flag d /\ mint_freeze d' = mint_freeze d.
Proof.
  intros L d'. unfold d', pack_option_key, mint_auth_flag, mint_supply, mint_init, mint_freeze_flag,
    mint_freeze. cbn [Nat.add].
  destruct o as [k|]; (split; [slen|]); getset; auto 10.
Qed.

Lemma pack_mint_freeze d o :
  length d = 82%nat ->
  let d' := pack_option_key 46 o d in
  length d' = 82%nat /\ (mint_freeze_flag d' = 0 \/ mint_freeze_flag d' = 1) /\
  mint_supply d' = mint_supply d /\ mint_init d' = mint_init d /\
  mint_auth_flag d' = mint_auth_flag d /\ mint_auth d' = mint_auth d.
Proof.
  intros L d'. unfold d', pack_option_key, mint_auth_flag, mint_supply, mint_init, mint_freeze_flag,
    mint_auth. cbn [Nat.add].
  destruct o as [k|]; (split; [slen|]); getset; auto 10.
Qed.

Theorem token_exec_bounded E sg ex l c l' m :
  m <> native_mint_id -> token_call_ok c = true -> token_exec E sg ex l c = Ok l' ->
  tok_bounded l m -> tok_bounded l' m.
Proof.
  intros Hnat Hc H Hb. destruct c; cbn [token_exec token_call_ok] in *; clean_bool.
  - (* Transfer *)
    destruct (key_eq_dec from to) as [<-|Hne].
    + unfold token_transfer in H. token_own H; [exact Hb| |];
        rewrite key_eqb_refl in Q; discriminate.
    + apply token_transfer_inv in H; [|exact Hne].
      destruct H as (sd1 & J1 & J2 & J3 & J4 & J5 & J6 & J7 & _).
      eapply tok_bounded_deq; [exact J7|].
      apply bounded_transferred; auto.
      eapply spend_auth_same; [|exact J5]. apply ta_wf_len, J1.
  - apply token_mint_to_ok in H. destruct H as (J1 & J2 & J3 & J4 & J5 & J6 & J7 & J8 & ->).
    now apply bounded_minted.
  - apply token_burn_ok in H. destruct H as (sd1 & J1 & J2 & J3 & J4 & J5 & J6 & J7 & ->).
    apply bounded_burned; auto. eapply burn_auth_same; [|exact J6]. apply ta_wf_len, J1.
  - unfold token_approve in H. token_own H. apply unit_tt in T0.
    pose proof (proj1 (ta_unpack_ok _) T0) as [W _]. apply ta_wf_len in W.
    apply bounded_same_ta; auto; unfold ta_mint, ta_amount, ta_native_flag; getset; reflexivity.
  - unfold token_revoke in H. token_own H. apply unit_tt in T0.
    pose proof (proj1 (ta_unpack_ok _) T0) as [W _]. apply ta_wf_len in W.
    apply bounded_same_ta; auto; unfold ta_mint, ta_amount, ta_native_flag; getset; reflexivity.
  - unfold token_set_authority in H. token_own H.
    + apply unit_tt in T0. pose proof (proj1 (ta_unpack_ok _) T0) as [W _]. apply ta_wf_len in W.
      apply bounded_same_ta; auto;
      destruct (ta_is_native (a_data (l k))); unfold ta_mint, ta_amount, ta_native_flag; getset; reflexivity.
    + apply unit_tt in T0. pose proof (proj1 (ta_unpack_ok _) T0) as [W _]. apply ta_wf_len in W.
      apply bounded_same_ta; auto; unfold pack_option_key; destruct new; cbn [Nat.add];
        unfold ta_mint, ta_amount, ta_native_flag; getset; reflexivity.
    + apply unit_tt in T0. apply mint_unpack_ok in T0. destruct T0 as [W I].
      pose proof (mint_wf_flags _ W) as [FA FF].
      apply mint_wf_len in W. destruct (pack_mint_auth _ new W) as (P1 & P2 & P3 & P4 & P5 & _).
      apply bounded_mint_write; [apply flags_wf_mint; rewrite ?P5; auto; congruence| |exact Hb].
      intros <-. split; congruence.
    + apply unit_tt in T0. apply mint_unpack_ok in T0. destruct T0 as [W I].
      pose proof (mint_wf_flags _ W) as [FA FF].
      apply mint_wf_len in W. destruct (pack_mint_freeze _ new W) as (P1 & P2 & P3 & P4 & P5 & _).
      apply bounded_mint_write; [apply flags_wf_mint; rewrite ?P5; auto; congruence| |exact Hb].
      intros <-. split; congruence.
  - unfold token_close in H. token_own H. apply unit_tt in T1.
    assert (k <> m).
    { intros ->. apply ta_unpack_ok in T1. destruct T1 as [W _].
      destruct Hb as [(_ & W' & _) _ _]. destruct (ta_not_mint _ W W'). }
    apply (tok_bounded_frame l); [| | |exact Hb].
    + rewrite upd_other by assumption. now autorewrite with ledger.
    + rewrite upd_other by assumption. now autorewrite with ledger.
    + intros k' K1 _ _. destruct (key_eq_dec k k') as [<-|Hne].
      * rewrite upd_same in K1. cbn in K1. symmetry in K1. now apply ids_distinct in K1.
      * rewrite upd_other in * by assumption. autorewrite with ledger in *. auto.
  - unfold token_toggle_freeze in H. token_own H. apply unit_tt in T0.
    pose proof (proj1 (ta_unpack_ok _) T0) as [W _]. apply ta_wf_len in W.
    apply bounded_same_ta; auto; unfold ta_mint, ta_amount, ta_native_flag; getset; reflexivity.
  - unfold token_toggle_freeze in H. token_own H. apply unit_tt in T0.
    pose proof (proj1 (ta_unpack_ok _) T0) as [W _]. apply ta_wf_len in W.
    apply bounded_same_ta; auto; unfold ta_mint, ta_amount, ta_native_flag; getset; reflexivity.
  - unfold token_init_mint in H. token_own H. clean_bool.
    apply bounded_mint_write; [| |exact Hb].
    + pose proof (mint_wf_flags _ T0) as [FA FF]. pose proof (mint_wf_len _ T0) as L.
      apply flags_wf_mint.
      * unfold pack_option_key; destruct freeze; cbn [Nat.add]; slen.
      * unfold pack_option_key, mint_auth_flag; destruct freeze; cbn [Nat.add]; getset; auto.
      * unfold pack_option_key, mint_init; destruct freeze; cbn [Nat.add]; getset; auto.
      * unfold pack_option_key, mint_freeze_flag; destruct freeze; cbn [Nat.add]; getset; auto.
    + intros ->. destruct Hb as [(_ & _ & I) _ _]. congruence.
  - unfold token_init_account in H.
    destruct (key_eqb mint native_mint_id) eqn:Q; token_own H; clean_bool.
    + apply bounded_write; [| |exact Hb].
      * intros ->. destruct Hb as [(_ & W & _) _ _]. destruct (ta_not_mint _ T0 W).
      * pose proof (ta_wf_len _ T0) as L. intros _ _ M. exfalso. revert M.
        unfold ta_mint, set_amount. subst mint. getset. congruence.
    + apply bounded_write; [| |exact Hb].
      * intros ->. destruct Hb as [(_ & W & _) _ _]. destruct (ta_not_mint _ T0 W).
      * pose proof (ta_wf_len _ T0) as L. intros _ _ M _.
        destruct (init_ta_fields mint owner _ L) as (_ & _ & _ & F3 & _ & _ & F6 & _).
        unfold init_ta in *. rewrite F3, F6. split; [reflexivity|apply holds_nonneg].
  - unfold token_init_multisig in H. token_own H. clean_bool.
    assert (L : length (a_data (l k)) = 355%nat) by (unfold zlen, multisig_len in T0; lia).
    assert (K : length (concat (map key_bytes keys)) = (32 * length keys)%nat).
    { clear. induction keys as [|x ks IH]; cbn [map concat length]; [reflexivity|].
      rewrite app_length, key_bytes_length, IH. lia. }
    apply len_ne_bounded; [| | |exact Hb]; rewrite splice_length, ?L; try lia;
      cbn [length]; rewrite K, L; unfold zlen in *; lia.
  - unfold token_sync_native in H. token_own H. apply unit_tt in T0. clean_bool.
    apply ta_unpack_ok in T0. destruct T0 as [W S]. pose proof (ta_wf_len _ W) as L.
    apply bounded_write; [| |exact Hb].
    + intros ->. destruct Hb as [(_ & W' & _) _ _]. destruct (ta_not_mint _ W W').
    + intros _ _ M _. exfalso.
      assert (M' : ta_mint (a_data (l k)) = m).
      { revert M. unfold ta_mint, set_amount. getset. auto. }
      assert (ta_native_flag (a_data (l k)) = 0).
      { apply (tb_native _ _ Hb k); auto. apply ta_unpack_ok. auto. }
      unfold ta_is_native in T1. rewrite H in T1. discriminate.
Qed.
