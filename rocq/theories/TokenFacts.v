(** Characterisation of the token program calls xORCA makes. *)
From Verif Require Import TokenProg BytesFacts LedgerFacts.

(** An initialized, unfrozen SPL token account. *)
Definition ta_live (l : ledger) (k : pubkey) : Prop :=
  a_owner (l k) = token_id /\ ta_wf (a_data (l k)) = true /\ ta_state (a_data (l k)) = 1.

(** An initialized SPL mint. *)
Definition mint_live (l : ledger) (k : pubkey) : Prop :=
  a_owner (l k) = token_id /\ mint_wf (a_data (l k)) = true /\ mint_init (a_data (l k)) = 1.

Lemma flag_ok_cases z : flag_ok z = true <-> z = 0 \/ z = 1.
Proof. unfold flag_ok. rewrite orb_true_iff, !Z.eqb_eq. reflexivity. Qed.

Lemma ta_wf_len d : ta_wf d = true -> length d = 165%nat.
Proof. unfold ta_wf, ta_len, zlen. intros H. clean_bool. lia. Qed.

Lemma mint_wf_len d : mint_wf d = true -> length d = 82%nat.
Proof. unfold mint_wf, mint_len, zlen. intros H. clean_bool. lia. Qed.

Lemma ta_wf_zlen d : ta_wf d = true -> zlen d = 165.
Proof. intros H. apply ta_wf_len in H. unfold zlen. lia. Qed.

Lemma mint_wf_zlen d : mint_wf d = true -> zlen d = 82.
Proof. intros H. apply mint_wf_len in H. unfold zlen. lia. Qed.

Lemma ta_wf_state d : ta_wf d = true -> 0 <= ta_state d <= 2.
Proof.
  unfold ta_wf. intros H. clean_bool. pose proof (get_u8_range 108 d). unfold ta_state, is_u8 in *.
  lia.
Qed.

Lemma ta_unpack_ok d : ta_unpack d = Ok tt <-> ta_wf d = true /\ ta_state d <> 0.
Proof.
  unfold ta_unpack. split.
  - intros H. inv_bind H u. clean_bool. auto.
  - intros [H1 H2]. rewrite H1. cbn. apply fail_if_Ok. now apply Z.eqb_neq.
Qed.

Lemma mint_unpack_ok d : mint_unpack d = Ok tt <-> mint_wf d = true /\ mint_init d = 1.
Proof.
  unfold mint_unpack. split.
  - intros H. inv_bind H u. clean_bool. split; [assumption|].
    unfold mint_wf in Hx. clean_bool. pose proof (get_u8_range 45 d) as Hr.
    unfold mint_init, is_u8 in *. lia.
  - intros [H1 H2]. rewrite H1, H2. reflexivity.
Qed.

Lemma unit_tt (r : res err unit) u : r = Ok u -> r = Ok tt.
Proof. now destruct u. Qed.

(** ** Authorisation *)
Lemma validate_owner_eq l sg ex e a u : validate_owner l sg ex e a = Ok u -> e = a.
Proof. unfold validate_owner. intros H. inv_bind H v. clean_bool. congruence. Qed.

(** A key that is not a token-program account authorises only by signing. *)
Lemma validate_owner_plain l sg ex e a :
  a_owner (l a) <> token_id ->
  validate_owner l sg ex e a = Ok tt <-> e = a /\ sg a = true.
Proof.
  intros Hn. unfold validate_owner. rewrite (key_eqb_neq (a_owner (l a)) token_id) by exact Hn.
  cbn [andb]. split.
  - intros H. inv_bind H v. clean_bool. auto.
  - intros [-> H]. rewrite key_eqb_refl, H. reflexivity.
Qed.

(** Fields outside the delegate are untouched by [spend_auth]. *)
Record same_but_delegate (d d1 : list byte) : Prop := {
  sbd_len : length d1 = length d;
  sbd_mint : ta_mint d1 = ta_mint d;
  sbd_owner : ta_owner d1 = ta_owner d;
  sbd_amount : ta_amount d1 = ta_amount d;
  sbd_state : ta_state d1 = ta_state d;
  sbd_native : ta_native_flag d1 = ta_native_flag d;
  sbd_close : ta_close_flag d1 = ta_close_flag d;
  sbd_close_key : ta_close d1 = ta_close d;
  sbd_wf : ta_wf d = true -> ta_wf d1 = true;
  sbd_noflag : ta_delegate_flag d = 0 -> ta_delegate_flag d1 = 0
}.

Lemma same_but_delegate_refl d : same_but_delegate d d.
Proof. now constructor. Qed.

Ltac len_tac :=
  unfold set_amount, set_supply, pack_option_key in *;
  rewrite ?set_u64_length, ?set_u32_length, ?set_u8_length, ?set_key_length by
    (rewrite ?set_u64_length, ?set_u32_length, ?set_u8_length, ?set_key_length; lia);
  try lia.

(** Read a fixed-offset field of data with fields written at other offsets. *)
Ltac field_side :=
  first [ unfold disjoint_or; rewrite ?le_enc_length, ?key_bytes_length; lia
        | rewrite ?le_enc_length, ?key_bytes_length;
          rewrite ?splice_length by
            (rewrite ?le_enc_length, ?key_bytes_length, ?splice_length by
               (rewrite ?le_enc_length, ?key_bytes_length; lia); lia);
          lia ].

Ltac field_tac :=
  unfold set_amount, set_supply, pack_option_key, set_u64, set_u32, set_u8, set_key in *;
  repeat first
    [ rewrite get_u8_splice by field_side
    | rewrite get_u32_splice by field_side
    | rewrite get_u64_splice by field_side
    | rewrite get_i64_splice by field_side
    | rewrite get_key_splice by field_side ].

Lemma set_delegated_same d v :
  length d = 165%nat -> same_but_delegate d (set_u64 121 v d).
Proof.
  intros Hl. constructor;
    unfold ta_mint, ta_owner, ta_amount, ta_state, ta_native_flag, ta_close_flag, ta_close,
      ta_delegate_flag; try (field_tac; reflexivity).
  - len_tac.
  - unfold ta_wf, ta_state, ta_native_flag, ta_close_flag, ta_delegate_flag, zlen.
    intros H. field_tac. rewrite splice_length by (rewrite le_enc_length; lia). exact H.
  - intros H. field_tac. exact H.
Qed.

Lemma clear_delegate_same d :
  length d = 165%nat -> same_but_delegate d (set_u32 72 0 d).
Proof.
  intros Hl.
  assert (H0 : get_u32 72 (set_u32 72 0 d) = 0) by (apply get_set_u32; unfold is_u32; lia).
  constructor;
    unfold ta_mint, ta_owner, ta_amount, ta_state, ta_native_flag, ta_close_flag, ta_close,
      ta_delegate_flag; try (field_tac; reflexivity).
  - len_tac.
  - unfold ta_wf, ta_state, ta_native_flag, ta_close_flag, ta_delegate_flag, zlen.
    intros H. clean_bool. rewrite H0. field_tac.
    rewrite splice_length by (rewrite le_enc_length; lia).
    repeat (apply andb_true_iff; split); try assumption; try reflexivity.
    all: try (now apply Z.eqb_eq). all: try (now apply Z.leb_le).
  - intros _. exact H0.
Qed.

Lemma same_but_delegate_trans a b c :
  same_but_delegate a b -> same_but_delegate b c -> same_but_delegate a c.
Proof.
  intros [] []. constructor; try congruence; auto.
Qed.

Lemma spend_auth_same l sg ex d a n c d1 :
  length d = 165%nat -> spend_auth l sg ex d a n c = Ok d1 -> same_but_delegate d d1.
Proof.
  intros Hl. unfold spend_auth. intros H. destruct (ta_has_delegate d a).
  - inv_bind H u. inv_bind H v. destruct c.
    + injection H as <-. destruct (_ =? 0).
      * eapply same_but_delegate_trans; [now apply set_delegated_same|].
        apply clear_delegate_same. len_tac.
      * now apply set_delegated_same.
    + injection H as <-. apply same_but_delegate_refl.
  - inv_bind H u. injection H as <-. apply same_but_delegate_refl.
Qed.

(** Without a delegate only the owner can spend, and the data is unchanged. *)
Lemma spend_auth_no_delegate l sg ex d a n c :
  ta_delegate_flag d = 0 ->
  spend_auth l sg ex d a n c =
  (check? validate_owner l sg ex (ta_owner d) a in Ok d).
Proof. intros H. unfold spend_auth, ta_has_delegate. now rewrite H. Qed.

(** The owner, as a plain signing key that is not also the delegate, may spend. *)
Lemma spend_auth_owner l sg ex d a n c :
  ta_has_delegate d a = false -> ta_owner d = a -> a_owner (l a) <> token_id -> sg a = true ->
  spend_auth l sg ex d a n c = Ok d.
Proof.
  intros Hd Ho Hn Hs. unfold spend_auth. rewrite Hd, Ho.
  assert (E : validate_owner l sg ex a a = Ok tt) by (apply validate_owner_plain; auto).
  now rewrite E.
Qed.

(** Whoever spends is the owner or the delegate. *)
Lemma spend_auth_who l sg ex d a n c d1 :
  spend_auth l sg ex d a n c = Ok d1 ->
  validate_owner l sg ex a a = Ok tt /\
  (ta_owner d = a \/ (ta_delegate_flag d = 1 /\ ta_delegate d = a /\ n <= ta_delegated d)).
Proof.
  unfold spend_auth. destruct (ta_has_delegate d a) eqn:Ed; intros H.
  - inv_bind H u. inv_bind H v. clean_bool.
    unfold ta_has_delegate in Ed. clean_bool.
    pose proof (validate_owner_eq _ _ _ _ _ _ Hx) as E. rewrite E in Hx.
    split; [now apply unit_tt in Hx|]. right. auto.
  - inv_bind H u. pose proof (validate_owner_eq _ _ _ _ _ _ Hx) as E. rewrite E in Hx.
    split; [now apply unit_tt in Hx|]. auto.
Qed.

(** ** Transfer *)
Definition transferred (l : ledger) (f t : pubkey) (n : Z) (sd1 : list byte) : ledger :=
  set_data (set_data l f (set_amount (ta_amount (a_data (l f)) - n) sd1))
           t (set_amount (ta_amount (a_data (l t)) + n) (a_data (l t))).

Lemma live_of_unpack l k u :
  token_owned l k = Ok u -> ta_unpack (a_data (l k)) = Ok tt -> ta_frozen (a_data (l k)) = false ->
  ta_live l k.
Proof.
  unfold token_owned. intros H1 H2 H3. clean_bool. apply ta_unpack_ok in H2.
  unfold ta_frozen in H3. clean_bool. destruct H2 as [Hw H2].
  pose proof (ta_wf_state _ Hw). repeat split; auto. lia.
Qed.

Lemma live_unpack l k :
  ta_live l k ->
  token_owned l k = Ok tt /\ ta_unpack (a_data (l k)) = Ok tt /\ ta_frozen (a_data (l k)) = false.
Proof.
  intros (H1 & H2 & H3). unfold token_owned, ta_frozen. rewrite H1, key_eqb_refl, H3.
  repeat split. apply ta_unpack_ok. split; [assumption|lia].
Qed.

Lemma token_transfer_ok sg ex l f t a n l' :
  f <> t -> ta_native_flag (a_data (l f)) = 0 ->
  token_transfer sg ex l f t a n = Ok l' <->
  exists sd1,
    ta_live l f /\ ta_live l t /\ n <= ta_amount (a_data (l f)) /\
    ta_mint (a_data (l f)) = ta_mint (a_data (l t)) /\
    spend_auth l sg ex (a_data (l f)) a n true = Ok sd1 /\
    ta_amount (a_data (l t)) + n <= u64_max /\
    l' = transferred l f t n sd1.
Proof.
  intros Hne Hnat. unfold token_transfer.
  rewrite (key_eqb_neq f t) by exact Hne. cbn [negb].
  assert (Hn : ta_is_native (a_data (l f)) = false) by (unfold ta_is_native; now rewrite Hnat).
  rewrite Hn. split.
  - intros H. inv_bind H u0. inv_bind H u1. inv_bind H u2. inv_bind H u3. inv_bind H u4.
    inv_bind H u5. inv_bind H u6. inv_bind H sd1. inv_bind H u7.
    injection H as <-. apply unit_tt in Hx1, Hx2. clean_bool.
    exists sd1. repeat split.
    all: try (eapply live_of_unpack; eassumption).
    all: auto.
  - intros (sd1 & Hf & Ht & Hamt & Hm & Hs & Ho & ->).
    apply live_unpack in Hf, Ht. destruct Hf as (Hf1 & Hf2 & Hf3), Ht as (Ht1 & Ht2 & Ht3).
    rewrite Hf1, Hf2, Hf3, Ht1, Ht2, Ht3. cbn [bind orb fail_if].
    rewrite (fail_if_Ok (_ <? _)) by (apply Z.ltb_ge; lia). cbn [bind].
    rewrite Hm, key_eqb_refl. cbn [negb fail_if bind]. rewrite Hs. cbn [bind].
    rewrite (fail_if_Ok (_ <? _)) by (apply Z.ltb_ge; lia). reflexivity.
Qed.

(** ** MintTo *)
Definition minted (l : ledger) (m t : pubkey) (n : Z) : ledger :=
  set_data (set_data l t (set_amount (ta_amount (a_data (l t)) + n) (a_data (l t))))
           m (set_supply (mint_supply (a_data (l m)) + n) (a_data (l m))).

Lemma ta_not_mint d : ta_wf d = true -> mint_wf d = true -> False.
Proof. intros H1 H2. apply ta_wf_len in H1. apply mint_wf_len in H2. lia. Qed.

Lemma ta_native_cases d : ta_wf d = true -> ta_is_native d = false <-> ta_native_flag d = 0.
Proof.
  unfold ta_wf. intros H. clean_bool. apply flag_ok_cases in H1. unfold ta_is_native.
  rewrite Z.eqb_neq. lia.
Qed.

Lemma mint_auth_cases d : mint_wf d = true -> mint_auth_flag d <> 0 <-> mint_auth_flag d = 1.
Proof. unfold mint_wf. intros H. clean_bool. apply flag_ok_cases in H2. lia. Qed.

Lemma token_mint_to_ok sg ex l m t a n l' :
  token_mint_to sg ex l m t a n = Ok l' <->
  mint_live l m /\ ta_live l t /\ ta_native_flag (a_data (l t)) = 0 /\
  ta_mint (a_data (l t)) = m /\ mint_auth_flag (a_data (l m)) = 1 /\
  validate_owner l sg ex (mint_auth (a_data (l m))) a = Ok tt /\
  ta_amount (a_data (l t)) + n <= u64_max /\
  mint_supply (a_data (l m)) + n <= u64_max /\
  l' = minted l m t n.
Proof.
  unfold token_mint_to. split.
  - intros H. inv_bind H u0. inv_bind H u1. inv_bind H u2. inv_bind H u3. inv_bind H u4.
    inv_bind H u5. inv_bind H u6. inv_bind H u7. inv_bind H u8. inv_bind H u9. inv_bind H u10.
    injection H as <-. apply unit_tt in Hx1, Hx5, Hx7.
    apply mint_unpack_ok in Hx5. destruct Hx5 as [Hw Hi].
    clean_bool. unfold token_owned in Hx. clean_bool.
    assert (Hl : ta_live l t) by (eapply live_of_unpack; eassumption).
    destruct Hl as (Hl1 & Hl2 & Hl3).
    apply ta_native_cases in Hx3; [|assumption]. apply mint_auth_cases in Hx6; [|assumption].
    repeat split; auto.
  - intros ((Hm1 & Hm2 & Hm3) & Ht & Hn & Hm & Ha & Hv & Ho1 & Ho2 & ->).
    assert (Hw : ta_wf (a_data (l t)) = true) by apply Ht.
    apply live_unpack in Ht. destruct Ht as (Ht1 & Ht2 & Ht3).
    unfold token_owned at 1. rewrite Hm1, key_eqb_refl. cbn [negb fail_if bind].
    rewrite Ht1. cbn [bind]. rewrite Ht2. cbn [bind]. rewrite Ht3. cbn [fail_if bind].
    apply ta_native_cases in Hn; [|assumption]. rewrite Hn. cbn [fail_if bind].
    rewrite Hm, key_eqb_refl. cbn [negb fail_if bind].
    assert (E : mint_unpack (a_data (l m)) = Ok tt) by (apply mint_unpack_ok; auto).
    rewrite E, Ha. cbn [bind fail_if Z.eqb].
    rewrite Hv. cbn [bind]. rewrite (fail_if_Ok (_ <? _)) by (apply Z.ltb_ge; lia). cbn [bind].
    rewrite (fail_if_Ok (_ <? _)) by (apply Z.ltb_ge; lia). reflexivity.
Qed.

(** ** Burn *)
Definition burned (l : ledger) (f m : pubkey) (n : Z) (sd1 : list byte) : ledger :=
  set_data (set_data l f (set_amount (ta_amount (a_data (l f)) - n) sd1))
           m (set_supply (mint_supply (a_data (l m)) - n) (a_data (l m))).

Definition burn_auth (l : ledger) (sg : pubkey -> bool) (ex : list pubkey) (d : list byte)
    (a : pubkey) (n : Z) : res err (list byte) :=
  if system_or_incinerator (ta_owner d) then Ok d else spend_auth l sg ex d a n true.

Lemma token_burn_ok sg ex l f m a n l' :
  token_burn sg ex l f m a n = Ok l' <->
  exists sd1,
    ta_live l f /\ mint_live l m /\ ta_native_flag (a_data (l f)) = 0 /\
    n <= ta_amount (a_data (l f)) /\ ta_mint (a_data (l f)) = m /\
    burn_auth l sg ex (a_data (l f)) a n = Ok sd1 /\
    n <= mint_supply (a_data (l m)) /\
    l' = burned l f m n sd1.
Proof.
  unfold token_burn. fold (burn_auth l sg ex (a_data (l f)) a n). split.
  - intros H. inv_bind H u0. inv_bind H u1. inv_bind H u2. inv_bind H u3. inv_bind H u4.
    inv_bind H u5. inv_bind H u6. inv_bind H u7. inv_bind H sd1. inv_bind H u8.
    injection H as <-. apply unit_tt in Hx1, Hx2.
    apply mint_unpack_ok in Hx2. destruct Hx2 as [Hw Hi].
    clean_bool. unfold token_owned in Hx0. clean_bool.
    assert (Hl : ta_live l f) by (eapply live_of_unpack; eassumption).
    destruct Hl as (Hl1 & Hl2 & Hl3).
    apply ta_native_cases in Hx4; [|assumption].
    exists sd1. repeat split; auto.
  - intros (sd1 & Ht & (Hm1 & Hm2 & Hm3) & Hn & Hamt & Hm & Hb & Hs & ->).
    assert (Hw : ta_wf (a_data (l f)) = true) by apply Ht.
    apply live_unpack in Ht. destruct Ht as (Ht1 & Ht2 & Ht3).
    rewrite Ht1. cbn [bind]. unfold token_owned. rewrite Hm1, key_eqb_refl. cbn [negb fail_if bind].
    rewrite Ht2. cbn [bind].
    assert (E : mint_unpack (a_data (l m)) = Ok tt) by (apply mint_unpack_ok; auto).
    rewrite E, Ht3. cbn [fail_if bind].
    apply ta_native_cases in Hn; [|assumption]. rewrite Hn. cbn [fail_if bind].
    rewrite (fail_if_Ok (_ <? _)) by (apply Z.ltb_ge; lia). cbn [bind].
    rewrite Hm, key_eqb_refl. cbn [negb fail_if bind]. rewrite Hb. cbn [bind].
    rewrite (fail_if_Ok (_ <? _)) by (apply Z.ltb_ge; lia). reflexivity.
Qed.

(** Field values after an amount or supply write. *)
Lemma set_amount_same d v : length d = 165%nat -> is_u64 v ->
  ta_amount (set_amount v d) = v /\ ta_mint (set_amount v d) = ta_mint d /\
  ta_owner (set_amount v d) = ta_owner d /\ ta_state (set_amount v d) = ta_state d /\
  ta_delegate_flag (set_amount v d) = ta_delegate_flag d /\
  ta_delegate (set_amount v d) = ta_delegate d /\
  ta_native_flag (set_amount v d) = ta_native_flag d /\
  ta_close_flag (set_amount v d) = ta_close_flag d /\ ta_close (set_amount v d) = ta_close d /\
  length (set_amount v d) = 165%nat /\ ta_wf (set_amount v d) = ta_wf d.
Proof.
  intros Hl Hv.
  assert (Hlen : length (set_amount v d) = 165%nat) by len_tac.
  assert (H1 : ta_state (set_amount v d) = ta_state d)
    by (unfold ta_state; field_tac; reflexivity).
  assert (H2 : ta_delegate_flag (set_amount v d) = ta_delegate_flag d)
    by (unfold ta_delegate_flag; field_tac; reflexivity).
  assert (H3 : ta_native_flag (set_amount v d) = ta_native_flag d)
    by (unfold ta_native_flag; field_tac; reflexivity).
  assert (H4 : ta_close_flag (set_amount v d) = ta_close_flag d)
    by (unfold ta_close_flag; field_tac; reflexivity).
  repeat split; auto.
  - apply get_set_u64; [assumption|lia].
  - unfold ta_mint. field_tac. reflexivity.
  - unfold ta_owner. field_tac. reflexivity.
  - unfold ta_delegate. field_tac. reflexivity.
  - unfold ta_close. field_tac. reflexivity.
  - unfold ta_wf, zlen. rewrite H1, H2, H3, H4, Hlen, Hl. reflexivity.
Qed.

Lemma set_supply_same d v : length d = 82%nat -> is_u64 v ->
  mint_supply (set_supply v d) = v /\ mint_auth_flag (set_supply v d) = mint_auth_flag d /\
  mint_auth (set_supply v d) = mint_auth d /\ mint_decimals (set_supply v d) = mint_decimals d /\
  mint_init (set_supply v d) = mint_init d /\
  mint_freeze_flag (set_supply v d) = mint_freeze_flag d /\
  mint_freeze (set_supply v d) = mint_freeze d /\
  length (set_supply v d) = 82%nat /\ mint_wf (set_supply v d) = mint_wf d.
Proof.
  intros Hl Hv.
  assert (Hlen : length (set_supply v d) = 82%nat) by len_tac.
  assert (H1 : mint_init (set_supply v d) = mint_init d)
    by (unfold mint_init; field_tac; reflexivity).
  assert (H2 : mint_auth_flag (set_supply v d) = mint_auth_flag d)
    by (unfold mint_auth_flag; field_tac; reflexivity).
  assert (H3 : mint_freeze_flag (set_supply v d) = mint_freeze_flag d)
    by (unfold mint_freeze_flag; field_tac; reflexivity).
  repeat split; auto.
  - apply get_set_u64; [assumption|lia].
  - unfold mint_auth. field_tac. reflexivity.
  - unfold mint_decimals. field_tac. reflexivity.
  - unfold mint_freeze. field_tac. reflexivity.
  - unfold mint_wf, zlen. rewrite H1, H2, H3, Hlen, Hl. reflexivity.
Qed.

Lemma ta_amount_range d : is_u64 (ta_amount d).
Proof. apply get_u64_range. Qed.
Lemma mint_supply_range d : is_u64 (mint_supply d).
Proof. apply get_u64_range. Qed.

(** Same data and owners everywhere (lamports may differ). *)
Definition deq (l l' : ledger) : Prop :=
  forall k, a_data (l k) = a_data (l' k) /\ a_owner (l k) = a_owner (l' k).

Lemma deq_refl l : deq l l.
Proof. now split. Qed.

(** Lamports that follow the tokens of an account flagged as wrapped SOL. *)
Definition native_moves (l : ledger) (f t : pubkey) (n : Z) (k : pubkey) : Z :=
  if ta_is_native (a_data (l f))
  then (if key_eqb t k then n else 0) - (if key_eqb f k then n else 0) else 0.

(** Transfer, including accounts flagged as wrapped SOL. *)
Lemma token_transfer_inv sg ex l f t a n l' :
  f <> t -> token_transfer sg ex l f t a n = Ok l' ->
  exists sd1,
    ta_live l f /\ ta_live l t /\ n <= ta_amount (a_data (l f)) /\
    ta_mint (a_data (l f)) = ta_mint (a_data (l t)) /\
    spend_auth l sg ex (a_data (l f)) a n true = Ok sd1 /\
    ta_amount (a_data (l t)) + n <= u64_max /\
    deq l' (transferred l f t n sd1) /\
    (ta_native_flag (a_data (l f)) = 0 -> l' = transferred l f t n sd1) /\
    (forall k, a_lamports (l' k) = a_lamports (l k) + native_moves l f t n k) /\
    (ta_is_native (a_data (l f)) = true -> n <= a_lamports (l f)).
Proof.
  intros Hne. unfold token_transfer.
  rewrite (key_eqb_neq f t) by exact Hne. cbn [negb].
  intros H. inv_bind H u0. inv_bind H u1. inv_bind H u2. inv_bind H u3. inv_bind H u4.
  inv_bind H u5. inv_bind H u6. inv_bind H sd1. inv_bind H u7.
  apply unit_tt in Hx1, Hx2. clean_bool.
  exists sd1. do 6 (split; [eauto using live_of_unpack|]).
  destruct (ta_is_native (a_data (l f))) eqn:En.
  - inv_bind H v. inv_bind H v0. injection H as <-. clean_bool.
    split; [|split; [|split; [|intros _; assumption]]].
    + intros k. unfold transferred. autorewrite with ledger. auto.
    + intros Hz. unfold ta_is_native in En. rewrite Hz in En. discriminate.
    + intros k. unfold native_moves. rewrite En.
      destruct (key_eq_dec t k) as [<-|Kt].
      * rewrite set_lamports_same_lamports, key_eqb_refl, (key_eqb_neq f t) by exact Hne. lia.
      * rewrite set_lamports_other by exact Kt. rewrite (key_eqb_neq t k) by exact Kt.
        destruct (key_eq_dec f k) as [<-|Kf].
        -- rewrite set_lamports_same_lamports, key_eqb_refl. lia.
        -- rewrite set_lamports_other by exact Kf. rewrite (key_eqb_neq f k) by exact Kf.
           autorewrite with ledger. lia.
  - injection H as <-. split; [apply deq_refl|split; [reflexivity|split; [|discriminate]]].
    intros k. unfold native_moves. rewrite En. autorewrite with ledger. lia.
Qed.
