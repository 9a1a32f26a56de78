(** Sums of token balances over finite sets of accounts. *)
From Verif Require Import History BytesFacts FieldFacts LedgerFacts TokenFacts.

Lemma sumZ_app a b : sumZ (a ++ b) = sumZ a + sumZ b.
Proof. induction a as [|x a IH]; cbn; [reflexivity|]. unfold sumZ in *. lia. Qed.

(** ** Sums over the elements of a duplicate-free list of keys *)
  Lemma sum_remove (f : pubkey -> Z) k ks :
    NoDup ks -> In k ks ->
    sumZ (map f ks) = f k + sumZ (map f (remove key_eq_dec k ks)).
  Proof.
    induction 1 as [|x xs Hx Hnd IH]; [intros []|]. intros Hin. cbn [map sumZ fold_right remove].
    fold (sumZ (map f xs)). destruct (key_eq_dec k x) as [<-|Hne].
    - now rewrite notin_remove.
    - cbn [map sumZ fold_right]. fold (sumZ (map f (remove key_eq_dec k xs))).
      destruct Hin as [->|Hin]; [contradiction|]. rewrite (IH Hin). lia.
  Qed.

  Lemma sum_remove_le (f : pubkey -> Z) k ks :
    (forall k, 0 <= f k) -> NoDup ks ->
    sumZ (map f ks) <= f k + sumZ (map f (remove key_eq_dec k ks)).
  Proof.
    intros Hp Hnd. destruct (in_dec key_eq_dec k ks) as [Hi|Hi].
    - rewrite (sum_remove f k ks Hnd Hi). lia.
    - rewrite notin_remove by exact Hi. pose proof (Hp k). lia.
  Qed.
Lemma NoDup_remove_key k ks : NoDup ks -> NoDup (remove key_eq_dec k ks).
Proof.
  induction 1 as [|x xs Hx Hnd IH]; cbn; [constructor|].
  destruct (key_eq_dec k x); [exact IH|]. constructor; [|exact IH].
  intros Hin. apply in_remove in Hin. tauto.
Qed.

Lemma sum_le (f g : pubkey -> Z) ks :
  (forall k, In k ks -> f k <= g k) -> sumZ (map f ks) <= sumZ (map g ks).
Proof.
  induction ks as [|x xs IH]; intros H; [cbn; lia|]. cbn.
  pose proof (H x (or_introl eq_refl)). unfold sumZ in IH. specialize (IH (fun k Hk => H k (or_intror Hk))).
  lia.
Qed.

Lemma sum_ext (f g : pubkey -> Z) ks :
  (forall k, In k ks -> f k = g k) -> sumZ (map f ks) = sumZ (map g ks).
Proof.
  intros H. apply Z.le_antisymm; apply sum_le; intros k Hk; rewrite (H k Hk); lia.
Qed.

(** Bounds on all finite sums are kept when value moves between two keys. *)
Lemma sums_move (f g : pubkey -> Z) a b s d :
  a <> b -> (forall k, 0 <= g k) ->
  (forall k, k <> a -> k <> b -> g k <= f k) ->
  g a + g b <= f a + f b + d ->
  (forall ks, NoDup ks -> sumZ (map f ks) <= s) ->
  forall ks, NoDup ks -> sumZ (map g ks) <= s + d.
Proof.
  intros Hab Hg Hother Hmove Hb ks Hnd.
  pose proof (sum_remove_le g a ks Hg Hnd) as H1.
  set (ks1 := remove key_eq_dec a ks) in *.
  assert (N1 : NoDup ks1) by now apply NoDup_remove_key.
  pose proof (sum_remove_le g b ks1 Hg N1) as H2.
  set (ks2 := remove key_eq_dec b ks1) in *.
  assert (N2 : NoDup ks2) by now apply NoDup_remove_key.
  assert (Hb2 : ~ In b ks2) by apply remove_In.
  assert (Ha2 : ~ In a ks2).
  { intros Hin. apply in_remove in Hin. destruct Hin as [Hin _].
    apply remove_In in Hin. exact Hin. }
  assert (N3 : NoDup (a :: b :: ks2)).
  { constructor; [intros [->|Hin]; congruence|]. now constructor. }
  specialize (Hb _ N3). cbn [map sumZ fold_right] in Hb. fold (sumZ (map f ks2)) in Hb.
  assert (H3 : sumZ (map g ks2) <= sumZ (map f ks2)).
  { apply sum_le. intros k Hk. apply Hother; intros ->; contradiction. }
  lia.
Qed.

Lemma sums_one (f g : pubkey -> Z) a s d :
  (forall k, 0 <= g k) ->
  (forall k, k <> a -> g k <= f k) -> g a <= f a + d ->
  (forall ks, NoDup ks -> sumZ (map f ks) <= s) ->
  forall ks, NoDup ks -> sumZ (map g ks) <= s + d.
Proof.
  intros Hg Hother Hmove Hb ks Hnd.
  pose proof (sum_remove_le g a ks Hg Hnd) as H1.
  set (ks1 := remove key_eq_dec a ks) in *.
  assert (N1 : NoDup ks1) by now apply NoDup_remove_key.
  assert (Ha1 : ~ In a ks1) by apply remove_In.
  assert (N3 : NoDup (a :: ks1)) by now constructor.
  specialize (Hb _ N3). cbn [map sumZ fold_right] in Hb. fold (sumZ (map f ks1)) in Hb.
  assert (H3 : sumZ (map g ks1) <= sumZ (map f ks1)).
  { apply sum_le. intros k Hk. apply Hother. intros ->; contradiction. }
  lia.
Qed.

Lemma sums_mono (f g : pubkey -> Z) s :
  (forall k, g k <= f k) ->
  (forall ks, NoDup ks -> sumZ (map f ks) <= s) ->
  forall ks, NoDup ks -> sumZ (map g ks) <= s.
Proof.
  intros H Hb ks Hnd. specialize (Hb ks Hnd).
  assert (sumZ (map g ks) <= sumZ (map f ks)) by (apply sum_le; auto). lia.
Qed.

(** ** Balances *)
Lemma holds_nonneg l m k : 0 <= holds l m k.
Proof.
  unfold holds. destruct (_ && _); [|lia]. pose proof (ta_amount_range (a_data (l k))).
  unfold is_u64 in *. lia.
Qed.

Lemma is_ok_unpack d : is_ok (ta_unpack d) = true <-> ta_wf d = true /\ ta_state d <> 0.
Proof.
  rewrite <- ta_unpack_ok. destruct (ta_unpack d) as [[]|]; cbn; split; congruence.
Qed.

Lemma holds_pos l m k :
  a_owner (l k) = token_id -> ta_wf (a_data (l k)) = true -> ta_state (a_data (l k)) <> 0 ->
  ta_mint (a_data (l k)) = m -> holds l m k = ta_amount (a_data (l k)).
Proof.
  intros H1 H2 H3 H4. unfold holds. rewrite H1, H4, !key_eqb_refl.
  now rewrite (proj2 (is_ok_unpack _)) by auto.
Qed.

Lemma holds_cases l m k :
  (a_owner (l k) = token_id /\ ta_wf (a_data (l k)) = true /\ ta_state (a_data (l k)) <> 0 /\
   ta_mint (a_data (l k)) = m /\ holds l m k = ta_amount (a_data (l k)))
  \/ holds l m k = 0.
Proof.
  unfold holds. destruct (_ && _) eqn:E; [left|right; reflexivity].
  clean_bool. apply is_ok_unpack in H1. destruct H1. auto.
Qed.

Lemma holds_ext (l l' : ledger) m k :
  a_owner (l' k) = a_owner (l k) -> a_data (l' k) = a_data (l k) -> holds l' m k = holds l m k.
Proof. intros H1 H2. unfold holds. now rewrite H1, H2. Qed.

(** No account of [m] is flagged as wrapped SOL. *)
Definition no_native (l : ledger) (m : pubkey) : Prop :=
  forall k, a_owner (l k) = token_id -> ta_unpack (a_data (l k)) = Ok tt ->
    ta_mint (a_data (l k)) = m -> ta_native_flag (a_data (l k)) = 0.

(** [m] is an initialized mint, without wrapped-SOL accounts, and every finite set
    of accounts holds at most its supply. *)
Record tok_bounded (l : ledger) (m : pubkey) : Prop := {
  tb_live : mint_live l m;
  tb_native : no_native l m;
  tb_bound : forall ks, NoDup ks -> total l m ks <= mint_supply (a_data (l m))
}.

(** Steps that create no token data. *)
Lemma tok_bounded_frame l l' m :
  a_owner (l' m) = a_owner (l m) -> a_data (l' m) = a_data (l m) ->
  (forall k, a_owner (l' k) = token_id -> ta_unpack (a_data (l' k)) = Ok tt ->
     ta_mint (a_data (l' k)) = m ->
     a_owner (l k) = token_id /\ a_data (l' k) = a_data (l k)) ->
  tok_bounded l m -> tok_bounded l' m.
Proof.
  intros Ho Hd Hf [(L1 & L2 & L3) N B]. constructor.
  - unfold mint_live. rewrite Ho, Hd. auto.
  - intros k K1 K2 K3. destruct (Hf k K1 K2 K3) as [E1 E2]. rewrite E2 in *. now apply (N k).
  - rewrite Hd. unfold total. apply sums_mono with (f := holds l m); [|exact B].
    intros k. destruct (holds_cases l' m k) as [(K1 & K2 & K3 & K4 & ->)| ->];
      [|apply holds_nonneg].
    assert (K5 : ta_unpack (a_data (l' k)) = Ok tt) by (apply ta_unpack_ok; auto).
    destruct (Hf k K1 K5 K4) as [E1 E2].
    rewrite E2 in *. rewrite holds_pos by auto. lia.
Qed.
