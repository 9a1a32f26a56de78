(** Statements about the conversion functions used by the property files. *)
From Verif Require Export Economics ClientMath.

Lemma orca_to_xorca_char a ne s :
  is_u64 a -> is_u64 ne -> is_u64 s ->
  (s = 0 \/ ne = 0 -> convert_orca_to_xorca a ne s = Ok a) /\
  (s <> 0 -> ne <> 0 -> a * (s + 100) < 2 ^ 128 -> a * (s + 100) / (ne + 100) < 2 ^ 64 ->
     convert_orca_to_xorca a ne s = Ok (a * (s + 100) / (ne + 100))) /\
  (s <> 0 -> ne <> 0 ->
     2 ^ 128 <= a * (s + 100) \/ 2 ^ 64 <= a * (s + 100) / (ne + 100) ->
     convert_orca_to_xorca a ne s = Err (ECustom 6008)).
Proof.
  intros Ha Hn Hs. split; [|split].
  - intros H. unfold convert_orca_to_xorca.
    destruct (Z.eqb_spec s 0); [reflexivity|]. destruct (Z.eqb_spec ne 0); [reflexivity|]. lia.
  - intros H0 H1 H2 H3. rewrite orca_to_xorca_exact by auto. unfold mint_quote, u128_max, u64_max.
    destruct (Z.leb_spec (a * (s + 100)) (2 ^ 128 - 1)); [|lia].
    destruct (Z.leb_spec (a * (s + 100) / (ne + 100)) (2 ^ 64 - 1)); [|lia]. reflexivity.
  - intros H0 H1 H2. rewrite orca_to_xorca_exact by auto. unfold mint_quote, u128_max, u64_max.
    destruct (Z.leb_spec (a * (s + 100)) (2 ^ 128 - 1)); [|reflexivity].
    destruct (Z.leb_spec (a * (s + 100) / (ne + 100)) (2 ^ 64 - 1)); [lia|]. reflexivity.
Qed.

Lemma xorca_to_orca_char x ne s :
  is_u64 x -> is_u64 ne -> is_u64 s ->
  (s = 0 \/ ne = 0 -> convert_xorca_to_orca x ne s = Err (ECustom 6008)) /\
  (s <> 0 -> ne <> 0 -> x * (ne + 100) < 2 ^ 128 -> x * (ne + 100) / (s + 100) < 2 ^ 64 ->
     convert_xorca_to_orca x ne s = Ok (x * (ne + 100) / (s + 100))) /\
  (s <> 0 -> ne <> 0 ->
     2 ^ 128 <= x * (ne + 100) \/ 2 ^ 64 <= x * (ne + 100) / (s + 100) ->
     convert_xorca_to_orca x ne s = Err (ECustom 6008)).
Proof.
  intros Ha Hn Hs. split; [|split].
  - intros H. unfold convert_xorca_to_orca.
    destruct (Z.eqb_spec s 0); [reflexivity|]. destruct (Z.eqb_spec ne 0); [reflexivity|]. lia.
  - intros H0 H1 H2 H3. rewrite xorca_to_orca_exact by auto.
    unfold redeem_quote, u128_max, u64_max.
    destruct (Z.leb_spec (x * (ne + 100)) (2 ^ 128 - 1)); [|lia].
    destruct (Z.leb_spec (x * (ne + 100) / (s + 100)) (2 ^ 64 - 1)); [|lia]. reflexivity.
  - intros H0 H1 H2. rewrite xorca_to_orca_exact by auto.
    unfold redeem_quote, u128_max, u64_max.
    destruct (Z.leb_spec (x * (ne + 100)) (2 ^ 128 - 1)); [|reflexivity].
    destruct (Z.leb_spec (x * (ne + 100) / (s + 100)) (2 ^ 64 - 1)); [lia|]. reflexivity.
Qed.

(** A pool that is solvent and has no ORCA left over from a previous life. *)
Definition live_pool (ne s : Z) : Prop := 0 <= s <= ne /\ (s = 0 -> ne = 0).

Lemma redeem_one_to_one x s : 0 <= x -> 0 <= s -> redeem_quote x s s = x.
Proof. intros. unfold redeem_quote. rewrite Z.div_mul; lia. Qed.
Lemma mint_one_to_one x s : 0 <= x -> 0 <= s -> mint_quote x s s = x.
Proof. intros. unfold mint_quote. rewrite Z.div_mul; lia. Qed.

Lemma orca_to_xorca_live a ne s m :
  is_u64 a -> is_u64 ne -> is_u64 s -> live_pool ne s ->
  convert_orca_to_xorca a ne s = Ok m -> m = mint_quote a ne s.
Proof.
  intros Ha Hn Hs [H1 H2] H. apply orca_to_xorca_ok in H; auto.
  destruct H as [_ [[Hz ->]|(? & ? & ->)]]; [|reflexivity].
  assert (s = 0) by lia. specialize (H2 H). subst. unfold is_u64 in *.
  rewrite mint_one_to_one; lia.
Qed.

Lemma round_trip a ne s m w :
  is_u64 a -> is_u64 (ne + a) -> is_u64 (s + m) -> is_u64 ne -> is_u64 s -> live_pool ne s ->
  convert_orca_to_xorca a ne s = Ok m ->
  convert_xorca_to_orca m (ne + a) (s + m) = Ok w ->
  w <= a /\ (a - w - 1) * (s + m + 100) < ne + 100.
Proof.
  intros Ha Hna Hsm Hn Hs L H1 H2.
  pose proof (orca_to_xorca_ok _ _ _ _ Ha Hn Hs H1) as [Hm _].
  apply orca_to_xorca_live in H1; auto.
  apply xorca_to_orca_ok in H2; auto. destruct H2 as (_ & _ & _ & ->).
  unfold is_u64 in *. apply round_trip_quote; lia.
Qed.

Lemma split_stake a b ne s m1 m2 m :
  is_u64 a -> is_u64 b -> is_u64 (a + b) -> is_u64 ne -> is_u64 s ->
  is_u64 (ne + a) -> is_u64 (s + m1) -> 0 <= s <= ne ->
  convert_orca_to_xorca a ne s = Ok m1 ->
  convert_orca_to_xorca b (ne + a) (s + m1) = Ok m2 ->
  convert_orca_to_xorca (a + b) ne s = Ok m ->
  m1 + m2 <= m.
Proof.
  intros Ha Hb Hab Hn Hs Hna Hsm Hsol H1 H2 H.
  apply orca_to_xorca_ok in H1, H2, H; auto.
  destruct H1 as [Hm1 H1], H2 as [Hm2 H2], H as [_ H]. unfold is_u64 in *.
  destruct H as [[Hz ->]|(S0 & N0 & ->)].
  - (* empty supply: 1:1 then at most 1:1 *)
    assert (s = 0) by lia. subst s.
    destruct H1 as [[_ ->]|(? & _)]; [|lia].
    destruct H2 as [[_ ->]|(? & ? & ->)]; [lia|].
    pose proof (mint_le_stake b (ne + a) (0 + a) ltac:(lia) ltac:(lia)). lia.
  - destruct H1 as [[? _]|(_ & _ & ->)]; [lia|].
    destruct H2 as [[? _]|(? & ? & ->)]; [lia|].
    apply split_mint; lia.
Qed.

Lemma split_unstake x y ne s w1 w2 w :
  is_u64 x -> is_u64 y -> is_u64 (x + y) -> is_u64 ne -> is_u64 s ->
  is_u64 (ne - w1) -> x + y <= s ->
  convert_xorca_to_orca x ne s = Ok w1 ->
  convert_xorca_to_orca y (ne - w1) (s - x) = Ok w2 ->
  convert_xorca_to_orca (x + y) ne s = Ok w ->
  w1 + w2 <= w.
Proof.
  intros Hx Hy Hxy Hn Hs Hnw Hsum H1 H2 H.
  assert (is_u64 (s - x)) by (unfold is_u64 in *; lia).
  apply xorca_to_orca_ok in H1, H2, H; auto.
  destruct H1 as (_ & _ & _ & H1), H2 as (_ & _ & _ & ->), H as (_ & _ & _ & ->).
  unfold is_u64 in *. rewrite H1. apply split_redeem; auto; lia.
Qed.

(** Amounts below 2^63 never meet an arithmetic error. *)
Lemma no_overflow_stake a ne s :
  0 <= a < 2 ^ 63 -> 0 <= s <= ne -> ne < 2 ^ 63 ->
  exists m, convert_orca_to_xorca a ne s = Ok m /\ m <= a.
Proof.
  intros Ha Hs Hn.
  destruct (orca_to_xorca_char a ne s) as (C1 & C2 & _); unfold is_u64; try lia.
  destruct (Z.eq_dec s 0); [exists a; split; [apply C1; auto|lia]|].
  destruct (Z.eq_dec ne 0); [exists a; split; [apply C1; auto|lia]|].
  pose proof (mint_le_stake a ne s ltac:(lia) Hs). unfold mint_quote in *.
  eexists. split; [apply C2; auto|assumption].
  - assert (a * (s + 100) <= 2 ^ 63 * (2 ^ 63 + 100)) by (apply Z.mul_le_mono_nonneg; lia). lia.
  - lia.
Qed.

Lemma no_overflow_unstake x ne s :
  0 <= x <= s -> 0 < s <= ne -> ne < 2 ^ 63 ->
  exists w, convert_xorca_to_orca x ne s = Ok w /\ w <= ne.
Proof.
  intros Hx Hs Hn.
  destruct (xorca_to_orca_char x ne s) as (_ & C2 & _); unfold is_u64; try lia.
  pose proof (redeem_le_ne x ne s ltac:(lia) ltac:(lia)). unfold redeem_quote in *.
  eexists. split; [apply C2; auto; try lia|assumption].
  assert (x * (ne + 100) <= 2 ^ 63 * (2 ^ 63 + 100)) by (apply Z.mul_le_mono_nonneg; lia). lia.
Qed.
