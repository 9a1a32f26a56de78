(** Exact characterisation of the conversion functions and the economic
    inequalities behind the pool properties. *)
From Verif Require Export Math BytesFacts.

Ltac zsimp := cbv beta iota delta [is_u64 is_u8 is_u32 is_i64] in *.

(** Exact floor quotients. *)
Definition mint_quote (a ne s : Z) : Z := (a * (s + 100)) / (ne + 100).
Definition redeem_quote (x ne s : Z) : Z := (x * (ne + 100)) / (s + 100).

Lemma u128_add_ok a b : is_u64 a -> 0 <= b <= 1000 -> u128_checked_add a b = Ok (a + b).
Proof.
  unfold is_u64, u128_checked_add, u128_max. intros.
  destruct (Z.leb_spec (a + b) (2 ^ 128 - 1)); auto. lia.
Qed.


(** The product can exceed u128 only when both factors are within 100 of the u64
    maximum; [checked_mul] then reports the error. *)
Lemma orca_to_xorca_exact a ne s :
  is_u64 a -> is_u64 ne -> is_u64 s -> s <> 0 -> ne <> 0 ->
  convert_orca_to_xorca a ne s =
    if (a * (s + 100) <=? u128_max) && (mint_quote a ne s <=? u64_max)
    then Ok (mint_quote a ne s) else Err (custom ArithmeticError).
Proof.
  intros Ha Hn Hs Hs0 Hn0. unfold convert_orca_to_xorca, mint_quote.
  destruct (Z.eqb_spec s 0); [contradiction|].
  destruct (Z.eqb_spec ne 0); [contradiction|]. cbn [orb].
  unfold VIRTUAL_XORCA_SUPPLY, VIRTUAL_NON_ESCROWED_ORCA_AMOUNT.
  rewrite !u128_add_ok by (auto; lia). cbn [bind].
  unfold u128_checked_mul. destruct (a * (s + 100) <=? u128_max); cbn [bind andb]; [|reflexivity].
  unfold u128_checked_div. unfold is_u64 in *.
  destruct (Z.eqb_spec (ne + 100) 0); [lia|]. cbn [bind]. reflexivity.
Qed.

Lemma xorca_to_orca_exact x ne s :
  is_u64 x -> is_u64 ne -> is_u64 s -> s <> 0 -> ne <> 0 ->
  convert_xorca_to_orca x ne s =
    if (x * (ne + 100) <=? u128_max) && (redeem_quote x ne s <=? u64_max)
    then Ok (redeem_quote x ne s) else Err (custom ArithmeticError).
Proof.
  intros Ha Hn Hs Hs0 Hn0. unfold convert_xorca_to_orca, redeem_quote.
  destruct (Z.eqb_spec s 0); [contradiction|].
  destruct (Z.eqb_spec ne 0); [contradiction|]. cbn [orb].
  unfold VIRTUAL_XORCA_SUPPLY, VIRTUAL_NON_ESCROWED_ORCA_AMOUNT.
  rewrite !u128_add_ok by (auto; lia). cbn [bind].
  unfold u128_checked_mul. destruct (x * (ne + 100) <=? u128_max); cbn [bind andb]; [|reflexivity].
  unfold u128_checked_div. unfold is_u64 in *.
  destruct (Z.eqb_spec (s + 100) 0); [lia|]. cbn [bind]. reflexivity.
Qed.

(** Floor division as a pair of linear facts. *)
Lemma floor_spec p q : 0 < q -> q * (p / q) <= p < q * (p / q) + q.
Proof.
  intros H. pose proof (Z.div_mod p q ltac:(lia)). pose proof (Z.mod_pos_bound p q H). lia.
Qed.

Lemma mint_quote_spec a ne s :
  0 <= ne -> (ne + 100) * mint_quote a ne s <= a * (s + 100)
             < (ne + 100) * mint_quote a ne s + (ne + 100).
Proof. intros. unfold mint_quote. apply floor_spec. lia. Qed.

Lemma redeem_quote_spec x ne s :
  0 <= s -> (s + 100) * redeem_quote x ne s <= x * (ne + 100)
            < (s + 100) * redeem_quote x ne s + (s + 100).
Proof. intros. unfold redeem_quote. apply floor_spec. lia. Qed.

Lemma mint_quote_nonneg a ne s : 0 <= a -> 0 <= ne -> 0 <= s -> 0 <= mint_quote a ne s.
Proof. intros. unfold mint_quote. apply Z.div_pos; nia. Qed.
Lemma redeem_quote_nonneg a ne s : 0 <= a -> 0 <= ne -> 0 <= s -> 0 <= redeem_quote a ne s.
Proof. intros. unfold redeem_quote. apply Z.div_pos; nia. Qed.

(** Inversion: what a successful conversion returns. *)
Lemma orca_to_xorca_ok a ne s m :
  is_u64 a -> is_u64 ne -> is_u64 s ->
  convert_orca_to_xorca a ne s = Ok m ->
  is_u64 m /\ ((s = 0 \/ ne = 0) /\ m = a
               \/ s <> 0 /\ ne <> 0 /\ m = mint_quote a ne s).
Proof.
  intros Ha Hn Hs H.
  destruct (Z.eq_dec s 0) as [->|Hs0].
  { cbn in H. inversion H; subst. auto. }
  destruct (Z.eq_dec ne 0) as [->|Hn0].
  { unfold convert_orca_to_xorca in H. rewrite orb_true_r in H. inversion H; subst. auto. }
  rewrite orca_to_xorca_exact in H by auto.
  destruct (_ <=? u128_max); [|discriminate].
  destruct (Z.leb_spec (mint_quote a ne s) u64_max); [|discriminate].
  cbn in H. inversion H; subst. unfold is_u64, u64_max in *.
  pose proof (mint_quote_nonneg a ne s). split; [lia|]. right. auto.
Qed.

Lemma xorca_to_orca_ok x ne s w :
  is_u64 x -> is_u64 ne -> is_u64 s ->
  convert_xorca_to_orca x ne s = Ok w ->
  is_u64 w /\ s <> 0 /\ ne <> 0 /\ w = redeem_quote x ne s.
Proof.
  intros Ha Hn Hs H.
  destruct (Z.eq_dec s 0) as [->|Hs0]; [discriminate|].
  destruct (Z.eq_dec ne 0) as [->|Hn0].
  { unfold convert_xorca_to_orca in H. rewrite orb_true_r in H. discriminate. }
  rewrite xorca_to_orca_exact in H by auto.
  destruct (_ <=? u128_max); [|discriminate].
  destruct (Z.leb_spec (redeem_quote x ne s) u64_max); [|discriminate].
  cbn in H. inversion H; subst. unfold is_u64, u64_max in *.
  pose proof (redeem_quote_nonneg x ne s). split; [lia|]. auto.
Qed.
