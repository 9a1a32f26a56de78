(** The program's log: what it writes and when. *)
From Coq Require Import String Ascii.
From Verif Require Export LogSpec.
From Verif Require Import BytesFacts LedgerFacts TokenFacts ParseFacts CpiFacts AssertFacts MathFacts
  ClientSpec RaiseFacts FailFacts StakeFacts UnstakeFacts LayoutFacts HistoryFacts ErrorFacts.
Import List ListNotations.
Open Scope list_scope.
Open Scope Z_scope.

(** ** Base58 *)
Lemma char_index d : 0 <= d < 58 -> b58_index (b58_char d) b58_alphabet 0 = Some d.
Proof.
  intros H. assert (Q : forallb (fun n => match b58_index (b58_char (Z.of_nat n)) b58_alphabet 0 with
                                          | Some e => e =? Z.of_nat n | None => false end) (seq 0 58) = true) by reflexivity.
  rewrite forallb_forall in Q. specialize (Q (Z.to_nat d)). rewrite in_seq, Z2Nat.id in Q by lia.
  specialize (Q ltac:(lia)). destruct (b58_index _ _ _); [|discriminate]. apply Z.eqb_eq in Q. now subst.
Qed.
Lemma digits_value f : forall v acc, 0 <= v < 58 ^ Z.of_nat f -> b58_value (b58_digits f v acc) 0 = b58_value acc v.
Proof.
  induction f as [|f IH]; intros v acc H.
  - cbn in H. replace v with 0 by lia. reflexivity.
  - rewrite Nat2Z.inj_succ, Z.pow_succ_r in H by lia. cbn [b58_digits]. destruct (Z.eqb_spec v 0) as [->|N]; [reflexivity|].
    rewrite IH by (pose proof (Z.div_mod v 58 ltac:(lia)); pose proof (Z.mod_pos_bound v 58 ltac:(lia)); nia).
    cbn [b58_value]. rewrite char_index by (apply Z.mod_pos_bound; lia). f_equal.
    pose proof (Z.div_mod v 58 ltac:(lia)). lia.
Qed.
Lemma zeros_value d s : b58_value (b58_zeros d s) 0 = b58_value s 0.
Proof. induction d as [|b d IH]; [reflexivity|]. cbn [b58_zeros]. destruct (_ =? 0); [exact IH|reflexivity]. Qed.
Lemma key_value k : 0 <= le_dec (rev (key_bytes k)) < 58 ^ 44 /\ le_dec (rev (key_bytes k)) < 256 ^ 32.
Proof.
  pose proof (le_dec_range (rev (key_bytes k))) as H. unfold zlen in H. rewrite rev_length in H.
  pose proof (key_len k) as L. apply Nat.eqb_eq in L. rewrite L in H.
  change (Z.of_nat 32) with 32 in H. split; [|apply H]. split; [apply H|].
  eapply Z.lt_trans; [apply H|]. reflexivity.
Qed.
Lemma base58_decodes k : b58_decode32 (to_base58 k) = Some (key_bytes k).
Proof.
  destruct (key_value k) as [H1 H2]. unfold b58_decode32, to_base58. rewrite zeros_value, digits_value by exact H1.
  cbn [b58_value]. apply Z.ltb_lt in H2. rewrite H2. f_equal.
  pose proof (key_len k) as L. apply Nat.eqb_eq in L.
  replace 32%nat with (List.length (rev (key_bytes k))) by (rewrite rev_length; exact L).
  rewrite le_enc_dec. apply rev_involutive.
Qed.
Lemma base58_inj a b : to_base58 a = to_base58 b -> a = b.
Proof.
  intros H. apply pubkey_eq. assert (Q : Some (key_bytes a) = Some (key_bytes b)).
  { rewrite <- !base58_decodes. now f_equal. } now injection Q.
Qed.
Lemma digits_first f : forall v acc, 0 < v < 58 ^ Z.of_nat f ->
  exists d s, 0 < d < 58 /\ b58_digits f v acc = String (b58_char d) s.
Proof.
  induction f as [|f IH]; intros v acc H; [cbn in H; lia|].
  rewrite Nat2Z.inj_succ, Z.pow_succ_r in H by lia. cbn [b58_digits]. destruct (Z.eqb_spec v 0) as [->|N]; [lia|].
  pose proof (Z.div_mod v 58 ltac:(lia)). pose proof (Z.mod_pos_bound v 58 ltac:(lia)).
  destruct (Z.eq_dec (v / 58) 0) as [Z|Z].
  - rewrite Z. destruct f; cbn [b58_digits Z.eqb]; exists (v mod 58); eexists; (split; [lia|reflexivity]).
  - apply IH. nia.
Qed.
Lemma char_not_one d : 0 < d < 58 -> Ascii.eqb (b58_char d) "1"%char = false.
Proof.
  intros H. assert (Q : forallb (fun n => negb (Ascii.eqb (b58_char (Z.of_nat n)) "1"%char)) (seq 1 57) = true) by reflexivity.
  rewrite forallb_forall in Q. specialize (Q (Z.to_nat d)). rewrite in_seq, Z2Nat.id in Q by lia.
  specialize (Q ltac:(lia)). now apply negb_true_iff in Q.
Qed.
Lemma digits_ones f v : 0 <= v < 58 ^ Z.of_nat f -> leading_ones (b58_digits f v EmptyString) = O.
Proof.
  intros H. destruct (Z.eq_dec v 0) as [->|N]; [now destruct f|].
  destruct (digits_first f v EmptyString ltac:(lia)) as (d & s & Hd & ->). cbn. now rewrite char_not_one.
Qed.
Lemma zero_byte b : (byte_to_Z b =? 0) = Byte.eqb b x00.
Proof. destruct b; reflexivity. Qed.
Lemma zeros_ones d s : leading_ones s = O -> leading_ones (b58_zeros d s) = leading_zero_bytes d.
Proof.
  intros H. induction d as [|b d IH]; [exact H|]. cbn [b58_zeros leading_zero_bytes]. rewrite zero_byte.
  destruct (Byte.eqb b x00); [cbn; now rewrite IH|exact H].
Qed.
Theorem base58_text k : text_of_key (to_base58 k) k.
Proof.
  split; [apply base58_decodes|]. apply zeros_ones, digits_ones. apply key_value.
Qed.
Theorem base58_only a b s : text_of_key s a -> text_of_key s b -> a = b.
Proof. intros [H _] [H' _]. apply pubkey_eq. congruence. Qed.

Lemma digits_length f : forall v acc n, 0 <= v < 58 ^ Z.of_nat n ->
  (String.length (b58_digits f v acc) <= n + String.length acc)%nat.
Proof.
  induction f as [|f IH]; intros v acc n H; [cbn; lia|]. cbn [b58_digits].
  destruct (Z.eqb_spec v 0) as [->|N]; [lia|].
  destruct n as [|n]; [cbn in H; lia|]. rewrite Nat2Z.inj_succ, Z.pow_succ_r in H by lia.
  pose proof (Z.div_mod v 58 ltac:(lia)). pose proof (Z.mod_pos_bound v 58 ltac:(lia)).
  specialize (IH (v / 58) (String (b58_char (v mod 58)) acc) n ltac:(nia)). cbn [String.length] in IH. lia.
Qed.
Lemma zeros_length d s : String.length (b58_zeros d s) = (leading_zero_bytes d + String.length s)%nat.
Proof.
  induction d as [|b d IH]; [reflexivity|]. cbn [b58_zeros leading_zero_bytes]. rewrite zero_byte.
  destruct (Byte.eqb b x00); [cbn; now rewrite IH|reflexivity].
Qed.
Lemma le_dec_app a b : le_dec (a ++ b) = le_dec a + 256 ^ zlen a * le_dec b.
Proof.
  induction a as [|x a IH]; [unfold zlen; cbn -[Z.mul]; ring|]. cbn [app le_dec]. rewrite IH. unfold zlen. cbn [List.length].
  rewrite Nat2Z.inj_succ, Z.pow_succ_r by lia. ring.
Qed.
Lemma leading_zeros_value d : (leading_zero_bytes d <= List.length d)%nat /\
  le_dec (rev d) < 256 ^ Z.of_nat (List.length d - leading_zero_bytes d).
Proof.
  induction d as [|b d [IH1 IH2]]; [cbn; lia|]. cbn [leading_zero_bytes List.length].
  destruct (Byte.eqb b x00) eqn:Q.
  - split; [lia|]. cbn [rev]. rewrite le_dec_app. cbn [le_dec]. rewrite <- zero_byte in Q. apply Z.eqb_eq in Q. rewrite Q.
    cbn [Nat.sub]. rewrite Z.mul_0_r. lia.
  - split; [lia|]. pose proof (le_dec_range (rev (b :: d))) as R. unfold zlen in R. rewrite rev_length in R. apply R.
Qed.
Lemma base58_length k : (String.length (to_base58 k) <= 44)%nat.
Proof.
  unfold to_base58. rewrite zeros_length. destruct (leading_zeros_value (key_bytes k)) as [H1 H2].
  pose proof (key_len k) as L. apply Nat.eqb_eq in L. rewrite L in H1, H2.
  set (z := leading_zero_bytes (key_bytes k)) in *.
  assert (Q : forallb (fun n => 256 ^ Z.of_nat (32 - n) <=? 58 ^ Z.of_nat (44 - n)) (seq 0 33) = true) by reflexivity.
  rewrite forallb_forall in Q. specialize (Q z). rewrite in_seq in Q. specialize (Q ltac:(lia)). apply Z.leb_le in Q.
  pose proof (digits_length 44 (le_dec (rev (key_bytes k))) EmptyString (44 - z)) as D.
  cbn [String.length] in D. pose proof (key_value k). lia.
Qed.

(** ** Decimal *)
Lemma dec_digit d : 0 <= d < 10 -> Z.of_nat (nat_of_ascii (dec_char d)) - 48 = d.
Proof. intros H. unfold dec_char. rewrite nat_ascii_embedding by lia. lia. Qed.
Lemma decimal_value f : forall v acc, 0 <= v < 10 ^ Z.of_nat f -> (0 < f)%nat ->
  read_decimal (dec_digits f v acc) 0 = read_decimal acc v.
Proof.
  induction f as [|f IH]; intros v acc H F; [lia|].
  rewrite Nat2Z.inj_succ, Z.pow_succ_r in H by lia. cbn [dec_digits].
  pose proof (Z.div_mod v 10 ltac:(lia)). pose proof (Z.mod_pos_bound v 10 ltac:(lia)).
  destruct (Z.ltb_spec v 10).
  - cbn [read_decimal]. rewrite dec_digit by lia. f_equal. rewrite Z.mod_small by lia. lia.
  - rewrite IH; [|nia|destruct f; [cbn in H; lia|lia]]. cbn [read_decimal]. rewrite dec_digit by lia. f_equal. lia.
Qed.
Lemma decimal_long f : forall v acc, 0 <= v < 10 ^ Z.of_nat f -> (0 < f)%nat ->
  (1 + String.length acc <= String.length (dec_digits f v acc) <= f + String.length acc)%nat /\
  ((1 + String.length acc < String.length (dec_digits f v acc))%nat ->
   10 ^ (Z.of_nat (String.length (dec_digits f v acc)) - 1 - Z.of_nat (String.length acc)) <= v).
Proof.
  induction f as [|f IH]; intros v acc H F; [lia|].
  rewrite Nat2Z.inj_succ, Z.pow_succ_r in H by lia. cbn [dec_digits].
  pose proof (Z.div_mod v 10 ltac:(lia)). pose proof (Z.mod_pos_bound v 10 ltac:(lia)).
  destruct (Z.ltb_spec v 10); [cbn [String.length]; lia|].
  destruct f as [|f]; [cbn in H; lia|]. set (f' := S f) in *.
  destruct (IH (v / 10) (String (dec_char (v mod 10)) acc)) as [I1 I2]; [nia|lia|].
  set (s := dec_digits f' _ _) in *. cbn [String.length] in I1, I2. split; [lia|]. intros _.
  destruct (Nat.eq_dec (String.length s) (2 + String.length acc)) as [E|E].
  - rewrite E. replace (_ - 1 - _) with 1 by lia. change (10 ^ 1) with 10. lia.
  - specialize (I2 ltac:(lia)).
    replace (Z.of_nat (String.length s) - 1 - Z.of_nat (String.length acc))
      with (Z.succ (Z.of_nat (String.length s) - 1 - Z.of_nat (S (String.length acc)))) by lia.
    rewrite Z.pow_succ_r by lia. lia.
Qed.
Lemma some_ascii (a b : ascii) : Some a = Some b -> a = b.
Proof. congruence. Qed.
Lemma decimal_chars f : forall v acc, 0 <= v ->
  (forall j a, String.get j acc = Some a -> (48 <= nat_of_ascii a <= 57)%nat) ->
  forall j a, String.get j (dec_digits f v acc) = Some a -> (48 <= nat_of_ascii a <= 57)%nat.
Proof.
  induction f as [|f IH]; intros v acc H A; [exact A|]. cbn [dec_digits].
  pose proof (Z.mod_pos_bound v 10 ltac:(lia)).
  assert (B : forall j a, String.get j (String (dec_char (v mod 10)) acc) = Some a -> (48 <= nat_of_ascii a <= 57)%nat).
  { intros [|j] a Q; [|now apply (A j)]. change (Some (dec_char (v mod 10)) = Some a) in Q. apply some_ascii in Q. rewrite <- Q. unfold dec_char.
    rewrite nat_ascii_embedding by lia. lia. }
  destruct (v <? 10); [exact B|]. apply IH; [apply Z.div_pos; lia|exact B].
Qed.
Theorem decimal_text n : is_u64 n -> text_of_number (to_decimal n) n.
Proof.
  intros H. unfold is_u64 in H. assert (R : 0 <= n < 10 ^ Z.of_nat 20) 
    by (change (10 ^ Z.of_nat 20) with 100000000000000000000; unfold u64_max in H; lia).
  unfold text_of_number, to_decimal. destruct (decimal_long 20 n EmptyString R ltac:(lia)) as [D1 D2].
  cbn [String.length] in D1, D2.
  split; [rewrite decimal_value; [reflexivity|exact R|lia]|]. split; [lia|]. split.
  - intros L. specialize (D2 ltac:(lia)). now rewrite Z.sub_0_r in D2.
  - apply decimal_chars; [lia|]. intros j a Q. destruct j; discriminate.
Qed.
Lemma dec_digits_length f : forall v acc, (String.length (dec_digits f v acc) <= f + String.length acc)%nat.
Proof.
  induction f as [|f IH]; intros v acc; [cbn; lia|]. cbn [dec_digits].
  destruct (_ <? _); [cbn; lia|]. specialize (IH (v / 10) (String (dec_char (v mod 10)) acc)). cbn [String.length] in IH. lia.
Qed.
Lemma decimal_length n : (String.length (to_decimal n) <= 20)%nat.
Proof. pose proof (dec_digits_length 20 n EmptyString). cbn [String.length] in H. unfold to_decimal. lia. Qed.
