(** Reading addresses from a command line, and decimal numerals. *)
From Coq Require Import String Ascii.
From Verif Require Export CliFacts.
From Verif Require Import BytesFacts LogFacts.
Import List ListNotations.
Open Scope list_scope.
Open Scope Z_scope.

(** ** Base58 text is unique *)
Lemma index_char c d : b58_index c b58_alphabet 0 = Some d -> c = b58_char d /\ 0 <= d < 58.
Proof.
  assert (K : match b58_index c b58_alphabet 0 with Some d => Ascii.eqb c (b58_char d) && (0 <=? d) && (d <? 58) | None => true end = true).
  { apply (by_char (fun c => match b58_index c b58_alphabet 0 with Some d => Ascii.eqb c (b58_char d) && (0 <=? d) && (d <? 58) | None => true end)).
    vm_compute. reflexivity. }
  intros H. rewrite H in K. apply andb_true_iff in K. destruct K as [K K2]. apply andb_true_iff in K. destruct K as [K K1].
  apply Z.leb_le in K1. apply Z.ltb_lt in K2. apply eqb_char in K. now split.
Qed.
Lemma value_app s t : forall acc, b58_value (s ++ t) acc = match b58_value s acc with Some v => b58_value t v | None => None end.
Proof. induction s as [|c s IH]; intros acc; [reflexivity|]. cbn [append b58_value]. destruct (b58_index _ _ _); [apply IH|reflexivity]. Qed.
Lemma value_nonneg s : forall acc v, 0 <= acc -> b58_value s acc = Some v -> acc <= v.
Proof.
  induction s as [|c s IH]; intros acc v A H; [injection H as <-; lia|]. cbn [b58_value] in H.
  destruct (b58_index c b58_alphabet 0) as [d|] eqn:E; [|discriminate]. apply index_char in E. apply IH in H; lia.
Qed.
Lemma value_positive s v : leading_ones s = O -> s <> EmptyString -> b58_value s 0 = Some v -> 0 < v.
Proof.
  destruct s as [|c s]; [congruence|]. cbn [leading_ones b58_value]. intros L _ H.
  destruct (Ascii.eqb c "1") eqn:E1; [discriminate|].
  destruct (b58_index c b58_alphabet 0) as [d|] eqn:E; [|discriminate]. apply index_char in E. destruct E as [-> E].
  destruct (Z.eq_dec d 0) as [->|N]; [discriminate E1|]. apply value_nonneg in H; lia.
Qed.
Lemma leading_ones_app t c : t <> EmptyString -> leading_ones (t ++ String c "") = O -> leading_ones t = O.
Proof. destruct t as [|x t]; [congruence|]. intros _. cbn [append leading_ones]. destruct (Ascii.eqb x "1"); [discriminate|reflexivity]. Qed.
Lemma digits_unique n : forall s s' v, (String.length s <= n)%nat -> leading_ones s = O -> leading_ones s' = O ->
  b58_value s 0 = Some v -> b58_value s' 0 = Some v -> s = s'.
Proof.
  induction n as [|n IH]; intros s s' v L O O' H H'.
  - destruct s; [|cbn in L; lia]. destruct s' as [|c s']; [reflexivity|].
    apply value_positive in H'; [|exact O'|discriminate]. cbn in H. injection H as <-. lia.
  - destruct (string_snoc s) as [->|(t & c & ->)].
    { destruct s' as [|c s']; [reflexivity|]. apply value_positive in H'; [|exact O'|discriminate]. cbn in H. injection H as <-. lia. }
    assert (V : 0 < v).
    { eapply value_positive; [exact O| |exact H]. destruct t; discriminate. }
    destruct (string_snoc s') as [->|(t' & c' & ->)]; [cbn in H'; injection H' as <-; lia|].
    rewrite value_app in H, H'. destruct (b58_value t 0) as [w|] eqn:W; [|discriminate].
    destruct (b58_value t' 0) as [w'|] eqn:W'; [|discriminate]. cbn [b58_value] in H, H'.
    destruct (b58_index c b58_alphabet 0) as [d|] eqn:E; [|discriminate].
    destruct (b58_index c' b58_alphabet 0) as [d'|] eqn:E'; [|discriminate].
    apply index_char in E, E'. destruct E as [-> E], E' as [-> E']. assert (J : 58 * w + d = v) by congruence. assert (J' : 58 * w' + d' = v) by congruence.
    assert (d = d') by lia. assert (w = w') by lia. subst d' w'. f_equal. rewrite snoc_length in L.
    destruct t as [|x t].
    { cbn in W. injection W as <-. destruct t' as [|x' t']; [reflexivity|].
      apply leading_ones_app in O'; [|discriminate]. apply value_positive in W'; [lia|exact O'|discriminate]. }
    destruct t' as [|x' t'].
    { cbn in W'. injection W' as <-. apply leading_ones_app in O; [|discriminate]. apply value_positive in W; [lia|exact O|discriminate]. }
    apply leading_ones_app in O, O'; [|discriminate..]. eapply IH; [lia|exact O|exact O'|exact W|exact W'].
Qed.
Lemma text_unique s : forall s' v, leading_ones s = leading_ones s' ->
  b58_value s 0 = Some v -> b58_value s' 0 = Some v -> s = s'.
Proof.
  induction s as [|c s IH]; intros s' v L H H'.
  - cbn in H. injection H as <-. destruct s'; [reflexivity|]. symmetry in L. apply value_positive in H'; [lia|exact L|discriminate].
  - destruct (Ascii.eqb c "1") eqn:E.
    + cbn [leading_ones] in L. rewrite E in L. destruct s' as [|c' s']; [discriminate|]. cbn [leading_ones] in L.
      destruct (Ascii.eqb c' "1") eqn:E'; [|discriminate]. injection L as L. apply eqb_char in E, E'. subst c c'. f_equal.
      exact (IH _ _ L H H').
    + assert (O : leading_ones (String c s) = O) by (cbn; now rewrite E). rewrite O in L. symmetry in L.
      eapply digits_unique; [reflexivity|exact O|exact L|exact H|exact H'].
Qed.
Lemma some_list (a b : list byte) : Some a = Some b -> a = b.
Proof. congruence. Qed.
Theorem text_is_base58 s k : text_of_key s k <-> s = to_base58 k.
Proof.
  split; [|intros ->; apply base58_text]. intros [H O]. destruct (base58_text k) as [H' O'].
  unfold b58_decode32 in H, H'. destruct (b58_value s 0) as [v|] eqn:V; [|discriminate].
  destruct (b58_value (to_base58 k) 0) as [v'|] eqn:V'; [|discriminate].
  destruct (Z.ltb_spec v (256 ^ 32)) as [B|B]; [|discriminate]. destruct (Z.ltb_spec v' (256 ^ 32)) as [B'|B']; [|discriminate].
  apply some_list in H, H'. assert (E : v = v').
  { rewrite <- H' in H. apply (f_equal (fun l => le_dec (rev l))) in H. cbv beta in H. rewrite !rev_involutive, !le_dec_enc in H.
    change (Z.of_nat 32) with 32 in H. pose proof (value_nonneg _ _ _ (Z.le_refl 0) V). pose proof (value_nonneg _ _ _ (Z.le_refl 0) V').
    now rewrite !Z.mod_small in H by lia. }
  subst v'. eapply text_unique; [congruence|exact V|exact V'].
Qed.

(** ** [new PublicKey] *)
Lemma ones_is s : ones s = Z.of_nat (leading_ones s).
Proof. induction s as [|c s IH]; [reflexivity|]. cbn [ones leading_ones]. destruct (Ascii.eqb c "1"); [lia|reflexivity]. Qed.
Lemma byte_size_iff v n : 0 < v -> byte_size v = n <-> 1 <= n /\ 256 ^ (n - 1) <= v < 256 ^ n.
Proof.
  intros V. unfold byte_size. destruct (Z.eqb_spec v 0); [lia|].
  assert (P : forall m, 0 <= m -> 256 ^ m = 2 ^ (8 * m)) by (intros m M; rewrite Z.pow_mul_r by lia; reflexivity).
  pose proof (Z.log2_nonneg v) as L. pose proof (Z.div_mod (Z.log2 v) 8 ltac:(lia)) as D. pose proof (Z.mod_pos_bound (Z.log2 v) 8 ltac:(lia)) as M.
  split.
  - intros <-. split; [lia|]. rewrite !P by lia. destruct (Z.log2_spec v V) as [S1 S2]. split.
    + eapply Z.le_trans; [|exact S1]. apply Z.pow_le_mono_r; lia.
    + eapply Z.lt_le_trans; [exact S2|]. apply Z.pow_le_mono_r; lia.
  - intros [N [H1 H2]]. rewrite P in H1, H2 by lia. apply Z.log2_le_pow2 in H1; [|exact V]. apply Z.log2_lt_pow2 in H2; [|exact V]. lia.
Qed.
Lemma leading_zeros_low d : (leading_zero_bytes d < List.length d)%nat ->
  256 ^ Z.of_nat (List.length d - leading_zero_bytes d - 1) <= le_dec (rev d).
Proof.
  induction d as [|b d IH]; [cbn; lia|]. cbn [leading_zero_bytes List.length rev]. rewrite le_dec_app. cbn [le_dec].
  destruct (Byte.eqb b x00) eqn:Q.
  - intros L. specialize (IH ltac:(lia)). rewrite <- zero_byte in Q. apply Z.eqb_eq in Q. rewrite Q.
    rewrite Z.mul_0_r. cbn [Nat.sub] in *. lia.
  - intros _. rewrite <- zero_byte in Q. apply Z.eqb_neq in Q. pose proof (byte_to_Z_range b) as R.
    unfold zlen. rewrite rev_length. replace (S (List.length d) - 0 - 1)%nat with (List.length d) by lia.
    pose proof (le_dec_range (rev d)). pose proof (Z.pow_pos_nonneg 256 (Z.of_nat (List.length d)) ltac:(lia) ltac:(lia)). nia.
Qed.
Lemma leading_zeros_all d : leading_zero_bytes d = List.length d -> le_dec (rev d) = 0.
Proof.
  intros E. destruct (leading_zeros_value d) as [_ H]. rewrite E, Nat.sub_diag in H. change (256 ^ Z.of_nat 0) with 1 in H.
  pose proof (le_dec_range (rev d)). lia.
Qed.
Lemma key_size k : byte_size (le_dec (rev (key_bytes k))) + Z.of_nat (leading_zero_bytes (key_bytes k)) = 32.
Proof.
  pose proof (key_len k) as L. apply Nat.eqb_eq in L. set (d := key_bytes k) in *.
  destruct (leading_zeros_value d) as [Z1 Z2].
  destruct (Nat.eq_dec (leading_zero_bytes d) (List.length d)) as [E|E].
  - rewrite (leading_zeros_all d E), E, L. reflexivity.
  - pose proof (leading_zeros_low d ltac:(lia)) as Z3.
    assert (byte_size (le_dec (rev d)) = Z.of_nat (32 - leading_zero_bytes d)); [|lia].
    assert (0 < le_dec (rev d)) by (pose proof (Z.pow_pos_nonneg 256 (Z.of_nat (List.length d - leading_zero_bytes d - 1)) ltac:(lia) ltac:(lia)); lia).
    apply byte_size_iff; [exact H|]. split; [lia|]. rewrite L in Z2, Z3.
    replace (Z.of_nat (32 - leading_zero_bytes d) - 1) with (Z.of_nat (32 - leading_zero_bytes d - 1)) by lia. now split.
Qed.
Theorem public_key_iff s k : public_key s = Some k <-> s = to_base58 k.
Proof.
  split.
  - unfold public_key. destruct (b58_value s 0) as [v|] eqn:V; [|discriminate]. cbn [obind].
    destruct (Z.eqb_spec (ones s + byte_size v) 32) as [E|]; [|discriminate]. intros H. injection H as H.
    pose proof (value_nonneg _ _ _ (Z.le_refl 0) V) as V0.
    assert (B : v < 256 ^ 32).
    { destruct (Z.eq_dec v 0) as [->|N]; [reflexivity|]. rewrite ones_is in E.
      destruct (proj1 (byte_size_iff v (byte_size v) ltac:(lia)) eq_refl) as (_ & _ & Q).
      eapply Z.lt_le_trans; [exact Q|]. apply Z.pow_le_mono_r; lia. }
    assert (Kb : key_bytes k = rev (le_enc 32 v)).
    { rewrite <- H. apply key_bytes_key_of. rewrite rev_length. apply le_enc_length. }
    assert (Kv : le_dec (rev (key_bytes k)) = v).
    { rewrite Kb, rev_involutive, le_dec_enc. change (Z.of_nat 32) with 32. apply Z.mod_small. lia. }
    apply text_is_base58. split.
    + unfold b58_decode32. rewrite V. destruct (Z.ltb_spec v (256 ^ 32)); [now rewrite Kb|lia].
    + pose proof (key_size k) as S. rewrite Kv in S. rewrite ones_is in E. lia.
  - intros ->. unfold public_key. destruct (key_value k) as [H1 H2].
    assert (V : b58_value (to_base58 k) 0 = Some (le_dec (rev (key_bytes k)))).
    { unfold to_base58. rewrite zeros_value, digits_value by exact H1. reflexivity. }
    rewrite V. cbn [obind]. destruct (base58_text k) as [_ O]. rewrite ones_is, O.
    pose proof (key_size k) as S. rewrite Z.add_comm in S. rewrite S. cbn [Z.eqb Pos.eqb]. f_equal.
    pose proof (key_len k) as L. apply Nat.eqb_eq in L.
    replace 32%nat with (List.length (rev (key_bytes k))) by (rewrite rev_length; exact L).
    rewrite le_enc_dec, rev_involutive. apply key_of_bytes.
Qed.

(** ** Decimal numerals *)
Lemma decimal_num s : (forall j a, String.get j s = Some a -> (48 <= nat_of_ascii a <= 57)%nat) ->
  forall acc, num 10 s acc = Some (read_decimal s acc).
Proof.
  induction s as [|c s IH]; intros H acc; [reflexivity|]. cbn [num read_decimal].
  pose proof (H 0%nat c eq_refl) as D. assert (V : digit_value c = Z.of_nat (nat_of_ascii c) - 48).
  { unfold digit_value. destruct (Z.leb_spec 48 (Z.of_nat (nat_of_ascii c))); [|lia].
    destruct (Z.leb_spec (Z.of_nat (nat_of_ascii c)) 57); [reflexivity|lia]. }
  rewrite V. destruct (Z.ltb_spec (Z.of_nat (nat_of_ascii c) - 48) 10); [|lia]. apply IH. intros j. exact (H (S j)).
Qed.
Lemma number_numeral s n : text_of_number s n -> numeral 10 s n.
Proof.
  intros (V & L & _ & D). apply numeral_iff; [lia|]. split; [destruct s; [cbn in L; lia|discriminate]|].
  rewrite decimal_num by exact D. now rewrite V.
Qed.
Theorem number_denotes s n : text_of_number s n -> denotes s n.
Proof.
  intros H. exists EmptyString, s, EmptyString. rewrite append_nil.
  split; [intros [|j] c K; discriminate K|]. split; [intros [|j] c K; discriminate K|]. split; [reflexivity|].
  now apply whole_decimal, number_numeral.
Qed.
Theorem numeral_begins hex s n : numeral 10 s n -> begins hex s n.
Proof.
  intros T. pose proof (begins_decimal hex "" "" 1 s "" n) as B. cbn [append] in B. rewrite append_nil, Z.mul_1_l in B. apply B.
  - intros [|j] c K; discriminate K.
  - constructor.
  - exact T.
  - rewrite begins_digit_iff by lia. tauto.
  - intros _. apply hexadecimal_none. destruct (hexadecimal s) as [t|] eqn:E; [|reflexivity]. exfalso.
    apply hexadecimal_iff in E. destruct E as (x & X & ->). apply numeral_num in T. destruct T as [_ T].
    destruct X as [<-|[<-|[]]]; discriminate T.
Qed.
Theorem number_begins hex s n : text_of_number s n -> begins hex s n.
Proof. intros H. now apply numeral_begins, number_numeral. Qed.
