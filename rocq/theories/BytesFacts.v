(** Lemmas about byte strings, little-endian integers, keys, slices. *)
From Verif Require Export Bytes.
From Coq Require Import Eqdep_dec.

Lemma bind_ok {E A B} (m : res E A) (f : A -> res E B) b :
  bind m f = Ok b <-> exists a, m = Ok a /\ f a = Ok b.
Proof.
  destruct m as [a|e]; cbn; split.
  - intros H. exists a. auto.
  - intros (a' & H & H'). congruence.
  - discriminate.
  - intros (a' & H & _). discriminate.
Qed.

Lemma fail_if_ok {E} (b : bool) (e : E) u : fail_if b e = Ok u <-> b = false.
Proof. unfold fail_if. destruct b, u; split; congruence. Qed.

(** ** Bytes *)
Lemma byte_to_Z_range b : 0 <= byte_to_Z b < 256.
Proof.
  unfold byte_to_Z. pose proof (Byte.to_N_bounded b). lia.
Qed.

Lemma Z_to_byte_to_Z z : byte_to_Z (Z_to_byte z) = z mod 256.
Proof.
  unfold Z_to_byte, byte_to_Z.
  pose proof (Z.mod_pos_bound z 256 ltac:(lia)) as Hb.
  destruct (Byte.of_N (Z.to_N (z mod 256))) as [b|] eqn:E.
  - apply Byte.to_of_N in E. rewrite E. lia.
  - apply Byte.of_N_None_iff in E. lia.
Qed.

Lemma byte_to_Z_to_byte b : Z_to_byte (byte_to_Z b) = b.
Proof.
  unfold Z_to_byte, byte_to_Z.
  pose proof (Byte.to_N_bounded b) as Hb.
  rewrite Z.mod_small by lia. rewrite N2Z.id, Byte.of_to_N. reflexivity.
Qed.

Lemma byte_to_Z_inj a b : byte_to_Z a = byte_to_Z b -> a = b.
Proof. intros H. rewrite <- (byte_to_Z_to_byte a), <- (byte_to_Z_to_byte b), H. reflexivity. Qed.

Lemma Z_to_byte_mod z : Z_to_byte (z mod 256) = Z_to_byte z.
Proof. unfold Z_to_byte. rewrite Z.mod_mod by lia. reflexivity. Qed.

Lemma byte_eqb_true a b : Byte.eqb a b = true <-> a = b.
Proof.
  split; intros H.
  - apply Byte.byte_dec_bl; exact H.
  - apply Byte.byte_dec_lb; exact H.
Qed.

Lemma bytes_eqb_true a : forall b, bytes_eqb a b = true <-> a = b.
Proof.
  induction a as [|x a IH]; intros [|y b]; cbn; try (split; congruence).
  rewrite andb_true_iff, byte_eqb_true, IH. split.
  - intros [-> ->]; reflexivity.
  - intros H; injection H; auto.
Qed.

(** ** Little endian *)
Lemma le_enc_length n : forall z, length (le_enc n z) = n.
Proof. induction n as [|n IH]; intros z; cbn; [reflexivity|]. now rewrite IH. Qed.

Lemma le_dec_enc n : forall z, le_dec (le_enc n z) = z mod 256 ^ Z.of_nat n.
Proof.
  induction n as [|n IH]; intros z.
  - cbn. now rewrite Z.mod_1_r.
  - cbn [le_enc le_dec]. rewrite IH, Z_to_byte_to_Z.
    rewrite Nat2Z.inj_succ, Z.pow_succ_r by lia.
    rewrite Z.rem_mul_r by lia. reflexivity.
Qed.

Lemma le_dec_range l : 0 <= le_dec l < 256 ^ zlen l.
Proof.
  unfold zlen. induction l as [|b l IH].
  - cbn. lia.
  - cbn [le_dec length]. rewrite Nat2Z.inj_succ, Z.pow_succ_r by lia.
    pose proof (byte_to_Z_range b). lia.
Qed.

Lemma le_enc_dec l : le_enc (length l) (le_dec l) = l.
Proof.
  induction l as [|b l IH]; [reflexivity|].
  cbn [length le_enc le_dec].
  pose proof (byte_to_Z_range b) as Hb.
  f_equal.
  - rewrite <- Z_to_byte_mod.
    replace ((byte_to_Z b + 256 * le_dec l) mod 256) with (byte_to_Z b).
    + apply byte_to_Z_to_byte.
    + rewrite (Z.mul_comm 256), Z.mod_add by lia. now rewrite Z.mod_small.
  - replace ((byte_to_Z b + 256 * le_dec l) / 256) with (le_dec l); [exact IH|].
    rewrite (Z.mul_comm 256), Z.div_add by lia.
    rewrite (Z.div_small (byte_to_Z b)) by lia. lia.
Qed.

Lemma le_enc_mod n z : le_enc n (z mod 256 ^ Z.of_nat n) = le_enc n z.
Proof.
  rewrite <- le_dec_enc.
  rewrite <- (le_enc_length n z) at 1. apply le_enc_dec.
Qed.

Lemma le_enc_inj n a b :
  0 <= a < 256 ^ Z.of_nat n -> 0 <= b < 256 ^ Z.of_nat n -> le_enc n a = le_enc n b -> a = b.
Proof.
  intros Ha Hb H. apply (f_equal le_dec) in H. rewrite !le_dec_enc in H.
  rewrite !Z.mod_small in H by assumption. exact H.
Qed.

Lemma to_i64_range z : 0 <= z < 2 ^ 64 -> is_i64 (to_i64 z).
Proof. unfold is_i64, to_i64. intros H. destruct (Z.ltb_spec z (2^63)); lia. Qed.

Lemma to_i64_mod z : is_i64 z -> to_i64 (z mod 2 ^ 64) = z.
Proof.
  unfold is_i64, to_i64. intros H.
  destruct (Z_lt_le_dec z 0) as [Hn|Hp].
  - replace (z mod 2^64) with (z + 2^64).
    + destruct (Z.ltb_spec (z + 2^64) (2^63)); lia.
    + symmetry. rewrite <- (Z.mod_small (z + 2^64) (2^64)) by lia.
      replace (z + 2^64) with (z + 1 * 2^64) by lia. now rewrite Z.mod_add by lia.
  - rewrite Z.mod_small by lia. destruct (Z.ltb_spec z (2^63)); lia.
Qed.

Lemma to_i64_inj a b :
  0 <= a < 2 ^ 64 -> 0 <= b < 2 ^ 64 -> to_i64 a = to_i64 b -> a = b.
Proof.
  unfold to_i64. intros Ha Hb.
  destruct (Z.ltb_spec a (2^63)), (Z.ltb_spec b (2^63)); lia.
Qed.

(** ** Keys *)
Lemma pubkey_eq a b : key_bytes a = key_bytes b -> a = b.
Proof.
  destruct a as [x px], b as [y py]. cbn. intros ->. f_equal.
  apply (UIP_dec bool_dec).
Qed.

Lemma key_bytes_length k : length (key_bytes k) = 32%nat.
Proof. apply Nat.eqb_eq, key_len. Qed.

Lemma key_eqb_true a b : key_eqb a b = true <-> a = b.
Proof.
  unfold key_eqb. rewrite bytes_eqb_true. split; [apply pubkey_eq|congruence].
Qed.

Lemma key_eqb_false a b : key_eqb a b = false <-> a <> b.
Proof.
  split; intros H.
  - intros ->. rewrite (proj2 (key_eqb_true b b) eq_refl) in H. discriminate.
  - destruct (key_eqb a b) eqn:E; [|reflexivity]. apply key_eqb_true in E. contradiction.
Qed.

Lemma key_eqb_refl a : key_eqb a a = true.
Proof. now apply key_eqb_true. Qed.

Lemma key_eqb_sym a b : key_eqb a b = key_eqb b a.
Proof.
  destruct (key_eqb a b) eqn:E.
  - apply key_eqb_true in E. subst. now rewrite key_eqb_refl.
  - apply key_eqb_false in E. symmetry. apply key_eqb_false. congruence.
Qed.

Lemma key_eq_dec (a b : pubkey) : {a = b} + {a <> b}.
Proof.
  destruct (key_eqb a b) eqn:E.
  - left. now apply key_eqb_true.
  - right. now apply key_eqb_false.
Qed.

Lemma pad32_id l : length l = 32%nat -> pad32 l = l.
Proof.
  intros H. unfold pad32. rewrite <- H. rewrite firstn_app, Nat.sub_diag, firstn_all.
  rewrite firstn_O. apply app_nil_r.
Qed.

Lemma key_of_bytes k : key_of (key_bytes k) = k.
Proof. apply pubkey_eq. exact (pad32_id _ (key_bytes_length k)). Qed.

Lemma key_bytes_key_of l : length l = 32%nat -> key_bytes (key_of l) = l.
Proof. intros H. exact (pad32_id l H). Qed.

(** ** Slices *)
Lemma slice_length {A} off n (l : list A) :
  (off + n <= length l)%nat -> length (slice off n l) = n.
Proof. intros H. unfold slice. rewrite firstn_length, skipn_length. lia. Qed.

Lemma splice_length {A} off (new l : list A) :
  (off + length new <= length l)%nat -> length (splice off new l) = length l.
Proof.
  intros H. unfold splice. rewrite !app_length, firstn_length, skipn_length. lia.
Qed.

Lemma splice_zlen {A} off (new l : list A) :
  (off + length new <= length l)%nat -> zlen (splice off new l) = zlen l.
Proof. intros H. unfold zlen. now rewrite splice_length. Qed.

Lemma slice_splice_same {A} off (new l : list A) :
  (off + length new <= length l)%nat -> slice off (length new) (splice off new l) = new.
Proof.
  intros H. unfold slice, splice.
  rewrite skipn_app, firstn_length.
  rewrite (skipn_all2 (firstn off l)) by (rewrite firstn_length; lia).
  replace (off - Nat.min off (length l))%nat with 0%nat by lia.
  cbn [app skipn]. rewrite firstn_app, Nat.sub_diag, firstn_all. cbn. apply app_nil_r.
Qed.

Lemma skipn_skipn' {A} a : forall b (l : list A), skipn a (skipn b l) = skipn (b + a) l.
Proof.
  intros b. induction b as [|b IH]; intros l; cbn [Nat.add]; [reflexivity|].
  destruct l as [|x l]; [now rewrite !skipn_nil|]. cbn [skipn]. apply IH.
Qed.

Lemma slice_splice_before {A} off n o2 (new l : list A) :
  (off + n <= o2)%nat -> (o2 + length new <= length l)%nat ->
  slice off n (splice o2 new l) = slice off n l.
Proof.
  intros H1 H2. unfold slice, splice.
  rewrite skipn_app, firstn_app.
  rewrite skipn_length, firstn_length.
  replace (n - (Nat.min o2 (length l) - off))%nat with 0%nat by lia.
  cbn [firstn]. rewrite app_nil_r.
  rewrite <- (firstn_skipn o2 l) at 2.
  rewrite skipn_app, firstn_app, skipn_length, firstn_length.
  replace (n - (Nat.min o2 (length l) - off))%nat with 0%nat by lia.
  cbn [firstn]. now rewrite app_nil_r.
Qed.

Lemma slice_splice_after {A} off n o2 (new l : list A) :
  (o2 + length new <= off)%nat -> (o2 + length new <= length l)%nat ->
  slice off n (splice o2 new l) = slice off n l.
Proof.
  intros H1 H2. unfold slice, splice. f_equal.
  rewrite app_assoc, skipn_app.
  rewrite skipn_all2 by (rewrite app_length, firstn_length; lia).
  cbn [app]. rewrite app_length, firstn_length, skipn_skipn'. f_equal. lia.
Qed.

Lemma slice_splice_ne {A} off n o2 (new l : list A) :
  ((off + n <= o2) \/ (o2 + length new <= off))%nat -> (o2 + length new <= length l)%nat ->
  slice off n (splice o2 new l) = slice off n l.
Proof. intros [H|H] H2; [now apply slice_splice_before|now apply slice_splice_after]. Qed.

Lemma splice_slice_id {A} off n (l : list A) :
  (off + n <= length l)%nat -> splice off (slice off n l) l = l.
Proof.
  intros H. unfold splice. rewrite slice_length by exact H. unfold slice.
  rewrite <- skipn_skipn'. rewrite firstn_skipn. apply firstn_skipn.
Qed.

Lemma nth_slice off (l : list byte) :
  (off < length l)%nat -> [nth off l x00] = slice off 1 l.
Proof.
  intros H. unfold slice.
  revert l H. induction off as [|off IH]; intros [|b l] H; cbn in H; try lia.
  - reflexivity.
  - cbn [nth skipn]. apply IH. lia.
Qed.

Lemma get_u8_slice off d : (off < length d)%nat -> get_u8 off d = le_dec (slice off 1 d).
Proof.
  intros H. unfold get_u8. rewrite <- nth_slice by exact H. cbn [le_dec]. lia.
Qed.

(** ** Field lemmas *)
Lemma get_u8_range off d : is_u8 (get_u8 off d).
Proof. unfold is_u8, get_u8. pose proof (byte_to_Z_range (nth off d x00)). lia. Qed.

Lemma slice_zlen_le {A} off n (l : list A) : zlen (slice off n l) <= Z.of_nat n.
Proof. unfold zlen, slice. rewrite firstn_length. lia. Qed.

Lemma get_u32_range off d : is_u32 (get_u32 off d).
Proof.
  unfold is_u32, get_u32. pose proof (le_dec_range (slice off 4 d)).
  pose proof (slice_zlen_le off 4 d). split; [lia|].
  assert (256 ^ zlen (slice off 4 d) <= 256 ^ 4) by (apply Z.pow_le_mono_r; lia). lia.
Qed.

Lemma get_u64_range off d : is_u64 (get_u64 off d).
Proof.
  unfold is_u64, get_u64. pose proof (le_dec_range (slice off 8 d)).
  pose proof (slice_zlen_le off 8 d). split; [lia|].
  assert (256 ^ zlen (slice off 8 d) <= 256 ^ 8) by (apply Z.pow_le_mono_r; lia). lia.
Qed.

Lemma get_i64_range off d : is_i64 (get_i64 off d).
Proof. unfold get_i64. apply to_i64_range. apply get_u64_range. Qed.

Lemma get_set_u64 off v d :
  is_u64 v -> (off + 8 <= length d)%nat -> get_u64 off (set_u64 off v d) = v.
Proof.
  intros Hv H. unfold get_u64, set_u64.
  pose proof (slice_splice_same off (le_enc 8 v) d) as E. rewrite le_enc_length in E.
  rewrite E by exact H. rewrite le_dec_enc. apply Z.mod_small. exact Hv.
Qed.

Lemma get_set_i64 off v d :
  is_i64 v -> (off + 8 <= length d)%nat -> get_i64 off (set_u64 off v d) = v.
Proof.
  intros Hv H. unfold get_i64, set_u64.
  pose proof (slice_splice_same off (le_enc 8 v) d) as E. rewrite le_enc_length in E.
  rewrite E by exact H. rewrite le_dec_enc. apply to_i64_mod. exact Hv.
Qed.

Lemma get_set_u32 off v d :
  is_u32 v -> (off + 4 <= length d)%nat -> get_u32 off (set_u32 off v d) = v.
Proof.
  intros Hv H. unfold get_u32, set_u32.
  pose proof (slice_splice_same off (le_enc 4 v) d) as E. rewrite le_enc_length in E.
  rewrite E by exact H. rewrite le_dec_enc. apply Z.mod_small. exact Hv.
Qed.

Lemma get_set_u8 off v d :
  is_u8 v -> (off < length d)%nat -> get_u8 off (set_u8 off v d) = v.
Proof.
  intros Hv H. unfold set_u8.
  rewrite get_u8_slice by (rewrite splice_length; rewrite ?le_enc_length; lia).
  pose proof (slice_splice_same off (le_enc 1 v) d) as E. rewrite le_enc_length in E.
  rewrite E by lia. rewrite le_dec_enc. apply Z.mod_small. exact Hv.
Qed.

Lemma get_set_key off k d :
  (off + 32 <= length d)%nat -> get_key off (set_key off k d) = k.
Proof.
  intros H. unfold get_key, set_key.
  pose proof (slice_splice_same off (key_bytes k) d) as E. rewrite key_bytes_length in E.
  rewrite E by exact H. apply key_of_bytes.
Qed.

(** A write at [o2] leaves a read at a disjoint offset unchanged. *)
Definition disjoint_or (a n b m : nat) : Prop := (a + n <= b \/ b + m <= a)%nat.

Lemma get_u8_splice off o2 new d :
  disjoint_or off 1 o2 (length new) -> (o2 + length new <= length d)%nat ->
  get_u8 off (splice o2 new d) = get_u8 off d.
Proof.
  intros H H2. unfold disjoint_or in H.
  destruct (Nat.lt_ge_cases off (length d)) as [Hl|Hl].
  - rewrite !get_u8_slice by (rewrite ?splice_length; lia).
    f_equal. now apply slice_splice_ne.
  - unfold get_u8. rewrite !nth_overflow; [reflexivity| |]; rewrite ?splice_length; lia.
Qed.

Lemma get_u32_splice off o2 new d :
  disjoint_or off 4 o2 (length new) -> (o2 + length new <= length d)%nat ->
  get_u32 off (splice o2 new d) = get_u32 off d.
Proof. intros H H2. unfold get_u32. f_equal. now apply slice_splice_ne. Qed.

Lemma get_u64_splice off o2 new d :
  disjoint_or off 8 o2 (length new) -> (o2 + length new <= length d)%nat ->
  get_u64 off (splice o2 new d) = get_u64 off d.
Proof. intros H H2. unfold get_u64. f_equal. now apply slice_splice_ne. Qed.

Lemma get_i64_splice off o2 new d :
  disjoint_or off 8 o2 (length new) -> (o2 + length new <= length d)%nat ->
  get_i64 off (splice o2 new d) = get_i64 off d.
Proof. intros H H2. unfold get_i64. do 2 f_equal. now apply slice_splice_ne. Qed.

Lemma get_key_splice off o2 new d :
  disjoint_or off 32 o2 (length new) -> (o2 + length new <= length d)%nat ->
  get_key off (splice o2 new d) = get_key off d.
Proof. intros H H2. unfold get_key. f_equal. now apply slice_splice_ne. Qed.

(** Two lists of the same length that agree on every byte slice are equal. *)
Lemma zeros_zlen n : 0 <= n -> zlen (zeros n) = n.
Proof. intros H. unfold zlen, zeros. rewrite repeat_length. lia. Qed.

Lemma zeros_length n : length (zeros n) = Z.to_nat n.
Proof. unfold zeros. apply repeat_length. Qed.

Lemma all_zero_zeros n : all_zero (zeros n) = true.
Proof.
  unfold all_zero, zeros. apply forallb_forall. intros b Hb.
  apply repeat_spec in Hb. now subst.
Qed.

Lemma all_zero_nth d i : all_zero d = true -> nth i d x00 = x00.
Proof.
  unfold all_zero. intros H.
  destruct (Nat.lt_ge_cases i (length d)) as [Hl|Hl].
  - rewrite forallb_forall in H. specialize (H (nth i d x00) (nth_In d x00 Hl)).
    apply byte_eqb_true in H. now symmetry.
  - now apply nth_overflow.
Qed.

Lemma all_zero_u8 d i : all_zero d = true -> get_u8 i d = 0.
Proof. intros H. unfold get_u8. rewrite all_zero_nth by exact H. reflexivity. Qed.

Lemma zlen_nonneg {A} (l : list A) : 0 <= zlen l.
Proof. unfold zlen. lia. Qed.

Lemma zlen_app {A} (a b : list A) : zlen (a ++ b) = zlen a + zlen b.
Proof. unfold zlen. rewrite app_length. lia. Qed.

Lemma le_enc_zlen n z : zlen (le_enc n z) = Z.of_nat n.
Proof. unfold zlen. now rewrite le_enc_length. Qed.

Lemma set_u64_length off v d : (off + 8 <= length d)%nat -> length (set_u64 off v d) = length d.
Proof. intros H. unfold set_u64. apply splice_length. now rewrite le_enc_length. Qed.
Lemma set_u32_length off v d : (off + 4 <= length d)%nat -> length (set_u32 off v d) = length d.
Proof. intros H. unfold set_u32. apply splice_length. now rewrite le_enc_length. Qed.
Lemma set_u8_length off v d : (off + 1 <= length d)%nat -> length (set_u8 off v d) = length d.
Proof. intros H. unfold set_u8. apply splice_length. now rewrite le_enc_length. Qed.
Lemma set_key_length off v d : (off + 32 <= length d)%nat -> length (set_key off v d) = length d.
Proof. intros H. unfold set_key. apply splice_length. now rewrite key_bytes_length. Qed.
