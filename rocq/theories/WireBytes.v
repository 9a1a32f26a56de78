(** Facts about the bytes of a transaction: reading back what was written. *)
From Verif Require Export WireKeys.
From Verif Require Import BytesFacts LedgerFacts.
Import List ListNotations.
Open Scope list_scope.
Open Scope Z_scope.

Lemma byte_small z : 0 <= z < 256 -> byte_to_Z (Z_to_byte z) = z.
Proof. intros H. rewrite Z_to_byte_to_Z. now apply Z.mod_small. Qed.

Lemma short_len_length n : length (short_len n) = len_size n.
Proof.
  unfold short_len, len_size. destruct (Z.of_nat n <? 128); [reflexivity|].
  destruct (Z.of_nat n <? 16384); reflexivity.
Qed.

Lemma take_short_len n r : Z.of_nat n < 65536 -> take_short (short_len n ++ r) = Some (n, r).
Proof.
  intros H. unfold short_len. set (z := Z.of_nat n) in *.
  assert (Hz : 0 <= z) by (unfold z; lia).
  assert (Hn : forall w, w = z -> Some (Z.to_nat w, r) = Some (n, r)).
  { intros w ->. unfold z. now rewrite Nat2Z.id. }
  pose proof (Z.mod_pos_bound z 128 eq_refl) as M1.
  pose proof (Z.div_mod z 128 ltac:(lia)) as D1.
  destruct (z <? 128) eqn:E1; [apply Z.ltb_lt in E1|apply Z.ltb_ge in E1].
  { cbn [app take_short]. rewrite byte_small by lia.
    replace (z <? 128) with true by (symmetry; apply Z.ltb_lt; lia). auto. }
  destruct (z <? 16384) eqn:E2; [apply Z.ltb_lt in E2|apply Z.ltb_ge in E2].
  { assert (0 < z / 128 < 128) by (split; [apply Z.div_str_pos|apply Z.div_lt_upper_bound]; lia).
    cbn [app take_short]. rewrite !byte_small by lia.
    replace (z mod 128 + 128 <? 128) with false by (symmetry; apply Z.ltb_ge; lia).
    replace (z / 128 =? 0) with false by (symmetry; apply Z.eqb_neq; lia).
    replace (z / 128 <? 128) with true by (symmetry; apply Z.ltb_lt; lia).
    apply Hn. lia. }
  pose proof (Z.mod_pos_bound (z / 128) 128 eq_refl) as M2.
  pose proof (Z.div_mod (z / 128) 128 ltac:(lia)) as D2.
  assert (D3 : z / 128 / 128 = z / 16384) by (rewrite Z.div_div by lia; reflexivity).
  assert (0 < z / 16384 < 4) by (split; [apply Z.div_str_pos|apply Z.div_lt_upper_bound]; lia).
  cbn [app take_short]. rewrite !byte_small by lia.
  replace (z mod 128 + 128 <? 128) with false by (symmetry; apply Z.ltb_ge; lia).
  replace ((z / 128) mod 128 + 128 =? 0) with false by (symmetry; apply Z.eqb_neq; lia).
  replace ((z / 128) mod 128 + 128 <? 128) with false by (symmetry; apply Z.ltb_ge; lia).
  replace (z / 16384 =? 0) with false by (symmetry; apply Z.eqb_neq; lia).
  replace (3 <? z / 16384) with false by (symmetry; apply Z.ltb_ge; lia).
  cbn [orb]. apply Hn. rewrite D3 in D2. lia.
Qed.

Lemma take_bytes_app n a r : length a = n -> take_bytes n (a ++ r) = Some (a, r).
Proof.
  intros <-. unfold take_bytes. rewrite app_length.
  destruct (Nat.ltb_spec (length a + length r) (length a)); [lia|].
  rewrite firstn_app, skipn_app, firstn_all, skipn_all, Nat.sub_diag.
  cbn [firstn skipn app]. now rewrite app_nil_r.
Qed.

Lemma take_u8_app n r : (n < 256)%nat -> take_u8 (u8_of_nat n :: r) = Some (n, r).
Proof.
  intros H. unfold take_u8, u8_of_nat. rewrite byte_small by lia. now rewrite Nat2Z.id.
Qed.

Lemma take_key_app k r : take_key (key_bytes k ++ r) = Some (k, r).
Proof.
  unfold take_key. rewrite take_bytes_app by apply key_bytes_length. cbn [obind fst snd].
  now rewrite key_of_bytes.
Qed.

Lemma take_many_app {A} (read : list byte -> option (A * list byte)) (write : A -> list byte) xs r :
  (forall x s, In x xs -> read (write x ++ s) = Some (x, s)) ->
  take_many read (length xs) (flat_map write xs ++ r) = Some (xs, r).
Proof.
  induction xs as [|x xs IH]; intros H; [reflexivity|]. cbn [length take_many flat_map].
  rewrite <- app_assoc, H by now left. cbn [obind fst snd].
  rewrite IH by (intros; apply H; now right). reflexivity.
Qed.

Lemma take_list_app {A} (read : list byte -> option (A * list byte)) (write : A -> list byte) xs r :
  Z.of_nat (length xs) < 65536 ->
  (forall x s, In x xs -> read (write x ++ s) = Some (x, s)) ->
  take_list read (short_len (length xs) ++ flat_map write xs ++ r) = Some (xs, r).
Proof.
  intros L H. unfold take_list. rewrite take_short_len by exact L. cbn [obind fst snd].
  now apply take_many_app.
Qed.

Definition small_call (c : nat * list nat * list byte) : Prop :=
  let '(p, accs, data) := c in
  (p < 256)%nat /\ (forall i, In i accs -> (i < 256)%nat) /\
  Z.of_nat (length accs) < 65536 /\ Z.of_nat (length data) < 65536.

Lemma flat_map_single {A B} (f : A -> B) l : flat_map (fun x => [f x]) l = map f l.
Proof. induction l as [|x l IH]; cbn; [reflexivity|]. now f_equal. Qed.

Lemma take_call_app c r : small_call c -> take_call (call_bytes c ++ r) = Some (c, r).
Proof.
  destruct c as [[p accs] data]. intros (P & A & La & Ld). unfold call_bytes, take_call.
  rewrite <- !app_assoc. cbn [app]. rewrite take_u8_app by exact P. cbn [obind fst snd].
  rewrite <- flat_map_single.
  rewrite (take_list_app take_u8 (fun i => [u8_of_nat i])); [|exact La|].
  2:{ intros i s I. cbn [app]. apply take_u8_app. auto. }
  cbn [obind fst snd]. rewrite take_short_len by exact Ld. cbn [obind fst snd].
  rewrite take_bytes_app by reflexivity. reflexivity.
Qed.

Definition small_message (m : message) : Prop :=
  (num_signatures m < 128)%nat /\ (num_readonly_signed m < 256)%nat /\
  (num_readonly_unsigned m < 256)%nat /\
  Z.of_nat (length (msg_keys m)) < 65536 /\ Z.of_nat (length (msg_calls m)) < 65536 /\
  forall c, In c (msg_calls m) -> small_call c.

Lemma take_message_bytes m : small_message m -> take_message (message_bytes m) = Some (m, []).
Proof.
  intros (A & B & D & K & L & Q). unfold message_bytes, take_message. cbn [app].
  rewrite take_u8_app by lia. cbn [obind fst snd].
  replace (128 <=? num_signatures m)%nat with false by (symmetry; apply Nat.leb_gt; lia).
  rewrite take_u8_app by lia. cbn [obind fst snd]. rewrite take_u8_app by lia. cbn [obind fst snd].
  rewrite (take_list_app take_key key_bytes); [|exact K|intros; apply take_key_app].
  cbn [obind fst snd]. rewrite take_key_app. cbn [obind fst snd].
  rewrite <- (app_nil_r (flat_map call_bytes _)).
  rewrite (take_list_app take_call call_bytes); [|exact L|].
  2:{ intros c s I. apply take_call_app. auto. }
  cbn [obind fst snd]. now destruct m.
Qed.

(** ** Sizes *)
Lemma flat_map_length_const {A} (f : A -> list byte) l n :
  (forall x, length (f x) = n) -> length (flat_map f l) = (length l * n)%nat.
Proof.
  intros H. induction l as [|x l IH]; cbn [flat_map length]; [reflexivity|].
  rewrite app_length, IH, H. lia.
Qed.

Lemma message_length m :
  length (message_bytes m) =
  (3 + list_size (length (msg_keys m)) 32 + 32 + len_size (length (msg_calls m))
   + length (flat_map call_bytes (msg_calls m)))%nat.
Proof.
  unfold message_bytes. rewrite !app_length. rewrite !short_len_length, key_bytes_length.
  rewrite (flat_map_length_const _ _ 32%nat) by apply key_bytes_length.
  unfold list_size. cbn [length]. lia.
Qed.

Lemma call_length keys (b : built) :
  length (call_bytes (index_of keys (b_program b),
                      map (fun m => index_of keys (m_key m)) (b_accounts b), b_data b)) = call_size b.
Proof.
  unfold call_bytes, call_size, list_size. rewrite !app_length, !short_len_length, !map_length.
  cbn [length]. lia.
Qed.

Lemma calls_length keys ixs :
  length (flat_map call_bytes
    (map (fun b => (index_of keys (b_program b),
                    map (fun m => index_of keys (m_key m)) (b_accounts b), b_data b)) ixs))
  = list_sum (map call_size ixs).
Proof.
  induction ixs as [|b ixs IH]; [reflexivity|]. cbn [map flat_map].
  rewrite app_length, IH, call_length. reflexivity.
Qed.

Lemma sum_bounds ixs b : In b ixs -> (call_size b <= list_sum (map call_size ixs))%nat.
Proof.
  induction ixs as [|x ixs IH]; intros H; [destruct H|]. cbn [map list_sum fold_right].
  change (fold_right Nat.add 0%nat (map call_size ixs)) with (list_sum (map call_size ixs)).
  destruct H as [->|H]; [lia|]. specialize (IH H). lia.
Qed.
Lemma sum_count ixs : (length ixs <= list_sum (map call_size ixs))%nat.
Proof.
  induction ixs as [|x ixs IH]; [reflexivity|]. cbn [map length list_sum fold_right].
  change (fold_right Nat.add 0%nat (map call_size ixs)) with (list_sum (map call_size ixs)).
  unfold call_size at 1. lia.
Qed.
