(** The packets that the runtime accepts. *)
From Verif Require Export AcceptSpec WireRuntime.
From Verif Require Import BytesFacts LedgerFacts.
Import List ListNotations.
Open Scope list_scope.
Open Scope Z_scope.

(** ** Bytes *)
Lemma digits_short n : map Z_to_byte (length_digits (Z.of_nat n)) = short_len n.
Proof.
  unfold length_digits, short_len. cbv zeta. rewrite !(Z.add_comm 128).
  destruct (_ <? 128); [reflexivity|]. destruct (_ <? 16384); reflexivity.
Qed.
Lemma counted_is {A} (write : A -> list byte) xs : counted write xs = short_len (length xs) ++ flat_map write xs.
Proof. unfold counted. now rewrite digits_short. Qed.
Lemma counted_bytes xs : counted (fun b : byte => [b]) xs = short_len (length xs) ++ xs.
Proof. rewrite counted_is. f_equal. rewrite flat_map_single. apply map_id. Qed.
Lemma lay_call_is c : lay_call c = call_bytes c.
Proof.
  destruct c as [[p accs] data]. unfold lay_call, call_bytes, one_byte. rewrite counted_bytes, counted_is.
  rewrite (flat_map_ext _ (fun i => [u8_of_nat i])) by reflexivity. rewrite flat_map_single, <- !app_assoc. reflexivity.
Qed.
Lemma counted_ext {A} (f g : A -> list byte) xs : (forall x, f x = g x) -> counted f xs = counted g xs.
Proof. intros H. unfold counted. f_equal. apply flat_map_ext. exact H. Qed.

Definition lay_message (y : layout) : message :=
  Message (length (lay_signers y)) (length (lay_sign y)) (length (lay_rest y)) (lay_static y) (lay_hash y) (lay_calls y).
Lemma lay_bytes_is y : lay_bytes y =
  match lay_lookups y with
  | None => message_bytes (lay_message y)
  | Some lks => x80 :: message_bytes (lay_message y) ++ short_len (length lks) ++ flat_map lay_lookup lks
  end.
Proof.
  unfold lay_bytes, message_bytes, one_byte, lay_message, u8_of_nat.
  rewrite (counted_ext _ _ (lay_calls y) lay_call_is), !counted_is.
  cbn [num_signatures num_readonly_signed num_readonly_unsigned msg_keys msg_calls msg_hash].
  destruct (lay_lookups y); rewrite ?counted_is, <- ?app_assoc; cbn [app]; rewrite ?app_nil_r; reflexivity.
Qed.

(** Reading gives back what was written, and only from that. *)
Lemma byte_back b : u8_of_nat (Z.to_nat (byte_to_Z b)) = b.
Proof.
  unfold u8_of_nat. pose proof (byte_to_Z_range b). rewrite Z2Nat.id by lia. apply byte_to_Z_to_byte.
Qed.
Lemma take_u8_is d n r : take_u8 d = Some (n, r) -> d = u8_of_nat n :: r /\ (n < 256)%nat.
Proof.
  destruct d as [|b d]; [discriminate|]. cbn. intros Q. assert (Z.to_nat (byte_to_Z b) = n /\ d = r) as [<- <-] by (split; congruence).
  rewrite byte_back. split; [reflexivity|]. pose proof (byte_to_Z_range b). lia.
Qed.
Lemma take_key_is d k r : take_key d = Some (k, r) -> d = key_bytes k ++ r.
Proof.
  unfold take_key. intros H. apply obind_some in H. destruct H as ([x s] & H & Q). cbn [fst snd] in Q.
  apply take_bytes_is in H. destruct H as [L ->]. assert (key_of x = k /\ s = r) as [<- <-] by (split; congruence).
  now rewrite key_bytes_key_of.
Qed.
Lemma take_short_back d n r : take_short d = Some (n, r) -> d = short_len n ++ r /\ Z.of_nat n < 65536.
Proof.
  unfold take_short, short_len. destruct d as [|a d]; [discriminate|]. cbv zeta.
  pose proof (byte_to_Z_range a) as Ra.
  destruct (Z.ltb_spec (byte_to_Z a) 128) as [La|La].
  { intros Q. assert (Z.to_nat (byte_to_Z a) = n /\ d = r) as [<- <-] by (split; congruence).
    rewrite Z2Nat.id by lia. destruct (Z.ltb_spec (byte_to_Z a) 128); [|lia].
    rewrite byte_to_Z_to_byte. split; [reflexivity|lia]. }
  destruct d as [|b d]; [discriminate|]. pose proof (byte_to_Z_range b) as Rb.
  destruct (Z.eqb_spec (byte_to_Z b) 0) as [|Nb]; [discriminate|].
  assert (Da : (byte_to_Z a - 128) mod 128 = byte_to_Z a - 128) by (apply Z.mod_small; lia).
  destruct (Z.ltb_spec (byte_to_Z b) 128) as [Lb|Lb].
  { intros Q. assert (Z.to_nat (byte_to_Z a - 128 + 128 * byte_to_Z b) = n /\ d = r) as [<- <-] by (split; congruence).
    rewrite Z2Nat.id by lia. set (z := byte_to_Z a - 128 + 128 * byte_to_Z b).
    destruct (Z.ltb_spec z 128); [lia|]. destruct (Z.ltb_spec z 16384); [|lia].
    replace (z mod 128) with (byte_to_Z a - 128).
    2:{ unfold z. rewrite Z.mul_comm, Z.mod_add by lia. now symmetry. }
    replace (z / 128) with (byte_to_Z b).
    2:{ unfold z. rewrite Z.mul_comm, Z.div_add by lia. rewrite Z.div_small by lia. lia. }
    replace (byte_to_Z a - 128 + 128) with (byte_to_Z a) by lia. rewrite !byte_to_Z_to_byte. split; [reflexivity|lia]. }
  destruct d as [|c d]; [discriminate|]. pose proof (byte_to_Z_range c) as Rc.
  destruct (Z.eqb_spec (byte_to_Z c) 0) as [|Nc]; [discriminate|]. destruct (Z.ltb_spec 3 (byte_to_Z c)) as [|Lc]; [discriminate|].
  cbn [orb]. intros Q.
  assert (Z.to_nat (byte_to_Z a - 128 + 128 * (byte_to_Z b - 128) + 16384 * byte_to_Z c) = n /\ d = r) as [<- <-] by (split; congruence).
  rewrite Z2Nat.id by lia. set (z := byte_to_Z a - 128 + 128 * (byte_to_Z b - 128) + 16384 * byte_to_Z c).
  destruct (Z.ltb_spec z 128); [lia|]. destruct (Z.ltb_spec z 16384); [lia|].
  assert (Z1 : z = byte_to_Z a - 128 + (byte_to_Z b - 128 + byte_to_Z c * 128) * 128) by (unfold z; lia).
  replace (z mod 128) with (byte_to_Z a - 128).
  2:{ rewrite Z1, Z.mod_add by lia. now symmetry. }
  assert (Z2 : z / 128 = byte_to_Z b - 128 + byte_to_Z c * 128).
  { rewrite Z1, Z.div_add by lia. rewrite Z.div_small by lia. lia. }
  assert (Z3 : (z / 128) mod 128 = byte_to_Z b - 128).
  { rewrite Z2, Z.mod_add by lia. apply Z.mod_small. lia. }
  assert (Z4 : z / 16384 = byte_to_Z c).
  { change 16384 with (128 * 128). rewrite <- Z.div_div by lia. rewrite Z2, Z.div_add by lia. rewrite Z.div_small by lia. lia. }
  rewrite Z3, Z4. replace (byte_to_Z a - 128 + 128) with (byte_to_Z a) by lia.
  replace (byte_to_Z b - 128 + 128) with (byte_to_Z b) by lia. rewrite !byte_to_Z_to_byte. split; [reflexivity|lia].
Qed.
Lemma take_many_back {A} (read : list byte -> option (A * list byte)) (write : A -> list byte) (P : A -> Prop) :
  (forall d x r, read d = Some (x, r) -> d = write x ++ r /\ P x) ->
  forall n d xs r, take_many read n d = Some (xs, r) -> d = flat_map write xs ++ r /\ Forall P xs /\ length xs = n.
Proof.
  intros H. induction n as [|n IH]; intros d xs r Q; cbn [take_many] in Q.
  - assert ([] = xs /\ d = r) as [<- <-] by (split; congruence). auto.
  - apply obind_some in Q. destruct Q as ([x s] & Q1 & Q). cbn [fst snd] in Q.
    apply obind_some in Q. destruct Q as ([ys t] & Q2 & Q). cbn [fst snd] in Q.
    assert (x :: ys = xs /\ t = r) as [<- <-] by (split; congruence).
    apply H in Q1. destruct Q1 as [-> Px]. apply IH in Q2. destruct Q2 as (-> & F & L).
    cbn [flat_map length]. rewrite <- app_assoc. auto.
Qed.
Lemma take_list_back {A} (read : list byte -> option (A * list byte)) (write : A -> list byte) (P : A -> Prop) :
  (forall d x r, read d = Some (x, r) -> d = write x ++ r /\ P x) ->
  forall d xs r, take_list read d = Some (xs, r) -> d = short_len (length xs) ++ flat_map write xs ++ r /\ Forall P xs.
Proof.
  intros H d xs r Q. unfold take_list in Q. apply obind_some in Q. destruct Q as ([n s] & Q1 & Q). cbn [fst snd] in Q.
  apply take_short_back in Q1. destruct Q1 as [-> _].
  apply (take_many_back _ _ _ H) in Q. destruct Q as (-> & F & <-). auto.
Qed.
Lemma take_indices_back d xs r : take_list take_u8 d = Some (xs, r) ->
  d = short_len (length xs) ++ map u8_of_nat xs ++ r /\ Forall (fun i => (i < 256)%nat) xs.
Proof.
  intros H. rewrite <- (flat_map_single u8_of_nat). revert H. apply take_list_back. intros d' x r' Q. now apply take_u8_is in Q.
Qed.
Lemma take_call_back d c r : take_call d = Some (c, r) -> d = call_bytes c ++ r.
Proof.
  unfold take_call. intros H. apply obind_some in H. destruct H as ([p d1] & H1 & H). cbn [fst snd] in H.
  apply obind_some in H. destruct H as ([accs d2] & H2 & H). cbn [fst snd] in H.
  apply obind_some in H. destruct H as ([n d3] & H3 & H). cbn [fst snd] in H.
  apply obind_some in H. destruct H as ([data d4] & H4 & H). cbn [fst snd] in H.
  assert ((p, accs, data) = c /\ d4 = r) as [<- <-] by (split; congruence).
  apply take_u8_is in H1. destruct H1 as [-> _]. apply take_indices_back in H2. destruct H2 as [-> _].
  apply take_short_back in H3. destruct H3 as [-> _]. apply take_bytes_is in H4. destruct H4 as [<- ->].
  unfold call_bytes. rewrite <- !app_assoc. reflexivity.
Qed.
Lemma take_lookup_back d x r : take_lookup d = Some (x, r) ->
  d = lay_lookup x ++ r /\ Forall (fun i => (i < 256)%nat) (lk_writable x ++ lk_readonly x).
Proof.
  unfold take_lookup. intros H. apply obind_some in H. destruct H as ([k d1] & H1 & H). cbn [fst snd] in H.
  apply obind_some in H. destruct H as ([w d2] & H2 & H). cbn [fst snd] in H.
  apply obind_some in H. destruct H as ([o d3] & H3 & H). cbn [fst snd] in H.
  assert (Lookup k w o = x /\ d3 = r) as [<- <-] by (split; congruence).
  apply take_key_is in H1. subst d. apply take_indices_back in H2. destruct H2 as [-> F2].
  apply take_indices_back in H3. destruct H3 as [-> F3].
  unfold lay_lookup. cbn [lk_table lk_writable lk_readonly]. rewrite !counted_is. unfold one_byte.
  rewrite !(flat_map_single u8_of_nat). rewrite <- !app_assoc. split; [reflexivity|]. apply Forall_app. auto.
Qed.
Lemma take_keys_back d ks r : take_list take_key d = Some (ks, r) -> d = short_len (length ks) ++ flat_map key_bytes ks ++ r.
Proof.
  intros H. apply (take_list_back take_key key_bytes (fun _ => True)) in H; [tauto|].
  intros d' x r' Q. apply take_key_is in Q. auto.
Qed.
Lemma take_calls_back d cs r : take_list take_call d = Some (cs, r) -> d = short_len (length cs) ++ flat_map call_bytes cs ++ r.
Proof.
  intros H. apply (take_list_back take_call call_bytes (fun _ => True)) in H; [tauto|].
  intros d' x r' Q. apply take_call_back in Q. auto.
Qed.
Lemma take_message_back d m : take_message d = Some (m, []) -> d = message_bytes m.
Proof.
  unfold take_message. intros H. apply obind_some in H. destruct H as ([a d1] & H1 & H). cbn [fst snd] in H.
  destruct (128 <=? a)%nat; [discriminate|].
  apply obind_some in H. destruct H as ([b d2] & H2 & H). cbn [fst snd] in H.
  apply obind_some in H. destruct H as ([c d3] & H3 & H). cbn [fst snd] in H.
  apply obind_some in H. destruct H as ([ks d4] & H4 & H). cbn [fst snd] in H.
  apply obind_some in H. destruct H as ([h d5] & H5 & H). cbn [fst snd] in H.
  apply obind_some in H. destruct H as ([cs d6] & H6 & H). cbn [fst snd] in H.
  assert (Message a b c ks h cs = m /\ d6 = []) as [<- ->] by (split; congruence).
  apply take_u8_is in H1. destruct H1 as [-> _]. apply take_u8_is in H2. destruct H2 as [-> _].
  apply take_u8_is in H3. destruct H3 as [-> _]. apply take_keys_back in H4. subst d3.
  apply take_key_is in H5. subst d4. apply take_calls_back in H6. subst d5.
  unfold message_bytes. cbn [app num_signatures num_readonly_signed num_readonly_unsigned msg_keys msg_calls msg_hash].
  rewrite <- ?app_assoc, app_nil_r. reflexivity.
Qed.
Lemma take_message_v0_back d m lks : take_message_v0 d = Some ((m, lks), []) ->
  d = x80 :: message_bytes m ++ short_len (length lks) ++ flat_map lay_lookup lks /\
  Forall (fun x => Forall (fun i => (i < 256)%nat) (lk_writable x ++ lk_readonly x)) lks.
Proof.
  unfold take_message_v0. intros H. apply obind_some in H. destruct H as ([v d0] & H0 & H). cbn [fst snd] in H.
  destruct (Nat.eqb_spec v 128) as [->|]; [|discriminate]. cbn [negb] in H.
  apply obind_some in H. destruct H as ([a d1] & H1 & H). cbn [fst snd] in H.
  apply obind_some in H. destruct H as ([b d2] & H2 & H). cbn [fst snd] in H.
  apply obind_some in H. destruct H as ([c d3] & H3 & H). cbn [fst snd] in H.
  apply obind_some in H. destruct H as ([ks d4] & H4 & H). cbn [fst snd] in H.
  apply obind_some in H. destruct H as ([h d5] & H5 & H). cbn [fst snd] in H.
  apply obind_some in H. destruct H as ([cs d6] & H6 & H). cbn [fst snd] in H.
  apply obind_some in H. destruct H as ([ls d7] & H7 & H). cbn [fst snd] in H.
  assert (Message a b c ks h cs = m /\ ls = lks /\ d7 = []) as (<- & -> & ->) by (repeat split; congruence).
  apply take_u8_is in H0. destruct H0 as [-> _].
  apply take_u8_is in H1. destruct H1 as [-> _]. apply take_u8_is in H2. destruct H2 as [-> _].
  apply take_u8_is in H3. destruct H3 as [-> _]. apply take_keys_back in H4. subst d3.
  apply take_key_is in H5. subst d4. apply take_calls_back in H6. subst d5.
  apply (take_list_back take_lookup lay_lookup _ take_lookup_back) in H7. destruct H7 as [-> F]. split; [|exact F].
  unfold message_bytes. cbn [app num_signatures num_readonly_signed num_readonly_unsigned msg_keys msg_calls msg_hash].
  rewrite <- ?app_assoc, app_nil_r. reflexivity.
Qed.

(** ** Sizes *)
Lemma in_flat_length {A} (f : A -> list byte) xs x : In x xs -> (length (f x) <= length (flat_map f xs))%nat.
Proof.
  induction xs as [|y xs IH]; intros [].
  - subst. cbn [flat_map]. rewrite app_length. lia.
  - cbn [flat_map]. rewrite app_length. specialize (IH H). lia.
Qed.
Lemma len_size_least n : (1 <= len_size n)%nat.
Proof. unfold len_size. destruct (_ <? 128); [lia|]. destruct (_ <? 16384); lia. Qed.
Lemma flat_map_least {A} (f : A -> list byte) xs : (forall x, (1 <= length (f x))%nat) -> (length xs <= length (flat_map f xs))%nat.
Proof.
  intros H. induction xs as [|x xs IH]; cbn [flat_map length]; [lia|]. rewrite app_length. specialize (H x). lia.
Qed.
Lemma call_least c : (1 <= length (call_bytes c))%nat.
Proof. destruct c as [[p accs] data]. unfold call_bytes. rewrite !app_length. cbn [length]. lia. Qed.
Lemma lookup_least x : (1 <= length (lay_lookup x))%nat.
Proof. unfold lay_lookup. rewrite !app_length, key_bytes_length. lia. Qed.

Lemma message_small m n : (length (message_bytes m) <= 1232)%nat -> (n <= 256)%nat ->
  (num_signatures m < 128)%nat -> (num_readonly_signed m < 256)%nat -> (num_readonly_unsigned m < 256)%nat ->
  Forall (fun c => let '(p, accs, _) := c in (p < n)%nat /\ Forall (fun i => (i < n)%nat) accs) (msg_calls m) ->
  small_message m.
Proof.
  intros L N A B D F. rewrite message_length in L.
  assert (Lk : (length (msg_keys m) <= 1232)%nat) by (unfold list_size in L; lia).
  assert (Lc : (length (msg_calls m) <= 1232)%nat).
  { pose proof (flat_map_least call_bytes (msg_calls m) call_least). lia. }
  split; [exact A|]. split; [exact B|]. split; [exact D|]. split; [lia|]. split; [lia|].
  intros c I. pose proof (in_flat_length call_bytes _ _ I) as Lz. set (fm := flat_map call_bytes (msg_calls m)) in *. rewrite Forall_forall in F. specialize (F c I).
  destruct c as [[p accs] data]. destruct F as [F1 F2]. rewrite Forall_forall in F2.
  unfold call_bytes in Lz. rewrite !app_length, map_length in Lz. cbn [length] in Lz.
  split; [lia|]. split; [|lia]. intros i J. specialize (F2 i J). lia.
Qed.

(** ** Lookups *)
Lemma find_keys_iff table : forall is ks, find_keys table is = Some ks <-> Forall2 (fun i k => nth_error table i = Some k) is ks.
Proof.
  induction is as [|i is IH]; intros ks; cbn [find_keys].
  - split; [intros Q; assert ([] = ks) as <- by congruence; constructor|intros H; now inversion H].
  - split.
    + intros H. apply obind_some in H. destruct H as (k & Hk & H). apply obind_some in H. destruct H as (r & Hr & H).
      assert (k :: r = ks) as <- by congruence. constructor; [exact Hk|now apply IH].
    + intros H. inversion H as [|? k ? r Hk Hr]; subst. rewrite Hk. cbn [obind]. apply IH in Hr. now rewrite Hr.
Qed.
Lemma load_keys_iff tables indices : forall lks ks, load_keys tables indices lks = Some ks <-> yields tables indices lks ks.
Proof.
  induction lks as [|x lks IH]; intros ks; cbn [load_keys].
  - split.
    + intros Q. assert ([] = ks) as <- by congruence. exists []. split; [reflexivity|constructor].
    + intros (kss & -> & H). now inversion H.
  - split.
    + intros H. apply obind_some in H. destruct H as (k & Hk & H). apply obind_some in H. destruct H as (r & Hr & H).
      assert (k ++ r = ks) as <- by congruence. apply find_keys_iff in Hk. apply IH in Hr. destruct Hr as (kss & -> & F).
      exists (k :: kss). split; [reflexivity|now constructor].
    + intros (kss & -> & H). inversion H as [|? k ? r Hk Hr]; subst. apply find_keys_iff in Hk. rewrite Hk. cbn [obind].
      rewrite (proj2 (IH (concat r))); [reflexivity|]. now exists r.
Qed.

(** ** Privileges *)
Lemma nth_in_middle (p q r : list pubkey) i : NoDup (p ++ q ++ r) -> (i < length (p ++ q ++ r))%nat ->
  In (nth i (p ++ q ++ r) zero_key) q <-> (length p <= i < length p + length q)%nat.
Proof.
  intros N L. split.
  - intros I. apply (In_nth _ _ zero_key) in I. destruct I as (j & J & Q).
    assert (E : i = (length p + j)%nat); [|lia].
    apply (proj1 (NoDup_nth _ zero_key) N); [exact L|rewrite !app_length; lia|].
    rewrite <- Q. rewrite app_nth2 by lia. rewrite app_nth1 by lia. f_equal. lia.
  - intros H. rewrite app_nth2 by lia. rewrite app_nth1 by lia. apply nth_In. lia.
Qed.
Lemma nth_error_nth_iff (ks : list pubkey) i k : (i < length ks)%nat -> nth_error ks i = Some k <-> k = nth i ks zero_key.
Proof.
  intros L. rewrite (nth_error_nth' ks zero_key L). split; congruence.
Qed.

Definition lay_loaded (y : layout) : loaded := Loaded (lay_message y) (lay_loaded_write y) (lay_loaded_rest y).
Lemma lay_keys_is y : lo_keys (lay_loaded y) = lay_all y.
Proof. reflexivity. Qed.

Lemma signer_means y i : NoDup (lay_all y) -> (i < length (lay_all y))%nat ->
  signer_at (lay_message y) i = true <-> In (nth i (lay_all y) zero_key) (lay_signers y).
Proof.
  intros N L. assert (Q : lay_all y = [] ++ lay_signers y ++ (lay_write y ++ lay_rest y ++ lay_loaded_write y ++ lay_loaded_rest y)).
  { unfold lay_all, lay_static, lay_signers. rewrite <- !app_assoc. reflexivity. }
  rewrite Q in N, L |- *. rewrite (nth_in_middle _ _ _ _ N L).
  unfold signer_at. cbn [num_signatures lay_message length]. rewrite Nat.ltb_lt. lia.
Qed.
Lemma both_means y i : NoDup (lay_all y) -> (i < length (lay_all y))%nat ->
  In (nth i (lay_all y) zero_key) (lay_both y) <-> (i < length (lay_both y))%nat.
Proof.
  intros N L. assert (Q : lay_all y = [] ++ lay_both y ++ (lay_sign y ++ lay_write y ++ lay_rest y ++ lay_loaded_write y ++ lay_loaded_rest y)).
  { unfold lay_all, lay_static. rewrite <- !app_assoc. reflexivity. }
  rewrite Q in N, L |- *. rewrite (nth_in_middle _ _ _ _ N L). cbn [length]. lia.
Qed.
Lemma write_means y i : NoDup (lay_all y) -> (i < length (lay_all y))%nat ->
  In (nth i (lay_all y) zero_key) (lay_write y) <->
  (length (lay_signers y) <= i < length (lay_signers y) + length (lay_write y))%nat.
Proof.
  intros N L. assert (Q : lay_all y = lay_signers y ++ lay_write y ++ (lay_rest y ++ lay_loaded_write y ++ lay_loaded_rest y)).
  { unfold lay_all, lay_static, lay_signers. rewrite <- !app_assoc. reflexivity. }
  rewrite Q in N, L |- *. apply (nth_in_middle _ _ _ _ N L).
Qed.
Lemma loaded_means y i : NoDup (lay_all y) -> (i < length (lay_all y))%nat ->
  In (nth i (lay_all y) zero_key) (lay_loaded_write y) <->
  (length (lay_static y) <= i < length (lay_static y) + length (lay_loaded_write y))%nat.
Proof. intros N L. exact (nth_in_middle (lay_static y) (lay_loaded_write y) (lay_loaded_rest y) i N L). Qed.

Definition calls_in (y : layout) : Prop :=
  Forall (fun c => let '(program, accounts, _) := c in
    (0 < program < length (lay_static y))%nat /\ Forall (fun i => (i < length (lay_all y))%nat) accounts) (lay_calls y).

Lemma called_means y i : NoDup (lay_all y) -> (i < length (lay_all y))%nat -> calls_in y ->
  existsb (fun c => (fst (fst c) =? i)%nat) (lay_calls y) = true <-> lay_called y (nth i (lay_all y) zero_key).
Proof.
  intros N L F. unfold calls_in in F. rewrite Forall_forall in F. rewrite existsb_exists. unfold lay_called. split.
  - intros (c & I & Q). apply Nat.eqb_eq in Q. exists c. split; [exact I|]. specialize (F c I).
    destruct c as [[p accs] data]. cbn [fst] in *. subst i. destruct F as [F _].
    unfold lay_all. rewrite app_nth1 by lia. now apply nth_error_nth_iff.
  - intros (c & I & Q). exists c. split; [exact I|]. specialize (F c I).
    destruct c as [[p accs] data]. cbn [fst] in *. destruct F as [F _].
    apply nth_error_nth_iff in Q; [|lia]. apply Nat.eqb_eq.
    apply (proj1 (NoDup_nth _ zero_key) N); [unfold lay_all; rewrite app_length; lia|exact L|].
    rewrite Q. unfold lay_all at 1. now rewrite app_nth1 by lia.
Qed.

Lemma writable_means reserved y i : NoDup (lay_all y) -> (i < length (lay_all y))%nat -> calls_in y ->
  let k := nth i (lay_all y) zero_key in
  lo_writable_at reserved (lay_loaded y) i = true <->
  In k (lay_writers y) /\ reserved k = false /\ (lay_called y k -> In upgradeable_loader (lay_all y)).
Proof.
  intros N L F k. unfold lo_writable_at. cbv zeta. unfold lo_key_at. rewrite lay_keys_is. fold k.
  cbn [lay_loaded lo_message lo_writable lay_message num_signatures num_readonly_signed num_readonly_unsigned msg_keys msg_calls].
  rewrite !andb_true_iff, !orb_true_iff, !andb_true_iff, !negb_true_iff, !Nat.ltb_lt, !Nat.leb_le.
  pose proof (called_means y i N L F) as CM. fold k in CM. rewrite <- CM. clear CM. unfold lay_writers. rewrite !in_app_iff.
  unfold k. rewrite both_means, write_means, loaded_means by assumption. fold k.
  assert (E1 : (length (lay_signers y) - length (lay_sign y) = length (lay_both y))%nat)
    by (unfold lay_signers; rewrite app_length; lia).
  assert (E2 : (length (lay_static y) - length (lay_rest y) = length (lay_signers y) + length (lay_write y))%nat)
    by (unfold lay_static, lay_signers; rewrite !app_length; lia).
  rewrite E1, E2.
  assert (U : existsb (key_eqb upgradeable_loader) (lay_all y) = true <-> In upgradeable_loader (lay_all y)).
  { rewrite existsb_exists. split; [intros (x & I & Q); apply key_eqb_true in Q; now subst|].
    intros I. exists upgradeable_loader. split; [exact I|apply key_eqb_refl]. }
  assert (V : existsb (fun c => (fst (fst c) =? i)%nat) (lay_calls y) && negb (existsb (key_eqb upgradeable_loader) (lay_all y)) = false <->
    (existsb (fun c => (fst (fst c) =? i)%nat) (lay_calls y) = true -> In upgradeable_loader (lay_all y))).
  { rewrite <- U. destruct (existsb _ (lay_calls y)), (existsb _ (lay_all y)); cbn; intuition congruence. }
  rewrite V. clear. tauto.
Qed.

(** The instructions, as computed. *)
Lemma account_means reserved y i m : NoDup (lay_all y) -> (i < length (lay_all y))%nat -> calls_in y ->
  nth_error (lay_all y) i = Some (m_key m) /\
  (m_signer m = true <-> In (m_key m) (lay_signers y)) /\
  (m_writable m = true <-> In (m_key m) (lay_writers y) /\ reserved (m_key m) = false /\
     (lay_called y (m_key m) -> In upgradeable_loader (lay_all y))) <->
  m = Meta (lo_key_at (lay_loaded y) i) (signer_at (lay_message y) i) (lo_writable_at reserved (lay_loaded y) i).
Proof.
  intros N L F. rewrite (nth_error_nth_iff _ _ _ L). unfold lo_key_at. rewrite lay_keys_is.
  pose proof (signer_means y i N L) as S. pose proof (writable_means reserved y i N L F) as W. cbv zeta in W.
  destruct m as [k s w]. cbn [m_key m_signer m_writable]. split.
  - intros (-> & Hs & Hw). f_equal; apply eq_true_iff_eq; [rewrite Hs, S|rewrite Hw, W]; tauto.
  - intros Q. assert (k = nth i (lay_all y) zero_key /\ s = signer_at (lay_message y) i /\
      w = lo_writable_at reserved (lay_loaded y) i) as (-> & -> & ->) by (repeat split; congruence). auto.
Qed.

Lemma forall2_map {A B} (P : A -> B -> Prop) (f : A -> B) xs : forall ys,
  (forall x y, In x xs -> P x y <-> y = f x) -> Forall2 P xs ys <-> ys = map f xs.
Proof.
  induction xs as [|x xs IH]; intros ys H; cbn [map].
  - split; [intros F; now inversion F|intros ->; constructor].
  - split.
    + intros F. inversion F as [|? y ? ys' Hy Hys]; subst. apply H in Hy; [|now left]. f_equal; [exact Hy|].
      apply IH; [intros; apply H; now right|assumption].
    + intros ->. constructor; [apply H; [now left|reflexivity]|]. apply IH; [intros; apply H; now right|reflexivity].
Qed.

Lemma lay_means_iff reserved y got : NoDup (lay_all y) -> calls_in y ->
  lay_means reserved y got <-> got = map (loaded_call reserved (lay_loaded y)) (lay_calls y).
Proof.
  intros N F. unfold lay_means. apply forall2_map. intros c b I.
  pose proof F as F'. unfold calls_in in F'. rewrite Forall_forall in F'. specialize (F' c I).
  destruct c as [[p accs] data]. destruct F' as [Fp Fa]. rewrite Forall_forall in Fa.
  rewrite (nth_error_nth_iff (lay_static y)) by lia.
  rewrite (forall2_map _ (fun i => Meta (lo_key_at (lay_loaded y) i) (signer_at (lay_message y) i) (lo_writable_at reserved (lay_loaded y) i)))
    by (intros i m J; apply account_means; auto).
  unfold loaded_call. assert (K : lo_key_at (lay_loaded y) p = nth p (lay_static y) zero_key).
  { unfold lo_key_at. rewrite lay_keys_is. unfold lay_all. now rewrite app_nth1 by lia. }
  rewrite K. destruct b as [bp ba bd]. cbn [b_program b_accounts b_data]. split.
  - intros (-> & -> & ->). reflexivity.
  - intros Q. split; [exact (f_equal b_program Q)|]. split; [exact (f_equal b_data Q)|exact (f_equal b_accounts Q)].
Qed.

(** ** The checks *)
Lemma distinct_iff ks : distinct_keys ks = true <-> NoDup ks.
Proof.
  split; [apply distinct_nodup|]. induction 1 as [|k ks N H IH]; [reflexivity|]. cbn. rewrite IH, andb_true_r.
  apply negb_true_iff. apply not_true_iff_false. rewrite existsb_exists. intros (x & I & Q).
  apply key_eqb_true in Q. now subst.
Qed.
Lemma nonempty_length {A} (xs : list A) : xs <> [] <-> (0 < length xs)%nat.
Proof. destruct xs; cbn [length]; split; intros; try lia; congruence. Qed.
Lemma calls_in_iff y :
  forallb (fun c => let '(p, accs, _) := c in
    (p <? length (lay_static y))%nat && negb (p =? 0)%nat && forallb (fun i => (i <? length (lay_all y))%nat) accs)
    (lay_calls y) = true <-> calls_in y.
Proof.
  unfold calls_in. rewrite forallb_forall, Forall_forall. split; intros H c I; specialize (H c I); destruct c as [[p accs] data].
  - rewrite !andb_true_iff, forallb_forall, Nat.ltb_lt, negb_true_iff, Nat.eqb_neq in H. destruct H as [H1 H2].
    split; [lia|]. rewrite Forall_forall. intros i J. apply Nat.ltb_lt. auto.
  - destruct H as [H1 H2]. rewrite !andb_true_iff, forallb_forall, Nat.ltb_lt, negb_true_iff, Nat.eqb_neq.
    split; [lia|]. rewrite Forall_forall in H2. intros i J. apply Nat.ltb_lt. auto.
Qed.
Lemma header_facts y :
  (length (lay_signers y) + length (lay_rest y) <= length (lay_static y))%nat /\
  ((length (lay_sign y) < length (lay_signers y))%nat <-> lay_both y <> []).
Proof.
  rewrite nonempty_length. unfold lay_signers, lay_static. rewrite !app_length. lia.
Qed.
Lemma sane_v0_iff n lks y : sane_v0 n lks (lay_loaded y) = true <->
  n = length (lay_signers y) /\ lay_both y <> [] /\ Forall (fun x => lk_writable x ++ lk_readonly x <> []) lks /\
  (length (lay_all y) <= 256)%nat /\ calls_in y /\ NoDup (lay_all y).
Proof.
  unfold sane_v0. cbv zeta. rewrite lay_keys_is.
  cbn [lay_loaded lo_message lay_message num_signatures num_readonly_signed num_readonly_unsigned msg_keys msg_calls].
  rewrite !andb_true_iff, distinct_iff, calls_in_iff, Nat.eqb_eq, !Nat.leb_le, Nat.ltb_lt.
  destruct (header_facts y) as [H1 H2]. rewrite H2.
  assert (Q : forallb (fun x => negb (length (lk_writable x) + length (lk_readonly x) =? 0)%nat) lks = true <->
    Forall (fun x => lk_writable x ++ lk_readonly x <> []) lks).
  { rewrite forallb_forall, Forall_forall. split; intros H x I; specialize (H x I).
    - apply nonempty_length. rewrite app_length. apply negb_true_iff, Nat.eqb_neq in H. lia.
    - apply nonempty_length in H. rewrite app_length in H. apply negb_true_iff, Nat.eqb_neq. lia. }
  rewrite Q. tauto.
Qed.
Lemma unloaded y : lay_loaded_write y = [] -> lay_loaded_rest y = [] -> lay_all y = lay_static y.
Proof. intros W R. unfold lay_all. now rewrite W, R, !app_nil_r. Qed.
Lemma sane_iff n y : lay_loaded_write y = [] -> lay_loaded_rest y = [] -> sane n (lay_message y) = true <->
  n = length (lay_signers y) /\ lay_both y <> [] /\ calls_in y /\ NoDup (lay_all y).
Proof.
  intros W R. unfold sane. cbv zeta.
  cbn [lay_message num_signatures num_readonly_signed num_readonly_unsigned msg_keys msg_calls].
  rewrite <- calls_in_iff, (unloaded y W R).
  rewrite !andb_true_iff, distinct_iff, Nat.eqb_eq, Nat.leb_le, Nat.ltb_lt.
  destruct (header_facts y) as [H1 H2]. rewrite H2. tauto.
Qed.
Lemma received_loaded reserved y c : lay_loaded_write y = [] -> lay_loaded_rest y = [] ->
  received_call reserved (lay_message y) c = loaded_call reserved (lay_loaded y) c.
Proof.
  intros W R. destruct c as [[p accs] data]. unfold received_call, loaded_call, key_at, lo_key_at.
  rewrite lay_keys_is, (unloaded y W R). cbn [lay_message msg_keys]. f_equal. apply map_ext. intros i. f_equal.
  unfold writable_at, lo_writable_at, key_at, lo_key_at. cbv zeta. rewrite lay_keys_is, (unloaded y W R).
  cbn [lay_loaded lo_message lo_writable lay_message num_signatures num_readonly_signed num_readonly_unsigned msg_keys msg_calls].
  rewrite W. cbn [length]. rewrite Nat.add_0_r.
  replace ((length (lay_static y) <=? i)%nat && (i <? length (lay_static y))%nat) with false; [now rewrite orb_false_r|].
  symmetry. apply andb_false_iff. destruct (Nat.leb_spec (length (lay_static y)) i); [right; apply Nat.ltb_ge; lia|now left].
Qed.
Lemma signed_by_iff verify d : forall ks sigs,
  signed_by verify d ks sigs = true <-> Forall2 (fun k s => verify k d s = true) ks sigs.
Proof.
  induction ks as [|k ks IH]; intros [|s sigs]; cbn [signed_by]; try (split; [discriminate|intros H; inversion H]).
  - split; [constructor|reflexivity].
  - rewrite andb_true_iff, IH. split; [intros []; now constructor|intros H; inversion H; auto].
Qed.
Lemma sigs_read sigs msg : (length sigs < 256)%nat -> Forall (fun s => length s = 64%nat) sigs ->
  take_list (take_bytes 64) (counted (fun s => s) sigs ++ msg) = Some (sigs, msg).
Proof.
  intros L F. rewrite counted_is, <- app_assoc. apply (take_list_app (take_bytes 64) (fun s => s)); [lia|].
  intros x s I. rewrite Forall_forall in F. apply take_bytes_app. auto.
Qed.
Lemma sigs_back d sigs msg : take_list (take_bytes 64) d = Some (sigs, msg) ->
  d = counted (fun s => s) sigs ++ msg /\ Forall (fun s => length s = 64%nat) sigs.
Proof.
  intros H. rewrite counted_is, <- app_assoc. revert H.
  apply (take_list_back (take_bytes 64) (fun s => s) (fun s => length s = 64%nat)).
  intros d' x r Q. apply take_bytes_is in Q. tauto.
Qed.

(** Every message is that of a layout. *)
Lemma split_keys (ks : list pubkey) a b c : (b <= a)%nat -> (a + c <= length ks)%nat ->
  exists k1 k2 k3 k4, ks = k1 ++ k2 ++ k3 ++ k4 /\ length (k1 ++ k2) = a /\ length k2 = b /\ length k4 = c.
Proof.
  intros B Cc. exists (firstn (a - b) ks), (firstn b (skipn (a - b) ks)), (firstn (length ks - c - a) (skipn a ks)), (skipn (length ks - c) ks).
  split; [|rewrite app_length, !firstn_length, !skipn_length; lia].
  assert (E1 : skipn a ks = skipn b (skipn (a - b) ks)) by (rewrite skipn_skipn'; f_equal; lia).
  assert (E2 : skipn (length ks - c) ks = skipn (length ks - c - a) (skipn a ks)) by (rewrite skipn_skipn'; f_equal; lia).
  rewrite E2, firstn_skipn, E1, firstn_skipn. now rewrite firstn_skipn.
Qed.
Lemma message_layout m o w r :
  (num_readonly_signed m <= num_signatures m)%nat ->
  (num_signatures m + num_readonly_unsigned m <= length (msg_keys m))%nat ->
  exists y, lay_message y = m /\ lay_lookups y = o /\ lay_loaded_write y = w /\ lay_loaded_rest y = r.
Proof.
  intros B Cc. destruct (split_keys _ _ _ _ B Cc) as (k1 & k2 & k3 & k4 & Q & L1 & L2 & L3).
  exists (Layout o k1 k2 k3 k4 (msg_hash m) (msg_calls m) w r). split; [|auto].
  unfold lay_message, lay_signers, lay_static.
  cbn [lay_both lay_sign lay_write lay_rest lay_hash lay_calls]. rewrite <- Q, L1, L2, L3. now destruct m.
Qed.

Lemma packet_bytes_length sigs (msg : list byte) : (64 * length sigs <= length (concat sigs))%nat ->
  (length (counted (fun s => s) sigs ++ msg) <= 1232)%nat ->
  (length sigs <= 19)%nat /\ (length msg <= 1232)%nat.
Proof.
  intros S L. rewrite counted_is, !app_length, flat_map_concat_map, map_id, short_len_length in L. lia.
Qed.
Lemma concat_64 (sigs : list (list byte)) : Forall (fun s => length s = 64%nat) sigs -> (length (concat sigs) = 64 * length sigs)%nat.
Proof.
  induction 1 as [|s sigs E F IH]; [reflexivity|]. cbn [concat length]. rewrite app_length, IH, E. lia.
Qed.
Lemma signed_lengths {A} (P : A -> list byte -> Prop) ks sigs :
  Forall2 (fun k s => length s = 64%nat /\ P k s) ks sigs <->
  Forall (fun s => length s = 64%nat) sigs /\ Forall2 P ks sigs.
Proof.
  split.
  - induction 1 as [|k s ks sigs [L H] F [IH1 IH2]]; [split; constructor|]. split; now constructor.
  - intros [F1 F2]. induction F2 as [|k s ks sigs H F IH]; [constructor|]. inversion F1; subst. constructor; auto.
Qed.
Lemma signers_first y : firstn (num_signatures (lay_message y)) (msg_keys (lay_message y)) = lay_signers y.
Proof.
  cbn [lay_message num_signatures msg_keys]. unfold lay_static, lay_signers. rewrite app_assoc.
  rewrite firstn_app, Nat.sub_diag, firstn_O, app_nil_r. apply firstn_all.
Qed.

Lemma lay_small y : (length (message_bytes (lay_message y)) <= 1232)%nat -> (length (lay_signers y) <= 19)%nat ->
  (length (lay_all y) <= 256)%nat -> lay_both y <> [] -> calls_in y -> small_message (lay_message y).
Proof.
  intros L S N B F. apply message_small with (length (lay_all y)); auto.
  - cbn [lay_message num_signatures]. lia.
  - cbn [lay_message num_readonly_signed]. unfold lay_signers in S. rewrite app_length in S. lia.
  - cbn [lay_message num_readonly_unsigned]. apply nonempty_length in B.
    unfold lay_all, lay_static in N. rewrite !app_length in N. lia.
  - cbn [lay_message msg_calls]. eapply Forall_impl; [|exact F]. intros [[p accs] data] [H1 H2]. split; [|exact H2].
    unfold lay_all. rewrite app_length. lia.
Qed.

(** ** Both directions *)
Lemma legacy_accepted verify reserved tables d got :
  receive_legacy verify reserved d = Some got -> accepted verify reserved tables d got.
Proof.
  unfold receive_legacy. destruct (Nat.ltb_spec packet_size (length d)) as [|L]; [discriminate|]. intros H.
  change packet_size with 1232%nat in L.
  apply obind_some in H. destruct H as ([sigs msg] & H1 & H). cbn [fst snd] in H.
  apply obind_some in H. destruct H as ([m r] & H2 & H). cbn [fst snd] in H.
  destruct r; [|discriminate]. destruct (sane _ _ && _) eqn:S; [|discriminate].
  apply andb_true_iff in S. destruct S as [S1 S2].
  apply take_message_back in H2. subst msg. apply sigs_back in H1. destruct H1 as [-> F].
  pose proof S1 as S0. unfold sane in S0. cbv zeta in S0. rewrite !andb_true_iff, Nat.leb_le, Nat.ltb_lt in S0.
  destruct S0 as ((((_ & S3) & S4) & _) & _).
  destruct (message_layout m None [] []) as (y & <- & Yo & Yw & Yr); [lia|exact S3|].
  apply (sane_iff _ y Yw Yr) in S1. destruct S1 as (S5 & S6 & S7 & S8).
  assert (YB : lay_bytes y = message_bytes (lay_message y)) by (rewrite lay_bytes_is, Yo; reflexivity).
  rewrite signers_first in S2. apply signed_by_iff in S2.
  exists y. split; [split; [exact L|split; [|exists sigs; rewrite YB; split; [|reflexivity]]]|].
  - split; [exact S6|]. split; [exact S8|]. split; [|split; [exact S7|rewrite Yo; auto]].
    destruct (packet_bytes_length sigs (message_bytes (lay_message y))) as [_ Lm]; [rewrite concat_64 by exact F; lia|exact L|].
    rewrite message_length in Lm. cbn [lay_message msg_keys] in Lm. unfold list_size in Lm.
    rewrite (unloaded y Yw Yr). lia.
  - apply signed_lengths. auto.
  - apply lay_means_iff; [exact S8|exact S7|]. assert (E : map (received_call reserved (lay_message y)) (msg_calls (lay_message y)) = got) by congruence.
    rewrite <- E. apply map_ext. intros c. now apply received_loaded.
Qed.
Lemma v0_accepted verify reserved tables d got :
  receive_v0 verify reserved tables d = Some got -> accepted verify reserved tables d got.
Proof.
  unfold receive_v0. destruct (Nat.ltb_spec packet_size (length d)) as [|L]; [discriminate|]. intros H.
  change packet_size with 1232%nat in L.
  apply obind_some in H. destruct H as ([sigs msg] & H1 & H). cbn [fst snd] in H.
  apply obind_some in H. destruct H as ([[m lks] r] & H2 & H). cbn [fst snd] in H.
  destruct r; [|discriminate]. apply obind_some in H. destruct H as (w & Hw & H).
  apply obind_some in H. destruct H as (ro & Hr & H). cbv zeta in H.
  destruct (sane_v0 _ _ _ && _) eqn:S; [|discriminate]. apply andb_true_iff in S. destruct S as [S1 S2].
  apply take_message_v0_back in H2. destruct H2 as [-> F2]. apply sigs_back in H1. destruct H1 as [-> F].
  pose proof S1 as S0. unfold sane_v0 in S0. cbv zeta in S0. rewrite !andb_true_iff, Nat.leb_le, Nat.ltb_lt in S0.
  destruct S0 as ((((((_ & S3) & S4) & _) & _) & _) & _). cbn [lo_message] in S3, S4.
  destruct (message_layout m (Some lks) w ro) as (y & <- & Yo & Yw & Yr); [lia|exact S3|].
  assert (YL : Loaded (lay_message y) w ro = lay_loaded y) by (unfold lay_loaded; now rewrite Yw, Yr).
  rewrite YL in *. apply sane_v0_iff in S1. destruct S1 as (S5 & S6 & S9 & S10 & S7 & S8).
  assert (YB : lay_bytes y = x80 :: message_bytes (lay_message y) ++ short_len (length lks) ++ flat_map lay_lookup lks)
    by (rewrite lay_bytes_is, Yo; reflexivity).
  cbn [lay_loaded lo_message] in S2. rewrite signers_first in S2. apply signed_by_iff in S2.
  apply load_keys_iff in Hw. apply load_keys_iff in Hr.
  exists y. split; [split; [exact L|split; [|exists sigs; rewrite YB; split; [|reflexivity]]]|].
  - split; [exact S6|]. split; [exact S8|]. split; [exact S10|]. split; [exact S7|]. rewrite Yo, Yw, Yr.
    split; [|auto]. rewrite Forall_forall in *. auto.
  - apply signed_lengths. auto.
  - apply lay_means_iff; [exact S8|exact S7|]. cbn [lay_loaded lo_message lay_message msg_calls] in H.
    assert (E : map (loaded_call reserved (lay_loaded y)) (lay_calls y) = got) by congruence. now symmetry.
Qed.

Lemma v0_read y lks : lay_lookups y = Some lks -> small_message (lay_message y) -> (length lks < 2000)%nat ->
  Forall (fun x => Forall (fun i => (i < 256)%nat) (lk_writable x ++ lk_readonly x) /\
    (length (lk_writable x) < 2000)%nat /\ (length (lk_readonly x) < 2000)%nat) lks ->
  take_message_v0 (lay_bytes y) = Some ((lay_message y, lks), []).
Proof.
  intros Yo (A & B & D & K & L & Q) Ll F. rewrite lay_bytes_is, Yo. set (m := lay_message y) in *.
  unfold message_bytes, take_message_v0. cbn [app]. rewrite <- !app_assoc.
  change x80 with (u8_of_nat 128). rewrite take_u8_app by lia. cbn [obind fst snd].
  replace (negb (128 =? 128)%nat) with false by reflexivity. cbv iota.
  rewrite take_u8_app by lia. cbn [obind fst snd].
  rewrite take_u8_app by lia. cbn [obind fst snd]. rewrite take_u8_app by lia. cbn [obind fst snd].
  rewrite (take_list_app take_key key_bytes); [|exact K|intros; apply take_key_app].
  cbn [obind fst snd]. rewrite take_key_app. cbn [obind fst snd].
  rewrite (take_list_app take_call call_bytes); [|exact L|].
  2:{ intros c s I. apply take_call_app. auto. }
  cbn [obind fst snd]. rewrite <- (app_nil_r (flat_map lay_lookup lks)).
  rewrite (take_list_app take_lookup lay_lookup); [|lia|].
  - cbn [obind fst snd]. now destruct m.
  - intros x s I. rewrite Forall_forall in F. destruct (F x I) as (Fi & F1 & F2). rewrite Forall_forall in Fi.
    unfold lay_lookup, take_lookup. rewrite !counted_is, <- !app_assoc. rewrite take_key_app. cbn [obind fst snd].
    rewrite (take_list_app take_u8 one_byte); [|lia|]. 2:{ intros i t J. apply take_u8_app. apply Fi, in_app_iff. auto. }
    cbn [obind fst snd].
    rewrite (take_list_app take_u8 one_byte); [|lia|]. 2:{ intros i t J. apply take_u8_app. apply Fi, in_app_iff. auto. }
    cbn [obind fst snd]. now destruct x.
Qed.

Theorem receive_iff verify reserved tables d got :
  receive verify reserved tables d = Some got <-> accepted verify reserved tables d got.
Proof.
  split; [intros H; destruct (receive_either _ _ _ _ _ H); [now apply legacy_accepted|now apply v0_accepted]|].
  intros (y & (L & (Y1 & Y2 & Y3 & Y4 & Y5) & sigs & Sg & ->) & M).
  apply signed_lengths in Sg. destruct Sg as [F Sg].
  destruct (packet_bytes_length sigs (lay_bytes y)) as [Ls Lm]; [rewrite concat_64 by exact F; lia|exact L|].
  assert (Ln : length (lay_signers y) = length sigs) by (clear - Sg; induction Sg; cbn; congruence). apply (lay_means_iff reserved y got Y2 Y4) in M.
  assert (Sm : small_message (lay_message y)).
  { apply lay_small; auto; [|lia]. rewrite lay_bytes_is in Lm. destruct (lay_lookups y); [|exact Lm].
    cbn [length] in Lm. rewrite app_length in Lm. lia. }
  unfold receive. destruct (lay_lookups y) as [lks|] eqn:Yo.
  - destruct Y5 as (Y5 & Y6 & Y7).
    assert (R : receive_legacy verify reserved (counted (fun s => s) sigs ++ lay_bytes y) = None).
    { unfold receive_legacy. destruct (_ <? _)%nat; [reflexivity|]. rewrite sigs_read by (auto; lia). cbn [obind fst snd].
      rewrite lay_bytes_is, Yo. reflexivity. }
    rewrite R. unfold receive_v0.
    destruct (Nat.ltb_spec packet_size (length (counted (fun s => s) sigs ++ lay_bytes y))) as [X|_];
      [change packet_size with 1232%nat in X; lia|].
    rewrite sigs_read by (auto; lia). cbn [obind fst snd].
    assert (Lk : (length (flat_map lay_lookup lks) <= 1232)%nat).
    { rewrite lay_bytes_is, Yo in Lm. cbn [length] in Lm. rewrite !app_length in Lm. lia. }
    rewrite (v0_read y lks Yo Sm).
    + cbn [obind fst snd]. apply load_keys_iff in Y6. apply load_keys_iff in Y7. rewrite Y6, Y7. cbn [obind].
      cbv zeta. change (Loaded (lay_message y) (lay_loaded_write y) (lay_loaded_rest y)) with (lay_loaded y).
      rewrite (proj2 (sane_v0_iff _ lks y)).
      * cbn [lay_loaded lo_message andb]. rewrite signers_first, (proj2 (signed_by_iff _ _ _ _) Sg). now rewrite M.
      * repeat (split; [assumption || (symmetry; assumption) || idtac|]); try assumption.
        eapply Forall_impl; [|exact Y5]. now intros x [].
    + pose proof (flat_map_least lay_lookup lks lookup_least). lia.
    + rewrite Forall_forall in *. intros x I. destruct (Y5 x I) as [_ Fi]. split; [exact Fi|].
      pose proof (in_flat_length lay_lookup _ _ I) as Lx. set (fm := flat_map lay_lookup lks) in *.
      unfold lay_lookup in Lx. rewrite !counted_is, !app_length in Lx.
      rewrite !(flat_map_length_const one_byte _ 1%nat) in Lx by reflexivity. lia.
  - destruct Y5 as [Yw Yr].
    assert (YB : lay_bytes y = message_bytes (lay_message y)) by (rewrite lay_bytes_is, Yo; reflexivity).
    apply legacy_first. unfold receive_legacy.
    destruct (Nat.ltb_spec packet_size (length (counted (fun s => s) sigs ++ lay_bytes y))) as [X|_];
      [change packet_size with 1232%nat in X; lia|].
    rewrite sigs_read by (auto; lia). cbn [obind fst snd]. rewrite YB in *. rewrite take_message_bytes by exact Sm.
    cbn [obind fst snd]. rewrite (proj2 (sane_iff _ y Yw Yr)) by (repeat split; auto).
    rewrite signers_first, (proj2 (signed_by_iff _ _ _ _) Sg). cbn [andb]. rewrite M. f_equal.
    cbn [lay_message msg_calls]. apply map_ext. intros c. now apply received_loaded.
Qed.
