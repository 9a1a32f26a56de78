(** Reading and writing key files. *)
From Coq Require Import String Ascii.
From Verif Require Import BytesFacts LogFacts CliFacts CliKeys CliMain KeyFileSpec.
Import List ListNotations.
Open Scope list_scope.
Open Scope Z_scope.

(** ** Integers in text *)
Lemma json_white_iff c : json_white c = true <-> In (nat_of_ascii c) [9; 10; 13; 32]%nat.
Proof.
  unfold json_white. rewrite !orb_true_iff, !Nat.eqb_eq. cbn [In]. intuition congruence.
Qed.
Lemma white_iff s : white s <-> all_chars json_white s = true.
Proof.
  unfold white. induction s as [|c s IH]; [split; [reflexivity|intros _ [|j] c H; discriminate H]|].
  cbn [all_chars]. rewrite andb_true_iff, json_white_iff, <- IH. split.
  - intros H. split; [exact (H 0%nat c eq_refl)|]. intros j. exact (H (S j)).
  - intros [H0 H] [|j] d K; [apply some_ascii in K; now rewrite <- K|exact (H j d K)].
Qed.
Lemma white_nil : white "".
Proof. intros [|j] c H; discriminate H. Qed.
Lemma white_cons c s : json_white c = true -> white s -> white (String c s).
Proof. rewrite !white_iff. intros H K. cbn [all_chars]. now rewrite H. Qed.
Lemma white_uncons c s : white (String c s) -> json_white c = true /\ white s.
Proof. rewrite !white_iff. cbn [all_chars]. apply andb_true_iff. Qed.
Lemma digit10 c : digit_value c < 10 -> digit_value c = Z.of_nat (nat_of_ascii c) - 48.
Proof.
  intros H. apply not_digit10 in H. unfold digit_value. destruct (Z.leb_spec 48 (Z.of_nat (nat_of_ascii c))); [|lia].
  destruct (Z.leb_spec (Z.of_nat (nat_of_ascii c)) 57); [reflexivity|lia].
Qed.
Lemma num_decimal s : forall v n, num 10 s v = Some n ->
  read_decimal s v = n /\ forall j a, String.get j s = Some a -> (48 <= nat_of_ascii a <= 57)%nat.
Proof.
  induction s as [|c s IH]; intros v n H.
  - cbn in H. injection H as <-. split; [reflexivity|]. intros [|j] a K; discriminate K.
  - cbn [num] in H. destruct (Z.ltb_spec (digit_value c) 10) as [L|L]; [|discriminate].
    apply IH in H. destruct H as [H D]. split; [cbn [read_decimal]; now rewrite <- (digit10 c L)|].
    intros [|j] a K; [apply some_ascii in K; rewrite <- K; now apply not_digit10|exact (D j a K)].
Qed.
Lemma read_bounds s : (forall j a, String.get j s = Some a -> (48 <= nat_of_ascii a <= 57)%nat) ->
  forall v, v * 10 ^ Z.of_nat (String.length s) <= read_decimal s v < (v + 1) * 10 ^ Z.of_nat (String.length s).
Proof.
  induction s as [|c s IH]; intros H v.
  - cbn. lia.
  - cbn [read_decimal String.length]. rewrite Nat2Z.inj_succ, Z.pow_succ_r by lia.
    pose proof (H 0%nat c eq_refl). specialize (IH (fun j => H (S j)) (10 * v + (Z.of_nat (nat_of_ascii c) - 48))).
    pose proof (Z.pow_pos_nonneg 10 (Z.of_nat (String.length s)) ltac:(lia) ltac:(lia)). nia.
Qed.
Lemma number_iff s n : text_of_number s n <-> exists c s', s = String c s' /\ digit_value c < 10 /\
  num 10 s' (digit_value c) = Some n /\ (digit_value c = 0 -> s' = ""%string).
Proof.
  split.
  - intros (V & L & Z & D). destruct s as [|c s]; [cbn in L; lia|]. exists c, s. split; [reflexivity|].
    pose proof (decimal_num _ D 0) as N. cbn [num] in N. destruct (Z.ltb_spec (digit_value c) 10) as [C|C]; [|discriminate].
    rewrite V in N. replace (10 * 0 + digit_value c) with (digit_value c) in N by lia.
    split; [exact C|]. split; [exact N|]. intros E. rewrite E in N. destruct s as [|b s]; [reflexivity|exfalso].
    specialize (Z ltac:(cbn; lia)). apply num_decimal in N. destruct N as [N1 N2].
    pose proof (read_bounds _ N2 0) as B. rewrite N1 in B.
    replace (Z.of_nat (String.length (String c (String b s))) - 1) with (Z.of_nat (String.length (String b s))) in Z
      by (cbn [String.length]; lia). lia.
  - intros (c & s' & -> & C & N & E). pose proof (digit10 c C) as V. pose proof (num_decimal _ _ _ N) as [N1 N2].
    split; [cbn [read_decimal]; rewrite <- V; now replace (10 * 0 + digit_value c) with (digit_value c) by lia|].
    split; [cbn; lia|]. split.
    + intros L. pose proof (digit_value_nonneg c). assert (digit_value c <> 0) by (intros Q; rewrite (E Q) in L; cbn in L; lia).
      pose proof (read_bounds _ N2 (digit_value c)) as B. rewrite N1 in B.
      replace (Z.of_nat (String.length (String c s')) - 1) with (Z.of_nat (String.length s')) by (cbn [String.length]; lia).
      pose proof (Z.pow_pos_nonneg 10 (Z.of_nat (String.length s')) ltac:(lia) ltac:(lia)). nia.
    + intros [|j] a K; [apply some_ascii in K; rewrite <- K; now apply not_digit10|exact (N2 j a K)].
Qed.
Lemma number_nonneg s n : text_of_number s n -> 0 <= n.
Proof.
  intros H. apply number_numeral in H. apply numeral_num in H. destruct H as [_ H]. apply num_decimal in H. destruct H as [<- D].
  pose proof (read_bounds s D 0). lia.
Qed.

(** ** The scanner reads the arrays of integers *)
Definition closes (r : string) (ns : list Z) : Prop :=
  (exists q, white q /\ r = ("]" ++ q)%string /\ ns = []) \/
  (exists t q, white q /\ r = ("," ++ t ++ "]" ++ q)%string /\ items t ns).
Definition after (s : string) (ns : list Z) : Prop :=
  exists q r, white q /\ s = (q ++ r)%string /\ closes r ns.
Definition number (negative : bool) (v : Z) (s : string) (ns : list Z) : Prop :=
  exists d r n ns', s = (d ++ r)%string /\ num 10 d v = Some n /\ (v = 0 -> d = ""%string) /\
    ns = json_sign negative n :: ns' /\ after r ns'.
Definition next (s : string) (ns : list Z) : Prop :=
  exists t q, white q /\ s = (t ++ "]" ++ q)%string /\ items t ns.
Definition meaning (st : json_state) (s : string) (ns : list Z) : Prop :=
  match st with
  | JStart => array_text s ns
  | JFirst => exists t q, white q /\ s = (t ++ "]" ++ q)%string /\ ((white t /\ ns = []) \/ items t ns)
  | JNext => next s ns
  | JMinus => exists c s', s = String c s' /\ digit_value c < 10 /\ number true (digit_value c) s' ns
  | JNumber negative v => number negative v s ns
  | JAfter => after s ns
  | JEnd => white s /\ ns = []
  end.
Lemma items_white c t ns : json_white c = true -> items t ns -> items (String c t) ns.
Proof.
  intros W H. destruct H as [p s q n P Q I|p s q n t ns P Q I H].
  - exact (items_one (String c p) s q n (white_cons c p W P) Q I).
  - exact (items_more (String c p) s q n t ns (white_cons c p W P) Q I H).
Qed.
Lemma items_after s n r ns : integer_text s n -> after r ns -> next (s ++ r) (n :: ns).
Proof.
  intros I (q & r' & Q & -> & [(q' & Q' & -> & ->)|(t & q' & Q' & -> & H)]).
  - exists (s ++ q)%string, q'. split; [exact Q'|]. split; [now rewrite append_assoc|].
    exact (items_one "" s q n white_nil Q I).
  - exists (s ++ q ++ "," ++ t)%string, q'. split; [exact Q'|].
    split; [now rewrite !append_assoc|]. exact (items_more "" s q n t ns white_nil Q I H).
Qed.
Lemma plain_next c s ns : digit_value c < 10 -> number false (digit_value c) s ns -> next (String c s) ns.
Proof.
  intros C (d & r & n & ns' & -> & N & E & -> & A). apply (items_after (String c d)); [|exact A].
  apply int_plain, number_iff. eauto 8.
Qed.
Lemma minus_next s ns : meaning JMinus s ns -> next (String "-" s) ns.
Proof.
  intros (c & s' & -> & C & (d & r & n & ns' & -> & N & E & -> & A)).
  apply (items_after ("-" ++ String c d)); [|exact A]. apply int_minus, number_iff. eauto 8.
Qed.
Lemma white_next c s ns : json_white c = true -> next s ns -> next (String c s) ns.
Proof. intros W (t & q & Q & -> & I). exists (String c t), q. split; [exact Q|]. split; [reflexivity|now apply items_white]. Qed.
Lemma next_first s ns : next s ns -> meaning JFirst s ns.
Proof. intros (t & q & Q & -> & I). exists t, q. auto. Qed.
Lemma after_white c s ns : json_white c = true -> after s ns -> after (String c s) ns.
Proof. intros W (q & r & Q & -> & K). exists (String c q), r. split; [now apply white_cons|]. split; [reflexivity|exact K]. Qed.
Lemma after_comma s ns : next s ns -> after (String "," s) ns.
Proof.
  intros (t & q & Q & -> & I). exists ""%string, (String "," (t ++ "]" ++ q)). split; [apply white_nil|]. split; [reflexivity|].
  right. exists t, q. auto.
Qed.
Lemma after_end s : white s -> after (String "]" s) [].
Proof. intros W. exists ""%string, (String "]" s). split; [apply white_nil|]. split; [reflexivity|]. left. exists s. auto. Qed.
Lemma number_ends negative v s n ns : n = json_sign negative v -> after s ns -> number negative v s (n :: ns).
Proof.
  intros -> A. exists ""%string, s, v, ns. split; [reflexivity|]. split; [reflexivity|]. split; [reflexivity|]. split; [reflexivity|exact A].
Qed.

Lemma scan_means s : forall st ns, json_scan st s = Some ns -> meaning st s ns.
Proof.
  induction s as [|c s IH]; intros st ns H.
  - destruct st; try discriminate H. cbn in H. injection H as <-. split; [apply white_nil|reflexivity].
  - cbn [json_scan] in H.
    destruct st as [| | | |negative v| |].
    + destruct (json_white c) eqn:W.
      * apply IH in H. destruct H as (p & t & q & P & Q & -> & K). exists (String c p), t, q.
        split; [now apply white_cons|]. split; [exact Q|]. split; [reflexivity|exact K].
      * destruct (Ascii.eqb c "[") eqn:B; [|discriminate]. apply eqb_char in B. subst c. apply IH in H.
        destruct H as (t & q & Q & -> & K). exists ""%string, t, q. split; [apply white_nil|]. split; [exact Q|].
        split; [reflexivity|exact K].
    + destruct (json_white c) eqn:W.
      * apply IH in H. destruct H as (t & q & Q & -> & K). exists (String c t), q. split; [exact Q|]. split; [reflexivity|].
        destruct K as [[K ->]|K]; [left; split; [now apply white_cons|reflexivity]|right; now apply items_white].
      * destruct (Ascii.eqb c "]") eqn:B.
        { apply eqb_char in B. subst c. apply IH in H. destruct H as [H ->]. exists ""%string, s. split; [exact H|].
          split; [reflexivity|]. left. split; [apply white_nil|reflexivity]. }
        apply next_first. destruct (Ascii.eqb c "-") eqn:M; [apply eqb_char in M; subst c; apply minus_next, IH, H|].
        destruct (Z.ltb_spec (digit_value c) 10) as [L|L]; [|discriminate]. apply plain_next; [exact L|]. exact (IH _ _ H).
    + destruct (json_white c) eqn:W; [apply white_next; [exact W|exact (IH _ _ H)]|].
      destruct (Ascii.eqb c "-") eqn:M; [apply eqb_char in M; subst c; apply minus_next, IH, H|].
      destruct (Z.ltb_spec (digit_value c) 10) as [L|L]; [|discriminate]. apply plain_next; [exact L|]. exact (IH _ _ H).
    + destruct (Z.ltb_spec (digit_value c) 10) as [L|L]; [|discriminate]. exists c, s. split; [reflexivity|].
      split; [exact L|exact (IH _ _ H)].
    + destruct (Z.ltb_spec (digit_value c) 10) as [L|L].
      * destruct (Z.eqb_spec v 0) as [V|V]; [discriminate|]. apply IH in H. destruct H as (d & r & n & ns' & -> & N & E & -> & A).
        exists (String c d), r, n, ns'. split; [reflexivity|]. cbn [num]. destruct (Z.ltb_spec (digit_value c) 10); [|lia].
        split; [exact N|]. split; [congruence|]. split; [reflexivity|exact A].
      * destruct (json_white c) eqn:W.
        { destruct (json_scan JAfter s) as [ns'|] eqn:K; [|discriminate]. cbn [option_map] in H. injection H as <-.
          apply number_ends; [reflexivity|]. apply after_white; [exact W|exact (IH _ _ K)]. }
        destruct (Ascii.eqb c ",") eqn:B.
        { apply eqb_char in B. subst c. destruct (json_scan JNext s) as [ns'|] eqn:K; [|discriminate]. cbn [option_map] in H.
          injection H as <-. apply number_ends; [reflexivity|]. apply after_comma, (IH _ _ K). }
        destruct (Ascii.eqb c "]") eqn:B'; [|discriminate].
        apply eqb_char in B'. subst c. destruct (json_scan JEnd s) as [ns'|] eqn:K; [|discriminate]. cbn [option_map] in H.
        injection H as <-. apply IH in K. destruct K as [K ->]. apply number_ends; [reflexivity|]. now apply after_end.
    + destruct (json_white c) eqn:W; [apply after_white; [exact W|exact (IH _ _ H)]|].
      destruct (Ascii.eqb c ",") eqn:B; [apply eqb_char in B; subst c; apply after_comma, (IH _ _ H)|].
      destruct (Ascii.eqb c "]") eqn:B'; [|discriminate]. apply eqb_char in B'. subst c. apply IH in H. destruct H as [H ->].
      now apply after_end.
    + destruct (json_white c) eqn:W; [|discriminate]. apply IH in H. destruct H as [H ->]. split; [now apply white_cons|reflexivity].
Qed.

(** ** ... and all of them *)
Lemma scan_white st p s : In st [JStart; JFirst; JNext; JAfter; JEnd] -> white p -> json_scan st (p ++ s) = json_scan st s.
Proof.
  intros S. induction p as [|c p IH]; intros W; [reflexivity|]. apply white_uncons in W. destruct W as [C W].
  cbn [append]. transitivity (json_scan st (p ++ s)); [|exact (IH W)].
  destruct S as [<-|[<-|[<-|[<-|[<-|[]]]]]]; cbn [json_scan]; now rewrite C.
Qed.
Lemma scan_digits negative d s : forall v n, num 10 d v = Some n -> 0 <= v -> (v = 0 -> d = ""%string) ->
  json_scan (JNumber negative v) (d ++ s) = json_scan (JNumber negative n) s.
Proof.
  induction d as [|c d IH]; intros v n N V E; [cbn in N; injection N as <-; reflexivity|].
  cbn [num] in N. destruct (Z.ltb_spec (digit_value c) 10) as [L|L]; [|discriminate]. cbn [append json_scan].
  destruct (Z.ltb_spec (digit_value c) 10); [|lia]. destruct (Z.eqb_spec v 0) as [Q|Q]; [specialize (E Q); discriminate|].
  pose proof (digit_value_nonneg c). apply IH; [exact N|lia|lia].
Qed.
Lemma digit_not_white c : digit_value c < 10 -> json_white c = false.
Proof.
  intros H. apply not_digit10 in H. unfold json_white.
  destruct (Nat.eqb_spec (nat_of_ascii c) 9), (Nat.eqb_spec (nat_of_ascii c) 10), (Nat.eqb_spec (nat_of_ascii c) 13),
    (Nat.eqb_spec (nat_of_ascii c) 32); lia || reflexivity.
Qed.
Lemma scan_integer st t n s : In st [JFirst; JNext] -> integer_text t n ->
  exists negative v, n = json_sign negative v /\ json_scan st (t ++ s) = json_scan (JNumber negative v) s.
Proof.
  intros S [t' n' H|t' n' H]; apply number_iff in H; destruct H as (c & d & -> & C & N & E); pose proof (digit_value_nonneg c).
  - exists false, n'. split; [reflexivity|]. rewrite <- (scan_digits false d s (digit_value c) n') by assumption.
    cbn [append]. destruct S as [<-|[<-|[]]]; cbn [json_scan]; rewrite (digit_not_white c C);
      rewrite ?(digit_not c "]" C ltac:(left; cbn; lia)), ?(digit_not c "-" C ltac:(right; cbn; lia));
      (destruct (Z.ltb_spec (digit_value c) 10); [reflexivity|lia]).
  - exists true, n'. split; [reflexivity|]. rewrite <- (scan_digits true d s (digit_value c) n') by assumption.
    cbn [append]. transitivity (json_scan JMinus (String c (d ++ s))).
    + destruct S as [<-|[<-|[]]]; reflexivity.
    + cbn [json_scan]. destruct (Z.ltb_spec (digit_value c) 10); [reflexivity|lia].
Qed.
Lemma scan_ends negative v q s : white q ->
  (exists s', s = String "," s' \/ s = String "]" s') ->
  json_scan (JNumber negative v) (q ++ s) = option_map (cons (json_sign negative v)) (json_scan JAfter s).
Proof.
  intros W (s' & S). destruct q as [|c q].
  - cbn [append]. destruct S as [->| ->]; reflexivity.
  - apply white_uncons in W. destruct W as [C W]. cbn [append json_scan].
    destruct (Z.ltb_spec (digit_value c) 10) as [L|L]; [rewrite (digit_not_white c L) in C; discriminate|].
    rewrite C. rewrite scan_white; [reflexivity|cbn; auto 10|exact W].
Qed.
Lemma items_scan st t ns q : In st [JFirst; JNext] -> items t ns -> white q -> json_scan st (t ++ "]" ++ q) = Some ns.
Proof.
  intros S H Q. revert st S. assert (E : json_scan JEnd q = Some []).
  { rewrite <- (append_nil q). rewrite scan_white; [reflexivity|cbn; auto 10|exact Q]. }
  induction H as [p s w n P W I|p s w n t ns P W I H IH]; intros st S.
  - rewrite !append_assoc, scan_white; [|destruct S as [<-|[<-|[]]]; cbn; auto|exact P].
    destruct (scan_integer st s n (w ++ "]" ++ q) S I) as (negative & v & -> & ->).
    rewrite scan_ends; [|exact W|exists q; right; reflexivity]. cbn [append json_scan]. rewrite E. reflexivity.
  - rewrite !append_assoc, scan_white; [|destruct S as [<-|[<-|[]]]; cbn; auto|exact P].
    destruct (scan_integer st s n (w ++ "," ++ t ++ "]" ++ q) S I) as (negative & v & -> & ->).
    rewrite scan_ends; [|exact W|exists (t ++ "]" ++ q)%string; left; reflexivity].
    change (json_scan JAfter ("," ++ t ++ "]" ++ q)) with (json_scan JNext (t ++ "]" ++ q)).
    rewrite IH by (cbn; auto). reflexivity.
Qed.
Theorem scan_iff s ns : json_scan JStart s = Some ns <-> array_text s ns.
Proof.
  split; [exact (scan_means s JStart ns)|]. intros (p & t & q & P & Q & -> & K).
  rewrite scan_white; [|cbn; auto|exact P]. change (json_scan JStart ("[" ++ t ++ "]" ++ q)) with (json_scan JFirst (t ++ "]" ++ q)).
  destruct K as [[W ->]|K]; [|apply items_scan; [cbn; auto|exact K|exact Q]].
  rewrite scan_white; [|cbn; auto|exact W]. cbn [append].
  change (json_scan JFirst (String "]" q)) with (json_scan JEnd q).
  rewrite <- (append_nil q). rewrite scan_white; [reflexivity|cbn; auto 10|exact Q].
Qed.

(** ** Bytes *)
Lemma becomes_iff n b : becomes n b <-> to_uint8 n = b.
Proof.
  assert (R : rounds n (if n <? 0 then - to_double (- n) else to_double n)).
  { destruct (Z.ltb_spec n 0); [|now apply to_double_rounds].
    replace n with (- - n) at 1 by lia. apply rounds_opp, to_double_rounds. lia. }
  unfold becomes, to_uint8. split.
  - intros (d & H & E). rewrite (rounds_unique n _ d R H). apply byte_to_Z_inj. now rewrite Z_to_byte_to_Z.
  - intros <-. eexists. split; [exact R|apply Z_to_byte_to_Z].
Qed.
Lemma becomes_all ns bs : Forall2 becomes ns bs <-> map to_uint8 ns = bs.
Proof.
  split.
  - induction 1 as [|n b ns bs H _ IH]; [reflexivity|]. cbn [map]. apply becomes_iff in H. congruence.
  - revert bs. induction ns as [|n ns IH]; intros bs <-; [constructor|]. constructor; [now apply becomes_iff|]. now apply IH.
Qed.
Lemma file_of_iff text secret : file_of text secret <-> option_map (map to_uint8) (json_scan JStart text) = Some secret.
Proof.
  unfold file_of. split.
  - intros (ns & A & F). apply scan_iff in A. rewrite A. cbn. f_equal. now apply becomes_all.
  - destruct (json_scan JStart text) as [ns|] eqn:E; [|discriminate]. cbn. intros H. injection H as <-.
    exists ns. split; [now apply scan_iff|now apply becomes_all].
Qed.
Theorem file_of_unique text a b : file_of text a -> file_of text b -> a = b.
Proof. rewrite !file_of_iff. congruence. Qed.

(** ** Key pairs *)
Lemma from_secret_iff derive s s' : from_secret_key derive s = Some s' <-> s' = s /\ exists seed k, pair_of derive seed s k.
Proof.
  unfold from_secret_key, pair_of. split.
  - destruct (Nat.eqb_spec (length s) 64) as [L|L]; [|discriminate]. cbn [andb].
    destruct (bytes_eqb _ _) eqn:B; [|discriminate]. intros H. injection H as <-. split; [reflexivity|].
    apply bytes_eqb_true in B. exists (firstn 32 s), (derive (firstn 32 s)).
    split; [rewrite firstn_length; lia|]. split; [|reflexivity]. rewrite <- B. symmetry. apply firstn_skipn.
  - intros [-> (seed & k & L & -> & ->)]. rewrite app_length, L, key_bytes_length. cbn [Nat.eqb Nat.add andb].
    rewrite <- L at 1 2. rewrite skipn_app, firstn_app, Nat.sub_diag, skipn_all, firstn_all. cbn [skipn firstn app].
    rewrite app_nil_r. rewrite (proj2 (bytes_eqb_true _ _) eq_refl). reflexivity.
Qed.
Lemma pair_key_of derive seed s k : pair_of derive seed s k -> pair_key s = k.
Proof.
  intros (L & -> & _). unfold pair_key. rewrite <- L at 1. rewrite skipn_app, Nat.sub_diag, skipn_all. apply key_of_bytes.
Qed.
Lemma from_seed_iff derive seed s : from_seed derive seed = Some s <-> pair_of derive seed s (derive seed).
Proof.
  unfold from_seed, pair_of. destruct (Nat.eqb_spec (length seed) 32) as [L|L].
  - split; [intros H; injection H as <-; auto|intros (_ & -> & _); reflexivity].
  - split; [discriminate|intros [H _]; congruence].
Qed.
Theorem load_key_iff derive files path k : load_key derive files path = Some k <->
  exists text seed secret, files path = Some text /\ file_of text secret /\ pair_of derive seed secret k.
Proof.
  unfold load_key, read_keypair. split.
  - destruct (files path) as [text|]; [|discriminate]. cbn [obind].
    destruct (json_scan JStart text) as [ns|] eqn:S; [|discriminate]. cbn [obind].
    destruct (from_secret_key derive (map to_uint8 ns)) as [s|] eqn:F; [|discriminate]. cbn [obind]. intros H. injection H as <-.
    apply from_secret_iff in F. destruct F as [-> (seed & k & P)]. exists text, seed, (map to_uint8 ns).
    split; [reflexivity|]. split; [apply file_of_iff; now rewrite S|]. rewrite (pair_key_of _ _ _ _ P). exact P.
  - intros (text & seed & secret & -> & F & P). cbn [obind]. apply file_of_iff in F.
    destruct (json_scan JStart text) as [ns|]; [|discriminate]. cbn in F. injection F as F. cbn [obind]. rewrite F.
    assert (Q : from_secret_key derive secret = Some secret) by (apply from_secret_iff; eauto). rewrite Q. cbn [obind].
    now rewrite (pair_key_of _ _ _ _ P).
Qed.
Lemma same_head {A} (a b c d : list A) : length a = length b -> a ++ c = b ++ d -> a = b.
Proof.
  revert b. induction a as [|x a IH]; intros [|y b] L E; try discriminate L; [reflexivity|].
  cbn [app] in E. injection E as -> E. injection L as L. f_equal. exact (IH b L E).
Qed.
(** The key is decided by the first 32 numbers. *)
Theorem load_key_seed derive files path path' k k' text text' seed rest rest' :
  load_key derive files path = Some k -> load_key derive files path' = Some k' ->
  files path = Some text -> files path' = Some text' ->
  length seed = 32%nat -> file_of text (seed ++ rest) -> file_of text' (seed ++ rest') -> k = k'.
Proof.
  intros H H' F F' L T T'. apply load_key_iff in H, H'. destruct H as (t & sd & s & Ft & Ts & Ls & -> & ->).
  destruct H' as (t' & sd' & s' & Ft' & Ts' & Ls' & -> & ->). rewrite F in Ft. injection Ft as <-. rewrite F' in Ft'. injection Ft' as <-.
  pose proof (file_of_unique _ _ _ Ts T) as E. pose proof (file_of_unique _ _ _ Ts' T') as E'.
  apply same_head in E; [|lia]. apply same_head in E'; [|lia]. congruence.
Qed.

(** ** Hexadecimal texts *)
Lemma hex_bytes_iff s bs : hex_bytes s = bs <->
  exists t rest, s = (t ++ rest)%string /\ hex_text t bs /\
    ~ exists a b r x y, rest = String a (String b r) /\ digit a x /\ x < 16 /\ digit b y /\ y < 16.
Proof.
  split.
  - revert bs. assert (G : forall n s bs, (String.length s <= n)%nat -> hex_bytes s = bs ->
      exists t rest, s = (t ++ rest)%string /\ hex_text t bs /\
        ~ exists a b r x y, rest = String a (String b r) /\ digit a x /\ x < 16 /\ digit b y /\ y < 16).
    { clear s. induction n as [|n IH]; intros s bs N H.
      - destruct s; [|cbn in N; lia]. cbn in H. subst bs. exists ""%string, ""%string. split; [reflexivity|].
        split; [constructor|]. intros (a & b & r & x & y & K & _). discriminate K.
      - destruct s as [|a [|b s]].
        + cbn in H. subst bs. exists ""%string, ""%string. split; [reflexivity|].
          split; [constructor|]. intros (a & b & r & x & y & K & _). discriminate K.
        + cbn in H. subst bs. exists ""%string, (String a ""). split; [reflexivity|].
          split; [constructor|]. intros (a' & b & r & x & y & K & _). discriminate K.
        + cbn [hex_bytes] in H. destruct (Z.ltb_spec (digit_value a) 16) as [A|A]; cbn [andb] in H.
          * destruct (Z.ltb_spec (digit_value b) 16) as [B|B]; cbn [andb] in H.
            -- subst bs. destruct (IH s (hex_bytes s) ltac:(cbn in N; lia) eq_refl) as (t & rest & -> & T & R).
               exists (String a (String b t)), rest. split; [reflexivity|]. split; [|exact R].
               pose proof (digit_value_nonneg a). pose proof (digit_value_nonneg b).
               apply (hex_more a b t (digit_value a) (digit_value b)); try assumption; try (apply digit_is; [lia|reflexivity]).
               rewrite Z_to_byte_to_Z. apply Z.mod_small. lia.
            -- subst bs. exists ""%string, (String a (String b s)). split; [reflexivity|]. split; [constructor|].
               intros (a' & b' & r & x & y & K & _ & _ & D & L). injection K as <- <- <-. apply is_digit in D. lia.
          * subst bs. exists ""%string, (String a (String b s)). split; [reflexivity|]. split; [constructor|].
            intros (a' & b' & r & x & y & K & D & L & _). injection K as <- <- <-. apply is_digit in D. lia. }
    intros bs H. exact (G _ s bs (le_n _) H).
  - intros (t & rest & -> & T & R). induction T as [|a b t x y byte bs A X B Y E T IH].
    + cbn [append]. destruct rest as [|a [|b r]]; [reflexivity|reflexivity|]. cbn [hex_bytes].
      destruct (Z.ltb_spec (digit_value a) 16) as [A|A]; [|reflexivity].
      destruct (Z.ltb_spec (digit_value b) 16) as [B|B]; [|reflexivity]. exfalso. apply R.
      exists a, b, r, (digit_value a), (digit_value b). split; [reflexivity|].
      split; [apply digit_is; [lia|reflexivity]|]. split; [exact A|]. split; [apply digit_is; [lia|reflexivity]|exact B].
    + cbn [append hex_bytes]. apply is_digit in A, B. destruct A as [-> A], B as [-> B].
      destruct (Z.ltb_spec x 16); [|lia]. destruct (Z.ltb_spec y 16); [|lia]. cbn [andb]. rewrite IH. f_equal.
      rewrite <- E. apply byte_to_Z_to_byte.
Qed.

(** ** What is written can be read *)
Lemma to_uint8_byte b : to_uint8 (byte_to_Z b) = b.
Proof.
  pose proof (byte_to_Z_range b). unfold to_uint8. destruct (Z.ltb_spec (byte_to_Z b) 0); [lia|]. unfold to_double.
  destruct (Z.leb_spec (byte_to_Z b) (2 ^ 53)); [apply byte_to_Z_to_byte|lia].
Qed.
Lemma json_items_text bs : bs <> [] -> items (json_items bs) (map byte_to_Z bs).
Proof.
  assert (D : forall b, integer_text (to_decimal (byte_to_Z b)) (byte_to_Z b)).
  { intros b. apply int_plain, decimal_text. pose proof (byte_to_Z_range b). unfold is_u64. lia. }
  induction bs as [|b bs IH]; [congruence|]. intros _. destruct bs as [|b' bs].
  - cbn [json_items map]. pose proof (items_one "" _ "" _ white_nil white_nil (D b)) as K.
    cbn [append] in K. rewrite append_nil in K. exact K.
  - exact (items_more "" _ "" _ _ _ white_nil white_nil (D b) (IH ltac:(discriminate))).
Qed.
Theorem json_bytes_file bs : file_of (json_bytes bs) bs.
Proof.
  apply file_of_iff. assert (A : array_text (json_bytes bs) (map byte_to_Z bs)).
  { exists ""%string, (json_items bs), ""%string. split; [apply white_nil|]. split; [apply white_nil|]. split.
    - unfold json_bytes. cbn [append]. now rewrite ?append_nil.
    - destruct bs as [|b bs]; [left; split; [apply white_nil|reflexivity]|right; apply json_items_text; discriminate]. }
  apply scan_iff in A. rewrite A. cbn [option_map]. f_equal. rewrite map_map. rewrite (map_ext _ _ to_uint8_byte). apply map_id.
Qed.

(** ** generate-keypair.ts *)
(** A key is given as a hexadecimal text: the seed, or seed and public key; what follows it
    must not begin with two hexadecimal digits. *)
Theorem generate_iff derive text rest f : generate_keypair derive (text :: rest) = Some f <->
  exists t tail bs seed secret k,
    text = (t ++ tail)%string /\ hex_text t bs /\ (bs = seed \/ bs = secret) /\ pair_of derive seed secret k /\
    ~ (exists a b r x y, tail = String a (String b r) /\ digit a x /\ x < 16 /\ digit b y /\ y < 16) /\
    kf_text f = json_bytes secret /\ kf_printed f = to_base58 k /\
    saved_under rest (kf_path f).
Proof.
  unfold generate_keypair. split.
  - destruct (proj1 (hex_bytes_iff text _) eq_refl) as (t & tail & E & T & R). intros H.
    assert (K : exists seed secret k, (hex_bytes text = seed \/ hex_bytes text = secret) /\ pair_of derive seed secret k /\
      Some (KeyFile ("keypairs/" ++ match rest with
                  | EmptyString :: _ | [] => "generated-keypair.json"%string
                  | name :: _ => name
                  end) (json_bytes secret) (to_base58 k)) = Some f).
    { destruct (Nat.eqb_spec (length (hex_bytes text)) 32) as [L|L].
      - destruct (from_seed derive (hex_bytes text)) as [s|] eqn:F; [|discriminate]. apply from_seed_iff in F. cbn [obind] in H.
        rewrite (pair_key_of _ _ _ _ F) in H. eauto 8.
      - destruct (Nat.eqb_spec (length (hex_bytes text)) 64) as [L'|L']; [|discriminate].
        destruct (from_secret_key derive (hex_bytes text)) as [s|] eqn:F; [|discriminate]. apply from_secret_iff in F.
        destruct F as [-> (seed & k & P)]. cbn [obind] in H. rewrite (pair_key_of _ _ _ _ P) in H. eauto 8. }
    destruct K as (seed & secret & k & W & P & K). injection K as <-.
    exists t, tail, (hex_bytes text), seed, secret, k. cbn [kf_text kf_printed kf_path].
    split; [exact E|]. split; [exact T|]. split; [exact W|]. split; [exact P|]. split; [exact R|].
    split; [reflexivity|]. split; [reflexivity|]. destruct rest as [|[|c n] r].
    + right. auto.
    + right. eauto.
    + left. exists (String c n), r. split; [reflexivity|]. split; [discriminate|reflexivity].
  - intros (t & tail & bs & seed & secret & k & E & T & W & P & R & F1 & F2 & F3).
    assert (H : hex_bytes text = bs) by (apply hex_bytes_iff; eauto). rewrite H.
    assert (L : length secret = 64%nat).
    { destruct P as (L & -> & _). rewrite app_length, L, key_bytes_length. reflexivity. }
    assert (G : (if (length bs =? 32)%nat then from_seed derive bs
                 else if (length bs =? 64)%nat then from_secret_key derive bs else None) = Some secret).
    { destruct W as [->| ->].
      - rewrite (proj1 P). cbn [Nat.eqb]. apply from_seed_iff. destruct P as (L1 & L2 & L3). subst k. repeat split; assumption.
      - rewrite L. cbn [Nat.eqb]. apply from_secret_iff. eauto. }
    rewrite G. cbn [obind]. rewrite (pair_key_of _ _ _ _ P). f_equal. destruct f as [f1 f2 f3]. cbn [kf_path kf_text kf_printed] in *.
    rewrite F1, F2. f_equal. destruct F3 as [(name & r & -> & N & ->)|[[->|(r & ->)] ->]]; [|reflexivity|reflexivity].
    destruct name; [congruence|reflexivity].
Qed.
Theorem generate_nothing derive : generate_keypair derive [] = None.
Proof. reflexivity. Qed.
(** Every script reads back the key that was shown. *)
Theorem generate_loads derive args f files : generate_keypair derive args = Some f ->
  exists k, load_key derive (saved files (kf_path f) (kf_text f)) (kf_path f) = Some k /\ kf_printed f = to_base58 k.
Proof.
  destruct args as [|text rest]; [discriminate|]. intros H. apply generate_iff in H.
  destruct H as (t & tail & bs & seed & secret & k & _ & _ & _ & P & _ & F1 & F2 & _). exists k. split; [|exact F2].
  apply load_key_iff. exists (kf_text f), seed, secret. unfold saved. rewrite String.eqb_refl. split; [reflexivity|].
  rewrite F1. split; [apply json_bytes_file|exact P].
Qed.

(** ** upload-image.ts *)
Lemma split_dot s : (exists p e, s = (p ++ "." ++ e)%string /\ (forall j, String.get j e <> Some "."%char) /\ forall part, last_part s part = e) \/
  ((forall j, String.get j s <> Some "."%char) /\ forall part, last_part s part = (part ++ s)%string).
Proof.
  induction s as [|c s IH].
  - right. split; [intros [|j] K; discriminate K|]. intros part. cbn. now rewrite append_nil.
  - destruct IH as [(p & e & -> & D & H)|[D H]].
    + left. exists (String c p), e. split; [reflexivity|]. split; [exact D|]. intros part. cbn [last_part append] in *.
      destruct (Ascii.eqb c "."); apply H.
    + destruct (Ascii.eqb_spec c ".") as [->|N].
      * left. exists ""%string, s. split; [reflexivity|]. split; [exact D|]. intros part. cbn [last_part].
        change (Ascii.eqb "." ".") with true. cbv iota. apply H.
      * right. split; [intros [|j] K; [apply some_ascii in K; congruence|exact (D j K)]|].
        intros part. cbn [last_part]. apply Ascii.eqb_neq in N. rewrite N, H. rewrite append_assoc. reflexivity.
Qed.
Lemma last_part_dot p e part : last_part (p ++ "." ++ e) part = last_part e "".
Proof.
  revert part. induction p as [|c p IH]; intros part; [reflexivity|]. cbn [append last_part].
  destruct (Ascii.eqb c "."); apply IH.
Qed.
Lemma last_part_free e : (forall j, String.get j e <> Some "."%char) -> forall part, last_part e part = (part ++ e)%string.
Proof.
  intros D. destruct (split_dot e) as [(p & e' & -> & _)|[_ H]]; [|exact H]. exfalso. apply (D (String.length p)).
  clear D. induction p as [|c p IH]; [reflexivity|exact IH].
Qed.
Lemma lower_char_same a b : lower_char b = b -> lower_char a = b <-> same_letter a b.
Proof.
  intros B. unfold same_letter. split.
  - unfold lower_char in *. destruct (Nat.leb_spec 65 (nat_of_ascii a)); cbn [andb]; [|auto].
    destruct (Nat.leb_spec (nat_of_ascii a) 90); [|auto]. intros <-. right. exists (nat_of_ascii a - 65)%nat.
    split; [lia|]. left. rewrite nat_ascii_embedding by lia. lia.
  - intros [->|(n & N & [[A B']|[A B']])]; [exact B| |].
    + unfold lower_char. rewrite A. destruct (Nat.leb_spec 65 (65 + n)); [|lia]. destruct (Nat.leb_spec (65 + n) 90); [|lia].
      cbn [andb]. replace (65 + n + 32)%nat with (97 + n)%nat by lia. rewrite <- B'. apply ascii_nat_embedding.
    + exfalso. unfold lower_char in B. rewrite B' in B. destruct (Nat.leb_spec 65 (65 + n)); [|lia].
      destruct (Nat.leb_spec (65 + n) 90); [|lia]. cbn [andb] in B. apply (f_equal nat_of_ascii) in B.
      rewrite nat_ascii_embedding in B by lia. lia.
Qed.
Lemma lower_same s : forall x, lower x = x -> lower s = x <-> same_letters s x.
Proof.
  induction s as [|a s IH]; intros [|b x] F; cbn [lower] in *.
  - split; [constructor|reflexivity].
  - split; [discriminate|intros H; inversion H].
  - split; [discriminate|intros H; inversion H].
  - injection F as F1 F2. split.
    + intros H. injection H as H1 H2. constructor; [now apply lower_char_same|now apply IH].
    + intros H. inversion H as [|a' b' s' x' S T]. subst. f_equal; [now apply lower_char_same|now apply IH].
Qed.
Definition dot_free (s : string) : bool := all_chars (fun c => negb (Ascii.eqb c ".")) s.
Lemma dot_free_get s : dot_free s = true -> forall j, String.get j s <> Some "."%char.
Proof.
  induction s as [|c s IH]; intros H [|j] K; try discriminate K.
  - apply some_ascii in K. subst c. discriminate H.
  - unfold dot_free in H. cbn [all_chars] in H. apply andb_true_iff in H. exact (IH (proj2 H) j K).
Qed.
Lemma same_dot s x : same_letters s x -> dot_free x = true -> forall j, String.get j s <> Some "."%char.
Proof.
  induction 1 as [|a b s x L S IH]; intros F [|j] K; try discriminate K.
  - apply some_ascii in K. subst a. unfold dot_free in F. cbn [all_chars] in F. apply andb_true_iff in F. destruct F as [F _].
    destruct L as [<-|(n & N & [[A _]|[A _]])]; [discriminate F| |]; cbn in A; lia.
  - unfold dot_free in F. cbn [all_chars] in F. apply andb_true_iff in F. exact (IH (proj2 F) j K).
Qed.
Lemma ends_in_iff path x : lower x = x -> dot_free x = true -> lower (last_part path "") = x <-> ends_in path x.
Proof.
  intros L D. rewrite lower_same by exact L. unfold ends_in. split.
  - intros S. destruct (split_dot path) as [(p & e & -> & _ & H)|[_ H]]; rewrite H in S; cbn [append] in S.
    + exists e. split; [exact S|]. right. exists p. reflexivity.
    + exists path. auto.
  - intros (e & S & [->|(p & ->)]); [|rewrite last_part_dot]; rewrite last_part_free; try exact S; exact (same_dot e x S D).
Qed.
Lemma content_type_cases path : (exists e t, In (e, t) endings /\ ends_in path e /\ content_type path = t) \/
  ((forall e t, In (e, t) endings -> ~ ends_in path e) /\ content_type path = "application/octet-stream"%string).
Proof.
  unfold content_type. remember (lower (last_part path "")) as x eqn:X.
  assert (K : forall e t, In (e, t) endings -> ends_in path e <-> x = e).
  { intros e t I. subst x. symmetry. apply ends_in_iff;
      repeat (destruct I as [I|I]; [injection I as <- <-; reflexivity|]); destruct I. }
  clear X. destruct (existsb (fun p => String.eqb x (fst p)) endings) eqn:B.
  - left. apply existsb_exists in B. destruct B as ([e t] & I & E). cbn [fst] in E. apply String.eqb_eq in E. subst x.
    exists e, t. split; [exact I|]. split; [now apply (K e t)|].
    clear K. repeat (destruct I as [I|I]; [injection I as <- <-; reflexivity|]); destruct I.
  - right. assert (N : forall e t, In (e, t) endings -> String.eqb x e = false).
    { intros e t I. destruct (String.eqb x e) eqn:E; [|reflexivity]. exfalso.
      assert (T : existsb (fun p => String.eqb x (fst p)) endings = true) by (apply existsb_exists; exists (e, t); auto). congruence. }
    split; [intros e t I H; apply (K e t I) in H; subst e; pose proof (N x t I) as E; rewrite String.eqb_refl in E; discriminate|].
    assert (N' : forall p, In p endings -> String.eqb x (fst p) = false) by (intros [e t] I; exact (N e t I)).
    pose proof (proj2 (Forall_forall _ _) N') as A. unfold endings in A.
    repeat match goal with A : Forall _ (_ :: _) |- _ =>
      let Q := fresh in let A' := fresh "A" in inversion A as [|? ? Q A']; subst; clear A; cbn [fst] in Q; rewrite Q end.
    reflexivity.
Qed.
Theorem content_type_known path e t : In (e, t) endings -> ends_in path e -> content_type path = t.
Proof.
  intros I H. destruct (content_type_cases path) as [(e' & t' & I' & H' & ->)|[N _]]; [|destruct (N e t I H)].
  assert (E : e = e').
  { assert (G : forall x y, In (x, y) endings -> ends_in path x -> lower (last_part path "") = x).
    { intros x y J Q. apply ends_in_iff; [| |exact Q]; repeat (destruct J as [J|J]; [injection J as <- <-; reflexivity|]); destruct J. }
    rewrite <- (G e t I H), <- (G e' t' I' H'). reflexivity. }
  subst e'. clear - I I'. unfold endings in I, I'.
  repeat (destruct I as [I|I];
    [injection I as <- <-; repeat (destruct I' as [I'|I']; [first [discriminate I'|injection I' as <-; reflexivity]|]); destruct I'|]); destruct I.
Qed.
Theorem content_type_other path : (forall e t, In (e, t) endings -> ~ ends_in path e) ->
  content_type path = "application/octet-stream"%string.
Proof. intros H. destruct (content_type_cases path) as [(e & t & I & K & _)|[_ K]]; [destruct (H e t I K)|exact K]. Qed.

Theorem upload_iff files args u : upload_image files args = Some u <->
  exists image keypair rest text,
    args = image :: keypair :: rest /\ files image = Some (up_data u) /\ files keypair = Some text /\
    file_of text (up_key u) /\ length (up_key u) = 64%nat /\
    up_type u = content_type image /\ up_app u = "xORCA"%string /\
    (((rest = [] \/ exists r, rest = ""%string :: r \/ rest = "mainnet"%string :: r) /\ up_url u = "https://node1.irys.xyz"%string) \/
     ((exists r, rest = "devnet"%string :: r) /\ up_url u = "https://devnet.irys.xyz"%string)).
Proof.
  unfold upload_image. split.
  - destruct args as [|image [|keypair rest]]; try discriminate. intros H.
    remember (match rest with EmptyString :: _ | [] => "mainnet"%string | n :: _ => n end) as network eqn:N.
    destruct (negb _) eqn:B in H; [discriminate|]. destruct (files image) as [data|] eqn:F1; [|discriminate].
    cbn [obind] in H. destruct (files keypair) as [text|] eqn:F2; [|discriminate]. cbn [obind] in H.
    destruct (json_scan JStart text) as [ns|] eqn:S; [|discriminate]. cbn [obind] in H.
    destruct (Nat.eqb_spec (length ns) 64) as [L|L]; [|discriminate]. cbn [negb] in H. injection H as <-.
    exists image, keypair, rest, text. cbn [up_url up_key up_data up_type up_app].
    split; [reflexivity|]. split; [exact F1|]. split; [exact F2|]. split; [apply file_of_iff; now rewrite S|].
    split; [now rewrite map_length|]. split; [reflexivity|]. split; [reflexivity|].
    apply negb_false_iff, orb_true_iff in B. destruct B as [B|B]; apply String.eqb_eq in B; rewrite B in *.
    + left. split; [|reflexivity]. destruct rest as [|[|c n] r]; [auto|right; exists r; auto|right; exists r; right; congruence].
    + right. split; [|reflexivity]. destruct rest as [|[|c n] r]; [discriminate N|discriminate N|exists r; congruence].
  - intros (image & keypair & rest & text & -> & F1 & F2 & F & L & T & A & N). apply file_of_iff in F.
    destruct (json_scan JStart text) as [ns|] eqn:S; [|discriminate]. cbn in F. injection F as F.
    rewrite F1, F2. cbn [obind]. rewrite S. cbn [obind]. rewrite <- F, map_length in L. rewrite L, F. cbn [Nat.eqb negb].
    destruct u as [u1 u2 u3 u4 u5]. cbn [up_url up_key up_data up_type up_app] in *. subst u4 u5.
    destruct N as [[[->|(r & [->| ->])] ->]|[(r & ->) ->]]; reflexivity.
Qed.

(** ** What the scripts do not check *)
Lemma numbers_text ns : ns <> [] -> Forall is_u64 ns -> exists t, items t ns.
Proof.
  induction ns as [|n ns IH]; [congruence|]. intros _ F. inversion F as [|n' ns' U F']. subst.
  pose proof (int_plain _ _ (decimal_text n U)) as D. destruct ns as [|n' ns].
  - eexists. exact (items_one "" _ "" _ white_nil white_nil D).
  - destruct (IH ltac:(discriminate) F') as (t & T). eexists. exact (items_more "" _ "" _ t _ white_nil white_nil D T).
Qed.
Lemma hex_length t bs : hex_text t bs -> String.length t = (2 * length bs)%nat.
Proof. induction 1 as [|a b s x y c bs _ _ _ _ _ _ IH]; [reflexivity|]. cbn [String.length length]. lia. Qed.
Lemma hex_prefix_seed : hex_bytes "00000000000000000000000000000000000000000000000000000000000000000" = repeat x00 32.
Proof. reflexivity. Qed.
Theorem all_hex_refuted derive :
  ~ (forall text rest f, generate_keypair derive (text :: rest) = Some f -> exists bs, hex_text text bs).
Proof.
  intros H. specialize (H "00000000000000000000000000000000000000000000000000000000000000000"%string []).
  unfold generate_keypair in H. rewrite hex_prefix_seed in H. cbn [length repeat Nat.eqb] in H.
  unfold from_seed in H. cbn [length repeat Nat.eqb obind] in H. destruct (H _ eq_refl) as (bs & T). clear H.
  apply hex_length in T. cbn in T. lia.
Qed.
Theorem only_bytes_refuted derive :
  ~ (forall files path text ns k, files path = Some text -> array_text text ns -> load_key derive files path = Some k ->
       Forall (fun n => 0 <= n < 256) ns).
Proof.
  intros H. set (seed := repeat x00 32). set (secret := seed ++ key_bytes (derive seed)).
  set (ns := map (fun b => byte_to_Z b + 256) secret). assert (NE : ns <> []) by discriminate.
  assert (U : Forall is_u64 ns).
  { apply Forall_map, Forall_forall. intros b _. pose proof (byte_to_Z_range b). unfold is_u64. lia. }
  destruct (numbers_text ns NE U) as (t & T).
  assert (A : array_text ("[" ++ t ++ "]") ns).
  { exists ""%string, t, ""%string. split; [apply white_nil|]. split; [apply white_nil|]. split; [|auto].
    cbn [append]. now rewrite ?append_nil. }
  specialize (H (fun _ => Some ("[" ++ t ++ "]")%string) ""%string _ ns (derive seed) eq_refl A).
  assert (K : load_key derive (fun _ => Some ("[" ++ t ++ "]")%string) "" = Some (derive seed)).
  { apply load_key_iff. eexists _, seed, secret. split; [reflexivity|]. split; [|repeat split; reflexivity].
    exists ns. split; [exact A|]. apply becomes_all. unfold ns. rewrite map_map. rewrite <- (map_id secret) at 2. apply map_ext.
    intros b. pose proof (byte_to_Z_range b). unfold to_uint8. destruct (Z.ltb_spec (byte_to_Z b + 256) 0); [lia|].
    unfold to_double. destruct (Z.leb_spec (byte_to_Z b + 256) (2 ^ 53)); [|lia].
    rewrite <- Z_to_byte_mod. replace ((byte_to_Z b + 256) mod 256) with (byte_to_Z b); [apply byte_to_Z_to_byte|].
    replace (byte_to_Z b + 256) with (byte_to_Z b + 1 * 256) by lia. rewrite Z.mod_add by lia. symmetry. apply Z.mod_small. lia. }
  specialize (H K). inversion H as [|n ns' B _ E]. cbn in B. lia.
Qed.
Theorem upload_checks_refuted derive :
  ~ (forall files image path rest u, upload_image files (image :: path :: rest) = Some u ->
       exists k, load_key derive files path = Some k).
Proof.
  intros H. set (seed := repeat x00 32).
  assert (N : exists k, k <> derive seed).
  { destruct (key_eq_dec zero_key (derive seed)) as [E|E]; [|eauto]. exists (key_of (repeat x01 32)). rewrite <- E. discriminate. }
  destruct N as (k & N). set (secret := seed ++ key_bytes k).
  specialize (H (fun _ => Some (json_bytes secret)) "a.png"%string "k.json"%string []
    (Upload "https://node1.irys.xyz" secret (json_bytes secret) (content_type "a.png") "xORCA")).
  destruct H as (k' & K).
  - apply upload_iff. eexists _, _, _, _. cbn [up_url up_key up_data up_type up_app]. split; [reflexivity|]. split; [reflexivity|].
    split; [reflexivity|]. split; [apply json_bytes_file|]. split; [|split; [reflexivity|split; [reflexivity|left; auto]]].
    unfold secret. rewrite app_length, key_bytes_length. reflexivity.
  - apply load_key_iff in K. destruct K as (text & sd & s & F & T & L & -> & ->). injection F as <-.
    pose proof (file_of_unique _ _ _ (json_bytes_file secret) T) as E. apply N. unfold secret in E.
    pose proof (same_head _ _ _ _ (eq_trans (repeat_length x00 32) (eq_sym L)) E) as S. fold seed in S. rewrite <- S in E.
    apply app_inv_head in E. now apply pubkey_eq.
Qed.

(** ** From a typed key to a transaction *)
Theorem generate_stakes derive args f files C E l amount rest ops : generate_keypair derive args = Some f ->
  stake_cli C E (load_key derive (saved files (kf_path f) (kf_text f))) l (kf_path f :: amount :: rest) = Some ops ->
  exists k n, kf_printed f = to_base58 k /\ denotes amount n /\ is_u64 n /\ asks E ops k (Stake n).
Proof.
  intros G H. destruct (generate_loads derive args f files G) as (k & K & P).
  apply stake_cli_asks in H. destruct H as (path & text & r & who & n & A & L & D & U & Q). injection A as <- <- <-.
  rewrite K in L. injection L as <-. eauto 8.
Qed.
