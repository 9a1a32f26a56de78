(** Reading numbers and addresses from a command line. *)
From Coq Require Import String Ascii.
From Verif Require Export CliSpec.
From Verif Require Import BytesFacts LogFacts.
Import List ListNotations.
Open Scope list_scope.
Open Scope Z_scope.

(** ** Strings *)
Lemma append_nil s : (s ++ "")%string = s.
Proof. induction s as [|c s IH]; [reflexivity|]. cbn [append]. now rewrite IH. Qed.
Lemma append_assoc a b c : ((a ++ b) ++ c)%string = (a ++ b ++ c)%string.
Proof. induction a as [|x a IH]; [reflexivity|]. cbn [append]. now rewrite IH. Qed.
Lemma string_snoc s : s = EmptyString \/ exists t c, s = (t ++ String c "")%string.
Proof.
  induction s as [|c s [->|(t & d & ->)]]; [now left| |]; right.
  - exists EmptyString, c. reflexivity.
  - exists (String c t), d. reflexivity.
Qed.
Lemma snoc_length t c : String.length (t ++ String c "")%string = S (String.length t).
Proof. induction t as [|x t IH]; [reflexivity|]. cbn [append String.length]. now rewrite IH. Qed.

(** ** Digits *)
Lemma by_char (f : ascii -> bool) :
  forallb (fun n => f (ascii_of_nat n)) (seq 0 256) = true -> forall c, f c = true.
Proof.
  intros H c. rewrite forallb_forall in H. specialize (H (nat_of_ascii c)). rewrite ascii_nat_embedding in H.
  apply H. apply in_seq. pose proof (nat_ascii_bounded c). lia.
Qed.
Definition digit_ok (c : ascii) : bool :=
  let d := digit_value c in
  (d =? 99) || (0 <=? d) && (d <? 36) &&
    (match String.get (Z.to_nat d) "0123456789abcdefghijklmnopqrstuvwxyz" with Some a => Ascii.eqb a c | None => false end ||
     match String.get (Z.to_nat d) "0123456789ABCDEFGHIJKLMNOPQRSTUVWXYZ" with Some a => Ascii.eqb a c | None => false end).
Lemma digit_ok_all c : digit_ok c = true.
Proof. apply by_char. vm_compute. reflexivity. Qed.
Lemma digit_is c d : d < 36 -> digit_value c = d -> digit c d.
Proof.
  intros L H. pose proof (digit_ok_all c) as K. unfold digit_ok in K. rewrite H in K.
  apply orb_true_iff in K. destruct K as [K|K]; [apply Z.eqb_eq in K; lia|].
  apply andb_true_iff in K. destruct K as [K1 K]. apply andb_true_iff in K1. destruct K1 as [K1 _]. apply Z.leb_le in K1.
  exists (Z.to_nat d). split; [now rewrite Z2Nat.id|]. apply orb_true_iff in K. destruct K as [K|K]; [left|right].
  - destruct (String.get _ _) as [a|]; [|discriminate]. apply Ascii.eqb_eq in K. now subst.
  - destruct (String.get _ _) as [a|]; [|discriminate]. apply Ascii.eqb_eq in K. now subst.
Qed.
Lemma is_digit c d : digit c d -> digit_value c = d /\ 0 <= d < 36.
Proof.
  intros (n & -> & H).
  assert (L : (n < 36)%nat).
  { destruct (Nat.lt_ge_cases n 36) as [L|L]; [exact L|]. exfalso.
    do 36 (destruct n as [|n]; [lia|]). destruct H as [H|H]; cbn in H; destruct n; discriminate H. }
  split; [|lia].
  do 36 (destruct n as [|n];
    [destruct H as [H|H]; apply some_ascii in H; rewrite <- H; reflexivity|]). lia.
Qed.
Lemma digit_value_nonneg c : 0 <= digit_value c.
Proof.
  pose proof (digit_ok_all c) as K. unfold digit_ok in K. apply orb_true_iff in K. destruct K as [K|K].
  - apply Z.eqb_eq in K. lia.
  - apply andb_true_iff in K. destruct K as [K _]. apply andb_true_iff in K. destruct K as [K _]. apply Z.leb_le in K. lia.
Qed.

(** ** Numerals *)
Fixpoint num (r : Z) (s : string) (acc : Z) : option Z :=
  match s with
  | String c s' => if digit_value c <? r then num r s' (r * acc + digit_value c) else None
  | EmptyString => Some acc
  end.
Lemma num_app r s t : forall acc, num r (s ++ t) acc = match num r s acc with Some v => num r t v | None => None end.
Proof. induction s as [|c s IH]; intros acc; [reflexivity|]. cbn [append num]. destruct (_ <? _); [apply IH|reflexivity]. Qed.
Lemma whole_some r s : forall acc, whole_number r s (Some acc) = num r s acc.
Proof. induction s as [|c s IH]; intros acc; [reflexivity|]. cbn [whole_number num]. destruct (_ <? _); [apply IH|reflexivity]. Qed.
Lemma whole_none r s : whole_number r s None = match s with EmptyString => None | _ => num r s 0 end.
Proof. destruct s as [|c s]; [reflexivity|]. cbn [whole_number num]. destruct (_ <? _); [apply whole_some|reflexivity]. Qed.
Lemma numeral_num r s v : numeral r s v -> s <> EmptyString /\ num r s 0 = Some v.
Proof.
  induction 1 as [c d H L|s v c d H [N IH] D L].
  - apply is_digit in H. destruct H as [H _]. split; [discriminate|]. cbn [num]. rewrite H.
    destruct (Z.ltb_spec d r); [|lia]. f_equal. lia.
  - apply is_digit in D. destruct D as [D _]. split; [destruct s; discriminate|].
    rewrite num_app, IH. cbn [num]. rewrite D. destruct (Z.ltb_spec d r); [reflexivity|lia].
Qed.
Lemma num_numeral r : r <= 36 -> forall n s v, (String.length s <= n)%nat -> s <> EmptyString -> num r s 0 = Some v -> numeral r s v.
Proof.
  intros R. induction n as [|n IH]; intros s v L N H.
  - destruct s; [congruence|cbn in L; lia].
  - destruct (string_snoc s) as [->|(t & c & ->)]; [congruence|]. rewrite snoc_length in L.
    rewrite num_app in H. destruct (num r t 0) as [w|] eqn:E; [|discriminate]. cbn [num] in H.
    destruct (Z.ltb_spec (digit_value c) r) as [D|D]; [|discriminate]. injection H as <-.
    destruct t as [|x t].
    + cbn in E. injection E as <-. cbn [append]. replace (r * 0 + digit_value c) with (digit_value c) by lia.
      apply num_one; [apply digit_is; [lia|reflexivity]|exact D].
    + apply num_more; [apply IH; [lia|discriminate|exact E]|apply digit_is; [lia|reflexivity]|exact D].
Qed.
Lemma numeral_iff r s v : r <= 36 -> numeral r s v <-> s <> EmptyString /\ num r s 0 = Some v.
Proof. intros R. split; [apply numeral_num|]. intros [N H]. now apply (num_numeral r R (String.length s)). Qed.
Lemma whole_number_iff r s v : r <= 36 -> whole_number r s None = Some v <-> numeral r s v.
Proof.
  intros R. rewrite numeral_iff, whole_none by exact R. destruct s; [split; [discriminate|intros [H _]; congruence]|].
  split; [intros H; split; [discriminate|exact H]|intros [_ H]; exact H].
Qed.
Lemma begins_digit_iff r s : r <= 36 ->
  begins_with_digit r s <-> match s with String c _ => digit_value c < r | EmptyString => False end.
Proof.
  intros R. split.
  - intros (c & s' & d & -> & D & L). apply is_digit in D. destruct D as [-> _]. exact L.
  - destruct s as [|c s]; [intros []|]. intros H. exists c, s, (digit_value c).
    split; [reflexivity|]. split; [apply digit_is; [lia|reflexivity]|exact H].
Qed.
Lemma leading_some r s : r <= 36 -> forall acc, exists t rest v,
  s = (t ++ rest)%string /\ num r t acc = Some v /\ ~ begins_with_digit r rest /\ leading_number r s (Some acc) = Some v.
Proof.
  intros R. induction s as [|c s IH]; intros acc.
  - exists EmptyString, EmptyString, acc. repeat split; try reflexivity. rewrite begins_digit_iff by exact R. tauto.
  - cbn [leading_number]. destruct (Z.ltb_spec (digit_value c) r) as [D|D].
    + destruct (IH (r * acc + digit_value c)) as (t & rest & v & -> & H1 & H2 & H3).
      exists (String c t), rest, v. split; [reflexivity|]. cbn [num]. destruct (Z.ltb_spec (digit_value c) r); [|lia]. auto.
    + exists EmptyString, (String c s), acc. repeat split; try reflexivity. rewrite begins_digit_iff by exact R. lia.
Qed.
Lemma leading_app r t rest : r <= 36 -> ~ begins_with_digit r rest -> forall acc v, num r t acc = Some v ->
  leading_number r (t ++ rest) (Some acc) = Some v.
Proof.
  intros R N. induction t as [|c t IH]; intros acc v H.
  - cbn in H. injection H as <-. cbn [append]. rewrite begins_digit_iff in N by exact R.
    destruct rest as [|c rest]; [reflexivity|]. cbn [leading_number]. destruct (Z.ltb_spec (digit_value c) r); [lia|reflexivity].
  - cbn [num append leading_number] in *. destruct (_ <? _); [apply IH; exact H|discriminate].
Qed.
Lemma leading_iff r s v : r <= 36 -> leading_number r s None = Some v <->
  exists t rest, s = (t ++ rest)%string /\ numeral r t v /\ ~ begins_with_digit r rest.
Proof.
  intros R. split.
  - destruct s as [|c s]; [discriminate|]. cbn [leading_number]. destruct (Z.ltb_spec (digit_value c) r) as [D|D]; [|discriminate].
    intros H. destruct (leading_some r s R (r * 0 + digit_value c)) as (t & rest & w & -> & H1 & H2 & H3).
    rewrite H in H3. injection H3 as <-. exists (String c t), rest. split; [reflexivity|]. split; [|exact H2].
    apply numeral_iff; [exact R|]. split; [discriminate|]. cbn [num]. destruct (Z.ltb_spec (digit_value c) r); [exact H1|lia].
  - intros (t & rest & -> & H & N). apply numeral_num in H. destruct H as [H0 H]. destruct t as [|c t]; [congruence|].
    cbn [num append leading_number] in *. destruct (_ <? _); [|discriminate]. now apply leading_app.
Qed.

(** ** Blanks *)
Fixpoint all_chars (f : ascii -> bool) (s : string) : bool :=
  match s with String c s' => f c && all_chars f s' | EmptyString => true end.
Definition char_blank (c : ascii) : bool := existsb (Nat.eqb (nat_of_ascii c)) [9; 10; 11; 12; 13; 32]%nat.
Lemma char_blank_is c : js_blank c = char_blank c.
Proof.
  apply eqb_prop. revert c. apply (by_char (fun c => Bool.eqb (js_blank c) (char_blank c))). vm_compute. reflexivity.
Qed.
Lemma js_blank_iff c : js_blank c = true <-> In (nat_of_ascii c) [9; 10; 11; 12; 13; 32]%nat.
Proof.
  rewrite char_blank_is. unfold char_blank. rewrite existsb_exists. split.
  - intros (n & H & E). apply Nat.eqb_eq in E. now rewrite E.
  - intros H. eexists. split; [exact H|apply Nat.eqb_refl].
Qed.
Lemma blank_iff s : blank s <-> all_chars js_blank s = true.
Proof.
  unfold blank. induction s as [|c s IH]; [split; [reflexivity|intros _ [|j] c H; discriminate H]|].
  cbn [all_chars]. rewrite andb_true_iff, js_blank_iff, <- IH. split.
  - intros H. split; [exact (H 0%nat c eq_refl)|]. intros j. exact (H (S j)).
  - intros [H0 H] [|j] d K; [apply some_ascii in K; now rewrite <- K|exact (H j d K)].
Qed.
Lemma trim_start_split s : exists p, all_chars js_blank p = true /\ s = (p ++ trim_start s)%string.
Proof.
  induction s as [|c s (p & H & E)]; [exists EmptyString; split; reflexivity|]. cbn [trim_start].
  destruct (js_blank c) eqn:B; [|exists EmptyString; split; reflexivity].
  exists (String c p). cbn [all_chars append]. rewrite B. split; [exact H|congruence].
Qed.
Lemma trim_start_app p s : all_chars js_blank p = true -> trim_start (p ++ s) = trim_start s.
Proof.
  induction p as [|c p IH]; intros H; [reflexivity|]. cbn [all_chars append trim_start] in *.
  apply andb_true_iff in H. destruct H as [-> H]. now apply IH.
Qed.
Lemma trim_end_split s : exists q, all_chars js_blank q = true /\ s = (trim_end s ++ q)%string.
Proof.
  induction s as [|c s (q & H & E)]; [exists EmptyString; split; reflexivity|]. cbn [trim_end].
  destruct (trim_end s) as [|d t].
  - cbn [append] in E. subst s. destruct (js_blank c) eqn:B.
    + exists (String c q). cbn [all_chars]. rewrite B. split; [exact H|reflexivity].
    + exists q. split; [exact H|reflexivity].
  - exists q. split; [exact H|]. rewrite E at 1. reflexivity.
Qed.
Lemma trim_end_blank q : all_chars js_blank q = true -> trim_end q = EmptyString.
Proof.
  induction q as [|c q IH]; intros H; [reflexivity|]. cbn [all_chars trim_end] in *.
  apply andb_true_iff in H. destruct H as [-> H]. now rewrite IH.
Qed.
Definition solid (s : string) : Prop := all_chars (fun c => negb (js_blank c)) s = true.
Lemma trim_end_solid t q : solid t -> all_chars js_blank q = true -> trim_end (t ++ q) = t.
Proof.
  unfold solid. intros H Q. induction t as [|c t IH]; [now apply trim_end_blank|].
  cbn [all_chars append trim_end] in *. apply andb_true_iff in H. destruct H as [B H].
  rewrite (IH H). destruct t; [|reflexivity]. apply negb_true_iff in B. now rewrite B.
Qed.
Lemma trim_start_solid t q : solid t -> t <> EmptyString -> trim_start (t ++ q) = (t ++ q)%string.
Proof.
  unfold solid. intros H N. destruct t as [|c t]; [congruence|]. cbn [all_chars append trim_start] in *.
  apply andb_true_iff in H. destruct H as [B _]. apply negb_true_iff in B. now rewrite B.
Qed.
Lemma digit_not_blank c : digit_value c < 36 -> js_blank c = false.
Proof.
  intros H. assert (K : (36 <=? digit_value c) || negb (js_blank c) = true).
  { apply (by_char (fun c => (36 <=? digit_value c) || negb (js_blank c))). vm_compute. reflexivity. }
  apply orb_true_iff in K. destruct K as [K|K]; [apply Z.leb_le in K; lia|now apply negb_true_iff].
Qed.
Lemma num_solid r s : r <= 36 -> forall acc v, num r s acc = Some v -> solid s.
Proof.
  unfold solid. intros R. induction s as [|c s IH]; intros acc v H; [reflexivity|]. cbn [num all_chars] in *.
  destruct (Z.ltb_spec (digit_value c) r) as [D|D]; [|discriminate].
  rewrite digit_not_blank by lia. exact (IH _ _ H).
Qed.

(** ** [BigInt] *)
Lemma eqb_char a b : Ascii.eqb a b = true -> a = b.
Proof. apply Ascii.eqb_eq. Qed.
Lemma not_digit10 c : digit_value c < 10 -> (48 <= nat_of_ascii c <= 57)%nat.
Proof.
  intros H. assert (K : (10 <=? digit_value c) || ((48 <=? nat_of_ascii c) && (nat_of_ascii c <=? 57))%nat = true).
  { apply (by_char (fun c => (10 <=? digit_value c) || ((48 <=? nat_of_ascii c) && (nat_of_ascii c <=? 57))%nat)).
    vm_compute. reflexivity. }
  apply orb_true_iff in K. destruct K as [K|K]; [apply Z.leb_le in K; lia|].
  apply andb_true_iff in K. destruct K as [K1 K2]. apply Nat.leb_le in K1, K2. lia.
Qed.
Lemma digit_not c x : digit_value c < 10 -> (57 < nat_of_ascii x \/ nat_of_ascii x < 48)%nat -> Ascii.eqb c x = false.
Proof. intros D X. apply not_digit10 in D. apply Ascii.eqb_neq. intros ->. lia. Qed.

Definition read_whole (s : string) : option Z :=
  match s with
  | EmptyString => Some 0
  | String a (String b s') =>
      if Ascii.eqb a "0" && (Ascii.eqb b "x" || Ascii.eqb b "X") then whole_number 16 s' None
      else if Ascii.eqb a "0" && (Ascii.eqb b "o" || Ascii.eqb b "O") then whole_number 8 s' None
      else if Ascii.eqb a "0" && (Ascii.eqb b "b" || Ascii.eqb b "B") then whole_number 2 s' None
      else let (negative, d) := signed s in
           option_map (fun v => if negative then - v else v) (whole_number 10 d None)
  | _ => whole_number 10 s None
  end.
Lemma big_int_whole s : big_int s = read_whole (trim_end (trim_start s)).
Proof. reflexivity. Qed.
Lemma signed_whole s v :
  (let (negative, d) := signed s in option_map (fun v => if negative then - v else v) (whole_number 10 d None)) = Some v ->
  whole_text s v.
Proof.
  destruct s as [|c s]; [discriminate|]. cbn [signed]. destruct (Ascii.eqb c "-") eqn:M; [|destruct (Ascii.eqb c "+") eqn:P].
  - apply eqb_char in M. subst c. destruct (whole_number 10 s None) as [w|] eqn:W; [|discriminate]. cbn [option_map].
    intros H. injection H as <-. apply whole_number_iff in W; [|lia]. exact (whole_minus s w W).
  - apply eqb_char in P. subst c. destruct (whole_number 10 s None) as [w|] eqn:W; [|discriminate]. cbn [option_map].
    intros H. injection H as <-. apply whole_number_iff in W; [|lia]. exact (whole_plus s w W).
  - destruct (whole_number 10 (String c s) None) as [w|] eqn:W; [|discriminate]. cbn [option_map].
    intros H. injection H as <-. apply whole_number_iff in W; [|lia]. exact (whole_decimal _ w W).
Qed.
Lemma prefix_char a b x X : Ascii.eqb a "0" && (Ascii.eqb b x || Ascii.eqb b X) = true ->
  a = "0"%char /\ (b = x \/ b = X).
Proof.
  intros H. apply andb_true_iff in H. destruct H as [H K]. apply eqb_char in H.
  apply orb_true_iff in K. split; [exact H|]. destruct K as [K|K]; apply eqb_char in K; auto.
Qed.
Lemma read_whole_text s v : read_whole s = Some v -> whole_text s v.
Proof.
  destruct s as [|a s]; [intros H; injection H as <-; constructor|]. destruct s as [|b s].
  - cbn [read_whole]. intros H. apply whole_number_iff in H; [|lia]. now constructor.
  - cbn [read_whole].
    destruct (_ && (Ascii.eqb b "x" || _)) eqn:E1.
    { apply prefix_char in E1. destruct E1 as [-> E1]. intros H. apply whole_number_iff in H; [|lia].
      destruct E1 as [-> | ->]; [apply (whole_hex "0x")|apply (whole_hex "0X")]; cbn [In]; tauto. }
    destruct (_ && (Ascii.eqb b "o" || _)) eqn:E2.
    { apply prefix_char in E2. destruct E2 as [-> E2]. intros H. apply whole_number_iff in H; [|lia].
      destruct E2 as [-> | ->]; [apply (whole_octal "0o")|apply (whole_octal "0O")]; cbn [In]; tauto. }
    destruct (_ && (Ascii.eqb b "b" || _)) eqn:E3.
    { apply prefix_char in E3. destruct E3 as [-> E3]. intros H. apply whole_number_iff in H; [|lia].
      destruct E3 as [-> | ->]; [apply (whole_binary "0b")|apply (whole_binary "0B")]; cbn [In]; tauto. }
    apply signed_whole.
Qed.
Lemma signed_digit c s : digit_value c < 10 -> signed (String c s) = (false, String c s).
Proof.
  intros D. cbn [signed]. rewrite !digit_not; [reflexivity|exact D|cbn; lia|exact D|cbn; lia].
Qed.
Lemma numeral_first r s v : numeral r s v -> exists c s', s = String c s' /\ digit_value c < r /\ num r s 0 = Some v.
Proof.
  intros H. apply numeral_num in H. destruct H as [N H]. destruct s as [|c s]; [congruence|].
  exists c, s. split; [reflexivity|]. split; [|exact H]. cbn [num] in H. destruct (Z.ltb_spec (digit_value c) r); [lia|discriminate].
Qed.
Lemma text_read_whole s v : whole_text s v -> read_whole s = Some v.
Proof.
  intros H. destruct H as [|s v H|s v H|s v H|x s v X H|x s v X H|x s v X H].
  - reflexivity.
  - destruct (numeral_first _ _ _ H) as (a & t & -> & D & K). apply whole_number_iff in H; [|lia].
    destruct t as [|b t]; [exact H|]. cbn [read_whole].
    assert (Db : digit_value b < 10).
    { cbn [num] in K. destruct (_ <? _) in K; [|discriminate]. destruct (Z.ltb_spec (digit_value b) 10) as [Q|Q]; [exact Q|discriminate]. }
    assert (forall x, (57 < nat_of_ascii x \/ nat_of_ascii x < 48)%nat -> Ascii.eqb b x = false) as B by (intros; now apply digit_not).
    rewrite !B, !andb_false_r by (cbn; lia). rewrite signed_digit by exact D. now rewrite H.
  - destruct (numeral_first _ _ _ H) as (a & t & -> & D & K). apply whole_number_iff in H; [|lia].
    cbn [append read_whole]. change (Ascii.eqb "+" "0") with false. rewrite !andb_false_l. cbn [signed].
    change (Ascii.eqb "+" "-") with false. change (Ascii.eqb "+" "+") with true. cbv iota. now rewrite H.
  - destruct (numeral_first _ _ _ H) as (a & t & -> & D & K). apply whole_number_iff in H; [|lia].
    cbn [append read_whole]. change (Ascii.eqb "-" "0") with false. rewrite !andb_false_l. cbn [signed].
    change (Ascii.eqb "-" "-") with true. cbv iota. now rewrite H.
  - apply whole_number_iff in H; [|lia]. cbn [In] in X. destruct X as [<-|[<-|[]]]; exact H.
  - apply whole_number_iff in H; [|lia]. cbn [In] in X. destruct X as [<-|[<-|[]]]; exact H.
  - apply whole_number_iff in H; [|lia]. cbn [In] in X. destruct X as [<-|[<-|[]]]; exact H.
Qed.
Lemma solid_cons c s : js_blank c = false -> solid s -> solid (String c s).
Proof. unfold solid. intros B H. cbn [all_chars]. now rewrite B. Qed.
Lemma whole_solid s v : whole_text s v -> solid s.
Proof.
  intros H. destruct H as [|s v H|s v H|s v H|x s v X H|x s v X H|x s v X H]; [reflexivity|..];
    (destruct (numeral_num _ _ _ H) as [_ K]; apply num_solid in K; [|lia]).
  - exact K.
  - now apply solid_cons.
  - now apply solid_cons.
  - cbn [In] in X. destruct X as [<-|[<-|[]]]; now do 2 (apply solid_cons; [reflexivity|]).
  - cbn [In] in X. destruct X as [<-|[<-|[]]]; now do 2 (apply solid_cons; [reflexivity|]).
  - cbn [In] in X. destruct X as [<-|[<-|[]]]; now do 2 (apply solid_cons; [reflexivity|]).
Qed.
Theorem big_int_denotes s v : big_int s = Some v <-> denotes s v.
Proof.
  rewrite big_int_whole. split.
  - intros H. destruct (trim_start_split s) as (p & Hp & Es). destruct (trim_end_split (trim_start s)) as (q & Hq & Et).
    exists p, (trim_end (trim_start s)), q. rewrite !blank_iff. split; [exact Hp|]. split; [exact Hq|].
    split; [now rewrite <- Et|]. now apply read_whole_text.
  - intros (p & t & q & Hp & Hq & -> & H). rewrite blank_iff in Hp, Hq. pose proof (whole_solid _ _ H) as S.
    rewrite trim_start_app by exact Hp. destruct t as [|c t].
    + cbn [append]. replace (trim_end (trim_start q)) with EmptyString; [now apply text_read_whole|].
      rewrite <- (append_nil q), trim_start_app by exact Hq. reflexivity.
    + rewrite trim_start_solid by (exact S || discriminate). rewrite trim_end_solid by assumption. now apply text_read_whole.
Qed.
Corollary denotes_unique s v w : denotes s v -> denotes s w -> v = w.
Proof. rewrite <- !big_int_denotes. congruence. Qed.

(** ** Doubles *)
Lemma pow2_pos e : 0 <= e -> 0 < 2 ^ e.
Proof. intros. apply Z.pow_pos_nonneg; lia. Qed.
Record rounding (v e q : Z) : Prop := {
  rd_e : 1 <= e; rd_q : 2 ^ 52 <= q < 2 ^ 53; rd_lo : q * 2 ^ e <= v < (q + 1) * 2 ^ e }.
Lemma rounding_of v : 2 ^ 53 < v -> rounding v (Z.log2 v - 52) (v / 2 ^ (Z.log2 v - 52)).
Proof.
  intros H. assert (L : 53 <= Z.log2 v) by (apply Z.log2_le_pow2; lia).
  set (e := Z.log2 v - 52). pose proof (pow2_pos e ltac:(lia)) as P.
  destruct (Z.log2_spec v ltac:(lia)) as [S1 S2].
  replace (2 ^ Z.log2 v) with (2 ^ 52 * 2 ^ e) in S1 by (rewrite <- Z.pow_add_r; [f_equal; lia|lia|lia]).
  replace (2 ^ Z.succ (Z.log2 v)) with (2 ^ 53 * 2 ^ e) in S2 by (rewrite <- Z.pow_add_r; [f_equal; lia|lia|lia]).
  split; [lia| |].
  - split; [apply Z.div_le_lower_bound; lia|apply Z.div_lt_upper_bound; lia].
  - pose proof (Z.div_mod v (2 ^ e) ltac:(lia)). pose proof (Z.mod_pos_bound v (2 ^ e) P). nia.
Qed.
(** No double lies strictly between two neighbours. *)
Lemma no_double_between v e q d : rounding v e q -> double d -> d <= q * 2 ^ e \/ (q + 1) * 2 ^ e <= d.
Proof.
  intros [He Hq _] (m & f & Hf & Hm & ->). pose proof (pow2_pos e ltac:(lia)) as P.
  destruct (Z.le_gt_cases e f) as [L|L].
  - replace (2 ^ f) with (2 ^ (f - e) * 2 ^ e) by (rewrite <- Z.pow_add_r; [f_equal; lia|lia|lia]).
    destruct (Z.le_gt_cases (m * 2 ^ (f - e)) q); [left|right]; nia.
  - left. assert (m * 2 ^ f <= 2 ^ 53 * 2 ^ (e - 1)).
    { pose proof (pow2_pos f Hf). assert (2 ^ f <= 2 ^ (e - 1)) by (apply Z.pow_le_mono_r; lia). nia. }
    replace (2 ^ 53 * 2 ^ (e - 1)) with (2 ^ 52 * 2 ^ e) in H by (rewrite <- !Z.pow_add_r; [f_equal; lia|lia|lia|lia|lia]). nia.
Qed.
Lemma small_double v : Z.abs v <= 2 ^ 53 -> double v.
Proof. intros H. exists v, 0. split; [lia|]. split; [exact H|]. change (2 ^ 0) with 1. lia. Qed.
Lemma to_double_cases v : 2 ^ 53 < v -> exists e q r,
  rounding v e q /\ r = v - q * 2 ^ e /\
  to_double v = (if (2 ^ e <? 2 * r) || (2 ^ e =? 2 * r) && Z.odd q then q + 1 else q) * 2 ^ e.
Proof.
  intros H. pose proof (rounding_of v H) as R. exists (Z.log2 v - 52), (v / 2 ^ (Z.log2 v - 52)), (v mod 2 ^ (Z.log2 v - 52)).
  split; [exact R|]. pose proof (pow2_pos (Z.log2 v - 52) ltac:(destruct R; lia)). split.
  - pose proof (Z.div_mod v (2 ^ (Z.log2 v - 52)) ltac:(lia)). lia.
  - unfold to_double. destruct (Z.leb_spec v (2 ^ 53)); [lia|reflexivity].
Qed.
Theorem to_double_rounds v : 0 <= v -> rounds v (to_double v).
Proof.
  intros V. destruct (Z.le_gt_cases v (2 ^ 53)) as [L|L].
  - unfold to_double. destruct (Z.leb_spec v (2 ^ 53)); [|lia]. split; [apply small_double; lia|].
    intros d _. rewrite Z.sub_diag. split; [lia|]. intros H0. left. cbn in H0. lia.
  - destruct (to_double_cases v L) as (e & q & r & R & Er & ->). pose proof (no_double_between v e q) as N.
    pose proof R as [He Hq Hv].
    pose proof (pow2_pos e ltac:(lia)) as P. set (p := 2 ^ e) in *.
    assert (Dq : double (q * p)) by (exists q, e; split; [lia|]; split; [lia|reflexivity]).
    assert (Dq1 : double ((q + 1) * p)) by (exists (q + 1), e; split; [lia|]; split; [lia|reflexivity]).
    destruct (Z.ltb_spec p (2 * r)) as [B|B]; cbn [orb].
    + split; [exact Dq1|]. intros d D. destruct (N d R D) as [K|K]; fold p in K; (split; [lia|]); intros; left; nia.
    + destruct (Z.eqb_spec p (2 * r)) as [T|T]; cbn [andb].
      * assert (Ev : even_double ((if Z.odd q then q + 1 else q) * p)).
        { destruct (Z.odd q) eqn:O.
          - exists (q + 1), e. split; [lia|]. split; [lia|]. split; [|reflexivity].
            apply Z.odd_spec in O. destruct O as [x ->]. exists (x + 1). lia.
          - exists q, e. split; [lia|]. split; [lia|]. split; [|reflexivity].
            apply Z.even_spec. rewrite <- Z.negb_odd, O. reflexivity. }
        split; [destruct (Z.odd q); assumption|]. intros d D. split; [|intros _; right; exact Ev].
        destruct (N d R D) as [K|K]; fold p in K; destruct (Z.odd q); nia.
      * split; [exact Dq|]. intros d D. destruct (N d R D) as [K|K]; fold p in K; (split; [nia|]); intros; left; nia.
Qed.
Lemma odd_not_even_double q e : 1 <= e -> 2 ^ 52 <= q <= 2 ^ 53 -> Z.Odd q -> ~ even_double (q * 2 ^ e).
Proof.
  intros He Hq [x O] (m & f & Hf & Hm & [y Ev] & E). pose proof (pow2_pos e ltac:(lia)) as P. pose proof (pow2_pos f Hf) as F.
  destruct (Z.lt_ge_cases f e) as [L|L].
  - replace (2 ^ e) with (2 ^ (e - f) * 2 ^ f) in E by (rewrite <- Z.pow_add_r; [f_equal; lia|lia|lia]).
    assert (K : m = q * 2 ^ (e - f)) by nia.
    assert (2 ^ 1 <= 2 ^ (e - f)) by (apply Z.pow_le_mono_r; lia). change (2 ^ 1) with 2 in H. nia.
  - replace (2 ^ f) with (2 ^ (f - e) * 2 ^ e) in E by (rewrite <- Z.pow_add_r; [f_equal; lia|lia|lia]).
    assert (K : q = m * 2 ^ (f - e)) by nia. set (w := 2 ^ (f - e)) in *. subst m q.
    assert (2 * (y * w - x) = 1) by lia. lia.
Qed.
Theorem rounds_to_double v d : 0 <= v -> rounds v d -> d = to_double v.
Proof.
  intros V [D H]. pose proof (to_double_rounds v V) as [D' H']. destruct (Z.eq_dec d (to_double v)) as [E|E]; [exact E|].
  exfalso. destruct (H _ D') as [H1 H2]. destruct (H' _ D) as [H1' H2'].
  destruct (H2 ltac:(lia)) as [K|K]; [congruence|]. destruct (H2' ltac:(lia)) as [K'|K']; [congruence|].
  destruct (Z.le_gt_cases v (2 ^ 53)) as [L|L].
  - assert (T : to_double v = v) by (unfold to_double; destruct (Z.leb_spec v (2 ^ 53)); [reflexivity|lia]).
    rewrite T in *. lia.
  - pose proof (to_double_cases v L) as (e & q & r & R & Er & T).
    pose proof (no_double_between v e q d R D) as N. destruct R as [He Hq Hv].
    pose proof (pow2_pos e ltac:(lia)) as P.
    assert (Q : Z.Odd q \/ Z.Odd (q + 1)).
    { destruct (Z.Even_or_Odd q) as [[x X]|O]; [right; exists x; lia|now left]. }
    set (p := 2 ^ e) in *.
    assert (B : (d = q * p /\ to_double v = (q + 1) * p) \/ (d = (q + 1) * p /\ to_double v = q * p)).
    { destruct (Z.ltb_spec p (2 * r)); cbn [orb] in T; [nia|]. destruct (Z.eqb_spec p (2 * r)); cbn [andb] in T.
      - destruct (Z.odd q); [left|right]; nia.
      - right. nia. }
    assert (Bad : even_double (q * p) /\ even_double ((q + 1) * p)) by (destruct B as [[<- <-]|[<- <-]]; split; assumption).
    destruct Q as [O|O]; [apply (odd_not_even_double q e); [lia|lia|exact O|apply Bad]|
                          apply (odd_not_even_double (q + 1) e); [lia|lia|exact O|apply Bad]].
Qed.
Lemma double_opp d : double d -> double (- d).
Proof. intros (m & e & He & Hm & ->). exists (- m), e. split; [exact He|]. split; lia. Qed.
Lemma even_double_opp d : even_double d -> even_double (- d).
Proof. intros (m & e & He & Hm & [x Ev] & ->). exists (- m), e. split; [exact He|]. split; [lia|]. split; [exists (- x); lia|lia]. Qed.
Lemma rounds_opp v d : rounds v d -> rounds (- v) (- d).
Proof.
  intros [D H]. split; [now apply double_opp|]. intros d' D'. destruct (H (- d') (double_opp _ D')) as [H1 H2].
  split; [lia|]. intros E. destruct (H2 ltac:(lia)) as [K|K]; [left; lia|right; now apply even_double_opp].
Qed.
Theorem rounds_exact v : Z.abs v <= 2 ^ 53 -> forall d, rounds v d <-> d = v.
Proof.
  intros L d. split.
  - intros [_ H]. destruct (H v (small_double v L)) as [H1 _]. lia.
  - intros ->. split; [now apply small_double|]. intros d' _. rewrite Z.sub_diag. split; [lia|]. intros E. left. cbn in E. lia.
Qed.
Theorem rounds_unique v d d' : rounds v d -> rounds v d' -> d = d'.
Proof.
  intros H H'. destruct (Z.le_gt_cases 0 v) as [V|V].
  - apply rounds_to_double in H, H'; lia.
  - apply rounds_opp in H, H'. apply rounds_to_double in H, H'; lia.
Qed.
Theorem rounds_some v : exists d, rounds v d.
Proof.
  destruct (Z.le_gt_cases 0 v) as [V|V]; [exists (to_double v); now apply to_double_rounds|].
  exists (- to_double (- v)). rewrite <- (Z.opp_involutive v) at 1. apply rounds_opp. apply to_double_rounds. lia.
Qed.

(** ** [parseInt] *)
Lemma signed_spec s : exists g u, sign g u /\ s = (g ++ snd (signed s))%string /\
  (u = if fst (signed s) then -1 else 1) /\
  (g = EmptyString -> forall c t, s = String c t -> c <> "-"%char /\ c <> "+"%char).
Proof.
  destruct s as [|c s].
  { exists EmptyString, 1. split; [constructor|]. split; [reflexivity|]. split; [reflexivity|]. discriminate. }
  cbn [signed]. destruct (Ascii.eqb c "-") eqn:M; [|destruct (Ascii.eqb c "+") eqn:P].
  - apply eqb_char in M. subst c. exists "-"%string, (-1). split; [constructor|]. split; [reflexivity|]. split; [reflexivity|]. discriminate.
  - apply eqb_char in P. subst c. exists "+"%string, 1. split; [constructor|]. split; [reflexivity|]. split; [reflexivity|]. discriminate.
  - exists EmptyString, 1. split; [constructor|]. split; [reflexivity|]. split; [reflexivity|].
    intros _ c' t K. injection K as <- <-. apply Ascii.eqb_neq in M, P. now split.
Qed.
Lemma signed_app g u c s : sign g u -> digit_value c < 10 ->
  signed (g ++ String c s) = ((u =? -1), String c s).
Proof. intros G D. destruct G; [now apply signed_digit|reflexivity..]. Qed.
Lemma sign_solid g u : sign g u -> solid g.
Proof. now destruct 1. Qed.
Lemma sign_trim g u c s : sign g u -> digit_value c < 36 -> trim_start (g ++ String c s) = (g ++ String c s)%string.
Proof.
  intros G D. destruct G; [|reflexivity..]. cbn [append trim_start]. now rewrite digit_not_blank.
Qed.
Lemma hexadecimal_iff s t : hexadecimal s = Some t <-> exists x, In x ["0x"; "0X"]%string /\ s = (x ++ t)%string.
Proof.
  split.
  - destruct s as [|a [|b s]]; [discriminate..|]. cbn [hexadecimal]. destruct (_ && _) eqn:E; [|discriminate].
    apply prefix_char in E. destruct E as [-> E]. intros H. injection H as <-.
    destruct E as [-> | ->]; [exists "0x"%string|exists "0X"%string]; cbn [In]; auto.
  - intros (x & [<-|[<-|[]]] & ->); reflexivity.
Qed.
Lemma hexadecimal_none s : hexadecimal s = None <-> forall x, In x ["0x"; "0X"]%string -> prefix x s = false.
Proof.
  split.
  - intros H x X. destruct (prefix x s) eqn:P; [|reflexivity]. exfalso.
    assert (exists t, s = (x ++ t)%string).
    { clear - P. revert s P. induction x as [|a x IH]; intros s P; [now exists s|]. destruct s as [|b s]; [discriminate|].
      cbn [prefix] in P. destruct (ascii_dec a b) as [<-|]; [|discriminate]. destruct (IH _ P) as (t & ->). now exists t. }
    destruct H0 as (t & Es). assert (K : hexadecimal s = Some t) by (apply hexadecimal_iff; eauto). congruence.
  - intros H. destruct (hexadecimal s) as [t|] eqn:E; [|reflexivity]. apply hexadecimal_iff in E.
    destruct E as (x & X & ->). specialize (H x X). destruct X as [<-|[<-|[]]]; cbn in H; destruct t; discriminate H.
Qed.
Definition read_begin (radix10 : bool) (s : string) : option Z :=
  match (if radix10 then None else hexadecimal s) with
  | Some s' => leading_number 16 s' None
  | None => leading_number 10 s None
  end.
Lemma num_nonneg r s : 0 <= r -> forall acc v, 0 <= acc -> num r s acc = Some v -> 0 <= v.
Proof.
  intros R. induction s as [|c s IH]; intros acc v A H; [injection H as <-; exact A|]. cbn [num] in H.
  destruct (_ <? _); [|discriminate]. eapply IH; [|exact H]. pose proof (digit_value_nonneg c). nia.
Qed.
Lemma numeral_nonneg r s v : 0 <= r -> numeral r s v -> 0 <= v.
Proof. intros R H. apply numeral_num in H. destruct H as [_ H]. eapply num_nonneg; [exact R| |exact H]. lia. Qed.
Lemma read_begin_nonneg b s v : read_begin b s = Some v -> 0 <= v.
Proof.
  unfold read_begin. destruct (if b then None else hexadecimal s) as [t|]; intros H; apply leading_iff in H; try lia;
    destruct H as (t' & r & _ & H & _); apply numeral_nonneg in H; lia.
Qed.
Lemma begins_read b s z : begins (negb b) s z <->
  exists v, read_begin b (snd (signed (trim_start s))) = Some v /\
    z = (if fst (signed (trim_start s)) then -1 else 1) * v.
Proof.
  split.
  - intros H. destruct H as [p g u t rest v P G T N X|p g u x t rest v Hx P G X T N].
    + apply blank_iff in P. rewrite trim_start_app by exact P.
      pose proof (numeral_first _ _ _ T) as (c & t' & -> & D & _). cbn [append].
      rewrite (sign_trim g u) by (exact G || lia). rewrite (signed_app g u) by (exact G || exact D). cbn [fst snd].
      exists v. split; [|destruct G; reflexivity].
      change (String c (t' ++ rest)) with (String c t' ++ rest)%string. unfold read_begin.
      replace (if b then None else hexadecimal (String c t' ++ rest)) with (@None string).
      * apply leading_iff; [lia|]. eauto.
      * destruct b; [reflexivity|]. symmetry. apply hexadecimal_none. now apply X.
    + destruct b; [discriminate|]. apply blank_iff in P. rewrite trim_start_app by exact P.
      assert (exists s', (x ++ t ++ rest)%string = String "0" s') as (s' & E) by (destruct X as [<-|[<-|[]]]; cbn; eauto).
      rewrite E. rewrite (sign_trim g u) by (exact G || reflexivity). rewrite (signed_app g u) by (exact G || reflexivity).
      cbn [fst snd]. rewrite <- E. exists v. split; [|destruct G; reflexivity].
      unfold read_begin. replace (hexadecimal (x ++ t ++ rest)) with (Some (t ++ rest)%string).
      * apply leading_iff; [lia|]. eauto.
      * symmetry. apply hexadecimal_iff. eauto.
  - intros (v & H & ->). destruct (trim_start_split s) as (p & Hp & Es). apply blank_iff in Hp.
    destruct (signed_spec (trim_start s)) as (g & u & G & Eg & Eu & _). rewrite <- Eu. rewrite Es, Eg.
    set (w := snd (signed (trim_start s))) in *. unfold read_begin in H.
    destruct (if b then None else hexadecimal w) as [w'|] eqn:B.
    + destruct b; [discriminate|]. apply hexadecimal_iff in B. destruct B as (x & X & ->).
      apply leading_iff in H; [|lia]. destruct H as (t & rest & -> & T & N). apply begins_hex; auto.
    + apply leading_iff in H; [|lia]. destruct H as (t & rest & E & T & N). rewrite E in *. apply begins_decimal; auto.
      intros Q. destruct b; [discriminate|]. now apply hexadecimal_none.
Qed.
Lemma parse_int_is b s : parse_int b s =
  match read_begin b (snd (signed (trim_start s))) with
  | Some v => JInt (if fst (signed (trim_start s)) then - to_double v else to_double v)
  | None => JNaN
  end.
Proof. unfold parse_int, read_begin. now destruct (signed (trim_start s)). Qed.
Theorem parse_int_begins b s d : parse_int b s = JInt d <-> exists z, begins (negb b) s z /\ rounds z d.
Proof.
  rewrite parse_int_is. split.
  - destruct (read_begin b _) as [v|] eqn:H; [|discriminate]. intros K. injection K as <-.
    pose proof (read_begin_nonneg _ _ _ H) as V. pose proof (to_double_rounds v V) as R.
    exists ((if fst (signed (trim_start s)) then -1 else 1) * v). split; [apply begins_read; eauto|].
    destruct (fst _); [replace (-1 * v) with (- v) by lia; now apply rounds_opp|now rewrite Z.mul_1_l].
  - intros (z & B & R). apply begins_read in B. destruct B as (v & H & ->). rewrite H. f_equal.
    pose proof (read_begin_nonneg _ _ _ H) as V. pose proof (to_double_rounds v V) as R'.
    destruct (fst _).
    + apply (rounds_unique (- v)); [now apply rounds_opp|]. now replace (-1 * v) with (- v) in R by lia.
    + apply (rounds_unique v); [exact R'|]. now rewrite Z.mul_1_l in R.
Qed.
Theorem parse_int_nan b s : parse_int b s = JNaN <-> forall z, ~ begins (negb b) s z.
Proof.
  rewrite parse_int_is. split.
  - intros H z B. apply begins_read in B. destruct B as (v & K & _). rewrite K in H. discriminate.
  - intros H. destruct (read_begin b _) as [v|] eqn:K; [|reflexivity]. exfalso. eapply H. apply begins_read. eauto.
Qed.
Theorem begins_unique hex s z z' : begins hex s z -> begins hex s z' -> z = z'.
Proof.
  rewrite <- (negb_involutive hex), !begins_read. intros (v & H & ->) (v' & H' & ->). congruence.
Qed.
Theorem parse_int_not_frac b s z : parse_int b s <> JFrac z.
Proof. rewrite parse_int_is. destruct (read_begin b _); discriminate. Qed.
