(** Exact characterisation of the Borsh readers: a reader succeeds exactly on the
    encodings of values in range, and returns the rest. *)
From Verif Require Import Program BytesFacts.

Lemma rbind_some {A B} (r : reader A) (f : A -> reader B) l x :
  rbind r f l = Some x <-> exists a l', r l = Some (a, l') /\ f a l' = Some x.
Proof.
  unfold rbind. destruct (r l) as [[a l']|].
  - split; [intros H; now exists a, l'|intros (a' & l'' & [=<- <-] & H); exact H].
  - split; [discriminate|intros (? & ? & H & _); discriminate].
Qed.

Lemma read_bytes_some n l b r :
  read_bytes n l = Some (b, r) <-> l = b ++ r /\ length b = n.
Proof.
  unfold read_bytes. destruct (Nat.leb_spec n (length l)) as [H|H].
  - split.
    + intros [=<- <-]. rewrite firstn_skipn. split; [reflexivity|]. rewrite firstn_length. lia.
    + intros [-> <-]. rewrite firstn_app, skipn_app, firstn_all, skipn_all, Nat.sub_diag.
      cbn. now rewrite app_nil_r.
  - split; [discriminate|]. intros [-> <-]. rewrite app_length in H. lia.
Qed.

Lemma enc_dec_n n b : length b = n -> le_enc n (le_dec b) = b.
Proof. intros <-. apply le_enc_dec. Qed.

Lemma dec_range_n n b : length b = n -> 0 <= le_dec b < 256 ^ Z.of_nat n.
Proof. intros <-. apply le_dec_range. Qed.

Lemma read_u8_some l v r : read_u8 l = Some (v, r) <-> l = le_enc 1 v ++ r /\ is_u8 v.
Proof.
  unfold read_u8. rewrite rbind_some. split.
  - intros (b & l' & H & [=<- <-]). apply read_bytes_some in H. destruct H as [-> H].
    rewrite enc_dec_n by exact H. split; [reflexivity|]. apply dec_range_n in H. exact H.
  - intros [-> H]. exists (le_enc 1 v), r. split.
    + apply read_bytes_some. split; [reflexivity|apply le_enc_length].
    + unfold rret. rewrite le_dec_enc. do 2 f_equal. apply Z.mod_small. exact H.
Qed.

Lemma read_u64_some l v r : read_u64 l = Some (v, r) <-> l = le_enc 8 v ++ r /\ is_u64 v.
Proof.
  unfold read_u64. rewrite rbind_some. split.
  - intros (b & l' & H & [=<- <-]). apply read_bytes_some in H. destruct H as [-> H].
    rewrite enc_dec_n by exact H. split; [reflexivity|]. apply dec_range_n in H. exact H.
  - intros [-> H]. exists (le_enc 8 v), r. split.
    + apply read_bytes_some. split; [reflexivity|apply le_enc_length].
    + unfold rret. rewrite le_dec_enc. do 2 f_equal. apply Z.mod_small. exact H.
Qed.

Lemma le_enc_to_i64 z : 0 <= z < 2 ^ 64 -> le_enc 8 (to_i64 z) = le_enc 8 z.
Proof.
  intros H. rewrite <- (le_enc_mod 8 (to_i64 z)), <- (le_enc_mod 8 z). f_equal.
  change (256 ^ Z.of_nat 8) with (2 ^ 64). unfold to_i64.
  destruct (z <? 2 ^ 63); [reflexivity|].
  replace (z - 2 ^ 64) with (z + (-1) * 2 ^ 64) by lia. apply Z.mod_add. lia.
Qed.

Lemma read_i64_some l v r : read_i64 l = Some (v, r) <-> l = le_enc 8 v ++ r /\ is_i64 v.
Proof.
  unfold read_i64. rewrite rbind_some. split.
  - intros (b & l' & H & [=<- <-]). apply read_bytes_some in H. destruct H as [-> H].
    pose proof (dec_range_n _ _ H) as R. change (256 ^ Z.of_nat 8) with (2 ^ 64) in R.
    rewrite le_enc_to_i64 by exact R. rewrite enc_dec_n by exact H.
    split; [reflexivity|now apply to_i64_range].
  - intros [-> H]. exists (le_enc 8 v), r. split.
    + apply read_bytes_some. split; [reflexivity|apply le_enc_length].
    + unfold rret. rewrite le_dec_enc. change (256 ^ Z.of_nat 8) with (2 ^ 64).
      now rewrite to_i64_mod.
Qed.

Lemma read_key_some l k r : read_key l = Some (k, r) <-> l = key_bytes k ++ r /\ True.
Proof.
  unfold read_key. rewrite rbind_some. split.
  - intros (b & l' & H & [=<- <-]). apply read_bytes_some in H. destruct H as [-> H].
    now rewrite key_bytes_key_of.
  - intros [-> _]. exists (key_bytes k), r. split.
    + apply read_bytes_some. split; [reflexivity|apply key_bytes_length].
    + unfold rret. now rewrite key_of_bytes.
Qed.

Lemma rret_some {A} (a : A) l x : rret a l = Some x <-> x = (a, l).
Proof. unfold rret. split; [intros [=<-]; reflexivity|intros ->; reflexivity]. Qed.

Lemma rfail_some {A} l (x : A * list byte) : rfail l = Some x <-> False.
Proof. split; [discriminate|contradiction]. Qed.

(** Decompose a successful read into an encoding. *)
Ltac unread H :=
  repeat match type of H with
  | rbind _ _ _ = Some _ =>
      apply rbind_some in H;
      let a := fresh "a" in let l := fresh "l" in let E := fresh "E" in
      destruct H as (a & l & E & H);
      first [ apply read_u8_some in E | apply read_u64_some in E
            | apply read_i64_some in E | apply read_key_some in E | idtac ];
      try (match type of E with _ /\ _ => destruct E as [-> E] end)
  | rret _ _ = Some _ => apply rret_some in H
  | rfail _ = Some _ => discriminate H
  | (if ?z =? ?n then _ else _) _ = Some _ =>
      let Q := fresh "Q" in destruct (z =? n) eqn:Q;
      [apply Z.eqb_eq in Q|apply Z.eqb_neq in Q]
  end.

Theorem read_state_update_some l u r :
  read_state_update l = Some (u, r) <->
  l = state_update_bytes u ++ r /\ instruction_ok (Set_ u).
Proof.
  unfold read_state_update. split.
  - intros H. unread H.
    + injection H as -> ->. subst. cbn [state_update_bytes]. rewrite <- app_assoc. auto.
    + injection H as -> ->. subst. cbn [state_update_bytes]. rewrite <- app_assoc. auto.
  - intros [-> H]. apply rbind_some. destruct u as [c|k]; cbn [state_update_bytes];
      rewrite <- app_assoc.
    + exists 0, (le_enc 8 c ++ r). split; [now apply read_u8_some|]. cbn [Z.eqb].
      apply rbind_some. exists c, r. split; [now apply read_i64_some|reflexivity].
    + exists 1, (key_bytes k ++ r). split; [now apply read_u8_some|]. cbn [Z.eqb].
      apply rbind_some. exists k, r. split; [now apply read_key_some|reflexivity].
Qed.

Theorem read_instruction_some l i r :
  read_instruction l = Some (i, r) <-> l = instruction_bytes i ++ r /\ instruction_ok i.
Proof.
  unfold read_instruction. split.
  - intros H. unread H.
    5:{ apply read_state_update_some in E0. destruct E0 as [-> E0]. injection H as -> ->.
        subst. cbn [instruction_bytes]. rewrite <- app_assoc. auto. }
    all: injection H as -> ->; subst; cbn [instruction_bytes]; rewrite <- ?app_assoc;
      split; [reflexivity|]; cbn [instruction_ok]; auto.
  - intros [-> H]. apply rbind_some. destruct i as [a|a x|x|c|u]; cbn [instruction_bytes];
      rewrite <- ?app_assoc; eexists; eexists.
    + split; [apply read_u8_some; split; [reflexivity|unfold is_u8; lia]|]. cbn [Z.eqb].
      apply rbind_some. exists a, r. split; [now apply read_u64_some|reflexivity].
    + split; [apply read_u8_some; split; [reflexivity|unfold is_u8; lia]|]. cbn [Z.eqb Pos.eqb].
      destruct H as [H1 H2].
      apply rbind_some. exists a, (le_enc 1 x ++ r). split; [now apply read_u64_some|].
      apply rbind_some. exists x, r. split; [now apply read_u8_some|reflexivity].
    + split; [apply read_u8_some; split; [reflexivity|unfold is_u8; lia]|]. cbn [Z.eqb Pos.eqb].
      apply rbind_some. exists x, r. split; [now apply read_u8_some|reflexivity].
    + split; [apply read_u8_some; split; [reflexivity|unfold is_u8; lia]|]. cbn [Z.eqb Pos.eqb].
      apply rbind_some. exists c, r. split; [now apply read_i64_some|reflexivity].
    + split; [apply read_u8_some; split; [reflexivity|unfold is_u8; lia]|]. cbn [Z.eqb Pos.eqb].
      apply rbind_some. exists u, r. split; [|reflexivity].
      now apply read_state_update_some.
Qed.

Lemma deserialize_some {A} (r : reader A) l a :
  deserialize r l = Some a <-> exists rest, r l = Some (a, rest).
Proof.
  unfold deserialize. destruct (r l) as [[a' rest]|].
  - split; [intros [=<-]; eauto|intros (? & [=<- <-]); reflexivity].
  - split; [discriminate|intros (? & H); discriminate].
Qed.

Theorem decode_instruction l i :
  deserialize read_instruction l = Some i <->
  exists rest, l = instruction_bytes i ++ rest /\ instruction_ok i.
Proof.
  rewrite deserialize_some. split; intros (rest & H); exists rest; now apply read_instruction_some.
Qed.

Theorem read_event_some l e r :
  read_event l = Some (e, r) <-> l = event_bytes e ++ r /\ event_ok e.
Proof.
  unfold read_event. split.
  - intros H. unread H;
    injection H as -> ->; subst; cbn [event_bytes]; rewrite <- ?app_assoc;
      (split; [reflexivity|]); cbn [event_ok]; auto 10.
  - intros [-> H]. apply rbind_some.
    destruct e as [a v e s m|x v e s w c i|e w c i|n s]; cbn [event_bytes event_ok] in *;
      rewrite <- ?app_assoc; eexists; eexists.
    + destruct H as (H1 & H2 & H3 & H4 & H5).
      split; [apply read_u8_some; split; [reflexivity|unfold is_u8; lia]|]. cbn [Z.eqb Pos.eqb].
      apply rbind_some. do 2 eexists. split; [apply read_u64_some; split; [reflexivity|assumption]|].
      apply rbind_some. do 2 eexists. split; [apply read_u64_some; split; [reflexivity|assumption]|].
      apply rbind_some. do 2 eexists. split; [apply read_u64_some; split; [reflexivity|assumption]|].
      apply rbind_some. do 2 eexists. split; [apply read_u64_some; split; [reflexivity|assumption]|].
      apply rbind_some. do 2 eexists. split; [apply read_u64_some; split; [reflexivity|assumption]|].
      reflexivity.
    + destruct H as (H1 & H2 & H3 & H4 & H5 & H6 & H7).
      split; [apply read_u8_some; split; [reflexivity|unfold is_u8; lia]|]. cbn [Z.eqb Pos.eqb].
      apply rbind_some. do 2 eexists. split; [apply read_u64_some; split; [reflexivity|assumption]|].
      apply rbind_some. do 2 eexists. split; [apply read_u64_some; split; [reflexivity|assumption]|].
      apply rbind_some. do 2 eexists. split; [apply read_u64_some; split; [reflexivity|assumption]|].
      apply rbind_some. do 2 eexists. split; [apply read_u64_some; split; [reflexivity|assumption]|].
      apply rbind_some. do 2 eexists. split; [apply read_u64_some; split; [reflexivity|assumption]|].
      apply rbind_some. do 2 eexists. split; [apply read_i64_some; split; [reflexivity|assumption]|].
      apply rbind_some. do 2 eexists. split; [apply read_u8_some; split; [reflexivity|assumption]|].
      reflexivity.
    + destruct H as (H1 & H2 & H3 & H4).
      split; [apply read_u8_some; split; [reflexivity|unfold is_u8; lia]|]. cbn [Z.eqb Pos.eqb].
      apply rbind_some. do 2 eexists. split; [apply read_u64_some; split; [reflexivity|assumption]|].
      apply rbind_some. do 2 eexists. split; [apply read_u64_some; split; [reflexivity|assumption]|].
      apply rbind_some. do 2 eexists. split; [apply read_i64_some; split; [reflexivity|assumption]|].
      apply rbind_some. do 2 eexists. split; [apply read_u8_some; split; [reflexivity|assumption]|].
      reflexivity.
    + split; [apply read_u8_some; split; [reflexivity|unfold is_u8; lia]|]. cbn [Z.eqb Pos.eqb].
      apply rbind_some. do 2 eexists. split; [apply read_key_some; split; [reflexivity|exact I]|].
      apply rbind_some. do 2 eexists. split; [apply read_key_some; split; [reflexivity|exact I]|].
      reflexivity.
Qed.
