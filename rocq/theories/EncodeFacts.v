(** What the clients encode is what the program decodes. *)
From Coq Require Import String.
From Verif Require Import BytesFacts LedgerFacts CodecFacts SchemaFacts ClientSpec RaiseFacts.
Import List ListNotations.
Open Scope list_scope.
Open Scope Z_scope.

Lemma obind_some {A B} (o : option A) (f : A -> option B) b :
  obind o f = Some b <-> exists a, o = Some a /\ f a = Some b.
Proof. destruct o; cbn; split; [eauto|intros (a' & [=->] & H); exact H|discriminate|intros (? & [=] & _)]. Qed.

Lemma js_u64_some z b : js_u64 z = Some b <-> is_u64 z /\ b = le_enc 8 z.
Proof.
  unfold js_u64, is_u64, u64_max. destruct ((z <? 0) || (2 ^ 64 - 1 <? z)) eqn:A.
  - split; [discriminate|intros [H _]]. apply orb_true_iff in A as [A|A]; apply Z.ltb_lt in A; lia.
  - apply orb_false_iff in A as [A B]. apply Z.ltb_ge in A, B.
    split; [intros [=<-]; split; [lia|reflexivity]|intros [_ ->]; reflexivity].
Qed.
Lemma js_i64_some z b : js_i64 z = Some b <-> is_i64 z /\ b = le_enc 8 z.
Proof.
  unfold js_i64, is_i64, i64_min, i64_max. destruct ((z <? - 2 ^ 63) || (2 ^ 63 - 1 <? z)) eqn:A.
  - split; [discriminate|intros [H _]]. apply orb_true_iff in A as [A|A]; apply Z.ltb_lt in A; lia.
  - apply orb_false_iff in A as [A B]. apply Z.ltb_ge in A, B.
    split; [intros [=<-]; split; [lia|reflexivity]|intros [_ ->]; reflexivity].
Qed.
Lemma js_u8_some n b : js_u8 n = Some b -> is_u8 (js_trunc n) /\ b = le_enc 1 (js_trunc n).
Proof.
  unfold js_u8, js_uint8, is_u8, u8_max. destruct (js_outside 0 (2 ^ 8 - 1) n) eqn:O; [discriminate|].
  intros [=<-]. split; [|reflexivity]. destruct n as [z|z|]; cbn in *.
  - apply orb_false_iff in O as [A B]. apply Z.ltb_ge in A, B. lia.
  - apply orb_false_iff in O as [A B]. apply Z.ltb_ge in A. apply Z.leb_gt in B. destruct (z <? 0) eqn:Q.
    + apply Z.ltb_lt in Q. lia.
    + lia.
  - lia.
Qed.
Lemma js_u8_int z b : js_u8 (JInt z) = Some b <-> is_u8 z /\ b = le_enc 1 z.
Proof.
  split; [exact (js_u8_some (JInt z) b)|]. intros [[H1 H2] ->]. unfold js_u8, js_outside, u8_max.
  rewrite (proj2 (Z.ltb_ge z 0)), (proj2 (Z.ltb_ge (2 ^ 8 - 1) z)) by lia. reflexivity.
Qed.

Ltac unbuild H :=
  repeat match type of H with
  | obind _ _ = Some _ =>
      apply obind_some in H;
      let a := fresh "a" in let E := fresh "E" in destruct H as (a & E & H);
      first [ apply js_u64_some in E; destruct E as [E ->]
            | apply js_i64_some in E; destruct E as [E ->]
            | apply js_u8_some in E; destruct E as [E ->]
            | idtac ]
  end.

Theorem sends_bytes C b i :
  sends C b i -> b_program b = xorca_id /\ instruction_ok i /\ b_data b = instruction_bytes i.
Proof.
  intros H. destruct H.
  1-5: (split; [reflexivity|split; [cbn; auto|]]); cbn; rewrite ?app_nil_r; try reflexivity.
  - destruct u; cbn; rewrite ?app_nil_r; reflexivity.
  - unfold js_stake in H. unbuild H. injection H as <-. cbn. auto.
  - unfold js_unstake in H. unbuild H. injection H as <-. cbn. auto.
  - unfold js_withdraw in H. unbuild H. injection H as <-. cbn. auto.
  - unfold js_initialize in H. unbuild H. injection H as <-. cbn. auto.
  - unfold js_set in H. unbuild H. destruct u; cbn [js_update] in E.
    + unbuild E. injection E as <-. injection H as <-. cbn. auto.
    + injection E as <-. injection H as <-. cbn. auto.
  - unfold script_stake in H. unbuild H. injection H as <-. cbn. auto.
  - unfold script_unstake in H. unbuild H. injection H as <-. cbn. auto.
  - unfold script_withdraw in H. unbuild H. injection H as <-. cbn. auto.
  - unfold script_initialize in H. destruct (negb _); [discriminate|]. unbuild H.
    injection E1 as <-. injection H as <-. cbn. auto.
  - unfold script_set_cooldown in H. unbuild H. injection E0 as <-. destruct (c <? 0); [discriminate|].
    unbuild H. injection H as <-. cbn. auto.
  - unfold script_set_authority in H. unbuild H. injection H as <-. cbn. auto.
Qed.

(** The program runs exactly the instruction the client was asked for. *)
Theorem sent_runs C E b i accs l rest :
  sends C b i -> process_instruction C E (b_program b) accs l (b_data b ++ rest) = handle C E accs l i.
Proof.
  intros H. destruct (sends_bytes C b i H) as (-> & O & ->). rewrite process_handle.
  rewrite (proj2 (decode_instruction _ i)) by eauto. reflexivity.
Qed.
Theorem encoded_runs C E i accs l rest :
  instruction_ok i ->
  process_instruction C E xorca_id accs l (instruction_bytes i ++ rest) = handle C E accs l i.
Proof.
  intros O. rewrite process_handle. rewrite (proj2 (decode_instruction _ i)) by eauto. reflexivity.
Qed.

Theorem prefix_free i j r s :
  instruction_ok i -> instruction_ok j -> instruction_bytes i ++ r = instruction_bytes j ++ s -> i = j /\ r = s.
Proof.
  intros Hi Hj H.
  assert (A : read_instruction (instruction_bytes i ++ r) = Some (i, r)) by (apply read_instruction_some; auto).
  assert (B : read_instruction (instruction_bytes j ++ s) = Some (j, s)) by (apply read_instruction_some; auto).
  rewrite H, B in A. injection A as -> ->. auto.
Qed.
Theorem sends_distinct C b i b' i' : sends C b i -> sends C b' i' -> b_data b = b_data b' -> i = i'.
Proof.
  intros H H'. destruct (sends_bytes C b i H) as (_ & O & ->). destruct (sends_bytes C b' i' H') as (_ & O' & ->).
  intros Q. apply (prefix_free i i' [] []); auto. now rewrite !app_nil_r.
Qed.

Lemma undecodable d :
  deserialize read_instruction d = None <-> forall i rest, instruction_ok i -> d <> instruction_bytes i ++ rest.
Proof.
  split.
  - intros H i rest O ->. rewrite (proj2 (decode_instruction _ i)) in H by eauto. discriminate.
  - intros H. destruct (deserialize read_instruction d) as [i|] eqn:Q; [|reflexivity].
    apply decode_instruction in Q. destruct Q as (rest & -> & O). destruct (H i rest O eq_refl).
Qed.
Theorem garbage_iff C E accs l d :
  process_instruction C E xorca_id accs l d = Err (ECustom 6000) <->
  forall i rest, instruction_ok i -> d <> instruction_bytes i ++ rest.
Proof. rewrite unknown_iff, undecodable. intuition. Qed.

(** The builders of the JS client refuse exactly the values that do not fit. *)
Theorem js_accepts :
  (forall k0 k1 k2 k3 k4 k5 k6 k7 a,
     (exists b, js_stake k0 k1 k2 k3 k4 k5 k6 k7 a = Some b) <-> is_u64 a) /\
  (forall k0 k1 k2 k3 k4 k5 k6 k7 k8 a i,
     (exists b, js_unstake k0 k1 k2 k3 k4 k5 k6 k7 k8 a (JInt i) = Some b) <-> is_u64 a /\ is_u8 i) /\
  (forall k0 k1 k2 k3 k4 k5 k6 k7 i,
     (exists b, js_withdraw k0 k1 k2 k3 k4 k5 k6 k7 (JInt i) = Some b) <-> is_u8 i) /\
  (forall k0 k1 k2 k3 k4 k5 k6 k7 k8 c,
     (exists b, js_initialize k0 k1 k2 k3 k4 k5 k6 k7 k8 c = Some b) <-> is_i64 c) /\
  (forall k0 k1 u, (exists b, js_set k0 k1 u = Some b) <-> instruction_ok (Set_ u)).
Proof.
  refine (conj _ (conj _ (conj _ (conj _ _)))); intros; split.
  - intros (b & H). unfold js_stake in H. unbuild H. exact E.
  - intros H. unfold js_stake. rewrite (proj2 (js_u64_some _ _) (conj H eq_refl)). cbn. eauto.
  - intros (b & H). unfold js_unstake in H. unbuild H. auto.
  - intros [H1 H2]. unfold js_unstake. rewrite (proj2 (js_u64_some _ _) (conj H1 eq_refl)),
      (proj2 (js_u8_int _ _) (conj H2 eq_refl)). cbn. eauto.
  - intros (b & H). unfold js_withdraw in H. unbuild H. exact E.
  - intros H. unfold js_withdraw. rewrite (proj2 (js_u8_int _ _) (conj H eq_refl)). cbn. eauto.
  - intros (b & H). unfold js_initialize in H. unbuild H. exact E.
  - intros H. unfold js_initialize. rewrite (proj2 (js_i64_some _ _) (conj H eq_refl)). cbn. eauto.
  - intros (b & H). unfold js_set in H. destruct u; cbn; [|exact I]. cbn [js_update] in H. unbuild H.
    unbuild E. exact E0.
  - intros H. unfold js_set. destruct u; cbn [js_update]; [|cbn; eauto].
    rewrite (proj2 (js_i64_some _ _) (conj H eq_refl)). cbn. eauto.
Qed.

(** ** The JS client reads instructions as the program does *)
Lemma skip_disc t d : d <> [] -> decode_struct (("discriminator"%string, FU8) :: t) d =
  obind (deserialize (read_fields (types t)) (skipn 1 d))
    (fun vs => Some (VInt (get_u8 0 d) :: vs)).
Proof.
  destruct d as [|b d]; [congruence|intros _]. unfold decode_struct, deserialize, types. cbn [map snd read_fields].
  unfold rbind at 1. cbn [read_field]. unfold rbind at 1, read_u8, rbind at 1, read_bytes at 1. cbn.
  unfold rbind. destruct (read_fields (map snd t) d) as [[vs r]|]; cbn; [|reflexivity].
  unfold get_u8. cbn. now rewrite Z.add_0_r.
Qed.

Lemma read_u8_cons b d : read_u8 (b :: d) = Some (byte_to_Z b, d).
Proof. unfold read_u8, rbind, read_bytes. cbn. now rewrite Z.add_0_r. Qed.
Lemma read_u8_nil : read_u8 [] = None.
Proof. reflexivity. Qed.

Theorem js_reads_instructions d :
  js_parse_instruction d = option_map instruction_fields (deserialize read_instruction d).
Proof.
  destruct d as [|b d]; [reflexivity|].
  unfold js_parse_instruction, js_identify_instruction, deserialize, read_instruction.
  unfold rbind at 1. rewrite read_u8_cons.
  assert (R : 0 <= byte_to_Z b) by (unfold byte_to_Z; lia).
  destruct (byte_to_Z b <? 5) eqn:L; [apply Z.ltb_lt in L|apply Z.ltb_ge in L]; cbn [obind].
  2:{ repeat match goal with |- context [byte_to_Z b =? ?n] =>
        rewrite (proj2 (Z.eqb_neq (byte_to_Z b) n)) by lia end. reflexivity. }
  assert (Q : byte_to_Z b = 0 \/ byte_to_Z b = 1 \/ byte_to_Z b = 2 \/ byte_to_Z b = 3 \/ byte_to_Z b = 4) by lia.
  destruct Q as [Q|[Q|[Q|[Q|Q]]]]; rewrite Q.
  - cbn [Z.eqb Z.to_nat nth js_instruction_structs].
    rewrite skip_disc by discriminate. cbn [skipn types map snd read_fields read_field].
    unfold deserialize, rbind, rret. destruct (read_u64 d) as [[v r]|]; reflexivity.
  - cbn [Z.eqb Pos.eqb]. replace (nth (Z.to_nat 1) js_instruction_structs []) with
      [("discriminator", FU8); ("xorcaUnstakeAmount", FU64); ("withdrawIndex", FU8)]%string by reflexivity.
    rewrite skip_disc by discriminate. cbn [skipn types map snd read_fields read_field].
    unfold deserialize, rbind, rret. destruct (read_u64 d) as [[v r]|]; [|reflexivity].
    destruct (read_u8 r) as [[w r']|]; reflexivity.
  - cbn [Z.eqb Pos.eqb]. replace (nth (Z.to_nat 2) js_instruction_structs []) with
      [("discriminator", FU8); ("withdrawIndex", FU8)]%string by reflexivity.
    rewrite skip_disc by discriminate. cbn [skipn types map snd read_fields read_field].
    unfold deserialize, rbind, rret. destruct (read_u8 d) as [[v r]|]; reflexivity.
  - cbn [Z.eqb Pos.eqb]. replace (nth (Z.to_nat 3) js_instruction_structs []) with
      [("discriminator", FU8); ("coolDownPeriodS", FI64)]%string by reflexivity.
    rewrite skip_disc by discriminate. cbn [skipn types map snd read_fields read_field].
    unfold deserialize, rbind, rret. destruct (read_i64 d) as [[v r]|]; reflexivity.
  - cbn [Z.eqb Pos.eqb skipn]. unfold decode_union, deserialize, read_union, read_state_update.
    unfold rbind. destruct d as [|c d]; [reflexivity|]. rewrite read_u8_cons.
    assert (R' : 0 <= byte_to_Z c) by (unfold byte_to_Z; lia).
    destruct (byte_to_Z c =? 0) eqn:Q0; [apply Z.eqb_eq in Q0; rewrite Q0|apply Z.eqb_neq in Q0].
    { cbn. unfold rbind, rret. destruct (read_i64 d) as [[v r]|]; reflexivity. }
    destruct (byte_to_Z c =? 1) eqn:Q1; [apply Z.eqb_eq in Q1; rewrite Q1|apply Z.eqb_neq in Q1].
    { cbn. change (Pos.to_nat 1) with 1%nat. cbn. unfold rbind, rret. destruct (read_key d) as [[v r]|]; reflexivity. }
    destruct (nth_error (map types js_update_structs) (Z.to_nat (byte_to_Z c))) eqn:N; [|reflexivity].
    assert (A : nth_error (map types js_update_structs) (Z.to_nat (byte_to_Z c)) <> None) by congruence.
    apply nth_error_Some in A. cbn [length map js_update_structs] in A. lia.
Qed.
