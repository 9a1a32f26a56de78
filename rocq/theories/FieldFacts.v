(** Reading one field of data after writing another: all combinations of widths. *)
From Verif Require Import BytesFacts.

Lemma gu8_su8_off o p v d :
  (o + 1 <= p \/ p + 1 <= o)%nat -> (p + 1 <= length d)%nat ->
  get_u8 o (set_u8 p v d) = get_u8 o d.
Proof.
  intros H1 H2. unfold set_u8.
  apply get_u8_splice; unfold disjoint_or; rewrite le_enc_length; lia.
Qed.

Lemma gu8_su32_off o p v d :
  (o + 1 <= p \/ p + 4 <= o)%nat -> (p + 4 <= length d)%nat ->
  get_u8 o (set_u32 p v d) = get_u8 o d.
Proof.
  intros H1 H2. unfold set_u32.
  apply get_u8_splice; unfold disjoint_or; rewrite le_enc_length; lia.
Qed.

Lemma gu8_su64_off o p v d :
  (o + 1 <= p \/ p + 8 <= o)%nat -> (p + 8 <= length d)%nat ->
  get_u8 o (set_u64 p v d) = get_u8 o d.
Proof.
  intros H1 H2. unfold set_u64.
  apply get_u8_splice; unfold disjoint_or; rewrite le_enc_length; lia.
Qed.

Lemma gu8_skey_off o p v d :
  (o + 1 <= p \/ p + 32 <= o)%nat -> (p + 32 <= length d)%nat ->
  get_u8 o (set_key p v d) = get_u8 o d.
Proof.
  intros H1 H2. unfold set_key.
  apply get_u8_splice; unfold disjoint_or; rewrite key_bytes_length; lia.
Qed.

Lemma gu32_su8_off o p v d :
  (o + 4 <= p \/ p + 1 <= o)%nat -> (p + 1 <= length d)%nat ->
  get_u32 o (set_u8 p v d) = get_u32 o d.
Proof.
  intros H1 H2. unfold set_u8.
  apply get_u32_splice; unfold disjoint_or; rewrite le_enc_length; lia.
Qed.

Lemma gu32_su32_off o p v d :
  (o + 4 <= p \/ p + 4 <= o)%nat -> (p + 4 <= length d)%nat ->
  get_u32 o (set_u32 p v d) = get_u32 o d.
Proof.
  intros H1 H2. unfold set_u32.
  apply get_u32_splice; unfold disjoint_or; rewrite le_enc_length; lia.
Qed.

Lemma gu32_su64_off o p v d :
  (o + 4 <= p \/ p + 8 <= o)%nat -> (p + 8 <= length d)%nat ->
  get_u32 o (set_u64 p v d) = get_u32 o d.
Proof.
  intros H1 H2. unfold set_u64.
  apply get_u32_splice; unfold disjoint_or; rewrite le_enc_length; lia.
Qed.

Lemma gu32_skey_off o p v d :
  (o + 4 <= p \/ p + 32 <= o)%nat -> (p + 32 <= length d)%nat ->
  get_u32 o (set_key p v d) = get_u32 o d.
Proof.
  intros H1 H2. unfold set_key.
  apply get_u32_splice; unfold disjoint_or; rewrite key_bytes_length; lia.
Qed.

Lemma gu64_su8_off o p v d :
  (o + 8 <= p \/ p + 1 <= o)%nat -> (p + 1 <= length d)%nat ->
  get_u64 o (set_u8 p v d) = get_u64 o d.
Proof.
  intros H1 H2. unfold set_u8.
  apply get_u64_splice; unfold disjoint_or; rewrite le_enc_length; lia.
Qed.

Lemma gu64_su32_off o p v d :
  (o + 8 <= p \/ p + 4 <= o)%nat -> (p + 4 <= length d)%nat ->
  get_u64 o (set_u32 p v d) = get_u64 o d.
Proof.
  intros H1 H2. unfold set_u32.
  apply get_u64_splice; unfold disjoint_or; rewrite le_enc_length; lia.
Qed.

Lemma gu64_su64_off o p v d :
  (o + 8 <= p \/ p + 8 <= o)%nat -> (p + 8 <= length d)%nat ->
  get_u64 o (set_u64 p v d) = get_u64 o d.
Proof.
  intros H1 H2. unfold set_u64.
  apply get_u64_splice; unfold disjoint_or; rewrite le_enc_length; lia.
Qed.

Lemma gu64_skey_off o p v d :
  (o + 8 <= p \/ p + 32 <= o)%nat -> (p + 32 <= length d)%nat ->
  get_u64 o (set_key p v d) = get_u64 o d.
Proof.
  intros H1 H2. unfold set_key.
  apply get_u64_splice; unfold disjoint_or; rewrite key_bytes_length; lia.
Qed.

Lemma gi64_su8_off o p v d :
  (o + 8 <= p \/ p + 1 <= o)%nat -> (p + 1 <= length d)%nat ->
  get_i64 o (set_u8 p v d) = get_i64 o d.
Proof.
  intros H1 H2. unfold set_u8.
  apply get_i64_splice; unfold disjoint_or; rewrite le_enc_length; lia.
Qed.

Lemma gi64_su32_off o p v d :
  (o + 8 <= p \/ p + 4 <= o)%nat -> (p + 4 <= length d)%nat ->
  get_i64 o (set_u32 p v d) = get_i64 o d.
Proof.
  intros H1 H2. unfold set_u32.
  apply get_i64_splice; unfold disjoint_or; rewrite le_enc_length; lia.
Qed.

Lemma gi64_su64_off o p v d :
  (o + 8 <= p \/ p + 8 <= o)%nat -> (p + 8 <= length d)%nat ->
  get_i64 o (set_u64 p v d) = get_i64 o d.
Proof.
  intros H1 H2. unfold set_u64.
  apply get_i64_splice; unfold disjoint_or; rewrite le_enc_length; lia.
Qed.

Lemma gi64_skey_off o p v d :
  (o + 8 <= p \/ p + 32 <= o)%nat -> (p + 32 <= length d)%nat ->
  get_i64 o (set_key p v d) = get_i64 o d.
Proof.
  intros H1 H2. unfold set_key.
  apply get_i64_splice; unfold disjoint_or; rewrite key_bytes_length; lia.
Qed.

Lemma gkey_su8_off o p v d :
  (o + 32 <= p \/ p + 1 <= o)%nat -> (p + 1 <= length d)%nat ->
  get_key o (set_u8 p v d) = get_key o d.
Proof.
  intros H1 H2. unfold set_u8.
  apply get_key_splice; unfold disjoint_or; rewrite le_enc_length; lia.
Qed.

Lemma gkey_su32_off o p v d :
  (o + 32 <= p \/ p + 4 <= o)%nat -> (p + 4 <= length d)%nat ->
  get_key o (set_u32 p v d) = get_key o d.
Proof.
  intros H1 H2. unfold set_u32.
  apply get_key_splice; unfold disjoint_or; rewrite le_enc_length; lia.
Qed.

Lemma gkey_su64_off o p v d :
  (o + 32 <= p \/ p + 8 <= o)%nat -> (p + 8 <= length d)%nat ->
  get_key o (set_u64 p v d) = get_key o d.
Proof.
  intros H1 H2. unfold set_u64.
  apply get_key_splice; unfold disjoint_or; rewrite le_enc_length; lia.
Qed.

Lemma gkey_skey_off o p v d :
  (o + 32 <= p \/ p + 32 <= o)%nat -> (p + 32 <= length d)%nat ->
  get_key o (set_key p v d) = get_key o d.
Proof.
  intros H1 H2. unfold set_key.
  apply get_key_splice; unfold disjoint_or; rewrite key_bytes_length; lia.
Qed.

(** Lengths of written data. *)
Lemma splice_length_ge {A} off (new d : list A) : (length d <= length (splice off new d))%nat.
Proof.
  unfold splice. rewrite !app_length, firstn_length, skipn_length. lia.
Qed.
Lemma le_su64 n o v d : (n <= length d)%nat -> (n <= length (set_u64 o v d))%nat.
Proof. intros H. eapply Nat.le_trans; [exact H|apply splice_length_ge]. Qed.
Lemma le_su32 n o v d : (n <= length d)%nat -> (n <= length (set_u32 o v d))%nat.
Proof. intros H. eapply Nat.le_trans; [exact H|apply splice_length_ge]. Qed.
Lemma le_su8 n o v d : (n <= length d)%nat -> (n <= length (set_u8 o v d))%nat.
Proof. intros H. eapply Nat.le_trans; [exact H|apply splice_length_ge]. Qed.
Lemma le_skey n o v d : (n <= length d)%nat -> (n <= length (set_key o v d))%nat.
Proof. intros H. eapply Nat.le_trans; [exact H|apply splice_length_ge]. Qed.

Ltac slen_le :=
  unfold lt;
  lazymatch goal with
  | |- (_ <= length (set_u64 _ _ _))%nat => apply le_su64; slen_le
  | |- (_ <= length (set_u32 _ _ _))%nat => apply le_su32; slen_le
  | |- (_ <= length (set_u8 _ _ _))%nat => apply le_su8; slen_le
  | |- (_ <= length (set_key _ _ _))%nat => apply le_skey; slen_le
  | |- _ => lia
  end.

Ltac slen :=
  lazymatch goal with
  | |- length (set_u64 ?o ?v ?d) = _ => rewrite (set_u64_length o v d) by slen_le; slen
  | |- length (set_u32 ?o ?v ?d) = _ => rewrite (set_u32_length o v d) by slen_le; slen
  | |- length (set_u8 ?o ?v ?d) = _ => rewrite (set_u8_length o v d) by slen_le; slen
  | |- length (set_key ?o ?v ?d) = _ => rewrite (set_key_length o v d) by slen_le; slen
  | |- _ => slen_le
  end.

Ltac side_range :=
  first [ assumption | unfold is_u8; lia | unfold is_u32; lia | unfold is_u64; lia
        | unfold is_i64; lia ].

Ltac getset1 :=
  match goal with
  | |- context [get_u8 ?o (set_u8 ?p ?v ?d)] =>
      first [ constr_eq o p; rewrite (get_set_u8 o v d); [|side_range|slen]
            | rewrite (gu8_su8_off o p v d); [|lia|slen] ]
  | |- context [get_u8 ?o (set_u32 ?p ?v ?d)] =>
      rewrite (gu8_su32_off o p v d); [|lia|slen]
  | |- context [get_u8 ?o (set_u64 ?p ?v ?d)] =>
      rewrite (gu8_su64_off o p v d); [|lia|slen]
  | |- context [get_u8 ?o (set_key ?p ?v ?d)] =>
      rewrite (gu8_skey_off o p v d); [|lia|slen]
  | |- context [get_u32 ?o (set_u8 ?p ?v ?d)] =>
      rewrite (gu32_su8_off o p v d); [|lia|slen]
  | |- context [get_u32 ?o (set_u32 ?p ?v ?d)] =>
      first [ constr_eq o p; rewrite (get_set_u32 o v d); [|side_range|slen]
            | rewrite (gu32_su32_off o p v d); [|lia|slen] ]
  | |- context [get_u32 ?o (set_u64 ?p ?v ?d)] =>
      rewrite (gu32_su64_off o p v d); [|lia|slen]
  | |- context [get_u32 ?o (set_key ?p ?v ?d)] =>
      rewrite (gu32_skey_off o p v d); [|lia|slen]
  | |- context [get_u64 ?o (set_u8 ?p ?v ?d)] =>
      rewrite (gu64_su8_off o p v d); [|lia|slen]
  | |- context [get_u64 ?o (set_u32 ?p ?v ?d)] =>
      rewrite (gu64_su32_off o p v d); [|lia|slen]
  | |- context [get_u64 ?o (set_u64 ?p ?v ?d)] =>
      first [ constr_eq o p; rewrite (get_set_u64 o v d); [|side_range|slen]
            | rewrite (gu64_su64_off o p v d); [|lia|slen] ]
  | |- context [get_u64 ?o (set_key ?p ?v ?d)] =>
      rewrite (gu64_skey_off o p v d); [|lia|slen]
  | |- context [get_i64 ?o (set_u8 ?p ?v ?d)] =>
      rewrite (gi64_su8_off o p v d); [|lia|slen]
  | |- context [get_i64 ?o (set_u32 ?p ?v ?d)] =>
      rewrite (gi64_su32_off o p v d); [|lia|slen]
  | |- context [get_i64 ?o (set_u64 ?p ?v ?d)] =>
      first [ constr_eq o p; rewrite (get_set_i64 o v d); [|side_range|slen]
            | rewrite (gi64_su64_off o p v d); [|lia|slen] ]
  | |- context [get_i64 ?o (set_key ?p ?v ?d)] =>
      rewrite (gi64_skey_off o p v d); [|lia|slen]
  | |- context [get_key ?o (set_u8 ?p ?v ?d)] =>
      rewrite (gkey_su8_off o p v d); [|lia|slen]
  | |- context [get_key ?o (set_u32 ?p ?v ?d)] =>
      rewrite (gkey_su32_off o p v d); [|lia|slen]
  | |- context [get_key ?o (set_u64 ?p ?v ?d)] =>
      rewrite (gkey_su64_off o p v d); [|lia|slen]
  | |- context [get_key ?o (set_key ?p ?v ?d)] =>
      first [ constr_eq o p; rewrite (get_set_key o v d) by slen
            | rewrite (gkey_skey_off o p v d); [|lia|slen] ]
  end.
Ltac getset := repeat getset1.
