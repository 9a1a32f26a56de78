(** Fields of State and PendingWithdraw data after writes. *)
From Verif Require Import Program BytesFacts LedgerFacts TokenFacts.

Record same_state_but_escrow (d d1 : list byte) : Prop := {
  sse_len : length d1 = length d;
  sse_disc : st_disc d1 = st_disc d;
  sse_bump : st_bump d1 = st_bump d;
  sse_vbump : st_vault_bump d1 = st_vault_bump d;
  sse_cooldown : st_cooldown d1 = st_cooldown d;
  sse_auth : st_authority d1 = st_authority d
}.

Lemma shaped_len (d : list byte) : 2048 <= zlen d -> (2048 <= length d)%nat.
Proof. unfold zlen. lia. Qed.

Lemma set_escrow_same v d :
  (2048 <= length d)%nat -> is_u64 v ->
  st_escrow (set_escrow v d) = v /\ same_state_but_escrow d (set_escrow v d).
Proof.
  intros Hl Hv. split.
  - apply get_set_u64; [assumption|lia].
  - constructor; unfold set_escrow, st_disc, st_bump, st_vault_bump, st_cooldown, st_authority;
      try (field_tac; reflexivity).
    rewrite set_u64_length; lia.
Qed.

Lemma set_cooldown_same v d :
  (2048 <= length d)%nat -> is_i64 v ->
  st_cooldown (set_cooldown v d) = v /\ length (set_cooldown v d) = length d /\
  st_disc (set_cooldown v d) = st_disc d /\ st_bump (set_cooldown v d) = st_bump d /\
  st_vault_bump (set_cooldown v d) = st_vault_bump d /\
  st_escrow (set_cooldown v d) = st_escrow d /\
  st_authority (set_cooldown v d) = st_authority d.
Proof.
  intros Hl Hv. split.
  - apply get_set_i64; [assumption|lia].
  - unfold set_cooldown, st_disc, st_bump, st_vault_bump, st_escrow, st_authority.
    repeat split; try (field_tac; reflexivity). rewrite set_u64_length; lia.
Qed.

Lemma set_authority_same k d :
  (2048 <= length d)%nat ->
  st_authority (set_authority k d) = k /\ length (set_authority k d) = length d /\
  st_disc (set_authority k d) = st_disc d /\ st_bump (set_authority k d) = st_bump d /\
  st_vault_bump (set_authority k d) = st_vault_bump d /\
  st_escrow (set_authority k d) = st_escrow d /\
  st_cooldown (set_authority k d) = st_cooldown d.
Proof.
  intros Hl. split.
  - apply get_set_key. lia.
  - unfold set_authority, st_disc, st_bump, st_vault_bump, st_escrow, st_cooldown.
    repeat split; try (field_tac; reflexivity). rewrite set_key_length; lia.
Qed.

(** The record written by Unstake. *)
Definition pending_bytes (bump index : Z) (unstaker : pubkey) (amount timestamp : Z)
  : list byte :=
  set_u64 48 timestamp (set_u64 40 amount (set_key 8 unstaker
    (set_u8 7 index (set_u8 6 bump (set_u8 0 DISC_PENDING (zeros PENDING_LEN)))))).

Lemma pending_bytes_length b i u a t : length (pending_bytes b i u a t) = 1024%nat.
Proof.
  unfold pending_bytes, PENDING_LEN.
  assert (L : length (zeros 1024) = 1024%nat) by (rewrite zeros_length; reflexivity).
  repeat (rewrite ?set_u64_length, ?set_u8_length, ?set_key_length; rewrite ?L; try lia).
Qed.

Lemma gu8_su64 o p v d : (o + 1 <= p \/ p + 8 <= o)%nat -> (p + 8 <= length d)%nat ->
  get_u8 o (set_u64 p v d) = get_u8 o d.
Proof. intros. apply get_u8_splice; unfold disjoint_or; rewrite le_enc_length; lia. Qed.
Lemma gu8_su8 o p v d : (o + 1 <= p \/ p + 1 <= o)%nat -> (p + 1 <= length d)%nat ->
  get_u8 o (set_u8 p v d) = get_u8 o d.
Proof. intros. apply get_u8_splice; unfold disjoint_or; rewrite le_enc_length; lia. Qed.
Lemma gu8_skey o p v d : (o + 1 <= p \/ p + 32 <= o)%nat -> (p + 32 <= length d)%nat ->
  get_u8 o (set_key p v d) = get_u8 o d.
Proof. intros. apply get_u8_splice; unfold disjoint_or; rewrite key_bytes_length; lia. Qed.
Lemma gkey_su64 o p v d : (o + 32 <= p \/ p + 8 <= o)%nat -> (p + 8 <= length d)%nat ->
  get_key o (set_u64 p v d) = get_key o d.
Proof. intros. apply get_key_splice; unfold disjoint_or; rewrite le_enc_length; lia. Qed.
Lemma gu64_su64 o p v d : (o + 8 <= p \/ p + 8 <= o)%nat -> (p + 8 <= length d)%nat ->
  get_u64 o (set_u64 p v d) = get_u64 o d.
Proof. intros. apply get_u64_splice; unfold disjoint_or; rewrite le_enc_length; lia. Qed.

Lemma pending_bytes_fields b i u a t :
  is_u8 b -> is_u8 i -> is_u64 a -> is_i64 t ->
  pw_disc (pending_bytes b i u a t) = 2 /\ pw_bump (pending_bytes b i u a t) = b /\
  pw_index (pending_bytes b i u a t) = i /\ pw_unstaker (pending_bytes b i u a t) = u /\
  pw_amount (pending_bytes b i u a t) = a /\ pw_timestamp (pending_bytes b i u a t) = t.
Proof.
  intros Hb Hi Ha Ht. unfold pending_bytes.
  assert (L : length (zeros PENDING_LEN) = 1024%nat) by (rewrite zeros_length; reflexivity).
  set (z := zeros PENDING_LEN) in *. clearbody z.
  assert (L1 : length (set_u8 0 DISC_PENDING z) = 1024%nat) by (rewrite set_u8_length; lia).
  assert (L2 : length (set_u8 6 b (set_u8 0 DISC_PENDING z)) = 1024%nat)
    by (rewrite set_u8_length; lia).
  assert (L3 : length (set_u8 7 i (set_u8 6 b (set_u8 0 DISC_PENDING z))) = 1024%nat)
    by (rewrite set_u8_length; lia).
  assert (L4 : length (set_key 8 u (set_u8 7 i (set_u8 6 b (set_u8 0 DISC_PENDING z)))) = 1024%nat)
    by (rewrite set_key_length; lia).
  assert (L5 : length (set_u64 40 a
                (set_key 8 u (set_u8 7 i (set_u8 6 b (set_u8 0 DISC_PENDING z))))) = 1024%nat)
    by (rewrite set_u64_length; lia).
  unfold pw_disc, pw_bump, pw_index, pw_unstaker, pw_amount, pw_timestamp.
  refine (conj _ (conj _ (conj _ (conj _ (conj _ _))))).
  - rewrite !gu8_su64, gu8_skey by lia. do 2 rewrite gu8_su8 by lia.
    apply get_set_u8; [unfold is_u8, DISC_PENDING; lia|lia].
  - rewrite !gu8_su64, gu8_skey, gu8_su8 by lia. apply get_set_u8; [assumption|lia].
  - rewrite !gu8_su64, gu8_skey by lia. apply get_set_u8; [assumption|lia].
  - rewrite !gkey_su64 by lia. apply get_set_key. lia.
  - rewrite gu64_su64 by lia. apply get_set_u64; [assumption|lia].
  - apply get_set_i64; [assumption|lia].
Qed.

(** The bytes Initialize writes. *)
Lemma state_borsh_length c b vb k : length (state_borsh (initial_state c b vb k)) = 2048%nat.
Proof.
  unfold state_borsh, initial_state; cbn [s_disc s_padding1 s_bump s_vault_bump s_escrow s_cooldown
    s_authority s_padding2]. rewrite !app_length, !le_enc_length, key_bytes_length, !zeros_length.
  reflexivity.
Qed.

Lemma slice_app_skip {A} (a b : list A) off n :
  (length a <= off)%nat -> slice off n (a ++ b) = slice (off - length a) n b.
Proof.
  intros H. unfold slice. rewrite skipn_app. rewrite skipn_all2 by lia. reflexivity.
Qed.
Lemma slice_app_here {A} (a b : list A) n : length a = n -> slice 0 n (a ++ b) = a.
Proof.
  intros <-. unfold slice. cbn [skipn]. rewrite firstn_app, Nat.sub_diag, firstn_all. cbn.
  apply app_nil_r.
Qed.

Ltac slice_walk :=
  repeat (rewrite slice_app_skip by (rewrite ?le_enc_length, ?key_bytes_length, ?zeros_length;
                                     change (Z.to_nat 5) with 5%nat; lia);
          rewrite ?le_enc_length, ?key_bytes_length, ?zeros_length;
          change (Z.to_nat 5) with 5%nat; cbn [Nat.sub]).

Lemma initial_state_fields c b vb k :
  is_i64 c -> is_u8 b -> is_u8 vb ->
  let d := state_borsh (initial_state c b vb k) in
  st_disc d = 1 /\ st_bump d = b /\ st_vault_bump d = vb /\ st_escrow d = 0 /\
  st_cooldown d = c /\ st_authority d = k.
Proof.
  intros Hc Hb Hv d. pose proof (state_borsh_length c b vb k) as Hl.
  unfold st_disc, st_bump, st_vault_bump, st_escrow, st_cooldown, st_authority.
  rewrite !get_u8_slice by (unfold d; rewrite Hl; lia).
  unfold get_u64, get_i64, get_key, d, state_borsh, initial_state;
    cbn [s_disc s_padding1 s_bump s_vault_bump s_escrow s_cooldown s_authority s_padding2].
  refine (conj _ (conj _ (conj _ (conj _ (conj _ _))))).
  - rewrite slice_app_here by apply le_enc_length. rewrite le_dec_enc. reflexivity.
  - slice_walk. rewrite slice_app_here by apply le_enc_length. rewrite le_dec_enc.
    apply Z.mod_small. exact Hb.
  - slice_walk. rewrite slice_app_here by apply le_enc_length. rewrite le_dec_enc.
    apply Z.mod_small. exact Hv.
  - slice_walk. rewrite slice_app_here by apply le_enc_length. rewrite le_dec_enc. reflexivity.
  - slice_walk. rewrite slice_app_here by apply le_enc_length. rewrite le_dec_enc.
    apply to_i64_mod. exact Hc.
  - slice_walk. rewrite slice_app_here by apply key_bytes_length. apply key_of_bytes.
Qed.

(** All-zero data is neither a State nor a record. *)
Lemma all_zero_not_state d : all_zero d = true -> st_disc d <> 1 /\ pw_disc d <> 2.
Proof. intros H. unfold st_disc, pw_disc. rewrite all_zero_u8 by exact H. lia. Qed.
