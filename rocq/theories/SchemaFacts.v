(** Lemmas about Schema.v. *)
From Verif Require Import Schema BytesFacts CodecFacts LayoutFacts Spec.
From Coq Require Import String List.
Import ListNotations.
Open Scope list_scope.
Open Scope Z_scope.

(** ** Reading is the inverse of writing *)
Lemma read_field_some t l v r :
  read_field t l = Some (v, r) <-> l = field_bytes t v ++ r /\ field_ok t v.
Proof.
  destruct t; unfold read_field, read_enum; rewrite rbind_some; split.
  - intros (a & l' & H & H'). apply rret_some in H'. injection H' as -> ->. now apply read_u8_some in H.
  - intros [-> H]. destruct v; try destruct H. exists z, r. split; [now apply read_u8_some|reflexivity].
  - intros (a & l' & H & H'). apply rret_some in H'. injection H' as -> ->. now apply read_u64_some in H.
  - intros [-> H]. destruct v; try destruct H. exists z, r. split; [now apply read_u64_some|reflexivity].
  - intros (a & l' & H & H'). apply rret_some in H'. injection H' as -> ->. now apply read_i64_some in H.
  - intros [-> H]. destruct v; try destruct H. exists z, r. split; [now apply read_i64_some|reflexivity].
  - intros (a & l' & H & H'). apply rret_some in H'. injection H' as -> ->. now apply read_key_some in H.
  - intros [-> H]. destruct v; try destruct H. exists k, r. split; [now apply read_key_some|reflexivity].
  - intros (a & l' & H & H'). apply rret_some in H'. injection H' as -> ->. now apply read_bytes_some in H.
  - intros [-> H]. destruct v; try destruct H. exists bs, r. split; [now apply read_bytes_some|reflexivity].
  - intros (a & l' & H & H'). apply rret_some in H'. injection H' as -> ->. apply rbind_some in H.
    destruct H as (b & l'' & H & H'). apply read_u8_some in H. destruct H as [-> H].
    destruct (Z.ltb_spec b n); [|discriminate]. apply rret_some in H'. injection H' as -> ->. cbn. auto.
  - intros [-> H]. destruct v; try destruct H. exists z, r. split; [|reflexivity]. apply rbind_some.
    exists z, r. split; [now apply read_u8_some|]. destruct (Z.ltb_spec z n); [reflexivity|lia].
Qed.

Lemma read_fields_some s : forall l vs r,
  read_fields s l = Some (vs, r) <-> l = fields_bytes s vs ++ r /\ fields_ok s vs.
Proof.
  induction s as [|t s IH]; intros l vs r; cbn [read_fields].
  - rewrite rret_some. split.
    + intros [= -> ->]. split; [reflexivity|constructor].
    + intros [-> H]. inversion H. reflexivity.
  - rewrite rbind_some. split.
    + intros (v & l' & H & H'). apply rbind_some in H'. destruct H' as (vs' & l'' & H' & K).
      apply rret_some in K. injection K as -> ->. apply read_field_some in H. destruct H as [-> H].
      apply IH in H'. destruct H' as [-> H']. cbn [fields_bytes]. rewrite <- app_assoc. split; [reflexivity|now constructor].
    + intros [-> H]. inversion H as [|? v ? vs' Hv Hvs]; subst. cbn [fields_bytes]. rewrite <- app_assoc.
      exists v, (fields_bytes s vs' ++ r). split; [now apply read_field_some|]. apply rbind_some.
      exists vs', r. split; [now apply IH|reflexivity].
Qed.

Lemma field_bytes_length t v : field_ok t v -> length (field_bytes t v) = fsize t.
Proof. destruct t, v; cbn [field_ok field_bytes fsize]; intros H; try destruct H; rewrite ?le_enc_length, ?key_bytes_length; auto. Qed.

Definition total_size (s : schema) : nat := fold_right (fun t n => (fsize t + n)%nat) 0%nat s.
Lemma fields_bytes_length s vs : fields_ok s vs -> length (fields_bytes s vs) = total_size s.
Proof.
  intros H. induction H as [|t v s vs Hv H IH]; [reflexivity|]. cbn [fields_bytes total_size fold_right].
  rewrite app_length, field_bytes_length by exact Hv. now rewrite IH.
Qed.

Lemma struct_codec (s : struct) vs d :
  decode_struct s d = Some vs <->
  fields_ok (types s) vs /\ exists rest, d = fields_bytes (types s) vs ++ rest.
Proof.
  unfold decode_struct. rewrite deserialize_some. split.
  - intros (rest & H). apply read_fields_some in H. destruct H. eauto.
  - intros (H & rest & ->). exists rest. now apply read_fields_some.
Qed.

Lemma read_union_some u l t vs r :
  read_union u l = Some ((t, vs), r) <->
  is_u8 t /\ exists s, nth_error u (Z.to_nat t) = Some s /\ fields_ok s vs /\ l = le_enc 1 t ++ fields_bytes s vs ++ r.
Proof.
  unfold read_union. rewrite rbind_some. split.
  - intros (t' & l' & H & H'). apply read_u8_some in H. destruct H as [-> H].
    destruct (nth_error u (Z.to_nat t')) as [s|] eqn:N; [|discriminate].
    apply rbind_some in H'. destruct H' as (vs' & l'' & H' & K). apply rret_some in K. injection K as -> -> ->.
    apply read_fields_some in H'. destruct H' as [-> H']. eauto 10.
  - intros (H & s & N & K & ->). exists t, (fields_bytes s vs ++ r). split; [now apply read_u8_some|].
    rewrite N. apply rbind_some. exists vs, r. split; [now apply read_fields_some|reflexivity].
Qed.

(** ** The pointer cast reads the same values *)
Fixpoint packed_offsets (off : nat) (s : schema) : list nat :=
  match s with [] => [] | t :: s => off :: packed_offsets (off + fsize t) s end.

Definition fits (d : list byte) (t : ftype) (off : nat) : bool :=
  (off + fsize t <=? length d)%nat && match t with FEnum n => get_u8 off d <? n | _ => true end.

Lemma read_bytes_at n off d :
  read_bytes n (skipn off d) =
  if (off + n <=? length d)%nat || (n =? 0)%nat then Some (slice off n d, skipn (off + n) d) else None.
Proof.
  unfold read_bytes, slice. rewrite skipn_length. rewrite ?skipn_skipn'.
  destruct (Nat.leb_spec n (length d - off)); destruct (Nat.leb_spec (off + n) (length d)); cbn [orb]; try reflexivity; try lia.
  - destruct (Nat.eqb_spec n 0); [reflexivity|lia].
  - destruct (Nat.eqb_spec n 0); [lia|reflexivity].
Qed.

Lemma fits_pos n off (d : list byte) :
  (0 < n)%nat -> (off + n <=? length d)%nat || (n =? 0)%nat = (off + n <=? length d)%nat.
Proof. intros H. destruct (Nat.eqb_spec n 0); [lia|]. apply orb_false_r. Qed.

Lemma get_u8_slice' off d : (off + 1 <= length d)%nat -> le_dec (slice off 1 d) = get_u8 off d.
Proof. intros H. symmetry. apply get_u8_slice. lia. Qed.

Lemma read_field_at t off d :
  (0 < fsize t)%nat ->
  read_field t (skipn off d) = if fits d t off then Some (view_field d t off, skipn (off + fsize t) d) else None.
Proof.
  intros Hs. unfold fits.
  destruct t; cbn [read_field fsize view_field] in *;
    unfold read_u8, read_u64, read_i64, read_key, read_enum, read_u8, rbind; rewrite read_bytes_at, fits_pos by lia;
    match goal with |- context [(?a <=? ?b)%nat] => destruct (Nat.leb_spec a b) end;
    cbn [andb rret]; unfold rret; try reflexivity.
  - now rewrite get_u8_slice' by assumption.
  - rewrite get_u8_slice' by assumption. now destruct (get_u8 off d <? n).
Qed.

Lemma read_fields_at s : forall off d,
  Forall (fun t => (0 < fsize t)%nat) s -> c_offsets off s = packed_offsets off s ->
  read_fields s (skipn off d) =
  if forallb (fun b => b) (zip_with (fits d) s (c_offsets off s))
  then Some (zip_with (view_field d) s (c_offsets off s), skipn (off + total_size s) d) else None.
Proof.
  induction s as [|t s IH]; intros off d Hp H.
  - cbn. now rewrite Nat.add_0_r.
  - cbn [c_offsets packed_offsets] in H. injection H as H1 H2. rewrite H1 in H2.
    inversion Hp as [|? ? Ht Hp']; subst.
    cbn [read_fields c_offsets zip_with forallb total_size fold_right]. rewrite H1. unfold rbind at 1.
    rewrite read_field_at by exact Ht. destruct (fits d t off); [|reflexivity]. cbn [andb].
    unfold rbind. rewrite IH by assumption. rewrite Nat.add_assoc.
    now destruct (forallb _ _).
Qed.

(** What the clients decode from account data, for data of any length. *)
Definition state_view (d : list byte) : list fval :=
  [VInt (st_disc d); VBytes (slice 1 5 d); VInt (st_bump d); VInt (st_vault_bump d);
   VInt (st_escrow d); VInt (st_cooldown d); VKey (st_authority d); VBytes (slice 56 1992 d)].
Definition pending_view (d : list byte) : list fval :=
  [VInt (pw_disc d); VBytes (slice 1 5 d); VInt (pw_bump d); VInt (pw_index d);
   VKey (pw_unstaker d); VInt (pw_amount d); VInt (pw_timestamp d); VBytes (slice 56 968 d)].

Lemma state_layout : c_offsets 0 (types program_state) = [0; 1; 6; 7; 8; 16; 24; 56]%nat.
Proof. reflexivity. Qed.
Lemma pending_layout : c_offsets 0 (types program_pending) = [0; 1; 6; 7; 8; 40; 48; 56]%nat.
Proof. reflexivity. Qed.

Lemma no_hidden_padding :
  c_offsets 0 (types program_state) = packed_offsets 0 (types program_state) /\
  c_offsets 0 (types program_pending) = packed_offsets 0 (types program_pending) /\
  c_size (types program_state) = total_size (types program_state) /\
  c_size (types program_pending) = total_size (types program_pending) /\
  Z.of_nat (total_size (types program_state)) = STATE_LEN /\
  Z.of_nat (total_size (types program_pending)) = PENDING_LEN.
Proof.
  assert (S : total_size (types program_state) = 2048%nat) by reflexivity.
  assert (P : total_size (types program_pending) = 1024%nat) by reflexivity.
  rewrite S, P. repeat split; vm_cast_no_check (eq_refl true).
Qed.

Lemma state_decode d :
  decode_struct program_state d =
  if (2048 <=? length d)%nat && (st_disc d <? 4) then Some (state_view d) else None.
Proof.
  unfold decode_struct, deserialize. pose proof (read_fields_at (types program_state) 0 d) as H.
  cbn [skipn] in H. rewrite H; clear H.
  2:{ repeat (apply Forall_cons; [apply Nat.ltb_lt; reflexivity|]). apply Forall_nil. }
  2:{ reflexivity. }
  rewrite state_layout. cbn [types program_state map snd zip_with forallb].
  unfold fits, program_discriminator. cbn [fsize view_field]. rewrite !andb_true_r.
  change (get_u8 0 d) with (st_disc d).
  destruct (Nat.leb_spec 2048 (length d)) as [L|L].
  - rewrite (proj2 (Nat.leb_le (0 + 1) _)), (proj2 (Nat.leb_le (1 + 5) _)), (proj2 (Nat.leb_le (6 + 1) _)),
      (proj2 (Nat.leb_le (7 + 1) _)), (proj2 (Nat.leb_le (8 + 8) _)), (proj2 (Nat.leb_le (16 + 8) _)),
      (proj2 (Nat.leb_le (24 + 32) _)), (proj2 (Nat.leb_le (56 + 1992) _)) by lia.
    cbn [andb]. rewrite andb_true_r. destruct (st_disc d <? 4); reflexivity.
  - rewrite (proj2 (Nat.leb_gt (56 + 1992) _)) by lia. now rewrite !andb_false_r.
Qed.

Lemma pending_decode d :
  decode_struct program_pending d =
  if (1024 <=? length d)%nat && (pw_disc d <? 4) then Some (pending_view d) else None.
Proof.
  unfold decode_struct, deserialize. pose proof (read_fields_at (types program_pending) 0 d) as H.
  cbn [skipn] in H. rewrite H; clear H.
  2:{ repeat (apply Forall_cons; [apply Nat.ltb_lt; reflexivity|]). apply Forall_nil. }
  2:{ reflexivity. }
  rewrite pending_layout. cbn [types program_pending map snd zip_with forallb].
  unfold fits, program_discriminator. cbn [fsize view_field]. rewrite !andb_true_r.
  change (get_u8 0 d) with (pw_disc d).
  destruct (Nat.leb_spec 1024 (length d)) as [L|L].
  - rewrite (proj2 (Nat.leb_le (0 + 1) _)), (proj2 (Nat.leb_le (1 + 5) _)), (proj2 (Nat.leb_le (6 + 1) _)),
      (proj2 (Nat.leb_le (7 + 1) _)), (proj2 (Nat.leb_le (8 + 32) _)), (proj2 (Nat.leb_le (40 + 8) _)),
      (proj2 (Nat.leb_le (48 + 8) _)), (proj2 (Nat.leb_le (56 + 968) _)) by lia.
    cbn [andb]. rewrite andb_true_r. destruct (pw_disc d <? 4); reflexivity.
  - rewrite (proj2 (Nat.leb_gt (56 + 968) _)) by lia. now rewrite !andb_false_r.
Qed.

Lemma same_layouts :
  rust_state = program_state /\ rust_pending = program_pending /\ rust_events = program_events /\
  js_state = camel_struct program_state /\ js_pending = camel_struct program_pending /\
  js_events = map camel_struct program_events.
Proof. repeat split; reflexivity. Qed.

Lemma camel_types s : types (camel_struct s) = types s.
Proof. unfold types, camel_struct. rewrite map_map. reflexivity. Qed.

Lemma rust_state_decode d : decode_struct rust_state d = decode_struct program_state d.
Proof. reflexivity. Qed.
Lemma js_state_decode d : decode_struct js_state d = decode_struct program_state d.
Proof. reflexivity. Qed.
Lemma rust_pending_decode d : decode_struct rust_pending d = decode_struct program_pending d.
Proof. reflexivity. Qed.
Lemma js_pending_decode d : decode_struct js_pending d = decode_struct program_pending d.
Proof. reflexivity. Qed.

(** ** Encoding and decoding State and PendingWithdraw *)
Lemma state_codec vs rest :
  fields_ok (types program_state) vs ->
  length (fields_bytes (types program_state) vs) = 2048%nat /\
  decode_struct program_state (fields_bytes (types program_state) vs ++ rest) = Some vs.
Proof.
  intros H. split.
  - rewrite fields_bytes_length by exact H. reflexivity.
  - apply struct_codec. eauto.
Qed.
Lemma pending_codec vs rest :
  fields_ok (types program_pending) vs ->
  length (fields_bytes (types program_pending) vs) = 1024%nat /\
  decode_struct program_pending (fields_bytes (types program_pending) vs ++ rest) = Some vs.
Proof.
  intros H. split.
  - rewrite fields_bytes_length by exact H. reflexivity.
  - apply struct_codec. eauto.
Qed.

Lemma codec_back s d vs :
  decode_struct s d = Some vs ->
  fields_ok (types s) vs /\ fields_bytes (types s) vs = firstn (total_size (types s)) d.
Proof.
  intros H. apply struct_codec in H. destruct H as (H & rest & ->). split; [exact H|].
  rewrite firstn_app, <- (fields_bytes_length _ _ H), firstn_all, Nat.sub_diag. cbn. now rewrite app_nil_r.
Qed.

Lemma state_codec_back d vs :
  decode_struct program_state d = Some vs ->
  fields_ok (types program_state) vs /\ fields_bytes (types program_state) vs = firstn 2048 d.
Proof. apply codec_back. Qed.
Lemma pending_codec_back d vs :
  decode_struct program_pending d = Some vs ->
  fields_ok (types program_pending) vs /\ fields_bytes (types program_pending) vs = firstn 1024 d.
Proof. apply codec_back. Qed.

Lemma state_borsh_fields s : state_borsh s = fields_bytes (types program_state) (state_fields s).
Proof. unfold state_borsh, state_fields. cbn. now rewrite app_nil_r. Qed.

(** ** Writing a field *)
Lemma slice_set_u64 off n o2 v d :
  ((off + n <= o2) \/ (o2 + 8 <= off))%nat -> (o2 + 8 <= length d)%nat -> slice off n (set_u64 o2 v d) = slice off n d.
Proof. intros. apply slice_splice_ne; rewrite ?le_enc_length; auto. Qed.
Lemma slice_set_key off n o2 k d :
  ((off + n <= o2) \/ (o2 + 32 <= off))%nat -> (o2 + 32 <= length d)%nat -> slice off n (set_key o2 k d) = slice off n d.
Proof. intros. apply slice_splice_ne; rewrite ?key_bytes_length; auto. Qed.
Lemma slice_set_u8 off n o2 v d :
  ((off + n <= o2) \/ (o2 + 1 <= off))%nat -> (o2 + 1 <= length d)%nat -> slice off n (set_u8 o2 v d) = slice off n d.
Proof. intros. apply slice_splice_ne; rewrite ?le_enc_length; auto. Qed.

Lemma write_escrow v d :
  (2048 <= length d)%nat -> is_u64 v -> state_view (set_escrow v d) = put 4 (VInt v) (state_view d).
Proof.
  intros L H. destruct (set_escrow_same v d L H) as [K [_ K1 K2 K3 K4 K5]]. unfold state_view at 1.
  rewrite K, K1, K2, K3, K4, K5.
  unfold set_escrow. rewrite !slice_set_u64 by lia. reflexivity.
Qed.
Lemma write_cooldown v d :
  (2048 <= length d)%nat -> is_i64 v -> state_view (set_cooldown v d) = put 5 (VInt v) (state_view d).
Proof.
  intros L H. destruct (set_cooldown_same v d L H) as (H1 & _ & H2 & H3 & H4 & H5 & H6).
  unfold state_view at 1. rewrite H1, H2, H3, H4, H5, H6. unfold set_cooldown. rewrite !slice_set_u64 by lia. reflexivity.
Qed.
Lemma write_authority k d :
  (2048 <= length d)%nat -> state_view (set_authority k d) = put 6 (VKey k) (state_view d).
Proof.
  intros L. destruct (set_authority_same k d L) as (H1 & _ & H2 & H3 & H4 & H5 & H6).
  unfold state_view at 1. rewrite H1, H2, H3, H4, H5, H6. unfold set_authority. rewrite !slice_set_key by lia. reflexivity.
Qed.

(** ** Records written by Unstake, and every account of a reachable ledger *)
Lemma pending_padding b i u a t :
  slice 1 5 (pending_bytes b i u a t) = zeros 5 /\ slice 56 968 (pending_bytes b i u a t) = zeros 968.
Proof.
  unfold pending_bytes.
  assert (L : length (zeros PENDING_LEN) = 1024%nat) by (rewrite zeros_length; reflexivity).
  assert (Z1 : slice 1 5 (zeros PENDING_LEN) = zeros 5) by reflexivity.
  assert (Z2 : slice 56 968 (zeros PENDING_LEN) = zeros 968) by (vm_cast_no_check (eq_refl (zeros 968))).
  rewrite <- Z1, <- Z2. set (z := zeros PENDING_LEN) in *. clearbody z.
  assert (L1 : length (set_u8 0 DISC_PENDING z) = 1024%nat) by (rewrite set_u8_length; lia).
  assert (L2 : length (set_u8 6 b (set_u8 0 DISC_PENDING z)) = 1024%nat)
    by (rewrite set_u8_length; lia).
  assert (L3 : length (set_u8 7 i (set_u8 6 b (set_u8 0 DISC_PENDING z))) = 1024%nat)
    by (rewrite set_u8_length; lia).
  assert (L4 : length (set_key 8 u (set_u8 7 i (set_u8 6 b (set_u8 0 DISC_PENDING z)))) = 1024%nat)
    by (rewrite set_key_length; lia).
  assert (L5 : length (set_u64 40 a
                (set_key 8 u (set_u8 7 i (set_u8 6 b (set_u8 0 DISC_PENDING z))))) = 1024%nat)
    by (rewrite set_u64_length; lia).
  split.
  - do 2 rewrite slice_set_u64 by lia. rewrite slice_set_key by lia. now do 3 rewrite slice_set_u8 by lia.
  - do 2 rewrite slice_set_u64 by lia. rewrite slice_set_key by lia. now do 3 rewrite slice_set_u8 by lia.
Qed.

Lemma pending_bytes_view b i u a t :
  is_u8 b -> is_u8 i -> is_u64 a -> is_i64 t ->
  pending_view (pending_bytes b i u a t) =
  [VInt 2; VBytes (zeros 5); VInt b; VInt i; VKey u; VInt a; VInt t; VBytes (zeros 968)].
Proof.
  intros Hb Hi Ha Ht. destruct (pending_bytes_fields b i u a t Hb Hi Ha Ht) as (H1 & H2 & H3 & H4 & H5 & H6).
  destruct (pending_padding b i u a t) as [H7 H8]. unfold pending_view. now rewrite H1, H2, H3, H4, H5, H6, H7, H8.
Qed.

Lemma state_decodes d :
  length d = 2048%nat -> st_disc d = 1 -> decode_struct program_state d = Some (state_view d).
Proof. intros L D. rewrite state_decode, L, D. reflexivity. Qed.
Lemma pending_decodes d :
  length d = 1024%nat -> pw_disc d = 2 -> decode_struct program_pending d = Some (pending_view d).
Proof. intros L D. rewrite pending_decode, L, D. reflexivity. Qed.

(** ** The zero-copy view and the codecs *)
Lemma state_view_is d : view (types program_state) d = state_view d.
Proof. unfold view. rewrite state_layout. reflexivity. Qed.
Lemma pending_view_is d : view (types program_pending) d = pending_view d.
Proof. unfold view. rewrite pending_layout. reflexivity. Qed.

Theorem state_readers d :
  let read := if (2048 <=? length d)%nat && (get_u8 0 d <? 4)
              then Some (view (types program_state) d) else None in
  decode_struct program_state d = read /\ decode_struct rust_state d = read /\ decode_struct js_state d = read.
Proof.
  cbv zeta. rewrite state_view_is. pose proof (state_decode d) as H. split; [exact H|].
  split; [exact (eq_trans (rust_state_decode d) H)|exact (eq_trans (js_state_decode d) H)].
Qed.
Theorem pending_readers d :
  let read := if (1024 <=? length d)%nat && (get_u8 0 d <? 4)
              then Some (view (types program_pending) d) else None in
  decode_struct program_pending d = read /\ decode_struct rust_pending d = read /\ decode_struct js_pending d = read.
Proof.
  cbv zeta. rewrite pending_view_is. pose proof (pending_decode d) as H. split; [exact H|].
  split; [exact (eq_trans (rust_pending_decode d) H)|exact (eq_trans (js_pending_decode d) H)].
Qed.

Theorem state_writers d v c k :
  (2048 <= length d)%nat -> is_u64 v -> is_i64 c ->
  view (types program_state) (set_escrow v d) = put 4 (VInt v) (view (types program_state) d) /\
  view (types program_state) (set_cooldown c d) = put 5 (VInt c) (view (types program_state) d) /\
  view (types program_state) (set_authority k d) = put 6 (VKey k) (view (types program_state) d).
Proof.
  intros L Hv Hc. rewrite !state_view_is. auto using write_escrow, write_cooldown, write_authority.
Qed.

Theorem pending_written b i u a t :
  is_u8 b -> is_u8 i -> is_u64 a -> is_i64 t ->
  pending_bytes b i u a t =
  fields_bytes (types program_pending)
    [VInt 2; VBytes (zeros 5); VInt b; VInt i; VKey u; VInt a; VInt t; VBytes (zeros 968)].
Proof.
  intros Hb Hi Ha Ht.
  assert (L : length (pending_bytes b i u a t) = 1024%nat) by apply pending_bytes_length.
  assert (D : pw_disc (pending_bytes b i u a t) = 2) by (apply pending_bytes_fields; assumption).
  pose proof (pending_decodes _ L D) as H. apply pending_codec_back in H. destruct H as [_ H].
  rewrite <- L, firstn_all, pending_bytes_view in H by assumption. symmetry. exact H.
Qed.
