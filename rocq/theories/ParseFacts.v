(** Borsh views of SPL mints and token accounts agree with the byte offsets the
    token program uses. *)
From Verif Require Import Layout TokenProg BytesFacts.
Open Scope reader_scope.

Lemma read_bytes_at n off (d : list byte) :
  (off <= length d)%nat ->
  read_bytes n (skipn off d) =
  if Nat.leb (off + n) (length d) then Some (slice off n d, skipn (off + n) d) else None.
Proof.
  intros H. unfold read_bytes, slice. rewrite skipn_length, skipn_skipn'.
  destruct (Nat.leb_spec n (length d - off)), (Nat.leb_spec (off + n) (length d));
    try lia; reflexivity.
Qed.

Definition parse_mint (d : list byte) : token_mint := {|
  tm_mint_authority_flag := mint_auth_flag d;
  tm_mint_authority := mint_auth d;
  tm_supply := mint_supply d;
  tm_decimals := mint_decimals d;
  tm_is_initialized := mint_init d =? 1;
  tm_freeze_authority_flag := mint_freeze_flag d;
  tm_freeze_authority := mint_freeze d
|}.

Definition parse_ta (d : list byte) : token_account := {|
  tk_mint := ta_mint d;
  tk_owner := ta_owner d;
  tk_amount := ta_amount d;
  tk_delegate_flag := ta_delegate_flag d;
  tk_delegate := ta_delegate d;
  tk_state := ta_state d;
  tk_is_native_flag := ta_native_flag d;
  tk_native_amount := ta_native_reserve d;
  tk_delegate_amount := ta_delegated d;
  tk_close_authority_flag := ta_close_flag d;
  tk_close_authority := ta_close d
|}.

(** Step one field of a reader positioned at a known offset. *)
Ltac step_read :=
  match goal with
  | |- context [rbind (rbind (read_bytes ?n) ?f) ?g (skipn ?off ?d)] =>
      unfold rbind at 1;
      let E := fresh "E" in
      change (rbind (read_bytes n) f (skipn off d)) with
        (match read_bytes n (skipn off d) with Some (a, l') => f a l' | None => None end);
      rewrite (read_bytes_at n off d) by lia;
      destruct (Nat.leb_spec (off + n) (length d)) as [E|E]; cbn [rret]
  end.

Lemma read_mint_spec d :
  deserialize read_token_mint d =
  if (82 <=? zlen d) && (mint_init d <=? 1) then Some (parse_mint d) else None.
Proof.
  assert (Hf : (length d < 82)%nat -> (82 <=? zlen d) && (mint_init d <=? 1) = false).
  { intros H. apply andb_false_iff. left. apply Z.leb_gt. unfold zlen. lia. }
  unfold deserialize, read_token_mint, read_bool, read_u32, read_u64, read_u8, read_key.
  change d with (skipn 0 d) at 1.
  assert (H0 : (0 <= length d)%nat) by lia.
  step_read; [|rewrite Hf by lia; reflexivity].
  step_read; [|rewrite Hf by lia; reflexivity].
  step_read; [|rewrite Hf by lia; reflexivity].
  step_read; [|rewrite Hf by lia; reflexivity].
  unfold rbind at 1. unfold rbind at 1. unfold rbind at 1.
  cbn [Nat.add] in *.
  rewrite (read_bytes_at 1 45 d) by lia.
  destruct (Nat.leb_spec (45 + 1) (length d)) as [E45|E45]; cbn [rret];
    [|rewrite Hf by lia; reflexivity].
  rewrite <- get_u8_slice by lia. fold (mint_init d).
  pose proof (get_u8_range 45 d) as Hr. fold (mint_init d) in Hr.
  destruct (mint_init d =? 0) eqn:Ei0; [|destruct (mint_init d =? 1) eqn:Ei1].
  - cbn [rret Nat.add]. step_read; [|rewrite Hf by lia; reflexivity].
    step_read; [|rewrite Hf by lia; reflexivity].
    unfold rret. apply Z.eqb_eq in Ei0.
    replace ((82 <=? zlen d) && (mint_init d <=? 1)) with true
      by (symmetry; apply andb_true_iff; split; apply Z.leb_le; unfold zlen; lia).
    unfold parse_mint. rewrite Ei0. cbn [Nat.add].
    unfold mint_auth_flag, mint_auth, mint_supply, mint_decimals, mint_freeze_flag, mint_freeze,
      get_u32, get_u64, get_key. rewrite get_u8_slice by lia. reflexivity.
  - cbn [rret Nat.add]. step_read; [|rewrite Hf by lia; reflexivity].
    step_read; [|rewrite Hf by lia; reflexivity].
    unfold rret. apply Z.eqb_eq in Ei1.
    replace ((82 <=? zlen d) && (mint_init d <=? 1)) with true
      by (symmetry; apply andb_true_iff; split; apply Z.leb_le; unfold zlen; lia).
    unfold parse_mint. rewrite Ei1. cbn [Nat.add].
    unfold mint_auth_flag, mint_auth, mint_supply, mint_decimals, mint_freeze_flag, mint_freeze,
      get_u32, get_u64, get_key. rewrite get_u8_slice by lia. reflexivity.
  - unfold rfail. apply Z.eqb_neq in Ei0, Ei1.
    replace ((82 <=? zlen d) && (mint_init d <=? 1)) with false; [reflexivity|].
    symmetry. apply andb_false_iff. right. apply Z.leb_gt. unfold is_u8 in Hr. lia.
Qed.

Lemma read_ta_spec d :
  deserialize read_token_account d =
  if (165 <=? zlen d) && (ta_state d <=? 2) then Some (parse_ta d) else None.
Proof.
  assert (Hf : (length d < 165)%nat -> (165 <=? zlen d) && (ta_state d <=? 2) = false).
  { intros H. apply andb_false_iff. left. apply Z.leb_gt. unfold zlen. lia. }
  unfold deserialize, read_token_account, read_enum, read_u32, read_u64, read_u8, read_key.
  change d with (skipn 0 d) at 1.
  assert (H0 : (0 <= length d)%nat) by lia.
  do 5 (step_read; [|rewrite Hf by lia; reflexivity]).
  unfold rbind at 1. unfold rbind at 1. unfold rbind at 1.
  cbn [Nat.add] in *.
  rewrite (read_bytes_at 1 108 d) by lia.
  destruct (Nat.leb_spec (108 + 1) (length d)) as [E45|E45]; cbn [rret];
    [|rewrite Hf by lia; reflexivity].
  rewrite <- get_u8_slice by lia. fold (ta_state d).
  destruct (ta_state d <? 3) eqn:Es.
  - cbn [rret Nat.add].
    do 5 (step_read; [|rewrite Hf by lia; reflexivity]).
    unfold rret. apply Z.ltb_lt in Es.
    replace ((165 <=? zlen d) && (ta_state d <=? 2)) with true
      by (symmetry; apply andb_true_iff; split; apply Z.leb_le; unfold zlen; lia).
    reflexivity.
  - unfold rfail. apply Z.ltb_ge in Es.
    replace ((165 <=? zlen d) && (ta_state d <=? 2)) with false; [reflexivity|].
    symmetry. apply andb_false_iff. right. apply Z.leb_gt. lia.
Qed.
