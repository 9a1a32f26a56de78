(** Inequalities about the exchange-rate functions. *)
From Verif Require Export MathFacts.
From Verif Require Import ClientMath.

(** A solvent pool mints at most what is staked. *)
Lemma mint_le_stake a ne s :
  0 <= a -> 0 <= s <= ne -> mint_quote a ne s <= a.
Proof.
  intros Ha H. pose proof (mint_quote_spec a ne s ltac:(lia)).
  assert (a * (s + 100) <= a * (ne + 100)) by nia. nia.
Qed.

(** Redeeming x of s units of a solvent pool leaves it solvent. *)
Lemma redeem_keeps_solvent x ne s :
  0 <= x <= s -> s <= ne -> redeem_quote x ne s <= ne - (s - x).
Proof.
  intros Hx H. pose proof (redeem_quote_spec x ne s ltac:(lia)).
  assert (x * (ne + 100) <= (ne - s + x) * (s + 100)); [|nia].
  replace (x * (ne + 100)) with (x * (s + 100) + x * (ne - s)) by ring.
  replace ((ne - s + x) * (s + 100)) with (x * (s + 100) + (ne - s) * (s + 100)) by ring.
  nia.
Qed.

Lemma redeem_le_ne x ne s :
  0 <= x <= s -> s <= ne -> redeem_quote x ne s <= ne.
Proof. intros. pose proof (redeem_keeps_solvent x ne s). lia. Qed.

(** Price (ne+100)/(s+100) never falls. *)
Lemma mint_price_up a ne s m :
  0 <= ne -> m = mint_quote a ne s ->
  (ne + 100) * (s + m + 100) <= (ne + a + 100) * (s + 100).
Proof. intros Hn ->. pose proof (mint_quote_spec a ne s Hn). nia. Qed.

Lemma redeem_price_up x ne s w :
  0 <= s -> w = redeem_quote x ne s ->
  (ne + 100) * (s - x + 100) <= (ne - w + 100) * (s + 100).
Proof. intros Hn ->. pose proof (redeem_quote_spec x ne s Hn). nia. Qed.

(** Quotes are monotone in the price. *)
Lemma redeem_quote_mono x ne s ne' s' :
  0 <= x -> 0 <= ne -> 0 <= s -> 0 <= ne' -> 0 <= s' ->
  (ne + 100) * (s' + 100) <= (ne' + 100) * (s + 100) ->
  redeem_quote x ne s <= redeem_quote x ne' s'.
Proof.
  intros Hx Hn Hs Hn' Hs' H. unfold redeem_quote.
  apply Z.div_le_lower_bound; [lia|].
  pose proof (floor_spec (x * (ne + 100)) (s + 100) ltac:(lia)) as [F _].
  set (q := x * (ne + 100) / (s + 100)) in *.
  (* (s'+100) q (s+100) <= (s'+100) x (ne+100) <= x (ne'+100) (s+100) *)
  assert (A : (s + 100) * ((s' + 100) * q) <= (s + 100) * (x * (ne' + 100))).
  { replace ((s + 100) * ((s' + 100) * q)) with ((s' + 100) * ((s + 100) * q)) by ring.
    apply Z.le_trans with ((s' + 100) * (x * (ne + 100))); [nia|].
    replace ((s' + 100) * (x * (ne + 100))) with (x * ((ne + 100) * (s' + 100))) by ring.
    replace ((s + 100) * (x * (ne' + 100))) with (x * ((ne' + 100) * (s + 100))) by ring.
    nia. }
  nia.
Qed.

(** Round trip. *)
Lemma round_trip_quote a ne s m :
  0 <= a -> 0 <= ne -> 0 <= s -> m = mint_quote a ne s ->
  redeem_quote m (ne + a) (s + m) <= a /\
  (a - redeem_quote m (ne + a) (s + m) - 1) * (s + m + 100) < ne + 100.
Proof.
  intros Ha Hn Hs Hm.
  pose proof (mint_quote_spec a ne s Hn) as F1. rewrite <- Hm in F1.
  assert (Hm0 : 0 <= m) by (subst; apply mint_quote_nonneg; lia).
  pose proof (redeem_quote_spec m (ne + a) (s + m) ltac:(lia)) as F2.
  set (w := redeem_quote m (ne + a) (s + m)) in *.
  split.
  - assert (m * (ne + a + 100) <= a * (s + m + 100)) by nia. nia.
  - nia.
Qed.

(** Splitting a stake. *)
Lemma split_mint a b ne s m1 :
  0 <= a -> 0 <= b -> 0 <= ne -> 0 <= s -> m1 = mint_quote a ne s ->
  m1 + mint_quote b (ne + a) (s + m1) <= mint_quote (a + b) ne s.
Proof.
  intros Ha Hb Hn Hs Hm.
  pose proof (mint_quote_spec a ne s Hn) as F1. rewrite <- Hm in F1.
  assert (Hm0 : 0 <= m1) by (subst; apply mint_quote_nonneg; lia).
  pose proof (mint_quote_spec b (ne + a) (s + m1) ltac:(lia)) as F2.
  set (m2 := mint_quote b (ne + a) (s + m1)) in *.
  unfold mint_quote. apply Z.div_le_lower_bound; [lia|].
  (* m2 (N+a) <= b (S+m1),  m1 N <= a S  ==>  N (m1+m2) <= (a+b) S *)
  set (N := ne + 100) in *. set (S := s + 100) in *.
  replace (ne + a + 100) with (N + a) in F2 by (unfold N; ring).
  replace (s + m1 + 100) with (S + m1) in F2 by (unfold S; ring).
  assert (HN : 100 <= N) by lia.
  assert (A : (N + a) * (N * m2) <= (N + a) * (b * S)).
  { replace ((N + a) * (N * m2)) with (N * ((N + a) * m2)) by ring.
    apply Z.le_trans with (N * (b * (S + m1))); [nia|].
    replace (N * (b * (S + m1))) with (b * (N * S + N * m1)) by ring.
    replace ((N + a) * (b * S)) with (b * (N * S + a * S)) by ring. nia. }
  assert (N * m2 <= b * S) by nia. nia.
Qed.

(** Splitting an unstake. *)
Lemma split_redeem x y ne s w1 :
  0 <= x -> 0 <= y -> x + y <= s -> 0 <= ne -> w1 = redeem_quote x ne s ->
  w1 + redeem_quote y (ne - w1) (s - x) <= redeem_quote (x + y) ne s.
Proof.
  intros Hx Hy Hs Hn Hw.
  pose proof (redeem_quote_spec x ne s ltac:(lia)) as F1. rewrite <- Hw in F1.
  pose proof (redeem_quote_spec y (ne - w1) (s - x) ltac:(lia)) as F2.
  set (w2 := redeem_quote y (ne - w1) (s - x)) in *.
  unfold redeem_quote. apply Z.div_le_lower_bound; [lia|].
  set (N := ne + 100) in *. set (S := s + 100) in *.
  replace (ne - w1 + 100) with (N - w1) in F2 by (unfold N; ring).
  replace (s - x + 100) with (S - x) in F2 by (unfold S; ring).
  assert (HS : x + y + 100 <= S) by lia.
  (* S w1 <= x N; (S-x) w2 <= y (N - w1); goal S (w1+w2) <= (x+y) N *)
  assert (A : (S - x) * (S * (w1 + w2)) <= (S - x) * ((x + y) * N)); [|nia].
  replace ((S - x) * (S * (w1 + w2))) with ((S - x) * (S * w1) + S * ((S - x) * w2)) by ring.
  assert (S * ((S - x) * w2) <= S * (y * (N - w1))) by nia.
  (* (S-x) S w1 + S y N - S y w1 = S w1 (S - x - y) + S y N <= x N (S-x-y) + S y N *)
  assert (S * w1 * (S - x - y) <= x * N * (S - x - y)) by nia.
  nia.
Qed.

(** ** Inflation attack: donations and victim stakes interleaved arbitrarily. *)
Inductive pool_step := Donate (d : Z) | VictimStake (v : Z).

Fixpoint run_pool (ne s : Z) (steps : list pool_step) : Z * Z :=
  match steps with
  | [] => (ne, s)
  | Donate d :: rest => run_pool (ne + d) s rest
  | VictimStake v :: rest => run_pool (ne + v) (s + mint_quote v ne s) rest
  end.

Fixpoint donated (steps : list pool_step) : Z :=
  match steps with
  | [] => 0
  | Donate d :: rest => d + donated rest
  | VictimStake _ :: rest => donated rest
  end.
Fixpoint victims (steps : list pool_step) : Z :=
  match steps with
  | [] => 0
  | Donate _ :: rest => victims rest
  | VictimStake _ :: rest => 1 + victims rest
  end.
Definition step_ok (p : pool_step) : Prop :=
  match p with Donate d => 0 <= d | VictimStake v => 0 <= v end.

Lemma victims_nonneg steps : 0 <= victims steps.
Proof. induction steps as [|[d|v] r IH]; cbn [victims]; lia. Qed.

Lemma run_pool_inv steps : forall ne s M c,
  Forall step_ok steps -> 0 <= ne -> 0 <= s -> 0 < M <= ne + 100 ->
  victims steps <= c -> c * (ne + 100) <= M * (s + 100) ->
  let '(ne', s') := run_pool ne s steps in
  0 <= ne' /\ 0 <= s' /\
  (c - victims steps) * (ne' + 100) <= (M + donated steps) * (s' + 100) /\
  (0 < victims steps ->
   (c - victims steps) * (ne' + 100) < (M + donated steps) * (s' + 100)).
Proof.
  induction steps as [|[d|v] rest IH]; intros ne s M c Hok Hn Hs HM Hc Hinv; cbn [run_pool victims donated].
  - split; [lia|]. split; [lia|]. split; [nia|lia].
  - inversion Hok; subst. cbn [victims step_ok] in H1, Hc.
    specialize (IH (ne + d) s (M + d) c H2 ltac:(lia) Hs ltac:(lia) Hc).
    destruct (run_pool (ne + d) s rest) as [ne' s'].
    replace (M + (d + donated rest)) with (M + d + donated rest) by ring.
    apply IH.
    (* c (N+d) <= (M+d) S  from  c N <= M S, M <= N *)
    assert (0 <= victims rest) by apply victims_nonneg.
    assert (c <= s + 100) by nia. nia.
  - inversion Hok; subst. cbn [victims step_ok] in H1, Hc.
    set (m := mint_quote v ne s).
    assert (Hm : 0 <= m) by (apply mint_quote_nonneg; lia).
    pose proof (mint_quote_spec v ne s Hn) as F. fold m in F.
    assert (Hvr : 0 <= victims rest) by apply victims_nonneg.
    (* (c-1) (N+v) < M (S+m) *)
    assert (K : (c - 1) * (ne + v + 100) < M * (s + m + 100)).
    { set (N := ne + 100) in *. set (S := s + 100) in *.
      replace (ne + v + 100) with (N + v) by (unfold N; ring).
      replace (s + m + 100) with (S + m) by (unfold S; ring).
      (* N*(S+m) > S (N+v) - N ; multiply by M *)
      assert (A : M * S * (N + v) - M * N < M * (N * (S + m))) by nia.
      assert (B : c * N * (N + v) <= M * S * (N + v)) by nia.
      assert (D : N * ((c - 1) * (N + v)) < N * (M * (S + m))); [|nia].
      replace (N * ((c - 1) * (N + v))) with (c * N * (N + v) - N * (N + v)) by ring.
      replace (N * (M * (S + m))) with (M * (N * (S + m))) by ring. nia. }
    specialize (IH (ne + v) (s + m) M (c - 1) H2 ltac:(lia) ltac:(lia) ltac:(lia)
                   ltac:(lia) ltac:(lia)).
    fold m. destruct (run_pool (ne + v) (s + m) rest) as [ne' s'] eqn:R.
    destruct IH as (? & ? & I1 & I2).
    replace (c - (1 + victims rest)) with (c - 1 - victims rest) by ring.
    split; [lia|]. split; [lia|]. split; [lia|]. intros _.
    destruct (Z.eq_dec (victims rest) 0) as [Hz|]; [|apply I2; lia].
    (* no further victims: only donations follow *)
    rewrite Hz in *. clear I1 I2.
    assert (G : forall st ne s M c, Forall step_ok st -> victims st = 0 -> 0 <= ne -> 0 <= s ->
               0 <= c -> 0 < M <= ne + 100 -> c * (ne + 100) < M * (s + 100) ->
               let '(a, b) := run_pool ne s st in
               c * (a + 100) < (M + donated st) * (b + 100)).
    { clear. induction st as [|[d|v] st IH]; intros ne s M c Hok Hv Hn Hs Hc0 HM Hc; cbn [run_pool victims donated].
      - nia.
      - inversion Hok; subst. cbn [victims step_ok] in *.
        specialize (IH (ne + d) s (M + d) c H2 Hv ltac:(lia) Hs Hc0 ltac:(lia)).
        destruct (run_pool (ne + d) s st).
        replace (M + (d + donated st)) with (M + d + donated st) by ring.
        apply IH. assert (c < s + 100) by nia. nia.
      - cbn [victims] in Hv. assert (0 <= victims st) by apply victims_nonneg. lia. }
    specialize (G rest (ne + v) (s + m) M (c - 1) H2 Hz ltac:(lia) ltac:(lia) ltac:(lia)
                  ltac:(lia) K).
    rewrite R in G. replace (c - 1 - 0) with (c - 1) by ring. exact G.
Qed.

(** The attacker stakes [a] into the empty pool (1:1), everything else follows,
    then the attacker redeems their [a] units. *)
Lemma inflation_bound a steps :
  0 <= a -> Forall step_ok steps -> victims steps <= 100 ->
  let '(ne, s) := run_pool a a steps in
  redeem_quote a ne s <= a + donated steps + Z.max 0 (victims steps - 1).
Proof.
  intros Ha Hok Hv.
  assert (Hv0 : 0 <= victims steps) by apply victims_nonneg.
  assert (Hd0 : 0 <= donated steps).
  { clear - Hok. induction steps as [|[d|v] r IH]; cbn [donated]; [lia| |];
      inversion Hok; subst; cbn [step_ok] in *; specialize (IH H2); lia. }
  pose proof (run_pool_inv steps a a (a + 100) (a + 100) Hok Ha Ha ltac:(lia) ltac:(lia)
                ltac:(lia)) as I.
  destruct (run_pool a a steps) as [ne s]. destruct I as (Hn & Hs & I1 & I2).
  pose proof (redeem_quote_spec a ne s Hs) as F.
  set (w := redeem_quote a ne s) in *.
  set (k := victims steps) in *. set (D := donated steps) in *.
  set (N := ne + 100) in *. set (S := s + 100) in *.
  replace (a + 100 + D) with (a + D + k + (100 - k)) in * by ring.
  (* (a+100-k) N <= (a+D+100) S;  S w <= a N *)
  assert (P : 0 < S) by (unfold S; lia).
  destruct (Z.eq_dec k 0) as [K0|K0].
  - replace (Z.max 0 (k - 1)) with 0 by lia. rewrite K0 in *.
    replace (a + 100 - 0) with (a + 100) in I1 by ring.
    replace (a + D + 0 + (100 - 0)) with (a + D + 100) in I1 by ring.
    assert (A1 : (a + 100) * (S * w) <= (a + 100) * (a * N))
      by (apply Z.mul_le_mono_nonneg_l; lia).
    assert (A2 : a * ((a + 100) * N) <= a * ((a + D + 100) * S))
      by (apply Z.mul_le_mono_nonneg_l; lia).
    assert (A : S * ((a + 100) * w) <= S * (a * (a + D + 100))).
    { replace (S * ((a + 100) * w)) with ((a + 100) * (S * w)) by ring.
      replace (S * (a * (a + D + 100))) with (a * ((a + D + 100) * S)) by ring.
      replace ((a + 100) * (a * N)) with (a * ((a + 100) * N)) in A1 by ring. lia. }
    apply Z.mul_le_mono_pos_l in A; [|assumption].
    assert (C : (a + 100) * w <= (a + 100) * (a + D)).
    { replace ((a + 100) * (a + D)) with (a * (a + D + 100) + 100 * D) by ring. lia. }
    apply Z.mul_le_mono_pos_l in C; lia.
  - specialize (I2 ltac:(lia)). replace (Z.max 0 (k - 1)) with (k - 1) by lia.
    set (T := a + 100 - k) in *.
    destruct (Z.eq_dec a 0) as [->|Ha0].
    { assert (w * S <= 0) by nia. nia. }
    assert (T0 : 0 < T) by (unfold T; lia).
    assert (A1 : T * (S * w) <= T * (a * N)) by (apply Z.mul_le_mono_nonneg_l; lia).
    assert (A2 : a * (T * N) < a * ((a + D + k + (100 - k)) * S))
      by (apply Z.mul_lt_mono_pos_l; lia).
    assert (A : S * (T * w) < S * (a * (a + D + k + (100 - k)))).
    { replace (S * (T * w)) with (T * (S * w)) by ring.
      replace (S * (a * (a + D + k + (100 - k))))
        with (a * ((a + D + k + (100 - k)) * S)) by ring.
      replace (T * (a * N)) with (a * (T * N)) in A1 by ring. lia. }
    assert (B : T * w < a * (a + D + k + (100 - k)))
      by (apply (Z.mul_lt_mono_pos_l S); assumption).
    assert (C : T * w < T * (a + D + k)).
    { apply Z.lt_le_trans with (1 := B). unfold T.
      replace ((a + 100 - k) * (a + D + k))
        with (a * (a + D + k + (100 - k)) + (100 - k) * (D + k)) by ring.
      assert (0 <= (100 - k) * (D + k)) by (apply Z.mul_nonneg_nonneg; lia). lia. }
    apply Z.mul_lt_mono_pos_l in C; lia.
Qed.

(** ** Clients *)
Lemma rc_orca_to_xorca_agrees a ne s :
  is_u64 a -> is_u64 ne -> is_u64 s ->
  (forall v, rc_convert_orca_to_xorca a ne s = Ok v <-> convert_orca_to_xorca a ne s = Ok v) /\
  ((exists e, rc_convert_orca_to_xorca a ne s = Err e) <->
   (exists e, convert_orca_to_xorca a ne s = Err e)).
Proof.
  intros Ha Hn Hs. unfold rc_convert_orca_to_xorca, convert_orca_to_xorca.
  destruct ((s =? 0) || (ne =? 0)); [split; [intros v; split; congruence|split; intros [? H]; discriminate]|].
  unfold rc_apply_virtual_offsets, rc_checked_add, u128_checked_add, VIRTUAL_XORCA_SUPPLY,
    VIRTUAL_NON_ESCROWED_ORCA_AMOUNT.
  repeat (destruct (_ + _ <=? u128_max); cbn [bind fst snd];
          [|split; [intros; split; discriminate|split; intros; eexists; eauto]]).
  unfold rc_checked_mul, u128_checked_mul. destruct (_ <=? u128_max); cbn [bind];
    [|split; [intros; split; discriminate|split; intros; eexists; eauto]].
  unfold rc_checked_div, u128_checked_div. destruct (_ =? 0); cbn [bind];
    [split; [intros; split; discriminate|split; intros; eexists; eauto]|].
  unfold rc_try_into, u64_try_from. destruct (_ <=? u64_max);
    [split; [intros; split; congruence|split; intros [? H]; discriminate]
    |split; [intros; split; discriminate|split; intros; eexists; eauto]].
Qed.

Lemma rc_xorca_to_orca_agrees a ne s :
  is_u64 a -> is_u64 ne -> is_u64 s ->
  (forall v, rc_convert_xorca_to_orca a ne s = Ok v <-> convert_xorca_to_orca a ne s = Ok v) /\
  ((exists e, rc_convert_xorca_to_orca a ne s = Err e) <->
   (exists e, convert_xorca_to_orca a ne s = Err e)).
Proof.
  intros Ha Hn Hs. unfold rc_convert_xorca_to_orca, convert_xorca_to_orca.
  destruct ((s =? 0) || (ne =? 0));
    [split; [intros; split; discriminate|split; intros; eexists; eauto]|].
  unfold rc_apply_virtual_offsets, rc_checked_add, u128_checked_add, VIRTUAL_XORCA_SUPPLY,
    VIRTUAL_NON_ESCROWED_ORCA_AMOUNT.
  repeat (destruct (_ + _ <=? u128_max); cbn [bind fst snd];
          [|split; [intros; split; discriminate|split; intros; eexists; eauto]]).
  unfold rc_checked_mul, u128_checked_mul. destruct (_ <=? u128_max); cbn [bind];
    [|split; [intros; split; discriminate|split; intros; eexists; eauto]].
  unfold rc_checked_div, u128_checked_div. destruct (_ =? 0); cbn [bind];
    [split; [intros; split; discriminate|split; intros; eexists; eauto]|].
  unfold rc_try_into, u64_try_from. destruct (_ <=? u64_max);
    [split; [intros; split; congruence|split; intros [? H]; discriminate]
    |split; [intros; split; discriminate|split; intros; eexists; eauto]].
Qed.

Lemma js_orca_to_xorca_agrees a ne s v :
  is_u64 a -> is_u64 ne -> is_u64 s ->
  convert_orca_to_xorca a ne s = Ok v -> js_convert_orca_to_xorca a ne s = v.
Proof.
  intros Ha Hn Hs H. apply orca_to_xorca_ok in H; auto. destruct H as (_ & H).
  unfold js_convert_orca_to_xorca. destruct H as [[Hz ->]|(H1 & H2 & ->)].
  - destruct (Z.eqb_spec s 0); [reflexivity|]. destruct (Z.eqb_spec ne 0); [reflexivity|].
    lia.
  - destruct (Z.eqb_spec s 0); [lia|]. destruct (Z.eqb_spec ne 0); [lia|]. cbn [orb].
    unfold mint_quote, is_u64 in *. apply Z.quot_div_nonneg; nia.
Qed.

Lemma js_xorca_to_orca_agrees a ne s v :
  is_u64 a -> is_u64 ne -> is_u64 s ->
  convert_xorca_to_orca a ne s = Ok v -> js_convert_xorca_to_orca a ne s = Ok v.
Proof.
  intros Ha Hn Hs H. apply xorca_to_orca_ok in H; auto. destruct H as (_ & H1 & H2 & ->).
  unfold js_convert_xorca_to_orca.
  destruct (Z.eqb_spec s 0); [lia|]. destruct (Z.eqb_spec ne 0); [lia|]. cbn [orb]. f_equal.
  unfold redeem_quote, is_u64 in *. apply Z.quot_div_nonneg; nia.
Qed.
