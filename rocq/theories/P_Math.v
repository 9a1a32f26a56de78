(** Properties of the exchange-rate arithmetic: C09, C10, C11, C12, C32, C37, C39.
    Only statements, one-line proofs, examples and [Print Assumptions]. *)
From Verif Require Import PoolMath.

(** ** C09 *)
Theorem C09_orca_to_xorca_exact : forall a ne s,
  is_u64 a -> is_u64 ne -> is_u64 s ->
  (s = 0 \/ ne = 0 -> convert_orca_to_xorca a ne s = Ok a) /\
  (s <> 0 -> ne <> 0 -> a * (s + 100) < 2 ^ 128 -> a * (s + 100) / (ne + 100) < 2 ^ 64 ->
     convert_orca_to_xorca a ne s = Ok (a * (s + 100) / (ne + 100))) /\
  (s <> 0 -> ne <> 0 ->
     2 ^ 128 <= a * (s + 100) \/ 2 ^ 64 <= a * (s + 100) / (ne + 100) ->
     convert_orca_to_xorca a ne s = Err (ECustom 6008)).
Proof. exact orca_to_xorca_char. Qed.

Example C09_ex_rate : convert_orca_to_xorca 1000000 3000000 1500000 = Ok 500016.
Proof. vm_compute. reflexivity. Qed.
Example C09_ex_overflow :
  convert_orca_to_xorca (2 ^ 64 - 1) 1 (2 ^ 64 - 1) = Err (ECustom 6008).
Proof. vm_compute. reflexivity. Qed.

(** ** C10 *)
Theorem C10_xorca_to_orca_exact : forall x ne s,
  is_u64 x -> is_u64 ne -> is_u64 s ->
  (s = 0 \/ ne = 0 -> convert_xorca_to_orca x ne s = Err (ECustom 6008)) /\
  (s <> 0 -> ne <> 0 -> x * (ne + 100) < 2 ^ 128 -> x * (ne + 100) / (s + 100) < 2 ^ 64 ->
     convert_xorca_to_orca x ne s = Ok (x * (ne + 100) / (s + 100))) /\
  (s <> 0 -> ne <> 0 ->
     2 ^ 128 <= x * (ne + 100) \/ 2 ^ 64 <= x * (ne + 100) / (s + 100) ->
     convert_xorca_to_orca x ne s = Err (ECustom 6008)).
Proof. exact xorca_to_orca_char. Qed.

Example C10_ex_rate : convert_xorca_to_orca 500016 4000000 2000016 = Ok 999999.
Proof. vm_compute. reflexivity. Qed.

(** ** C32: client quotes *)
Theorem C32_rust_quote_stake : forall a ne s,
  is_u64 a -> is_u64 ne -> is_u64 s ->
  (forall v, rc_convert_orca_to_xorca a ne s = Ok v <-> convert_orca_to_xorca a ne s = Ok v) /\
  ((exists e, rc_convert_orca_to_xorca a ne s = Err e) <->
   (exists e, convert_orca_to_xorca a ne s = Err e)).
Proof. exact rc_orca_to_xorca_agrees. Qed.

Theorem C32_rust_quote_unstake : forall x ne s,
  is_u64 x -> is_u64 ne -> is_u64 s ->
  (forall v, rc_convert_xorca_to_orca x ne s = Ok v <-> convert_xorca_to_orca x ne s = Ok v) /\
  ((exists e, rc_convert_xorca_to_orca x ne s = Err e) <->
   (exists e, convert_xorca_to_orca x ne s = Err e)).
Proof. exact rc_xorca_to_orca_agrees. Qed.

Theorem C32_js_quote_stake : forall a ne s v,
  is_u64 a -> is_u64 ne -> is_u64 s ->
  convert_orca_to_xorca a ne s = Ok v -> js_convert_orca_to_xorca a ne s = v.
Proof. exact js_orca_to_xorca_agrees. Qed.

Theorem C32_js_quote_unstake : forall x ne s v,
  is_u64 x -> is_u64 ne -> is_u64 s ->
  convert_xorca_to_orca x ne s = Ok v -> js_convert_xorca_to_orca x ne s = Ok v.
Proof. exact js_xorca_to_orca_agrees. Qed.

Example C32_ex :
  rc_convert_orca_to_xorca 1000000 3000000 1500000 = Ok 500016 /\
  js_convert_orca_to_xorca 1000000 3000000 1500000 = 500016 /\
  js_convert_xorca_to_orca 500016 4000000 2000016 = Ok 999999.
Proof. vm_compute. auto. Qed.

(** The converse fails for the JS client: it quotes a number although the program
    refuses the call, because bigint never overflows. *)
Theorem C32_js_never_quotes_refused_calls_refuted :
  exists a ne s, is_u64 a /\ is_u64 ne /\ is_u64 s /\
    convert_orca_to_xorca a ne s = Err (ECustom 6008) /\
    js_convert_orca_to_xorca a ne s = 3387625832466977855000
    /\ 2 ^ 64 <= js_convert_orca_to_xorca a ne s.
Proof.
  exists (2 ^ 64 - 1), 1, 18448.
  unfold is_u64. repeat split; try lia; vm_compute; first [reflexivity | congruence].
Qed.

(** ** C37: inflation attack.  [run_pool ne s steps] is the pool after a list of
    donations and victim stakes; the attacker opened the empty pool with [a]. *)
Theorem C37_inflation_bound : forall a steps,
  0 <= a -> Forall step_ok steps -> victims steps <= 100 ->
  let '(ne, s) := run_pool a a steps in
  (a * (ne + 100)) / (s + 100) <= a + donated steps + Z.max 0 (victims steps - 1).
Proof. exact inflation_bound. Qed.

Example C37_ex :
  run_pool 1000 1000 [Donate 5000; VictimStake 900; Donate 10; VictimStake 12345]
  = (19255, 3384) /\ 1000 * (19255 + 100) / (3384 + 100) = 5555.
Proof. vm_compute. auto. Qed.

(** With more than 100 victims the attack can pay. *)
Theorem C37_attacker_never_profits_refuted :
  exists a steps, 0 <= a /\ Forall step_ok steps /\
    let '(ne, s) := run_pool a a steps in
    a + donated steps < (a * (ne + 100)) / (s + 100).
Proof.
  exists 1000000, (Donate 1000000000 :: repeat (VictimStake 1999) 150).
  split; [lia|]. split.
  - constructor; [cbn; lia|]. apply Forall_forall. intros x Hx. apply repeat_spec in Hx.
    subst. cbn. lia.
  - vm_compute. reflexivity.
Qed.

(** ** C39 *)
Theorem C39_no_overflow_stake : forall a ne s,
  0 <= a < 2 ^ 63 -> 0 <= s <= ne -> ne < 2 ^ 63 ->
  exists m, convert_orca_to_xorca a ne s = Ok m /\ m <= a.
Proof. exact no_overflow_stake. Qed.

Theorem C39_no_overflow_unstake : forall x ne s,
  0 <= x <= s -> 0 < s <= ne -> ne < 2 ^ 63 ->
  exists w, convert_xorca_to_orca x ne s = Ok w /\ w <= ne.
Proof. exact no_overflow_unstake. Qed.

Example C39_ex : convert_xorca_to_orca (2 ^ 62) (2 ^ 63 - 1) (2 ^ 62) = Ok 9223372036854775707.
Proof. vm_compute. reflexivity. Qed.

Print Assumptions C09_orca_to_xorca_exact.
Print Assumptions C10_xorca_to_orca_exact.
Print Assumptions C32_rust_quote_stake.
Print Assumptions C32_rust_quote_unstake.
Print Assumptions C32_js_quote_stake.
Print Assumptions C32_js_quote_unstake.
Print Assumptions C37_inflation_bound.
Print Assumptions C39_no_overflow_stake.
Print Assumptions C39_no_overflow_unstake.
Print Assumptions C32_js_never_quotes_refused_calls_refuted.
Print Assumptions C37_attacker_never_profits_refuted.
