(** What the scripts send for a command line. *)
From Coq Require Import String Ascii.
From Verif Require Export CliKeys.
From Verif Require Import BytesFacts LogFacts ClientSpec EncodeFacts LedgerFacts HistoryFacts LifeFacts Pool PoolHistory AddressFacts ReadFacts ScriptFacts.
Import List ListNotations.
Open Scope list_scope.
Open Scope Z_scope.

Lemma created_shape E l who k mint :
  create_if_missing E l who k who mint = [] \/ exists k' mint', create_if_missing E l who k who mint = [OpAta E [who] who k' who mint'].
Proof. unfold create_if_missing. destruct (rpc_get l k); [now left|right; eauto]. Qed.
Lemma asks_built C E b i pre who rest : sends C b i -> b_accounts b = Meta who true true :: rest ->
  (pre = [] \/ exists k mint, pre = [OpAta E [who] who k who mint]) -> asks E (pre ++ [send E b]) who i.
Proof.
  intros S A P. destruct (sends_bytes _ _ _ S) as (_ & _ & D). exists pre, (Meta who true true), rest.
  unfold send. rewrite A, D. auto.
Qed.
Lemma too_big_rounds z d : rounds z d -> Z.abs d < 2 ^ 53 -> d = z.
Proof.
  intros R L. destruct (Z.le_gt_cases (Z.abs z) (2 ^ 53)) as [A|A]; [now apply rounds_exact in R|].
  exfalso. destruct R as [_ R]. destruct (Z.le_gt_cases 0 z).
  - destruct (R (2 ^ 53)) as [K _]; [apply small_double; lia|]. lia.
  - destruct (R (- 2 ^ 53)) as [K _]; [apply small_double; lia|]. lia.
Qed.
(** The index a text stands for. *)
Lemma index_meaning text i : i = js_trunc (parse_int true text) -> is_u8 i ->
  begins false text i \/ ((forall z, ~ begins false text z) /\ i = 0).
Proof.
  unfold is_u8. intros Ei U. destruct (parse_int true text) as [d|d|] eqn:P; cbn in Ei.
  - left. subst i. apply parse_int_begins in P. destruct P as (z & B & R). apply too_big_rounds in R; [|lia]. now subst z.
  - now apply parse_int_not_frac in P.
  - subst i. right. split; [exact (proj1 (parse_int_nan _ _) P)|reflexivity].
Qed.

(** ** stake.ts *)
Theorem stake_cli_asks C E load l args ops : stake_cli C E load l args = Some ops ->
  exists path text rest who n, args = path :: text :: rest /\ load path = Some who /\
    denotes text n /\ is_u64 n /\ asks E ops who (Stake n).
Proof.
  unfold stake_cli. destruct args as [|path [|text rest]]; try discriminate. intros H. repeat build_step H.
  unfold stake_script in H. repeat build_step H. injection H as <-.
  exists path, text, rest, x0, x. apply big_int_denotes in E0. split; [reflexivity|]. split; [exact E1|]. split; [exact E0|].
  pose proof (ScriptStake C x0 x x4 E6) as S. split; [apply (sends_bytes _ _ _ S)|].
  unfold script_stake in E6. repeat build_step E6. injection E6 as <-.
  eapply asks_built; [exact S|reflexivity|apply created_shape].
Qed.
Theorem stake_cli_reads C E load l path text rest who n : load path = Some who -> denotes text n ->
  stake_cli C E load l (path :: text :: rest) = stake_script C E l who n.
Proof. intros L D. apply big_int_denotes in D. unfold stake_cli. now rewrite D, L. Qed.

(** ** unstake.ts *)
Theorem unstake_cli_asks C E load l args ops : unstake_cli C E load l args = Some ops ->
  exists path text index rest who n i, args = path :: text :: index :: rest /\ load path = Some who /\
    denotes text n /\ is_u64 n /\ is_u8 i /\
    (begins false index i \/ ((forall z, ~ begins false index z) /\ i = 0)) /\
    asks E ops who (Unstake n i).
Proof.
  unfold unstake_cli. destruct args as [|path [|text [|index rest]]]; try discriminate. intros H. repeat build_step H.
  unfold unstake_script in H. repeat build_step H. injection H as <-.
  exists path, text, index, rest, x0, x, (js_trunc (parse_int true index)). apply big_int_denotes in E0.
  split; [reflexivity|]. split; [exact E1|]. split; [exact E0|].
  pose proof (ScriptUnstake C x0 x _ x4 E6) as S. destruct (sends_bytes _ _ _ S) as (_ & (U1 & U2) & _).
  split; [exact U1|]. split; [exact U2|]. split; [now apply index_meaning|].
  unfold script_unstake in E6. repeat build_step E6. injection E6 as <-.
  eapply asks_built; [exact S|reflexivity|apply created_shape].
Qed.
Lemma begins_parse hex s z d : begins hex s z -> rounds z d -> parse_int (negb hex) s = JInt d.
Proof. intros B R. apply parse_int_begins. rewrite negb_involutive. eauto. Qed.
Lemma begins_parse_small hex s z : begins hex s z -> Z.abs z <= 2 ^ 53 -> parse_int (negb hex) s = JInt z.
Proof. intros B L. eapply begins_parse; [exact B|]. now apply rounds_exact. Qed.
Lemma nan_parse hex s : (forall z, ~ begins hex s z) -> parse_int (negb hex) s = JNaN.
Proof. intros H. apply parse_int_nan. now rewrite negb_involutive. Qed.
Lemma js_nan_u8 : js_u8 JNaN = js_u8 (JInt 0).
Proof. reflexivity. Qed.
Theorem unstake_cli_reads C E load l path text index rest who n i : load path = Some who -> denotes text n ->
  begins false index i -> is_u8 i ->
  unstake_cli C E load l (path :: text :: index :: rest) = unstake_script C E l who n (JInt i).
Proof.
  intros L D B U. apply big_int_denotes in D. unfold unstake_cli. rewrite D, L. cbn [obind].
  unfold is_u8 in U. pose proof (begins_parse_small false index i B ltac:(lia)) as Q. cbn [negb] in Q. now rewrite Q.
Qed.
Lemma unstake_nan C E l who n : unstake_script C E l who n JNaN = unstake_script C E l who n (JInt 0).
Proof. reflexivity. Qed.
Theorem unstake_cli_no_number C E load l path text index rest : (forall z, ~ begins false index z) ->
  unstake_cli C E load l (path :: text :: index :: rest) = unstake_cli C E load l (path :: text :: "0"%string :: rest).
Proof. intros H. unfold unstake_cli. pose proof (nan_parse false index H) as Q. cbn [negb] in Q. rewrite Q. reflexivity. Qed.

(** ** withdraw.ts *)
Theorem withdraw_cli_asks C E load l args ops : withdraw_cli C E load l args = Some ops ->
  exists path index rest who i, args = path :: index :: rest /\ load path = Some who /\ is_u8 i /\
    (begins false index i \/ ((forall z, ~ begins false index z) /\ i = 0)) /\
    asks E ops who (Withdraw i).
Proof.
  unfold withdraw_cli. destruct args as [|path [|index rest]]; try discriminate. intros H. repeat build_step H.
  unfold withdraw_script in H. repeat build_step H. injection H as <-.
  exists path, index, rest, x, (js_trunc (parse_int true index)).
  split; [reflexivity|]. split; [exact E0|].
  match goal with K : script_withdraw _ _ _ = Some ?b |- _ =>
    pose proof (ScriptWithdraw C x _ b K) as S; destruct (sends_bytes _ _ _ S) as (_ & U2 & _);
    split; [exact U2|]; split; [now apply index_meaning|];
    unfold script_withdraw in K; repeat build_step K; injection K as <- end.
  eapply asks_built; [exact S|reflexivity|apply created_shape].
Qed.
Theorem withdraw_cli_reads C E load l path index rest who i : load path = Some who ->
  begins false index i -> is_u8 i ->
  withdraw_cli C E load l (path :: index :: rest) = withdraw_script C E l who (JInt i).
Proof.
  intros L B U. unfold withdraw_cli. rewrite L. cbn [obind].
  unfold is_u8 in U. pose proof (begins_parse_small false index i B ltac:(lia)) as Q. cbn [negb] in Q. now rewrite Q.
Qed.
Theorem withdraw_cli_no_number C E load l path index rest : (forall z, ~ begins false index z) ->
  withdraw_cli C E load l (path :: index :: rest) = withdraw_cli C E load l (path :: "0"%string :: rest).
Proof. intros H. unfold withdraw_cli. pose proof (nan_parse false index H) as Q. cbn [negb] in Q. rewrite Q. reflexivity. Qed.

(** ** initialize.ts *)
Theorem initialize_cli_asks C E load args ops : initialize_cli C E load args = Some ops ->
  exists path path' text rest who who' z c, args = path :: path' :: text :: rest /\
    load path = Some who /\ load path' = Some who' /\ who = deployer_address /\
    begins true text z /\ rounds z c /\ is_i64 c /\ asks E ops who (Initialize c) /\
    exists accs d, ops = [OpCall E accs d] /\ nth_error accs 1 = Some (Meta who' true true).
Proof.
  unfold initialize_cli. destruct args as [|path [|path' [|text rest]]]; try discriminate. intros H. repeat build_step H.
  unfold initialize_script in H. repeat build_step H. injection H as <-.
  destruct (parse_int false text) as [c|c|] eqn:P;
    [|now apply parse_int_not_frac in P|unfold script_initialize in E2; repeat build_step E2; discriminate].
  pose proof (ScriptInitialize C x x0 c x1 E2) as S. destruct (sends_bytes _ _ _ S) as (_ & U & D).
  apply parse_int_begins in P. destruct P as (z & B & R).
  exists path, path', text, rest, x, x0, z, c.
  unfold script_initialize in E2. destruct (key_eqb x script_deployer) eqn:K; [cbn [negb] in E2|discriminate].
  repeat build_step E2. injection E2 as <-.
  split; [reflexivity|]. split; [exact E0|]. split; [exact E1|]. split; [now apply key_eqb_true in K|].
  split; [exact B|]. split; [exact R|]. split; [exact U|]. split.
  - apply (asks_built C E _ _ [] x _ S eq_refl). now left.
  - eexists _, _. split; reflexivity.
Qed.
Theorem initialize_cli_reads C E load path path' text rest who who' z c :
  load path = Some who -> load path' = Some who' -> begins true text z -> rounds z c ->
  initialize_cli C E load (path :: path' :: text :: rest) = initialize_script C E who who' (JInt c).
Proof. intros L L' B R. unfold initialize_cli. rewrite L, L'. cbn [obind]. pose proof (begins_parse true text z c B R) as Q. cbn [negb] in Q. now rewrite Q. Qed.

(** ** set.ts *)
Theorem set_cli_asks C E load l args ops : set_cli C E load l args = Some ops ->
  exists path operation text rest who sk, args = path :: operation :: text :: rest /\ load path = Some who /\
    client_state C sk /\ a_lamports (l sk) <> 0 /\
    ((operation = "update-cooldown"%string /\ exists z c, begins true text z /\ rounds z c /\ 0 <= c <= i64_max /\
        asks E ops who (Set_ (UpdateCoolDownPeriod c))) \/
     (operation = "update-authority"%string /\ exists k, text = to_base58 k /\
        asks E ops who (Set_ (UpdateUpdateAuthority k)))).
Proof.
  unfold set_cli. destruct args as [|path [|operation [|text rest]]]; try discriminate. intros H.
  do 3 build_step H. exists path, operation, text, rest, x, x0. split; [reflexivity|]. split; [exact E0|].
  split; [now apply script_state_some|]. split; [unfold rpc_get in E2; destruct (Z.eqb_spec (a_lamports (l x0)) 0); [discriminate|assumption]|].
  destruct (String.eqb_spec operation "update-cooldown") as [O|O].
  - left. split; [exact O|]. repeat build_step H. injection H as <-.
    destruct (parse_int false text) as [c|c|] eqn:P;
      [|now apply parse_int_not_frac in P|unfold script_set_cooldown in E3; repeat build_step E3; discriminate].
    pose proof (ScriptCooldown C x c x2 E3) as S. destruct (sends_bytes _ _ _ S) as (_ & U & D).
    apply parse_int_begins in P. destruct P as (z & B & R). exists z, c. split; [exact B|]. split; [exact R|].
    unfold script_set_cooldown in E3. repeat build_step E3. injection E3 as <-.
    split; [cbn in E5; injection E5 as <-; apply Z.ltb_ge in E6; unfold instruction_ok, is_i64 in U; unfold i64_max; lia|].
    apply (asks_built C E _ _ [] x _ S eq_refl). now left.
  - destruct (String.eqb_spec operation "update-authority") as [O'|O']; [|discriminate].
    right. split; [exact O'|]. repeat build_step H. injection H as <-.
    exists x2. apply public_key_iff in E3. split; [exact E3|].
    pose proof (ScriptAuthority C x x2 x3 E4) as S.
    unfold script_set_authority in E4. repeat build_step E4. injection E4 as <-.
    apply (asks_built C E _ _ [] x _ S eq_refl). now left.
Qed.
Theorem set_cli_works C E load l path operation text rest who sk :
  ordinary_state_address C -> reaches C l -> is_state l sk -> load path = Some who ->
  ((operation = "update-cooldown"%string /\ exists z c, begins true text z /\ rounds z c /\ 0 <= c <= i64_max) \/
   (operation = "update-authority"%string /\ exists k, text = to_base58 k)) ->
  exists ops, set_cli C E load l (path :: operation :: text :: rest) = Some ops.
Proof.
  intros Ho Hr Hs L H. destruct (reaches_pool _ _ _ Ho Hr Hs) as (v & P & HP).
  pose proof (po_slam _ _ _ _ _ HP) as N. destruct (state_where _ _ _ Ho Hr Hs) as [(b & _ & _ & S) _]. unfold set_cli. rewrite L. cbn [obind]. rewrite S. cbn [obind].
  rewrite (get_live _ _ N). cbn [obind].
  destruct H as [(-> & z & c & B & R & U)|(-> & k & ->)].
  - change (String.eqb "update-cooldown" "update-cooldown") with true. cbv iota.
    pose proof (begins_parse true text z c B R) as Q. cbn [negb] in Q. rewrite Q.
    unfold script_set_cooldown. rewrite S. cbn [obind js_bigint]. destruct (Z.ltb_spec c 0); [lia|].
    unfold js_i64, i64_min, i64_max in *. destruct (Z.ltb_spec c (- 2 ^ 63)); [lia|].
    destruct (Z.ltb_spec (2 ^ 63 - 1) c); [lia|]. cbn [orb obind]. eexists. reflexivity.
  - change (String.eqb "update-authority" "update-cooldown") with false.
    change (String.eqb "update-authority" "update-authority") with true. cbv iota.
    assert (Q : public_key (to_base58 k) = Some k) by now apply public_key_iff. rewrite Q. cbn [obind].
    unfold script_set_authority. rewrite S. cbn [obind]. eexists. reflexivity.
Qed.
Lemma rounds_large z d : rounds z d -> 2 ^ 63 - 512 <= z -> 2 ^ 63 <= d.
Proof.
  intros R H. assert (D : double d) by apply R. assert (D63 : double (2 ^ 63)).
  { exists 1, 63. split; [lia|]. split; [cbn; lia|]. lia. }
  assert (E63 : even_double (2 ^ 63)) by (exists 2, 62; split; [lia|]; split; [cbn; lia|]; split; [exists 1; lia|reflexivity]).
  destruct (Z.le_gt_cases (2 ^ 63) d) as [G|G]; [exact G|]. exfalso.
  (* below 2^63 the doubles are 1024 apart *)
  assert (Q : d <= 2 ^ 63 - 1024).
  { destruct D as (m & e & He & Hm & ->). destruct (Z.le_gt_cases 10 e) as [L|L].
    - replace (2 ^ e) with (2 ^ (e - 10) * 1024) in * by (change 1024 with (2 ^ 10); rewrite <- Z.pow_add_r; [f_equal; lia|lia|lia]).
      set (w := m * 2 ^ (e - 10)). replace (m * (2 ^ (e - 10) * 1024)) with (w * 1024) in * by (unfold w; lia). lia.
    - assert (2 ^ e <= 2 ^ 9) by (apply Z.pow_le_mono_r; lia). pose proof (pow2_pos e He). nia. }
  destruct R as [_ R]. destruct (R _ D63) as [R1 R2]. destruct (Z.eq_dec z (2 ^ 63 - 512)) as [Ez|Ez]; [|lia].
  destruct (Z.eq_dec d (2 ^ 63 - 1024)) as [Ed|Ed]; [|lia].
  destruct (R2 ltac:(lia)) as [K|K]; [lia|].
  revert K. rewrite Ed. replace (2 ^ 63 - 1024) with ((2 ^ 53 - 1) * 2 ^ 10) by lia.
  apply odd_not_even_double; [lia|lia|]. exists (2 ^ 52 - 1). lia.
Qed.
Theorem set_cli_too_large C E load l path text rest z : begins true text z -> 2 ^ 63 - 512 <= z ->
  set_cli C E load l (path :: "update-cooldown"%string :: text :: rest) = None.
Proof.
  intros B H. destruct (set_cli C E load l _) as [ops|] eqn:S; [|reflexivity]. exfalso.
  apply set_cli_asks in S. destruct S as (p & o & t & r & who & sk & A & _ & _ & _ & K). injection A as <- <- <- <-.
  destruct K as [(_ & z' & c & B' & R & U & _)|(K & _)]; [|discriminate].
  rewrite (begins_unique _ _ _ _ B' B) in R. apply rounds_large in R; [|exact H]. unfold i64_max in U. lia.
Qed.

(** ** transfer-orca-to-vault.ts *)
Theorem deposit_cli_asks C E load l args ops : deposit_cli C E load l args = Some ops ->
  exists path text rest who z n so sk vk, args = path :: text :: rest /\ load path = Some who /\
    begins true text z /\ rounds z n /\ is_u64 n /\ is_ata C who orca_mint_id so /\
    client_state C sk /\ client_vault C sk vk /\
    ops = [OpToken E [who] [] (TC_Transfer so vk who n)].
Proof.
  unfold deposit_cli. destruct args as [|path [|text rest]]; try discriminate. intros H. build_step H.
  destruct (parse_int false text) as [n|n|] eqn:P;
    [|now apply parse_int_not_frac in P|discriminate].
  unfold deposit_script in H. repeat build_step H. injection H as <-. cbn in E1. injection E1 as <-.
  apply parse_int_begins in P. destruct P as (z & B & R). exists path, text, rest, x, z, n.
  eexists _, _, _. split; [reflexivity|]. split; [exact E0|]. split; [exact B|]. split; [exact R|].
  split.
  { match goal with K : js_u64 _ = Some _ |- _ => unfold js_u64, u64_max in K;
      destruct (Z.ltb_spec n 0); [discriminate K|]; destruct (Z.ltb_spec (2 ^ 64 - 1) n); [discriminate K|] end.
    unfold is_u64. lia. }
  split; [eapply script_ata_some; eassumption|]. split; [eapply script_state_some; eassumption|]. split; [eapply script_vault_some; eassumption|].
  reflexivity.
Qed.
Theorem deposit_cli_reads C E load l path text rest who z n : load path = Some who -> begins true text z -> rounds z n ->
  deposit_cli C E load l (path :: text :: rest) = deposit_script C E l who (JInt n).
Proof.
  intros L B R. unfold deposit_cli. rewrite L. cbn [obind].
  pose proof (begins_parse true text z n B R) as Q. cbn [negb] in Q. now rewrite Q.
Qed.

(** ** transfer-orca.ts *)
Theorem transfer_cli_reads C E load l args ops : transfer_cli C E load l args = Some ops <->
  exists path k text rest who n, args = path :: to_base58 k :: text :: rest /\ load path = Some who /\
    denotes text n /\ transfer_script C E l who k n = Some ops.
Proof.
  split.
  - unfold transfer_cli. destruct args as [|path [|recipient [|text rest]]]; try discriminate. intros H.
    do 3 build_step H. apply big_int_denotes in E0. apply public_key_iff in E2. subst recipient.
    exists path, x1, text, rest, x0, x. auto.
  - intros (path & k & text & rest & who & n & -> & L & D & H). apply big_int_denotes in D. unfold transfer_cli.
    assert (P : public_key (to_base58 k) = Some k) by now apply public_key_iff. now rewrite D, L, P.
Qed.
(** ** pending-withdraws.ts *)
Theorem pendings_cli_reads C l0 ls clocks args lines : pendings_cli C l0 ls clocks args = Some lines <->
  exists k rest, args = to_base58 k :: rest /\ script_pendings C l0 ls clocks k = Some lines.
Proof.
  split.
  - unfold pendings_cli. destruct args as [|text rest]; try discriminate. intros H.
    build_step H. apply public_key_iff in E. subst text. eauto.
  - intros (k & rest & -> & H). unfold pendings_cli.
    assert (P : public_key (to_base58 k) = Some k) by now apply public_key_iff. now rewrite P.
Qed.
Theorem cli_too_few C E load l l0 ls clocks args :
  ((List.length args < 2)%nat -> stake_cli C E load l args = None /\ withdraw_cli C E load l args = None /\
     deposit_cli C E load l args = None) /\
  ((List.length args < 3)%nat -> unstake_cli C E load l args = None /\ initialize_cli C E load args = None /\
     set_cli C E load l args = None /\ transfer_cli C E load l args = None) /\
  (args = [] -> authority_cli C E load args = None /\ pendings_cli C l0 ls clocks args = None).
Proof.
  repeat split; destruct args as [|a [|b [|c args]]]; try reflexivity; cbn [List.length] in *; try lia; discriminate.
Qed.

(** ** Texts that go on after the number *)
Lemma cut_parse b t rest n : numeral 10 t n -> ~ begins_with_digit 10 rest ->
  (b = false -> forall x, In x ["0x"; "0X"]%string -> prefix x (t ++ rest) = false) ->
  parse_int b (t ++ rest) = parse_int b t.
Proof.
  intros T N X. destruct (rounds_some n) as (d & R).
  assert (P : parse_int b t = JInt d).
  { apply parse_int_begins. exists n. split; [now apply numeral_begins|exact R]. }
  rewrite P. apply parse_int_begins. exists n. split; [|exact R].
  pose proof (begins_decimal (negb b) "" "" 1 t rest n) as B. cbn [append] in B. rewrite Z.mul_1_l in B. apply B.
  - intros [|j] c K; discriminate K.
  - constructor.
  - exact T.
  - exact N.
  - intros Q. apply X. now apply negb_true_iff in Q.
Qed.
Theorem cut_period C E load l path path' t tail rest n : numeral 10 t n -> ~ begins_with_digit 10 tail ->
  (forall x, In x ["0x"; "0X"]%string -> prefix x (t ++ tail) = false) ->
  set_cli C E load l (path :: "update-cooldown" :: (t ++ tail) :: rest)%string =
  set_cli C E load l (path :: "update-cooldown" :: t :: rest)%string /\
  initialize_cli C E load (path :: path' :: (t ++ tail)%string :: rest) = initialize_cli C E load (path :: path' :: t :: rest) /\
  deposit_cli C E load l (path :: (t ++ tail)%string :: rest) = deposit_cli C E load l (path :: t :: rest).
Proof.
  intros T N X. pose proof (cut_parse false t tail n T N (fun _ => X)) as Q.
  split; [|split]; [unfold set_cli|unfold initialize_cli|unfold deposit_cli]; now rewrite Q.
Qed.
Theorem cut_index C E load l path text t tail rest n : numeral 10 t n -> ~ begins_with_digit 10 tail ->
  withdraw_cli C E load l (path :: (t ++ tail)%string :: rest) = withdraw_cli C E load l (path :: t :: rest) /\
  unstake_cli C E load l (path :: text :: (t ++ tail)%string :: rest) = unstake_cli C E load l (path :: text :: t :: rest).
Proof.
  intros T N. assert (Q : parse_int true (t ++ tail) = parse_int true t) by (eapply cut_parse; [exact T|exact N|discriminate]).
  split; [unfold withdraw_cli|unfold unstake_cli]; now rewrite Q.
Qed.
