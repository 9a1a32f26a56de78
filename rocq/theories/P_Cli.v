(** C72: what the scripts make of their command lines. *)
From Coq Require Import String Ascii.
From Verif Require Import Spec ClientSpec ToolSpec LogSpec LogFacts CliSpec CliFacts CliKeys CliMain
  Demo DemoMore DemoStory DemoClient DemoScripts DemoCli.
Import List ListNotations.
Open Scope list_scope.
Open Scope Z_scope.

(** ** C72 *)
(** Amounts of stake.ts, unstake.ts and transfer-orca.ts: the whole text must be a number. *)
Theorem C72_whole_number : forall s v,
  big_int s = Some v <-> denotes s v.
Proof. exact big_int_denotes. Qed.

Example C72_whole_number_ex :
  denotes "1000000" 1000000 /\ denotes " 0x10 " 16 /\ denotes "" 0 /\ denotes "-5" (-5) /\
  (forall v, ~ denotes "1e6" v) /\ (forall v, ~ denotes "1.5" v) /\ (forall v, ~ denotes "1_000" v) /\ (forall v, ~ denotes "- 5" v).
Proof. repeat split; first [apply read; reflexivity|apply unread; reflexivity]. Qed.

(** Indices, periods and gifts: the text is cut after its first number, and the nearest double is taken. *)
Theorem C72_first_number : forall b s d,
  parse_int b s = JInt d <-> exists z, begins (negb b) s z /\ rounds z d.
Proof. exact parse_int_begins. Qed.

Example C72_first_number_ex :
  begins true "1e6" 1 /\ begins true "7d" 7 /\ begins true " -12.5" (-12) /\ begins true "0x10" 16 /\ begins false "0x10" 0 /\
  (forall z, ~ begins false "first" z) /\ rounds 9007199254740993 9007199254740992.
Proof.
  do 4 (split; [apply (parsed_small true); reflexivity|]). split; [apply (parsed_small false); reflexivity|].
  split; [apply unparsed; reflexivity|exact long_rounds].
Qed.

(** Without a number at the beginning it is NaN. *)
Theorem C72_no_number : forall b s,
  parse_int b s = JNaN <-> forall z, ~ begins (negb b) s z.
Proof. exact parse_int_nan. Qed.

Example C72_no_number_ex : parse_int true "next" = JNaN /\ parse_int false "" = JNaN /\ parse_int false "0xg" = JNaN.
Proof. repeat split; reflexivity. Qed.

(** The rounding is well defined, and exact up to 2^53. *)
Theorem C72_rounding_unique : forall v d d',
  rounds v d -> rounds v d' -> d = d'.
Proof. exact rounds_unique. Qed.
Theorem C72_rounding_exists : forall v,
  exists d, rounds v d.
Proof. exact rounds_some. Qed.
Theorem C72_rounding_exact : forall v,
  Z.abs v <= 2 ^ 53 -> forall d, rounds v d <-> d = v.
Proof. exact rounds_exact. Qed.

Example C72_rounding_ex :
  rounds 9007199254740993 9007199254740992 /\ rounds (2 ^ 63 - 1) (2 ^ 63) /\ rounds 604800 604800.
Proof.
  split; [exact long_rounds|]. split; [exact (to_double_rounds (2 ^ 63 - 1) ltac:(lia))|exact (to_double_rounds 604800 ltac:(lia))].
Qed.

(** Addresses: exactly the base58 texts of 32-byte keys are read, as the program's log writes them. *)
Theorem C72_address : forall s k,
  public_key s = Some k <-> s = to_base58 k.
Proof. exact public_key_iff. Qed.

Example C72_address_ex :
  public_key (to_base58 alice) = Some alice /\ public_key "11111111111111111111111111111111" = Some system_id /\
  public_key "1111111111111111111111111111111" = None /\ public_key "O1111111111111111111111111111111" = None.
Proof. split; [now apply public_key_iff|]. split; [apply public_key_iff; vm_compute; reflexivity|]. split; vm_compute; reflexivity. Qed.

(** stake.ts sends the number typed. *)
Theorem C72_stake : forall C E load l args ops,
  stake_cli C E load l args = Some ops ->
  exists path text rest who n, args = path :: text :: rest /\ load path = Some who /\
    denotes text n /\ is_u64 n /\ asks E ops who (Stake n).
Proof. exact stake_cli_asks. Qed.
Theorem C72_stake_reads : forall C E load l path text rest who n,
  load path = Some who -> denotes text n ->
  stake_cli C E load l (path :: text :: rest) = stake_script C E l who n.
Proof. exact stake_cli_reads. Qed.

Example C72_stake_ex :
  stake_cli demo_crypto (demo_env 1150) key_files (shop 3) ["alice.json"; "1000"]%string = Some (nth 3 shop_txs []).
Proof.
  rewrite (stake_cli_reads _ _ _ _ _ _ _ alice 1000); [shop_asks 3%nat 0%nat|reflexivity|apply read; reflexivity].
Qed.

(** unstake.ts sends the amount typed, with the index at the beginning of the third argument, or 0 if there is none. *)
Theorem C72_unstake : forall C E load l args ops,
  unstake_cli C E load l args = Some ops ->
  exists path text index rest who n i, args = path :: text :: index :: rest /\ load path = Some who /\
    denotes text n /\ is_u64 n /\ is_u8 i /\
    (begins false index i \/ ((forall z, ~ begins false index z) /\ i = 0)) /\
    asks E ops who (Unstake n i).
Proof. exact unstake_cli_asks. Qed.
Theorem C72_unstake_reads : forall C E load l path text index rest who n i,
  load path = Some who -> denotes text n ->
  begins false index i -> is_u8 i ->
  unstake_cli C E load l (path :: text :: index :: rest) = unstake_script C E l who n (JInt i).
Proof. exact unstake_cli_reads. Qed.
Theorem C72_unstake_no_index : forall C E load l path text index rest,
  (forall z, ~ begins false index z) ->
  unstake_cli C E load l (path :: text :: index :: rest) = unstake_cli C E load l (path :: text :: "0"%string :: rest).
Proof. exact unstake_cli_no_number. Qed.

Example C72_unstake_ex :
  unstake_cli demo_crypto (demo_env 2000) key_files (shop 6) ["alice.json"; "1000000"; "0"]%string = Some (nth 6 shop_txs []) /\
  unstake_cli demo_crypto (demo_env 2000) key_files (shop 6) ["alice.json"; "1000000"; "any"]%string = Some (nth 6 shop_txs []).
Proof.
  assert (K : unstake_cli demo_crypto (demo_env 2000) key_files (shop 6) ["alice.json"; "1000000"; "0"]%string = Some (nth 6 shop_txs [])).
  { rewrite (unstake_cli_reads _ _ _ _ _ _ _ _ alice 1000000 0);
      [shop_asks 6%nat 0%nat|reflexivity|apply read; reflexivity|apply (parsed_small false); reflexivity|unfold is_u8; lia]. }
  split; [exact K|]. rewrite unstake_cli_no_number; [exact K|apply unparsed; reflexivity].
Qed.

(** The same for withdraw.ts ... *)
Theorem C72_withdraw : forall C E load l args ops,
  withdraw_cli C E load l args = Some ops ->
  exists path index rest who i, args = path :: index :: rest /\ load path = Some who /\ is_u8 i /\
    (begins false index i \/ ((forall z, ~ begins false index z) /\ i = 0)) /\
    asks E ops who (Withdraw i).
Proof. exact withdraw_cli_asks. Qed.
Theorem C72_withdraw_reads : forall C E load l path index rest who i,
  load path = Some who ->
  begins false index i -> is_u8 i ->
  withdraw_cli C E load l (path :: index :: rest) = withdraw_script C E l who (JInt i).
Proof. exact withdraw_cli_reads. Qed.
Theorem C72_withdraw_no_index : forall C E load l path index rest,
  (forall z, ~ begins false index z) ->
  withdraw_cli C E load l (path :: index :: rest) = withdraw_cli C E load l (path :: "0"%string :: rest).
Proof. exact withdraw_cli_no_number. Qed.

Example C72_withdraw_ex :
  withdraw_cli demo_crypto (demo_env 2100) key_files (shop 7) ["alice.json"; "next"]%string = Some (nth 7 shop_txs []) /\
  nth 7 shop_txs [] = [demo_call 2100 (withdraw_accs alice alice_orca alice_record) (Withdraw 0)].
Proof. split; [exact alice_next|reflexivity]. Qed.

(** ... so that an index need not have been typed. *)
Theorem C72_index_number_refuted :
  ~ (forall C E load l path text rest ops, withdraw_cli C E load l (path :: text :: rest) = Some ops ->
       exists z, begins false text z).
Proof. exact index_number_refuted. Qed.

(** initialize.ts *)
Theorem C72_initialize : forall C E load args ops,
  initialize_cli C E load args = Some ops ->
  exists path path' text rest who who' z c, args = path :: path' :: text :: rest /\
    load path = Some who /\ load path' = Some who' /\ who = deployer_address /\
    begins true text z /\ rounds z c /\ is_i64 c /\ asks E ops who (Initialize c) /\
    exists accs d, ops = [OpCall E accs d] /\ nth_error accs 1 = Some (Meta who' true true).
Proof. exact initialize_cli_asks. Qed.
Theorem C72_initialize_reads : forall C E load path path' text rest who who' z c,
  load path = Some who -> load path' = Some who' -> begins true text z -> rounds z c ->
  initialize_cli C E load (path :: path' :: text :: rest) = initialize_script C E who who' (JInt c).
Proof. exact initialize_cli_reads. Qed.

Example C72_initialize_ex :
  initialize_cli demo_crypto (demo_env 1000) key_files ["deployer.json"; "admin.json"; "100"]%string = Some (nth 1 shop_txs []).
Proof.
  rewrite (initialize_cli_reads _ _ _ _ _ _ _ deployer_address admin 100 100);
    [shop_asks 1%nat 0%nat|reflexivity|reflexivity|apply (parsed_small true); reflexivity|now apply rounds_exact].
Qed.

(** set.ts sends the period at the beginning of the third argument, rounded, or the address typed; and it sends whenever it can. *)
Theorem C72_set : forall C E load l args ops,
  set_cli C E load l args = Some ops ->
  exists path operation text rest who sk, args = path :: operation :: text :: rest /\ load path = Some who /\
    client_state C sk /\ a_lamports (l sk) <> 0 /\
    ((operation = "update-cooldown"%string /\ exists z c, begins true text z /\ rounds z c /\ 0 <= c <= i64_max /\
        asks E ops who (Set_ (UpdateCoolDownPeriod c))) \/
     (operation = "update-authority"%string /\ exists k, text = to_base58 k /\
        asks E ops who (Set_ (UpdateUpdateAuthority k)))).
Proof. exact set_cli_asks. Qed.
Theorem C72_set_works : forall C E load l path operation text rest who sk,
  ordinary_state_address C -> reaches C l -> is_state l sk -> load path = Some who ->
  ((operation = "update-cooldown"%string /\ exists z c, begins true text z /\ rounds z c /\ 0 <= c <= i64_max) \/
   (operation = "update-authority"%string /\ exists k, text = to_base58 k)) ->
  exists ops, set_cli C E load l (path :: operation :: text :: rest) = Some ops.
Proof. exact set_cli_works. Qed.

Example C72_set_ex : exists ops,
  set_cli demo_crypto (demo_env 1300) key_files (shop 5) ["admin.json"; "update-cooldown"; "7d"]%string = Some ops /\
  asks (demo_env 1300) ops admin (Set_ (UpdateCoolDownPeriod 7)) /\ forall v, ~ denotes "7d" v.
Proof. exact week_period. Qed.

Example C72_set_works_ex :
  is_state (shop 5) demo_state /\ reaches demo_crypto (shop 5) /\ key_files "admin.json" = Some admin /\
  begins true long_period 9007199254740993 /\ rounds 9007199254740993 9007199254740992.
Proof.
  split; [shop_see 5%nat|]. split; [apply shop_reaches|]. split; [reflexivity|]. split; [exact long_begins|exact long_rounds].
Qed.

(** So the period set need not be one that was typed, in two ways ... *)
Theorem C72_period_number_refuted :
  ~ (forall C E load l path text rest ops,
       set_cli C E load l (path :: "update-cooldown"%string :: text :: rest) = Some ops -> exists c, denotes text c).
Proof. exact period_number_refuted. Qed.
Theorem C72_period_exact_refuted :
  ~ (forall C E load l path text rest ops who c, load path = Some who -> text_of_number text c -> c <= i64_max ->
       set_cli C E load l (path :: "update-cooldown"%string :: text :: rest) = Some ops ->
       asks E ops who (Set_ (UpdateCoolDownPeriod c))).
Proof. exact period_exact_refuted. Qed.

(** ... and the longest periods cannot be set. *)
Theorem C72_longest_period : forall C E load l path text rest z,
  begins true text z -> 2 ^ 63 - 512 <= z ->
  set_cli C E load l (path :: "update-cooldown"%string :: text :: rest) = None.
Proof. exact set_cli_too_large. Qed.

Example C72_longest_period_ex : text_of_number (to_decimal i64_max) i64_max /\ 2 ^ 63 - 512 <= i64_max.
Proof. split; [apply decimal_text; unfold is_u64, i64_max; lia|unfold i64_max; lia]. Qed.

(** transfer-orca-to-vault.ts gives the number at the beginning of its second argument, rounded ... *)
Theorem C72_deposit : forall C E load l args ops,
  deposit_cli C E load l args = Some ops ->
  exists path text rest who z n so sk vk, args = path :: text :: rest /\ load path = Some who /\
    begins true text z /\ rounds z n /\ is_u64 n /\ is_ata C who orca_mint_id so /\
    client_state C sk /\ client_vault C sk vk /\
    ops = [OpToken E [who] [] (TC_Transfer so vk who n)].
Proof. exact deposit_cli_asks. Qed.
Theorem C72_deposit_reads : forall C E load l path text rest who z n,
  load path = Some who -> begins true text z -> rounds z n ->
  deposit_cli C E load l (path :: text :: rest) = deposit_script C E l who (JInt n).
Proof. exact deposit_cli_reads. Qed.

Example C72_deposit_ex :
  deposit_cli demo_crypto (demo_env 1200) key_files (shop 4) ["bob.json"; "1000000 ORCA"]%string = Some (nth 4 shop_txs []).
Proof. exact bobs_gift. Qed.

(** ... whatever follows that number. *)
Theorem C72_gift_number_refuted :
  ~ (forall C E load l path text rest ops, deposit_cli C E load l (path :: text :: rest) = Some ops -> exists n, denotes text n).
Proof. exact gift_number_refuted. Qed.

(** transfer-orca.ts and pending-withdraws.ts *)
Theorem C72_transfer : forall C E load l args ops,
  transfer_cli C E load l args = Some ops <->
  exists path k text rest who n, args = path :: to_base58 k :: text :: rest /\ load path = Some who /\
    denotes text n /\ transfer_script C E l who k n = Some ops.
Proof. exact transfer_cli_reads. Qed.
Theorem C72_pendings : forall C l0 ls clocks args lines,
  pendings_cli C l0 ls clocks args = Some lines <->
  exists k rest, args = to_base58 k :: rest /\ script_pendings C l0 ls clocks k = Some lines.
Proof. exact pendings_cli_reads. Qed.

Example C72_transfer_ex :
  transfer_cli demo_crypto (demo_env 2150) key_files (shop 8) ["alice.json"; to_base58 admin; "4000"]%string = Some (nth 8 shop_txs []).
Proof.
  apply transfer_cli_reads. exists "alice.json"%string, admin, "4000"%string, [], alice, 4000.
  split; [reflexivity|]. split; [reflexivity|]. split; [apply read; reflexivity|shop_asks 8%nat 0%nat].
Qed.

(** Too few arguments *)
Theorem C72_too_few : forall C E load l l0 ls clocks args,
  ((List.length args < 2)%nat -> stake_cli C E load l args = None /\ withdraw_cli C E load l args = None /\
     deposit_cli C E load l args = None) /\
  ((List.length args < 3)%nat -> unstake_cli C E load l args = None /\ initialize_cli C E load args = None /\
     set_cli C E load l args = None /\ transfer_cli C E load l args = None) /\
  (args = [] -> authority_cli C E load args = None /\ pendings_cli C l0 ls clocks args = None).
Proof. exact cli_too_few. Qed.

Example C72_too_few_ex : forall C E load l, stake_cli C E load l ["alice.json"%string] = None.
Proof. reflexivity. Qed.

(** What follows a number changes nothing. *)
Theorem C72_cut_period : forall C E load l path path' t tail rest n,
  numeral 10 t n -> ~ begins_with_digit 10 tail ->
  (forall x, In x ["0x"; "0X"]%string -> prefix x (t ++ tail) = false) ->
  set_cli C E load l (path :: "update-cooldown" :: (t ++ tail) :: rest)%string =
  set_cli C E load l (path :: "update-cooldown" :: t :: rest)%string /\
  initialize_cli C E load (path :: path' :: (t ++ tail)%string :: rest) = initialize_cli C E load (path :: path' :: t :: rest) /\
  deposit_cli C E load l (path :: (t ++ tail)%string :: rest) = deposit_cli C E load l (path :: t :: rest).
Proof. exact cut_period. Qed.
Theorem C72_cut_index : forall C E load l path text t tail rest n,
  numeral 10 t n -> ~ begins_with_digit 10 tail ->
  withdraw_cli C E load l (path :: (t ++ tail)%string :: rest) = withdraw_cli C E load l (path :: t :: rest) /\
  unstake_cli C E load l (path :: text :: (t ++ tail)%string :: rest) = unstake_cli C E load l (path :: text :: t :: rest).
Proof. exact cut_index. Qed.

Example C72_cut_ex : numeral 10 "604" 604 /\ ~ begins_with_digit 10 "_800" /\
  (forall x, In x ["0x"; "0X"]%string -> prefix x ("604" ++ "_800") = false).
Proof.
  split; [apply numeral_iff; [lia|split; [discriminate|reflexivity]]|]. split; [rewrite begins_digit_iff by lia; vm_compute; discriminate|].
  intros x [<-|[<-|[]]]; reflexivity.
Qed.

Print Assumptions C72_whole_number.
Print Assumptions C72_first_number.
Print Assumptions C72_no_number.
Print Assumptions C72_rounding_unique.
Print Assumptions C72_rounding_exists.
Print Assumptions C72_rounding_exact.
Print Assumptions C72_address.
Print Assumptions C72_stake.
Print Assumptions C72_stake_reads.
Print Assumptions C72_unstake.
Print Assumptions C72_unstake_reads.
Print Assumptions C72_unstake_no_index.
Print Assumptions C72_withdraw.
Print Assumptions C72_withdraw_reads.
Print Assumptions C72_withdraw_no_index.
Print Assumptions C72_index_number_refuted.
Print Assumptions C72_initialize.
Print Assumptions C72_initialize_reads.
Print Assumptions C72_set.
Print Assumptions C72_set_works.
Print Assumptions C72_period_number_refuted.
Print Assumptions C72_period_exact_refuted.
Print Assumptions C72_longest_period.
Print Assumptions C72_deposit.
Print Assumptions C72_deposit_reads.
Print Assumptions C72_gift_number_refuted.
Print Assumptions C72_transfer.
Print Assumptions C72_pendings.
Print Assumptions C72_too_few.
Print Assumptions C72_cut_period.
Print Assumptions C72_cut_index.
