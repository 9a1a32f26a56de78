(** Command lines at stages of the scripts' demo, and what they do not do. *)
From Coq Require Import String Ascii.
From Verif Require Import Spec ClientSpec ToolSpec BytesFacts LedgerFacts HistoryFacts LifeFacts PoolHistory AddressFacts
  TransactionFacts ScriptMore Demo DemoMore DemoStory DemoClient DemoScripts CliMain LogFacts.
Import List ListNotations.
Open Scope list_scope.
Open Scope Z_scope.

Definition key_files (path : string) : option pubkey :=
  if String.eqb path "alice.json" then Some alice
  else if String.eqb path "bob.json" then Some bob
  else if String.eqb path "admin.json" then Some admin
  else if String.eqb path "deployer.json" then Some deployer_address
  else None.

(** ** Texts *)
Lemma parsed b s d : parse_int b s = JInt d -> exists z, begins (negb b) s z /\ rounds z d.
Proof. intros H. now apply parse_int_begins in H. Qed.
Lemma parsed_small hex s z : parse_int (negb hex) s = JInt z -> Z.abs z < 2 ^ 53 -> begins hex s z.
Proof.
  intros H L. apply parse_int_begins in H. rewrite negb_involutive in H. destruct H as (y & B & R).
  apply too_big_rounds in R; [|exact L]. now subst y.
Qed.
Lemma read s v : big_int s = Some v -> denotes s v.
Proof. apply big_int_denotes. Qed.
Lemma unread s : big_int s = None -> forall v, ~ denotes s v.
Proof. intros H v D. apply big_int_denotes in D. congruence. Qed.
Lemma unparsed s : parse_int true s = JNaN -> forall z, ~ begins false s z.
Proof. intros H. exact (proj1 (parse_int_nan true s) H). Qed.

(** ** Alice withdraws "next" *)
Lemma next_is_no_number : forall z, ~ begins false "next" z.
Proof. apply unparsed. reflexivity. Qed.
Lemma alice_next :
  withdraw_cli demo_crypto (demo_env 2100) key_files (shop 7) ["alice.json"; "next"]%string = Some (nth 7 shop_txs []).
Proof.
  rewrite (withdraw_cli_no_number _ _ _ _ _ _ _ next_is_no_number).
  rewrite (withdraw_cli_reads _ _ _ _ _ _ _ alice 0).
  - shop_asks 7%nat 0%nat.
  - reflexivity.
  - apply (parsed_small false); reflexivity.
  - unfold is_u8. lia.
Qed.
Theorem index_number_refuted :
  ~ (forall C E load l path text rest ops, withdraw_cli C E load l (path :: text :: rest) = Some ops ->
       exists z, begins false text z).
Proof. intros H. destruct (H _ _ _ _ _ _ _ _ alice_next) as (z & B). exact (next_is_no_number z B). Qed.

(** ** The admin sets the period to "7d" *)
Lemma shop_state n : is_state (shop n) demo_state -> forall E text, (exists z c, begins true text z /\ rounds z c /\ 0 <= c <= i64_max) ->
  exists ops, set_cli demo_crypto E key_files (shop n) ["admin.json"; "update-cooldown"; text]%string = Some ops.
Proof.
  intros S E text T. eapply set_cli_works; [exact demo_ordinary|apply shop_reaches|exact S|reflexivity|]. left. split; [reflexivity|exact T].
Qed.
Lemma week_period : exists ops,
  set_cli demo_crypto (demo_env 1300) key_files (shop 5) ["admin.json"; "update-cooldown"; "7d"]%string = Some ops /\
  asks (demo_env 1300) ops admin (Set_ (UpdateCoolDownPeriod 7)) /\ forall v, ~ denotes "7d" v.
Proof.
  assert (B : begins true "7d" 7) by (apply (parsed_small true); reflexivity).
  destruct (shop_state 5 ltac:(shop_see 5%nat) (demo_env 1300) "7d") as (ops & H).
  { exists 7, 7. split; [exact B|]. split; [now apply rounds_exact|unfold i64_max; lia]. }
  exists ops. split; [exact H|]. split; [|apply unread; reflexivity].
  apply set_cli_asks in H. destruct H as (p & o & t & r & who & sk & A & L & _ & _ & K). injection A as <- <- <- <-.
  apply some_inj in L. subst who. destruct K as [(_ & z & c & B' & R & _ & K)|(K & _)]; [|discriminate].
  rewrite (begins_unique _ _ _ _ B' B) in R. apply rounds_exact in R; [|cbn; lia]. now subst c.
Qed.
Theorem period_number_refuted :
  ~ (forall C E load l path text rest ops,
       set_cli C E load l (path :: "update-cooldown"%string :: text :: rest) = Some ops -> exists c, denotes text c).
Proof. intros H. destruct week_period as (ops & S & _ & N). destruct (H _ _ _ _ _ _ _ _ S) as (c & D). exact (N c D). Qed.

(** ** A period beyond 2^53 is rounded *)
Definition long_period : string := "9007199254740993".
Lemma long_number : text_of_number long_period 9007199254740993.
Proof. exact (decimal_text 9007199254740993 ltac:(unfold is_u64; lia)). Qed.
Lemma long_begins : begins true long_period 9007199254740993.
Proof. apply number_begins. exact long_number. Qed.
Lemma long_rounds : rounds 9007199254740993 9007199254740992.
Proof. change 9007199254740992 with (to_double 9007199254740993). apply to_double_rounds. lia. Qed.
Lemma long_set : exists ops,
  set_cli demo_crypto (demo_env 1300) key_files (shop 5) ["admin.json"; "update-cooldown"; long_period]%string = Some ops /\
  asks (demo_env 1300) ops admin (Set_ (UpdateCoolDownPeriod 9007199254740992)).
Proof.
  destruct (shop_state 5 ltac:(shop_see 5%nat) (demo_env 1300) long_period) as (ops & H).
  { exists 9007199254740993, 9007199254740992. split; [exact long_begins|]. split; [exact long_rounds|unfold i64_max; lia]. }
  exists ops. split; [exact H|].
  apply set_cli_asks in H. destruct H as (p & o & t & r & who & sk & A & L & _ & _ & K). injection A as <- <- <- <-.
  apply some_inj in L. subst who. destruct K as [(_ & z & c & B' & R & _ & K)|(K & _)]; [|discriminate].
  rewrite (begins_unique _ _ _ _ B' long_begins) in R. now rewrite (rounds_unique _ _ _ R long_rounds) in K.
Qed.
Lemma asks_one E ops who i i' : asks E ops who i -> asks E ops who i' -> instruction_bytes i = instruction_bytes i'.
Proof.
  intros (pre & m & r & -> & _) (pre' & m' & r' & H & _). apply app_inj_tail in H. destruct H as [_ H]. congruence.
Qed.
Theorem period_exact_refuted :
  ~ (forall C E load l path text rest ops who c, load path = Some who -> text_of_number text c -> c <= i64_max ->
       set_cli C E load l (path :: "update-cooldown"%string :: text :: rest) = Some ops ->
       asks E ops who (Set_ (UpdateCoolDownPeriod c))).
Proof.
  intros H. destruct long_set as (ops & S & A).
  assert (A' : asks (demo_env 1300) ops admin (Set_ (UpdateCoolDownPeriod 9007199254740993))).
  { refine (H _ _ key_files _ "admin.json"%string long_period [] ops admin _ eq_refl long_number _ S). unfold i64_max. lia. }
  pose proof (asks_one _ _ _ _ _ A A') as Q. vm_compute in Q. discriminate Q.
Qed.

(** ** Bob gives "1000000 ORCA" *)
Lemma bobs_gift :
  deposit_cli demo_crypto (demo_env 1200) key_files (shop 4) ["bob.json"; "1000000 ORCA"]%string = Some (nth 4 shop_txs []).
Proof.
  rewrite (deposit_cli_reads _ _ _ _ _ _ _ bob 1000000 1000000).
  - shop_asks 4%nat 0%nat.
  - reflexivity.
  - apply (parsed_small true); reflexivity.
  - now apply rounds_exact.
Qed.
Theorem gift_number_refuted :
  ~ (forall C E load l path text rest ops, deposit_cli C E load l (path :: text :: rest) = Some ops -> exists n, denotes text n).
Proof. intros H. destruct (H _ _ _ _ _ _ _ _ bobs_gift) as (n & D). revert D. apply unread. reflexivity. Qed.
