(** Logs of calls of the demo, one of them with a line that is cut off. *)
From Coq Require Import String Ascii.
From Verif Require Import LogMain LogSpec LogFacts Demo DemoMore DemoStory DemoMistake HistoryFacts BytesFacts.
Import List ListNotations.
Open Scope list_scope.
Open Scope Z_scope.

(** ** No sentence has an '@' *)
Fixpoint has_at (s : string) : bool :=
  match s with String a s' => Ascii.eqb a "@" || has_at s' | EmptyString => false end.
Lemma has_at_app s t : has_at (s ++ t) = has_at s || has_at t.
Proof. induction s as [|a s IH]; [reflexivity|]. cbn. now rewrite IH, orb_assoc. Qed.
Lemma value_no_at s : forall acc, b58_value s acc <> None -> has_at s = false.
Proof.
  induction s as [|a s IH]; intros acc H; [reflexivity|]. cbn [b58_value has_at] in *.
  destruct (Ascii.eqb_spec a "@") as [->|N]; [cbn in H; now destruct H|].
  destruct (b58_index a b58_alphabet 0) as [d|]; [|now destruct H]. cbn. now apply (IH _ H).
Qed.
Lemma base58_no_at k : has_at (to_base58 k) = false.
Proof.
  apply (value_no_at _ 0). pose proof (base58_decodes k) as H. unfold b58_decode32 in H.
  destruct (b58_value (to_base58 k) 0); [discriminate|discriminate H].
Qed.
Lemma digit_no_at d : 0 <= d < 10 -> Ascii.eqb (dec_char d) "@" = false.
Proof.
  intros H. apply Ascii.eqb_neq. intros Q. pose proof (dec_digit d H) as D. rewrite Q in D.
  change (Z.of_nat (nat_of_ascii "@")) with 64 in D. lia.
Qed.
Lemma decimal_no_at n : has_at (to_decimal n) = false.
Proof.
  unfold to_decimal. assert (G : forall f v acc, has_at acc = false -> has_at (dec_digits f v acc) = false).
  { induction f as [|f IH]; intros v acc H; [exact H|]. cbn [dec_digits].
    assert (K : has_at (String (dec_char (v mod 10)) acc) = false).
    { cbn [has_at]. rewrite digit_no_at by (apply Z.mod_pos_bound; lia). exact H. }
    destruct (_ <? _); [exact K|now apply IH]. }
  now apply G.
Qed.
Lemma sentence_no_at c : has_at (sentence c) = false.
Proof.
  destruct c; cbn [sentence]; rewrite ?has_at_app, ?base58_no_at, ?decimal_no_at; reflexivity.
Qed.

(** ** Alice stakes from Bob's token account *)
Definition bobs : list meta := stake_accs alice bob_orca alice_xorca.
Definition cut_line : string :=
  "Token account data owner 8opHzTAnfzRpPEx21XtnrVTX28YQuCpAjcn1PczScKi does not match owner account 4uQeVj5tqViQh7yWWGStvkEG1Zmhx6uasJtWCJziofN for token mint account orcaEKTdK7LKz57vaAYr9QeNsVEPfiu6Qe@"%string.
Definition log_at (n : nat) (t : Z) (accs : list meta) (i : instruction) : list entry * option err :=
  let r := process_instruction_l demo_crypto (demo_env t) xorca_id accs (demo n) (instruction_bytes i) in
  (fst r, match snd r with Ok _ => None | Err e => Some e end).
Transparent demo.
Lemma bobs_log :
  log_at 0 1000 bobs (Stake 5) = ([Text "Instruction: Stake"; Text cut_line], Some (custom InvalidAccountData)).
Proof. vm_cast_no_check (eq_refl ([Text "Instruction: Stake"; Text cut_line], Some (custom InvalidAccountData))). Qed.
Lemma poor_log :
  log_at 0 1000 (stake_accs alice alice_orca alice_xorca) (Stake 20000001) =
  ([Text "Instruction: Stake"], Some (custom InsufficientFunds)).
Proof. vm_cast_no_check (eq_refl ([Text "Instruction: Stake"], Some (custom InsufficientFunds))). Qed.
Definition stake_payload : list byte := Eval vm_compute in event_bytes (EvStake 5000000 5000000 0 5000000 5000000).
Lemma stake_log :
  log_at 1 1100 (stake_accs alice alice_orca alice_xorca) (Stake 5000000) =
  ([Text "Instruction: Stake"; Payload stake_payload], None).
Proof. vm_cast_no_check (eq_refl ([Text "Instruction: Stake"; Payload stake_payload], @None err)). Qed.
Lemma stranger_log :
  log_at 1 1100 (set_accs bob) (Set_ (UpdateUpdateAuthority bob)) =
  ([Text "Instruction: Set"; Text "Account 8opHzTAnfzRpPEx21XtnrVTX28YQuCpAjcn1PczScKi has wrong address"],
   Some (custom IncorrectAccountAddress)).
Proof.
  vm_cast_no_check (eq_refl
    ([Text "Instruction: Set"; Text "Account 8opHzTAnfzRpPEx21XtnrVTX28YQuCpAjcn1PczScKi has wrong address"],
     Some (custom IncorrectAccountAddress))).
Qed.
Global Opaque demo.
Lemma log_at_run n t accs i es e :
  log_at n t accs i = (es, Some e) ->
  process_instruction_l demo_crypto (demo_env t) xorca_id accs (demo n) (instruction_bytes i) = (es, Err e).
Proof.
  unfold log_at. cbv zeta. destruct (process_instruction_l _ _ _ _ _ _) as [es' r]. cbn [fst snd].
  intros H. apply pair_equal_spec in H. destruct H as [-> H]. destruct r; [discriminate|]. now injection H as ->.
Qed.

Lemma log_at_fst n t accs i es o :
  log_at n t accs i = (es, o) ->
  fst (process_instruction_l demo_crypto (demo_env t) xorca_id accs (demo n) (instruction_bytes i)) = es.
Proof. unfold log_at. cbv zeta. intros H. apply pair_equal_spec in H. apply H. Qed.

Theorem holder_line_cut :
  ~ (forall C E accs l data i e line,
       ordinary_state_address C -> reaches C l -> encodes data i ->
       process_instruction_l C E xorca_id accs l data = ([Text (called i); Text line], Err e) ->
       exists c, line = sentence c).
Proof.
  intros H. destruct (H demo_crypto (demo_env 1000) bobs (demo 0) (instruction_bytes (Stake 5)) (Stake 5)
    (custom InvalidAccountData) cut_line) as [c Q].
  - exact demo_ordinary.
  - apply demo_reaches.
  - demo_encodes.
  - apply log_at_run, bobs_log.
  - pose proof (sentence_no_at c) as N. rewrite <- Q in N. discriminate N.
Qed.
