(** What the program's log of a call is. *)
From Coq Require Import String Ascii.
From Verif Require Export LogTruth.
From Verif Require Import ClientSpec BytesFacts CodecFacts RaiseFacts HistoryFacts ErrorFacts.
Import List ListNotations.
Open Scope list_scope.
Open Scope Z_scope.

Definition handle_l (C : crypto) (E : env) (accs : list meta) (l : ledger) (i : instruction) : logged ledger :=
  match i with
  | Initialize c => initialize_l C E accs l c
  | Stake a => stake_l C accs l a
  | Unstake a i => unstake_l C E accs l a i
  | Withdraw i => withdraw_l C E accs l i
  | Set_ u => set_l C accs l u
  end.
Lemma handle_agree C E accs l i : agree (handle_l C E accs l i) (handle C E accs l i).
Proof.
  destruct i; cbn [handle handle_l];
    [apply stake_agree|apply unstake_agree|apply withdraw_agree|apply initialize_agree|apply set_agree].
Qed.
Lemma handle_tells C E accs l i :
  instruction_ok i -> tells (complaint_true C accs l i) (silence C accs l i) (handle_l C E accs l i).
Proof.
  intros H. destruct i; cbn [handle_l instruction_ok] in *;
    [apply stake_tells|apply unstake_tells|apply withdraw_tells|apply initialize_tells|apply set_tells]; intuition.
Qed.
Lemma called_shown i : shown ("Instruction: " ++ instruction_name i)%string = called i.
Proof. destruct i; reflexivity. Qed.
Lemma process_handle_l C E accs l data :
  process_instruction_l C E xorca_id accs l data =
  match deserialize read_instruction data with
  | Some i => (Text (called i) :: fst (handle_l C E accs l i), snd (handle_l C E accs l i))
  | None => ([], Err (custom UnknownInstructionDiscriminator))
  end.
Proof.
  unfold process_instruction_l. rewrite key_eqb_refl. cbn [negb fail_if].
  destruct (deserialize read_instruction data) as [i|]; [|reflexivity].
  unfold log. rewrite called_shown. destruct i; reflexivity.
Qed.
Lemma process_other_l C E p accs l data :
  p <> xorca_id -> process_instruction_l C E p accs l data = ([], Err (custom IncorrectProgramId)).
Proof. intros H. unfold process_instruction_l. rewrite (proj2 (key_eqb_false _ _) H). reflexivity. Qed.
Lemma process_other C E p accs l data :
  p <> xorca_id -> process_instruction C E p accs l data = Err (custom IncorrectProgramId).
Proof. intros H. unfold process_instruction. rewrite (proj2 (key_eqb_false _ _) H). reflexivity. Qed.

Theorem log_same_answers C E p accs l data :
  snd (process_instruction_l C E p accs l data) =
  match process_instruction C E p accs l data with Ok (l', _) => Ok l' | Err e => Err e end.
Proof.
  destruct (key_eq_dec p xorca_id) as [->|N]; [|now rewrite process_other_l, process_other].
  rewrite process_handle_l, process_handle. destruct (deserialize read_instruction data) as [i|]; [|reflexivity].
  pose proof (handle_agree C E accs l i) as A. cbn [snd]. unfold agree in A.
  destruct (handle C E accs l i) as [[l' evs]|e]; [now rewrite A|exact A].
Qed.
Theorem log_nothing C E p accs l data :
  fst (process_instruction_l C E p accs l data) = [] <-> p <> xorca_id \/ forall i, ~ encodes data i.
Proof.
  destruct (key_eq_dec p xorca_id) as [->|N]; [|rewrite process_other_l by exact N; cbn; tauto].
  rewrite process_handle_l. destruct (deserialize read_instruction data) as [i|] eqn:D; cbn [fst].
  - split; [discriminate|]. intros [H|H]; [congruence|]. apply decode_encodes in D. destruct (H _ D).
  - split; [|reflexivity]. intros _. right. intros i H. apply decode_encodes in H. congruence.
Qed.
Theorem log_accepted C E accs l data i l' evs :
  encodes data i -> process_instruction C E xorca_id accs l data = Ok (l', evs) ->
  process_instruction_l C E xorca_id accs l data = (Text (called i) :: map Payload evs, Ok l').
Proof.
  intros He H. apply decode_encodes in He. rewrite process_handle_l, He. rewrite process_handle, He in H.
  pose proof (handle_agree C E accs l i) as A. rewrite H in A. cbn in A. now rewrite A.
Qed.
Lemma shown_written s : written s (shown s).
Proof.
  unfold written, shown. destruct (Nat.leb_spec (String.length s) 200); [left|right]; auto.
Qed.
Theorem log_refused C E accs l data i e :
  encodes data i -> process_instruction C E xorca_id accs l data = Err e ->
  (fst (process_instruction_l C E xorca_id accs l data) = [Text (called i)] /\ silence C accs l i e) \/
  (exists c line, fst (process_instruction_l C E xorca_id accs l data) = [Text (called i); Text line] /\
     written (sentence c) line /\ e = custom (complaint_code c) /\ complaint_true C accs l i c).
Proof.
  intros He H. assert (Hok : instruction_ok i) by apply He. apply decode_encodes in He.
  rewrite process_handle_l, He. rewrite process_handle, He in H. cbn [fst].
  pose proof (handle_agree C E accs l i) as A. rewrite H in A. cbn in A.
  pose proof (handle_tells C E accs l i Hok) as T. unfold tells in T. rewrite A in T.
  destruct T as [(F & S)|(c & F & Q & T)]; rewrite F; [left; auto|right].
  exists c, (shown (sentence c)). auto using shown_written.
Qed.
Theorem log_payloads C E p accs l data d :
  In (Payload d) (fst (process_instruction_l C E p accs l data)) <->
  exists l' evs, process_instruction C E p accs l data = Ok (l', evs) /\ In d evs.
Proof.
  destruct (key_eq_dec p xorca_id) as [->|N].
  2:{ rewrite process_other_l, process_other by exact N. cbn. split; [tauto|]. intros (? & ? & ? & _). discriminate. }
  destruct (deserialize read_instruction data) as [i|] eqn:D.
  2:{ rewrite process_handle_l, process_handle, D. cbn. split; [tauto|]. intros (? & ? & ? & _). discriminate. }
  apply decode_encodes in D. destruct (process_instruction C E xorca_id accs l data) as [[l' evs]|e] eqn:H.
  - rewrite (log_accepted _ _ _ _ _ _ _ _ D H). cbn [fst]. split.
    + intros [X|X]; [discriminate|]. apply in_map_iff in X. destruct X as (d' & X & I). injection X as ->. eauto.
    + intros (l2 & e2 & X & I). injection X as <- <-. right. now apply in_map.
  - split; [|intros (? & ? & ? & _); discriminate].
    destruct (log_refused _ _ _ _ _ _ _ D H) as [(F & _)|(c & line & F & _)]; rewrite F; cbn; intuition discriminate.
Qed.

(** ** What of the lines is cut off *)
Lemma app_length s t : String.length (s ++ t) = (String.length s + String.length t)%nat.
Proof. induction s as [|a s IH]; [reflexivity|]. cbn. now rewrite IH. Qed.
Lemma app_assoc_s (a b c : string) : (a ++ (b ++ c) = (a ++ b) ++ c)%string.
Proof. induction a as [|x a IH]; [reflexivity|]. cbn. now rewrite IH. Qed.
Theorem lines_complete c line :
  written (sentence c) line -> (forall h w m, c <> WrongHolder h w m) -> line = sentence c.
Proof.
  intros W N. destruct W as [[_ ->]|[L _]]; [reflexivity|exfalso].
  destruct c; cbn [sentence] in L; rewrite ?app_length in L; cbn [String.length] in L;
    repeat match type of L with
    | context [String.length (to_base58 ?k)] =>
        let x := fresh "x" in let y := fresh "y" in pose proof (base58_length k) as y; set (x := String.length (to_base58 k)) in *; clearbody x
    | context [String.length (to_decimal ?k)] =>
        let x := fresh "x" in let y := fresh "y" in pose proof (decimal_length k) as y; set (x := String.length (to_decimal k)) in *; clearbody x
    end; try lia.
  eapply N. reflexivity.
Qed.
Lemma substring_app a b n :
  (String.length a <= n)%nat -> substring 0 n (a ++ b) = (a ++ substring 0 (n - String.length a) b)%string.
Proof.
  revert n. induction a as [|x a IH]; intros n H; [cbn; now rewrite Nat.sub_0_r|].
  cbn [String.length] in *. destruct n as [|n]; [lia|]. cbn. rewrite IH by lia. reflexivity.
Qed.
Lemma substring_prefix a : forall n, exists rest, a = (substring 0 n a ++ rest)%string /\
  (String.length (substring 0 n a) = Nat.min n (String.length a))%nat.
Proof.
  induction a as [|x a IH]; intros n.
  - exists EmptyString. destruct n; cbn; auto.
  - destruct n as [|n]; [exists (String x a); cbn; auto|]. destruct (IH n) as (rest & Q & L).
    exists rest. cbn. split; [now rewrite <- Q|now rewrite L].
Qed.
Lemma substring_short a b n : (n <= String.length a)%nat -> substring 0 n (a ++ b) = substring 0 n a.
Proof.
  revert n. induction a as [|x a IH]; intros n H.
  - cbn in H. replace n with O by lia. destruct b; reflexivity.
  - destruct n as [|n]; [reflexivity|]. cbn in *. rewrite IH by lia. reflexivity.
Qed.
Theorem holder_line h w m line :
  written (sentence (WrongHolder h w m)) line ->
  line = sentence (WrongHolder h w m) \/
  exists start rest, to_base58 m = (start ++ rest)%string /\ (32 <= String.length start)%nat /\ rest <> EmptyString /\
    line = ("Token account data owner " ++ to_base58 h ++ " does not match owner account " ++ to_base58 w
            ++ " for token mint account " ++ start ++ "@")%string.
Proof.
  intros [[_ ->]|[L ->]]; [now left|right].
  pose proof (base58_length h) as Lh. pose proof (base58_length w) as Lw.
  set (pre := ("Token account data owner " ++ to_base58 h ++ " does not match owner account " ++ to_base58 w
            ++ " for token mint account ")%string).
  assert (S : sentence (WrongHolder h w m) = (pre ++ (to_base58 m ++ "."))%string).
  { unfold pre. cbn [sentence]. now rewrite <- !app_assoc_s. }
  assert (P : String.length pre = (79 + String.length (to_base58 h) + String.length (to_base58 w))%nat).
  { unfold pre. rewrite !app_length. cbn [String.length]. lia. }
  rewrite S in *. rewrite !app_length in L. cbn [String.length] in L.
  rewrite substring_app by lia. rewrite substring_short by lia.
  destruct (substring_prefix (to_base58 m) (199 - String.length pre)) as (rest & Q & K).
  exists (substring 0 (199 - String.length pre) (to_base58 m)), rest.
  rewrite Nat.min_l in K by lia. split; [exact Q|]. split; [lia|]. split.
  - intros ->. assert (X := f_equal String.length Q). rewrite app_length, K in X. cbn [String.length] in X. lia.
  - unfold pre. now rewrite <- !app_assoc_s.
Qed.
