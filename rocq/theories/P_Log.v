(** C71: what the program writes to the log of a transaction. *)
From Coq Require Import String Ascii.
From Verif Require Import Log LogSpec LogFacts LogMain MistakeSpec Demo DemoMore DemoStory DemoMistake HistoryFacts DemoLog.
Import List ListNotations.
Open Scope list_scope.
Open Scope Z_scope.

(** ** C71 *)
(** Writing the log changes no answer and no account. *)
Theorem C71_same_answers : forall C E p accs l data,
  snd (process_instruction_l C E p accs l data) =
  match process_instruction C E p accs l data with Ok (l', _) => Ok l' | Err e => Err e end.
Proof. exact log_same_answers. Qed.

Example C71_same_answers_ex :
  log_at 1 1100 (stake_accs alice alice_orca alice_xorca) (Stake 5000000) =
    ([Text "Instruction: Stake"; Payload stake_payload], None) /\
  accepted demo_crypto (demo_env 1100) (stake_accs alice alice_orca alice_xorca) (demo 1) (instruction_bytes (Stake 5000000)).
Proof. split; [exact stake_log|demo_accepted 1%nat]. Qed.

(** Nothing is written when the program is not the addressed one or the data is no instruction, and only then. *)
Theorem C71_nothing_written : forall C E p accs l data,
  fst (process_instruction_l C E p accs l data) = [] <-> p <> xorca_id \/ forall i, ~ encodes data i.
Proof. exact log_nothing. Qed.

Example C71_nothing_written_ex : forall C E accs l,
  process_instruction_l C E xorca_id accs l [] = ([], Err (custom UnknownInstructionDiscriminator)) /\
  process_instruction_l C E token_id accs l (instruction_bytes (Withdraw 0)) = ([], Err (custom IncorrectProgramId)).
Proof. split; reflexivity. Qed.

(** An accepted call writes its name and then its events. *)
Theorem C71_accepted_log : forall C E accs l data i l' evs,
  encodes data i -> process_instruction C E xorca_id accs l data = Ok (l', evs) ->
  process_instruction_l C E xorca_id accs l data = (Text (called i) :: map Payload evs, Ok l').
Proof. exact log_accepted. Qed.

Example C71_accepted_log_ex :
  log_at 1 1100 (stake_accs alice alice_orca alice_xorca) (Stake 5000000) =
    ([Text "Instruction: Stake"; Payload (event_bytes (EvStake 5000000 5000000 0 5000000 5000000))], None).
Proof. exact stake_log. Qed.

(** A refused call writes its name and at most one line more, which is true and fits the error code. *)
Theorem C71_refused_log : forall C E accs l data i e,
  encodes data i -> process_instruction C E xorca_id accs l data = Err e ->
  (fst (process_instruction_l C E xorca_id accs l data) = [Text (called i)] /\ silence C accs l i e) \/
  (exists c line, fst (process_instruction_l C E xorca_id accs l data) = [Text (called i); Text line] /\
     written (sentence c) line /\ e = custom (complaint_code c) /\ complaint_true C accs l i c).
Proof. exact log_refused. Qed.

Example C71_refused_log_ex :
  log_at 1 1100 (set_accs bob) (Set_ (UpdateUpdateAuthority bob)) =
    ([Text "Instruction: Set"; Text "Account 8opHzTAnfzRpPEx21XtnrVTX28YQuCpAjcn1PczScKi has wrong address"],
     Some (custom IncorrectAccountAddress)) /\
  log_at 0 1000 (stake_accs alice alice_orca alice_xorca) (Stake 20000001) =
    ([Text "Instruction: Stake"], Some (custom InsufficientFunds)) /\
  encodes (instruction_bytes (Stake 20000001)) (Stake 20000001) /\
  sentence (WrongAddress bob) = "Account 8opHzTAnfzRpPEx21XtnrVTX28YQuCpAjcn1PczScKi has wrong address"%string.
Proof. split; [exact stranger_log|split; [exact poor_log|split; [demo_encodes|reflexivity]]]. Qed.

(** Event data in the log is that of an accepted call. *)
Theorem C71_event_data : forall C E p accs l data d,
  In (Payload d) (fst (process_instruction_l C E p accs l data)) <->
  exists l' evs, process_instruction C E p accs l data = Ok (l', evs) /\ In d evs.
Proof. exact log_payloads. Qed.

Example C71_event_data_ex :
  exists l' evs, process_instruction demo_crypto (demo_env 1100) xorca_id (stake_accs alice alice_orca alice_xorca) (demo 1)
    (instruction_bytes (Stake 5000000)) = Ok (l', evs) /\ In stake_payload evs.
Proof. apply C71_event_data. rewrite (log_at_fst _ _ _ _ _ _ stake_log). right. now left. Qed.

(** The texts of the addresses in the lines are read back as the addresses, by one address only. *)
Theorem C71_address_text : forall k,
  text_of_key (to_base58 k) k.
Proof. exact base58_text. Qed.
Theorem C71_address_unique : forall a b s,
  text_of_key s a -> text_of_key s b -> a = b.
Proof. exact base58_only. Qed.

Example C71_address_text_ex :
  to_base58 xorca_id = "StaKE6XNKVVhG8Qu9hDJBqCW3eRe7MDGLz17nJZetLT"%string /\
  to_base58 system_id = "11111111111111111111111111111111"%string /\
  to_base58 token_id = "TokenkegQfeZyiNwAJbNbGKPFXCWuBvf9Ss623VQ5DA"%string.
Proof. split; [|split]; vm_compute; reflexivity. Qed.

(** Sizes in the lines are decimal numbers. *)
Theorem C71_number_text : forall n,
  is_u64 n -> text_of_number (to_decimal n) n.
Proof. exact decimal_text. Qed.

Example C71_number_text_ex :
  to_decimal 0 = "0"%string /\ to_decimal 2048 = "2048"%string /\ to_decimal u64_max = "18446744073709551615"%string.
Proof. split; [|split]; vm_compute; reflexivity. Qed.

(** Every sentence but the one on a token account's holder is always written in full. *)
Theorem C71_lines_complete : forall c line,
  written (sentence c) line -> (forall h w m, c <> WrongHolder h w m) -> line = sentence c.
Proof. exact lines_complete. Qed.

Example C71_lines_complete_ex :
  written (sentence (TooSmall demo_state 2048 7))
    "Account 9sqzz9zDUMcpTNqHdnpKF9YtExcdSWr6mfEryZi1RBYs is incorrect size. Expected at least 2048 but got 7".
Proof. left. split; [|vm_compute; reflexivity]. apply Nat.leb_le. vm_compute. reflexivity. Qed.

(** That one gives both holders in full and at least 32 characters of the mint. *)
Theorem C71_holder_line : forall h w m line,
  written (sentence (WrongHolder h w m)) line ->
  line = sentence (WrongHolder h w m) \/
  exists start rest, to_base58 m = (start ++ rest)%string /\ (32 <= String.length start)%nat /\ rest <> EmptyString /\
    line = ("Token account data owner " ++ to_base58 h ++ " does not match owner account " ++ to_base58 w
            ++ " for token mint account " ++ start ++ "@")%string.
Proof. exact holder_line. Qed.

Example C71_holder_line_ex : written (sentence (WrongHolder bob alice orca_mint_id)) cut_line /\ String.length cut_line = 200%nat.
Proof. split; [right; split; [apply Nat.ltb_lt|]; vm_compute; reflexivity|reflexivity]. Qed.

(** It is not always complete: Alice staking from Bob's token account is answered with a line cut off in the mint. *)
Theorem C71_holder_line_complete_refuted :
  ~ (forall C E accs l data i e line,
       ordinary_state_address C -> reaches C l -> encodes data i ->
       process_instruction_l C E xorca_id accs l data = ([Text (called i); Text line], Err e) ->
       exists c, line = sentence c).
Proof. exact holder_line_cut. Qed.

Example C71_holder_line_complete_refuted_ex :
  log_at 0 1000 bobs (Stake 5) = ([Text "Instruction: Stake"; Text cut_line], Some (custom InvalidAccountData)).
Proof. exact bobs_log. Qed.

Print Assumptions C71_same_answers.
Print Assumptions C71_nothing_written.
Print Assumptions C71_accepted_log.
Print Assumptions C71_refused_log.
Print Assumptions C71_event_data.
Print Assumptions C71_address_text.
Print Assumptions C71_address_unique.
Print Assumptions C71_number_text.
Print Assumptions C71_lines_complete.
Print Assumptions C71_holder_line.
Print Assumptions C71_holder_line_complete_refuted.
