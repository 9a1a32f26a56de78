(** Encodings, error codes and the program id: C30, C31, C47, C48, and the clients' side of C28.
    Only statements, one-line proofs, examples and [Print Assumptions]. *)
From Coq Require Import String.
From Verif Require Import Spec ClientSpec BytesFacts CodecFacts LayoutFacts SchemaFacts RaiseFacts EncodeFacts DecodeFacts
  HistoryFacts Demo DemoMore.
Import List ListNotations.
Open Scope list_scope.
Open Scope Z_scope.

(** ** C30 *)
(** On every byte string the program's in-place view ([view], the fields at their
    [repr(C)] offsets) and the Borsh readers of the program, the Rust client and the
    JS client see the same fields; they differ only in refusing short data and
    unknown discriminators. *)
Theorem C30_state_readers : forall d,
  let read := if (2048 <=? length d)%nat && (get_u8 0 d <? 4)
              then Some (view (types program_state) d) else None in
  decode_struct program_state d = read /\ decode_struct rust_state d = read /\ decode_struct js_state d = read.
Proof. exact state_readers. Qed.

Theorem C30_pending_readers : forall d,
  let read := if (1024 <=? length d)%nat && (get_u8 0 d <? 4)
              then Some (view (types program_pending) d) else None in
  decode_struct program_pending d = read /\ decode_struct rust_pending d = read /\ decode_struct js_pending d = read.
Proof. exact pending_readers. Qed.

(** Field names correspond too. *)
Theorem C30_same_layouts :
  rust_state = program_state /\ rust_pending = program_pending /\ rust_events = program_events /\
  js_state = camel_struct program_state /\ js_pending = camel_struct program_pending /\
  js_events = map camel_struct program_events.
Proof. exact same_layouts. Qed.

(** decode (encode x) = x, with the fixed lengths. *)
Theorem C30_state_decode_encode : forall vs rest,
  fields_ok (types program_state) vs ->
  length (fields_bytes (types program_state) vs) = 2048%nat /\
  decode_struct program_state (fields_bytes (types program_state) vs ++ rest) = Some vs.
Proof. exact state_codec. Qed.

Theorem C30_pending_decode_encode : forall vs rest,
  fields_ok (types program_pending) vs ->
  length (fields_bytes (types program_pending) vs) = 1024%nat /\
  decode_struct program_pending (fields_bytes (types program_pending) vs ++ rest) = Some vs.
Proof. exact pending_codec. Qed.

(** encode (decode b) = b. *)
Theorem C30_state_encode_decode : forall d vs,
  decode_struct program_state d = Some vs ->
  fields_ok (types program_state) vs /\ fields_bytes (types program_state) vs = firstn 2048 d.
Proof. exact state_codec_back. Qed.

Theorem C30_pending_encode_decode : forall d vs,
  decode_struct program_pending d = Some vs ->
  fields_ok (types program_pending) vs /\ fields_bytes (types program_pending) vs = firstn 1024 d.
Proof. exact pending_codec_back. Qed.

(** [repr(C)] offsets are the packed ones and the sizes are the constants. *)
Theorem C30_no_hidden_padding :
  c_offsets 0 (types program_state) = packed_offsets 0 (types program_state) /\
  c_offsets 0 (types program_pending) = packed_offsets 0 (types program_pending) /\
  c_size (types program_state) = total_size (types program_state) /\
  c_size (types program_pending) = total_size (types program_pending) /\
  Z.of_nat (total_size (types program_state)) = STATE_LEN /\
  Z.of_nat (total_size (types program_pending)) = PENDING_LEN.
Proof. exact no_hidden_padding. Qed.

(** In-place writes change the named field of the decoded account and no other. *)
Theorem C30_state_writes : forall d v c k,
  (2048 <= length d)%nat -> is_u64 v -> is_i64 c ->
  view (types program_state) (set_escrow v d) = put 4 (VInt v) (view (types program_state) d) /\
  view (types program_state) (set_cooldown c d) = put 5 (VInt c) (view (types program_state) d) /\
  view (types program_state) (set_authority k d) = put 6 (VKey k) (view (types program_state) d).
Proof. exact state_writers. Qed.

(** Initialize writes the Borsh encoding; Unstake's in-place writes on a zeroed
    account give the Borsh encoding. *)
Theorem C30_state_written : forall s,
  state_borsh s = fields_bytes (types program_state) (state_fields s).
Proof. exact state_borsh_fields. Qed.

Theorem C30_pending_written : forall b i u a t,
  is_u8 b -> is_u8 i -> is_u64 a -> is_i64 t ->
  pending_bytes b i u a t =
  fields_bytes (types program_pending)
    [VInt 2; VBytes (zeros 5); VInt b; VInt i; VKey u; VInt a; VInt t; VBytes (zeros 968)].
Proof. exact pending_written. Qed.

(** What the clients read from the State and records of any reachable ledger. *)
Theorem C30_reachable_state : forall C l sk,
  ordinary_state_address C -> reaches C l -> is_state l sk ->
  length (a_data (l sk)) = 2048%nat /\
  exists pad1 bump vault_bump pad2,
    let fields := [VInt 1; VBytes pad1; VInt bump; VInt vault_bump; VInt (escrow l sk);
                   VInt (cooldown l sk); VKey (authority l sk); VBytes pad2] in
    decode_struct rust_state (a_data (l sk)) = Some fields /\
    decode_struct js_state (a_data (l sk)) = Some fields /\
    view (types program_state) (a_data (l sk)) = fields /\
    fields_bytes (types program_state) fields = a_data (l sk).
Proof. exact state_decoded. Qed.

Theorem C30_reachable_record : forall C l sk k,
  ordinary_state_address C -> reaches C l -> is_state l sk -> is_record l k ->
  length (a_data (l k)) = 1024%nat /\
  exists pad1 bump pad2,
    let fields := [VInt 2; VBytes pad1; VInt bump; VInt (rec_index l k); VKey (rec_owner l k);
                   VInt (rec_amount l k); VInt (rec_time l k); VBytes pad2] in
    decode_struct rust_pending (a_data (l k)) = Some fields /\
    decode_struct js_pending (a_data (l k)) = Some fields /\
    view (types program_pending) (a_data (l k)) = fields /\
    fields_bytes (types program_pending) fields = a_data (l k).
Proof. exact record_decoded. Qed.

Example C30_ex :
  let a := [VInt 1; VBytes (zeros 5); VInt 250; VInt 254; VInt 700; VInt (-3); VKey alice; VBytes (zeros 1992)] in
  let b := [VInt 2; VBytes (zeros 5); VInt 251; VInt 7; VKey bob; VInt 500000; VInt 2110; VBytes (zeros 968)] in
  fields_ok (types program_state) a /\ fields_ok (types program_pending) b /\
  decode_struct js_pending (fields_bytes (types program_pending) b) = Some b /\
  decode_struct rust_state (zeros 2047) = None /\
  decode_struct rust_state (x04 :: zeros 2047) = None /\
  view (types program_state) (set_escrow 9 (fields_bytes (types program_state) a)) = put 4 (VInt 9) a /\
  reaches demo_crypto (demo 9) /\ is_state (demo 9) demo_state /\ is_record (demo 9) bob_record /\
  rec_index (demo 9) bob_record = 7 /\ rec_owner (demo 9) bob_record = bob.
Proof.
  cbv zeta.
  split. { repeat (apply Forall2_cons; [cbn; unfold is_u8, is_u64, is_i64, u64_max; rewrite ?zeros_length; try lia; auto|]). apply Forall2_nil. }
  split. { repeat (apply Forall2_cons; [cbn; unfold is_u8, is_u64, is_i64, u64_max; rewrite ?zeros_length; try lia; auto|]). apply Forall2_nil. }
  split; [vm_compute; reflexivity|]. split; [vm_compute; reflexivity|]. split; [vm_compute; reflexivity|].
  split; [vm_compute; reflexivity|].
  split; [apply demo_reaches|]. split; [see 9%nat|]. split; [see 9%nat|]. split; [see 9%nat|]. see 9%nat.
Qed.

(** ** C31 *)
(** Whatever a builder of the Rust client, the JS client or the scripts sends, the
    program runs the handler of the instruction asked for, whatever bytes follow. *)
Theorem C31_sent_runs : forall C E b i accs l rest,
  sends C b i -> process_instruction C E (b_program b) accs l (b_data b ++ rest) = handle C E accs l i.
Proof. exact sent_runs. Qed.

(** The bytes a builder sends are those of the instruction, to the program's id. *)
Theorem C31_sent_bytes : forall C b i,
  sends C b i -> b_program b = xorca_id /\ instruction_ok i /\ b_data b = instruction_bytes i.
Proof. exact sends_bytes. Qed.

(** Decoding is independent of builders: every encoding followed by anything. *)
Theorem C31_encoded_runs : forall C E i accs l rest,
  instruction_ok i ->
  process_instruction C E xorca_id accs l (instruction_bytes i ++ rest) = handle C E accs l i.
Proof. exact encoded_runs. Qed.

(** No encoding is the beginning of another one. *)
Theorem C31_prefix_free : forall i j r s,
  instruction_ok i -> instruction_ok j -> instruction_bytes i ++ r = instruction_bytes j ++ s -> i = j /\ r = s.
Proof. exact prefix_free. Qed.

Theorem C31_sent_distinct : forall C b i b' i',
  sends C b i -> sends C b' i' -> b_data b = b_data b' -> i = i'.
Proof. exact sends_distinct. Qed.

(** Byte strings that do not start with an instruction, and only those, give 6000. *)
Theorem C31_unknown_rejected : forall C E accs l d,
  process_instruction C E xorca_id accs l d = Err (ECustom 6000) <->
  forall i rest, instruction_ok i -> d <> instruction_bytes i ++ rest.
Proof. exact garbage_iff. Qed.

(** The JS builders refuse exactly the values that do not fit. *)
Theorem C31_js_builders_accept :
  (forall k0 k1 k2 k3 k4 k5 k6 k7 a,
     (exists b, js_stake k0 k1 k2 k3 k4 k5 k6 k7 a = Some b) <-> is_u64 a) /\
  (forall k0 k1 k2 k3 k4 k5 k6 k7 k8 a i,
     (exists b, js_unstake k0 k1 k2 k3 k4 k5 k6 k7 k8 a (JInt i) = Some b) <-> is_u64 a /\ is_u8 i) /\
  (forall k0 k1 k2 k3 k4 k5 k6 k7 i,
     (exists b, js_withdraw k0 k1 k2 k3 k4 k5 k6 k7 (JInt i) = Some b) <-> is_u8 i) /\
  (forall k0 k1 k2 k3 k4 k5 k6 k7 k8 c,
     (exists b, js_initialize k0 k1 k2 k3 k4 k5 k6 k7 k8 c = Some b) <-> is_i64 c) /\
  (forall k0 k1 u, (exists b, js_set k0 k1 u = Some b) <-> instruction_ok (Set_ u)).
Proof. exact js_accepts. Qed.

(** The JS parser reads every byte string as the program does. *)
Theorem C31_js_parses_same : forall d,
  js_parse_instruction d = option_map instruction_fields (deserialize read_instruction d).
Proof. exact js_reads_instructions. Qed.

Example C31_ex :
  sends demo_crypto (rust_unstake alice demo_state alice_record alice_xorca xorca_mint_id orca_mint_id demo_vault
    system_id token_id [] 1000000 0) (Unstake 1000000 0) /\
  b_data (rust_unstake alice demo_state alice_record alice_xorca xorca_mint_id orca_mint_id demo_vault
    system_id token_id [] 1000000 0) = [x01; x40; x42; x0f; x00; x00; x00; x00; x00; x00] /\
  (exists b, js_withdraw alice demo_state alice_record alice_orca demo_vault orca_mint_id system_id token_id (JInt 255)
    = Some b /\ sends demo_crypto b (Withdraw 255) /\ b_data b = [x02; xff]) /\
  js_withdraw alice demo_state alice_record alice_orca demo_vault orca_mint_id system_id token_id (JInt 256) = None /\
  js_stake alice demo_vault alice_orca alice_xorca xorca_mint_id demo_state orca_mint_id token_id (-1) = None /\
  (forall i rest, instruction_ok i -> [x01; x40; x42] <> instruction_bytes i ++ rest) /\
  process_instruction demo_crypto (demo_env 1400) xorca_id (stake_accs alice alice_orca alice_xorca) (demo 4) [x07]
    = Err (ECustom 6000) /\
  js_parse_instruction [x04; x00; x32; x00; x00; x00; x00; x00; x00; x00; xff] = Some (4, [VInt 0; VInt 50]).
Proof.
  split; [constructor; unfold is_u8, is_u64, u64_max; lia|]. split; [reflexivity|].
  split. { eexists. split; [reflexivity|]. split; [|reflexivity].
    change (Withdraw 255) with (Withdraw (js_trunc (JInt 255))). eapply JsWithdraw. reflexivity. }
  split; [reflexivity|]. split; [reflexivity|].
  split; [apply undecodable; reflexivity|].
  split; [|reflexivity].
  apply garbage_iff, undecodable. reflexivity.
Qed.

(** ** C28: the clients read the events of C28 as the program wrote them *)
Theorem C28_clients_read_events : forall b e,
  logs b e ->
  decode_union rust_events b = Some (event_fields e) /\ decode_union js_events b = Some (event_fields e).
Proof. exact logged_decoded. Qed.

(** On any payload, known or not, both clients agree with the layout in event.rs. *)
Theorem C28_event_readers : forall d,
  decode_union rust_events d = decode_union js_events d /\
  decode_union js_events d = option_map event_fields (deserialize read_event d).
Proof. exact (fun d => conj (rust_js_events d) (events_read d)). Qed.

Example C28_clients_ex :
  logs (event_bytes (EvWithdraw 5 6 (-7) 8)) (EvWithdraw 5 6 (-7) 8) /\
  decode_union js_events (event_bytes (EvWithdraw 5 6 (-7) 8)) = Some (2, [VInt 5; VInt 6; VInt (-7); VInt 8]) /\
  decode_union js_events [x04] = None.
Proof. repeat split; reflexivity. Qed.

(** ** C47 *)
Theorem C47_listed_in_both_clients : forall C E pid accs l data z,
  process_instruction C E pid accs l data = Err (ECustom z) ->
  6000 <= z <= 6019 /\
  exists name, In (name, z) rust_errors /\ In (shout name, z) js_errors.
Proof. exact errors_agree. Qed.

Theorem C47_same_numbers : forall c,
  In (error_name c, code c) rust_errors /\ In (shout (error_name c), code c) js_errors.
Proof. exact error_listed. Qed.

Theorem C47_distinct_codes : forall c d,
  code c = code d -> c = d.
Proof. exact code_inj. Qed.

Theorem C47_one_name_per_number : forall n m z,
  (In (n, z) rust_errors -> In (m, z) rust_errors -> n = m) /\
  (In (n, z) js_errors -> In (m, z) js_errors -> n = m).
Proof. exact error_unique. Qed.

Example C47_ex :
  process_instruction demo_crypto (demo_env 2099) xorca_id (withdraw_accs alice alice_orca alice_record) (demo 8)
    (instruction_bytes (Withdraw 0)) = Err (ECustom 6011) /\
  In ("CoolDownPeriodStillActive", 6011)%string rust_errors /\
  In ("COOL_DOWN_PERIOD_STILL_ACTIVE", 6011)%string js_errors /\
  shout "CoolDownPeriodStillActive" = "COOL_DOWN_PERIOD_STILL_ACTIVE"%string.
Proof.
  split; [probe 8%nat 0%nat|]. split; [|split; [|reflexivity]].
  - exact (proj1 (error_listed CoolDownPeriodStillActive)).
  - exact (proj2 (error_listed CoolDownPeriodStillActive)).
Qed.

(** ** C48 *)
(** The answer does not depend on the accounts, the ledger or the data. *)
Theorem C48_foreign_id_refused : forall C E pid accs l data,
  pid <> xorca_id -> process_instruction C E pid accs l data = Err (custom IncorrectProgramId).
Proof. exact foreign_id_blind. Qed.

(** And that error has no other cause. *)
Theorem C48_error_means_foreign_id : forall C E pid accs l data,
  process_instruction C E pid accs l data = Err (ECustom 6001) <-> pid <> xorca_id.
Proof. exact wrong_id_iff. Qed.

Example C48_ex :
  token_id <> xorca_id /\
  process_instruction demo_crypto (demo_env 1400) token_id [] (demo 4) [] = Err (ECustom 6001).
Proof. split; [discriminate|]. apply wrong_id_iff. discriminate. Qed.

Print Assumptions C30_state_readers.
Print Assumptions C30_pending_readers.
Print Assumptions C30_same_layouts.
Print Assumptions C30_state_decode_encode.
Print Assumptions C30_pending_decode_encode.
Print Assumptions C30_state_encode_decode.
Print Assumptions C30_pending_encode_decode.
Print Assumptions C30_no_hidden_padding.
Print Assumptions C30_state_writes.
Print Assumptions C30_state_written.
Print Assumptions C30_pending_written.
Print Assumptions C30_reachable_state.
Print Assumptions C30_reachable_record.
Print Assumptions C31_sent_runs.
Print Assumptions C31_sent_bytes.
Print Assumptions C31_encoded_runs.
Print Assumptions C31_prefix_free.
Print Assumptions C31_sent_distinct.
Print Assumptions C31_unknown_rejected.
Print Assumptions C31_js_builders_accept.
Print Assumptions C31_js_parses_same.
Print Assumptions C28_clients_read_events.
Print Assumptions C47_listed_in_both_clients.
Print Assumptions C47_same_numbers.
Print Assumptions C47_distinct_codes.
Print Assumptions C47_one_name_per_number.
Print Assumptions C48_foreign_id_refused.
Print Assumptions C48_error_means_foreign_id.
Print Assumptions C28_event_readers.
