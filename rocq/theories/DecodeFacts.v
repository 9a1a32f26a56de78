(** What the clients read from ledgers and logs, and the error tables. *)
From Coq Require Import String.
From Verif Require Import BytesFacts LedgerFacts CodecFacts LayoutFacts SchemaFacts ClientSpec RaiseFacts EncodeFacts
  Pool HistoryFacts.
Import List ListNotations.
Open Scope list_scope.
Open Scope Z_scope.

(** ** State and PendingWithdraw on reachable ledgers *)
Theorem state_decoded C l sk :
  ordinary_state_address C -> reaches C l -> is_state l sk ->
  length (a_data (l sk)) = 2048%nat /\
  exists pad1 bump vault_bump pad2,
    let fields := [VInt 1; VBytes pad1; VInt bump; VInt vault_bump; VInt (escrow l sk);
                   VInt (cooldown l sk); VKey (authority l sk); VBytes pad2] in
    decode_struct rust_state (a_data (l sk)) = Some fields /\
    decode_struct js_state (a_data (l sk)) = Some fields /\
    view (types program_state) (a_data (l sk)) = fields /\
    fields_bytes (types program_state) fields = a_data (l sk).
Proof.
  intros Ho Hr Hs. destruct (reaches_pool C l sk Ho Hr Hs) as (vk & P & HP).
  pose proof (po_slen _ _ _ _ _ HP) as L. pose proof (po_sdisc _ _ _ _ _ HP) as D.
  split; [exact L|].
  exists (slice 1 5 (a_data (l sk))), (st_bump (a_data (l sk))), (st_vault_bump (a_data (l sk))),
    (slice 56 1992 (a_data (l sk))).
  pose proof (state_decodes _ L D) as H. unfold state_view in H. rewrite D in H. cbv zeta.
  rewrite rust_state_decode, js_state_decode. split; [exact H|]. split; [exact H|]. split.
  - unfold view. rewrite state_layout. cbn [types program_state map snd zip_with view_field program_discriminator].
    change (get_u8 0 (a_data (l sk))) with (st_disc (a_data (l sk))). rewrite D. reflexivity.
  - pose proof (state_codec_back _ _ H) as B. destruct B as [_ B]. rewrite <- L, firstn_all in B. exact B.
Qed.

Theorem record_decoded C l sk k :
  ordinary_state_address C -> reaches C l -> is_state l sk -> is_record l k ->
  length (a_data (l k)) = 1024%nat /\
  exists pad1 bump pad2,
    let fields := [VInt 2; VBytes pad1; VInt bump; VInt (rec_index l k); VKey (rec_owner l k);
                   VInt (rec_amount l k); VInt (rec_time l k); VBytes pad2] in
    decode_struct rust_pending (a_data (l k)) = Some fields /\
    decode_struct js_pending (a_data (l k)) = Some fields /\
    view (types program_pending) (a_data (l k)) = fields /\
    fields_bytes (types program_pending) fields = a_data (l k).
Proof.
  intros Ho Hr Hs Hk. destruct (reaches_pool C l sk Ho Hr Hs) as (vk & P & HP).
  apply (pool_is_record _ _ _ _ _ k HP) in Hk. apply (po_records _ _ _ _ _ HP) in Hk.
  pose proof (ro_len _ _ _ Hk) as L. pose proof (ro_disc _ _ _ Hk) as D.
  split; [exact L|].
  exists (slice 1 5 (a_data (l k))), (pw_bump (a_data (l k))), (slice 56 968 (a_data (l k))).
  pose proof (pending_decodes _ L D) as H. unfold pending_view in H. rewrite D in H. cbv zeta.
  rewrite rust_pending_decode, js_pending_decode. split; [exact H|]. split; [exact H|]. split.
  - unfold view. rewrite pending_layout. cbn [types program_pending map snd zip_with view_field program_discriminator].
    change (get_u8 0 (a_data (l k))) with (pw_disc (a_data (l k))). rewrite D. reflexivity.
  - pose proof (pending_codec_back _ _ H) as B. destruct B as [_ B]. rewrite <- L, firstn_all in B. exact B.
Qed.

(** ** Events *)
Lemma rust_js_events d : decode_union rust_events d = decode_union js_events d.
Proof. reflexivity. Qed.

Theorem events_read d :
  decode_union js_events d = option_map event_fields (deserialize read_event d).
Proof.
  unfold decode_union, deserialize, read_union, read_event. unfold rbind at 1. unfold rbind at 2.
  destruct d as [|c d]; [reflexivity|]. rewrite read_u8_cons.
  assert (R' : 0 <= byte_to_Z c) by (unfold byte_to_Z; lia).
  destruct (byte_to_Z c =? 0) eqn:Q0; [apply Z.eqb_eq in Q0; rewrite Q0|apply Z.eqb_neq in Q0].
  { cbn. unfold rbind, rret.
    repeat (match goal with |- context [read_u64 ?x] => destruct (read_u64 x) as [[? ?]|] end; [|reflexivity]).
    reflexivity. }
  destruct (byte_to_Z c =? 1) eqn:Q1; [apply Z.eqb_eq in Q1; rewrite Q1|apply Z.eqb_neq in Q1].
  { cbn. change (Pos.to_nat 1) with 1%nat. cbn. unfold rbind, rret.
    repeat (match goal with |- context [read_u64 ?x] => destruct (read_u64 x) as [[? ?]|] end; [|reflexivity]).
    match goal with |- context [read_i64 ?x] => destruct (read_i64 x) as [[? ?]|] end; [|reflexivity].
    match goal with |- context [read_u8 ?x] => destruct (read_u8 x) as [[? ?]|] end; reflexivity. }
  destruct (byte_to_Z c =? 2) eqn:Q2; [apply Z.eqb_eq in Q2; rewrite Q2|apply Z.eqb_neq in Q2].
  { change (nth_error (map types js_events) (Z.to_nat 2)) with (Some [FU64; FU64; FI64; FU8]).
    cbn. unfold rbind, rret.
    repeat (match goal with |- context [read_u64 ?x] => destruct (read_u64 x) as [[? ?]|] end; [|reflexivity]).
    match goal with |- context [read_i64 ?x] => destruct (read_i64 x) as [[? ?]|] end; [|reflexivity].
    match goal with |- context [read_u8 ?x] => destruct (read_u8 x) as [[? ?]|] end; reflexivity. }
  destruct (byte_to_Z c =? 3) eqn:Q3; [apply Z.eqb_eq in Q3; rewrite Q3|apply Z.eqb_neq in Q3].
  { change (nth_error (map types js_events) (Z.to_nat 3)) with (Some [FKey; FKey]).
    cbn. unfold rbind, rret.
    repeat (match goal with |- context [read_key ?x] => destruct (read_key x) as [[? ?]|] end; [|reflexivity]).
    reflexivity. }
  destruct (nth_error (map types js_events) (Z.to_nat (byte_to_Z c))) eqn:N; [|reflexivity].
  assert (A : nth_error (map types js_events) (Z.to_nat (byte_to_Z c)) <> None) by congruence.
  apply nth_error_Some in A. cbn [length map js_events] in A. lia.
Qed.

Theorem event_decoded e rest :
  event_ok e ->
  decode_union rust_events (event_bytes e ++ rest) = Some (event_fields e) /\
  decode_union js_events (event_bytes e ++ rest) = Some (event_fields e).
Proof.
  intros H. rewrite rust_js_events, events_read. unfold deserialize.
  rewrite (proj2 (read_event_some _ e rest) (conj eq_refl H)). auto.
Qed.

(** Every event field comes back under the name the program gave it. *)
Lemma event_names :
  rust_events = program_events /\ js_events = map camel_struct program_events /\
  rust_state = program_state /\ js_state = camel_struct program_state /\
  rust_pending = program_pending /\ js_pending = camel_struct program_pending.
Proof. repeat split; reflexivity. Qed.

(** ** Error codes *)
Definition all_errors : list error_code :=
  [UnknownInstructionDiscriminator; IncorrectProgramId; InvalidAccountRole; NotEnoughAccountKeys;
   IncorrectOwner; InvalidSeeds; IncorrectAccountAddress; InvalidAccountData; ArithmeticError;
   InsufficientFunds; StateAccountAlreadyInitialized; CoolDownPeriodStillActive; EmitEventError;
   InvalidCoolDownPeriod; InsufficientStakeAmount; InsufficientUnstakeAmount; InsufficientEscrow;
   CoolDownOverflow; InsufficientVaultBacking; UnauthorizedDeployerAccess].

Lemma error_tables :
  rust_errors = map (fun c => (error_name c, code c)) all_errors /\
  js_errors = map (fun c => (shout (error_name c), code c)) all_errors /\
  map snd rust_errors = map (fun n => 6000 + Z.of_nat n) (seq 0 20).
Proof. repeat split; reflexivity. Qed.

Lemma all_errors_all c : In c all_errors.
Proof. destruct c; cbn; tauto. Qed.

Lemma code_range c : 6000 <= code c <= 6019.
Proof. destruct c; cbn; lia. Qed.

Theorem error_listed c :
  In (error_name c, code c) rust_errors /\ In (shout (error_name c), code c) js_errors.
Proof.
  destruct error_tables as (-> & -> & _). split.
  - apply (in_map (fun c => (error_name c, code c))), all_errors_all.
  - apply (in_map (fun c => (shout (error_name c), code c))), all_errors_all.
Qed.

(** A number has one name in each table. *)
Theorem error_unique n m z :
  (In (n, z) rust_errors -> In (m, z) rust_errors -> n = m) /\
  (In (n, z) js_errors -> In (m, z) js_errors -> n = m).
Proof.
  destruct error_tables as (-> & -> & _). split; intros H1 H2; apply in_map_iff in H1, H2;
    destruct H1 as (c & E1 & _), H2 as (d & E2 & _);
    assert (c = d) by (apply code_inj; congruence); congruence.
Qed.

Theorem errors_agree C E pid accs l data z :
  process_instruction C E pid accs l data = Err (ECustom z) ->
  6000 <= z <= 6019 /\
  exists name, In (name, z) rust_errors /\ In (shout name, z) js_errors.
Proof.
  intros H. apply errors_own in H. destruct H as (c & ->). split; [apply code_range|].
  exists (error_name c). apply error_listed.
Qed.

Theorem logged_decoded b e :
  logs b e ->
  decode_union rust_events b = Some (event_fields e) /\ decode_union js_events b = Some (event_fields e).
Proof.
  intros H. apply read_event_some in H. destruct H as [-> H]. now apply event_decoded.
Qed.

Theorem foreign_id_blind C E pid accs l data :
  pid <> xorca_id -> process_instruction C E pid accs l data = Err (custom IncorrectProgramId).
Proof. intros H. now apply process_foreign_id. Qed.
