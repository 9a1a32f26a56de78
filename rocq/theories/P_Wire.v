(** The scripts' transactions on the wire (C75).
    Only statements, one-line proofs, examples and [Print Assumptions]. *)
From Verif Require Import WireSpec WireFacts WirePrivileges WireRuntime WireScripts BytesFacts Demo DemoClient DemoScripts DemoWire AcceptSpec AcceptFacts DemoExec.
From Coq Require Import List Lia.
Import ListNotations.
Open Scope Z_scope.

(** ** C75 *)
(** What is sent arrives: the same instructions in the same order with the same data and
    accounts, and every account with the privileges that the transaction as a whole gives it. *)
Theorem C75_arrives : forall before signature verify reserved tables hash fee signers ixs payer d,
  signs_well signature verify signers ->
  is_payer fee signers payer -> ~ is_called ixs payer ->
  (forall k, In k signers -> must_sign payer ixs k) ->
  wire before signature hash fee signers ixs = Some d ->
  exists got, receive verify reserved tables d = Some got /\ arrives reserved payer ixs got.
Proof. exact wire_arrives. Qed.

Example C75_arrives_ex :
  signs_well toy_signature toy_verify [bob] /\ is_payer (Some bob) [bob] bob /\ ~ is_called bob_ixs bob /\
  (forall k, In k [bob] -> must_sign bob bob_ixs k) /\
  wire toy_before toy_signature admin (Some bob) [bob] bob_ixs = Some bob_packet /\
  length bob_ixs = 2%nat /\
  exists got, receive toy_verify toy_reserved toy_tables bob_packet = Some got /\
    map (fun b => length (b_accounts b)) got = [6%nat; 8%nat].
Proof.
  split; [now apply toy_signs_well|]. split; [now left|]. split; [apply not_called; vm_compute; reflexivity|].
  split; [intros k [<-|[]]; now left|]. split; [vm_compute; reflexivity|]. split; [reflexivity|].
  exists (match receive toy_verify toy_reserved toy_tables bob_packet with Some g => g | None => [] end).
  split; vm_compute; reflexivity.
Qed.

(** It is sent exactly if all needed signers are at hand and it fits into a packet ... *)
Theorem C75_sent : forall before signature hash fee signers ixs payer ss ks,
  (forall k d, length (signature k d) = 64%nat) ->
  is_payer fee signers payer ->
  (forall k, In k signers -> must_sign payer ixs k) ->
  lists ss (must_sign payer ixs) -> lists ks (is_named payer ixs) ->
  (exists d, wire before signature hash fee signers ixs = Some d) <->
  (forall k, In k ss -> In k signers) /\ (packet_length ss ks ixs <= 1232)%nat.
Proof. exact wire_sent. Qed.

(** ... whose length depends on the numbers of signers, keys, accounts and data bytes. *)
Theorem C75_length : forall before signature hash fee signers ixs payer ss ks d,
  (forall k d, length (signature k d) = 64%nat) ->
  is_payer fee signers payer ->
  (forall k, In k signers -> must_sign payer ixs k) ->
  lists ss (must_sign payer ixs) -> lists ks (is_named payer ixs) ->
  wire before signature hash fee signers ixs = Some d ->
  length d = packet_length ss ks ixs.
Proof. exact wire_length. Qed.

Example C75_length_ex :
  (forall k d, length (toy_signature k d) = 64%nat) /\
  lists (signing bob bob_ixs) (must_sign bob bob_ixs) /\ lists (names bob bob_ixs) (is_named bob bob_ixs) /\
  wire toy_before toy_signature admin (Some bob) [bob] bob_ixs = Some bob_packet /\
  packet_length (signing bob bob_ixs) (names bob bob_ixs) bob_ixs = 483%nat /\
  wire toy_before toy_signature admin None [deployer_address] start_ixs = None /\
  packet_length (signing deployer_address start_ixs) (names deployer_address start_ixs) start_ixs = 507%nat.
Proof.
  split; [exact toy_length|]. split; [apply signing_lists|]. split; [apply names_lists|].
  split; [vm_compute; reflexivity|]. split; [vm_compute; reflexivity|]. split; vm_compute; reflexivity.
Qed.

(** Whoever signs, nothing is sent that lacks a needed signature or is signed by a key that it does
    not name. *)
Theorem C75_signers : forall before signature hash fee signers ixs payer d,
  is_payer fee signers payer -> wire before signature hash fee signers ixs = Some d ->
  (forall k, In k signers -> is_named payer ixs k) /\ (forall k, must_sign payer ixs k -> In k signers).
Proof. exact wire_signers. Qed.

Example C75_signers_ex :
  is_payer (Some bob) [bob] bob /\ wire toy_before toy_signature admin (Some bob) [bob] bob_ixs = Some bob_packet /\
  wire toy_before toy_signature admin (Some bob) [bob; alice] bob_ixs = None /\
  wire toy_before toy_signature admin (Some bob) [alice] bob_ixs = None /\
  wire toy_before toy_signature admin (Some bob) [bob; bob_orca] bob_ixs <> None.
Proof.
  split; [now left|]. do 3 (split; [vm_compute; reflexivity|]). vm_compute. discriminate.
Qed.

(** No script's transaction is ever too large or lacks a signature ... *)
Theorem C75_scripts_sent : forall C E l before signature hash fee signers ixs,
  (forall k d, length (signature k d) = 64%nat) ->
  script_transaction C E l fee signers ixs ->
  exists d, wire before signature hash fee signers ixs = Some d.
Proof. exact scripts_sent. Qed.

(** ... and it arrives with at least the privileges the script asked for, provided the written
    accounts are neither reserved nor called programs. *)
Theorem C75_scripts_arrive : forall C E l before signature verify reserved tables hash fee signers ixs payer,
  signs_well signature verify signers ->
  script_transaction C E l fee signers ixs -> is_payer fee signers payer ->
  ~ is_called ixs payer ->
  (forall b m, In b ixs -> In m (b_accounts b) -> m_writable m = true ->
     reserved (m_key m) = false /\ ~ is_called ixs (m_key m)) ->
  exists d got,
    wire before signature hash fee signers ixs = Some d /\
    receive verify reserved tables d = Some got /\
    Forall2 (fun b b' => b_program b' = b_program b /\ b_data b' = b_data b /\
                         delivered (b_accounts b) (b_accounts b')) ixs got.
Proof. exact scripts_arrive. Qed.

Example C75_scripts_ex :
  signs_well toy_signature toy_verify [bob] /\ signs_well toy_signature toy_verify [deployer_address; admin] /\
  script_transaction demo_crypto (demo_env 1300) (shop 5) (Some bob) [bob] bob_ixs /\
  is_payer (Some bob) [bob] bob /\ ~ is_called bob_ixs bob /\
  (forall b m, In b bob_ixs -> In m (b_accounts b) -> m_writable m = true ->
     toy_reserved (m_key m) = false /\ ~ is_called bob_ixs (m_key m)) /\
  script_transaction demo_crypto (demo_env 1000) (shop 1) None [deployer_address; admin] start_ixs /\
  is_payer None [deployer_address; admin] deployer_address /\ ~ is_called start_ixs deployer_address /\
  (forall b m, In b start_ixs -> In m (b_accounts b) -> m_writable m = true ->
     toy_reserved (m_key m) = false /\ ~ is_called start_ixs (m_key m)).
Proof.
  split; [now apply toy_signs_well|]. split; [now apply toy_signs_well|]. split; [exact bob_stake|]. split; [now left|].
  split; [apply not_called; vm_compute; reflexivity|]. split; [apply writes_kept; vm_compute; reflexivity|].
  split; [exact start_transaction|]. split; [right; split; [reflexivity|now exists [admin]]|].
  split; [apply not_called; vm_compute; reflexivity|apply writes_kept; vm_compute; reflexivity].
Qed.

(** An accepted call stays accepted, with the same effects, if accounts come with more
    privileges ... *)
Theorem C75_same_answer : forall C E pid accs accs' l data r,
  delivered accs accs' ->
  process_instruction C E pid accs l data = Ok r -> process_instruction C E pid accs' l data = Ok r.
Proof. exact privileges_keep. Qed.

(** ... so that a script's transaction that works with the accounts as written works
    with the accounts as they arrive. *)
Theorem C75_script_runs : forall C ops ixs got l r,
  instructions_of ops = Some ixs ->
  Forall2 (fun b b' => b_program b' = b_program b /\ b_data b' = b_data b /\
                       delivered (b_accounts b) (b_accounts b')) ixs got ->
  attempt_all C l ops = Ok r -> attempt_all C l (redelivered ops got) = Ok r.
Proof. exact arrived_runs. Qed.

Example C75_script_runs_ex :
  instructions_of (nth 5 shop_txs []) = Some bob_ixs /\
  exists got r, receive toy_verify toy_reserved toy_tables bob_packet = Some got /\
    Forall2 (fun b b' => b_program b' = b_program b /\ b_data b' = b_data b /\
                         delivered (b_accounts b) (b_accounts b')) bob_ixs got /\
    attempt_all demo_crypto (shop 5) (nth 5 shop_txs []) = Ok r /\ fst r = shop 6.
Proof.
  split; [vm_compute; reflexivity|].
  destruct (scripts_arrive demo_crypto (demo_env 1300) (shop 5) toy_before toy_signature toy_verify toy_reserved toy_tables
    admin (Some bob) [bob] bob_ixs bob (toy_signs_well [bob] eq_refl) bob_stake) as (d & got & W & R & F);
    [now left|apply not_called; vm_compute; reflexivity|apply writes_kept; vm_compute; reflexivity|].
  assert (Q : Some d = Some bob_packet) by (rewrite <- W; vm_compute; reflexivity).
  apply some_inj in Q. subst d.
  destruct (shop_runs 5 _ _ _ _ _ eq_refl) as (evs & A). exists got, (shop 6, evs).
  split; [exact R|]. split; [exact F|]. split; [exact A|reflexivity].
Qed.

(** A signer's flag needs a signature of that key over the message that names it ... *)
Theorem C75_signed : forall verify reserved tables d got,
  receive verify reserved tables d = Some got ->
  exists p sigs msg,
    d = p ++ concat sigs ++ msg /\ (length p <= 3)%nat /\ Forall (fun s => length s = 64%nat) sigs /\
    forall b m, In b got -> In m (b_accounts b) -> m_signer m = true ->
      exists s, In s sigs /\ verify (m_key m) msg s = true.
Proof. exact receive_signed. Qed.

(** ... hence no address of the program's can come as a signer in a transaction
    (the hypothesis [honest_metas] of the histories). *)
Theorem C75_honest : forall C verify reserved tables d got b,
  (forall k m s, verify k m s = true -> on_curve C k = true) ->
  receive verify reserved tables d = Some got -> In b got -> honest_metas C (b_accounts b).
Proof. exact receive_honest. Qed.

(** One transaction gives one key the same privileges wherever it occurs. *)
Theorem C75_one_flag_per_key : forall verify reserved tables d got b1 b2 m1 m2,
  receive verify reserved tables d = Some got -> In b1 got -> In b2 got ->
  In m1 (b_accounts b1) -> In m2 (b_accounts b2) -> m_key m1 = m_key m2 -> m1 = m2.
Proof. exact receive_one_flag. Qed.

Example C75_signed_ex :
  exists got b m, receive toy_verify toy_reserved toy_tables bob_packet = Some got /\ In b got /\ In m (b_accounts b) /\
    m_signer m = true /\ m_writable m = true /\ m_key m = bob /\
    (exists b', In b' got /\ b' <> b /\ In m (b_accounts b')).
Proof.
  exists (match receive toy_verify toy_reserved toy_tables bob_packet with Some g => g | None => [] end).
  exists (nth 0 (match receive toy_verify toy_reserved toy_tables bob_packet with Some g => g | None => [] end) (Built bob [] [])).
  exists (Meta bob true true).
  split; [vm_compute; reflexivity|]. split; [apply nth_In; vm_compute; lia|].
  split; [vm_compute; left; reflexivity|]. do 3 (split; [reflexivity|]).
  exists (nth 1 (match receive toy_verify toy_reserved toy_tables bob_packet with Some g => g | None => [] end) (Built bob [] [])).
  split; [apply nth_In; vm_compute; lia|]. split; [|vm_compute; left; reflexivity].
  intros H. apply (f_equal (fun b => length (b_accounts b))) in H. vm_compute in H. discriminate H.
Qed.

(** Exactly these packets are accepted, with a legacy message or one of version 0, and this
    is what they say. *)
Theorem C75_accepted : forall verify reserved tables d got,
  receive verify reserved tables d = Some got <-> accepted verify reserved tables d got.
Proof. exact receive_iff. Qed.
(** Alice's withdrawal as a message of version 0 with one lookup. *)
Example C75_accepted_ex :
  lay_ok toy_tables v0_layout /\ lay_lookups v0_layout <> None /\ (2 < length (lay_loaded_write v0_layout))%nat /\
  v0_packet = counted (fun s => s) [toy_signature alice []] ++ lay_bytes v0_layout /\
  exists got, accepted toy_verify toy_reserved toy_tables v0_packet got /\
    receive toy_verify toy_reserved toy_tables withdraw_packet = Some got.
Proof.
  split; [exact v0_ok|]. split; [discriminate|]. split; [vm_compute; lia|]. split; [vm_compute; reflexivity|].
  exists [withdraw_received]. split; [apply receive_iff; rewrite v0_same|]; exact withdraw_receives.
Qed.

(** The privileges do not arrive exactly as written: the authority that the mint authority
    script lists read-only also pays, and arrives writable. *)
Theorem C75_flags_exact_refuted :
  ~ (forall C E l before signature verify reserved tables hash fee signers ixs d got,
      signs_well signature verify signers -> script_transaction C E l fee signers ixs ->
      wire before signature hash fee signers ixs = Some d -> receive verify reserved tables d = Some got ->
      got = ixs).
Proof. exact flags_change. Qed.

Print Assumptions C75_arrives.
Print Assumptions C75_sent.
Print Assumptions C75_length.
Print Assumptions C75_signers.
Print Assumptions C75_scripts_sent.
Print Assumptions C75_scripts_arrive.
Print Assumptions C75_same_answer.
Print Assumptions C75_script_runs.
Print Assumptions C75_signed.
Print Assumptions C75_honest.
Print Assumptions C75_one_flag_per_key.
Print Assumptions C75_accepted.
Print Assumptions C75_flags_exact_refuted.
