(** Transactions of the scripts on the wire.  For the Examples about the wire. *)
From Verif Require Import WireSpec WireKeys WireFacts WireScripts BytesFacts Demo DemoClient DemoScripts.
Import List ListNotations.
Open Scope list_scope.
Open Scope Z_scope.

(** A toy signature: the key, twice; for keys on the curve. *)
Definition toy_signature (k : pubkey) (m : list byte) : list byte := key_bytes k ++ key_bytes k.
Definition toy_verify (k : pubkey) (m s : list byte) : bool :=
  on_curve demo_crypto k && bytes_eqb s (key_bytes k ++ key_bytes k).
Definition toy_before (a b : pubkey) : bool := false.
Definition toy_reserved (k : pubkey) : bool := key_eqb k system_id || key_eqb k token_id.
(** One lookup table, at the admin's address. *)
Definition toy_table : list pubkey := Eval vm_compute in
  match instructions_of (nth 7 shop_txs []) with
  | Some (b :: _) => map m_key (filter (fun m => negb (m_signer m)) (b_accounts b))
  | _ => []
  end.
Definition toy_tables (k : pubkey) : list pubkey := if key_eqb k admin then toy_table else [].

(** Bob's first stake, which opens an xORCA account; the initialization; and the change
    of the mint's authority. *)
Definition bob_ixs : list built := Eval vm_compute in
  match instructions_of (nth 5 shop_txs []) with Some b => b | None => [] end.
Definition start_ixs : list built := Eval vm_compute in
  match instructions_of (nth 1 shop_txs []) with Some b => b | None => [] end.
Definition mint_ixs : list built := Eval vm_compute in
  match instructions_of (nth 0 shop_txs []) with Some b => b | None => [] end.
Definition packet_of (fee : option pubkey) (signers : list pubkey) (ixs : list built) : list byte :=
  match wire toy_before toy_signature admin fee signers ixs with Some d => d | None => [] end.
Definition bob_packet : list byte := Eval vm_compute in packet_of (Some bob) [bob] bob_ixs.
Definition start_packet : list byte := Eval vm_compute in packet_of None [deployer_address; admin] start_ixs.
Definition mint_packet : list byte := Eval vm_compute in packet_of (Some admin) [admin] mint_ixs.

Lemma toy_signs_well signers :
  forallb (on_curve demo_crypto) signers = true -> signs_well toy_signature toy_verify signers.
Proof.
  intros H k m. unfold toy_signature, toy_verify. split; [rewrite app_length, !key_bytes_length; reflexivity|].
  intros I. rewrite forallb_forall in H. rewrite (H k I). cbn [andb]. now apply bytes_eqb_true.
Qed.
Lemma toy_length k m : length (toy_signature k m) = 64%nat.
Proof. unfold toy_signature. now rewrite app_length, !key_bytes_length. Qed.

Lemma bob_stakes l n : stake_script demo_crypto (demo_env 1300) l bob n = Some (nth 5 shop_txs []) ->
  script_transaction demo_crypto (demo_env 1300) l (Some bob) [bob] bob_ixs.
Proof. intros H. eapply TxStake; [exact H|vm_compute; reflexivity]. Qed.
Lemma bob_stake : script_transaction demo_crypto (demo_env 1300) (shop 5) (Some bob) [bob] bob_ixs.
Proof. apply (bob_stakes _ 9000000). shop_asks 5%nat 0%nat. Qed.
Lemma start_transaction :
  script_transaction demo_crypto (demo_env 1000) (shop 1) None [deployer_address; admin] start_ixs.
Proof. eapply TxInitialize; [shop_asks 1%nat 0%nat|vm_compute; reflexivity]. Qed.
Lemma mint_transaction :
  script_transaction demo_crypto (demo_env 900) (shop 0) (Some admin) [admin] mint_ixs.
Proof. eapply TxMintAuthority; [shop_asks 0%nat 0%nat|vm_compute; reflexivity]. Qed.

Definition is_calledb (ixs : list built) (k : pubkey) : bool := existsb (fun b => key_eqb (b_program b) k) ixs.
Lemma not_called ixs k : is_calledb ixs k = false -> ~ is_called ixs k.
Proof.
  intros H (b & I & Q). enough (is_calledb ixs k = true) by congruence.
  unfold is_calledb. rewrite existsb_exists. exists b. split; [exact I|]. now apply key_eqb_true.
Qed.
Lemma writes_kept reserved ixs :
  forallb (fun b => forallb (fun m => negb (m_writable m) ||
    negb (reserved (m_key m)) && negb (is_calledb ixs (m_key m))) (b_accounts b)) ixs = true ->
  forall b m, In b ixs -> In m (b_accounts b) -> m_writable m = true ->
    reserved (m_key m) = false /\ ~ is_called ixs (m_key m).
Proof.
  intros H b m Ib Im W. rewrite forallb_forall in H. specialize (H b Ib).
  rewrite forallb_forall in H. specialize (H m Im). rewrite W in H. cbn [negb orb] in H.
  apply andb_prop in H. destruct H as [H1 H2]. split; [destruct (reserved (m_key m)); [discriminate|reflexivity]|].
  apply not_called. destruct (is_calledb ixs (m_key m)); [discriminate|reflexivity].
Qed.

(** The keys of a transaction, as [lists] wants them. *)
Definition names (payer : pubkey) (ixs : list built) : list pubkey := map m_key (key_list toy_before payer ixs).
Definition signing (payer : pubkey) (ixs : list built) : list pubkey :=
  map m_key (filter m_signer (key_list toy_before payer ixs)).
Lemma names_lists payer ixs : lists (names payer ixs) (is_named payer ixs).
Proof. destruct (key_list_ok toy_before payer ixs) as (N & _ & K & _). split; [exact N|exact K]. Qed.
Lemma signing_lists payer ixs : lists (signing payer ixs) (must_sign payer ixs).
Proof.
  destruct (key_list_ok toy_before payer ixs) as (N & _ & K & F). split; [now apply filter_map_nodup|].
  intros k. unfold signing. split.
  - intros I. apply in_map_iff in I. destruct I as (m & <- & I). apply filter_In in I. now apply F.
  - intros M. assert (I : In k (map m_key (key_list toy_before payer ixs))).
    { apply K. destruct M as [->|(b & m & Ib & Im & Q & _)]; [now left|right; right; eauto]. }
    apply in_map_iff in I. destruct I as (m & <- & I). apply in_map, filter_In. split; [exact I|]. now apply F.
Qed.

(** The mint's authority is written read-only by the script and arrives writable. *)
Lemma flags_change :
  ~ (forall C E l before signature verify reserved tables hash fee signers ixs d got,
      signs_well signature verify signers -> script_transaction C E l fee signers ixs ->
      wire before signature hash fee signers ixs = Some d -> receive verify reserved tables d = Some got ->
      got = ixs).
Proof.
  intros H.
  assert (W : wire toy_before toy_signature admin (Some admin) [admin] mint_ixs = Some mint_packet)
    by (vm_compute; reflexivity).
  destruct (receive toy_verify toy_reserved toy_tables mint_packet) as [got|] eqn:R; [|vm_compute in R; discriminate R].
  assert (Q : got = mint_ixs) by (eapply H; [exact (toy_signs_well [admin] eq_refl)|exact mint_transaction|exact W|exact R]).
  subst got.
  apply (f_equal (option_map (map (fun b => map m_writable (b_accounts b))))) in R.
  vm_compute in R. discriminate R.
Qed.
