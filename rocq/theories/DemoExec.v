(** Packets of the scripts, executed.  For the Examples about executed packets. *)
From Verif Require Import ExecSpec WireSpec WireFacts WireScripts BytesFacts AddressFacts AssertFacts GuardFacts ExactFacts
  PacketFacts PacketBirth ScriptExec WireRuntime AcceptSpec AcceptFacts ExecWrites Demo DemoMore DemoClient DemoScripts DemoWire.
Import List ListNotations.
Open Scope list_scope.
Open Scope Z_scope.

Lemma toy_curve_only : curve_only demo_crypto toy_verify.
Proof. intros k m s H. unfold toy_verify in H. now apply andb_prop in H. Qed.
Lemma demo_ata_mark w m k : is_ata demo_crypto w m k -> nth 31 (key_bytes k) x01 = x01.
Proof.
  intros (b & H). apply find_create in H. unfold create_program_address in H.
  destruct (seeds_ok _); [|discriminate]. cbv zeta in H. destruct (on_curve _ _); [discriminate|].
  apply some_inj in H. subst k. cbn [sha256 demo_crypto]. unfold demo_sha. set (seeds := [key_bytes w; key_bytes token_id; key_bytes m] ++ [[b]]).
  assert (D : derived_by (pda_preimage seeds ata_id) = ata_id).
  { unfold derived_by, pda_preimage. rewrite !app_length, key_bytes_length.
    replace (length pda_marker) with 21%nat by reflexivity.
    replace (length (concat seeds) + (32 + 21) - 53)%nat with (length (concat seeds)) by lia.
    rewrite skipn_app, skipn_all, Nat.sub_diag. cbn [app skipn].
    rewrite firstn_app, key_bytes_length, Nat.sub_diag, firstn_O, app_nil_r.
    rewrite <- (key_bytes_length ata_id), firstn_all. apply key_of_bytes. }
  rewrite D. replace (key_eqb ata_id xorca_id) with false by (vm_compute; reflexivity).
  assert (L : length (firstn 31 (key_bytes (sha256 real_crypto (pda_preimage seeds ata_id)))) = 31%nat)
    by (rewrite firstn_length, key_bytes_length; reflexivity).
  rewrite key_bytes_key_of by (rewrite app_length, L; reflexivity).
  now rewrite app_nth2, L by (rewrite L; lia).
Qed.
Lemma demo_ata_apart : ata_apart demo_crypto.
Proof. intros w m k H. apply marked_not_pda. eapply demo_ata_mark. exact H. Qed.

(** ** Whose signature a packet carries *)
Definition carriesb (d : list byte) (k : pubkey) : bool :=
  existsb (fun c => existsb (fun j => bytes_eqb (firstn 64 (skipn (c + 64 * j) d)) (key_bytes k ++ key_bytes k))
    (seq 0 (length d))) (seq 0 4).
Lemma concat_at (sigs : list (list byte)) s rest :
  Forall (fun s => length s = 64%nat) sigs -> In s sigs ->
  exists j, (64 * j < length (concat sigs))%nat /\ firstn 64 (skipn (64 * j) (concat sigs ++ rest)) = s.
Proof.
  induction 1 as [|s' sigs L F IH]; [intros []|]. intros [->|I].
  - exists 0%nat. change (64 * 0)%nat with 0%nat. cbn [concat]. rewrite app_length, L. split; [lia|]. rewrite skipn_O.
    rewrite <- app_assoc, firstn_app, L, Nat.sub_diag, firstn_O, app_nil_r, <- L. apply firstn_all.
  - destruct (IH I) as (j & B & Q). exists (S j). cbn [concat]. rewrite app_length, L. split; [lia|].
    rewrite <- app_assoc. replace (64 * S j)%nat with (length s' + 64 * j)%nat by lia.
    rewrite skipn_app, skipn_all2 by lia. replace (length s' + 64 * j - length s')%nat with (64 * j)%nat by lia. exact Q.
Qed.
Lemma not_carried d k : carriesb d k = false -> ~ carries toy_verify d k.
Proof.
  intros H (count & sigs & msg & s & -> & Lc & F & I & V). enough (carriesb (count ++ concat sigs ++ msg) k = true) by congruence.
  destruct (concat_at sigs s msg F I) as (j & B & Q). unfold toy_verify in V. apply andb_prop in V. destruct V as [_ V].
  unfold carriesb. rewrite existsb_exists. exists (length count). split; [apply in_seq; lia|].
  rewrite existsb_exists. exists j. split; [apply in_seq; rewrite !app_length; lia|].
  rewrite skipn_app, skipn_all2 by lia. replace (length count + 64 * j - length count)%nat with (64 * j)%nat by lia.
  cbn [app]. rewrite Q. exact V.
Qed.

(** ** The scripts' packets *)
Definition unstake_ixs : list built := Eval vm_compute in
  match instructions_of (nth 6 shop_txs []) with Some b => b | None => [] end.
Definition withdraw_ixs : list built := Eval vm_compute in
  match instructions_of (nth 7 shop_txs []) with Some b => b | None => [] end.
Definition transfer_ixs : list built := Eval vm_compute in
  match instructions_of (nth 8 shop_txs []) with Some b => b | None => [] end.
Definition deposit_ixs : list built := Eval vm_compute in
  match instructions_of (nth 4 shop_txs []) with Some b => b | None => [] end.
Definition unstake_packet : list byte := Eval vm_compute in packet_of (Some alice) [alice] unstake_ixs.
Definition withdraw_packet : list byte := Eval vm_compute in packet_of (Some alice) [alice] withdraw_ixs.
Definition transfer_packet : list byte := Eval vm_compute in packet_of (Some alice) [alice] transfer_ixs.
Definition deposit_packet : list byte := Eval vm_compute in packet_of (Some bob) [bob] deposit_ixs.
Definition cooldown_packet : list byte := Eval vm_compute in packet_of (Some admin) [admin] [admin_cooldown].

(** Alice's withdrawal once more, as a message of version 0 whose other accounts come from
    the lookup table. *)
Definition places (want : meta -> bool) : list nat :=
  match withdraw_ixs with
  | b :: _ => map (index_of toy_table) (map m_key (filter (fun m => negb (m_signer m) && want m) (b_accounts b)))
  | [] => []
  end.
Definition v0_layout : layout := Eval vm_compute in
  let w := places m_writable in let r := places (fun m => negb (m_writable m)) in
  let at_ is := map (fun i => nth i toy_table zero_key) is in
  let all := [alice; xorca_id] ++ at_ w ++ at_ r in
  Layout (Some [Lookup admin w r]) [alice] [] [] [xorca_id] admin
    (map (fun b => (1%nat, map (fun m => index_of all (m_key m)) (b_accounts b), b_data b)) withdraw_ixs)
    (at_ w) (at_ r).
Definition v0_packet : list byte := Eval vm_compute in
  counted (fun s => s) [toy_signature alice []] ++ lay_bytes v0_layout.
Lemma v0_same : receive toy_verify toy_reserved toy_tables v0_packet = receive toy_verify toy_reserved toy_tables withdraw_packet.
Proof. vm_compute. reflexivity. Qed.
Lemma v0_differs : v0_packet <> withdraw_packet /\ (length v0_packet < length withdraw_packet)%nat.
Proof. split; [intros Q; apply (f_equal (@length byte)) in Q; vm_compute in Q; discriminate Q|vm_compute; lia]. Qed.

Lemma v0_ok : lay_ok toy_tables v0_layout.
Proof.
  split; [discriminate|]. split; [apply distinct_iff; vm_compute; reflexivity|]. split; [apply Nat.leb_le; vm_compute; reflexivity|].
  split; [apply calls_in_iff; vm_compute; reflexivity|].
  split; [|split; (eexists [_]; split; [|constructor; [apply find_keys_iff; vm_compute; reflexivity|constructor]]; reflexivity)].
  constructor; [|constructor]. split; [discriminate|]. repeat constructor; cbn; lia.
Qed.
Lemma v0_signed_ok : Forall2 (fun k s => length s = 64%nat /\ toy_verify k (lay_bytes v0_layout) s = true)
  (lay_signers v0_layout) [toy_signature alice []].
Proof. constructor; [|constructor]. split; vm_compute; reflexivity. Qed.

Definition runs_packet (t : Z) (l : ledger) (d : list byte) : outcome :=
  packet demo_crypto (demo_env t) toy_verify toy_reserved toy_tables l d.

Lemma no_ata l ops : forallb (fun o => match o with OpAta _ _ _ _ _ _ => false | _ => true end) ops = true -> creates_new l ops.
Proof.
  intros H E sgs payer ata w m I. rewrite forallb_forall in H. specialize (H _ I). discriminate H.
Qed.
Lemma bob_creates : creates_new (shop 5) (nth 5 shop_txs []).
Proof.
  intros E sgs payer ata w m [H|[H|[]]]; [|discriminate H]. injection H as <- <- <- <- <- <-.
  assert (W : wallet (shop 5) bob_xorca) by (shop_has 5%nat). exact (proj1 W).
Qed.
Lemma alice_creates : creates_new (shop 8) (nth 8 shop_txs []).
Proof.
  intros E sgs payer ata w m [H|[H|[]]]; [|discriminate H]. injection H as <- <- <- <- <- <-.
  assert (W : wallet (shop 8) admin_orca) by (shop_has 8%nat). exact (proj1 W).
Qed.

Lemma toy_packet t l l1 fee signers ops ixs payer r d :
  forallb (on_curve demo_crypto) signers = true ->
  script_sends demo_crypto (demo_env t) l fee signers ops -> is_payer fee signers payer ->
  instructions_of ops = Some ixs -> is_calledb ixs payer = false ->
  forallb (fun b => forallb (fun m => negb (m_writable m) ||
    negb (toy_reserved (m_key m)) && negb (is_calledb ixs (m_key m))) (b_accounts b)) ixs = true ->
  creates_new l1 ops -> attempt_all demo_crypto l1 ops = Ok r ->
  wire toy_before toy_signature admin fee signers ixs = Some d -> runs_packet t l1 d = r.
Proof.
  intros S H P I NC W CN A Q.
  destruct (script_packet demo_crypto (demo_env t) l l1 toy_before toy_signature toy_verify toy_reserved toy_tables admin
    fee signers ops ixs payer r (toy_signs_well _ S) H P I (not_called _ _ NC) (writes_kept _ _ W) CN A) as (d' & Q' & X).
  unfold runs_packet. congruence.
Qed.

Ltac shop_packet n sends payer create :=
  let evs := fresh "evs" in let A := fresh in
  destruct (shop_runs n _ _ _ _ _ eq_refl) as (evs & A); exists evs;
  eapply (toy_packet _ (shop n) (shop n) _ _ (nth n shop_txs []) _ payer);
  [|sends; shop_asks n 0%nat
  |first [left; reflexivity|right; split; [reflexivity|eexists; reflexivity]]|vm_compute; reflexivity|vm_compute; reflexivity
  |vm_compute; reflexivity|create|exact A|vm_compute; reflexivity]; vm_compute; reflexivity.
Ltac plain := apply no_ata; vm_compute; reflexivity.

Lemma mint_arrives : exists evs, runs_packet 900 (shop 0) mint_packet = (shop 1, evs).
Proof. shop_packet 0%nat ltac:(eapply SendsMintAuthority) admin ltac:(plain). Qed.
Lemma start_arrives : exists evs, runs_packet 1000 (shop 1) start_packet = (shop 2, evs).
Proof. shop_packet 1%nat ltac:(eapply SendsInitialize) deployer_address ltac:(plain). Qed.
Lemma deposit_arrives : exists evs, runs_packet 1200 (shop 4) deposit_packet = (shop 5, evs).
Proof. shop_packet 4%nat ltac:(eapply SendsDeposit) bob ltac:(plain). Qed.
Lemma bob_arrives : exists evs, runs_packet 1300 (shop 5) bob_packet = (shop 6, evs).
Proof. shop_packet 5%nat ltac:(eapply SendsStake) bob ltac:(exact bob_creates). Qed.
Lemma unstake_arrives : exists evs, runs_packet 2000 (shop 6) unstake_packet = (shop 7, evs).
Proof. shop_packet 6%nat ltac:(eapply SendsUnstake) alice ltac:(plain). Qed.
Lemma withdraw_arrives : exists evs, runs_packet 2100 (shop 7) withdraw_packet = (shop 8, evs).
Proof. shop_packet 7%nat ltac:(eapply SendsWithdraw) alice ltac:(plain). Qed.
Lemma v0_arrives : exists evs, runs_packet 2100 (shop 7) v0_packet = (shop 8, evs).
Proof. destruct withdraw_arrives as (evs & H). exists evs. rewrite <- H. unfold runs_packet, packet. now rewrite v0_same. Qed.
Lemma transfer_arrives : exists evs, runs_packet 2150 (shop 8) transfer_packet = (shop 9, evs).
Proof. shop_packet 8%nat ltac:(eapply SendsTransfer) alice ltac:(exact alice_creates). Qed.

(** Nobody but the deployer creates the state. *)
Lemma shop1_no_state k : ~ is_state (shop 1) k.
Proof.
  intros H. destruct mint_arrives as (evs & M).
  apply (not_carried mint_packet deployer_address); [vm_compute; reflexivity|].
  apply (packet_birth demo_crypto (demo_env 900) toy_verify toy_reserved toy_tables (shop 0) mint_packet demo_ordinary toy_curve_only demo_ata_apart).
  - apply demo_sysvars. unfold is_i64, i64_min, i64_max. lia.
  - apply shop_reaches.
  - exact shop_no_state.
  - exists k. unfold runs_packet in M. rewrite M. exact H.
Qed.

(** The update authority changes the period. *)
Lemma cooldown_arrives : exists l' evs, runs_packet 1300 (shop 5) cooldown_packet = (l', evs) /\
  cooldown (shop 5) demo_state = 100 /\ cooldown l' demo_state = 50.
Proof.
  assert (S : is_state (shop 5) demo_state) by (shop_see 5%nat).
  assert (A : authority (shop 5) demo_state = admin) by (shop_see 5%nat).
  assert (En : encodes (b_data admin_cooldown) (Set_ (UpdateCoolDownPeriod 50))).
  { split; [cbn; unfold is_i64, i64_min, i64_max; lia|eexists; symmetry; apply app_nil_r]. }
  assert (K : is_ok (process_instruction demo_crypto (demo_env 1300) xorca_id (set_accs admin) (shop 5) (b_data admin_cooldown)) = true).
  { eapply (set_available demo_crypto _ _ demo_state); [exact demo_ordinary|apply shop_reaches|exact S|exact En|cbn; lia|].
    rewrite A. demo_fills. }
  destruct (process_instruction _ _ _ _ _ _) as [[l' evs]|] eqn:X; [|discriminate K]. clear K.
  exists l', evs. split; [|split; [shop_see 5%nat|]].
  - eapply (toy_packet 1300 (shop 5) (shop 5) (Some admin) [admin] [send (demo_env 1300) admin_cooldown] [admin_cooldown] admin).
    + vm_compute; reflexivity.
    + eapply SendsCooldown. exact admin_cooldown_built.
    + now left.
    + reflexivity.
    + vm_compute; reflexivity.
    + vm_compute; reflexivity.
    + apply no_ata. reflexivity.
    + cbn [attempt_all attempt send]. change (b_accounts admin_cooldown) with (set_accs admin). rewrite X. cbn. now rewrite app_nil_r.
    + vm_compute; reflexivity.
  - destruct (set_exact_at _ _ _ _ _ _ _ _ En X) as (sk & (m & M & Q) & _ & _ & _ & _ & _ & _ & R & _).
    cbn in M. apply some_inj in M. subst m. cbn in Q. subst sk. exact R.
Qed.

(** What arrives. *)
Definition bob_received : list built := Eval vm_compute in
  match receive toy_verify toy_reserved toy_tables bob_packet with Some g => g | None => [] end.
Lemma bob_receives : receive toy_verify toy_reserved toy_tables bob_packet = Some bob_received.
Proof. vm_compute. reflexivity. Qed.
Definition withdraw_received : built := Eval vm_compute in
  match receive toy_verify toy_reserved toy_tables withdraw_packet with Some [b] => b | _ => Built bob [] [] end.
Lemma withdraw_receives : receive toy_verify toy_reserved toy_tables withdraw_packet = Some [withdraw_received].
Proof. vm_compute. reflexivity. Qed.
Lemma early_refused :
  is_ok (process_instruction demo_crypto (demo_env 2050) xorca_id (b_accounts withdraw_received) (shop 7) (b_data withdraw_received)) = false.
Proof.
  destruct (process_instruction _ _ _ _ _ _) as [[l' evs]|] eqn:X; [|reflexivity]. exfalso.
  assert (En : encodes (b_data withdraw_received) (Withdraw 0)).
  { split; [cbn; unfold is_u8; lia|]. exists []. vm_compute. reflexivity. }
  assert (Hm : honest_metas demo_crypto (b_accounts withdraw_received)).
  { eapply (receive_honest demo_crypto toy_verify toy_reserved toy_tables withdraw_packet);
      [exact toy_curve_only|exact withdraw_receives|now left]. }
  destruct (withdraw_exact_at _ _ _ _ _ _ _ _ Hm En X) as
    (un & sk & k & uo & vk & _ & _ & (m & M & Q) & _ & _ & _ & _ & _ & _ & T & _).
  vm_compute in M. apply some_inj in M. subst m. cbn [m_key] in Q.
  assert (Q' : k = alice_record) by (rewrite <- Q; vm_compute; reflexivity). clear Q. subst k.
  assert (R : rec_time (shop 7) alice_record = 2100) by (shop_see 7%nat). rewrite R in T.
  change (now (demo_env 2050)) with 2050 in T. lia.
Qed.
