(** A history of packets on the chain, for the Examples of C79. *)
From Verif Require Import LandSpec LandFacts LandScripts BytesFacts LedgerFacts
  Demo DemoMore DemoClient DemoScripts DemoWire DemoExec.
Import List ListNotations.
Open Scope list_scope.
Open Scope Z_scope.

Definition stake_ixs : list built := Eval vm_compute in
  match instructions_of (nth 2 shop_txs []) with Some x => x | None => [] end.
Definition stake_packet : list byte := Eval vm_compute in packet_of (Some alice) [alice] stake_ixs.
(** The mint authority, Initialize, Alice stakes, Bob donates and stakes, Alice unstakes and
    withdraws: too early, then in time; the authority changes the period. *)
Definition chain_packets : list (Z * list byte) := [
  (900, mint_packet); (1000, start_packet); (1100, stake_packet); (1200, deposit_packet); (1300, bob_packet);
  (2000, unstake_packet); (2050, withdraw_packet); (2100, withdraw_packet); (2200, cooldown_packet)].
Definition chain (n : nat) : ledger :=
  fst (lands demo_crypto toy_verify toy_reserved shop0
         (map (fun p => (demo_env (fst p), toy_tables, snd p)) (firstn n chain_packets))).

Definition is_stateb (l : ledger) (k : pubkey) : bool := key_eqb (a_owner (l k)) xorca_id && (st_disc (a_data (l k)) =? 1).
Definition is_recordb (l : ledger) (k : pubkey) : bool := key_eqb (a_owner (l k)) xorca_id && (pw_disc (a_data (l k)) =? 2).
Definition chain_view (l : ledger) : bool * bool * list Z :=
  (is_stateb l demo_state, is_recordb l alice_record,
   [a_lamports (l alice); a_lamports (l bob); a_lamports (l admin); a_lamports (l deployer_address);
    balance l demo_vault; supply l; cooldown l demo_state; balance l alice_orca]).

Fixpoint chain_walk (l : ledger) (ps : list (Z * list byte)) : list (bool * bool * list Z) :=
  chain_view l :: match ps with
                  | [] => []
                  | p :: ps => chain_walk (fst (land demo_crypto (demo_env (fst p)) toy_verify toy_reserved toy_tables l (snd p))) ps
                  end.
Lemma walk_at : forall ps l n v, nth_error (chain_walk l ps) n = Some v ->
  chain_view (fst (lands demo_crypto toy_verify toy_reserved l (map (fun p => (demo_env (fst p), toy_tables, snd p)) (firstn n ps)))) = v.
Proof.
  intros ps. induction ps as [|p ps IH]; intros l n v H.
  - destruct n as [|n]; [now apply some_inj in H|]. destruct n; discriminate H.
  - destruct n as [|n]; [now apply some_inj in H|]. cbn [firstn map lands fst]. apply IH. exact H.
Qed.
Definition chain_views : list (bool * bool * list Z) := Eval vm_compute in chain_walk shop0 chain_packets.
Lemma chain_seen n v : nth_error chain_views n = Some v -> chain_view (chain n) = v.
Proof.
  intros H. apply walk_at. rewrite <- H.
  assert (Q : chain_walk shop0 chain_packets = chain_views) by (vm_cast_no_check (eq_refl chain_views)).
  now rewrite Q.
Qed.
Lemma lands_snoc C verify reserved E tables d : forall ds l,
  fst (lands C verify reserved l (ds ++ [(E, tables, d)])) =
  fst (land C E verify reserved tables (fst (lands C verify reserved l ds)) d).
Proof. intros ds. induction ds as [|[[E' t'] d'] ds IH]; intros l; [reflexivity|]. cbn [app lands fst]. apply IH. Qed.
Lemma firstn_next {A} (x : A) : forall xs n, nth_error xs n = Some x -> firstn (S n) xs = firstn n xs ++ [x].
Proof.
  intros xs. induction xs as [|y xs IH]; intros [|n] H; try discriminate H.
  - apply some_inj in H. now subst y.
  - cbn [firstn app]. f_equal. now apply IH.
Qed.
Lemma chain_step n t d : nth_error chain_packets n = Some (t, d) ->
  chain (S n) = fst (land demo_crypto (demo_env t) toy_verify toy_reserved toy_tables (chain n) d).
Proof. intros H. unfold chain. rewrite <- lands_snoc, (firstn_next _ _ _ H), map_app. reflexivity. Qed.
Lemma demo_time t : (0 <=? t) && (t <=? 10000) = true -> sysvars_ok (demo_env t).
Proof. intros H. apply andb_true_iff in H. destruct H as [A B]. apply Z.leb_le in A, B. apply demo_sysvars. unfold is_i64, i64_min, i64_max. lia. Qed.
Lemma chain0 : chain 0 = shop 0.
Proof. reflexivity. Qed.
Lemma chain_reaches n : reaches demo_crypto (chain n).
Proof.
  apply lands_reach; [exact demo_ordinary|exact toy_curve_only|exact demo_ata_apart| |exact (shop_reaches 0)].
  apply Forall_forall. intros p I. apply in_map_iff in I. destruct I as (q & <- & I). cbn [fst].
  assert (J : In q chain_packets) by (rewrite <- (firstn_skipn n chain_packets); apply in_or_app; now left).
  apply demo_time. unfold chain_packets in J. cbn [In] in J.
  repeat (destruct J as [<-|J]; [reflexivity|]). destruct J.
Qed.

(** What a stage shows. *)
Lemma stateb_is l k : is_stateb l k = true -> is_state l k.
Proof. intros H. apply andb_true_iff in H. destruct H as [A B]. split; [now apply key_eqb_true|now apply Z.eqb_eq]. Qed.
Lemma recordb_is l k : is_recordb l k = true <-> is_record l k.
Proof. unfold is_recordb, is_record. now rewrite andb_true_iff, key_eqb_true, Z.eqb_eq. Qed.
Lemma seen_state n zs r : nth_error chain_views n = Some (true, r, zs) -> is_state (chain n) demo_state.
Proof. intros H. apply chain_seen in H. apply stateb_is. exact (f_equal (fun v => fst (fst v)) H). Qed.
Lemma seen_record n zs s : nth_error chain_views n = Some (s, true, zs) -> is_record (chain n) alice_record.
Proof. intros H. apply chain_seen in H. apply recordb_is. exact (f_equal (fun v => snd (fst v)) H). Qed.
Lemma seen_no_record n zs s : nth_error chain_views n = Some (s, false, zs) -> ~ is_record (chain n) alice_record.
Proof. intros H K. apply chain_seen in H. apply recordb_is in K. apply (f_equal (fun v => snd (fst v))) in H. cbn in H. congruence. Qed.
Lemma view_is l s r a b c d v su co ao : chain_view l = (s, r, [a; b; c; d; v; su; co; ao]) ->
  (a_lamports (l alice) = a /\ a_lamports (l bob) = b /\ a_lamports (l admin) = c /\ a_lamports (l deployer_address) = d) /\
  balance l demo_vault = v /\ supply l = su /\ cooldown l demo_state = co /\ balance l alice_orca = ao.
Proof. unfold chain_view. intros H. injection H. intros. repeat split; assumption. Qed.
Lemma seen n s r a b c d v su co ao : nth_error chain_views n = Some (s, r, [a; b; c; d; v; su; co; ao]) ->
  (a_lamports (chain n alice) = a /\ a_lamports (chain n bob) = b /\ a_lamports (chain n admin) = c /\
   a_lamports (chain n deployer_address) = d) /\
  balance (chain n) demo_vault = v /\ supply (chain n) = su /\ cooldown (chain n) demo_state = co /\ balance (chain n) alice_orca = ao.
Proof. intros H. apply chain_seen in H. exact (view_is _ _ _ _ _ _ _ _ _ _ _ H). Qed.
Opaque chain.
Ltac chain_see n :=
  let H := fresh in pose proof (seen n _ _ _ _ _ _ _ _ _ _ eq_refl) as H;
  let H1 := fresh in let H2 := fresh in destruct H as [H1 H2];
  match goal with
  | |- a_lamports (_ alice) = _ => exact (proj1 H1)
  | |- a_lamports (_ bob) = _ => exact (proj1 (proj2 H1))
  | |- a_lamports (_ admin) = _ => exact (proj1 (proj2 (proj2 H1)))
  | |- a_lamports (_ deployer_address) = _ => exact (proj2 (proj2 (proj2 H1)))
  | |- balance _ demo_vault = _ => exact (proj1 H2)
  | |- supply _ = _ => exact (proj1 (proj2 H2))
  | |- cooldown _ _ = _ => exact (proj1 (proj2 (proj2 H2)))
  | |- balance _ alice_orca = _ => exact (proj2 (proj2 (proj2 H2)))
  end.

Lemma packet_layout d got payer n :
  receive toy_verify toy_reserved toy_tables d = Some got -> fee_parts d = Some (payer, n) ->
  exists y rest, says toy_verify toy_tables d y /\ lay_signers y = payer :: rest /\ fee_of y = 5000 * Z.of_nat n.
Proof.
  intros R F. destruct (receive_says _ _ _ _ _ R) as (y & S). destruct (says_fee _ _ _ _ S) as (payer' & rest & Q & F').
  rewrite F in F'. assert (payer' = payer) by congruence. subst payer'.
  assert (L : length (lay_signers y) = n) by congruence.
  exists y, rest. split; [exact S|]. split; [exact Q|]. unfold fee_of. now rewrite L.
Qed.
(** 1000 lamports for an address that has none. *)
Definition dust_packet : list byte := Eval vm_compute in
  packet_of (Some alice) [alice] [Built system_id [ws alice; w_ demo_vault] (le_enc 4 2 ++ le_enc 8 1000)].
Definition dust_received : list built := Eval vm_compute in
  match receive toy_verify toy_reserved toy_tables dust_packet with Some g => g | None => [] end.
Lemma dust_receives : receive toy_verify toy_reserved toy_tables dust_packet = Some dust_received.
Proof. vm_compute. reflexivity. Qed.
Lemma dust_fails :
  a_lamports (fst (packet demo_crypto (demo_env 0) toy_verify toy_reserved toy_tables (paid shop0 alice 5000) dust_packet) demo_vault) = 1000 /\
  ~ all_pass (demo_env 0) (paid shop0 alice 5000)
      (fst (packet demo_crypto (demo_env 0) toy_verify toy_reserved toy_tables (paid shop0 alice 5000) dust_packet)).
Proof.
  split; [vm_compute; reflexivity|]. intros H. specialize (H demo_vault).
  assert (N : demo_vault <> incinerator_id) by (intros Q; apply (f_equal key_bytes) in Q; vm_compute in Q; discriminate Q).
  specialize (H N). vm_compute in H. discriminate H.
Qed.
Lemma withdraw_lands : exists y rest, says toy_verify toy_tables withdraw_packet y /\ lay_signers y = alice :: rest /\
  fee_of y = 5000 /\ can_pay (demo_env 2100) (chain 7) alice 5000 /\
  all_pass (demo_env 2100) (paid (chain 7) alice 5000)
    (fst (packet demo_crypto (demo_env 2100) toy_verify toy_reserved toy_tables (paid (chain 7) alice 5000) withdraw_packet)) /\
  chain 8 = fst (packet demo_crypto (demo_env 2100) toy_verify toy_reserved toy_tables (paid (chain 7) alice 5000) withdraw_packet).
Proof.
  assert (A : balance (chain 7) demo_vault = 15000000) by (exact (proj1 (proj2 (seen 7 _ _ _ _ _ _ _ _ _ _ eq_refl)))).
  assert (B : balance (chain 8) demo_vault = 13800004) by (exact (proj1 (proj2 (seen 8 _ _ _ _ _ _ _ _ _ _ eq_refl)))).
  pose proof (chain_step 7 2100 withdraw_packet eq_refl) as Q.
  destruct (land_cases demo_crypto (demo_env 2100) toy_verify toy_reserved toy_tables (chain 7) withdraw_packet)
    as [H|(y & payer & rest & S & G & P & _ & H)].
  - rewrite H in Q. cbn [fst] in Q. rewrite Q in B. lia.
  - destruct (says_fee _ _ _ _ S) as (payer' & rest' & G' & F).
    assert (F' : fee_parts withdraw_packet = Some (alice, 1%nat)) by (vm_compute; reflexivity).
    rewrite F' in F. assert (payer = alice) by congruence. subst payer.
    assert (L : length (lay_signers y) = 1%nat) by congruence.
    assert (Fe : fee_of y = 5000) by (unfold fee_of; rewrite L; reflexivity).
    exists y, rest. rewrite Fe in *. cbv zeta in H. destruct H as [[H K]|H].
    + rewrite H in Q. split; [exact S|]. split; [exact G|]. split; [reflexivity|]. split; [exact P|]. split; [exact K|exact Q].
    + exfalso. rewrite H in Q. cbn [fst] in Q. rewrite Q in B. unfold balance in *. rewrite paid_data in B. lia.
Qed.
Lemma chain1_no_state k : ~ is_state (chain 1) k.
Proof.
  intros H. apply (not_carried mint_packet deployer_address); [vm_compute; reflexivity|].
  apply (land_birth demo_crypto (demo_env 900) toy_verify toy_reserved toy_tables (shop 0) mint_packet demo_ordinary toy_curve_only demo_ata_apart).
  - now apply demo_time.
  - apply shop_reaches.
  - exact shop_no_state.
  - exists k. rewrite <- chain0, <- (chain_step 0 900 mint_packet eq_refl). exact H.
Qed.
