(** Others send packets while Alice waits, for the Examples of C81. *)
From Verif Require Import WaitSpec LandFacts BytesFacts LedgerFacts
  Demo DemoMore DemoClient DemoScripts DemoWire DemoExec DemoLand DemoLive.
Import List ListNotations.
Open Scope list_scope.
Open Scope Z_scope.

(** Bob donates and stakes while Alice holds xORCA (after stage 4 of the shop) ... *)
Definition bob_acts (E : Z -> env) : traffic :=
  [(E 1200, toy_tables, deposit_packet); (E 1300, toy_tables, bob_packet)].
Definition away : ledger := fst (lands demo_crypto toy_verify toy_reserved (shop 4) (bob_acts demo_env)).
(** ... and while Alice has a record, Bob tries again, and the authority shortens the period. *)
Definition they_act (E : Z -> env) : traffic :=
  [(E 2060, toy_tables, deposit_packet); (E 2070, toy_tables, bob_packet); (E 2080, toy_tables, cooldown_packet)].
Definition late : ledger := fst (lands demo_crypto toy_verify toy_reserved (shop 7) (they_act demo_env)).

Definition wait_flags (l : ledger) : list bool :=
  [is_recordb l alice_record; walletb l alice; usableb l alice_xorca xorca_mint_id alice; usableb l alice_orca orca_mint_id alice;
   usableb l demo_vault orca_mint_id demo_state].
Definition wait_numbers (l : ledger) : list Z :=
  [a_lamports (l alice); a_lamports (l alice_record); balance l demo_vault; supply l; escrow l demo_state; cooldown l demo_state;
   balance l alice_xorca; balance l alice_orca; ta_close_flag (a_data (l alice_xorca)); ta_close_flag (a_data (l alice_orca))].
Definition wait_all (l : ledger) : list bool * list Z := (wait_flags l, wait_numbers l).
Definition wait_values : list (list bool * list Z) := Eval vm_compute in map wait_all [shop 4; shop 7; away; late].
Lemma wait_is : map wait_all [shop 4; shop 7; away; late] = wait_values.
Proof. vm_cast_no_check (eq_refl wait_values). Qed.
Lemma away_is : fst (lands demo_crypto toy_verify toy_reserved (shop 4) (bob_acts demo_env)) = away.
Proof. reflexivity. Qed.
Lemma late_is : fst (lands demo_crypto toy_verify toy_reserved (shop 7) (they_act demo_env)) = late.
Proof. reflexivity. Qed.
Global Opaque away late.
Lemma wait_at i l v : nth_error [shop 4; shop 7; away; late] i = Some l -> nth_error wait_values i = Some v ->
  wait_flags l = fst v /\ wait_numbers l = snd v.
Proof.
  intros A B. apply (map_nth_error wait_all) in A. rewrite wait_is, B in A.
  split; [exact (f_equal (fun o => match o with Some p => fst p | None => [] end) (eq_sym A))
         |exact (f_equal (fun o => match o with Some p => snd p | None => [] end) (eq_sym A))].
Qed.
Lemma bob_acts_quiet : quiet toy_verify alice (bob_acts demo_env).
Proof. repeat apply Forall_cons; try apply Forall_nil; apply not_carried; vm_compute; reflexivity. Qed.
Lemma bob_acts_regular : regular (bob_acts demo_env).
Proof. repeat apply Forall_cons; try apply Forall_nil; now apply demo_time. Qed.
Lemma they_act_quiet : quiet toy_verify alice (they_act demo_env).
Proof. repeat apply Forall_cons; try apply Forall_nil; apply not_carried; vm_compute; reflexivity. Qed.
Lemma they_act_regular : regular (they_act demo_env).
Proof. repeat apply Forall_cons; try apply Forall_nil; now apply demo_time. Qed.

Lemma plain_usable l k mint u : usable l k mint u -> ta_close_flag (a_data (l k)) = 0 -> plainly_owned l k mint u.
Proof. intros ((A & _) & B & C) D. unfold plainly_owned. auto. Qed.
Lemma staked_plain : plainly_owned (shop 4) alice_xorca xorca_mint_id alice.
Proof.
  destruct (wait_at 0 _ _ eq_refl eq_refl) as [_ N]. apply plain_usable; [shop_has 4%nat|].
  exact (f_equal (fun l => nth 8 l 1) N).
Qed.
Lemma due_plain : plainly_owned (shop 7) alice_orca orca_mint_id alice.
Proof.
  destruct (wait_at 1 _ _ eq_refl eq_refl) as [_ N]. apply plain_usable; [shop_has 7%nat|].
  exact (f_equal (fun l => nth 9 l 1) N).
Qed.
Lemma away_facts :
  (~ is_record away alice_record /\ wallet away alice /\ usable away alice_xorca xorca_mint_id alice) /\
  a_lamports (away alice) = 10000000000 /\ a_lamports (away alice_record) = 0 /\ balance away demo_vault = 15001000 /\
  supply away = 12501274 /\ escrow away demo_state = 0 /\ cooldown away demo_state = 100 /\ balance away alice_xorca = 5001000.
Proof.
  destruct (wait_at 2 _ _ eq_refl eq_refl) as [F N].
  pose proof (fun i => f_equal (fun l => nth i l false) F) as G. pose proof (fun i => f_equal (fun l => nth i l 0) N) as M. clear F N.
  split.
  { split; [|split; [exact (walletb_ok _ _ (G 1%nat))|exact (usableb_ok _ _ _ _ (G 2%nat))]].
    intros K. apply recordb_is in K. pose proof (G 0%nat) as X. cbn [nth wait_flags fst] in X. rewrite K in X. discriminate X. }
  split; [exact (M 0%nat)|]. split; [exact (M 1%nat)|]. split; [exact (M 2%nat)|]. split; [exact (M 3%nat)|].
  split; [exact (M 4%nat)|]. split; [exact (M 5%nat)|exact (M 6%nat)].
Qed.
Lemma late_facts :
  (is_record late alice_record /\ wallet late alice /\ usable late alice_orca orca_mint_id alice /\
   usable late demo_vault orca_mint_id demo_state) /\
  a_lamports (late alice) = 9991982080 /\ a_lamports (late alice_record) = 8017920 /\ cooldown late demo_state = 50 /\
  balance late alice_orca = 14999000.
Proof.
  destruct (wait_at 3 _ _ eq_refl eq_refl) as [F N].
  pose proof (fun i => f_equal (fun l => nth i l false) F) as G. pose proof (fun i => f_equal (fun l => nth i l 0) N) as M. clear F N.
  split.
  { split; [exact (proj1 (recordb_is _ _) (G 0%nat))|]. split; [exact (walletb_ok _ _ (G 1%nat))|].
    split; [exact (usableb_ok _ _ _ _ (G 3%nat))|exact (usableb_ok _ _ _ _ (G 4%nat))]. }
  split; [exact (M 0%nat)|]. split; [exact (M 1%nat)|]. split; [exact (M 5%nat)|exact (M 7%nat)].
Qed.
