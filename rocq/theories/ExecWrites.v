(** What a packet can write, and that it runs as a whole or not at all (C76). *)
From Verif Require Export ExecFacts.
From Verif Require Import BytesFacts LedgerFacts LocalFacts WireFacts WireRuntime AssertFacts.
Import List ListNotations.
Open Scope list_scope.
Open Scope Z_scope.

(** ** The accounts a call names *)
Definition named_by (c : token_call) : list pubkey :=
  match c with
  | TC_Transfer a b _ _ | TC_MintTo a b _ _ | TC_Burn a b _ _ | TC_Close a b _ => [a; b]
  | TC_Approve a _ _ _ | TC_Revoke a _ | TC_SetAuthority a _ _ _ | TC_Freeze a _ _ | TC_Thaw a _ _
  | TC_InitMint a _ _ _ | TC_InitAccount a _ _ | TC_InitMultisig a _ _ | TC_SyncNative a => [a]
  end.

Lemma upd_away l k a k' : k <> k' -> upd l k a k' = l k'.
Proof. intros N. unfold upd. now apply key_eqb_false in N as ->. Qed.
Lemma away_data l k d k' : k <> k' -> set_data l k d k' = l k'.
Proof. apply upd_away. Qed.
Lemma away_lamports l k n k' : k <> k' -> set_lamports l k n k' = l k'.
Proof. apply upd_away. Qed.
Lemma away_owner l k o k' : k <> k' -> set_owner l k o k' = l k'.
Proof. apply upd_away. Qed.

Ltac peel H :=
  repeat match type of H with
  | bind ?x _ = Ok _ => let E := fresh in destruct x eqn:E; [cbn [bind] in H|discriminate H]
  | (if ?b then _ else _) = Ok _ => destruct b
  | match ?x with _ => _ end = Ok _ => destruct x; try discriminate H
  end.
Ltac away :=
  repeat first [rewrite away_data by assumption|rewrite away_lamports by assumption|rewrite away_owner by assumption
               |rewrite upd_away by assumption]; reflexivity.
Ltac framed H :=
  cbv zeta in H; peel H; try discriminate H; injection H as <-; away.

Lemma token_exec_names E sg ex l c l' k : token_exec E sg ex l c = Ok l' -> ~ In k (named_by c) -> l' k = l k.
Proof.
  intros H N. destruct c; cbn [token_exec named_by In] in *;
    match type of N with
    | ~ (?a = k \/ ?b = k \/ False) => assert (a <> k) by tauto; assert (b <> k) by tauto
    | ~ (?a = k \/ False) => assert (a <> k) by tauto
    end; clear N.
  - unfold token_transfer in H. framed H.
  - unfold token_mint_to in H. framed H.
  - unfold token_burn in H. framed H.
  - unfold token_approve in H. framed H.
  - unfold token_revoke in H. framed H.
  - unfold token_set_authority in H. framed H.
  - unfold token_close in H. framed H.
  - unfold token_toggle_freeze in H. framed H.
  - unfold token_toggle_freeze in H. framed H.
  - unfold token_init_mint in H. framed H.
  - unfold token_init_account in H. framed H.
  - unfold token_init_multisig in H. framed H.
  - unfold token_sync_native in H. framed H.
Qed.

Lemma sys_transfer_names sg l f t n l' k : sys_transfer sg l f t n = Ok l' -> f <> k -> t <> k -> l' k = l k.
Proof. intros H A B. unfold sys_transfer in H. framed H. Qed.
Lemma sys_allocate_names sg l a n l' k : sys_allocate sg l a n = Ok l' -> a <> k -> l' k = l k.
Proof. intros H A. unfold sys_allocate in H. framed H. Qed.
Lemma sys_assign_names sg l a o l' k : sys_assign sg l a o = Ok l' -> a <> k -> l' k = l k.
Proof. intros H A. unfold sys_assign in H. framed H. Qed.
Lemma sys_create_names sg l f t n s o l' k : sys_create_account sg l f t n s o = Ok l' -> f <> k -> t <> k -> l' k = l k.
Proof.
  intros H A B. unfold sys_create_account in H.
  destruct (fail_if _ _); [|discriminate]. cbn [bind] in H.
  destruct (sys_allocate sg l t s) as [l1|] eqn:E1; [|discriminate]. cbn [bind] in H.
  destruct (sys_assign sg l1 t o) as [l2|] eqn:E2; [|discriminate]. cbn [bind] in H.
  rewrite (sys_transfer_names _ _ _ _ _ _ _ H A B), (sys_assign_names _ _ _ _ _ _ E2 B).
  exact (sys_allocate_names _ _ _ _ _ _ E1 B).
Qed.
Definition system_named (c : system_call) : list pubkey :=
  match c with
  | SC_Transfer a b _ | SC_Create a b _ _ _ => [a; b]
  | SC_Allocate a _ | SC_Assign a _ => [a]
  end.
Lemma system_exec_names sg l c l' k : system_exec sg l c = Ok l' -> ~ In k (system_named c) -> l' k = l k.
Proof.
  intros H N. destruct c; cbn [system_exec system_named In] in *.
  - eapply sys_transfer_names; [exact H|tauto|tauto].
  - eapply sys_create_names; [exact H|tauto|tauto].
  - eapply sys_allocate_names; [exact H|tauto].
  - eapply sys_assign_names; [exact H|tauto].
Qed.
Lemma ata_names C E sg l p a w m l' k :
  ata_create_idempotent C E sg l p a w m = Ok l' -> p <> k -> a <> k -> l' k = l k.
Proof.
  intros H P A. unfold ata_create_idempotent in H.
  destruct (find_program_address C _ _) as [[addr b]|]; [|discriminate].
  destruct (fail_if _ _); [|discriminate]. cbn [bind] in H.
  destruct (_ && _).
  { destruct (fail_if _ _); [|discriminate]. cbn [bind] in H. destruct (fail_if _ _); [|discriminate]. cbn [bind] in H.
    now injection H as <-. }
  destruct (fail_if _ _); [|discriminate]. cbn [bind] in H. cbv zeta in H.
  match type of H with bind ?x _ = _ => destruct x as [l1|] eqn:E1; [|discriminate] end. cbn [bind] in H.
  rewrite (token_exec_names E sg [] l1 (TC_InitAccount a m w) l' k H) by (cbn [named_by In]; tauto). clear H.
  destruct (0 <? a_lamports (l a)).
  - match type of E1 with bind ?x _ = _ => destruct x as [la|] eqn:E2; [|discriminate] end. cbn [bind] in E1.
    destruct (sys_allocate _ la a _) as [lb|] eqn:E3; [|discriminate]. cbn [bind] in E1.
    rewrite (sys_assign_names _ _ _ _ _ _ E1 A), (sys_allocate_names _ _ _ _ _ _ E3 A).
    destruct (0 <? _); [eapply sys_transfer_names; eassumption|now injection E2 as <-].
  - eapply sys_create_names; eassumption.
Qed.

(** ** Decoded instructions name accounts of their lists *)
Ltac fields H :=
  repeat match type of H with
  | obind ?x _ = Some _ => destruct x as [?|]; [cbn [obind] in H|discriminate H]
  end.
Lemma token_request_names ks data q c : token_request_of ks data = Some q -> tq_call q = Some c -> incl (named_by c) ks.
Proof.
  unfold token_request_of. destruct (field_u8 data) as [[t d]|]; [|discriminate]. cbn [obind]. cbv zeta. cbn [fst snd].
  intros H Q. 
  destruct t as [|t|]; [|repeat (destruct t as [t|t|]; try discriminate H)|discriminate H];
  repeat match type of H with context [match ?l with [] => _ | _ :: _ => _ end] => is_var l; destruct l; try discriminate H end;
  fields H; apply (f_equal (option_map tq_call)) in H; cbn [option_map tq_call] in H; rewrite Q in H;
  try discriminate H; injection H as <-; intros x; cbn [named_by In]; tauto.
Qed.
Lemma system_call_names ks data c : system_call_of ks data = Some c -> incl (system_named c) ks.
Proof.
  unfold system_call_of. destruct (take_bytes 4 data) as [[t d]|]; [|discriminate]. cbn [obind]. cbv zeta. cbn [fst snd].
  intros H. destruct (le_dec t) as [|z|]; [|repeat (destruct z as [z|z|]; try discriminate H)|discriminate H];
  repeat match type of H with context [match ?l with [] => _ | _ :: _ => _ end] => is_var l; destruct l; try discriminate H end;
  fields H; injection H as <-; intros x; cbn [system_named In]; tauto.
Qed.

(** ** One instruction *)
Lemma same_account_eq a b : same_account a b = true -> a = b.
Proof.
  unfold same_account. rewrite !andb_true_iff. intros [[A B] D].
  apply Z.eqb_eq in A. apply key_eqb_true in B. apply bytes_eqb_true in D.
  destruct a, b. cbn in *. congruence.
Qed.
Lemma silent_ok {A} (x : res err A) r :
  (let? l' := x in Ok (l', @nil (list byte))) = Ok r -> exists l', x = Ok l' /\ r = (l', []).
Proof. destruct x as [l'|]; [|discriminate]. cbn [bind]. intros H. exists l'. split; [reflexivity|congruence]. Qed.

Lemma execute_one_writes C E l b r k :
  execute_one C E l b = Ok r -> fst r k <> l k ->
  exists m, In m (b_accounts b) /\ m_key m = k /\ m_writable m = true.
Proof.
  unfold execute_one. cbv zeta. intros H N.
  match type of H with bind ?x _ = _ => destruct x as [r0|] eqn:R; [|discriminate] end. cbn [bind] in H.
  destruct (readonly_kept (b_accounts b) l (fst r0)) eqn:RK; [|discriminate]. cbn in H.
  assert (r0 = r) by congruence. subst r0. clear H.
  assert (I : In k (map m_key (b_accounts b))).
  { destruct (in_dec key_eq_dec k (map m_key (b_accounts b))) as [I|NI]; [exact I|]. destruct N.
    destruct (key_eqb (b_program b) xorca_id).
    { destruct r as [l' evs]. cbn [fst].
      destruct (account_dec (l' k) (l k)) as [Q|Q]; [exact Q|].
      destruct (call_changes_writable _ _ _ _ _ _ _ _ _ R Q) as (m & Im & Km & _).
      destruct NI. rewrite <- Km. now apply in_map. }
    destruct (key_eqb (b_program b) token_id).
    { apply silent_ok in R. destruct R as (l' & R & ->). cbn [fst]. unfold exec_token in R.
      destruct (token_request_of _ _) as [q|] eqn:T; [|discriminate].
      destruct (match tq_check q with Some _ => _ | None => _ end) as [[]|]; [|discriminate]. cbn [bind] in R.
      destruct (tq_call q) as [c|] eqn:Tc; [|now injection R as <-].
      eapply token_exec_names; [exact R|]. intros X. apply NI. eapply token_request_names; eassumption. }
    destruct (key_eqb (b_program b) system_id).
    { apply silent_ok in R. destruct R as (l' & R & ->). cbn [fst]. unfold exec_system in R.
      destruct (system_call_of _ _) as [c|] eqn:T; [|discriminate].
      eapply system_exec_names; [exact R|]. intros X. apply NI. eapply system_call_names; eassumption. }
    destruct (key_eqb (b_program b) ata_id); [|discriminate].
    apply silent_ok in R. destruct R as (l' & R & ->). cbn [fst]. unfold exec_ata in R.
    destruct (map m_key (b_accounts b)) as [|payer [|ata [|w [|m rest]]]]; try discriminate.
    assert (R' : ata_create_idempotent C E (signs (signing_keys (b_accounts b))) l payer ata w m = Ok l').
    { cbv zeta in R. destruct (map byte_to_Z (b_data b)) as [|[|[]|] []]; try discriminate; try exact R;
        (destruct (key_eqb (a_owner (l ata)) system_id); [exact R|discriminate]). }
    eapply ata_names; [exact R'| |]; intros ->; apply NI; cbn [In]; auto. }
  apply in_map_iff in I. destruct I as (m & <- & Im). exists m. split; [exact Im|]. split; [reflexivity|].
  unfold readonly_kept in RK. rewrite forallb_forall in RK. specialize (RK m Im).
  destruct (m_writable m); [reflexivity|]. cbn [orb] in RK. apply same_account_eq in RK. congruence.
Qed.

Lemma execute_writes C E k : forall bs l r, execute C E l bs = Ok r -> fst r k <> l k -> arrives_writable bs k.
Proof.
  induction bs as [|b bs IH]; intros l r X N; cbn [execute] in X.
  - destruct N. now injection X as <-.
  - destruct (execute_one C E l b) as [r1|] eqn:X1; [|discriminate]. cbn [bind] in X.
    destruct (execute C E (fst r1) bs) as [r2|] eqn:X2; [|discriminate]. cbn [bind] in X.
    assert (Q : fst r = fst r2) by (injection X as <-; reflexivity). rewrite Q in N.
    destruct (account_dec (fst r1 k) (l k)) as [Y|Y].
    + destruct (IH _ _ X2) as (b' & m & I & J); [congruence|]. exists b', m. split; [now right|exact J].
    + destruct (execute_one_writes _ _ _ _ _ _ X1 Y) as (m & I & J). exists b, m. split; [now left|]. now split.
Qed.

Theorem packet_writes C E verify reserved tables l d k :
  fst (packet C E verify reserved tables l d) k <> l k ->
  exists got, receive verify reserved tables d = Some got /\ arrives_writable got k /\ reserved k = false.
Proof.
  unfold packet. destruct (receive verify reserved tables d) as [got|] eqn:R; [|intros []; reflexivity].
  destruct (execute C E l got) as [r|] eqn:X; [|intros []; reflexivity].
  intros N. exists got. split; [reflexivity|]. pose proof (execute_writes _ _ _ _ _ _ X N) as W. split; [exact W|].
  destruct W as (b & m & I & J & <- & W). eapply receive_reserved; eassumption.
Qed.

(** ** As a whole or not at all *)
Lemma execute_one_ran C E l b r bs r' :
  execute_one C E l b = Ok r -> ran C E (fst r) bs r' -> ran C E l (b :: bs) (fst r', snd r ++ snd r').
Proof.
  unfold execute_one. cbv zeta. intros H K.
  match type of H with bind ?x _ = _ => destruct x as [r0|] eqn:R; [|discriminate] end. cbn [bind] in H.
  destruct (readonly_kept (b_accounts b) l (fst r0)) eqn:RK; [|discriminate]. cbn in H.
  assert (r0 = r) by congruence. subst r0. clear H RK.
  destruct (key_eqb (b_program b) xorca_id) eqn:P1.
  { apply key_eqb_true in P1. destruct r as [l1 evs]. eapply RanProgram; eassumption. }
  assert (W : forall l', r = (l', []) -> (fst r', snd r ++ snd r') = r').
  { intros l' ->. cbn [snd app]. now destruct r'. }
  destruct (key_eqb (b_program b) token_id) eqn:P2.
  { apply key_eqb_true in P2. apply silent_ok in R. destruct R as (l' & R & Q). rewrite (W _ Q). subst r. cbn [fst] in K.
    unfold exec_token in R.
    destruct (token_request_of _ _) as [q|] eqn:T; [|discriminate].
    destruct (match tq_check q with Some _ => _ | None => _ end) as [[]|]; [|discriminate]. cbn [bind] in R.
    destruct (tq_call q) as [c|] eqn:Tc; [|injection R as <-; now apply RanIdle].
    eapply (RanOther _ _ _ _ _ (OpToken E _ _ c)); [exact P2|reflexivity|cbn [attempt]; rewrite R; reflexivity|exact K]. }
  destruct (key_eqb (b_program b) system_id) eqn:P3.
  { apply key_eqb_true in P3. apply silent_ok in R. destruct R as (l' & R & Q). rewrite (W _ Q). subst r. cbn [fst] in K.
    unfold exec_system in R.
    destruct (system_call_of _ _) as [c|] eqn:T; [|discriminate].
    eapply (RanOther _ _ _ _ _ (OpSystem _ c)); [exact P3|exact I|cbn [attempt]; rewrite R; reflexivity|exact K]. }
  destruct (key_eqb (b_program b) ata_id) eqn:P4; [|discriminate].
  apply key_eqb_true in P4. apply silent_ok in R. destruct R as (l' & R & Q). rewrite (W _ Q). subst r. cbn [fst] in K.
  unfold exec_ata in R.
  destruct (map m_key (b_accounts b)) as [|payer [|ata [|w [|m rest]]]] eqn:M; try discriminate.
  assert (R' : ata_create_idempotent C E (signs (signing_keys (b_accounts b))) l payer ata w m = Ok l').
  { cbv zeta in R. destruct (map byte_to_Z (b_data b)) as [|[|[]|] []]; try discriminate; try exact R;
      (destruct (key_eqb (a_owner (l ata)) system_id); [exact R|discriminate]). }
  eapply (RanOther _ _ _ _ _ (OpAta E _ payer ata w m)); [|reflexivity|cbn [attempt]; rewrite R'; reflexivity|exact K].
  split; [exact P4|]. now rewrite M.
Qed.
Lemma execute_ran C E : forall bs l r, execute C E l bs = Ok r -> ran C E l bs r.
Proof.
  induction bs as [|b bs IH]; intros l r X; cbn [execute] in X.
  - injection X as <-. constructor.
  - destruct (execute_one C E l b) as [r1|] eqn:X1; [|discriminate]. cbn [bind] in X.
    destruct (execute C E (fst r1) bs) as [r2|] eqn:X2; [|discriminate]. cbn [bind] in X.
    assert (Q : r = (fst r2, snd r1 ++ snd r2)) by congruence. rewrite Q.
    eapply execute_one_ran; [exact X1|]. now apply IH.
Qed.
Theorem packet_whole C E verify reserved tables l d :
  packet C E verify reserved tables l d = (l, []) \/
  exists got, receive verify reserved tables d = Some got /\ ran C E l got (packet C E verify reserved tables l d).
Proof.
  unfold packet. destruct (receive verify reserved tables d) as [got|]; [|now left].
  destruct (execute C E l got) as [r|] eqn:X; [|now left]. right. exists got. split; [reflexivity|now apply execute_ran].
Qed.

Lemma ran_split C E b bs2 : forall bs1 l r, ran C E l (bs1 ++ b :: bs2) r ->
  exists l1 evs r', ran C E l bs1 (l1, evs) /\ ran C E l1 (b :: bs2) r'.
Proof.
  induction bs1 as [|c bs1 IH]; intros l r H; cbn [app] in H.
  - exists l, [], r. split; [constructor|exact H].
  - inversion H as [|l0 b0 bs0 lx ex rx P0 X0 K0|l0 b0 bs0 o lx rx P0 U0 X0 K0|l0 b0 bs0 rx P0 K0]; subst.
    + destruct (IH _ _ K0) as (l2 & e2 & r' & A & B). exists l2, (ex ++ e2), r'. split; [|exact B].
      exact (RanProgram _ _ _ _ _ _ _ _ P0 X0 A).
    + destruct (IH _ _ K0) as (l2 & e2 & r' & A & B). exists l2, e2, r'. split; [|exact B]. eapply RanOther; eassumption.
    + destruct (IH _ _ K0) as (l2 & e2 & r' & A & B). exists l2, e2, r'. split; [|exact B]. now apply RanIdle.
Qed.
Theorem packet_refused C E verify reserved tables l d bs1 b bs2 :
  receive verify reserved tables d = Some (bs1 ++ b :: bs2) -> b_program b = xorca_id ->
  (forall l1 evs, ran C E l bs1 (l1, evs) -> is_ok (process_instruction C E xorca_id (b_accounts b) l1 (b_data b)) = false) ->
  packet C E verify reserved tables l d = (l, []).
Proof.
  intros R P F. destruct (packet_whole C E verify reserved tables l d) as [Q|(got & R' & X)]; [exact Q|].
  assert (got = bs1 ++ b :: bs2) by congruence. subst got.
  destruct (ran_split _ _ _ _ _ _ _ X) as (l1 & evs & r' & A & B). specialize (F l1 evs A).
  destruct ids_distinct as (D1 & D2 & D3 & D4 & D5 & D6 & _).
  inversion B as [|l0 b0 bs0 lx ex rx P0 X0 K0|l0 b0 bs0 o lx rx P0 U0 X0 K0|l0 b0 bs0 rx P0 K0]; subst.
  - now rewrite X0 in F.
  - destruct o; cbn [calls_other] in P0; try contradiction; first [congruence|destruct P0; congruence].
  - congruence.
Qed.

(** A new associated account where there is one already: nothing happens at all. *)
Theorem packet_create_refused C E verify reserved tables l d b bs payer ata rest :
  receive verify reserved tables d = Some (b :: bs) -> b_program b = ata_id -> b_data b = [] \/ b_data b = [x00] ->
  map m_key (b_accounts b) = payer :: ata :: rest -> a_owner (l ata) <> system_id ->
  packet C E verify reserved tables l d = (l, []).
Proof.
  intros R P D M N. unfold packet. rewrite R. cbn [execute]. unfold execute_one. cbv zeta.
  destruct (key_eqb (b_program b) xorca_id) eqn:P1.
  { apply key_eqb_true in P1. exfalso. revert P1. rewrite P. intros Q. apply (f_equal key_bytes) in Q. vm_compute in Q. discriminate Q. }
  destruct (key_eqb (b_program b) token_id) eqn:P2.
  { apply key_eqb_true in P2. exfalso. revert P2. rewrite P. intros Q. apply (f_equal key_bytes) in Q. vm_compute in Q. discriminate Q. }
  destruct (key_eqb (b_program b) system_id) eqn:P3.
  { apply key_eqb_true in P3. exfalso. revert P3. rewrite P. intros Q. apply (f_equal key_bytes) in Q. vm_compute in Q. discriminate Q. }
  rewrite P, key_eqb_refl. unfold exec_ata. rewrite M.
  apply key_eqb_false in N.
  destruct rest as [|w [|m rest]]; [reflexivity..|].
  cbv zeta. rewrite N. destruct D as [-> | ->]; reflexivity.
Qed.
Lemma ran_nothing C E l l1 evs : ran C E l [] (l1, evs) -> l1 = l.
Proof. intros H. now inversion H. Qed.
