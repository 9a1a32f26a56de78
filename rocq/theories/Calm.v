(** Steps other than xORCA calls: what they leave alone. *)
From Verif Require Import History BytesFacts FieldFacts LedgerFacts TokenFacts ParseFacts CpiFacts
  AssertFacts LayoutFacts StakeFacts UnstakeFacts InitFacts Totals OutsideFacts TokenStep VaultStep.

(** [sk] is an account whose authority only xORCA can exercise. *)
Definition controls (C : crypto) (l : ledger) (sk : pubkey) : Prop :=
  program_signs_for C sk /\ system_or_incinerator sk = false /\
  ((a_owner (l sk) = xorca_id /\ 0 < a_lamports (l sk)) \/
   (a_owner (l sk) = system_id /\ a_data (l sk) = [])).

Record calm (C : crypto) (l l' : ledger) : Prop := {
  ca_lam : lamports_ok l';
  ca_keep : forall k, a_owner (l k) = xorca_id -> 0 < a_lamports (l k) ->
    a_owner (l' k) = xorca_id /\ a_data (l' k) = a_data (l k) /\
    a_lamports (l k) <= a_lamports (l' k);
  ca_new : forall k, a_owner (l' k) = xorca_id ->
    all_zero (a_data (l' k)) = true \/
    (a_owner (l k) = xorca_id /\ a_data (l' k) = a_data (l k));
  ca_pda : forall k, program_signs_for C k -> a_owner (l k) = system_id -> a_data (l k) = [] ->
    a_owner (l' k) = system_id /\ a_data (l' k) = [] /\ a_lamports (l k) <= a_lamports (l' k);
  ca_tok : 0 < a_lamports (l xorca_mint_id) -> tok_bounded l xorca_mint_id ->
    tok_bounded l' xorca_mint_id;
  ca_mint : forall m, 0 < a_lamports (l m) -> mint_live l m ->
    mint_live l' m /\ a_lamports (l m) <= a_lamports (l' m);
  ca_vault : forall vk mint sk, controls C l sk -> 0 < a_lamports (l vk) ->
    vault_ok l vk mint sk -> vault_kept l l' vk mint sk;
  ca_ctrl : forall m sk, controls C l sk -> 0 < a_lamports (l m) ->
    mint_ok l m sk -> mint_kept l l' m sk
}.

Lemma calm_controls C l l' sk : calm C l l' -> controls C l sk -> controls C l' sk.
Proof.
  intros H (H1 & H2 & [[H3 H4]|[H3 H4]]); (split; [exact H1|]); (split; [exact H2|]).
  - left. destruct (ca_keep _ _ _ H sk H3 H4) as (K1 & _ & K3). split; [exact K1|lia].
  - right. destruct (ca_pda _ _ _ H sk H1 H3 H4) as (K1 & K2 & _). auto.
Qed.

Lemma calm_trans C a b c : calm C a b -> calm C b c -> calm C a c.
Proof.
  intros H1 H2. constructor.
  - apply H2.
  - intros k K1 K2. destruct (ca_keep _ _ _ H1 k K1 K2) as (A1 & A2 & A3).
    destruct (ca_keep _ _ _ H2 k A1 ltac:(lia)) as (B1 & B2 & B3).
    split; [exact B1|]. split; [congruence|lia].
  - intros k K. destruct (ca_new _ _ _ H2 k K) as [Z|[O D]]; [now left|].
    destruct (ca_new _ _ _ H1 k O) as [Z|[O' D']]; [left; congruence|right; split; congruence].
  - intros k K1 K2 K3. destruct (ca_pda _ _ _ H1 k K1 K2 K3) as (A1 & A2 & A3).
    destruct (ca_pda _ _ _ H2 k K1 A1 A2) as (B1 & B2 & B3). repeat split; auto. lia.
  - intros K1 K2. destruct (ca_mint _ _ _ H1 _ K1 (tb_live _ _ K2)) as (_ & L).
    apply (ca_tok _ _ _ H2); [lia|]. now apply (ca_tok _ _ _ H1).
  - intros m K1 K2. destruct (ca_mint _ _ _ H1 m K1 K2) as [A1 A2].
    destruct (ca_mint _ _ _ H2 m ltac:(lia) A1) as [B1 B2]. split; [exact B1|lia].
  - intros vk mint sk K1 K2 K3. destruct (ca_vault _ _ _ H1 vk mint sk K1 K2 K3) as (A1 & A2 & A3).
    destruct (ca_vault _ _ _ H2 vk mint sk (calm_controls _ _ _ _ H1 K1) ltac:(lia) A1)
      as (B1 & B2 & B3). split; [exact B1|lia].
  - intros m sk K1 K2 K3. destruct (ca_ctrl _ _ _ H1 m sk K1 K2 K3) as (A1 & A2).
    destruct (ca_mint _ _ _ H1 m K2 (mo_live _ _ _ K3)) as (_ & L).
    destruct (ca_ctrl _ _ _ H2 m sk (calm_controls _ _ _ _ H1 K1) ltac:(lia) A1) as (B1 & B2).
    split; [exact B1|lia].
Qed.

Definition ours (o : pubkey) : Prop := o = xorca_id \/ o = token_id.

(** Steps that touch neither xORCA's nor the token program's accounts. *)
Lemma calm_soft C l l' :
  lamports_ok l' ->
  (forall k, ours (a_owner (l k)) -> 0 < a_lamports (l k) ->
     a_owner (l' k) = a_owner (l k) /\ a_data (l' k) = a_data (l k) /\
     a_lamports (l k) <= a_lamports (l' k)) ->
  (forall k, ours (a_owner (l' k)) ->
     all_zero (a_data (l' k)) = true \/
     (a_owner (l k) = a_owner (l' k) /\ a_data (l' k) = a_data (l k))) ->
  (forall k, program_signs_for C k -> a_owner (l k) = system_id -> a_data (l k) = [] ->
     a_owner (l' k) = system_id /\ a_data (l' k) = [] /\ a_lamports (l k) <= a_lamports (l' k)) ->
  calm C l l'.
Proof.
  intros H1 H2 H3 H4.
  assert (Hx : ours xorca_id) by now left. assert (Ht : ours token_id) by now right.
  constructor; auto.
  - intros k K1 K2. destruct (H2 k) as (A & B & D); [now rewrite K1|assumption|].
    split; [congruence|auto].
  - intros k K. destruct (H3 k) as [Z|[O D]]; [now rewrite K|now left|]. right.
    split; [congruence|assumption].
  - intros K1 K2. destruct (H2 xorca_mint_id) as (A & B & D); auto.
    { destruct (tb_live _ _ K2) as (-> & _). exact Ht. }
    apply (tok_bounded_frame l); auto. intros k Q1 Q2 Q3.
    destruct (H3 k) as [Z|[O' D']]; [now rewrite Q1| |split; congruence].
    apply ta_unpack_ok in Q2. destruct Q2 as [_ Q2]. unfold ta_state in Q2.
    rewrite all_zero_u8 in Q2 by exact Z. congruence.
  - intros m K1 K2. destruct (H2 m) as (A & B & D); auto.
    { destruct K2 as (-> & _). exact Ht. }
    split; [|exact D]. unfold mint_live in *. now rewrite A, B.
  - intros vk mint sk K1 K2 K3. destruct (H2 vk) as (A & B & D); auto.
    { rewrite (vo_owner _ _ _ _ K3). exact Ht. }
    now apply vault_kept_same.
  - intros m sk K1 K2 K3. destruct (H2 m) as (A & B & D); auto.
    { destruct (mo_live _ _ _ K3) as (-> & _). exact Ht. }
    now apply mint_kept_same.
Qed.

Lemma ours_not_system o : ours o -> o <> system_id.
Proof. intros [->| ->]; apply ids_distinct. Qed.

Lemma calm_refl C l : lamports_ok l -> calm C l l.
Proof.
  intros H. apply calm_soft; auto.
  intros k _ _. split; [reflexivity|]. split; [reflexivity|lia].
  intros k _ K1 K2. repeat split; auto. lia.
Qed.

Lemma calm_foreign C p l l' :
  ~ ours p -> foreign_write p l l' -> lamports_ok l' ->
  (forall k, program_signs_for C k -> a_owner (l k) = system_id -> a_data (l k) = [] ->
     a_owner (l' k) = system_id /\ a_data (l' k) = [] /\ a_lamports (l k) <= a_lamports (l' k)) ->
  calm C l l'.
Proof.
  intros Hp Hw Hl Hk. apply calm_soft; auto.
  - intros k K1 K2. apply Hw. intros E. now rewrite E in K1.
  - intros k K. destruct (Hw k) as [W1 W2].
    destruct (key_eq_dec (a_owner (l' k)) (a_owner (l k))) as [E|E]; [|left; now apply W2].
    right. split; [congruence|]. apply W1. intros E'. rewrite E, E' in K. contradiction.
Qed.

(** System calls touch no account whose address does not sign. *)
Lemma sys_transfer_silent sg l f t n l' k :
  0 <= n -> sys_transfer sg l f t n = Ok l' -> sg k = false ->
  a_owner (l' k) = a_owner (l k) /\ a_data (l' k) = a_data (l k) /\
  a_lamports (l k) <= a_lamports (l' k).
Proof.
  unfold sys_transfer. intros Hn H Hk. inv_bind H u1. inv_bind H u2. inv_bind H u3. inv_bind H u4.
  inv_bind H u5. injection H as <-. clean_bool. autorewrite with ledger.
  split; [reflexivity|]. split; [reflexivity|].
  assert (Kf : f <> k) by (intros ->; congruence).
  destruct (key_eq_dec t k) as [<-|Kt].
  - rewrite set_lamports_same_lamports. rewrite set_lamports_other by exact Kf. lia.
  - rewrite !set_lamports_other by assumption. lia.
Qed.

Lemma sys_allocate_silent sg l k0 n l' k :
  sys_allocate sg l k0 n = Ok l' -> sg k = false -> l' k = l k.
Proof.
  intros H Hk. apply sys_allocate_write in H. destruct H as (_ & -> & _ & S).
  apply set_data_other. intros ->. congruence.
Qed.

Lemma sys_assign_silent sg l k0 o l' k :
  sys_assign sg l k0 o = Ok l' -> sg k = false -> l' k = l k.
Proof.
  intros H Hk. apply sys_assign_cases in H. destruct H as [->|(_ & S & _ & ->)]; [reflexivity|].
  apply set_owner_other. intros ->. congruence.
Qed.

Lemma system_exec_silent sg l c l' k :
  system_call_ok c -> system_exec sg l c = Ok l' -> sg k = false ->
  a_owner (l' k) = a_owner (l k) /\ a_data (l' k) = a_data (l k) /\
  a_lamports (l k) <= a_lamports (l' k).
Proof.
  destruct c; cbn [system_call_ok system_exec]; intros Hc H Hk.
  - eapply sys_transfer_silent; eassumption.
  - unfold sys_create_account in H. inv_bind H u1. inv_bind H l1. inv_bind H l2.
    apply (sys_transfer_silent _ _ _ _ _ _ k) in H; [|apply Hc|assumption].
    apply (sys_allocate_silent _ _ _ _ _ k) in Hx0; [|assumption].
    apply (sys_assign_silent _ _ _ _ _ k) in Hx1; [|assumption].
    rewrite Hx1, Hx0 in H. exact H.
  - apply (sys_allocate_silent _ _ _ _ _ k) in H; [|assumption]. rewrite H. repeat split; auto. lia.
  - apply (sys_assign_silent _ _ _ _ _ k) in H; [|assumption]. rewrite H. repeat split; auto. lia.
Qed.

Definition honest (C : crypto) (sg : pubkey -> bool) : Prop :=
  forall k, program_signs_for C k -> sg k = false.

Lemma signs_honest C sgs : honest_signers C sgs -> honest C (signs sgs).
Proof.
  intros H k Hk. unfold signs. destruct (existsb _ _) eqn:E; [|reflexivity].
  apply existsb_exists in E. destruct E as (k' & I & Q). apply key_eqb_true in Q. subst k'.
  now apply H in I.
Qed.

Lemma system_not_ours : ~ ours system_id.
Proof. intros H. now apply ours_not_system in H. Qed.

Lemma calm_system C sg l c l' :
  lamports_ok l -> honest C sg -> system_call_ok c -> system_exec sg l c = Ok l' -> calm C l l'.
Proof.
  intros Hl Hh Hc H. apply calm_foreign with (p := system_id).
  - exact system_not_ours.
  - eapply system_exec_write; eassumption.
  - eapply system_exec_lamports; eassumption.
  - intros k K1 K2 K3. pose proof (system_exec_silent sg l c l' k Hc H (Hh k K1)) as (A & B & D).
    repeat split; congruence || auto.
Qed.

Lemma calm_token C E sg ex l c l' :
  lamports_ok l -> honest C sg -> token_call_ok c = true -> token_exec E sg ex l c = Ok l' ->
  calm C l l'.
Proof.
  intros Hl Hh Hc H. pose proof (token_exec_write E sg ex l c l' Hl H) as Hw.
  assert (Nx : xorca_id <> token_id) by (apply not_eq_sym, ids_distinct).
  assert (Ns : system_id <> token_id) by (apply not_eq_sym, ids_distinct).
  assert (Hs : forall sk, controls C l sk -> silent sg l sk).
  { intros sk (K1 & K2 & K3). repeat split; auto. destruct K3 as [[K3 _]|[K3 _]]; congruence. }
  constructor.
  - eapply token_exec_lamports; eassumption.
  - intros k K1 K2. destruct (Hw k) as [W _]. rewrite K1 in W. auto.
  - intros k K. destruct (Hw k) as [W1 W2].
    destruct (key_eq_dec (a_owner (l' k)) (a_owner (l k))) as [Q|Q]; [|left; now apply W2].
    right. split; [congruence|]. apply W1. congruence.
  - intros k K1 K2 K3. destruct (Hw k) as [W _]. rewrite K2 in W. destruct (W Ns) as (A & B & D).
    repeat split; congruence || auto.
  - intros _ K. eapply token_exec_bounded; try eassumption. apply ids_distinct.
  - intros m _ K. eapply token_exec_mint_live; eassumption.
  - intros vk mint sk K1 K2 K3. eapply token_exec_vault; eauto.
  - intros m sk K1 K2 K3. eapply token_exec_mint; eauto.
Qed.

Lemma calm_native C l l' : native_write C l l' -> lamports_ok l' -> calm C l l'.
Proof.
  intros Hn Hl. apply calm_soft; auto.
  - intros k K1 K2. destruct (Hn k) as [A B]. split; [exact A|]. apply B. left.
    now apply ours_not_system.
  - intros k K. destruct (Hn k) as [A B]. right. split; [congruence|]. apply B. left.
    rewrite A in K. now apply ours_not_system.
  - intros k K1 K2 K3. destruct (Hn k) as [A B]. destruct B as [B1 B2]; [now right|].
    repeat split; congruence || auto.
Qed.

Lemma calm_purge C l k : lamports_ok l -> a_lamports (l k) = 0 -> calm C l (upd l k empty_account).
Proof.
  intros Hl H0. apply calm_soft.
  - apply lamports_ok_upd; [exact Hl|cbn; lia].
  - intros k' _ K. assert (k <> k') by (intros ->; lia). rewrite upd_other by assumption.
    split; [reflexivity|]. split; [reflexivity|lia].
  - intros k' K. destruct (key_eq_dec k k') as [<-|N].
    + rewrite upd_same in *. now left.
    + rewrite upd_other in * by exact N. now right.
  - intros k' _ K1 K2. destruct (key_eq_dec k k') as [<-|N].
    + rewrite upd_same, H0. repeat split. cbn. lia.
    + rewrite upd_other by exact N. repeat split; auto. lia.
Qed.

Lemma with_signer_honest C sgs k :
  honest_signers C (k :: sgs) -> honest C (with_signer (signs sgs) k) /\ honest C (signs sgs).
Proof.
  intros H. split.
  - intros k' K. unfold with_signer. destruct (key_eqb k k') eqn:E.
    + apply key_eqb_true in E. subst k'. exfalso. apply (H k); [now left|exact K].
    + apply (signs_honest C sgs); [|exact K]. intros x X. apply H. now right.
  - apply signs_honest. intros x X. apply H. now right.
Qed.

Lemma calm_ata C E sgs l payer ata wallet mint l' :
  lamports_ok l -> honest_signers C (ata :: sgs) -> sysvars_ok E ->
  ata_create_idempotent C E (signs sgs) l payer ata wallet mint = Ok l' -> calm C l l'.
Proof.
  intros Hl Hh HE H. apply with_signer_honest in Hh. destruct Hh as [Hh1 Hh2].
  unfold ata_create_idempotent in H.
  destruct (find_program_address C (ata_seeds wallet mint) ata_id) as [[addr b]|]; [|discriminate].
  inv_bind H u1. destruct (_ && _) in H.
  - inv_bind H u2. inv_bind H u3. injection H as <-. now apply calm_refl.
  - inv_bind H u2. inv_bind H l1.
    assert (C1 : calm C l l1).
    { destruct (0 <? a_lamports (l ata)).
      - inv_bind Hx1 la. inv_bind Hx1 lb.
        assert (Ca : calm C l la).
        { destruct (0 <? Z.max (Z.max (rent_min E ta_len) 1 - a_lamports (l ata)) 0) eqn:Q.
          - apply Z.ltb_lt in Q.
            apply (calm_system C (signs sgs) l (SC_Transfer payer ata
              (Z.max (Z.max (rent_min E ta_len) 1 - a_lamports (l ata)) 0)) la); eauto.
            cbn [system_call_ok]. lia.
          - injection Hx2 as <-. now apply calm_refl. }
        assert (Cb : calm C la lb).
        { apply (calm_system C (with_signer (signs sgs) ata) la (SC_Allocate ata ta_len) lb); eauto.
          - apply Ca.
          - cbn. unfold ta_len. lia. }
        assert (Cc : calm C lb l1).
        { apply (calm_system C (with_signer (signs sgs) ata) lb (SC_Assign ata token_id) l1); eauto.
          - apply Cb.
          - exact I. }
        eapply calm_trans; [eapply calm_trans; eassumption|assumption].
      - apply (calm_system C (with_signer (signs sgs) ata) l
                 (SC_Create payer ata (Z.max (rent_min E ta_len) 1) ta_len token_id) l1); eauto.
        cbn [system_call_ok]. unfold ta_len. lia. }
    eapply calm_trans; [exact C1|].
    apply (calm_token C E (fun _ => false) [] l1 (TC_InitAccount ata mint wallet) l'); auto.
    + apply C1.
    + now intros k K.
Qed.

(** Every step that is not a call of this program is calm and emits nothing. *)
Definition is_call (o : op) : bool := match o with OpCall _ _ _ => true | _ => false end.

Theorem outside_calm C l o :
  lamports_ok l -> op_ok C l o -> is_call o = false ->
  calm C l (fst (run_op C l o)) /\ snd (run_op C l o) = [].
Proof.
  intros Hl Ho Hc. destruct o; cbn [op_ok run_op is_call fst snd] in *; try discriminate.
  - destruct Ho as (H1 & H2 & H3). destruct (token_exec E (signs signers) extra l c) eqn:Q;
      cbn [keep fst snd]; split; auto.
    + eapply calm_token; try eassumption. now apply signs_honest.
    + now apply calm_refl.
  - destruct Ho as (H2 & H3). destruct (system_exec (signs signers) l c) eqn:Q;
      cbn [keep fst snd]; split; auto.
    + eapply calm_system; try eassumption. now apply signs_honest.
    + now apply calm_refl.
  - destruct Ho as (H2 & H3).
    destruct (ata_create_idempotent C E (signs signers) l payer ata wallet mint) eqn:Q;
      cbn [keep fst snd]; split; auto.
    + eapply calm_ata; try eassumption.
    + now apply calm_refl.
  - destruct Ho as (H1 & H2 & H3 & H4 & H5). split; [|reflexivity].
    apply calm_foreign with (p := program); auto.
    + now intros [K|K].
    + intros k K1 K2 K3. destruct (H4 k) as [W _]. destruct W as (A & B & D); [congruence|].
      repeat split; congruence || auto.
  - destruct Ho. split; [now apply calm_native|reflexivity].
  - split; [now apply calm_purge|reflexivity].
Qed.
