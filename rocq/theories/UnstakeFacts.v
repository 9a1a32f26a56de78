(** Unstake: success conditions and effect. *)
From Verif Require Import Program BytesFacts LedgerFacts TokenFacts ParseFacts CpiFacts AssertFacts
  MathFacts LayoutFacts StakeFacts.

Record unstake_accounts (accs : list meta) (un st pd ux xm om v sp tp : meta) : Prop := {
  ua0 : nth_error accs 0 = Some un;
  ua1 : nth_error accs 1 = Some st;
  ua2 : nth_error accs 2 = Some pd;
  ua3 : nth_error accs 3 = Some ux;
  ua4 : nth_error accs 4 = Some xm;
  ua5 : nth_error accs 5 = Some om;
  ua6 : nth_error accs 6 = Some v;
  ua7 : nth_error accs 7 = Some sp;
  ua8 : nth_error accs 8 = Some tp
}.

(** Everything a successful Unstake has checked, in terms of the ledger before. *)
Record unstake_pre (C : crypto) (E : env) (accs : list meta) (l : ledger) (x i : Z)
    (un st pd ux xm om v sp tp : meta) (w : Z) (bump : byte) (sd1 : list byte) : Prop := {
  up_accs : unstake_accounts accs un st pd ux xm om v sp tp;
  up_signer : m_signer un = true;
  up_w0 : m_writable un = true;
  up_w1 : m_writable st = true;
  up_w2 : m_writable pd = true;
  up_w3 : m_writable ux = true;
  up_w4 : m_writable xm = true;
  up_xm : m_key xm = xorca_mint_id;
  up_om : m_key om = orca_mint_id;
  up_tp : m_key tp = token_id;
  up_sp : m_key sp = system_id;
  up_st_owner : a_owner (l (m_key st)) = xorca_id;
  up_st_shape : state_shaped (a_data (l (m_key st)));
  up_st_key : m_key st = state_address_with_bump C (st_bump (a_data (l (m_key st))));
  up_v_key : m_key v = vault_address_with_bump C (m_key st) orca_mint_id
                         (st_vault_bump (a_data (l (m_key st))));
  up_v : ta_of l (m_key v) orca_mint_id (m_key st);
  up_pd_owner : a_owner (l (m_key pd)) = system_id;
  up_pd_data : a_data (l (m_key pd)) = [];
  up_pd_find : find_pending_withdraw_address C (m_key un) i = Some (m_key pd, bump);
  up_ux_live : ta_live l (m_key ux);
  up_ux_mint : ta_mint (a_data (l (m_key ux))) = xorca_mint_id;
  up_ux_owner : ta_owner (a_data (l (m_key ux))) = m_key un;
  up_ux_native : ta_native_flag (a_data (l (m_key ux))) = 0;
  up_ux_amount : x <= ta_amount (a_data (l (m_key ux)));
  up_ux_auth : burn_auth l (owner_signs (m_key un)) [] (a_data (l (m_key ux))) (m_key un) x
               = Ok sd1;
  up_xm_live : mint_live l xorca_mint_id;
  up_xm_flag : mint_auth_flag (a_data (l xorca_mint_id)) = 1;
  up_xm_auth : mint_auth (a_data (l xorca_mint_id)) = m_key st;
  up_xm_freeze : mint_freeze_flag (a_data (l xorca_mint_id)) = 0;
  up_xm_supply : x <= mint_supply (a_data (l xorca_mint_id));
  up_om_owner : a_owner (l orca_mint_id) = token_id;
  up_om_shape : mint_shaped (a_data (l orca_mint_id));
  up_backed : st_escrow (a_data (l (m_key st))) <= ta_amount (a_data (l (m_key v)));
  up_quote : convert_xorca_to_orca x (non_escrowed l (m_key v) (m_key st))
               (mint_supply (a_data (l xorca_mint_id))) = Ok w;
  up_pos : w <> 0;
  up_escrow_room : st_escrow (a_data (l (m_key st))) + w <= u64_max;
  up_fund : can_fund E l (m_key un) (m_key pd) PENDING_LEN;
  up_clock : is_i64 (now E + st_cooldown (a_data (l (m_key st))))
}.

(** The accounts Unstake writes, in terms of the ledger before. *)
Definition unstake_effect (E : env) (l : ledger) (un st pd ux : pubkey) (x i w : Z) (bump : byte)
    (sd1 : list byte) : ledger :=
  set_data
    (created E
       (set_data (burned l ux xorca_mint_id x sd1)
          st (set_escrow (st_escrow (a_data (l st)) + w) (a_data (l st))))
       un pd PENDING_LEN xorca_id)
    pd (pending_bytes (byte_to_Z bump) i un w (now E + st_cooldown (a_data (l st)))).

Definition unstake_event (l : ledger) (st v : pubkey) (x i w : Z) : event :=
  EvUnstake x (ta_amount (a_data (l v))) (st_escrow (a_data (l st)) + w)
    (mint_supply (a_data (l xorca_mint_id)) - x) w (st_cooldown (a_data (l st))) i.

Lemma burn_auth_ext l sg sg' ex d a n :
  (forall k, sg k = sg' k) -> burn_auth l sg ex d a n = burn_auth l sg' ex d a n.
Proof.
  intros H. unfold burn_auth. destruct (system_or_incinerator _); [reflexivity|].
  now apply spend_auth_ext.
Qed.

Lemma burn_auth_same l sg ex d a n d1 :
  length d = 165%nat -> burn_auth l sg ex d a n = Ok d1 -> same_but_delegate d d1.
Proof.
  intros Hl. unfold burn_auth. destruct (system_or_incinerator _).
  - intros [=<-]. apply same_but_delegate_refl.
  - now apply spend_auth_same.
Qed.

Lemma burned_owner l f m n sd1 k : a_owner (burned l f m n sd1 k) = a_owner (l k).
Proof. unfold burned. now autorewrite with ledger. Qed.
Lemma burned_lamports l f m n sd1 k : a_lamports (burned l f m n sd1 k) = a_lamports (l k).
Proof. unfold burned. now autorewrite with ledger. Qed.
Lemma burned_other l f m n sd1 k : k <> f -> k <> m -> burned l f m n sd1 k = l k.
Proof. intros H1 H2. unfold burned. rewrite !set_data_other by congruence. reflexivity. Qed.

Lemma rent_need_ext E l l' k n :
  a_lamports (l' k) = a_lamports (l k) -> rent_need E l' k n = rent_need E l k n.
Proof. intros H. unfold rent_need. now rewrite H. Qed.

(** Splitting equal data writes: writing twice to the same key keeps the last. *)
Lemma leq_set_data_created E l l' un pd space own d d' :
  leq l' (created E l un pd space own) -> d = d' ->
  leq (set_data l' pd d) (set_data (created E l un pd space own) pd d').
Proof. intros H ->. now apply leq_set_data. Qed.

Lemma set_data_twice l k d d' : leq (set_data (set_data l k d) k d') (set_data l k d').
Proof.
  intros k'. destruct (key_eq_dec k k') as [<-|H].
  - rewrite !set_data_same. reflexivity.
  - rewrite !set_data_other by exact H. reflexivity.
Qed.

Lemma non_escrowed_range l v st :
  st_escrow (a_data (l st)) <= ta_amount (a_data (l v)) -> is_u64 (non_escrowed l v st).
Proof.
  intros H. unfold non_escrowed. pose proof (get_u64_range 8 (a_data (l st))) as R1.
  pose proof (ta_amount_range (a_data (l v))) as R2. unfold st_escrow, is_u64 in *. lia.
Qed.

Lemma system_owned_ne (l : ledger) a b o :
  a_owner (l a) = system_id -> a_owner (l b) = o -> o <> system_id -> a <> b.
Proof. intros H1 H2 H3 ->. congruence. Qed.

Lemma token_ne_system : token_id <> system_id.
Proof. apply ids_distinct. Qed.
Lemma xorca_ne_system : xorca_id <> system_id.
Proof. apply ids_distinct. Qed.

Theorem unstake_inv C E accs l x i l' evs :
  is_u64 x -> is_u8 i -> env_ok E -> no_pda_signers C accs ->
  unstake_process C E accs l x i = Ok (l', evs) ->
  exists un st pd ux xm om v sp tp w bump sd1,
    unstake_pre C E accs l x i un st pd ux xm om v sp tp w bump sd1 /\
    0 < w /\ is_u64 w /\
    leq l' (unstake_effect E l (m_key un) (m_key st) (m_key pd) (m_key ux) x i w bump sd1) /\
    evs = [event_bytes (unstake_event l (m_key st) (m_key v) x i w)].
Proof.
  intros Hx0' Hi' HE Hnp H. unfold unstake_process in H.
  inv_bind H un. inv_bind H st. inv_bind H pd. inv_bind H ux. inv_bind H xm.
  inv_bind H om. inv_bind H v. inv_bind H sp. inv_bind H tp.
  apply get_account_ok in Hx, Hx0, Hx1, Hx2, Hx3, Hx4, Hx5, Hx6, Hx7.
  assert (Hacc : unstake_accounts accs un st pd ux xm om v sp tp) by (constructor; assumption).
  inv_bind H u1. apply role_sw in Hx8. destruct Hx8 as [Sun Wun].
  inv_bind H u2. apply address_ok in Hx8.
  inv_bind H u3. apply address_ok in Hx9.
  inv_bind H u4. apply address_ok in Hx10.
  inv_bind H u5. apply address_ok in Hx11.
  inv_bind H u6. apply role_w in Hx12.
  inv_bind H u7. apply owner_ok in Hx13.
  inv_bind H vd. apply owner_ta_ok in Hx14. destruct Hx14 as (_ & Hv & ->).
  cbn [parse_ta tk_amount] in H.
  inv_bind H u8. apply role_w in Hx14.
  inv_bind H u9. apply owner_ok in Hx15.
  inv_bind H pb. apply seeds_ok_iff in Hx16. destruct Hx16 as (bump & Hfind & ->).
  inv_bind H uxd. apply owner_ta_ok in Hx16. destruct Hx16 as (Wux & Hux & ->).
  specialize (Wux eq_refl). cbn [parse_ta tk_amount] in H.
  inv_bind H u10. apply fail_if_ok, Z.ltb_ge in Hx16.
  inv_bind H u11. apply owner_ok in Hx17.
  inv_bind H u12. apply role_w in Hx18.
  inv_bind H xmd. apply mint_data_ok in Hx19. destruct Hx19 as [-> Hxms].
  cbn [parse_mint tm_supply tm_mint_authority_flag tm_mint_authority tm_freeze_authority_flag] in H.
  inv_bind H u13. apply fail_if_ok, orb_false_iff in Hx19. destruct Hx19 as [Hmf Hma].
  apply Z.eqb_neq in Hmf. apply negb_false_iff, key_eqb_true in Hma.
  inv_bind H u14. apply fail_if_ok, negb_false_iff, Z.eqb_eq in Hx19.
  inv_bind H u15. apply owner_ok in Hx20.
  inv_bind H omd. apply mint_data_ok in Hx21. destruct Hx21 as [-> Homs].
  inv_bind H std. apply state_data_ok in Hx21. destruct Hx21 as [-> Hsts].
  inv_bind H u16. apply verify_state_ok in Hx21.
  inv_bind H u17. apply verify_vault_ok in Hx22.
  inv_bind H ne. apply checked_sub_ok in Hx23. destruct Hx23 as [Hback ->].
  inv_bind H w. fold (non_escrowed l (m_key v) (m_key st)) in Hx23.
  inv_bind H u18. apply fail_if_ok, Z.eqb_neq in Hx24.
  inv_bind H l1.
  inv_bind H std1. apply state_data_ok in Hx26. destruct Hx26 as [-> Hsts1].
  inv_bind H esc. apply checked_add_ok in Hx26. destruct Hx26 as [Hesc ->].
  inv_bind H l3. inv_bind H ts.
  injection H as <- <-.
  (* burn *)
  unfold cpi_token_burn in Hx25. apply invoke_signed_ok in Hx25.
  destruct Hx25 as (pdas & _ & _ & _ & Hburn). apply token_burn_ok in Hburn.
  destruct Hburn as (sd1 & Lux & Lxm & Hnat & _ & _ & Hauth & Hsup & ->).
  rewrite (burn_auth_ext _ _ (owner_signs (m_key un))) in Hauth
    by (intros; apply signer_of_three).
  rewrite Hx8 in *. rewrite Hx9 in *.
  destruct Hux as (Hux1 & Hux2 & Hux3 & Hux4).
  assert (Hmf1 : mint_auth_flag (a_data (l xorca_mint_id)) = 1)
    by (apply mint_auth_cases; [apply Lxm|assumption]).
  (* distinctness *)
  assert (Hst_ux : m_key st <> m_key ux) by (apply (xorca_owned_ne l); assumption).
  assert (Hst_xm : m_key st <> xorca_mint_id) by (apply (xorca_owned_ne l); assumption).
  assert (Hst_v : m_key st <> m_key v) by (apply (xorca_owned_ne l); [assumption|apply Hv]).
  assert (Hpd_st : m_key pd <> m_key st)
    by (eapply (system_owned_ne l); [eassumption|eassumption|apply xorca_ne_system]).
  assert (Hpd_ux : m_key pd <> m_key ux)
    by (eapply (system_owned_ne l); [eassumption|eassumption|apply token_ne_system]).
  assert (Hpd_xm : m_key pd <> xorca_mint_id)
    by (eapply (system_owned_ne l); [eassumption|eassumption|apply token_ne_system]).
  assert (Hpda : create_program_address C
                   (pending_seeds (m_key un) i ++ [[bump]]) xorca_id = Some (m_key pd))
    by (apply find_create; exact Hfind).
  assert (Hun_pd : m_key un <> m_key pd).
  { intros Eq. apply (Hnp un); [eapply nth_error_In; eassumption|assumption|].
    rewrite Eq. eexists. exact Hpda. }
  set (l1 := burned l (m_key ux) xorca_mint_id x sd1) in *.
  assert (Est1 : l1 (m_key st) = l (m_key st)) by (apply burned_other; congruence).
  rewrite Est1 in *.
  set (l2 := set_data l1 (m_key st)
               (set_escrow (st_escrow (a_data (l (m_key st))) + w) (a_data (l (m_key st))))) in *.
  assert (Hw64 : is_u64 w /\ 0 < w).
  { pose proof Hx23 as Hq.
    apply xorca_to_orca_ok in Hq;
      [|assumption|now apply non_escrowed_range|apply mint_supply_range].
    destruct Hq as (Hq & _). split; [assumption|]. unfold is_u64 in Hq. lia. }
  destruct Hw64 as [Hw64 Hwpos].
  (* creation of the record *)
  unfold create_pending_account in Hx26. inv_bind Hx26 lc. inv_bind Hx26 dc.
  injection Hx26 as <-.
  rewrite byte_round in Hx25.
  assert (Epd2 : l2 (m_key pd) = l (m_key pd)).
  { unfold l2. rewrite set_data_other by congruence. unfold l1. apply burned_other; congruence. }
  assert (Hlam2 : forall k, a_lamports (l2 k) = a_lamports (l k)).
  { intros k. unfold l2, l1. autorewrite with ledger. apply burned_lamports. }
  assert (Hown2 : forall k, a_owner (l2 k) = a_owner (l k)).
  { intros k. unfold l2, l1. autorewrite with ledger. apply burned_owner. }
  assert (Hsys : caller_has_key accs system_id = true).
  { rewrite <- Hx11. apply has_key_in. eapply nth_error_In; eassumption. }
  apply create_secure_ok in Hx25;
    [|eapply nth_error_In; eassumption|eapply nth_error_In; eassumption|assumption|assumption
     |assumption|assumption|now rewrite Epd2|assumption
     |unfold PENDING_LEN, max_data_len; lia|apply xorca_ne_system
     |apply HE; unfold PENDING_LEN; lia|assumption].
  destruct Hx25 as (Hpd_data & Hfund & Hlc). rewrite Epd2 in Hpd_data.
  assert (Hfund' : can_fund E l (m_key un) (m_key pd) PENDING_LEN).
  { unfold can_fund in *. rewrite (rent_need_ext E l) in Hfund by apply Hlam2.
    rewrite !Hlam2 in Hfund. rewrite Hown2 in Hfund. intros Hc. specialize (Hfund Hc).
    destruct Hfund as (F1 & F2 & F3 & F4). repeat split; auto.
    (* the unstaker's data is empty in the ledger before as well *)
    destruct (key_eq_dec (m_key un) (m_key st)) as [K|K].
    { exfalso. rewrite K in F1. unfold l2 in F1. rewrite upd_data_same in F1.
      apply (f_equal (@length byte)) in F1. unfold set_escrow in F1.
      destruct Hsts as [HL _]. apply shaped_len in HL. rewrite set_u64_length in F1 by lia.
      cbn in F1. lia. }
    unfold l2 in F1. rewrite set_data_other in F1 by congruence.
    destruct (key_eq_dec (m_key un) xorca_mint_id) as [K2|K2].
    { exfalso. rewrite K2 in F1. unfold l1, burned in F1. rewrite upd_data_same in F1.
      apply (f_equal (@length byte)) in F1. unfold set_supply in F1.
      pose proof (mint_wf_len _ (proj1 (proj2 Lxm))) as HL.
      rewrite set_u64_length in F1 by lia. cbn in F1. lia. }
    destruct (key_eq_dec (m_key un) (m_key ux)) as [K3|K3].
    { exfalso. rewrite K3 in F1. unfold l1, burned in F1.
      rewrite set_data_other in F1 by congruence. rewrite upd_data_same in F1.
      apply (f_equal (@length byte)) in F1. unfold set_amount in F1.
      pose proof (ta_wf_len _ (proj1 (proj2 Lux))) as HL.
      pose proof (sbd_len _ _ (burn_auth_same _ _ _ _ _ _ _ HL Hauth)) as HL1.
      rewrite set_u64_length in F1 by lia. cbn in F1. lia. }
    unfold l1 in F1. now rewrite burned_other in F1. }
  assert (Hlc_pd : a_data (lc (m_key pd)) = zeros PENDING_LEN).
  { rewrite Hlc. unfold created. now rewrite upd_same. }
  rewrite Hlc_pd in Hx28.
  assert (Hdc : dc = set_u8 0 DISC_PENDING (zeros PENDING_LEN)).
  { unfold set_first_byte in Hx28. destruct (zlen _ =? 0); [discriminate|]. now injection Hx28. }
  subst dc. clear Hx28.
  set (Z3 := set_data lc (m_key pd) (set_u8 0 DISC_PENDING (zeros PENDING_LEN))) in *.
  assert (EZ3 : a_data (Z3 (m_key pd)) = set_u8 0 DISC_PENDING (zeros PENDING_LEN))
    by (unfold Z3; apply upd_data_same).
  rewrite EZ3 in *.
  assert (Hst4 : forall d, a_data (set_data Z3 (m_key pd) d (m_key st)) =
                 set_escrow (st_escrow (a_data (l (m_key st))) + w) (a_data (l (m_key st)))).
  { intros d. rewrite set_data_other by congruence. unfold Z3.
    rewrite set_data_other by congruence. rewrite Hlc. unfold created.
    rewrite upd_other by congruence. rewrite set_lamports_data. unfold l2. apply upd_data_same. }
  assert (Hlen : (2048 <= length (a_data (l (m_key st))))%nat)
    by (apply shaped_len, Hsts).
  assert (Hescr : is_u64 (st_escrow (a_data (l (m_key st))) + w)).
  { apply u64_of_sum; [apply get_u64_range|lia|assumption]. }
  destruct (set_escrow_same _ _ Hlen Hescr) as [Ee Es].
  rewrite Hst4 in *. rewrite (sse_cooldown _ _ Es) in *.
  apply checked_add_i64_ok in Hx27. destruct Hx27 as [Hts ->].
  exists un, st, pd, ux, xm, om, v, sp, tp, w, bump, sd1.
  split; [|split; [exact Hwpos|split; [exact Hw64|split]]].
  - constructor; auto.
  - eapply leq_trans; [apply set_data_twice|].
    unfold unstake_effect. fold l1. fold l2.
    apply leq_trans with (set_data lc (m_key pd)
      (pending_bytes (byte_to_Z bump) i (m_key un) w
         (now E + st_cooldown (a_data (l (m_key st)))))).
    + unfold Z3. apply set_data_twice.
    + now apply leq_set_data.
  - unfold unstake_event.
    rewrite set_data_other by congruence. rewrite Hst4, Ee, (sse_cooldown _ _ Es).
    rewrite wrap_u64_small; [reflexivity|].
    pose proof (mint_supply_range (a_data (l xorca_mint_id))). unfold is_u64 in *. lia.
Qed.

Ltac fetch_accounts :=
  repeat (match goal with
          | |- context [get_account_info ?a ?i] =>
              match goal with
              | H : nth_error a i = Some ?m |- _ =>
                  rewrite (proj2 (get_account_ok a i m) H); cbn [bind]
              end
          end).

(** Conversely the checks suffice. *)
Theorem unstake_run C E accs l x i un st pd ux xm om v sp tp w bump sd1 :
  is_u64 x -> is_u8 i -> env_ok E -> m_key un <> m_key pd ->
  unstake_pre C E accs l x i un st pd ux xm om v sp tp w bump sd1 ->
  exists l',
    unstake_process C E accs l x i =
      Ok (l', [event_bytes (unstake_event l (m_key st) (m_key v) x i w)]) /\
    leq l' (unstake_effect E l (m_key un) (m_key st) (m_key pd) (m_key ux) x i w bump sd1).
Proof.
  intros Hx Hi HE Hun_pd P.
  enough (exists l' evs, unstake_process C E accs l x i = Ok (l', evs) /\
    evs = [event_bytes (unstake_event l (m_key st) (m_key v) x i w)] /\
    leq l' (unstake_effect E l (m_key un) (m_key st) (m_key pd) (m_key ux) x i w bump sd1))
    as (l' & evs & H1 & -> & H2) by eauto.
  destruct P. destruct up_accs0.
  assert (Iun : In un accs) by (eapply nth_error_In; eassumption).
  assert (Ist : In st accs) by (eapply nth_error_In; eassumption).
  assert (Ipd : In pd accs) by (eapply nth_error_In; eassumption).
  assert (Iux : In ux accs) by (eapply nth_error_In; eassumption).
  assert (Ixm : In xm accs) by (eapply nth_error_In; eassumption).
  assert (Htok : caller_has_key accs token_id = true).
  { rewrite <- up_tp0. apply has_key_in. eapply nth_error_In; eassumption. }
  assert (Hsys : caller_has_key accs system_id = true).
  { rewrite <- up_sp0. apply has_key_in. eapply nth_error_In; eassumption. }
  unfold unstake_process. fetch_accounts.
  rewrite (proj2 (role_sw un tt)) by auto. cbn [bind].
  rewrite (proj2 (address_ok xm xorca_mint_id tt)) by assumption. cbn [bind].
  rewrite (proj2 (address_ok om orca_mint_id tt)) by assumption. cbn [bind].
  rewrite (proj2 (address_ok tp token_id tt)) by assumption. cbn [bind].
  rewrite (proj2 (address_ok sp system_id tt)) by assumption. cbn [bind].
  rewrite (proj2 (role_w st tt)) by auto. cbn [bind].
  rewrite (proj2 (owner_ok l st xorca_id tt)) by auto. cbn [bind].
  rewrite (proj2 (owner_ta_ok l v st om false (parse_ta (a_data (l (m_key v))))));
    [|split; [discriminate|split; [now rewrite up_om0|reflexivity]]].
  cbn [bind parse_ta tk_amount].
  rewrite (proj2 (role_w pd tt)) by auto. cbn [bind].
  rewrite (proj2 (owner_ok l pd system_id tt)) by auto. cbn [bind].
  rewrite (proj2 (seeds_ok_iff C pd xorca_id (pending_seeds (m_key un) i) (byte_to_Z bump)))
    by (exists bump; auto).
  cbn [bind].
  rewrite (proj2 (owner_ta_ok l ux un xm true (parse_ta (a_data (l (m_key ux))))));
    [|split; [auto|split; [|reflexivity]];
      rewrite up_xm0; unfold ta_of; repeat split; auto; try apply up_ux_live0;
      apply (ta_live_shaped l _ up_ux_live0)].
  cbn [bind parse_ta tk_amount].
  rewrite (fail_if_Ok (_ <? _)) by (apply Z.ltb_ge; lia). cbn [bind].
  rewrite (proj2 (owner_ok l xm token_id tt)) by (rewrite up_xm0; apply up_xm_live0). cbn [bind].
  rewrite (proj2 (role_w xm tt)) by auto. cbn [bind].
  rewrite (proj2 (mint_data_ok l xm (parse_mint (a_data (l (m_key xm))))))
    by (split; [reflexivity|rewrite up_xm0; now apply mint_live_shaped]).
  cbn [bind parse_mint tm_supply tm_mint_authority_flag tm_mint_authority
       tm_freeze_authority_flag].
  rewrite up_xm0 in *. rewrite up_xm_flag0, up_xm_auth0, key_eqb_refl. cbn [Z.eqb negb orb fail_if bind].
  rewrite up_xm_freeze0. cbn [Z.eqb negb orb fail_if bind].
  rewrite (proj2 (owner_ok l om token_id tt)) by (now rewrite up_om0). cbn [bind].
  rewrite (proj2 (mint_data_ok l om (parse_mint (a_data (l (m_key om))))))
    by (split; [reflexivity|now rewrite up_om0]).
  cbn [bind].
  rewrite (proj2 (state_data_ok l st (a_data (l (m_key st))))) by auto. cbn [bind].
  rewrite (proj2 (verify_state_ok C st _ tt)) by exact up_st_key0. cbn [bind].
  rewrite (proj2 (verify_vault_ok C st v om _ tt)) by (now rewrite up_om0). cbn [bind].
  rewrite (proj2 (checked_sub_ok _ _ _ (non_escrowed l (m_key v) (m_key st))))
    by (split; [assumption|reflexivity]).
  cbn [bind]. rewrite up_quote0. cbn [bind].
  rewrite (fail_if_Ok (_ =? _)) by (now apply Z.eqb_neq). cbn [bind].
  assert (Eb : cpi_token_burn C accs [] l ux xm un x
               = Ok (burned l (m_key ux) xorca_mint_id x sd1)).
  { apply cpi_burn_ok; auto. rewrite up_xm0. apply token_burn_ok. exists sd1.
    repeat split; auto; try apply up_ux_live0; try apply up_xm_live0.
    rewrite (burn_auth_ext _ _ (owner_signs (m_key un))) by (intros; apply signer_of_three).
    assumption. }
  rewrite Eb. cbn [bind].
  assert (Hst_ux : m_key st <> m_key ux)
    by (apply (xorca_owned_ne l); [assumption|apply up_ux_live0]).
  assert (Hst_xm : m_key st <> xorca_mint_id)
    by (apply (xorca_owned_ne l); [assumption|apply up_xm_live0]).
  assert (Hpd_st : m_key pd <> m_key st)
    by (eapply (system_owned_ne l); [eassumption|eassumption|apply xorca_ne_system]).
  assert (Hpd_ux : m_key pd <> m_key ux)
    by (eapply (system_owned_ne l); [eassumption|apply up_ux_live0|apply token_ne_system]).
  assert (Hpd_xm : m_key pd <> xorca_mint_id)
    by (eapply (system_owned_ne l); [eassumption|apply up_xm_live0|apply token_ne_system]).
  set (l1 := burned l (m_key ux) xorca_mint_id x sd1) in *.
  assert (Est1 : l1 (m_key st) = l (m_key st)) by (apply burned_other; congruence).
  rewrite (proj2 (state_data_ok l1 st (a_data (l (m_key st)))))
    by (rewrite Est1; auto).
  cbn [bind].
  rewrite (proj2 (checked_add_ok _ _ _ (st_escrow (a_data (l (m_key st))) + w))) by auto.
  cbn [bind].
  set (l2 := set_data l1 (m_key st)
               (set_escrow (st_escrow (a_data (l (m_key st))) + w) (a_data (l (m_key st))))) in *.
  assert (Epd2 : l2 (m_key pd) = l (m_key pd)).
  { unfold l2. rewrite set_data_other by congruence. unfold l1. apply burned_other; congruence. }
  assert (Hlam2 : forall k, a_lamports (l2 k) = a_lamports (l k)).
  { intros k. unfold l2, l1. autorewrite with ledger. apply burned_lamports. }
  assert (Hown2 : forall k, a_owner (l2 k) = a_owner (l k)).
  { intros k. unfold l2, l1. autorewrite with ledger. apply burned_owner. }
  assert (Hempty : a_data (l (m_key un)) = [] -> a_data (l2 (m_key un)) = []).
  { intros En. assert (m_key un <> m_key st).
    { intros K. rewrite K in En. destruct up_st_shape0 as [HL _]. rewrite En in HL.
      unfold zlen in HL. cbn in HL. lia. }
    assert (m_key un <> m_key ux).
    { intros K. rewrite K in En. pose proof (ta_wf_len _ (proj1 (proj2 up_ux_live0))) as HL.
      rewrite En in HL. discriminate. }
    assert (m_key un <> xorca_mint_id).
    { intros K. rewrite K in En. pose proof (mint_wf_len _ (proj1 (proj2 up_xm_live0))) as HL.
      rewrite En in HL. discriminate. }
    unfold l2. rewrite set_data_other by congruence. unfold l1. now rewrite burned_other. }
  assert (Hpda : create_program_address C
                   (pending_seeds (m_key un) i ++ [[bump]]) xorca_id = Some (m_key pd))
    by (apply find_create; exact up_pd_find0).
  rewrite byte_round.
  destruct (create_secure_run C E accs l2 un pd PENDING_LEN xorca_id
              (pending_seeds (m_key un) i ++ [[bump]])) as (lc & Hlc);
    auto; [now rewrite Epd2|unfold PENDING_LEN, max_data_len; lia|apply xorca_ne_system
          |apply HE; unfold PENDING_LEN; lia|now rewrite Epd2|..].
  { unfold can_fund in *. rewrite (rent_need_ext E l) by apply Hlam2. rewrite !Hlam2, Hown2.
    intros Hc. destruct (up_fund0 Hc) as (F1 & F2 & F3 & F4). auto. }
  pose proof Hlc as Hlc'.
  apply create_secure_ok in Hlc'; auto;
    [|now rewrite Epd2|unfold PENDING_LEN, max_data_len; lia|apply xorca_ne_system
     |apply HE; unfold PENDING_LEN; lia].
  destruct Hlc' as (_ & _ & Hleq).
  unfold create_pending_account. rewrite Hlc. cbn [bind].
  assert (Hlc_pd : a_data (lc (m_key pd)) = zeros PENDING_LEN).
  { rewrite Hleq. unfold created. now rewrite upd_same. }
  rewrite Hlc_pd.
  assert (Hz : set_first_byte DISC_PENDING (zeros PENDING_LEN)
               = Ok (set_u8 0 DISC_PENDING (zeros PENDING_LEN))).
  { unfold set_first_byte. rewrite zeros_zlen by (unfold PENDING_LEN; lia). reflexivity. }
  rewrite Hz. cbn [bind]. rewrite upd_data_same.
  set (Z3 := set_data lc (m_key pd) (set_u8 0 DISC_PENDING (zeros PENDING_LEN))) in *.
  assert (Hst4 : forall d, a_data (set_data Z3 (m_key pd) d (m_key st)) =
                 set_escrow (st_escrow (a_data (l (m_key st))) + w) (a_data (l (m_key st)))).
  { intros d. rewrite set_data_other by congruence. unfold Z3.
    rewrite set_data_other by congruence. rewrite Hleq. unfold created.
    rewrite upd_other by congruence. rewrite set_lamports_data. unfold l2. apply upd_data_same. }
  rewrite !Hst4.
  assert (Hlen : (2048 <= length (a_data (l (m_key st))))%nat)
    by (apply shaped_len, up_st_shape0).
  assert (Hw0 : is_u64 w).
  { pose proof up_quote0 as Hq.
    apply xorca_to_orca_ok in Hq;
      [|assumption|now apply non_escrowed_range|apply mint_supply_range]. apply Hq. }
  assert (Hescr : is_u64 (st_escrow (a_data (l (m_key st))) + w)).
  { apply u64_of_sum; [apply get_u64_range|unfold is_u64 in *; lia|assumption]. }
  destruct (set_escrow_same _ _ Hlen Hescr) as [Ee Es].
  rewrite (sse_cooldown _ _ Es).
  rewrite (proj2 (checked_add_i64_ok _ _ _ (now E + st_cooldown (a_data (l (m_key st))))))
    by auto.
  cbn [bind]. do 2 eexists. split; [reflexivity|]. split.
  - rewrite set_data_other by congruence. rewrite Hst4, Ee, (sse_cooldown _ _ Es).
    rewrite wrap_u64_small; [reflexivity|].
    pose proof (mint_supply_range (a_data (l xorca_mint_id))). unfold is_u64 in *. lia.
  - eapply leq_trans; [apply set_data_twice|].
    unfold unstake_effect. fold l1. fold l2.
    apply leq_trans with (set_data lc (m_key pd)
      (pending_bytes (byte_to_Z bump) i (m_key un) w
         (now E + st_cooldown (a_data (l (m_key st)))))).
    + unfold Z3. apply set_data_twice.
    + now apply leq_set_data.
Qed.
