(** Withdraw: success conditions and effect. *)
From Verif Require Import Program BytesFacts LedgerFacts TokenFacts ParseFacts CpiFacts AssertFacts
  MathFacts LayoutFacts StakeFacts UnstakeFacts.

Record withdraw_accounts (accs : list meta) (un st pd uo v om sp tp : meta) : Prop := {
  wa0 : nth_error accs 0 = Some un;
  wa1 : nth_error accs 1 = Some st;
  wa2 : nth_error accs 2 = Some pd;
  wa3 : nth_error accs 3 = Some uo;
  wa4 : nth_error accs 4 = Some v;
  wa5 : nth_error accs 5 = Some om;
  wa6 : nth_error accs 6 = Some sp;
  wa7 : nth_error accs 7 = Some tp
}.

(** The amount the record pays. *)
Definition claim (l : ledger) (pd : pubkey) : Z := pw_amount (a_data (l pd)).

(** Everything a successful Withdraw has checked, in terms of the ledger before. *)
Record withdraw_pre (C : crypto) (E : env) (accs : list meta) (l : ledger) (i : Z)
    (un st pd uo v om sp tp : meta) (vd1 : list byte) : Prop := {
  wp_accs : withdraw_accounts accs un st pd uo v om sp tp;
  wp_signer : m_signer un = true;
  wp_w0 : m_writable un = true;
  wp_w1 : m_writable st = true;
  wp_w2 : m_writable pd = true;
  wp_w3 : m_writable uo = true;
  wp_w4 : m_writable v = true;
  wp_om : m_key om = orca_mint_id;
  wp_sp : m_key sp = system_id;
  wp_tp : m_key tp = token_id;
  wp_om_owner : a_owner (l orca_mint_id) = token_id;
  wp_st_owner : a_owner (l (m_key st)) = xorca_id;
  wp_st_shape : state_shaped (a_data (l (m_key st)));
  wp_st_key : m_key st = state_address_with_bump C (st_bump (a_data (l (m_key st))));
  wp_st_pda : create_program_address C
                (state_seeds ++ [[Z_to_byte (st_bump (a_data (l (m_key st))))]]) xorca_id
              = Some (m_key st);
  wp_v_key : m_key v = vault_address_with_bump C (m_key st) orca_mint_id
                         (st_vault_bump (a_data (l (m_key st))));
  wp_v_live : ta_live l (m_key v);
  wp_v_mint : ta_mint (a_data (l (m_key v))) = orca_mint_id;
  wp_v_owner : ta_owner (a_data (l (m_key v))) = m_key st;
  wp_v_amount : claim l (m_key pd) <= ta_amount (a_data (l (m_key v)));
  wp_v_auth : spend_auth l (owner_signs (m_key st)) [] (a_data (l (m_key v))) (m_key st)
                (claim l (m_key pd)) true = Ok vd1;
  wp_pd_owner : a_owner (l (m_key pd)) = xorca_id;
  wp_pd_shape : pending_shaped (a_data (l (m_key pd)));
  wp_pd_key : m_key pd = pending_address_with_bump C (m_key un) i (pw_bump (a_data (l (m_key pd))));
  wp_uo_live : ta_live l (m_key uo);
  wp_uo_mint : ta_mint (a_data (l (m_key uo))) = orca_mint_id;
  wp_uo_owner : ta_owner (a_data (l (m_key uo))) = m_key un;
  wp_uo_room : ta_amount (a_data (l (m_key uo))) + claim l (m_key pd) <= u64_max;
  wp_time : pw_timestamp (a_data (l (m_key pd))) <= now E;
  wp_escrow : claim l (m_key pd) <= st_escrow (a_data (l (m_key st)));
  wp_lam : ta_native_flag (a_data (l (m_key v))) = 0 ->
           a_lamports (l (m_key un)) + a_lamports (l (m_key pd)) <= u64_max /\
           (0 < a_lamports (l (m_key pd)) -> m_key un <> m_key pd)
}.

(** The accounts Withdraw writes, in terms of the ledger before. *)
Definition withdraw_effect (l : ledger) (un st pd uo v : pubkey) (vd1 : list byte) : ledger :=
  set_data
    (upd (set_lamports (transferred l v uo (claim l pd) vd1)
            un (a_lamports (l un) + a_lamports (l pd)))
         pd (Account 0 system_id []))
    st (set_escrow (st_escrow (a_data (l st)) - claim l pd) (a_data (l st))).

Definition withdraw_event (l : ledger) (st pd : pubkey) (i : Z) : event :=
  EvWithdraw (st_escrow (a_data (l st)) - claim l pd) (claim l pd) (st_cooldown (a_data (l st))) i.

Lemma transferred_lamports l f t n sd1 k :
  a_lamports (transferred l f t n sd1 k) = a_lamports (l k).
Proof. unfold transferred. now autorewrite with ledger. Qed.

Lemma close_ok l pd un l' :
  close_program_account l pd un = Ok l' <->
  a_data (l (m_key pd)) <> [] /\
  a_lamports (l (m_key un)) + a_lamports (l (m_key pd)) <= u64_max /\
  (0 < a_lamports (l (m_key pd)) -> m_key un <> m_key pd) /\
  l' = (let l1 := set_data l (m_key pd) (set_u8 0 DISC_CLOSED (a_data (l (m_key pd)))) in
        set_owner (set_data (set_lamports (set_lamports l1 (m_key un)
          (a_lamports (l (m_key un)) + a_lamports (l (m_key pd)))) (m_key pd) 0)
          (m_key pd) []) (m_key pd) system_id).
Proof.
  unfold close_program_account. split.
  - intros H. inv_bind H d. unfold set_first_byte in Hx.
    destruct (zlen (a_data (l (m_key pd))) =? 0) eqn:Ez; [discriminate|]. injection Hx as <-.
    autorewrite with ledger in H.
    inv_bind H u1. apply fail_if_ok, Z.ltb_ge in Hx.
    inv_bind H u2. apply fail_if_ok in Hx0. injection H as <-.
    apply Z.eqb_neq in Ez. rewrite zlen_nil in Ez.
    repeat split; auto. intros Hp K. apply andb_false_iff in Hx0. destruct Hx0 as [K'|K'].
    + rewrite K, key_eqb_refl in K'. discriminate.
    + apply Z.ltb_ge in K'. lia.
  - intros (H1 & H2 & H3 & ->). unfold set_first_byte.
    destruct (zlen (a_data (l (m_key pd))) =? 0) eqn:Ez.
    { apply Z.eqb_eq, zlen_nil in Ez. contradiction. }
    cbn [bind]. autorewrite with ledger.
    rewrite (fail_if_Ok (_ <? _)) by (now apply Z.ltb_ge). cbn [bind].
    rewrite (fail_if_Ok (_ && _)).
    + reflexivity.
    + apply andb_false_iff. destruct (Z_lt_le_dec 0 (a_lamports (l (m_key pd)))).
      * left. apply key_eqb_neq. auto.
      * right. now apply Z.ltb_ge.
Qed.

Lemma close_leq l pd un d :
  leq (set_owner (set_data (set_lamports (set_lamports (set_data l pd d) un
          (a_lamports (l un) + a_lamports (l pd))) pd 0) pd []) pd system_id)
      (upd (set_lamports l un (a_lamports (l un) + a_lamports (l pd))) pd (Account 0 system_id [])).
Proof.
  intros k. destruct (key_eq_dec pd k) as [<-|H].
  - rewrite set_owner_same, upd_same. autorewrite with ledger. reflexivity.
  - rewrite set_owner_other, set_data_other, set_lamports_other, upd_other by exact H.
    destruct (key_eq_dec un k) as [<-|H'].
    + rewrite !set_lamports_same. autorewrite with ledger. f_equal.
      rewrite set_data_other by exact H. reflexivity.
    + rewrite !set_lamports_other by exact H'. now rewrite set_data_other.
Qed.

Theorem withdraw_inv C E accs l i l' evs :
  is_u8 i -> no_pda_signers C accs ->
  withdraw_process C E accs l i = Ok (l', evs) ->
  exists un st pd uo v om sp tp vd1,
    withdraw_pre C E accs l i un st pd uo v om sp tp vd1 /\
    m_key v <> m_key uo /\
    deq l' (withdraw_effect l (m_key un) (m_key st) (m_key pd) (m_key uo) (m_key v) vd1) /\
    (ta_native_flag (a_data (l (m_key v))) = 0 ->
       leq l' (withdraw_effect l (m_key un) (m_key st) (m_key pd) (m_key uo) (m_key v) vd1)) /\
    (forall k, a_lamports (l' k) =
       if key_eqb (m_key pd) k then 0 else
       a_lamports (l k) + native_moves l (m_key v) (m_key uo) (claim l (m_key pd)) k
       + (if key_eqb (m_key un) k then a_lamports (l (m_key pd)) else 0)) /\
    (ta_is_native (a_data (l (m_key v))) = true ->
       claim l (m_key pd) <= a_lamports (l (m_key v))) /\
    evs = [event_bytes (withdraw_event l (m_key st) (m_key pd) i)].
Proof.
  intros Hi' Hnp H. unfold withdraw_process in H.
  inv_bind H un. inv_bind H st. inv_bind H pd. inv_bind H uo. inv_bind H v.
  inv_bind H om. inv_bind H sp. inv_bind H tp.
  apply get_account_ok in Hx, Hx0, Hx1, Hx2, Hx3, Hx4, Hx5, Hx6.
  assert (Hacc : withdraw_accounts accs un st pd uo v om sp tp) by (constructor; assumption).
  inv_bind H u1. apply role_sw in Hx7. destruct Hx7 as [Sun Wun].
  inv_bind H u2. apply address_ok in Hx7.
  inv_bind H u3. apply owner_ok in Hx8.
  inv_bind H u4. apply role_w in Hx9.
  inv_bind H u5. apply owner_ok in Hx10.
  inv_bind H std. apply state_data_ok in Hx11. destruct Hx11 as [-> Hsts].
  inv_bind H u6. apply verify_state_ok in Hx11.
  inv_bind H u7. apply verify_vault_ok in Hx12.
  inv_bind H u8. apply role_w in Hx13.
  inv_bind H u9. apply owner_ok in Hx14.
  inv_bind H pdd. apply pending_data_ok in Hx15. destruct Hx15 as [-> Hpds].
  inv_bind H u10. apply verify_pending_ok in Hx15.
  inv_bind H uod. apply owner_ta_ok in Hx16. destruct Hx16 as (Wuo & Huo & ->).
  specialize (Wuo eq_refl).
  inv_bind H vd. apply owner_ta_ok in Hx16. destruct Hx16 as (Wv & Hv & ->).
  specialize (Wv eq_refl).
  inv_bind H u11. apply address_ok in Hx16.
  inv_bind H u12. apply address_ok in Hx17.
  inv_bind H u13. apply fail_if_ok, Z.ltb_ge in Hx18.
  inv_bind H u14. apply fail_if_ok, Z.ltb_ge in Hx19.
  inv_bind H l1. inv_bind H l2.
  inv_bind H sv1. apply state_data_ok in Hx22. destruct Hx22 as [-> Hsts2].
  inv_bind H ne. apply checked_sub_ok in Hx22. destruct Hx22 as [Hne ->].
  injection H as <- <-.
  fold (claim l (m_key pd)) in *.
  (* the transfer *)
  unfold cpi_token_transfer in Hx20. apply invoke_signed_ok in Hx20.
  destruct Hx20 as (pdas & Hpd & Htok & Hall & Htr).
  apply pda_signers_inv in Hpd. destruct Hpd as (kk & Hkk & ->).
  assert (Hkst : kk = m_key st).
  { rewrite (create_derive _ _ _ _ _ Hkk). symmetry. exact Hx11. }
  subst kk.
  assert (Hst_pda : is_pda C (m_key st)) by (eexists; exact Hkk).
  assert (Hne_st : m_key un <> m_key st).
  { intros K. apply (Hnp un); [eapply nth_error_In; eassumption|assumption|]. now rewrite K. }
  destruct Huo as (Huo1 & Huo2 & Huo3 & Huo4). destruct Hv as (Hv1 & Hv2 & Hv3 & Hv4).
  assert (Hne_v : m_key v <> m_key uo) by (intros K; rewrite K in Hv4; congruence).
  apply token_transfer_inv in Htr; [|exact Hne_v].
  destruct Htr as (vd1 & Lv & Luo & Hamt & _ & Hauth & Hroom & Hdeq & Heq & Hmv & Hnl).
  rewrite (spend_auth_ext _ _ (owner_signs (m_key st))) in Hauth
    by (intros; apply signer_of_three).
  rewrite Hx7 in *.
  assert (Hst_v : m_key st <> m_key v) by (apply (xorca_owned_ne l); assumption).
  assert (Hst_uo : m_key st <> m_key uo) by (apply (xorca_owned_ne l); assumption).
  assert (Hpd_v : m_key pd <> m_key v) by (apply (xorca_owned_ne l); assumption).
  assert (Hpd_uo : m_key pd <> m_key uo) by (apply (xorca_owned_ne l); assumption).
  assert (Hpd_st : m_key pd <> m_key st).
  { intros K. rewrite K in Hpds. destruct Hpds as [_ D1]. destruct Hsts as [_ D2].
    unfold pw_disc, st_disc in *. congruence. }
  assert (Est1 : a_data (l1 (m_key st)) = a_data (l (m_key st))).
  { destruct (Hdeq (m_key st)) as [E1 _]. rewrite E1. now rewrite transferred_data_other. }
  apply close_ok in Hx21. destruct Hx21 as (_ & Hlam & Hself & Hl2).
  assert (Est2 : a_data (l2 (m_key st)) = a_data (l (m_key st))).
  { rewrite Hl2. cbv zeta. autorewrite with ledger. rewrite set_data_other by exact Hpd_st.
    autorewrite with ledger. rewrite set_data_other by exact Hpd_st. exact Est1. }
  rewrite Est2 in *.
  assert (Hlen : (2048 <= length (a_data (l (m_key st))))%nat) by (apply shaped_len, Hsts).
  assert (Hl3 : leq l2 (upd (set_lamports l1 (m_key un)
     (a_lamports (l1 (m_key un)) + a_lamports (l1 (m_key pd)))) (m_key pd) (Account 0 system_id [])))
    by (rewrite Hl2; apply close_leq).
  exists un, st, pd, uo, v, om, sp, tp, vd1.
  split; [|split; [exact Hne_v|split; [|split; [|split; [|split; [exact Hnl|]]]]]].
  - constructor; auto. intros Hn. rewrite (Heq Hn) in *.
    rewrite !transferred_lamports in *. auto.
  - intros k. unfold withdraw_effect.
    destruct (key_eq_dec (m_key st) k) as [<-|K].
    + rewrite !set_data_same. cbn [a_data a_owner]. split; [reflexivity|].
      rewrite Hl3. rewrite !upd_other by congruence. autorewrite with ledger.
      rewrite (proj2 (Hdeq _)). reflexivity.
    + rewrite !set_data_other by exact K. rewrite Hl3.
      destruct (key_eq_dec (m_key pd) k) as [<-|K2].
      * now rewrite !upd_same.
      * rewrite !upd_other by exact K2. autorewrite with ledger. apply Hdeq.
  - intros Hn. rewrite (Heq Hn) in *. unfold withdraw_effect.
    apply leq_set_data. rewrite !transferred_lamports in Hl3. exact Hl3.
  - intros k. rewrite set_data_lamports, Hl3.
    destruct (key_eq_dec (m_key pd) k) as [<-|K].
    + now rewrite upd_same, key_eqb_refl.
    + rewrite upd_other by exact K. rewrite (key_eqb_neq (m_key pd) k) by exact K.
      assert (Hpd0 : a_lamports (l1 (m_key pd)) = a_lamports (l (m_key pd))).
      { rewrite Hmv. unfold native_moves. rewrite (key_eqb_neq (m_key uo)), (key_eqb_neq (m_key v))
          by congruence. destruct (ta_is_native _); lia. }
      destruct (key_eq_dec (m_key un) k) as [<-|K2].
      * rewrite set_lamports_same_lamports, key_eqb_refl, Hmv, Hpd0. reflexivity.
      * rewrite set_lamports_other by exact K2. rewrite (key_eqb_neq (m_key un)) by exact K2.
        rewrite Hmv. lia.
  - unfold withdraw_event. rewrite upd_data_same.
    destruct (set_escrow_same (st_escrow (a_data (l (m_key st))) - claim l (m_key pd)) _ Hlen)
      as [_ Es].
    { pose proof (get_u64_range 8 (a_data (l (m_key st)))) as R1.
      pose proof (get_u64_range 40 (a_data (l (m_key pd)))) as R2.
      unfold st_escrow, claim, pw_amount, is_u64 in *. lia. }
    rewrite (sse_cooldown _ _ Es). reflexivity.
Qed.

(** Conversely the checks suffice. *)
Theorem withdraw_run C E accs l i un st pd uo v om sp tp vd1 :
  is_u8 i -> m_key v <> m_key uo -> ta_native_flag (a_data (l (m_key v))) = 0 ->
  withdraw_pre C E accs l i un st pd uo v om sp tp vd1 ->
  exists l',
    withdraw_process C E accs l i =
      Ok (l', [event_bytes (withdraw_event l (m_key st) (m_key pd) i)]) /\
    leq l' (withdraw_effect l (m_key un) (m_key st) (m_key pd) (m_key uo) (m_key v) vd1).
Proof.
  intros Hi Hne_v Hnat P.
  destruct P. destruct wp_accs0. specialize (wp_lam0 Hnat). destruct wp_lam0 as [Hlam Hself].
  assert (Iun : In un accs) by (eapply nth_error_In; eassumption).
  assert (Ist : In st accs) by (eapply nth_error_In; eassumption).
  assert (Ipd : In pd accs) by (eapply nth_error_In; eassumption).
  assert (Iuo : In uo accs) by (eapply nth_error_In; eassumption).
  assert (Iv : In v accs) by (eapply nth_error_In; eassumption).
  assert (Htok : caller_has_key accs token_id = true).
  { rewrite <- wp_tp0. apply has_key_in. eapply nth_error_In; eassumption. }
  assert (Hst_v : m_key st <> m_key v)
    by (apply (xorca_owned_ne l); [assumption|apply wp_v_live0]).
  assert (Hst_uo : m_key st <> m_key uo)
    by (apply (xorca_owned_ne l); [assumption|apply wp_uo_live0]).
  assert (Hpd_v : m_key pd <> m_key v)
    by (apply (xorca_owned_ne l); [assumption|apply wp_v_live0]).
  assert (Hpd_uo : m_key pd <> m_key uo)
    by (apply (xorca_owned_ne l); [assumption|apply wp_uo_live0]).
  assert (Hpd_st : m_key pd <> m_key st).
  { intros K. rewrite K in wp_pd_shape0. destruct wp_pd_shape0 as [_ D1].
    destruct wp_st_shape0 as [_ D2]. unfold pw_disc, st_disc in *. congruence. }
  unfold withdraw_process. fetch_accounts.
  rewrite (proj2 (role_sw un tt)) by auto. cbn [bind].
  rewrite (proj2 (address_ok om orca_mint_id tt)) by assumption. cbn [bind].
  rewrite (proj2 (owner_ok l om token_id tt)) by (now rewrite wp_om0). cbn [bind].
  rewrite (proj2 (role_w st tt)) by auto. cbn [bind].
  rewrite (proj2 (owner_ok l st xorca_id tt)) by auto. cbn [bind].
  rewrite (proj2 (state_data_ok l st (a_data (l (m_key st))))) by auto. cbn [bind].
  rewrite (proj2 (verify_state_ok C st _ tt)) by exact wp_st_key0. cbn [bind].
  rewrite (proj2 (verify_vault_ok C st v om _ tt)) by (now rewrite wp_om0). cbn [bind].
  rewrite (proj2 (role_w pd tt)) by auto. cbn [bind].
  rewrite (proj2 (owner_ok l pd xorca_id tt)) by auto. cbn [bind].
  rewrite (proj2 (pending_data_ok l pd (a_data (l (m_key pd))))) by auto. cbn [bind].
  rewrite (proj2 (verify_pending_ok C pd _ _ _ tt)) by exact wp_pd_key0. cbn [bind].
  rewrite (proj2 (owner_ta_ok l uo un om true (parse_ta (a_data (l (m_key uo))))));
    [|split; [auto|split; [|reflexivity]];
      rewrite wp_om0; unfold ta_of; repeat split; auto; try apply wp_uo_live0;
      apply (ta_live_shaped l _ wp_uo_live0)].
  cbn [bind].
  rewrite (proj2 (owner_ta_ok l v st om true (parse_ta (a_data (l (m_key v))))));
    [|split; [auto|split; [|reflexivity]];
      rewrite wp_om0; unfold ta_of; repeat split; auto; try apply wp_v_live0;
      apply (ta_live_shaped l _ wp_v_live0)].
  cbn [bind].
  rewrite (proj2 (address_ok sp system_id tt)) by assumption. cbn [bind].
  rewrite (proj2 (address_ok tp token_id tt)) by assumption. cbn [bind].
  rewrite (fail_if_Ok (_ <? _)) by (now apply Z.ltb_ge). cbn [bind].
  fold (claim l (m_key pd)).
  rewrite (fail_if_Ok (_ <? _)) by (now apply Z.ltb_ge). cbn [bind].
  assert (Etr : cpi_token_transfer C accs
                  [state_seeds ++ [[Z_to_byte (st_bump (a_data (l (m_key st))))]]]
                  l v uo st (claim l (m_key pd))
                = Ok (transferred l (m_key v) (m_key uo) (claim l (m_key pd)) vd1)).
  { apply cpi_transfer_ok; auto.
    - right. exists [m_key st]. split; [now apply pda_signers_one|].
      cbn. now rewrite key_eqb_refl.
    - exists [m_key st]. now apply pda_signers_one.
    - apply token_transfer_ok; [assumption..|]. exists vd1. repeat split; try assumption.
      all: try apply wp_uo_live0; try apply wp_v_live0.
      + congruence.
      + rewrite (spend_auth_ext _ _ (owner_signs (m_key st))) by (intros; apply signer_of_three).
        assumption. }
  rewrite Etr. cbn [bind].
  set (l1 := transferred l (m_key v) (m_key uo) (claim l (m_key pd)) vd1) in *.
  assert (Hl1lam : forall k, a_lamports (l1 k) = a_lamports (l k))
    by (intros; apply transferred_lamports).
  assert (Epd1 : l1 (m_key pd) = l (m_key pd)) by (now apply transferred_data_other).
  assert (Est1 : l1 (m_key st) = l (m_key st)) by (now apply transferred_data_other).
  destruct (close_program_account l1 pd un) as [l2|e] eqn:Ecl.
  2:{ exfalso.
      assert (K : exists l2, close_program_account l1 pd un = Ok l2); [|destruct K; congruence].
      eexists. apply close_ok. rewrite !Hl1lam. split; [|split; [|split; [|reflexivity]]]; auto.
      rewrite Epd1. intros K. destruct wp_pd_shape0 as [D _]. rewrite K in D.
      unfold zlen in D. cbn in D. lia. }
  pose proof Ecl as Hl2. apply close_ok in Hl2. destruct Hl2 as (_ & _ & _ & Hl2).
  assert (Hl3 : leq l2 (upd (set_lamports l1 (m_key un)
     (a_lamports (l1 (m_key un)) + a_lamports (l1 (m_key pd)))) (m_key pd) (Account 0 system_id [])))
    by (rewrite Hl2; apply close_leq).
  cbn [bind].
  assert (Est2 : a_data (l2 (m_key st)) = a_data (l (m_key st))).
  { rewrite Hl3. rewrite upd_other by exact Hpd_st. autorewrite with ledger. now rewrite Est1. }
  rewrite (proj2 (state_data_ok l2 st (a_data (l (m_key st))))) by (split; [congruence|assumption]).
  cbn [bind].
  rewrite (proj2 (checked_sub_ok _ _ _ (st_escrow (a_data (l (m_key st))) - claim l (m_key pd))))
    by auto.
  cbn [bind]. eexists. split.
  - rewrite upd_data_same.
    assert (Hlen : (2048 <= length (a_data (l (m_key st))))%nat)
      by (apply shaped_len, wp_st_shape0).
    destruct (set_escrow_same (st_escrow (a_data (l (m_key st))) - claim l (m_key pd)) _ Hlen)
      as [_ Es].
    { pose proof (get_u64_range 8 (a_data (l (m_key st)))) as R1.
      pose proof (get_u64_range 40 (a_data (l (m_key pd)))) as R2.
      unfold st_escrow, claim, pw_amount, is_u64 in *. lia. }
    rewrite (sse_cooldown _ _ Es). reflexivity.
  - unfold withdraw_effect. apply leq_set_data. rewrite !Hl1lam in Hl3. exact Hl3.
Qed.
