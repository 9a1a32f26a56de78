(** Stake: success conditions and effect. *)
From Verif Require Import Program BytesFacts LedgerFacts TokenFacts ParseFacts CpiFacts AssertFacts
  MathFacts.

Definition non_escrowed (l : ledger) (vault st : pubkey) : Z :=
  ta_amount (a_data (l vault)) - st_escrow (a_data (l st)).

Record stake_accounts (accs : list meta) (staker vault so sx xm st om tp : meta) : Prop := {
  sa0 : nth_error accs 0 = Some staker;
  sa1 : nth_error accs 1 = Some vault;
  sa2 : nth_error accs 2 = Some so;
  sa3 : nth_error accs 3 = Some sx;
  sa4 : nth_error accs 4 = Some xm;
  sa5 : nth_error accs 5 = Some st;
  sa6 : nth_error accs 6 = Some om;
  sa7 : nth_error accs 7 = Some tp
}.

(** Everything a successful Stake has checked, in terms of the ledger before. *)
Record stake_pre (C : crypto) (accs : list meta) (l : ledger) (a : Z)
    (staker vault so sx xm st om tp : meta) (m : Z) (sd1 : list byte) : Prop := {
  sp_accs : stake_accounts accs staker vault so sx xm st om tp;
  sp_signer : m_signer staker = true;
  sp_w0 : m_writable staker = true;
  sp_w1 : m_writable vault = true;
  sp_w2 : m_writable so = true;
  sp_w3 : m_writable sx = true;
  sp_w4 : m_writable xm = true;
  sp_xm : m_key xm = xorca_mint_id;
  sp_om : m_key om = orca_mint_id;
  sp_tp : m_key tp = token_id;
  sp_om_owner : a_owner (l orca_mint_id) = token_id;
  sp_so_live : ta_live l (m_key so);
  sp_so_mint : ta_mint (a_data (l (m_key so))) = orca_mint_id;
  sp_so_owner : ta_owner (a_data (l (m_key so))) = m_key staker;
  sp_so_amount : a <= ta_amount (a_data (l (m_key so)));
  sp_so_auth : spend_auth l (owner_signs (m_key staker)) [] (a_data (l (m_key so)))
                 (m_key staker) a true = Ok sd1;
  sp_sx_live : ta_live l (m_key sx);
  sp_sx_mint : ta_mint (a_data (l (m_key sx))) = xorca_mint_id;
  sp_sx_owner : ta_owner (a_data (l (m_key sx))) = m_key staker;
  sp_sx_native : ta_native_flag (a_data (l (m_key sx))) = 0;
  sp_sx_room : ta_amount (a_data (l (m_key sx))) + m <= u64_max;
  sp_xm_live : mint_live l xorca_mint_id;
  sp_xm_flag : mint_auth_flag (a_data (l xorca_mint_id)) = 1;
  sp_xm_auth : mint_auth (a_data (l xorca_mint_id)) = m_key st;
  sp_xm_room : mint_supply (a_data (l xorca_mint_id)) + m <= u64_max;
  sp_st_owner : a_owner (l (m_key st)) = xorca_id;
  sp_st_shape : state_shaped (a_data (l (m_key st)));
  sp_st_key : m_key st = state_address_with_bump C (st_bump (a_data (l (m_key st))));
  sp_st_pda : create_program_address C
                (state_seeds ++ [[Z_to_byte (st_bump (a_data (l (m_key st))))]]) xorca_id
              = Some (m_key st);
  sp_v_key : m_key vault = vault_address_with_bump C (m_key st) orca_mint_id
                             (st_vault_bump (a_data (l (m_key st))));
  sp_v_live : ta_live l (m_key vault);
  sp_v_mint : ta_mint (a_data (l (m_key vault))) = orca_mint_id;
  sp_v_owner : ta_owner (a_data (l (m_key vault))) = m_key st;
  sp_v_room : ta_amount (a_data (l (m_key vault))) + a <= u64_max;
  sp_backed : st_escrow (a_data (l (m_key st))) <= ta_amount (a_data (l (m_key vault)));
  sp_quote : convert_orca_to_xorca a (non_escrowed l (m_key vault) (m_key st))
               (mint_supply (a_data (l xorca_mint_id))) = Ok m;
  sp_pos : m <> 0
}.

(** The accounts Stake writes, in terms of the ledger before. *)
Definition stake_effect (l : ledger) (vault so sx : pubkey) (a m : Z) (sd1 : list byte) : ledger :=
  set_data
    (set_data (transferred l so vault a sd1)
       sx (set_amount (ta_amount (a_data (l sx)) + m) (a_data (l sx))))
    xorca_mint_id
    (set_supply (mint_supply (a_data (l xorca_mint_id)) + m) (a_data (l xorca_mint_id))).

Definition stake_event (l : ledger) (vault st : pubkey) (a m : Z) : event :=
  EvStake a (ta_amount (a_data (l vault)) + a) (st_escrow (a_data (l st)))
          (mint_supply (a_data (l xorca_mint_id)) + m) m.

Lemma wrap_u64_small z : is_u64 z -> wrap_u64 z = z.
Proof. unfold wrap_u64, is_u64. intros. apply Z.mod_small. lia. Qed.

Lemma u64_of_sum a b : is_u64 a -> 0 <= b -> a + b <= u64_max -> is_u64 (a + b).
Proof. unfold is_u64, u64_max. lia. Qed.

Lemma transferred_data_other l f t n sd1 k :
  k <> f -> k <> t -> transferred l f t n sd1 k = l k.
Proof.
  intros H1 H2. unfold transferred. rewrite !set_data_other by congruence. reflexivity.
Qed.

Lemma state_not_token (l : ledger) k :
  a_owner (l k) = xorca_id -> a_owner (l k) <> token_id.
Proof. intros -> H. symmetry in H. now apply ids_distinct in H. Qed.

Lemma transferred_owner l f t n sd1 k : a_owner (transferred l f t n sd1 k) = a_owner (l k).
Proof. unfold transferred. now autorewrite with ledger. Qed.

(** Facts that make the four written accounts distinct. *)
Lemma mint_ne_ta l m t : mint_live l m -> ta_live l t -> m <> t.
Proof.
  intros (_ & H1 & _) (_ & H2 & _) ->. eapply ta_not_mint; eassumption.
Qed.

Lemma orca_ne_xorca (l : ledger) a b :
  ta_mint (a_data (l a)) = orca_mint_id -> ta_mint (a_data (l b)) = xorca_mint_id -> a <> b.
Proof. intros H1 H2 ->. rewrite H1 in H2. now apply ids_distinct in H2. Qed.

Lemma xorca_owned_ne (l : ledger) a b : a_owner (l a) = xorca_id -> a_owner (l b) = token_id -> a <> b.
Proof. intros H1 H2 ->. rewrite H1 in H2. symmetry in H2. now apply ids_distinct in H2. Qed.

Theorem stake_inv C accs l a l' evs :
  is_u64 a -> no_pda_signers C accs ->
  stake_process C accs l a = Ok (l', evs) ->
  exists staker vault so sx xm st om tp m sd1,
    stake_pre C accs l a staker vault so sx xm st om tp m sd1 /\
    0 < m /\ is_u64 m /\ m_key so <> m_key vault /\
    deq l' (stake_effect l (m_key vault) (m_key so) (m_key sx) a m sd1) /\
    (ta_native_flag (a_data (l (m_key so))) = 0 ->
       l' = stake_effect l (m_key vault) (m_key so) (m_key sx) a m sd1) /\
    (forall k, a_lamports (l' k)
               = a_lamports (l k) + native_moves l (m_key so) (m_key vault) a k) /\
    (ta_is_native (a_data (l (m_key so))) = true -> a <= a_lamports (l (m_key so))) /\
    evs = [event_bytes (stake_event l (m_key vault) (m_key st) a m)].
Proof.
  intros Ha Hnp H. unfold stake_process in H.
  inv_bind H staker. inv_bind H vault. inv_bind H so. inv_bind H sx. inv_bind H xm.
  inv_bind H st. inv_bind H om. inv_bind H tp.
  apply get_account_ok in Hx, Hx0, Hx1, Hx2, Hx3, Hx4, Hx5, Hx6.
  assert (Hacc : stake_accounts accs staker vault so sx xm st om tp) by (constructor; assumption).
  inv_bind H u1. apply role_sw in Hx7. destruct Hx7 as [Sst Wst].
  inv_bind H u2. apply address_ok in Hx7.
  inv_bind H u3. apply address_ok in Hx8.
  inv_bind H u4. apply address_ok in Hx9.
  inv_bind H sod. apply owner_ta_ok in Hx10. destruct Hx10 as (Wso & Hso & ->).
  specialize (Wso eq_refl). cbn [parse_ta tk_amount] in H.
  inv_bind H u5. apply fail_if_ok, Z.ltb_ge in Hx10.
  inv_bind H sxd. apply owner_ta_ok in Hx11. destruct Hx11 as (Wsx & Hsx & ->).
  specialize (Wsx eq_refl).
  inv_bind H u6. apply role_w in Hx11.
  inv_bind H u7. apply owner_ok in Hx12.
  inv_bind H xmd. apply mint_data_ok in Hx13. destruct Hx13 as [-> Hxms].
  cbn [parse_mint tm_supply] in H.
  inv_bind H u8. apply owner_ok in Hx13.
  inv_bind H u9. apply owner_ok in Hx14.
  inv_bind H std. apply state_data_ok in Hx15. destruct Hx15 as [-> Hsts].
  inv_bind H u10. apply verify_state_ok in Hx15.
  inv_bind H u11. apply verify_vault_ok in Hx16.
  inv_bind H vd. apply owner_ta_ok in Hx17. destruct Hx17 as (Wv & Hv & ->).
  specialize (Wv eq_refl). cbn [parse_ta tk_amount] in H.
  inv_bind H ne. apply checked_sub_ok in Hx17. destruct Hx17 as [Hback ->].
  inv_bind H m. fold (non_escrowed l (m_key vault) (m_key st)) in Hx17.
  inv_bind H u12. apply fail_if_ok, Z.eqb_neq in Hx18.
  inv_bind H l1. inv_bind H l2.
  injection H as <- <-.
  (* mint CPI: the state key is a PDA *)
  unfold cpi_token_mint_to in Hx20. apply invoke_signed_ok in Hx20.
  destruct Hx20 as (pdas & Hpd & Htok & Hall & Hmint).
  apply pda_signers_inv in Hpd. destruct Hpd as (kk & Hkk & ->).
  assert (Hkst : kk = m_key st).
  { rewrite (create_derive _ _ _ _ _ Hkk). symmetry. exact Hx15. }
  subst kk.
  assert (Hst_pda : is_pda C (m_key st)) by (eexists; exact Hkk).
  assert (Hne_st : m_key staker <> m_key st).
  { intros E. apply (Hnp staker); [eapply nth_error_In; eassumption|assumption|]. now rewrite E. }
  destruct Hso as (Hso1 & Hso2 & Hso3 & Hso4). destruct Hsx as (Hsx1 & Hsx2 & Hsx3 & Hsx4).
  destruct Hv as (Hv1 & Hv2 & Hv3 & Hv4).
  assert (Hne_sv : m_key so <> m_key vault) by (intros E; rewrite E in Hso4; congruence).
  (* transfer CPI *)
  unfold cpi_token_transfer in Hx19. apply invoke_signed_ok in Hx19.
  destruct Hx19 as (pdas & _ & _ & _ & Htr).
  apply token_transfer_inv in Htr; [|exact Hne_sv].
  destruct Htr as (sd1 & Lso & Lv & _ & _ & Hauth & Hroom & Hdeq & Heq & Hlam & Hnl).
  rewrite (spend_auth_ext _ _ (owner_signs (m_key staker))) in Hauth
    by (intros; apply signer_of_three).
  apply token_mint_to_ok in Hmint.
  destruct Hmint as (Lxm & Lsx & Hnat & Hsxm & Hflag & Hval & Hr1 & Hr2 & ->).
  (* distinctness *)
  rewrite Hx7 in *. rewrite Hx8 in *.
  assert (Hd_so_sx : m_key so <> m_key sx) by (eapply orca_ne_xorca; eassumption).
  assert (Hd_v_sx : m_key vault <> m_key sx) by (eapply orca_ne_xorca; eassumption).
  assert (Hl1o : forall k, a_owner (l1 k) = a_owner (l k)).
  { intros k. destruct (Hdeq k) as [_ E]. now rewrite E, transferred_owner. }
  assert (Hl1d : forall k, k <> m_key so -> k <> m_key vault -> a_data (l1 k) = a_data (l k)).
  { intros k E1 E2. destruct (Hdeq k) as [E _]. rewrite E. now rewrite transferred_data_other. }
  assert (Hd_xm_so : xorca_mint_id <> m_key so).
  { intros E. destruct Lxm as (_ & W & _). destruct (Hdeq xorca_mint_id) as [E1 _].
    apply mint_wf_len in W. rewrite E1, E in W. unfold transferred in W.
    rewrite set_data_other in W by congruence. rewrite upd_data_same in W.
    pose proof (spend_auth_same _ _ _ _ _ _ _ _ (ta_wf_len _ (proj1 (proj2 Lso))) Hauth) as [SL].
    destruct Lso as (_ & Wso' & _). apply ta_wf_len in Wso'.
    unfold set_amount in W. rewrite set_u64_length in W by lia. lia. }
  assert (Hd_xm_v : xorca_mint_id <> m_key vault).
  { intros E. destruct Lxm as (_ & W & _). destruct (Hdeq xorca_mint_id) as [E1 _].
    apply mint_wf_len in W. rewrite E1, E in W. unfold transferred in W.
    rewrite upd_data_same in W. destruct Lv as (_ & Wv' & _). apply ta_wf_len in Wv'.
    unfold set_amount in W. rewrite set_u64_length in W by lia. lia. }
  assert (Esx : a_data (l1 (m_key sx)) = a_data (l (m_key sx))) by (apply Hl1d; congruence).
  assert (Exm : a_data (l1 xorca_mint_id) = a_data (l xorca_mint_id))
    by (apply Hl1d; congruence).
  assert (Lxm' : mint_live l xorca_mint_id).
  { destruct Lxm as (A1 & A2 & A3). rewrite Exm in *. rewrite Hl1o in A1. repeat split; auto. }
  assert (Lsx' : ta_live l (m_key sx)).
  { destruct Lsx as (A1 & A2 & A3). rewrite Esx in *. rewrite Hl1o in A1. repeat split; auto. }
  assert (Hd_xm_sx : xorca_mint_id <> m_key sx) by (eapply mint_ne_ta; eassumption).
  rewrite Esx, Exm in *.
  assert (Hauthk : mint_auth (a_data (l xorca_mint_id)) = m_key st)
    by (eapply validate_owner_eq; eassumption).
  assert (Hmpos : 0 <= m).
  { eapply orca_to_xorca_ok in Hx17; [apply Hx17|assumption| |apply mint_supply_range].
    unfold non_escrowed. pose proof (get_u64_range 8 (a_data (l (m_key st)))) as R1.
      pose proof (ta_amount_range (a_data (l (m_key vault)))) as R2.
      unfold st_escrow in *. unfold is_u64 in *. lia. }
  assert (Hm64 : is_u64 m).
  { pose proof (ta_amount_range (a_data (l (m_key sx)))). unfold is_u64, u64_max in *. lia. }
  assert (Hst_data : a_data (minted l1 xorca_mint_id (m_key sx) m (m_key st))
                     = a_data (l (m_key st))).
  { unfold minted. rewrite !set_data_other.
    - apply Hl1d; apply (xorca_owned_ne l); assumption.
    - apply not_eq_sym, (xorca_owned_ne l); assumption.
    - apply not_eq_sym, (xorca_owned_ne l); [assumption|apply Lxm']. }
  exists staker, vault, so, sx, xm, st, om, tp, m, sd1.
  split; [|split; [lia|split; [exact Hm64|split; [exact Hne_sv|split; [|split; [|split; [|split; [exact Hnl|]]]]]]]].
  - constructor; auto. all: try (rewrite ?Hx7, ?Hx8; assumption).
  - intros k. unfold minted, stake_effect. autorewrite with ledger. rewrite Esx, Exm.
    split; [|rewrite Hl1o, transferred_owner; reflexivity].
    destruct (key_eq_dec xorca_mint_id k) as [<-|K1].
    + now rewrite !upd_data_same.
    + rewrite !(set_data_other _ xorca_mint_id) by exact K1.
      destruct (key_eq_dec (m_key sx) k) as [<-|K2].
      * now rewrite !upd_data_same.
      * rewrite !(set_data_other _ (m_key sx)) by exact K2. apply Hdeq.
  - intros Hn. specialize (Heq Hn). unfold minted, stake_effect. rewrite Esx, Exm. now rewrite Heq.
  - intros k. unfold minted. autorewrite with ledger. apply Hlam.
  - unfold stake_event. rewrite Hst_data.
    rewrite (wrap_u64_small (ta_amount _ + a))
      by (apply u64_of_sum; [apply ta_amount_range|apply Ha|assumption]).
    rewrite (wrap_u64_small (mint_supply _ + m))
      by (apply u64_of_sum; [apply mint_supply_range|assumption|assumption]).
    reflexivity.
Qed.

(** Conversely the checks suffice. *)
Theorem stake_run C accs l a staker vault so sx xm st om tp m sd1 :
  is_u64 a -> 0 <= m ->
  stake_pre C accs l a staker vault so sx xm st om tp m sd1 ->
  m_key so <> m_key vault -> ta_native_flag (a_data (l (m_key so))) = 0 ->
  stake_process C accs l a =
  Ok (stake_effect l (m_key vault) (m_key so) (m_key sx) a m sd1,
      [event_bytes (stake_event l (m_key vault) (m_key st) a m)]).
Proof.
  intros Ha Hm0 P Hne_sv Hnat. destruct P. destruct sp_accs0.
  assert (Iso : In so accs) by (eapply nth_error_In; eassumption).
  assert (Isx : In sx accs) by (eapply nth_error_In; eassumption).
  assert (Iv : In vault accs) by (eapply nth_error_In; eassumption).
  assert (Ist : In st accs) by (eapply nth_error_In; eassumption).
  assert (Ixm : In xm accs) by (eapply nth_error_In; eassumption).
  assert (Istaker : In staker accs) by (eapply nth_error_In; eassumption).
  assert (Htok : caller_has_key accs token_id = true).
  { rewrite <- sp_tp0. apply has_key_in. eapply nth_error_In; eassumption. }
  unfold stake_process.
  do 8 (match goal with
        | |- context [get_account_info ?a ?i] =>
            match goal with
            | H : nth_error a i = Some ?m |- _ =>
                rewrite (proj2 (get_account_ok a i m) H); cbn [bind]
            end
        end).
  rewrite (proj2 (role_sw staker tt)) by auto. cbn [bind].
  rewrite (proj2 (address_ok om orca_mint_id tt)) by assumption. cbn [bind].
  rewrite (proj2 (address_ok xm xorca_mint_id tt)) by assumption. cbn [bind].
  rewrite (proj2 (address_ok tp token_id tt)) by assumption. cbn [bind].
  rewrite (proj2 (owner_ta_ok l so staker om true (parse_ta (a_data (l (m_key so))))));
    [|split; [auto|split; [|reflexivity]];
      rewrite sp_om0; unfold ta_of; repeat split; auto; try apply sp_so_live0;
      apply (ta_live_shaped l _ sp_so_live0)].
  cbn [bind parse_ta tk_amount].
  rewrite (fail_if_Ok (_ <? _)) by (apply Z.ltb_ge; lia). cbn [bind].
  rewrite (proj2 (owner_ta_ok l sx staker xm true (parse_ta (a_data (l (m_key sx))))));
    [|split; [auto|split; [|reflexivity]];
      rewrite sp_xm0; unfold ta_of; repeat split; auto; try apply sp_sx_live0;
      apply (ta_live_shaped l _ sp_sx_live0)].
  cbn [bind].
  rewrite (proj2 (role_w xm tt)) by auto. cbn [bind].
  rewrite (proj2 (owner_ok l xm token_id tt)) by (rewrite sp_xm0; apply sp_xm_live0). cbn [bind].
  rewrite (proj2 (mint_data_ok l xm (parse_mint (a_data (l (m_key xm))))))
    by (split; [reflexivity|rewrite sp_xm0; now apply mint_live_shaped]).
  cbn [bind parse_mint tm_supply].
  rewrite (proj2 (owner_ok l om token_id tt)) by (now rewrite sp_om0). cbn [bind].
  rewrite (proj2 (owner_ok l st xorca_id tt)) by assumption. cbn [bind].
  rewrite (proj2 (state_data_ok l st (a_data (l (m_key st))))) by auto. cbn [bind].
  rewrite (proj2 (verify_state_ok C st _ tt)) by exact sp_st_key0. cbn [bind].
  rewrite (proj2 (verify_vault_ok C st vault om _ tt)) by (now rewrite sp_om0). cbn [bind].
  rewrite (proj2 (owner_ta_ok l vault st om true (parse_ta (a_data (l (m_key vault))))));
    [|split; [auto|split; [|reflexivity]];
      rewrite sp_om0; unfold ta_of; repeat split; auto; try apply sp_v_live0;
      apply (ta_live_shaped l _ sp_v_live0)].
  cbn [bind parse_ta tk_amount].
  rewrite (proj2 (checked_sub_ok _ _ _ (non_escrowed l (m_key vault) (m_key st))))
    by (split; [assumption|reflexivity]).
  cbn [bind]. rewrite sp_xm0, sp_quote0. cbn [bind].
  rewrite (fail_if_Ok (_ =? _)) by (now apply Z.eqb_neq). cbn [bind].
  assert (Etr : cpi_token_transfer C accs [] l so vault staker a
                = Ok (transferred l (m_key so) (m_key vault) a sd1)).
  { apply cpi_transfer_ok; auto; [now exists []|].
    apply token_transfer_ok; [assumption..|]. exists sd1. repeat split; try assumption.
    all: try apply sp_so_live0; try apply sp_v_live0.
    - congruence.
    - rewrite (spend_auth_ext _ _ (owner_signs (m_key staker))) by (intros; apply signer_of_three).
      assumption. }
  rewrite Etr. cbn [bind].
  assert (Hd_so_sx : m_key so <> m_key sx) by (eapply orca_ne_xorca; eassumption).
  assert (Hd_v_sx : m_key vault <> m_key sx) by (eapply orca_ne_xorca; eassumption).
  assert (Hd_xm_so : xorca_mint_id <> m_key so) by (eapply mint_ne_ta; eassumption).
  assert (Hd_xm_v : xorca_mint_id <> m_key vault) by (eapply mint_ne_ta; eassumption).
  assert (Hst_so : m_key st <> m_key so) by (apply (xorca_owned_ne l); [assumption|apply sp_so_live0]).
  assert (Hst_v : m_key st <> m_key vault) by (apply (xorca_owned_ne l); [assumption|apply sp_v_live0]).
  set (l1 := transferred l (m_key so) (m_key vault) a sd1).
  assert (Esx : l1 (m_key sx) = l (m_key sx)) by (apply transferred_data_other; congruence).
  assert (Exm : l1 xorca_mint_id = l xorca_mint_id) by (apply transferred_data_other; congruence).
  assert (Est : l1 (m_key st) = l (m_key st)) by (apply transferred_data_other; congruence).
  assert (Emt : cpi_token_mint_to C accs
                  [state_seeds ++ [[Z_to_byte (st_bump (a_data (l (m_key st))))]]] l1 xm sx st m
                = Ok (minted l1 xorca_mint_id (m_key sx) m)).
  { apply cpi_mint_ok; auto. rewrite sp_xm0. apply token_mint_to_ok.
    unfold mint_live, ta_live. rewrite Esx, Exm. repeat split; auto.
    all: try apply sp_xm_live0; try apply sp_sx_live0.
    apply validate_owner_plain.
    - rewrite Est. now apply state_not_token.
    - split; [assumption|]. rewrite signer_of_three. unfold owner_signs. apply key_eqb_refl. }
  rewrite Emt. cbn [bind].
  assert (Hst_data : a_data (minted l1 xorca_mint_id (m_key sx) m (m_key st))
                     = a_data (l (m_key st))).
  { unfold minted. rewrite !set_data_other.
    - now rewrite Est.
    - apply not_eq_sym, (xorca_owned_ne l); [assumption|apply sp_sx_live0].
    - apply not_eq_sym, (xorca_owned_ne l); [assumption|apply sp_xm_live0]. }
  rewrite Hst_data.
  rewrite (wrap_u64_small (ta_amount _ + a))
    by (apply u64_of_sum; [apply ta_amount_range|apply Ha|assumption]).
  rewrite (wrap_u64_small (mint_supply _ + m))
    by (apply u64_of_sum; [apply mint_supply_range|assumption|assumption]).
  unfold minted, stake_effect, stake_event. rewrite Esx, Exm. reflexivity.
Qed.
