(** What the donation, transfer and deployment scripts do. *)
From Coq Require Import String.
From Verif Require Import BytesFacts LedgerFacts CodecFacts AssertFacts TokenFacts InitFacts Pool PoolHistory HistoryFacts LifeFacts UnstakeFacts ConserveFacts
  EffectFacts SlotFacts LiveFacts BlockFacts ClientSpec GuardSpec ToolSpec RaiseFacts EncodeFacts RoleFacts AddressFacts ScriptFacts Scripts TransactionFacts VaultStep TokenStep FieldFacts ScriptRun.
Import List ListNotations.
Open Scope list_scope.
Open Scope Z_scope.

(** ** The donation script *)
Lemma spl_amount l k n : spl_js_account l k = Some n ->
  n = balance l k /\ a_owner (l k) = token_id /\ length (a_data (l k)) = 165%nat /\ a_lamports (l k) <> 0.
Proof.
  unfold spl_js_account, rpc_get. destruct (Z.eqb_spec (a_lamports (l k)) 0); [discriminate|]. cbn [obind].
  destruct (key_eqb _ _) eqn:O; [|discriminate]. destruct (Nat.eqb_spec (length (a_data (l k))) 165); [|discriminate].
  intros [=<-]. apply key_eqb_true in O. auto.
Qed.
Lemma spl_amount_of l k : a_owner (l k) = token_id -> length (a_data (l k)) = 165%nat -> a_lamports (l k) <> 0 ->
  spl_js_account l k = Some (balance l k).
Proof.
  intros H1 H2 H3. unfold spl_js_account, rpc_get. destruct (Z.eqb_spec (a_lamports (l k)) 0); [contradiction|]. cbn [obind].
  now rewrite H1, key_eqb_refl, H2.
Qed.

Theorem deposit_script_does C E l sk vk sender j ops l' evs :
  ordinary_state_address C -> reaches C l -> is_state l sk -> client_vault C sk vk ->
  deposit_script C E l sender j = Some ops -> steps_ok C l ops -> attempt_all C l ops = Ok (l', evs) ->
  exists n so, j = JInt n /\ 0 <= n /\ is_ata C sender orca_mint_id so /\
    balance l' vk = balance l vk + n /\ balance l' so = balance l so - n /\
    escrow l' sk = escrow l sk /\ supply l' = supply l /\ free_orca l' sk vk = free_orca l sk vk + n /\
    evs = [] /\ deposit_script_report C l l' j = Some (n, 2 * n).
Proof.
  intros Ho Hr Hs Hv H Hok Hrun. unfold deposit_script in H. repeat build_step H.
  apply js_u64_some in E7. destruct E7 as [[Hn _] _]. injection H as <-. rewrite (proj1 script_mints) in *.
  destruct (script_ata_some _ _ _ _ E3) as [Cv A].
  pose proof (state_where _ _ _ Ho Hr Hs) as [W _].
  pose proof (client_state_unique _ _ _ (script_state_some _ _ E1) W). subst x0.
  pose proof (client_vault_unique _ _ _ _ (script_vault_some _ _ _ E2) Hv). subst x1.
  assert (J : j = JInt x) by (destruct j; [injection E0 as ->; reflexivity|discriminate..]).
  exists x, x2. split; [exact J|]. split; [exact Hn|]. split; [exact A|].
  cbn [attempt_all attempt] in Hrun. destruct (token_exec E (signs [sender]) [] l (TC_Transfer x2 vk sender x)) as [l1|] eqn:T; [|discriminate].
  cbn [bind fst snd app] in Hrun. injection Hrun as <- <-. cbn [token_exec] in T.
  destruct (reaches_pool_vault _ _ _ vk Ho Hr Hs) as (P & HP); [now apply client_vault_is|].
  pose proof (po_vault _ _ _ _ _ HP) as HV.
  assert (Nsk : sender <> sk).
  { intros ->. destruct (po_find _ _ _ _ _ HP) as (b & Q & _). apply program_address_off_curve in Q. congruence. }
  assert (Nv : x2 <> vk).
  { intros ->. unfold token_transfer in T. do 7 (let u := fresh in inv_bind T u). inv_bind T sd1.
    apply spend_auth_who in Hx6. rewrite (vo_holder _ _ _ _ HV), (vo_delegate _ _ _ _ HV) in Hx6. intuition congruence. }
  destruct (transfer_balances _ _ _ _ _ _ _ _ Nv Hn T) as (_ & B1 & B2 & Ow & Dt & Lm & O1 & O2 & L1 & L2).
  assert (Nm : forall k, mint_wf (a_data (l k)) = true -> k <> x2 /\ k <> vk).
  { intros k M. apply spl_amount in E4, E6. apply mint_wf_len in M.
    destruct E4 as (_ & _ & G4 & _), E6 as (_ & _ & G6 & _). split; intros ->; congruence. }
  assert (Ds : a_data (l1 sk) = a_data (l sk)).
  { apply Dt; intros Q; [rewrite <- Q in O1|rewrite <- Q in O2]; rewrite (po_state _ _ _ _ _ HP) in *; now apply xt_ne. }
  assert (Dm : a_data (l1 xorca_mint_id) = a_data (l xorca_mint_id)).
  { destruct (state_mint_live _ _ _ Ho Hr Hs) as (_ & M & _). apply Nm in M. now apply Dt. }
  split; [exact B2|]. split; [exact B1|]. unfold free_orca, escrow, supply. rewrite Ds, Dm, B2.
  split; [reflexivity|]. split; [reflexivity|]. split; [lia|]. split; [reflexivity|].
  unfold deposit_script_report. rewrite E0. cbn [obind]. rewrite E1. cbn [obind]. rewrite E2. cbn [obind].
  rewrite E6. cbn [obind]. apply spl_amount in E6. destruct E6 as (-> & G1 & G2 & G3).
  rewrite (spl_amount_of l1 vk); [cbn [obind]; rewrite B2; do 2 f_equal; lia|now rewrite Ow|congruence|].
  pose proof (reaches_step _ _ _ Hr (proj1 Hok)) as Hr1. cbn [run_op token_exec] in Hr1. rewrite T in Hr1. cbn [keep fst] in Hr1.
  assert (Hs1 : is_state l1 sk) by (unfold is_state; rewrite Ow, Ds; exact Hs).
  destruct (reaches_pool_vault _ _ _ vk Ho Hr1 Hs1) as (P1 & HP1); [now apply client_vault_is|].
  pose proof (po_vlam _ _ _ _ _ HP1). lia.
Qed.

Theorem deposit_script_live C E l sk vk sender so n ops :
  ordinary_state_address C -> reaches C l -> is_state l sk -> client_vault C sk vk ->
  deposit_script C E l sender (JInt n) = Some ops -> steps_ok C l ops ->
  a_owner (l sender) <> token_id ->
  is_ata C sender orca_mint_id so -> active_account l so orca_mint_id sender -> ordinary l so ->
  no_self_delegate l so sender -> ta_state (a_data (l vk)) = 1 -> balance l vk + n <= u64_max ->
  exists l' evs, attempt_all C l ops = Ok (l', evs).
Proof.
  intros Ho Hr Hs Hv H Hok Hw A Ha Hn Hd Hvs Hlt. unfold deposit_script in H. repeat build_step H. injection H as <-.
  cbn [js_bigint] in E0. injection E0 as <-. rewrite (proj1 script_mints) in *.
  destruct (script_ata_some _ _ _ _ E3) as [Cv A0]. pose proof (is_ata_unique _ _ _ _ _ A0 A). subst x2.
  pose proof (state_where _ _ _ Ho Hr Hs) as [W _].
  pose proof (client_state_unique _ _ _ (script_state_some _ _ E1) W). subst x0.
  pose proof (client_vault_unique _ _ _ _ (script_vault_some _ _ _ E2) Hv). subst x1.
  destruct (reaches_pool_vault _ _ _ vk Ho Hr Hs) as (P & HP); [now apply client_vault_is|].
  pose proof (po_vault _ _ _ _ _ HP) as HV. apply spl_amount in E4. destruct E4 as (-> & _). apply Z.ltb_ge in E5.
  destruct Ha as [(A1 & A2 & A3 & A4) A5]. apply ta_unpack_ok in A2. destruct A2 as [A2 A2'].
  assert (Nv : so <> vk).
  { intros ->. destruct (po_find _ _ _ _ _ HP) as (b & Q & _). apply program_address_off_curve in Q.
    rewrite (vo_holder _ _ _ _ HV) in A4. congruence. }
  cbn [attempt_all attempt token_exec].
  assert (T : token_transfer (signs [sender]) [] l so vk sender n = Ok (transferred l so vk n (a_data (l so)))).
  { apply token_transfer_ok; [exact Nv|exact Hn|]. exists (a_data (l so)).
    split; [repeat split; assumption|].
    split; [split; [apply (vo_owner _ _ _ _ HV)|split; [apply (vo_wf _ _ _ _ HV)|exact Hvs]]|].
    split; [exact E5|]. split; [rewrite A3; symmetry; apply (vo_mint _ _ _ _ HV)|].
    split; [|split; [exact Hlt|reflexivity]].
    apply spend_auth_owner; auto. unfold signs. cbn. now rewrite key_eqb_refl. }
  rewrite T. cbn [bind fst snd app]. eauto.
Qed.

(** A donation lowers nobody's claim. *)
Theorem deposit_script_worth C E l sk vk sender j ops l' evs x :
  ordinary_state_address C -> reaches C l -> is_state l sk -> client_vault C sk vk ->
  deposit_script C E l sender j = Some ops -> steps_ok C l ops -> attempt_all C l ops = Ok (l', evs) ->
  0 <= x -> worth l sk vk x <= worth l' sk vk x.
Proof.
  intros Ho Hr Hs Hv H Hok Hrun Hx.
  destruct (deposit_script_does _ _ _ _ _ _ _ _ _ _ Ho Hr Hs Hv H Hok Hrun) as (n & so & _ & Hn & _ & _ & _ & _ & S & F & _).
  unfold worth. rewrite S, F. pose proof (mint_supply_range (a_data (l xorca_mint_id))) as R. unfold is_u64 in R. unfold supply.
  apply Z.div_le_mono; nia.
Qed.

(** ** transfer-orca.ts *)
Theorem transfer_script_does C E l sender recipient n ops l' evs :
  transfer_script C E l sender recipient n = Some ops -> steps_ok C l ops -> attempt_all C l ops = Ok (l', evs) ->
  exists from to, is_ata C sender orca_mint_id from /\ is_ata C recipient orca_mint_id to /\ is_u64 n /\ evs = [] /\
    (from <> to -> n <= balance l from /\ balance l' from = balance l from - n /\ balance l' to = balance l to + n) /\
    (from = to -> l' = l) /\
    forall t r ok, transfer_script_report C l l' sender recipient n = Some (t, r, ok) -> ordinary l from ->
      (from <> to -> t = n /\ r = n /\ ok = true) /\ (from = to -> t = 0 /\ r = 0 /\ ok = (n =? 0)).
Proof.
  intros H Hok Hrun. unfold transfer_script in H. repeat build_step H. injection H as <-.
  rewrite (proj1 script_mints) in *.
  destruct (script_ata_some _ _ _ _ E0) as [Cv A0]. destruct (script_ata_some _ _ _ _ E1) as [Cr A1].
  exists x, x0. split; [exact A0|]. split; [exact A1|]. apply js_u64_some in E5. destruct E5 as [Hu _]. split; [exact Hu|].
  assert (Hn : 0 <= n) by apply Hu.
  assert (Z0 : a_lamports (l x) <> 0).
  { unfold rpc_token_amount, rpc_get in E2. destruct (Z.eqb_spec (a_lamports (l x)) 0); [discriminate|assumption]. }
  destruct (create_then _ _ _ _ _ _ _ _ _ _ orca_not_native Hrun Hok) as (l1 & Hrun1 & Hok1 & B & K & Hl1).
  cbn [attempt_all attempt token_exec] in Hrun1.
  destruct (token_transfer (signs [sender]) [] l1 x x0 sender n) as [l2|] eqn:T; [|discriminate].
  cbn [bind fst snd app] in Hrun1. injection Hrun1 as <- <-. split; [reflexivity|].
  assert (Eq : x = x0 -> l2 = l).
  { intros <-. destruct Hl1 as [->|(_ & Q & _)]; [|contradiction]. unfold token_transfer in T.
    do 7 (let u := fresh in inv_bind T u). inv_bind T sd. rewrite key_eqb_refl in T. now injection T. }
  assert (Ne : x <> x0 -> n <= balance l x /\ balance l2 x = balance l x - n /\ balance l2 x0 = balance l x0 + n /\
    (ordinary l x -> forall k, a_lamports (l2 k) = a_lamports (l1 k))).
  { intros N. destruct (transfer_balances _ _ _ _ _ _ _ _ N Hn T) as (H1 & H2 & H3 & _ & _ & H4 & _).
    destruct (K x N) as (_ & D & _). rewrite B in H3. unfold ordinary in *. rewrite D in H4.
    unfold balance in *. rewrite D in H1, H2. auto. }
  split; [intros N; destruct (Ne N) as (H1 & H2 & H3 & _); auto|]. split; [exact Eq|].
  intros t r ok Hrep Hord. unfold transfer_script_report in Hrep. rewrite (proj1 script_mints), E0 in Hrep. cbn [obind] in Hrep.
  rewrite E1 in Hrep. cbn [obind] in Hrep. rewrite E2 in Hrep. cbn [obind] in Hrep. rewrite E4 in Hrep. cbn [obind] in Hrep.
  repeat build_step Hrep. injection Hrep as <- <- <-.
  assert (L0 : a_lamports (l2 x0) <> 0).
  { unfold rpc_token_amount, rpc_get in E6. destruct (Z.eqb_spec (a_lamports (l2 x0)) 0); [discriminate|assumption]. }
  apply token_amount_balance in E2, E5, E6. apply shown_amount in E4. subst x1 x2 x4 x5.
  split; intros N.
  - destruct (Ne N) as (H1 & H2 & H3 & H4). specialize (H4 Hord).
    assert (Sh : shown_balance l x0 = balance l x0).
    { unfold shown_balance. destruct (Z.eqb_spec (a_lamports (l x0)) 0) as [Q|Q]; [|reflexivity].
      destruct Hl1 as [->|(W & _)]; [rewrite H4 in L0; contradiction|]. symmetry. apply empty_balance, W. }
    rewrite Sh, H2, H3. replace (balance l x - (balance l x - n)) with n by lia.
    replace (balance l x0 + n - balance l x0) with n by lia. rewrite Z.eqb_refl. auto.
  - rewrite (Eq N) in *. subst x0. unfold shown_balance. destruct (Z.eqb_spec (a_lamports (l x)) 0); [contradiction|].
    rewrite !Z.sub_diag. split; [reflexivity|]. split; [reflexivity|]. rewrite Z.eqb_sym. apply andb_diag.
Qed.

Lemma orca_live C l : ordinary_state_address C -> reaches C l -> mint_live l orca_mint_id.
Proof.
  intros Ho (l0 & ops & evs & Hg & Hh). destruct (reachable _ _ _ _ _ Ho Hg Hh) as [[F _]|(sk & vk & P & HP)].
  - apply F.
  - apply (po_orca _ _ _ _ _ HP).
Qed.
Theorem transfer_script_live C E l sender recipient n ops from to :
  transfer_script C E l sender recipient n = Some ops -> steps_ok C l ops ->
  ordinary_state_address C -> reaches C l ->
  is_ata C sender orca_mint_id from -> is_ata C recipient orca_mint_id to ->
  active_account l from orca_mint_id sender -> ordinary l from -> no_self_delegate l from sender ->
  a_owner (l sender) <> token_id ->
  can_open E l sender to orca_mint_id recipient -> balance l to + n <= u64_max ->
  exists l' evs, attempt_all C l ops = Ok (l', evs).
Proof.
  intros H Hok Hosa Hr A0 A1 Ha Hord Hd Hw Hopen Hlt.
  unfold transfer_script in H. repeat build_step H. injection H as <-. rewrite (proj1 script_mints) in *.
  destruct (script_ata_some _ _ _ _ E0) as [Cv A0']. destruct (script_ata_some _ _ _ _ E1) as [Cr A1'].
  pose proof (is_ata_unique _ _ _ _ _ A0 A0'). pose proof (is_ata_unique _ _ _ _ _ A1 A1'). subst x x0.
  apply token_amount_balance in E2. subst x1. apply Z.ltb_ge in E3.
  destruct (create_live _ _ _ _ _ _ _ _ orca_not_native (orca_live _ _ Hosa Hr) A1 Cv Hr Hopen Hok)
    as (l1 & R & Hok1 & Hr1 & Hx1 & B & Hl1 & K & _).
  assert (Nst : sender <> to) by (intros ->; apply is_ata_off_curve in A1; congruence).
  assert (F : a_owner (l1 from) = a_owner (l from) /\ a_data (l1 from) = a_data (l from)).
  { destruct Hl1 as [->|[W _]]; [auto|]. destruct (K from) as (K1 & K2 & _); [|auto].
    intros ->. destruct Ha as [(Q & _) _]. rewrite Q in W. now apply token_ne_system in W. }
  destruct F as [F1 F2]. destruct (K sender Nst) as (K1 & _).
  destruct Ha as [(A2 & A3 & A4 & A5) A6]. apply ta_unpack_ok in A3. destruct A3 as [A3 A3'].
  destruct Hx1 as [(X1 & X2 & X3 & X4) X5]. apply ta_unpack_ok in X2. destruct X2 as [X2 X2'].
  assert (Hsp : forall c, spend_auth l1 (signs [sender]) [] (a_data (l1 from)) sender n c = Ok (a_data (l1 from))).
  { intros c. apply spend_auth_owner; [rewrite F2; exact Hd|now rewrite F2|now rewrite K1|].
    unfold signs. cbn. now rewrite key_eqb_refl. }
  assert (T : exists l2, token_transfer (signs [sender]) [] l1 from to sender n = Ok l2).
  { destruct (key_eq_dec from to) as [<-|N].
    - exists l1. unfold token_transfer, token_owned, ta_frozen. rewrite F1, A2, key_eqb_refl. cbn [fail_if negb bind].
      rewrite (proj2 (ta_unpack_ok (a_data (l1 from)))) by auto. cbn [bind].
      rewrite F2 at 1 2. rewrite A6. cbn [Z.eqb orb fail_if bind Pos.eqb]. rewrite (fail_if_Ok (_ <? _)) by (rewrite F2; apply Z.ltb_ge; exact E3).
      cbn [bind]. rewrite !key_eqb_refl. cbn [negb fail_if bind]. now rewrite Hsp.
    - eexists. apply token_transfer_ok; [exact N|now rewrite F2|]. exists (a_data (l1 from)).
      split; [split; [congruence|]; rewrite F2; auto|]. split; [repeat split; assumption|].
      split; [rewrite F2; exact E3|]. split; [congruence|]. split; [apply Hsp|].
      split; [unfold balance in *; lia|reflexivity]. }
  destruct T as (l2 & T). exists l2, []. apply R. cbn [attempt_all attempt token_exec]. now rewrite T.
Qed.

(** ** The mint authority and deployment *)
Lemma authority_script_data C E l current sk ops l' evs :
  client_state C sk -> authority_script C E current = Some ops -> attempt_all C l ops = Ok (l', evs) ->
  a_data (l' xorca_mint_id) = pack_option_key 0 (Some sk) (a_data (l xorca_mint_id)).
Proof.
  intros Hs H Hrun. unfold authority_script in H. repeat build_step H. injection H as <-.
  pose proof (client_state_unique _ _ _ (script_state_some _ _ E0) Hs). subst x. rewrite (proj2 script_mints) in *.
  cbn [attempt_all attempt token_exec] in Hrun.
  destruct (token_set_authority (signs [current]) [] l xorca_mint_id current MintTokens (Some sk)) as [l1|] eqn:T; [|discriminate].
  cbn [bind fst snd app] in Hrun. injection Hrun as <- <-. unfold token_set_authority in T. inv_bind T u.
  destruct (zlen _ =? ta_len); [inv_bind T u1; inv_bind T u2; discriminate|].
  destruct (zlen _ =? mint_len); [|discriminate]. inv_bind T u1. inv_bind T u2. inv_bind T u3. injection T as <-.
  now rewrite set_data_same.
Qed.

Theorem authority_script_does C E l current sk ops l' evs :
  client_state C sk -> authority_script C E current = Some ops -> attempt_all C l ops = Ok (l', evs) ->
  evs = [] /\ a_owner (l xorca_mint_id) = token_id /\ mint_unpack (a_data (l xorca_mint_id)) = Ok tt /\
  mint_auth_flag (a_data (l xorca_mint_id)) = 1 /\ mint_auth (a_data (l xorca_mint_id)) = current /\
  mint_auth_flag (a_data (l' xorca_mint_id)) = 1 /\ mint_auth (a_data (l' xorca_mint_id)) = sk /\
  same_bytes_except mint_authority_fields (a_data (l xorca_mint_id)) (a_data (l' xorca_mint_id)) /\
  (forall k, a_owner (l' k) = a_owner (l k) /\ a_lamports (l' k) = a_lamports (l k) /\
     (k <> xorca_mint_id -> a_data (l' k) = a_data (l k))) /\
  (a_lamports (l xorca_mint_id) <> 0 -> authority_script_verdict C l' = Some true).
Proof.
  intros Hs H Hrun. unfold authority_script in H. repeat build_step H. injection H as <-.
  pose proof (client_state_unique _ _ _ (script_state_some _ _ E0) Hs). subst x. rewrite (proj2 script_mints) in *.
  cbn [attempt_all attempt token_exec] in Hrun.
  destruct (token_set_authority (signs [current]) [] l xorca_mint_id current MintTokens (Some sk)) as [l1|] eqn:T; [|discriminate].
  cbn [bind fst snd app] in Hrun. injection Hrun as <- <-. split; [reflexivity|].
  unfold token_set_authority in T. inv_bind T u. unfold token_owned in Hx. clean_bool. split; [assumption|].
  destruct (zlen _ =? ta_len); [inv_bind T u1; inv_bind T u2; discriminate|].
  destruct (zlen _ =? mint_len); [|discriminate]. inv_bind T u1. apply unit_tt in Hx0. split; [exact Hx0|].
  inv_bind T u2. inv_bind T u3. injection T as <-. clean_bool. apply validate_owner_eq in Hx2.
  apply mint_unpack_ok in Hx0. destruct Hx0 as [Mw Mi]. pose proof (mint_wf_len _ Mw) as L.
  assert (W0 := Mw). unfold mint_wf in W0. rewrite !andb_true_iff in W0. destruct W0 as [[[W1 W2] W3] W4].
  apply flag_ok_cases in W2. split; [lia|].
  split; [exact Hx2|].
  set (d := a_data (l xorca_mint_id)) in *. set (d' := pack_option_key 0 (Some sk) d).
  assert (Dm : a_data (set_data l xorca_mint_id d' xorca_mint_id) = d') by now rewrite set_data_same.
  destruct (pack_mint_auth d (Some sk) L) as (P1 & _ & P2 & P3 & P4 & P5). fold d' in P1, P2, P3, P4, P5.
  assert (F1 : mint_auth_flag d' = 1) by (unfold d', pack_option_key, mint_auth_flag; cbn [Nat.add]; getset; reflexivity).
  assert (F2 : mint_auth d' = sk) by (unfold d', pack_option_key, mint_auth; cbn [Nat.add]; getset; reflexivity).
  change (set_key 4 sk (set_u32 0 1 d)) with d'. rewrite Dm. split; [exact F1|]. split; [exact F2|].
  split.
  { unfold d', pack_option_key. cbn [Nat.add]. eapply same_trans.
    - apply (same_u32 0 1 d); [lia|cbn; auto].
    - apply same_key; [rewrite set_u32_length; lia|cbn; auto]. }
  split.
  { intros k. autorewrite with ledger. split; [reflexivity|]. split; [reflexivity|]. intros N. now rewrite set_data_other by congruence. }
  intros Z0. unfold authority_script_verdict. rewrite E0. cbn [obind]. unfold rpc_get. rewrite (proj2 script_mints).
  rewrite set_data_lamports. destruct (Z.eqb_spec (a_lamports (l xorca_mint_id)) 0); [contradiction|]. cbn [obind].
  rewrite set_data_owner, Dm. replace (a_owner (l xorca_mint_id)) with token_id by congruence. rewrite key_eqb_refl.
  assert (U : mint_unpack d' = Ok tt). { apply mint_unpack_ok. split; [|congruence].
    unfold mint_wf. rewrite F1, P3, P4, W3, W4. unfold zlen. now rewrite P1. }
  rewrite U, F1, F2, key_eqb_refl. reflexivity.
Qed.

Theorem authority_script_refused C E l current ops :
  authority_script C E current = Some ops -> mint_auth (a_data (l xorca_mint_id)) <> current ->
  exists e, attempt_all C l ops = Err e.
Proof.
  intros H Hn. destruct (attempt_all C l ops) as [[l' evs]|e] eqn:Q; [|eauto]. exfalso.
  assert (S : exists sk, client_state C sk).
  { unfold authority_script in H. repeat build_step H. exists x. now apply script_state_some. }
  destruct S as (sk & S). destruct (authority_script_does _ _ _ _ _ _ _ _ S H Q) as (_ & _ & _ & _ & A & _). contradiction.
Qed.

Theorem authority_script_once C E l current sk ops :
  client_state C sk -> mint_auth (a_data (l xorca_mint_id)) = sk ->
  authority_script C E current = Some ops -> steps_ok C l ops -> exists e, attempt_all C l ops = Err e.
Proof.
  intros S Hm H Hok. apply (authority_script_refused C E l current); [exact H|]. rewrite Hm. intros <-.
  unfold authority_script in H. repeat build_step H. injection H as <-. destruct Hok as [(_ & Hh & _) _].
  apply (Hh sk); [now left|]. destruct S as (b & S & _). eapply find_is_pda. exact S.
Qed.

Theorem authority_script_live C E l current ops :
  authority_script C E current = Some ops ->
  a_owner (l xorca_mint_id) = token_id -> mint_unpack (a_data (l xorca_mint_id)) = Ok tt ->
  mint_auth_flag (a_data (l xorca_mint_id)) = 1 -> mint_auth (a_data (l xorca_mint_id)) = current ->
  a_owner (l current) <> token_id ->
  exists l', attempt_all C l ops = Ok (l', []).
Proof.
  intros H H1 H2 H3 H4 H5. unfold authority_script in H. repeat build_step H. injection H as <-.
  rewrite (proj2 script_mints). cbn [attempt_all attempt token_exec]. unfold token_set_authority, token_owned.
  rewrite H1, key_eqb_refl. cbn [negb fail_if bind].
  pose proof (proj1 (mint_unpack_ok _) H2) as [Mw _]. apply mint_wf_len in Mw. unfold zlen. rewrite Mw.
  cbn [Z.of_nat ta_len mint_len Z.eqb]. change (Z.of_nat 82 =? ta_len) with false. change (Z.of_nat 82 =? mint_len) with true. cbn iota.
  rewrite H2, H3, H4. cbn [bind Z.eqb fail_if].
  rewrite (proj2 (validate_owner_plain l (signs [current]) [] current current H5)).
  { cbn [bind fst snd app]. eexists. reflexivity. }
  split; [reflexivity|]. unfold signs. cbn. now rewrite key_eqb_refl.
Qed.

Theorem deploy_works C E1 E2 l current auth c sk vk ops1 ops2 :
  ordinary_state_address C -> deployer_has_key C -> reaches C l -> (forall k, ~ is_state l k) ->
  client_state C sk -> client_vault C sk vk -> sk <> vk ->
  mints_ready l current -> a_owner (l current) <> token_id ->
  authority_script C E1 current = Some ops1 ->
  initialize_script C E2 deployer_address auth (JInt c) = Some ops2 ->
  steps_ok C l ops1 -> (forall l1, attempt_all C l ops1 = Ok (l1, []) -> steps_ok C l1 ops2) ->
  0 <= c -> wallet l vk -> wallet l deployer_address ->
  rent_min E2 2048 + rent_min E2 165 <= a_lamports (l deployer_address) ->
  a_lamports (l sk) + a_lamports (l vk) + a_lamports (l deployer_address) <= u64_max ->
  exists l1 l2 evs, attempt_all C l ops1 = Ok (l1, []) /\ attempt_all C l1 ops2 = Ok (l2, evs) /\
    is_state l2 sk /\ cooldown l2 sk = c /\ authority l2 sk = auth /\ escrow l2 sk = 0 /\ balance l2 vk = 0.
Proof.
  intros Ho Hd Hr Hn Hs Hv Nsv Hm Hc H1 H2 Hok1 Hok2 Hc0 Wv Wd R1 R2.
  assert (Hm' := Hm). destruct Hm' as (M1 & M2 & M3 & M4 & M5 & M6 & M7 & M8 & M9).
  destruct (authority_script_live C E1 l current ops1 H1 M1 M2 M3 M4 Hc) as (l1 & Q1).
  destruct (authority_script_does _ _ _ _ _ _ _ _ Hs H1 Q1) as (_ & _ & _ & _ & _ & A1 & A2 & A3 & A4 & _).
  specialize (Hok2 _ Q1). exists l1.
  assert (Hr1 : reaches C l1).
  { unfold authority_script in H1. repeat build_step H1. injection H1 as <-.
    pose proof (reaches_step _ _ _ Hr (proj1 Hok1)) as R. cbn [run_op] in R. cbn [attempt_all attempt] in Q1.
    destruct (token_exec _ _ _ _ _); [|discriminate]. cbn [bind fst snd keep] in *. now injection Q1 as <-. }
  assert (D : a_data (l1 xorca_mint_id) = pack_option_key 0 (Some sk) (a_data (l xorca_mint_id)))
    by (eapply authority_script_data; eassumption).
  assert (M0 := M2). apply mint_unpack_ok in M0. destruct M0 as [Mw Mi]. pose proof (mint_wf_len _ Mw) as L.
  destruct (pack_mint_auth _ (Some sk) L) as (P1 & _ & P2 & P3 & P4 & P5). rewrite <- D in P1, P2, P3, P4, P5.
  assert (Dd : mint_decimals (a_data (l1 xorca_mint_id)) = mint_decimals (a_data (l xorca_mint_id)))
    by (rewrite D; unfold pack_option_key, mint_decimals; cbn [Nat.add]; getset; reflexivity).
  assert (W0 := Mw). unfold mint_wf in W0. rewrite !andb_true_iff in W0. destruct W0 as [[[W1 W2] W3] W4].
  assert (U : mint_unpack (a_data (l1 xorca_mint_id)) = Ok tt).
  { apply mint_unpack_ok. split; [|congruence]. unfold mint_wf. rewrite A1, P3, P4, W3, W4. unfold zlen. now rewrite P1. }
  assert (Do : a_data (l1 orca_mint_id) = a_data (l orca_mint_id)) by (apply A4; pose proof mints_ne; congruence).
  assert (Nm : forall k, wallet l k -> k <> xorca_mint_id).
  { intros k [K1 _] ->. rewrite K1 in M1. symmetry in M1. now apply token_ne_system in M1. }
  assert (Kw : forall k, wallet l k -> wallet l1 k /\ a_lamports (l1 k) = a_lamports (l k)).
  { intros k K. destruct (A4 k) as (B1 & B2 & B3). specialize (B3 (Nm k K)). destruct K. unfold wallet. rewrite B1, B3. auto. }
  assert (Hm1 : mints_ready l1 sk).
  { unfold mints_ready, supply. rewrite (proj1 (A4 _)), A1, A2, P4, P5, P2, Dd, Do. repeat (split; [first [assumption|reflexivity]|]). assumption. }
  assert (Hn1 : forall k, ~ is_state l1 k).
  { intros k [K1 K2]. rewrite (proj1 (A4 k)) in K1. apply (Hn k). split; [exact K1|].
    rewrite (proj2 (proj2 (A4 k))) in K2; [exact K2|]. intros ->. rewrite M1 in K1. symmetry in K1. now apply xt_ne in K1. }
  unfold initialize_script in H2. repeat build_step H2. injection H2 as <-.
  match goal with X : script_initialize _ _ _ _ = Some _ |- _ => rename X into X0 end.
  pose proof (script_initialize_accounts _ _ _ _ _ _ X0 (delivered_refl _)) as (_ & sk' & vk' & S1 & S2 & F).
  pose proof (client_state_unique _ _ _ S1 Hs). subst sk'. pose proof (client_vault_unique _ _ _ _ S2 Hv). subst vk'.
  assert (He : encodes (b_data x) (Initialize c)) by (apply (sends_encodes C); now apply (ScriptInitialize C deployer_address auth)).
  assert (Ls : a_lamports (l1 sk) = a_lamports (l sk)) by apply A4.
  assert (Hv' : is_vault C sk vk) by now apply client_vault_is.
  destruct Hs as (sb & Hs & Hs').
  destruct (process_instruction C E2 xorca_id (b_accounts x) l1 (b_data x)) as [[l2 evs]|e] eqn:Q2.
  2:{ assert (is_ok (process_instruction C E2 xorca_id (b_accounts x) l1 (b_data x)) = true); [|rewrite Q2 in *; discriminate].
      apply (initialize_live C E2 l1 (b_accounts x) (b_data x) c auth sk sb vk); auto; try apply Kw; auto.
      - apply Hok2.
      - rewrite (proj2 (Kw _ Wd)). exact R1.
      - rewrite (proj2 (Kw _ Wd)), (proj2 (Kw _ Wv)), Ls. exact R2. }
  exists l2, evs. split; [exact Q1|].
  split; [cbn [attempt_all attempt send]; rewrite Q2; cbn [bind fst snd]; now rewrite app_nil_r|].
  destruct Hok2 as [[HE Hh] _].
  destruct (init_exact _ _ _ _ _ _ _ _ HE Hh He Q2) as (sk' & vk' & au & sb' & vb & _ & Sa & T2 & T3 & _ & _ & _ & R).
  rewrite (slot_unique _ _ _ _ T2 (fills_slot _ _ 2%nat _ _ _ F eq_refl)) in *.
  rewrite (slot_unique _ _ _ _ T3 (fills_slot _ _ 3%nat _ _ _ F eq_refl)) in *.
  assert (Sa' : slot (b_accounts x) 1 au) by (destruct Sa as (m & X1 & X2 & _); exists m; auto).
  rewrite (slot_unique _ _ _ _ Sa' (fills_slot _ _ 1%nat _ _ _ F eq_refl)) in *.
  destruct R as (_ & _ & _ & _ & _ & _ & _ & _ & _ & _ & _ & R3 & _ & _ & _ & R4 & R5 & R6 & _ & R7 & _). auto.
Qed.

(** The other order, or a second run, is refused. *)
Theorem deploy_early C E l deployer auth j sk ops :
  client_state C sk -> initialize_script C E deployer auth j = Some ops -> steps_ok C l ops ->
  mint_auth (a_data (l xorca_mint_id)) <> sk -> exists e, attempt_all C l ops = Err e.
Proof.
  intros Hs H Hok Hn. unfold initialize_script in H. repeat build_step H. injection H as <-.
  destruct (attempt_all C l [send E x]) as [[l' evs]|e] eqn:Q; [|eauto]. exfalso.
  destruct (call_last _ _ _ _ _ _ Q Hok) as (P & HE & Hh).
  assert (J : exists c, j = JInt c).
  { unfold script_initialize in E0. repeat build_step E0. destruct j; [eauto|discriminate..]. }
  destruct J as (c & ->).
  assert (He : encodes (b_data x) (Initialize c)) by (apply (sends_encodes C); now apply (ScriptInitialize C deployer auth)).
  pose proof (script_initialize_accounts _ _ _ _ _ _ E0 (delivered_refl _)) as (_ & sk' & vk' & S1 & _ & F).
  pose proof (client_state_unique _ _ _ S1 Hs). subst sk'.
  destruct (init_exact _ _ _ _ _ _ _ _ HE Hh He P) as (sk' & vk & au & sb' & vb & _ & _ & T2 & _ & _ & _ & _ & _ & _ & _ & _ & _ & _ & A & _).
  rewrite (slot_unique _ _ _ _ T2 (fills_slot _ _ 2%nat _ _ _ F eq_refl)) in *. contradiction.
Qed.

Theorem deploy_again C E l deployer auth j sk ops :
  ordinary_state_address C -> reaches C l -> is_state l sk ->
  initialize_script C E deployer auth j = Some ops -> steps_ok C l ops -> exists e, attempt_all C l ops = Err e.
Proof.
  intros Ho Hr Hst H Hok. unfold initialize_script in H. repeat build_step H. injection H as <-.
  destruct (attempt_all C l [send E x]) as [[l' evs]|e] eqn:Q; [|eauto]. exfalso.
  destruct (call_last _ _ _ _ _ _ Q Hok) as (P & HE & Hh).
  assert (J : exists c, j = JInt c).
  { unfold script_initialize in E0. repeat build_step E0. destruct j; [eauto|discriminate..]. }
  destruct J as (c & ->).
  assert (He : encodes (b_data x) (Initialize c)) by (apply (sends_encodes C); now apply (ScriptInitialize C deployer auth)).
  pose proof (script_initialize_accounts _ _ _ _ _ _ E0 (delivered_refl _)) as (_ & sk' & vk' & S1 & _ & F).
  pose proof (state_where _ _ _ Ho Hr Hst) as [W _]. pose proof (client_state_unique _ _ _ S1 W). subst sk'.
  destruct (init_exact _ _ _ _ _ _ _ _ HE Hh He P) as (sk' & vk & au & sb' & vb & _ & _ & T2 & _ & _ & _ & _ & A & _).
  rewrite (slot_unique _ _ _ _ T2 (fills_slot _ _ 2%nat _ _ _ F eq_refl)) in *.
  destruct Hst as [Hst _]. rewrite Hst in A. now apply xorca_ne_system in A.
Qed.
