(** What the scripts' transactions do, and what the scripts then print. *)
From Coq Require Import String.
From Verif Require Import BytesFacts LedgerFacts CodecFacts AssertFacts TokenFacts InitFacts Pool PoolHistory HistoryFacts LifeFacts UnstakeFacts ConserveFacts
  EffectFacts SlotFacts LiveFacts BlockFacts ClientSpec ToolSpec RaiseFacts EncodeFacts RoleFacts AddressFacts ScriptFacts Scripts TransactionFacts VaultStep.
Import List ListNotations.
Open Scope list_scope.
Open Scope Z_scope.

(** ** Creating an associated account *)
(** Either it existed, or it was a wallet and is now an empty account; the bytes and
    owners of other accounts stay. *)
Lemma ata_keeps C E sg l payer k owner mint l1 :
  mint <> native_mint_id ->
  ata_create_idempotent C E sg l payer k owner mint = Ok l1 ->
  l1 = l \/
  (wallet l k /\ a_owner (l1 k) = token_id /\ a_data (l1 k) = init_ta mint owner (zeros ta_len) /\
   (a_lamports (l k) = 0 -> 0 < a_lamports (l1 k)) /\
   forall k', k' <> k -> a_owner (l1 k') = a_owner (l k') /\ a_data (l1 k') = a_data (l k') /\
     (k' <> payer -> a_lamports (l1 k') = a_lamports (l k'))).
Proof.
  intros Hn H. destruct (key_eq_dec (a_owner (l k)) system_id) as [Ho|Ho].
  - right. assert (Hk : mint <> k).
    { intros ->. pose proof H as H0. unfold ata_create_idempotent in H0.
      destruct (find_program_address _ _ _) as [[addr b]|]; [|discriminate]. inv_bind H0 u. rewrite Ho in H0.
      rewrite (key_eqb_neq system_id token_id) in H0 by (apply not_eq_sym, token_ne_system).
      cbn [andb] in H0. inv_bind H0 u1. inv_bind H0 l2. apply init_account_ok in H0; [|exact Hn].
      destruct H0 as (_ & W & _ & _ & M & _). eapply ta_not_mint; eassumption. }
    apply ata_create_fresh in H; auto. destruct H as (_ & Hd & _ & _ & _ & Hq).
    split; [split; assumption|]. unfold ata_created in Hq. rewrite (Hq k), upd_same. cbn [a_owner a_data a_lamports].
    split; [reflexivity|]. split; [reflexivity|].
    split; [intros Z0; unfold ata_need; rewrite Z0; cbn [Z.ltb Z.compare]; lia|].
    intros k' K. rewrite (Hq k'), upd_other by congruence. autorewrite with ledger. split; [reflexivity|]. split; [reflexivity|].
    intros Kp. now rewrite set_lamports_other by congruence.
  - left. unfold ata_create_idempotent in H. destruct (find_program_address _ _ _) as [[addr b]|]; [|discriminate].
    inv_bind H u. destruct (key_eqb (a_owner (l k)) token_id && _).
    + inv_bind H u1. inv_bind H u2. now injection H.
    + rewrite (key_eqb_neq _ _ Ho) in H. discriminate.
Qed.

Lemma empty_balance l k : a_data (l k) = [] -> balance l k = 0.
Proof. intros H. unfold balance. rewrite H. reflexivity. Qed.
Lemma created_balance l k mint owner : a_data (l k) = init_ta mint owner (zeros ta_len) -> balance l k = 0.
Proof. intros H. unfold balance. rewrite H. now destruct (init_ta_fields mint owner (zeros ta_len) eq_refl) as (_ & _ & _ & F & _). Qed.

Lemma script_mints : script_orca_mint = orca_mint_id /\ script_xorca_mint = xorca_mint_id.
Proof. split; reflexivity. Qed.
Lemma xorca_not_native : xorca_mint_id <> native_mint_id.
Proof. apply ids_distinct. Qed.

(** The transaction of a script that may create an account first. *)
Lemma create_then C E l payer k owner mint rest l' evs :
  mint <> native_mint_id ->
  attempt_all C l (create_if_missing E l payer k owner mint ++ rest) = Ok (l', evs) ->
  steps_ok C l (create_if_missing E l payer k owner mint ++ rest) ->
  exists l1, attempt_all C l1 rest = Ok (l', evs) /\ steps_ok C l1 rest /\
    balance l1 k = balance l k /\
    (forall k', k' <> k -> a_owner (l1 k') = a_owner (l k') /\ a_data (l1 k') = a_data (l k') /\
       (k' <> payer -> a_lamports (l1 k') = a_lamports (l k'))) /\
    (l1 = l \/ (wallet l k /\ a_lamports (l k) = 0 /\ 0 < a_lamports (l1 k))).
Proof.
  intros Hn H Hok. unfold create_if_missing in *. destruct (rpc_get l k) eqn:G.
  { exists l. do 4 (split; [now auto|]). auto. }
  cbn [app attempt_all attempt steps_ok] in H, Hok. destruct Hok as [_ Hok].
  destruct (ata_create_idempotent C E (signs [payer]) l payer k owner mint) as [l1|] eqn:Q; [|discriminate].
  cbn [bind fst snd app] in H, Hok. destruct (attempt_all C l1 rest) as [[l2 evs2]|] eqn:Q2; [|discriminate].
  cbn [bind fst snd app] in H. injection H as <- <-. exists l1. split; [exact Q2|]. split; [exact Hok|].
  destruct (ata_keeps _ _ _ _ _ _ _ _ _ Hn Q) as [->|(W & O & D & Lm & R)].
  - do 2 (split; [now auto|]). auto.
  - split; [rewrite (empty_balance l k) by apply W; eapply created_balance; exact D|].
    split; [exact R|]. right. unfold rpc_get in G. destruct (Z.eqb_spec (a_lamports (l k)) 0) as [Z0|]; [auto|discriminate].
Qed.

Lemma is_ata_seeds C owner mint k : is_ata C owner mint k ->
  exists b, find_program_address C (ata_seeds owner mint) ata_id = Some (k, b).
Proof. intros H. exact H. Qed.
Lemma is_ata_off_curve C owner mint k : is_ata C owner mint k -> on_curve C k = false.
Proof. intros (b & H). eapply program_address_off_curve. exact H. Qed.

(** If the account is usable or can be paid for, the rest of the transaction runs with
    it usable and nothing else changed. *)
Lemma create_live C E l payer k owner mint rest :
  mint <> native_mint_id -> mint_live l mint -> is_ata C owner mint k -> on_curve C payer = true ->
  reaches C l -> can_open E l payer k mint owner ->
  steps_ok C l (create_if_missing E l payer k owner mint ++ rest) ->
  exists l1,
    (forall l' evs, attempt_all C l1 rest = Ok (l', evs) ->
       attempt_all C l (create_if_missing E l payer k owner mint ++ rest) = Ok (l', evs)) /\
    steps_ok C l1 rest /\ reaches C l1 /\ active_account l1 k mint owner /\ balance l1 k = balance l k /\
    (l1 = l \/ wallet l k) /\
    (forall k', k' <> k -> a_owner (l1 k') = a_owner (l k') /\ a_data (l1 k') = a_data (l k') /\
       (k' <> payer -> a_lamports (l1 k') = a_lamports (l k'))) /\
    a_lamports (l payer) - Z.max (rent_min E 165) 1 <= a_lamports (l1 payer) <= a_lamports (l payer).
Proof.
  intros Hn Hm Ha Hcv Hr Ho Hok.
  assert (Npk : payer <> k) by (intros ->; apply is_ata_off_curve in Ha; congruence).
  unfold create_if_missing in *. destruct (rpc_get l k) eqn:G.
  { destruct Ho as [A|(_ & Z0 & _)].
    - exists l. cbn [app] in *. do 6 (split; [now auto|]). split; [now auto|lia].
    - unfold rpc_get in G. rewrite Z0 in G. discriminate. }
  cbn [app steps_ok] in Hok. destruct Hok as [Hop Hok].
  assert (Q : exists l1, ata_create_idempotent C E (signs [payer]) l payer k owner mint = Ok l1).
  { destruct Ha as (b & Hf). destruct Ho as [[(A1 & A2 & A3 & A4) _]|(W & Z0 & Wp & [L1 L2])].
    - exists l. unfold ata_create_idempotent. unfold ata_seeds. rewrite Hf, key_eqb_refl. cbn [negb fail_if bind].
      now rewrite A1, A2, A3, A4, !key_eqb_refl.
    - destruct (ata_live C E (signs [payer]) l payer k owner mint b) as (l1 & Q & _); auto; [..|eauto].
      + unfold signs. cbn. now rewrite key_eqb_refl.
      + eapply mint_not_wallet; eassumption.
      + eapply mint_not_wallet; eassumption.
      + destruct Hop as [[_ HE] _]. apply HE. unfold ta_len. lia.
      + lia.
      + rewrite Z0. lia. }
  destruct Q as (l1 & Q). exists l1. cbn [attempt bind fst] in Hok. rewrite Q in Hok. cbn [bind fst] in Hok.
  split.
  { intros l' evs R. cbn [attempt_all attempt app]. rewrite Q. cbn [bind fst snd]. rewrite R. reflexivity. }
  split; [exact Hok|]. split.
  { pose proof (reaches_step _ _ _ Hr Hop) as R. cbn [run_op] in R. rewrite Q in R. exact R. }
  destruct Ho as [A|(W & Z0 & Wp & L)].
  - assert (l1 = l).
    { destruct (ata_keeps _ _ _ _ _ _ _ _ _ Hn Q) as [H|([W _] & _)]; [exact H|].
      destruct A as [(A1 & _) _]. rewrite A1 in W. now apply token_ne_system in W. }
    subst l1. do 3 (split; [now auto|]). split; [now auto|lia].
  - destruct W as [W1 W2].
    apply ata_create_fresh in Q; auto; [|eapply mint_not_wallet; [eassumption|split; assumption]].
    destruct Q as (_ & _ & _ & _ & _ & Hq). unfold ata_created in Hq.
    destruct (init_ta_fields mint owner (zeros ta_len) eq_refl) as (F1 & F2 & F3 & F4 & F5 & F6 & F7 & F8 & F9).
    assert (D : a_data (l1 k) = init_ta mint owner (zeros ta_len)) by (now rewrite (Hq k), upd_same).
    assert (O : a_owner (l1 k) = token_id) by (now rewrite (Hq k), upd_same).
    split.
    { split; [split; [exact O|]|now rewrite D]. rewrite D. split; [|auto]. apply ta_unpack_ok. split; [exact F9|]. now rewrite F6. }
    split; [unfold balance; rewrite D, F4, W2; reflexivity|]. split; [right; split; assumption|].
    assert (Nd : 0 <= ata_need E l k <= Z.max (rent_min E 165) 1).
    { unfold ata_need. rewrite Z0. cbn [Z.ltb Z.compare]. unfold ta_len. lia. }
    split.
    { intros k' K. rewrite (Hq k'), upd_other by congruence. autorewrite with ledger. split; [reflexivity|].
      split; [reflexivity|]. intros Kp. now rewrite set_lamports_other by congruence. }
    rewrite (Hq payer), upd_other, set_lamports_same_lamports by congruence. lia.
Qed.

Lemma call_last C E l b l' evs :
  attempt_all C l [send E b] = Ok (l', evs) -> steps_ok C l [send E b] ->
  process_instruction C E xorca_id (b_accounts b) l (b_data b) = Ok (l', evs) /\ sysvars_ok E /\ honest_metas C (b_accounts b).
Proof.
  cbn [attempt_all attempt send steps_ok op_ok]. intros H [[H1 H2] _].
  destruct (process_instruction _ _ _ _ _ _) as [[l1 e1]|]; [|discriminate]. cbn [bind fst snd] in H.
  rewrite app_nil_r in H. injection H as <- <-. auto.
Qed.

Lemma token_amount_balance l k n : rpc_token_amount l k = Some n -> n = balance l k.
Proof.
  unfold rpc_token_amount, rpc_get. destruct (_ =? 0); [discriminate|]. cbn [obind].
  destruct (_ && _); [|discriminate]. intros [=<-]. reflexivity.
Qed.

Lemma delivered_refl ms : delivered ms ms.
Proof. unfold delivered. induction ms; constructor; auto. Qed.

Lemma slot_unique accs n k k' : slot accs n k -> slot accs n k' -> k = k'.
Proof. intros (m & H & <-) (m' & H' & <-). congruence. Qed.

(** ** Staking *)
Theorem stake_script_says C E l st a ops l' evs s r :
  stake_script C E l st a = Some ops -> steps_ok C l ops -> attempt_all C l ops = Ok (l', evs) ->
  stake_script_report C l l' st = Some (s, r) ->
  exists sx, is_ata C st xorca_mint_id sx /\ s = a /\ supply l < supply l' /\
    balance l' sx = balance l sx + (supply l' - supply l) /\ r = balance l' sx.
Proof.
  intros H Hok Hrun Hr. unfold stake_script in H. repeat build_step H. injection H as <-.
  unfold stake_script_report in Hr. rewrite E0, E1 in Hr. cbn [obind] in Hr. rewrite E2 in Hr. cbn [obind] in Hr.
  repeat build_step Hr. injection Hr as <- <-.
  apply token_amount_balance in E2, E5, E6. subst x1 x3 x4.
  destruct (script_ata_some _ _ _ _ E1) as [_ A]. exists x0. split; [exact A|].
  (* the accounts of the call *)
  pose proof (script_stake_accounts _ _ _ _ _ E4 (delivered_refl _)) as (sk & vk & so & sx & _ & _ & A1 & A2 & F).
  destruct (script_ata_some _ _ _ _ E0) as [_ A0]. 
  pose proof (is_ata_unique _ _ _ _ _ A A2). pose proof (is_ata_unique _ _ _ _ _ A0 A1). subst sx so.
  rewrite (proj1 script_mints), (proj2 script_mints) in *.
  destruct (create_then _ _ _ _ _ _ _ _ _ _ xorca_not_native Hrun Hok) as (l1 & Hrun1 & Hok1 & B & K & _).
  destruct (call_last _ _ _ _ _ _ Hrun1 Hok1) as (P & _ & Hh).
  assert (He : encodes (b_data x2) (Stake a)) by (apply (sends_encodes C); now apply (ScriptStake C st)).
  destruct (stake_exact _ _ _ _ _ _ _ _ Hh He P) as (st' & vk' & so' & sx' & sk' & m & _ & _ & S2 & S3 & _ & R).
  rewrite (slot_unique _ _ _ _ S2 (fills_slot _ _ 2%nat _ _ _ F eq_refl)) in *.
  rewrite (slot_unique _ _ _ _ S3 (fills_slot _ _ 3%nat _ _ _ F eq_refl)) in *.
  destruct R as (_ & _ & _ & _ & _ & _ & Hm & ND & R1 & _ & R3 & R4 & _).
  assert (N1 : x <> x0). { intros ->. inversion ND as [|? ? N _]. apply N. cbn; auto. }
  assert (N2 : xorca_mint_id <> x0).
  { intros Q. inversion ND as [|? ? _ ND1]. inversion ND1 as [|? ? _ ND2]. inversion ND2 as [|? ? N _]. apply N. left. exact Q. }
  unfold balance, supply in *. rewrite (proj1 (proj2 (K _ N1))) in R1. rewrite (proj1 (proj2 (K _ N2))) in R4. rewrite B in R3.
  repeat split; lia.
Qed.

Lemma run_last C E l l1 ops i b :
  (forall l' evs, attempt_all C l1 [send E b] = Ok (l', evs) -> attempt_all C l ops = Ok (l', evs)) ->
  sends C b i ->
  is_ok (process_instruction C E (b_program b) (b_accounts b) l1 (b_data b)) = true ->
  exists l' evs, attempt_all C l ops = Ok (l', evs).
Proof.
  intros R Hb Hp. destruct (sends_bytes C b i Hb) as (Hid & _).
  rewrite Hid in Hp. destruct (process_instruction _ _ _ _ _ _) as [[l2 e2]|] eqn:Q; [|discriminate].
  exists l2, e2. apply R. cbn [attempt_all attempt send]. rewrite Q. cbn [bind fst snd]. now rewrite app_nil_r.
Qed.

(** The pool a reachable ledger with a State account has. *)
Lemma state_mint_live C l sk : ordinary_state_address C -> reaches C l -> is_state l sk -> mint_live l xorca_mint_id.
Proof.
  intros Ho Hr Hs. destruct (reaches_pool _ _ _ Ho Hr Hs) as (vk & P & HP). apply (po_mint _ _ _ _ _ HP).
Qed.

Theorem stake_script_live C E l sk vk st so sx a ops :
  ordinary_state_address C -> reaches C l -> is_state l sk -> client_vault C sk vk ->
  stake_script C E l st a = Some ops -> steps_ok C l ops ->
  wallet l st -> is_ata C st orca_mint_id so -> active_account l so orca_mint_id st -> ordinary l so ->
  no_self_delegate l so st -> is_ata C st xorca_mint_id sx -> can_open E l st sx xorca_mint_id st ->
  ta_state (a_data (l vk)) = 1 ->
  0 < a -> (supply l <> 0 -> free_orca l sk vk + 100 <= a * (supply l + 100)) -> balance l vk + a < 2 ^ 63 ->
  exists l' evs, attempt_all C l ops = Ok (l', evs).
Proof.
  intros Ho Hr Hs Hv H Hok Ws Ao Hao Hon Hsd Ax Hopen Hvs Hpos Hq Hlt.
  unfold stake_script in H. repeat build_step H. injection H as <-.
  rewrite (proj1 script_mints), (proj2 script_mints) in *.
  destruct (script_ata_some _ _ _ _ E0) as [Cv A0]. destruct (script_ata_some _ _ _ _ E1) as [_ A1].
  pose proof (is_ata_unique _ _ _ _ _ A0 Ao). pose proof (is_ata_unique _ _ _ _ _ A1 Ax). subst x x0.
  apply token_amount_balance in E2. subst x1. apply Z.ltb_ge in E3.
  destruct (create_live C E l st sx st xorca_mint_id [send E x2] xorca_not_native
    (state_mint_live _ _ _ Ho Hr Hs) Ax Cv Hr Hopen Hok) as (l1 & R & Hok1 & Hr1 & Hx1 & _ & Hw & K & _).
  assert (Nst : st <> sx) by (intros ->; apply is_ata_off_curve in Ax; congruence).
  assert (N : forall k, a_owner (l k) <> system_id -> a_owner (l1 k) = a_owner (l k) /\ a_data (l1 k) = a_data (l k)).
  { intros k Hk. destruct Hw as [->|[W _]]; [auto|]. destruct (K k) as (K1 & K2 & _); [intros ->; congruence|auto]. }
  assert (Tk : token_id <> system_id) by apply token_ne_system.
  destruct (reaches_pool_vault _ _ _ vk Ho Hr Hs) as (P & HP); [now apply client_vault_is|].
  destruct (N sk) as [S1 S2]; [rewrite (po_state _ _ _ _ _ HP); apply xorca_ne_system|].
  destruct (N vk) as [V1 V2]; [rewrite (vo_owner _ _ _ _ (po_vault _ _ _ _ _ HP)); exact Tk|].
  destruct (N xorca_mint_id) as [M1 M2].
  { destruct (state_mint_live _ _ _ Ho Hr Hs) as (O & _). rewrite O. exact Tk. }
  destruct (N so) as [O1 O2]; [destruct Hao as [(O & _) _]; rewrite O; exact Tk|].
  destruct (K st Nst) as (T1 & _).
  assert (Hp : is_ok (process_instruction C E (b_program x2) (b_accounts x2) l1 (b_data x2)) = true).
  { apply (script_stake_live C E l1 sk vk x2 (b_accounts x2) st so sx a); auto using delivered_refl.
    - unfold is_state. now rewrite S1, S2.
    - apply Hok1.
    - rewrite T1. destruct Ws as [-> _]. auto.
    - unfold active_account, token_account_of. rewrite O1, O2. exact Hao.
    - unfold ordinary. now rewrite O2.
    - unfold no_self_delegate. now rewrite O2.
    - unfold balance. now rewrite O2.
    - now rewrite V2.
    - unfold supply, free_orca, balance, escrow. rewrite M2, V2, S2. exact Hq.
    - unfold balance. now rewrite V2. }
  eapply run_last; [exact R|apply (ScriptStake C st); exact E4|exact Hp].
Qed.

(** ** Unstaking *)
Lemma shown_amount l k n : rpc_amount_or_0 l k = Some n -> n = shown_balance l k.
Proof.
  unfold rpc_amount_or_0, rpc_token_amount, shown_balance, rpc_get. destruct (_ =? 0); [congruence|]. cbn [obind].
  destruct (_ && _); [|discriminate]. intros [=<-]. reflexivity.
Qed.
Lemma shown_token l k n : rpc_amount_or_0 l k = Some n -> a_lamports (l k) = 0 \/ a_owner (l k) = token_id.
Proof.
  unfold rpc_amount_or_0, rpc_token_amount, rpc_get. destruct (_ =? 0) eqn:Q; [apply Z.eqb_eq in Q; auto|]. cbn [obind].
  destruct (key_eqb _ token_id) eqn:O; [|discriminate]. apply key_eqb_true in O. auto.
Qed.

Theorem unstake_script_says C E l un x j ops l' evs u r :
  unstake_script C E l un x j = Some ops -> steps_ok C l ops -> attempt_all C l ops = Ok (l', evs) ->
  unstake_script_report C l l' un = Some (u, r) ->
  exists ux uo, is_ata C un xorca_mint_id ux /\ is_ata C un orca_mint_id uo /\ u = x /\
    balance l' ux = balance l ux - x /\
    (uo <> ux -> uo <> xorca_mint_id -> r = shown_balance l uo /\ shown_balance l' uo = shown_balance l uo).
Proof.
  intros H Hok Hrun Hr. unfold unstake_script in H. repeat build_step H. injection H as <-.
  unfold unstake_script_report in Hr. rewrite E0, E1 in Hr. cbn [obind] in Hr. rewrite E2 in Hr. cbn [obind] in Hr.
  repeat build_step Hr. injection Hr as <- <-.
  rewrite (proj1 script_mints), (proj2 script_mints) in *.
  destruct (script_ata_some _ _ _ _ E0) as [Cv A0]. destruct (script_ata_some _ _ _ _ E1) as [_ A1].
  exists x0, x1. split; [exact A0|]. split; [exact A1|].
  pose proof (script_unstake_accounts _ _ _ _ _ _ E4 (delivered_refl _)) as (sk & vk & k & ux & _ & _ & _ & Ax & F).
  pose proof (is_ata_unique _ _ _ _ _ A0 Ax). subst ux.
  assert (Nu0 : un <> x0) by (intros ->; apply is_ata_off_curve in A0; congruence).
  assert (Nu1 : un <> x1) by (intros ->; apply is_ata_off_curve in A1; congruence).
  assert (Z0 : a_lamports (l x0) <> 0).
  { unfold rpc_token_amount, rpc_get in E2. destruct (Z.eqb_spec (a_lamports (l x0)) 0); [discriminate|assumption]. }
  destruct (create_then _ _ _ _ _ _ _ _ _ _ orca_not_native Hrun Hok) as (l1 & Hrun1 & Hok1 & B & K & Hl1).
  destruct (call_last _ _ _ _ _ _ Hrun1 Hok1) as (P & HE & Hh).
  assert (He : encodes (b_data x3) (Unstake x (js_trunc j))) by (apply (sends_encodes C); now apply (ScriptUnstake C un)).
  destruct (unstake_exact _ _ _ _ _ _ _ _ _ HE Hh He P) as (un' & sk' & k' & ux' & vk' & w & S0 & S1 & S2 & S3 & S6 & R).
  assert (S0' : slot (b_accounts x3) 0 un') by (destruct S0 as (m & M1 & M2 & _); exists m; auto).
  rewrite (slot_unique _ _ _ _ S0' (fills_slot _ _ 0%nat _ _ _ F eq_refl)) in *.
  rewrite (slot_unique _ _ _ _ S3 (fills_slot _ _ 3%nat _ _ _ F eq_refl)) in *.
  destruct R as (Is & Tx & _ & _ & Ok & Dk & _ & _ & _ & _ & ND & Nuk & R1 & _ & _ & _ & Ok' & R).
  destruct R as (_ & _ & _ & _ & _ & _ & Lk & _ & _ & _ & _ & Ow & Dt & Lm & _).
  assert (Nx0k : x0 <> k'). { intros ->. inversion ND as [|? ? N _]. apply N. cbn; auto. }
  (* the xORCA account *)
  assert (Bx : balance l1 x0 = balance l x0 /\ a_lamports (l1 x0) = a_lamports (l x0)).
  { destruct (key_eq_dec x0 x1) as [<-|N].
    - split; [exact B|]. destruct Hl1 as [->|(_ & Q & _)]; [reflexivity|contradiction].
    - destruct (K x0 N) as (_ & D & L). unfold balance. rewrite D. split; [reflexivity|]. apply L. congruence. }
  destruct Bx as [Bx Lx]. apply token_amount_balance in E2. apply shown_amount in E5. subst x2 x4.
  assert (Lx' : a_lamports (l' x0) = a_lamports (l x0)) by (rewrite Lm by congruence; exact Lx).
  assert (Sx : shown_balance l' x0 = balance l' x0)
    by (unfold shown_balance; destruct (Z.eqb_spec (a_lamports (l' x0)) 0); [congruence|reflexivity]).
  split; [lia|]. split; [lia|]. intros N01 N1m.
  pose proof (shown_token _ _ _ E6) as T. apply shown_amount in E6.
  assert (Sh : shown_balance l1 x1 = shown_balance l x1).
  { destruct Hl1 as [->|(W & Q0 & Q1)]; [reflexivity|]. unfold shown_balance. rewrite Q0.
    destruct (Z.eqb_spec (a_lamports (l1 x1)) 0); [lia|]. cbn [Z.eqb]. rewrite B. apply empty_balance, W. }
  enough (Sh' : shown_balance l' x1 = shown_balance l1 x1) by (split; [destruct (0 <? _); lia|congruence]).
  assert (xt : xorca_id <> token_id) by apply xt_ne.
  destruct (key_eq_dec x1 k') as [Q|N1k].
  - rewrite Q in *. assert (L0 : a_lamports (l' k') = 0) by (destruct T as [T|T]; [exact T|congruence]).
    unfold shown_balance. rewrite L0. cbn [Z.eqb]. destruct (_ =? 0); [reflexivity|]. symmetry. now apply empty_balance.
  - unfold shown_balance. rewrite Lm by congruence. destruct (Z.eqb_spec (a_lamports (l1 x1)) 0) as [_|L]; [reflexivity|].
    unfold balance. rewrite Dt; [reflexivity|]. intros [Q|[Q|[Q|[Q|[]]]]]; try congruence.
    rewrite <- Q in *. destruct T as [T|T]; [rewrite Lm in T by congruence; contradiction|].
    rewrite Ow in T by congruence. destruct Is as [Is _]. congruence.
Qed.

(** Facts shared by the proofs that the calls go through after creating an account. *)
Lemma after_create C E l l1 sk vk k payer mint owner :
  ordinary_state_address C -> reaches C l -> is_state l sk -> client_vault C sk vk ->
  (l1 = l \/ wallet l k) ->
  (forall k', k' <> k -> a_owner (l1 k') = a_owner (l k') /\ a_data (l1 k') = a_data (l k') /\
     (k' <> payer -> a_lamports (l1 k') = a_lamports (l k'))) ->
  can_open E l payer k mint owner ->
  is_state l1 sk /\ cooldown l1 sk = cooldown l sk /\ free_orca l1 sk vk = free_orca l sk vk /\
  balance l1 vk = balance l vk /\ supply l1 = supply l /\ a_data (l1 vk) = a_data (l vk) /\
  (forall k', a_owner (l k') <> system_id ->
     a_owner (l1 k') = a_owner (l k') /\ a_data (l1 k') = a_data (l k') /\ (k' <> payer -> a_lamports (l1 k') = a_lamports (l k'))).
Proof.
  intros Ho Hr Hs Hv Hw K _.
  assert (N : forall k', a_owner (l k') <> system_id ->
    a_owner (l1 k') = a_owner (l k') /\ a_data (l1 k') = a_data (l k') /\ (k' <> payer -> a_lamports (l1 k') = a_lamports (l k'))).
  { intros k' Hk. destruct Hw as [->|[W _]]; [auto|]. apply K. intros ->; congruence. }
  assert (Tk : token_id <> system_id) by apply token_ne_system.
  destruct (reaches_pool_vault _ _ _ vk Ho Hr Hs) as (P & HP); [now apply client_vault_is|].
  destruct (N sk) as (S1 & S2 & _); [rewrite (po_state _ _ _ _ _ HP); apply xorca_ne_system|].
  destruct (N vk) as (V1 & V2 & _); [rewrite (vo_owner _ _ _ _ (po_vault _ _ _ _ _ HP)); exact Tk|].
  destruct (N xorca_mint_id) as (M1 & M2 & _).
  { destruct (state_mint_live _ _ _ Ho Hr Hs) as (O & _). rewrite O. exact Tk. }
  unfold is_state, cooldown, free_orca, balance, escrow, supply. rewrite S1, S2, V2, M2. repeat (split; [now auto|]). exact N.
Qed.

Lemma state_orca_live C l sk : ordinary_state_address C -> reaches C l -> is_state l sk -> mint_live l orca_mint_id.
Proof.
  intros Ho Hr Hs. destruct (reaches_pool _ _ _ Ho Hr Hs) as (vk & P & HP). apply (po_orca _ _ _ _ _ HP).
Qed.

Theorem unstake_script_live C E l sk vk un x j k ux uo ops :
  ordinary_state_address C -> reaches C l -> is_state l sk -> client_vault C sk vk ->
  unstake_script C E l un x j = Some ops -> steps_ok C l ops ->
  client_record C un (js_trunc j) k -> ~ is_record l k ->
  is_ata C un xorca_mint_id ux -> active_account l ux xorca_mint_id un -> no_self_delegate l ux un -> 0 < x ->
  is_ata C un orca_mint_id uo -> can_open E l un uo orca_mint_id un -> uo <> k ->
  wallet l un -> Z.max (rent_min E 165) 1 + rent_min E 1024 <= a_lamports (l un) + a_lamports (l k) ->
  is_i64 (now E + cooldown l sk) -> balance l vk < 2 ^ 63 ->
  (exists l' evs, attempt_all C l ops = Ok (l', evs)) \/ collision C (eq un).
Proof.
  intros Ho Hr Hs Hv H Hok Hk Hn Ax Hax Hsd Hx Ao Hopen Nok Wu Hrent Hclock Hlt.
  unfold unstake_script in H. repeat build_step H. injection H as <-.
  rewrite (proj1 script_mints), (proj2 script_mints) in *.
  destruct (script_ata_some _ _ _ _ E0) as [Cv A0]. destruct (script_ata_some _ _ _ _ E1) as [_ A1].
  pose proof (is_ata_unique _ _ _ _ _ A0 Ax). pose proof (is_ata_unique _ _ _ _ _ A1 Ao). subst x0 x1.
  apply token_amount_balance in E2. subst x2. apply Z.ltb_ge in E3.
  destruct (create_live C E l un uo un orca_mint_id [send E x3] orca_not_native
    (state_orca_live _ _ _ Ho Hr Hs) Ao Cv Hr Hopen Hok) as (l1 & R & Hok1 & Hr1 & _ & _ & Hw & K & Lp).
  destruct (after_create _ _ _ _ _ _ _ _ _ _ Ho Hr Hs Hv Hw K Hopen) as (Is1 & C1 & F1 & B1 & U1 & D1 & N).
  assert (Nu : un <> uo) by (intros ->; apply is_ata_off_curve in Ao; congruence).
  assert (Nuk : k <> un).
  { intros ->. apply client_record_is in Hk. destruct Hk as (b & Hk). apply program_address_off_curve in Hk. congruence. }
  destruct (K k) as (K1 & K2 & K3); [congruence|]. specialize (K3 Nuk).
  destruct (K un Nu) as (T1 & T2 & _).
  destruct (N ux) as (O1 & O2 & _); [destruct Hax as [(O & _) _]; rewrite O; apply token_ne_system|].
  destruct (script_unstake_live C E l1 sk vk x3 (b_accounts x3) un ux x j k) as [Hp|]; auto using delivered_refl.
  - apply Hok1.
  - unfold is_record. now rewrite K1, K2.
  - unfold active_account, token_account_of. rewrite O1, O2. exact Hax.
  - unfold no_self_delegate. now rewrite O2.
  - unfold balance in *. rewrite O2. lia.
  - unfold wallet. now rewrite T1, T2.
  - rewrite K3. lia.
  - now rewrite C1.
  - lia.
  - left. eapply run_last; [exact R|apply (ScriptUnstake C un); exact E4|exact Hp].
Qed.

(** ** Withdrawing *)
Theorem withdraw_script_pays C E l un j ops l' evs :
  withdraw_script C E l un j = Some ops -> steps_ok C l ops -> attempt_all C l ops = Ok (l', evs) ->
  exists k uo, client_record C un (js_trunc j) k /\ is_ata C un orca_mint_id uo /\
    is_record l k /\ ~ is_record l' k /\ balance l' uo = balance l uo + rec_amount l k /\
    rec_time l k <= now E /\
    withdraw_script_seconds C l (now E) un j = Some (rec_time l k - now E).
Proof.
  intros H Hok Hrun. unfold withdraw_script in H. repeat build_step H. injection H as <-.
  rewrite (proj1 script_mints) in *.
  destruct (script_ata_some _ _ _ _ E1) as [Cv A1].
  pose proof (script_withdraw_accounts _ _ _ _ _ E4 (delivered_refl _)) as (sk & vk & k & uo & _ & _ & Ak & Ao & F).
  pose proof (is_ata_unique _ _ _ _ _ A1 Ao). subst x0.
  pose proof (client_record_unique _ _ _ _ _ (script_pending_some _ _ _ _ E0) Ak). subst x.
  exists k, uo. split; [exact Ak|]. split; [exact Ao|].
  destruct (create_then _ _ _ _ _ _ _ _ _ _ orca_not_native Hrun Hok) as (l1 & Hrun1 & Hok1 & B & K & Hl1).
  destruct (call_last _ _ _ _ _ _ Hrun1 Hok1) as (P & HE & Hh).
  assert (He : encodes (b_data x2) (Withdraw (js_trunc j))) by (apply (sends_encodes C); now apply (ScriptWithdraw C un)).
  destruct (withdraw_exact _ _ _ _ _ _ _ _ Hh He P) as (un' & sk' & k' & uo' & vk' & _ & _ & S2 & S3 & _ & R).
  rewrite (slot_unique _ _ _ _ S2 (fills_slot _ _ 2%nat _ _ _ F eq_refl)) in *.
  rewrite (slot_unique _ _ _ _ S3 (fills_slot _ _ 3%nat _ _ _ F eq_refl)) in *.
  destruct R as (_ & Rk & Rt & _ & _ & _ & ND & _ & R2 & _ & _ & Ok' & _).
  assert (N : k <> uo).
  { intros ->. inversion ND as [|? ? _ ND1]. inversion ND1 as [|? ? Q _]. apply Q. cbn; auto. }
  destruct (K k N) as (K1 & K2 & _).
  unfold is_record, rec_amount, rec_time in *. rewrite K1, K2 in *.
  split; [exact Rk|]. split; [intros [Q _]; rewrite Ok' in Q; symmetry in Q; now apply xorca_ne_system in Q|].
  split; [lia|]. split; [exact Rt|].
  unfold withdraw_script_seconds. rewrite E0. cbn [obind]. rewrite E2. cbn [obind]. rewrite E3.
  unfold rpc_get in E2. destruct (_ =? 0); [discriminate|]. injection E2 as <-. reflexivity.
Qed.

(** If the script, whose clock agrees with the chain's, announces a wait, its transaction fails. *)
Theorem withdraw_script_early C E l un j ops s :
  withdraw_script C E l un j = Some ops -> steps_ok C l ops ->
  withdraw_script_seconds C l (now E) un j = Some s -> 0 < s ->
  (exists e, attempt_all C l ops = Err e) /\ transaction C l ops = (l, []).
Proof.
  intros H Hok Hs Hp. unfold transaction. destruct (attempt_all C l ops) as [[l' evs]|e] eqn:Q; [|eauto].
  destruct (withdraw_script_pays _ _ _ _ _ _ _ _ H Hok Q) as (k & uo & _ & _ & _ & _ & _ & T & S).
  rewrite Hs in S. injection S as ->. lia.
Qed.

Theorem withdraw_script_live C E l sk vk un j k uo ops :
  ordinary_state_address C -> reaches C l -> is_state l sk -> client_vault C sk vk ->
  withdraw_script C E l un j = Some ops -> steps_ok C l ops ->
  is_record l k -> rec_owner l k = un -> rec_index l k = js_trunc j -> rec_time l k <= now E ->
  is_ata C un orca_mint_id uo -> can_open E l un uo orca_mint_id un -> ta_state (a_data (l vk)) = 1 ->
  balance l uo + rec_amount l k <= u64_max -> a_lamports (l un) + a_lamports (l k) <= u64_max ->
  exists l' evs, attempt_all C l ops = Ok (l', evs).
Proof.
  intros Ho Hr Hs Hv H Hok Hk Hu Hi Ht Ao Hopen Hvs Hb1 Hb2.
  unfold withdraw_script in H. repeat build_step H. injection H as <-. rewrite (proj1 script_mints) in *.
  destruct (script_ata_some _ _ _ _ E1) as [Cv A1]. pose proof (is_ata_unique _ _ _ _ _ A1 Ao). subst x0.
  destruct (create_live C E l un uo un orca_mint_id [send E x2] orca_not_native
    (state_orca_live _ _ _ Ho Hr Hs) Ao Cv Hr Hopen Hok) as (l1 & R & Hok1 & Hr1 & Ha1 & Bu & Hw & K & Lp).
  destruct (after_create _ _ _ _ _ _ _ _ _ _ Ho Hr Hs Hv Hw K Hopen) as (Is1 & C1 & F1 & B1 & U1 & D1 & N).
  assert (Nuk : k <> un).
  { intros ->. pose proof (record_where _ _ _ _ Ho Hr Hs Hk) as W. apply client_record_is in W. destruct W as (b & W).
    apply program_address_off_curve in W. congruence. }
  destruct (N k) as (K1 & K2 & K3); [destruct Hk as [-> _]; apply xorca_ne_system|]. specialize (K3 Nuk).
  assert (Hp : is_ok (process_instruction C E (b_program x2) (b_accounts x2) l1 (b_data x2)) = true).
  { apply (script_withdraw_live C E l1 sk vk x2 (b_accounts x2) un k uo j); auto using delivered_refl;
      unfold is_record, rec_owner, rec_index, rec_time, rec_amount in *; rewrite ?K1, ?K2, ?K3, ?D1, ?Bu; auto; try lia.
    apply Hok1. }
  eapply run_last; [exact R|apply (ScriptWithdraw C un); exact E4|exact Hp].
Qed.

(** A lamport sent to the address of a missing account makes the script believe that
    the account exists; it does not create it, and the transaction fails. *)
Theorem stake_script_dusted C E l st a sx ops :
  stake_script C E l st a = Some ops -> steps_ok C l ops -> is_ata C st xorca_mint_id sx ->
  wallet l sx -> 0 < a_lamports (l sx) -> exists e, attempt_all C l ops = Err e.
Proof.
  intros H Hok Ax [W1 W2] Hl. unfold stake_script in H. repeat build_step H. injection H as <-.
  rewrite (proj1 script_mints), (proj2 script_mints) in *. destruct (script_ata_some _ _ _ _ E1) as [_ A1].
  pose proof (is_ata_unique _ _ _ _ _ A1 Ax). subst x0.
  unfold create_if_missing, rpc_get in *. destruct (Z.eqb_spec (a_lamports (l sx)) 0); [lia|]. cbn [app] in *.
  destruct (attempt_all C l [send E x2]) as [[l' evs]|e] eqn:Q; [|eauto]. exfalso.
  destruct (call_last _ _ _ _ _ _ Q Hok) as (P & _ & Hh).
  assert (He : encodes (b_data x2) (Stake a)) by (apply (sends_encodes C); now apply (ScriptStake C st)).
  pose proof (script_stake_accounts _ _ _ _ _ E4 (delivered_refl _)) as (sk & vk & so & sx' & _ & _ & _ & A2 & F).
  pose proof (is_ata_unique _ _ _ _ _ A2 Ax). subst sx'.
  destruct (stake_exact _ _ _ _ _ _ _ _ Hh He P) as (st' & vk' & so' & sx' & sk' & m & _ & _ & _ & S3 & _ & _ & _ & (T & _) & _).
  rewrite (slot_unique _ _ _ _ S3 (fills_slot _ _ 3%nat _ _ _ F eq_refl)) in T.
  rewrite W1 in T. symmetry in T. now apply token_ne_system in T.
Qed.
Theorem withdraw_script_dusted C E l un j uo ops :
  withdraw_script C E l un j = Some ops -> steps_ok C l ops -> is_ata C un orca_mint_id uo ->
  wallet l uo -> 0 < a_lamports (l uo) -> exists e, attempt_all C l ops = Err e.
Proof.
  intros H Hok Ao [W1 W2] Hl. unfold withdraw_script in H. repeat build_step H. injection H as <-.
  rewrite (proj1 script_mints) in *. destruct (script_ata_some _ _ _ _ E1) as [_ A1].
  pose proof (is_ata_unique _ _ _ _ _ A1 Ao). subst x0.
  assert (G : create_if_missing E l un uo un orca_mint_id = []).
  { unfold create_if_missing, rpc_get. destruct (Z.eqb_spec (a_lamports (l uo)) 0); [lia|reflexivity]. }
  rewrite G in *. cbn [app] in *.
  destruct (attempt_all C l [send E x2]) as [[l' evs]|e] eqn:Q; [|eauto]. exfalso.
  destruct (call_last _ _ _ _ _ _ Q Hok) as (P & _ & Hh).
  assert (He : encodes (b_data x2) (Withdraw (js_trunc j))) by (apply (sends_encodes C); now apply (ScriptWithdraw C un)).
  pose proof (script_withdraw_accounts _ _ _ _ _ E4 (delivered_refl _)) as (sk & vk & k & uo' & _ & _ & _ & A2 & F).
  pose proof (is_ata_unique _ _ _ _ _ A2 Ao). subst uo'.
  destruct (withdraw_exact _ _ _ _ _ _ _ _ Hh He P) as (un' & sk' & k' & uo' & vk' & _ & _ & _ & S3 & _ & _ & _ & _ & _ & (T & _) & _).
  rewrite (slot_unique _ _ _ _ S3 (fills_slot _ _ 3%nat _ _ _ F eq_refl)) in T.
  rewrite W1 in T. symmetry in T. now apply token_ne_system in T.
Qed.

(** ** Transfers *)
Lemma transfer_balances sg ex l f t a n l' :
  f <> t -> 0 <= n -> token_transfer sg ex l f t a n = Ok l' ->
  n <= balance l f /\ balance l' f = balance l f - n /\ balance l' t = balance l t + n /\
  (forall k, a_owner (l' k) = a_owner (l k)) /\
  (forall k, k <> f -> k <> t -> a_data (l' k) = a_data (l k)) /\
  (ordinary l f -> forall k, a_lamports (l' k) = a_lamports (l k)) /\
  a_owner (l f) = token_id /\ a_owner (l t) = token_id /\
  length (a_data (l' t)) = length (a_data (l t)) /\ length (a_data (l' f)) = length (a_data (l f)).
Proof.
  intros Hne Hn H. apply token_transfer_inv in H; [|exact Hne].
  destruct H as (sd1 & Lf & Lt & Hle & _ & Hs & Hov & Hq & _ & Hl & _).
  destruct Lf as (F1 & F2 & F3), Lt as (T1 & T2 & T3).
  pose proof (ta_wf_len _ F2) as Ff. pose proof (ta_wf_len _ T2) as Ft.
  pose proof (spend_auth_same _ _ _ _ _ _ _ _ Ff Hs) as Sd.
  pose proof (ta_amount_range (a_data (l f))) as Rf. pose proof (ta_amount_range (a_data (l t))) as Rt.
  assert (L1 : length sd1 = 165%nat) by (destruct Sd; congruence).
  destruct (set_amount_same sd1 (ta_amount (a_data (l f)) - n) L1) as (A1 & _ & _ & _ & _ & _ & _ & _ & _ & A2 & _);
    [unfold is_u64, u64_max in *; lia|].
  destruct (set_amount_same (a_data (l t)) (ta_amount (a_data (l t)) + n) Ft) as (B1 & _ & _ & _ & _ & _ & _ & _ & _ & B2 & _);
    [unfold is_u64, u64_max in *; lia|].
  assert (Df : a_data (l' f) = set_amount (ta_amount (a_data (l f)) - n) sd1).
  { rewrite (proj1 (Hq f)). unfold transferred. rewrite set_data_other by congruence. now rewrite set_data_same. }
  assert (Dt : a_data (l' t) = set_amount (ta_amount (a_data (l t)) + n) (a_data (l t))).
  { rewrite (proj1 (Hq t)). unfold transferred. now rewrite set_data_same. }
  unfold balance. rewrite Df, Dt, A1, B1, A2, B2.
  split; [exact Hle|]. split; [reflexivity|]. split; [reflexivity|].
  split; [intros k; rewrite (proj2 (Hq k)); unfold transferred; now rewrite !set_data_owner|].
  split. { intros k K1 K2. rewrite (proj1 (Hq k)). unfold transferred. now rewrite !set_data_other by congruence. }
  split. { intros Ho k. rewrite Hl. unfold native_moves, ta_is_native. unfold ordinary in Ho. rewrite Ho. cbn [Z.eqb]. lia. }
  split; [exact F1|]. split; [exact T1|]. split; congruence.
Qed.
