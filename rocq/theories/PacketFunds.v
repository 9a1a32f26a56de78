(** A packet takes nothing from a wallet that did not sign it (C77). *)
From Verif Require Export PacketFacts.
From Verif Require Import History BytesFacts LedgerFacts TokenFacts AssertFacts HistoryFacts PoolHistory VaultStep OutsideFacts Calm
  ConserveFacts EffectFacts ExactFacts TakeFacts FreezeStep GuardFacts BlockFacts GuardSpec Pool.
Import List ListNotations.
Open Scope list_scope.
Open Scope Z_scope.

(** Wallet [u] still has its lamports and its token accounts their tokens. *)
Record purse_kept (u : pubkey) (l l' : ledger) : Prop := {
  pk_owner : a_owner (l' u) = system_id;
  pk_lamports : a_lamports (l u) <= a_lamports (l' u);
  pk_tokens : forall k mint, vault_ok l k mint u -> vault_ok l' k mint u /\ balance l k <= balance l' k
}.

Lemma purse_refl u l : a_owner (l u) = system_id -> purse_kept u l l.
Proof. intros H. constructor; [exact H|lia|]. intros k mint V. split; [exact V|lia]. Qed.

Lemma purse_trans u a b c : purse_kept u a b -> purse_kept u b c -> purse_kept u a c.
Proof.
  intros [A1 A2 A3] [B1 B2 B3]. constructor; [exact B1|lia|]. intros k mint V.
  destruct (A3 _ _ V) as [V1 L1]. destruct (B3 _ _ V1) as [V2 L2]. split; [exact V2|lia].
Qed.

Lemma purse_token u E sg ex l c l' :
  lamports_ok l -> token_call_ok c = true -> token_exec E sg ex l c = Ok l' ->
  a_owner (l u) = system_id -> system_or_incinerator u = false -> sg u = false -> purse_kept u l l'.
Proof.
  intros Hl Hc H O I S. pose proof (token_exec_write E sg ex l c l' Hl H) as W.
  assert (Ns : system_id <> token_id) by (apply not_eq_sym, ids_distinct).
  destruct (W u) as [W1 _]. destruct W1 as (A & B & D); [congruence|].
  constructor; [congruence|exact D|]. intros k mint V.
  assert (Si : silent sg l u) by (repeat split; auto; congruence).
  destruct (token_exec_vault E sg ex l c l' k mint u Hl Hc H Si V) as (V' & L & _). auto.
Qed.

Lemma purse_system u sg l c l' :
  lamports_ok l -> system_call_ok c -> system_exec sg l c = Ok l' ->
  a_owner (l u) = system_id -> sg u = false -> purse_kept u l l'.
Proof.
  intros Hl Hc H O S. destruct (system_exec_silent sg l c l' u Hc H S) as (A & B & D).
  constructor; [congruence|exact D|]. intros k mint V.
  destruct (system_exec_write sg l c l' Hc H) as [W _]. destruct (W k) as [W1 _].
  destruct W1 as (A' & B' & _).
  { rewrite (vo_owner _ _ _ _ V). apply ids_distinct. }
  split; [eapply vault_ok_ext; eassumption|]. unfold balance. rewrite B'. lia.
Qed.

Lemma purse_ata u C E sg l payer ata wallet mint l' :
  lamports_ok l -> sysvars_ok E -> ata_create_idempotent C E sg l payer ata wallet mint = Ok l' ->
  a_owner (l u) = system_id -> system_or_incinerator u = false -> on_curve C u = true -> sg u = false ->
  purse_kept u l l'.
Proof.
  intros Hl HE H O I Cu S. pose proof (ata_made _ _ _ _ _ _ _ _ _ H) as [b Fa].
  apply program_address_off_curve in Fa.
  assert (S' : with_signer sg ata u = false).
  { unfold with_signer. rewrite S. destruct (key_eqb ata u) eqn:Q; [|reflexivity]. apply key_eqb_true in Q. congruence. }
  unfold ata_create_idempotent in H.
  destruct (find_program_address C (ata_seeds wallet mint) ata_id) as [[addr b']|]; [|discriminate].
  inv_bind H u1. destruct (_ && _) in H.
  - inv_bind H u2. inv_bind H u3. injection H as <-. now apply purse_refl.
  - inv_bind H u2. inv_bind H l1.
    assert (C1 : purse_kept u l l1 /\ lamports_ok l1).
    { destruct (0 <? a_lamports (l ata)).
      - inv_bind Hx1 la. inv_bind Hx1 lb.
        assert (Ca : purse_kept u l la /\ lamports_ok la).
        { destruct (0 <? Z.max (Z.max (rent_min E ta_len) 1 - a_lamports (l ata)) 0) eqn:Q.
          - apply Z.ltb_lt in Q. split.
            + apply (purse_system u sg l (SC_Transfer payer ata
                (Z.max (Z.max (rent_min E ta_len) 1 - a_lamports (l ata)) 0)) la); auto. cbn [system_call_ok]. lia.
            + apply (system_exec_lamports sg l (SC_Transfer payer ata
                (Z.max (Z.max (rent_min E ta_len) 1 - a_lamports (l ata)) 0)) la); auto. cbn [system_call_ok]. lia.
          - injection Hx2 as <-. split; [now apply purse_refl|exact Hl]. }
        destruct Ca as [Ca La].
        assert (Cb : purse_kept u la lb /\ lamports_ok lb).
        { split; [apply (purse_system u (with_signer sg ata) la (SC_Allocate ata ta_len) lb)|
                  apply (system_exec_lamports (with_signer sg ata) la (SC_Allocate ata ta_len) lb)]; auto;
            try (cbn; unfold ta_len; lia). apply Ca. }
        destruct Cb as [Cb Lb].
        assert (Cc : purse_kept u lb l1 /\ lamports_ok l1).
        { split; [apply (purse_system u (with_signer sg ata) lb (SC_Assign ata token_id) l1)|
                  apply (system_exec_lamports (with_signer sg ata) lb (SC_Assign ata token_id) l1)]; auto;
            try exact Logic.I. apply Cb. }
        destruct Cc as [Cc Lc]. split; [|exact Lc]. eapply purse_trans; [eapply purse_trans|]; eassumption.
      - split; [apply (purse_system u (with_signer sg ata) l
                 (SC_Create payer ata (Z.max (rent_min E ta_len) 1) ta_len token_id) l1)|
                apply (system_exec_lamports (with_signer sg ata) l
                 (SC_Create payer ata (Z.max (rent_min E ta_len) 1) ta_len token_id) l1)]; auto;
          cbn [system_call_ok]; unfold ta_len; lia. }
    destruct C1 as [C1 L1]. eapply purse_trans; [exact C1|].
    apply (purse_token u E (fun _ => false) [] l1 (TC_InitAccount ata mint wallet) l'); auto. apply C1.
Qed.

Lemma purse_call u C E accs data l l' evs :
  ordinary_state_address C -> reaches C l -> op_ok C l (OpCall E accs data) ->
  process_instruction C E xorca_id accs l data = Ok (l', evs) ->
  a_owner (l u) = system_id -> on_curve C u = true -> (forall n, ~ signed_slot accs n u) -> purse_kept u l l'.
Proof.
  intros Ho R Ok1 H O Cu S. pose proof Ok1 as [HE Hh].
  assert (Nst : system_id <> token_id) by (apply not_eq_sym, ids_distinct).
  assert (Nsx : system_id <> xorca_id) by (intros Q; symmetry in Q; revert Q; apply ids_distinct).
  assert (Nxt : xorca_id <> token_id) by (apply not_eq_sym, ids_distinct).
  assert (Lam : a_lamports (l u) <= a_lamports (l' u)).
  { destruct (Z_lt_le_dec (a_lamports (l' u)) (a_lamports (l u))) as [L|L]; [|exact L]. exfalso.
    pose proof (call_takes_lamports C l E accs data u Ho R Ok1) as T. cbn zeta in T. unfold loses_lamports in T.
    cbn [run_op] in T. rewrite H in T. cbn [fst] in T. destruct (T L) as [(s & Ss & [->|[(K & _) _]])|[P _]].
    - exact (S _ Ss).
    - congruence.
    - destruct P as (i & accs' & t & un & _ & _ & _ & [K _] & _). congruence. }
  assert (NM : forall sk, is_state l sk -> forall k mint, vault_ok l k mint u -> k <> xorca_mint_id).
  { intros sk Sk k mint V ->. destruct (reaches_pool _ _ _ Ho R Sk) as (vk & P & HP).
    eapply vault_not_mint; [exact V|]. apply (mo_live _ _ _ (po_mint _ _ _ _ _ HP)). }
  assert (Keep : a_owner (l' u) = a_owner (l u) ->
    (forall k mint, vault_ok l k mint u -> a_owner (l' k) = a_owner (l k) /\ a_data (l' k) = a_data (l k)) ->
    purse_kept u l l').
  { intros A B. constructor; [congruence|exact Lam|]. intros k mint V. destruct (B _ _ V) as [B1 B2].
    split; [eapply vault_ok_ext; eassumption|]. unfold balance. rewrite B2. lia. }
  pose proof H as Hx. unfold process_instruction in Hx. inv_bind Hx u0.
  destruct (deserialize read_instruction data) as [ins|] eqn:Ed; [|discriminate]. clear Hx.
  pose proof Ed as He. apply decode_encodes in He.
  assert (Hold : forall k mint k' mint' w, vault_ok l k mint u -> token_account_of l k' mint' w -> w <> u -> k <> k').
  { intros k mint k' mint' w V (_ & _ & _ & Q) N ->. apply N. rewrite <- Q. apply V. }
  destruct ins as [a|x i|i|c|up].
  - destruct (stake_exact_at _ _ _ _ _ _ _ _ Hh He H) as
      (st & vk & so & sx & sk & m & S0 & _ & _ & _ & _ & Sk & _ & _ & T1 & T2 & T3 & _ & _ & _ & _ & _ & _ & _ & _ & _ & _ & _ & _ & Ow & Da & _).
    assert (N1 : st <> u) by (intros ->; exact (S _ S0)).
    assert (N2 : sk <> u) by (intros ->; destruct Sk as [Sk _]; congruence).
    apply Keep; [apply Ow|]. intros k mint V. split; [apply Ow|]. apply Da.
    intros [Q|[Q|[Q|[Q|[]]]]]; symmetry in Q; revert Q.
    + eapply Hold; eassumption.
    + eapply Hold; eassumption.
    + eapply Hold; eassumption.
    + eapply NM; eassumption.
  - destruct (unstake_exact_at _ _ _ _ _ _ _ _ _ HE Hh He H) as
      (un & sk & k' & ux & vk & w & S0 & _ & _ & _ & _ & Sk & _ & _ & T1 & _ & [b Fk] & Ok' & _ & _ & _ & _ & _ & _ & _ & _ & _ & _ & _ & _ & _ & _ & _ & _ & _ & _ & _ & _ & _ & _ & _ & Ow & Da & _).
    assert (N1 : un <> u) by (intros ->; exact (S _ S0)).
    assert (N3 : u <> k') by (intros ->; apply program_address_off_curve in Fk; congruence).
    apply Keep; [now apply Ow|]. intros k mint V. pose proof (vo_owner _ _ _ _ V) as Vo.
    split; [apply Ow; congruence|]. apply Da. intros [Q|[Q|[Q|[Q|[]]]]]; symmetry in Q; revert Q.
    + eapply Hold; eassumption.
    + eapply NM; eassumption.
    + intros ->. destruct Sk as [Sk _]. congruence.
    + congruence.
  - destruct (withdraw_exact_at _ _ _ _ _ _ _ _ Hh He H) as
      (un & sk & k' & uo & vk & S0 & _ & _ & _ & _ & Sk & _ & _ & Rk & _ & _ & T1 & T2 & _ & _ & _ & _ & _ & _ & _ & _ & _ & _ & Ow & Da & _).
    assert (N1 : un <> u) by (intros ->; exact (S _ S0)).
    assert (N2 : sk <> u) by (intros ->; destruct Sk as [Sk _]; congruence).
    pose proof (proj1 Rk) as Ro.
    apply Keep; [apply Ow; congruence|]. intros k mint V. pose proof (vo_owner _ _ _ _ V) as Vo.
    split; [apply Ow; congruence|]. apply Da. intros [Q|[Q|[Q|[Q|[]]]]]; symmetry in Q; revert Q.
    + eapply Hold; eassumption.
    + eapply Hold; eassumption.
    + intros ->. destruct Sk as [Sk _]. congruence.
    + congruence.
  - destruct (init_exact _ _ _ _ _ _ _ _ HE Hh He H) as
      (sk & vk & au & sb & vb & _ & _ & _ & _ & Fs & Fv & _ & Os & _ & Ov & _ & _ & _ & _ & _ & _ & _ & _ & _ & _ & _ & _ & _ & _ & _ & _ & _ & _ & _ & _ & _ & Ow & _).
    apply program_address_off_curve in Fs. apply program_address_off_curve in Fv.
    apply Keep; [apply Ow; congruence|]. intros k mint V. pose proof (vo_owner _ _ _ _ V) as Vo.
    apply Ow; congruence.
  - destruct (set_exact_at _ _ _ _ _ _ _ _ He H) as (sk & _ & Sk & _ & _ & Ow & Da & _).
    apply Keep; [apply Ow|]. intros k mint V. pose proof (vo_owner _ _ _ _ V) as Vo.
    split; [apply Ow|]. apply Da. destruct Sk as [Sk _]. congruence.
Qed.

Lemma signs_not sgs u : ~ In u sgs -> signs sgs u = false.
Proof.
  intros N. unfold signs. destruct (existsb _ _) eqn:Q; [|reflexivity]. apply existsb_exists in Q.
  destruct Q as (x & Ix & Q). apply key_eqb_true in Q. now subst x.
Qed.

Lemma purse_history u C E l ops l' evs :
  ordinary_state_address C -> sysvars_ok E -> reaches C l -> history C l ops l' evs ->
  Forall (fun o => runs_at E o /\ ~ uses_signature o u) ops ->
  a_owner (l u) = system_id -> system_or_incinerator u = false -> on_curve C u = true -> purse_kept u l l'.
Proof.
  intros Ho SV R H. induction H as [|ops l1 evs o H IH Hok]; intros F O I Cu; [now apply purse_refl|].
  apply Forall_app in F. destruct F as [F1 F2]. inversion F2 as [|? ? [Ra U] _]. subst.
  specialize (IH F1 O I Cu). eapply purse_trans; [exact IH|]. clear F1 F2.
  pose proof (reaches_history _ _ _ _ _ R H) as R1. pose proof (reaches_lam _ _ Ho R1) as Lm.
  pose proof (pk_owner _ _ _ IH) as O1. clear IH.
  destruct o; cbn [op_ok run_op runs_at uses_signature fst snd] in *; try contradiction.
  - destruct (process_instruction C E0 xorca_id accounts l1 data) as [[l2 e2]|] eqn:Q; cbn [fst]; [|now apply purse_refl].
    eapply purse_call; try eassumption. intros n (m & N & K & S). apply U. exists m.
    split; [now apply nth_error_In in N|auto].
  - destruct Hok as (H1 & H2 & H3). destruct (token_exec E0 (signs signers) extra l1 c) eqn:Q; cbn [keep fst];
      [|now apply purse_refl]. eapply purse_token; try eassumption. now apply signs_not.
  - destruct Hok as (H2 & H3). destruct (system_exec (signs signers) l1 c) eqn:Q; cbn [keep fst]; [|now apply purse_refl].
    eapply purse_system; try eassumption. now apply signs_not.
  - destruct Hok as (H2 & H3). destruct (ata_create_idempotent C E0 (signs signers) l1 payer ata wallet mint) eqn:Q;
      cbn [keep fst]; [|now apply purse_refl]. eapply purse_ata; try eassumption. now apply signs_not.
Qed.

Theorem packet_funds C E verify reserved tables l d u :
  ordinary_state_address C -> curve_only C verify -> ata_apart C -> sysvars_ok E -> reaches C l ->
  on_curve C u = true -> a_owner (l u) = system_id -> system_or_incinerator u = false -> ~ carries verify d u ->
  let l' := fst (packet C E verify reserved tables l d) in
  a_owner (l' u) = system_id /\ a_lamports (l u) <= a_lamports (l' u) /\
  forall k mint, token_account_of l k mint u -> ordinary l k ->
    ta_delegate_flag (a_data (l k)) = 0 -> ta_close_flag (a_data (l k)) = 0 ->
    token_account_of l' k mint u /\ ordinary l' k /\
    ta_delegate_flag (a_data (l' k)) = 0 /\ ta_close_flag (a_data (l' k)) = 0 /\ balance l k <= balance l' k.
Proof.
  intros Ho V AP SV R Cu O I N l'. destruct (packet_history C E verify reserved tables l d V AP SV) as (ops & H & F).
  assert (F' : Forall (fun o => runs_at E o /\ ~ uses_signature o u) ops).
  { eapply Forall_impl; [|exact F]. intros o [A B]. split; [exact A|]. intros U. exact (N (B _ U)). }
  pose proof (purse_history u C E l ops _ _ Ho SV R H F' O I Cu) as [K1 K2 K3].
  split; [exact K1|]. split; [exact K2|]. intros k mint (T1 & T2 & T3 & T4) Or D Cl. apply ta_unpack_ok in T2. destruct T2 as [T2 T2'].
  destruct (K3 k mint) as [V' B]; [now constructor|]. destruct V'. repeat split; auto. now apply ta_unpack_ok.
Qed.
