(** What status.ts prints. *)
From Coq Require Import String.
From Verif Require Import ToolSpec GuardSpec BytesFacts LedgerFacts TokenFacts AssertFacts LiveFacts CodecFacts SchemaFacts DecodeFacts
  TokenStep VaultStep Pool PoolStake PoolInit PoolHistory HistoryFacts LifeFacts AddressFacts RpcFacts ReadFacts BlockFacts GuardFacts.
Import List ListNotations.
Open Scope list_scope.
Open Scope Z_scope.

Theorem status_reads C l1 l2 l3 sk vk :
  ordinary_state_address C -> reaches C l1 -> reaches C l2 -> reaches C l3 ->
  is_state l1 sk -> is_state l2 sk -> is_state l3 sk -> is_vault C sk vk ->
  exists b vb,
    sk = state_address_with_bump C b /\ vk = vault_address_with_bump C sk orca_mint_id vb /\
    let free := balance l2 vk - escrow l1 sk in
    status_script C l1 l2 l3 =
      Some (StatusFull (StatusState (cooldown l1 sk) (escrow l1 sk) (authority l1 sk) b vb)
        (balance l2 vk) free (supply l3) (free + 100, supply l3 + 100) (supply l3 + 100, free + 100)).
Proof.
  intros Ho R1 R2 R3 S1 S2 S3 V'. pose proof (proj2 (client_vault_is _ _ _) V') as V.
  destruct (reaches_pool_vault _ _ _ _ Ho R1 S1 V') as (P1 & HP1).
  exists (st_bump (a_data (l1 sk))), (st_vault_bump (a_data (l1 sk))).
  split; [exact (proj1 (pool_state_bump _ _ _ _ _ HP1))|].
  split; [symmetry; exact (pool_vault_is _ _ _ _ _ HP1)|]. cbv zeta.
  destruct (state_where _ _ _ Ho R1 S1) as [(bs & _ & _ & F) _].
  destruct V as (bv & _ & _ & W). destruct (reaches_pool_vault _ _ _ _ Ho R2 S2 V') as (P2 & HP2).
  destruct (reaches_pool _ _ _ Ho R3 S3) as (v3 & P3 & HP3).
  pose proof (state_decodes _ (po_slen _ _ _ _ _ HP1) (po_sdisc _ _ _ _ _ HP1)) as D.
  unfold status_script. rewrite F. cbn [obind]. rewrite W. cbn [obind].
  rewrite (get_live _ _ (po_slam _ _ _ _ _ HP1)). unfold status_parse.
  rewrite js_state_decode, D. unfold state_view. cbn [obind line_escrow].
  unfold spl_js_account, spl_js_mint. change script_xorca_mint with xorca_mint_id.
  rewrite (get_live _ _ (po_vlam _ _ _ _ _ HP2)), (get_live _ _ (po_mlam _ _ _ _ _ HP3)). cbn [obind].
  destruct (po_vault _ _ _ _ _ HP2), (mo_live _ _ _ (po_mint _ _ _ _ _ HP3)) as (N1 & N2 & _).
  rewrite vo_owner, N1, !key_eqb_refl, (ta_wf_len _ vo_wf), (mint_wf_len _ N2). reflexivity.
Qed.

(** Before Initialize. *)
Theorem status_fresh C l l2 l3 sk vk b :
  ordinary_state_address C -> reaches C l -> (forall k, ~ is_state l k) ->
  find_state_address C = Some (sk, b) -> is_vault C sk vk ->
  status_script C l l2 l3 = Some (if a_lamports (l sk) =? 0 then StatusNotFound else StatusBadState).
Proof.
  intros Ho Hr Hn Hf Hv. pose proof (no_state_fresh _ _ Ho Hr Hn) as HF.
  destruct (fr_pdas _ _ HF sk (find_is_pda _ _ _ _ Hf)) as [_ Hd].
  pose proof (proj2 (client_state_is C sk) (ex_intro _ _ Hf)) as (b1 & _ & _ & F).
  pose proof (proj2 (client_vault_is _ _ _) Hv) as (b2 & _ & _ & W).
  unfold status_script. rewrite F. cbn [obind]. rewrite W. cbn [obind]. unfold rpc_get.
  destruct (a_lamports (l sk) =? 0); [reflexivity|]. rewrite Hd. reflexivity.
Qed.

(** The two rates against what calls do. *)
Theorem status_rates C l sk vk s total free sup p q p' q' :
  ordinary_state_address C -> reaches C l -> is_state l sk -> is_vault C sk vk ->
  status_script C l l l = Some (StatusFull s total free sup (p, q) (p', q')) ->
  0 < p /\ 0 < q /\ p' = q /\ q' = p /\
  (forall o a accs t, op_ok C l o -> performs C l o (Stake a) accs t -> supply l <> 0 ->
     supply (fst (run_op C l o)) - supply l = a * p' / q') /\
  (forall o x i accs t k, op_ok C l o -> performs C l o (Unstake x i) accs t -> slot accs 2 k ->
     rec_amount (fst (run_op C l o)) k = x * p / q).
Proof.
  intros Ho Hr Hs Hv H. destruct (reaches_pool_vault _ _ _ _ Ho Hr Hs Hv) as (P & HP).
  destruct (status_reads C l l l sk vk Ho Hr Hr Hr Hs Hs Hs Hv) as (b & vb & _ & _ & E). cbv zeta in E.
  rewrite E in H. injection H as <- <- <- <- <- <- <- <-.
  change (balance l vk - escrow l sk) with (free_orca l sk vk).
  pose proof (pool_ranges _ _ _ _ _ HP) as Rg. unfold free_orca, supply in Rg |- *.
  split; [lia|]. split; [lia|]. split; [reflexivity|]. split; [reflexivity|]. split.
  - intros o a accs t Hop Hp Hz. destruct (performs_run _ _ _ _ _ _ Hp) as (E' & data & l' & evs & -> & _ & He & Hrun & Hr').
    destruct Hop as [HE Hh]. rewrite Hr'. cbn [fst].
    apply (call_result _ _ _ _ _ _ _ _ He) in Hrun.
    apply (pool_stake _ _ _ _ _ _ _ _ _ HP (proj1 He) Hh) in Hrun.
    destruct Hrun as (staker & so & sx & xm & st & v & om & tp & m & sd1 & _ & _ & _ & _ & Q & _).
    destruct Q. destruct (pool_quote _ _ _ _ _ _ _ HP (proj1 He) sc_quote) as [_ [[Q1 Q2]|[Q1 Q2]]]; unfold supply, free_orca in *; lia.
  - intros o x i accs t k Hop Hp Hk. exact (unstake_promises C l o x i accs t sk vk k Ho Hr Hs Hv Hop Hp Hk).
Qed.
