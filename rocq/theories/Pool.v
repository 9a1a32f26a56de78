(** The invariant of an initialized pool, and its preservation by every step. *)
From Verif Require Import History BytesFacts FieldFacts LedgerFacts TokenFacts ParseFacts CpiFacts
  AssertFacts LayoutFacts MathFacts Economics StakeFacts UnstakeFacts WithdrawFacts SetFacts InitFacts
  CodecFacts Totals OutsideFacts TokenStep VaultStep Calm.

(** A pending-withdrawal record at [k]. *)
Record record_ok (C : crypto) (l : ledger) (k : pubkey) : Prop := {
  ro_owner : a_owner (l k) = xorca_id;
  ro_len : length (a_data (l k)) = 1024%nat;
  ro_disc : pw_disc (a_data (l k)) = 2;
  ro_addr : find_pending_withdraw_address C (pw_unstaker (a_data (l k))) (pw_index (a_data (l k)))
            = Some (k, Z_to_byte (pw_bump (a_data (l k))));
  ro_lam : 0 < a_lamports (l k);
  ro_claim : 0 < claim l k
}.

Record pool (C : crypto) (l : ledger) (sk vk : pubkey) (P : list pubkey) : Prop := {
  po_lam : lamports_ok l;
  po_ord : system_or_incinerator sk = false;
  po_find : exists sb, find_state_address C = Some (sk, sb) /\ st_bump (a_data (l sk)) = byte_to_Z sb;
  po_findv : exists vb, find_vault_address C sk token_id orca_mint_id = Some (vk, vb) /\
                        st_vault_bump (a_data (l sk)) = byte_to_Z vb;
  po_state : a_owner (l sk) = xorca_id;
  po_slen : length (a_data (l sk)) = 2048%nat;
  po_sdisc : st_disc (a_data (l sk)) = 1;
  po_slam : 0 < a_lamports (l sk);
  po_cool : 0 <= st_cooldown (a_data (l sk));
  po_vault : vault_ok l vk orca_mint_id sk;
  po_vlam : 0 < a_lamports (l vk);
  po_mint : mint_ok l xorca_mint_id sk;
  po_mlam : 0 < a_lamports (l xorca_mint_id);
  po_orca : mint_live l orca_mint_id;
  po_olam : 0 < a_lamports (l orca_mint_id);
  po_nodup : NoDup P;
  po_records : forall k, In k P -> record_ok C l k;
  po_only : forall k, a_owner (l k) = xorca_id ->
              k = sk \/ In k P \/ all_zero (a_data (l k)) = true;
  po_pdas : forall k, program_signs_for C k ->
              k = sk \/ k = vk \/ In k P \/ (a_owner (l k) = system_id /\ a_data (l k) = []);
  po_escrow : st_escrow (a_data (l sk)) = sumZ (map (claim l) P);
  po_backed : st_escrow (a_data (l sk)) + mint_supply (a_data (l xorca_mint_id))
              <= ta_amount (a_data (l vk));
  po_tok : tok_bounded l xorca_mint_id
}.

Lemma xt_ne : xorca_id <> token_id.
Proof. apply not_eq_sym, ids_distinct. Qed.

(** ** Identification of accounts *)
Lemma pool_state_is C l sk vk P k :
  pool C l sk vk P -> a_owner (l k) = xorca_id -> st_disc (a_data (l k)) = 1 -> k = sk.
Proof.
  intros HP Ho Hd. destruct (po_only _ _ _ _ _ HP k Ho) as [->|[H|H]]; [reflexivity| |].
  - apply (po_records _ _ _ _ _ HP) in H. destruct H. unfold pw_disc, st_disc in *. lia.
  - now apply all_zero_not_state in H.
Qed.

Lemma pool_record_is C l sk vk P k :
  pool C l sk vk P -> (a_owner (l k) = xorca_id /\ pw_disc (a_data (l k)) = 2) <-> In k P.
Proof.
  intros HP. split.
  - intros [Ho Hd]. destruct (po_only _ _ _ _ _ HP k Ho) as [->|[H|H]]; [|assumption|].
    + pose proof (po_sdisc _ _ _ _ _ HP). unfold pw_disc, st_disc in *. lia.
    + now apply all_zero_not_state in H.
  - intros H. apply (po_records _ _ _ _ _ HP) in H. destruct H. auto.
Qed.

Lemma pool_state_not_record C l sk vk P : pool C l sk vk P -> ~ In sk P.
Proof.
  intros HP H. apply (pool_record_is _ _ _ _ _ _ HP) in H.
  pose proof (po_sdisc _ _ _ _ _ HP). unfold pw_disc, st_disc in *. lia.
Qed.

Lemma pool_vault_is C l sk vk P :
  pool C l sk vk P ->
  vault_address_with_bump C sk orca_mint_id (st_vault_bump (a_data (l sk))) = vk.
Proof.
  intros HP. destruct (po_findv _ _ _ _ _ HP) as (vb & H & ->). apply find_vault_bump in H.
  congruence.
Qed.

Lemma pool_state_pda C l sk vk P : pool C l sk vk P -> program_signs_for C sk.
Proof. intros HP. destruct (po_find _ _ _ _ _ HP) as (sb & H & _). eapply find_is_pda, H. Qed.

Lemma pool_controls C l sk vk P : pool C l sk vk P -> controls C l sk.
Proof.
  intros HP. split; [eapply pool_state_pda; eassumption|]. destruct HP. auto.
Qed.

Lemma pool_ne C l sk vk P : pool C l sk vk P -> sk <> vk /\ sk <> xorca_mint_id /\
  sk <> orca_mint_id /\ vk <> xorca_mint_id /\ vk <> orca_mint_id.
Proof.
  intros HP. pose proof (po_state _ _ _ _ _ HP) as S. pose proof (po_vault _ _ _ _ _ HP) as V.
  pose proof (vo_owner _ _ _ _ V). destruct (po_orca _ _ _ _ _ HP) as (O1 & O2 & _).
  destruct (mo_live _ _ _ (po_mint _ _ _ _ _ HP)) as (M1 & M2 & _).
  pose proof (vo_wf _ _ _ _ V) as W. pose proof xt_ne.
  repeat split; intros E; subst; try congruence; eapply ta_not_mint; eassumption.
Qed.

Lemma record_pda C l k : record_ok C l k -> program_signs_for C k.
Proof. intros H. eapply find_is_pda. exact (ro_addr _ _ _ H). Qed.

Lemma record_ok_ext C l l' k :
  record_ok C l k -> a_owner (l' k) = a_owner (l k) -> a_data (l' k) = a_data (l k) ->
  a_lamports (l k) <= a_lamports (l' k) -> record_ok C l' k.
Proof. intros [] H1 H2 H3. constructor; unfold claim in *; rewrite ?H1, ?H2; auto. lia. Qed.

(** Records neither move nor lose lamports. *)
Definition recs_kept (P : list pubkey) (l l' : ledger) : Prop :=
  forall k, In k P -> a_owner (l' k) = a_owner (l k) /\ a_data (l' k) = a_data (l k) /\
    a_lamports (l k) <= a_lamports (l' k).

Lemma claims_kept P l l' : recs_kept P l l' -> sumZ (map (claim l') P) = sumZ (map (claim l) P).
Proof. intros H. apply sum_ext. intros k K. unfold claim. destruct (H k K) as (_ & -> & _). reflexivity. Qed.

(** ** Steps outside the program *)
Theorem pool_calm C l l' sk vk P :
  pool C l sk vk P -> calm C l l' ->
  pool C l' sk vk P /\ recs_kept P l l' /\ a_data (l' sk) = a_data (l sk) /\
  ta_amount (a_data (l vk)) <= ta_amount (a_data (l' vk)) /\
  mint_supply (a_data (l' xorca_mint_id)) <= mint_supply (a_data (l xorca_mint_id)).
Proof.
  intros HP HC. pose proof (pool_controls _ _ _ _ _ HP) as Hctl.
  destruct (ca_keep _ _ _ HC sk (po_state _ _ _ _ _ HP) (po_slam _ _ _ _ _ HP)) as (S1 & S2 & S3).
  destruct (ca_vault _ _ _ HC vk orca_mint_id sk Hctl (po_vlam _ _ _ _ _ HP) (po_vault _ _ _ _ _ HP))
    as (V1 & V2 & V3).
  destruct (ca_ctrl _ _ _ HC xorca_mint_id sk Hctl (po_mlam _ _ _ _ _ HP) (po_mint _ _ _ _ _ HP))
    as (M1 & M2).
  destruct (ca_mint _ _ _ HC xorca_mint_id (po_mlam _ _ _ _ _ HP) (mo_live _ _ _ (po_mint _ _ _ _ _ HP)))
    as (_ & M3).
  destruct (ca_mint _ _ _ HC orca_mint_id (po_olam _ _ _ _ _ HP) (po_orca _ _ _ _ _ HP)) as (O1 & O2).
  assert (HR : recs_kept P l l').
  { intros k K. pose proof (po_records _ _ _ _ _ HP k K) as R.
    destruct (ca_keep _ _ _ HC k (ro_owner _ _ _ R) (ro_lam _ _ _ R)) as (R1 & R2 & R3).
    rewrite (ro_owner _ _ _ R). auto. }
  split; [|auto].
  destruct HP. constructor; rewrite ?S2; auto; try lia.
  - apply HC.
  - intros k K. destruct (HR k K) as (R1 & R2 & R3). eapply record_ok_ext; eauto.
  - intros k K. destruct (ca_new _ _ _ HC k K) as [Z|[A B]]; [auto|].
    destruct (po_only0 k A) as [Q|[Q|Q]]; auto. right. right. congruence.
  - intros k K. destruct (po_pdas0 k K) as [Q|[Q|[Q|[Q1 Q2]]]]; auto.
    do 3 right. destruct (ca_pda _ _ _ HC k K Q1 Q2) as (A & B & _). auto.
  - rewrite (claims_kept _ _ _ HR). assumption.
  - apply (ca_tok _ _ _ HC); assumption.
Qed.
