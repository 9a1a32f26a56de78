(** Proofs for C80: donations, transfers and the mint authority on the chain. *)
From Verif Require Import BytesFacts LedgerFacts TokenFacts Pool PoolHistory HistoryFacts ConserveFacts AddressFacts RentCheckFacts
  RaiseFacts ScriptRun ScriptMore VaultStep FreezeStep UnstakeFacts TokenStep EncodeFacts Pool TokenFacts .
From Verif Require Export LandLive GuardSpec.
Import List ListNotations.
Open Scope list_scope.
Open Scope Z_scope.

Lemma transfer_lands C E l0 l before signature verify reserved tables hash u w mint from to n b :
  let ops := [OpToken E [u] [] (TC_Transfer from to u n)] in
  signs_well signature verify [u] -> script_sends C E l0 (Some u) [u] ops ->
  instructions_of ops = Some [b] -> may_arrive reserved [b] -> u <> token_id -> from <> to ->
  active_account l from mint u -> ordinary l from -> no_self_delegate l from u -> 0 <= n <= balance l from ->
  active_account l to mint w -> balance l to + n <= u64_max -> can_pay E l u 5000 ->
  exists d, wire before signature hash (Some u) [u] [b] = Some d /\
    let l' := fst (land C E verify reserved tables l d) in
    balance l' from = balance l from - n /\ balance l' to = balance l to + n /\
    a_lamports (l' u) = a_lamports (l u) - 5000 /\
    (forall k, k <> u -> a_lamports (l' k) = a_lamports (l k)) /\
    (forall k, a_owner (l' k) = a_owner (l k)) /\
    forall k, k <> from -> k <> to -> a_data (l' k) = a_data (l k).
Proof.
  intros ops Sg H I MA Nt Ne Ha Or Nd Hn Ht Hm Cp.
  destruct (script_signs _ _ _ _ _ _ H I) as [Ls _].
  set (l1 := paid l u 5000).
  destruct Ha as [(A1 & A2 & A3 & A4) A5]. apply ta_unpack_ok in A2. destruct A2 as [A2 A2'].
  destruct Ht as [(X1 & X2 & X3 & X4) X5]. apply ta_unpack_ok in X2. destruct X2 as [X2 X2'].
  assert (T : exists l', token_transfer (signs [u]) [] l1 from to u n = Ok l').
  { eexists. apply token_transfer_ok; [exact Ne|unfold l1; rewrite paid_data; exact Or|]. exists (a_data (l1 from)).
    unfold ta_live, l1. rewrite !paid_owner, !paid_data.
    split; [auto|]. split; [auto|]. split; [apply Hn|]. split; [congruence|].
    split; [|split; [exact Hm|reflexivity]].
    apply spend_auth_owner; [exact Nd|exact A4| |unfold signs; cbn; now rewrite key_eqb_refl].
    rewrite paid_owner. destruct Cp as (-> & _). intros Q. symmetry in Q. now apply token_ne_system in Q. }
  destruct T as (l' & T). destruct (transfer_balances _ _ _ _ _ _ _ _ Ne (proj1 Hn) T) as (_ & B1 & B2 & Ow & Dt & Lm & _ & _ & L1 & L2).
  assert (Or1 : ordinary l1 from) by (unfold ordinary, l1; rewrite paid_data; exact Or). specialize (Lm Or1).
  destruct (land_script C E l0 l before signature verify reserved tables hash (Some u) [u] ops [b] u [u] (l', []))
    as (d & W & A & _); auto.
  - now left.
  - intros (b' & [<-|[]] & Q). cbn in I. injection I as <-. cbn in Q. apply Nt. now symmetry.
  - intros E1 sgs payer ata w' mint' [Q|[]]. discriminate Q.
  - cbn [attempt_all attempt token_exec ops]. change (5000 * Z.of_nat (length [u])) with 5000. fold l1. rewrite T. reflexivity.
  - exists d. split; [exact W|]. rewrite A.
    + cbn [fst]. unfold l1, balance in *. rewrite !paid_data in B1, B2. split; [exact B1|]. split; [exact B2|].
      split; [rewrite Lm, paid_same; reflexivity|]. split; [intros k K; now rewrite Lm, paid_other by congruence|].
      split; [intros k; now rewrite Ow, paid_owner|]. intros k K1 K2. now rewrite Dt, paid_data by assumption.
    + intros k _. change (5000 * Z.of_nat (length [u])) with 5000. fold l1. cbn [fst]. apply unmoved_passes; [apply Lm|].
      destruct (key_eq_dec k from) as [->|D1]; [exact L2|]. destruct (key_eq_dec k to) as [->|D2]; [exact L1|].
      now rewrite Dt by assumption.
Qed.

Theorem land_deposit C E l0 l before signature verify reserved tables hash sk vk u n ops b so :
  ordinary_state_address C -> signs_well signature verify [u] -> reaches C l -> is_state l sk -> client_vault C sk vk ->
  deposit_script C E l0 u (JInt n) = Some ops -> instructions_of ops = Some [b] -> may_arrive reserved [b] -> u <> token_id ->
  is_ata C u orca_mint_id so -> active_account l so orca_mint_id u -> ordinary l so -> no_self_delegate l so u ->
  n <= balance l so -> ta_state (a_data (l vk)) = 1 -> balance l vk + n <= u64_max -> can_pay E l u 5000 ->
  exists d, wire before signature hash (Some u) [u] [b] = Some d /\
    let l' := fst (land C E verify reserved tables l d) in
    0 <= n /\ balance l' so = balance l so - n /\ balance l' vk = balance l vk + n /\
    free_orca l' sk vk = free_orca l sk vk + n /\ supply l' = supply l /\ escrow l' sk = escrow l sk /\
    a_lamports (l' u) = a_lamports (l u) - 5000 /\
    forall x, 0 <= x -> worth l sk vk x <= worth l' sk vk x.
Proof.
  intros Hord Sg Hr Hs Hv H I MA Nt Ao Ha Or Nd Hn Vs Hm Cp.
  assert (Hs0 : script_sends C E l0 (Some u) [u] ops) by (eapply SendsDeposit; eassumption).
  unfold deposit_script in H. repeat build_step H. injection H as <-.
  apply js_u64_some in E7. destruct E7 as [[Hn0 _] _]. cbn [js_bigint] in E0. injection E0 as <-. rewrite (proj1 script_mints) in *.
  destruct (script_ata_some _ _ _ _ E3) as [Cv A0]. pose proof (is_ata_unique _ _ _ _ _ A0 Ao). subst x2.
  pose proof (state_where _ _ _ Hord Hr Hs) as [W _].
  pose proof (client_state_unique _ _ _ (script_state_some _ _ E1) W). subst x0.
  pose proof (client_vault_unique _ _ _ _ (script_vault_some _ _ _ E2) Hv). subst x1.
  destruct (reaches_pool_vault _ _ _ vk Hord Hr Hs) as (P & HP); [now apply client_vault_is|].
  pose proof (po_vault _ _ _ _ _ HP) as HV.
  assert (Va : active_account l vk orca_mint_id sk).
  { destruct HV. split; [|exact Vs]. split; [assumption|]. split; [now apply ta_unpack_ok|auto]. }
  assert (Nv : so <> vk).
  { intros ->. destruct (po_find _ _ _ _ _ HP) as (bb & Q & _). apply program_address_off_curve in Q.
    destruct Ha as [(_ & _ & _ & A4) _]. rewrite (vo_holder _ _ _ _ HV) in A4. congruence. }
  destruct (transfer_lands C E l0 l before signature verify reserved tables hash u sk orca_mint_id so vk n b Sg Hs0 I MA Nt Nv Ha Or Nd
    (conj Hn0 Hn) Va Hm Cp) as (d & Wd & B1 & B2 & L & _ & _ & D).
  exists d. split; [exact Wd|]. cbv zeta.
  set (l' := fst (land C E verify reserved tables l d)) in *.
  assert (Ds : a_data (l' sk) = a_data (l sk)).
  { apply D; intros ->; pose proof (po_state _ _ _ _ _ HP) as Q.
    - destruct Ha as [(A1 & _) _]. rewrite A1 in Q. symmetry in Q. now apply xt_ne.
    - rewrite (vo_owner _ _ _ _ HV) in Q. symmetry in Q. now apply xt_ne. }
  assert (Dm : a_data (l' xorca_mint_id) = a_data (l xorca_mint_id)).
  { destruct (state_mint_live _ _ _ Hord Hr Hs) as (_ & M & _). apply mint_wf_len in M.
    destruct Ha as [(_ & A2 & _) _]. apply ta_unpack_ok in A2. destruct A2 as [A2 _]. apply ta_wf_len in A2.
    pose proof (ta_wf_len _ (vo_wf _ _ _ _ HV)) as V2. apply D; intros Q; rewrite <- Q in *; congruence. }
  assert (Es : escrow l' sk = escrow l sk) by (unfold escrow; now rewrite Ds).
  assert (Su : supply l' = supply l) by (unfold supply; now rewrite Dm).
  assert (Fr : free_orca l' sk vk = free_orca l sk vk + n) by (unfold free_orca; rewrite Es, B2; lia).
  split; [exact Hn0|]. split; [exact B1|]. split; [exact B2|]. split; [exact Fr|]. split; [exact Su|]. split; [exact Es|].
  split; [exact L|]. intros x Hx. unfold worth. rewrite Su, Fr.
  pose proof (mint_supply_range (a_data (l xorca_mint_id))) as R. unfold is_u64 in R. unfold supply. apply Z.div_le_mono; nia.
Qed.

Theorem land_transfer C E l0 l before signature verify reserved tables hash u w n ops b from to :
  signs_well signature verify [u] -> transfer_script C E l0 u w n = Some ops -> instructions_of ops = Some [b] ->
  may_arrive reserved [b] -> u <> token_id -> u <> w ->
  is_ata C u orca_mint_id from -> active_account l from orca_mint_id u -> ordinary l from -> no_self_delegate l from u ->
  n <= balance l from -> is_ata C w orca_mint_id to -> active_account l to orca_mint_id w -> balance l to + n <= u64_max ->
  can_pay E l u 5000 ->
  exists d, wire before signature hash (Some u) [u] [b] = Some d /\
    let l' := fst (land C E verify reserved tables l d) in
    0 <= n /\ balance l' from = balance l from - n /\ balance l' to = balance l to + n /\
    a_lamports (l' u) = a_lamports (l u) - 5000 /\
    forall k, k <> from -> k <> to -> a_data (l' k) = a_data (l k).
Proof.
  intros Sg H I MA Nt Nu Af Ha Or Nd Hn At Ht Hm Cp.
  assert (Hs0 : script_sends C E l0 (Some u) [u] ops) by (eapply SendsTransfer; eassumption).
  unfold transfer_script in H. repeat build_step H. injection H as <-. rewrite (proj1 script_mints) in *.
  apply js_u64_some in E5. destruct E5 as [[Hn0 _] _].
  destruct (script_ata_some _ _ _ _ E0) as [Cv A0]. destruct (script_ata_some _ _ _ _ E1) as [Cr A1].
  pose proof (is_ata_unique _ _ _ _ _ A0 Af). subst x. pose proof (is_ata_unique _ _ _ _ _ A1 At). subst x0.
  assert (Q : create_if_missing E l0 u to w orca_mint_id = []).
  { unfold create_if_missing in *. destruct (rpc_get l0 to); [reflexivity|]. cbn in I. discriminate I. }
  rewrite Q in *. cbn [app] in *.
  assert (Ne : from <> to) by (intros ->; destruct Ha as [(_ & _ & _ & X) _], Ht as [(_ & _ & _ & Y) _]; congruence).
  destruct (transfer_lands C E l0 l before signature verify reserved tables hash u w orca_mint_id from to n b Sg Hs0 I MA Nt Ne Ha Or Nd
    (conj Hn0 Hn) Ht Hm Cp) as (d & Wd & B1 & B2 & L & _ & _ & D).
  exists d. split; [exact Wd|]. cbv zeta. auto.
Qed.

Theorem land_mint_authority C E l before signature verify reserved tables hash sk u ops b :
  signs_well signature verify [u] -> client_state C sk -> authority_script C E u = Some ops -> instructions_of ops = Some [b] ->
  may_arrive reserved [b] -> u <> token_id ->
  a_owner (l xorca_mint_id) = token_id -> mint_unpack (a_data (l xorca_mint_id)) = Ok tt ->
  mint_auth_flag (a_data (l xorca_mint_id)) = 1 -> mint_auth (a_data (l xorca_mint_id)) = u -> can_pay E l u 5000 ->
  exists d, wire before signature hash (Some u) [u] [b] = Some d /\
    let l' := fst (land C E verify reserved tables l d) in
    mint_auth_flag (a_data (l' xorca_mint_id)) = 1 /\ mint_auth (a_data (l' xorca_mint_id)) = sk /\
    supply l' = supply l /\ a_lamports (l' u) = a_lamports (l u) - 5000 /\
    forall k, k <> xorca_mint_id -> a_data (l' k) = a_data (l k).
Proof.
  intros Sg Ck H I MA Nt O U F A Cp.
  assert (Hs0 : script_sends C E l (Some u) [u] ops) by (eapply SendsMintAuthority; eassumption).
  destruct (script_signs _ _ _ _ _ _ Hs0 I) as [Ls _]. set (l1 := paid l u 5000).
  destruct (authority_script_live C E l1 u ops H) as (l' & R); try (unfold l1; rewrite ?paid_owner, ?paid_data; assumption).
  { unfold l1. rewrite paid_owner. destruct Cp as (-> & _). intros Q. symmetry in Q. now apply token_ne_system in Q. }
  pose proof (authority_script_data _ _ _ _ _ _ _ _ Ck H R) as Da.
  destruct (authority_script_does _ _ _ _ _ _ _ _ Ck H R) as (_ & _ & _ & _ & _ & F' & A' & _ & G & _).
  apply mint_unpack_ok in U. destruct U as [U _]. apply mint_wf_len in U.
  assert (U1 : length (a_data (l1 xorca_mint_id)) = 82%nat) by (unfold l1; rewrite paid_data; exact U).
  destruct (pack_mint_auth _ (Some sk) U1) as (P1 & _ & P2 & _).
  destruct (land_script C E l l before signature verify reserved tables hash (Some u) [u] ops [b] u [u] (l', []))
    as (d & W & B & _); auto.
  - now left.
  - intros (b' & [<-|[]] & Q). unfold authority_script in H. repeat build_step H. injection H as <-. cbn in I. injection I as <-.
    cbn in Q. apply Nt. now symmetry.
  - unfold authority_script in H. repeat build_step H. injection H as <-. intros E1' sgs payer ata w' mint' [Q|[]]. discriminate Q.
  - exists d. split; [exact W|]. rewrite B.
    + cbn [fst]. split; [exact F'|]. split; [exact A'|].
      split; [unfold supply; rewrite Da, P2; unfold l1; now rewrite paid_data|].
      destruct (G u) as (_ & -> & _). split; [unfold l1; now rewrite paid_same|].
      intros k K. destruct (G k) as (_ & _ & X). rewrite X by exact K. unfold l1. apply paid_data.
    + intros k _. change (5000 * Z.of_nat (length [u])) with 5000. fold l1. cbn [fst]. destruct (G k) as (_ & G1 & G2).
      apply unmoved_passes; [exact G1|]. destruct (key_eq_dec k xorca_mint_id) as [->|D]; [|f_equal; auto].
      rewrite Da, P1. now symmetry.
Qed.
