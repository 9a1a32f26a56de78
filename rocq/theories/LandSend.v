(** Proofs for C80: a transfer that opens the recipient's ORCA account. *)
From Verif Require Import ConserveFacts UnstakeFacts BytesFacts LedgerFacts TokenFacts InitFacts BlockFacts EncodeFacts Pool PoolHistory LifeFacts AddressFacts
  EffectFacts RentCheckFacts HistoryFacts ScriptRun SlotFacts RoleFacts ToolSpec VaultStep FreezeStep ScriptMore.
From Verif Require Export LandFirst.
Import List ListNotations.
Open Scope list_scope.
Open Scope Z_scope.

Lemma open_for C E l u w k mint :
  mint <> native_mint_id -> mint_live l mint -> is_ata C w mint k -> on_curve C u = true ->
  sysvars_ok E -> wallet l k -> a_lamports (l k) = 0 -> wallet l u -> rent_min E 165 <= a_lamports (l u) <= u64_max ->
  exists l1, ata_create_idempotent C E (signs [u]) l u k w mint = Ok l1 /\
    active_account l1 k mint w /\ balance l1 k = 0 /\ length (a_data (l1 k)) = 165%nat /\
    a_lamports (l1 k) = rent_min E 165 /\
    l1 u = Account (a_lamports (l u) - rent_min E 165) (a_owner (l u)) (a_data (l u)) /\
    forall k', k' <> k -> k' <> u -> l1 k' = l k'.
Proof.
  intros Hn Hm Ha V SV W Z0 Wu L.
  assert (Nuk : u <> k) by (intros ->; apply is_ata_off_curve in Ha; congruence).
  pose proof (proj2 SV 165 ltac:(lia)) as [R1 R2].
  assert (Nmk : mint <> k) by (eapply mint_not_wallet; eassumption).
  assert (Nmu : mint <> u) by (eapply mint_not_wallet; eassumption).
  assert (Q : exists l1, ata_create_idempotent C E (signs [u]) l u k w mint = Ok l1).
  { destruct Ha as (b & Hf). destruct (ata_live C E (signs [u]) l u k w mint b) as (l1 & Q & _); auto; [..|eauto].
    - unfold signs. cbn. now rewrite key_eqb_refl.
    - lia.
    - unfold ta_len. lia.
    - rewrite Z0. lia. }
  destruct Q as (l1 & Q). exists l1. split; [exact Q|].
  destruct W as [W1 W2]. apply ata_create_fresh in Q; auto. destruct Q as (_ & _ & _ & _ & _ & Hq). unfold ata_created in Hq.
  destruct (init_ta_fields mint w (zeros ta_len) eq_refl) as (F1 & F2 & F3 & F4 & F5 & F6 & F7 & F8 & F9).
  assert (Nd : ata_need E l k = rent_min E 165).
  { unfold ata_need. rewrite Z0. cbn [Z.ltb Z.compare]. unfold ta_len. lia. }
  assert (Lk : l1 k = Account (rent_min E 165) token_id (init_ta mint w (zeros ta_len))).
  { rewrite (Hq k), upd_same, Nd, Z0. reflexivity. }
  split.
  { split; [split; [now rewrite Lk|]|now rewrite Lk]. rewrite Lk. cbn [a_data]. split; [|auto]. apply ta_unpack_ok. split; [exact F9|]. now rewrite F6. }
  split; [unfold balance; now rewrite Lk|].
  split; [rewrite Lk; cbn [a_data]; now apply ta_wf_len|]. split; [now rewrite Lk|].
  split.
  { rewrite (Hq u), upd_other by congruence. rewrite set_lamports_same, Nd. reflexivity. }
  intros k' K1 K2. rewrite (Hq k'), upd_other by congruence. now rewrite set_lamports_other by congruence.
Qed.

Theorem land_first_transfer C E l0 l before signature verify reserved tables hash u w n ops b1 b2 from to :
  ordinary_state_address C -> signs_well signature verify [u] -> reaches C l -> sysvars_ok E ->
  transfer_script C E l0 u w n = Some ops -> instructions_of ops = Some [b1; b2] ->
  may_arrive reserved [b1; b2] -> u <> token_id -> u <> ata_id ->
  is_ata C u orca_mint_id from -> active_account l from orca_mint_id u -> ordinary l from -> no_self_delegate l from u ->
  n <= balance l from -> is_ata C w orca_mint_id to -> wallet l to -> a_lamports (l to) = 0 ->
  can_pay E l u 5000 -> rent_min E 0 <= a_lamports (l u) - 5000 - rent_min E 165 -> a_lamports (l u) <= u64_max ->
  exists d, wire before signature hash (Some u) [u] [b1; b2] = Some d /\
    let l' := fst (land C E verify reserved tables l d) in
    0 <= n /\ balance l' from = balance l from - n /\ balance l' to = n /\
    a_lamports (l' to) = rent_min E 165 /\ a_lamports (l' u) = a_lamports (l u) - 5000 - rent_min E 165 /\
    forall k, k <> from -> k <> to -> a_data (l' k) = a_data (l k).
Proof.
  intros Hord Sg Hr SV H I MA Nt Na Af Ha Or Nd Hn At Wt Lt Cp Rn Lu.
  assert (Hs0 : script_sends C E l0 (Some u) [u] ops) by (eapply SendsTransfer; eassumption).
  unfold transfer_script in H. repeat build_step H. injection H as <-. rewrite (proj1 script_mints) in *.
  apply js_u64_some in E5. destruct E5 as [[Hn0 Hn1] _].
  destruct (script_ata_some _ _ _ _ E0) as [Cv A0]. destruct (script_ata_some _ _ _ _ E1) as [Cr A1].
  pose proof (is_ata_unique _ _ _ _ _ A0 Af). subst x. pose proof (is_ata_unique _ _ _ _ _ A1 At). subst x0.
  assert (Q : create_if_missing E l0 u to w orca_mint_id = [OpAta E [u] u to w orca_mint_id]).
  { unfold create_if_missing in *. destruct (rpc_get l0 to); [discriminate I|reflexivity]. }
  rewrite Q in *. cbn [app] in *. clear Q.
  destruct (script_signs _ _ _ _ _ _ Hs0 I) as [Ls _].
  set (l1 := paid l u 5000).
  assert (Nu : u <> to) by (intros ->; apply is_ata_off_curve in At; congruence).
  assert (Tk : token_id <> system_id) by apply token_ne_system.
  assert (Ne : from <> to) by (intros ->; destruct Ha as [(X & _) _], Wt as [Y _]; congruence).
  assert (Nf : from <> u) by (intros ->; apply is_ata_off_curve in Af; congruence).
  assert (L1u : a_lamports (l1 u) = a_lamports (l u) - 5000) by (unfold l1; now rewrite paid_same).
  assert (L1t : l1 to = l to) by (unfold l1; now rewrite paid_other).
  assert (Wu : wallet l1 u) by (destruct Cp as (X & Y & _); split; unfold l1; [now rewrite paid_owner|now rewrite paid_data]).
  assert (Mo : mint_live l1 orca_mint_id).
  { pose proof (orca_live _ _ Hord Hr) as M. unfold mint_live, l1 in *. now rewrite paid_owner, paid_data. }
  destruct (open_for C E l1 u w to orca_mint_id orca_not_native Mo At Cv SV) as (l2 & Q2 & Act & B0 & D165 & Lto & Lul & Same); auto.
  { unfold wallet. rewrite L1t. exact Wt. }
  { now rewrite L1t. }
  { rewrite L1u. pose proof (proj2 (proj2 SV 0 ltac:(lia))). lia. }
  assert (Nfr : l2 from = l from) by (rewrite Same by assumption; unfold l1; now rewrite paid_other by congruence).
  destruct Ha as [(F1 & F2 & F3 & F4) F5]. apply ta_unpack_ok in F2. destruct F2 as [F2 F2'].
  destruct Act as [(X1 & X2 & X3 & X4) X5]. apply ta_unpack_ok in X2. destruct X2 as [X2 X2'].
  assert (T : exists l', token_transfer (signs [u]) [] l2 from to u n = Ok l').
  { eexists. apply token_transfer_ok; [exact Ne|rewrite Nfr; exact Or|]. exists (a_data (l2 from)).
    unfold ta_live. rewrite Nfr. split; [auto|]. split; [auto|]. split; [exact Hn|]. split; [congruence|].
    split; [|split; [unfold balance in B0; rewrite B0; unfold u64_max; lia|reflexivity]].
    apply spend_auth_owner; [exact Nd|exact F4| |unfold signs; cbn; now rewrite key_eqb_refl].
    rewrite Lul. cbn [a_owner]. destruct Wu as [-> _]. congruence. }
  destruct T as (l' & T). destruct (transfer_balances _ _ _ _ _ _ _ _ Ne Hn0 T) as (_ & B1 & B2 & Ow & Dt & Lm & _ & _ & K1 & K2).
  assert (Or2 : ordinary l2 from) by (unfold ordinary; now rewrite Nfr). specialize (Lm Or2).
  assert (Len : forall k, length (a_data (l' k)) = length (a_data (l2 k))).
  { intros k. destruct (key_eq_dec k from) as [->|D1]; [exact K2|]. destruct (key_eq_dec k to) as [->|D2]; [exact K1|].
    now rewrite Dt by assumption. }
  assert (AllP : all_pass E l1 l').
  { intros k _. destruct (key_eq_dec k to) as [->|D1].
    { apply exempt_passes. unfold zlen. rewrite Len, D165, Lm, Lto. change (Z.of_nat 165) with 165. lia. }
    destruct (key_eq_dec k u) as [->|D2].
    { apply exempt_passes. unfold zlen. rewrite Len, Lm, Lul. cbn [a_data a_lamports]. destruct Wu as [_ ->].
      cbn [length]. change (Z.of_nat 0) with 0. rewrite L1u. exact Rn. }
    apply unmoved_passes; [rewrite Lm, Same by assumption; reflexivity|rewrite Len, Same by assumption; reflexivity]. }
  destruct (land_script C E l0 l before signature verify reserved tables hash (Some u) [u]
    [OpAta E [u] u to w orca_mint_id; OpToken E [u] [] (TC_Transfer from to u n)] [b1; b2] u [u] (l', []))
    as (d & Wd & A & _); auto.
  - now left.
  - intros (b' & J & Q). cbn in I. injection I as <- <-. destruct J as [<-|[<-|[]]]; cbn in Q.
    + apply Na. now symmetry.
    + apply Nt. now symmetry.
  - intros E1' sgs payer ata w' mint [Q|[Q|[]]]; [|discriminate Q]. injection Q as _ _ _ <- _ _.
    change (5000 * Z.of_nat (length [u])) with 5000. fold l1. rewrite L1t. apply Wt.
  - change (5000 * Z.of_nat (length [u])) with 5000. fold l1. cbn [attempt_all attempt token_exec]. rewrite Q2. cbn [bind fst snd].
    rewrite T. reflexivity.
  - exists d. split; [exact Wd|]. rewrite A by exact AllP. cbn [fst].
    rewrite B0 in B2. unfold balance in B1 |- *. rewrite Nfr in B1. unfold balance in B2.
    split; [exact Hn0|]. split; [exact B1|]. split; [lia|]. split; [rewrite Lm; exact Lto|].
    split; [rewrite Lm, Lul; cbn [a_lamports]; now rewrite L1u|].
    intros k D1 D2. rewrite Dt by assumption. destruct (key_eq_dec k u) as [->|D3].
    + rewrite Lul. cbn [a_data]. unfold l1. apply paid_data.
    + rewrite Same by assumption. unfold l1. apply paid_data.
Qed.
