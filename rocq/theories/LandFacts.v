(** Proofs for C79. *)
From Verif Require Import BytesFacts LedgerFacts OutsideFacts HistoryFacts.
From Verif Require Export LandSpec AcceptFacts PacketFacts PacketBirth PacketFunds ExecWrites FreezeStep.
Import List ListNotations.
Open Scope list_scope.
Open Scope Z_scope.

Lemma rent_ok_iff E l l' k : rent_ok E (l k) (l' k) = true <-> passes_rent E l l' k.
Proof.
  unfold rent_ok, passes_rent, rent_class_of, rent_exempt, class_change_allowed.
  destruct (a_lamports (l' k) =? 0); cbn [orb]; [tauto|].
  destruct (rent_min E (zlen (a_data (l' k))) <=? a_lamports (l' k)); cbn [orb]; [tauto|].
  destruct (a_lamports (l k) =? 0); cbn [negb andb]; [tauto|].
  destruct (rent_min E (zlen (a_data (l k))) <=? a_lamports (l k)); cbn [negb andb]; tauto.
Qed.

Lemma charge_paid l k n : charge l k n = paid l k n.
Proof. reflexivity. Qed.
Lemma zlen_nil (d : list byte) : zlen d = 0 <-> d = [].
Proof. destruct d; [easy|]. split; [unfold zlen; cbn [length]; lia|discriminate]. Qed.
Lemma may_pay_iff E l k n : may_pay E l k n = true <-> can_pay E l k n.
Proof.
  unfold may_pay, can_pay. rewrite !andb_true_iff, key_eqb_true, Z.eqb_eq, Z.ltb_lt, Z.leb_le, zlen_nil, charge_paid, rent_ok_iff.
  tauto.
Qed.

(** The reading of a packet with a known message. *)
Lemma says_read verify tables d y : says verify tables d y ->
  exists sigs, take_list (take_bytes 64) d = Some (sigs, lay_bytes y) /\ small_message (lay_message y) /\
    match lay_lookups y with
    | None => take_message (lay_bytes y) = Some (lay_message y, [])
    | Some lks => take_message (lay_bytes y) = None /\ take_message_v0 (lay_bytes y) = Some ((lay_message y, lks), [])
    end.
Proof.
  intros (L & (Y1 & Y2 & Y3 & Y4 & Y5) & sigs & Sg & ->).
  apply signed_lengths in Sg. destruct Sg as [F Sg].
  destruct (packet_bytes_length sigs (lay_bytes y)) as [Ls Lm]; [rewrite concat_64 by exact F; lia|exact L|].
  assert (Ln : length (lay_signers y) = length sigs) by (clear - Sg; induction Sg; cbn; congruence).
  assert (Sm : small_message (lay_message y)).
  { apply lay_small; auto; [|lia]. rewrite lay_bytes_is in Lm. destruct (lay_lookups y); [|exact Lm].
    cbn [length] in Lm. rewrite app_length in Lm. lia. }
  exists sigs. split; [apply sigs_read; auto; lia|]. split; [exact Sm|].
  destruct (lay_lookups y) as [lks|] eqn:Yo.
  - destruct Y5 as (Y5 & _). split; [rewrite lay_bytes_is, Yo; reflexivity|].
    assert (Lk : (length (flat_map lay_lookup lks) <= 1232)%nat).
    { rewrite lay_bytes_is, Yo in Lm. cbn [length] in Lm. rewrite !app_length in Lm. lia. }
    apply (v0_read y lks Yo Sm).
    + pose proof (flat_map_least lay_lookup lks lookup_least). lia.
    + rewrite Forall_forall in *. intros x I. destruct (Y5 x I) as [_ Fi]. split; [exact Fi|].
      pose proof (in_flat_length lay_lookup _ _ I) as Lx. set (fm := flat_map lay_lookup lks) in *.
      unfold lay_lookup in Lx. rewrite !counted_is, !app_length in Lx.
      rewrite !(flat_map_length_const one_byte _ 1%nat) in Lx by reflexivity. lia.
  - rewrite lay_bytes_is, Yo. now apply take_message_bytes.
Qed.
Lemma says_fee verify tables d y : says verify tables d y ->
  exists payer rest, lay_signers y = payer :: rest /\ fee_parts d = Some (payer, length (lay_signers y)).
Proof.
  intros H. destruct (says_read _ _ _ _ H) as (sigs & T & _ & M). destruct H as (_ & (Y1 & _) & _).
  destruct (lay_both y) as [|payer rest] eqn:B; [now destruct Y1|]. exists payer, (rest ++ lay_sign y).
  split; [unfold lay_signers; now rewrite B|].
  assert (Hd : head (msg_keys (lay_message y)) = Some payer) by (cbn [lay_message msg_keys]; unfold lay_static; now rewrite B).
  unfold fee_parts. rewrite T. cbn [obind snd].
  destruct (lay_lookups y) as [lks|]; [destruct M as [-> ->]|rewrite M]; cbn [obind fst snd]; rewrite Hd; reflexivity.
Qed.
Lemma says_received verify reserved tables d y : says verify tables d y ->
  exists got, receive verify reserved tables d = Some got /\ lay_means reserved y got.
Proof.
  intros H. destruct H as (L & O & S). pose proof O as (Y1 & Y2 & Y3 & Y4 & Y5).
  exists (map (loaded_call reserved (lay_loaded y)) (lay_calls y)).
  assert (M : lay_means reserved y (map (loaded_call reserved (lay_loaded y)) (lay_calls y))) by now apply lay_means_iff.
  split; [|exact M]. apply receive_iff. exists y. split; [|exact M]. split; [exact L|]. now split.
Qed.
Lemma receive_says verify reserved tables d got : receive verify reserved tables d = Some got ->
  exists y, says verify tables d y.
Proof. intros H. apply receive_iff in H. destruct H as (y & S & _). now exists y. Qed.

(** The check looks at the accounts that can change. *)
Lemma touched_all C E l1 payer bs r : execute C E l1 bs = Ok r ->
  forallb (fun k => key_eqb k incinerator_id || rent_ok E (l1 k) (fst r k)) (touched payer bs) = true <->
  (forall k, In k (touched payer bs) -> k <> incinerator_id -> passes_rent E l1 (fst r) k).
Proof.
  intros X. rewrite forallb_forall. split.
  - intros H k I N. specialize (H k I). apply orb_true_iff in H. destruct H as [H|H]; [now apply key_eqb_true in H|].
    now apply rent_ok_iff.
  - intros H k I. apply orb_true_iff. destruct (key_eq_dec k incinerator_id) as [->|N]; [left; apply key_eqb_refl|].
    right. apply rent_ok_iff. now apply H.
Qed.
Lemma unchanged_passes E l l' k : l' k = l k -> passes_rent E l l' k.
Proof.
  intros Q. unfold passes_rent, rent_class_of, class_change_allowed. rewrite Q.
  destruct (a_lamports (l k) =? 0); [reflexivity|].
  destruct (rent_min E (zlen (a_data (l k))) <=? a_lamports (l k)); [reflexivity|].
  now rewrite Z.eqb_refl, Z.leb_refl.
Qed.
Lemma in_touched payer bs k : arrives_writable bs k -> In k (touched payer bs).
Proof.
  intros (b & m & Ib & Im & Q & W). right. apply in_map_iff. exists m. split; [exact Q|]. apply filter_In.
  split; [|exact W]. apply in_flat_map. now exists b.
Qed.
Lemma account_either (a b : account) : a = b \/ a <> b.
Proof.
  destruct (same_account a b) eqn:S; [left; now apply same_account_eq|right; intros ->].
  unfold same_account in S. rewrite Z.eqb_refl, key_eqb_refl, (proj2 (bytes_eqb_true _ _) eq_refl) in S. discriminate.
Qed.
Lemma all_pass_iff C E l1 payer bs r : execute C E l1 bs = Ok r ->
  forallb (fun k => key_eqb k incinerator_id || rent_ok E (l1 k) (fst r k)) (touched payer bs) = true <->
  all_pass E l1 (fst r).
Proof.
  intros X. rewrite (touched_all C E l1 payer bs r X). split; [|intros H k _; apply H].
  intros H k N. destruct (in_dec key_eq_dec k (touched payer bs)) as [I|O]; [now apply H|].
  apply unchanged_passes.
  assert (D : fst r k = l1 k \/ fst r k <> l1 k) by apply account_either.
  destruct D as [D|D]; [exact D|]. destruct O. apply in_touched. eapply execute_writes; eassumption.
Qed.

Theorem land_pays C E verify reserved tables l d y payer rest :
  says verify tables d y -> lay_signers y = payer :: rest -> can_pay E l payer (fee_of y) ->
  let l1 := paid l payer (fee_of y) in
  let r := packet C E verify reserved tables l1 d in
  (all_pass E l1 (fst r) -> land C E verify reserved tables l d = r) /\
  (~ all_pass E l1 (fst r) -> land C E verify reserved tables l d = (l1, [])).
Proof.
  intros H S P. cbv zeta. destruct (says_received verify reserved _ _ _ H) as (got & R & _).
  destruct (says_fee _ _ _ _ H) as (payer' & rest' & S' & F).
  assert (payer' = payer) by congruence. subst payer'.
  unfold land, packet. rewrite R, F. cbv zeta.
  change (lamports_per_signature * Z.of_nat (length (lay_signers y))) with (fee_of y).
  rewrite (proj2 (may_pay_iff E l payer (fee_of y)) P). cbn [negb].
  change (charge l payer (fee_of y)) with (paid l payer (fee_of y)).
  destruct (execute C E (paid l payer (fee_of y)) got) as [r|] eqn:X; [|now split].
  pose proof (all_pass_iff _ _ _ payer _ _ X) as Q.
  destruct (forallb _ _); split; intros A; auto; [destruct A; now apply Q|].
  apply Q in A. discriminate.
Qed.
Theorem land_free C E verify reserved tables l d :
  (forall y payer rest, says verify tables d y -> lay_signers y = payer :: rest -> ~ can_pay E l payer (fee_of y)) ->
  land C E verify reserved tables l d = (l, []).
Proof.
  intros H. unfold land. destruct (receive verify reserved tables d) as [got|] eqn:R; [|reflexivity].
  destruct (receive_says _ _ _ _ _ R) as (y & S). destruct (says_fee _ _ _ _ S) as (payer & rest & Q & F).
  rewrite F. cbv zeta. destruct (may_pay _ _ _ _) eqn:P; [|reflexivity]. apply may_pay_iff in P. destruct (H _ _ _ S Q P).
Qed.
Lemma signer_carries verify tables d y k : says verify tables d y -> In k (lay_signers y) -> carries verify d k.
Proof.
  intros (L & _ & sigs & F & D) I.
  assert (Q : Forall (fun s => length s = 64%nat) sigs) by (clear - F; induction F as [|? ? ? ? [X _]]; constructor; auto).
  assert (Ls : (64 * length sigs <= 1232)%nat).
  { pose proof (concat_64 _ Q) as X. rewrite D, counted_is, !app_length, flat_map_concat_map, map_id in L. lia. }
  exists (short_len (length sigs)), sigs, (lay_bytes y).
  assert (exists s, In s sigs /\ verify k (lay_bytes y) s = true) as (s & Is & V).
  { clear - F I. induction F as [|x s ks ss [_ V] F IH]; [destruct I|]. destruct I as [->|I].
    - exists s. split; [now left|exact V].
    - destruct (IH I) as (s' & J & V'). exists s'. split; [now right|exact V']. }
  exists s. split; [rewrite D, counted_is, <- app_assoc, flat_map_concat_map, map_id; reflexivity|].
  split; [|auto]. rewrite <- digits_short, map_length. unfold length_digits.
  destruct (_ <? 128); [cbn; lia|]. destruct (_ <? 16384); cbn; lia.
Qed.
(** All cases. *)
Theorem land_cases C E verify reserved tables l d :
  land C E verify reserved tables l d = (l, []) \/
  exists y payer rest, says verify tables d y /\ lay_signers y = payer :: rest /\ can_pay E l payer (fee_of y) /\
    carries verify d payer /\
    let l1 := paid l payer (fee_of y) in
    let r := packet C E verify reserved tables l1 d in
    (land C E verify reserved tables l d = r /\ all_pass E l1 (fst r)) \/
    land C E verify reserved tables l d = (l1, []).
Proof.
  unfold land. destruct (receive verify reserved tables d) as [got|] eqn:R; [|now left].
  destruct (receive_says _ _ _ _ _ R) as (y & S). destruct (says_fee _ _ _ _ S) as (payer & rest & Q & F).
  rewrite F. cbv zeta.
  change (lamports_per_signature * Z.of_nat (length (lay_signers y))) with (fee_of y).
  destruct (may_pay _ _ _ _) eqn:P; [|now left]. apply may_pay_iff in P. right. cbn [negb].
  exists y, payer, rest. split; [exact S|]. split; [exact Q|]. split; [exact P|].
  split; [apply (signer_carries _ _ _ _ _ S); rewrite Q; now left|].
  change (charge l payer (fee_of y)) with (paid l payer (fee_of y)). unfold packet. rewrite R.
  destruct (execute C E (paid l payer (fee_of y)) got) as [r|] eqn:X; [|now right].
  pose proof (all_pass_iff _ _ _ payer _ _ X) as A.
  destruct (forallb _ _); [left; split; [reflexivity|now apply A]|now right].
Qed.

(** ** What holds of packets holds of packets on the chain *)
Lemma paid_owner l k n k' : a_owner (paid l k n k') = a_owner (l k').
Proof. apply set_lamports_owner. Qed.
Lemma paid_data l k n k' : a_data (paid l k n k') = a_data (l k').
Proof. apply set_lamports_data. Qed.
Lemma paid_other l k n k' : k <> k' -> paid l k n k' = l k'.
Proof. apply set_lamports_other. Qed.
Lemma paid_same l k n : paid l k n k = Account (a_lamports (l k) - n) (a_owner (l k)) (a_data (l k)).
Proof. apply set_lamports_same. Qed.
Lemma fee_positive y : 0 <= fee_of y.
Proof. unfold fee_of. lia. Qed.
Lemma carried_curve C verify d k : curve_only C verify -> carries verify d k -> on_curve C k = true.
Proof. intros V (p & sigs & msg & s & _ & _ & _ & _ & H). now apply V in H. Qed.
Lemma curve_not_program C k : on_curve C k = true -> ~ program_signs_for C k.
Proof.
  intros H (seeds & Q). unfold create_program_address in Q.
  destruct (seeds_ok seeds); [|discriminate]. destruct (on_curve C (sha256 C _)) eqn:E; [discriminate|].
  assert (X : sha256 C (pda_preimage seeds xorca_id) = k) by congruence. rewrite X in E. congruence.
Qed.
Lemma paid_reaches C E l k n :
  ordinary_state_address C -> on_curve C k = true -> 0 <= n -> can_pay E l k n -> reaches C l -> reaches C (paid l k n).
Proof.
  intros Hord V N (O & _ & _ & L & _) R. pose proof (reaches_lam _ _ Hord R) as LO.
  apply (reaches_step C l (OpNative (paid l k n)) R). split.
  - intros k'. split; [apply paid_owner|]. intros H. split; [apply paid_data|].
    destruct (key_eq_dec k k') as [<-|D]; [|rewrite paid_other by exact D; lia].
    exfalso. destruct H as [H|H]; [congruence|]. now apply curve_not_program in H.
  - rewrite <- charge_paid. apply lamports_ok_set; [exact LO|]. lia.
Qed.
Lemma land_through C E verify reserved tables l d :
  ordinary_state_address C -> curve_only C verify -> reaches C l ->
  land C E verify reserved tables l d = (l, []) \/
  exists payer n, 0 <= n /\ carries verify d payer /\ reaches C (paid l payer n) /\
    (land C E verify reserved tables l d = (paid l payer n, []) \/
     land C E verify reserved tables l d = packet C E verify reserved tables (paid l payer n) d).
Proof.
  intros Hord V R. destruct (land_cases C E verify reserved tables l d) as [H|(y & payer & rest & S & Q & P & K & H)]; [now left|].
  right. exists payer, (fee_of y). split; [apply fee_positive|]. split; [exact K|].
  split; [eapply paid_reaches; eauto using fee_positive, carried_curve|]. cbv zeta in H. destruct H as [[H _]|H]; auto.
Qed.
Theorem land_reaches C E verify reserved tables l d :
  ordinary_state_address C -> curve_only C verify -> ata_apart C -> sysvars_ok E ->
  reaches C l -> reaches C (fst (land C E verify reserved tables l d)).
Proof.
  intros Hord V AP SV R. destruct (land_through C E verify reserved tables l d Hord V R)
    as [->|(payer & n & _ & _ & R1 & [->| ->])]; [exact R|exact R1|]. now apply packet_reaches.
Qed.
Theorem lands_reach C verify reserved : forall ds l,
  ordinary_state_address C -> curve_only C verify -> ata_apart C -> Forall (fun p => sysvars_ok (fst (fst p))) ds ->
  reaches C l -> reaches C (fst (lands C verify reserved l ds)).
Proof.
  intros ds. induction ds as [|[[E tables] d] ds IH]; intros l Hord V AP F R; [exact R|].
  inversion F; subst. cbn [lands fst]. apply IH; auto. now apply land_reaches.
Qed.
Lemma paid_is_state l k n sk : is_state l sk -> is_state (paid l k n) sk.
Proof. unfold is_state. now rewrite paid_owner, paid_data. Qed.
Lemma paid_is_record l k n sk : is_record (paid l k n) sk <-> is_record l sk.
Proof. unfold is_record. now rewrite paid_owner, paid_data. Qed.
Theorem land_settings C E verify reserved tables l d sk :
  ordinary_state_address C -> curve_only C verify -> ata_apart C -> sysvars_ok E ->
  reaches C l -> is_state l sk ->
  let l' := fst (land C E verify reserved tables l d) in
  is_state l' sk /\
  (authority l' sk <> authority l sk \/ cooldown l' sk <> cooldown l sk -> carries verify d (authority l sk)).
Proof.
  intros Hord V AP SV R S. cbv zeta.
  destruct (land_through C E verify reserved tables l d Hord V R) as [->|(payer & n & _ & _ & R1 & H)]; cbn [fst].
  { split; [exact S|]. intros [X|X]; congruence. }
  pose proof (paid_is_state l payer n sk S) as S1.
  assert (A : authority (paid l payer n) sk = authority l sk) by (unfold authority; now rewrite paid_data).
  assert (B : cooldown (paid l payer n) sk = cooldown l sk) by (unfold cooldown; now rewrite paid_data).
  destruct H as [->| ->]; cbn [fst].
  - split; [exact S1|]. intros [X|X]; congruence.
  - destruct (packet_settings C E verify reserved tables (paid l payer n) d sk Hord V AP SV R1 S1) as [G1 G2].
    rewrite A, B in G2. now split.
Qed.
Theorem land_record C E verify reserved tables l d sk k :
  ordinary_state_address C -> curve_only C verify -> ata_apart C -> sysvars_ok E ->
  reaches C l -> is_state l sk -> is_record l k ->
  let l' := fst (land C E verify reserved tables l d) in
  (is_record l' k /\ a_data (l' k) = a_data (l k)) \/
  (rec_time l k <= now E /\
   (carries verify d (rec_owner l k) \/
    exists l1 un, landing C E verify d l l1 /\ carries verify d un /\ collision C (claimants l1 un))).
Proof.
  intros Hord V AP SV R S K. cbv zeta.
  destruct (land_through C E verify reserved tables l d Hord V R) as [->|(payer & n & N & Cp & R1 & H)]; cbn [fst].
  { left. auto. }
  pose proof (paid_is_state l payer n sk S) as S1. pose proof (proj2 (paid_is_record l payer n k) K) as K1.
  destruct H as [->| ->]; cbn [fst].
  - left. split; [exact K1|apply paid_data].
  - pose proof (packet_record C E verify reserved tables (paid l payer n) d sk k Hord V AP SV R1 S1 K1) as G.
    cbv zeta in G. unfold rec_time, rec_owner in *. rewrite !paid_data in G.
    destruct G as [G|(G1 & G)]; [now left|right]. split; [exact G1|].
    destruct G as [G|(l1 & un & D & G)]; [now left|]. right. exists l1, un. split; [now exists payer, n|exact G].
Qed.
Theorem land_new_record C E verify reserved tables l d sk k :
  ordinary_state_address C -> curve_only C verify -> ata_apart C -> sysvars_ok E ->
  reaches C l -> is_state l sk ->
  let l' := fst (land C E verify reserved tables l d) in
  ~ is_record l k -> is_record l' k -> carries verify d (rec_owner l' k) /\ now E <= rec_time l' k.
Proof.
  intros Hord V AP SV R S. cbv zeta.
  destruct (land_through C E verify reserved tables l d Hord V R) as [->|(payer & n & _ & _ & R1 & H)]; cbn [fst].
  { intros A B. destruct (A B). }
  pose proof (paid_is_state l payer n sk S) as S1. rewrite <- (paid_is_record l payer n k).
  destruct H as [->| ->]; cbn [fst].
  - intros A B. destruct (A B).
  - now apply packet_new_record with sk.
Qed.
Theorem land_vault C E verify reserved tables l d sk vk :
  ordinary_state_address C -> curve_only C verify -> ata_apart C -> sysvars_ok E ->
  reaches C l -> is_state l sk -> is_vault C sk vk ->
  let l' := fst (land C E verify reserved tables l d) in
  balance l' vk < balance l vk ->
  exists l1 un k, landing C E verify d l l1 /\ is_record l1 k /\ rec_time l1 k <= now E /\ carries verify d un /\
    (rec_owner l1 k = un \/ collision C (claimants l1 un)).
Proof.
  intros Hord V AP SV R S K. cbv zeta.
  destruct (land_through C E verify reserved tables l d Hord V R) as [->|(payer & n & N & Cp & R1 & H)]; cbn [fst]; [lia|].
  pose proof (paid_is_state l payer n sk S) as S1.
  assert (B : balance (paid l payer n) vk = balance l vk) by (unfold balance; now rewrite paid_data).
  rewrite <- B. destruct H as [->| ->]; cbn [fst]; [lia|]. intros D.
  destruct (packet_vault C E verify reserved tables (paid l payer n) d sk vk Hord V AP SV R1 S1 K D) as (l1 & un & k & U & G).
  exists l1, un, k. split; [now exists payer, n|exact G].
Qed.
Theorem land_supply C E verify reserved tables l d sk vk :
  ordinary_state_address C -> curve_only C verify -> ata_apart C -> sysvars_ok E ->
  reaches C l -> is_state l sk -> is_vault C sk vk ->
  let l' := fst (land C E verify reserved tables l d) in
  supply l < supply l' ->
  exists l1 staker so, landing C E verify d l l1 /\ token_account_of l1 so orca_mint_id staker /\ carries verify d staker.
Proof.
  intros Hord V AP SV R S K. cbv zeta.
  destruct (land_through C E verify reserved tables l d Hord V R) as [->|(payer & n & N & Cp & R1 & H)]; cbn [fst]; [lia|].
  pose proof (paid_is_state l payer n sk S) as S1.
  assert (B : supply (paid l payer n) = supply l) by (unfold supply; now rewrite paid_data).
  rewrite <- B. destruct H as [->| ->]; cbn [fst]; [lia|]. intros D.
  destruct (packet_supply C E verify reserved tables (paid l payer n) d sk vk Hord V AP SV R1 S1 K D) as (l1 & st & so & U & G).
  exists l1, st, so. split; [now exists payer, n|exact G].
Qed.
Theorem land_birth C E verify reserved tables l d :
  ordinary_state_address C -> curve_only C verify -> ata_apart C -> sysvars_ok E ->
  reaches C l -> (forall k, ~ is_state l k) ->
  let l' := fst (land C E verify reserved tables l d) in
  (exists sk, is_state l' sk) -> carries verify d deployer_address.
Proof.
  intros Hord V AP SV R S. cbv zeta.
  destruct (land_through C E verify reserved tables l d Hord V R) as [->|(payer & n & _ & _ & R1 & H)]; cbn [fst].
  { intros (sk & X). destruct (S _ X). }
  assert (S1 : forall k, ~ is_state (paid l payer n) k) by (intros k; unfold is_state; rewrite paid_owner, paid_data; apply S).
  destruct H as [->| ->]; cbn [fst].
  - intros (sk & X). destruct (S1 _ X).
  - now apply packet_birth.
Qed.
Theorem land_funds C E verify reserved tables l d u :
  ordinary_state_address C -> curve_only C verify -> ata_apart C -> sysvars_ok E -> reaches C l ->
  on_curve C u = true -> a_owner (l u) = system_id -> system_or_incinerator u = false -> ~ carries verify d u ->
  let l' := fst (land C E verify reserved tables l d) in
  a_owner (l' u) = system_id /\ a_lamports (l u) <= a_lamports (l' u) /\
  forall k mint, token_account_of l k mint u -> ordinary l k ->
    ta_delegate_flag (a_data (l k)) = 0 -> ta_close_flag (a_data (l k)) = 0 ->
    token_account_of l' k mint u /\ ordinary l' k /\
    ta_delegate_flag (a_data (l' k)) = 0 /\ ta_close_flag (a_data (l' k)) = 0 /\ balance l k <= balance l' k.
Proof.
  intros Hord V AP SV R U O Y N. cbv zeta.
  destruct (land_through C E verify reserved tables l d Hord V R) as [->|(payer & n & _ & Cp & R1 & H)]; cbn [fst].
  { split; [exact O|]. split; [lia|]. intros k mint T Od D1 D2. repeat (split; [assumption|]). lia. }
  assert (D : payer <> u) by congruence.
  assert (T1 : forall k mint, token_account_of (paid l payer n) k mint u <-> token_account_of l k mint u)
    by (intros; unfold token_account_of; now rewrite !paid_owner, !paid_data).
  assert (O1 : a_owner (paid l payer n u) = system_id) by now rewrite paid_owner.
  assert (L1 : a_lamports (paid l payer n u) = a_lamports (l u)) by now rewrite paid_other.
  destruct H as [->| ->]; cbn [fst].
  - split; [exact O1|]. split; [lia|]. intros k mint T Od D1 D2. unfold ordinary, balance in *.
    rewrite !paid_data. split; [now apply T1|]. repeat (split; [assumption|]). lia.
  - destruct (packet_funds C E verify reserved tables (paid l payer n) d u Hord V AP SV R1 U O1 Y N) as (G1 & G2 & G3).
    split; [exact G1|]. split; [lia|]. intros k mint T Od D1 D2.
    specialize (G3 k mint). unfold ordinary, balance in *. rewrite !paid_data in G3. apply G3; auto. now apply T1.
Qed.
