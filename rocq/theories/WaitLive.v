(** Proofs for C81: who has waited is still paid. *)
From Verif Require Import BytesFacts AddressFacts FreezeStep LandLive.
From Verif Require Export WaitFacts.
Import List ListNotations.
Open Scope list_scope.
Open Scope Z_scope.

Theorem wait_withdraw C E l0 l ds before signature verify reserved tables hash sk vk un j ops b k uo :
  ordinary_state_address C -> curve_only C verify -> ata_apart C -> signs_well signature verify [un] ->
  reaches C l -> is_state l sk -> client_vault C sk vk -> regular ds -> quiet verify un ds ->
  is_record l k -> rec_owner l k = un -> rec_index l k = js_trunc j ->
  on_curve C un = true -> a_owner (l un) = system_id -> system_or_incinerator un = false ->
  is_ata C un orca_mint_id uo -> plainly_owned l uo orca_mint_id un ->
  let l2 := fst (lands C verify reserved l ds) in
  sysvars_ok E -> rec_time l k <= now E ->
  withdraw_script C E l0 un j = Some ops -> instructions_of ops = Some [b] -> may_arrive reserved [b] ->
  ta_state (a_data (l2 uo)) = 1 -> ta_state (a_data (l2 vk)) = 1 ->
  balance l2 uo + rec_amount l k <= u64_max -> a_lamports (l2 un) - 5000 + a_lamports (l2 k) <= u64_max ->
  can_pay E l2 un 5000 -> rent_min E 0 <= a_lamports (l2 un) - 5000 + a_lamports (l2 k) ->
  clash C verify reserved l ds \/
  exists d, wire before signature hash (Some un) [un] [b] = Some d /\
    let l' := fst (land C E verify reserved tables l2 d) in
    ~ is_record l' k /\ balance l uo + rec_amount l k <= balance l' uo /\
    balance l' uo = balance l2 uo + rec_amount l k /\ a_lamports (l un) - 5000 <= a_lamports (l' un).
Proof.
  intros Ho V AP Sg R S Vk Rg Q K Hu Hi Cu O I Ao P l2 SV T Hs Is MA F1 F2 B1 B2 Cp Rn.
  rewrite <- Hu in Q. destruct (wait_record C verify reserved sk k ds l Ho V AP R S Rg K Q) as [S2 [[K2 D2]|X]]; [|now left].
  right. rewrite Hu in Q. destruct (wait_wallet C verify reserved un ds l Ho V AP R Rg Q Cu O I) as (W1 & W2 & W3).
  destruct (W3 uo orca_mint_id P) as [(P2 & _) P3]. pose proof (lands_reach C verify reserved ds l Ho V AP Rg R) as R2.
  fold l2 in S2, K2, D2, W1, W2, P2, P3, R2.
  assert (A : rec_amount l2 k = rec_amount l k) by (unfold rec_amount; now rewrite D2).
  destruct (land_withdraw C E l0 l2 before signature verify reserved tables hash sk vk un j ops b k uo)
    as (d & Wd & G1 & G2 & G3 & G4 & G5); auto; try (unfold rec_owner, rec_index, rec_time in *; rewrite D2; assumption).
  - now split.
  - now rewrite A.
  - exists d. split; [exact Wd|]. cbv zeta. split; [exact G1|]. rewrite G2, G5, A.
    pose proof (reaches_lam _ _ Ho R2 k). split; [lia|]. split; [reflexivity|lia].
Qed.

Theorem wait_unstake C E l0 l ds before signature verify reserved tables hash sk vk un x j ops b k ux :
  ordinary_state_address C -> curve_only C verify -> ata_apart C -> signs_well signature verify [un] ->
  reaches C l -> is_state l sk -> client_vault C sk vk -> regular ds -> quiet verify un ds ->
  on_curve C un = true -> a_owner (l un) = system_id -> system_or_incinerator un = false ->
  is_ata C un xorca_mint_id ux -> plainly_owned l ux xorca_mint_id un -> 0 < x <= balance l ux ->
  let l2 := fst (lands C verify reserved l ds) in
  sysvars_ok E -> unstake_script C E l0 un x j = Some ops -> instructions_of ops = Some [b] -> may_arrive reserved [b] ->
  client_record C un (js_trunc j) k -> ~ is_record l2 k -> ta_state (a_data (l2 ux)) = 1 ->
  is_i64 (now E + cooldown l2 sk) -> balance l2 vk < 2 ^ 63 -> can_pay E l2 un 5000 ->
  rent_min E 0 <= a_lamports (l2 un) - 5000 - Z.max 0 (rent_min E 1024 - a_lamports (l2 k)) ->
  collision C (eq un) \/
  exists d, wire before signature hash (Some un) [un] [b] = Some d /\
    let l' := fst (land C E verify reserved tables l2 d) in
    is_record l' k /\ rec_owner l' k = un /\ worth l sk vk x <= rec_amount l' k /\
    rec_time l' k = now E + cooldown l2 sk /\ balance l ux - x <= balance l' ux.
Proof.
  intros Ho V AP Sg R S Vk Rg Q Cu O I Ax P Hx l2 SV Hs Is MA Ck Nk F1 Hc Hb Cp Rn.
  assert (Vi : is_vault C sk vk) by now apply client_vault_is.
  assert (S2 : is_state l2 sk) by now apply state_lands.
  destruct (wait_wallet C verify reserved un ds l Ho V AP R Rg Q Cu O I) as (_ & _ & W3).
  destruct (W3 ux xorca_mint_id P) as [(P2 & _ & D2 & _) P3]. pose proof (lands_reach C verify reserved ds l Ho V AP Rg R) as R2.
  destruct (wait_holder C verify reserved un ux sk vk ds l Ho V AP R S Vi Rg Q Cu O I P ltac:(lia)) as (_ & _ & Wo).
  fold l2 in P2, D2, P3, R2, Wo. specialize (Wo x x ltac:(lia)).
  destruct (land_unstake C E l0 l2 before signature verify reserved tables hash sk vk un x j ops b k ux)
    as [X|(d & Wd & G1 & G2 & G3 & G4 & G5 & G6 & _)]; auto.
  - now split.
  - unfold no_self_delegate, ta_has_delegate. now rewrite D2.
  - lia.
  - right. exists d. split; [exact Wd|]. cbv zeta. split; [exact G1|]. split; [exact G2|]. split; [rewrite G4; exact Wo|].
    split; [exact G5|lia].
Qed.
