(** The exact effects of C15-C18, with the addresses of State and vault. *)
From Verif Require Import Spec HistoryFacts LifeFacts EffectFacts SlotFacts.

Lemma stake_exact_at C l E accs data a l' evs :
  honest_metas C accs -> encodes data (Stake a) ->
  process_instruction C E xorca_id accs l data = Ok (l', evs) ->
  exists staker vk so sx sk m,
    signed_slot accs 0 staker /\ slot accs 1 vk /\ slot accs 2 so /\ slot accs 3 sx /\ slot accs 5 sk /\
    is_state l sk /\ sk = state_address_with_bump C (st_bump (a_data (l sk))) /\
    vk = vault_address_with_bump C sk orca_mint_id (st_vault_bump (a_data (l sk))) /\
    token_account_of l so orca_mint_id staker /\ token_account_of l sx xorca_mint_id staker /\
    token_account_of l vk orca_mint_id sk /\
    (supply l = 0 \/ free_orca l sk vk = 0 -> m = a) /\
    (supply l <> 0 -> free_orca l sk vk <> 0 -> m = a * (supply l + 100) / (free_orca l sk vk + 100)) /\
    0 < m /\
    NoDup [so; vk; sx; xorca_mint_id] /\
    balance l' so = balance l so - a /\ balance l' vk = balance l vk + a /\
    balance l' sx = balance l sx + m /\ supply l' = supply l + m /\
    same_bytes_except (spend_fields l so staker) (a_data (l so)) (a_data (l' so)) /\
    same_bytes_except [amount_field] (a_data (l vk)) (a_data (l' vk)) /\
    same_bytes_except [amount_field] (a_data (l sx)) (a_data (l' sx)) /\
    same_bytes_except [supply_field] (a_data (l xorca_mint_id)) (a_data (l' xorca_mint_id)) /\
    (forall k, a_owner (l' k) = a_owner (l k)) /\
    (forall k, ~ In k [so; vk; sx; xorca_mint_id] -> a_data (l' k) = a_data (l k)) /\
    (ordinary l so -> forall k, a_lamports (l' k) = a_lamports (l k)) /\
    evs = [event_bytes (EvStake a (balance l' vk) (escrow l' sk) (supply l') m)].
Proof.
  intros Hh He H. destruct (stake_slots _ _ _ _ _ _ _ _ Hh He H) as (staker' & vk' & so' & sx' & sk' & F & _ & A & V & _).
  destruct (stake_exact _ _ _ _ _ _ _ _ Hh He H) as (staker & vk & so & sx & sk & m & S0 & S1 & S2 & S3 & S5 & St & R).
  assert (vk' = vk) as -> by exact (slot_fun _ _ _ _ (fills_slot _ _ 1 _ _ _ F eq_refl) S1).
  assert (sk' = sk) as -> by exact (slot_fun _ _ _ _ (fills_slot _ _ 5 _ _ _ F eq_refl) S5).
  exists staker, vk, so, sx, sk, m.
  split; [exact S0|].
  split; [exact S1|].
  split; [exact S2|].
  split; [exact S3|].
  split; [exact S5|].
  split; [exact St|]. split; [exact A|]. split; [exact V|]. exact R.
Qed.

Lemma unstake_exact_at C l E accs data x i l' evs :
  sysvars_ok E -> honest_metas C accs -> encodes data (Unstake x i) ->
  process_instruction C E xorca_id accs l data = Ok (l', evs) ->
  exists un sk k ux vk w,
    signed_slot accs 0 un /\ slot accs 1 sk /\ slot accs 2 k /\ slot accs 3 ux /\ slot accs 6 vk /\
    is_state l sk /\ sk = state_address_with_bump C (st_bump (a_data (l sk))) /\
    vk = vault_address_with_bump C sk orca_mint_id (st_vault_bump (a_data (l sk))) /\
    token_account_of l ux xorca_mint_id un /\ reads_as_account l vk orca_mint_id sk /\
    (exists b, find_pending_withdraw_address C un i = Some (k, b)) /\
    a_owner (l k) = system_id /\ a_data (l k) = [] /\
    supply l <> 0 /\ free_orca l sk vk <> 0 /\
    w = x * (free_orca l sk vk + 100) / (supply l + 100) /\ 0 < w /\
    NoDup [ux; xorca_mint_id; sk; k; vk] /\ un <> k /\
    balance l' ux = balance l ux - x /\ supply l' = supply l - x /\
    escrow l' sk = escrow l sk + w /\ balance l' vk = balance l vk /\
    a_owner (l' k) = xorca_id /\ length (a_data (l' k)) = 1024%nat /\ is_record l' k /\
    rec_owner l' k = un /\ rec_index l' k = i /\ rec_amount l' k = w /\
    rec_time l' k = now E + cooldown l sk /\
    a_lamports (l' k) = Z.max (rent_min E 1024) (a_lamports (l k)) /\
    a_lamports (l' un) = a_lamports (l un) - Z.max 0 (rent_min E 1024 - a_lamports (l k)) /\
    same_bytes_except (spend_fields l ux un) (a_data (l ux)) (a_data (l' ux)) /\
    same_bytes_except [supply_field] (a_data (l xorca_mint_id)) (a_data (l' xorca_mint_id)) /\
    same_bytes_except [escrow_field] (a_data (l sk)) (a_data (l' sk)) /\
    (forall a, a <> k -> a_owner (l' a) = a_owner (l a)) /\
    (forall a, ~ In a [ux; xorca_mint_id; sk; k] -> a_data (l' a) = a_data (l a)) /\
    (forall a, a <> k -> a <> un -> a_lamports (l' a) = a_lamports (l a)) /\
    evs = [event_bytes (EvUnstake x (balance l' vk) (escrow l' sk) (supply l') w (cooldown l' sk) i)].
Proof.
  intros HE Hh He H. destruct (unstake_slots _ _ _ _ _ _ _ _ _ HE Hh He H) as (un' & sk' & k' & ux' & vk' & F & _ & A & V & _).
  destruct (unstake_exact _ _ _ _ _ _ _ _ _ HE Hh He H) as (un & sk & k & ux & vk & w & S0 & S1 & S2 & S3 & S6 & St & R).
  assert (vk' = vk) as -> by exact (slot_fun _ _ _ _ (fills_slot _ _ 6 _ _ _ F eq_refl) S6).
  assert (sk' = sk) as -> by exact (slot_fun _ _ _ _ (fills_slot _ _ 1 _ _ _ F eq_refl) S1).
  exists un, sk, k, ux, vk, w.
  split; [exact S0|].
  split; [exact S1|].
  split; [exact S2|].
  split; [exact S3|].
  split; [exact S6|].
  split; [exact St|]. split; [exact A|]. split; [exact V|]. exact R.
Qed.

Lemma withdraw_exact_at C l E accs data i l' evs :
  honest_metas C accs -> encodes data (Withdraw i) ->
  process_instruction C E xorca_id accs l data = Ok (l', evs) ->
  exists un sk k uo vk,
    signed_slot accs 0 un /\ slot accs 1 sk /\ slot accs 2 k /\ slot accs 3 uo /\ slot accs 4 vk /\
    is_state l sk /\ sk = state_address_with_bump C (st_bump (a_data (l sk))) /\
    vk = vault_address_with_bump C sk orca_mint_id (st_vault_bump (a_data (l sk))) /\ is_record l k /\ rec_time l k <= now E /\
    k = pending_address_with_bump C un i (pw_bump (a_data (l k))) /\
    token_account_of l uo orca_mint_id un /\ token_account_of l vk orca_mint_id sk /\
    NoDup [vk; uo; sk; k] /\
    balance l' vk = balance l vk - rec_amount l k /\
    balance l' uo = balance l uo + rec_amount l k /\
    escrow l' sk = escrow l sk - rec_amount l k /\
    a_lamports (l' k) = 0 /\ a_owner (l' k) = system_id /\ a_data (l' k) = [] /\
    same_bytes_except (spend_fields l vk sk) (a_data (l vk)) (a_data (l' vk)) /\
    same_bytes_except [amount_field] (a_data (l uo)) (a_data (l' uo)) /\
    same_bytes_except [escrow_field] (a_data (l sk)) (a_data (l' sk)) /\
    (forall a, a <> k -> a_owner (l' a) = a_owner (l a)) /\
    (forall a, ~ In a [vk; uo; sk; k] -> a_data (l' a) = a_data (l a)) /\
    (ordinary l vk ->
       (un <> k -> a_lamports (l' un) = a_lamports (l un) + a_lamports (l k)) /\
       forall a, a <> k -> a <> un -> a_lamports (l' a) = a_lamports (l a)) /\
    evs = [event_bytes (EvWithdraw (escrow l' sk) (rec_amount l k) (cooldown l' sk) i)].
Proof.
  intros Hh He H. destruct (withdraw_slots _ _ _ _ _ _ _ _ Hh He H) as (un' & sk' & k' & uo' & vk' & F & _ & A & V & _).
  destruct (withdraw_exact _ _ _ _ _ _ _ _ Hh He H) as (un & sk & k & uo & vk & S0 & S1 & S2 & S3 & S4 & St & R).
  assert (vk' = vk) as -> by exact (slot_fun _ _ _ _ (fills_slot _ _ 4 _ _ _ F eq_refl) S4).
  assert (sk' = sk) as -> by exact (slot_fun _ _ _ _ (fills_slot _ _ 1 _ _ _ F eq_refl) S1).
  exists un, sk, k, uo, vk.
  split; [exact S0|].
  split; [exact S1|].
  split; [exact S2|].
  split; [exact S3|].
  split; [exact S4|].
  split; [exact St|]. split; [exact A|]. split; [exact V|]. exact R.
Qed.

Lemma set_exact_at C l E accs data u l' evs :
  encodes data (Set_ u) ->
  process_instruction C E xorca_id accs l data = Ok (l', evs) ->
  exists sk,
    slot accs 1 sk /\ is_state l sk /\ sk = state_address_with_bump C (st_bump (a_data (l sk))) /\ signed_slot accs 0 (authority l sk) /\
    (forall a, a_owner (l' a) = a_owner (l a) /\ a_lamports (l' a) = a_lamports (l a)) /\
    (forall a, a <> sk -> a_data (l' a) = a_data (l a)) /\
    match u with
    | UpdateCoolDownPeriod c =>
        0 <= c /\ cooldown l' sk = c /\
        same_bytes_except [cooldown_field] (a_data (l sk)) (a_data (l' sk)) /\ evs = []
    | UpdateUpdateAuthority a =>
        authority l' sk = a /\
        same_bytes_except [authority_field] (a_data (l sk)) (a_data (l' sk)) /\
        evs = [event_bytes (EvUpdateAuthoritySet (authority l' sk) (authority l sk))]
    end.
Proof.
  intros He H. destruct (set_slots _ _ _ _ _ _ _ _ He H) as (sk' & F & _ & A).
  destruct (set_exact _ _ _ _ _ _ _ _ He H) as (sk & S1 & St & R).
  assert (sk' = sk) as -> by exact (slot_fun _ _ _ _ (fills_slot _ _ 1 _ _ _ F eq_refl) S1).
  exists sk.
  split; [exact S1|].
  split; [exact St|]. split; [exact A|]. exact R.
Qed.

