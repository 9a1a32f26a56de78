(** When the scripts send a transaction (C61, C62). *)
From Verif Require Import BytesFacts LedgerFacts TokenFacts AddressFacts EncodeFacts.
From Verif Require Import ScriptRun.
From Verif Require Export SendSpec ScriptFacts Scripts.
Import List ListNotations.
Open Scope list_scope.
Open Scope Z_scope.

Lemma ata_found C o m k : is_ata C o m k -> script_ata C m o = if on_curve C o then Some k else None.
Proof.
  intros (b & H). unfold script_ata. destruct (on_curve C o); [|reflexivity].
  change (option_map fst (find_program_address C [key_bytes o; key_bytes token_id; key_bytes m] ata_id) = Some k).
  unfold ata_seeds in H. now rewrite H.
Qed.
Lemma state_found C k : client_state C k -> script_state C = Some k.
Proof. now intros (b & _ & _ & H). Qed.
Lemma vault_found C sk k : client_vault C sk k -> script_vault C sk = Some k.
Proof. now intros (b & _ & _ & H). Qed.
Lemma pending_found C u z k : client_record C u z k -> script_pending C u (JInt z) = Some k.
Proof. now intros (b & _ & _ & H). Qed.
Lemma amount_shown l k n : (exists m, rpc_token_amount l k = Some m /\ n <= m) <->
  a_lamports (l k) <> 0 /\ a_owner (l k) = token_id /\ ta_unpack (a_data (l k)) = Ok tt /\ n <= balance l k.
Proof.
  unfold rpc_token_amount, rpc_get, balance. destruct (Z.eqb_spec (a_lamports (l k)) 0) as [Q|Q]; cbn [obind].
  { split; [intros (m & X & _); discriminate X|intros (X & _); contradiction]. }
  destruct (key_eqb (a_owner (l k)) token_id) eqn:O; cbn [andb].
  2:{ split; [intros (m & X & _); discriminate X|intros (_ & X & _)]. rewrite X, key_eqb_refl in O. discriminate O. }
  apply key_eqb_true in O. destruct (ta_unpack (a_data (l k))) as [[]|e] eqn:U; cbn [is_ok].
  - split; [intros (m & X & Y); injection X as <-; auto|intros (_ & _ & _ & X)]. eauto.
  - split; [intros (m & X & _); discriminate X|intros (_ & _ & X & _); discriminate X].
Qed.
Lemma shows_amount l k n : shows l k n <-> exists m, rpc_token_amount l k = Some m /\ (m <? n) = false /\ 0 <= n.
Proof.
  unfold shows. pose proof (amount_shown l k n) as A. split.
  - intros (X1 & X2 & X3 & X4). destruct (proj2 A) as (m & M & L); [repeat split; auto; lia|]. exists m.
    split; [exact M|]. split; [now apply Z.ltb_ge|lia].
  - intros (m & M & L & N). apply Z.ltb_ge in L. destruct (proj1 A) as (X1 & X2 & X3 & X4); [eauto|]. repeat split; auto.
Qed.
Lemma u64_sent n : (exists d, js_u64 n = Some d) <-> 0 <= n <= u64_max.
Proof.
  unfold js_u64. destruct (Z.ltb_spec n 0), (Z.ltb_spec u64_max n); cbn [orb];
    (split; [intros (d & X); try discriminate X; lia|intros X; try lia; eauto]).
Qed.
Lemma i64_sent n : (exists d, js_i64 n = Some d) <-> i64_min <= n <= i64_max.
Proof.
  unfold js_i64. destruct (Z.ltb_spec n i64_min), (Z.ltb_spec i64_max n); cbn [orb];
    (split; [intros (d & X); try discriminate X; lia|intros X; try lia; eauto]).
Qed.
Lemma u8_sent z : (exists d, js_u8 (JInt z) = Some d) <-> 0 <= z <= 255.
Proof.
  unfold js_u8, js_outside, u8_max. destruct (Z.ltb_spec z 0), (Z.ltb_spec (2 ^ 8 - 1) z); cbn [orb];
    (split; [intros (d & X); try discriminate X; lia|intros X; try lia; eauto]).
Qed.
Lemma shown_u64 l k n : shows l k n -> 0 <= n <= u64_max.
Proof.
  intros (_ & _ & _ & H). pose proof (ta_amount_range (a_data (l k))) as R. unfold balance, is_u64, u64_max in *. lia.
Qed.

Theorem stake_script_sends C E l sk vk st so sx a :
  client_state C sk -> client_vault C sk vk -> is_ata C st orca_mint_id so -> is_ata C st xorca_mint_id sx ->
  (exists ops, stake_script C E l st a = Some ops) <-> on_curve C st = true /\ shows l so a.
Proof.
  intros S V Ao Ax. unfold stake_script, script_stake. rewrite (proj1 script_mints), (proj2 script_mints).
  rewrite (ata_found _ _ _ _ Ao), (ata_found _ _ _ _ Ax).
  destruct (on_curve C st); cbn [obind]; [|split; [intros (o & X); discriminate X|intros [X _]; discriminate X]].
  rewrite (state_found _ _ S). cbn [obind]. rewrite (vault_found _ _ _ V). cbn [obind].
  split.
  - intros (o & H). split; [reflexivity|]. apply shows_amount.
    destruct (rpc_token_amount l so) as [m|]; [|discriminate H]. cbn [obind] in H. exists m. split; [reflexivity|].
    destruct (m <? a); [discriminate H|]. split; [reflexivity|].
    destruct (js_u64 a) eqn:U; [|discriminate H]. assert (X : exists d, js_u64 a = Some d) by eauto. apply u64_sent in X. lia.
  - intros [_ Sh]. pose proof (shown_u64 _ _ _ Sh) as R. apply shows_amount in Sh. destruct Sh as (m & -> & L & _). cbn [obind].
    rewrite L. apply u64_sent in R. destruct R as (d & ->). cbn [obind]. eauto.
Qed.
Theorem unstake_script_sends C E l sk vk un ux uo z k x :
  client_state C sk -> client_vault C sk vk -> is_ata C un orca_mint_id uo -> is_ata C un xorca_mint_id ux -> client_record C un z k ->
  (exists ops, unstake_script C E l un x (JInt z) = Some ops) <-> on_curve C un = true /\ shows l ux x /\ 0 <= z <= 255.
Proof.
  intros S V Ao Ax K. unfold unstake_script, script_unstake. rewrite (proj1 script_mints), (proj2 script_mints).
  rewrite (ata_found _ _ _ _ Ao), (ata_found _ _ _ _ Ax).
  destruct (on_curve C un); cbn [obind]; [|split; [intros (o & X); discriminate X|intros [X _]; discriminate X]].
  rewrite (state_found _ _ S). cbn [obind]. rewrite (vault_found _ _ _ V). cbn [obind]. rewrite (pending_found _ _ _ _ K). cbn [obind].
  split.
  - intros (o & H). split; [reflexivity|].
    destruct (rpc_token_amount l ux) as [m|] eqn:M; [|discriminate H]. cbn [obind] in H.
    destruct (m <? x) eqn:L; [discriminate H|].
    destruct (js_u64 x) eqn:U; [|discriminate H]. cbn [obind] in H. destruct (js_u8 (JInt z)) eqn:J; [|discriminate H].
    assert (X : exists d, js_u64 x = Some d) by eauto. apply u64_sent in X.
    split; [|apply u8_sent; eauto]. apply shows_amount. exists m. split; [exact M|]. split; [exact L|lia].
  - intros (_ & Sh & J). pose proof (shown_u64 _ _ _ Sh) as R. apply shows_amount in Sh. destruct Sh as (m & -> & L & _). cbn [obind].
    rewrite L. apply u64_sent in R. destruct R as (d & ->). cbn [obind]. apply u8_sent in J. destruct J as (i & ->). cbn [obind]. eauto.
Qed.
Theorem withdraw_script_sends C E l sk vk un uo z k :
  client_state C sk -> client_vault C sk vk -> is_ata C un orca_mint_id uo -> client_record C un z k ->
  (exists ops, withdraw_script C E l un (JInt z) = Some ops) <->
  on_curve C un = true /\ a_lamports (l k) <> 0 /\ (56 <= length (a_data (l k)))%nat /\ 0 <= z <= 255.
Proof.
  intros S V Ao K. unfold withdraw_script, script_withdraw. rewrite (proj1 script_mints).
  rewrite (ata_found _ _ _ _ Ao), (pending_found _ _ _ _ K). cbn [obind].
  destruct (on_curve C un); cbn [obind]; [|split; [intros (o & X); discriminate X|intros [X _]; discriminate X]].
  unfold rpc_get. destruct (Z.eqb_spec (a_lamports (l k)) 0) as [Q|Q]; cbn [obind].
  { split; [intros (o & X); discriminate X|intros (_ & X & _); contradiction]. }
  destruct (Nat.ltb_spec (length (a_data (l k))) 56) as [L|L].
  { split; [intros (o & X); discriminate X|intros (_ & _ & X & _); lia]. }
  rewrite (state_found _ _ S). cbn [obind]. rewrite (vault_found _ _ _ V). cbn [obind]. split.
  - intros (o & H). destruct (js_u8 (JInt z)) eqn:J; [|discriminate H]. split; [reflexivity|]. split; [exact Q|]. split; [exact L|].
    apply u8_sent. eauto.
  - intros (_ & _ & _ & J). apply u8_sent in J. destruct J as (i & ->). cbn [obind]. eauto.
Qed.
Theorem transfer_script_sends C E l u w from to n :
  is_ata C u orca_mint_id from -> is_ata C w orca_mint_id to -> 0 <= n ->
  (exists ops, transfer_script C E l u w n = Some ops) <->
  on_curve C u = true /\ on_curve C w = true /\ shows l from n /\ (a_lamports (l to) = 0 \/ shows l to 0).
Proof.
  intros Af At N0. unfold transfer_script. rewrite (proj1 script_mints). rewrite (ata_found _ _ _ _ Af), (ata_found _ _ _ _ At).
  destruct (on_curve C u); cbn [obind]; [|split; [intros (o & X); discriminate X|intros [X _]; discriminate X]].
  destruct (on_curve C w); cbn [obind]; [|split; [intros (o & X); discriminate X|intros (_ & X & _); discriminate X]].
  assert (T : (exists m, rpc_amount_or_0 l to = Some m) <-> a_lamports (l to) = 0 \/ shows l to 0).
  { unfold rpc_amount_or_0. rewrite shows_amount. unfold rpc_token_amount, rpc_get.
    destruct (Z.eqb_spec (a_lamports (l to)) 0) as [Q|Q]; [split; [auto|eauto]|]. cbn [obind].
    destruct (key_eqb _ _ && _).
    - split; [intros _; right|intros _; eauto]. eexists. split; [reflexivity|].
      pose proof (ta_amount_range (a_data (l to))) as R. unfold is_u64 in R. split; [apply Z.ltb_ge; lia|lia].
    - split; [intros (m & X); discriminate X|intros [X|(m & X & _)]; [contradiction|discriminate X]]. }
  split.
  - intros (o & H). split; [reflexivity|]. split; [reflexivity|].
    destruct (rpc_token_amount l from) as [m|] eqn:M; [|discriminate H]. cbn [obind] in H.
    destruct (m <? n) eqn:L; [discriminate H|].
    destruct (rpc_amount_or_0 l to) eqn:R; [|discriminate H]. cbn [obind] in H.
    destruct (js_u64 n) eqn:U; [|discriminate H]. assert (X : exists d, js_u64 n = Some d) by eauto. apply u64_sent in X.
    split; [|apply T; eauto]. apply shows_amount. exists m. split; [exact M|]. split; [exact L|lia].
  - intros (_ & _ & Sh & To). pose proof (shown_u64 _ _ _ Sh) as R. apply shows_amount in Sh. destruct Sh as (m & -> & L & _).
    cbn [obind]. rewrite L. apply T in To. destruct To as (t & ->). cbn [obind].
    apply u64_sent in R. destruct R as (d & ->). cbn [obind]. eauto.
Qed.
Lemma spl_shown l k : (exists m, spl_js_account l k = Some m) <-> holds_165 l k.
Proof.
  unfold spl_js_account, rpc_get, holds_165. destruct (Z.eqb_spec (a_lamports (l k)) 0) as [Q|Q]; cbn [obind].
  { split; [intros (m & X); discriminate X|intros (X & _); contradiction]. }
  destruct (key_eqb (a_owner (l k)) token_id) eqn:O; cbn [andb].
  2:{ split; [intros (m & X); discriminate X|intros (_ & X & _)]. rewrite X, key_eqb_refl in O. discriminate O. }
  apply key_eqb_true in O. destruct (Nat.eqb_spec (length (a_data (l k))) 165).
  - split; [auto|eauto].
  - split; [intros (m & X); discriminate X|intros (_ & _ & X); contradiction].
Qed.
Lemma spl_value l k m : spl_js_account l k = Some m -> m = balance l k.
Proof.
  unfold spl_js_account, rpc_get. destruct (a_lamports (l k) =? 0); [discriminate|]. cbn [obind].
  destruct (_ && _); [|discriminate]. now intros [=<-].
Qed.
Theorem deposit_script_sends C E l sk vk u so j :
  client_state C sk -> client_vault C sk vk -> is_ata C u orca_mint_id so -> (forall n, j = JInt n -> 0 <= n) ->
  (exists ops, deposit_script C E l u j = Some ops) <->
  on_curve C u = true /\ holds_165 l so /\ holds_165 l vk /\ exists n, j = JInt n /\ n <= balance l so.
Proof.
  intros S V Ao N0. unfold deposit_script. rewrite (proj1 script_mints), (state_found _ _ S). cbn [obind].
  rewrite (vault_found _ _ _ V). cbn [obind]. rewrite (ata_found _ _ _ _ Ao).
  destruct j as [n| |]; cbn [js_bigint obind];
    [|split; [intros (o & X); discriminate X|intros (_ & _ & _ & n & X & _); discriminate X]
     |split; [intros (o & X); discriminate X|intros (_ & _ & _ & n & X & _); discriminate X]].
  destruct (on_curve C u); cbn [obind]; [|split; [intros (o & X); discriminate X|intros [X _]; discriminate X]].
  split.
  - intros (o & H). destruct (spl_js_account l so) as [m|] eqn:M; [|discriminate H]. cbn [obind] in H.
    pose proof (spl_value _ _ _ M) as ->. destruct (Z.ltb_spec (balance l so) n); [discriminate H|].
    destruct (spl_js_account l vk) as [v|] eqn:Vk; [|discriminate H]. cbn [obind] in H.
    destruct (js_u64 n) eqn:U; [|discriminate H]. assert (X : exists d, js_u64 n = Some d) by eauto. apply u64_sent in X.
    split; [reflexivity|]. split; [apply spl_shown; eauto|]. split; [apply spl_shown; eauto|]. exists n. split; [reflexivity|lia].
  - intros (_ & So & Vk & n' & Q & L). injection Q as <-. specialize (N0 n eq_refl). apply spl_shown in So, Vk. destruct So as (m & M). destruct Vk as (v & ->).
    pose proof (spl_value _ _ _ M) as ->. rewrite M. cbn [obind]. destruct (Z.ltb_spec (balance l so) n); [lia|].
    assert (R : 0 <= n <= u64_max).
    { pose proof (ta_amount_range (a_data (l so))) as R. unfold balance, is_u64, u64_max in *. lia. }
    apply u64_sent in R. destruct R as (d & ->). cbn [obind]. eauto.
Qed.
Theorem settings_scripts_send C E sk deployer authority u j :
  client_state C sk -> (exists vk, client_vault C sk vk) ->
  ((exists b, script_set_cooldown C u j = Some b) <-> exists c, j = JInt c /\ 0 <= c <= i64_max) /\
  (forall new, exists b, script_set_authority C u new = Some b) /\
  ((exists ops, initialize_script C E deployer authority j = Some ops) <->
     deployer = deployer_address /\ exists c, j = JInt c /\ i64_min <= c <= i64_max) /\
  (exists ops, authority_script C E u = Some ops).
Proof.
  intros S (vk & V). unfold script_set_cooldown, script_set_authority, initialize_script, script_initialize, authority_script.
  rewrite (state_found _ _ S). cbn [obind]. rewrite (vault_found _ _ _ V). cbn [obind].
  split; [|split; [eauto|split; [|eauto]]].
  - destruct j as [c| |]; cbn [js_bigint obind];
      [|split; [intros (o & X); discriminate X|intros (n & X & _); discriminate X]..].
    destruct (Z.ltb_spec c 0).
    { split; [intros (o & X); discriminate X|intros (n & X & Y)]. injection X as <-. lia. }
    split.
    + intros (b & H1). destruct (js_i64 c) eqn:J; [|discriminate H1]. assert (X : exists d, js_i64 c = Some d) by eauto.
      apply i64_sent in X. exists c. split; [reflexivity|lia].
    + intros (n & X & Y). injection X as <-. assert (R : i64_min <= c <= i64_max) by (unfold i64_min; lia).
      apply i64_sent in R. destruct R as (d & ->). cbn [obind]. eauto.
  - change script_deployer with deployer_address. destruct (key_eqb deployer deployer_address) eqn:D; cbn [negb].
    2:{ split; [intros (o & X); discriminate X|intros [X _]]. rewrite X, key_eqb_refl in D. discriminate D. }
    apply key_eqb_true in D. destruct j as [c| |]; cbn [js_bigint obind];
      [|split; [intros (o & X); discriminate X|intros (_ & n & X & _); discriminate X]..].
    split.
    + intros (b & H1). split; [exact D|]. destruct (js_i64 c) eqn:J; [|discriminate H1].
      assert (X : exists d, js_i64 c = Some d) by eauto. apply i64_sent in X. exists c. auto.
    + intros (_ & n & X & Y). injection X as <-. apply i64_sent in Y. destruct Y as (d & ->). cbn [obind]. eauto.
Qed.
(** For the Examples: up to the whole balance, and not beyond it. *)
Lemma shows_other l k n m : shows l k n -> 0 <= m <= balance l k -> shows l k m.
Proof. intros (A & B & D & _) H. unfold shows. auto. Qed.
Lemma shows_bound l k m : balance l k < m -> ~ shows l k m.
Proof. intros H (_ & _ & _ & L). lia. Qed.
