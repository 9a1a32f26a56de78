(** Lines printed by the scripts that are wrong. *)
From Coq Require Import String.
From Verif Require Import Spec ClientSpec GuardSpec ToolSpec BytesFacts LedgerFacts Demo DemoMore DemoClient DemoScripts.
Import List ListNotations.
Open Scope list_scope.
Open Scope Z_scope.

Lemma stake_line_refuted :
  ~ (forall C E l st a ops l' evs s r,
       stake_script C E l st a = Some ops -> steps_ok C l ops -> attempt_all C l ops = Ok (l', evs) ->
       stake_script_report C l l' st = Some (s, r) -> r = supply l' - supply l).
Proof.
  intros H. destruct (shop_runs 3 _ _ _ _ _ eq_refl) as (evs & R).
  assert (K : 5001000 = supply (shop 4) - supply (shop 3)).
  { eapply (H demo_crypto (demo_env 1150) (shop 3) alice 1000); [shop_asks 3%nat 0%nat|apply shop_steps|exact R|shop_prints 3%nat]. }
  assert (S4 : supply (shop 4) = 5001000) by shop_see 4%nat. assert (S3 : supply (shop 3) = 5000000) by shop_see 3%nat. lia.
Qed.

Lemma unstake_line_refuted :
  ~ (forall C E l un x j ops l' evs u r uo,
       unstake_script C E l un x j = Some ops -> steps_ok C l ops -> attempt_all C l ops = Ok (l', evs) ->
       unstake_script_report C l l' un = Some (u, r) -> is_ata C un orca_mint_id uo ->
       r = balance l' uo - balance l uo).
Proof.
  intros H. destruct (shop_runs 6 _ _ _ _ _ eq_refl) as (evs & R).
  assert (K : 14999000 = balance (shop 7) alice_orca - balance (shop 6) alice_orca).
  { eapply (H demo_crypto (demo_env 2000) (shop 6) alice 1000000 (JInt 0));
      [shop_asks 6%nat 0%nat|apply shop_steps|exact R|shop_prints 6%nat|exact alice_orca_found]. }
  assert (S4 : balance (shop 7) alice_orca = 14999000) by shop_see 7%nat.
  assert (S3 : balance (shop 6) alice_orca = 14999000) by shop_see 6%nat. lia.
Qed.

Lemma deposit_line_refuted :
  ~ (forall C E l sender j ops l' evs s r sk vk,
       client_state C sk -> client_vault C sk vk ->
       deposit_script C E l sender j = Some ops -> steps_ok C l ops -> attempt_all C l ops = Ok (l', evs) ->
       deposit_script_report C l l' j = Some (s, r) -> r = balance l' vk - balance l vk).
Proof.
  intros H. destruct (shop_runs 4 _ _ _ _ _ eq_refl) as (evs & R).
  assert (K : 2000000 = balance (shop 5) demo_vault - balance (shop 4) demo_vault).
  { eapply (H demo_crypto (demo_env 1200) (shop 4) bob (JInt 1000000));
      [exact demo_client_state|exact demo_client_vault|shop_asks 4%nat 0%nat|apply shop_steps|exact R|shop_prints 4%nat]. }
  assert (S4 : balance (shop 5) demo_vault = 6001000) by shop_see 5%nat.
  assert (S3 : balance (shop 4) demo_vault = 5001000) by shop_see 4%nat. lia.
Qed.
