(** Lines of status.ts that are wrong. *)
From Coq Require Import String.
From Verif Require Import Spec ClientSpec GuardSpec ToolSpec BytesFacts HistoryFacts LifeFacts PoolHistory ClaimFacts AddressFacts RpcFacts ReadFacts StatusFacts
  Demo DemoMore DemoStory DemoClient.
Import List ListNotations.
Open Scope list_scope.
Open Scope Z_scope.

Lemma rate_line_refuted :
  ~ (forall C l sk vk s total free sup p q r o a accs t,
       ordinary_state_address C -> reaches C l -> is_state l sk -> is_vault C sk vk ->
       status_script C l l l = Some (StatusFull s total free sup (p, q) r) ->
       op_ok C l o -> performs C l o (Stake a) accs t -> supply l <> 0 ->
       supply (fst (run_op C l o)) - supply l = a * p / q).
Proof.
  intros H. assert (S : is_state (demo 3) demo_state) by see 3%nat.
  destruct (status_reads demo_crypto (demo 3) (demo 3) (demo 3) demo_state demo_vault demo_ordinary (demo_reaches 3)
    (demo_reaches 3) (demo_reaches 3) S S S demo_is_vault) as (b & vb & _ & _ & E). cbv zeta in E.
  assert (V : balance (demo 3) demo_vault = 6000000) by see 3%nat.
  assert (X : escrow (demo 3) demo_state = 0) by see 3%nat.
  assert (M : supply (demo 3) = 5000000) by see 3%nat.
  rewrite V, X, M in E.
  assert (P : performs demo_crypto (demo 3) (demo_call 1300 (stake_accs bob bob_orca bob_xorca) (Stake 3000000))
    (Stake 3000000) (stake_accs bob bob_orca bob_xorca) 1300) by demo_call_ok 3%nat.
  pose proof (demo_op_ok 3 _ eq_refl (demo 3)) as O.
  assert (Z0 : supply (demo 3) <> 0) by (rewrite M; discriminate).
  destruct (status_rates _ _ _ _ _ _ _ _ _ _ _ _ demo_ordinary (demo_reaches 3) S demo_is_vault E)
    as (_ & _ & _ & _ & Q & _).
  pose proof (Q _ _ _ _ O P Z0) as Q1.
  pose proof (H _ _ _ _ _ _ _ _ _ _ _ _ _ _ _ demo_ordinary (demo_reaches 3) S demo_is_vault E O P Z0) as Q2.
  rewrite Q1 in Q2. vm_compute in Q2. discriminate Q2.
Qed.

Lemma free_line_negative : exists C l o sk vk s total free sup r r',
  ordinary_state_address C /\ reaches C l /\ is_state l sk /\ is_vault C sk vk /\ op_ok C l o /\
  let l' := fst (run_op C l o) in
  status_script C l l' l' = Some (StatusFull s total free sup r r') /\ free < 0 /\ 0 < sup /\
  0 <= free_orca l sk vk /\ free_orca l' sk vk = free_orca l sk vk.
Proof.
  destruct mixed_rate_fails as (C & cap & l & o & sk & vk & n & Ho & Hc & Hr & Hs & Hv & Hop & _ & J & Hn & Hf & Hf' & Hsup).
  cbv zeta in J. set (l' := fst (run_op C l o)) in *. pose proof (proj1 (client_vault_is _ _ _) Hv) as Hv'.
  assert (Hr' : reaches C l') by (apply reaches_step; assumption).
  assert (Hs' : is_state l' sk).
  { eapply state_stays; [exact Ho|exact Hr|exact Hs|]. apply history_step; [apply history_nil|exact Hop]. }
  destruct (rate_reads C cap l l' l' sk vk Ho Hc Hr Hr' Hr' Hs Hs' Hs' Hv) as (J' & _). rewrite J in J'.
  injection J' as J1 J2.
  destruct (status_reads C l l' l' sk vk Ho Hr Hr' Hr' Hs Hs' Hs' Hv') as (b & vb & _ & _ & E). cbv zeta in E.
  exists C, l, o, sk, vk, (StatusState (cooldown l sk) (escrow l sk) (authority l sk) b vb), (balance l' vk),
    (balance l' vk - escrow l sk), (supply l'), (balance l' vk - escrow l sk + 100, supply l' + 100),
    (supply l' + 100, balance l' vk - escrow l sk + 100).
  do 5 (split; [assumption|]). cbv zeta. split; [exact E|]. split; [lia|]. split; [lia|]. split; assumption.
Qed.
