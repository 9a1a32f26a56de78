(** Which accounts of a call pass the runtime's rent check. *)
From Verif Require Export RentSpec.
From Verif Require Import BytesFacts FieldFacts TokenFacts ParseFacts LayoutFacts HistoryFacts LifeFacts EffectFacts ExactFacts ConserveFacts VaultStep Calm Pool PoolHistory RentFacts FreezeStep SlotFacts.
Import List ListNotations.
Open Scope list_scope.
Open Scope Z_scope.

Lemma unmoved_passes E l l' k :
  a_lamports (l' k) = a_lamports (l k) -> length (a_data (l' k)) = length (a_data (l k)) -> passes_rent E l l' k.
Proof.
  intros H1 H2. unfold passes_rent, rent_class_of, zlen. rewrite H1, H2.
  destruct (_ =? 0); [reflexivity|]. destruct (_ <=? _); [reflexivity|]. cbn. rewrite Z.eqb_refl, Z.leb_refl. reflexivity.
Qed.
Lemma exempt_passes E l l' k : rent_min E (zlen (a_data (l' k))) <= a_lamports (l' k) -> passes_rent E l l' k.
Proof.
  intros H. unfold passes_rent, rent_class_of. destruct (a_lamports (l' k) =? 0); [reflexivity|].
  apply Z.leb_le in H. rewrite H. reflexivity.
Qed.
Lemma gone_passes E l l' k : a_lamports (l' k) = 0 -> passes_rent E l l' k.
Proof. intros H. unfold passes_rent, rent_class_of. rewrite H. reflexivity. Qed.
Lemma paying_less E l l' k :
  a_lamports (l' k) <= a_lamports (l k) -> length (a_data (l' k)) = length (a_data (l k)) -> 0 <= a_lamports (l' k) ->
  passes_rent E l l' k <->
  a_lamports (l' k) = 0 \/ rent_min E (zlen (a_data (l k))) <= a_lamports (l' k) \/
  a_lamports (l k) < rent_min E (zlen (a_data (l k))).
Proof.
  intros H1 H2 H3. unfold passes_rent, rent_class_of, zlen. rewrite H2.
  destruct (Z.eqb_spec (a_lamports (l' k)) 0); [split; [auto|reflexivity]|].
  destruct (Z.leb_spec (rent_min E (Z.of_nat (length (a_data (l k))))) (a_lamports (l' k))); [split; [auto|reflexivity]|].
  destruct (Z.eqb_spec (a_lamports (l k)) 0); [lia|].
  destruct (Z.leb_spec (rent_min E (Z.of_nat (length (a_data (l k))))) (a_lamports (l k))); cbn.
  - split; [discriminate|lia].
  - rewrite Z.eqb_refl. cbn. apply Z.leb_le in H1. rewrite H1. split; [auto|reflexivity].
Qed.

Lemma signed_is_slot accs n k : signed_slot accs n k -> slot accs n k.
Proof. intros (m & A & B & _). exists m. auto. Qed.

Theorem stake_passes C l E accs data a l' evs :
  honest_metas C accs -> encodes data (Stake a) -> (forall so, slot accs 2 so -> ordinary l so) ->
  process_instruction C E xorca_id accs l data = Ok (l', evs) -> forall k, passes_rent E l l' k.
Proof.
  intros Hh He Hn H k. destruct (stake_exact_at _ _ _ _ _ _ _ _ Hh He H) as (st & vk & so & sx & sk & m & A).
  decompose [and] A. apply unmoved_passes.
  - match goal with Q : ordinary l so -> _ |- _ => apply Q, Hn; assumption end.
  - destruct (in_dec key_eq_dec k [so; vk; sx; xorca_mint_id]) as [I|I].
    + repeat match goal with Q : same_bytes_except _ _ _ |- _ => destruct Q as [Q _] end.
      destruct I as [<-|[<-|[<-|[<-|[]]]]]; assumption.
    + f_equal. auto.
Qed.
Theorem set_passes C l E accs data u l' evs :
  encodes data (Set_ u) -> process_instruction C E xorca_id accs l data = Ok (l', evs) -> forall k, passes_rent E l l' k.
Proof.
  intros He H k. destruct (set_exact_at _ _ _ _ _ _ _ _ He H) as (sk & _ & _ & _ & _ & A & B & D).
  apply unmoved_passes; [apply A|]. destruct (key_eq_dec k sk) as [->|N]; [|f_equal; auto].
  destruct u; decompose [and] D; repeat match goal with Q : same_bytes_except _ _ _ |- _ => destruct Q as [Q _] end; assumption.
Qed.

Lemma unstake_parts C l E accs data x i l' evs un :
  sysvars_ok E -> honest_metas C accs -> encodes data (Unstake x i) -> slot accs 0 un ->
  process_instruction C E xorca_id accs l data = Ok (l', evs) ->
  exists k, un <> k /\ length (a_data (l' k)) = 1024%nat /\
    a_lamports (l' k) = Z.max (rent_min E 1024) (a_lamports (l k)) /\
    a_lamports (l' un) <= a_lamports (l un) /\
    (forall a, a <> k -> a <> un -> a_lamports (l' a) = a_lamports (l a)) /\
    (forall a, a <> k -> length (a_data (l' a)) = length (a_data (l a))).
Proof.
  intros HE Hh He S0 H. destruct (unstake_exact_at _ _ _ _ _ _ _ _ _ HE Hh He H) as (un' & sk & k & ux & vk & w & A).
  decompose [and] A.
  assert (un' = un) as -> by (eapply slot_fun; [apply signed_is_slot; eassumption|exact S0]).
  exists k. split; [assumption|]. split; [assumption|]. split; [assumption|]. split; [lia|]. split; [assumption|].
  intros a Na. destruct (in_dec key_eq_dec a [ux; xorca_mint_id; sk; k]) as [I|I].
  - repeat match goal with Q : same_bytes_except _ _ _ |- _ => destruct Q as [Q _] end.
    destruct I as [<-|[<-|[<-|[<-|[]]]]]; try assumption. now destruct Na.
  - f_equal. auto.
Qed.
Theorem unstake_others_pass C l E accs data x i l' evs un :
  sysvars_ok E -> honest_metas C accs -> encodes data (Unstake x i) -> slot accs 0 un ->
  process_instruction C E xorca_id accs l data = Ok (l', evs) -> forall k, k <> un -> passes_rent E l l' k.
Proof.
  intros HE Hh He S0 H a Na. destruct (unstake_parts _ _ _ _ _ _ _ _ _ _ HE Hh He S0 H) as (k & N & L & R & _ & Q & D).
  destruct (key_eq_dec a k) as [->|Nk].
  - apply exempt_passes. unfold zlen. rewrite L, R. change (Z.of_nat 1024) with 1024. lia.
  - apply unmoved_passes; auto.
Qed.
Lemma called_lam C l E accs data i l' evs :
  ordinary_state_address C -> reaches C l -> op_ok C l (OpCall E accs data) -> encodes data i ->
  process_instruction C E xorca_id accs l data = Ok (l', evs) -> lamports_ok l'.
Proof.
  intros Hord Hr Ho He H. destruct (call_performs _ _ _ _ _ _ _ _ He H) as [_ Q].
  pose proof (reaches_step _ _ _ Hr Ho) as R. rewrite Q in R. exact (reaches_lam _ _ Hord R).
Qed.
Theorem unstake_signer_passes C l E accs data x i l' evs un :
  ordinary_state_address C -> reaches C l -> op_ok C l (OpCall E accs data) -> encodes data (Unstake x i) -> slot accs 0 un ->
  process_instruction C E xorca_id accs l data = Ok (l', evs) ->
  passes_rent E l l' un <->
  a_lamports (l' un) = 0 \/ rent_min E (zlen (a_data (l un))) <= a_lamports (l' un) \/
  a_lamports (l un) < rent_min E (zlen (a_data (l un))).
Proof.
  intros Hord Hr Ho He S0 H. pose proof (called_lam _ _ _ _ _ _ _ _ Hord Hr Ho He H un) as Hp. destruct Ho as [HE Hh].
  destruct (unstake_parts _ _ _ _ _ _ _ _ _ _ HE Hh He S0 H) as (k & N & _ & _ & Le & _ & D).
  apply paying_less; auto.
Qed.

Lemma init_parts C l E accs data c l' evs :
  deployer_has_key C -> lamports_ok l -> sysvars_ok E -> honest_metas C accs -> encodes data (Initialize c) ->
  process_instruction C E xorca_id accs l data = Ok (l', evs) ->
  (forall k, k <> deployer_address -> passes_rent E l l' k) /\
  a_data (l' deployer_address) = a_data (l deployer_address) /\
  a_lamports (l' deployer_address) <= a_lamports (l deployer_address).
Proof.
  intros Hdep HL HE Hh He H. apply (init_exact _ _ _ _ _ _ _ _ HE Hh He) in H.
  destruct H as (sk & vk & au & sb & vb & A). decompose [and] A.
  assert (Nv : deployer_address <> vk).
  { intros Q. match goal with F : find_vault_address _ _ _ _ = Some _ |- _ => apply program_address_off_curve in F; rewrite <- Q, Hdep in F end.
    discriminate. }
  assert (Ns : deployer_address <> sk).
  { intros Q. match goal with F : find_state_address _ = Some _ |- _ => apply program_address_off_curve in F; rewrite <- Q, Hdep in F end.
    discriminate. }
  match goal with Q : deployer_address <> vk -> _ |- _ => destruct (Q Nv (HL vk)) as [Lv Ld] end.
  match goal with Q : forall a, a <> sk -> a <> vk -> _ /\ _ |- _ => pose proof Q as Same end.
  split; [|split; [apply Same; assumption|lia]]. intros a Na.
  destruct (key_eq_dec a sk) as [->|Ns2].
  { apply exempt_passes. unfold zlen.
    match goal with Q : length (a_data (l' sk)) = _ |- _ => rewrite Q end. change (Z.of_nat 2048) with 2048. lia. }
  destruct (key_eq_dec a vk) as [->|Nk].
  { apply exempt_passes.
    match goal with Q : token_account_of l' vk _ _ |- _ => destruct Q as (_ & U & _) end.
    apply ta_unpack_ok in U. destruct U as [U _]. apply ta_wf_len in U. unfold zlen. rewrite U. change (Z.of_nat 165) with 165. lia. }
  apply unmoved_passes; [auto|f_equal]. apply Same; assumption.
Qed.
Theorem initialize_others_pass C l E accs data c l' evs :
  ordinary_state_address C -> deployer_has_key C -> reaches C l -> op_ok C l (OpCall E accs data) -> encodes data (Initialize c) ->
  process_instruction C E xorca_id accs l data = Ok (l', evs) -> forall k, k <> deployer_address -> passes_rent E l l' k.
Proof.
  intros Hord Hdep Hr [HE Hh] He H. exact (proj1 (init_parts _ _ _ _ _ _ _ _ Hdep (reaches_lam _ _ Hord Hr) HE Hh He H)).
Qed.
Theorem initialize_signer_passes C l E accs data c l' evs :
  ordinary_state_address C -> deployer_has_key C -> reaches C l -> op_ok C l (OpCall E accs data) -> encodes data (Initialize c) ->
  process_instruction C E xorca_id accs l data = Ok (l', evs) ->
  passes_rent E l l' deployer_address <->
  a_lamports (l' deployer_address) = 0 \/
  rent_min E (zlen (a_data (l deployer_address))) <= a_lamports (l' deployer_address) \/
  a_lamports (l deployer_address) < rent_min E (zlen (a_data (l deployer_address))).
Proof.
  intros Hord Hdep Hr Ho He H. pose proof (called_lam _ _ _ _ _ _ _ _ Hord Hr Ho He H deployer_address) as Hp. destruct Ho as [HE Hh].
  destruct (init_parts _ _ _ _ _ _ _ _ Hdep (reaches_lam _ _ Hord Hr) HE Hh He H) as (_ & D & Le).
  apply paying_less; auto. now rewrite D.
Qed.

(** ** Withdraw *)
Theorem withdraw_passes C l o sk i accs t un k :
  ordinary_state_address C -> reaches C l -> is_state l sk ->
  op_ok C l o -> performs C l o (Withdraw i) accs t -> slot accs 0 un -> slot accs 2 k ->
  exists E data, o = OpCall E accs data /\
    let l' := fst (run_op C l o) in
    (forall a, a <> un -> passes_rent E l l' a) /\
    (rent_min E (zlen (a_data (l un))) <= a_lamports (l un) + a_lamports (l k) -> passes_rent E l l' un).
Proof.
  intros Hord Hr Hs Ho Hp S0 S2. pose proof (withdraw_rent _ _ _ _ _ _ _ _ _ Hord Hr Hs Ho Hp S0 S2) as [W1 W2].
  destruct (performs_run _ _ _ _ _ _ Hp) as (E & data & l' & evs & -> & Et & He & Hrun & Hrun').
  rewrite Hrun' in *. cbn [fst] in *. exists E, data. split; [reflexivity|]. cbn zeta.
  destruct (reaches_pool _ _ _ Hord Hr Hs) as (vk & P & HP). pose proof Ho as [HE Hh].
  destruct (withdraw_exact_at _ _ _ _ _ _ _ _ Hh He Hrun) as (un' & sk' & k' & uo & vk' & A). decompose [and] A.
  assert (k' = k) as -> by (eapply slot_fun; eassumption).
  assert (un' = un) as -> by (eapply slot_fun; [apply signed_is_slot; eassumption|exact S0]).
  assert (vk' = vk) as ->.
  { destruct (call_slots _ _ _ _ _ _ sk vk Hord Hr Hs (pool_is_vault _ _ _ _ _ HP) Ho Hp) as [_ S4]. eapply slot_fun; eassumption. }
  match goal with Q : ordinary l vk -> _ |- _ => destruct (Q ltac:(apply (po_vault _ _ _ _ _ HP))) as [_ Ol] end.
  assert (D : forall a, a <> k -> length (a_data (l' a)) = length (a_data (l a))).
  { intros a Na. destruct (in_dec key_eq_dec a [vk; uo; sk'; k]) as [I|I].
    - repeat match goal with Q : same_bytes_except _ _ _ |- _ => destruct Q as [Q _] end.
      destruct I as [<-|[<-|[<-|[<-|[]]]]]; try assumption. now destruct Na.
    - f_equal. auto. }
  split.
  - intros a Na. destruct (key_eq_dec a k) as [->|Nk]; [now apply gone_passes|apply unmoved_passes; auto].
  - intros R. destruct (key_eq_dec un k) as [->|Nk]; [now apply gone_passes|].
    apply exempt_passes. unfold zlen in *. rewrite D, W1 by exact Nk. exact R.
Qed.

(** The refund alone makes the signer exempt. *)
Theorem claim_passes C l o1 sk x i accs1 t1 un k ops l2 evs o2 j accs2 t2 :
  ordinary_state_address C -> reaches C l -> is_state l sk ->
  op_ok C l o1 -> performs C l o1 (Unstake x i) accs1 t1 -> slot accs1 0 un -> slot accs1 2 k ->
  let l1 := fst (run_op C l o1) in
  history C l1 ops l2 evs -> unchanged_during C l1 ops k ->
  op_ok C l2 o2 -> performs C l2 o2 (Withdraw j) accs2 t2 -> slot accs2 0 un -> slot accs2 2 k ->
  let l3 := fst (run_op C l2 o2) in
  exists E1 data1 E2 data2, o1 = OpCall E1 accs1 data1 /\ o2 = OpCall E2 accs2 data2 /\
    (rent_min E2 (zlen (a_data (l2 un))) <= rent_min E1 1024 -> forall a, passes_rent E2 l2 l3 a).
Proof.
  cbn zeta. intros Hord Hr Hs Ho1 Hp1 S0 S2 Hh U Ho2 Hp2 T0 T2.
  destruct (rent_round_trip _ _ _ _ _ _ _ _ _ _ _ _ _ _ _ _ _ Hord Hr Hs Ho1 Hp1 S0 S2 Hh U Ho2 Hp2 T0 T2)
    as (E1 & data1 & Eo & _ & R1 & R2 & _). cbn zeta in R1, R2.
  destruct (reaches_pool _ _ _ Hord Hr Hs) as (vk & P & HP).
  destruct (pool_step _ _ _ _ _ _ HP Ho1) as (P1 & HP1 & Hc).
  pose proof (reaches_step _ _ _ Hr Ho1) as Hr1. pose proof (reaches_history _ _ _ _ _ Hr1 Hh) as Hr2.
  destruct (pool_history _ _ _ _ _ _ _ _ HP1 Hh) as [P2 HP2].
  assert (Hs2 : is_state l2 sk) by (eapply pool_is_state; eassumption).
  destruct (withdraw_passes _ _ _ _ _ _ _ _ _ Hord Hr2 Hs2 Ho2 Hp2 T0 T2) as (E2 & data2 & Eo2 & A & B). cbn zeta in A, B.
  exists E1, data1, E2, data2. split; [exact Eo|]. split; [exact Eo2|]. intros R a.
  destruct (key_eq_dec a un) as [->|N]; [|auto]. apply B. pose proof (reaches_lam _ _ Hord Hr2 un). lia.
Qed.
