(** C67: what a call that is wrong in exactly one place is answered. *)
From Verif Require Import MistakeSpec MistakeFacts Demo DemoMore DemoStory DemoMistake.
Import List ListNotations.
Open Scope list_scope.
Open Scope Z_scope.

(** ** C67 *)
(** In each theorem the call [accs], [data] is accepted; the call that is answered
    with an error differs from it in one place. *)

(** A missing signature or write permission. *)
Theorem C67_missing_permission : forall C E accs l data i n r s w,
  encodes data i -> accepted C E accs l data -> nth_error (rules i) n = Some r ->
 needs_signature r = true /\ s = false \/ needs_writable r = true /\ w = false ->
 answers C E (with_flags accs n s w) l data InvalidAccountRole.
Proof. exact flags_refused. Qed.

Example C67_missing_permission_ex :
  accepted demo_crypto (demo_env 2000) (unstake_accs alice alice_xorca alice_record) (demo 4) (instruction_bytes (Unstake 1000000 0)) /\
  answers demo_crypto (demo_env 2000) (with_flags (unstake_accs alice alice_xorca alice_record) 0 false true) (demo 4)
    (instruction_bytes (Unstake 1000000 0)) InvalidAccountRole.
Proof.
  split; [demo_accepted 4%nat|]. eapply C67_missing_permission with (i := Unstake 1000000 0);
    [demo_encodes|demo_accepted 4%nat|reflexivity|left; split; reflexivity].
Qed.

(** A wrong mint or program. *)
Theorem C67_wrong_mint_or_program : forall C E accs l data i n r a k,
  encodes data i -> accepted C E accs l data -> nth_error (rules i) n = Some r -> needs_address r = Some a ->
  (forall c, i = Initialize c -> (6 <= n)%nat) -> k <> a ->
  answers C E (with_key accs n k) l data IncorrectAccountAddress.
Proof. exact address_refused. Qed.

Example C67_wrong_mint_or_program_ex :
  answers demo_crypto (demo_env 2000) (with_key (unstake_accs alice alice_xorca alice_record) 4 orca_mint_id) (demo 4)
    (instruction_bytes (Unstake 1000000 0)) IncorrectAccountAddress /\
  answers demo_crypto (demo_env 1000) (with_key (init_accs admin) 8 token_id) (demo 0)
    (instruction_bytes (Initialize 100)) IncorrectAccountAddress.
Proof.
  split.
  - eapply C67_wrong_mint_or_program with (i := Unstake 1000000 0);
      [demo_encodes|demo_accepted 4%nat|reflexivity|reflexivity|discriminate|intros Q; vm_compute in Q; discriminate Q].
  - eapply C67_wrong_mint_or_program with (i := Initialize 100);
      [demo_encodes|demo_accepted 0%nat|reflexivity|reflexivity|intros c _; repeat constructor|intros Q; vm_compute in Q; discriminate Q].
Qed.

(** Initialize looks into the mints before it compares their addresses. *)
Theorem C67_wrong_mint_at_initialize : forall C E accs l data c n r a k,
  encodes data (Initialize c) -> accepted C E accs l data -> nth_error (rules (Initialize c)) n = Some r ->
  n = 4%nat \/ n = 5%nat -> needs_address r = Some a -> k <> a ->
  (a_owner (l k) <> token_id -> answers C E (with_key accs n k) l data IncorrectOwner) /\
  (a_owner (l k) = token_id -> ~ mint_bytes l k -> answers C E (with_key accs n k) l data InvalidAccountData) /\
  (a_owner (l k) = token_id -> mint_bytes l k ->
   answers C E (with_key accs n k) l data
     (if Nat.eqb n 4 && key_eqb (mint_auth (a_data (l k))) (acct accs 2) && negb (mint_supply (a_data (l k)) =? 0)
      then InvalidAccountData else IncorrectAccountAddress)).
Proof. exact init_mint_refused. Qed.

Example C67_wrong_mint_at_initialize_ex :
  a_owner (demo 0 admin) <> token_id /\
  answers demo_crypto (demo_env 1000) (with_key (init_accs admin) 4 admin) (demo 0) (instruction_bytes (Initialize 100)) IncorrectOwner.
Proof.
  assert (O : a_owner (demo 0 admin) <> token_id) by (vm_compute; discriminate).
  split; [exact O|]. refine (proj1 (C67_wrong_mint_at_initialize demo_crypto (demo_env 1000) (init_accs admin) (demo 0) _ 100 4 _ xorca_mint_id admin
    _ _ eq_refl _ eq_refl _) O); [demo_encodes|demo_accepted 0%nat|now left|intros Q; vm_compute in Q; discriminate Q].
Qed.

(** A wrong State account. *)
Theorem C67_wrong_state : forall C E accs l data i k,
  ordinary_state_address C -> reaches C l -> encodes data i -> (forall c, i <> Initialize c) ->
  accepted C E accs l data -> k <> acct accs (state_place i) ->
  (a_owner (l k) <> xorca_id -> answers C E (with_key accs (state_place i) k) l data IncorrectOwner) /\
  (a_owner (l k) = xorca_id -> answers C E (with_key accs (state_place i) k) l data InvalidAccountData).
Proof. exact state_refused. Qed.

Theorem C67_wrong_state_at_initialize : forall C E accs l data c k,
  encodes data (Initialize c) -> accepted C E accs l data -> k <> acct accs 2 ->
  answers C E (with_key accs 2 k) l data InvalidSeeds.
Proof. exact init_state_refused. Qed.

(** At stage 8 Alice's record is an account of the program, her wallet is not. *)
Example C67_wrong_state_ex :
  reaches demo_crypto (demo 9) /\ is_record (demo 9) alice_record /\
  answers demo_crypto (demo_env 2100) (with_key (withdraw_accs alice alice_orca alice_record) 1 alice_record) (demo 9)
    (instruction_bytes (Withdraw 0)) InvalidAccountData /\
  answers demo_crypto (demo_env 1000) (with_key (init_accs admin) 2 admin) (demo 0) (instruction_bytes (Initialize 100)) InvalidSeeds.
Proof.
  assert (R : is_record (demo 9) alice_record) by see 9%nat.
  split; [apply demo_reaches|]. split; [exact R|]. split.
  - eapply (C67_wrong_state demo_crypto (demo_env 2100) (withdraw_accs alice alice_orca alice_record) (demo 9) _ (Withdraw 0) alice_record);
      [exact demo_ordinary|apply demo_reaches|demo_encodes|discriminate|demo_accepted 9%nat|intros Q; vm_compute in Q; discriminate Q|exact (proj1 R)].
  - eapply C67_wrong_state_at_initialize with (c := 100); [demo_encodes|demo_accepted 0%nat|intros Q; vm_compute in Q; discriminate Q].
Qed.

(** A wrong vault. *)
Theorem C67_wrong_vault : forall C E accs l data i p k,
  encodes data i -> accepted C E accs l data -> vault_place i = Some p -> k <> acct accs p ->
  match i with
  | Unstake _ _ =>
      (a_owner (l k) <> token_id -> answers C E (with_key accs p k) l data IncorrectOwner) /\
      (a_owner (l k) = token_id -> ~ token_bytes l k orca_mint_id (acct accs 1) ->
       answers C E (with_key accs p k) l data InvalidAccountData) /\
      (a_owner (l k) = token_id -> token_bytes l k orca_mint_id (acct accs 1) ->
       answers C E (with_key accs p k) l data InvalidSeeds)
  | Initialize _ =>
      (a_owner (l k) <> system_id -> answers C E (with_key accs p k) l data IncorrectOwner) /\
      (a_owner (l k) = system_id -> answers C E (with_key accs p k) l data InvalidSeeds)
  | _ => answers C E (with_key accs p k) l data InvalidSeeds
  end.
Proof. exact vault_refused. Qed.

Example C67_wrong_vault_ex :
  answers demo_crypto (demo_env 1300) (with_key (stake_accs bob bob_orca bob_xorca) 1 alice_orca) (demo 3)
    (instruction_bytes (Stake 3000000)) InvalidSeeds.
Proof.
  apply (C67_wrong_vault demo_crypto (demo_env 1300) (stake_accs bob bob_orca bob_xorca) (demo 3) _ (Stake 3000000) 1 alice_orca);
    [demo_encodes|demo_accepted 3%nat|reflexivity|intros Q; vm_compute in Q; discriminate Q].
Qed.

(** A wrong record. *)
Theorem C67_wrong_record_at_unstake : forall C E accs l data x j k,
  encodes data (Unstake x j) -> accepted C E accs l data -> k <> acct accs 2 ->
  (a_owner (l k) <> system_id -> answers C E (with_key accs 2 k) l data IncorrectOwner) /\
  (a_owner (l k) = system_id -> answers C E (with_key accs 2 k) l data InvalidSeeds).
Proof. exact unstake_record_refused. Qed.

Theorem C67_wrong_record_at_withdraw : forall C E accs l data j k,
  ordinary_state_address C -> reaches C l -> encodes data (Withdraw j) -> accepted C E accs l data -> k <> acct accs 2 ->
  (a_owner (l k) <> xorca_id -> answers C E (with_key accs 2 k) l data IncorrectOwner) /\
  (a_owner (l k) = xorca_id -> ~ is_record l k -> answers C E (with_key accs 2 k) l data InvalidAccountData) /\
  (is_record l k -> collision C (claimants l (acct accs 0)) \/ answers C E (with_key accs 2 k) l data InvalidSeeds).
Proof. exact withdraw_record_refused. Qed.

(** Alice withdraws with Bob's record. *)
Example C67_wrong_record_ex :
  is_record (demo 9) bob_record /\
  (collision demo_crypto (claimants (demo 9) alice) \/
   answers demo_crypto (demo_env 2100) (with_key (withdraw_accs alice alice_orca alice_record) 2 bob_record) (demo 9)
     (instruction_bytes (Withdraw 0)) InvalidSeeds) /\
  answers demo_crypto (demo_env 2000) (with_key (unstake_accs alice alice_xorca alice_record) 2 bob) (demo 4)
    (instruction_bytes (Unstake 1000000 0)) InvalidSeeds.
Proof.
  assert (R : is_record (demo 9) bob_record) by see 9%nat. split; [exact R|]. split.
  - apply (C67_wrong_record_at_withdraw demo_crypto (demo_env 2100) (withdraw_accs alice alice_orca alice_record) (demo 9) _ 0 bob_record);
      [exact demo_ordinary|apply demo_reaches|demo_encodes|demo_accepted 9%nat|intros Q; vm_compute in Q; discriminate Q|exact R].
  - apply (C67_wrong_record_at_unstake demo_crypto (demo_env 2000) (unstake_accs alice alice_xorca alice_record) (demo 4) _ 1000000 0 bob);
      [demo_encodes|demo_accepted 4%nat|intros Q; vm_compute in Q; discriminate Q|exact (proj1 (du_b _ (demo_usable_at 4 _ eq_refl)))].
Qed.

(** A wrong token account of the signer's, and one with too little in it. *)
Theorem C67_wrong_token_account : forall C E accs l data i n mint k,
  encodes data i -> accepted C E accs l data -> In (n, mint) (token_places i) ->
  (a_owner (l k) <> token_id -> answers C E (with_key accs n k) l data IncorrectOwner) /\
  (a_owner (l k) = token_id -> ~ token_bytes l k mint (acct accs 0) -> answers C E (with_key accs n k) l data InvalidAccountData).
Proof. exact token_refused. Qed.

Theorem C67_poor_token_account : forall C E accs l data i n k v,
  encodes data i -> accepted C E accs l data ->
  match i with Stake a => n = 2%nat /\ v = a | Unstake x _ => n = 3%nat /\ v = x | _ => False end ->
  a_owner (l k) = token_id -> token_bytes l k (match i with Stake _ => orca_mint_id | _ => xorca_mint_id end) (acct accs 0) ->
  balance l k < v -> answers C E (with_key accs n k) l data InsufficientFunds.
Proof. exact poor_refused. Qed.

(** Alice stakes from Bob's account, and from her wallet. *)
Example C67_wrong_token_account_ex :
  In (2%nat, orca_mint_id) (token_places (Stake 2)) /\
  accepted demo_crypto (demo_env 1400) (stake_accs alice alice_orca alice_xorca) (demo 4) (instruction_bytes (Stake 2)) /\
  answers demo_crypto (demo_env 1400) (with_key (stake_accs alice alice_orca alice_xorca) 2 bob_orca) (demo 4)
    (instruction_bytes (Stake 2)) InvalidAccountData /\
  answers demo_crypto (demo_env 1400) (with_key (stake_accs alice alice_orca alice_xorca) 2 alice) (demo 4)
    (instruction_bytes (Stake 2)) IncorrectOwner.
Proof.
  assert (A : accepted demo_crypto (demo_env 1400) (stake_accs alice alice_orca alice_xorca) (demo 4) (instruction_bytes (Stake 2)))
    by (unfold accepted; probe 4%nat 1%nat).
  split; [now left|]. split; [exact A|]. split.
  - unfold answers. change (with_key (stake_accs alice alice_orca alice_xorca) 2 bob_orca) with (stake_accs alice bob_orca alice_xorca).
    probe 4%nat 4%nat.
  - apply (C67_wrong_token_account demo_crypto (demo_env 1400) (stake_accs alice alice_orca alice_xorca) (demo 4) _ (Stake 2) 2 orca_mint_id alice);
      [demo_encodes|exact A|now left|]. rewrite (proj1 (du_a _ (demo_usable_at 4 _ eq_refl))). apply not_eq_sym, UnstakeFacts.token_ne_system.
Qed.

(** Somebody else's signature. *)
Theorem C67_wrong_signer : forall C E accs l data i u,
  encodes data i -> accepted C E accs l data -> u <> acct accs 0 ->
  match i with
  | Stake _ => answers C E (with_key accs 0 u) l data InvalidAccountData
  | Set_ _ => answers C E (with_key accs 0 u) l data IncorrectAccountAddress
  | Initialize _ => answers C E (with_key accs 0 u) l data UnauthorizedDeployerAccess
  | Withdraw j => collision C (fun x => x = u \/ x = acct accs 0) \/ answers C E (with_key accs 0 u) l data InvalidSeeds
  | Unstake _ j =>
      collision C (fun x => x = u \/ x = acct accs 0) \/ find_pending_withdraw_address C u j = None \/
      answers C E (with_key accs 0 u) l data InvalidSeeds
  end.
Proof. exact user_refused. Qed.

Example C67_wrong_signer_ex :
  answers demo_crypto (demo_env 2001) (with_key (set_accs admin) 0 bob) (demo 5)
    (instruction_bytes (Set_ (UpdateCoolDownPeriod 50))) IncorrectAccountAddress /\
  answers demo_crypto (demo_env 1300) (with_key (stake_accs bob bob_orca bob_xorca) 0 alice) (demo 3)
    (instruction_bytes (Stake 3000000)) InvalidAccountData.
Proof.
  split.
  - apply (C67_wrong_signer demo_crypto (demo_env 2001) (set_accs admin) (demo 5) _ (Set_ (UpdateCoolDownPeriod 50)) bob);
      [demo_encodes|demo_accepted 5%nat|intros Q; vm_compute in Q; discriminate Q].
  - apply (C67_wrong_signer demo_crypto (demo_env 1300) (stake_accs bob bob_orca bob_xorca) (demo 3) _ (Stake 3000000) alice);
      [demo_encodes|demo_accepted 3%nat|intros Q; vm_compute in Q; discriminate Q].
Qed.

(** Another record index. *)
Theorem C67_wrong_index : forall C E accs l data data' i j,
  encodes data i -> encodes data' (with_index i j) -> with_index i j <> i -> accepted C E accs l data ->
  collision C (eq (acct accs 0)) \/
  (exists x j', i = Unstake x j' /\ find_pending_withdraw_address C (acct accs 0) j = None) \/
  answers C E accs l data' InvalidSeeds.
Proof. exact index_refused. Qed.

Example C67_wrong_index_ex :
  collision demo_crypto (eq alice) \/
  answers demo_crypto (demo_env 2100) (withdraw_accs alice alice_orca alice_record) (demo 9) (instruction_bytes (Withdraw 1)) InvalidSeeds.
Proof.
  destruct (C67_wrong_index demo_crypto (demo_env 2100) (withdraw_accs alice alice_orca alice_record) (demo 9)
    (instruction_bytes (Withdraw 0)) (instruction_bytes (Withdraw 1)) (Withdraw 0) 1) as [H|[(x & j & [=] & _)|H]];
    [demo_encodes|demo_encodes|discriminate|demo_accepted 9%nat|now left|now right].
Qed.

Print Assumptions C67_missing_permission.
Print Assumptions C67_wrong_mint_or_program.
Print Assumptions C67_wrong_mint_at_initialize.
Print Assumptions C67_wrong_state.
Print Assumptions C67_wrong_state_at_initialize.
Print Assumptions C67_wrong_vault.
Print Assumptions C67_wrong_record_at_unstake.
Print Assumptions C67_wrong_record_at_withdraw.
Print Assumptions C67_wrong_token_account.
Print Assumptions C67_poor_token_account.
Print Assumptions C67_wrong_signer.
Print Assumptions C67_wrong_index.
