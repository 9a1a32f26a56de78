(** The Rust client's builders and CPI helpers, and the JS client's parsers: C59, C60.
    Only statements, one-line proofs, examples and [Print Assumptions]. *)
From Coq Require Import String.
From Verif Require Import Spec ClientSpec ToolSpec BytesFacts LedgerFacts HistoryFacts LifeFacts PoolHistory LiveFacts AssertFacts BuilderFacts
  Demo DemoMore DemoStory ToolRefuted.
Import List ListNotations.
Open Scope list_scope.
Open Scope Z_scope.

(** ** C59 *)
(** A builder gives the plain instruction if every field is set and panics otherwise. *)
Theorem C59_stake_builder : forall k0 k1 k2 k3 k4 k5 k6 k7 rem a b,
  rust_stake_builder k0 k1 k2 k3 k4 k5 k6 k7 rem a = Some b <->
  exists x0 x1 x2 x3 x4 x5 x6 x7 y,
    (k0, k1, k2, k3, k4, k5, k6, k7, a) =
    (Some x0, Some x1, Some x2, Some x3, Some x4, Some x5, Some x6, Some x7, Some y) /\
    b = rust_stake x0 x1 x2 x3 x4 x5 x6 x7 rem y.
Proof. exact stake_builder. Qed.

Theorem C59_unstake_builder : forall k0 k1 k2 k3 k4 k5 k6 k7 k8 rem a i b,
  rust_unstake_builder k0 k1 k2 k3 k4 k5 k6 k7 k8 rem a i = Some b <->
  exists x0 x1 x2 x3 x4 x5 x6 x7 x8 y z,
    (k0, k1, k2, k3, k4, k5, k6, k7, k8, a, i) =
    (Some x0, Some x1, Some x2, Some x3, Some x4, Some x5, Some x6, Some x7, Some x8, Some y, Some z) /\
    b = rust_unstake x0 x1 x2 x3 x4 x5 x6 x7 x8 rem y z.
Proof. exact unstake_builder. Qed.

Theorem C59_withdraw_builder : forall k0 k1 k2 k3 k4 k5 k6 k7 rem a b,
  rust_withdraw_builder k0 k1 k2 k3 k4 k5 k6 k7 rem a = Some b <->
  exists x0 x1 x2 x3 x4 x5 x6 x7 y,
    (k0, k1, k2, k3, k4, k5, k6, k7, a) =
    (Some x0, Some x1, Some x2, Some x3, Some x4, Some x5, Some x6, Some x7, Some y) /\
    b = rust_withdraw x0 x1 x2 x3 x4 x5 x6 x7 rem y.
Proof. exact withdraw_builder. Qed.

Theorem C59_initialize_builder : forall k0 k1 k2 k3 k4 k5 k6 k7 k8 rem c b,
  rust_initialize_builder k0 k1 k2 k3 k4 k5 k6 k7 k8 rem c = Some b <->
  exists x0 x1 x2 x3 x4 x5 x6 x7 x8 y,
    (k0, k1, k2, k3, k4, k5, k6, k7, k8, c) =
    (Some x0, Some x1, Some x2, Some x3, Some x4, Some x5, Some x6, Some x7, Some x8, Some y) /\
    b = rust_initialize x0 x1 x2 x3 x4 x5 x6 x7 x8 rem y.
Proof. exact initialize_builder. Qed.

Theorem C59_set_builder : forall k0 k1 rem u b,
  rust_set_builder k0 k1 rem u = Some b <->
  exists x0 x1 y, (k0, k1, u) = (Some x0, Some x1, Some y) /\ b = rust_set x0 x1 rem y.
Proof. exact set_builder. Qed.

(** A program that holds the documented privileges can make the call, and the callee
    is given the documented accounts and the instruction ... *)
Theorem C59_cpi_works : forall C caller accounts seeds pdas rem call i rs,
  rust_cpi rem call i rs -> seeds_of C caller seeds pdas ->
  (exists m, In m accounts /\ m_key m = xorca_id) ->
  Forall (may_pass accounts pdas) rs -> Forall (may_pass accounts pdas) rem ->
  exists accs, runtime_cpi C caller accounts seeds call = Ok accs /\
    fills accs rs /\ encodes (b_data (fst call)) i.
Proof. exact cpi_works. Qed.

(** ... and one that lacks a privilege is refused by the runtime. *)
Theorem C59_cpi_refused : forall C caller accounts seeds pdas rem call i rs,
  rust_cpi rem call i rs -> seeds_of C caller seeds pdas ->
  (exists r, In r (rs ++ rem) /\ ~ may_pass accounts pdas r) ->
  exists e, runtime_cpi C caller accounts seeds call = Err (ERuntime e).
Proof. exact cpi_refuses. Qed.

(** A CPI builder does the same as long as the added accounts have equal flags ... *)
Theorem C59_cpi_builder_works : forall C caller accounts seeds pdas added o i rs,
  rust_cpi_builder added o i rs -> seeds_of C caller seeds pdas ->
  (exists m, In m accounts /\ m_key m = xorca_id) ->
  Forall (may_pass accounts pdas) rs ->
  Forall (fun x => may_pass accounts pdas x /\ snd (fst x) = snd x) added ->
  exists call accs, o = Some call /\ runtime_cpi C caller accounts seeds call = Ok accs /\
    fills accs rs /\ encodes (b_data (fst call)) i.
Proof. exact cpi_builder_works. Qed.

(** ... for it passes an added account with its two flags swapped ... *)
Theorem C59_cpi_builder_accounts : forall added o i rs,
  rust_cpi_builder added o i rs ->
  exists call, o = Some call /\
    b_accounts (fst call) =
      map (fun r => let '(k, s, w) := r in Meta k s w) rs ++
      map (fun x => let '(account, is_writable, is_signer) := x in Meta account is_writable is_signer) added.
Proof. exact cpi_builder_accounts. Qed.

(** ... so that adding a writable account, for instance, is refused. *)
Theorem C59_cpi_builder_flags_refuted :
  ~ (forall C caller accounts added o i rs,
       rust_cpi_builder added o i rs ->
       (exists m, In m accounts /\ m_key m = xorca_id) ->
       Forall (may_pass accounts []) rs ->
       (forall account is_writable is_signer, In (account, is_writable, is_signer) added ->
          may_pass accounts [] (account, is_signer, is_writable)) ->
       exists call accs, o = Some call /\ runtime_cpi C caller accounts [] call = Ok accs).
Proof. exact cpi_builder_flags_refuted. Qed.

Example C59_builder_ex :
  rust_set_builder (Some admin) (Some demo_state) [] None = None /\
  rust_set_builder (Some admin) (Some demo_state) [] (Some (UpdateCoolDownPeriod 50)) =
    Some (rust_set admin demo_state [] (UpdateCoolDownPeriod 50)) /\
  rust_withdraw_builder (Some alice) (Some demo_state) None (Some alice_orca) (Some demo_vault) (Some orca_mint_id)
    (Some system_id) (Some token_id) [] (Some 0) = None.
Proof. repeat split. Qed.
(** A program calling Set for admin, passing bob's ORCA account along ... *)
Example C59_cpi_ex :
  rust_cpi [(bob_orca, false, true)]
    (rust_set_cpi xorca_id admin demo_state [(bob_orca, false, true)] (UpdateCoolDownPeriod 50))
    (Set_ (UpdateCoolDownPeriod 50)) (set_roles admin demo_state) /\
  seeds_of demo_crypto alice [] [] /\ (exists m, In m caller_accs /\ m_key m = xorca_id) /\
  Forall (may_pass caller_accs []) (set_roles admin demo_state) /\
  Forall (may_pass caller_accs []) [(bob_orca, false, true)] /\
  runtime_cpi demo_crypto alice caller_accs []
    (rust_set_cpi xorca_id admin demo_state [(bob_orca, false, true)] (UpdateCoolDownPeriod 50)) =
    Ok [ws admin; w_ demo_state; w_ bob_orca].
Proof.
  split; [constructor; cbn; unfold is_i64, i64_min, i64_max; lia|]. split; [constructor|].
  split; [exact caller_has_program|]. split; [exact caller_may_pass|].
  split; [constructor; [exact caller_may_pass_bob|constructor]|]. vm_compute. reflexivity.
Qed.
(** ... but not if it was given admin without signature. *)
Example C59_cpi_refused_ex :
  ~ may_pass [r_ admin; w_ demo_state; r_ xorca_id] [] (admin, true, true) /\
  runtime_cpi demo_crypto alice [r_ admin; w_ demo_state; r_ xorca_id] []
    (rust_set_cpi xorca_id admin demo_state [] (UpdateCoolDownPeriod 50)) = Err (ERuntime RE_PrivilegeEscalation).
Proof.
  split; [|vm_compute; reflexivity]. intros (_ & H & _).
  destruct (H eq_refl) as [[]|(m & [<-|[<-|[<-|[]]]] & K & S)]; discriminate.
Qed.
(** A signing program: the state address signs for a program that derives it. *)
Example C59_cpi_seeds_ex :
  exists seeds, seeds_of demo_crypto xorca_id [seeds] [demo_state] /\
    may_pass [w_ demo_state] [demo_state] (demo_state, true, true).
Proof.
  destruct (find_state_address demo_crypto) as [[k b]|] eqn:Q; [|vm_compute in Q; discriminate].
  assert (K : k = demo_state) by (assert (W : option_map fst (find_state_address demo_crypto) = Some demo_state)
    by (vm_compute; reflexivity); rewrite Q in W; now injection W).
  exists (state_seeds ++ [[b]]). split.
  - constructor; [|constructor]. rewrite <- K. eapply AssertFacts.find_create. exact Q.
  - split; [exists (w_ demo_state); cbn; auto|]. split; [intros _; left; now left|].
    intros _. exists (w_ demo_state). cbn; auto.
Qed.
(** The builder passes bob's account as a signer instead of writable. *)
Example C59_cpi_builder_ex :
  (exists call, rust_set_cpi_builder xorca_id (Some admin) (Some demo_state) [(bob_orca, true, false)]
      (Some (UpdateCoolDownPeriod 50)) = Some call /\
    nth_error (b_accounts (fst call)) 2 = Some (Meta bob_orca true false) /\
    runtime_cpi demo_crypto alice caller_accs [] call = Err (ERuntime RE_PrivilegeEscalation)) /\
  (exists call accs, rust_set_cpi_builder xorca_id (Some admin) (Some demo_state) [(bob_orca, false, false)]
      (Some (UpdateCoolDownPeriod 50)) = Some call /\
    runtime_cpi demo_crypto alice caller_accs [] call = Ok accs /\ nth_error accs 2 = Some (r_ bob_orca)).
Proof.
  split; eexists; [|eexists]; (split; [reflexivity|]); split; vm_compute; reflexivity.
Qed.

(** ** C60 *)
(** A call with the documented accounts is shown with each account under its name. *)
Theorem C60_stake_named : forall p accs data a st vk so sx sk,
  encodes data (Stake a) -> fills accs (stake_roles st vk so sx sk) ->
  exists q, js_parse (Built p accs data) = Some q /\ jp_program q = p /\ jp_tag q = 0 /\
    jp_fields q = [VInt a] /\
    named q "stakerAccount" st /\ named q "vaultAccount" vk /\ named q "stakerOrcaAta" so /\ named q
    "stakerXorcaAta" sx /\ named q "xorcaMintAccount" xorca_mint_id /\ named q "stateAccount" sk /\ named
    q "orcaMintAccount" orca_mint_id /\ named q "tokenProgramAccount" token_id.
Proof. exact stake_named. Qed.

Theorem C60_unstake_named : forall p accs data x i un sk k ux vk,
  encodes data (Unstake x i) -> fills accs (unstake_roles un sk k ux vk) ->
  exists q, js_parse (Built p accs data) = Some q /\ jp_program q = p /\ jp_tag q = 1 /\
    jp_fields q = [VInt x; VInt i] /\
    named q "unstakerAccount" un /\ named q "stateAccount" sk /\ named q "pendingWithdrawAccount" k /\
    named q "unstakerXorcaAta" ux /\ named q "xorcaMintAccount" xorca_mint_id /\ named q
    "orcaMintAccount" orca_mint_id /\ named q "vaultAccount" vk /\ named q "systemProgramAccount"
    system_id /\ named q "tokenProgramAccount" token_id.
Proof. exact unstake_named. Qed.

Theorem C60_withdraw_named : forall p accs data i un sk k uo vk,
  encodes data (Withdraw i) -> fills accs (withdraw_roles un sk k uo vk) ->
  exists q, js_parse (Built p accs data) = Some q /\ jp_program q = p /\ jp_tag q = 2 /\
    jp_fields q = [VInt i] /\
    named q "unstakerAccount" un /\ named q "stateAccount" sk /\ named q "pendingWithdrawAccount" k /\
    named q "unstakerOrcaAta" uo /\ named q "vaultAccount" vk /\ named q "orcaMintAccount" orca_mint_id
    /\ named q "systemProgramAccount" system_id /\ named q "tokenProgramAccount" token_id.
Proof. exact withdraw_named. Qed.

Theorem C60_initialize_named : forall p accs data c payer auth sk vk,
  encodes data (Initialize c) -> fills accs (init_roles payer auth sk vk) ->
  exists q, js_parse (Built p accs data) = Some q /\ jp_program q = p /\ jp_tag q = 3 /\
    jp_fields q = [VInt c] /\
    named q "payerAccount" payer /\ named q "updateAuthorityAccount" auth /\ named q "stateAccount" sk /\
    named q "vaultAccount" vk /\ named q "xorcaMintAccount" xorca_mint_id /\ named q "orcaMintAccount"
    orca_mint_id /\ named q "systemProgramAccount" system_id /\ named q "tokenProgramAccount" token_id /\
    named q "associatedTokenProgramAccount" ata_id.
Proof. exact initialize_named. Qed.

Theorem C60_set_named : forall p accs data u auth sk,
  encodes data (Set_ u) -> fills accs (set_roles auth sk) ->
  exists q, js_parse (Built p accs data) = Some q /\ jp_program q = p /\ jp_tag q = 4 /\
    jp_fields q = match u with UpdateCoolDownPeriod c => [VInt 0; VInt c] | UpdateUpdateAuthority k => [VInt 1; VKey k] end /\
    named q "updateAuthorityAccount" auth /\ named q "stateAccount" sk.
Proof. exact set_named. Qed.

(** The parser throws exactly if the data does not decode or accounts are missing ... *)
Theorem C60_throws : forall p accs data,
  js_parse (Built p accs data) = None <->
  (forall i, ~ encodes data i) \/
  exists i, encodes data i /\
    (length accs < match i with Stake _ => 8 | Unstake _ _ => 9 | Withdraw _ => 8 | Initialize _ => 9 | Set_ _ => 2 end)%nat.
Proof. exact parse_throws. Qed.

(** ... hence never on a call the program accepted ... *)
Theorem C60_accepted_calls : forall C l o i accs t,
  op_ok C l o -> performs C l o i accs t ->
  exists E data q, o = OpCall E accs data /\ js_parse (Built xorca_id accs data) = Some q /\
    (jp_tag q, jp_fields q) = instruction_fields i.
Proof. exact accepted_parses. Qed.

(** ... and the names then tell the truth. *)
Theorem C60_accepted_names : forall C l o i accs t sk vk,
  ordinary_state_address C -> reaches C l -> is_state l sk -> is_vault C sk vk -> op_ok C l o ->
  performs C l o i accs t ->
  exists E data q, o = OpCall E accs data /\ js_parse (Built xorca_id accs data) = Some q /\
    (jp_tag q, jp_fields q) = instruction_fields i /\ named q "stateAccount" sk /\
    ((exists u, i = Set_ u) \/ named q "vaultAccount" vk).
Proof. exact accepted_names. Qed.

(** alice's withdrawal in the demonstration history. *)
Example C60_ex :
  reaches demo_crypto (demo 9) /\ is_state (demo 9) demo_state /\ is_vault demo_crypto demo_state demo_vault /\
  op_ok demo_crypto (demo 9) (demo_call 2100 (withdraw_accs alice alice_orca alice_record) (Withdraw 0)) /\
  performs demo_crypto (demo 9) (demo_call 2100 (withdraw_accs alice alice_orca alice_record) (Withdraw 0))
    (Withdraw 0) (withdraw_accs alice alice_orca alice_record) 2100 /\
  fills (withdraw_accs alice alice_orca alice_record)
    (withdraw_roles alice demo_state alice_record alice_orca demo_vault) /\
  option_map jp_fields (js_parse (Built xorca_id (withdraw_accs alice alice_orca alice_record) [x02; x00])) = Some [VInt 0] /\
  option_map (fun q => option_map m_key (js_named q "pendingWithdrawAccount"))
    (js_parse (Built xorca_id (withdraw_accs alice alice_orca alice_record) [x02; x00])) = Some (Some alice_record).
Proof.
  split; [apply demo_reaches|]. split; [see 9%nat|]. split; [exact demo_is_vault|].
  split; [apply (demo_op_ok 9 _ eq_refl)|]. split; [demo_call_ok 9%nat|]. split; [demo_fills|].
  split; vm_compute; reflexivity.
Qed.
(** Calls of each kind that the named theorems are about. *)
Example C60_kinds_ex :
  fills (stake_accs alice alice_orca alice_xorca) (stake_roles alice demo_vault alice_orca alice_xorca demo_state) /\
  fills (unstake_accs bob bob_xorca bob_record) (unstake_roles bob demo_state bob_record bob_xorca demo_vault) /\
  fills (init_accs admin) (init_roles deployer_address admin demo_state demo_vault) /\
  fills (set_accs admin) (set_roles admin demo_state) /\
  encodes (instruction_bytes (Stake 5)) (Stake 5) /\ encodes (instruction_bytes (Unstake 5 7) ++ [x00]) (Unstake 5 7).
Proof.
  do 4 (split; [demo_fills|]).
  split; (split; [cbn; unfold is_u64, is_u8, u64_max; lia|]); eexists; [symmetry; apply app_nil_r|reflexivity].
Qed.
(** Seven accounts are too few for a withdrawal; tag 7 is no instruction. *)
Example C60_throws_ex :
  js_parse (Built xorca_id (removelast (withdraw_accs alice alice_orca alice_record)) [x02; x00]) = None /\
  js_parse (Built xorca_id (withdraw_accs alice alice_orca alice_record) [x07; x00]) = None.
Proof. split; vm_compute; reflexivity. Qed.

Print Assumptions C59_stake_builder.
Print Assumptions C59_unstake_builder.
Print Assumptions C59_withdraw_builder.
Print Assumptions C59_initialize_builder.
Print Assumptions C59_set_builder.
Print Assumptions C59_cpi_works.
Print Assumptions C59_cpi_refused.
Print Assumptions C59_cpi_builder_works.
Print Assumptions C59_cpi_builder_accounts.
Print Assumptions C59_cpi_builder_flags_refuted.
Print Assumptions C60_stake_named.
Print Assumptions C60_unstake_named.
Print Assumptions C60_withdraw_named.
Print Assumptions C60_initialize_named.
Print Assumptions C60_set_named.
Print Assumptions C60_throws.
Print Assumptions C60_accepted_calls.
Print Assumptions C60_accepted_names.
