(** Initialize can be blocked: C45.
    Only statements, one-line proofs, examples and [Print Assumptions]. *)
From Verif Require Import Spec Transaction BytesFacts HistoryFacts LifeFacts PoolHistory TransactionFacts BlockFacts Demo DemoMore DemoStory Refuted.

(** ** C45 *)
(** The deployer can initialize while the vault's address is unused ... *)
Theorem C45_initialize_possible : forall C E l accs data c auth sk sb vk,
  ordinary_state_address C -> deployer_has_key C -> reaches C l -> (forall k, ~ is_state l k) -> mints_ready l sk ->
  find_state_address C = Some (sk, sb) -> is_vault C sk vk -> sk <> vk ->
  op_ok C l (OpCall E accs data) ->
  fills accs (init_roles deployer_address auth sk vk) -> encodes data (Initialize c) -> 0 <= c ->
  wallet l vk -> wallet l deployer_address ->
  rent_min E 2048 + rent_min E 165 <= a_lamports (l deployer_address) ->
  a_lamports (l sk) + a_lamports (l vk) + a_lamports (l deployer_address) <= u64_max ->
  is_ok (process_instruction C E xorca_id accs l data) = true.
Proof. exact initialize_live. Qed.

(** ... but anyone can create the vault's token account first, and from then on
    Initialize never succeeds ... *)
Theorem C45_vault_created_first_blocks : forall C l E payer sk sb vk ops l' evs,
  ordinary_state_address C -> reaches C l -> (forall k, ~ is_state l k) ->
  find_state_address C = Some (sk, sb) -> is_vault C sk vk ->
  wallet l vk -> wallet l payer -> payer <> vk ->
  Z.max (rent_min E 165) 1 <= a_lamports (l payer) ->
  a_lamports (l vk) + a_lamports (l payer) <= u64_max ->
  let o := OpAta E [payer] payer vk sk orca_mint_id in
  op_ok C l o ->
  history C (fst (run_op C l o)) ops l' evs ->
  token_account_of l' vk orca_mint_id sk /\ (forall k, ~ is_state l' k) /\
  forall o' c accs t, op_ok C l' o' -> ~ performs C l' o' (Initialize c) accs t.
Proof. exact initialize_blocked. Qed.

(** ... failing with IncorrectOwner. *)
Theorem C45_vault_created_first_error : forall C E l accs data c auth sk sb vk,
  ordinary_state_address C -> reaches C l -> (forall k, ~ is_state l k) -> mints_ready l sk ->
  find_state_address C = Some (sk, sb) -> is_vault C sk vk ->
  fills accs (init_roles deployer_address auth sk vk) -> encodes data (Initialize c) -> 0 <= c ->
  a_owner (l vk) <> system_id ->
  process_instruction C E xorca_id accs l data = Err (ECustom 6004).
Proof. exact initialize_error. Qed.

(** So "the deployer can always initialize" is false. *)
Theorem C45_always_initializable_refuted :
  ~ (forall C E l accs data c auth sk sb vk,
      ordinary_state_address C -> deployer_has_key C -> reaches C l -> (forall k, ~ is_state l k) -> mints_ready l sk ->
      find_state_address C = Some (sk, sb) -> is_vault C sk vk -> sk <> vk ->
      op_ok C l (OpCall E accs data) ->
      fills accs (init_roles deployer_address auth sk vk) -> encodes data (Initialize c) -> 0 <= c ->
      wallet l deployer_address ->
      rent_min E 2048 + rent_min E 165 <= a_lamports (l deployer_address) ->
      a_lamports (l sk) + a_lamports (l vk) + a_lamports (l deployer_address) <= u64_max ->
      is_ok (process_instruction C E xorca_id accs l data) = true).
Proof. exact initialize_not_always. Qed.

(** The first call of the demo, and the same call after alice created the vault. *)
Example C45_ex :
  reaches demo_crypto (demo 0) /\ (forall k, ~ is_state (demo 0) k) /\ mints_ready (demo 0) demo_state /\
  find_state_address demo_crypto = Some (demo_state, Z_to_byte 255) /\ is_vault demo_crypto demo_state demo_vault /\
  wallet (demo 0) demo_vault /\ wallet (demo 0) alice /\ wallet (demo 0) deployer_address /\
  op_ok demo_crypto (demo 0) (OpAta (demo_env 900) [alice] alice demo_vault demo_state orca_mint_id) /\
  fills (init_accs admin) (init_roles deployer_address admin demo_state demo_vault) /\
  is_ok (process_instruction demo_crypto (demo_env 1000) xorca_id (init_accs admin) (demo 0)
    (instruction_bytes (Initialize 100))) = true /\
  process_instruction demo_crypto (demo_env 1000) xorca_id (init_accs admin)
    (fst (run_op demo_crypto (demo 0) (OpAta (demo_env 900) [alice] alice demo_vault demo_state orca_mint_id)))
    (instruction_bytes (Initialize 100)) = Err (custom IncorrectOwner).
Proof.
  destruct demo_start as (W1 & W2 & W3 & L1 & L2 & L3 & L4 & M).
  split; [apply demo_reaches|]. split; [exact demo_start_fresh|]. split; [exact M|].
  split; [exact demo_state_found|]. split; [exact demo_is_vault|]. split; [exact W1|]. split; [exact W2|].
  split; [exact W3|]. split; [exact (story_op_ok 0 0 _ 0 _ _ eq_refl eq_refl)|]. split; [demo_fills|].
  split.
  - assert (P : performs demo_crypto (demo 0) (demo_call 1000 (init_accs admin) (Initialize 100)) (Initialize 100)
      (init_accs admin) 1000) by demo_call_ok 0%nat.
    destruct P as (E & data & H & _ & _ & K). unfold demo_call in H. injection H as <- <-. exact K.
  - pose proof (tale_next 0 init_story 0 _ eq_refl) as T. rewrite tale_0 in T. rewrite <- T.
    eapply probe_err. exact (tale_step 0 0 _ _ _ 1 _ _ eq_refl eq_refl eq_refl eq_refl eq_refl).
Qed.

Print Assumptions C45_initialize_possible.
Print Assumptions C45_vault_created_first_blocks.
Print Assumptions C45_vault_created_first_error.
Print Assumptions C45_always_initializable_refuted.
