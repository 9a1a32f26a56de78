(** Which errors each part of the program can return. *)
From Verif Require Import BytesFacts LedgerFacts Program AssertFacts ClientSpec.

Definition raises {A} (P : err -> Prop) (r : res err A) : Prop :=
  match r with Ok _ => True | Err e => P e end.

Lemma raises_bind {A B} P (m : res err A) (f : A -> res err B) :
  raises P m -> (forall a, m = Ok a -> raises P (f a)) -> raises P (bind m f).
Proof. destruct m; cbn; auto. Qed.
Lemma raises_mono {A} (P Q : err -> Prop) (r : res err A) : (forall e, P e -> Q e) -> raises P r -> raises Q r.
Proof. destruct r; cbn; auto. Qed.
Lemma raises_fail_if (P : err -> Prop) b e : P e -> raises P (fail_if b e).
Proof. destruct b; cbn; auto. Qed.

(** Errors of the programs the staking program calls, and aborts. *)
Definition foreign (e : err) : Prop :=
  match e with ECustom _ | ERuntime _ => False | _ => True end.

Ltac walk :=
  repeat first
    [ exact I
    | match goal with
      | |- raises _ (bind _ _) => apply raises_bind; [|intros ? ?]
      | |- raises _ (fail_if _ _) => apply raises_fail_if
      | |- raises _ (if ?b then _ else _) => destruct b
      | |- raises _ (match ?x with _ => _ end) => destruct x
      | |- raises _ (Ok _) => exact I
      | |- raises _ (Err _) => cbn [raises]
      | |- foreign _ => exact I
      end
    | progress cbv beta zeta ].

Lemma validate_owner_raises l sg ex k a : raises foreign (validate_owner l sg ex k a).
Proof. unfold validate_owner. walk. Qed.
Lemma ta_unpack_raises d : raises foreign (ta_unpack d).
Proof. unfold ta_unpack. walk. Qed.
Lemma mint_unpack_raises d : raises foreign (mint_unpack d).
Proof. unfold mint_unpack. walk. Qed.
Lemma token_owned_raises l k : raises foreign (token_owned l k).
Proof. unfold token_owned. walk. Qed.
Ltac tok := walk; auto using validate_owner_raises, ta_unpack_raises, mint_unpack_raises, token_owned_raises.
Lemma spend_auth_raises l sg ex d a n c : raises foreign (spend_auth l sg ex d a n c).
Proof. unfold spend_auth. tok. Qed.
Lemma token_transfer_raises sg ex l f t a n : raises foreign (token_transfer sg ex l f t a n).
Proof. unfold token_transfer. tok. apply spend_auth_raises. Qed.
Lemma token_mint_to_raises sg ex l f t a n : raises foreign (token_mint_to sg ex l f t a n).
Proof. unfold token_mint_to. tok. Qed.
Lemma token_burn_raises sg ex l f t a n : raises foreign (token_burn sg ex l f t a n).
Proof. unfold token_burn. tok; try apply spend_auth_raises. Qed.
Lemma token_init_account_raises E l k m o : raises foreign (token_init_account E l k m o).
Proof. unfold token_init_account. tok. Qed.
Lemma sys_transfer_raises sg l f t n : raises foreign (sys_transfer sg l f t n).
Proof. unfold sys_transfer. walk. Qed.
Lemma sys_allocate_raises sg l k n : raises foreign (sys_allocate sg l k n).
Proof. unfold sys_allocate. walk. Qed.
Lemma sys_assign_raises sg l k o : raises foreign (sys_assign sg l k o).
Proof. unfold sys_assign. walk. Qed.
Lemma sys_create_raises sg l f t n s o : raises foreign (sys_create_account sg l f t n s o).
Proof. unfold sys_create_account. walk; auto using sys_transfer_raises, sys_allocate_raises, sys_assign_raises. Qed.
Lemma ata_create_raises C E sg l p a w m : raises foreign (ata_create_idempotent C E sg l p a w m).
Proof.
  unfold ata_create_idempotent. walk;
    auto using sys_transfer_raises, sys_allocate_raises, sys_assign_raises, sys_create_raises, token_init_account_raises.
Qed.

(** ** Calls of other programs *)
Lemma pda_signers_raises (P : err -> Prop) C seeds : P (ERuntime RE_InvalidSeeds) -> raises P (pda_signers C seeds).
Proof. intros H. induction seeds as [|s seeds IH]; cbn [pda_signers]; walk; auto. Qed.

(** A call whose accounts and privileges the caller can pass on. *)
Definition passes (C : crypto) (accs : list meta) (seeds : list (list (list byte))) (callee : pubkey)
    (inner : list meta) : Prop :=
  caller_has_key accs callee = true /\
  forall pdas, pda_signers C seeds = Ok pdas -> forallb (meta_allowed accs pdas) inner = true.

Definition not_roles (e : err) : Prop :=
  e <> custom InvalidAccountRole /\ e <> custom NotEnoughAccountKeys /\
  e <> custom UnknownInstructionDiscriminator /\ e <> custom IncorrectProgramId /\
  e <> ERuntime RE_PrivilegeEscalation /\ e <> ERuntime RE_MissingAccount.
(** The two errors of the entry point itself. *)
Definition inner (c : error_code) : Prop := c <> UnknownInstructionDiscriminator /\ c <> IncorrectProgramId.
Definition own_code (e : err) : Prop := forall z, e = ECustom z -> exists c, z = code c /\ inner c.

Lemma foreign_roles e : foreign e -> not_roles e.
Proof. destruct e; cbn; intros H; try destruct H; repeat split; discriminate. Qed.
Lemma foreign_own e : foreign e -> own_code e.
Proof. destruct e; cbn; intros H; try destruct H; intros z Q; discriminate. Qed.
Lemma custom_own c : inner c -> own_code (custom c).
Proof. intros H z [=]. eauto. Qed.
Lemma runtime_own r : own_code (ERuntime r).
Proof. intros z [=]. Qed.

Lemma invoke_raises C accs seeds callee inner body :
  (forall sg, raises foreign (body sg)) -> raises own_code (invoke_signed C accs seeds callee inner body).
Proof.
  intros H. unfold invoke_signed. walk; auto using runtime_own.
  - apply pda_signers_raises, runtime_own.
  - eapply raises_mono; [apply foreign_own|apply H].
Qed.

Lemma invoke_passes C accs seeds callee inner body :
  passes C accs seeds callee inner -> (forall sg, raises foreign (body sg)) ->
  raises not_roles (invoke_signed C accs seeds callee inner body).
Proof.
  intros [H1 H2] H. unfold invoke_signed. apply raises_bind.
  - apply pda_signers_raises. repeat split; discriminate.
  - intros pdas Hp. rewrite H1, (H2 _ Hp). cbn. eapply raises_mono; [apply foreign_roles|apply H].
Qed.

(** ** The program's own checks *)
(** Everything but the two role errors and the two privilege errors. *)
Definition mild (e : err) : Prop :=
  foreign e \/ e = ERuntime RE_InvalidSeeds \/
  exists c, e = custom c /\ inner c /\ c <> InvalidAccountRole /\ c <> NotEnoughAccountKeys.

Lemma mild_own e : mild e -> own_code e.
Proof. intros [H|[->|(c & -> & H & _)]]; auto using foreign_own, runtime_own, custom_own. Qed.
Lemma mild_roles e : mild e -> not_roles e.
Proof.
  intros [H|[->|(c & -> & [H3 H4] & H1 & H2)]]; [now apply foreign_roles|repeat split; discriminate|].
  repeat split; try discriminate; unfold custom; intros [=Q]; destruct c; try discriminate; congruence.
Qed.
Lemma mild_custom c :
  c <> UnknownInstructionDiscriminator -> c <> IncorrectProgramId ->
  c <> InvalidAccountRole -> c <> NotEnoughAccountKeys -> mild (custom c).
Proof. intros. right. right. exists c. unfold inner. auto. Qed.
Lemma mild_foreign e : foreign e -> mild e.
Proof. now left. Qed.

Ltac soft := walk; try (apply mild_custom; discriminate); try (left; exact I).
Lemma owner_mild l m o : raises mild (assert_account_owner l m o).
Proof. unfold assert_account_owner. soft. Qed.
Lemma address_mild m a : raises mild (assert_account_address m a).
Proof. unfold assert_account_address. soft. Qed.
Lemma seeds_mild C m p s : raises mild (assert_account_seeds C m p s).
Proof. unfold assert_account_seeds. soft. Qed.
Lemma state_data_mild l m : raises mild (assert_state_data l m).
Proof. unfold assert_state_data, assert_account_len, assert_account_discriminator. soft. Qed.
Lemma pending_data_mild l m : raises mild (assert_pending_data l m).
Proof. unfold assert_pending_data, assert_account_len, assert_account_discriminator. soft. Qed.
Lemma mint_data_mild l m : raises mild (assert_mint_data l m).
Proof. unfold assert_mint_data. soft. Qed.
Lemma token_data_mild l m : raises mild (assert_token_account_data l m).
Proof. unfold assert_token_account_data. soft. Qed.
Lemma make_owner_mild l a o m w :
  (w = true -> m_writable a = true) -> raises mild (make_owner_token_account_assertions l a o m w).
Proof.
  intros H. unfold make_owner_token_account_assertions. soft; auto using owner_mild, token_data_mild.
  cbn [assert_account_role]. rewrite H by reflexivity. exact I.
Qed.
Lemma verify_state_mild C m b : raises mild (verify_state_address C m b).
Proof. unfold verify_state_address. soft. Qed.
Lemma verify_vault_mild C s v m b : raises mild (verify_vault_address C s v m b).
Proof. unfold verify_vault_address. soft. Qed.
Lemma verify_pending_mild C m u i b : raises mild (verify_pending_address C m u i b).
Proof. unfold verify_pending_address. soft. Qed.
Lemma checked_sub_mild a b e : mild (custom e) -> raises mild (u64_checked_sub a b e).
Proof. intros. unfold u64_checked_sub. walk. assumption. Qed.
Lemma checked_add_mild a b e : mild (custom e) -> raises mild (u64_checked_add a b e).
Proof. intros. unfold u64_checked_add. walk. assumption. Qed.
Lemma checked_addi_mild a b e : mild (custom e) -> raises mild (i64_checked_add a b e).
Proof. intros. unfold i64_checked_add. walk. assumption. Qed.
Lemma to_xorca_mild a n s : raises mild (convert_orca_to_xorca a n s).
Proof. unfold convert_orca_to_xorca, u128_checked_add, u128_checked_mul, u128_checked_div, u64_try_from. soft. Qed.
Lemma to_orca_mild a n s : raises mild (convert_xorca_to_orca a n s).
Proof. unfold convert_xorca_to_orca, u128_checked_add, u128_checked_mul, u128_checked_div, u64_try_from. soft. Qed.
Lemma first_byte_mild v d : raises mild (set_first_byte v d).
Proof. unfold set_first_byte. soft. Qed.
Lemma close_mild l a r : raises mild (close_program_account l a r).
Proof. unfold close_program_account. soft. apply first_byte_mild. Qed.

Lemma invoke_mild C accs seeds callee inner body :
  passes C accs seeds callee inner -> (forall sg, raises foreign (body sg)) ->
  raises mild (invoke_signed C accs seeds callee inner body).
Proof.
  intros [H1 H2] H. unfold invoke_signed. apply raises_bind.
  - apply pda_signers_raises. right. now left.
  - intros pdas Hp. rewrite H1, (H2 _ Hp). cbn. eapply raises_mono; [apply mild_foreign|apply H].
Qed.

Lemma mild_to_own {A} (r : res err A) : raises mild r -> raises own_code r.
Proof. apply raises_mono, mild_own. Qed.

(** ** Every error with a number is one of the program's codes *)
Lemma get_account_own accs n : raises own_code (get_account_info accs n).
Proof. unfold get_account_info. walk. (apply custom_own; split; discriminate). Qed.
Lemma role_own m rs : raises own_code (assert_account_role m rs).
Proof. induction rs as [|r rs IH]; cbn [assert_account_role]; walk; auto; apply custom_own; split; discriminate. Qed.
Lemma make_owner_own l a o m w : raises own_code (make_owner_token_account_assertions l a o m w).
Proof.
  unfold make_owner_token_account_assertions. walk; auto using role_own, mild_to_own, owner_mild, token_data_mild;
    apply custom_own; split; discriminate.
Qed.
Lemma create_secure_own C E accs l f n sp o ss : raises own_code (create_account_secure C E accs l f n sp o ss).
Proof.
  unfold create_account_secure, cpi_system_create, cpi_system_transfer, cpi_system_allocate, cpi_system_assign.
  walk; apply invoke_raises; auto using sys_create_raises, sys_transfer_raises, sys_allocate_raises, sys_assign_raises.
Qed.
Lemma plain_own : own_code EPanic /\ own_code EInvalidAccountData.
Proof. split; intros z [=]. Qed.

Ltac own :=
  walk; try (apply custom_own; split; discriminate); try apply plain_own;
  auto using get_account_own, role_own, make_owner_own, create_secure_own;
  try (apply mild_to_own; auto using owner_mild, address_mild, seeds_mild, state_data_mild, pending_data_mild,
    mint_data_mild, verify_state_mild, verify_vault_mild, verify_pending_mild, to_xorca_mild, to_orca_mild,
    first_byte_mild, close_mild; fail);
  try (apply mild_to_own; first [apply checked_sub_mild|apply checked_add_mild|apply checked_addi_mild];
       apply mild_custom; discriminate);
  try (apply invoke_raises; auto using token_transfer_raises, token_mint_to_raises, token_burn_raises,
    ata_create_raises; fail).

Lemma stake_own C accs l a : raises own_code (stake_process C accs l a).
Proof. unfold stake_process. own. Qed.
Lemma unstake_own C E accs l a i : raises own_code (unstake_process C E accs l a i).
Proof. unfold unstake_process, create_pending_account. own. Qed.
Lemma withdraw_own C E accs l i : raises own_code (withdraw_process C E accs l i).
Proof. unfold withdraw_process. own. Qed.
Lemma initialize_own C E accs l c : raises own_code (initialize_process C E accs l c).
Proof. unfold initialize_process, create_state_account. own. Qed.
Lemma set_own C accs l u : raises own_code (set_process C accs l u).
Proof. unfold set_process. own. Qed.

Lemma handle_own C E accs l i : raises own_code (handle C E accs l i).
Proof. destruct i; cbn; auto using stake_own, unstake_own, withdraw_own, initialize_own, set_own. Qed.
Lemma process_handle C E accs l data :
  process_instruction C E xorca_id accs l data =
  match deserialize read_instruction data with
  | Some i => handle C E accs l i
  | None => Err (custom UnknownInstructionDiscriminator)
  end.
Proof. unfold process_instruction. rewrite key_eqb_refl. cbn. destruct (deserialize _ _) as [[]|]; reflexivity. Qed.
Lemma process_foreign_id C E pid accs l data :
  pid <> xorca_id -> process_instruction C E pid accs l data = Err (custom IncorrectProgramId).
Proof. intros H. unfold process_instruction. rewrite key_eqb_neq by assumption. reflexivity. Qed.

Theorem errors_own C E pid accs l data z :
  process_instruction C E pid accs l data = Err (ECustom z) -> exists c, z = code c.
Proof.
  intros H. destruct (key_eqb pid xorca_id) eqn:K.
  - apply key_eqb_true in K. subst pid. rewrite process_handle in H.
    destruct (deserialize read_instruction data) as [i|]; [|exists UnknownInstructionDiscriminator; unfold custom in H; congruence].
    pose proof (handle_own C E accs l i) as R. rewrite H in R. destruct (R z eq_refl) as (c & -> & _). eauto.
  - apply key_eqb_false in K. rewrite process_foreign_id in H by assumption.
    exists IncorrectProgramId; unfold custom in H; congruence.
Qed.

Lemma code_inj c d : code c = code d -> c = d.
Proof. destruct c, d; cbn; intros H; (reflexivity || discriminate). Qed.

(** 6000 exactly when the bytes are no instruction, 6001 exactly under another id. *)
Theorem unknown_iff C E pid accs l data :
  process_instruction C E pid accs l data = Err (ECustom 6000) <->
  pid = xorca_id /\ deserialize read_instruction data = None.
Proof.
  destruct (key_eqb pid xorca_id) eqn:K.
  - apply key_eqb_true in K. subst pid. rewrite process_handle.
    destruct (deserialize read_instruction data) as [i|]; [|intuition].
    pose proof (handle_own C E accs l i) as R. split; [|intros [_ [=]]].
    intros H. rewrite H in R. destruct (R _ eq_refl) as (c & Q & I1 & I2). exfalso. apply I1. apply code_inj. now rewrite <- Q.
  - apply key_eqb_false in K. rewrite process_foreign_id by assumption. split; [intros [=]|intros [? _]; contradiction].
Qed.
Theorem wrong_id_iff C E pid accs l data :
  process_instruction C E pid accs l data = Err (ECustom 6001) <-> pid <> xorca_id.
Proof.
  split; [|now apply process_foreign_id].
  intros H ->. rewrite process_handle in H. destruct (deserialize read_instruction data) as [i|]; [|discriminate].
  pose proof (handle_own C E accs l i) as R. rewrite H in R. destruct (R _ eq_refl) as (c & Q & I1 & I2).
  apply I2. apply code_inj. now rewrite <- Q.
Qed.
