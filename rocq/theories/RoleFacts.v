(** Calls built by the clients are not refused for roles, account count or
    privileges. *)
From Verif Require Import BytesFacts LedgerFacts Program AssertFacts ClientSpec RaiseFacts EncodeFacts.
Import ListNotations.

(** Position [n] is there, with (at least) the given flags. *)
Definition flagged (accs : list meta) (n : nat) (s w : bool) (m : meta) : Prop :=
  nth_error accs n = Some m /\ (s = true -> m_signer m = true) /\ (w = true -> m_writable m = true).
Fixpoint shaped (accs : list meta) (n : nat) (sh : list (bool * bool)) : Prop :=
  match sh with
  | [] => True
  | (s, w) :: sh => (exists m, flagged accs n s w m) /\ shaped accs (S n) sh
  end.

Lemma delivered_shape sent accs :
  delivered sent accs -> shaped accs 0 (map (fun m => (m_signer m, m_writable m)) sent).
Proof.
  intros H. enough (G : forall pre, shaped (pre ++ accs) (length pre) (map (fun m => (m_signer m, m_writable m)) sent)).
  { exact (G []). }
  induction H as [|m m' sent accs (_ & Hs & Hw) H IH]; intros pre; cbn; [exact I|]. split.
  - exists m'. split; [|auto]. rewrite nth_error_app2 by lia. now rewrite Nat.sub_diag.
  - specialize (IH (pre ++ [m'])). rewrite <- app_assoc in IH. cbn [app] in IH.
    now rewrite app_length, Nat.add_comm in IH.
Qed.
Lemma shaped_app accs n sh sh' : shaped accs n (sh ++ sh') -> shaped accs n sh.
Proof. revert n. induction sh as [|[s w] sh IH]; intros n; cbn; [auto|]. intros [H1 H2]. split; auto. Qed.

(** ** Inner calls get the privileges they name *)
Lemma has_key accs n m : nth_error accs n = Some m -> caller_has_key accs (m_key m) = true.
Proof.
  intros H. apply nth_error_In in H. unfold caller_has_key. apply existsb_exists. exists m.
  split; [exact H|apply key_eqb_refl].
Qed.
Lemma key_signs accs n m : nth_error accs n = Some m -> m_signer m = true -> caller_signs accs (m_key m) = true.
Proof.
  intros H S. apply nth_error_In in H. apply existsb_exists. exists m.
  split; [exact H|]. now rewrite key_eqb_refl, S.
Qed.
Lemma key_writes accs n m : nth_error accs n = Some m -> m_writable m = true -> caller_writes accs (m_key m) = true.
Proof.
  intros H S. apply nth_error_In in H. apply existsb_exists. exists m.
  split; [exact H|]. now rewrite key_eqb_refl, S.
Qed.

Lemma allowed accs pdas n m s w :
  nth_error accs n = Some m -> (s = true -> m_signer m = true \/ In (m_key m) pdas) ->
  (w = true -> m_writable m = true) -> meta_allowed accs pdas (Meta (m_key m) s w) = true.
Proof.
  intros H Hs Hw. unfold meta_allowed. cbn [m_key m_signer m_writable]. rewrite (has_key _ _ _ H). cbn [andb].
  apply andb_true_iff. split.
  - destruct s; [|reflexivity]. cbn [negb orb]. destruct (Hs eq_refl) as [S|S].
    + now rewrite (key_signs _ _ _ H S).
    + apply orb_true_iff. right. apply existsb_exists. exists (m_key m). split; [exact S|apply key_eqb_refl].
  - destruct w; [|reflexivity]. now rewrite (key_writes _ _ _ H (Hw eq_refl)).
Qed.

Lemma address_ok m a u : assert_account_address m a = Ok u -> m_key m = a.
Proof.
  unfold assert_account_address, fail_if. destruct (key_eqb (m_key m) a) eqn:K; [intros _|discriminate].
  now apply key_eqb_true.
Qed.
Lemma seeds_ok C m pid seeds b :
  assert_account_seeds C m pid seeds = Ok b ->
  create_program_address C (seeds ++ [[Z_to_byte b]]) pid = Some (m_key m).
Proof.
  unfold assert_account_seeds. destruct (find_program_address C seeds pid) as [[k bump]|] eqn:F; [|discriminate].
  unfold fail_if. destruct (key_eqb (m_key m) k) eqn:K; [|discriminate]. cbn. intros [=<-].
  apply key_eqb_true in K. subst k. rewrite byte_round. now apply find_create.
Qed.

(** The program signs for an address whose seeds it checked. *)
Lemma pda_signs C seeds b pdas k :
  k = derive_address C seeds (Z_to_byte b) xorca_id ->
  pda_signers C [seeds ++ [[Z_to_byte b]]] = Ok pdas -> In k pdas.
Proof.
  intros -> H. cbn [pda_signers] in H.
  destruct (create_program_address C (seeds ++ [[Z_to_byte b]]) xorca_id) as [k|] eqn:K; [|discriminate].
  cbn in H. injection H as <-. left. symmetry. symmetry in K. symmetry in K. now apply create_derive in K.
Qed.
Lemma pda_signs_found C seeds b pdas m pid :
  pid = xorca_id -> assert_account_seeds C m pid seeds = Ok b ->
  pda_signers C [seeds ++ [[Z_to_byte b]]] = Ok pdas -> In (m_key m) pdas.
Proof.
  intros -> H K. apply seeds_ok in H. cbn [pda_signers] in K. rewrite H in K. cbn in K. injection K as <-. now left.
Qed.

Lemma passes_intro C accs seeds n m callee inner :
  nth_error accs n = Some m -> m_key m = callee ->
  (forall pdas, pda_signers C seeds = Ok pdas -> Forall (fun x => meta_allowed accs pdas x = true) inner) ->
  passes C accs seeds callee inner.
Proof.
  intros H <- K. split; [eapply has_key, H|]. intros pdas Hp. apply forallb_forall. intros x Hx.
  specialize (K _ Hp). rewrite Forall_forall in K. now apply K.
Qed.

(** ** The handlers *)
Lemma role_sw m : m_signer m = true -> m_writable m = true -> raises mild (assert_account_role m [Signer; Writable]).
Proof. intros H1 H2. cbn. rewrite H1, H2. exact I. Qed.
Lemma role_w m : m_writable m = true -> raises mild (assert_account_role m [Writable]).
Proof. intros H. cbn. rewrite H. exact I. Qed.

Ltac stroll :=
  repeat first
    [ exact I
    | match goal with
      | |- raises _ (bind _ _) => apply raises_bind; [|let x := fresh "x" in let Q := fresh "Q" in intros x Q]
      | |- raises _ (fail_if _ _) => apply raises_fail_if
      | |- raises _ (assert_account_role _ [Signer; Writable]) => apply role_sw; auto
      | |- raises _ (assert_account_role _ [Writable]) => apply role_w; auto
      | |- raises _ (assert_account_address _ _) => apply address_mild
      | |- raises _ (assert_account_owner _ _ _) => apply owner_mild
      | |- raises _ (assert_account_seeds _ _ _ _) => apply seeds_mild
      | |- raises _ (assert_state_data _ _) => apply state_data_mild
      | |- raises _ (assert_pending_data _ _) => apply pending_data_mild
      | |- raises _ (assert_mint_data _ _) => apply mint_data_mild
      | |- raises _ (make_owner_token_account_assertions _ _ _ _ _) => apply make_owner_mild; auto; try discriminate
      | |- raises _ (verify_state_address _ _ _) => apply verify_state_mild
      | |- raises _ (verify_vault_address _ _ _ _ _) => apply verify_vault_mild
      | |- raises _ (verify_pending_address _ _ _ _ _) => apply verify_pending_mild
      | |- raises _ (u64_checked_sub _ _ _) => apply checked_sub_mild
      | |- raises _ (u64_checked_add _ _ _) => apply checked_add_mild
      | |- raises _ (i64_checked_add _ _ _) => apply checked_addi_mild
      | |- raises _ (convert_orca_to_xorca _ _ _) => apply to_xorca_mild
      | |- raises _ (convert_xorca_to_orca _ _ _) => apply to_orca_mild
      | |- raises _ (set_first_byte _ _) => apply first_byte_mild
      | |- raises _ (close_program_account _ _ _) => apply close_mild
      | |- raises _ (Ok _) => exact I
      | |- mild (custom _) => apply mild_custom; discriminate
      | |- mild _ => left; exact I
      end
    | progress cbv beta zeta ].

Ltac fork := match goal with |- raises _ (if ?b then _ else _) => destruct b end.
Ltac lend :=
  match goal with
  | A : assert_account_address ?m ?k = Ok _, N : nth_error ?accs _ = Some ?m
      |- passes _ ?accs _ ?k _ => apply (passes_intro _ _ _ _ _ _ _ N (address_ok _ _ _ A))
  end;
  let pdas := fresh "pdas" in let Hp := fresh "Hp" in intros pdas Hp;
  repeat (apply Forall_cons;
    [match goal with N : nth_error ?accs _ = Some ?m |- meta_allowed ?accs _ (Meta (m_key ?m) _ _) = true =>
       apply (allowed _ _ _ _ _ _ N); auto; try discriminate end|]); [..|apply Forall_nil].

Lemma stake_mild C accs l a :
  shaped accs 0 [(true, true); (false, true); (false, true); (false, true); (false, true);
                 (false, false); (false, false); (false, false)] ->
  raises mild (stake_process C accs l a).
Proof.
  intros ((m0 & N0 & S0 & W0) & (m1 & N1 & _ & W1) & (m2 & N2 & _ & W2) & (m3 & N3 & _ & W3) &
    (m4 & N4 & _ & W4) & (m5 & N5 & _) & (m6 & N6 & _) & (m7 & N7 & _) & _).
  unfold stake_process, get_account_info. rewrite N0, N1, N2, N3, N4, N5, N6, N7. cbn [bind].
  stroll.
  - unfold cpi_token_transfer. apply invoke_mild; [|intros; apply token_transfer_raises]. lend.
  - unfold cpi_token_mint_to. apply invoke_mild; [|intros; apply token_mint_to_raises]. lend.
    intros _. right. match goal with H : verify_state_address _ m5 _ = Ok _ |- _ => apply verify_state_ok in H end.
    eapply pda_signs; eassumption.
Qed.

Lemma unstake_mild C E accs l a i :
  shaped accs 0 [(true, true); (false, true); (false, true); (false, true); (false, true);
                 (false, false); (false, false); (false, false); (false, false)] ->
  raises mild (unstake_process C E accs l a i).
Proof.
  intros ((m0 & N0 & S0 & W0) & (m1 & N1 & _ & W1) & (m2 & N2 & _ & W2) & (m3 & N3 & _ & W3) &
    (m4 & N4 & _ & W4) & (m5 & N5 & _) & (m6 & N6 & _) & (m7 & N7 & _) & (m8 & N8 & _) & _).
  unfold unstake_process, get_account_info, create_pending_account, create_account_secure.
  rewrite N0, N1, N2, N3, N4, N5, N6, N7, N8. cbn [bind].
  stroll.
  - unfold cpi_token_burn. apply invoke_mild; [|intros; apply token_burn_raises]. lend.
  - fork; [exact I|]. fork.
    + unfold cpi_system_create. apply invoke_mild; [|intros; apply sys_create_raises]. lend.
      intros _. right. eapply pda_signs_found; [reflexivity|eassumption..].
    + stroll.
      * fork; [|exact I].
        unfold cpi_system_transfer. apply invoke_mild; [|intros; apply sys_transfer_raises]. lend.
      * unfold cpi_system_allocate. apply invoke_mild; [|intros; apply sys_allocate_raises]. lend.
        intros _. right. eapply pda_signs_found; [reflexivity|eassumption..].
      * unfold cpi_system_assign. apply invoke_mild; [|intros; apply sys_assign_raises]. lend.
        intros _. right. eapply pda_signs_found; [reflexivity|eassumption..].
Qed.

Lemma withdraw_mild C E accs l i :
  shaped accs 0 [(true, true); (false, true); (false, true); (false, true); (false, true);
                 (false, false); (false, false); (false, false)] ->
  raises mild (withdraw_process C E accs l i).
Proof.
  intros ((m0 & N0 & S0 & W0) & (m1 & N1 & _ & W1) & (m2 & N2 & _ & W2) & (m3 & N3 & _ & W3) &
    (m4 & N4 & _ & W4) & (m5 & N5 & _) & (m6 & N6 & _) & (m7 & N7 & _) & _).
  unfold withdraw_process, get_account_info. rewrite N0, N1, N2, N3, N4, N5, N6, N7. cbn [bind].
  stroll.
  unfold cpi_token_transfer. apply invoke_mild; [|intros; apply token_transfer_raises]. lend.
  intros _. right. match goal with H : verify_state_address _ m1 _ = Ok _ |- _ => apply verify_state_ok in H end.
  eapply pda_signs; eassumption.
Qed.

Lemma initialize_mild C E accs l c :
  shaped accs 0 [(true, true); (true, true); (false, true); (false, true); (false, false);
                 (false, false); (false, false); (false, false); (false, false)] ->
  raises mild (initialize_process C E accs l c).
Proof.
  intros ((m0 & N0 & S0 & W0) & (m1 & N1 & S1 & W1) & (m2 & N2 & _ & W2) & (m3 & N3 & _ & W3) &
    (m4 & N4 & _) & (m5 & N5 & _) & (m6 & N6 & _) & (m7 & N7 & _) & (m8 & N8 & _) & _).
  unfold initialize_process, get_account_info, create_state_account, create_account_secure.
  rewrite N0, N1, N2, N3, N4, N5, N6, N7, N8. cbn [bind].
  stroll.
  destruct (find_vault_address _ _ _ _) as [[vk vb]|]; [|left; exact I].
  stroll.
  - fork; [exact I|]. fork.
    + unfold cpi_system_create. apply invoke_mild; [|intros; apply sys_create_raises]. lend.
      intros _. right. eapply pda_signs_found; [reflexivity|eassumption..].
    + stroll.
      * fork; [|exact I].
        unfold cpi_system_transfer. apply invoke_mild; [|intros; apply sys_transfer_raises]. lend.
      * unfold cpi_system_allocate. apply invoke_mild; [|intros; apply sys_allocate_raises]. lend.
        intros _. right. eapply pda_signs_found; [reflexivity|eassumption..].
      * unfold cpi_system_assign. apply invoke_mild; [|intros; apply sys_assign_raises]. lend.
        intros _. right. eapply pda_signs_found; [reflexivity|eassumption..].
  - unfold cpi_ata_create. apply invoke_mild; [|intros; apply ata_create_raises]. lend.
Qed.

Lemma set_mild C accs l u :
  shaped accs 0 [(true, true); (false, true)] -> raises mild (set_process C accs l u).
Proof.
  intros ((m0 & N0 & S0 & W0) & (m1 & N1 & _ & W1) & _).
  unfold set_process, get_account_info. rewrite N0, N1. cbn [bind]. stroll. destruct u; stroll.
Qed.

(** ** Every client *)
Lemma sends_mild C b i accs E l :
  sends C b i -> delivered (b_accounts b) accs -> raises mild (handle C E accs l i).
Proof.
  intros H D. apply delivered_shape in D.
  destruct H; cbn [handle].
  1-5: cbn [b_accounts rust_stake rust_unstake rust_withdraw rust_initialize rust_set] in D;
       rewrite map_app in D; apply shaped_app in D; cbn in D.
  - now apply stake_mild.
  - now apply unstake_mild.
  - now apply withdraw_mild.
  - now apply initialize_mild.
  - now apply set_mild.
  - unfold js_stake in H. unbuild H. injection H as <-. now apply stake_mild.
  - unfold js_unstake in H. unbuild H. injection H as <-. now apply unstake_mild.
  - unfold js_withdraw in H. unbuild H. injection H as <-. now apply withdraw_mild.
  - unfold js_initialize in H. unbuild H. injection H as <-. now apply initialize_mild.
  - unfold js_set in H. unbuild H. injection H as <-. now apply set_mild.
  - unfold script_stake in H. unbuild H. injection H as <-. now apply stake_mild.
  - unfold script_unstake in H. unbuild H. injection H as <-. apply unstake_mild.
    destruct D as (A0 & A1 & A2 & A3 & A4 & A5 & (m & A6 & A7 & _) & A8). cbn.
    repeat split; try assumption; try apply A8. exists m. now repeat split.
  - unfold script_withdraw in H. unbuild H. injection H as <-. now apply withdraw_mild.
  - unfold script_initialize in H. destruct (negb _); [discriminate|]. unbuild H. injection H as <-.
    now apply initialize_mild.
  - unfold script_set_cooldown in H. unbuild H. injection E1 as <-. destruct (c <? 0); [discriminate|].
    unbuild H. injection H as <-. now apply set_mild.
  - unfold script_set_authority in H. unbuild H. injection H as <-. now apply set_mild.
Qed.

Theorem sent_not_refused C E b i accs l rest e :
  sends C b i -> delivered (b_accounts b) accs ->
  process_instruction C E (b_program b) accs l (b_data b ++ rest) = Err e ->
  e <> custom InvalidAccountRole /\ e <> custom NotEnoughAccountKeys /\
  e <> custom UnknownInstructionDiscriminator /\ e <> custom IncorrectProgramId /\
  e <> ERuntime RE_PrivilegeEscalation /\ e <> ERuntime RE_MissingAccount.
Proof.
  intros H D R. rewrite (sent_runs C E b i accs l rest H) in R.
  pose proof (sends_mild C b i accs E l H D) as M. rewrite R in M. now apply mild_roles.
Qed.

(** ** The documented account lists *)
Lemma delivered_fills sent accs rs : delivered sent accs -> fills sent rs -> fills accs rs.
Proof.
  intros D F n k s w H. destruct (F n k s w H) as (m & N & <- & Hs & Hw). clear F H.
  revert n N. induction D as [|x y sent accs (K & S & W) D IH]; intros [|n] N; cbn in N; try discriminate.
  - injection N as <-. exists y. cbn. repeat split; auto.
  - destruct (IH n N) as (m' & N' & R). exists m'. auto.
Qed.
Lemma fills_list ms rem : fills (ms ++ rem) (map (fun m => (m_key m, m_signer m, m_writable m)) ms).
Proof.
  induction ms as [|m ms IH]; intros [|n] k s w H; cbn in H; try discriminate.
  - injection H as <- <- <-. exists m. auto.
  - destruct (IH n k s w H) as (m' & R). exists m'. exact R.
Qed.

Theorem stake_accounts st vk so sx sk a rem b accs :
  b = rust_stake st vk so sx xorca_mint_id sk orca_mint_id token_id rem a \/
  js_stake st vk so sx xorca_mint_id sk orca_mint_id token_id a = Some b ->
  delivered (b_accounts b) accs -> fills accs (stake_roles st vk so sx sk).
Proof.
  intros H D. eapply delivered_fills; [exact D|]. destruct H as [->|H].
  - exact (fills_list [am st true; am vk false; am so false; am sx false; am xorca_mint_id false;
      am_readonly sk false; am_readonly orca_mint_id false; am_readonly token_id false] rem).
  - unfold js_stake in H. unbuild H. injection H as <-. cbn.
    apply (fills_list [Meta st true true; Meta vk false true; Meta so false true; Meta sx false true;
      Meta xorca_mint_id false true; Meta sk false false; Meta orca_mint_id false false; Meta token_id false false] []).
Qed.
Theorem unstake_accounts un sk k ux vk a i j rem b accs :
  b = rust_unstake un sk k ux xorca_mint_id orca_mint_id vk system_id token_id rem a i \/
  js_unstake un sk k ux xorca_mint_id orca_mint_id vk system_id token_id a j = Some b ->
  delivered (b_accounts b) accs -> fills accs (unstake_roles un sk k ux vk).
Proof.
  intros H D. eapply delivered_fills; [exact D|]. destruct H as [->|H].
  - exact (fills_list [am un true; am sk false; am k false; am ux false; am xorca_mint_id false;
      am_readonly orca_mint_id false; am_readonly vk false; am_readonly system_id false; am_readonly token_id false] rem).
  - unfold js_unstake in H. unbuild H. injection H as <-. cbn.
    apply (fills_list [Meta un true true; Meta sk false true; Meta k false true; Meta ux false true;
      Meta xorca_mint_id false true; Meta orca_mint_id false false; Meta vk false false;
      Meta system_id false false; Meta token_id false false] []).
Qed.
Theorem withdraw_accounts un sk k uo vk i j rem b accs :
  b = rust_withdraw un sk k uo vk orca_mint_id system_id token_id rem i \/
  js_withdraw un sk k uo vk orca_mint_id system_id token_id j = Some b ->
  delivered (b_accounts b) accs -> fills accs (withdraw_roles un sk k uo vk).
Proof.
  intros H D. eapply delivered_fills; [exact D|]. destruct H as [->|H].
  - exact (fills_list [am un true; am sk false; am k false; am uo false; am vk false;
      am_readonly orca_mint_id false; am_readonly system_id false; am_readonly token_id false] rem).
  - unfold js_withdraw in H. unbuild H. injection H as <-. cbn.
    apply (fills_list [Meta un true true; Meta sk false true; Meta k false true; Meta uo false true;
      Meta vk false true; Meta orca_mint_id false false; Meta system_id false false; Meta token_id false false] []).
Qed.
Theorem initialize_accounts payer auth sk vk c rem b accs :
  b = rust_initialize payer auth sk vk xorca_mint_id orca_mint_id system_id token_id ata_id rem c \/
  js_initialize payer auth sk vk xorca_mint_id orca_mint_id system_id token_id ata_id c = Some b ->
  delivered (b_accounts b) accs -> fills accs (init_roles payer auth sk vk).
Proof.
  intros H D. eapply delivered_fills; [exact D|]. destruct H as [->|H].
  - exact (fills_list [am payer true; am auth true; am sk false; am vk false; am_readonly xorca_mint_id false;
      am_readonly orca_mint_id false; am_readonly system_id false; am_readonly token_id false; am_readonly ata_id false] rem).
  - unfold js_initialize in H. unbuild H. injection H as <-. cbn.
    apply (fills_list [Meta payer true true; Meta auth true true; Meta sk false true; Meta vk false true;
      Meta xorca_mint_id false false; Meta orca_mint_id false false; Meta system_id false false;
      Meta token_id false false; Meta ata_id false false] []).
Qed.
Theorem set_accounts auth sk u rem b accs :
  b = rust_set auth sk rem u \/ js_set auth sk u = Some b ->
  delivered (b_accounts b) accs -> fills accs (set_roles auth sk).
Proof.
  intros H D. eapply delivered_fills; [exact D|]. destruct H as [->|H].
  - exact (fills_list [am auth true; am sk false] rem).
  - unfold js_set in H. unbuild H. injection H as <-. cbn.
    apply (fills_list [Meta auth true true; Meta sk false true] []).
Qed.
