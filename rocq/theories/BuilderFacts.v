(** The Rust builders, calls from other programs, and the JS parsers. *)
From Coq Require Import String.
From Verif Require Import BytesFacts LedgerFacts Program AssertFacts ToolSpec RaiseFacts EncodeFacts RoleFacts ScriptFacts SlotFacts HistoryFacts CodecFacts ParseFacts LifeFacts EventFacts.
Import List ListNotations.
Open Scope list_scope.
Open Scope Z_scope.

Ltac unset := repeat match goal with o : option _ |- _ => destruct o end; cbn.

(** ** Builders *)
Lemma stake_builder k0 k1 k2 k3 k4 k5 k6 k7 rem a b :
  rust_stake_builder k0 k1 k2 k3 k4 k5 k6 k7 rem a = Some b <->
  exists x0 x1 x2 x3 x4 x5 x6 x7 y,
    (k0, k1, k2, k3, k4, k5, k6, k7, a) =
    (Some x0, Some x1, Some x2, Some x3, Some x4, Some x5, Some x6, Some x7, Some y) /\
    b = rust_stake x0 x1 x2 x3 x4 x5 x6 x7 rem y.
Proof.
  split.
  - unset; try discriminate. intros [=<-]. repeat eexists.
  - intros (x0 & x1 & x2 & x3 & x4 & x5 & x6 & x7 & y & H & ->).
    injection H as -> -> -> -> -> -> -> -> ->. reflexivity.
Qed.
Lemma unstake_builder k0 k1 k2 k3 k4 k5 k6 k7 k8 rem a i b :
  rust_unstake_builder k0 k1 k2 k3 k4 k5 k6 k7 k8 rem a i = Some b <->
  exists x0 x1 x2 x3 x4 x5 x6 x7 x8 y z,
    (k0, k1, k2, k3, k4, k5, k6, k7, k8, a, i) =
    (Some x0, Some x1, Some x2, Some x3, Some x4, Some x5, Some x6, Some x7, Some x8, Some y, Some z) /\
    b = rust_unstake x0 x1 x2 x3 x4 x5 x6 x7 x8 rem y z.
Proof.
  split.
  - unset; try discriminate. intros [=<-]. repeat eexists.
  - intros (x0 & x1 & x2 & x3 & x4 & x5 & x6 & x7 & x8 & y & z & H & ->).
    injection H as -> -> -> -> -> -> -> -> -> -> ->. reflexivity.
Qed.
Lemma withdraw_builder k0 k1 k2 k3 k4 k5 k6 k7 rem a b :
  rust_withdraw_builder k0 k1 k2 k3 k4 k5 k6 k7 rem a = Some b <->
  exists x0 x1 x2 x3 x4 x5 x6 x7 y,
    (k0, k1, k2, k3, k4, k5, k6, k7, a) =
    (Some x0, Some x1, Some x2, Some x3, Some x4, Some x5, Some x6, Some x7, Some y) /\
    b = rust_withdraw x0 x1 x2 x3 x4 x5 x6 x7 rem y.
Proof.
  split.
  - unset; try discriminate. intros [=<-]. repeat eexists.
  - intros (x0 & x1 & x2 & x3 & x4 & x5 & x6 & x7 & y & H & ->).
    injection H as -> -> -> -> -> -> -> -> ->. reflexivity.
Qed.
Lemma initialize_builder k0 k1 k2 k3 k4 k5 k6 k7 k8 rem c b :
  rust_initialize_builder k0 k1 k2 k3 k4 k5 k6 k7 k8 rem c = Some b <->
  exists x0 x1 x2 x3 x4 x5 x6 x7 x8 y,
    (k0, k1, k2, k3, k4, k5, k6, k7, k8, c) =
    (Some x0, Some x1, Some x2, Some x3, Some x4, Some x5, Some x6, Some x7, Some x8, Some y) /\
    b = rust_initialize x0 x1 x2 x3 x4 x5 x6 x7 x8 rem y.
Proof.
  split.
  - unset; try discriminate. intros [=<-]. repeat eexists.
  - intros (x0 & x1 & x2 & x3 & x4 & x5 & x6 & x7 & x8 & y & H & ->).
    injection H as -> -> -> -> -> -> -> -> -> ->. reflexivity.
Qed.
Lemma set_builder k0 k1 rem u b :
  rust_set_builder k0 k1 rem u = Some b <->
  exists x0 x1 y, (k0, k1, u) = (Some x0, Some x1, Some y) /\ b = rust_set x0 x1 rem y.
Proof.
  split.
  - unset; try discriminate. intros [=<-]. repeat eexists.
  - intros (x0 & x1 & y & H & ->). injection H as -> -> ->. reflexivity.
Qed.

(** ** Calls from other programs *)
Lemma seeds_resolve C caller seeds pdas : seeds_of C caller seeds pdas -> seed_signers C caller seeds = Ok pdas.
Proof. induction 1 as [|s k seeds pdas H _ IH]; cbn; [reflexivity|]. now rewrite H, IH. Qed.

Lemma pass_allowed accounts pdas k s w : may_pass accounts pdas (k, s, w) -> meta_allowed accounts pdas (Meta k s w) = true.
Proof.
  intros (H1 & H2 & H3). unfold meta_allowed. cbn [m_key m_signer m_writable].
  replace (caller_has_key accounts k) with true by
    (symmetry; destruct H1 as (m & H & <-); apply existsb_exists; exists m; split; [exact H|apply key_eqb_refl]).
  cbn [andb]. apply andb_true_iff. split.
  - destruct s; [|reflexivity]. cbn [negb orb]. apply orb_true_iff. destruct (H2 eq_refl) as [H|(m & H & <- & S)]; [right|left].
    + apply existsb_exists. exists k. split; [exact H|apply key_eqb_refl].
    + apply existsb_exists. exists m. split; [exact H|]. now rewrite key_eqb_refl, S.
  - destruct w; [|reflexivity]. destruct (H3 eq_refl) as (m & H & <- & S).
    apply existsb_exists. exists m. split; [exact H|]. now rewrite key_eqb_refl, S.
Qed.
Lemma allowed_pass accounts pdas k s w : meta_allowed accounts pdas (Meta k s w) = true -> may_pass accounts pdas (k, s, w).
Proof.
  unfold meta_allowed. cbn [m_key m_signer m_writable]. intros H.
  apply andb_true_iff in H. destruct H as [H H3]. apply andb_true_iff in H. destruct H as [H1 H2].
  split; [|split].
  - apply existsb_exists in H1. destruct H1 as (m & Hm & K). apply key_eqb_true in K. eauto.
  - intros ->. cbn [negb orb] in H2. apply orb_true_iff in H2. destruct H2 as [H2|H2]; apply existsb_exists in H2.
    + destruct H2 as (m & Hm & K). apply andb_true_iff in K. destruct K as [K S]. apply key_eqb_true in K. eauto.
    + destruct H2 as (k' & Hk & K). apply key_eqb_true in K. subst k'. auto.
  - intros ->. cbn [negb orb] in H3. apply existsb_exists in H3.
    destruct H3 as (m & Hm & K). apply andb_true_iff in K. destruct K as [K S]. apply key_eqb_true in K. eauto.
Qed.

Lemma merged_delivered ms : delivered ms (merged ms).
Proof.
  unfold delivered, merged. enough (H : forall xs, incl xs ms -> Forall2 (fun m m' => m_key m' = m_key m /\
    (m_signer m = true -> m_signer m' = true) /\ (m_writable m = true -> m_writable m' = true)) xs
    (map (fun m => Meta (m_key m) (caller_signs ms (m_key m)) (caller_writes ms (m_key m))) xs)).
  { apply H, incl_refl. }
  induction xs as [|m xs IH]; intros Hi; constructor.
  - split; [reflexivity|]. cbn [m_signer m_writable].
    assert (Hm : In m ms) by (apply Hi; now left).
    split; intros S; apply existsb_exists; exists m; (split; [exact Hm|]); now rewrite key_eqb_refl, S.
  - apply IH. intros x Hx. apply Hi. now right.
Qed.

Lemma cpi_accepted C caller accounts seeds pdas b infos :
  seeds_of C caller seeds pdas -> In (b_program b) infos ->
  (forall k, In k infos -> exists m, In m accounts /\ m_key m = k) ->
  (forall m, In m (b_accounts b) -> In (m_key m) infos) ->
  (forall m, In m (b_accounts b) -> may_pass accounts pdas (m_key m, m_signer m, m_writable m)) ->
  runtime_cpi C caller accounts seeds (b, infos) = Ok (merged (b_accounts b)).
Proof.
  intros Hs Hp Hi Ha Hm. unfold runtime_cpi. rewrite (seeds_resolve _ _ _ _ Hs). cbn [bind].
  replace (forallb (caller_has_key accounts) infos) with true.
  2:{ symmetry. apply forallb_forall. intros k Hk. destruct (Hi k Hk) as (m & H & <-).
      apply existsb_exists. exists m. split; [exact H|apply key_eqb_refl]. }
  cbn [negb fail_if bind].
  replace (existsb (key_eqb (b_program b)) infos) with true.
  2:{ symmetry. apply existsb_exists. exists (b_program b). split; [exact Hp|apply key_eqb_refl]. }
  cbn [negb fail_if bind].
  replace (forallb (fun m => existsb (key_eqb (m_key m)) infos) (b_accounts b)) with true.
  2:{ symmetry. apply forallb_forall. intros m H. apply existsb_exists. exists (m_key m).
      split; [auto|apply key_eqb_refl]. }
  cbn [negb fail_if bind].
  replace (forallb (meta_allowed accounts pdas) (b_accounts b)) with true; [reflexivity|].
  symmetry. apply forallb_forall. intros m H. destruct m as [k s w]. apply pass_allowed. exact (Hm _ H).
Qed.

Lemma cpi_shape rem call i rs : rust_cpi rem call i rs ->
  b_program (fst call) = xorca_id /\
  b_accounts (fst call) = map (fun r => Meta (fst (fst r)) (snd (fst r)) (snd r)) rs ++ map extra_meta rem /\
  snd call = xorca_id :: map (fun r => fst (fst r)) rs ++ map extra_key rem /\
  forall C, exists b, sends C b i /\ b_data (fst call) = b_data b.
Proof.
  intros H. destruct H; (split; [reflexivity|split; [reflexivity|split; [reflexivity|intros C]]]).
  - eexists. split; [apply (RustStake C st vk so sx xorca_mint_id sk orca_mint_id token_id []); assumption|reflexivity].
  - eexists. split; [apply (RustUnstake C un sk k ux xorca_mint_id orca_mint_id vk system_id token_id []); assumption|reflexivity].
  - eexists. split; [apply (RustWithdraw C un sk k uo vk orca_mint_id system_id token_id []); assumption|reflexivity].
  - eexists. split; [apply (RustInitialize C payer auth sk vk xorca_mint_id orca_mint_id system_id token_id ata_id []); assumption|reflexivity].
  - eexists. split; [apply (RustSet C auth sk []); assumption|reflexivity].
Qed.

(** A program with the privileges can call; the callee gets the documented list. *)
Theorem cpi_works C caller accounts seeds pdas rem call i rs :
  rust_cpi rem call i rs -> seeds_of C caller seeds pdas ->
  (exists m, In m accounts /\ m_key m = xorca_id) ->
  Forall (may_pass accounts pdas) rs -> Forall (may_pass accounts pdas) rem ->
  exists accs, runtime_cpi C caller accounts seeds call = Ok accs /\
    fills accs rs /\ encodes (b_data (fst call)) i.
Proof.
  intros H Hs Hx Hr He. destruct (cpi_shape _ _ _ _ H) as (S1 & S2 & S3 & S4).
  destruct call as [b infos]. cbn [fst snd] in *. exists (merged (b_accounts b)). split; [|split].
  - apply (cpi_accepted _ _ _ _ pdas); [exact Hs| | | |].
    + rewrite S1, S3. now left.
    + rewrite S3. intros k [<-|Hk]; [exact Hx|]. apply in_app_or in Hk. destruct Hk as [Hk|Hk];
        apply in_map_iff in Hk; destruct Hk as ([[k' s] w] & <- & Hk).
      * rewrite Forall_forall in Hr. exact (proj1 (Hr _ Hk)).
      * rewrite Forall_forall in He. exact (proj1 (He _ Hk)).
    + rewrite S2, S3. intros m Hm. right. apply in_or_app. apply in_app_or in Hm. destruct Hm as [Hm|Hm];
        apply in_map_iff in Hm; destruct Hm as ([[k' s] w] & <- & Hm); [left|right].
      * apply in_map_iff. exists (k', s, w). auto.
      * apply in_map_iff. exists (k', s, w). auto.
    + rewrite S2. intros m Hm. apply in_app_or in Hm. destruct Hm as [Hm|Hm];
        apply in_map_iff in Hm; destruct Hm as ([[k' s] w] & <- & Hm).
      * rewrite Forall_forall in Hr. exact (Hr _ Hm).
      * rewrite Forall_forall in He. exact (He _ Hm).
  - apply (delivered_fills (b_accounts b)); [apply merged_delivered|]. rewrite S2.
    set (ms := map (fun r => Meta (fst (fst r)) (snd (fst r)) (snd r)) rs).
    assert (E : rs = map (fun m => (m_key m, m_signer m, m_writable m)) ms).
    { unfold ms. rewrite map_map. cbn. rewrite <- (map_id rs) at 1. apply map_ext. now intros [[k s] w]. }
    rewrite E. apply fills_list.
  - destruct (S4 C) as (b' & Hb & ->). exact (sends_encodes _ _ _ Hb).
Qed.

(** The runtime refuses a call that needs a privilege the caller does not have. *)
Theorem cpi_refuses C caller accounts seeds pdas rem call i rs :
  rust_cpi rem call i rs -> seeds_of C caller seeds pdas ->
  (exists r, In r (rs ++ rem) /\ ~ may_pass accounts pdas r) ->
  exists e, runtime_cpi C caller accounts seeds call = Err (ERuntime e).
Proof.
  intros H Hs (r & Hr & Hn). destruct (cpi_shape _ _ _ _ H) as (S1 & S2 & S3 & S4).
  destruct call as [b infos]. cbn [fst snd] in *. unfold runtime_cpi. rewrite (seeds_resolve _ _ _ _ Hs). cbn [bind].
  unfold fail_if. repeat (match goal with |- context [if ?x then _ else _] => destruct x eqn:?; cbn [bind]; [eauto|] end).
  exfalso. apply Hn. destruct r as [[k s] w]. apply allowed_pass.
  match goal with Q : negb (forallb (meta_allowed _ _) _) = false |- _ =>
    apply negb_false_iff in Q; rewrite forallb_forall in Q; apply Q end.
  rewrite S2. apply in_or_app. apply in_app_or in Hr. destruct Hr as [Hr|Hr]; [left|right].
  - apply in_map_iff. exists (k, s, w). auto.
  - apply in_map_iff. exists (k, s, w). auto.
Qed.

(** ** CpiBuilder *)
Lemma cpi_builder_plain added o i rs : rust_cpi_builder added o i rs ->
  exists call, o = Some call /\ rust_cpi added call i rs.
Proof.
  intros H. assert (E : map add_remaining_account added = added).
  { rewrite <- (map_id added) at 2. apply map_ext. now intros [[k s] w]. }
  destruct H; cbn; rewrite E; eexists; (split; [reflexivity|]); now constructor.
Qed.
(** The accounts of such a call: an added account gets the flags the wrong way round. *)
Theorem cpi_builder_accounts added o i rs : rust_cpi_builder added o i rs ->
  exists call, o = Some call /\
    b_accounts (fst call) =
      map (fun r => let '(k, s, w) := r in Meta k s w) rs ++
      map (fun x => let '(account, is_writable, is_signer) := x in Meta account is_writable is_signer) added.
Proof.
  intros H. destruct (cpi_builder_plain _ _ _ _ H) as (call & -> & H1). exists call. split; [reflexivity|].
  destruct (cpi_shape _ _ _ _ H1) as (_ & -> & _). f_equal; apply map_ext; now intros [[k s] w].
Qed.
Theorem cpi_builder_works C caller accounts seeds pdas added o i rs :
  rust_cpi_builder added o i rs -> seeds_of C caller seeds pdas ->
  (exists m, In m accounts /\ m_key m = xorca_id) ->
  Forall (may_pass accounts pdas) rs ->
  Forall (fun x => may_pass accounts pdas x /\ snd (fst x) = snd x) added ->
  exists call accs, o = Some call /\ runtime_cpi C caller accounts seeds call = Ok accs /\
    fills accs rs /\ encodes (b_data (fst call)) i.
Proof.
  intros H Hs Hx Hr Ha. destruct (cpi_builder_plain _ _ _ _ H) as (call & -> & H1).
  destruct (cpi_works C caller accounts seeds pdas _ _ _ _ H1 Hs Hx Hr) as (accs & R).
  { eapply Forall_impl; [|exact Ha]. now intros x [Hm _]. }
  exists call, accs. now split.
Qed.

(** ** JS parsers *)
Lemma identify_encoded data i : encodes data i -> js_identify_instruction data = Some (fst (instruction_fields i)).
Proof. intros (O & rest & ->). destruct i as [a|x i|i|c|[c|k]]; reflexivity. Qed.

Lemma parse_encoded p accs data i : encodes data i ->
  js_parse (Built p accs data) =
  (if (length accs <? js_account_count (fst (instruction_fields i)))%nat then None
   else Some (JsParsed p (combine (js_account_names (fst (instruction_fields i))) accs)
                (fst (instruction_fields i)) (snd (instruction_fields i)))).
Proof.
  intros H. unfold js_parse. cbn [b_data b_accounts b_program]. rewrite (identify_encoded _ _ H). cbn [obind].
  destruct (length accs <? _)%nat; [reflexivity|]. rewrite js_reads_instructions.
  destruct H as (O & rest & ->). rewrite (proj2 (decode_instruction _ i)) by eauto. reflexivity.
Qed.

Lemma find_combine {A} (names : list string) (xs : list A) n nm x :
  NoDup names -> nth_error names n = Some nm -> nth_error xs n = Some x ->
  option_map snd (find (fun y => String.eqb (fst y) nm) (combine names xs)) = Some x.
Proof.
  revert xs n. induction names as [|a names IH]; intros xs n Hn H1 H2; [destruct n; discriminate|].
  destruct xs as [|y xs]; [destruct n; discriminate|]. inversion Hn as [|? ? Ha Hn']; subst. destruct n; cbn in H1, H2.
  - injection H1 as ->. injection H2 as ->. cbn. now rewrite String.eqb_refl.
  - cbn [combine find fst]. destruct (String.eqb a nm) eqn:Q.
    + apply String.eqb_eq in Q. subst a. apply nth_error_In in H1. contradiction.
    + exact (IH xs n Hn' H1 H2).
Qed.
Lemma names_distinct t : NoDup (js_account_names t).
Proof.
  unfold js_account_names.
  repeat match goal with |- context [if ?x then _ else _] => destruct x end;
    repeat (apply NoDup_cons; [cbn; intuition discriminate|]); apply NoDup_nil.
Qed.

Lemma parse_names p accs data i rs : encodes data i -> fills accs rs ->
  (js_account_count (fst (instruction_fields i)) <= length rs)%nat ->
  exists q, js_parse (Built p accs data) = Some q /\ jp_program q = p /\
    (jp_tag q, jp_fields q) = instruction_fields i /\
    forall n nm k s w, nth_error (js_account_names (fst (instruction_fields i))) n = Some nm ->
      nth_error rs n = Some (k, s, w) -> named q nm k.
Proof.
  intros He Hf Hl. rewrite (parse_encoded _ _ _ _ He).
  assert (L : (length rs <= length accs)%nat).
  { destruct (length rs) as [|n] eqn:E; [lia|].
    destruct (nth_error rs n) as [[[k s] w]|] eqn:Q.
    - destruct (Hf _ _ _ _ Q) as (m & Hm & _). assert (nth_error accs n <> None) by congruence.
      apply nth_error_Some in H. lia.
    - apply nth_error_None in Q. lia. }
  destruct (Nat.ltb_spec (length accs) (js_account_count (fst (instruction_fields i)))) as [Q|_]; [lia|].
  eexists. split; [reflexivity|]. split; [reflexivity|]. split; [now destruct (instruction_fields i)|].
  intros n nm k s w H1 H2. destruct (Hf _ _ _ _ H2) as (m & Hm & Hk & _). exists m. split; [|exact Hk].
  unfold js_named. cbn [jp_accounts]. exact (find_combine _ _ _ _ _ (names_distinct _) H1 Hm).
Qed.

Theorem stake_named p accs data a st vk so sx sk :
  encodes data (Stake a) -> fills accs (stake_roles st vk so sx sk) ->
  exists q, js_parse (Built p accs data) = Some q /\ jp_program q = p /\ jp_tag q = 0 /\
    jp_fields q = [VInt a] /\
    named q "stakerAccount" st /\ named q "vaultAccount" vk /\ named q "stakerOrcaAta" so /\ named q
    "stakerXorcaAta" sx /\ named q "xorcaMintAccount" xorca_mint_id /\ named q "stateAccount" sk /\ named
    q "orcaMintAccount" orca_mint_id /\ named q "tokenProgramAccount" token_id.
Proof.
  intros He Hf. destruct (parse_names p _ _ _ _ He Hf) as (q & Q1 & Q2 & Q3 & Q4); [cbn; lia|].
  exists q. injection Q3 as T F; (do 4 (split; [assumption|]);
  split; [eapply (Q4 0%nat); reflexivity|]; split; [eapply (Q4 1%nat); reflexivity|]; split; [eapply (Q4 2%nat); reflexivity|]; split; [eapply (Q4 3%nat); reflexivity|]; split; [eapply (Q4 4%nat); reflexivity|]; split; [eapply (Q4 5%nat); reflexivity|]; split; [eapply (Q4 6%nat); reflexivity|]; eapply (Q4 7%nat); reflexivity).
Qed.
Theorem unstake_named p accs data x i un sk k ux vk :
  encodes data (Unstake x i) -> fills accs (unstake_roles un sk k ux vk) ->
  exists q, js_parse (Built p accs data) = Some q /\ jp_program q = p /\ jp_tag q = 1 /\
    jp_fields q = [VInt x; VInt i] /\
    named q "unstakerAccount" un /\ named q "stateAccount" sk /\ named q "pendingWithdrawAccount" k /\
    named q "unstakerXorcaAta" ux /\ named q "xorcaMintAccount" xorca_mint_id /\ named q
    "orcaMintAccount" orca_mint_id /\ named q "vaultAccount" vk /\ named q "systemProgramAccount"
    system_id /\ named q "tokenProgramAccount" token_id.
Proof.
  intros He Hf. destruct (parse_names p _ _ _ _ He Hf) as (q & Q1 & Q2 & Q3 & Q4); [cbn; lia|].
  exists q. injection Q3 as T F; (do 4 (split; [assumption|]);
  split; [eapply (Q4 0%nat); reflexivity|]; split; [eapply (Q4 1%nat); reflexivity|]; split; [eapply (Q4 2%nat); reflexivity|]; split; [eapply (Q4 3%nat); reflexivity|]; split; [eapply (Q4 4%nat); reflexivity|]; split; [eapply (Q4 5%nat); reflexivity|]; split; [eapply (Q4 6%nat); reflexivity|]; split; [eapply (Q4 7%nat); reflexivity|]; eapply (Q4 8%nat); reflexivity).
Qed.
Theorem withdraw_named p accs data i un sk k uo vk :
  encodes data (Withdraw i) -> fills accs (withdraw_roles un sk k uo vk) ->
  exists q, js_parse (Built p accs data) = Some q /\ jp_program q = p /\ jp_tag q = 2 /\
    jp_fields q = [VInt i] /\
    named q "unstakerAccount" un /\ named q "stateAccount" sk /\ named q "pendingWithdrawAccount" k /\
    named q "unstakerOrcaAta" uo /\ named q "vaultAccount" vk /\ named q "orcaMintAccount" orca_mint_id
    /\ named q "systemProgramAccount" system_id /\ named q "tokenProgramAccount" token_id.
Proof.
  intros He Hf. destruct (parse_names p _ _ _ _ He Hf) as (q & Q1 & Q2 & Q3 & Q4); [cbn; lia|].
  exists q. injection Q3 as T F; (do 4 (split; [assumption|]);
  split; [eapply (Q4 0%nat); reflexivity|]; split; [eapply (Q4 1%nat); reflexivity|]; split; [eapply (Q4 2%nat); reflexivity|]; split; [eapply (Q4 3%nat); reflexivity|]; split; [eapply (Q4 4%nat); reflexivity|]; split; [eapply (Q4 5%nat); reflexivity|]; split; [eapply (Q4 6%nat); reflexivity|]; eapply (Q4 7%nat); reflexivity).
Qed.
Theorem initialize_named p accs data c payer auth sk vk :
  encodes data (Initialize c) -> fills accs (init_roles payer auth sk vk) ->
  exists q, js_parse (Built p accs data) = Some q /\ jp_program q = p /\ jp_tag q = 3 /\
    jp_fields q = [VInt c] /\
    named q "payerAccount" payer /\ named q "updateAuthorityAccount" auth /\ named q "stateAccount" sk /\
    named q "vaultAccount" vk /\ named q "xorcaMintAccount" xorca_mint_id /\ named q "orcaMintAccount"
    orca_mint_id /\ named q "systemProgramAccount" system_id /\ named q "tokenProgramAccount" token_id /\
    named q "associatedTokenProgramAccount" ata_id.
Proof.
  intros He Hf. destruct (parse_names p _ _ _ _ He Hf) as (q & Q1 & Q2 & Q3 & Q4); [cbn; lia|].
  exists q. injection Q3 as T F; (do 4 (split; [assumption|]);
  split; [eapply (Q4 0%nat); reflexivity|]; split; [eapply (Q4 1%nat); reflexivity|]; split; [eapply (Q4 2%nat); reflexivity|]; split; [eapply (Q4 3%nat); reflexivity|]; split; [eapply (Q4 4%nat); reflexivity|]; split; [eapply (Q4 5%nat); reflexivity|]; split; [eapply (Q4 6%nat); reflexivity|]; split; [eapply (Q4 7%nat); reflexivity|]; eapply (Q4 8%nat); reflexivity).
Qed.
Theorem set_named p accs data u auth sk :
  encodes data (Set_ u) -> fills accs (set_roles auth sk) ->
  exists q, js_parse (Built p accs data) = Some q /\ jp_program q = p /\ jp_tag q = 4 /\
    jp_fields q = match u with UpdateCoolDownPeriod c => [VInt 0; VInt c] | UpdateUpdateAuthority k => [VInt 1; VKey k] end /\
    named q "updateAuthorityAccount" auth /\ named q "stateAccount" sk.
Proof.
  intros He Hf. destruct (parse_names p _ _ _ _ He Hf) as (q & Q1 & Q2 & Q3 & Q4); [destruct u; cbn; lia|].
  exists q. destruct u; injection Q3 as T F; (do 4 (split; [assumption|]);
  split; [eapply (Q4 0%nat); reflexivity|]; eapply (Q4 1%nat); reflexivity).
Qed.

(** Parsing throws exactly on undecodable data or too few accounts ... *)
Theorem parse_throws p accs data :
  js_parse (Built p accs data) = None <->
  (forall i, ~ encodes data i) \/
  exists i, encodes data i /\
    (length accs < match i with Stake _ => 8 | Unstake _ _ => 9 | Withdraw _ => 8 | Initialize _ => 9 | Set_ _ => 2 end)%nat.
Proof.
  split.
  - intros H. destruct (deserialize read_instruction data) as [i|] eqn:Q.
    + right. apply decode_instruction in Q. destruct Q as (rest & -> & O). exists i.
      assert (He : encodes (instruction_bytes i ++ rest) i) by (split; eauto). split; [exact He|].
      rewrite (parse_encoded _ _ _ _ He) in H.
      destruct (Nat.ltb_spec (length accs) (js_account_count (fst (instruction_fields i)))) as [L|L]; [|discriminate].
      destruct i as [a|x i|i|c|[c|k]]; exact L.
    + left. intros i (O & rest & ->). rewrite (proj2 (decode_instruction _ i)) in Q by eauto. discriminate.
  - intros [H|(i & He & L)].
    + unfold js_parse. cbn [b_data b_accounts b_program]. destruct (js_identify_instruction data) as [t|]; [|reflexivity].
      cbn [obind]. destruct (length accs <? js_account_count t)%nat; [reflexivity|].
      rewrite js_reads_instructions. destruct (deserialize read_instruction data) as [i|] eqn:Q; [|reflexivity].
      apply decode_instruction in Q. destruct Q as (rest & -> & O). destruct (H i). split; eauto.
    + rewrite (parse_encoded _ _ _ _ He).
      replace (length accs <? js_account_count (fst (instruction_fields i)))%nat with true; [reflexivity|].
      symmetry. apply Nat.ltb_lt. destruct i as [a|x i|i|c|[c|k]]; exact L.
Qed.
(** ... and never on an instruction the program accepted. *)
Lemma fills_len accs rs : fills accs rs -> (length rs <= length accs)%nat.
Proof.
  intros Hf. destruct (length rs) as [|n] eqn:E; [lia|].
  destruct (nth_error rs n) as [[[k s] w]|] eqn:Q.
  - destruct (Hf _ _ _ _ Q) as (m & Hm & _). assert (H : nth_error accs n <> None) by congruence.
    apply nth_error_Some in H. lia.
  - apply nth_error_None in Q. lia.
Qed.
Theorem accepted_parses C l o i accs t : op_ok C l o -> performs C l o i accs t ->
  exists E data q, o = OpCall E accs data /\ js_parse (Built xorca_id accs data) = Some q /\
    (jp_tag q, jp_fields q) = instruction_fields i.
Proof.
  intros Ho Hp. destruct (performs_run _ _ _ _ _ _ Hp) as (E & data & l' & evs & -> & Et & He & Hrun & _).
  destruct Ho as [HE Hh]. exists E, data.
  assert (G : exists rs, fills accs rs /\ (js_account_count (fst (instruction_fields i)) <= length rs)%nat).
  { destruct i as [a|x i|i|c|u].
    - destruct (stake_slots _ _ _ _ _ _ _ _ Hh He Hrun) as (st & v & so & sx & s & F & _). eexists. split; [exact F|cbn; lia].
    - destruct (unstake_slots _ _ _ _ _ _ _ _ _ HE Hh He Hrun) as (un & s & k & ux & v & F & _). eexists. split; [exact F|cbn; lia].
    - destruct (withdraw_slots _ _ _ _ _ _ _ _ Hh He Hrun) as (un & s & k & uo & v & F & _). eexists. split; [exact F|cbn; lia].
    - destruct (init_slots _ _ _ _ _ _ _ _ HE Hh He Hrun) as (au & s & v & sb & vb & F & _). eexists. split; [exact F|cbn; lia].
    - destruct (set_slots _ _ _ _ _ _ _ _ He Hrun) as (s & F & _). eexists. split; [exact F|destruct u; cbn; lia]. }
  destruct G as (rs & F & L). destruct (parse_names xorca_id _ _ _ _ He F L) as (q & Q1 & _ & Q3 & _).
  exists q. auto.
Qed.

(** In executions the names "stateAccount" and "vaultAccount" mean the State account
    and its vault. *)
Theorem accepted_names C l o i accs t sk vk :
  ordinary_state_address C -> reaches C l -> is_state l sk -> is_vault C sk vk -> op_ok C l o ->
  performs C l o i accs t ->
  exists E data q, o = OpCall E accs data /\ js_parse (Built xorca_id accs data) = Some q /\
    (jp_tag q, jp_fields q) = instruction_fields i /\ named q "stateAccount" sk /\
    ((exists u, i = Set_ u) \/ named q "vaultAccount" vk).
Proof.
  intros Hord Hr Hs Hv Ho Hp. pose proof (call_slots _ _ _ _ _ _ _ _ Hord Hr Hs Hv Ho Hp) as Sl.
  destruct (performs_run _ _ _ _ _ _ Hp) as (E & data & l' & evs & -> & Et & He & Hrun & _).
  destruct Ho as [HE Hh]. exists E, data.
  assert (U : forall n k k', slot accs n k -> slot accs n k' -> k = k').
  { intros n k k' (m & M1 & <-) (m' & M2 & <-). congruence. }
  assert (S1 : forall rs n k s w, fills accs rs -> nth_error rs n = Some (k, s, w) -> slot accs n k) by (intros; eapply fills_slot; eassumption).
  destruct i as [a|x i|i|c|u]; [| | |contradiction|].
  - destruct Sl as [A B]. destruct (stake_slots _ _ _ _ _ _ _ _ Hh He Hrun) as (st & v & so & sx & s & F & _).
    rewrite (U 1%nat _ _ A (S1 _ 1%nat _ _ _ F eq_refl)), (U 5%nat _ _ B (S1 _ 5%nat _ _ _ F eq_refl)).
    destruct (stake_named xorca_id _ _ _ _ _ _ _ _ He F) as (q & Q & _ & T & D & _ & N1 & _ & _ & _ & N2 & _).
    exists q. rewrite T, D. auto 6.
  - destruct Sl as [B A]. destruct (unstake_slots _ _ _ _ _ _ _ _ _ HE Hh He Hrun) as (un & s & k & ux & v & F & _).
    rewrite (U 6%nat _ _ A (S1 _ 6%nat _ _ _ F eq_refl)), (U 1%nat _ _ B (S1 _ 1%nat _ _ _ F eq_refl)).
    destruct (unstake_named xorca_id _ _ _ _ _ _ _ _ _ He F) as (q & Q & _ & T & D & _ & N2 & _ & _ & _ & _ & N1 & _).
    exists q. rewrite T, D. auto 6.
  - destruct Sl as [B A]. destruct (withdraw_slots _ _ _ _ _ _ _ _ Hh He Hrun) as (un & s & k & uo & v & F & _).
    rewrite (U 4%nat _ _ A (S1 _ 4%nat _ _ _ F eq_refl)), (U 1%nat _ _ B (S1 _ 1%nat _ _ _ F eq_refl)).
    destruct (withdraw_named xorca_id _ _ _ _ _ _ _ _ He F) as (q & Q & _ & T & D & _ & N2 & _ & _ & N1 & _).
    exists q. rewrite T, D. auto 6.
  - destruct (set_slots _ _ _ _ _ _ _ _ He Hrun) as (s & F & _).
    rewrite (U 1%nat _ _ Sl (S1 _ 1%nat _ _ _ F eq_refl)).
    destruct (set_named xorca_id _ _ _ _ _ He F) as (q & Q & _ & T & D & _ & N2).
    exists q. rewrite T, D. split; [reflexivity|]. split; [exact Q|]. split; [now destruct u|]. split; [exact N2|eauto].
Qed.
