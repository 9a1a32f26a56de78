(** Each error number the program returns tells the truth about the call (C63). *)
From Verif Require Import ErrorSpec BytesFacts LedgerFacts TokenFacts ParseFacts CpiFacts AssertFacts MathFacts
  ClientSpec RaiseFacts FailFacts StakeFacts UnstakeFacts LayoutFacts HistoryFacts.

Definition because (P : error_code -> Prop) (e : err) : Prop := forall c, e = custom c -> P c.

Lemma because_custom (P : error_code -> Prop) c : P c -> because P (custom c).
Proof. intros H d Q. unfold custom in Q. injection Q as Q. apply code_inj in Q. now subst d. Qed.
Lemma because_foreign P e : foreign e -> because P e.
Proof. intros H c ->. destruct H. Qed.
Lemma because_runtime P r : because P (ERuntime r).
Proof. intros c [=]. Qed.
Lemma ne_because {A} P (r : res err A) : (forall c, r <> Err (ECustom c)) -> raises (because P) r.
Proof. destruct r; cbn; auto. intros H c ->. now destruct (H (code c)). Qed.

(** ** One lemma per check *)
Lemma get_why (P : error_code -> Prop) (accs : list meta) n :
  ((length accs <= n)%nat -> P NotEnoughAccountKeys) -> raises (because P) (get_account_info accs n).
Proof.
  intros H. unfold get_account_info. destruct (nth_error accs n) eqn:Q; cbn; [exact I|].
  apply because_custom, H. now apply nth_error_None.
Qed.
Lemma fail_if_why (P : error_code -> Prop) b c : (b = true -> P c) -> raises (because P) (fail_if b (custom c)).
Proof. destruct b; cbn; auto. intros H. now apply because_custom, H. Qed.
Lemma role_sw_why (P : error_code -> Prop) m :
  (m_signer m = false \/ m_writable m = false -> P InvalidAccountRole) ->
  raises (because P) (assert_account_role m [Signer; Writable]).
Proof.
  intros H. cbn [assert_account_role]. apply raises_bind; [apply fail_if_why|intros _ _; apply raises_bind; [apply fail_if_why|]];
    rewrite ?negb_true_iff; auto. intros; exact I.
Qed.
Lemma role_w_why (P : error_code -> Prop) m :
  (m_writable m = false -> P InvalidAccountRole) -> raises (because P) (assert_account_role m [Writable]).
Proof. intros H. cbn [assert_account_role]. apply raises_bind; [apply fail_if_why; now rewrite negb_true_iff|]. intros; exact I. Qed.
Lemma key_differs a b : negb (key_eqb a b) = true -> a <> b.
Proof. rewrite negb_true_iff. apply key_eqb_false. Qed.
Lemma owner_why (P : error_code -> Prop) l m o :
  (a_owner (l (m_key m)) <> o -> P IncorrectOwner) -> raises (because P) (assert_account_owner l m o).
Proof. intros H. apply fail_if_why. intros Q. now apply H, key_differs. Qed.
Lemma address_why (P : error_code -> Prop) m a :
  (m_key m <> a -> P IncorrectAccountAddress) -> raises (because P) (assert_account_address m a).
Proof. intros H. apply fail_if_why. intros Q. now apply H, key_differs. Qed.
Lemma seeds_why (P : error_code -> Prop) C m pid seeds :
  ((forall b, find_program_address C seeds pid <> Some (m_key m, b)) -> P InvalidSeeds) ->
  raises (because P) (assert_account_seeds C m pid seeds).
Proof.
  intros H. unfold assert_account_seeds. destruct (find_program_address C seeds pid) as [[k b]|].
  - apply raises_bind; [|intros; exact I]. apply fail_if_why. intros Q. apply key_differs in Q. apply H. congruence.
  - cbn. now apply because_foreign.
Qed.
Lemma state_data_why (P : error_code -> Prop) l m :
  (~ state_bytes l (m_key m) -> P InvalidAccountData) -> raises (because P) (assert_state_data l m).
Proof.
  intros H. destruct (assert_state_data l m) eqn:Q; cbn; [exact I|].
  assert (Q' := Q). revert Q. unfold assert_state_data, assert_account_len, assert_account_discriminator.
  assert (N : ~ state_bytes l (m_key m)).
  { intros [H1 H2]. assert (X : assert_state_data l m = Ok (a_data (l (m_key m)))).
    { apply state_data_ok. split; [reflexivity|]. split; [unfold zlen; lia|exact H2]. }
    congruence. }
  unfold bind, fail_if. destruct (_ <? _); [intros [= <-]; apply because_custom; auto|].
  destruct (_ <? 1); [intros [= <-]; apply because_custom; auto|].
  destruct (negb _); [intros [= <-]; apply because_custom; auto|]. discriminate.
Qed.
Lemma pending_data_why (P : error_code -> Prop) l m :
  (~ record_bytes l (m_key m) -> P InvalidAccountData) -> raises (because P) (assert_pending_data l m).
Proof.
  intros H. destruct (assert_pending_data l m) eqn:Q; cbn; [exact I|].
  assert (Q' := Q). revert Q. unfold assert_pending_data, assert_account_len, assert_account_discriminator.
  assert (N : ~ record_bytes l (m_key m)).
  { intros [H1 H2]. assert (X : assert_pending_data l m = Ok (a_data (l (m_key m)))).
    { apply pending_data_ok. split; [reflexivity|]. split; [unfold zlen; lia|exact H2]. }
    congruence. }
  unfold bind, fail_if. destruct (_ <? _); [intros [= <-]; apply because_custom; auto|].
  destruct (_ <? 1); [intros [= <-]; apply because_custom; auto|].
  destruct (negb _); [intros [= <-]; apply because_custom; auto|]. discriminate.
Qed.
Lemma mint_data_why (P : error_code -> Prop) l m :
  (~ mint_bytes l (m_key m) -> P InvalidAccountData) -> raises (because P) (assert_mint_data l m).
Proof.
  intros H. destruct (assert_mint_data l m) eqn:Q; cbn; [exact I|].
  assert (N : ~ mint_bytes l (m_key m)).
  { intros [H1 H2]. assert (X : assert_mint_data l m = Ok (parse_mint (a_data (l (m_key m))))).
    { apply mint_data_ok. split; [reflexivity|]. split; [unfold zlen; lia|exact H2]. }
    congruence. }
  unfold assert_mint_data in Q. destruct (deserialize read_token_mint _) in Q; [|injection Q as <-; apply because_custom; auto].
  discriminate.
Qed.
Lemma owner_ta_why (P : error_code -> Prop) l ta owner mint (w : bool) :
  (w = true -> m_writable ta = false -> P InvalidAccountRole) ->
  (a_owner (l (m_key ta)) <> token_id -> P IncorrectOwner) ->
  (~ token_bytes l (m_key ta) (m_key mint) (m_key owner) -> P InvalidAccountData) ->
  raises (because P) (make_owner_token_account_assertions l ta owner mint w).
Proof.
  intros H1 H2 H3. unfold make_owner_token_account_assertions.
  apply raises_bind; [destruct w; [apply role_w_why; auto|exact I]|intros _ _].
  apply raises_bind; [now apply owner_why|intros u Ho]. apply owner_ok in Ho.
  apply raises_bind.
  { unfold assert_token_account_data. destruct (deserialize read_token_account _) eqn:Q; [exact I|]. cbn. apply because_custom, H3.
    intros (L & S & _). rewrite read_ta_spec in Q. unfold zlen in Q.
    destruct (_ && _) eqn:B in Q; [discriminate|]. apply andb_false_iff in B. destruct B as [B|B]; clean_bool; lia. }
  intros t Ht. apply ta_data_ok in Ht. destruct Ht as [-> _]. cbn [parse_ta tk_owner tk_mint].
  apply raises_bind; [apply fail_if_why; intros Q; apply key_differs in Q; apply H3; intros (_ & _ & M & O); congruence|intros _ _].
  apply raises_bind; [apply fail_if_why; intros Q; apply key_differs in Q; apply H3; intros (_ & _ & M & O); congruence|intros _ _].
  exact I.
Qed.
Lemma verify_state_why (P : error_code -> Prop) C m b :
  (m_key m <> state_address_with_bump C b -> P InvalidSeeds) -> raises (because P) (verify_state_address C m b).
Proof. intros H. apply fail_if_why. intros Q. now apply H, key_differs. Qed.
Lemma verify_vault_why (P : error_code -> Prop) C s v o b :
  (m_key v <> vault_address_with_bump C (m_key s) (m_key o) b -> P InvalidSeeds) ->
  raises (because P) (verify_vault_address C s v o b).
Proof. intros H. apply fail_if_why. intros Q. now apply H, key_differs. Qed.
Lemma verify_pending_why (P : error_code -> Prop) C m un i b :
  (m_key m <> pending_address_with_bump C un i b -> P InvalidSeeds) ->
  raises (because P) (verify_pending_address C m un i b).
Proof. intros H. apply fail_if_why. intros Q. now apply H, key_differs. Qed.
Lemma sub_why (P : error_code -> Prop) a b c : (a < b -> P c) -> raises (because P) (u64_checked_sub a b c).
Proof. intros H. unfold u64_checked_sub. destruct (Z.leb_spec b a); [exact I|]. now apply because_custom, H. Qed.
Lemma add_why (P : error_code -> Prop) a b c : (u64_max < a + b -> P c) -> raises (because P) (u64_checked_add a b c).
Proof. intros H. unfold u64_checked_add. destruct (Z.leb_spec (a + b) u64_max); [exact I|]. now apply because_custom, H. Qed.
Lemma addi_why (P : error_code -> Prop) a b c : (~ is_i64 (a + b) -> P c) -> raises (because P) (i64_checked_add a b c).
Proof.
  intros H. unfold i64_checked_add. destruct (_ && _) eqn:B; [exact I|]. apply because_custom, H.
  intros R. unfold is_i64 in R. unfold i64_min, i64_max in B. apply andb_false_iff in B. destruct B; clean_bool; lia.
Qed.
Lemma to_xorca_why (P : error_code -> Prop) a n s :
  is_u64 a -> is_u64 n -> is_u64 s ->
  (s <> 0 -> n <> 0 -> u128_max < a * (s + 100) \/ u64_max < a * (s + 100) / (n + 100) -> P ArithmeticError) ->
  raises (because P) (convert_orca_to_xorca a n s).
Proof.
  intros Ha Hn Hs H. destruct (Z.eq_dec s 0) as [->|S0]; [exact I|].
  destruct (Z.eq_dec n 0) as [->|N0]; [unfold convert_orca_to_xorca; rewrite orb_true_r; exact I|].
  rewrite orca_to_xorca_exact by assumption. destruct (_ && _) eqn:B; [exact I|].
  apply because_custom, H; auto. apply andb_false_iff in B. unfold mint_quote in B. destruct B; clean_bool; auto.
Qed.
Lemma to_orca_why (P : error_code -> Prop) x n s :
  is_u64 x -> is_u64 n -> is_u64 s ->
  (s = 0 \/ n = 0 \/ u128_max < x * (n + 100) \/ u64_max < x * (n + 100) / (s + 100) -> P ArithmeticError) ->
  raises (because P) (convert_xorca_to_orca x n s).
Proof.
  intros Ha Hn Hs H. destruct (Z.eq_dec s 0) as [->|S0]; [now apply because_custom, H; auto|].
  destruct (Z.eq_dec n 0) as [->|N0].
  { unfold convert_xorca_to_orca. rewrite orb_true_r. apply because_custom, H. auto. }
  rewrite xorca_to_orca_exact by assumption. destruct (_ && _) eqn:B; [exact I|].
  apply because_custom, H. apply andb_false_iff in B. unfold redeem_quote in B. destruct B; clean_bool; auto.
Qed.

Lemma foreign_ne {A} (r : res err A) z : raises foreign r -> r <> Err (ECustom z).
Proof. intros H ->. destruct H. Qed.
Lemma create_secure_ne C E accs l f n sp o ss z : create_account_secure C E accs l f n sp o ss <> Err (ECustom z).
Proof.
  unfold create_account_secure.
  noerr; unfold cpi_system_create, cpi_system_transfer, cpi_system_allocate, cpi_system_assign;
    apply invoke_ne; intros sg; apply foreign_ne;
    auto using sys_create_raises, sys_transfer_raises, sys_allocate_raises, sys_assign_raises.
Qed.

(** ** Callees leave the State account alone *)
Lemma invoke_some C accs seeds callee inner body l' :
  invoke_signed C accs seeds callee inner body = Ok l' -> exists sg, body sg = Ok l'.
Proof.
  unfold invoke_signed. intros H. inv_bind H pdas.
  repeat match type of H with
  | bind _ _ = Ok _ => let u := fresh in inv_bind H u
  | (if ?b then _ else _) = Ok _ => destruct b; [discriminate H || idtac|discriminate H || idtac]
  end; eauto.
Qed.
Lemma token_owned_ok l k u : token_owned l k = Ok u -> a_owner (l k) = token_id.
Proof. unfold token_owned. intros H. clean_bool. exact H. Qed.
Lemma burn_data C accs seeds l f m a n l' k :
  cpi_token_burn C accs seeds l f m a n = Ok l' -> a_owner (l k) <> token_id -> l' k = l k.
Proof.
  intros H N. apply invoke_some in H. destruct H as [sg H]. unfold token_burn in H.
  inv_bind H u1. inv_bind H u2. apply token_owned_ok in Hx, Hx0. inv_bind H u3. inv_bind H u4. inv_bind H u5.
  inv_bind H u6. inv_bind H u7. inv_bind H u8. inv_bind H sd. inv_bind H u9. injection H as <-.
  rewrite !set_data_other by congruence. reflexivity.
Qed.
Lemma transfer_data C accs seeds l f t a n l' k :
  cpi_token_transfer C accs seeds l f t a n = Ok l' -> a_owner (l k) <> token_id ->
  a_data (l' k) = a_data (l k).
Proof.
  intros H N. apply invoke_some in H. destruct H as [sg H]. unfold token_transfer in H.
  inv_bind H u1. inv_bind H u2. apply token_owned_ok in Hx, Hx0. inv_bind H u3. inv_bind H u4. inv_bind H u5.
  inv_bind H u6. inv_bind H u7. inv_bind H sd. destruct (key_eqb (m_key f) (m_key t)); [congruence|].
  inv_bind H u8. destruct (ta_is_native _).
  - inv_bind H u9. inv_bind H u10. injection H as <-. autorewrite with ledger.
    rewrite !set_data_other by congruence. reflexivity.
  - injection H as <-. rewrite !set_data_other by congruence. reflexivity.
Qed.
Lemma sys_transfer_data sg l f t n l' k : sys_transfer sg l f t n = Ok l' -> a_data (l' k) = a_data (l k).
Proof.
  unfold sys_transfer. intros H. inv_bind H u1. inv_bind H u2. inv_bind H u3. inv_bind H u4. inv_bind H u5.
  injection H as <-. now autorewrite with ledger.
Qed.
Lemma sys_allocate_data sg l j n l' k : sys_allocate sg l j n = Ok l' -> j <> k -> a_data (l' k) = a_data (l k).
Proof.
  unfold sys_allocate. intros H N. inv_bind H u1. inv_bind H u2. inv_bind H u3. injection H as <-.
  now rewrite set_data_other.
Qed.
Lemma sys_assign_data sg l j o l' k : sys_assign sg l j o = Ok l' -> a_data (l' k) = a_data (l k).
Proof.
  unfold sys_assign. intros H. destruct (key_eqb _ _); [congruence|]. inv_bind H u1. inv_bind H u2. inv_bind H u3.
  injection H as <-. now autorewrite with ledger.
Qed.
Lemma create_secure_data C E accs l f j sp o ss l' k :
  create_account_secure C E accs l f j sp o ss = Ok l' -> m_key j <> k -> a_data (l' k) = a_data (l k).
Proof.
  unfold create_account_secure. intros H N. destruct (negb _); [congruence|]. destruct (_ =? 0).
  - apply invoke_some in H. destruct H as [sg H]. unfold sys_create_account in H. inv_bind H u. inv_bind H l1. inv_bind H l2.
    apply (sys_transfer_data _ _ _ _ _ _ k) in H. apply (sys_assign_data _ _ _ _ _ k) in Hx1.
    apply (sys_allocate_data _ _ _ _ _ k) in Hx0; [congruence|exact N].
  - inv_bind H l1. inv_bind H l2.
    assert (Q : a_data (l1 k) = a_data (l k)).
    { destruct (_ <? _); [|congruence]. apply invoke_some in Hx. destruct Hx as [sg Hx]. now apply (sys_transfer_data _ _ _ _ _ _ k) in Hx. }
    apply invoke_some in Hx0. destruct Hx0 as [sg Hx0]. apply (sys_allocate_data _ _ _ _ _ k) in Hx0; [|exact N].
    apply invoke_some in H. destruct H as [sg' H]. apply (sys_assign_data _ _ _ _ _ k) in H. congruence.
Qed.
Lemma create_pending_data C E accs l f j ss l' k :
  create_pending_account C E accs l f j ss = Ok l' -> m_key j <> k -> a_data (l' k) = a_data (l k).
Proof.
  unfold create_pending_account. intros H N. inv_bind H l1. inv_bind H d. injection H as <-.
  rewrite set_data_other by exact N. eapply create_secure_data; eassumption.
Qed.
Lemma close_data l a r l' k : close_program_account l a r = Ok l' -> m_key a <> k -> a_data (l' k) = a_data (l k).
Proof.
  unfold close_program_account. intros H N. inv_bind H d. inv_bind H u1. inv_bind H u2. injection H as <-.
  autorewrite with ledger. rewrite set_data_other by exact N. autorewrite with ledger. now rewrite set_data_other by exact N.
Qed.

(** ** The five instructions *)
Lemma acct_of accs n m : nth_error accs n = Some m -> acct accs n = m_key m.
Proof. intros H. unfold acct. now rewrite H. Qed.

Ltac accounts :=
  repeat match goal with
  | K : acct ?accs ?n = _ |- context[acct ?accs ?n] => rewrite K
  end.
Ltac meant := cbn [blames]; unfold bad_data, bad_seeds, free_orca, balance, escrow, supply, authority, cooldown, rec_amount, rec_time; cbv zeta; accounts.
Ltac blame_role :=
  match goal with
  | Q : m_signer ?m = false \/ m_writable ?m = false, H : nth_error _ ?n = Some ?m |- _ =>
      exists n, (Rule true true None None), m; split; [reflexivity|split; [exact H|destruct Q; auto]]
  | Q : m_writable ?m = false, H : nth_error _ ?n = Some ?m |- _ =>
      exists n; eexists; exists m; split; [reflexivity|split; [exact H|right; split; [reflexivity|exact Q]]]
  end.
Ltac blame_owner :=
  match goal with
  | Q : a_owner (?l (m_key ?m)) <> ?o, H : acct _ ?n = m_key ?m |- _ =>
      exists n; eexists; exists o; split; [reflexivity|split; [reflexivity|rewrite H; exact Q]]
  end.
Ltac blame_address :=
  match goal with
  | Q : m_key ?m <> ?a, H : acct _ ?n = m_key ?m |- _ =>
      exists n; eexists; exists a; split; [reflexivity|split; [reflexivity|rewrite H; exact Q]]
  end.
Tactic Notation "have" ident(m) ident(H) ident(K) :=
  apply raises_bind; [apply get_why; cbn; lia|intros m H; apply get_account_ok in H; pose proof (acct_of _ _ _ H) as K].
Tactic Notation "role_sw_" := apply raises_bind; [apply role_sw_why; intros ?Q; cbn [blames]; blame_role|intros _ _].
Tactic Notation "role_w_" := apply raises_bind; [apply role_w_why; intros ?Q; cbn [blames]; blame_role|intros _ _].
Tactic Notation "owned_" ident(H) := apply raises_bind; [apply owner_why; intros ?Q; cbn [blames]; blame_owner|intros ? H; apply owner_ok in H].
Tactic Notation "at_" ident(H) := apply raises_bind; [apply address_why; intros ?Q; cbn [blames]; left; blame_address|intros ? H; apply address_ok in H].
Tactic Notation "ta_" ident(H) :=
  apply raises_bind; [apply owner_ta_why; [intros ? ?Q; try discriminate; cbn [blames]; blame_role|intros ?Q; cbn [blames]; blame_owner|intros ?Q; meant]
                     |intros ? H; apply owner_ta_ok in H; destruct H as (_ & H & ->)].

Lemma free_range l v s : escrow l s <= balance l v -> is_u64 (balance l v - escrow l s).
Proof. exact (non_escrowed_range l v s). Qed.
Lemma quotient_zero p q : 0 <= p -> 0 < q -> p / q = 0 -> p < q.
Proof. intros Hp Hq H. pose proof (floor_spec p q Hq). nia. Qed.
Lemma xorca_not_token (l : ledger) k : a_owner (l k) = xorca_id -> a_owner (l k) <> token_id.
Proof. exact (state_not_token l k). Qed.

Lemma stake_why C E accs l a :
  is_u64 a -> raises (because (blames C E accs l (Stake a))) (stake_process C accs l a).
Proof.
  intros Ha. unfold stake_process.
  have m0 H0 K0. have m1 H1 K1. have m2 H2 K2. have m3 H3 K3. have m4 H4 K4. have m5 H5 K5. have m6 H6 K6. have m7 H7 K7.
  role_sw_. at_ A6. at_ A4. at_ A7.
  ta_ T2. { left. now rewrite <- A6. }
  cbn [parse_ta tk_amount].
  apply raises_bind; [apply fail_if_why; intros Q; clean_bool; meant; exact Q|intros _ _].
  ta_ T3. { right. left. now rewrite <- A4. }
  role_w_. owned_ O4.
  apply raises_bind; [apply mint_data_why; intros Q; meant; do 2 right; left; now rewrite <- A4|].
  intros ? S4. apply mint_data_ok in S4. destruct S4 as [-> S4].
  owned_ O6. owned_ O5.
  apply raises_bind; [apply state_data_why; intros Q; meant; do 3 right; left; exact Q|].
  intros ? S5. apply state_data_ok in S5. destruct S5 as [-> S5].
  apply raises_bind; [apply verify_state_why; intros Q; meant; left; exact Q|intros _ _].
  apply raises_bind; [apply verify_vault_why; intros Q; meant; right; rewrite <- A6; exact Q|intros _ _].
  cbv zeta.
  ta_ T1. { do 4 right. now rewrite <- A6. }
  cbn [parse_ta parse_mint tk_amount tm_supply]. rewrite A4. fold (balance l (m_key m1)) (escrow l (m_key m5)) (supply l).
  apply raises_bind; [apply sub_why; intros Q; meant; exact Q|]. intros ? Q. apply checked_sub_ok in Q. destruct Q as [Q ->].
  pose proof (free_range _ _ _ Q) as R. assert (RS : is_u64 (supply l)) by apply get_u64_range.
  apply raises_bind.
  { apply to_xorca_why; [assumption..|]. intros N1 N2 B. meant. auto. }
  intros m Hm. apply raises_bind.
  { apply fail_if_why. intros Z. clean_bool. subst m. meant. fold (balance l (m_key m1)) (escrow l (m_key m5)) (supply l).
    apply orca_to_xorca_ok in Hm; [|assumption..]. destruct Hm as (_ & [[_ Hm]|(N1 & N2 & Hm)]); [now left|].
    right. split; [exact N1|]. split; [exact N2|]. unfold mint_quote in Hm.
    apply quotient_zero; [unfold is_u64 in *; nia|unfold is_u64 in *; lia|now symmetry]. }
  intros _ _.
  apply raises_bind; [apply ne_because; intros c; apply cpi_transfer_ne|intros l1 _].
  apply raises_bind; [apply ne_because; intros c; apply cpi_mint_ne|intros l2 _]. exact I.
Qed.

Lemma unstake_why C E accs l x j :
  is_u64 x -> raises (because (blames C E accs l (Unstake x j))) (unstake_process C E accs l x j).
Proof.
  intros Ha. unfold unstake_process.
  have m0 H0 K0. have m1 H1 K1. have m2 H2 K2. have m3 H3 K3. have m4 H4 K4. have m5 H5 K5. have m6 H6 K6. have m7 H7 K7.
  have m8 H8 K8.
  role_sw_. at_ A4. at_ A5. at_ A8. at_ A7. role_w_. owned_ O1.
  ta_ T6. { left. now rewrite <- A5. }
  role_w_. owned_ O2.
  apply raises_bind; [apply seeds_why; intros Q; meant; left; exact Q|intros b _]. cbv zeta.
  ta_ T3. { right. left. now rewrite <- A4. }
  cbn [parse_ta tk_amount].
  apply raises_bind; [apply fail_if_why; intros Q; clean_bool; meant; exact Q|intros _ _].
  owned_ O4. role_w_.
  apply raises_bind; [apply mint_data_why; intros Q; meant; do 2 right; left; now rewrite <- A4|].
  intros ? S4. apply mint_data_ok in S4. destruct S4 as [-> S4]. cbn [parse_mint tm_mint_authority_flag tm_mint_authority tm_freeze_authority_flag tm_supply].
  apply raises_bind.
  { apply fail_if_why. intros Q. meant. do 3 right. apply orb_true_iff in Q. destruct Q as [Q|Q]; [left; now clean_bool|].
    right. left. now apply key_differs. }
  intros _ _. apply raises_bind; [apply fail_if_why; intros Q; meant; do 5 right; left; now clean_bool|intros _ _].
  owned_ O5.
  apply raises_bind; [apply mint_data_why; intros Q; meant; do 6 right; left; now rewrite <- A5|intros _ _].
  apply raises_bind; [apply state_data_why; intros Q; meant; do 7 right; exact Q|].
  intros ? S1. apply state_data_ok in S1. destruct S1 as [-> S1].
  apply raises_bind; [apply verify_state_why; intros Q; meant; right; left; exact Q|intros _ _].
  apply raises_bind; [apply verify_vault_why; intros Q; meant; right; right; rewrite <- A5; exact Q|intros _ _].
  rewrite A4. fold (balance l (m_key m6)) (escrow l (m_key m1)) (supply l).
  apply raises_bind; [apply sub_why; intros Q; meant; exact Q|]. intros ? Q. apply checked_sub_ok in Q. destruct Q as [Q ->].
  pose proof (free_range _ _ _ Q) as R. assert (RS : is_u64 (supply l)) by apply get_u64_range.
  assert (RE : is_u64 (escrow l (m_key m1))) by apply get_u64_range.
  apply raises_bind.
  { apply to_orca_why; [assumption..|]. intros B. meant. fold (balance l (m_key m6)) (escrow l (m_key m1)) (supply l).
    destruct B as [B|[B|[B|B]]]; auto. do 3 right. unfold is_u64 in RE. lia. }
  intros w Hw. apply xorca_to_orca_ok in Hw; [|assumption..]. destruct Hw as (Rw & N1 & N2 & Hw).
  apply raises_bind.
  { apply fail_if_why. intros Z. clean_bool. subst w. meant. fold (balance l (m_key m6)) (escrow l (m_key m1)) (supply l).
    unfold redeem_quote in *. apply quotient_zero; [unfold is_u64 in *; nia|unfold is_u64 in *; lia|assumption]. }
  intros _ _.
  apply raises_bind; [apply ne_because; intros c; apply cpi_burn_ne|intros l1 B1].
  assert (D1 : l1 (m_key m1) = l (m_key m1)) by (eapply burn_data; [exact B1|now apply xorca_not_token]).
  apply raises_bind.
  { apply state_data_why. intros N. unfold state_bytes in N. rewrite D1 in N. destruct N. split; [|apply S1].
    destruct S1 as [S1 _]. unfold zlen in S1. lia. }
  intros ? S2. apply state_data_ok in S2. destruct S2 as [-> _]. rewrite D1. fold (escrow l (m_key m1)).
  apply raises_bind.
  { apply add_why. intros B. meant. fold (balance l (m_key m6)) (escrow l (m_key m1)) (supply l). do 3 right.
    subst w. exact B. }
  intros e He. cbv zeta.
  apply raises_bind; [apply ne_because; intros c; apply create_pending_ne|intros l3 B3].
  assert (N : m_key m2 <> m_key m1).
  { intros Q2. rewrite Q2, O1 in O2. now apply ids_distinct in O2. }
  apply raises_bind; [|intros; exact I].
  apply addi_why. intros B. meant. rewrite set_data_other in B by exact N.
  rewrite (create_pending_data _ _ _ _ _ _ _ _ _ B3 N), set_data_same in B. cbn [a_data] in B.
  apply checked_add_ok in He. destruct He as [He ->].
  destruct (set_escrow_same (escrow l (m_key m1) + w) (a_data (l (m_key m1)))) as (_ & F).
  { destruct S1 as [S1 _]. unfold zlen in S1. lia. }
  { unfold is_u64, u64_max in *. lia. }
  now rewrite (sse_cooldown _ _ F) in B.
Qed.

Lemma withdraw_why C E accs l j :
  raises (because (blames C E accs l (Withdraw j))) (withdraw_process C E accs l j).
Proof.
  unfold withdraw_process.
  have m0 H0 K0. have m1 H1 K1. have m2 H2 K2. have m3 H3 K3. have m4 H4 K4. have m5 H5 K5. have m6 H6 K6. have m7 H7 K7.
  role_sw_. at_ A5. owned_ O5. role_w_. owned_ O1.
  apply raises_bind; [apply state_data_why; intros Q; meant; left; exact Q|].
  intros ? S1. apply state_data_ok in S1. destruct S1 as [-> S1].
  apply raises_bind; [apply verify_state_why; intros Q; meant; left; exact Q|intros _ _].
  apply raises_bind; [apply verify_vault_why; intros Q; meant; right; left; rewrite <- A5; exact Q|intros _ _].
  cbv zeta. role_w_. owned_ O2.
  apply raises_bind; [apply pending_data_why; intros Q; meant; right; left; exact Q|].
  intros ? S2. apply pending_data_ok in S2. destruct S2 as [-> S2].
  apply raises_bind; [apply verify_pending_why; intros Q; meant; do 2 right; exact Q|intros _ _].
  ta_ T3. { do 2 right. left. now rewrite <- A5. }
  ta_ T4. { do 3 right. now rewrite <- A5. }
  at_ A6. at_ A7.
  apply raises_bind.
  { apply fail_if_why. intros Q. clean_bool. meant. split; [|exact Q]. split; [exact O2|apply S2]. }
  intros _ _. apply raises_bind; [apply fail_if_why; intros Q; clean_bool; meant; exact Q|intros ? Q]. clean_bool.
  apply raises_bind; [apply ne_because; intros c; apply cpi_transfer_ne|intros l1 B1].
  pose proof (transfer_data _ _ _ _ _ _ _ _ _ _ B1 (xorca_not_token _ _ O1)) as D1.
  apply raises_bind; [apply ne_because; intros c; apply close_ne|intros l2 B2].
  assert (N : m_key m2 <> m_key m1).
  { intros X. rewrite X in S2. destruct S1 as [_ S1], S2 as [_ S2].
    change (pw_disc (a_data (l (m_key m1)))) with (st_disc (a_data (l (m_key m1)))) in S2. congruence. }
  pose proof (close_data _ _ _ _ _ B2 N) as D2. rewrite D1 in D2.
  apply raises_bind.
  { apply state_data_why. intros X. unfold state_bytes in X. rewrite D2 in X. destruct X. split; [|apply S1].
    destruct S1 as [S1 _]. unfold zlen in S1. lia. }
  intros ? S3. apply state_data_ok in S3. destruct S3 as [-> _]. rewrite D2.
  apply raises_bind; [apply sub_why; intros X; lia|intros e He]. exact I.
Qed.

Lemma initialize_why C E accs l c :
  raises (because (blames C E accs l (Initialize c))) (initialize_process C E accs l c).
Proof.
  unfold initialize_process.
  have m0 H0 K0. have m1 H1 K1. have m2 H2 K2. have m3 H3 K3. have m4 H4 K4. have m5 H5 K5. have m6 H6 K6. have m7 H7 K7.
  have m8 H8 K8.
  role_sw_. apply raises_bind; [apply fail_if_why; intros Q; meant; now apply key_differs|intros _ _].
  role_w_. apply raises_bind; [apply seeds_why; intros Q; meant; left; exact Q|intros b Hb]. cbv zeta.
  apply seeds_ok_iff in Hb. destruct Hb as (bump & Hb & ->).
  apply raises_bind.
  { apply fail_if_why. intros Q. clean_bool. meant. split; [eauto|]. intros X. rewrite X in Q. discriminate. }
  intros _ _. owned_ O2. owned_ O4.
  apply raises_bind; [apply mint_data_why; intros Q; meant; left; exact Q|].
  intros ? S4. apply mint_data_ok in S4. destruct S4 as [-> S4].
  cbn [parse_mint tm_mint_authority_flag tm_mint_authority tm_freeze_authority_flag tm_freeze_authority tm_supply tm_decimals].
  apply raises_bind; [apply address_why; intros Q; meant; right; exact Q|intros _ _].
  apply raises_bind; [apply fail_if_why; intros Q; meant; do 1 right; left; now clean_bool|intros _ _].
  at_ A4.
  apply raises_bind; [apply fail_if_why; intros Q; meant; do 2 right; left; now clean_bool|intros _ _].
  apply raises_bind; [apply fail_if_why; intros Q; meant; do 3 right; left; now clean_bool|intros _ _].
  apply raises_bind; [apply fail_if_why; intros Q; meant; do 4 right; left; now apply key_differs|intros _ _].
  apply raises_bind; [apply fail_if_why; intros Q; meant; do 5 right; left; now clean_bool|intros _ _].
  owned_ O5.
  apply raises_bind; [apply mint_data_why; intros Q; meant; do 6 right; left; exact Q|].
  intros ? S5. apply mint_data_ok in S5. destruct S5 as [-> S5]. cbn [parse_mint tm_decimals].
  at_ A5.
  apply raises_bind; [apply fail_if_why; intros Q; meant; do 7 right; now clean_bool|intros _ _].
  role_sw_. at_ A6. role_w_. owned_ O3. at_ A7. at_ A8.
  rewrite A5.
  destruct (find_vault_address C (m_key m2) token_id orca_mint_id) as [[vk vb]|] eqn:Fv; [|now apply because_foreign].
  apply raises_bind; [apply seeds_why; intros Q; meant; right; exact Q|intros _ _].
  apply raises_bind; [apply fail_if_why; intros Q; meant; now clean_bool|intros _ _].
  apply raises_bind; [|intros l1 _; apply raises_bind; [|intros; exact I]].
  - unfold create_state_account. apply raises_bind; [|intros; walk; now apply because_foreign].
    apply ne_because. intros z. apply create_secure_ne.
  - apply ne_because. intros z. apply invoke_ne. intros sg. apply foreign_ne, ata_create_raises.
Qed.

Lemma set_why C E accs l u : raises (because (blames C E accs l (Set_ u))) (set_process C accs l u).
Proof.
  unfold set_process. have m0 H0 K0. have m1 H1 K1.
  role_sw_. role_w_. owned_ O1.
  apply raises_bind; [apply state_data_why; intros Q; meant; exact Q|].
  intros ? S1. apply state_data_ok in S1. destruct S1 as [-> S1].
  apply raises_bind; [apply verify_state_why; intros Q; meant; exact Q|intros _ _].
  apply raises_bind; [apply address_why; intros Q; meant; right; exact Q|intros _ _].
  destruct u; [|exact I].
  apply raises_bind; [apply fail_if_why; intros Q; meant; now clean_bool|intros; exact I].
Qed.

Theorem error_meaning C E accs l data i c :
  encodes data i -> process_instruction C E xorca_id accs l data = Err (ECustom (code c)) ->
  blames C E accs l i c.
Proof.
  intros He H. assert (Hok : instruction_ok i) by apply He. apply decode_encodes in He.
  rewrite process_handle, He in H.
  assert (R : raises (because (blames C E accs l i)) (handle C E accs l i)).
  { destruct i; cbn [handle instruction_ok] in *;
      [apply stake_why|apply unstake_why|apply withdraw_why|apply initialize_why|apply set_why]; intuition. }
  rewrite H in R. now apply R.
Qed.

Theorem undecodable_iff C E accs l data :
  process_instruction C E xorca_id accs l data = Err (ECustom (code UnknownInstructionDiscriminator)) <->
  (forall i, ~ encodes data i).
Proof.
  split.
  - intros H i He. exact (error_meaning C E accs l data i _ He H).
  - intros H. rewrite process_handle. destruct (deserialize read_instruction data) as [i|] eqn:D; [|reflexivity].
    apply decode_encodes in D. destruct (H _ D).
Qed.

Theorem too_few_accounts C E accs l data i :
  encodes data i ->
  (process_instruction C E xorca_id accs l data = Err (ECustom (code NotEnoughAccountKeys)) <->
   (length accs < length (rules i))%nat).
Proof.
  intros He. split; [now apply (error_meaning C E accs l data i)|].
  intros L. apply decode_encodes in He. rewrite process_handle, He.
  destruct i; cbn [rules length] in L; cbn [handle];
    unfold stake_process, unstake_process, withdraw_process, initialize_process, set_process;
    (destruct accs as [|m0 accs]; [reflexivity|]); (destruct accs as [|m1 accs]; [reflexivity|]);
    try (cbn in L; lia);
    repeat (destruct accs as [|? accs]; [reflexivity|]); cbn in L; lia.
Qed.

Theorem error_truth C E accs l data i c :
  encodes data i -> process_instruction C E xorca_id accs l data = Err (ECustom (code c)) ->
  blames C E accs l i c /\ (c <> NotEnoughAccountKeys -> (length (rules i) <= length accs)%nat).
Proof.
  intros He H. split; [now apply (error_meaning C E accs l data i)|].
  intros N. destruct (Nat.lt_ge_cases (length accs) (length (rules i))) as [L|L]; [|exact L].
  apply (too_few_accounts C E accs l data i He) in L. rewrite L in H. assert (X : code NotEnoughAccountKeys = code c) by congruence. apply code_inj in X. congruence.
Qed.
