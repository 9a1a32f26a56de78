(** A call depends only on the accounts it is given and changes only those it is
    given as writable. *)
From Verif Require Import Spec BytesFacts LedgerFacts HistoryFacts RaiseFacts.
Import List ListNotations.
Open Scope list_scope.
Open Scope Z_scope.

Definition given (accs : list meta) (k : pubkey) : Prop := exists m, In m accs /\ m_key m = k.
Definition given_writable (accs : list meta) (k : pubkey) : Prop :=
  exists m, In m accs /\ m_key m = k /\ m_writable m = true.

(** Two runs from [l0] and [l0'] that see the same given accounts. *)
Definition twin (accs : list meta) (l0 l0' l l' : ledger) : Prop :=
  (forall k, given accs k -> l k = l' k) /\
  (forall k, ~ given_writable accs k -> l k = l0 k /\ l' k = l0' k).

Definition rel {A B} (R : A -> B -> Prop) (r : res err A) (r' : res err B) : Prop :=
  match r, r' with Ok a, Ok b => R a b | Err e, Err e' => e = e' | _, _ => False end.

Lemma rel_bind {A B A' B'} (R : A -> A' -> Prop) (S : B -> B' -> Prop) r r' f f' :
  rel R r r' -> (forall a a', R a a' -> rel S (f a) (f' a')) -> rel S (bind r f) (bind r' f').
Proof. intros H F. destruct r, r'; cbn in *; try contradiction; [now apply F|assumption]. Qed.
Lemma rel_same {A B B'} (S : B -> B' -> Prop) (r : res err A) f f' :
  (forall a, r = Ok a -> rel S (f a) (f' a)) -> rel S (bind r f) (bind r f').
Proof. intros F. destruct r; cbn; [now apply F|reflexivity]. Qed.
Lemma rel_if {A B} (R : A -> B -> Prop) (b : bool) x x' y y' :
  (b = true -> rel R x x') -> (b = false -> rel R y y') -> rel R (if b then x else y) (if b then x' else y').
Proof. destruct b; auto. Qed.

Lemma twin_upd accs l0 l0' l l' k a :
  twin accs l0 l0' l l' -> given_writable accs k -> twin accs l0 l0' (upd l k a) (upd l' k a).
Proof.
  intros [H1 H2] W. unfold upd. split; intros j J; destruct (key_eqb k j) eqn:E; auto.
  apply key_eqb_true in E. subst. contradiction.
Qed.
Lemma given_w accs k : given_writable accs k -> given accs k.
Proof. intros (m & H & K & _). now exists m. Qed.
Lemma twin_data accs l0 l0' l l' k d :
  twin accs l0 l0' l l' -> given_writable accs k -> twin accs l0 l0' (set_data l k d) (set_data l' k d).
Proof. intros H W. unfold set_data. rewrite (proj1 H k (given_w _ _ W)). now apply twin_upd. Qed.
Lemma twin_lamports accs l0 l0' l l' k d :
  twin accs l0 l0' l l' -> given_writable accs k -> twin accs l0 l0' (set_lamports l k d) (set_lamports l' k d).
Proof. intros H W. unfold set_lamports. rewrite (proj1 H k (given_w _ _ W)). now apply twin_upd. Qed.
Lemma twin_owner accs l0 l0' l l' k d :
  twin accs l0 l0' l l' -> given_writable accs k -> twin accs l0 l0' (set_owner l k d) (set_owner l' k d).
Proof. intros H W. unfold set_owner. rewrite (proj1 H k (given_w _ _ W)). now apply twin_upd. Qed.

(** [walk] goes through a chain of checks that read the same values. *)
Ltac twins := repeat first [assumption | apply twin_data | apply twin_lamports | apply twin_owner | apply twin_upd].
Ltac walk :=
  repeat first
    [ match goal with |- rel _ (bind _ _) (bind _ _) => apply rel_same; intros ? ? end
    | match goal with |- rel _ (if _ then _ else _) (if _ then _ else _) => apply rel_if; intros ? end
    | reflexivity | solve [cbn [rel]; twins] ].

Lemma sys_transfer_twin accs l0 l0' sg l l' a b n :
  twin accs l0 l0' l l' -> given_writable accs a -> given_writable accs b ->
  rel (twin accs l0 l0') (sys_transfer sg l a b n) (sys_transfer sg l' a b n).
Proof.
  intros T A B. unfold sys_transfer. rewrite <- (proj1 T a (given_w _ _ A)).
  pose proof (twin_lamports _ _ _ _ _ a (a_lamports (l a) - n) T A) as T1. cbv zeta.
  rewrite <- (proj1 T1 b (given_w _ _ B)). walk.
Qed.
Lemma sys_allocate_twin accs l0 l0' sg l l' a n :
  twin accs l0 l0' l l' -> given_writable accs a ->
  rel (twin accs l0 l0') (sys_allocate sg l a n) (sys_allocate sg l' a n).
Proof. intros T A. unfold sys_allocate. rewrite <- (proj1 T a (given_w _ _ A)). walk. Qed.
Lemma sys_assign_twin accs l0 l0' sg l l' a n :
  twin accs l0 l0' l l' -> given_writable accs a ->
  rel (twin accs l0 l0') (sys_assign sg l a n) (sys_assign sg l' a n).
Proof. intros T A. unfold sys_assign. rewrite <- (proj1 T a (given_w _ _ A)). walk. Qed.
Lemma sys_create_twin accs l0 l0' sg l l' a b n s o :
  twin accs l0 l0' l l' -> given_writable accs a -> given_writable accs b ->
  rel (twin accs l0 l0') (sys_create_account sg l a b n s o) (sys_create_account sg l' a b n s o).
Proof.
  intros T A B. unfold sys_create_account. rewrite <- (proj1 T b (given_w _ _ B)).
  apply rel_same; intros _ _. eapply rel_bind with (R := twin accs l0 l0'); [now apply sys_allocate_twin|]. intros m m' T1.
  eapply rel_bind with (R := twin accs l0 l0'); [now apply sys_assign_twin|]. intros m2 m2' T2. now apply sys_transfer_twin.
Qed.

Lemma validate_twin accs l0 l0' l l' sg extra o a :
  twin accs l0 l0' l l' -> given accs a -> validate_owner l sg extra o a = validate_owner l' sg extra o a.
Proof. intros T A. unfold validate_owner. now rewrite (proj1 T a A). Qed.
Lemma spend_twin accs l0 l0' l l' sg extra d a n c :
  twin accs l0 l0' l l' -> given accs a -> spend_auth l sg extra d a n c = spend_auth l' sg extra d a n c.
Proof. intros T A. unfold spend_auth. now rewrite !(validate_twin _ _ _ _ _ _ _ _ _ T A). Qed.

Lemma token_transfer_twin accs l0 l0' sg ex l l' a b c n :
  twin accs l0 l0' l l' -> given_writable accs a -> given_writable accs b -> given accs c ->
  rel (twin accs l0 l0') (token_transfer sg ex l a b c n) (token_transfer sg ex l' a b c n).
Proof.
  intros T A B D. unfold token_transfer, token_owned.
  rewrite <- (proj1 T a (given_w _ _ A)), <- (proj1 T b (given_w _ _ B)). cbv zeta.
  rewrite <- (spend_twin _ _ _ _ _ _ _ _ _ _ _ T D). walk.
Qed.
Lemma token_mint_twin accs l0 l0' sg ex l l' a b c n :
  twin accs l0 l0' l l' -> given_writable accs a -> given_writable accs b -> given accs c ->
  rel (twin accs l0 l0') (token_mint_to sg ex l a b c n) (token_mint_to sg ex l' a b c n).
Proof.
  intros T A B D. unfold token_mint_to, token_owned.
  rewrite <- (proj1 T a (given_w _ _ A)), <- (proj1 T b (given_w _ _ B)). cbv zeta.
  rewrite <- (validate_twin _ _ _ _ _ _ _ _ _ T D). walk.
Qed.
Lemma token_burn_twin accs l0 l0' sg ex l l' a b c n :
  twin accs l0 l0' l l' -> given_writable accs a -> given_writable accs b -> given accs c ->
  rel (twin accs l0 l0') (token_burn sg ex l a b c n) (token_burn sg ex l' a b c n).
Proof.
  intros T A B D. unfold token_burn, token_owned.
  rewrite <- (proj1 T a (given_w _ _ A)), <- (proj1 T b (given_w _ _ B)). cbv zeta.
  rewrite <- (spend_twin _ _ _ _ _ _ _ _ _ _ _ T D). walk.
Qed.
Lemma token_init_twin accs l0 l0' E l l' a m o :
  twin accs l0 l0' l l' -> given_writable accs a -> given accs m ->
  rel (twin accs l0 l0') (token_init_account E l a m o) (token_init_account E l' a m o).
Proof.
  intros T A M. unfold token_init_account, token_owned.
  rewrite <- (proj1 T a (given_w _ _ A)), <- (proj1 T m M). cbv zeta. walk.
Qed.

Lemma ata_twin accs l0 l0' C E sg l l' p a w m :
  twin accs l0 l0' l l' -> given_writable accs p -> given_writable accs a -> given accs m ->
  rel (twin accs l0 l0') (ata_create_idempotent C E sg l p a w m) (ata_create_idempotent C E sg l' p a w m).
Proof.
  intros T P A M. unfold ata_create_idempotent.
  destruct (find_program_address C (ata_seeds w m) ata_id) as [[addr b]|]; [|reflexivity].
  rewrite <- (proj1 T a (given_w _ _ A)). cbv zeta. apply rel_same; intros _ _.
  apply rel_if; intros _; [walk|]. apply rel_same; intros _ _.
  eapply rel_bind with (R := twin accs l0 l0'); [|intros; now apply token_init_twin].
  apply rel_if; intros _; [|now apply sys_create_twin].
  eapply rel_bind with (R := twin accs l0 l0').
  { apply rel_if; intros _; [now apply sys_transfer_twin|exact T]. }
  intros ? ? T1. eapply rel_bind with (R := twin accs l0 l0'); [now apply sys_allocate_twin|]. intros ? ? T2. now apply sys_assign_twin.
Qed.

Lemma writes_given accs k : caller_writes accs k = true -> given_writable accs k.
Proof.
  unfold caller_writes. rewrite existsb_exists. intros (m & H & E). apply andb_true_iff in E. destruct E as [E W].
  apply key_eqb_true in E. now exists m.
Qed.
Lemma has_given accs k : caller_has_key accs k = true -> given accs k.
Proof. unfold caller_has_key. rewrite existsb_exists. intros (m & H & E). apply key_eqb_true in E. now exists m. Qed.

Lemma invoke_twin (R : ledger -> ledger -> Prop) C accs seeds callee inner body body' :
  (forall sg, (forall m, In m inner -> given accs (m_key m)) ->
     (forall m, In m inner -> m_writable m = true -> given_writable accs (m_key m)) ->
     rel R (body sg) (body' sg)) ->
  rel R (invoke_signed C accs seeds callee inner body) (invoke_signed C accs seeds callee inner body').
Proof.
  intros H. unfold invoke_signed. apply rel_same; intros pdas _. apply rel_same; intros _ _. apply rel_same; intros u Hu.
  unfold fail_if in Hu. destruct (forallb (meta_allowed accs pdas) inner) eqn:F; [|discriminate Hu].
  rewrite forallb_forall in F. apply H; intros m Hm.
  - specialize (F m Hm). unfold meta_allowed in F. rewrite !andb_true_iff in F. apply has_given. tauto.
  - intros Wm. specialize (F m Hm). unfold meta_allowed in F. rewrite !andb_true_iff, Wm in F. apply writes_given. tauto.
Qed.

(** ** The program's checks and calls *)
Lemma get_given accs n m : get_account_info accs n = Ok m -> given accs (m_key m).
Proof.
  unfold get_account_info. destruct (nth_error accs n) eqn:E; [|discriminate]. intros H. injection H as ->.
  apply nth_error_In in E. now exists m.
Qed.
Lemma get_writable accs n m r :
  get_account_info accs n = Ok m -> assert_account_role m r = Ok tt -> In Writable r -> given_writable accs (m_key m).
Proof.
  unfold get_account_info. destruct (nth_error accs n) eqn:E; [|discriminate]. intros H. injection H as ->.
  intros H Hr. apply nth_error_In in E. exists m. split; [exact E|]. split; [reflexivity|].
  induction r as [|x r IH]; [destruct Hr|]. cbn [assert_account_role] in H. destruct Hr as [->|Hr].
  - destruct (m_writable m); [reflexivity|discriminate H].
  - apply IH; [|exact Hr].
    destruct (match x with Signer => fail_if (negb (m_signer m)) (custom InvalidAccountRole)
                         | Writable => fail_if (negb (m_writable m)) (custom InvalidAccountRole) end) as [[]|]; [exact H|discriminate H].
Qed.

Lemma owner_twin accs l0 l0' l l' m o :
  twin accs l0 l0' l l' -> given accs (m_key m) -> assert_account_owner l m o = assert_account_owner l' m o.
Proof. intros T G. unfold assert_account_owner. now rewrite (proj1 T _ G). Qed.
Lemma state_twin accs l0 l0' l l' m :
  twin accs l0 l0' l l' -> given accs (m_key m) -> assert_state_data l m = assert_state_data l' m.
Proof. intros T G. unfold assert_state_data, assert_account_len, assert_account_discriminator. now rewrite (proj1 T _ G). Qed.
Lemma pending_twin accs l0 l0' l l' m :
  twin accs l0 l0' l l' -> given accs (m_key m) -> assert_pending_data l m = assert_pending_data l' m.
Proof. intros T G. unfold assert_pending_data, assert_account_len, assert_account_discriminator. now rewrite (proj1 T _ G). Qed.
Lemma mint_twin accs l0 l0' l l' m :
  twin accs l0 l0' l l' -> given accs (m_key m) -> assert_mint_data l m = assert_mint_data l' m.
Proof. intros T G. unfold assert_mint_data. now rewrite (proj1 T _ G). Qed.
Lemma token_twin accs l0 l0' l l' m o x w :
  twin accs l0 l0' l l' -> given accs (m_key m) ->
  make_owner_token_account_assertions l m o x w = make_owner_token_account_assertions l' m o x w.
Proof.
  intros T G. unfold make_owner_token_account_assertions, assert_account_owner, assert_token_account_data.
  now rewrite (proj1 T _ G).
Qed.

Lemma cpi_transfer_twin accs l0 l0' C seeds l l' a b c n :
  twin accs l0 l0' l l' ->
  rel (twin accs l0 l0') (cpi_token_transfer C accs seeds l a b c n) (cpi_token_transfer C accs seeds l' a b c n).
Proof.
  intros T. apply invoke_twin. intros sg G W. apply token_transfer_twin; [exact T|..].
  - apply (W (Meta (m_key a) false true)); cbn; auto.
  - apply (W (Meta (m_key b) false true)); cbn; auto.
  - apply (G (Meta (m_key c) true false)); cbn; auto.
Qed.
Lemma cpi_mint_twin accs l0 l0' C seeds l l' a b c n :
  twin accs l0 l0' l l' ->
  rel (twin accs l0 l0') (cpi_token_mint_to C accs seeds l a b c n) (cpi_token_mint_to C accs seeds l' a b c n).
Proof.
  intros T. apply invoke_twin. intros sg G W. apply token_mint_twin; [exact T|..].
  - apply (W (Meta (m_key a) false true)); cbn; auto.
  - apply (W (Meta (m_key b) false true)); cbn; auto.
  - apply (G (Meta (m_key c) true false)); cbn; auto.
Qed.
Lemma cpi_burn_twin accs l0 l0' C seeds l l' a b c n :
  twin accs l0 l0' l l' ->
  rel (twin accs l0 l0') (cpi_token_burn C accs seeds l a b c n) (cpi_token_burn C accs seeds l' a b c n).
Proof.
  intros T. apply invoke_twin. intros sg G W. apply token_burn_twin; [exact T|..].
  - apply (W (Meta (m_key a) false true)); cbn; auto.
  - apply (W (Meta (m_key b) false true)); cbn; auto.
  - apply (G (Meta (m_key c) true false)); cbn; auto.
Qed.
Lemma cpi_create_twin accs l0 l0' C seeds l l' a b n s o :
  twin accs l0 l0' l l' ->
  rel (twin accs l0 l0') (cpi_system_create C accs seeds l a b n s o) (cpi_system_create C accs seeds l' a b n s o).
Proof.
  intros T. apply invoke_twin. intros sg G W. apply sys_create_twin; [exact T|..].
  - apply (W (Meta (m_key a) true true)); cbn; auto.
  - apply (W (Meta (m_key b) true true)); cbn; auto.
Qed.
Lemma cpi_lamports_twin accs l0 l0' C seeds l l' a b n :
  twin accs l0 l0' l l' ->
  rel (twin accs l0 l0') (cpi_system_transfer C accs seeds l a b n) (cpi_system_transfer C accs seeds l' a b n).
Proof.
  intros T. apply invoke_twin. intros sg G W. apply sys_transfer_twin; [exact T|..].
  - apply (W (Meta (m_key a) true true)); cbn; auto.
  - apply (W (Meta (m_key b) false true)); cbn; auto.
Qed.
Lemma cpi_allocate_twin accs l0 l0' C seeds l l' a n :
  twin accs l0 l0' l l' ->
  rel (twin accs l0 l0') (cpi_system_allocate C accs seeds l a n) (cpi_system_allocate C accs seeds l' a n).
Proof.
  intros T. apply invoke_twin. intros sg G W. apply sys_allocate_twin; [exact T|].
  apply (W (Meta (m_key a) true true)); cbn; auto.
Qed.
Lemma cpi_assign_twin accs l0 l0' C seeds l l' a o :
  twin accs l0 l0' l l' ->
  rel (twin accs l0 l0') (cpi_system_assign C accs seeds l a o) (cpi_system_assign C accs seeds l' a o).
Proof.
  intros T. apply invoke_twin. intros sg G W. apply sys_assign_twin; [exact T|].
  apply (W (Meta (m_key a) true true)); cbn; auto.
Qed.
Lemma cpi_ata_twin accs l0 l0' C E l l' p a w m s t :
  twin accs l0 l0' l l' ->
  rel (twin accs l0 l0') (cpi_ata_create C E accs l p a w m s t) (cpi_ata_create C E accs l' p a w m s t).
Proof.
  intros T. apply invoke_twin. intros sg G W. apply ata_twin; [exact T|..].
  - apply (W (Meta (m_key p) true true)); cbn; auto.
  - apply (W (Meta (m_key a) false true)); cbn; auto.
  - apply (G (Meta (m_key m) false false)); cbn; auto.
Qed.

Lemma create_twin accs l0 l0' C E l l' f a s o seeds :
  twin accs l0 l0' l l' -> given accs (m_key a) ->
  rel (twin accs l0 l0') (create_account_secure C E accs l f a s o seeds) (create_account_secure C E accs l' f a s o seeds).
Proof.
  intros T G. unfold create_account_secure. rewrite <- (proj1 T _ G). cbv zeta.
  apply rel_if; intros _; [exact T|]. apply rel_if; intros _; [now apply cpi_create_twin|].
  eapply rel_bind with (R := twin accs l0 l0').
  { apply rel_if; intros _; [now apply cpi_lamports_twin|exact T]. }
  intros ? ? T1. eapply rel_bind with (R := twin accs l0 l0'); [now apply cpi_allocate_twin|].
  intros ? ? T2. now apply cpi_assign_twin.
Qed.
Lemma close_twin accs l0 l0' l l' a r :
  twin accs l0 l0' l l' -> given_writable accs (m_key a) -> given_writable accs (m_key r) ->
  rel (twin accs l0 l0') (close_program_account l a r) (close_program_account l' a r).
Proof.
  intros T A R. unfold close_program_account. rewrite <- (proj1 T _ (given_w _ _ A)).
  apply rel_same; intros d _. cbv zeta.
  pose proof (twin_data _ _ _ _ _ _ d T A) as T1.
  rewrite <- (proj1 T1 _ (given_w _ _ A)), <- (proj1 T1 _ (given_w _ _ R)). walk.
Qed.

Definition twins_out (accs : list meta) (l0 l0' : ledger) (r r' : outcome) : Prop :=
  twin accs l0 l0' (fst r) (fst r') /\ snd r = snd r'.

(** [get_all] takes the accounts of the call; [check] passes a check that reads one of them. *)
Ltac get_all := repeat match goal with
  | |- rel _ (bind (get_account_info _ _) _) (bind (get_account_info _ _) _) =>
      apply rel_same; let m := fresh "m" in let H := fresh "H" in let G := fresh "G" in
      intros m H; pose proof (get_given _ _ _ H) as G
  end.
Ltac check T :=
  match goal with
  | |- rel _ (bind (assert_account_owner _ ?m _) _) _ =>
      match goal with G : given _ (m_key m) |- _ => rewrite <- (owner_twin _ _ _ _ _ m _ T G) end
  | |- rel _ (bind (assert_state_data _ ?m) _) _ =>
      match goal with G : given _ (m_key m) |- _ => rewrite <- (state_twin _ _ _ _ _ m T G) end
  | |- rel _ (bind (assert_pending_data _ ?m) _) _ =>
      match goal with G : given _ (m_key m) |- _ => rewrite <- (pending_twin _ _ _ _ _ m T G) end
  | |- rel _ (bind (assert_mint_data _ ?m) _) _ =>
      match goal with G : given _ (m_key m) |- _ => rewrite <- (mint_twin _ _ _ _ _ m T G) end
  | |- rel _ (bind (make_owner_token_account_assertions _ ?m _ _ _) _) _ =>
      match goal with G : given _ (m_key m) |- _ => rewrite <- (token_twin _ _ _ _ _ m _ _ _ T G) end
  | |- rel _ (bind (cpi_token_transfer _ _ _ _ _ _ _ _) _) _ => fail 1
  | |- rel _ (bind (cpi_token_mint_to _ _ _ _ _ _ _ _) _) _ => fail 1
  | |- rel _ (bind (cpi_token_burn _ _ _ _ _ _ _ _) _) _ => fail 1
  | |- rel _ (bind _ _) _ => idtac
  end; apply rel_same; intros ? ?.

Lemma stake_twin accs l l' C a :
  (forall k, given accs k -> l k = l' k) ->
  rel (twins_out accs l l') (stake_process C accs l a) (stake_process C accs l' a).
Proof.
  intros A. assert (T : twin accs l l' l l') by (split; auto). unfold stake_process. get_all.
  repeat check T. cbv zeta. repeat check T.
  eapply rel_bind with (R := twin accs l l'); [now apply cpi_transfer_twin|]. intros l1 l1' T1.
  eapply rel_bind with (R := twin accs l l'); [now apply cpi_mint_twin|]. intros l2 l2' T2. cbv zeta.
  cbn [rel]. split; [exact T2|]. cbn [snd]. now rewrite (proj1 T2 _ G4).
Qed.

Lemma unstake_twin accs l l' C E x i :
  (forall k, given accs k -> l k = l' k) ->
  rel (twins_out accs l l') (unstake_process C E accs l x i) (unstake_process C E accs l' x i).
Proof.
  intros A. assert (T : twin accs l l' l l') by (split; auto). unfold unstake_process.
  apply rel_same; intros un Hun; pose proof (get_given _ _ _ Hun) as Gun.
  apply rel_same; intros st Hst; pose proof (get_given _ _ _ Hst) as Gst.
  apply rel_same; intros pd Hpd; pose proof (get_given _ _ _ Hpd) as Gpd. get_all.
  do 5 check T. apply rel_same; intros [] Rst. pose proof (get_writable _ _ _ _ Hst Rst (or_introl eq_refl)) as Wst.
  do 2 check T. apply rel_same; intros [] Rpd. pose proof (get_writable _ _ _ _ Hpd Rpd (or_introl eq_refl)) as Wpd.
  repeat check T. cbv zeta. repeat check T.
  eapply rel_bind with (R := twin accs l l'); [now apply cpi_burn_twin|]. intros l1 l1' T1.
  check T1. check T1.
  eapply rel_bind with (R := twin accs l l').
  { unfold create_pending_account. eapply rel_bind with (R := twin accs l l').
    - apply create_twin; [|exact Gpd]. apply twin_data; [exact T1|exact Wst].
    - intros l2 l2' T2. rewrite <- (proj1 T2 _ Gpd). apply rel_same; intros d _. cbn [rel]. now apply twin_data. }
  intros l3 l3' T3. rewrite <- (proj1 T3 _ Gpd).
  cbv zeta. set (q := set_u64 40 _ _). pose proof (twin_data _ _ _ _ _ _ q T3 Wpd) as T4.
  rewrite <- (proj1 T4 _ Gst). apply rel_same; intros ts _.
  pose proof (twin_data _ _ _ _ _ _ (set_u64 48 ts q) T4 Wpd) as T5.
  cbn [rel]. split; [exact T5|]. cbn [snd]. now rewrite (proj1 T5 _ Gst).
Qed.

Lemma withdraw_twin accs l l' C E i :
  (forall k, given accs k -> l k = l' k) ->
  rel (twins_out accs l l') (withdraw_process C E accs l i) (withdraw_process C E accs l' i).
Proof.
  intros A. assert (T : twin accs l l' l l') by (split; auto). unfold withdraw_process.
  apply rel_same; intros un Hun; pose proof (get_given _ _ _ Hun) as Gun.
  apply rel_same; intros st Hst; pose proof (get_given _ _ _ Hst) as Gst.
  apply rel_same; intros pd Hpd; pose proof (get_given _ _ _ Hpd) as Gpd. get_all.
  apply rel_same; intros [] Run. pose proof (get_writable _ _ _ _ Hun Run (or_intror (or_introl eq_refl))) as Wun.
  do 2 check T. apply rel_same; intros [] Rst. pose proof (get_writable _ _ _ _ Hst Rst (or_introl eq_refl)) as Wst.
  do 4 check T. cbv zeta. apply rel_same; intros [] Rpd. pose proof (get_writable _ _ _ _ Hpd Rpd (or_introl eq_refl)) as Wpd.
  repeat check T.
  eapply rel_bind with (R := twin accs l l'); [now apply cpi_transfer_twin|]. intros l1 l1' T1.
  eapply rel_bind with (R := twin accs l l'); [now apply close_twin|]. intros l2 l2' T2.
  do 2 check T2. cbn [rel]. match goal with |- context [set_escrow ?e ?v] =>
    pose proof (twin_data _ _ _ _ _ _ (set_escrow e v) T2 Wst) as T3 end.
  split; [exact T3|]. cbn [snd]. now rewrite (proj1 T3 _ Gst).
Qed.

Lemma initialize_twin accs l l' C E c :
  (forall k, given accs k -> l k = l' k) ->
  rel (twins_out accs l l') (initialize_process C E accs l c) (initialize_process C E accs l' c).
Proof.
  intros A. assert (T : twin accs l l' l l') by (split; auto). unfold initialize_process.
  do 2 (apply rel_same; intros ? ?).
  apply rel_same; intros st Hst; pose proof (get_given _ _ _ Hst) as Gst. get_all.
  do 2 check T. apply rel_same; intros [] Rst. pose proof (get_writable _ _ _ _ Hst Rst (or_introl eq_refl)) as Wst.
  check T. cbv zeta. rewrite <- (proj1 T _ Gst). repeat check T.
  destruct (find_vault_address _ _ _ _) as [[v vb]|]; [|reflexivity]. repeat check T.
  eapply rel_bind with (R := twin accs l l').
  { unfold create_state_account. eapply rel_bind with (R := twin accs l l'); [now apply create_twin|].
    intros l2 l2' T2. cbv zeta. rewrite <- (proj1 T2 _ Gst). apply rel_same; intros _ _. cbn [rel]. now apply twin_data. }
  intros l1 l1' T1. eapply rel_bind with (R := twin accs l l'); [now apply cpi_ata_twin|].
  intros l2 l2' T2. cbn [rel]. now split.
Qed.

Lemma set_twin accs l l' C u :
  (forall k, given accs k -> l k = l' k) ->
  rel (twins_out accs l l') (set_process C accs l u) (set_process C accs l' u).
Proof.
  intros A. assert (T : twin accs l l' l l') by (split; auto). unfold set_process.
  apply rel_same; intros au Hau. apply rel_same; intros st Hst; pose proof (get_given _ _ _ Hst) as Gst.
  check T. apply rel_same; intros [] Rst. pose proof (get_writable _ _ _ _ Hst Rst (or_introl eq_refl)) as Wst.
  repeat check T. destruct u; [check T|]; cbn [rel]; split; cbn [fst snd]; try reflexivity; now apply twin_data.
Qed.

Theorem call_twin C E pid accs l l' data :
  (forall k, given accs k -> l k = l' k) ->
  rel (twins_out accs l l') (process_instruction C E pid accs l data) (process_instruction C E pid accs l' data).
Proof.
  intros A. unfold process_instruction. apply rel_same; intros _ _.
  destruct (deserialize read_instruction data) as [[]|]; [..|reflexivity];
    [now apply stake_twin|now apply unstake_twin|now apply withdraw_twin|now apply initialize_twin|now apply set_twin].
Qed.

(** ** Statements *)
Theorem call_sees_given C E pid accs l l' data :
  (forall m, In m accs -> l (m_key m) = l' (m_key m)) ->
  match process_instruction C E pid accs l data, process_instruction C E pid accs l' data with
  | Ok (r, evs), Ok (r', evs') => evs = evs' /\ forall m, In m accs -> r (m_key m) = r' (m_key m)
  | Err e, Err e' => e = e'
  | _, _ => False
  end.
Proof.
  intros A. pose proof (call_twin C E pid accs l l' data) as H.
  destruct (process_instruction C E pid accs l data) as [[r evs]|], (process_instruction C E pid accs l' data) as [[r' evs']|];
    cbn [rel] in H; try (apply H; now intros k (m & Hm & <-); apply A).
  destruct H as [[H1 _] H2]; [now intros k (m & Hm & <-); apply A|]. cbn [fst snd] in *. split; [exact H2|].
  intros m Hm. apply H1. now exists m.
Qed.

Lemma account_dec (a b : account) : {a = b} + {a <> b}.
Proof.
  destruct a as [x y z], b as [x' y' z'].
  destruct (Z.eq_dec x x') as [->|N]; [|right; congruence].
  destruct (key_eqb y y') eqn:K; [apply key_eqb_true in K; subst|apply key_eqb_false in K; right; congruence].
  destruct (list_eq_dec Byte.byte_eq_dec z z') as [->|N]; [left; reflexivity|right; congruence].
Qed.

Theorem call_changes_writable C E pid accs l data r evs k :
  process_instruction C E pid accs l data = Ok (r, evs) -> r k <> l k ->
  exists m, In m accs /\ m_key m = k /\ m_writable m = true.
Proof.
  intros H N. pose proof (call_twin C E pid accs l l data (fun _ _ => eq_refl)) as T. rewrite H in T.
  destruct T as [[_ T] _]. cbn [fst] in T. destruct (caller_writes accs k) eqn:W.
  - exact (writes_given _ _ W).
  - destruct N. apply T. intros (m & Hm & K & Wm). unfold caller_writes in W.
    assert (X : existsb (fun m => key_eqb (m_key m) k && m_writable m) accs = true).
    { apply existsb_exists. exists m. split; [exact Hm|]. now rewrite K, key_eqb_refl, Wm. }
    congruence.
Qed.

(** ** More accounts *)
Definition ok_le {A} (r r' : res err A) : Prop := forall x, r = Ok x -> r' = Ok x.
Lemma le_refl {A} (r : res err A) : ok_le r r. Proof. now intros x. Qed.
Lemma le_bind {A B} (r r' : res err A) (f f' : A -> res err B) :
  ok_le r r' -> (forall a, ok_le (f a) (f' a)) -> ok_le (bind r f) (bind r' f').
Proof. intros H F x. destruct r as [a|]; [|discriminate]. rewrite (H a eq_refl). apply F. Qed.
Lemma le_if {A} (b : bool) (x x' y y' : res err A) : ok_le x x' -> ok_le y y' -> ok_le (if b then x else y) (if b then x' else y').
Proof. now destruct b. Qed.
Lemma le_get accs extra n : ok_le (get_account_info accs n) (get_account_info (accs ++ extra) n).
Proof.
  intros x. unfold get_account_info. destruct (nth_error accs n) eqn:N; [|discriminate]. intros H. injection H as ->.
  rewrite nth_error_app1; [now rewrite N|]. apply nth_error_Some. congruence.
Qed.

Lemma existsb_more {A} (p : A -> bool) xs ys : existsb p xs = true -> existsb p (xs ++ ys) = true.
Proof. intros H. now rewrite existsb_app, H. Qed.
Lemma le_invoke C accs extra seeds callee inner body :
  ok_le (invoke_signed C accs seeds callee inner body) (invoke_signed C (accs ++ extra) seeds callee inner body).
Proof.
  unfold invoke_signed. apply le_bind; [apply le_refl|]. intros pdas. apply le_bind.
  { intros x. unfold fail_if. destruct (caller_has_key accs callee) eqn:K; [|discriminate].
    unfold caller_has_key. now rewrite (existsb_more _ _ extra K). }
  intros _. apply le_bind; [|intros _; apply le_refl].
  intros x. unfold fail_if. destruct (forallb (meta_allowed accs pdas) inner) eqn:F; [|discriminate].
  replace (forallb (meta_allowed (accs ++ extra) pdas) inner) with true; [auto|]. symmetry.
  rewrite forallb_forall in F |- *. intros m Hm. specialize (F m Hm). unfold meta_allowed in *.
  rewrite !andb_true_iff, !orb_true_iff in *. destruct F as [[F1 F2] F3].
  unfold caller_has_key, caller_signs, caller_writes in *.
  split; [split|]; [now apply existsb_more|destruct F2 as [[F2|F2]|F2]; auto using existsb_more|destruct F3; auto using existsb_more].
Qed.

Ltac more := repeat lazymatch goal with
  | |- ok_le ?x ?x => exact (le_refl x)
  | |- ok_le (bind ?x _) (bind ?x _) => apply le_bind; [exact (le_refl x)|intros ?]
  | |- ok_le (bind _ _) (bind _ _) => apply le_bind; [|intros ?]
  | |- ok_le (get_account_info _ _) _ => apply le_get
  | |- ok_le (invoke_signed _ _ _ _ _ _) _ => apply le_invoke
  | |- ok_le (if _ then _ else _) _ => apply le_if
  end.
Lemma le_create C E accs extra l f a s o seeds :
  ok_le (create_account_secure C E accs l f a s o seeds) (create_account_secure C E (accs ++ extra) l f a s o seeds).
Proof. unfold create_account_secure. cbv zeta. unfold cpi_system_create, cpi_system_transfer, cpi_system_allocate, cpi_system_assign. more. Qed.

Theorem more_accounts C E pid accs extra l data r :
  process_instruction C E pid accs l data = Ok r -> process_instruction C E pid (accs ++ extra) l data = Ok r.
Proof.
  revert r. change (ok_le (process_instruction C E pid accs l data) (process_instruction C E pid (accs ++ extra) l data)).
  unfold process_instruction. apply le_bind; [apply le_refl|]. intros _.
  destruct (deserialize read_instruction data) as [[]|]; [..|apply le_refl].
  - unfold stake_process, cpi_token_transfer, cpi_token_mint_to. more.
  - unfold unstake_process, cpi_token_burn, create_pending_account. repeat (more; cbv zeta). apply le_create.
  - unfold withdraw_process, cpi_token_transfer. more.
  - unfold initialize_process, cpi_ata_create, create_state_account. repeat (more; cbv zeta).
    destruct (find_vault_address _ _ _ _) as [[v vb]|]; [|apply le_refl]. repeat (more; cbv zeta). apply le_create.
  - unfold set_process. more.
Qed.
