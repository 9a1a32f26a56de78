(** The borrow flags never get in the way. *)
From Verif Require Export Borrow Spec.
From Verif Require Import BytesFacts LayoutFacts AssertFacts LedgerFacts SlotFacts LiveFacts PoolHistory HistoryFacts.
Import List ListNotations.
Open Scope list_scope.
Open Scope Z_scope.

(** The run with flags ends like the one without, or [K] holds, a borrow fails
    and the run without flags fails too. *)
Definition alike (K : Prop) {A} (b : res borrow_err A) (p : res err A) : Prop :=
  b = plain p \/ K /\ b = Err BorrowFailed /\ exists e, p = Err e.

Lemma alike_bind K A B (r : res err A) (k : A -> res borrow_err B) (k' : A -> res err B) :
  (forall x, r = Ok x -> alike K (k x) (k' x)) -> alike K (bind (plain r) k) (bind r k').
Proof. intros H. destruct r as [x|e]; cbn; [apply H; reflexivity|left; reflexivity]. Qed.
Lemma alike_bind_eq K A B (b : res borrow_err A) (r : res err A) k (k' : A -> res err B) :
  b = plain r -> (forall x, r = Ok x -> alike K (k x) (k' x)) -> alike K (bind b k) (bind r k').
Proof. intros ->. apply alike_bind. Qed.
Lemma alike_end K A (a : A) : alike K (Ok a) (Ok a).
Proof. left; reflexivity. Qed.

Lemma try_none k c : try_borrow [] k c = Ok (Guard k c false).
Proof. reflexivity. Qed.
Lemma try_mut_none k c : try_borrow_mut [] k c = Ok (Guard k c true).
Proof. reflexivity. Qed.
Lemma guards_other g k c : g_key g <> k -> guards_on [g] k c = [].
Proof.
  intros H. unfold guards_on. cbn. apply key_eqb_false in H. rewrite H. reflexivity.
Qed.
Lemma try_other g k c : g_key g <> k -> try_borrow [g] k c = Ok (Guard k c false).
Proof. intros H. unfold try_borrow. rewrite guards_other by exact H. reflexivity. Qed.
Lemma try_mut_other g k c : g_key g <> k -> try_borrow_mut [g] k c = Ok (Guard k c true).
Proof. intros H. unfold try_borrow_mut. rewrite guards_other by exact H. reflexivity. Qed.
Lemma guards_lamports k k' m : guards_on [Guard k DataCell m] k' LamportCell = [].
Proof. unfold guards_on. cbn. rewrite andb_false_r. reflexivity. Qed.
Lemma try_mut_lamports k k' m : try_borrow_mut [Guard k DataCell m] k' LamportCell = Ok (Guard k' LamportCell true).
Proof. unfold try_borrow_mut. rewrite guards_lamports. reflexivity. Qed.

Lemma invoke_none inner call : invoke_checked [] inner call = plain call.
Proof. unfold invoke_checked. replace (forallb (passable []) inner) with true; [reflexivity|].
  symmetry. apply forallb_forall. intros; reflexivity. Qed.
Lemma invoke_passable B inner call : (forall m, In m inner -> passable B m = true) ->
  invoke_checked B inner call = plain call.
Proof.
  intros H. unfold invoke_checked. replace (forallb (passable B) inner) with true; [reflexivity|].
  symmetry. apply forallb_forall. exact H.
Qed.
Lemma passable_other g m : g_key g <> m_key m -> passable [g] m = true.
Proof. intros H. unfold passable. cbn. apply key_eqb_false in H. rewrite H. reflexivity. Qed.
Lemma passable_shared k c m : m_writable m = false -> passable [Guard k c false] m = true.
Proof. intros H. unfold passable. cbn. rewrite H, andb_false_r. reflexivity. Qed.

Lemma data_none len disc l m :
  data_b len disc [] l m =
  plain (check? assert_account_len l m len in check? assert_account_discriminator l m disc in
         Ok (a_data (l (m_key m)), Guard (m_key m) DataCell false)).
Proof.
  unfold data_b, discriminator_b. rewrite !try_none. cbn [bind].
  destruct (assert_account_len _ _ _); [|reflexivity]. cbn. destruct (assert_account_discriminator _ _ _); reflexivity.
Qed.
Lemma data_mut_none len disc l m :
  data_mut_b len disc [] l m =
  plain (check? assert_account_len l m len in check? assert_account_discriminator l m disc in
         Ok (a_data (l (m_key m)), Guard (m_key m) DataCell true)).
Proof.
  unfold data_mut_b, discriminator_b. rewrite try_none, try_mut_none. cbn [bind].
  destruct (assert_account_len _ _ _); [|reflexivity]. cbn. destruct (assert_account_discriminator _ _ _); reflexivity.
Qed.

Lemma alike_view K B b l m len disc g (r : res err (list byte)) (k : list byte * guard -> res borrow_err B)
    (k' : list byte -> res err B) :
  b = plain (check? assert_account_len l m len in check? assert_account_discriminator l m disc in
             Ok (a_data (l (m_key m)), g)) ->
  r = (check? assert_account_len l m len in check? assert_account_discriminator l m disc in Ok (a_data (l (m_key m)))) ->
  (forall d, r = Ok d -> d = a_data (l (m_key m)) -> alike K (k (d, g)) (k' d)) ->
  alike K (bind b k) (bind r k').
Proof.
  intros -> -> H.
  destruct (assert_account_len l m len) as [u|e]; [|left; reflexivity].
  destruct (assert_account_discriminator l m disc) as [u'|e]; [|left; reflexivity].
  cbn. apply H; reflexivity.
Qed.
Lemma alike_state K B l m (k : list byte * guard -> res borrow_err B) (k' : list byte -> res err B) :
  (forall d, assert_state_data l m = Ok d -> d = a_data (l (m_key m)) ->
     alike K (k (d, Guard (m_key m) DataCell false)) (k' d)) ->
  alike K (bind (data_b STATE_LEN DISC_STATE [] l m) k) (bind (assert_state_data l m) k').
Proof. intros H. eapply alike_view; [apply data_none|reflexivity|exact H]. Qed.
Lemma alike_state_mut K B l m (k : list byte * guard -> res borrow_err B) (k' : list byte -> res err B) :
  (forall d, assert_state_data l m = Ok d -> d = a_data (l (m_key m)) ->
     alike K (k (d, Guard (m_key m) DataCell true)) (k' d)) ->
  alike K (bind (data_mut_b STATE_LEN DISC_STATE [] l m) k) (bind (assert_state_data l m) k').
Proof. intros H. eapply alike_view; [apply data_mut_none|reflexivity|exact H]. Qed.
Lemma state_view_again l m d : assert_state_data l m = Ok d ->
  data_b STATE_LEN DISC_STATE [] l m = Ok (d, Guard (m_key m) DataCell false).
Proof.
  intros H. rewrite data_none. unfold assert_state_data in H.
  destruct (assert_account_len l m STATE_LEN); cbn in H; [|discriminate].
  destruct (assert_account_discriminator l m DISC_STATE); cbn in H; [|discriminate].
  injection H as <-. reflexivity.
Qed.
Lemma pending_view_is l m d : assert_pending_data l m = Ok d ->
  data_b PENDING_LEN DISC_PENDING [] l m = Ok (d, Guard (m_key m) DataCell false).
Proof.
  intros H. rewrite data_none. unfold assert_pending_data in H.
  destruct (assert_account_len l m PENDING_LEN); cbn in H; [|discriminate].
  destruct (assert_account_discriminator l m DISC_PENDING); cbn in H; [|discriminate].
  injection H as <-. reflexivity.
Qed.
Lemma pending_view_not l m e : assert_pending_data l m = Err e -> data_b PENDING_LEN DISC_PENDING [] l m = Err (Other e).
Proof.
  intros H. rewrite data_none. unfold assert_pending_data in H.
  destruct (assert_account_len l m PENDING_LEN); cbn in H |- *; [|congruence].
  destruct (assert_account_discriminator l m DISC_PENDING); cbn in H |- *; congruence.
Qed.

Lemma mint_none l m : mint_b [] l m = plain (assert_mint_data l m).
Proof. reflexivity. Qed.
Lemma owner_token_readable B l ta o mi w :
  (a_owner (l (m_key ta)) = token_id -> exists g, try_borrow B (m_key ta) DataCell = Ok g) ->
  owner_token_b B l ta o mi w = plain (make_owner_token_account_assertions l ta o mi w).
Proof.
  intros H. unfold owner_token_b, make_owner_token_account_assertions.
  destruct (if w then assert_account_role ta [Writable] else Ok tt) as [u|e]; [|reflexivity]. cbn [bind plain].
  unfold assert_account_owner. destruct (key_eqb (a_owner (l (m_key ta))) token_id) eqn:Q; [|reflexivity].
  apply key_eqb_true in Q. destruct (H Q) as [g Hg]. cbn [bind plain fail_if negb]. unfold token_b. rewrite Hg. cbn [bind].
  destruct (assert_token_account_data l ta) as [d|e]; [|reflexivity]. cbn [bind plain].
  destruct (key_eqb (tk_owner d) (m_key o)); [|reflexivity]. cbn [bind plain negb fail_if].
  destruct (key_eqb (tk_mint d) (m_key mi)); reflexivity.
Qed.
Lemma owner_token_none l ta o mi w :
  owner_token_b [] l ta o mi w = plain (make_owner_token_account_assertions l ta o mi w).
Proof. apply owner_token_readable. intros _. eexists. apply try_none. Qed.

Lemma create_none C E accs l f n sp o s :
  create_account_b C E [] accs l f n sp o s = plain (create_account_secure C E accs l f n sp o s).
Proof.
  unfold create_account_b, create_account_secure.
  destruct (negb _); [reflexivity|]. destruct (_ =? 0); [apply invoke_none|].
  destruct (0 <? _).
  - rewrite invoke_none. destruct (cpi_system_transfer _ _ _ _ _ _ _) as [l1|e]; [|reflexivity]. cbn [bind plain].
    rewrite invoke_none. destruct (cpi_system_allocate _ _ _ _ _ _) as [l2|e]; [|reflexivity]. cbn [bind plain].
    apply invoke_none.
  - cbn [bind]. rewrite invoke_none. destruct (cpi_system_allocate _ _ _ _ _ _) as [l2|e]; [|reflexivity]. cbn [bind plain].
    apply invoke_none.
Qed.
Lemma create_other C E g accs l f n sp o s :
  g_key g <> m_key f -> g_key g <> m_key n ->
  create_account_b C E [g] accs l f n sp o s = plain (create_account_secure C E accs l f n sp o s).
Proof.
  intros Hf Hn. unfold create_account_b, create_account_secure.
  assert (P1 : forall w x, passable [g] (Meta (m_key f) w x) = true) by (intros; apply passable_other; exact Hf).
  assert (P2 : forall w x, passable [g] (Meta (m_key n) w x) = true) by (intros; apply passable_other; exact Hn).
  destruct (negb _); [reflexivity|]. destruct (_ =? 0).
  { apply invoke_passable. intros m [<-|[<-|[]]]; auto. }
  destruct (0 <? _).
  - rewrite invoke_passable by (intros m [<-|[<-|[]]]; auto).
    destruct (cpi_system_transfer _ _ _ _ _ _ _) as [l1|e]; [|reflexivity]. cbn [bind plain].
    rewrite invoke_passable by (intros m [<-|[]]; auto).
    destruct (cpi_system_allocate _ _ _ _ _ _) as [l2|e]; [|reflexivity]. cbn [bind plain].
    apply invoke_passable; intros m [<-|[]]; auto.
  - cbn [bind]. rewrite invoke_passable by (intros m [<-|[]]; auto).
    destruct (cpi_system_allocate _ _ _ _ _ _) as [l2|e]; [|reflexivity]. cbn [bind plain].
    apply invoke_passable; intros m [<-|[]]; auto.
Qed.

(** The funder is the account that is borrowed: it carries data, so it cannot
    pay. *)
Lemma transfer_with_data sg l f t n : zlen (a_data (l f)) <> 0 -> exists e, sys_transfer sg l f t n = Err e.
Proof.
  intros H. unfold sys_transfer. destruct (negb (sg f)); cbn; [eauto|].
  destruct (zlen (a_data (l f)) =? 0) eqn:Q; [lia|]. cbn. eauto.
Qed.
Lemma invoke_err C accs seeds callee inner body :
  (forall sg, exists e, body sg = Err e) -> exists e, invoke_signed C accs seeds callee inner body = Err e.
Proof.
  intros H. unfold invoke_signed. destruct (pda_signers C seeds); cbn; [|eauto].
  destruct (negb (caller_has_key accs callee)); cbn; [eauto|].
  destruct (negb (forallb _ inner)); cbn; [eauto|apply H].
Qed.
Lemma create_with_data sg l f t n sp o :
  f <> t -> zlen (a_data (l f)) <> 0 -> exists e, sys_create_account sg l f t n sp o = Err e.
Proof.
  intros D H. unfold sys_create_account. destruct (fail_if _ _); cbn; [|eauto].
  destruct (sys_allocate sg l t sp) as [l1|e] eqn:A; cbn; [|eauto].
  destruct (sys_assign sg l1 t o) as [l2|e] eqn:S; cbn; [|eauto].
  apply transfer_with_data.
  assert (A1 : l1 f = l f).
  { unfold sys_allocate in A. destruct (fail_if _ _) in A; cbn in A; [|discriminate].
    destruct (fail_if _ _) in A; cbn in A; [|discriminate].
    destruct (fail_if _ _) in A; cbn in A; [|discriminate].
    injection A as <-. apply set_data_other. congruence. }
  assert (A2 : l2 f = l1 f).
  { unfold sys_assign in S. destruct (key_eqb _ o) in S; [congruence|].
    destruct (fail_if _ _) in S; cbn in S; [|discriminate].
    destruct (fail_if _ _) in S; cbn in S; [|discriminate].
    destruct (fail_if _ _) in S; cbn in S; [|discriminate].
    injection S as <-. apply set_owner_other. congruence. }
  rewrite A2, A1. exact H.
Qed.
Lemma create_pending_alike (K : Prop) C E accs l f n s st :
  (m_key st = m_key f -> K) -> m_key st <> m_key n -> zlen (a_data (l (m_key st))) <> 0 ->
  forall b p, b = create_pending_b C E [Guard (m_key st) DataCell true] accs l f n s ->
  p = create_pending_account C E accs l f n s ->
  b = plain (let? l1 := p in Ok (l1, Guard (m_key n) DataCell true)) \/
  K /\ b = Err BorrowFailed /\ exists e, p = Err e.
Proof.
  intros HK Hn Hd b p -> ->. set (g := Guard (m_key st) DataCell true).
  assert (Last : forall l1, (let? g0 := try_borrow_mut [g] (m_key n) DataCell in
      let? d := plain (set_first_byte DISC_PENDING (a_data (l1 (m_key n)))) in
      Ok (set_data l1 (m_key n) d, g0)) =
    plain (let? l1 := (let? d := set_first_byte DISC_PENDING (a_data (l1 (m_key n))) in Ok (set_data l1 (m_key n) d)) in
           Ok (l1, Guard (m_key n) DataCell true))).
  { intros l1. rewrite try_mut_other by exact Hn. cbn [bind].
    destruct (set_first_byte _ _); reflexivity. }
  destruct (key_eqb (m_key st) (m_key f)) eqn:Q.
  2:{ apply key_eqb_false in Q. left. unfold create_pending_b, create_pending_account.
      rewrite create_other by assumption.
      destruct (create_account_secure _ _ _ _ _ _ _ _ _) as [l1|e]; [|reflexivity]. cbn [bind plain]. apply Last. }
  apply key_eqb_true in Q. unfold create_pending_b, create_pending_account, create_account_b, create_account_secure.
  assert (P0 : passable [g] (Meta (m_key f) true true) = false).
  { unfold passable, g. cbn. rewrite Q, key_eqb_refl. reflexivity. }
  assert (P2 : forall w x, passable [g] (Meta (m_key n) w x) = true) by (intros; apply passable_other; exact Hn).
  destruct (negb (key_eqb (a_owner (l (m_key n))) system_id)); [left; cbn [bind]; apply Last|].
  destruct (a_lamports (l (m_key n)) =? 0).
  { right. split; [apply HK, Q|]. split.
    - unfold invoke_checked. cbn [forallb]. rewrite P0. reflexivity.
    - unfold cpi_system_create.
      match goal with |- context [invoke_signed ?a ?b ?c ?d ?e ?f] => destruct (invoke_err a b c d e f) as [e0 He] end.
      { intros sg. apply create_with_data; [congruence|rewrite <- Q; exact Hd]. }
      rewrite He. cbn. eauto. }
  destruct (0 <? _).
  { right. split; [apply HK, Q|]. split.
    - unfold invoke_checked. cbn [forallb]. rewrite P0. reflexivity.
    - unfold cpi_system_transfer.
      match goal with |- context [invoke_signed ?a ?b ?c ?d ?e ?f] => destruct (invoke_err a b c d e f) as [e0 He] end.
      { intros sg. apply transfer_with_data. rewrite <- Q; exact Hd. }
      rewrite He. cbn. eauto. }
  left. cbn [bind]. rewrite invoke_passable by (intros m [<-|[]]; auto).
  destruct (cpi_system_allocate _ _ _ _ _ _) as [l2|e]; [|reflexivity]. cbn [bind plain].
  rewrite invoke_passable by (intros m [<-|[]]; auto).
  destruct (cpi_system_assign _ _ _ _ _ _) as [l3|e]; [|reflexivity]. cbn [bind plain]. apply Last.
Qed.

Lemma create_state_none C E accs l f n sd s :
  create_state_b C E [] accs l f n sd s = plain (create_state_account C E accs l f n sd s).
Proof.
  unfold create_state_b, create_state_account. rewrite create_none.
  destruct (create_account_secure _ _ _ _ _ _ _ _ _); [|reflexivity]. cbn [bind plain]. rewrite try_mut_none. cbn [bind].
  destruct (fail_if _ _); reflexivity.
Qed.
Lemma close_none l a r : close_b [] l a r = plain (close_program_account l a r).
Proof.
  unfold close_b, close_program_account. rewrite !try_mut_none. cbn [bind].
  destruct (set_first_byte _ _); [|reflexivity]. cbn [bind plain]. rewrite !try_mut_lamports. cbn [bind].
  destruct (fail_if _ _); [|reflexivity]. cbn [bind plain]. destruct (fail_if _ _); reflexivity.
Qed.

Lemma owner_is l m k u : assert_account_owner l m k = Ok u -> a_owner (l (m_key m)) = k.
Proof.
  unfold assert_account_owner. destruct (key_eqb _ k) eqn:Q; [|discriminate]. intros _. apply key_eqb_true, Q.
Qed.
Lemma token_owner_is l ta o mi w d : make_owner_token_account_assertions l ta o mi w = Ok d ->
  a_owner (l (m_key ta)) = token_id.
Proof.
  unfold make_owner_token_account_assertions.
  destruct (if w then _ else _); cbn; [|discriminate].
  destruct (assert_account_owner l ta token_id) eqn:Q; cbn; [|discriminate]. intros _. eapply owner_is; exact Q.
Qed.
Lemma apart l (j k : meta) a b : a_owner (l (m_key j)) = a -> a_owner (l (m_key k)) = b -> a <> b -> m_key j <> m_key k.
Proof. intros A B D Q. rewrite Q in A. congruence. Qed.

Ltac lock := apply alike_bind; let x := fresh "x" in let H := fresh "H" in intros x H.
Ltac lockt := apply alike_bind_eq; [apply owner_token_none|let x := fresh "x" in let H := fresh "H" in intros x H].
Ltac lockm := apply alike_bind_eq; [apply mint_none|let x := fresh "x" in let H := fresh "H" in intros x H].

Lemma ids_apart : xorca_id <> token_id /\ xorca_id <> system_id.
Proof. split; intros Q; vm_compute in Q; discriminate Q. Qed.

Lemma stake_alike K C accs l a : alike K (stake_b C accs l a) (stake_process C accs l a).
Proof.
  destruct ids_apart as [Dt _].
  unfold stake_b, stake_process. do 8 lock. do 4 lock. lockt. lock. lockt. do 2 lock. lockm. do 2 lock.
  apply alike_state. intros sv Hsv Esv. cbn [fst snd].
  do 2 lock.
  match goal with H : assert_account_owner l ?s xorca_id = Ok _ |- _ => rename s into st; apply owner_is in H; rename H into Os end.
  apply alike_bind_eq.
  { apply owner_token_readable. intros Q. eexists. apply try_other. cbn. eapply apart; eassumption. }
  intros vd Hvd. do 3 lock.
  pose proof (token_owner_is _ _ _ _ _ _ Hvd) as Ov.
  repeat match goal with
  | H : make_owner_token_account_assertions _ _ _ _ _ = Ok _ |- _ => apply token_owner_is in H
  | H : assert_account_owner _ _ token_id = Ok _ |- _ => apply owner_is in H
  end.
  apply alike_bind_eq.
  { apply invoke_passable. intros m [<-|[<-|[<-|[]]]];
      [apply passable_other; cbn; eapply apart; eassumption| |apply passable_shared; reflexivity].
    apply passable_other. cbn. eapply apart; eassumption. }
  intros l1 Hc1.
  apply alike_bind_eq.
  { apply invoke_passable. intros m [<-|[<-|[<-|[]]]];
      [| |apply passable_shared; reflexivity]; apply passable_other; cbn; eapply apart; eassumption. }
  intros l2 Hc2. apply alike_end.
Qed.

(** Unstake's signer is passed as the State account, too. *)
Definition state_signs (l : ledger) (accs : list meta) : Prop :=
  exists m n, nth_error accs 0 = Some m /\ nth_error accs 1 = Some n /\ m_key m = m_key n /\ m_signer m = true /\
    is_state l (m_key n).

Lemma spliced_not_empty v d : zlen (set_escrow v d) <> 0.
Proof.
  unfold zlen, set_escrow, set_u64, splice. rewrite !app_length, le_enc_length. lia.
Qed.
Lemma role_signer m u : assert_account_role m [Signer; Writable] = Ok u -> m_signer m = true.
Proof. unfold assert_account_role. cbn. destruct (m_signer m); [reflexivity|discriminate]. Qed.
Lemma info_is accs n m : get_account_info accs n = Ok m -> nth_error accs n = Some m.
Proof. unfold get_account_info. destruct (nth_error accs n); congruence. Qed.

Lemma unstake_alike C E accs l x i :
  alike (state_signs l accs) (unstake_b C E accs l x i) (unstake_process C E accs l x i).
Proof.
  destruct ids_apart as [_ Ds].
  unfold unstake_b, unstake_process.
  apply alike_bind; intros un Hun. apply alike_bind; intros st Hst. apply alike_bind; intros pd Hpd.
  do 6 lock. apply alike_bind; intros u Hrole. do 5 lock. apply alike_bind; intros u' Ost. apply owner_is in Ost.
  lockt. lock. apply alike_bind; intros u'' Opd. apply owner_is in Opd.
  do 1 lock. lockt. do 3 lock. lockm. do 3 lock. lockm.
  match goal with |- alike ?K (bind (bind ?b ?f) ?k) (bind ?r ?k') =>
    replace (bind (bind b f) k) with (bind b (fun v => bind (f v) k)) by (destruct b; reflexivity) end.
  apply alike_state. intros sv Hsv Esv. cbn [fst snd].
  match goal with |- alike ?K (bind (check? ?p in check? ?q in Ok ?v) ?k) _ =>
    replace (bind (check? p in check? q in Ok v) k) with (check? p in check? q in k v)
      by (destruct p; [cbn [bind]; destruct q; reflexivity|reflexivity]) end.
  do 5 lock. apply alike_bind_eq; [apply invoke_none|]. intros l1 Hc1.
  apply alike_state_mut. intros sv1 Hs1 Es1. cbn [fst snd].
  apply alike_bind; intros ne Hne.
  assert (HK : m_key st = m_key un -> state_signs l accs).
  { intros Q. exists un, st. split; [apply info_is, Hun|]. split; [apply info_is, Hst|]. split; [congruence|].
    split; [eapply role_signer; exact Hrole|]. split; [exact Ost|].
    apply state_data_ok in Hsv. destruct Hsv as [-> [_ Hd]]. exact Hd. }
  assert (Dn : m_key st <> m_key pd) by (eapply apart; eassumption).
  assert (Hl : forall l2, l2 = set_data l1 (m_key st) (set_escrow ne sv1) -> zlen (a_data (l2 (m_key st))) <> 0).
  { intros l2 ->. rewrite set_data_same. cbn. apply spliced_not_empty. }
  match goal with |- alike ?K (bind (create_pending_b _ _ _ _ ?l2 _ _ ?s) _) _ =>
    destruct (create_pending_alike K C E accs l2 un pd s st) with (1 := HK) (2 := Dn) (3 := Hl l2 eq_refl)
      (4 := @eq_refl _ (create_pending_b C E [Guard (m_key st) DataCell true] accs l2 un pd s))
      (5 := @eq_refl _ (create_pending_account C E accs l2 un pd s)) as [Q|[K1 [Q [e He]]]] end.
  - rewrite Q. destruct (create_pending_account _ _ _ _ _ _ _) as [l3|e]; [|left; reflexivity]. cbn [bind plain fst].
    lock. apply alike_end.
  - rewrite Q, He. right. split; [exact K1|]. split; [reflexivity|]. eexists; reflexivity.
Qed.

Lemma withdraw_alike K C E accs l i : alike K (withdraw_b C E accs l i) (withdraw_process C E accs l i).
Proof.
  unfold withdraw_b, withdraw_process. do 8 lock. do 5 lock.
  match goal with |- alike ?K (bind (bind ?b ?f) ?k) (bind ?r ?k') =>
    replace (bind (bind b f) k) with (bind b (fun v => bind (f v) k)) by (destruct b; reflexivity) end.
  apply alike_state. intros sv Hsv Esv. cbn [fst snd].
  match goal with |- alike ?K (bind (check? ?p in check? ?q in Ok ?v) ?k) _ =>
    replace (bind (check? p in check? q in Ok v) k) with (check? p in check? q in k v)
      by (destruct p; [cbn [bind]; destruct q; reflexivity|reflexivity]) end.
  do 4 lock.
  destruct (assert_pending_data l _) as [pv|e] eqn:Hpv.
  2:{ rewrite (pending_view_not _ _ _ Hpv). left; reflexivity. }
  rewrite !(pending_view_is _ _ _ Hpv). cbn [bind fst snd].
  lock. do 2 lockt. do 3 lock.
  rewrite (state_view_again _ _ _ Hsv). cbn [bind fst].
  lock. apply alike_bind_eq; [apply invoke_none|]. intros l1 Hc1.
  apply alike_bind_eq; [apply close_none|]. intros l2 Hc2.
  apply alike_state_mut. intros sv1 Hs1 Es1. cbn [fst snd]. lock. apply alike_end.
Qed.

Lemma initialize_alike K C E accs l c : alike K (initialize_b C E accs l c) (initialize_process C E accs l c).
Proof.
  unfold initialize_b, initialize_process. do 9 lock. do 7 lock. lockm. do 8 lock. lockm. do 8 lock.
  destruct (find_vault_address _ _ _ _) as [[v b]|]; [|left; reflexivity].
  do 2 lock. apply alike_bind_eq; [apply create_state_none|]. intros l1 Hc1.
  apply alike_bind_eq; [apply invoke_none|]. intros l2 Hc2. apply alike_end.
Qed.

Lemma set_alike K C accs l u : alike K (set_b C accs l u) (set_process C accs l u).
Proof.
  unfold set_b, set_process. do 5 lock. apply alike_state_mut. intros sv Hsv Esv. cbn [fst snd]. do 2 lock.
  destruct u; [lock|]; apply alike_end.
Qed.

Lemma call_alike C E p accs l data :
  alike (state_signs l accs /\ exists x i, deserialize read_instruction data = Some (Unstake x i))
    (process_instruction_b C E p accs l data) (process_instruction C E p accs l data).
Proof.
  unfold process_instruction_b, process_instruction. apply alike_bind; intros ok _.
  destruct (deserialize read_instruction data) as [[a|x i|i|c|u]|]; [| | | | |left; reflexivity].
  - apply stake_alike.
  - destruct (unstake_alike C E accs l x i) as [Q|[Q R]]; [left; exact Q|]. right. split; [|exact R].
    split; [exact Q|]. exists x, i. reflexivity.
  - apply withdraw_alike.
  - apply initialize_alike.
  - apply set_alike.
Qed.

(** In this form the claim needs nothing. *)
Lemma borrows_harmless C E accs l data :
  process_instruction_b C E xorca_id accs l data = plain (process_instruction C E xorca_id accs l data) \/
  process_instruction_b C E xorca_id accs l data = Err BorrowFailed /\
  (exists e, process_instruction C E xorca_id accs l data = Err e) /\
  (exists x i, encodes data (Unstake x i)) /\
  exists k, signed_slot accs 0 k /\ slot accs 1 k /\ is_state l k.
Proof.
  destruct (call_alike C E xorca_id accs l data) as [Q|[[K [x [i D]]] [Q R]]]; [left; exact Q|right].
  split; [exact Q|]. split; [exact R|]. split; [exists x, i; apply decode_encodes, D|].
  destruct K as (m & n & N0 & N1 & Hk & Hs & Hi). exists (m_key n).
  split; [exists m; auto|]. split; [exists n; auto|exact Hi].
Qed.
Lemma same_successes C E accs l data o :
  process_instruction_b C E xorca_id accs l data = Ok o <-> process_instruction C E xorca_id accs l data = Ok o.
Proof.
  destruct (borrows_harmless C E accs l data) as [Q|[Q [[e R] _]]]; rewrite Q; [|rewrite R; split; discriminate].
  destruct (process_instruction C E xorca_id accs l data); cbn; split; congruence.
Qed.
Lemma borrows_never_fail C E accs l data :
  ordinary_state_address C -> reaches C l -> honest_metas C accs ->
  process_instruction_b C E xorca_id accs l data = plain (process_instruction C E xorca_id accs l data).
Proof.
  intros Ho Hr Hh. destruct (borrows_harmless C E accs l data) as [Q|[_ [_ [_ (k & (m & S0 & Hk & Hs) & _ & Hst)]]]]; [exact Q|].
  destruct (reaches_pool _ _ _ Ho Hr Hst) as (vk & P & HP). exfalso.
  apply (Hh m); [eapply nth_error_In; exact S0|exact Hs|]. rewrite Hk. eapply pool_sk_signs; exact HP.
Qed.
Lemma no_borrow_error C E accs l data :
  ordinary_state_address C -> reaches C l -> honest_metas C accs ->
  process_instruction_b C E xorca_id accs l data <> Err BorrowFailed.
Proof.
  intros Ho Hr Hh. rewrite (borrows_never_fail _ _ _ _ _ Ho Hr Hh).
  destruct (process_instruction C E xorca_id accs l data); discriminate.
Qed.
