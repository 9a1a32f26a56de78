(** A call that is wrong in one place gets the error number of that place (C67). *)
From Verif Require Import MistakeSpec BytesFacts LedgerFacts TokenFacts ParseFacts AssertFacts
  ClientSpec RaiseFacts HistoryFacts LifeFacts ClaimFacts ErrorFacts Pool.
Import List ListNotations.
Open Scope list_scope.
Open Scope Z_scope.

(** ** Two runs in lockstep *)
(** If the first run succeeds, the second fails with [e]. *)
Definition turned {A} (e : err) (r r' : res err A) : Prop := is_ok r = true -> r' = Err e.

Lemma turned_fail {A B D} e (x : res err A) (x' : res err B) (f : A -> res err D) f' :
  x' = Err e -> turned e (bind x f) (bind x' f').
Proof. intros -> _. reflexivity. Qed.
Lemma turned_then {A B D} e (x : res err A) (x' : res err B) (f : A -> res err D) f' :
  (forall a, x = Ok a -> x' = Err e) -> turned e (bind x f) (bind x' f').
Proof. intros H. destruct x; cbn; [intros _; now rewrite (H a eq_refl)|intros [=]]. Qed.
Lemma turned_same {A D} e (x : res err A) (f f' : A -> res err D) :
  (forall a, x = Ok a -> turned e (f a) (f' a)) -> turned e (bind x f) (bind x f').
Proof. intros H. destruct x; cbn; [now apply H|intros [=]]. Qed.
Lemma turned_pass {A B D} e (x : res err A) (x' : res err B) b (f : A -> res err D) f' :
  (forall a, x = Ok a -> x' = Ok b) -> (forall a, x = Ok a -> turned e (f a) (f' b)) -> turned e (bind x f) (bind x' f').
Proof. intros X H. destruct x; cbn; [|intros [=]]. rewrite (X a eq_refl). now apply H. Qed.
Lemma skipn_get {A} n : forall (l : list A) d, nth_error (skipn n l) d = nth_error l (n + d).
Proof. induction n as [|n IH]; intros [|x l] d; cbn [skipn nth_error Nat.add]; auto. destruct d; reflexivity. Qed.
Lemma with_get accs n m j : (n < length accs)%nat ->
  get_account_info (with_entry accs n m) j = if Nat.eqb j n then Ok m else get_account_info accs j.
Proof.
  intros H. unfold get_account_info, with_entry.
  assert (L : length (firstn n accs) = n) by (apply firstn_length_le; lia).
  destruct (Nat.eqb_spec j n) as [->|N].
  - rewrite nth_error_app2 by lia. rewrite L, Nat.sub_diag. reflexivity.
  - destruct (Nat.lt_ge_cases j n) as [G|G].
    + rewrite nth_error_app1 by lia. rewrite <- (firstn_skipn n accs) at 2. rewrite nth_error_app1 by lia. reflexivity.
    + rewrite nth_error_app2 by lia. rewrite L. destruct (j - n)%nat as [|d] eqn:Q; [lia|]. cbn [nth_error].
      replace (nth_error accs j) with (nth_error (skipn (S n) accs) d); [reflexivity|].
      rewrite skipn_get. f_equal. lia.
Qed.
Lemma with_key_get accs n k m j : nth_error accs n = Some m ->
  get_account_info (with_key accs n k) j =
  if Nat.eqb j n then Ok (Meta k (m_signer m) (m_writable m)) else get_account_info accs j.
Proof.
  intros H. unfold with_key. rewrite H. apply with_get. apply nth_error_Some. congruence.
Qed.
Lemma with_flags_get accs n s w m j : nth_error accs n = Some m ->
  get_account_info (with_flags accs n s w) j =
  if Nat.eqb j n then Ok (Meta (m_key m) s w) else get_account_info accs j.
Proof.
  intros H. unfold with_flags. rewrite H. apply with_get. apply nth_error_Some. congruence.
Qed.

(** ** Failing checks *)
Lemma fail_true {c} b : b = true -> fail_if b (custom c) = Err (custom c).
Proof. now intros ->. Qed.
Lemma role_sw_fails m :
  m_signer m = false \/ m_writable m = false ->
  assert_account_role m [Signer; Writable] = Err (custom InvalidAccountRole).
Proof. cbn. intros [->| ->]; [reflexivity|]. destruct (m_signer m); reflexivity. Qed.
Lemma role_w_fails m : m_writable m = false -> assert_account_role m [Writable] = Err (custom InvalidAccountRole).
Proof. cbn. now intros ->. Qed.
Lemma ta_role_fails l m o t : m_writable m = false ->
  make_owner_token_account_assertions l m o t true = Err (custom InvalidAccountRole).
Proof. intros H. unfold make_owner_token_account_assertions. now rewrite role_w_fails. Qed.
Lemma key_ne a b : a <> b -> key_eqb a b = false.
Proof. apply key_eqb_false. Qed.
Lemma owner_fails l m o : a_owner (l (m_key m)) <> o -> assert_account_owner l m o = Err (custom IncorrectOwner).
Proof. intros H. unfold assert_account_owner. now rewrite key_ne. Qed.
Lemma address_fails m a : m_key m <> a -> assert_account_address m a = Err (custom IncorrectAccountAddress).
Proof. intros H. unfold assert_account_address. now rewrite key_ne. Qed.
Lemma seeds_fails C m pid ss a b :
  find_program_address C ss pid = Some (a, b) -> m_key m <> a ->
  assert_account_seeds C m pid ss = Err (custom InvalidSeeds).
Proof. intros H N. unfold assert_account_seeds. rewrite H. now rewrite key_ne. Qed.
Lemma state_data_fails l m : ~ state_bytes l (m_key m) -> assert_state_data l m = Err (custom InvalidAccountData).
Proof.
  intros N. pose proof (state_data_why (fun c => c = InvalidAccountData) l m (fun _ => eq_refl)) as H.
  destruct (assert_state_data l m) eqn:Q.
  - apply state_data_ok in Q. destruct Q as [-> [Q1 Q2]]. destruct N. split; [unfold zlen in Q1; lia|exact Q2].
  - unfold assert_state_data, assert_account_len, assert_account_discriminator, bind, fail_if in Q.
    destruct (_ <? _) in Q; [congruence|]. destruct (_ <? 1) in Q; [congruence|]. destruct (negb _) in Q; congruence.
Qed.
Lemma pending_data_fails l m : ~ record_bytes l (m_key m) -> assert_pending_data l m = Err (custom InvalidAccountData).
Proof.
  intros N. destruct (assert_pending_data l m) eqn:Q.
  - apply pending_data_ok in Q. destruct Q as [-> [Q1 Q2]]. destruct N. split; [unfold zlen in Q1; lia|exact Q2].
  - unfold assert_pending_data, assert_account_len, assert_account_discriminator, bind, fail_if in Q.
    destruct (_ <? _) in Q; [congruence|]. destruct (_ <? 1) in Q; [congruence|]. destruct (negb _) in Q; congruence.
Qed.
Lemma mint_data_fails l m : ~ mint_bytes l (m_key m) -> assert_mint_data l m = Err (custom InvalidAccountData).
Proof.
  intros N. destruct (assert_mint_data l m) eqn:Q.
  - apply mint_data_ok in Q. destruct Q as [-> [Q1 Q2]]. destruct N. split; [unfold zlen in Q1; lia|exact Q2].
  - unfold assert_mint_data in Q. destruct (deserialize _ _) in Q; congruence.
Qed.
Lemma ta_owner_fails l m o t w : (w = true -> m_writable m = true) -> a_owner (l (m_key m)) <> token_id ->
  make_owner_token_account_assertions l m o t w = Err (custom IncorrectOwner).
Proof.
  intros W N. unfold make_owner_token_account_assertions. rewrite (owner_fails _ _ _ N).
  destruct w; [|reflexivity]. cbn. now rewrite W.
Qed.
Lemma ta_bytes_fails l m o t w : (w = true -> m_writable m = true) -> a_owner (l (m_key m)) = token_id ->
  ~ token_bytes l (m_key m) (m_key t) (m_key o) ->
  make_owner_token_account_assertions l m o t w = Err (custom InvalidAccountData).
Proof.
  intros W O N. destruct (make_owner_token_account_assertions l m o t w) eqn:Q.
  - apply owner_ta_ok in Q. destruct Q as (_ & (_ & [Q1 Q2] & Q3 & Q4) & _). destruct N.
    split; [unfold zlen in Q1; lia|auto].
  - revert Q. unfold make_owner_token_account_assertions.
    assert (W' : (if w then assert_account_role m [Writable] else Ok tt) = Ok tt) by (destruct w; [cbn; now rewrite W|reflexivity]).
    rewrite W'. assert (O' : assert_account_owner l m token_id = Ok tt) by now apply owner_ok. rewrite O'. cbn [bind].
    unfold assert_token_account_data, bind, fail_if. destruct (deserialize _ _); [|congruence].
    destruct (negb _); [congruence|]. destruct (negb _); congruence.
Qed.

(** ** Tactics *)
Ltac lock :=
  repeat lazymatch goal with
  | |- turned _ (bind ?x _) (bind ?x _) => apply turned_same; intros ? ?
  | |- turned _ (match ?x with Some _ => _ | None => _ end) (match ?x with Some _ => _ | None => _ end) =>
      destruct x as [[]|]; [|intros [=]]
  end.
Lemma accepted_entry C E accs l data i n r :
  encodes data i -> accepted C E accs l data -> nth_error (rules i) n = Some r -> exists m, nth_error accs n = Some m.
Proof.
  intros He Ha Hr. destruct (nth_error accs n) as [m|] eqn:Q; [eauto|]. exfalso. apply nth_error_None in Q.
  assert (N : (n < length (rules i))%nat) by (apply nth_error_Some; congruence).
  assert (T : (length accs < length (rules i))%nat) by lia.
  apply (too_few_accounts C E accs l data i He) in T. unfold accepted in Ha. rewrite T in Ha. discriminate.
Qed.
Definition run (C : crypto) (E : env) (i : instruction) (accs : list meta) (l : ledger) : res err outcome :=
  match i with
  | Initialize c => initialize_process C E accs l c
  | Stake a => stake_process C accs l a
  | Unstake a j => unstake_process C E accs l a j
  | Withdraw j => withdraw_process C E accs l j
  | Set_ u => set_process C accs l u
  end.
Lemma process_run C E accs l data i : encodes data i -> process_instruction C E xorca_id accs l data = run C E i accs l.
Proof.
  intros He. apply decode_encodes in He. unfold process_instruction. rewrite key_eqb_refl, He. cbn [negb fail_if bind].
  destruct i; reflexivity.
Qed.
(** Nine places at most. *)
Ltac places n H :=
  first [ exfalso; cbn [nth_error] in H; discriminate H
        | exfalso; destruct n; cbn [nth_error] in H; discriminate H
        | destruct n as [|n]; [cbn [nth_error] in H; injection H as <-|places n H] ].
Ltac line H :=
  cbn [run]; unfold stake_process, unstake_process, withdraw_process, initialize_process, set_process;
  rewrite ?(with_key_get _ _ _ _ _ H), ?(with_flags_get _ _ _ _ _ _ H); cbn [Nat.eqb];
  let G := fresh "G" in
  match type of H with nth_error ?accs ?n = Some ?m =>
    assert (G : get_account_info accs n = Ok m) by (unfold get_account_info; now rewrite H); rewrite !G end.

(** ** The refusals *)
Ltac flags :=
  repeat first
    [ progress lock
    | solve [apply turned_fail; first [apply role_sw_fails; cbn; auto | apply role_w_fails; reflexivity | apply ta_role_fails; reflexivity]]
    | apply turned_same; intros ? ? ].
Lemma flags_refused C E accs l data i n r s w :
 encodes data i -> accepted C E accs l data -> nth_error (rules i) n = Some r ->
 needs_signature r = true /\ s = false \/ needs_writable r = true /\ w = false ->
 answers C E (with_flags accs n s w) l data InvalidAccountRole.
Proof.
  intros He Ha Hr D. destruct (accepted_entry _ _ _ _ _ _ _ _ He Ha Hr) as [m Hm].
  unfold accepted in Ha. unfold answers. rewrite (process_run _ _ _ _ _ _ He) in Ha. rewrite (process_run _ _ _ _ _ _ He). revert Ha.
  change (turned (custom InvalidAccountRole) (run C E i accs l) (run C E i (with_flags accs n s w) l)).
  destruct i; cbn [rules] in Hr; places n Hr; cbn [needs_signature needs_writable] in D.
  all: destruct D as [[D1 ->]|[D1 ->]]; try discriminate D1; clear D1.
  all: (line Hm; cbn [bind]; flags).
Qed.


(** Start: the two runs of a call accepted with [accs]. *)
Lemma refused C E accs accs' l data i c :
  encodes data i -> accepted C E accs l data ->
  turned (custom c) (run C E i accs l) (run C E i accs' l) -> answers C E accs' l data c.
Proof.
  intros He Ha H. unfold accepted in Ha. unfold answers. rewrite (process_run _ _ _ _ _ _ He) in Ha.
  rewrite (process_run _ _ _ _ _ _ He). exact (H Ha).
Qed.
Lemma acct_entry C E accs l data i n :
  encodes data i -> accepted C E accs l data -> (n < length (rules i))%nat ->
  exists m, nth_error accs n = Some m /\ acct accs n = m_key m.
Proof.
  intros He Ha Hn. destruct (nth_error (rules i) n) as [r|] eqn:Q; [|apply nth_error_None in Q; lia].
  destruct (accepted_entry _ _ _ _ _ _ _ _ He Ha Q) as [m Hm]. exists m. split; [exact Hm|now apply acct_of].
Qed.
Ltac same := repeat first [progress lock | apply turned_same; intros ? ?].
Ltac start He Ha Hm := apply (refused _ _ _ _ _ _ _ _ He Ha); line Hm; cbn [bind].

Lemma address_refused C E accs l data i n r a k :
  encodes data i -> accepted C E accs l data -> nth_error (rules i) n = Some r -> needs_address r = Some a ->
  (forall c, i = Initialize c -> (6 <= n)%nat) -> k <> a ->
  answers C E (with_key accs n k) l data IncorrectAccountAddress.
Proof.
  intros He Ha Hr D Hi Hk. destruct (accepted_entry _ _ _ _ _ _ _ _ He Ha Hr) as [m Hm].
  apply (refused _ _ _ _ _ _ _ _ He Ha).
  destruct i as [amt|x j|j|c|u]; cbn [rules] in Hr; places n Hr; cbn [needs_address] in D; try discriminate D; injection D as <-;
    try (specialize (Hi _ eq_refl); lia); clear Hi.
  all: line Hm; cbn [bind];
    repeat first [progress lock | solve [apply turned_fail, address_fails; exact Hk] | apply turned_same; intros ? ?].
Qed.

(** Initialize looks at the contents of the mints before their addresses. *)
Lemma init_mint_refused C E accs l data c n r a k :
  encodes data (Initialize c) -> accepted C E accs l data -> nth_error (rules (Initialize c)) n = Some r ->
  n = 4%nat \/ n = 5%nat -> needs_address r = Some a -> k <> a ->
  (a_owner (l k) <> token_id -> answers C E (with_key accs n k) l data IncorrectOwner) /\
  (a_owner (l k) = token_id -> ~ mint_bytes l k -> answers C E (with_key accs n k) l data InvalidAccountData) /\
  (a_owner (l k) = token_id -> mint_bytes l k ->
   answers C E (with_key accs n k) l data
     (if Nat.eqb n 4 && key_eqb (mint_auth (a_data (l k))) (acct accs 2) && negb (mint_supply (a_data (l k)) =? 0)
      then InvalidAccountData else IncorrectAccountAddress)).
Proof.
  intros He Ha Hr Hn D Hk. destruct (accepted_entry _ _ _ _ _ _ _ _ He Ha Hr) as [m Hm].
  destruct (acct_entry C E accs l data (Initialize c) 2 He Ha) as (m2 & H2 & K2); [cbn; lia|].
  assert (G2 : get_account_info accs 2 = Ok m2) by (unfold get_account_info; now rewrite H2).
  assert (MB : mint_bytes l k -> assert_mint_data l (Meta k (m_signer m) (m_writable m)) = Ok (parse_mint (a_data (l k)))).
  { intros [B1 B2]. apply mint_data_ok. split; [reflexivity|]. cbn [m_key]. split; [unfold zlen; lia|exact B2]. }
  destruct Hn as [-> | ->]; cbn in Hr; injection Hr as <-; cbn in D; injection D as <-.
  - split; [|split].
    + intros O. start He Ha Hm. same. apply turned_fail, owner_fails. exact O.
    + intros O B. start He Ha Hm. same. apply (turned_pass _ _ _ tt); [intros ? _; now apply owner_ok|intros ? _].
      apply turned_fail, mint_data_fails. exact B.
    + intros O B. start He Ha Hm. rewrite G2. cbn [bind]. same. apply (turned_pass _ _ _ tt); [intros ? _; now apply owner_ok|intros ? _].
      apply (turned_pass _ _ _ (parse_mint (a_data (l k)))); [intros ? _; now apply MB|intros ? _].
      cbn [parse_mint tm_mint_authority tm_supply]. rewrite K2. cbn [Nat.eqb andb].
      destruct (key_eqb _ (m_key m2)) eqn:Q; cbn [andb].
      * apply key_eqb_true in Q. apply (turned_pass _ _ _ tt); [intros ? _; now apply address_ok|intros ? _].
        destruct (mint_supply (a_data (l k)) =? 0) eqn:Z; cbn [negb].
        -- apply (turned_pass _ _ _ tt); [intros ? _; reflexivity|intros ? _].
           apply turned_fail, address_fails. exact Hk.
        -- now apply turned_fail.
      * apply turned_fail, address_fails. apply key_eqb_false in Q. congruence.
  - split; [|split].
    + intros O. start He Ha Hm. same. apply turned_fail, owner_fails. exact O.
    + intros O B. start He Ha Hm. same. apply (turned_pass _ _ _ tt); [intros ? _; now apply owner_ok|intros ? _].
      apply turned_fail, mint_data_fails. exact B.
    + intros O B. start He Ha Hm. same. apply (turned_pass _ _ _ tt); [intros ? _; now apply owner_ok|intros ? _].
      apply (turned_pass _ _ _ (parse_mint (a_data (l k)))); [intros ? _; now apply MB|intros ? _].
      cbn [Nat.eqb andb]. apply turned_fail, address_fails. exact Hk.
Qed.


Ltac failing t := apply turned_then; intros ? ?X; t.
Ltac owned O := apply (turned_pass _ _ _ tt); [intros ? _; apply owner_ok; exact O|intros ? _].

(** The State account of an accepted call is one. *)
Lemma accepted_state C E accs l data i :
  encodes data i -> (forall c, i <> Initialize c) -> accepted C E accs l data -> is_state l (acct accs (state_place i)).
Proof.
  intros He Hi Ha. destruct (acct_entry C E accs l data i (state_place i) He Ha) as (m & Hm & ->); [destruct i; cbn; lia|].
  unfold accepted in Ha. rewrite (process_run _ _ _ _ _ _ He) in Ha.
  assert (G : get_account_info accs (state_place i) = Ok m) by (unfold get_account_info; now rewrite Hm).
  assert (X : forall A B (x : res err A) (f : A -> res err B), is_ok (bind x f) = true -> exists a, x = Ok a /\ is_ok (f a) = true).
  { intros A B [a|e] f; cbn; [eauto|discriminate]. }
  destruct i as [amt|x j|j|c|u]; [..|now destruct (Hi c)|]; cbn [run state_place] in *; clear Hi;
    unfold stake_process, unstake_process, withdraw_process, set_process in Ha; rewrite G in Ha.
  all: repeat (apply X in Ha; let a := fresh "a" in let Q := fresh "Q" in destruct Ha as (a & Q & Ha);
         try match type of Q with Ok _ = Ok _ => injection Q as Q; rewrite <- Q in Ha; clear Q end;
         lazymatch goal with
         | Q : assert_account_owner _ ?m _ = Ok _ |- is_state _ (m_key ?m) => apply owner_ok in Q
         | Q : assert_state_data _ ?m = Ok _ |- is_state _ (m_key ?m) => apply state_data_ok in Q; destruct Q as [-> [_ Q]]; split; assumption
         | _ => idtac end).
Qed.

Lemma state_refused C E accs l data i k :
  ordinary_state_address C -> reaches C l -> encodes data i -> (forall c, i <> Initialize c) ->
  accepted C E accs l data -> k <> acct accs (state_place i) ->
  (a_owner (l k) <> xorca_id -> answers C E (with_key accs (state_place i) k) l data IncorrectOwner) /\
  (a_owner (l k) = xorca_id -> answers C E (with_key accs (state_place i) k) l data InvalidAccountData).
Proof.
  intros Hord Hr He Hi Ha Hk. pose proof (accepted_state _ _ _ _ _ _ He Hi Ha) as Hs.
  destruct (acct_entry C E accs l data i (state_place i) He Ha) as (m & Hm & K); [destruct i; cbn; lia|].
  assert (NS : a_owner (l k) = xorca_id -> ~ state_bytes l k).
  { intros O [_ B]. apply Hk. eapply state_unique; [exact Hord|exact Hr|exact Hs|split; assumption]. }
  rewrite K in *. clear Hs.
  split; intros O.
  - destruct i as [amt|x j|j|c|u]; [..|now destruct (Hi c)|]; cbn [state_place] in *; start He Ha Hm; same;
      apply turned_fail, owner_fails; exact O.
  - specialize (NS O).
    destruct i as [amt|x j|j|c|u]; [..|now destruct (Hi c)|]; cbn [state_place] in *; start He Ha Hm; same; owned O; same.
    1,3,4: apply turned_fail, state_data_fails; exact NS.
    failing idtac. apply owner_ta_ok in X. destruct X as (_ & T & _). destruct T as (T1 & T2 & T3 & T4).
    apply ta_bytes_fails; [discriminate|exact T1|]. intros (_ & _ & _ & Q). cbn [m_key] in Q. congruence.
Qed.

Lemma init_state_refused C E accs l data c k :
  encodes data (Initialize c) -> accepted C E accs l data -> k <> acct accs 2 ->
  answers C E (with_key accs 2 k) l data InvalidSeeds.
Proof.
  intros He Ha Hk. destruct (acct_entry C E accs l data _ 2 He Ha) as (m & Hm & K); [cbn; lia|].
  rewrite K in Hk. start He Ha Hm. same. failing idtac. apply seeds_ok_iff in X. destruct X as (b & X & _).
  eapply seeds_fails; [exact X|exact Hk].
Qed.

Lemma vault_refused C E accs l data i p k :
  encodes data i -> accepted C E accs l data -> vault_place i = Some p -> k <> acct accs p ->
  match i with
  | Unstake _ _ =>
      (a_owner (l k) <> token_id -> answers C E (with_key accs p k) l data IncorrectOwner) /\
      (a_owner (l k) = token_id -> ~ token_bytes l k orca_mint_id (acct accs 1) ->
       answers C E (with_key accs p k) l data InvalidAccountData) /\
      (a_owner (l k) = token_id -> token_bytes l k orca_mint_id (acct accs 1) ->
       answers C E (with_key accs p k) l data InvalidSeeds)
  | Initialize _ =>
      (a_owner (l k) <> system_id -> answers C E (with_key accs p k) l data IncorrectOwner) /\
      (a_owner (l k) = system_id -> answers C E (with_key accs p k) l data InvalidSeeds)
  | _ => answers C E (with_key accs p k) l data InvalidSeeds
  end.
Proof.
  intros He Ha Hp Hk.
  assert (Lp : (p < length (rules i))%nat) by (destruct i; cbn in Hp; try discriminate Hp; injection Hp as <-; cbn; lia).
  destruct (acct_entry C E accs l data i p He Ha Lp) as (m & Hm & K). rewrite K in Hk. clear Lp.
  destruct i as [amt|x j|j|c|u]; cbn in Hp; try discriminate Hp; injection Hp as <-.
  - start He Ha Hm. same. failing idtac. apply verify_vault_ok in X. unfold verify_vault_address. rewrite key_ne; [reflexivity|].
    cbn [m_key]. congruence.
  - destruct (acct_entry C E accs l data _ 1 He Ha) as (m1 & H1 & K1); [cbn; lia|].
    assert (G1 : get_account_info accs 1 = Ok m1) by (unfold get_account_info; now rewrite H1).
    split; [|split].
    + intros O. start He Ha Hm. same. apply turned_fail, ta_owner_fails; [discriminate|exact O].
    + intros O B. start He Ha Hm. rewrite G1. cbn [bind]. same. apply turned_fail, ta_bytes_fails; [discriminate|exact O|].
      match goal with H : assert_account_address _ orca_mint_id = Ok _ |- _ => apply address_ok in H; rewrite H end.
      rewrite <- K1. exact B.
    + intros O B. start He Ha Hm. rewrite G1. cbn [bind]. same.
      match goal with H : assert_account_address _ orca_mint_id = Ok _ |- _ => apply address_ok in H; rename H into A5 end.
      apply (turned_pass _ _ _ (parse_ta (a_data (l k)))).
      { intros ? _. apply owner_ta_ok. split; [discriminate|]. split; [|reflexivity].
        cbn [m_key]. rewrite A5, <- K1. destruct B as (B1 & B2 & B3 & B4).
        split; [exact O|]. split; [split; [unfold zlen; lia|exact B2]|]. auto. }
      intros ? _. same. failing idtac. apply verify_vault_ok in X. unfold verify_vault_address. rewrite key_ne; [reflexivity|].
      cbn [m_key]. congruence.
  - start He Ha Hm. same. failing idtac. apply verify_vault_ok in X. unfold verify_vault_address. rewrite key_ne; [reflexivity|].
    cbn [m_key]. congruence.
  - split; intros O.
    + start He Ha Hm. same. apply turned_fail, owner_fails. exact O.
    + start He Ha Hm. same. owned O. same. failing idtac. apply seeds_ok_iff in X. destruct X as (b' & X & _).
      eapply seeds_fails; [exact X|exact Hk].
Qed.

Lemma token_refused C E accs l data i n mint k :
  encodes data i -> accepted C E accs l data -> In (n, mint) (token_places i) ->
  (a_owner (l k) <> token_id -> answers C E (with_key accs n k) l data IncorrectOwner) /\
  (a_owner (l k) = token_id -> ~ token_bytes l k mint (acct accs 0) -> answers C E (with_key accs n k) l data InvalidAccountData).
Proof.
  intros He Ha Hin.
  assert (Ln : (n < length (rules i))%nat)
    by (destruct i; cbn in Hin; repeat (destruct Hin as [Hin|Hin]; [injection Hin as <- <-; cbn; lia|]); destruct Hin).
  destruct (acct_entry C E accs l data i n He Ha Ln) as (m & Hm & K). clear Ln.
  destruct (acct_entry C E accs l data i 0 He Ha) as (m0 & H0 & K0); [destruct i; cbn; lia|].
  assert (G0 : get_account_info accs 0 = Ok m0) by (unfold get_account_info; now rewrite H0).
  destruct i as [amt|x j|j|c|u]; cbn in Hin; repeat (destruct Hin as [Hin|Hin]; [injection Hin as <- <-|]); try destruct Hin.
  all: split; [intros O; start He Ha Hm; same; failing idtac; apply ta_owner_fails; [apply owner_ta_ok in X; apply X|exact O]|].
  all: intros O B; start He Ha Hm; rewrite G0; cbn [bind]; same; failing idtac; apply ta_bytes_fails; [apply owner_ta_ok in X; apply X|exact O|].
  all: repeat match goal with H : assert_account_address _ _ = Ok _ |- _ => apply address_ok in H end;
    cbn [m_key]; rewrite <- K0; congruence.
Qed.


Lemma pending_inj C (us : pubkey -> Prop) u i b u' i' b' :
  is_u8 i -> is_u8 i' -> us u -> us u' ->
  pending_address_with_bump C u i b = pending_address_with_bump C u' i' b' ->
  u = u' /\ i = i' \/ collision C us.
Proof.
  intros Hi Hi' Hu Hu' H. unfold pending_address_with_bump, derive_address in H.
  match type of H with sha256 C ?x = sha256 C ?y => set (p := x) in *; set (q := y) in * end.
  destruct (list_eq_dec Byte.byte_eq_dec p q) as [Q|Q].
  - left. unfold p, q, pda_preimage, pending_seeds in Q. cbn [app concat] in Q.
    rewrite <- !app_assoc in Q. apply app_inv_head in Q.
    assert (Lk : length (key_bytes u) = length (key_bytes u')) by now rewrite !key_bytes_length.
    apply app_eq_len in Q; [|exact Lk]. destruct Q as [Q1 Q2]. cbn [app] in Q2.
    injection Q2 as Q2. apply pubkey_eq in Q1. split; [exact Q1|].
    apply (f_equal byte_to_Z) in Q2. rewrite !Z_to_byte_to_Z in Q2. unfold is_u8 in *.
    rewrite !Z.mod_small in Q2 by lia. exact Q2.
  - right. exists p, q. split; [now apply input_record|]. split; [now apply input_record|auto].
Qed.
Lemma pending_ne C u i b u' i' b' (us : pubkey -> Prop) :
  is_u8 i -> is_u8 i' -> us u -> us u' -> ~ (u = u' /\ i = i') ->
  collision C us \/ pending_address_with_bump C u i b <> pending_address_with_bump C u' i' b'.
Proof.
  intros Hi Hi' Hu Hu' N.
  destruct (key_eqb (pending_address_with_bump C u i b) (pending_address_with_bump C u' i' b')) eqn:Q.
  - apply key_eqb_true in Q. apply (pending_inj C us) in Q; [|assumption..]. destruct Q as [Q|Q]; [now destruct N|now left].
  - right. now apply key_eqb_false.
Qed.

(** The record of an accepted call: where it is. *)
Lemma accepted_withdraw C E accs l data j :
  encodes data (Withdraw j) -> accepted C E accs l data ->
  is_record l (acct accs 2) /\ acct accs 2 = pending_address_with_bump C (acct accs 0) j (pw_bump (a_data (l (acct accs 2)))).
Proof.
  intros He Ha.
  destruct (acct_entry C E accs l data _ 0 He Ha) as (m0 & H0 & ->); [cbn; lia|].
  destruct (acct_entry C E accs l data _ 2 He Ha) as (m & Hm & ->); [cbn; lia|].
  unfold accepted in Ha. rewrite (process_run _ _ _ _ _ _ He) in Ha.
  assert (G0 : get_account_info accs 0 = Ok m0) by (unfold get_account_info; now rewrite H0).
  assert (G : get_account_info accs 2 = Ok m) by (unfold get_account_info; now rewrite Hm).
  assert (X : forall A B (x : res err A) (f : A -> res err B), is_ok (bind x f) = true -> exists a, x = Ok a /\ is_ok (f a) = true).
  { intros A B [a|e] f; cbn; [eauto|discriminate]. }
  cbn [run] in Ha. unfold withdraw_process in Ha. rewrite G0, G in Ha. cbn [bind] in Ha.
  repeat (apply X in Ha; let a := fresh "a" in let Q := fresh "Q" in destruct Ha as (a & Q & Ha);
     lazymatch type of Q with
     | assert_account_owner _ m _ = Ok _ => apply owner_ok in Q
     | assert_pending_data _ m = Ok _ => apply pending_data_ok in Q; destruct Q as [-> [_ Q]]
     | verify_pending_address _ _ _ _ _ = Ok _ => apply verify_pending_ok in Q; split; [split; assumption|exact Q]
     | _ => idtac end).
Qed.
Lemma accepted_unstake C E accs l data x j :
  encodes data (Unstake x j) -> accepted C E accs l data ->
  exists b, find_pending_withdraw_address C (acct accs 0) j = Some (acct accs 2, b).
Proof.
  intros He Ha.
  destruct (acct_entry C E accs l data _ 0 He Ha) as (m0 & H0 & ->); [cbn; lia|].
  destruct (acct_entry C E accs l data _ 2 He Ha) as (m & Hm & ->); [cbn; lia|].
  unfold accepted in Ha. rewrite (process_run _ _ _ _ _ _ He) in Ha.
  assert (G0 : get_account_info accs 0 = Ok m0) by (unfold get_account_info; now rewrite H0).
  assert (G : get_account_info accs 2 = Ok m) by (unfold get_account_info; now rewrite Hm).
  assert (X : forall A B (x : res err A) (f : A -> res err B), is_ok (bind x f) = true -> exists a, x = Ok a /\ is_ok (f a) = true).
  { intros A B [a|e] f; cbn; [eauto|discriminate]. }
  cbn [run] in Ha. unfold unstake_process in Ha. rewrite G0, G in Ha. cbn [bind] in Ha.
  repeat (apply X in Ha; let a := fresh "a" in let Q := fresh "Q" in destruct Ha as (a & Q & Ha);
     lazymatch type of Q with
     | assert_account_seeds _ _ _ _ = Ok _ => apply seeds_ok_iff in Q; destruct Q as (b & Q & _); exists b; exact Q
     | _ => idtac end).
Qed.

Lemma unstake_record_refused C E accs l data x j k :
  encodes data (Unstake x j) -> accepted C E accs l data -> k <> acct accs 2 ->
  (a_owner (l k) <> system_id -> answers C E (with_key accs 2 k) l data IncorrectOwner) /\
  (a_owner (l k) = system_id -> answers C E (with_key accs 2 k) l data InvalidSeeds).
Proof.
  intros He Ha Hk. destruct (acct_entry C E accs l data _ 2 He Ha) as (m & Hm & K); [cbn; lia|]. rewrite K in Hk.
  split; intros O; start He Ha Hm; same.
  - apply turned_fail, owner_fails. exact O.
  - owned O. same. failing idtac. apply seeds_ok_iff in X. destruct X as (b & X & _). eapply seeds_fails; [exact X|exact Hk].
Qed.

Lemma withdraw_record_refused C E accs l data j k :
  ordinary_state_address C -> reaches C l -> encodes data (Withdraw j) -> accepted C E accs l data -> k <> acct accs 2 ->
  (a_owner (l k) <> xorca_id -> answers C E (with_key accs 2 k) l data IncorrectOwner) /\
  (a_owner (l k) = xorca_id -> ~ is_record l k -> answers C E (with_key accs 2 k) l data InvalidAccountData) /\
  (is_record l k -> collision C (claimants l (acct accs 0)) \/ answers C E (with_key accs 2 k) l data InvalidSeeds).
Proof.
  intros Hord Hr He Ha Hk. destruct (acct_entry C E accs l data _ 2 He Ha) as (m & Hm & K); [cbn; lia|].
  split; [|split].
  - intros O. start He Ha Hm; same. apply turned_fail, owner_fails. exact O.
  - intros O N. start He Ha Hm; same. owned O. apply turned_fail, pending_data_fails. intros [_ B]. apply N. split; assumption.
  - intros R. destruct (accepted_withdraw _ _ _ _ _ _ He Ha) as [R2 A2].
    assert (Hs : is_state l (acct accs 1)) by exact (accepted_state _ _ _ _ _ (Withdraw j) He (fun c Q => ltac:(discriminate Q)) Ha).
    destruct (reaches_pool _ _ _ Hord Hr Hs) as (vk & P & HP).
    assert (RA : forall q, is_record l q -> record_ok C l q).
    { intros q Q. apply (pool_is_record _ _ _ _ _ _ HP) in Q. now apply (po_records _ _ _ _ _ HP) in Q. }
    assert (Rk := RA _ R). assert (Rm := RA _ R2).
    assert (BK : forall q, record_ok C l q -> q = pending_address_with_bump C (rec_owner l q) (rec_index l q) (pw_bump (a_data (l q)))).
    { intros q Q. pose proof (ro_addr _ _ _ Q) as F. apply find_pending_bump in F.
      unfold pending_address_with_bump in *. rewrite byte_to_Z_to_byte in F. exact F. }
    set (us := claimants l (acct accs 0)).
    assert (U0 : us (acct accs 0)) by now left.
    assert (Uk : us (rec_owner l k)) by (right; eauto).
    assert (U2 : us (rec_owner l (acct accs 2))) by (right; eauto).
    assert (J : is_u8 j) by (destruct He as [He _]; exact He).
    assert (I : forall q, is_u8 (rec_index l q)) by (intros q; apply get_u8_range).
    destruct (key_eqb k (pending_address_with_bump C (acct accs 0) j (pw_bump (a_data (l k))))) eqn:Q.
    + left. apply key_eqb_true in Q. pose proof (BK _ Rk) as B. rewrite Q in B at 1.
      apply (pending_inj C us) in B; [|auto..]. destruct B as [[B1 B2]|B]; [|exact B].
      pose proof (BK _ Rm) as B. rewrite A2 in B at 1. apply (pending_inj C us) in B; [|auto..].
      destruct B as [[B3 B4]|B]; [|exact B]. exfalso. apply Hk.
      pose proof (ro_addr _ _ _ Rk) as F. pose proof (ro_addr _ _ _ Rm) as F'.
      fold (rec_owner l k) (rec_index l k) in F. fold (rec_owner l (acct accs 2)) (rec_index l (acct accs 2)) in F'.
      rewrite <- B1, <- B2 in F. rewrite <- B3, <- B4 in F'. congruence.
    + right. apply key_eqb_false in Q.
      destruct (acct_entry C E accs l data _ 0 He Ha) as (m0 & H0 & K0); [cbn; lia|].
      assert (G0 : get_account_info accs 0 = Ok m0) by (unfold get_account_info; now rewrite H0).
      start He Ha Hm. rewrite G0. cbn [bind]. same. owned (ro_owner _ _ _ Rk).
      apply (turned_pass _ _ _ (a_data (l k))).
      { intros ? _. apply pending_data_ok. split; [reflexivity|]. split; [unfold zlen; cbn [m_key]; rewrite (ro_len _ _ _ Rk); lia|exact (ro_disc _ _ _ Rk)]. }
      intros ? _. apply turned_fail. unfold verify_pending_address. cbn [m_key]. rewrite <- K0. now rewrite key_ne.
Qed.

Lemma user_refused C E accs l data i u :
  encodes data i -> accepted C E accs l data -> u <> acct accs 0 ->
  match i with
  | Stake _ => answers C E (with_key accs 0 u) l data InvalidAccountData
  | Set_ _ => answers C E (with_key accs 0 u) l data IncorrectAccountAddress
  | Initialize _ => answers C E (with_key accs 0 u) l data UnauthorizedDeployerAccess
  | Withdraw j => collision C (fun x => x = u \/ x = acct accs 0) \/ answers C E (with_key accs 0 u) l data InvalidSeeds
  | Unstake _ j =>
      collision C (fun x => x = u \/ x = acct accs 0) \/ find_pending_withdraw_address C u j = None \/
      answers C E (with_key accs 0 u) l data InvalidSeeds
  end.
Proof.
  intros He Ha Hu. destruct (acct_entry C E accs l data i 0 He Ha) as (m & Hm & K); [destruct i; cbn; lia|].
  destruct i as [amt|x j|j|c|up].
  - rewrite K in Hu. start He Ha Hm; same. failing idtac. apply owner_ta_ok in X. destruct X as (W & T & _). destruct T as (T1 & T2 & T3 & T4).
    apply ta_bytes_fails; [exact W|exact T1|]. intros (_ & _ & _ & Q). cbn [m_key] in Q. congruence.
  - destruct (accepted_unstake _ _ _ _ _ _ _ He Ha) as [b Hb].
    destruct (find_pending_withdraw_address C u j) as [[k b']|] eqn:F; [|auto].
    assert (J : is_u8 j) by (destruct He as [He _]; apply He).
    pose proof (find_pending_bump _ _ _ _ _ Hb) as A. pose proof (find_pending_bump _ _ _ _ _ F) as A'.
    destruct (pending_ne C (acct accs 0) j (byte_to_Z b) u j (byte_to_Z b') (fun x => x = u \/ x = acct accs 0)) as [Q|Q]; auto.
    { intros [Q _]. now apply Hu. }
    rewrite <- A, <- A' in Q. right. right.
    destruct (acct_entry C E accs l data _ 2 He Ha) as (m2 & H2 & K2); [cbn; lia|]. rewrite K2 in Q.
    assert (G2 : get_account_info accs 2 = Ok m2) by (unfold get_account_info; now rewrite H2).
    start He Ha Hm. rewrite G2. cbn [bind]. same. apply turned_fail. eapply seeds_fails; [exact F|exact Q].
  - destruct (accepted_withdraw _ _ _ _ _ _ He Ha) as [R2 A2].
    assert (J : is_u8 j) by (destruct He as [He _]; exact He).
    destruct (pending_ne C (acct accs 0) j (pw_bump (a_data (l (acct accs 2)))) u j (pw_bump (a_data (l (acct accs 2))))
      (fun x => x = u \/ x = acct accs 0)) as [Q|Q]; auto.
    { intros [Q _]. now apply Hu. }
    rewrite <- A2 in Q. right.
    destruct (acct_entry C E accs l data _ 2 He Ha) as (m2 & H2 & K2); [cbn; lia|]. rewrite K2 in Q.
    assert (G2 : get_account_info accs 2 = Ok m2) by (unfold get_account_info; now rewrite H2).
    start He Ha Hm. rewrite G2. cbn [bind]. same.
    match goal with H : assert_pending_data _ m2 = Ok _ |- _ => apply pending_data_ok in H; destruct H as [-> _] end.
    apply turned_fail. unfold verify_pending_address. cbn [m_key]. now rewrite key_ne.
  - rewrite K in Hu. start He Ha Hm; same. failing idtac. apply fail_if_ok, negb_false_iff, key_eqb_true in X.
    cbn [m_key]. rewrite key_ne by congruence. reflexivity.
  - rewrite K in Hu. start He Ha Hm; same. failing idtac. apply address_ok in X.
    apply address_fails. cbn [m_key]. congruence.
Qed.

Lemma refused_data C E accs accs' l data data' i i' c :
  encodes data i -> encodes data' i' -> accepted C E accs l data ->
  turned (custom c) (run C E i accs l) (run C E i' accs' l) -> answers C E accs' l data' c.
Proof.
  intros He He' Ha H. unfold accepted in Ha. unfold answers. rewrite (process_run _ _ _ _ _ _ He) in Ha.
  rewrite (process_run _ _ _ _ _ _ He'). exact (H Ha).
Qed.
Lemma index_refused C E accs l data data' i j :
  encodes data i -> encodes data' (with_index i j) -> with_index i j <> i -> accepted C E accs l data ->
  collision C (eq (acct accs 0)) \/
  (exists x j', i = Unstake x j' /\ find_pending_withdraw_address C (acct accs 0) j = None) \/
  answers C E accs l data' InvalidSeeds.
Proof.
  intros He He' Hj Ha.
  destruct i as [amt|x j0|j0|c|up]; cbn [with_index] in *; try (now destruct Hj).
  - destruct (accepted_unstake _ _ _ _ _ _ _ He Ha) as [b Hb].
    destruct (find_pending_withdraw_address C (acct accs 0) j) as [[k b']|] eqn:F; [|right; left; exists x, j0; split; reflexivity].
    assert (J0 : is_u8 j0) by (destruct He as [He _]; apply He).
    assert (J : is_u8 j) by (destruct He' as [He' _]; apply He').
    pose proof (find_pending_bump _ _ _ _ _ Hb) as A. pose proof (find_pending_bump _ _ _ _ _ F) as A'.
    destruct (pending_ne C (acct accs 0) j0 (byte_to_Z b) (acct accs 0) j (byte_to_Z b') (eq (acct accs 0))) as [Q|Q]; auto.
    { intros [_ Q]. apply Hj. congruence. }
    rewrite <- A, <- A' in Q. right. right.
    destruct (acct_entry C E accs l data _ 2 He Ha) as (m2 & H2 & K2); [cbn; lia|]. rewrite K2 in Q.
    destruct (acct_entry C E accs l data _ 0 He Ha) as (m0 & H0 & K0); [cbn; lia|]. rewrite K0 in F.
    apply (refused_data _ _ _ _ _ _ _ _ _ _ He He' Ha). cbn [run]. unfold unstake_process.
    assert (G0 : get_account_info accs 0 = Ok m0) by (unfold get_account_info; now rewrite H0).
    assert (G2 : get_account_info accs 2 = Ok m2) by (unfold get_account_info; now rewrite H2).
    rewrite G0, G2. cbn [bind]. lock. apply turned_fail. eapply seeds_fails; [exact F|exact Q].
  - destruct (accepted_withdraw _ _ _ _ _ _ He Ha) as [R2 A2].
    assert (J0 : is_u8 j0) by (destruct He as [He _]; exact He).
    assert (J : is_u8 j) by (destruct He' as [He' _]; exact He').
    destruct (pending_ne C (acct accs 0) j0 (pw_bump (a_data (l (acct accs 2)))) (acct accs 0) j (pw_bump (a_data (l (acct accs 2))))
      (eq (acct accs 0))) as [Q|Q]; auto.
    { intros [_ Q]. apply Hj. congruence. }
    rewrite <- A2 in Q. right. right.
    destruct (acct_entry C E accs l data _ 2 He Ha) as (m2 & H2 & K2); [cbn; lia|]. rewrite K2 in Q.
    destruct (acct_entry C E accs l data _ 0 He Ha) as (m0 & H0 & K0); [cbn; lia|]. rewrite K0 in Q.
    apply (refused_data _ _ _ _ _ _ _ _ _ _ He He' Ha). cbn [run]. unfold withdraw_process.
    assert (G0 : get_account_info accs 0 = Ok m0) by (unfold get_account_info; now rewrite H0).
    assert (G2 : get_account_info accs 2 = Ok m2) by (unfold get_account_info; now rewrite H2).
    rewrite G0, G2. cbn [bind]. lock.
    match goal with H : assert_pending_data _ m2 = Ok _ |- _ => apply pending_data_ok in H; destruct H as [-> _] end.
    apply turned_fail. unfold verify_pending_address. now rewrite key_ne.
Qed.

(** An account of the signer's with too little in it. *)
Lemma poor_refused C E accs l data i n k v :
  encodes data i -> accepted C E accs l data ->
  match i with Stake a => n = 2%nat /\ v = a | Unstake x _ => n = 3%nat /\ v = x | _ => False end ->
  a_owner (l k) = token_id -> token_bytes l k (match i with Stake _ => orca_mint_id | _ => xorca_mint_id end) (acct accs 0) ->
  balance l k < v -> answers C E (with_key accs n k) l data InsufficientFunds.
Proof.
  intros He Ha Hi O T B.
  destruct (acct_entry C E accs l data i 0 He Ha) as (m0 & H0 & K0); [destruct i; cbn; lia|].
  assert (G0 : get_account_info accs 0 = Ok m0) by (unfold get_account_info; now rewrite H0).
  assert (P : forall (m t : meta) mint, token_bytes l k mint (acct accs 0) -> m_key t = mint -> forall a,
    make_owner_token_account_assertions l m m0 t true = Ok a ->
    make_owner_token_account_assertions l (Meta k (m_signer m) (m_writable m)) m0 t true = Ok (parse_ta (a_data (l k)))).
  { intros m t mint (B1 & B2 & B3 & B4) Ht a X. apply owner_ta_ok in X. apply owner_ta_ok. split; [apply X|]. split; [|reflexivity].
    cbn [m_key]. rewrite Ht, <- K0. split; [exact O|]. split; [split; [unfold zlen; lia|exact B2]|]. auto. }
  destruct i as [amt|x j|j|c|u]; try destruct Hi as [-> ->]; try contradiction.
  - destruct (acct_entry C E accs l data _ 2 He Ha) as (m & Hm & K); [cbn; lia|].
    start He Ha Hm. rewrite G0. cbn [bind]. same.
    match goal with H : assert_account_address _ orca_mint_id = Ok _ |- _ => apply address_ok in H; rename H into A end.
    apply (turned_pass _ _ _ (parse_ta (a_data (l k)))); [eapply P; [exact T|exact A]|intros ? _].
    apply turned_fail, fail_true. apply Z.ltb_lt. exact B.
  - destruct (acct_entry C E accs l data _ 3 He Ha) as (m & Hm & K); [cbn; lia|].
    start He Ha Hm. rewrite G0. cbn [bind]. same.
    match goal with H : assert_account_address _ xorca_mint_id = Ok _ |- _ => apply address_ok in H; rename H into A end.
    apply (turned_pass _ _ _ (parse_ta (a_data (l k)))); [eapply P; [exact T|exact A]|intros ? _].
    apply turned_fail, fail_true. apply Z.ltb_lt. exact B.
Qed.
