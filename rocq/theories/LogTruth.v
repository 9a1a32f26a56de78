(** The log never changes an answer, and its lines are true. *)
From Coq Require Import String Ascii.
From Verif Require Export LogFacts.
From Verif Require Import BytesFacts LedgerFacts TokenFacts ParseFacts CpiFacts AssertFacts MathFacts
  ClientSpec RaiseFacts FailFacts StakeFacts UnstakeFacts LayoutFacts HistoryFacts ErrorFacts.
Import List ListNotations.
Open Scope list_scope.
Open Scope Z_scope.

(** ** The same answers *)
Definition mute {A} (m : logged A) : Prop := forall a, snd m = Ok a -> fst m = [].
Definition agree (m : logged ledger) (r : res err outcome) : Prop :=
  match r with
  | Ok o => m = (map Payload (snd o), Ok (fst o))
  | Err e => snd m = Err e
  end.
Lemma mute_bind {A B} (m : logged A) (f : A -> logged B) :
  mute m -> (forall a, mute (f a)) -> mute (lbind m f).
Proof.
  unfold mute, lbind. intros H K b. destruct (snd m) as [a|e]; cbn; [|discriminate].
  intros Q. rewrite (H a eq_refl). cbn. now apply (K a b).
Qed.
Lemma mute_quiet {A} (r : res err A) : mute (quiet r).
Proof. intros a _. reflexivity. Qed.
Lemma mute_refuse b s e : mute (refuse_if b s e).
Proof. destruct b; intros a; [discriminate|reflexivity]. Qed.
Lemma snd_bind {A B} (m : logged A) (f : A -> logged B) : snd (lbind m f) = bind (snd m) (fun a => snd (f a)).
Proof. unfold lbind. destruct (snd m); reflexivity. Qed.
Lemma snd_refuse b s e : snd (refuse_if b s e) = fail_if b (custom e).
Proof. destruct b; reflexivity. Qed.
Lemma bind_ext {A B} (r : res err A) (f g : A -> res err B) : (forall a, f a = g a) -> bind r f = bind r g.
Proof. intros H. destruct r; [apply H|reflexivity]. Qed.

Lemma role_mute m rs : mute (role_l m rs).
Proof. induction rs as [|r rs IH]; [apply mute_quiet|]. cbn. apply mute_bind; [destruct r; apply mute_refuse|intros; exact IH]. Qed.
Lemma role_same m rs : snd (role_l m rs) = assert_account_role m rs.
Proof.
  induction rs as [|r rs IH]; [reflexivity|]. cbn [role_l assert_account_role]. rewrite snd_bind, IH.
  destruct r; now rewrite snd_refuse.
Qed.
Lemma owner_mute l m o : mute (owner_l l m o).
Proof. apply mute_refuse. Qed.
Lemma owner_same l m o : snd (owner_l l m o) = assert_account_owner l m o.
Proof. apply snd_refuse. Qed.
Lemma seeds_mute C m p ss : mute (seeds_l C m p ss).
Proof.
  unfold seeds_l. destruct (find_program_address C ss p) as [[k b]|]; [|apply mute_quiet].
  apply mute_bind; [apply mute_refuse|intros; apply mute_quiet].
Qed.
Lemma seeds_same C m p ss : snd (seeds_l C m p ss) = assert_account_seeds C m p ss.
Proof.
  unfold seeds_l, assert_account_seeds. destruct (find_program_address C ss p) as [[k b]|]; [|reflexivity].
  now rewrite snd_bind, snd_refuse.
Qed.
Lemma address_mute m a : mute (address_l m a).
Proof. apply mute_refuse. Qed.
Lemma address_same m a : snd (address_l m a) = assert_account_address m a.
Proof. apply snd_refuse. Qed.
Lemma len_mute l m n : mute (len_l l m n).
Proof. apply mute_refuse. Qed.
Lemma discriminator_mute l m n : mute (discriminator_l l m n).
Proof. apply mute_bind; [apply mute_refuse|intros; apply mute_refuse]. Qed.
Lemma state_data_mute l m : mute (state_data_l l m).
Proof. apply mute_bind; [apply len_mute|intros; apply mute_bind; [apply discriminator_mute|intros; apply mute_quiet]]. Qed.
Lemma pending_data_mute l m : mute (pending_data_l l m).
Proof. apply mute_bind; [apply len_mute|intros; apply mute_bind; [apply discriminator_mute|intros; apply mute_quiet]]. Qed.
Lemma len_same l m n : snd (len_l l m n) = assert_account_len l m n.
Proof. apply snd_refuse. Qed.
Lemma discriminator_same l m n : snd (discriminator_l l m n) = assert_account_discriminator l m n.
Proof. unfold discriminator_l. now rewrite snd_bind, !snd_refuse. Qed.
Lemma state_data_same l m : snd (state_data_l l m) = assert_state_data l m.
Proof. unfold state_data_l. rewrite snd_bind, len_same. apply bind_ext. intros _. now rewrite snd_bind, discriminator_same. Qed.
Lemma pending_data_same l m : snd (pending_data_l l m) = assert_pending_data l m.
Proof. unfold pending_data_l. rewrite snd_bind, len_same. apply bind_ext. intros _. now rewrite snd_bind, discriminator_same. Qed.
Lemma owner_token_mute l ta o mi w : mute (owner_token_l l ta o mi w).
Proof.
  apply mute_bind; [destruct w; [apply role_mute|apply mute_quiet]|intros _].
  apply mute_bind; [apply owner_mute|intros _]. apply mute_bind; [apply mute_quiet|intros d].
  apply mute_bind; [apply mute_refuse|intros _]. apply mute_bind; [apply mute_refuse|intros _]. apply mute_quiet.
Qed.
Lemma owner_token_same l ta o mi w :
  snd (owner_token_l l ta o mi w) = make_owner_token_account_assertions l ta o mi w.
Proof.
  unfold owner_token_l, make_owner_token_account_assertions. rewrite snd_bind.
  assert (R : snd (if w return logged unit then role_l ta [Writable] else quiet (Ok tt))
              = (if w then assert_account_role ta [Writable] else Ok tt))
    by (destruct w; [apply role_same|reflexivity]).
  rewrite R. apply bind_ext. intros _. rewrite snd_bind, owner_same. apply bind_ext. intros _.
  rewrite snd_bind. apply bind_ext. intros d. rewrite snd_bind, snd_refuse. apply bind_ext. intros _.
  now rewrite snd_bind, snd_refuse.
Qed.

Lemma agree_bind {A} (m : logged A) (r : res err A) f g :
  mute m -> snd m = r -> (forall a, r = Ok a -> agree (f a) (g a)) -> agree (lbind m f) (bind r g).
Proof.
  intros M <- H. unfold lbind. destruct (snd m) as [a|e] eqn:Q; [|reflexivity]. cbn [bind].
  rewrite (M a Q). cbn [app]. rewrite <- surjective_pairing. now apply H.
Qed.
Ltac step1 :=
  apply agree_bind;
  [first [apply mute_quiet|apply role_mute|apply owner_mute|apply address_mute|apply state_data_mute|apply pending_data_mute
         |apply owner_token_mute|apply seeds_mute]
  |first [reflexivity|apply role_same|apply owner_same|apply address_same|apply state_data_same|apply pending_data_same
         |apply owner_token_same|apply seeds_same]
  |intros ? _].
Lemma agree_emit l' e : agree (check! emit e in quiet (Ok l')) (Ok (l', [event_bytes e])).
Proof. reflexivity. Qed.
Lemma stake_agree C accs l a : agree (stake_l C accs l a) (stake_process C accs l a).
Proof. unfold stake_l, stake_process. do 8 step1. repeat step1. apply agree_emit. Qed.
Lemma unstake_agree C E accs l x j : agree (unstake_l C E accs l x j) (unstake_process C E accs l x j).
Proof. unfold unstake_l, unstake_process. repeat step1. apply agree_emit. Qed.
Lemma withdraw_agree C E accs l j : agree (withdraw_l C E accs l j) (withdraw_process C E accs l j).
Proof. unfold withdraw_l, withdraw_process. repeat step1. apply agree_emit. Qed.
Lemma initialize_agree C E accs l c : agree (initialize_l C E accs l c) (initialize_process C E accs l c).
Proof.
  unfold initialize_l, initialize_process. repeat step1.
  destruct (find_vault_address _ _ _ _) as [[vk vb]|]; [|reflexivity]. repeat step1. reflexivity.
Qed.
Lemma set_agree C accs l u : agree (set_l C accs l u) (set_process C accs l u).
Proof.
  unfold set_l, set_process. repeat step1. destruct u; [|apply agree_emit]. step1. reflexivity.
Qed.

(** ** The lines are true *)
Definition tells (P : complaint -> Prop) (Q : err -> Prop) {A} (m : logged A) : Prop :=
  match snd m with
  | Ok _ => True
  | Err e => (fst m = [] /\ Q e) \/
      exists c, fst m = [Text (shown (sentence c))] /\ e = custom (complaint_code c) /\ P c
  end.
Lemma tells_bind P Q {A B} (m : logged A) (f : A -> logged B) :
  mute m -> tells P Q m -> (forall a, snd m = Ok a -> tells P Q (f a)) -> tells P Q (lbind m f).
Proof.
  unfold tells, lbind. intros M T F. destruct (snd m) as [a|e] eqn:H; cbn [fst snd]; [|exact T].
  rewrite (M a H). cbn [app]. apply F. reflexivity.
Qed.
Lemma tells_quiet P Q {A} (r : res err A) : raises Q r -> tells P Q (quiet r).
Proof. destruct r; cbn; auto. Qed.
Lemma tells_refuse (P : complaint -> Prop) Q b s e c :
  s = sentence c -> e = complaint_code c -> (b = true -> P c) -> tells P Q (refuse_if b s e).
Proof. intros -> -> H. destruct b; cbn; [|exact I]. right. exists c. auto. Qed.
Lemma tells_done P Q (l : ledger) e : tells P Q (check! emit e in quiet (Ok l)).
Proof. exact I. Qed.

Lemma role_sw_tells (P : complaint -> Prop) Q m :
  (m_signer m = false -> P (NotSigner (m_key m))) -> (m_writable m = false -> P (NotWritable (m_key m))) ->
  tells P Q (role_l m [Signer; Writable]).
Proof.
  intros H1 H2. cbn [role_l]. apply tells_bind; [apply mute_refuse| |intros _ _].
  { eapply tells_refuse; [| |rewrite negb_true_iff; exact H1]; reflexivity. }
  apply tells_bind; [apply mute_refuse| |intros _ _; exact I].
  eapply tells_refuse; [| |rewrite negb_true_iff; exact H2]; reflexivity.
Qed.
Lemma role_w_tells (P : complaint -> Prop) Q m :
  (m_writable m = false -> P (NotWritable (m_key m))) -> tells P Q (role_l m [Writable]).
Proof.
  intros H2. cbn [role_l]. apply tells_bind; [apply mute_refuse| |intros _ _; exact I].
  eapply tells_refuse; [| |rewrite negb_true_iff; exact H2]; reflexivity.
Qed.
Lemma owner_tells (P : complaint -> Prop) Q l m o :
  (a_owner (l (m_key m)) <> o -> P (NotOwned (m_key m) o)) -> tells P Q (owner_l l m o).
Proof.
  intros H. eapply tells_refuse; [| |intros B; apply H; apply key_differs; exact B]; reflexivity.
Qed.
Lemma address_tells (P : complaint -> Prop) Q m a :
  (m_key m <> a -> P (WrongAddress (m_key m))) -> tells P Q (address_l m a).
Proof. intros H. eapply tells_refuse; [| |intros B; apply H; apply key_differs; exact B]; reflexivity. Qed.
Lemma seeds_tells (P : complaint -> Prop) (Q : err -> Prop) C m pid ss :
  Q EPanic -> ((forall b, find_program_address C ss pid <> Some (m_key m, b)) -> P (WrongSeeds (m_key m))) ->
  tells P Q (seeds_l C m pid ss).
Proof.
  intros K H. unfold seeds_l. destruct (find_program_address C ss pid) as [[k b]|]; [|left; auto].
  apply tells_bind; [apply mute_refuse| |intros _ _; exact I].
  eapply tells_refuse; [| |intros B; apply H; apply key_differs in B; congruence]; reflexivity.
Qed.
Lemma view_tells (P : complaint -> Prop) Q l m len disc :
  1 <= len ->
  (zlen (a_data (l (m_key m))) < len -> P (TooSmall (m_key m) len (zlen (a_data (l (m_key m)))))) ->
  (len <= zlen (a_data (l (m_key m))) -> get_u8 0 (a_data (l (m_key m))) <> disc -> P (WrongKind (m_key m))) ->
  tells P Q (check! len_l l m len in check! discriminator_l l m disc in quiet (Ok (a_data (l (m_key m))))).
Proof.
  intros L H1 H2. apply tells_bind; [apply mute_refuse| |intros u Hu].
  { eapply tells_refuse; [| |intros B; apply H1; apply Z.ltb_lt; exact B]; reflexivity. }
  assert (G : len <= zlen (a_data (l (m_key m)))).
  { unfold len_l in Hu. rewrite snd_refuse in Hu. unfold fail_if in Hu. destruct (Z.ltb_spec (zlen (a_data (l (m_key m)))) len); [discriminate|exact H]. }
  apply tells_bind; [apply discriminator_mute| |intros _ _; exact I].
  unfold discriminator_l. apply tells_bind; [apply mute_refuse| |intros _ _].
  - assert (Z : (zlen (a_data (l (m_key m))) <? 1) = false) by (apply Z.ltb_ge; lia). rewrite Z. exact I.
  - eapply tells_refuse; [| |intros B; apply H2; [exact G|]; apply negb_true_iff, Z.eqb_neq in B; congruence]; reflexivity.
Qed.
Lemma owner_token_tells (P : complaint -> Prop) (Q : err -> Prop) l ta owner mint (w : bool) :
  (w = true -> m_writable ta = false -> P (NotWritable (m_key ta))) ->
  (a_owner (l (m_key ta)) <> token_id -> P (NotOwned (m_key ta) token_id)) ->
  ((List.length (a_data (l (m_key ta))) < 165)%nat \/ 2 < ta_state (a_data (l (m_key ta))) ->
   Q (custom InvalidAccountData)) ->
  (ta_owner (a_data (l (m_key ta))) <> m_key owner ->
   P (WrongHolder (ta_owner (a_data (l (m_key ta)))) (m_key owner) (m_key mint))) ->
  (ta_mint (a_data (l (m_key ta))) <> m_key mint ->
   P (WrongMint (ta_mint (a_data (l (m_key ta)))) (m_key mint))) ->
  tells P Q (owner_token_l l ta owner mint w).
Proof.
  intros H1 H2 H3 H4 H5. unfold owner_token_l.
  apply tells_bind; [destruct w; [apply role_mute|apply mute_quiet]|destruct w; [apply role_w_tells; auto|exact I]|intros _ _].
  apply tells_bind; [apply owner_mute|now apply owner_tells|intros _ _].
  apply tells_bind; [apply mute_quiet| |].
  { apply tells_quiet. unfold assert_token_account_data. destruct (deserialize read_token_account _) eqn:D; [exact I|].
    cbn. apply H3. rewrite read_ta_spec in D. unfold zlen in D.
    destruct (_ && _) eqn:B in D; [discriminate|]. apply andb_false_iff in B. destruct B as [B|B]; clean_bool; lia. }
  intros t Ht. cbn [quiet snd] in Ht. apply ta_data_ok in Ht. destruct Ht as [-> _]. cbn [parse_ta tk_owner tk_mint].
  apply tells_bind; [apply mute_refuse| |intros _ _].
  { eapply tells_refuse; [| |intros B; apply H4; apply key_differs; exact B]; reflexivity. }
  apply tells_bind; [apply mute_refuse| |intros _ _; exact I].
  eapply tells_refuse; [| |intros B; apply H5; apply key_differs; exact B]; reflexivity.
Qed.

(** ** Silence *)
Lemma because_silence C accs l i e :
  because (fun c => silence C accs l i (custom c)) e -> silence C accs l i e.
Proof.
  intros H. unfold silence. repeat split.
  - intros Q. pose proof (H _ Q) as (X & _). now apply X.
  - intros Q. pose proof (H _ Q) as (_ & X & _). now apply X.
  - intros Q. pose proof (H _ Q) as (_ & _ & X & _). now apply X.
  - intros Q. pose proof (H _ Q) as (_ & _ & _ & X & _). now apply X.
  - intros Q. pose proof (H _ Q) as (_ & _ & _ & _ & X). now apply X.
Qed.
Lemma silence_raises {A} C accs l i (r : res err A) :
  raises (because (fun c => silence C accs l i (custom c))) r -> raises (silence C accs l i) r.
Proof. apply raises_mono. apply because_silence. Qed.
Lemma silence_foreign C accs l i e : foreign e -> silence C accs l i e.
Proof. intros H. apply because_silence, because_foreign, H. Qed.
Definition plain_code (c : error_code) : bool :=
  match c with
  | InvalidAccountRole | IncorrectOwner | IncorrectAccountAddress | InvalidSeeds | InvalidAccountData => false
  | _ => true
  end.
Lemma silence_plain C accs l i c : plain_code c = true -> silence C accs l i (custom c).
Proof. destruct c; try discriminate; intros _; unfold silence, custom; cbn [code]; repeat split; discriminate. Qed.
Lemma silence_data C accs l i :
  (match i with
     | Stake _ => not_a_token_account accs l i \/ ~ mint_bytes l xorca_mint_id
     | Unstake _ _ =>
         not_a_token_account accs l i \/ ~ mint_bytes l xorca_mint_id \/
         mint_auth_flag (a_data (l (acct accs 4%nat))) = 0 \/
         mint_auth (a_data (l (acct accs 4%nat))) <> acct accs 1%nat \/
         mint_freeze_flag (a_data (l (acct accs 4%nat))) <> 0 \/ ~ mint_bytes l orca_mint_id
     | Withdraw _ => not_a_token_account accs l i
     | Initialize _ => True
     | Set_ _ => False
     end) -> silence C accs l i (custom InvalidAccountData).
Proof. intros H. unfold silence, custom; cbn [code]. repeat split; try discriminate. intros _. exact H. Qed.
Lemma silence_seeds C accs l i :
  (match i with
     | Initialize _ => False
     | Unstake _ j => exists b, find_pending_withdraw_address C (acct accs 0%nat) j = Some (acct accs 2%nat, b)
     | _ => True
     end) -> silence C accs l i (custom InvalidSeeds).
Proof. intros H. unfold silence, custom; cbn [code]. repeat split; try discriminate. intros _. exact H. Qed.

Ltac truth := cbn [complaint_true]; cbv zeta; unfold authority; accounts.
Ltac at_place :=
  match goal with
  | H : nth_error ?accs ?n = Some ?m |- exists _ _ _, nth_error (rules _) _ = Some _ /\ nth_error ?accs _ = Some _ /\ m_key _ = m_key ?m /\ _ =>
      exists n; eexists; exists m; split; [reflexivity|split; [exact H|split; [reflexivity|split; [reflexivity|assumption]]]]
  end.
Tactic Notation "hav" ident(m) ident(H) ident(K) :=
  apply tells_bind; [apply mute_quiet|apply tells_quiet, silence_raises, get_why; intros _; now apply silence_plain
    |intros m H; cbn [quiet snd] in H; apply get_account_ok in H; pose proof (acct_of _ _ _ H) as K].
Tactic Notation "role_sw_says" := apply tells_bind; [apply role_mute|apply role_sw_tells; intros ?Q; cbn [complaint_true]; at_place|intros _ _].
Tactic Notation "role_w_says" := apply tells_bind; [apply role_mute|apply role_w_tells; intros ?Q; cbn [complaint_true]; at_place|intros _ _].
Ltac tell_owner :=
  match goal with
  | Q : a_owner (?l (m_key ?m)) <> ?o, H : acct _ ?n = m_key ?m |- _ =>
      exists n; eexists; split; [reflexivity|split; [reflexivity|split; [exact H|exact Q]]]
  end.
Ltac tell_address :=
  match goal with
  | Q : m_key ?m <> ?a, H : acct _ ?n = m_key ?m |- _ =>
      exists n; eexists; exists a; split; [reflexivity|split; [reflexivity|split; [exact H|exact Q]]]
  end.
Tactic Notation "owned_says" ident(H) :=
  apply tells_bind; [apply owner_mute|apply owner_tells; intros ?Q; cbn [complaint_true]; tell_owner
    |intros ? H; rewrite owner_same in H; apply owner_ok in H].
Tactic Notation "at_says" ident(H) :=
  apply tells_bind; [apply address_mute|apply address_tells; intros ?Q; cbn [complaint_true]; left; tell_address
    |intros ? H; rewrite address_same in H; apply address_ok in H].
Lemma nat_tok (accs : list meta) l i n o m k :
  In (n, o, m) (holdings i) -> acct accs n = k ->
  ((List.length (a_data (l k)) < 165)%nat \/ 2 < ta_state (a_data (l k))) -> not_a_token_account accs l i.
Proof. intros H <- Q. exists n, o, m. auto. Qed.
Ltac bad_token n := eapply (nat_tok _ _ _ n); [cbn; now auto|eassumption|assumption].

Tactic Notation "ta_says" ident(H) constr(n) constr(o) ident(A) :=
  apply tells_bind; [apply owner_token_mute|apply owner_token_tells;
    [intros ? ?Q; try discriminate; cbn [complaint_true]; at_place
    |intros ?Q; cbn [complaint_true]; tell_owner
    |intros ?Q; apply silence_data
    |intros ?Q; cbn [complaint_true]; cbv zeta; exists n, o; accounts; split; [rewrite A; cbn; now auto|split; [reflexivity|split; [reflexivity|assumption]]]
    |intros ?Q; cbn [complaint_true]; cbv zeta; exists n, o; accounts; split; [rewrite A; cbn; now auto|split; [reflexivity|assumption]]]
   |intros ? H; rewrite owner_token_same in H; apply owner_ta_ok in H; destruct H as (_ & H & ->)].
Tactic Notation "calm" tactic(t) := apply tells_bind; [apply mute_quiet|apply tells_quiet, silence_raises; t|].
Ltac plainly := intros; now apply silence_plain.
Ltac tell_size n :=
  intros ?Q; cbn [complaint_true]; cbv zeta; exists n; eexists; accounts; split; [cbn; now auto|split; [reflexivity|split; [reflexivity|assumption]]].
Ltac tell_kind n :=
  intros ?Q ?Q; cbn [complaint_true]; cbv zeta; exists n; do 2 eexists; accounts; split; [cbn; now auto|split; [reflexivity|split; [assumption|assumption]]].
Tactic Notation "state_says" constr(n) ident(S) :=
  apply tells_bind; [apply state_data_mute|apply view_tells; [unfold STATE_LEN; lia|tell_size n|tell_kind n]
    |intros ? S; rewrite state_data_same in S; apply state_data_ok in S; destruct S as [-> S]].

Lemma stake_tells C accs l a :
  is_u64 a -> tells (complaint_true C accs l (Stake a)) (silence C accs l (Stake a)) (stake_l C accs l a).
Proof.
  intros Ha. unfold stake_l.
  hav m0 H0 K0. hav m1 H1 K1. hav m2 H2 K2. hav m3 H3 K3. hav m4 H4 K4. hav m5 H5 K5. hav m6 H6 K6. hav m7 H7 K7.
  role_sw_says. at_says A6. at_says A4. at_says A7.
  ta_says T2 2%nat 0%nat A6. { left. bad_token 2%nat. }
  cbn [parse_ta tk_amount].
  calm (apply fail_if_why; plainly). intros _ _.
  ta_says T3 3%nat 0%nat A4. { left. bad_token 3%nat. }
  role_w_says. owned_says O4.
  calm (apply mint_data_why; intros Q; apply silence_data; right; now rewrite <- A4).
  intros ? S4. cbn [quiet snd] in S4. apply mint_data_ok in S4. destruct S4 as [-> S4].
  owned_says O6. owned_says O5.
  state_says 5%nat S5.
  calm (apply verify_state_why; intros Q; now apply silence_seeds). intros _ _.
  calm (apply verify_vault_why; intros Q; now apply silence_seeds). intros _ _.
  cbv zeta.
  ta_says T1 1%nat 5%nat A6. { left. bad_token 1%nat. }
  cbn [parse_ta parse_mint tk_amount tm_supply]. rewrite A4. fold (balance l (m_key m1)) (escrow l (m_key m5)) (supply l).
  calm (apply sub_why; plainly). intros ? Q. cbn [quiet snd] in Q. apply checked_sub_ok in Q. destruct Q as [Q ->].
  pose proof (free_range _ _ _ Q) as R. assert (RS : is_u64 (supply l)) by apply get_u64_range.
  calm (apply to_xorca_why; [assumption..|]; plainly). intros m _.
  calm (apply fail_if_why; plainly). intros _ _.
  calm (apply ne_because; intros c; apply cpi_transfer_ne). intros l1 _.
  calm (apply ne_because; intros c; apply cpi_mint_ne). intros l2 _. exact I.
Qed.

Lemma unstake_tells C E accs l x j :
  is_u64 x ->
  tells (complaint_true C accs l (Unstake x j)) (silence C accs l (Unstake x j)) (unstake_l C E accs l x j).
Proof.
  intros Ha. unfold unstake_l.
  hav m0 H0 K0. hav m1 H1 K1. hav m2 H2 K2. hav m3 H3 K3. hav m4 H4 K4. hav m5 H5 K5. hav m6 H6 K6. hav m7 H7 K7.
  hav m8 H8 K8.
  role_sw_says. at_says A4. at_says A5. at_says A8. at_says A7. role_w_says. owned_says O1.
  ta_says T6 6%nat 1%nat A5. { left. bad_token 6%nat. }
  role_w_says. owned_says O2.
  apply tells_bind; [apply seeds_mute| |].
  { apply seeds_tells; [now apply silence_foreign|]. intros Q. cbn [complaint_true]. cbv zeta. accounts. auto. }
  intros b Hb. rewrite seeds_same in Hb. apply seeds_ok_iff in Hb. destruct Hb as (bump & Hb & ->).
  assert (F : exists b, find_pending_withdraw_address C (acct accs 0%nat) j = Some (acct accs 2%nat, b)).
  { exists bump. accounts. exact Hb. }
  cbv zeta.
  ta_says T3 3%nat 0%nat A4. { left. bad_token 3%nat. }
  cbn [parse_ta tk_amount].
  calm (apply fail_if_why; plainly). intros _ _.
  owned_says O4. role_w_says.
  calm (apply mint_data_why; intros Q; apply silence_data; right; left; now rewrite <- A4).
  intros ? S4. cbn [quiet snd] in S4. apply mint_data_ok in S4. destruct S4 as [-> S4].
  cbn [parse_mint tm_mint_authority_flag tm_mint_authority tm_freeze_authority_flag tm_supply].
  calm (apply fail_if_why; intros Q; apply silence_data; accounts; do 2 right; apply orb_true_iff in Q;
        destruct Q as [Q|Q]; [left; now clean_bool|right; left; now apply key_differs]). intros _ _.
  calm (apply fail_if_why; intros Q; apply silence_data; accounts; do 4 right; left; now clean_bool). intros _ _.
  owned_says O5.
  calm (apply mint_data_why; intros Q; apply silence_data; do 5 right; now rewrite <- A5). intros _ _.
  state_says 1%nat S1.
  calm (apply verify_state_why; intros Q; now apply silence_seeds). intros _ _.
  calm (apply verify_vault_why; intros Q; now apply silence_seeds). intros _ _.
  rewrite A4. fold (balance l (m_key m6)) (escrow l (m_key m1)) (supply l).
  calm (apply sub_why; plainly). intros ? Q. cbn [quiet snd] in Q. apply checked_sub_ok in Q. destruct Q as [Q ->].
  pose proof (free_range _ _ _ Q) as R. assert (RS : is_u64 (supply l)) by apply get_u64_range.
  calm (apply to_orca_why; [assumption..|]; plainly). intros w _.
  calm (apply fail_if_why; plainly). intros _ _.
  calm (apply ne_because; intros c; apply cpi_burn_ne). intros l1 B1. cbn [quiet snd] in B1.
  assert (D1 : l1 (m_key m1) = l (m_key m1)) by (eapply burn_data; [exact B1|now apply xorca_not_token]).
  apply tells_bind; [apply state_data_mute| |].
  { apply view_tells; [unfold STATE_LEN; lia| |]; rewrite D1; destruct S1 as [S1 S1'].
    - intros X. unfold STATE_LEN, zlen in *. lia.
    - intros _ X. destruct X. exact S1'. }
  intros sv _.
  calm (apply add_why; plainly). intros e _. cbv zeta.
  calm (apply ne_because; intros c; apply create_pending_ne). intros l3 _.
  calm (apply addi_why; plainly). intros t _. exact I.
Qed.

Lemma withdraw_tells C E accs l j :
  tells (complaint_true C accs l (Withdraw j)) (silence C accs l (Withdraw j)) (withdraw_l C E accs l j).
Proof.
  unfold withdraw_l.
  hav m0 H0 K0. hav m1 H1 K1. hav m2 H2 K2. hav m3 H3 K3. hav m4 H4 K4. hav m5 H5 K5. hav m6 H6 K6. hav m7 H7 K7.
  role_sw_says. at_says A5. owned_says O5. role_w_says. owned_says O1.
  state_says 1%nat S1.
  calm (apply verify_state_why; intros Q; now apply silence_seeds). intros _ _.
  calm (apply verify_vault_why; intros Q; now apply silence_seeds). intros _ _.
  cbv zeta. role_w_says. owned_says O2.
  apply tells_bind; [apply pending_data_mute|apply view_tells; [unfold PENDING_LEN; lia|tell_size 2%nat|tell_kind 2%nat]|].
  intros ? S2. rewrite pending_data_same in S2. apply pending_data_ok in S2. destruct S2 as [-> S2].
  calm (apply verify_pending_why; intros Q; now apply silence_seeds). intros _ _.
  ta_says T3 3%nat 0%nat A5. { bad_token 3%nat. }
  ta_says T4 4%nat 1%nat A5. { bad_token 4%nat. }
  at_says A6. at_says A7.
  calm (apply fail_if_why; plainly). intros _ _.
  calm (apply fail_if_why; plainly). intros _ _.
  calm (apply ne_because; intros c; apply cpi_transfer_ne). intros l1 B1. cbn [quiet snd] in B1.
  pose proof (transfer_data _ _ _ _ _ _ _ _ _ _ B1 (xorca_not_token _ _ O1)) as D1.
  calm (apply ne_because; intros c; apply close_ne). intros l2 B2. cbn [quiet snd] in B2.
  assert (N : m_key m2 <> m_key m1).
  { intros X. rewrite X in S2. destruct S1 as [_ S1], S2 as [_ S2].
    change (pw_disc (a_data (l (m_key m1)))) with (st_disc (a_data (l (m_key m1)))) in S2. congruence. }
  pose proof (close_data _ _ _ _ _ B2 N) as D2. rewrite D1 in D2.
  apply tells_bind; [apply state_data_mute| |].
  { apply view_tells; [unfold STATE_LEN; lia| |]; rewrite D2; destruct S1 as [S1 S1'].
    - intros X. unfold STATE_LEN, zlen in *. lia.
    - intros _ X. destruct X. exact S1'. }
  intros sv _.
  calm (apply sub_why; plainly). intros e _. exact I.
Qed.

Lemma initialize_tells C E accs l c :
  tells (complaint_true C accs l (Initialize c)) (silence C accs l (Initialize c)) (initialize_l C E accs l c).
Proof.
  unfold initialize_l.
  hav m0 H0 K0. hav m1 H1 K1. hav m2 H2 K2. hav m3 H3 K3. hav m4 H4 K4. hav m5 H5 K5. hav m6 H6 K6. hav m7 H7 K7.
  hav m8 H8 K8.
  role_sw_says. calm (apply fail_if_why; plainly). intros _ _.
  role_w_says.
  apply tells_bind; [apply seeds_mute| |].
  { apply seeds_tells; [now apply silence_foreign|]. intros Q. cbn [complaint_true]. cbv zeta. accounts. left. auto. }
  intros b _. cbv zeta.
  calm (apply fail_if_why; plainly). intros _ _.
  owned_says O2. owned_says O4.
  calm (apply mint_data_why; intros Q; now apply silence_data).
  intros ? S4. cbn [quiet snd] in S4. apply mint_data_ok in S4. destruct S4 as [-> S4].
  cbn [parse_mint tm_mint_authority_flag tm_mint_authority tm_freeze_authority_flag tm_freeze_authority tm_supply tm_decimals].
  apply tells_bind; [apply address_mute| |intros _ _].
  { apply address_tells. intros Q. cbn [complaint_true]. cbv zeta. right. accounts. auto. }
  calm (apply fail_if_why; intros Q; now apply silence_data). intros _ _.
  at_says A4.
  calm (apply fail_if_why; intros Q; now apply silence_data). intros _ _.
  calm (apply fail_if_why; intros Q; now apply silence_data). intros _ _.
  calm (apply fail_if_why; intros Q; now apply silence_data). intros _ _.
  calm (apply fail_if_why; intros Q; now apply silence_data). intros _ _.
  owned_says O5.
  calm (apply mint_data_why; intros Q; now apply silence_data). intros ? _.
  at_says A5.
  calm (apply fail_if_why; intros Q; now apply silence_data). intros _ _.
  role_sw_says. at_says A6. role_w_says. owned_says O3. at_says A7. at_says A8.
  rewrite A5.
  destruct (find_vault_address C (m_key m2) token_id orca_mint_id) as [[vk vb]|] eqn:Fv;
    [|left; split; [reflexivity|now apply silence_foreign]].
  apply tells_bind; [apply seeds_mute| |].
  { apply seeds_tells; [now apply silence_foreign|]. intros Q. cbn [complaint_true]. cbv zeta. accounts. right. auto. }
  intros _ _.
  calm (apply fail_if_why; plainly). intros _ _.
  apply tells_bind; [apply mute_quiet| |intros l1 _; apply tells_bind; [apply mute_quiet| |intros; exact I]];
    apply tells_quiet, silence_raises.
  - unfold create_state_account. apply raises_bind; [|intros; walk; now apply because_foreign].
    apply ne_because. intros z. apply create_secure_ne.
  - apply ne_because. intros z. apply invoke_ne. intros sg. apply foreign_ne, ata_create_raises.
Qed.

Lemma set_tells C accs l u :
  tells (complaint_true C accs l (Set_ u)) (silence C accs l (Set_ u)) (set_l C accs l u).
Proof.
  unfold set_l. hav m0 H0 K0. hav m1 H1 K1.
  role_sw_says. role_w_says. owned_says O1.
  state_says 1%nat S1.
  calm (apply verify_state_why; intros Q; now apply silence_seeds). intros _ _.
  apply tells_bind; [apply address_mute| |intros _ _].
  { apply address_tells. intros Q. cbn [complaint_true]. cbv zeta. right. unfold authority. accounts. auto. }
  destruct u; [|exact I].
  calm (apply fail_if_why; plainly). intros; exact I.
Qed.
