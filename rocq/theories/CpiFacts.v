(** Characterisation of cross-program calls and of account creation. *)
From Verif Require Import Program BytesFacts LedgerFacts TokenFacts ParseFacts.

(** Pointwise equality of ledgers. *)
Definition leq (l l' : ledger) : Prop := forall k, l k = l' k.

Lemma leq_refl l : leq l l.
Proof. now intros k. Qed.
Lemma leq_trans a b c : leq a b -> leq b c -> leq a c.
Proof. intros H1 H2 k. now rewrite H1. Qed.
Lemma leq_upd l l' k a : leq l l' -> leq (upd l k a) (upd l' k a).
Proof. intros H k'. unfold upd. destruct (key_eqb k k'); auto. Qed.
Lemma leq_set_data l l' k d : leq l l' -> leq (set_data l k d) (set_data l' k d).
Proof. intros H. unfold set_data. rewrite (H k). now apply leq_upd. Qed.
Lemma leq_set_lamports l l' k d : leq l l' -> leq (set_lamports l k d) (set_lamports l' k d).
Proof. intros H. unfold set_lamports. rewrite (H k). now apply leq_upd. Qed.

(** ** invoke_signed *)
Definition signer_of (inner : list meta) : pubkey -> bool :=
  fun k => existsb (fun m => key_eqb (m_key m) k && m_signer m) inner.

Lemma invoke_signed_ok C accs seeds callee inner body l' :
  invoke_signed C accs seeds callee inner body = Ok l' <->
  exists pdas, pda_signers C seeds = Ok pdas /\ caller_has_key accs callee = true /\
    forallb (meta_allowed accs pdas) inner = true /\ body (signer_of inner) = Ok l'.
Proof.
  unfold invoke_signed. split.
  - intros H. inv_bind H pdas. inv_bind H u. inv_bind H v. clean_bool. exists pdas. auto.
  - intros (pdas & -> & H1 & H2 & H3). cbn [bind]. rewrite H1, H2. cbn. exact H3.
Qed.

Lemma has_key_in accs m : In m accs -> caller_has_key accs (m_key m) = true.
Proof.
  intros H. unfold caller_has_key. apply existsb_exists. exists m. split; [assumption|].
  apply key_eqb_refl.
Qed.
Lemma signs_in accs m : In m accs -> m_signer m = true -> caller_signs accs (m_key m) = true.
Proof.
  intros H Hs. unfold caller_signs. apply existsb_exists. exists m. split; [assumption|].
  now rewrite key_eqb_refl, Hs.
Qed.
Lemma writes_in accs m : In m accs -> m_writable m = true -> caller_writes accs (m_key m) = true.
Proof.
  intros H Hs. unfold caller_writes. apply existsb_exists. exists m. split; [assumption|].
  now rewrite key_eqb_refl, Hs.
Qed.

Lemma get_account_ok accs i m : get_account_info accs i = Ok m <-> nth_error accs i = Some m.
Proof.
  unfold get_account_info. destruct (nth_error accs i); split; congruence.
Qed.

Lemma get_account_in (accs : list meta) i m : nth_error accs i = Some m -> In m accs.
Proof. apply nth_error_In. Qed.

Lemma allowed_w accs pdas m :
  In m accs -> m_writable m = true -> meta_allowed accs pdas (Meta (m_key m) false true) = true.
Proof.
  intros H1 H2. unfold meta_allowed. cbn [m_key m_signer m_writable negb orb].
  now rewrite has_key_in, writes_in.
Qed.
Lemma allowed_r accs pdas m :
  In m accs -> meta_allowed accs pdas (Meta (m_key m) false false) = true.
Proof.
  intros H1. unfold meta_allowed. cbn [m_key m_signer m_writable negb orb].
  now rewrite has_key_in.
Qed.
Lemma allowed_s accs pdas m :
  In m accs -> m_signer m = true -> meta_allowed accs pdas (Meta (m_key m) true false) = true.
Proof.
  intros H1 H2. unfold meta_allowed. cbn [m_key m_signer m_writable negb orb].
  now rewrite has_key_in, signs_in.
Qed.
Lemma allowed_sw accs pdas m :
  In m accs -> m_signer m = true -> m_writable m = true ->
  meta_allowed accs pdas (Meta (m_key m) true true) = true.
Proof.
  intros H1 H2 H3. unfold meta_allowed. cbn [m_key m_signer m_writable negb orb].
  now rewrite has_key_in, signs_in, writes_in.
Qed.
Lemma allowed_pda accs pdas m w :
  In m accs -> existsb (key_eqb (m_key m)) pdas = true -> (w = true -> m_writable m = true) ->
  meta_allowed accs pdas (Meta (m_key m) true w) = true.
Proof.
  intros H1 H2 H3. unfold meta_allowed. cbn [m_key m_signer m_writable negb orb].
  rewrite has_key_in, H2, orb_true_r by assumption. cbn [andb].
  destruct w; [|reflexivity]. cbn. now rewrite writes_in by auto.
Qed.

(** ** Token CPIs *)
Definition owner_signs (a : pubkey) : pubkey -> bool :=
  fun k => key_eqb a k.

Lemma signer_of_three f t a k :
  signer_of [Meta f false true; Meta t false true; Meta a true false] k = owner_signs a k.
Proof.
  unfold signer_of, owner_signs. cbn [existsb m_key m_signer].
  rewrite !andb_false_r, andb_true_r, orb_false_r. reflexivity.
Qed.

Lemma validate_owner_ext l sg sg' ex e a :
  (forall k, sg k = sg' k) -> validate_owner l sg ex e a = validate_owner l sg' ex e a.
Proof.
  intros H. unfold validate_owner. rewrite (H a).
  replace (forallb sg ex) with (forallb sg' ex); [reflexivity|].
  induction ex as [|x ex IH]; cbn; [reflexivity|]. now rewrite H, IH.
Qed.

Lemma spend_auth_ext l sg sg' ex d a n c :
  (forall k, sg k = sg' k) -> spend_auth l sg ex d a n c = spend_auth l sg' ex d a n c.
Proof. intros H. unfold spend_auth. now rewrite !(validate_owner_ext l sg sg') by exact H. Qed.

Lemma cpi_transfer_ok C accs seeds l f t a n l' :
  In f accs -> In t accs -> In a accs ->
  m_writable f = true -> m_writable t = true ->
  caller_has_key accs token_id = true ->
  (m_signer a = true \/ exists pdas, pda_signers C seeds = Ok pdas
                          /\ existsb (key_eqb (m_key a)) pdas = true) ->
  (exists pdas, pda_signers C seeds = Ok pdas) ->
  cpi_token_transfer C accs seeds l f t a n = Ok l' <->
  token_transfer (signer_of [Meta (m_key f) false true; Meta (m_key t) false true;
                             Meta (m_key a) true false])
                 [] l (m_key f) (m_key t) (m_key a) n = Ok l'.
Proof.
  intros Hf Ht Ha Wf Wt Htok Hs (pdas & Hp). unfold cpi_token_transfer.
  rewrite invoke_signed_ok. split.
  - intros (p & _ & _ & _ & H). exact H.
  - intros H. exists pdas. repeat split; auto. cbn [forallb].
    rewrite (allowed_w accs pdas f), (allowed_w accs pdas t) by assumption.
    destruct Hs as [Hs|(p & Hp2 & Hs)].
    + now rewrite (allowed_s accs pdas a).
    + rewrite Hp in Hp2. injection Hp2 as <-.
      rewrite (allowed_pda accs pdas a false); [reflexivity|assumption|assumption|discriminate].
Qed.

Lemma cpi_burn_ok C accs l f m a n l' :
  In f accs -> In m accs -> In a accs ->
  m_writable f = true -> m_writable m = true -> m_signer a = true ->
  caller_has_key accs token_id = true ->
  cpi_token_burn C accs [] l f m a n = Ok l' <->
  token_burn (signer_of [Meta (m_key f) false true; Meta (m_key m) false true;
                         Meta (m_key a) true false])
             [] l (m_key f) (m_key m) (m_key a) n = Ok l'.
Proof.
  intros Hf Hm Ha Wf Wm Hs Htok. unfold cpi_token_burn.
  rewrite invoke_signed_ok. split.
  - intros (p & _ & _ & _ & H). exact H.
  - intros H. exists []. repeat split; auto. cbn [forallb].
    rewrite (allowed_w accs [] f), (allowed_w accs [] m), (allowed_s accs [] a) by assumption.
    reflexivity.
Qed.

Lemma pda_signers_one C s k :
  create_program_address C s xorca_id = Some k -> pda_signers C [s] = Ok [k].
Proof. intros H. cbn [pda_signers]. now rewrite H. Qed.

Lemma pda_signers_inv C s p :
  pda_signers C [s] = Ok p -> exists k, create_program_address C s xorca_id = Some k /\ p = [k].
Proof.
  cbn [pda_signers]. destruct (create_program_address C s xorca_id) as [k|]; [|discriminate].
  cbn. intros [=<-]. eauto.
Qed.

Lemma cpi_mint_ok C accs s l m t a n l' :
  In m accs -> In t accs -> In a accs ->
  m_writable m = true -> m_writable t = true ->
  caller_has_key accs token_id = true ->
  create_program_address C s xorca_id = Some (m_key a) ->
  cpi_token_mint_to C accs [s] l m t a n = Ok l' <->
  token_mint_to (signer_of [Meta (m_key m) false true; Meta (m_key t) false true;
                             Meta (m_key a) true false])
                 [] l (m_key m) (m_key t) (m_key a) n = Ok l'.
Proof.
  intros Hf Ht Ha Wf Wt Htok Hs. unfold cpi_token_mint_to.
  rewrite invoke_signed_ok. split.
  - intros (p & _ & _ & _ & H). exact H.
  - intros H. exists [m_key a]. repeat split; auto.
    + now apply pda_signers_one.
    + cbn [forallb].
      rewrite (allowed_w accs _ m), (allowed_w accs _ t) by assumption.
      rewrite (allowed_pda accs _ a false); [reflexivity|assumption| |discriminate].
      cbn. now rewrite key_eqb_refl.
Qed.

(** ** Account creation *)
Definition rent_need (E : env) (l : ledger) (k : pubkey) (space : Z) : Z :=
  Z.max (rent_min E space - a_lamports (l k)) 0.

(** Conditions under which [funder] can top [k] up to the rent minimum. *)
Definition can_fund (E : env) (l : ledger) (funder k : pubkey) (space : Z) : Prop :=
  (a_lamports (l k) = 0 \/ 0 < rent_need E l k space ->
     a_data (l funder) = [] /\ rent_need E l k space <= a_lamports (l funder)
     /\ (0 < rent_need E l k space -> a_owner (l funder) = system_id)
     /\ a_lamports (l k) + rent_need E l k space <= u64_max).

Definition created (E : env) (l : ledger) (funder k : pubkey) (space : Z) (owner : pubkey)
    : ledger :=
  upd (set_lamports l funder (a_lamports (l funder) - rent_need E l k space))
      k (Account (a_lamports (l k) + rent_need E l k space) owner (zeros space)).

Lemma zlen_nil {A} (l : list A) : zlen l = 0 <-> l = [].
Proof. unfold zlen. destruct l; cbn; split; try congruence; lia. Qed.

Lemma sys_transfer_ok sg l f t n l' :
  f <> t ->
  sys_transfer sg l f t n = Ok l' <->
  sg f = true /\ a_data (l f) = [] /\ n <= a_lamports (l f) /\
  (0 < n -> a_owner (l f) = system_id) /\ a_lamports (l t) + n <= u64_max /\
  l' = set_lamports (set_lamports l f (a_lamports (l f) - n)) t (a_lamports (l t) + n).
Proof.
  intros Hne. unfold sys_transfer. cbv zeta. rewrite set_lamports_other by exact Hne. split.
  - intros H. inv_bind H u. inv_bind H u0. inv_bind H u1. inv_bind H u2. inv_bind H u3.
    injection H as <-. clean_bool. apply zlen_nil in Hx0. repeat split; auto.
    intros Hn. destruct (key_eqb (a_owner (l f)) system_id) eqn:Eo.
    + now apply key_eqb_true in Eo.
    + cbn in Hx2. clean_bool. lia.
  - intros (H1 & H2 & H3 & H4 & H5 & ->). rewrite H1, H2.
    change (zlen (@nil byte) =? 0) with true. cbn [negb fail_if bind].
    rewrite (fail_if_Ok (a_lamports (l f) <? n)) by (apply Z.ltb_ge; lia). cbn [bind].
    destruct (0 <? n) eqn:En.
    + apply Z.ltb_lt in En. rewrite H4 by assumption. rewrite key_eqb_refl. cbn [negb andb bind fail_if].
      rewrite (fail_if_Ok (_ <? _)) by (apply Z.ltb_ge; lia). reflexivity.
    + rewrite andb_false_r. cbn [bind fail_if]. rewrite (fail_if_Ok (_ <? _)) by (apply Z.ltb_ge; lia). reflexivity.
Qed.

Lemma sys_allocate_ok sg l k n l' :
  sys_allocate sg l k n = Ok l' <->
  sg k = true /\ a_data (l k) = [] /\ a_owner (l k) = system_id /\ n <= max_data_len /\
  l' = set_data l k (zeros n).
Proof.
  unfold sys_allocate. split.
  - intros H. inv_bind H u. inv_bind H u0. inv_bind H u1. injection H as <-. clean_bool.
    match goal with H : zlen _ = 0 |- _ => apply zlen_nil in H end. repeat split; auto.
  - intros (H1 & H2 & H3 & H4 & ->). rewrite H1, H2, H3, key_eqb_refl.
    change (zlen (@nil byte) =? 0) with true. cbn [negb orb fail_if bind].
    rewrite (fail_if_Ok (_ <? _)) by (apply Z.ltb_ge; lia). reflexivity.
Qed.

Lemma sys_assign_ok sg l k o l' :
  a_owner (l k) <> o ->
  sys_assign sg l k o = Ok l' <->
  sg k = true /\ a_owner (l k) = system_id /\ all_zero (a_data (l k)) = true /\
  l' = set_owner l k o.
Proof.
  intros Hne. unfold sys_assign. rewrite (key_eqb_neq _ _ Hne). split.
  - intros H. inv_bind H u. inv_bind H u0. inv_bind H u1. injection H as <-. clean_bool. auto.
  - intros (H1 & H2 & H3 & ->). now rewrite H1, H2, key_eqb_refl, H3.
Qed.

Lemma signer_of_two a b k wa sb wb :
  signer_of [Meta a true wa; Meta b sb wb] k = key_eqb a k || (key_eqb b k && sb).
Proof. unfold signer_of. cbn. now rewrite andb_true_r, orb_false_r. Qed.

Lemma signer_of_one a k wa : signer_of [Meta a true wa] k = key_eqb a k.
Proof. unfold signer_of. cbn. now rewrite andb_true_r, orb_false_r. Qed.

(** Top-up and allocation, given that the new account is a fresh PDA. *)
Lemma create_secure_ok C E accs l funder new space owner s l' :
  In funder accs -> In new accs ->
  m_signer funder = true -> m_writable funder = true -> m_writable new = true ->
  create_program_address C s xorca_id = Some (m_key new) ->
  a_owner (l (m_key new)) = system_id -> m_key funder <> m_key new ->
  0 <= space <= max_data_len -> owner <> system_id ->
  0 <= rent_min E space ->
  caller_has_key accs system_id = true ->
  create_account_secure C E accs l funder new space owner [s] = Ok l' ->
  a_data (l (m_key new)) = [] /\
  can_fund E l (m_key funder) (m_key new) space /\
  leq l' (created E l (m_key funder) (m_key new) space owner).
Proof.
  intros Hf Hn Sf Wf Wn Hp Ho Hne Hsp Hown Hrent Hsys.
  unfold create_account_secure. rewrite Ho, key_eqb_refl. cbn [negb].
  destruct (Z.eqb_spec (a_lamports (l (m_key new))) 0) as [Hz|Hz].
  - unfold cpi_system_create. rewrite invoke_signed_ok.
    intros (pdas & Hpd & _ & _ & H). unfold sys_create_account in H.
    inv_bind H u. inv_bind H l1. inv_bind H l2.
    apply sys_allocate_ok in Hx0. destruct Hx0 as (_ & Hd & _ & _ & ->).
    apply sys_assign_ok in Hx1; [|autorewrite with ledger; congruence].
    destruct Hx1 as (_ & _ & _ & ->).
    apply sys_transfer_ok in H; [|exact Hne].
    destruct H as (_ & Hfd & Hfl & Hfo & Hov & ->).
    rewrite set_owner_other, set_data_other in * by congruence.
    autorewrite with ledger in *.
    assert (Hneed : rent_need E l (m_key new) space = rent_min E space)
      by (unfold rent_need; lia).
    split; [assumption|]. split.
    + unfold can_fund. rewrite Hneed. intros _. repeat split; auto; lia.
    + intros k. unfold created. rewrite Hneed.
      unfold set_lamports at 1. rewrite !set_lamports_other by exact Hne.
      rewrite set_owner_same, set_data_same. cbn [a_lamports a_owner a_data].
      unfold upd at 1 2. destruct (key_eqb (m_key new) k) eqn:Ek.
      * reflexivity.
      * destruct (key_eq_dec (m_key funder) k) as [<-|Hk].
        -- rewrite !set_lamports_same. rewrite set_owner_other, set_data_other by congruence.
           reflexivity.
        -- assert (m_key new <> k) by (intros <-; now rewrite key_eqb_refl in Ek).
           rewrite !set_lamports_other by exact Hk.
           now rewrite set_owner_other, set_data_other by assumption.
  - fold (rent_need E l (m_key new) space). set (need := rent_need E l (m_key new) space).
    intros H. inv_bind H l1.
    assert (H1 : (0 < need -> a_data (l (m_key funder)) = [] /\ need <= a_lamports (l (m_key funder))
                   /\ a_owner (l (m_key funder)) = system_id) /\
                 a_lamports (l (m_key new)) + need <= u64_max \/ need = 0).
    { destruct (0 <? need) eqn:En; [|right; apply Z.ltb_ge in En; unfold need, rent_need in *; lia].
      left. unfold cpi_system_transfer in Hx. apply invoke_signed_ok in Hx.
      destruct Hx as (p & _ & _ & _ & Hx). apply sys_transfer_ok in Hx; [|exact Hne].
      destruct Hx as (_ & ? & ? & ? & ? & _). split; auto. }
    assert (Hl1 : leq l1 (set_lamports (set_lamports l (m_key funder)
                             (a_lamports (l (m_key funder)) - need)) (m_key new)
                             (a_lamports (l (m_key new)) + need))).
    { destruct (0 <? need) eqn:En.
      - unfold cpi_system_transfer in Hx. apply invoke_signed_ok in Hx.
        destruct Hx as (p & _ & _ & _ & Hx). apply sys_transfer_ok in Hx; [|exact Hne].
        destruct Hx as (_ & _ & _ & _ & _ & ->). apply leq_refl.
      - injection Hx as <-. apply Z.ltb_ge in En.
        assert (Hn0 : need = 0) by (unfold need, rent_need in *; lia). rewrite Hn0.
        rewrite Z.sub_0_r, Z.add_0_r. intros k.
        destruct (key_eq_dec (m_key new) k) as [<-|Hk].
        + rewrite set_lamports_same, set_lamports_other by exact Hne.
          now destruct (l (m_key new)).
        + rewrite (set_lamports_other _ (m_key new)) by exact Hk.
          destruct (key_eq_dec (m_key funder) k) as [<-|Hk2].
          * rewrite set_lamports_same. now destruct (l (m_key funder)).
          * now rewrite set_lamports_other by exact Hk2. }
    inv_bind H l2. unfold cpi_system_allocate in Hx0. apply invoke_signed_ok in Hx0.
    destruct Hx0 as (p & _ & _ & _ & Hx0). apply sys_allocate_ok in Hx0.
    destruct Hx0 as (_ & Hd & _ & _ & ->).
    unfold cpi_system_assign in H. apply invoke_signed_ok in H.
    destruct H as (p2 & _ & _ & _ & H). apply sys_assign_ok in H.
    2:{ rewrite set_data_owner, Hl1. autorewrite with ledger. congruence. }
    destruct H as (_ & _ & _ & ->).
    rewrite Hl1 in Hd. rewrite set_lamports_data, set_lamports_data in Hd.
    split; [assumption|]. split.
    + unfold can_fund. fold need. intros [?|Hpos]; [contradiction|].
      destruct H1 as [[H1 H1']|H1]; [|lia]. destruct (H1 Hpos) as (? & ? & ?). auto.
    + intros k. unfold created. fold need.
      destruct (key_eq_dec (m_key new) k) as [<-|Hk].
      * rewrite upd_same, set_owner_same. autorewrite with ledger. rewrite Hl1.
        now rewrite set_lamports_same_lamports.
      * rewrite upd_other, set_owner_other, set_data_other by exact Hk. rewrite Hl1.
        now rewrite (set_lamports_other _ (m_key new)) by exact Hk.
Qed.

(** The conditions of [create_secure_ok] suffice. *)
Lemma create_secure_run C E accs l funder new space owner s :
  In funder accs -> In new accs ->
  m_signer funder = true -> m_writable funder = true -> m_writable new = true ->
  create_program_address C s xorca_id = Some (m_key new) ->
  a_owner (l (m_key new)) = system_id -> m_key funder <> m_key new ->
  0 <= space <= max_data_len -> owner <> system_id ->
  0 <= rent_min E space ->
  caller_has_key accs system_id = true ->
  a_data (l (m_key new)) = [] ->
  can_fund E l (m_key funder) (m_key new) space ->
  exists l', create_account_secure C E accs l funder new space owner [s] = Ok l'.
Proof.
  intros Hf Hn Sf Wf Wn Hp Ho Hne Hsp Hown Hrent Hsys Hd Hfund.
  assert (Hpd : pda_signers C [s] = Ok [m_key new]) by now apply pda_signers_one.
  assert (Anew : meta_allowed accs [m_key new] (Meta (m_key new) true true) = true).
  { apply allowed_pda; auto. cbn. now rewrite key_eqb_refl. }
  unfold create_account_secure. rewrite Ho, key_eqb_refl. cbn [negb]. cbv zeta.
  destruct (Z.eqb_spec (a_lamports (l (m_key new))) 0) as [Hz|Hz].
  - destruct Hfund as (F1 & F2 & F3 & F4); [now left|].
    assert (Hneed : rent_need E l (m_key new) space = rent_min E space)
      by (unfold rent_need; lia).
    rewrite Hneed in *.
    eexists. unfold cpi_system_create. apply invoke_signed_ok. exists [m_key new].
    split; [assumption|]. split; [assumption|]. split.
    { cbn [forallb]. rewrite (allowed_sw accs _ funder), Anew by assumption. reflexivity. }
    unfold sys_create_account. rewrite Hz. cbn [Z.ltb Z.compare fail_if bind].
    rewrite (proj2 (sys_allocate_ok _ l (m_key new) space (set_data l (m_key new) (zeros space)))).
    2:{ rewrite signer_of_two, key_eqb_refl. rewrite orb_true_r.
        repeat split; auto. lia. }
    cbn [bind].
    rewrite (proj2 (sys_assign_ok _ (set_data l (m_key new) (zeros space)) (m_key new) owner
                      (set_owner (set_data l (m_key new) (zeros space)) (m_key new) owner)
                      ltac:(rewrite set_data_owner; congruence))).
    2:{ rewrite signer_of_two, key_eqb_refl, orb_true_r. autorewrite with ledger.
        repeat split; auto. apply all_zero_zeros. }
    cbn [bind].
    apply sys_transfer_ok; [assumption|].
    rewrite signer_of_two, key_eqb_refl. cbn [orb].
    rewrite set_owner_other, set_data_other by congruence. autorewrite with ledger.
    repeat split; auto; lia.
  - fold (rent_need E l (m_key new) space). set (need := rent_need E l (m_key new) space) in *.
    assert (Ht : exists l1,
      (if 0 <? need
       then cpi_system_transfer C accs [s] l funder new need else Ok l) = Ok l1 /\
      a_data (l1 (m_key new)) = [] /\ a_owner (l1 (m_key new)) = system_id).
    { destruct (0 <? need) eqn:En.
      - apply Z.ltb_lt in En. destruct Hfund as (F1 & F2 & F3 & F4); [now right|].
        eexists. split; [|split].
        + unfold cpi_system_transfer. apply invoke_signed_ok. exists [m_key new].
          split; [assumption|]. split; [assumption|]. split.
          { cbn [forallb]. rewrite (allowed_sw accs _ funder), (allowed_w accs _ new) by assumption.
            reflexivity. }
          apply sys_transfer_ok; [assumption|].
          rewrite signer_of_two, key_eqb_refl. cbn [orb]. repeat split; auto.
        + now autorewrite with ledger.
        + now autorewrite with ledger.
      - exists l. auto. }
    destruct Ht as (l1 & Ht & Hd1 & Ho1).
    assert (Ha : cpi_system_allocate C accs [s] l1 new space
                 = Ok (set_data l1 (m_key new) (zeros space))).
    { unfold cpi_system_allocate. apply invoke_signed_ok. exists [m_key new].
      split; [assumption|]. split; [assumption|]. split.
      { cbn [forallb]. now rewrite Anew. }
      apply sys_allocate_ok. rewrite signer_of_one, key_eqb_refl. repeat split; auto. lia. }
    eexists. eapply bind_Ok; [exact Ht|]. cbv beta. rewrite Ha. cbn [bind].
    unfold cpi_system_assign. apply invoke_signed_ok. exists [m_key new].
    split; [assumption|]. split; [assumption|]. split.
    { cbn [forallb]. now rewrite Anew. }
    apply sys_assign_ok; [rewrite set_data_owner; congruence|].
    rewrite signer_of_one, key_eqb_refl. autorewrite with ledger.
    repeat split; auto. apply all_zero_zeros.
Qed.

(** Clock and rent values the runtime can supply. *)
Definition env_ok (E : env) : Prop := is_i64 (now E) /\ forall n, 0 <= n -> is_u64 (rent_min E n).
