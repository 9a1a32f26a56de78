(** Proofs for C79: the scripts' transactions. *)
From Verif Require Export LandFacts ScriptExec WireScripts.
Import List ListNotations.
Open Scope list_scope.
Open Scope Z_scope.

Lemma lists_length ks ks' P : lists ks P -> lists ks' P -> length ks = length ks'.
Proof.
  intros [N I] [N' I']. apply Nat.le_antisymm; apply NoDup_incl_length; auto; intros k; rewrite I, I'; auto.
Qed.
Theorem land_script C E l0 l before signature verify reserved tables hash fee signers ops ixs payer ss r :
  signs_well signature verify signers -> script_sends C E l0 fee signers ops -> is_payer fee signers payer ->
  instructions_of ops = Some ixs -> ~ is_called ixs payer ->
  (forall b m, In b ixs -> In m (b_accounts b) -> m_writable m = true ->
     reserved (m_key m) = false /\ ~ is_called ixs (m_key m)) ->
  lists ss (must_sign payer ixs) ->
  let n := 5000 * Z.of_nat (length ss) in
  let l1 := paid l payer n in
  can_pay E l payer n -> creates_new l1 ops -> attempt_all C l1 ops = Ok r ->
  exists d, wire before signature hash fee signers ixs = Some d /\
    (all_pass E l1 (fst r) -> land C E verify reserved tables l d = r) /\
    (~ all_pass E l1 (fst r) -> land C E verify reserved tables l d = (l1, [])).
Proof.
  intros Sg H P I NC Wr Ls n l1 Cp CN A.
  destruct (script_packet C E l0 l1 before signature verify reserved tables hash fee signers ops ixs payer r
    Sg H P I NC Wr CN A) as (d & W & Pk).
  exists d. split; [exact W|].
  destruct (sends_scripted _ _ _ _ _ _ H) as (_ & _ & ixs' & I' & T).
  assert (ixs' = ixs) by congruence. subst ixs'. apply script_tidy in T. destruct T as ((_ & B & _) & _).
  destruct (wire_arrives_as before signature verify reserved tables hash fee signers ixs payer d Sg P NC)
    as (got & (R & _) & sigs & m & Tk & Sm & Hd & ss' & Ls' & Nm); [intros k J; right; now apply B|exact W|].
  assert (F : fee_parts d = Some (payer, length ss)).
  { unfold fee_parts. rewrite Tk. cbn [obind snd]. rewrite (take_message_bytes m Sm). cbn [obind fst]. rewrite Hd.
    cbn [obind]. rewrite Nm, (lists_length _ _ _ Ls' Ls). reflexivity. }
  destruct (receive_says _ _ _ _ _ R) as (y & S). destruct (says_fee _ _ _ _ S) as (payer' & rest & Q & F').
  rewrite F in F'. assert (payer' = payer) by congruence. subst payer'.
  assert (Ln : length (lay_signers y) = length ss) by congruence.
  assert (Fe : fee_of y = n) by (unfold fee_of, n; now rewrite Ln).
  pose proof (land_pays C E verify reserved tables l d y payer rest S Q) as G.
  rewrite Fe in G. specialize (G Cp). cbv zeta in G. fold l1 in G. rewrite Pk in G. exact G.
Qed.
