(** Reading a ledger after an update; inversion tactics for [res]. *)
From Verif Require Import Solana BytesFacts.

Lemma upd_same l k a : upd l k a k = a.
Proof. unfold upd. now rewrite key_eqb_refl. Qed.

Lemma upd_other l k a k' : k <> k' -> upd l k a k' = l k'.
Proof.
  intros H. unfold upd. destruct (key_eqb k k') eqn:E; [|reflexivity].
  apply key_eqb_true in E. contradiction.
Qed.

Lemma upd_data_same l k d : a_data (set_data l k d k) = d.
Proof. unfold set_data. now rewrite upd_same. Qed.

Lemma set_data_same l k d : set_data l k d k = Account (a_lamports (l k)) (a_owner (l k)) d.
Proof. unfold set_data. now rewrite upd_same. Qed.
Lemma set_lamports_same l k n : set_lamports l k n k = Account n (a_owner (l k)) (a_data (l k)).
Proof. unfold set_lamports. now rewrite upd_same. Qed.
Lemma set_owner_same l k o : set_owner l k o k = Account (a_lamports (l k)) o (a_data (l k)).
Proof. unfold set_owner. now rewrite upd_same. Qed.

Lemma set_data_other l k d k' : k <> k' -> set_data l k d k' = l k'.
Proof. intros H. unfold set_data. now rewrite upd_other. Qed.
Lemma set_lamports_other l k n k' : k <> k' -> set_lamports l k n k' = l k'.
Proof. intros H. unfold set_lamports. now rewrite upd_other. Qed.
Lemma set_owner_other l k o k' : k <> k' -> set_owner l k o k' = l k'.
Proof. intros H. unfold set_owner. now rewrite upd_other. Qed.

(** Fields that an update never touches. *)
Lemma set_data_lamports l k d k' : a_lamports (set_data l k d k') = a_lamports (l k').
Proof.
  unfold set_data, upd. destruct (key_eqb k k') eqn:E; [|reflexivity].
  apply key_eqb_true in E. now subst.
Qed.
Lemma set_data_owner l k d k' : a_owner (set_data l k d k') = a_owner (l k').
Proof.
  unfold set_data, upd. destruct (key_eqb k k') eqn:E; [|reflexivity].
  apply key_eqb_true in E. now subst.
Qed.
Lemma set_lamports_owner l k d k' : a_owner (set_lamports l k d k') = a_owner (l k').
Proof.
  unfold set_lamports, upd. destruct (key_eqb k k') eqn:E; [|reflexivity].
  apply key_eqb_true in E. now subst.
Qed.
Lemma set_lamports_data l k d k' : a_data (set_lamports l k d k') = a_data (l k').
Proof.
  unfold set_lamports, upd. destruct (key_eqb k k') eqn:E; [|reflexivity].
  apply key_eqb_true in E. now subst.
Qed.
Lemma set_owner_data l k d k' : a_data (set_owner l k d k') = a_data (l k').
Proof.
  unfold set_owner, upd. destruct (key_eqb k k') eqn:E; [|reflexivity].
  apply key_eqb_true in E. now subst.
Qed.
Lemma set_owner_lamports l k d k' : a_lamports (set_owner l k d k') = a_lamports (l k').
Proof.
  unfold set_owner, upd. destruct (key_eqb k k') eqn:E; [|reflexivity].
  apply key_eqb_true in E. now subst.
Qed.

Lemma set_lamports_same_lamports l k n : a_lamports (set_lamports l k n k) = n.
Proof. now rewrite set_lamports_same. Qed.
Lemma set_owner_same_owner l k o : a_owner (set_owner l k o k) = o.
Proof. now rewrite set_owner_same. Qed.

(** Case split on whether the key read is the key written. *)
Lemma upd_cases (l : ledger) k a k' :
  (k' = k /\ upd l k a k' = a) \/ (k' <> k /\ upd l k a k' = l k').
Proof.
  destruct (key_eq_dec k' k) as [->|H]; [left|right]; split; auto.
  - apply upd_same.
  - apply upd_other. congruence.
Qed.

Global Hint Rewrite set_data_lamports set_data_owner set_lamports_owner set_lamports_data
  set_owner_data set_owner_lamports upd_data_same set_lamports_same_lamports
  set_owner_same_owner : ledger.

Lemma key_eqb_neq a b : a <> b -> key_eqb a b = false.
Proof.
  intros H. destruct (key_eqb a b) eqn:E; [|reflexivity]. apply key_eqb_true in E. contradiction.
Qed.

Lemma acct_eta (a : account) : a = Account (a_lamports a) (a_owner a) (a_data a).
Proof. now destruct a. Qed.

Lemma fail_if_Ok {E} (b : bool) (e : E) : b = false -> fail_if b e = Ok tt.
Proof. now intros ->. Qed.

Lemma bind_Ok {E A B} (m : res E A) (f : A -> res E B) a r :
  m = Ok a -> f a = r -> bind m f = r.
Proof. now intros -> <-. Qed.

(** Invert one or all binds of a successful computation. *)
Ltac inv_bind H x :=
  let Hx := fresh "Hx" in
  apply bind_ok in H; destruct H as (x & Hx & H).

Ltac clean_bool :=
  repeat match goal with
  | H : fail_if _ _ = Ok _ |- _ => apply fail_if_ok in H
  | H : negb _ = false |- _ => apply negb_false_iff in H
  | H : negb _ = true |- _ => apply negb_true_iff in H
  | H : key_eqb _ _ = true |- _ => apply key_eqb_true in H
  | H : _ && _ = true |- _ => apply andb_true_iff in H; destruct H
  | H : _ || _ = false |- _ => apply orb_false_iff in H; destruct H
  | H : (_ <? _) = false |- _ => apply Z.ltb_ge in H
  | H : (_ <? _) = true |- _ => apply Z.ltb_lt in H
  | H : (_ <=? _) = false |- _ => apply Z.leb_gt in H
  | H : (_ <=? _) = true |- _ => apply Z.leb_le in H
  | H : (_ =? _) = false |- _ => apply Z.eqb_neq in H
  | H : (_ =? _) = true |- _ => apply Z.eqb_eq in H
  end.

Ltac inv_checks H :=
  repeat (let u := fresh "u" in inv_bind H u); clean_bool.
