(** C66: what a call can see and change, and how it depends on the clock. *)
From Verif Require Import Spec Demo LocalFacts ClockFacts LedgerFacts BytesFacts.
Import List ListNotations.
Open Scope list_scope.
Open Scope Z_scope.

(** ** C66 *)
Theorem C66_sees_only_its_accounts : forall C E pid accs l l' data,
  (forall m, In m accs -> l (m_key m) = l' (m_key m)) ->
  match process_instruction C E pid accs l data, process_instruction C E pid accs l' data with
  | Ok (r, evs), Ok (r', evs') => evs = evs' /\ forall m, In m accs -> r (m_key m) = r' (m_key m)
  | Err e, Err e' => e = e'
  | _, _ => False
  end.
Proof. exact call_sees_given. Qed.

Theorem C66_changes_only_writable_accounts : forall C E pid accs l data r evs k,
  process_instruction C E pid accs l data = Ok (r, evs) -> r k <> l k ->
  exists m, In m accs /\ m_key m = k /\ m_writable m = true.
Proof. exact call_changes_writable. Qed.

Theorem C66_extra_accounts_ignored : forall C E pid accs extra l data r,
  process_instruction C E pid accs l data = Ok r -> process_instruction C E pid (accs ++ extra) l data = Ok r.
Proof. exact more_accounts. Qed.

Theorem C66_clock_unread : forall C E E' accs l data i,
  encodes data i -> (match i with Unstake _ _ | Withdraw _ => False | _ => True end) ->
  (forall n, rent_min E n = rent_min E' n) ->
  process_instruction C E xorca_id accs l data = process_instruction C E' xorca_id accs l data.
Proof. exact clock_unread. Qed.

Theorem C66_later_withdrawal : forall C E E' accs l data i r,
  encodes data (Withdraw i) -> now E <= now E' ->
  process_instruction C E xorca_id accs l data = Ok r -> process_instruction C E' xorca_id accs l data = Ok r.
Proof. exact withdraw_later. Qed.

Theorem C66_later_unstake : forall C E E' accs l data x i l1 evs,
  sysvars_ok E -> honest_metas C accs -> encodes data (Unstake x i) ->
  (forall n, rent_min E n = rent_min E' n) ->
  process_instruction C E xorca_id accs l data = Ok (l1, evs) ->
  exists sk k, slot accs 1 sk /\ slot accs 2 k /\
    (is_i64 (now E' + cooldown l sk) ->
     exists l2, process_instruction C E' xorca_id accs l data = Ok (l2, evs) /\
       (forall a, a <> k -> l2 a = l1 a) /\
       a_lamports (l2 k) = a_lamports (l1 k) /\ a_owner (l2 k) = a_owner (l1 k) /\
       same_bytes_except [(48, 8)%nat] (a_data (l1 k)) (a_data (l2 k)) /\
       rec_time l2 k - rec_time l1 k = now E' - now E) /\
    (~ is_i64 (now E' + cooldown l sk) ->
     process_instruction C E' xorca_id accs l data = Err (custom CoolDownOverflow)).
Proof. exact unstake_two_clocks. Qed.

(** Alice's unstake does not look at Bob's ORCA account. *)
Example C66_ex :
  let l' := upd (demo 4) bob_orca empty_account in
  (forall m, In m (unstake_accs alice alice_xorca alice_record) -> demo 4 (m_key m) = l' (m_key m)) /\
  balance (demo 4) bob_orca = 6000000 /\ l' bob_orca = empty_account /\
  performs demo_crypto (demo 4) (demo_call 2000 (unstake_accs alice alice_xorca alice_record) (Unstake 1000000 0))
    (Unstake 1000000 0) (unstake_accs alice alice_xorca alice_record) 2000.
Proof.
  cbv zeta. split; [|split; [see 4%nat|split; [apply upd_same|demo_call_ok 4%nat]]].
  intros m Hm. symmetry. apply upd_other. intros K.
  assert (X : forallb (fun m => negb (key_eqb bob_orca (m_key m))) (unstake_accs alice alice_xorca alice_record) = true)
    by (vm_compute; reflexivity).
  apply (proj1 (forallb_forall _ _)) with (x := m) in X; [|exact Hm]. rewrite K, key_eqb_refl in X. discriminate X.
Qed.

(** The withdrawal possible at 2100 is possible at any later time; the stake and
    unstake have concrete instances too. *)
Example C66_clock_ex :
  encodes (instruction_bytes (Withdraw 0)) (Withdraw 0) /\
  performs demo_crypto (demo 9) (demo_call 2100 (withdraw_accs alice alice_orca alice_record) (Withdraw 0))
    (Withdraw 0) (withdraw_accs alice alice_orca alice_record) 2100 /\
  sysvars_ok (demo_env 2000) /\
  honest_metas demo_crypto (unstake_accs alice alice_xorca alice_record) /\
  (forall n, rent_min (demo_env 2000) n = rent_min (demo_env 3000) n) /\
  performs demo_crypto (demo 4) (demo_call 2000 (unstake_accs alice alice_xorca alice_record) (Unstake 1000000 0))
    (Unstake 1000000 0) (unstake_accs alice alice_xorca alice_record) 2000.
Proof.
  split; [split; [cbn; unfold is_u8; lia|eexists; symmetry; apply app_nil_r]|]. split; [demo_call_ok 9%nat|]. split; [apply demo_sysvars; unfold is_i64; lia|].
  split; [exact (proj2 (demo_op_ok 4 (demo_call 2000 (unstake_accs alice alice_xorca alice_record) (Unstake 1000000 0)) eq_refl (demo 4)))|]. split; [intros n; reflexivity|demo_call_ok 4%nat].
Qed.

Print Assumptions C66_sees_only_its_accounts.
Print Assumptions C66_changes_only_writable_accounts.
Print Assumptions C66_extra_accounts_ignored.
Print Assumptions C66_clock_unread.
Print Assumptions C66_later_withdrawal.
Print Assumptions C66_later_unstake.
