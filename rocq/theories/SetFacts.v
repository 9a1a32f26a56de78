(** Set: success conditions and effect. *)
From Verif Require Import Program BytesFacts LedgerFacts TokenFacts CpiFacts AssertFacts LayoutFacts.

(** Everything a successful Set has checked, in terms of the ledger before. *)
Record set_pre (C : crypto) (accs : list meta) (l : ledger) (au st : meta) : Prop := {
  tp_a0 : nth_error accs 0 = Some au;
  tp_a1 : nth_error accs 1 = Some st;
  tp_signer : m_signer au = true;
  tp_w0 : m_writable au = true;
  tp_w1 : m_writable st = true;
  tp_st_owner : a_owner (l (m_key st)) = xorca_id;
  tp_st_shape : state_shaped (a_data (l (m_key st)));
  tp_st_key : m_key st = state_address_with_bump C (st_bump (a_data (l (m_key st))));
  tp_auth : m_key au = st_authority (a_data (l (m_key st)))
}.

Definition set_effect (l : ledger) (st : pubkey) (u : state_update) : ledger :=
  set_data l st
    match u with
    | UpdateCoolDownPeriod c => set_cooldown c (a_data (l st))
    | UpdateUpdateAuthority k => set_authority k (a_data (l st))
    end.

Definition set_events (l : ledger) (st : pubkey) (u : state_update) : list event :=
  match u with
  | UpdateCoolDownPeriod _ => []
  | UpdateUpdateAuthority k => [EvUpdateAuthoritySet k (st_authority (a_data (l st)))]
  end.

Definition update_allowed (u : state_update) : Prop :=
  match u with UpdateCoolDownPeriod c => 0 <= c | UpdateUpdateAuthority _ => True end.

Theorem set_ok C accs l u l' evs :
  set_process C accs l u = Ok (l', evs) <->
  exists au st, set_pre C accs l au st /\ update_allowed u /\
    l' = set_effect l (m_key st) u /\ evs = map event_bytes (set_events l (m_key st) u).
Proof.
  unfold set_process. split.
  - intros H. inv_bind H au. inv_bind H st.
    apply get_account_ok in Hx, Hx0.
    inv_bind H u1. apply role_sw in Hx1. destruct Hx1 as [S W].
    inv_bind H u2. apply role_w in Hx1.
    inv_bind H u3. apply owner_ok in Hx2.
    inv_bind H sd. apply state_data_ok in Hx3. destruct Hx3 as [-> Hs].
    inv_bind H u4. apply verify_state_ok in Hx3.
    inv_bind H u5. apply address_ok in Hx4.
    exists au, st. split; [constructor; assumption|].
    destruct u as [c|k].
    + inv_bind H u6. apply fail_if_ok, Z.ltb_ge in Hx5. injection H as <- <-.
      repeat split. exact Hx5.
    + injection H as <- <-. repeat split.
  - intros (au & st & [] & Hu & -> & ->).
    rewrite (proj2 (get_account_ok accs 0 au)) by assumption. cbn [bind].
    rewrite (proj2 (get_account_ok accs 1 st)) by assumption. cbn [bind].
    rewrite (proj2 (role_sw au tt)) by auto. cbn [bind].
    rewrite (proj2 (role_w st tt)) by auto. cbn [bind].
    rewrite (proj2 (owner_ok l st xorca_id tt)) by auto. cbn [bind].
    rewrite (proj2 (state_data_ok l st (a_data (l (m_key st))))) by auto. cbn [bind].
    rewrite (proj2 (verify_state_ok C st _ tt)) by assumption. cbn [bind].
    rewrite (proj2 (address_ok au _ tt)) by assumption. cbn [bind].
    destruct u as [c|k]; [|reflexivity].
    rewrite fail_if_Ok by (apply Z.ltb_ge; exact Hu). reflexivity.
Qed.
