(** Model of the associated token account program's CreateIdempotent
    instruction, invoked by /repo/solana-program/src/instructions/initialize.rs:143-152
    and callable by anyone.  Not part of /repo; trusted base. *)
From Verif Require Export SystemProg TokenProg.

(** [get_associated_token_address_and_bump_seed_internal] *)
Definition ata_seeds (wallet mint : pubkey) : list (list byte) :=
  [key_bytes wallet; key_bytes token_id; key_bytes mint].

(** The ATA program adds the new address to the signers of its inner calls. *)
Definition with_signer (sg : pubkey -> bool) (k : pubkey) : pubkey -> bool :=
  fun k' => key_eqb k k' || sg k'.

Definition ata_create_idempotent (C : crypto) (E : env) (sg : pubkey -> bool) (l : ledger)
    (payer ata wallet mint : pubkey) : res err ledger :=
  match find_program_address C (ata_seeds wallet mint) ata_id with
  | None => Err EPanic
  | Some (addr, _) =>
      check? fail_if (negb (key_eqb addr ata)) (EAta AE_InvalidSeeds) in
      if key_eqb (a_owner (l ata)) token_id && is_ok (ta_unpack (a_data (l ata))) then
        check? fail_if (negb (key_eqb (ta_owner (a_data (l ata))) wallet)) (EAta AE_InvalidOwner) in
        check? fail_if (negb (key_eqb (ta_mint (a_data (l ata))) mint)) EInvalidAccountData in
        Ok l
      else
        check? fail_if (negb (key_eqb (a_owner (l ata)) system_id)) (EAta AE_IllegalOwner) in
        let rent := Z.max (rent_min E ta_len) 1 in
        let sg' := with_signer sg ata in
        let? l1 :=
          (if 0 <? a_lamports (l ata) then
             let need := Z.max (rent - a_lamports (l ata)) 0 in
             let? la := (if 0 <? need then sys_transfer sg l payer ata need else Ok l) in
             let? lb := sys_allocate sg' la ata ta_len in
             sys_assign sg' lb ata token_id
           else sys_create_account sg' l payer ata rent ta_len token_id) in
        token_init_account E l1 ata mint wallet
  end.
