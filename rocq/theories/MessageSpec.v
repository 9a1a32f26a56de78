(** Instructions of the token, system and associated token programs as their libraries
    write them.  Definitions only; nothing here is used by the model. *)
From Verif Require Export ExecSpec.
Import List ListNotations.
Open Scope list_scope.
Open Scope Z_scope.

Definition optional_key (o : option pubkey) : list byte :=
  match o with None => [x00] | Some k => x01 :: key_bytes k end.
Inductive authority_tag : authority_type -> byte -> Prop :=
| tag_mint : authority_tag MintTokens x00
| tag_freeze : authority_tag FreezeAccount x01
| tag_owner : authority_tag AccountOwner x02
| tag_close : authority_tag CloseAuthority x03.

(** [token_says c ks extra d]: with accounts [ks], further signers [extra] and data [d] the
    token program is asked for [c]. *)
Inductive token_says : token_call -> list pubkey -> list pubkey -> list byte -> Prop :=
| says_mint m n a f rent :
    token_says (TC_InitMint m n a f) [m; rent] [] (x00 :: Z_to_byte n :: key_bytes a ++ optional_key f)
| says_account k m o rent : token_says (TC_InitAccount k m o) [k; m; o; rent] [] [x01]
| says_multisig k n ks rent : token_says (TC_InitMultisig k n ks) (k :: rent :: ks) [] [x02; Z_to_byte n]
| says_transfer f t a n extra : token_says (TC_Transfer f t a n) [f; t; a] extra (x03 :: le_enc 8 n)
| says_approve s d a n extra : token_says (TC_Approve s d a n) [s; d; a] extra (x04 :: le_enc 8 n)
| says_revoke s a extra : token_says (TC_Revoke s a) [s; a] extra [x05]
| says_authority k a ty b new extra : authority_tag ty b ->
    token_says (TC_SetAuthority k a ty new) [k; a] extra (x06 :: b :: optional_key new)
| says_mint_to m t a n extra : token_says (TC_MintTo m t a n) [m; t; a] extra (x07 :: le_enc 8 n)
| says_burn f m a n extra : token_says (TC_Burn f m a n) [f; m; a] extra (x08 :: le_enc 8 n)
| says_close k d a extra : token_says (TC_Close k d a) [k; d; a] extra [x09]
| says_freeze k m a extra : token_says (TC_Freeze k m a) [k; m; a] extra [x0a]
| says_thaw k m a extra : token_says (TC_Thaw k m a) [k; m; a] extra [x0b]
| says_account2 k m o rent : token_says (TC_InitAccount k m o) [k; m; rent] [] (x10 :: key_bytes o)
| says_sync k : token_says (TC_SyncNative k) [k] [] [x11]
| says_account3 k m o : token_says (TC_InitAccount k m o) [k; m] [] (x12 :: key_bytes o)
| says_multisig2 k n ks : token_says (TC_InitMultisig k n ks) (k :: ks) [] [x13; Z_to_byte n]
| says_mint2 m n a f : token_says (TC_InitMint m n a f) [m] [] (x14 :: Z_to_byte n :: key_bytes a ++ optional_key f).
(** The Checked variants name the mint and its decimals; the first two also require that the
    account [src] is one of this mint. *)
Inductive token_says_checked
  : token_call -> list pubkey -> list pubkey -> list byte -> option pubkey -> pubkey -> Z -> Prop :=
| says_transfer_checked f m t a n dec extra :
    token_says_checked (TC_Transfer f t a n) [f; m; t; a] extra (x0c :: le_enc 8 n ++ [Z_to_byte dec]) (Some f) m dec
| says_approve_checked s m d a n dec extra :
    token_says_checked (TC_Approve s d a n) [s; m; d; a] extra (x0d :: le_enc 8 n ++ [Z_to_byte dec]) (Some s) m dec
| says_mint_to_checked m t a n dec extra :
    token_says_checked (TC_MintTo m t a n) [m; t; a] extra (x0e :: le_enc 8 n ++ [Z_to_byte dec]) None m dec
| says_burn_checked f m a n dec extra :
    token_says_checked (TC_Burn f m a n) [f; m; a] extra (x0f :: le_enc 8 n ++ [Z_to_byte dec]) None m dec.

Inductive system_says : system_call -> list pubkey -> list byte -> Prop :=
| says_create f t n space o more :
    is_u64 n -> is_u64 space ->
    system_says (SC_Create f t n space o) (f :: t :: more) (le_enc 4 0 ++ le_enc 8 n ++ le_enc 8 space ++ key_bytes o)
| says_assign k o more : system_says (SC_Assign k o) (k :: more) (le_enc 4 1 ++ key_bytes o)
| says_sol f t n more : is_u64 n -> system_says (SC_Transfer f t n) (f :: t :: more) (le_enc 4 2 ++ le_enc 8 n)
| says_allocate k space more : is_u64 space -> system_says (SC_Allocate k space) (k :: more) (le_enc 4 8 ++ le_enc 8 space).

(** Who signs an instruction, and which accounts it may not change *)
Definition signers_of (accs : list meta) : list pubkey := map m_key (filter m_signer accs).
Definition read_only_kept (accs : list meta) (l l' : ledger) : Prop :=
  forall m, In m accs -> m_writable m = false -> l' (m_key m) = l (m_key m).
