(** What the lines of the program's log say.  Definitions only; nothing here is used
    by the model. *)
From Coq Require Import String Ascii.
From Verif Require Export ErrorSpec Log.
Import List ListNotations.
Open Scope list_scope.
Open Scope Z_scope.

(** ** Addresses and numbers in text *)
Fixpoint leading_ones (s : string) : nat :=
  match s with
  | String a s' => if Ascii.eqb a "1"%char then S (leading_ones s') else O
  | EmptyString => O
  end.
Fixpoint leading_zero_bytes (d : list byte) : nat :=
  match d with
  | b :: d' => if Byte.eqb b x00 then S (leading_zero_bytes d') else O
  | [] => O
  end.
(** [s] is the base58 text of [k]. *)
Definition text_of_key (s : string) (k : pubkey) : Prop :=
  b58_decode32 s = Some (key_bytes k) /\ leading_ones s = leading_zero_bytes (key_bytes k).
Fixpoint read_decimal (s : string) (acc : Z) : Z :=
  match s with
  | String a s' => read_decimal s' (10 * acc + (Z.of_nat (nat_of_ascii a) - 48))
  | EmptyString => acc
  end.
(** [s] is [n] in decimal, without leading zeros. *)
Definition text_of_number (s : string) (n : Z) : Prop :=
  read_decimal s 0 = n /\ (1 <= String.length s)%nat /\
  ((1 < String.length s)%nat -> 10 ^ (Z.of_nat (String.length s) - 1) <= n) /\
  forall j a, String.get j s = Some a -> (48 <= nat_of_ascii a <= 57)%nat.

(** A line of the log may have 200 bytes; longer ones end in '@' after 199. *)
Definition written (sentence line : string) : Prop :=
  ((String.length sentence <= 200)%nat /\ line = sentence) \/
  ((200 < String.length sentence)%nat /\ line = (substring 0 199 sentence ++ "@")%string).

(** ** The complaints *)
Inductive complaint :=
| NotSigner (k : pubkey)
| NotWritable (k : pubkey)
| NotOwned (k program : pubkey)
| WrongSeeds (k : pubkey)
| WrongAddress (k : pubkey)
| TooSmall (k : pubkey) (need got : Z)
| WrongKind (k : pubkey)
| WrongHolder (holder wanted mint : pubkey)
| WrongMint (mint wanted : pubkey).

Definition sentence (c : complaint) : string :=
  match c with
  | NotSigner k => "Account " ++ to_base58 k ++ " is not a signer"
  | NotWritable k => "Account " ++ to_base58 k ++ " is not writable"
  | NotOwned k p => "Account " ++ to_base58 k ++ " is not owned by " ++ to_base58 p
  | WrongSeeds k => "Account " ++ to_base58 k ++ " has wrong seeds"
  | WrongAddress k => "Account " ++ to_base58 k ++ " has wrong address"
  | TooSmall k n g =>
      "Account " ++ to_base58 k ++ " is incorrect size. Expected at least " ++ to_decimal n
      ++ " but got " ++ to_decimal g
  | WrongKind k => "Invalid discriminator for account: " ++ to_base58 k
  | WrongHolder h w m =>
      "Token account data owner " ++ to_base58 h ++ " does not match owner account " ++ to_base58 w
      ++ " for token mint account " ++ to_base58 m ++ "."
  | WrongMint m w =>
      "Token account data mint " ++ to_base58 m ++ " does not match token mint account " ++ to_base58 w ++ "."
  end%string.
Definition complaint_code (c : complaint) : error_code :=
  match c with
  | NotSigner _ | NotWritable _ => InvalidAccountRole
  | NotOwned _ _ => IncorrectOwner
  | WrongSeeds _ => InvalidSeeds
  | WrongAddress _ => IncorrectAccountAddress
  | TooSmall _ _ _ | WrongKind _ | WrongHolder _ _ _ | WrongMint _ _ => InvalidAccountData
  end.

(** ** When they are true *)
(** The program's own accounts among those of a call: number, size, first byte. *)
Definition own_accounts (i : instruction) : list (nat * Z * Z) :=
  match i with
  | Stake _ => [(5%nat, 2048, 1)]
  | Unstake _ _ => [(1%nat, 2048, 1)]
  | Withdraw _ => [(1%nat, 2048, 1); (2%nat, 1024, 2)]
  | Initialize _ => []
  | Set_ _ => [(1%nat, 2048, 1)]
  end.
(** The token accounts of a call: number, number of the account that must hold it, mint. *)
Definition holdings (i : instruction) : list (nat * nat * pubkey) :=
  match i with
  | Stake _ => [(2%nat, 0%nat, orca_mint_id); (3%nat, 0%nat, xorca_mint_id); (1%nat, 5%nat, orca_mint_id)]
  | Unstake _ _ => [(6%nat, 1%nat, orca_mint_id); (3%nat, 0%nat, xorca_mint_id)]
  | Withdraw _ => [(3%nat, 0%nat, orca_mint_id); (4%nat, 1%nat, orca_mint_id)]
  | _ => []
  end.
Definition complaint_true (C : crypto) (accs : list meta) (l : ledger) (i : instruction) (c : complaint) : Prop :=
  let k := acct accs in
  match c with
  | NotSigner a =>
      exists n r m, nth_error (rules i) n = Some r /\ nth_error accs n = Some m /\ m_key m = a /\
        needs_signature r = true /\ m_signer m = false
  | NotWritable a =>
      exists n r m, nth_error (rules i) n = Some r /\ nth_error accs n = Some m /\ m_key m = a /\
        needs_writable r = true /\ m_writable m = false
  | NotOwned a p =>
      exists n r, nth_error (rules i) n = Some r /\ needs_owner r = Some p /\ k n = a /\ a_owner (l a) <> p
  | WrongSeeds a =>
      match i with
      | Unstake _ j => a = k 2%nat /\ forall b, find_pending_withdraw_address C (k 0%nat) j <> Some (a, b)
      | Initialize _ =>
          a = k 2%nat /\ (forall b, find_state_address C <> Some (a, b)) \/
          a = k 3%nat /\ (forall b, find_vault_address C (k 2%nat) token_id orca_mint_id <> Some (a, b))
      | _ => False
      end
  | WrongAddress a =>
      (exists n r w, nth_error (rules i) n = Some r /\ needs_address r = Some w /\ k n = a /\ a <> w) \/
      match i with
      | Set_ _ => a = k 0%nat /\ a <> authority l (k 1%nat)
      | Initialize _ => a = k 2%nat /\ a <> mint_auth (a_data (l (k 4%nat)))
      | _ => False
      end
  | TooSmall a need got =>
      exists n kind, In (n, need, kind) (own_accounts i) /\ k n = a /\
        got = Z.of_nat (List.length (a_data (l a))) /\ got < need
  | WrongKind a =>
      exists n need kind, In (n, need, kind) (own_accounts i) /\ k n = a /\
        need <= Z.of_nat (List.length (a_data (l a))) /\ get_u8 0 (a_data (l a)) <> kind
  | WrongHolder h w m =>
      exists n o, In (n, o, m) (holdings i) /\ h = ta_owner (a_data (l (k n))) /\ w = k o /\ h <> w
  | WrongMint m w =>
      exists n o, In (n, o, w) (holdings i) /\ m = ta_mint (a_data (l (k n))) /\ m <> w
  end.

(** ** When a refusal comes without a complaint *)
Definition not_a_token_account (accs : list meta) (l : ledger) (i : instruction) : Prop :=
  exists n o m, In (n, o, m) (holdings i) /\
    ((List.length (a_data (l (acct accs n))) < 165)%nat \/ 2 < ta_state (a_data (l (acct accs n)))).
Definition silence (C : crypto) (accs : list meta) (l : ledger) (i : instruction) (e : err) : Prop :=
  let k := acct accs in
  let xm := a_data (l (k 4%nat)) in
  e <> custom InvalidAccountRole /\ e <> custom IncorrectOwner /\ e <> custom IncorrectAccountAddress /\
  (e = custom InvalidSeeds ->
     match i with
     | Initialize _ => False
     | Unstake _ j => exists b, find_pending_withdraw_address C (k 0%nat) j = Some (k 2%nat, b)
     | _ => True
     end) /\
  (e = custom InvalidAccountData ->
     match i with
     | Stake _ => not_a_token_account accs l i \/ ~ mint_bytes l xorca_mint_id
     | Unstake _ _ =>
         not_a_token_account accs l i \/ ~ mint_bytes l xorca_mint_id \/ mint_auth_flag xm = 0 \/
         mint_auth xm <> k 1%nat \/ mint_freeze_flag xm <> 0 \/ ~ mint_bytes l orca_mint_id
     | Withdraw _ => not_a_token_account accs l i
     | Initialize _ => True
     | Set_ _ => False
     end).
(** [strum]'s names of the instructions. *)
Definition called (i : instruction) : string :=
  match i with
  | Stake _ => "Instruction: Stake" | Unstake _ _ => "Instruction: Unstake"
  | Withdraw _ => "Instruction: Withdraw" | Initialize _ => "Instruction: Initialize"
  | Set_ _ => "Instruction: Set"
  end%string.
