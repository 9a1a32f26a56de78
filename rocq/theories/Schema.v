(** Account and event layouts as data, with the three readings the repository
    uses: Borsh (derive(BorshSerialize/BorshDeserialize), program and Rust client),
    the Codama codecs of the JS client, and the [repr(C)] pointer cast of the
    program. *)
From Coq Require Import Ascii String.
From Verif Require Export Layout Event.
Import List ListNotations.
Open Scope list_scope.
Open Scope Z_scope.
Open Scope reader_scope.

(** Field types occurring in these structs; [FEnum n] is a field-less enum with
    [n] variants stored in one byte. *)
Inductive ftype :=
| FU8 | FU64 | FI64 | FKey
| FBytes (n : nat)
| FEnum (n : Z).

Inductive fval :=
| VInt (z : Z)
| VKey (k : pubkey)
| VBytes (bs : list byte).

Definition schema := list ftype.

(** ** Borsh and Codama codecs: fields one after the other, little endian *)
Definition read_field (t : ftype) : reader fval :=
  match t with
  | FU8 => z <- read_u8;; rret (VInt z)
  | FU64 => z <- read_u64;; rret (VInt z)
  | FI64 => z <- read_i64;; rret (VInt z)
  | FKey => k <- read_key;; rret (VKey k)
  | FBytes n => b <- read_bytes n;; rret (VBytes b)
  | FEnum n => z <- read_enum n;; rret (VInt z)
  end.
Fixpoint read_fields (s : schema) : reader (list fval) :=
  match s with
  | [] => rret []
  | t :: s => v <- read_field t;; vs <- read_fields s;; rret (v :: vs)
  end.

Definition field_bytes (t : ftype) (v : fval) : list byte :=
  match t, v with
  | FU8, VInt z | FEnum _, VInt z => le_enc 1 z
  | FU64, VInt z | FI64, VInt z => le_enc 8 z
  | FKey, VKey k => key_bytes k
  | FBytes _, VBytes b => b
  | _, _ => []
  end.
Fixpoint fields_bytes (s : schema) (vs : list fval) : list byte :=
  match s, vs with
  | t :: s, v :: vs => field_bytes t v ++ fields_bytes s vs
  | _, _ => []
  end.

(** Values of a type. *)
Definition field_ok (t : ftype) (v : fval) : Prop :=
  match t, v with
  | FU8, VInt z => is_u8 z
  | FU64, VInt z => is_u64 z
  | FI64, VInt z => is_i64 z
  | FKey, VKey _ => True
  | FBytes n, VBytes b => length b = n
  | FEnum n, VInt z => is_u8 z /\ z < n
  | _, _ => False
  end.
Definition fields_ok (s : schema) (vs : list fval) : Prop := Forall2 field_ok s vs.

(** An enum with data: one tag byte, then the fields of the variant. *)
Definition read_union (u : list schema) : reader (Z * list fval) :=
  t <- read_u8;;
  match nth_error u (Z.to_nat t) with
  | Some s => vs <- read_fields s;; rret (t, vs)
  | None => rfail
  end.

(** ** [repr(C)]: every field at the next multiple of its alignment, the size a
    multiple of the largest alignment (Rust reference, type layout). Alignment of
    [u64] and [i64] on the SBF target is 8. *)
Definition fsize (t : ftype) : nat :=
  match t with FU8 | FEnum _ => 1 | FU64 | FI64 => 8 | FKey => 32 | FBytes n => n end.
Definition falign (t : ftype) : nat := match t with FU64 | FI64 => 8 | _ => 1 end.
Definition align_up (n a : nat) : nat := ((n + a - 1) / a) * a.

Fixpoint c_offsets (off : nat) (s : schema) : list nat :=
  match s with
  | [] => []
  | t :: s => align_up off (falign t) :: c_offsets (align_up off (falign t) + fsize t) s
  end.
Fixpoint c_end (off : nat) (s : schema) : nat :=
  match s with
  | [] => off
  | t :: s => c_end (align_up off (falign t) + fsize t) s
  end.
Definition c_size (s : schema) : nat :=
  align_up (c_end 0 s) (fold_right Nat.max 1%nat (map falign s)).

(** Reading a field through the pointer (state/mod.rs:28-36). *)
Definition view_field (d : list byte) (t : ftype) (off : nat) : fval :=
  match t with
  | FU8 | FEnum _ => VInt (get_u8 off d)
  | FU64 => VInt (get_u64 off d)
  | FI64 => VInt (get_i64 off d)
  | FKey => VKey (get_key off d)
  | FBytes n => VBytes (slice off n d)
  end.
Fixpoint zip_with {A B D} (f : A -> B -> D) (xs : list A) (ys : list B) : list D :=
  match xs, ys with x :: xs, y :: ys => f x y :: zip_with f xs ys | _, _ => [] end.
Definition view (s : schema) (d : list byte) : list fval := zip_with (view_field d) s (c_offsets 0 s).

(** ** The structs, with their field names *)
Definition struct := list (string * ftype).
Definition types (s : struct) : schema := map snd s.

(** snake_case to camelCase: the IDL and the JS client use the latter. *)
Fixpoint camel_from (up : bool) (s : string) : string :=
  match s with
  | EmptyString => EmptyString
  | String c s =>
      if Ascii.eqb c "_" then camel_from true s
      else String (if up then Ascii.ascii_of_nat (Ascii.nat_of_ascii c - 32) else c) (camel_from false s)
  end.
Definition camel (s : string) : string := camel_from false s.
Definition camel_struct (s : struct) : struct := map (fun p => (camel (fst p), snd p)) s.

(** [AccountDiscriminator]: solana-program/src/state/mod.rs:9-18 *)
Definition program_discriminator : ftype := FEnum 4.
(** rust-client/src/generated/types/account_discriminator.rs *)
Definition rust_discriminator : ftype := FEnum 4.
(** js-client/src/generated/types/accountDiscriminator.ts *)
Definition js_discriminator : ftype := FEnum 4.

Open Scope string_scope.
(** solana-program/src/state/state.rs:14-29 *)
Definition program_state : struct :=
  [("discriminator", program_discriminator); ("padding1", FBytes 5); ("bump", FU8); ("vault_bump", FU8);
   ("escrowed_orca_amount", FU64); ("cool_down_period_s", FI64); ("update_authority", FKey);
   ("padding2", FBytes 1992)].
(** rust-client/src/generated/accounts/state.rs:15-30 *)
Definition rust_state : struct :=
  [("discriminator", rust_discriminator); ("padding1", FBytes 5); ("bump", FU8); ("vault_bump", FU8);
   ("escrowed_orca_amount", FU64); ("cool_down_period_s", FI64); ("update_authority", FKey);
   ("padding2", FBytes 1992)].
(** js-client/src/generated/accounts/state.ts:167-178 *)
Definition js_state : struct :=
  [("discriminator", js_discriminator); ("padding1", FBytes 5); ("bump", FU8); ("vaultBump", FU8);
   ("escrowedOrcaAmount", FU64); ("coolDownPeriodS", FI64); ("updateAuthority", FKey);
   ("padding2", FBytes 1992)].

(** solana-program/src/state/pending_withdraw.rs:14-29 *)
Definition program_pending : struct :=
  [("discriminator", program_discriminator); ("padding1", FBytes 5); ("bump", FU8); ("withdraw_index", FU8);
   ("unstaker", FKey); ("withdrawable_orca_amount", FU64); ("withdrawable_timestamp", FI64);
   ("padding2", FBytes 968)].
(** rust-client/src/generated/accounts/pending_withdraw.rs:15-29 *)
Definition rust_pending : struct :=
  [("discriminator", rust_discriminator); ("padding1", FBytes 5); ("bump", FU8); ("withdraw_index", FU8);
   ("unstaker", FKey); ("withdrawable_orca_amount", FU64); ("withdrawable_timestamp", FI64);
   ("padding2", FBytes 968)].
(** js-client/src/generated/accounts/pendingWithdraw.ts:133-144 *)
Definition js_pending : struct :=
  [("discriminator", js_discriminator); ("padding1", FBytes 5); ("bump", FU8); ("withdrawIndex", FU8);
   ("unstaker", FKey); ("withdrawableOrcaAmount", FU64); ("withdrawableTimestamp", FI64);
   ("padding2", FBytes 968)].

(** solana-program/src/event.rs:7-34 *)
Definition program_events : list struct :=
  [[("orca_stake_amount", FU64); ("vault_orca_amount", FU64); ("vault_escrowed_orca_amount", FU64);
    ("xorca_mint_supply", FU64); ("xorca_to_mint", FU64)];
   [("xorca_unstake_amount", FU64); ("vault_orca_amount", FU64); ("vault_escrowed_orca_amount", FU64);
    ("xorca_mint_supply", FU64); ("withdrawable_orca_amount", FU64); ("cool_down_period_s", FI64);
    ("withdraw_index", FU8)];
   [("vault_escrowed_orca_amount", FU64); ("withdrawable_orca_amount", FU64); ("cool_down_period_s", FI64);
    ("withdraw_index", FU8)];
   [("new_authority", FKey); ("set_by", FKey)]].
(** rust-client/src/generated/types/event.rs:14-49 *)
Definition rust_events : list struct :=
  [[("orca_stake_amount", FU64); ("vault_orca_amount", FU64); ("vault_escrowed_orca_amount", FU64);
    ("xorca_mint_supply", FU64); ("xorca_to_mint", FU64)];
   [("xorca_unstake_amount", FU64); ("vault_orca_amount", FU64); ("vault_escrowed_orca_amount", FU64);
    ("xorca_mint_supply", FU64); ("withdrawable_orca_amount", FU64); ("cool_down_period_s", FI64);
    ("withdraw_index", FU8)];
   [("vault_escrowed_orca_amount", FU64); ("withdrawable_orca_amount", FU64); ("cool_down_period_s", FI64);
    ("withdraw_index", FU8)];
   [("new_authority", FKey); ("set_by", FKey)]].
(** js-client/src/generated/types/event.ts:130-171 *)
Definition js_events : list struct :=
  [[("orcaStakeAmount", FU64); ("vaultOrcaAmount", FU64); ("vaultEscrowedOrcaAmount", FU64);
    ("xorcaMintSupply", FU64); ("xorcaToMint", FU64)];
   [("xorcaUnstakeAmount", FU64); ("vaultOrcaAmount", FU64); ("vaultEscrowedOrcaAmount", FU64);
    ("xorcaMintSupply", FU64); ("withdrawableOrcaAmount", FU64); ("coolDownPeriodS", FI64);
    ("withdrawIndex", FU8)];
   [("vaultEscrowedOrcaAmount", FU64); ("withdrawableOrcaAmount", FU64); ("coolDownPeriodS", FI64);
    ("withdrawIndex", FU8)];
   [("newAuthority", FKey); ("setBy", FKey)]].
Close Scope string_scope.

(** The client's view of account data: [from_bytes] / [decode], trailing bytes
    ignored (rust-client accounts/state.rs:38-41, pending_withdraw.rs:38-41). *)
Definition decode_struct (s : struct) (d : list byte) : option (list fval) :=
  deserialize (read_fields (types s)) d.
(** Event payloads: rust-client types/event.rs, js-client types/event.ts. *)
Definition decode_union (u : list struct) (d : list byte) : option (Z * list fval) :=
  deserialize (read_union (map types u)) d.

(** The program's values as lists of fields, in declaration order. *)
Definition state_fields (s : state) : list fval :=
  [VInt (s_disc s); VBytes (s_padding1 s); VInt (s_bump s); VInt (s_vault_bump s); VInt (s_escrow s);
   VInt (s_cooldown s); VKey (s_authority s); VBytes (s_padding2 s)].
Definition event_fields (e : event) : Z * list fval :=
  match e with
  | EvStake a v e s m => (0, [VInt a; VInt v; VInt e; VInt s; VInt m])
  | EvUnstake x v e s w c i => (1, [VInt x; VInt v; VInt e; VInt s; VInt w; VInt c; VInt i])
  | EvWithdraw e w c i => (2, [VInt e; VInt w; VInt c; VInt i])
  | EvUpdateAuthoritySet n s => (3, [VKey n; VKey s])
  end.

(** A list of fields with the [n]th replaced. *)
Definition put (n : nat) (v : fval) (vs : list fval) : list fval := firstn n vs ++ v :: skipn (S n) vs.
