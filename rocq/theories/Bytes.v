(** Little-endian integers and 32-byte public keys. *)
From Verif Require Export Base.

Definition byte_to_Z (b : byte) : Z := Z.of_N (Byte.to_N b).

(** Truncating cast to [u8]. *)
Definition Z_to_byte (z : Z) : byte :=
  match Byte.of_N (Z.to_N (z mod 256)) with
  | Some b => b
  | None => x00
  end.

(** Little-endian encoding on [n] bytes of [z] modulo [256^n] (this is also the
    two's complement encoding of a negative [z]). *)
Fixpoint le_enc (n : nat) (z : Z) : list byte :=
  match n with
  | O => []
  | S n' => Z_to_byte z :: le_enc n' (z / 256)
  end.

(** Unsigned little-endian decoding. *)
Fixpoint le_dec (l : list byte) : Z :=
  match l with
  | [] => 0
  | b :: l' => byte_to_Z b + 256 * le_dec l'
  end.

(** Two's complement reading of a 64-bit pattern. *)
Definition to_i64 (z : Z) : Z := if z <? 2 ^ 63 then z else z - 2 ^ 64.

Definition u8_max : Z := 2 ^ 8 - 1.
Definition u64_max : Z := 2 ^ 64 - 1.
Definition u128_max : Z := 2 ^ 128 - 1.
Definition i64_max : Z := 2 ^ 63 - 1.
Definition i64_min : Z := - 2 ^ 63.

Definition is_u8 (z : Z) : Prop := 0 <= z < 2 ^ 8.
Definition is_u32 (z : Z) : Prop := 0 <= z < 2 ^ 32.
Definition is_u64 (z : Z) : Prop := 0 <= z < 2 ^ 64.
Definition is_i64 (z : Z) : Prop := - 2 ^ 63 <= z < 2 ^ 63.

(** Byte strings and their boolean equality. *)
Fixpoint bytes_eqb (a b : list byte) : bool :=
  match a, b with
  | [], [] => true
  | x :: a', y :: b' => Byte.eqb x y && bytes_eqb a' b'
  | _, _ => false
  end.

(** A public key: exactly 32 bytes ([pinocchio::pubkey::Pubkey = [u8; 32]]). *)
Record pubkey := Pubkey {
  key_bytes : list byte;
  key_len : Nat.eqb (length key_bytes) 32 = true
}.

Definition pad32 (l : list byte) : list byte := firstn 32 (l ++ repeat x00 32).

Lemma pad32_len l : Nat.eqb (length (pad32 l)) 32 = true.
Proof.
  unfold pad32. apply Nat.eqb_eq. rewrite firstn_length, app_length, repeat_length. lia.
Qed.

(** Total conversion; the identity on 32-byte strings. *)
Definition key_of (l : list byte) : pubkey := Pubkey (pad32 l) (pad32_len l).

Definition key_eqb (a b : pubkey) : bool := bytes_eqb (key_bytes a) (key_bytes b).

(** [Pubkey::default()] = 32 zero bytes; also the system program id. *)
Definition zero_key : pubkey := key_of (repeat x00 32).

(** Field readers and writers at a byte offset. *)
Definition get_u8 (off : nat) (d : list byte) : Z := byte_to_Z (nth off d x00).
Definition get_u32 (off : nat) (d : list byte) : Z := le_dec (slice off 4 d).
Definition get_u64 (off : nat) (d : list byte) : Z := le_dec (slice off 8 d).
Definition get_i64 (off : nat) (d : list byte) : Z := to_i64 (le_dec (slice off 8 d)).
Definition get_key (off : nat) (d : list byte) : pubkey := key_of (slice off 32 d).

Definition set_u8 (off : nat) (v : Z) (d : list byte) : list byte := splice off (le_enc 1 v) d.
Definition set_u32 (off : nat) (v : Z) (d : list byte) : list byte := splice off (le_enc 4 v) d.
(** Writing a [u64] or an [i64] stores the same 8-byte pattern. *)
Definition set_u64 (off : nat) (v : Z) (d : list byte) : list byte := splice off (le_enc 8 v) d.
Definition set_key (off : nat) (k : pubkey) (d : list byte) : list byte :=
  splice off (key_bytes k) d.

Definition zeros (n : Z) : list byte := repeat x00 (Z.to_nat n).
Definition all_zero (l : list byte) : bool := forallb (Byte.eqb x00) l.
