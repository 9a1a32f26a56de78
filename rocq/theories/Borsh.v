(** Borsh readers (derive(BorshDeserialize)): fields are read one after the
    other, the unread rest is returned. *)
From Verif Require Export Bytes.

Definition reader (A : Type) := list byte -> option (A * list byte).

Definition rbind {A B} (r : reader A) (f : A -> reader B) : reader B :=
  fun l => match r l with Some (a, l') => f a l' | None => None end.
Definition rret {A} (a : A) : reader A := fun l => Some (a, l).
Definition rfail {A} : reader A := fun _ => None.

Declare Scope reader_scope.
Delimit Scope reader_scope with reader.
Notation "x '<-' m ';;' k" := (rbind m (fun x => k))
  (at level 100, m at next level, right associativity) : reader_scope.

Definition read_bytes (n : nat) : reader (list byte) :=
  fun l => if Nat.leb n (length l) then Some (firstn n l, skipn n l) else None.

Open Scope reader_scope.

Definition read_u8 : reader Z := b <- read_bytes 1;; rret (le_dec b).
Definition read_u32 : reader Z := b <- read_bytes 4;; rret (le_dec b).
Definition read_u64 : reader Z := b <- read_bytes 8;; rret (le_dec b).
Definition read_i64 : reader Z := b <- read_bytes 8;; rret (to_i64 (le_dec b)).
Definition read_key : reader pubkey := b <- read_bytes 32;; rret (key_of b).
(** Borsh rejects booleans other than 0 and 1. *)
Definition read_bool : reader bool :=
  z <- read_u8;; if z =? 0 then rret false else if z =? 1 then rret true else rfail.
(** A field-less enum with [n] variants. *)
Definition read_enum (n : Z) : reader Z :=
  z <- read_u8;; if z <? n then rret z else rfail.

(** [T::deserialize(&mut &data[..])]: trailing bytes are ignored. *)
Definition deserialize {A} (r : reader A) (l : list byte) : option A :=
  match r l with Some (a, _) => Some a | None => None end.
(** [T::try_from_slice]: all bytes must be consumed. *)
Definition try_from_slice {A} (r : reader A) (l : list byte) : option A :=
  match r l with Some (a, []) => Some a | _ => None end.
