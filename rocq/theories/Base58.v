(** Base58 decoding/encoding of the address constants
    ([pinocchio_pubkey::pubkey!], [declare_id!]), so that the addresses in the
    model are written exactly as in the source. *)
From Verif Require Import Bytes.
From Coq Require Import String Ascii.

Definition b58_alphabet : string :=
  "123456789ABCDEFGHJKLMNPQRSTUVWXYZabcdefghijkmnopqrstuvwxyz"%string.

Fixpoint b58_index (a : ascii) (s : string) (i : Z) : option Z :=
  match s with
  | EmptyString => None
  | String b s' => if Ascii.eqb a b then Some i else b58_index a s' (i + 1)
  end.

Fixpoint b58_value (s : string) (acc : Z) : option Z :=
  match s with
  | EmptyString => Some acc
  | String a s' =>
      match b58_index a b58_alphabet 0 with
      | Some d => b58_value s' (58 * acc + d)
      | None => None
      end
  end.

(** 32-byte big-endian value; [None] for characters outside the alphabet or
    values that do not fit. *)
Definition b58_decode32 (s : string) : option (list byte) :=
  match b58_value s 0 with
  | Some v => if v <? 256 ^ 32 then Some (rev (le_enc 32 v)) else None
  | None => None
  end.

Definition b58_key (s : string) : pubkey :=
  match b58_decode32 s with
  | Some l => key_of l
  | None => zero_key
  end.

(** ASCII string to bytes ([b"..."] literals). *)
Definition str_bytes (s : string) : list byte := list_byte_of_string s.
