(** The ed25519 on-curve test used by the Solana runtime for program derived
    addresses ([CompressedEdwardsY::decompress().is_some()]).

    A 32-byte string decompresses iff (y^2-1)/(d*y^2+1) is a square modulo
    p = 2^255-19, where y is the string with its top bit cleared.  Since the
    denominator is never zero this is Euler's criterion on the product.
    Only used to instantiate the abstract [crypto] record for examples. *)
From Verif Require Import Bytes.

Definition ed_p : Z := 2 ^ 255 - 19.
Definition ed_d : Z :=
  37095705934669439343138083508754565189542113879843219016388785533085940283555.

(** Partial reduction modulo p: 2^255 = 19 (mod p). *)
Definition ed_red (x : Z) : Z :=
  let y := Z.land x (2 ^ 255 - 1) + 19 * Z.shiftr x 255 in
  Z.land y (2 ^ 255 - 1) + 19 * Z.shiftr y 255.

Definition ed_mul (x y : Z) : Z := ed_red (x * y).
(** n squarings: b^(2^n) *)
Definition ed_sq (n : positive) (b : Z) : Z := Pos.iter (fun x => ed_mul x x) b n.
(** b^(2^n - 1) *)
Fixpoint ed_ones (b : Z) (n : positive) : Z :=
  match n with
  | xH => b
  | xO m => let r := ed_ones b m in ed_mul (ed_sq m r) r
  | xI m => let r := ed_ones b m in ed_mul (ed_sq 1 (ed_mul (ed_sq m r) r)) b
  end.

(** b^((p-1)/2): the exponent is 2^254 - 10 = 2^4 * (2^250 - 1) + 6. *)
Definition ed_euler (b : Z) : Z :=
  ed_mul (ed_sq 4 (ed_ones b 250)) (ed_sq 1 (ed_ones b 2)).

Definition ed_on_curve_bytes (l : list byte) : bool :=
  let y := (le_dec l mod 2 ^ 255) mod ed_p in
  let y2 := (y * y) mod ed_p in
  let u := (y2 - 1) mod ed_p in
  let v := (ed_d * y2 + 1) mod ed_p in
  let uv := (u * v) mod ed_p in
  (uv =? 0) || (ed_euler uv mod ed_p =? 1).
