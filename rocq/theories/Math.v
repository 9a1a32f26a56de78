(** /repo/solana-program/src/util/math.rs: exchange-rate arithmetic. *)
From Verif Require Export Errors.

(** u128 [checked_add], [checked_mul], [checked_div], [u64::try_from(u128)] each
    followed by [.ok_or(ArithmeticError)?]. *)
Definition u128_checked_add (a b : Z) : res err Z :=
  if a + b <=? u128_max then Ok (a + b) else Err (custom ArithmeticError).
Definition u128_checked_mul (a b : Z) : res err Z :=
  if a * b <=? u128_max then Ok (a * b) else Err (custom ArithmeticError).
Definition u128_checked_div (a b : Z) : res err Z :=
  if b =? 0 then Err (custom ArithmeticError) else Ok (a / b).
Definition u64_try_from (a : Z) : res err Z :=
  if a <=? u64_max then Ok a else Err (custom ArithmeticError).

(** /repo/solana-program/src/util/math.rs:4-5 *)
Definition VIRTUAL_XORCA_SUPPLY : Z := 100.
Definition VIRTUAL_NON_ESCROWED_ORCA_AMOUNT : Z := 100.

(** /repo/solana-program/src/util/math.rs:7-46 *)
Definition convert_orca_to_xorca (orca_amount non_escrowed supply : Z) : res err Z :=
  if (supply =? 0) || (non_escrowed =? 0) then Ok orca_amount else
  let? vs := u128_checked_add supply VIRTUAL_XORCA_SUPPLY in
  let? vn := u128_checked_add non_escrowed VIRTUAL_NON_ESCROWED_ORCA_AMOUNT in
  let? p := u128_checked_mul orca_amount vs in
  let? q := u128_checked_div p vn in
  u64_try_from q.

(** /repo/solana-program/src/util/math.rs:48-85 *)
Definition convert_xorca_to_orca (xorca_amount non_escrowed supply : Z) : res err Z :=
  if (supply =? 0) || (non_escrowed =? 0) then Err (custom ArithmeticError) else
  let? vs := u128_checked_add supply VIRTUAL_XORCA_SUPPLY in
  let? vn := u128_checked_add non_escrowed VIRTUAL_NON_ESCROWED_ORCA_AMOUNT in
  let? p := u128_checked_mul xorca_amount vn in
  let? q := u128_checked_div p vs in
  u64_try_from q.
