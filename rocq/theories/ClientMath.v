(** Client-side conversion helpers. *)
From Verif Require Export Base Bytes.

(** * Rust client: /repo/rust-client/src/conversion.rs *)

(** conversion.rs:63-70 *)
Inductive conversion_error := Arithmetic | ZeroSupplyOrNonEscrowed.

Definition rc_checked_add (a b : Z) : res conversion_error Z :=
  if a + b <=? u128_max then Ok (a + b) else Err Arithmetic.
Definition rc_checked_mul (a b : Z) : res conversion_error Z :=
  if a * b <=? u128_max then Ok (a * b) else Err Arithmetic.
Definition rc_checked_div (a b : Z) : res conversion_error Z :=
  if b =? 0 then Err Arithmetic else Ok (a / b).
Definition rc_try_into (a : Z) : res conversion_error Z :=
  if a <=? u64_max then Ok a else Err Arithmetic.

(** conversion.rs:81-95 with the constants of lines 77 and 79; returns
    (non-escrowed, supply) *)
Definition rc_apply_virtual_offsets (non_escrowed supply : Z) : res conversion_error (Z * Z) :=
  let? s := rc_checked_add supply 100 in
  let? n := rc_checked_add non_escrowed 100 in
  Ok (n, s).

(** conversion.rs:13-34 *)
Definition rc_convert_orca_to_xorca (a non_escrowed supply : Z) : res conversion_error Z :=
  if (supply =? 0) || (non_escrowed =? 0) then Ok a else
  let? ns := rc_apply_virtual_offsets non_escrowed supply in
  let? p := rc_checked_mul a (snd ns) in
  let? q := rc_checked_div p (fst ns) in
  rc_try_into q.

(** conversion.rs:38-57 *)
Definition rc_convert_xorca_to_orca (x non_escrowed supply : Z) : res conversion_error Z :=
  if (supply =? 0) || (non_escrowed =? 0) then Err ZeroSupplyOrNonEscrowed else
  let? ns := rc_apply_virtual_offsets non_escrowed supply in
  let? p := rc_checked_mul x (fst ns) in
  let? q := rc_checked_div p (snd ns) in
  rc_try_into q.

(** * JS client: /repo/js-client/src/utils/conversion.ts (unbounded bigint;
    division of non-negative bigints floors) *)

Inductive js_error := JsThrow.

(** conversion.ts:10-21 *)
Definition js_convert_orca_to_xorca (a non_escrowed supply : Z) : Z :=
  if (supply =? 0) || (non_escrowed =? 0) then a
  else Z.quot (a * (supply + 100)) (non_escrowed + 100).

(** conversion.ts:28-39 *)
Definition js_convert_xorca_to_orca (x non_escrowed supply : Z) : res js_error Z :=
  if (supply =? 0) || (non_escrowed =? 0) then Err JsThrow
  else Ok (Z.quot (x * (non_escrowed + 100)) (supply + 100)).
