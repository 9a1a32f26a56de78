(** Common imports, the result type and small list helpers.

    This file models no code of its own; it fixes the vocabulary (Rust's
    [Result], byte strings, little-endian integers, 32-byte public keys) used by
    the model files. *)
From Coq Require Export ZArith List Bool Lia.
From Coq Require Export Strings.Byte.
Export ListNotations.
Notation byte := Byte.byte.
Global Open Scope Z_scope.

(** Rust's [Result<A, E>]; a panic is an ordinary error value (see [err] in
    Solana.v). *)
Inductive res (E A : Type) : Type :=
| Ok (a : A)
| Err (e : E).
Arguments Ok {E A} a.
Arguments Err {E A} e.

(** Rust's [?] operator. *)
Definition bind {E A B} (m : res E A) (f : A -> res E B) : res E B :=
  match m with
  | Ok a => f a
  | Err e => Err e
  end.

Declare Scope res_scope.
Delimit Scope res_scope with res.
Notation "'let?' x ':=' m 'in' k" := (bind m (fun x => k))
  (at level 200, x binder, m at level 100, k at level 200) : res_scope.
Notation "'check?' m 'in' k" := (bind m (fun _ => k))
  (at level 200, m at level 100, k at level 200) : res_scope.
Global Open Scope res_scope.

(** [if b { return Err(e) }]. *)
Definition fail_if {E} (b : bool) (e : E) : res E unit :=
  if b then Err e else Ok tt.

Definition is_ok {E A} (r : res E A) : bool :=
  match r with Ok _ => true | Err _ => false end.

(** Length as an integer; account lengths (2048, 1024) are compared in [Z]. *)
Definition zlen {A} (l : list A) : Z := Z.of_nat (length l).

(** [slice off n l]: bytes [off, off+n). *)
Definition slice {A} (off n : nat) (l : list A) : list A := firstn n (skipn off l).

(** [splice off new l]: overwrite [l] at offset [off] with [new]
    (Rust: writing a field through a pointer or [copy_from_slice]).  Callers
    guarantee [off + length new <= length l]. *)
Definition splice {A} (off : nat) (new l : list A) : list A :=
  firstn off l ++ new ++ skipn (off + length new) l.
