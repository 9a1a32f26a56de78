(** What a text on a command line means.  Definitions only; nothing here is used by the
    model. *)
From Coq Require Import String Ascii.
From Verif Require Export LogSpec Cli.
Import List ListNotations.
Open Scope list_scope.
Open Scope Z_scope.

Definition blank (s : string) : Prop :=
  forall j c, String.get j s = Some c -> In (nat_of_ascii c) [9; 10; 11; 12; 13; 32]%nat.
(** [c] is the digit [d]. *)
Definition digit (c : ascii) (d : Z) : Prop :=
  exists n, d = Z.of_nat n /\
    (String.get n "0123456789abcdefghijklmnopqrstuvwxyz" = Some c \/
     String.get n "0123456789ABCDEFGHIJKLMNOPQRSTUVWXYZ" = Some c).
(** [s] is one or more digits, in base [r] the number [v]. *)
Inductive numeral (r : Z) : string -> Z -> Prop :=
| num_one c d : digit c d -> d < r -> numeral r (String c EmptyString) d
| num_more s v c d : numeral r s v -> digit c d -> d < r ->
    numeral r (s ++ String c EmptyString)%string (r * v + d).
Definition begins_with_digit (r : Z) (s : string) : Prop :=
  exists c s' d, s = String c s' /\ digit c d /\ d < r.

(** ** Numbers as [BigInt] reads them: the whole text *)
Inductive whole_text : string -> Z -> Prop :=
| whole_empty : whole_text "" 0
| whole_decimal s v : numeral 10 s v -> whole_text s v
| whole_plus s v : numeral 10 s v -> whole_text ("+" ++ s) v
| whole_minus s v : numeral 10 s v -> whole_text ("-" ++ s) (- v)
| whole_hex x s v : In x ["0x"; "0X"]%string -> numeral 16 s v -> whole_text (x ++ s) v
| whole_octal x s v : In x ["0o"; "0O"]%string -> numeral 8 s v -> whole_text (x ++ s) v
| whole_binary x s v : In x ["0b"; "0B"]%string -> numeral 2 s v -> whole_text (x ++ s) v.
(** [s] denotes [v]: such a number, blanks before and after allowed. *)
Definition denotes (s : string) (v : Z) : Prop :=
  exists p t q, blank p /\ blank q /\ s = (p ++ t ++ q)%string /\ whole_text t v.

(** ** Numbers as [parseInt] reads them: the beginning of the text *)
(** Numbers that a double holds, and those with an even last bit *)
Definition double (d : Z) : Prop := exists m e, 0 <= e /\ Z.abs m <= 2 ^ 53 /\ d = m * 2 ^ e.
Definition even_double (d : Z) : Prop :=
  exists m e, 0 <= e /\ Z.abs m <= 2 ^ 53 /\ Z.Even m /\ d = m * 2 ^ e.
(** [d] is the double nearest to [v], the even one of two. *)
Definition rounds (v d : Z) : Prop :=
  double d /\ forall d', double d' -> Z.abs (d - v) <= Z.abs (d' - v) /\
    (Z.abs (d - v) = Z.abs (d' - v) -> d' = d \/ even_double d).
Inductive sign : string -> Z -> Prop :=
| sign_none : sign "" 1 | sign_plus : sign "+" 1 | sign_minus : sign "-" (-1).
(** [s] begins with the number [z]: blanks, a sign or none, and as many digits as there
    are; with [hex], 0x begins a hexadecimal number. *)
Inductive begins (hex : bool) : string -> Z -> Prop :=
| begins_decimal p g u t rest v :
    blank p -> sign g u -> numeral 10 t v -> ~ begins_with_digit 10 rest ->
    (hex = true -> forall x, In x ["0x"; "0X"]%string -> prefix x (t ++ rest) = false) ->
    begins hex (p ++ g ++ t ++ rest)%string (u * v)
| begins_hex p g u x t rest v :
    hex = true -> blank p -> sign g u -> In x ["0x"; "0X"]%string ->
    numeral 16 t v -> ~ begins_with_digit 16 rest ->
    begins hex (p ++ g ++ x ++ t ++ rest)%string (u * v).

(** ** What a script sends *)
(** [who] signs a transaction that ends with instruction [i], perhaps after the creation
    of a token account of theirs. *)
Definition asks (E : env) (ops : list op) (who : pubkey) (i : instruction) : Prop :=
  exists pre m rest,
    ops = pre ++ [OpCall E (m :: rest) (instruction_bytes i)] /\ m_key m = who /\ m_signer m = true /\
    (pre = [] \/ exists k mint, pre = [OpAta E [who] who k who mint]).
