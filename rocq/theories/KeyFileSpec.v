(** What key files and hexadecimal keys are.  Definitions only; nothing here is used by the
    model. *)
From Coq Require Import String Ascii.
From Verif Require Export CliSpec KeyFile.
Import List ListNotations.
Open Scope list_scope.
Open Scope Z_scope.

(** [s] is two hexadecimal digits for each of the bytes [bs]. *)
Inductive hex_text : string -> list byte -> Prop :=
| hex_none : hex_text "" []
| hex_more a b s x y byte bs :
    digit a x -> x < 16 -> digit b y -> y < 16 -> byte_to_Z byte = 16 * x + y ->
    hex_text s bs -> hex_text (String a (String b s)) (byte :: bs).

(** JSON arrays of integers *)
Definition white (s : string) : Prop :=
  forall j c, String.get j s = Some c -> In (nat_of_ascii c) [9; 10; 13; 32]%nat.
Inductive integer_text : string -> Z -> Prop :=
| int_plain s n : text_of_number s n -> integer_text s n
| int_minus s n : text_of_number s n -> integer_text ("-" ++ s) (- n).
(** One or more, separated by commas *)
Inductive items : string -> list Z -> Prop :=
| items_one p s q n : white p -> white q -> integer_text s n -> items (p ++ s ++ q)%string [n]
| items_more p s q n t ns : white p -> white q -> integer_text s n -> items t ns ->
    items (p ++ s ++ q ++ "," ++ t)%string (n :: ns).
Definition array_text (s : string) (ns : list Z) : Prop :=
  exists p t q, white p /\ white q /\ s = (p ++ "[" ++ t ++ "]" ++ q)%string /\
    ((white t /\ ns = []) \/ items t ns).

(** [secret] is the key pair of [seed]: a secret key of 64 bytes with public key [k]. *)
Definition pair_of (derive : list byte -> pubkey) (seed secret : list byte) (k : pubkey) : Prop :=
  length seed = 32%nat /\ secret = seed ++ key_bytes k /\ k = derive seed.
(** The numbers of a file become bytes: rounded to doubles, modulo 256. *)
Definition becomes (n : Z) (b : byte) : Prop := exists d, rounds n d /\ byte_to_Z b = d mod 256.
(** [text] is a file with the key pair [secret]. *)
Definition file_of (text : string) (secret : list byte) : Prop :=
  exists ns, array_text text ns /\ Forall2 becomes ns secret.
(** Where the pair is saved: under the name given, if one is. *)
Definition saved_under (rest : list string) (path : string) : Prop :=
  (exists name r, rest = name :: r /\ name <> ""%string /\ path = ("keypairs/" ++ name)%string) \/
  ((rest = [] \/ exists r, rest = ""%string :: r) /\ path = "keypairs/generated-keypair.json"%string).
(** The files once one has been written *)
Definition saved (files : string -> option string) (path text : string) (p : string) : option string :=
  if String.eqb p path then Some text else files p.

(** File names and their endings *)
Definition same_letter (a b : ascii) : Prop :=
  a = b \/ exists n, (n < 26)%nat /\
    ((nat_of_ascii a = 65 + n /\ nat_of_ascii b = 97 + n) \/ (nat_of_ascii a = 97 + n /\ nat_of_ascii b = 65 + n))%nat.
Inductive same_letters : string -> string -> Prop :=
| letters_none : same_letters "" ""
| letters_more a b s t : same_letter a b -> same_letters s t -> same_letters (String a s) (String b t).
(** [path] is [ending], or ends in a dot and [ending], up to the case of letters. *)
Definition ends_in (path ending : string) : Prop :=
  exists e, same_letters e ending /\ (path = e \/ exists p, path = (p ++ "." ++ e)%string).
Definition endings : list (string * string) :=
  [("png", "image/png"); ("jpg", "image/jpeg"); ("jpeg", "image/jpeg"); ("gif", "image/gif"); ("webp", "image/webp");
   ("svg", "image/svg+xml"); ("bmp", "image/bmp"); ("tiff", "image/tiff"); ("tif", "image/tiff");
   ("ico", "image/x-icon")]%string.
