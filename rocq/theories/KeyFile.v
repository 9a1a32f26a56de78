(** Key files: generate-keypair.ts writes them, upload-image.ts and the other scripts read
    them.  Files are strings of bytes. *)
From Coq Require Import Ascii String.
From Verif Require Export Cli Log.
Import List ListNotations.
Open Scope list_scope.
Open Scope Z_scope.

(** ** Key pairs of @solana/web3.js 1 *)
(** [derive seed] is the ed25519 public key of a 32-byte seed.  A key pair is its 64-byte
    secret key, the seed and then the public key. *)
Definition pair_key (secret : list byte) : pubkey := key_of (skipn 32 secret).
(** [Keypair.fromSeed] *)
Definition from_seed (derive : list byte -> pubkey) (seed : list byte) : option (list byte) :=
  if (length seed =? 32)%nat then Some (seed ++ key_bytes (derive seed)) else None.
(** [Keypair.fromSecretKey]: "bad secret key size", "provided secretKey is invalid" *)
Definition from_secret_key (derive : list byte -> pubkey) (secret : list byte) : option (list byte) :=
  if (length secret =? 64)%nat && bytes_eqb (skipn 32 secret) (key_bytes (derive (firstn 32 secret)))
  then Some secret else None.

(** ** generate-keypair.ts *)
(** [Buffer.from(s, 'hex')]: pairs of digits up to the first that is none (a single
    character at the end is ignored). *)
Fixpoint hex_bytes (s : string) : list byte :=
  match s with
  | String a (String b s') =>
      if (digit_value a <? 16) && (digit_value b <? 16)
      then Z_to_byte (16 * digit_value a + digit_value b) :: hex_bytes s' else []
  | _ => []
  end.
(** [JSON.stringify] of an array of bytes *)
Fixpoint json_items (bs : list byte) : string :=
  match bs with
  | [] => ""
  | [b] => to_decimal (byte_to_Z b)
  | b :: bs' => to_decimal (byte_to_Z b) ++ "," ++ json_items bs'
  end%string.
Definition json_bytes (bs : list byte) : string := ("[" ++ json_items bs ++ "]")%string.

Record key_file := KeyFile {
  kf_path : string;       (* below the directory of the scripts, before [join] normalizes it *)
  kf_text : string;
  kf_printed : string     (* the public key shown *)
}.
(** generate-keypair.ts:16-82 *)
Definition generate_keypair (derive : list byte -> pubkey) (args : list string) : option key_file :=
  match args with
  | [] => None
  | text :: rest =>
      let name := match rest with
                  | EmptyString :: _ | [] => "generated-keypair.json"%string
                  | name :: _ => name
                  end in
      let bs := hex_bytes text in
      get! secret := if (length bs =? 32)%nat then from_seed derive bs
                     else if (length bs =? 64)%nat then from_secret_key derive bs else None in
      Some (KeyFile ("keypairs/" ++ name) (json_bytes secret) (to_base58 (pair_key secret)))
  end.

(** ** Reading *)
(** [JSON.parse] of an array of integers (RFC 8259).  Other JSON values are refused here;
    in JS, other things in the array would be converted to bytes. *)
Definition json_white (c : ascii) : bool :=
  let n := nat_of_ascii c in ((n =? 9) || (n =? 10) || (n =? 13) || (n =? 32))%nat.
Inductive json_state :=
| JStart | JFirst | JNext | JMinus | JNumber (negative : bool) (v : Z) | JAfter | JEnd.
Definition json_sign (negative : bool) (v : Z) : Z := if negative then - v else v.
Fixpoint json_scan (st : json_state) (s : string) : option (list Z) :=
  match s with
  | EmptyString => match st with JEnd => Some [] | _ => None end
  | String c s' =>
      let numeric := digit_value c <? 10 in
      match st with
      | JStart =>
          if json_white c then json_scan JStart s'
          else if Ascii.eqb c "[" then json_scan JFirst s' else None
      | JFirst =>
          if json_white c then json_scan JFirst s'
          else if Ascii.eqb c "]" then json_scan JEnd s'
          else if Ascii.eqb c "-" then json_scan JMinus s'
          else if numeric then json_scan (JNumber false (digit_value c)) s' else None
      | JNext =>
          if json_white c then json_scan JNext s'
          else if Ascii.eqb c "-" then json_scan JMinus s'
          else if numeric then json_scan (JNumber false (digit_value c)) s' else None
      | JMinus => if numeric then json_scan (JNumber true (digit_value c)) s' else None
      | JNumber negative v =>
          if numeric
          then if v =? 0 then None (* no leading zeros *)
               else json_scan (JNumber negative (10 * v + digit_value c)) s'
          else if json_white c then option_map (cons (json_sign negative v)) (json_scan JAfter s')
          else if Ascii.eqb c "," then option_map (cons (json_sign negative v)) (json_scan JNext s')
          else if Ascii.eqb c "]" then option_map (cons (json_sign negative v)) (json_scan JEnd s')
          else None
      | JAfter =>
          if json_white c then json_scan JAfter s'
          else if Ascii.eqb c "," then json_scan JNext s'
          else if Ascii.eqb c "]" then json_scan JEnd s' else None
      | JEnd => if json_white c then json_scan JEnd s' else None
      end
  end.
(** An element of [new Uint8Array(numbers)]: the nearest double modulo 256. *)
Definition to_uint8 (n : Z) : byte :=
  Z_to_byte (if n <? 0 then - to_double (- n) else to_double n).
(** stake.ts:50-51, unstake.ts:51-52, withdraw.ts:49-50, initialize.ts:46-54, set.ts:44-45,
    transfer-orca.ts:46-47, transfer-orca-to-vault.ts:42-43,
    update-xorca-mint-authority.ts:35-40 *)
Definition read_keypair (derive : list byte -> pubkey) (text : string) : option (list byte) :=
  get! ns := json_scan JStart text in from_secret_key derive (map to_uint8 ns).
(** The key by which a script acts: [load] of Cli.v, for the files [files]. *)
Definition load_key (derive : list byte -> pubkey) (files : string -> option string) (path : string)
  : option pubkey :=
  get! text := files path in get! secret := read_keypair derive text in Some (pair_key secret).

(** ** upload-image.ts *)
(** [s.split('.').pop()] *)
Fixpoint last_part (s part : string) : string :=
  match s with
  | EmptyString => part
  | String c s' =>
      if Ascii.eqb c "." then last_part s' EmptyString else last_part s' (part ++ String c EmptyString)
  end.
(** [toLowerCase] *)
Definition lower_char (c : ascii) : ascii :=
  let n := nat_of_ascii c in if ((65 <=? n) && (n <=? 90))%nat then ascii_of_nat (n + 32) else c.
Fixpoint lower (s : string) : string :=
  match s with EmptyString => EmptyString | String c s' => String (lower_char c) (lower s') end.
(** upload-image.ts:100-127 *)
Definition content_type (path : string) : string :=
  let e := lower (last_part path EmptyString) in
  (if String.eqb e "png" then "image/png"
   else if String.eqb e "jpg" || String.eqb e "jpeg" then "image/jpeg"
   else if String.eqb e "gif" then "image/gif"
   else if String.eqb e "webp" then "image/webp"
   else if String.eqb e "svg" then "image/svg+xml"
   else if String.eqb e "bmp" then "image/bmp"
   else if String.eqb e "tiff" || String.eqb e "tif" then "image/tiff"
   else if String.eqb e "ico" then "image/x-icon"
   else "application/octet-stream")%string.
(** What is handed to the Irys library; the date is left out. *)
Record upload := Upload {
  up_url : string;
  up_key : list byte;
  up_data : string;
  up_type : string;
  up_app : string
}.
(** upload-image.ts:16-81 *)
Definition upload_image (files : string -> option string) (args : list string) : option upload :=
  match args with
  | image :: keypair :: rest =>
      let network := match rest with EmptyString :: _ | [] => "mainnet"%string | n :: _ => n end in
      if negb (String.eqb network "mainnet" || String.eqb network "devnet") then None else
      get! data := files image in
      get! text := files keypair in
      get! ns := json_scan JStart text in
      if negb (length ns =? 64)%nat then None else
      Some (Upload (if String.eqb network "mainnet" then "https://node1.irys.xyz" else "https://devnet.irys.xyz")
              (map to_uint8 ns) data (content_type image) "xORCA")
  | _ => None
  end.
