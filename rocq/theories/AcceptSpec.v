(** Which packets the runtime accepts, and what it takes from them (C75): in terms of their
    bytes and of lists of keys. *)
From Verif Require Export WireSpec.
Import List ListNotations.
Open Scope list_scope.
Open Scope Z_scope.

(** Lengths take one to three bytes: seven bits each, the lowest first. *)
Definition length_digits (n : Z) : list Z :=
  if n <? 128 then [n]
  else if n <? 16384 then [128 + n mod 128; n / 128]
  else [128 + n mod 128; 128 + n / 128 mod 128; n / 16384].
Definition counted {A} (write : A -> list byte) (xs : list A) : list byte :=
  map Z_to_byte (length_digits (Z.of_nat (length xs))) ++ flat_map write xs.
Definition one_byte (n : nat) : list byte := [Z_to_byte (Z.of_nat n)].

(** A message: the accounts that sign and may be written, sign only, may be written only,
    and the others; the hash; the calls by positions: program, accounts, data.  Of version 0:
    lookups in tables, and the accounts they yield, writable and others. *)
Record layout := Layout {
  lay_lookups : option (list lookup);
  lay_both : list pubkey;
  lay_sign : list pubkey;
  lay_write : list pubkey;
  lay_rest : list pubkey;
  lay_hash : pubkey;
  lay_calls : list (nat * list nat * list byte);
  lay_loaded_write : list pubkey;
  lay_loaded_rest : list pubkey
}.
Definition lay_signers (y : layout) := lay_both y ++ lay_sign y.
Definition lay_static (y : layout) := lay_both y ++ lay_sign y ++ lay_write y ++ lay_rest y.
Definition lay_all (y : layout) := lay_static y ++ lay_loaded_write y ++ lay_loaded_rest y.
Definition lay_writers (y : layout) := lay_both y ++ lay_write y ++ lay_loaded_write y.

Definition lay_call (c : nat * list nat * list byte) : list byte :=
  let '(program, accounts, data) := c in
  one_byte program ++ counted one_byte accounts ++ counted (fun b => [b]) data.
Definition lay_lookup (x : lookup) : list byte :=
  key_bytes (lk_table x) ++ counted one_byte (lk_writable x) ++ counted one_byte (lk_readonly x).
Definition lay_bytes (y : layout) : list byte :=
  match lay_lookups y with Some _ => [x80] | None => [] end
  ++ one_byte (length (lay_signers y)) ++ one_byte (length (lay_sign y)) ++ one_byte (length (lay_rest y))
  ++ counted key_bytes (lay_static y) ++ key_bytes (lay_hash y) ++ counted lay_call (lay_calls y)
  ++ match lay_lookups y with Some lks => counted lay_lookup lks | None => [] end.

(** What lookups yield: for each, the keys at its indices in its table. *)
Definition yields (tables : pubkey -> list pubkey) (indices : lookup -> list nat) (lks : list lookup)
    (ks : list pubkey) : Prop :=
  exists kss, ks = concat kss /\
    Forall2 (fun x ks' => Forall2 (fun i k => nth_error (tables (lk_table x)) i = Some k) (indices x) ks') lks kss.

Definition lay_ok (tables : pubkey -> list pubkey) (y : layout) : Prop :=
  lay_both y <> [] /\ NoDup (lay_all y) /\ (length (lay_all y) <= 256)%nat /\
  Forall (fun c => let '(program, accounts, _) := c in
    (0 < program < length (lay_static y))%nat /\ Forall (fun i => (i < length (lay_all y))%nat) accounts)
    (lay_calls y) /\
  match lay_lookups y with
  | None => lay_loaded_write y = [] /\ lay_loaded_rest y = []
  | Some lks =>
      Forall (fun x => lk_writable x ++ lk_readonly x <> [] /\
        Forall (fun i => (i < 256)%nat) (lk_writable x ++ lk_readonly x)) lks /\
      yields tables lk_writable lks (lay_loaded_write y) /\
      yields tables lk_readonly lks (lay_loaded_rest y)
  end.

(** The keys that are called. *)
Definition lay_called (y : layout) (k : pubkey) : Prop :=
  exists c, In c (lay_calls y) /\ nth_error (lay_static y) (fst (fst c)) = Some k.
(** The instructions it stands for: each account with the privileges of its key. *)
Definition lay_means (reserved : pubkey -> bool) (y : layout) (got : list built) : Prop :=
  Forall2 (fun c b => let '(program, accounts, data) := c in
    nth_error (lay_static y) program = Some (b_program b) /\ b_data b = data /\
    Forall2 (fun i m =>
      nth_error (lay_all y) i = Some (m_key m) /\
      (m_signer m = true <-> In (m_key m) (lay_signers y)) /\
      (m_writable m = true <-> In (m_key m) (lay_writers y) /\ reserved (m_key m) = false /\
         (lay_called y (m_key m) -> In upgradeable_loader (lay_all y))))
      accounts (b_accounts b)) (lay_calls y) got.

(** A packet with this message: at most 1232 bytes; the signatures of the signers in order,
    then the message. *)
Definition says (verify : pubkey -> list byte -> list byte -> bool) (tables : pubkey -> list pubkey)
    (d : list byte) (y : layout) : Prop :=
  (length d <= 1232)%nat /\ lay_ok tables y /\
  exists sigs,
    Forall2 (fun k s => length s = 64%nat /\ verify k (lay_bytes y) s = true) (lay_signers y) sigs /\
    d = counted (fun s => s) sigs ++ lay_bytes y.
Definition accepted (verify : pubkey -> list byte -> list byte -> bool) (reserved : pubkey -> bool)
    (tables : pubkey -> list pubkey) (d : list byte) (got : list built) : Prop :=
  exists y, says verify tables d y /\ lay_means reserved y got.
