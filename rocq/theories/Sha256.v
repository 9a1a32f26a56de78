(** SHA-256 (FIPS 180-4) in Gallina.

    Used only to instantiate the abstract [crypto] record (Solana.v) with the
    real hash, so that examples can be evaluated on real addresses.  It models
    [pinocchio_pubkey::derive_address] / the [sol_sha256] syscall used by
    /repo/solana-program/src/state/state.rs:63 and pda.rs:67-83. *)
From Verif Require Import Bytes.
From Coq Require Import NArith.
Local Open Scope N_scope.

Definition w32 (x : N) : N := N.land x 4294967295.
Definition add32 (x y : N) : N := w32 (x + y).
Definition rotr (n x : N) : N := N.lor (N.shiftr x n) (w32 (N.shiftl x (32 - n))).
Definition not32 (x : N) : N := N.lxor x 4294967295.

Definition sha_ch (x y z : N) : N := N.lxor (N.land x y) (N.land (not32 x) z).
Definition sha_maj (x y z : N) : N :=
  N.lxor (N.lxor (N.land x y) (N.land x z)) (N.land y z).
Definition big_sigma0 (x : N) : N := N.lxor (N.lxor (rotr 2 x) (rotr 13 x)) (rotr 22 x).
Definition big_sigma1 (x : N) : N := N.lxor (N.lxor (rotr 6 x) (rotr 11 x)) (rotr 25 x).
Definition small_sigma0 (x : N) : N := N.lxor (N.lxor (rotr 7 x) (rotr 18 x)) (N.shiftr x 3).
Definition small_sigma1 (x : N) : N := N.lxor (N.lxor (rotr 17 x) (rotr 19 x)) (N.shiftr x 10).

Definition sha_k : list N :=
  [1116352408; 1899447441; 3049323471; 3921009573;
   961987163; 1508970993; 2453635748; 2870763221;
   3624381080; 310598401; 607225278; 1426881987;
   1925078388; 2162078206; 2614888103; 3248222580;
   3835390401; 4022224774; 264347078; 604807628;
   770255983; 1249150122; 1555081692; 1996064986;
   2554220882; 2821834349; 2952996808; 3210313671;
   3336571891; 3584528711; 113926993; 338241895;
   666307205; 773529912; 1294757372; 1396182291;
   1695183700; 1986661051; 2177026350; 2456956037;
   2730485921; 2820302411; 3259730800; 3345764771;
   3516065817; 3600352804; 4094571909; 275423344;
   430227734; 506948616; 659060556; 883997877;
   958139571; 1322822218; 1537002063; 1747873779;
   1955562222; 2024104815; 2227730452; 2361852424;
   2428436474; 2756734187; 3204031479; 3329325298].

Definition sha_h0 : list N :=
  [1779033703; 3144134277; 1013904242; 2773480762; 1359893119; 2600822924; 528734635; 1541459225].

(** Message schedule: the last 16 words, newest first; returns W_0..W_63. *)
Fixpoint sha_schedule (n : nat) (window : list N) (acc : list N) : list N :=
  match n with
  | O => rev acc
  | S n' =>
      let w15 := nth 14 window 0 in
      let w2 := nth 1 window 0 in
      let w := add32 (add32 (small_sigma1 w2) (nth 6 window 0))
                     (add32 (small_sigma0 w15) (nth 15 window 0)) in
      sha_schedule n' (w :: removelast window) (w :: acc)
  end.

Definition sha_round (s : list N) (kw : N * N) : list N :=
  match s with
  | [a; b; c; d; e; f; g; h] =>
      let t1 := add32 (add32 (add32 h (big_sigma1 e)) (add32 (sha_ch e f g) (fst kw))) (snd kw) in
      let t2 := add32 (big_sigma0 a) (sha_maj a b c) in
      [add32 t1 t2; a; b; c; add32 d t1; e; f; g]
  | _ => s
  end.

Fixpoint words_of_bytes (l : list byte) (n : nat) : list N :=
  match n with
  | O => []
  | S n' =>
      match l with
      | b0 :: b1 :: b2 :: b3 :: l' =>
          (((Byte.to_N b0 * 256 + Byte.to_N b1) * 256 + Byte.to_N b2) * 256 + Byte.to_N b3)
            :: words_of_bytes l' n'
      | _ => []
      end
  end.

Definition sha_block (hs : list N) (block : list byte) : list N :=
  let w16 := words_of_bytes block 16 in
  let ws := sha_schedule 48 (rev w16) (rev w16) in
  let final := fold_left sha_round (combine sha_k ws) hs in
  map (fun p => add32 (fst p) (snd p)) (combine hs final).

Fixpoint sha_blocks (n : nat) (hs : list N) (l : list byte) : list N :=
  match n with
  | O => hs
  | S n' => sha_blocks n' (sha_block hs (firstn 64 l)) (skipn 64 l)
  end.

Definition be_bytes (n : nat) (z : Z) : list byte := rev (le_enc n z).

(** Padding: 0x80, zeros, 64-bit big-endian bit length. *)
Definition sha_pad (l : list byte) : list byte :=
  let len := zlen l in
  let k := ((55 - len) mod 64)%Z in
  l ++ [x80] ++ zeros k ++ be_bytes 8 (8 * len)%Z.

Definition sha256_bytes (l : list byte) : list byte :=
  let p := sha_pad l in
  concat (map (fun w => be_bytes 4 (Z.of_N w))
              (sha_blocks (Nat.div (length p) 64) sha_h0 p)).

