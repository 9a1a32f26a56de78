(** Key files of the demo.  Its public keys are the seeds backwards; alice's is hers. *)
From Coq Require Import String Ascii.
From Verif Require Import Spec ClientSpec ToolSpec BytesFacts CliMain KeyFileSpec KeyFileFacts Demo DemoMore DemoStory DemoClient DemoScripts DemoCli.
Import List ListNotations.
Open Scope list_scope.
Open Scope Z_scope.

Definition alice_seed : list byte := repeat x2a 32.
Definition demo_derive (seed : list byte) : pubkey :=
  if bytes_eqb seed alice_seed then alice else key_of (rev seed).
Definition typed : string := "2a2A2a2A2a2A2a2A2a2A2a2A2a2A2a2A2a2A2a2A2a2A2a2A2a2A2a2A2a2A2a2A".
Definition alice_pair : list byte := alice_seed ++ key_bytes alice.
Lemma alice_pair_of : pair_of demo_derive alice_seed alice_pair alice.
Proof. split; [reflexivity|]. split; reflexivity. Qed.
Definition alice_file : key_file := KeyFile "keypairs/alice.json" (json_bytes alice_pair) (to_base58 alice).
Definition demo_files (path : string) : option string :=
  if String.eqb path "xorca.PNG" then Some "image"%string else None.
Lemma alice_generates : generate_keypair demo_derive [typed; "alice.json"]%string = Some alice_file.
Proof.
  unfold generate_keypair. change (hex_bytes typed) with alice_seed. change (from_seed demo_derive alice_seed) with (Some alice_pair).
  cbn [length alice_seed repeat Nat.eqb obind]. now rewrite (pair_key_of _ _ _ _ alice_pair_of).
Qed.
Lemma alice_loads : load_key demo_derive (saved demo_files "keypairs/alice.json" (json_bytes alice_pair)) "keypairs/alice.json" = Some alice.
Proof.
  destruct (generate_loads _ _ _ demo_files alice_generates) as (k & K & P). cbn [alice_file kf_printed kf_path kf_text] in K, P. rewrite K.
  apply load_key_iff in K. destruct K as (text & seed & secret & F & T & S). injection F as <-.
  pose proof (file_of_unique _ _ _ (json_bytes_file alice_pair) T) as Q. subst secret.
  now rewrite <- (pair_key_of _ _ _ _ S), (pair_key_of _ _ _ _ alice_pair_of).
Qed.
