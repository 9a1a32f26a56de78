(** C78: key files. *)
From Coq Require Import String Ascii.
From Verif Require Import Spec ClientSpec ToolSpec LogSpec LogFacts CliSpec CliFacts CliKeys CliMain KeyFileSpec KeyFileFacts
  Demo DemoMore DemoStory DemoClient DemoScripts DemoCli DemoKey.
Import List ListNotations.
Open Scope list_scope.
Open Scope Z_scope.

(** ** C78 *)
(** The scripts act by the key of a file if it is an array of integers that become the 64
    bytes of a seed and its public key, and by no other. *)
Theorem C78_loads : forall derive files path k,
  load_key derive files path = Some k <->
  exists text seed secret, files path = Some text /\ file_of text secret /\ pair_of derive seed secret k.
Proof. exact load_key_iff. Qed.
(** Each file has one meaning. *)
Theorem C78_one_meaning : forall text a b,
  file_of text a -> file_of text b -> a = b.
Proof. exact file_of_unique. Qed.
Theorem C78_seed_decides : forall derive files path path' k k' text text' seed rest rest',
  load_key derive files path = Some k -> load_key derive files path' = Some k' ->
  files path = Some text -> files path' = Some text' ->
  length seed = 32%nat -> file_of text (seed ++ rest) -> file_of text' (seed ++ rest') -> k = k'.
Proof. exact load_key_seed. Qed.

Example C78_loads_ex :
  load_key demo_derive (saved demo_files "a.json" (" [ " ++ json_items alice_pair ++ String "010" "] ")) "a.json" = Some alice /\
  load_key demo_derive (saved demo_files "a.json" "[1,2,3]") "a.json" = None /\
  array_text "[0, -7 ,12]" [0; -7; 12] /\ (forall ns, ~ array_text "[01]" ns) /\ (forall ns, ~ array_text "[1,]" ns) /\
  becomes (-1) xff /\ becomes 256 x00.
Proof.
  split.
  { apply load_key_iff. eexists _, alice_seed, alice_pair. split; [reflexivity|]. split; [|exact alice_pair_of].
    apply file_of_iff. vm_compute. reflexivity. }
  split; [reflexivity|]. split; [apply scan_iff; reflexivity|].
  split; [intros ns H; apply scan_iff in H; discriminate H|]. split; [intros ns H; apply scan_iff in H; discriminate H|].
  split; apply becomes_iff; reflexivity.
Qed.

(** What generate-keypair.ts accepts and what it writes *)
Theorem C78_generate : forall derive text rest f,
  generate_keypair derive (text :: rest) = Some f <->
  exists t tail bs seed secret k,
    text = (t ++ tail)%string /\ hex_text t bs /\ (bs = seed \/ bs = secret) /\ pair_of derive seed secret k /\
    ~ (exists a b r x y, tail = String a (String b r) /\ digit a x /\ x < 16 /\ digit b y /\ y < 16) /\
    kf_text f = json_bytes secret /\ kf_printed f = to_base58 k /\
    saved_under rest (kf_path f).
Proof. exact generate_iff. Qed.
Theorem C78_no_key : forall derive,
  generate_keypair derive [] = None.
Proof. exact generate_nothing. Qed.

Example C78_generate_ex :
  generate_keypair demo_derive [typed; "alice.json"]%string = Some alice_file /\
  generate_keypair demo_derive [typed ++ "zz"; "alice.json"]%string = Some alice_file /\
  generate_keypair demo_derive ["0x" ++ typed; "alice.json"]%string = None /\
  hex_text "2a2A" [x2a; x2a].
Proof.
  split; [exact alice_generates|]. split; [exact alice_generates|]. split; [reflexivity|].
  assert (D : forall c, digit_value c < 36 -> digit c (digit_value c)) by (intros c L; apply digit_is; [exact L|reflexivity]).
  apply (hex_more _ _ _ 2 10); [apply (D "2"%char)|..|apply (hex_more _ _ _ 2 10); [apply (D "2"%char)|..|constructor]];
    try apply (D "a"%char); try apply (D "A"%char); reflexivity.
Qed.

(** Every script reads back the key that generate-keypair.ts showed ... *)
Theorem C78_round_trip : forall derive args f files,
  generate_keypair derive args = Some f ->
  exists k, load_key derive (saved files (kf_path f) (kf_text f)) (kf_path f) = Some k /\ kf_printed f = to_base58 k.
Proof. exact generate_loads. Qed.
(** ... and acts by it. *)
Theorem C78_stakes : forall derive args f files C E l amount rest ops,
  generate_keypair derive args = Some f ->
  stake_cli C E (load_key derive (saved files (kf_path f) (kf_text f))) l (kf_path f :: amount :: rest) = Some ops ->
  exists k n, kf_printed f = to_base58 k /\ denotes amount n /\ is_u64 n /\ asks E ops k (Stake n).
Proof. exact generate_stakes. Qed.

Example C78_round_trip_ex :
  load_key demo_derive (saved demo_files (kf_path alice_file) (kf_text alice_file)) (kf_path alice_file) = Some alice /\
  kf_printed alice_file = to_base58 alice /\
  stake_cli demo_crypto (demo_env 1150) (load_key demo_derive (saved demo_files (kf_path alice_file) (kf_text alice_file))) (shop 3)
    ["keypairs/alice.json"; "1000"]%string = Some (nth 3 shop_txs []).
Proof.
  split; [exact alice_loads|]. split; [reflexivity|].
  rewrite (stake_cli_reads _ _ _ _ _ _ _ alice 1000); [shop_asks 3%nat 0%nat|exact alice_loads|apply read; reflexivity].
Qed.

(** A text with anything after the key is accepted, numbers that are no bytes are, and
    upload-image.ts accepts files that no other script does. *)
Theorem C78_all_hex_refuted : forall derive,
  ~ (forall text rest f, generate_keypair derive (text :: rest) = Some f -> exists bs, hex_text text bs).
Proof. exact all_hex_refuted. Qed.
Theorem C78_only_bytes_refuted : forall derive,
  ~ (forall files path text ns k, files path = Some text -> array_text text ns -> load_key derive files path = Some k ->
       Forall (fun n => 0 <= n < 256) ns).
Proof. exact only_bytes_refuted. Qed.
Theorem C78_upload_checks_refuted : forall derive,
  ~ (forall files image path rest u, upload_image files (image :: path :: rest) = Some u ->
       exists k, load_key derive files path = Some k).
Proof. exact upload_checks_refuted. Qed.

(** upload-image.ts *)
Theorem C78_upload : forall files args u,
  upload_image files args = Some u <->
  exists image keypair rest text,
    args = image :: keypair :: rest /\ files image = Some (up_data u) /\ files keypair = Some text /\
    file_of text (up_key u) /\ length (up_key u) = 64%nat /\
    up_type u = content_type image /\ up_app u = "xORCA"%string /\
    (((rest = [] \/ exists r, rest = ""%string :: r \/ rest = "mainnet"%string :: r) /\ up_url u = "https://node1.irys.xyz"%string) \/
     ((exists r, rest = "devnet"%string :: r) /\ up_url u = "https://devnet.irys.xyz"%string)).
Proof. exact upload_iff. Qed.
Theorem C78_known_type : forall path e t,
  In (e, t) endings -> ends_in path e -> content_type path = t.
Proof. exact content_type_known. Qed.
Theorem C78_other_type : forall path,
  (forall e t, In (e, t) endings -> ~ ends_in path e) ->
  content_type path = "application/octet-stream"%string.
Proof. exact content_type_other. Qed.

Example C78_upload_ex :
  upload_image (saved demo_files "k.json" (json_bytes alice_pair)) ["xorca.PNG"; "k.json"; "devnet"]%string =
    Some (Upload "https://devnet.irys.xyz" alice_pair "image" "image/png" "xORCA") /\
  upload_image (saved demo_files "k.json" (json_bytes alice_pair)) ["xorca.PNG"; "k.json"; "testnet"]%string = None /\
  ends_in "a.b.JPeg" "jpeg" /\ content_type "a.jpeg.txt" = "application/octet-stream"%string.
Proof.
  split.
  { apply upload_iff. eexists _, _, _, _. cbn [up_url up_key up_data up_type up_app]. split; [reflexivity|]. split; [reflexivity|].
    split; [reflexivity|]. split; [apply json_bytes_file|]. split; [reflexivity|]. split; [reflexivity|]. split; [reflexivity|].
    right. eauto. }
  split; [reflexivity|]. split; [apply ends_in_iff; reflexivity|reflexivity].
Qed.

Print Assumptions C78_loads.
Print Assumptions C78_one_meaning.
Print Assumptions C78_seed_decides.
Print Assumptions C78_generate.
Print Assumptions C78_no_key.
Print Assumptions C78_round_trip.
Print Assumptions C78_stakes.
Print Assumptions C78_all_hex_refuted.
Print Assumptions C78_only_bytes_refuted.
Print Assumptions C78_upload_checks_refuted.
Print Assumptions C78_upload.
Print Assumptions C78_known_type.
Print Assumptions C78_other_type.
