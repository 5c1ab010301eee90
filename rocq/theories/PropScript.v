(** * Properties C169-C179, C186 and C187: the programs in /repo/script (Script.v). *)
From Coq Require Import ZArith List Bool Lia.
From Verif Require Import Base BaseProofs Utf8 Codec CodecProofs Json JsonProofs Jwt JwtProofs Prims Inst Elliptic Ecc KeyWrap Extra PvalEq Jwk JwkProofs JwkProofs2 JwkEx Jws JwsProofs JwsProofs2 JwsProofs3 JwsProofs4 JwsProofs6 JwsProofs7 JwsEx Jwe JweProofs JweProofs2 JweProofs3 JweProofs4 JweEx Misc Script ScriptProofs ScriptProofs2 ScriptProofs3.
Import ListNotations.
Open Scope Z_scope.

(** C169: assign groups keys by type: one entry per type, holding the keys of this type in their order *)
Theorem C169_assign : forall A (lst : list (ustr * A)), NoDup (map fst (assign lst)) /\
  forall t, dget (assign lst) t = match map snd (filter (fun p => zs_eqb (fst p) t) lst) with [] => None | l => Some l end.
Proof. exact assign_spec. Qed.
Print Assumptions C169_assign.
Example C169_ex : assign [(lit "oct", 1); (lit "RSA", 2); (lit "oct", 3)] = [(lit "oct", [1; 3]); (lit "RSA", [2])].
Proof. vm_compute. reflexivity. Qed.

(** C170: signing succeeds with any key the algorithm can use, and the token is exactly header, payload and signature *)
Theorem C170_signing_succeeds : forall P E s keys protected a g t kid k pb m, chosen s (Some keys) = VStr a -> dget SIGNERS a = Some g -> alg2keytype (VStr a) = Ok (Some t) ->
  kid_in_force s = Ok kid -> first_fit (suitable t kid (VStr (lit "sig")) (VStr a)) keys k ->
  json_header protected s (Some keys) -> dmem protected (lit "self") = false -> octets_wf (s_msg s) -> octets_of (s_msg s) = Ok pb ->
  get_key k true = Ok m -> (forall i, bytes_ok i = true -> exists sg, signer_sign P g E i m = Ok sg) ->
  exists s' h sg, sign_compact P E s (Some keys) protected = (s', Ok (b64e h ++ 46 :: b64e pb ++ 46 :: b64e sg)) /\
    loads h = Ok (VDict (sign_header protected (VStr a) (Some k) (dget (s_dict s) (lit "typ")))) /\ ascii h = true /\ signer_sign P g E (b64e h ++ 46 :: b64e pb) m = Ok sg.
Proof. exact signs. Qed.
Print Assumptions C170_signing_succeeds.
(** the hypotheses hold for JWS("hello", alg="HS256") and a symmetric key *)
Lemma ex_plain : plain_key ex_key [] (lit "secret").
Proof. split; try reflexivity; [left; reflexivity|exists (VStr []); reflexivity|discriminate]. Qed.
Example C170_ex : exists s' h sg, sign_compact std ex_E ex_jws (Some [ex_key]) [] = (s', Ok (b64e h ++ 46 :: b64e (lit "hello") ++ 46 :: b64e sg)) /\
  loads h = Ok (VDict [(lit "alg", VStr (lit "HS256"))]).
Proof.
  destruct (C170_signing_succeeds std ex_E ex_jws [ex_key] [] (lit "HS256") (HMACSigner SHA256) (lit "oct") VNone ex_key (lit "hello") (MObj (OVal (VBytes (lit "secret"))))) as (s' & h & sg & S & L & _ & _);
    try reflexivity.
  - apply (plain_first _ _ _ _ _ ex_plain).
  - split; [reflexivity|]. split; [intros v X; discriminate X|]. intros k [(l & X & I)|(_ & X)]; [injection X as <-; destruct I as [<-|[]]; reflexivity|discriminate X].
  - intros b X. discriminate X.
  - intros i _. eexists. reflexivity.
  - exists s', h, sg. split; [exact S|exact L].
Qed.

(** What jwkutil -v prints for a text: the JSON value it holds, else the text. *)
Definition reported (msg : ustr) : pval := match loads msg with Ok v => v | Raise _ => VStr msg end.

(** C171: jwkutil -s -k secret -a HSxxx prints a token, which jwkutil -v -k secret verifies, printing the message *)
Theorem C171_sign_verify : forall P E R sent read imp stdin, hmac_law P -> forall secret b a h typ msg pb, secret <> [] -> utf8_encode secret = Ok b ->
  In (a, h) [(lit "HS256", SHA256); (lit "HS384", SHA384); (lit "HS512", SHA512)] ->
  match typ with Some x => scalars x = true | None => True end -> msg <> lit "-" -> utf8_encode msg = Ok pb ->
  exists tok, jwkutil P E R sent read imp stdin (sign_options (Secret secret) a typ msg) = Printed [VStr tok] /\ ascii tok = true /\
    jwkutil P E R sent read imp stdin (verify_options (Secret secret) tok) = Printed [reported msg].
Proof.
  intros P E R sent read imp stdin HM secret b a h typ msg pb N U IA KT ND UM. destruct (secret_gives P read secret b N U) as (k & G & PK).
  destruct (util_sign_verify P E R sent read imp stdin HM (Secret secret) k [] b a h typ msg pb G PK IA KT ND UM) as (tok & S & A & V & _). exists tok. repeat split; assumption.
Qed.
Print Assumptions C171_sign_verify.
Definition no_read (n : ustr) : res ustr := Raise EException.
Definition no_imp (n : ustr) : res rsakey := Raise EValueError.
Example C171_ex : jwkutil std ex_E ex_draws (fun _ => []) no_read no_imp [] (sign_options (Secret (lit "secret")) (lit "HS256") None (lit "hello")) = Printed [VStr ex_tok] /\
  jwkutil std ex_E ex_draws (fun _ => []) no_read no_imp [] (verify_options (Secret (lit "secret")) ex_tok) = Printed [VStr (lit "hello")].
Proof. split; vm_compute; reflexivity. Qed.

(** C172: jwkutil -s without -a prints, whatever the keys, a token with an empty signature *)
Theorem C172_unsigned : forall P E R sent read imp stdin o lines, o_sign o = true -> o_encrypt o = false -> given (o_alg o) = None ->
  jwkutil P E R sent read imp stdin o = Printed lines -> exists h p, lines = [VStr (h ++ 46 :: p ++ [46])] /\ ~ In 46 h /\ ~ In 46 p.
Proof. exact util_unsigned. Qed.
Print Assumptions C172_unsigned.
Definition sign_only : options :=
  {| o_sign := true; o_verify := false; o_encrypt := false; o_decrypt := false; o_file := None; o_rsa := None; o_hmac := Some (lit "secret"); o_alg := None; o_encalg := None; o_encenc := None;
     o_jwk := None; o_jwks := None; o_kid := None; o_type := None; o_url := None; o_message := Some (lit "hello") |}.
(** {"alg": "none"} *)
Example C172_ex : jwkutil std ex_E ex_draws (fun _ => []) no_read no_imp [] sign_only = Printed [VStr (lit "eyJhbGciOiJub25lIn0.aGVsbG8.")].
Proof. vm_compute. reflexivity. Qed.

(** C173: jwkutil -d never prints the plaintext, nor anything else *)
Theorem C173_decrypt_prints_nothing : forall P E R sent read imp stdin o lines, o_sign o = false -> o_encrypt o = false -> o_decrypt o = true ->
  jwkutil P E R sent read imp stdin o <> Printed lines.
Proof. exact util_decrypt_silent. Qed.
Print Assumptions C173_decrypt_prints_nothing.
(** A message of two octets is lost without a word, any other ends the program with a ValueError. *)
Theorem C173_outcome : forall P E R sent read imp stdin o secret tok k m, o_sign o = false -> o_encrypt o = false -> o_decrypt o = true -> o_verify o = false ->
  o_rsa o = None -> o_hmac o = Some secret -> o_jwk o = None -> o_jwks o = None -> o_url o = None -> o_file o = None -> o_message o = Some tok ->
  secret <> [] -> tok <> lit "-" -> sym_new [] (VStr secret) = Ok k -> decrypt P sent (VStr tok) [k] = Ok m ->
  (length m = 2%nat -> jwkutil P E R sent read imp stdin o = Silent) /\ (length m <> 2%nat -> jwkutil P E R sent read imp stdin o = Failed EValueError).
Proof.
  intros P E R sent read imp stdin o secret tok k m S N D V O1 O2 O3 O4 O5 O6 O7 SE TK K DE. rewrite (util_decrypt_outcome P E R sent read imp stdin o secret tok k m); try assumption.
  split; intros L; [rewrite L; reflexivity|]. apply Nat.eqb_neq in L. rewrite L. reflexivity.
Qed.
Print Assumptions C173_outcome.
Definition decrypt_only (tok : ustr) : options :=
  {| o_sign := false; o_verify := false; o_encrypt := false; o_decrypt := true; o_file := None; o_rsa := None; o_hmac := Some (lit "secret"); o_alg := None; o_encalg := None; o_encenc := None;
     o_jwk := None; o_jwks := None; o_kid := None; o_type := None; o_url := None; o_message := Some tok |}.
(** a good token for the key: decrypt gives "hello", the program ends with a ValueError *)
Example C173_ex : exists tok, decrypt std (fun _ => []) (VStr tok) [ex_key] = Ok (lit "hello") /\
  jwkutil std ex_E ex_draws (fun _ => []) no_read no_imp [] (decrypt_only tok) = Failed EValueError.
Proof.
  destruct (encrypt_decrypt_one std ex_draws std_aes_law std_hmac_law std_hash_law ex_draws_ok (lit "A128KW") (lit "A128CBC-HS256") ex_key [] (lit "secret") (lit "hello") (lit "hello")) as (tok & _ & D);
    [left; reflexivity|unfold ENCS; cbn [In]; auto 10|exact ex_plain|reflexivity|reflexivity|cbn; lia|].
  specialize (D (fun _ => []) ex_key [] ex_plain eq_refl). exists tok. split; [exact D|]. unfold jwkutil.
  change (util_keys std no_read no_imp (decrypt_only tok)) with (Ok [ex_key]). cbn [run_of]. unfold message. change (given (o_file (decrypt_only tok))) with (@None ustr). cbn [decrypt_only o_message].
  destruct (zs_eqb tok (lit "-")) eqn:Z; [apply zs_eqb_eq in Z; subst tok; discriminate D|]. cbn [run_of o_sign o_encrypt o_decrypt]. rewrite D. reflexivity.
Qed.

(** C174: gen_symkey prints a key set that loads to one symmetric key, made of the requested number of capital letters and digits *)
Theorem C174_gen_symkey : forall P rnd n kid, (forall i, (rnd i < 36)%nat) -> 0 < n -> match kid with Some x => scalars x = true | None => True end ->
  exists t k s, gen_symkey rnd n kid = Printed [VStr t] /\ load_jwks P [] (VStr t) = ([k], None) /\
    k_kty k = VStr (lit "oct") /\ (exists kk, k_data k = DSym (VBytes s) kk) /\ (k_kid k = VStr (match kid with Some x => x | None => [] end) \/ (k_kid k = VNone /\ kid_of kid = [])) /\
    Z.of_nat (length s) = n /\ Forall (fun c => 65 <= c <= 90 \/ 48 <= c <= 57) s /\
    forall i, (i < length s)%nat -> nth i s 0 = nth (rnd i) (lit "ABCDEFGHIJKLMNOPQRSTUVWXYZ0123456789") 0.
Proof.
  intros P rnd n kid H N K. destruct (gen_symkey_loads P rnd n kid H N K) as (t & k & G & L & PK & LN & F). exists t, k, (rndstr rnd n).
  split; [exact G|]. split; [exact L|]. split; [apply PK|]. split; [apply PK|]. split; [apply PK|]. split; [exact LN|]. split; [exact F|].
  intros i Hi. unfold rndstr in *. rewrite map_length, seq_length in Hi. rewrite (nth_indep _ 0 (nth (rnd 0%nat) rnd_chars 0)) by (rewrite map_length, seq_length; exact Hi).
  rewrite (map_nth (fun i => nth (rnd i) rnd_chars 0)). rewrite seq_nth by exact Hi. reflexivity.
Qed.
Print Assumptions C174_gen_symkey.
Definition ex_rnd (i : nat) : nat := (7 * i mod 36)%nat.
(** gen_symkey.py -n 8 a *)
Definition ex_set : ustr := lit "{""keys"": [{""kty"": ""oct"", ""kid"": ""a"", ""k"": ""QUhPVjI5R04""}]}".
Example C174_ex : gen_symkey ex_rnd 8 (Some (lit "a")) = Printed [VStr ex_set] /\ (forall i, (ex_rnd i < 36)%nat) /\ b64d (lit "QUhPVjI5R04") = Ok (lit "AHOV29GN").
Proof. split; [vm_compute; reflexivity|]. split; [intro i; apply Nat.mod_upper_bound; discriminate|vm_compute; reflexivity]. Qed.

(** C175: the programs together: a key set from gen_symkey, signing and verifying with jwkutil, signing then encrypting with
    jwkutil and decrypting with jwdecrypt *)
Theorem C175_pipeline : forall P E R sent read imp stdin, aes_law P -> hmac_law P -> hash_law P -> draws_ok R ->
  forall rnd n kid t name, (forall i, (rnd i < 36)%nat) -> 0 < n -> match kid with Some x => scalars x = true | None => True end -> Z.of_nat (length (kid_of kid)) < 2 ^ 50 ->
  gen_symkey rnd n kid = Printed [VStr t] -> name <> [] -> read name = Ok t ->
  forall a h typ ka e msg pb, In (a, h) [(lit "HS256", SHA256); (lit "HS384", SHA384); (lit "HS512", SHA512)] -> match typ with Some x => scalars x = true | None => True end ->
  In ka [lit "A128KW"; lit "A192KW"; lit "A256KW"] -> In e [lit "A128GCM"; lit "A192GCM"; lit "A256GCM"; lit "A128CBC-HS256"; lit "A192CBC-HS384"; lit "A256CBC-HS512"] ->
  msg <> lit "-" -> utf8_encode msg = Ok pb ->
  exists inner, jwkutil P E R sent read imp stdin (sign_options (File name) a typ msg) = Printed [VStr inner] /\
    jwkutil P E R sent read imp stdin (verify_options (File name) inner) = Printed [reported msg] /\
    (Z.of_nat (length inner) <= 16 * 2 ^ 32 -> exists outer, jwkutil P E R sent read imp stdin (nest_options (File name) a typ ka e msg) = Printed [VStr outer] /\
      jwdecrypt P sent read imp (jwdecrypt_options name outer) = Printed [VBytes inner]).
Proof.
  intros P E R sent read imp stdin AES HM HL DR rnd n kid t name H N K LK G NN RD a h typ ka e msg pb IA KT IK IE ND U.
  destruct (gen_symkey_loads P rnd n kid H N K) as (t' & k & G' & L & PK & _). rewrite G in G'. injection G' as <-.
  apply (util_nested P E R sent read imp stdin AES HM HL DR name k (kid_of kid) (rndstr rnd n) a h typ ka e msg pb); try assumption. split; [exact NN|]. exists t. split; assumption.
Qed.
Print Assumptions C175_pipeline.
Definition ex_read (n : ustr) : res ustr := if zs_eqb n (lit "k.json") then Ok ex_set else Raise EException.
Example C175_ex : exists inner outer,
  jwkutil std ex_E ex_draws (fun _ => []) ex_read no_imp [] (sign_options (File (lit "k.json")) (lit "HS256") None (lit "hello")) = Printed [VStr inner] /\
  inner = lit "eyJhbGciOiJIUzI1NiIsImtpZCI6ImEifQ.aGVsbG8.uGvWbBeYesTbch2i0oK_sEAp-kyGuZf6-8fOJT6l-Bc" /\
  jwkutil std ex_E ex_draws (fun _ => []) ex_read no_imp [] (nest_options (File (lit "k.json")) (lit "HS256") None (lit "A128KW") (lit "A128CBC-HS256") (lit "hello")) = Printed [VStr outer] /\
  jwdecrypt std (fun _ => []) ex_read no_imp (jwdecrypt_options (lit "k.json") outer) = Printed [VBytes inner].
Proof.
  destruct (C175_pipeline std ex_E ex_draws (fun _ => []) ex_read no_imp [] std_aes_law std_hmac_law std_hash_law ex_draws_ok ex_rnd 8 (Some (lit "a")) ex_set (lit "k.json")
    (proj1 (proj2 C174_ex)) eq_refl eq_refl eq_refl (proj1 C174_ex) ltac:(discriminate) eq_refl (lit "HS256") SHA256 None (lit "A128KW") (lit "A128CBC-HS256") (lit "hello") (lit "hello")) as (inner & S & V & N);
    [left; reflexivity|exact I|left; reflexivity|cbn [In]; auto 10|intro X; vm_compute in X; discriminate|reflexivity|].
  assert (I0 : Printed [VStr inner] = Printed [VStr (lit "eyJhbGciOiJIUzI1NiIsImtpZCI6ImEifQ.aGVsbG8.uGvWbBeYesTbch2i0oK_sEAp-kyGuZf6-8fOJT6l-Bc")]) by (rewrite <- S; vm_compute; reflexivity).
  injection I0 as I0. destruct N as (outer & O & D); [rewrite I0; vm_compute; discriminate|]. exists inner, outer. repeat split; assumption.
Qed.

(** C176: what jwenc encrypts with a key wrap algorithm under such a key set, jwdecrypt decrypts *)
Theorem C176_jwenc_jwdecrypt : forall P R sent read imp stdin, aes_law P -> hmac_law P -> hash_law P -> draws_ok R ->
  forall rnd n kid t name, (forall i, (rnd i < 36)%nat) -> 0 < n -> match kid with Some x => scalars x = true | None => True end -> Z.of_nat (length (kid_of kid)) < 2 ^ 50 ->
  gen_symkey rnd n kid = Printed [VStr t] -> name <> [] -> read name = Ok t ->
  forall ka e msg m, In ka [lit "A128KW"; lit "A192KW"; lit "A256KW"] -> In e [lit "A128GCM"; lit "A192GCM"; lit "A256GCM"; lit "A128CBC-HS256"; lit "A192CBC-HS384"; lit "A256CBC-HS512"] ->
  msg <> lit "-" -> utf8_encode msg = Ok m -> Z.of_nat (length m) <= 16 * 2 ^ 32 ->
  exists tok, jwenc_main P R read imp stdin (jwenc_options name ka e msg) = Printed [VStr tok] /\ jwdecrypt P sent read imp (jwdecrypt_options name tok) = Printed [VBytes m].
Proof.
  intros P R sent read imp stdin AES HM HL DR rnd n kid t name H N K LK G NN RD ka e msg m IK IE ND U LM.
  destruct (gen_symkey_loads P rnd n kid H N K) as (t' & k & G' & L & PK & _). rewrite G in G'. injection G' as <-.
  apply (jwenc_jwdecrypt P R sent read imp stdin AES HM HL DR name k (kid_of kid) (rndstr rnd n) ka e msg m); try assumption. split; [exact NN|]. exists t. split; assumption.
Qed.
Print Assumptions C176_jwenc_jwdecrypt.
Example C176_ex : exists tok, jwenc_main std ex_draws ex_read no_imp [] (jwenc_options (lit "k.json") (lit "A256KW") (lit "A256GCM") (lit "hello")) = Printed [VStr tok] /\
  jwdecrypt std (fun _ => []) ex_read no_imp (jwdecrypt_options (lit "k.json") tok) = Printed [VBytes (lit "hello")].
Proof.
  apply (C176_jwenc_jwdecrypt std ex_draws (fun _ => []) ex_read no_imp [] std_aes_law std_hmac_law std_hash_law ex_draws_ok ex_rnd 8 (Some (lit "a")) ex_set (lit "k.json")
    (proj1 (proj2 C174_ex)) eq_refl eq_refl eq_refl (proj1 C174_ex) ltac:(discriminate) eq_refl); [cbn [In]; auto|cbn [In]; auto 10|intro X; vm_compute in X; discriminate|reflexivity|cbn; lia].
Qed.

(** C177: peek.  What JWS verification accepts is shown as jws with its header and the octets of its payload; what
    JWE decryption accepts is shown as jwe *)
Theorem C177_peek_jws : forall P tok keys sigalg v h pb, verify P (VStr tok) keys false sigalg = Ok v -> shown_header tok (VDict h) -> shown_payload tok pb ->
  (dget h (lit "typ") = None \/ exists t, dget h (lit "typ") = Some (VStr t) /\ lower t <> lit "jwe") ->
  peek tok = Printed [VStr (lit "jws"); VDict h; VBytes pb].
Proof. exact peek_jws. Qed.
Print Assumptions C177_peek_jws.
Theorem C177_peek_jwe : forall P sent tok keys m h, decrypt P sent (VStr tok) keys = Ok m -> shown_header tok (VDict h) ->
  (dget h (lit "typ") = None \/ exists t, dget h (lit "typ") = Some (VStr t)) ->
  (forall k, In k keys -> right_type (lit "oct") k -> forall o n, k_data k <> DRsa o n) ->
  peek tok = Printed [VStr (lit "jwe")].
Proof. exact peek_jwe. Qed.
Print Assumptions C177_peek_jwe.
(** any token whose typ is JWE in some letter case is shown as jwe, also one that verifies as a JWS; with a typ that is not a
    text peek ends with an AttributeError *)
Theorem C177_typ_jwe : forall tok j h t, unpack (VStr tok) = Ok j -> shown_header tok (VDict h) -> dget h (lit "typ") = Some (VStr t) -> lower t = lit "jwe" -> peek tok = Printed [VStr (lit "jwe")].
Proof. exact peek_typ_jwe. Qed.
Print Assumptions C177_typ_jwe.
Theorem C177_typ_other : forall tok j h v, unpack (VStr tok) = Ok j -> shown_header tok (VDict h) -> dget h (lit "typ") = Some v -> (forall t, v <> VStr t) -> (forall b, v <> VBytes b) -> peek tok = Failed EAttributeError.
Proof. exact peek_typ_other. Qed.
Print Assumptions C177_typ_other.
Definition ex_typed : ustr := lit "eyJhbGciOiJIUzI1NiIsInR5cCI6IkpXRSJ9.aGVsbG8.M4rETS3TgTzFTUDbS75s3NsB013OckbxfDGhY6NUqo8".
Example C177_typ_ex : verify std (VStr ex_typed) [ex_key] false VNone = Ok (VStr (lit "hello")) /\ peek ex_typed = Printed [VStr (lit "jwe")].
Proof. split; vm_compute; reflexivity. Qed.
(** {"alg":"HS256","typ":1} *)
Example C177_other_ex : peek (lit "eyJhbGciOiJIUzI1NiIsInR5cCI6MX0.aGVsbG8.") = Failed EAttributeError.
Proof. vm_compute. reflexivity. Qed.
Example C177_jws_ex : verify std (VStr ex_tok) [ex_key] false VNone = Ok (VStr (lit "hello")) /\ shown_header ex_tok (VDict [(lit "alg", VStr (lit "HS256"))]) /\ shown_payload ex_tok (lit "hello") /\
  peek ex_tok = Printed [VStr (lit "jws"); VDict [(lit "alg", VStr (lit "HS256"))]; VBytes (lit "hello")].
Proof.
  split; [vm_compute; reflexivity|]. split; [exists (lit "{""alg"":""HS256""}"), (lit "{""alg"":""HS256""}"); repeat split; vm_compute; reflexivity|]. split; vm_compute; reflexivity.
Qed.
Example C177_jwe_ex : exists tok h, decrypt std (fun _ => []) (VStr tok) [ex_key] = Ok (lit "hello") /\ shown_header tok (VDict h) /\ dget h (lit "typ") = None /\
  (forall k, In k [ex_key] -> right_type (lit "oct") k -> forall o n, k_data k <> DRsa o n).
Proof.
  exists (lit "eyJhbGciOiJBMTI4S1ciLCJlbmMiOiJBMTI4Q0JDLUhTMjU2In0.YXKWeRohnePgTsRcBEkSqrFYCEvK9m6lBzzkQuQGpDN_OKJ9tcMj4w.AwQFBgcICQoLDA0ODxAREg.v_PfhedVgd_z8mkzBmatSw.GJ-BXPsZXfCqCEUFEElFXQ"), [(lit "alg", VStr (lit "A128KW")); (lit "enc", VStr (lit "A128CBC-HS256"))]. split; [vm_compute; reflexivity|]. split; [|split; [reflexivity|intros k [<-|[]] _ o n X; discriminate X]].
  exists (lit "{""alg"":""A128KW"",""enc"":""A128CBC-HS256""}"), (lit "{""alg"":""A128KW"",""enc"":""A128CBC-HS256""}"). repeat split; vm_compute; reflexivity.
Qed.

(** C178: jwk_create never stores a key pair: exportKey gives octets, the file takes text.  An empty file stays behind. *)
Theorem C178_jwk_create : forall files name pem, exists files', create_and_store files name pem = (files', Raise ETypeError) /\ dget files' (name ++ lit ".key") = Some [] /\
  forall n, n <> name ++ lit ".key" -> dget files' n = dget files n.
Proof. exact create_fails. Qed.
Print Assumptions C178_jwk_create.
Example C178_ex : create_and_store [(lit "a.key", lit "old")] (lit "a") (fun private => if private then lit "PRIVATE" else lit "PUBLIC") = ([(lit "a.key", [])], Raise ETypeError).
Proof. vm_compute. reflexivity. Qed.

(** C179: jwenc -X (a certificate at a URL) never prints a token *)
Theorem C179_jwenc_x509 : forall P R read imp stdin o lines, given (e_url o) = None -> given (e_jwk o) = None -> given (e_xurl o) <> None ->
  jwenc_main P R read imp stdin o <> Printed lines.
Proof. exact jwenc_x509_fails. Qed.
Print Assumptions C179_jwenc_x509.
Example C179_ex : jwenc_main std ex_draws no_read no_imp []
  {| e_url := None; e_jwk := None; e_xurl := Some (lit "https://example.org/cert"); e_xfile := None; e_rsa := None; e_alg := Some (lit "RSA-OAEP"); e_enc := Some (lit "A128GCM"); e_file := None; e_message := Some (lit "hello") |}
  = Failed ENoSuitableEncryptionKey.
Proof. vm_compute. reflexivity. Qed.

(** C186: messages in files and on the standard input.  [file_of o name] is [o] with -f name instead of a message. *)
Definition file_of (o : options) (name : ustr) : options :=
  {| o_sign := o_sign o; o_verify := o_verify o; o_encrypt := o_encrypt o; o_decrypt := o_decrypt o; o_file := Some name; o_rsa := o_rsa o; o_hmac := o_hmac o; o_alg := o_alg o;
     o_encalg := o_encalg o; o_encenc := o_encenc o; o_jwk := o_jwk o; o_jwks := o_jwks o; o_kid := o_kid o; o_type := o_type o; o_url := o_url o; o_message := None |}.
Definition says (o : options) (msg : ustr) : options :=
  {| o_sign := o_sign o; o_verify := o_verify o; o_encrypt := o_encrypt o; o_decrypt := o_decrypt o; o_file := None; o_rsa := o_rsa o; o_hmac := o_hmac o; o_alg := o_alg o;
     o_encalg := o_encalg o; o_encenc := o_encenc o; o_jwk := o_jwk o; o_jwks := o_jwks o; o_kid := o_kid o; o_type := o_type o; o_url := o_url o; o_message := Some msg |}.
(** jwkutil: line feeds around a message in a file do not matter *)
Theorem C186_jwkutil_file : forall P E R sent read imp stdin o name msg n1 n2, msg <> lit "-" -> (forall c, hd_error msg = Some c -> c <> 10) -> last msg 0 <> 10 ->
  name <> [] -> read name = Ok (repeat 10 n1 ++ msg ++ repeat 10 n2) ->
  jwkutil P E R sent read imp stdin (file_of o name) = jwkutil P E R sent read imp stdin (says o msg).
Proof.
  intros P E R sent read imp stdin o name msg n1 n2 ND H L NN RD. apply (util_file P E R sent read imp stdin (says o msg) name msg (repeat 10 n1) (repeat 10 n2) eq_refl eq_refl ND NN RD).
  - apply Forall_forall. intros x I. apply repeat_spec in I. left. auto.
  - apply Forall_forall. intros x I. apply repeat_spec in I. left. auto.
  - destruct msg as [|c r]; [exact I|]. split; [|intros [X|[]]; congruence]. intros [X|[]]. exact (H c eq_refl (eq_sym X)).
Qed.
Print Assumptions C186_jwkutil_file.
Theorem C186_jwkutil_stdin : forall P E R sent read imp stdin o, stdin <> lit "-" ->
  jwkutil P E R sent read imp stdin (says o (lit "-")) = jwkutil P E R sent read imp stdin (says o stdin).
Proof. exact util_stdin. Qed.
Print Assumptions C186_jwkutil_stdin.
(** jwenc takes a file as it is *)
Theorem C186_jwenc_file : forall P R read imp stdin o name msg, e_file o = None -> e_message o = Some msg -> msg <> lit "-" -> name <> [] -> read name = Ok msg ->
  jwenc_main P R read imp stdin {| e_url := e_url o; e_jwk := e_jwk o; e_xurl := e_xurl o; e_xfile := e_xfile o; e_rsa := e_rsa o; e_alg := e_alg o; e_enc := e_enc o; e_file := Some name; e_message := None |} =
  jwenc_main P R read imp stdin o.
Proof. exact jwenc_file. Qed.
Print Assumptions C186_jwenc_file.
(** jwdecrypt: what it prints for a token, it prints for a file with this token and any line ends around it *)
Theorem C186_jwdecrypt_file : forall P sent read imp url jwk rsa name tok m pre post,
  jwdecrypt P sent read imp {| d_url := url; d_jwk := jwk; d_rsa := rsa; d_file := None; d_message := Some tok |} = Printed [VBytes m] ->
  name <> [] -> read name = Ok (pre ++ tok ++ post) -> Forall (fun c => c = 10 \/ c = 13) pre -> Forall (fun c => c = 10 \/ c = 13) post ->
  jwdecrypt P sent read imp {| d_url := url; d_jwk := jwk; d_rsa := rsa; d_file := Some name; d_message := None |} = Printed [VBytes m].
Proof.
  intros P sent read imp url jwk rsa name tok m pre post H NN RD A B. apply (jwdecrypt_file P sent read imp {| d_url := url; d_jwk := jwk; d_rsa := rsa; d_file := None; d_message := Some tok |} name tok m pre post eq_refl eq_refl H NN RD).
  - revert A. apply Forall_impl. intros a [->| ->]; cbn [In]; auto.
  - revert B. apply Forall_impl. intros a [->| ->]; cbn [In]; auto.
Qed.
Print Assumptions C186_jwdecrypt_file.
Definition ex_files (n : ustr) : res ustr :=
  if zs_eqb n (lit "m") then Ok (lit "hello" ++ [10]) else if zs_eqb n (lit "t") then Ok (kw_tok ++ [13; 10])
  else if zs_eqb n (lit "k") then Ok (lit "{""keys"":[{""kty"":""oct"",""k"":""c2VjcmV0""}]}") else Raise EException.
Example C186_ex : jwkutil std ex_E ex_draws (fun _ => []) ex_files no_imp [] (file_of (sign_options (Secret (lit "secret")) (lit "HS256") None []) (lit "m")) = Printed [VStr ex_tok] /\
  jwkutil std ex_E ex_draws (fun _ => []) no_read no_imp ex_tok (says (verify_options (Secret (lit "secret")) []) (lit "-")) = Printed [VStr (lit "hello")] /\
  jwdecrypt std (fun _ => []) ex_files no_imp {| d_url := None; d_jwk := Some (lit "k"); d_rsa := None; d_file := Some (lit "t"); d_message := None |} = Printed [VBytes (lit "hi")].
Proof. split; [vm_compute; reflexivity|]. split; vm_compute; reflexivity. Qed.

(** C187: jwkutil does not strip its standard input, and print adds a line end: a token piped from one run into the next is
    never verified or decrypted, however the key and the options are chosen. *)
Theorem C187_pipe : forall P E R sent read imp o tok lines, o_sign o = false -> o_encrypt o = false ->
  jwkutil P E R sent read imp (tok ++ [10]) (says o (lit "-")) <> Printed lines.
Proof. intros P E R sent read imp o tok lines S N. exact (util_pipe P E R sent read imp (tok ++ [10]) o tok lines eq_refl S N). Qed.
Print Assumptions C187_pipe.
Example C187_ex : jwkutil std ex_E ex_draws (fun _ => []) no_read no_imp (ex_tok ++ [10]) (says (verify_options (Secret (lit "secret")) []) (lit "-")) = Failed EBinasciiError.
Proof. vm_compute. reflexivity. Qed.
