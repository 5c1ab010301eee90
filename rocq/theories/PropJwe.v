(** * Properties C48-C56, C59, C125-C145 and C182-C185: JSON Web Encryption (jwe.py).  Example tokens and the refuting cases are in JweEx.v. *)
From Coq Require Import ZArith Znumtheory List Bool Lia.
From Verif Require Import Base BaseProofs Utf8 Codec CodecProofs Json JsonProofs Jwt JwtProofs Prims Elliptic Ecc EccProofs EcAux KeyWrap KeyWrapProofs Extra ExtraProofs Gcm GcmSpec Rsa RsaProofs Certs PvalEq Jwk JwkProofs JwkProofs2 JwkEx Jws JwsProofs JwsProofs2 JwsProofs3 JwsProofs4 JwsProofs6 Inst Nist.
From Verif Require Import Jwe JweProofs JweProofs2 JweProofs3 JweProofs4 JweProofs5 JweProofs6 JweProofs7 JweProofs8 JweProofs9 JweProofs10 JweProofs11 JweProofs12 JweProofs13 JweProofs14 JweEx.
From Verif Require Import HistoryEx.
Import ListNotations.
Open Scope Z_scope.

(** C48: false, a tag with leading zero octets is shorter; C125 says what it is. *)
Theorem C48_short_tag_refuted : exists w keys cek iv tok w' h ek ivb ct tag, dget (w_dict w) (lit "enc") = Some (VStr (lit "A128GCM")) /\
  jwe_encrypt std ex_draws w (Some keys) cek iv None = Ok (tok, w') /\ tok = join 46 [h; ek; b64e ivb; b64e ct; b64e tag] /\ b64d (b64e tag) = Ok tag /\ length tag = 15%nat.
Proof. exact short_tag_refuted. Qed.
Print Assumptions C48_short_tag_refuted.
Example C48_ex : gcm_t std (long_to_bytes (be2z gcm_cek) 16) (z2be 12 (be2z gcm_iv)) gcm_head (gcm_c std (long_to_bytes (be2z gcm_cek) 16) (z2be 12 (be2z gcm_iv)) (lit "hi")) < 256 ^ 15.
Proof. rewrite gcm_t_value. reflexivity. Qed.

(** C49: whatever enc_setup made, _decrypt undoes; and for keys, IVs and messages of the prescribed sizes it does make something. *)
Theorem C49_content_inverse : forall P, aes_law P -> forall R enc msg aad key iv ct tag k, key <> [] -> iv <> [] -> bytes_ok key = true -> bytes_ok iv = true -> bytes_ok msg = true -> bytes_ok aad = true ->
  enc_setup P R enc msg aad key iv = Ok (ct, tag, k) -> k = key /\ content_decrypt P enc key ct aad iv tag = Ok msg.
Proof. exact content_inverse. Qed.
Print Assumptions C49_content_inverse.
Theorem C49_content_total : forall P, aes_law P -> forall R e kl il msg aad key iv, enc_sizes e = Some (kl, il) -> length key = kl -> length iv = il ->
  bytes_ok key = true -> bytes_ok iv = true -> bytes_ok msg = true -> bytes_ok aad = true ->
  Z.of_nat (length msg) <= 16 * 2 ^ 32 -> 8 * Z.of_nat (length aad) < 2 ^ 64 ->
  exists ct tag, enc_setup P R (VStr e) msg aad key iv = Ok (ct, tag, key) /\ content_decrypt P (VStr e) key ct aad iv tag = Ok msg.
Proof. exact content_total. Qed.
Print Assumptions C49_content_total.
Example C49_ex : forall e kl il, enc_sizes e = Some (kl, il) -> exists ct tag, enc_setup std ex_draws (VStr e) (lit "hello") (lit "header") (r_cek ex_draws kl) (r_iv ex_draws il) = Ok (ct, tag, r_cek ex_draws kl) /\
  content_decrypt std (VStr e) (r_cek ex_draws kl) ct (lit "header") (r_iv ex_draws il) tag = Ok (lit "hello").
Proof. intros e kl il E. apply (content_total std std_aes_law ex_draws e kl il); try apply octets_ok; try reflexivity; try assumption. apply Z.leb_le. reflexivity. Qed.
Example C49_encs : map enc_sizes SUPPORTED_ENC = [Some (32, 16); Some (48, 16); Some (64, 16); Some (16, 12); Some (24, 12); Some (32, 12)]%nat.
Proof. reflexivity. Qed.

(** C50: [seg tok 0] is the text of the token before its first dot. *)
Theorem C50_sender : forall P R, hash_law P -> draws_ok R -> forall w keys cek iv kw tok w', bytes_ok cek = true -> bytes_ok iv = true ->
  jwe_encrypt P R w keys cek iv kw = Ok (tok, w') ->
  exists h alg enc m key iv' ct tag rest,
    b64encode_item (VDict h) = Ok (seg tok 0) /\ dget h (lit "alg") = Some alg /\ dget h (lit "enc") = Some enc /\
    enc_setup P R enc m (seg tok 0) key iv' = Ok (ct, tag, key) /\ key <> [] /\ iv' <> [] /\
    mapM utf8_decode [b64e iv'; b64e ct; b64e tag] = Ok rest /\ exists ek, tok = join 46 (seg tok 0 :: ek :: rest).
Proof. exact header_protected. Qed.
Print Assumptions C50_sender.
Theorem C50_receiver : forall P, forall sent w token keys alg cek m w', truthy token = true -> jwe_decrypt P sent w token keys alg cek = Ok (m, w') ->
  exists tok h enc key ct iv tag m0, token_text token tok /\ header_of tok h /\ py_get h (lit "enc") = Ok enc /\
    b64d (seg tok 2) = Ok iv /\ b64d (seg tok 3) = Ok ct /\ b64d (seg tok 4) = Ok tag /\ content_decrypt P enc key ct (seg tok 0) iv tag = Ok m0 /\
    (m = m0 \/ p_decompress P m0 = Ok m).
Proof. exact header_checked. Qed.
Print Assumptions C50_receiver.
Example C50_ex : seg kw_tok 0 = b64e (lit "{""alg"":""A128KW"",""enc"":""A128CBC-HS256""}") /\ header_of kw_tok (VDict [(lit "alg", VStr (lit "A128KW")); (lit "enc", VStr (lit "A128CBC-HS256"))]).
Proof. split; [vm_compute; reflexivity|]. exists (lit "{""alg"":""A128KW"",""enc"":""A128CBC-HS256""}"), (lit "{""alg"":""A128KW"",""enc"":""A128CBC-HS256""}"). vm_compute. auto. Qed.

(** C51.  Missing from the full claim (false for the code): messages given as bytes with a wrapped key, EC keys without
    private value; see the refutations.  Hypotheses say that header values are JSON values, that a content key given by the
    caller can be wrapped, and for RSA1_5 that the random sentinel is not the content key. *)
Theorem C51_kw_partial : forall P R, aes_law P -> hmac_law P -> hash_law P -> draws_ok R -> forall w a keys k kid cek iv kw tok w', In a KW_ALGS -> dget (w_dict w) (lit "alg") = Some (VStr a) ->
  json_args w SYM_ARGS -> jsonable (k_kid k) = true -> (forall v, kw = Some v -> jsonable v = true) ->
  kid_in_force (as_jws w) = Ok kid -> first_fit (suitable (lit "oct") kid (VStr (lit "enc")) (VStr a)) keys k ->
  forall key kk, k_data k = DSym key kk -> (forall s, key = VBytes s -> bytes_ok s = true) -> bytes_ok cek = true -> bytes_ok iv = true -> wrappable cek ->
  jwe_encrypt P R w (Some keys) cek iv kw = Ok (tok, w') ->
  exists t m, w_msg w = VStr t /\ utf8_encode t = Ok m /\
  forall sent v keys' k' kid' alg token, kid_in_force (as_jws v) = Ok kid' -> first_fit (suitable (lit "oct") kid' (VStr (lit "enc")) (VStr a)) keys' k' -> k_data k' = k_data k ->
    alg = VNone \/ alg = VStr a -> token = VStr tok \/ token = VBytes tok ->
    jwe_decrypt P sent v token (Some keys') alg [] = Ok (m, w_set v (lit "cek") VNone).
Proof. exact jwe_sym_roundtrip. Qed.
Print Assumptions C51_kw_partial.
Theorem C51_rsa_partial : forall P R, aes_law P -> hmac_law P -> draws_ok R -> zip_law P -> forall w a keys k kid cek iv kw tok w', In a RSA_ALGS -> dget (w_dict w) (lit "alg") = Some (VStr a) ->
  json_args w JWE_ARGS -> jsonable (k_kid k) = true -> (forall kj s, w_jwk w = Some kj -> serialize kj false = Ok s -> jsonable s = true) ->
  kid_in_force (as_jws w) = Ok kid -> first_fit (suitable (lit "RSA") kid (VStr (lit "enc")) (VStr a)) keys k ->
  forall r nums r', k_data k = DRsa (ORsa r) nums -> for_key r r' -> rsa_enc_law P r' -> bytes_ok cek = true -> bytes_ok iv = true -> (forall b, w_msg w = VBytes b -> bytes_ok b = true) ->
  jwe_encrypt P R w (Some keys) cek iv kw = Ok (tok, w') ->
  exists p c, msg_octets (w_msg w) = Ok p /\ w' = w_set w (lit "cek") (VBytes c) /\ (cek <> [] -> c = cek) /\
  forall sent v keys' k' kid' alg token, kid_in_force (as_jws v) = Ok kid' -> first_fit (suitable (lit "RSA") kid' (VStr (lit "enc")) (VStr a)) keys' k' ->
    alg = VNone \/ alg = VStr a -> token = VStr tok \/ token = VBytes tok ->
    jwe_decrypt P sent v token (Some keys') alg c = Ok (p, w_set v (lit "cek") (VBytes c)) /\
    (forall nums', cek = [] -> k_data k' = DRsa (ORsa r') nums' -> (a = lit "RSA1_5" -> sent 1%nat <> c) ->
      jwe_decrypt P sent v token (Some keys') alg [] = Ok (p, w_set v (lit "cek") (VBytes c))).
Proof. exact jwe_rsa_roundtrip. Qed.
Print Assumptions C51_rsa_partial.
Theorem C51_ecdh_partial : forall P R, aes_law P -> hmac_law P -> hash_law P -> draws_ok R -> forall name c, by_name name = Ok c -> forall w a keys k kid cek iv kw tok w' o crv kx ky d cv dz, In a EC_ALGS -> dget (w_dict w) (lit "alg") = Some (VStr a) ->
  json_args w SYM_ARGS -> jsonable (k_kid k) = true -> (forall v, kw = Some v -> jsonable v = true) ->
  kid_in_force (as_jws w) = Ok kid -> first_fit (suitable (lit "EC") kid (VStr (lit "enc")) (VStr a)) keys k ->
  k_data k = DEc o crv (VInt kx) (VInt ky) d cv -> curve_by_name crv = Ok c -> 0 < dz < c_N c -> public_key_for c dz = Some (kx, ky) -> epk_for c w ->
  (forall b, dget (w_dict w) (lit "cek") = Some (VBytes b) -> bytes_ok b = true /\ wrappable b) -> (forall b, w_msg w = VBytes b -> bytes_ok b = true) ->
  jwe_encrypt P R w (Some keys) cek iv kw = Ok (tok, w') ->
  exists p, msg_octets (w_msg w) = Ok p /\
  forall sent v keys' k' kid' alg token cek' o' crv' x' y' cv', kid_in_force (as_jws v) = Ok kid' -> first_fit (suitable (lit "EC") kid' (VStr (lit "enc")) (VStr a)) keys' k' ->
    k_data k' = DEc o' crv' x' y' (VInt dz) cv' -> alg = VNone \/ alg = VStr a -> token = VStr tok \/ token = VBytes tok ->
    jwe_decrypt P sent v token (Some keys') alg cek' = Ok (p, w_set v (lit "cek") VNone).
Proof. exact jwe_ec_roundtrip. Qed.
Print Assumptions C51_ecdh_partial.
Theorem C51_bytes_refuted : jwe_encrypt std ex_draws (ex_jwe (lit "A128KW") (lit "A128CBC-HS256") (VBytes (lit "hi"))) (Some [raw_sym (lit "secret")]) [] [] None = Raise EAttributeError.
Proof. exact kw_bytes_refuted. Qed.
Print Assumptions C51_bytes_refuted.
Theorem C51_public_refuted : jwe_encrypt std ex_draws (ec_jwe (lit "ECDH-ES")) (Some [public_ec]) [] [] None = Raise EValueError.
Proof. exact ec_public_refuted. Qed.
Print Assumptions C51_public_refuted.
Example C51_ex_kw : jwe_encrypt std ex_draws kw_jwe (Some [raw_sym (lit "secret")]) [] [] None = Ok (kw_tok, w_set kw_jwe (lit "cek") VNone) /\
  forall sent, jwe_decrypt std sent new_jwe (VStr kw_tok) (Some [raw_sym (lit "secret")]) VNone [] = Ok (lit "hi", w_set new_jwe (lit "cek") VNone).
Proof. split; [exact kw_made|exact kw_opens]. Qed.
Example C51_ex_rsa : forall a, In a RSA_ALGS -> exists tok c, jwe_encrypt std ex_draws (rsa_jwe a) (Some [enc_rsa]) [] [] None = Ok (tok, w_set (rsa_jwe a) (lit "cek") (VBytes c)) /\
  forall sent alg, sent 1%nat <> c -> alg = VNone \/ alg = VStr a -> jwe_decrypt std sent new_jwe (VStr tok) (Some [enc_rsa]) alg [] = Ok ([104; 105; 200], w_set new_jwe (lit "cek") (VBytes c)).
Proof. exact rsa_opens. Qed.
Example C51_ex_ecdh : forall a, In a EC_ALGS -> exists tok, jwe_encrypt std ex_draws (ec_jwe a) (Some [ex_ec]) [] [] None = Ok (tok, w_set (ec_jwe a) (lit "cek") VNone) /\
  forall sent, jwe_decrypt std sent new_jwe (VStr tok) (Some [ex_ec]) VNone [] = Ok ([104; 195; 169; 105], w_set new_jwe (lit "cek") VNone).
Proof. exact ec_opens. Qed.

(** C52: true for RSA1_5 when the keys before it fail by their padding; false for wrapped keys, and see C135. *)
Theorem C52_skips_partial : forall P, forall sent sent' v token k alg m c j ek kid pre post, truthy token = true ->
  jwe_decrypt P sent v token (Some [k]) alg [] = Ok (m, w_set v (lit "cek") (VBytes c)) ->
  unpack token = Ok j -> py_get (j_headers j) (lit "alg") = Ok (VStr (lit "RSA1_5")) -> nth_error (j_part j) 1 = Some (VBytes ek) -> kid_in_force (as_jws v) = Ok kid ->
  Forall (passes P ek) pre -> (forall n, sent' n <> c) ->
  jwe_decrypt P sent' v token (Some (pre ++ k :: post)) alg [] = Ok (m, w_set v (lit "cek") (VBytes c)).
Proof. exact decrypt_skips. Qed.
Print Assumptions C52_skips_partial.
Theorem C52_second_key_refuted : forall sent, jwe_decrypt std sent new_jwe (VStr kw_tok) (Some [raw_sym (lit "other"); raw_sym (lit "secret")]) VNone [] = Raise EValueError.
Proof. exact kw_second_refuted. Qed.
Print Assumptions C52_second_key_refuted.
Example C52_ex : exists tok c, jwe_encrypt std ex_draws (rsa_jwe (lit "RSA1_5")) (Some [enc_rsa]) [] [] None = Ok (tok, w_set (rsa_jwe (lit "RSA1_5")) (lit "cek") (VBytes c)) /\
  exists j ek, unpack (VStr tok) = Ok j /\ py_get (j_headers j) (lit "alg") = Ok (VStr (lit "RSA1_5")) /\ nth_error (j_part j) 1 = Some (VBytes ek) /\ passes std ek bad_rsa /\
  forall sent, (forall n, sent n <> c) -> jwe_decrypt std sent new_jwe (VStr tok) (Some [bad_rsa; enc_rsa]) VNone [] = Ok ([104; 105; 200], w_set new_jwe (lit "cek") (VBytes c)).
Proof. exact second_rsa. Qed.

(** C53 *)
Theorem C53_alg_honoured : forall P, forall sent w token keys alg cek m w', truthy token = true -> truthy alg = true -> jwe_decrypt P sent w token keys alg cek = Ok (m, w') ->
  exists tok h, token_text token tok /\ header_of tok h /\ py_get h (lit "alg") = Ok alg.
Proof. exact alg_honoured. Qed.
Print Assumptions C53_alg_honoured.
Example C53_ex : forall sent, jwe_decrypt std sent new_jwe (VStr kw_tok) (Some [raw_sym (lit "secret")]) (VStr (lit "A256KW")) [] = Raise EWrongEncryptionAlgorithm.
Proof. intro sent. vm_compute. reflexivity. Qed.

(** C54: at least five are needed, and exactly five if the key is wrapped; with RSA (and ECDH-ES, C131) further ones are ignored. *)
Theorem C54_at_least_five_partial : forall P, forall sent w token keys alg cek m w', truthy token = true -> jwe_decrypt P sent w token keys alg cek = Ok (m, w') ->
  exists tok, token_text token tok /\ (5 <= length (split 46 tok))%nat.
Proof. exact at_least_five. Qed.
Print Assumptions C54_at_least_five_partial.
Theorem C54_wrapped_key_partial : forall P, forall sent w token keys alg cek m w' tok h a, truthy token = true -> jwe_decrypt P sent w token keys alg cek = Ok (m, w') ->
  token_text token tok -> header_of tok h -> py_get h (lit "alg") = Ok (VStr a) -> startswith a (lit "A") = true -> ends_KW a = true -> length (split 46 tok) = 5%nat.
Proof. exact sym_exactly_five. Qed.
Print Assumptions C54_wrapped_key_partial.
Theorem C54_six_refuted : exists sent tok keys m w', (6 <= length (split 46 tok))%nat /\ jwe_decrypt std sent new_jwe (VStr tok) (Some keys) (VStr (lit "RSA-OAEP")) [] = Ok (m, w').
Proof. exact further_segment_refuted. Qed.
Print Assumptions C54_six_refuted.
Example C54_ex : forall sent, jwe_decrypt std sent new_jwe (VStr (kw_tok ++ lit ".AA")) (Some [raw_sym (lit "secret")]) VNone [] = Raise EWrongNumberOfParts.
Proof. intro sent. vm_compute. reflexivity. Qed.

(** C55: RSA compresses and decompresses; the other families ignore the option on encryption. *)
Theorem C55_rsa_compresses : forall P R, draws_ok R -> forall w keys cek iv kw a tok w', bytes_ok cek = true -> bytes_ok iv = true -> In a RSA_ALGS -> dget (w_dict w) (lit "alg") = Some (VStr a) ->
  dget (w_dict w) (lit "zip") = Some (VStr (lit "DEF")) ->
  jwe_encrypt P R w keys cek iv kw = Ok (tok, w') ->
  exists p enc key iv' ct tag rest, msg_octets (w_msg w) = Ok p /\ dget (w_dict w) (lit "enc") = Some enc /\ enc_setup P R enc (p_compress P p) (seg tok 0) key iv' = Ok (ct, tag, key) /\
    mapM utf8_decode [b64e iv'; b64e ct; b64e tag] = Ok rest /\ exists ek, tok = join 46 (seg tok 0 :: ek :: rest).
Proof. exact rsa_compressed. Qed.
Print Assumptions C55_rsa_compresses.
Theorem C55_rsa_decompresses : forall P R, aes_law P -> hmac_law P -> draws_ok R -> zip_law P -> forall w a keys k kid cek iv kw tok w', In a RSA_ALGS -> dget (w_dict w) (lit "alg") = Some (VStr a) ->
  dget (w_dict w) (lit "zip") = Some (VStr (lit "DEF")) -> json_args w JWE_ARGS -> jsonable (k_kid k) = true -> (forall kj s, w_jwk w = Some kj -> serialize kj false = Ok s -> jsonable s = true) ->
  kid_in_force (as_jws w) = Ok kid -> first_fit (suitable (lit "RSA") kid (VStr (lit "enc")) (VStr a)) keys k ->
  forall r nums r', k_data k = DRsa (ORsa r) nums -> for_key r r' -> rsa_enc_law P r' -> bytes_ok cek = true -> bytes_ok iv = true -> (forall b, w_msg w = VBytes b -> bytes_ok b = true) ->
  jwe_encrypt P R w (Some keys) cek iv kw = Ok (tok, w') ->
  exists p c, msg_octets (w_msg w) = Ok p /\ w' = w_set w (lit "cek") (VBytes c) /\ (cek <> [] -> c = cek) /\
  forall sent v keys' k' kid' alg token, kid_in_force (as_jws v) = Ok kid' -> first_fit (suitable (lit "RSA") kid' (VStr (lit "enc")) (VStr a)) keys' k' ->
    alg = VNone \/ alg = VStr a -> token = VStr tok \/ token = VBytes tok ->
    jwe_decrypt P sent v token (Some keys') alg c = Ok (p, w_set v (lit "cek") (VBytes c)) /\
    (forall nums', cek = [] -> k_data k' = DRsa (ORsa r') nums' -> (a = lit "RSA1_5" -> sent 1%nat <> c) ->
      jwe_decrypt P sent v token (Some keys') alg [] = Ok (p, w_set v (lit "cek") (VBytes c))).
Proof. intros P R AES HM DR ZIP w a keys k kid cek iv kw tok w' IA AL _. exact (jwe_rsa_roundtrip P R AES HM DR ZIP w a keys k kid cek iv kw tok w' IA AL). Qed.
Print Assumptions C55_rsa_decompresses.
Theorem C55_kw_ignores : forall P R, aes_law P -> hmac_law P -> hash_law P -> draws_ok R -> forall w a keys k kid cek iv kw tok w', In a KW_ALGS -> dget (w_dict w) (lit "alg") = Some (VStr a) ->
  dget (w_dict w) (lit "zip") = Some (VStr (lit "DEF")) -> json_args w SYM_ARGS -> jsonable (k_kid k) = true -> (forall v, kw = Some v -> jsonable v = true) ->
  kid_in_force (as_jws w) = Ok kid -> first_fit (suitable (lit "oct") kid (VStr (lit "enc")) (VStr a)) keys k ->
  forall key kk, k_data k = DSym key kk -> (forall s, key = VBytes s -> bytes_ok s = true) -> bytes_ok cek = true -> bytes_ok iv = true -> wrappable cek ->
  jwe_encrypt P R w (Some keys) cek iv kw = Ok (tok, w') ->
  exists t m, w_msg w = VStr t /\ utf8_encode t = Ok m /\
  forall sent v keys' k' kid' alg token, kid_in_force (as_jws v) = Ok kid' -> first_fit (suitable (lit "oct") kid' (VStr (lit "enc")) (VStr a)) keys' k' -> k_data k' = k_data k ->
    alg = VNone \/ alg = VStr a -> token = VStr tok \/ token = VBytes tok ->
    jwe_decrypt P sent v token (Some keys') alg [] = Ok (m, w_set v (lit "cek") VNone).
Proof. intros P R AES HM HL DR w a keys k kid cek iv kw tok w' IA AL _. exact (jwe_sym_roundtrip P R AES HM HL DR w a keys k kid cek iv kw tok w' IA AL). Qed.
Print Assumptions C55_kw_ignores.
Theorem C55_ecdh_ignores : forall P R, aes_law P -> hmac_law P -> hash_law P -> draws_ok R -> forall name c, by_name name = Ok c -> forall w a keys k kid cek iv kw tok w' o crv kx ky d cv dz, In a EC_ALGS -> dget (w_dict w) (lit "alg") = Some (VStr a) ->
  dget (w_dict w) (lit "zip") = Some (VStr (lit "DEF")) -> json_args w SYM_ARGS -> jsonable (k_kid k) = true -> (forall v, kw = Some v -> jsonable v = true) ->
  kid_in_force (as_jws w) = Ok kid -> first_fit (suitable (lit "EC") kid (VStr (lit "enc")) (VStr a)) keys k ->
  k_data k = DEc o crv (VInt kx) (VInt ky) d cv -> curve_by_name crv = Ok c -> 0 < dz < c_N c -> public_key_for c dz = Some (kx, ky) -> epk_for c w ->
  (forall b, dget (w_dict w) (lit "cek") = Some (VBytes b) -> bytes_ok b = true /\ wrappable b) -> (forall b, w_msg w = VBytes b -> bytes_ok b = true) ->
  jwe_encrypt P R w (Some keys) cek iv kw = Ok (tok, w') ->
  exists p, msg_octets (w_msg w) = Ok p /\
  forall sent v keys' k' kid' alg token cek' o' crv' x' y' cv', kid_in_force (as_jws v) = Ok kid' -> first_fit (suitable (lit "EC") kid' (VStr (lit "enc")) (VStr a)) keys' k' ->
    k_data k' = DEc o' crv' x' y' (VInt dz) cv' -> alg = VNone \/ alg = VStr a -> token = VStr tok \/ token = VBytes tok ->
    jwe_decrypt P sent v token (Some keys') alg cek' = Ok (p, w_set v (lit "cek") VNone).
Proof. intros P R AES HM HL DR name c BN w a keys k kid cek iv kw tok w' o crv kx ky d cv dz IA AL _. exact (jwe_ec_roundtrip P R AES HM HL DR name c BN w a keys k kid cek iv kw tok w' o crv kx ky d cv dz IA AL). Qed.
Print Assumptions C55_ecdh_ignores.
Example C55_ex : dget (w_dict (rsa_jwe (lit "RSA-OAEP"))) (lit "zip") = Some (VStr (lit "DEF")) /\ exists tok c, jwe_encrypt std ex_draws (rsa_jwe (lit "RSA-OAEP")) (Some [enc_rsa]) [] [] None = Ok (tok, w_set (rsa_jwe (lit "RSA-OAEP")) (lit "cek") (VBytes c)).
Proof. split; [reflexivity|]. apply rsa_made. left. reflexivity. Qed.

(** C56: false in one case: an unknown algorithm is not noticed if the caller gives both values. *)
Theorem C56_known : forall R e kl il cek iv, draws_ok R -> enc_sizes e = Some (kl, il) ->
  exists k v, generate_key_and_iv R (VStr e) cek iv = Ok (k, v) /\
    (cek <> [] -> k = cek) /\ (cek = [] -> length k = kl /\ bytes_ok k = true) /\
    (iv <> [] -> v = iv) /\ (iv = [] -> length v = il /\ bytes_ok v = true).
Proof. exact generate_known. Qed.
Print Assumptions C56_known.
Theorem C56_unknown_partial : forall R enc cek iv,
  (forall e, enc = VStr e -> enc_sizes e = None) ->
  (cek <> [] /\ iv <> [] /\ generate_key_and_iv R enc cek iv = Ok (cek, iv)) \/
  ((cek = [] \/ iv = []) /\ exists x, generate_key_and_iv R enc cek iv = Raise x).
Proof. exact generate_unknown. Qed.
Print Assumptions C56_unknown_partial.
Theorem C56_unknown_refuted : exists e cek iv, enc_sizes e = None /\ forall R, generate_key_and_iv R (VStr e) cek iv = Ok (cek, iv).
Proof. exists (lit "bogus"), [1], [2]. split; reflexivity. Qed.
Print Assumptions C56_unknown_refuted.
Example C56_ex : generate_key_and_iv ex_draws (VStr (lit "A128CBC-HS256")) [] [7] = Ok (map Z.of_nat (seq 1 32), [7]) /\ generate_key_and_iv ex_draws (VStr (lit "A512GCM")) [] [7] = Raise EException.
Proof. split; reflexivity. Qed.

(** C59: [derive] is ecdh_derive_key; at the level of tokens, what dec_setup derives is what enc_setup derived. *)
Theorem C59_derive_same : forall P, forall name c, by_name name = Ok c -> forall a b ax ay bx by' apu apv alg n, 0 < a < c_N c -> 0 < b < c_N c ->
  public_key_for c a = Some (ax, ay) -> public_key_for c b = Some (bx, by') ->
  derive P c (VInt a) (VInt bx) (VInt by') apu apv alg n = derive P c (VInt b) (VInt ax) (VInt ay) apu apv alg n.
Proof. exact derive_same. Qed.
Print Assumptions C59_derive_same.
Theorem C59_agree : forall P R, aes_law P -> hash_law P -> draws_ok R -> forall name c, by_name name = Ok c -> forall w k a o crv kx ky d cv dz cek ek iv params, In a EC_ALGS -> dget (w_dict w) (lit "alg") = Some (VStr a) ->
  k_data k = DEc o crv (VInt kx) (VInt ky) d cv -> curve_by_name crv = Ok c -> 0 < dz < c_N c -> public_key_for c dz = Some (kx, ky) -> epk_for c w ->
  (forall b, dget (w_dict w) (lit "cek") = Some (VBytes b) -> bytes_ok b = true /\ wrappable b) ->
  ec_enc_setup P R w k = Ok (cek, ek, iv, params) ->
  exists ekb params', octets_ek ek ekb /\ b2s_conv (VDict params) = Ok (VDict params') /\
  forall j h o' crv' x' y' cv' k' hb ivb ct tag, j_headers j = VDict h -> dget h (lit "alg") = Some (VStr a) -> dget h (lit "enc") = dget (w_dict w) (lit "enc") ->
    (forall n, In n [lit "apu"; lit "apv"; lit "epk"] -> dget h n = dget params' n) -> firstn 5 (j_part j) = map VBytes [hb; ekb; ivb; ct; tag] ->
    k_data k' = DEc o' crv' x' y' (VInt dz) cv' -> ec_dec_setup P j k' = Ok cek.
Proof. exact ecdh_agree. Qed.
Print Assumptions C59_agree.
Example C59_ex : public_key_for P256 1 = Some (c_G P256) /\ by_name (lit "P-256") = Ok P256 /\ exists t, jwe_encrypt std ex_draws (ec_jwe (lit "ECDH-ES+A128KW")) (Some [ex_ec]) [] [] None = Ok (t, w_set (ec_jwe (lit "ECDH-ES+A128KW")) (lit "cek") VNone).
Proof. split; [vm_compute; reflexivity|]. split; [reflexivity|]. apply ec_made. right. left. reflexivity. Qed.

(** C125: the tag segment of a GCM token is the tag as a number in its shortest form, one to sixteen octets. *)
Theorem C125_tag_form : forall P R, aes_law P -> hmac_law P -> draws_ok R -> forall w keys cek iv kw tok w' a e, bytes_ok cek = true -> bytes_ok iv = true ->
  dget (w_dict w) (lit "alg") = Some (VStr a) -> In a KW_ALGS -> dget (w_dict w) (lit "enc") = Some (VStr e) -> in_texts (VStr e) GCM_ENCS = true ->
  jwe_encrypt P R w keys cek iv kw = Ok (tok, w') ->
  exists t m key iv' ek ct tag, w_msg w = VStr t /\ utf8_encode t = Ok m /\ (cek <> [] -> key = cek) /\ (iv <> [] -> iv' = iv) /\
    tok = join 46 [seg tok 0; ek; b64e iv'; b64e ct; b64e tag] /\ bytes_ok tag = true /\
    (exists ks k r, jws_keys P (as_jws w) keys = Ok ks /\ pick_keys (as_jws w) ks (VStr (lit "enc")) (VStr []) = Ok (k :: r) /\
      b64encode_item (VDict (kid_dict kw (named_dict k (sub_dict w SYM_ARGS)))) = Ok (seg tok 0)) /\
    (8 * Z.of_nat (length (seg tok 0)) < 2 ^ 64 ->
      ct = gcm_c P (long_to_bytes (be2z key) 16) (z2be 12 (be2z iv')) m /\
      be2z tag = gcm_t P (long_to_bytes (be2z key) 16) (z2be 12 (be2z iv')) (seg tok 0) ct /\
      (1 <= length tag <= 16)%nat /\ (hd 0 tag = 0 -> be2z tag = 0)).
Proof. exact sym_token_tag. Qed.
Print Assumptions C125_tag_form.
Theorem C125_tag_form_content : forall P, aes_law P -> forall R enc msg aad key iv ct tag k, in_texts enc GCM_ENCS = true -> bytes_ok msg = true -> bytes_ok aad = true ->
  bytes_ok key = true -> bytes_ok iv = true -> key <> [] -> iv <> [] ->
  8 * Z.of_nat (length aad) < 2 ^ 64 ->
  enc_setup P R enc msg aad key iv = Ok (ct, tag, k) ->
  let t := gcm_t P (long_to_bytes (be2z key) 16) (z2be 12 (be2z iv)) aad ct in
  ct = gcm_c P (long_to_bytes (be2z key) 16) (z2be 12 (be2z iv)) msg /\
  be2z tag = t /\ (1 <= length tag <= 16)%nat /\ (hd 0 tag = 0 -> t = 0).
Proof. exact gcm_tag_form. Qed.
Print Assumptions C125_tag_form_content.
Example C125_ex : in_texts (VStr (lit "A128GCM")) GCM_ENCS = true /\ exists tok, jwe_encrypt std ex_draws gcm_jwe (Some [raw_sym (lit "secret")]) gcm_cek gcm_iv None = Ok (tok, w_set gcm_jwe (lit "cek") VNone).
Proof. split; [reflexivity|exact gcm_made]. Qed.

(** C126-C128: the round trips under the conditions that hold for the code. *)
Theorem C126_kw_roundtrip : forall P R, aes_law P -> hmac_law P -> hash_law P -> draws_ok R -> forall w a keys k kid cek iv kw tok w', In a KW_ALGS -> dget (w_dict w) (lit "alg") = Some (VStr a) ->
  json_args w SYM_ARGS -> jsonable (k_kid k) = true -> (forall v, kw = Some v -> jsonable v = true) ->
  kid_in_force (as_jws w) = Ok kid -> first_fit (suitable (lit "oct") kid (VStr (lit "enc")) (VStr a)) keys k ->
  forall key kk, k_data k = DSym key kk -> (forall s, key = VBytes s -> bytes_ok s = true) -> bytes_ok cek = true -> bytes_ok iv = true -> wrappable cek ->
  jwe_encrypt P R w (Some keys) cek iv kw = Ok (tok, w') ->
  exists t m, w_msg w = VStr t /\ utf8_encode t = Ok m /\
  forall sent v keys' k' kid' alg token, kid_in_force (as_jws v) = Ok kid' -> first_fit (suitable (lit "oct") kid' (VStr (lit "enc")) (VStr a)) keys' k' -> k_data k' = k_data k ->
    alg = VNone \/ alg = VStr a -> token = VStr tok \/ token = VBytes tok ->
    jwe_decrypt P sent v token (Some keys') alg [] = Ok (m, w_set v (lit "cek") VNone).
Proof. exact jwe_sym_roundtrip. Qed.
Print Assumptions C126_kw_roundtrip.
Example C126_ex : forall sent, jwe_decrypt std sent new_jwe (VStr kw_tok) (Some [raw_sym (lit "secret")]) VNone [] = Ok (lit "hi", w_set new_jwe (lit "cek") VNone).
Proof. exact kw_opens. Qed.
Theorem C127_rsa_roundtrip : forall P R, aes_law P -> hmac_law P -> draws_ok R -> zip_law P -> forall w a keys k kid cek iv kw tok w', In a RSA_ALGS -> dget (w_dict w) (lit "alg") = Some (VStr a) ->
  json_args w JWE_ARGS -> jsonable (k_kid k) = true -> (forall kj s, w_jwk w = Some kj -> serialize kj false = Ok s -> jsonable s = true) ->
  kid_in_force (as_jws w) = Ok kid -> first_fit (suitable (lit "RSA") kid (VStr (lit "enc")) (VStr a)) keys k ->
  forall r nums r', k_data k = DRsa (ORsa r) nums -> for_key r r' -> rsa_enc_law P r' -> bytes_ok cek = true -> bytes_ok iv = true -> (forall b, w_msg w = VBytes b -> bytes_ok b = true) ->
  jwe_encrypt P R w (Some keys) cek iv kw = Ok (tok, w') ->
  exists p c, msg_octets (w_msg w) = Ok p /\ w' = w_set w (lit "cek") (VBytes c) /\ (cek <> [] -> c = cek) /\
  forall sent v keys' k' kid' alg token, kid_in_force (as_jws v) = Ok kid' -> first_fit (suitable (lit "RSA") kid' (VStr (lit "enc")) (VStr a)) keys' k' ->
    alg = VNone \/ alg = VStr a -> token = VStr tok \/ token = VBytes tok ->
    jwe_decrypt P sent v token (Some keys') alg c = Ok (p, w_set v (lit "cek") (VBytes c)) /\
    (forall nums', cek = [] -> k_data k' = DRsa (ORsa r') nums' -> (a = lit "RSA1_5" -> sent 1%nat <> c) ->
      jwe_decrypt P sent v token (Some keys') alg [] = Ok (p, w_set v (lit "cek") (VBytes c))).
Proof. exact jwe_rsa_roundtrip. Qed.
Print Assumptions C127_rsa_roundtrip.
Example C127_ex : rsa_wf enc_rsakey /\ rsa_enc_law std enc_rsakey.
Proof. split; [exact enc_rsa_wf|]. apply std_rsa_enc_law. exact enc_rsa_wf. Qed.
Theorem C128_ecdh_roundtrip : forall P R, aes_law P -> hmac_law P -> hash_law P -> draws_ok R -> forall name c, by_name name = Ok c -> forall w a keys k kid cek iv kw tok w' o crv kx ky d cv dz, In a EC_ALGS -> dget (w_dict w) (lit "alg") = Some (VStr a) ->
  json_args w SYM_ARGS -> jsonable (k_kid k) = true -> (forall v, kw = Some v -> jsonable v = true) ->
  kid_in_force (as_jws w) = Ok kid -> first_fit (suitable (lit "EC") kid (VStr (lit "enc")) (VStr a)) keys k ->
  k_data k = DEc o crv (VInt kx) (VInt ky) d cv -> curve_by_name crv = Ok c -> 0 < dz < c_N c -> public_key_for c dz = Some (kx, ky) -> epk_for c w ->
  (forall b, dget (w_dict w) (lit "cek") = Some (VBytes b) -> bytes_ok b = true /\ wrappable b) -> (forall b, w_msg w = VBytes b -> bytes_ok b = true) ->
  jwe_encrypt P R w (Some keys) cek iv kw = Ok (tok, w') ->
  exists p, msg_octets (w_msg w) = Ok p /\
  forall sent v keys' k' kid' alg token cek' o' crv' x' y' cv', kid_in_force (as_jws v) = Ok kid' -> first_fit (suitable (lit "EC") kid' (VStr (lit "enc")) (VStr a)) keys' k' ->
    k_data k' = DEc o' crv' x' y' (VInt dz) cv' -> alg = VNone \/ alg = VStr a -> token = VStr tok \/ token = VBytes tok ->
    jwe_decrypt P sent v token (Some keys') alg cek' = Ok (p, w_set v (lit "cek") VNone).
Proof. exact jwe_ec_roundtrip. Qed.
Print Assumptions C128_ecdh_roundtrip.
Example C128_ex : forall a, In a EC_ALGS -> exists tok, jwe_encrypt std ex_draws (ec_jwe a) (Some [ex_ec]) [] [] None = Ok (tok, w_set (ec_jwe a) (lit "cek") VNone).
Proof. exact ec_made. Qed.

(** C129: encryption succeeds. *)
Theorem C129_kw_encrypts : forall P R, aes_law P -> hmac_law P -> hash_law P -> draws_ok R -> forall w a e kl il t m keys k kid cek iv kw s kk, In a KW_ALGS -> dget (w_dict w) (lit "alg") = Some (VStr a) -> dget (w_dict w) (lit "enc") = Some (VStr e) ->
  enc_sizes e = Some (kl, il) -> w_jwk w = None -> w_msg w = VStr t -> utf8_encode t = Ok m -> Z.of_nat (length m) <= 16 * 2 ^ 32 ->
  json_args w SYM_ARGS -> jsonable (k_kid k) = true -> (forall v, kw = Some v -> jsonable v = true) -> header_small (kid_dict kw (named_dict k (sub_dict w SYM_ARGS))) ->
  kid_in_force (as_jws w) = Ok kid -> first_fit (suitable (lit "oct") kid (VStr (lit "enc")) (VStr a)) keys k ->
  k_data k = DSym (VBytes s) kk -> bytes_ok s = true -> s <> [] -> sized cek kl -> sized iv il ->
  exists tok, jwe_encrypt P R w (Some keys) cek iv kw = Ok (tok, w_set w (lit "cek") VNone).
Proof. exact sym_encrypts. Qed.
Print Assumptions C129_kw_encrypts.
Theorem C129_rsa_encrypts : forall P R, aes_law P -> hmac_law P -> draws_ok R -> zip_law P -> forall w a e kl il p m keys k kid cek iv kw r nums, In a RSA_ALGS -> dget (w_dict w) (lit "alg") = Some (VStr a) -> dget (w_dict w) (lit "enc") = Some (VStr e) ->
  enc_sizes e = Some (kl, il) -> w_jwk w = None -> dget (w_dict w) (lit "jwk") = None -> w_epk w = None -> msg_bytes (w_msg w) = Ok (VBytes p) -> bytes_ok p = true -> zip_choice P w p m -> Z.of_nat (length m) <= 16 * 2 ^ 32 ->
  json_args w JWE_ARGS -> jsonable (k_kid k) = true -> kid_text w k -> header_small (headers_loop (named_dict k (sub_dict w JWE_ARGS)) None JWE_ARGS) ->
  kid_in_force (as_jws w) = Ok kid -> first_fit (suitable (lit "RSA") kid (VStr (lit "enc")) (VStr a)) keys k ->
  k_data k = DRsa (ORsa r) nums ->
  (forall s c, rsa_scheme (VStr a) = Some s -> length c = kl -> bytes_ok c = true -> exists ek, p_rsa_encrypt P s r (r_pad R) c = Ok ek /\ bytes_ok ek = true) ->
  sized cek kl -> sized iv il ->
  exists tok c, jwe_encrypt P R w (Some keys) cek iv kw = Ok (tok, w_set w (lit "cek") (VBytes c)).
Proof. exact rsa_encrypts. Qed.
Print Assumptions C129_rsa_encrypts.
Theorem C129_ecdh_encrypts : forall P R, aes_law P -> hmac_law P -> hash_law P -> draws_ok R -> forall name c, by_name name = Ok c -> forall w a e kl il p keys k kid cek iv kw o crv kx ky d cv dz, In a EC_ALGS -> dget (w_dict w) (lit "alg") = Some (VStr a) -> dget (w_dict w) (lit "enc") = Some (VStr e) ->
  enc_sizes e = Some (kl, il) -> w_jwk w = None -> w_epk w = None -> (forall n, In n [lit "epk"; lit "apu"; lit "apv"; lit "cek"] -> dget (w_dict w) n = None) ->
  msg_bytes (w_msg w) = Ok (VBytes p) -> bytes_ok p = true -> Z.of_nat (length p) <= 16 * 2 ^ 32 ->
  json_args w SYM_ARGS -> jsonable (k_kid k) = true -> (forall v, kw = Some v -> jsonable v = true) ->
  (forall b, published R c b -> header_small (ec_header (kid_dict kw (named_dict k (sub_dict w SYM_ARGS))) (VBytes (b64e (r_apu R))) (VBytes (b64e (r_apv R))) (VDict b))) ->
  kid_in_force (as_jws w) = Ok kid -> first_fit (suitable (lit "EC") kid (VStr (lit "enc")) (VStr a)) keys k ->
  k_data k = DEc o crv (VInt kx) (VInt ky) d cv -> truthy d = true -> curve_by_name crv = Ok c -> 0 < dz < c_N c -> public_key_for c dz = Some (kx, ky) ->
  (forall d x y, key_pair c (r_eph R) = (d, Some (x, y)) -> 0 < x /\ 0 < y) ->
  exists tok, jwe_encrypt P R w (Some keys) cek iv kw = Ok (tok, w_set w (lit "cek") VNone).
Proof. exact ec_encrypts. Qed.
Print Assumptions C129_ecdh_encrypts.
Example C129_ex : forall a, In a RSA_ALGS -> exists tok c, jwe_encrypt std ex_draws (rsa_jwe a) (Some [enc_rsa]) [] [] None = Ok (tok, w_set (rsa_jwe a) (lit "cek") (VBytes c)).
Proof. exact rsa_made. Qed.

(** C130 *)
Theorem C130_at_least_five : forall P, forall sent w token keys alg cek m w', truthy token = true -> jwe_decrypt P sent w token keys alg cek = Ok (m, w') ->
  exists tok, token_text token tok /\ (5 <= length (split 46 tok))%nat.
Proof. exact at_least_five. Qed.
Print Assumptions C130_at_least_five.
Theorem C130_exactly_five : forall P, forall sent w token keys alg cek m w' tok h a, truthy token = true -> jwe_decrypt P sent w token keys alg cek = Ok (m, w') ->
  token_text token tok -> header_of tok h -> py_get h (lit "alg") = Ok (VStr a) -> startswith a (lit "A") = true -> ends_KW a = true -> length (split 46 tok) = 5%nat.
Proof. exact sym_exactly_five. Qed.
Print Assumptions C130_exactly_five.
Example C130_ex : length (split 46 kw_tok) = 5%nat /\ startswith (lit "A128KW") (lit "A") = true /\ ends_KW (lit "A128KW") = true.
Proof. vm_compute. auto. Qed.

(** C131 *)
Theorem C131_further_segments : forall P, forall sent w token keys alg cek m w' x a f, truthy token = true -> jwe_decrypt P sent w token keys alg cek = Ok (m, w') -> bytes_ok x = true ->
  (j <- unpack token;; py_get (j_headers j) (lit "alg")) = Ok a -> family_of a = Ok f -> f <> FSym ->
  jwe_decrypt P sent w (longer token x) keys alg cek = Ok (m, w').
Proof. exact further_segments. Qed.
Print Assumptions C131_further_segments.
Example C131_ex : exists sent tok keys m w', (6 <= length (split 46 tok))%nat /\ jwe_decrypt std sent new_jwe (VStr tok) (Some keys) (VStr (lit "RSA-OAEP")) [] = Ok (m, w').
Proof. exact further_segment_refuted. Qed.

(** C132 *)
Theorem C132_not_decompressed : forall P, forall sent w token keys alg cek m w' tok h a, truthy token = true -> jwe_decrypt P sent w token keys alg cek = Ok (m, w') ->
  token_text token tok -> header_of tok h -> py_get h (lit "alg") = Ok (VStr a) -> ~ In a RSA_ALGS ->
  exists enc key ct iv tag, py_get h (lit "enc") = Ok enc /\ b64d (seg tok 2) = Ok iv /\ b64d (seg tok 3) = Ok ct /\ b64d (seg tok 4) = Ok tag /\ content_decrypt P enc key ct (seg tok 0) iv tag = Ok m.
Proof. exact not_decompressed. Qed.
Print Assumptions C132_not_decompressed.
Example C132_ex : ~ In (lit "A128KW") RSA_ALGS /\ ~ In (lit "ECDH-ES") RSA_ALGS.
Proof. split; intro X; vm_compute in X; repeat (destruct X as [X|X]; [discriminate X|]); destruct X. Qed.

(** C133: the algorithms of content encryption and of key management of RFC 7518 that are known *)
Definition six_encs : list ustr := [lit "A128CBC-HS256"; lit "A192CBC-HS384"; lit "A256CBC-HS512"; lit "A128GCM"; lit "A192GCM"; lit "A256GCM"].
Definition ten_algs : list ustr := [lit "RSA1_5"; lit "RSA-OAEP"; lit "RSA-OAEP-256"; lit "A128KW"; lit "A192KW"; lit "A256KW";
  lit "ECDH-ES"; lit "ECDH-ES+A128KW"; lit "ECDH-ES+A192KW"; lit "ECDH-ES+A256KW"].
Theorem C133_produced : forall P R, hash_law P -> draws_ok R -> forall w keys cek iv kw tok w', bytes_ok cek = true -> bytes_ok iv = true ->
  jwe_encrypt P R w keys cek iv kw = Ok (tok, w') ->
  exists h e, b64encode_item (VDict h) = Ok (seg tok 0) /\ dget h (lit "enc") = Some (VStr e) /\ In e six_encs.
Proof. exact known_enc_produced. Qed.
Print Assumptions C133_produced.
Theorem C133_accepted : forall P, forall sent w token keys alg cek m w', truthy token = true -> jwe_decrypt P sent w token keys alg cek = Ok (m, w') ->
  exists tok h e, token_text token tok /\ header_of tok h /\ py_get h (lit "enc") = Ok (VStr e) /\ In e six_encs.
Proof. exact known_enc_accepted. Qed.
Print Assumptions C133_accepted.
Theorem C133_enc_setup : forall P R, forall enc msg aad cek iv x, (forall e, enc = VStr e -> enc_sizes e = None) -> enc_setup P R enc msg aad cek iv <> Ok x.
Proof. exact unknown_enc. Qed.
Print Assumptions C133_enc_setup.
Example C133_ex : enc_sizes (lit "A128CBC") = None /\ enc_setup std ex_draws (VStr (lit "A128CBC")) (lit "hi") [] [] [] = Raise EException.
Proof. split; reflexivity. Qed.

(** C134: [passes] says that the padding under the key is bad. *)
Theorem C134_passed_over : forall P, forall sent sent' v token k alg m c j ek kid pre post, truthy token = true ->
  jwe_decrypt P sent v token (Some [k]) alg [] = Ok (m, w_set v (lit "cek") (VBytes c)) ->
  unpack token = Ok j -> py_get (j_headers j) (lit "alg") = Ok (VStr (lit "RSA1_5")) -> nth_error (j_part j) 1 = Some (VBytes ek) -> kid_in_force (as_jws v) = Ok kid ->
  Forall (passes P ek) pre -> (forall n, sent' n <> c) ->
  jwe_decrypt P sent' v token (Some (pre ++ k :: post)) alg [] = Ok (m, w_set v (lit "cek") (VBytes c)).
Proof. exact decrypt_skips. Qed.
Print Assumptions C134_passed_over.
Example C134_ex : exists tok c, jwe_encrypt std ex_draws (rsa_jwe (lit "RSA1_5")) (Some [enc_rsa]) [] [] None = Ok (tok, w_set (rsa_jwe (lit "RSA1_5")) (lit "cek") (VBytes c)) /\
  exists j ek, unpack (VStr tok) = Ok j /\ py_get (j_headers j) (lit "alg") = Ok (VStr (lit "RSA1_5")) /\ nth_error (j_part j) 1 = Some (VBytes ek) /\ passes std ek bad_rsa /\
  forall sent, (forall n, sent n <> c) -> jwe_decrypt std sent new_jwe (VStr tok) (Some [bad_rsa; enc_rsa]) VNone [] = Ok ([104; 105; 200], w_set new_jwe (lit "cek") (VBytes c)).
Proof. exact second_rsa. Qed.

(** C135 *)
Theorem C135_first_key_decides : forall P, forall sent w token j a t keys k kid alg x, truthy token = true -> unpack token = Ok j -> py_get (j_headers j) (lit "alg") = Ok (VStr a) ->
  (In a KW_ALGS /\ t = lit "oct") \/ (In a EC_ALGS /\ t = lit "EC") ->
  kid_in_force (as_jws w) = Ok kid -> first_fit (suitable t kid (VStr (lit "enc")) (VStr a)) keys k ->
  (jwe_decrypt P sent w token (Some keys) alg [] = Ok x <-> jwe_decrypt P sent w token (Some [k]) alg [] = Ok x).
Proof. exact first_key_decides. Qed.
Print Assumptions C135_first_key_decides.
Example C135_ex : first_fit (suitable (lit "oct") VNone (VStr (lit "enc")) (VStr (lit "A128KW"))) [enc_rsa; raw_sym (lit "other"); raw_sym (lit "secret")] (raw_sym (lit "other")).
Proof. exists [enc_rsa], [raw_sym (lit "secret")]. split; [reflexivity|]. split; [apply raw_suitable|]. constructor; [|constructor]. intros [[X|[X|[X|X]]] _]; vm_compute in X; discriminate X. Qed.

(** C136 *)
Theorem C136_public_key : forall P R, forall w keys k kid cek iv kw a tok w' o crv x y d cv, In a EC_ALGS -> dget (w_dict w) (lit "alg") = Some (VStr a) ->
  kid_in_force (as_jws w) = Ok kid -> first_fit (suitable (lit "EC") kid (VStr (lit "enc")) (VStr a)) keys k -> k_data k = DEc o crv x y d cv -> truthy d = false ->
  jwe_encrypt P R w (Some keys) cek iv kw <> Ok (tok, w').
Proof. exact ecdh_public_key. Qed.
Print Assumptions C136_public_key.
Example C136_ex : first_fit (suitable (lit "EC") VNone (VStr (lit "enc")) (VStr (lit "ECDH-ES"))) [public_ec] public_ec /\ jwe_encrypt std ex_draws (ec_jwe (lit "ECDH-ES")) (Some [public_ec]) [] [] None = Raise EValueError.
Proof. split; [|exact ec_public_refuted]. apply only_fit. split; [right; left; reflexivity|]. split; [intro H; discriminate H|]. split; [intros _ _; reflexivity|intros _ H; discriminate H]. Qed.

(** C137 *)
Theorem C137_party_info : forall P, forall sent w token keys alg m w' tok h a cek, truthy token = true -> jwe_decrypt P sent w token keys alg cek = Ok (m, w') ->
  token_text token tok -> header_of tok h -> py_get h (lit "alg") = Ok (VStr a) -> startswith a (lit "ECDH-ES") = true ->
  forall n, n = lit "apu" \/ n = lit "apv" -> exists t u b, py_get h n = Ok (VStr t) /\ utf8_encode t = Ok u /\ b64d u = Ok b.
Proof. exact ecdh_party. Qed.
Print Assumptions C137_party_info.
Example C137_ex : py_get (VDict [(lit "apu", VStr (lit "QWxpY2U"))]) (lit "apu") = Ok (VStr (lit "QWxpY2U")) /\ b64d (lit "QWxpY2U") = Ok (lit "Alice").
Proof. vm_compute. auto. Qed.

(** C138 *)
Theorem C138_plain_epk : forall P R, forall w keys cek iv kw a tok w' v, In a EC_ALGS -> dget (w_dict w) (lit "alg") = Some (VStr a) -> w_epk w = None -> dget (w_dict w) (lit "epk") = Some v ->
  jwe_encrypt P R w keys cek iv kw <> Ok (tok, w').
Proof. exact ecdh_plain_epk. Qed.
Print Assumptions C138_plain_epk.
Example C138_ex : let w := w_set (ec_jwe (lit "ECDH-ES")) (lit "epk") (VDict [(lit "kty", VStr (lit "EC"))]) in w_epk w = None /\ dget (w_dict w) (lit "epk") = Some (VDict [(lit "kty", VStr (lit "EC"))]) /\
  jwe_encrypt std ex_draws w (Some [ex_ec]) [] [] None = Raise ESerializationNotPossible.
Proof. vm_compute. auto. Qed.

(** C139 *)
Theorem C139_text_only : forall P R, draws_ok R -> forall w keys cek iv kw a tok w', bytes_ok cek = true -> bytes_ok iv = true -> In a KW_ALGS -> dget (w_dict w) (lit "alg") = Some (VStr a) ->
  jwe_encrypt P R w keys cek iv kw = Ok (tok, w') -> exists t, w_msg w = VStr t.
Proof. exact kw_text_only. Qed.
Print Assumptions C139_text_only.
Example C139_ex : jwe_encrypt std ex_draws (ex_jwe (lit "A128KW") (lit "A128CBC-HS256") (VBytes (lit "hi"))) (Some [raw_sym (lit "secret")]) [] [] None = Raise EAttributeError.
Proof. exact kw_bytes_refuted. Qed.

(** C140: the content key that an earlier encryption or decryption left in the instance. *)
Theorem C140_cek_reused : forall P R, forall w k a b cek ek iv params, dget (w_dict w) (lit "alg") = Some (VStr a) -> a <> lit "ECDH-ES" ->
  dget (w_dict w) (lit "cek") = Some (VBytes b) -> b <> [] -> ec_enc_setup P R w k = Ok (cek, ek, iv, params) -> cek = b.
Proof. exact ecdh_reuses_cek. Qed.
Print Assumptions C140_cek_reused.
Example C140_ex : dget (w_dict (w_set (ec_jwe kw_alg) (lit "cek") (VBytes (r_cek ex_draws 16)))) (lit "cek") = Some (VBytes (r_cek ex_draws 16)) /\
  exists ek iv params, ec_enc_setup std ex_draws (w_set (ec_jwe kw_alg) (lit "cek") (VBytes (r_cek ex_draws 16))) ex_ec = Ok (r_cek ex_draws 16, ek, iv, params).
Proof. split; [reflexivity|exact ec_set_up]. Qed.

(** C141 *)
Theorem C141_arguments_ignored : forall P R, forall w keys cek iv cek' iv' kw a, In a EC_ALGS -> dget (w_dict w) (lit "alg") = Some (VStr a) ->
  jwe_encrypt P R w keys cek iv kw = jwe_encrypt P R w keys cek' iv' kw.
Proof. exact ecdh_ignores_cek. Qed.
Print Assumptions C141_arguments_ignored.
Example C141_ex : In (lit "ECDH-ES+A256KW") EC_ALGS /\ dget (w_dict (ec_jwe (lit "ECDH-ES+A256KW"))) (lit "alg") = Some (VStr (lit "ECDH-ES+A256KW")).
Proof. split; [right; right; right; left|]; reflexivity. Qed.

(** C142 *)
Theorem C142_is_jwe : forall h b p, is_jwe {| j_headers := VDict h; j_b64 := b; j_part := p |} = Ok true <->
  (exists t, dget h (lit "typ") = Some (VStr t) /\ lower t = lit "jwe") \/
  ((dget h (lit "typ") = None \/ (exists t, dget h (lit "typ") = Some (VStr t)) \/ exists t, dget h (lit "typ") = Some (VBytes t)) /\
   exists a e, dget h (lit "alg") = Some (VStr a) /\ dget h (lit "enc") = Some (VStr e) /\ In a ten_algs /\ In e six_encs).
Proof. exact is_jwe_spec. Qed.
Print Assumptions C142_is_jwe.
Example C142_ex : (j <- unpack (VStr kw_tok);; is_jwe j) = Ok true.
Proof. vm_compute. reflexivity. Qed.

(** C143 *)
Theorem C143_rsa_encrypter : forall P, hash_law P -> forall digest s k k' rnd msg sentinel ct, for_key k k' -> rsa_enc_law P k' -> bytes_ok msg = true ->
  rsa_encrypt P digest s k rnd msg = Ok ct -> (s = RSA15 -> digest = false -> sentinel <> msg) -> rsa_decrypt P digest s k' sentinel ct = Ok msg.
Proof. exact rsa_encrypter_roundtrip. Qed.
Print Assumptions C143_rsa_encrypter.
Example C143_ex : for_key enc_rsakey enc_rsakey /\ rsa_enc_law std enc_rsakey /\ exists ct, p_rsa_encrypt std RSA15 enc_rsakey (r_pad ex_draws) (lit "hi") = Ok ct.
Proof. split; [left; reflexivity|]. split; [apply std_rsa_enc_law; exact enc_rsa_wf|]. destruct (std_rsa_total RSA15 (lit "hi")) as (ct & E & _); [apply Nat.leb_le; reflexivity|reflexivity|]. exists ct. exact E. Qed.

(** C144 *)
Theorem C144_given_cek : forall P R, draws_ok R -> forall w keys cek iv kw a tok w', bytes_ok cek = true -> bytes_ok iv = true -> In a RSA_ALGS -> dget (w_dict w) (lit "alg") = Some (VStr a) ->
  jwe_encrypt P R w keys cek iv kw = Ok (tok, w') -> cek <> [] -> w' = w_set w (lit "cek") (VBytes cek) /\ exists r, tok = seg tok 0 ++ lit ".." ++ r.
Proof. exact rsa_given_cek. Qed.
Print Assumptions C144_given_cek.
Example C144_ex : seg (lit "h..iv.ct.tag") 1 = [] /\ In (lit "RSA-OAEP") RSA_ALGS.
Proof. split; [reflexivity|left; reflexivity]. Qed.

(** C145 *)
Theorem C145_bad_padding : forall P, forall k sentinel ct, p_rsa_decrypt P RSA15 k ct = Ok None -> rsa_decrypt P false RSA15 k sentinel ct = Raise EDecryptionFailed.
Proof. exact rsa_bad_padding. Qed.
Print Assumptions C145_bad_padding.
Example C145_ex : p_rsa_decrypt std RSA15 bad_rsakey (repeat 1 96) = Ok None.
Proof. vm_compute. reflexivity. Qed.

(** C182: the key of ECDH-ES as a formula, with the receiver and with the sender. *)
Theorem C182_receiver : forall P, hash_law P -> forall j key cek, ec_dec_setup P j key = Ok cek ->
  exists h jwk_of epk c x y d apu apv z, j_headers j = VDict h /\ dget h (lit "epk") = Some (VDict jwk_of) /\
    ec_new jwk_of (OVal (kwarg jwk_of (lit "key") VNone)) (OVal (kwarg jwk_of (lit "curve") VNone)) 0 = Ok epk /\ point_on epk c x y /\ private_number key d /\
    party_octets h (lit "apu") apu /\ party_octets h (lit "apv") apv /\ dh_z c d (Some (x, y)) = Ok z /\
    ((exists e n, dget h (lit "alg") = Some (VStr (lit "ECDH-ES")) /\ dget h (lit "enc") = Some (VStr e) /\ In (e, n) content_bits /\ cek = hashed P z (party_info e apu apv n) n) \/
     (exists a wa n ek, dget h (lit "alg") = Some (VStr a) /\ In (a, (wa, n)) wrap_bits /\ part j 1 = Ok ek /\ aes_unwrap_key P (hashed P z (party_info wa apu apv n) n) ek = Ok cek)).
Proof. exact receiver_key. Qed.
Print Assumptions C182_receiver.
Theorem C182_sender : forall P R, hash_law P -> draws_ok R -> forall w key cek ek iv params, ec_enc_setup P R w key = Ok (cek, ek, iv, params) ->
  exists l crv vx vy vd cv x y c epk d apu apv z ser, k_data key = DEc l crv vx vy vd cv /\ as_int vx = Some x /\ as_int vy = Some y /\ curve_by_name crv = Ok c /\
    private_number epk d /\ serialize epk false = Ok ser /\ params = [(lit "apu", VBytes (b64e apu)); (lit "apv", VBytes (b64e apv)); (lit "epk", ser)] /\
    party_value w (lit "apu") (r_apu R) apu /\ party_value w (lit "apv") (r_apv R) apv /\ dh_z c d (Some (x, y)) = Ok z /\
    ((exists e n, dget (w_dict w) (lit "alg") = Some (VStr (lit "ECDH-ES")) /\ dget (w_dict w) (lit "enc") = Some (VStr e) /\ In (e, n) content_bits /\
        cek = hashed P z (party_info e apu apv n) n /\ ek = VStr []) \/
     (exists a wa n ekb, dget (w_dict w) (lit "alg") = Some (VStr a) /\ In (a, (wa, n)) wrap_bits /\ aes_wrap_key P (hashed P z (party_info wa apu apv n) n) cek = Ok ekb /\ ek = VBytes ekb)).
Proof. exact sender_key. Qed.
Print Assumptions C182_sender.
(** The generator of P-256 as ephemeral key, and the receiver's private value 1. *)
Definition C182_jwk : dict := [(lit "kty", VStr (lit "EC")); (lit "crv", VStr (lit "P-256")); (lit "x", VStr (b64e (z2be 32 (fst (c_G P256))))); (lit "y", VStr (b64e (z2be 32 (snd (c_G P256)))))].
Definition C182_token (alg enc : ustr) (ek : bytes) : jwt :=
  {| j_headers := VDict [(lit "alg", VStr alg); (lit "enc", VStr enc); (lit "epk", VDict C182_jwk); (lit "apu", VStr (lit "QWxpY2U")); (lit "apv", VStr (lit "Qm9i"))];
     j_b64 := []; j_part := map VBytes [[]; ek; []; []; []] |}.
Example C182_ex : hash_law std /\ draws_ok ex_draws /\
  ec_dec_setup std (C182_token (lit "ECDH-ES") (lit "A192CBC-HS384") []) ex_ec =
    Ok (hashed std (z2be 32 (fst (c_G P256))) (lit "A192CBC-HS384" ++ [0; 0; 0; 5] ++ lit "Alice" ++ [0; 0; 0; 3] ++ lit "Bob" ++ [0; 0; 1; 128]) 384) /\
  (x <- ec_enc_setup std ex_draws (ec_jwe (lit "ECDH-ES")) ex_ec;; Ok (snd (fst (fst x)))) = Ok (VStr []).
Proof. split; [exact std_hash_law|]. split; [exact ex_draws_ok|]. split; vm_compute; reflexivity. Qed.

(** C183: false, a wrapping key is derived from the name of the wrapping algorithm, not from the value of alg, whether or not its
    length is put before it (C58). *)
Theorem C183_algorithm_id_refuted : forall a wa n apu apv, In (a, (wa, n)) wrap_bits ->
  party_info wa apu apv n <> rfc_info a apu apv n /\ be32 (Z.of_nat (length wa)) ++ party_info wa apu apv n <> rfc_info a apu apv n.
Proof. exact wrap_info_differs. Qed.
Print Assumptions C183_algorithm_id_refuted.
Example C183_ex : In (lit "ECDH-ES+A128KW", (lit "A128KW", 128)) wrap_bits /\
  hashed std (z2be 32 (fst (c_G P256))) (party_info (lit "A128KW") (lit "Alice") (lit "Bob") 128) 128 <> hashed std (z2be 32 (fst (c_G P256))) (rfc_info (lit "ECDH-ES+A128KW") (lit "Alice") (lit "Bob") 128) 128.
Proof. split; [left; reflexivity|vm_compute; discriminate]. Qed.

(** C184: the scheme each RSA algorithm names, with the receiver and with the sender. *)
Theorem C184_receiver : forall P sentinel j key m cek, rsa_jwe_decrypt P sentinel j key [] = Ok (m, cek) ->
  exists h a s mat k ek, j_headers j = VDict h /\ dget h (lit "alg") = Some (VStr a) /\ In (a, s) rsa_schemes /\ key = Some mat /\ as_rsa mat = Ok k /\ part j 1 = Ok ek /\
    p_rsa_decrypt P s k ek = Ok (Some cek).
Proof. exact rsa_receiver_scheme. Qed.
Print Assumptions C184_receiver.
Theorem C184_sender : forall P R, draws_ok R -> forall d jobj eobj msg key iv tok cek, bytes_ok iv = true ->
  rsa_jwe_encrypt P R d jobj eobj msg key [] iv = Ok (tok, cek) ->
  exists a s k ek he rest, dget d (lit "alg") = Some (VStr a) /\ In (a, s) rsa_schemes /\ as_rsa key = Ok k /\ p_rsa_encrypt P s k (r_pad R) cek = Ok ek /\
    (bytes_ok ek = true -> tok = he ++ [46] ++ b64e ek ++ [46] ++ rest /\ ~ In 46 he).
Proof. exact rsa_sender_scheme. Qed.
Print Assumptions C184_sender.
Example C184_ex : forall a, In a RSA_ALGS -> exists tok c, jwe_encrypt std ex_draws (rsa_jwe a) (Some [enc_rsa]) [] [] None = Ok (tok, w_set (rsa_jwe a) (lit "cek") (VBytes c)) /\
  forall sent alg, sent 1%nat <> c -> alg = VNone \/ alg = VStr a -> jwe_decrypt std sent new_jwe (VStr tok) (Some [enc_rsa]) alg [] = Ok ([104; 105; 200], w_set new_jwe (lit "cek") (VBytes c)).
Proof. exact rsa_opens. Qed.

(** C185: JWE_SYM used by itself. *)
Theorem C185_jwe_sym : forall P d j key cek m, sym_decrypt P d j key cek = Ok m <->
  (cek <> [] \/ exists mat, key = Some mat /\ mat <> MObj (OVal (VBytes []))) /\ length (j_part j) = 5%nat /\
  exists c h enc ct aad iv tag x,
    (cek <> [] /\ c = cek \/ cek = [] /\ exists mat k ek, key = Some mat /\ as_secret mat = Ok k /\ part j 1 = Ok ek /\ aes_unwrap_key P k ek = Ok c) /\
    j_headers j = VDict h /\ dget h (lit "enc") = Some enc /\ part j 3 = Ok ct /\ b64part j 0 = Ok aad /\ part j 2 = Ok iv /\ part j 4 = Ok tag /\
    content_decrypt P enc c ct aad iv tag = Ok x /\
    (dget d (lit "zip") = Some (VStr (lit "DEF")) /\ p_decompress P x = Ok m \/ dget d (lit "zip") <> Some (VStr (lit "DEF")) /\ x = m).
Proof. exact sym_by_itself. Qed.
Print Assumptions C185_jwe_sym.
Example C185_ex : (j <- unpack (VStr kw_tok);; sym_decrypt std [] j (Some (MObj (OVal (VBytes (firstn 16 (p_hash std SHA256 (lit "secret"))))))) []) = Ok (lit "hi") /\
  (j <- unpack (VStr kw_tok);; sym_decrypt std [(lit "zip", VStr (lit "DEF"))] j (Some (MObj (OVal (VBytes (firstn 16 (p_hash std SHA256 (lit "secret"))))))) []) = Raise EZlibError.
Proof. split; vm_compute; reflexivity. Qed.
