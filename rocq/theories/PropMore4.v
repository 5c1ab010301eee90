(** * Properties C228-: instances used several times, nested tokens, headers of encrypted tokens, thumbprints. *)
From Coq Require Import ZArith List Bool Lia.
From Verif Require Import Base BaseProofs Prims Inst PvalEq Extra ExtraProofs Utf8 Codec CodecProofs Json JsonProofs Jwt JwtProofs Jwk JwkProofs JwkProofs2 JwkEx Jws JwsProofs JwsProofs2 JwsProofs3 JwsProofs4 JwsProofs6 JwsEx.
From Verif Require Import Elliptic Ecc Nist EcAux KeyWrap Jwe JweProofs JweProofs2 JweProofs3 JweProofs4 JweProofs5 JweProofs6 JweProofs7 JweProofs8 JweProofs9 JweProofs11 JweEx.
From Verif Require Import HistoryProofs HistoryEx JsonState Nested HeaderProofs ThumbProofs.
Import ListNotations.
Open Scope Z_scope.

(** C228: an instance used before decrypts as a new one ... *)
Theorem C228_decrypt : forall P w w' sent token keys alg cek, history P w w' ->
  (r <- jwe_decrypt P sent w' token keys alg cek;; Ok (fst r)) = (r <- jwe_decrypt P sent w token keys alg cek;; Ok (fst r)).
Proof. exact decrypt_history. Qed.
Print Assumptions C228_decrypt.
(** ... and encrypts as a new one except for key agreement with key wrapping, *)
Theorem C228_encrypt_partial : forall P R w w' keys cek iv kid v, history P w w' -> dget (w_dict w) (lit "cek") = None -> dget (w_dict w) (lit "alg") = Some v ->
  ~ In v [VStr (lit "ECDH-ES+A128KW"); VStr (lit "ECDH-ES+A192KW"); VStr (lit "ECDH-ES+A256KW")] ->
  (r <- jwe_encrypt P R w' keys cek iv kid;; Ok (fst r)) = (r <- jwe_encrypt P R w keys cek iv kid;; Ok (fst r)).
Proof. exact encrypt_history. Qed.
Print Assumptions C228_encrypt_partial.
(** for which the content key is that of the token decrypted before, whatever the source of random numbers says. *)
Theorem C228_fresh_refuted : exists w w' b k, history std w w' /\ dget (w_dict w) (lit "cek") = None /\ dget (w_dict w) (lit "alg") = Some (VStr (lit "ECDH-ES+A128KW")) /\
  (exists R ek iv params, ec_enc_setup std R w' k = Ok (b, ek, iv, params)) /\
  (forall R key cek ek iv params, ec_enc_setup std R w' key = Ok (cek, ek, iv, params) -> cek = b).
Proof.
  destruct ec_opens_rsa as (tok & w1 & _ & D). exists (ec_jwe kw_alg), (w_set (ec_jwe kw_alg) (lit "cek") (VBytes (r_cek ex_draws 16))), (r_cek ex_draws 16), ex_ec.
  split; [exact (hist_dec std _ _ (fun _ => []) _ _ _ _ _ _ (hist_none std _) (D (fun _ => [])))|]. split; [reflexivity|]. split; [reflexivity|]. split; [exists ex_draws; exact ec_set_up|].
  intros R key cek ek iv params H. apply (ecdh_reuses_cek std R (w_set (ec_jwe kw_alg) (lit "cek") (VBytes (r_cek ex_draws 16))) key kw_alg (r_cek ex_draws 16) cek ek iv params); try assumption; try reflexivity; intro X; discriminate X.
Qed.
Print Assumptions C228_fresh_refuted.
Example C228_ex : exists w', w' <> rsa_jwe (lit "RSA-OAEP") /\ history std (rsa_jwe (lit "RSA-OAEP")) w' /\ dget (w_dict (rsa_jwe (lit "RSA-OAEP"))) (lit "cek") = None /\
  dget (w_dict (rsa_jwe (lit "RSA-OAEP"))) (lit "alg") = Some (VStr (lit "RSA-OAEP")).
Proof.
  destruct ec_opens_rsa as (tok & w1 & E & _). exists w1. split; [|split; [exact (hist_enc std _ _ _ _ _ _ _ _ _ (hist_none std _) E)|split; reflexivity]].
  intro X. destruct (encrypt_sets std _ _ _ _ _ _ _ _ E) as (v & W & _). rewrite X in W. apply (f_equal (fun w => dget (w_dict w) (lit "cek"))) in W. unfold w_set in W. cbn [w_dict] in W. rewrite dget_dset_same in W. discriminate W.
Qed.

(** C229: a JWS instance used before accepts nothing a new one does not accept. *)
Theorem C229_used : forall P s s' token keys an sigalg, jws_history P s s' ->
  snd (verify_compact P s' token keys an sigalg) = snd (verify_compact P s token keys an sigalg) \/
  snd (verify_compact P s' token keys an sigalg) = Raise ESignerAlgError /\
    exists j a v, unpack token = Ok j /\ (py_get (j_headers j) (lit "alg") = Ok a \/ py_get (j_headers j) (lit "alg") = Raise EKeyError /\ a = VNone) /\ dget (s_dict s') (lit "alg") = Some v /\ v <> a.
Proof. exact used_jws. Qed.
Print Assumptions C229_used.
Theorem C229_accepts_no_more : forall P s s' token keys an sigalg m k, jws_history P s s' ->
  snd (verify_compact P s' token keys an sigalg) = Ok (m, k) -> snd (verify_compact P s token keys an sigalg) = Ok (m, k).
Proof. exact used_jws_accepts. Qed.
Print Assumptions C229_accepts_no_more.
(** The second disjunct is met: a new instance that has verified a token of HS256 verifies no other algorithm any more. *)
Example C229_ex : exists s', jws_history std new_jws s' /\ dget (s_dict s') (lit "alg") = Some (VStr (lit "HS256")) /\
  snd (verify_compact std s' (VStr ex_tok) (Some [ex_key]) false VNone) = snd (verify_compact std new_jws (VStr ex_tok) (Some [ex_key]) false VNone) /\
  (' (m, _) <- snd (verify_compact std new_jws (VStr ex_tok) (Some [ex_key]) false VNone);; Ok m) = Ok (VStr (lit "hello")).
Proof.
  destruct (verify_compact std new_jws (VStr ex_tok) (Some [ex_key]) false VNone) as [s' r] eqn:V. exists s'.
  split; [exact (jh_verify std _ _ _ _ _ _ _ _ (jh_none std _) V)|]. vm_compute in V. injection V as <- <-. repeat split; vm_compute; reflexivity.
Qed.

(** C230: verify_json with the instance it leaves. *)
Theorem C230_agrees : forall P s text keys an sigalg,
  match verify_json P s text keys an sigalg with
  | Ok (c, t) => exists s', verify_json_on P s text keys an sigalg = (s', Ok c) /\ forget s' = forget t
  | Raise e => exists s', verify_json_on P s text keys an sigalg = (s', Raise e)
  end.
Proof. exact json_on_agrees. Qed.
Print Assumptions C230_agrees.
Theorem C230_answer : forall P s t text keys an sigalg,
  snd (verify_json_on P s text keys an sigalg) = snd (verify_json_on P t text keys an sigalg) /\
  ((fst (verify_json_on P s text keys an sigalg) = s /\ fst (verify_json_on P t text keys an sigalg) = t) \/
   forget (fst (verify_json_on P s text keys an sigalg)) = forget (fst (verify_json_on P t text keys an sigalg))).
Proof. exact json_on_forgets. Qed.
Print Assumptions C230_answer.
(** A refused token opens the instance to tokens signed with the key inside the refused one and drops the algorithm the
    instance was made for. *)
Theorem C230_refused_harmless_refuted : exists s text tok keys, s_jwk s = None /\ dget (s_dict s) (lit "alg") = Some (VStr (lit "RS256")) /\
  snd (verify_json_on std s text keys false VNone) = Raise EBadSignature /\
  snd (verify_compact std s tok None false VNone) = Raise ESignerAlgError /\
  (' (m, _) <- snd (verify_compact std (fst (verify_json_on std s text keys false VNone)) tok None false VNone);; Ok m) = Ok (VStr (lit "hello")).
Proof.
  exists pinned_jws, (VStr embedded), (VStr ex_tok), (Some [other_key]). split; [reflexivity|]. split; [reflexivity|]. split; [exact refused_json|]. split; [exact before_json|exact after_json].
Qed.
Print Assumptions C230_refused_harmless_refuted.

(** C231: a signed token inside an encrypted one. *)
Theorem C231_rsa : forall P R, aes_law P -> hmac_law P -> draws_ok R -> zip_law P -> forall E s skeys protected sa stok, signed P E s skeys protected sa stok ->
  forall w a keys k kid iv kw tok w', w_msg w = VStr stok \/ w_msg w = VBytes stok -> In a RSA_ALGS -> dget (w_dict w) (lit "alg") = Some (VStr a) ->
  json_args w JWE_ARGS -> jsonable (k_kid k) = true -> (forall kj x, w_jwk w = Some kj -> serialize kj false = Ok x -> jsonable x = true) ->
  kid_in_force (as_jws w) = Ok kid -> first_fit (suitable (lit "RSA") kid (VStr (lit "enc")) (VStr a)) keys k ->
  forall r nums r', k_data k = DRsa (ORsa r) nums -> for_key r r' -> rsa_enc_law P r' -> bytes_ok iv = true ->
  jwe_encrypt P R w (Some keys) [] iv kw = Ok (tok, w') ->
  exists c, w' = w_set w (lit "cek") (VBytes c) /\
  forall sent v keys' k' kid' alg token nums', kid_in_force (as_jws v) = Ok kid' -> first_fit (suitable (lit "RSA") kid' (VStr (lit "enc")) (VStr a)) keys' k' ->
    alg = VNone \/ alg = VStr a -> token = VStr tok \/ token = VBytes tok -> k_data k' = DRsa (ORsa r') nums' -> (a = lit "RSA1_5" -> sent 1%nat <> c) ->
    exists m v', jwe_decrypt P sent v token (Some keys') alg [] = Ok (m, v') /\ yields P s skeys protected sa m.
Proof. exact nested_rsa. Qed.
Print Assumptions C231_rsa.
Theorem C231_sym : forall P R, aes_law P -> hmac_law P -> hash_law P -> draws_ok R -> forall E s skeys protected sa stok, signed P E s skeys protected sa stok ->
  forall w a keys k kid cek iv kw tok w', w_msg w = VStr stok -> In a KW_ALGS -> dget (w_dict w) (lit "alg") = Some (VStr a) ->
  json_args w SYM_ARGS -> jsonable (k_kid k) = true -> (forall v, kw = Some v -> jsonable v = true) ->
  kid_in_force (as_jws w) = Ok kid -> first_fit (suitable (lit "oct") kid (VStr (lit "enc")) (VStr a)) keys k ->
  forall key kk, k_data k = DSym key kk -> (forall x, key = VBytes x -> bytes_ok x = true) -> bytes_ok cek = true -> bytes_ok iv = true -> wrappable cek ->
  jwe_encrypt P R w (Some keys) cek iv kw = Ok (tok, w') ->
  forall sent v keys' k' kid' alg token, kid_in_force (as_jws v) = Ok kid' -> first_fit (suitable (lit "oct") kid' (VStr (lit "enc")) (VStr a)) keys' k' -> k_data k' = k_data k ->
    alg = VNone \/ alg = VStr a -> token = VStr tok \/ token = VBytes tok ->
    exists m v', jwe_decrypt P sent v token (Some keys') alg [] = Ok (m, v') /\ yields P s skeys protected sa m.
Proof. exact nested_sym. Qed.
Print Assumptions C231_sym.
Theorem C231_ec : forall P R, aes_law P -> hmac_law P -> hash_law P -> draws_ok R -> forall E s skeys protected sa stok, signed P E s skeys protected sa stok ->
  forall name c, by_name name = Ok c -> forall w a keys k kid cek iv kw tok w' o crv kx ky d cv dz, w_msg w = VStr stok \/ w_msg w = VBytes stok -> In a EC_ALGS -> dget (w_dict w) (lit "alg") = Some (VStr a) ->
  json_args w SYM_ARGS -> jsonable (k_kid k) = true -> (forall v, kw = Some v -> jsonable v = true) ->
  kid_in_force (as_jws w) = Ok kid -> first_fit (suitable (lit "EC") kid (VStr (lit "enc")) (VStr a)) keys k ->
  k_data k = DEc o crv (VInt kx) (VInt ky) d cv -> curve_by_name crv = Ok c -> 0 < dz < c_N c -> public_key_for c dz = Some (kx, ky) -> epk_for c w ->
  (forall b, dget (w_dict w) (lit "cek") = Some (VBytes b) -> bytes_ok b = true /\ wrappable b) ->
  jwe_encrypt P R w (Some keys) cek iv kw = Ok (tok, w') ->
  forall sent v keys' k' kid' alg token cek' o' crv' x' y' cv', kid_in_force (as_jws v) = Ok kid' -> first_fit (suitable (lit "EC") kid' (VStr (lit "enc")) (VStr a)) keys' k' ->
    k_data k' = DEc o' crv' x' y' (VInt dz) cv' -> alg = VNone \/ alg = VStr a -> token = VStr tok \/ token = VBytes tok ->
    exists m v', jwe_decrypt P sent v token (Some keys') alg cek' = Ok (m, v') /\ yields P s skeys protected sa m.
Proof. exact nested_ec. Qed.
Print Assumptions C231_ec.
Example C231_ex : signed std ex_E ex_jws [ex_key] [] (lit "HS256") ex_tok /\
  exists tok w', jwe_encrypt std ex_draws outer_jwe (Some [enc_rsa]) [] [] None = Ok (tok, w') /\
  exists m v', jwe_decrypt std (fun _ => []) new_jwe (VStr tok) (Some [enc_rsa]) VNone [] = Ok (m, v') /\
    exists u k, verify_compact std new_jws (VBytes m) (Some [ex_key]) false VNone = (u, Ok (VStr (lit "hello"), Some k)).
Proof. exact (conj ex_is_signed ex_nested). Qed.

(** C232: the header of an encrypted token. *)
Theorem C232_header : forall P R, hash_law P -> draws_ok R ->
  forall w keys cek iv kw tok w', bytes_ok cek = true -> bytes_ok iv = true -> jwe_encrypt P R w keys cek iv kw = Ok (tok, w') ->
  exists h k a, b64encode_item (VDict h) = Ok (seg tok 0) /\ offered (as_jws w) keys k /\ dget (w_dict w) (lit "alg") = Some (VStr a) /\ jwe_header w k kw (existsb (zs_eqb a) RSA_ALGS) h /\
    (startswith a (lit "ECDH-ES") = true -> exists u v e s, dget h (lit "apu") = Some (VBytes (b64e u)) /\ dget h (lit "apv") = Some (VBytes (b64e v)) /\ dget h (lit "epk") = Some s /\
      serialize e false = Ok s /\ exists o c x y d cv, k_data e = DEc o c x y d cv).
Proof. exact encrypt_header. Qed.
Print Assumptions C232_header.
(** Nothing else is in it: neither the content key nor the message nor a private part of a key. *)
Theorem C232_no_secret : forall P R, hash_law P -> draws_ok R ->
  forall w keys cek iv kw tok w' n, bytes_ok cek = true -> bytes_ok iv = true -> jwe_encrypt P R w keys cek iv kw = Ok (tok, w') ->
  In n [lit "cek"; lit "msg"; lit "k"; lit "d"; lit "p"; lit "q"; lit "dp"; lit "dq"; lit "di"; lit "qi"; lit "key"; lit "iv"; lit "use"; lit "n"] ->
  exists h, b64encode_item (VDict h) = Ok (seg tok 0) /\ dget h n = None.
Proof.
  intros P R HL DR w keys cek iv kw tok w' n BC BI H I. destruct (encrypt_header P R HL DR _ _ _ _ _ _ _ BC BI H) as (h & k & a & B & _ & _ & HD & _). exists h. split; [exact B|].
  destruct (dget h n) as [v|] eqn:G; [|reflexivity]. exfalso. apply (jh_names _ _ _ _ _ HD) in G. revert G I. clear. unfold header_names. cbn [In]. intros G I.
  repeat (destruct I as [<-|I]; [repeat (destruct G as [G|G]; [discriminate G|]); exact G|]). exact I.
Qed.
Print Assumptions C232_no_secret.
Example C232_ex : exists tok w', jwe_encrypt std ex_draws (rsa_jwe (lit "RSA-OAEP")) (Some [enc_rsa]) [] [] None = Ok (tok, w') /\ existsb (zs_eqb (lit "RSA-OAEP")) RSA_ALGS = true.
Proof. destruct ec_opens_rsa as (tok & w1 & E & _). exists tok, w1. split; [exact E|reflexivity]. Qed.

(** C233: thumbprints tell keys apart. *)
Theorem C233_thumbprint : forall P a b i j name h, identified a i -> identified b j ->
  In (name, h) [(lit "SHA-256", SHA256); (lit "SHA-384", SHA384); (lit "SHA-512", SHA512)] -> thumbprint P a name = thumbprint P b name ->
  i = j \/ exists s t, hashed i s /\ hashed j t /\ s <> t /\ p_hash P h s = p_hash P h t.
Proof. exact thumbprint_identifies. Qed.
Print Assumptions C233_thumbprint.
Theorem C233_kid : forall P, hash_law P -> forall a b i j a' b', identified a i -> identified b j ->
  add_kid P a = Ok a' -> add_kid P b = Ok b' -> k_kid a' = k_kid b' ->
  i = j \/ exists s t, hashed i s /\ hashed j t /\ s <> t /\ p_hash P SHA256 s = p_hash P SHA256 t.
Proof. exact kid_identifies. Qed.
Print Assumptions C233_kid.
Example C233_ex : identified ex_rsa (IRsa 3233 17) /\ identified ex_sym (IOct (lit "secret")) /\ identified ex_ec (IEc P256 (fst (c_G P256)) (snd (c_G P256))) /\
  IRsa 3233 17 <> IOct (lit "secret").
Proof.
  split; [eapply id_rsa; [reflexivity..|lia|lia]|]. split; [eapply id_oct; reflexivity|]. split; [|intro X; discriminate X].
  eapply id_ec; [reflexivity|exact P256_named|vm_compute; reflexivity|vm_compute; reflexivity].
Qed.
