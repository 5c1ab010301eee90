(** * Properties C216-: certificates, the kid and the algorithms of encrypted tokens. *)
From Coq Require Import ZArith List Bool Lia.
From Verif Require Import Base BaseProofs Codec CodecProofs Utf8 Jwt Prims Inst Rsa Der DerProofs PvalEq Jwk JwkProofs JwkProofs2 JwkEx Jws JwsProofs JwsProofs11 Jwe JweProofs JweProofs2 JweProofs3 JweEx JweProofs16.
Import ListNotations.
Open Scope Z_scope.

(** C216: der2rsa imports the SubjectPublicKeyInfo of a certificate of version 2 or 3. *)
Theorem C216_public_key_info : forall imp version serial alg issuer validity subject spki more tbs cert,
  certificate ((160, fst version, snd version) :: (2, fst serial, snd serial) :: (48, fst alg, snd alg) :: (48, fst issuer, snd issuer) ::
    (48, fst validity, snd validity) :: (48, fst subject, snd subject) :: (48, fst spki, snd spki) :: more) tbs cert ->
  der2rsa imp cert = imp (MRaw (snd spki)).
Proof. exact der2rsa_v3. Qed.
Print Assumptions C216_public_key_info.
Theorem C216_only_certificates : forall imp cert k, bytes_ok cert = true -> der2rsa imp cert = Ok k ->
  exists ms tbs m, certificate ms tbs cert /\ nth_error ms 6 = Some m /\ imp (if fst (fst m) =? 2 then MInt (der_int (snd (fst m))) else MRaw (snd m)) = Ok k.
Proof. intros imp cert k O H. destruct (der2rsa_inv _ _ _ O H) as [ms [tbs [[[t v] e] R]]]. exists ms, tbs, (t, v, e). exact R. Qed.
Print Assumptions C216_only_certificates.

(** An import of RSA keys that knows SubjectPublicKeyInfo only, and a certificate with n = 3233, e = 17. *)
Definition imp_info (m : member) : res rsakey :=
  match m with
  | MInt _ => Raise EValueError
  | MRaw b =>
      l <- der_seq b;;
      match l with
      | [MRaw _; MRaw (3 :: _ :: 0 :: k)] =>
          n <- der_seq k;; match n with [MInt n; MInt e] => Ok {| r_n := n; r_e := e; r_d := None; r_pq := None |} | _ => Raise EValueError end
      | _ => Raise EValueError
      end
  end.
Definition ex_info : bytes * bytes :=
  ([48; 2; 5; 0; 3; 10; 0; 48; 7; 2; 2; 12; 161; 2; 1; 17], [48; 16; 48; 2; 5; 0; 3; 10; 0; 48; 7; 2; 2; 12; 161; 2; 1; 17]).
Definition ex_front : list (Z * bytes * bytes) := [(2, [5], [2; 1; 5]); (48, [5; 0], [48; 2; 5; 0]); (48, [], [48; 0]); (48, [], [48; 0]); (48, [], [48; 0])].
Definition ex_tb : bytes := [160; 3; 2; 1; 2; 2; 1; 5; 48; 2; 5; 0; 48; 0; 48; 0; 48; 0; 48; 16; 48; 2; 5; 0; 3; 10; 0; 48; 7; 2; 2; 12; 161; 2; 1; 17].
(** The signature is 200 octets long. *)
Definition ex_sig : bytes := 0 :: repeat 7 199.
Definition ex_cert : bytes := [48; 129; 245] ++ [48; 36] ++ ex_tb ++ [48; 2; 5; 0; 3; 129; 200] ++ ex_sig.
Lemma ex_cert_ok : certificate ((160, [2; 1; 2], [160; 3; 2; 1; 2]) :: ex_front ++ [(48, fst ex_info, snd ex_info)]) (48 :: 36 :: ex_tb) ex_cert.
Proof.
  assert (W : forall t v, Z.of_nat (length v) < 128 -> forall l s, tlvs l s -> tlvs ((t, v, t :: Z.of_nat (length v) :: v) :: l) ((t :: Z.of_nat (length v) :: v) ++ s)).
  { intros t v L l s H. constructor; [constructor; exact L|exact H]. }
  exists ex_tb, [(48, [5; 0], [48; 2; 5; 0]); (3, ex_sig, 3 :: 129 :: 200 :: ex_sig)], ([48; 36] ++ ex_tb ++ [48; 2; 5; 0; 3; 129; 200] ++ ex_sig).
  split.
  { apply (W 160 [2; 1; 2]); [reflexivity|]. apply (W 2 [5]); [reflexivity|]. apply (W 48 [5; 0]); [reflexivity|]. do 3 (apply (W 48 []); [reflexivity|]).
    apply (W 48 (fst ex_info) eq_refl [] []). constructor. }
  split; [apply (tlv_short 48 ex_tb); reflexivity|]. split.
  - apply (W 48 ex_tb); [reflexivity|]. apply (W 48 [5; 0]); [reflexivity|]. refine (tlvs_cons 3 ex_sig (3 :: 129 :: 200 :: ex_sig) [] [] _ _); [|constructor].
    apply (tlv_long 3 ex_sig 1%nat); [lia|vm_compute; discriminate|vm_compute; split; [discriminate|reflexivity]].
  - apply (tlv_long 48 ([48; 36] ++ ex_tb ++ [48; 2; 5; 0; 3; 129; 200] ++ ex_sig) 1%nat); [lia|vm_compute; discriminate|vm_compute; split; [discriminate|reflexivity]].
Qed.
Example C216_ex : certificate ((160, [2; 1; 2], [160; 3; 2; 1; 2]) :: ex_front ++ [(48, fst ex_info, snd ex_info)]) (48 :: 36 :: ex_tb) ex_cert /\ bytes_ok ex_cert = true /\
  der2rsa imp_info ex_cert = Ok {| r_n := 3233; r_e := 17; r_d := None; r_pq := None |}.
Proof. split; [exact ex_cert_ok|]. vm_compute. split; reflexivity. Qed.
(** Certificates of version 1 have no version field and cannot be read, although their key can. *)
Definition ex_v1 : bytes := [48; 42; 48; 31] ++ skipn 5 ex_tb ++ [48; 2; 5; 0; 3; 3; 0; 7; 7].
Theorem C216_version_1_refuted : (forall imp serial alg issuer validity subject spki tbs cert,
  certificate [(2, fst serial, snd serial); (48, fst alg, snd alg); (48, fst issuer, snd issuer); (48, fst validity, snd validity); (48, fst subject, snd subject); (48, fst spki, snd spki)] tbs cert ->
  der2rsa imp cert = Raise EIndexError) /\
  exists cert tbs, certificate (ex_front ++ [(48, fst ex_info, snd ex_info)]) tbs cert /\ imp_info (MRaw (snd ex_info)) = Ok {| r_n := 3233; r_e := 17; r_d := None; r_pq := None |}.
Proof.
  split; [exact der2rsa_v1|]. exists ex_v1, (48 :: 31 :: skipn 5 ex_tb).
  assert (W : forall t v, Z.of_nat (length v) < 128 -> forall l s, tlvs l s -> tlvs ((t, v, t :: Z.of_nat (length v) :: v) :: l) ((t :: Z.of_nat (length v) :: v) ++ s)).
  { intros t v L l s H. constructor; [constructor; exact L|exact H]. }
  split; [|vm_compute; reflexivity].
  exists (skipn 5 ex_tb), [(48, [5; 0], [48; 2; 5; 0]); (3, [0; 7; 7], [3; 3; 0; 7; 7])], (skipn 2 ex_v1). split.
  { apply (W 2 [5]); [reflexivity|]. apply (W 48 [5; 0]); [reflexivity|]. do 3 (apply (W 48 []); [reflexivity|]). apply (W 48 (fst ex_info) eq_refl [] []). constructor. }
  split; [apply (tlv_short 48 (skipn 5 ex_tb)); reflexivity|]. split.
  - apply (W 48 (skipn 5 ex_tb)); [reflexivity|]. apply (W 48 [5; 0]); [reflexivity|]. apply (W 3 [0; 7; 7] eq_refl [] []). constructor.
  - apply (tlv_short 48 (skipn 2 ex_v1)). reflexivity.
Qed.
Print Assumptions C216_version_1_refuted.

(** C217: the key of a JWK with a certificate chain is that of its first certificate.  Nothing else of the certificate, neither its
    signature nor its validity, and nothing of the other certificates matters. *)
Theorem C217_first_certificate : forall P imp kw s rest cert r version serial alg issuer validity subject spki more tbs, (forall d, p_der2rsa P d = der2rsa imp d) ->
  dmem kw (lit "self") = false -> dget kw (lit "n") = None -> dget kw (lit "x5t") = None -> dget kw (lit "x5c") = Some (VList (VStr s :: rest)) -> ascii s = true -> a2b s 0 0 0 = Ok cert ->
  certificate ((160, fst version, snd version) :: (2, fst serial, snd serial) :: (48, fst alg, snd alg) :: (48, fst issuer, snd issuer) ::
    (48, fst validity, snd validity) :: (48, fst subject, snd subject) :: (48, fst spki, snd spki) :: more) tbs cert ->
  imp (MRaw (snd spki)) = Ok r ->
  exists k nums, rsa_new P kw onone = Ok k /\ k_data k = DRsa (ORsa r) nums /\ num nums (lit "n") = VInt (r_n r) /\ num nums (lit "e") = VInt (r_e r).
Proof. exact x5c_key. Qed.
Print Assumptions C217_first_certificate.
Definition std_der : prims := {| p_aes_enc := p_aes_enc std; p_aes_dec := p_aes_dec std; p_hash := p_hash std; p_hmac := p_hmac std; p_rsa_sign := p_rsa_sign std; p_rsa_verify := p_rsa_verify std;
  p_rsa_encrypt := p_rsa_encrypt std; p_rsa_decrypt := p_rsa_decrypt std; p_compress := p_compress std; p_decompress := p_decompress std; p_rsa_construct := p_rsa_construct std;
  p_der2rsa := der2rsa imp_info; p_fetch := p_fetch std |}.
(** the certificate in standard base64, with padding *)
Definition ex_x5c : ustr := map (fun c => if c =? 45 then 43 else if c =? 95 then 47 else c) (b64e ex_cert) ++ lit "=".
Example C217_ex : a2b ex_x5c 0 0 0 = Ok ex_cert /\ ascii ex_x5c = true /\ (forall d, p_der2rsa std_der d = der2rsa imp_info d) /\ imp_info (MRaw (snd ex_info)) = Ok {| r_n := 3233; r_e := 17; r_d := None; r_pq := None |} /\
  (k <- rsa_new std_der [(lit "x5c", VList [VStr ex_x5c; VStr (lit "?")])] onone;; Ok (k_data k)) = Ok (DRsa (ORsa {| r_n := 3233; r_e := 17; r_d := None; r_pq := None |}) (public_nums ex_nums)).
Proof. split; [vm_compute; reflexivity|]. split; [vm_compute; reflexivity|]. split; [reflexivity|]. split; vm_compute; reflexivity. Qed.

(** C218: decrypting what jwe.factory has read is decrypting the token with those of the keys that have its kid. *)
Theorem C218_factory : forall P sent token w j h ks alg cek, truthy token = true -> jwe_factory token = Ok (Some w) -> unpack token = Ok j -> j_headers j = VDict h ->
  let kid := match dget h (lit "kid") with Some v => v | None => VNone end in
  let named := filter (fun k => negb (truthy kid) || pval_eqb kid (k_kid k)) ks in
  named <> [] ->
  (r <- jwe_decrypt P sent w VNone (Some ks) alg cek;; Ok (fst r)) = (r <- jwe_decrypt P sent new_jwe token (Some named) alg cek;; Ok (fst r)).
Proof. exact factory_decrypt. Qed.
Print Assumptions C218_factory.
(** A token that was encrypted for the key a *)
Definition kid_tok : ustr := lit "eyJhbGciOiJBMTI4S1ciLCJlbmMiOiJBMTI4Q0JDLUhTMjU2Iiwia2lkIjoiYSJ9.YXKWeRohnePgTsRcBEkSqrFYCEvK9m6lBzzkQuQGpDN_OKJ9tcMj4w.AwQFBgcICQoLDA0ODxAREg.VL72dJesGL2C8CU8CN3B8Q.aEXLR4kyreguUsKh_UHOmA".
Definition key_a : jwk := with_kid (raw_sym (lit "secret")) (VStr (lit "a")).
Definition key_b : jwk := with_kid (raw_sym (lit "secret")) (VStr (lit "b")).
Theorem C218_fresh_instance_refuted : exists tok k h, (exists j, unpack (VStr tok) = Ok j /\ j_headers j = VDict h) /\ dget h (lit "kid") = Some (VStr (lit "a")) /\ k_kid k = VStr (lit "b") /\
  (forall sent, jwe_decrypt std sent new_jwe (VStr tok) (Some [k]) VNone [] = Ok (lit "hi", w_set new_jwe (lit "cek") VNone)) /\
  exists w, jwe_factory (VStr tok) = Ok (Some w) /\ forall sent, jwe_decrypt std sent w VNone (Some [k]) VNone [] = Raise ENoSuitableDecryptionKey.
Proof.
  exists kid_tok, key_b, [(lit "alg", VStr (lit "A128KW")); (lit "enc", VStr (lit "A128CBC-HS256")); (lit "kid", VStr (lit "a"))].
  destruct (unpack (VStr kid_tok)) as [j|] eqn:U; [|vm_compute in U; discriminate U].
  split. { exists j. split; [reflexivity|]. vm_compute in U. injection U as <-. reflexivity. }
  split; [reflexivity|]. split; [reflexivity|]. split; [intro sent; vm_compute; reflexivity|].
  exists {| w_msg := VNone; w_dict := []; w_jwk := None; w_epk := None; w_jwt := Some j |}. split.
  - unfold jwe_factory. rewrite U. cbn [bind]. vm_compute in U. injection U as <-. vm_compute. reflexivity.
  - intro sent. vm_compute in U. injection U as <-. vm_compute. reflexivity.
Qed.
Print Assumptions C218_fresh_instance_refuted.
Example C218_ex : jwe_encrypt std ex_draws kw_jwe (Some [key_a]) [] [] None = Ok (kid_tok, w_set kw_jwe (lit "cek") VNone) /\
  exists j w, unpack (VStr kid_tok) = Ok j /\ jwe_factory (VStr kid_tok) = Ok (Some w) /\ j_headers j = VDict [(lit "alg", VStr (lit "A128KW")); (lit "enc", VStr (lit "A128CBC-HS256")); (lit "kid", VStr (lit "a"))] /\
    filter (fun k => negb (truthy (VStr (lit "a"))) || pval_eqb (VStr (lit "a")) (k_kid k)) [key_b; key_a] = [key_a].
Proof.
  split; [vm_compute; reflexivity|]. destruct (unpack (VStr kid_tok)) as [j|] eqn:U; [|vm_compute in U; discriminate U].
  exists j, {| w_msg := VNone; w_dict := []; w_jwk := None; w_epk := None; w_jwt := Some j |}. split; [reflexivity|].
  unfold jwe_factory. rewrite U. cbn [bind]. vm_compute in U. injection U as <-. repeat split; vm_compute; reflexivity.
Qed.

(** C219: the algorithms of key management that are accepted *)
Theorem C219_ten_algorithms_partial : forall P sent w token ks alg m w', truthy token = true -> ks <> [] -> (forall k, In k ks -> sound_key k) ->
  jwe_decrypt P sent w token (Some ks) alg [] = Ok (m, w') ->
  exists j a, unpack token = Ok j /\ py_get (j_headers j) (lit "alg") = Ok (VStr a) /\
    In a [lit "RSA1_5"; lit "RSA-OAEP"; lit "RSA-OAEP-256"; lit "A128KW"; lit "A192KW"; lit "A256KW"; lit "ECDH-ES"; lit "ECDH-ES+A128KW"; lit "ECDH-ES+A192KW"; lit "ECDH-ES+A256KW"].
Proof. exact known_algs. Qed.
Print Assumptions C219_ten_algorithms_partial.
Theorem C219_forms_partial : forall P sent w token keys alg cek m w', truthy token = true -> jwe_decrypt P sent w token keys alg cek = Ok (m, w') ->
  exists j a, unpack token = Ok j /\ py_get (j_headers j) (lit "alg") = Ok (VStr a) /\
   (In a [lit "RSA-OAEP"; lit "RSA-OAEP-256"; lit "RSA1_5"] \/ (exists r, a = lit "A" ++ r ++ lit "KW") \/ exists r, a = lit "ECDH-ES" ++ r).
Proof. exact alg_forms. Qed.
Print Assumptions C219_forms_partial.
(** With a content key of the caller every name A...KW is accepted. *)
Definition any_tok : ustr := lit "eyJhbGciOiJBbnlLVyIsImVuYyI6IkExMjhDQkMtSFMyNTYifQ..AwQFBgcICQoLDA0ODxAREg.VL72dJesGL2C8CU8CN3B8Q.sW3gwzRmBJDQTA9h6EBXFQ".
Theorem C219_given_key_refuted : exists tok cek j, unpack (VStr tok) = Ok j /\ py_get (j_headers j) (lit "alg") = Ok (VStr (lit "AnyKW")) /\
  forall sent, jwe_decrypt std sent new_jwe (VStr tok) (Some []) VNone cek = Ok (lit "hi", w_set new_jwe (lit "cek") VNone).
Proof.
  exists any_tok, (map Z.of_nat (seq 1 32)). destruct (unpack (VStr any_tok)) as [j|] eqn:U; [|vm_compute in U; discriminate U]. exists j.
  split; [reflexivity|]. split; [vm_compute in U; injection U as <-; vm_compute; reflexivity|]. intro sent. vm_compute. reflexivity.
Qed.
Print Assumptions C219_given_key_refuted.
Example C219_ex : sound_key key_a /\ (forall sent, jwe_decrypt std sent new_jwe (VStr kid_tok) (Some [key_a]) VNone [] = Ok (lit "hi", w_set new_jwe (lit "cek") VNone)).
Proof. split; [reflexivity|]. intro sent. vm_compute. reflexivity. Qed.

(** C220: is_jws of something that is neither text nor octets *)
Theorem C220_no_text : forall s v, (forall t, v <> VStr t) -> (forall t, v <> VBytes t) -> is_jws s v = Raise EAttributeError.
Proof. exact is_jws_no_text. Qed.
Print Assumptions C220_no_text.
Example C220_ex : (forall t, VList [] <> VStr t) /\ (forall t, VList [] <> VBytes t).
Proof. split; discriminate. Qed.
