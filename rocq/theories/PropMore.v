(** * Properties C210-C215: the value of signatures, what verification raises, further keys, points off the curve, CBC-HMAC block by block. *)
From Coq Require Import ZArith List Bool Lia.
From Verif Require Import Base BaseProofs Codec CodecProofs Utf8 Json JsonProofs Jwt JwtProofs Prims Inst Rsa Elliptic Ecc EcSpec Nist EcAux EcLeak Extra CbcSpec PvalEq Jwk JwkProofs JwkEx Jws JwsProofs JwsProofs2 JwsProofs3 JwsProofs6 JwsProofs11 JwsEx.
From Verif Require Import Jwe JweProofs JweProofs2 JweProofs3 JweProofs13 JweProofs15 JweEx JweLeak.
Import ListNotations.
Open Scope Z_scope.

(** C210: the signature sign_compact puts into a token *)
Theorem C210_signature_value : forall P E s keys protected s' tok, sign_compact P E s keys protected = (s', Ok tok) -> chosen s keys <> VStr (lit "none") ->
  exists a k input sg, chosen s keys = VStr a /\ offered s keys k /\ utf8_decode input = Ok (firstn (length tok - S (length (b64e sg))) tok) /\
    tok = firstn (length tok - S (length (b64e sg))) tok ++ 46 :: b64e sg /\
    ((exists h secret, In (a, h) [(lit "HS256", SHA256); (lit "HS384", SHA384); (lit "HS512", SHA512)] /\ get_key k true = Ok (MObj (OVal (VBytes secret))) /\ sg = p_hmac P h secret input) \/
     (exists sc h key, In (a, (sc, h)) [(lit "RS256", (PKCS1v15, SHA256)); (lit "RS384", (PKCS1v15, SHA384)); (lit "RS512", (PKCS1v15, SHA512)); (lit "PS256", (PSS, SHA256)); (lit "PS384", (PSS, SHA384)); (lit "PS512", (PSS, SHA512))] /\
        get_key k true = Ok (MObj (ORsa key)) /\ p_rsa_sign P sc h key (e_oct E) input = Ok sg) \/
     (exists h bits c d m, In (a, (h, bits)) [(lit "ES256", (SHA256, 256)); (lit "ES384", (SHA384, 384)); (lit "ES512", (SHA512, 521))] /\ nist_curve bits = Ok c /\ get_key k true = Ok m /\ as_priv m = Ok d /\
        exists n r t x y, n = e_bits E 0%nat mod (c_N c - 1) + 1 /\ 0 <= x < c_p c /\ 0 <= y < c_p c /\ GP (c_p c) x y = gmul (c_p c) (- c_a c) n (den (c_p c) (Some (c_G c))) /\
          r = x mod c_N c /\ 0 < r < c_N c /\ 0 < t < c_N c /\ (t * n) mod c_N c = (trunc (be2z (p_hash P h input)) (c_N c) + r * d) mod c_N c /\
          sg = z2be (Z.to_nat (c_bytes c)) r ++ z2be (Z.to_nat (c_bytes c)) t)).
Proof. exact signature_value. Qed.
Print Assumptions C210_signature_value.
Example C210_ex : snd (sign_compact std ex_E ex_jws (Some [ex_key]) []) = Ok ex_tok /\ chosen ex_jws (Some [ex_key]) = VStr (lit "HS256").
Proof. split; [exact ex_signed|reflexivity]. Qed.

(** C211: what verify_compact can raise *)
Theorem C211_verify_raises : forall P s token ks an sigalg s' e, (forall sc h k m sg x, p_rsa_verify P sc h k m sg = Raise x -> is_ValueError x = true) ->
  (exists t, token = VStr t \/ token = VBytes t) -> ks <> [] -> (forall k, In k ks -> sound_key k) ->
  verify_compact P s token (Some ks) an sigalg = (s', Raise e) ->
  e = EBadSyntax \/ is_ValueError e = true \/ In e [EWrongNumberOfParts; ESignerAlgError; ENoSuitableSigningKeys; EBadSignature] \/
  exists j, unpack token = Ok j /\
   ((e = ETypeError /\ forall d, j_headers j <> VDict d) \/
    exists d, j_headers j = VDict d /\
     ((e = EAttributeError /\ ((exists v, dget d (lit "alg") = Some v /\ not_text v /\ v <> VNone) \/ (exists v, dget d (lit "cty") = Some v /\ not_text v))) \/
      (e = EKeyError /\ (dget d (lit "alg") = None \/ exists a, dget d (lit "alg") = Some (VStr a) /\
         ~ In a [lit "HS256"; lit "HS384"; lit "HS512"; lit "RS256"; lit "RS384"; lit "RS512"; lit "PS256"; lit "PS384"; lit "PS512"; lit "ES256"; lit "ES384"; lit "ES512"])) \/
      (e = ETypeError /\ exists a, dget d (lit "alg") = Some (VStr a) /\ In a [lit "ES256"; lit "ES384"; lit "ES512"]))).
Proof. exact verify_raises. Qed.
Print Assumptions C211_verify_raises.
Lemma std_rsa_total : forall sc h k m sg x, p_rsa_verify std sc h k m sg <> Raise x.
Proof. intros sc h k m sg x H. change (Rsa.rsa_verify sc h k m sg = Raise x) in H. unfold Rsa.rsa_verify, Rsa.to_bool in H. destruct (if negb _ then _ else _) in H; discriminate H. Qed.
Example C211_ex : (forall sc h k m sg x, p_rsa_verify std sc h k m sg <> Raise x) /\ sound_key ex_key /\ sound_key enc_rsa /\ sound_key ex_ec /\
  snd (verify_compact std new_jws (VStr (lit "eyJhbGciOiJIUzk5OSJ9.e30.")) (Some [ex_key]) false VNone) = Raise EKeyError /\
  snd (verify_compact std new_jws (VStr (lit "MQ.e30.")) (Some [ex_key]) false VNone) = Raise ETypeError /\
  snd (verify_compact std new_jws (VStr ex_tok) (Some [raw_sym (lit "other")]) false VNone) = Raise EBadSignature.
Proof. split; [exact std_rsa_total|]. split; [reflexivity|]. split; [reflexivity|]. split; [split; [reflexivity|split; intro X; vm_compute in X; discriminate X]|]. repeat split; vm_compute; reflexivity. Qed.

(** C212: further keys *)
Theorem C212_keys_behind : forall P s token ks more an sigalg s' m k, ks <> [] -> verify_compact P s token (Some ks) an sigalg = (s', Ok (m, k)) ->
  verify_compact P s token (Some (ks ++ more)) an sigalg = (s', Ok (m, k)).
Proof. exact more_keys. Qed.
Print Assumptions C212_keys_behind.
Theorem C212_keys_in_front : forall P s token j d a pre ks an sigalg s' m k, (forall sc h r m s b, p_rsa_verify P sc h r m s <> Raise b) -> ks <> [] -> (forall x, In x pre -> sound_key x) ->
  unpack token = Ok j -> j_headers j = VDict d -> dget d (lit "alg") = Some (VStr a) ->
  In a [lit "HS256"; lit "HS384"; lit "HS512"; lit "RS256"; lit "RS384"; lit "RS512"; lit "PS256"; lit "PS384"; lit "PS512"] ->
  verify_compact P s token (Some ks) an sigalg = (s', Ok (m, k)) ->
  exists s'' k', verify_compact P s token (Some (pre ++ ks)) an sigalg = (s'', Ok (m, k')).
Proof. exact front_keys. Qed.
Print Assumptions C212_keys_in_front.
Theorem C212_jwe_keys_behind : forall P sent w token ks more alg cek m w', ks <> [] -> jwe_decrypt P sent w token (Some ks) alg cek = Ok (m, w') ->
  jwe_decrypt P sent w token (Some (ks ++ more)) alg cek = Ok (m, w').
Proof. exact jwe_more_keys. Qed.
Print Assumptions C212_jwe_keys_behind.
(** A key object without a secret in front makes a good token fail. *)
Theorem C212_unusable_key_refuted : exists bad, snd (verify_compact std new_jws (VStr ex_tok) (Some [ex_key; bad]) false VNone) = Ok (VStr (lit "hello"), Some ex_key) /\
  snd (verify_compact std new_jws (VStr ex_tok) (Some [bad; ex_key]) false VNone) = Raise ETypeError.
Proof.
  exists (fields (VStr (lit "oct")) (VStr []) (VStr []) (VStr []) (DSym VNone (VStr (lit "c2VjcmV0")))). split; vm_compute; reflexivity.
Qed.
Print Assumptions C212_unusable_key_refuted.
Example C212_ex : snd (verify_compact std new_jws (VStr ex_tok) (Some [raw_sym (lit "other"); ex_key]) false VNone) = Ok (VStr (lit "hello"), Some ex_key) /\
  (forall sent, jwe_decrypt std sent new_jwe (VStr kw_tok) (Some [raw_sym (lit "secret")]) VNone [] = Ok (lit "hi", w_set new_jwe (lit "cek") VNone)).
Proof. split; [vm_compute; reflexivity|exact kw_opens]. Qed.

(** C213: the code never uses the constant b of a curve: multiplying a point that is not on the curve is multiplying it on the
    curve with the same a that it is on. *)
Theorem C213_off_curve : forall c x y d, 0 <= d ->
  let b := y * y - x * x * x - (- c_a c) * x in good_curve (c_p c) (- c_a c) b -> no_two_torsion (c_p c) (- c_a c) b ->
  on_curve (c_p c) (- c_a c) b (GP (c_p c) x y) /\
  ((exists u v, 0 <= u < c_p c /\ 0 <= v < c_p c /\ GP (c_p c) u v = gmul (c_p c) (- c_a c) d (GP (c_p c) x y) /\ dh_z c d (Some (x, y)) = Ok (int2bytes c u)) \/
   (gmul (c_p c) (- c_a c) d (GP (c_p c) x y) = GO (c_p c) /\ dh_z c d (Some (x, y)) = Raise ETypeError)).
Proof. exact dh_through. Qed.
Print Assumptions C213_off_curve.
(** The point (1, 7) is on y^2 = x^3 - 3x + 51. *)
Example C213_ex : element (Some (1, 7)) (c_a P256) (c_b P256) (c_p P256) = false /\ 7 * 7 - 1 * 1 * 1 - (- c_a P256) * 1 = 51 /\
  good_curve (c_p P256) (- c_a P256) 51 /\ no_two_torsion (c_p P256) (- c_a P256) 51 /\ dh_z P256 1 (Some (1, 7)) = Ok (z2be 32 1).
Proof. split; [vm_compute; reflexivity|]. split; [reflexivity|]. split; [exact curve51_good|]. split; [exact curve51_no2|]. vm_compute. reflexivity. Qed.

(** C214: the point (3, 4) is on none of the curves, and a token with it as ephemeral key tells whether three divides the private value. *)
Theorem C214_order_three : forall name c, by_name name = Ok c -> forall d, 0 <= d ->
  element (Some (3, 4)) (c_a c) (c_b c) (c_p c) = false /\
  dh_z c d (Some (3, 4)) = if d mod 3 =? 0 then Raise ETypeError else Ok (int2bytes c 3).
Proof. exact dh_three. Qed.
Print Assumptions C214_order_three.
Theorem C214_content_key : forall P, hash_law P -> forall name c, by_name name = Ok c -> forall j h key d apu apv e n,
  j_headers j = VDict h -> dget h (lit "epk") = Some (VDict [(lit "kty", VStr (lit "EC")); (lit "crv", VStr name); (lit "x", VStr (lit "Aw")); (lit "y", VStr (lit "BA"))]) ->
  dget h (lit "alg") = Some (VStr (lit "ECDH-ES")) -> dget h (lit "enc") = Some (VStr e) -> In (e, n) content_bits -> party_octets h (lit "apu") apu -> party_octets h (lit "apv") apv ->
  Z.of_nat (length apu) < 2 ^ 32 -> Z.of_nat (length apv) < 2 ^ 32 -> (forall i, (2 <= i <= 4)%nat -> exists b, part j i = Ok b) -> private_number key d -> 0 <= d ->
  ec_dec_setup P j key = if d mod 3 =? 0 then Raise ETypeError else Ok (hashed P (int2bytes c 3) (party_info e apu apv n) n).
Proof. exact leak_setup. Qed.
Print Assumptions C214_content_key.
Theorem C214_token_refuted : exists tok, forall sent keys key d, first_fit (suitable (lit "EC") VNone (VStr (lit "enc")) (VStr (lit "ECDH-ES"))) keys key -> private_number key d -> 0 <= d ->
  jwe_decrypt std sent new_jwe (VStr tok) (Some keys) VNone [] = if d mod 3 =? 0 then Raise ETypeError else Ok (lit "hi", w_set new_jwe (lit "cek") VNone).
Proof. exists leak_tok. exact leak_opens. Qed.
Print Assumptions C214_token_refuted.
Example C214_ex : first_fit (suitable (lit "EC") VNone (VStr (lit "enc")) (VStr (lit "ECDH-ES"))) [ex_ec] ex_ec /\ private_number ex_ec 1 /\
  party_octets leak_head (lit "apu") [65] /\ part leak_jwt 4 = Ok [22; 68; 184; 107; 118; 191; 50; 242; 158; 120; 44; 163; 141; 74; 184; 30].
Proof.
  split; [apply only_fit; apply ec_suitable|]. split; [exists (VInt 1); split; reflexivity|]. split; [exists (lit "QQ"); repeat split; reflexivity|reflexivity].
Qed.

(** C215: AES_CBC_HMAC_SHA2 block by block *)
Theorem C215_encrypt : forall P key iv aad pt ct tag, aes_cbc_hmac_encrypt P key iv aad pt = Ok (ct, tag) ->
  exists n h pad ps cs, In (n, h) [(16%nat, SHA256); (24%nat, SHA384); (32%nat, SHA512)] /\ length key = (2 * n)%nat /\ length iv = 16%nat /\ (1 <= pad <= 16)%nat /\
    Forall (fun b : bytes => length b = 16%nat) ps /\ concat ps = pt ++ repeat (Z.of_nat pad) pad /\ ct = concat cs /\ cbc_of (p_aes_enc P (skipn n key)) iv ps cs /\
    tag = firstn n (p_hmac P h (firstn n key) (aad ++ iv ++ ct ++ z2be 8 (8 * Z.of_nat (length aad)))).
Proof. exact cbc_hmac_spec. Qed.
Print Assumptions C215_encrypt.
Theorem C215_decrypt : forall P key iv aad ct tag pt, aes_cbc_hmac_decrypt P key iv aad ct tag = Ok pt ->
  exists n h ps cs last, In (n, h) [(16%nat, SHA256); (24%nat, SHA384); (32%nat, SHA512)] /\ length key = (2 * n)%nat /\ length iv = 16%nat /\
    tag = firstn n (p_hmac P h (firstn n key) (aad ++ iv ++ ct ++ z2be 8 (8 * Z.of_nat (length aad)))) /\
    Forall (fun b : bytes => length b = 16%nat) cs /\ ct = concat cs /\ cbc_back (p_aes_dec P (skipn n key)) iv cs ps /\
    (exists front, concat ps = front ++ [last]) /\ last <= 16 /\ (0 < last -> pt = firstn (length (concat ps) - Z.to_nat last) (concat ps)) /\ (last <= 0 -> pt = []).
Proof. exact cbc_hmac_spec_dec. Qed.
Print Assumptions C215_decrypt.
(** RFC 7518, appendix B.2, the tag; and the way back. *)
Example C215_ex :
  let key := z2be 48 0x000102030405060708090a0b0c0d0e0f101112131415161718191a1b1c1d1e1f202122232425262728292a2b2c2d2e2f in
  let iv := z2be 16 0x1af38c2dc2b96ffdd86694092341bc04 in
  match aes_cbc_hmac_encrypt std key iv (lit "The second principle of Auguste Kerckhoffs") (lit "A cipher system must not be required to be secret, and it must be able to fall into the hands of the enemy without inconvenience") with
  | Ok (ct, tag) => tag = z2be 24 0x8490ac0e58949bfe51875d733f93ac2075168039ccc733d7 /\ firstn 16 ct = z2be 16 0xea65da6b59e61edb419be62d19712ae5
  | Raise _ => False end.
Proof. vm_compute. split; reflexivity. Qed.
