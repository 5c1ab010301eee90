(** * C279: what JWE.encrypt can raise *)
From Coq Require Import ZArith List Bool Lia.
From Verif Require Import Base Utf8 Codec Json Jwt Prims Inst Elliptic Ecc Jwk JwkProofs JwkEx Jws JwsEx Jwe JweProofs JweEx EncRaise.
Import ListNotations.
Open Scope Z_scope.

Theorem C279_raises : forall P R w ks cek iv kid e, aes_law P -> hash_law P -> (forall m, bytes_ok m = true -> bytes_ok (p_compress P m) = true) -> draws_ok R -> bytes_ok iv = true ->
  (forall b, w_msg w = VBytes b -> bytes_ok b = true) -> w_jwk w = None -> w_epk w = None ->
  ks <> [] -> (forall k, In k ks -> enc_key_ok k) -> jwe_encrypt P R w (Some ks) cek iv kid = Raise e ->
  (is_ValueError e = true \/
   In e [ENoSuitableEncryptionKey; ENotSupportedAlgorithm; EInvalidInputException; EOverflowError; EStructError; EException; ETypeError; EAttributeError]) \/
  (e = EKeyError /\ (dget (w_dict w) (lit "alg") = None \/ dget (w_dict w) (lit "enc") = None \/ exists a, dget (w_dict w) (lit "alg") = Some (VStr a) /\ dget ALG2KEYLEN a = None)) \/
  exists a, dget (w_dict w) (lit "alg") = Some (VStr a) /\
   ((In a [lit "RSA-OAEP"; lit "RSA-OAEP-256"; lit "RSA1_5"] /\
     ((e = EParameterError /\ exists z, dget (w_dict w) (lit "zip") = Some z /\ z <> VStr (lit "DEF")) \/
      (e = EHeaderError /\ exists v, (forall t, v <> VStr t) /\ (dget (w_dict w) (lit "kid") = Some v \/ exists k, In k ks /\ k_kid k = v)) \/
      exists s k r m, p_rsa_encrypt P s k r m = Raise e)) \/
    (startswith a (lit "ECDH-ES") = true /\ In e [EECCException; ESerializationNotPossible; EBadSyntax])).
Proof. exact encrypt_raises. Qed.
Print Assumptions C279_raises.

Definition ethrown (w : jwe) (k : jwk) (cek : bytes) : option exn := match jwe_encrypt std ex_draws w (Some [k]) cek [] None with Ok _ => None | Raise e => Some e end.
Definition more (w : jwe) (n : ustr) (v : pval) : jwe := {| w_msg := w_msg w; w_dict := dset (w_dict w) n v; w_jwk := None; w_epk := None; w_jwt := None |}.
Definition crv0 : jwk := match k_data ex_ec with DEc o _ x y d c => fields (VStr (lit "EC")) (VStr []) (VStr (lit "enc")) (VStr []) (DEc o (VStr (lit "P-0")) x y d c) | _ => ex_ec end.
Definition msg_hi (alg enc : ustr) : jwe := ex_jwe alg enc (VStr (lit "hi")).
Example C279_ex : aes_law std /\ hash_law std /\ (forall m, bytes_ok m = true -> bytes_ok (p_compress std m) = true) /\ draws_ok ex_draws /\ enc_key_ok (raw_sym (lit "secret")) /\ enc_key_ok enc_rsa /\ enc_key_ok crv0 /\
  ethrown new_jwe (raw_sym (lit "secret")) [] = Some EKeyError /\ ethrown (msg_hi (lit "AKW") (lit "A128GCM")) (raw_sym (lit "secret")) [] = Some EKeyError /\
  ethrown (msg_hi (lit "A128KW") (lit "A128")) (raw_sym (lit "secret")) [] = Some EException /\
  ethrown (msg_hi (lit "A128KW") (lit "A128GCM")) enc_rsa [] = Some ENoSuitableEncryptionKey /\
  ethrown (more (msg_hi (lit "RSA-OAEP") (lit "A128GCM")) (lit "zip") (VStr (lit "X"))) enc_rsa [] = Some EParameterError /\
  ethrown (msg_hi (lit "RSA-OAEP") (lit "A128GCM")) (set_kid enc_rsa (VInt 5)) (repeat 1 16) = Some EHeaderError /\
  ethrown (msg_hi (lit "ECDH-ES") (lit "A128GCM")) crv0 [] = Some EECCException /\
  ethrown (more (msg_hi (lit "ECDH-ES") (lit "A128GCM")) (lit "epk") (VInt 1)) ex_ec [] = Some ESerializationNotPossible /\
  ethrown (more (msg_hi (lit "ECDH-ES") (lit "A128GCM")) (lit "apu") (VBytes (lit "*"))) ex_ec [] = Some EBadSyntax.
Proof. split; [exact std_aes_law|]. split; [exact std_hash_law|]. split; [intros m B; apply std_zip_law; exact B|]. split; [exact ex_draws_ok|]. split; [cbn; discriminate|]. split; [exact I|]. split; [exact I|]. vm_compute. repeat split. Qed.
