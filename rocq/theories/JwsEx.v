(** * Example tokens and the cases that refute properties of JSON Web Signatures *)
From Coq Require Import ZArith List Bool Lia.
From Verif Require Import Base BaseProofs Utf8 Codec Json JsonProofs Jwt JwtProofs Prims Elliptic Ecc Inst EcAux Nist PvalEq Jwk JwkProofs JwkEx Jws JwsProofs JwsProofs2 JwsProofs3 JwsProofs4 JwsProofs5 JwsProofs6 JwsProofs7 JwsProofs8.
Import ListNotations.
Open Scope Z_scope.

Definition ex_key : jwk := raw_sym (lit "secret").
Definition ex_E : entropy := {| e_oct := []; e_bits := fun _ => 41; e_fuel := 3 |}.
(** JWS("hello", alg="HS256") *)
Definition ex_jws : jws := {| s_msg := VStr (lit "hello"); s_dict := [(lit "alg", VStr (lit "HS256"))]; s_jwk := None; s_jwt := None; s_key := None |}.

Definition ex_h : ustr := lit "eyJhbGciOiJIUzI1NiJ9".
Definition ex_p : ustr := lit "aGVsbG8".
Definition ex_sig : ustr := lit "UYmO_lPAY5V0Wf4KZsfhiYs1SxqXPhxvjuYqellDV5A".
(** the same signature octets, other unused bits in the last character *)
Definition ex_sig2 : ustr := lit "UYmO_lPAY5V0Wf4KZsfhiYs1SxqXPhxvjuYqellDV5B".
Definition ex_tok : ustr := ex_h ++ 46 :: ex_p ++ 46 :: ex_sig.
Definition ex_tok2 : ustr := ex_h ++ 46 :: ex_p ++ 46 :: ex_sig2.

Lemma ex_init : jws_init std (VStr (lit "hello")) [(lit "alg", VStr (lit "HS256"))] None = Ok ex_jws.
Proof. vm_compute. reflexivity. Qed.
Lemma ex_signed : snd (sign_compact std ex_E ex_jws (Some [ex_key]) []) = Ok ex_tok.
Proof. vm_compute. reflexivity. Qed.
Lemma ex_verified : snd (verify_compact std new_jws (VStr ex_tok) (Some [ex_key]) false VNone) = Ok (VStr (lit "hello"), Some ex_key).
Proof. vm_compute. reflexivity. Qed.
Lemma ex_verified2 : snd (verify_compact std new_jws (VStr ex_tok2) (Some [ex_key]) false VNone) = Ok (VStr (lit "hello"), Some ex_key).
Proof. vm_compute. reflexivity. Qed.

(** C14: a kid in the protected header, a key without one. *)
Lemma kid_conflict_refuted : exists s key protected tok, snd (sign_compact std ex_E s (Some [key]) protected) = Ok tok /\
  dget (s_dict s) (lit "alg") = Some (VStr (lit "HS256")) /\ suitable (lit "oct") VNone (VStr (lit "sig")) (VStr (lit "HS256")) key /\
  snd (verify_compact std new_jws (VStr tok) (Some [key]) false VNone) = Raise ENoSuitableSigningKeys.
Proof.
  exists ex_jws, ex_key, [(lit "kid", VStr (lit "x"))]. set (r := snd (sign_compact std ex_E ex_jws (Some [ex_key]) [(lit "kid", VStr (lit "x"))])).
  vm_compute in r. match eval unfold r in r with Ok ?t => exists t end. split; [subst r; vm_compute; reflexivity|]. split; [reflexivity|]. split.
  - split; [left; reflexivity|]. split; [intro X; discriminate X|]. split; intros X Y; discriminate Y.
  - vm_compute. reflexivity.
Qed.

(** C18 *)
Lemma not_in_table_refuted : exists token j d, unpack token = Ok j /\ j_headers j = VDict d /\ ~ (exists a g, dget d (lit "alg") = Some (VStr a) /\ In (a, g) SIGNERS) /\
  forall P, snd (verify_compact P new_jws token None true VNone) = Ok (VStr (lit "hello"), None).
Proof.
  exists (VStr (lit "eyJhbGciOiJOT05FIn0.aGVsbG8.")).
  exists {| j_headers := VDict [(lit "alg", VStr (lit "NONE"))]; j_b64 := [lit "eyJhbGciOiJOT05FIn0"; lit "aGVsbG8"; []]; j_part := [VBytes (lit "{""alg"":""NONE""}"); VBytes (lit "hello"); VBytes []] |}.
  exists [(lit "alg", VStr (lit "NONE"))]. split; [vm_compute; reflexivity|]. split; [reflexivity|]. split.
  - intros (a & g & A & I). vm_compute in A. injection A as <-. apply In_dget in I; [|reflexivity]. vm_compute in I. discriminate.
  - intro P. vm_compute. reflexivity.
Qed.

(** C21 *)
Definition enc_key : jwk := fields (VStr (lit "oct")) (VStr []) (VStr (lit "enc")) (VStr []) (DSym (VBytes (lit "secret")) (VStr [])).
Lemma enc_key_refuted : exists token k, k_use k = VStr (lit "enc") /\ snd (verify_compact std new_jws token (Some [k]) false VNone) = Ok (VStr (lit "hello"), Some k).
Proof. exists (VStr ex_tok), enc_key. split; [reflexivity|]. vm_compute. reflexivity. Qed.

(** C23 *)
Lemma two_texts_refuted : exists h p x1 x2 k m, x1 <> x2 /\ snd (verify_compact std new_jws (VStr (h ++ 46 :: p ++ 46 :: x1)) (Some [k]) false VNone) = Ok m /\
  snd (verify_compact std new_jws (VStr (h ++ 46 :: p ++ 46 :: x2)) (Some [k]) false VNone) = Ok m.
Proof.
  exists ex_h, ex_p, ex_sig, ex_sig2, ex_key, (VStr (lit "hello"), Some ex_key). split; [intro X; vm_compute in X; discriminate|].
  split; [exact ex_verified|exact ex_verified2].
Qed.

(** C27 *)
Definition no_sigs : ustr := lit "{""payload"":""e30"",""signatures"":[]}".
Lemma no_signature_refuted : forall P s keys, verify_json P s (VStr no_sigs) keys false VNone = Ok (VNone, s).
Proof. intros P s keys. vm_compute. reflexivity. Qed.

(** C29 *)
Definition embedded : ustr := lit "{""payload"":""aGVsbG8"",""protected"":""eyJhbGciOiJIUzI1NiJ9"",""header"":{""jwk"":{""kty"":""oct"",""k"":""c2VjcmV0""}},""signature"":""UYmO_lPAY5V0Wf4KZsfhiYs1SxqXPhxvjuYqellDV5A""}".
Lemma embedded_key_refuted : exists text, (m <- verify_json std new_jws (VStr text) None false VNone;; Ok (fst m)) = Ok (VStr (lit "hello")) /\
  s_jwk new_jws = None /\ s_dict new_jws = [].
Proof. exists embedded. split; [vm_compute; reflexivity|split; reflexivity]. Qed.

(** C30 *)
Definition crit_tok : ustr := lit "eyJhbGciOiJIUzI1NiIsImNyaXQiOlsiZXhwIl0sImV4cCI6MX0.aGVsbG8.Z-ZjYHtePWwMllvEAhUHYiUq5lo5JaiIk9PfzGcz8jA".
Lemma crit_refuted : exists token d k, (j <- unpack token;; Ok (j_headers j)) = Ok (VDict d) /\ dget d (lit "crit") = Some (VList [VStr (lit "exp")]) /\
  snd (verify_compact std new_jws token (Some [k]) false VNone) = Ok (VStr (lit "hello"), Some k).
Proof.
  exists (VStr crit_tok), [(lit "alg", VStr (lit "HS256")); (lit "crit", VList [VStr (lit "exp")]); (lit "exp", VInt 1)], ex_key.
  split; [vm_compute; reflexivity|]. split; [vm_compute; reflexivity|]. vm_compute. reflexivity.
Qed.

(** C31 *)
Lemma recognition_refuted : factory (VStr (lit "[]")) = Raise EAttributeError /\ factory (VStr (lit "1.5")) = Raise EAttributeError /\
  factory (VStr (lit "MQ.e30.")) = Raise ETypeError /\ factory (VStr (lit "eyJhbGciOltdfQ.e30.")) = Raise ETypeError.
Proof. vm_compute. repeat split; reflexivity. Qed.

(** C33: an instance with a jku at which the right key is published, and one with x5u. *)
Definition with_fetch (t : ustr) : prims := {|
  p_aes_enc := p_aes_enc std; p_aes_dec := p_aes_dec std; p_hash := p_hash std; p_hmac := p_hmac std; p_rsa_sign := p_rsa_sign std; p_rsa_verify := p_rsa_verify std;
  p_rsa_encrypt := p_rsa_encrypt std; p_rsa_decrypt := p_rsa_decrypt std; p_compress := p_compress std; p_decompress := p_decompress std; p_rsa_construct := p_rsa_construct std;
  p_der2rsa := p_der2rsa std; p_fetch := fun _ => Ok t |}.
Definition published : ustr := lit "{""keys"":[{""kty"":""oct"",""k"":""c2VjcmV0""}]}".
Definition jku_jws : jws := {| s_msg := VNone; s_dict := [(lit "jku", VStr (lit "https://example.com/jwks"))]; s_jwk := None; s_jwt := None; s_key := None |}.
Lemma jku_refuted : exists P s ks token, load_from_url P [] (lit "https://example.com/jwks") = (ks, None) /\ dget (s_dict s) (lit "jku") = Some (VStr (lit "https://example.com/jwks")) /\
  (' (m, _) <- snd (verify_compact P s token (Some ks) false VNone);; Ok m) = Ok (VStr (lit "hello")) /\
  snd (verify_compact P s token None false VNone) = Raise EAttributeError.
Proof.
  exists (with_fetch published), jku_jws. set (r := load_from_url (with_fetch published) [] (lit "https://example.com/jwks")). vm_compute in r.
  match eval unfold r in r with (?k, _) => exists k end. exists (VStr ex_tok). split; [subst r; vm_compute; reflexivity|]. split; [reflexivity|]. split; vm_compute; reflexivity.
Qed.

(** C28: a kid outside the protected header, a key without one. *)
Lemma json_kid_refuted : exists headers text, sign_json std (fun _ => ex_E) ex_jws (Some [ex_key]) (Some headers) false = Ok text /\
  verify_json std new_jws (VStr text) (Some [ex_key]) false VNone = Raise ENoSuitableSigningKeys.
Proof.
  exists [([], [(lit "kid", VStr (lit "x"))])]. set (r := sign_json std (fun _ => ex_E) ex_jws (Some [ex_key]) (Some [([], [(lit "kid", VStr (lit "x"))])]) false).
  vm_compute in r. match eval unfold r in r with Ok ?t => exists t end. split; [subst r; vm_compute; reflexivity|]. vm_compute. reflexivity.
Qed.
Lemma json_none_refuted : exists text, (forall P Es s, s_msg s = VStr (lit "hello") -> sign_json P Es s (Some [ex_key]) (Some []) false = Ok text) /\
  forall P, verify_json P new_jws (VStr text) (Some [ex_key]) false VNone = Ok (VNone, new_jws).
Proof.
  exists (lit "{""payload"": ""aGVsbG8"", ""signatures"": []}"). split.
  - intros P Es s M. unfold sign_json. rewrite M. vm_compute. reflexivity.
  - intro P. vm_compute. reflexivity.
Qed.

(** Two signatures, the second with an unprotected header. *)
Definition ex_pairs : list (dict * dict) := [([], []); ([(lit "typ", VStr (lit "x"))], [(lit "foo", VInt 1)])].
Lemma ex_keys_fit : keys_fit std (lit "HS256") (HMACSigner SHA256) (lit "oct") [ex_key].
Proof.
  assert (G : forall b, get_key ex_key b = Ok (MObj (OVal (VBytes (lit "secret"))))) by reflexivity.
  split; [reflexivity|reflexivity|discriminate|..].
  - intros k [<-|[]] _. apply (works_hmac _ _ _ (lit "secret")); [exact std_hmac_law|reflexivity|apply G|apply G].
  - intros k [<-|[]]. exists []. split; reflexivity.
  - intros k k' [<-|[]] [<-|[]]. left. reflexivity.
Qed.
Lemma ex_usable : forall pr, In pr ex_pairs -> usable std ex_jws [ex_key] pr.
Proof.
  intros pr I. exists (lit "HS256"), (HMACSigner SHA256), (lit "oct"). split; [|split; [exact ex_keys_fit|]].
  - destruct I as [<-|[<-|[]]]; reflexivity.
  - destruct I as [<-|[<-|[]]]; (split; try reflexivity; [left; reflexivity|split; reflexivity]).
Qed.

(** An EC key for signing: private value 1 on P-256. *)
Lemma ex_ec_works : works std (DSASigner SHA256 256) ex_ec.
Proof.
  apply (works_ec std SHA256 256 P256 ex_ec 1 (fst (c_G P256)) (snd (c_G P256))); [exact std_hash_law|left; reflexivity|exact P256_eq| | | |].
  - vm_compute. split; reflexivity.
  - vm_compute. reflexivity.
  - vm_compute. reflexivity.
  - vm_compute. reflexivity.
Qed.

(** A JWK with kty "ec". *)
Definition low_ec : dict := [(lit "kty", VStr (lit "ec")); (lit "crv", VStr (lit "P-256")); (lit "x", VStr (lit "AQ")); (lit "y", VStr (lit "Ag")); (lit "kid", VStr (lit "k"))].
Definition low_key : jwk :=
  {| k_kty := VStr (lit "ec"); k_alg := VStr []; k_use := VStr []; k_kid := VStr (lit "k"); k_x5c := VList []; k_x5t := VStr []; k_x5u := VStr [];
     k_extra := [(lit "crv", VBytes (lit "P-256")); (lit "x", VBytes (lit "AQ")); (lit "y", VBytes (lit "Ag"))]; k_hash := None; k_data := DKey (OVal VNone) |}.
Lemma low_key_eq : keyrep std (VDict low_ec) = Ok low_key.
Proof. vm_compute. reflexivity. Qed.
Definition low_h : ustr := lit "{""alg"":""ES256"",""kid"":""k""}".
Lemma low_digest : (trunc (be2z (p_hash std SHA256 (b64e low_h ++ 46 :: b64e (lit "hello")))) (c_N P256) mod c_N P256 =? 0) = false.
Proof. vm_compute. reflexivity. Qed.
