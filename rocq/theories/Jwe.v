(** * Model of src/jwkest/jwe.py *)
From Coq Require Import ZArith List Bool.
From Verif Require Import Base Utf8 Codec Json Jwt Prims Elliptic Ecc KeyWrap Extra Gcm Jwk Jws.
Import ListNotations.
Open Scope Z_scope.

(** The random octets and bits of one encryption: a generated content key and IV (as a function of the number of octets
    asked for), PartyUInfo and PartyVInfo, the randomness of RSA padding, the bits of the ephemeral EC key. *)
Record draws := { r_cek : nat -> bytes; r_iv : nat -> bytes; r_apu : bytes; r_apv : bytes; r_pad : bytes; r_eph : Z }.

Definition is_nil {A} (l : list A) : bool := match l with [] => true | _ => false end.

(** ** Tables *)

(** KEYLEN, jwe.py:90-97 (bits). *)
Definition KEYLEN : list (ustr * Z) :=
  [(lit "A128GCM", 128); (lit "A192GCM", 192); (lit "A256GCM", 256);
   (lit "A128CBC-HS256", 256); (lit "A192CBC-HS384", 384); (lit "A256CBC-HS512", 512)].
(** SUPPORTED, jwe.py:234-239. *)
Definition SUPPORTED_ALG : list ustr :=
  [lit "RSA1_5"; lit "RSA-OAEP"; lit "RSA-OAEP-256"; lit "A128KW"; lit "A192KW"; lit "A256KW";
   lit "ECDH-ES"; lit "ECDH-ES+A128KW"; lit "ECDH-ES+A192KW"; lit "ECDH-ES+A256KW"].
Definition SUPPORTED_ENC : list ustr :=
  [lit "A128CBC-HS256"; lit "A192CBC-HS384"; lit "A256CBC-HS512"; lit "A128GCM"; lit "A192GCM"; lit "A256GCM"].
(** ENCALGLEN1 and ENCALGLEN2, jwe.py:255-265 (octets). *)
Definition ENCALGLEN1 : list (ustr * nat) := [(lit "A128GCM", 16%nat); (lit "A192GCM", 24%nat); (lit "A256GCM", 32%nat)].
Definition ENCALGLEN2 : list (ustr * nat) :=
  [(lit "A128CBC-HS256", 32%nat); (lit "A192CBC-HS384", 48%nat); (lit "A256CBC-HS512", 64%nat)].
(** The lists of jwe.py:361, 365, 385, 393. *)
Definition GCM_ENCS : list ustr := [lit "A128GCM"; lit "A192GCM"; lit "A256GCM"].
Definition CBC_ENCS : list ustr := [lit "A128CBC-HS256"; lit "A192CBC-HS384"; lit "A256CBC-HS512"].

(** [v in l] for a list of texts. *)
Definition in_texts (v : pval) (l : list ustr) : bool := existsb (fun t => pval_eqb v (VStr t)) l.

(** ** RSAEncrypter, jwe.py:115-159 *)

(** encrypt, jwe.py:116-128.  [digest] is with_digest; it only concerns PKCS#1 v1.5. *)
Definition rsa_encrypt (P : prims) (digest : bool) (s : encscheme) (k : rsakey) (rnd msg : bytes) : res bytes :=
  match s with
  | RSA15 => p_rsa_encrypt P s k rnd (if digest then msg ++ p_hash P SHA1 msg else msg)
  | _ => p_rsa_encrypt P s k rnd msg
  end.

(** decrypt, jwe.py:130-159.  [sentinel] are the random octets returned for a bad PKCS#1 v1.5 padding. *)
Definition rsa_decrypt (P : prims) (digest : bool) (s : encscheme) (k : rsakey) (sentinel ct : bytes) : res bytes :=
  r <- p_rsa_decrypt P s k ct;;
  match s with
  | RSA15 =>
      let text := match r with Some m => m | None => sentinel end in
      if digest then
        let m := firstn (length text - 20) text in
        if zs_eqb (p_hash P SHA1 m) (skipn (length text - 20) text) then Ok m else Raise EDecryptionFailed
      else if zs_eqb text sentinel then Raise EDecryptionFailed else Ok text
  | _ => match r with Some m => Ok m | None => Raise EValueError end
  end.

(** ** class JWe, jwe.py:324-396 *)

(** _generate_key_and_iv, jwe.py:325-344; an absent cek or iv is the empty string. *)
Definition generate_key_and_iv (R : draws) (enc : pval) (cek iv : bytes) : res (bytes * bytes) :=
  if negb (is_nil cek) && negb (is_nil iv) then Ok (cek, iv)
  else
    ' (kl, il) <- match enc with
                  | VStr e =>
                      match dget ENCALGLEN1 e with
                      | Some n => Ok (n, 12%nat)
                      | None => match dget ENCALGLEN2 e with Some n => Ok (n, 16%nat) | None => Raise EException end
                      end
                  | VList _ | VDict _ => Raise ETypeError
                  | _ => Raise EException
                  end;;
    Ok (if is_nil cek then r_cek R kl else cek, if is_nil iv then r_iv R il else iv).

(** enc_setup, jwe.py:349-371: ciphertext, tag and content key. *)
Definition enc_setup (P : prims) (R : draws) (enc : pval) (msg aad cek iv : bytes) : res (bytes * bytes * bytes) :=
  ' (key, iv) <- generate_key_and_iv R enc cek iv;;
  if in_texts enc GCM_ENCS then
    g <- gcm_new P (be2z key);;
    ' (ct, tag) <- snd (gcm_encrypt P g (be2z iv) msg aad);;
    Ok (ct, long_to_bytes tag 1, key)
  else if in_texts enc CBC_ENCS then
    ' (ct, tag) <- aes_cbc_hmac_encrypt P key iv aad msg;;
    Ok (ct, tag, key)
  else Raise ENotSupportedAlgorithm.

(** _decrypt, jwe.py:373-396. *)
Definition content_decrypt (P : prims) (enc : pval) (key ct aad iv tag : bytes) : res bytes :=
  if in_texts enc GCM_ENCS then
    g <- gcm_new P (be2z key);;
    gcm_decrypt P g (be2z iv) ct (be2z tag) aad
  else if in_texts enc CBC_ENCS then aes_cbc_hmac_decrypt P key iv aad ct tag
  else Raise EException.

(** ** Instances of JWE and of JWE_SYM, JWE_RSA, JWE_EC *)

(** [w_dict] is _dict without the key objects that may be stored under jwk ([w_jwk]) and epk ([w_epk]). *)
Record jwe := { w_msg : pval; w_dict : dict; w_jwk : option jwk; w_epk : option jwk; w_jwt : option jwt }.
Definition w_set (w : jwe) (n : ustr) (v : pval) : jwe :=
  {| w_msg := w_msg w; w_dict := dset (w_dict w) n v; w_jwk := w_jwk w; w_epk := w_epk w; w_jwt := w_jwt w |}.

(** args, jws.py:244 with "enc" (jwe.py:400-401, 578-579), and jwe.py:729-730 (jwe.py:480-481 adds "msg", which is
    never in the dictionary). *)
Definition SYM_ARGS : list ustr :=
  [lit "alg"; lit "jku"; lit "jwk"; lit "x5u"; lit "x5t"; lit "x5c"; lit "kid"; lit "typ"; lit "cty"; lit "crit"; lit "enc"].
Definition JWE_ARGS : list ustr :=
  [lit "alg"; lit "enc"; lit "epk"; lit "zip"; lit "jku"; lit "jwk"; lit "x5u"; lit "x5t"; lit "x5c"; lit "kid"; lit "typ"; lit "cty";
   lit "apu"; lit "crit"].

(** The loop of JWx.__init__, jws.py:279-297; a jwk that becomes a key object ([objs]) does not go to the dictionary. *)
Fixpoint take_kw (kw : dict) (objs : list ustr) (names : list ustr) (acc : dict) : dict :=
  match names with
  | [] => acc
  | n :: r =>
      take_kw kw objs r
        (if in_names n objs then acc
         else match dget kw n with
              | None => if zs_eqb n (lit "alg") then dset acc n (VStr (lit "none")) else acc
              | Some v => if zs_eqb n (lit "x5c") || zs_eqb n (lit "crit")
                          then dset acc (lit "x5c") (if truthy v then v else VList []) else dset acc n v
              end)
  end.

(** JWE(msg, **kw), jws.py:271-297; [jobj], [eobj] are key objects given as jwk and epk. *)
Definition jwe_new (P : prims) (msg : pval) (kw : dict) (jobj eobj : option jwk) : res jwe :=
  j <- match jobj with
       | Some k => Ok (Some k)
       | None =>
           match dget kw (lit "jwk") with
           | Some (VDict d) => k <- keyrep P (VDict d);; Ok (Some k)
           | Some (VStr t) => v <- loads t;; k <- keyrep P v;; Ok (Some k)
           | _ => Ok None
           end
       end;;
  Ok {| w_msg := msg;
        w_dict := match kw, jobj, eobj with
                  | [], None, None => []
                  | _, _, _ => take_kw kw ((match j with Some _ => [lit "jwk"] | None => [] end) ++ match eobj with Some _ => [lit "epk"] | None => [] end) JWE_ARGS []
                  end;
        w_jwk := j; w_epk := eobj; w_jwt := None |}.

(** _dict of JWE_SYM(self.msg, **self._dict), JWE_EC( **self._dict), JWE_RSA( **self._dict): jwe.py:792-801, 863-872. *)
Definition sub_dict (w : jwe) (args : list ustr) : dict :=
  match w_dict w, w_jwk w, w_epk w with
  | [], None, None => []
  | _, _, _ => take_kw (w_dict w) ((match w_jwk w with Some _ => [lit "jwk"] | None => [] end) ++ match w_epk w with Some _ => [lit "epk"] | None => [] end) args []
  end.

(** pick_keys, _get_keys and alg2keytype are those of JWx (jws.py:343-420): JWE is not a subclass of JWe. *)
Definition as_jws (w : jwe) : jws :=
  {| s_msg := w_msg w; s_dict := w_dict w;
     s_jwk := match w_jwk w with Some k => Some (JKey k) | None => match dget (w_dict w) (lit "jwk") with Some v => Some (JVal v) | None => None end end;
     s_jwt := w_jwt w; s_key := None |}.

(** [d[n]] *)
Definition dict_get (d : dict) (n : ustr) : res pval := match dget d n with Some v => Ok v | None => Raise EKeyError end.

(** JWEnc( **header): a key object among the values cannot be converted (jwt.py:31). *)
Definition jwenc (header : dict) (objects : bool) : res jwt := if objects then Raise EValueError else jwt_init header.

(** Attribute access part[i], b64part[i], jwe.py:269-297. *)
Definition part (j : jwt) (i : nat) : res bytes := match nth_error (j_part j) i with Some (VBytes b) => Ok b | _ => Raise EIndexError end.
Definition b64part (j : jwt) (i : nat) : res bytes := match nth_error (j_b64 j) i with Some b => Ok b | None => Raise EIndexError end.

(** as_bytes of the message, __init__.py:215-225: text is encoded, anything that has no method encode is handed on. *)
Definition msg_bytes (m : pval) : res pval := match m with VStr t => b <- utf8_encode t;; Ok (VBytes b) | v => Ok v end.
(** Values of length 0 that are not bytes. *)
Definition no_items (m : pval) : bool := match m with VList [] | VDict [] => true | _ => false end.
(** enc_setup, jwe.py:349-371, given what as_bytes returned.  AES_GCM.encrypt (aes_gcm.py:133-158) takes the length of
    the message and, when that is 0, never looks at the message; otherwise the list or dictionary can be neither
    padded nor encrypted.  pkcs5pad (extra.py:32-43) adds bytes to the message. *)
Definition enc_setup_any (P : prims) (R : draws) (enc msg : pval) (aad cek iv : bytes) : res (bytes * bytes * bytes) :=
  match msg with
  | VBytes m => enc_setup P R enc m aad cek iv
  | _ =>
      if in_texts enc GCM_ENCS && no_items msg then enc_setup P R enc [] aad cek iv
      else
        ' (key, iv) <- generate_key_and_iv R enc cek iv;;
        if in_texts enc GCM_ENCS then
          g <- gcm_new P (be2z key);;
          if negb (be2z iv <? 2 ^ 96) then Raise EInvalidInputException else Raise ETypeError
        else if in_texts enc CBC_ENCS then _ <- get_keys_seclen_dgst key iv;; Raise ETypeError
        else Raise ENotSupportedAlgorithm
  end.

(** encryption_key, jwk.py:550-558, 650-652, 691-721; class Key has no such method.  The attributes it may set on the key
    are not kept. *)
Definition key_material (P : prims) (k : jwk) (alg : pval) (private : bool) : res material :=
  match k_data k with
  | DKey _ => Raise EAttributeError
  | DRsa _ _ => ' (o, _) <- rsa_encryption_key P k;; Ok (MObj o)
  | DEc _ _ _ _ _ _ => get_key k private
  | DSym _ _ => match alg with
                | VStr a => ' (b, _) <- sym_encryption_key P k a;; Ok (MObj (OVal (VBytes b)))
                | _ => Raise EKeyError
                end
  end.

(** *** JWE_SYM, jwe.py:399-476 *)

(** encrypt, jwe.py:403-443; [kid] is the keyword argument of this name.  The key is bytes when called by JWE. *)
Definition sym_encrypt (P : prims) (R : draws) (d : dict) (objects : bool) (msg : pval) (key : material) (cek iv : bytes) (kid : option pval) : res ustr :=
  let d := match kid with Some v => dset d (lit "kid") v | None => d end in
  j <- jwenc d objects;;
  enc <- dict_get d (lit "enc");;
  ' (cek, iv) <- generate_key_and_iv R enc cek iv;;
  kek <- as_secret key;;
  jek <- aes_wrap_key P kek cek;;
  m <- match msg with VStr t => utf8_encode t | _ => Raise EAttributeError end;;
  h <- b64encode_item (j_headers j);;
  ' (ct, tag, _) <- enc_setup P R enc m h cek iv;;
  ' (t, _) <- pack j [VBytes jek; VBytes iv; VBytes ct; VBytes tag] VNone;;
  Ok t.

(** decrypt, jwe.py:445-476; key or cek is [None]/empty when not given. *)
Definition sym_decrypt (P : prims) (d : dict) (j : jwt) (key : option material) (cek : bytes) : res bytes :=
  if match key with None | Some (MObj (OVal (VBytes []))) => is_nil cek | _ => false end then Raise EMissingKey
  else if negb (Nat.eqb (length (j_part j)) 5) then Raise EWrongNumberOfParts
  else
    cek <- (if is_nil cek then
              jek <- part j 1;;
              k <- match key with Some m => as_secret m | None => Raise ETypeError end;;
              aes_unwrap_key P k jek
            else Ok cek);;
    enc <- py_get (j_headers j) (lit "enc");;
    ct <- part j 3;; h <- b64part j 0;; iv <- part j 2;; tag <- part j 4;;
    m <- content_decrypt P enc cek ct h iv tag;;
    match dget d (lit "zip") with
    | Some z => if pval_eqb z (VStr (lit "DEF")) then p_decompress P m else Ok m
    | None => Ok m
    end.

(** *** JWE_RSA, jwe.py:479-574 *)

Definition rsa_scheme (alg : pval) : option encscheme :=
  if pval_eqb alg (VStr (lit "RSA-OAEP")) then Some OAEP
  else if pval_eqb alg (VStr (lit "RSA-OAEP-256")) then Some OAEP256
  else if pval_eqb alg (VStr (lit "RSA1_5")) then Some RSA15
  else None.

(** headers(), jws.py:317-341, without extra. *)
Fixpoint headers_loop (d : dict) (jser : option pval) (names : list ustr) : dict :=
  match names with
  | [] => []
  | n :: r =>
      match (if zs_eqb n (lit "jwk") then jser else None), dget d n with
      | Some v, _ => (n, v) :: headers_loop d jser r
      | None, Some v => if truthy v then (n, v) :: headers_loop d jser r else headers_loop d jser r
      | None, None => headers_loop d jser r
      end
  end.
Definition headers (d : dict) (jobj : option jwk) (args : list ustr) : res dict :=
  jser <- match jobj with
          | Some k => s <- serialize k false;; Ok (Some s)
          | None => if dmem d (lit "jwk") then Raise EAttributeError else Ok None
          end;;
  match dget d (lit "kid") with
  | Some (VStr _) | None => Ok (headers_loop d jser args)
  | Some _ => Raise EHeaderError
  end.

(** encrypt, jwe.py:483-528: token and content key.  with_digest is False for an instance made by JWE. *)
Definition rsa_jwe_encrypt (P : prims) (R : draws) (d : dict) (jobj eobj : option jwk) (msg : pval) (key : material) (cek iv : bytes) : res (ustr * bytes) :=
  m <- msg_bytes msg;;
  m <- match dget d (lit "zip") with
       | None => Ok m
       | Some z => if pval_eqb z (VStr (lit "DEF")) then match m with VBytes b => Ok (VBytes (p_compress P b)) | _ => Raise ETypeError end
                   else Raise EParameterError
       end;;
  enc <- dict_get d (lit "enc");;
  ' (cek', iv') <- generate_key_and_iv R enc cek iv;;
  alg <- dict_get d (lit "alg");;
  ek <- (if negb (is_nil cek) then Ok (VStr [])
         else match rsa_scheme alg with
              | Some s => k <- as_rsa key;; c <- rsa_encrypt P false s k (r_pad R) cek';; Ok (VBytes c)
              | None => Raise ENotSupportedAlgorithm
              end);;
  hd <- headers d jobj JWE_ARGS;;
  j <- jwenc hd (match eobj with Some _ => true | None => false end);;
  h <- b64encode_item (j_headers j);;
  ' (ct, tag, _) <- enc_setup_any P R enc m h cek' iv';;
  ' (t, _) <- pack j [ek; VBytes iv'; VBytes ct; VBytes tag] VNone;;
  Ok (t, cek').

(** decrypt, jwe.py:530-574: message and content key. *)
Definition rsa_jwe_decrypt (P : prims) (sentinel : bytes) (j : jwt) (key : option material) (cek : bytes) : res (bytes * bytes) :=
  jek <- part j 1;;
  alg <- py_get (j_headers j) (lit "alg");;
  cek <- (if negb (is_nil cek) then Ok cek
          else match rsa_scheme alg with
               | Some s => k <- match key with Some m => as_rsa m | None => Raise EAttributeError end;; rsa_decrypt P false s k sentinel jek
               | None => Raise ENotSupportedAlgorithm
               end);;
  enc <- py_get (j_headers j) (lit "enc");;
  if in_texts enc SUPPORTED_ENC then
    ct <- part j 3;; h <- b64part j 0;; iv <- part j 2;; tag <- part j 4;;
    m <- content_decrypt P enc cek ct h iv tag;;
    z <- py_in (lit "zip") (j_headers j);;
    m <- (if z then v <- py_get (j_headers j) (lit "zip");; if pval_eqb v (VStr (lit "DEF")) then p_decompress P m else Ok m else Ok m);;
    Ok (m, cek)
  else Raise ENotSupportedAlgorithm.

(** *** JWE_EC, jwe.py:577-725 *)

(** A private value or a coordinate handed to the curve arithmetic. *)
Definition as_num (v : pval) : res Z := match as_int v with Some z => Ok z | None => Raise ETypeError end.

(** ecdh_derive_key with apu, apv given as bytes, or absent, i.e. the text "" that cannot be added to bytes. *)
Definition derive (P : prims) (c : curve) (d : pval) (x y : pval) (apu apv : option bytes) (alg : bytes) (bits : Z) : res bytes :=
  d <- as_num d;; x <- as_num x;; y <- as_num y;;
  z <- dh_z c d (Some (x, y));;
  match apu, apv with
  | Some u, Some v => oi <- other_info u v alg bits;; concat_sha256 P z bits oi
  | _, _ => Raise ETypeError
  end.

(** The three names with key wrapping: the part after "+" and its key length, jwe.py:632-634, 672-675. *)
Definition ECDH_KW : list (ustr * (ustr * Z)) :=
  [(lit "ECDH-ES+A128KW", (lit "A128KW", 128)); (lit "ECDH-ES+A192KW", (lit "A192KW", 192)); (lit "ECDH-ES+A256KW", (lit "A256KW", 256))].

(** b64d of a keyword argument: text has no rstrip(b"="), other values no rstrip. *)
Definition b64d_arg (v : pval) : res bytes := match v with VBytes b => b64d b | VStr _ => Raise ETypeError | _ => Raise EAttributeError end.

(** enc_setup, jwe.py:581-641, called with the dictionary of the JWE instance: content key, encrypted key, iv and the
    header parameters. *)
Definition ec_enc_setup (P : prims) (R : draws) (w : jwe) (key : jwk) : res (bytes * pval * bytes * dict) :=
  apu <- match dget (w_dict w) (lit "apu") with Some v => b64d_arg v | None => Ok (r_apu R) end;;
  apv <- match dget (w_dict w) (lit "apv") with Some v => b64d_arg v | None => Ok (r_apv R) end;;
  ' (crv, kx, ky) <- match k_data key with DEc _ crv x y _ _ => Ok (crv, x, y) | _ => Raise EAttributeError end;;
  c <- curve_by_name crv;;
  epk <- match w_epk w, dget (w_dict w) (lit "epk") with
         | Some k, _ => match k_data k with DEc _ _ _ _ _ _ => Ok k | _ => Raise ESerializationNotPossible end
         | None, Some _ => Raise ESerializationNotPossible
         | None, None => k <- ec_new [] onone onone 0;; ec_load_key k (OCurve c) (r_eph R)
         end;;
  ser <- serialize epk false;;
  let params := [(lit "apu", VBytes (b64e apu)); (lit "apv", VBytes (b64e apv)); (lit "epk", ser)] in
  cek <- match dget (w_dict w) (lit "cek") with
         | Some (VBytes b) => Ok b
         | Some v => if truthy v then Raise ETypeError else Ok []
         | None => Ok []
         end;;
  let d := sub_dict w SYM_ARGS in
  enc <- match dget d (lit "enc") with Some v => Ok v | None => Raise EAttributeError end;;
  ' (cek, iv) <- generate_key_and_iv R enc cek [];;
  ed <- match k_data epk with DEc _ _ _ _ ed _ => Ok ed | _ => Raise EAttributeError end;;
  alg <- match dget d (lit "alg") with Some v => Ok v | None => Raise EAttributeError end;;
  if pval_eqb alg (VStr (lit "ECDH-ES")) then
    match enc with
    | VStr e => match dget KEYLEN e with
                | Some n => cek <- derive P c ed kx ky (Some apu) (Some apv) e n;; Ok (cek, VStr [], iv, params)
                | None => Raise EException
                end
    | _ => Raise EException
    end
  else
    match alg with
    | VStr a => match dget ECDH_KW a with
                | Some (post, n) =>
                    kek <- derive P c ed kx ky (Some apu) (Some apv) post n;;
                    ek <- aes_wrap_key P kek cek;;
                    Ok (cek, VBytes ek, iv, params)
                | None => Raise EException
                end
    | _ => Raise EException
    end.

(** encrypt, jwe.py:684-707, with the parameters of [ec_enc_setup]. *)
Definition ec_encrypt (P : prims) (R : draws) (d : dict) (objects : bool) (msg : pval) (cek : bytes) (ek : pval) (iv : bytes) (params : dict)
  (kid : option pval) : res ustr :=
  m <- msg_bytes msg;;
  let d := match kid with Some v => dset d (lit "kid") v | None => d end in
  let d := dupd d params in
  j <- jwenc d objects;;
  h <- b64encode_item (j_headers j);;
  enc <- dict_get d (lit "enc");;
  ' (ct, tag, _) <- enc_setup_any P R enc m h cek iv;;
  ' (t, _) <- pack j [ek; VBytes iv; VBytes ct; VBytes tag] VNone;;
  Ok t.

(** dec_setup, jwe.py:643-682: the content key.  The private value is the attribute d of the key. *)
Definition key_d (k : jwk) : res pval :=
  match k_data k with DEc _ _ _ _ d _ => Ok d | DRsa _ nums => Ok (num nums (lit "d")) | _ => Raise EAttributeError end.
Definition text_arg (h : pval) (n : ustr) : res (option bytes) :=
  b <- py_in n h;;
  if b then v <- py_get h n;; match v with VStr t => u <- utf8_encode t;; x <- b64d u;; Ok (Some x) | _ => Raise EAttributeError end
  else Ok None.
Definition ec_dec_setup (P : prims) (j : jwt) (key : jwk) : res bytes :=
  let h := j_headers j in
  _ <- part j 2;; _ <- part j 3;; _ <- part j 4;;
  has <- py_in (lit "epk") h;;
  has <- (if has then e <- py_get h (lit "epk");; py_in (lit "crv") e else Ok false);;
  if negb has then Raise EException
  else
    e <- py_get h (lit "epk");;
    epk <- match e with VDict kw => ec_new kw (OVal (kwarg kw (lit "key") VNone)) (OVal (kwarg kw (lit "curve") VNone)) 0 | _ => Raise ETypeError end;;
    apu <- text_arg h (lit "apu");;
    apv <- text_arg h (lit "apv");;
    alg <- py_get h (lit "alg");;
    ' (c, x, y) <- match k_data epk with DEc _ _ x y _ (OCurve c) => Ok (Some c, x, y) | DEc _ _ x y _ _ => Ok (None, x, y) | _ => Raise EAttributeError end;;
    let kdf := fun a n => d <- key_d key;; match c with Some c => derive P c d x y apu apv a n | None => Raise EAttributeError end in
    if pval_eqb alg (VStr (lit "ECDH-ES")) then
      enc <- py_get h (lit "enc");;
      match enc with
      | VStr n => match dget KEYLEN n with Some l => kdf n l | None => Raise EException end
      | VList _ | VDict _ => Raise ETypeError
      | _ => Raise EException
      end
    else
      match alg with
      | VStr a => match dget ECDH_KW a with
                  | Some (post, n) => kek <- kdf post n;; ek <- part j 1;; aes_unwrap_key P kek ek
                  | None => Raise EException
                  end
      | _ => Raise EException
      end.

(** decrypt, jwe.py:709-725, after dec_setup of the same token. *)
Definition ec_decrypt (P : prims) (j : jwt) (cek : bytes) : res bytes :=
  if is_nil cek then Raise EException
  else
    enc <- py_get (j_headers j) (lit "enc");;
    ct <- part j 3;; h <- b64part j 0;; iv <- part j 2;; tag <- part j 4;;
    content_decrypt P enc cek ct h iv tag.

(** ** class JWE, jwe.py:728-900 *)

Inductive family := FRsa | FSym | FEc.
Definition ends_KW (a : ustr) : bool := startswith (rev a) (rev (lit "KW")).
(** jwe.py:791-808, 862-875. *)
Definition family_of (alg : pval) : res family :=
  if in_texts alg [lit "RSA-OAEP"; lit "RSA-OAEP-256"; lit "RSA1_5"] then Ok FRsa
  else match alg with
       | VStr a => if startswith a (lit "A") && ends_KW a then Ok FSym
                   else if startswith a (lit "ECDH-ES") then Ok FEc else Raise ENotSupportedAlgorithm
       | VBytes _ => Raise ETypeError
       | _ => Raise EAttributeError
       end.

(** encrypt, jwe.py:762-839: the token and the instance.  The loop over the keys always ends with the first one. *)
Definition jwe_encrypt (P : prims) (R : draws) (w : jwe) (keys : option (list jwk)) (cek iv : bytes) (kid : option pval) : res (ustr * jwe) :=
  alg <- dict_get (w_dict w) (lit "alg");;
  ks <- jws_keys P (as_jws w) keys;;
  ks <- pick_keys (as_jws w) ks (VStr (lit "enc")) (VStr []);;
  match ks with
  | [] => Raise ENoSuitableEncryptionKey
  | key :: _ =>
      f <- family_of alg;;
      let named := fun d => if truthy (k_kid key) then dset d (lit "kid") (k_kid key) else d in
      let objs := match w_jwk w with Some _ => true | None => false end in
      match f with
      | FRsa =>
          m <- key_material P key alg true;;
          ' (t, c) <- rsa_jwe_encrypt P R (named (sub_dict w JWE_ARGS)) (w_jwk w) (w_epk w) (w_msg w) m cek iv;;
          Ok (t, w_set w (lit "cek") (VBytes c))
      | FSym =>
          m <- key_material P key alg true;;
          t <- sym_encrypt P R (named (sub_dict w SYM_ARGS)) objs (w_msg w) m cek iv kid;;
          Ok (t, w_set w (lit "cek") VNone)
      | FEc =>
          ' (cek, ek, iv, params) <- ec_enc_setup P R w key;;
          _ <- key_material P key alg true;;
          t <- ec_encrypt P R (named (sub_dict w SYM_ARGS)) objs (w_msg w) cek ek iv params kid;;
          Ok (t, w_set w (lit "cek") VNone)
      end
  end.

(** jwe.py:887-900: the keys in turn; only KeyError and DecryptionFailed lead to the next one. *)
Fixpoint dec_loop {A} (P : prims) (alg : pval) (dec : nat -> material -> res A) (ks : list jwk) (i : nat) : res A :=
  match ks with
  | [] => Raise EDecryptionFailed
  | k :: r =>
      m <- key_material P k alg false;;
      match dec i m with
      | Raise EKeyError | Raise EDecryptionFailed => dec_loop P alg dec r (S i)
      | x => x
      end
  end.
(** jwe.py:877-885: the content key first, if there is one. *)
Definition cek_first {A} (cek : bytes) (m : res A) (rest : res A) : res A :=
  if is_nil cek then rest else match m with Raise EKeyError | Raise EDecryptionFailed => rest | x => x end.

(** decrypt, jwe.py:841-900: message and instance.  [sent i] is the sentinel of the i-th RSA decryption.  Without token
    and jwt an UnboundLocalError is raised (EException here). *)
Definition jwe_decrypt (P : prims) (sent : nat -> bytes) (w : jwe) (token : pval) (keys : option (list jwk)) (alg : pval) (cek : bytes) : res (bytes * jwe) :=
  j <- (if truthy token then unpack token else match w_jwt w with Some j => Ok j | None => Raise EException end);;
  a <- py_get (j_headers j) (lit "alg");;
  if truthy alg && negb (pval_eqb alg a) then Raise EWrongEncryptionAlgorithm
  else
    ks <- jws_keys P (as_jws w) keys;;
    ks <- pick_keys (as_jws w) ks (VStr (lit "enc")) a;;
    if is_nil ks && is_nil cek then Raise ENoSuitableDecryptionKey
    else
      f <- family_of a;;
      match f with
      | FRsa =>
          ' (m, c) <- cek_first cek (rsa_jwe_decrypt P (sent 0%nat) j None cek)
                        (dec_loop P a (fun i k => rsa_jwe_decrypt P (sent i) j (Some k) []) ks 1);;
          Ok (m, w_set w (lit "cek") (VBytes c))
      | FSym =>
          m <- cek_first cek (sym_decrypt P (sub_dict w SYM_ARGS) j None cek)
                 (dec_loop P a (fun _ k => sym_decrypt P (sub_dict w SYM_ARGS) j (Some k) []) ks 1);;
          Ok (m, w_set w (lit "cek") VNone)
      | FEc =>
          match ks with
          | [] => Raise ENoSuitableECDHKey
          | k :: _ =>
              cek <- ec_dec_setup P j k;;
              m <- cek_first cek (ec_decrypt P j cek) (dec_loop P a (fun _ _ => ec_decrypt P j cek) ks 1);;
              Ok (m, w_set w (lit "cek") VNone)
          end
      end.

(** ** Recognition: JWEnc.is_jwe (jwe.py:302-318) and factory (jwe.py:903-910) *)
Definition is_jwe (j : jwt) : res bool :=
  let h := j_headers j in
  t <- py_in (lit "typ") h;;
  t <- (if t then v <- py_get h (lit "typ");; l <- py_lower v;; Ok (pval_eqb l (VStr (lit "jwe"))) else Ok false);;
  if t then Ok true
  else
    a <- py_in (lit "alg") h;;
    e <- (if a then py_in (lit "enc") h else Ok false);;
    if negb e then Ok false
    else
      v <- py_get h (lit "alg");;
      if negb (in_texts v SUPPORTED_ALG) then Ok false
      else v <- py_get h (lit "enc");; Ok (in_texts v SUPPORTED_ENC).
Definition jwe_factory (token : pval) : res (option jwe) :=
  j <- unpack token;;
  b <- is_jwe j;;
  Ok (if b then Some {| w_msg := VNone; w_dict := []; w_jwk := None; w_epk := None; w_jwt := Some j |} else None).
