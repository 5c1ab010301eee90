(** * JSON Web Signatures, jws.py *)
From Coq Require Import ZArith List Bool.
From Verif Require Import Base Utf8 Codec Json Jwt Prims Elliptic Ecc Jwk.
Import ListNotations.
Open Scope Z_scope.

(** ** Signers, jws.py:116-189 *)

(** Random input of a signature: octets for PSS, the getrandbits outcomes and a bound on the rejection loop for ECDSA. *)
Record entropy := { e_oct : bytes; e_bits : nat -> Z; e_fuel : nat }.

Inductive signer := HMACSigner (h : hashalg) | RSASigner (s : sigscheme) (h : hashalg) | DSASigner (h : hashalg) (bits : Z).

(** SIGNER_ALGS, jws.py:192-210, without 'none' (whose entry is None). *)
Definition SIGNERS : list (ustr * signer) :=
  [(lit "HS256", HMACSigner SHA256); (lit "HS384", HMACSigner SHA384); (lit "HS512", HMACSigner SHA512);
   (lit "RS256", RSASigner PKCS1v15 SHA256); (lit "RS384", RSASigner PKCS1v15 SHA384); (lit "RS512", RSASigner PKCS1v15 SHA512);
   (lit "ES256", DSASigner SHA256 256); (lit "ES384", DSASigner SHA384 384); (lit "ES512", DSASigner SHA512 521);
   (lit "PS256", RSASigner PSS SHA256); (lit "PS384", RSASigner PSS SHA384); (lit "PS512", RSASigner PSS SHA512)].

(** The key object as HMAC key: HMAC.new refuses anything that is not bytes. *)
Definition as_secret (m : material) : res bytes := match m with MObj (OVal (VBytes b)) => Ok b | _ => Raise ETypeError end.
(** ... as RSA key: the schemes ask any other object for attributes it lacks. *)
Definition as_rsa (m : material) : res rsakey := match m with MObj (ORsa k) => Ok k | _ => Raise EAttributeError end.
(** ... as private value in [r * priv], ecc.py:87: text and octets are repeated r times, which does not fit memory (for r
    below 2^63 the exception would be another one); other objects cannot be multiplied. *)
Definition as_priv (m : material) : res Z :=
  match m with
  | MObj (OVal v) => match as_int v with Some z => Ok z | None => match v with VBytes _ | VStr _ => Raise EOverflowError | _ => Raise ETypeError end end
  | _ => Raise ETypeError
  end.
(** ... as point, to_projective, elliptic.py: any false value is the neutral element, any sequence of two integers is a
    point. *)
Definition as_point (m : material) : res apt :=
  match m with
  | MPoint x y => match as_int x, as_int y with Some a, Some b => Ok (Some (a, b)) | _, _ => Raise ETypeError end
  | MObj (OVal v) =>
      if negb (truthy v) then Ok None
      else match v with
           | VBytes (a :: b :: _) => Ok (Some (a, b))
           | VBytes _ => Raise EIndexError
           | VList (a :: b :: _) => match as_int a, as_int b with Some a, Some b => Ok (Some (a, b)) | _, _ => Raise ETypeError end
           | VList _ => Raise EIndexError
           | _ => Raise ETypeError
           end
  | MObj _ => Raise ETypeError
  end.

(** The condition of ecc.py:106. *)
Definition in_range (c : curve) (sig : bytes) : bool :=
  let r := bytes2int (firstn (Z.to_nat (c_bytes c)) sig) in
  let s := bytes2int (skipn (Z.to_nat (c_bytes c)) sig) in
  (0 <? r) && (r <? c_N c) && ((0 <? s) && (s <? c_N c)).

(** sign, jws.py:120-122, 138-141, 160-163, 177-180. *)
Definition signer_sign (P : prims) (g : signer) (E : entropy) (msg : bytes) (m : material) : res bytes :=
  match g with
  | HMACSigner h => k <- as_secret m;; Ok (p_hmac P h k msg)
  | RSASigner s h => k <- as_rsa m;; p_rsa_sign P s h k (e_oct E) msg
  | DSASigner h bits => c <- nist_curve bits;; d <- as_priv m;; Ecc.sign c (e_fuel E) (be2z (p_hash P h msg)) d None (e_bits E)
  end.

(** verify, jws.py:125-131, 143-152, 165-170, 182-189: returns True or raises. *)
Definition signer_verify (P : prims) (g : signer) (msg sig : bytes) (m : material) : res unit :=
  let answer := fun (b : bool) => if b then Ok tt else Raise EBadSignature in
  match g with
  | HMACSigner h => k <- as_secret m;; answer (constant_time_compare (p_hmac P h k msg) sig)
  | RSASigner s h =>
      k <- as_rsa m;;
      match p_rsa_verify P s h k msg sig with
      | Ok b => answer b
      | Raise e => match s with PKCS1v15 => if is_ValueError e then Raise EBadSignature else Raise e | PSS => Raise e end
      end
  | DSASigner h bits =>
      c <- nist_curve bits;;
      match as_point m with
      | Ok p => b <- Ecc.verify c (be2z (p_hash P h msg)) sig p;; answer b
      | Raise e => if in_range c sig then Raise e else Raise EBadSignature
      end
  end.

(** alg2keytype, jws.py:213-223.  The inner [None] is Python's None.  An algorithm that is neither false nor text has no
    [lower]; one given as bytes would fail in [startswith]. *)
Definition alg2keytype (alg : pval) : res (option ustr) :=
  if negb (truthy alg) then Ok (Some (lit "none"))
  else match alg with
       | VStr a =>
           if zs_eqb (lower a) (lit "none") then Ok (Some (lit "none"))
           else if startswith a (lit "RS") || startswith a (lit "PS") then Ok (Some (lit "RSA"))
           else if startswith a (lit "HS") || startswith a (lit "A") then Ok (Some (lit "oct"))
           else if startswith a (lit "ES") || startswith a (lit "ECDH-ES") then Ok (Some (lit "EC"))
           else Ok None
       | VBytes _ => Raise ETypeError
       | _ => Raise EAttributeError
       end.

(** ** class JWx, jws.py:243-447 *)

(** The value of header parameter jwk: a key object, or any other value the constructor was given. *)
Inductive jwkval := JKey (k : jwk) | JVal (v : pval).

(** The instance: msg, _dict (its member "jwk" in [s_jwk]), jwt, key.  with_digest is never used. *)
Record jws := { s_msg : pval; s_dict : dict; s_jwk : option jwkval; s_jwt : option jwt; s_key : option jwk }.
Definition set_alg (s : jws) (a : pval) : jws :=
  {| s_msg := s_msg s; s_dict := dset (s_dict s) (lit "alg") a; s_jwk := s_jwk s; s_jwt := s_jwt s; s_key := s_key s |}.
Definition set_jwt (s : jws) (j : jwt) : jws :=
  {| s_msg := s_msg s; s_dict := s_dict s; s_jwk := s_jwk s; s_jwt := Some j; s_key := s_key s |}.
Definition set_msg (s : jws) (m : pval) : jws :=
  {| s_msg := m; s_dict := s_dict s; s_jwk := s_jwk s; s_jwt := s_jwt s; s_key := s_key s |}.
Definition set_key (s : jws) (k : jwk) : jws :=
  {| s_msg := s_msg s; s_dict := s_dict s; s_jwk := s_jwk s; s_jwt := s_jwt s; s_key := Some k |}.

(** args, jws.py:244, without jwk. *)
Definition plain_args : list ustr :=
  [lit "alg"; lit "jku"; lit "x5u"; lit "x5t"; lit "x5c"; lit "kid"; lit "typ"; lit "cty"; lit "crit"].

Fixpoint init_dict (kw : dict) (names : list ustr) (acc : dict) : dict :=
  match names with
  | [] => acc
  | n :: r =>
      init_dict kw r
        (match dget kw n with
         | None => if zs_eqb n (lit "alg") then dset acc n (VStr (lit "none")) else acc
         | Some v => if zs_eqb n (lit "x5c") || zs_eqb n (lit "crit")
                     then dset acc (lit "x5c") (if truthy v then v else VList []) else dset acc n v
         end)
  end.

(** __init__, jws.py:271-297.  [kw] are the keyword arguments beyond msg and with_digest (their values being plain
    data); [obj] is a key object given as jwk. *)
Definition jws_init (P : prims) (msg : pval) (kw : dict) (obj : option jwk) : res jws :=
  j <- match obj with
       | Some k => Ok (Some (JKey k))
       | None =>
           match dget kw (lit "jwk") with
           | None => Ok None
           | Some (VDict d) => k <- keyrep P (VDict d);; Ok (Some (JKey k))
           | Some (VStr t) => v <- loads t;; k <- keyrep P v;; Ok (Some (JKey k))
           | Some v => Ok (Some (JVal v))
           end
       end;;
  Ok {| s_msg := msg;
        s_dict := match kw, obj with [], None => [] | _, _ => init_dict kw plain_args [] end;
        s_jwk := j; s_jwt := None; s_key := None |}.

(** A call with keyword arguments [kw] where Python binds the parameter self positionally, and msg, with_digest by
    keyword: jws.py:668 [self.__init__( **all_headers)]. *)
Definition init_from (P : prims) (kw : dict) : res jws :=
  if dmem kw (lit "self") then Raise ETypeError
  else jws_init P (kwarg kw (lit "msg") VNone) (ddel (ddel kw (lit "msg")) (lit "with_digest")) None.

(** A list of keys; [None] stands for an element without the attributes of a key. *)
Definition keylist := list (option jwk).

(** _get_keys, jws.py:343-360.  With jku the result is the dictionary of KEYS.as_dict, with x5u a dictionary with the one
    name "rsa" (load_x509_cert never raises, jwk.py:146-168); iterating over either gives names, not keys. *)
Definition jws_get_keys (P : prims) (s : jws) : res keylist :=
  match s_jwk s with
  | Some (JKey k) => Ok [Some k]
  | Some (JVal _) => Ok [None]
  | None =>
      match dget (s_dict s) (lit "jku") with
      | Some (VStr u) =>
          match load_from_url P [] u with
          | (ks, None) => m <- as_dict ks;; Ok (map (fun _ => None) m)
          | (_, Some e) => Raise e
          end
      | Some _ => Raise EException
      | None => if dmem (s_dict s) (lit "x5u") then Ok [None] else Ok []
      end
  end.

(** [k.kty in _kty], jws.py:385-387. *)
Definition kty_fits (kty : ustr) (k : jwk) : bool :=
  existsb (pval_eqb (k_kty k))
    [VStr (lower kty); VStr (upper kty); VBytes (lower kty); VBytes (upper kty)].

(** The filters of the loop, jws.py:400-420. *)
Definition key_fits (kid : pval) (use alg : pval) (k : jwk) : bool :=
  negb (truthy kid && negb (pval_eqb kid (k_kid k))) &&
  negb (truthy use && truthy (k_use k) && negb (pval_eqb (k_use k) use)) &&
  negb (truthy alg && truthy (k_alg k) && negb (pval_eqb (k_alg k) alg)).

(** The kid in force, jws.py:388-394. *)
Definition kid_in_force (s : jws) : res pval :=
  match dget (s_dict s) (lit "kid") with
  | Some v => Ok v
  | None =>
      match s_jwt s with
      | None => Ok VNone
      | Some j => match py_get (j_headers j) (lit "kid") with
                  | Ok v => Ok v
                  | Raise EKeyError => Ok VNone
                  | Raise e => Raise e
                  end
      end
  end.

Fixpoint real_keys (l : keylist) : res (list jwk) :=
  match l with
  | [] => Ok []
  | None :: _ => Raise EAttributeError
  | Some k :: r => ks <- real_keys r;; Ok (k :: ks)
  end.

(** pick_keys, jws.py:365-420. *)
Definition pick_keys (s : jws) (keys : keylist) (use alg : pval) : res (list jwk) :=
  alg <- (if truthy alg then Ok alg else match dget (s_dict s) (lit "alg") with Some a => Ok a | None => Raise EKeyError end);;
  if pval_eqb alg (VStr (lit "none")) then Ok []
  else
    t <- alg2keytype alg;;
    match t with
    | None => Ok []
    | Some kty =>
        ks <- real_keys keys;;
        kid <- kid_in_force s;;
        Ok (filter (key_fits kid use alg) (filter (kty_fits kty) ks))
    end.

(** _pick_alg, jws.py:422-437; [keys] is [None] or a list of keys. *)
Definition pick_alg (s : jws) (keys : option (list jwk)) : jws * pval :=
  let '(s, alg) :=
    match dget (s_dict s) (lit "alg") with
    | Some a => (s, a)
    | None => match keys with
              | Some [k] => if truthy (k_alg k) then (set_alg s (k_alg k), k_alg k) else (s, VNone)
              | _ => (s, VNone)
              end
    end in
  if truthy alg then (s, alg) else (set_alg s (VStr (lit "none")), VStr (lit "none")).

(** [if keys: ... else ... self._get_keys()], jws.py:453-456, 557-560. *)
Definition jws_keys (P : prims) (s : jws) (keys : option (list jwk)) : res keylist :=
  match keys with
  | Some (k :: r) => Ok (map Some (k :: r))
  | _ => jws_get_keys P s
  end.

(** ** class JWS, jws.py:449-728 *)

(** alg_keys, jws.py:450-475.  The header dictionary returned is the caller's [protected] itself when that is not empty. *)
Definition alg_keys (P : prims) (s : jws) (keys : option (list jwk)) (use : pval) (protected : dict) : jws * res (option jwk * dict * pval) :=
  let '(s, alg) := pick_alg s keys in
  (s,
   ks <- jws_keys P s keys;;
   ks <- pick_keys s ks use alg;;
   let xargs := dset protected (lit "alg") alg in
   match ks with
   | k :: _ => Ok (Some k, if truthy (k_kid k) then dset xargs (lit "kid") (k_kid k) else xargs, alg)
   | [] =>
       l <- py_lower alg;;
       if pval_eqb l (VStr (lit "none")) then Ok (None, xargs, alg) else Raise ENoSuitableSigningKeys
   end).

(** sign_compact, jws.py:477-505; [protected] is {} for None.  The result carries the instance. *)
Definition sign_compact (P : prims) (E : entropy) (s : jws) (keys : option (list jwk)) (protected : dict) : jws * res ustr :=
  let '(s, r) := alg_keys P s keys (VStr (lit "sig")) protected in
  (s,
   ' (key, xargs, alg) <- r;;
   let xargs := match dget (s_dict s) (lit "typ") with Some t => dset xargs (lit "typ") t | None => xargs end in
   if dmem xargs (lit "self") then Raise ETypeError
   else
     j <- jwt_init xargs;;
     if pval_eqb alg (VStr (lit "none")) then ' (t, _) <- pack j [s_msg s; VStr []] VNone;; Ok t
     else
       match alg with
       | VStr a =>
           match dget SIGNERS a with
           | None => Raise EUnknownAlgorithm
           | Some g =>
               ' (input, _) <- pack j [s_msg s] VNone;;
               i <- utf8_encode input;;
               match key with
               | None => Raise EAttributeError
               | Some k => m <- get_key k true;; sg <- signer_sign P g E i m;; Ok (input ++ 46 :: b64e sg)
               end
           end
       | _ => Raise EUnknownAlgorithm
       end).

(** The loop over the selected keys, jws.py:574-588: the first key that verifies. *)
Fixpoint try_keys (P : prims) (g : signer) (input sig : bytes) (ks : list jwk) : res jwk :=
  match ks with
  | [] => Raise EBadSignature
  | k :: r =>
      match (m <- get_key k false;; signer_verify P g input sig m) with
      | Ok _ => Ok k
      | Raise EBadSignature | Raise EIndexError => try_keys P g input sig r
      | Raise e => Raise e
      end
  end.

(** sign_input and signature, jws.py:227-231. *)
Definition sign_input (j : jwt) : bytes := nth 0 (j_b64 j) [] ++ 46 :: nth 1 (j_b64 j) [].
Definition signature (j : jwt) : bytes := match nth 2 (j_part j) VNone with VBytes b => b | _ => [] end.

(** verify_compact_verbose, jws.py:557-588: key selection, the checks and the payload, on the instance [s] whose alg
    has been set to [alg]. *)
Definition checked (P : prims) (s : jws) (j : jwt) (keys : option (list jwk)) (alg : pval) : res (jwk * pval) :=
  ks <- jws_keys P s keys;;
  ks <- pick_keys s ks (VStr []) (VStr []);;
  match ks with
  | [] => Raise ENoSuitableSigningKeys
  | _ =>
      match alg with
      | VStr a => match dget SIGNERS a with
                  | Some g => k <- try_keys P g (sign_input j) (signature j) ks;; m <- payload j;; Ok (k, m)
                  | None => Raise EKeyError
                  end
      | _ => Raise EKeyError
      end
  end.

(** jws.py:547-588, for the algorithm [alg] of the header (VNone if missing).  The text of the exception in line 553
    looks the algorithm up again. *)
Definition verify_alg (P : prims) (s : jws) (j : jwt) (keys : option (list jwk)) (sigalg alg : pval) : jws * res (pval * option jwk) :=
  if dmem (s_dict s) (lit "alg") && truthy alg && negb (pval_eqb (kwarg (s_dict s) (lit "alg") VNone) alg)
  then (s, Raise ESignerAlgError)
  else if truthy sigalg && negb (pval_eqb sigalg alg)
  then (s, Raise match py_get (j_headers j) (lit "alg") with Ok _ => ESignerAlgError | Raise e => e end)
  else
    let s := set_alg s alg in
    match checked P s j keys alg with
    | Ok (k, m) => (set_key (set_msg s m) k, Ok (m, Some k))
    | Raise e => (s, Raise e)
    end.

(** [_alg is None or _alg.lower() == "none"], jws.py:540. *)
Definition none_alg (alg : pval) : res bool :=
  match alg with VNone => Ok true | _ => l <- py_lower alg;; Ok (pval_eqb l (VStr (lit "none"))) end.

(** verify_compact_verbose, jws.py:519-588: instance afterwards, and the payload with the verifying key. *)
Definition verify_compact (P : prims) (s : jws) (token : pval) (keys : option (list jwk)) (allow_none : bool) (sigalg : pval)
  : jws * res (pval * option jwk) :=
  match (j <- unpack token;; if Nat.eqb (length (j_part j)) 3 then Ok j else Raise EWrongNumberOfParts) with
  | Raise e => (s, Raise e)
  | Ok j =>
      let s := set_jwt s j in
      match py_get (j_headers j) (lit "alg") with
      | Raise EKeyError => verify_alg P s j keys sigalg VNone
      | Raise e => (s, Raise e)
      | Ok alg =>
          match none_alg alg with
          | Raise e => (s, Raise e)
          | Ok true =>
              if allow_none then match payload j with Ok m => (set_msg s m, Ok (m, None)) | Raise e => (s, Raise e) end
              else (s, Raise ESignerAlgError)
          | Ok false => verify_alg P s j keys sigalg alg
          end
      end
  end.

(** *** The JSON serialization *)

(** create_signature, jws.py:601-615.  [protected] is {} for None; [alg] is self.alg (AttributeError if there is none). *)
Definition create_signature (P : prims) (E : entropy) (s : jws) (keys : option (list jwk)) (hd : dict * dict) : res dict :=
  let '(protected, unprotected) := hd in
  alg <- match dget (s_dict s) (lit "alg") with Some a => Ok a | None => Raise EAttributeError end;;
  let ph := if dmem protected (lit "alg") then protected else dset protected (lit "alg") alg in
  if dmem ph (lit "self") || dmem ph (lit "msg") then Raise ETypeError
  else
    inner <- jws_init P (s_msg s) (ddel ph (lit "with_digest")) None;;
    (* an empty dictionary is not passed on *)
    t <- snd (sign_compact P E inner keys (match protected with [] => [] | _ => ph end));;
    match split 46 t with
    | [h; _; sg] =>
        Ok ([(lit "signature", VStr sg)] ++ (match unprotected with [] => [] | _ => [(lit "header", VDict unprotected)] end)
            ++ (match h with [] => [] | _ => [(lit "protected", VStr h)] end))
    | _ => Raise EValueError
    end.

Fixpoint create_signatures (P : prims) (Es : nat -> entropy) (i : nat) (s : jws) (keys : option (list jwk)) (hds : list (dict * dict)) : res (list pval) :=
  match hds with
  | [] => Ok []
  | h :: r => e <- create_signature P (Es i) s keys h;; es <- create_signatures P Es (S i) s keys r;; Ok (VDict e :: es)
  end.

(** sign_json, jws.py:590-631; headers None is [None]; in a pair (protected, unprotected) None is {}.  The message must
    be text. *)
Definition sign_json (P : prims) (Es : nat -> entropy) (s : jws) (keys : option (list jwk)) (headers : option (list (dict * dict))) (flatten : bool) : res ustr :=
  pl <- match s_msg s with VStr m => b64e_enc_dec m | _ => Raise EAttributeError end;;
  hs <- match headers with
        | Some l => Ok l
        | None => match dget (s_dict s) (lit "alg") with Some a => Ok [([(lit "alg", a)], [])] | None => Raise EAttributeError end
        end;;
  let res := [(lit "payload", VStr pl)] in
  out <- match flatten, hs with
         | true, [h] => e <- create_signature P (Es 0%nat) s keys h;; Ok (dupd res e)
         | _, _ => l <- create_signatures P Es 0 s keys hs;; Ok (dset res (lit "signatures") (VList l))
         end;;
  dumps true (VDict out).

(** The elements Python iterates over. *)
Definition py_iter (v : pval) : res (list pval) :=
  match v with
  | VList l => Ok l
  | VDict d => Ok (map (fun kv => VStr (fst kv)) d)
  | VStr s => Ok (map (fun c => VStr [c]) s)
  | VBytes s => Ok (map VInt s)
  | _ => Raise ETypeError
  end.
Definition py_encode (v : pval) : res bytes := match v with VStr s => utf8_encode s | _ => Raise EAttributeError end.

(** [d.update(v)] for a value read from JSON, used at jws.py:666: an object's entries are set; of any other value every
    element must be a sequence of two, key and value (a list of two, a text of two characters, an object with two names).
    The flag says that a key that is not text has been set; a list or an object cannot be a key. *)
Fixpoint update_pairs (d : dict) (odd : bool) (l : list pval) : res (dict * bool) :=
  match l with
  | [] => Ok (d, odd)
  | x :: r =>
      kv <- py_iter x;;
      match kv with
      | [VStr k; v] => update_pairs (dset d k v) odd r
      | [VList _; _] | [VDict _; _] => Raise ETypeError
      | [_; _] => update_pairs d true r
      | _ => Raise EValueError
      end
  end.
Definition py_update (d : dict) (v : pval) : res (dict * bool) :=
  match v with
  | VDict e => Ok (dupd d e, false)
  | _ => l <- py_iter v;; update_pairs d false l
  end.

(** One round of the loop of verify_json, jws.py:660-668: the compact token and the merged headers.  [**all_headers] raises
    TypeError if a name is not text. *)
Definition json_token (pl : pval) (sign : pval) : res (bytes * dict) :=
  match sign with
  | VDict d =>
      let prot := kwarg d (lit "protected") (VStr []) in
      ph <- py_encode prot;; pb <- py_encode pl;;
      sg <- match dget d (lit "signature") with Some v => py_encode v | None => Raise EKeyError end;;
      match kwarg d (lit "header") (VDict []) with
      | VDict unprot =>
          t <- match prot with VStr s => b64d_enc_dec s | _ => Raise EAttributeError end;;
          match t with
          | [] => Raise ETypeError
          | _ => h <- loads t;;
                 ' (all, odd) <- py_update unprot h;;
                 if odd : bool then Raise ETypeError else Ok (join 46 [ph; pb; sg], all)
          end
      | _ => Raise EAttributeError
      end
  | _ => Raise EAttributeError
  end.

Fixpoint verify_signs (P : prims) (s : jws) (pl : pval) (signs : list pval) (keys : option (list jwk)) (allow_none : bool) (sigalg claim : pval) : res (pval * jws) :=
  match signs with
  | [] => Ok (claim, s)
  | sg :: r =>
      ' (tok, hs) <- json_token pl sg;;
      s1 <- init_from P hs;;
      let '(s2, out) := verify_compact P s1 (VBytes tok) keys allow_none sigalg in
      ' (m, _) <- out;;
      match claim with
      | VNone => verify_signs P s2 pl r keys allow_none sigalg m
      | _ => if pval_eqb claim m then verify_signs P s2 pl r keys allow_none sigalg claim else Raise EAssertionError
      end
  end.

(** verify_json, jws.py:633-676. *)
Definition verify_json (P : prims) (s : jws) (text : pval) (keys : option (list jwk)) (allow_none : bool) (sigalg : pval) : res (pval * jws) :=
  v <- loads_any text;;
  pl <- match py_get v (lit "payload") with Raise EKeyError => Raise EJwsFormatError | r => r end;;
  signs <- match py_get v (lit "signatures") with
           | Ok x => py_iter x
           | Raise EKeyError =>
               match v with
               | VDict d => Ok [VDict (flat_map (fun n => match dget d n with Some x => [(n, x)] | None => [] end)
                                         [lit "protected"; lit "header"; lit "signature"])]
               | _ => Raise ETypeError
               end
           | Raise e => Raise e
           end;;
  verify_signs P s pl signs keys allow_none sigalg VNone.

(** *** Recognition *)

(** _is_json_serialized_jws, jws.py:697-704. *)
Definition is_json_jws (v : pval) : res bool :=
  match v with
  | VDict d => Ok (dmem d (lit "payload") && (dmem d (lit "signatures") || dmem d (lit "signature")))
  | _ => Raise EAttributeError
  end.

(** [alg in SIGNER_ALGS]: lists and dictionaries are not hashable. *)
Definition in_signers (alg : pval) : res bool :=
  match alg with
  | VStr a => Ok (dmem SIGNERS a || zs_eqb a (lit "none"))
  | VList _ | VDict _ => Raise ETypeError
  | _ => Ok false
  end.

(** _is_compact_jws, jws.py:706-728, with the jwt attribute it sets. *)
Definition is_compact_jws (s : jws) (token : pval) : res (bool * jws) :=
  match unpack token with
  | Raise _ => Ok (false, s)
  | Ok j =>
      b <- py_in (lit "alg") (j_headers j);;
      if b then
        a <- py_get (j_headers j) (lit "alg");;
        let '(a, j) := match a, j_headers j with
                       | VNone, VDict d => (VStr (lit "none"), {| j_headers := VDict (dset d (lit "alg") (VStr (lit "none"))); j_b64 := j_b64 j; j_part := j_part j |})
                       | _, _ => (a, j)
                       end in
        ok <- in_signers a;;
        Ok (ok, if ok then set_jwt s j else s)
      else Ok (false, s)
  end.

(** is_jws, jws.py:678-695, for text and byte strings. *)
Definition is_jws (s : jws) (token : pval) : res (bool * jws) :=
  match loads_any token with
  | Ok v => b <- is_json_jws v;; Ok (b, s)
  | Raise e => if is_ValueError e then is_compact_jws s token else Raise EAttributeError
  end.

Definition new_jws : jws := {| s_msg := VNone; s_dict := []; s_jwk := None; s_jwt := None; s_key := None |}.

(** factory, jws.py:730-735. *)
Definition factory (token : pval) : res (option jws) :=
  ' (b, s) <- is_jws new_jws token;; Ok (if b then Some s else None).
