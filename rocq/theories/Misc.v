(** * Model of the remaining functions of jws.py, jwk.py and jwe.py: hashes of token parts, certificate and file readers,
    the accessors of JWx, leftovers. *)
From Coq Require Import ZArith List Bool.
From Verif Require Import Base Utf8 Codec Json Jwt Prims Elliptic Ecc Jwk Jws.
Import ListNotations.
Open Scope Z_scope.

(** ** jws.py *)

(** sha256_digest, sha384_digest, sha512_digest, jwk.py:72-81: hashing anything but octets is a TypeError. *)
Definition sha_digest (P : prims) (h : hashalg) (msg : pval) : res bytes :=
  v <- as_bytes msg;; match v with VBytes b => Ok (p_hash P h b) | _ => Raise ETypeError end.

(** left_hash, jws.py:81-88: the function falls off its end (None) for every other name. *)
Definition left_hash (P : prims) (msg func : pval) : res pval :=
  let go := fun h n => d <- sha_digest P h msg;; Ok (as_unicode (VBytes (b64e (firstn n d)))) in
  if pval_eqb func (VStr (lit "HS256")) then go SHA256 16%nat
  else if pval_eqb func (VStr (lit "HS384")) then go SHA384 24%nat
  else if pval_eqb func (VStr (lit "HS512")) then go SHA512 32%nat
  else Ok VNone.

(** mpint, jws.py:91-93 *)
Definition mpint (b : bytes) : res bytes :=
  let b := b ++ [0] in
  if Z.of_nat (length b) <? 2 ^ 32 then Ok (z2be 4 (Z.of_nat (length b)) ++ b) else Raise EStructError.

(** mp2bin, jws.py:96-101: an octet (an int on Python 3) never equals a text. *)
Definition mp2bin (b : bytes) : res bytes :=
  match nth_error b 4 with None => Raise EIndexError | Some _ => Ok (skipn 4 b) end.

(** JWSig.__len__ and valid, jws.py:233-240 *)
Definition jwsig_valid (j : jwt) : bool := Nat.eqb (length (j_part j)) 3.

(** The mapping methods of JWx, jws.py:299-312, on a name of the header dictionary. *)
Definition jwx_get (s : jws) (n : ustr) : option jwkval :=
  if zs_eqb n (lit "jwk") then s_jwk s else match dget (s_dict s) n with Some v => Some (JVal v) | None => None end.
Definition jwx_contains (s : jws) (n : ustr) : bool := match jwx_get s n with Some _ => true | None => false end.
Definition jwx_getitem (s : jws) (n : ustr) : res jwkval := match jwx_get s n with Some v => Ok v | None => Raise EKeyError end.
(** __getattr__, called for a name that is neither an attribute of the instance nor of its class *)
Definition jwx_getattr (s : jws) (n : ustr) : res jwkval := match jwx_get s n with Some v => Ok v | None => Raise EAttributeError end.
(** A key object is only stored as jwk in this model ([JKey] under another name is not represented). *)
Definition jwx_setitem (s : jws) (n : ustr) (v : jwkval) : jws :=
  if zs_eqb n (lit "jwk")
  then {| s_msg := s_msg s; s_dict := s_dict s; s_jwk := Some v; s_jwt := s_jwt s; s_key := s_key s |}
  else match v with
       | JVal x => {| s_msg := s_msg s; s_dict := dset (s_dict s) n x; s_jwk := s_jwk s; s_jwt := s_jwt s; s_key := s_key s |}
       | JKey _ => s
       end.

(** args, jws.py:244-245 *)
Definition jwx_args : list ustr :=
  [lit "alg"; lit "jku"; lit "jwk"; lit "x5u"; lit "x5t"; lit "x5c"; lit "kid"; lit "typ"; lit "cty"; lit "crit"].

(** dump_header, jws.py:445-446 *)
Definition dump_header (s : jws) : list (ustr * jwkval) :=
  flat_map (fun n => match jwx_get s n with Some v => [(n, v)] | None => [] end) jwx_args.

(** headers, jws.py:317-341; [extra] is the argument without jwk, [ejwk] its member jwk.  The value of jwk is replaced in place
    after the loop. *)
Fixpoint jwx_loop (s : jws) (extra : dict) (jser : option pval) (names : list ustr) : dict :=
  match names with
  | [] => []
  | n :: r =>
      let rest := jwx_loop s extra jser r in
      if zs_eqb n (lit "jwk") then match jser with Some v => (n, v) :: rest | None => rest end
      else match dget extra n with
           | Some v => (n, v) :: rest
           | None => match dget (s_dict s) n with
                     | Some v => if truthy v then (n, v) :: rest else rest
                     | None => rest
                     end
           end
  end.
Definition jwx_headers (s : jws) (extra : dict) (ejwk : option jwkval) : res dict :=
  jser <- match s_jwk s, ejwk with
          | Some (JKey k), _ | None, Some (JKey k) => v <- serialize k false;; Ok (Some v)
          | Some (JVal _), _ | None, Some (JVal _) => Raise EAttributeError
          | None, None => Ok None
          end;;
  match dget (s_dict s) (lit "kid") with
  | Some (VStr _) | None => Ok (jwx_loop s extra jser jwx_args)
  | Some _ => Raise EHeaderError
  end.

(** _decode, jws.py:438-443 *)
Definition jwx_decode (s : jws) (payload : pval) : res pval :=
  b <- py_bytes payload;;
  m <- b64d b;;
  match dget (s_dict s) (lit "cty") with
  | Some c => if pval_eqb c (VStr (lit "JWT")) then loads_any (VBytes m) else Ok (VBytes m)
  | None => Ok (VBytes m)
  end.

(** ** jwk.py *)

(** [chr(c)] for the elements, intarr2str, jwk.py:68-69. *)
Definition py_chr (c : Z) : res Z :=
  if (0 <=? c) && (c <? 1114112) then Ok c
  else if (- 2 ^ 31 <=? c) && (c <? 2 ^ 31) then Raise EValueError else Raise EOverflowError.
Definition intarr2str (arr : list Z) : res ustr := mapM py_chr arr.

(** rsa_eq, jwk.py:179-184 *)
Definition rsa_eq (a b : rsakey) : bool := (r_n a =? r_n b) && (r_e a =? r_e b).

(** [type(a) == type(b)] for plain values, RSA keys and curves *)
Definition same_type (a b : kobj) : bool :=
  match a, b with
  | ORsa _, ORsa _ | OCurve _, OCurve _ => true
  | OVal u, OVal v =>
      match u, v with
      | VNone, VNone | VBool _, VBool _ | VInt _, VInt _ | VFloat _, VFloat _ | VStr _, VStr _ | VBytes _, VBytes _
      | VList _, VList _ | VDict _, VDict _ => true
      | _, _ => false
      end
  | _, _ => false
  end.
(** key_eq, jwk.py:187-194; RSA is a module there, so the second isinstance is a TypeError. *)
Definition raw_key_eq (a b : kobj) : res bool :=
  if same_type a b then match a, b with OVal (VStr s), OVal (VStr t) => Ok (zs_eqb s t) | _, _ => Raise ETypeError end
  else Ok false.

(** RSAKey.load_key, jwk.py:540-548: the object and the exception raised, if any.  [self.key] is set first. *)
Definition rsa_load_key (k : jwk) (key : kobj) : jwk * option exn :=
  match k_data k with
  | DRsa _ nums =>
      match rsa_split key nums with
      | Ok nums' => (set_data k (DRsa key nums'), None)
      | Raise e => (set_data k (DRsa key nums), Some e)
      end
  | _ => (k, Some EAttributeError)
  end.

(** keyitems2keyreps, jwk.py:727-738.  Each type comes with its list of raw keys; in a list of type oct only plain values are
    represented.  [rnd] are the random bits for generated EC keys. *)
Definition new_of_type (P : prims) (rnd : Z) (key_type : ustr) (o : kobj) : res jwk :=
  if zs_eqb (upper key_type) (lit "RSA") then rsa_new P [] o
  else if zs_eqb (lower key_type) (lit "oct") then match o with OVal v => sym_new [] v | _ => Raise EException end
  else if zs_eqb (upper key_type) (lit "EC") then ec_new [] o onone rnd
  else base_new [] o.
Definition keyitems2keyreps (P : prims) (rnd : Z) (items : list (ustr * list kobj)) : res (list jwk) :=
  l <- mapM (fun it => mapM (new_of_type P rnd (fst it)) (snd it)) items;; Ok (concat l).

(** *** Files and certificates.  [read] is open(name).read(), [imp] is RSA.importKey on a text (passphrase included). *)
Section Files.
Variable P : prims.
Variable read : ustr -> res ustr.
Variable imp : ustr -> res rsakey.

(** import_rsa_key_from_file, jwk.py:94-100; rsa_load, jwk.py:171-176; import_rsa_key, jwk.py:102-109 *)
Definition rsa_load (name : ustr) : res rsakey := t <- read name;; imp t.
(** x509_rsa_load, jwk.py:197-202 *)
Definition x509_rsa_load (txt : ustr) : res (list (ustr * rsakey)) := k <- imp txt;; Ok [(lit "rsa", k)].
(** RSAKey.load, jwk.py:530-538 *)
Definition rsa_load_file (k : jwk) (name : ustr) : jwk * option exn :=
  match rsa_load name with Ok r => rsa_load_key k (ORsa r) | Raise e => (k, Some e) end.

(** [str.split()] for ASCII white space *)
Definition ws (c : Z) : bool := ((9 <=? c) && (c <=? 13)) || ((28 <=? c) && (c <=? 32)).
Fixpoint words (s cur : list Z) : list (list Z) :=
  match s with
  | [] => match cur with [] => [] | _ => [cur] end
  | c :: r => if ws c then match cur with [] => words r [] | _ => cur :: words r [] end else words r (cur ++ [c])
  end.
(** a2b_base64 of a text *)
Definition a2b_text (s : ustr) : res bytes := match ascii_encode s with Ok b => a2b b 0 0 0 | Raise _ => Raise EValueError end.
(** pem_cert2rsa, jwk.py:124-132 *)
Definition pem_cert2rsa (name : ustr) : res rsakey :=
  pem <- read name;;
  _ <- imp pem;;
  let lines := words (filter (fun c => negb (c =? 32)) pem) [] in
  der <- a2b_text (concat (removelast (tl lines)));;
  p_der2rsa P der.

(** [re.sub(r'[^A-Za-z0-9+/]', '', s)] *)
Definition b64_std_char (c : Z) : bool :=
  ((65 <=? c) && (c <=? 90)) || ((97 <=? c) && (c <=? 122)) || ((48 <=? c) && (c <=? 57)) || (c =? 43) || (c =? 47).
(** der_cert2rsa, jwk.py:135-143, for a text; re.sub with octets is a TypeError. *)
Definition der_cert2rsa (der : pval) : res rsakey :=
  match der with
  | VStr s => b <- a2b_text (filter b64_std_char s);; p_der2rsa P b
  | _ => Raise ETypeError
  end.

(** load_x509_cert, jwk.py:146-168: the result and the dictionary of keys seen (text of the certificate to key). *)
Definition load_x509_cert (url : ustr) (seen : list (ustr * rsakey)) : list (ustr * rsakey) * list (ustr * rsakey) :=
  match p_fetch P url with
  | Raise _ => ([], seen)
  | Ok cert =>
      match dget seen cert with
      | Some k => ([(lit "rsa", k)], seen)
      | None => match imp cert with
                | Ok k => ([(lit "rsa", k)], dset seen cert k)
                | Raise _ => ([], seen)
                end
      end
  end.
End Files.

(** ** jwe.py *)

(** int2bigendian, jwe.py:165-166: [ord] of an int is a TypeError (the packed value has four octets). *)
Definition int2bigendian (n : Z) : res (list Z) := if (0 <=? n) && (n <? 2 ^ 32) then Raise ETypeError else Raise EStructError.

(** party_value, jwe.py:169-176; b64e takes octets only. *)
Definition party_value (pv : pval) : res (list Z) :=
  if truthy pv then
    match pv with
    | VBytes b => let s := b64e b in r <- int2bigendian (Z.of_nat (length s));; Ok (r ++ s)
    | _ => Raise ETypeError
    end
  else Ok [0; 0; 0; 0].

(** _hash_input, jwe.py:179-188; [cmk] and [label] are lists of numbers, [enc] a text.  hashsize is not used. *)
Definition hash_input (cmk : list Z) (enc : ustr) (label : list Z) (rond length : Z) (epu epv : pval) : res (list Z) :=
  u <- party_value epu;;
  v <- party_value epv;;
  Ok ([0; 0; 0; rond] ++ cmk ++ [0; 0; 0; length] ++ enc ++ u ++ v ++ label).

(** [int(s)] of a text: white space around, a sign, decimal digits with single underscores between them.  (Digits outside
    ASCII are left out.) *)
Fixpoint int_digits (s : list Z) (acc : Z) : res Z :=
  match s with
  | [] => Ok acc
  | c :: r =>
      if is_digit c then int_digits r (10 * acc + (c - 48))
      else if c =? 95 then
        match r with d :: r' => if is_digit d then int_digits r' (10 * acc + (d - 48)) else Raise EValueError | [] => Raise EValueError end
      else Raise EValueError
  end.
Fixpoint drop_ws (s : list Z) : list Z := match s with c :: r => if ws c then drop_ws r else s | [] => [] end.
Definition py_int (s : ustr) : res Z :=
  let s := rev (drop_ws (rev (drop_ws s))) in
  let '(neg, s) := match s with 45 :: r => (true, r) | 43 :: r => (false, r) | _ => (false, s) end in
  match s with
  | c :: r => if is_digit c then z <- int_digits r (c - 48);; Ok (if neg : bool then - z else z) else Raise EValueError
  | [] => Raise EValueError
  end.

(** keysize, jwe.py:221-228 *)
Definition keysize (spec : ustr) : res Z :=
  if startswith spec (lit "HS") then py_int (skipn 2 spec)
  else if startswith spec (lit "CS") then py_int (skipn 2 spec)
  else if startswith spec (lit "A") then py_int (firstn 3 (skipn 1 spec))
  else Ok 0.
