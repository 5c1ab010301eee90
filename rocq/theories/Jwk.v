(** * Model of src/jwkest/jwk.py: key classes, key sets *)
From Coq Require Import ZArith List Bool.
From Verif Require Import Base Utf8 Codec Json Jwt Prims Elliptic Ecc.
Import ListNotations.
Open Scope Z_scope.

(** ** Python helpers *)

(** [isinstance(v, int)] (bool is a subclass), [isinstance(v, str)]. *)
Definition is_int (v : pval) : bool := match v with VInt _ | VBool _ => true | _ => false end.
Definition is_str (v : pval) : bool := match v with VStr _ => true | _ => false end.

(** [len(v)]. *)
Definition py_len (v : pval) : res nat :=
  match v with
  | VStr s => Ok (length s) | VBytes b => Ok (length b) | VList l => Ok (length l) | VDict d => Ok (length d)
  | _ => Raise ETypeError
  end.

(** [bytes(v)] on Python 3: an int n gives n zero octets, a list of small ints their octets; str, None and float are
    TypeErrors, and so is a non-empty dict (its keys are text). *)
Fixpoint octets (l : list pval) : res bytes :=
  match l with
  | [] => Ok []
  | v :: r => match as_int v with
              | None => Raise ETypeError
              | Some z => if is_byte z then t <- octets r;; Ok (z :: t) else Raise EValueError
              end
  end.
Definition py_bytes (v : pval) : res bytes :=
  match v with
  | VBytes b => Ok b
  | VInt z => if z <? 0 then Raise EValueError else Ok (repeat 0 (Z.to_nat z))
  | VBool b => Ok (if b then [0] else [])
  | VList l => octets l
  | VDict [] => Ok []
  | _ => Raise ETypeError
  end.

(** long_to_base64 (__init__.py:105-111) on an attribute: anything that is not an int is a TypeError (str, bytes, None
    and containers fail in [divmod] or, when falsy, in the base64 call; floats, which raise struct.error, included). *)
Definition num_to_base64 (v : pval) : res pval :=
  match as_int v with Some z => s <- long_to_base64 z;; Ok (VStr s) | None => Raise ETypeError end.

(** deser, jwk.py:402-408; base64_to_long applies bytes() to what is not text (__init__.py:119). *)
Definition deser (v : pval) : res Z :=
  match v with
  | VStr s => b <- utf8_encode s;; base64_to_long_b b
  | _ => b <- py_bytes v;; base64_to_long_b b
  end.

(** ** Keys *)

(** What [self.key] / [self.curve] can hold: an RsaKey, a curve object or a plain value (None included). *)
Inductive kobj := ORsa (k : rsakey) | OCurve (c : curve) | OVal (v : pval).
Definition otruthy (o : kobj) : bool := match o with OVal v => truthy v | _ => true end.
Definition onone : kobj := OVal VNone.

(** The attributes of the classes Key (238), RSAKey (411), ECKey (561) and SYMKey (665).  [nums] holds the attributes
    named in [RSAKey.longs], in that order. *)
Inductive kdata :=
| DKey (key : kobj)
| DRsa (key : kobj) (nums : dict)
| DEc (key : kobj) (crv x y d : pval) (curve : kobj)
| DSym (key k : pval).

(** Common attributes, jwk.py:247-277.  [inactive_since] is always 0 and not represented. *)
Record jwk := {
  k_kty : pval; k_alg : pval; k_use : pval; k_kid : pval;
  k_x5c : pval; k_x5t : pval; k_x5u : pval;
  k_extra : dict; k_hash : option Z; k_data : kdata
}.

Definition set_data (k : jwk) (d : kdata) : jwk :=
  {| k_kty := k_kty k; k_alg := k_alg k; k_use := k_use k; k_kid := k_kid k; k_x5c := k_x5c k; k_x5t := k_x5t k;
     k_x5u := k_x5u k; k_extra := k_extra k; k_hash := k_hash k; k_data := d |}.
Definition set_hash (k : jwk) (h : option Z) : jwk :=
  {| k_kty := k_kty k; k_alg := k_alg k; k_use := k_use k; k_kid := k_kid k; k_x5c := k_x5c k; k_x5t := k_x5t k;
     k_x5u := k_x5u k; k_extra := k_extra k; k_hash := h; k_data := k_data k |}.
Definition set_kid (k : jwk) (kid : pval) : jwk :=
  {| k_kty := k_kty k; k_alg := k_alg k; k_use := k_use k; k_kid := kid; k_x5c := k_x5c k; k_x5t := k_x5t k;
     k_x5u := k_x5u k; k_extra := k_extra k; k_hash := k_hash k; k_data := k_data k |}.

(** A keyword argument with its default. *)
Definition kwarg (kw : dict) (name : ustr) (default : pval) : pval :=
  match dget kw name with Some v => v | None => default end.

(** jwk.py:252-271: kty, alg, use and kid are kept if text, otherwise passed through as_unicode. *)
Definition textual (v : pval) : pval := if is_str v then v else as_unicode v.

Definition common_params : list ustr :=
  [lit "kty"; lit "alg"; lit "use"; lit "kid"; lit "key"; lit "x5c"; lit "x5t"; lit "x5u"].

Definition in_names (k : ustr) (l : list ustr) : bool := existsb (zs_eqb k) l.

(** Key.__init__, jwk.py:247-277, called by every subclass.  [consumed] are the named parameters of the subclass;
    the rest becomes extra_args.  A keyword argument called "self" collides with the bound instance (TypeError). *)
Definition key_init (kw : dict) (kty : ustr) (consumed : list ustr) (data : kdata) : res jwk :=
  if dmem kw (lit "self") then Raise ETypeError
  else
    let x5c := kwarg kw (lit "x5c") VNone in
    Ok {| k_kty := textual (kwarg kw (lit "kty") (VStr kty));
          k_alg := textual (kwarg kw (lit "alg") (VStr []));
          k_use := textual (kwarg kw (lit "use") (VStr []));
          k_kid := textual (kwarg kw (lit "kid") (VStr []));
          k_x5c := if truthy x5c then x5c else VList [];
          k_x5t := kwarg kw (lit "x5t") (VStr []);
          k_x5u := kwarg kw (lit "x5u") (VStr []);
          k_extra := filter (fun kv => negb (in_names (fst kv) (common_params ++ consumed))) kw;
          k_hash := None;
          k_data := data |}.

(** class Key constructed directly. *)
Definition base_new (kw : dict) (key : kobj) : res jwk := key_init kw [] [] (DKey key).

(** *** RSAKey *)

(** jwk.py:417. *)
Definition rsa_longs : list ustr :=
  [lit "n"; lit "e"; lit "d"; lit "p"; lit "q"; lit "dp"; lit "dq"; lit "di"; lit "qi"].

Definition num (nums : dict) (name : ustr) : pval := kwarg nums name (VStr []).

(** RSAKey._split, jwk.py:510-528. *)
Definition rsa_split (key : kobj) (nums : dict) : res dict :=
  match key with
  | ORsa k =>
      let a := dset (dset nums (lit "n") (VInt (r_n k))) (lit "e") (VInt (r_e k)) in
      Ok (match r_d k with
          | None => a
          | Some d =>
              let b := dset a (lit "d") (VInt d) in
              match r_pq k with
              | None => b
              | Some (p, q) =>
                  let c := if p =? 0 then b else dset b (lit "p") (VInt p) in
                  if q =? 0 then c else dset c (lit "q") (VInt q)
              end
          end)
  | _ => if otruthy key then Raise EAttributeError else Raise ESerializationNotPossible
  end.

(** The conversion loop of RSAKey.deserialize, jwk.py:447-457. *)
Fixpoint deser_nums (nums : dict) : res dict :=
  match nums with
  | [] => Ok []
  | (name, v) :: r =>
      v' <- (if negb (truthy v) || is_int v then Ok v else z <- deser v;; Ok (VInt z));;
      r' <- deser_nums r;;
      Ok ((name, v') :: r')
  end.

(** A ValueError inside the try block of deserialize becomes DeSerializationNotPossible (jwk.py:469-470, 603-604). *)
Definition conv_value_error {A} (m : res A) : res A :=
  match m with
  | Raise e => if is_ValueError e then Raise EDeSerializationNotPossible else Raise e
  | Ok a => Ok a
  end.

Definition int_of (v : pval) : Z := match as_int v with Some z => z | None => 0 end.

(** The argument of RSA.construct, jwk.py:459-468. *)
Definition construct_args (nums : dict) : list Z :=
  let g := fun name => int_of (num nums name) in
  let has := fun name => truthy (num nums name) in
  [g (lit "n"); g (lit "e")] ++ (if has (lit "d") then [g (lit "d")] else []) ++
  (if has (lit "p") then g (lit "p") :: (if has (lit "q") then [g (lit "q")] else []) else []).

(** [self.x5c[0].encode("ascii")], jwk.py:472.  ([x5c] may be any JSON value; only a list of text works, or text.) *)
Definition first_cert (x5c : pval) : res bytes :=
  match x5c with
  | VList (VStr s :: _) => ascii_encode s
  | VList (_ :: _) => Raise EAttributeError
  | VList [] => Raise EIndexError
  | VStr (c :: _) => ascii_encode [c]
  | VStr [] => Raise EIndexError
  | VBytes (_ :: _) => Raise EAttributeError
  | VBytes [] => Raise EIndexError
  | VDict _ => Raise EKeyError
  | _ => Raise ETypeError
  end.

(** RSAKey.deserialize, jwk.py:444-486: the new [key] and numbers. *)
Definition rsa_deserialize (P : prims) (x5c x5t : pval) (nums : dict) : res (kobj * dict) :=
  if truthy (num nums (lit "n")) && truthy (num nums (lit "e")) then
    conv_value_error (
      nums' <- deser_nums nums;;
      key <- p_rsa_construct P (construct_args nums');;
      Ok (ORsa key, nums'))
  else if truthy x5c then
    t <- first_cert x5c;;
    der <- a2b t 0 0 0;;
    ' _ <- (if truthy x5t then
              match x5t with
              | VStr s =>
                  a <- ascii_encode s;; h <- b64d a;;
                  if zs_eqb h (p_hash P SHA1 der) then Ok tt else Raise EDeSerializationNotPossible
              | _ => Raise EAttributeError
              end
            else Ok tt);;
    key <- p_der2rsa P der;;
    nums' <- rsa_split (ORsa key) nums;;
    Ok (ORsa key, nums')
  else Raise EDeSerializationNotPossible.

(** RSAKey.__init__, jwk.py:422-442.  [key] is the [key] argument. *)
Definition rsa_new (P : prims) (kw : dict) (key : kobj) : res jwk :=
  let nums := map (fun name => (name, kwarg kw name (VStr []))) rsa_longs in
  k <- key_init kw (lit "RSA") rsa_longs (DRsa key nums);;
  ln <- py_len (num nums (lit "n"));;
  le <- (if Nat.ltb 0 ln then py_len (num nums (lit "e")) else Ok 0%nat);;
  lx <- py_len (k_x5c k);;
  if negb (otruthy key) && (Nat.ltb 0 le || Nat.ltb 0 lx) then
    ' (key', nums') <- rsa_deserialize P (k_x5c k) (k_x5t k) nums;;
    Ok (set_data k (DRsa key' nums'))
  else if otruthy key && negb (truthy (num nums (lit "n")) && truthy (num nums (lit "e"))) then
    nums' <- rsa_split key nums;;
    Ok (set_data k (DRsa key nums'))
  else Ok k.

(** *** ECKey *)

(** [base64url_to_long(item)] (__init__.py:123-136) of an attribute that is set and not an int.  On Python 3 it raises for
    text, into which octets have been turned before, and for anything that is no list of octets; such a list holds none of the
    texts "+", "/", "=". *)
Definition octet_list (v : pval) : bool :=
  match v with
  | VList l => match b <- octets l;; base64_to_long_b b with Ok _ => true | Raise _ => false end
  | _ => false
  end.
(** Key.verify, jwk.py:319-347, the loop over [longs]: it stops with False at the first attribute that is set and neither an
    int nor accepted by base64url_to_long, after turning that attribute into text.  [true] = the loop ran to its end. *)
Fixpoint verify_loop (l : list pval) : res (list pval * bool) :=
  match l with
  | [] => Ok ([], true)
  | v :: r =>
      if negb (truthy v) || is_int v || octet_list v then
        ' (r', b) <- verify_loop r;; Ok (v :: r', b)
      else
        v' <- match v with VBytes b => s <- utf8_decode b;; Ok (VStr s) | _ => Ok v end;;
        Ok (v' :: r, false)
  end.

(** Key.verify, jwk.py:342-346, the check of [kid]. *)
Definition verify_kid (kid : pval) : res bool :=
  if truthy kid && negb (is_str kid) then Raise EHeaderError else Ok true.

(** by_name on an attribute: text or bytes are compared, anything else is unknown. *)
Definition curve_by_name (v : pval) : res curve :=
  match v with VStr s | VBytes s => by_name s | _ => Raise EECCException end.

(** ECKey.deserialize, jwk.py:588-612; line 594 builds an exception without raising it. *)
Definition ec_deserialize (crv x y d : pval) : res (pval * pval * pval * curve) :=
  let conv := fun v => if is_int v then Ok v else z <- deser v;; Ok (VInt z) in
  let catch := fun (m : res (pval * pval)) =>
    match m with Raise ETypeError => Raise EDeSerializationNotPossible | _ => conv_value_error m end in
  ' (x', y') <- catch (x' <- conv x;; y' <- conv y;; Ok (x', y'));;
  c <- curve_by_name crv;;
  d' <- (if truthy d then
           match d with VStr _ => conv_value_error (z <- deser d;; Ok (VInt z)) | _ => Ok d end
         else Ok d);;
  Ok (x', y', d', c).

(** ECKey.load_key, jwk.py:642-645, with the outcome of [key.key_pair()]; [None] is the point at infinity, on which
    unpacking raises TypeError.  Any other object has no key_pair. *)
Definition ec_load_key (k : jwk) (key : kobj) (rnd : Z) : res jwk :=
  match key, k_data k with
  | OCurve c, DEc kk crv _ _ _ _ =>
      match key_pair c rnd with
      | (d, Some (x, y)) => Ok (set_data k (DEc kk crv (VInt x) (VInt y) (VInt d) (OCurve c)))
      | (_, None) => Raise ETypeError
      end
  | _, _ => Raise EAttributeError
  end.

Definition ec_params : list ustr := [lit "crv"; lit "x"; lit "y"; lit "d"; lit "curve"].

(** ECKey.__init__, jwk.py:570-586.  [key] and [curve] are the arguments of those names, [rnd] the random bits used if
    a key pair is generated. *)
Definition ec_new (kw : dict) (key curve : kobj) (rnd : Z) : res jwk :=
  let crv := kwarg kw (lit "crv") (VStr []) in
  let x := kwarg kw (lit "x") (VStr []) in
  let y := kwarg kw (lit "y") (VStr []) in
  let d := kwarg kw (lit "d") (VStr []) in
  k <- key_init kw (lit "EC") ec_params (DEc key crv x y d curve);;
  if truthy crv && negb (otruthy curve) then
    ' (l, b) <- verify_loop [x; y; d];;
    ' _ <- (if b then verify_kid (k_kid k) else Ok false);;
    match l with
    | [x1; y1; d1] =>
        ' (x2, y2, d2, c) <- ec_deserialize crv x1 y1 d1;;
        Ok (set_data k (DEc key crv x2 y2 d2 (OCurve c)))
    | _ => Raise ETypeError (* not reached: verify_loop keeps the length *)
    end
  else if otruthy key && negb (truthy crv) && negb (otruthy curve) then ec_load_key k key rnd
  else Ok k.

(** *** SYMKey *)

Definition sym_params : list ustr := [lit "k"; lit "mtrl"].

(** SYMKey.__init__, jwk.py:670-678. *)
Definition sym_new (kw : dict) (key : pval) : res jwk :=
  let k0 := kwarg kw (lit "k") (VStr []) in
  key <- as_bytes key;;
  k <- key_init kw (lit "oct") sym_params (DSym key k0);;
  if negb (truthy key) && truthy k0 then
    k1 <- as_bytes k0;;
    b <- py_bytes k1;;
    s <- b64d b;;
    Ok (set_data k (DSym (VBytes s) k1))
  else Ok k.

(** *** keyrep, jwk.py:741-768, with the default [enc="utf-8"]: text values are encoded, then passed as keyword
    arguments to the class selected by kty (compared before encoding). *)
Fixpoint enc_values (d : dict) : res dict :=
  match d with
  | [] => Ok []
  | (k, v) :: r => v' <- as_bytes v;; r' <- enc_values r;; Ok ((k, v') :: r')
  end.

Definition dispatch (P : prims) (kty : pval) (kw : dict) : res jwk :=
  let key := kwarg kw (lit "key") VNone in
  if pval_eqb kty (VStr (lit "RSA")) then rsa_new P kw (OVal key)
  else if pval_eqb kty (VStr (lit "oct")) then sym_new kw key
  else if pval_eqb kty (VStr (lit "EC")) then ec_new kw (OVal key) (OVal (kwarg kw (lit "curve") VNone)) 0
  else base_new kw (OVal key).

Definition keyrep (P : prims) (kspec : pval) : res jwk :=
  match kspec with
  | VDict d =>
      kw <- enc_values d;;
      match dget d (lit "kty") with
      | None => Raise EKeyError
      | Some kty => dispatch P kty kw
      end
  | _ => Raise EAttributeError
  end.

(** key_from_jwk_dict, jwk.py:205-235. *)
Fixpoint take_args (d : dict) (names : list ustr) : res dict :=
  match names with
  | [] => Ok []
  | n :: r => match dget d n with
              | None => Raise EKeyError
              | Some v => t <- take_args d r;; Ok ((n, v) :: t)
              end
  end.
Definition key_from_jwk_dict (P : prims) (d : dict) (private : bool) : res jwk :=
  match dget d (lit "kty") with
  | None => Raise EKeyError
  | Some kty =>
      if pval_eqb kty (VStr (lit "EC")) then
        kw <- take_args d ([lit "kid"; lit "crv"; lit "x"; lit "y"] ++ if private then [lit "d"] else []);;
        ec_new kw onone onone 0
      else if pval_eqb kty (VStr (lit "RSA")) then
        kw <- take_args d ([lit "kid"; lit "n"; lit "e"] ++ if private then [lit "d"; lit "p"; lit "q"] else []);;
        rsa_new P kw onone
      else if pval_eqb kty (VStr (lit "oct")) then
        kw <- take_args d [lit "kid"; lit "k"];;
        sym_new kw VNone
      else Raise EUnknownAlgorithm
  end.

(** *** Serialization *)

(** Key.common, jwk.py:289-297. *)
Definition common (k : jwk) : dict :=
  let a := [(lit "kty", k_kty k)] in
  let b := if truthy (k_use k) then dset a (lit "use") (k_use k) else a in
  let c := if truthy (k_kid k) then dset b (lit "kid") (k_kid k) else b in
  if truthy (k_alg k) then dset c (lit "alg") (k_alg k) else c.

(** [if item: res[param] = long_to_base64(item)], jwk.py:495-498, 501-507. *)
Fixpoint add_nums (acc : dict) (nums : dict) (names : list ustr) : res dict :=
  match names with
  | [] => Ok acc
  | n :: r =>
      acc' <- (let v := num nums n in if truthy v then t <- num_to_base64 v;; Ok (dset acc n t) else Ok acc);;
      add_nums acc' nums r
  end.

(** serialize, jwk.py:309-314 (returns None), 488-508, 626-640, 686-689.  The public RSA numbers are visited in the
    unspecified order of a set; n before e here. *)
Definition serialize (k : jwk) (private : bool) : res pval :=
  match k_data k with
  | DKey _ => Ok VNone
  | DRsa key nums =>
      if otruthy key then
        a <- add_nums (common k) nums [lit "n"; lit "e"];;
        b <- (if private then add_nums a nums rsa_longs else Ok a);;
        Ok (VDict b)
      else Raise ESerializationNotPossible
  | DEc _ crv x y d curve =>
      if negb (truthy crv) && negb (otruthy curve) then Raise ESerializationNotPossible
      else match curve with
           | OCurve c =>
               x' <- num_to_base64 x;;
               y' <- num_to_base64 y;;
               let r := dset (dset (dset (common k) (lit "crv") (VStr (lit "P-" ++ dec (c_bits c)))) (lit "x") x')
                             (lit "y") y' in
               if private && truthy d then
                 d' <- num_to_base64 d;; Ok (VDict (dset r (lit "d") d'))
               else Ok (VDict r)
           | _ => Raise EAttributeError
           end
  | DSym key _ =>
      b <- py_bytes key;;
      Ok (VDict (dset (common k) (lit "k") (as_unicode (VBytes (b64e b)))))
  end.

(** Key.to_dict, jwk.py:279-287; [None.update] is an AttributeError. *)
Definition to_dict (k : jwk) : res dict :=
  s <- serialize k true;;
  match s with VDict d => Ok (dupd d (k_extra k)) | _ => Raise EAttributeError end.

(** *** Key material for use *)

(** get_key, jwk.py:316-317 and 614-624. *)
Inductive material := MObj (o : kobj) | MPoint (x y : pval).
Definition get_key (k : jwk) (private : bool) : res material :=
  match k_data k with
  | DKey o => Ok (MObj o)
  | DRsa o _ => Ok (MObj o)
  | DSym key _ => Ok (MObj (OVal key))
  | DEc _ _ x y d _ =>
      if private then (if truthy d then Ok (MObj (OVal d)) else Raise EValueError)
      else if truthy x && truthy y then Ok (MPoint x y) else Raise EValueError
  end.

(** ALG2KEYLEN, jwk.py:655-662. *)
Definition ALG2KEYLEN : list (ustr * nat) :=
  [(lit "A128KW", 16%nat); (lit "A192KW", 24%nat); (lit "A256KW", 32%nat);
   (lit "HS256", 32%nat); (lit "HS384", 48%nat); (lit "HS512", 64%nat)].

(** SYMKey.encryption_key, jwk.py:691-721, with the key object afterwards (deserialize sets [self.key]).
    The digest functions apply as_bytes, a no-op on bytes; a key of another type is a TypeError of hashlib. *)
Definition sym_encryption_key (P : prims) (k : jwk) (alg : ustr) : res (bytes * jwk) :=
  match k_data k with
  | DSym key kk =>
      key' <- (if truthy key then Ok key
               else if truthy kk then b <- py_bytes kk;; s <- b64d b;; Ok (VBytes s)
               else Raise EDeSerializationNotPossible);;
      match dget ALG2KEYLEN alg with
      | None => Raise EKeyError
      | Some tsize =>
          let h := if Nat.leb tsize 32 then SHA256 else if Nat.leb tsize 48 then SHA384 else SHA512 in
          match key' with
          | VBytes b => Ok (firstn tsize (p_hash P h b), set_data k (DSym key' kk))
          | _ => Raise ETypeError
          end
      end
  | _ => Raise EAttributeError
  end.

(** RSAKey.encryption_key, jwk.py:550-558. *)
Definition rsa_encryption_key (P : prims) (k : jwk) : res (kobj * jwk) :=
  match k_data k with
  | DRsa key nums =>
      if otruthy key then Ok (key, k)
      else ' (key', nums') <- rsa_deserialize P (k_x5c k) (k_x5t k) nums;; Ok (key', set_data k (DRsa key' nums'))
  | _ => Raise EAttributeError
  end.

(** *** Equality, thumbprint, hash *)

(** Key.__eq__, jwk.py:349-359: same attribute names (i.e. same class), then the public members in turn.  Because
    RSAKey extends the list object of Key (jwk.py:415-419), the base class also looks for n and e, which it lacks. *)
Definition key_eq (a b : jwk) : res bool :=
  let shared := pval_eqb (k_kty b) (k_kty a) && pval_eqb (k_alg b) (k_alg a) && pval_eqb (k_use b) (k_use a)
                && pval_eqb (k_kid b) (k_kid a) in
  let x509 := pval_eqb (k_x5c b) (k_x5c a) && pval_eqb (k_x5t b) (k_x5t a) && pval_eqb (k_x5u b) (k_x5u a) in
  match k_data a, k_data b with
  | DRsa _ n1, DRsa _ n2 =>
      Ok (shared && x509 && pval_eqb (num n2 (lit "n")) (num n1 (lit "n")) && pval_eqb (num n2 (lit "e")) (num n1 (lit "e")))
  | DEc _ crv1 x1 y1 _ _, DEc _ crv2 x2 y2 _ _ => Ok (shared && pval_eqb crv2 crv1 && pval_eqb x2 x1 && pval_eqb y2 y1)
  | DSym _ k1, DSym _ k2 => Ok (shared && pval_eqb k2 k1)
  | DKey _, DKey _ => if shared && x509 then Raise EAttributeError else Ok false
  | _, _ => Ok false
  end.

(** [required] after sorting, jwk.py:245, 420, 568, 668 (the EC list names 'key' instead of 'kty'). *)
Definition required (k : jwk) : list ustr :=
  match k_data k with
  | DKey _ => [lit "kty"]
  | DRsa _ _ => [lit "e"; lit "kty"; lit "n"]
  | DEc _ _ _ _ _ _ => [lit "crv"; lit "key"; lit "x"; lit "y"]
  | DSym _ _ => [lit "k"; lit "kty"]
  end.

(** The members of the hashed text, jwk.py:370-377. *)
Fixpoint members_text (ser : dict) (names : list ustr) : res (list (list Z)) :=
  match names with
  | [] => Ok []
  | n :: r =>
      match dget ser n with
      | None => members_text ser r
      | Some v => t <- dumps true v;; ts <- members_text ser r;; Ok ((34 :: n ++ [34; 58] ++ t) :: ts)
      end
  end.

(** DIGEST_HASH, jwk.py:84-88. *)
Definition digest_hash (name : ustr) : option hashalg :=
  dget [(lit "SHA-256", SHA256); (lit "SHA-384", SHA384); (lit "SHA-512", SHA512)] name.

(** Key.thumbprint, jwk.py:364-380, default members.  Indexing None (base class) is a TypeError.  [serialize()] of a
    SYMKey is private by default, the others public. *)
Definition thumbprint (P : prims) (k : jwk) (hash_function : ustr) : res bytes :=
  ser <- serialize k false;;
  match ser with
  | VDict d =>
      ms <- members_text d (required k);;
      match digest_hash hash_function with
      | None => Raise EKeyError
      | Some h => b <- utf8_encode (123 :: join 44 ms ++ [125]);; Ok (p_hash P h b)
      end
  | _ => Raise ETypeError
  end.

(** Key.get_hash / add_kid / __hash__, jwk.py:382-399: value and the key afterwards.  (Python then reduces the
    integer; equal integers stay equal.) *)
Definition get_hash (P : prims) (k : jwk) : res (Z * jwk) :=
  t <- thumbprint P k (lit "SHA-256");; Ok (be2z t, set_hash k (Some (be2z t))).
Definition add_kid (P : prims) (k : jwk) : res jwk :=
  t <- thumbprint P k (lit "SHA-256");; Ok (set_hash (set_kid k (VStr (b64e t))) (Some (be2z t))).
Definition key_hash (P : prims) (k : jwk) : res (Z * jwk) :=
  let compute := if truthy (k_kid k) then get_hash P k
                 else k' <- add_kid P k;; Ok (match k_hash k' with Some h => h | None => 0 end, k') in
  match k_hash k with
  | Some h => if h =? 0 then compute else Ok (h, k)
  | None => compute
  end.

(** ** Wrapping and copying *)

(** jwk_wrap, jwk.py:771-790, for an RsaKey, a text and a curve object. *)
Definition wrap_kw (use kid : pval) : dict := [(lit "use", use); (lit "kid", kid)].
Inductive raw := RawRsa (k : rsakey) | RawText (s : ustr) | RawCurve (c : curve) (rnd : Z) | RawOther.
Definition jwk_wrap (P : prims) (key : raw) (use kid : pval) : res jwk :=
  k <- match key with
       | RawRsa r =>
           k <- rsa_new P (wrap_kw use kid) onone;;
           match k_data k with
           | DRsa _ nums => nums' <- rsa_split (ORsa r) nums;; Ok (set_data k (DRsa (ORsa r) nums'))
           | _ => Raise EAttributeError (* not reached *)
           end
       | RawText s => sym_new (wrap_kw use kid) (VStr s)
       | RawCurve c rnd => k <- ec_new (wrap_kw use kid) onone onone 0;; ec_load_key k (OCurve c) rnd
       | RawOther => Raise EException
       end;;
  ' _ <- serialize k (match k_data k with DSym _ _ => true | _ => false end);;
  Ok k.

(** make_public_copy, jwk.py:928-941: a fresh object of the same class, then the public members. *)
Definition make_public_copy (k : jwk) : jwk :=
  let blank := fun data kty x5c x5t x5u =>
    {| k_kty := kty; k_alg := k_alg k; k_use := k_use k; k_kid := k_kid k; k_x5c := x5c; k_x5t := x5t; k_x5u := x5u;
       k_extra := []; k_hash := None; k_data := data |} in
  match k_data k with
  | DKey _ => blank (DKey onone) (k_kty k) (k_x5c k) (k_x5t k) (k_x5u k)
  | DRsa _ nums =>
      let fresh := map (fun name => (name, VStr [])) rsa_longs in
      blank (DRsa onone (dset (dset fresh (lit "n") (num nums (lit "n"))) (lit "e") (num nums (lit "e"))))
            (k_kty k) (k_x5c k) (k_x5t k) (k_x5u k)
  | DEc _ crv x y _ _ => blank (DEc onone crv x y (VStr []) onone) (k_kty k) (VList []) (VStr []) (VStr [])
  | DSym _ kk => blank (DSym VNone kk) (k_kty k) (VList []) (VStr []) (VStr [])
  end.

(** ** Key sets: class KEYS, jwk.py:793-917.  The state is the list [_keys]. *)

(** load_dict, jwk.py:797-799: keys are appended one by one, so those before a failing one stay. *)
Fixpoint load_list (P : prims) (ks : list jwk) (l : list pval) : list jwk * option exn :=
  match l with
  | [] => (ks, None)
  | v :: r => match keyrep P v with
              | Ok k => load_list P (ks ++ [k]) r
              | Raise e => (ks, Some e)
              end
  end.
Definition load_dict (P : prims) (ks : list jwk) (v : pval) : list jwk * option exn :=
  match v with
  | VDict d =>
      match dget d (lit "keys") with
      | None => (ks, Some EKeyError)
      | Some (VList l) => load_list P ks l
      | Some (VDict m) => load_list P ks (map (fun kv => VStr (fst kv)) m)
      | Some (VStr s) => load_list P ks (map (fun c => VStr [c]) s)
      | Some (VBytes s) => load_list P ks (map VInt s)
      | Some _ => (ks, Some ETypeError)
      end
  | _ => (ks, Some ETypeError)
  end.
(** load_jwks, jwk.py:801-827; load_from_url, jwk.py:839-854. *)
Definition load_jwks (P : prims) (ks : list jwk) (text : pval) : list jwk * option exn :=
  match loads_any text with Ok v => load_dict P ks v | Raise e => (ks, Some e) end.
Definition load_from_url (P : prims) (ks : list jwk) (url : ustr) : list jwk * option exn :=
  match p_fetch P url with Ok t => load_jwks P ks (VStr t) | Raise e => (ks, Some e) end.

(** The mutators: append (916), add (913), load_jwks, load_dict, wrap_add (895). *)
Inductive keys_op :=
| OpAppend (k : jwk) | OpAdd (item : pval) | OpLoadDict (d : pval) | OpLoadJwks (text : pval)
| OpUrl (url : ustr) | OpWrapAdd (key : raw) (use kid : pval).
Definition keys_step (P : prims) (ks : list jwk) (op : keys_op) : list jwk * option exn :=
  let push := fun m => match m with Ok k => (ks ++ [k], None) | Raise e => (ks, Some e) end in
  match op with
  | OpAppend k => (ks ++ [k], None)
  | OpAdd item => push (keyrep P item)
  | OpLoadDict d => load_dict P ks d
  | OpLoadJwks t => load_jwks P ks t
  | OpUrl u => load_from_url P ks u
  | OpWrapAdd key use kid => push (jwk_wrap P key use kid)
  end.

(** dump_jwks, jwk.py:829-837. *)
Definition dump_jwks (ks : list jwk) : res ustr :=
  l <- mapM (fun k => s <- serialize k false;; b2s_conv s) ks;;
  dumps true (VDict [(lit "keys", VList l)]).

(** __getitem__, jwk.py:856-864: [item] is text. *)
Definition keys_getitem (ks : list jwk) (item : ustr) : res (list jwk) :=
  l <- mapM (fun k => v <- py_lower (k_kty k);; Ok (k, pval_eqb v (VStr (lower item)))) ks;;
  Ok (map fst (filter snd l)).

(** kids, by_kid, jwk.py:889-893. *)
Definition keys_kids (ks : list jwk) : list pval := filter truthy (map k_kid ks).
Definition keys_by_kid (ks : list jwk) (kid : pval) : list jwk := filter (fun k => pval_eqb kid (k_kid k)) ks.

(** key_types, jwk.py:876-881: the set of types, here in order of first occurrence; unhashable types are TypeErrors. *)
Definition hashable (v : pval) : bool := match v with VList _ | VDict _ => false | _ => true end.
Fixpoint dedup (l : list pval) (seen : list pval) : list pval :=
  match l with
  | [] => []
  | v :: r => if existsb (pval_eqb v) seen then dedup r seen else v :: dedup r (seen ++ [v])
  end.
Definition keys_types (ks : list jwk) : res (list pval) :=
  if forallb (fun k => hashable (k_kty k)) ks then Ok (dedup (map k_kty ks) []) else Raise ETypeError.

(** as_dict, jwk.py:898-911. *)
Definition norm_kty (kty : pval) : res pval :=
  if existsb (pval_eqb kty) [VStr (lit "RSA"); VStr (lit "EC"); VStr (lit "oct")] then Ok kty
  else match kty with
       | VStr s => if zs_eqb s (lit "rsa") || zs_eqb s (lit "ec") then Ok (VStr (upper s)) else Ok (VStr (lower s))
       | VBytes s => Ok (VBytes (lower s))
       | _ => Raise EAttributeError
       end.
Fixpoint group_add (m : list (pval * list jwk)) (kty : pval) (k : jwk) : list (pval * list jwk) :=
  match m with
  | [] => [(kty, [k])]
  | (t, l) :: r => if pval_eqb t kty then (t, l ++ [k]) :: r else (t, l) :: group_add r kty k
  end.
Fixpoint as_dict_loop (m : list (pval * list jwk)) (ks : list jwk) : res (list (pval * list jwk)) :=
  match ks with
  | [] => Ok m
  | k :: r => t <- norm_kty (k_kty k);; as_dict_loop (group_add m t k) r
  end.
Definition as_dict (ks : list jwk) : res (list (pval * list jwk)) := as_dict_loop [] ks.
