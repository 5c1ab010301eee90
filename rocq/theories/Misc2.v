(** * Model of the last functions: texts and names of keys (jwk.py), streams, JWE_SYM with a key of any kind (jwe.py), the certificate
    options of jwdecrypt.py. *)
From Coq Require Import ZArith List Bool.
From Verif Require Import Base Utf8 Codec Json Jwt Prims Elliptic Ecc KeyWrap Extra Jwk Jws Jwe Misc Script.
Import ListNotations.
Open Scope Z_scope.

(** ** repr of CPython 3.  [printable] is [chr(c).isprintable()] for characters outside ASCII.  A float is its text. *)
Definition hex2 (c : Z) : list Z := [hex_digit (c / 16 mod 16); hex_digit (c mod 16)].
(** the quote: the double one for a text that has the single one but not the double one *)
Definition quote_of (s : list Z) : Z := if existsb (Z.eqb 39) s && negb (existsb (Z.eqb 34) s) then 34 else 39.
Definition repr_c (printable : Z -> bool) (q c : Z) : list Z :=
  if (c =? q) || (c =? 92) then [92; c]
  else if c =? 9 then [92; 116]
  else if c =? 10 then [92; 110]
  else if c =? 13 then [92; 114]
  else if (c <? 32) || (c =? 127) then 92 :: 120 :: hex2 c
  else if (c <? 127) || printable c then [c]
  else if c <? 256 then 92 :: 120 :: hex2 c
  else if c <? 65536 then u_esc c
  else 92 :: 85 :: hex4 (c / 65536) ++ hex4 (c mod 65536).
Definition repr_str (printable : Z -> bool) (s : ustr) : list Z :=
  let q := quote_of s in q :: concat (map (repr_c printable q) s) ++ [q].
Definition repr_bytes (b : bytes) : list Z := 98 :: repr_str (fun _ => false) b.
Fixpoint py_repr (printable : Z -> bool) (v : pval) : list Z :=
  match v with
  | VNone => lit "None"
  | VBool b => if b then lit "True" else lit "False"
  | VInt z => dec z
  | VFloat t => t
  | VStr s => repr_str printable s
  | VBytes b => repr_bytes b
  | VList l => 91 :: interc (lit ", ") (map (py_repr printable) l) ++ [93]
  | VDict d =>
      123 :: interc (lit ", ") (map (fun p => match p with (n, x) => repr_str printable n ++ lit ": " ++ py_repr printable x end) d) ++ [125]
  end.

(** ** jwk.py *)

(** Key.__str__, jwk.py:299-300 (print and logging call it; __repr__ is that of object) *)
Definition key_str (printable : Z -> bool) (k : jwk) : res ustr := d <- to_dict k;; Ok (py_repr printable (VDict d)).
(** Key.keys, jwk.py:361-362 *)
Definition key_keys (k : jwk) : res (list ustr) := d <- to_dict k;; Ok (map fst d).
(** KEYS.__repr__ and __str__, jwk.py:883-887 *)
Definition keys_str (ks : list jwk) : res ustr := dump_jwks ks.

(** dicthash, jwk.py:64-65; [hash] is the hash of a text (the same within one process only).  Tuples of a dictionary are
    sorted by their names, which differ.  repr of a list of pairs. *)
Fixpoint text_le (a b : list Z) : bool :=
  match a, b with
  | [], _ => true
  | _ :: _, [] => false
  | x :: r, y :: s => if x <? y then true else if y <? x then false else text_le r s
  end.
Fixpoint insert_item (p : ustr * pval) (l : dict) : dict :=
  match l with
  | [] => [p]
  | q :: r => if text_le (fst p) (fst q) then p :: l else q :: insert_item p r
  end.
Fixpoint sorted_items (d : dict) : dict := match d with [] => [] | p :: r => insert_item p (sorted_items r) end.
Definition repr_items (printable : Z -> bool) (l : dict) : list Z :=
  91 :: interc (lit ", ") (map (fun p => 40 :: repr_str printable (fst p) ++ lit ", " ++ py_repr printable (snd p) ++ [41]) l) ++ [93].
Definition dicthash (printable : Z -> bool) (hash : list Z -> Z) (d : dict) : Z := hash (repr_items printable (sorted_items d)).

(** ** jwe.py *)

(** io.StringIO: a text and a position.  [read()] gives the rest. *)
Record stringio := { io_text : ustr; io_pos : nat }.
Definition io_read (s : stringio) : ustr * stringio := (skipn (io_pos s) (io_text s), {| io_text := io_text s; io_pos := length (io_text s) |}).
(** [write] at the end of what was written so far *)
Definition io_write (s : stringio) (t : ustr) : stringio := {| io_text := io_text s ++ t; io_pos := length (io_text s ++ t) |}.

(** cipher_filter, jwe.py:193-200.  A cipher has a state; [update] and [final] may raise.  The loop ends when there is
    nothing left to read, after two rounds at most. *)
Section Filter.
Context {C : Type}.
Variable update : C -> ustr -> res (C * ustr).
Variable final : C -> res ustr.
Fixpoint filter_loop (rounds : nat) (c : C) (inf outf : stringio) : res ustr :=
  match rounds with
  | O => Raise EException (* not reached *)
  | S n =>
      let '(buf, inf) := io_read inf in
      match buf with
      | [] => t <- final c;; Ok (io_text (io_write outf t))
      | _ => ' (c, t) <- update c buf;; filter_loop n c inf (io_write outf t)
      end
  end.
Definition cipher_filter (c : C) (inf outf : stringio) : res ustr := filter_loop 2 c inf outf.
Definition new_io (t : ustr) : stringio := {| io_text := t; io_pos := 0 |}.
(** aes_enc, jwe.py:203-209; aes_dec, jwe.py:212-218 *)
Definition aes_enc (c : C) (txt : ustr) : res ustr := cipher_filter c (new_io txt) (new_io []).
Definition aes_dec (c : C) (ciptxt : ustr) : res ustr := cipher_filter c (new_io ciptxt) (new_io []).
End Filter.

(** The key argument of JWE_SYM.encrypt and decrypt: a key object, octets, or a list of numbers. *)
Inductive symarg := AKey (k : jwk) | AOctets (b : bytes) | AInts (l : list Z).

(** [key.key] of a SYMKey, as octets.  Any other key object, and None, is refused: it is not iterable (intarr2str) or no
    buffer (AES.new). *)
Definition key_octets (k : jwk) : res bytes :=
  match k_data k with
  | DSym (VStr s) _ => utf8_encode s
  | DSym (VBytes b) _ => Ok b
  | _ => Raise ETypeError
  end.
(** jwe.py:424-432; intarr2str gives a text, which AES refuses. *)
Definition enc_octets (a : symarg) : res bytes :=
  match a with
  | AKey k => key_octets k
  | AOctets b => Ok b
  | AInts l => _ <- intarr2str l;; Raise ETypeError
  end.
(** JWE_SYM.encrypt, jwe.py:403-443, for every kind of key; compare [sym_encrypt]. *)
Definition sym_encrypt_any (P : prims) (R : draws) (d : dict) (objects : bool) (msg : pval) (key : symarg) (cek iv : bytes) (kid : option pval) : res ustr :=
  let d := match kid with Some v => dset d (lit "kid") v | None => d end in
  j <- jwenc d objects;;
  enc <- dict_get d (lit "enc");;
  ' (cek, iv) <- generate_key_and_iv R enc cek iv;;
  kek <- enc_octets key;;
  jek <- aes_wrap_key P kek cek;;
  m <- match msg with VStr t => utf8_encode t | _ => Raise EAttributeError end;;
  h <- b64encode_item (j_headers j);;
  ' (ct, tag, _) <- enc_setup P R enc m h cek iv;;
  ' (t, _) <- pack j [VBytes jek; VBytes iv; VBytes ct; VBytes tag] VNone;;
  Ok t.

(** JWE_SYM.decrypt, jwe.py:445-476, with a key object or octets; a list is handed to AES.new, which refuses it, and only an
    empty one counts as missing.  An empty key object is not missing. *)
Definition sym_decrypt_any (P : prims) (d : dict) (j : jwt) (key : symarg) (cek : bytes) : res bytes :=
  if match key with AOctets [] | AInts [] => is_nil cek | _ => false end then Raise EMissingKey
  else if negb (Nat.eqb (length (j_part j)) 5) then Raise EWrongNumberOfParts
  else
    cek <- (if is_nil cek then
              jek <- part j 1;;
              k <- match key with AKey k => key_octets k | AOctets b => Ok b | AInts _ => Raise ETypeError end;;
              aes_unwrap_key P k jek
            else Ok cek);;
    enc <- py_get (j_headers j) (lit "enc");;
    ct <- part j 3;; h <- b64part j 0;; iv <- part j 2;; tag <- part j 4;;
    m <- content_decrypt P enc cek ct h iv tag;;
    match dget d (lit "zip") with
    | Some z => if pval_eqb z (VStr (lit "DEF")) then p_decompress P m else Ok m
    | None => Ok m
    end.

(** ** script/jwdecrypt.py with -X or -x *)

(** JWE.decrypt, jwe.py:841-900, with a list of which some elements have none of the attributes of a key; compare
    [jwe_decrypt]. *)
Definition jwe_decrypt_list (P : prims) (sent : nat -> bytes) (w : jwe) (token : pval) (keys : keylist) (alg : pval) (cek : bytes) : res (bytes * jwe) :=
  j <- (if truthy token then unpack token else match w_jwt w with Some j => Ok j | None => Raise EException end);;
  a <- py_get (j_headers j) (lit "alg");;
  if truthy alg && negb (pval_eqb alg a) then Raise EWrongEncryptionAlgorithm
  else
    ks <- match keys with [] => jws_get_keys P (as_jws w) | _ => Ok keys end;;
    ks <- pick_keys (as_jws w) ks (VStr (lit "enc")) a;;
    if is_nil ks && is_nil cek then Raise ENoSuitableDecryptionKey
    else
      f <- family_of a;;
      match f with
      | FRsa =>
          ' (m, c) <- cek_first cek (rsa_jwe_decrypt P (sent 0%nat) j None cek)
                        (dec_loop P a (fun i k => rsa_jwe_decrypt P (sent i) j (Some k) []) ks 1);;
          Ok (m, w_set w (lit "cek") (VBytes c))
      | FSym =>
          m <- cek_first cek (sym_decrypt P (sub_dict w SYM_ARGS) j None cek)
                 (dec_loop P a (fun _ k => sym_decrypt P (sub_dict w SYM_ARGS) j (Some k) []) ks 1);;
          Ok (m, w_set w (lit "cek") VNone)
      | FEc =>
          match ks with
          | [] => Raise ENoSuitableECDHKey
          | k :: _ =>
              cek <- ec_dec_setup P j k;;
              m <- cek_first cek (ec_decrypt P j cek) (dec_loop P a (fun _ _ => ec_decrypt P j cek) ks 1);;
              Ok (m, w_set w (lit "cek") VNone)
          end
      end.

(** jwdecrypt.py:61-64, 70-77, when neither -J nor -j is given and [-X url] or else [-x name] is: the keys are the pairs of
    load_x509_cert, or a raw RSA object. *)
Inductive certificate := CUrl (url : ustr) | CFile (name : ustr).
Section X509.
Variables (P : prims) (sent : nat -> bytes).
Variable read : ustr -> res ustr.
Variable imp : ustr -> res rsakey.
Definition jwdecrypt_x509 (c : certificate) (file msg : option ustr) : run :=
  run_of (match c with
          | CUrl u => Ok (map (fun _ => None) (fst (load_x509_cert P imp u [])))
          | CFile n => _ <- rsa_load read imp n;; Ok [None]
          end) (fun keys =>
  run_of (match given file with Some n => t <- read n;; Ok (VStr (strip_chars [10; 13] t)) | None => Ok (oval msg) end) (fun m =>
  run_of (jwe_decrypt_list P sent new_jwe m keys VNone []) (fun r => Printed [VBytes (fst r)]))).
End X509.

(** ** Key.verify, jwk.py:319-347, of a key of any class: the key afterwards (an attribute given as bytes has become text) and the answer. *)
Definition longs_of (k : jwk) : list pval :=
  match k_data k with DRsa _ nums => map (num nums) rsa_longs | DEc _ _ x y d _ => [x; y; d] | _ => [] end.
Definition set_longs (k : jwk) (l : list pval) : jwk :=
  match k_data k, l with
  | DRsa key _, _ => set_data k (DRsa key (combine rsa_longs l))
  | DEc key crv _ _ _ c, [x; y; d] => set_data k (DEc key crv x y d c)
  | _, _ => k
  end.
Definition key_verify (k : jwk) : res (jwk * bool) :=
  ' (l, b) <- verify_loop (longs_of k);;
  if b then b <- verify_kid (k_kid k);; Ok (set_longs k l, b) else Ok (set_longs k l, false).

(** JWx.keys, jws.py:314-315 *)
Definition jwx_keys (s : jws) : list ustr := map fst (s_dict s) ++ match s_jwk s with Some _ => [lit "jwk"] | None => [] end.
