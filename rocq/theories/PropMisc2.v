(** * Properties C188-C195: texts and names of keys, dicthash, streams, JWE_SYM with a key of any kind, the certificate options of jwdecrypt.py (Misc2.v). *)
From Coq Require Import ZArith List Bool Lia Permutation.
From Verif Require Import Base BaseProofs Utf8 Codec CodecProofs Json JsonProofs Jwt JwtProofs Prims Inst Elliptic Ecc KeyWrap KeyWrapProofs Extra ExtraProofs PvalEq Jwk JwkProofs JwkProofs2 JwkEx Jws JwsProofs JwsProofs6 Jwe JweProofs JweProofs2 JweProofs3 JweEx Misc Script Misc2 Misc2Proofs.
Import ListNotations.
Open Scope Z_scope.

(** C188: the text of a key shows its private numbers, the text of a key set only public parts.  [shown n b text]: the text
    has the member n, in quotes, with the URL-safe base64 form of b. *)
Definition shown (n : ustr) (b : bytes) (text : ustr) : Prop := exists pre post, text = pre ++ lit "'" ++ n ++ lit "': '" ++ b64e b ++ lit "'" ++ post.
Lemma quoted_shown : forall n b text, contains (quoted n (b64e b)) text -> shown n b text.
Proof.
  intros n b text (pre & post & ->). exists pre, post. f_equal. unfold quoted. change (lit "'") with [39]. change (lit "': '") with [39; 58; 32; 39].
  change (39 :: n ++ [39; 58; 32; 39] ++ b64e b ++ [39]) with ([39] ++ n ++ [39; 58; 32; 39] ++ b64e b ++ [39]). rewrite <- !app_assoc. reflexivity.
Qed.
Definition the_nine : list ustr := [lit "n"; lit "e"; lit "d"; lit "p"; lit "q"; lit "dp"; lit "dq"; lit "di"; lit "qi"].
Lemma the_nine_longs : forall n, In n the_nine <-> In n rsa_longs.
Proof. intro n. unfold the_nine, rsa_longs. cbn [In]. intuition auto 20. Qed.
Theorem C188_rsa : forall printable k key nums n z, k_data k = DRsa key nums -> otruthy key = true -> rsa_nums_ok nums -> annotated k ->
  In n the_nine -> num nums n = VInt z -> dget (k_extra k) n = None ->
  exists b text, be2z b = z /\ bytes_ok b = true /\ key_str printable k = Ok text /\ shown n b text.
Proof.
  intros pr k key nums n z D T N A I E X. destruct (rsa_str pr k key nums n z D T N A) as (b & text & V & O & S & C); [apply the_nine_longs; exact I|exact E|exact X|exists b, text; auto using quoted_shown].
Qed.
Print Assumptions C188_rsa.
Theorem C188_ec : forall printable k key crv x y z c, k_data k = DEc key crv (VInt x) (VInt y) (VInt z) (OCurve c) -> 0 < x -> 0 < y -> 0 < z -> named c -> annotated k -> dget (k_extra k) (lit "d") = None ->
  exists b text, be2z b = z /\ bytes_ok b = true /\ key_str printable k = Ok text /\ shown (lit "d") b text.
Proof.
  intros pr k key crv x y z c D X Y Hz N A EX. destruct (ec_str pr k key crv x y z c D X Y Hz N A EX) as (b & text & V & O & S & C). exists b, text. auto using quoted_shown.
Qed.
Print Assumptions C188_ec.
Theorem C188_sym : forall printable k key kk, k_data k = DSym (VBytes key) kk -> bytes_ok key = true -> dget (k_extra k) (lit "k") = None ->
  exists text, key_str printable k = Ok text /\ shown (lit "k") key text.
Proof. intros pr k key kk D O X. destruct (sym_str pr k key kk D O X) as (text & S & C). exists text. auto using quoted_shown. Qed.
Print Assumptions C188_sym.
Theorem C188_set : forall l m, Forall2 same_public l m -> keys_str l = keys_str m.
Proof. exact dump_public. Qed.
Print Assumptions C188_set.
Example C188_ex : (forall printable, (forall c, printable c = (c =? 233)) -> key_str printable ex_rsa =
    Ok (lit "{'kty': 'RSA', 'use': 'sig', 'kid': '" ++ 233 :: lit "1', 'alg': 'RS256', 'n': 'DKE', 'e': 'EQ', 'd': 'CsE', 'p': 'PQ', 'q': 'NQ'}")) /\
  rsa_nums_ok ex_nums /\ annotated ex_rsa /\ be2z [10; 193] = 2753 /\ b64e [10; 193] = lit "CsE" /\
  key_str (fun _ => true) ex_sym = Ok (lit "{'kty': 'oct', 'alg': 'HS256', 'k': 'c2VjcmV0'}") /\
  keys_str [ex_rsa] = Ok (lit "{""keys"": [{""kty"": ""RSA"", ""use"": ""sig"", ""kid"": ""\u00e91"", ""alg"": ""RS256"", ""n"": ""DKE"", ""e"": ""EQ""}]}").
Proof.
  split.
  - intros pr H. unfold key_str. vm_compute to_dict. cbn [bind py_repr map repr_str]. unfold repr_str. cbn. rewrite H. reflexivity.
  - split; [exact ex_nums_ok|]. repeat split; vm_compute; reflexivity.
Qed.

(** C189: a key of a type that is not known has no text and no names. *)
Theorem C189_base : forall P printable d kty k, dget d (lit "kty") = Some kty -> kty <> VStr (lit "RSA") -> kty <> VStr (lit "EC") -> kty <> VStr (lit "oct") -> keyrep P (VDict d) = Ok k ->
  key_str printable k = Raise EAttributeError /\ key_keys k = Raise EAttributeError.
Proof. exact base_str. Qed.
Print Assumptions C189_base.
Example C189_ex : exists k, keyrep std (VDict [(lit "kty", VStr (lit "OKP")); (lit "x", VStr (lit "AQ"))]) = Ok k.
Proof. exists (match keyrep std (VDict [(lit "kty", VStr (lit "OKP")); (lit "x", VStr (lit "AQ"))]) with Ok k => k | Raise _ => ex_sym end). vm_compute. reflexivity. Qed.

(** C190: the names of an RSA key *)
Theorem C190_names : forall k key nums, k_data k = DRsa key nums -> otruthy key = true -> rsa_nums_ok nums -> annotated k ->
  exists names, key_keys k = Ok names /\ forall n, In n names <->
    n = lit "kty" \/ (n = lit "use" /\ truthy (k_use k) = true) \/ (n = lit "kid" /\ truthy (k_kid k) = true) \/ (n = lit "alg" /\ truthy (k_alg k) = true) \/
    (In n the_nine /\ exists z, num nums n = VInt z) \/ In n (map fst (k_extra k)).
Proof.
  intros k key nums D T N A. destruct (rsa_names k key nums D T N A) as (names & E & H). exists names. split; [exact E|]. intro n. rewrite H, the_nine_longs. reflexivity.
Qed.
Print Assumptions C190_names.
Example C190_ex : key_keys ex_x5c = Ok [lit "kty"; lit "use"; lit "kid"; lit "alg"; lit "n"; lit "e"; lit "d"; lit "p"; lit "q"; lit "foo"].
Proof. vm_compute. reflexivity. Qed.

(** C191: dicthash does not depend on the order of the members ... *)
Theorem C191_order_partial : forall printable hash d d', Permutation d d' -> NoDup (map fst d) -> dicthash printable hash d = dicthash printable hash d'.
Proof. exact dicthash_order. Qed.
Print Assumptions C191_order_partial.
(** ... of the dictionary, but it does on those of dictionaries inside; and True and 1 are equal. *)
Theorem C191_nested_refuted : forall printable hash, (forall a b, hash a = hash b -> a = b) ->
  exists d d', pval_eqb (VDict d) (VDict d') = true /\ dicthash printable hash d <> dicthash printable hash d'.
Proof.
  intros pr hash I. exists [(lit "a", VDict [(lit "x", VInt 1); (lit "y", VInt 2)])], [(lit "a", VDict [(lit "y", VInt 2); (lit "x", VInt 1)])].
  split; [reflexivity|]. intro E. unfold dicthash in E. apply I in E. cbn in E. discriminate E.
Qed.
Print Assumptions C191_nested_refuted.
Theorem C191_bool_refuted : forall printable hash, (forall a b, hash a = hash b -> a = b) ->
  exists d d', pval_eqb (VDict d) (VDict d') = true /\ dicthash printable hash d <> dicthash printable hash d'.
Proof.
  intros pr hash I. exists [(lit "a", VBool true)], [(lit "a", VInt 1)]. split; [reflexivity|]. intro E. unfold dicthash in E. apply I in E. cbn in E. discriminate E.
Qed.
Print Assumptions C191_bool_refuted.
Example C191_ex : forall hash, dicthash (fun _ => true) hash [(lit "use", VStr (lit "sig")); (lit "kty", VStr (lit "EC"))] = hash (lit "[('kty', 'EC'), ('use', 'sig')]") /\
  dicthash (fun _ => true) hash [(lit "kty", VStr (lit "EC")); (lit "use", VStr (lit "sig"))] = hash (lit "[('kty', 'EC'), ('use', 'sig')]").
Proof. intro hash. split; reflexivity. Qed.

(** C192: the stream filter hands the whole text to the cipher at once and appends what ends it. *)
Theorem C192_filter : forall (C : Type) (update : C -> ustr -> res (C * ustr)) final c txt,
  (txt <> [] -> forall c' o1 o2, update c txt = Ok (c', o1) -> final c' = Ok o2 -> Misc2.aes_enc update final c txt = Ok (o1 ++ o2) /\ Misc2.aes_dec update final c txt = Ok (o1 ++ o2)) /\
  (txt = [] -> Misc2.aes_enc update final c txt = final c /\ Misc2.aes_dec update final c txt = final c).
Proof. exact filter_once. Qed.
Print Assumptions C192_filter.
Example C192_ex : Misc2.aes_enc (fun n t => Ok (n + 1, map (Z.add n) t)) (fun n => Ok [n]) 5 [10; 20] = Ok [15; 25; 6].
Proof. reflexivity. Qed.

(** C193: JWE_SYM with a key object or octets: what was encrypted under a key is decrypted under every argument with the same octets. *)
Theorem C193_roundtrip : forall P R, aes_law P -> hmac_law P -> draws_ok R -> forall d ob msg key b cek iv kid tok alg,
  enc_octets key = Ok b -> aes_keysize b = true -> bytes_ok b = true -> bytes_ok cek = true -> bytes_ok iv = true -> wrappable cek ->
  dget d (lit "alg") = Some alg -> truthy alg = true -> jsonable (VDict d) = true -> (forall v, kid = Some v -> jsonable v = true) ->
  sym_encrypt_any P R d ob msg key cek iv kid = Ok tok ->
  exists t m, msg = VStr t /\ utf8_encode t = Ok m /\
    forall d' key' token, dget d' (lit "zip") = None -> enc_octets key' = Ok b -> token = VStr tok \/ token = VBytes tok -> exists j, unpack token = Ok j /\ sym_decrypt_any P d' j key' [] = Ok m.
Proof. exact sym_any_roundtrip. Qed.
Print Assumptions C193_roundtrip.
(** The octets of an argument, independently of how it is given. *)
Theorem C193_octets : forall k s b, utf8_encode s = Ok b -> enc_octets (AOctets b) = Ok b /\
  (k_data k = DSym (VBytes b) (VStr []) -> enc_octets (AKey k) = Ok b) /\ (k_data k = DSym (VStr s) (VStr []) -> enc_octets (AKey k) = Ok b).
Proof. intros k s b U. split; [reflexivity|]. cbn [enc_octets]. unfold key_octets. split; intros ->; [reflexivity|exact U]. Qed.
Print Assumptions C193_octets.
(** An argument that has no octets is refused with TypeError wherever octets would have done: a key object that is not symmetric
    or holds neither text nor octets, and a list of numbers. *)
Theorem C193_refused : forall P R d ob msg b cek iv kid tok k l,
  (forall s x, k_data k <> DSym (VStr s) x) -> (forall s x, k_data k <> DSym (VBytes s) x) -> Forall (fun c => 0 <= c < 256) l ->
  (sym_encrypt_any P R d ob msg (AOctets b) cek iv kid = Ok tok ->
     sym_encrypt_any P R d ob msg (AKey k) cek iv kid = Raise ETypeError /\ sym_encrypt_any P R d ob msg (AInts l) cek iv kid = Raise ETypeError) /\
  (forall d j m, sym_decrypt_any P d j (AOctets b) [] = Ok m ->
     sym_decrypt_any P d j (AKey k) [] = Raise ETypeError /\ sym_decrypt_any P d j (AInts l) [] = Raise (match l with [] => EMissingKey | _ => ETypeError end)).
Proof. exact sym_any_refused. Qed.
Print Assumptions C193_refused.
Definition sym_args : dict := [(lit "alg", VStr (lit "A128KW")); (lit "enc", VStr (lit "A128CBC-HS256"))].
Definition sym_key : jwk := raw_sym (lit "sixteen octets!!").
Definition sym_tok : ustr := match sym_encrypt_any std ex_draws sym_args false (VStr (lit "hi")) (AKey sym_key) [] [] None with Ok t => t | Raise _ => [] end.
Example C193_ex : sym_encrypt_any std ex_draws sym_args false (VStr (lit "hi")) (AKey sym_key) [] [] None = Ok sym_tok /\
  (j <- unpack (VStr sym_tok);; sym_decrypt_any std [] j (AOctets (lit "sixteen octets!!")) []) = Ok (lit "hi").
Proof. split; vm_compute; reflexivity. Qed.
Example C193_refused_ex : sym_encrypt_any std ex_draws sym_args false (VStr (lit "hi")) (AKey ex_rsa) [] [] None = Raise ETypeError /\
  sym_encrypt_any std ex_draws sym_args false (VStr (lit "hi")) (AInts [1; 2]) [] [] None = Raise ETypeError.
Proof. split; vm_compute; reflexivity. Qed.

(** C194: the token JWE_SYM makes with a key object is refused by JWE with the same key object and vice versa. *)
Theorem C194_sym_to_jwe_refuted : exists d k tok, sym_encrypt_any std ex_draws d false (VStr (lit "hi")) (AKey k) [] [] None = Ok tok /\
  (j <- unpack (VStr tok);; sym_decrypt_any std [] j (AKey k) []) = Ok (lit "hi") /\
  forall sent, jwe_decrypt std sent new_jwe (VStr tok) (Some [k]) VNone [] = Raise EValueError.
Proof. exists sym_args, sym_key, sym_tok. split; [vm_compute; reflexivity|]. split; [vm_compute; reflexivity|]. intro sent. vm_compute. reflexivity. Qed.
Print Assumptions C194_sym_to_jwe_refuted.
Definition jwe_tok : ustr := match jwe_encrypt std ex_draws kw_jwe (Some [sym_key]) [] [] None with Ok (t, _) => t | Raise _ => [] end.
Theorem C194_jwe_to_sym_refuted : exists k tok, (' (t, _) <- jwe_encrypt std ex_draws kw_jwe (Some [k]) [] [] None;; Ok t) = Ok tok /\
  (forall sent, (' (m, _) <- jwe_decrypt std sent new_jwe (VStr tok) (Some [k]) VNone [];; Ok m) = Ok (lit "hi")) /\
  (j <- unpack (VStr tok);; sym_decrypt_any std [] j (AKey k) []) = Raise EValueError.
Proof. exists sym_key, jwe_tok. split; [vm_compute; reflexivity|]. split; [intro sent; vm_compute; reflexivity|]. vm_compute. reflexivity. Qed.
Print Assumptions C194_jwe_to_sym_refuted.

(** C195: jwdecrypt with a certificate never prints a message. *)
Theorem C195_certificate : forall P sent read imp c file msg lines, jwdecrypt_x509 P sent read imp c file msg <> Printed lines.
Proof. exact x509_never. Qed.
Print Assumptions C195_certificate.
Example C195_ex : (forall sent read imp, jwdecrypt_x509 std sent read imp (CUrl (lit "https://example.com/")) None (Some kw_tok) = Failed ENoSuitableDecryptionKey) /\
  (forall sent, jwdecrypt_x509 std sent (fun _ => Ok (lit "pem")) (fun _ => Ok ex_rsakey) (CFile (lit "cert.pem")) None (Some kw_tok) = Failed EAttributeError).
Proof. split; intros; vm_compute; reflexivity. Qed.
