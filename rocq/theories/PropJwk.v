(** * Properties C60-C71 and C106-C111: keys and key sets (jwk.py).  Example keys are in JwkEx.v. *)
From Coq Require Import ZArith List Bool Lia Permutation.
From Verif Require Import Base BaseProofs Codec CodecProofs Utf8 Json JsonProofs Jwt JwtProofs Prims Inst Elliptic Ecc Nist EcAux PvalEq Jwk JwkProofs JwkProofs2 JwkEx.
Import ListNotations.
Open Scope Z_scope.

(** C60 RSA key serialization round trip.  [k] is any RSA key object whose nine numbers are unset or positive and which
    has a key object; the key read back has the same nine numbers and the same kty, alg, use and kid, and its key object is
    what RSA.construct makes of n, e and those of d, p, q that are set, in this order. *)
Definition nine : list ustr := [lit "n"; lit "e"; lit "d"; lit "p"; lit "q"; lit "dp"; lit "dq"; lit "di"; lit "qi"].
Definition rsa_tuple (nums : dict) : list Z :=
  let get := fun name => match dget nums name with Some (VInt z) => [z] | _ => [] end in
  get (lit "n") ++ get (lit "e") ++ get (lit "d") ++ match get (lit "p") with [] => [] | p => p ++ get (lit "q") end.
Theorem C60_rsa_roundtrip_partial : forall P k key nums r, k_data k = DRsa key nums -> otruthy key = true ->
  map fst nums = nine -> (forall n v, In (n, v) nums -> v = VStr [] \/ exists z, 0 < z /\ v = VInt z) ->
  annotated k -> k_kty k = VStr (lit "RSA") -> dget nums (lit "n") <> Some (VStr []) -> dget nums (lit "e") <> Some (VStr []) ->
  p_rsa_construct P (rsa_tuple nums) = Ok r ->
  exists s, serialize k true = Ok s /\ keyrep P s = Ok (fields (k_kty k) (k_alg k) (k_use k) (k_kid k) (DRsa (ORsa r) nums)).
Proof.
  intros P k key nums r KD OK D V A T TN TE C.
  assert (G : forall n, In n nine -> exists v, dget nums n = Some v /\ num nums n = v /\ (v = VStr [] \/ exists z, 0 < z /\ v = VInt z)).
  { intros n I. rewrite <- D in I. destruct (In_dkeys_dget _ nums n I) as (v & E). exists v. split; [exact E|]. split; [unfold num, kwarg; rewrite E; reflexivity|]. apply (V n). apply dget_In. exact E. }
  assert (CA : construct_args nums = rsa_tuple nums).
  { destruct (G (lit "n")) as (vn & En & Nn & Pn); [cbn [In nine]; auto 10|]. destruct (G (lit "e")) as (ve & Ee & Ne & Pe); [cbn [In nine]; auto 10|]. destruct (G (lit "d")) as (vd & Ed & Nd & Pd); [cbn [In nine]; auto 10|].
    destruct (G (lit "p")) as (vp & Ep & Np & Pp); [cbn [In nine]; auto 10|]. destruct (G (lit "q")) as (vq & Eq & Nq & Pq); [cbn [In nine]; auto 10|].
    unfold construct_args, rsa_tuple. cbv zeta. rewrite En, Ee, Ed, Ep, Eq, Nn, Ne, Nd, Np, Nq.
    destruct Pn as [->|(zn & Hn & ->)]; [congruence|]. destruct Pe as [->|(ze & He & ->)]; [congruence|].
    assert (TZ : forall z, 0 < z -> truthy (VInt z) = true) by (intros z Hz; cbn [truthy]; destruct (z =? 0) eqn:Z; [lia|reflexivity]).
    destruct Pd as [->|(zd & Hd & ->)], Pp as [->|(zp & Hp & ->)], Pq as [->|(zq & Hq & ->)]; rewrite ?TZ by assumption; reflexivity. }
  apply (rsa_roundtrip P k key nums r KD OK); try assumption.
  - split; [exact D|]. intros n I. destruct (G n I) as (v & _ & -> & X). exact X.
  - destruct (G (lit "n")) as (v & E & -> & [->|(z & Hz & ->)]); [cbn [In nine]; auto 10|congruence|]. cbn [truthy]. destruct (z =? 0) eqn:Z; [lia|reflexivity].
  - destruct (G (lit "e")) as (v & E & -> & [->|(z & Hz & ->)]); [cbn [In nine]; auto 10|congruence|]. cbn [truthy]. destruct (z =? 0) eqn:Z; [lia|reflexivity].
  - rewrite CA. exact C.
Qed.
Print Assumptions C60_rsa_roundtrip_partial.
Example C60_ex : rsa_nums_ok ex_nums /\ map fst ex_nums = nine /\ length (rsa_tuple ex_nums) = 5%nat /\ annotated ex_rsa /\ p_rsa_construct std (rsa_tuple ex_nums) = Ok ex_rsakey /\
  (s <- serialize ex_rsa true;; keyrep std s) = Ok ex_rsa.
Proof. split; [exact ex_nums_ok|]. split; [reflexivity|]. split; [reflexivity|]. split; [repeat split|]. split; vm_compute; reflexivity. Qed.
(** The certificate members and the unknown members are annotations that do not survive. *)
Theorem C60_x509_refuted : exists k k', (s <- serialize k true;; keyrep std s) = Ok k' /\
  k_x5c k' <> k_x5c k /\ k_x5t k' <> k_x5t k /\ k_x5u k' <> k_x5u k /\ k_extra k' <> k_extra k.
Proof. exists ex_x5c, ex_rsa. split; [vm_compute; reflexivity|]. repeat split; vm_compute; discriminate. Qed.
Print Assumptions C60_x509_refuted.

(** C61 EC key serialization round trip, public part: the curve, x, y and the annotations come back. *)
Theorem C61_public_partial : forall P k key crv x y d c private, k_data k = DEc key crv (VInt x) (VInt y) d (OCurve c) -> 0 < x -> 0 < y ->
  (private = true -> exists z, d = VInt z /\ 0 < z) -> named c -> annotated k -> k_kty k = VStr (lit "EC") ->
  exists s d', serialize k private = Ok s /\ keyrep P s = Ok (fields (k_kty k) (k_alg k) (k_use k) (k_kid k)
    (DEc onone (VBytes (lit "P-" ++ dec (c_bits c))) (VInt x) (VInt y) d' (OCurve c))) /\ (private = false -> d' = VStr []).
Proof.
  intros P k key crv x y d c private D X Y Hd N A Ky. destruct (ec_roundtrip P k key crv x y d c private D X Y Hd N A Ky) as [s [S K]].
  exists s. eexists. split; [exact S|]. split; [exact K|]. intros ->. reflexivity.
Qed.
Print Assumptions C61_public_partial.
Example C61_ex : named P256 /\ annotated ex_ec /\ (s <- serialize ex_ec false;; keyrep std s) =
  Ok (fields (VStr (lit "EC")) (VStr []) (VStr (lit "enc")) (VStr (lit "ec1"))
        (DEc onone (VBytes (lit "P-256")) (VInt (fst (c_G P256))) (VInt (snd (c_G P256))) (VStr []) (OCurve P256))).
Proof. split; [exact P256_named|]. split; [repeat split|]. vm_compute. reflexivity. Qed.
(** The private value comes back as undecoded base64 octets, not as a number. *)
Theorem C61_private_refuted : exists k key crv x y c, k_data k = DEc key crv x y (VInt 1) c /\
  exists k' key' crv' c', (s <- serialize k true;; keyrep std s) = Ok k' /\ k_data k' = DEc key' crv' x y (VBytes (lit "AQ")) c'.
Proof.
  exists ex_ec, onone, (VStr (lit "P-256")), (VInt (fst (c_G P256))), (VInt (snd (c_G P256))), (OCurve P256). split; [reflexivity|].
  exists (fields (VStr (lit "EC")) (VStr []) (VStr (lit "enc")) (VStr (lit "ec1"))
        (DEc onone (VBytes (lit "P-256")) (VInt (fst (c_G P256))) (VInt (snd (c_G P256))) (VBytes (lit "AQ")) (OCurve P256))),
    onone, (VBytes (lit "P-256")), (OCurve P256). split; [vm_compute; reflexivity|reflexivity].
Qed.
Print Assumptions C61_private_refuted.
(** The curve name comes back as a byte string, so the key read back differs from the original under [==]. *)
Theorem C61_equal_refuted : exists k k', (s <- serialize k false;; keyrep std s) = Ok k' /\ key_eq k k' = Ok false.
Proof.
  exists ex_ec, (fields (VStr (lit "EC")) (VStr []) (VStr (lit "enc")) (VStr (lit "ec1"))
        (DEc onone (VBytes (lit "P-256")) (VInt (fst (c_G P256))) (VInt (snd (c_G P256))) (VStr []) (OCurve P256))).
  split; vm_compute; reflexivity.
Qed.
Print Assumptions C61_equal_refuted.

(** C62 symmetric key serialization round trip, non-empty secrets. *)
Theorem C62_sym_roundtrip_partial : forall P k key kk, k_data k = DSym (VBytes key) kk -> bytes_ok key = true -> key <> [] ->
  annotated k -> k_kty k = VStr (lit "oct") ->
  exists s, serialize k true = Ok s /\ keyrep P s = Ok (fields (k_kty k) (k_alg k) (k_use k) (k_kid k) (DSym (VBytes key) (VBytes (b64e key)))).
Proof. exact sym_roundtrip. Qed.
Print Assumptions C62_sym_roundtrip_partial.
Example C62_ex : (s <- serialize (raw_sym [0; 255; 10]) true;; keyrep std s) =
  Ok (fields (VStr (lit "oct")) (VStr []) (VStr []) (VStr []) (DSym (VBytes [0; 255; 10]) (VBytes (lit "AP8K")))).
Proof. vm_compute. reflexivity. Qed.
(** The empty secret comes back as no key at all. *)
Theorem C62_empty_refuted : (s <- serialize (raw_sym []) true;; keyrep std s) =
  Ok (fields (VStr (lit "oct")) (VStr []) (VStr []) (VStr []) (DSym VNone (VBytes []))).
Proof. vm_compute. reflexivity. Qed.
Print Assumptions C62_empty_refuted.

(** C63 public serialization and the dump of a key set are functions of the public part. *)
Theorem C63_serialize : forall a b, same_public a b -> serialize a false = serialize b false.
Proof. exact serialize_public. Qed.
Print Assumptions C63_serialize.
Theorem C63_dump : forall l m, Forall2 same_public l m -> dump_jwks l = dump_jwks m.
Proof. exact dump_public. Qed.
Print Assumptions C63_dump.
Example C63_ex :
  let a := ex_rsa in
  let b := set_data ex_rsa (DRsa (ORsa {| r_n := 3233; r_e := 17; r_d := None; r_pq := None |}) (dset (dset ex_nums (lit "d") (VInt 413)) (lit "p") (VStr []))) in
  same_public a b /\ a <> b /\ serialize a true <> serialize b true /\ exists s, serialize a false = Ok s.
Proof.
  cbv zeta. split; [repeat split|]. split; [discriminate|]. split; [vm_compute; discriminate|].
  exists (VDict [(lit "kty", VStr (lit "RSA")); (lit "use", VStr (lit "sig")); (lit "kid", VStr (233 :: lit "1")); (lit "alg", VStr (lit "RS256"));
                 (lit "n", VStr (lit "DKE")); (lit "e", VStr (lit "EQ"))]). vm_compute. reflexivity.
Qed.

(** C64 dumping a key set reveals no secrets: true of RSA and EC keys, ... *)
Theorem C64_dump_partial : forall l m, Forall2 same_public l m -> dump_jwks l = dump_jwks m.
Proof. exact dump_public. Qed.
Print Assumptions C64_dump_partial.
(** ... false of symmetric keys, whose secret is written out. *)
Theorem C64_sym_refuted : dump_jwks [ex_sym] =
  Ok (lit "{""keys"": [{""kty"": ""oct"", ""alg"": ""HS256"", ""k"": """ ++ b64e (lit "secret") ++ lit """}]}").
Proof. vm_compute. reflexivity. Qed.
Print Assumptions C64_sym_refuted.

(** C65 make_public_copy: for RSA and EC keys the copy holds no private number and no key object, and depends only on
    the public part. *)
Theorem C65_no_private_partial : forall k,
  match k_data (make_public_copy k) with
  | DRsa key nums => key = onone /\ (forall n, In n nine -> n <> lit "n" -> n <> lit "e" -> num nums n = VStr [])
  | DEc key _ _ _ d _ => key = onone /\ d = VStr []
  | DSym key _ => key = VNone
  | DKey key => key = onone
  end.
Proof. exact public_copy_no_private. Qed.
Print Assumptions C65_no_private_partial.
Theorem C65_function_of_public_partial : forall a b, same_public_x a b -> make_public_copy a = make_public_copy b.
Proof. exact public_copy_public. Qed.
Print Assumptions C65_function_of_public_partial.
Example C65_ex : same_public_x ex_rsa (set_data ex_rsa (DRsa (ORsa ex_rsakey) (dset ex_nums (lit "d") (VInt 5)))) /\
  make_public_copy ex_rsa = fields (k_kty ex_rsa) (k_alg ex_rsa) (k_use ex_rsa) (k_kid ex_rsa) (DRsa onone (public_nums ex_nums)).
Proof. split; [repeat split|vm_compute; reflexivity]. Qed.
(** The secret of a symmetric key is copied. *)
Theorem C65_sym_refuted : exists s, k_data ex_sym = DSym (VBytes s) (VBytes (b64e s)) /\
  k_data (make_public_copy ex_sym) = DSym VNone (VBytes (b64e s)).
Proof. exists (lit "secret"). split; vm_compute; reflexivity. Qed.
Print Assumptions C65_sym_refuted.

(** C66 thumbprints: RSA and symmetric keys have the RFC 7638 thumbprint, whatever their annotations. *)
Theorem C66_rsa_partial : forall P k key nums n e tn te name h, k_data k = DRsa key nums -> otruthy key = true -> k_kty k = VStr (lit "RSA") ->
  num nums (lit "n") = VInt n -> num nums (lit "e") = VInt e -> 0 < n -> 0 < e -> long_to_base64 n = Ok tn -> long_to_base64 e = Ok te ->
  In (name, h) [(lit "SHA-256", SHA256); (lit "SHA-384", SHA384); (lit "SHA-512", SHA512)] ->
  thumbprint P k name = Ok (p_hash P h (lit "{""e"":""" ++ te ++ lit """,""kty"":""RSA"",""n"":""" ++ tn ++ lit """}")).
Proof. exact rsa_thumbprint. Qed.
Print Assumptions C66_rsa_partial.
Theorem C66_oct_partial : forall P k key kk name h, k_data k = DSym (VBytes key) kk -> bytes_ok key = true -> k_kty k = VStr (lit "oct") ->
  In (name, h) [(lit "SHA-256", SHA256); (lit "SHA-384", SHA384); (lit "SHA-512", SHA512)] ->
  thumbprint P k name = Ok (p_hash P h (lit "{""k"":""" ++ b64e key ++ lit """,""kty"":""oct""}")).
Proof. exact sym_thumbprint. Qed.
Print Assumptions C66_oct_partial.
(** EC keys: the member kty is left out. *)
Theorem C66_ec_partial : forall P k key crv x y d c tx ty name h, k_data k = DEc key crv (VInt x) (VInt y) d (OCurve c) -> named c ->
  0 < x -> 0 < y -> long_to_base64 x = Ok tx -> long_to_base64 y = Ok ty ->
  In (name, h) [(lit "SHA-256", SHA256); (lit "SHA-384", SHA384); (lit "SHA-512", SHA512)] ->
  thumbprint P k name = Ok (p_hash P h (lit "{""crv"":""" ++ (lit "P-" ++ dec (c_bits c)) ++ lit """,""x"":""" ++ tx ++ lit """,""y"":""" ++ ty ++ lit """}")).
Proof. exact ec_thumbprint. Qed.
Print Assumptions C66_ec_partial.
Example C66_ex : long_to_base64 3233 = Ok (lit "DKE") /\ long_to_base64 17 = Ok (lit "EQ") /\
  thumbprint std ex_rsa (lit "SHA-256") = Ok (p_hash std SHA256 (lit "{""e"":""EQ"",""kty"":""RSA"",""n"":""DKE""}")).
Proof. split; [vm_compute; reflexivity|]. split; vm_compute; reflexivity. Qed.
Theorem C66_ec_refuted : exists tx ty h, long_to_base64 (fst (c_G P256)) = Ok tx /\ long_to_base64 (snd (c_G P256)) = Ok ty /\
  thumbprint std ex_ec (lit "SHA-256") = Ok h /\
  h <> p_hash std SHA256 (lit "{""crv"":""P-256"",""kty"":""EC"",""x"":""" ++ tx ++ lit """,""y"":""" ++ ty ++ lit """}").
Proof.
  exists (lit "axfR8uEsQkf4vOblY6RA8ncDfYEt6zOg9KE5RdiYwpY"), (lit "T-NC4v4af5uO5-tKfA-eFivOM1drMV7Oy7ZAaDe_UfU").
  exists (p_hash std SHA256 (lit "{""crv"":""P-256"",""x"":""axfR8uEsQkf4vOblY6RA8ncDfYEt6zOg9KE5RdiYwpY"",""y"":""T-NC4v4af5uO5-tKfA-eFivOM1drMV7Oy7ZAaDe_UfU""}")).
  split; [vm_compute; reflexivity|]. split; [vm_compute; reflexivity|]. split; [vm_compute; reflexivity|]. vm_compute. discriminate.
Qed.
Print Assumptions C66_ec_refuted.

(** C67 key equality: exactly the equality of the public members of two keys of one class ... *)
Theorem C67_members_partial : forall a b t1 l1 t2 l2, public_view a = Some (t1, l1) -> public_view b = Some (t2, l2) ->
  exists r, key_eq a b = Ok r /\ (r = true <-> t1 = t2 /\ Forall2 (fun u v => pval_eqb v u = true) l1 l2).
Proof. exact key_eq_view. Qed.
Print Assumptions C67_members_partial.
(** ... and an equivalence. *)
Theorem C67_refl_partial : forall a, plain_key a -> key_eq a a = Ok true.
Proof. exact key_eq_refl. Qed.
Print Assumptions C67_refl_partial.
Theorem C67_sym_partial : forall a b, plain_key a -> plain_key b -> key_eq a b = key_eq b a.
Proof. exact key_eq_sym. Qed.
Print Assumptions C67_sym_partial.
Theorem C67_trans_partial : forall a b c, plain_key a -> plain_key b -> plain_key c ->
  key_eq a b = Ok true -> key_eq b c = Ok true -> key_eq a c = Ok true.
Proof. exact key_eq_trans. Qed.
Print Assumptions C67_trans_partial.
Example C67_ex : plain_key ex_rsa /\ plain_key ex_ec /\ plain_key ex_sym /\
  key_eq ex_rsa (set_data ex_rsa (DRsa (ORsa ex_rsakey) (public_nums ex_nums))) = Ok true /\ key_eq ex_rsa ex_sym = Ok false /\
  key_eq ex_rsa (set_kid ex_rsa (VStr (lit "2"))) = Ok false.
Proof. repeat split; try (vm_compute; reflexivity); unfold plain_key; cbn [public_view]; repeat constructor. Qed.
(** For the base class itself even [k == k] raises. *)
Theorem C67_base_refuted : exists k, base_new [] onone = Ok k /\ key_eq k k = Raise EAttributeError.
Proof. exists (fields (VStr []) (VStr []) (VStr []) (VStr []) (DKey onone)). split; vm_compute; reflexivity. Qed.
Print Assumptions C67_base_refuted.

(** C68 equal keys have equal hashes, for keys whose cached parts agree with their public members ... *)
Theorem C68_equal_hash_partial : forall P a b, coherent a -> coherent b -> key_eq a b = Ok true -> hash_value P a = hash_value P b.
Proof. exact equal_hash. Qed.
Print Assumptions C68_equal_hash_partial.
(** ... and hashing a key that has a kid does not change equality. *)
Theorem C68_hash_keeps_eq_partial : forall P a b h a', truthy (k_kid a) = true -> key_hash P a = Ok (h, a') ->
  key_eq a' b = key_eq a b /\ key_eq b a' = key_eq b a.
Proof. exact hash_keeps_eq. Qed.
Print Assumptions C68_hash_keeps_eq_partial.
Example C68_ex : coherent ex_rsa /\ coherent ex_sym /\ (exists h a', key_hash std ex_rsa = Ok (h, a') /\ a' <> ex_rsa).
Proof.
  split; [|split].
  - split; [reflexivity|]. split; [exists (lit "RSA"); reflexivity|]. split; [reflexivity|]. split; [exists 3233|exists 17]; split; reflexivity || lia.
  - split; [reflexivity|]. split; [exists (lit "oct"); reflexivity|]. exists (lit "secret"), (lit "c2VjcmV0"). split; [reflexivity|]. split; [reflexivity|]. split; [discriminate|vm_compute; reflexivity].
  - set (t := p_hash std SHA256 (lit "{""e"":""EQ"",""kty"":""RSA"",""n"":""DKE""}")).
    exists (be2z t), (set_hash ex_rsa (Some (be2z t))). split; [vm_compute; reflexivity|discriminate].
Qed.
(** Two symmetric keys made from different raw secrets compare equal but have different hashes. *)
Theorem C68_raw_sym_refuted : exists s1 s2, sym_new [] (VBytes s1) = Ok (raw_sym s1) /\ sym_new [] (VBytes s2) = Ok (raw_sym s2) /\
  key_eq (raw_sym s1) (raw_sym s2) = Ok true /\ hash_value std (raw_sym s1) <> hash_value std (raw_sym s2).
Proof. exists (lit "one"), (lit "two"). split; [|split; [|split]]; try (vm_compute; reflexivity). vm_compute. discriminate. Qed.
Print Assumptions C68_raw_sym_refuted.
(** Hashing a key without a kid gives it one, and so makes it different from a key it was equal to. *)
Theorem C68_kid_refuted : exists a h a', key_eq ex_sym ex_sym = Ok true /\ a = ex_sym /\ key_hash std a = Ok (h, a') /\ key_eq a' ex_sym = Ok false.
Proof.
  set (t := p_hash std SHA256 (lit "{""k"":""c2VjcmV0"",""kty"":""oct""}")).
  exists ex_sym, (be2z t), (set_hash (set_kid ex_sym (VStr (b64e t))) (Some (be2z t))).
  split; [vm_compute; reflexivity|]. split; [reflexivity|]. split; vm_compute; reflexivity.
Qed.
Print Assumptions C68_kid_refuted.

(** C69 a key set behaves like the list of its keys in insertion order. *)
Theorem C69_step : forall P ks op, keys_step P ks op = (ks ++ fst (keys_step P [] op), snd (keys_step P [] op)).
Proof. exact step_appends. Qed.
Print Assumptions C69_step.
Theorem C69_order : forall P ops, run_ops P ops = concat (map (fun op => fst (keys_step P [] op)) ops).
Proof. exact run_ops_order. Qed.
Print Assumptions C69_order.
Theorem C69_kids : forall ks k, keys_kids (ks ++ [k]) = keys_kids ks ++ if truthy (k_kid k) then [k_kid k] else [].
Proof. exact kids_snoc. Qed.
Print Assumptions C69_kids.
Theorem C69_by_kid : forall ks k kid, keys_by_kid (ks ++ [k]) kid = keys_by_kid ks kid ++ if pval_eqb kid (k_kid k) then [k] else [].
Proof. exact by_kid_snoc. Qed.
Print Assumptions C69_by_kid.
Theorem C69_getitem : forall ks item, Forall kty_text ks ->
  keys_getitem ks item = Ok (filter (fun k => match k_kty k with VStr s => zs_eqb (lower s) (lower item) | _ => false end) ks).
Proof. exact getitem_filter. Qed.
Print Assumptions C69_getitem.
Theorem C69_key_types : forall ks, Forall kty_text ks -> exists l, keys_types ks = Ok l /\ NoDup l /\ forall t, In t l <-> exists k, In k ks /\ k_kty k = t.
Proof. exact key_types_spec. Qed.
Print Assumptions C69_key_types.
Example C69_ex : let ks := run_ops std [OpAppend ex_sym; OpLoadJwks (VStr (lit "{""keys"":[{""kty"":""RSA"",""n"":""DKE"",""e"":""EQ"",""kid"":""a""},{""kty"":""xx""}]}")); OpAppend ex_ec] in
  map k_kty ks = [VStr (lit "oct"); VStr (lit "RSA"); VStr (lit "xx"); VStr (lit "EC")] /\ keys_kids ks = [VStr (lit "a"); VStr (lit "ec1")] /\
  map k_kid (keys_by_kid ks (VStr (lit "a"))) = [VStr (lit "a")] /\ keys_types ks = Ok [VStr (lit "oct"); VStr (lit "RSA"); VStr (lit "xx"); VStr (lit "EC")] /\
  (l <- keys_getitem ks (lit "rsa");; Ok (map k_kid l)) = Ok [VStr (lit "a")].
Proof. vm_compute. repeat split. Qed.

(** C70 as_dict partitions the set by (normalised) type. *)
Theorem C70_as_dict : forall ks, Forall kty_text ks -> exists m, as_dict ks = Ok m /\
  NoDup (map fst m) /\ (forall t l, In (t, l) m -> l = filter (has_norm t) ks /\ l <> []) /\
  (forall k s, In k ks -> k_kty k = VStr s -> In (VStr (norm_name s)) (map fst m)) /\
  Permutation (concat (map snd m)) ks.
Proof. exact as_dict_partition. Qed.
Print Assumptions C70_as_dict.
Example C70_ex : let r2 := set_kid ex_rsa (VStr (lit "2")) in Forall kty_text [ex_rsa; ex_sym; r2] /\
  (m <- as_dict [ex_rsa; ex_sym; r2];; Ok m) = Ok [(VStr (lit "RSA"), [ex_rsa; r2]); (VStr (lit "oct"), [ex_sym])].
Proof. split; [repeat constructor; eexists; reflexivity|vm_compute; reflexivity]. Qed.

(** C71 symmetric encryption keys. *)
Theorem C71_length : forall P k key kk alg n, hash_law P -> k_data k = DSym (VBytes key) kk -> bytes_ok key = true -> key <> [] ->
  In (alg, n) [(lit "A128KW", 16%nat); (lit "A192KW", 24%nat); (lit "A256KW", 32%nat); (lit "HS256", 32%nat); (lit "HS384", 48%nat); (lit "HS512", 64%nat)] ->
  exists b, sym_encryption_key P k alg = Ok (b, k) /\ length b = n /\ bytes_ok b = true /\
    b = firstn n (p_hash P (if Nat.leb n 32 then SHA256 else if Nat.leb n 48 then SHA384 else SHA512) key).
Proof. exact enc_key_ok. Qed.
Print Assumptions C71_length.
Theorem C71_other : forall P k key kk alg, k_data k = DSym (VBytes key) kk -> key <> [] ->
  ~ In alg [lit "A128KW"; lit "A192KW"; lit "A256KW"; lit "HS256"; lit "HS384"; lit "HS512"] -> sym_encryption_key P k alg = Raise EKeyError.
Proof. exact enc_key_other. Qed.
Print Assumptions C71_other.
Example C71_ex : hash_law std /\ sym_encryption_key std ex_sym (lit "A128KW") = Ok (z2be 16 0x2bb80d537b1da3e38bd30361aa855686, ex_sym) /\
  sym_encryption_key std ex_sym (lit "A128GCM") = Raise EKeyError.
Proof. split; [exact std_hash_law|]. split; vm_compute; reflexivity. Qed.

(** C106 publishing a key set: what dump_jwks writes, load_jwks reads back, key by key, without the private parts of RSA
    and EC keys. *)
Theorem C106_dump_load : forall P ks, Forall (publishable P) ks ->
  exists t ks', dump_jwks ks = Ok t /\ load_jwks P [] (VStr t) = (ks', None) /\ Forall2 (republished P) ks ks'.
Proof. exact dump_load. Qed.
Print Assumptions C106_dump_load.
Example C106_ex : Forall (publishable std) [ex_rsa; ex_ec; ex_sym].
Proof.
  constructor; [|constructor; [|constructor; [|constructor]]]; (split; [repeat split|]).
  - split; [reflexivity|]. split; [reflexivity|]. split; [exact ex_nums_ok|]. split; [reflexivity|]. split; [reflexivity|].
    exists {| r_n := 3233; r_e := 17; r_d := None; r_pq := None |}. vm_compute. reflexivity.
  - split; [reflexivity|]. exists (fst (c_G P256)), (snd (c_G P256)), P256. repeat split.
  - split; [reflexivity|]. exists (lit "secret"). repeat split. discriminate.
Qed.

(** C107 key_from_jwk_dict reads an EC private key back as numbers (compare C61). *)
Theorem C107_ec_from_dict : forall P k key crv x y z c, k_data k = DEc key crv (VInt x) (VInt y) (VInt z) (OCurve c) -> 0 < x -> 0 < y -> 0 < z ->
  named c -> annotated k -> k_kty k = VStr (lit "EC") -> truthy (k_kid k) = true ->
  exists s, serialize k true = Ok (VDict s) /\ key_from_jwk_dict P s true = Ok (fields (VStr (lit "EC")) (VStr []) (VStr []) (k_kid k)
    (DEc onone (VStr (lit "P-" ++ dec (c_bits c))) (VInt x) (VInt y) (VInt z) (OCurve c))).
Proof. exact ec_from_dict. Qed.
Print Assumptions C107_ec_from_dict.
Example C107_ex : named P256 /\ annotated ex_ec /\ truthy (k_kid ex_ec) = true.
Proof. split; [exact P256_named|]. repeat split. Qed.

(** C108 the public copy of an RSA key can be used. *)
Theorem C108_public_copy_usable : forall P k key nums n e r, k_data k = DRsa key nums -> num nums (lit "n") = VInt n -> num nums (lit "e") = VInt e ->
  0 < n -> 0 < e -> p_rsa_construct P [n; e] = Ok r ->
  exists k', rsa_encryption_key P (make_public_copy k) = Ok (ORsa r, k').
Proof. exact public_copy_usable. Qed.
Print Assumptions C108_public_copy_usable.
Example C108_ex : p_rsa_construct std [3233; 17] = Ok {| r_n := 3233; r_e := 17; r_d := None; r_pq := None |}.
Proof. vm_compute. reflexivity. Qed.

(** C109 an RSA key given by a certificate and an x5t is accepted only if x5t is the SHA-1 thumbprint of the certificate. *)
Theorem C109_x5t : forall P kw k s rest t, dget kw (lit "n") = None -> dget kw (lit "x5c") = Some (VList (VStr s :: rest)) ->
  dget kw (lit "x5t") = Some (VStr t) -> t <> [] -> rsa_new P kw onone = Ok k ->
  exists der h r nums, a2b s 0 0 0 = Ok der /\ b64d t = Ok h /\ h = p_hash P SHA1 der /\ p_der2rsa P der = Ok r /\ k_data k = DRsa (ORsa r) nums /\
    num nums (lit "n") = VInt (r_n r) /\ num nums (lit "e") = VInt (r_e r).
Proof. exact x5t_checked. Qed.
Print Assumptions C109_x5t.
Example C109_ex : let der := [17; 12; 161] in let t := b64e (p_hash std SHA1 der) in
  let kw := [(lit "x5c", VList [VStr (lit "EQyh")]); (lit "x5t", VStr t)] in
  (k <- rsa_new std kw onone;; Ok (k_data k)) =
    Ok (DRsa (ORsa {| r_n := 3233; r_e := 17; r_d := None; r_pq := None |}) (public_nums ex_nums)) /\
  rsa_new std [(lit "x5c", VList [VStr (lit "EQyi")]); (lit "x5t", VStr t)] onone = Raise EDeSerializationNotPossible.
Proof. split; vm_compute; reflexivity. Qed.

(** C110 keyrep cannot load a JWK that has a certificate and an x5t: the encoded x5t has no [encode]. *)
Theorem C110_x5t_keyrep : forall P s t der, ascii s = true -> a2b s 0 0 0 = Ok der -> scalars t = true -> t <> [] ->
  keyrep P (VDict [(lit "kty", VStr (lit "RSA")); (lit "x5c", VList [VStr s]); (lit "x5t", VStr t)]) = Raise EAttributeError.
Proof. exact x5t_unloadable. Qed.
Print Assumptions C110_x5t_keyrep.
Example C110_ex : a2b (lit "TUlJQg==") 0 0 0 = Ok (lit "MIIB") /\ scalars (lit "abc") = true.
Proof. vm_compute. split; reflexivity. Qed.

(** C111 a (non-zero) hash is stable: hashing again gives the same value and changes nothing. *)
Theorem C111_hash_stable : forall P a h a', key_hash P a = Ok (h, a') -> h <> 0 -> key_hash P a' = Ok (h, a').
Proof. exact hash_stable. Qed.
Print Assumptions C111_hash_stable.
Example C111_ex : exists h a', key_hash std ex_sym = Ok (h, a') /\ h <> 0.
Proof.
  set (t := p_hash std SHA256 (lit "{""k"":""c2VjcmV0"",""kty"":""oct""}")).
  exists (be2z t), (set_hash (set_kid ex_sym (VStr (b64e t))) (Some (be2z t))). split; vm_compute; [reflexivity|discriminate].
Qed.
