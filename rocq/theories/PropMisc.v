(** * Properties C153-C167: the remaining functions of jws.py, jwk.py and jwe.py (Misc.v). *)
From Coq Require Import ZArith List Bool Lia.
From Verif Require Import Base BaseProofs Utf8 Codec Json Jwt JwtProofs Prims Inst Elliptic Ecc Jwk Jws Misc MiscProofs.
Import ListNotations.
Open Scope Z_scope.

(** C153: left_hash is the base64url text of the left half of the SHA-2 digest of the octets of the message *)
Theorem C153_left_hash_partial : forall P, hash_law P -> forall msg b,
  (msg = VBytes b /\ bytes_ok b = true) \/ (exists s, msg = VStr s /\ utf8_encode s = Ok b) ->
  forall name h n, In (name, h, n) [(lit "HS256", SHA256, 16%nat); (lit "HS384", SHA384, 24%nat); (lit "HS512", SHA512, 32%nat)] ->
  exists t, left_hash P msg (VStr name) = Ok (VStr t) /\ b64d t = Ok (firstn n (p_hash P h b)) /\ length (p_hash P h b) = (n + n)%nat.
Proof. exact left_hash_ok. Qed.
Print Assumptions C153_left_hash_partial.
(** ... but for every other name it is None, whatever the message: also for RS256, ES256 and PS256, where OpenID Connect wants it *)
Theorem C153_other_algorithms_refuted : forall P msg name, ~ In name [lit "HS256"; lit "HS384"; lit "HS512"] -> left_hash P msg (VStr name) = Ok VNone.
Proof. exact left_hash_other. Qed.
Print Assumptions C153_other_algorithms_refuted.
Theorem C153_only_text_and_octets : forall P msg name, (forall s, msg <> VStr s) -> (forall b, msg <> VBytes b) -> In name [lit "HS256"; lit "HS384"; lit "HS512"] ->
  left_hash P msg (VStr name) = Raise ETypeError.
Proof. exact left_hash_type. Qed.
Print Assumptions C153_only_text_and_octets.
(** the at_hash of the access token in OpenID Connect Core, appendix A.3 *)
Example C153_ex : left_hash std (VStr (lit "jHkWEdUXMU1BwAsC4vtUsZwnNvTIxEl0z9K3vx5KF0Y")) (VStr (lit "HS256")) = Ok (VStr (lit "77QmUPtjPfzWtF2AnpK9RQ")) /\
  left_hash std (VStr (lit "jHkWEdUXMU1BwAsC4vtUsZwnNvTIxEl0z9K3vx5KF0Y")) (VStr (lit "RS256")) = Ok VNone.
Proof. split; vm_compute; reflexivity. Qed.

(** C154: mpint prefixes the length, but appends a zero octet (multiplying the number by 256), which mp2bin does not remove *)
Theorem C154_mpint_partial : forall b, Z.of_nat (length b) + 1 < 2 ^ 32 -> exists m, mpint b = Ok m /\ be2z (firstn 4 m) = Z.of_nat (length (skipn 4 m)).
Proof.
  intros b L. destruct (mpint_ok b L) as [E _]. eexists. split; [exact E|].
  rewrite firstn_app, skipn_app, z2be_length, Nat.sub_diag, firstn_O, app_nil_r, firstn_all2, skipn_all2 by (rewrite z2be_length; lia). cbn [app skipn].
  rewrite be2z_z2be by (change (256 ^ Z.of_nat 4) with (2 ^ 32); lia). rewrite app_length. cbn [length]. lia.
Qed.
Print Assumptions C154_mpint_partial.
Theorem C154_round_trip_refuted : forall b, Z.of_nat (length b) + 1 < 2 ^ 32 ->
  exists m, mpint b = Ok m /\ mp2bin m = Ok (b ++ [0]) /\ be2z (skipn 4 m) = 256 * be2z b.
Proof.
  intros b L. destruct (mpint_ok b L) as [E E2]. eexists. split; [exact E|]. rewrite E in E2. cbn [bind] in E2. split; [exact E2|].
  rewrite skipn_app, z2be_length, skipn_all2 by (rewrite z2be_length; lia). cbn [app Nat.sub skipn]. apply be2z_zero.
Qed.
Print Assumptions C154_round_trip_refuted.
Example C154_ex : mpint [1; 2; 3] = Ok [0; 0; 0; 4; 1; 2; 3; 0] /\ mp2bin [0; 0; 0; 4; 1; 2; 3; 0] = Ok [1; 2; 3; 0] /\ mp2bin [0; 0; 0; 1] = Raise EIndexError.
Proof. split; [|split]; vm_compute; reflexivity. Qed.

(** C155: rsa_eq compares modulus and exponent, key_eq compares texts and finds keys of different types different *)
Theorem C155_key_eq_partial : (forall a b, raw_key_eq (OVal (VStr a)) (OVal (VStr b)) = Ok true <-> a = b) /\
  (forall a b, rsa_eq a b = true <-> (r_n a = r_n b /\ r_e a = r_e b)) /\
  (forall r s, raw_key_eq (ORsa r) (OVal (VStr s)) = Ok false /\ raw_key_eq (OVal (VStr s)) (ORsa r) = Ok false).
Proof. split; [exact raw_key_eq_text|]. split; [exact rsa_eq_iff|]. intros r s. split; reflexivity. Qed.
Print Assumptions C155_key_eq_partial.
(** ... but two RSA keys never compare: the test isinstance(key, RSA) names a module *)
Theorem C155_rsa_refuted : forall a b, raw_key_eq (ORsa a) (ORsa b) = Raise ETypeError.
Proof. reflexivity. Qed.
Print Assumptions C155_rsa_refuted.
Example C155_ex : raw_key_eq (OVal (VStr (lit "secret"))) (OVal (VStr (lit "secret"))) = Ok true /\ raw_key_eq (OVal (VStr (lit "secret"))) (OVal (VStr (lit "Secret"))) = Ok false /\
  rsa_eq {| r_n := 3233; r_e := 17; r_d := None; r_pq := None |} {| r_n := 3233; r_e := 17; r_d := Some 413; r_pq := None |} = true.
Proof. split; [|split]; vm_compute; reflexivity. Qed.

(** C156: intarr2str is the text with the given code points, and fails exactly if one of the numbers is no code point *)
Theorem C156_intarr2str : forall l s, intarr2str l = Ok s <-> (s = l /\ Forall (fun c => 0 <= c < 0x110000) l).
Proof. exact intarr2str_iff. Qed.
Print Assumptions C156_intarr2str.
Example C156_ex : intarr2str [74; 87; 0x10FFFF] = Ok (lit "JW" ++ [0x10FFFF]) /\ intarr2str [74; 0x110000] = Raise EValueError /\ intarr2str [-1] = Raise EValueError.
Proof. split; [|split]; vm_compute; reflexivity. Qed.

(** C157: keyitems2keyreps makes one key object per raw key, in order, of the class named by the type in any case *)
Definition made (rnd : Z) (t : ustr) (o : kobj) (k : jwk) : Prop :=
  (upper t = lit "RSA" /\ exists r nums, o = ORsa r /\ k_kty k = VStr (lit "RSA") /\ k_data k = DRsa o nums /\ dget nums (lit "n") = Some (VInt (r_n r)) /\ dget nums (lit "e") = Some (VInt (r_e r))) \/
  (lower t = lit "oct" /\ exists v b, o = OVal v /\ as_bytes v = Ok (VBytes b) /\ k_kty k = VStr (lit "oct") /\ k_data k = DSym (VBytes b) (VStr [])) \/
  (upper t = lit "EC" /\ exists c d x y, o = OCurve c /\ key_pair c rnd = (d, Some (x, y)) /\ k_kty k = VStr (lit "EC") /\ k_data k = DEc o (VStr []) (VInt x) (VInt y) (VInt d) o) \/
  (upper t <> lit "RSA" /\ lower t <> lit "oct" /\ upper t <> lit "EC" /\ k_kty k = VStr [] /\ k_data k = DKey o).
Definition usable (rnd : Z) (t : ustr) (o : kobj) : Prop :=
  (upper t = lit "RSA" -> exists r, o = ORsa r) /\ (lower t = lit "oct" -> exists v b, o = OVal v /\ as_bytes v = Ok (VBytes b)) /\
  (upper t = lit "EC" -> exists c d x y, o = OCurve c /\ key_pair c rnd = (d, Some (x, y))).
Theorem C157_keyitems : forall P rnd items, (forall t os o, In (t, os) items -> In o os -> usable rnd t o) ->
  exists ks, keyitems2keyreps P rnd items = Ok ks /\ Forall2 (fun p k => made rnd (fst p) (snd p) k) (flat_map (fun it => map (pair (fst it)) (snd it)) items) ks.
Proof.
  intros P rnd items H. apply (keyitems_ok P rnd (made rnd)). intros t os o I J. destruct (H t os o I J) as (A & B & C). unfold made.
  destruct (zs_eq_dec (upper t) (lit "RSA")) as [E1|N1].
  { destruct (A E1) as (r & ->). rewrite new_rsa by exact E1. destruct (rsa_new_key P r) as (k & nums & K & D & T & G). exists k. split; [exact K|]. left. split; [exact E1|]. exists r, nums.
    split; [reflexivity|]. split; [exact T|]. split; [exact D|]. split; [apply (G (lit "n") (Some (r_n r))); left; reflexivity|apply (G (lit "e") (Some (r_e r))); right; left; reflexivity]. }
  destruct (zs_eq_dec (lower t) (lit "oct")) as [E2|N2].
  { destruct (B E2) as (v & b & -> & E). destruct (new_oct P rnd t v b E2 E) as (k & K & D & T). exists k. split; [exact K|]. right. left. split; [exact E2|]. exists v, b. repeat split; assumption. }
  destruct (zs_eq_dec (upper t) (lit "EC")) as [E3|N3].
  { destruct (C E3) as (c & d & x & y & -> & E). destruct (new_ec P rnd t c d x y E3 E) as (k & K & D & T). exists k. split; [exact K|]. right. right. left. split; [exact E3|]. exists c, d, x, y. repeat split; assumption. }
  destruct (new_other P rnd t o N1 N2 N3) as (k & K & D & T). exists k. split; [exact K|]. right. right. right. repeat split; assumption.
Qed.
Print Assumptions C157_keyitems.
Example C157_ex : exists k1 k2 k3, keyitems2keyreps std 0 [(lit "Rsa", [ORsa {| r_n := 3233; r_e := 17; r_d := None; r_pq := None |}]); (lit "OCT", [OVal (VStr (lit "a")); OVal (VBytes (lit "b"))])] = Ok [k1; k2; k3] /\
  k_data k2 = DSym (VBytes (lit "a")) (VStr []) /\ k_data k3 = DSym (VBytes (lit "b")) (VStr []).
Proof. do 3 eexists. split; [cbv; reflexivity|split; reflexivity]. Qed.

(** C158: after RSAKey.load_key a new object has exactly the numbers of the key *)
Definition numbers (r : rsakey) : list (ustr * option Z) :=
  [(lit "n", Some (r_n r)); (lit "e", Some (r_e r)); (lit "d", r_d r);
   (lit "p", match r_d r, r_pq r with Some _, Some (p, _) => if p =? 0 then None else Some p | _, _ => None end);
   (lit "q", match r_d r, r_pq r with Some _, Some (_, q) => if q =? 0 then None else Some q | _, _ => None end)].
Theorem C158_load_key_partial : forall P r, exists k k' nums, rsa_new P [] onone = Ok k /\ rsa_load_key k (ORsa r) = (k', None) /\ k_data k' = DRsa (ORsa r) nums /\
  forall name o, In (name, o) (numbers r) -> dget nums name = Some (match o with Some z => VInt z | None => VStr [] end).
Proof.
  intros P r. destruct (rsa_new_blank P) as (k & K & nums & D & F). destruct (load_key_get k _ nums r D) as (k' & nums' & L & D' & G). exists k, k', nums'.
  split; [exact K|]. split; [exact L|]. split; [exact D'|]. intros name o I. rewrite (G name o I). destruct o; [reflexivity|]. apply F. unfold numbers in I. repeat destruct I as [I|I]; try contradiction; injection I as <- _; cbn; tauto.
Qed.
Print Assumptions C158_load_key_partial.
(** ... but an object that held a private key keeps its private exponent when a public key is loaded *)
Theorem C158_stale_private_refuted : forall P priv pub d, r_d priv = Some d -> r_d pub = None ->
  exists k k' nums, rsa_new P [] (ORsa priv) = Ok k /\ rsa_load_key k (ORsa pub) = (k', None) /\ k_data k' = DRsa (ORsa pub) nums /\
    dget nums (lit "n") = Some (VInt (r_n pub)) /\ dget nums (lit "d") = Some (VInt d).
Proof.
  intros P priv pub d A B. destruct (rsa_new_key P priv) as (k & nums & K & D & _ & F). destruct (load_key_get k _ nums pub D) as (k' & nums' & L & D' & G). exists k, k', nums'.
  split; [exact K|]. split; [exact L|]. split; [exact D'|]. split; [apply (G (lit "n") (Some (r_n pub))); left; reflexivity|].
  assert (I : In (lit "d", @None Z) (key_numbers pub)) by (unfold key_numbers; rewrite B; right; right; left; reflexivity). rewrite (G _ _ I).
  assert (J : In (lit "d", Some d) (key_numbers priv)) by (unfold key_numbers; rewrite A; right; right; left; reflexivity). exact (F _ _ J).
Qed.
Print Assumptions C158_stale_private_refuted.
Example C158_ex : exists k k', rsa_new std [] (ORsa {| r_n := 3233; r_e := 17; r_d := Some 413; r_pq := Some (61, 53) |}) = Ok k /\
  rsa_load_key k (ORsa {| r_n := 0x1011; r_e := 3; r_d := None; r_pq := None |}) = (k', None) /\
  serialize k' true = Ok (VDict [(lit "kty", VStr (lit "RSA")); (lit "n", VStr (lit "EBE")); (lit "e", VStr (lit "Aw")); (lit "d", VStr (lit "AZ0")); (lit "p", VStr (lit "PQ")); (lit "q", VStr (lit "NQ"))]).
Proof. do 2 eexists. split; [cbv; reflexivity|]. split; [cbv; reflexivity|]. vm_compute. reflexivity. Qed.

(** C159: der_cert2rsa finds the certificate in its base64 text with any other characters in between, if its length is a
    multiple of three; [letters] are the characters of base64 *)
Definition letters : list Z := lit "ABCDEFGHIJKLMNOPQRSTUVWXYZabcdefghijklmnopqrstuvwxyz0123456789+/".
Definition only_letters (s : list Z) : list Z := filter (fun c => existsb (Z.eqb c) letters) s.
Lemma only_letters_std : forall s, only_letters s = filter b64_std_char s.
Proof.
  intro s. unfold only_letters. apply filter_ext. intro c.
  destruct (Z_le_dec 0 c) as [C0|C0]; [destruct (Z_lt_dec c 128) as [C1|C1]|].
  - apply Bool.eqb_true_iff. revert c C0 C1.
    assert (G : forallb (fun c => Bool.eqb (existsb (Z.eqb c) letters) (b64_std_char c)) (map Z.of_nat (seq 0 128)) = true) by (vm_compute; reflexivity).
    intros c C0 C1. rewrite forallb_forall in G. apply G. apply in_map_iff. exists (Z.to_nat c). split; [lia|]. apply in_seq. lia.
  - transitivity false; [|unfold b64_std_char; lia]. apply not_true_is_false. intro E. apply existsb_exists in E. destruct E as (x & I & E). apply Z.eqb_eq in E. subst x.
    assert (G : forallb (fun c => c <? 128) letters = true) by (vm_compute; reflexivity). rewrite forallb_forall in G. specialize (G c I). lia.
  - transitivity false; [|unfold b64_std_char; lia]. apply not_true_is_false. intro E. apply existsb_exists in E. destruct E as (x & I & E). apply Z.eqb_eq in E. subst x.
    assert (G : forallb (fun c => 0 <=? c) letters = true) by (vm_compute; reflexivity). rewrite forallb_forall in G. specialize (G c I). lia.
Qed.
Theorem C159_der_cert_partial : forall P der s, bytes_ok der = true -> only_letters s = only_letters (b64encode der) -> Z.of_nat (length der) mod 3 = 0 ->
  der_cert2rsa P (VStr s) = p_der2rsa P der.
Proof. intros P der s B F M. rewrite !only_letters_std in F. exact (der_cert_third P der s B F M). Qed.
Print Assumptions C159_der_cert_partial.
(** ... but the padding is removed as well, so that every certificate of another length is rejected *)
Theorem C159_padding_refuted : forall P der s, bytes_ok der = true -> only_letters s = only_letters (b64encode der) -> Z.of_nat (length der) mod 3 <> 0 ->
  der_cert2rsa P (VStr s) = Raise EBinasciiError.
Proof. intros P der s B F M. rewrite !only_letters_std in F. exact (der_cert_other P der s B F M). Qed.
Print Assumptions C159_padding_refuted.
Example C159_ex : only_letters (lit "MIIC" ++ [10] ++ lit "a-b9/") = only_letters (b64encode [48; 130; 2; 105; 191; 127]) /\ Z.of_nat (length [48; 130; 2; 105; 191; 127]) mod 3 = 0 /\
  only_letters (lit "MII" ++ [13; 10] ++ lit "CCQ==") = only_letters (b64encode [48; 130; 2; 9]) /\ Z.of_nat (length [48; 130; 2; 9]) mod 3 = 1.
Proof. repeat split; vm_compute; reflexivity. Qed.

(** C160: pem_cert2rsa reads the certificate from a PEM file: a line, the base64 text in lines of any length, a line; lines end
    in a line feed, a carriage return, both, or any other white space that is not just blanks.  [space]: the ASCII characters
    Python calls white space. *)
Definition space (c : Z) : Prop := In c [9; 10; 11; 12; 13; 28; 29; 30; 31; 32].
Definition armour (s : list Z) : Prop := (exists c, In c s /\ c <> 32) /\ forall c, In c s -> c = 32 \/ ~ space c.
Definition breaks (s : list Z) : Prop := (exists c, In c s /\ c <> 32) /\ forall c, In c s -> space c.
Lemma space_ws : forall c, space c <-> ws c = true.
Proof. intro c. unfold space, ws. cbn [In]. lia. Qed.
Theorem C160_pem : forall P read imp name h b0 ls f b1 der k, armour h -> breaks b0 -> (forall line b, In (line, b) ls -> breaks b) -> armour f -> (forall c, In c b1 -> space c) ->
  bytes_ok der = true -> concat (map fst ls) = b64encode der ->
  let file := h ++ b0 ++ concat (map (fun l => fst l ++ snd l) ls) ++ f ++ b1 in
  read name = Ok file -> imp file = Ok k -> pem_cert2rsa P read imp name = p_der2rsa P der.
Proof.
  intros P read imp name h b0 ls f b1 der k Hh H0 HL Hf H1 B C file R I.
  assert (V : forall s, (exists c, In c s /\ c <> 32) -> no_blank s <> []).
  { intros s (c & IC & NC) E. assert (X : In c (no_blank s)) by (unfold no_blank; apply filter_In; split; [exact IC|]; apply negb_true_iff; apply Z.eqb_neq; exact NC). rewrite E in X. exact X. }
  assert (G : forall s, armour s -> frame s).
  { intros s [E A]. split; [exact (V s E)|]. apply forallb_forall. intros x X. specialize (A x X). rewrite space_ws in A. destruct A as [->|A]; [reflexivity|]. destruct (ws x); [congruence|reflexivity]. }
  assert (G1 : forall s, breaks s -> line_end s).
  { intros s [E A]. split; [exact (V s E)|]. apply forallb_forall. intros x X. apply space_ws. exact (A x X). }
  apply (pem_ok P read imp name h b0 ls f b1 der k (G h Hh) (G1 b0 H0)); try assumption.
  - apply Forall_forall. intros [l b] IN. apply G1. exact (HL l b IN).
  - exact (G f Hf).
  - apply forallb_forall. intros x X. apply space_ws. exact (H1 x X).
Qed.
Print Assumptions C160_pem.
(** ... and the file has to be readable by RSA.importKey first *)
Theorem C160_import_first : forall P read imp name file e, read name = Ok file -> imp file = Raise e -> pem_cert2rsa P read imp name = Raise e.
Proof. intros P read imp name file e R I. unfold pem_cert2rsa. rewrite R. cbn [bind]. rewrite I. reflexivity. Qed.
Print Assumptions C160_import_first.
Example C160_ex : let file := lit "-----BEGIN CERTIFICATE-----" ++ [13; 10] ++ concat (map (fun l => fst l ++ snd l) [(lit "MIIC", [10]); (lit "CQ==", [32; 13; 10])]) ++ lit "-----END CERTIFICATE-----" ++ [10] in
  concat [lit "MIIC"; lit "CQ=="] = b64encode [48; 130; 2; 9] /\
  (forall P imp k, imp file = Ok k -> pem_cert2rsa P (fun _ => Ok file) imp (lit "c.pem") = p_der2rsa P [48; 130; 2; 9]).
Proof.
  cbv zeta. split; [vm_compute; reflexivity|]. intros P imp k I.
  assert (A : forall s, forallb (fun c => (c =? 32) || (32 <? c)) s = true -> existsb (fun c => negb (c =? 32)) s = true -> armour s).
  { intros s H E. split; [apply existsb_exists in E; destruct E as (c & E1 & E2); exists c; split; [exact E1|lia]|]. intros c IC. rewrite forallb_forall in H. specialize (H c IC).
    unfold space. cbn [In]. lia. }
  assert (N : breaks [10]) by (split; [exists 10; split; [left; reflexivity|lia]|intros c [<-|[]]; right; left; reflexivity]).
  apply (C160_pem P (fun _ => Ok _) imp _ (lit "-----BEGIN CERTIFICATE-----") [13; 10] [(lit "MIIC", [10]); (lit "CQ==", [32; 13; 10])] (lit "-----END CERTIFICATE-----") [10] [48; 130; 2; 9] k); try reflexivity; try exact I;
    try (apply A; vm_compute; reflexivity).
  - split; [exists 10; split; [right; left; reflexivity|lia]|]. intros c C. unfold space. cbn [In] in *. lia.
  - intros l b [E|[E|[]]]; inversion E; subst; [exact N|]. split; [exists 10; split; [right; right; left; reflexivity|lia]|]. intros c C. unfold space. cbn [In] in *. lia.
  - apply N.
Qed.

(** C161: load_x509_cert never raises; it returns at most one key, the one imported from the text fetched or remembered for
    exactly that text, and remembers it *)
Theorem C161_load_x509 : forall P imp url seen, let '(l, seen') := load_x509_cert P imp url seen in
  (l = [] /\ seen' = seen) \/
  (exists cert k, p_fetch P url = Ok cert /\ l = [(lit "rsa", k)] /\ dget seen' cert = Some k /\
     (dget seen cert = Some k /\ seen' = seen \/ dget seen cert = None /\ imp cert = Ok k /\ seen' = dset seen cert k)).
Proof. exact x509_cases. Qed.
Print Assumptions C161_load_x509.
Theorem C161_nothing : forall P imp url seen, fst (load_x509_cert P imp url seen) = [] <->
  ((exists e, p_fetch P url = Raise e) \/ exists cert e, p_fetch P url = Ok cert /\ dget seen cert = None /\ imp cert = Raise e).
Proof.
  intros P imp url seen. unfold load_x509_cert. destruct (p_fetch P url) as [cert|e]; [|split; [intros _; left; exists e; reflexivity|reflexivity]].
  destruct (dget seen cert) as [k|] eqn:G; cbn [fst].
  - split; [discriminate|]. intros [(e & E)|(c & e & E & N & _)]; [discriminate|]. injection E as <-. rewrite G in N. discriminate.
  - destruct (imp cert) as [k|e] eqn:I; cbn [fst]; (split; [|]); try discriminate; try reflexivity.
    + intros [(e & E)|(c & e & E & _ & X)]; [discriminate|]. injection E as <-. rewrite I in X. discriminate.
    + intros _. right. exists cert, e. repeat split; assumption.
Qed.
Print Assumptions C161_nothing.
Example C161_ex : exists P imp url k, load_x509_cert P imp url [] = ([(lit "rsa", k)], [(lit "PEM", k)]) /\ load_x509_cert P (fun _ => Raise EValueError) url [(lit "PEM", k)] = ([(lit "rsa", k)], [(lit "PEM", k)]).
Proof.
  set (k := {| r_n := 3233; r_e := 17; r_d := None; r_pq := None |}).
  set (P := {| p_aes_enc := p_aes_enc std; p_aes_dec := p_aes_dec std; p_hash := p_hash std; p_hmac := p_hmac std; p_rsa_sign := p_rsa_sign std; p_rsa_verify := p_rsa_verify std; p_rsa_encrypt := p_rsa_encrypt std; p_rsa_decrypt := p_rsa_decrypt std; p_compress := p_compress std; p_decompress := p_decompress std; p_rsa_construct := p_rsa_construct std; p_der2rsa := p_der2rsa std; p_fetch := fun _ => Ok (lit "PEM") |}).
  exists P, (fun _ => Ok k), (lit "https://example.org/cert"), k. split; reflexivity.
Qed.

(** C162: without party values _hash_input is the concatenation of the fields ... *)
Theorem C162_hash_input_partial : forall cmk enc label rond length epu epv, truthy epu = false -> truthy epv = false ->
  hash_input cmk enc label rond length epu epv = Ok ([0; 0; 0; rond] ++ cmk ++ [0; 0; 0; length] ++ enc ++ [0; 0; 0; 0] ++ [0; 0; 0; 0] ++ label).
Proof. intros cmk enc label rond length epu epv U V. unfold hash_input, party_value. rewrite U, V. reflexivity. Qed.
Print Assumptions C162_hash_input_partial.
(** ... with a party value it never returns on Python 3 *)
Theorem C162_party_refuted : forall cmk enc label rond length epu epv, truthy epu = true \/ truthy epv = true -> exists e, hash_input cmk enc label rond length epu epv = Raise e.
Proof.
  assert (G : forall v, truthy v = true -> exists e, party_value v = Raise e).
  { intros v T. unfold party_value. rewrite T. destruct v; try (eexists; reflexivity). unfold int2bigendian. cbv zeta. destruct ((0 <=? Z.of_nat (length (b64e b))) && (Z.of_nat (length (b64e b)) <? 2 ^ 32)); eexists; reflexivity. }
  intros cmk enc label rond l epu epv H. unfold hash_input. destruct (truthy epu) eqn:U.
  - destruct (G epu U) as (e & E). exists e. rewrite E. reflexivity.
  - destruct H as [H|H]; [discriminate|]. destruct (G epv H) as (e & E). exists e. unfold party_value at 1. rewrite U. cbn [bind]. rewrite E. reflexivity.
Qed.
Print Assumptions C162_party_refuted.
Example C162_ex : hash_input [1; 2] (lit "A128") [9] 1 128 (VStr []) VNone = Ok [0; 0; 0; 1; 1; 2; 0; 0; 0; 128; 65; 49; 50; 56; 0; 0; 0; 0; 0; 0; 0; 0; 9] /\ party_value (VBytes (lit "Alice")) = Raise ETypeError.
Proof. split; vm_compute; reflexivity. Qed.

(** C163: keysize is the number after HS or CS, and the three digits after A *)
Definition digits (ds : list Z) : Prop := ds <> [] /\ Forall (fun c => 48 <= c <= 57) ds.
Definition value (ds : list Z) : Z := fold_left (fun a c => 10 * a + (c - 48)) ds 0.
Theorem C163_keysize : (forall ds, digits ds -> keysize (lit "HS" ++ ds) = Ok (value ds) /\ keysize (lit "CS" ++ ds) = Ok (value ds)) /\
  (forall a b c rest, digits [a; b; c] -> keysize (lit "A" ++ a :: b :: c :: rest) = Ok (value [a; b; c])) /\
  (forall s, startswith s (lit "HS") = false -> startswith s (lit "CS") = false -> startswith s (lit "A") = false -> keysize s = Ok 0).
Proof.
  assert (D : forall c, 48 <= c <= 57 -> is_digit c = true) by (intros c C; unfold is_digit; lia).
  split; [|split].
  - intros ds [NE F]. apply keysize_hs; [|exact NE]. apply (Forall_impl _ D F).
  - intros a b c rest [_ F]. inversion_clear F as [|? ? A F1]. inversion_clear F1 as [|? ? B F2]. inversion_clear F2 as [|? ? C _].
    rewrite keysize_a by (apply D; assumption). unfold value. cbn [fold_left]. f_equal. lia.
  - intros s A B C. unfold keysize. rewrite A, B, C. reflexivity.
Qed.
Print Assumptions C163_keysize.
Example C163_ex : map keysize [lit "HS256"; lit "CS384"; lit "A192GCM"; lit "A256CBC-HS512"; lit "A128KW"; lit "RSA1_5"; lit "ECDH-ES+A256KW"; lit "HS"]
  = [Ok 256; Ok 384; Ok 192; Ok 256; Ok 128; Ok 0; Ok 0; Raise EValueError].
Proof. vm_compute. reflexivity. Qed.

(** C164: the mapping methods of JWx agree with each other; a missing name is a KeyError as item and an AttributeError as
    attribute; dump_header shows exactly the parameters named in args *)
Theorem C164_accessors : forall s n v m, n = lit "jwk" \/ (exists x, v = JVal x) ->
  jwx_getitem (jwx_setitem s n v) n = Ok v /\ jwx_getattr (jwx_setitem s n v) n = Ok v /\ jwx_contains (jwx_setitem s n v) n = true /\
  (m <> n -> jwx_getitem (jwx_setitem s n v) m = jwx_getitem s m) /\
  (jwx_contains s m = false <-> jwx_getitem s m = Raise EKeyError) /\ (jwx_contains s m = false <-> jwx_getattr s m = Raise EAttributeError).
Proof.
  intros s n v m H. unfold jwx_getitem, jwx_getattr, jwx_contains. rewrite !(jwx_set_get s n v) by exact H. rewrite zs_eqb_refl.
  split; [reflexivity|]. split; [reflexivity|]. split; [reflexivity|]. split.
  - intro N. destruct (zs_eqb n m) eqn:E; [apply zs_eqb_eq in E; congruence|reflexivity].
  - destruct (jwx_get s m); (split; split; intro X; try reflexivity; discriminate X).
Qed.
Print Assumptions C164_accessors.
Theorem C164_dump_header : forall s n, dget (dump_header s) n =
  if existsb (zs_eqb n) [lit "alg"; lit "jku"; lit "jwk"; lit "x5u"; lit "x5t"; lit "x5c"; lit "kid"; lit "typ"; lit "cty"; lit "crit"]
  then match jwx_getitem s n with Ok v => Some v | Raise _ => None end else None.
Proof. intros s n. rewrite dump_header_get. change (in_names n jwx_args) with (existsb (zs_eqb n) jwx_args). change jwx_args with [lit "alg"; lit "jku"; lit "jwk"; lit "x5u"; lit "x5t"; lit "x5c"; lit "kid"; lit "typ"; lit "cty"; lit "crit"]. unfold jwx_getitem. destruct (existsb _ _); [destruct (jwx_get s n)|]; reflexivity. Qed.
Print Assumptions C164_dump_header.
Example C164_ex : forall P s, jws_init P VNone [(lit "alg", VStr (lit "HS256")); (lit "crit", VList [VStr (lit "exp")]); (lit "foo", VInt 1)] None = Ok s ->
  jwx_getitem s (lit "foo") = Raise EKeyError /\ dump_header (jwx_setitem s (lit "foo") (JVal (VInt 2))) = [(lit "alg", JVal (VStr (lit "HS256"))); (lit "x5c", JVal (VList [VStr (lit "exp")]))].
Proof. intros P s H. cbv in H. injection H as <-. split; reflexivity. Qed.

(** C165: headers(extra): extra wins over the instance, except for jwk; false values of the instance are left out, those of
    extra are kept; the kid of the instance must be text, that of extra need not *)
Theorem C165_headers : forall s extra ejwk h, jwx_headers s extra ejwk = Ok h ->
  (forall n, n <> lit "jwk" -> dget h n =
     if existsb (zs_eqb n) [lit "alg"; lit "jku"; lit "x5u"; lit "x5t"; lit "x5c"; lit "kid"; lit "typ"; lit "cty"; lit "crit"] then
       match dget extra n with
       | Some v => Some v
       | None => match jwx_getitem s n with Ok (JVal v) => if truthy v then Some v else None | _ => None end
       end
     else None) /\
  match s_jwk s, ejwk with
  | Some (JKey k), _ | None, Some (JKey k) => exists v, serialize k false = Ok v /\ dget h (lit "jwk") = Some v
  | None, None => dget h (lit "jwk") = None
  | _, _ => False
  end /\ (forall v, jwx_getitem s (lit "kid") = Ok v -> exists t, v = JVal (VStr t)).
Proof.
  intros s extra ejwk h H. destruct (jwx_headers_ok s extra ejwk h H) as (A & B & C). split; [|split; [exact B|]].
  - intros n N. rewrite (A n N). unfold in_names, jwx_args. cbn [existsb]. apply zs_eqb_neq in N. rewrite N. cbn [orb]. unfold merged, jwx_getitem, jwx_get. rewrite N.
    destruct (dget extra n), (dget (s_dict s) n); reflexivity.
  - intros v E. unfold jwx_getitem, jwx_get in E. change (zs_eqb (lit "kid") (lit "jwk")) with false in E. cbv iota in E.
    destruct (dget (s_dict s) (lit "kid")) as [w|] eqn:G; [|discriminate E]. apply ok_inj in E. subst v. destruct (C w eq_refl) as (t & ->). exists t. reflexivity.
Qed.
Print Assumptions C165_headers.
Theorem C165_returns : forall s extra, (forall v, jwx_getitem s (lit "kid") = Ok v -> exists t, v = JVal (VStr t)) -> s_jwk s = None -> exists h, jwx_headers s extra None = Ok h.
Proof.
  intros s extra K J. unfold jwx_headers. rewrite J. cbn [bind]. unfold jwx_getitem, jwx_get in K. change (zs_eqb (lit "kid") (lit "jwk")) with false in K. cbv iota in K.
  destruct (dget (s_dict s) (lit "kid")) as [v|]; [|eexists; reflexivity]. destruct (K _ eq_refl) as (t & E). injection E as ->. eexists. reflexivity.
Qed.
Print Assumptions C165_returns.
Example C165_ex : forall P s, jws_init P VNone [(lit "alg", VStr (lit "HS256")); (lit "kid", VStr (lit "a")); (lit "typ", VStr [])] None = Ok s ->
  jwx_headers s [(lit "alg", VStr (lit "HS512")); (lit "cty", VStr [])] None = Ok [(lit "alg", VStr (lit "HS512")); (lit "kid", VStr (lit "a")); (lit "cty", VStr [])] /\
  jwx_headers (jwx_setitem s (lit "kid") (JVal VNone)) [] None = Raise EHeaderError.
Proof. intros P s H. cbv in H. injection H as <-. split; reflexivity. Qed.

(** C166: _decode undoes b64e, and parses the octets as JSON exactly if cty is JWT *)
Theorem C166_decode : forall s m, bytes_ok m = true ->
  (jwx_getitem s (lit "cty") <> Ok (JVal (VStr (lit "JWT"))) -> jwx_decode s (VBytes (b64e m)) = Ok (VBytes m)) /\
  (jwx_getitem s (lit "cty") = Ok (JVal (VStr (lit "JWT"))) -> jwx_decode s (VBytes (b64e m)) = loads_bytes m).
Proof.
  intros s m B. unfold jwx_getitem, jwx_get. change (zs_eqb (lit "cty") (lit "jwk")) with false. cbv iota. split; intro H.
  - apply decode_plain; [exact B|]. intro E. apply H. rewrite E. reflexivity.
  - rewrite decode_jwt; [reflexivity|exact B|]. destruct (dget (s_dict s) (lit "cty")) as [v|]; [|discriminate H]. apply ok_inj in H. injection H as ->. reflexivity.
Qed.
Print Assumptions C166_decode.
Example C166_ex : forall P s, jws_init P VNone [(lit "alg", VStr (lit "HS256")); (lit "cty", VStr (lit "JWT"))] None = Ok s ->
  jwx_decode s (VBytes (lit "eyJhIjoxfQ")) = Ok (VDict [(lit "a", VInt 1)]) /\ jwx_decode new_jws (VBytes (lit "eyJhIjoxfQ")) = Ok (VBytes [123; 34; 97; 34; 58; 49; 125]).
Proof. intros P s H. cbv in H. injection H as <-. split; vm_compute; reflexivity. Qed.

(** C167: an unpacked token is valid as a JWS exactly if it has two dots *)
Lemma split_dots : forall t, length (split 46 t) = S (count_occ Z.eq_dec t 46).
Proof.
  induction t as [|c t IH]; [reflexivity|]. cbn [split count_occ]. destruct (Z.eq_dec c 46) as [->|N]; [rewrite Z.eqb_refl; cbn [length]; lia|].
  apply Z.eqb_neq in N. rewrite N. pose proof (split_nonempty 46 t). destruct (split 46 t); [congruence|exact IH].
Qed.
Theorem C167_valid : forall token txt j, (token = VStr txt \/ token = VBytes txt) -> unpack token = Ok j ->
  (jwsig_valid j = true <-> count_occ Z.eq_dec txt 46 = 2%nat).
Proof.
  intros token txt j T U. destruct (unpack_segments token j U) as (t & T' & B & _ & ps & JP & F2 & _).
  assert (E : t = txt) by (destruct T as [->| ->], T' as [X|X]; congruence). subst t. unfold jwsig_valid. assert (L : length (j_b64 j) = length ps) by (clear -F2; induction F2; cbn [length]; congruence). rewrite JP, map_length, <- L, B, split_dots, Nat.eqb_eq. lia.
Qed.
Print Assumptions C167_valid.
Example C167_ex : (exists j, unpack (VStr (lit "e30.YQ.Yg")) = Ok j /\ jwsig_valid j = true) /\ (exists j, unpack (VStr (lit "e30.YQ")) = Ok j /\ jwsig_valid j = false).
Proof. split; eexists; (split; [cbv; reflexivity|reflexivity]). Qed.
