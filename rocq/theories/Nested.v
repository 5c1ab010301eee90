(** * Nested tokens: signed, then encrypted; decrypted, then verified *)
From Coq Require Import ZArith List Bool Lia.
From Verif Require Import Base BaseProofs Prims Inst PvalEq Extra ExtraProofs Utf8 Codec CodecProofs Json JsonProofs Jwt JwtProofs Jwk JwkProofs JwkProofs2 JwkEx Jws JwsProofs JwsProofs2 JwsProofs3 JwsProofs4 JwsProofs6 JwsEx.
From Verif Require Import Elliptic Ecc Nist KeyWrap Jwe JweProofs JweProofs2 JweProofs3 JweProofs4 JweProofs5 JweProofs6 JweProofs7 JweProofs8 JweProofs9 JweEx.
Import ListNotations.
Open Scope Z_scope.

(** [tok] was made by sign_compact from sound keys. *)
Record signed (P : prims) (E : entropy) (s : jws) (keys : list jwk) (protected : dict) (a : ustr) (tok : ustr) : Prop := {
  sg_made : exists s', sign_compact P E s (Some keys) protected = (s', Ok tok);
  sg_alg : chosen s (Some keys) = VStr a;
  sg_keys : keys <> [];
  sg_msg : octets_wf (s_msg s);
  sg_json : json_header protected s (Some keys);
  sg_cty : text_cty protected;
  sg_fit : exists g t, dget SIGNERS a = Some g /\ alg2keytype (VStr a) = Ok (Some t) /\
    (forall k, In k keys -> right_type t k -> works P g k) /\
    (forall k k', In k keys -> In k' keys -> k' = k \/ ~ right_type t k' \/ clean P g k' \/ (truthy (k_kid k) = true /\ k_kid k' <> k_kid k));
  sg_kid : forall k, In k keys -> truthy (k_kid k) = true -> exists x, k_kid k = VStr x;
  sg_nokid : forall k, In k keys -> truthy (k_kid k) = false -> truthy (kwarg protected (lit "kid") VNone) = false
}.

(** What verification of the octets [m] with the keys of the signer has to return. *)
Definition yields (P : prims) (s : jws) (keys : list jwk) (protected : dict) (a : ustr) (m : bytes) : Prop :=
  exists pb, octets_of (s_msg s) = Ok pb /\ forall v an sigalg, ready v a -> truthy sigalg = false \/ sigalg = VStr a ->
    exists v' k', In k' keys /\ verify_compact P v (VBytes m) (Some keys) an sigalg = (v', Ok (payload_view protected pb, Some k')).

Section Nested.
Variable P : prims.

Lemma signed_verifies : forall E s keys protected a tok token, signed P E s keys protected a tok -> token = VStr tok \/ token = VBytes tok ->
  exists pb, octets_of (s_msg s) = Ok pb /\ forall v an sigalg, ready v a -> truthy sigalg = false \/ sigalg = VStr a ->
    exists v' k', In k' keys /\ verify_compact P v token (Some keys) an sigalg = (v', Ok (payload_view protected pb, Some k')).
Proof.
  intros E s keys protected a tok token [(s' & M) C N W J T (g & t & G & KT & WK & CL) KI NK] TK.
  assert (V : forall v an sigalg, ready v a -> truthy sigalg = false \/ sigalg = VStr a -> exists pb v' k', octets_of (s_msg s) = Ok pb /\ verify_compact P v token (Some keys) an sigalg = (v', Ok (payload_view protected pb, Some k')) /\ In k' keys)
    by (intros; apply (sign_then_verify P E s keys protected s' tok a g t); assumption).
  assert (R : ready new_jws a) by (split; [left|]; reflexivity).
  destruct (V new_jws false VNone R (or_introl eq_refl)) as (pb & _ & _ & O & _). exists pb. split; [exact O|].
  intros v an sigalg RV SA. destruct (V v an sigalg RV SA) as (pb' & v' & k' & O' & VV & I). assert (pb' = pb) by congruence. subst pb'. exists v', k'. auto.
Qed.

(** A signed token is its own encoding. *)
Lemma signed_ascii : forall E s keys protected a tok, signed P E s keys protected a tok -> ascii tok = true.
Proof.
  intros E s keys protected a tok S. destruct (signed_verifies E s keys protected a tok (VStr tok) S (or_introl eq_refl)) as (pb & _ & V).
  assert (R : ready new_jws a) by (split; [left|]; reflexivity). destruct (V new_jws false VNone R (or_introl eq_refl)) as (v' & k' & _ & X).
  unfold verify_compact in X. destruct (unpack (VStr tok)) as [u|] eqn:U; [|discriminate X]. destruct (repack _ _ VNone U) as (txt & [TT|TT] & A & _); [injection TT as <-; exact A|discriminate TT].
Qed.
Lemma signed_octets : forall E s keys protected a tok msg p, signed P E s keys protected a tok -> msg = VStr tok \/ msg = VBytes tok -> msg_octets msg = Ok p -> yields P s keys protected a p.
Proof.
  intros E s keys protected a tok msg p S M O. assert (p = tok).
  { pose proof (signed_ascii _ _ _ _ _ _ S) as A. destruct M as [-> | ->]; cbn [msg_octets] in O; [rewrite (utf8_encode_ascii _ A) in O|]; congruence. }
  subst p. exact (signed_verifies _ _ _ _ _ _ _ S (or_intror eq_refl)).
Qed.

Variable R : draws.
Hypotheses (AES : aes_law P) (HM : hmac_law P) (HL : hash_law P) (DR : draws_ok R) (ZIP : zip_law P).

Theorem nested_rsa : forall E s skeys protected sa stok, signed P E s skeys protected sa stok ->
  forall w a keys k kid iv kw tok w', w_msg w = VStr stok \/ w_msg w = VBytes stok -> In a RSA_ALGS -> dget (w_dict w) (lit "alg") = Some (VStr a) ->
  json_args w JWE_ARGS -> jsonable (k_kid k) = true -> (forall kj x, w_jwk w = Some kj -> serialize kj false = Ok x -> jsonable x = true) ->
  kid_in_force (as_jws w) = Ok kid -> first_fit (suitable (lit "RSA") kid (VStr (lit "enc")) (VStr a)) keys k ->
  forall r nums r', k_data k = DRsa (ORsa r) nums -> for_key r r' -> rsa_enc_law P r' -> bytes_ok iv = true ->
  jwe_encrypt P R w (Some keys) [] iv kw = Ok (tok, w') ->
  exists c, w' = w_set w (lit "cek") (VBytes c) /\
  forall sent v keys' k' kid' alg token nums', kid_in_force (as_jws v) = Ok kid' -> first_fit (suitable (lit "RSA") kid' (VStr (lit "enc")) (VStr a)) keys' k' ->
    alg = VNone \/ alg = VStr a -> token = VStr tok \/ token = VBytes tok -> k_data k' = DRsa (ORsa r') nums' -> (a = lit "RSA1_5" -> sent 1%nat <> c) ->
    exists m v', jwe_decrypt P sent v token (Some keys') alg [] = Ok (m, v') /\ yields P s skeys protected sa m.
Proof.
  intros E s skeys protected sa stok S w a keys k kid iv kw tok w' MW IA AL JA JK JJ KI FF r nums r' KD FK RL BI H.
  assert (BM : forall b, w_msg w = VBytes b -> bytes_ok b = true) by (intros b B; destruct MW as [M|M]; [congruence|assert (b = stok) by congruence; subst b; apply ascii_bytes; apply (signed_ascii _ _ _ _ _ _ S)]).
  destruct (jwe_rsa_roundtrip P R AES HM DR ZIP w a keys k kid [] iv kw tok w' IA AL JA JK JJ KI FF r nums r' KD FK RL eq_refl BI BM H) as (p & c & MO & W & _ & D).
  exists c. split; [exact W|]. intros sent v keys' k' kid' alg token nums' KI' FF' AG TK KD' SN. destruct (D sent v keys' k' kid' alg token KI' FF' AG TK) as [_ D2].
  exists p, (w_set v (lit "cek") (VBytes c)). split; [apply (D2 nums' eq_refl KD' SN)|]. exact (signed_octets _ _ _ _ _ _ _ _ S MW MO).
Qed.

Theorem nested_sym : forall E s skeys protected sa stok, signed P E s skeys protected sa stok ->
  forall w a keys k kid cek iv kw tok w', w_msg w = VStr stok -> In a KW_ALGS -> dget (w_dict w) (lit "alg") = Some (VStr a) ->
  json_args w SYM_ARGS -> jsonable (k_kid k) = true -> (forall v, kw = Some v -> jsonable v = true) ->
  kid_in_force (as_jws w) = Ok kid -> first_fit (suitable (lit "oct") kid (VStr (lit "enc")) (VStr a)) keys k ->
  forall key kk, k_data k = DSym key kk -> (forall x, key = VBytes x -> bytes_ok x = true) -> bytes_ok cek = true -> bytes_ok iv = true -> wrappable cek ->
  jwe_encrypt P R w (Some keys) cek iv kw = Ok (tok, w') ->
  forall sent v keys' k' kid' alg token, kid_in_force (as_jws v) = Ok kid' -> first_fit (suitable (lit "oct") kid' (VStr (lit "enc")) (VStr a)) keys' k' -> k_data k' = k_data k ->
    alg = VNone \/ alg = VStr a -> token = VStr tok \/ token = VBytes tok ->
    exists m v', jwe_decrypt P sent v token (Some keys') alg [] = Ok (m, v') /\ yields P s skeys protected sa m.
Proof.
  intros E s skeys protected sa stok S w a keys k kid cek iv kw tok w' MW IA AL JA JK JKW KI FF key kk KD SB BC BI WC H sent v keys' k' kid' alg token KI' FF' KD' AG TK.
  destruct (jwe_sym_roundtrip P R AES HM HL DR w a keys k kid cek iv kw tok w' IA AL JA JK JKW KI FF key kk KD SB BC BI WC H) as (t & m & MT & U & D).
  exists m, (w_set v (lit "cek") VNone). split; [apply (D sent v keys' k' kid' alg token); assumption|]. apply (signed_octets E s skeys protected sa stok (VStr stok) m S (or_introl eq_refl)). cbn [msg_octets]. congruence.
Qed.

Theorem nested_ec : forall E s skeys protected sa stok, signed P E s skeys protected sa stok ->
  forall name c, by_name name = Ok c -> forall w a keys k kid cek iv kw tok w' o crv kx ky d cv dz, w_msg w = VStr stok \/ w_msg w = VBytes stok -> In a EC_ALGS -> dget (w_dict w) (lit "alg") = Some (VStr a) ->
  json_args w SYM_ARGS -> jsonable (k_kid k) = true -> (forall v, kw = Some v -> jsonable v = true) ->
  kid_in_force (as_jws w) = Ok kid -> first_fit (suitable (lit "EC") kid (VStr (lit "enc")) (VStr a)) keys k ->
  k_data k = DEc o crv (VInt kx) (VInt ky) d cv -> curve_by_name crv = Ok c -> 0 < dz < c_N c -> public_key_for c dz = Some (kx, ky) -> epk_for c w ->
  (forall b, dget (w_dict w) (lit "cek") = Some (VBytes b) -> bytes_ok b = true /\ wrappable b) ->
  jwe_encrypt P R w (Some keys) cek iv kw = Ok (tok, w') ->
  forall sent v keys' k' kid' alg token cek' o' crv' x' y' cv', kid_in_force (as_jws v) = Ok kid' -> first_fit (suitable (lit "EC") kid' (VStr (lit "enc")) (VStr a)) keys' k' ->
    k_data k' = DEc o' crv' x' y' (VInt dz) cv' -> alg = VNone \/ alg = VStr a -> token = VStr tok \/ token = VBytes tok ->
    exists m v', jwe_decrypt P sent v token (Some keys') alg cek' = Ok (m, v') /\ yields P s skeys protected sa m.
Proof.
  intros E s skeys protected sa stok S name c BN w a keys k kid cek iv kw tok w' o crv kx ky d cv dz MW IA AL JA JK JKW KI FF KD CB DZ PB EF CO H sent v keys' k' kid' alg token cek' o' crv' x' y' cv' KI' FF' KD' AG TK.
  assert (BM : forall b, w_msg w = VBytes b -> bytes_ok b = true) by (intros b B; destruct MW as [M|M]; [congruence|assert (b = stok) by congruence; subst b; apply ascii_bytes; apply (signed_ascii _ _ _ _ _ _ S)]).
  destruct (jwe_ec_roundtrip P R AES HM HL DR name c BN w a keys k kid cek iv kw tok w' o crv kx ky d cv dz IA AL JA JK JKW KI FF KD CB DZ PB EF CO BM H) as (p & MO & D).
  exists p, (w_set v (lit "cek") VNone). split; [apply (D sent v keys' k' kid' alg token cek' o' crv' x' y' cv'); assumption|]. exact (signed_octets _ _ _ _ _ _ _ _ S MW MO).
Qed.
End Nested.

(** ** Example: JWS("hello", alg="HS256") inside JWE(..., alg="RSA-OAEP") *)
Lemma ex_is_signed : signed std ex_E ex_jws [ex_key] [] (lit "HS256") ex_tok.
Proof.
  split.
  - pose proof ex_signed as H. destruct (sign_compact std ex_E ex_jws (Some [ex_key]) []) as [s' r]. cbn [snd] in H. subst r. exists s'. reflexivity.
  - reflexivity.
  - discriminate.
  - intros b X. discriminate X.
  - split; [reflexivity|]. split; [intros t T; discriminate T|]. intros k [(l & X & I)|[_ X]]; [injection X as <-; destruct I as [<-|[]]; reflexivity|discriminate X].
  - left. reflexivity.
  - exists (HMACSigner SHA256), (lit "oct"). split; [reflexivity|]. split; [reflexivity|]. split; [apply (kf_works _ _ _ _ _ ex_keys_fit)|]. intros k k' [<-|[]] [<-|[]]. left. reflexivity.
  - intros k [<-|[]] T. discriminate T.
  - intros k [<-|[]] T. reflexivity.
Qed.
Definition outer_jwe : jwe := zip_jwe (lit "RSA-OAEP") (lit "A128GCM") (VStr ex_tok).
Lemma ex_nested : exists tok w', jwe_encrypt std ex_draws outer_jwe (Some [enc_rsa]) [] [] None = Ok (tok, w') /\
  exists m v', jwe_decrypt std (fun _ => []) new_jwe (VStr tok) (Some [enc_rsa]) VNone [] = Ok (m, v') /\
    exists u k, verify_compact std new_jws (VBytes m) (Some [ex_key]) false VNone = (u, Ok (VStr (lit "hello"), Some k)).
Proof.
  assert (IA : In (lit "RSA-OAEP") RSA_ALGS) by (left; reflexivity).
  assert (M : exists tok c, jwe_encrypt std ex_draws outer_jwe (Some [enc_rsa]) [] [] None = Ok (tok, w_set outer_jwe (lit "cek") (VBytes c))).
  { apply (rsa_encrypts std ex_draws std_aes_law std_hmac_law ex_draws_ok std_zip_law outer_jwe (lit "RSA-OAEP") (lit "A128GCM") 16%nat 12%nat ex_tok (p_compress std ex_tok) [enc_rsa] enc_rsa VNone [] [] None enc_rsakey []); try assumption; try reflexivity.
    - right. split; reflexivity.
    - apply Z.leb_le. vm_compute. reflexivity.
    - apply zip_json; reflexivity.
    - split; cbn; intros; try discriminate; eexists; reflexivity.
    - intros he H. vm_compute in H. apply Ok_inj in H. subst he. reflexivity.
    - apply only_fit. apply rsa_suitable.
    - intros s c _ L B. apply std_rsa_total; [lia|exact B].
    - left. reflexivity.
    - left. reflexivity. }
  destruct M as (tok & c & M). exists tok, (w_set outer_jwe (lit "cek") (VBytes c)). split; [exact M|].
  destruct (nested_rsa std ex_draws std_aes_law std_hmac_law ex_draws_ok std_zip_law ex_E ex_jws [ex_key] [] (lit "HS256") ex_tok ex_is_signed outer_jwe (lit "RSA-OAEP") [enc_rsa] enc_rsa VNone [] None tok _ (or_introl eq_refl) IA eq_refl
    (zip_json (lit "RSA-OAEP") (lit "A128GCM") _ _ eq_refl eq_refl) eq_refl ltac:(intros kj x X; discriminate X) eq_refl (only_fit _ _ _ (rsa_suitable _)) enc_rsakey [] enc_rsakey eq_refl (or_introl eq_refl) (std_rsa_enc_law enc_rsakey enc_rsa_wf) eq_refl M) as (c' & _ & D).
  destruct (D (fun _ => []) new_jwe [enc_rsa] enc_rsa VNone VNone (VStr tok) [] eq_refl (only_fit _ _ _ (rsa_suitable _)) (or_introl eq_refl) (or_introl eq_refl) eq_refl ltac:(intro X; discriminate X)) as (m & v' & DE & pb & O & Y).
  exists m, v'. split; [exact DE|]. assert (RD : ready new_jws (lit "HS256")) by (split; [left|]; reflexivity). destruct (Y new_jws false VNone RD (or_introl eq_refl)) as (u & k & _ & V). exists u, k. rewrite V.
  vm_compute in O. apply Ok_inj in O. subst pb. reflexivity.
Qed.
