(** * JWE: which key decides, what cannot be encrypted or decrypted, recognition *)
From Coq Require Import ZArith List Bool Lia ZifyBool.
From Verif Require Import Base BaseProofs Utf8 Codec CodecProofs Json JsonProofs Jwt JwtProofs Prims Elliptic Ecc EccProofs EcAux KeyWrap KeyWrapProofs Extra ExtraProofs Gcm GcmSpec PvalEq Jwk JwkProofs JwkProofs2 Jws JwsProofs JwsProofs2 JwsProofs3 JwsProofs4 JwsProofs6 Jwe JweProofs JweProofs2 JweProofs3 JweProofs4 JweProofs5 JweProofs6 JweProofs7 JweProofs8 JweProofs10.
Import ListNotations.
Open Scope Z_scope.

(** ** Exceptions that do not lead to the next key *)
Definition hard {A} (r : res A) : Prop := r <> Raise EKeyError /\ r <> Raise EDecryptionFailed.
Lemma hard_ok : forall A (x : A), hard (Ok x).
Proof. split; discriminate. Qed.
Lemma hard_raise : forall A e, e <> EKeyError -> e <> EDecryptionFailed -> hard (@Raise A e).
Proof. intros A e N1 N2. split; intro H; injection H as H; contradiction. Qed.
Lemma hard_bind : forall A B (m : res A) (f : A -> res B), hard m -> (forall x, m = Ok x -> hard (f x)) -> hard (bind m f).
Proof. intros A B [x|e] f H F; [apply F; reflexivity|]. cbn [bind]. destruct H as [H1 H2]. apply hard_raise; congruence. Qed.
Lemma hard_mapM : forall A B (f : A -> res B) l, (forall x, hard (f x)) -> hard (mapM f l).
Proof.
  intros A B f l H. induction l as [|x l IH]; [apply hard_ok|]. cbn [mapM]. apply hard_bind; [apply H|]. intros y _. apply hard_bind; [exact IH|]. intros ys _. apply hard_ok.
Qed.
Ltac hards := repeat first
  [ apply hard_ok | apply hard_raise; discriminate | apply hard_bind; [|intros ? _]
  | match goal with |- hard (if ?b then _ else _) => destruct b end
  | match goal with |- hard (match ?b with _ => _ end) => destruct b end ].

Section Which.
Variable P : prims.

Lemma hard_unwrap : forall kek w, hard (aes_unwrap_key P kek w).
Proof.
  intros kek w. unfold aes_unwrap_key, aes_unwrap_key_and_iv, quad_unpack, aes_new.
  assert (R : forall n j r i a, hard (unwrap_row P kek n j i a r)).
  { intros n j r. induction r as [|x r IH]; intros i a; cbn [unwrap_row]; [apply hard_ok|]. apply hard_bind; [apply IH|]. intros t _. unfold quad_pack, quad_unpack. hards. }
  assert (S : forall n js a r, hard (unwrap_rows P kek n js a r)).
  { intros n js. induction js as [|j js IH]; intros a r; cbn [unwrap_rows]; [apply hard_ok|]. apply hard_bind; [apply R|]. intros t _. apply IH. }
  apply hard_bind; [|intros; hards]. apply hard_bind; [hards|]. intros a _. apply hard_bind; [hards|]. intros _ _. apply hard_bind; [apply S|]. intros. hards.
Qed.
Lemma hard_content : forall enc key ct aad iv tag, hard (content_decrypt P enc key ct aad iv tag).
Proof.
  intros. unfold content_decrypt. destruct (in_texts enc GCM_ENCS).
  - apply hard_bind.
    + unfold gcm_new, change_key. destruct (negb (aes_keysize _)); [apply hard_raise; discriminate|].
      assert (M : forall z, hard (make_table z)) by (intro z; unfold make_table; apply hard_mapM; intro; apply hard_mapM; intro; unfold gf_2_128_mul; hards).
      set (z := be2z _). specialize (M z). destruct (make_table z); [apply hard_ok|]. cbn [bind]. destruct M. apply hard_raise; congruence.
    + intros g _. unfold gcm_decrypt, gctr, ctr_crypt. hards.
  - destruct (in_texts enc CBC_ENCS); [|apply hard_raise; discriminate]. unfold aes_cbc_hmac_decrypt, get_keys_seclen_dgst, LENMET, pack_Q, cbc_decrypt, pkcs5trim. hards.
Qed.

Lemma hard_sym : forall d j key enc, dget d (lit "zip") = None -> py_get (j_headers j) (lit "enc") = Ok enc -> hard (sym_decrypt P d j key []).
Proof.
  intros d j key enc Z E. unfold sym_decrypt. rewrite Z, E. unfold part, b64part, as_secret.
  match goal with |- hard (if ?b then _ else _) => destruct b end; [apply hard_raise; discriminate|].
  match goal with |- hard (if ?b then _ else _) => destruct b end; [apply hard_raise; discriminate|]. cbn [is_nil].
  apply hard_bind; [apply hard_bind; [hards|]; intros ? _; apply hard_bind; [hards|]; intros; apply hard_unwrap|]. intros ? _. cbn [bind].
  do 4 (apply hard_bind; [hards|]; intros ? _). apply hard_bind; [apply hard_content|]. intros. hards.
Qed.

(** Key wrapping and key agreement: the keys after the first suitable one are never used. *)
Theorem first_key_decides : forall sent w token j a t keys k kid alg x, truthy token = true -> unpack token = Ok j -> py_get (j_headers j) (lit "alg") = Ok (VStr a) ->
  (In a KW_ALGS /\ t = lit "oct") \/ (In a EC_ALGS /\ t = lit "EC") ->
  kid_in_force (as_jws w) = Ok kid -> first_fit (suitable t kid (VStr (lit "enc")) (VStr a)) keys k ->
  (jwe_decrypt P sent w token (Some keys) alg [] = Ok x <-> jwe_decrypt P sent w token (Some [k]) alg [] = Ok x).
Proof.
  intros sent w token j a t keys k kid alg x T U A AT KI FF.
  assert (X : alg2keytype (VStr a) = Ok (Some t) /\ pval_eqb (VStr a) (VStr (lit "none")) = false /\ truthy (VStr a) = true /\ (family_of (VStr a) = Ok FSym \/ family_of (VStr a) = Ok FEc)).
  { destruct AT as [[I ->]|[I ->]]; [destruct (kw_alg a I) as (K1 & K2 & K3 & K4 & _)|destruct (ec_alg a I) as (K1 & K2 & K3 & K4)]; repeat split; auto. }
  destruct X as (KT & NN & TR & FA).
  assert (AO : alg_or (as_jws w) (VStr a) = Some (VStr a)) by (unfold alg_or; rewrite TR; reflexivity).
  destruct (pick_first P w keys (VStr (lit "enc")) (VStr a) (VStr a) t kid k AO NN KT KI FF) as [J1 (r & P1)].
  assert (F1 : first_fit (suitable t kid (VStr (lit "enc")) (VStr a)) [k] k) by (exists [], []; destruct FF as (pre & post & _ & S & _); repeat split; try apply S; constructor).
  destruct (pick_keys_spec (as_jws w) [k] (VStr (lit "enc")) (VStr a) (VStr a) t kid AO NN KT KI) as (o & P2 & PK).
  assert (o = [k]) by (destruct FF as (_ & _ & _ & S & _); inversion PK as [|? ? m Q PK'|? ? m Q PK']; subst; [|contradiction]; inversion PK'; reflexivity). subst o.
  unfold jwe_decrypt. rewrite T, U. cbn [bind]. rewrite A. cbn [bind]. destruct (truthy alg && negb (pval_eqb alg (VStr a))); [reflexivity|].
  rewrite J1. change (jws_keys P (as_jws w) (Some [k])) with (Ok [Some k] : res (list (option jwk))). change (map Some [k]) with [Some k] in P2. cbn [bind]. rewrite P1, P2. cbn [bind is_nil andb].
  destruct FA as [-> | ->]; cbn [bind].
  - unfold cek_first. cbn [is_nil]. set (d := sub_dict w SYM_ARGS).
    assert (Z : dget d (lit "zip") = None) by (apply sub_dict_none; [repeat split; ne|ne|reflexivity]).
    set (f := fun (_ : nat) (k0 : material) => sym_decrypt P d j (Some k0) []).
    assert (G : forall m, dec_loop P (VStr a) f (k :: r) 1 = Ok m <-> dec_loop P (VStr a) f [k] 1 = Ok m).
    { intro m. cbn [dec_loop]. destruct (key_material P k (VStr a) false) as [mt|]; [|reflexivity]. cbn [bind]. destruct (f 1%nat mt) as [y|e] eqn:D; [reflexivity|].
      destruct (py_get (j_headers j) (lit "enc")) as [enc|ee] eqn:E.
      - destruct (hard_sym d j (Some mt) enc Z E) as [H1 H2]. fold (f 1%nat mt) in H1, H2. rewrite D in H1, H2. destruct e; try reflexivity; congruence.
      - assert (N : forall n q i, dec_loop P (VStr a) f q i <> Ok n).
        { intros n q i H. apply dec_loop_inv in H. destruct H as (n1 & k1 & m' & _ & _ & H). unfold f in H. destruct (sym_decrypt_inv P _ _ _ _ _ H) as (_ & m0 & (enc' & b1 & b2 & b3 & b4 & b5 & E' & _) & _). congruence. }
        split; intro H; exfalso.
        + assert (X : dec_loop P (VStr a) f r 2 = Ok m \/ @Raise bytes e = Ok m) by (destruct e; auto). destruct X as [X|X]; [exact (N _ _ _ X)|discriminate].
        + destruct e; discriminate. }
    destruct (dec_loop P (VStr a) f (k :: r) 1) as [m1|e1] eqn:E1, (dec_loop P (VStr a) f [k] 1) as [m2|e2] eqn:E2; cbn [bind].
    + assert (Ok m2 = Ok m1 :> res bytes) as X by (apply G; reflexivity). apply Ok_inj in X. subst m2. reflexivity.
    + exfalso. assert (Raise e2 = Ok m1 :> res bytes) as X by (apply G; reflexivity). discriminate X.
    + exfalso. assert (Raise e1 = Ok m2 :> res bytes) as X by (apply G; reflexivity). discriminate X.
    + split; discriminate.
  - destruct (ec_dec_setup P j k) as [ck|]; [|reflexivity]. cbn [bind]. unfold cek_first. destruct (ec_decrypt P j ck) as [m|e] eqn:E.
    + replace (is_nil ck) with false by (unfold ec_decrypt in E; destruct (is_nil ck); [discriminate|reflexivity]). reflexivity.
    + assert (L : forall q m, dec_loop P (VStr a) (fun _ _ => Raise e : res bytes) q 1 <> Ok m).
      { intros q m H. apply dec_loop_inv in H. destruct H as (n1 & k1 & m1 & _ & _ & H). discriminate H. }
      destruct (dec_loop P (VStr a) (fun _ _ => Raise e : res bytes) (k :: r) 1) as [m1|] eqn:E1; [destruct (L _ _ E1)|]. destruct (dec_loop P (VStr a) (fun _ _ => Raise e : res bytes) [k] 1) as [m2|] eqn:E2; [destruct (L _ _ E2)|].
      destruct (is_nil ck), e; split; discriminate.
Qed.
End Which.

(** ** Requests that fail *)
Section Fails.
Variables (P : prims) (R : draws).

(** A key without private value cannot be encrypted to. *)
Theorem ecdh_public_key : forall w keys k kid cek iv kw a tok w' o crv x y d cv, In a EC_ALGS -> dget (w_dict w) (lit "alg") = Some (VStr a) ->
  kid_in_force (as_jws w) = Ok kid -> first_fit (suitable (lit "EC") kid (VStr (lit "enc")) (VStr a)) keys k -> k_data k = DEc o crv x y d cv -> truthy d = false ->
  jwe_encrypt P R w (Some keys) cek iv kw <> Ok (tok, w').
Proof.
  intros w keys k kid cek iv kw a tok w' o crv x y d cv IA AL KI FF KD TD H. destruct (ec_alg a IA) as (KT & FA & NN & TR).
  unfold jwe_encrypt in H. unfold dict_get in H at 1. rewrite AL in H. cbn [bind] in H.
  destruct (pick_first P w keys (VStr (lit "enc")) (VStr []) (VStr a) (lit "EC") kid k AL NN KT KI FF) as [JKY (r & PK)].
  rewrite JKY in H. cbn [bind] in H. rewrite PK in H. cbn [bind] in H. rewrite FA in H. cbn [bind] in H.
  destruct (ec_enc_setup P R w k) as [[[[ck ek] iv'] params]|]; [|discriminate]. cbn [bind] in H.
  unfold key_material, get_key in H. rewrite KD, TD in H. discriminate.
Qed.

(** A symmetric key encrypts texts only. *)
Theorem kw_text_only : draws_ok R -> forall w keys cek iv kw a tok w', bytes_ok cek = true -> bytes_ok iv = true -> In a KW_ALGS -> dget (w_dict w) (lit "alg") = Some (VStr a) ->
  jwe_encrypt P R w keys cek iv kw = Ok (tok, w') -> exists t, w_msg w = VStr t.
Proof.
  intros DR w keys cek iv kw a tok w' BC BI IA AL H. destruct (kw_alg a IA) as (_ & FA & _ & TR & _).
  unfold jwe_encrypt in H. unfold dict_get in H at 1. rewrite AL in H. cbn [bind] in H.
  destruct (jws_keys P (as_jws w) keys) as [ks|]; [|discriminate]. cbn [bind] in H. destruct (pick_keys (as_jws w) ks _ _) as [[|k r]|]; try discriminate. cbn [bind] in H. rewrite FA in H. cbn [bind] in H. cbv zeta in H.
  change (if truthy (k_kid k) then dset (sub_dict w SYM_ARGS) (lit "kid") (k_kid k) else sub_dict w SYM_ARGS) with (named_dict k (sub_dict w SYM_ARGS)) in H.
  destruct (key_material P k (VStr a) true) as [mt|]; [|discriminate]. cbn [bind] in H.
  set (ob := match w_jwk w with Some _ => true | None => false end) in H.
  destruct (sym_encrypt P R (named_dict k (sub_dict w SYM_ARGS)) ob (w_msg w) mt cek iv kw) as [tok'|] eqn:SE; [|discriminate].
  apply (sym_inv P R DR) with (alg := VStr a) in SE; [|exact BC|exact BI|rewrite named_get by ne; apply sub_dict_alg; [exact AL|reflexivity]|exact TR].
  destruct SE as (t & _ & _ & _ & _ & _ & _ & _ & _ & _ & _ & MT & _). exists t. exact MT.
Qed.

(** An ephemeral key given as anything but a key object is refused. *)
Theorem ecdh_plain_epk : forall w keys cek iv kw a tok w' v, In a EC_ALGS -> dget (w_dict w) (lit "alg") = Some (VStr a) -> w_epk w = None -> dget (w_dict w) (lit "epk") = Some v ->
  jwe_encrypt P R w keys cek iv kw <> Ok (tok, w').
Proof.
  intros w keys cek iv kw a tok w' v IA AL NE EP H. destruct (ec_alg a IA) as (KT & FA & NN & TR).
  unfold jwe_encrypt in H. unfold dict_get in H at 1. rewrite AL in H. cbn [bind] in H.
  destruct (jws_keys P (as_jws w) keys) as [ks|]; [|discriminate]. cbn [bind] in H. destruct (pick_keys (as_jws w) ks _ _) as [[|k r]|]; try discriminate. cbn [bind] in H. rewrite FA in H. cbn [bind] in H.
  unfold ec_enc_setup in H at 1. rewrite NE, EP in H.
  repeat match type of H with (bind (bind ?x _) _) = _ => destruct x; [cbn [bind] in H|discriminate] | (bind (let '(_, _) := ?x in _) _) = _ => destruct x | (bind (let '(_, _) := ?x in _) _) = _ => destruct x end; try discriminate.
Qed.

(** Key agreement draws its own content key and IV, whatever the caller passes. *)
Theorem ecdh_ignores_cek : forall w keys cek iv cek' iv' kw a, In a EC_ALGS -> dget (w_dict w) (lit "alg") = Some (VStr a) ->
  jwe_encrypt P R w keys cek iv kw = jwe_encrypt P R w keys cek' iv' kw.
Proof.
  intros w keys cek iv cek' iv' kw a IA AL. destruct (ec_alg a IA) as (KT & FA & NN & TR). unfold jwe_encrypt, dict_get. rewrite AL. cbn [bind].
  destruct (jws_keys P (as_jws w) keys) as [ks|]; [|reflexivity]. cbn [bind]. destruct (pick_keys (as_jws w) ks _ _) as [[|k r]|]; try reflexivity. cbn [bind]. rewrite FA. reflexivity.
Qed.

(** A content key given to RSA encryption is not in the token. *)
Theorem rsa_given_cek : draws_ok R -> forall w keys cek iv kw a tok w', bytes_ok cek = true -> bytes_ok iv = true -> In a RSA_ALGS -> dget (w_dict w) (lit "alg") = Some (VStr a) ->
  jwe_encrypt P R w keys cek iv kw = Ok (tok, w') -> cek <> [] -> w' = w_set w (lit "cek") (VBytes cek) /\ exists r, tok = seg tok 0 ++ lit ".." ++ r.
Proof.
  intros DR w keys cek iv kw a tok w' BC BI IA AL H NC. destruct (rsa_alg a IA) as (KT & FA & NN & TR & sch & SCH).
  unfold jwe_encrypt in H. unfold dict_get in H at 1. rewrite AL in H. cbn [bind] in H.
  destruct (jws_keys P (as_jws w) keys) as [ks|]; [|discriminate]. cbn [bind] in H. destruct (pick_keys (as_jws w) ks _ _) as [[|k r]|]; try discriminate. cbn [bind] in H. rewrite FA in H. cbn [bind] in H. cbv zeta in H.
  change (if truthy (k_kid k) then dset (sub_dict w JWE_ARGS) (lit "kid") (k_kid k) else sub_dict w JWE_ARGS) with (named_dict k (sub_dict w JWE_ARGS)) in H.
  destruct (key_material P k (VStr a) true) as [mt|]; [|discriminate]. cbn [bind] in H.
  destruct (rsa_jwe_encrypt P R (named_dict k (sub_dict w JWE_ARGS)) (w_jwk w) (w_epk w) (w_msg w) mt cek iv) as [[tok' c]|] eqn:SE; [|discriminate].
  cbn [bind] in H. apply Ok_inj in H. apply pair_equal_spec in H. destruct H as [-> <-].
  apply (rsa_inv P R DR) with (alg := VStr a) in SE; [|exact BC|exact BI|rewrite named_get by ne; apply sub_dict_alg; [exact AL|reflexivity]|exact TR].
  destruct SE as (p & m & enc & iv' & ek & h & he & ct & tag & O & MT & ZZ & EN & G & HD & EK & PR).
  destruct (generate_ok R DR _ _ _ _ _ BC BI G) as (_ & _ & _ & _ & G5 & _). rewrite (G5 NC). split; [reflexivity|].
  destruct EK as [[_ ->]|[-> _]]; [|congruence].
  pose proof (produced_first _ _ _ _ _ _ _ _ _ _ _ _ _ PR) as F. assert (E : seg tok 0 = he) by (unfold seg; destruct (split 46 tok); exact F). rewrite E.
  destruct (pd_segments _ _ _ _ _ _ _ _ _ _ _ _ _ PR) as (ts & TS & J). change (mapM utf8_decode (b64e [] :: ?l)) with (y <- mapM utf8_decode l;; Ok ([] :: y)) in TS.
  match type of TS with (bind (mapM ?f ?l) _) = _ => destruct (mapM f l) as [[|y ys]|] eqn:ML; [|cbn [bind] in TS|discriminate] end.
  - cbn [mapM] in ML. destruct (utf8_decode (b64e iv')); [|discriminate]. cbn [bind] in ML. destruct (utf8_decode (b64e ct)); [|discriminate]. cbn [bind] in ML. destruct (utf8_decode (b64e tag)); discriminate.
  - apply Ok_inj in TS. subst ts. exists (join 46 (y :: ys)). rewrite J. reflexivity.
Qed.

(** What RSA encryption with zip=DEF encrypts is the compressed message. *)
Theorem rsa_compressed : draws_ok R -> forall w keys cek iv kw a tok w', bytes_ok cek = true -> bytes_ok iv = true -> In a RSA_ALGS -> dget (w_dict w) (lit "alg") = Some (VStr a) ->
  dget (w_dict w) (lit "zip") = Some (VStr (lit "DEF")) ->
  jwe_encrypt P R w keys cek iv kw = Ok (tok, w') ->
  exists p enc key iv' ct tag rest, msg_octets (w_msg w) = Ok p /\ dget (w_dict w) (lit "enc") = Some enc /\ enc_setup P R enc (p_compress P p) (seg tok 0) key iv' = Ok (ct, tag, key) /\
    mapM utf8_decode [b64e iv'; b64e ct; b64e tag] = Ok rest /\ exists ek, tok = join 46 (seg tok 0 :: ek :: rest).
Proof.
  intros DR w keys cek iv kw a tok w' BC BI IA AL ZP H. destruct (rsa_alg a IA) as (KT & FA & NN & TR & sch & SCH).
  unfold jwe_encrypt in H. unfold dict_get in H at 1. rewrite AL in H. cbn [bind] in H.
  destruct (jws_keys P (as_jws w) keys) as [ks|]; [|discriminate]. cbn [bind] in H. destruct (pick_keys (as_jws w) ks _ _) as [[|k r]|]; try discriminate. cbn [bind] in H. rewrite FA in H. cbn [bind] in H. cbv zeta in H.
  change (if truthy (k_kid k) then dset (sub_dict w JWE_ARGS) (lit "kid") (k_kid k) else sub_dict w JWE_ARGS) with (named_dict k (sub_dict w JWE_ARGS)) in H.
  destruct (key_material P k (VStr a) true) as [mt|]; [|discriminate]. cbn [bind] in H.
  destruct (rsa_jwe_encrypt P R (named_dict k (sub_dict w JWE_ARGS)) (w_jwk w) (w_epk w) (w_msg w) mt cek iv) as [[tok' c]|] eqn:SE; [|discriminate].
  cbn [bind] in H. apply Ok_inj in H. apply pair_equal_spec in H. destruct H as [-> <-].
  apply (rsa_inv P R DR) with (alg := VStr a) in SE; [|exact BC|exact BI|rewrite named_get by ne; apply sub_dict_alg; [exact AL|reflexivity]|exact TR].
  destruct SE as (p & m & enc & iv' & ek & h & he & ct & tag & O & MT & ZZ & EN & G & HD & EK & PR).
  assert (DZ : dget (named_dict k (sub_dict w JWE_ARGS)) (lit "zip") = Some (VStr (lit "DEF"))) by (rewrite named_get, sub_dict_get by (ne || (repeat split; ne) || reflexivity); exact ZP).
  assert (DE : dget (w_dict w) (lit "enc") = Some enc) by (rewrite named_get, sub_dict_get in EN by (ne || (repeat split; ne) || reflexivity); exact EN).
  destruct ZZ as [[Z _]|[_ ->]]; [congruence|].
  pose proof (produced_first _ _ _ _ _ _ _ _ _ _ _ _ _ PR) as F. assert (E : seg tok 0 = he) by (unfold seg; destruct (split 46 tok); exact F). rewrite E.
  destruct (pd_segments _ _ _ _ _ _ _ _ _ _ _ _ _ PR) as (ts & T & J). change (mapM utf8_decode (b64e ek :: ?l)) with (x <- utf8_decode (b64e ek);; y <- mapM utf8_decode l;; Ok (x :: y)) in T.
  destruct (utf8_decode (b64e ek)) as [ek'|]; [|discriminate]. cbn [bind] in T. set (l := [b64e iv'; b64e ct; b64e tag]) in *. destruct (mapM utf8_decode l) as [rest|] eqn:ML; [|discriminate]. cbn [bind] in T. apply Ok_inj in T.
  exists p, enc, c, iv', ct, tag, rest. split; [exact MT|]. split; [exact DE|]. split; [apply (pd_content _ _ _ _ _ _ _ _ _ _ _ _ _ PR)|]. split; [exact ML|]. exists ek'. rewrite J, <- T. reflexivity.
Qed.

(** An unknown content encryption never encrypts anything. *)
Theorem unknown_enc : forall enc msg aad cek iv x, (forall e, enc = VStr e -> enc_sizes e = None) -> enc_setup P R enc msg aad cek iv <> Ok x.
Proof.
  intros enc msg aad cek iv x U H. unfold enc_setup in H. destruct (generate_key_and_iv R enc cek iv) as [[k v]|]; [|discriminate]. cbn [bind] in H.
  destruct (in_texts enc GCM_ENCS) eqn:G; [|destruct (in_texts enc CBC_ENCS) eqn:C; [|discriminate]].
  - apply in_texts_In in G. destruct G as (t & I & ->). specialize (U t eq_refl). repeat (destruct I as [<-|I]; [discriminate U|]). destruct I.
  - apply in_texts_In in C. destruct C as (t & I & ->). specialize (U t eq_refl). repeat (destruct I as [<-|I]; [discriminate U|]). destruct I.
Qed.

End Fails.

Section More.
Variables (P : prims) (R : draws).
Ltac step H x := match type of H with (bind ?e _) = _ => destruct e as [x|] eqn:?; [cbn [bind] in H|discriminate] end.

(** The content key found in the instance, e.g. that of an earlier RSA token, is used for key agreement with key wrapping. *)
Theorem ecdh_reuses_cek : forall w k a b cek ek iv params, dget (w_dict w) (lit "alg") = Some (VStr a) -> a <> lit "ECDH-ES" ->
  dget (w_dict w) (lit "cek") = Some (VBytes b) -> b <> [] -> ec_enc_setup P R w k = Ok (cek, ek, iv, params) -> cek = b.
Proof.
  intros w k a b cek ek iv params AL NE CO NB H. unfold ec_enc_setup in H. rewrite CO in H.
  step H apu. step H apv. match type of H with (bind ?x _) = _ => destruct x as [[[crv kx] ky]|]; [|discriminate] end. cbn [bind] in H. step H c. step H epk. step H ser. cbv zeta in H. step H enc. cbn [bind] in H.
  destruct (generate_key_and_iv R enc b []) as [[cek1 iv1]|] eqn:G; [|discriminate]. cbn [bind] in H.
  assert (cek1 = b).
  { unfold generate_key_and_iv in G. destruct b as [|b0 b]; [congruence|]. cbn [is_nil negb andb] in G. destruct enc as [| | | |e| | |]; try discriminate. destruct (dget ENCALGLEN1 e); [|destruct (dget ENCALGLEN2 e); [|discriminate]]; cbn [bind] in G; apply Ok_inj in G; apply pair_equal_spec in G; destruct G as [<- _]; reflexivity. }
  subst cek1. step H ed. rewrite (sub_dict_alg w SYM_ARGS (VStr a) AL eq_refl) in H. cbn [bind] in H. rewrite pval_eqb_str in H. apply zs_eqb_neq in NE. rewrite NE in H.
  destruct (dget ECDH_KW a) as [[post n]|]; [|discriminate]. step H kek. step H wk. apply Ok_inj in H. repeat (apply pair_equal_spec in H; let X := fresh in destruct H as [H X]; subst). reflexivity.
Qed.

(** Key agreement needs both party infos in the header (RFC 7518 has them optional). *)
Theorem ecdh_needs_party : forall j k cek, ec_dec_setup P j k = Ok cek ->
  forall n, n = lit "apu" \/ n = lit "apv" -> exists t u b, py_get (j_headers j) n = Ok (VStr t) /\ utf8_encode t = Ok u /\ b64d u = Ok b.
Proof.
  intros j k cek H n Hn. unfold ec_dec_setup in H. cbv zeta in H. do 3 (match type of H with (bind ?x _) = _ => destruct x; [cbn [bind] in H|discriminate] end). step H has. step H has2. destruct has2; [|discriminate]. cbn [negb] in H.
  step H e. step H epk. destruct (text_arg (j_headers j) (lit "apu")) as [apu|] eqn:TU; [|discriminate]. cbn [bind] in H. destruct (text_arg (j_headers j) (lit "apv")) as [apv|] eqn:TV; [|discriminate]. cbn [bind] in H. step H alg.
  match type of H with (bind ?z _) = _ => destruct z as [[[c x] y]|]; [|discriminate] end. cbn [bind] in H.
  assert (D : forall q m K, (d <- key_d k;; match c with Some c => derive P c d x y apu apv q m | None => Raise EAttributeError end) = Ok K -> apu <> None /\ apv <> None).
  { intros q m K X. step X d. destruct c as [c|]; [|discriminate]. unfold derive in X. step X dz. step X xz. step X yz. step X z. destruct apu, apv; try discriminate. split; discriminate. }
  assert (N : apu <> None /\ apv <> None).
  { destruct (pval_eqb alg (VStr (lit "ECDH-ES"))).
    - step H enc. destruct enc as [| | | |q| | |]; try discriminate. destruct (dget KEYLEN q); [|discriminate]. exact (D _ _ _ H).
    - destruct alg as [| | | |q| | |]; try discriminate. destruct (dget ECDH_KW q) as [[post m]|]; [|discriminate].
      match type of H with (bind ?e _) = _ => destruct e as [K|] eqn:DD; [|discriminate] end. exact (D _ _ _ DD). }
  assert (T : forall m r, text_arg (j_headers j) m = Ok r -> r <> None -> exists t u b, py_get (j_headers j) m = Ok (VStr t) /\ utf8_encode t = Ok u /\ b64d u = Ok b).
  { intros m r X Y. unfold text_arg in X. step X b. destruct b; [|apply Ok_inj in X; congruence]. step X v. destruct v as [| | | |t| | |]; try discriminate. step X u. step X z. exists t, u, z. repeat split; assumption. }
  destruct Hn as [-> | ->]; [exact (T _ _ TU (proj1 N))|exact (T _ _ TV (proj2 N))].
Qed.

(** RSAEncrypter, with and without the digest that makes a bad padding detectable. *)
Theorem rsa_encrypter_roundtrip : hash_law P -> forall digest s k k' rnd msg sentinel ct, for_key k k' -> rsa_enc_law P k' -> bytes_ok msg = true ->
  rsa_encrypt P digest s k rnd msg = Ok ct -> (s = RSA15 -> digest = false -> sentinel <> msg) -> rsa_decrypt P digest s k' sentinel ct = Ok msg.
Proof.
  intros HL digest s k k' rnd msg sentinel ct FK RL B E SN. unfold rsa_decrypt, rsa_encrypt in *.
  assert (G : forall x, bytes_ok x = true -> p_rsa_encrypt P s k rnd x = Ok ct -> p_rsa_decrypt P s k' ct = Ok (Some x)).
  { intros x BX X. apply (RL s rnd x ct BX). destruct FK as [-> | ->]; [left|right]; exact X. }
  destruct s; [|rewrite (G msg B E); reflexivity|rewrite (G msg B E); reflexivity].
  destruct digest.
  - destruct (HL SHA1 msg B) as [L BH]. change (hlen SHA1) with 20%nat in L. assert (BX : bytes_ok (msg ++ p_hash P SHA1 msg) = true) by (rewrite bytes_ok_app, B, BH; reflexivity).
    rewrite (G _ BX E). cbn [bind]. rewrite app_length, L. replace (length msg + 20 - 20)%nat with (length msg) by lia. rewrite firstn_app, Nat.sub_diag, firstn_all, skipn_app, skipn_all, Nat.sub_diag. cbn [firstn skipn]. rewrite app_nil_r. cbn [app].
    rewrite zs_eqb_refl. reflexivity.
  - rewrite (G _ B E). cbn [bind]. specialize (SN eq_refl eq_refl). destruct (zs_eqb msg sentinel) eqn:Z; [apply zs_eqb_eq in Z; congruence|reflexivity].
Qed.

(** A bad padding never becomes a content key. *)
Theorem rsa_bad_padding : forall k sentinel ct, p_rsa_decrypt P RSA15 k ct = Ok None -> rsa_decrypt P false RSA15 k sentinel ct = Raise EDecryptionFailed.
Proof. intros k sentinel ct H. unfold rsa_decrypt. rewrite H. cbn [bind]. rewrite zs_eqb_refl. reflexivity. Qed.
End More.

(** ** Recognition *)
Theorem is_jwe_spec : forall h b p, is_jwe {| j_headers := VDict h; j_b64 := b; j_part := p |} = Ok true <->
  (exists t, dget h (lit "typ") = Some (VStr t) /\ lower t = lit "jwe") \/
  ((dget h (lit "typ") = None \/ (exists t, dget h (lit "typ") = Some (VStr t)) \/ exists t, dget h (lit "typ") = Some (VBytes t)) /\
   exists a e, dget h (lit "alg") = Some (VStr a) /\ dget h (lit "enc") = Some (VStr e) /\ In a SUPPORTED_ALG /\ In e SUPPORTED_ENC).
Proof.
  intros h b p. unfold is_jwe. cbn [j_headers py_in bind].
  assert (X : forall v, dget h (lit "alg") = v -> forall u, dget h (lit "enc") = u ->
    ((a <- Ok (dmem h (lit "alg"));; e <- (if a then Ok (dmem h (lit "enc")) else Ok false);;
      if negb e then Ok false
      else v <- py_get (VDict h) (lit "alg");; if negb (in_texts v SUPPORTED_ALG) then Ok false else v <- py_get (VDict h) (lit "enc");; Ok (in_texts v SUPPORTED_ENC)) = Ok true <->
     exists a e, v = Some (VStr a) /\ u = Some (VStr e) /\ In a SUPPORTED_ALG /\ In e SUPPORTED_ENC)).
  { intros v Hv u Hu. unfold dmem. cbn [py_get]. rewrite Hv, Hu. destruct v as [v|]; cbn [bind negb]; [|split; [discriminate|intros (a & e & A & _); discriminate]].
    destruct u as [u|]; cbn [bind negb]; [|split; [discriminate|intros (a & e & _ & A & _); discriminate]]. destruct (in_texts v SUPPORTED_ALG) eqn:V; cbn [negb].
    - apply in_texts_In in V. destruct V as (a & IA & ->). split.
      + intro H. apply Ok_inj in H. apply in_texts_In in H. destruct H as (e & IE & ->). exists a, e. repeat split; assumption.
      + intros (a' & e & E1 & E2 & _ & IE). injection E2 as ->. f_equal. apply in_texts_In. exists e. split; [exact IE|reflexivity].
    - split; [discriminate|]. intros (a & e & E1 & _ & IA & _). injection E1 as ->. rewrite (proj2 (in_texts_In _ _) (ex_intro _ a (conj IA eq_refl))) in V. discriminate. }
  specialize (X _ eq_refl _ eq_refl). unfold dmem at 1. cbn [py_get]. destruct (dget h (lit "typ")) as [t|] eqn:T.
  - cbn [bind]. destruct t as [| | | |t|t| |]; cbn [py_lower bind]; try (split; [discriminate|intros [(x & E & _)|([E|[(x & E)|(x & E)]] & _)]; discriminate]).
    + rewrite pval_eqb_str. destruct (zs_eqb (lower t) (lit "jwe")) eqn:Z.
      * apply zs_eqb_eq in Z. split; [intros _; left; exists t; split; [reflexivity|exact Z]|reflexivity].
      * rewrite X. split; [intro Y; right; split; [right; left; exists t; reflexivity|exact Y]|]. intros [(x & E & L)|[_ Y]]; [|exact Y]. injection E as ->. rewrite L, zs_eqb_refl in Z. discriminate.
    + cbn [pval_eqb]. rewrite X. split; [intro Y; right; split; [right; right; exists t; reflexivity|exact Y]|]. intros [(x & E & L)|[_ Y]]; [discriminate|exact Y].
  - cbn [bind]. rewrite X. split; [intro Y; right; split; [left; reflexivity|exact Y]|]. intros [(x & E & L)|[_ Y]]; [discriminate|exact Y].
Qed.
