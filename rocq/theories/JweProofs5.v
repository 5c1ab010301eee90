(** * JWE with RSA: what is encrypted decrypts *)
From Coq Require Import ZArith List Bool Lia.
From Verif Require Import Base BaseProofs Utf8 Codec CodecProofs Json JsonProofs Jwt JwtProofs Prims Elliptic Ecc KeyWrap KeyWrapProofs Extra ExtraProofs Gcm PvalEq Jwk JwkProofs JwkProofs2 Jws JwsProofs JwsProofs2 JwsProofs3 JwsProofs4 JwsProofs6 Jwe JweProofs JweProofs2 JweProofs3 JweProofs4.
Import ListNotations.
Open Scope Z_scope.

(** The public or the whole key was used for encryption. *)
Definition for_key (r r' : rsakey) : Prop := r = r' \/ r = rsa_pub r'.

Section Rsa.
Variables (P : prims) (R : draws).
Hypotheses (AES : aes_law P) (HM : hmac_law P) (DR : draws_ok R) (ZIP : zip_law P).

Lemma rsa_unwrap : forall s r r' c ek sentinel, for_key r r' -> rsa_enc_law P r' -> bytes_ok c = true -> rsa_encrypt P false s r (r_pad R) c = Ok ek -> (s = RSA15 -> sentinel <> c) ->
  bytes_ok ek = true /\ rsa_decrypt P false s r' sentinel ek = Ok c.
Proof.
  intros s r r' c ek sentinel F L B E N.
  assert (X : p_rsa_encrypt P s r (r_pad R) c = Ok ek) by (destruct s; exact E).
  destruct (L s (r_pad R) c ek B) as [L1 L2]; [destruct F as [-> | ->]; [left|right]; exact X|]. split; [exact L1|]. unfold rsa_decrypt. rewrite L2. cbn [bind].
  destruct s; try reflexivity. cbv zeta. destruct (zs_eqb c sentinel) eqn:Z; [apply zs_eqb_eq in Z; exfalso; apply (N eq_refl); congruence|reflexivity].
Qed.

Theorem jwe_rsa_roundtrip : forall w a keys k kid cek iv kw tok w', In a RSA_ALGS -> dget (w_dict w) (lit "alg") = Some (VStr a) ->
  json_args w JWE_ARGS -> jsonable (k_kid k) = true -> (forall kj s, w_jwk w = Some kj -> serialize kj false = Ok s -> jsonable s = true) ->
  kid_in_force (as_jws w) = Ok kid -> first_fit (suitable (lit "RSA") kid (VStr (lit "enc")) (VStr a)) keys k ->
  forall r nums r', k_data k = DRsa (ORsa r) nums -> for_key r r' -> rsa_enc_law P r' -> bytes_ok cek = true -> bytes_ok iv = true -> (forall b, w_msg w = VBytes b -> bytes_ok b = true) ->
  jwe_encrypt P R w (Some keys) cek iv kw = Ok (tok, w') ->
  exists p c, msg_octets (w_msg w) = Ok p /\ w' = w_set w (lit "cek") (VBytes c) /\ (cek <> [] -> c = cek) /\
  forall sent v keys' k' kid' alg token, kid_in_force (as_jws v) = Ok kid' -> first_fit (suitable (lit "RSA") kid' (VStr (lit "enc")) (VStr a)) keys' k' ->
    alg = VNone \/ alg = VStr a -> token = VStr tok \/ token = VBytes tok ->
    jwe_decrypt P sent v token (Some keys') alg c = Ok (p, w_set v (lit "cek") (VBytes c)) /\
    (forall nums', cek = [] -> k_data k' = DRsa (ORsa r') nums' -> (a = lit "RSA1_5" -> sent 1%nat <> c) ->
      jwe_decrypt P sent v token (Some keys') alg [] = Ok (p, w_set v (lit "cek") (VBytes c))).
Proof.
  intros w a keys k kid cek iv kw tok w' IA AL JA JK JJ KI FF rk nums r' KD FK RL BC BI BM H.
  destruct (rsa_alg a IA) as (KT & FA & NN & TR & sch & SCH).
  unfold jwe_encrypt in H. unfold dict_get in H at 1. rewrite AL in H. cbn [bind] in H.
  destruct (pick_first P w keys (VStr (lit "enc")) (VStr []) (VStr a) (lit "RSA") kid k AL NN KT KI FF) as [JKY (r & PK)].
  rewrite JKY in H. cbn [bind] in H. rewrite PK in H. cbn [bind] in H. rewrite FA in H. cbn [bind] in H. cbv zeta in H.
  change (if truthy (k_kid k) then dset (sub_dict w JWE_ARGS) (lit "kid") (k_kid k) else sub_dict w JWE_ARGS) with (named_dict k (sub_dict w JWE_ARGS)) in H.
  unfold key_material, rsa_encryption_key in H. rewrite KD in H. cbn [otruthy bind] in H.
  destruct (rsa_jwe_encrypt P R (named_dict k (sub_dict w JWE_ARGS)) (w_jwk w) (w_epk w) (w_msg w) (MObj (ORsa rk)) cek iv) as [[tok' c]|] eqn:SE; [|discriminate].
  cbn [bind] in H. apply Ok_inj in H. apply pair_equal_spec in H. destruct H as [-> <-].
  apply (rsa_inv P R DR) with (alg := VStr a) in SE; [|exact BC|exact BI|rewrite named_get by ne; apply sub_dict_alg; [exact AL|reflexivity]|exact TR].
  destruct SE as (p & m & enc & iv' & ek & h & he & ct & tag & O & MT & ZZ & EN & G & HD & EK & PR).
  destruct (generate_ok R DR _ _ _ _ _ BC BI G) as (G1 & G2 & G3 & G4 & G5 & _ & G7).
  exists p, c. split; [exact MT|]. split; [reflexivity|]. split; [exact G5|].
  assert (BP : bytes_ok p = true).
  { exact (msg_octets_ok _ _ MT BM). }
  assert (BZ : bytes_ok m = true) by (destruct ZZ as [[_ ->]|[_ ->]]; [exact BP|apply (ZIP p BP)]).
  assert (JD : jsonable (VDict (named_dict k (sub_dict w JWE_ARGS))) = true) by (apply named_json; [apply sub_dict_json; [right; reflexivity|exact JA]|exact JK]).
  assert (HH : exists jser, h = headers_loop (named_dict k (sub_dict w JWE_ARGS)) jser JWE_ARGS /\ forall s, jser = Some s -> jsonable s = true).
  { unfold headers in HD. destruct (w_jwk w) as [kj|] eqn:WJ.
    - destruct (serialize kj false) as [s|] eqn:SJ; [|discriminate]. cbn [bind] in HD. exists (Some s). split; [destruct (dget _ (lit "kid")) as [[]|] in HD; try discriminate; symmetry; exact (Ok_inj _ _ _ HD)|].
      intros s' X. injection X as <-. exact (JJ kj s eq_refl SJ).
    - destruct (dmem _ (lit "jwk")) in HD; [discriminate|]. cbn [bind] in HD. exists None. split; [destruct (dget _ (lit "kid")) as [[]|] in HD; try discriminate; symmetry; exact (Ok_inj _ _ _ HD)|discriminate]. }
  destruct HH as (jser & HH & JS).
  assert (JH : jsonable (VDict h) = true).
  { rewrite HH. apply headers_json; [reflexivity|intros n I; apply args_scalars; right; exact I|intros n v I DN; exact (jsonable_get _ _ _ JD DN)|exact JS]. }
  assert (HZ : dget h (lit "zip") = dget (named_dict k (sub_dict w JWE_ARGS)) (lit "zip")).
  { rewrite HH, headers_get by ne. change (existsb (zs_eqb (lit "zip")) JWE_ARGS) with true. destruct ZZ as [[-> _]|[-> _]]; reflexivity. }
  assert (BE : bytes_ok ek = true).
  { destruct EK as [[_ ->]|[_ (s & k0 & E2 & E3 & E4)]]; [reflexivity|]. cbn [as_rsa] in E3. apply Ok_inj in E3. subst k0.
    apply (rsa_unwrap s rk r' c ek (c ++ [0]) FK RL G3 E4). intros _ Y. apply (f_equal (@length Z)) in Y. rewrite app_length in Y. cbn in Y. lia. }
  destruct (produced_opens P R AES HM _ _ _ _ _ _ _ _ _ _ _ PR JH G1 G2 G3 G4 BZ BE) as (t & -> & CD & SU & UN).
  assert (UZ : (z <- py_in (lit "zip") (VDict h);; m <- (if z then v <- py_get (VDict h) (lit "zip");; if pval_eqb v (VStr (lit "DEF")) then p_decompress P m else Ok m else Ok m);; Ok (m, c)) = Ok (p, c)).
  { unfold py_in, py_get, dmem. rewrite HZ. destruct ZZ as [[-> ->]|[-> ->]]; [reflexivity|]. cbn [bind]. change (pval_eqb (VStr (lit "DEF")) (VStr (lit "DEF"))) with true. cbv iota. rewrite (proj2 (ZIP p BP)). reflexivity. }
  assert (KNOWN : forall mo sentinel, rsa_jwe_decrypt P sentinel (five h t ek iv' ct tag) mo c = Ok (p, c)).
  { intros mo sentinel. unfold rsa_jwe_decrypt. cbn [five part j_part map nth_error bind j_headers b64part j_b64]. unfold py_get at 1. rewrite (pd_alg _ _ _ _ _ _ _ _ _ _ _ _ _ PR). cbn [bind].
    destruct c as [|c0 c]; [congruence|]. cbn [is_nil negb bind]. unfold py_get at 1. rewrite (pd_enc _ _ _ _ _ _ _ _ _ _ _ _ _ PR). cbn [bind]. rewrite SU, CD. cbn [bind]. exact UZ. }
  intros sent v keys' k' kid' alg token KI' FF' AG TK. destruct (UN token TK) as [TT UT].
  destruct (pick_first P v keys' (VStr (lit "enc")) (VStr a) (VStr a) (lit "RSA") kid' k') as [JKY' (q & PK')]; [unfold alg_or; rewrite TR; reflexivity|exact NN|exact KT|exact KI'|exact FF'|].
  assert (GO : forall cc, jwe_decrypt P sent v token (Some keys') alg cc = (' (m, c) <- cek_first cc (rsa_jwe_decrypt P (sent 0%nat) (five h t ek iv' ct tag) None cc)
                        (dec_loop P (VStr a) (fun i k => rsa_jwe_decrypt P (sent i) (five h t ek iv' ct tag) (Some k) []) (k' :: q) 1);; Ok (m, w_set v (lit "cek") (VBytes c)))).
  { intro cc. unfold jwe_decrypt. rewrite TT, UT. cbn [bind].
    cbn [five j_headers py_get]. rewrite (pd_alg _ _ _ _ _ _ _ _ _ _ _ _ _ PR). cbn [bind].
    replace (truthy alg && negb (pval_eqb alg (VStr a))) with false by (destruct AG as [-> | ->]; [reflexivity|rewrite pval_eqb_refl, andb_false_r; reflexivity]).
    rewrite JKY'. cbn [bind]. rewrite PK'. cbn [bind is_nil andb]. rewrite FA. reflexivity. }
  split.
  - rewrite GO. unfold cek_first. replace (is_nil c) with false by (destruct c; [congruence|reflexivity]). rewrite KNOWN. reflexivity.
  - intros nums' CN KD' NS. rewrite GO. unfold cek_first. cbn [is_nil dec_loop]. unfold key_material, rsa_encryption_key. rewrite KD'. cbn [otruthy bind].
    destruct EK as [[X _]|[_ (s & k0 & E2 & E3 & E4)]]; [congruence|]. cbn [as_rsa] in E3. apply Ok_inj in E3. subst k0.
    destruct (rsa_unwrap s rk r' c ek (sent 1%nat) FK RL G3 E4) as [_ RD].
    { intros ->. apply NS. unfold RSA_ALGS in IA. cbn [In] in IA. destruct IA as [<-|[<-|[<-|[]]]]; [discriminate E2|discriminate E2|reflexivity]. }
    assert (DD : rsa_jwe_decrypt P (sent 1%nat) (five h t ek iv' ct tag) (Some (MObj (ORsa r'))) [] = Ok (p, c)).
    { unfold rsa_jwe_decrypt. cbn [five part j_part map nth_error bind j_headers b64part j_b64 is_nil negb]. unfold py_get at 1. rewrite (pd_alg _ _ _ _ _ _ _ _ _ _ _ _ _ PR). cbn [bind]. rewrite E2. cbn [as_rsa bind]. rewrite RD. cbn [bind].
      unfold py_get at 1. rewrite (pd_enc _ _ _ _ _ _ _ _ _ _ _ _ _ PR). cbn [bind]. rewrite SU, CD. cbn [bind]. exact UZ. }
    rewrite DD. reflexivity.
Qed.
End Rsa.
