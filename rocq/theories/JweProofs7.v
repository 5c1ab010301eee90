(** * JWE with ECDH-ES: what is encrypted decrypts *)
From Coq Require Import ZArith List Bool Lia ZifyBool.
From Verif Require Import Base BaseProofs Utf8 Codec CodecProofs Json JsonProofs Jwt JwtProofs Prims Elliptic Ecc EccProofs EcAux KeyWrap KeyWrapProofs Extra ExtraProofs Gcm PvalEq Jwk JwkProofs JwkProofs2 Jws JwsProofs JwsProofs2 JwsProofs3 JwsProofs4 JwsProofs6 Jwe JweProofs JweProofs2 JweProofs3 JweProofs4 JweProofs6.
Import ListNotations.
Open Scope Z_scope.

Lemma dset_in_nodup : forall d n (v : pval), jsonable (VDict d) = true -> jsonable v = true -> scalars n = true -> jsonable (VDict (dset d n v)) = true.
Proof. intros. apply jsonable_dset; assumption. Qed.

Section Ec.
Variables (P : prims) (R : draws).
Hypotheses (AES : aes_law P) (HM : hmac_law P) (HL : hash_law P) (DR : draws_ok R).

Definition ec_header (d : dict) (u v e : pval) : dict := dset (dset (dset d (lit "apu") u) (lit "apv") v) (lit "epk") e.

Lemma ec_inv : forall d objs msg cek ek ekb iv u v e kid tok alg, cek <> [] -> iv <> [] -> octets_ek ek ekb ->
  ec_encrypt P R d objs msg cek ek iv [(lit "apu", u); (lit "apv", v); (lit "epk", e)] kid = Ok tok -> dget d (lit "alg") = Some alg -> truthy alg = true ->
  exists m enc he ct tag, objs = false /\ msg_octets msg = Ok m /\ dget d (lit "enc") = Some enc /\
    produced P R alg enc m (ec_header (kid_dict kid d) u v e) he ekb iv ct tag cek tok.
Proof.
  intros d objs msg cek ek ekb iv u v e kid tok alg NC NI OE H A T. unfold ec_encrypt in H. cbv zeta in H.
  change (dupd match kid with Some v0 => dset d (lit "kid") v0 | None => d end [(lit "apu", u); (lit "apv", v); (lit "epk", e)]) with (ec_header (kid_dict kid d) u v e) in H.
  assert (GET : forall n, n <> lit "apu" -> n <> lit "apv" -> n <> lit "epk" -> n <> lit "kid" -> dget (ec_header (kid_dict kid d) u v e) n = dget d n).
  { intros n N1 N2 N3 N4. unfold ec_header. rewrite !dget_dset_other by (apply not_eq_sym; assumption). apply kid_get. exact N4. }
  destruct (msg_bytes msg) as [mv|] eqn:MB; [|discriminate]. cbn [bind] in H.
  destruct (jwenc (ec_header (kid_dict kid d) u v e) objs) as [j|] eqn:J; [|discriminate]. cbn [bind] in H.
  assert (HA : dget (ec_header (kid_dict kid d) u v e) (lit "alg") = Some alg) by (rewrite GET by ne; exact A).
  destruct (jwenc_inv _ _ _ J) as [O JH]; [rewrite HA; exact T|]. rewrite JH in H.
  destruct (b64encode_item (VDict (ec_header (kid_dict kid d) u v e))) as [he|] eqn:HE; [|discriminate]. cbn [bind] in H.
  unfold dict_get in H. rewrite GET in H by ne. destruct (dget d (lit "enc")) as [enc|] eqn:E; [|discriminate]. cbn [bind] in H.
  destruct (enc_setup_any P R enc mv he cek iv) as [[[ct tag] k]|] eqn:SA; [|discriminate]. cbn [bind] in H.
  destruct (any_inv _ _ _ _ _ _ _ _ SA) as (m & MM & S). pose proof (msg_bytes_octets _ _ _ MB MM) as MO.
  destruct (enc_setup_key _ _ _ _ _ _ _ _ _ _ S NC NI) as [-> SE].
  destruct (pack j _ VNone) as [[tok' j']|] eqn:PK; [|discriminate]. cbn [bind] in H. apply Ok_inj in H. subst tok'.
  destruct (pack_five j _ ek ekb iv ct tag tok j' JH) as (he' & HE' & SG); [intro X; rewrite X in HA; discriminate|exact OE|exact PK|].
  rewrite HE in HE'. apply Ok_inj in HE'. subst he'.
  exists m, enc, he, ct, tag. do 3 (split; [first [assumption|reflexivity]|]). constructor; try assumption. rewrite GET by ne. exact E.
Qed.

Lemma keylen : forall e n, dget KEYLEN e = Some n -> 0 < n <= 512 /\ bytes_ok e = true /\ utf8_encode e = Ok e.
Proof.
  intros e n H. unfold KEYLEN in H. cbn [dget] in H.
  repeat match type of H with (if zs_eqb ?a e then _ else _) = _ => let E := fresh in destruct (zs_eqb a e) eqn:E; [apply zs_eqb_eq in E; subst e; injection H as <-; split; [lia|]; split; reflexivity|] end. discriminate.
Qed.
Lemma ecdh_kw : forall a post n, dget ECDH_KW a = Some (post, n) -> (n = 128 \/ n = 192 \/ n = 256) /\ bytes_ok post = true.
Proof.
  intros e post n H. unfold ECDH_KW in H. cbn [dget] in H.
  repeat match type of H with (if zs_eqb ?a e then _ else _) = _ => let E := fresh in destruct (zs_eqb a e) eqn:E; [apply zs_eqb_eq in E; subst e; injection H as <- <-; split; [lia|reflexivity]|] end. discriminate.
Qed.

Theorem jwe_ec_roundtrip : forall name c, by_name name = Ok c -> forall w a keys k kid cek iv kw tok w' o crv kx ky d cv dz, In a EC_ALGS -> dget (w_dict w) (lit "alg") = Some (VStr a) ->
  json_args w SYM_ARGS -> jsonable (k_kid k) = true -> (forall v, kw = Some v -> jsonable v = true) ->
  kid_in_force (as_jws w) = Ok kid -> first_fit (suitable (lit "EC") kid (VStr (lit "enc")) (VStr a)) keys k ->
  k_data k = DEc o crv (VInt kx) (VInt ky) d cv -> curve_by_name crv = Ok c -> 0 < dz < c_N c -> public_key_for c dz = Some (kx, ky) -> epk_for c w ->
  (forall b, dget (w_dict w) (lit "cek") = Some (VBytes b) -> bytes_ok b = true /\ wrappable b) -> (forall b, w_msg w = VBytes b -> bytes_ok b = true) ->
  jwe_encrypt P R w (Some keys) cek iv kw = Ok (tok, w') ->
  exists p, msg_octets (w_msg w) = Ok p /\
  forall sent v keys' k' kid' alg token cek' o' crv' x' y' cv', kid_in_force (as_jws v) = Ok kid' -> first_fit (suitable (lit "EC") kid' (VStr (lit "enc")) (VStr a)) keys' k' ->
    k_data k' = DEc o' crv' x' y' (VInt dz) cv' -> alg = VNone \/ alg = VStr a -> token = VStr tok \/ token = VBytes tok ->
    jwe_decrypt P sent v token (Some keys') alg cek' = Ok (p, w_set v (lit "cek") VNone).
Proof.
  intros name c BN w a keys k kid cek iv kw tok w' o crv kx ky d cv dz IA AL JA JK JKW KI FF KD CB DZ PB EF CO BM H.
  destruct (ec_alg a IA) as (KT & FA & NN & TR).
  unfold jwe_encrypt in H. unfold dict_get in H at 1. rewrite AL in H. cbn [bind] in H.
  destruct (pick_first P w keys (VStr (lit "enc")) (VStr []) (VStr a) (lit "EC") kid k AL NN KT KI FF) as [JKY (r & PK)].
  rewrite JKY in H. cbn [bind] in H. rewrite PK in H. cbn [bind] in H. rewrite FA in H. cbn [bind] in H. cbv zeta in H.
  change (if truthy (k_kid k) then dset (sub_dict w SYM_ARGS) (lit "kid") (k_kid k) else sub_dict w SYM_ARGS) with (named_dict k (sub_dict w SYM_ARGS)) in H.
  destruct (ec_enc_setup P R w k) as [[[[ck ek] iv'] params]|] eqn:ES; [|discriminate]. cbn [bind] in H.
  destruct (key_material P k (VStr a) true) as [mt|] eqn:KM; [|discriminate]. cbn [bind] in H.
  set (ob := match w_jwk w with Some _ => true | None => false end) in H.
  destruct (ec_encrypt P R (named_dict k (sub_dict w SYM_ARGS)) ob (w_msg w) ck ek iv' params kw) as [tok'|] eqn:SE; [|discriminate]. cbn [bind] in H. apply Ok_inj in H. apply pair_equal_spec in H. destruct H as [-> _].
  apply (ec_setup_inv P R DR name c BN w k a o crv (VInt kx) (VInt ky) d cv) in ES; [|exact KD|exact CB|exact EF|intros b X; apply (CO b X)|exact AL].
  destruct ES as (apu & apv & ed & ex & ey & b & enc & ekb & BU & BV & -> & HED & PED & JB & CRV & RD & EN & NI & BI & OE & AG & KWC).
  (* the key agreement, seen from the receiver *)
  set (mine := derive P c (VInt ed) (VInt kx) (VInt ky) (Some apu) (Some apv)) in *.
  set (theirs := derive P c (VInt dz) (VInt ex) (VInt ey) (Some apu) (Some apv)).
  assert (BOTH : forall x n K, bytes_ok x = true -> 0 < n <= 512 -> mine x n = Ok K -> theirs x n = Ok K /\ bytes_ok K = true /\ length K = Z.to_nat ((n + 7) / 8)).
  { intros x n K BX HN E. apply (derive_both P HL name c BN ed dz ex ey kx ky apu apv x n K HED DZ PED PB BU BV BX ltac:(lia) E). }
  assert (CEK : ck <> [] /\ bytes_ok ck = true /\ bytes_ok ekb = true /\
     ((a = lit "ECDH-ES" /\ exists e n, enc = VStr e /\ dget KEYLEN e = Some n /\ theirs e n = Ok ck) \/
      (a <> lit "ECDH-ES" /\ exists post n kek, dget ECDH_KW a = Some (post, n) /\ theirs post n = Ok kek /\ aes_unwrap_key P kek ekb = Ok ck))).
  { destruct AG as [(A1 & -> & e & n & A2 & A3 & A4)|(A1 & post & n & kek & A2 & A3 & A4)].
    - destruct (keylen e n A3) as (L1 & L2 & _). destruct (BOTH e n ck L2 L1 A4) as (T1 & T2 & T3).
      split; [intros ->; cbn [length] in T3; lia|]. split; [exact T2|]. split; [reflexivity|]. left. split; [exact A1|]. exists e, n. repeat split; assumption.
    - destruct (ecdh_kw a post n A2) as (L1 & L2). destruct (BOTH post n kek L2 ltac:(lia) A3) as (T1 & T2 & T3).
      destruct (KWC A1) as (C1 & C2 & C3). assert (W : wrappable ck).
      { destruct C3 as [(x & X1 & X2 & ->)|(e & kl & il & _ & S & ->)]; [apply (CO x X1)|exact (generated_wrappable R DR _ _ _ S)]. }
      assert (KS : aes_keysize kek = true) by (unfold aes_keysize; rewrite T3; destruct L1 as [-> |[-> | ->]]; reflexivity).
      destruct W as [W1 W2]. destruct (wrap_unwrap P kek AES KS T2 ck C2 W1 W2) as (wk & WK & BW & _ & UW). rewrite WK in A4. apply Ok_inj in A4. subst wk.
      split; [exact C1|]. split; [exact C2|]. split; [exact BW|]. right. split; [exact A1|]. exists post, n, kek. repeat split; assumption. }
  destruct CEK as (NC & BC & BE & AGR).
  apply (ec_inv (named_dict k (sub_dict w SYM_ARGS)) ob (w_msg w) ck ek ekb iv' _ _ _ kw tok (VStr a) NC NI OE) in SE; [|rewrite named_get by ne; apply sub_dict_alg; [exact AL|reflexivity]|exact TR].
  destruct SE as (p & enc' & he & ct & tag & O & MO & EN' & PR). rewrite named_get, sub_dict_get in EN' by (ne || (repeat split; ne) || reflexivity). rewrite EN in EN'. injection EN' as <-.
  exists p. split; [exact MO|].
  assert (BP : bytes_ok p = true).
  { exact (msg_octets_ok _ _ MO BM). }
  set (d0 := kid_dict kw (named_dict k (sub_dict w SYM_ARGS))) in *.
  assert (JD : jsonable (VDict d0) = true) by (apply kid_json; [apply named_json; [apply sub_dict_json; [left; reflexivity|exact JA]|exact JK]|exact JKW]).
  assert (AU : ascii (b64e apu) = true) by (apply b64e_ascii; exact BU). assert (AV : ascii (b64e apv) = true) by (apply b64e_ascii; exact BV).
  set (h := ec_header d0 (VStr (b64e apu)) (VStr (b64e apv)) (VDict b)).
  assert (C2 : b2s_conv (VDict (ec_header d0 (VBytes (b64e apu)) (VBytes (b64e apv)) (VDict b))) = Ok (VDict h)).
  { unfold h, ec_header. apply b2s_dset; [apply b2s_dset; [apply b2s_dset; [apply b2s_id; exact JD|]|]|apply b2s_id; exact JB]; cbn [b2s_conv]; rewrite utf8_decode_ascii by assumption; reflexivity. }
  assert (JH : jsonable (VDict h) = true).
  { unfold h, ec_header. apply jsonable_dset; [apply jsonable_dset; [apply jsonable_dset; [exact JD|reflexivity|]|reflexivity|]|reflexivity|exact JB]; apply scalars_ascii; assumption. }
  assert (GET : forall u v e n, n <> lit "apu" -> n <> lit "apv" -> n <> lit "epk" -> dget (ec_header d0 u v e) n = dget d0 n).
  { intros u v e n N1 N2 N3. unfold ec_header. rewrite !dget_dset_other by (apply not_eq_sym; assumption). reflexivity. }
  assert (HA : dget h (lit "alg") = Some (VStr a)) by (unfold h; rewrite GET by ne; rewrite <- (pd_alg _ _ _ _ _ _ _ _ _ _ _ _ _ PR); symmetry; apply GET; ne).
  assert (HEN : dget h (lit "enc") = Some enc) by (unfold h; rewrite GET by ne; rewrite <- (pd_enc _ _ _ _ _ _ _ _ _ _ _ _ _ PR); symmetry; apply GET; ne).
  assert (HU : dget h (lit "apu") = Some (VStr (b64e apu))) by (unfold h, ec_header; rewrite !dget_dset_other by ne; apply dget_dset_same).
  assert (HV : dget h (lit "apv") = Some (VStr (b64e apv))) by (unfold h, ec_header; rewrite dget_dset_other by ne; apply dget_dset_same).
  assert (HEP : dget h (lit "epk") = Some (VDict b)) by (unfold h, ec_header; apply dget_dset_same).
  destruct (header_ascii _ _ (pd_header _ _ _ _ _ _ _ _ _ _ _ _ _ PR)) as (_ & _ & BH).
  pose proof (pd_content _ _ _ _ _ _ _ _ _ _ _ _ _ PR) as CT. destruct (content_inverse P AES R enc p he ck iv' ct tag ck NC NI BC BI BP BH CT) as [_ CD].
  destruct (content_ok P AES HM R enc p he ck iv' ct tag ck NC NI BC BI BP BH CT) as [B1 B2].
  destruct (produced_token _ _ _ _ _ _ _ _ _ _ _ _ _ h PR) as (t & -> & UN); [cbn [forallb]; rewrite BE, BI, B1, B2; reflexivity|exact C2|exact JH|].
  intros sent v keys' k' kid' alg token cek' o' crv' x' y' cv' KI' FF' KD' AGL TK. destruct (UN token TK) as [TT UT]. unfold jwe_decrypt. rewrite TT, UT. cbn [bind].
  fold (five h t ekb iv' ct tag). cbn [five j_headers py_get]. rewrite HA. cbn [bind].
  replace (truthy alg && negb (pval_eqb alg (VStr a))) with false by (destruct AGL as [-> | ->]; [reflexivity|rewrite pval_eqb_refl, andb_false_r; reflexivity]).
  destruct (pick_first P v keys' (VStr (lit "enc")) (VStr a) (VStr a) (lit "EC") kid' k') as [JKY' (r' & PK')]; [unfold alg_or; rewrite TR; reflexivity|exact NN|exact KT|exact KI'|exact FF'|].
  rewrite JKY'. cbn [bind]. rewrite PK'. cbn [bind is_nil andb]. rewrite FA. cbn [bind].
  assert (DS : ec_dec_setup P (five h t ekb iv' ct tag) k' = Ok ck).
  { unfold ec_dec_setup. cbn [five part j_part map nth_error bind j_headers]. unfold py_in, py_get, dmem at 1. rewrite HEP. cbn [bind]. rewrite CRV. cbn [bind negb].
    destruct RD as (k2 & o2 & cv2 & dd2 & -> & D2). cbn [bind]. unfold text_arg, py_in, py_get, dmem. rewrite HU, HV. cbn [bind]. rewrite !utf8_encode_ascii by assumption. cbn [bind]. rewrite !b64d_b64e by assumption. cbn [bind].
    rewrite HA. cbn [bind]. rewrite D2. cbn [bind]. rewrite pval_eqb_str. unfold key_d. rewrite KD'. cbn [bind]. fold theirs.
    destruct AGR as [(A1 & e & n & -> & A3 & A4)|(A1 & post & n & kek & A2 & A3 & A4)].
    - rewrite A1, zs_eqb_refl, HEN. cbn [bind]. rewrite A3. exact A4.
    - apply zs_eqb_neq in A1. rewrite A1, A2, A3. cbn [bind]. exact A4. }
  rewrite DS. cbn [bind]. unfold cek_first. replace (is_nil ck) with false by (destruct ck; [congruence|reflexivity]).
  assert (DD : ec_decrypt P (five h t ekb iv' ct tag) ck = Ok p).
  { unfold ec_decrypt. replace (is_nil ck) with false by (destruct ck; [congruence|reflexivity]). cbn [five part j_part map nth_error bind j_headers b64part j_b64 py_get]. rewrite HEN. cbn [bind]. exact CD. }
  rewrite DD. reflexivity.
Qed.
End Ec.
