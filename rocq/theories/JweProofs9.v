(** * JWE: encryption succeeds, with RSA and with ECDH-ES *)
From Coq Require Import ZArith List Bool Lia ZifyBool.
From Verif Require Import Base BaseProofs Utf8 Codec CodecProofs Json JsonProofs Jwt JwtProofs Prims Elliptic Ecc EccProofs EcAux KeyWrap KeyWrapProofs Extra ExtraProofs Gcm PvalEq Jwk JwkProofs JwkProofs2 Jws JwsProofs JwsProofs2 JwsProofs3 JwsProofs4 JwsProofs6 Jwe JweProofs JweProofs2 JweProofs3 JweProofs4 JweProofs5 JweProofs6 JweProofs7.
Import ListNotations.
Open Scope Z_scope.

Section Total.
Variables (P : prims) (R : draws).
Hypotheses (AES : aes_law P) (HM : hmac_law P) (HL : hash_law P) (DR : draws_ok R) (ZIP : zip_law P).

(** The content of a message: compressed if asked for. *)
Definition zip_choice (w : jwe) (p m : bytes) : Prop :=
  (dget (w_dict w) (lit "zip") = None /\ m = p) \/ (dget (w_dict w) (lit "zip") = Some (VStr (lit "DEF")) /\ m = p_compress P p).
(** kid is a text, if there is one. *)
Definition kid_text (w : jwe) (k : jwk) : Prop :=
  (forall v, dget (w_dict w) (lit "kid") = Some v -> exists t, v = VStr t) /\ (truthy (k_kid k) = true -> exists t, k_kid k = VStr t).

Theorem rsa_encrypts : forall w a e kl il p m keys k kid cek iv kw r nums, In a RSA_ALGS -> dget (w_dict w) (lit "alg") = Some (VStr a) -> dget (w_dict w) (lit "enc") = Some (VStr e) ->
  enc_sizes e = Some (kl, il) -> w_jwk w = None -> dget (w_dict w) (lit "jwk") = None -> w_epk w = None -> msg_bytes (w_msg w) = Ok (VBytes p) -> bytes_ok p = true -> zip_choice w p m -> Z.of_nat (length m) <= 16 * 2 ^ 32 ->
  json_args w JWE_ARGS -> jsonable (k_kid k) = true -> kid_text w k -> header_small (headers_loop (named_dict k (sub_dict w JWE_ARGS)) None JWE_ARGS) ->
  kid_in_force (as_jws w) = Ok kid -> first_fit (suitable (lit "RSA") kid (VStr (lit "enc")) (VStr a)) keys k ->
  k_data k = DRsa (ORsa r) nums ->
  (forall s c, rsa_scheme (VStr a) = Some s -> length c = kl -> bytes_ok c = true -> exists ek, p_rsa_encrypt P s r (r_pad R) c = Ok ek /\ bytes_ok ek = true) ->
  sized cek kl -> sized iv il ->
  exists tok c, jwe_encrypt P R w (Some keys) cek iv kw = Ok (tok, w_set w (lit "cek") (VBytes c)).
Proof.
  intros w a e kl il p m keys k kid cek iv kw rk nums IA AL EN SZ NJ NJ2 NE MO BP ZC LM JA JK [KT1 KT2] HS KI FF KD RE CS IS.
  destruct (rsa_alg a IA) as (KT & FA & NN & TR & sch & SCH).
  unfold jwe_encrypt. unfold dict_get at 1. rewrite AL. cbn [bind].
  destruct (pick_first P w keys (VStr (lit "enc")) (VStr []) (VStr a) (lit "RSA") kid k AL NN KT KI FF) as [JKY (r & PK)].
  rewrite JKY. cbn [bind]. rewrite PK. cbn [bind]. rewrite FA. cbn [bind]. cbv zeta. rewrite NJ, NE.
  change (if truthy (k_kid k) then dset (sub_dict w JWE_ARGS) (lit "kid") (k_kid k) else sub_dict w JWE_ARGS) with (named_dict k (sub_dict w JWE_ARGS)).
  set (d := named_dict k (sub_dict w JWE_ARGS)) in *.
  assert (GET : forall n, plain_name n -> n <> lit "alg" -> n <> lit "kid" -> existsb (zs_eqb n) JWE_ARGS = true -> dget d n = dget (w_dict w) n) by (intros n N1 N2 N3 N4; unfold d; rewrite named_get by exact N3; apply sub_dict_get; assumption).
  assert (DA : dget d (lit "alg") = Some (VStr a)) by (unfold d; rewrite named_get by ne; apply sub_dict_alg; [exact AL|reflexivity]).
  assert (DE : dget d (lit "enc") = Some (VStr e)) by (rewrite GET by (ne || (repeat split; ne) || reflexivity); exact EN).
  assert (DZ : dget d (lit "zip") = dget (w_dict w) (lit "zip")) by (apply GET; (ne || (repeat split; ne) || reflexivity)).
  assert (DJ : dget d (lit "jwk") = None).
  { unfold d. rewrite named_get by ne. unfold sub_dict. rewrite NJ, NE. destruct (w_dict w) as [|x l] eqn:W; [reflexivity|]. rewrite <- W in *. cbn [app].
    rewrite take_kw_get by (ne || reflexivity). change (existsb (zs_eqb (lit "jwk")) JWE_ARGS) with true. rewrite NJ2. cbn [dget]. change (zs_eqb (lit "jwk") (lit "alg")) with false. reflexivity. }
  assert (JD : jsonable (VDict d) = true) by (apply named_json; [apply sub_dict_json; [right; reflexivity|exact JA]|exact JK]).
  unfold key_material, rsa_encryption_key. rewrite KD. cbn [otruthy bind]. unfold rsa_jwe_encrypt. rewrite MO. cbn [bind]. rewrite DZ.
  assert (BM : bytes_ok m = true) by (destruct ZC as [[_ ->]|[_ ->]]; [exact BP|apply (ZIP p BP)]).
  replace (match dget (w_dict w) (lit "zip") with None => Ok (VBytes p) | Some z => if pval_eqb z (VStr (lit "DEF")) then Ok (VBytes (p_compress P p)) else Raise EParameterError end) with (Ok (VBytes m)) by (destruct ZC as [[-> ->]|[-> ->]]; reflexivity).
  cbn [bind]. unfold dict_get. rewrite DE. cbn [bind].
  destruct (generate_sized R e kl il cek iv DR SZ CS IS) as (ck & vk & -> & L1 & L2 & B1 & B2). cbn [bind]. rewrite DA. cbn [bind]. rewrite SCH.
  assert (EK : exists ek ekb, (if negb (is_nil cek) then Ok (VStr []) else k0 <- as_rsa (MObj (ORsa rk));; c <- rsa_encrypt P false sch k0 (r_pad R) ck;; Ok (VBytes c)) = Ok ek /\ octets_ek ek ekb /\ bytes_ok ekb = true).
  { destruct cek as [|x cek]; cbn [is_nil negb].
    - cbn [as_rsa bind]. destruct (RE sch ck SCH L1 B1) as (ek & X & BX). exists (VBytes ek), ek. split; [|split; [left; reflexivity|exact BX]].
      assert (Y : rsa_encrypt P false sch rk (r_pad R) ck = Ok ek) by (destruct sch; exact X). rewrite Y. reflexivity.
    - exists (VStr []), []. repeat split. right. split; reflexivity. }
  destruct EK as (ek & ekb & -> & OE & BE). cbn [bind].
  assert (HD : headers d None JWE_ARGS = Ok (headers_loop d None JWE_ARGS)).
  { unfold headers, dmem. rewrite DJ. cbn [bind].
    assert (KX : forall v, dget d (lit "kid") = Some v -> exists t, v = VStr t).
    { intro v. unfold d, named_dict. destruct (truthy (k_kid k)) eqn:TK.
      - rewrite dget_dset_same. intro X. injection X as <-. exact (KT2 eq_refl).
      - rewrite sub_dict_get by (ne || (repeat split; ne) || reflexivity). apply KT1. }
    destruct (dget d (lit "kid")) as [v|]; [|reflexivity]. destruct (KX v eq_refl) as (t & ->). reflexivity. }
  rewrite HD. cbn [bind].
  assert (JH : jsonable (VDict (headers_loop d None JWE_ARGS)) = true).
  { apply headers_json; [reflexivity|intros n I; apply args_scalars; right; exact I|intros n v I DN; exact (jsonable_get _ _ _ JD DN)|discriminate]. }
  assert (HA : dget (headers_loop d None JWE_ARGS) (lit "alg") = Some (VStr a)) by (rewrite headers_get by ne; change (existsb (zs_eqb (lit "alg")) JWE_ARGS) with true; rewrite DA, TR; reflexivity).
  destruct (jwenc_ok _ _ JH HA TR) as (j & he & -> & JHD & HE & BH). cbn [bind]. rewrite JHD, HE. cbn [bind].
  destruct (content_total P AES R e kl il m he ck vk SZ L1 L2 B1 B2 BM BH LM) as (ct & tag & ES & _); [specialize (HS he HE); lia|].
  change (enc_setup_any P R (VStr e) (VBytes m) he ck vk) with (enc_setup P R (VStr e) m he ck vk). rewrite ES. cbn [bind]. destruct (sizes_pos _ _ _ SZ) as (K1 & K2 & K3). assert (NC : ck <> []) by (intros ->; cbn in L1; lia). assert (NI : vk <> []) by (intros ->; cbn in L2; lia).
  destruct (content_ok P AES HM R (VStr e) m he ck vk ct tag ck NC NI B1 B2 BM BH ES) as [B3 B4].
  destruct (pack_five_ok j _ ek ekb vk ct tag he JHD) as (tok & j' & ->); [intro X; rewrite X in HA; discriminate|exact OE|exact HE|cbn [forallb]; rewrite BE, B2, B3, B4; reflexivity|].
  cbn [bind]. exists tok, ck. reflexivity.
Qed.

(** *** ECDH-ES *)
Lemma derive_ok : forall name c, by_name name = Ok c -> forall a b bx by' apu apv alg n, 0 < a < c_N c -> 0 < b < c_N c -> public_key_for c b = Some (bx, by') ->
  bytes_ok apu = true -> bytes_ok apv = true -> bytes_ok alg = true -> Z.of_nat (length apu) < 2 ^ 32 -> Z.of_nat (length apv) < 2 ^ 32 -> 0 < n <= 512 ->
  exists K, derive P c (VInt a) (VInt bx) (VInt by') (Some apu) (Some apv) alg n = Ok K /\ bytes_ok K = true /\ length K = Z.to_nat ((n + 7) / 8).
Proof.
  intros name c BN a b bx by' apu apv alg n HA HB PB BU BV BA LU LV HN. unfold derive. cbn [as_num as_int bind].
  destruct (dh_nist name c BN a b HA HB) as (z & Z1 & _ & _). rewrite PB in Z1. rewrite Z1. cbn [bind]. rewrite other_info_ok by lia. cbn [bind].
  set (oi := skipn 4 (other_info_rfc apu apv alg n)).
  assert (ZB : bytes_ok z = true) by (unfold dh_z in Z1; destruct (mulp _ _ _ _ _) as [[u v]|]; [|discriminate]; apply Ok_inj in Z1; subst z; apply z2be_ok).
  assert (IB : bytes_ok oi = true).
  { pose proof (other_info_ok apu apv alg n LU LV ltac:(lia)) as OI. fold oi in OI. unfold other_info, pack_I in OI.
    repeat match type of OI with context [if ?b then _ else _] => destruct b; cbn [bind] in OI; try discriminate OI end.
    apply Ok_inj in OI. rewrite <- OI. rewrite !bytes_ok_app, !z2be_ok, BU, BV, BA. reflexivity. }
  destruct (concat_sha256_ok P HL z n oi ZB IB ltac:(lia)) as [C1 C2]. eexists. split; [exact C1|]. split; [|exact C2].
  apply bytes_ok_firstn. apply (kdf_stream_ok P HL); assumption.
Qed.

Lemma keylen_sizes : forall e kl il, enc_sizes e = Some (kl, il) -> dget KEYLEN e = Some (8 * Z.of_nat kl).
Proof.
  intros e kl il S. unfold enc_sizes in S.
  repeat match type of S with (if zs_eqb ?a ?b then _ else _) = _ => let E := fresh "E" in destruct (zs_eqb a b) eqn:E; [apply zs_eqb_eq in E; subst e; injection S as <- <-; reflexivity|] end. discriminate.
Qed.

(** The JWK of the ephemeral key that will be generated. *)
Definition published (c : curve) (b : dict) : Prop := (k <- ec_new [] onone onone 0;; e <- ec_load_key k (OCurve c) (r_eph R);; serialize e false) = Ok (VDict b).

Theorem ec_encrypts : forall name c, by_name name = Ok c -> forall w a e kl il p keys k kid cek iv kw o crv kx ky d cv dz, In a EC_ALGS -> dget (w_dict w) (lit "alg") = Some (VStr a) -> dget (w_dict w) (lit "enc") = Some (VStr e) ->
  enc_sizes e = Some (kl, il) -> w_jwk w = None -> w_epk w = None -> (forall n, In n [lit "epk"; lit "apu"; lit "apv"; lit "cek"] -> dget (w_dict w) n = None) ->
  msg_bytes (w_msg w) = Ok (VBytes p) -> bytes_ok p = true -> Z.of_nat (length p) <= 16 * 2 ^ 32 ->
  json_args w SYM_ARGS -> jsonable (k_kid k) = true -> (forall v, kw = Some v -> jsonable v = true) ->
  (forall b, published c b -> header_small (ec_header (kid_dict kw (named_dict k (sub_dict w SYM_ARGS))) (VBytes (b64e (r_apu R))) (VBytes (b64e (r_apv R))) (VDict b))) ->
  kid_in_force (as_jws w) = Ok kid -> first_fit (suitable (lit "EC") kid (VStr (lit "enc")) (VStr a)) keys k ->
  k_data k = DEc o crv (VInt kx) (VInt ky) d cv -> truthy d = true -> curve_by_name crv = Ok c -> 0 < dz < c_N c -> public_key_for c dz = Some (kx, ky) ->
  (forall d x y, key_pair c (r_eph R) = (d, Some (x, y)) -> 0 < x /\ 0 < y) ->
  exists tok, jwe_encrypt P R w (Some keys) cek iv kw = Ok (tok, w_set w (lit "cek") VNone).
Proof.
  intros name c BN w a e kl il p keys k kid cek iv kw o crv kx ky d cv dz IA AL EN SZ NJ NE NO MO BP LM JA JK JKW HS KI FF KD TD CB DZ PB EPH.
  destruct (ec_alg a IA) as (KT & FA & NN & TR).
  unfold jwe_encrypt. unfold dict_get at 1. rewrite AL. cbn [bind].
  destruct (pick_first P w keys (VStr (lit "enc")) (VStr []) (VStr a) (lit "EC") kid k AL NN KT KI FF) as [JKY (r & PK)].
  rewrite JKY. cbn [bind]. rewrite PK. cbn [bind]. rewrite FA. cbn [bind]. cbv zeta. rewrite NJ.
  change (if truthy (k_kid k) then dset (sub_dict w SYM_ARGS) (lit "kid") (k_kid k) else sub_dict w SYM_ARGS) with (named_dict k (sub_dict w SYM_ARGS)).
  destruct (sizes_pos _ _ _ SZ) as (K1 & K2 & K3). destruct (do_apu R DR) as [LU BU]. destruct (do_apv R DR) as [LV BV].
  (* the key agreement *)
  assert (SET : exists ck ek ekb vk b, ec_enc_setup P R w k = Ok (ck, ek, vk, [(lit "apu", VBytes (b64e (r_apu R))); (lit "apv", VBytes (b64e (r_apv R))); (lit "epk", VDict b)]) /\
     published c b /\ jsonable (VDict b) = true /\ octets_ek ek ekb /\ bytes_ok ekb = true /\ length ck = kl /\ length vk = il /\ bytes_ok ck = true /\ bytes_ok vk = true).
  { unfold ec_enc_setup. rewrite (NO (lit "apu")), (NO (lit "apv")), (NO (lit "epk")), (NO (lit "cek")) by (cbn [In]; tauto). cbn [bind]. rewrite KD. cbn [bind]. rewrite CB, NE. cbn [bind].
    rewrite new_pair. destruct (key_pair_nist name c BN (r_eph R)) as (ed & ex & ey & K & DRg & _). rewrite K. cbn [bind]. destruct (EPH _ _ _ K) as [PX PY].
    set (epk := fields _ _ _ _ _) in *. destruct (epk_read epk onone (VStr []) ex ey (VInt ed) c eq_refl PX PY (by_name_named _ _ BN) ltac:(repeat split)) as (b & SR & JB & CB' & RD).
    assert (PUB : published c b) by (unfold published; change (k0 <- ec_new [] onone onone 0;; e0 <- ec_load_key k0 (OCurve c) (r_eph R);; serialize e0 false) with (e0 <- (k0 <- ec_new [] onone onone 0;; ec_load_key k0 (OCurve c) (r_eph R));; serialize e0 false); rewrite new_pair, K; exact SR).
    rewrite SR. cbn [bind]. cbv zeta. rewrite sub_dict_get by (ne || (repeat split; ne) || reflexivity). rewrite EN. cbn [bind].
    destruct (generate_sized R e kl il [] [] DR SZ ltac:(left; reflexivity) ltac:(left; reflexivity)) as (ck & vk & -> & L1 & L2 & B1 & B2). cbn [bind].
    change (k_data epk) with (DEc onone (VStr []) (VInt ex) (VInt ey) (VInt ed) (OCurve c)). cbn [bind]. rewrite (sub_dict_alg w SYM_ARGS (VStr a) AL eq_refl). cbn [bind]. rewrite pval_eqb_str.
    destruct (zs_eqb a (lit "ECDH-ES")) eqn:EA.
    - rewrite (keylen_sizes _ _ _ SZ). destruct (keylen _ _ (keylen_sizes _ _ _ SZ)) as (N1 & N2 & _).
      destruct (derive_ok name c BN ed dz kx ky (r_apu R) (r_apv R) e (8 * Z.of_nat kl)) as (K' & DK & BK & LK); try assumption; try lia.
      rewrite DK. cbn [bind]. eexists _, _, [], _, b. split; [reflexivity|]. split; [exact PUB|]. split; [exact JB|]. split; [right; split; reflexivity|]. split; [reflexivity|]. split; [lia|]. repeat split; assumption.
    - assert (IK : exists post n, dget ECDH_KW a = Some (post, n)).
      { unfold EC_ALGS in IA. cbn [In] in IA. destruct IA as [<-|IA]; [discriminate EA|]. repeat (destruct IA as [<-|IA]; [eexists _, _; reflexivity|]). destruct IA. }
      destruct IK as (post & n & IK). rewrite IK. destruct (ecdh_kw _ _ _ IK) as (N1 & N2).
      destruct (derive_ok name c BN ed dz kx ky (r_apu R) (r_apv R) post n) as (K' & DK & BK & LK); try assumption; try lia.
      rewrite DK. cbn [bind]. assert (KS : aes_keysize K' = true) by (unfold aes_keysize; rewrite LK; destruct N1 as [-> |[-> | ->]]; reflexivity).
      destruct (wrap_unwrap P K' AES KS BK ck B1) as (ek & -> & BW & _ & _); [rewrite L1; lia|rewrite L1; exact K3|]. cbn [bind].
      eexists _, _, ek, _, b. split; [reflexivity|]. split; [exact PUB|]. split; [exact JB|]. split; [left; reflexivity|]. repeat split; assumption. }
  destruct SET as (ck & ek & ekb & vk & b & -> & PUB & JB & OE & BE & L1 & L2 & B1 & B2). cbn [bind].
  unfold key_material, get_key. rewrite KD, TD. cbn [bind]. unfold ec_encrypt. rewrite MO. cbn [bind]. cbv zeta.
  set (d0 := kid_dict kw (named_dict k (sub_dict w SYM_ARGS))) in *.
  change (dupd match kw with Some v => dset (named_dict k (sub_dict w SYM_ARGS)) (lit "kid") v | None => named_dict k (sub_dict w SYM_ARGS) end ?l) with (dupd d0 l).
  set (hd := dupd d0 _). change hd with (ec_header d0 (VBytes (b64e (r_apu R))) (VBytes (b64e (r_apv R))) (VDict b)). clear hd.
  set (h0 := ec_header d0 (VBytes (b64e (r_apu R))) (VBytes (b64e (r_apv R))) (VDict b)).
  assert (JD : jsonable (VDict d0) = true) by (apply kid_json; [apply named_json; [apply sub_dict_json; [left; reflexivity|exact JA]|exact JK]|exact JKW]).
  assert (AU : ascii (b64e (r_apu R)) = true) by (apply b64e_ascii; exact BU). assert (AV : ascii (b64e (r_apv R)) = true) by (apply b64e_ascii; exact BV).
  set (h := ec_header d0 (VStr (b64e (r_apu R))) (VStr (b64e (r_apv R))) (VDict b)).
  assert (C2 : b2s_conv (VDict h0) = Ok (VDict h)).
  { unfold h, h0, ec_header. apply b2s_dset; [apply b2s_dset; [apply b2s_dset; [apply b2s_id; exact JD|]|]|apply b2s_id; exact JB]; cbn [b2s_conv]; rewrite utf8_decode_ascii by assumption; reflexivity. }
  assert (JH : jsonable (VDict h) = true).
  { unfold h, ec_header. apply jsonable_dset; [apply jsonable_dset; [apply jsonable_dset; [exact JD|reflexivity|]|reflexivity|]|reflexivity|exact JB]; apply scalars_ascii; assumption. }
  assert (GET : forall n, n <> lit "apu" -> n <> lit "apv" -> n <> lit "epk" -> dget h0 n = dget d0 n).
  { intros n N1 N2 N3. unfold h0, ec_header. rewrite !dget_dset_other by (apply not_eq_sym; assumption). reflexivity. }
  assert (HA : dget h0 (lit "alg") = Some (VStr a)) by (rewrite GET by ne; unfold d0; rewrite kid_get, named_get by ne; apply sub_dict_alg; [exact AL|reflexivity]).
  assert (HEN : dget h0 (lit "enc") = Some (VStr e)) by (rewrite GET by ne; unfold d0; rewrite kid_get, named_get, sub_dict_get by (ne || (repeat split; ne) || reflexivity); exact EN).
  assert (JW : exists j he, jwenc h0 false = Ok j /\ j_headers j = VDict h0 /\ b64encode_item (VDict h0) = Ok he).
  { destruct (encode_header h0 h C2 JH) as (t & _ & TA & _ & E). apply allp_ascii, ascii_bytes in TA. unfold jwenc, jwt_init. rewrite HA, TR, E. cbn [bind]. rewrite b64d_b64e by exact TA. cbn [bind]. eexists _, _. repeat split. }
  destruct JW as (j & he & -> & JHD & HE). cbn [bind]. rewrite JHD, HE. cbn [bind]. unfold dict_get. rewrite HEN. cbn [bind]. destruct (header_ascii _ _ HE) as (_ & _ & BH).
  destruct (content_total P AES R e kl il p he ck vk SZ L1 L2 B1 B2 BP BH LM) as (ct & tag & ES & _); [specialize (HS b PUB he HE); lia|].
  change (enc_setup_any P R (VStr e) (VBytes p) he ck vk) with (enc_setup P R (VStr e) p he ck vk). rewrite ES. cbn [bind]. assert (NC : ck <> []) by (intros ->; cbn in L1; lia). assert (NI : vk <> []) by (intros ->; cbn in L2; lia).
  destruct (content_ok P AES HM R (VStr e) p he ck vk ct tag ck NC NI B1 B2 BP BH ES) as [B3 B4].
  destruct (pack_five_ok j _ ek ekb vk ct tag he JHD) as (tok & j' & ->); [intro X; rewrite X in HA; discriminate|exact OE|exact HE|cbn [forallb]; rewrite BE, B2, B3, B4; reflexivity|].
  cbn [bind]. exists tok. reflexivity.
Qed.
End Total.
