(** * Tokens made by other implementations *)
From Coq Require Import ZArith List Bool Lia ZifyBool.
From Verif Require Import Base BaseProofs Prims Codec CodecProofs Utf8 Json JsonProofs Jwt JwtProofs Ecc Jwk Jws JwsProofs JwsProofs2 JwsProofs3 JwsProofs4.
From Verif Require Import KeyWrap Extra ExtraProofs PvalEq Gcm GcmSpec GcmProofs GcmProofs2 SymAux CbcSpec Jwe JweProofs JweProofs2 JweProofs3 JweProofs4 JweProofs5.
Import ListNotations.
Open Scope Z_scope.

(** ** Any header octets *)
Lemma mk_token_any_ascii : forall h parts, bytes_ok h = true -> forallb bytes_ok parts = true -> ascii (mk_token h parts) = true.
Proof. intros h parts H P. apply ascii_join. apply b64e_all_ascii. cbn [forallb]. rewrite H. exact P. Qed.

Lemma unpack_any_token : forall h t v parts, bytes_ok h = true -> utf8_decode h = Ok t -> loads t = Ok v -> forallb bytes_ok parts = true -> parts <> [] ->
  forall token, token = VStr (mk_token h parts) \/ token = VBytes (mk_token h parts) ->
  truthy token = true /\ unpack token = Ok {| j_headers := v; j_b64 := map b64e (h :: parts); j_part := map VBytes (h :: parts) |}.
Proof.
  intros h t v parts H U L B NE. assert (A : forallb bytes_ok (h :: parts) = true) by (cbn [forallb]; rewrite H; exact B).
  assert (G : unpack (VBytes (mk_token h parts)) = Ok {| j_headers := v; j_b64 := map b64e (h :: parts); j_part := map VBytes (h :: parts) |}).
  { unfold unpack. cbn [bind]. unfold mk_token. rewrite split_token_join.
    - cbn [bind]. rewrite mapM_b64d by exact A. cbn [bind hd]. rewrite U. cbn [bind]. rewrite L. reflexivity.
    - destruct parts; [congruence|cbn; lia].
    - intros p I. eapply b64e_all_no_dot; eassumption. }
  assert (N : mk_token h parts <> []).
  { unfold mk_token. destruct parts as [|p q]; [congruence|]. cbn [map join]. destruct (b64e h); discriminate. }
  intros token [->| ->]; (split; [destruct (mk_token h parts); [congruence|reflexivity]|]); [|exact G].
  unfold unpack in *. rewrite utf8_encode_ascii by (apply mk_token_any_ascii; assumption). exact G.
Qed.

(** ** C224 *)
Theorem other_jws : forall P a t hb txt hd pb sg keys k v an sigalg token,
  bytes_ok hb = true -> utf8_decode hb = Ok txt -> loads txt = Ok (VDict hd) -> bytes_ok pb = true -> bytes_ok sg = true ->
  token = VStr (b64e hb ++ 46 :: b64e pb ++ 46 :: b64e sg) \/ token = VBytes (b64e hb ++ 46 :: b64e pb ++ 46 :: b64e sg) ->
  dget hd (lit "alg") = Some (VStr a) -> alg2keytype (VStr a) = Ok (Some t) -> text_cty hd ->
  In k keys -> suitable t (kwarg hd (lit "kid") VNone) (VStr []) (VStr a) k -> valid_sig P a k (b64e hb ++ 46 :: b64e pb) sg ->
  (forall g k', dget SIGNERS a = Some g -> In k' keys -> k' = k \/ ~ suitable t (kwarg hd (lit "kid") VNone) (VStr []) (VStr a) k' \/ clean P g k') ->
  ready_for v a hd -> truthy sigalg = false \/ sigalg = VStr a ->
  exists v' k', verify_compact P v token (Some keys) an sigalg = (v', Ok (payload_view hd pb, Some k')) /\ In k' keys /\ valid_sig P a k' (b64e hb ++ 46 :: b64e pb) sg.
Proof.
  intros P a t h txt hd pb sg keys k v an sigalg token A1 A2 L B1 B2 TK HA T CT I Su VS Cl (R1 & R2) SA.
  destruct (valid_signer_verify _ _ _ _ _ VS) as (g & m' & G & M1 & M2). specialize (Cl g).
  change (b64e h ++ 46 :: b64e pb ++ 46 :: b64e sg) with (mk_token h [pb; sg]) in TK.
  destruct (unpack_any_token h txt (VDict hd) [pb; sg] A1 A2 L) with (token := token) as [_ U]; [cbn [forallb]; rewrite B1, B2; reflexivity|discriminate|exact TK|].
  set (u := {| j_headers := VDict hd; j_b64 := map b64e (h :: [pb; sg]); j_part := map VBytes (h :: [pb; sg]) |}) in *.
  destruct (signers_not_none _ _ G) as [NN NN'].
  assert (Pl : payload u = Ok (payload_view hd pb)) by (apply payload_viewed; [reflexivity|reflexivity|exact CT]).
  unfold verify_compact. rewrite U. cbn [bind]. change (Nat.eqb (length (j_part u)) 3) with true. cbn match. change (j_headers u) with (VDict hd). cbn [py_get]. rewrite HA.
  assert (X : none_alg (VStr a) = Ok false) by (cbn [none_alg py_lower bind pval_eqb]; rewrite (proj2 (zs_eqb_neq _ _) NN); reflexivity). rewrite X. unfold verify_alg. cbn [s_dict set_jwt].
  assert (Y : dmem (s_dict v) (lit "alg") && truthy (VStr a) && negb (pval_eqb (kwarg (s_dict v) (lit "alg") VNone) (VStr a)) = false).
  { unfold dmem, kwarg. destruct R1 as [R1|R1]; rewrite R1; [reflexivity|]. cbn [pval_eqb]. rewrite zs_eqb_refl, andb_false_r. reflexivity. }
  rewrite Y. assert (Z1 : truthy sigalg && negb (pval_eqb sigalg (VStr a)) = false).
  { destruct SA as [SA|SA]; rewrite SA; [reflexivity|]. cbn [pval_eqb]. rewrite zs_eqb_refl. apply andb_false_r. }
  rewrite Z1. unfold checked. assert (JK : jws_keys P (set_alg (set_jwt v u) (VStr a)) (Some keys) = Ok (map Some keys)) by (destruct keys; [destruct I|reflexivity]).
  rewrite JK. cbn [bind].
  assert (KF : kid_in_force (set_alg (set_jwt v u) (VStr a)) = Ok (kwarg hd (lit "kid") VNone)).
  { unfold kid_in_force, set_alg, set_jwt. cbn [s_dict s_jwt]. rewrite dget_dset. change (zs_eqb (lit "alg") (lit "kid")) with false. cbn match. unfold kwarg. change (j_headers u) with (VDict hd). cbn [py_get].
    destruct R2 as [R2|R2]; rewrite R2; destruct (dget hd (lit "kid")); reflexivity. }
  destruct (in_picks (set_alg (set_jwt v u) (VStr a)) keys (VStr []) (VStr []) (VStr a) t (kwarg hd (lit "kid") VNone) k) as (out & O1 & O2 & O3); try assumption.
  { unfold alg_or, set_alg. cbn [truthy s_dict]. rewrite dget_dset. reflexivity. }
  { cbn [pval_eqb]. apply zs_eqb_neq. exact NN'. }
  rewrite O1. cbn [bind]. destruct out as [|k0 out]; [destruct O2|]. rewrite G. change (sign_input u) with (b64e h ++ 46 :: b64e pb). change (signature u) with sg.
  destruct (try_keys_works P g (b64e h ++ 46 :: b64e pb) sg k (k0 :: out) O2) as (k' & K').
  { rewrite M1. cbn [bind]. exact M2. }
  { intros k' I'. destruct (O3 k' I') as [O4 O5]. destruct (Cl k' G O4) as [C|[C|C]]; [left; exact C|contradiction|right; apply C]. }
  rewrite K'. cbn [bind]. rewrite Pl. cbn [bind]. eexists. exists k'. split; [reflexivity|]. apply try_keys_inv in K'. destruct K' as [K' (m1 & Q1 & Q2)].
  split; [apply O3; exact K'|]. eapply signer_verify_valid; eassumption.
Qed.

(** ** C225: the content *)
Definition cbc_names : list (ustr * (nat * hashalg)) :=
  [(lit "A128CBC-HS256", (16%nat, SHA256)); (lit "A192CBC-HS384", (24%nat, SHA384)); (lit "A256CBC-HS512", (32%nat, SHA512))].
Definition gcm_names : list (ustr * nat) := [(lit "A128GCM", 16%nat); (lit "A192GCM", 24%nat); (lit "A256GCM", 32%nat)].

(** [ct], [tag] are what RFC 7518, sections 5.2 and 5.3, make of the plaintext [pt]. *)
Inductive content_of (P : prims) (e : ustr) (key iv aad pt ct tag : bytes) : Prop :=
| co_cbc : forall n h pad ps cs, In (e, (n, h)) cbc_names -> length key = (2 * n)%nat -> length iv = 16%nat -> (1 <= pad <= 16)%nat ->
    Forall (fun b : bytes => length b = 16%nat) ps -> concat ps = pt ++ repeat (Z.of_nat pad) pad -> ct = concat cs -> cbc_of (p_aes_enc P (skipn n key)) iv ps cs ->
    tag = firstn n (p_hmac P h (firstn n key) (aad ++ iv ++ ct ++ z2be 8 (8 * Z.of_nat (length aad)))) -> content_of P e key iv aad pt ct tag
| co_gcm : forall n, In (e, n) gcm_names -> length key = n -> length iv = 12%nat -> ct = gcm_c P key iv pt -> tag = z2be 16 (gcm_t P key iv aad ct) -> content_of P e key iv aad pt ct tag.

Lemma cbc_of_enc : forall P ke ps iv cs, cbc_of (p_aes_enc P ke) iv ps cs -> concat cs = cbc_enc P ke iv ps.
Proof.
  intros P ke. induction ps as [|p ps IH]; intros iv cs [L N]; [destruct cs; [reflexivity|discriminate L]|].
  destruct cs as [|c cs]; [discriminate L|]. pose proof (N 0%nat p eq_refl) as N0. cbn [nth_error nth] in N0. injection N0 as ->.
  cbn [concat cbc_enc]. cbv zeta. rewrite bxor_spec. f_equal. apply IH. split; [cbn in L; lia|]. intros i q Q. exact (N (S i) q Q).
Qed.
Lemma pad_unique : forall (ps : list bytes) pt pad, Forall (fun b : bytes => length b = 16%nat) ps -> concat ps = pt ++ repeat (Z.of_nat pad) pad -> (1 <= pad <= 16)%nat ->
  concat ps = pkcs5pad pt /\ ps = blocks16 (pkcs5pad pt).
Proof.
  intros ps pt pad F C B. assert (M : length (concat ps) = (16 * length ps)%nat).
  { clear C. induction F as [|b ps E F IH]; [reflexivity|]. cbn [concat length]. rewrite app_length, IH, E. lia. }
  assert (E : concat ps = pkcs5pad pt).
  { rewrite C, pkcs5pad_eq. rewrite C, app_length, repeat_length in M. replace (16 - length pt mod 16)%nat with pad; [reflexivity|].
    pose proof (Nat.div_mod (length pt) 16 ltac:(lia)). pose proof (Nat.mod_upper_bound (length pt) 16 ltac:(lia)). lia. }
  split; [exact E|]. rewrite <- E. symmetry. apply blocks16_of_concat. exact F.
Qed.

Section Content.
Variable P : prims.
Hypothesis AES : aes_law P.

(** GCM with the key that the number of the octets stands for *)
Lemma gcm_opens : forall key iv aad ct tag, aes_keysize (long_to_bytes (be2z key) 16) = true -> length iv = 12%nat -> bytes_ok iv = true -> bytes_ok aad = true -> bytes_ok ct = true ->
  Z.of_nat (length ct) <= 16 * 2 ^ 32 -> 8 * Z.of_nat (length aad) < 2 ^ 64 -> bytes_ok tag = true -> length tag = 16%nat ->
  forall e, In e GCM_ENCS -> content_decrypt P (VStr e) key ct aad iv tag =
    if be2z tag =? gcm_t P (long_to_bytes (be2z key) 16) iv aad ct then Ok (gcm_c P (long_to_bytes (be2z key) 16) iv ct) else Raise EInvalidTagException.
Proof.
  intros key iv aad ct tag KS LI BI BA BC LC LA BT LT e IE. unfold content_decrypt.
  assert (X : in_texts (VStr e) GCM_ENCS = true) by (unfold in_texts; apply existsb_exists; exists e; split; [exact IE|cbn; apply zs_eqb_refl]). rewrite X.
  destruct (gcm_new_ok P AES _ KS (long_to_bytes_ok _ _) (be2z key) eq_refl) as (g & -> & G & _). cbn [bind].
  pose proof (be2z_bound iv BI) as IB. rewrite LI in IB. change (256 ^ Z.of_nat 12) with (2 ^ 96) in IB.
  pose proof (be2z_bound tag BT) as TB. rewrite LT in TB. change (256 ^ Z.of_nat 16) with (2 ^ 128) in TB.
  rewrite (gcm_decrypt_ok P AES _ KS (long_to_bytes_ok _ _) g) by (assumption || apply TB). rewrite <- LI, z2be_be2z by exact BI. reflexivity.
Qed.

Theorem content_opens : forall e key iv aad pt ct tag, content_of P e key iv aad pt ct tag ->
  bytes_ok key = true -> bytes_ok iv = true -> bytes_ok aad = true -> bytes_ok pt = true -> 8 * Z.of_nat (length aad) < 2 ^ 64 -> Z.of_nat (length pt) <= 16 * 2 ^ 32 ->
  e <> lit "A192GCM" -> (e = lit "A256GCM" -> firstn 16 key <> repeat 0 16) ->
  content_decrypt P (VStr e) key ct aad iv tag = Ok pt /\ In e SUPPORTED_ENC /\ key <> [].
Proof.
  intros e key iv aad pt ct tag H BK BI BA BP LA LP N192 N256. destruct H as [n h pad ps cs I LK LI PD F C -> CB T|n I LK LI -> T].
  - assert (IE : In e SUPPORTED_ENC /\ in_texts (VStr e) GCM_ENCS = false /\ in_texts (VStr e) CBC_ENCS = true /\ In (n, h) cbc_sizes).
    { unfold cbc_names in I. cbn [In] in I. repeat (destruct I as [I|I]; [injection I as <- <- <-; cbn; tauto|]). destruct I. }
    destruct IE as (IE & E1 & E2 & E3). split; [|split; [exact IE|intros ->; cbn [length] in LK; cbn in E3; destruct E3 as [E3|[E3|[E3|[]]]]; injection E3 as <- _; discriminate LK]].
    unfold content_decrypt. rewrite E1, E2.
    assert (K3 : (length key = 32 \/ length key = 48 \/ length key = 64)%nat) by (cbn in E3; destruct E3 as [E3|[E3|[E3|[]]]]; injection E3 as <- _; rewrite LK; tauto).
    destruct (cbc_hmac_round P key iv aad pt AES K3 LI BK BI BP LA) as (ct & tg & EN & _ & _ & DE).
    destruct (pad_unique ps pt pad F C PD) as [_ PU]. rewrite (cbc_of_enc _ _ _ _ _ CB), PU in *.
    unfold aes_cbc_hmac_encrypt in EN. destruct (get_keys_seclen_dgst key iv) as [q|] eqn:GK; [|discriminate EN].
    destruct (sizes_of _ _ _ GK) as (n' & h' & I' & LK' & _ & ->). cbn [bind] in EN.
    assert (n' = n /\ h' = h) as [-> ->].
    { assert (n' = n) as -> by lia. split; [reflexivity|]. cbn in E3, I'. destruct E3 as [E3|[E3|[E3|[]]]], I' as [I'|[I'|[I'|[]]]]; congruence. }
    unfold cbc_encrypt in EN. destruct (Nat.eqb (length (pkcs5pad pt) mod 16) 0); [|discriminate EN]. cbn [bind] in EN. rewrite pack_Q_ok in EN by lia. cbn [bind] in EN.
    injection EN as <- <-. rewrite T. exact DE.
  - assert (IE : In e SUPPORTED_ENC /\ In e GCM_ENCS /\ ((n = 16%nat) \/ (n = 32%nat /\ firstn 16 key <> repeat 0 16))).
    { unfold gcm_names in I. cbn [In] in I. destruct I as [I|[I|[I|[]]]]; injection I as <- <-; [cbn; tauto|congruence|]. split; [cbn; tauto|]. split; [cbn; tauto|]. right. split; [reflexivity|apply N256; reflexivity]. }
    destruct IE as (IE & IG & SZ). split; [|split; [exact IE|intros ->; cbn in LK; lia]].
    assert (KK : long_to_bytes (be2z key) 16 = key) by (destruct SZ as [-> |[-> NZ]]; [apply key16|apply key32]; assumption).
    assert (KS : aes_keysize key = true) by (unfold aes_keysize; rewrite LK; destruct SZ as [-> |[-> NZ]]; reflexivity).
    destruct (gcm_c_props P AES key KS BK iv pt LI BI BP) as (CL & CBB & CC).
    pose proof (gcm_t_bound P AES key KS BK iv aad (gcm_c P key iv pt) LI BI) as TB.
    rewrite T, gcm_opens; rewrite ?KK; try assumption; try (rewrite CL; exact LP); try apply z2be_ok; try apply z2be_length.
    rewrite be2z_z2be by (change (256 ^ Z.of_nat 16) with (2 ^ 128); exact TB). rewrite Z.eqb_refl, CC. reflexivity.
Qed.

(** C225: tokens with RSA key management *)
Theorem other_jwe_rsa : forall sent v a s hb txt hd e pt m cek ek iv ct tag keys k nums r kid alg token,
  bytes_ok hb = true -> utf8_decode hb = Ok txt -> loads txt = Ok (VDict hd) ->
  dget hd (lit "alg") = Some (VStr a) -> In (a, s) [(lit "RSA1_5", RSA15); (lit "RSA-OAEP", OAEP); (lit "RSA-OAEP-256", OAEP256)] -> dget hd (lit "enc") = Some (VStr e) ->
  (dget hd (lit "zip") = None /\ m = pt \/ dget hd (lit "zip") = Some (VStr (lit "DEF")) /\ p_decompress P m = Ok pt) ->
  content_of P e cek iv (b64e hb) m ct tag ->
  bytes_ok cek = true -> bytes_ok iv = true -> bytes_ok m = true -> bytes_ok ek = true -> bytes_ok ct = true -> bytes_ok tag = true ->
  8 * Z.of_nat (length (b64e hb)) < 2 ^ 64 -> Z.of_nat (length m) <= 16 * 2 ^ 32 ->
  e <> lit "A192GCM" -> (e = lit "A256GCM" -> firstn 16 cek <> repeat 0 16) ->
  kid_in_force (as_jws v) = Ok kid -> first_fit (suitable (lit "RSA") kid (VStr (lit "enc")) (VStr a)) keys k ->
  k_data k = DRsa (ORsa r) nums -> p_rsa_decrypt P s r ek = Ok (Some cek) -> (s = RSA15 -> sent 1%nat <> cek) ->
  alg = VNone \/ alg = VStr a ->
  token = VStr (mk_token hb [ek; iv; ct; tag]) \/ token = VBytes (mk_token hb [ek; iv; ct; tag]) ->
  jwe_decrypt P sent v token (Some keys) alg [] = Ok (pt, w_set v (lit "cek") (VBytes cek)).
Proof.
  intros sent v a s hb txt hd e pt m cek ek iv ct tag keys k nums r kid alg token A1 A2 L HA IA HE ZP CO B1 B2 B3 B4 B5 B6 LA LM N1 N2 KI FF KD RD SN AG TK.
  destruct (content_opens _ _ _ _ _ _ _ CO B1 B2 (ascii_bytes _ (b64e_ascii _ A1)) B3 LA LM N1 N2) as (CD & IE & NC).
  destruct (unpack_any_token hb txt (VDict hd) [ek; iv; ct; tag] A1 A2 L) with (token := token) as [TT UT]; [cbn [forallb]; rewrite B4, B2, B5, B6; reflexivity|discriminate|exact TK|].
  assert (IR : In a RSA_ALGS /\ rsa_scheme (VStr a) = Some s) by (cbn [In] in IA; destruct IA as [IA|[IA|[IA|[]]]]; injection IA as <- <-; split; (reflexivity || cbn; tauto)).
  destruct IR as [IR SC]. destruct (rsa_alg a IR) as (KT & FA & NN & TR & _).
  destruct (pick_first P v keys (VStr (lit "enc")) (VStr a) (VStr a) (lit "RSA") kid k) as [JKY (q & PK)]; [unfold alg_or; rewrite TR; reflexivity|exact NN|exact KT|exact KI|exact FF|].
  unfold jwe_decrypt. rewrite TT, UT. cbn [bind j_headers py_get]. rewrite HA. cbn [bind].
  replace (truthy alg && negb (pval_eqb alg (VStr a))) with false by (destruct AG as [-> | ->]; [reflexivity|rewrite pval_eqb_refl, andb_false_r; reflexivity]).
  rewrite JKY. cbn [bind]. rewrite PK. cbn [bind is_nil andb]. rewrite FA. cbn [bind]. unfold cek_first. cbn [is_nil dec_loop].
  unfold key_material, rsa_encryption_key. rewrite KD. cbn [otruthy bind].
  assert (RR : rsa_decrypt P false s r (sent 1%nat) ek = Ok cek).
  { unfold rsa_decrypt. rewrite RD. cbn [bind]. destruct s; try reflexivity. cbv zeta. destruct (zs_eqb cek (sent 1%nat)) eqn:X; [apply zs_eqb_eq in X; exfalso; apply (SN eq_refl); congruence|reflexivity]. }
  assert (SE : in_texts (VStr e) SUPPORTED_ENC = true) by (unfold in_texts; apply existsb_exists; exists e; split; [exact IE|cbn; apply zs_eqb_refl]).
  match goal with |- context [rsa_jwe_decrypt ?p ?x ?j ?mo ?cc] => assert (DD : rsa_jwe_decrypt p x j mo cc = Ok (pt, cek)) end.
  { unfold rsa_jwe_decrypt. cbn [part j_part map nth_error bind j_headers b64part j_b64 is_nil negb]. unfold py_get at 1. rewrite HA. cbn [bind]. rewrite SC. cbn [as_rsa bind]. rewrite RR. cbn [bind].
    unfold py_get at 1. rewrite HE. cbn [bind]. rewrite SE, CD. cbn [bind]. unfold py_in, py_get, dmem. destruct ZP as [[-> ->]|[-> ZP]]; [reflexivity|]. cbn [bind].
    change (pval_eqb (VStr (lit "DEF")) (VStr (lit "DEF"))) with true. cbv iota. rewrite ZP. reflexivity. }
  rewrite DD. reflexivity.
Qed.

(** C226: tokens with AES key wrap open if the key was wrapped under the hash of the secret. *)
Theorem other_jwe_kw : forall sent v a n hb txt hd e m cek ek iv ct tag keys k secret kk kid alg token,
  bytes_ok hb = true -> utf8_decode hb = Ok txt -> loads txt = Ok (VDict hd) ->
  dget hd (lit "alg") = Some (VStr a) -> In (a, n) [(lit "A128KW", 16%nat); (lit "A192KW", 24%nat); (lit "A256KW", 32%nat)] -> dget hd (lit "enc") = Some (VStr e) ->
  content_of P e cek iv (b64e hb) m ct tag ->
  bytes_ok cek = true -> bytes_ok iv = true -> bytes_ok m = true -> bytes_ok ek = true -> bytes_ok ct = true -> bytes_ok tag = true ->
  8 * Z.of_nat (length (b64e hb)) < 2 ^ 64 -> Z.of_nat (length m) <= 16 * 2 ^ 32 ->
  e <> lit "A192GCM" -> (e = lit "A256GCM" -> firstn 16 cek <> repeat 0 16) ->
  kid_in_force (as_jws v) = Ok kid -> first_fit (suitable (lit "oct") kid (VStr (lit "enc")) (VStr a)) keys k ->
  k_data k = DSym (VBytes secret) kk -> secret <> [] -> firstn n (p_hash P SHA256 secret) <> [] ->
  aes_unwrap_key P (firstn n (p_hash P SHA256 secret)) ek = Ok cek ->
  alg = VNone \/ alg = VStr a ->
  token = VStr (mk_token hb [ek; iv; ct; tag]) \/ token = VBytes (mk_token hb [ek; iv; ct; tag]) ->
  jwe_decrypt P sent v token (Some keys) alg [] = Ok (m, w_set v (lit "cek") VNone).
Proof.
  intros sent v a n hb txt hd e m cek ek iv ct tag keys k secret kk kid alg token A1 A2 L HA IA HE CO B1 B2 B3 B4 B5 B6 LA LM N1 N2 KI FF KD NS NK UW AG TK.
  destruct (content_opens _ _ _ _ _ _ _ CO B1 B2 (ascii_bytes _ (b64e_ascii _ A1)) B3 LA LM N1 N2) as (CD & IE & NC).
  destruct (unpack_any_token hb txt (VDict hd) [ek; iv; ct; tag] A1 A2 L) with (token := token) as [TT UT]; [cbn [forallb]; rewrite B4, B2, B5, B6; reflexivity|discriminate|exact TK|].
  assert (IR : In a KW_ALGS /\ dget ALG2KEYLEN a = Some n /\ (n <= 32)%nat) by (cbn [In] in IA; destruct IA as [IA|[IA|[IA|[]]]]; injection IA as <- <-; split; (split; [reflexivity|lia]) || cbn; tauto).
  destruct IR as (IR & AL & LN). destruct (kw_alg a IR) as (KT & FA & NN & TR & _).
  destruct (pick_first P v keys (VStr (lit "enc")) (VStr a) (VStr a) (lit "oct") kid k) as [JKY (q & PK)]; [unfold alg_or; rewrite TR; reflexivity|exact NN|exact KT|exact KI|exact FF|].
  unfold jwe_decrypt. rewrite TT, UT. cbn [bind j_headers py_get]. rewrite HA. cbn [bind].
  replace (truthy alg && negb (pval_eqb alg (VStr a))) with false by (destruct AG as [-> | ->]; [reflexivity|rewrite pval_eqb_refl, andb_false_r; reflexivity]).
  rewrite JKY. cbn [bind]. rewrite PK. cbn [bind is_nil andb]. rewrite FA. cbn [bind]. unfold cek_first. cbn [is_nil dec_loop].
  unfold key_material, sym_encryption_key. rewrite KD. replace (truthy (VBytes secret)) with true by (destruct secret; [congruence|reflexivity]). cbn [bind]. rewrite AL.
  replace (Nat.leb n 32) with true by lia. cbv zeta. cbn [bind]. set (kek := firstn n (p_hash P SHA256 secret)) in *.
  match goal with |- context [sym_decrypt ?p ?d ?j ?mo ?cc] => assert (DD : sym_decrypt p d j mo cc = Ok m) end.
  { unfold sym_decrypt. destruct kek as [|k0 kek]; [congruence|]. cbn [part j_part map nth_error bind j_headers b64part j_b64 is_nil negb length Nat.eqb as_secret]. rewrite UW. cbn [bind].
    unfold py_get at 1. rewrite HE. cbn [bind]. rewrite CD. cbn [bind].
    assert (ZN : dget (sub_dict v SYM_ARGS) (lit "zip") = None) by (apply sub_dict_none; [repeat split; intro X; vm_compute in X; discriminate X|intro X; vm_compute in X; discriminate X|reflexivity]).
    rewrite ZN. reflexivity. }
  rewrite DD. reflexivity.
Qed.

(** Content with A192GCM is opened with the 32 octets that the number of the key fills. *)
Lemma gcm192 : forall key iv aad ct tag, length key = 24%nat -> bytes_ok key = true -> firstn 8 key <> repeat 0 8 -> length iv = 12%nat -> bytes_ok iv = true -> bytes_ok aad = true -> bytes_ok ct = true ->
  Z.of_nat (length ct) <= 16 * 2 ^ 32 -> 8 * Z.of_nat (length aad) < 2 ^ 64 -> bytes_ok tag = true -> length tag = 16%nat ->
  content_decrypt P (VStr (lit "A192GCM")) key ct aad iv tag =
    if be2z tag =? gcm_t P (repeat 0 8 ++ key) iv aad ct then Ok (gcm_c P (repeat 0 8 ++ key) iv ct) else Raise EInvalidTagException.
Proof.
  intros key iv aad ct tag LK BK NZ L2 BI BA BC LC LA BT LT.
  assert (K : long_to_bytes (be2z key) 16 = repeat 0 8 ++ key).
  { assert (E : be2z (repeat 0 8 ++ key) = be2z key) by (rewrite be2z_app; reflexivity). rewrite <- E. apply key32; [rewrite app_length, LK; reflexivity|rewrite bytes_ok_app, BK; reflexivity|].
    rewrite firstn_app, repeat_length. change (firstn 16 (repeat 0 8)) with (repeat 0 8). change (16 - 8)%nat with 8%nat. intro X. apply NZ. change (repeat 0 16) with (repeat 0 8 ++ repeat 0 8) in X. apply app_inv_head in X. exact X. }
  rewrite gcm_opens; rewrite ?K; try assumption; try reflexivity; [|right; left; reflexivity]. unfold aes_keysize. rewrite app_length, repeat_length, LK. reflexivity.
Qed.
End Content.
