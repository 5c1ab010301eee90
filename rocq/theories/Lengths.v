(** * What the length of an encrypted token says about the message (jwe.py) *)
From Coq Require Import ZArith List Bool Lia.
From Verif Require Import Base BaseProofs Prims PvalEq Extra ExtraProofs CbcSpec Utf8 Codec CodecProofs Json JsonProofs Jwt JwtProofs Jwk JwkProofs JwkProofs2 Jws JwsProofs JwsProofs2 JwsProofs3 JwsProofs4 JwsProofs6.
From Verif Require Import Gcm KeyWrap Elliptic Ecc Jwe JweProofs JweProofs2 JweProofs3 JweProofs4 JweProofs5 JweProofs6 JweProofs7 JweProofs8 JweProofs9 HeaderProofs.
Import ListNotations.
Open Scope Z_scope.

Lemma concat16 : forall l : list bytes, Forall (fun b : bytes => length b = 16%nat) l -> length (concat l) = (16 * length l)%nat.
Proof. induction l as [|b l IH]; intro F; [reflexivity|]. inversion_clear F as [|? ? L F2]. cbn [concat length]. rewrite app_length, L, IH by exact F2. lia. Qed.

Section Len.
Variables (P : prims) (R : draws).
Hypotheses (AES : aes_law P) (HM : hmac_law P) (HL : hash_law P) (DR : draws_ok R).

Lemma xor_octets_block : forall a b, is_block a -> is_block b -> is_block (xor_octets a b).
Proof.
  intros a b A B. rewrite <- bxor_spec. destruct A as [LA BA], B as [LB BB]. split; [rewrite bxor_length; lia|apply bxor_ok; assumption].
Qed.
Lemma cbc_blocks : forall key iv ps cs, aes_keysize key = true -> bytes_ok key = true -> is_block iv -> Forall is_block ps -> cbc_of (p_aes_enc P key) iv ps cs -> Forall is_block cs.
Proof.
  intros key iv ps. revert iv. induction ps as [|p ps IH]; intros iv cs K BK BI F [L N].
  - destruct cs; [constructor|discriminate L].
  - destruct cs as [|c cs]; [discriminate L|]. inversion_clear F as [|? ? BP F2]. pose proof (N O p eq_refl) as E. cbn [nth_error nth] in E. injection E as E.
    assert (BC : is_block c) by (rewrite E; apply AES; [exact K|exact BK|apply xor_octets_block; assumption]). constructor; [exact BC|].
    apply (IH c cs K BK BC F2). split; [cbn [length] in L; lia|]. intros i q Q. exact (N (S i) q Q).
Qed.

(** The ciphertext and the tag are as long as RFC 7518 says, up to zeros in front of a GCM tag. *)
Theorem content_lengths : forall enc msg aad key iv ct tag k, key <> [] -> iv <> [] -> bytes_ok key = true -> bytes_ok iv = true -> bytes_ok msg = true -> bytes_ok aad = true ->
  enc_setup P R enc msg aad key iv = Ok (ct, tag, k) ->
  (in_texts enc GCM_ENCS = true /\ length ct = length msg /\ (1 <= length tag <= 16)%nat) \/
  (in_texts enc CBC_ENCS = true /\ length ct = (16 * (length msg / 16 + 1))%nat /\ length tag = (length key / 2)%nat /\ In (length key) [32; 48; 64]%nat).
Proof.
  intros enc msg aad key iv ct tag k K I BK BI BM BA H. pose proof H as H0. unfold enc_setup in H. rewrite generate_given in H by assumption. cbn [bind] in H.
  destruct (in_texts enc GCM_ENCS) eqn:G; [left|destruct (in_texts enc CBC_ENCS) eqn:C; [right|discriminate]].
  - destruct (gcm_new P (be2z key)) as [g|] eqn:N; [|discriminate]. cbn [bind] in *. destruct (snd (gcm_encrypt P g (be2z iv) msg aad)) as [[c t]|] eqn:E; [|discriminate].
    cbn [bind] in H. apply Ok_inj in H. apply pair_equal_spec in H. destruct H as [H <-]. apply pair_equal_spec in H. destruct H as [<- <-].
    destruct (gcm_once P AES _ _ _ _ _ _ _ N BM BA (proj1 (be2z_bound iv BI)) E) as (C1 & C2 & C3 & _). split; [reflexivity|]. split; [exact C2|]. exact (proj1 (long_to_bytes_1 t C3)).
  - destruct (aes_cbc_hmac_encrypt P key iv aad msg) as [[c t]|] eqn:E; [|discriminate]. cbn [bind] in H. apply Ok_inj in H. apply pair_equal_spec in H. destruct H as [H <-]. apply pair_equal_spec in H. destruct H as [<- <-].
    split; [reflexivity|]. destruct (content_ok P AES HM R enc msg aad key iv c t key K I BK BI BM BA) as [BC _].
    { rewrite H0. reflexivity. }
    destruct (cbc_hmac_spec _ _ _ _ _ _ _ E) as (n & h & pad & ps & cs & SZ & LK & LI & PD & F & CC & EC & CB & ET).
    assert (BP : Forall is_block ps).
    { assert (B : bytes_ok (concat ps) = true) by (rewrite CC, bytes_ok_app, BM; cbn [andb]; apply forallb_forall; intros x X; apply repeat_spec in X; subst x; unfold is_byte; lia).
      clear - F B. induction ps as [|p ps IH]; [constructor|]. inversion_clear F as [|? ? L F2]. cbn [concat] in B. rewrite bytes_ok_app in B. apply andb_true_iff in B. destruct B as [B1 B2]. constructor; [split; assumption|apply IH; assumption]. }
    assert (KS : aes_keysize (skipn n key) = true) by (unfold aes_keysize; rewrite skipn_length, LK; cbn [cbc_sizes In] in SZ; destruct SZ as [Q|[Q|[Q|[]]]]; injection Q as <- <-; reflexivity).
    pose proof (cbc_blocks (skipn n key) iv ps cs KS (bytes_ok_skipn n key BK) (conj LI BI) BP CB) as BCS.
    assert (L1 : length c = (16 * length ps)%nat).
    { rewrite EC, concat16; [destruct CB as [-> _]; reflexivity|]. revert BCS. apply Forall_impl. intros a [Q _]. exact Q. }
    assert (L2 : (16 * length ps = length msg + pad)%nat) by (rewrite <- concat16 by exact F; rewrite CC, app_length, repeat_length; reflexivity).
    split; [|split].
    + rewrite L1. f_equal. assert (length msg / 16 = length ps - 1)%nat as ->; [|lia]. symmetry. apply Nat.div_unique with (r := (16 - pad)%nat); lia.
    + assert (BM' : bytes_ok (aad ++ iv ++ c ++ z2be 8 (8 * Z.of_nat (length aad))) = true) by (rewrite !bytes_ok_app, BA, BI, BC, z2be_ok; reflexivity).
      rewrite ET, firstn_length, (proj1 (HM h (firstn n key) _ (bytes_ok_firstn n key BK) BM')).
      rewrite LK, Nat.mul_comm, Nat.div_mul by lia. cbn [cbc_sizes In] in SZ. destruct SZ as [Q|[Q|[Q|[]]]]; injection Q as <- <-; reflexivity.
    + rewrite LK. cbn [cbc_sizes In] in SZ. destruct SZ as [Q|[Q|[Q|[]]]]; injection Q as <- <-; cbn [In]; lia.
Qed.

Lemma kdf_stream_ok : forall s i m, bytes_ok s = true -> bytes_ok i = true -> bytes_ok (kdf_stream P s i m) = true.
Proof.
  intros s i m SB IB. induction m as [|m IH]; [reflexivity|]. rewrite kdf_stream_S, bytes_ok_app, IH.
  destruct (HL SHA256 (z2be 4 (Z.of_nat (S m)) ++ s ++ i)) as [_ ->]; [rewrite !bytes_ok_app, z2be_ok, SB, IB; reflexivity|]. reflexivity.
Qed.
Lemma derived_ok : forall c d x y u v alg n K, bytes_ok u = true -> bytes_ok v = true -> bytes_ok alg = true -> 0 < n <= 512 -> derive P c d x y (Some u) (Some v) alg n = Ok K -> bytes_ok K = true /\ length K = Z.to_nat ((n + 7) / 8).
Proof.
  intros c d x y u v alg n K BU BV BA HN H. unfold derive in H. destruct (as_num d) as [dz|]; [|discriminate]. cbn [bind] in H. destruct (as_num x) as [xz|]; [|discriminate]. cbn [bind] in H.
  destruct (as_num y) as [yz|]; [|discriminate]. cbn [bind] in H. destruct (dh_z c dz (Some (xz, yz))) as [z|] eqn:Z1; [|discriminate]. cbn [bind] in H.
  destruct (other_info u v alg n) as [oi|] eqn:OI; [|discriminate]. cbn [bind] in H.
  assert (ZB : bytes_ok z = true) by (unfold dh_z in Z1; destruct (mulp _ _ _ _ _) as [[a b]|]; [|discriminate]; apply Ok_inj in Z1; subst z; apply z2be_ok).
  assert (IB : bytes_ok oi = true).
  { unfold other_info, pack_I in OI. repeat match type of OI with context [if ?b then _ else _] => destruct b; cbn [bind] in OI; try discriminate OI end.
    apply Ok_inj in OI. subst oi. rewrite !bytes_ok_app, !z2be_ok, BU, BV, BA. reflexivity. }
  destruct (concat_sha256_ok P HL z n oi ZB IB ltac:(lia)) as [C1 C2]. rewrite C1 in H. apply Ok_inj in H. subst K. split; [apply bytes_ok_firstn; apply kdf_stream_ok; assumption|exact C2].
Qed.
Lemma ec_setup_bytes : forall w k cek ek iv params, (forall b, dget (w_dict w) (lit "cek") = Some (VBytes b) -> bytes_ok b = true) -> ec_enc_setup P R w k = Ok (cek, ek, iv, params) ->
  bytes_ok cek = true /\ bytes_ok iv = true /\ (dget (w_dict w) (lit "cek") = None -> forall e kl il, dget (w_dict w) (lit "enc") = Some (VStr e) -> enc_sizes e = Some (kl, il) -> length cek = kl).
Proof.
  intros w k cek ek iv params CO H. unfold ec_enc_setup in H.
  destruct (match dget (w_dict w) (lit "apu") with Some v => b64d_arg v | None => Ok (r_apu R) end) as [apu|] eqn:EU; [|discriminate]. cbn [bind] in H.
  destruct (match dget (w_dict w) (lit "apv") with Some v => b64d_arg v | None => Ok (r_apv R) end) as [apv|] eqn:EV; [|discriminate]. cbn [bind] in H.
  assert (BU : bytes_ok apu = true).
  { destruct (dget (w_dict w) (lit "apu")) as [v|]; [destruct v; try discriminate; exact (b64d_bytes _ _ EU)|apply Ok_inj in EU; subst apu; apply (do_apu R DR)]. }
  assert (BV : bytes_ok apv = true).
  { destruct (dget (w_dict w) (lit "apv")) as [v|]; [destruct v; try discriminate; exact (b64d_bytes _ _ EV)|apply Ok_inj in EV; subst apv; apply (do_apv R DR)]. }
  match type of H with (bind ?x _) = _ => destruct x as [[[crv kx] ky]|]; [|discriminate] end. cbn [bind] in H.
  destruct (curve_by_name crv) as [c|]; [|discriminate]. cbn [bind] in H.
  match type of H with (bind ?x _) = _ => destruct x as [epk|]; [|discriminate] end. cbn [bind] in H.
  destruct (serialize epk false) as [ser|]; [|discriminate]. cbn [bind] in H. cbv zeta in H.
  match type of H with (bind ?x _) = _ => destruct x as [cek0|] eqn:EC; [|discriminate] end. cbn [bind] in H.
  assert (BC0 : bytes_ok cek0 = true) by (destruct (dget (w_dict w) (lit "cek")) as [v|]; [destruct v; cbn [truthy] in EC; repeat match type of EC with context [if ?b then _ else _] => destruct b end; try discriminate; apply Ok_inj in EC; subst cek0; try reflexivity; apply CO; reflexivity|apply Ok_inj in EC; subst cek0; reflexivity]).
  assert (CN : dget (w_dict w) (lit "cek") = None -> cek0 = []) by (intro N; rewrite N in EC; apply Ok_inj in EC; congruence).
  match type of H with (bind ?x _) = _ => destruct x as [enc|] eqn:EE; [|discriminate] end. cbn [bind] in H.
  assert (EE2 : dget (w_dict w) (lit "enc") = Some enc) by (rewrite sub_dict_get in EE by ((repeat split; ne) || reflexivity); destruct (dget (w_dict w) (lit "enc")); [apply Ok_inj in EE; congruence|discriminate EE]).
  destruct (generate_key_and_iv R enc cek0 []) as [[cek1 iv1]|] eqn:G; [|discriminate]. cbn [bind] in H. destruct (generate_ok R DR _ _ _ _ _ BC0 (eq_refl : bytes_ok [] = true) G) as (_ & _ & G3 & G4 & _ & _ & G7).
  match type of H with (bind ?x _) = _ => destruct x as [ed|]; [|discriminate] end. cbn [bind] in H.
  match type of H with (bind ?x _) = _ => destruct x as [alg|]; [|discriminate] end. cbn [bind] in H.
  destruct (pval_eqb alg (VStr (lit "ECDH-ES"))).
  - destruct enc as [| | | |e| | |]; try discriminate. destruct (dget KEYLEN e) as [n|] eqn:KL; [|discriminate]. destruct (keylen e n KL) as (L1 & L2 & _).
    match type of H with (bind ?x _) = _ => destruct x as [K|] eqn:DV; [|discriminate] end. cbn [bind] in H. apply Ok_inj in H. repeat (apply pair_equal_spec in H; let X := fresh in destruct H as [H X]; subst).
    destruct (derived_ok _ _ _ _ _ _ _ _ _ BU BV L2 L1 DV) as [D1 D2]. split; [exact D1|]. split; [exact G4|]. intros _ e' kl il E' S'. rewrite EE2 in E'. injection E' as <-.
    assert (n = 8 * Z.of_nat kl) as -> by (rewrite (keylen_sizes _ _ _ S') in KL; congruence). rewrite D2. replace (8 * Z.of_nat kl + 7) with (7 + Z.of_nat kl * 8) by lia. rewrite Z.div_add by lia. change (7 / 8) with 0. lia.
  - destruct alg as [| | | |a| | |]; try discriminate. destruct (dget ECDH_KW a) as [[post n]|] eqn:KW; [|discriminate].
    match type of H with (bind ?x _) = _ => destruct x as [K|] eqn:DV; [|discriminate] end. cbn [bind] in H. destruct (aes_wrap_key P K cek1) as [wk|] eqn:W; [|discriminate].
    cbn [bind] in H. apply Ok_inj in H. repeat (apply pair_equal_spec in H; let X := fresh in destruct H as [H X]; subst).
    split; [exact G3|]. split; [exact G4|]. intros N e' kl il E' S'. rewrite EE2 in E'. injection E' as ->. destruct (G7 (CN N)) as (e1 & kl1 & il1 & X1 & X2 & ->). injection X1 as <-. rewrite S' in X2. injection X2 as <- <-. apply (do_cek R DR).
Qed.

(** The octets to be encrypted: the message, compressed if the instance says so and RSA is used. *)
Definition to_encrypt (w : jwe) (m : bytes) : Prop := exists a p, dget (w_dict w) (lit "alg") = Some (VStr a) /\ msg_octets (w_msg w) = Ok p /\
  ((dget (w_dict w) (lit "zip") = None /\ m = p) \/ (dget (w_dict w) (lit "zip") <> None /\ existsb (zs_eqb a) RSA_ALGS = false /\ m = p) \/
   (dget (w_dict w) (lit "zip") = Some (VStr (lit "DEF")) /\ existsb (zs_eqb a) RSA_ALGS = true /\ m = p_compress P p)).

Lemma token_lengths : forall alg enc m h he ek iv ct tag key tok, produced P R alg enc m h he ek iv ct tag key tok -> key <> [] -> iv <> [] -> bytes_ok key = true -> bytes_ok iv = true -> bytes_ok m = true ->
  exists e i c t, tok = join 46 [seg tok 0; e; i; c; t] /\
    ((in_texts enc GCM_ENCS = true /\ Z.of_nat (length c) = (4 * Z.of_nat (length m) + 2) / 3 /\ 2 <= Z.of_nat (length t) <= 22) \/
     (in_texts enc CBC_ENCS = true /\ Z.of_nat (length c) = (4 * (16 * (Z.of_nat (length m) / 16 + 1)) + 2) / 3 /\ Z.of_nat (length t) = (4 * (Z.of_nat (length key) / 2) + 2) / 3 /\ In (length key) [32; 48; 64]%nat)).
Proof.
  intros alg enc m h he ek iv ct tag key tok PR K I BK BI BM. destruct (header_ascii _ _ (pd_header _ _ _ _ _ _ _ _ _ _ _ _ _ PR)) as (_ & _ & BH).
  pose proof (pd_content _ _ _ _ _ _ _ _ _ _ _ _ _ PR) as C. destruct (content_ok P AES HM R _ _ _ _ _ _ _ _ K I BK BI BM BH C) as [B1 B2].
  pose proof (produced_first _ _ _ _ _ _ _ _ _ _ _ _ _ PR) as F. assert (E : seg tok 0 = he) by (unfold seg; destruct (split 46 tok); exact F). rewrite E.
  destruct (pd_segments _ _ _ _ _ _ _ _ _ _ _ _ _ PR) as (ts & TS & J). cbn [mapM] in TS. destruct (utf8_decode (b64e ek)) as [ek'|]; [|discriminate]. cbn [bind] in TS.
  rewrite !utf8_decode_ascii in TS by (apply b64e_ascii; assumption). cbn [bind] in TS. apply Ok_inj in TS. subst ts.
  exists ek', (b64e iv), (b64e ct), (b64e tag). split; [exact J|]. rewrite !b64e_length by assumption.
  destruct (content_lengths _ _ _ _ _ _ _ _ K I BK BI BM BH C) as [(G & L1 & L2)|(G & L1 & L2 & L3)]; [left|right]; (split; [exact G|]); rewrite L1; split.
  - reflexivity.
  - pose proof (Z.div_le_mono (4 * 1 + 2) (4 * Z.of_nat (length tag) + 2) 3). pose proof (Z.div_le_mono (4 * Z.of_nat (length tag) + 2) (4 * 16 + 2) 3). change ((4 * 1 + 2) / 3) with 2 in *. change ((4 * 16 + 2) / 3) with 22 in *. lia.
  - do 3 f_equal. rewrite Nat2Z.inj_mul, Nat2Z.inj_add, Nat2Z.inj_div. reflexivity.
  - rewrite L2. split; [|exact L3]. rewrite Nat2Z.inj_div. reflexivity.
Qed.

Theorem message_length : forall w keys cek iv kw tok w', bytes_ok cek = true -> bytes_ok iv = true ->
  (forall b, w_msg w = VBytes b -> bytes_ok b = true) -> (forall b, dget (w_dict w) (lit "cek") = Some (VBytes b) -> bytes_ok b = true) -> (forall b, bytes_ok b = true -> bytes_ok (p_compress P b) = true) ->
  jwe_encrypt P R w keys cek iv kw = Ok (tok, w') ->
  exists enc m (ck : bytes) e i c t, dget (w_dict w) (lit "enc") = Some enc /\ to_encrypt w m /\ (cek = [] -> dget (w_dict w) (lit "cek") = None -> forall x kl il, enc = VStr x -> enc_sizes x = Some (kl, il) -> length ck = kl) /\ tok = join 46 [seg tok 0; e; i; c; t] /\
    ((in_texts enc GCM_ENCS = true /\ Z.of_nat (length c) = (4 * Z.of_nat (length m) + 2) / 3 /\ 2 <= Z.of_nat (length t) <= 22) \/
     (in_texts enc CBC_ENCS = true /\ Z.of_nat (length c) = (4 * (16 * (Z.of_nat (length m) / 16 + 1)) + 2) / 3 /\ Z.of_nat (length t) = (4 * (Z.of_nat (length ck) / 2) + 2) / 3 /\ In (length ck) [32; 48; 64]%nat)).
Proof.
  intros w keys cek iv kw tok w' BC BI BM CO CP H. unfold jwe_encrypt in H. unfold dict_get in H at 1. destruct (dget (w_dict w) (lit "alg")) as [alg|] eqn:AL; [|discriminate]. cbn [bind] in H.
  destruct (jws_keys P (as_jws w) keys) as [ks|]; [|discriminate]. cbn [bind] in H. destruct (pick_keys (as_jws w) ks _ _) as [[|k r]|]; try discriminate. cbn [bind] in H.
  destruct (family_of alg) as [f|] eqn:FA; [|discriminate]. cbn [bind] in H. destruct (family_truthy _ _ FA) as (TR & a & ->). cbv zeta in H.
  destruct f.
  - change (if truthy (k_kid k) then dset (sub_dict w JWE_ARGS) (lit "kid") (k_kid k) else sub_dict w JWE_ARGS) with (named_dict k (sub_dict w JWE_ARGS)) in H.
    destruct (key_material P k (VStr a) true) as [mt|]; [|discriminate]. cbn [bind] in H.
    destruct (rsa_jwe_encrypt P R (named_dict k (sub_dict w JWE_ARGS)) (w_jwk w) (w_epk w) (w_msg w) mt cek iv) as [[tok' c]|] eqn:SE; [|discriminate].
    cbn [bind] in H. apply Ok_inj in H. apply pair_equal_spec in H. destruct H as [-> _].
    apply (rsa_inv P R DR) with (alg := VStr a) in SE; [|exact BC|exact BI|rewrite named_get by ne; apply sub_dict_alg; [exact AL|reflexivity]|exact TR].
    destruct SE as (p & m & enc & iv' & ek & h & he & ct & tag & O & MT & ZZ & EN & G & HD & EK & PR). destruct (generate_ok R DR _ _ _ _ _ BC BI G) as (G1 & G2 & G3 & G4 & _ & _ & G7).
    assert (RS : existsb (zs_eqb a) RSA_ALGS = true).
    { unfold family_of in FA. destruct (in_texts (VStr a) _) eqn:I; [|destruct (startswith a (lit "A") && ends_KW a); [discriminate FA|destruct (startswith a (lit "ECDH-ES")); discriminate FA]]. exact I. }
    pose proof (msg_octets_ok _ _ MT BM) as BP. assert (BMm : bytes_ok m = true) by (destruct ZZ as [[_ ->]|[_ ->]]; [exact BP|apply CP; exact BP]).
    destruct (token_lengths _ _ _ _ _ _ _ _ _ _ _ PR G1 G2 G3 G4 BMm) as (e & i & cc & t & T1 & T2). exists enc, m, c, e, i, cc, t.
    split; [rewrite named_get, sub_dict_get in EN by (ne || (repeat split; ne) || reflexivity); exact EN|]. split; [|split; [|split; [exact T1|exact T2]]]; [|intros C0 _ x kl il -> S'; destruct (G7 C0) as (e1 & kl1 & il1 & X1 & X2 & ->); injection X1 as <-; rewrite S' in X2; injection X2 as <- <-; apply (do_cek R DR)].
    exists a, p. split; [exact AL|]. split; [exact MT|]. unfold zipped in ZZ. rewrite named_get, sub_dict_get in ZZ by (ne || (repeat split; ne) || reflexivity).
    destruct ZZ as [[Z0 ->]|[Z0 ->]]; [left; split; [exact Z0|reflexivity]|right; right; split; [exact Z0|split; [exact RS|reflexivity]]].
  - change (if truthy (k_kid k) then dset (sub_dict w SYM_ARGS) (lit "kid") (k_kid k) else sub_dict w SYM_ARGS) with (named_dict k (sub_dict w SYM_ARGS)) in H.
    destruct (key_material P k (VStr a) true) as [mt|]; [|discriminate]. cbn [bind] in H.
    set (ob := match w_jwk w with Some _ => true | None => false end) in H.
    destruct (sym_encrypt P R (named_dict k (sub_dict w SYM_ARGS)) ob (w_msg w) mt cek iv kw) as [tok'|] eqn:SE; [|discriminate]. cbn [bind] in H. apply Ok_inj in H. apply pair_equal_spec in H. destruct H as [-> _].
    apply (sym_inv P R DR) with (alg := VStr a) in SE; [|exact BC|exact BI|rewrite named_get by ne; apply sub_dict_alg; [exact AL|reflexivity]|exact TR].
    destruct SE as (t & m & enc & cek' & iv' & kek & ek & he & ct & tag & O & MT & U & EN & G & SK & WR & PR). destruct (generate_ok R DR _ _ _ _ _ BC BI G) as (G1 & G2 & G3 & G4 & _ & _ & G7).
    assert (RS : existsb (zs_eqb a) RSA_ALGS = false) by (unfold family_of in FA; destruct (in_texts (VStr a) _) eqn:I; [discriminate FA|exact I]).
    destruct (token_lengths _ _ _ _ _ _ _ _ _ _ _ PR G1 G2 G3 G4 (utf8_encode_ok _ _ U)) as (e & i & cc & tt & T1 & T2). exists enc, m, cek', e, i, cc, tt.
    split; [rewrite named_get, sub_dict_get in EN by (ne || (repeat split; ne) || reflexivity); exact EN|]. split; [|split; [|split; [exact T1|exact T2]]]; [|intros C0 _ x kl il -> S'; destruct (G7 C0) as (e1 & kl1 & il1 & X1 & X2 & ->); injection X1 as <-; rewrite S' in X2; injection X2 as <- <-; apply (do_cek R DR)].
    exists a, m. split; [exact AL|]. split; [rewrite MT; exact U|]. destruct (dget (w_dict w) (lit "zip")) as [z|]; [right; left; split; [discriminate|split; [exact RS|reflexivity]]|left; split; reflexivity].
  - change (if truthy (k_kid k) then dset (sub_dict w SYM_ARGS) (lit "kid") (k_kid k) else sub_dict w SYM_ARGS) with (named_dict k (sub_dict w SYM_ARGS)) in H.
    destruct (ec_enc_setup P R w k) as [[[[ck ek] iv'] params]|] eqn:ES; [|discriminate]. cbn [bind] in H.
    destruct (key_material P k (VStr a) true) as [mt|] eqn:KM; [|discriminate]. cbn [bind] in H.
    set (ob := match w_jwk w with Some _ => true | None => false end) in H.
    destruct (ec_encrypt P R (named_dict k (sub_dict w SYM_ARGS)) ob (w_msg w) ck ek iv' params kw) as [tok'|] eqn:SE; [|discriminate]. cbn [bind] in H. apply Ok_inj in H. apply pair_equal_spec in H. destruct H as [-> _].
    destruct (ec_setup_some P R HL DR _ _ _ _ _ _ ES) as (NC & NI & (ekb & OE) & (u & v & e0 & ->)). destruct (ec_setup_bytes _ _ _ _ _ _ CO ES) as (BCK & BIV & SZ).
    apply (ec_inv P R (named_dict k (sub_dict w SYM_ARGS)) ob (w_msg w) ck ek ekb iv' _ _ _ kw tok (VStr a) NC NI OE) in SE; [|rewrite named_get by ne; apply sub_dict_alg; [exact AL|reflexivity]|exact TR].
    destruct SE as (p & enc' & he & ct & tag & O & MO & EN' & PR).
    assert (RS : existsb (zs_eqb a) RSA_ALGS = false) by (unfold family_of in FA; destruct (in_texts (VStr a) _) eqn:I; [discriminate FA|exact I]).
    destruct (token_lengths _ _ _ _ _ _ _ _ _ _ _ PR NC NI BCK BIV (msg_octets_ok _ _ MO BM)) as (e & i & cc & tt & T1 & T2). exists enc', p, ck, e, i, cc, tt.
    split; [rewrite named_get, sub_dict_get in EN' by (ne || (repeat split; ne) || reflexivity); exact EN'|]. split; [|split; [|split; [exact T1|exact T2]]]; [|intros _ N x kl il -> S'; apply (SZ N x kl il); [rewrite named_get, sub_dict_get in EN' by (ne || (repeat split; ne) || reflexivity); exact EN'|exact S']].
    exists a, p. split; [exact AL|]. split; [exact MO|]. destruct (dget (w_dict w) (lit "zip")) as [z|]; [right; left; split; [discriminate|split; [exact RS|reflexivity]]|left; split; reflexivity].
Qed.
End Len.
