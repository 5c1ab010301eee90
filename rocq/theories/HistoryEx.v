(** * Instances used several times: examples *)
From Coq Require Import ZArith List Bool Lia.
From Verif Require Import Base BaseProofs Prims Inst PvalEq Extra ExtraProofs Utf8 Codec Json Jwt JwtProofs Jwk JwkProofs JwkEx Jws JwsProofs JwsProofs2 JwsProofs3 JwsEx.
From Verif Require Import Nist Ecc Jwe JweProofs JweProofs2 JweProofs3 JweProofs4 JweProofs5 JweProofs11 JweEx HistoryProofs.
Import ListNotations.
Open Scope Z_scope.

(** After an RSA encryption without a content key from the caller the instance remembers the one drawn. *)
Lemma rsa_remembers : forall P R, draws_ok R -> forall w a keys k kid iv kw tok w' r nums, In a RSA_ALGS -> dget (w_dict w) (lit "alg") = Some (VStr a) ->
  kid_in_force (as_jws w) = Ok kid -> first_fit (suitable (lit "RSA") kid (VStr (lit "enc")) (VStr a)) keys k -> k_data k = DRsa (ORsa r) nums -> bytes_ok iv = true ->
  jwe_encrypt P R w (Some keys) [] iv kw = Ok (tok, w') ->
  exists e kl il, dget (w_dict w) (lit "enc") = Some (VStr e) /\ enc_sizes e = Some (kl, il) /\ w' = w_set w (lit "cek") (VBytes (r_cek R kl)).
Proof.
  intros P R DR w a keys k kid iv kw tok w' rk nums IA AL KI FF KD BI H. destruct (rsa_alg a IA) as (KT & FA & NN & TR & sch & SCH).
  unfold jwe_encrypt in H. unfold dict_get in H at 1. rewrite AL in H. cbn [bind] in H.
  destruct (pick_first P w keys (VStr (lit "enc")) (VStr []) (VStr a) (lit "RSA") kid k AL NN KT KI FF) as [JKY (r & PK)].
  rewrite JKY in H. cbn [bind] in H. rewrite PK in H. cbn [bind] in H. rewrite FA in H. cbn [bind] in H. cbv zeta in H.
  change (if truthy (k_kid k) then dset (sub_dict w JWE_ARGS) (lit "kid") (k_kid k) else sub_dict w JWE_ARGS) with (named_dict k (sub_dict w JWE_ARGS)) in H.
  unfold key_material, rsa_encryption_key in H. rewrite KD in H. cbn [otruthy bind] in H.
  destruct (rsa_jwe_encrypt P R (named_dict k (sub_dict w JWE_ARGS)) (w_jwk w) (w_epk w) (w_msg w) (MObj (ORsa rk)) [] iv) as [[tok' c]|] eqn:SE; [|discriminate].
  cbn [bind] in H. apply Ok_inj in H. apply pair_equal_spec in H. destruct H as [-> <-].
  apply (rsa_inv P R DR) with (alg := VStr a) in SE; [|reflexivity|exact BI|rewrite named_get by (intro X; discriminate X); apply sub_dict_alg; [exact AL|reflexivity]|exact TR].
  destruct SE as (p & m & enc & iv' & ek & h & he & ct & tag & O & MT & ZZ & EN & G & HD & EK & PR).
  destruct (generate_ok R DR enc [] iv c iv' eq_refl BI G) as (_ & _ & _ & _ & _ & _ & G7). destruct (G7 eq_refl) as (e & kl & il & -> & SZ & ->).
  exists e, kl, il. split; [|split; [exact SZ|reflexivity]]. rewrite named_get in EN by (intro X; discriminate X). rewrite sub_dict_get in EN by ((repeat split; intro X; discriminate X) || reflexivity); exact EN.
Qed.

(** An instance made for key agreement that opens an RSA token remembers the content key of that token. *)
Definition kw_alg : ustr := lit "ECDH-ES+A128KW".
Lemma ec_opens_rsa : exists tok w1, jwe_encrypt std ex_draws (rsa_jwe (lit "RSA-OAEP")) (Some [enc_rsa]) [] [] None = Ok (tok, w1) /\
  forall sent, jwe_decrypt std sent (ec_jwe kw_alg) (VStr tok) (Some [enc_rsa]) VNone [] = Ok ([104; 105; 200], w_set (ec_jwe kw_alg) (lit "cek") (VBytes (r_cek ex_draws 16))).
Proof.
  assert (IA : In (lit "RSA-OAEP") RSA_ALGS) by (left; reflexivity). destruct (rsa_made (lit "RSA-OAEP") IA) as (tok & c & M). exists tok, (w_set (rsa_jwe (lit "RSA-OAEP")) (lit "cek") (VBytes c)). split; [exact M|].
  destruct (rsa_remembers std ex_draws ex_draws_ok (rsa_jwe (lit "RSA-OAEP")) (lit "RSA-OAEP") [enc_rsa] enc_rsa VNone [] None tok _ enc_rsakey [] IA eq_refl eq_refl (only_fit _ _ _ (rsa_suitable _)) eq_refl eq_refl M) as (e & kl & il & EN & SZ & W).
  assert (e = lit "A128GCM") by (vm_compute in EN; injection EN as <-; reflexivity). subst e. injection SZ as <- <-.
  destruct (jwe_rsa_roundtrip std ex_draws std_aes_law std_hmac_law ex_draws_ok std_zip_law (rsa_jwe (lit "RSA-OAEP")) (lit "RSA-OAEP") [enc_rsa] enc_rsa VNone [] [] None tok _ IA eq_refl (zip_json (lit "RSA-OAEP") (lit "A128GCM") _ _ eq_refl eq_refl) eq_refl
    ltac:(intros kj s E; discriminate E) eq_refl (only_fit _ _ _ (rsa_suitable _)) enc_rsakey [] enc_rsakey eq_refl (or_introl eq_refl) (std_rsa_enc_law enc_rsakey enc_rsa_wf) eq_refl eq_refl
    ltac:(intros b E; injection E as <-; reflexivity) M) as (p & c' & MO & W' & _ & X).
  apply Ok_inj in MO. subst p. assert (c' = r_cek ex_draws 16).
  { rewrite W in W'. apply (f_equal (fun w => dget (w_dict w) (lit "cek"))) in W'. unfold w_set in W'. cbn [w_dict] in W'. rewrite !dget_dset_same in W'. congruence. }
  subst c'. intro sent. apply (X sent (ec_jwe kw_alg) [enc_rsa] enc_rsa VNone VNone (VStr tok) eq_refl (only_fit _ _ _ (rsa_suitable _)) (or_introl eq_refl) (or_introl eq_refl)) with (nums' := []); [reflexivity|reflexivity|]. intro Y. discriminate Y.
Qed.
Lemma ec_set_up : exists ek iv params, ec_enc_setup std ex_draws (w_set (ec_jwe kw_alg) (lit "cek") (VBytes (r_cek ex_draws 16))) ex_ec = Ok (r_cek ex_draws 16, ek, iv, params).
Proof.
  set (r := ec_enc_setup std ex_draws (w_set (ec_jwe kw_alg) (lit "cek") (VBytes (r_cek ex_draws 16))) ex_ec). vm_compute in r.
  match eval unfold r in r with Ok (_, ?a, ?b, ?c) => exists a, b, c end. reflexivity.
Qed.
