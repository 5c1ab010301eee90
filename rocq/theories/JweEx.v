(** * Concrete JWE tokens *)
From Coq Require Import ZArith Znumtheory List Bool Lia.
From Verif Require Import Base BaseProofs Utf8 Codec CodecProofs Json Jwt JwtProofs Prims Elliptic Ecc EccProofs EcAux KeyWrap KeyWrapProofs Extra ExtraProofs Gcm GcmSpec Rsa RsaProofs Certs Jwk JwkProofs JwkEx Jws JwsProofs Inst Nist.
From Verif Require Import Jwe JweProofs JweProofs2 JweProofs3 JweProofs4 JweProofs5 JweProofs6 JweProofs7 JweProofs8 JweProofs9 JweProofs10 JweProofs11.
Import ListNotations.
Open Scope Z_scope.

Definition ex_draws : draws := {| r_cek := fun n => map (fun i => Z.of_nat i mod 256) (seq 1 n); r_iv := fun n => map (fun i => Z.of_nat i mod 256) (seq 3 n);
  r_apu := repeat 7 16; r_apv := repeat 9 16; r_pad := repeat 5 64; r_eph := 0 |}.
Lemma octets_ok : forall a n, length (map (fun i => Z.of_nat i mod 256) (seq a n)) = n /\ bytes_ok (map (fun i => Z.of_nat i mod 256) (seq a n)) = true.
Proof.
  intros a n. split; [rewrite map_length; apply seq_length|]. unfold bytes_ok. apply forallb_forall. intros x I. apply in_map_iff in I. destruct I as (i & <- & _).
  pose proof (Z.mod_pos_bound (Z.of_nat i) 256 ltac:(lia)). unfold is_byte. lia.
Qed.
Lemma ex_draws_ok : draws_ok ex_draws.
Proof. split; try (intro n; apply octets_ok); split; reflexivity. Qed.

Definition ex_jwe (alg enc : ustr) (m : pval) : jwe := {| w_msg := m; w_dict := [(lit "alg", VStr alg); (lit "enc", VStr enc)]; w_jwk := None; w_epk := None; w_jwt := None |}.
Definition zip_jwe (alg enc : ustr) (m : pval) : jwe :=
  {| w_msg := m; w_dict := [(lit "alg", VStr alg); (lit "enc", VStr enc); (lit "zip", VStr (lit "DEF"))]; w_jwk := None; w_epk := None; w_jwt := None |}.
Definition new_jwe : jwe := {| w_msg := VNone; w_dict := []; w_jwk := None; w_epk := None; w_jwt := None |}.

(** A key pair of 768 bits. *)
Definition p384 := 0xfffffffffffffffffffffffffffffffffffffffffffffffffffffffffffffffeffffffff0000000000000000ffffffff.
Definition n384 := 0xffffffffffffffffffffffffffffffffffffffffffffffffc7634d81f4372ddf581a0db248b0a77aecec196accc52973.
Definition enc_rsakey : rsakey := {| r_n := p384 * n384; r_e := 65537;
  r_d := Some 0xd3f72c08d3f72c08d3f72c08d3f72c08d3f72c08d3f72c08a5175bfdd6303a1277f05a960811fd1a93418a6aefc9f05d84227bdd84227bddb3024be8b0c93dde09f9133c01492818a0d94a67a09e138d54702b84db27382b4d595778787dc73;
  r_pq := Some (p384, n384) |}.
Definition enc_rsa : jwk := fields (VStr (lit "RSA")) (VStr []) (VStr (lit "enc")) (VStr (lit "r1")) (DRsa (ORsa enc_rsakey) []).
Lemma enc_rsa_wf : rsa_wf enc_rsakey.
Proof.
  exists p384, n384. eexists. split; [exact prime_p384|]. split; [exact prime_n384|]. split; [intro H; vm_compute in H; discriminate|]. split; [reflexivity|]. split; [reflexivity|].
  split; [reflexivity|]. split; [reflexivity|]. split; vm_compute; reflexivity.
Qed.

(** ** The hypotheses of the round trips *)
Lemma ex_json : forall alg enc m args, scalars alg = true -> scalars enc = true -> json_args (ex_jwe alg enc m) args.
Proof.
  intros alg enc m args A E n v _ H. unfold ex_jwe in H. cbn [w_dict dget] in H. destruct (zs_eqb _ n); [injection H as <-; exact A|]. destruct (zs_eqb _ n); [injection H as <-; exact E|discriminate].
Qed.
Lemma zip_json : forall alg enc m args, scalars alg = true -> scalars enc = true -> json_args (zip_jwe alg enc m) args.
Proof.
  intros alg enc m args A E n v _ H. unfold zip_jwe in H. cbn [w_dict dget] in H. destruct (zs_eqb _ n); [injection H as <-; exact A|]. destruct (zs_eqb _ n); [injection H as <-; exact E|].
  destruct (zs_eqb _ n); [injection H as <-; reflexivity|discriminate].
Qed.
Lemma only_fit : forall A (Q : A -> Prop) k, Q k -> first_fit Q [k] k.
Proof. intros A Q k H. exists [], []. repeat split; [exact H|constructor]. Qed.
Lemma raw_suitable : forall s a, suitable (lit "oct") VNone (VStr (lit "enc")) (VStr a) (raw_sym s).
Proof. intros s a. split; [left; reflexivity|]. split; [intro H; discriminate H|]. split; intros _ H; discriminate H. Qed.
Lemma rsa_suitable : forall a, suitable (lit "RSA") VNone (VStr (lit "enc")) (VStr a) enc_rsa.
Proof. intro a. split; [right; left; reflexivity|]. split; [intro H; discriminate H|]. split; [intros _ _; reflexivity|intros _ H; discriminate H]. Qed.
Lemma ec_suitable : forall a, suitable (lit "EC") VNone (VStr (lit "enc")) (VStr a) ex_ec.
Proof. intro a. split; [right; left; reflexivity|]. split; [intro H; discriminate H|]. split; [intros _ _; reflexivity|intros _ H; discriminate H]. Qed.

(** ** A wrapped content key *)
Definition kw_jwe : jwe := ex_jwe (lit "A128KW") (lit "A128CBC-HS256") (VStr (lit "hi")).
Definition kw_tok : ustr := lit "eyJhbGciOiJBMTI4S1ciLCJlbmMiOiJBMTI4Q0JDLUhTMjU2In0.YXKWeRohnePgTsRcBEkSqrFYCEvK9m6lBzzkQuQGpDN_OKJ9tcMj4w.AwQFBgcICQoLDA0ODxAREg.VL72dJesGL2C8CU8CN3B8Q.QchCDfj82vyaZukrpn4ZZA".
Lemma kw_made : jwe_encrypt std ex_draws kw_jwe (Some [raw_sym (lit "secret")]) [] [] None = Ok (kw_tok, w_set kw_jwe (lit "cek") VNone).
Proof. vm_compute. reflexivity. Qed.
Lemma kw_opens : forall sent, jwe_decrypt std sent new_jwe (VStr kw_tok) (Some [raw_sym (lit "secret")]) VNone [] = Ok (lit "hi", w_set new_jwe (lit "cek") VNone).
Proof.
  intro sent. pose proof (jwe_sym_roundtrip std ex_draws std_aes_law std_hmac_law std_hash_law ex_draws_ok kw_jwe (lit "A128KW") [raw_sym (lit "secret")] (raw_sym (lit "secret")) VNone [] [] None kw_tok (w_set kw_jwe (lit "cek") VNone)) as H.
  destruct (H (or_introl eq_refl) eq_refl (ex_json (lit "A128KW") (lit "A128CBC-HS256") _ _ eq_refl eq_refl) eq_refl (fun v e => ltac:(discriminate e)) eq_refl (only_fit _ _ _ (raw_suitable _ _)) (VBytes (lit "secret")) (VStr []) eq_refl
    ltac:(intros s E; injection E as <-; reflexivity) eq_refl eq_refl ltac:(split; reflexivity) kw_made) as (t & m & MT & U & X).
  injection MT as <-. apply Ok_inj in U. subst m. apply (X sent new_jwe [raw_sym (lit "secret")] (raw_sym (lit "secret")) VNone VNone (VStr kw_tok)); try reflexivity; [apply only_fit; apply raw_suitable|left; reflexivity|left; reflexivity].
Qed.
(** C52: the key is not tried after another symmetric key. *)
Lemma kw_second_refuted : forall sent, jwe_decrypt std sent new_jwe (VStr kw_tok) (Some [raw_sym (lit "other"); raw_sym (lit "secret")]) VNone [] = Raise EValueError.
Proof. intro sent. vm_compute. reflexivity. Qed.

(** ** A GCM token whose tag has 15 octets (C48) *)
Definition gcm_jwe : jwe := ex_jwe (lit "A128KW") (lit "A128GCM") (VStr (lit "hi")).
Definition gcm_cek : bytes := map Z.of_nat (seq 1 16).
Definition gcm_iv : bytes := repeat 0 11 ++ [61].
Lemma gcm_made : exists tok, jwe_encrypt std ex_draws gcm_jwe (Some [raw_sym (lit "secret")]) gcm_cek gcm_iv None = Ok (tok, w_set gcm_jwe (lit "cek") VNone).
Proof.
  apply (sym_encrypts std ex_draws std_aes_law std_hmac_law std_hash_law ex_draws_ok gcm_jwe (lit "A128KW") (lit "A128GCM") 16%nat 12%nat (lit "hi") (lit "hi") [raw_sym (lit "secret")] (raw_sym (lit "secret")) VNone gcm_cek gcm_iv None (lit "secret") (VStr [])); try reflexivity.
  - left. reflexivity.
  - discriminate.
  - apply ex_json; reflexivity.
  - discriminate.
  - intros he H. vm_compute in H. apply Ok_inj in H. subst he. reflexivity.
  - apply only_fit. apply raw_suitable.
  - discriminate.
  - right. split; reflexivity.
  - right. split; reflexivity.
Qed.
Definition gcm_head : ustr := b64e (lit "{""alg"":""A128KW"",""enc"":""A128GCM""}").
Lemma gcm_t_value : gcm_t std (long_to_bytes (be2z gcm_cek) 16) (z2be 12 (be2z gcm_iv)) gcm_head (gcm_c std (long_to_bytes (be2z gcm_cek) 16) (z2be 12 (be2z gcm_iv)) (lit "hi")) = 0xa1787f08fa2efc68e85056d8242d66.
Proof. vm_compute. reflexivity. Qed.
Lemma short_length : forall tag, bytes_ok tag = true -> (1 <= length tag <= 16)%nat -> (hd 0 tag = 0 -> be2z tag = 0) -> be2z tag = 0xa1787f08fa2efc68e85056d8242d66 -> length tag = 15%nat.
Proof.
  intros tag B L Z T. pose proof (be2z_bound tag B) as Y. rewrite T in Y.
  assert (L14 : ~ (length tag <= 14)%nat).
  { intro X. assert (H : 256 ^ Z.of_nat (length tag) <= 256 ^ 14) by (apply Z.pow_le_mono_r; lia). assert (H2 : 256 ^ 14 <= 0xa1787f08fa2efc68e85056d8242d66) by (vm_compute; discriminate). lia. }
  assert (L16 : length tag <> 16%nat); [|lia].
  intro X. destruct tag as [|h tag]; [discriminate X|]. injection X as X. cbn [hd] in Z. change (bytes_ok (h :: tag)) with (is_byte h && bytes_ok tag) in B. apply andb_true_iff in B. destruct B as [B1 B2].
  rewrite be2z_cons, X in T. clear Y. pose proof (be2z_bound tag B2) as Y. assert (h <> 0) by (intros ->; specialize (Z eq_refl); rewrite be2z_cons, X in Z; rewrite Z in T; discriminate T).
  unfold is_byte in B1. change (256 ^ Z.of_nat 15) with 0x1000000000000000000000000000000 in *. lia.
Qed.
Theorem short_tag_refuted : exists w keys cek iv tok w' h ek ivb ct tag, dget (w_dict w) (lit "enc") = Some (VStr (lit "A128GCM")) /\
  jwe_encrypt std ex_draws w (Some keys) cek iv None = Ok (tok, w') /\ tok = join 46 [h; ek; b64e ivb; b64e ct; b64e tag] /\ b64d (b64e tag) = Ok tag /\ length tag = 15%nat.
Proof.
  destruct gcm_made as [tok M]. exists gcm_jwe, [raw_sym (lit "secret")], gcm_cek, gcm_iv, tok, (w_set gcm_jwe (lit "cek") VNone).
  destruct (sym_token_tag std ex_draws std_aes_law std_hmac_law ex_draws_ok gcm_jwe (Some [raw_sym (lit "secret")]) gcm_cek gcm_iv None tok _ (lit "A128KW") (lit "A128GCM") eq_refl eq_refl eq_refl (or_introl eq_refl) eq_refl eq_refl M)
    as (t & m & key & iv' & ek & ct & tag & MT & U & K & I & J & B & (ks & k & r & JK & PK & HE) & F).
  injection MT as <-. assert (m = lit "hi") by (apply Ok_inj; rewrite <- U; reflexivity). subst m. rewrite (K ltac:(discriminate)), (I ltac:(discriminate)) in *. clear K I.
  change (jws_keys std (as_jws gcm_jwe) (Some [raw_sym (lit "secret")])) with (Ok [Some (raw_sym (lit "secret"))] : res (list (option jwk))) in JK. apply Ok_inj in JK. subst ks.
  assert (k = raw_sym (lit "secret")) by (vm_compute in PK; apply Ok_inj in PK; injection PK as <- _; reflexivity). subst k.
  assert (E : seg tok 0 = gcm_head) by (apply Ok_inj; rewrite <- HE; vm_compute; reflexivity). rewrite E in F. destruct (F eq_refl) as (-> & T & L & Z). rewrite gcm_t_value in T.
  eexists (seg tok 0), ek, gcm_iv, _, tag. split; [reflexivity|]. split; [exact M|]. split; [exact J|]. split; [apply b64d_b64e; exact B|].
  exact (short_length tag B L Z T).
Qed.

(** ** RSA *)
Lemma std_rsa_total : forall s c, (length c <= 30)%nat -> bytes_ok c = true -> exists ek, p_rsa_encrypt std s enc_rsakey (r_pad ex_draws) c = Ok ek /\ bytes_ok ek = true.
Proof.
  intros s c L B. destruct (rsa_encrypt_total enc_rsakey s (r_pad ex_draws) c enc_rsa_wf B) as [ek E].
  - change (mod_bits enc_rsakey) with 768. lia.
  - exists ek. split; [exact E|]. apply (std_rsa_enc_law enc_rsakey enc_rsa_wf s (r_pad ex_draws) c ek B). left. exact E.
Qed.
Definition rsa_jwe (a : ustr) : jwe := zip_jwe a (lit "A128GCM") (VBytes [104; 105; 200]).
Lemma rsa_made : forall a, In a RSA_ALGS -> exists tok c, jwe_encrypt std ex_draws (rsa_jwe a) (Some [enc_rsa]) [] [] None = Ok (tok, w_set (rsa_jwe a) (lit "cek") (VBytes c)).
Proof.
  intros a IA. assert (SA : scalars a = true) by (repeat (destruct IA as [<-|IA]; [reflexivity|]); destruct IA).
  apply (rsa_encrypts std ex_draws std_aes_law std_hmac_law ex_draws_ok std_zip_law (rsa_jwe a) a (lit "A128GCM") 16%nat 12%nat [104; 105; 200] (p_compress std [104; 105; 200]) [enc_rsa] enc_rsa VNone [] [] None enc_rsakey []); try assumption; try reflexivity.
  - right. split; reflexivity.
  - apply Z.leb_le. vm_compute. reflexivity.
  - apply zip_json; [exact SA|reflexivity].
  - split; cbn; intros; try discriminate; eexists; reflexivity.
  - intros he H. repeat (destruct IA as [<-|IA]; [vm_compute in H; apply Ok_inj in H; subst he; reflexivity|]). destruct IA.
  - apply only_fit. apply rsa_suitable.
  - intros s c _ L B. apply std_rsa_total; [lia|exact B].
  - left. reflexivity.
  - left. reflexivity.
Qed.
Lemma rsa_opens : forall a, In a RSA_ALGS -> exists tok c, jwe_encrypt std ex_draws (rsa_jwe a) (Some [enc_rsa]) [] [] None = Ok (tok, w_set (rsa_jwe a) (lit "cek") (VBytes c)) /\
  forall sent alg, sent 1%nat <> c -> alg = VNone \/ alg = VStr a -> jwe_decrypt std sent new_jwe (VStr tok) (Some [enc_rsa]) alg [] = Ok ([104; 105; 200], w_set new_jwe (lit "cek") (VBytes c)).
Proof.
  intros a IA. assert (SA : scalars a = true) by (repeat (destruct IA as [<-|IA]; [reflexivity|]); destruct IA).
  destruct (rsa_made a IA) as (tok & c & M). exists tok, c. split; [exact M|].
  destruct (jwe_rsa_roundtrip std ex_draws std_aes_law std_hmac_law ex_draws_ok std_zip_law (rsa_jwe a) a [enc_rsa] enc_rsa VNone [] [] None tok _ IA eq_refl (zip_json a (lit "A128GCM") _ _ SA eq_refl) eq_refl
    ltac:(intros kj s E; discriminate E) eq_refl (only_fit _ _ _ (rsa_suitable a)) enc_rsakey [] enc_rsakey eq_refl (or_introl eq_refl) (std_rsa_enc_law enc_rsakey enc_rsa_wf) eq_refl eq_refl
    ltac:(intros b E; injection E as <-; reflexivity) M) as (p & c' & MO & W & _ & X).
  apply Ok_inj in MO. subst p. assert (c' = c).
  { apply (f_equal (fun w => dget (w_dict w) (lit "cek"))) in W. unfold w_set in W. cbn [w_dict] in W. rewrite !dget_dset_same in W. congruence. }
  subst c'. intros sent alg S AL. apply (X sent new_jwe [enc_rsa] enc_rsa VNone alg (VStr tok) eq_refl (only_fit _ _ _ (rsa_suitable a)) AL (or_introl eq_refl)) with (nums' := []); [reflexivity|reflexivity|]. intros _. exact S.
Qed.
(** C54: further segments are accepted. *)
Theorem further_segment_refuted : exists sent tok keys m w', (6 <= length (split 46 tok))%nat /\ jwe_decrypt std sent new_jwe (VStr tok) (Some keys) (VStr (lit "RSA-OAEP")) [] = Ok (m, w').
Proof.
  destruct (rsa_opens (lit "RSA-OAEP") (or_introl eq_refl)) as (tok & c & M & O). set (sent := fun _ : nat => 256 :: c). specialize (O sent (VStr (lit "RSA-OAEP"))).
  assert (D : sent 1%nat <> c) by (intro X; apply (f_equal (@length Z)) in X; cbn [sent length] in X; lia). specialize (O D (or_intror eq_refl)).
  assert (T : truthy (VStr tok) = true) by (destruct tok; [discriminate O|reflexivity]).
  destruct (decrypt_accepts std _ _ _ _ _ _ _ _ T O) as (j & a & f & m0 & U & A & AA & FA & OP & MM). specialize (AA eq_refl). injection AA as <-.
  destruct (opened_segments std _ _ _ U OP) as (tok' & TT & L5 & LP & _).
  assert (tok' = tok) by (destruct TT as [E|E]; [injection E as <-; reflexivity|discriminate E]). subst tok'.
  exists sent, (tok ++ 46 :: b64e [1]), [enc_rsa], [104; 105; 200], (w_set new_jwe (lit "cek") (VBytes c)). split.
  - pose proof (unpack_longer _ _ [1] U eq_refl) as UL. destruct (unpack_segments _ _ UL) as (tok2 & T2 & E2 & _). cbn [j_b64] in E2.
    destruct (unpack_segments _ _ U) as (tok3 & T3 & E3 & _). cbn [longer] in T2.
    assert (tok2 = tok ++ 46 :: b64e [1]) by (destruct T2 as [E|E]; [injection E as <-; reflexivity|discriminate E]). subst tok2.
    assert (tok3 = tok) by (destruct T3 as [E|E]; [injection E as <-; reflexivity|discriminate E]). subst tok3.
    rewrite <- E2, E3, app_length. cbn [length]. rewrite Nat.add_1_r. apply le_n_S. exact L5.
  - apply (further_segments std sent new_jwe (VStr tok) (Some [enc_rsa]) _ [] _ _ [1] (VStr (lit "RSA-OAEP")) f T O eq_refl); [rewrite U; exact A|exact FA|].
    intros ->. discriminate FA.
Qed.

(** ** ECDH-ES *)
Definition ec_jwe (a : ustr) : jwe := ex_jwe a (lit "A128CBC-HS256") (VStr [104; 233; 105]).
Lemma ec_made : forall a, In a EC_ALGS -> exists tok, jwe_encrypt std ex_draws (ec_jwe a) (Some [ex_ec]) [] [] None = Ok (tok, w_set (ec_jwe a) (lit "cek") VNone).
Proof.
  intros a IA. assert (SA : scalars a = true) by (repeat (destruct IA as [<-|IA]; [reflexivity|]); destruct IA).
  apply (ec_encrypts std ex_draws std_aes_law std_hmac_law std_hash_law ex_draws_ok (lit "P-256") P256 eq_refl (ec_jwe a) a (lit "A128CBC-HS256") 32%nat 16%nat [104; 195; 169; 105] [ex_ec] ex_ec VNone [] [] None
    onone (VStr (lit "P-256")) (fst (c_G P256)) (snd (c_G P256)) (VInt 1) (OCurve P256) 1); try assumption; try reflexivity.
  - intros n I. cbn [In] in I. repeat (destruct I as [<-|I]; [reflexivity|]). destruct I.
  - apply Z.leb_le. vm_compute. reflexivity.
  - apply ex_json; [exact SA|reflexivity].
  - intros v E. discriminate E.
  - intros b PB he H. vm_compute in PB. apply Ok_inj in PB. injection PB as <-.
    repeat (destruct IA as [<-|IA]; [vm_compute in H; apply Ok_inj in H; subst he; reflexivity|]). destruct IA.
  - apply only_fit. apply ec_suitable.
  - split; vm_compute; reflexivity.
  - intros d x y H. vm_compute in H. injection H as <- <- <-. split; reflexivity.
Qed.

Lemma ec_opens : forall a, In a EC_ALGS -> exists tok, jwe_encrypt std ex_draws (ec_jwe a) (Some [ex_ec]) [] [] None = Ok (tok, w_set (ec_jwe a) (lit "cek") VNone) /\
  forall sent, jwe_decrypt std sent new_jwe (VStr tok) (Some [ex_ec]) VNone [] = Ok ([104; 195; 169; 105], w_set new_jwe (lit "cek") VNone).
Proof.
  intros a IA. assert (SA : scalars a = true) by (repeat (destruct IA as [<-|IA]; [reflexivity|]); destruct IA).
  destruct (ec_made a IA) as (tok & M). exists tok. split; [exact M|].
  destruct (jwe_ec_roundtrip std ex_draws std_aes_law std_hmac_law std_hash_law ex_draws_ok (lit "P-256") P256 eq_refl (ec_jwe a) a [ex_ec] ex_ec VNone [] [] None tok _
    onone (VStr (lit "P-256")) (fst (c_G P256)) (snd (c_G P256)) (VInt 1) (OCurve P256) 1 IA eq_refl (ex_json a (lit "A128CBC-HS256") _ _ SA eq_refl) eq_refl
    ltac:(intros v E; discriminate E) eq_refl (only_fit _ _ _ (ec_suitable a)) eq_refl eq_refl ltac:(split; reflexivity) ltac:(vm_compute; reflexivity) I
    ltac:(intros b E; discriminate E) ltac:(intros b E; discriminate E) M) as (p & MO & X).
  assert (p = [104; 195; 169; 105]) by (apply Ok_inj; rewrite <- MO; reflexivity). subst p.
  intro sent. apply (X sent new_jwe [ex_ec] ex_ec VNone VNone (VStr tok) [] onone (VStr (lit "P-256")) (VInt (fst (c_G P256))) (VInt (snd (c_G P256))) (OCurve P256));
    [reflexivity|apply only_fit; apply ec_suitable|reflexivity|left; reflexivity|left; reflexivity].
Qed.

(** ** Refuting cases of the round trip (C51) *)
Lemma kw_bytes_refuted : jwe_encrypt std ex_draws (ex_jwe (lit "A128KW") (lit "A128CBC-HS256") (VBytes (lit "hi"))) (Some [raw_sym (lit "secret")]) [] [] None = Raise EAttributeError.
Proof. vm_compute. reflexivity. Qed.
Definition public_ec : jwk := fields (VStr (lit "EC")) (VStr []) (VStr (lit "enc")) (VStr (lit "ec1"))
  (DEc onone (VStr (lit "P-256")) (VInt (fst (c_G P256))) (VInt (snd (c_G P256))) (VStr []) (OCurve P256)).
Lemma ec_public_refuted : jwe_encrypt std ex_draws (ec_jwe (lit "ECDH-ES")) (Some [public_ec]) [] [] None = Raise EValueError.
Proof. vm_compute. reflexivity. Qed.

(** ** A key that is passed over (C52) *)
Definition bad_rsakey : rsakey := {| r_n := p384 * n384; r_e := 65537; r_d := Some 0; r_pq := None |}.
Definition bad_rsa : jwk := fields (VStr (lit "RSA")) (VStr []) (VStr (lit "enc")) (VStr (lit "r2")) (DRsa (ORsa bad_rsakey) []).
Lemma second_rsa : exists tok c, jwe_encrypt std ex_draws (rsa_jwe (lit "RSA1_5")) (Some [enc_rsa]) [] [] None = Ok (tok, w_set (rsa_jwe (lit "RSA1_5")) (lit "cek") (VBytes c)) /\
  exists j ek, unpack (VStr tok) = Ok j /\ py_get (j_headers j) (lit "alg") = Ok (VStr (lit "RSA1_5")) /\ nth_error (j_part j) 1 = Some (VBytes ek) /\ passes std ek bad_rsa /\
  forall sent, (forall n, sent n <> c) -> jwe_decrypt std sent new_jwe (VStr tok) (Some [bad_rsa; enc_rsa]) VNone [] = Ok ([104; 105; 200], w_set new_jwe (lit "cek") (VBytes c)).
Proof.
  destruct (rsa_opens (lit "RSA1_5") ltac:(right; right; left; reflexivity)) as (tok & c & M & O). exists tok, c. split; [exact M|].
  set (sent := fun _ : nat => 256 :: c). assert (D : sent 1%nat <> c) by (intro X; apply (f_equal (@length Z)) in X; cbn [sent length] in X; lia).
  pose proof (O sent (VStr (lit "RSA1_5")) D (or_intror eq_refl)) as H. pose proof (O sent VNone D (or_introl eq_refl)) as H0.
  assert (T : truthy (VStr tok) = true) by (destruct tok; [discriminate H|reflexivity]).
  destruct (decrypt_accepts std _ _ _ _ _ _ _ _ T H) as (j & a & f & m0 & U & A & AA & FA & OP & MM). specialize (AA eq_refl). injection AA as <-.
  assert (E : exists ek, nth_error (j_part j) 1 = Some (VBytes ek) /\ exists q, p_rsa_decrypt std RSA15 enc_rsakey ek = Ok q).
  { unfold jwe_decrypt in H0. rewrite T, U in H0. cbn [bind] in H0. rewrite A in H0. cbn [bind] in H0. change (truthy VNone && _) with false in H0. cbv iota in H0.
    change (jws_keys std (as_jws new_jwe) (Some [enc_rsa])) with (Ok [Some enc_rsa] : res (list (option jwk))) in H0. cbn [bind] in H0.
    change (pick_keys (as_jws new_jwe) [Some enc_rsa] (VStr (lit "enc")) (VStr (lit "RSA1_5"))) with (Ok [enc_rsa] : res (list jwk)) in H0. cbn [bind] in H0.
    change (is_nil [enc_rsa] && is_nil (@nil Z)) with false in H0. cbv iota in H0. change (family_of (VStr (lit "RSA1_5"))) with (Ok FRsa) in H0. cbn [bind cek_first is_nil dec_loop] in H0.
    change (key_material std enc_rsa (VStr (lit "RSA1_5")) false) with (Ok (MObj (ORsa enc_rsakey))) in H0. cbn [bind] in H0.
    destruct (rsa_jwe_decrypt std (sent 1%nat) j (Some (MObj (ORsa enc_rsakey))) []) as [[m1 c1]|e] eqn:R; [|destruct e; discriminate H0].
    unfold rsa_jwe_decrypt in R. destruct (part j 1) as [ek|] eqn:PE; [|discriminate]. cbn [bind] in R. apply part_inv in PE. exists ek. split; [exact PE|].
    rewrite A in R. cbn [bind is_nil negb] in R. change (rsa_scheme (VStr (lit "RSA1_5"))) with (Some RSA15) in R. cbv iota in R. cbn [as_rsa bind] in R. unfold rsa_decrypt in R.
    destruct (p_rsa_decrypt std RSA15 enc_rsakey ek) as [q|]; [exists q; reflexivity|discriminate R]. }
  destruct E as (ek & PE & q & DQ). exists j, ek. split; [exact U|]. split; [exact A|]. split; [exact PE|].
  assert (PS : passes std ek bad_rsa).
  { exists bad_rsakey, []. split; [reflexivity|]. change (p_rsa_decrypt std) with Rsa.rsa_decrypt in *. unfold Rsa.rsa_decrypt in *. change (mod_len bad_rsakey) with (mod_len enc_rsakey).
    destruct (Nat.eqb (length ek) (mod_len enc_rsakey)); [|discriminate]. cbn [negb] in *. unfold rsa_private_op in *. cbn [r_d r_n bad_rsakey enc_rsakey bind] in *.
    destruct (_ && _); [|discriminate]. cbn [bind]. vm_compute. reflexivity. }
  split; [exact PS|]. intros sent' S. apply (decrypt_skips std sent sent' new_jwe (VStr tok) enc_rsa VNone _ c j ek VNone [bad_rsa] [] T H0 U A PE eq_refl); [constructor; [exact PS|constructor]|exact S].
Qed.
