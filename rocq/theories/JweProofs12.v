(** * JWE: the properties of accepted and of produced tokens, one by one *)
From Coq Require Import ZArith List Bool Lia.
From Verif Require Import Base BaseProofs Utf8 Codec CodecProofs Json JsonProofs Jwt JwtProofs Prims Elliptic Ecc EccProofs EcAux KeyWrap KeyWrapProofs Extra ExtraProofs Gcm GcmSpec PvalEq Jwk JwkProofs JwkProofs2 Jws JwsProofs JwsProofs2 JwsProofs3 JwsProofs4 JwsProofs6 Jwe JweProofs JweProofs2 JweProofs3 JweProofs4 JweProofs5 JweProofs6 JweProofs7 JweProofs8 JweProofs9 JweProofs10 JweProofs11.
Import ListNotations.
Open Scope Z_scope.

Section Accepted.
Variable P : prims.

(** The text of a token, given as text or bytes. *)
Definition token_text (token : pval) (tok : ustr) : Prop := token = VStr tok \/ token = VBytes tok.
(** [a] is the alg of the header in the first segment of [tok]. *)
Definition header_of (tok : ustr) (h : pval) : Prop := exists hb t, b64d (seg tok 0) = Ok hb /\ utf8_decode hb = Ok t /\ loads t = Ok h.

Theorem alg_honoured : forall sent w token keys alg cek m w', truthy token = true -> truthy alg = true -> jwe_decrypt P sent w token keys alg cek = Ok (m, w') ->
  exists tok h, token_text token tok /\ header_of tok h /\ py_get h (lit "alg") = Ok alg.
Proof.
  intros sent w token keys alg cek m w' T A H. destruct (decrypt_accepts P _ _ _ _ _ _ _ _ T H) as (j & a & f & m0 & U & HA & AA & _ & O & _).
  destruct (opened_segments P _ _ _ U O) as (tok & TT & _ & _ & hb & t & enc & key & ct & iv & tag & B & UT & L & _). exists tok, (j_headers j). split; [exact TT|]. split; [exists hb, t; auto|].
  rewrite (AA A). exact HA.
Qed.
(** Decryption uses the text of the first segment as associated data. *)
Theorem header_checked : forall sent w token keys alg cek m w', truthy token = true -> jwe_decrypt P sent w token keys alg cek = Ok (m, w') ->
  exists tok h enc key ct iv tag m0, token_text token tok /\ header_of tok h /\ py_get h (lit "enc") = Ok enc /\
    b64d (seg tok 2) = Ok iv /\ b64d (seg tok 3) = Ok ct /\ b64d (seg tok 4) = Ok tag /\ content_decrypt P enc key ct (seg tok 0) iv tag = Ok m0 /\
    (m = m0 \/ p_decompress P m0 = Ok m).
Proof.
  intros sent w token keys alg cek m w' T H. destruct (decrypt_accepts P _ _ _ _ _ _ _ _ T H) as (j & a & f & m0 & U & HA & AA & _ & O & M).
  destruct (opened_segments P _ _ _ U O) as (tok & TT & _ & _ & hb & t & enc & key & ct & iv & tag & B & UT & L & EN & S2 & S3 & S4 & C).
  exists tok, (j_headers j), enc, key, ct, iv, tag, m0. repeat split; try assumption; [exists hb, t; auto|]. destruct f; [destruct M as [M|[_ M]]; auto|left; apply M|auto].
Qed.
Theorem at_least_five : forall sent w token keys alg cek m w', truthy token = true -> jwe_decrypt P sent w token keys alg cek = Ok (m, w') ->
  exists tok, token_text token tok /\ (5 <= length (split 46 tok))%nat.
Proof.
  intros sent w token keys alg cek m w' T H. destruct (decrypt_accepts P _ _ _ _ _ _ _ _ T H) as (j & a & f & m0 & U & HA & AA & _ & O & M).
  destruct (opened_segments P _ _ _ U O) as (tok & TT & L & _). exists tok. auto.
Qed.
Theorem sym_exactly_five : forall sent w token keys alg cek m w' tok h a, truthy token = true -> jwe_decrypt P sent w token keys alg cek = Ok (m, w') ->
  token_text token tok -> header_of tok h -> py_get h (lit "alg") = Ok (VStr a) -> startswith a (lit "A") = true -> ends_KW a = true -> length (split 46 tok) = 5%nat.
Proof.
  intros sent w token keys alg cek m w' tok h a T H TT (hb & t & B & UT & L) HA A1 A2. destruct (decrypt_accepts P _ _ _ _ _ _ _ _ T H) as (j & a' & f & m0 & U & HA' & AA & FA & O & M).
  destruct (opened_segments P _ _ _ U O) as (tok' & TT' & L5 & LP & hb' & t' & enc & key & ct & iv & tag & B' & UT' & L' & _).
  assert (tok' = tok) by (destruct TT as [-> | ->], TT' as [X|X]; congruence). subst tok'. rewrite B in B'. apply Ok_inj in B'. subst hb'. rewrite UT in UT'. apply Ok_inj in UT'. subst t'. rewrite L in L'. apply Ok_inj in L'. subst h.
  rewrite HA in HA'. apply Ok_inj in HA'. injection HA' as <-.
  assert (f = FSym).
  { unfold family_of in FA. destruct (in_texts (VStr a) _) eqn:I; [|rewrite A1, A2 in FA; apply Ok_inj in FA; congruence].
    unfold in_texts in I. cbn [existsb pval_eqb] in I. rewrite !orb_true_iff, !zs_eqb_eq in I. destruct I as [->|[->|[->|I]]]; discriminate. }
  subst f. destruct M as [_ M]. rewrite <- LP. exact M.
Qed.
Theorem not_decompressed : forall sent w token keys alg cek m w' tok h a, truthy token = true -> jwe_decrypt P sent w token keys alg cek = Ok (m, w') ->
  token_text token tok -> header_of tok h -> py_get h (lit "alg") = Ok (VStr a) -> ~ In a RSA_ALGS ->
  exists enc key ct iv tag, py_get h (lit "enc") = Ok enc /\ b64d (seg tok 2) = Ok iv /\ b64d (seg tok 3) = Ok ct /\ b64d (seg tok 4) = Ok tag /\ content_decrypt P enc key ct (seg tok 0) iv tag = Ok m.
Proof.
  intros sent w token keys alg cek m w' tok h a T H TT (hb & t & B & UT & L) HA NA. destruct (decrypt_accepts P _ _ _ _ _ _ _ _ T H) as (j & a' & f & m0 & U & HA' & AA & FA & O & M).
  destruct (opened_segments P _ _ _ U O) as (tok' & TT' & L5 & LP & hb' & t' & enc & key & ct & iv & tag & B' & UT' & L' & EN & S2 & S3 & S4 & C).
  assert (tok' = tok) by (destruct TT as [-> | ->], TT' as [X|X]; congruence). subst tok'. rewrite B in B'. apply Ok_inj in B'. subst hb'. rewrite UT in UT'. apply Ok_inj in UT'. subst t'. rewrite L in L'. apply Ok_inj in L'. subst h.
  rewrite HA in HA'. apply Ok_inj in HA'. injection HA' as <-. exists enc, key, ct, iv, tag. repeat split; try assumption.
  destruct f; [|destruct M as [-> _]; exact C|subst m0; exact C]. exfalso. apply NA. unfold family_of in FA. destruct (in_texts (VStr a) _) eqn:I; [|destruct (_ && _); [discriminate|destruct (startswith _ _); discriminate]].
  unfold in_texts in I. cbn [existsb pval_eqb] in I. rewrite !orb_true_iff, !zs_eqb_eq in I. destruct I as [->|[->|[->|I]]]; [left|right; left|right; right; left|discriminate]; reflexivity.
Qed.
Lemma content_known : forall enc key ct aad iv tag m, content_decrypt P enc key ct aad iv tag = Ok m -> exists e, enc = VStr e /\ In e SUPPORTED_ENC.
Proof.
  intros enc key ct aad iv tag m H. unfold content_decrypt in H. destruct (in_texts enc GCM_ENCS) eqn:G; [|destruct (in_texts enc CBC_ENCS) eqn:B; [clear G; rename B into G|discriminate]]; clear H;
  destruct enc; try discriminate; cbn [in_texts GCM_ENCS CBC_ENCS existsb pval_eqb] in G; rewrite !orb_true_iff, !zs_eqb_eq in G; eexists; (split; [reflexivity|]);
  destruct G as [->|[->|[->|G]]]; try discriminate G; unfold SUPPORTED_ENC; cbn [In]; auto 10.
Qed.
Theorem known_enc_accepted : forall sent w token keys alg cek m w', truthy token = true -> jwe_decrypt P sent w token keys alg cek = Ok (m, w') ->
  exists tok h e, token_text token tok /\ header_of tok h /\ py_get h (lit "enc") = Ok (VStr e) /\ In e SUPPORTED_ENC.
Proof.
  intros sent w token keys alg cek m w' T H. destruct (header_checked _ _ _ _ _ _ _ _ T H) as (tok & h & enc & key & ct & iv & tag & m0 & TT & HH & EN & _ & _ & _ & C & _).
  destruct (content_known _ _ _ _ _ _ _ C) as (e & -> & I). exists tok, h, e. auto.
Qed.
Theorem ecdh_party : forall sent w token keys alg m w' tok h a cek, truthy token = true -> jwe_decrypt P sent w token keys alg cek = Ok (m, w') ->
  token_text token tok -> header_of tok h -> py_get h (lit "alg") = Ok (VStr a) -> startswith a (lit "ECDH-ES") = true ->
  forall n, n = lit "apu" \/ n = lit "apv" -> exists t u b, py_get h n = Ok (VStr t) /\ utf8_encode t = Ok u /\ b64d u = Ok b.
Proof.
  intros sent w token keys alg m w' tok h a cek T H TT (hb & t & B & UT & L) HA SE. destruct (decrypt_accepts P _ _ _ _ _ _ _ _ T H) as (j & a' & f & m0 & U & HA' & AA & FA & O & M).
  destruct (opened_segments P _ _ _ U O) as (tok' & TT' & L5 & LP & hb' & t' & enc & key & ct & iv & tag & B' & UT' & L' & _).
  assert (tok' = tok) by (destruct TT as [-> | ->], TT' as [X|X]; congruence). subst tok'. rewrite B in B'. apply Ok_inj in B'. subst hb'. rewrite UT in UT'. apply Ok_inj in UT'. subst t'. rewrite L in L'. apply Ok_inj in L'. subst h.
  rewrite HA in HA'. apply Ok_inj in HA'. injection HA' as <-.
  assert (f = FEc).
  { unfold family_of in FA. destruct (in_texts (VStr a) _) eqn:I.
    - unfold in_texts in I. cbn [existsb pval_eqb] in I. rewrite !orb_true_iff, !zs_eqb_eq in I. destruct I as [->|[->|[->|I]]]; discriminate.
    - assert (S : startswith a (lit "A") = false) by (destruct a as [|x a]; [reflexivity|]; change (startswith (x :: a) (lit "ECDH-ES")) with (Z.eqb 69 x && startswith a (lit "CDH-ES")) in SE; apply andb_true_iff in SE; destruct SE as [SE _]; apply Z.eqb_eq in SE; subst x; reflexivity).
      rewrite S in FA. cbn [andb] in FA. rewrite SE in FA. apply Ok_inj in FA. congruence. }
  subst f. unfold jwe_decrypt in H. rewrite T, U in H. cbn [bind] in H. rewrite HA in H. cbn [bind] in H. destruct (truthy alg && _); [discriminate|].
  destruct (jws_keys P (as_jws w) keys) as [ks|]; [|discriminate]. cbn [bind] in H. destruct (pick_keys (as_jws w) ks (VStr (lit "enc")) (VStr a)) as [ks'|]; [|discriminate]. cbn [bind] in H.
  destruct (is_nil ks' && is_nil cek); [discriminate|]. rewrite FA in H. cbn [bind] in H. destruct ks' as [|k r]; [discriminate|]. destruct (ec_dec_setup P j k) as [ck|] eqn:E; [|discriminate].
  exact (ecdh_needs_party P j k ck E).
Qed.
End Accepted.

(** ** Produced tokens *)
Theorem known_enc_produced : forall P R, hash_law P -> draws_ok R -> forall w keys cek iv kw tok w', bytes_ok cek = true -> bytes_ok iv = true ->
  jwe_encrypt P R w keys cek iv kw = Ok (tok, w') ->
  exists h e, b64encode_item (VDict h) = Ok (seg tok 0) /\ dget h (lit "enc") = Some (VStr e) /\ In e SUPPORTED_ENC.
Proof.
  intros P R HL DR w keys cek iv kw tok w' B1 B2 H. destruct (header_protected P R HL DR w keys cek iv kw tok w' B1 B2 H) as (h & alg & enc & m & key & iv' & ct & tag & rest & E & _ & EN & S & NK & NI & _).
  exists h. unfold enc_setup in S. destruct (generate_key_and_iv R enc key iv') as [[k2 v2]|] eqn:G; [|discriminate]. cbn [bind] in S.
  assert (K : exists e, enc = VStr e /\ In e SUPPORTED_ENC).
  { destruct (in_texts enc GCM_ENCS) eqn:Q; [|destruct (in_texts enc CBC_ENCS) eqn:B; [clear Q; rename B into Q|discriminate]]; clear S G EN;
    destruct enc; try discriminate; cbn [in_texts GCM_ENCS CBC_ENCS existsb pval_eqb] in Q; rewrite !orb_true_iff, !zs_eqb_eq in Q; eexists; (split; [reflexivity|]);
    destruct Q as [->|[->|[->|Q]]]; try discriminate Q; unfold SUPPORTED_ENC; cbn [In]; auto 10. }
  destruct K as (e & -> & I). exists e. auto.
Qed.
