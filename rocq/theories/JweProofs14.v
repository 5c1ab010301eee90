(** * JWE: the encryption scheme each RSA algorithm names; JWE_SYM used by itself *)
From Coq Require Import ZArith List Bool Lia ZifyBool.
From Verif Require Import Base BaseProofs Utf8 Codec CodecProofs Json JsonProofs Jwt JwtProofs Prims Elliptic Ecc EccProofs EcAux KeyWrap KeyWrapProofs Extra ExtraProofs Gcm PvalEq Jwk JwkProofs JwkProofs2 Jws JwsProofs JwsProofs2 JwsProofs3 JwsProofs4 JwsProofs6 Jwe JweProofs JweProofs2 JweProofs3 JweProofs4 JweProofs5 JweProofs6.
Import ListNotations.
Open Scope Z_scope.

(** RFC 7518, section 4.1. *)
Definition rsa_schemes : list (ustr * encscheme) := [(lit "RSA1_5", RSA15); (lit "RSA-OAEP", OAEP); (lit "RSA-OAEP-256", OAEP256)].

Lemma rsa_scheme_in : forall alg s, rsa_scheme alg = Some s -> exists a, alg = VStr a /\ In (a, s) rsa_schemes.
Proof.
  intros alg s H. unfold rsa_scheme in H.
  destruct (pval_eqb alg (VStr (lit "RSA-OAEP"))) eqn:E1; [apply eqb_str_r in E1; subst alg; injection H as <-; eexists; split; [reflexivity|cbn [rsa_schemes In]; auto]|].
  destruct (pval_eqb alg (VStr (lit "RSA-OAEP-256"))) eqn:E2; [apply eqb_str_r in E2; subst alg; injection H as <-; eexists; split; [reflexivity|cbn [rsa_schemes In]; auto]|].
  destruct (pval_eqb alg (VStr (lit "RSA1_5"))) eqn:E3; [apply eqb_str_r in E3; subst alg; injection H as <-; eexists; split; [reflexivity|cbn [rsa_schemes In]; auto]|]. discriminate H.
Qed.

Theorem rsa_receiver_scheme : forall P sentinel j key m cek, rsa_jwe_decrypt P sentinel j key [] = Ok (m, cek) ->
  exists h a s mat k ek, j_headers j = VDict h /\ dget h (lit "alg") = Some (VStr a) /\ In (a, s) rsa_schemes /\ key = Some mat /\ as_rsa mat = Ok k /\ part j 1 = Ok ek /\
    p_rsa_decrypt P s k ek = Ok (Some cek).
Proof.
  intros P sentinel j key m cek H. unfold rsa_jwe_decrypt in H. destruct (part j 1) as [ek|] eqn:PE; [|discriminate H]. cbn [bind] in H.
  destruct (j_headers j) as [| | | | | | |h]; try discriminate H. cbn [py_get] in H. destruct (dget h (lit "alg")) as [alg|] eqn:AL; [|discriminate H]. cbn [bind is_nil negb] in H.
  destruct (rsa_scheme alg) as [s|] eqn:RS; [|discriminate H]. apply rsa_scheme_in in RS. destruct RS as (a & -> & IS).
  destruct key as [mat|]; [|discriminate H]. destruct (as_rsa mat) as [k|] eqn:AR; [|discriminate H]. cbn [bind] in H.
  destruct (rsa_decrypt P false s k sentinel ek) as [c|] eqn:RD; [|discriminate H]. cbn [bind] in H.
  assert (E : c = cek).
  { destruct (dget h (lit "enc")) as [enc|]; [|discriminate H]. cbn [bind] in H. destruct (in_texts enc SUPPORTED_ENC); [|discriminate H].
    destruct (part j 3); [|discriminate H]. cbn [bind] in H. destruct (b64part j 0); [|discriminate H]. cbn [bind] in H. destruct (part j 2); [|discriminate H]. cbn [bind] in H. destruct (part j 4); [|discriminate H]. cbn [bind] in H.
    destruct (content_decrypt P enc c _ _ _ _); [|discriminate H]. cbn [bind] in H. destruct (py_in (lit "zip") (VDict h)); [|discriminate H]. cbn [bind] in H.
    match type of H with (x <- ?z;; _) = _ => destruct z; [|discriminate H] end. cbn [bind] in H. injection H as _ ->. reflexivity. }
  subst c. exists h, a, s, mat, k, ek. repeat (split; [first [reflexivity|assumption]|]).
  unfold rsa_decrypt in RD. destruct (p_rsa_decrypt P s k ek) as [r|]; [|discriminate RD]. cbn [bind] in RD. destruct s; cbv zeta in RD.
  - destruct r as [t|]; [|rewrite zs_eqb_refl in RD; discriminate RD]. destruct (zs_eqb t sentinel); [discriminate RD|]. injection RD as ->. reflexivity.
  - destruct r; [|discriminate RD]. injection RD as ->. reflexivity.
  - destruct r; [|discriminate RD]. injection RD as ->. reflexivity.
Qed.

Theorem rsa_sender_scheme : forall P R, draws_ok R -> forall d jobj eobj msg key iv tok cek, bytes_ok iv = true ->
  rsa_jwe_encrypt P R d jobj eobj msg key [] iv = Ok (tok, cek) ->
  exists a s k ek he rest, dget d (lit "alg") = Some (VStr a) /\ In (a, s) rsa_schemes /\ as_rsa key = Ok k /\ p_rsa_encrypt P s k (r_pad R) cek = Ok ek /\
    (bytes_ok ek = true -> tok = he ++ [46] ++ b64e ek ++ [46] ++ rest /\ ~ In 46 he).
Proof.
  intros P R DR d jobj eobj msg key iv tok cek BI H.
  assert (AL : exists a, dget d (lit "alg") = Some (VStr a) /\ truthy (VStr a) = true).
  { unfold rsa_jwe_encrypt, dict_get in H. destruct (msg_bytes msg); [|discriminate H]. cbn [bind] in H. match type of H with (x <- ?z;; _) = _ => destruct z; [|discriminate H] end. cbn [bind] in H.
    destruct (dget d (lit "enc")); [|discriminate H]. cbn [bind] in H. destruct (generate_key_and_iv R _ [] iv) as [[? ?]|]; [|discriminate H]. cbn [bind] in H.
    destruct (dget d (lit "alg")) as [alg|]; [|discriminate H]. cbn [bind is_nil negb] in H. destruct (rsa_scheme alg) as [s|] eqn:RS; [|discriminate H]. apply rsa_scheme_in in RS. destruct RS as (aa & -> & IS).
    exists aa. split; [reflexivity|]. cbn [rsa_schemes In] in IS. repeat (destruct IS as [IS|IS]; [injection IS as <- _; reflexivity|]). contradiction. }
  destruct AL as (a & AL & T).
  destruct (rsa_inv P R DR d jobj eobj msg key [] iv tok cek (VStr a) eq_refl BI H AL T) as (p & m & enc & iv' & ek & h & he & ct & tag & _ & _ & _ & _ & _ & _ & EK & PR).
  destruct EK as [[X _]|[_ (s & k & RS & AR & RE)]]; [congruence|]. apply rsa_scheme_in in RS. destruct RS as (a' & E & IS). injection E as <-.
  destruct (pd_segments _ _ _ _ _ _ _ _ _ _ _ _ _ PR) as (ts & TS & J). change (mapM utf8_decode (b64e ek :: ?l)) with (x <- utf8_decode (b64e ek);; y <- mapM utf8_decode l;; Ok (x :: y)) in TS.
  destruct (utf8_decode (b64e ek)) as [te|] eqn:UE; [|discriminate TS]. cbn [bind] in TS. destruct (mapM utf8_decode _) as [y|] eqn:MY in TS; [|discriminate TS]. cbn [bind] in TS. apply Ok_inj in TS. subst ts.
  exists a, s, k, ek, he, (join 46 y). repeat (split; [first [reflexivity|assumption]|]). split; [unfold rsa_encrypt in RE; destruct s; exact RE|].
  intro BE. rewrite utf8_decode_ascii in UE by (apply b64e_ascii; exact BE). injection UE as <-. split; [|apply (header_ascii _ _ (pd_header _ _ _ _ _ _ _ _ _ _ _ _ _ PR))].
  rewrite J. cbn [mapM] in MY. destruct y as [|y0 y]; [repeat (match type of MY with context [bind ?x _] => destruct x; cbn [bind] in MY; [|discriminate MY] end); discriminate MY|]. reflexivity.
Qed.

(** ** JWE_SYM by itself *)

(** decrypt of JWE_SYM: five segments; the key unwraps the second; the result is decompressed just if the instance, not the
    header, says so. *)
Theorem sym_by_itself : forall P d j key cek m, sym_decrypt P d j key cek = Ok m <->
  (cek <> [] \/ exists mat, key = Some mat /\ mat <> MObj (OVal (VBytes []))) /\ length (j_part j) = 5%nat /\
  exists c h enc ct aad iv tag x,
    (cek <> [] /\ c = cek \/ cek = [] /\ exists mat k ek, key = Some mat /\ as_secret mat = Ok k /\ part j 1 = Ok ek /\ aes_unwrap_key P k ek = Ok c) /\
    j_headers j = VDict h /\ dget h (lit "enc") = Some enc /\ part j 3 = Ok ct /\ b64part j 0 = Ok aad /\ part j 2 = Ok iv /\ part j 4 = Ok tag /\
    content_decrypt P enc c ct aad iv tag = Ok x /\
    (dget d (lit "zip") = Some (VStr (lit "DEF")) /\ p_decompress P x = Ok m \/ dget d (lit "zip") <> Some (VStr (lit "DEF")) /\ x = m).
Proof.
  intros P d j key cek m. unfold sym_decrypt.
  assert (C : forall b, b = match key with None | Some (MObj (OVal (VBytes []))) => is_nil cek | _ => false end -> (b = false <-> (cek <> [] \/ exists mat, key = Some mat /\ mat <> MObj (OVal (VBytes []))))).
  { intros b ->. assert (N : is_nil cek = false <-> cek <> []) by (destruct cek; cbn [is_nil]; split; congruence). destruct key as [mat|].
    - destruct mat as [[rk|cc|v]|px py]; try (split; [intros _; right; eexists; split; [reflexivity|discriminate]|reflexivity]).
      destruct v as [| | | | |b| |]; try (split; [intros _; right; eexists; split; [reflexivity|discriminate]|reflexivity]).
      destruct b as [|b0 b]; [|split; [intros _; right; eexists; split; [reflexivity|discriminate]|reflexivity]].
      rewrite N. split; [left; assumption|]. intros [X|(mat & E & X)]; [exact X|]. injection E as <-. congruence.
    - rewrite N. split; [left; assumption|]. intros [X|(mat & E & _)]; [exact X|discriminate E]. }
  specialize (C _ eq_refl). destruct (match key with None | Some (MObj (OVal (VBytes []))) => is_nil cek | _ => false end).
  { split; [discriminate|]. intros (X & _). apply C in X. discriminate X. }
  destruct (Nat.eqb (length (j_part j)) 5) eqn:L; cbn [negb]; [apply Nat.eqb_eq in L|apply Nat.eqb_neq in L; split; [discriminate|intros (_ & X & _); contradiction]].
  split.
  - intro H. split; [apply C; reflexivity|]. split; [exact L|].
    match type of H with (x <- ?z;; _) = _ => destruct z as [c|] eqn:CK; [|discriminate H] end. cbn [bind] in H.
    destruct (j_headers j) as [| | | | | | |h]; try discriminate H. cbn [py_get] in H. destruct (dget h (lit "enc")) as [enc|] eqn:EN; [|discriminate H]. cbn [bind] in H.
    destruct (part j 3) as [ct|]; [|discriminate H]. cbn [bind] in H. destruct (b64part j 0) as [aad|]; [|discriminate H]. cbn [bind] in H. destruct (part j 2) as [iv|]; [|discriminate H]. cbn [bind] in H. destruct (part j 4) as [tag|]; [|discriminate H]. cbn [bind] in H.
    destruct (content_decrypt P enc c ct aad iv tag) as [x|] eqn:CD; [|discriminate H]. cbn [bind] in H.
    exists c, h, enc, ct, aad, iv, tag, x. split.
    { destruct cek as [|c0 cek]; cbn [is_nil] in CK; [right; split; [reflexivity|]|left; split; [discriminate|congruence]].
      destruct (part j 1) as [ek|]; [|discriminate CK]. cbn [bind] in CK. destruct key as [mat|]; [|discriminate CK]. destruct (as_secret mat) as [k|] eqn:AS; [|discriminate CK]. cbn [bind] in CK. exists mat, k, ek. auto. }
    repeat (split; [first [reflexivity|assumption]|]).
    destruct (dget d (lit "zip")) as [z|]; [|right; split; [discriminate|congruence]]. destruct (pval_eqb z (VStr (lit "DEF"))) eqn:Z; [apply eqb_str_r in Z; subst z; left; auto|].
    right. split; [|congruence]. intro X. injection X as ->. rewrite pval_eqb_str, zs_eqb_refl in Z. discriminate Z.
  - intros (_ & _ & c & h & enc & ct & aad & iv & tag & x & CK & HH & EN & P3 & P0 & P2 & P4 & CD & ZZ).
    assert (CC : (if is_nil cek then jek <- part j 1;; k <- match key with Some m0 => as_secret m0 | None => Raise ETypeError end;; aes_unwrap_key P k jek else Ok cek) = Ok c).
    { destruct CK as [(N & ->)|(-> & mat & k & ek & -> & AS & P1 & U)]; [destruct cek; [congruence|reflexivity]|]. cbn [is_nil]. rewrite P1. cbn [bind]. rewrite AS. cbn [bind]. exact U. }
    rewrite CC. cbn [bind]. rewrite HH. cbn [py_get]. rewrite EN. cbn [bind]. rewrite P3. cbn [bind]. rewrite P0. cbn [bind]. rewrite P2. cbn [bind]. rewrite P4. cbn [bind]. rewrite CD. cbn [bind].
    destruct ZZ as [(Z & D)|(Z & <-)]; [rewrite Z, pval_eqb_str, zs_eqb_refl; exact D|].
    destruct (dget d (lit "zip")) as [z|]; [|reflexivity]. destruct (pval_eqb z (VStr (lit "DEF"))) eqn:E; [apply eqb_str_r in E; subst z; congruence|reflexivity].
Qed.
