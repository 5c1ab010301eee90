(** * peek.py recognises what the other programs accept *)
From Coq Require Import ZArith List Bool Lia.
From Verif Require Import Base BaseProofs Utf8 Codec CodecProofs Json JsonProofs Jwt JwtProofs Prims Elliptic Ecc KeyWrap Extra PvalEq Jwk JwkProofs JwkProofs2 Jws JwsProofs JwsProofs2 JwsProofs3 JwsProofs7 Jwe JweProofs JweProofs8 JweProofs11 Misc Script ScriptProofs.
Import ListNotations.
Open Scope Z_scope.

(** The JSON value in the first segment of a token, and the octets of its second one. *)
Definition shown_header (tok : ustr) (h : pval) : Prop := exists hb t, b64d (nth 0 (split 46 tok) []) = Ok hb /\ utf8_decode hb = Ok t /\ loads t = Ok h.
Definition shown_payload (tok : ustr) (pb : bytes) : Prop := b64d (nth 1 (split 46 tok) []) = Ok pb.

Lemma unpack_shown : forall tok j h, unpack (VStr tok) = Ok j -> shown_header tok h -> j_headers j = h.
Proof.
  intros tok j h U (hb & t & B & UT & L). destruct (unpack_inv _ _ U) as (b & parts & ps & t' & T & A & S & M & UT' & L' & _ & _).
  assert (b = tok) by (destruct T as [T|T]; congruence). subst b. destruct (split_token_ok _ _ S) as (E & _ & N & _). rewrite <- E in B.
  destruct parts as [|p parts]; [cbn [length] in N; lia|]. cbn [nth] in B. cbn [mapM] in M. rewrite B in M. cbn [bind] in M.
  destruct (mapM b64d parts); [|discriminate]. cbn [bind] in M. injection M as <-. cbn [hd] in UT'. rewrite UT in UT'. injection UT' as <-. rewrite L in L'. injection L' as <-. reflexivity.
Qed.
Lemma unpack_payload : forall tok j pb, unpack (VStr tok) = Ok j -> shown_payload tok pb -> nth_error (j_part j) 1 = Some (VBytes pb).
Proof.
  intros tok j pb U B. unfold shown_payload in B. destruct (unpack_inv _ _ U) as (b & parts & ps & t' & T & A & S & M & _ & _ & _ & JP).
  assert (b = tok) by (destruct T as [T|T]; congruence). subst b. destruct (split_token_ok _ _ S) as (E & _ & N & _). rewrite <- E in B.
  destruct parts as [|p [|q parts]]; cbn [length] in N; [lia|lia|]. cbn [nth] in B. cbn [mapM] in M. destruct (b64d p); [|discriminate]. cbn [bind] in M. rewrite B in M. cbn [bind] in M.
  destruct (mapM b64d parts); [|discriminate]. cbn [bind] in M. injection M as <-. rewrite JP. reflexivity.
Qed.

Lemma content_decrypt_enc : forall P enc key ct aad iv tag m, content_decrypt P enc key ct aad iv tag = Ok m -> exists e, enc = VStr e /\ In e SUPPORTED_ENC.
Proof.
  intros P enc key ct aad iv tag m H. unfold content_decrypt in H. destruct (in_texts enc GCM_ENCS) eqn:G.
  - apply in_texts_In in G. destruct G as (e & I & ->). exists e. split; [reflexivity|]. unfold GCM_ENCS in I. cbn [In] in I. unfold SUPPORTED_ENC. cbn [In]. intuition.
  - destruct (in_texts enc CBC_ENCS) eqn:C; [|discriminate]. apply in_texts_In in C. destruct C as (e & I & ->). exists e. split; [reflexivity|]. unfold CBC_ENCS in I. cbn [In] in I. unfold SUPPORTED_ENC. cbn [In]. intuition.
Qed.

Lemma A_is_oct : forall a, startswith a (lit "A") = true -> alg2keytype (VStr a) = Ok (Some (lit "oct")).
Proof.
  intros [|c r] H; [discriminate|]. change (lit "A") with [65] in H. cbn [startswith] in H. apply andb_true_iff in H. destruct H as [H _]. apply Z.eqb_eq in H. subst c.
  unfold alg2keytype. cbn [truthy is_nil negb]. destruct (zs_eqb (lower (65 :: r)) (lit "none")) eqn:Z; [apply zs_eqb_eq in Z; discriminate Z|destruct r; reflexivity].
Qed.

(** A token that JWE.decrypt accepts without a content key names an algorithm of the table. *)
Theorem decrypted_supported : forall P sent w token keys alg m w', truthy token = true -> jwe_decrypt P sent w token keys alg [] = Ok (m, w') ->
  (forall k, offered (as_jws w) keys k -> right_type (lit "oct") k -> forall o n, k_data k <> DRsa o n) ->
  exists j a e, unpack token = Ok j /\ py_get (j_headers j) (lit "alg") = Ok (VStr a) /\ In a SUPPORTED_ALG /\ py_get (j_headers j) (lit "enc") = Ok (VStr e) /\ In e SUPPORTED_ENC.
Proof.
  intros P sent w token keys alg m w' T H HK. destruct (decrypt_accepts P _ _ _ _ _ _ _ _ T H) as (j & a & f & m0 & U & HA & _ & FA & (enc & key & ct & iv & tag & h & HE & _ & _ & _ & _ & C) & _).
  destruct (content_decrypt_enc _ _ _ _ _ _ _ _ C) as (e & -> & IE). exists j, a, e. split; [exact U|]. split; [exact HA|]. split; [|split; [exact HE|exact IE]].
  unfold jwe_decrypt in H. rewrite T, U in H. cbn [bind] in H. rewrite HA in H. cbn [bind] in H. destruct (truthy alg && _); [discriminate|].
  destruct (jws_keys P (as_jws w) keys) as [kl|] eqn:JK; [|discriminate]. cbn [bind] in H. destruct (pick_keys (as_jws w) kl (VStr (lit "enc")) (VStr a)) as [ks|] eqn:PK; [|discriminate]. cbn [bind] in H.
  match type of H with (if ?b then _ else _) = _ => destruct b; [discriminate|] end. rewrite FA in H. cbn [bind] in H. destruct f.
  - unfold family_of in FA. destruct (in_texts (VStr a) _) eqn:I; [|destruct (startswith a (lit "A") && ends_KW a); [discriminate|destruct (startswith a (lit "ECDH-ES")); discriminate]].
    apply in_texts_In in I. destruct I as (t & I & X). injection X as <-. cbn [In] in I. unfold SUPPORTED_ALG. cbn [In]. intuition.
  - cbn [cek_first is_nil] in H. match type of H with (bind ?x _) = _ => destruct x as [y|] eqn:D; [|discriminate] end. clear H.
    assert (D' : dec_loop P (VStr a) (fun (_ : nat) k => sym_decrypt P (sub_dict w SYM_ARGS) j (Some k) []) ks 1 = Ok y) by exact D. clear D.
    destruct (dec_loop_inv _ _ _ _ _ _ _ D') as (n & k & mt & NE & KM & SD). apply nth_error_In in NE.
    destruct (pick_keys_inv _ _ _ _ _ _ PK NE) as (a' & t & kid & AO & AT & _ & IK & SU).
    assert (FS : startswith a (lit "A") && ends_KW a = true).
    { unfold family_of in FA. destruct (in_texts (VStr a) _); [discriminate|]. destruct (startswith a (lit "A") && ends_KW a); [reflexivity|destruct (startswith a (lit "ECDH-ES")); discriminate]. }
    assert (NA : a <> []) by (intros ->; discriminate FS).
    assert (a' = VStr a). { unfold alg_or in AO. destruct a; [contradiction|]. cbn [truthy is_nil negb] in AO. congruence. } subst a'.
    assert (MS : exists s, as_secret mt = Ok s).
    { unfold sym_decrypt in SD. do 2 (match type of SD with (if ?b then _ else _) = _ => destruct b; [discriminate|] end). cbn [is_nil] in SD.
      destruct (part j 1); [|discriminate]. cbn [bind] in SD. destruct (as_secret mt) as [s|]; [exists s; reflexivity|discriminate]. }
    destruct MS as (s & MS). unfold key_material in KM. destruct (k_data k) as [dk|o n'|c1 c2 x y0 d0 crv|sk kk] eqn:KD.
    + discriminate.
    + exfalso. apply (HK k (jws_keys_offered _ _ _ _ _ JK IK)) with (o := o) (n := n'); [|exact KD]. destruct SU as [SU _].
      apply andb_true_iff in FS. destruct FS as [FS1 _]. rewrite (A_is_oct _ FS1) in AT. injection AT as <-. exact SU.
    + exfalso. unfold get_key in KM. rewrite KD in KM. destruct (truthy x && truthy y0); [|discriminate]. injection KM as <-. discriminate MS.
    + destruct (sym_encryption_key P k a) as [[b k']|] eqn:SK; [|discriminate]. unfold sym_encryption_key in SK. rewrite KD in SK.
      match type of SK with (bind ?x _) = _ => destruct x as [key'|]; [|discriminate] end. cbn [bind] in SK. destruct (dget ALG2KEYLEN a) as [n2|] eqn:AL; [|discriminate].
      apply dget_In in AL. apply (in_map fst) in AL. cbn [fst] in AL. apply andb_true_iff in FS. destruct FS as [_ FS]. unfold ALG2KEYLEN in AL. cbn [map fst In] in AL.
      destruct AL as [<-|[<-|[<-|[<-|[<-|[<-|[]]]]]]]; try discriminate FS; unfold SUPPORTED_ALG; cbn [In]; auto 20.
  - destruct ks as [|k ks]; [discriminate|]. destruct (ec_dec_setup P j k) as [cek|] eqn:S; [|discriminate]. clear H. unfold ec_dec_setup in S. cbv zeta in S.
    do 3 (match type of S with (bind ?x _) = _ => destruct x; [cbn [bind] in S|discriminate] end). destruct (py_in (lit "epk") (j_headers j)) as [has|]; [|discriminate]. cbn [bind] in S.
    match type of S with (bind ?x _) = _ => destruct x as [has2|]; [|discriminate] end. cbn [bind] in S. destruct (negb has2); [discriminate|].
    do 4 (match type of S with (bind ?x _) = _ => destruct x; [cbn [bind] in S|discriminate] end). rewrite HA in S. cbn [bind] in S.
    match type of S with (bind ?z _) = _ => destruct z as [[[c x] y]|]; [|discriminate] end. cbn [bind] in S. destruct (pval_eqb (VStr a) (VStr (lit "ECDH-ES"))) eqn:Z.
    + apply eqb_str_r in Z. injection Z as ->. unfold SUPPORTED_ALG. cbn [In]. auto 20.
    + destruct (dget ECDH_KW a) as [[post n]|] eqn:G; [|discriminate]. apply dget_In in G. apply (in_map fst) in G. cbn [fst] in G. unfold ECDH_KW in G. cbn [map fst In] in G.
      destruct G as [<-|[<-|[<-|[]]]]; unfold SUPPORTED_ALG; cbn [In]; auto 20.
Qed.

Definition no_label (typ : option pval) : Prop := typ = None \/ exists t, typ = Some (VStr t).

(** What decrypt opens, peek calls a JWE. *)
Theorem peek_jwe : forall P sent tok keys m h, decrypt P sent (VStr tok) keys = Ok m -> shown_header tok (VDict h) -> no_label (dget h (lit "typ")) ->
  (forall k, In k keys -> right_type (lit "oct") k -> forall o n, k_data k <> DRsa o n) ->
  peek tok = Printed [VStr (lit "jwe")].
Proof.
  intros P sent tok keys m h H SH NL HK. unfold decrypt in H. destruct (jwe_decrypt P sent new_jwe (VStr tok) (Some keys) VNone []) as [[m' w']|] eqn:D; [|discriminate].
  assert (T : truthy (VStr tok) = true). { destruct tok; [|reflexivity]. discriminate D. }
  destruct (decrypted_supported _ _ _ _ _ _ _ _ T D) as (j & a & e & U & HA & IA & HE & IE).
  { intros k [(l & E & I)|(_ & X)]; [injection E as <-; exact (HK k I)|discriminate X]. }
  pose proof (unpack_shown _ _ _ U SH) as JH. unfold peek, jwe_factory. rewrite U. cbn [bind]. assert (B : is_jwe j = Ok true).
  { destruct j as [jh jb jp]. cbn [j_headers] in *. subst jh. apply is_jwe_spec. right. cbn [py_get] in HA, HE. split.
    - destruct NL as [->|(t & ->)]; [left; reflexivity|right; left; exists t; reflexivity].
    - exists a, e. destruct (dget h (lit "alg")); [|discriminate]. injection HA as ->. destruct (dget h (lit "enc")); [|discriminate]. injection HE as ->. repeat split; assumption. }
  rewrite B. reflexivity.
Qed.

(** What verify accepts, peek calls a JWS and shows with header and octets of the payload, unless its typ is JWE. *)
Theorem peek_jws : forall P tok keys sigalg v h pb, verify P (VStr tok) keys false sigalg = Ok v -> shown_header tok (VDict h) -> shown_payload tok pb ->
  (dget h (lit "typ") = None \/ exists t, dget h (lit "typ") = Some (VStr t) /\ lower t <> lit "jwe") ->
  peek tok = Printed [VStr (lit "jws"); VDict h; VBytes pb].
Proof.
  intros P tok keys sigalg v h pb H SH SP NL. unfold verify in H. destruct (verify_compact P new_jws (VStr tok) (Some keys) false sigalg) as [s' r] eqn:V. cbn [snd] in H.
  destruct r as [[v' ko]|]; [|discriminate]. destruct (verify_accepted _ _ _ _ _ _ _ _ _ V) as (j & h0 & p & s64 & sg & d & PR & _ & [(_ & X & _)|A]); [discriminate|].
  destruct A as (a & k & t & kid & DA & _ & _ & _ & VS & _). pose proof (pr_unpack _ _ _ _ _ _ _ PR) as U. pose proof (pr_dict _ _ _ _ _ _ _ PR) as JD.
  pose proof (unpack_shown _ _ _ U SH) as JH. rewrite JD in JH. injection JH as ->. pose proof (unpack_payload _ _ _ U SP) as JP.
  assert (IA : In a known_algs).
  { destruct VS as [x secret I _ _|sc x key I _ _|x b c m0 pt I]; cbn [In hs_algs rs_algs es_algs] in I; unfold known_algs; cbn [In];
      repeat (destruct I as [I|I]; [injection I as <-; auto 20|]); destruct I. }
  assert (N1 : is_jwe j = Ok false).
  { unfold is_jwe. rewrite JD. cbn [py_in bind]. unfold dmem at 1. assert (G : forall b : bool, b = false -> (if b then Ok true else a0 <- Ok (dmem h (lit "alg"));; e <- (if a0 then Ok (dmem h (lit "enc")) else Ok false);;
      if negb e then Ok false else v0 <- py_get (VDict h) (lit "alg");; if negb (in_texts v0 SUPPORTED_ALG) then Ok false else v1 <- py_get (VDict h) (lit "enc");; Ok (in_texts v1 SUPPORTED_ENC)) = Ok false).
    { intros b ->. unfold dmem at 1. rewrite DA. cbn [bind]. destruct (dmem h (lit "enc")); [|reflexivity]. cbn [bind negb py_get]. rewrite DA. cbn [bind].
      assert (X : in_texts (VStr a) SUPPORTED_ALG = false). { revert IA. unfold known_algs. cbn [In]. intro IA. repeat (destruct IA as [<-|IA]; [reflexivity|]). destruct IA. }
      rewrite X. reflexivity. }
    destruct NL as [E|(t0 & E & NE)]; rewrite E; cbn [bind].
    - apply (G false). reflexivity.
    - cbn [py_get]. rewrite E. cbn [bind py_lower pval_eqb]. apply G. destruct (zs_eqb (lower t0) (lit "jwe")) eqn:Z; [|reflexivity]. apply zs_eqb_eq in Z. contradiction. }
  unfold peek, jwe_factory. rewrite U. cbn [bind]. rewrite N1. cbn [bind run_of]. unfold factory, is_jws.
  cbn [loads_any]. rewrite (unpacked_not_json _ _ U). cbn [is_ValueError]. unfold is_compact_jws. rewrite U, JD. cbn [py_in bind]. unfold dmem. rewrite DA. cbn [py_get]. rewrite DA. cbn [bind].
  rewrite (proj2 (in_signers_known (VStr a)) (ex_intro _ a (conj eq_refl IA))). cbn [bind run_of set_jwt s_jwt]. rewrite JP, JD. reflexivity.
Qed.

Theorem peek_typ_jwe : forall tok j h t, unpack (VStr tok) = Ok j -> shown_header tok (VDict h) -> dget h (lit "typ") = Some (VStr t) -> lower t = lit "jwe" -> peek tok = Printed [VStr (lit "jwe")].
Proof.
  intros tok j h t U SH T L. pose proof (unpack_shown _ _ _ U SH) as JH. unfold peek, jwe_factory. rewrite U. cbn [bind]. destruct j as [jh jb jp]. cbn [j_headers] in JH. subst jh.
  rewrite (proj2 (is_jwe_spec h jb jp)) by (left; exists t; split; assumption). reflexivity.
Qed.
Theorem peek_typ_other : forall tok j h v, unpack (VStr tok) = Ok j -> shown_header tok (VDict h) -> dget h (lit "typ") = Some v -> (forall t, v <> VStr t) -> (forall b, v <> VBytes b) -> peek tok = Failed EAttributeError.
Proof.
  intros tok j h v U SH T N1 N2. pose proof (unpack_shown _ _ _ U SH) as JH. unfold peek, jwe_factory. rewrite U. cbn [bind]. unfold is_jwe. rewrite JH. cbn [py_in py_get]. unfold dmem at 1. rewrite T. cbn [bind].
  destruct v; try reflexivity; [destruct (N1 s eq_refl)|destruct (N2 b eq_refl)].
Qed.

(** A secret given with -k. *)
Lemma secret_gives : forall P read t b, t <> [] -> utf8_encode t = Ok b -> exists k, gives P read (Secret t) k /\ plain_key k [] b.
Proof.
  intros P read t b N U. assert (NB : b <> []). { intros ->. apply utf8_decode_encode in U. cbn in U. congruence. }
  assert (S : exists k, sym_new [] (VStr t) = Ok k /\ k_kty k = VStr (lit "oct") /\ k_alg k = VStr [] /\ k_use k = VStr [] /\ k_kid k = VStr [] /\ k_data k = DSym (VBytes b) (VStr [])).
  { unfold sym_new. cbn [as_bytes]. rewrite U. cbn [bind]. unfold key_init. change (dmem [] (lit "self")) with false. cbn match.
    change (kwarg [] (lit "k") (VStr [])) with (VStr []). cbn [truthy]. rewrite andb_false_r. cbn [bind]. eexists. split; [reflexivity|]. cbn [k_kty k_alg k_use k_kid k_data]. repeat split. }
  destruct S as (k & S & K1 & K2 & K3 & K4 & K5). exists k. split; [split; assumption|]. split; rewrite ?K1, ?K2, ?K3, ?K4; try reflexivity.
  - left. reflexivity.
  - exists (VStr []). exact K5.
  - exact (utf8_bytes _ _ U).
  - exact NB.
Qed.

(** jwenc -X loads no keys. *)
Theorem jwenc_x509_fails : forall P R read imp stdin o lines, given (e_url o) = None -> given (e_jwk o) = None -> given (e_xurl o) <> None ->
  jwenc_main P R read imp stdin o <> Printed lines.
Proof.
  intros P R read imp stdin o lines U J X H. unfold jwenc_main, enc_keys in H. rewrite U, J in H. destruct (given (e_xurl o)) as [u|]; [|contradiction]. cbn [run_of] in H.
  destruct (given (e_enc o)) as [e|]; [|discriminate]. destruct (given (e_alg o)) as [a|]; [|discriminate]. destruct (negb _); [discriminate|]. destruct (negb _); [discriminate|].
  destruct (message read stdin (e_file o) (e_message o) []) as [msg|]; cbn [run_of] in H; [|discriminate].
  assert (F : exists x, encrypt P R msg [] (VStr a) (VStr e) = Raise x).
  { unfold encrypt. change (jwe_new P msg [(lit "alg", VStr a); (lit "enc", VStr e)] None None)
      with (Ok {| w_msg := msg; w_dict := [(lit "alg", VStr a); (lit "enc", VStr e)]; w_jwk := None; w_epk := None; w_jwt := None |}). cbn [bind].
    unfold jwe_encrypt. cbn [w_dict]. change (dict_get [(lit "alg", VStr a); (lit "enc", VStr e)] (lit "alg")) with (Ok (VStr a)). cbn [bind].
    match goal with |- context [jws_keys P ?s (Some [])] => change (jws_keys P s (Some [])) with (@Ok keylist []) end. cbn [bind].
    match goal with |- context [pick_keys ?s ?l ?u ?v] => destruct (pick_keys s l u v) as [ks|x] eqn:PK end; [|exists x; reflexivity]. cbn [bind].
    destruct ks as [|k ks]; [eexists; reflexivity|]. exfalso. destruct (pick_keys_inv _ _ _ _ _ _ PK (or_introl eq_refl)) as (_ & _ & _ & _ & _ & _ & I & _). exact I. }
  destruct F as (x & F). rewrite F in H. discriminate H.
Qed.

Theorem create_fails : forall files name pem, exists files', create_and_store files name pem = (files', Raise ETypeError) /\ dget files' (name ++ lit ".key") = Some [] /\
  forall n, n <> name ++ lit ".key" -> dget files' n = dget files n.
Proof.
  intros files name pem. exists (dset files (name ++ lit ".key") []). split; [reflexivity|]. split; [rewrite dget_dset, zs_eqb_refl; reflexivity|]. intros n N. apply dget_dset_other. congruence.
Qed.
