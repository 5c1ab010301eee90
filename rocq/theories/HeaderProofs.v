(** * The header of encrypted tokens *)
From Coq Require Import ZArith List Bool Lia.
From Verif Require Import Base BaseProofs Prims PvalEq Extra ExtraProofs Utf8 Codec CodecProofs Json JsonProofs Jwt JwtProofs Jwk JwkProofs JwkProofs2 Jws JwsProofs JwsProofs2 JwsProofs3 JwsProofs4 JwsProofs6.
From Verif Require Import KeyWrap Elliptic Ecc Jwe JweProofs JweProofs2 JweProofs3 JweProofs4 JweProofs5 JweProofs6 JweProofs7 JweProofs8.
Import ListNotations.
Open Scope Z_scope.

(** The names of RFC 7516, section 4.1, and those of key agreement; neither msg nor cek. *)
Definition header_names : list ustr :=
  [lit "alg"; lit "enc"; lit "zip"; lit "jku"; lit "jwk"; lit "kid"; lit "x5u"; lit "x5c"; lit "x5t"; lit "typ"; lit "cty"; lit "crit"; lit "epk"; lit "apu"; lit "apv"].

(** RSA tokens leave out empty values. *)
Definition shown (rsa : bool) (v : option pval) : option pval :=
  match v with Some x => if rsa && negb (truthy x) then None else Some x | None => None end.

Record jwe_header (w : jwe) (k : jwk) (kw : option pval) (rsa : bool) (h : dict) : Prop := {
  jh_names : forall n v, dget h n = Some v -> In n header_names;
  jh_alg : dget h (lit "alg") = dget (w_dict w) (lit "alg");
  jh_enc : dget h (lit "enc") = dget (w_dict w) (lit "enc");
  jh_plain : forall n, In n [lit "jku"; lit "x5u"; lit "x5t"; lit "typ"; lit "cty"] -> dget h n = shown rsa (dget (w_dict w) n);
  jh_kid : dget h (lit "kid") = match (if rsa then None else kw) with Some v => Some v | None => if truthy (k_kid k) then Some (k_kid k) else shown rsa (dget (w_dict w) (lit "kid")) end;
  jh_zip : dget h (lit "zip") = if rsa then shown rsa (dget (w_dict w) (lit "zip")) else None;
  jh_jwk : match w_jwk w with Some kj => rsa = true /\ exists s, serialize kj false = Ok s /\ dget h (lit "jwk") = Some s | None => True end
}.

Ltac ne := (let X := fresh in intro X; discriminate X).

Lemma not_in_existsb : forall n l, ~ In n l -> existsb (zs_eqb n) l = false.
Proof.
  intros n l N. destruct (existsb (zs_eqb n) l) eqn:E; [|reflexivity]. exfalso. apply N. apply existsb_exists in E. destruct E as (x & I & E). apply zs_eqb_eq in E. subst x. exact I.
Qed.
(** Names other than those of the list do not come from the instance. *)
Lemma sub_names : forall w args n v, args = SYM_ARGS \/ args = JWE_ARGS -> dget (sub_dict w args) n = Some v -> In n header_names.
Proof.
  intros w args n v A G. destruct (in_dec (list_eq_dec Z.eq_dec) n header_names) as [I|N]; [exact I|]. exfalso. rewrite sub_dict_none in G; [discriminate G|..].
  - repeat split; intros ->; apply N; unfold header_names; cbn [In]; auto 20.
  - intros ->. apply N. left. reflexivity.
  - apply not_in_existsb. intro I. apply N. destruct A as [-> | ->]; unfold SYM_ARGS, JWE_ARGS, header_names in *; cbn [In] in *; intuition auto.
Qed.
Lemma named_names : forall k w args n v, args = SYM_ARGS \/ args = JWE_ARGS -> dget (named_dict k (sub_dict w args)) n = Some v -> In n header_names.
Proof.
  intros k w args n v A G. destruct (list_eq_dec Z.eq_dec n (lit "kid")) as [->|N]; [unfold header_names; cbn [In]; auto 20|]. rewrite named_get in G by exact N. exact (sub_names w args n v A G).
Qed.
Lemma kid_names : forall kid k w args n v, args = SYM_ARGS \/ args = JWE_ARGS -> dget (kid_dict kid (named_dict k (sub_dict w args))) n = Some v -> In n header_names.
Proof.
  intros kid k w args n v A G. destruct (list_eq_dec Z.eq_dec n (lit "kid")) as [->|N]; [unfold header_names; cbn [In]; auto 20|]. rewrite kid_get in G by exact N. exact (named_names k w args n v A G).
Qed.
Lemma named_kid : forall k d, dget (named_dict k d) (lit "kid") = if truthy (k_kid k) then Some (k_kid k) else dget d (lit "kid").
Proof. intros k d. unfold named_dict. destruct (truthy (k_kid k)); [apply dget_dset_same|reflexivity]. Qed.
Lemma kid_kid : forall kid d, dget (kid_dict kid d) (lit "kid") = match kid with Some v => Some v | None => dget d (lit "kid") end.
Proof. intros [v|] d; [apply dget_dset_same|reflexivity]. Qed.
Lemma headers_jwk : forall d jser names, In (lit "jwk") names -> jser <> None -> dget (headers_loop d jser names) (lit "jwk") = jser.
Proof.
  intros d jser names I N. destruct jser as [s|]; [clear N|congruence]. induction names as [|n names IH]; [destruct I|]. cbn [headers_loop].
  destruct (zs_eqb n (lit "jwk")) eqn:E; [apply zs_eqb_eq in E; subst n; reflexivity|].
  assert (IH' : dget (headers_loop d (Some s) names) (lit "jwk") = Some s) by (destruct I as [->|I]; [rewrite zs_eqb_refl in E; discriminate E|apply IH; exact I]).
  destruct (dget d n) as [v|]; [destruct (truthy v)|]; try exact IH'. cbn [dget]. rewrite E. exact IH'.
Qed.
Lemma plain_names : forall n, In n [lit "jku"; lit "x5u"; lit "x5t"; lit "typ"; lit "cty"] -> plain_name n /\ n <> lit "alg" /\ n <> lit "kid" /\ n <> lit "jwk" /\ n <> lit "apu" /\ n <> lit "apv" /\ n <> lit "epk" /\ existsb (zs_eqb n) SYM_ARGS = true /\ existsb (zs_eqb n) JWE_ARGS = true.
Proof. intros n I. cbn [In] in I. repeat (destruct I as [<-|I]; [repeat split; try ne; reflexivity|]). destruct I. Qed.

Section Header.
Variables (P : prims) (R : draws).
Hypotheses (HL : hash_law P) (DR : draws_ok R).

Lemma seg_produced : forall alg enc m h he ek iv ct tag key tok, produced P R alg enc m h he ek iv ct tag key tok -> b64encode_item (VDict h) = Ok (seg tok 0).
Proof.
  intros alg enc m h he ek iv ct tag key tok PR. pose proof (produced_first _ _ _ _ _ _ _ _ _ _ _ _ _ PR) as F. assert (E : seg tok 0 = he) by (unfold seg; destruct (split 46 tok); exact F). rewrite E.
  apply (pd_header _ _ _ _ _ _ _ _ _ _ _ _ _ PR).
Qed.

(** The ephemeral key goes into the header in its public form. *)
Lemma ec_setup_epk : forall w k cek ek iv params, ec_enc_setup P R w k = Ok (cek, ek, iv, params) ->
  exists u v e s, params = [(lit "apu", VBytes (b64e u)); (lit "apv", VBytes (b64e v)); (lit "epk", s)] /\ serialize e false = Ok s /\ exists o c x y d cv, k_data e = DEc o c x y d cv.
Proof.
  intros w k cek ek iv params H. unfold ec_enc_setup in H.
  match type of H with (bind ?x _) = _ => destruct x as [apu|]; [|discriminate] end. cbn [bind] in H.
  match type of H with (bind ?x _) = _ => destruct x as [apv|]; [|discriminate] end. cbn [bind] in H.
  match type of H with (bind ?x _) = _ => destruct x as [[[crv kx] ky]|]; [|discriminate] end. cbn [bind] in H.
  destruct (curve_by_name crv) as [c|]; [|discriminate]. cbn [bind] in H.
  match type of H with (bind ?x _) = _ => destruct x as [epk|]; [|discriminate] end. cbn [bind] in H.
  destruct (serialize epk false) as [ser|] eqn:SE; [|discriminate]. cbn [bind] in H. cbv zeta in H.
  match type of H with (bind ?x _) = _ => destruct x as [cek0|]; [|discriminate] end. cbn [bind] in H.
  match type of H with (bind ?x _) = _ => destruct x as [enc|]; [|discriminate] end. cbn [bind] in H.
  destruct (generate_key_and_iv R enc cek0 []) as [[cek1 iv1]|]; [|discriminate]. cbn [bind] in H.
  destruct (k_data epk) as [|o1|o1 c1 x1 y1 d1 cv1|] eqn:KD; try discriminate H. cbn [bind] in H.
  assert (G : params = [(lit "apu", VBytes (b64e apu)); (lit "apv", VBytes (b64e apv)); (lit "epk", ser)]).
  { match type of H with (bind ?x _) = _ => destruct x as [alg|]; [|discriminate] end. cbn [bind] in H. destruct (pval_eqb alg (VStr (lit "ECDH-ES"))).
    - destruct enc as [| | | |e| | |]; try discriminate. destruct (dget KEYLEN e) as [n|]; [|discriminate]. match type of H with (bind ?x _) = _ => destruct x as [K|]; [|discriminate] end. cbn [bind] in H.
      apply Ok_inj in H. apply pair_equal_spec in H. destruct H as [_ <-]. reflexivity.
    - destruct alg as [| | | |a| | |]; try discriminate. destruct (dget ECDH_KW a) as [[post n]|]; [|discriminate].
      match type of H with (bind ?x _) = _ => destruct x as [K|]; [|discriminate] end. cbn [bind] in H. destruct (aes_wrap_key P K cek1) as [wk|]; [|discriminate].
      cbn [bind] in H. apply Ok_inj in H. apply pair_equal_spec in H. destruct H as [_ <-]. reflexivity. }
  exists apu, apv, epk, ser. split; [exact G|]. split; [exact SE|]. exists o1, c1, x1, y1, d1, cv1. exact KD.
Qed.

Theorem encrypt_header : forall w keys cek iv kw tok w', bytes_ok cek = true -> bytes_ok iv = true -> jwe_encrypt P R w keys cek iv kw = Ok (tok, w') ->
  exists h k a, b64encode_item (VDict h) = Ok (seg tok 0) /\ offered (as_jws w) keys k /\ dget (w_dict w) (lit "alg") = Some (VStr a) /\ jwe_header w k kw (existsb (zs_eqb a) RSA_ALGS) h /\
    (startswith a (lit "ECDH-ES") = true -> exists u v e s, dget h (lit "apu") = Some (VBytes (b64e u)) /\ dget h (lit "apv") = Some (VBytes (b64e v)) /\ dget h (lit "epk") = Some s /\
      serialize e false = Ok s /\ exists o c x y d cv, k_data e = DEc o c x y d cv).
Proof.
  intros w keys cek iv kw tok w' BC BI H. unfold jwe_encrypt in H. unfold dict_get in H at 1. destruct (dget (w_dict w) (lit "alg")) as [alg|] eqn:AL; [|discriminate]. cbn [bind] in H.
  destruct (jws_keys P (as_jws w) keys) as [ks|] eqn:JK; [|discriminate]. cbn [bind] in H. destruct (pick_keys (as_jws w) ks (VStr (lit "enc")) (VStr [])) as [[|k r]|] eqn:PK; try discriminate. cbn [bind] in H.
  destruct (picked_first w ks _ _ k r PK) as (a0 & t0 & kid0 & _ & _ & _ & IK & _). pose proof (jws_keys_offered P _ _ _ _ JK IK) as OF.
  destruct (family_of alg) as [f|] eqn:FA; [|discriminate]. cbn [bind] in H. destruct (family_truthy _ _ FA) as (TR & a & ->). cbv zeta in H.
  destruct f.
  - change (if truthy (k_kid k) then dset (sub_dict w JWE_ARGS) (lit "kid") (k_kid k) else sub_dict w JWE_ARGS) with (named_dict k (sub_dict w JWE_ARGS)) in H.
    destruct (key_material P k (VStr a) true) as [mt|]; [|discriminate]. cbn [bind] in H.
    destruct (rsa_jwe_encrypt P R (named_dict k (sub_dict w JWE_ARGS)) (w_jwk w) (w_epk w) (w_msg w) mt cek iv) as [[tok' c]|] eqn:SE; [|discriminate].
    cbn [bind] in H. apply Ok_inj in H. apply pair_equal_spec in H. destruct H as [-> _].
    apply (rsa_inv P R DR) with (alg := VStr a) in SE; [|exact BC|exact BI|rewrite named_get by ne; apply sub_dict_alg; [exact AL|reflexivity]|exact TR].
    destruct SE as (p & m & enc & iv' & ek & h & he & ct & tag & O & MT & ZZ & EN & G & HD & EK & PR).
    assert (RS : existsb (zs_eqb a) RSA_ALGS = true).
    { unfold family_of in FA. destruct (in_texts (VStr a) _) eqn:I; [|destruct (startswith a (lit "A") && ends_KW a); [discriminate FA|destruct (startswith a (lit "ECDH-ES")); discriminate FA]]. exact I. }
    exists h, k, a. split; [exact (seg_produced _ _ _ _ _ _ _ _ _ _ _ PR)|]. split; [exact OF|]. split; [reflexivity|]. rewrite RS.
    unfold headers in HD. destruct (match w_jwk w with Some k0 => s <- serialize k0 false;; Ok (Some s) | None => if dmem (named_dict k (sub_dict w JWE_ARGS)) (lit "jwk") then Raise EAttributeError else Ok None end) as [jser|] eqn:JS; [|discriminate HD]. cbn [bind] in HD.
    assert (HH : headers_loop (named_dict k (sub_dict w JWE_ARGS)) jser JWE_ARGS = h /\ (forall v, dget (named_dict k (sub_dict w JWE_ARGS)) (lit "kid") = Some v -> exists t, v = VStr t)).
    { destruct (dget (named_dict k (sub_dict w JWE_ARGS)) (lit "kid")) as [[]|]; try discriminate HD; apply Ok_inj in HD; (split; [exact HD|]); intros v V; try discriminate V. injection V as <-. eexists. reflexivity. }
    destruct HH as [HH _].
    assert (GET : forall n, n <> lit "jwk" -> dget h n = if existsb (zs_eqb n) JWE_ARGS then shown true (dget (named_dict k (sub_dict w JWE_ARGS)) n) else None).
    { intros n N. rewrite <- HH, headers_get by exact N. destruct (existsb (zs_eqb n) JWE_ARGS); [|reflexivity]. unfold shown. destruct (dget _ n) as [v|]; [destruct (truthy v)|]; reflexivity. }
    split; [split|].
    + intros n v V. rewrite <- HH in V. assert (I : In n JWE_ARGS) by (eapply headers_keys; apply dmem_In; unfold dmem; rewrite V; reflexivity).
      unfold JWE_ARGS, header_names in *. cbn [In] in *. intuition auto.
    + rewrite AL. apply (pd_alg _ _ _ _ _ _ _ _ _ _ _ _ _ PR).
    + rewrite (pd_enc _ _ _ _ _ _ _ _ _ _ _ _ _ PR), <- EN, named_get by ne. apply sub_dict_get; [repeat split; ne|ne|reflexivity].
    + intros n I. destruct (plain_names n I) as (PN & N1 & N2 & N3 & _ & _ & _ & _ & IA). rewrite GET, IA, named_get, sub_dict_get by assumption. reflexivity.
    + rewrite GET by ne. change (existsb (zs_eqb (lit "kid")) JWE_ARGS) with true. cbv iota. rewrite named_kid. destruct (truthy (k_kid k)) eqn:TK.
      * unfold shown. rewrite TK. reflexivity.
      * rewrite sub_dict_get; [reflexivity|repeat split; ne|ne|reflexivity].
    + rewrite GET, named_get by ne. change (existsb (zs_eqb (lit "zip")) JWE_ARGS) with true. cbv iota. rewrite sub_dict_get; [reflexivity|repeat split; ne|ne|reflexivity].
    + destruct (w_jwk w) as [kj|]; [|exact I]. split; [reflexivity|]. destruct (serialize kj false) as [s|]; [|discriminate JS]. cbn [bind] in JS. apply Ok_inj in JS. subst jser.
      exists s. split; [reflexivity|]. rewrite <- HH. apply headers_jwk; [unfold JWE_ARGS; cbn [In]; auto 20|ne].
    + intro ST. exfalso. apply existsb_exists in RS. destruct RS as (x & I & E). apply zs_eqb_eq in E. subst x. cbn [In] in I. repeat (destruct I as [<-|I]; [discriminate ST|]). destruct I.
  - change (if truthy (k_kid k) then dset (sub_dict w SYM_ARGS) (lit "kid") (k_kid k) else sub_dict w SYM_ARGS) with (named_dict k (sub_dict w SYM_ARGS)) in H.
    destruct (key_material P k (VStr a) true) as [mt|]; [|discriminate]. cbn [bind] in H.
    set (ob := match w_jwk w with Some _ => true | None => false end) in H.
    destruct (sym_encrypt P R (named_dict k (sub_dict w SYM_ARGS)) ob (w_msg w) mt cek iv kw) as [tok'|] eqn:SE; [|discriminate]. cbn [bind] in H. apply Ok_inj in H. apply pair_equal_spec in H. destruct H as [-> _].
    apply (sym_inv P R DR) with (alg := VStr a) in SE; [|exact BC|exact BI|rewrite named_get by ne; apply sub_dict_alg; [exact AL|reflexivity]|exact TR].
    destruct SE as (t & m & enc & cek' & iv' & kek & ek & he & ct & tag & O & MT & U & EN & G & SK & WR & PR).
    assert (RS : existsb (zs_eqb a) RSA_ALGS = false /\ startswith a (lit "ECDH-ES") = false).
    { unfold family_of in FA. destruct (in_texts (VStr a) _) eqn:I; [discriminate FA|]. split; [exact I|]. destruct (startswith a (lit "ECDH-ES")) eqn:E; [|reflexivity].
      destruct a as [|x a']; [discriminate E|]. destruct (startswith (x :: a') (lit "A") && ends_KW (x :: a')) eqn:A; [|discriminate FA]. apply andb_true_iff in A. destruct A as [A _].
      change ((65 =? x) && startswith a' [] = true) in A. change ((69 =? x) && startswith a' (lit "CDH-ES") = true) in E. apply andb_true_iff in A, E. destruct A as [A _], E as [E _]. apply Z.eqb_eq in A, E. congruence. }
    destruct RS as [RS NE]. eexists _, k, a. split; [exact (seg_produced _ _ _ _ _ _ _ _ _ _ _ PR)|]. split; [exact OF|]. split; [reflexivity|]. rewrite RS. split; [|intro ST; congruence].
    assert (WJ : w_jwk w = None) by (unfold ob in O; destruct (w_jwk w); [discriminate O|reflexivity]).
    split.
    + intros n v V. apply (kid_names kw k w SYM_ARGS n v); [left; reflexivity|exact V].
    + rewrite AL. apply (pd_alg _ _ _ _ _ _ _ _ _ _ _ _ _ PR).
    + rewrite (pd_enc _ _ _ _ _ _ _ _ _ _ _ _ _ PR), <- EN, named_get by ne. apply sub_dict_get; [repeat split; ne|ne|reflexivity].
    + intros n I. destruct (plain_names n I) as (PN & N1 & N2 & N3 & _ & _ & _ & IA & _). rewrite kid_get, named_get, sub_dict_get by assumption. unfold shown. destruct (dget (w_dict w) n); reflexivity.
    + rewrite kid_kid. destruct kw as [v|]; [reflexivity|]. rewrite named_kid. destruct (truthy (k_kid k)); [reflexivity|]. rewrite sub_dict_get; [|repeat split; ne|ne|reflexivity]. unfold shown. destruct (dget (w_dict w) (lit "kid")); reflexivity.
    + rewrite kid_get, named_get by ne. apply sub_dict_none; [repeat split; ne|ne|reflexivity].
    + rewrite WJ. exact I.
  - change (if truthy (k_kid k) then dset (sub_dict w SYM_ARGS) (lit "kid") (k_kid k) else sub_dict w SYM_ARGS) with (named_dict k (sub_dict w SYM_ARGS)) in H.
    destruct (ec_enc_setup P R w k) as [[[[ck ek] iv'] params]|] eqn:ES; [|discriminate]. cbn [bind] in H.
    destruct (key_material P k (VStr a) true) as [mt|] eqn:KM; [|discriminate]. cbn [bind] in H.
    set (ob := match w_jwk w with Some _ => true | None => false end) in H.
    destruct (ec_encrypt P R (named_dict k (sub_dict w SYM_ARGS)) ob (w_msg w) ck ek iv' params kw) as [tok'|] eqn:SE; [|discriminate]. cbn [bind] in H. apply Ok_inj in H. apply pair_equal_spec in H. destruct H as [-> _].
    destruct (ec_setup_some P R HL DR _ _ _ _ _ _ ES) as (NC & NI & (ekb & OE) & _). destruct (ec_setup_epk _ _ _ _ _ _ ES) as (u & v & e & s & -> & SR & ECK).
    apply (ec_inv P R (named_dict k (sub_dict w SYM_ARGS)) ob (w_msg w) ck ek ekb iv' _ _ _ kw tok (VStr a) NC NI OE) in SE; [|rewrite named_get by ne; apply sub_dict_alg; [exact AL|reflexivity]|exact TR].
    destruct SE as (p & enc' & he & ct & tag & O & MO & EN' & PR).
    assert (RS : existsb (zs_eqb a) RSA_ALGS = false) by (unfold family_of in FA; destruct (in_texts (VStr a) _) eqn:I; [discriminate FA|exact I]).
    eexists _, k, a. split; [exact (seg_produced _ _ _ _ _ _ _ _ _ _ _ PR)|]. split; [exact OF|]. split; [reflexivity|]. rewrite RS.
    assert (WJ : w_jwk w = None) by (unfold ob in O; destruct (w_jwk w); [discriminate O|reflexivity]).
    assert (GET : forall n, n <> lit "apu" -> n <> lit "apv" -> n <> lit "epk" -> dget (ec_header (kid_dict kw (named_dict k (sub_dict w SYM_ARGS))) (VBytes (b64e u)) (VBytes (b64e v)) s) n = dget (kid_dict kw (named_dict k (sub_dict w SYM_ARGS))) n).
    { intros n N1 N2 N3. unfold ec_header. rewrite !dget_dset_other by congruence. reflexivity. }
    split; [split|].
    + intros n x V. destruct (list_eq_dec Z.eq_dec n (lit "apu")) as [->|N1]; [unfold header_names; cbn [In]; auto 20|]. destruct (list_eq_dec Z.eq_dec n (lit "apv")) as [->|N2]; [unfold header_names; cbn [In]; auto 20|].
      destruct (list_eq_dec Z.eq_dec n (lit "epk")) as [->|N3]; [unfold header_names; cbn [In]; auto 20|]. rewrite GET in V by assumption. apply (kid_names kw k w SYM_ARGS n x); [left; reflexivity|exact V].
    + rewrite AL. apply (pd_alg _ _ _ _ _ _ _ _ _ _ _ _ _ PR).
    + rewrite (pd_enc _ _ _ _ _ _ _ _ _ _ _ _ _ PR), <- EN', named_get by ne. apply sub_dict_get; [repeat split; ne|ne|reflexivity].
    + intros n I. destruct (plain_names n I) as (PN & N1 & N2 & N3 & N4 & N5 & N6 & IA & _). rewrite GET, kid_get, named_get, sub_dict_get by assumption. unfold shown. destruct (dget (w_dict w) n); reflexivity.
    + rewrite GET by ne. rewrite kid_kid. destruct kw as [x|]; [reflexivity|]. rewrite named_kid. destruct (truthy (k_kid k)); [reflexivity|]. rewrite sub_dict_get; [|repeat split; ne|ne|reflexivity]. unfold shown. destruct (dget (w_dict w) (lit "kid")); reflexivity.
    + rewrite GET, kid_get, named_get by ne. apply sub_dict_none; [repeat split; ne|ne|reflexivity].
    + rewrite WJ. exact I.
    + intros _. exists u, v, e, s. unfold ec_header. repeat split; try assumption.
      * rewrite !dget_dset_other by ne. apply dget_dset_same.
      * rewrite dget_dset_other by ne. apply dget_dset_same.
      * apply dget_dset_same.
Qed.
End Header.
