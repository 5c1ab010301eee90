(** * Signing and verifying with one key: exactly when verify_compact accepts what sign_compact made (jws.py:450-588) *)
From Coq Require Import ZArith List Bool Lia ZifyBool.
From Verif Require Import Base BaseProofs Utf8 Codec CodecProofs Json JsonProofs Jwt JwtProofs Prims Elliptic Ecc PvalEq Jwk JwkProofs JwkProofs2 Jws JwsProofs JwsProofs2 JwsProofs3 JwsProofs4.
Import ListNotations.
Open Scope Z_scope.

(** The key has no kid, the protected header given to sign_compact has one. *)
Definition conflict (k : jwk) (protected : dict) : Prop := truthy (k_kid k) = false /\ truthy (kwarg protected (lit "kid") VNone) = true.

Theorem conflict_refused : forall P E s k protected s' tok a g t,
  sign_compact P E s (Some [k]) protected = (s', Ok tok) -> chosen s (Some [k]) = VStr a -> dget SIGNERS a = Some g -> alg2keytype (VStr a) = Ok (Some t) ->
  octets_wf (s_msg s) -> json_header protected s (Some [k]) -> works P g k -> conflict k protected ->
  forall v an sigalg token, token = VStr tok \/ token = VBytes tok -> ready v a -> truthy sigalg = false \/ sigalg = VStr a ->
  snd (verify_compact P v token (Some [k]) an sigalg) = Raise ENoSuitableSigningKeys.
Proof.
  intros P E s k0 protected s' tok a g t H C G T W J Wk (CF1 & CF2) v an sigalg token TK (R1 & R2) SA. apply sign_inv in H.
  destruct H as (_ & [(N & _)|(he & pb & a' & g' & k & t' & kid & input & i & m & sg & S)]).
  { rewrite C in N. injection N as ->. vm_compute in G. discriminate. }
  pose proof (sn_alg _ _ _ _ _ _ _ _ _ _ _ _ _ _ _ _ _ S) as C'. rewrite C in C'. injection C' as <-. pose proof (sn_signer _ _ _ _ _ _ _ _ _ _ _ _ _ _ _ _ _ S) as G'. rewrite G in G'. injection G' as <-.
  pose proof (sn_family _ _ _ _ _ _ _ _ _ _ _ _ _ _ _ _ _ S) as T'. rewrite T in T'. injection T' as <-.
  pose proof (sn_offered _ _ _ _ _ _ _ _ _ _ _ _ _ _ _ _ _ S) as O.
  assert (k = k0) as -> by (destruct O as [(l & X & O)|[[O|O] _]]; [injection X as <-; destruct O as [O|[]]; congruence|discriminate O|discriminate O]).
  set (hd := sign_header protected (VStr a) (Some k0) (dget (s_dict s) (lit "typ"))).
  assert (HJ : jsonable (VDict hd) = true).
  { eapply sign_header_json; [exact J|eapply signers_scalars; exact G|]. intros k' X. injection X as <-. exact O. }
  destruct (signed_text _ _ _ _ _ _ _ _ _ _ _ _ _ _ _ _ _ _ S W (b2s_id _ HJ) HJ) as (h & A & L & B & EI & AI & ->).
  destruct (sign_header_get protected (VStr a) (Some k0) (dget (s_dict s) (lit "typ"))) as (H1 & H2 & _ & _). fold hd in H1, H2.
  destruct (Wk E i m sg (ascii_bytes _ AI) (sn_material _ _ _ _ _ _ _ _ _ _ _ _ _ _ _ _ _ S) (sn_sign _ _ _ _ _ _ _ _ _ _ _ _ _ _ _ _ _ S)) as (BS & _).
  destruct (unpack_mk_token h (VDict hd) [pb; sg] A L) as [U1 U2]; [cbn [forallb]; rewrite B, BS; reflexivity|discriminate|].
  set (u := {| j_headers := VDict hd; j_b64 := map b64e (h :: [pb; sg]); j_part := map VBytes (h :: [pb; sg]) |}) in *.
  assert (U : unpack token = Ok u) by (destruct TK as [->| ->]; assumption). destruct (signers_not_none _ _ G) as [NN NN'].
  unfold verify_compact. rewrite U. cbn [bind]. change (Nat.eqb (length (j_part u)) 3) with true. cbn match. change (j_headers u) with (VDict hd). cbn [py_get]. rewrite H1.
  assert (X : none_alg (VStr a) = Ok false) by (cbn [none_alg py_lower bind pval_eqb]; rewrite (proj2 (zs_eqb_neq _ _) NN); reflexivity). rewrite X. unfold verify_alg. cbn [s_dict set_jwt].
  assert (Y : dmem (s_dict v) (lit "alg") && truthy (VStr a) && negb (pval_eqb (kwarg (s_dict v) (lit "alg") VNone) (VStr a)) = false).
  { unfold dmem, kwarg. destruct R1 as [R1|R1]; rewrite R1; [reflexivity|]. cbn [pval_eqb]. rewrite zs_eqb_refl, andb_false_r. reflexivity. }
  rewrite Y. assert (ZZ : truthy sigalg && negb (pval_eqb sigalg (VStr a)) = false).
  { destruct SA as [SA|SA]; rewrite SA; [reflexivity|]. cbn [pval_eqb]. rewrite zs_eqb_refl. apply andb_false_r. }
  rewrite ZZ. unfold checked. cbn [jws_keys bind].
  assert (KF : kid_in_force (set_alg (set_jwt v u) (VStr a)) = Ok (kwarg hd (lit "kid") VNone)).
  { unfold kid_in_force, set_alg, set_jwt. cbn [s_dict s_jwt]. rewrite dget_dset. lits. cbn match. unfold kwarg. change (j_headers u) with (VDict hd). cbn [py_get]. rewrite R2. destruct (dget hd (lit "kid")); reflexivity. }
  assert (HK : kwarg hd (lit "kid") VNone = kwarg protected (lit "kid") VNone) by (unfold kwarg; rewrite H2, CF1; reflexivity).
  assert (PK : pick_keys (set_alg (set_jwt v u) (VStr a)) (map Some [k0]) (VStr []) (VStr []) = Ok []).
  { unfold pick_keys. change (truthy (VStr [])) with false. cbn iota. unfold set_alg at 1. cbn [s_dict]. rewrite dget_dset. cbn [bind]. change (zs_eqb (lit "alg") (lit "alg")) with true. cbn iota. cbn [bind].
    replace (pval_eqb (VStr a) (VStr (lit "none"))) with false by (symmetry; apply zs_eqb_neq; exact NN'). rewrite T. cbn [bind real_keys map mapM]. rewrite KF, HK. cbn [bind]. f_equal.
    cbn [filter]. destruct (kty_fits t k0); [|reflexivity]. cbn [filter]. replace (key_fits (kwarg protected (lit "kid") VNone) (VStr []) (VStr a) k0) with false; [reflexivity|].
    unfold key_fits. rewrite CF2. cbn [andb]. destruct (pval_eqb (kwarg protected (lit "kid") VNone) (k_kid k0)) eqn:EQ; [|reflexivity]. apply eqb_truthy in EQ. congruence. }
  change (Some k0 :: map Some []) with (map Some [k0]). rewrite PK. reflexivity.
Qed.

(** The same condition decides, for one key. *)
Theorem one_key : forall P E s k protected s' tok a g t,
  sign_compact P E s (Some [k]) protected = (s', Ok tok) -> chosen s (Some [k]) = VStr a -> dget SIGNERS a = Some g -> alg2keytype (VStr a) = Ok (Some t) ->
  octets_wf (s_msg s) -> json_header protected s (Some [k]) -> text_cty protected -> works P g k -> (truthy (k_kid k) = true -> exists x, k_kid k = VStr x) ->
  forall v an sigalg token, token = VStr tok \/ token = VBytes tok -> ready v a -> truthy sigalg = false \/ sigalg = VStr a ->
  ((exists m, snd (verify_compact P v token (Some [k]) an sigalg) = Ok (m, Some k)) <-> truthy (k_kid k) = true \/ truthy (kwarg protected (lit "kid") VNone) = false) /\
  (forall e, snd (verify_compact P v token (Some [k]) an sigalg) = Raise e -> e = ENoSuitableSigningKeys).
Proof.
  intros P E s k protected s' tok a g t H C G T W J CT Wk KT v an sigalg token TK R SA.
  destruct (truthy (k_kid k)) eqn:K1; [|destruct (truthy (kwarg protected (lit "kid") VNone)) eqn:K2].
  2: { pose proof (conflict_refused P E s k protected s' tok a g t H C G T W J Wk (conj K1 K2) v an sigalg token TK R SA) as X. rewrite X. split; [|intros e Q; congruence].
       split; [intros (m & Q); discriminate Q|intros [Q|Q]; discriminate Q]. }
  all: destruct (sign_then_verify P E s [k] protected s' tok a g t H C G T) with (v := v) (an := an) (sigalg := sigalg) (token := token) as (pb & v' & k' & _ & V & [<-|[]]);
    try assumption; try discriminate; try (intros k1 [<-|[]]; (assumption || auto)); try (intros k1 k2 [<-|[]] [<-|[]]; left; reflexivity); try congruence.
  all: rewrite V; cbn [snd]; split; [|intros e Q; discriminate Q]; split; [auto|intros _; eexists; reflexivity].
Qed.
