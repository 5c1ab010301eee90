(** * Proofs about JSON Web Signatures: whose keys are trusted *)
From Coq Require Import ZArith List Bool Lia ZifyBool Znumtheory.
From Verif Require Import Base BaseProofs Utf8 Codec CodecProofs Json JsonProofs Jwt JwtProofs Prims EcSpec Elliptic EcArith EcProofs Ecc EccProofs EcAux PvalEq Jwk JwkProofs JwkProofs2 Jws JwsProofs JwsProofs2 JwsProofs3 JwsProofs4.
Import ListNotations.
Open Scope Z_scope.

(** Without keys from the caller only the key object of the instance is used, whatever jku and x5u say. *)
Theorem no_keys_no_trust : forall P s token keys an sigalg s' m k, keys = None \/ keys = Some [] -> verify_compact P s token keys an sigalg = (s', Ok (m, Some k)) -> s_jwk s = Some (JKey k).
Proof.
  intros P s token keys an sigalg s' m k N H. apply verify_accepted in H. destruct H as (j & h & p & s64 & sg & d & Pr & Pl & [(_ & _ & A)|(a & k' & t & kid & A & _ & K & O & _)]); [discriminate|].
  injection K as <-. destruct O as [(l & O & I)|[_ O]]; [|exact O]. destruct N as [N|N]; rewrite O in N; [discriminate|]. injection N as ->. destruct I.
Qed.
Theorem no_keys_refused : forall P s token keys sigalg, keys = None \/ keys = Some [] -> s_jwk s = None -> exists s' e, verify_compact P s token keys false sigalg = (s', Raise e).
Proof.
  intros P s token keys sigalg N J. destruct (verify_compact P s token keys false sigalg) as [s' [[m ko]|e]] eqn:V; [exfalso|eauto].
  destruct ko as [k|]; [apply no_keys_no_trust in V; [congruence|exact N]|]. apply verify_accepted in V.
  destruct V as (j & h & p & s64 & sg & d & Pr & Pl & [(_ & X & _)|(a & k & t & kid & A & _ & K & _)]); discriminate.
Qed.

(** ** A key of class Key with kty "ec" *)

Lemma forged_point : forall c, sound_curve c -> forall h, 0 <= h -> fst (c_G c) mod c_N c <> 0 -> trunc h (c_N c) mod c_N c <> 0 ->
  let r := fst (c_G c) mod c_N c in let s := trunc h (c_N c) mod c_N c in
  bytes_ok (int2bytes c r ++ int2bytes c s) = true /\ Ecc.verify c h (int2bytes c r ++ int2bytes c s) None = Ok true.
Proof.
  intros c SC h H0 G0 H1 r s. pose proof (sc_N c SC) as N2. pose proof (sc_Nsize c SC) as NS.
  assert (R : 0 < r < c_N c) by (pose proof (Z.mod_pos_bound (fst (c_G c)) (c_N c) ltac:(lia)); unfold r; lia).
  assert (S : 0 < s < c_N c) by (pose proof (Z.mod_pos_bound (trunc h (c_N c)) (c_N c) ltac:(lia)); unfold s; lia).
  split; [rewrite bytes_ok_app, !int2bytes_fixed by (exact SC || lia); rewrite !z2be_ok; reflexivity|].
  change (@None (Z * Z)) with (public_key_for c 0). apply (sig_eq_verify c SC h 0 1 r s H0 ltac:(lia) R).
  destruct (c_G c) as [gx gy] eqn:G. destruct (sc_Gred c SC) as [G1 G2]. rewrite G in G1, G2. cbn [fst snd] in G1, G2.
  exists gx, gy. split; [exact G1|]. split; [exact G2|]. split; [rewrite G; unfold gmul; cbn; reflexivity|]. split; [reflexivity|]. split; [lia|]. split; [|exact S].
  unfold s. rewrite Z.mul_1_r, Z.mul_0_r, Z.add_0_r, Zmod_mod. reflexivity.
Qed.

Lemma enc_values_get : forall d d' n, enc_values d = Ok d' -> match dget d n with None => dget d' n = None | Some v => exists w, as_bytes v = Ok w /\ dget d' n = Some w end.
Proof.
  induction d as [|[k v] d IH]; intros d' n H; cbn [enc_values] in H; [injection H as <-; reflexivity|].
  destruct (as_bytes v) as [w|] eqn:W; [|discriminate]. cbn [bind] in H. destruct (enc_values d) as [r|] eqn:R; [|discriminate]. cbn [bind] in H. injection H as <-. cbn [dget].
  destruct (zs_eqb k n); [exists w; auto|apply IH; reflexivity].
Qed.

Lemma lower_ec : forall P d k, keyrep P (VDict d) = Ok k -> dget d (lit "kty") = Some (VStr (lit "ec")) -> dget d (lit "key") = None ->
  right_type (lit "EC") k /\ get_key k false = Ok (MObj (OVal VNone)).
Proof.
  intros P d k H T N. cbn [keyrep] in H. destruct (enc_values d) as [kw|] eqn:E; [|discriminate]. cbn [bind] in H. rewrite T in H. unfold dispatch in H.
  change (pval_eqb (VStr (lit "ec")) (VStr (lit "RSA"))) with false in H. change (pval_eqb (VStr (lit "ec")) (VStr (lit "oct"))) with false in H. change (pval_eqb (VStr (lit "ec")) (VStr (lit "EC"))) with false in H. cbn match in H.
  pose proof (enc_values_get _ _ (lit "kty") E) as K. rewrite T in K. destruct K as (w & W & K). injection W as <-. pose proof (enc_values_get _ _ (lit "key") E) as Q. rewrite N in Q.
  unfold base_new, key_init in H. destruct (dmem kw (lit "self")); [discriminate|]. unfold kwarg in H. rewrite K, Q in H.
  assert (X : k_kty k = VStr (lit "ec") /\ k_data k = DKey (OVal VNone)) by (destruct k; injection H; intros; subst; split; reflexivity). destruct X as [X1 X2].
  split; [left; exact X1|]. unfold get_key. rewrite X2. reflexivity.
Qed.

(** Whoever verifies with such a key accepts tokens anybody can make: the signature is computed from the token text
    and the public parameters of the curve alone. *)
Definition forged (P : prims) (c : curve) (hh : hashalg) (h pb : bytes) : bytes :=
  let e := trunc (be2z (p_hash P hh (b64e h ++ 46 :: b64e pb))) (c_N c) in
  mk_token h [pb; int2bytes c (fst (c_G c) mod c_N c) ++ int2bytes c (e mod c_N c)].

Theorem lower_ec_forgery : forall P, hash_law P -> forall d k a hh bits c, keyrep P (VDict d) = Ok k -> dget d (lit "kty") = Some (VStr (lit "ec")) -> dget d (lit "key") = None ->
  In (a, (hh, bits)) es_algs -> nist_curve bits = Ok c ->
  forall h hd pb, ascii h = true -> loads h = Ok (VDict hd) -> bytes_ok pb = true -> dget hd (lit "alg") = Some (VStr a) -> text_cty hd ->
  right_kid (kwarg hd (lit "kid") VNone) k -> right_alg (VStr a) k ->
  trunc (be2z (p_hash P hh (b64e h ++ 46 :: b64e pb))) (c_N c) mod c_N c <> 0 ->
  forall v an, dget (s_dict v) (lit "alg") = None -> dget (s_dict v) (lit "kid") = None ->
  exists v', verify_compact P v (VStr (forged P c hh h pb)) (Some [k]) an VNone = (v', Ok (payload_view hd pb, Some k)).
Proof.
  intros P HL d k a hh bits c KR KT NK I C h hd pb A L B HA CT RK RA D v an R1 R2. destruct (lower_ec _ _ _ KR KT NK) as [RT GK].
  assert (SC : sound_curve c) by (eapply nist_sound; exact C).
  assert (G0 : fst (c_G c) mod c_N c <> 0).
  { cbn [In es_algs] in I. destruct I as [I|[I|[I|[]]]]; injection I as <- <- <-; vm_compute in C; injection C as <-; vm_compute; discriminate. }
  set (i := b64e h ++ 46 :: b64e pb) in *. assert (BI : bytes_ok i = true).
  { unfold i. rewrite bytes_ok_app. cbn [bytes_ok forallb]. fold (bytes_ok (b64e pb)). rewrite !(fun b X => ascii_bytes _ (b64e_ascii b X)) by (exact B || (apply ascii_bytes; exact A)). reflexivity. }
  destruct (forged_point c SC (be2z (p_hash P hh i))) as [FB FV]; [apply be2z_bound; apply HL; exact BI|exact G0|exact D|].
  destruct (verify_token P (DSASigner hh bits) a (lit "EC") h hd pb (int2bytes c (fst (c_G c) mod c_N c) ++ int2bytes c (trunc (be2z (p_hash P hh i)) (c_N c) mod c_N c)) [k] k v an VNone (VStr (forged P c hh h pb)))
    as (v' & k' & V & K'); try assumption.
  - cbn [In es_algs] in I. destruct I as [I|[I|[I|[]]]]; injection I as <- <- <-; reflexivity.
  - cbn [In es_algs] in I. destruct I as [I|[I|[I|[]]]]; injection I as <- <- <-; reflexivity.
  - left. reflexivity.
  - left. reflexivity.
  - split; [exact RT|]. split; [exact RK|]. split; [intro X; discriminate X|exact RA].
  - exists (MObj (OVal VNone)). split; [exact GK|]. cbn [signer_verify as_point truthy negb]. rewrite C. cbn [bind]. fold i. rewrite FV. reflexivity.
  - intros k' [<-|[]]. left. reflexivity.
  - split; left; assumption.
  - left. reflexivity.
  - exists v'. destruct K' as [<-|[]]. exact V.
Qed.

(** ** C25 for every source of keys *)

(** The keys at hand: the caller's, else the key object of the instance, else none. *)
Inductive at_hand (s : jws) : option (list jwk) -> list jwk -> Prop :=
| hand_given : forall l, l <> [] -> at_hand s (Some l) l
| hand_own : forall keys k, keys = None \/ keys = Some [] -> s_jwk s = Some (JKey k) -> at_hand s keys [k]
| hand_none : forall keys, keys = None \/ keys = Some [] -> s_jwk s = None -> dget (s_dict s) (lit "jku") = None -> dget (s_dict s) (lit "x5u") = None -> at_hand s keys [].

Theorem sign_refuses_all : forall P E s keys l protected a kid, at_hand s keys l -> chosen s keys = VStr a -> lower a <> lit "none" -> kid_in_force s = Ok kid ->
  (forall k t, In k l -> alg2keytype (VStr a) = Ok (Some t) -> ~ suitable t kid (VStr (lit "sig")) (VStr a) k) ->
  snd (sign_compact P E s keys protected) = Raise ENoSuitableSigningKeys.
Proof.
  intros P E s keys l protected a kid AH C N K F. unfold sign_compact, alg_keys. destruct (pick_alg s keys) as [s0 al] eqn:PA.
  destruct (pick_alg_chosen s keys) as (C1 & C2 & C3 & C4 & C5 & C6 & C7). rewrite PA in C1. cbn [snd] in C1. rewrite C in C1. subst al.
  assert (E0 : s0 = after_choice s keys) by (unfold after_choice; rewrite PA; reflexivity).
  assert (OT : forall n, n <> lit "alg" -> dget (s_dict s0) n = dget (s_dict s) n).
  { intros n NE. unfold pick_alg in PA. destruct (dget (s_dict s) (lit "alg")) as [al|].
    - destruct (truthy al); injection PA as <- _; [reflexivity|]. cbn [s_dict set_alg]. apply dget_dset_other. apply not_eq_sym. exact NE.
    - destruct keys as [[|k0 [|k1 r]]|]; try (cbn [truthy] in PA; injection PA as <- _; cbn [s_dict set_alg]; apply dget_dset_other; apply not_eq_sym; exact NE).
      destruct (truthy (k_alg k0)) eqn:T; [rewrite T in PA; injection PA as <- _|cbn [truthy] in PA; injection PA as <- _]; cbn [s_dict set_alg]; apply dget_dset_other; apply not_eq_sym; exact NE. }
  assert (JW : s_jwk s0 = s_jwk s).
  { unfold pick_alg in PA. destruct (dget (s_dict s) (lit "alg")) as [al|]; [destruct (truthy al); injection PA as <- _; reflexivity|].
    destruct keys as [[|k0 [|k1 r]]|]; try (cbn [truthy] in PA; injection PA as <- _; reflexivity).
    destruct (truthy (k_alg k0)) eqn:T; [rewrite T in PA; injection PA as <- _|cbn [truthy] in PA; injection PA as <- _]; reflexivity. }
  assert (JK : jws_keys P s0 keys = Ok (map Some l)).
  { destruct AH as [l NE|keys k Q J|keys Q J U1 U2].
    - destruct l; [congruence|reflexivity].
    - destruct Q as [->| ->]; cbn [jws_keys]; unfold jws_get_keys; rewrite JW, J; reflexivity.
    - assert (U1' : dget (s_dict s0) (lit "jku") = None) by (rewrite OT; [exact U1|intro X; vm_compute in X; discriminate]).
      assert (U2' : dget (s_dict s0) (lit "x5u") = None) by (rewrite OT; [exact U2|intro X; vm_compute in X; discriminate]).
      destruct Q as [->| ->]; cbn [jws_keys]; unfold jws_get_keys; rewrite JW, J, U1'; unfold dmem; rewrite U2'; reflexivity. }
  rewrite JK. cbn [bind]. rewrite C in C2.
  assert (PK : pick_keys s0 (map Some l) (VStr (lit "sig")) (VStr a) = Ok []).
  { assert (NN : pval_eqb (VStr a) (VStr (lit "none")) = false) by (cbn [pval_eqb]; apply zs_eqb_neq; intros ->; apply N; reflexivity).
    assert (AT : exists ot, alg2keytype (VStr a) = Ok ot).
    { unfold alg2keytype. rewrite C2. cbn [negb]. repeat match goal with |- context[if ?b then _ else _] => destruct b end; eexists; reflexivity. }
    destruct AT as ([t|] & AT).
    - destruct (pick_keys_spec s0 l (VStr (lit "sig")) (VStr a) (VStr a) t kid) as (out & O & Pk); try assumption.
      { unfold alg_or. rewrite C2. reflexivity. }
      { rewrite E0, signing_kid. exact K. }
      rewrite O. destruct out as [|k out]; [reflexivity|]. exfalso. destruct (proj1 (picks_In _ _ _ _ Pk k) (or_introl eq_refl)) as [I S]. exact (F k t I AT S).
    - unfold pick_keys. rewrite C2. cbn [bind]. rewrite NN, AT. reflexivity. }
  rewrite PK. cbn [bind py_lower pval_eqb]. rewrite (proj2 (zs_eqb_neq _ _) N). reflexivity.
Qed.
