(** * What JWE.encrypt makes of a message that is neither text nor bytes *)
From Coq Require Import ZArith List Bool Lia ZifyBool.
From Verif Require Import Base BaseProofs Utf8 Codec CodecProofs Json JsonProofs Jwt JwtProofs Prims Extra Gcm PvalEq Jwk JwkProofs Jws JwsProofs JwsProofs2 JwsProofs3 JwsProofs4 JwsProofs6 Jwe JweProofs JweProofs2 JweProofs3 JweProofs4 JweProofs5 JweProofs6 JweProofs9.
Import ListNotations.
Open Scope Z_scope.

(** The same instance with another message. *)
Definition with_msg (w : jwe) (m : pval) : jwe := {| w_msg := m; w_dict := w_dict w; w_jwk := w_jwk w; w_epk := w_epk w; w_jwt := w_jwt w |}.

Lemma any_gcm : forall P R enc m aad cek iv, no_items m = true -> in_texts enc GCM_ENCS = true -> enc_setup_any P R enc m aad cek iv = enc_setup_any P R enc (VBytes []) aad cek iv.
Proof. intros P R enc m aad cek iv N G. unfold enc_setup_any. destruct m as [| | | | | |[|]|[|]]; try discriminate N; rewrite G; reflexivity. Qed.

Lemma any_cbc : forall P R enc m aad cek iv r, enc_setup_any P R enc m aad cek iv = Ok r -> (exists b, m = VBytes b) \/ (no_items m = true /\ in_texts enc GCM_ENCS = true).
Proof.
  intros P R enc m aad cek iv r H. destruct (no_items m && in_texts enc GCM_ENCS) eqn:N; [apply andb_prop in N; right; exact N|]. left. rewrite andb_comm in N.
  destruct m as [| | | |t|b|l|l]; [| | | | |exists b; reflexivity| |]; exfalso; unfold enc_setup_any in H; rewrite N in H; clear N;
    (destruct (generate_key_and_iv R enc cek iv) as [[key iv0]|]; [|discriminate H]; cbn [bind] in H; destruct (in_texts enc GCM_ENCS);
      [destruct (gcm_new P (be2z key)); [|discriminate H]; cbn [bind] in H; destruct (negb _) in H; discriminate H
      |destruct (in_texts enc CBC_ENCS); [|discriminate H]; destruct (get_keys_seclen_dgst key iv0); discriminate H]).
Qed.

Lemma bytes_or : forall m v, msg_bytes m = Ok v -> (exists b, v = VBytes b) \/ no_items v = true -> (exists t, m = VStr t) \/ (exists b, m = VBytes b) \/ no_items m = true.
Proof.
  intros m v H O. destruct m as [| | | |t|b|l|l]; cbn [msg_bytes] in H; try (apply Ok_inj in H; subst v; destruct O as [[? O]|O]; [discriminate O|discriminate O || tauto]).
  - left. exists t. reflexivity.
  - right. left. exists b. reflexivity.
Qed.

Section Msg.
Variables (P : prims) (R : draws).

Lemma rsa_same : forall d jobj eobj m key cek iv, no_items m = true -> dget d (lit "zip") = None -> (forall enc, dget d (lit "enc") = Some enc -> in_texts enc GCM_ENCS = true) ->
  rsa_jwe_encrypt P R d jobj eobj m key cek iv = rsa_jwe_encrypt P R d jobj eobj (VBytes []) key cek iv.
Proof.
  intros d jobj eobj m key cek iv N Z G. unfold rsa_jwe_encrypt. replace (msg_bytes m) with (Ok m) by (destruct m; try discriminate N; reflexivity). cbn [msg_bytes bind]. rewrite Z. cbn [bind].
  unfold dict_get. destruct (dget d (lit "enc")) as [enc|]; [|reflexivity]. cbn [bind]. destruct (generate_key_and_iv R enc cek iv) as [[c v]|]; [|reflexivity]. cbn [bind].
  destruct (dget d (lit "alg")) as [alg|]; [|reflexivity]. cbn [bind]. match goal with |- bind ?x _ = _ => destruct x; [|reflexivity] end. cbn [bind].
  destruct (headers d jobj JWE_ARGS); [|reflexivity]. cbn [bind]. destruct (jwenc _ _); [|reflexivity]. cbn [bind]. destruct (b64encode_item _); [|reflexivity]. cbn [bind].
  rewrite (any_gcm P R enc m _ _ _ N (G enc eq_refl)). reflexivity.
Qed.

Lemma ec_same : forall d objs m cek ek iv params kid, no_items m = true ->
  (forall enc, dget (dupd match kid with Some v => dset d (lit "kid") v | None => d end params) (lit "enc") = Some enc -> in_texts enc GCM_ENCS = true) ->
  ec_encrypt P R d objs m cek ek iv params kid = ec_encrypt P R d objs (VBytes []) cek ek iv params kid.
Proof.
  intros d objs m cek ek iv params kid N G. unfold ec_encrypt. replace (msg_bytes m) with (Ok m) by (destruct m; try discriminate N; reflexivity). cbn [msg_bytes bind]. cbv zeta.
  destruct (jwenc _ _); [|reflexivity]. cbn [bind]. destruct (b64encode_item _); [|reflexivity]. cbn [bind]. unfold dict_get. destruct (dget _ (lit "enc")) as [enc|]; [|reflexivity]. cbn [bind].
  rewrite (any_gcm P R enc m _ _ _ N (G enc eq_refl)). reflexivity.
Qed.

(** A list or dictionary without items is encrypted as the empty octet string. *)
Theorem empty_as_nothing : forall w m keys cek iv kw a e, no_items m = true -> In a (RSA_ALGS ++ EC_ALGS) -> dget (w_dict w) (lit "alg") = Some (VStr a) ->
  dget (w_dict w) (lit "enc") = Some (VStr e) -> In e GCM_ENCS -> dget (w_dict w) (lit "zip") = None ->
  jwe_encrypt P R (with_msg w m) keys cek iv kw = ' (t, w') <- jwe_encrypt P R (with_msg w (VBytes [])) keys cek iv kw;; Ok (t, with_msg w' m).
Proof.
  intros w m keys cek iv kw a e N IA AL EN IE ZP.
  assert (IG : in_texts (VStr e) GCM_ENCS = true) by (unfold GCM_ENCS in *; cbn [In] in IE; repeat (destruct IE as [<-|IE]; [reflexivity|]); destruct IE).
  unfold jwe_encrypt. change (w_dict (with_msg w m)) with (w_dict w). change (w_dict (with_msg w (VBytes []))) with (w_dict w). unfold dict_get. rewrite AL. cbn [bind].
  change (jws_keys P (as_jws (with_msg w m)) keys) with (jws_keys P (as_jws w) keys). change (jws_keys P (as_jws (with_msg w (VBytes []))) keys) with (jws_keys P (as_jws w) keys).
  destruct (jws_keys P (as_jws w) keys) as [ks|]; [|reflexivity]. cbn [bind].
  change (pick_keys (as_jws (with_msg w m))) with (pick_keys (as_jws w)). change (pick_keys (as_jws (with_msg w (VBytes [])))) with (pick_keys (as_jws w)).
  destruct (pick_keys (as_jws w) ks (VStr (lit "enc")) (VStr [])) as [[|k r]|]; try reflexivity. cbn [bind].
  change (sub_dict (with_msg w m)) with (sub_dict w). change (sub_dict (with_msg w (VBytes []))) with (sub_dict w). cbn [with_msg w_msg w_jwk w_epk].
  change (ec_enc_setup P R (with_msg w m)) with (ec_enc_setup P R w). change (ec_enc_setup P R (with_msg w (VBytes []))) with (ec_enc_setup P R w).
  assert (GET : forall n args, plain_name n -> n <> lit "alg" -> n <> lit "kid" -> existsb (zs_eqb n) args = true ->
    dget (if truthy (k_kid k) then dset (sub_dict w args) (lit "kid") (k_kid k) else sub_dict w args) n = dget (w_dict w) n).
  { intros n args N1 N2 N3 N4. change (if truthy (k_kid k) then dset (sub_dict w args) (lit "kid") (k_kid k) else sub_dict w args) with (named_dict k (sub_dict w args)). rewrite named_get by exact N3. apply sub_dict_get; assumption. }
  apply in_app_or in IA. destruct IA as [IA|IA].
  - destruct (rsa_alg a IA) as (_ & -> & _). cbn [bind]. cbv zeta. destruct (key_material P k (VStr a) true) as [mt|]; [|reflexivity]. cbn [bind].
    rewrite (rsa_same _ _ _ m); [|exact N|rewrite GET by (ne || (repeat split; ne) || reflexivity); exact ZP|intros enc X; rewrite GET in X by (ne || (repeat split; ne) || reflexivity); rewrite EN in X; injection X as <-; exact IG].
    destruct (rsa_jwe_encrypt P R _ _ _ (VBytes []) _ _ _) as [[t c]|]; reflexivity.
  - destruct (ec_alg a IA) as (_ & -> & _). cbn [bind]. cbv zeta. destruct (ec_enc_setup P R w k) as [[[[ck ek] vk] params]|] eqn:ES; [|reflexivity]. cbn [bind]. destruct (key_material P k (VStr a) true) as [mt|]; [|reflexivity]. cbn [bind].
    assert (PA : exists u v x, params = [(lit "apu", u); (lit "apv", v); (lit "epk", x)]).
    { clear - ES. unfold ec_enc_setup in ES.
      repeat match type of ES with
      | bind ?x _ = _ => destruct x; [cbn [bind] in ES|discriminate ES]
      | (let '(_, _) := ?x in _) = _ => destruct x
      | (if ?x then _ else _) = _ => destruct x
      | match ?x with _ => _ end = _ => destruct x
      | Ok _ = Ok _ => injection ES as _ _ _ <-; eexists _, _, _; reflexivity
      | Raise _ = _ => discriminate ES
      | _ => progress cbv zeta in ES
      end. }
    destruct PA as (u & v & x & ->).
    rewrite (ec_same _ _ m); [|exact N|].
    + destruct (ec_encrypt P R _ _ (VBytes []) _ _ _ _ _) as [t|]; reflexivity.
    + intros enc X. cbn [dupd fold_left fst snd] in X. unfold dupd in X. cbn [fold_left] in X. rewrite !dget_dset_other in X by ne.
      assert (X' : dget (if truthy (k_kid k) then dset (sub_dict w SYM_ARGS) (lit "kid") (k_kid k) else sub_dict w SYM_ARGS) (lit "enc") = Some enc) by (destruct kw; [rewrite dget_dset_other in X by ne|]; exact X).
      rewrite GET in X' by (ne || (repeat split; ne) || reflexivity). rewrite EN in X'. injection X' as <-. exact IG.
Qed.

(** Anything else that is neither text nor bytes is refused. *)
Theorem encrypted_messages : forall w keys cek iv kw tok w', jwe_encrypt P R w keys cek iv kw = Ok (tok, w') ->
  (exists t, w_msg w = VStr t) \/ (exists b, w_msg w = VBytes b) \/
  ((w_msg w = VList [] \/ w_msg w = VDict []) /\ exists e, dget (w_dict w) (lit "enc") = Some (VStr e) /\ In e GCM_ENCS).
Proof.
  intros w keys cek iv kw tok w' H. unfold jwe_encrypt in H. unfold dict_get in H at 1. destruct (dget (w_dict w) (lit "alg")) as [alg|] eqn:AL; [|discriminate H]. cbn [bind] in H.
  destruct (jws_keys P (as_jws w) keys) as [ks|]; [|discriminate H]. cbn [bind] in H. destruct (pick_keys (as_jws w) ks _ _) as [[|k r]|]; try discriminate H. cbn [bind] in H.
  destruct (family_of alg) as [f|]; [|discriminate H]. cbn [bind] in H. cbv zeta in H.
  assert (GET : forall n args, plain_name n -> n <> lit "alg" -> n <> lit "kid" -> existsb (zs_eqb n) args = true ->
    dget (if truthy (k_kid k) then dset (sub_dict w args) (lit "kid") (k_kid k) else sub_dict w args) n = dget (w_dict w) n).
  { intros n args N1 N2 N3 N4. change (if truthy (k_kid k) then dset (sub_dict w args) (lit "kid") (k_kid k) else sub_dict w args) with (named_dict k (sub_dict w args)). rewrite named_get by exact N3. apply sub_dict_get; assumption. }
  assert (CL : forall enc v aad c i x, msg_bytes (w_msg w) = Ok v -> dget (w_dict w) (lit "enc") = Some enc -> enc_setup_any P R enc v aad c i = Ok x ->
    (exists t, w_msg w = VStr t) \/ (exists b, w_msg w = VBytes b) \/ ((w_msg w = VList [] \/ w_msg w = VDict []) /\ exists e, dget (w_dict w) (lit "enc") = Some (VStr e) /\ In e GCM_ENCS)).
  { intros enc v aad c i x M E S. apply any_cbc in S. destruct S as [B|[NI G]]; [destruct (bytes_or _ _ M (or_introl B)) as [T|[B'|X]]; [tauto|tauto|]|].
    - exfalso. destruct B as [b ->]. destruct (w_msg w); try discriminate X; cbn [msg_bytes] in M; discriminate M.
    - apply in_texts_In in G. destruct G as (e & IE & ->). destruct (bytes_or _ _ M (or_intror NI)) as [T|[B'|X]]; [tauto|tauto|].
      right. right. split; [destruct (w_msg w) as [| | | | | |[|]|[|]]; try discriminate X; tauto|]. exists e. split; assumption. }
  destruct f.
  - destruct (key_material P k alg true) as [mt|]; [|discriminate H]. cbn [bind] in H. unfold rsa_jwe_encrypt in H. destruct (msg_bytes (w_msg w)) as [v|] eqn:MB; [|discriminate H]. cbn [bind] in H.
    destruct (dget _ (lit "zip")) as [z|] in H.
    + destruct (pval_eqb z (VStr (lit "DEF"))); [|discriminate H]. destruct v as [| | | | |b| |]; try discriminate H. destruct (bytes_or _ _ MB (or_introl (ex_intro _ b eq_refl))) as [T|[B'|X]]; [tauto|tauto|].
      exfalso. destruct (w_msg w); try discriminate X; discriminate MB.
    + cbn [bind] in H. unfold dict_get in H at 1. rewrite GET in H by (ne || (repeat split; ne) || reflexivity). destruct (dget (w_dict w) (lit "enc")) as [enc|] eqn:E; [|discriminate H]. cbn [bind] in H.
      repeat match type of H with
      | bind (bind (let '(_, _) := ?x in _) _) _ = _ => destruct x
      | bind (bind (bind ?x _) _) _ = _ => destruct x
      | bind (let '(_, _) := ?x in _) _ = _ => destruct x
      | bind (bind ?x _) _ = _ => let Q := fresh "Q" in destruct x eqn:Q; [cbn [bind] in H; try exact (CL _ _ _ _ _ _ eq_refl eq_refl Q)|discriminate H]
      end.
  - destruct (key_material P k alg true) as [mt|]; [|discriminate H]. cbn [bind] in H. unfold sym_encrypt in H.
    repeat match type of H with
    | bind (bind (let '(_, _) := ?x in _) _) _ = _ => destruct x
    | bind (let '(_, _) := ?x in _) _ = _ => destruct x
    | bind (bind (match ?m with VStr _ => _ | _ => _ end) _) _ = _ => destruct m eqn:Q; [discriminate H|discriminate H|discriminate H|discriminate H|left; eexists; reflexivity|discriminate H|discriminate H|discriminate H]
    | bind (bind ?x _) _ = _ => destruct x; [cbn [bind] in H|discriminate H]
    | _ => progress cbv zeta in H
    end.
  - destruct (ec_enc_setup P R w k) as [[[[ck ek] vk] params]|] eqn:ES; [|discriminate H]. cbn [bind] in H. destruct (key_material P k alg true) as [mt|]; [|discriminate H]. cbn [bind] in H.
    assert (PA : exists u v x, params = [(lit "apu", u); (lit "apv", v); (lit "epk", x)]).
    { clear - ES. unfold ec_enc_setup in ES.
      repeat match type of ES with
      | bind ?x _ = _ => destruct x; [cbn [bind] in ES|discriminate ES]
      | (let '(_, _) := ?x in _) = _ => destruct x
      | (if ?x then _ else _) = _ => destruct x
      | match ?x with _ => _ end = _ => destruct x
      | Ok _ = Ok _ => injection ES as _ _ _ <-; eexists _, _, _; reflexivity
      | Raise _ = _ => discriminate ES
      | _ => progress cbv zeta in ES
      end. }
    destruct PA as (u & v & x & ->). unfold ec_encrypt in H. destruct (msg_bytes (w_msg w)) as [mv|] eqn:MB; [|discriminate H]. cbn [bind] in H. cbv zeta in H.
    destruct (jwenc _ _); [|discriminate H]. cbn [bind] in H. destruct (b64encode_item _); [|discriminate H]. cbn [bind] in H.
    unfold dict_get in H. unfold dupd in H. cbn [fold_left fst snd] in H. rewrite !dget_dset_other in H by ne.
    assert (GE : forall z, dget (match kw with Some v0 => dset z (lit "kid") v0 | None => z end) (lit "enc") = dget z (lit "enc")) by (intro z; destruct kw; [rewrite dget_dset_other by ne|]; reflexivity).
    rewrite GE, GET in H by (ne || (repeat split; ne) || reflexivity). destruct (dget (w_dict w) (lit "enc")) as [enc|] eqn:E; [|discriminate H]. cbn [bind] in H.
    destruct (enc_setup_any P R enc mv _ _ _) as [y|] eqn:S; [|discriminate H]. exact (CL _ _ _ _ _ _ eq_refl eq_refl S).
Qed.
End Msg.
