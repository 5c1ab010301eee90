(** * What verify_json can raise (jws.py:633-676) *)
From Coq Require Import ZArith List Bool Lia.
From Verif Require Import Base BaseProofs Utf8 Codec CodecProofs Json JsonProofs Jwt JwtProofs Prims Jwk JwkProofs Jws JwsProofs JwsProofs11 JweProofs.
Import ListNotations.
Open Scope Z_scope.

Definition json_errors : list exn := [EBadSyntax; EWrongNumberOfParts; ESignerAlgError; ENoSuitableSigningKeys; EBadSignature; EAssertionError; EKeyError; ETypeError; EAttributeError].
Definition plain (e : exn) : Prop := is_ValueError e = true \/ In e json_errors.
Ltac listed := first [left; reflexivity | right; cbn; tauto].

Lemma update_pairs_exn : forall l d odd e, update_pairs d odd l = Raise e -> plain e.
Proof.
  induction l as [|x l IH]; intros d odd e H; [discriminate H|]. cbn [update_pairs] in H.
  destruct (py_iter x) as [kv|e1] eqn:E; cbn [bind] in H.
  - destruct kv as [|a [|b [|c r]]]; try (destruct a; injection H as <-; listed); try (injection H as <-; listed).
    destruct a; try exact (IH _ _ _ H); injection H as <-; listed.
  - injection H as <-. unfold py_iter in E. destruct x; try discriminate E; injection E as <-; listed.
Qed.
Lemma py_iter_exn : forall v e, py_iter v = Raise e -> e = ETypeError.
Proof. intros v e H. destruct v; cbn in H; congruence. Qed.
Lemma py_encode_exn : forall v e, py_encode v = Raise e -> plain e.
Proof. intros v e H. destruct v; cbn [py_encode] in H; try (injection H as <-; listed). apply utf8_encode_exn in H. subst e. listed. Qed.
Lemma json_token_exn : forall pl sg e, json_token pl sg = Raise e -> plain e.
Proof.
  intros pl sg e H. destruct sg as [| | | | | | |d]; cbn [json_token] in H; try (injection H as <-; listed).
  destruct (py_encode (kwarg d (lit "protected") (VStr []))) as [ph|] eqn:E1; cbn [bind] in H; [|injection H as <-; exact (py_encode_exn _ _ E1)].
  destruct (py_encode pl) as [pb|] eqn:E2; cbn [bind] in H; [|injection H as <-; exact (py_encode_exn _ _ E2)].
  destruct (dget d (lit "signature")) as [v|]; [|cbn [bind] in H; injection H as <-; listed].
  destruct (py_encode v) as [sg|] eqn:E3; cbn [bind] in H; [|injection H as <-; exact (py_encode_exn _ _ E3)].
  destruct (kwarg d (lit "header") (VDict [])) as [| | | | | | |un]; try (injection H as <-; listed).
  destruct (kwarg d (lit "protected") (VStr [])) as [| | | |t| | |] eqn:PR; try (cbn [bind] in H; injection H as <-; listed).
  destruct (b64d_enc_dec t) as [u|] eqn:E4; cbn [bind] in H.
  - destruct u as [|c u]; [injection H as <-; listed|]. destruct (loads_total (c :: u)) as [[h L]|L]; rewrite L in H; cbn [bind] in H; [|injection H as <-; listed].
    destruct (py_update un h) as [[al odd]|e1] eqn:E5; cbn [bind] in H.
    + destruct odd; [injection H as <-; listed|discriminate H].
    + injection H as <-. assert (X : forall l, py_iter h = Ok l -> update_pairs un false l = Raise e1 -> plain e1) by (intros l _ Y; exact (update_pairs_exn _ _ _ _ Y)).
      destruct h; cbn [py_update py_iter bind] in E5; try discriminate E5; try (injection E5 as <-; listed); eapply update_pairs_exn; exact E5.
  - injection H as <-. unfold b64d_enc_dec in E4. destruct (ascii_encode t) as [b|] eqn:A; cbn [bind] in E4.
    + destruct (b64d b) as [x|] eqn:B; cbn [bind] in E4; [apply utf8_decode_exn in E4; subst; listed|]. injection E4 as <-. destruct (b64d_exn _ _ B) as [->| ->]; listed.
    + injection E4 as <-. unfold ascii_encode in A. destruct (ascii t); [discriminate A|]. injection A as <-. listed.
Qed.

(** Loading the key among the header parameters is refused with [e]. *)
Definition key_refused (P : prims) (hs : dict) (e : exn) : Prop :=
  (exists d, dget hs (lit "jwk") = Some (VDict d) /\ keyrep P (VDict d) = Raise e) \/
  (exists t v, dget hs (lit "jwk") = Some (VStr t) /\ loads t = Ok v /\ keyrep P v = Raise e).

Lemma ddel_other : forall (d : dict) a b, zs_eqb a b = false -> dget (ddel d b) a = dget d a.
Proof.
  induction d as [|[k v] d IH]; intros a b N; [reflexivity|]. cbn [ddel dget]. destruct (zs_eqb k b) eqn:E; cbn [dget].
  - apply zs_eqb_eq in E. subst k. destruct (zs_eqb b a) eqn:E2; [apply zs_eqb_eq in E2; subst; rewrite zs_eqb_refl in N; discriminate N|]. reflexivity.
  - destruct (zs_eqb k a); [reflexivity|]. apply IH. exact N.
Qed.
Lemma init_exn : forall P hs e, init_from P hs = Raise e -> plain e \/ key_refused P hs e.
Proof.
  intros P hs e H. unfold init_from in H. destruct (dmem hs (lit "self")); [injection H as <-; left; listed|].
  unfold jws_init in H. rewrite !ddel_other in H by reflexivity. destruct (dget hs (lit "jwk")) as [v|] eqn:J; [|discriminate H].
  destruct v as [| | | |t| | |d]; try discriminate H.
  - destruct (loads_total t) as [[v L]|L]; rewrite L in H; cbn [bind] in H; [|injection H as <-; left; listed].
    destruct (keyrep P v) as [k|e1] eqn:K; cbn [bind] in H; [discriminate H|]. injection H as <-. right. right. exists t, v. repeat split; assumption.
  - destruct (keyrep P (VDict d)) as [k|e1] eqn:K; cbn [bind] in H; [discriminate H|]. injection H as <-. right. left. exists d. split; assumption.
Qed.

Lemma verify_signs_exn : forall P ks an sigalg pl, rsa_quiet P -> ks <> [] -> (forall k, In k ks -> sound_key k) ->
  forall signs s claim e, verify_signs P s pl signs (Some ks) an sigalg claim = Raise e -> plain e \/ exists sg tok hs, In sg signs /\ json_token pl sg = Ok (tok, hs) /\ key_refused P hs e.
Proof.
  intros P ks an sigalg pl Q NE SK. induction signs as [|sg signs IH]; intros s claim e H; [discriminate H|]. cbn [verify_signs] in H.
  assert (REST : forall s2 c, verify_signs P s2 pl signs (Some ks) an sigalg c = Raise e -> plain e \/ exists sg0 tok hs, In sg0 (sg :: signs) /\ json_token pl sg0 = Ok (tok, hs) /\ key_refused P hs e).
  { intros s2 c X. destruct (IH _ _ _ X) as [Y|(sg0 & tok & hs & I & Y)]; [left; exact Y|right; exists sg0, tok, hs; split; [right; exact I|exact Y]]. }
  destruct (json_token pl sg) as [[tok hs]|e1] eqn:J; cbn [bind] in H; [|injection H as <-; left; exact (json_token_exn _ _ _ J)].
  destruct (init_from P hs) as [s1|e1] eqn:I; cbn [bind] in H.
  2:{ injection H as <-. destruct (init_exn _ _ _ I) as [X|X]; [left; exact X|]. right. exists sg, tok, hs. split; [left; reflexivity|]. split; [exact J|exact X]. }
  destruct (verify_compact P s1 (VBytes tok) (Some ks) an sigalg) as [s2 out] eqn:V. destruct out as [[m j]|e1]; cbn [bind] in H.
  - destruct claim; try exact (REST _ _ H); destruct (pval_eqb _ m); try exact (REST _ _ H); injection H as <-; left; listed.
  - injection H as <-. left. apply verify_raises in V; [|exact Q|exists tok; right; reflexivity|exact NE|exact SK].
    destruct V as [->|[X|[X|(j & _ & [(-> & _)|(d & _ & [(-> & _)|[(-> & _)|(-> & _)]])])]]]; try listed.
    + left. exact X.
    + cbn [In] in X. destruct X as [<-|[<-|[<-|[<-|[]]]]]; listed.
Qed.

(** [sg] is an element of signatures or, without that member, the object's own members. *)
Definition one_signature (d : dict) (sg : pval) : Prop :=
  (exists x l, dget d (lit "signatures") = Some x /\ py_iter x = Ok l /\ In sg l) \/
  (dget d (lit "signatures") = None /\ exists f, sg = VDict f /\ forall n, dget f n = if existsb (zs_eqb n) [lit "protected"; lit "header"; lit "signature"] then dget d n else None).
Lemma three_members : forall d : dict, let f := flat_map (fun n => match dget d n with Some x => [(n, x)] | None => [] end) [lit "protected"; lit "header"; lit "signature"] in
  forall n, dget f n = if existsb (zs_eqb n) [lit "protected"; lit "header"; lit "signature"] then dget d n else None.
Proof.
  intros d f n. subst f. cbn [flat_map existsb]. rewrite app_nil_r, orb_false_r.
  destruct (zs_eqb n (lit "protected")) eqn:E1; [apply zs_eqb_eq in E1; subst n|destruct (zs_eqb n (lit "header")) eqn:E2; [apply zs_eqb_eq in E2; subst n|destruct (zs_eqb n (lit "signature")) eqn:E3; [apply zs_eqb_eq in E3; subst n|]]].
  all: destruct (dget d (lit "protected")), (dget d (lit "header")), (dget d (lit "signature")); try reflexivity.
  all: cbn [app dget orb]; rewrite ?(zs_eqb_sym _ n), ?E1, ?E2, ?E3; reflexivity.
Qed.

Theorem verify_json_raises : forall P s text ks an sigalg e, rsa_quiet P -> ks <> [] -> (forall k, In k ks -> sound_key k) ->
  verify_json P s (VStr text) (Some ks) an sigalg = Raise e ->
  plain e \/ (e = EJwsFormatError /\ exists d, loads text = Ok (VDict d) /\ dget d (lit "payload") = None) \/
  exists d pl sg tok hs, loads text = Ok (VDict d) /\ dget d (lit "payload") = Some pl /\ one_signature d sg /\ json_token pl sg = Ok (tok, hs) /\ key_refused P hs e.
Proof.
  intros P s text ks an sigalg e Q NE SK H. unfold verify_json in H. cbn [loads_any] in H.
  destruct (loads_total text) as [[v L]|L]; rewrite L in H; cbn [bind] in H; [|injection H as <-; left; listed].
  destruct v as [| | | | | | |d]; cbn [py_get bind] in H; try (injection H as <-; left; listed).
  destruct (dget d (lit "payload")) as [pl|] eqn:PL; cbn [bind] in H; [|injection H as <-; right; left; split; [reflexivity|]; exists d; split; [exact L|exact PL]].
  assert (G : forall signs, (forall sg, In sg signs -> one_signature d sg) -> verify_signs P s pl signs (Some ks) an sigalg VNone = Raise e ->
     plain e \/ exists d pl sg tok hs, loads text = Ok (VDict d) /\ dget d (lit "payload") = Some pl /\ one_signature d sg /\ json_token pl sg = Ok (tok, hs) /\ key_refused P hs e).
  { intros signs O X. destruct (verify_signs_exn P ks an sigalg pl Q NE SK _ _ _ _ X) as [Y|(sg & tok & hs & I & J & K)]; [left; exact Y|right; exists d, pl, sg, tok, hs; split; [exact L|]; split; [exact PL|]; split; [exact (O _ I)|]; split; [exact J|exact K]]. }
  destruct (dget d (lit "signatures")) as [x|] eqn:SG; cbn [bind] in H.
  - destruct (py_iter x) as [l|] eqn:PI; cbn [bind] in H; [|injection H as <-; rewrite (py_iter_exn _ _ PI); left; listed].
    destruct (G l) as [Y|Y]; [intros sg I; left; exists x, l; repeat split; assumption|exact H|left; exact Y|right; right; exact Y].
  - destruct (G [VDict (flat_map (fun n => match dget d n with Some x => [(n, x)] | None => [] end) [lit "protected"; lit "header"; lit "signature"])]) as [Y|Y]; [|exact H|left; exact Y|right; right; exact Y].
    intros sg [<-|[]]. right. split; [exact SG|]. eexists. split; [reflexivity|]. exact (three_members d).
Qed.
Lemma no_payload : forall P s text keys an sigalg d, loads text = Ok (VDict d) -> dget d (lit "payload") = None -> verify_json P s (VStr text) keys an sigalg = Raise EJwsFormatError.
Proof. intros P s text keys an sigalg d L PL. unfold verify_json. cbn [loads_any]. rewrite L. cbn [bind py_get]. rewrite PL. reflexivity. Qed.
