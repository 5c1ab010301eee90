(** * What sign_compact can raise (jws.py:477-505) *)
From Coq Require Import ZArith List Bool Lia.
From Verif Require Import Base BaseProofs Utf8 Codec CodecProofs Json JsonProofs Jwt JwtProofs Prims Elliptic Ecc Jwk JwkProofs Jws JwsProofs JwsProofs2 JwsProofs11 JweProofs17.
Import ListNotations.
Open Scope Z_scope.

Definition sign_errors : list exn := [ENoSuitableSigningKeys; EUnknownAlgorithm; ETypeError; EAttributeError].
Definition signish (e : exn) : Prop := is_ValueError e = true \/ In e sign_errors.
Lemma Ok_inj : forall A (a b : A), Ok a = Ok b -> a = b.
Proof. congruence. Qed.
Lemma sg_ty : signish ETypeError. Proof. right. cbn. auto 10. Qed.
Lemma sg_at : signish EAttributeError. Proof. right. cbn. auto 10. Qed.

Lemma b2s_exn : forall v e, b2s_conv v = Raise e -> is_ValueError e = true.
Proof.
  fix IH 1. intros v e H. destruct v as [|b|z|f|s|b|l|d]; cbn [b2s_conv] in H; try discriminate H.
  - injection H as <-. reflexivity.
  - step H; [apply utf8_decode_exn in H; subst e; reflexivity|discriminate H].
  - step H; [|discriminate H]. revert e H. induction l as [|x l IHl]; intros e H; [discriminate H|]. step H; [exact (IH _ _ H)|]. step H; [exact (IHl _ H)|discriminate H].
  - step H; [|discriminate H]. revert e H. induction d as [|[k x] d IHd]; intros e H; [discriminate H|]. step H; [exact (IH _ _ H)|]. step H; [exact (IHd _ H)|discriminate H].
Qed.
Lemma dumps_exn : forall sp v e, dumps sp v = Raise e -> e = ETypeError.
Proof.
  intro sp. fix IH 1. intros v e H. destruct v as [|[|]|z|f|s|b|l|d]; cbn [dumps] in H; try discriminate H.
  - injection H as <-. reflexivity.
  - step H; [|discriminate H]. revert e H. induction l as [|x l IHl]; intros e H; [discriminate H|]. step H; [exact (IH _ _ H)|]. step H; [exact (IHl _ H)|discriminate H].
  - step H; [|discriminate H]. revert e H. induction d as [|[k x] d IHd]; intros e H; [discriminate H|]. step H; [exact (IH _ _ H)|]. step H; [exact (IHd _ H)|discriminate H].
Qed.
Lemma item_exn : forall v e, b64encode_item v = Raise e -> signish e.
Proof.
  assert (U : forall t e, (b <- utf8_encode t;; Ok (b64e b)) = Raise e -> signish e) by (intros t e H; step H; [apply utf8_encode_exn in H; subst e; left; reflexivity|discriminate H]).
  assert (G : forall v e, (v <- b2s_conv v;; t <- dumps false v;; b <- utf8_encode t;; Ok (b64e b)) = Raise e -> signish e).
  { intros v e H. step H; [left; exact (b2s_exn _ _ H)|]. step H; [rewrite (dumps_exn _ _ _ H); exact sg_ty|exact (U _ _ H)]. }
  intros v e H. destruct v; unfold b64encode_item in H; try exact (G _ _ H); try exact (U _ _ H); try discriminate H; injection H as <-; exact sg_ty.
Qed.
Lemma init_sign_exn : forall h e, jwt_init h = Raise e -> signish e.
Proof.
  intros h e H. unfold jwt_init in H. cbv zeta in H. step H; [exact (item_exn _ _ H)|]. step H; [|discriminate H].
  exfalso. unfold b64encode_item in E. match type of E with (bind ?m _) = _ => destruct m as [v|]; [cbn [bind] in E|discriminate E] end.
  match type of E with (bind ?m _) = _ => destruct m as [t|]; [cbn [bind] in E|discriminate E] end. destruct (utf8_encode t) as [b|] eqn:U; [|discriminate E]. cbn [bind] in E. apply Ok_inj in E. subst x.
  rewrite (b64d_b64e _ (utf8_encode_ok _ _ U)) in H. discriminate H.
Qed.
Lemma pack_exn : forall j parts h e, pack j parts h = Raise e -> signish e.
Proof.
  intros j parts h e H. unfold pack in H. cbv zeta in H.
  assert (D : forall l e, mapM utf8_decode l = Raise e -> signish e) by (intros l e0 X; left; apply (mapM_exn _ _ utf8_decode (fun e => is_ValueError e = true) l e0); [intros x e1 Y; apply utf8_decode_exn in Y; subst; reflexivity|exact X]).
  destruct parts as [|p parts]; [step H; [exact (D _ _ H)|discriminate H]|].
  step H; [exact (item_exn _ _ H)|]. step H; [exact (mapM_exn _ _ b64encode_item signish _ _ item_exn H)|]. step H; [exact (D _ _ H)|discriminate H].
Qed.
Lemma sign_loop_exn : forall c fuel r s h k priv rnds i e, sign_loop c fuel r s h k priv rnds i = Raise e -> e = ETypeError \/ e = OutOfFuel.
Proof.
  induction fuel as [|f IH]; intros r s h k priv rnds i e H; cbn [sign_loop] in H; (destruct (_ || _); [|discriminate H]).
  - right. congruence.
  - destruct (match k with Some k0 => (k0, i) | None => _ end) as [k1 i1]. cbv zeta in H. destruct (mulp _ _ _ _ _) as [[x y]|]; [|left; congruence]. destruct (_ =? 0); exact (IH _ _ _ _ _ _ _ _ H).
Qed.
Lemma pick_exn : forall s ks use alg e, pick_keys s (map Some ks) use alg = Raise e -> signish e \/ e = EKeyError.
Proof.
  intros s ks use alg e H. unfold pick_keys in H.
  assert (RK : forall l, real_keys (map Some l) = Ok l) by (induction l as [|x l IH]; [reflexivity|]; cbn [map real_keys]; rewrite IH; reflexivity).
  step H; [destruct (truthy alg); [discriminate H|]; destruct (dget (s_dict s) (lit "alg")); [discriminate H|right; congruence]|]. left.
  destruct (pval_eqb x _); [discriminate H|]. step H.
  - unfold alg2keytype in H. destruct (negb (truthy x)); [discriminate H|]. destruct x as [| | | |a| | |]; try (injection H as <-; first [exact sg_at|exact sg_ty]).
    repeat match type of H with (if ?b then _ else _) = _ => destruct b; [discriminate H|] end. discriminate H.
  - destruct x0 as [t|]; [|discriminate H]. rewrite RK in H. cbn [bind] in H. step H; [|discriminate H].
    unfold kid_in_force in H. destruct (dget (s_dict s) (lit "kid")); [discriminate H|]. destruct (s_jwt s) as [j|]; [|discriminate H].
    destruct (j_headers j); cbn [py_get] in H; try (injection H as <-; exact sg_ty). destruct (dget d (lit "kid")); discriminate H.
Qed.

Lemma picked_truthy : forall s ks s1 alg, pick_alg s (Some ks) = (s1, alg) -> truthy alg = true.
Proof.
  intros s ks s1 alg H. unfold pick_alg in H. destruct (match dget (s_dict s) (lit "alg") with Some a => (s, a) | None => _ end) as [s2 a]. destruct (truthy a) eqn:T; injection H as _ <-; [exact T|reflexivity].
Qed.

Lemma picked_given : forall s ks use alg k r, pick_keys s (map Some ks) use alg = Ok (k :: r) -> In k ks.
Proof.
  intros s ks use alg k r H. unfold pick_keys in H.
  assert (RK : forall l, real_keys (map Some l) = Ok l) by (induction l as [|x l IH]; [reflexivity|]; cbn [map real_keys]; rewrite IH; reflexivity).
  match type of H with (bind ?m _) = _ => destruct m as [a|]; [cbn [bind] in H|discriminate H] end. destruct (pval_eqb a _); [discriminate H|].
  destruct (alg2keytype a) as [[t|]|]; cbn [bind] in H; try discriminate H. rewrite RK in H. cbn [bind] in H. destruct (kid_in_force s); [|discriminate H]. cbn [bind] in H. injection H as H.
  assert (I : In k (k :: r)) by (left; reflexivity). rewrite <- H in I. apply filter_In in I. destruct I as [I _]. apply filter_In in I. exact (proj1 I).
Qed.

Theorem sign_compact_raises : forall P E s ks protected e, ks <> [] -> snd (sign_compact P E s (Some ks) protected) = Raise e ->
  signish e \/ (exists sc h k o m, p_rsa_sign P sc h k o m = Raise e) \/
  (e = EOverflowError /\ exists k v, In k ks /\ get_key k true = Ok (MObj (OVal v)) /\ ((exists t, v = VStr t) \/ exists b, v = VBytes b)) \/
  (e = OutOfFuel /\ exists a, In a [lit "ES256"; lit "ES384"; lit "ES512"] /\ snd (pick_alg s (Some ks)) = VStr a).
Proof.
  intros P E s ks protected e NE H. unfold sign_compact, alg_keys in H. destruct (pick_alg s (Some ks)) as [s1 alg] eqn:PA. cbn [snd] in H |- *.
  pose proof (picked_truthy _ _ _ _ PA) as TA.
  apply bind_exn in H. destruct H as [H|(((key & xargs) & al) & AK & H)].
  - left. destruct ks as [|k0 ks0]; [contradiction NE; reflexivity|]. cbn [jws_keys] in H. step H; [discriminate H|]. apply Ok_inj in E0. subst x.
    step H; [destruct (pick_exn _ (k0 :: ks0) _ _ _ H) as [X|X]; [exact X|]; exfalso; subst e; unfold pick_keys in H; rewrite TA in H; cbn [bind] in H|].
    { destruct (pval_eqb alg _); [discriminate H|]. step H.
      - unfold alg2keytype in H. rewrite TA in H. cbn [negb] in H. destruct alg as [| | | |a| | |]; try discriminate H. repeat match type of H with (if ?b then _ else _) = _ => destruct b; [discriminate H|] end. discriminate H.
      - destruct x as [t|]; [|discriminate H]. step H.
        + assert (RK : forall l, real_keys (map Some l) = Ok l) by (induction l as [|y l IH]; [reflexivity|]; cbn [map real_keys]; rewrite IH; reflexivity). rewrite RK in H. discriminate H.
        + step H; [|discriminate H]. unfold kid_in_force in H. destruct (dget (s_dict s1) (lit "kid")); [discriminate H|]. destruct (s_jwt s1) as [j|]; [|discriminate H].
          destruct (j_headers j); cbn [py_get] in H; try discriminate H. destruct (dget d (lit "kid")); discriminate H. }
    cbv zeta in H. destruct x as [|k r]; [|discriminate H]. step H; [destruct alg; cbn [py_lower] in H; try discriminate H; injection H as <-; exact sg_at|]. destruct (pval_eqb x _); [discriminate H|]. injection H as <-. right. cbn. auto.
  - assert (KI : al = alg /\ forall k, key = Some k -> In k ks).
    { destruct ks as [|k0 ks0]; [contradiction NE; reflexivity|]. cbn [jws_keys bind] in AK. destruct (pick_keys s1 (map Some (k0 :: ks0)) (VStr (lit "sig")) alg) as [[|k r]|] eqn:PK; [| |discriminate AK]; cbn [bind] in AK.
      - destruct (py_lower alg) as [l|]; [|discriminate AK]. cbn [bind] in AK. destruct (pval_eqb l _); [|discriminate AK]. apply Ok_inj in AK. injection AK as <- _ <-. split; [reflexivity|]. intros k X. discriminate X.
      - apply Ok_inj in AK. injection AK as <- _ <-. split; [reflexivity|]. intros k1 X. injection X as <-. exact (picked_given _ _ _ _ _ _ PK). }
    destruct KI as [-> KI]. cbv zeta in H. set (xa := match dget (s_dict s1) (lit "typ") with Some t => dset xargs (lit "typ") t | None => xargs end) in H.
    destruct (dmem xa (lit "self")); [injection H as <-; left; exact sg_ty|]. step H; [left; exact (init_sign_exn _ _ H)|].
    destruct (pval_eqb alg (VStr (lit "none"))); [apply bind_exn in H; destruct H as [H|((t & j) & _ & H)]; [left; exact (pack_exn _ _ _ _ H)|discriminate H]|].
    assert (UA : signish EUnknownAlgorithm) by (right; cbn; auto).
    destruct alg as [| | | |a| | |]; try (injection H as <-; left; exact UA). destruct (dget SIGNERS a) as [g|] eqn:G; [|injection H as <-; left; exact UA].
    apply bind_exn in H. destruct H as [H|((input & j) & _ & H)]; [left; exact (pack_exn _ _ _ _ H)|]. step H; [apply utf8_encode_exn in H; subst e; left; left; reflexivity|].
    destruct key as [k|]; [|injection H as <-; left; exact sg_at]. step H; [left; unfold get_key in H; destruct (k_data k); try discriminate H; destruct (truthy d); [discriminate H|injection H as <-; left; reflexivity]|].
    step H; [|discriminate H]. destruct g as [h|sc h|h bits]; cbn [signer_sign] in H.
    + step H; [left|discriminate H]. destruct x1 as [[]|]; try destruct v; try discriminate H; injection H as <-; exact sg_ty.
    + step H; [left|right; left; eexists _, _, _, _, _; exact H]. destruct x1 as [[]|]; try discriminate H; injection H as <-; exact sg_at.
    + destruct (signers_cases a _ G) as [(? & X & _)|[(? & ? & X & _)|(h' & b' & X & I)]]; try discriminate X. injection X as <- <-.
      step H; [exfalso; cbn [In es_algs] in I; repeat (destruct I as [I|I]; [injection I as _ _ <-; discriminate H|]); exact I|].
      step H. { destruct x1 as [o|]; cbn [as_priv] in H; [|injection H as <-; left; exact sg_ty]. destruct o as [v| |]; try (injection H as <-; left; exact sg_ty).
        destruct (as_int v); [discriminate H|]. destruct v; try (injection H as <-; left; exact sg_ty); injection H as <-; right; right; left; (split; [reflexivity|]); eexists k, _; (split; [apply KI; reflexivity|]); (split; [exact E2|]); eauto. }
      unfold Ecc.sign in H. cbv zeta in H. step H; [|discriminate H]. destruct (sign_loop_exn _ _ _ _ _ _ _ _ _ _ H) as [->| ->]; [left; exact sg_ty|]. right. right. right. split; [reflexivity|].
      exists a. split; [|reflexivity]. cbn [In es_algs] in I. cbn [In]. repeat (destruct I as [I|I]; [injection I as <- _ _; tauto|]). destruct I.
Qed.
