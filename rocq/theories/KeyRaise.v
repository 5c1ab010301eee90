(** * What loading a key from a dictionary can raise (jwk.py) *)
From Coq Require Import ZArith List Bool Lia.
From Verif Require Import Base BaseProofs Utf8 Codec CodecProofs Json JsonProofs Jwt JwtProofs Prims Elliptic Ecc Jwk JwkProofs Jws JwsProofs JwsProofs11 JweProofs17 JsonRaise.
Import ListNotations.
Open Scope Z_scope.

Definition key_errors : list exn := [EAttributeError; EKeyError; ETypeError; EECCException; EDeSerializationNotPossible; EHeaderError; EBadSyntax].
Definition keyish (e : exn) : Prop := is_ValueError e = true \/ In e key_errors.
Lemma key_ty : keyish ETypeError. Proof. right. cbn. auto 10. Qed.
Lemma key_at : keyish EAttributeError. Proof. right. cbn. auto 10. Qed.
Lemma key_de : keyish EDeSerializationNotPossible. Proof. right. cbn. auto 10. Qed.
Lemma key_ke : keyish EKeyError. Proof. right. cbn. auto 10. Qed.
Lemma key_bs : keyish EBadSyntax. Proof. right. cbn. auto 10. Qed.
Lemma ec_new_key_exn : forall kw key curve e, ec_new kw (OVal key) (OVal curve) 0 = Raise e -> keyish e.
Proof.
  intros kw key curve e H. unfold ec_new in H. cbv zeta in H. step H.
  { unfold key_init in H. destruct (dmem kw (lit "self")); [injection H as <-; exact key_ty|discriminate H]. }
  destruct (_ && negb (otruthy (OVal curve))).
  - apply bind_exn in H. destruct H as [H|((l & b) & E1 & H)].
    { clear - H. revert e H. generalize [kwarg kw (lit "x") (VStr []); kwarg kw (lit "y") (VStr []); kwarg kw (lit "d") (VStr [])] as l. induction l as [|v l IH]; intros e H; [discriminate H|]. cbn [verify_loop] in H.
      destruct (_ || _ || _).
      - step H; [exact (IH _ H)|destruct x; discriminate H].
      - step H; [|discriminate H]. destruct v; try discriminate H. step H; [left; rewrite (utf8_decode_exn _ _ H); reflexivity|discriminate H]. }
    step H. { destruct b; [|discriminate H]. unfold verify_kid in H. destruct (_ && _); [|discriminate H]. injection H as <-. right. cbn. auto 10. }
    assert (T : forall l1, l1 = l -> match l1 with [x1; y1; d1] => ' (x2, y2, d2, c) <- ec_deserialize (kwarg kw (lit "crv") (VStr [])) x1 y1 d1;; Ok (set_data x (DEc (OVal key) (kwarg kw (lit "crv") (VStr [])) x2 y2 d2 (OCurve c))) | _ => Raise ETypeError end = Raise e -> keyish e).
    2:{ exact (T l eq_refl H). }
    intros l1 _ X. destruct l1 as [|x1 [|y1 [|d1 [|]]]]; try (injection X as <-; exact key_ty).
    step X; [|destruct x2 as [[[? ?] ?] ?]; discriminate X]. unfold ec_deserialize in X. cbv zeta in X.
    assert (DS : keyish EDeSerializationNotPossible) by (right; cbn; auto 10).
    assert (CV : forall v e, (if is_int v then Ok v else z <- deser v;; Ok (VInt z)) = Raise e -> e = ETypeError \/ is_ValueError e = true).
    { intros v e0 Y. destruct (is_int v); [discriminate Y|]. step Y; [exact (deser_exn _ _ Y)|discriminate Y]. }
    apply bind_exn in X. destruct X as [X|((x2 & y2) & _ & X)].
    { match type of X with match ?m with _ => _ end = _ => destruct m as [?|e1] eqn:M end; [unfold conv_value_error in X; discriminate X|].
      assert (e1 = ETypeError \/ is_ValueError e1 = true) as V by (step M; [exact (CV _ _ M)|step M; [exact (CV _ _ M)|discriminate M]]).
      destruct V as [->|V]; [injection X as <-; exact DS|]. unfold conv_value_error in X. rewrite V in X. destruct e1; try discriminate V; injection X as <-; exact DS. }
    step X. { unfold curve_by_name, by_name in X. assert (e = EECCException) as ->; [|right; cbn; auto 10]. destruct (kwarg kw (lit "crv") (VStr [])); try congruence; apply by_name_exn in X; exact X. }
    step X; [|discriminate X]. destruct (truthy d1); [|discriminate X]. destruct d1; try discriminate X. unfold conv_value_error in X.
    match type of X with match ?m with _ => _ end = _ => destruct m as [?|e1] eqn:M end; [discriminate X|]. step M; [|discriminate M]. apply deser_exn in M. destruct M as [->|M].
    + cbn [is_ValueError] in X. injection X as <-. exact key_ty.
    + rewrite M in X. injection X as <-. exact DS.
  - destruct (_ && negb (otruthy (OVal curve))); [|discriminate H]. unfold ec_load_key in H. injection H as <-. exact key_at.
Qed.
Lemma as_bytes_exn : forall v e, as_bytes v = Raise e -> keyish e.
Proof. intros v e H. destruct v; cbn [as_bytes] in H; try discriminate H. step H; [apply utf8_encode_exn in H; subst e; left; reflexivity|discriminate H]. Qed.
Lemma enc_values_exn : forall d e, enc_values d = Raise e -> keyish e.
Proof.
  induction d as [|[k v] d IH]; intros e H; [discriminate H|]. cbn [enc_values] in H. step H; [exact (as_bytes_exn _ _ H)|]. step H; [exact (IH _ H)|discriminate H].
Qed.
Lemma key_init_exn : forall kw kty c d e, key_init kw kty c d = Raise e -> keyish e.
Proof. intros kw kty c d e H. unfold key_init in H. destruct (dmem kw (lit "self")); [injection H as <-; exact key_ty|discriminate H]. Qed.
Lemma py_bytes_exn : forall v e, py_bytes v = Raise e -> keyish e.
Proof.
  assert (O : forall l e, octets l = Raise e -> keyish e).
  { induction l as [|x l IH]; intros e0 X; cbn [octets] in X; [discriminate X|]. destruct (as_int x) as [z|]; [|injection X as <-; exact key_ty]. destruct (is_byte z); [|injection X as <-; left; reflexivity]. step X; [exact (IH _ X)|discriminate X]. }
  intros v0 e X. destruct v0 as [| |z| | | |l|[|? ?]]; cbn [py_bytes] in X; try discriminate X; try (injection X as <-; exact key_ty); [|exact (O _ _ X)]. destruct (z <? 0); [injection X as <-; left; reflexivity|discriminate X].
Qed.
Lemma sym_new_exn : forall kw key e, sym_new kw key = Raise e -> keyish e.
Proof.
  intros kw key e H. unfold sym_new in H. cbv zeta in H. step H; [exact (as_bytes_exn _ _ H)|]. step H; [exact (key_init_exn _ _ _ _ _ H)|].
  destruct (_ && _); [|discriminate H]. step H; [exact (as_bytes_exn _ _ H)|]. step H; [exact (py_bytes_exn _ _ H)|]. step H; [|discriminate H]. destruct (b64d_exn _ _ H) as [->| ->]; [exact key_bs|left; reflexivity].
Qed.
Lemma py_len_exn : forall v e, py_len v = Raise e -> e = ETypeError.
Proof. intros v e H. destruct v; cbn in H; congruence. Qed.
Lemma deser_nums_exn : forall l e, deser_nums l = Raise e -> keyish e.
Proof.
  induction l as [|[n v] l IH]; intros e H; [discriminate H|]. cbn [deser_nums] in H. step H; [|step H; [exact (IH _ H)|discriminate H]].
  destruct (_ || _); [discriminate H|]. step H; [|discriminate H]. destruct (deser_exn _ _ H) as [->|V]; [exact key_ty|left; exact V].
Qed.
Lemma rsa_split_exn : forall key nums e, otruthy key = true -> rsa_split key nums = Raise e -> e = EAttributeError.
Proof. intros key nums e T H. unfold rsa_split in H. destruct key; try discriminate H; rewrite T in H; congruence. Qed.
Lemma rsa_new_exn : forall P kw key e, rsa_new P kw key = Raise e -> keyish e \/ (exists l, p_rsa_construct P l = Raise e) \/ (exists b, p_der2rsa P b = Raise e).
Proof.
  intros P kw key e H. unfold rsa_new in H. cbv zeta in H. step H; [left; exact (key_init_exn _ _ _ _ _ H)|].
  step H; [left; rewrite (py_len_exn _ _ H); exact key_ty|]. step H; [left; destruct (Nat.ltb 0 x0); [rewrite (py_len_exn _ _ H); exact key_ty|discriminate H]|].
  step H; [left; rewrite (py_len_exn _ _ H); exact key_ty|]. destruct (negb (otruthy key) && _).
  - apply bind_exn in H. destruct H as [H|((k' & n') & _ & H)]; [|discriminate H]. unfold rsa_deserialize in H. destruct (truthy _ && truthy _).
    + unfold conv_value_error in H. match type of H with match ?m with _ => _ end = _ => destruct m as [?|e1] eqn:M end; [discriminate H|].
      destruct (is_ValueError e1) eqn:V; [injection H as <-; left; exact key_de|]. injection H as <-.
      step M; [left; exact (deser_nums_exn _ _ M)|]. step M; [right; left; eexists; exact M|discriminate M].
    + destruct (truthy (k_x5c x)) eqn:TX; [|injection H as <-; left; exact key_de].
      step H. { left. unfold first_cert in H. destruct (k_x5c x) as [| | | |[|]|[|]|[|[]]|]; try discriminate TX; try (injection H as <-; first [exact key_ty|exact key_at|exact key_ke]).
        all: unfold ascii_encode in H; destruct (ascii _); [discriminate H|injection H as <-; left; reflexivity]. }
      step H; [left; rewrite (a2b_exn _ _ _ _ _ H); left; reflexivity|].
      step H. { left. destruct (truthy (k_x5t x)); [|discriminate H]. destruct (k_x5t x); try (injection H as <-; exact key_at).
        step H; [unfold ascii_encode in H; destruct (ascii _); [discriminate H|injection H as <-; left; reflexivity]|].
        step H; [destruct (b64d_exn _ _ H) as [->| ->]; [exact key_bs|left; reflexivity]|]. destruct (zs_eqb _ _); [discriminate H|injection H as <-; exact key_de]. }
      step H; [right; right; eexists; exact H|]. step H; [cbn [rsa_split] in H; discriminate H|discriminate H].
  - destruct (otruthy key) eqn:OT; cbn [andb] in H; [|discriminate H]. destruct (negb _); [|discriminate H]. step H; [|discriminate H]. left. rewrite (rsa_split_exn _ _ _ OT H). exact key_at.
Qed.

Theorem keyrep_raises : forall P spec e, keyrep P spec = Raise e -> keyish e \/ (exists l, p_rsa_construct P l = Raise e) \/ (exists b, p_der2rsa P b = Raise e).
Proof.
  intros P spec e H. unfold keyrep in H. destruct spec as [| | | | | | |d]; try (injection H as <-; left; exact key_at).
  step H; [left; exact (enc_values_exn _ _ H)|]. destruct (dget d (lit "kty")) as [kty|]; [|injection H as <-; left; exact key_ke].
  unfold dispatch in H. cbv zeta in H. destruct (pval_eqb kty (VStr (lit "RSA"))); [exact (rsa_new_exn _ _ _ _ H)|]. left.
  destruct (pval_eqb kty (VStr (lit "oct"))); [exact (sym_new_exn _ _ _ H)|]. destruct (pval_eqb kty (VStr (lit "EC"))); [exact (ec_new_key_exn _ _ _ _ H)|].
  unfold base_new in H. exact (key_init_exn _ _ _ _ _ H).
Qed.
Lemma not_object : forall P v, (forall d, v <> VDict d) -> keyrep P v = Raise EAttributeError.
Proof. intros P v N. destruct v; try reflexivity. destruct (N d eq_refl). Qed.
