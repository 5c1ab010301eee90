(** * JWE: what decrypt can raise *)
From Coq Require Import ZArith List Bool Lia.
From Verif Require Import Base BaseProofs Codec CodecProofs Utf8 Json JsonProofs Jwt JwtProofs Prims Elliptic Ecc EccProofs Extra ExtraProofs KeyWrap Gcm GcmProofs2 SymAux Jwk JwkProofs JwkProofs2 Jws JwsProofs JwsProofs2 JwsProofs11 Jwe JweProofs JweProofs2 JweProofs3 JweProofs13.
Import ListNotations.
Open Scope Z_scope.

Lemma bind_exn : forall A B (m : res A) (f : A -> res B) e, (x <- m;; f x) = Raise e -> m = Raise e \/ exists x, m = Ok x /\ f x = Raise e.
Proof. intros A B [x|x] f e H; cbn [bind] in H; [right; exists x; split; [reflexivity|exact H]|left; congruence]. Qed.
Ltac step H := let x := fresh "x" in let E := fresh "E" in apply bind_exn in H; destruct H as [H|(x & E & H)].

(** ** The pieces *)
Lemma unwrap_exn : forall P kek w e, aes_unwrap_key P kek w = Raise e -> e = EValueError \/ e = EStructError.
Proof.
  intros P kek w e H. unfold aes_unwrap_key in H.
  assert (QP : forall a e, quad_pack a = Raise e -> e = EStructError) by (intros a e0 X; unfold quad_pack in X; destruct (_ && _); congruence).
  assert (QU : forall a e, quad_unpack a = Raise e -> e = EStructError) by (intros a e0 X; unfold quad_unpack in X; destruct (Nat.eqb _ _); congruence).
  step H; [|destruct (negb _); [left; congruence|discriminate H]]. unfold aes_unwrap_key_and_iv in H. cbv zeta in H.
  step H; [right; exact (QU _ _ H)|]. step H; [unfold aes_new in H; destruct (aes_keysize kek); [discriminate H|left; congruence]|]. step H; [|discriminate H].
  right. clear - H QP QU. revert H. generalize [5; 4; 3; 2; 1; 0] as js. intro js. generalize x as a. generalize (chunks8 (length w / 8 - 1) (skipn 8 w)) as r. induction js as [|j js IH]; intros r a H; [discriminate H|].
  cbn [unwrap_rows] in H. step H; [|exact (IH _ _ H)]. revert H. generalize 1 as i. clear IH. intro i. revert i. revert e. induction r as [|y r IR]; intros e i H; [discriminate H|]. cbn [unwrap_row] in H.
  step H; [exact (IR _ _ H)|]. step H; [exact (QP _ _ H)|]. step H; [exact (QU _ _ H)|discriminate H].
Qed.
Definition content_errors : list exn := [EValueError; EInvalidInputException; EInvalidTagException; EOverflowError; EException; EStructError; EVerificationFailure].
Lemma content_exn : forall P enc key ct aad iv tag e, aes_law P -> content_decrypt P enc key ct aad iv tag = Raise e -> In e content_errors.
Proof.
  intros P enc key ct aad iv tag e A H. unfold content_decrypt in H. cbn [In content_errors]. destruct (in_texts enc GCM_ENCS).
  - step H.
    + destruct (aes_keysize (long_to_bytes (be2z key) 16)) eqn:KS.
      * destruct (gcm_new_ok P A _ KS (long_to_bytes_ok _ _) (be2z key) eq_refl) as (g & G & _). congruence.
      * unfold gcm_new, change_key in H. rewrite KS in H. cbn in H. left. congruence.
    + unfold gcm_decrypt in H. destruct (negb _); [right; left; congruence|]. destruct (negb _); [right; left; congruence|]. destruct (negb _); [right; right; left; congruence|].
      unfold gctr in H. destruct (Nat.ltb _ _); [|discriminate H]. step H; [|discriminate H]. unfold ctr_crypt in H. destruct (negb _); [left; congruence|]. destruct (_ <? _); [right; right; right; left; congruence|discriminate H].
  - destruct (in_texts enc CBC_ENCS); [|right; right; right; right; left; congruence]. unfold aes_cbc_hmac_decrypt in H. step H.
    { unfold get_keys_seclen_dgst in H. destruct (negb _); [right; right; right; right; left; congruence|]. destruct (LENMET _) as [[? ?]|]; [discriminate H|]. right; right; right; right; left; congruence. }
    destruct x as [[[ka ke] sl] dg]. cbv zeta in H. step H; [unfold pack_Q in H; destruct (_ && _); [discriminate H|]; right; right; right; right; right; left; congruence|].
    destruct (zs_eqb _ _); [|right; right; right; right; right; right; left; congruence]. step H; [unfold cbc_decrypt in H; destruct (Nat.eqb _ _); [discriminate H|]; left; congruence|].
    unfold pkcs5trim in H. destruct (rev x0) as [|n ?]; [right; right; right; right; right; left; congruence|]. destruct (16 <? n); [|discriminate H]. right; right; right; right; left; congruence.
Qed.
Lemma part_exn : forall j i e, part j i = Raise e -> e = EIndexError.
Proof. intros j i e H. unfold part in H. destruct (nth_error (j_part j) i) as [[| | | | | | |]|]; congruence. Qed.
Lemma b64part_exn : forall j i e, b64part j i = Raise e -> e = EIndexError.
Proof. intros j i e H. unfold b64part in H. destruct (nth_error (j_b64 j) i); congruence. Qed.
(** A segment that is not there. *)
Lemma part_missing : forall token j i e, unpack token = Ok j -> part j i = Raise e -> (length (j_part j) <= i)%nat.
Proof.
  intros token j i e U H. unfold part in H. destruct (nth_error (j_part j) i) as [v|] eqn:N; [|apply nth_error_None; exact N]. exfalso.
  assert (B : exists b, v = VBytes b).
  { unfold unpack in U. destruct (match token with VStr s => _ | _ => _ end) as [t|]; [|discriminate U]. cbn [bind] in U. destruct (split_token t); [|discriminate U]. cbn [bind] in U.
    destruct (mapM b64d a) as [ps|]; [|discriminate U]. cbn [bind] in U. destruct (utf8_decode (hd [] ps)); [|discriminate U]. cbn [bind] in U. destruct (loads a0); [|discriminate U]. cbn [bind] in U. apply Ok_inj in U. subst j.
    cbn [j_part] in N. apply nth_error_In in N. apply in_map_iff in N. destruct N as (b & <- & _). exists b. reflexivity. }
  destruct B as (b & ->). discriminate H.
Qed.
Lemma mapM_length : forall A B (f : A -> res B) l r, mapM f l = Ok r -> length r = length l.
Proof. induction l as [|x l IH]; intros r H; cbn [mapM] in H; [apply Ok_inj in H; subst; reflexivity|]. destruct (f x); [|discriminate H]. cbn [bind] in H. destruct (mapM f l) as [y|]; [|discriminate H]. cbn [bind] in H. apply Ok_inj in H. subst r. cbn [length]. f_equal. apply IH. reflexivity. Qed.
Lemma b64part_missing : forall token j i e, unpack token = Ok j -> b64part j i = Raise e -> (length (j_part j) <= i)%nat.
Proof.
  intros token j i e U H. unfold b64part in H. destruct (nth_error (j_b64 j) i) as [v|] eqn:N; [discriminate H|]. apply nth_error_None in N.
  unfold unpack in U. destruct (match token with VStr s => _ | _ => _ end) as [t|]; [|discriminate U]. cbn [bind] in U. destruct (split_token t); [|discriminate U]. cbn [bind] in U.
  destruct (mapM b64d a) as [ps|] eqn:M; [|discriminate U]. cbn [bind] in U. destruct (utf8_decode (hd [] ps)); [|discriminate U]. cbn [bind] in U. destruct (loads a0); [|discriminate U]. cbn [bind] in U. apply Ok_inj in U. subst j.
  cbn [j_part j_b64] in *. rewrite map_length. apply mapM_length in M. lia.
Qed.

Lemma py_get_exn : forall d n e, py_get (VDict d) n = Raise e -> e = EKeyError /\ dget d n = None.
Proof. intros d n e H. cbn [py_get] in H. destruct (dget d n); [discriminate H|split; congruence]. Qed.
(** Keys that can decrypt: everything their type needs. *)
Definition sound_dec_key (k : jwk) : Prop :=
  match k_data k with
  | DRsa (ORsa _) _ => k_kty k = VStr (lit "RSA")
  | DSym (VBytes b) _ => k_kty k = VStr (lit "oct") /\ b <> [] /\ bytes_ok b = true
  | DEc _ _ (VInt x) (VInt y) (VInt _) _ => k_kty k = VStr (lit "EC") /\ x <> 0 /\ y <> 0
  | _ => False
  end.
(** What the RSA and zlib libraries raise. *)
Definition rsa_dec_quiet (P : prims) : Prop := forall sc k ct e, p_rsa_decrypt P sc k ct = Raise e -> is_ValueError e = true \/ e = ETypeError.
Definition zip_quiet (P : prims) : Prop := forall m e, p_decompress P m = Raise e -> e = EZlibError.

Lemma rsa_dec_exn : forall P s token j d k e, aes_law P -> rsa_dec_quiet P -> zip_quiet P -> unpack token = Ok j -> j_headers j = VDict d ->
  in_texts (match dget d (lit "alg") with Some v => v | None => VNone end) [lit "RSA-OAEP"; lit "RSA-OAEP-256"; lit "RSA1_5"] = true ->
  rsa_jwe_decrypt P s j (Some (MObj (ORsa k))) [] = Raise e ->
  is_ValueError e = true \/ In e (EZlibError :: ENotSupportedAlgorithm :: EDecryptionFailed :: ETypeError :: content_errors) \/
  (e = EIndexError /\ (length (j_part j) < 5)%nat) \/ (e = EKeyError /\ dget d (lit "enc") = None).
Proof.
  intros P s token j d k e A Q Z0 U D RA H. unfold rsa_jwe_decrypt in H.
  assert (IX : forall i, (i < 5)%nat -> part j i = Raise e -> e = EIndexError /\ (length (j_part j) < 5)%nat).
  { intros i I X. split; [exact (part_exn _ _ _ X)|]. pose proof (part_missing _ _ _ _ U X). lia. }
  step H; [right; right; left; apply (IX 1%nat); [lia|exact H]|]. rewrite D in H.
  destruct (dget d (lit "alg")) as [a|] eqn:DA; [|discriminate RA]. cbn [py_get] in H. rewrite DA in H. cbn [bind] in H. cbn [is_nil negb] in H.
  step H.
  { destruct (rsa_scheme a) as [sc|] eqn:RS.
    - cbn [as_rsa bind] in H. unfold rsa_decrypt in H. step H; [destruct (Q _ _ _ _ H) as [V|V]; [left; exact V|right; left; subst; cbn; auto]|].
      assert (Y : e = EDecryptionFailed \/ e = EValueError) by (destruct sc; [destruct (zs_eqb _ _); [left; congruence|discriminate H]|destruct x0; [discriminate H|right; congruence]..]).
      destruct Y as [->| ->]; [right; left; cbn; auto|left; reflexivity].
    - exfalso. unfold in_texts in RA. cbn [existsb] in RA. unfold rsa_scheme in RS. destruct (pval_eqb a _); [discriminate RS|]. destruct (pval_eqb a _); [discriminate RS|]. destruct (pval_eqb a _); discriminate. }
  step H; [apply py_get_exn in H; right; right; right; exact H|].
  destruct (in_texts x1 SUPPORTED_ENC); [|right; left; cbn; injection H as <-; auto].
  step H; [right; right; left; apply (IX 3%nat); [lia|exact H]|].
  step H; [right; right; left; split; [exact (b64part_exn _ _ _ H)|pose proof (b64part_missing _ _ _ _ U H); lia]|].
  step H; [right; right; left; apply (IX 2%nat); [lia|exact H]|].
  step H; [right; right; left; apply (IX 4%nat); [lia|exact H]|].
  step H; [right; left; apply content_exn in H; [do 4 right; exact H|exact A]|].
  cbn [py_in bind] in H. step H; [|discriminate H]. destruct (dmem d (lit "zip")) eqn:DM; [|discriminate H]. step H.
  - apply py_get_exn in H. destruct H as [_ H]. unfold dmem in DM. rewrite H in DM. discriminate DM.
  - destruct (pval_eqb x7 _); [|discriminate H]. right. left. left. symmetry. exact (Z0 _ _ H).
Qed.
Lemma sym_dec_exn : forall P token j d key e, aes_law P -> key <> [] -> unpack token = Ok j -> j_headers j = VDict d ->
  sym_decrypt P [] j (Some (MObj (OVal (VBytes key)))) [] = Raise e ->
  In e (EWrongNumberOfParts :: content_errors) \/ (e = EKeyError /\ dget d (lit "enc") = None).
Proof.
  intros P token j d key e A NK U D H. unfold sym_decrypt in H. destruct key as [|k0 key]; [contradiction|]. cbn [is_nil] in H.
  destruct (Nat.eqb (length (j_part j)) 5) eqn:L5; cbn [negb] in H; [|left; left; congruence]. apply Nat.eqb_eq in L5.
  assert (IX : forall i, (i < 5)%nat -> part j i <> Raise e) by (intros i I X; pose proof (part_missing _ _ _ _ U X); lia).
  step H. { step H; [destruct (IX 1%nat ltac:(lia) H)|]. cbn [as_secret bind] in H. left. destruct (unwrap_exn _ _ _ _ H) as [->| ->]; cbn; auto 10. }
  rewrite D in H. step H; [apply py_get_exn in H; right; exact H|].
  step H; [destruct (IX 3%nat ltac:(lia) H)|]. step H; [pose proof (b64part_missing _ _ _ _ U H); lia|]. step H; [destruct (IX 2%nat ltac:(lia) H)|]. step H; [destruct (IX 4%nat ltac:(lia) H)|].
  step H; [|discriminate H]. left. right. exact (content_exn _ _ _ _ _ _ _ _ A H).
Qed.
Lemma dec_loop_exn : forall A P alg (dec : nat -> material -> res A) ks i e, dec_loop P alg dec ks i = Raise e ->
  e = EDecryptionFailed \/ exists k, In k ks /\ (key_material P k alg false = Raise e \/ exists n m, key_material P k alg false = Ok m /\ dec n m = Raise e /\ e <> EKeyError).
Proof.
  induction ks as [|k ks IH]; intros i e H; [left; cbn in H; congruence|]. cbn [dec_loop] in H. step H; [right; exists k; split; [left; reflexivity|left; exact H]|].
  destruct (dec i x) as [y|e1] eqn:DI; [discriminate H|].
  assert (C : dec_loop P alg dec ks (S i) = Raise e \/ (e1 = e /\ e1 <> EKeyError)) by (destruct e1; try (left; exact H); right; split; congruence).
  destruct C as [C|[-> NE]].
  - apply IH in C. destruct C as [C|(k' & I & C)]; [left; exact C|right; exists k'; split; [right; exact I|exact C]].
  - right. exists k. split; [left; reflexivity|right]. exists i, x. split; [exact E|split; [exact DI|exact NE]].
Qed.

(** ** ECDH-ES *)
Definition ec_errors : list exn := [ETypeError; EAttributeError; EECCException; EDeSerializationNotPossible; EHeaderError; EBadSyntax].
Definition bounded (e : exn) : Prop := is_ValueError e = true \/ In e ec_errors \/ In e content_errors.
Lemma bounded_ex : bounded EException. Proof. right. right. cbn. auto 10. Qed.
Lemma bounded_ty : bounded ETypeError. Proof. right. left. cbn. auto 10. Qed.
Lemma bounded_at : bounded EAttributeError. Proof. right. left. cbn. auto 10. Qed.
Lemma bounded_st : bounded EStructError. Proof. right. right. cbn. auto 10. Qed.
Lemma deser_exn : forall v e, deser v = Raise e -> e = ETypeError \/ is_ValueError e = true.
Proof.
  intros v e H.
  assert (B : forall b, base64_to_long_b b = Raise e -> is_ValueError e = true).
  { intros b X. unfold base64_to_long_b in X. step X; [unfold urlsafe_b64decode in X; rewrite (a2b_exn _ _ _ _ _ X); reflexivity|]. unfold intarr2long in X. destruct x; [injection X as <-; reflexivity|discriminate X]. }
  assert (G : forall v, py_bytes v = Raise e -> e = ETypeError \/ is_ValueError e = true).
  { assert (O : forall l e, octets l = Raise e -> e = ETypeError \/ is_ValueError e = true).
    { induction l as [|x l IH]; intros e0 X; cbn [octets] in X; [discriminate X|]. destruct (as_int x) as [z|]; [|left; congruence]. destruct (is_byte z); [|injection X as <-; right; reflexivity]. step X; [exact (IH _ X)|discriminate X]. }
    intros v0 X. destruct v0 as [| |z| | | |l|[|? ?]]; cbn [py_bytes] in X; try discriminate X; try (left; congruence); [|exact (O _ _ X)]. destruct (z <? 0); [injection X as <-; right; reflexivity|discriminate X]. }
  unfold deser in H. destruct v; step H; try (right; exact (B _ H)); try exact (G _ H). right. rewrite (utf8_encode_exn _ _ H). reflexivity.
Qed.
Lemma by_name_exn : forall n e, by_name n = Raise e -> e = EECCException.
Proof. intros n e H. unfold by_name in H. destruct (zs_eqb n _); [discriminate H|]. destruct (zs_eqb n _); [discriminate H|]. destruct (zs_eqb n _); [discriminate H|congruence]. Qed.
Lemma ec_new_exn : forall kw key curve e, ec_new kw (OVal key) (OVal curve) 0 = Raise e -> bounded e.
Proof.
  intros kw key curve e H. unfold ec_new in H. cbv zeta in H. step H.
  { unfold key_init in H. destruct (dmem kw (lit "self")); [injection H as <-; exact bounded_ty|discriminate H]. }
  destruct (_ && negb (otruthy (OVal curve))).
  - apply bind_exn in H. destruct H as [H|((l & b) & E1 & H)].
    { clear - H. revert e H. generalize [kwarg kw (lit "x") (VStr []); kwarg kw (lit "y") (VStr []); kwarg kw (lit "d") (VStr [])] as l. induction l as [|v l IH]; intros e H; [discriminate H|]. cbn [verify_loop] in H.
      destruct (_ || _ || _).
      - step H; [exact (IH _ H)|destruct x; discriminate H].
      - step H; [|discriminate H]. destruct v; try discriminate H. step H; [left; rewrite (utf8_decode_exn _ _ H); reflexivity|discriminate H]. }
    step H. { destruct b; [|discriminate H]. unfold verify_kid in H. destruct (_ && _); [|discriminate H]. injection H as <-. right. left. cbn. auto 10. }
    assert (T : forall l1, l1 = l -> match l1 with [x1; y1; d1] => ' (x2, y2, d2, c) <- ec_deserialize (kwarg kw (lit "crv") (VStr [])) x1 y1 d1;; Ok (set_data x (DEc (OVal key) (kwarg kw (lit "crv") (VStr [])) x2 y2 d2 (OCurve c))) | _ => Raise ETypeError end = Raise e -> bounded e).
    2:{ exact (T l eq_refl H). }
    intros l1 _ X. destruct l1 as [|x1 [|y1 [|d1 [|]]]]; try (injection X as <-; exact bounded_ty).
    step X; [|destruct x2 as [[[? ?] ?] ?]; discriminate X]. unfold ec_deserialize in X. cbv zeta in X.
    assert (DS : bounded EDeSerializationNotPossible) by (right; left; cbn; auto 10).
    assert (CV : forall v e, (if is_int v then Ok v else z <- deser v;; Ok (VInt z)) = Raise e -> e = ETypeError \/ is_ValueError e = true).
    { intros v e0 Y. destruct (is_int v); [discriminate Y|]. step Y; [exact (deser_exn _ _ Y)|discriminate Y]. }
    apply bind_exn in X. destruct X as [X|((x2 & y2) & _ & X)].
    { match type of X with match ?m with _ => _ end = _ => destruct m as [?|e1] eqn:M end; [unfold conv_value_error in X; discriminate X|].
      assert (e1 = ETypeError \/ is_ValueError e1 = true) as V by (step M; [exact (CV _ _ M)|step M; [exact (CV _ _ M)|discriminate M]]).
      destruct V as [->|V]; [injection X as <-; exact DS|]. unfold conv_value_error in X. rewrite V in X. destruct e1; try discriminate V; injection X as <-; exact DS. }
    step X. { unfold curve_by_name, by_name in X. assert (e = EECCException) as ->; [|right; left; cbn; auto 10]. destruct (kwarg kw (lit "crv") (VStr [])); try congruence; apply by_name_exn in X; exact X. }
    step X; [|discriminate X]. destruct (truthy d1); [|discriminate X]. destruct d1; try discriminate X. unfold conv_value_error in X.
    match type of X with match ?m with _ => _ end = _ => destruct m as [?|e1] eqn:M end; [discriminate X|]. step M; [|discriminate M]. apply deser_exn in M. destruct M as [->|M].
    + cbn [is_ValueError] in X. injection X as <-. exact bounded_ty.
    + rewrite M in X. injection X as <-. exact DS.
  - destruct (_ && negb (otruthy (OVal curve))); [|discriminate H]. unfold ec_load_key in H. injection H as <-. exact bounded_at.
Qed.
Lemma text_arg_exn : forall d n e, text_arg (VDict d) n = Raise e -> bounded e.
Proof.
  intros d n e H. unfold text_arg in H. cbn [py_in bind] in H. destruct (dmem d n) eqn:M; [|discriminate H]. step H.
  - apply py_get_exn in H. unfold dmem in M. destruct H as [_ H]. rewrite H in M. discriminate M.
  - destruct x; try (injection H as <-; exact bounded_at). step H; [left; rewrite (utf8_encode_exn _ _ H); reflexivity|]. step H; [|discriminate H]. destruct (b64d_exn _ _ H) as [->| ->]; [right; left; cbn; auto 10|left; reflexivity].
Qed.
Lemma text_arg_ok : forall d n b, text_arg (VDict d) n = Ok (Some b) -> bytes_ok b = true.
Proof.
  intros d n b H. unfold text_arg in H. cbn [py_in bind] in H. destruct (dmem d n); [|discriminate H]. destruct (py_get (VDict d) n) as [v|]; [|discriminate H]. cbn [bind] in H.
  destruct v; try discriminate H. destruct (utf8_encode s); [|discriminate H]. cbn [bind] in H. destruct (b64d a) eqn:B; [|discriminate H]. cbn [bind] in H. apply Ok_inj in H. injection H as <-. exact (b64d_bytes _ _ B).
Qed.
Lemma derive_exn : forall P c d x y apu apv alg bits e, hash_law P -> bytes_ok alg = true -> 0 <= bits <= 512 -> (forall b, apu = Some b -> bytes_ok b = true) -> (forall b, apv = Some b -> bytes_ok b = true) ->
  derive P c (VInt d) x y apu apv alg bits = Raise e -> bounded e.
Proof.
  intros P c d x y apu apv alg bits e HL BA BB AU AV H. unfold derive in H. cbn [as_num as_int bind] in H.
  assert (AN : forall v e, as_num v = Raise e -> e = ETypeError) by (intros v e0 X; unfold as_num in X; destruct (as_int v); congruence).
  step H; [rewrite (AN _ _ H); exact bounded_ty|]. step H; [rewrite (AN _ _ H); exact bounded_ty|]. step H.
  { unfold dh_z in H. destruct (mulp _ _ _ _ _) as [[? ?]|]; [discriminate H|]. injection H as <-. exact bounded_ty. }
  assert (ZB : bytes_ok x2 = true) by (unfold dh_z in E1; destruct (mulp _ _ _ _ _) as [[? ?]|]; [|discriminate E1]; apply Ok_inj in E1; subst x2; apply long_to_bytes_ok).
  destruct apu as [u|]; [|injection H as <-; exact bounded_ty]. destruct apv as [v|]; [|injection H as <-; exact bounded_ty]. specialize (AU u eq_refl). specialize (AV v eq_refl).
  step H.
  - unfold other_info in H. assert (PI : forall n e, pack_I n = Raise e -> e = EStructError) by (intros n e0 X; unfold pack_I in X; destruct (_ && _); congruence).
    do 3 (step H; [rewrite (PI _ _ H); exact bounded_st|]). discriminate H.
  - exfalso. assert (OB : bytes_ok x3 = true).
    { unfold other_info, pack_I in E2. do 3 (match type of E2 with bind (if ?b then _ else _) _ = _ => destruct b; [|discriminate E2] end; cbn [bind] in E2). apply Ok_inj in E2. subst x3.
      rewrite !bytes_ok_app, !z2be_ok, BA, AU, AV. reflexivity. }
    destruct (concat_sha256_ok P HL x2 bits x3 ZB OB) as [C _]; [lia|]. congruence.
Qed.
Lemma ec_setup_exn : forall P token j d k e, hash_law P -> unpack token = Ok j -> j_headers j = VDict d -> (exists dv, key_d k = Ok (VInt dv)) -> dmem d (lit "alg") = true ->
  ec_dec_setup P j k = Raise e -> bounded e \/ (e = EIndexError /\ (length (j_part j) < 5)%nat) \/ (e = EKeyError /\ dget d (lit "enc") = None).
Proof.
  intros P token j d k e HL U D (dv & KD) DA H. unfold ec_dec_setup in H. cbv zeta in H. rewrite D in H.
  assert (IX : forall i, (i < 5)%nat -> part j i = Raise e -> e = EIndexError /\ (length (j_part j) < 5)%nat).
  { intros i I X. split; [exact (part_exn _ _ _ X)|]. pose proof (part_missing _ _ _ _ U X). lia. }
  step H; [right; left; apply (IX 2%nat); [lia|exact H]|]. step H; [right; left; apply (IX 3%nat); [lia|exact H]|]. step H; [right; left; apply (IX 4%nat); [lia|exact H]|].
  cbn [py_in bind] in H. step H.
  { left. destruct (dmem d (lit "epk")) eqn:M; [|discriminate H]. step H; [apply py_get_exn in H; unfold dmem in M; destruct H as [_ H]; rewrite H in M; discriminate M|].
    unfold py_in in H. destruct x2; try discriminate H; injection H as <-; exact bounded_ty. }
  destruct (negb x2) eqn:NX; [left; injection H as <-; exact bounded_ex|]. apply negb_false_iff in NX. subst x2.
  step H. { destruct (dmem d (lit "epk")) eqn:M; [|discriminate E2]. apply py_get_exn in H. unfold dmem in M. destruct H as [_ H]. rewrite H in M. discriminate M. }
  step H. { left. destruct x2; try (injection H as <-; exact bounded_ty). exact (ec_new_exn _ _ _ _ H). }
  step H; [left; exact (text_arg_exn _ _ _ H)|]. step H; [left; exact (text_arg_exn _ _ _ H)|].
  step H. { apply py_get_exn in H. unfold dmem in DA. destruct H as [_ H]. rewrite H in DA. discriminate DA. }
  apply bind_exn in H. destruct H as [H|(((c & ex) & ey) & _ & H)].
  { left. destruct (k_data x3) as [| |? ? ? ? ? [| |]|]; try discriminate H; injection H as <-; exact bounded_at. }
  rewrite KD in H. cbn [bind] in H.
  assert (KDF : forall a n, bytes_ok a = true -> 0 <= n <= 512 -> match c with Some c => derive P c (VInt dv) ex ey x4 x5 a n | None => Raise EAttributeError end = Raise e -> bounded e).
  { intros a n BA BN X. destruct c as [c|]; [|injection X as <-; exact bounded_at]. eapply derive_exn; [exact HL|exact BA|exact BN| | |exact X].
    - intros b ->. exact (text_arg_ok _ _ _ E5).
    - intros b ->. exact (text_arg_ok _ _ _ E6). }
  destruct (pval_eqb x6 (VStr (lit "ECDH-ES"))).
  - step H; [right; right; exact (py_get_exn _ _ _ H)|]. left. destruct x7; try (injection H as <-; first [exact bounded_ex|exact bounded_ty]).
    destruct (dget KEYLEN s) as [l|] eqn:KL; [|injection H as <-; exact bounded_ex]. apply dget_In in KL. cbn [In KEYLEN] in KL.
    repeat (destruct KL as [KL|KL]; [injection KL; intros; subst; eapply KDF; [| |exact H]; [reflexivity|lia]|]). destruct KL.
  - destruct x6; try (left; injection H as <-; exact bounded_ex). destruct (dget ECDH_KW s) as [[post n]|] eqn:KW; [|left; injection H as <-; exact bounded_ex]. apply dget_In in KW. cbn [In ECDH_KW] in KW.
    step H.
    + left. repeat (destruct KW as [KW|KW]; [injection KW; intros; subst; eapply KDF; [| |exact H]; [reflexivity|lia]|]). destruct KW.
    + step H; [right; left; apply (IX 1%nat); [lia|exact H]|]. left. destruct (unwrap_exn _ _ _ _ H) as [->| ->]; [left; reflexivity|exact bounded_st].
Qed.
Lemma ec_dec_exn : forall P token j d cek e, aes_law P -> unpack token = Ok j -> j_headers j = VDict d -> ec_decrypt P j cek = Raise e ->
  In e content_errors \/ (e = EIndexError /\ (length (j_part j) < 5)%nat) \/ (e = EKeyError /\ dget d (lit "enc") = None).
Proof.
  intros P token j d cek e A U D H. unfold ec_decrypt in H. destruct (is_nil cek); [left; injection H as <-; cbn; auto 10|]. rewrite D in H.
  assert (IX : forall i, (i < 5)%nat -> part j i = Raise e -> e = EIndexError /\ (length (j_part j) < 5)%nat).
  { intros i I X. split; [exact (part_exn _ _ _ X)|]. pose proof (part_missing _ _ _ _ U X). lia. }
  step H; [right; right; exact (py_get_exn _ _ _ H)|].
  step H; [right; left; apply (IX 3%nat); [lia|exact H]|].
  step H; [right; left; split; [exact (b64part_exn _ _ _ H)|pose proof (b64part_missing _ _ _ _ U H); lia]|].
  step H; [right; left; apply (IX 2%nat); [lia|exact H]|]. step H; [right; left; apply (IX 4%nat); [lia|exact H]|].
  left. exact (content_exn _ _ _ _ _ _ _ _ A H).
Qed.

(** ** decrypt *)
Lemma real_keys_map : forall ks, real_keys (map Some ks) = Ok ks.
Proof. induction ks as [|k ks IH]; [reflexivity|]. cbn [map real_keys]. rewrite IH. reflexivity. Qed.
Lemma sw_split : forall p s, startswith s p = true -> exists r, s = p ++ r.
Proof.
  induction p as [|x p IH]; intros s H; [exists s; reflexivity|]. destruct s as [|y s]; [discriminate H|]. cbn [startswith] in H. apply andb_true_iff in H. destruct H as [H1 H2]. apply Z.eqb_eq in H1. subst y.
  destruct (IH s H2) as (r & ->). exists r. reflexivity.
Qed.
Definition kw_name (a : ustr) : Prop := startswith a (lit "A") = true /\ ends_KW a = true /\ ~ In a [lit "A128KW"; lit "A192KW"; lit "A256KW"].
Theorem decrypt_raises : forall P sent w token ks alg e, aes_law P -> hash_law P -> rsa_dec_quiet P -> zip_quiet P ->
  w_dict w = [] -> w_jwk w = None -> w_epk w = None -> w_jwt w = None -> (exists t, t <> [] /\ (token = VStr t \/ token = VBytes t)) -> ks <> [] -> (forall k, In k ks -> sound_dec_key k) ->
  jwe_decrypt P sent w token (Some ks) alg [] = Raise e ->
  e = EBadSyntax \/ is_ValueError e = true \/
  In e [EWrongEncryptionAlgorithm; ENoSuitableDecryptionKey; ENotSupportedAlgorithm; EDecryptionFailed; EWrongNumberOfParts;
        EVerificationFailure; EInvalidTagException; EInvalidInputException; EException; EStructError; EOverflowError] \/
  exists j, unpack token = Ok j /\
   ((e = ETypeError /\ forall d, j_headers j <> VDict d) \/
    exists d, j_headers j = VDict d /\
     ((e = EKeyError /\ (dget d (lit "alg") = None \/ exists v, dget d (lit "alg") = Some v /\ (truthy v = false \/ exists a, v = VStr a /\ kw_name a))) \/
      (e = EAttributeError /\ exists v, dget d (lit "alg") = Some v /\ forall a, v <> VStr a) \/
      exists a, dget d (lit "alg") = Some (VStr a) /\
       ((In a [lit "RSA-OAEP"; lit "RSA-OAEP-256"; lit "RSA1_5"] /\ (In e [EZlibError; ETypeError] \/ (e = EIndexError /\ (length (j_part j) < 5)%nat))) \/
        (startswith a (lit "ECDH-ES") = true /\
          (In e [ETypeError; EAttributeError; EECCException; EDeSerializationNotPossible; EHeaderError] \/ (e = EIndexError /\ (length (j_part j) < 5)%nat) \/ (e = EKeyError /\ dget d (lit "enc") = None)))))).
Proof.
  intros P sent w token ks alg e A HL Q ZQ WD WJ WE WT (t & TN & T) KN SK H. unfold jwe_decrypt in H.
  assert (TT : truthy token = true) by (destruct T as [->| ->]; destruct t; try contradiction; reflexivity). rewrite TT in H.
  step H. { destruct (unpack_exn token e (ex_intro _ t T) H) as [->|V]; auto. }
  rename x into j. rename E into U. cbv zeta in *.
  step H.
  { right. right. right. exists j. split; [exact U|]. destruct (j_headers j) as [| | | | | | |d] eqn:D; try (left; split; [cbn in H; congruence|intros d0 X; discriminate X]).
    right. exists d. split; [reflexivity|]. left. apply py_get_exn in H. destruct H as [-> H]. split; [reflexivity|left; exact H]. }
  destruct (j_headers j) as [| | | | | | |d] eqn:D; try discriminate E. cbn [py_get] in E. destruct (dget d (lit "alg")) as [a|] eqn:DA; [|discriminate E]. apply Ok_inj in E. subst x.
  destruct (truthy alg && negb (pval_eqb alg a)); [right; right; left; injection H as <-; cbn; auto|].
  assert (CAUSE : forall X : Prop, X -> X) by auto. clear CAUSE.
  destruct ks as [|k0 kr]; [contradiction|]. cbn [jws_keys bind] in H. change (Some k0 :: map Some kr) with (map Some (k0 :: kr)) in H. set (ks := k0 :: kr) in *.
  step H.
  { right. right. right. exists j. split; [exact U|]. right. exists d. split; [exact D|]. unfold pick_keys in H. step H.
    - left. destruct (truthy a) eqn:TA; [discriminate H|]. cbn [as_jws s_dict] in H. rewrite WD in H. cbn [dget] in H. injection H as <-. split; [reflexivity|right]. exists a. split; [exact DA|left; exact TA].
    - destruct (truthy a) eqn:TA; [|cbn [as_jws s_dict] in E; rewrite WD in E; discriminate E]. apply Ok_inj in E. subst x. destruct (pval_eqb a _); [discriminate H|]. step H.
      + unfold alg2keytype in H. rewrite TA in H. cbn [negb] in H. destruct a as [| | | |s|b| |]; try (right; left; split; [congruence|]; eexists; split; [exact DA|intros a' X; discriminate X]).
        * destruct (zs_eqb _ _); [discriminate H|]. destruct (_ || _); [discriminate H|]. destruct (_ || _); [discriminate H|]. destruct (_ || _); discriminate H.
        * exfalso. unfold unpack in U. destruct (match token with VStr s => _ | _ => _ end) as [tb|]; [|discriminate U]. cbn [bind] in U. destruct (split_token tb); [|discriminate U]. cbn [bind] in U.
          destruct (mapM b64d a) as [ps|]; [|discriminate U]. cbn [bind] in U. destruct (utf8_decode (hd [] ps)) as [ht|]; [|discriminate U]. cbn [bind] in U. destruct (loads ht) as [hv|] eqn:LD; [|discriminate U]. cbn [bind] in U. apply Ok_inj in U. subst j. cbn [j_headers] in D. subst hv.
          exact (loads_member _ _ _ _ LD DA b eq_refl).
      + destruct x; [|discriminate H]. rewrite real_keys_map in H. cbn [bind] in H. unfold kid_in_force in H. cbn [as_jws s_dict s_jwt] in H. rewrite WD, WT in H. cbn [dget bind] in H. discriminate H. }
  rename x into ps. rename E into PK.
  assert (SUB : forall k, In k ps -> In k ks /\ exists kty, alg2keytype a = Ok (Some kty) /\ kty_fits kty k = true).
  { intros k I. unfold pick_keys in PK. destruct (truthy a) eqn:TA; cbn [bind] in PK.
    - destruct (pval_eqb a _); [apply Ok_inj in PK; subst ps; destruct I|]. destruct (alg2keytype a) as [[kty|]|] eqn:AK; cbn [bind] in PK; [|apply Ok_inj in PK; subst ps; destruct I|discriminate PK].
      rewrite real_keys_map in PK. cbn [bind] in PK. destruct (kid_in_force (as_jws w)); [|discriminate PK]. cbn [bind] in PK. apply Ok_inj in PK. subst ps. apply filter_In in I. destruct I as [I _]. apply filter_In in I. destruct I as [I F].
      split; [exact I|]. exists kty. split; [reflexivity|exact F].
    - cbn [as_jws s_dict] in PK. rewrite WD in PK. discriminate PK. }
  assert (SD : forall args, sub_dict w args = []) by (intro args; unfold sub_dict; rewrite WD, WJ, WE; reflexivity).
  change (is_nil (@nil Z)) with true in H. rewrite andb_true_r in H.
  destruct (is_nil ps) eqn:NP; [right; right; left; injection H as <-; cbn; auto 10|].
  step H.
  { unfold family_of in H. destruct (in_texts a _); [discriminate H|]. destruct a as [| | | |s|b| |]; try (right; right; right; exists j; split; [exact U|]; right; exists d; split; [exact D|]; right; left; split; [congruence|]; eexists; split; [exact DA|intros a' X; discriminate X]).
    - destruct (_ && _); [discriminate H|]. destruct (startswith _ _); [discriminate H|]. right. right. left. injection H as <-. cbn. auto 10.
    - exfalso. unfold unpack in U. destruct (match token with VStr s => _ | _ => _ end) as [tb|]; [|discriminate U]. cbn [bind] in U. destruct (split_token tb); [|discriminate U]. cbn [bind] in U.
      destruct (mapM b64d a) as [ps'|]; [|discriminate U]. cbn [bind] in U. destruct (utf8_decode (hd [] ps')) as [ht|]; [|discriminate U]. cbn [bind] in U. destruct (loads ht) as [hv|] eqn:LD; [|discriminate U]. cbn [bind] in U. apply Ok_inj in U. subst j. cbn [j_headers] in D. subst hv.
      exact (loads_member _ _ _ _ LD DA b eq_refl). }
  assert (CE : In e content_errors -> e = EBadSyntax \/ is_ValueError e = true \/ In e [EWrongEncryptionAlgorithm; ENoSuitableDecryptionKey; ENotSupportedAlgorithm; EDecryptionFailed; EWrongNumberOfParts;
        EVerificationFailure; EInvalidTagException; EInvalidInputException; EException; EStructError; EOverflowError]).
  { intro I. cbn [In content_errors] in I. repeat (destruct I as [<-|I]; [first [right; left; reflexivity|right; right; cbn; auto 12]|]). destruct I. }
  assert (LIFT : forall Y, e = EBadSyntax \/ is_ValueError e = true \/ In e [EWrongEncryptionAlgorithm; ENoSuitableDecryptionKey; ENotSupportedAlgorithm; EDecryptionFailed; EWrongNumberOfParts;
        EVerificationFailure; EInvalidTagException; EInvalidInputException; EException; EStructError; EOverflowError] -> e = EBadSyntax \/ is_ValueError e = true \/ In e [EWrongEncryptionAlgorithm; ENoSuitableDecryptionKey; ENotSupportedAlgorithm; EDecryptionFailed; EWrongNumberOfParts;
        EVerificationFailure; EInvalidTagException; EInvalidInputException; EException; EStructError; EOverflowError] \/ Y) by tauto.
  destruct x.
  - assert (RA : in_texts a [lit "RSA-OAEP"; lit "RSA-OAEP-256"; lit "RSA1_5"] = true).
    { unfold family_of in E. destruct (in_texts a _); [reflexivity|]. destruct a; try discriminate E. destruct (_ && _); [discriminate E|]. destruct (startswith _ _); discriminate E. }
    assert (exists s, a = VStr s /\ In s [lit "RSA-OAEP"; lit "RSA-OAEP-256"; lit "RSA1_5"]) as (s & -> & SI).
    { unfold in_texts in RA. apply existsb_exists in RA. destruct RA as (s & I & EQ). apply JwkProofs2.eqb_str_r in EQ. subst a. exists s. split; [reflexivity|exact I]. }
    step H; [|destruct x; discriminate H]. unfold cek_first in H. change (is_nil (@nil Z)) with true in H. cbv iota in H. apply dec_loop_exn in H. destruct H as [->|(k & I & H)]; [apply LIFT; right; right; cbn; auto 10|].
    destruct (SUB k I) as (IK & kty & AK & KF). specialize (SK k IK).
    assert (KK : exists r nums, k_data k = DRsa (ORsa r) nums).
    { assert (kty = lit "RSA") as -> by (cbn [In] in SI; destruct SI as [<-|[<-|[<-|[]]]]; vm_compute in AK; injection AK as <-; reflexivity). unfold sound_dec_key in SK. destruct (k_data k) as [|o nums|ko c [| |x| | | | |] [| |y| | | | |] [| |dd| | | | |] o|[] kk]; try contradiction.
      - destruct o; try contradiction. eauto.
      - exfalso. destruct SK as [SK _]. unfold kty_fits in KF. rewrite SK in KF. vm_compute in KF. discriminate KF.
      - exfalso. destruct SK as [SK _]. unfold kty_fits in KF. rewrite SK in KF. vm_compute in KF. discriminate KF. }
    destruct KK as (r & nums & KK). destruct H as [H|(n & m & KM & H & NE)].
    + unfold key_material in H. rewrite KK in H. unfold rsa_encryption_key in H. rewrite KK in H. cbn [otruthy bind] in H. discriminate H.
    + unfold key_material in KM. rewrite KK in KM. unfold rsa_encryption_key in KM. rewrite KK in KM. cbn [otruthy bind] in KM. apply Ok_inj in KM. subst m.
      eapply rsa_dec_exn in H; [|exact A|exact Q|exact ZQ|exact U|exact D|rewrite DA; exact RA].
      destruct H as [V|[I2|[[-> L]|[-> _]]]]; [auto| | |contradiction].
      * cbn [In] in I2. destruct I2 as [<-|[<-|[<-|[<-|I2]]]]; [|apply LIFT; right; right; cbn; auto 10|apply LIFT; right; right; cbn; auto 10| |exact (LIFT _ (CE I2))];
        right; right; right; exists j; (split; [exact U|]); right; exists d; (split; [exact D|]); right; right; exists s; (split; [exact DA|]); left; (split; [exact SI|]); left; cbn; auto.
      * right. right. right. exists j. split; [exact U|]. right. exists d. split; [exact D|]. right. right. exists s. split; [exact DA|]. left. split; [exact SI|]. right. split; [reflexivity|exact L].
  - assert (exists s, a = VStr s /\ startswith s (lit "A") = true /\ ends_KW s = true) as (s & -> & SA & SE).
    { unfold family_of in E. destruct (in_texts a _); [discriminate E|]. destruct a; try discriminate E. destruct (startswith s (lit "A") && ends_KW s) eqn:B; [|destruct (startswith s (lit "ECDH-ES")); discriminate E]. apply andb_true_iff in B. exists s. split; [reflexivity|exact B]. }
    assert (AK : alg2keytype (VStr s) = Ok (Some (lit "oct"))).
    { destruct (sw_split _ _ SA) as ([|c r] & ->); reflexivity. }
    step H; [|discriminate H]. unfold cek_first in H. change (is_nil (@nil Z)) with true in H. cbv iota in H. rewrite SD in H. apply dec_loop_exn in H. destruct H as [->|(k & I & H)]; [apply LIFT; right; right; cbn; auto 10|].
    destruct (SUB k I) as (IK & kty & AK' & KF). specialize (SK k IK). rewrite AK in AK'. injection AK' as <-.
    assert (KK : exists b kk, k_data k = DSym (VBytes b) kk /\ b <> [] /\ bytes_ok b = true).
    { unfold sound_dec_key in SK. destruct (k_data k) as [|o nums|ko c [| |x| | | | |] [| |y| | | | |] [| |dd| | | | |] o|[] kk]; try contradiction.
      - exfalso. destruct o; try contradiction. unfold kty_fits in KF. rewrite SK in KF. vm_compute in KF. discriminate KF.
      - exfalso. destruct SK as [SK _]. unfold kty_fits in KF. rewrite SK in KF. vm_compute in KF. discriminate KF.
      - exists b, kk. split; [reflexivity|]. tauto. }
    destruct KK as (b & kk & KK & NB & BB).
    assert (KM : key_material P k (VStr s) false = match dget ALG2KEYLEN s with None => Raise EKeyError | Some ts => Ok (MObj (OVal (VBytes (firstn ts (p_hash P (if Nat.leb ts 32 then SHA256 else if Nat.leb ts 48 then SHA384 else SHA512) b))))) end).
    { unfold key_material. rewrite KK. unfold sym_encryption_key. rewrite KK. assert (truthy (VBytes b) = true) as -> by (destruct b; [contradiction|reflexivity]). cbn [bind]. destruct (dget ALG2KEYLEN s); reflexivity. }
    destruct H as [H|(n & m & KM2 & H & NE)].
    + rewrite KM in H. destruct (dget ALG2KEYLEN s) eqn:AL; [discriminate H|]. injection H as <-. right. right. right. exists j. split; [exact U|]. right. exists d. split; [exact D|]. left. split; [reflexivity|right]. exists (VStr s). split; [exact DA|right]. exists s. split; [reflexivity|].
      split; [exact SA|split; [exact SE|]]. intro I3. cbn [In] in I3. destruct I3 as [<-|[<-|[<-|[]]]]; discriminate AL.
    + rewrite KM in KM2. destruct (dget ALG2KEYLEN s) as [ts|] eqn:AL; [|discriminate KM2]. apply Ok_inj in KM2. subst m.
      assert (TS : (0 < ts)%nat) by (apply dget_In in AL; cbn [In ALG2KEYLEN] in AL; repeat (destruct AL as [AL|AL]; [injection AL; intros; lia|]); destruct AL).
      eapply sym_dec_exn in H; [|exact A| |exact U|exact D].
      2:{ intro X. apply (f_equal (@length Z)) in X. rewrite firstn_length in X. rewrite (proj1 (HL _ b BB)) in X. cbn [length] in X. destruct (Nat.leb ts 32); [|destruct (Nat.leb ts 48)]; cbn [hlen] in X; lia. }
      destruct H as [[<-|I2]|[-> _]]; [apply LIFT; right; right; cbn; auto 10|exact (LIFT _ (CE I2))|contradiction].
  - assert (exists s, a = VStr s /\ startswith s (lit "ECDH-ES") = true) as (s & -> & SA).
    { unfold family_of in E. destruct (in_texts a _); [discriminate E|]. destruct a; try discriminate E. destruct (_ && _); [discriminate E|]. destruct (startswith s (lit "ECDH-ES")) eqn:B; [|discriminate E]. exists s. split; [reflexivity|exact B]. }
    assert (FIN : In e ec_errors \/ (e = EIndexError /\ (length (j_part j) < 5)%nat) \/ (e = EKeyError /\ dget d (lit "enc") = None) -> e = EBadSyntax \/ exists j0, unpack token = Ok j0 /\
   ((e = ETypeError /\ forall d, j_headers j0 <> VDict d) \/
    exists d, j_headers j0 = VDict d /\
     ((e = EKeyError /\ (dget d (lit "alg") = None \/ exists v, dget d (lit "alg") = Some v /\ (truthy v = false \/ exists a, v = VStr a /\ kw_name a))) \/
      (e = EAttributeError /\ exists v, dget d (lit "alg") = Some v /\ forall a, v <> VStr a) \/
      exists a, dget d (lit "alg") = Some (VStr a) /\
       ((In a [lit "RSA-OAEP"; lit "RSA-OAEP-256"; lit "RSA1_5"] /\ (In e [EZlibError; ETypeError] \/ (e = EIndexError /\ (length (j_part j0) < 5)%nat))) \/
        (startswith a (lit "ECDH-ES") = true /\
          (In e [ETypeError; EAttributeError; EECCException; EDeSerializationNotPossible; EHeaderError] \/ (e = EIndexError /\ (length (j_part j0) < 5)%nat) \/ (e = EKeyError /\ dget d (lit "enc") = None))))))).
    { intro X. assert (C : e = EBadSyntax \/ In e [ETypeError; EAttributeError; EECCException; EDeSerializationNotPossible; EHeaderError] \/ (e = EIndexError /\ (length (j_part j) < 5)%nat) \/ (e = EKeyError /\ dget d (lit "enc") = None)).
      { destruct X as [X|X]; [|tauto]. cbn [In ec_errors] in X. repeat (destruct X as [<-|X]; [first [left; reflexivity|right; left; cbn; auto 10]|]). destruct X. }
      destruct C as [C|C]; [left; exact C|right]. exists j. split; [exact U|]. right. exists d. split; [exact D|]. right. right. exists s. split; [exact DA|]. right. split; [exact SA|exact C]. }
    assert (BND : bounded e \/ (e = EIndexError /\ (length (j_part j) < 5)%nat) \/ (e = EKeyError /\ dget d (lit "enc") = None) -> e = EBadSyntax \/ is_ValueError e = true \/ In e content_errors \/ (In e ec_errors \/ (e = EIndexError /\ (length (j_part j) < 5)%nat) \/ (e = EKeyError /\ dget d (lit "enc") = None))) by (unfold bounded; tauto).
    assert (DONE : bounded e \/ (e = EIndexError /\ (length (j_part j) < 5)%nat) \/ (e = EKeyError /\ dget d (lit "enc") = None) -> forall G : Prop, (e = EBadSyntax -> G) -> (is_ValueError e = true -> G) -> (In e content_errors -> G) -> ((In e ec_errors \/ (e = EIndexError /\ (length (j_part j) < 5)%nat) \/ (e = EKeyError /\ dget d (lit "enc") = None)) -> G) -> G) by (intros X G; unfold bounded in X; tauto).
    destruct ps as [|k pr]; [discriminate NP|]. destruct (SUB k (or_introl eq_refl)) as (IK & kty & AK & KF).
    assert (KDA : forall k', In k' (k :: pr) -> (exists dv, key_d k' = Ok (VInt dv)) /\ exists m, key_material P k' (VStr s) false = Ok m).
    { intros k' I'. destruct (SUB k' I') as (IK' & kty' & AK' & KF'). specialize (SK k' IK').
      assert (kty' = lit "EC") as ->.
      { clear - AK' SA. destruct (sw_split _ _ SA) as (r & ->). assert (AE : alg2keytype (VStr (lit "ECDH-ES" ++ r)) = Ok (Some (lit "EC"))) by (destruct r; reflexivity). rewrite AE in AK'. injection AK' as <-. reflexivity. }
      unfold sound_dec_key in SK. destruct (k_data k') as [|o nums|ko c [| |x| | | | |] [| |y| | | | |] [| |dd| | | | |] o|[] kk] eqn:KK; try contradiction.
      - exfalso. destruct o; try contradiction. unfold kty_fits in KF'. rewrite SK in KF'. vm_compute in KF'. discriminate KF'.
      - split; [exists dd; unfold key_d; rewrite KK; reflexivity|]. unfold key_material. rewrite KK. unfold get_key. rewrite KK. destruct SK as (_ & NX & NY). cbn [truthy]. apply Z.eqb_neq in NX. apply Z.eqb_neq in NY. rewrite NX, NY. eexists. reflexivity.
      - exfalso. destruct SK as [SK _]. unfold kty_fits in KF'. rewrite SK in KF'. vm_compute in KF'. discriminate KF'. }
    assert (GOALS : bounded e \/ (e = EIndexError /\ (length (j_part j) < 5)%nat) \/ (e = EKeyError /\ dget d (lit "enc") = None) \/ e = EDecryptionFailed).
    { step H.
      - destruct (ec_setup_exn P token j d k e HL U D (proj1 (KDA k (or_introl eq_refl)))) as [X|[X|X]]; [unfold dmem; rewrite DA; reflexivity|exact H|left; exact X|right; left; exact X|right; right; left; exact X].
      - step H; [|discriminate H].
        assert (DX : ec_decrypt P j x = Raise e -> bounded e \/ (e = EIndexError /\ (length (j_part j) < 5)%nat) \/ (e = EKeyError /\ dget d (lit "enc") = None) \/ e = EDecryptionFailed).
        { intro X. destruct (ec_dec_exn _ _ _ _ _ _ A U D X) as [Y|[Y|Y]]; [left; right; right; exact Y|tauto|tauto]. }
        assert (LX : dec_loop P (VStr s) (fun _ _ => ec_decrypt P j x) (k :: pr) 1 = Raise e -> bounded e \/ (e = EIndexError /\ (length (j_part j) < 5)%nat) \/ (e = EKeyError /\ dget d (lit "enc") = None) \/ e = EDecryptionFailed).
        { intro X. apply dec_loop_exn in X. destruct X as [->|(k' & I' & [X|(n & m & _ & X & _)])]; [tauto| |exact (DX X)]. destruct (KDA k' I') as (_ & m & KM). congruence. }
        unfold cek_first in H. destruct (is_nil x); [exact (LX H)|]. destruct (ec_decrypt P j x) as [?|e1] eqn:DD; [discriminate H|]. destruct e1; first [exact (LX H)|apply DX; exact H]. }
    destruct GOALS as [X|[X|[X|X]]].
    + apply (DONE (or_introl X)); [auto|auto|intro I2; exact (LIFT _ (CE I2))|intro I2; destruct (FIN I2) as [Y|Y]; [auto|right; right; right; exact Y]].
    + destruct (FIN (or_intror (or_introl X))) as [Y|Y]; [auto|right; right; right; exact Y].
    + destruct (FIN (or_intror (or_intror X))) as [Y|Y]; [auto|right; right; right; exact Y].
    + subst e. apply LIFT. right. right. cbn. auto 10.
Qed.
