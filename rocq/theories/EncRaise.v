(** * What JWE.encrypt can raise (jwe.py:762-839) *)
From Coq Require Import ZArith List Bool Lia.
From Verif Require Import Base BaseProofs Codec CodecProofs Utf8 Json JsonProofs Jwt JwtProofs Prims Elliptic Ecc EccProofs Extra ExtraProofs KeyWrap Gcm GcmProofs2 SymAux Jwk JwkProofs JwkProofs2 Jws JwsProofs JwsProofs2 JwsProofs11 Jwe JweProofs JweProofs2 JweProofs3 JweProofs13 JwsProofs JweProofs2 JweProofs6 EcAux Misc2Proofs JweProofs17 SignRaise.
Import ListNotations.
Open Scope Z_scope.

Definition enc_errors : list exn :=
  [ENoSuitableEncryptionKey; ENotSupportedAlgorithm; EInvalidInputException; EOverflowError; EStructError; EException; ETypeError; EAttributeError].
Definition encish (e : exn) : Prop := is_ValueError e = true \/ In e enc_errors.
Ltac en := right; cbn; auto 20.
Lemma en_nk : encish ENoSuitableEncryptionKey. Proof. en. Qed.
Lemma en_ns : encish ENotSupportedAlgorithm. Proof. en. Qed.
Lemma en_in : encish EInvalidInputException. Proof. en. Qed.
Lemma en_of : encish EOverflowError. Proof. en. Qed.
Lemma en_st : encish EStructError. Proof. en. Qed.
Lemma en_ex : encish EException. Proof. en. Qed.
Lemma en_ty : encish ETypeError. Proof. en. Qed.
Lemma en_at : encish EAttributeError. Proof. en. Qed.
Lemma en_va : encish EValueError. Proof. left. reflexivity. Qed.
Ltac one H := injection H as <-; first [exact en_nk|exact en_ns|exact en_in|exact en_of|exact en_st|exact en_ex|exact en_ty|exact en_at|exact en_va].
Definition signed_subset : list exn := [ETypeError; EAttributeError].

(** Packing raises no more than ValueError, TypeError and AttributeError. *)
Lemma item_enc : forall v e, b64encode_item v = Raise e -> encish e.
Proof.
  intros v e H. destruct v; cbn [b64encode_item] in H; try discriminate H; try one H;
  try (step H; [left; rewrite (utf8_encode_exn _ _ H); reflexivity|discriminate H]);
  (step H; [left; exact (b2s_exn _ _ H)|]; step H; [rewrite (dumps_exn _ _ _ H); exact en_ty|]; step H; [left; rewrite (utf8_encode_exn _ _ H); reflexivity|discriminate H]).
Qed.

Lemma wrap_exn : forall P kek w e, aes_wrap_key P kek w = Raise e -> e = EValueError \/ e = EStructError.
Proof.
  intros P kek w e H. unfold aes_wrap_key, aes_wrap_key_iv in H. cbv zeta in H.
  assert (QP : forall a e, quad_pack a = Raise e -> e = EStructError) by (intros a e0 X; unfold quad_pack in X; destruct (_ && _); congruence).
  assert (QU : forall a e, quad_unpack a = Raise e -> e = EStructError) by (intros a e0 X; unfold quad_unpack in X; destruct (Nat.eqb _ _); congruence).
  step H; [unfold aes_new in H; destruct (aes_keysize kek); [discriminate H|left; congruence]|]. right. step H; [|step H; [exact (QP _ _ H)|discriminate H]].
  revert H. generalize IV0 as a, (chunks8 (length w / 8) w) as r, [0; 1; 2; 3; 4; 5] as js, (Z.of_nat (length w / 8)) as n. intros a r js n. revert a r. clear x E. induction js as [|j js IH]; intros a r H; [discriminate H|].
  cbn [wrap_rows] in H. step H; [|exact (IH _ _ H)]. clear IH. revert H. generalize 1 as i. intro i. revert i a. induction r as [|y r IR]; intros i a H; [discriminate H|]. cbn [wrap_row] in H. cbv zeta in H.
  step H; [exact (QP _ _ H)|]. step H; [exact (QU _ _ H)|]. step H; [exact (IR _ _ H)|discriminate H].
Qed.

Lemma gen_exn : forall R enc cek iv e, generate_key_and_iv R enc cek iv = Raise e -> encish e.
Proof.
  intros R enc cek iv e H. unfold generate_key_and_iv in H. destruct (_ && _); [discriminate H|]. apply bind_exn in H. destruct H as [H|((kl & il) & _ & H)]; [|discriminate H].
  destruct enc; try one H. destruct (dget ENCALGLEN1 s); [discriminate H|]. destruct (dget ENCALGLEN2 s); [discriminate H|]. one H.
Qed.
Lemma gcm_new_exn : forall P k e, aes_law P -> gcm_new P k = Raise e -> encish e.
Proof.
  intros P k e A H. destruct (aes_keysize (long_to_bytes k 16)) eqn:KS.
  - exfalso. destruct (gcm_new_ok P A _ KS (long_to_bytes_ok _ _) k eq_refl) as (g & G & _). congruence.
  - unfold gcm_new, change_key in H. rewrite KS in H. cbn in H. one H.
Qed.
Lemma ghash_bound : forall g h aad txt, g_table g = table h -> bytes_ok aad = true -> bytes_ok txt = true -> 0 <= ghash g aad txt < 2 ^ 128.
Proof.
  intros g h aad txt T BA BT. split; [exact (ghash_nonneg g h aad txt T BA BT)|]. unfold ghash. cbv zeta. match goal with |- times_auth_key g ?v < _ => assert (V : 0 <= v) end.
  { apply Z.lxor_nonneg. split; intro; [apply Z.lor_nonneg; split; [apply Z.shiftl_nonneg; lia|lia]|].
    assert (F : Forall (fun b => bytes_ok b = true) (blocks16 (pad16 aad ++ pad16 txt))) by (unfold blocks16; apply blocks16_n_ok; rewrite !pad16_zpad, bytes_ok_app, !zpad_ok, BA, BT; reflexivity).
    revert F. generalize (blocks16 (pad16 aad ++ pad16 txt)). assert (Z0 : 0 <= 0) by lia. revert Z0. generalize 0 at 2 4 as a. intros a A l. revert a A. induction l as [|b l IH]; intros a A F; [exact A|]. inversion_clear F. cbn [fold_left]. apply IH; [|assumption].
    apply (times_nonneg g h); [exact T|]. apply Z.lxor_nonneg. pose proof (be2z_bound b H0). split; intro; lia. }
  revert V. match goal with |- 0 <= ?v -> _ => generalize v end. intros v V. unfold times_auth_key. rewrite T, times_table by exact V. apply bmul_bound.
Qed.
Lemma gcm_enc_exn : forall P k g iv m aad e, aes_law P -> gcm_new P k = Ok g -> 0 <= iv -> bytes_ok m = true -> bytes_ok aad = true -> snd (gcm_encrypt P g iv m aad) = Raise e -> encish e.
Proof.
  intros P k g iv m aad e AES N I BP BA H. destruct (gcm_new_inv P AES k g N) as (KS & (G1 & G2 & G3 & G4) & PV). assert (BK : bytes_ok (long_to_bytes k 16) = true) by apply long_to_bytes_ok.
  unfold gcm_encrypt in H. destruct (iv <? 2 ^ 96) eqn:IV; cbn [negb] in H; [|cbn in H; one H]. apply Z.ltb_lt in IV. rewrite PV in H. cbn [snd] in H.
  set (g1 := {| g_prev := Some iv; g_key := g_key g; g_ecb := g_ecb g; g_auth := g_auth g; g_table := g_table g |}) in *. step H.
  - unfold gctr in H. destruct (Nat.ltb _ _); [|discriminate H]. step H; [|discriminate H]. unfold ctr_crypt in H. destruct (negb _); [one H|]. destruct (_ <? _); [one H|discriminate H].
  - exfalso. pose proof (gctr_inv _ _ _ _ _ E) as L. rewrite (gctr_ok P AES _ KS BK g1 iv m G1 (conj I IV) BP L) in E. apply Ok_inj in E.
    assert (LI : length (z2be 12 iv) = 12%nat) by apply z2be_length. assert (BI : bytes_ok (z2be 12 iv) = true) by apply z2be_ok.
    destruct (gcm_c_props P AES _ KS BK (z2be 12 iv) m LI BI BP) as (C1 & C2 & C3). rewrite E in C2. cbv zeta in H.
    assert (TB : Z.lxor (ghash g1 aad x) (tag_mask P g1 iv) < 2 ^ 128).
    { pose proof (ghash_bound g1 (g_auth g) aad x G4 BA C2) as B1. assert (B2 : 0 <= tag_mask P g1 iv < 2 ^ 128).
      { rewrite tag_mask_ok with (key := long_to_bytes k 16); [|exact G2|split; assumption]. pose proof (ctr_in_block P AES _ KS BK (z2be 12 iv) 1 LI BI) as X. apply block_bound. exact X. }
      assert (NN : 0 <= Z.lxor (ghash g1 aad x) (tag_mask P g1 iv)) by (apply Z.lxor_nonneg; lia).
      destruct (Z.eq_dec (Z.lxor (ghash g1 aad x) (tag_mask P g1 iv)) 0) as [->|NZ]; [reflexivity|]. apply Z.log2_lt_pow2; [lia|]. eapply Z.le_lt_trans; [apply Z.log2_lxor; lia|].
      apply Z.max_lub_lt; [destruct (Z.eq_dec (ghash g1 aad x) 0) as [->|]; [reflexivity|apply Z.log2_lt_pow2; lia]|destruct (Z.eq_dec (tag_mask P g1 iv) 0) as [->|]; [reflexivity|apply Z.log2_lt_pow2; lia]]. }
    apply Z.ltb_lt in TB. rewrite TB in H. discriminate H.
Qed.
Lemma keys_exn : forall key iv e, get_keys_seclen_dgst key iv = Raise e -> encish e.
Proof. intros key iv e H. unfold get_keys_seclen_dgst in H. destruct (negb _); [one H|]. destruct (LENMET _) as [[? ?]|]; [discriminate H|one H]. Qed.
Lemma gen_iv : forall R enc cek iv k v, draws_ok R -> bytes_ok iv = true -> generate_key_and_iv R enc cek iv = Ok (k, v) -> bytes_ok v = true.
Proof.
  intros R enc cek iv k v DR B H. unfold generate_key_and_iv in H. destruct (_ && _); [apply Ok_inj in H; injection H as _ <-; exact B|].
  match type of H with bind ?m _ = _ => destruct m as [[kl il]|]; cbn [bind] in H; [|discriminate H] end. apply Ok_inj in H. injection H as _ <-. destruct (is_nil iv); [apply (do_iv _ DR)|exact B].
Qed.
Lemma enc_setup_exn : forall P R enc m aad cek iv e, aes_law P -> draws_ok R -> bytes_ok m = true -> bytes_ok aad = true -> bytes_ok iv = true -> enc_setup P R enc m aad cek iv = Raise e -> encish e.
Proof.
  intros P R enc m aad cek iv e AES DR BM BA BI H. unfold enc_setup in H. apply bind_exn in H. destruct H as [H|((key & iv1) & G & H)]; [exact (gen_exn _ _ _ _ _ H)|].
  destruct (in_texts enc GCM_ENCS).
  - step H; [exact (gcm_new_exn _ _ _ AES H)|]. apply bind_exn in H. destruct H as [H|((ct & tag) & _ & H)]; [|discriminate H]. refine (gcm_enc_exn _ _ _ _ _ _ _ AES E _ BM BA H). apply be2z_bound. exact (gen_iv _ _ _ _ _ _ DR BI G).
  - destruct (in_texts enc CBC_ENCS); [|one H]. apply bind_exn in H. destruct H as [H|((ct & tag) & _ & H)]; [|discriminate H]. unfold aes_cbc_hmac_encrypt in H. step H; [exact (keys_exn _ _ _ H)|].
    destruct x as [[[ka ke] sl] dg]. step H; [unfold cbc_encrypt in H; destruct (Nat.eqb _ _); [discriminate H|one H]|]. step H; [unfold pack_Q in H; destruct (_ && _); [discriminate H|one H]|discriminate H].
Qed.
Lemma enc_any_exn : forall P R enc m aad cek iv e, aes_law P -> draws_ok R -> (forall b, m = VBytes b -> bytes_ok b = true) -> bytes_ok aad = true -> bytes_ok iv = true -> enc_setup_any P R enc m aad cek iv = Raise e -> encish e.
Proof.
  intros P R enc m aad cek iv e AES DR BM BA BI H. unfold enc_setup_any in H.
  destruct m; try exact (enc_setup_exn _ _ _ _ _ _ _ _ AES DR (BM _ eq_refl) BA BI H);
  (destruct (_ && _); [exact (enc_setup_exn P R enc [] aad cek iv e AES DR eq_refl BA BI H)|]; apply bind_exn in H; destruct H as [H|((key & iv1) & _ & H)]; [exact (gen_exn _ _ _ _ _ H)|];
   destruct (in_texts enc GCM_ENCS); [step H; [exact (gcm_new_exn _ _ _ AES H)|]; destruct (negb _); one H|]; destruct (in_texts enc CBC_ENCS); [step H; [exact (keys_exn _ _ _ H)|]; one H|one H]).
Qed.
Lemma header_ok : forall d o j h, jwenc d o = Ok j -> b64encode_item (j_headers j) = Ok h -> bytes_ok h = true.
Proof.
  intros d o j h J H. unfold jwenc in J. destruct o; [discriminate J|]. unfold jwt_init in J. cbv zeta in J.
  repeat match type of J with bind ?m _ = _ => destruct m; cbn [bind] in J; [|discriminate J] end. apply Ok_inj in J. subst j. cbn [j_headers b64encode_item] in H.
  match type of H with (bind ?m _) = _ => destruct m as [v|]; [cbn [bind] in H|discriminate H] end.
  match type of H with (bind ?m _) = _ => destruct m as [t|]; [cbn [bind] in H|discriminate H] end. destruct (utf8_encode t) as [b|] eqn:U; [|discriminate H]. cbn [bind] in H. apply Ok_inj in H. subst h.
  apply ascii_bytes. apply b64e_ascii. exact (utf8_encode_ok _ _ U).
Qed.
Lemma msg_ok : forall m v, (forall b, m = VBytes b -> bytes_ok b = true) -> msg_bytes m = Ok v -> forall b, v = VBytes b -> bytes_ok b = true.
Proof.
  intros m v B H b ->. unfold msg_bytes in H. destruct m; try discriminate H; [|apply Ok_inj in H; injection H as <-; exact (B _ eq_refl)].
  destruct (utf8_encode s) eqn:U; [|discriminate H]. cbn [bind] in H. apply Ok_inj in H. injection H as <-. exact (utf8_encode_ok _ _ U).
Qed.
Lemma init_enc : forall h e, jwt_init h = Raise e -> encish e.
Proof.
  intros h e H. unfold jwt_init in H. cbv zeta in H. step H; [exact (item_enc _ _ H)|]. step H; [|discriminate H].
  exfalso. unfold b64encode_item in E. match type of E with (bind ?m _) = _ => destruct m as [v|]; [cbn [bind] in E|discriminate E] end.
  match type of E with (bind ?m _) = _ => destruct m as [t|]; [cbn [bind] in E|discriminate E] end. destruct (utf8_encode t) as [b|] eqn:U; [|discriminate E]. cbn [bind] in E. apply Ok_inj in E. subst x.
  rewrite (b64d_b64e _ (utf8_encode_ok _ _ U)) in H. discriminate H.
Qed.
Lemma jwenc_exn : forall h o e, jwenc h o = Raise e -> encish e.
Proof. intros h o e H. unfold jwenc in H. destruct o; [one H|exact (init_enc _ _ H)]. Qed.
Lemma pack_enc : forall j parts h e, pack j parts h = Raise e -> encish e.
Proof.
  intros j parts h e H. unfold pack in H. cbv zeta in H.
  assert (D : forall l e, mapM utf8_decode l = Raise e -> encish e) by (intros l e0 X; left; apply (mapM_exn _ _ utf8_decode (fun e => is_ValueError e = true) l e0); [intros x e1 Y; apply utf8_decode_exn in Y; subst; reflexivity|exact X]).
  destruct parts as [|p parts]; [step H; [exact (D _ _ H)|discriminate H]|].
  step H; [exact (item_enc _ _ H)|]. step H; [exact (mapM_exn _ _ b64encode_item encish _ _ item_enc H)|]. step H; [exact (D _ _ H)|discriminate H].
Qed.
Lemma pick_enc : forall s ks use alg v e, dget (s_dict s) (lit "alg") = Some v -> pick_keys s (map Some ks) use alg = Raise e -> encish e.
Proof.
  intros s ks use alg v e A H. unfold pick_keys in H.
  assert (RK : forall l, real_keys (map Some l) = Ok l) by (induction l as [|x l IH]; [reflexivity|]; cbn [map real_keys]; rewrite IH; reflexivity).
  step H; [destruct (truthy alg); [discriminate H|]; rewrite A in H; discriminate H|].
  destruct (pval_eqb x _); [discriminate H|]. step H.
  - unfold alg2keytype in H. destruct (negb (truthy x)); [discriminate H|]. destruct x as [| | | |a| | |]; try one H.
    repeat match type of H with (if ?b then _ else _) = _ => destruct b; [discriminate H|] end. discriminate H.
  - destruct x0 as [t|]; [|discriminate H]. rewrite RK in H. cbn [bind] in H. step H; [|discriminate H].
    unfold kid_in_force in H. destruct (dget (s_dict s) (lit "kid")); [discriminate H|]. destruct (s_jwt s) as [j|]; [|discriminate H].
    destruct (j_headers j); cbn [py_get] in H; try one H. destruct (dget d (lit "kid")); discriminate H.
Qed.

(** Keys that can encrypt. *)
Definition enc_key_ok (k : jwk) : Prop :=
  match k_data k with DRsa (ORsa _) _ => True | DSym (VBytes b) _ => b <> [] | DEc _ _ _ _ _ _ => True | _ => False end.
Lemma material_exn : forall P k alg e, enc_key_ok k -> key_material P k alg true = Raise e ->
  encish e \/ (e = EKeyError /\ forall a, alg = VStr a -> dget ALG2KEYLEN a = None).
Proof.
  intros P k alg e O H. unfold enc_key_ok in O. unfold key_material, rsa_encryption_key, sym_encryption_key, get_key in H. destruct (k_data k) as [o|o n|o c x y d cu|o n] eqn:K.
  - destruct O.
  - destruct o; try destruct O. cbn in H. discriminate H.
  - left. destruct (truthy d); [discriminate H|one H].
  - destruct o as [| | | | |b| |]; try (exfalso; exact O). destruct alg as [| | | |a| | |]; try (right; split; [congruence|intros; discriminate]).
    destruct b as [|b0 b]; [contradiction O; reflexivity|]. cbn [truthy negb bind] in H.
    destruct (dget ALG2KEYLEN a) eqn:G; cbn [bind] in H; [discriminate H|]. right. split; [congruence|]. intros a' X. injection X as <-. exact G.
Qed.

Lemma named_get : forall kid d n, n <> lit "kid" -> dget (if truthy kid then dset d (lit "kid") kid else d) n = dget d n.
Proof. intros kid d n N. destruct (truthy kid); [|reflexivity]. apply dget_dset_other. intro X. apply N. symmetry. exact X. Qed.

Lemma derive_enc : forall P c d x y u v alg bits e, hash_law P -> bytes_ok alg = true -> 0 <= bits <= 512 -> bytes_ok u = true -> bytes_ok v = true ->
  derive P c d x y (Some u) (Some v) alg bits = Raise e -> encish e.
Proof.
  intros P c d x y u v alg bits e HL BA BB AU AV H. unfold derive in H.
  assert (AN : forall v e, as_num v = Raise e -> e = ETypeError) by (intros v0 e0 X; unfold as_num in X; destruct (as_int v0); congruence).
  do 3 (step H; [rewrite (AN _ _ H); exact en_ty|]). step H.
  { unfold dh_z in H. destruct (mulp _ _ _ _ _) as [[? ?]|]; [discriminate H|]. one H. }
  assert (ZB : bytes_ok x3 = true) by (unfold dh_z in E2; destruct (mulp _ _ _ _ _) as [[? ?]|]; [|discriminate E2]; apply Ok_inj in E2; subst x3; apply long_to_bytes_ok).
  step H.
  - unfold other_info in H. assert (PI : forall n e, pack_I n = Raise e -> e = EStructError) by (intros n e0 X; unfold pack_I in X; destruct (_ && _); congruence).
    do 3 (step H; [rewrite (PI _ _ H); exact en_st|]). discriminate H.
  - exfalso. assert (OB : bytes_ok x4 = true).
    { unfold other_info, pack_I in E3. do 3 (match type of E3 with bind (if ?b then _ else _) _ = _ => destruct b; [|discriminate E3] end; cbn [bind] in E3). apply Ok_inj in E3. subst x4.
      rewrite !bytes_ok_app, !z2be_ok, BA, AU, AV. reflexivity. }
    destruct (concat_sha256_ok P HL x3 bits x4 ZB OB) as [C _]; [lia|]. congruence.
Qed.

Definition rsa_names : list ustr := [lit "RSA-OAEP"; lit "RSA-OAEP-256"; lit "RSA1_5"].
Lemma sym_enc_exn : forall P R d o msg key cek iv kid e, aes_law P -> draws_ok R -> bytes_ok iv = true -> sym_encrypt P R d o msg key cek iv kid = Raise e -> encish e \/ (e = EKeyError /\ dget d (lit "enc") = None).
Proof.
  intros P R d o msg key cek iv kid e AES DR BI H. unfold sym_encrypt in H. cbv zeta in H. step H; [left; exact (jwenc_exn _ _ _ H)|].
  step H. { right. unfold dict_get in H. assert (X : dget (match kid with Some v => dset d (lit "kid") v | None => d end) (lit "enc") = dget d (lit "enc")) by (destruct kid; [apply dget_dset_other; vm_compute; discriminate|reflexivity]).
    rewrite X in H. destruct (dget d (lit "enc")); [discriminate H|]. split; [congruence|reflexivity]. }
  left. apply bind_exn in H. destruct H as [H|((cek1 & iv1) & G & H)]; [exact (gen_exn _ _ _ _ _ H)|]. apply (gen_iv _ _ _ _ _ _ DR BI) in G. step H; [unfold as_secret in H; destruct key as [[]|]; try destruct v; try discriminate H; one H|].
  step H; [destruct (wrap_exn _ _ _ _ H) as [->| ->]; [exact en_va|exact en_st]|]. step H; [destruct msg; try one H; left; rewrite (utf8_encode_exn _ _ H); reflexivity|].
  assert (BM : bytes_ok x3 = true) by (destruct msg; try discriminate E3; exact (utf8_encode_ok _ _ E3)). step H; [exact (item_enc _ _ H)|]. apply bind_exn in H. destruct H as [H|(((ct & tag) & k) & _ & H)]; [exact (enc_setup_exn _ _ _ _ _ _ _ _ AES DR BM (header_ok _ _ _ _ E E4) G H)|].
  apply bind_exn in H. destruct H as [H|((t & j) & _ & H)]; [exact (pack_enc _ _ _ _ H)|discriminate H].
Qed.

Lemma rsa_enc_exn : forall P R d a msg key cek iv e, aes_law P -> draws_ok R -> bytes_ok iv = true -> (forall b, msg = VBytes b -> bytes_ok b = true) -> (forall m, bytes_ok m = true -> bytes_ok (p_compress P m) = true) -> dget d (lit "alg") = Some a -> rsa_jwe_encrypt P R d None None msg key cek iv = Raise e ->
  encish e \/ (e = EKeyError /\ dget d (lit "enc") = None) \/ (e = EParameterError /\ exists z, dget d (lit "zip") = Some z /\ z <> VStr (lit "DEF")) \/
  (e = EHeaderError /\ exists v, dget d (lit "kid") = Some v /\ forall t, v <> VStr t) \/ exists s k r m, p_rsa_encrypt P s k r m = Raise e.
Proof.
  intros P R d a msg key cek iv e AES DR BI BM ZC A H. unfold rsa_jwe_encrypt in H. step H; [left; unfold msg_bytes in H; destruct msg; try discriminate H; step H; [left; rewrite (utf8_encode_exn _ _ H); reflexivity|discriminate H]|].
  step H. { destruct (dget d (lit "zip")) as [z|] eqn:ZD; [|discriminate H]. destruct (pval_eqb z _) eqn:ZE; [left; destruct x; try one H; discriminate H|]. right. right. left. split; [congruence|]. exists z. split; [reflexivity|].
    intros ->. vm_compute in ZE. discriminate ZE. }
  step H; [unfold dict_get in H; destruct (dget d (lit "enc")) eqn:N; [discriminate H|]; right; left; split; [congruence|reflexivity]|].
  apply bind_exn in H. destruct H as [H|((cek1 & iv1) & G & H)]; [left; exact (gen_exn _ _ _ _ _ H)|]. apply (gen_iv _ _ _ _ _ _ DR BI) in G.
  assert (BX : forall b, x0 = VBytes b -> bytes_ok b = true).
  { intros b ->. pose proof (msg_ok _ _ BM E) as MX. destruct (dget d (lit "zip")); [|apply Ok_inj in E0; exact (MX _ E0)]. destruct (pval_eqb p _); [|discriminate E0]. destruct x; try discriminate E0. apply Ok_inj in E0. injection E0 as <-. apply ZC. exact (MX _ eq_refl). }
  unfold dict_get in H. rewrite A in H. cbn [bind] in H. step H.
  { destruct (negb _); [discriminate H|]. destruct (rsa_scheme a); [|left; one H]. step H; [left; unfold as_rsa in H; destruct key as [[]|]; try discriminate H; one H|].
    step H; [|discriminate H]. right. right. right. right. unfold rsa_encrypt in H. destruct e0; eauto. }
  step H. { unfold headers in H. step H; [left; destruct (dmem d _); [one H|discriminate H]|]. destruct (dget d (lit "kid")) as [v|] eqn:KD; [|discriminate H].
    right. right. right. left. destruct v; try discriminate H; (split; [congruence|]); eexists; (split; [reflexivity|]); intros; discriminate. }
  left. step H; [exact (jwenc_exn _ _ _ H)|]. step H; [exact (item_enc _ _ H)|]. apply bind_exn in H. destruct H as [H|(((ct & tag) & k) & _ & H)]; [exact (enc_any_exn _ _ _ _ _ _ _ _ AES DR BX (header_ok _ _ _ _ E4 E5) G H)|].
  apply bind_exn in H. destruct H as [H|((t & j) & _ & H)]; [exact (pack_enc _ _ _ _ H)|discriminate H].
Qed.

Lemma n2b_exn : forall n e, 0 <= n -> num_to_base64 (VInt n) = Raise e -> e = ETypeError.
Proof.
  intros n e N H. cbn [num_to_base64 as_int] in H. step H; [|discriminate H]. unfold long_to_base64 in H.
  destruct (long2intarr_spec n N) as (a & A & _). rewrite A in H. cbn [bind] in H. destruct a; [congruence|discriminate H].
Qed.
Lemma b64d_arg_exn : forall v e, b64d_arg v = Raise e -> encish e \/ e = EBadSyntax.
Proof. intros v e H. destruct v; cbn [b64d_arg] in H; try (left; one H). destruct (b64d_exn _ _ H) as [->| ->]; [right; reflexivity|left; left; reflexivity]. Qed.

Definition ec_only : list exn := [EECCException; ESerializationNotPossible; EBadSyntax].
Lemma keylen_range : forall e n, dget KEYLEN e = Some n -> bytes_ok e = true /\ 0 <= n <= 512.
Proof.
  intros e n H. unfold KEYLEN in H. cbn [dget] in H. repeat match type of H with (if zs_eqb ?x ?y then _ else _) = _ => let Q := fresh in destruct (zs_eqb x y) eqn:Q; [apply zs_eqb_eq in Q; subst y; injection H as <-; split; [reflexivity|lia]|] end. discriminate H.
Qed.
Lemma ecdh_range : forall e p n, dget ECDH_KW e = Some (p, n) -> bytes_ok p = true /\ 0 <= n <= 512.
Proof.
  intros e p n H. unfold ECDH_KW in H. cbn [dget] in H. repeat match type of H with (if zs_eqb ?x ?y then _ else _) = _ => destruct (zs_eqb x y); [injection H as <- <-; split; [reflexivity|lia]|] end. discriminate H.
Qed.
Lemma ec_setup_enc_exn : forall P R w key e, hash_law P -> bytes_ok (r_apu R) = true -> bytes_ok (r_apv R) = true -> w_epk w = None -> ec_enc_setup P R w key = Raise e -> encish e \/ In e ec_only.
Proof.
  intros P R w key e HL RU RV WE H. unfold ec_enc_setup in H. rewrite WE in H.
  assert (BO : forall n r, bytes_ok r = true -> forall b, match dget (w_dict w) n with Some v => b64d_arg v | None => Ok r end = Ok b -> bytes_ok b = true).
  { intros n r BR b X. destruct (dget (w_dict w) n) as [v|]; [|congruence]. destruct v; cbn [b64d_arg] in X; try discriminate X. exact (b64d_bytes _ _ X). }
  step H. { destruct (dget (w_dict w) (lit "apu")); [|discriminate H]. destruct (b64d_arg_exn _ _ H) as [Y| ->]; [left; exact Y|right; cbn; auto]. }
  step H. { destruct (dget (w_dict w) (lit "apv")); [|discriminate H]. destruct (b64d_arg_exn _ _ H) as [Y| ->]; [left; exact Y|right; cbn; auto]. }
  apply (BO _ _ RU) in E. apply (BO _ _ RV) in E0.
  apply bind_exn in H. destruct H as [H|(((crv & kx) & ky) & _ & H)]; [left; destruct (k_data key); try discriminate H; one H|].
  step H; [right; left; symmetry; unfold curve_by_name in H; destruct crv; try congruence; exact (by_name_exn _ _ H)|].
  assert (BN : exists n, by_name n = Ok x1) by (unfold curve_by_name in E1; destruct crv; try discriminate E1; eauto). destruct BN as [nm BN].
  destruct (key_pair_nist nm x1 BN (r_eph R)) as (d & px & py & KP & _ & _ & PX & PY & _).
  step H. { destruct (dget (w_dict w) (lit "epk")); [right; injection H as <-; cbn; auto|]. rewrite new_pair, KP in H. discriminate H. }
  destruct (dget (w_dict w) (lit "epk")); [discriminate E2|]. rewrite new_pair, KP in E2. apply Ok_inj in E2. subst x2.
  step H. { left. unfold serialize in H. cbn [k_data fields truthy otruthy negb andb] in H. step H; [apply n2b_exn in H; [subst e; exact en_ty|lia]|]. step H; [apply n2b_exn in H; [subst e; exact en_ty|lia]|discriminate H]. }
  cbv zeta in H. left. step H; [destruct (dget (w_dict w) (lit "cek")) as [[]|]; try discriminate H; destruct (truthy _); try discriminate H; one H|].
  step H; [destruct (dget (sub_dict w SYM_ARGS) (lit "enc")); [discriminate H|one H]|].
  apply bind_exn in H. destruct H as [H|((cek1 & iv1) & _ & H)]; [exact (gen_exn _ _ _ _ _ H)|]. cbn [k_data fields bind] in H.
  step H; [destruct (dget (sub_dict w SYM_ARGS) (lit "alg")); [discriminate H|one H]|].
  destruct (pval_eqb x5 _).
  - destruct x4; try one H. destruct (dget KEYLEN s) as [n|] eqn:KN; [|one H]. destruct (keylen_range _ _ KN) as [K1 K2]. step H; [exact (derive_enc _ _ _ _ _ _ _ _ _ _ HL K1 K2 E E0 H)|discriminate H].
  - destruct x5; try one H. destruct (dget ECDH_KW s) as [[post n]|] eqn:KN; [|one H]. destruct (ecdh_range _ _ _ KN) as [K1 K2]. step H; [exact (derive_enc _ _ _ _ _ _ _ _ _ _ HL K1 K2 E E0 H)|].
    step H; [destruct (wrap_exn _ _ _ _ H) as [->| ->]; [exact en_va|exact en_st]|discriminate H].
Qed.

Lemma ec_encrypt_exn : forall P R d o msg cek ek iv params kid e, aes_law P -> draws_ok R -> bytes_ok iv = true -> (forall b, msg = VBytes b -> bytes_ok b = true) -> dmem params (lit "enc") = false -> ec_encrypt P R d o msg cek ek iv params kid = Raise e -> encish e \/ (e = EKeyError /\ dget d (lit "enc") = None).
Proof.
  intros P R d o msg cek ek iv params kid e AES DR BI BM PE H. unfold ec_encrypt in H. cbv zeta in H. step H; [left; unfold msg_bytes in H; destruct msg; try discriminate H; step H; [left; rewrite (utf8_encode_exn _ _ H); reflexivity|discriminate H]|].
  step H; [left; exact (jwenc_exn _ _ _ H)|]. step H; [left; exact (item_enc _ _ H)|].
  step H. { right. unfold dict_get in H. assert (X : dget (dupd (match kid with Some v => dset d (lit "kid") v | None => d end) params) (lit "enc") = dget d (lit "enc")).
    { rewrite Misc2Proofs.dupd_absent by (unfold dmem in PE; destruct (dget params (lit "enc")); [discriminate PE|reflexivity]). destruct kid; [apply dget_dset_other; vm_compute; discriminate|reflexivity]. }
    rewrite X in H. destruct (dget d (lit "enc")); [discriminate H|]. split; [congruence|reflexivity]. }
  left. apply bind_exn in H. destruct H as [H|(((ct & tag) & k) & _ & H)]; [exact (enc_any_exn _ _ _ _ _ _ _ _ AES DR (msg_ok _ _ BM E) (header_ok _ _ _ _ E0 E1) BI H)|].
  apply bind_exn in H. destruct H as [H|((t & j) & _ & H)]; [exact (pack_enc _ _ _ _ H)|discriminate H].
Qed.

Theorem encrypt_raises : forall P R w ks cek iv kid e, aes_law P -> hash_law P -> (forall m, bytes_ok m = true -> bytes_ok (p_compress P m) = true) -> draws_ok R -> bytes_ok iv = true ->
  (forall b, w_msg w = VBytes b -> bytes_ok b = true) -> w_jwk w = None -> w_epk w = None ->
  ks <> [] -> (forall k, In k ks -> enc_key_ok k) -> jwe_encrypt P R w (Some ks) cek iv kid = Raise e ->
  encish e \/
  (e = EKeyError /\ (dget (w_dict w) (lit "alg") = None \/ dget (w_dict w) (lit "enc") = None \/ exists a, dget (w_dict w) (lit "alg") = Some (VStr a) /\ dget ALG2KEYLEN a = None)) \/
  exists a, dget (w_dict w) (lit "alg") = Some (VStr a) /\
   ((In a rsa_names /\
     ((e = EParameterError /\ exists z, dget (w_dict w) (lit "zip") = Some z /\ z <> VStr (lit "DEF")) \/
      (e = EHeaderError /\ exists v, (forall t, v <> VStr t) /\ (dget (w_dict w) (lit "kid") = Some v \/ exists k, In k ks /\ k_kid k = v)) \/
      exists s k r m, p_rsa_encrypt P s k r m = Raise e)) \/
    (startswith a (lit "ECDH-ES") = true /\ In e ec_only)).
Proof.
  intros P R w ks cek iv kid e AES HL ZC DR BI BM WJ WE NE KO H. unfold jwe_encrypt in H. step H.
  { right. left. unfold dict_get in H. destruct (dget (w_dict w) (lit "alg")); [discriminate H|]. split; [congruence|left; reflexivity]. }
  rename x into alg. unfold dict_get in E. destruct (dget (w_dict w) (lit "alg")) as [alg'|] eqn:A; [|discriminate E]. apply Ok_inj in E. subst alg'.
  assert (JK : jws_keys P (as_jws w) (Some ks) = Ok (map Some ks)) by (destruct ks; [contradiction NE; reflexivity|reflexivity]). rewrite JK in H. cbn [bind] in H.
  step H; [left; exact (pick_enc (as_jws w) _ _ _ alg _ A H)|]. destruct x as [|key r]; [left; one H|]. pose proof (KO _ (picked_given _ _ _ _ _ _ E)) as KK. pose proof (picked_given _ _ _ _ _ _ E) as KI.
  step H. { left. unfold family_of in H. destruct (in_texts alg _); [discriminate H|]. destruct alg; try one H. destruct (_ && _); [discriminate H|]. destruct (startswith _ _); [discriminate H|one H]. }
  cbv zeta in H. rewrite WJ in H.
  assert (TX : exists a, alg = VStr a).
  { unfold family_of in E0. destruct (in_texts alg _) eqn:T.
    - unfold in_texts in T. cbn [existsb] in T. destruct alg; try discriminate T; eauto.
    - destruct alg; try discriminate E0. eauto. }
  destruct TX as [a ->].
  assert (MK : forall e, key_material P key (VStr a) true = Raise e -> encish e \/ (e = EKeyError /\ dget ALG2KEYLEN a = None)) by (intros e0 X; destruct (material_exn _ _ _ _ KK X) as [Y|[Y W]]; [left; exact Y|right; split; [exact Y|exact (W a eq_refl)]]).
  assert (EG : forall args, existsb (zs_eqb (lit "enc")) args = true -> dget (if truthy (k_kid key) then dset (sub_dict w args) (lit "kid") (k_kid key) else sub_dict w args) (lit "enc") = dget (w_dict w) (lit "enc")).
  { intros args I. rewrite named_get by (vm_compute; discriminate). apply sub_dict_get; [|vm_compute; discriminate|exact I]. repeat split; vm_compute; discriminate. }
  destruct x.
  - step H; [destruct (MK _ H) as [Y|[-> G]]; [left; exact Y|right; left; split; [reflexivity|right; right; eauto]]|].
    apply bind_exn in H. destruct H as [H|((t & c) & _ & H)]; [|discriminate H].
    assert (AG : dget (if truthy (k_kid key) then dset (sub_dict w JWE_ARGS) (lit "kid") (k_kid key) else sub_dict w JWE_ARGS) (lit "alg") = Some (VStr a)) by (rewrite named_get by (vm_compute; discriminate); apply sub_dict_alg; [exact A|reflexivity]).
    rewrite WE in H. destruct (rsa_enc_exn _ _ _ _ _ _ _ _ _ AES DR BI BM ZC AG H) as [Y|[[-> Y]|[[-> (z & Y & Y')]|[[-> (v & Y & Y')]|Y]]]].
    + left. exact Y.
    + right. left. split; [reflexivity|]. right. left. rewrite EG in Y by reflexivity. exact Y.
    + right. right. exists a. split; [reflexivity|]. left. split.
      { unfold family_of in E0. destruct (in_texts (VStr a) _) eqn:T; [|destruct (_ && _); [discriminate E0|destruct (startswith _ _); discriminate E0]]. unfold in_texts in T. cbn [existsb pval_eqb] in T. rewrite !orb_true_iff, !zs_eqb_eq in T. cbn [In rsa_names]. intuition congruence. }
      left. split; [reflexivity|]. exists z. split; [|exact Y']. rewrite named_get in Y by (vm_compute; discriminate). rewrite sub_dict_get in Y; [exact Y| |vm_compute; discriminate|reflexivity]. repeat split; vm_compute; discriminate.
    + right. right. exists a. split; [reflexivity|]. left. split.
      { unfold family_of in E0. destruct (in_texts (VStr a) _) eqn:T; [|destruct (_ && _); [discriminate E0|destruct (startswith _ _); discriminate E0]]. unfold in_texts in T. cbn [existsb pval_eqb] in T. rewrite !orb_true_iff, !zs_eqb_eq in T. cbn [In rsa_names]. intuition congruence. }
      right. left. split; [reflexivity|]. exists v. split; [exact Y'|]. destruct (truthy (k_kid key)) eqn:TK.
      * rewrite dget_dset_same in Y. right. exists key. split; [exact KI|congruence].
      * left. rewrite sub_dict_get in Y; [exact Y| |vm_compute; discriminate|reflexivity]. repeat split; vm_compute; discriminate.
    + right. right. exists a. split; [reflexivity|]. left. split.
      { unfold family_of in E0. destruct (in_texts (VStr a) _) eqn:T; [|destruct (_ && _); [discriminate E0|destruct (startswith _ _); discriminate E0]]. unfold in_texts in T. cbn [existsb pval_eqb] in T. rewrite !orb_true_iff, !zs_eqb_eq in T. cbn [In rsa_names]. intuition congruence. }
      right. right. exact Y.
  - step H; [destruct (MK _ H) as [Y|[-> G]]; [left; exact Y|right; left; split; [reflexivity|right; right; eauto]]|]. step H; [|discriminate H].
    destruct (sym_enc_exn _ _ _ _ _ _ _ _ _ _ AES DR BI H) as [Y|[-> Y]]; [left; exact Y|]. right. left. split; [reflexivity|]. right. left. rewrite EG in Y by reflexivity. exact Y.
  - apply bind_exn in H. destruct H as [H|((((cek1 & ek) & iv1) & params) & ES & H)].
    { destruct (ec_setup_enc_exn _ _ _ _ _ HL (proj2 (do_apu _ DR)) (proj2 (do_apv _ DR)) WE H) as [Y|Y]; [left; exact Y|]. right. right. exists a. split; [reflexivity|]. right. split; [|exact Y].
      unfold family_of in E0. destruct (in_texts _ _); [discriminate E0|]. destruct (_ && _); [discriminate E0|]. destruct (startswith a (lit "ECDH-ES")); [reflexivity|discriminate E0]. }
    step H; [destruct (MK _ H) as [Y|[-> G]]; [left; exact Y|right; left; split; [reflexivity|right; right; eauto]]|]. step H; [|discriminate H].
    assert (PE : dmem params (lit "enc") = false /\ bytes_ok iv1 = true).
    { clear - ES DR. unfold ec_enc_setup in ES. cbv zeta in ES.
      repeat match type of ES with
      | bind (generate_key_and_iv R ?en ?ce []) _ = Ok _ => let G := fresh "G" in destruct (generate_key_and_iv R en ce []) as [[? ?]|] eqn:G; cbn [bind] in ES; [|discriminate ES]
      | bind ?m _ = Ok _ => destruct m; cbn [bind] in ES; [|discriminate ES]
      | (let '(_, _) := ?m in _) = _ => destruct m
      | (if ?b then _ else _) = _ => destruct b
      | match ?m with _ => _ end = _ => destruct m; try discriminate ES
      end; injection ES as _ _ <- <-; (split; [reflexivity|]); match goal with G : generate_key_and_iv _ _ _ _ = Ok _ |- _ => exact (gen_iv R _ _ [] _ _ DR eq_refl G) end. }
    destruct PE as [PE IO].
    destruct (ec_encrypt_exn _ _ _ _ _ _ _ _ _ _ _ AES DR IO BM PE H) as [Y|[-> Y]]; [left; exact Y|]. right. left. split; [reflexivity|]. right. left. rewrite EG in Y by reflexivity. exact Y.
Qed.
