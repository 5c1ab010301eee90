(** * Properties C263 and later *)
From Coq Require Import ZArith List Bool Lia.
From Verif Require Import Base BaseProofs Utf8 Codec CodecProofs Json Jwt JwtProofs Prims Elliptic Ecc EccProofs EcAux KeyWrap KeyWrapProofs Extra ExtraProofs Gcm GcmSpec Rsa RsaProofs Certs Jwk JwkProofs JwkEx Jws JwsProofs Inst Nist Jwe JweProofs JweProofs2 JweProofs3 JweProofs4 JweProofs5 JweProofs6 JweProofs7 JweProofs8 JweProofs9 JweProofs10 JweProofs11 JweEx JweMsg B64Num SigShape.
Import ListNotations.
Open Scope Z_scope.

(** ** C263: what JWE.encrypt makes of a message that is neither text nor bytes *)
Definition gcm_three : list ustr := [lit "A128GCM"; lit "A192GCM"; lit "A256GCM"].
Theorem C263_messages : forall P R w keys cek iv kw tok w', jwe_encrypt P R w keys cek iv kw = Ok (tok, w') ->
  (exists t, w_msg w = VStr t) \/ (exists b, w_msg w = VBytes b) \/
  ((w_msg w = VList [] \/ w_msg w = VDict []) /\ exists e, dget (w_dict w) (lit "enc") = Some (VStr e) /\ In e gcm_three).
Proof. intros P R w keys cek iv kw tok w' H. destruct (encrypted_messages P R w keys cek iv kw tok w' H) as [T|[B|[N (e & E & I)]]]; [tauto|tauto|]. right. right. split; [exact N|]. exists e. split; [exact E|]. unfold GCM_ENCS in I. unfold gcm_three. cbn [In] in *. tauto. Qed.
Print Assumptions C263_messages.
Theorem C263_as_nothing : forall P R w v j e d m keys cek iv kw a enc, m = VList [] \/ m = VDict [] ->
  In a [lit "RSA-OAEP"; lit "RSA-OAEP-256"; lit "RSA1_5"; lit "ECDH-ES"; lit "ECDH-ES+A128KW"; lit "ECDH-ES+A192KW"; lit "ECDH-ES+A256KW"] ->
  dget d (lit "alg") = Some (VStr a) -> dget d (lit "enc") = Some (VStr enc) -> In enc gcm_three -> dget d (lit "zip") = None ->
  w = {| w_msg := m; w_dict := d; w_jwk := j; w_epk := e; w_jwt := None |} -> v = {| w_msg := VBytes []; w_dict := d; w_jwk := j; w_epk := e; w_jwt := None |} ->
  (forall tok, (exists w', jwe_encrypt P R w keys cek iv kw = Ok (tok, w')) <-> (exists v', jwe_encrypt P R v keys cek iv kw = Ok (tok, v'))) /\
  (forall x, jwe_encrypt P R w keys cek iv kw = Raise x <-> jwe_encrypt P R v keys cek iv kw = Raise x).
Proof.
  intros P R w v j e d m keys cek iv kw a enc M IA AL EN IE Z -> ->.
  pose proof (empty_as_nothing P R {| w_msg := m; w_dict := d; w_jwk := j; w_epk := e; w_jwt := None |} m keys cek iv kw a enc ltac:(destruct M as [-> | ->]; reflexivity) IA AL EN IE Z) as H.
  unfold with_msg in H at 1 2. cbn [w_dict w_jwk w_epk w_jwt] in H. rewrite H.
  destruct (jwe_encrypt P R {| w_msg := VBytes []; w_dict := d; w_jwk := j; w_epk := e; w_jwt := None |} keys cek iv kw) as [[t v']|y]; cbn [bind].
  - split; [intro tok; split; intros [z X]; apply Ok_inj in X; apply pair_equal_spec in X; destruct X as [-> _]; eexists; reflexivity|]. intro x. split; discriminate.
  - split; [intro tok; split; intros [z X]; discriminate X|]. intro x. reflexivity.
Qed.
Print Assumptions C263_as_nothing.

Definition void_jwe (m : pval) : jwe := ex_jwe (lit "RSA-OAEP") (lit "A128GCM") m.
Lemma void_made : exists tok c, jwe_encrypt std ex_draws (void_jwe (VBytes [])) (Some [enc_rsa]) [] [] None = Ok (tok, w_set (void_jwe (VBytes [])) (lit "cek") (VBytes c)).
Proof.
  apply (rsa_encrypts std ex_draws std_aes_law std_hmac_law ex_draws_ok std_zip_law (void_jwe (VBytes [])) (lit "RSA-OAEP") (lit "A128GCM") 16%nat 12%nat [] [] [enc_rsa] enc_rsa VNone [] [] None enc_rsakey []); try reflexivity.
  - left. reflexivity.
  - left. split; reflexivity.
  - apply Z.leb_le. vm_compute. reflexivity.
  - apply ex_json; reflexivity.
  - split; cbn; intros; try discriminate; eexists; reflexivity.
  - intros he H. vm_compute in H. apply Ok_inj in H. subst he. reflexivity.
  - apply only_fit. apply rsa_suitable.
  - intros s c _ L B. apply std_rsa_total; [lia|exact B].
  - left. reflexivity.
  - left. reflexivity.
Qed.
(** A dictionary is encrypted, and comes back as the empty text. *)
Theorem C263_dictionary_refuted : exists w tok w' c, w_msg w = VDict [] /\ jwe_encrypt std ex_draws w (Some [enc_rsa]) [] [] None = Ok (tok, w') /\
  forall sent, jwe_decrypt std sent new_jwe (VStr tok) (Some [enc_rsa]) VNone [] = Ok ([], w_set new_jwe (lit "cek") (VBytes c)).
Proof.
  destruct void_made as (tok & c & M).
  pose proof (empty_as_nothing std ex_draws (void_jwe VNone) (VDict []) (Some [enc_rsa]) [] [] None (lit "RSA-OAEP") (lit "A128GCM") eq_refl ltac:(left; reflexivity) eq_refl eq_refl ltac:(left; reflexivity) eq_refl) as H.
  change (with_msg (void_jwe VNone) (VBytes [])) with (void_jwe (VBytes [])) in H. rewrite M in H. cbn [bind] in H. change (with_msg (void_jwe VNone) (VDict [])) with (void_jwe (VDict [])) in H.
  exists (void_jwe (VDict [])), tok, (w_set (void_jwe (VDict [])) (lit "cek") (VBytes c)), c. split; [reflexivity|]. split; [exact H|].
  destruct (jwe_rsa_roundtrip std ex_draws std_aes_law std_hmac_law ex_draws_ok std_zip_law (void_jwe (VDict [])) (lit "RSA-OAEP") [enc_rsa] enc_rsa VNone [] [] None tok _ (or_introl eq_refl) eq_refl (ex_json (lit "RSA-OAEP") (lit "A128GCM") _ _ eq_refl eq_refl) eq_refl
    ltac:(intros kj s E; discriminate E) eq_refl (only_fit _ _ _ (rsa_suitable _)) enc_rsakey [] enc_rsakey eq_refl (or_introl eq_refl) (std_rsa_enc_law enc_rsakey enc_rsa_wf) eq_refl eq_refl
    ltac:(intros b E; discriminate E) H) as (p & c' & MO & W & _ & X).
  apply Ok_inj in MO. subst p. assert (c' = c).
  { apply (f_equal (fun w => dget (w_dict w) (lit "cek"))) in W. change (with_msg (w_set (void_jwe (VBytes [])) (lit "cek") (VBytes c)) (VDict [])) with (w_set (void_jwe (VDict [])) (lit "cek") (VBytes c)) in W. unfold w_set in W. cbn [w_dict] in W. rewrite !dget_dset_same in W. congruence. }
  subst c'. intro sent. apply (X sent new_jwe [enc_rsa] enc_rsa VNone VNone (VStr tok) eq_refl (only_fit _ _ _ (rsa_suitable _)) (or_introl eq_refl) (or_introl eq_refl)) with (nums' := []); [reflexivity|reflexivity|]. intro Y. discriminate Y.
Qed.
Print Assumptions C263_dictionary_refuted.
(** With CBC the same message is refused. *)
Example C263_ex : jwe_encrypt std ex_draws (ex_jwe (lit "RSA-OAEP") (lit "A128CBC-HS256") (VDict [])) (Some [enc_rsa]) (repeat 7 32) [] None = Raise ETypeError /\
  jwe_encrypt std ex_draws (void_jwe (VList [VInt 1])) (Some [enc_rsa]) (repeat 7 16) [] None = Raise ETypeError /\
  jwe_encrypt std ex_draws (zip_jwe (lit "RSA-OAEP") (lit "A128GCM") (VDict [])) (Some [enc_rsa]) (repeat 7 16) [] None = Raise ETypeError.
Proof. vm_compute. repeat split. Qed.

(** ** C264: the number base64_to_long and base64url_to_long read *)
Theorem C264_url : forall s z, base64url_to_long_b s = Ok z <->
  (~ In 43 s /\ ~ In 47 s /\ ~ In 61 s) /\ let n := Z.of_nat (length (digits64 s)) in n <> 0 /\ n mod 4 <> 1 /\ z = number64 (digits64 s) / 2 ^ (6 * n mod 8).
Proof. exact url_to_long. Qed.
Print Assumptions C264_url.
Theorem C264_plain : forall s, ~ In 61 s -> let n := Z.of_nat (length (digits64 s)) in
  base64_to_long_b s = if n =? 0 then Raise EValueError else if n mod 4 =? 1 then Raise EBinasciiError else Ok (number64 (digits64 s) / 2 ^ (6 * n mod 8)).
Proof. exact to_long. Qed.
Print Assumptions C264_plain.
Theorem C264_padding : forall s rest, ~ In 61 s ->
  (Z.of_nat (length (digits64 s)) mod 4 = 2 -> base64_to_long_b (s ++ [61; 61] ++ rest) = base64_to_long_b s) /\
  (Z.of_nat (length (digits64 s)) mod 4 = 3 -> base64_to_long_b (s ++ [61] ++ rest) = base64_to_long_b s) /\
  (Z.of_nat (length (digits64 s)) mod 4 < 2 -> base64_to_long_b (s ++ [61] ++ rest) = base64_to_long_b (s ++ rest)).
Proof. exact padded. Qed.
Print Assumptions C264_padding.
Example C264_ex : base64url_to_long_b (lit "A Q.A!B") = Ok 65537 /\ digits64 (lit "A Q.A!B") = [0; 16; 0; 1] /\ number64 [0; 16; 0; 1] = 65537 /\
  base64url_to_long_b (lit "AR") = Ok 1 /\ number64 (digits64 (lit "AR")) / 2 ^ (12 mod 8) = 1 /\ base64url_to_long_b (lit "AQABA") = Raise EBinasciiError /\ base64url_to_long_b (lit "A+AB") = Raise EValueError /\
  base64_to_long_b (lit "A+/=rest") = base64_to_long_b (lit "A-_") /\ base64_to_long_b (lit "=AQAB") = Ok 65537 /\ base64_to_long_b (lit " ") = Raise EValueError.
Proof. vm_compute. repeat split. Qed.

(** ** C265: the octet strings accepted as ECDSA signatures *)
Theorem C265_accepted : forall name c, by_name name = Ok c -> forall h sg pub, bytes_ok sg = true ->
  (verify c h sg pub = Ok true <->
   exists sr ss k, Z.of_nat (length sr) = c_bytes c /\ Z.of_nat (length ss) = c_bytes c /\ verify c h (sr ++ ss) pub = Ok true /\
     (sg = sr ++ repeat 0 k ++ ss \/ exists t, ss = repeat 0 k ++ t /\ sg = sr ++ t)).
Proof.
  intros name c H h sg pub B. pose proof (by_name_sound name c H) as SC. split; [exact (accepted_shape c SC h sg pub B)|].
  intros (sr & ss & k & LR & LS & V & [E|(t & E1 & E2)]).
  - rewrite E, (verify_longer_nist name c H h sr ss pub k LR). exact V.
  - rewrite E2, <- (verify_longer_nist name c H h sr t pub k LR), <- E1. exact V.
Qed.
Print Assumptions C265_accepted.
Theorem C265_numbers : forall name c, by_name name = Ok c -> forall h sr ss sr' ss' pub, Z.of_nat (length sr) = c_bytes c -> Z.of_nat (length sr') = c_bytes c ->
  be2z sr = be2z sr' -> be2z ss = be2z ss' -> verify c h (sr ++ ss) pub = verify c h (sr' ++ ss') pub.
Proof. intros name c H. exact (same_numbers c (by_name_sound name c H)). Qed.
Print Assumptions C265_numbers.
(** A signature whose s is 6: one octet is enough for it. *)
Definition small_s : Z := (6 - fst (c_G P256)) mod c_N P256.
Example C265_ex : exists sg, sign P256 2 small_s 1 (Some 1) (fun _ => 0) = Ok sg /\ length sg = 64%nat /\ be2z (skipn 32 sg) = 6 /\ skipn 32 sg = repeat 0 31 ++ [6] /\
  verify P256 small_s sg (public_key_for P256 1) = Ok true /\ verify P256 small_s (firstn 32 sg ++ [6]) (public_key_for P256 1) = Ok true.
Proof.
  destruct (sign P256 2 small_s 1 (Some 1) (fun _ => 0)) as [sg|e] eqn:SG; [|vm_compute in SG; discriminate SG].
  assert (EQ : sg = int2bytes P256 (fst (c_G P256)) ++ repeat 0 31 ++ [6]) by (vm_compute in SG; injection SG as <-; vm_compute; reflexivity).
  assert (V : verify P256 small_s sg (public_key_for P256 1) = Ok true).
  { apply (sign_verify P256 P256_sound) with (fuel := 2%nat) (k := Some 1) (rnds := fun _ => 0); [vm_compute; discriminate|lia| |exact SG]. intros k' E. injection E as <-. lia. }
  exists sg. split; [reflexivity|]. split; [rewrite EQ; vm_compute; reflexivity|]. split; [rewrite EQ; vm_compute; reflexivity|]. split; [rewrite EQ; vm_compute; reflexivity|]. split; [exact V|].
  assert (F : firstn 32 sg = int2bytes P256 (fst (c_G P256))) by (rewrite EQ; vm_compute; reflexivity).
  rewrite F, <- (verify_longer P256 P256_sound) with (k := 31%nat) by (vm_compute; reflexivity). rewrite <- EQ. exact V.
Qed.
