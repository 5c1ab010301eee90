(** * Properties C234-C242: functions nothing else calls, and the header dictionary of the caller *)
From Coq Require Import ZArith Znumtheory List Bool Lia.
From Verif Require Import Base BaseProofs Utf8 Codec CodecProofs Prims Inst Elliptic Ecc EccProofs EcAux Nist Extra ExtraProofs Pbkdf2 Pbkdf2Proofs Pbkdf2Proofs2 Json Jwt PvalEq Jwk JwkEx Misc MiscProofs Jws JwsEx Jwe JweProofs6 JweProofs9 JweProofs13 SmallProofs Caller.
Import ListNotations.
Open Scope Z_scope.

(** C234: after any reads hexread returns the next octets in hexadecimal with one iteration; with more, the octets are a text
    (C89), and b2a_hex of a text that is not ASCII raises.  [hex_text] is written with the sixteen letters. *)
Theorem C234_hexread_partial : forall P, hmac_law P -> forall v pw salt iters s ns n, pb_new v pw salt iters = Ok s -> Forall (fun n => 0 <= n) ns -> 0 <= n -> fold_right Z.add 0 ns + n <= 20 * 0xffffffff ->
  hexread P (state_after P (Some s) ns) n = (state_after P (Some s) (ns ++ [n]),
    let o := map (stream P (b_pw s) (b_salt s) (Z.to_nat (b_iter s))) (seq (Z.to_nat (fold_right Z.add 0 ns)) (Z.to_nat n)) in
    if (b_iter s =? 1) || ascii o then Ok (hex_text o) else Raise EUnicodeEncodeError).
Proof. exact hexread_value. Qed.
Print Assumptions C234_hexread_partial.
(** "Note that len(obj.hexread(n)) == 2*n" is false; the octets are lost for the next read as well. *)
Definition C234_two : pbkdf2 := {| b_pw := lit "password"; b_salt := lit "salt"; b_iter := 2; b_num := 0; b_buf := VBytes [] |}.
Theorem C234_hexread_refuted : exists o, pb_new Py2 (VBytes (lit "password")) (VBytes (lit "salt")) (VInt 2) = Ok C234_two /\
  hexread std (Some C234_two) 4 = (o, Raise EUnicodeEncodeError) /\ snd (hexread std o 1) = Raise EUnicodeEncodeError /\ (v <- snd (read std o 4);; Ok (chars v)) = Ok [199; 45; 111; 140].
Proof. exists (fst (hexread std (Some C234_two) 4)). split; [reflexivity|]. vm_compute. repeat split; reflexivity. Qed.
Print Assumptions C234_hexread_refuted.
Definition C234_one : pbkdf2 := {| b_pw := lit "password"; b_salt := lit "salt"; b_iter := 1; b_num := 0; b_buf := VBytes [] |}.
Example C234_ex : hmac_law std /\ pb_new Py2 (VBytes (lit "password")) (VBytes (lit "salt")) (VInt 1) = Ok C234_one /\
  snd (hexread std (state_after std (Some C234_one) [2; 1]) 20) = Ok (lit "0f961f0e71f3a9b524af6012062fe037a6e0f0eb").
Proof. split; [exact std_hmac_law|]. vm_compute. split; reflexivity. Qed.

(** C235: of the two points with one first coordinate exactly one has the given bit. *)
Theorem C235_injective : forall name c, by_name name = Ok c -> forall x y x' y', 0 <= y < c_p c -> 0 <= y' < c_p c ->
  element (Some (x, y)) (c_a c) (c_b c) (c_p c) = true -> element (Some (x', y')) (c_a c) (c_b c) (c_p c) = true ->
  compress (Some (x, y)) = compress (Some (x', y')) -> x = x' /\ y = y'.
Proof. exact compress_inj. Qed.
Print Assumptions C235_injective.
Theorem C235_opposite : forall name c, by_name name = Ok c -> forall x y, 0 < y < c_p c ->
  exists b, compress (Some (x, y)) = Ok (x, b) /\ compress (nega (Some (x, y)) (c_p c)) = Ok (x, 1 - b) /\ (b = 0 \/ b = 1).
Proof. exact compress_neg. Qed.
Print Assumptions C235_opposite.
Example C235_ex : by_name (lit "P-256") = Ok P256 /\ element (Some (c_G P256)) (c_a P256) (c_b P256) (c_p P256) = true /\ element (nega (Some (c_G P256)) (c_p P256)) (c_a P256) (c_b P256) (c_p P256) = true /\
  compress (Some (c_G P256)) = Ok (fst (c_G P256), 1) /\ compress (nega (Some (c_G P256)) (c_p P256)) = Ok (fst (c_G P256), 0).
Proof. vm_compute. repeat split; reflexivity. Qed.

(** C236 *)
Theorem C236_curve_through : forall x y p n, 0 < n -> element (Some (x, y)) p (curve_q x y p n) n = true /\ 0 <= curve_q x y p n < n /\
  forall q, 0 <= q < n -> element (Some (x, y)) p q n = true -> q = curve_q x y p n.
Proof. exact curve_q_through. Qed.
Print Assumptions C236_curve_through.
Example C236_ex : curve_q 2 1 3 11 = 1 /\ curve_q (fst (c_G P256)) (snd (c_G P256)) (c_a P256) (c_p P256) = c_b P256 mod c_p P256.
Proof. vm_compute. split; reflexivity. Qed.

(** C237: [hashed] and [party_info] (JweProofs13) spell out the two blocks of the hash and the octets hashed. *)
Theorem C237_formula : forall P, hash_law P -> forall c d x y apu apv alg n K, ecdh_derive_key P c d (x, y) apu apv alg n = Ok K ->
  bytes_ok apu = true -> bytes_ok apv = true -> bytes_ok alg = true -> 0 <= n <= 512 -> n mod 8 = 0 ->
  exists z, dh_z c d (Some (x, y)) = Ok z /\ K = hashed P z (party_info alg apu apv n) n.
Proof.
  intros P HL c d x y apu apv alg n K H BU BV BA N1 N2. rewrite <- derive_key_is in H.
  destruct (derive_formula P HL _ _ _ _ _ _ _ _ _ H BU BV BA N1 N2) as (d' & x' & y' & z & E1 & E2 & E3 & E4 & E5). cbn [as_int] in E1, E2, E3. injection E1 as <-. injection E2 as <-. injection E3 as <-. exists z. split; assumption.
Qed.
Print Assumptions C237_formula.
Theorem C237_both : forall P, hash_law P -> forall name c, by_name name = Ok c -> forall a b ax ay bx by' apu apv alg n, 0 < a < c_N c -> 0 < b < c_N c ->
  public_key_for c a = Some (ax, ay) -> public_key_for c b = Some (bx, by') ->
  bytes_ok apu = true -> bytes_ok apv = true -> bytes_ok alg = true -> Z.of_nat (length apu) < 2 ^ 32 -> Z.of_nat (length apv) < 2 ^ 32 -> 0 < n <= 512 ->
  exists K, ecdh_derive_key P c a (bx, by') apu apv alg n = Ok K /\ ecdh_derive_key P c b (ax, ay) apu apv alg n = Ok K /\ length K = Z.to_nat ((n + 7) / 8) /\ bytes_ok K = true.
Proof.
  intros P HL name c BN a b ax ay bx by' apu apv alg n HA HB PA PB BU BV BA LU LV HN. destruct (derive_ok P HL name c BN a b bx by' apu apv alg n HA HB PB BU BV BA LU LV HN) as (K & D & B & L).
  exists K. rewrite derive_key_is in D. split; [exact D|]. rewrite <- derive_key_is in D. split; [|split; [exact L|exact B]]. rewrite <- derive_key_is.
  apply (derive_both P HL name c BN a b ax ay bx by' apu apv alg n K); try assumption. lia.
Qed.
Print Assumptions C237_both.
Example C237_ex : hash_law std /\ by_name (lit "P-256") = Ok P256 /\ public_key_for P256 1 = Some (c_G P256) /\
  ecdh_derive_key std P256 1 (c_G P256) (lit "Alice") (lit "Bob") (lit "A128GCM") 128 =
    Ok (hashed std (z2be 32 (fst (c_G P256))) (lit "A128GCM" ++ [0; 0; 0; 5] ++ lit "Alice" ++ [0; 0; 0; 3] ++ lit "Bob" ++ [0; 0; 0; 128]) 128).
Proof. split; [exact std_hash_law|]. vm_compute. repeat split; reflexivity. Qed.

(** C238 *)
Theorem C238_intarr2bin : forall b, bytes_ok b = true -> intarr2bin b = Ok b.
Proof. exact intarr2bin_id. Qed.
Print Assumptions C238_intarr2bin.
Example C238_ex : bytes_ok [0; 10; 255; 175] = true /\ intarr2bin [0; 10; 255; 175] = Ok [0; 10; 255; 175].
Proof. vm_compute. split; reflexivity. Qed.

(** C239: no text is decoded, not even one base64_to_long decodes; the same characters as octets are. *)
Theorem C239_text_refuted : exists t n, base64_to_long_s t = Ok n /\ base64url_to_long_b t = Ok n /\ base64url_to_long_s t = Raise ETypeError.
Proof. exists (lit "AQAB"), 65537. vm_compute. repeat split; reflexivity. Qed.
Print Assumptions C239_text_refuted.

(** C240: RSAKey().load(filename) is RSAKey(key=k) for the key in the file, and a failure leaves the object as it was. *)
Theorem C240_load_new : forall P read imp name t r, read name = Ok t -> imp t = Ok r ->
  exists k k', rsa_new P [] onone = Ok k /\ rsa_load_file read imp k name = (k', None) /\ rsa_new P [] (ORsa r) = Ok k' /\ x509_rsa_load imp t = Ok [(lit "rsa", r)].
Proof.
  intros P read imp name t r R I. eexists _, _. split; [reflexivity|]. unfold rsa_load_file, rsa_load, x509_rsa_load. rewrite R. cbn [bind]. rewrite I. split; [reflexivity|]. split; reflexivity.
Qed.
Print Assumptions C240_load_new.
Theorem C240_load_fails : forall read imp k name, (forall t, read name = Ok t -> exists e, imp t = Raise e) -> exists e, rsa_load_file read imp k name = (k, Some e).
Proof.
  intros read imp k name H. unfold rsa_load_file, rsa_load. destruct (read name) as [t|e]; [|exists e; reflexivity]. cbn [bind]. destruct (H t eq_refl) as (e & ->). exists e. reflexivity.
Qed.
Print Assumptions C240_load_fails.
Example C240_ex : exists k k', rsa_new std [] onone = Ok k /\ rsa_load_file (fun n => if zs_eqb n (lit "key.pem") then Ok (lit "PEM") else Raise EException) (fun t => if zs_eqb t (lit "PEM") then Ok ex_rsakey else Raise EValueError) k (lit "key.pem") = (k', None) /\
  serialize k' true = Ok (VDict [(lit "kty", VStr (lit "RSA")); (lit "n", VStr (lit "DKE")); (lit "e", VStr (lit "EQ")); (lit "d", VStr (lit "CsE")); (lit "p", VStr (lit "PQ")); (lit "q", VStr (lit "NQ"))]).
Proof. do 2 eexists. split; [cbv; reflexivity|]. split; [cbv; reflexivity|]. vm_compute. reflexivity. Qed.

(** C241: signing assigns alg, kid and typ to the caller's dictionary and nothing else ... *)
Theorem C241_frame_partial : forall P s keys p n, ~ In n [lit "alg"; lit "kid"; lit "typ"] ->
  dget (sign_compact_left P s keys p) n = dget p n /\ dget (create_signature_left P s keys p) n = dget p n.
Proof. intros P s keys p n N. split; [apply sign_left_other|apply create_left_other]; exact N. Qed.
Print Assumptions C241_frame_partial.
(** ... so that a key without kid signs with the kid of the key used before, and its own token is refused ... *)
Definition C241_head : dict := [(lit "cty", VStr (lit "text"))].
Definition C241_named : jwk := with_kid (raw_sym (lit "other")) (VStr (lit "k1")).
Definition C241_accepted (p : dict) : res pval :=
  t <- snd (sign_compact std ex_E ex_jws (Some [ex_key]) p);; r <- snd (verify_compact std new_jws (VStr t) (Some [ex_key]) false VNone);; Ok (fst r).
Theorem C241_kid_refuted : (exists t, snd (sign_compact std ex_E ex_jws (Some [C241_named]) C241_head) = Ok t) /\
  let p := sign_compact_left std ex_jws (Some [C241_named]) C241_head in
  p = C241_head ++ [(lit "alg", VStr (lit "HS256")); (lit "kid", VStr (lit "k1"))] /\
  C241_accepted C241_head = Ok (VStr (lit "hello")) /\ C241_accepted p = Raise ENoSuitableSigningKeys.
Proof.
  split.
  - set (r := snd (sign_compact std ex_E ex_jws (Some [C241_named]) C241_head)). vm_compute in r. match eval unfold r in r with Ok ?t => exists t end. subst r. vm_compute. reflexivity.
  - vm_compute. repeat split; reflexivity.
Qed.
Print Assumptions C241_kid_refuted.
(** ... and sign_json signs with the algorithm of the instance used before. *)
Definition C241_512 : jws := {| s_msg := VStr (lit "hello"); s_dict := [(lit "alg", VStr (lit "HS512"))]; s_jwk := None; s_jwt := None; s_key := None |}.
Definition C241_json (p : dict) : res pval :=
  t <- sign_json std (fun _ => ex_E) C241_512 (Some [ex_key]) (Some [(p, [])]) true;; r <- verify_json std new_jws (VStr t) (Some [ex_key]) false (VStr (lit "HS512"));; Ok (fst r).
Theorem C241_alg_refuted : let p := create_signature_left std ex_jws (Some [ex_key]) C241_head in
  p = C241_head ++ [(lit "alg", VStr (lit "HS256"))] /\ C241_json C241_head = Ok (VStr (lit "hello")) /\ C241_json p = Raise ESignerAlgError.
Proof. vm_compute. repeat split; reflexivity. Qed.
Print Assumptions C241_alg_refuted.

(** C242: within one call it does no harm, whatever entries share a dictionary; [store] are the objects, an entry names one of
    them.  (Kids equal to themselves: a float may be NaN.) *)
Theorem C242_shared : forall P s keys, keys <> [] -> (forall k, In k keys -> plain (k_kid k) = true) -> forall hds Es (store : list dict),
  snd (create_signatures_on P Es 0 s (Some keys) store hds) = create_signatures P Es 0 s (Some keys) (map (fun h => (nth (fst h) store [], snd h)) hds).
Proof.
  intros P s keys NE PK hds Es store. apply shared_harmless; [|intro r; left; reflexivity]. intros i ks k J I. destruct keys as [|k0 r]; [congruence|]. cbn [jws_keys] in J. apply Ok_inj in J. subst ks.
  apply in_map_iff in I. destruct I as (x & X & I). injection X as ->. apply PK. exact I.
Qed.
Print Assumptions C242_shared.
Theorem C242_distinct : forall P s keys hds Es (store : list dict), NoDup (map fst hds) ->
  snd (create_signatures_on P Es 0 s keys store hds) = create_signatures P Es 0 s keys (map (fun h => (nth (fst h) store [], snd h)) hds).
Proof. intros P s keys hds Es store ND. apply distinct_same; [exact ND|]. intros r _. reflexivity. Qed.
Print Assumptions C242_distinct.
Example C242_ex : (forall k, In k [C241_named; ex_key] -> plain (k_kid k) = true) /\
  fst (create_signatures_on std (fun _ => ex_E) 0 ex_jws (Some [C241_named; ex_key]) [C241_head] [(0%nat, []); (0%nat, [])]) = [C241_head ++ [(lit "alg", VStr (lit "HS256")); (lit "kid", VStr (lit "k1"))]].
Proof. split; [intros k [<-|[<-|[]]]; reflexivity|]. vm_compute. reflexivity. Qed.
