(** * Properties C34-C47, C57, C58, C95-C101, C152: aes_key_wrap.py, extra.py, aes_gcm.py.
    [P] ranges over all primitives (block cipher, hash, HMAC) that satisfy the stated law; [std] is the real AES / SHA /
    HMAC instance, which satisfies every law (Inst.v), and the examples compute with it. *)
From Coq Require Import ZArith List Bool Lia.
From Verif Require Import Base Prims Inst KeyWrap KeyWrapProofs KeyWrapProofs2 Elliptic Ecc Extra ExtraProofs Gcm GcmSpec GcmProofs GcmProofs2 SymAux.
Import ListNotations.
Open Scope Z_scope.

(** C34 (objects of 2^63 octets do not exist in CPython) *)
Theorem C34_wrap_unwrap : forall P kek, aes_law P -> aes_keysize kek = true -> bytes_ok kek = true ->
  forall key, bytes_ok key = true -> Z.of_nat (length key) < 2 ^ 63 -> (length key mod 8)%nat = 0%nat ->
  exists w, aes_wrap_key P kek key = Ok w /\ bytes_ok w = true /\ length w = (length key + 8)%nat /\ aes_unwrap_key P kek w = Ok key.
Proof. exact wrap_unwrap. Qed.
Print Assumptions C34_wrap_unwrap.
(** RFC 3394 section 4.1 *)
Example C34_ex : aes_law std /\
  aes_wrap_key std (z2be 16 0x000102030405060708090A0B0C0D0E0F) (z2be 16 0x00112233445566778899AABBCCDDEEFF)
    = Ok (z2be 24 0x1FA68B0A8112B447AEF34BD8FB5A7B829D3E862371D2CFE5).
Proof. split; [exact std_aes_law|vm_compute; reflexivity]. Qed.

(** C35 *)
Theorem C35_unwrap_integrity : forall P kek, aes_law P -> aes_keysize kek = true -> bytes_ok kek = true ->
  forall w key, bytes_ok w = true -> Z.of_nat (length w) < 2 ^ 63 -> (length w mod 8)%nat = 0%nat ->
  aes_unwrap_key P kek w = Ok key -> aes_wrap_key P kek key = Ok w.
Proof. exact unwrap_integrity. Qed.
Print Assumptions C35_unwrap_integrity.
Example C35_ex :
  aes_unwrap_key std (z2be 16 0x000102030405060708090A0B0C0D0E0F) (z2be 24 0x1FA68B0A8112B447AEF34BD8FB5A7B829D3E862371D2CFE5)
    = Ok (z2be 16 0x00112233445566778899AABBCCDDEEFF) /\
  aes_unwrap_key std (z2be 16 0x000102030405060708090A0B0C0D0E0F) (z2be 24 0x1FA68B0A8112B447AEF34BD8FB5A7B829D3E862371D2CFE4)
    = Raise EValueError.
Proof. vm_compute. split; reflexivity. Qed.

(** C36 is false: up to seven trailing octets of the key are dropped, whatever the key. *)
Theorem C36_tail_dropped_refuted : forall P kek key tail, (length key mod 8)%nat = 0%nat -> (length tail < 8)%nat ->
  aes_wrap_key P kek (key ++ tail) = aes_wrap_key P kek key.
Proof. exact wrap_tail. Qed.
Print Assumptions C36_tail_dropped_refuted.
Example C36_ex : aes_wrap_key std (z2be 16 1) (lit "sixteen octets!!tail") = aes_wrap_key std (z2be 16 1) (lit "sixteen octets!!") /\
  (w <- aes_wrap_key std (z2be 16 1) (lit "sixteen octets!!tail");; aes_unwrap_key std (z2be 16 1) w) = Ok (lit "sixteen octets!!").
Proof. vm_compute. split; reflexivity. Qed.

(** C37 *)
Theorem C37_pad_trim : forall x, pkcs5trim (pkcs5pad x) = Ok x.
Proof. exact pkcs5_round. Qed.
Print Assumptions C37_pad_trim.
Theorem C37_pad_length : forall x, length (pkcs5pad x) = (16 * (length x / 16 + 1))%nat.
Proof. exact pkcs5pad_length. Qed.
Print Assumptions C37_pad_length.
Example C37_ex : pkcs5pad (lit "abc") = lit "abc" ++ repeat 13 13 /\ pkcs5pad (repeat 1 16) = repeat 1 16 ++ repeat 16 16.
Proof. vm_compute. split; reflexivity. Qed.

(** C38 is false: only the last octet is looked at, and 0 is accepted. *)
Theorem C38_trim_accepts_junk_refuted : exists x y, bytes_ok x = true /\ pkcs5trim x = Ok y /\ forall z, pkcs5pad z <> x.
Proof.
  exists [1; 2; 3; 0], []. split; [reflexivity|]. split; [reflexivity|]. intros z E.
  pose proof (pkcs5pad_length z) as L. rewrite E in L. cbn [length] in L. generalize dependent (length z / 16)%nat. intros. lia.
Qed.
Print Assumptions C38_trim_accepts_junk_refuted.
Example C38_ex : pkcs5trim (repeat 7 15 ++ [3]) = Ok (repeat 7 13) /\ pkcs5trim (repeat 7 16 ++ [0]) = Ok [] /\ pkcs5trim [9; 17] = Raise EException.
Proof. vm_compute. repeat split; reflexivity. Qed.

(** C95: what pkcs5trim does accept *)
Theorem C95_trim_accepts : forall x y, bytes_ok x = true -> pkcs5trim x = Ok y ->
  exists n, nth_error (rev x) 0 = Some n /\ 0 <= n <= 16 /\ y = (if n =? 0 then [] else firstn (length x - Z.to_nat n) x).
Proof. exact pkcs5trim_spec. Qed.
Print Assumptions C95_trim_accepts.
Theorem C95_trim_rejects : forall x, bytes_ok x = true ->
  (pkcs5trim x = Raise EStructError <-> x = []) /\ (pkcs5trim x = Raise EException <-> exists n r, x = r ++ [n] /\ 16 < n).
Proof. exact pkcs5trim_rejects. Qed.
Print Assumptions C95_trim_rejects.
Example C95_ex : pkcs5trim [] = Raise EStructError /\ pkcs5trim [1; 2; 3; 2] = Ok [1; 2].
Proof. split; reflexivity. Qed.

(** C39 *)
Theorem C39_cbc_hmac_round : forall P key iv aad pt, aes_law P ->
  length key = 32%nat \/ length key = 48%nat \/ length key = 64%nat -> length iv = 16%nat ->
  bytes_ok key = true -> bytes_ok iv = true -> bytes_ok pt = true -> 8 * Z.of_nat (length aad) < 2 ^ 64 ->
  exists ct tag, aes_cbc_hmac_encrypt P key iv aad pt = Ok (ct, tag) /\ bytes_ok ct = true /\
    length ct = (16 * (length pt / 16 + 1))%nat /\ aes_cbc_hmac_decrypt P key iv aad ct tag = Ok pt.
Proof. exact cbc_hmac_round. Qed.
Print Assumptions C39_cbc_hmac_round.
(** RFC 7518 appendix B.1 (first block of E, and T) *)
Example C39_ex :
  (r <- aes_cbc_hmac_encrypt std (z2be 32 0x000102030405060708090a0b0c0d0e0f101112131415161718191a1b1c1d1e1f)
    (z2be 16 0x1af38c2dc2b96ffdd86694092341bc04) (lit "The second principle of Auguste Kerckhoffs")
    (lit "A cipher system must not be required to be secret, and it must be able to fall into the hands of the enemy without inconvenience");;
   Ok (firstn 16 (fst r), length (fst r), snd r))
  = Ok (z2be 16 0xc80edfa32ddf39d5ef00c0b468834279, 144%nat, z2be 16 0x652c3fa36b0a7c5b3219fab3a30bc1c4).
Proof. vm_compute. reflexivity. Qed.

(** C40 *)
Theorem C40_tag_checked : forall P key iv aad ct tag pt, aes_cbc_hmac_decrypt P key iv aad ct tag = Ok pt ->
  length iv = 16%nat /\ (length key = 32%nat \/ length key = 48%nat \/ length key = 64%nat) /\ tag = cbc_mac_spec P key iv aad ct.
Proof. exact cbc_hmac_auth. Qed.
Print Assumptions C40_tag_checked.
Theorem C40_bad_tag : forall P key iv aad ct tag, length iv = 16%nat -> length key = 32%nat \/ length key = 48%nat \/ length key = 64%nat ->
  8 * Z.of_nat (length aad) < 2 ^ 64 -> tag <> cbc_mac_spec P key iv aad ct -> aes_cbc_hmac_decrypt P key iv aad ct tag = Raise EVerificationFailure.
Proof. exact cbc_hmac_reject. Qed.
Print Assumptions C40_bad_tag.
Theorem C40_tag_made : forall P key iv aad pt ct tag, aes_cbc_hmac_encrypt P key iv aad pt = Ok (ct, tag) -> tag = cbc_mac_spec P key iv aad ct.
Proof. exact cbc_hmac_enc_tag. Qed.
Print Assumptions C40_tag_made.
(** [cbc_mac_spec] spelled out for a 32-octet key *)
Example C40_ex : forall iv aad ct, cbc_mac_spec std (repeat 1 16 ++ repeat 2 16) iv aad ct =
  firstn 16 (Sha.hmac SHA256 (repeat 1 16) (aad ++ iv ++ ct ++ z2be 8 (8 * Z.of_nat (length aad)))).
Proof. reflexivity. Qed.

(** C41 *)
Theorem C41_mac_input_injective : forall aad iv ct aad' iv' ct' : bytes, length iv = 16%nat -> length iv' = 16%nat ->
  8 * Z.of_nat (length aad) < 2 ^ 64 -> 8 * Z.of_nat (length aad') < 2 ^ 64 ->
  aad ++ iv ++ ct ++ z2be 8 (8 * Z.of_nat (length aad)) = aad' ++ iv' ++ ct' ++ z2be 8 (8 * Z.of_nat (length aad')) ->
  aad = aad' /\ iv = iv' /\ ct = ct'.
Proof. exact mac_input_inj. Qed.
Print Assumptions C41_mac_input_injective.
Example C41_ex : [1] ++ repeat 2 16 ++ [3] ++ z2be 8 8 <> [] ++ ([1] ++ repeat 2 15) ++ [2; 3] ++ z2be 8 0.
Proof. vm_compute. discriminate. Qed.

(** C42: [rev128] reads a block as a polynomial, [clmul] is the product of polynomials over GF(2), [pcong] equality modulo
    1+X+X^2+X^7+X^128. *)
Theorem C42_gf_mul : forall x y, 0 <= x < 2 ^ 128 -> 0 <= y < 2 ^ 128 -> gf_2_128_mul x y = Ok (bmul x y).
Proof. exact gf_mul_bmul. Qed.
Print Assumptions C42_gf_mul.
Theorem C42_product : forall x y, 0 <= bmul x y < 2 ^ 128 /\ pcong (rev128 (bmul x y)) (clmul (rev128 x) (rev128 y)).
Proof. exact bmul_ok. Qed.
Print Assumptions C42_product.
Theorem C42_product_unique : forall x y r, 0 <= r < 2 ^ 128 -> pcong (rev128 r) (clmul (rev128 x) (rev128 y)) -> r = bmul x y.
Proof. exact bmul_unique. Qed.
Print Assumptions C42_product_unique.
(** 1 is the block 2^127; X * X^127 = 1+X+X^2+X^7 *)
Example C42_ex : gf_2_128_mul 0x5e2ec746917062882c85b0685353deb7 (2 ^ 127) = Ok 0x5e2ec746917062882c85b0685353deb7 /\ gf_2_128_mul (2 ^ 126) 1 = Ok (0xE1 * 2 ^ 120) /\
  gf_2_128_mul (2 ^ 128) 1 = Raise EAssertionError.
Proof. vm_compute. repeat split; reflexivity. Qed.

(** C43: [gcm_reach P key g]: the object g results from a construction, encryptions and key changes; key is the octet
    form of its last key number. *)
Theorem C43_ghash : forall P, aes_law P -> forall key g, gcm_reach P key g -> forall aad txt,
  bytes_ok aad = true -> bytes_ok txt = true -> 8 * Z.of_nat (length aad) < 2 ^ 64 -> 8 * Z.of_nat (length txt) < 2 ^ 64 ->
  ghash g aad txt = ghash_spec (be2z (p_aes_enc P key (repeat 0 16))) aad txt.
Proof. exact reach_ghash. Qed.
Print Assumptions C43_ghash.
Example C43_ex : (exists g, gcm_reach std (z2be 16 5) g) /\
  ghash_spec 0xb83b533708bf535d0aa6e52980d53b78 (z2be 20 0xfeedfacedeadbeeffeedfacedeadbeefabaddad2)
    (z2be 60 0x42831ec2217774244b7221b784d0d49ce3aa212f2c02a4e035c17e2329aca12e21d514b25466931c7d8f6a5aac84aa051ba30b396a0aac973d58e091)
  = 0x698e57f70e6ecc7fd9463b7260a9ae5f.
Proof.
  split; [|vm_compute; reflexivity].
  destruct (gcm_key_16 std std_aes_law (z2be 16 5) (or_introl eq_refl) eq_refl) as (g & N & _). exists g.
  exact (gr_new std _ g N).
Qed.

(** C44 *)
Theorem C44_gcm_round : forall P, aes_law P -> forall key g, gcm_reach P key g -> forall iv pt aad,
  0 <= iv < 2 ^ 96 -> g_prev g <> Some iv -> bytes_ok pt = true -> bytes_ok aad = true ->
  Z.of_nat (length pt) <= 16 * 2 ^ 32 -> 8 * Z.of_nat (length aad) < 2 ^ 64 ->
  exists g' ct tag, gcm_encrypt P g iv pt aad = (g', Ok (ct, tag)) /\ length ct = length pt /\ 0 <= tag < 2 ^ 128 /\
    gcm_decrypt P g' iv ct tag aad = Ok pt /\ (forall h, gcm_reach P key h -> gcm_decrypt P h iv ct tag aad = Ok pt).
Proof. exact reach_round. Qed.
Print Assumptions C44_gcm_round.
(** C96: and the result is the one NIST SP 800-38D defines *)
Theorem C96_gcm_is_nist : forall P, aes_law P -> forall key g, gcm_reach P key g -> forall iv pt aad,
  0 <= iv < 2 ^ 96 -> g_prev g <> Some iv -> bytes_ok pt = true -> bytes_ok aad = true ->
  Z.of_nat (length pt) <= 16 * 2 ^ 32 -> 8 * Z.of_nat (length aad) < 2 ^ 64 ->
  snd (gcm_encrypt P g iv pt aad) = Ok (gcm_c P key (z2be 12 iv) pt, gcm_t P key (z2be 12 iv) aad (gcm_c P key (z2be 12 iv) pt)).
Proof. exact reach_encrypt_spec. Qed.
Print Assumptions C96_gcm_is_nist.
(** the test vector at the end of aes_gcm.py *)
Definition gcm_k := z2be 16 0xfeffe9928665731c6d6a8f9467308308.
Definition gcm_p := z2be 60 0xd9313225f88406e5a55909c5aff5269a86a7a9531534f7da2e4c303d8a318a721c3c0c95956809532fcf0e2449a6b525b16aedf5aa0de657ba637b39.
Definition gcm_a := z2be 20 0xfeedfacedeadbeeffeedfacedeadbeefabaddad2.
Definition gcm_ct := z2be 60 0x42831ec2217774244b7221b784d0d49ce3aa212f2c02a4e035c17e2329aca12e21d514b25466931c7d8f6a5aac84aa051ba30b396a0aac973d58e091.
Example C44_C96_ex : exists g, gcm_new std 0xfeffe9928665731c6d6a8f9467308308 = Ok g /\
  snd (gcm_encrypt std g 0xcafebabefacedbaddecaf888 gcm_p gcm_a) = Ok (gcm_ct, 0x5bc94fbc3221a5db94fae95ae7121a47).
Proof.
  destruct (gcm_new_ok std std_aes_law gcm_k eq_refl eq_refl 0xfeffe9928665731c6d6a8f9467308308 eq_refl) as (g & N & _ & V).
  exists g. split; [exact N|].
  assert (NP : g_prev g <> Some 0xcafebabefacedbaddecaf888) by (rewrite V; discriminate).
  assert (I : 0 <= 0xcafebabefacedbaddecaf888 < 2 ^ 96) by lia.
  assert (L : Z.of_nat (length gcm_p) <= 16 * 2 ^ 32) by (vm_compute; discriminate).
  pose proof (reach_encrypt_spec std std_aes_law gcm_k g (gr_new std _ g N) _ gcm_p gcm_a I NP eq_refl eq_refl L eq_refl) as E.
  etransitivity; [exact E|vm_compute; reflexivity].
Qed.

(** C45 *)
Theorem C45_tag_checked : forall P, aes_law P -> forall key g, gcm_reach P key g -> forall iv ct tag aad,
  0 <= iv < 2 ^ 96 -> bytes_ok ct = true -> bytes_ok aad = true -> Z.of_nat (length ct) <= 16 * 2 ^ 32 -> 8 * Z.of_nat (length aad) < 2 ^ 64 -> tag < 2 ^ 128 ->
  (tag = gcm_t P key (z2be 12 iv) aad ct -> exists pt, gcm_decrypt P g iv ct tag aad = Ok pt) /\
  (tag <> gcm_t P key (z2be 12 iv) aad ct -> gcm_decrypt P g iv ct tag aad = Raise EInvalidTagException).
Proof. exact reach_auth. Qed.
Print Assumptions C45_tag_checked.
Theorem C45_only_what_encrypt_makes : forall P, aes_law P -> forall key g, gcm_reach P key g -> forall iv ct tag aad pt,
  0 <= iv < 2 ^ 96 -> bytes_ok ct = true -> bytes_ok aad = true -> Z.of_nat (length ct) <= 16 * 2 ^ 32 -> 8 * Z.of_nat (length aad) < 2 ^ 64 ->
  gcm_decrypt P g iv ct tag aad = Ok pt ->
  forall h, gcm_reach P key h -> g_prev h <> Some iv -> snd (gcm_encrypt P h iv pt aad) = Ok (ct, tag).
Proof. exact reach_auth_enc. Qed.
Print Assumptions C45_only_what_encrypt_makes.
Example C45_ex : exists g, gcm_reach std gcm_k g /\
  gcm_decrypt std g 0xcafebabefacedbaddecaf888 gcm_ct 0x5bc94fbc3221a5db94fae95ae7121a48 gcm_a = Raise EInvalidTagException.
Proof.
  destruct (gcm_new_ok std std_aes_law gcm_k eq_refl eq_refl 0xfeffe9928665731c6d6a8f9467308308 eq_refl) as (g & N & _ & V).
  exists g. assert (R : gcm_reach std gcm_k g) by exact (gr_new std _ g N). split; [exact R|].
  apply (reach_auth std std_aes_law _ g R); [lia|vm_compute; (reflexivity || discriminate)..].
Qed.

(** C46 is false: only the immediately preceding IV is remembered.  The two ciphertexts under one IV then reveal the
    exclusive or of the plaintexts. *)
Theorem C46_iv_reuse_refuted : forall P, aes_law P -> forall key k, aes_keysize key = true -> bytes_ok key = true -> long_to_bytes k 16 = key ->
  forall p1 p2, bytes_ok p1 = true -> bytes_ok p2 = true -> length p1 = length p2 -> Z.of_nat (length p1) <= 16 * 2 ^ 32 ->
  exists g0 g1 g2 g3 c1 t1 c2 c3 t3, gcm_new P k = Ok g0 /\
    gcm_encrypt P g0 1 p1 [] = (g1, Ok (c1, t1)) /\ gcm_encrypt P g1 2 [] [] = (g2, Ok c2) /\ gcm_encrypt P g2 1 p2 [] = (g3, Ok (c3, t3)) /\
    bxor c1 c3 = bxor p1 p2.
Proof. exact reuse_possible. Qed.
Print Assumptions C46_iv_reuse_refuted.
Example C46_ex : aes_law std /\ aes_keysize gcm_k = true /\ long_to_bytes 0xfeffe9928665731c6d6a8f9467308308 16 = gcm_k.
Proof. split; [exact std_aes_law|]. split; reflexivity. Qed.
(** C97: the immediate repetition is refused *)
Theorem C97_consecutive_iv_refused : forall P g g' iv pt aad c pt' aad', gcm_encrypt P g iv pt aad = (g', Ok c) ->
  gcm_encrypt P g' iv pt' aad' = (g', Raise EInvalidInputException).
Proof. exact reuse_rejected. Qed.
Print Assumptions C97_consecutive_iv_refused.
Example C97_ex : exists g0 g1 c, gcm_new std 0xfeffe9928665731c6d6a8f9467308308 = Ok g0 /\ gcm_encrypt std g0 1 [1; 2] [] = (g1, Ok c) /\
  gcm_encrypt std g1 1 [3; 4] [] = (g1, Raise EInvalidInputException).
Proof.
  destruct (reuse_possible std std_aes_law gcm_k _ eq_refl eq_refl (eq_refl : long_to_bytes 0xfeffe9928665731c6d6a8f9467308308 16 = gcm_k) [1; 2] [3; 4] eq_refl eq_refl eq_refl)
    as (g0 & g1 & _ & _ & c1 & t1 & _ & _ & _ & N & E & _); [discriminate|].
  exists g0, g1, (c1, t1). split; [exact N|]. split; [exact E|]. apply (reuse_rejected std g0 g1 1 [1; 2] [] (c1, t1)). exact E.
Qed.

(** C47: true for 16-octet keys and for 32-octet keys whose first half is not zero ... *)
Theorem C47_key_partial : forall P, aes_law P -> forall k, length k = 16%nat \/ (length k = 32%nat /\ firstn 16 k <> repeat 0 16) -> bytes_ok k = true ->
  exists g, gcm_new P (be2z k) = Ok g /\ g_key g = k /\ g_ecb g = k.
Proof. exact gcm_key_16. Qed.
Print Assumptions C47_key_partial.
(** ... false for every 24-octet key (A192GCM runs AES-256 with a zero-extended key) ... *)
Theorem C47_key24_refuted : forall P k g, length k = 24%nat -> gcm_new P (be2z k) = Ok g -> g_key g <> k.
Proof. exact gcm_key_24. Qed.
Print Assumptions C47_key24_refuted.
Theorem C47_key24_witness_refuted : forall P, aes_law P -> exists k g, length k = 24%nat /\ bytes_ok k = true /\ gcm_new P (be2z k) = Ok g /\ length (g_key g) = 32%nat.
Proof. exact gcm_key_24_works. Qed.
Print Assumptions C47_key24_witness_refuted.
(** ... and for 32-octet keys starting with 16 zero octets (AES-128 is used). *)
Theorem C47_key32_refuted : forall P, aes_law P -> forall k, length k = 16%nat -> bytes_ok k = true ->
  exists g, gcm_new P (be2z (repeat 0 16 ++ k)) = Ok g /\ g_key g = k.
Proof. exact gcm_key_32_bad. Qed.
Print Assumptions C47_key32_refuted.
Example C47_ex : length gcm_k = 16%nat /\ firstn 16 (z2be 32 (2 ^ 255)) <> repeat 0 16 /\ long_to_bytes (be2z (repeat 1 24)) 16 = repeat 0 8 ++ repeat 1 24.
Proof. vm_compute. repeat split; (reflexivity || discriminate). Qed.

(** C57 *)
Theorem C57_concat_kdf : forall P, hash_law P -> forall s n i, bytes_ok s = true -> bytes_ok i = true -> n <= 256 * (2 ^ 32 - 1) ->
  exists dk, concat_sha256 P s n i = Ok dk /\ length dk = Z.to_nat ((n + 7) / 8) /\
    forall m, (Z.to_nat ((n + 255) / 256) <= m)%nat ->
    dk = firstn (Z.to_nat ((n + 7) / 8)) (concat (map (fun c => p_hash P SHA256 (z2be 4 (Z.of_nat c) ++ s ++ i)) (seq 1 m))).
Proof. exact concat_sha256_prefix. Qed.
Print Assumptions C57_concat_kdf.
(** RFC 7518 appendix C, with the OtherInfo given there *)
Definition rfc_z := z2be 32 0x9e56d91d817135d372834283bf84269cfb316ea3da806a48f6daa7798cfe90c4.
Example C57_ex : hash_law std /\ concat_sha256 std rfc_z 128 (other_info_rfc (lit "Alice") (lit "Bob") (lit "A128GCM") 128) = Ok (z2be 16 0x56aa8deaf8236d205c2228cd71a7101a).
Proof. split; [exact std_hash_law|vm_compute; reflexivity]. Qed.

(** C58 is false for all inputs: the length prefix of the algorithm id is missing. *)
Theorem C58_otherinfo_refuted : forall apu apv alg dk, Z.of_nat (length apu) < 2 ^ 32 -> Z.of_nat (length apv) < 2 ^ 32 -> 0 <= dk < 2 ^ 32 ->
  other_info apu apv alg dk = Ok (skipn 4 (other_info_rfc apu apv alg dk)).
Proof. exact other_info_ok. Qed.
Print Assumptions C58_otherinfo_refuted.
Example C58_ex : exists o, other_info (lit "Alice") (lit "Bob") (lit "A128GCM") 128 = Ok o /\ o <> other_info_rfc (lit "Alice") (lit "Bob") (lit "A128GCM") 128 /\
  concat_sha256 std rfc_z 128 o <> Ok (z2be 16 0x56aa8deaf8236d205c2228cd71a7101a).
Proof. eexists. split; [reflexivity|]. split; vm_compute; discriminate. Qed.
(** C98 *)
Theorem C98_otherinfo_injective : forall alg apu apv dk apu' apv' dk' o,
  other_info apu apv alg dk = Ok o -> other_info apu' apv' alg dk' = Ok o -> apu = apu' /\ apv = apv' /\ dk = dk'.
Proof. exact other_info_inj. Qed.
Print Assumptions C98_otherinfo_injective.
Example C98_ex : exists o, other_info (lit "Alice") (lit "Bob") (lit "A128GCM") 128 = Ok o.
Proof. eexists. reflexivity. Qed.

(** C99 *)
Theorem C99_unwrap_total : forall P kek, aes_law P -> aes_keysize kek = true -> bytes_ok kek = true ->
  forall w, bytes_ok w = true -> Z.of_nat (length w) < 2 ^ 63 -> (8 <= length w)%nat ->
  (exists key, aes_unwrap_key P kek w = Ok key) \/ aes_unwrap_key P kek w = Raise EValueError.
Proof. exact unwrap_total. Qed.
Print Assumptions C99_unwrap_total.
Example C99_ex : aes_unwrap_key std (z2be 16 7) (z2be 11 12345) = Raise EValueError.
Proof. vm_compute. reflexivity. Qed.

(** C100: unwrapping ignores up to seven octets appended to the wrapped key (malleability) *)
Theorem C100_unwrap_ignores_tail : forall P kek w tail, (length w mod 8)%nat = 0%nat -> (8 <= length w)%nat -> (length tail < 8)%nat ->
  aes_unwrap_key P kek (w ++ tail) = aes_unwrap_key P kek w.
Proof. exact unwrap_drops. Qed.
Print Assumptions C100_unwrap_ignores_tail.
Example C100_ex : aes_unwrap_key std (z2be 16 0x000102030405060708090A0B0C0D0E0F) (z2be 24 0x1FA68B0A8112B447AEF34BD8FB5A7B829D3E862371D2CFE5 ++ lit "junk")
  = Ok (z2be 16 0x00112233445566778899AABBCCDDEEFF).
Proof. vm_compute. reflexivity. Qed.

(** C101: padded unwrapping inverts the padded wrapping of RFC 5649 (for keys of more than 8 octets) ... *)
Theorem C101_withpad_partial : forall P kek, aes_law P -> aes_keysize kek = true -> bytes_ok kek = true ->
  forall key pad, bytes_ok key = true -> bytes_ok pad = true -> Z.of_nat (length key) < 2 ^ 32 -> (length pad <= 8)%nat -> (length (key ++ pad) mod 8)%nat = 0%nat ->
  exists w, aes_wrap_key_iv P kek (key ++ pad) (0xA65959A600000000 + Z.of_nat (length key)) = Ok w /\ aes_unwrap_key_withpad P kek w = Ok key.
Proof. exact withpad_ok. Qed.
Print Assumptions C101_withpad_partial.
(** ... but aes_wrap_key_withpad itself never returns on Python 3. *)
Theorem C101_wrap_withpad_refuted : forall kek key, aes_wrap_key_withpad kek key = Raise ETypeError.
Proof. reflexivity. Qed.
Print Assumptions C101_wrap_withpad_refuted.
(** RFC 5649 section 6, the 20-octet key *)
Example C101_ex : aes_unwrap_key_withpad std (z2be 24 0x5840df6e29b02af1ab493b705bf16ea1ae8338f4dcc176a8)
  (z2be 32 0x138bdeaa9b8fa7fc61f97742e72248ee5ae6ae5360d1ae6a5f54f373fa543b6a) = Ok (z2be 20 0xc37b7e6492584340bed12207808941155068f738).
Proof. vm_compute. reflexivity. Qed.

(** C152: the wrapped key is that of RFC 3394 section 2.2.1: A starts as eight octets 0xA6, in step t = 1, ..., 6n the first
    register R is enciphered together with A, the registers are shifted by one place and t is added to A by xor. *)
Fixpoint kw_step (E : bytes -> bytes) (m : nat) (t : Z) (A : bytes) (R : list bytes) : bytes * list bytes :=
  match m, R with
  | S m', x :: r =>
      let B := E (A ++ x) in
      kw_step E m' (t + 1) (map (fun p => Z.lxor (fst p) (snd p)) (combine (firstn 8 B) (z2be 8 t))) (r ++ [skipn 8 B])
  | _, _ => (A, R)
  end.
Definition kw_rfc (E : bytes -> bytes) (R : list bytes) : bytes :=
  let (A, C) := kw_step E (6 * length R) 1 (repeat 0xA6 8) R in A ++ concat C.
Theorem C152_wrap_is_rfc3394 : forall P kek, aes_law P -> aes_keysize kek = true -> bytes_ok kek = true ->
  forall R : list bytes, Forall (fun x => length x = 8%nat /\ bytes_ok x = true) R -> R <> [] -> Z.of_nat (length R) < 2 ^ 60 ->
  aes_wrap_key P kek (concat R) = Ok (kw_rfc (p_aes_enc P kek) R).
Proof. exact wrap_spec. Qed.
Print Assumptions C152_wrap_is_rfc3394.
Theorem C152_unwrap_is_rfc3394 : forall P kek, aes_law P -> aes_keysize kek = true -> bytes_ok kek = true ->
  forall w (R : list bytes), bytes_ok w = true -> Forall (fun x => length x = 8%nat /\ bytes_ok x = true) R -> R <> [] ->
  Z.of_nat (length R) < 2 ^ 59 -> (length w mod 8 = 0)%nat -> Z.of_nat (length w) < 2 ^ 63 ->
  (aes_unwrap_key P kek w = Ok (concat R) <-> w = kw_rfc (p_aes_enc P kek) R).
Proof. exact unwrap_spec. Qed.
Print Assumptions C152_unwrap_is_rfc3394.
(** RFC 3394 section 4.1, computed with the specification *)
Example C152_ex : aes_law std /\
  kw_rfc (p_aes_enc std (z2be 16 0x000102030405060708090A0B0C0D0E0F)) [z2be 8 0x0011223344556677; z2be 8 0x8899AABBCCDDEEFF]
  = z2be 24 0x1FA68B0A8112B447AEF34BD8FB5A7B829D3E862371D2CFE5.
Proof. split; [exact std_aes_law|vm_compute; reflexivity]. Qed.
