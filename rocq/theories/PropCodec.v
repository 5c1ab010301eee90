(** * Properties C01-C09: encoding helpers (jwkest/__init__.py). *)
From Coq Require Import ZArith List Bool Lia.
From Verif Require Import Base BaseProofs Codec CodecProofs.
Import ListNotations.
Open Scope Z_scope.

(** C01 base64url round trip. *)
Theorem C01_b64_round_trip : forall b, bytes_ok b = true -> b64d (b64e b) = Ok b.
Proof. exact b64d_b64e. Qed.
Print Assumptions C01_b64_round_trip.
Example C01_ex : bytes_ok [0; 255; 128; 62; 63; 250; 7] = true /\ b64e [251; 255; 191] = lit "-_-_" /\ b64d (lit "AP-APj_6Bw") = Ok [0; 255; 128; 62; 63; 250; 7].
Proof. vm_compute. repeat split; reflexivity. Qed.

(** C02 output alphabet and length. *)
Theorem C02_b64e_alphabet : forall b c, bytes_ok b = true -> In c (b64e b) ->
  65 <= c <= 90 \/ 97 <= c <= 122 \/ 48 <= c <= 57 \/ c = 45 \/ c = 95.
Proof. exact b64e_alphabet. Qed.
Print Assumptions C02_b64e_alphabet.
Theorem C02_b64e_length : forall b, bytes_ok b = true ->
  Z.of_nat (length (b64e b)) = (4 * Z.of_nat (length b) + 2) / 3.
Proof. exact b64e_length. Qed.
Print Assumptions C02_b64e_length.
Example C02_ex : In 95 (b64e [251; 255; 191]) /\ length (b64e [1; 2; 3; 4]) = 6%nat.
Proof. vm_compute. split; [right; left|]; reflexivity. Qed.

(** C03 b64d is documented to reject characters outside the alphabet; it accepts a newline before padding. *)
Theorem C03_b64d_rejects_refuted : exists b d, b64d b = Ok d /\ In 10 (rstrip 61 b).
Proof. exists (lit "ab" ++ [10; 61; 61]), [105]. vm_compute. split; [reflexivity|tauto]. Qed.
Print Assumptions C03_b64d_rejects_refuted.
(** The exact extent of the violation: at most one newline, at the end, and only for padded input. *)
Theorem C03_b64d_accepts_partial : forall b d, b64d b = Ok d ->
  let cb := rstrip 61 b in
  Forall url_char cb \/ exists x, cb = x ++ [10] /\ Forall url_char x.
Proof. exact b64d_accepts'. Qed.
Print Assumptions C03_b64d_accepts_partial.
Theorem C03_b64d_unpadded_strict_partial : forall b d, rstrip 61 b = b -> b64d b = Ok d -> Forall url_char b.
Proof. exact b64d_unpadded_strict'. Qed.
Print Assumptions C03_b64d_unpadded_strict_partial.
Example C03_ex : b64d (lit "ab.cd") = Raise EBadSyntax /\ b64d (lit "abc" ++ [10]) = Raise EBinasciiError /\ b64d (lit "abcd") = Ok [105; 183; 29].
Proof. vm_compute. repeat split; reflexivity. Qed.

(** C04 decoding is not injective. *)
Theorem C04_b64d_injective_refuted : exists a b d, a <> b /\ rstrip 61 a = a /\ rstrip 61 b = b /\ b64d a = Ok d /\ b64d b = Ok d.
Proof. exists (lit "QQ"), (lit "QR"), [65]. vm_compute. repeat split; try reflexivity. discriminate. Qed.
Print Assumptions C04_b64d_injective_refuted.
(** Only the last character can differ from the canonical text, and not when the length is a multiple of 4. *)
Theorem C04_b64d_canonical_partial : forall b d, rstrip 61 b = b -> b64d b = Ok d ->
  bytes_ok d = true /\ length (b64e d) = length b /\ removelast (b64e d) = removelast b /\
  (Z.of_nat (length b) mod 4 = 0 -> b64e d = b).
Proof. exact b64d_unpadded_canonical. Qed.
Print Assumptions C04_b64d_canonical_partial.
Example C04_ex : rstrip 61 (lit "aGVsbG9") = lit "aGVsbG9" /\ b64d (lit "aGVsbG9") = Ok (lit "hello") /\ b64e (lit "hello") = lit "aGVsbG8".
Proof. vm_compute. repeat split; reflexivity. Qed.

(** C05 integers. *)
Theorem C05_long_codec_partial : forall n, 0 < n -> exists a,
  long_to_base64 n = Ok (b64e a) /\ be2z a = n /\ bytes_ok a = true /\ match a with [] => False | x :: _ => x <> 0 end /\
  base64_to_long_b (b64e a) = Ok n /\ base64_to_long_s (b64e a) = Ok n.
Proof.
  intros n H. destruct (long_to_base64_spec n H) as [a [s [H1 [H2 [H3 [H4 H5]]]]]]. exists a. subst s.
  pose proof (base64_to_long_long_to_base64 n _ ltac:(lia) H1) as D.
  repeat split; auto. rewrite base64_to_long_s_b; [exact D|]. apply b64e_ascii. exact H4.
Qed.
Print Assumptions C05_long_codec_partial.
Theorem C05_long_codec_refuted : exists n, 0 <= n /\ long_to_base64 n = Raise ETypeError.
Proof. exists 0. vm_compute. split; [discriminate|reflexivity]. Qed.
Print Assumptions C05_long_codec_refuted.
Example C05_ex : long_to_base64 65537 = Ok (lit "AQAB") /\ base64_to_long_s (lit "AQAB") = Ok 65537.
Proof. vm_compute. split; reflexivity. Qed.

(** C06 base64url_to_long claims to check; it only checks for + / =. *)
Theorem C06_base64url_to_long_strict_refuted : exists data n, base64url_to_long_b data = Ok n /\ ~ Forall url_char data.
Proof.
  exists (lit "AQ!.AB"), 65537. split; [vm_compute; reflexivity|]. intros H. rewrite Forall_forall in H.
  assert (I : In 33 (lit "AQ!.AB")) by (vm_compute; tauto). apply H in I. unfold url_char in I. lia.
Qed.
Print Assumptions C06_base64url_to_long_strict_refuted.
Theorem C06_base64url_to_long_rejects_partial : forall data c, c = 43 \/ c = 47 \/ c = 61 -> In c data ->
  exists e, base64url_to_long_b data = Raise e /\ is_ValueError e = true.
Proof. exact base64url_to_long_rejects. Qed.
Print Assumptions C06_base64url_to_long_rejects_partial.
Example C06_ex : base64url_to_long_b (lit "AQ+B") = Raise EValueError /\ base64url_to_long_b (lit "AQAB") = Ok 65537.
Proof. vm_compute. split; reflexivity. Qed.

(** C07 comparison. *)
Theorem C07_constant_time_compare : forall a b, constant_time_compare a b = true <-> a = b.
Proof. exact constant_time_compare_eq. Qed.
Print Assumptions C07_constant_time_compare.
Theorem C07_safe_str_cmp : forall a b, safe_str_cmp a b = true <-> a = b.
Proof. exact constant_time_compare_eq. Qed.
Print Assumptions C07_safe_str_cmp.
Example C07_ex : constant_time_compare [1; 2; 3] [1; 2; 3] = true /\ constant_time_compare [1; 2; 3] [3; 2; 1] = false /\ constant_time_compare [0] [] = false.
Proof. vm_compute. repeat split; reflexivity. Qed.

(** C08 integer arrays. *)
Theorem C08_intarr_long2intarr : forall n, 0 < n -> exists a, long2intarr n = Ok a /\ intarr2long a = Ok n /\ bytes_ok a = true.
Proof. exact intarr2long_long2intarr. Qed.
Print Assumptions C08_intarr_long2intarr.
Theorem C08_long2intarr_intarr : forall a n, bytes_ok a = true -> intarr2long a = Ok n -> long2intarr n = Ok (lstrip 0 a).
Proof. exact long2intarr_intarr2long. Qed.
Print Assumptions C08_long2intarr_intarr.
Example C08_ex : long2intarr 66051 = Ok [1; 2; 3] /\ intarr2long [0; 1; 2; 3] = Ok 66051.
Proof. vm_compute. split; reflexivity. Qed.

(** C09 long2hexseq works exactly for an even number of hex digits. *)
Theorem C09_long2hexseq_refuted : exists n, 0 <= n /\ long2hexseq n = Raise EBinasciiError.
Proof. exists 256. vm_compute. split; [discriminate|reflexivity]. Qed.
Print Assumptions C09_long2hexseq_refuted.
Theorem C09_long2hexseq_even_partial : forall k n, 16 * 256 ^ Z.of_nat k <= n < 256 ^ Z.of_nat (S k) ->
  exists b, long2hexseq n = Ok b /\ length b = S k /\ bytes_ok b = true /\ be2z b = n.
Proof.
  intros k n H. exists (z2be (S k) n). split; [exact (long2hexseq_even k n H)|].
  split; [apply z2be_length|]. split; [apply z2be_ok|]. apply be2z_z2be.
  pose proof (Z.pow_pos_nonneg 256 (Z.of_nat k)). lia.
Qed.
Print Assumptions C09_long2hexseq_even_partial.
Theorem C09_long2hexseq_odd_partial : forall k n, k = O \/ 256 ^ Z.of_nat k <= n -> 0 <= n < 16 * 256 ^ Z.of_nat k ->
  long2hexseq n = Raise EBinasciiError.
Proof. exact long2hexseq_odd. Qed.
Print Assumptions C09_long2hexseq_odd_partial.
Example C09_ex : long2hexseq 65535 = Ok [255; 255] /\ long2hexseq 4095 = Raise EBinasciiError.
Proof. vm_compute. split; reflexivity. Qed.
