(** * Properties C72-C87: elliptic.py, curves.py, ecc.py.
    [gadd], [gmul], [gneg], [GO], [GP] (EcSpec, EcGroup) are the textbook chord-and-tangent group over the field Z/n and do
    not mention the code; [den n P] is the group element named by the coordinate pair P. *)
From Coq Require Import ZArith List Bool Lia Znumtheory.
From Verif Require Import Base Zp EcGroup EcSpec Elliptic EcArith EcProofs Ecc EccProofs EcAux Nist EcNaf.
Import ListNotations.
Open Scope Z_scope.

(** C72 *)
Theorem C72_inv : forall a n, 1 < n -> Z.gcd a n = 1 -> 0 <= inv a n /\ (inv a n * a) mod n = 1.
Proof. exact inv_coprime_one. Qed.
Print Assumptions C72_inv.
Theorem C72_euclid_terminates : forall a b, exists u v g, euclid a b = Some (u, v, g) /\ u * a + v * b = g /\ Z.abs g = Z.gcd a b.
Proof. exact euclid_total. Qed.
Print Assumptions C72_euclid_terminates.
Theorem C72_inv_loop_terminates : forall i n, 0 < n -> exists r, inv_loop (S (Z.to_nat (- i / n))) i n = Some r.
Proof. exact inv_loop_terminates. Qed.
Print Assumptions C72_inv_loop_terminates.
Example C72_ex : Z.gcd 10 23 = 1 /\ inv 10 23 = 7 /\ Z.gcd (-10) 23 = 1 /\ inv (-10) 23 = 16.
Proof. vm_compute. repeat split; reflexivity. Qed.

(** C73 *)
Theorem C73_signed_bin : forall n, 0 <= n ->
  signed_bin_loop (S (Z.to_nat (Z.log2 n))) n [] = Some (signed_bin n) /\
  fold_left (fun v d => 2 * v + d) (signed_bin n) 0 = n /\
  Forall (fun d => d = -1 \/ d = 0 \/ d = 1) (signed_bin n).
Proof. exact signed_bin_spec. Qed.
Print Assumptions C73_signed_bin.
Example C73_ex : signed_bin 7 = [1; 0; 0; -1] /\ signed_bin 11 = [1; 0; -1; 0; -1].
Proof. vm_compute. repeat split; reflexivity. Qed.

(** C74 addition is right for all operands ... *)
Theorem C74_addf_partial : forall p q n, good_curve n (- p) (- q) -> forall j1 j2 P Q,
  represents n j1 P -> represents n j2 Q -> element P p q n = true -> element Q p q n = true ->
  represents n (addf p q n j1 j2) (add p q n P Q).
Proof. exact addf_represents. Qed.
Print Assumptions C74_addf_partial.
(** ... doubling except at the points with y = 0 ... *)
Theorem C74_doublef_partial : forall p q n, good_curve n (- p) (- q) -> forall j P,
  represents n j P -> element P p q n = true -> (forall x y, P = Some (x, y) -> y mod n <> 0) ->
  represents n (doublef p q n j) (add p q n P P).
Proof. exact doublef_represents. Qed.
Print Assumptions C74_doublef_partial.
(** ... where it returns a tuple with z = 0 that represents nothing. *)
Theorem C74_doublef_refuted : exists p q n j P, good_curve n (- p) (- q) /\ represents n j P /\ element P p q n = true /\
  ~ represents n (doublef p q n j) (add p q n P P).
Proof.
  exists 3, 4, 23, (Some (10, 0, 1, 1, 1)), (Some (10, 0)). split; [exact toy_good|].
  vm_compute. repeat split; try reflexivity; try discriminate. intros [].
Qed.
Print Assumptions C74_doublef_refuted.
Theorem C74_from_projective : forall p q n, good_curve n (- p) (- q) -> forall j P, represents n j P -> same_point n (from_projective j n) P.
Proof. exact from_represents. Qed.
Print Assumptions C74_from_projective.
Example C74_ex : represents 23 (Some (16, 17, 2, 4, 8)) (Some (4, 5)) /\ element (Some (4, 5)) 3 4 23 = true /\
  from_projective (addf 3 4 23 (Some (16, 17, 2, 4, 8)) (Some (8, 1, 1, 1, 1))) 23 = add 3 4 23 (Some (4, 5)) (Some (8, 1)) /\
  from_projective (doublef 3 4 23 (Some (16, 17, 2, 4, 8))) 23 = add 3 4 23 (Some (4, 5)) (Some (4, 5)) /\
  addf 3 4 23 (Some (16, 17, 2, 4, 8)) (Some (4, -5, 1, 1, 1)) = None.
Proof. vm_compute. repeat split; try reflexivity; discriminate. Qed.

(** C75 *)
Theorem C75_closed : forall p q n, good_curve n (- p) (- q) -> forall P Q,
  element P p q n = true -> element Q p q n = true -> element (add p q n P Q) p q n = true.
Proof. exact add_closed. Qed.
Print Assumptions C75_closed.
Theorem C75_associative : forall p q n, good_curve n (- p) (- q) -> forall P Q R,
  element P p q n = true -> element Q p q n = true -> element R p q n = true ->
  same_point n (add p q n (add p q n P Q) R) (add p q n P (add p q n Q R)).
Proof. exact add_assoc. Qed.
Print Assumptions C75_associative.
Theorem C75_commutative : forall p q n, good_curve n (- p) (- q) -> forall P Q,
  element P p q n = true -> element Q p q n = true -> same_point n (add p q n P Q) (add p q n Q P).
Proof. exact add_comm. Qed.
Print Assumptions C75_commutative.
Theorem C75_neutral : forall p q n P, add p q n None P = P /\ add p q n P None = P.
Proof. exact add_neutral. Qed.
Print Assumptions C75_neutral.
Theorem C75_inverse : forall p q n, good_curve n (- p) (- q) -> forall P,
  element P p q n = true -> element (nega P n) p q n = true /\ add p q n P (nega P n) = None.
Proof. exact add_inverse. Qed.
Print Assumptions C75_inverse.
(** Congruent coordinates are interchangeable, so the laws are laws of points. *)
Theorem C75_congruence : forall p q n, good_curve n (- p) (- q) -> forall P P' Q Q',
  element P p q n = true -> element Q p q n = true -> element P' p q n = true -> element Q' p q n = true ->
  same_point n P P' -> same_point n Q Q' -> same_point n (add p q n P Q) (add p q n P' Q').
Proof. exact add_same. Qed.
Print Assumptions C75_congruence.
Example C75_ex : good_curve 23 (- 3) (- 4) /\ element (Some (4, 5)) 3 4 23 = true /\ element (Some (8, 1)) 3 4 23 = true /\
  add 3 4 23 (Some (4, 5)) (Some (8, 1)) = Some (12, 3) /\ add 3 4 23 (Some (4, 5)) (Some (4, 18)) = None.
Proof. split; [exact toy_good|]. vm_compute. repeat split; reflexivity. Qed.

(** C76 on curves without points of order two (all built-in ones, see C92); [add_times P c] is P + (P + (... + None)). *)
Theorem C76_mulp_partial : forall p q n, good_curve n (- p) (- q) -> no_two_torsion n (- p) (- q) -> forall P c,
  element P p q n = true -> 0 <= c -> same_point n (mulp p q n P c) (Nat.iter (Z.to_nat c) (add p q n P) None).
Proof. exact mulp_times. Qed.
Print Assumptions C76_mulp_partial.
Theorem C76_mul_affine : forall p q n, good_curve n (- p) (- q) -> forall P c,
  element P p q n = true -> 0 <= c -> same_point n (mul p q n P c) (Nat.iter (Z.to_nat c) (add p q n P) None).
Proof. exact mul_times. Qed.
Print Assumptions C76_mul_affine.
Theorem C76_mulp_refuted : exists p q n P, good_curve n (- p) (- q) /\ element P p q n = true /\
  mulp p q n P 2 = Some (0, 0) /\ add p q n P (add p q n P None) = None.
Proof. exists 3, 4, 23, (Some (10, 0)). split; [exact toy_good|]. vm_compute. repeat split; reflexivity. Qed.
Print Assumptions C76_mulp_refuted.
Example C76_ex : good_curve 11 (- 3) (- 1) /\ no_two_torsion 11 (- 3) (- 1) /\ element (Some (2, 1)) 3 1 11 = true /\
  mulp 3 1 11 (Some (2, 1)) 5 = Some (8, 6) /\ mulp 3 1 11 (Some (2, 1)) 7 = None /\
  Nat.iter 5 (add 3 1 11 (Some (2, 1))) None = Some (8, 6).
Proof. split; [exact toy2_good|]. split; [exact toy2_no2|]. vm_compute. repeat split; reflexivity. Qed.

(** C77 *)
Theorem C77_muladdp_partial : forall p q n, good_curve n (- p) (- q) -> no_two_torsion n (- p) (- q) -> forall P Q c1 c2,
  element P p q n = true -> element Q p q n = true -> 0 <= c1 -> 0 <= c2 ->
  exists R, muladdp p q n P c1 Q c2 = Ok R /\
    same_point n R (add p q n (Nat.iter (Z.to_nat c1) (add p q n P) None) (Nat.iter (Z.to_nat c2) (add p q n Q) None)).
Proof. exact muladdp_times. Qed.
Print Assumptions C77_muladdp_partial.
Theorem C77_muladdp_refuted : exists p q n P Q, good_curve n (- p) (- q) /\ element P p q n = true /\ element Q p q n = true /\
  muladdp p q n P 2 Q 0 = Ok (Some (0, 0)) /\ add p q n P P = None.
Proof. exists 3, 4, 23, (Some (10, 0)), (Some (4, 5)). split; [exact toy_good|]. vm_compute. repeat split; reflexivity. Qed.
Print Assumptions C77_muladdp_refuted.
Example C77_ex : element (Some (2, 1)) 3 1 11 = true /\ element (Some (8, 5)) 3 1 11 = true /\
  muladdp 3 1 11 (Some (2, 1)) 3 (Some (8, 5)) 4 = Ok (add 3 1 11 (mul 3 1 11 (Some (2, 1)) 3) (mul 3 1 11 (Some (8, 5)) 4)).
Proof. vm_compute. repeat split; reflexivity. Qed.

(** C78 *)
Theorem C78_nist_curves : forall name c, by_name name = Ok c ->
  prime (c_p c) /\ prime (c_N c) /\ 3 < c_p c /\
  (4 * (- c_a c) ^ 3 + 27 * (- c_b c) ^ 2) mod c_p c <> 0 /\
  element (Some (c_G c)) (c_a c) (c_b c) (c_p c) = true /\
  (forall k, gmul (c_p c) (- c_a c) k (den (c_p c) (Some (c_G c))) = GO (c_p c) <-> (c_N c | k)).
Proof. exact nist_facts. Qed.
Print Assumptions C78_nist_curves.
(** the constants are those of FIPS 186-4, D.1.2: size, prime, order, b and base point *)
Definition fips : list (list Z * (Z * Z * Z * Z * (Z * Z))) :=
  [(lit "P-256", (256, 2 ^ 256 - 2 ^ 224 + 2 ^ 192 + 2 ^ 96 - 1,
     115792089210356248762697446949407573529996955224135760342422259061068512044369,
     0x5ac635d8aa3a93e7b3ebbd55769886bc651d06b0cc53b0f63bce3c3e27d2604b,
     (0x6b17d1f2e12c4247f8bce6e563a440f277037d812deb33a0f4a13945d898c296,
      0x4fe342e2fe1a7f9b8ee7eb4a7c0f9e162bce33576b315ececbb6406837bf51f5)));
   (lit "P-384", (384, 2 ^ 384 - 2 ^ 128 - 2 ^ 96 + 2 ^ 32 - 1,
     39402006196394479212279040100143613805079739270465446667946905279627659399113263569398956308152294913554433653942643,
     0xb3312fa7e23ee7e4988e056be3f82d19181d9c6efe8141120314088f5013875ac656398d8a2ed19d2a85c8edd3ec2aef,
     (0xaa87ca22be8b05378eb1c71ef320ad746e1d3b628ba79b9859f741e082542a385502f25dbf55296c3a545e3872760ab7,
      0x3617de4a96262c6f5d9e98bf9292dc29f8f41dbd289a147ce9da3113b5f0b8c00a60b1ce1d7e819d7a431d7c90ea0e5f)));
   (lit "P-521", (521, 2 ^ 521 - 1,
     6864797660130609714981900799081393217269435300143305409394463459185543183397655394245057746333217197532963996371363321113864768612440380340372808892707005449,
     0x51953eb9618e1c9a1f929a21a0b68540eea2da725b99b315f3b8b489918ef109e156193951ec7e937b1652c0bd3bb1bf073573df883d2c34f1ef451fd46b503f00,
     (0xc6858e06b70404e9cd9e3ecb662395b4429c648139053fb521f828af606b4d3dbaa14b5e77efe75928fe1dc127a2ffa8de3348b3c1856a429bf97e7e31c2e5bd66,
      0x11839296a789a3bc0045c8a5fb42c7d1bd998f54449579b446817afbd17273e662c97ee72995ef42640c550b9013fad0761353c7086a272c24088be94769fd16650)))].
Theorem C78_parameters : forall name, match dget fips name with
  | Some (bits, p, N, b, G) => exists c, by_name name = Ok c /\ c_bits c = bits /\ c_p c = p /\ c_N c = N /\ - c_a c = -3 /\ (- c_b c) mod p = b /\ c_G c = G
  | None => by_name name = Raise EECCException
  end.
Proof.
  intro name. destruct (dget fips name) as [[[[[bits p] N] b] G]|] eqn:D; unfold fips in D; cbn [dget] in D;
    destruct (zs_eqb (lit "P-256") name) eqn:E1; [| | |];
    [| destruct (zs_eqb (lit "P-384") name) eqn:E2; [| destruct (zs_eqb (lit "P-521") name) eqn:E3; [| discriminate D]] | discriminate D |].
  1-3: (apply zs_eqb_eq in E1 || apply zs_eqb_eq in E2 || apply zs_eqb_eq in E3); subst name; injection D as <- <- <- <- <-; eexists; (split; [vm_compute; reflexivity|]); vm_compute; repeat split; reflexivity.
  destruct (zs_eqb (lit "P-384") name) eqn:E2; [discriminate D|]. destruct (zs_eqb (lit "P-521") name) eqn:E3; [discriminate D|].
  assert (F : forall a, zs_eqb a name = false -> zs_eqb name a = false).
  { intros a Ha. destruct (zs_eqb name a) eqn:Q; [|reflexivity]. apply zs_eqb_eq in Q. subst a.
    rewrite (proj2 (zs_eqb_eq name name) eq_refl) in Ha. discriminate Ha. }
  unfold by_name. rewrite (F _ E1), (F _ E2), (F _ E3). reflexivity.
Qed.
Print Assumptions C78_parameters.
Example C78_ex : exists c, by_name (lit "P-256") = Ok c /\ element (Some (c_G c)) 3 (c_b c) (2 ^ 256 - 2 ^ 224 + 2 ^ 192 + 2 ^ 96 - 1) = true.
Proof. exists P256. split; vm_compute; reflexivity. Qed.

(** C79 *)
Theorem C79_key_pair : forall name c, by_name name = Ok c -> forall rnd, exists d x y,
  key_pair c rnd = (d, Some (x, y)) /\ 1 <= d <= c_N c - 1 /\
  element (Some (x, y)) (c_a c) (c_b c) (c_p c) = true /\ 0 <= x < c_p c /\ 0 <= y < c_p c /\
  GP (c_p c) x y = gmul (c_p c) (- c_a c) d (den (c_p c) (Some (c_G c))).
Proof. exact key_pair_nist. Qed.
Print Assumptions C79_key_pair.
Example C79_ex : key_pair P256 0 = (1, Some (c_G P256)) /\ fst (key_pair P256 (3 * (c_N P256 - 1))) = 1.
Proof. vm_compute. split; reflexivity. Qed.

(** C80 *)
Theorem C80_ecdh_agreement : forall name c, by_name name = Ok c -> forall a b, 0 < a < c_N c -> 0 < b < c_N c ->
  exists z, dh_z c a (public_key_for c b) = Ok z /\ dh_z c b (public_key_for c a) = Ok z /\ length z = Z.to_nat (c_bytes c).
Proof. exact dh_nist. Qed.
Print Assumptions C80_ecdh_agreement.
Example C80_ex : dh_z P256 1 (public_key_for P256 1) = Ok (int2bytes P256 (fst (c_G P256))) /\ c_bytes P256 = 32 /\ c_bytes P521 = 66.
Proof. vm_compute. repeat split; reflexivity. Qed.

(** C81 *)
Theorem C81_sign_verify : forall name c, by_name name = Ok c -> forall fuel h d k rnds sg, 0 <= h -> 0 < d < c_N c ->
  (forall k', k = Some k' -> 0 <= k') -> sign c fuel h d k rnds = Ok sg -> verify c h sg (public_key_for c d) = Ok true.
Proof. exact sign_verify_nist. Qed.
Print Assumptions C81_sign_verify.
Example C81_ex : exists sg, sign P256 2 5 1 (Some 1) (fun _ => 0) = Ok sg /\ length sg = 64%nat /\ nth 63 sg 0 = 155.
Proof. eexists. split; [vm_compute; reflexivity|]. vm_compute. split; reflexivity. Qed.

(** C82 acceptance is the textbook condition ... *)
Theorem C82_verify_textbook_partial : forall name c, by_name name = Ok c -> forall h sg pub, 0 <= h -> bytes_ok sg = true ->
  element pub (c_a c) (c_b c) (c_p c) = true ->
  let r := be2z (firstn (Z.to_nat (c_bytes c)) sg) in
  let s := be2z (skipn (Z.to_nat (c_bytes c)) sg) in
  (verify c h sg pub = Ok true <->
   0 < r < c_N c /\ 0 < s < c_N c /\ exists w x y, (w * s) mod c_N c = 1 /\
     0 <= x < c_p c /\ 0 <= y < c_p c /\
     GP (c_p c) x y = gadd (c_p c) (- c_a c) (gmul (c_p c) (- c_a c) ((trunc h (c_N c) * w) mod c_N c) (den (c_p c) (Some (c_G c))))
                         (gmul (c_p c) (- c_a c) ((r * w) mod c_N c) (den (c_p c) pub)) /\ x mod c_N c = r).
Proof. exact verify_textbook_nist. Qed.
Print Assumptions C82_verify_textbook_partial.
(** ... but refusal is sometimes an uncaught TypeError, never anything else ... *)
Theorem C82_only_type_error_partial : forall name c, by_name name = Ok c -> forall h sg pub, 0 <= h -> bytes_ok sg = true ->
  element pub (c_a c) (c_b c) (c_p c) = true -> forall e, verify c h sg pub = Raise e -> e = ETypeError.
Proof. exact verify_exn_nist. Qed.
Print Assumptions C82_only_type_error_partial.
(** ... as here, where u1*G + u2*Q is the neutral element. *)
Theorem C82_verify_returns_refuted : exists c sg, by_name (lit "P-256") = Ok c /\ bytes_ok sg = true /\ length sg = 64%nat /\
  element (public_key_for c 1) (c_a c) (c_b c) (c_p c) = true /\ verify c 5 sg (public_key_for c 1) = Raise ETypeError.
Proof. exact verify_returns_refuted. Qed.
Print Assumptions C82_verify_returns_refuted.
Example C82_ex : verify P256 5 (repeat 0 64) (Some (c_G P256)) = Ok false /\ bytes_ok (repeat 0 64) = true.
Proof. vm_compute. repeat split; reflexivity. Qed.

(** C83 a hash as long as N but larger than N is shifted although FIPS 186 takes it as it is. *)
Theorem C83_truncation_refuted : exists c h sg, by_name (lit "P-256") = Ok c /\ Z.log2 h <= Z.log2 (c_N c) /\
  sign c 2 h 1 (Some 1) (fun _ => 0) = Ok sg /\
  be2z (skipn 32 sg) <> (h + be2z (firstn 32 sg) * 1) mod c_N c.
Proof. exact trunc_refuted. Qed.
Print Assumptions C83_truncation_refuted.
Theorem C83_short_hash_partial : forall name c, by_name name = Ok c -> forall fuel h d k rnds sg, 0 <= k -> 0 <= h <= c_N c ->
  sign c fuel h d (Some k) rnds = Ok sg ->
  exists r s x y, sg = int2bytes c r ++ int2bytes c s /\ 0 < r < c_N c /\ 0 < s < c_N c /\
    GP (c_p c) x y = gmul (c_p c) (- c_a c) k (den (c_p c) (Some (c_G c))) /\ 0 <= x < c_p c /\
    r = x mod c_N c /\ (s * k) mod c_N c = (h + r * d) mod c_N c.
Proof. exact sign_textbook_nist. Qed.
Print Assumptions C83_short_hash_partial.
(** ES512 (P-521 with a 512-bit hash) is never affected. *)
Theorem C83_es512_exact : forall c h, by_name (lit "P-521") = Ok c -> 0 <= h < 2 ^ 512 -> trunc h (c_N c) = h.
Proof. exact es512_trunc. Qed.
Print Assumptions C83_es512_exact.
(** In general the value used is the hash shifted right, at most N, and sign and verify agree on it. *)
Theorem C83_shift : forall name c, by_name name = Ok c -> forall h, 0 <= h ->
  exists k, 0 <= k /\ trunc h (c_N c) = h / 2 ^ k /\ 0 <= trunc h (c_N c) <= c_N c /\ (h <= c_N c -> k = 0 \/ h = 0).
Proof. exact trunc_shift_nist. Qed.
Print Assumptions C83_shift.
Example C83_ex : trunc (2 ^ 256 - 1) (c_N P256) = 2 ^ 255 - 1 /\ trunc (c_N P256) (c_N P256) = c_N P256.
Proof. vm_compute. split; reflexivity. Qed.

(** C84 a nonce that gives s = 0 is tried again for ever. *)
Theorem C84_sign_terminates_refuted : exists c h, by_name (lit "P-256") = Ok c /\ 0 < h < c_N c /\
  forall fuel, sign c fuel h 1 None (fun _ => 0) = Raise OutOfFuel.
Proof. exact sign_loops. Qed.
Print Assumptions C84_sign_terminates_refuted.
Theorem C84_sign_returns_partial : forall name c, by_name name = Ok c -> forall fuel h d k rnds, 0 < k < c_N c ->
  exists x y, 0 <= x < c_p c /\ GP (c_p c) x y = gmul (c_p c) (- c_a c) k (den (c_p c) (Some (c_G c))) /\
  (x mod c_N c <> 0 -> (trunc h (c_N c) + x mod c_N c * d) mod c_N c <> 0 ->
   exists sg, sign c (S (S fuel)) h d (Some k) rnds = Ok sg).
Proof. exact sign_returns_nist. Qed.
Print Assumptions C84_sign_returns_partial.

(** C85 *)
Theorem C85_sign_length_partial : forall name c, by_name name = Ok c -> forall fuel h d k rnds sg, (forall k', k = Some k' -> 0 <= k') ->
  sign c fuel h d k rnds = Ok sg -> Z.of_nat (length sg) = 2 * c_bytes c /\ bytes_ok sg = true.
Proof. exact sign_length_nist. Qed.
Print Assumptions C85_sign_length_partial.
(** verify takes everything after the first half as s, so zeros can be inserted between r and s. *)
Theorem C85_verify_length_refuted : exists c sg, by_name (lit "P-256") = Ok c /\ bytes_ok sg = true /\ length sg = 1064%nat /\
  verify c 5 sg (public_key_for c 1) = Ok true.
Proof. exact long_signature. Qed.
Print Assumptions C85_verify_length_refuted.
Theorem C85_zero_insertion : forall name c, by_name name = Ok c -> forall h sr ss pub k, Z.of_nat (length sr) = c_bytes c ->
  verify c h (sr ++ repeat 0 k ++ ss) pub = verify c h (sr ++ ss) pub.
Proof. exact verify_longer_nist. Qed.
Print Assumptions C85_zero_insertion.

(** C86 *)
Theorem C86_ecdh_off_curve_refuted : exists c, by_name (lit "P-256") = Ok c /\
  element (Some (1, 7)) (c_a c) (c_b c) (c_p c) = false /\ exists z, dh_z c 1 (Some (1, 7)) = Ok z.
Proof. exists P256. split; [exact by_name_256|]. split; [vm_compute; reflexivity|]. eexists. vm_compute. reflexivity. Qed.
Print Assumptions C86_ecdh_off_curve_refuted.
Theorem C86_verify_off_curve_refuted : exists c sg, by_name (lit "P-256") = Ok c /\
  element (Some (1, 7)) (c_a c) (c_b c) (c_p c) = false /\ verify c 0 sg (Some (1, 7)) = Ok true.
Proof. exists P256, (int2bytes P256 1 ++ int2bytes P256 1). split; [exact by_name_256|]. vm_compute. split; reflexivity. Qed.
Print Assumptions C86_verify_off_curve_refuted.

(** C87 y_from_x is not implemented: uncompress never gives back a point. *)
Theorem C87_compression_refuted : exists c P t, by_name (lit "P-256") = Ok c /\ element P (c_a c) (c_b c) (c_p c) = true /\
  compress P = Ok t /\ forall x y, P = Some (x, y) -> uncompress c t <> (x, Some y).
Proof. exact compress_refuted. Qed.
Print Assumptions C87_compression_refuted.

(** C92 on the built-in curves scalar multiplication is exact for every scalar and point *)
Theorem C92_mulp_nist : forall name c, by_name name = Ok c -> forall P k, element P (c_a c) (c_b c) (c_p c) = true -> 0 <= k ->
  den (c_p c) (mulp (c_a c) (c_b c) (c_p c) P k) = gmul (c_p c) (- c_a c) k (den (c_p c) P) /\
  element (mulp (c_a c) (c_b c) (c_p c) P k) (c_a c) (c_b c) (c_p c) = true.
Proof. exact mulp_nist. Qed.
Print Assumptions C92_mulp_nist.
Theorem C92_muladdp_nist : forall name c, by_name name = Ok c -> forall P Q k l,
  element P (c_a c) (c_b c) (c_p c) = true -> element Q (c_a c) (c_b c) (c_p c) = true -> 0 <= k -> 0 <= l ->
  exists R, muladdp (c_a c) (c_b c) (c_p c) P k Q l = Ok R /\
    den (c_p c) R = gadd (c_p c) (- c_a c) (gmul (c_p c) (- c_a c) k (den (c_p c) P)) (gmul (c_p c) (- c_a c) l (den (c_p c) Q)).
Proof. exact muladdp_nist. Qed.
Print Assumptions C92_muladdp_nist.
Example C92_ex : mulp (c_a P256) (c_b P256) (c_p P256) (Some (c_G P256)) 1 = Some (c_G P256) /\ element (Some (c_G P521)) (c_a P521) (c_b P521) (c_p P521) = true.
Proof. vm_compute. split; reflexivity. Qed.

(** C93 signatures are malleable: (r, s) and (r, N - s) are accepted together. *)
Theorem C93_malleable : forall name c, by_name name = Ok c -> forall h r s d, 0 <= h -> 0 <= d -> 0 < r < c_N c -> 0 < s < c_N c ->
  verify c h (int2bytes c r ++ int2bytes c s) (public_key_for c d) = Ok true ->
  verify c h (int2bytes c r ++ int2bytes c (c_N c - s)) (public_key_for c d) = Ok true.
Proof. exact malleable_nist. Qed.
Print Assumptions C93_malleable.
Example C93_ex : exists r s, 0 < r < c_N P256 /\ 0 < s < c_N P256 /\ sign P256 2 5 1 (Some 1) (fun _ => 0) = Ok (int2bytes P256 r ++ int2bytes P256 s).
Proof. exists (fst (c_G P256)), (fst (c_G P256) + 5). vm_compute. repeat split; reflexivity. Qed.

(** C94 ECDH on a point of the curve: the shared secret is the x coordinate of d*Q in exactly c_bytes octets, or TypeError when d*Q = O. *)
Theorem C94_dh_value : forall name c, by_name name = Ok c -> forall d Q, 0 <= d -> element Q (c_a c) (c_b c) (c_p c) = true ->
  (exists x y, 0 <= x < c_p c /\ 0 <= y < c_p c /\ GP (c_p c) x y = gmul (c_p c) (- c_a c) d (den (c_p c) Q) /\
     dh_z c d Q = Ok (int2bytes c x) /\ length (int2bytes c x) = Z.to_nat (c_bytes c) /\ be2z (int2bytes c x) = x) \/
  (gmul (c_p c) (- c_a c) d (den (c_p c) Q) = GO (c_p c) /\ dh_z c d Q = Raise ETypeError).
Proof. exact dh_value_nist. Qed.
Print Assumptions C94_dh_value.
Example C94_ex : dh_z P521 1 (Some (c_G P521)) = Ok (int2bytes P521 (fst (c_G P521))) /\ length (int2bytes P521 5) = 66%nat /\ dh_z P256 0 (Some (c_G P256)) = Raise ETypeError.
Proof. vm_compute. repeat split; reflexivity. Qed.

(** C168 the signed binary form is non-adjacent ... *)
Theorem C168_sparse : forall n, 0 <= n -> forall l1 a b l2, signed_bin n = l1 ++ a :: b :: l2 -> a = 0 \/ b = 0.
Proof. intros n N l1 a b l2 E. destruct (signed_bin_spec n N) as (L & _). pose proof (signed_bin_sparse n N L) as S. rewrite E in S. exact (sparse_app _ _ _ _ S). Qed.
Print Assumptions C168_sparse.
(** ... hence no other digits -1, 0, 1 for the number have fewer non-zero ones: mulf and muladdf do as few additions as possible *)
Theorem C168_least : forall n, 0 <= n -> forall ds, Forall (fun d => d = -1 \/ d = 0 \/ d = 1) ds -> fold_left (fun v d => 2 * v + d) ds 0 = n ->
  (length (filter (fun d => negb (d =? 0)%Z) (signed_bin n)) <= length (filter (fun d => negb (d =? 0)%Z) ds))%nat.
Proof. intros n N ds D E. destruct (signed_bin_spec n N) as (L & V & W). apply least_weight; [exact W|exact D|exact (signed_bin_sparse n N L)|rewrite E; exact V]. Qed.
Print Assumptions C168_least.
Example C168_ex : signed_bin 11 = [1; 0; -1; 0; -1] /\ fold_left (fun v d => 2 * v + d) [1; 0; 1; 1] 0 = 11 /\ fold_left (fun v d => 2 * v + d) [1; 1; 0; -1] 0 = 11.
Proof. vm_compute. repeat split; reflexivity. Qed.
