(** Code-level corollaries used by the property file. *)
From Coq Require Import ZArith List Bool Lia Znumtheory ZifyBool.
From Verif Require Import Base BaseProofs Zp EcGroup EcSpec Elliptic EcArith EcProofs Ecc EccProofs.
Import ListNotations.
Open Scope Z_scope.

Section Curve.
Variables p q n : Z.
Hypothesis Good : good_curve n (- p) (- q).
Local Notation el P := (element P p q n = true).
Local Notation same := (same_point n).

Lemma el_on : forall P, el P -> on_curve n (- p) (- q) (den n P).
Proof. intros P H. apply den_on. exact H. Qed.

Lemma add_closed : forall P Q, el P -> el Q -> el (add p q n P Q).
Proof.
  intros P Q HP HQ. apply (den_on p q n). apply (add_on p q n Good); apply el_on; assumption.
Qed.

Lemma add_same : forall P P' Q Q', el P -> el Q -> el P' -> el Q' -> same P P' -> same Q Q' -> same (add p q n P Q) (add p q n P' Q').
Proof.
  intros P P' Q Q' HP HQ HP' HQ' E1 E2. apply same_point_den in E1. apply same_point_den in E2.
  apply same_point_den. rewrite !(den_add p q n Good) by (apply el_on; assumption). rewrite E1, E2. reflexivity.
Qed.

Lemma add_assoc : forall P Q R, el P -> el Q -> el R -> same (add p q n (add p q n P Q) R) (add p q n P (add p q n Q R)).
Proof.
  intros P Q R HP HQ HR. apply same_point_den.
  rewrite !(den_add p q n Good); try apply (add_on p q n Good); try (apply el_on; assumption).
  apply (g_assoc p q n Good); apply el_on; assumption.
Qed.

Lemma add_comm : forall P Q, el P -> el Q -> same (add p q n P Q) (add p q n Q P).
Proof.
  intros P Q HP HQ. apply same_point_den. rewrite !(den_add p q n Good) by (apply el_on; assumption).
  apply (g_comm p q n Good); apply el_on; assumption.
Qed.

Lemma add_none_l : forall P, add p q n None P = P.
Proof. intros [[x y]|]; reflexivity. Qed.
Lemma add_none_r : forall P, add p q n P None = P.
Proof. intros [[x y]|]; reflexivity. Qed.

Lemma neg_el : forall P, el P -> el (nega P n).
Proof.
  intros P H. apply (den_on p q n). rewrite (den_neg p q n Good). apply (g_neg_on p q n Good). apply el_on. exact H.
Qed.

Lemma add_neg : forall P, el P -> add p q n P (nega P n) = None.
Proof.
  intros P H. assert (E : den n (add p q n P (nega P n)) = GO n).
  { rewrite (den_add p q n Good); [|apply el_on; exact H|apply el_on; apply neg_el; exact H].
    rewrite (den_neg p q n Good). apply (g_neg_r p q n Good). }
  destruct (add p q n P (nega P n)) as [[x y]|]; [discriminate|reflexivity].
Qed.

(** c-fold addition with the code's own [add] *)
Definition add_times (P : apt) (c : nat) : apt := Nat.iter c (add p q n P) None.

Lemma add_times_den : forall P c, el P -> el (add_times P c) /\ den n (add_times P c) = gmul n (- p) (Z.of_nat c) (den n P).
Proof.
  intros P c H. induction c as [|c [IH1 IH2]]; [split; reflexivity|]. change (add_times P (S c)) with (add p q n P (add_times P c)). split; [apply add_closed; assumption|].
  rewrite (den_add p q n Good) by (apply el_on; assumption). rewrite IH2.
  replace (Z.of_nat (S c)) with (1 + Z.of_nat c) by lia. rewrite (g_mul_add p q n Good) by (apply el_on; exact H).
  rewrite g_mul_1. reflexivity.
Qed.

Lemma mul_times : forall P c, el P -> 0 <= c -> same (mul p q n P c) (add_times P (Z.to_nat c)).
Proof.
  intros P c H Hc. apply same_point_den. rewrite (proj2 (add_times_den P _ H)), Z2Nat.id by exact Hc.
  apply (den_mul p q n Good); [exact Hc|apply el_on; exact H].
Qed.

Hypothesis NoTwo : no_two_torsion n (- p) (- q).

Lemma mulp_times : forall P c, el P -> 0 <= c -> same (mulp p q n P c) (add_times P (Z.to_nat c)).
Proof.
  intros P c H Hc. apply same_point_den. rewrite (proj2 (add_times_den P _ H)), Z2Nat.id by exact Hc.
  apply (den_mulp p q n Good NoTwo); [exact Hc|apply el_on; exact H].
Qed.

Lemma muladdp_times : forall P Q c1 c2, el P -> el Q -> 0 <= c1 -> 0 <= c2 ->
  exists R, muladdp p q n P c1 Q c2 = Ok R /\ same R (add p q n (add_times P (Z.to_nat c1)) (add_times Q (Z.to_nat c2))).
Proof.
  intros P Q c1 c2 HP HQ H1 H2.
  destruct (den_muladdp p q n Good NoTwo P Q c1 c2 H1 H2 (el_on _ HP) (el_on _ HQ)) as (R & E & D & _).
  exists R. split; [exact E|]. apply same_point_den. rewrite D.
  destruct (add_times_den P (Z.to_nat c1) HP) as [A1 A2]. destruct (add_times_den Q (Z.to_nat c2) HQ) as [B1 B2].
  rewrite (den_add p q n Good) by (apply el_on; assumption). rewrite A2, B2, !Z2Nat.id by assumption. reflexivity.
Qed.
End Curve.

(** A Jacobian tuple represents the affine point: z is invertible, the cached powers are right, x = X z^2, y = Y z^3. *)
Definition represents (n : Z) (j : jpt) (P : apt) : Prop :=
  match j, P with
  | None, None => True
  | Some (x, y, z, zs, zc), Some (X, Y) =>
      z mod n <> 0 /\ zs mod n = (z * z) mod n /\ zc mod n = (z * z * z) mod n /\
      x mod n = (X * (z * z)) mod n /\ y mod n = (Y * (z * z * z)) mod n
  | _, _ => False
  end.

Lemma represents_jrep : forall n j P, represents n j P <-> jrep n j (den n P).
Proof.
  intros n [[[[[x y] z] zs] zc]|] [[X Y]|]; cbn; try tauto.
  unfold GP. rewrite <- !of_Z_mul, !of_Z_eq, of_Z_0. tauto.
Qed.

Lemma addf_represents : forall p q n, good_curve n (- p) (- q) -> forall j1 j2 P Q,
  represents n j1 P -> represents n j2 Q -> element P p q n = true -> element Q p q n = true ->
  represents n (addf p q n j1 j2) (add p q n P Q).
Proof.
  intros p q n G j1 j2 P Q R1 R2 E1 E2. apply represents_jrep. rewrite (den_add p q n G) by (apply el_on; assumption).
  apply (jrep_add p q n G); [apply represents_jrep; exact R1|apply represents_jrep; exact R2|apply el_on; exact E1|apply el_on; exact E2].
Qed.

Lemma doublef_represents : forall p q n, good_curve n (- p) (- q) -> forall j P,
  represents n j P -> element P p q n = true -> (forall x y, P = Some (x, y) -> y mod n <> 0) ->
  represents n (doublef p q n j) (add p q n P P).
Proof.
  intros p q n G j P R E NT. apply represents_jrep. rewrite (den_add p q n G) by (apply el_on; assumption).
  apply (jrep_double p q n G); [apply represents_jrep; exact R|apply el_on; exact E|].
  destruct P as [[x y]|]; [|exact I]. cbn. intro Z0. apply of_Z_0 in Z0. revert Z0. apply (NT x y eq_refl).
Qed.

Lemma from_represents : forall p q n, good_curve n (- p) (- q) -> forall j P, represents n j P -> same_point n (from_projective j n) P.
Proof.
  intros p q n G j P R. apply same_point_den. apply (from_jrep p q n G). apply represents_jrep. exact R.
Qed.

(** Signing never depends on the loop bound once it has finished, and a finished loop needs one pass. *)
Lemma sign_loop_stuck : forall c h k d rnds, 
  sign_loop c 1 0 0 h (Some k) d rnds 0 = Raise OutOfFuel -> forall fuel r s i, (r = 0 \/ s = 0) -> sign_loop c fuel r s h (Some k) d rnds i = Raise OutOfFuel.
Proof.
  intros c h k d rnds H. induction fuel as [|fuel IH]; intros r s i H0; cbn [sign_loop].
  - replace ((r =? 0) || (s =? 0)) with true; [reflexivity|]. symmetry. destruct H0 as [-> | ->]; cbn; rewrite ?orb_true_r; reflexivity.
  - replace ((r =? 0) || (s =? 0)) with true by (symmetry; destruct H0 as [-> | ->]; cbn; rewrite ?orb_true_r; reflexivity).
    cbn [sign_loop] in H. replace ((0 =? 0) || (0 =? 0)) with true in H by reflexivity.
    destruct (mulp (c_a c) (c_b c) (c_p c) (Some (c_G c)) k) as [[x y]|]; [|discriminate].
    destruct (x mod c_N c =? 0) eqn:EX.
    + apply IH. left. apply Z.eqb_eq. exact EX.
    + cbn [orb] in H. apply IH. right.
      destruct ((inv k (c_N c) * (h + x mod c_N c * d)) mod c_N c =? 0) eqn:ES; [apply Z.eqb_eq; exact ES|discriminate].
Qed.

Lemma sign_trunc : forall c, sound_curve c -> forall fuel h d k rnds, 0 <= h -> sign c fuel h d k rnds = sign c fuel (trunc h (c_N c)) d k rnds.
Proof. intros c SC fuel h d k rnds H. unfold sign. rewrite (trunc_idem c SC) by exact H. reflexivity. Qed.

Lemma verify_trunc : forall c, sound_curve c -> forall h sg pub, 0 <= h -> verify c h sg pub = verify c (trunc h (c_N c)) sg pub.
Proof. intros c SC h sg pub H. unfold verify. rewrite (trunc_idem c SC) by exact H. reflexivity. Qed.

Lemma be2z_zeros : forall k b, be2z (repeat 0 k ++ b) = be2z b.
Proof. induction k as [|k IH]; intro b; [reflexivity|]. cbn [repeat app]. rewrite be2z_cons, IH. lia. Qed.

Lemma verify_longer : forall c, sound_curve c -> forall h sr ss pub k, length sr = Z.to_nat (c_bytes c) ->
  verify c h (sr ++ repeat 0 k ++ ss) pub = verify c h (sr ++ ss) pub.
Proof.
  intros c SC h sr ss pub k L. unfold verify. rewrite <- L. rewrite !firstn_app, !skipn_app, firstn_all, skipn_all, Nat.sub_diag.
  cbn [firstn skipn app]. unfold bytes2int. rewrite be2z_zeros. reflexivity.
Qed.

Lemma sign_length : forall c, sound_curve c -> forall fuel h d k rnds sg, (forall k', k = Some k' -> 0 <= k') ->
  sign c fuel h d k rnds = Ok sg -> Z.of_nat (length sg) = 2 * c_bytes c /\ bytes_ok sg = true.
Proof.
  intros c SC fuel h d k rnds sg HK H. apply (sign_shape c SC) in H; [|exact HK].
  destruct H as (k' & r & s & -> & Hr & Hs & _ & _). pose proof (sc_Nsize c SC). pose proof (sc_bytes c SC).
  rewrite app_length, !(int2bytes_length c SC) by lia. split; [lia|].
  rewrite bytes_ok_app, !(int2bytes_fixed c SC), !z2be_ok by lia. reflexivity.
Qed.

Lemma verify_textbook : forall c, sound_curve c -> forall h sg pub, 0 <= h -> bytes_ok sg = true ->
  element pub (c_a c) (c_b c) (c_p c) = true ->
  let r := be2z (firstn (Z.to_nat (c_bytes c)) sg) in
  let s := be2z (skipn (Z.to_nat (c_bytes c)) sg) in
  (verify c h sg pub = Ok true <->
   0 < r < c_N c /\ 0 < s < c_N c /\ exists w x y, (w * s) mod c_N c = 1 /\
     0 <= x < c_p c /\ 0 <= y < c_p c /\
     GP (c_p c) x y = gadd (c_p c) (- c_a c) (gmul (c_p c) (- c_a c) ((trunc h (c_N c) * w) mod c_N c) (den (c_p c) (Some (c_G c))))
                         (gmul (c_p c) (- c_a c) ((r * w) mod c_N c) (den (c_p c) pub)) /\ x mod c_N c = r).
Proof.
  intros c SC h sg pub Hh HB E r s. pose proof (verify_eq c SC h sg pub Hh HB (el_on _ _ _ _ E)) as V. cbv zeta in V.
  unfold bytes2int in V. fold r in V. fold s in V. pose proof (sc_N c SC) as HN.
  assert (INV : 0 < s < c_N c -> (inv s (c_N c) * s) mod c_N c = 1) by (intro Hs; apply (inv_N c SC); apply (not_div c); exact Hs).
  split.
  - intro HV. destruct V as [(Hr & Hs & x & y & X & Y & Q & V)|[(_ & _ & _ & V)|[_ V]]]; rewrite V in HV; try discriminate.
    injection HV as HV. apply Z.eqb_eq in HV. split; [exact Hr|]. split; [exact Hs|].
    exists (inv s (c_N c)), x, y. split; [apply INV; exact Hs|]. split; [exact X|]. split; [exact Y|]. split; [symmetry; exact Q|].
    symmetry. exact HV.
  - intros (Hr & Hs & w & x & y & W & X & Y & Q & XR).
    assert (WE : forall u, (u * w) mod c_N c = (u * inv s (c_N c)) mod c_N c).
    { intro u. specialize (INV Hs).
      assert (ONE : forall a b, b mod c_N c = 1 -> (a * b) mod c_N c = a mod c_N c).
      { intros a b Hb. rewrite Z.mul_mod, Hb, Z.mul_1_r, Z.mod_mod by lia. reflexivity. }
      rewrite <- (ONE (u * w) _ INV), <- (ONE (u * inv s (c_N c)) _ W). f_equal. ring. }
    rewrite !WE in Q. destruct V as [(_ & _ & x' & y' & X' & Y' & Q' & V)|[(_ & _ & Q' & _)|[NN _]]].
    + rewrite Q' in Q. apply (den_inj c) in Q; try tauto. destruct Q as [<- <-]. rewrite V. f_equal. apply Z.eqb_eq. congruence.
    + rewrite Q' in Q. discriminate.
    + exfalso. apply NN. split; assumption.
Qed.

Lemma verify_returns_false : forall c, sound_curve c -> forall h sg pub, 0 <= h -> bytes_ok sg = true ->
  element pub (c_a c) (c_b c) (c_p c) = true -> forall e, verify c h sg pub = Raise e -> e = ETypeError.
Proof.
  intros c SC h sg pub Hh HB E e V. pose proof (verify_eq c SC h sg pub Hh HB (el_on _ _ _ _ E)) as W. cbv zeta in W.
  destruct W as [(_ & _ & x & y & _ & _ & _ & W)|[(_ & _ & _ & W)|[_ W]]]; rewrite W in V; congruence.
Qed.

Lemma sign_none_stuck : forall c h d rnds, rnds O mod (c_N c - 1) + 1 = 1 ->
  sign_loop c 1 0 0 h (Some 1) d rnds 0 = Raise OutOfFuel -> forall fuel, sign_loop c fuel 0 0 h None d rnds 0 = Raise OutOfFuel.
Proof.
  intros c h d rnds E H fuel. destruct fuel as [|fuel]; [reflexivity|].
  pose proof (sign_loop_stuck c h 1 d rnds H (S fuel) 0 0 1%nat (or_introl eq_refl)) as S. cbn [sign_loop] in *. rewrite E. exact S.
Qed.

(** One pass is enough whenever the nonce gives r <> 0 and s <> 0. *)
Lemma sign_returns : forall c, sound_curve c -> forall fuel h d k rnds, 0 < k < c_N c ->
  exists x y, 0 <= x < c_p c /\ GP (c_p c) x y = gmul (c_p c) (- c_a c) k (den (c_p c) (Some (c_G c))) /\
  (x mod c_N c <> 0 -> (trunc h (c_N c) + x mod c_N c * d) mod c_N c <> 0 ->
   exists sg, sign c (S (S fuel)) h d (Some k) rnds = Ok sg).
Proof.
  intros c SC fuel h d k rnds K. destruct (pub_some c SC k ltac:(lia) (not_div c k K)) as (x & y & E & X & Y & Q). unfold public_key_for in E.
  exists x, y. split; [exact X|]. split; [exact Q|].
  intros R S. unfold sign. cbn [sign_loop]. rewrite E. change ((0 =? 0) || (0 =? 0)) with true. cbn iota.
    replace (x mod c_N c =? 0) with false by (symmetry; apply Z.eqb_neq; exact R). cbn iota.
    set (s := (inv k (c_N c) * (trunc h (c_N c) + x mod c_N c * d)) mod c_N c).
    assert (S0 : s <> 0).
    { intro S0. apply S. pose proof (inv_N c SC k) as IV. pose proof (sc_N c SC). 
      assert (NK : k mod c_N c <> 0) by (rewrite Z.mod_small by lia; lia).
      rewrite <- (Z.mul_1_l (trunc h (c_N c) + _)). specialize (IV ltac:(apply (not_div c); exact K)).
      rewrite <- IV, Zmult_mod_idemp_l. rewrite (Z.mul_comm (inv k (c_N c))), <- Z.mul_assoc.
      rewrite <- Zmult_mod_idemp_r. fold s. rewrite S0, Z.mul_0_r. apply Zmod_0_l. }
    replace (s =? 0) with false by (symmetry; apply Z.eqb_neq; exact S0). cbn [orb bind]. eexists. reflexivity.
Qed.

(** verify raises when u1*G + u2*Q is the neutral element *)
Lemma verify_raises : forall c, sound_curve c -> forall h sg, 0 <= h -> bytes_ok sg = true ->
  let r := be2z (firstn (Z.to_nat (c_bytes c)) sg) in let s := be2z (skipn (Z.to_nat (c_bytes c)) sg) in
  0 < r < c_N c -> 0 < s < c_N c -> (trunc h (c_N c) + r) mod c_N c = 0 ->
  verify c h sg (Some (c_G c)) = Raise ETypeError.
Proof.
  intros c SC h sg Hh HB r s Hr Hs E. pose proof (sc_G c SC) as EG.
  pose proof (verify_eq c SC h sg (Some (c_G c)) Hh HB (el_on _ _ _ _ EG)) as V. cbv zeta in V. unfold bytes2int in V. fold r s in V.
  pose proof (sc_N c SC) as HN.
  assert (Z0 : gadd (c_p c) (- c_a c) (gmul (c_p c) (- c_a c) ((trunc h (c_N c) * inv s (c_N c)) mod c_N c) (den (c_p c) (Some (c_G c))))
                 (gmul (c_p c) (- c_a c) ((r * inv s (c_N c)) mod c_N c) (den (c_p c) (Some (c_G c)))) = GO (c_p c)).
  { rewrite <- (g_mul_add (c_a c) (c_b c) (c_p c) (sc_good c SC)) by (apply el_on; exact EG).
    apply (order_iff c SC). apply Z.mod_divide; [lia|]. rewrite <- Zplus_mod, <- Z.mul_add_distr_r, <- Zmult_mod_idemp_l, E. apply Zmod_0_l. }
  destruct V as [(_ & _ & x & y & _ & _ & Q & _)|[(_ & _ & _ & V)|[NN _]]].
  - rewrite Q in Z0. discriminate.
  - exact V.
  - exfalso. apply NN. split; assumption.
Qed.

Lemma trunc_same : forall h N, 0 <= h <= N -> trunc h N = h.
Proof. intros h N H. unfold trunc. cbn [trunc_loop]. replace (N <? h) with false by lia. reflexivity. Qed.

Lemma trunc_shift : forall fuel h N, exists k, 0 <= k /\ trunc_loop fuel h N = h / 2 ^ k.
Proof.
  induction fuel as [|fuel IH]; intros h N; cbn [trunc_loop]; [exists 0; rewrite Z.div_1_r; split; [lia|reflexivity]|].
  destruct (N <? h); [|exists 0; rewrite Z.div_1_r; split; [lia|reflexivity]].
  destruct (IH (Z.shiftr h 1) N) as (k & K & E). exists (k + 1). split; [lia|]. rewrite E, Z.shiftr_div_pow2 by lia.
  rewrite Z.div_div by lia. f_equal. rewrite Z.pow_add_r by lia. ring.
Qed.

(** every curve the library can build *)
Require Import Verif.Nist.
Lemma domains_some : forall bits t, domains bits = Some t -> bits = 192 \/ bits = 224 \/ bits = 256 \/ bits = 384 \/ bits = 521 \/ bits = 128 \/ bits = 160.
Proof.
  intros bits t H. unfold domains in H.
  repeat match type of H with (if ?b =? ?n then _ else _) = _ => destruct (Z.eqb_spec b n); [lia|] end. discriminate.
Qed.

Lemma nist_sound : forall bits c, nist_curve bits = Ok c -> sound_curve c.
Proof.
  intros bits c H. assert (D : bits = 192 \/ bits = 224 \/ bits = 256 \/ bits = 384 \/ bits = 521 \/ bits = 128 \/ bits = 160).
  { unfold nist_curve, get_curve in H. destruct (domains bits) as [t|] eqn:E; [exact (domains_some _ _ E)|discriminate]. }
  destruct D as [-> | [-> | [-> | [-> | [-> | [-> | ->]]]]]].
  - rewrite P192_eq in H. injection H as <-. exact P192_sound.
  - rewrite P224_eq in H. injection H as <-. exact P224_sound.
  - rewrite P256_eq in H. injection H as <-. exact P256_sound.
  - rewrite P384_eq in H. injection H as <-. exact P384_sound.
  - rewrite P521_eq in H. injection H as <-. exact P521_sound.
  - discriminate.
  - discriminate.
Qed.

Lemma by_name_sound : forall name c, by_name name = Ok c -> sound_curve c.
Proof.
  intros name c H. unfold by_name in H. destruct (zs_eqb name _); [exact (nist_sound _ _ H)|].
  destruct (zs_eqb name _); [exact (nist_sound _ _ H)|]. destruct (zs_eqb name _); [exact (nist_sound _ _ H)|discriminate].
Qed.

Lemma by_name_521 : by_name (lit "P-521") = Ok P521. Proof. exact P521_eq. Qed.
Lemma by_name_384 : by_name (lit "P-384") = Ok P384. Proof. exact P384_eq. Qed.
Lemma by_name_256 : by_name (lit "P-256") = Ok P256. Proof. exact P256_eq. Qed.

(** *** A small curve for concrete cases: y^2 = x^3 - 3x - 4 over Z/23, which has the 2-torsion point (10, 0). *)
From Verif Require Import PockCheck.
Lemma toy_good : good_curve 23 (- 3) (- 4).
Proof. split; [apply small_prime_ok; vm_compute; reflexivity|]. split; [reflexivity|]. vm_compute. discriminate. Qed.
(** y^2 = x^3 - 3x - 1 over Z/11: x^3 - 3x - 1 has no root. *)
Lemma toy2_good : good_curve 11 (- 3) (- 1).
Proof. split; [apply small_prime_ok; vm_compute; reflexivity|]. split; [reflexivity|]. vm_compute. discriminate. Qed.
Lemma toy2_no2 : no_two_torsion 11 (- 3) (- 1).
Proof.
  intros x E. assert (X : x mod 11 = 0 \/ x mod 11 = 1 \/ x mod 11 = 2 \/ x mod 11 = 3 \/ x mod 11 = 4 \/ x mod 11 = 5 \/ x mod 11 = 6 \/ x mod 11 = 7 \/ x mod 11 = 8 \/ x mod 11 = 9 \/ x mod 11 = 10).
  { pose proof (Z.mod_pos_bound x 11 eq_refl). lia. }
  rewrite Z.add_mod, (Z.add_mod (x * x * x)), (Z.mul_mod (x * x)), (Z.mul_mod x x), (Z.mul_mod (-3)) in E by discriminate.
  repeat (destruct X as [X|X]; [rewrite X in E; discriminate E|]). rewrite X in E. discriminate E.
Qed.

Lemma sign_textbook : forall c, sound_curve c -> forall fuel h d k rnds sg, 0 <= k -> 0 <= h <= c_N c ->
  sign c fuel h d (Some k) rnds = Ok sg ->
  exists r s x y, sg = int2bytes c r ++ int2bytes c s /\ 0 < r < c_N c /\ 0 < s < c_N c /\
    GP (c_p c) x y = gmul (c_p c) (- c_a c) k (den (c_p c) (Some (c_G c))) /\ 0 <= x < c_p c /\
    r = x mod c_N c /\ (s * k) mod c_N c = (h + r * d) mod c_N c.
Proof.
  intros c SC fuel h d k rnds sg K Hh H. unfold sign in H. rewrite (trunc_same h) in H by exact Hh.
  destruct (sign_loop c fuel 0 0 h (Some k) d rnds 0) as [[r s]|] eqn:E; [|discriminate]. cbn in H. injection H as <-.
  apply (sign_loop_ok c SC) in E; [|intros k' E'; injection E' as <-; exact K|left; reflexivity].
  destruct E as (k' & [E|[E _]] & _ & S); [|discriminate]. injection E as <-.
  destruct S as (x & y & X & Y & P & R & R0 & SS & S0). pose proof (sc_N c SC). pose proof (Z.mod_pos_bound x (c_N c) ltac:(lia)).
  exists r, s, x, y. repeat split; try lia; assumption.
Qed.

(** *** statements of the property file *)
Lemma inv_coprime_one : forall a n, 1 < n -> Z.gcd a n = 1 -> 0 <= inv a n /\ (inv a n * a) mod n = 1.
Proof. intros a n H G. destruct (inv_correct a n ltac:(lia)) as [A B]. split; [exact A|]. rewrite B, G. apply Z.mod_small. lia. Qed.
Lemma euclid_total : forall a b, exists u v g, euclid a b = Some (u, v, g) /\ u * a + v * b = g /\ Z.abs g = Z.gcd a b.
Proof.
  intros a b. destruct (euclid_terminates a b) as [[[u v] g] E]. exists u, v, g. split; [exact E|]. apply euclid_spec. exact E.
Qed.
Lemma signed_bin_spec : forall n, 0 <= n ->
  signed_bin_loop (S (Z.to_nat (Z.log2 n))) n [] = Some (signed_bin n) /\
  fold_left (fun v d => 2 * v + d) (signed_bin n) 0 = n /\
  Forall (fun d => d = -1 \/ d = 0 \/ d = 1) (signed_bin n).
Proof. intros n H. destruct (signed_bin_ok n) as (A & B & C). split; [exact A|]. split; [exact B|]. apply C. exact H. Qed.
Lemma add_neutral : forall p q n P, add p q n None P = P /\ add p q n P None = P.
Proof. intros. split; [apply add_none_l|apply add_none_r]. Qed.
Lemma add_inverse : forall p q n, good_curve n (- p) (- q) -> forall P,
  element P p q n = true -> element (nega P n) p q n = true /\ add p q n P (nega P n) = None.
Proof. intros p q n G P E. split; [apply (neg_el p q n G)|apply (add_neg p q n G)]; exact E. Qed.

Section Nist.
Variables (name : list Z) (c : curve).
Hypothesis H : by_name name = Ok c.
Let SC : sound_curve c := by_name_sound name c H.
Local Notation el P := (element P (c_a c) (c_b c) (c_p c) = true).

Lemma nist_facts : prime (c_p c) /\ prime (c_N c) /\ 3 < c_p c /\
  (4 * (- c_a c) ^ 3 + 27 * (- c_b c) ^ 2) mod c_p c <> 0 /\ el (Some (c_G c)) /\
  (forall k, gmul (c_p c) (- c_a c) k (den (c_p c) (Some (c_G c))) = GO (c_p c) <-> (c_N c | k)).
Proof.
  destruct (sc_good c SC) as (A & B & C). split; [exact A|]. split; [apply (sc_prime c SC)|]. split; [exact B|]. split.
  - replace (4 * (- c_a c) ^ 3 + 27 * (- c_b c) ^ 2) with (4 * - c_a c * - c_a c * - c_a c + 27 * - c_b c * - c_b c) by ring. exact C.
  - split; [apply (sc_G c SC)|]. apply (order_iff c SC).
Qed.
Lemma key_pair_nist : forall rnd, exists d x y,
  key_pair c rnd = (d, Some (x, y)) /\ 1 <= d <= c_N c - 1 /\
  el (Some (x, y)) /\ 0 <= x < c_p c /\ 0 <= y < c_p c /\
  GP (c_p c) x y = gmul (c_p c) (- c_a c) d (den (c_p c) (Some (c_G c))).
Proof. exact (key_pair_ok c SC). Qed.
Lemma dh_nist : forall a b, 0 < a < c_N c -> 0 < b < c_N c ->
  exists z, dh_z c a (public_key_for c b) = Ok z /\ dh_z c b (public_key_for c a) = Ok z /\ length z = Z.to_nat (c_bytes c).
Proof. exact (dh_agree c SC). Qed.
Lemma sign_verify_nist : forall fuel h d k rnds sg, 0 <= h -> 0 < d < c_N c ->
  (forall k', k = Some k' -> 0 <= k') -> sign c fuel h d k rnds = Ok sg -> verify c h sg (public_key_for c d) = Ok true.
Proof. intros fuel h d k rnds sg Hh Hd. apply (sign_verify c SC); [exact Hh|lia]. Qed.
Lemma verify_textbook_nist : forall h sg pub, 0 <= h -> bytes_ok sg = true -> el pub ->
  let r := be2z (firstn (Z.to_nat (c_bytes c)) sg) in
  let s := be2z (skipn (Z.to_nat (c_bytes c)) sg) in
  (verify c h sg pub = Ok true <->
   0 < r < c_N c /\ 0 < s < c_N c /\ exists w x y, (w * s) mod c_N c = 1 /\
     0 <= x < c_p c /\ 0 <= y < c_p c /\
     GP (c_p c) x y = gadd (c_p c) (- c_a c) (gmul (c_p c) (- c_a c) ((trunc h (c_N c) * w) mod c_N c) (den (c_p c) (Some (c_G c))))
                         (gmul (c_p c) (- c_a c) ((r * w) mod c_N c) (den (c_p c) pub)) /\ x mod c_N c = r).
Proof. exact (verify_textbook c SC). Qed.
Lemma verify_exn_nist : forall h sg pub, 0 <= h -> bytes_ok sg = true -> el pub -> forall e, verify c h sg pub = Raise e -> e = ETypeError.
Proof. exact (verify_returns_false c SC). Qed.
Lemma sign_textbook_nist : forall fuel h d k rnds sg, 0 <= k -> 0 <= h <= c_N c ->
  sign c fuel h d (Some k) rnds = Ok sg ->
  exists r s x y, sg = int2bytes c r ++ int2bytes c s /\ 0 < r < c_N c /\ 0 < s < c_N c /\
    GP (c_p c) x y = gmul (c_p c) (- c_a c) k (den (c_p c) (Some (c_G c))) /\ 0 <= x < c_p c /\
    r = x mod c_N c /\ (s * k) mod c_N c = (h + r * d) mod c_N c.
Proof. exact (sign_textbook c SC). Qed.
Lemma trunc_shift_nist : forall h, 0 <= h ->
  exists k, 0 <= k /\ trunc h (c_N c) = h / 2 ^ k /\ 0 <= trunc h (c_N c) <= c_N c /\ (h <= c_N c -> k = 0 \/ h = 0).
Proof.
  intros h Hh. destruct (Z_le_gt_dec h (c_N c)) as [L|G].
  - exists 0. rewrite trunc_same by lia. rewrite Z.div_1_r. repeat split; try lia.
  - destruct (trunc_shift (S (Z.to_nat (Z.log2 h))) h (c_N c)) as (k & K & E). exists k. fold (trunc h (c_N c)) in E.
    pose proof (trunc_le c SC h Hh). repeat split; try lia; exact E.
Qed.
Lemma sign_returns_nist : forall fuel h d k rnds, 0 < k < c_N c ->
  exists x y, 0 <= x < c_p c /\ GP (c_p c) x y = gmul (c_p c) (- c_a c) k (den (c_p c) (Some (c_G c))) /\
  (x mod c_N c <> 0 -> (trunc h (c_N c) + x mod c_N c * d) mod c_N c <> 0 ->
   exists sg, sign c (S (S fuel)) h d (Some k) rnds = Ok sg).
Proof. exact (sign_returns c SC). Qed.
Lemma sign_length_nist : forall fuel h d k rnds sg, (forall k', k = Some k' -> 0 <= k') ->
  sign c fuel h d k rnds = Ok sg -> Z.of_nat (length sg) = 2 * c_bytes c /\ bytes_ok sg = true.
Proof. exact (sign_length c SC). Qed.
Lemma verify_longer_nist : forall h sr ss pub k, Z.of_nat (length sr) = c_bytes c ->
  verify c h (sr ++ repeat 0 k ++ ss) pub = verify c h (sr ++ ss) pub.
Proof. intros h sr ss pub k L. apply (verify_longer c SC). lia. Qed.
Lemma mulp_nist : forall P k, el P -> 0 <= k ->
  den (c_p c) (mulp (c_a c) (c_b c) (c_p c) P k) = gmul (c_p c) (- c_a c) k (den (c_p c) P) /\ el (mulp (c_a c) (c_b c) (c_p c) P k).
Proof.
  intros P k E K. pose proof (den_mulp _ _ _ (sc_good c SC) (sc_no2 c SC) P k K (el_on _ _ _ _ E)) as D. split; [exact D|].
  apply den_on. rewrite D. apply (g_mul_on _ _ _ (sc_good c SC)). apply el_on. exact E.
Qed.
Lemma muladdp_nist : forall P Q k l, el P -> el Q -> 0 <= k -> 0 <= l ->
  exists R, muladdp (c_a c) (c_b c) (c_p c) P k Q l = Ok R /\
    den (c_p c) R = gadd (c_p c) (- c_a c) (gmul (c_p c) (- c_a c) k (den (c_p c) P)) (gmul (c_p c) (- c_a c) l (den (c_p c) Q)).
Proof.
  intros P Q k l EP EQ K L.
  destruct (den_muladdp _ _ _ (sc_good c SC) (sc_no2 c SC) P Q k l K L (el_on _ _ _ _ EP) (el_on _ _ _ _ EQ)) as (R & E & D & _).
  exists R. split; [exact E|exact D].
Qed.
Lemma malleable_nist : forall h r s d, 0 <= h -> 0 <= d -> 0 < r < c_N c -> 0 < s < c_N c ->
  verify c h (int2bytes c r ++ int2bytes c s) (public_key_for c d) = Ok true ->
  verify c h (int2bytes c r ++ int2bytes c (c_N c - s)) (public_key_for c d) = Ok true.
Proof.
  intros h r s d Hh Hd Hr Hs. pose proof (sc_N c SC). apply (malleable c SC); try assumption.
  - rewrite (den_pub c SC) by exact Hd. apply (g_mul_on _ _ _ (sc_good c SC)). apply el_on. apply (sc_G c SC).
  - rewrite (den_pub c SC) by exact Hd. rewrite <- (g_mul_mul _ _ _ (sc_good c SC)) by (apply el_on; apply (sc_G c SC)).
    apply (order_iff c SC). apply Z.divide_factor_l.
Qed.
Lemma dh_value_nist : forall d Q, 0 <= d -> el Q ->
  (exists x y, 0 <= x < c_p c /\ 0 <= y < c_p c /\ GP (c_p c) x y = gmul (c_p c) (- c_a c) d (den (c_p c) Q) /\
     dh_z c d Q = Ok (int2bytes c x) /\ length (int2bytes c x) = Z.to_nat (c_bytes c) /\ be2z (int2bytes c x) = x) \/
  (gmul (c_p c) (- c_a c) d (den (c_p c) Q) = GO (c_p c) /\ dh_z c d Q = Raise ETypeError).
Proof.
  intros d Q Hd E. destruct (dh_spec c SC d Q Hd (el_on _ _ _ _ E)) as [(x & y & X & Y & G & D)|D]; [left|right; exact D].
  exists x, y. pose proof (sc_psize c SC). pose proof (sc_bytes c SC). repeat split; try lia; try assumption.
  - rewrite (int2bytes_length c SC) by lia. reflexivity.
  - rewrite (int2bytes_fixed c SC) by lia. apply be2z_z2be. rewrite Z2Nat.id by lia. lia.
Qed.
End Nist.

Lemma verify_returns_refuted : exists c sg, by_name (lit "P-256") = Ok c /\ bytes_ok sg = true /\ length sg = 64%nat /\
  element (public_key_for c 1) (c_a c) (c_b c) (c_p c) = true /\ verify c 5 sg (public_key_for c 1) = Raise ETypeError.
Proof.
  exists P256, (int2bytes P256 (c_N P256 - 5) ++ int2bytes P256 1).
  assert (E : public_key_for P256 1 = Some (c_G P256)) by (vm_compute; reflexivity).
  split; [exact by_name_256|]. split; [vm_compute; reflexivity|]. split; [vm_compute; reflexivity|]. rewrite E. split; [exact P256_G|].
  apply (verify_raises P256 P256_sound); [lia|vm_compute; reflexivity| | |].
  - vm_compute. split; reflexivity.
  - vm_compute. split; reflexivity.
  - vm_compute. reflexivity.
Qed.
Lemma trunc_refuted : exists c h sg, by_name (lit "P-256") = Ok c /\ Z.log2 h <= Z.log2 (c_N c) /\
  sign c 2 h 1 (Some 1) (fun _ => 0) = Ok sg /\
  be2z (skipn 32 sg) <> (h + be2z (firstn 32 sg) * 1) mod c_N c.
Proof.
  exists P256, (c_N P256 + 1). eexists. split; [exact by_name_256|]. split; [vm_compute; discriminate|].
  split; [vm_compute; reflexivity|]. vm_compute. discriminate.
Qed.
Lemma es512_trunc : forall c h, by_name (lit "P-521") = Ok c -> 0 <= h < 2 ^ 512 -> trunc h (c_N c) = h.
Proof.
  intros c h H Hh. rewrite by_name_521 in H. injection H as <-. apply trunc_same. split; [lia|].
  apply Z.le_trans with (m := 2 ^ 512); [lia|]. vm_compute. discriminate.
Qed.
Lemma sign_loops : exists c h, by_name (lit "P-256") = Ok c /\ 0 < h < c_N c /\
  forall fuel, sign c fuel h 1 None (fun _ => 0) = Raise OutOfFuel.
Proof.
  exists P256, (c_N P256 - fst (c_G P256)). split; [exact by_name_256|]. split; [vm_compute; split; reflexivity|].
  intro fuel. unfold sign. rewrite (sign_none_stuck P256); [reflexivity|vm_compute; reflexivity|vm_compute; reflexivity].
Qed.
Lemma long_signature : exists c sg, by_name (lit "P-256") = Ok c /\ bytes_ok sg = true /\ length sg = 1064%nat /\
  verify c 5 sg (public_key_for c 1) = Ok true.
Proof.
  exists P256, (int2bytes P256 (fst (c_G P256)) ++ repeat 0 1000 ++ int2bytes P256 (fst (c_G P256) + 5)).
  split; [exact by_name_256|]. split; [vm_compute; reflexivity|]. split; [vm_compute; reflexivity|].
  rewrite (verify_longer P256 P256_sound) by (vm_compute; reflexivity).
  apply (sign_verify P256 P256_sound) with (fuel := 2%nat) (k := Some 1) (rnds := fun _ => 0); [lia|lia| |vm_compute; reflexivity].
  intros k' E. injection E as <-. lia.
Qed.
Lemma compress_refuted : exists c P t, by_name (lit "P-256") = Ok c /\ element P (c_a c) (c_b c) (c_p c) = true /\
  compress P = Ok t /\ forall x y, P = Some (x, y) -> uncompress c t <> (x, Some y).
Proof.
  exists P256, (Some (c_G P256)), (fst (c_G P256), sign_bit (Some (c_G P256))).
  split; [exact by_name_256|]. split; [exact P256_G|]. split; [reflexivity|]. intros x y _ E. discriminate E.
Qed.
