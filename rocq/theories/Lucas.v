(** A primality criterion using a factor of n + 1 (Morrison), needed for one of the primes behind the order of P-521.
    It works in Z[sqrt D], represented by pairs.  Specification side only. *)
From Coq Require Import ZArith Znumtheory Zpow_facts List Bool Lia Ring.
From Bignums Require Import BigZ.
From Verif Require Import Pock PockCheck.
Import ListNotations.
Open Scope Z_scope.

Definition quad := (Z * Z)%type.
Definition q0 : quad := (0, 0).
Definition q1 : quad := (1, 0).
Definition qadd (x y : quad) : quad := (fst x + fst y, snd x + snd y).
Definition qopp (x : quad) : quad := (- fst x, - snd x).
Definition qsub (x y : quad) : quad := qadd x (qopp y).
Definition qmul (D : Z) (x y : quad) : quad := (fst x * fst y + D * (snd x * snd y), fst x * snd y + snd x * fst y).

Lemma quad_ring : forall D, ring_theory q0 q1 qadd (qmul D) qsub qopp eq.
Proof.
  intro D. constructor; intros; repeat match goal with x : quad |- _ => destruct x end; unfold q0, q1, qadd, qmul, qsub, qopp, qadd; cbn [fst snd];
    try reflexivity; f_equal; ring.
Qed.

(** *** Binomial coefficients *)
Fixpoint binom (n k : nat) : Z :=
  match n, k with
  | _, O => 1
  | O, S _ => 0
  | S n', S k' => binom n' k' + binom n' (S k')
  end.

Lemma binom_0 : forall n, binom n 0 = 1.
Proof. destruct n; reflexivity. Qed.

Lemma binom_big : forall n k, (n < k)%nat -> binom n k = 0.
Proof.
  induction n as [|n IH]; intros k H; destruct k as [|k]; try lia; [reflexivity|]. cbn [binom].
  rewrite !IH by lia. reflexivity.
Qed.

Lemma binom_diag : forall n, binom n n = 1.
Proof. induction n as [|n IH]; [reflexivity|]. cbn [binom]. rewrite IH, binom_big by lia. reflexivity. Qed.

Lemma binom_absorb : forall n k, Z.of_nat (S k) * binom (S n) (S k) = Z.of_nat (S n) * binom n k.
Proof.
  induction n as [|n IH]; intro k.
  - destruct k as [|k]; [reflexivity|]. cbn [binom]. lia.
  - change (binom (S (S n)) (S k)) with (binom (S n) k + binom (S n) (S k)).
    rewrite Z.mul_add_distr_l, IH. destruct k as [|k].
    + rewrite !binom_0. lia.
    + specialize (IH k). change (binom (S n) (S k)) with (binom n k + binom n (S k)) in *. nia.
Qed.

Lemma prime_binom : forall r k, prime (Z.of_nat r) -> (0 < k < r)%nat -> (Z.of_nat r | binom r k).
Proof.
  intros r k P K. destruct r as [|r]; [lia|]. destruct k as [|k]; [lia|].
  apply Gauss with (b := Z.of_nat (S k)).
  - exists (binom r k). rewrite binom_absorb. ring.
  - apply prime_rel_prime; [exact P|]. intros D. apply Z.divide_pos_le in D; lia.
Qed.

Section Quad.
Variable D : Z.
Notation "x *q y" := (qmul D x y) (at level 40, left associativity).
Notation "x +q y" := (qadd x y) (at level 50, left associativity).
Add Ring qring : (quad_ring D).

Fixpoint qpow (x : quad) (n : nat) : quad := match n with O => q1 | S m => x *q qpow x m end.
Definition sc (k : Z) : quad := (k, 0).
Fixpoint qsum (f : nat -> quad) (n : nat) : quad := match n with O => q0 | S m => qsum f m +q f m end.

Lemma qpow_add : forall x m n, qpow x (m + n) = qpow x m *q qpow x n.
Proof. intros x m n. induction m as [|m IH]; cbn [qpow plus]; [ring|]. rewrite IH. ring. Qed.
Lemma qpow_mul : forall x m n, qpow x (m * n) = qpow (qpow x m) n.
Proof.
  intros x m n. induction n as [|n IH]; [rewrite Nat.mul_0_r; reflexivity|].
  rewrite Nat.mul_succ_r, Nat.add_comm, qpow_add, IH. reflexivity.
Qed.

Lemma qsum_ext : forall f g n, (forall k, (k < n)%nat -> f k = g k) -> qsum f n = qsum g n.
Proof. intros f g n. induction n as [|n IH]; intro H; [reflexivity|]. cbn [qsum]. rewrite IH, H by auto with arith. reflexivity. Qed.
Lemma qsum_add : forall f g n, qsum (fun k => f k +q g k) n = qsum f n +q qsum g n.
Proof. intros f g n. induction n as [|n IH]; cbn [qsum]; [ring|]. rewrite IH. ring. Qed.
Lemma qsum_mul : forall x f n, qsum (fun k => x *q f k) n = x *q qsum f n.
Proof. intros x f n. induction n as [|n IH]; cbn [qsum]; [ring|]. rewrite IH. ring. Qed.
Lemma qsum_shift : forall f n, qsum f (S n) = f O +q qsum (fun k => f (S k)) n.
Proof. intros f n. induction n as [|n IH]; [cbn [qsum]; ring|]. change (qsum f (S (S n))) with (qsum f (S n) +q f (S n)). rewrite IH. cbn [qsum]. ring. Qed.

Lemma sc_add : forall a b, sc (a + b) = sc a +q sc b.
Proof. intros. unfold sc, qadd. cbn. f_equal. Qed.

Lemma binomial : forall x n m, (n < m)%nat -> qpow (q1 +q x) n = qsum (fun k => sc (binom n k) *q qpow x k) m.
Proof.
  intros x. induction n as [|n IH]; intros m H; (destruct m as [|m]; [lia|]).
  - rewrite qsum_shift. cbn [qpow binom]. 
    rewrite (qsum_ext _ (fun _ => q0 *q q0)); [|intros k K; cbv beta; change (sc 0) with q0; ring].
    rewrite qsum_mul. change (sc 1) with q1. ring.
  - cbn [qpow]. rewrite qsum_shift. cbn [qpow]. rewrite binom_0. change (sc 1) with q1.
    rewrite (qsum_ext _ (fun k => (x *q (sc (binom n k) *q qpow x k)) +q (sc (binom n (S k)) *q qpow x (S k)))).
    2:{ intros k K. cbn [binom]. rewrite sc_add. cbn [qpow]. ring. }
    rewrite qsum_add, qsum_mul, <- (IH m) by lia.
    pose proof (IH (S m) ltac:(lia)) as E. rewrite qsum_shift in E. cbn [qpow] in E. rewrite binom_0 in E. change (sc 1) with q1 in E.
    transitivity (qpow (q1 +q x) n +q x *q qpow (q1 +q x) n); [ring|]. rewrite E at 1. cbn [qpow]. ring.
Qed.

(** *** congruence *)
Definition cong (r : Z) (x y : quad) : Prop := (r | fst x - fst y) /\ (r | snd x - snd y).

Lemma cong_refl : forall r x, cong r x x.
Proof. intros r x. split; rewrite Z.sub_diag; apply Z.divide_0_r. Qed.
Lemma cong_sym : forall r x y, cong r x y -> cong r y x.
Proof. intros r x y [[k H] [l K]]. split; [exists (- k)|exists (- l)]; lia. Qed.
Lemma cong_trans : forall r x y z, cong r x y -> cong r y z -> cong r x z.
Proof. intros r x y z [[k H] [l K]] [[k' H'] [l' K']]. split; [exists (k + k')|exists (l + l')]; lia. Qed.
Lemma cong_add : forall r x y z t, cong r x y -> cong r z t -> cong r (x +q z) (y +q t).
Proof. intros r x y z t [[k H] [l K]] [[k' H'] [l' K']]. split; cbn; [exists (k + k')|exists (l + l')]; lia. Qed.
Lemma cong_mul : forall r x y z t, cong r x y -> cong r z t -> cong r (x *q z) (y *q t).
Proof.
  intros r [x1 x2] [y1 y2] [z1 z2] [t1 t2] [[k H] [l K]] [[k' H'] [l' K']]. cbn in *.
  assert (x1 = y1 + k * r) by lia. assert (x2 = y2 + l * r) by lia. assert (z1 = t1 + k' * r) by lia. assert (z2 = t2 + l' * r) by lia. subst.
  split; cbn.
  - exists (y1 * k' + k * t1 + k * r * k' + D * (y2 * l' + l * t2 + l * r * l')). ring.
  - exists (y1 * l' + k * t2 + k * r * l' + y2 * k' + l * t1 + l * r * k'). ring.
Qed.
Lemma cong_pow : forall r x y n, cong r x y -> cong r (qpow x n) (qpow y n).
Proof. intros r x y n H. induction n as [|n IH]; [apply cong_refl|]. cbn [qpow]. apply cong_mul; assumption. Qed.
Lemma cong_div : forall r n x y, (r | n) -> cong n x y -> cong r x y.
Proof. intros r n x y H [H1 H2]. split; eapply Z.divide_trans; eassumption. Qed.
Lemma pow_one : forall r x m n, cong r (qpow x m) q1 -> cong r (qpow x (m * n)) q1.
Proof.
  intros r x m n H. rewrite qpow_mul. apply cong_trans with (y := qpow q1 n); [apply cong_pow; exact H|].
  replace (qpow q1 n) with q1; [apply cong_refl|]. induction n as [|n IH]; [reflexivity|]. cbn [qpow]. rewrite <- IH. ring.
Qed.

Lemma cong_sum0 : forall r f n, (forall k, (k < n)%nat -> cong r (f k) q0) -> cong r (qsum f n) q0.
Proof.
  intros r f n. induction n as [|n IH]; intro H; [apply cong_refl|]. cbn [qsum].
  change q0 with (q0 +q q0). apply cong_add; [apply IH; auto with arith|apply H; lia].
Qed.

Lemma frob1 : forall r x, prime (Z.of_nat r) -> cong (Z.of_nat r) (qpow (q1 +q x) r) (q1 +q qpow x r).
Proof.
  intros r x P. assert (R2 := prime_ge_2 _ P). rewrite (binomial x r (S r)) by lia.
  cbn [qsum]. rewrite binom_diag. change (sc 1) with q1.
  replace (q1 +q qpow x r) with (q1 +q q1 *q qpow x r) by ring. apply cong_add; [|apply cong_refl].
  destruct r as [|r]; [lia|]. rewrite qsum_shift. rewrite binom_0. change (sc 1) with q1.
  replace q1 with (q1 *q qpow x 0 +q q0) at 2 by (cbn [qpow]; ring). apply cong_add; [apply cong_refl|].
  apply cong_sum0. intros k K. replace q0 with (q0 *q qpow x (S k)) by ring. apply cong_mul; [|apply cong_refl].
  split; cbn [fst snd sc q0]; [|apply Z.divide_0_r]. rewrite Z.sub_0_r. apply prime_binom; [exact P|lia].
Qed.

Lemma frob : forall r x a, prime (Z.of_nat r) -> cong (Z.of_nat r) (qpow (sc (Z.of_nat a) +q x) r) (sc (Z.of_nat a) +q qpow x r).
Proof.
  intros r x a P. induction a as [|a IH].
  - change (sc (Z.of_nat 0)) with q0. replace (q0 +q x) with x by ring. replace (q0 +q qpow x r) with (qpow x r) by ring. apply cong_refl.
  - replace (sc (Z.of_nat (S a))) with (q1 +q sc (Z.of_nat a)) by (unfold sc, q1, qadd; cbn [fst snd]; f_equal; lia).
    replace (q1 +q sc (Z.of_nat a) +q x) with (q1 +q (sc (Z.of_nat a) +q x)) by ring.
    eapply cong_trans; [apply frob1; exact P|].
    replace (q1 +q sc (Z.of_nat a) +q qpow x r) with (q1 +q (sc (Z.of_nat a) +q qpow x r)) by ring.
    apply cong_add; [apply cong_refl|exact IH].
Qed.

Lemma pow_pure : forall b k, qpow (0, b) (2 * k) = sc ((b * b * D) ^ Z.of_nat k).
Proof.
  intros b k. induction k as [|k IH]; [reflexivity|].
  replace (2 * S k)%nat with (S (S (2 * k))) by lia. cbn [qpow]. rewrite IH.
  rewrite Nat2Z.inj_succ, Z.pow_succ_r by lia. unfold sc, qmul. cbn [fst snd]. f_equal; ring.
Qed.

(** x^r is x or its conjugate *)
Lemma frobenius : forall r a b, prime r -> r <> 2 ->
  cong r (qpow (a, b) (Z.to_nat r)) (a, b * D ^ ((r - 1) / 2)).
Proof.
  intros r a b P R. assert (R2 := prime_ge_2 r P).
  assert (OD : Z.odd r = true).
  { destruct (Z.odd r) eqn:E; [reflexivity|]. exfalso. rewrite Zodd_even_bool in E. apply negb_false_iff in E. apply Z.even_spec in E. destruct E as [k E].
    assert (Dv : (2 | r)) by (exists k; lia). apply prime_div_prime in Dv; [lia|apply prime_2|exact P]. }
  set (a' := a mod r). assert (A0 := Z.mod_pos_bound a r ltac:(lia)). fold a' in A0.
  assert (CA : cong r (a, b) (sc (Z.of_nat (Z.to_nat a')) +q (0, b))).
  { rewrite Z2Nat.id by lia. split; cbn [fst snd sc qadd]; [|exists 0; lia]. exists (a / r). unfold a'. pose proof (Z.div_mod a r). lia. }
  eapply cong_trans; [apply cong_pow; exact CA|].
  assert (RN : r = Z.of_nat (Z.to_nat r)) by lia.
  rewrite RN at 1. eapply cong_trans; [apply frob; rewrite <- RN; exact P|]. rewrite <- RN.
  set (k := (r - 1) / 2). apply Z.odd_spec in OD. destruct OD as [m M].
  assert (K : k = m) by (unfold k; rewrite M; replace (2 * m + 1 - 1) with (m * 2) by lia; apply Z.div_mul; lia).
  replace (Z.to_nat r) with (S (2 * Z.to_nat m)) by lia. cbn [qpow]. rewrite pow_pure. rewrite K.
  split; cbn [fst snd sc qadd qmul].
  - rewrite Z2Nat.id by lia. exists (- (a / r)). unfold a'. pose proof (Z.div_mod a r). lia.
  - rewrite !(Z2Nat.id m) by lia. rewrite Z.pow_mul_l. pose proof (fermat_all r b P) as F.
    assert (F' : (r | b ^ r - b)). { apply Z.mod_divide; [lia|]. rewrite Zminus_mod, F, Z.sub_diag. apply Zmod_0_l. }
    replace (0 + (0 * 0 + b * ((b * b) ^ m * D ^ m)) - b * D ^ m) with ((b ^ r - b) * D ^ m); [apply Z.divide_mul_l; exact F'|].
    rewrite M, Z.pow_add_r, Z.pow_mul_r by lia. rewrite Z.pow_2_r. ring.
Qed.

Lemma pow_gcd : forall r x m k, 0 < m -> 0 < k -> cong r (qpow x (Z.to_nat m)) q1 -> cong r (qpow x (Z.to_nat k)) q1 ->
  cong r (qpow x (Z.to_nat (Z.gcd m k))) q1.
Proof.
  intros r x m k M K Hm Hk. destruct (Z.gcd_bezout m k (Z.gcd m k) eq_refl) as (u & v & E).
  set (g := Z.gcd m k) in *. pose proof (Z.gcd_nonneg m k) as G. fold g in G.
  set (t := Z.abs u + Z.abs v).
  assert (E2 : (u + t * k) * m = g + (t * m - v) * k) by nia.
  assert (U0 : 0 <= u + t * k) by nia. assert (V0 : 0 <= t * m - v) by nia.
  pose proof (pow_one r x _ (Z.to_nat (u + t * k)) Hm) as X. pose proof (pow_one r x _ (Z.to_nat (t * m - v)) Hk) as Y.
  rewrite <- Z2Nat.inj_mul in X, Y by lia. rewrite (Z.mul_comm m), E2, (Z.mul_comm _ k), Z2Nat.inj_add, qpow_add in X by nia.
  eapply cong_trans; [|exact X]. apply cong_sym.
  replace (qpow x (Z.to_nat g)) with (qpow x (Z.to_nat g) *q q1) at 2 by ring. apply cong_mul; [apply cong_refl|exact Y].
Qed.

Theorem morrison : forall n q a b, 1 < n -> Z.odd n = true -> prime q -> (q | n + 1) -> n < (q - 1) * (q - 1) ->
  (n | a * a - D * (b * b) - 1) ->
  cong n (qpow (a, b) (Z.to_nat (n + 1))) q1 ->
  Z.gcd (snd (qpow (a, b) (Z.to_nat ((n + 1) / q)))) n = 1 -> prime n.
Proof.
  intros n q a b H1 ON PQ DQ HS HN HP HG. apply prime_by_divisors; [exact H1|]. intros r Pr Dr.
  assert (R2 := prime_ge_2 r Pr). assert (Q2 := prime_ge_2 q PQ).
  assert (R3 : r <> 2). { intros ->. destruct Dr as [k K]. subst n. rewrite Z.odd_mul in ON. rewrite andb_false_r in ON. discriminate. }
  set (al := (a, b) : quad) in *. set (cj := (a, - b) : quad).
  assert (NR : (r | a * a - D * (b * b) - 1)) by (eapply Z.divide_trans; eassumption).
  assert (CJ : cong r (cj *q al) q1).
  { split; cbn [fst snd qmul cj al q1]; [|exists 0; lia]. destruct NR as [c C]. exists c. lia. }
  pose proof (frobenius r a b Pr R3) as FR. fold al in FR. set (e := D ^ ((r - 1) / 2)) in FR.
  assert (ORD : exists m, 0 < m /\ (m = r - 1 \/ m = r + 1 \/ m = 2 * r) /\ cong r (qpow al (Z.to_nat m)) q1).
  { assert (EE : (r | e * (e - 1) * (e + 1))).
    { destruct (Zdivide_dec r D) as [DD|DD].
      - apply Z.divide_mul_l, Z.divide_mul_l. unfold e. assert (O : 0 < (r - 1) / 2) by (apply Z.div_str_pos; lia).
        replace ((r - 1) / 2) with (Z.succ ((r - 1) / 2 - 1)) by lia. rewrite Z.pow_succ_r by lia. apply Z.divide_mul_l. exact DD.
      - replace (e * (e - 1) * (e + 1)) with (e * (e * e - 1)) by ring. apply Z.divide_mul_r.
        assert (OD : (r - 1) / 2 + (r - 1) / 2 = r - 1).
        { destruct (Z.odd r) eqn:E.
          - apply Z.odd_spec in E. destruct E as [m ->]. replace (2 * m + 1 - 1) with (m * 2) by lia. rewrite Z.div_mul by lia. lia.
          - exfalso. destruct Dr as [c C]. subst n. rewrite Z.odd_mul, E, andb_false_r in ON. discriminate. }
        unfold e. rewrite <- Z.pow_add_r by (apply Z.div_pos; lia). rewrite OD.
        pose proof (fermat r D Pr DD) as F. apply Z.mod_divide; [lia|]. rewrite Zminus_mod, F, (Z.mod_small 1) by lia. apply Zmod_0_l. }
    apply prime_mult in EE; [|exact Pr]. destruct EE as [EE|EE]; [apply prime_mult in EE; [|exact Pr]; destruct EE as [EE|EE]|].
    - (* r divides D *)
      exists (2 * r). split; [lia|]. split; [tauto|].
      assert (DD : (r | D)).
      { unfold e in EE. clear - EE Pr R2. assert (H : 0 <= (r - 1) / 2) by (apply Z.div_pos; lia). revert EE. revert H. generalize ((r - 1) / 2).
        apply (natlike_ind (fun z => (r | D ^ z) -> (r | D))).
        - intro K. apply Z.divide_1_r_nonneg in K; [|lia]. lia.
        - intros z Z0 IH K. rewrite Z.pow_succ_r in K by lia. apply prime_mult in K; [|exact Pr]. tauto. }
      replace (Z.to_nat (2 * r)) with (Z.to_nat r + Z.to_nat r)%nat by lia. rewrite qpow_add.
      eapply cong_trans; [apply cong_mul; exact FR|]. destruct EE as [c C], DD as [d E], NR as [f N]. split; cbn [fst snd qmul q1].
      + exists (f + (d * (b * e * (b * e)) + d * (b * b))). rewrite C, E in *. nia.
      + exists (2 * a * b * c). rewrite C. ring.
    - (* split *)
      exists (r - 1). split; [lia|]. split; [tauto|].
      assert (FA : cong r (qpow al (Z.to_nat r)) al).
      { eapply cong_trans; [exact FR|]. destruct EE as [c C]. split; cbn [fst snd al]; [exists 0; lia|]. exists (b * c). nia. }
      replace (Z.to_nat r) with (S (Z.to_nat (r - 1))) in FA by lia. cbn [qpow] in FA.
      assert (X : cong r (cj *q (al *q qpow al (Z.to_nat (r - 1)))) (cj *q al)) by (apply cong_mul; [apply cong_refl|exact FA]).
      apply cong_trans with (y := cj *q al *q qpow al (Z.to_nat (r - 1))).
      + apply cong_sym. replace (qpow al (Z.to_nat (r - 1))) with (q1 *q qpow al (Z.to_nat (r - 1))) at 2 by ring.
        apply cong_mul; [exact CJ|apply cong_refl].
      + replace (cj *q al *q qpow al (Z.to_nat (r - 1))) with (cj *q (al *q qpow al (Z.to_nat (r - 1)))) by ring.
        eapply cong_trans; [exact X|exact CJ].
    - (* inert *)
      exists (r + 1). split; [lia|]. split; [tauto|].
      assert (FA : cong r (qpow al (Z.to_nat r)) cj).
      { eapply cong_trans; [exact FR|]. destruct EE as [c C]. split; cbn [fst snd cj]; [exists 0; lia|]. exists (b * c). nia. }
      replace (Z.to_nat (r + 1)) with (S (Z.to_nat r)) by lia. cbn [qpow].
      apply cong_trans with (y := al *q cj); [apply cong_mul; [apply cong_refl|exact FA]|].
      replace (al *q cj) with (cj *q al) by ring. exact CJ. }
  destruct ORD as (m & M0 & MM & OM).
  assert (ON1 : cong r (qpow al (Z.to_nat (n + 1))) q1) by (apply (cong_div r n); assumption).
  pose proof (pow_gcd r al (n + 1) m ltac:(lia) M0 ON1 OM) as OG. set (g := Z.gcd (n + 1) m) in OG.
  assert (Dg1 : (g | n + 1)) by apply Z.gcd_divide_l. assert (Dg2 : (g | m)) by apply Z.gcd_divide_r.
  assert (G0 : 0 <= g) by apply Z.gcd_nonneg.
  assert (QG : (q ^ 1 | g)).
  { apply prime_power_divides with (m := n + 1); try assumption; try lia; [rewrite Z.pow_1_r; exact DQ|].
    intros [k K]. assert (Q0 : 0 <= (n + 1) / q) by (apply Z.div_pos; lia).
    assert (K0 : 0 <= k) by (destruct (Z.eq_dec g 0) as [E|]; [destruct Dg1 as [c C]; lia|nia]).
    pose proof (pow_one r al _ (Z.to_nat k) OG) as X. rewrite <- Z2Nat.inj_mul in X by lia. rewrite (Z.mul_comm g), <- K in X.
    destruct X as [_ X]. cbn [snd q1] in X. rewrite Z.sub_0_r in X.
    assert (DG : (r | 1)) by (rewrite <- HG; apply Z.gcd_greatest; assumption).
    apply Z.divide_1_r_nonneg in DG; lia. }
  rewrite Z.pow_1_r in QG. assert (QM : (q | m)) by (eapply Z.divide_trans; eassumption).
  destruct MM as [->|[->| ->]].
  - apply Z.divide_pos_le in QM; [|lia]. nia.
  - apply Z.divide_pos_le in QM; [|lia]. nia.
  - apply prime_mult in QM; [|exact PQ]. destruct QM as [QM|QM].
    + apply Z.divide_pos_le in QM; [|lia]. assert (q = 2) by lia. subst q. cbn in HS. lia.
    + apply prime_div_prime in QM; [|exact PQ|exact Pr]. subst r. destruct Dr as [c C], DQ as [c' C'].
      assert (E : (c' - c) * q = 1) by lia. exfalso. assert (DV : (q | 1)) by (exists (c' - c); lia).
      apply Z.divide_1_r_nonneg in DV; lia.
Qed.
End Quad.

(** *** the checker *)
Local Notation "⟦ x ⟧" := (BigZ.to_Z x) (at level 0, x at level 99).
Definition bmul (D n : bigZ) (x y : bigZ * bigZ) : bigZ * bigZ :=
  (BigZ.modulo (BigZ.add (BigZ.mul (fst x) (fst y)) (BigZ.mul D (BigZ.mul (snd x) (snd y)))) n,
   BigZ.modulo (BigZ.add (BigZ.mul (fst x) (snd y)) (BigZ.mul (snd x) (fst y))) n).
Fixpoint bpow (D n : bigZ) (x : bigZ * bigZ) (e : positive) : bigZ * bigZ :=
  match e with
  | xH => x
  | xO e' => let r := bpow D n x e' in bmul D n r r
  | xI e' => let r := bpow D n x e' in bmul D n (bmul D n r r) x
  end.
Definition bval (x : bigZ * bigZ) : quad := (⟦fst x⟧, ⟦snd x⟧).

Lemma bmul_spec : forall D n x y, ⟦n⟧ <> 0 -> cong ⟦n⟧ (bval (bmul D n x y)) (qmul ⟦D⟧ (bval x) (bval y)).
Proof.
  intros D n x y N. unfold bval, bmul, qmul. cbn [fst snd]. split; cbn [fst snd].
  - rewrite BigZ.spec_modulo, BigZ.spec_add, !BigZ.spec_mul.
    match goal with |- (_ | ?t mod _ - _) => exists (- (t / ⟦n⟧)); pose proof (Z.div_mod t ⟦n⟧ N); lia end.
  - rewrite BigZ.spec_modulo, BigZ.spec_add, !BigZ.spec_mul.
    match goal with |- (_ | ?t mod _ - _) => exists (- (t / ⟦n⟧)); pose proof (Z.div_mod t ⟦n⟧ N); lia end.
Qed.

Lemma bpow_spec : forall D n x e, ⟦n⟧ <> 0 -> cong ⟦n⟧ (bval (bpow D n x e)) (qpow ⟦D⟧ (bval x) (Pos.to_nat e)).
Proof.
  intros D n x e N. pose proof (quad_ring ⟦D⟧) as RT. induction e as [e IH|e IH|]; cbn [bpow].
  - eapply cong_trans; [apply bmul_spec; exact N|]. rewrite Pos2Nat.inj_xI. cbn [qpow]. rewrite (Rmul_comm RT).
    apply cong_mul; [apply cong_refl|]. replace (2 * Pos.to_nat e)%nat with (Pos.to_nat e + Pos.to_nat e)%nat by lia. rewrite qpow_add.
    eapply cong_trans; [apply bmul_spec; exact N|]. apply cong_mul; exact IH.
  - eapply cong_trans; [apply bmul_spec; exact N|]. rewrite Pos2Nat.inj_xO.
    replace (2 * Pos.to_nat e)%nat with (Pos.to_nat e + Pos.to_nat e)%nat by lia. rewrite qpow_add. apply cong_mul; exact IH.
  - change (Pos.to_nat 1) with 1%nat. cbn [qpow]. rewrite (Rmul_comm RT), (Rmul_1_l RT). apply cong_refl.
Qed.

Definition check_morrison (n q D a b : Z) : bool :=
  let bn := BigZ.of_Z n in let bD := BigZ.of_Z D in let x := (BigZ.of_Z a, BigZ.of_Z b) in
  (1 <? n) && Z.odd n && ((n + 1) mod q =? 0) && (n <? (q - 1) * (q - 1)) && ((a * a - D * (b * b) - 1) mod n =? 0) &&
  match n + 1, (n + 1) / q with
  | Zpos e, Zpos f =>
      let y := bpow bD bn x e in
      BigZ.eqb (fst y) BigZ.one && BigZ.eqb (snd y) BigZ.zero && BigZ.eqb (BigZ.gcd (snd (bpow bD bn x f)) bn) BigZ.one
  | _, _ => false
  end.

Theorem check_morrison_ok : forall n q D a b, check_morrison n q D a b = true -> prime q -> prime n.
Proof.
  intros n q D a b H PQ. unfold check_morrison in H.
  destruct (n + 1) as [|e|] eqn:EN; try (rewrite andb_false_r in H; discriminate).
  destruct (Z.pos e / q) as [|f|] eqn:EF; try (rewrite andb_false_r in H; discriminate).
  rewrite !andb_true_iff in H. destruct H as [[[[[H1 H2] H3] H4] H5] [[H6 H7] H8]].
  apply Z.ltb_lt in H1, H4. apply Z.eqb_eq in H3, H5. pose proof (prime_ge_2 q PQ).
  rewrite BigZ.spec_eqb in H6, H7, H8. apply Z.eqb_eq in H6, H7, H8.
  pose proof (bpow_spec (BigZ.of_Z D) (BigZ.of_Z n) (BigZ.of_Z a, BigZ.of_Z b) e) as S1.
  pose proof (bpow_spec (BigZ.of_Z D) (BigZ.of_Z n) (BigZ.of_Z a, BigZ.of_Z b) f) as S2.
  unfold bval in S1, S2. cbn [fst snd] in S1, S2. rewrite !BigZ.spec_of_Z in S1, S2. specialize (S1 ltac:(lia)). specialize (S2 ltac:(lia)).
  rewrite BigZ.spec_1 in H6. rewrite BigZ.spec_0 in H7. rewrite H6, H7 in S1.
  rewrite BigZ.spec_gcd, BigZ.spec_1, BigZ.spec_of_Z in H8.
  apply (morrison D n q a b); try assumption.
  - apply Z.mod_divide; [lia|]. rewrite EN. exact H3.
  - apply Z.mod_divide; [lia|exact H5].
  - rewrite EN. change (Z.to_nat (Zpos e)) with (Pos.to_nat e). apply cong_sym. exact S1.
  - rewrite EN, EF. change (Z.to_nat (Zpos f)) with (Pos.to_nat f). destruct S2 as [_ [k K]]. cbn [snd] in K.
    match type of K with ?u - ?v = _ => assert (E : u = v + k * n) by lia end. rewrite E in H8.
    rewrite Z.gcd_comm, Z.gcd_add_mult_diag_r, Z.gcd_comm in H8. exact H8.
Qed.
