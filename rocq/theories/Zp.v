(** The field of integers modulo a prime, as a type with Leibniz equality.
    Purely mathematical: it is part of the specification side of the elliptic
    curve properties, not a model of any code. *)
From Coq Require Import ZArith Znumtheory Lia Field Ring Bool Eqdep_dec.
Open Scope Z_scope.

Section ZP.
Variable p : Z.
Hypothesis Pp : prime p.

Record zp := mkzp { zv : Z; zok : Z.eqb (zv mod p) zv = true }.

Lemma p_pos : 1 < p.
Proof. destruct Pp. assumption. Qed.

Lemma zp_eq : forall x y : zp, zv x = zv y -> x = y.
Proof.
  intros [x Hx] [y Hy] E. cbn in E. subst y. f_equal. apply UIP_dec. apply bool_dec.
Qed.

Lemma of_Z_ok : forall z, Z.eqb ((z mod p) mod p) (z mod p) = true.
Proof. intro z. rewrite Zmod_mod. apply Z.eqb_refl. Qed.

Definition of_Z (z : Z) : zp := mkzp (z mod p) (of_Z_ok z).

Definition zadd x y := of_Z (zv x + zv y).
Definition zmul x y := of_Z (zv x * zv y).
Definition zsub x y := of_Z (zv x - zv y).
Definition zopp x := of_Z (- zv x).
(** the inverse is taken from a Bezout relation; [zinv 0] is some value. *)
Definition zinv x :=
  match euclid (zv x) p with Euclid_intro _ _ u v d _ _ => of_Z (u * d) end.
Definition zdiv x y := zmul x (zinv y).
Definition z0 := of_Z 0.
Definition z1 := of_Z 1.

Lemma zv_range : forall x, 0 <= zv x < p.
Proof.
  intros [x H]. cbn. apply Z.eqb_eq in H. rewrite <- H. apply Z.mod_pos_bound. pose proof p_pos. lia.
Qed.

Lemma zv_mod : forall x, zv x mod p = zv x.
Proof. intros [x H]. cbn. apply Z.eqb_eq in H. exact H. Qed.

Lemma zv_of_Z : forall z, zv (of_Z z) = z mod p.
Proof. reflexivity. Qed.

Lemma of_Z_zv : forall x, of_Z (zv x) = x.
Proof. intro x. apply zp_eq. cbn. apply zv_mod. Qed.

Lemma of_Z_eq : forall a b, of_Z a = of_Z b <-> a mod p = b mod p.
Proof.
  intros a b. split; intro H.
  - apply (f_equal zv) in H. exact H.
  - apply zp_eq. exact H.
Qed.

Lemma of_Z_mod : forall a, of_Z (a mod p) = of_Z a.
Proof. intro a. apply of_Z_eq. apply Zmod_mod. Qed.

Lemma of_Z_0 : forall a, of_Z a = z0 <-> a mod p = 0.
Proof.
  intro a. unfold z0. rewrite of_Z_eq. rewrite Zmod_0_l. reflexivity.
Qed.

Lemma of_Z_add : forall a b, of_Z (a + b) = zadd (of_Z a) (of_Z b).
Proof. intros. apply of_Z_eq. cbn. apply Zplus_mod. Qed.
Lemma of_Z_mul : forall a b, of_Z (a * b) = zmul (of_Z a) (of_Z b).
Proof. intros. apply of_Z_eq. cbn. apply Zmult_mod. Qed.
Lemma of_Z_sub : forall a b, of_Z (a - b) = zsub (of_Z a) (of_Z b).
Proof. intros. apply of_Z_eq. cbn. apply Zminus_mod. Qed.
Lemma of_Z_opp : forall a, of_Z (- a) = zopp (of_Z a).
Proof.
  intros. apply of_Z_eq. cbn. replace (- (a mod p)) with (0 - a mod p) by lia.
  rewrite Zminus_mod_idemp_r. reflexivity.
Qed.
Lemma of_Z_p : of_Z p = z0.
Proof. apply of_Z_0. apply Z_mod_same_full. Qed.

Ltac lift x := rewrite <- (of_Z_zv x); generalize (zv x); clear x; intro x.

Lemma zp_ring : ring_theory z0 z1 zadd zmul zsub zopp eq.
Proof.
  split; unfold z0, z1; intros; repeat match goal with v : zp |- _ => lift v end;
  repeat first [rewrite <- of_Z_add | rewrite <- of_Z_mul | rewrite <- of_Z_sub | rewrite <- of_Z_opp]; f_equal; ring.
Qed.

Lemma zinv_l : forall x, x <> z0 -> zmul (zinv x) x = z1.
Proof.
  intros x Hx. unfold zinv. destruct (euclid (zv x) p) as [u v d E G].
  rewrite <- (of_Z_zv x) at 1. rewrite <- of_Z_mul. unfold z1. apply of_Z_eq.
  assert (HR : rel_prime (zv x) p).
  { apply rel_prime_sym. apply prime_rel_prime; [exact Pp|]. intros D.
    apply Zdivide_mod in D. apply Hx. rewrite <- (of_Z_zv x). apply of_Z_0. exact D. }
  assert (HD : d = 1 \/ d = -1).
  { pose proof (Zis_gcd_uniqueness_apart_sign _ _ _ _ HR G). lia. }
  replace (u * d * zv x) with (d * d + (- (v * d)) * p).
  2:{ assert (E2 : d * d = (u * zv x + v * p) * d) by (rewrite E; reflexivity).
      rewrite E2. ring. }
  rewrite Z_mod_plus_full. clear E G. destruct HD as [-> | ->]; reflexivity.
Qed.

Lemma z1_neq_z0 : z1 <> z0.
Proof.
  intro H. apply of_Z_eq in H. rewrite Zmod_0_l in H. rewrite Z.mod_1_l in H; [discriminate|apply p_pos].
Qed.

Lemma zp_field : field_theory z0 z1 zadd zmul zsub zopp zdiv zinv eq.
Proof.
  split.
  - exact zp_ring.
  - exact z1_neq_z0.
  - reflexivity.
  - exact zinv_l.
Qed.

Lemma zp_eq_dec : forall x y : zp, {x = y} + {x <> y}.
Proof.
  intros x y. destruct (Z.eq_dec (zv x) (zv y)) as [E|E].
  - left. apply zp_eq. exact E.
  - right. intro H. apply E. rewrite H. reflexivity.
Defined.

Lemma two_neq0 : 2 < p -> zadd z1 z1 <> z0.
Proof.
  intros H E. unfold z1, z0 in E. rewrite <- of_Z_add in E. apply of_Z_0 in E. rewrite Z.mod_small in E; lia.
Qed.
End ZP.
