(** Specification vocabulary for the elliptic curve properties: the group of y^2 = x^3 + a x + b over Z/n
    (n prime), and the point of that group denoted by a coordinate pair of the code. *)
From Coq Require Import ZArith List Znumtheory.
From Verif Require Import Zp EcGroup.
Open Scope Z_scope.

Section Spec.
Variable n : Z.
Definition gpt := pt (zp n).
Definition GO : gpt := Inf (zp n).
Definition GP (x y : Z) : gpt := Aff (zp n) (of_Z n x) (of_Z n y).
Variables a b : Z.
Definition on_curve (P : gpt) : Prop := oncurve (zp n) (zadd n) (zmul n) (of_Z n a) (of_Z n b) P.
Definition gneg (P : gpt) : gpt := pneg (zp n) (zopp n) P.
Definition gadd (P Q : gpt) : gpt :=
  padd (zp n) (z0 n) (z1 n) (zadd n) (zmul n) (zsub n) (zdiv n) (zp_eq_dec n) (of_Z n a) P Q.
Definition gmul (k : Z) (P : gpt) : gpt :=
  smul (zp n) (z0 n) (z1 n) (zadd n) (zmul n) (zsub n) (zopp n) (zdiv n) (zp_eq_dec n) (of_Z n a) k P.
(** the denotation of the code's points: None is the neutral element *)
Definition den (P : option (Z * Z)) : gpt := match P with Some (x, y) => GP x y | None => GO end.
(** prime modulus other than 2, 3 and nonsingular curve *)
Definition good_curve : Prop := prime n /\ 3 < n /\ (4 * a * a * a + 27 * b * b) mod n <> 0.
(** no point of order two: x^3 + a x + b has no root *)
Definition no_two_torsion : Prop := forall x, (x * x * x + a * x + b) mod n <> 0.
End Spec.

(** The same point, said in terms of coordinates. *)
Definition same_point (n : Z) (P Q : option (Z * Z)) : Prop :=
  match P, Q with
  | None, None => True
  | Some (x, y), Some (x', y') => x mod n = x' mod n /\ y mod n = y' mod n
  | _, _ => False
  end.

Lemma same_point_den : forall n P Q, same_point n P Q <-> den n P = den n Q.
Proof.
  intros n [[x y]|] [[x' y']|]; cbn; split; intro H; try contradiction; try discriminate; try exact I; try reflexivity.
  - destruct H as [H1 H2]. unfold GP. f_equal; apply of_Z_eq; assumption.
  - unfold GP in H. injection H as H1 H2. split; assumption.
Qed.
