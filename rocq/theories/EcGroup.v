(** * The group law on y^2 = x^3 + a x + b over an abstract field (specification side).

    Nothing here mentions the Python code.  The chord-and-tangent addition [padd] is defined by the textbook
    case distinction and proved to be an abelian group on the points of a nonsingular curve over any field of
    characteristic other than two.  Associativity is reduced to a few polynomial identities by describing every
    chord or tangent through P, Q by its slope [l] and the relation [line]. *)
From Coq Require Import Field Ring ZArith Lia.

Section EC.
Variable F : Type.
Variables (f0 f1 : F) (fadd fmul fsub : F -> F -> F) (fopp : F -> F) (fdiv : F -> F -> F) (finv : F -> F).
Hypothesis Fth : field_theory f0 f1 fadd fmul fsub fopp fdiv finv (@eq F).
Hypothesis Feq_dec : forall x y : F, {x = y} + {x <> y}.
Local Notation "0" := f0. Local Notation "1" := f1.
Local Infix "+" := fadd. Local Infix "*" := fmul. Local Infix "-" := fsub. Local Infix "/" := fdiv.
Local Notation "- x" := (fopp x).
Add Field Ffield : Fth.
Local Notation "2" := (1 + 1). Local Notation "3" := (1 + 1 + 1).
Hypothesis two_neq0 : 2 <> 0.

Variables a b : F.
Hypothesis disc : (2 * 2) * (a * a * a) + (3 * 3 * 3) * (b * b) <> 0.

Inductive pt : Type := Inf | Aff (x y : F).

Definition oncurve (P : pt) : Prop :=
  match P with Inf => True | Aff x y => y * y = x * x * x + a * x + b end.

Definition pneg (P : pt) : pt := match P with Inf => Inf | Aff x y => Aff x (- y) end.

Definition third (l x1 y1 x2 : F) : pt :=
  let x3 := l * l - x1 - x2 in Aff x3 (l * (x1 - x3) - y1).

Definition padd (P Q : pt) : pt :=
  match P, Q with
  | Inf, _ => Q
  | _, Inf => P
  | Aff x1 y1, Aff x2 y2 =>
      if Feq_dec x1 x2 then
        if Feq_dec (y1 + y2) 0 then Inf
        else third ((3 * (x1 * x1) + a) / (2 * y1)) x1 y1 x1
      else third ((y1 - y2) / (x1 - x2)) x1 y1 x2
  end.

(** *** small field facts *)
Lemma mul_eq0 : forall x y : F, x * y = 0 -> x = 0 \/ y = 0.
Proof.
  intros x y H. destruct (Feq_dec x 0) as [E|E]; [left; exact E|right].
  replace y with ((x * y) / x) by (field; exact E). rewrite H. field. exact E.
Qed.
Lemma mul_neq0 : forall x y : F, x <> 0 -> y <> 0 -> x * y <> 0.
Proof. intros x y Hx Hy H. apply mul_eq0 in H. tauto. Qed.
Lemma sub_eq0 : forall x y : F, x - y = 0 -> x = y.
Proof. intros x y H. replace x with ((x - y) + y) by ring. rewrite H. ring. Qed.
Lemma sub_neq0 : forall x y : F, x <> y -> x - y <> 0.
Proof. intros x y H E. apply H. apply sub_eq0. exact E. Qed.
Lemma opp_eq0 : forall x : F, - x = 0 -> x = 0.
Proof. intros x H. replace x with (- (- x)) by ring. rewrite H. ring. Qed.
Lemma mul_cancel : forall k x y : F, k <> 0 -> k * x = k * y -> x = y.
Proof. intros k x y K H. apply sub_eq0. destruct (mul_eq0 k (x - y)) as [E|E]; [|contradiction|exact E].
  replace (k * (x - y)) with (k * x - k * y) by ring. rewrite H. ring. Qed.
Lemma double_eq0 : forall y : F, y + y = 0 -> y = 0.
Proof. intros y H. apply (mul_cancel 2); [exact two_neq0|]. transitivity (y + y); [ring|]. rewrite H. ring. Qed.
Lemma self_opp : forall y : F, y = - y -> y = 0.
Proof. intros y H. apply double_eq0. rewrite H at 1. ring. Qed.

(** On the curve, equal x means equal or opposite y. *)
Lemma same_x : forall x y1 y2, oncurve (Aff x y1) -> oncurve (Aff x y2) -> y1 = y2 \/ y1 + y2 = 0.
Proof.
  intros x y1 y2 H1 H2. cbn in *. destruct (mul_eq0 (y1 - y2) (y1 + y2)) as [E|E].
  - replace ((y1 - y2) * (y1 + y2)) with (y1 * y1 - y2 * y2) by ring. rewrite H1, H2. ring.
  - left. apply sub_eq0. exact E.
  - right. exact E.
Qed.

(** *** chords and tangents, uniformly *)
Definition line (x1 y1 x2 y2 l : F) : Prop :=
  y2 = y1 + l * (x2 - x1) /\ l * (y1 + y2) = x1 * x1 + x1 * x2 + x2 * x2 + a.

Definition opposite (x1 y1 x2 y2 : F) : Prop := x1 = x2 /\ y1 + y2 = 0.

Lemma opposite_dec : forall x1 y1 x2 y2, {opposite x1 y1 x2 y2} + {~ opposite x1 y1 x2 y2}.
Proof.
  intros. unfold opposite. destruct (Feq_dec x1 x2); destruct (Feq_dec (y1 + y2) 0); try (right; tauto). left; tauto.
Qed.

Lemma line_sym : forall x1 y1 x2 y2 l, line x1 y1 x2 y2 l -> line x2 y2 x1 y1 l.
Proof. intros x1 y1 x2 y2 l [H1 H2]. split; [rewrite H1; ring|]. transitivity (l * (y1 + y2)); [ring|]. rewrite H2. ring. Qed.

Lemma line_unique : forall x1 y1 x2 y2 l l', ~ opposite x1 y1 x2 y2 ->
  line x1 y1 x2 y2 l -> line x1 y1 x2 y2 l' -> l = l'.
Proof.
  intros x1 y1 x2 y2 l l' N [H1 H2] [H3 H4]. destruct (Feq_dec x1 x2) as [E|E].
  - apply (mul_cancel (y1 + y2)).
    + intro Z. apply N. split; assumption.
    + transitivity (l * (y1 + y2)); [ring|]. rewrite H2, <- H4. ring.
  - apply (mul_cancel (x2 - x1)); [apply sub_neq0; congruence|].
    transitivity (y2 - y1); [rewrite H1; ring|rewrite H3; ring].
Qed.

Lemma line_exists : forall x1 y1 x2 y2, oncurve (Aff x1 y1) -> oncurve (Aff x2 y2) -> ~ opposite x1 y1 x2 y2 ->
  exists l, line x1 y1 x2 y2 l /\ padd (Aff x1 y1) (Aff x2 y2) = third l x1 y1 x2.
Proof.
  intros x1 y1 x2 y2 C1 C2 N. unfold padd. destruct (Feq_dec x1 x2) as [E|E].
  - subst x2. destruct (Feq_dec (y1 + y2) 0) as [Z|Z]; [exfalso; apply N; split; [reflexivity|exact Z]|].
    destruct (same_x _ _ _ C1 C2) as [Y|Y]; [|contradiction]. subst y2.
    assert (Y0 : y1 <> 0) by (intro Y; apply Z; rewrite Y; ring).
    exists ((3 * (x1 * x1) + a) / (2 * y1)). split; [|reflexivity]. split; [field; auto|]. field. auto.
  - exists ((y1 - y2) / (x1 - x2)). split; [|reflexivity]. pose proof (sub_neq0 _ _ E) as D. split; [field; exact D|].
    cbn in C1, C2. apply (mul_cancel (x1 - x2)); [exact D|].
    transitivity (y1 * y1 - y2 * y2); [field; exact D|]. rewrite C1, C2. ring.
Qed.

Lemma padd_line : forall x1 y1 x2 y2 l, oncurve (Aff x1 y1) -> oncurve (Aff x2 y2) -> ~ opposite x1 y1 x2 y2 ->
  line x1 y1 x2 y2 l -> padd (Aff x1 y1) (Aff x2 y2) = third l x1 y1 x2.
Proof.
  intros x1 y1 x2 y2 l C1 C2 N L. destruct (line_exists x1 y1 x2 y2 C1 C2 N) as [l' [L' E]].
  rewrite E. f_equal. eapply line_unique; eauto.
Qed.

Lemma padd_opposite : forall x1 y1 x2 y2, opposite x1 y1 x2 y2 -> padd (Aff x1 y1) (Aff x2 y2) = Inf.
Proof.
  intros x1 y1 x2 y2 [H1 H2]. unfold padd. destruct (Feq_dec x1 x2); [|contradiction].
  destruct (Feq_dec (y1 + y2) 0); [reflexivity|contradiction].
Qed.

(** The third intersection point lies on the curve. *)
Lemma line_third_oncurve : forall x1 y1 x2 y2 l, oncurve (Aff x1 y1) -> line x1 y1 x2 y2 l -> oncurve (third l x1 y1 x2).
Proof.
  intros x1 y1 x2 y2 l C [H1 H2]. cbn in *.
  assert (B : b = y1 * y1 - x1 * x1 * x1 - a * x1) by (rewrite C; ring).
  assert (A : a = l * (y1 + y2) - x1 * x1 - x1 * x2 - x2 * x2) by (rewrite H2; ring).
  rewrite B, A, H1. ring.
Qed.

Lemma padd_oncurve : forall P Q, oncurve P -> oncurve Q -> oncurve (padd P Q).
Proof.
  intros [|x1 y1] [|x2 y2] C1 C2; try (exact C1); try exact C2.
  destruct (opposite_dec x1 y1 x2 y2) as [O|O].
  - rewrite padd_opposite by exact O. exact I.
  - destruct (line_exists x1 y1 x2 y2 C1 C2 O) as [l [L E]]. rewrite E. eapply line_third_oncurve; eauto.
Qed.

Lemma pneg_oncurve : forall P, oncurve P -> oncurve (pneg P).
Proof. intros [|x y] H; cbn in *; [exact I|]. rewrite <- H. ring. Qed.

Lemma pneg_pneg : forall P, pneg (pneg P) = P.
Proof. intros [|x y]; cbn; [reflexivity|]. f_equal. ring. Qed.

Lemma padd_Inf_l : forall P, padd Inf P = P.
Proof. reflexivity. Qed.
Lemma padd_Inf_r : forall P, padd P Inf = P.
Proof. destruct P; reflexivity. Qed.

Lemma padd_pneg_r : forall P, padd P (pneg P) = Inf.
Proof. intros [|x y]; [reflexivity|]. apply padd_opposite. split; [reflexivity|]. ring. Qed.

Lemma padd_comm : forall P Q, oncurve P -> oncurve Q -> padd P Q = padd Q P.
Proof.
  intros [|x1 y1] [|x2 y2] C1 C2; try reflexivity.
  destruct (opposite_dec x1 y1 x2 y2) as [O|O].
  - rewrite padd_opposite by exact O. rewrite padd_opposite; [reflexivity|]. destruct O as [O1 O2]. split; [auto|]. rewrite <- O2. ring.
  - destruct (line_exists x1 y1 x2 y2 C1 C2 O) as [l [L E]]. rewrite E.
    rewrite (padd_line x2 y2 x1 y1 l); auto.
    + destruct L as [L1 L2]. unfold third. rewrite L1. f_equal; ring.
    + intros [O1 O2]. apply O. split; [auto|]. rewrite <- O2. ring.
    + apply line_sym. exact L.
Qed.

Lemma padd_pneg_l : forall P, oncurve P -> padd (pneg P) P = Inf.
Proof. intros P H. rewrite padd_comm; [apply padd_pneg_r|apply pneg_oncurve; exact H|exact H]. Qed.

Lemma padd_Inf_inv : forall P Q, padd P Q = Inf -> oncurve P -> oncurve Q -> Q = pneg P.
Proof.
  intros [|x1 y1] [|x2 y2] H C1 C2; try discriminate; try (cbn in H; rewrite H; reflexivity); [reflexivity|].
  destruct (opposite_dec x1 y1 x2 y2) as [[O1 O2]|O].
  - rewrite O1. cbn. f_equal. apply sub_eq0. transitivity (y1 + y2); [ring|]. exact O2.
  - destruct (line_exists x1 y1 x2 y2 C1 C2 O) as [l [L E]]. rewrite E in H. discriminate.
Qed.

Lemma pneg_padd : forall P Q, oncurve P -> oncurve Q -> pneg (padd P Q) = padd (pneg P) (pneg Q).
Proof.
  intros [|x1 y1] [|x2 y2] C1 C2; try reflexivity.
  destruct (opposite_dec x1 y1 x2 y2) as [O|O].
  - rewrite padd_opposite by exact O. cbn [pneg]. rewrite padd_opposite; [reflexivity|].
    destruct O as [O1 O2]. split; [auto|]. transitivity (- (y1 + y2)); [ring|]. rewrite O2. ring.
  - destruct (line_exists x1 y1 x2 y2 C1 C2 O) as [l [[L1 L2] E]]. rewrite E. cbn [pneg].
    rewrite (padd_line x1 (- y1) x2 (- y2) (- l)).
    + unfold third, pneg. f_equal; ring.
    + apply (pneg_oncurve (Aff x1 y1)). exact C1.
    + apply (pneg_oncurve (Aff x2 y2)). exact C2.
    + intros [O1 O2]. apply O. split; [auto|]. transitivity (- (- y1 + - y2)); [ring|]. rewrite O2. ring.
    + split; [rewrite L1; ring|]. rewrite <- L2. ring.
Qed.

(** A point with y = 0 and horizontal tangent would be singular. *)
Lemma nonsingular : forall x, oncurve (Aff x 0) -> 3 * (x * x) + a <> 0.
Proof.
  intros x C H. cbn in C. apply disc.
  assert (A : a = - (3 * (x * x))) by (apply sub_eq0; rewrite <- H; ring).
  assert (B : b = 2 * (x * x * x)).
  { apply sub_eq0. transitivity ((x * x * x + a * x + b) - (x * (3 * (x * x) + a))); [ring|].
    rewrite <- C, H. ring. }
  rewrite A, B. ring.
Qed.

(** *** cancellation *)
Lemma padd_cancel : forall P Q, oncurve P -> oncurve Q -> padd (padd P Q) (pneg Q) = P.
Proof.
  intros [|x1 y1] [|x2 y2] C1 C2.
  - reflexivity.
  - rewrite padd_Inf_l. apply padd_pneg_r.
  - rewrite padd_Inf_r. reflexivity.
  - destruct (opposite_dec x1 y1 x2 y2) as [O|O].
    { rewrite padd_opposite by exact O. cbn. destruct O as [O1 O2]. rewrite O1. f_equal. apply sub_eq0. transitivity (- (y1 + y2)); [ring|]. rewrite O2. ring. }
    destruct (line_exists x1 y1 x2 y2 C1 C2 O) as [l [L E]]. rewrite E.
    pose proof (line_third_oncurve _ _ _ _ _ C1 L) as C3. destruct L as [L1 L2]. unfold third in *. cbv zeta in *.
    set (x3 := l * l - x1 - x2) in *. set (y3 := l * (x1 - x3) - y1) in *.
    pose proof (pneg_oncurve _ C2) as C2'. cbn [pneg] in *.
    destruct (opposite_dec x3 y3 x2 (- y2)) as [[O1 O2]|O'].
    + (* then l is tangent at Q and A = ... : x3 = x2, y3 = y2, impossible unless P is the point at infinity *)
      exfalso. assert (Y : y3 = y2) by (apply sub_eq0; transitivity (y3 + - y2); [ring|exact O2]).
      (* the line through P, Q meets the curve at (x3, -y3) = (x2, -y2), so y2 = -y2 *)
      assert (Y2 : y2 + y2 = 0).
      { rewrite <- Y at 1. unfold y3. rewrite L1. rewrite O1. ring. }
      apply double_eq0 in Y2.
      assert (D : 3 * (x2 * x2) + a = 0).
      { assert (EA : a = l * (y1 + y2) - x1 * x1 - x1 * x2 - x2 * x2) by (rewrite L2; ring).
        assert (EY : y1 = y2 - l * (x2 - x1)) by (rewrite L1; ring).
        assert (EL : l * l = x1 + x2 + x2).
        { rewrite <- O1 at 2. unfold x3. ring. }
        rewrite EA, EY, Y2. transitivity ((l * l) * (x1 - x2) + 2 * (x2 * x2) - x1 * x1 - x1 * x2); [ring|]. rewrite EL. ring. }
      revert D. apply nonsingular. rewrite <- Y2. exact C2.
    + assert (L' : line x3 y3 x2 (- y2) (- l)).
      { split; [unfold y3; rewrite L1; ring|].
        assert (EA : a = l * (y1 + y2) - x1 * x1 - x1 * x2 - x2 * x2) by (rewrite L2; ring).
        rewrite EA. unfold y3. rewrite L1. unfold x3. ring. }
      rewrite (padd_line _ _ _ _ _ C3 C2' O' L'). unfold third. f_equal; unfold y3, x3; ring.
Qed.

Lemma padd_inj_r : forall P P' Q, oncurve P -> oncurve P' -> oncurve Q -> padd P Q = padd P' Q -> P = P'.
Proof. intros P P' Q C C' CQ H. rewrite <- (padd_cancel P Q C CQ), H. apply padd_cancel; assumption. Qed.

Lemma padd_inj_l : forall P Q Q', oncurve P -> oncurve Q -> oncurve Q' -> padd P Q = padd P Q' -> Q = Q'.
Proof.
  intros P Q Q' C CQ CQ' H. rewrite (padd_comm P Q), (padd_comm P Q') in H by assumption. exact (padd_inj_r Q Q' P CQ CQ' C H).
Qed.

(** *** associativity *)
Ltac nz H := let E := fresh in intro E; apply H; apply sub_eq0; first [rewrite <- E; ring | transitivity (- 0); [rewrite <- E; ring | ring]].

(** The generic case: the two given lines are different and both outer lines are chords. *)
Lemma assoc_generic_x : forall x1 x2 x3 y1 y2 y3 l1 l2,
  line x1 y1 x2 y2 l1 -> line x2 y2 x3 y3 l2 -> l1 <> l2 ->
  let x4 := l1 * l1 - x1 - x2 in let y4 := l1 * (x1 - x4) - y1 in
  let x5 := l2 * l2 - x2 - x3 in let y5 := l2 * (x2 - x5) - y2 in
  x4 <> x3 -> x1 <> x5 ->
  let l3 := (y4 - y3) / (x4 - x3) in let l4 := (y1 - y5) / (x1 - x5) in
  l3 * l3 - x4 - x3 = l4 * l4 - x1 - x5 /\
  l3 * (x4 - (l3 * l3 - x4 - x3)) - y4 = l4 * (x1 - (l4 * l4 - x1 - x5)) - y1.
Proof.
  intros x1 x2 x3 y1 y2 y3 l1 l2 [A1 A2] [B1 B2] N x4 y4 x5 y5 N3 N4 l3 l4.
  assert (Y2 : y2 = (x3 * x3 - x1 * x1 + x2 * (x3 - x1) - l2 * l2 * (x3 - x2) - l1 * l1 * (x2 - x1)) / (2 * (l2 - l1))).
  { assert (EA : a = l1 * (y1 + y2) - x1 * x1 - x1 * x2 - x2 * x2) by (rewrite A2; ring).
    rewrite EA in B2. assert (Y1 : y1 = y2 - l1 * (x2 - x1)) by (rewrite A1; ring). rewrite Y1, B1 in B2.
    apply (mul_cancel (2 * (l2 - l1))); [apply mul_neq0; [exact two_neq0|apply sub_neq0; congruence]|].
    assert (D : l2 - l1 <> 0) by (apply sub_neq0; congruence).
    transitivity (x3 * x3 - x1 * x1 + x2 * (x3 - x1) - l2 * l2 * (x3 - x2) - l1 * l1 * (x2 - x1)); [|field; auto].
    apply sub_eq0. transitivity (l2 * (y2 + (y2 + l2 * (x3 - x2))) - (x2 * x2 + x2 * x3 + x3 * x3 + (l1 * (y2 - l1 * (x2 - x1) + y2) - x1 * x1 - x1 * x2 - x2 * x2))); [ring|].
    rewrite B2. ring. }
  assert (Y1 : y1 = y2 - l1 * (x2 - x1)) by (rewrite A1; ring).
  unfold l3, l4, y4, y5, x4, x5 in *. clear l3 l4 y4 y5 x4 x5.
  clear A1 A2 B2. subst y3 y1. rewrite Y2. clear y2 Y2.
  assert (D : l2 - l1 <> 0) by (apply sub_neq0; congruence).
  split; field; repeat split; auto; try (nz N3); try (nz N4).
Qed.

(** One outer line is the tangent at C = A + B. *)
Lemma assoc_tangent : forall x1 x2 y1 y2 l1,
  line x1 y1 x2 y2 l1 ->
  let x4 := l1 * l1 - x1 - x2 in let y4 := l1 * (x1 - x4) - y1 in
  x2 <> x4 -> y4 <> 0 ->
  let l2 := (y2 - y4) / (x2 - x4) in
  let x5 := l2 * l2 - x2 - x4 in let y5 := l2 * (x2 - x5) - y2 in
  x1 <> x5 ->
  let l3 := (3 * (x4 * x4) + a) / (2 * y4) in let l4 := (y1 - y5) / (x1 - x5) in
  l3 * l3 - x4 - x4 = l4 * l4 - x1 - x5 /\
  l3 * (x4 - (l3 * l3 - x4 - x4)) - y4 = l4 * (x1 - (l4 * l4 - x1 - x5)) - y1.
Proof.
  intros x1 x2 y1 y2 l1 [A1 A2] x4 y4 N2 N4 l2 x5 y5 N5 l3 l4.
  assert (EA : a = l1 * (y1 + y2) - x1 * x1 - x1 * x2 - x2 * x2) by (rewrite A2; ring).
  rewrite A1 in EA. clear A2.
  assert (D2 : x2 - x4 <> 0) by (apply sub_neq0; exact N2).
  assert (D5 : (x1 - x5) * ((x2 - x4) * (x2 - x4)) <> 0).
  { apply mul_neq0; [apply sub_neq0; exact N5|]. apply mul_neq0; exact D2. }
  assert (E5 : (x1 - x5) * ((x2 - x4) * (x2 - x4)) = (x1 + x2 + x4) * ((x2 - x4) * (x2 - x4)) - (y2 - y4) * (y2 - y4)).
  { unfold x5, l2. field. exact D2. }
  rewrite E5 in D5. clear E5.
  unfold l3, l4, y5, x5, l2, y4, x4 in *. clear l3 l4 y5 x5 l2 y4 x4 N5.
  rewrite EA. rewrite A1 in *. clear EA A1 y2.
  split; field; repeat split; auto;
    try (intro E; apply D5; rewrite <- E; ring); try (intro E; apply N4; rewrite <- E; ring); try (intro E; apply D2; rewrite <- E; ring).
Qed.

(** Both outer lines are tangents; then B has order two. *)
Lemma assoc_two_tangents : forall x1 x2 y1 l1,
  line x1 y1 x2 0 l1 ->
  let x4 := l1 * l1 - x1 - x2 in let y4 := l1 * (x1 - x4) - y1 in
  y1 <> 0 -> y4 <> 0 ->
  let l3 := (3 * (x4 * x4) + a) / (2 * y4) in let l4 := (3 * (x1 * x1) + a) / (2 * y1) in
  l3 * l3 - x4 - x4 = l4 * l4 - x1 - x1 /\
  l3 * (x4 - (l3 * l3 - x4 - x4)) - y4 = l4 * (x1 - (l4 * l4 - x1 - x1)) - y1.
Proof.
  intros x1 x2 y1 l1 [A1 A2] x4 y4 N1 N4 l3 l4.
  assert (EA : a = l1 * (y1 + 0) - x1 * x1 - x1 * x2 - x2 * x2) by (rewrite A2; ring).
  assert (EY : y1 = - (l1 * (x2 - x1))).
  { apply sub_eq0. transitivity (y1 + l1 * (x2 - x1)); [ring|]. rewrite <- A1. reflexivity. }
  clear A1 A2. unfold l3, l4, y4, x4 in *. clear l3 l4 y4 x4. rewrite EA. rewrite EY in *. clear EA EY y1.
  split; field; repeat split; auto;
    try (intro E; apply N4; rewrite E; ring); try (intro E; apply N1; rewrite E; ring);
    try (intro E; apply N4; rewrite <- E; ring); try (intro E; apply N1; rewrite <- E; ring).
Qed.

Definition assoc (A B C : pt) : Prop := padd (padd A B) C = padd A (padd B C).

Lemma assoc_deg_ab : forall A B C, oncurve A -> oncurve B -> oncurve C -> padd A B = Inf -> assoc A B C.
Proof.
  intros A B C CA CB CC H. unfold assoc. rewrite H. pose proof (padd_Inf_inv _ _ H CA CB) as E. subst B.
  rewrite (padd_comm (pneg A) C) by assumption. rewrite (padd_comm A (padd C (pneg A))); [|assumption|apply padd_oncurve; assumption].
  pose proof (padd_cancel C (pneg A) CC CB) as K. rewrite pneg_pneg in K. rewrite K. reflexivity.
Qed.

Lemma assoc_sym : forall A B C, oncurve A -> oncurve B -> oncurve C -> assoc C B A -> assoc A B C.
Proof.
  intros A B C CA CB CC H. unfold assoc in *.
  rewrite (padd_comm A B), (padd_comm B C) by assumption.
  rewrite (padd_comm (padd B A) C), (padd_comm A (padd C B)) by (try apply padd_oncurve; assumption). symmetry. exact H.
Qed.

Lemma assoc_deg_bc : forall A B C, oncurve A -> oncurve B -> oncurve C -> padd B C = Inf -> assoc A B C.
Proof.
  intros A B C CA CB CC H. apply assoc_sym; auto. apply assoc_deg_ab; auto. rewrite padd_comm; auto.
Qed.

Lemma assoc_deg_ab_c : forall A B C, oncurve A -> oncurve B -> oncurve C -> padd (padd A B) C = Inf -> assoc A B C.
Proof.
  intros A B C CA CB CC H. unfold assoc. rewrite H.
  pose proof (padd_Inf_inv _ _ H (padd_oncurve _ _ CA CB) CC) as E.
  assert (K : padd B C = pneg A).
  { rewrite E, pneg_padd by assumption.
    rewrite (padd_comm B); [|assumption|apply padd_oncurve; apply pneg_oncurve; assumption].
    pose proof (padd_cancel (pneg A) (pneg B) (pneg_oncurve _ CA) (pneg_oncurve _ CB)) as K. rewrite pneg_pneg in K. exact K. }
  rewrite K, padd_pneg_r. reflexivity.
Qed.

Lemma assoc_deg_a_bc : forall A B C, oncurve A -> oncurve B -> oncurve C -> padd A (padd B C) = Inf -> assoc A B C.
Proof.
  intros A B C CA CB CC H. apply assoc_sym; auto. apply assoc_deg_ab_c; auto.
  rewrite (padd_comm C B) by assumption. rewrite (padd_comm (padd B C) A); auto. apply padd_oncurve; assumption.
Qed.

(** (A + B) + (A + B) = A + (B + (A + B)). *)
Lemma assoc_double : forall A B, oncurve A -> oncurve B -> assoc A B (padd A B).
Proof.
  intros A B CA CB. pose proof (padd_oncurve _ _ CA CB) as CC.
  destruct (padd A B) as [|x4 y4] eqn:EAB.
  { rewrite <- EAB in CC |- *. apply assoc_deg_ab; auto. }
  destruct A as [|x1 y1]. { unfold assoc. rewrite EAB, padd_Inf_l in *. rewrite EAB. reflexivity. }
  destruct B as [|x2 y2]. { unfold assoc. rewrite padd_Inf_r, padd_Inf_l in *. rewrite EAB. reflexivity. }
  destruct (padd (Aff x2 y2) (Aff x4 y4)) as [|x5 y5] eqn:EBC. { apply assoc_deg_bc; auto. }
  pose proof (padd_oncurve _ _ CB CC) as CQ. rewrite EBC in CQ.
  destruct (opposite_dec x4 y4 x4 y4) as [O3|O3].
  { apply assoc_deg_ab_c; auto. rewrite EAB. apply padd_opposite. exact O3. }
  destruct (opposite_dec x1 y1 x5 y5) as [O4|O4].
  { apply assoc_deg_a_bc; auto. rewrite EBC. apply padd_opposite. exact O4. }
  unfold assoc. rewrite EAB, EBC.
  assert (Y4 : y4 <> 0). { intro Y. apply O3. split; [reflexivity|]. rewrite Y. ring. }
  assert (O1 : ~ opposite x1 y1 x2 y2). { intro O. rewrite padd_opposite in EAB by exact O. discriminate. }
  assert (O2 : ~ opposite x2 y2 x4 y4). { intro O. rewrite padd_opposite in EBC by exact O. discriminate. }
  assert (N2 : x2 <> x4).
  { intro E. subst x4. destruct (same_x _ _ _ CB CC) as [Y|Y]; [|apply O2; split; [reflexivity|exact Y]].
    rewrite <- Y in EAB. assert (K : Aff x1 y1 = Inf) by (apply (padd_inj_r _ _ (Aff x2 y2)); cbn [oncurve]; auto). discriminate. }
  destruct (line_exists _ _ _ _ CA CB O1) as [l1 [L1 E1]]. rewrite E1 in EAB. unfold third in EAB. injection EAB as X4 Y4'.
  subst x4. subst y4. clear E1.
  unfold padd in EBC. destruct (Feq_dec x2 (l1 * l1 - x1 - x2)) as [?|_]; [contradiction|]. unfold third in EBC. injection EBC as X5 Y5.
  destruct (Feq_dec x1 x5) as [E5|N5].
  - (* A = B + C, hence B = -B *)
    assert (Y1 : y1 = y5). { subst x5. rewrite <- E5 in CQ, O4. destruct (same_x _ _ _ CA CQ) as [Y|Y]; [exact Y|]. exfalso. apply O4. split; [reflexivity|exact Y]. }
    set (C := Aff (l1 * l1 - x1 - x2) (l1 * (x1 - (l1 * l1 - x1 - x2)) - y1)) in *.
    assert (AB : padd (Aff x1 y1) (Aff x2 y2) = C) by (rewrite (padd_line _ _ _ _ l1 CA CB O1 L1); reflexivity).
    assert (BC : padd (Aff x2 y2) C = Aff x1 y1).
    { unfold C, padd. destruct (Feq_dec x2 (l1 * l1 - x1 - x2)) as [?|_]; [contradiction|]. unfold third.
      f_equal; [exact (eq_trans X5 (eq_sym E5))|exact (eq_trans Y5 (eq_sym Y1))]. }
    assert (K : Aff x2 y2 = pneg (Aff x2 y2)).
    { apply (padd_inj_l C); [exact CC|exact CB|apply pneg_oncurve; exact CB|].
      rewrite (padd_comm C (Aff x2 y2)) by assumption. rewrite BC. rewrite <- AB. symmetry. apply padd_cancel; assumption. }
    cbn [pneg] in K. injection K as K. apply self_opp in K.
    assert (Y1n : y1 <> 0). { intro Y. apply O4. split; [exact E5|]. rewrite <- Y1, Y. ring. }
    rewrite K in L1. rewrite <- E5, <- Y1. clear X5 Y5. unfold C.
    destruct (assoc_two_tangents x1 x2 y1 l1 L1 Y1n Y4) as [R1 R2].
    unfold padd. destruct (Feq_dec (l1 * l1 - x1 - x2) (l1 * l1 - x1 - x2)) as [_|?]; [|contradiction].
    destruct (Feq_dec (l1 * (x1 - (l1 * l1 - x1 - x2)) - y1 + (l1 * (x1 - (l1 * l1 - x1 - x2)) - y1)) 0) as [Z|_].
    { exfalso. apply O3. split; [reflexivity|exact Z]. }
    destruct (Feq_dec x1 x1) as [_|?]; [|contradiction].
    destruct (Feq_dec (y1 + y1) 0) as [Z|_]. { exfalso. apply O4. split; [exact E5|]. rewrite <- Y1. exact Z. }
    unfold third. f_equal; [exact R1|exact R2].
  - unfold padd. destruct (Feq_dec (l1 * l1 - x1 - x2) (l1 * l1 - x1 - x2)) as [_|?]; [|contradiction].
    destruct (Feq_dec (l1 * (x1 - (l1 * l1 - x1 - x2)) - y1 + (l1 * (x1 - (l1 * l1 - x1 - x2)) - y1)) 0) as [Z|_].
    { exfalso. apply O3. split; [reflexivity|exact Z]. }
    destruct (Feq_dec x1 x5) as [?|_]; [contradiction|].
    subst x5. subst y5. destruct (assoc_tangent x1 x2 y1 y2 l1 L1 N2 Y4 N5) as [R1 R2].
    unfold third. f_equal; [exact R1|exact R2].
Qed.

Theorem padd_assoc : forall A B C, oncurve A -> oncurve B -> oncurve C -> padd (padd A B) C = padd A (padd B C).
Proof.
  intros A B C CA CB CC. change (assoc A B C).
  destruct A as [|x1 y1]. { reflexivity. }
  destruct B as [|x2 y2]. { reflexivity. }
  destruct C as [|x3 y3]. { unfold assoc. rewrite !padd_Inf_r. reflexivity. }
  destruct (padd (Aff x1 y1) (Aff x2 y2)) as [|x4 y4] eqn:EAB. { apply assoc_deg_ab; auto. }
  destruct (padd (Aff x2 y2) (Aff x3 y3)) as [|x5 y5] eqn:EBC. { apply assoc_deg_bc; auto. }
  pose proof (padd_oncurve _ _ CA CB) as CP. rewrite EAB in CP.
  pose proof (padd_oncurve _ _ CB CC) as CQ. rewrite EBC in CQ.
  destruct (opposite_dec x4 y4 x3 y3) as [O3|O3].
  { apply assoc_deg_ab_c; auto. rewrite EAB. apply padd_opposite. exact O3. }
  destruct (opposite_dec x1 y1 x5 y5) as [O4|O4].
  { apply assoc_deg_a_bc; auto. rewrite EBC. apply padd_opposite. exact O4. }
  destruct (Feq_dec x4 x3) as [E3|N3].
  { (* C = A + B *)
    subst x3. destruct (same_x _ _ _ CP CC) as [Y|Y]; [|exfalso; apply O3; split; [reflexivity|exact Y]].
    subst y3. rewrite <- EAB. apply assoc_double; assumption. }
  destruct (Feq_dec x1 x5) as [E5|N5].
  { (* A = B + C *)
    subst x5. destruct (same_x _ _ _ CA CQ) as [Y|Y]; [|exfalso; apply O4; split; [reflexivity|exact Y]].
    subst y5. apply assoc_sym; auto. rewrite <- EBC. rewrite (padd_comm (Aff x2 y2)) by assumption. apply assoc_double; assumption. }
  assert (O1 : ~ opposite x1 y1 x2 y2). { intro O. rewrite padd_opposite in EAB by exact O. discriminate. }
  assert (O2 : ~ opposite x2 y2 x3 y3). { intro O. rewrite padd_opposite in EBC by exact O. discriminate. }
  destruct (line_exists _ _ _ _ CA CB O1) as [l1 [L1 E1]]. destruct (line_exists _ _ _ _ CB CC O2) as [l2 [L2 E2]].
  destruct (Feq_dec l1 l2) as [EL|NL].
  - (* collinear: C = A or C = -(A+B) *)
    subst l2. rewrite E1 in EAB. unfold third in EAB. injection EAB as X4 Y4.
    destruct L1 as [A1 A2]. destruct L2 as [B1 B2].
    destruct (mul_eq0 (x3 - x1) (l1 * l1 - x1 - x2 - x3)) as [Z|Z].
    + assert (EA : a = l1 * (y1 + y2) - x1 * x1 - x1 * x2 - x2 * x2) by (rewrite A2; ring).
      rewrite EA, B1, A1 in B2. apply sub_eq0 in B2 || idtac.
      transitivity (l1 * (y1 + l1 * (x2 - x1) + (y1 + l1 * (x2 - x1) + l1 * (x3 - x2))) -
        (x2 * x2 + x2 * x3 + x3 * x3 + (l1 * (y1 + (y1 + l1 * (x2 - x1))) - x1 * x1 - x1 * x2 - x2 * x2))); [ring|].
      rewrite B2. ring.
    + apply sub_eq0 in Z. subst x3. assert (Y : y3 = y1) by (rewrite B1, A1; ring). rewrite Y in *.
      unfold assoc. rewrite (padd_comm (padd (Aff x1 y1) (Aff x2 y2)) (Aff x1 y1)); [|apply padd_oncurve; assumption|assumption].
      f_equal. apply padd_comm; assumption.
    + exfalso. apply N3. rewrite <- X4. apply sub_eq0. exact Z.
  - rewrite E1 in EAB. unfold third in EAB. injection EAB as X4 Y4.
    rewrite E2 in EBC. unfold third in EBC. injection EBC as X5 Y5. subst x4 x5.
    unfold assoc. rewrite E1, E2. unfold third.
    unfold padd. destruct (Feq_dec (l1 * l1 - x1 - x2) x3) as [?|_]; [contradiction|].
    destruct (Feq_dec x1 (l2 * l2 - x2 - x3)) as [?|_]; [contradiction|].
    destruct (assoc_generic_x _ _ _ _ _ _ _ _ L1 L2 NL N3 N5) as [R1 R2]. unfold third. f_equal; [exact R1|exact R2].
Qed.

(** *** integer multiples *)
Definition smul (k : Z) (P : pt) : pt :=
  match k with
  | Z0 => Inf
  | Zpos n => Pos.iter (padd P) Inf n
  | Zneg n => pneg (Pos.iter (padd P) Inf n)
  end.

Lemma iter_oncurve : forall n P, oncurve P -> oncurve (Pos.iter (padd P) Inf n).
Proof.
  intros n P H. apply Pos.iter_invariant; [|exact I]. intros x Hx. apply padd_oncurve; assumption.
Qed.

Lemma smul_oncurve : forall k P, oncurve P -> oncurve (smul k P).
Proof.
  intros [|n|n] P H; cbn [smul]; [exact I|apply iter_oncurve; exact H|apply pneg_oncurve; apply iter_oncurve; exact H].
Qed.

Lemma smul_0 : forall P, smul 0%Z P = Inf.
Proof. reflexivity. Qed.

Lemma smul_1 : forall P, smul 1%Z P = P.
Proof. intro P. cbn. apply padd_Inf_r. Qed.

Lemma smul_opp : forall k P, smul (Z.opp k) P = pneg (smul k P).
Proof. intros [|n|n] P; cbn [smul Z.opp]; [reflexivity|reflexivity|rewrite pneg_pneg; reflexivity]. Qed.

Lemma smul_succ : forall k P, oncurve P -> smul (Z.succ k) P = padd P (smul k P).
Proof.
  intros k P C. destruct k as [|n|n].
  - rewrite smul_0, padd_Inf_r. apply smul_1.
  - replace (Z.succ (Zpos n)) with (Zpos (Pos.succ n)) by lia. cbn [smul]. rewrite Pos.iter_succ. reflexivity.
  - destruct (Pos.eq_dec n 1) as [->|N].
    + cbn [smul Pos.iter]. change (Z.succ (-1)) with 0%Z. rewrite padd_Inf_r, padd_pneg_r. reflexivity.
    + replace (Z.succ (Zneg n)) with (Zneg (Pos.pred n)) by lia. cbn [smul].
      replace n with (Pos.succ (Pos.pred n)) at 2 by lia. rewrite Pos.iter_succ.
      set (Q := Pos.iter (padd P) Inf (Pos.pred n)). assert (CQ : oncurve Q) by (apply iter_oncurve; exact C).
      rewrite pneg_padd by assumption. rewrite <- padd_assoc; try (apply pneg_oncurve); auto.
      rewrite padd_pneg_r. reflexivity.
Qed.

Lemma smul_pred : forall k P, oncurve P -> smul (Z.pred k) P = padd (pneg P) (smul k P).
Proof.
  intros k P C. replace k with (Z.succ (Z.pred k)) at 2 by lia. rewrite smul_succ by exact C.
  rewrite <- padd_assoc; [|apply pneg_oncurve; exact C|exact C|apply smul_oncurve; exact C].
  rewrite padd_pneg_l by exact C. reflexivity.
Qed.

Lemma smul_add : forall j k P, oncurve P -> smul (Z.add j k) P = padd (smul j P) (smul k P).
Proof.
  intros j k P C. revert j. apply Z.bi_induction.
  - intros x y ->. reflexivity.
  - reflexivity.
  - intro j. replace (Z.add (Z.succ j) k) with (Z.succ (Z.add j k)) by lia.
    rewrite !smul_succ by exact C. rewrite padd_assoc; [|exact C|apply smul_oncurve; exact C|apply smul_oncurve; exact C].
    split; intro H; [rewrite H; reflexivity|].
    apply (padd_inj_l P); [exact C|apply smul_oncurve; exact C|apply padd_oncurve; apply smul_oncurve; exact C|exact H].
Qed.

Lemma smul_sub : forall j k P, oncurve P -> smul (Z.sub j k) P = padd (smul j P) (pneg (smul k P)).
Proof. intros j k P C. unfold Z.sub. rewrite smul_add, smul_opp by exact C. reflexivity. Qed.

Lemma smul_double : forall k P, oncurve P -> smul (Z.mul 2 k) P = padd (smul k P) (smul k P).
Proof. intros k P C. replace (Z.mul 2 k) with (Z.add k k) by lia. apply smul_add. exact C. Qed.

Lemma smul_mul : forall j k P, oncurve P -> smul (Z.mul j k) P = smul j (smul k P).
Proof.
  intros j k P C. pose proof (smul_oncurve k P C) as CK. revert j. apply Z.bi_induction.
  - intros x y ->. reflexivity.
  - reflexivity.
  - intro j. rewrite smul_succ by exact CK. replace (Z.mul (Z.succ j) k) with (Z.add k (Z.mul j k)) by lia.
    rewrite smul_add by exact C. split; intro H; [rewrite H; reflexivity|].
    apply (padd_inj_l (smul k P)); [exact CK|apply smul_oncurve; exact C|apply smul_oncurve; exact CK|exact H].
Qed.

Lemma padd_swap : forall A B C D, oncurve A -> oncurve B -> oncurve C -> oncurve D ->
  padd (padd A B) (padd C D) = padd (padd A C) (padd B D).
Proof.
  intros A B C D HA HB HC HD.
  rewrite (padd_assoc A B) by (try apply padd_oncurve; assumption).
  rewrite (padd_assoc A C) by (try apply padd_oncurve; assumption). f_equal.
  rewrite <- (padd_assoc B C D), <- (padd_assoc C B D) by assumption. f_equal. apply padd_comm; assumption.
Qed.

Lemma smul_padd : forall k P Q, oncurve P -> oncurve Q -> smul k (padd P Q) = padd (smul k P) (smul k Q).
Proof.
  intros k P Q CP CQ. pose proof (padd_oncurve _ _ CP CQ) as CPQ. revert k. apply Z.bi_induction.
  - intros x y ->. reflexivity.
  - reflexivity.
  - intro k. rewrite !smul_succ by assumption.
    rewrite (padd_swap P (smul k P) Q (smul k Q)) by (try apply smul_oncurve; assumption).
    split; intro H; [rewrite H; reflexivity|].
    apply (padd_inj_l (padd P Q)); [exact CPQ|apply smul_oncurve; exact CPQ|apply padd_oncurve; apply smul_oncurve; assumption|exact H].
Qed.

Lemma smul_Inf : forall k, smul k Inf = Inf.
Proof.
  apply Z.bi_induction; [intros x y ->; reflexivity|reflexivity|].
  intro k. rewrite smul_succ by exact I. rewrite padd_Inf_l. reflexivity.
Qed.

Lemma smul_pneg : forall k P, oncurve P -> smul k (pneg P) = pneg (smul k P).
Proof.
  intros k P C. replace (pneg P) with (smul (-1)%Z P).
  - rewrite <- smul_mul by exact C. rewrite <- smul_opp. f_equal. lia.
  - change (-1)%Z with (Z.opp 1). rewrite smul_opp, smul_1. reflexivity.
Qed.

(** If N P = O then multiples depend only on the residue mod N. *)
Lemma smul_mod : forall N k P, oncurve P -> smul N P = Inf -> smul (Z.modulo k N) P = smul k P.
Proof.
  intros N k P C H. destruct (Z.eq_dec N 0) as [->|NZ]; [rewrite Zmod_0_r; reflexivity|].
  rewrite (Z.div_mod k N NZ) at 2. rewrite smul_add by exact C. rewrite (Z.mul_comm N), smul_mul by exact C.
  rewrite H, smul_Inf. reflexivity.
Qed.

(** A point killed by a prime that is not O itself is killed exactly by its multiples. *)
Lemma smul_order : forall N k P, oncurve P -> smul N P = Inf -> P <> Inf -> Znumtheory.prime N ->
  smul k P = Inf -> Z.divide N k.
Proof.
  intros N k P C H NP PR HK. destruct (Znumtheory.Zdivide_dec N k) as [D|D]; [exact D|exfalso].
  apply Znumtheory.prime_rel_prime in D; [|exact PR].
  apply Znumtheory.rel_prime_bezout in D. destruct D as [u v E].
  apply NP. rewrite <- (smul_1 P), <- E. rewrite smul_add, !smul_mul, H, HK, !smul_Inf by exact C. reflexivity.
Qed.
End EC.
