(** A checker, on bigZ, for "N times the base point is the neutral element", proved correct against the
    specification group through the refinement of [doublef] and [addf]. *)
From Coq Require Import ZArith Znumtheory List Bool Lia.
From Bignums Require Import BigZ.
From Verif Require Import Base Zp EcGroup EcSpec Elliptic EcProofs.
Import ListNotations.
Open Scope Z_scope.

Local Notation "⟦ x ⟧" := (BigZ.to_Z x) (at level 0, x at level 99).
Local Notation "x *b y" := (BigZ.mul x y) (at level 40, left associativity).
Local Notation "x +b y" := (BigZ.add x y) (at level 50, left associativity).
Local Notation "x -b y" := (BigZ.sub x y) (at level 50, left associativity).
Local Notation "x %b y" := (BigZ.modulo x y) (at level 40, left associativity).

Definition bjpt := option (bigZ * bigZ * bigZ * bigZ * bigZ).
Definition jz (j : bjpt) : jpt :=
  match j with Some (x, y, z, zs, zc) => Some (⟦x⟧, ⟦y⟧, ⟦z⟧, ⟦zs⟧, ⟦zc⟧) | None => None end.

Section Ops.
Variables p n : bigZ.
Definition b2 := BigZ.of_Z 2. Definition b3 := BigZ.of_Z 3. Definition b4 := BigZ.of_Z 4. Definition b8 := BigZ.of_Z 8.

Definition doubleb (jp : bjpt) : bjpt :=
  match jp with
  | None => None
  | Some (x1, y1, z1, z1p2, z1p3) =>
      let y1p2 := (y1 *b y1) %b n in
      let a := (b4 *b x1 *b y1p2) %b n in
      let b := (b3 *b x1 *b x1 -b p *b z1p3 *b z1) %b n in
      let x3 := (b *b b -b b2 *b a) %b n in
      let y3 := (b *b (a -b x3) -b b8 *b y1p2 *b y1p2) %b n in
      let z3 := (b2 *b y1 *b z1) %b n in
      let z3p2 := (z3 *b z3) %b n in
      Some (x3, y3, z3, z3p2, (z3p2 *b z3) %b n)
  end.

Definition addb (jp1 jp2 : bjpt) : bjpt :=
  match jp1, jp2 with
  | Some (x1, y1, z1, z1s, z1c), Some (x2, y2, z2, z2s, z2c) =>
      let s1 := (y1 *b z2c) %b n in
      let s2 := (y2 *b z1c) %b n in
      let u1 := (x1 *b z2s) %b n in
      let u2 := (x2 *b z1s) %b n in
      if negb (BigZ.eqb ((u1 -b u2) %b n) BigZ.zero) then
        let h := (u2 -b u1) %b n in
        let r := (s2 -b s1) %b n in
        let hs := (h *b h) %b n in
        let hc := (hs *b h) %b n in
        let x3 := (BigZ.opp hc -b b2 *b u1 *b hs +b r *b r) %b n in
        let y3 := (BigZ.opp s1 *b hc +b r *b (u1 *b hs -b x3)) %b n in
        let z3 := (z1 *b z2 *b h) %b n in
        let z3s := (z3 *b z3) %b n in
        let z3c := (z3s *b z3) %b n in
        Some (x3, y3, z3, z3s, z3c)
      else if negb (BigZ.eqb ((s1 +b s2) %b n) BigZ.zero) then doubleb jp1
      else None
  | Some _, None => jp1
  | None, _ => jp2
  end.

Ltac bz := repeat first [rewrite BigZ.spec_modulo | rewrite BigZ.spec_mul | rewrite BigZ.spec_sub | rewrite BigZ.spec_add | rewrite BigZ.spec_opp].

Lemma jz_double : forall q j, jz (doubleb j) = doublef ⟦p⟧ q ⟦n⟧ (jz j).
Proof.
  intros q [[[[[x y] zz] zs] zc]|]; [|reflexivity]. cbn [doubleb doublef jz]. bz.
  unfold b2, b3, b4, b8. rewrite !BigZ.spec_of_Z. reflexivity.
Qed.

Lemma jz_add : forall q j1 j2, jz (addb j1 j2) = addf ⟦p⟧ q ⟦n⟧ (jz j1) (jz j2).
Proof.
  intros q [[[[[x1 y1] z1] z1s] z1c]|] [[[[[x2 y2] z2] z2s] z2c]|]; try reflexivity.
  change (jz (Some (x1, y1, z1, z1s, z1c))) with (Some (⟦x1⟧, ⟦y1⟧, ⟦z1⟧, ⟦z1s⟧, ⟦z1c⟧)) at 1.
  change (jz (Some (x2, y2, z2, z2s, z2c))) with (Some (⟦x2⟧, ⟦y2⟧, ⟦z2⟧, ⟦z2s⟧, ⟦z2c⟧)).
  unfold addb, addf. rewrite !BigZ.spec_eqb. bz. change ⟦BigZ.zero⟧ with 0.
  destruct (((⟦x1⟧ * ⟦z2s⟧) mod ⟦n⟧ - (⟦x2⟧ * ⟦z1s⟧) mod ⟦n⟧) mod ⟦n⟧ =? 0); cbn [negb].
  - destruct (((⟦y1⟧ * ⟦z2c⟧) mod ⟦n⟧ + (⟦y2⟧ * ⟦z1c⟧) mod ⟦n⟧) mod ⟦n⟧ =? 0); cbn [negb]; [reflexivity|].
    rewrite (jz_double q). reflexivity.
  - cbn [jz]. bz. unfold b2. rewrite !BigZ.spec_of_Z. reflexivity.
Qed.

(** plain double-and-add, from the most significant bit *)
Fixpoint nmulb (g : bjpt) (c : positive) : bjpt :=
  match c with
  | xH => g
  | xO c' => doubleb (nmulb g c')
  | xI c' => addb (doubleb (nmulb g c')) g
  end.
End Ops.

Definition check_order (p n : Z) (x y : Z) (N : Z) : bool :=
  match N with
  | Zpos c => match nmulb (BigZ.of_Z p) (BigZ.of_Z n) (Some (BigZ.of_Z x, BigZ.of_Z y, BigZ.one, BigZ.one, BigZ.one)) c with
              | None => true | Some _ => false end
  | _ => false
  end.

Lemma check_order_ok : forall p q n x y N, good_curve n (- p) (- q) -> no_two_torsion n (- p) (- q) ->
  element (Some (x, y)) p q n = true -> check_order p n x y N = true -> gmul n (- p) N (GP n x y) = GO n.
Proof.
  intros p q n x y N G T E H. unfold check_order in H. destruct N as [|c|c]; try discriminate.
  set (g := Some (BigZ.of_Z x, BigZ.of_Z y, BigZ.one, BigZ.one, BigZ.one)) in *.
  assert (C : on_curve n (- p) (- q) (GP n x y)) by (apply (den_on p q n (Some (x, y))); exact E).
  assert (R0 : jrep n (jz g) (GP n x y)).
  { unfold g. cbn [jz]. rewrite !BigZ.spec_of_Z. change ⟦BigZ.one⟧ with 1. apply (jrep_to p q n G (Some (x, y))). }
  assert (R : forall c, jrep n (jz (nmulb (BigZ.of_Z p) (BigZ.of_Z n) g c)) (gmul n (- p) (Zpos c) (GP n x y))).
  { clear c H. assert (K : forall c, jrep n (jz (nmulb (BigZ.of_Z p) (BigZ.of_Z n) g c)) (gmul n (- p) (Zpos c) (GP n x y)) ->
       jrep n (jz (doubleb (BigZ.of_Z p) (BigZ.of_Z n) (nmulb (BigZ.of_Z p) (BigZ.of_Z n) g c))) (gmul n (- p) (Zpos c~0) (GP n x y))).
    { intros c IH. rewrite (jz_double _ _ q). rewrite !BigZ.spec_of_Z. change (Zpos c~0) with (2 * Zpos c).
      rewrite (mul_2k p q n G) by exact C. apply (jrep_dbl p q n G T); [exact IH|apply (g_mul_on p q n G); exact C]. }
    induction c as [c IH|c IH|].
    - cbn [nmulb]. rewrite (jz_add _ _ q). rewrite !BigZ.spec_of_Z. replace (Zpos c~1) with (Zpos c~0 + 1) by lia.
      rewrite (g_mul_add p q n G), g_mul_1 by exact C.
      apply (jrep_add p q n G); [apply K; exact IH|exact R0|apply (g_mul_on p q n G); exact C|exact C].
    - apply K. exact IH.
    - rewrite g_mul_1. exact R0. }
  specialize (R c). destruct (nmulb _ _ g c); [discriminate|]. unfold jz, jrep in R.
  destruct (gmul n (- p) (Zpos c) (GP n x y)); [reflexivity|contradiction].
Qed.
