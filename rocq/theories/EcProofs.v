(** Refinement of the code of elliptic.py to the abstract group. *)
From Coq Require Import ZArith List Bool Lia Znumtheory Field Ring.
From Verif Require Import Base Zp EcGroup EcSpec Elliptic EcArith.
Import ListNotations.
Open Scope Z_scope.

Section Refine.
Variables p q n : Z.
Hypothesis Good : good_curve n (- p) (- q).

Lemma Pn : prime n. Proof. apply Good. Qed.
Lemma n3 : 3 < n. Proof. apply Good. Qed.

Local Notation F := (zp n).
Local Notation z := (of_Z n).
Local Notation "0f" := (z0 n). Local Notation "1f" := (z1 n).
Declare Scope zf_scope.
Delimit Scope zf_scope with f.
Local Notation "x + y" := (zadd n x y) : zf_scope.
Local Notation "x * y" := (zmul n x y) : zf_scope.
Local Notation "x - y" := (zsub n x y) : zf_scope.
Local Notation "x / y" := (zdiv n x y) : zf_scope.
Local Notation "- x" := (zopp n x) : zf_scope.
Add Field zpf : (zp_field n Pn).
Local Notation A := (z (- p)).
Local Notation B := (z (- q)).
Local Notation on := (on_curve n (- p) (- q)).
Local Notation "P ⊕ Q" := (gadd n (- p) P Q) (at level 50, left associativity).
Local Notation "k · P" := (gmul n (- p) k P) (at level 40).
Local Notation "⊖ P" := (gneg n P) (at level 35).
Local Notation den := (den n).

Lemma two0 : (1f + 1f)%f <> 0f.
Proof. apply two_neq0. pose proof n3. lia. Qed.

Lemma z2 : z 2 = (1f + 1f)%f.
Proof. change 2 with (1 + 1). rewrite of_Z_add. reflexivity. Qed.
Lemma z3 : z 3 = (1f + 1f + 1f)%f.
Proof. change 3 with (1 + 1 + 1). rewrite !of_Z_add. reflexivity. Qed.
Lemma z4 : z 4 = ((1f + 1f) * (1f + 1f))%f.
Proof. change 4 with (2 * 2). rewrite of_Z_mul, z2. reflexivity. Qed.
Lemma z8 : z 8 = ((1f + 1f) * (1f + 1f) * (1f + 1f))%f.
Proof. change 8 with (2 * 2 * 2). rewrite !of_Z_mul, z2. reflexivity. Qed.

Lemma discF : (((1f + 1f) * (1f + 1f)) * (A * A * A) + (((1f + 1f + 1f) * (1f + 1f + 1f)) * (1f + 1f + 1f)) * (B * B))%f <> 0f.
Proof.
  destruct Good as (_ & _ & D). intro E. apply D. apply of_Z_0.
  rewrite <- E. rewrite !of_Z_add, !of_Z_mul, z4. change 27 with (3 * 3 * 3). rewrite !of_Z_mul, z3. ring.
Qed.

Lemma g_add_on : forall P Q, on P -> on Q -> on (P ⊕ Q).
Proof. intros. eapply padd_oncurve; eauto using zp_field, two0, Pn. Qed.
Lemma g_neg_on : forall P, on P -> on (⊖ P).
Proof. intros. eapply pneg_oncurve; eauto using zp_field, two0, Pn. Qed.
Lemma g_mul_on : forall k P, on P -> on (k · P).
Proof. intros. eapply smul_oncurve; eauto using zp_field, two0, Pn. Qed.
Lemma g_assoc : forall P Q R, on P -> on Q -> on R -> (P ⊕ Q) ⊕ R = P ⊕ (Q ⊕ R).
Proof. intros. eapply padd_assoc; eauto using zp_field, two0, Pn, discF. Qed.
Lemma g_comm : forall P Q, on P -> on Q -> P ⊕ Q = Q ⊕ P.
Proof. intros. eapply padd_comm; eauto using zp_field, two0, Pn. Qed.
Lemma g_O_l : forall P, GO n ⊕ P = P.
Proof. intros. apply padd_Inf_l. Qed.
Lemma g_O_r : forall P, P ⊕ GO n = P.
Proof. intros. apply padd_Inf_r. Qed.
Lemma g_neg_r : forall P, P ⊕ (⊖ P) = GO n.
Proof. intros. eapply padd_pneg_r; eauto using zp_field, Pn. Qed.
Lemma g_neg_neg : forall P, ⊖ (⊖ P) = P.
Proof. intros. eapply pneg_pneg; eauto using zp_field, Pn. Qed.
Lemma g_neg_add : forall P Q, on P -> on Q -> ⊖ (P ⊕ Q) = (⊖ P) ⊕ (⊖ Q).
Proof. intros. eapply pneg_padd; eauto using zp_field, two0, Pn. Qed.
Lemma g_mul_add : forall j k P, on P -> (j + k) · P = (j · P) ⊕ (k · P).
Proof. intros. eapply smul_add; eauto using zp_field, two0, Pn, discF. Qed.
Lemma g_mul_mul : forall j k P, on P -> (j * k) · P = j · (k · P).
Proof. intros. eapply smul_mul; eauto using zp_field, two0, Pn, discF. Qed.
Lemma g_mul_padd : forall k P Q, on P -> on Q -> k · (P ⊕ Q) = (k · P) ⊕ (k · Q).
Proof. intros. eapply smul_padd; eauto using zp_field, two0, Pn, discF. Qed.
Lemma g_mul_opp : forall k P, (- k) · P = ⊖ (k · P).
Proof. intros. eapply smul_opp; eauto using zp_field, Pn. Qed.
Lemma g_mul_neg : forall k P, on P -> k · (⊖ P) = ⊖ (k · P).
Proof. intros. eapply smul_pneg; eauto using zp_field, two0, Pn, discF. Qed.
Lemma g_mul_0 : forall P, 0 · P = GO n. Proof. reflexivity. Qed.
Lemma g_mul_1 : forall P, 1 · P = P. Proof. intros. eapply smul_1; eauto using zp_field, Pn. Qed.
Lemma g_mul_O : forall k, k · (GO n) = GO n. Proof. intros. eapply smul_Inf; eauto using zp_field, two0, Pn, discF. Qed.
Lemma g_mul_mod : forall N k P, on P -> N · P = GO n -> (k mod N) · P = k · P.
Proof. intros. eapply smul_mod; eauto using zp_field, two0, Pn, discF. Qed.
Lemma g_order : forall N k P, on P -> N · P = GO n -> P <> GO n -> prime N -> k · P = GO n -> (N | k).
Proof. intros N k P. eapply smul_order; eauto using zp_field, two0, Pn, discF. Qed.
Lemma g_swap : forall P Q R S, on P -> on Q -> on R -> on S -> (P ⊕ Q) ⊕ (R ⊕ S) = (P ⊕ R) ⊕ (Q ⊕ S).
Proof. intros. eapply padd_swap; eauto using zp_field, two0, Pn, discF. Qed.

(** *** element, neg, inverse *)
Lemma mulmod0 : forall k, (k mod n =? 0) = false <-> z k <> 0f.
Proof.
  intro k. rewrite of_Z_0. rewrite Z.eqb_neq. reflexivity.
Qed.
Lemma mulmod0t : forall k, (k mod n =? 0) = true <-> z k = 0f.
Proof. intro k. rewrite of_Z_0. apply Z.eqb_eq. Qed.

Lemma inv_F : forall k, z k <> 0f -> z (inv k n) = zinv n (z k).
Proof.
  intros k H. pose proof n3. pose proof Pn as PN. assert (G : Z.gcd k n = 1).
  { assert (R : rel_prime n k).
    { apply prime_rel_prime; [exact PN|]. intro D. apply H. apply of_Z_0. apply Zdivide_mod. exact D. }
    apply Zgcd_1_rel_prime. apply rel_prime_sym. exact R. }
  destruct (inv_coprime k n ltac:(lia) G) as [_ E].
  assert (E2 : (z (inv k n) * z k)%f = 1f).
  { rewrite <- of_Z_mul. apply of_Z_eq. exact E. }
  transitivity ((z (inv k n) * z k) * zinv n (z k))%f; [field; exact H|]. rewrite E2. ring.
Qed.

Lemma den_on : forall P, on (den P) <-> element P p q n = true.
Proof.
  intros [[x y]|]; cbn [EcSpec.den element]; [|split; intros; [reflexivity|exact I]].
  unfold on_curve, GP, oncurve. rewrite Z.eqb_eq.
  rewrite <- !of_Z_mul, <- !of_Z_add, of_Z_eq.
  replace (x * x * x - p * x - q) with (x * x * x + - p * x + - q) by ring. split; congruence.
Qed.

Lemma den_neg : forall P, den (nega P n) = ⊖ (den P).
Proof.
  intros [[x y]|]; [|reflexivity]. cbn. unfold GP. f_equal. rewrite of_Z_mod, of_Z_sub, of_Z_p.
  ring.
Qed.

(** *** affine addition *)
Lemma den_add : forall P Q, on (den P) -> on (den Q) -> den (add p q n P Q) = den P ⊕ den Q.
Proof.
  intros [[x1 y1]|] [[x2 y2]|] C1 C2; try reflexivity.
  cbn [add EcSpec.den] in *. unfold GP, gadd, padd in *.
  destruct ((x1 - x2) mod n =? 0) eqn:E.
  - apply mulmod0t in E. rewrite of_Z_sub in E.
    assert (EX : z x1 = z x2). { transitivity ((z x1 - z x2) + z x2)%f; [ring|rewrite E; ring]. }
    destruct (zp_eq_dec n (z x1) (z x2)) as [_|N]; [|contradiction].
    cbn [negb]. destruct ((y1 + y2) mod n =? 0) eqn:E2.
    + apply mulmod0t in E2. rewrite of_Z_add in E2.
      destruct (zp_eq_dec n (z y1 + z y2)%f 0f) as [_|N]; [reflexivity|contradiction].
    + apply mulmod0 in E2. rewrite of_Z_add in E2.
      destruct (zp_eq_dec n (z y1 + z y2)%f 0f) as [N|_]; [contradiction|].
      cbn [negb EcSpec.den]. unfold GP, third.
      assert (Y0 : z y1 <> 0f).
      { rewrite <- EX in C2.
        destruct (same_x _ _ _ _ _ _ _ _ _ (zp_field n Pn) (zp_eq_dec n) _ _ _ _ _ C1 C2) as [Y|Y]; [|contradiction].
        intro Z. apply E2. rewrite <- Y, Z. ring. }
      rewrite !of_Z_sub, !of_Z_mod, ?of_Z_p, !of_Z_add, !of_Z_mul, !of_Z_sub, !of_Z_mod, !of_Z_mul, !of_Z_sub, !of_Z_mul, !of_Z_mod, !of_Z_mul, !of_Z_sub, !of_Z_mul.
      rewrite inv_F by (rewrite of_Z_mul, z2; apply (mul_neq0 _ _ _ _ _ _ _ _ _ (zp_field n Pn) (zp_eq_dec n)); [exact two0|exact Y0]).
      rewrite !of_Z_mul, z2, z3, of_Z_opp. pose proof two0.
      f_equal; field; split; assumption.
  - apply mulmod0 in E. rewrite of_Z_sub in E.
    destruct (zp_eq_dec n (z x1) (z x2)) as [N|N]; [exfalso; apply E; rewrite N; ring|].
    cbn [negb EcSpec.den]. unfold GP, third.
    rewrite !of_Z_sub, !of_Z_mod, ?of_Z_p, !of_Z_add, !of_Z_mul, !of_Z_sub, !of_Z_mod, !of_Z_mul, !of_Z_sub, !of_Z_mul, !of_Z_mod, !of_Z_mul, !of_Z_sub.
    rewrite inv_F by (rewrite of_Z_sub; exact E). rewrite !of_Z_sub.
    f_equal; field; exact E.
Qed.

(** *** Jacobian coordinates *)
Definition jrep (j : jpt) (P : gpt n) : Prop :=
  match j, P with
  | None, Inf _ => True
  | Some (x, y, zz, zs, zc), Aff _ X Y =>
      z zz <> 0f /\ z zs = (z zz * z zz)%f /\ z zc = (z zz * z zz * z zz)%f /\
      z x = (X * (z zz * z zz))%f /\ z y = (Y * (z zz * z zz * z zz))%f
  | _, _ => False
  end.

Lemma mnz : forall x y, x <> 0f -> y <> 0f -> (x * y)%f <> 0f.
Proof. apply (mul_neq0 _ _ _ _ _ _ _ _ _ (zp_field n Pn) (zp_eq_dec n)). Qed.

Lemma jrep_to : forall P, jrep (to_projective P) (den P).
Proof.
  intros [[x y]|]; cbn; [|exact I]. change (z 1) with 1f. repeat split; try ring. apply z1_neq_z0. exact Pn.
Qed.

Lemma from_jrep : forall j P, jrep j P -> den (from_projective j n) = P.
Proof.
  intros [[[[[x y] zz] zs] zc]|] [|X Y] H; cbn in H; try contradiction; [|reflexivity].
  destruct H as (H0 & H1 & H2 & H3 & H4). cbn. unfold GP.
  assert (z zs <> 0f) by (rewrite H1; apply mnz; assumption).
  assert (z zc <> 0f) by (rewrite H2; repeat apply mnz; assumption).
  rewrite !of_Z_mod, !of_Z_mul, !inv_F by assumption. rewrite H1, H2, H3, H4.
  f_equal; field; exact H0.
Qed.

Lemma from_range : forall j, match from_projective j n with Some (x, y) => 0 <= x < n /\ 0 <= y < n | None => True end.
Proof.
  pose proof n3. intros [[[[[x y] zz] zs] zc]|]; cbn; [|exact I]. split; apply Z.mod_pos_bound; lia.
Qed.

Lemma jrep_neg : forall j P, jrep j P -> jrep (negj j n) (⊖ P).
Proof.
  intros [[[[[x y] zz] zs] zc]|] [|X Y] H; cbn in *; try contradiction; [|exact I].
  destruct H as (H0 & H1 & H2 & H3 & H4). repeat split; try assumption.
  rewrite of_Z_mod, of_Z_sub, of_Z_p, H4. ring.
Qed.

(** a point that is its own negative is a root of the right-hand side *)
Definition not_two_torsion (P : gpt n) : Prop := match P with Inf _ => True | Aff _ _ Y => Y <> 0f end.

Ltac zpush := repeat first [rewrite of_Z_mod | rewrite of_Z_mul | rewrite of_Z_sub | rewrite of_Z_add | rewrite of_Z_opp].

Lemma jrep_double : forall j P, jrep j P -> on P -> not_two_torsion P -> jrep (doublef p q n j) (P ⊕ P).
Proof.
  intros [[[[[x y] zz] zs] zc]|] [|X Y] H C NT; cbn in H; try contradiction; [|exact I].
  destruct H as (H0 & H1 & H2 & H3 & H4). cbn in NT. pose proof two0 as T.
  unfold gadd, padd. destruct (zp_eq_dec n X X) as [_|N]; [|congruence].
  destruct (zp_eq_dec n (Y + Y)%f 0f) as [E|_].
  { exfalso. apply NT. apply (double_eq0 _ _ _ _ _ _ _ _ _ (zp_field n Pn) (zp_eq_dec n) two0). exact E. }
  unfold third. cbn [doublef jrep]. zpush. rewrite z2, z3, z4, z8. rewrite ?H1, ?H2, ?H3, ?H4. repeat split.
  - repeat apply mnz; assumption.
  - field. split; assumption.
  - field. split; assumption.
Qed.

Lemma jrep_add : forall j1 j2 P Q, jrep j1 P -> jrep j2 Q -> on P -> on Q -> jrep (addf p q n j1 j2) (P ⊕ Q).
Proof.
  intros j1 j2 P Q R1 R2 C1 C2.
  destruct j1 as [[[[[x1 y1] zz1] zs1] zc1]|]; destruct P as [|X1 Y1]; try contradiction.
  2:{ destruct j2 as [[[[[x2 y2] zz2] zs2] zc2]|]; destruct Q as [|X2 Y2]; try contradiction; [exact R2|exact I]. }
  destruct j2 as [[[[[x2 y2] zz2] zs2] zc2]|]; destruct Q as [|X2 Y2]; try contradiction; [|exact R1].
  pose proof R1 as R1'. cbn in R1, R2. destruct R1 as (H0 & H1 & H2 & H3 & H4). destruct R2 as (K0 & K1 & K2 & K3 & K4).
  unfold addf.
  assert (U : z ((x1 * zs2) mod n - (x2 * zs1) mod n) = ((X1 - X2) * (z zz1 * z zz1 * (z zz2 * z zz2)))%f).
  { zpush. rewrite H1, H3, K1, K3. ring. }
  assert (ZZ : (z zz1 * z zz1 * (z zz2 * z zz2))%f <> 0f) by (repeat apply mnz; assumption).
  assert (ZZZ : (z zz1 * z zz1 * z zz1 * (z zz2 * z zz2 * z zz2))%f <> 0f) by (repeat apply mnz; assumption).
  destruct (((x1 * zs2) mod n - (x2 * zs1) mod n) mod n =? 0) eqn:E.
  - apply mulmod0t in E. rewrite U in E.
    destruct (mul_eq0 _ _ _ _ _ _ _ _ _ (zp_field n Pn) (zp_eq_dec n) _ _ E) as [E'|]; [|contradiction].
    apply (sub_eq0 _ _ _ _ _ _ _ _ _ (zp_field n Pn)) in E'. subst X2.
    cbn [negb].
    assert (S : z ((y1 * zc2) mod n + (y2 * zc1) mod n) = ((Y1 + Y2) * (z zz1 * z zz1 * z zz1 * (z zz2 * z zz2 * z zz2)))%f).
    { zpush. rewrite H2, H4, K2, K4. ring. }
    destruct (((y1 * zc2) mod n + (y2 * zc1) mod n) mod n =? 0) eqn:E2; cbn [negb].
    + apply mulmod0t in E2. rewrite S in E2.
      destruct (mul_eq0 _ _ _ _ _ _ _ _ _ (zp_field n Pn) (zp_eq_dec n) _ _ E2) as [E'|]; [|contradiction].
      unfold gadd, padd. destruct (zp_eq_dec n X1 X1); [|congruence].
      destruct (zp_eq_dec n (Y1 + Y2)%f 0f); [exact I|contradiction].
    + apply mulmod0 in E2. rewrite S in E2.
      assert (E3 : (Y1 + Y2)%f <> 0f) by (intro E3; apply E2; rewrite E3; ring).
      destruct (same_x _ _ _ _ _ _ _ _ _ (zp_field n Pn) (zp_eq_dec n) _ _ _ _ _ C1 C2) as [Y|Y]; [|contradiction].
      subst Y2. apply jrep_double; [exact R1'|exact C1|]. cbn. intro Z. apply E3. rewrite Z. ring.
  - apply mulmod0 in E. rewrite U in E. cbn [negb].
    assert (XN : (X1 - X2)%f <> 0f) by (intro X; apply E; rewrite X; ring).
    unfold gadd, padd. destruct (zp_eq_dec n X1 X2) as [N|N]; [exfalso; apply XN; rewrite N; ring|].
    unfold third. cbn [jrep]. zpush. rewrite z2. rewrite ?H1, ?H2, ?H3, ?H4, ?K1, ?K2, ?K3, ?K4. repeat split.
    + apply mnz; [apply mnz; assumption|].
      intro E3. apply E. transitivity (- 0f)%f; [rewrite <- E3; ring|ring].
    + field. exact XN.
    + field. exact XN.
Qed.

(** *** affine double-and-add [mul] *)
Lemma g_mul_double : forall k P, on P -> (2 * k) · P = k · (P ⊕ P).
Proof.
  intros k P C. rewrite g_mul_padd by assumption. replace (2 * k) with (k + k) by lia. apply g_mul_add. exact C.
Qed.

Lemma add_on : forall P Q, on (den P) -> on (den Q) -> on (den (add p q n P Q)).
Proof. intros P Q C1 C2. rewrite den_add by assumption. apply g_add_on; assumption. Qed.

Lemma den_mul_pos : forall c r P, on (den r) -> on (den P) ->
  den (mul_pos p q n r P c) = den r ⊕ (Zpos c · den P).
Proof.
  induction c as [c IH|c IH|]; intros r P Cr C; cbn [mul_pos].
  - rewrite IH by (apply add_on; assumption). rewrite !den_add by assumption.
    rewrite g_assoc by (try apply g_mul_on; try apply g_add_on; assumption). f_equal.
    change (Zpos c~1) with (1 + 2 * Zpos c). rewrite g_mul_add, g_mul_1, g_mul_double by exact C. reflexivity.
  - rewrite IH by (try apply add_on; assumption). rewrite den_add by assumption.
    change (Zpos c~0) with (2 * Zpos c). rewrite g_mul_double by exact C. reflexivity.
  - rewrite den_add by assumption. rewrite g_mul_1. reflexivity.
Qed.

Lemma den_mul : forall P c, 0 <= c -> on (den P) -> den (mul p q n P c) = c · den P.
Proof.
  intros P [|c|c] H C; [reflexivity| |lia]. cbn [mul]. rewrite den_mul_pos by (try exact I; exact C).
  cbn [EcSpec.den]. apply g_O_l.
Qed.

(** *** scalar multiplication in Jacobian coordinates *)
Hypothesis NoTwo : no_two_torsion n (- p) (- q).

Lemma no_two : forall P, on P -> not_two_torsion P.
Proof.
  intros [|X Y] C; [exact I|]. cbn in *. intro E. apply (NoTwo (zv n X)).
  apply of_Z_0. rewrite !of_Z_add, !of_Z_mul, !of_Z_zv.
  unfold oncurve in C. rewrite <- C, E. ring.
Qed.

Lemma jrep_dbl : forall j P, jrep j P -> on P -> jrep (doublef p q n j) (P ⊕ P).
Proof. intros. apply jrep_double; try assumption. apply no_two. assumption. Qed.

Lemma mul_2k : forall k P, on P -> (2 * k) · P = (k · P) ⊕ (k · P).
Proof. intros k P C. replace (2 * k) with (k + k) by lia. apply g_mul_add. exact C. Qed.

Definition digit (d : Z) : Prop := d = -1 \/ d = 0 \/ d = 1.

Lemma mulf_fold : forall j P, jrep j P -> on P -> forall l r v, Forall digit l -> jrep r (v · P) ->
  jrep (fold_left (mulf_step p q n j (negj j n)) l r) (fold_left (fun v d => 2 * v + d) l v · P).
Proof.
  intros j P R C. induction l as [|d l IH]; intros r v D H; [exact H|].
  inversion_clear D as [|? ? Dd Dl]. cbn [fold_left]. apply IH; [exact Dl|].
  assert (CV : on (v · P)) by (apply g_mul_on; exact C).
  pose proof (jrep_dbl _ _ H CV) as HD. rewrite <- mul_2k in HD by exact C.
  assert (C2 : on ((2 * v) · P)) by (apply g_mul_on; exact C).
  unfold mulf_step. destruct Dd as [->|[->| ->]]; cbn [Z.eqb negb Z.ltb Z.compare].
  - rewrite g_mul_add by exact C. change (-1) with (- (1)). rewrite g_mul_opp, g_mul_1.
    apply jrep_add; [exact HD|apply jrep_neg; exact R|exact C2|apply g_neg_on; exact C].
  - rewrite Z.add_0_r. exact HD.
  - rewrite g_mul_add, g_mul_1 by exact C. apply jrep_add; assumption.
Qed.

Lemma jrep_mulf : forall j P c, 0 <= c -> jrep j P -> on P -> jrep (mulf p q n j c) (c · P).
Proof.
  intros j P c Hc R C. unfold mulf. destruct (signed_bin_ok c) as (_ & V & D).
  rewrite <- V at 2. apply mulf_fold; [exact R|exact C|apply D; exact Hc|exact I].
Qed.

Lemma den_mulp : forall P c, 0 <= c -> on (den P) -> den (mulp p q n P c) = c · den P.
Proof.
  intros P c Hc C. unfold mulp. apply from_jrep. apply jrep_mulf; [exact Hc|apply jrep_to|exact C].
Qed.

Lemma mulp_range : forall P c, match mulp p q n P c with Some (x, y) => 0 <= x < n /\ 0 <= y < n | None => True end.
Proof. intros. apply from_range. Qed.

(** *** Shamir's trick *)
Definition comb (P Q : gpt n) (v1 v2 : Z) : gpt n := (v1 · P) ⊕ (v2 · Q).

Lemma comb_on : forall P Q v1 v2, on P -> on Q -> on (comb P Q v1 v2).
Proof. intros. apply g_add_on; apply g_mul_on; assumption. Qed.

Lemma comb_add : forall P Q a1 a2 b1 b2, on P -> on Q ->
  comb P Q (a1 + b1) (a2 + b2) = comb P Q a1 a2 ⊕ comb P Q b1 b2.
Proof.
  intros. unfold comb. rewrite !g_mul_add by assumption. apply g_swap; apply g_mul_on; assumption.
Qed.

Lemma mul_m1 : forall P, (-1) · P = ⊖ P.
Proof. intro P. change (-1) with (- (1)). rewrite g_mul_opp, g_mul_1. reflexivity. Qed.

Lemma muladdf_fold : forall j1 j2 P Q, jrep j1 P -> jrep j2 Q -> on P -> on Q ->
  let p12 := addf p q n j1 j2 in let n12 := addf p q n j1 (negj j2 n) in
  let pre := ((None, j2, negj j2 n), (j1, p12, n12), (negj j1 n, negj n12 n, negj p12 n)) in
  forall l r v1 v2, Forall (fun ij => digit (fst ij) /\ digit (snd ij)) l -> jrep r (comb P Q v1 v2) ->
  exists r', fold_left (muladdf_step p q n pre) l (Ok r) = Ok r' /\
    jrep r' (comb P Q (fold_left (fun v d => 2 * v + d) (map fst l) v1) (fold_left (fun v d => 2 * v + d) (map snd l) v2)).
Proof.
  intros j1 j2 P Q R1 R2 C1 C2 p12 n12 pre. induction l as [|[i k] l IH]; intros r v1 v2 D H.
  - exists r. split; [reflexivity|exact H].
  - inversion_clear D as [|? ? [Di Dk] Dl]. cbn [fst snd] in Di, Dk. cbn [fold_left map fst snd].
    assert (NR1 : jrep (negj j1 n) (⊖ P)) by (apply jrep_neg; exact R1).
    assert (NR2 : jrep (negj j2 n) (⊖ Q)) by (apply jrep_neg; exact R2).
    assert (CN1 : on (⊖ P)) by (apply g_neg_on; exact C1).
    assert (CN2 : on (⊖ Q)) by (apply g_neg_on; exact C2).
    assert (RP : jrep p12 (P ⊕ Q)) by (apply jrep_add; assumption).
    assert (RN : jrep n12 (P ⊕ (⊖ Q))) by (apply jrep_add; assumption).
    assert (RPN : jrep (negj p12 n) ((⊖ P) ⊕ (⊖ Q))) by (rewrite <- g_neg_add by assumption; apply jrep_neg; exact RP).
    assert (RNN : jrep (negj n12 n) ((⊖ P) ⊕ Q)).
    { replace Q with (⊖ (⊖ Q)) by apply g_neg_neg. rewrite <- g_neg_add by assumption. apply jrep_neg. exact RN. }
    assert (CV : on (comb P Q v1 v2)) by (apply comb_on; assumption).
    assert (HD : jrep (doublef p q n r) (comb P Q (2 * v1) (2 * v2))).
    { replace (2 * v1) with (v1 + v1) by lia. replace (2 * v2) with (v2 + v2) by lia.
      rewrite comb_add by assumption. apply jrep_dbl; assumption. }
    assert (CD : on (comb P Q (2 * v1) (2 * v2))) by (apply comb_on; assumption).
    assert (K : exists r'', muladdf_step p q n pre (Ok r) (i, k) = Ok r'' /\ jrep r'' (comb P Q (2 * v1 + i) (2 * v2 + k))).
    { assert (J : forall e S, jrep e S -> on S -> comb P Q i k = S ->
                jrep (addf p q n (doublef p q n r) e) (comb P Q (2 * v1 + i) (2 * v2 + k))).
      { intros e S Re Cs <-. rewrite comb_add by assumption. apply jrep_add; assumption. }
      unfold muladdf_step. cbn [bind fst snd].
      destruct Di as [->|[->| ->]]; destruct Dk as [->|[->| ->]]; cbn [Z.eqb negb orb idx3 bind pre Pos.eqb];
        (eexists; split; [reflexivity|]).
      all: try (rewrite !Z.add_0_r; exact HD).
      all: eapply J; [eassumption|repeat apply g_add_on; assumption|
         unfold comb; rewrite ?mul_m1, ?g_mul_1, ?g_mul_0, ?g_O_l, ?g_O_r; reflexivity]. }
    destruct K as (r'' & K1 & K2). rewrite K1. apply IH; assumption.
Qed.

Lemma map_fst_combine : forall (A' B' : Type) (a : list A') (b : list B'), length a = length b -> map fst (combine a b) = a.
Proof. induction a as [|x a IH]; destruct b; simpl; intros; try congruence. f_equal. apply IH. lia. Qed.
Lemma map_snd_combine : forall (A' B' : Type) (a : list A') (b : list B'), length a = length b -> map snd (combine a b) = b.
Proof. induction a as [|x a IH]; destruct b; simpl; intros; try congruence. f_equal. apply IH. lia. Qed.
Lemma Forall_combine : forall (P' : Z -> Prop) a b, Forall P' a -> Forall P' b -> Forall (fun ij => P' (fst ij) /\ P' (snd ij)) (combine a b).
Proof.
  intros P' a. induction a as [|x a IH]; intros b Ha Hb; [constructor|]. destruct b as [|y b]; [constructor|].
  inversion_clear Ha. inversion_clear Hb. constructor; [split; assumption|apply IH; assumption].
Qed.
Lemma sb_value_zeros : forall k l, sb_value (repeat 0 k ++ l) = sb_value l.
Proof. induction k as [|k IH]; intro l; [reflexivity|]. cbn [repeat app]. rewrite sb_value_cons, IH. lia. Qed.
Lemma Forall_zeros : forall k l, Forall digit l -> Forall digit (repeat 0 k ++ l).
Proof. induction k; intros l H; [exact H|]. cbn. constructor; [right; left; reflexivity|]. apply IHk. exact H. Qed.

Lemma jrep_muladdf : forall j1 j2 P Q c1 c2, 0 <= c1 -> 0 <= c2 -> jrep j1 P -> jrep j2 Q -> on P -> on Q ->
  exists r, muladdf p q n j1 c1 j2 c2 = Ok r /\ jrep r ((c1 · P) ⊕ (c2 · Q)).
Proof.
  intros j1 j2 P Q c1 c2 H1 H2 R1 R2 C1 C2. unfold muladdf.
  destruct (signed_bin_ok c1) as (_ & V1 & D1). destruct (signed_bin_ok c2) as (_ & V2 & D2).
  specialize (D1 H1). specialize (D2 H2).
  set (s1 := signed_bin c1) in *. set (s2 := signed_bin c2) in *.
  set (s1' := repeat 0 (length s2 - length s1) ++ s1). set (s2' := repeat 0 (length s1 - length s2) ++ s2).
  assert (L : length s1' = length s2').
  { unfold s1', s2'. rewrite !app_length, !repeat_length. lia. }
  destruct (muladdf_fold j1 j2 P Q R1 R2 C1 C2 (combine s1' s2') None 0 0) as (r & E & J).
  - apply Forall_combine; apply Forall_zeros; assumption.
  - exact I.
  - exists r. split; [exact E|]. rewrite map_fst_combine, map_snd_combine in J by exact L.
    fold (sb_value s1') in J. fold (sb_value s2') in J. unfold s1', s2' in J. rewrite !sb_value_zeros in J.
    rewrite V1, V2 in J. exact J.
Qed.

Lemma den_muladdp : forall P Q c1 c2, 0 <= c1 -> 0 <= c2 -> on (den P) -> on (den Q) ->
  exists R, muladdp p q n P c1 Q c2 = Ok R /\ den R = (c1 · den P) ⊕ (c2 · den Q) /\
    match R with Some (x, y) => 0 <= x < n /\ 0 <= y < n | None => True end.
Proof.
  intros P Q c1 c2 H1 H2 C1 C2. unfold muladdp.
  destruct (jrep_muladdf _ _ _ _ c1 c2 H1 H2 (jrep_to P) (jrep_to Q) C1 C2) as (r & E & J).
  rewrite E. cbn [bind]. eexists. split; [reflexivity|]. split; [apply from_jrep; exact J|apply from_range].
Qed.
End Refine.
