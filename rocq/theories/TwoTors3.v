(** * Double scalar multiplication (elliptic.py:299-329) with points of odd order *)
From Coq Require Import ZArith List Bool Lia Znumtheory Field Ring ZifyBool.
From Verif Require Import Base Zp EcGroup EcSpec Elliptic EcArith EcProofs EcAux TwoTors.
Import ListNotations.
Open Scope Z_scope.

Section Shamir.
Variables p q n : Z.
Hypothesis Good : good_curve n (- p) (- q).
Local Notation el P := (element P p q n = true).
Local Notation on := (on_curve n (- p) (- q)).
Local Notation "P ⊕ Q" := (gadd n (- p) P Q) (at level 50, left associativity).
Local Notation "k · P" := (gmul n (- p) k P) (at level 40).
Local Notation "⊖ P" := (gneg n P) (at level 35).
(** No point of order two is a combination of the two points. *)
Definition free2 (P Q : gpt n) : Prop := forall v1 v2, comb p n P Q (2 * v1) (2 * v2) = GO n -> comb p n P Q v1 v2 = GO n.
Section Points.
Variables P Q : gpt n.
Hypothesis C1 : on P.
Hypothesis C2 : on Q.
Hypothesis F2 : free2 P Q.
Lemma free2_not : forall v1 v2, not_two_torsion n (comb p n P Q v1 v2).
Proof.
  intros v1 v2. pose proof (F2 v1 v2) as X. replace (2 * v1) with (v1 + v1) in X by lia. replace (2 * v2) with (v2 + v2) in X by lia. rewrite (comb_add p q n Good) in X by assumption.
  destruct (comb p n P Q v1 v2) as [|x y]; [exact I|]. cbn. intro Y. assert (O : GO n <> Aff _ x y) by discriminate. apply O. symmetry. apply X.
  unfold gadd, padd. destruct (zp_eq_dec n x x) as [_|N]; [|congruence]. destruct (zp_eq_dec n (zadd n y y) (z0 n)) as [_|N]; [reflexivity|]. exfalso. apply N. rewrite Y. unfold z0. rewrite <- of_Z_add. reflexivity.
Qed.
Lemma dbl_free : forall j v1 v2, jrep n j (comb p n P Q v1 v2) -> on (comb p n P Q v1 v2) -> jrep n (doublef p q n j) (comb p n P Q v1 v2 ⊕ comb p n P Q v1 v2).
Proof. intros j v1 v2 J C. apply (jrep_double p q n Good); [exact J|exact C|apply free2_not]. Qed.

Lemma muladdf_fold2 : forall j1 j2, jrep n j1 P -> jrep n j2 Q ->
  let p12 := addf p q n j1 j2 in let n12 := addf p q n j1 (negj j2 n) in
  let pre := ((None, j2, negj j2 n), (j1, p12, n12), (negj j1 n, negj n12 n, negj p12 n)) in
  forall l r v1 v2, Forall (fun ij => digit (fst ij) /\ digit (snd ij)) l -> jrep n r (comb p n P Q v1 v2) ->
  exists r', fold_left (muladdf_step p q n pre) l (Ok r) = Ok r' /\
    jrep n r' (comb p n P Q (fold_left (fun v d => 2 * v + d) (map fst l) v1) (fold_left (fun v d => 2 * v + d) (map snd l) v2)).
Proof.
  intros j1 j2 R1 R2 p12 n12 pre. induction l as [|[i k] l IH]; intros r v1 v2 D H.
  - exists r. split; [reflexivity|exact H].
  - inversion_clear D as [|? ? [Di Dk] Dl]. cbn [fst snd] in Di, Dk. cbn [fold_left map fst snd].
    assert (NR1 : jrep n (negj j1 n) (⊖ P)) by (apply (jrep_neg p q n Good); exact R1).
    assert (NR2 : jrep n (negj j2 n) (⊖ Q)) by (apply (jrep_neg p q n Good); exact R2).
    assert (CN1 : on (⊖ P)) by (apply (g_neg_on p q n Good); exact C1).
    assert (CN2 : on (⊖ Q)) by (apply (g_neg_on p q n Good); exact C2).
    assert (RP : jrep n p12 (P ⊕ Q)) by (apply (jrep_add p q n Good); assumption).
    assert (RN : jrep n n12 (P ⊕ (⊖ Q))) by (apply (jrep_add p q n Good); assumption).
    assert (RPN : jrep n (negj p12 n) ((⊖ P) ⊕ (⊖ Q))) by (rewrite <- (g_neg_add p q n Good) by assumption; apply (jrep_neg p q n Good); exact RP).
    assert (RNN : jrep n (negj n12 n) ((⊖ P) ⊕ Q)).
    { replace Q with (⊖ (⊖ Q)) by apply (g_neg_neg p q n Good). rewrite <- (g_neg_add p q n Good) by assumption. apply (jrep_neg p q n Good). exact RN. }
    assert (CV : on (comb p n P Q v1 v2)) by (apply (comb_on p q n Good); assumption).
    assert (HD : jrep n (doublef p q n r) (comb p n P Q (2 * v1) (2 * v2))).
    { replace (2 * v1) with (v1 + v1) by lia. replace (2 * v2) with (v2 + v2) by lia.
      rewrite (comb_add p q n Good) by assumption. apply dbl_free; assumption. }
    assert (CD : on (comb p n P Q (2 * v1) (2 * v2))) by (apply (comb_on p q n Good); assumption).
    assert (K : exists r'', muladdf_step p q n pre (Ok r) (i, k) = Ok r'' /\ jrep n r'' (comb p n P Q (2 * v1 + i) (2 * v2 + k))).
    { assert (J : forall e S, jrep n e S -> on S -> comb p n P Q i k = S ->
                jrep n (addf p q n (doublef p q n r) e) (comb p n P Q (2 * v1 + i) (2 * v2 + k))).
      { intros e S Re Cs <-. rewrite (comb_add p q n Good) by assumption. apply (jrep_add p q n Good); assumption. }
      unfold muladdf_step. cbn [bind fst snd].
      destruct Di as [->|[->| ->]]; destruct Dk as [->|[->| ->]]; cbn [Z.eqb negb orb idx3 bind pre Pos.eqb];
        (eexists; split; [reflexivity|]).
      all: try (rewrite !Z.add_0_r; exact HD).
      all: eapply J; [eassumption|repeat apply (g_add_on p q n Good); assumption|
         unfold comb; rewrite ?(mul_m1 p q n Good), ?g_mul_1, ?g_mul_0, ?g_O_l, ?g_O_r; reflexivity]. }
    destruct K as (r'' & K1 & K2). rewrite K1. apply IH; assumption.
Qed.

Lemma jrep_muladdf2 : forall j1 j2 c1 c2, 0 <= c1 -> 0 <= c2 -> jrep n j1 P -> jrep n j2 Q ->
  exists r, muladdf p q n j1 c1 j2 c2 = Ok r /\ jrep n r ((c1 · P) ⊕ (c2 · Q)).
Proof.
  intros j1 j2 c1 c2 H1 H2 R1 R2. unfold muladdf.
  destruct (signed_bin_ok c1) as (_ & V1 & D1). destruct (signed_bin_ok c2) as (_ & V2 & D2).
  specialize (D1 H1). specialize (D2 H2).
  set (s1 := signed_bin c1) in *. set (s2 := signed_bin c2) in *.
  set (s1' := repeat 0 (length s2 - length s1) ++ s1). set (s2' := repeat 0 (length s1 - length s2) ++ s2).
  assert (L : length s1' = length s2').
  { unfold s1', s2'. rewrite !app_length, !repeat_length. lia. }
  destruct (muladdf_fold2 j1 j2 R1 R2 (combine s1' s2') None 0 0) as (r & E & J).
  - apply Forall_combine; apply Forall_zeros; assumption.
  - exact I.
  - exists r. split; [exact E|]. rewrite map_fst_combine, map_snd_combine in J by exact L.
    fold (sb_value s1') in J. fold (sb_value s2') in J. unfold s1', s2' in J. rewrite !sb_value_zeros in J.
    rewrite V1, V2 in J. exact J.
Qed.

End Points.

Local Notation times P m := (Nat.iter m (add p q n P) None).
Lemma odd_free2 : forall P Q k1 k2, on P -> on Q -> (2 * k1 + 1) · P = GO n -> (2 * k2 + 1) · Q = GO n -> free2 P Q.
Proof.
  intros P Q k1 k2 C1 C2 O1 O2 v1 v2 H. set (R := comb p n P Q v1 v2). assert (CR : on R) by (apply (comb_on p q n Good); assumption).
  assert (MR : forall k, k · R = comb p n P Q (k * v1) (k * v2)).
  { intro k. unfold R, comb. rewrite (g_mul_padd p q n Good), <- !(g_mul_mul p q n Good) by (try apply (g_mul_on p q n Good); assumption). reflexivity. }
  assert (T : 2 · R = GO n) by (rewrite MR; exact H).
  assert (N : ((2 * k1 + 1) * (2 * k2 + 1)) · R = GO n).
  { rewrite MR. unfold comb. replace ((2 * k1 + 1) * (2 * k2 + 1) * v1) with (v1 * (2 * k2 + 1) * (2 * k1 + 1)) by ring. replace ((2 * k1 + 1) * (2 * k2 + 1) * v2) with (v2 * (2 * k1 + 1) * (2 * k2 + 1)) by ring.
    rewrite (g_mul_mul p q n Good (v1 * (2 * k2 + 1)) (2 * k1 + 1) P C1), (g_mul_mul p q n Good (v2 * (2 * k1 + 1)) (2 * k2 + 1) Q C2), O1, O2, !(g_mul_O p q n Good). reflexivity. }
  replace ((2 * k1 + 1) * (2 * k2 + 1)) with ((2 * k1 * k2 + k1 + k2) * 2 + 1) in N by ring.
  rewrite (g_mul_add p q n Good), (g_mul_mul p q n Good), T, (g_mul_O p q n Good) in N by exact CR. rewrite g_mul_1 in N. exact N.
Qed.
Lemma times_odd : forall P k, el P -> Nat.odd k = true -> times P k = None -> exists j, (2 * j + 1) · den n P = GO n.
Proof.
  intros P k E O T. apply Nat.odd_spec in O. destruct O as (j & ->). apply (times_none p q n Good) in T; [|exact E]. exists (Z.of_nat j). replace (2 * Z.of_nat j + 1) with (Z.of_nat (2 * j + 1)) by lia. exact T.
Qed.
Theorem muladdp_odd : forall P Q c1 c2 k1 k2, el P -> el Q -> Nat.odd k1 = true -> times P k1 = None -> Nat.odd k2 = true -> times Q k2 = None -> 0 <= c1 -> 0 <= c2 ->
  (exists R, muladdp p q n P c1 Q c2 = Ok R /\ same_point n R (add p q n (times P (Z.to_nat c1)) (times Q (Z.to_nat c2)))) /\
  muladdp p q n P c1 Q c2 = Ok (main_slow p q n P Q c1 c2).
Proof.
  intros P Q c1 c2 k1 k2 EP EQ O1 T1 O2 T2 H1 H2. pose proof (el_on p q n P EP) as C1. pose proof (el_on p q n Q EQ) as C2.
  destruct (times_odd P k1 EP O1 T1) as (i1 & I1). destruct (times_odd Q k2 EQ O2 T2) as (i2 & I2).
  pose proof (odd_free2 _ _ i1 i2 C1 C2 I1 I2) as F2.
  destruct (jrep_muladdf2 (den n P) (den n Q) C1 C2 F2 (to_projective P) (to_projective Q) c1 c2 H1 H2 (jrep_to p q n Good P) (jrep_to p q n Good Q)) as (r & E & J).
  assert (ONE : forall X i, el X -> (2 * i + 1) · den n X = GO n -> forall c, free p n (den n X) c).
  { intros X i EX IX c m _ M. pose proof (el_on p q n X EX) as CX. assert (N : (m * (2 * i + 1)) · den n X = GO n) by (rewrite (g_mul_mul p q n Good) by exact CX; rewrite IX; apply (g_mul_O p q n Good)).
    replace (m * (2 * i + 1)) with (i * (2 * m) + m) in N by ring. rewrite (g_mul_add p q n Good), (g_mul_mul p q n Good), M, (g_mul_O p q n Good) in N by exact CX. exact N. }
  unfold muladdp. rewrite E. cbn [bind]. split.
  - eexists. split; [reflexivity|]. apply same_point_den. rewrite (from_jrep p q n Good _ _ J). destruct (add_times_den p q n Good P (Z.to_nat c1) EP) as [A1 A2]. destruct (add_times_den p q n Good Q (Z.to_nat c2) EQ) as [B1 B2]. unfold add_times in A1, A2, B1, B2.
    rewrite (den_add p q n Good) by (apply el_on; assumption). rewrite A2, B2, !Z2Nat.id by assumption. reflexivity.
  - f_equal. assert (J' : jrep n (addf p q n (mulf p q n (to_projective P) c1) (mulf p q n (to_projective Q) c2)) ((c1 · den n P) ⊕ (c2 · den n Q))).
    { apply (jrep_add p q n Good); try (apply (g_mul_on p q n Good); assumption); apply (mulf_free p q n Good); try assumption; try apply (jrep_to p q n Good); [apply (ONE P i1 EP I1)|apply (ONE Q i2 EQ I2)]. }
    pose proof (from_jrep p q n Good _ _ J) as D. pose proof (from_jrep p q n Good _ _ J') as D'. fold (main_slow p q n P Q c1 c2) in D'. rewrite <- D' in D. apply same_point_den in D.
    pose proof (from_range p q n Good r) as R1. pose proof (from_range p q n Good (addf p q n (mulf p q n (to_projective P) c1) (mulf p q n (to_projective Q) c2))) as R2. fold (main_slow p q n P Q c1 c2) in R2.
    destruct (from_projective r n) as [[x y]|], (main_slow p q n P Q c1 c2) as [[x' y']|]; try contradiction; [|reflexivity]. destruct D as [D1 D2]. rewrite !Z.mod_small in D1, D2 by lia. subst. reflexivity.
Qed.
End Shamir.
