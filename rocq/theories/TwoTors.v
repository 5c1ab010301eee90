(** * Scalar multiplication (elliptic.py:256-296) on curves that have points of order two *)
From Coq Require Import ZArith List Bool Lia Znumtheory Field Ring Wf_Z ZifyBool.
From Verif Require Import Base Zp EcGroup EcSpec Elliptic EcArith EcProofs EcAux.
Import ListNotations.
Open Scope Z_scope.

Lemma loop_acc : forall f n acc, signed_bin_loop f n acc = match signed_bin_loop f n [] with Some l => Some (l ++ acc) | None => None end.
Proof.
  induction f as [|f IH]; intros n acc; cbn [signed_bin_loop]; destruct (n <=? 1); try reflexivity.
  destruct (Z.odd n); [destruct (gbd (n - 1) <? gbd (n + 1))|]; rewrite IH, (IH _ [_]); destruct (signed_bin_loop f _ []) as [l|]; try reflexivity; rewrite <- app_assoc; reflexivity.
Qed.
Lemma loop_more : forall f g n r, (f <= g)%nat -> signed_bin_loop f n [] = Some r -> signed_bin_loop g n [] = Some r.
Proof.
  induction f as [|f IH]; intros g n r L H.
  - cbn [signed_bin_loop] in H. destruct (n <=? 1) eqn:E; [|discriminate H]. destruct g; cbn [signed_bin_loop]; rewrite E; exact H.
  - destruct g as [|g]; [lia|]. cbn [signed_bin_loop] in *. destruct (n <=? 1); [exact H|].
    destruct (Z.odd n); [destruct (gbd (n - 1) <? gbd (n + 1))|]; rewrite loop_acc in H |- *; destruct (signed_bin_loop f _ []) as [l|] eqn:E; try discriminate H; rewrite (IH g _ l ltac:(lia) E); exact H.
Qed.
Lemma loop_one : forall f g n r r', signed_bin_loop f n [] = Some r -> signed_bin_loop g n [] = Some r' -> r = r'.
Proof. intros f g n r r' H H'. destruct (Nat.le_ge_cases f g) as [L|L]; [apply (loop_more f g n r L) in H|apply (loop_more g f n r' L) in H']; congruence. Qed.
(** The last digit. *)
Lemma signed_bin_step : forall c, 2 <= c -> exists h d, signed_bin c = signed_bin h ++ [d] /\ c = 2 * h + d /\ (d = -1 \/ d = 0 \/ d = 1) /\ 1 <= h < c.
Proof.
  intros c C. destruct (signed_bin_ok c) as (E & _). cbn [signed_bin_loop] in E. assert (L : (c <=? 1) = false) by lia. rewrite L in E.
  assert (ST : forall h d, signed_bin_loop (Z.to_nat (Z.log2 c)) h [d] = Some (signed_bin c) -> signed_bin c = signed_bin h ++ [d]).
  { intros h d X. rewrite loop_acc in X. destruct (signed_bin_loop (Z.to_nat (Z.log2 c)) h []) as [l|] eqn:F; [|discriminate X]. injection X as X. rewrite <- X. f_equal. destruct (signed_bin_ok h) as (Y & _). exact (loop_one _ _ _ _ _ F Y). }
  destruct (Z.odd c) eqn:O; [destruct (gbd (c - 1) <? gbd (c + 1))|]; apply ST in E.
  - exists (Z.shiftr (c + 1) 1), (-1). rewrite Z.shiftr_div_pow2 in * by lia. change (2 ^ 1) with 2 in *. pose proof (Zmod_odd c) as M; rewrite O in M. split; [exact E|]. split; [|split; [left; reflexivity|]]; Z.to_euclidean_division_equations; lia.
  - exists (Z.shiftr (c - 1) 1), 1. rewrite Z.shiftr_div_pow2 in * by lia. change (2 ^ 1) with 2 in *. pose proof (Zmod_odd c) as M; rewrite O in M. split; [exact E|]. split; [|split; [right; right; reflexivity|]]; Z.to_euclidean_division_equations; lia.
  - exists (Z.shiftr c 1), 0. rewrite Z.shiftr_div_pow2 in * by lia. change (2 ^ 1) with 2 in *. pose proof (Zmod_odd c) as M; rewrite O in M. split; [exact E|]. split; [|split; [right; left; reflexivity|]]; Z.to_euclidean_division_equations; lia.
Qed.
Lemma inv_0 : forall n, 1 < n -> inv 0 n = 0.
Proof.
  intros n N. unfold inv, euclid. assert (G : (n =? 0) = false) by lia. destruct (2 * S (Z.to_nat (Z.log2 (Z.abs n))))%nat as [|f] eqn:F; [lia|]. destruct f as [|f]; [lia|].
  cbn [euclid_loop]. rewrite G, (Z.div_0_l n), (Z.mod_0_l n) by lia. cbn [Z.eqb Z.mul Z.sub Z.add Z.opp]. reflexivity.
Qed.

Section Two.
Variables p q n : Z.
Hypothesis Good : good_curve n (- p) (- q).
Local Notation el P := (element P p q n = true).
Local Notation on := (on_curve n (- p) (- q)).
Local Notation "P ⊕ Q" := (gadd n (- p) P Q) (at level 50, left associativity).
Local Notation "k · P" := (gmul n (- p) k P) (at level 40).

Add Field zpf2 : (zp_field n (Pn p q n Good)).
(** No [m·P] with m below [c] has order two. *)
Definition free (P : gpt n) (c : Z) : Prop := forall m, 0 < m < c -> (2 * m) · P = GO n -> m · P = GO n.
Lemma free_not : forall P c m, on P -> free P c -> 0 < m < c -> not_two_torsion n (m · P).
Proof.
  intros P c m C F M. pose proof (F m M) as X. rewrite (mul_2k p q n Good) in X by exact C. destruct (m · P) as [|x y]; [exact I|]. cbn. intro Y. assert (O : GO n <> Aff _ x y) by discriminate. apply O. symmetry. apply X.
  unfold gadd, padd. destruct (zp_eq_dec n x x) as [_|N]; [|congruence]. destruct (zp_eq_dec n (zadd n y y) (z0 n)) as [_|N]; [reflexivity|]. exfalso. apply N. rewrite Y. unfold z0. rewrite <- of_Z_add. reflexivity.
Qed.
Lemma mulf_free : forall j P, jrep n j P -> on P -> forall c, 0 <= c -> free P c -> jrep n (mulf p q n j c) (c · P).
Proof.
  intros j P R C c Hc. apply (Zlt_0_ind (fun c => free P c -> jrep n (mulf p q n j c) (c · P))); [|exact Hc]. clear c Hc. intros c IH Hc F.
  destruct (Z_lt_le_dec c 2) as [L|L].
  { destruct (Z.eq_dec c 0) as [->|N0]; [exact I|]. assert (c = 1) by lia. subst c. rewrite g_mul_1. unfold mulf. change (signed_bin 1) with [1]. cbn [fold_left]. unfold mulf_step. cbn [doublef Z.eqb negb Z.ltb Z.compare addf]. destruct j as [[[[[x y] z] zs] zc]|]; exact R. }
  destruct (signed_bin_step c L) as (h & d & E & V & D & H). unfold mulf. rewrite E, fold_left_app. fold (mulf p q n j h). cbn [fold_left].
  assert (J : jrep n (mulf p q n j h) (h · P)) by (apply IH; [lia|]; intros m M; apply F; lia).
  assert (CV : on (h · P)) by (apply (g_mul_on p q n Good); exact C).
  pose proof (jrep_double p q n Good _ _ J CV (free_not P c h C F ltac:(lia))) as HD. rewrite <- (mul_2k p q n Good) in HD by exact C.
  assert (C2 : on ((2 * h) · P)) by (apply (g_mul_on p q n Good); exact C). rewrite V.
  unfold mulf_step. destruct D as [->|[->| ->]]; cbn [Z.eqb negb Z.ltb Z.compare].
  - rewrite (g_mul_add p q n Good) by exact C. change (-1) with (- (1)). rewrite (g_mul_opp p q n Good), g_mul_1.
    apply (jrep_add p q n Good); [exact HD|apply (jrep_neg p q n Good); exact R|exact C2|apply (g_neg_on p q n Good); exact C].
  - rewrite Z.add_0_r. exact HD.
  - rewrite (g_mul_add p q n Good) by exact C; rewrite g_mul_1. apply (jrep_add p q n Good); assumption.
Qed.
Lemma mulp_free : forall P c, el P -> 0 <= c -> free (den n P) c -> den n (mulp p q n P c) = c · den n P.
Proof. intros P c E Hc F. unfold mulp. apply (from_jrep p q n Good). apply mulf_free; [apply (jrep_to p q n Good)|apply el_on; exact E|exact Hc|exact F]. Qed.

(** Doubling a point of order two. *)
Lemma double_two : forall j X, jrep n j (Aff _ X (z0 n)) -> from_projective (doublef p q n j) n = Some (0, 0).
Proof.
  intros [[[[[x y] z] zs] zc]|] X H; [|destruct H]. destruct H as (H0 & _ & _ & _ & HY). pose proof (n3 p q n Good) as N3.
  assert (Y : y mod n = 0). { apply of_Z_0. rewrite HY. ring. }
  cbn [doublef from_projective]. assert (Z3 : (2 * y * z) mod n = 0).
  { replace (2 * y * z) with (y * (2 * z)) by ring. rewrite Z.mul_mod, Y by lia. reflexivity. }
  rewrite Z3. cbn [Z.mul]. rewrite !(Z.mod_0_l n) by lia. cbn [Z.mul]. rewrite !(Z.mod_0_l n), inv_0, !Z.mul_0_r, !(Z.mod_0_l n) by lia. reflexivity.
Qed.
Theorem first_two : forall P m, el P -> 0 < m -> free (den n P) m -> (2 * m) · den n P = GO n -> m · den n P <> GO n -> mulp p q n P (2 * m) = Some (0, 0).
Proof.
  intros P m E M F T N. pose proof (el_on p q n P E) as C.
  assert (J : jrep n (mulf p q n (to_projective P) m) (m · den n P)) by (apply mulf_free; [apply (jrep_to p q n Good)|exact C|lia|exact F]).
  assert (D : mulf p q n (to_projective P) (2 * m) = doublef p q n (mulf p q n (to_projective P) m)).
  { destruct (signed_bin_step (2 * m) ltac:(lia)) as (h & d & S1 & V & D & _). assert (d = 0) by lia. assert (h = m) by lia. subst d h. unfold mulf at 1. rewrite S1, fold_left_app. reflexivity. }
  unfold mulp. rewrite D. rewrite (mul_2k p q n Good) in T by exact C. destruct (m · den n P) as [|x y] eqn:G; [exfalso; apply N; reflexivity|].
  unfold gadd, padd in T. destruct (zp_eq_dec n x x) as [_|X]; [|congruence]. destruct (zp_eq_dec n (zadd n y y) (z0 n)) as [Y|Y]; [|discriminate T].
  apply (double_eq0 _ _ _ _ _ _ _ _ _ (zp_field n (Pn p q n Good)) (zp_eq_dec n) (two0 p q n Good)) in Y. subst y. exact (double_two _ _ J).
Qed.
End Two.

Section Times.
Variables p q n : Z.
Hypothesis Good : good_curve n (- p) (- q).
Local Notation el P := (element P p q n = true).
Local Notation times P m := (Nat.iter m (add p q n P) None).
(** P added to itself an even number of times is None only if it is None at half of it. *)
Definition odd_order (P : apt) : Prop := forall m, times P (2 * m) = None -> times P m = None.

Lemma times_none : forall P m, el P -> (times P m = None <-> gmul n (- p) (Z.of_nat m) (den n P) = GO n).
Proof.
  intros P m E. destruct (add_times_den p q n Good P m E) as [_ D]. unfold add_times in D. rewrite <- D. split; [intros ->; reflexivity|]. destruct (times P m) as [[x y]|]; [discriminate|reflexivity].
Qed.
Lemma times_free : forall P c, el P -> (forall m, 0 < Z.of_nat m < c -> times P (2 * m) = None -> times P m = None) -> free p n (den n P) c.
Proof.
  intros P c E H m M X. specialize (H (Z.to_nat m)). rewrite !(times_none P _ E) in H. replace (Z.of_nat (2 * Z.to_nat m)) with (2 * m) in H by lia. rewrite Z2Nat.id in H by lia. exact (H M X).
Qed.
Theorem mulp_below : forall P c, el P -> 0 <= c -> (forall m, 0 < Z.of_nat m < c -> times P (2 * m) = None -> times P m = None) -> same_point n (mulp p q n P c) (times P (Z.to_nat c)).
Proof.
  intros P c E Hc H. apply same_point_den. rewrite (mulp_free p q n Good P c E Hc (times_free P c E H)). destruct (add_times_den p q n Good P (Z.to_nat c) E) as [_ D]. unfold add_times in D. rewrite D, Z2Nat.id by exact Hc. reflexivity.
Qed.
Theorem mulp_first : forall P m, el P -> (forall k, (k < m)%nat -> times P (2 * k) = None -> times P k = None) -> times P (2 * m) = None -> times P m <> None ->
  mulp p q n P (2 * Z.of_nat m) = Some (0, 0).
Proof.
  intros P m E L T N. assert (M : (m <> 0)%nat) by (intros ->; apply N; reflexivity). apply (first_two p q n Good); [exact E|lia| | |].
  - apply times_free; [exact E|]. intros k K. apply L. lia.
  - apply times_none in T; [|exact E]. replace (2 * Z.of_nat m) with (Z.of_nat (2 * m)) by lia. exact T.
  - intro X. apply N. apply times_none; assumption.
Qed.
Theorem mulp_exactly : forall P, el P -> ((forall c, 0 <= c -> same_point n (mulp p q n P c) (times P (Z.to_nat c))) <-> odd_order P).
Proof.
  intros P E. split; [|intros O c Hc; apply mulp_below; [exact E|exact Hc|]; intros m _; apply O].
  intros A m. induction m as [m IH] using (well_founded_induction lt_wf). intro T. destruct (times P m) as [a|] eqn:X; [|reflexivity]. exfalso.
  pose proof (A (2 * Z.of_nat m) ltac:(lia)) as S1. rewrite (mulp_first P m E (fun k K => IH k K) T) in S1 by (rewrite X; discriminate). replace (Z.to_nat (2 * Z.of_nat m)) with (2 * m)%nat in S1 by lia. rewrite T in S1. exact S1.
Qed.

Lemma mulp_same : forall P Q c d, den n (mulp p q n P c) = den n (mulp p q n Q d) -> mulp p q n P c = mulp p q n Q d.
Proof.
  intros P Q c d H. apply same_point_den in H. pose proof (mulp_range p q n Good P c) as R. pose proof (mulp_range p q n Good Q d) as R'.
  destruct (mulp p q n P c) as [[x y]|], (mulp p q n Q d) as [[x' y']|]; try contradiction; [|reflexivity]. destruct H as [H1 H2]. rewrite !Z.mod_small in H1, H2 by lia. subst. reflexivity.
Qed.
Lemma odd_free : forall P r c, el P -> odd_order P -> 0 <= r -> free p n (gmul n (- p) r (den n P)) c.
Proof.
  intros P r c E O R m M X. pose proof (el_on p q n P E) as C. rewrite <- (g_mul_mul p q n Good) in X |- * by exact C. specialize (O (Z.to_nat (m * r))). rewrite !(times_none P _ E) in O.
  assert (MR : 0 <= m * r) by (apply Z.mul_nonneg_nonneg; lia).
  replace (Z.of_nat (2 * Z.to_nat (m * r))) with (2 * m * r) in O by (rewrite Nat2Z.inj_mul, Z2Nat.id by exact MR; ring). rewrite Z2Nat.id in O by exact MR. exact (O X).
Qed.
Theorem agree_odd : forall P r s, el P -> odd_order P -> 0 <= r -> 0 <= s ->
  mulp p q n (mulp p q n P r) s = mulp p q n (mulp p q n P s) r /\ same_point n (mulp p q n (mulp p q n P r) s) (times P (Z.to_nat (r * s))).
Proof.
  intros P r s E O R S1. pose proof (el_on p q n P E) as C.
  assert (ONE : forall c, 0 <= c -> den n (mulp p q n P c) = gmul n (- p) c (den n P) /\ el (mulp p q n P c)).
  { intros c Hc. assert (D : den n (mulp p q n P c) = gmul n (- p) c (den n P)) by (apply (mulp_free p q n Good); [exact E|exact Hc|]; apply times_free; [exact E|]; intros m _; apply O).
    split; [exact D|]. apply (den_on p q n). rewrite D. apply (g_mul_on p q n Good). exact C. }
  assert (TWO : forall c d, 0 <= c -> 0 <= d -> den n (mulp p q n (mulp p q n P c) d) = gmul n (- p) (d * c) (den n P)).
  { intros c d Hc Hd. destruct (ONE c Hc) as [D EL]. rewrite (mulp_free p q n Good _ d EL Hd) by (rewrite D; apply odd_free; assumption). rewrite D, (g_mul_mul p q n Good) by exact C. reflexivity. }
  split; [apply mulp_same; rewrite !TWO by assumption; rewrite Z.mul_comm; reflexivity|]. apply same_point_den. rewrite TWO by assumption.
  destruct (add_times_den p q n Good P (Z.to_nat (r * s)) E) as [_ D]. unfold add_times in D. rewrite D, Z2Nat.id by (apply Z.mul_nonneg_nonneg; assumption). rewrite Z.mul_comm. reflexivity.
Qed.
End Times.

(** ** elliptic.py:351-369, the key agreement of the main program: the draws are arguments *)
Definition main_agree (n p x y r1 r2 : Z) : apt * apt :=
  let p1 := Some (x, y) in
  let q := curve_q x y p n in
  let q1 := mulp p q n p1 r1 in
  let q2 := mulp p q n p1 r2 in
  (mulp p q n q1 r2, mulp p q n q2 r1).
(** elliptic.py:382-393, the two computations [test] takes the times of, for one pair (i, j) *)
Definition main_slow (p q n : Z) (p1 p2 : apt) (i j : Z) : apt :=
  from_projective (addf p q n (mulf p q n (to_projective p1) i) (mulf p q n (to_projective p2) j)) n.
Definition main_fast (p q n : Z) (p1 p2 : apt) (i j : Z) : res apt := muladdp p q n p1 i p2 j.
Theorem two_ways : forall p q n, good_curve n (- p) (- q) -> no_two_torsion n (- p) (- q) -> forall P Q i j, element P p q n = true -> element Q p q n = true -> 0 <= i -> 0 <= j ->
  main_fast p q n P Q i j = Ok (main_slow p q n P Q i j).
Proof.
  intros p q n G T P Q i j EP EQ I J. destruct (den_muladdp p q n G T P Q i j I J (el_on p q n P EP) (el_on p q n Q EQ)) as (R & E & D & RG). unfold main_fast. rewrite E. f_equal.
  assert (D' : den n (main_slow p q n P Q i j) = den n R).
  { rewrite D. apply (from_jrep p q n G). apply (jrep_add p q n G); try apply (jrep_mulf p q n G T); try (apply (g_mul_on p q n G)); try apply (jrep_to p q n G); try (apply el_on; assumption); assumption. }
  apply same_point_den in D'. pose proof (from_range p q n G (addf p q n (mulf p q n (to_projective P) i) (mulf p q n (to_projective Q) j))) as RG'. fold (main_slow p q n P Q i j) in RG'.
  destruct R as [[x y]|], (main_slow p q n P Q i j) as [[x' y']|]; try contradiction; [|reflexivity]. destruct D' as [H1 H2]. rewrite !Z.mod_small in H1, H2 by lia. subst. reflexivity.
Qed.

(** A curve over a prime of 32 bits and a point of order six on it. *)
From Verif Require Import PockCheck.
Definition six_n : Z := 4294967291.
Lemma six_prime : prime six_n.
Proof.
  apply (check_pock_ok _ 2 [(22605091, 1)]); [vm_compute; reflexivity|]. constructor; [|constructor]. cbn [fst].
  apply small_prime_ok. vm_compute. reflexivity.
Qed.
Lemma six_good : good_curve six_n (- 1431655765) (- 1113510038).
Proof. split; [exact six_prime|]. split; [reflexivity|]. vm_compute. discriminate. Qed.
Lemma six_main : main_agree six_n 1431655765 1431655763 4294967290 3 2 = (Some (0, 0), None).
Proof. vm_compute. reflexivity. Qed.
