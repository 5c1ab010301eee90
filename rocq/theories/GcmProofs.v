(** Proofs about aes_gcm.py: field multiplication and GHASH. *)
From Coq Require Import ZArith List Bool Lia ZifyBool.
From Verif Require Import Base BaseProofs Prims KeyWrap KeyWrapProofs Elliptic Ecc EccProofs Extra ExtraProofs Gcm GcmSpec.
Import ListNotations.
Open Scope Z_scope.

Ltac Zify.zify_post_hook ::= Z.div_mod_to_equations.

(** ** Carry-less products *)
Lemma psum_lxor_l : forall n a a' b, psum n (Z.lxor a a') b = Z.lxor (psum n a b) (psum n a' b).
Proof.
  induction n as [|n IH]; intros a a' b; [reflexivity|]. cbn [psum]. rewrite IH. destruct (Z.testbit b (Z.of_nat n)).
  - rewrite Z.shiftl_lxor. rewrite !Z.lxor_assoc. f_equal. rewrite <- !Z.lxor_assoc. f_equal. apply Z.lxor_comm.
  - rewrite !Z.lxor_0_r. reflexivity.
Qed.

Lemma lxor_swap4 : forall a b c d, Z.lxor (Z.lxor a b) (Z.lxor c d) = Z.lxor (Z.lxor a c) (Z.lxor b d).
Proof. intros. rewrite !Z.lxor_assoc. f_equal. rewrite <- !Z.lxor_assoc. f_equal. apply Z.lxor_comm. Qed.

Lemma psum_lxor_r : forall n a b b', psum n a (Z.lxor b b') = Z.lxor (psum n a b) (psum n a b').
Proof.
  induction n as [|n IH]; intros a b b'; [reflexivity|]. cbn [psum]. rewrite IH, Z.lxor_spec, lxor_swap4. f_equal.
  destruct (Z.testbit b (Z.of_nat n)), (Z.testbit b' (Z.of_nat n)); cbn [xorb]; rewrite ?Z.lxor_nilpotent, ?Z.lxor_0_r, ?Z.lxor_0_l; reflexivity.
Qed.

Lemma psum_more : forall m n a b, (forall i, Z.of_nat n <= i -> Z.testbit b i = false) -> (n <= m)%nat -> psum m a b = psum n a b.
Proof.
  induction m as [|m IH]; intros n a b H L; [replace n with 0%nat by lia; reflexivity|].
  destruct (Nat.eq_dec n (S m)) as [->|N]; [reflexivity|]. cbn [psum]. rewrite H by lia. rewrite Z.lxor_0_r. apply IH; [exact H|lia].
Qed.

Lemma clmul_psum : forall n a b, 0 <= b < 2 ^ Z.of_nat n -> clmul a b = psum n a b.
Proof.
  intros n a b B. unfold clmul. symmetry. destruct (Z.eq_dec b 0) as [->|NZ].
  - change (Z.to_nat (Z.log2 0 + 1)) with 1%nat. destruct n as [|n].
    + cbn [psum]. rewrite Z.testbit_0_l. reflexivity.
    + apply psum_more; [|lia]. intros i _. apply Z.testbit_0_l.
  - assert (L : Z.log2 b < Z.of_nat n) by (apply Z.log2_lt_pow2; lia). pose proof (Z.log2_nonneg b).
    apply psum_more; [|lia]. intros i I. apply Z.bits_above_log2; lia.
Qed.

Lemma log2_bound_nat : forall b, 0 <= b -> b < 2 ^ Z.of_nat (Z.to_nat (Z.log2 b + 1)).
Proof.
  intros b B. pose proof (Z.log2_nonneg b). rewrite Z2Nat.id by lia. destruct (Z.eq_dec b 0) as [->|]; [reflexivity|].
  apply Z.log2_spec. lia.
Qed.

Lemma clmul_lxor_r : forall a b c, 0 <= b -> 0 <= c -> clmul a (Z.lxor b c) = Z.lxor (clmul a b) (clmul a c).
Proof.
  intros a b c B C. set (n := Nat.max (Z.to_nat (Z.log2 b + 1)) (Z.to_nat (Z.log2 c + 1))).
  assert (BN : 0 <= b < 2 ^ Z.of_nat n). { split; [lia|]. eapply Z.lt_le_trans; [apply log2_bound_nat; lia|]. apply Z.pow_le_mono_r; unfold n; lia. }
  assert (CN : 0 <= c < 2 ^ Z.of_nat n). { split; [lia|]. eapply Z.lt_le_trans; [apply log2_bound_nat; lia|]. apply Z.pow_le_mono_r; unfold n; lia. }
  rewrite !(clmul_psum n) by (try apply lxor_bound; lia). apply psum_lxor_r.
Qed.

Lemma psum_shift : forall n a b, psum (S n) a (Z.shiftl b 1) = Z.shiftl (psum n a b) 1.
Proof.
  intros n a b. induction n as [|n IH].
  - cbn [psum]. rewrite Z.shiftl_spec by lia. rewrite Z.testbit_neg_r by lia. reflexivity.
  - change (psum (S (S n)) a (Z.shiftl b 1)) with (Z.lxor (psum (S n) a (Z.shiftl b 1)) (if Z.testbit (Z.shiftl b 1) (Z.of_nat (S n)) then Z.shiftl a (Z.of_nat (S n)) else 0)).
    rewrite IH. cbn [psum]. rewrite Z.shiftl_lxor. f_equal. rewrite Z.shiftl_spec by lia. replace (Z.of_nat (S n) - 1) with (Z.of_nat n) by lia.
    destruct (Z.testbit b (Z.of_nat n)); [|reflexivity]. rewrite Z.shiftl_shiftl by lia. f_equal. lia.
Qed.

Lemma clmul_shift : forall a b, 0 <= b -> clmul a (Z.shiftl b 1) = Z.shiftl (clmul a b) 1.
Proof.
  intros a b B. set (n := Z.to_nat (Z.log2 b + 1)). assert (BN := log2_bound_nat b B). fold n in BN.
  rewrite (clmul_psum (S n)), (clmul_psum n) by (try lia; rewrite Z.shiftl_mul_pow2 by lia; rewrite Nat2Z.inj_succ, Z.pow_succ_r; lia).
  apply psum_shift.
Qed.

Lemma clmul_0_r : forall a, clmul a 0 = 0.
Proof. intro a. rewrite (clmul_psum 0) by (cbn; lia). reflexivity. Qed.
Lemma clmul_1_r : forall a, clmul a 1 = a.
Proof. intro a. rewrite (clmul_psum 1) by (cbn; lia). cbn [psum]. change (Z.testbit 1 (Z.of_nat 0)) with true. cbn match. apply Z.lxor_0_l. Qed.

Lemma psum_bound : forall n a b k, 0 <= a < 2 ^ k -> 0 <= k -> 0 <= psum n a b < 2 ^ (k + Z.of_nat n).
Proof.
  induction n as [|n IH]; intros a b k A K; [cbn; split; [lia|apply Z.pow_pos_nonneg; lia]|]. cbn [psum].
  apply lxor_bound; [lia| |].
  - specialize (IH a b k A K). split; [lia|]. eapply Z.lt_le_trans; [apply IH|]. apply Z.pow_le_mono_r; lia.
  - destruct (Z.testbit b (Z.of_nat n)); [|split; [lia|apply Z.pow_pos_nonneg; lia]]. rewrite Z.shiftl_mul_pow2 by lia.
    assert (T : 0 < 2 ^ Z.of_nat n) by (apply Z.pow_pos_nonneg; lia).
    replace (k + Z.of_nat (S n)) with (k + Z.of_nat n + 1) by lia. rewrite !Z.pow_add_r by lia. nia.
Qed.

Lemma psum_nonneg : forall n a b, 0 <= a -> 0 <= psum n a b.
Proof.
  intros n a b A. apply (psum_bound n a b (Z.log2 a + 1)); [split; [lia|]|pose proof (Z.log2_nonneg a); lia].
  destruct (Z.eq_dec a 0) as [->|]; [reflexivity|]. apply Z.log2_spec. lia.
Qed.

Lemma bits_small : forall a k i, 0 <= a < 2 ^ k -> k <= i -> 0 <= k -> Z.testbit a i = false.
Proof.
  intros a k i A L K. destruct (Z.eq_dec a 0) as [->|]; [apply Z.testbit_0_l|]. apply Z.bits_above_log2; [lia|].
  assert (Z.log2 a < k) by (apply Z.log2_lt_pow2; lia). lia.
Qed.

Lemma shiftl_1_bit : forall k i, 0 <= k -> 0 <= i -> Z.testbit (Z.shiftl 1 k) i = (i =? k).
Proof.
  intros k i K I. rewrite Z.shiftl_spec by lia. destruct (i =? k) eqn:E.
  - replace (i - k) with 0 by lia. reflexivity.
  - destruct (Z.lt_ge_cases i k); [apply Z.testbit_neg_r; lia|]. apply (bits_small 1 1); cbn; lia.
Qed.

Lemma psum_1 : forall k a, 0 <= a < 2 ^ Z.of_nat k -> psum k 1 a = a.
Proof.
  intros k a A. assert (G : forall j i, (j <= k)%nat -> 0 <= i -> Z.testbit (psum j 1 a) i = (i <? Z.of_nat j) && Z.testbit a i).
  { induction j as [|j IHj]; intros i J I; [cbn [psum]; rewrite Z.testbit_0_l; replace (i <? Z.of_nat 0) with false by lia; reflexivity|].
    cbn [psum]. rewrite Z.lxor_spec, IHj by lia.
    replace (Z.testbit (if Z.testbit a (Z.of_nat j) then Z.shiftl 1 (Z.of_nat j) else 0) i) with (Z.testbit a (Z.of_nat j) && (i =? Z.of_nat j)).
    2:{ destruct (Z.testbit a (Z.of_nat j)); [rewrite shiftl_1_bit by lia; reflexivity|rewrite Z.testbit_0_l; reflexivity]. }
    destruct (Z.lt_trichotomy i (Z.of_nat j)) as [L|[->|L]].
    - replace (i <? Z.of_nat j) with true by lia. replace (i =? Z.of_nat j) with false by lia. replace (i <? Z.of_nat (S j)) with true by lia.
      rewrite andb_false_r, xorb_false_r. reflexivity.
    - replace (Z.of_nat j <? Z.of_nat j) with false by lia. rewrite Z.eqb_refl. replace (Z.of_nat j <? Z.of_nat (S j)) with true by lia.
      destruct (Z.testbit a (Z.of_nat j)); reflexivity.
    - replace (i <? Z.of_nat j) with false by lia. replace (i =? Z.of_nat j) with false by lia. replace (i <? Z.of_nat (S j)) with false by lia.
      rewrite andb_false_r. reflexivity. }
  apply Z.bits_inj'. intros i I. rewrite G by lia. destruct (i <? Z.of_nat k) eqn:E; [reflexivity|]. cbn [andb]. symmetry. apply (bits_small a (Z.of_nat k)); lia.
Qed.

Lemma psum_0_l : forall m a, psum m 0 a = 0.
Proof. induction m as [|m IHm]; intro a; [reflexivity|]. cbn [psum]. rewrite IHm, Z.shiftl_0_l. destruct (Z.testbit a (Z.of_nat m)); reflexivity. Qed.

Lemma psum_shiftl_l : forall m c k a, 0 <= k -> psum m (Z.shiftl c k) a = Z.shiftl (psum m c a) k.
Proof.
  intros m c k a K. induction m as [|m IHm]; [cbn [psum]; rewrite Z.shiftl_0_l; reflexivity|]. cbn [psum]. rewrite IHm, Z.shiftl_lxor. f_equal.
  destruct (Z.testbit a (Z.of_nat m)); [|rewrite Z.shiftl_0_l; reflexivity]. rewrite !Z.shiftl_shiftl by lia. f_equal. lia.
Qed.

Lemma psum_comm : forall n m a b, 0 <= a < 2 ^ Z.of_nat m -> 0 <= b < 2 ^ Z.of_nat n -> psum n a b = psum m b a.
Proof.
  intros n m a b A B. rewrite <- (psum_1 n b B) at 2. clear B. induction n as [|n IH]; [cbn [psum]; rewrite psum_0_l; reflexivity|].
  cbn [psum]. rewrite psum_lxor_l, <- IH. f_equal. destruct (Z.testbit b (Z.of_nat n)); [|rewrite psum_0_l; reflexivity].
  rewrite psum_shiftl_l by lia. rewrite psum_1 by exact A. reflexivity.
Qed.

(** ** Reflection *)
Lemma frombits_bound : forall n f, 0 <= frombits n f < 2 ^ Z.of_nat n.
Proof.
  induction n as [|n IH]; intro f; [cbn; lia|]. cbn [frombits]. rewrite Nat2Z.inj_succ, Z.pow_succ_r by lia. specialize (IH f).
  destruct (f (Z.of_nat n)); lia.
Qed.

Lemma frombits_spec : forall n f i, 0 <= i -> Z.testbit (frombits n f) i = (i <? Z.of_nat n) && f i.
Proof.
  induction n as [|n IH]; intros f i I; [cbn [frombits]; rewrite Z.testbit_0_l; replace (i <? Z.of_nat 0) with false by lia; reflexivity|].
  cbn [frombits]. pose proof (frombits_bound n f) as B.
  assert (E : frombits n f + (if f (Z.of_nat n) then 2 ^ Z.of_nat n else 0) = Z.lxor (frombits n f) (if f (Z.of_nat n) then 2 ^ Z.of_nat n else 0)).
  { apply Z.add_nocarry_lxor. destruct (f (Z.of_nat n)); [|apply Z.land_0_r]. apply Z.bits_inj'. intros j J. rewrite Z.land_spec, Z.testbit_0_l.
    rewrite Z.pow2_bits_eqb by lia. destruct (Z.of_nat n =? j) eqn:Q; [|apply andb_false_r]. rewrite (bits_small _ (Z.of_nat n)) by lia. reflexivity. }
  rewrite E, Z.lxor_spec, IH by lia.
  replace (Z.testbit (if f (Z.of_nat n) then 2 ^ Z.of_nat n else 0) i) with (f (Z.of_nat n) && (Z.of_nat n =? i)).
  2:{ destruct (f (Z.of_nat n)); [rewrite Z.pow2_bits_eqb by lia; reflexivity|rewrite Z.testbit_0_l; reflexivity]. }
  destruct (Z.lt_trichotomy i (Z.of_nat n)) as [L|[->|L]].
  - replace (i <? Z.of_nat n) with true by lia. replace (Z.of_nat n =? i) with false by lia. replace (i <? Z.of_nat (S n)) with true by lia.
    rewrite andb_false_r, xorb_false_r. reflexivity.
  - replace (Z.of_nat n <? Z.of_nat n) with false by lia. rewrite Z.eqb_refl. replace (Z.of_nat n <? Z.of_nat (S n)) with true by lia.
    destruct (f (Z.of_nat n)); reflexivity.
  - replace (i <? Z.of_nat n) with false by lia. replace (Z.of_nat n =? i) with false by lia. replace (i <? Z.of_nat (S n)) with false by lia.
    rewrite andb_false_r. reflexivity.
Qed.

Lemma rev128_bound : forall x, 0 <= rev128 x < 2 ^ 128.
Proof. intro x. apply frombits_bound. Qed.
Lemma rev128_spec : forall x i, 0 <= i -> Z.testbit (rev128 x) i = (i <? 128) && Z.testbit x (127 - i).
Proof. intros x i I. unfold rev128. rewrite frombits_spec by exact I. reflexivity. Qed.

Lemma rev128_invol : forall x, 0 <= x < 2 ^ 128 -> rev128 (rev128 x) = x.
Proof.
  intros x X. apply Z.bits_inj'. intros i I. rewrite rev128_spec by lia. destruct (i <? 128) eqn:E.
  - rewrite rev128_spec by lia. replace (127 - i <? 128) with true by lia. cbn [andb]. f_equal. lia.
  - symmetry. apply (bits_small x 128); lia.
Qed.

Lemma rev128_inj : forall x y, 0 <= x < 2 ^ 128 -> 0 <= y < 2 ^ 128 -> rev128 x = rev128 y -> x = y.
Proof. intros x y X Y H. rewrite <- (rev128_invol x X), H. apply rev128_invol. exact Y. Qed.

Lemma rev128_lxor : forall x y, rev128 (Z.lxor x y) = Z.lxor (rev128 x) (rev128 y).
Proof.
  intros x y. apply Z.bits_inj'. intros i I. rewrite Z.lxor_spec, !rev128_spec by lia. destruct (i <? 128); [|reflexivity]. cbn [andb]. apply Z.lxor_spec.
Qed.

(** ** Congruence modulo PP *)
Lemma pcong_refl : forall a, pcong a a.
Proof. intro a. exists 0. split; [lia|]. rewrite Z.lxor_nilpotent, clmul_0_r. reflexivity. Qed.
Lemma pcong_sym : forall a b, pcong a b -> pcong b a.
Proof. intros a b (q & Q & E). exists q. rewrite Z.lxor_comm. split; assumption. Qed.
Lemma pcong_trans : forall a b c, pcong a b -> pcong b c -> pcong a c.
Proof.
  intros a b c (q & Q & E) (q' & Q' & E'). exists (Z.lxor q q'). split; [apply Z.lxor_nonneg; lia|]. rewrite clmul_lxor_r by assumption. rewrite <- E, <- E'.
  rewrite Z.lxor_assoc. f_equal. rewrite <- Z.lxor_assoc, Z.lxor_nilpotent, Z.lxor_0_l. reflexivity.
Qed.
Lemma pcong_lxor : forall a b c d, pcong a b -> pcong c d -> pcong (Z.lxor a c) (Z.lxor b d).
Proof.
  intros a b c d (q & Q & E) (q' & Q' & E'). exists (Z.lxor q q'). split; [apply Z.lxor_nonneg; lia|]. rewrite clmul_lxor_r by assumption. rewrite <- E, <- E'.
  apply lxor_swap4.
Qed.
Lemma pcong_shift1 : forall a b, pcong a b -> pcong (Z.shiftl a 1) (Z.shiftl b 1).
Proof. intros a b (q & Q & E). exists (Z.shiftl q 1). split; [apply Z.shiftl_nonneg; lia|]. rewrite clmul_shift by lia. rewrite <- E, Z.shiftl_lxor. reflexivity. Qed.
Lemma pcong_shift : forall n a b, pcong a b -> pcong (Z.shiftl a (Z.of_nat n)) (Z.shiftl b (Z.of_nat n)).
Proof.
  induction n as [|n IH]; intros a b H; [rewrite !Z.shiftl_0_r; exact H|]. replace (Z.of_nat (S n)) with (1 + Z.of_nat n) by lia.
  rewrite <- !Z.shiftl_shiftl by lia. apply IH. apply pcong_shift1. exact H.
Qed.
Lemma pcong_PP : pcong PP 0.
Proof. exists 1. split; [lia|]. rewrite clmul_1_r, Z.lxor_0_r. reflexivity. Qed.

Lemma PP_bound : 2 ^ 128 <= PP < 2 ^ 129.
Proof. vm_compute. split; [intro H; discriminate|reflexivity]. Qed.

(** A non-zero multiple of PP has degree at least 128. *)
Lemma clmul_PP_big : forall q, 0 < q -> 2 ^ 128 <= clmul PP q.
Proof.
  intros q Q. pose proof (Z.log2_nonneg q) as LN. set (n := Z.to_nat (Z.log2 q)). assert (NE : Z.of_nat n = Z.log2 q) by lia.
  assert (E : clmul PP q = Z.lxor (psum n PP q) (Z.shiftl PP (Z.of_nat n))).
  { unfold clmul. replace (Z.to_nat (Z.log2 q + 1)) with (S n) by lia. cbn [psum]. rewrite NE, Z.bit_log2 by lia. reflexivity. }
  assert (B : Z.testbit (clmul PP q) (128 + Z.of_nat n) = true).
  { rewrite E, Z.lxor_spec. rewrite Z.shiftl_spec by lia. replace (128 + Z.of_nat n - Z.of_nat n) with 128 by lia. change (Z.testbit PP 128) with true.
    assert (S : forall m, (m <= n)%nat -> Z.testbit (psum m PP q) (128 + Z.of_nat n) = false).
    { induction m as [|m IH]; intro M; [apply Z.testbit_0_l|]. cbn [psum]. rewrite Z.lxor_spec, IH by lia.
      destruct (Z.testbit q (Z.of_nat m)); [|rewrite Z.testbit_0_l; reflexivity]. rewrite Z.shiftl_spec by lia.
      rewrite (bits_small PP 129); [reflexivity| |lia|lia]. pose proof PP_bound. lia. }
    rewrite S by lia. reflexivity. }
  assert (N0 : 0 <= clmul PP q) by (apply psum_nonneg; pose proof PP_bound; lia).
  destruct (Z.lt_ge_cases (clmul PP q) (2 ^ 128)) as [L|L]; [|exact L]. rewrite (bits_small _ 128) in B by lia. discriminate.
Qed.

Lemma pcong_unique : forall a b, 0 <= a < 2 ^ 128 -> 0 <= b < 2 ^ 128 -> pcong a b -> a = b.
Proof.
  intros a b A B (q & Q & E). destruct (Z.eq_dec q 0) as [->|NZ].
  - rewrite clmul_0_r in E. apply Z.lxor_eq. exact E.
  - pose proof (clmul_PP_big q ltac:(lia)) as L. rewrite <- E in L. pose proof (lxor_bound 128 a b ltac:(lia) A B). lia.
Qed.

(** ** The multiplication loop *)
Definition xstep (x : Z) : Z := Z.lxor (Z.shiftr x 1) (Z.land x 1 * R128).

Lemma land1 : forall x, Z.land x 1 = if Z.testbit x 0 then 1 else 0.
Proof. intro x. change 1 with (Z.ones 1) at 1. rewrite Z.land_ones by lia. change (2 ^ 1) with 2. rewrite <- Z.bit0_mod. destruct (Z.testbit x 0); reflexivity. Qed.

Lemma xstep_bound : forall x, 0 <= x < 2 ^ 128 -> 0 <= xstep x < 2 ^ 128.
Proof.
  intros x X. apply lxor_bound; [lia| |].
  - rewrite Z.shiftr_div_pow2 by lia. change (2 ^ 1) with 2. lia.
  - rewrite land1. destruct (Z.testbit x 0); (split; [apply Z.leb_le|apply Z.ltb_lt]; vm_compute; reflexivity).
Qed.

Lemma xstep_cong : forall x, 0 <= x < 2 ^ 128 -> pcong (rev128 (xstep x)) (Z.shiftl (rev128 x) 1).
Proof.
  intros x X. unfold xstep. rewrite rev128_lxor.
  assert (E : Z.shiftl (rev128 x) 1 = Z.lxor (rev128 (Z.shiftr x 1)) (if Z.testbit x 0 then 2 ^ 128 else 0)).
  { apply Z.bits_inj'. intros i I. rewrite Z.lxor_spec, Z.shiftl_spec by lia.
    replace (Z.testbit (if Z.testbit x 0 then 2 ^ 128 else 0) i) with (Z.testbit x 0 && (128 =? i)).
    2:{ destruct (Z.testbit x 0); [rewrite Z.pow2_bits_eqb by lia; reflexivity|rewrite Z.testbit_0_l; reflexivity]. }
    rewrite (rev128_spec (Z.shiftr x 1)) by lia.
    destruct (Z.eq_dec i 0) as [->|NZ].
    - rewrite Z.testbit_neg_r by lia. rewrite Z.shiftr_spec by lia. change (127 - 0 + 1) with 128. rewrite (bits_small x 128) by lia. change (128 =? 0) with false. rewrite !andb_false_r. reflexivity.
    - rewrite rev128_spec by lia. destruct (Z.lt_trichotomy i 128) as [L|[->|L]].
      + replace (i - 1 <? 128) with true by lia. replace (i <? 128) with true by lia. replace (128 =? i) with false by lia. rewrite andb_false_r, xorb_false_r. cbn [andb].
        rewrite Z.shiftr_spec by lia. f_equal. lia.
      + change (128 - 1 <? 128) with true. change (128 <? 128) with false. change (127 - (128 - 1)) with 0. change (128 =? 128) with true. destruct (Z.testbit x 0); reflexivity.
      + replace (i - 1 <? 128) with false by lia. replace (i <? 128) with false by lia. replace (128 =? i) with false by lia. rewrite andb_false_r. reflexivity. }
  rewrite E. apply pcong_lxor; [apply pcong_refl|]. rewrite land1. destruct (Z.testbit x 0).
  - exists 1. split; [lia|]. rewrite clmul_1_r. vm_compute. reflexivity.
  - exists 0. split; [lia|]. vm_compute. reflexivity.
Qed.

Lemma bit_select : forall x y i, 0 <= i -> x * Z.land (Z.shiftr y i) 1 = if Z.testbit y i then x else 0.
Proof. intros x y i I. rewrite land1, Z.shiftr_spec by lia. change (0 + i) with i. destruct (Z.testbit y i); lia. Qed.

Lemma gf_loop_inv : forall k x0 x y res, (k <= 128)%nat -> 0 <= x < 2 ^ 128 -> 0 <= res < 2 ^ 128 ->
  pcong (rev128 x) (Z.shiftl (rev128 x0) (Z.of_nat (128 - k))) ->
  pcong (rev128 res) (psum (128 - k) (rev128 x0) (rev128 y)) ->
  0 <= gf_loop k x y res < 2 ^ 128 /\ pcong (rev128 (gf_loop k x y res)) (psum 128 (rev128 x0) (rev128 y)).
Proof.
  induction k as [|k IH]; intros x0 x y res K X R CX CR; [split; [exact R|exact CR]|]. cbn [gf_loop]. fold (xstep x).
  rewrite bit_select by lia. apply IH with (x0 := x0); [lia|apply xstep_bound; exact X| | |].
  - apply lxor_bound; [lia|exact R|]. destruct (Z.testbit y (Z.of_nat k)); lia.
  - eapply pcong_trans; [apply xstep_cong; exact X|]. replace (Z.of_nat (128 - k)) with (Z.of_nat (128 - S k) + 1) by lia.
    rewrite <- Z.shiftl_shiftl by lia. apply pcong_shift1. exact CX.
  - replace (128 - k)%nat with (S (128 - S k)) by lia. cbn [psum]. rewrite rev128_lxor. apply pcong_lxor; [exact CR|].
    rewrite rev128_spec by lia. replace (Z.of_nat (128 - S k) <? 128) with true by lia. cbn [andb]. replace (127 - Z.of_nat (128 - S k)) with (Z.of_nat k) by lia.
    destruct (Z.testbit y (Z.of_nat k)); [exact CX|]. apply pcong_refl.
Qed.

Lemma gf_loop_ok : forall x y, 0 <= x < 2 ^ 128 ->
  0 <= gf_loop 128 x y 0 < 2 ^ 128 /\ pcong (rev128 (gf_loop 128 x y 0)) (clmul (rev128 x) (rev128 y)).
Proof.
  intros x y X. rewrite (clmul_psum 128) by apply rev128_bound. apply gf_loop_inv; [lia|exact X|lia| |].
  - rewrite Z.shiftl_0_r. apply pcong_refl.
  - apply pcong_refl.
Qed.

Lemma gf_mul_ok : forall x y, 0 <= x < 2 ^ 128 -> 0 <= y < 2 ^ 128 -> gf_2_128_mul x y = Ok (gf_loop 128 x y 0).
Proof.
  intros x y X Y. unfold gf_2_128_mul. destruct (gf_loop_ok x y X) as [B _]. set (r := gf_loop 128 x y 0) in *. clearbody r.
  replace (x <? 2 ^ 128) with true by lia. replace (y <? 2 ^ 128) with true by lia. replace (r <? 2 ^ 128) with true by lia. reflexivity.
Qed.

(** long division *)
Lemma pmod_ok : forall n a, 0 <= a < 2 ^ (128 + Z.of_nat n) -> 0 <= pmod n a < 2 ^ 128 /\ pcong (pmod n a) a.
Proof.
  induction n as [|n IH]; intros a A; [split; [exact A|apply pcong_refl]|]. cbn [pmod].
  destruct (Z.testbit a (128 + Z.of_nat n)) eqn:E.
  - destruct (IH (Z.lxor a (Z.shiftl PP (Z.of_nat n)))) as [B C].
    + assert (SB : 0 <= Z.shiftl PP (Z.of_nat n) < 2 ^ (128 + Z.of_nat (S n))).
      { rewrite Z.shiftl_mul_pow2 by lia. pose proof PP_bound. assert (0 < 2 ^ Z.of_nat n) by (apply Z.pow_pos_nonneg; lia).
        replace (128 + Z.of_nat (S n)) with (129 + Z.of_nat n) by lia. rewrite Z.pow_add_r by lia. split; [apply Z.mul_nonneg_nonneg; lia|apply Z.mul_lt_mono_pos_r; lia]. }
      pose proof (lxor_bound (128 + Z.of_nat (S n)) _ _ ltac:(lia) A SB) as [L1 L2]. split; [exact L1|].
      set (b := Z.lxor a (Z.shiftl PP (Z.of_nat n))) in *.
      assert (T : Z.testbit b (128 + Z.of_nat n) = false).
      { unfold b. rewrite Z.lxor_spec, E, Z.shiftl_spec by lia. replace (128 + Z.of_nat n - Z.of_nat n) with 128 by lia. reflexivity. }
      destruct (Z.lt_ge_cases b (2 ^ (128 + Z.of_nat n))) as [L|L]; [exact L|]. exfalso.
      assert (LG : Z.log2 b = 128 + Z.of_nat n).
      { apply Z.log2_unique; [lia|]. split; [exact L|]. replace (Z.succ (128 + Z.of_nat n)) with (128 + Z.of_nat (S n)) by lia. exact L2. }
      rewrite <- LG, Z.bit_log2 in T; [discriminate|]. assert (0 < 2 ^ (128 + Z.of_nat n)) by (apply Z.pow_pos_nonneg; lia). lia.
    + split; [exact B|]. eapply pcong_trans; [exact C|]. rewrite <- (Z.lxor_0_r a) at 2. apply pcong_lxor; [apply pcong_refl|].
      rewrite <- (Z.shiftl_0_l (Z.of_nat n)). apply pcong_shift. apply pcong_PP.
  - apply IH. split; [lia|]. destruct (Z.lt_ge_cases a (2 ^ (128 + Z.of_nat n))) as [L|L]; [exact L|]. exfalso.
    assert (LG : Z.log2 a = 128 + Z.of_nat n).
    { apply Z.log2_unique; [lia|]. split; [exact L|]. replace (Z.succ (128 + Z.of_nat n)) with (128 + Z.of_nat (S n)) by lia. apply A. }
    rewrite <- LG, Z.bit_log2 in E; [discriminate|]. assert (0 < 2 ^ (128 + Z.of_nat n)) by (apply Z.pow_pos_nonneg; lia). lia.
Qed.

Lemma psum_tight : forall n a b k, 0 <= a < 2 ^ k -> 0 <= k -> 0 <= psum (S n) a b < 2 ^ (k + Z.of_nat n).
Proof.
  intros n a b k A K. cbn [psum]. apply lxor_bound; [lia|apply psum_bound; assumption|].
  assert (T : 0 < 2 ^ Z.of_nat n) by (apply Z.pow_pos_nonneg; lia). rewrite Z.pow_add_r by lia.
  destruct (Z.testbit b (Z.of_nat n)); [rewrite Z.shiftl_mul_pow2 by lia|]; nia.
Qed.

Lemma clmul128_bound : forall a b, 0 <= a < 2 ^ 128 -> 0 <= b < 2 ^ 128 -> 0 <= clmul a b < 2 ^ (128 + Z.of_nat 127).
Proof. intros a b A B. rewrite (clmul_psum (S 127)) by exact B. apply psum_tight; [exact A|lia]. Qed.

Global Opaque gf_loop pmod psum frombits.

Lemma bmul_ok : forall x y, 0 <= bmul x y < 2 ^ 128 /\ pcong (rev128 (bmul x y)) (clmul (rev128 x) (rev128 y)).
Proof.
  intros x y. unfold bmul. split; [apply rev128_bound|].
  destruct (pmod_ok 127 (clmul (rev128 x) (rev128 y))) as [B C]; [apply (clmul128_bound _ _ (rev128_bound x) (rev128_bound y))|].
  rewrite rev128_invol by exact B. exact C.
Qed.

Lemma gf_loop_bmul : forall x y, 0 <= x < 2 ^ 128 -> gf_loop 128 x y 0 = bmul x y.
Proof.
  intros x y X. destruct (gf_loop_ok x y X) as [B C]. destruct (bmul_ok x y) as [B' C']. apply rev128_inj; [exact B|exact B'|].
  apply pcong_unique; [apply rev128_bound|apply rev128_bound|]. eapply pcong_trans; [exact C|]. apply pcong_sym. exact C'.
Qed.

Lemma bmul_comm : forall x y, bmul x y = bmul y x.
Proof.
  intros x y. unfold bmul. do 2 f_equal. rewrite !(clmul_psum 128) by apply rev128_bound. apply psum_comm; apply rev128_bound.
Qed.

Lemma bmul_unique : forall x y r, 0 <= r < 2 ^ 128 -> pcong (rev128 r) (clmul (rev128 x) (rev128 y)) -> r = bmul x y.
Proof.
  intros x y r R C. destruct (bmul_ok x y) as [B' C']. apply rev128_inj; [exact R|exact B'|].
  apply pcong_unique; [apply rev128_bound|apply rev128_bound|]. eapply pcong_trans; [exact C|]. apply pcong_sym. exact C'.
Qed.

Lemma gf_mul_bmul : forall x y, 0 <= x < 2 ^ 128 -> 0 <= y < 2 ^ 128 -> gf_2_128_mul x y = Ok (bmul x y).
Proof. intros x y X Y. rewrite gf_mul_ok, gf_loop_bmul by assumption. reflexivity. Qed.

Lemma bmul_lxor_r : forall x y z, bmul x (Z.lxor y z) = Z.lxor (bmul x y) (bmul x z).
Proof.
  intros x y z. symmetry. apply bmul_unique.
  - apply lxor_bound; [lia| |]; apply bmul_ok.
  - rewrite !rev128_lxor. rewrite clmul_lxor_r by apply rev128_bound. apply pcong_lxor; apply bmul_ok.
Qed.

Lemma bmul_0_r : forall x, bmul x 0 = 0.
Proof. intro x. symmetry. apply bmul_unique; [lia|]. change (rev128 0) with 0. rewrite clmul_0_r. apply pcong_refl. Qed.
