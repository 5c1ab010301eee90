(** Proofs about the integer helpers of elliptic.py: euclid, inv, _signed_bin. *)
From Coq Require Import ZArith List Bool Lia Znumtheory ZifyBool.
From Verif Require Import Base Elliptic.
Import ListNotations.
Open Scope Z_scope.
Ltac Zify.zify_post_hook ::= Z.div_mod_to_equations.

(** *** euclid *)
Lemma rem_half : forall b r, Z.abs r < Z.abs b -> 0 < b * r -> 2 * Z.abs (b mod r) < Z.abs b.
Proof.
  intros b r H S. assert (NR : r <> 0) by nia.
  pose proof (Z.div_mod b r NR) as E.
  destruct (Z_lt_le_dec 0 r) as [P|P].
  - assert (PB : 0 < b) by nia. pose proof (Z.mod_pos_bound b r P) as M.
    assert (Q : 1 <= b / r) by (apply Z.div_le_lower_bound; lia).
    revert E M Q. generalize (b / r), (b mod r). intros q m E M Q.
    assert (r * 1 <= r * q) by (apply Z.mul_le_mono_nonneg_l; lia). lia.
  - assert (PB : b < 0) by nia. pose proof (Z.mod_neg_bound b r ltac:(lia)) as M.
    assert (Q : 1 <= b / r) by (rewrite <- Z.div_opp_opp by lia; apply Z.div_le_lower_bound; lia).
    revert E M Q. generalize (b / r), (b mod r). intros q m E M Q.
    assert (r * q <= r * 1) by (apply Z.mul_le_mono_nonpos_l; lia). lia.
Qed.

Lemma rem_sign : forall a b, b <> 0 -> a mod b <> 0 -> 0 < b * (a mod b) /\ Z.abs (a mod b) < Z.abs b.
Proof.
  intros a b NZ NR. destruct (Z_lt_le_dec 0 b) as [P|P].
  - pose proof (Z.mod_pos_bound a b P). split; [nia|lia].
  - pose proof (Z.mod_neg_bound a b ltac:(lia)). split; [nia|lia].
Qed.

Lemma euclid_loop_fuel : forall k f x xx y yy a b, Z.abs b < 2 ^ Z.of_nat k -> (2 * k <= f)%nat ->
  exists r, euclid_loop f x xx y yy a b = Some r.
Proof.
  induction k as [|k IH]; intros f x xx y yy a b B F.
  - simpl in B. assert (b = 0) by lia. subst b. destruct f; eexists; reflexivity.
  - destruct f as [|[|f]]; [lia|lia|]. cbn [euclid_loop].
    destruct (b =? 0) eqn:E; [eexists; reflexivity|].
    destruct (a mod b =? 0) eqn:E2; [eexists; reflexivity|].
    assert (NB : b <> 0) by lia. assert (NR : a mod b <> 0) by lia.
    destruct (rem_sign a b NB NR) as [S1 S2].
    apply IH; [|lia]. pose proof (rem_half b (a mod b) S2 S1) as R.
    rewrite Nat2Z.inj_succ, Z.pow_succ_r in B by lia. lia.
Qed.

Lemma euclid_terminates : forall a b, exists r, euclid a b = Some r.
Proof.
  intros a b. unfold euclid. apply euclid_loop_fuel with (k := S (Z.to_nat (Z.log2 (Z.abs b)))); [|lia].
  pose proof (Z.log2_nonneg (Z.abs b)).
  rewrite Nat2Z.inj_succ, Z2Nat.id by lia. destruct (Z.eq_dec b 0) as [->|N]; [simpl; lia|].
  apply Z.log2_spec. lia.
Qed.

Lemma euclid_loop_inv : forall f A B x xx y yy a b u v g,
  xx * A + yy * B = a -> x * A + y * B = b ->
  euclid_loop f x xx y yy a b = Some (u, v, g) -> u * A + v * B = g /\ Z.abs g = Z.gcd a b.
Proof.
  induction f as [|f IH]; intros A B x xx y yy a b u v g Ha Hb H; cbn [euclid_loop] in H.
  - destruct (b =? 0) eqn:E; [|discriminate]. injection H as <- <- <-. assert (b = 0) by lia. subst b.
    split; [exact Ha|]. rewrite H. rewrite Z.gcd_0_r. reflexivity.
  - destruct (b =? 0) eqn:E.
    + injection H as <- <- <-. assert (E0 : b = 0) by lia. split; [exact Ha|]. rewrite E0, Z.gcd_0_r. reflexivity.
    + assert (NB : b <> 0) by lia. pose proof (Z.div_mod a b NB) as D.
      eapply IH in H; [|exact Hb|].
      * destruct H as [H1 H2]. split; [exact H1|]. rewrite H2. rewrite Z.gcd_comm, Z.gcd_mod by exact NB. apply Z.gcd_comm.
      * rewrite !Z.mul_sub_distr_r. lia.
Qed.

Lemma euclid_spec : forall a b u v g, euclid a b = Some (u, v, g) -> u * a + v * b = g /\ Z.abs g = Z.gcd a b.
Proof. intros a b u v g H. unfold euclid in H. eapply euclid_loop_inv; [| |exact H]; ring. Qed.

Lemma euclid_loop_nonneg : forall f x xx y yy a b u v g, 0 <= a -> 0 <= b ->
  euclid_loop f x xx y yy a b = Some (u, v, g) -> 0 <= g.
Proof.
  induction f as [|f IH]; intros x xx y yy a b u v g Ha Hb H; cbn [euclid_loop] in H.
  - destruct (b =? 0) eqn:E; [|discriminate]. congruence.
  - destruct (b =? 0) eqn:E; [congruence|]. eapply IH in H; [exact H|lia|]. apply Z.mod_pos_bound. lia.
Qed.

Lemma euclid_pos : forall a b u v g, 0 < b -> euclid a b = Some (u, v, g) -> u * a + v * b = Z.gcd a b.
Proof.
  intros a b u v g P H. destruct (euclid_spec _ _ _ _ _ H) as [H1 H2]. rewrite H1, <- H2. symmetry. apply Z.abs_eq.
  unfold euclid in H. cbn [euclid_loop Nat.mul Nat.add] in H. destruct (b =? 0) eqn:E; [lia|].
  eapply euclid_loop_nonneg; [| |exact H]; [lia|]. apply Z.mod_pos_bound. lia.
Qed.

(** *** inv *)
Lemma inv_loop_spec : forall f i n, 0 < n -> - i < Z.of_nat f * n + 1 ->
  inv_loop f i n = Some (if i <? 0 then i mod n else i).
Proof.
  induction f as [|f IH]; intros i n P B; cbn [inv_loop].
  - destruct (i <? 0) eqn:E; [lia|reflexivity].
  - destruct (i <? 0) eqn:E; [|reflexivity]. rewrite IH by nia. f_equal.
    replace ((i + n) mod n) with (i mod n) by (rewrite <- (Z_mod_plus_full i 1 n); f_equal; lia).
    destruct (i + n <? 0) eqn:E2; [reflexivity|].
    rewrite <- (Z_mod_plus_full i 1 n). rewrite Z.mod_small; lia.
Qed.

Lemma inv_loop_terminates : forall i n, 0 < n -> exists r, inv_loop (S (Z.to_nat (- i / n))) i n = Some r.
Proof.
  intros i n P. eexists. apply inv_loop_spec; [exact P|].
  destruct (Z_lt_le_dec i 0).
  - assert (0 <= - i / n) by (apply Z.div_pos; lia). rewrite Nat2Z.inj_succ, Z2Nat.id by lia.
    pose proof (Z.mul_succ_div_gt (- i) n P). nia.
  - nia.
Qed.

Lemma inv_unfold : forall a n, 0 < n -> exists u v, u * a + v * n = Z.gcd a n /\ inv a n = (if u <? 0 then u mod n else u).
Proof.
  intros a n P. unfold inv. destruct (euclid_terminates a n) as [[[u v] g] E]. rewrite E.
  exists u, v. split; [eapply euclid_pos; eassumption|].
  rewrite inv_loop_spec; [reflexivity|exact P|].
  destruct (Z_lt_le_dec u 0).
  - assert (0 <= - u / n) by (apply Z.div_pos; lia). rewrite Nat2Z.inj_succ, Z2Nat.id by lia.
    pose proof (Z.mul_succ_div_gt (- u) n P). nia.
  - nia.
Qed.

Lemma inv_correct : forall a n, 0 < n -> 0 <= inv a n /\ (inv a n * a) mod n = Z.gcd a n mod n.
Proof.
  intros a n P. destruct (inv_unfold a n P) as (u & v & E & ->). split.
  - destruct (u <? 0) eqn:L; [apply Z.mod_pos_bound; lia|lia].
  - replace ((if u <? 0 then u mod n else u) * a mod n) with ((u * a) mod n).
    + rewrite <- E. rewrite Z_mod_plus_full. reflexivity.
    + destruct (u <? 0); [|reflexivity]. rewrite Zmult_mod_idemp_l. reflexivity.
Qed.

Lemma inv_coprime : forall a n, 0 < n -> Z.gcd a n = 1 -> 0 <= inv a n /\ (inv a n * a) mod n = 1 mod n.
Proof. intros a n P G. pose proof (inv_correct a n P) as H. rewrite G in H. exact H. Qed.

(** *** _signed_bin *)
Definition sb_value (l : list Z) : Z := fold_left (fun v d => 2 * v + d) l 0.

Lemma sb_value_acc : forall l v, fold_left (fun v d => 2 * v + d) l v = v * 2 ^ Z.of_nat (length l) + sb_value l.
Proof.
  unfold sb_value. induction l as [|d l IH]; intro v; [simpl; lia|]. cbn [fold_left length].
  rewrite IH, (IH (2 * 0 + d)). rewrite Nat2Z.inj_succ, Z.pow_succ_r by lia. ring.
Qed.

Lemma sb_value_cons : forall d l, sb_value (d :: l) = d * 2 ^ Z.of_nat (length l) + sb_value l.
Proof. intros d l. unfold sb_value. cbn [fold_left]. rewrite sb_value_acc. unfold sb_value. f_equal. Qed.

Lemma signed_bin_loop_ok : forall f n acc, n <= 2 ^ Z.of_nat f ->
  exists l, signed_bin_loop f n acc = Some l /\
    sb_value l = n * 2 ^ Z.of_nat (length acc) + sb_value acc /\
    (0 <= n -> Forall (fun d => d = -1 \/ d = 0 \/ d = 1) acc -> Forall (fun d => d = -1 \/ d = 0 \/ d = 1) l).
Proof.
  induction f as [|f IH]; intros n acc B; cbn [signed_bin_loop].
  - simpl in B. destruct (n <=? 1) eqn:E; [|lia]. eexists. split; [reflexivity|]. split; [apply sb_value_cons|].
    intros. constructor; [lia|assumption].
  - destruct (n <=? 1) eqn:E.
    { eexists. split; [reflexivity|]. split; [apply sb_value_cons|]. intros. constructor; [lia|assumption]. }
    rewrite Nat2Z.inj_succ, Z.pow_succ_r in B by lia.
    assert (forall d m, (d = -1 \/ d = 0 \/ d = 1) -> n = 2 * m + d -> m <= 2 ^ Z.of_nat f ->
      exists l, signed_bin_loop f m (d :: acc) = Some l /\ sb_value l = n * 2 ^ Z.of_nat (length acc) + sb_value acc /\
        (0 <= n -> Forall (fun d => d = -1 \/ d = 0 \/ d = 1) acc -> Forall (fun d => d = -1 \/ d = 0 \/ d = 1) l)) as K.
    { intros d m D M Bm. destruct (IH m (d :: acc) Bm) as (l & L1 & L2 & L3). exists l. split; [exact L1|]. split.
      - rewrite L2, sb_value_cons. cbn [length]. rewrite Nat2Z.inj_succ, Z.pow_succ_r by lia. rewrite M. ring.
      - intros. apply L3; [lia|]. constructor; assumption. }
    rewrite !Z.shiftr_div_pow2 by lia. change (2 ^ 1) with 2.
    pose proof (Zdiv2_odd_eqn n) as O. rewrite Zdiv2_div in O.
    destruct (Z.odd n).
    + destruct (gbd (n - 1) <? gbd (n + 1)); apply K; lia.
    + apply K; lia.
Qed.

Lemma signed_bin_ok : forall n, signed_bin_loop (S (Z.to_nat (Z.log2 n))) n [] = Some (signed_bin n) /\
  sb_value (signed_bin n) = n /\ (0 <= n -> Forall (fun d => d = -1 \/ d = 0 \/ d = 1) (signed_bin n)).
Proof.
  intro n. unfold signed_bin. destruct (signed_bin_loop_ok (S (Z.to_nat (Z.log2 n))) n []) as (l & L1 & L2 & L3).
  - rewrite Nat2Z.inj_succ, Z2Nat.id by apply Z.log2_nonneg.
    destruct (Z_lt_le_dec 0 n) as [P|P].
    + pose proof (Z.log2_spec n P). lia.
    + pose proof (Z.pow_nonneg 2 (Z.succ (Z.log2 n))). lia.
  - rewrite L1. split; [reflexivity|]. split; [rewrite L2; cbn; unfold sb_value; cbn; lia|].
    intros. apply L3; [assumption|constructor].
Qed.
