(** * The shared secret with a point of order two (ecc.py:72-76, elliptic.py:256-296) *)
From Coq Require Import ZArith List Bool Lia Znumtheory Field Ring ZifyBool.
From Verif Require Import Base Zp EcGroup EcSpec Elliptic EcArith EcProofs EcNaf TwoTors Ecc.
Import ListNotations.
Open Scope Z_scope.

Section Leak.
Variables p q n x : Z.
Hypothesis PN : prime n.
Hypothesis SM : (3 * x * x - p) mod n <> 0.
Local Notation z := (of_Z n).
Local Notation "0f" := (z0 n).
Declare Scope zl_scope.
Delimit Scope zl_scope with f.
Local Notation "x * y" := (zmul n x y) : zl_scope.
Local Notation "x - y" := (zsub n x y) : zl_scope.
Local Notation "- x" := (zopp n x) : zl_scope.
Add Field zpf3 : (zp_field n PN).
Lemma n1 : 1 < n. Proof. destruct PN. assumption. Qed.
Lemma nz : forall a b, (a <> 0f -> b <> 0f -> (a * b)%f <> 0f).
Proof. apply (mul_neq0 _ _ _ _ _ _ _ _ _ (zp_field n PN) (zp_eq_dec n)). Qed.
Local Ltac push := repeat first [rewrite of_Z_mod | rewrite of_Z_mul | rewrite of_Z_sub | rewrite of_Z_add | rewrite of_Z_opp].

Local Notation J := (Some (x, 0, 1, 1, 1)).
Definition lost (r : jpt) : Prop := exists a b, r = Some (a, b, 0, 0, 0) /\ z a <> 0f /\ (z b * z b)%f = (z a * z a * z a)%f.
Definition dead : jpt := Some (0, 0, 0, 0, 0).

Lemma mod0 : 0 mod n = 0. Proof. apply Z.mod_0_l. pose proof n1. lia. Qed.
Lemma double_shape : forall a b c cs cc, (2 * b * c) mod n = 0 -> exists x3 y3, doublef p q n (Some (a, b, c, cs, cc)) = Some (x3, y3, 0, 0, 0) /\
  let e := (z 3 * z a * z a - z p * z cc * z c)%f in let d := (z 4 * z a * (z b * z b))%f in
  z x3 = (e * e - z 2 * d)%f /\ z y3 = (e * (d - (e * e - z 2 * d)) - z 8 * (z b * z b) * (z b * z b))%f /\ x3 mod n = x3 /\ y3 mod n = y3.
Proof.
  intros a b c cs cc H. cbn [doublef]. rewrite H. change (0 * 0) with 0. rewrite mod0. change (0 * 0) with 0. rewrite mod0. eexists. eexists. split; [reflexivity|]. cbv zeta. push. split; [reflexivity|]. split; [reflexivity|]. pose proof n1. split; apply Z.mod_mod; lia.
Qed.
Lemma c2 : z 2 = zadd n (z1 n) (z1 n). Proof. change 2 with (1 + 1). rewrite of_Z_add. reflexivity. Qed.
Lemma c3 : z 3 = zadd n (zadd n (z1 n) (z1 n)) (z1 n). Proof. change 3 with (1 + 1 + 1). rewrite !of_Z_add. reflexivity. Qed.
Lemma c4 : z 4 = zmul n (z 2) (z 2). Proof. rewrite <- of_Z_mul. reflexivity. Qed.
Lemma c8 : z 8 = zmul n (z 2) (z 4). Proof. rewrite <- of_Z_mul. reflexivity. Qed.
Lemma c0 : z 0 = 0f. Proof. reflexivity. Qed.
Lemma c1 : z 1 = z1 n. Proof. reflexivity. Qed.
Lemma double_J : lost (doublef p q n J).
Proof.
  destruct (double_shape x 0 1 1 1) as (a & b & E & A & B & _); [exact mod0|]. exists a, b. split; [exact E|]. cbv zeta in A, B.
  assert (S0 : (z 3 * z x * z x - z p)%f <> 0f) by (rewrite <- !of_Z_mul, <- of_Z_sub; intro X; apply of_Z_0 in X; exact (SM X)). rewrite A, B, c0, c1. split.
  - replace (_ - _)%f with ((z 3 * z x * z x - z p) * (z 3 * z x * z x - z p))%f by ring. apply nz; exact S0.
  - ring.
Qed.
Lemma double_lost : forall r, lost r -> lost (doublef p q n r).
Proof.
  intros r (a & b & -> & A & B). destruct (double_shape a b 0 0 0) as (a' & b' & E & A' & B' & _); [rewrite Z.mul_0_r; exact mod0|]. exists a', b'. split; [exact E|]. cbv zeta in A', B'. rewrite B, c0, ?c8, ?c4, c3, c2 in *.
  assert (A2 : z a' = ((z a * z a) * (z a * z a))%f) by (rewrite A'; ring).
  assert (B2 : z b' = ((z a * z a) * (z a * z a) * (z a * z a))%f) by (rewrite B'; ring).
  rewrite A2, B2. split; [repeat apply nz; exact A|ring].
Qed.
Lemma zero_of : forall a, z a = 0f -> a mod n = a -> a = 0.
Proof. intros a H E. apply of_Z_0 in H. congruence. Qed.
Lemma double_dead : doublef p q n dead = dead.
Proof.
  destruct (double_shape 0 0 0 0 0) as (a & b & E & A & B & MA & MB); [exact mod0|]. cbv zeta in A, B. unfold dead. rewrite E. rewrite c0 in A, B.
  rewrite (zero_of a), (zero_of b); [reflexivity| | | |]; try assumption; [rewrite B|rewrite A]; ring.
Qed.
Lemma neg_J : negj J n = J.
Proof. cbn [negj]. rewrite Z.sub_0_r, Z.mod_same by (pose proof n1; lia). reflexivity. Qed.
Lemma add_lost : forall r, lost r -> addf p q n r J = dead.
Proof.
  intros r (a & b & -> & A & B). assert (S : exists x3 y3, addf p q n (Some (a, b, 0, 0, 0)) J = Some (x3, y3, 0, 0, 0) /\ z x3 = (z b * z b - z a * z a * z a)%f /\ z y3 = (z b * (z b * z b - z a * z a * z a))%f /\ x3 mod n = x3 /\ y3 mod n = y3).
  { cbn [addf]. assert (AN : (((a * 1) mod n - (x * 0) mod n) mod n =? 0) = false).
    { apply Z.eqb_neq. intro X. apply A. apply of_Z_0 in X. rewrite <- X. push. rewrite c0, c1. ring. }
    rewrite AN. cbn [negb]. set (h := ((x * 0) mod n - (a * 1) mod n) mod n). change (0 * 1 * h) with 0. rewrite mod0. change (0 * 0) with 0. rewrite mod0. change (0 * 0) with 0. rewrite mod0.
    eexists. eexists. split; [reflexivity|]. pose proof n1. split; [|split; [|split; apply Z.mod_mod; lia]]; unfold h; push; rewrite c0, ?c1, ?c2; ring. }
  destruct S as (x3 & y3 & E & X & Y & MX & MY). unfold dead. rewrite E, (zero_of x3), (zero_of y3); [reflexivity| | | |]; try assumption; [rewrite Y, B|rewrite X, B]; ring.
Qed.
Lemma add_dead : addf p q n dead J = None.
Proof. cbn [addf dead]. rewrite !Z.mul_0_r. change (0 * 1) with 0. rewrite mod0. change (0 - 0) with 0. change (0 + 0) with 0. rewrite mod0. reflexivity. Qed.

(** The state after some digits: the number of non-zero ones counts modulo three. *)
Definition state (l : list Z) (r : jpt) : Prop :=
  if (wt l mod 3 =? 0)%nat then r = None
  else if (wt l mod 3 =? 1)%nat then (if last l 0 =? 0 then lost r else r = J)
  else r = dead.
Lemma wt_app : forall l d, wt (l ++ [d]) = ((if (d =? 0)%Z then 0 else 1) + wt l)%nat.
Proof. intros l d. unfold wt. rewrite filter_app, app_length. cbn [filter]. destruct (d =? 0); cbn [negb length]; lia. Qed.
Lemma run : forall l, Forall (fun d => d = -1 \/ d = 0 \/ d = 1) l -> state l (fold_left (mulf_step p q n J (negj J n)) l None).
Proof.
  intro l. induction l as [|d l IH] using rev_ind; intro D; [reflexivity|]. apply Forall_app in D. destruct D as [Dl Dd]. inversion_clear Dd as [|? ? H _]. specialize (IH Dl).
  rewrite fold_left_app. cbn [fold_left]. set (r := fold_left (mulf_step p q n J (negj J n)) l None) in *. unfold state in *. rewrite wt_app, last_last.
  assert (ST : mulf_step p q n J (negj J n) r d = if d =? 0 then doublef p q n r else addf p q n (doublef p q n r) J).
  { unfold mulf_step. rewrite neg_J. destruct H as [->|[->| ->]]; reflexivity. }
  rewrite ST. clear ST. pose proof (Nat.mod_upper_bound (wt l) 3 ltac:(lia)) as W. pose proof (Nat.div_mod_eq (wt l) 3) as E. set (k := (wt l mod 3)%nat) in *. set (m := (wt l / 3)%nat) in *.
  assert (M : forall t i j, ((i + wt l) = j + t * 3)%nat -> (j < 3)%nat -> ((i + wt l) mod 3 = j)%nat) by (intros t i j X Y; rewrite X, Nat.mod_add, Nat.mod_small by lia; reflexivity).
  destruct k as [|[|[|k]]]; [| | |lia]; cbn [Nat.eqb] in IH; destruct (d =? 0) eqn:D0.
  - rewrite (M m 0%nat 0%nat) by lia. cbn [Nat.eqb]. rewrite IH. reflexivity.
  - rewrite (M m 1%nat 1%nat) by lia. cbn [Nat.eqb]. rewrite IH. reflexivity.
  - rewrite (M m 0%nat 1%nat) by lia. cbn [Nat.eqb]. destruct (last l 0 =? 0); [apply double_lost; exact IH|rewrite IH; exact double_J].
  - rewrite (M m 1%nat 2%nat) by lia. cbn [Nat.eqb]. destruct (last l 0 =? 0); [apply add_lost; apply double_lost; exact IH|rewrite IH; apply add_lost; exact double_J].
  - rewrite (M m 0%nat 2%nat) by lia. cbn [Nat.eqb]. rewrite IH. exact double_dead.
  - rewrite (M (Datatypes.S m) 1%nat 0%nat) by lia. cbn [Nat.eqb]. rewrite IH, double_dead. exact add_dead.
Qed.
Lemma from_lost : forall a b, from_projective (Some (a, b, 0, 0, 0)) n = Some (0, 0).
Proof. intros a b. cbn [from_projective]. rewrite inv_0, !Z.mul_0_r, !mod0 by exact n1. reflexivity. Qed.
Lemma inv_1n : (x * inv 1 n) mod n = x mod n.
Proof. pose proof n1. destruct (inv_coprime 1 n ltac:(lia) (Z.gcd_1_l n)) as [_ E]. rewrite Z.mul_1_r in E. rewrite <- Z.mul_mod_idemp_r, E by lia. rewrite (Z.mod_small 1) by lia. rewrite Z.mul_1_r. reflexivity. Qed.
(** [l] is the signed binary form of [c] in which no two neighbours are both non-zero. *)
Theorem mulp_two : forall c l, 0 <= c -> digits l -> (forall l1 a b l2, l = l1 ++ a :: b :: l2 -> a = 0 \/ b = 0) -> fold_left (fun v d => 2 * v + d) l 0 = c ->
  let w := length (filter (fun d => negb (d =? 0)) l) in
  mulp p q n (Some (x, 0)) c = if (w mod 3 =? 0)%nat then None else if (w mod 3 =? 1)%nat && Z.odd c then Some (x mod n, 0) else Some (0, 0).
Proof.
  intros c l Hc D SP V w. destruct (signed_bin_ok c) as (T & V' & D'). specialize (D' Hc).
  assert (W : w = wt (signed_bin c)).
  { unfold w. fold (wt l). apply Nat.le_antisymm; unfold wt; apply least_weight; try assumption; [exact (sparse_iff l SP)|rewrite V; symmetry; exact V'|exact (signed_bin_sparse c Hc T)|rewrite V; exact V']. }
  assert (O : Z.odd c = negb (last (signed_bin c) 0 =? 0)).
  { destruct (Z_lt_le_dec c 2) as [L|L]; [assert (c = 0 \/ c = 1) as [->| ->] by lia; reflexivity|].
    destruct (signed_bin_step c L) as (h & d & E & CV & DD & _). rewrite E, last_last, CV, Z.add_comm, Z.odd_add_mul_2. destruct DD as [->|[->| ->]]; reflexivity. }
  pose proof (run (signed_bin c) D') as R. unfold state in R. rewrite <- W in R. unfold mulp, mulf. cbn [to_projective]. set (r := fold_left (mulf_step p q n J (negj J n)) (signed_bin c) None) in *.
  destruct (w mod 3 =? 0)%nat; [rewrite R; reflexivity|]. destruct (w mod 3 =? 1)%nat; cbn [andb]; [|rewrite R; apply from_lost].
  rewrite O. destruct (last (signed_bin c) 0 =? 0); cbn [negb]; [destruct R as (a & b & -> & _); apply from_lost|]. rewrite R. cbn [from_projective]. rewrite inv_1n, Z.mul_0_l, mod0. reflexivity.
Qed.
End Leak.

(** ** dh_z with a point (x, 0), on the curve or not *)
Theorem dh_two : forall c x d l, prime (c_p c) -> (3 * x * x - c_a c) mod c_p c <> 0 -> 0 <= d ->
  Forall (fun e => e = -1 \/ e = 0 \/ e = 1) l -> (forall l1 a b l2, l = l1 ++ a :: b :: l2 -> a = 0 \/ b = 0) -> fold_left (fun v e => 2 * v + e) l 0 = d ->
  let w := length (filter (fun e => negb (e =? 0)) l) in
  dh_z c d (Some (x, 0)) = if (w mod 3 =? 0)%nat then Raise ETypeError else Ok (int2bytes c (if (w mod 3 =? 1)%nat && Z.odd d then x mod c_p c else 0)).
Proof.
  intros c x d l PN SM Hd D SP V w. unfold dh_z. rewrite (mulp_two (c_a c) (c_b c) (c_p c) x PN SM d l Hd D SP V). fold w.
  destruct (w mod 3 =? 0)%nat; [reflexivity|]. destruct ((w mod 3 =? 1)%nat && Z.odd d); reflexivity.
Qed.
