(** Number theory used for the NIST constants: Fermat's little theorem, Pocklington's primality criterion and its
    checker, and a criterion for a cubic to have no root modulo a prime.  Specification side only.
    The checkers compute with Bignums' [bigZ] (63-bit machine integers) and are proved correct on [Z]. *)
From Coq Require Import ZArith Znumtheory Zpow_facts List Bool Lia Permutation.
From Bignums Require Import BigZ.
Import ListNotations.
Open Scope Z_scope.

(** *** Fermat *)
Definition prodZ (l : list Z) : Z := fold_right Z.mul 1 l.

Lemma prodZ_perm : forall l l', Permutation l l' -> prodZ l = prodZ l'.
Proof. intros l l' H. unfold prodZ. induction H; cbn [fold_right]; lia. Qed.

Lemma prod_map_mod : forall a p l, prodZ (map (fun i => (a * i) mod p) l) mod p = (a ^ Z.of_nat (length l) * prodZ l) mod p.
Proof.
  intros a p. induction l as [|x l IH]; [reflexivity|]. cbn [map prodZ fold_right length].
  fold (prodZ (map (fun i => (a * i) mod p) l)). fold (prodZ l).
  rewrite Zmult_mod, IH, <- Zmult_mod, Zmult_mod_idemp_l.
  f_equal. rewrite Nat2Z.inj_succ, Z.pow_succ_r by lia. ring.
Qed.

Lemma prod_rel_prime : forall p l, prime p -> (forall x, In x l -> 0 < x < p) -> rel_prime (prodZ l) p.
Proof.
  intros p l P. induction l as [|x l IH]; intro H; cbn.
  - apply rel_prime_1.
  - apply rel_prime_sym. apply rel_prime_mult.
    + apply rel_prime_sym. apply rel_prime_le_prime; [exact P|]. specialize (H x (or_introl eq_refl)). lia.
    + apply rel_prime_sym. apply IH. intros y Hy. apply H. right. exact Hy.
Qed.

Lemma mod_cancel : forall a b c p, rel_prime c p -> (a * c) mod p = (b * c) mod p -> a mod p = b mod p.
Proof.
  intros a b c p R H. destruct (Z.eq_dec p 0) as [->|NZ].
  { rewrite !Zmod_0_r in *. destruct R as [_ _ R]. specialize (R c (Z.divide_refl c) (Z.divide_0_r c)).
    apply Z.divide_1_r_abs in R. nia. }
  assert (D : (p | (a - b) * c)).
  { apply Z.mod_divide; [exact NZ|]. replace ((a - b) * c) with (a * c - b * c) by ring.
    rewrite Zminus_mod, H, Z.sub_diag. apply Zmod_0_l. }
  rewrite Z.mul_comm in D. apply Gauss in D; [|apply rel_prime_sym; exact R].
  destruct D as [k D]. replace a with (b + k * p) by lia. apply Z_mod_plus_full.
Qed.

Theorem fermat : forall p a, prime p -> ~ (p | a) -> a ^ (p - 1) mod p = 1.
Proof.
  intros p a P NA. pose proof (prime_ge_2 p P) as P2.
  set (l := map Z.of_nat (seq 1 (Z.to_nat (p - 1)))).
  assert (InL : forall x, In x l <-> 0 < x < p).
  { intro x. unfold l. rewrite in_map_iff. split.
    - intros (k & <- & K). apply in_seq in K. lia.
    - intro H. exists (Z.to_nat x). split; [lia|]. apply in_seq. lia. }
  assert (ND : NoDup l).
  { unfold l. apply FinFun.Injective_map_NoDup; [intros x y; apply Nat2Z.inj|apply seq_NoDup]. }
  set (l' := map (fun i => (a * i) mod p) l).
  assert (RA : rel_prime a p) by (apply rel_prime_sym; apply prime_rel_prime; assumption).
  assert (ND' : NoDup l').
  { unfold l'. clear InL. assert (H : forall x, In x l -> 0 < x < p).
    { intro x. unfold l. rewrite in_map_iff. intros (k & <- & K). apply in_seq in K. lia. }
    revert ND H. generalize l. induction l0 as [|x l0 IH]; intros ND H; cbn; [constructor|].
    inversion_clear ND as [|? ? N1 N2]. constructor.
    - rewrite in_map_iff. intros (y & E & Y). apply N1.
      assert (x mod p = y mod p).
      { apply mod_cancel with (c := a); [exact RA|]. rewrite (Z.mul_comm x), (Z.mul_comm y). congruence. }
      rewrite !Z.mod_small in H0; [subst; exact Y| |]; [assert (K := H y (or_intror Y))|assert (K := H x (or_introl eq_refl))]; lia.
    - apply IH; [exact N2|]. intros y Y. apply H. right. exact Y. }
  assert (PM : Permutation l' l).
  { apply NoDup_Permutation_bis; [exact ND'|unfold l'; rewrite map_length; lia|].
    intros y. unfold l'. rewrite in_map_iff. intros (x & <- & X). apply InL. apply InL in X.
    pose proof (Z.mod_pos_bound (a * x) p ltac:(lia)). 
    enough ((a * x) mod p <> 0) by lia. intro E. apply Z.mod_divide in E; [|lia].
    apply prime_mult in E; [|exact P]. destruct E as [E|E]; [contradiction|].
    apply Z.divide_pos_le in E; lia. }
  apply prodZ_perm in PM. pose proof (prod_map_mod a p l) as M. fold l' in M. rewrite PM in M.
  assert (LL : Z.of_nat (length l) = p - 1) by (unfold l; rewrite map_length, seq_length; lia).
  rewrite LL in M.
  rewrite <- (Z.mod_small 1 p) at 2 by lia. symmetry.
  apply mod_cancel with (c := prodZ l); [apply prod_rel_prime; [exact P|intros; apply InL; assumption]|].
  rewrite Z.mul_1_l. exact M.
Qed.

Corollary fermat_all : forall p a, prime p -> a ^ p mod p = a mod p.
Proof.
  intros p a P. pose proof (prime_ge_2 p P). replace p with (Z.succ (p - 1)) at 1 by lia. rewrite Z.pow_succ_r by lia.
  destruct (Zdivide_dec p a) as [D|D].
  - rewrite Zmult_mod. destruct D as [k ->]. rewrite Z_mod_mult. rewrite Z.mul_0_l. apply Zmod_0_l.
  - rewrite Zmult_mod, fermat by assumption. rewrite Z.mul_1_r. apply Zmod_mod.
Qed.

(** *** Pocklington *)
Lemma prime_divisor : forall k n, 1 < n -> n < Z.of_nat k -> exists r, prime r /\ (r | n).
Proof.
  induction k as [|k IH]; intros n H B; [lia|].
  destruct (prime_dec n) as [P|P]; [exists n; split; [exact P|apply Z.divide_refl]|].
  destruct (not_prime_divide n H P) as (m & M & D).
  destruct (IH m) as (r & Pr & Dr); [lia|lia|]. exists r. split; [exact Pr|]. eapply Z.divide_trans; eassumption.
Qed.

Lemma prime_by_divisors : forall n, 1 < n -> (forall r, prime r -> (r | n) -> n < r * r) -> prime n.
Proof.
  intros n H K. destruct (prime_dec n) as [P|P]; [exact P|exfalso].
  destruct (not_prime_divide n H P) as (m & M & D). destruct D as [m' E].
  assert (M1 : 1 < m') by nia.
  destruct (prime_divisor (S (Z.to_nat m)) m) as (r & Pr & Dr); [lia|lia|].
  destruct (prime_divisor (S (Z.to_nat m')) m') as (r' & Pr' & Dr'); [lia|lia|].
  pose proof (prime_ge_2 r Pr). pose proof (prime_ge_2 r' Pr').
  assert (r <= m) by (apply Z.divide_pos_le; [lia|exact Dr]).
  assert (r' <= m') by (apply Z.divide_pos_le; [lia|exact Dr']).
  assert (n < r * r). { apply K; [exact Pr|]. rewrite E. apply Z.divide_mul_r. exact Dr. }
  assert (n < r' * r'). { apply K; [exact Pr'|]. rewrite E. apply Z.divide_mul_l. exact Dr'. }
  assert (r * r' <= m * m') by (apply Z.mul_le_mono_nonneg; lia).
  destruct (Z_le_gt_dec r r'); nia.
Qed.

Lemma pow1_mul : forall a r k u, 1 < r -> 0 <= k -> 0 <= u -> a ^ k mod r = 1 -> a ^ (k * u) mod r = 1.
Proof.
  intros a r k u R K U H. rewrite Z.pow_mul_r by lia. revert u U. apply natlike_ind.
  - simpl. apply Z.mod_small. lia.
  - intros x X IH. rewrite Z.pow_succ_r by lia. rewrite Zmult_mod, IH, H. apply Z.mod_small. lia.
Qed.

Lemma pow1_gcd : forall a r m k, 1 < r -> 0 < m -> 0 < k -> a ^ m mod r = 1 -> a ^ k mod r = 1 ->
  a ^ (Z.gcd m k) mod r = 1.
Proof.
  intros a r m k R M K Hm Hk.
  destruct (Z.gcd_bezout m k (Z.gcd m k) eq_refl) as (u & v & E).
  set (g := Z.gcd m k) in *. assert (G : 0 < g). { pose proof (Z.gcd_nonneg m k). destruct (Z.eq_dec g 0) as [E0|]; [|lia].
    apply Z.gcd_eq_0_l in E0. lia. }
  (* make u non-negative and v non-positive *)
  set (t := Z.abs u + Z.abs v).
  assert (E2 : (u + t * k) * m = g + (t * m - v) * k) by nia.
  assert (U0 : 0 <= u + t * k) by nia. assert (V0 : 0 <= t * m - v) by nia.
  assert (X : a ^ (m * (u + t * k)) mod r = 1) by (apply pow1_mul; lia).
  assert (Y : a ^ (k * (t * m - v)) mod r = 1) by (apply pow1_mul; lia).
  rewrite (Z.mul_comm m), E2, (Z.mul_comm _ k) in X. rewrite Z.pow_add_r in X by (first [lia | apply Z.mul_nonneg_nonneg; lia]).
  rewrite Zmult_mod, Y, Z.mul_1_r, Zmod_mod in X. exact X.
Qed.

Lemma prime_power_divides : forall q e m g, prime q -> 0 <= e -> 0 < m -> (q ^ e | m) -> (q | m) -> (g | m) -> ~ (g | m / q) -> (q ^ e | g).
Proof.
  intros q e m g P E M D1 D0 D2 N. pose proof (prime_ge_2 q P). destruct D2 as [k Hk].
  apply Gauss with (b := k); [rewrite <- Hk; exact D1|].
  apply rel_prime_sym. apply rel_prime_Zpower_r; [exact E|]. apply rel_prime_sym. apply prime_rel_prime; [exact P|].
  intros [k' K']. apply N. exists k'. rewrite Hk, K'. replace (k' * q * g) with (k' * g * q) by ring. apply Z.div_mul. lia.
Qed.

Definition facprod (fs : list (Z * Z)) : Z := fold_right (fun qe acc => fst qe ^ snd qe * acc) 1 fs.

Lemma facprod_divides : forall fs m, NoDup (map fst fs) -> Forall (fun qe => prime (fst qe) /\ 0 <= snd qe /\ (fst qe ^ snd qe | m)) fs ->
  (facprod fs | m).
Proof.
  induction fs as [|[q e] fs IH]; intros m ND H; cbn; [apply Z.divide_1_l|].
  inversion_clear ND as [|? ? N1 N2]. inversion_clear H as [|? ? (P & E & D) H2]. cbn in *.
  fold (facprod fs). assert (R : rel_prime (q ^ e) (facprod fs)).
  { clear D. revert N1 H2. clear - P E. induction fs as [|[q' e'] fs IH]; intros N H; cbn.
    - apply rel_prime_sym. apply rel_prime_1.
    - inversion_clear H as [|? ? (P' & E' & _) H2]. cbn in *. apply rel_prime_mult; [|apply IH; tauto].
      apply rel_prime_Zpower; try assumption. apply prime_rel_prime; [exact P|]. intro D.
      apply prime_div_prime in D; [|assumption|assumption]. subst. tauto. }
  specialize (IH m N2 H2). destruct D as [k Hk]. rewrite Hk in IH |- *.
  rewrite (Z.mul_comm k) in *. apply Z.mul_divide_mono_l.
  apply Gauss with (b := q ^ e); [exact IH|apply rel_prime_sym; exact R].
Qed.

Theorem pocklington : forall n a fs R,
  1 < n -> n - 1 = facprod fs * R -> n < facprod fs * facprod fs -> 0 < facprod fs ->
  NoDup (map fst fs) -> Forall (fun qe => prime (fst qe) /\ 0 < snd qe) fs ->
  a ^ (n - 1) mod n = 1 ->
  (forall q e, In (q, e) fs -> Z.gcd (a ^ ((n - 1) / q) - 1) n = 1) ->
  prime n.
Proof.
  intros n a fs R H1 HF HS HP ND HPr HA HG. apply prime_by_divisors; [exact H1|]. intros r Pr Dr.
  pose proof (prime_ge_2 r Pr) as R2.
  assert (AR : forall k, 0 <= k -> a ^ k mod n = 1 -> a ^ k mod r = 1).
  { intros k K E. destruct Dr as [c ->]. 
    pose proof (Z.div_mod (a ^ k) (c * r) ltac:(lia)) as DM. rewrite E in DM. rewrite DM.
    replace (c * r * (a ^ k / (c * r)) + 1) with (1 + (c * (a ^ k / (c * r))) * r) by ring.
    rewrite Z_mod_plus_full. apply Z.mod_small. lia. }
  assert (A1 : a ^ (n - 1) mod r = 1) by (apply AR; [lia|exact HA]).
  assert (NA : ~ (r | a)).
  { intros D. assert (D2 : (r | a ^ (n - 1))).
    { replace (n - 1) with (Z.succ (n - 2)) by lia. rewrite Z.pow_succ_r by lia. apply Z.divide_mul_l. exact D. }
    apply Z.mod_divide in D2; [|lia]. lia. }
  pose proof (fermat r a Pr NA) as A2.
  set (g := Z.gcd (n - 1) (r - 1)).
  assert (A3 : a ^ g mod r = 1) by (apply pow1_gcd; try assumption; lia).
  assert (Dg1 : (g | n - 1)) by apply Z.gcd_divide_l. assert (Dg2 : (g | r - 1)) by apply Z.gcd_divide_r.
  assert (FD : (facprod fs | r - 1)).
  { apply facprod_divides; [exact ND|]. apply Forall_forall. intros [q e] Hin.
    assert (PQ := HPr). rewrite Forall_forall in PQ. specialize (PQ _ Hin). cbn in *. destruct PQ as [PQ EQ].
    split; [exact PQ|]. split; [lia|].
    apply Z.divide_trans with (m := g); [|exact Dg2].
    assert (QN : (q ^ e | n - 1)).
    { rewrite HF. apply Z.divide_mul_l. clear - Hin. induction fs as [|[q' e'] fs IH]; [destruct Hin|].
      cbn. destruct Hin as [E|Hin]; [injection E as -> ->; apply Z.divide_mul_l; apply Z.divide_refl|].
      apply Z.divide_mul_r. apply IH. exact Hin. }
    assert (Q1 : (q | q ^ e)). { replace e with (Z.succ (e - 1)) by lia. rewrite Z.pow_succ_r by lia. apply Z.divide_mul_l. apply Z.divide_refl. }
    apply prime_power_divides with (m := n - 1); try assumption; try lia.
    - eapply Z.divide_trans; eassumption.
    - intros [k Hk]. assert (K0 : 0 <= g) by apply Z.gcd_nonneg.
      assert (K1 : 0 <= (n - 1) / q). { apply Z.div_pos; [lia|]. pose proof (prime_ge_2 q PQ). lia. }
      assert (A4 : a ^ ((n - 1) / q) mod r = 1).
      { destruct (Z.eq_dec g 0) as [G0|G0].
        - rewrite Hk, G0, Z.mul_0_r. apply Z.mod_small. lia.
        - rewrite Hk, Z.mul_comm. apply pow1_mul; try exact A3; try lia; try nia. }
      assert (DD : (r | a ^ ((n - 1) / q) - 1)).
      { apply Z.mod_divide; [lia|]. rewrite Zminus_mod, A4, (Z.mod_small 1) by lia. apply Zmod_0_l. }
      pose proof (Z.gcd_greatest _ _ _ DD Dr) as G1. rewrite (HG q e Hin) in G1.
      apply Z.divide_1_r_nonneg in G1; lia. }
  apply Z.divide_pos_le in FD; [|lia]. nia.
Qed.
