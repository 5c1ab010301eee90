(** Computable certificate checkers, on Bignums' [bigZ], and their correctness on [Z]. *)
From Coq Require Import ZArith Znumtheory Zpow_facts List Bool Lia.
From Bignums Require Import BigZ.
From Verif Require Import Pock.
Import ListNotations.
Open Scope Z_scope.

Local Notation "⟦ x ⟧" := (BigZ.to_Z x) (at level 0, x at level 99).
Local Notation "x *b y" := (BigZ.mul x y) (at level 40, left associativity).
Local Notation "x +b y" := (BigZ.add x y) (at level 50, left associativity).
Local Notation "x -b y" := (BigZ.sub x y) (at level 50, left associativity).
Local Notation "x %b y" := (BigZ.modulo x y) (at level 40, left associativity).

Fixpoint powmod (a : bigZ) (e : positive) (n : bigZ) : bigZ :=
  match e with
  | xH => a %b n
  | xO e' => let r := powmod a e' n in (r *b r) %b n
  | xI e' => let r := powmod a e' n in (((r *b r) %b n) *b a) %b n
  end.

Lemma powmod_spec : forall a e n, ⟦powmod a e n⟧ = ⟦a⟧ ^ Zpos e mod ⟦n⟧.
Proof.
  intros a e n. induction e as [e IH|e IH|]; cbn [powmod].
  - rewrite !BigZ.spec_modulo, !BigZ.spec_mul, BigZ.spec_modulo, BigZ.spec_mul, IH.
    rewrite Zmult_mod_idemp_l. rewrite <- Zmult_mod_idemp_l. rewrite <- Zmult_mod.
    rewrite Zmult_mod_idemp_l. f_equal.
    replace (Zpos e~1) with (Zpos e + Zpos e + 1) by lia. rewrite !Z.pow_add_r by lia. rewrite Z.pow_1_r. ring.
  - rewrite BigZ.spec_modulo, BigZ.spec_mul, IH. rewrite <- Zmult_mod. f_equal.
    replace (Zpos e~0) with (Zpos e + Zpos e) by lia. rewrite Z.pow_add_r by lia. reflexivity.
  - rewrite BigZ.spec_modulo, Z.pow_1_r. reflexivity.
Qed.

(** *** small primes, by trial division *)
Definition no_divisor (n : Z) (fuel : nat) : bool :=
  forallb (fun d => negb (n mod (Z.of_nat d + 2) =? 0)) (seq 0 fuel).

Definition small_prime (n : Z) : bool :=
  (1 <? n) && no_divisor n (Z.to_nat (Z.sqrt n - 1)).

Lemma small_prime_ok : forall n, small_prime n = true -> prime n.
Proof.
  intros n H. apply andb_true_iff in H. destruct H as [H1 H2]. apply Z.ltb_lt in H1.
  apply prime_by_divisors; [exact H1|]. intros r Pr Dr. pose proof (prime_ge_2 r Pr).
  destruct (Z_lt_le_dec n (r * r)) as [L|L]; [exact L|exfalso].
  unfold no_divisor in H2. rewrite forallb_forall in H2.
  assert (S : r <= Z.sqrt n) by (apply Z.sqrt_le_square; lia).
  specialize (H2 (Z.to_nat (r - 2))). rewrite Z2Nat.id in H2 by lia. replace (r - 2 + 2) with r in H2 by lia.
  apply Z.mod_divide in Dr; [|lia]. rewrite Dr in H2. assert (In (Z.to_nat (r - 2)) (seq 0 (Z.to_nat (Z.sqrt n - 1)))).
  { apply in_seq. lia. }
  specialize (H2 H0). discriminate.
Qed.

(** *** Pocklington certificates: n, base a, list of (prime, exponent) dividing n - 1 *)
Definition facprod_b (fs : list (Z * Z)) : bigZ :=
  fold_right (fun qe acc => BigZ.pow (BigZ.of_Z (fst qe)) (BigZ.of_Z (snd qe)) *b acc) BigZ.one fs.

Lemma facprod_b_spec : forall fs, Forall (fun qe => 0 < snd qe) fs -> ⟦facprod_b fs⟧ = facprod fs.
Proof.
  induction fs as [|[q e] fs IH]; intro H; [reflexivity|]. inversion_clear H. cbn [facprod_b facprod fold_right fst snd].
  rewrite BigZ.spec_mul, BigZ.spec_pow, !BigZ.spec_of_Z. fold (facprod_b fs). fold (facprod fs). rewrite IH by assumption. reflexivity.
Qed.

Fixpoint nodup_Z (l : list Z) : bool :=
  match l with [] => true | x :: r => negb (existsb (Z.eqb x) r) && nodup_Z r end.

Lemma nodup_Z_ok : forall l, nodup_Z l = true -> NoDup l.
Proof.
  induction l as [|x l IH]; intro H; [constructor|]. cbn in H. apply andb_true_iff in H. destruct H as [H1 H2].
  constructor; [|apply IH; exact H2]. intro I. apply negb_true_iff in H1.
  assert (existsb (Z.eqb x) l = true) by (apply existsb_exists; exists x; split; [exact I|apply Z.eqb_refl]). congruence.
Qed.

Definition check_q (a nb n1 : bigZ) (qe : Z * Z) : bool :=
  let q := BigZ.of_Z (fst qe) in
  let m := BigZ.div n1 q in
  match BigZ.to_Z m with
  | Zpos e => BigZ.eqb (BigZ.gcd (powmod a e nb -b BigZ.one) nb) BigZ.one
  | _ => false
  end.

Definition check_pock (n a : Z) (fs : list (Z * Z)) : bool :=
  let nb := BigZ.of_Z n in
  let ab := BigZ.of_Z a in
  let n1 := nb -b BigZ.one in
  let F := facprod_b fs in
  (1 <? n) && forallb (fun qe => 0 <? snd qe) fs && nodup_Z (map fst fs) &&
  BigZ.ltb nb (F *b F) && BigZ.ltb BigZ.zero F && BigZ.eqb (n1 %b F) BigZ.zero &&
  match n - 1 with Zpos e => BigZ.eqb (powmod ab e nb) BigZ.one | _ => false end &&
  forallb (check_q ab nb n1) fs.

Lemma gcd_mod_sub : forall x n, Z.gcd (x mod n - 1) n = Z.gcd (x - 1) n.
Proof.
  intros x n. destruct (Z.eq_dec n 0) as [->|N]; [rewrite Zmod_0_r; reflexivity|].
  rewrite !(Z.gcd_comm _ n). replace (x mod n - 1) with (x - 1 + (- (x / n)) * n).
  - apply Z.gcd_add_mult_diag_r.
  - rewrite (Z.mod_eq x n N). ring.
Qed.

Lemma check_pock_ok : forall n a fs, check_pock n a fs = true -> Forall (fun qe => prime (fst qe)) fs -> prime n.
Proof.
  intros n a fs H HP. unfold check_pock in H. repeat rewrite andb_true_iff in H.
  destruct H as (((((((H1 & H2) & H3) & H4) & H5) & H6) & H7) & H8).
  apply Z.ltb_lt in H1. 
  assert (E : Forall (fun qe => 0 < snd qe) fs).
  { apply Forall_forall. intros qe I. rewrite forallb_forall in H2. apply Z.ltb_lt. apply H2. exact I. }
  rewrite BigZ.spec_ltb in H4, H5. rewrite BigZ.spec_eqb in H6.
  rewrite BigZ.spec_mul, facprod_b_spec, BigZ.spec_of_Z in H4 by exact E.
  rewrite facprod_b_spec in H5 by exact E. rewrite BigZ.spec_modulo, facprod_b_spec, BigZ.spec_sub, BigZ.spec_of_Z in H6 by exact E.
  change ⟦BigZ.zero⟧ with 0 in *. change ⟦BigZ.one⟧ with 1 in *.
  apply Z.ltb_lt in H4, H5. apply Z.eqb_eq in H6.
  apply pocklington with (a := a) (fs := fs) (R := (n - 1) / facprod fs).
  - exact H1.
  - apply Z_div_exact_full_2; lia.
  - exact H4.
  - exact H5.
  - apply nodup_Z_ok. exact H3.
  - apply Forall_forall. intros qe I. rewrite Forall_forall in HP, E. split; [apply HP|apply E]; exact I.
  - destruct (n - 1) as [|e|e]; try discriminate. rewrite BigZ.spec_eqb, powmod_spec, !BigZ.spec_of_Z in H7.
    apply Z.eqb_eq in H7. exact H7.
  - intros q e I. rewrite forallb_forall in H8. specialize (H8 _ I). unfold check_q in H8. cbn [fst] in H8.
    rewrite BigZ.spec_div, BigZ.spec_sub, !BigZ.spec_of_Z in H8. change ⟦BigZ.one⟧ with 1 in H8.
    destruct ((n - 1) / q) as [|m|m]; try discriminate.
    rewrite BigZ.spec_eqb, BigZ.spec_gcd, BigZ.spec_sub, powmod_spec, !BigZ.spec_of_Z in H8.
    apply Z.eqb_eq in H8. change ⟦BigZ.one⟧ with 1 in H8. rewrite gcd_mod_sub in H8. exact H8.
Qed.

(** *** a cubic x^3 + a x + b without a root modulo the prime n *)
Definition tri := (bigZ * bigZ * bigZ)%type.
Section Cubic.
Variables a b n : bigZ.
Definition tmul (s t : tri) : tri :=
  let '(s0, s1, s2) := s in let '(t0, t1, t2) := t in
  let c3 := s1 *b t2 +b s2 *b t1 in
  let c4 := s2 *b t2 in
  ((s0 *b t0 -b b *b c3) %b n,
   (s0 *b t1 +b s1 *b t0 -b a *b c3 -b b *b c4) %b n,
   (s0 *b t2 +b s1 *b t1 +b s2 *b t0 -b a *b c4) %b n).
Fixpoint xpow (e : positive) : tri :=
  match e with
  | xH => (BigZ.zero, BigZ.one, BigZ.zero)
  | xO e' => let r := xpow e' in tmul r r
  | xI e' => let r := xpow e' in tmul (tmul r r) (BigZ.zero, BigZ.one, BigZ.zero)
  end.
Definition teval (t : tri) (x : Z) : Z := let '(t0, t1, t2) := t in ⟦t0⟧ + ⟦t1⟧ * x + ⟦t2⟧ * x * x.

Lemma tmul_eval : forall s t x, (x * x * x + ⟦a⟧ * x + ⟦b⟧) mod ⟦n⟧ = 0 -> ⟦n⟧ <> 0 ->
  teval (tmul s t) x mod ⟦n⟧ = (teval s x * teval t x) mod ⟦n⟧.
Proof.
  intros [[s0 s1] s2] [[t0 t1] t2] x H N. cbn [tmul teval].
  rewrite !BigZ.spec_modulo, !BigZ.spec_sub, !BigZ.spec_add, !BigZ.spec_mul, !BigZ.spec_add, !BigZ.spec_mul.
  set (m := ⟦n⟧) in *. apply Z.mod_divide in H; [|exact N]. destruct H as [k K].
  assert (M : forall u v w, ((u mod m) + (v mod m) * x + (w mod m) * x * x) mod m = (u + v * x + w * x * x) mod m).
  { intros u v w. rewrite (Z.mod_eq u m N), (Z.mod_eq v m N), (Z.mod_eq w m N).
    match goal with |- ?l mod m = ?r mod m => replace l with (r + (- (u / m) - (v / m) * x - (w / m) * x * x) * m) by ring end.
    apply Z_mod_plus_full. }
  rewrite M. clear M.
  match goal with |- ?l mod m = ?r mod m => replace r with (l + (((⟦s1⟧ * ⟦t2⟧ + ⟦s2⟧ * ⟦t1⟧) + ⟦s2⟧ * ⟦t2⟧ * x) * k) * m) end.
  - symmetry. apply Z_mod_plus_full.
  - rewrite <- (Z.mul_assoc _ k m), <- K. ring.
Qed.

Lemma xpow_eval : forall e x, (x * x * x + ⟦a⟧ * x + ⟦b⟧) mod ⟦n⟧ = 0 -> ⟦n⟧ <> 0 ->
  teval (xpow e) x mod ⟦n⟧ = x ^ Zpos e mod ⟦n⟧.
Proof.
  intros e x H N.
  assert (X : teval (BigZ.zero, BigZ.one, BigZ.zero) x = x).
  { cbn [teval]. change ⟦BigZ.zero⟧ with 0. change ⟦BigZ.one⟧ with 1. ring. }
  induction e as [e IH|e IH|]; cbn [xpow].
  - rewrite tmul_eval, X by assumption. rewrite <- Zmult_mod_idemp_l, tmul_eval by assumption.
    rewrite (Zmult_mod (teval _ _)), IH, <- Zmult_mod, Zmult_mod_idemp_l. f_equal.
    replace (Zpos e~1) with (Zpos e + Zpos e + 1) by lia. rewrite !Z.pow_add_r by lia. rewrite Z.pow_1_r. ring.
  - rewrite tmul_eval by assumption. rewrite Zmult_mod, IH, <- Zmult_mod. f_equal.
    replace (Zpos e~0) with (Zpos e + Zpos e) by lia. rewrite Z.pow_add_r by lia. reflexivity.
  - rewrite X, Z.pow_1_r. reflexivity.
Qed.
End Cubic.

(** [t] is an inverse of x^n - x modulo the cubic *)
Definition check_noroot (a b n : Z) (t : Z * Z * Z) : bool :=
  let ab := BigZ.of_Z a in let bb := BigZ.of_Z b in let nb := BigZ.of_Z n in
  match n with
  | Zpos e =>
      let '(u0, u1, u2) := xpow ab bb nb e in
      let '(t0, t1, t2) := t in
      let '(r0, r1, r2) := tmul ab bb nb (u0, u1 -b BigZ.one, u2) (BigZ.of_Z t0, BigZ.of_Z t1, BigZ.of_Z t2) in
      BigZ.eqb r0 BigZ.one && BigZ.eqb r1 BigZ.zero && BigZ.eqb r2 BigZ.zero
  | _ => false
  end.

Lemma check_noroot_ok : forall a b n t, check_noroot a b n t = true -> prime n -> forall x, (x * x * x + a * x + b) mod n <> 0.
Proof.
  intros a b n t H P x E. pose proof (prime_ge_2 n P). destruct t as [[t0 t1] t2].
  unfold check_noroot in H. destruct n as [|e|e]; try lia. set (n := Zpos e) in *.
  pose proof (xpow_eval (BigZ.of_Z a) (BigZ.of_Z b) (BigZ.of_Z n) e x) as X.
  destruct (xpow (BigZ.of_Z a) (BigZ.of_Z b) (BigZ.of_Z n) e) as [[u0 u1] u2].
  pose proof (tmul_eval (BigZ.of_Z a) (BigZ.of_Z b) (BigZ.of_Z n) (u0, u1 -b BigZ.one, u2) (BigZ.of_Z t0, BigZ.of_Z t1, BigZ.of_Z t2) x) as Y.
  destruct (tmul _ _ _ (u0, u1 -b BigZ.one, u2) _) as [[r0 r1] r2].
  rewrite !BigZ.spec_of_Z in X, Y. specialize (X E ltac:(lia)). specialize (Y E ltac:(lia)).
  repeat rewrite andb_true_iff in H. destruct H as ((H1 & H2) & H3).
  rewrite BigZ.spec_eqb in H1, H2, H3. apply Z.eqb_eq in H1, H2, H3.
  change ⟦BigZ.zero⟧ with 0 in *. change ⟦BigZ.one⟧ with 1 in *.
  fold n in X. rewrite (fermat_all n x P) in X.
  cbn [teval] in X, Y. rewrite H1, H2, H3, BigZ.spec_sub in Y. change ⟦BigZ.one⟧ with 1 in Y.
  replace (1 + 0 * x + 0 * x * x) with 1 in Y by ring.
  replace (⟦u0⟧ + (⟦u1⟧ - 1) * x + ⟦u2⟧ * x * x) with ((⟦u0⟧ + ⟦u1⟧ * x + ⟦u2⟧ * x * x) - x) in Y by ring.
  rewrite <- Zmult_mod_idemp_l, Zminus_mod, X, Z.sub_diag in Y. cbn in Y.
  rewrite Z.mod_small in Y by lia. discriminate.
Qed.
