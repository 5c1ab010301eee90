(** * Scalars below zero, which elliptic.py does not expect (elliptic.py:240-329) *)
From Coq Require Import ZArith List Bool Lia.
From Verif Require Import Base BaseProofs Elliptic EcArith EcProofs.
Import ListNotations.
Open Scope Z_scope.

Lemma signed_bin_neg : forall c, c < 0 -> signed_bin c = [c].
Proof. intros c H. unfold signed_bin. destruct (Z.log2 c) eqn:E; cbn [Z.to_nat signed_bin_loop]; replace (c <=? 1) with true by lia; reflexivity. Qed.
Lemma inv_1 : forall n, 1 < n -> (inv 1 n) mod n = 1.
Proof. intros n H. destruct (inv_coprime 1 n ltac:(lia) (Z.gcd_1_l n)) as [_ E]. rewrite Z.mul_1_r in E. rewrite E. apply Z.mod_small. lia. Qed.
Lemma signed_bin_nonempty : forall n, signed_bin n <> [].
Proof. intros n H. destruct (signed_bin_ok n) as (_ & V & _). rewrite H in V. cbn in V. subst n. discriminate H. Qed.

Theorem mulp_neg : forall p q n x y c, 1 < n -> c < 0 -> mulp p q n (Some (x, y)) c = Some (x mod n, (- y) mod n).
Proof.
  intros p q n x y c N C. unfold mulp, mulf. rewrite signed_bin_neg by exact C. cbn [fold_left to_projective negj]. unfold mulf_step. cbn [doublef].
  replace (c =? 0) with false by lia. replace (0 <? c) with false by lia. cbn [negb addf from_projective]. do 2 f_equal.
  - rewrite <- Zmult_mod_idemp_r, inv_1, Z.mul_1_r by exact N. reflexivity.
  - rewrite <- Zmult_mod_idemp_r, inv_1, Z.mul_1_r, Zmod_mod by exact N. rewrite <- (Z_mod_plus_full (- y) 1 n). f_equal. ring.
Qed.
Theorem mul_neg : forall p q n P c, c < 0 -> mul p q n P c = None.
Proof. intros p q n P c C. destruct c; try lia. reflexivity. Qed.

Lemma idx3_raise : forall A (t : A * A * A) i e, idx3 t i = Raise e -> e = EIndexError.
Proof. intros A [[a b] c] i e H. unfold idx3 in H. repeat match goal with _ : context [if ?b then _ else _] |- _ => destruct b end; try discriminate H. injection H as <-. reflexivity. Qed.
Lemma step_raise : forall p q n pre l r, (forall e, r = Raise e -> e = EIndexError) -> forall e, fold_left (muladdf_step p q n pre) l r = Raise e -> e = EIndexError.
Proof.
  intros p q n pre l. induction l as [|ij l IH]; intros r H e F; [exact (H e F)|]. cbn [fold_left] in F. apply (IH _) in F; [exact F|].
  intros e' E. unfold muladdf_step in E. destruct r as [r|x]; [|cbn [bind] in E; apply H; exact E]. cbn [bind] in E.
  destruct (_ || _); [|discriminate E]. destruct (idx3 pre (fst ij)) as [row|x] eqn:I; cbn [bind] in E; [|injection E as <-; apply idx3_raise in I; exact I].
  destruct (idx3 row (snd ij)) as [v|x] eqn:I2; cbn [bind] in E; [discriminate E|]. injection E as <-. apply idx3_raise in I2. exact I2.
Qed.
Lemma idx3_low : forall A (t : A * A * A) i, i < -3 -> idx3 t i = Raise EIndexError.
Proof. intros A [[a b] c] i H. unfold idx3. replace (i =? 0) with false by lia. replace (i =? 1) with false by lia. replace (i =? 2) with false by lia. replace (i =? -1) with false by lia. replace (i =? -2) with false by lia. replace (i =? -3) with false by lia. reflexivity. Qed.
Lemma combine_app : forall (a b : list Z) x y, length a = length b -> combine (a ++ [x]) (b ++ [y]) = combine a b ++ [(x, y)].
Proof. induction a as [|u a IH]; intros [|v b] x y H; try discriminate H; [reflexivity|]. cbn [app combine]. rewrite IH by (cbn [length] in H; lia). reflexivity. Qed.
Lemma step_low : forall p q n pre r i j, (forall e, r = Raise e -> e = EIndexError) -> i < -3 \/ j < -3 -> muladdf_step p q n pre r (i, j) = Raise EIndexError.
Proof.
  intros p q n pre [r|e] i j H D; cbn [muladdf_step bind]; [|f_equal; exact (H e eq_refl)]. unfold muladdf_step. cbn [bind fst snd].
  replace (negb (i =? 0) || negb (j =? 0)) with true by lia.
  destruct D as [D|D]; [rewrite idx3_low by exact D; reflexivity|].
  destruct (idx3 pre i) as [row|x] eqn:E; cbn [bind]; [rewrite idx3_low by exact D; reflexivity|]. apply idx3_raise in E. subst x. reflexivity.
Qed.
Lemma pad_last : forall s m, s <> [] -> exists a x, repeat 0 m ++ s = a ++ [x] /\ last s 0 = x.
Proof. intros s m H. destruct (exists_last H) as (a & x & ->). exists (repeat 0 m ++ a), x. split; [rewrite app_assoc; reflexivity|]. apply last_last. Qed.
Theorem muladdp_neg : forall p q n P c Q d, c < -3 \/ d < -3 -> muladdp p q n P c Q d = Raise EIndexError.
Proof.
  intros p q n P c Q d D. unfold muladdp, muladdf.
  destruct (pad_last (signed_bin c) (length (signed_bin d) - length (signed_bin c)) (signed_bin_nonempty c)) as (a & x & A & X).
  destruct (pad_last (signed_bin d) (length (signed_bin c) - length (signed_bin d)) (signed_bin_nonempty d)) as (b & y & B & Y).
  assert (L : length a = length b).
  { apply (f_equal (@length Z)) in A. apply (f_equal (@length Z)) in B. rewrite !app_length, repeat_length in A, B. cbn [length] in A, B. lia. }
  rewrite A, B, combine_app by exact L. rewrite fold_left_app. cbn [fold_left]. rewrite step_low; [reflexivity| |].
  - apply step_raise. discriminate.
  - destruct D as [D|D]; [left|right]; rewrite signed_bin_neg in * by lia; cbn [last] in *; lia.
Qed.
