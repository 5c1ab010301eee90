(** Multiplication of points that are not on the curve: the code never uses the constant b of the curve, so it works on
    whatever curve the point lies on. *)
From Coq Require Import ZArith List Bool Lia Znumtheory Field Ring.
From Verif Require Import Base Zp EcGroup EcSpec Elliptic EcArith EcProofs Ecc EccProofs Nist EcAux.
Import ListNotations.
Open Scope Z_scope.

(** *** The constant b is not used *)
Lemma mulp_b : forall p q q' n P k, mulp p q n P k = mulp p q' n P k.
Proof. reflexivity. Qed.

(** the constant of the curve through a point *)
Definition b_through (a x y : Z) : Z := y * y - x * x * x - a * x.

Section Any.
Variables (name : list Z) (c : curve).
Hypothesis H : by_name name = Ok c.
Let SC : sound_curve c := by_name_sound name c H.
Local Notation n := (c_p c).

Lemma dh_through : forall x y d, 0 <= d -> let b := b_through (- c_a c) x y in
  good_curve n (- c_a c) b -> no_two_torsion n (- c_a c) b ->
  on_curve n (- c_a c) b (GP n x y) /\
  ((exists u v, 0 <= u < n /\ 0 <= v < n /\ GP n u v = gmul n (- c_a c) d (GP n x y) /\ dh_z c d (Some (x, y)) = Ok (int2bytes c u)) \/
  (gmul n (- c_a c) d (GP n x y) = GO n /\ dh_z c d (Some (x, y)) = Raise ETypeError)).
Proof.
  intros x y d Hd b G T. rewrite <- (Z.opp_involutive b) in G, T.
  assert (C : on_curve n (- c_a c) (- - b) (den n (Some (x, y)))).
  { apply den_on. cbn [element]. apply Z.eqb_eq. unfold b, b_through.
    f_equal. ring. }
  split; [rewrite Z.opp_involutive in C; exact C|].
  pose proof (den_mulp _ _ _ G T (Some (x, y)) d Hd C) as E. pose proof (mulp_range _ _ _ G (Some (x, y)) d) as R.
  rewrite (mulp_b _ (- b) (c_b c)) in E, R.
  unfold dh_z. destruct (mulp (c_a c) (c_b c) n (Some (x, y)) d) as [[u v]|] eqn:EM.
  - left. exists u, v. repeat split; try apply R. exact E.
  - right. split; [symmetry; exact E|reflexivity].
Qed.
End Any.

(** *** A point of order three for every curve with a = -3 *)
Section Three.
Variables q n : Z.
Hypothesis Good : good_curve n (- (3)) (- q).
Local Notation z := (of_Z n).
Local Notation "0f" := (z0 n). Local Notation "1f" := (z1 n).
Declare Scope zl_scope.
Delimit Scope zl_scope with f.
Local Notation "x + y" := (zadd n x y) : zl_scope.
Local Notation "x * y" := (zmul n x y) : zl_scope.
Local Notation "x - y" := (zsub n x y) : zl_scope.
Local Notation "- x" := (zopp n x) : zl_scope.
Let Pr : prime n := Pn 3 q n Good.
Add Field zpl : (zp_field n Pr).
Local Notation jr := (jrep n).
Local Notation T s := (GP n 3 s).

Ltac zpush := repeat first [rewrite of_Z_mod | rewrite of_Z_mul | rewrite of_Z_sub | rewrite of_Z_add | rewrite of_Z_opp].

Lemma four0 : z 4 <> 0f.
Proof. rewrite (z4 n). apply (mnz 3 q n Good); exact (two0 3 q n Good). Qed.
Lemma pm4 : forall s, s = 4 \/ s = -4 -> z s = z 4 \/ z s = (- z 4)%f.
Proof. intros s [-> | ->]; [left; reflexivity|right]. rewrite <- of_Z_opp. reflexivity. Qed.

Lemma dbl3 : forall s j, s = 4 \/ s = -4 -> jr j (T s) -> jr (doublef 3 q n j) (T (- s)).
Proof.
  intros s [[[[[x y] zz] zs] zc]|] HS HJ; [|contradiction]. cbn in HJ. destruct HJ as (H0 & H1 & H2 & H3 & H4).
  pose proof (two0 3 q n Good) as T2. pose proof four0 as F0. cbn [doublef jrep GP].
  zpush. destruct (pm4 s HS) as [S1|S1]; rewrite S1 in *; rewrite ?(z4 n), ?(z3 n), ?(z2 n), ?(z8 n), ?H1, ?H2, ?H3, ?H4 in *.
  - repeat split; try ring. repeat apply (mnz 3 q n Good); assumption.
  - repeat split; try ring. repeat apply (mnz 3 q n Good); try assumption.
    intro E. apply F0. transitivity (- (- ((1f + 1f) * (1f + 1f))))%f; [ring|]. rewrite E. ring.
Qed.

Lemma add3 : forall s t j k, s = 4 \/ s = -4 -> t = 4 \/ t = -4 -> jr j (T s) -> jr k (T t) ->
  if s =? t then jr (addf 3 q n j k) (T (- s)) else addf 3 q n j k = None.
Proof.
  intros s t j k HS HT J K. pose proof (dbl3 s j HS J) as D.
  destruct j as [[[[[x y] zz] zs] zc]|]; [|contradiction]. destruct k as [[[[[x' y'] zz'] zs'] zc']|]; [|contradiction].
  cbn in J, K. destruct J as (H0 & H1 & H2 & H3 & H4). destruct K as (K0 & K1 & K2 & K3 & K4).
  pose proof (two0 3 q n Good) as T2. pose proof four0 as F0.
  assert (U : (((x * zs') mod n - (x' * zs) mod n) mod n =? 0) = true).
  { apply (mulmod0t n). zpush. rewrite H1, H3, K1, K3. ring. }
  assert (V : z ((y * zc') mod n + (y' * zc) mod n) = ((z s + z t) * (z zz * z zz * z zz * (z zz' * z zz' * z zz')))%f).
  { zpush. rewrite H2, H4, K2, K4. ring. }
  cbn [addf]. rewrite U. cbn [negb].
  destruct (Z.eqb_spec s t) as [E|E].
  - subst t. assert (W : (((y * zc') mod n + (y' * zc) mod n) mod n =? 0) = false).
    { apply (mulmod0 n). rewrite V. repeat apply (mnz 3 q n Good); try assumption.
      replace (z s + z s)%f with ((1f + 1f) * z s)%f by ring. apply (mnz 3 q n Good); [exact T2|].
      destruct (pm4 s HS) as [S1|S1]; rewrite S1; [exact F0|]. intro E. apply F0. transitivity (- - z 4)%f; [ring|]. rewrite E. ring. }
    rewrite W. cbn [negb]. exact D.
  - assert (W : (((y * zc') mod n + (y' * zc) mod n) mod n =? 0) = true).
    { apply (mulmod0t n). rewrite V. assert (TS : t = - s) by (clear - HS HT E; lia). rewrite TS, of_Z_opp. ring. }
    rewrite W. reflexivity.
Qed.

(** the multiple of the point by v *)
Definition st (v : Z) (j : jpt) : Prop :=
  if v mod 3 =? 0 then j = None else if v mod 3 =? 1 then jr j (T 4) else jr j (T (-4)).

Lemma st_cases : forall v j, st v j <-> (v mod 3 = 0 /\ j = None) \/ (v mod 3 = 1 /\ jr j (T 4)) \/ (v mod 3 = 2 /\ jr j (T (-4))).
Proof.
  intros v j. unfold st. pose proof (Z.mod_pos_bound v 3 ltac:(lia)).
  destruct (Z.eqb_spec (v mod 3) 0) as [E|E]; [|destruct (Z.eqb_spec (v mod 3) 1) as [F|F]]; intuition (try lia).
Qed.

Lemma st_dbl : forall v j, st v j -> st (2 * v) (doublef 3 q n j).
Proof.
  intros v j S1. apply st_cases in S1. apply st_cases.
  destruct S1 as [[E ->]|[[E J]|[E J]]].
  - left. split; [|reflexivity]. rewrite Z.mul_mod, E by lia. reflexivity.
  - right; right. split; [rewrite Z.mul_mod, E by lia; reflexivity|]. apply (dbl3 4); [left; reflexivity|exact J].
  - right; left. split; [rewrite Z.mul_mod, E by lia; reflexivity|]. apply (dbl3 (-4)); [right; reflexivity|exact J].
Qed.

Lemma st_add : forall v j k, st v j -> jr k (T 4) -> st (v + 1) (addf 3 q n j k).
Proof.
  intros v j k S1 K. apply st_cases in S1. apply st_cases. destruct S1 as [[E ->]|[[E J]|[E J]]].
  - right; left. split; [rewrite Z.add_mod, E by lia; reflexivity|exact K].
  - right; right. split; [rewrite Z.add_mod, E by lia; reflexivity|].
    pose proof (add3 4 4 j k (or_introl eq_refl) (or_introl eq_refl) J K) as A. exact A.
  - left. split; [rewrite Z.add_mod, E by lia; reflexivity|].
    pose proof (add3 (-4) 4 j k (or_intror eq_refl) (or_introl eq_refl) J K) as A. exact A.
Qed.

Lemma st_sub : forall v j k, st v j -> jr k (T (-4)) -> st (v + -1) (addf 3 q n j k).
Proof.
  intros v j k S1 K. apply st_cases in S1. apply st_cases. destruct S1 as [[E ->]|[[E J]|[E J]]].
  - right; right. split; [rewrite Z.add_mod, E by lia; reflexivity|exact K].
  - left. split; [rewrite Z.add_mod, E by lia; reflexivity|].
    pose proof (add3 4 (-4) j k (or_introl eq_refl) (or_intror eq_refl) J K) as A. exact A.
  - right; left. split; [rewrite Z.add_mod, E by lia; reflexivity|].
    pose proof (add3 (-4) (-4) j k (or_intror eq_refl) (or_intror eq_refl) J K) as A. exact A.
Qed.

Lemma st_fold : forall j, jr j (T 4) -> forall l r v, Forall (fun d => d = -1 \/ d = 0 \/ d = 1) l -> st v r ->
  st (fold_left (fun v d => 2 * v + d) l v) (fold_left (mulf_step 3 q n j (negj j n)) l r).
Proof.
  intros j J. induction l as [|d l IH]; intros r v D S1; [exact S1|].
  inversion_clear D as [|? ? Dd Dl]. cbn [fold_left]. apply IH; [exact Dl|]. pose proof (st_dbl _ _ S1) as S2.
  unfold mulf_step. destruct Dd as [->|[->| ->]]; cbn [Z.eqb negb Z.ltb Z.compare].
  - apply st_sub; [exact S2|]. pose proof (jrep_neg 3 q n Good _ _ J) as N. unfold GP in *.
    unfold gneg, pneg in N. rewrite <- of_Z_opp in N. exact N.
  - rewrite Z.add_0_r. exact S2.
  - apply st_add; [exact S2|exact J].
Qed.

Lemma mulp3 : forall d, 0 <= d -> match mulp 3 q n (Some (3, 4)) d with
  | None => d mod 3 = 0 | Some (x, _) => d mod 3 <> 0 /\ x = 3 end.
Proof.
  intros d Hd. unfold mulp, mulf. destruct (signed_bin_ok d) as (_ & V & D).
  assert (J : jr (to_projective (Some (3, 4))) (T 4)) by exact (jrep_to 3 q n Good (Some (3, 4))).
  pose proof (st_fold _ J _ None 0 (D Hd) eq_refl) as S1. unfold sb_value in V. rewrite V in S1.
  clear V. set (j := fold_left _ _ _) in *. apply st_cases in S1. destruct S1 as [[E ->]|S1]; [exact E|].
  assert (S2 : d mod 3 <> 0 /\ exists s, jr j (T s)) by (destruct S1 as [[E J']|[E J']]; (split; [lia|eexists; exact J'])).
  destruct S2 as [E [s J']]. pose proof (from_jrep 3 q n Good _ _ J') as F. pose proof (from_range 3 q n Good j) as R.
  destruct (from_projective j n) as [[x y]|]; [|discriminate F]. split; [exact E|].
  cbn [den] in F. unfold GP in F. injection F as F _. pose proof (n3 3 q n Good).
  rewrite !Z.mod_small in F by lia. exact F.
Qed.
End Three.

Lemma nist_a : forall name c, by_name name = Ok c -> c_a c = 3 /\ element (Some (3, 4)) (c_a c) (c_b c) (c_p c) = false.
Proof.
  intros name c H. unfold by_name in H.
  destruct (zs_eqb name _); [|destruct (zs_eqb name _); [|destruct (zs_eqb name _); [|discriminate H]]];
    rewrite ?P521_eq, ?P384_eq, ?P256_eq in H; injection H as <-; vm_compute; split; reflexivity.
Qed.

Lemma dh_three : forall name c, by_name name = Ok c -> forall d, 0 <= d ->
  element (Some (3, 4)) (c_a c) (c_b c) (c_p c) = false /\
  dh_z c d (Some (3, 4)) = if d mod 3 =? 0 then Raise ETypeError else Ok (int2bytes c 3).
Proof.
  intros name c H d Hd. destruct (nist_a name c H) as [A E]. split; [exact E|].
  pose proof (sc_good c (by_name_sound name c H)) as G. unfold dh_z. rewrite A in *.
  pose proof (mulp3 (c_b c) (c_p c) G d Hd) as M.
  destruct (mulp 3 (c_b c) (c_p c) (Some (3, 4)) d) as [[x y]|].
  - destruct M as [M ->]. destruct (Z.eqb_spec (d mod 3) 0); [contradiction|reflexivity].
  - rewrite M. reflexivity.
Qed.

(** The curve through (1, 7). *)
From Verif Require Import PockCheck.
Lemma curve51_good : good_curve (c_p P256) (- c_a P256) 51.
Proof. destruct (sc_good P256 P256_sound) as (A & B & _). split; [exact A|]. split; [exact B|]. intro X. vm_compute in X. discriminate X. Qed.
Lemma curve51_no2 : no_two_torsion (c_p P256) (- c_a P256) 51.
Proof.
  apply check_noroot_curve with (t := (88283091077350229590175008175908905229615288464623402187285512282702021411645, 8159396351750170783047220944066840953409997783980796110043378717567454334722, 110909553018066182276982676730226889231095185483421878405115108405526311878282));
    [vm_compute; reflexivity|apply (sc_good P256 P256_sound)].
Qed.
