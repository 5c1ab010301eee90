(** * Properties C266 and later *)
From Coq Require Import ZArith List Bool Lia Znumtheory.
From Verif Require Import Base Zp EcGroup EcSpec Elliptic EcArith EcProofs Ecc EccProofs EcAux Nist TwoTors TwoTors2 TwoTors3.
Import ListNotations.
Open Scope Z_scope.

(** ** C266: the points mulp multiplies correctly *)
Theorem C266_exactly : forall p q n, good_curve n (- p) (- q) -> forall P, element P p q n = true ->
  ((forall c, 0 <= c -> same_point n (mulp p q n P c) (Nat.iter (Z.to_nat c) (add p q n P) None)) <->
   (forall m, Nat.iter (2 * m) (add p q n P) None = None -> Nat.iter m (add p q n P) None = None)).
Proof. exact mulp_exactly. Qed.
Print Assumptions C266_exactly.
Theorem C266_below : forall p q n, good_curve n (- p) (- q) -> forall P c, element P p q n = true -> 0 <= c ->
  (forall m, 0 < Z.of_nat m < c -> Nat.iter (2 * m) (add p q n P) None = None -> Nat.iter m (add p q n P) None = None) ->
  same_point n (mulp p q n P c) (Nat.iter (Z.to_nat c) (add p q n P) None).
Proof. exact mulp_below. Qed.
Print Assumptions C266_below.
Theorem C266_first : forall p q n, good_curve n (- p) (- q) -> forall P m, element P p q n = true ->
  (forall k, (k < m)%nat -> Nat.iter (2 * k) (add p q n P) None = None -> Nat.iter k (add p q n P) None = None) ->
  Nat.iter (2 * m) (add p q n P) None = None -> Nat.iter m (add p q n P) None <> None -> mulp p q n P (2 * Z.of_nat m) = Some (0, 0).
Proof. exact mulp_first. Qed.
Print Assumptions C266_first.
(** The shared secret with a point that need not be on the curve: as C213, without its condition on the curve through the point. *)
Theorem C266_shared : forall c x y d, 0 <= d -> let b := y * y - x * x * x - (- c_a c) * x in good_curve (c_p c) (- c_a c) b ->
  let P := GP (c_p c) x y in
  (forall m, 0 < m < d -> gmul (c_p c) (- c_a c) (2 * m) P = GO (c_p c) -> gmul (c_p c) (- c_a c) m P = GO (c_p c)) ->
  (exists u v, 0 <= u < c_p c /\ 0 <= v < c_p c /\ GP (c_p c) u v = gmul (c_p c) (- c_a c) d P /\ dh_z c d (Some (x, y)) = Ok (int2bytes c u)) \/
  (gmul (c_p c) (- c_a c) d P = GO (c_p c) /\ dh_z c d (Some (x, y)) = Raise ETypeError).
Proof.
  intros c x y d Hd b G P F. rewrite <- (Z.opp_involutive b) in G.
  assert (EL : element (Some (x, y)) (c_a c) (- b) (c_p c) = true). { cbn [element]. apply Z.eqb_eq. unfold b. f_equal. ring. }
  pose proof (mulp_free (c_a c) (- b) (c_p c) G (Some (x, y)) d EL Hd F) as E. pose proof (mulp_range (c_a c) (- b) (c_p c) G (Some (x, y)) d) as R.
  change (mulp (c_a c) (- b) (c_p c) (Some (x, y)) d) with (mulp (c_a c) (c_b c) (c_p c) (Some (x, y)) d) in E, R.
  unfold dh_z. destruct (mulp (c_a c) (c_b c) (c_p c) (Some (x, y)) d) as [[u v]|].
  - left. exists u, v. repeat split; try apply R. exact E.
  - right. split; [symmetry; exact E|reflexivity].
Qed.
Print Assumptions C266_shared.
(** y^2 = x^3 - 3x - 4 over Z/23 has 18 points: (18, 1) has order three, (4, 5) order six. *)
Lemma times_cycle : forall p q n P k m, Nat.iter k (add p q n P) None = None -> Nat.iter (m + k) (add p q n P) None = Nat.iter m (add p q n P) None.
Proof. intros p q n P k m H. induction m as [|m IH]; [exact H|]. exact (f_equal (add p q n P) IH). Qed.
Lemma order_three : forall m, Nat.iter (2 * m) (add 3 4 23 (Some (18, 1))) None = None -> Nat.iter m (add 3 4 23 (Some (18, 1))) None = None.
Proof.
  assert (H3 : forall i k, Nat.iter (i + 3 * k) (add 3 4 23 (Some (18, 1))) None = Nat.iter i (add 3 4 23 (Some (18, 1))) None).
  { intros i k. induction k as [|k IH]; [rewrite Nat.mul_0_r, Nat.add_0_r; reflexivity|]. replace (i + 3 * S k)%nat with ((i + 3 * k) + 3)%nat by lia. rewrite times_cycle; [exact IH|vm_compute; reflexivity]. }
  intro m. pose proof (Nat.div_mod_eq m 3) as E. pose proof (Nat.mod_upper_bound m 3 ltac:(lia)) as B. set (d := (m / 3)%nat) in *. set (i := (m mod 3)%nat) in *. rewrite E.
  replace (2 * (3 * d + i))%nat with (2 * i + 3 * (2 * d))%nat by lia. rewrite H3. replace (3 * d + i)%nat with (i + 3 * d)%nat by lia. rewrite H3.
  destruct i as [|[|[|i]]]; [reflexivity| | |lia]; intro X; vm_compute in X; discriminate X.
Qed.
Example C266_ex : good_curve 23 (- 3) (- 4) /\ element (Some (18, 1)) 3 4 23 = true /\ mulp 3 4 23 (Some (18, 1)) 100 = Some (18, 1) /\ mulp 3 4 23 (Some (18, 1)) 300 = None /\
  element (Some (4, 5)) 3 4 23 = true /\ Nat.iter 3 (add 3 4 23 (Some (4, 5))) None = Some (10, 23) /\ Nat.iter 6 (add 3 4 23 (Some (4, 5))) None = None /\
  mulp 3 4 23 (Some (4, 5)) 5 = Some (4, 18) /\ mulp 3 4 23 (Some (4, 5)) 6 = Some (0, 0) /\ same_point 23 (mulp 3 4 23 (Some (18, 1)) (10 ^ 30)) (Nat.iter 1 (add 3 4 23 (Some (18, 1))) None).
Proof. split; [exact toy_good|]. vm_compute. repeat split. Qed.

(** ** C267: the key agreement and the comparison in the main program of elliptic.py *)
Theorem C267_agree_partial : forall n p x y r1 r2, let q := curve_q x y p n in good_curve n (- p) (- q) ->
  (forall m, Nat.iter (2 * m) (add p q n (Some (x, y))) None = None -> Nat.iter m (add p q n (Some (x, y))) None = None) -> 0 <= r1 -> 0 <= r2 ->
  fst (main_agree n p x y r1 r2) = snd (main_agree n p x y r1 r2) /\
  same_point n (fst (main_agree n p x y r1 r2)) (Nat.iter (Z.to_nat (r1 * r2)) (add p q n (Some (x, y))) None).
Proof.
  intros n p x y r1 r2 q G O R1 R2. assert (N : 0 < n) by (destruct G as (_ & L & _); lia).
  assert (E : element (Some (x, y)) p q n = true). { unfold element, q, curve_q. apply Z.eqb_eq. rewrite Zminus_mod_idemp_r. f_equal. ring. }
  exact (agree_odd p q n G (Some (x, y)) r1 r2 E O R1 R2).
Qed.
Print Assumptions C267_agree_partial.
(** Draws of the program: a prime of 32 bits, all other numbers between 1 and it. *)
Theorem C267_agree_refuted : exists n p x y r1 r2, prime n /\ 2 ^ 31 <= n < 2 ^ 32 /\ (forall z, In z [p; x; y; r1; r2] -> 1 <= z <= n) /\
  good_curve n (- p) (- curve_q x y p n) /\ main_agree n p x y r1 r2 = (Some (0, 0), None).
Proof.
  exists six_n, 1431655765, 1431655763, 4294967290, 3, 2. split; [exact six_prime|]. split; [vm_compute; split; [discriminate|reflexivity]|].
  split; [intros z I; unfold six_n; cbn [In] in I; lia|]. split; [exact six_good|exact six_main].
Qed.
Print Assumptions C267_agree_refuted.
Theorem C267_two_ways_partial : forall p q n, good_curve n (- p) (- q) -> no_two_torsion n (- p) (- q) -> forall P Q i j, element P p q n = true -> element Q p q n = true -> 0 <= i -> 0 <= j ->
  main_fast p q n P Q i j = Ok (main_slow p q n P Q i j).
Proof. exact two_ways. Qed.
Print Assumptions C267_two_ways_partial.
(** C77 on curves with points of order two: both points are annihilated by an odd number. *)
Theorem C77_odd_order : forall p q n, good_curve n (- p) (- q) -> forall P Q c1 c2 k1 k2, element P p q n = true -> element Q p q n = true ->
  Nat.odd k1 = true -> Nat.iter k1 (add p q n P) None = None -> Nat.odd k2 = true -> Nat.iter k2 (add p q n Q) None = None -> 0 <= c1 -> 0 <= c2 ->
  exists R, muladdp p q n P c1 Q c2 = Ok R /\ same_point n R (add p q n (Nat.iter (Z.to_nat c1) (add p q n P) None) (Nat.iter (Z.to_nat c2) (add p q n Q) None)).
Proof. intros p q n G P Q c1 c2 k1 k2 EP EQ O1 T1 O2 T2 H1 H2. apply (muladdp_odd p q n G P Q c1 c2 k1 k2); assumption. Qed.
Print Assumptions C77_odd_order.
Example C77_odd_ex : element (Some (18, 1)) 3 4 23 = true /\ element (Some (9, 10)) 3 4 23 = true /\ Nat.iter 3 (add 3 4 23 (Some (18, 1))) None = None /\ Nat.iter 9 (add 3 4 23 (Some (12, 3))) None = None /\
  muladdp 3 4 23 (Some (18, 1)) 5 (Some (12, 3)) 7 = Ok (add 3 4 23 (mul 3 4 23 (Some (18, 1)) 5) (mul 3 4 23 (Some (12, 3)) 7)).
Proof. vm_compute. repeat split. Qed.
Theorem C267_two_ways_odd : forall p q n, good_curve n (- p) (- q) -> forall P Q i j k1 k2, element P p q n = true -> element Q p q n = true ->
  Nat.odd k1 = true -> Nat.iter k1 (add p q n P) None = None -> Nat.odd k2 = true -> Nat.iter k2 (add p q n Q) None = None -> 0 <= i -> 0 <= j ->
  main_fast p q n P Q i j = Ok (main_slow p q n P Q i j).
Proof. intros p q n G P Q i j k1 k2 EP EQ O1 T1 O2 T2 H1 H2. apply (muladdp_odd p q n G P Q i j k1 k2); assumption. Qed.
Print Assumptions C267_two_ways_odd.
Theorem C267_two_ways_refuted : exists n p x y c i j, prime n /\ 2 ^ 31 <= n < 2 ^ 32 /\ (forall z, In z [p; x; y; c; i; j] -> 1 <= z <= n) /\ let q := curve_q x y p n in
  good_curve n (- p) (- q) /\ let p1 := Some (x, y) in let p2 := mulp p q n p1 c in main_fast p q n p1 p2 i j <> Ok (main_slow p q n p1 p2 i j).
Proof.
  exists six_n, 1431655765, 1431655763, 4294967290, 2, 2, 2. split; [exact six_prime|]. split; [vm_compute; split; [discriminate|reflexivity]|].
  split; [intros z I; unfold six_n; cbn [In] in I; lia|]. split; [exact six_good|]. cbv zeta. vm_compute. discriminate.
Qed.
Print Assumptions C267_two_ways_refuted.
Example C267_ex : main_agree 11 3 2 1 4 6 = (mulp 3 1 11 (Some (2, 1)) 24, mulp 3 1 11 (Some (2, 1)) 24) /\ curve_q 2 1 3 11 = 1 /\ good_curve 11 (- 3) (- 1) /\ no_two_torsion 11 (- 3) (- 1) /\
  main_fast 3 1 11 (Some (2, 1)) (Some (8, 6)) 4 6 = Ok (main_slow 3 1 11 (Some (2, 1)) (Some (8, 6)) 4 6) /\ curve_q 18 1 3 23 = 4 /\ main_agree 23 3 18 1 7 8 = (Some (18, 22), Some (18, 22)).
Proof. split; [vm_compute; reflexivity|]. split; [reflexivity|]. split; [exact toy2_good|]. split; [exact toy2_no2|]. vm_compute. repeat split. Qed.

(** ** C268: the shared secret with a point of order two, on the curve or not *)
Theorem C268_secret : forall name c, by_name name = Ok c -> forall x d l, (3 * x * x - c_a c) mod c_p c <> 0 -> 0 <= d ->
  Forall (fun e => e = -1 \/ e = 0 \/ e = 1) l -> (forall l1 a b l2, l = l1 ++ a :: b :: l2 -> a = 0 \/ b = 0) -> fold_left (fun v e => 2 * v + e) l 0 = d ->
  let w := length (filter (fun e => negb (e =? 0)) l) in
  dh_z c d (Some (x, 0)) = if (w mod 3 =? 0)%nat then Raise ETypeError else Ok (int2bytes c (if (w mod 3 =? 1)%nat && Z.odd d then x mod c_p c else 0)).
Proof. intros name c H x d l S0. apply dh_two; [|exact S0]. destruct (sc_good c (by_name_sound name c H)) as (P & _). exact P. Qed.
Print Assumptions C268_secret.
(** Every private value has such a form, so the secret is one of two values. *)
Theorem C268_two_secrets : forall name c, by_name name = Ok c -> forall x d s, (3 * x * x - c_a c) mod c_p c <> 0 -> 0 <= d -> dh_z c d (Some (x, 0)) = Ok s ->
  s = int2bytes c 0 \/ (Z.odd d = true /\ s = int2bytes c (x mod c_p c)).
Proof.
  intros name c H x d s S0 Hd E. destruct (signed_bin_ok d) as (T & V & D). specialize (D Hd).
  assert (SP : forall l1 a b l2, signed_bin d = l1 ++ a :: b :: l2 -> a = 0 \/ b = 0). { intros l1 a b l2 X. pose proof (EcNaf.signed_bin_sparse d Hd T) as Q. rewrite X in Q. exact (EcNaf.sparse_app _ _ _ _ Q). }
  rewrite (C268_secret name c H x d (signed_bin d) S0 Hd D SP V) in E. destruct (_ =? 0)%nat in E; [discriminate E|]. injection E as <-.
  destruct ((_ =? 1)%nat && Z.odd d) eqn:X; [|left; reflexivity]. right. apply andb_prop in X. split; [apply X|reflexivity].
Qed.
Print Assumptions C268_two_secrets.
(** (2, 0) is on none of the curves; 1 = 1, 4 = 100, 5 = 101, 21 = 10101, 85 = 1010101 and 341 = 101010101 in binary. *)
Example C268_ex : element (Some (2, 0)) (c_a P256) (c_b P256) (c_p P256) = false /\ (3 * 2 * 2 - c_a P256) mod c_p P256 <> 0 /\ dh_z P256 1 (Some (2, 0)) = Ok (z2be 32 2) /\ dh_z P256 4 (Some (2, 0)) = Ok (repeat 0 32) /\
  dh_z P256 5 (Some (2, 0)) = Ok (repeat 0 32) /\ dh_z P256 21 (Some (2, 0)) = Raise ETypeError /\ dh_z P256 85 (Some (2, 0)) = Ok (z2be 32 2) /\ dh_z P256 170 (Some (2, 0)) = Ok (repeat 0 32) /\ dh_z P256 341 (Some (2, 0)) = Ok (repeat 0 32).
Proof. split; [vm_compute; reflexivity|]. split; [intro X; vm_compute in X; discriminate X|]. vm_compute. repeat split. Qed.
