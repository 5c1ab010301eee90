(** * How much an ECDSA signature, a public key and a shared secret determine *)
From Coq Require Import ZArith List Bool Lia Znumtheory ZifyBool.
From Verif Require Import Base BaseProofs Zp EcGroup EcSpec Elliptic EcArith EcProofs Ecc EccProofs Nist EcAux.
Import ListNotations.
Open Scope Z_scope.

(** ** At most two points have a given x coordinate *)
Lemma filter_split : forall (A : Type) (f : A -> bool) l, length l = (length (filter f l) + length (filter (fun x => negb (f x)) l))%nat.
Proof. induction l as [|x l IH]; [reflexivity|]. cbn [filter length]. destruct (f x); cbn [negb length]; lia. Qed.
Lemma choose_list : forall (T K : Type) (key : T -> K) (good : T -> Z * Z -> Prop) l, NoDup (map key l) -> (forall t, In t l -> exists q, good t q) ->
  (forall t t' q, In t l -> In t' l -> good t q -> good t' q -> key t = key t') ->
  exists ql, length ql = length l /\ NoDup ql /\ forall q, In q ql -> exists t, In t l /\ good t q.
Proof.
  intros T K key good l. induction l as [|t l IH]; intros N E U; [exists []; split; [reflexivity|split; [constructor|intros q []]]|].
  cbn [map] in N. inversion N as [|? ? NI N']; subst. destruct IH as (ql & L & D & G); [exact N'|intros t' I; apply E; right; exact I|intros t1 t2 q I1 I2; apply U; right; assumption|].
  destruct (E t (or_introl eq_refl)) as (q & Gq). exists (q :: ql). split; [cbn [length]; lia|]. split.
  - constructor; [|exact D]. intro I. destruct (G q I) as (t' & I' & G'). apply NI. rewrite (U t t' q (or_introl eq_refl) (or_intror I') Gq G'). apply in_map. exact I'.
  - intros q' [<-|I]; [exists t; split; [left; reflexivity|exact Gq]|]. destruct (G q' I) as (t' & I' & G'). exists t'. split; [right; exact I'|exact G'].
Qed.

Section Points.
Variables p a b : Z.
Hypothesis Pr : prime p.
Definition cpoint (q : Z * Z) : Prop := 0 <= fst q < p /\ 0 <= snd q < p /\ (snd q * snd q) mod p = (fst q * fst q * fst q + a * fst q + b) mod p.
Lemma y_pm : forall q q', cpoint q -> cpoint q' -> fst q = fst q' -> q = q' \/ snd q + snd q' = p.
Proof.
  intros [x y] [x' y'] (X & Y & E) (X' & Y' & E') F. cbn [fst snd] in *. subst x'. rewrite <- E' in E.
  assert (D : (p | (y - y') * (y + y'))).
  { apply Z.mod_divide; [lia|]. replace ((y - y') * (y + y')) with (y * y - y' * y') by ring. rewrite Zminus_mod, E, Z.sub_diag. reflexivity. }
  apply prime_mult in D; [|exact Pr]. destruct D as [[k D]|[k D]].
  - left. f_equal. assert (k = 0) as -> by nia. lia.
  - assert (k = 0 \/ k = 1) as [-> | ->] by nia; [left; f_equal; lia|right; lia].
Qed.
Lemma two_points : forall l x, NoDup l -> (forall q, In q l -> cpoint q /\ fst q = x) -> (length l <= 2)%nat.
Proof.
  intros [|q1 [|q2 [|q3 l]]] x N H; cbn [length]; try lia. exfalso.
  destruct (H q1) as [C1 X1]; [left; reflexivity|]. destruct (H q2) as [C2 X2]; [right; left; reflexivity|]. destruct (H q3) as [C3 X3]; [right; right; left; reflexivity|].
  inversion N as [|? ? N1 N']; subst. inversion N' as [|? ? N2 _]; subst.
  destruct (y_pm q1 q2 C1 C2 ltac:(congruence)) as [E|E12]; [apply N1; left; congruence|].
  destruct (y_pm q1 q3 C1 C3 ltac:(congruence)) as [E|E13]; [apply N1; right; left; congruence|].
  apply N2. left. destruct q2, q3; cbn [fst snd] in *. f_equal; [congruence|lia].
Qed.
Lemma four_points : forall l x x', NoDup l -> (forall q, In q l -> cpoint q /\ (fst q = x \/ fst q = x')) -> (length l <= 4)%nat.
Proof.
  intros l x x' N H. rewrite (filter_split _ (fun q => fst q =? x) l).
  assert (A : (length (filter (fun q => (fst q =? x)%Z) l) <= 2)%nat).
  { apply (two_points _ x); [apply NoDup_filter; exact N|]. intros q I. apply filter_In in I. destruct I as [I E]. split; [apply (H q I)|lia]. }
  assert (B : (length (filter (fun q => negb (fst q =? x)%Z) l) <= 2)%nat).
  { apply (two_points _ x'); [apply NoDup_filter; exact N|]. intros q I. apply filter_In in I. destruct I as [I E]. destruct (H q I) as [C D]. split; [exact C|lia]. }
  lia.
Qed.
End Points.

Section Sound.
Variable c : curve.
Hypothesis SC : sound_curve c.
Local Notation p := (c_p c). Local Notation N := (c_N c).
Local Notation Gd := (den p (Some (c_G c))).
Local Notation on := (on_curve p (- c_a c) (- c_b c)).
Local Notation "P ⊕ Q" := (gadd p (- c_a c) P Q) (at level 50, left associativity).
Local Notation "k · P" := (gmul p (- c_a c) k P) (at level 40).
Local Notation GOOD := (sc_good c SC).

Lemma mul_inj : forall k l, k · Gd = l · Gd -> (N | k - l).
Proof.
  intros k l H. apply (order_divides c SC). replace (k - l) with (k + - l) by ring.
  rewrite (g_mul_add _ _ _ GOOD) by apply (G_on c SC). rewrite H, (g_mul_opp _ _ _ GOOD). apply (g_neg_r _ _ _ GOOD).
Qed.
Lemma cancel : forall P P' Q, on P -> on P' -> on Q -> P ⊕ Q = P' ⊕ Q -> P = P'.
Proof.
  intros P P' Q C C' CQ H. rewrite <- (g_O_r (c_a c) p P), <- (g_O_r (c_a c) p P'). rewrite <- (g_neg_r _ _ _ GOOD Q).
  rewrite <- !(g_assoc _ _ _ GOOD) by (try assumption; apply (g_neg_on _ _ _ GOOD); assumption). rewrite H. reflexivity.
Qed.
Lemma cancel_l : forall P P' Q, on P -> on P' -> on Q -> Q ⊕ P = Q ⊕ P' -> P = P'.
Proof. intros P P' Q C C' CQ H. rewrite (g_comm _ _ _ GOOD Q P CQ C), (g_comm _ _ _ GOOD Q P' CQ C') in H. exact (cancel P P' Q C C' CQ H). Qed.
Lemma small_eq : forall u v, 0 <= u < N -> 0 <= v < N -> (N | u - v) -> u = v.
Proof. intros u v U V [k D]. assert (k = 0) as -> by nia. lia. Qed.
Lemma div_small : forall u, (N | u) -> u mod N = 0.
Proof. intros u D. apply Z.mod_divide; [pose proof (sc_N c SC); lia|exact D]. Qed.
Lemma div_eq_mod : forall u v, (N | u - v) -> u mod N = v mod N.
Proof. intros u v [k D]. replace u with (v + k * N) by lia. apply Z_mod_plus_full. Qed.
Lemma mod_div_eq : forall u v, u mod N = v mod N -> (N | u - v).
Proof. intros u v E. apply Z.mod_divide; [pose proof (sc_N c SC); lia|]. rewrite Zminus_mod, E, Z.sub_diag. reflexivity. Qed.
Lemma div_factor : forall u v, (N | u * v) -> ~ (N | v) -> (N | u).
Proof. intros u v D ND. apply prime_mult in D; [|apply (sc_prime c SC)]. tauto. Qed.
Lemma inv_not_div : forall s, 0 < s < N -> ~ (N | inv s N).
Proof.
  intros s S D. pose proof (inv_N c SC s (not_div c s S)) as E. pose proof (sc_N c SC).
  rewrite (div_small (inv s N * s)) in E; [discriminate|]. apply Z.divide_mul_l. exact D.
Qed.

(** the coordinates of an accepted signature's point *)
Definition accepted_at (r : Z) (R : gpt p) (q : Z * Z) : Prop :=
  GP p (fst q) (snd q) = R /\ cpoint p (- c_a c) (- c_b c) q /\ fst q mod N = r.
Lemma on_cpoint : forall x y, 0 <= x < p -> 0 <= y < p -> on (GP p x y) -> cpoint p (- c_a c) (- c_b c) (x, y).
Proof.
  intros x y X Y C. unfold cpoint. cbn [fst snd]. split; [exact X|]. split; [exact Y|].
  unfold on_curve, GP in C. cbn [oncurve] in C. rewrite <- !of_Z_mul, <- !of_Z_add in C. apply of_Z_eq in C. rewrite C. f_equal; ring.
Qed.
Lemma accepted_point : forall h sg pub, 0 <= h -> bytes_ok sg = true -> on (den p pub) -> verify c h sg pub = Ok true ->
  let r := be2z (firstn (Z.to_nat (c_bytes c)) sg) in let s := be2z (skipn (Z.to_nat (c_bytes c)) sg) in
  0 < r < N /\ 0 < s < N /\ exists q, accepted_at r (((trunc h N * inv s N) mod N) · Gd ⊕ ((r * inv s N) mod N) · den p pub) q.
Proof.
  intros h sg pub Hh B C V r s. pose proof (verify_eq c SC h sg pub Hh B C) as E. cbv zeta in E. unfold bytes2int in E. fold r s in E. rewrite V in E.
  destruct E as [(R0 & S0 & x & y & X & Y & E & A)|[(_ & _ & _ & A)|(_ & A)]]; try discriminate A. split; [exact R0|]. split; [exact S0|]. exists (x, y). unfold accepted_at. cbn [fst snd].
  split; [symmetry; exact E|]. split; [|injection A as A; lia].
  apply on_cpoint; [exact X|exact Y|]. rewrite <- E. apply (g_add_on _ _ _ GOOD); apply (g_mul_on _ _ _ GOOD); [apply (G_on c SC)|exact C].
Qed.

Hypothesis Small : p < 2 * N.
(** A list whose members have different points, all accepted with the same r, is short. *)
Lemma few : forall (T K : Type) (key : T -> K) (R : T -> gpt p) r l, 0 < r < N -> NoDup (map key l) -> (forall t, In t l -> exists q, accepted_at r (R t) q) ->
  (forall t t', In t l -> In t' l -> R t = R t' -> key t = key t') -> (length l <= 4)%nat /\ (p <= r + N -> (length l <= 2)%nat).
Proof.
  intros T K key R r l Hr ND E U.
  destruct (choose_list T K key (fun t q => accepted_at r (R t) q) l ND E) as (ql & L & D & G).
  { intros t t' q I I' (A & _) (A' & _). apply U; [exact I|exact I'|congruence]. }
  assert (G' : forall q, In q ql -> cpoint p (- c_a c) (- c_b c) q /\ (fst q = r \/ fst q = r + N) /\ 0 <= fst q < p).
  { intros q I. destruct (G q I) as (t & _ & _ & C & M). split; [exact C|]. pose proof (proj1 C) as X. split; [|exact X].
    pose proof (Z.div_mod (fst q) N ltac:(lia)) as DM. rewrite M in DM. assert (fst q / N = 0 \/ fst q / N = 1) as [K0|K1] by (pose proof (Z.div_pos (fst q) N ltac:(lia) ltac:(lia)); nia); [left|right]; lia. }
  rewrite <- L. destruct GOOD as (Pr & _). split.
  - apply (four_points p (- c_a c) (- c_b c) Pr ql r (r + N)); [exact D|]. intros q I. destruct (G' q I) as (C & X & _). split; assumption.
  - intro Big. apply (two_points p (- c_a c) (- c_b c) Pr ql r); [exact D|]. intros q I. destruct (G' q I) as (C & X & Y). split; [exact C|lia].
Qed.

Theorem few_hashes : forall sg pub l, bytes_ok sg = true -> on (den p pub) -> NoDup (map (fun h => trunc h N mod N) l) ->
  (forall h, In h l -> 0 <= h /\ verify c h sg pub = Ok true) ->
  (length l <= 4)%nat /\ (p <= be2z (firstn (Z.to_nat (c_bytes c)) sg) + N -> (length l <= 2)%nat).
Proof.
  intros sg pub l B C ND A. destruct l as [|h0 l0] eqn:EL; [cbn [length]; split; intros; lia|]. rewrite <- EL in *.
  set (r := be2z (firstn (Z.to_nat (c_bytes c)) sg)). set (s := be2z (skipn (Z.to_nat (c_bytes c)) sg)).
  assert (RS : 0 < r < N /\ 0 < s < N). { destruct (A h0) as [H0 V0]; [rewrite EL; left; reflexivity|]. destruct (accepted_point h0 sg pub H0 B C V0) as (R0 & S0 & _). split; assumption. }
  destruct RS as [R0 S0].
  apply (few Z Z (fun h => trunc h N mod N) (fun h => ((trunc h N * inv s N) mod N) · Gd ⊕ ((r * inv s N) mod N) · den p pub) r l R0 ND).
  - intros h I. destruct (A h I) as [H0 V0]. destruct (accepted_point h sg pub H0 B C V0) as (_ & _ & Q). exact Q.
  - intros h h' _ _ E. apply cancel in E; [|apply (g_mul_on _ _ _ GOOD), (G_on c SC)|apply (g_mul_on _ _ _ GOOD), (G_on c SC)|apply (g_mul_on _ _ _ GOOD), C].
    rewrite !(mul_mod_N c SC) in E. apply mul_inj in E. rewrite <- Z.mul_sub_distr_r in E. apply div_eq_mod. exact (div_factor _ _ E (inv_not_div s S0)).
Qed.

Theorem few_keys : forall h sg l, 0 <= h -> bytes_ok sg = true -> NoDup l ->
  (forall d, In d l -> 0 < d < N /\ verify c h sg (public_key_for c d) = Ok true) ->
  (length l <= 4)%nat /\ (p <= be2z (firstn (Z.to_nat (c_bytes c)) sg) + N -> (length l <= 2)%nat).
Proof.
  intros h sg l Hh B ND A. destruct l as [|h0 l0] eqn:EL; [cbn [length]; split; intros; lia|]. rewrite <- EL in *.
  set (r := be2z (firstn (Z.to_nat (c_bytes c)) sg)). set (s := be2z (skipn (Z.to_nat (c_bytes c)) sg)).
  assert (RS : 0 < r < N /\ 0 < s < N). { destruct (A h0) as [D0 V0]; [rewrite EL; left; reflexivity|]. destruct (accepted_point h sg (public_key_for c h0) Hh B (pub_on c SC h0 ltac:(lia)) V0) as (R0 & S0 & _). split; assumption. }
  destruct RS as [R0 S0].
  apply (few Z Z (fun d => d) (fun d => ((trunc h N * inv s N) mod N) · Gd ⊕ ((r * inv s N) mod N) · den p (public_key_for c d)) r l R0).
  - rewrite map_id. exact ND.
  - intros d I. destruct (A d I) as [D0 V0]. destruct (accepted_point h sg (public_key_for c d) Hh B (pub_on c SC d ltac:(lia)) V0) as (_ & _ & Q). exact Q.
  - intros d d' I I' E. destruct (A d I) as [D0 _]. destruct (A d' I') as [D1 _].
    assert (CG : forall k, on (k · Gd)) by (intro k; apply (g_mul_on _ _ _ GOOD), (G_on c SC)).
    rewrite !(den_pub c SC) in E by lia. apply cancel_l in E; [|apply (g_mul_on _ _ _ GOOD), CG|apply (g_mul_on _ _ _ GOOD), CG|apply CG].
    rewrite <- !(g_mul_mul _ _ _ GOOD) in E by apply (G_on c SC). apply mul_inj in E. rewrite <- Z.mul_sub_distr_l, Z.mul_comm in E.
    apply small_eq; [lia|lia|]. apply (div_factor _ _ E). intro D. apply (Z.mod_divide _ N) in D; [|lia]. rewrite Zmod_mod in D.
    apply Z.mod_divide in D; [|lia]. apply (div_factor r (inv s N)) in D; [exact (not_div c r R0 D)|exact (inv_not_div s S0)].
Qed.

Theorem few_s : forall h d r l, 0 <= h -> 0 <= d -> 0 < r < N -> NoDup l ->
  (forall s, In s l -> 0 < s < N /\ verify c h (int2bytes c r ++ int2bytes c s) (public_key_for c d) = Ok true) ->
  (length l <= 4)%nat /\ (p <= r + N -> (length l <= 2)%nat).
Proof.
  intros h d r l Hh Hd R0 ND A.
  assert (BO : forall s, 0 < s < N -> bytes_ok (int2bytes c r ++ int2bytes c s) = true).
  { intros s S0. pose proof (sc_Nsize c SC). rewrite bytes_ok_app, !(int2bytes_fixed c SC) by lia. rewrite !z2be_ok. reflexivity. }
  assert (Q : forall s, In s l -> exists q, accepted_at r (((trunc h N + r * d) * inv s N) · Gd) q).
  { intros s I. destruct (A s I) as [S0 V]. destruct (accepted_point h _ _ Hh (BO s S0) (pub_on c SC d Hd) V) as (_ & _ & Q).
    destruct (sig_parts c SC r s R0 S0) as [P1 P2]. unfold bytes2int in P1, P2. rewrite P1, P2 in Q. destruct Q as (q & E & C). exists q. split; [|exact C]. rewrite E.
    rewrite (den_pub c SC) by exact Hd. rewrite <- (g_mul_mul _ _ _ GOOD), <- (g_mul_add _ _ _ GOOD) by apply (G_on c SC).
    apply (mul_cong c SC). rewrite Zplus_mod, Zmod_mod, Zmult_mod_idemp_l, <- Zplus_mod. f_equal. ring. }
  apply (few Z Z (fun s => s) (fun s => ((trunc h N + r * d) * inv s N) · Gd) r l R0); [rewrite map_id; exact ND|exact Q|].
  intros s s' I I' E. destruct (A s I) as [S0 _]. destruct (A s' I') as [S1 _].
  assert (NZ : ~ (N | trunc h N + r * d)).
  { intro D. destruct (Q s I) as (q & E' & _). assert (O : ((trunc h N + r * d) * inv s N) · Gd = GO p) by (apply (order_iff c SC); apply Z.divide_mul_l; exact D). rewrite O in E'. discriminate E'. }
  apply mul_inj in E. rewrite <- Z.mul_sub_distr_l, Z.mul_comm in E. apply (div_factor _ _) in E; [|exact NZ].
  apply small_eq; [lia|lia|]. apply mod_div_eq.
  pose proof (inv_N c SC s (not_div c s S0)) as I1. pose proof (inv_N c SC s' (not_div c s' S1)) as I2. apply div_eq_mod in E.
  (* s = s * (w' s') = s * (w s') = s' *)
  transitivity ((s * (inv s' N * s')) mod N); [rewrite <- Zmult_mod_idemp_r, I2, Z.mul_1_r; reflexivity|].
  transitivity ((s * s' * inv s' N) mod N); [f_equal; ring|]. rewrite <- Zmult_mod_idemp_r, <- E, Zmult_mod_idemp_r.
  transitivity ((s' * (inv s N * s)) mod N); [f_equal; ring|]. rewrite <- Zmult_mod_idemp_r, I1, Z.mul_1_r. reflexivity.
Qed.
(** For most r, (r, s) and (r, N - s) are all. *)
Theorem only_opposite : forall h d r s s', 0 <= h -> 0 <= d -> 0 < r < N -> 0 < s < N -> 0 < s' < N -> p <= r + N ->
  verify c h (int2bytes c r ++ int2bytes c s) (public_key_for c d) = Ok true ->
  (verify c h (int2bytes c r ++ int2bytes c s') (public_key_for c d) = Ok true <-> s' = s \/ s' = N - s).
Proof.
  intros h d r s s' Hh Hd R0 S0 S1 Big V.
  assert (V2 : verify c h (int2bytes c r ++ int2bytes c (N - s)) (public_key_for c d) = Ok true).
  { apply (malleable c SC); try assumption; [apply (pub_on c SC d Hd)|]. rewrite (den_pub c SC) by exact Hd. rewrite <- (g_mul_mul _ _ _ GOOD) by apply (G_on c SC). apply (order_iff c SC). apply Z.divide_factor_l. }
  split; [|intros [-> | ->]; assumption]. intro V'.
  destruct (Z.eq_dec s' s) as [|N1]; [left; assumption|]. destruct (Z.eq_dec s' (N - s)) as [|N2]; [right; assumption|]. exfalso.
  assert (Odd : s <> N - s).
  { intro E. pose proof (sc_prime c SC) as Pr. pose proof (sc_N c SC). destruct (prime_divisors N Pr 2) as [D|[D|[D|D]]]; [exists s; lia|lia|lia|lia|lia]. }
  destruct (few_s h d r [s'; s; N - s] Hh Hd R0) as [_ F].
  - constructor; [intros [E|[E|[]]]; congruence|]. constructor; [intros [E|[]]; congruence|]. constructor; [intros []|constructor].
  - intros t [<-|[<-|[<-|[]]]]; (split; [lia|assumption]).
  - specialize (F Big). cbn [length] in F. lia.
Qed.

(** ** Keys *)
Theorem public_determines : forall d d', 0 <= d < N -> 0 <= d' < N -> public_key_for c d = public_key_for c d' -> d = d'.
Proof.
  intros d d' D D' E. apply small_eq; [exact D|exact D'|]. apply mul_inj. rewrite <- !(den_pub c SC) by lia. rewrite E. reflexivity.
Qed.
Theorem secret_determines : forall a a' b, 0 < a < N -> 0 < a' < N -> 0 < b < N ->
  (dh_z c a (public_key_for c b) = dh_z c a' (public_key_for c b) <-> a' = a \/ a' = N - a).
Proof.
  intros a a' b Ha Ha' Hb.
  assert (M : forall u, 0 < u < N -> u · den p (public_key_for c b) = (u * b) · Gd).
  { intros u Hu. rewrite (den_pub c SC) by lia. rewrite (g_mul_mul _ _ _ GOOD) by apply (G_on c SC). reflexivity. }
  assert (NZ : forall u, 0 < u < N -> (u * b) · Gd <> GO p).
  { intros u Hu O. apply (order_divides c SC) in O. apply prime_mult in O; [|apply (sc_prime c SC)]. destruct O as [O|O]; revert O; apply (not_div c); assumption. }
  assert (S : forall u, 0 < u < N -> exists x y, 0 <= x < p /\ 0 <= y < p /\ GP p x y = (u * b) · Gd /\ cpoint p (- c_a c) (- c_b c) (x, y) /\ dh_z c u (public_key_for c b) = Ok (int2bytes c x)).
  { intros u Hu. destruct (dh_spec c SC u (public_key_for c b)) as [(x & y & X & Y & E & D)|[O _]]; [lia|apply (pub_on c SC); lia| |exfalso; apply (NZ u Hu); rewrite <- M by exact Hu; exact O].
    exists x, y. rewrite M in E by exact Hu. split; [exact X|]. split; [exact Y|]. split; [exact E|]. split; [|exact D]. apply on_cpoint; [exact X|exact Y|]. rewrite E. apply (g_mul_on _ _ _ GOOD), (G_on c SC). }
  destruct (S a Ha) as (x & y & X & Y & E & C & D). destruct (S a' Ha') as (x' & y' & X' & Y' & E' & C' & D'). rewrite D, D'. pose proof (sc_psize c SC).
  assert (ND : ~ (N | b)) by (apply (not_div c); exact Hb).
  split.
  - intro F. injection F as F. apply (int2bytes_inj c SC) in F; [|lia|lia]. subst x'.
    destruct GOOD as (Pr & _). destruct (y_pm p (- c_a c) (- c_b c) Pr (x, y) (x, y') C C' eq_refl) as [F|F].
    + left. injection F as <-. rewrite E in E'. apply mul_inj in E'. rewrite <- Z.mul_sub_distr_r in E'. apply small_eq; [lia|lia|].
      apply div_factor in E'; [|exact ND]. destruct E' as [k E']. exists (- k). lia.
    + right. cbn [snd] in F. assert (G : GP p x y' = gneg p (GP p x y)).
      { unfold GP, gneg. cbn [pneg]. f_equal. replace y' with (- y + 1 * p) by lia. rewrite <- of_Z_opp. apply of_Z_eq. apply Z_mod_plus_full. }
      rewrite E, E', <- (g_mul_opp _ _ _ GOOD) in G. apply mul_inj in G. replace (a' * b - - (a * b)) with ((a' + a) * b) in G by ring. apply div_factor in G; [|exact ND].
      destruct G as [k G]. assert (k = 1) by nia. lia.
  - intros [-> | ->]; [f_equal; congruence|]. f_equal.
    assert (G : GP p x' y' = gneg p (GP p x y)).
    { rewrite E, E', <- (g_mul_opp _ _ _ GOOD). apply (mul_cong c SC). replace ((N - a) * b) with (- (a * b) + b * N) by ring. apply Z_mod_plus_full. }
    unfold GP, gneg in G. cbn [pneg] in G. injection G as G _. rewrite !Z.mod_small in G by assumption. congruence.
Qed.

(** ** Nonces *)
(** what [sign] with a given nonce returns *)
Lemma sign_nonce : forall fuel h d k rnds sg, 0 <= k -> sign c fuel h d (Some k) rnds = Ok sg ->
  exists r s, sg = int2bytes c r ++ int2bytes c s /\ 0 < r < N /\ sig_eq c (trunc h N) d k r s.
Proof.
  intros fuel h d k rnds sg K H. unfold sign in H. destruct (sign_loop c fuel 0 0 (trunc h N) (Some k) d rnds 0) as [[r s]|] eqn:E; [|discriminate H].
  cbn in H. injection H as <-. apply (sign_loop_ok c SC) in E; [|intros k' E'; injection E' as <-; exact K|left; reflexivity].
  destruct E as (k' & [E|[E _]] & _ & S); [|discriminate E]. injection E as <-. exists r, s. split; [reflexivity|]. split; [|exact S].
  destruct S as (x & y & X & Y & P & R & R0 & _). pose proof (sc_N c SC). pose proof (Z.mod_pos_bound x N ltac:(lia)). lia.
Qed.
Theorem nonce_reveals : forall fuel h d k rnds sg, 0 < d < N -> 0 <= k -> sign c fuel h d (Some k) rnds = Ok sg ->
  let r := be2z (firstn (Z.to_nat (c_bytes c)) sg) in let s := be2z (skipn (Z.to_nat (c_bytes c)) sg) in
  d = ((s * k - trunc h N) * inv r N) mod N.
Proof.
  intros fuel h d k rnds sg D K H r s. destruct (sign_nonce fuel h d k rnds sg K H) as (r' & s' & -> & R0 & S).
  assert (S0 : 0 < s' < N) by (destruct S as (x & y & S); lia). destruct (sig_parts c SC r' s' R0 S0) as [P1 P2]. unfold bytes2int in P1, P2. subst r s. rewrite P1, P2.
  destruct S as (x & y & _ & _ & _ & _ & _ & E & _). pose proof (inv_N c SC r' (not_div c r' R0)) as I.
  symmetry. rewrite <- (Z.mod_small d N) at 1 by lia.
  transitivity ((r' * d * inv r' N) mod N).
  - rewrite <- Zmult_mod_idemp_l, Zminus_mod, E, <- Zminus_mod, Zmult_mod_idemp_l. f_equal. ring.
  - transitivity ((d * (inv r' N * r')) mod N); [f_equal; ring|]. rewrite <- Zmult_mod_idemp_r, I. f_equal. ring.
Qed.
Lemma r_length : forall r, 0 < r < N -> length (int2bytes c r) = Z.to_nat (c_bytes c).
Proof. intros r R. pose proof (sc_Nsize c SC). apply (int2bytes_length c SC); lia. Qed.
Theorem same_nonce_reveals : forall fuel fuel' h h' d k rnds rnds' sg sg', 0 < d < N -> 0 <= k ->
  sign c fuel h d (Some k) rnds = Ok sg -> sign c fuel' h' d (Some k) rnds' = Ok sg' -> trunc h N mod N <> trunc h' N mod N ->
  let r := be2z (firstn (Z.to_nat (c_bytes c)) sg) in let s := be2z (skipn (Z.to_nat (c_bytes c)) sg) in let s' := be2z (skipn (Z.to_nat (c_bytes c)) sg') in
  firstn (Z.to_nat (c_bytes c)) sg' = firstn (Z.to_nat (c_bytes c)) sg /\ s <> s' /\
  let k' := ((trunc h N - trunc h' N) * inv (s - s') N) mod N in d = ((s * k' - trunc h N) * inv r N) mod N.
Proof.
  intros fuel fuel' h h' d k rnds rnds' sg sg' D K H H' NE r s s'. pose proof (nonce_reveals fuel h d k rnds sg D K H) as ND. cbv zeta in ND. fold r s in ND.
  destruct (sign_nonce fuel h d k rnds sg K H) as (r1 & s1 & E1 & R1 & Q1). destruct (sign_nonce fuel' h' d k rnds' sg' K H') as (r2 & s2 & E2 & R2 & Q2).
  assert (S1 : 0 < s1 < N) by (destruct Q1 as (x & y & S); lia). assert (S2 : 0 < s2 < N) by (destruct Q2 as (x & y & S); lia).
  destruct Q1 as (x1 & y1 & X1 & Y1 & P1 & Er1 & _ & F1 & _). destruct Q2 as (x2 & y2 & X2 & Y2 & P2 & Er2 & _ & F2 & _).
  rewrite <- P2 in P1. apply den_inj in P1; try assumption. destruct P1 as [<- <-]. rewrite <- Er1 in Er2. subst r2.
  destruct (sig_parts c SC r1 s1 R1 S1) as [A1 B1]. destruct (sig_parts c SC r1 s2 R1 S2) as [A2 B2]. unfold bytes2int in A1, B1, A2, B2. rewrite <- E1 in A1, B1. rewrite <- E2 in A2, B2.
  change (r = r1) in A1. change (s = s1) in B1. change (s' = s2) in B2. clear A2. clearbody r s s'. subst r s s'.
  assert (NS : ~ (N | s1 - s2)).
  { intro DV. apply small_eq in DV; [|clear - S1; lia|clear - S2; lia]. rewrite <- DV, F1 in F2. apply NE. apply mod_div_eq in F2. apply div_eq_mod. destruct F2 as [m F2]. exists m. rewrite <- F2. ring. }
  split; [|split].
  - pose proof (r_length r1 R1) as L.
    rewrite E1, E2, <- L, !firstn_app, !firstn_all, Nat.sub_diag. reflexivity.
  - intro E. apply NS. rewrite E, Z.sub_diag. apply Z.divide_0_r.
  - cbv zeta. rewrite ND. apply div_eq_mod. rewrite <- Z.mul_sub_distr_r. apply Z.divide_mul_l. replace (s1 * k - trunc h N - (s1 * (((trunc h N - trunc h' N) * inv (s1 - s2) N) mod N) - trunc h N)) with (s1 * (k - ((trunc h N - trunc h' N) * inv (s1 - s2) N) mod N)) by ring.
    apply Z.divide_mul_r. apply mod_div_eq. rewrite Zmod_mod.
    pose proof (inv_N c SC (s1 - s2) NS) as I.
    transitivity ((k * (inv (s1 - s2) N * (s1 - s2))) mod N); [rewrite <- Zmult_mod_idemp_r, I; f_equal; ring|].
    replace (k * (inv (s1 - s2) N * (s1 - s2))) with (((s1 * k) - (s2 * k)) * inv (s1 - s2) N) by ring.
    rewrite <- Zmult_mod_idemp_l, Zminus_mod, F1, F2, <- Zminus_mod, Zmult_mod_idemp_l. f_equal. ring.
Qed.
End Sound.

Lemma nist_small : forall name c, by_name name = Ok c -> c_p c < 2 * c_N c.
Proof.
  intros name c H. unfold by_name in H.
  destruct (zs_eqb name (lit "P-256")); [vm_compute in H; injection H as <-; vm_compute; reflexivity|].
  destruct (zs_eqb name (lit "P-384")); [vm_compute in H; injection H as <-; vm_compute; reflexivity|].
  destruct (zs_eqb name (lit "P-521")); [vm_compute in H; injection H as <-; vm_compute; reflexivity|discriminate H].
Qed.
Lemma few_hashes_nist : forall name c, by_name name = Ok c -> forall sg pub l, bytes_ok sg = true -> element pub (c_a c) (c_b c) (c_p c) = true ->
  NoDup (map (fun h => trunc h (c_N c) mod c_N c) l) -> (forall h, In h l -> 0 <= h /\ verify c h sg pub = Ok true) ->
  (length l <= 4)%nat /\ (c_p c <= be2z (firstn (Z.to_nat (c_bytes c)) sg) + c_N c -> (length l <= 2)%nat).
Proof. intros name c H sg pub l B E. apply (few_hashes c (by_name_sound name c H) (nist_small name c H) sg pub l B (el_on _ _ _ _ E)). Qed.
Lemma few_keys_nist : forall name c, by_name name = Ok c -> forall h sg l, 0 <= h -> bytes_ok sg = true -> NoDup l ->
  (forall d, In d l -> 0 < d < c_N c /\ verify c h sg (public_key_for c d) = Ok true) ->
  (length l <= 4)%nat /\ (c_p c <= be2z (firstn (Z.to_nat (c_bytes c)) sg) + c_N c -> (length l <= 2)%nat).
Proof. intros name c H. exact (few_keys c (by_name_sound name c H) (nist_small name c H)). Qed.
Lemma few_s_nist : forall name c, by_name name = Ok c -> forall h d r l, 0 <= h -> 0 <= d -> 0 < r < c_N c -> NoDup l ->
  (forall s, In s l -> 0 < s < c_N c /\ verify c h (int2bytes c r ++ int2bytes c s) (public_key_for c d) = Ok true) ->
  (length l <= 4)%nat /\ (c_p c <= r + c_N c -> (length l <= 2)%nat).
Proof. intros name c H. exact (few_s c (by_name_sound name c H) (nist_small name c H)). Qed.
Lemma only_opposite_nist : forall name c, by_name name = Ok c -> forall h d r s s', 0 <= h -> 0 <= d -> 0 < r < c_N c -> 0 < s < c_N c -> 0 < s' < c_N c -> c_p c <= r + c_N c ->
  verify c h (int2bytes c r ++ int2bytes c s) (public_key_for c d) = Ok true ->
  (verify c h (int2bytes c r ++ int2bytes c s') (public_key_for c d) = Ok true <-> s' = s \/ s' = c_N c - s).
Proof. intros name c H. exact (only_opposite c (by_name_sound name c H) (nist_small name c H)). Qed.
Lemma public_determines_nist : forall name c, by_name name = Ok c -> forall d d', 0 <= d < c_N c -> 0 <= d' < c_N c -> public_key_for c d = public_key_for c d' -> d = d'.
Proof. intros name c H. exact (public_determines c (by_name_sound name c H)). Qed.
Lemma secret_determines_nist : forall name c, by_name name = Ok c -> forall a a' b, 0 < a < c_N c -> 0 < a' < c_N c -> 0 < b < c_N c ->
  (dh_z c a (public_key_for c b) = dh_z c a' (public_key_for c b) <-> a' = a \/ a' = c_N c - a).
Proof. intros name c H. exact (secret_determines c (by_name_sound name c H) (nist_small name c H)). Qed.
Lemma nonce_reveals_nist : forall name c, by_name name = Ok c -> forall fuel h d k rnds sg, 0 < d < c_N c -> 0 <= k -> sign c fuel h d (Some k) rnds = Ok sg ->
  let r := be2z (firstn (Z.to_nat (c_bytes c)) sg) in let s := be2z (skipn (Z.to_nat (c_bytes c)) sg) in
  d = ((s * k - trunc h (c_N c)) * inv r (c_N c)) mod c_N c.
Proof. intros name c H. exact (nonce_reveals c (by_name_sound name c H)). Qed.
Lemma same_nonce_reveals_nist : forall name c, by_name name = Ok c -> forall fuel fuel' h h' d k rnds rnds' sg sg', 0 < d < c_N c -> 0 <= k ->
  sign c fuel h d (Some k) rnds = Ok sg -> sign c fuel' h' d (Some k) rnds' = Ok sg' -> trunc h (c_N c) mod c_N c <> trunc h' (c_N c) mod c_N c ->
  let r := be2z (firstn (Z.to_nat (c_bytes c)) sg) in let s := be2z (skipn (Z.to_nat (c_bytes c)) sg) in let s' := be2z (skipn (Z.to_nat (c_bytes c)) sg') in
  firstn (Z.to_nat (c_bytes c)) sg' = firstn (Z.to_nat (c_bytes c)) sg /\ s <> s' /\
  let k' := ((trunc h (c_N c) - trunc h' (c_N c)) * inv (s - s') (c_N c)) mod c_N c in d = ((s * k' - trunc h (c_N c)) * inv r (c_N c)) mod c_N c.
Proof. intros name c H. exact (same_nonce_reveals c (by_name_sound name c H)). Qed.
