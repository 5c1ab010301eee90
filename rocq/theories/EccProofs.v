(** Proofs about ecc.py, for every curve with sound parameters. *)
From Coq Require Import ZArith List Bool Lia Znumtheory ZifyBool.
From Verif Require Import Base BaseProofs Zp EcGroup EcSpec Elliptic EcArith EcProofs Ecc.
Import ListNotations.
Open Scope Z_scope.

(** Soundness of the parameters of a curve. *)
Record sound_curve (c : curve) : Prop := {
  sc_good : good_curve (c_p c) (- c_a c) (- c_b c);
  sc_no2 : no_two_torsion (c_p c) (- c_a c) (- c_b c);
  sc_prime : prime (c_N c);
  sc_N : 2 < c_N c;
  sc_G : element (Some (c_G c)) (c_a c) (c_b c) (c_p c) = true;
  sc_Gred : 0 <= fst (c_G c) < c_p c /\ 0 <= snd (c_G c) < c_p c;
  sc_order : gmul (c_p c) (- c_a c) (c_N c) (den (c_p c) (Some (c_G c))) = GO (c_p c);
  sc_bytes : 0 < c_bytes c;
  sc_psize : c_p c < 256 ^ c_bytes c;
  sc_Nsize : c_N c < 256 ^ c_bytes c }.

Section Sound.
Variable c : curve.
Hypothesis SC : sound_curve c.
Local Notation p := (c_p c). Local Notation N := (c_N c).
Local Notation Gd := (den p (Some (c_G c))).
Local Notation on := (on_curve p (- c_a c) (- c_b c)).
Local Notation "P ⊕ Q" := (gadd p (- c_a c) P Q) (at level 50, left associativity).
Local Notation "k · P" := (gmul p (- c_a c) k P) (at level 40).
Local Notation GOOD := (sc_good c SC).

Lemma G_on : on Gd.
Proof. apply (den_on (c_a c) (c_b c) p). apply sc_G. exact SC. Qed.

Lemma G_not_O : Gd <> GO p.
Proof. destruct (c_G c). discriminate. Qed.

Lemma order_divides : forall k, k · Gd = GO p -> (N | k).
Proof.
  intros k H. eapply (g_order (c_a c) (c_b c) p GOOD).
  - exact G_on.
  - apply sc_order. exact SC.
  - apply G_not_O.
  - apply sc_prime. exact SC.
  - exact H.
Qed.

Lemma order_iff : forall k, k · Gd = GO p <-> (N | k).
Proof.
  intro k. split; [apply order_divides|]. intros [m ->].
  rewrite (g_mul_mul _ _ _ GOOD) by apply G_on. rewrite (sc_order c SC). apply (g_mul_O _ _ _ GOOD).
Qed.

Lemma mul_mod_N : forall k, (k mod N) · Gd = k · Gd.
Proof. intro k. apply (g_mul_mod _ _ _ GOOD); [apply G_on|apply sc_order; exact SC]. Qed.

Lemma den_pub : forall d, 0 <= d -> den p (public_key_for c d) = d · Gd.
Proof. intros d H. apply (den_mulp _ _ _ GOOD (sc_no2 c SC)); [exact H|apply G_on]. Qed.

Lemma pub_on : forall d, 0 <= d -> on (den p (public_key_for c d)).
Proof. intros d H. rewrite den_pub by exact H. apply (g_mul_on _ _ _ GOOD). apply G_on. Qed.

Lemma pub_range : forall P k, match mulp (c_a c) (c_b c) p P k with Some (x, y) => 0 <= x < p /\ 0 <= y < p | None => True end.
Proof. intros. apply (mulp_range _ _ _ GOOD). Qed.

(** two reduced coordinate pairs that denote the same point are equal *)
Lemma den_inj : forall x y x' y', 0 <= x < p -> 0 <= y < p -> 0 <= x' < p -> 0 <= y' < p ->
  GP p x y = GP p x' y' -> x = x' /\ y = y'.
Proof.
  intros x y x' y' H1 H2 H3 H4 E. unfold GP in E. injection E as E1 E2.
  rewrite !Z.mod_small in E1, E2 by assumption. split; assumption.
Qed.

Lemma pub_range_G : 0 <= fst (c_G c) < p /\ 0 <= snd (c_G c) < p.
Proof. exact (sc_Gred c SC). Qed.

Lemma not_div : forall k, 0 < k < N -> ~ (N | k).
Proof. intros k H D. apply Z.divide_pos_le in D; lia. Qed.

Lemma pub_some : forall d, 0 <= d -> ~ (N | d) -> exists x y, public_key_for c d = Some (x, y) /\
  0 <= x < p /\ 0 <= y < p /\ GP p x y = d · Gd.
Proof.
  intros d H ND. pose proof (den_pub d H) as E. pose proof (pub_range (Some (c_G c)) d) as R. fold (public_key_for c d) in R.
  destruct (public_key_for c d) as [[x y]|] eqn:EP.
  - exists x, y. repeat split; try apply R. exact E.
  - exfalso. apply ND. apply order_divides. symmetry. exact E.
Qed.

(** *** int2bytes *)
Lemma int2bytes_fixed : forall x, 0 <= x < 256 ^ c_bytes c -> int2bytes c x = z2be (Z.to_nat (c_bytes c)) x.
Proof.
  intros x H. unfold int2bytes, long_to_bytes. f_equal. f_equal. pose proof (sc_bytes c SC) as B.
  assert (L : 0 <= Z.log2 x / 8 < c_bytes c).
  { split; [apply Z.div_pos; [apply Z.log2_nonneg|lia]|].
    apply Z.div_lt_upper_bound; [lia|]. destruct (Z.eq_dec x 0) as [->|NZ]; [change (Z.log2 0) with 0; lia|].
    apply Z.log2_lt_pow2; [lia|]. rewrite Z.pow_mul_r by lia. change (2 ^ 8) with 256. lia. }
  replace ((Z.log2 x / 8 + 1 + c_bytes c - 1) / c_bytes c) with 1; [lia|].
  apply Z.div_unique with (r := Z.log2 x / 8); lia.
Qed.

Lemma int2bytes_length : forall x, 0 <= x < 256 ^ c_bytes c -> length (int2bytes c x) = Z.to_nat (c_bytes c).
Proof. intros x H. rewrite int2bytes_fixed by exact H. apply z2be_length. Qed.

Lemma bytes2int_int2bytes : forall x, 0 <= x < 256 ^ c_bytes c -> bytes2int (int2bytes c x) = x.
Proof.
  intros x H. rewrite int2bytes_fixed by exact H. unfold bytes2int. apply be2z_z2be.
  rewrite Z2Nat.id by (pose proof (sc_bytes c SC); lia). exact H.
Qed.

Lemma int2bytes_inj : forall x y, 0 <= x < 256 ^ c_bytes c -> 0 <= y < 256 ^ c_bytes c -> int2bytes c x = int2bytes c y -> x = y.
Proof. intros x y Hx Hy E. rewrite <- (bytes2int_int2bytes x Hx), E. apply bytes2int_int2bytes. exact Hy. Qed.

(** *** key pairs and ECDH *)
Lemma key_pair_ok : forall rnd, exists d x y, key_pair c rnd = (d, Some (x, y)) /\ 1 <= d <= N - 1 /\
  element (Some (x, y)) (c_a c) (c_b c) p = true /\ 0 <= x < p /\ 0 <= y < p /\ GP p x y = d · Gd.
Proof.
  intro rnd. unfold key_pair. pose proof (sc_N c SC).
  pose proof (Z.mod_pos_bound rnd (N - 1) ltac:(lia)) as B. set (d := rnd mod (N - 1) + 1) in *.
  destruct (pub_some d) as (x & y & E & H1 & H2 & H3); [lia|apply not_div; lia|].
  exists d, x, y. rewrite E. repeat split; try lia; [|exact H3].
  apply (den_on (c_a c) (c_b c) p (Some (x, y))). cbn [den]. rewrite H3. apply (g_mul_on _ _ _ GOOD). apply G_on.
Qed.

Lemma dh_spec : forall d Q, 0 <= d -> on (den p Q) ->
  (exists x y, 0 <= x < p /\ 0 <= y < p /\ GP p x y = d · den p Q /\ dh_z c d Q = Ok (int2bytes c x)) \/
  (d · den p Q = GO p /\ dh_z c d Q = Raise ETypeError).
Proof.
  intros d Q H C. pose proof (den_mulp _ _ _ GOOD (sc_no2 c SC) Q d H C) as E. pose proof (pub_range Q d) as R.
  unfold dh_z. destruct (mulp (c_a c) (c_b c) p Q d) as [[x y]|] eqn:EM.
  - left. exists x, y. repeat split; try apply R. exact E.
  - right. split; [symmetry; exact E|reflexivity].
Qed.

Lemma dh_agree : forall a b, 0 < a < N -> 0 < b < N ->
  exists z, dh_z c a (public_key_for c b) = Ok z /\ dh_z c b (public_key_for c a) = Ok z /\ length z = Z.to_nat (c_bytes c).
Proof.
  intros a b Ha Hb.
  assert (E : forall u v, 0 < u < N -> 0 < v < N -> u · den p (public_key_for c v) = (u * v) · Gd).
  { intros u v Hu Hv. rewrite den_pub by lia. rewrite (g_mul_mul _ _ _ GOOD) by apply G_on. reflexivity. }
  assert (NZ : forall u v, 0 < u < N -> 0 < v < N -> (u * v) · Gd <> GO p).
  { intros u v Hu Hv O. apply order_divides in O. apply prime_mult in O; [|apply sc_prime; exact SC].
    destruct O as [O|O]; revert O; apply not_div; assumption. }
  destruct (dh_spec a (public_key_for c b)) as [(x & y & X1 & Y1 & P1 & D1)|[O _]]; [lia|apply pub_on; lia| |].
  2:{ exfalso. apply (NZ a b Ha Hb). rewrite <- E by assumption. exact O. }
  destruct (dh_spec b (public_key_for c a)) as [(x' & y' & X2 & Y2 & P2 & D2)|[O _]]; [lia|apply pub_on; lia| |].
  2:{ exfalso. apply (NZ b a Hb Ha). rewrite <- E by assumption. exact O. }
  rewrite E in P1, P2 by assumption. rewrite Z.mul_comm in P2. rewrite <- P2 in P1.
  apply den_inj in P1; try assumption. destruct P1 as [-> _].
  exists (int2bytes c x'). repeat split; try assumption. apply int2bytes_length. pose proof (sc_psize c SC). lia.
Qed.

(** *** modular facts for ECDSA *)
Lemma inv_N : forall k, ~ (N | k) -> (inv k N * k) mod N = 1.
Proof.
  intros k ND. pose proof (sc_N c SC). destruct (inv_coprime k N) as [_ E]; [lia| |].
  - apply Zgcd_1_rel_prime. apply rel_prime_sym. apply prime_rel_prime; [apply sc_prime; exact SC|exact ND].
  - rewrite E. apply Z.mod_small. lia.
Qed.

Lemma mul_cong : forall j k, j mod N = k mod N -> j · Gd = k · Gd.
Proof. intros j k H. rewrite <- (mul_mod_N j), <- (mul_mod_N k), H. reflexivity. Qed.

Lemma trunc_idem_le : forall h, h <= N -> trunc h N = h.
Proof. intros h H. unfold trunc. cbn [trunc_loop]. destruct (N <? h) eqn:E; [lia|reflexivity]. Qed.

Lemma trunc_loop_nonneg : forall f h M, 0 <= h -> 0 <= trunc_loop f h M.
Proof.
  induction f as [|f IH]; intros h M H; cbn [trunc_loop]; [exact H|]. destruct (M <? h); [|exact H]. apply IH. apply Z.shiftr_nonneg. exact H.
Qed.

Lemma trunc_loop_le : forall f h M, 0 < M -> h < 2 ^ Z.of_nat f -> trunc_loop f h M <= M.
Proof.
  induction f as [|f IH]; intros h M HM H; cbn [trunc_loop]; [cbn in H; lia|].
  destruct (M <? h) eqn:E; [|lia]. apply IH; [exact HM|]. rewrite Nat2Z.inj_succ, Z.pow_succ_r in H by lia.
  rewrite Z.shiftr_div_pow2 by lia. change (2 ^ 1) with 2. apply Z.div_lt_upper_bound; lia.
Qed.

Lemma trunc_le : forall h, 0 <= h -> 0 <= trunc h N <= N.
Proof.
  intros h H. pose proof (sc_N c SC). split; [apply trunc_loop_nonneg; exact H|]. unfold trunc. apply trunc_loop_le; [lia|].
  rewrite Nat2Z.inj_succ, Z2Nat.id by apply Z.log2_nonneg. destruct (Z.eq_dec h 0) as [->|NZ]; [cbn; lia|].
  apply Z.log2_spec. lia.
Qed.

Lemma trunc_idem : forall h, 0 <= h -> trunc (trunc h N) N = trunc h N.
Proof. intros h H. apply trunc_idem_le. apply trunc_le. exact H. Qed.

(** *** the signing loop *)
(** the result of a finished loop, stated without the loop *)
Definition sig_eq (h d k r s : Z) : Prop :=
  exists x y, 0 <= x < p /\ 0 <= y < p /\ GP p x y = k · Gd /\ r = x mod N /\ r <> 0 /\
    (s * k) mod N = (h + r * d) mod N /\ 0 < s < N.

Lemma sign_loop_ok : forall fuel r0 s0 h k d rnds i r s, (forall k', k = Some k' -> 0 <= k') ->
  (r0 = 0 \/ s0 = 0) ->
  sign_loop c fuel r0 s0 h k d rnds i = Ok (r, s) ->
  exists k', (k = Some k' \/ (k = None /\ k' = rnds i mod (N - 1) + 1)) /\ 0 <= k' /\ sig_eq h d k' r s.
Proof.
  pose proof (sc_N c SC) as HN.
  induction fuel as [|fuel IH]; intros r0 s0 h k d rnds i r s HK H0 H; cbn [sign_loop] in H.
  - destruct H0 as [-> | ->]; cbn in H; rewrite ?orb_true_r in H; discriminate.
  - replace ((r0 =? 0) || (s0 =? 0)) with true in H by (symmetry; destruct H0 as [-> | ->]; cbn; rewrite ?orb_true_r; reflexivity).
    set (kk := match k with Some k0 => k0 | None => rnds i mod (N - 1) + 1 end).
    set (ii := match k with Some _ => i | None => S i end).
    replace (match k with Some k0 => (k0, i) | None => (rnds i mod (N - 1) + 1, S i) end) with (kk, ii) in H by (unfold kk, ii; destruct k; reflexivity).
    assert (K0 : 0 <= kk). { unfold kk. destruct k as [k0|]; [apply HK; reflexivity|]. pose proof (Z.mod_pos_bound (rnds i) (N - 1) ltac:(lia)). lia. }
    assert (KK : k = Some kk \/ (k = None /\ kk = rnds i mod (N - 1) + 1)) by (unfold kk; destruct k; [left|right; split]; reflexivity).
    pose proof (den_pub kk K0) as D. pose proof (pub_range (Some (c_G c)) kk) as R. unfold public_key_for in D.
    destruct (mulp (c_a c) (c_b c) p (Some (c_G c)) kk) as [[x y]|]; [|discriminate].
    assert (NR : forall r1 s1, (r1 = 0 \/ s1 = 0) -> sign_loop c fuel r1 s1 h (Some kk) d rnds ii = Ok (r, s) ->
       exists k', (k = Some k' \/ (k = None /\ k' = rnds i mod (N - 1) + 1)) /\ 0 <= k' /\ sig_eq h d k' r s).
    { intros r1 s1 H1 H2. apply IH in H2; [|intros k' E; congruence|exact H1].
      destruct H2 as (k' & [E|[E _]] & K1 & K2); [|discriminate]. injection E as <-. exists kk. tauto. }
    destruct (x mod N =? 0) eqn:ER; [apply Z.eqb_eq in ER; rewrite ER in H; eapply NR; [left; reflexivity|exact H]|].
    apply Z.eqb_neq in ER.
    destruct (Z.eq_dec ((inv kk N * (h + x mod N * d)) mod N) 0) as [ES|ES].
    { rewrite ES in H. eapply NR; [right; reflexivity|exact H]. }
    exists kk. split; [exact KK|]. split; [exact K0|].
    assert (E : r = x mod N /\ s = (inv kk N * (h + x mod N * d)) mod N).
    { destruct fuel; cbn [sign_loop] in H; rewrite (proj2 (Z.eqb_neq _ _) ER), (proj2 (Z.eqb_neq _ _) ES) in H; cbn in H; injection H as <- <-; split; reflexivity. }
    destruct E as [-> ->]. exists x, y. repeat split; try apply R; try assumption.
    + assert (NK : ~ (N | kk)). { intro ND. apply order_iff in ND. rewrite ND in D. discriminate. }
      rewrite Zmult_mod_idemp_l.
      replace (inv kk N * (h + x mod N * d) * kk) with ((inv kk N * kk) * (h + x mod N * d)) by ring.
      rewrite <- Zmult_mod_idemp_l, inv_N by exact NK. f_equal. ring.
    + pose proof (Z.mod_pos_bound (inv kk N * (h + x mod N * d)) N ltac:(lia)). lia.
    + apply Z.mod_pos_bound. lia.
Qed.

Lemma sign_shape : forall fuel h d k rnds sg, (forall k', k = Some k' -> 0 <= k') ->
  sign c fuel h d k rnds = Ok sg ->
  exists k' r s, sg = int2bytes c r ++ int2bytes c s /\ 0 < r < N /\ 0 < s < N /\ 0 <= k' /\ sig_eq (trunc h N) d k' r s.
Proof.
  intros fuel h d k rnds sg HK H. unfold sign in H. destruct (sign_loop c fuel 0 0 (trunc h N) k d rnds 0) as [[r s]|] eqn:E; [|discriminate].
  cbn in H. injection H as <-. apply sign_loop_ok in E; [|exact HK|left; reflexivity].
  destruct E as (k' & _ & K0 & S). exists k', r, s. pose proof S as S'. destruct S as (x & y & X & Y & P & R & R0 & SS & S0).
  pose proof (sc_N c SC). pose proof (Z.mod_pos_bound x N ltac:(lia)). repeat split; try lia. exact S'.
Qed.

Lemma sig_parts : forall r s, 0 < r < N -> 0 < s < N ->
  bytes2int (firstn (Z.to_nat (c_bytes c)) (int2bytes c r ++ int2bytes c s)) = r /\
  bytes2int (skipn (Z.to_nat (c_bytes c)) (int2bytes c r ++ int2bytes c s)) = s.
Proof.
  intros r s Hr Hs. pose proof (sc_Nsize c SC).
  assert (Lr : length (int2bytes c r) = Z.to_nat (c_bytes c)) by (apply int2bytes_length; lia).
  rewrite <- Lr. rewrite firstn_app, skipn_app, firstn_all, skipn_all, Nat.sub_diag. cbn [firstn skipn]. rewrite app_nil_r. cbn [app].
  rewrite !bytes2int_int2bytes by lia. split; reflexivity.
Qed.

(** what [verify] computes, for a public key on the curve *)
Lemma verify_eq : forall h sg pub, 0 <= h -> bytes_ok sg = true -> on (den p pub) ->
  let r := bytes2int (firstn (Z.to_nat (c_bytes c)) sg) in
  let s := bytes2int (skipn (Z.to_nat (c_bytes c)) sg) in
  let w := inv s N in
  let R := ((trunc h N * w) mod N) · Gd ⊕ ((r * w) mod N) · den p pub in
  (0 < r < N /\ 0 < s < N /\ (exists x y, 0 <= x < p /\ 0 <= y < p /\ R = GP p x y /\ verify c h sg pub = Ok (r =? x mod N))) \/
  (0 < r < N /\ 0 < s < N /\ R = GO p /\ verify c h sg pub = Raise ETypeError) \/
  (~ (0 < r < N /\ 0 < s < N) /\ verify c h sg pub = Ok false).
Proof.
  intros h sg pub Hh Hb C r s w R. unfold verify. fold r. fold s. fold w.
  destruct ((0 <? r) && (r <? N) && ((0 <? s) && (s <? N))) eqn:E.
  - assert (Hr : 0 < r < N) by lia. assert (Hs : 0 < s < N) by lia.
    pose proof (sc_N c SC).
    destruct (den_muladdp _ _ _ GOOD (sc_no2 c SC) (Some (c_G c)) pub ((trunc h N * w) mod N) ((r * w) mod N)) as (Q & E1 & E2 & E3).
    + apply Z.mod_pos_bound. lia.
    + apply Z.mod_pos_bound. lia.
    + apply G_on.
    + exact C.
    + rewrite E1. cbn [bind]. fold R in E2. destruct Q as [[x y]|].
      * left. split; [exact Hr|]. split; [exact Hs|]. exists x, y. rewrite (Z.mod_small r) by lia. repeat split; try apply E3. symmetry. exact E2.
      * right. left. repeat split; try lia. symmetry. exact E2.
  - right. right. split; [lia|reflexivity].
Qed.

(** signature equation implies acceptance *)
Lemma sig_eq_verify : forall h d k r s, 0 <= h -> 0 <= d -> 0 < r < N -> sig_eq (trunc h N) d k r s ->
  verify c h (int2bytes c r ++ int2bytes c s) (public_key_for c d) = Ok true.
Proof.
  intros h d k r s Hh Hd Hr S. destruct S as (x & y & X & Y & P & R & R0 & SS & S0).
  destruct (sig_parts r s Hr S0) as [P1 P2].
  assert (NS : ~ (N | s)) by (apply not_div; exact S0).
  assert (EQ : ((trunc h N * inv s N) mod N) · Gd ⊕ ((r * inv s N) mod N) · den p (public_key_for c d) = GP p x y).
  { rewrite den_pub by exact Hd. rewrite <- (g_mul_mul _ _ _ GOOD), <- (g_mul_add _ _ _ GOOD) by apply G_on.
    rewrite P. apply mul_cong.
    rewrite Zplus_mod, Zmod_mod, Zmult_mod_idemp_l, <- Zplus_mod.
    replace (trunc h N * inv s N + r * inv s N * d) with (inv s N * (trunc h N + r * d)) by ring.
    rewrite <- Zmult_mod_idemp_r, <- SS, Zmult_mod_idemp_r.
    replace (inv s N * (s * k)) with ((inv s N * s) * k) by ring.
    rewrite <- Zmult_mod_idemp_l, inv_N by exact NS. f_equal. ring. }
  assert (BO : bytes_ok (int2bytes c r ++ int2bytes c s) = true).
  { pose proof (sc_Nsize c SC). rewrite bytes_ok_app, !int2bytes_fixed by lia. rewrite !z2be_ok. reflexivity. }
  pose proof (verify_eq h _ (public_key_for c d) Hh BO (pub_on d Hd)) as V. cbv zeta in V. rewrite P1, P2 in V. rewrite EQ in V.
  destruct V as [(_ & _ & x' & y' & X' & Y' & E & ->)|[(_ & _ & E & _)|[E _]]].
  - apply den_inj in E; try assumption. destruct E as [<- <-]. rewrite <- R, Z.eqb_refl. reflexivity.
  - discriminate.
  - exfalso. apply E. split; assumption.
Qed.

Lemma sign_verify : forall fuel h d k rnds sg, 0 <= h -> 0 <= d -> (forall k', k = Some k' -> 0 <= k') ->
  sign c fuel h d k rnds = Ok sg -> verify c h sg (public_key_for c d) = Ok true.
Proof.
  intros fuel h d k rnds sg Hh Hd HK H. apply sign_shape in H; [|exact HK].
  destruct H as (k' & r & s & -> & Hr & Hs & K0 & S). eapply sig_eq_verify; eassumption.
Qed.

(** malleability: (r, s) and (r, N - s) verify alike *)
Lemma malleable : forall h r s pub, 0 <= h -> on (den p pub) -> N · den p pub = GO p -> 0 < r < N -> 0 < s < N ->
  verify c h (int2bytes c r ++ int2bytes c s) pub = Ok true -> verify c h (int2bytes c r ++ int2bytes c (N - s)) pub = Ok true.
Proof.
  intros h r s pub Hh C ON Hr Hs V.
  assert (Hs' : 0 < N - s < N) by lia.
  assert (BO : forall t, 0 < t < N -> bytes_ok (int2bytes c r ++ int2bytes c t) = true).
  { intros t Ht. pose proof (sc_Nsize c SC). rewrite bytes_ok_app, !int2bytes_fixed by lia. rewrite !z2be_ok. reflexivity. }
  pose proof (verify_eq h _ pub Hh (BO s Hs) C) as V1. pose proof (verify_eq h _ pub Hh (BO _ Hs') C) as V2. cbv zeta in V1, V2.
  destruct (sig_parts r s Hr Hs) as [P1 P2]. destruct (sig_parts r (N - s) Hr Hs') as [P3 P4].
  rewrite P1, P2 in V1. rewrite P3, P4 in V2.
  set (w := inv s N) in *. set (w' := inv (N - s) N) in *.
  assert (W : w' mod N = (- w) mod N).
  { assert (A1 : (w * s) mod N = 1) by (apply inv_N; apply not_div; exact Hs).
    assert (A2 : (w' * (N - s)) mod N = 1) by (apply inv_N; apply not_div; exact Hs').
    assert (A3 : (- w' * s) mod N = 1).
    { rewrite <- A2. replace (w' * (N - s)) with (- w' * s + w' * N) by ring. symmetry. apply Z_mod_plus_full. }
    (* w' = w' * (w * s) = - w * (-w' * s) = - w *)
    transitivity ((w' * (w * s)) mod N); [rewrite <- Zmult_mod_idemp_r, A1; f_equal; ring|].
    transitivity ((- w * (- w' * s)) mod N); [f_equal; ring|]. rewrite <- Zmult_mod_idemp_r, A3. f_equal. ring. }
  assert (M : forall u, (u * w') mod N = (- (u * w)) mod N).
  { intro u. rewrite <- Zmult_mod_idemp_r, W, Zmult_mod_idemp_r. f_equal. ring. }
  assert (EQ : forall u v, ((u * w') mod N) · Gd ⊕ ((v * w') mod N) · den p pub = gneg p (((u * w) mod N) · Gd ⊕ ((v * w) mod N) · den p pub)).
  { intros u v. rewrite !M. rewrite (g_neg_add _ _ _ GOOD) by (apply (g_mul_on _ _ _ GOOD); first [exact G_on | exact C]).
    rewrite !mul_mod_N. rewrite !(g_mul_mod _ _ _ GOOD N _ (den p pub)) by assumption.
    rewrite !(g_mul_opp _ _ _ GOOD). reflexivity. }
  rewrite EQ in V2.
  destruct V1 as [(_ & _ & x & y & X & Y & E & V1)|[(_ & _ & E & V1)|[_ V1]]]; rewrite V in V1; try discriminate.
  injection V1 as V1. rewrite E in V2.
  destruct V2 as [(_ & _ & x' & y' & X' & Y' & E' & V2)|[(_ & _ & E' & V2)|[E' _]]].
  - unfold gneg, pneg, GP in E'. injection E' as E1 E2. rewrite !Z.mod_small in E1 by assumption. subst x'. rewrite V2. congruence.
  - discriminate.
  - exfalso. apply E'. split; assumption.
Qed.
End Sound.
