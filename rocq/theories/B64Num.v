(** * The numbers base64_to_long and base64url_to_long read (__init__.py:114-136), for every octet string *)
From Coq Require Import ZArith List Bool Lia ZifyBool.
From Verif Require Import Base BaseProofs Codec CodecProofs.
Import ListNotations.
Open Scope Z_scope.

(** The alphabets of RFC 4648, sections 4 and 5, together: a character as a number below 64. *)
Definition digit64 (c : Z) : option Z :=
  if (65 <=? c) && (c <=? 90) then Some (c - 65)
  else if (97 <=? c) && (c <=? 122) then Some (c - 97 + 26)
  else if (48 <=? c) && (c <=? 57) then Some (c - 48 + 52)
  else if (c =? 43) || (c =? 45) then Some 62
  else if (c =? 47) || (c =? 95) then Some 63
  else None.
(** The digits of a text; characters outside the alphabets are left out. *)
Fixpoint digits64 (s : bytes) : list Z := match s with [] => [] | c :: r => match digit64 c with Some v => v :: digits64 r | None => digits64 r end end.
(** The number written with these digits, in base 64. *)
Definition number64 (ds : list Z) : Z := fold_left (fun a v => a * 64 + v) ds 0.

Lemma number_acc : forall ds a, fold_left (fun a v => a * 64 + v) ds a = a * 64 ^ Z.of_nat (length ds) + number64 ds.
Proof.
  induction ds as [|v ds IH]; intro a; [cbn; lia|]. unfold number64. cbn [fold_left length]. rewrite IH, (IH (0 * 64 + v)). rewrite Nat2Z.inj_succ, Z.pow_succ_r by lia. lia.
Qed.
Lemma number_cons : forall v ds, number64 (v :: ds) = v * 64 ^ Z.of_nat (length ds) + number64 ds.
Proof. intros v ds. unfold number64 at 1. cbn [fold_left]. rewrite number_acc. lia. Qed.

Lemma digit_range : forall c v, digit64 c = Some v -> 0 <= v < 64.
Proof. intros c v H. unfold digit64 in H. repeat match type of H with (if ?b then _ else _) = _ => destruct b eqn:?; [injection H as <-; lia|] end. discriminate H. Qed.
Lemma digits_range : forall s, Forall (fun v => 0 <= v < 64) (digits64 s).
Proof. induction s as [|c s IH]; [constructor|]. cbn [digits64]. destruct (digit64 c) eqn:E; [constructor; [exact (digit_range _ _ E)|exact IH]|exact IH]. Qed.
Lemma digit_val : forall c, b64_val (tr_dec c) = digit64 c.
Proof.
  intro c. unfold b64_val, tr_dec, digit64. destruct (c =? 45) eqn:E1; [apply Z.eqb_eq in E1; subst c; reflexivity|]. destruct (c =? 95) eqn:E2; [apply Z.eqb_eq in E2; subst c; reflexivity|].
  repeat match goal with |- (if ?b then _ else _) = _ => destruct b eqn:?; [f_equal; lia|] end.
  destruct (c =? 43) eqn:E3; [reflexivity|]. destruct (c =? 47) eqn:E4; reflexivity.
Qed.
Lemma not_pad : forall c, (tr_dec c =? 61) = (c =? 61).
Proof. intro c. unfold tr_dec. destruct (c =? 45) eqn:E1; [lia|]. destruct (c =? 95) eqn:E2; lia. Qed.

(** The decoder on digits, followed by two padding characters. *)
Fixpoint dec (ds : list Z) (q lc : Z) : res bytes :=
  match ds with
  | [] => if q =? 1 then Raise EBinasciiError else Ok []
  | v :: r =>
      if q =? 0 then dec r 1 v
      else if q =? 1 then t <- dec r 2 (v mod 16);; Ok (lc * 4 + v / 16 :: t)
      else if q =? 2 then t <- dec r 3 (v mod 4);; Ok (lc * 16 + v / 4 :: t)
      else t <- dec r 0 0;; Ok (lc * 64 + v :: t)
  end.
Definition nopad (s : bytes) : Prop := ~ In 61 s.
Lemma a2b_dec : forall s q lc, nopad s -> 0 <= q <= 3 -> a2b (map tr_dec s ++ [61; 61]) q lc 0 = dec (digits64 s) q lc.
Proof.
  induction s as [|c s IH]; intros q lc N Q.
  - cbn [map app digits64 dec a2b]. change (61 =? 61) with true. cbn iota. assert (QQ : q = 0 \/ q = 1 \/ q = 2 \/ q = 3) by lia. destruct QQ as [-> |[-> |[-> | ->]]]; reflexivity.
  - assert (NC : (c =? 61) = false) by (apply Z.eqb_neq; intro X; apply N; left; exact X). assert (NS : nopad s) by (intro X; apply N; right; exact X).
    cbn [map app a2b digits64]. rewrite not_pad, NC, digit_val. destruct (digit64 c) as [v|]; [|apply IH; assumption]. cbn [dec].
    destruct (q =? 0); [apply IH; [exact NS|lia]|]. destruct (q =? 1); [rewrite IH by (assumption || lia); reflexivity|]. destruct (q =? 2); rewrite IH by (assumption || lia); reflexivity.
Qed.

Definition bits (q : Z) : Z := if q =? 0 then 0 else if q =? 1 then 6 else if q =? 2 then 4 else 2.
Lemma shift_add : forall o k e X, 0 <= k -> 0 <= e -> (o * 2 ^ (k + e) + X) / 2 ^ k = o * 2 ^ e + X / 2 ^ k.
Proof. intros o k e X K E. rewrite Z.pow_add_r by lia. replace (o * (2 ^ k * 2 ^ e) + X) with (X + o * 2 ^ e * 2 ^ k) by ring. rewrite Z.div_add by (pose proof (Z.pow_pos_nonneg 2 k); lia). ring. Qed.
Lemma pow64 : forall n, 64 ^ Z.of_nat n = 2 ^ (6 * Z.of_nat n).
Proof. intro n. rewrite Z.pow_mul_r by lia. reflexivity. Qed.
Lemma pow256 : forall n, 256 ^ Z.of_nat n = 2 ^ (8 * Z.of_nat n).
Proof. intro n. rewrite Z.pow_mul_r by lia. reflexivity. Qed.

Lemma dec_value : forall ds q lc, Forall (fun v => 0 <= v < 64) ds -> 0 <= q <= 3 -> 0 <= lc < 2 ^ bits q ->
  if (q + Z.of_nat (length ds)) mod 4 =? 1 then dec ds q lc = Raise EBinasciiError
  else exists t, dec ds q lc = Ok t /\ Z.of_nat (length t) = (bits q + 6 * Z.of_nat (length ds)) / 8 /\
    be2z t = (lc * 64 ^ Z.of_nat (length ds) + number64 ds) / 2 ^ ((bits q + 6 * Z.of_nat (length ds)) mod 8).
Proof.
  induction ds as [|v ds IH]; intros q lc F Q L.
  - cbn [length dec]. assert (QQ : q = 0 \/ q = 1 \/ q = 2 \/ q = 3) by lia.
    destruct QQ as [-> |[-> |[-> | ->]]]; cbn in L |- *; [|reflexivity| |]; exists []; (split; [reflexivity|]; split; [reflexivity|]); rewrite be2z_nil; symmetry; apply Z.div_small || idtac; try lia.
  - inversion F as [|? ? V F']; subst. cbn [length]. rewrite Nat2Z.inj_succ. set (n := length ds) in *.
    assert (EM : forall o q' X' t, Z.of_nat (length t) = (bits q' + 6 * Z.of_nat n) / 8 -> bits q + 6 * Z.succ (Z.of_nat n) = 8 + (bits q' + 6 * Z.of_nat n) -> 0 <= bits q' ->
      lc * 64 ^ Z.succ (Z.of_nat n) + number64 (v :: ds) = o * 2 ^ (bits q' + 6 * Z.of_nat n) + X' -> be2z t = X' / 2 ^ ((bits q' + 6 * Z.of_nat n) mod 8) ->
      Z.of_nat (length (o :: t)) = (bits q + 6 * Z.succ (Z.of_nat n)) / 8 /\ be2z (o :: t) = (lc * 64 ^ Z.succ (Z.of_nat n) + number64 (v :: ds)) / 2 ^ ((bits q + 6 * Z.succ (Z.of_nat n)) mod 8)).
    { intros o q' X' t LT B BP X T. rewrite B, X. set (m := bits q' + 6 * Z.of_nat n) in *. assert (M0 : 0 <= m) by lia.
      split; [cbn [length]; rewrite Nat2Z.inj_succ, LT; Z.div_mod_to_equations; lia|].
      replace ((8 + m) mod 8) with (m mod 8) by (Z.div_mod_to_equations; lia). rewrite be2z_cons, T, pow256, LT.
      replace m with (m mod 8 + 8 * (m / 8)) at 3 by (Z.div_mod_to_equations; lia). symmetry. apply shift_add; Z.div_mod_to_equations; lia. }
    assert (QQ : q = 0 \/ q = 1 \/ q = 2 \/ q = 3) by lia. clear Q. destruct QQ as [-> |[-> |[-> | ->]]]; cbn [dec Z.eqb]; cbn in L.
    + specialize (IH 1 v F' ltac:(lia) ltac:(cbn; lia)). replace (0 + Z.succ (Z.of_nat n)) with (1 + Z.of_nat n) by lia. destruct ((1 + Z.of_nat n) mod 4 =? 1); [exact IH|].
      destruct IH as (t & D & LT & T). exists t. split; [exact D|]. change (bits 1) with 6 in *. change (bits 0) with 0. replace (0 + 6 * Z.succ (Z.of_nat n)) with (6 + 6 * Z.of_nat n) by lia. split; [exact LT|]. rewrite T, number_cons. fold n. assert (lc = 0) by lia. subst lc. f_equal; lia.
    + specialize (IH 2 (v mod 16) F' ltac:(lia) ltac:(cbn; Z.div_mod_to_equations; lia)). replace (1 + Z.succ (Z.of_nat n)) with (2 + Z.of_nat n) by lia. destruct ((2 + Z.of_nat n) mod 4 =? 1); [rewrite IH; reflexivity|].
      destruct IH as (t & -> & LT & T). cbn [bind]. eexists. split; [reflexivity|]. apply (EM _ 2 (v mod 16 * 64 ^ Z.of_nat n + number64 ds)); [exact LT|cbv [bits Z.eqb Pos.eqb]; lia|cbv [bits Z.eqb Pos.eqb]; lia| |exact T].
      rewrite number_cons. fold n. rewrite Z.pow_succ_r by lia. change (bits 2) with 4. rewrite (Z.pow_add_r 2 4) by lia. rewrite <- pow64. change (2 ^ 4) with 16. set (p := 64 ^ Z.of_nat n). assert (v = 16 * (v / 16) + v mod 16) by (apply Z.div_mod; lia). nia.
    + specialize (IH 3 (v mod 4) F' ltac:(lia) ltac:(cbn; Z.div_mod_to_equations; lia)). replace (2 + Z.succ (Z.of_nat n)) with (3 + Z.of_nat n) by lia. destruct ((3 + Z.of_nat n) mod 4 =? 1); [rewrite IH; reflexivity|].
      destruct IH as (t & -> & LT & T). cbn [bind]. eexists. split; [reflexivity|]. apply (EM _ 3 (v mod 4 * 64 ^ Z.of_nat n + number64 ds)); [exact LT|cbv [bits Z.eqb Pos.eqb]; lia|cbv [bits Z.eqb Pos.eqb]; lia| |exact T].
      rewrite number_cons. fold n. rewrite Z.pow_succ_r by lia. change (bits 3) with 2. rewrite (Z.pow_add_r 2 2) by lia. rewrite <- pow64. change (2 ^ 2) with 4. set (p := 64 ^ Z.of_nat n). assert (v = 4 * (v / 4) + v mod 4) by (apply Z.div_mod; lia). nia.
    + specialize (IH 0 0 F' ltac:(lia) ltac:(cbn; lia)). replace ((3 + Z.succ (Z.of_nat n)) mod 4) with ((0 + Z.of_nat n) mod 4) by (Z.div_mod_to_equations; lia). destruct ((0 + Z.of_nat n) mod 4 =? 1); [rewrite IH; reflexivity|].
      destruct IH as (t & -> & LT & T). cbn [bind]. eexists. split; [reflexivity|]. apply (EM _ 0 (0 * 64 ^ Z.of_nat n + number64 ds)); [exact LT|cbv [bits Z.eqb Pos.eqb]; lia|cbv [bits Z.eqb Pos.eqb]; lia| |exact T].
      rewrite number_cons. fold n. rewrite Z.pow_succ_r by lia. change (bits 0) with 0. rewrite Z.add_0_l, <- pow64. set (p := 64 ^ Z.of_nat n). nia.
Qed.

(** base64_to_long of octets without padding. *)
Theorem to_long : forall s, nopad s -> let n := Z.of_nat (length (digits64 s)) in
  base64_to_long_b s = if n =? 0 then Raise EValueError else if n mod 4 =? 1 then Raise EBinasciiError else Ok (number64 (digits64 s) / 2 ^ (6 * n mod 8)).
Proof.
  intros s N n. unfold base64_to_long_b, urlsafe_b64decode. rewrite map_app. change (map tr_dec [61; 61]) with [61; 61]. rewrite a2b_dec by (assumption || lia).
  pose proof (dec_value (digits64 s) 0 0 (digits_range s) ltac:(lia) ltac:(cbn; lia)) as D. fold n in D. rewrite Z.add_0_l in D. change (bits 0) with 0 in D. rewrite Z.add_0_l in D.
  destruct (n =? 0) eqn:E0.
  - apply Z.eqb_eq in E0. assert (digits64 s = []) by (destruct (digits64 s); [reflexivity|unfold n in E0; cbn [length] in E0; lia]). rewrite H. reflexivity.
  - destruct (n mod 4 =? 1) eqn:E1; [rewrite D; reflexivity|]. destruct D as (t & -> & LT & T). cbn [bind]. assert (t <> []) by (intros ->; cbn [length] in LT; Z.div_mod_to_equations; lia).
    unfold intarr2long. destruct t as [|x t]; [congruence|]. rewrite T, Z.mul_0_l, Z.add_0_l. reflexivity.
Qed.

Lemma nopad_dec : forall s, {nopad s} + {In 61 s}.
Proof. intro s. destruct (in_dec Z.eq_dec 61 s); [right|left]; assumption. Qed.

(** base64url_to_long, for every octet string. *)
Theorem url_to_long : forall s z, base64url_to_long_b s = Ok z <->
  (~ In 43 s /\ ~ In 47 s /\ ~ In 61 s) /\ let n := Z.of_nat (length (digits64 s)) in n <> 0 /\ n mod 4 <> 1 /\ z = number64 (digits64 s) / 2 ^ (6 * n mod 8).
Proof.
  intros s z. unfold base64url_to_long_b. set (bad := existsb (fun c => (c =? 43) || (c =? 47) || (c =? 61)) s).
  destruct bad eqn:B; unfold bad in B; clear bad.
  - split; [destruct (urlsafe_b64decode (s ++ [61; 61])); discriminate|]. intros [(N1 & N2 & N3) _]. exfalso. apply existsb_exists in B. destruct B as (c & I & E).
    rewrite !orb_true_iff, !Z.eqb_eq in E. destruct E as [[-> | ->]| ->]; auto.
  - assert (NI : forall c, c = 43 \/ c = 47 \/ c = 61 -> ~ In c s).
    { intros c H I. assert (X : existsb (fun c => (c =? 43) || (c =? 47) || (c =? 61)) s = true) by (apply existsb_exists; exists c; split; [exact I|lia]). rewrite X in B. discriminate B. }
    pose proof (to_long s (NI 61 ltac:(tauto))) as T. cbv zeta in T. unfold base64_to_long_b in T. rewrite T. cbv zeta. set (n := Z.of_nat (length (digits64 s))).
    split.
    + intro H. split; [repeat split; apply NI; tauto|]. destruct (n =? 0) eqn:E0; [discriminate H|]. destruct (n mod 4 =? 1) eqn:E1; [discriminate H|]. injection H as <-. repeat split; lia.
    + intros [_ (H1 & H2 & ->)]. destruct (n =? 0) eqn:E0; [lia|]. destruct (n mod 4 =? 1) eqn:E1; [lia|]. reflexivity.
Qed.

(** ** Padding inside the octets given to base64_to_long *)
Fixpoint put_front (l : list Z) (r : res bytes) : res bytes := match l with [] => r | x :: l => t <- put_front l r;; Ok (x :: t) end.
Lemma put_bind : forall l r x, put_front (x :: l) r = t <- put_front l r;; Ok (x :: t).
Proof. reflexivity. Qed.
(** After a text without padding the decoder is in a state that depends on its digits only. *)
Lemma a2b_reach : forall s q lc, nopad s -> 0 <= q <= 3 -> exists lc' out, forall r, a2b (map tr_dec s ++ r) q lc 0 = put_front out (a2b r ((q + Z.of_nat (length (digits64 s))) mod 4) lc' 0).
Proof.
  induction s as [|c s IH]; intros q lc N Q.
  - exists lc, []. intro r. cbn [map app digits64 length put_front]. rewrite Z.add_0_r, Z.mod_small by lia. reflexivity.
  - assert (NC : (c =? 61) = false) by (apply Z.eqb_neq; intro X; apply N; left; exact X). assert (NS : nopad s) by (intro X; apply N; right; exact X).
    cbn [map app a2b digits64]. destruct (digit64 c) as [v|] eqn:DV.
    + cbn [length]. rewrite Nat2Z.inj_succ. assert (QQ : q = 0 \/ q = 1 \/ q = 2 \/ q = 3) by lia. destruct QQ as [-> |[-> |[-> | ->]]].
      * destruct (IH 1 v NS ltac:(lia)) as (lc' & out & H). exists lc', out. intro r. rewrite not_pad, NC, digit_val, DV. cbn [Z.eqb]. rewrite H. replace (0 + Z.succ (Z.of_nat (length (digits64 s)))) with (1 + Z.of_nat (length (digits64 s))) by lia. reflexivity.
      * destruct (IH 2 (v mod 16) NS ltac:(lia)) as (lc' & out & H). exists lc', (lc * 4 + v / 16 :: out). intro r. rewrite not_pad, NC, digit_val, DV. cbn [Z.eqb Pos.eqb put_front]. rewrite H. replace (1 + Z.succ (Z.of_nat (length (digits64 s)))) with (2 + Z.of_nat (length (digits64 s))) by lia. reflexivity.
      * destruct (IH 3 (v mod 4) NS ltac:(lia)) as (lc' & out & H). exists lc', (lc * 16 + v / 4 :: out). intro r. rewrite not_pad, NC, digit_val, DV. cbn [Z.eqb Pos.eqb put_front]. rewrite H. replace (2 + Z.succ (Z.of_nat (length (digits64 s)))) with (3 + Z.of_nat (length (digits64 s))) by lia. reflexivity.
      * destruct (IH 0 0 NS ltac:(lia)) as (lc' & out & H). exists lc', (lc * 64 + v :: out). intro r. rewrite not_pad, NC, digit_val, DV. cbn [Z.eqb Pos.eqb put_front]. rewrite H. replace ((3 + Z.succ (Z.of_nat (length (digits64 s)))) mod 4) with ((0 + Z.of_nat (length (digits64 s))) mod 4) by (Z.div_mod_to_equations; lia). reflexivity.
    + destruct (IH q lc NS Q) as (lc' & out & H). exists lc', out. intro r. rewrite not_pad, NC, digit_val, DV. apply H.
Qed.
Lemma a2b_nil_lc : forall r lc lc', a2b r 0 lc 0 = a2b r 0 lc' 0.
Proof.
  induction r as [|c r IH]; intros; [reflexivity|]. cbn [a2b]. destruct (c =? 61); [apply IH|]. destruct (b64_val c); [reflexivity|apply IH].
Qed.

(** Padding that completes a group ends the number. *)
Theorem padded : forall s rest, nopad s ->
  (Z.of_nat (length (digits64 s)) mod 4 = 2 -> base64_to_long_b (s ++ [61; 61] ++ rest) = base64_to_long_b s) /\
  (Z.of_nat (length (digits64 s)) mod 4 = 3 -> base64_to_long_b (s ++ [61] ++ rest) = base64_to_long_b s) /\
  (Z.of_nat (length (digits64 s)) mod 4 < 2 -> base64_to_long_b (s ++ [61] ++ rest) = base64_to_long_b (s ++ rest)).
Proof.
  intros s rest N. destruct (a2b_reach s 0 0 N ltac:(lia)) as (lc & out & H). rewrite Z.add_0_l in H. set (m := Z.of_nat (length (digits64 s)) mod 4) in *.
  unfold base64_to_long_b, urlsafe_b64decode. repeat split; intro M.
  - rewrite <- !app_assoc, !map_app. change (map tr_dec [61; 61]) with [61; 61]. rewrite !H, M. reflexivity.
  - rewrite <- !app_assoc, !map_app. change (map tr_dec [61; 61]) with [61; 61]. change (map tr_dec [61]) with [61]. rewrite !H, M. reflexivity.
  - rewrite <- !app_assoc, !map_app. change (map tr_dec [61; 61]) with [61; 61]. change (map tr_dec [61]) with [61]. rewrite !H. cbn [app a2b]. change (61 =? 61) with true. cbn iota.
    replace (m >=? 2) with false by lia. reflexivity.
Qed.
