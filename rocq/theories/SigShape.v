(** * The octet strings ECDSA verification accepts (ecc.py:101-113), whatever their length *)
From Coq Require Import ZArith List Bool Lia ZifyBool.
From Verif Require Import Base BaseProofs Elliptic Ecc EccProofs EcAux.
Import ListNotations.
Open Scope Z_scope.

Lemma zeros_front : forall n b, bytes_ok b = true -> be2z b < 256 ^ Z.of_nat n -> (n <= length b)%nat -> exists t, b = repeat 0 (length b - n) ++ t /\ length t = n.
Proof.
  intros n b. induction b as [|x b IH]; intros B SM L; [exists []; cbn [length] in *; assert (n = 0)%nat by lia; subst n; split; reflexivity|].
  cbn [bytes_ok forallb] in B. apply andb_prop in B. destruct B as [BX B]. cbn [length] in L. destruct (Nat.eq_dec n (S (length b))) as [E|E].
  - exists (x :: b). cbn [length]. rewrite E, Nat.sub_diag. split; reflexivity.
  - assert (L' : (n <= length b)%nat) by lia. pose proof (be2z_bound b B) as BB. rewrite be2z_cons in SM. unfold is_byte in BX.
    assert (P : 256 ^ Z.of_nat n <= 256 ^ Z.of_nat (length b)) by (apply Z.pow_le_mono_r; lia). assert (x = 0) by nia. subst x.
    destruct (IH B ltac:(lia) L') as (t & E1 & E2). exists t. split; [|exact E2]. cbn [length]. replace (S (length b) - n)%nat with (S (length b - n)) by lia. cbn [repeat app]. rewrite <- E1. reflexivity.
Qed.

Lemma repeat_zero_bytes : forall k b, bytes_ok (repeat 0 k ++ b) = bytes_ok b.
Proof. induction k as [|k IH]; intro b; [reflexivity|]. cbn [repeat app bytes_ok forallb]. exact (IH b). Qed.

Section Shape.
Variable c : curve.
Hypothesis SC : sound_curve c.
Theorem accepted_shape : forall h sg pub, bytes_ok sg = true -> verify c h sg pub = Ok true ->
  exists sr ss k, Z.of_nat (length sr) = c_bytes c /\ Z.of_nat (length ss) = c_bytes c /\ verify c h (sr ++ ss) pub = Ok true /\
    (sg = sr ++ repeat 0 k ++ ss \/ exists t, ss = repeat 0 k ++ t /\ sg = sr ++ t).
Proof.
  intros h sg pub B V. pose proof (sc_bytes c SC) as CB. set (n := Z.to_nat (c_bytes c)). set (sr := firstn n sg). set (t := skipn n sg).
  assert (SP : sg = sr ++ t) by (symmetry; apply firstn_skipn).
  assert (BT : bytes_ok t = true) by (rewrite SP in B; unfold bytes_ok in *; rewrite forallb_app in B; apply andb_prop in B; apply B).
  assert (RG : 0 < be2z t < c_N c).
  { unfold verify in V. cbv zeta in V. fold n in V. fold t in V. fold sr in V. unfold bytes2int in V. destruct ((0 <? be2z sr) && (be2z sr <? c_N c) && ((0 <? be2z t) && (be2z t <? c_N c))) eqn:E; [lia|discriminate V]. }
  assert (LR : length sr = n).
  { unfold sr. apply firstn_length_le. destruct (Nat.le_gt_cases n (length sg)) as [L|L]; [exact L|]. exfalso. assert (t = []) by (apply skipn_all2; lia). rewrite H in RG. cbn in RG. lia. }
  pose proof (sc_Nsize c SC) as NS. assert (N' : 256 ^ c_bytes c = 256 ^ Z.of_nat n) by (unfold n; rewrite Z2Nat.id by lia; reflexivity).
  destruct (Nat.le_gt_cases n (length t)) as [L|L].
  - destruct (zeros_front n t BT ltac:(lia) L) as (ss & E & LS). exists sr, ss, (length t - n)%nat. split; [lia|]. split; [lia|].
    assert (E2 : sg = sr ++ repeat 0 (length t - n) ++ ss) by (rewrite <- E; exact SP). split; [|left; exact E2].
    rewrite <- (verify_longer c SC h sr ss pub (length t - n)) by (fold n; exact LR). rewrite <- E2. exact V.
  - exists sr, (repeat 0 (n - length t) ++ t), (n - length t)%nat. split; [lia|]. split; [rewrite app_length, repeat_length; lia|]. split; [|right; exists t; split; [reflexivity|exact SP]].
    rewrite (verify_longer c SC h sr t pub (n - length t)) by (fold n; exact LR). rewrite <- SP. exact V.
Qed.

(** The numbers decide; nothing else of the octets does. *)
Theorem same_numbers : forall h sr ss sr' ss' pub, Z.of_nat (length sr) = c_bytes c -> Z.of_nat (length sr') = c_bytes c -> be2z sr = be2z sr' -> be2z ss = be2z ss' ->
  verify c h (sr ++ ss) pub = verify c h (sr' ++ ss') pub.
Proof.
  intros h sr ss sr' ss' pub L L' R SS. pose proof (sc_bytes c SC) as CB. unfold verify, bytes2int.
  assert (FS : forall a b : bytes, Z.of_nat (length a) = c_bytes c -> firstn (Z.to_nat (c_bytes c)) (a ++ b) = a /\ skipn (Z.to_nat (c_bytes c)) (a ++ b) = b).
  { intros a b LA. assert (E : Z.to_nat (c_bytes c) = length a) by lia. rewrite E, firstn_app, skipn_app, firstn_all, skipn_all, Nat.sub_diag, firstn_O, skipn_O, app_nil_r. split; reflexivity. }
  destruct (FS sr ss L) as [-> ->]. destruct (FS sr' ss' L') as [-> ->]. rewrite R, SS. reflexivity.
Qed.
End Shape.
