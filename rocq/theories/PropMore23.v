(** * C286: what aes_wrap_key accepts and what its result says *)
From Coq Require Import ZArith List Bool Lia.
From Verif Require Import Base BaseProofs Prims Inst KeyWrap KeyWrapProofs.
Import ListNotations.
Open Scope Z_scope.

(** It returns exactly for keys of 16, 24 or 32 octets and initial values of 64 bits. *)
Theorem C286_accepts : forall P kek key iv, aes_law P -> bytes_ok kek = true -> bytes_ok key = true -> Z.of_nat (length key) < 2 ^ 63 ->
  (In (length kek) [16; 24; 32]%nat -> 0 <= iv < 2 ^ 64 -> exists w, aes_wrap_key_iv P kek key iv = Ok w /\ length w = (8 * (length key / 8) + 8)%nat) /\
  (~ In (length kek) [16; 24; 32]%nat -> aes_wrap_key_iv P kek key iv = Raise EValueError) /\
  (In (length kek) [16; 24; 32]%nat -> ~ (0 <= iv < 2 ^ 64) -> aes_wrap_key_iv P kek key iv = Raise EStructError).
Proof.
  intros P kek key iv AL KB B L. assert (S : In (length kek) [16; 24; 32]%nat <-> aes_keysize kek = true).
  { unfold aes_keysize. rewrite !orb_true_iff, !Nat.eqb_eq. cbn [In]. intuition. }
  rewrite S. split; [|split].
  - intros K I. destruct (wrap_ok P kek AL K KB iv key B I L) as (w & E & _ & W & _). eauto.
  - intro K. unfold aes_wrap_key_iv, aes_new. destruct (aes_keysize kek); [exfalso; apply K; reflexivity|reflexivity].
  - intros K I. assert (Q : quad_pack iv = Raise EStructError) by (unfold quad_pack; replace ((0 <=? iv) && (iv <? 2 ^ 64)) with false by lia; reflexivity).
    unfold aes_wrap_key_iv, aes_new. rewrite K. cbn [bind]. set (n := (length key / 8)%nat). destruct n as [|n]; cbn [chunks8 wrap_rows wrap_row bind fst snd]; rewrite Q; reflexivity.
Qed.
Print Assumptions C286_accepts.

(** Two results are equal exactly if the initial values and the whole blocks of eight octets are. *)
Theorem C286_equal : forall P kek k1 k2 iv1 iv2, aes_law P -> bytes_ok kek = true -> In (length kek) [16; 24; 32]%nat ->
  bytes_ok k1 = true -> bytes_ok k2 = true -> Z.of_nat (length k1) < 2 ^ 63 -> Z.of_nat (length k2) < 2 ^ 63 -> 0 <= iv1 < 2 ^ 64 -> 0 <= iv2 < 2 ^ 64 ->
  (aes_wrap_key_iv P kek k1 iv1 = aes_wrap_key_iv P kek k2 iv2 <-> iv1 = iv2 /\ firstn (8 * (length k1 / 8)) k1 = firstn (8 * (length k2 / 8)) k2).
Proof.
  intros P kek k1 k2 iv1 iv2 AL KB S B1 B2 L1 L2 I1 I2.
  assert (K : aes_keysize kek = true) by (unfold aes_keysize; rewrite !orb_true_iff, !Nat.eqb_eq; cbn [In] in S; intuition).
  destruct (wrap_ok P kek AL K KB iv1 k1 B1 I1 L1) as (w1 & E1 & _ & _ & U1). destruct (wrap_ok P kek AL K KB iv2 k2 B2 I2 L2) as (w2 & E2 & _ & _ & U2). split.
  - intro E. rewrite E1, E2 in E. injection E as ->. rewrite U1 in U2. injection U2 as A C. split; [exact C|exact A].
  - intros [-> F].
    assert (D : forall k iv, aes_wrap_key_iv P kek k iv = aes_wrap_key_iv P kek (firstn (8 * (length k / 8)) k) iv).
    { intros k iv. set (m := (8 * (length k / 8))%nat). assert (N : (m <= length k)%nat) by (apply Nat.mul_div_le; lia). rewrite <- (firstn_skipn m k) at 1.
      apply wrap_drops.
      - rewrite firstn_length_le by exact N. unfold m. rewrite Nat.mul_comm. apply Nat.mod_mul. lia.
      - rewrite skipn_length. unfold m. pose proof (Nat.div_mod (length k) 8 ltac:(lia)). pose proof (Nat.mod_upper_bound (length k) 8 ltac:(lia)). lia. }
    rewrite (D k1), (D k2), F. reflexivity.
Qed.
Print Assumptions C286_equal.
Example C286_ex : aes_wrap_key_iv std (lit "0123456789abcdef") [] IV0 = Ok (z2be 8 IV0) /\ aes_wrap_key_iv std (lit "0123456789abcdef") [] (2 ^ 64) = Raise EStructError /\
  aes_wrap_key_iv std (lit "0123456789abcde") [] IV0 = Raise EValueError /\
  (w <- aes_wrap_key_iv std (lit "0123456789abcdef") (lit "sevenoctets") 5;; Ok (length w)) = Ok 16%nat.
Proof. vm_compute. repeat split. Qed.
