(** The AES block function is a permutation of blocks for every key: [aes_law]. *)
From Coq Require Import ZArith List Bool Lia ZifyBool Ring.
From Verif Require Import Base BaseProofs CodecProofs Prims KeyWrapProofs Extra ExtraProofs Aes.
Import ListNotations.
Open Scope Z_scope.

Lemma sbox_byte : forall b, 0 <= b < 256 -> is_byte (sbox b) = true.
Proof. apply (sweep (fun b => is_byte (sbox b)) 256). vm_compute. reflexivity. Qed.
Lemma isbox_byte : forall b, 0 <= b < 256 -> is_byte (isbox b) = true.
Proof. apply (sweep (fun b => is_byte (isbox b)) 256). vm_compute. reflexivity. Qed.
Lemma isbox_sbox : forall b, 0 <= b < 256 -> isbox (sbox b) = b.
Proof. intros b B. apply Z.eqb_eq. revert b B. apply (sweep (fun b => isbox (sbox b) =? b) 256). vm_compute. reflexivity. Qed.
Lemma sbox_isbox : forall b, 0 <= b < 256 -> sbox (isbox b) = b.
Proof. intros b B. apply Z.eqb_eq. revert b B. apply (sweep (fun b => sbox (isbox b) =? b) 256). vm_compute. reflexivity. Qed.

Lemma map_byte_ok : forall f : Z -> Z, (forall b, 0 <= b < 256 -> is_byte (f b) = true) -> forall s, bytes_ok s = true -> bytes_ok (map f s) = true.
Proof.
  intros f F. induction s as [|x s IH]; intro H; [reflexivity|]. rewrite bytes_ok_cons in H. apply andb_prop in H. destruct H as [H1 H2].
  cbn [map]. rewrite bytes_ok_cons, IH by exact H2. apply is_byte_spec in H1. rewrite F by exact H1. reflexivity.
Qed.
Lemma map_inv : forall f g : Z -> Z, (forall b, 0 <= b < 256 -> g (f b) = b) -> forall s, bytes_ok s = true -> map g (map f s) = s.
Proof.
  intros f g F. induction s as [|x s IH]; intro H; [reflexivity|]. rewrite bytes_ok_cons in H. apply andb_prop in H. destruct H as [H1 H2].
  cbn [map]. rewrite IH by exact H2. apply is_byte_spec in H1. rewrite F by exact H1. reflexivity.
Qed.

Lemma sub_block : forall s, is_block s -> is_block (map sbox s).
Proof. intros s [L B]. split; [rewrite map_length; exact L|]. apply map_byte_ok; [apply sbox_byte|exact B]. Qed.
Lemma isub_block : forall s, is_block s -> is_block (map isbox s).
Proof. intros s [L B]. split; [rewrite map_length; exact L|]. apply map_byte_ok; [apply isbox_byte|exact B]. Qed.
Lemma isub_sub : forall s, is_block s -> map isbox (map sbox s) = s.
Proof. intros s [L B]. apply map_inv; [apply isbox_sbox|exact B]. Qed.
Lemma sub_isub : forall s, is_block s -> map sbox (map isbox s) = s.
Proof. intros s [L B]. apply map_inv; [apply sbox_isbox|exact B]. Qed.

Lemma block16 : forall s : bytes, length s = 16%nat -> exists a0 a1 a2 a3 a4 a5 a6 a7 a8 a9 a10 a11 a12 a13 a14 a15,
  s = [a0; a1; a2; a3; a4; a5; a6; a7; a8; a9; a10; a11; a12; a13; a14; a15].
Proof. intros s L. do 16 (destruct s as [|? s]; [discriminate L|]). destruct s; [|discriminate L]. repeat eexists. Qed.

Lemma bytes_ok_cons_inv : forall x s, bytes_ok (x :: s) = true -> 0 <= x < 256 /\ bytes_ok s = true.
Proof. intros x s H. rewrite bytes_ok_cons in H. apply andb_prop in H. destruct H as [H1 H2]. apply is_byte_spec in H1. split; assumption. Qed.

Lemma shift_perm : forall s (f : list nat), bytes_ok s = true -> bytes_ok (map (fun i => nth i s 0) f) = true.
Proof.
  intros s f B. induction f as [|i f IH]; [reflexivity|]. cbn [map]. rewrite bytes_ok_cons, IH, andb_true_r. apply is_byte_spec.
  destruct (nth_in_or_default i s 0) as [I| ->]; [apply bytes_ok_In with s; assumption|lia].
Qed.
Lemma shift_block : forall s, is_block s -> is_block (shift s).
Proof. intros s [L B]. split; [reflexivity|]. apply shift_perm. exact B. Qed.
Lemma ishift_block : forall s, is_block s -> is_block (ishift s).
Proof. intros s [L B]. split; [reflexivity|]. apply shift_perm. exact B. Qed.
Lemma ishift_shift : forall s, is_block s -> ishift (shift s) = s.
Proof. intros s [L B]. destruct (block16 s L) as (a0 & a1 & a2 & a3 & a4 & a5 & a6 & a7 & a8 & a9 & a10 & a11 & a12 & a13 & a14 & a15 & ->). reflexivity. Qed.
Lemma shift_ishift : forall s, is_block s -> shift (ishift s) = s.
Proof. intros s [L B]. destruct (block16 s L) as (a0 & a1 & a2 & a3 & a4 & a5 & a6 & a7 & a8 & a9 & a10 & a11 & a12 & a13 & a14 & a15 & ->). reflexivity. Qed.

(** ** MixColumns *)
Definition byte (a : Z) : Prop := 0 <= a < 256.
Lemma byte_lxor : forall a b, byte a -> byte b -> byte (Z.lxor a b).
Proof. intros a b A B. unfold byte in *. change 256 with (2 ^ 8) in *. apply lxor_bound; lia. Qed.
Lemma m2_byte : forall a, byte a -> byte (m2 a).
Proof. intros a A. apply is_byte_spec. revert a A. apply (sweep (fun a => is_byte (m2 a)) 256). vm_compute. reflexivity. Qed.
Lemma m4_byte : forall a, byte a -> byte (m4 a).
Proof. intros. apply m2_byte, m2_byte. assumption. Qed.
Lemma m8_byte : forall a, byte a -> byte (m8 a).
Proof. intros. apply m2_byte, m4_byte. assumption. Qed.
Lemma m3_byte : forall a, byte a -> byte (m3 a).
Proof. intros. apply byte_lxor; [apply m2_byte|]; assumption. Qed.
Lemma m9_byte : forall a, byte a -> byte (m9 a).
Proof. intros. apply byte_lxor; [apply m8_byte|]; assumption. Qed.
Lemma m11_byte : forall a, byte a -> byte (m11 a).
Proof. intros. apply byte_lxor; [apply m8_byte; assumption|apply m3_byte; assumption]. Qed.
Lemma m13_byte : forall a, byte a -> byte (m13 a).
Proof. intros. apply byte_lxor; [apply m8_byte; assumption|apply byte_lxor; [apply m4_byte|]; assumption]. Qed.
Lemma m14_byte : forall a, byte a -> byte (m14 a).
Proof. intros. apply byte_lxor; [apply m8_byte; assumption|apply byte_lxor; [apply m4_byte|apply m2_byte]; assumption]. Qed.
Lemma x4_byte : forall a b c d, byte a -> byte b -> byte c -> byte d -> byte (x4 a b c d).
Proof. intros. unfold x4. apply byte_lxor; apply byte_lxor; assumption. Qed.

Ltac xor_ac := apply Z.bits_inj'; let i := fresh "i" in intros i _; rewrite ?Z.lxor_spec; ring.

Lemma m2_alt : forall a, byte a -> m2 a = Z.lxor (Z.shiftl a 1) (if Z.testbit a 7 then 283 else 0).
Proof. intros a A. apply Z.eqb_eq. revert a A. apply (sweep (fun a => m2 a =? Z.lxor (Z.shiftl a 1) (if Z.testbit a 7 then 283 else 0)) 256). vm_compute. reflexivity. Qed.

Lemma m2_lxor : forall a b, byte a -> byte b -> m2 (Z.lxor a b) = Z.lxor (m2 a) (m2 b).
Proof.
  intros a b A B. rewrite !m2_alt by (try apply byte_lxor; assumption). rewrite Z.shiftl_lxor, Z.lxor_spec.
  destruct (Z.testbit a 7), (Z.testbit b 7); cbn [xorb]; rewrite ?Z.lxor_0_r; try xor_ac.
Qed.
Lemma m4_lxor : forall a b, byte a -> byte b -> m4 (Z.lxor a b) = Z.lxor (m4 a) (m4 b).
Proof. intros a b A B. unfold m4. rewrite m2_lxor by assumption. apply m2_lxor; apply m2_byte; assumption. Qed.
Lemma m8_lxor : forall a b, byte a -> byte b -> m8 (Z.lxor a b) = Z.lxor (m8 a) (m8 b).
Proof. intros a b A B. unfold m8. rewrite m4_lxor by assumption. apply m2_lxor; apply m4_byte; assumption. Qed.
Lemma m3_lxor : forall a b, byte a -> byte b -> m3 (Z.lxor a b) = Z.lxor (m3 a) (m3 b).
Proof. intros a b A B. unfold m3. rewrite m2_lxor by assumption. xor_ac. Qed.
Lemma m9_lxor : forall a b, byte a -> byte b -> m9 (Z.lxor a b) = Z.lxor (m9 a) (m9 b).
Proof. intros a b A B. unfold m9. rewrite m8_lxor by assumption. xor_ac. Qed.
Lemma m11_lxor : forall a b, byte a -> byte b -> m11 (Z.lxor a b) = Z.lxor (m11 a) (m11 b).
Proof. intros a b A B. unfold m11. rewrite m8_lxor, m2_lxor by assumption. xor_ac. Qed.
Lemma m13_lxor : forall a b, byte a -> byte b -> m13 (Z.lxor a b) = Z.lxor (m13 a) (m13 b).
Proof. intros a b A B. unfold m13. rewrite m8_lxor, m4_lxor by assumption. xor_ac. Qed.
Lemma m14_lxor : forall a b, byte a -> byte b -> m14 (Z.lxor a b) = Z.lxor (m14 a) (m14 b).
Proof. intros a b A B. unfold m14. rewrite m8_lxor, m4_lxor, m2_lxor by assumption. xor_ac. Qed.

Lemma lin_x4 : forall f, (forall a b, byte a -> byte b -> f (Z.lxor a b) = Z.lxor (f a) (f b)) -> forall a b c d, byte a -> byte b -> byte c -> byte d ->
  f (x4 a b c d) = x4 (f a) (f b) (f c) (f d).
Proof. intros f F a b c d A B C D. unfold x4. rewrite !F by (try apply byte_lxor; assumption). reflexivity. Qed.

(** 4x4 transpose of a sum *)
Lemma x4_transpose : forall a0 a1 a2 a3 b0 b1 b2 b3 c0 c1 c2 c3 d0 d1 d2 d3,
  x4 (x4 a0 a1 a2 a3) (x4 b0 b1 b2 b3) (x4 c0 c1 c2 c3) (x4 d0 d1 d2 d3) =
  x4 (x4 a0 b0 c0 d0) (x4 a1 b1 c1 d1) (x4 a2 b2 c2 d2) (x4 a3 b3 c3 d3).
Proof. intros. unfold x4. xor_ac. Qed.

Definition chk (f g h k : Z -> Z) (t : Z -> Z) : Prop := forall a, byte a -> x4 (f a) (g a) (h a) (k a) = t a.
Ltac sw f g h k t := let a := fresh in let A := fresh in intros a A; apply Z.eqb_eq; revert a A;
  apply (sweep (fun a => x4 (f a) (g a) (h a) (k a) =? t a) 256); vm_compute; reflexivity.
Definition idz (a : Z) := a.
Definition zz (a : Z) := 0.

Definition cmp (f g : Z -> Z) (a : Z) : Z := f (g a).
Lemma k1 : chk (cmp m14 m2) m11 m13 (cmp m9 m3) idz. Proof. sw (cmp m14 m2) m11 m13 (cmp m9 m3) idz. Qed.
Lemma k2 : chk (cmp m14 m3) (cmp m11 m2) m13 m9 zz. Proof. sw (cmp m14 m3) (cmp m11 m2) m13 m9 zz. Qed.
Lemma k3 : chk m14 (cmp m11 m3) (cmp m13 m2) m9 zz. Proof. sw m14 (cmp m11 m3) (cmp m13 m2) m9 zz. Qed.
Lemma k4 : chk m14 m11 (cmp m13 m3) (cmp m9 m2) zz. Proof. sw m14 m11 (cmp m13 m3) (cmp m9 m2) zz. Qed.

(** the same four identities for the other direction *)
Lemma l1 : chk (cmp m2 m14) (cmp m3 m9) m13 m11 idz. Proof. sw (cmp m2 m14) (cmp m3 m9) m13 m11 idz. Qed.
Lemma l2 : chk (cmp m2 m11) (cmp m3 m14) m9 m13 zz. Proof. sw (cmp m2 m11) (cmp m3 m14) m9 m13 zz. Qed.
Lemma l3 : chk (cmp m2 m13) (cmp m3 m11) m14 m9 zz. Proof. sw (cmp m2 m13) (cmp m3 m11) m14 m9 zz. Qed.
Lemma l4 : chk (cmp m2 m9) (cmp m3 m13) m11 m14 zz. Proof. sw (cmp m2 m9) (cmp m3 m13) m11 m14 zz. Qed.

Lemma x4_rot : forall a b c d, x4 a b c d = x4 b c d a.
Proof. intros. unfold x4. xor_ac. Qed.
Lemma x4_z1 : forall a, x4 a 0 0 0 = a.
Proof. intro a. unfold x4. rewrite !Z.lxor_0_r. reflexivity. Qed.

#[local] Hint Resolve m2_byte m3_byte m9_byte m11_byte m13_byte m14_byte x4_byte : bytes.

Lemma imix_mix_col : forall a b c d, byte a -> byte b -> byte c -> byte d ->
  forall e f g h, e = x4 (m2 a) (m3 b) c d -> f = x4 a (m2 b) (m3 c) d -> g = x4 a b (m2 c) (m3 d) -> h = x4 (m3 a) b c (m2 d) ->
  x4 (m14 e) (m11 f) (m13 g) (m9 h) = a /\ x4 (m9 e) (m14 f) (m11 g) (m13 h) = b /\ x4 (m13 e) (m9 f) (m14 g) (m11 h) = c /\ x4 (m11 e) (m13 f) (m9 g) (m14 h) = d.
Proof.
  intros a b c d A B C D e f g h -> -> -> ->.
  rewrite !(lin_x4 m14 m14_lxor), !(lin_x4 m11 m11_lxor), !(lin_x4 m13 m13_lxor), !(lin_x4 m9 m9_lxor) by auto with bytes.
  pose proof (k1 a A) as KA1. pose proof (k2 b B) as KB2. pose proof (k3 c C) as KC3. pose proof (k4 d D) as KD4.
  pose proof (k1 b B) as KB1. pose proof (k2 c C) as KC2. pose proof (k3 d D) as KD3. pose proof (k4 a A) as KA4.
  pose proof (k1 c C) as KC1. pose proof (k2 d D) as KD2. pose proof (k3 a A) as KA3. pose proof (k4 b B) as KB4.
  pose proof (k1 d D) as KD1. pose proof (k2 a A) as KA2. pose proof (k3 b B) as KB3. pose proof (k4 c C) as KC4.
  unfold cmp, idz, zz in *. repeat split; rewrite x4_transpose.
  - rewrite KA1, KB2, KC3, KD4. apply x4_z1.
  - rewrite (x4_rot (m9 (m2 a))), (x4_rot (m9 (m3 b))), (x4_rot (m9 c)), (x4_rot (m9 d)). rewrite KA4, KB1, KC2, KD3. rewrite x4_rot. apply x4_z1.
  - rewrite (x4_rot (m13 (m2 a))), (x4_rot (m13 (m3 b))), (x4_rot (m13 c)), (x4_rot (m13 d)).
    rewrite (x4_rot (m9 a)), (x4_rot (m9 (m2 b))), (x4_rot (m9 (m3 c))), (x4_rot (m9 d)). rewrite KA3, KB4, KC1, KD2. rewrite x4_rot, x4_rot. apply x4_z1.
  - rewrite <- (x4_rot (m14 (m3 a))), <- (x4_rot (m14 b)), <- (x4_rot (m14 c)), <- (x4_rot (m14 (m2 d))). rewrite KA2, KB3, KC4, KD1. rewrite <- x4_rot. apply x4_z1.
Qed.

Lemma mix_imix_col : forall a b c d, byte a -> byte b -> byte c -> byte d ->
  forall e f g h, e = x4 (m14 a) (m11 b) (m13 c) (m9 d) -> f = x4 (m9 a) (m14 b) (m11 c) (m13 d) ->
    g = x4 (m13 a) (m9 b) (m14 c) (m11 d) -> h = x4 (m11 a) (m13 b) (m9 c) (m14 d) ->
  x4 (m2 e) (m3 f) g h = a /\ x4 e (m2 f) (m3 g) h = b /\ x4 e f (m2 g) (m3 h) = c /\ x4 (m3 e) f g (m2 h) = d.
Proof.
  intros a b c d A B C D e f g h -> -> -> ->.
  rewrite !(lin_x4 m2 m2_lxor), !(lin_x4 m3 m3_lxor) by auto with bytes.
  pose proof (l1 a A) as KA1. pose proof (l2 b B) as KB2. pose proof (l3 c C) as KC3. pose proof (l4 d D) as KD4.
  pose proof (l1 b B) as KB1. pose proof (l2 c C) as KC2. pose proof (l3 d D) as KD3. pose proof (l4 a A) as KA4.
  pose proof (l1 c C) as KC1. pose proof (l2 d D) as KD2. pose proof (l3 a A) as KA3. pose proof (l4 b B) as KB4.
  pose proof (l1 d D) as KD1. pose proof (l2 a A) as KA2. pose proof (l3 b B) as KB3. pose proof (l4 c C) as KC4.
  unfold cmp, idz, zz in *. repeat split; rewrite x4_transpose.
  - rewrite KA1, KB2, KC3, KD4. apply x4_z1.
  - rewrite (x4_rot (m14 a)), (x4_rot (m11 b)), (x4_rot (m13 c)), (x4_rot (m9 d)). rewrite KA4, KB1, KC2, KD3. rewrite x4_rot. apply x4_z1.
  - rewrite (x4_rot (m14 a)), (x4_rot (m11 b)), (x4_rot (m13 c)), (x4_rot (m9 d)).
    rewrite (x4_rot (m9 a)), (x4_rot (m14 b)), (x4_rot (m11 c)), (x4_rot (m13 d)). rewrite KA3, KB4, KC1, KD2. rewrite x4_rot, x4_rot. apply x4_z1.
  - rewrite <- (x4_rot (m2 (m11 a))), <- (x4_rot (m2 (m13 b))), <- (x4_rot (m2 (m9 c))), <- (x4_rot (m2 (m14 d))). rewrite KA2, KB3, KC4, KD1. rewrite <- x4_rot. apply x4_z1.
Qed.

Opaque m2 m3 m9 m11 m13 m14 x4 sbox isbox.

(** column-wise induction *)
Lemma mix_cols : forall n s, length s = (4 * n)%nat -> bytes_ok s = true ->
  length (mix s) = (4 * n)%nat /\ bytes_ok (mix s) = true /\ imix (mix s) = s /\ length (imix s) = (4 * n)%nat /\ bytes_ok (imix s) = true /\ mix (imix s) = s.
Proof.
  induction n as [|n IH]; intros s L B; [destruct s; [repeat split|discriminate]|].
  do 4 (destruct s as [|? s]; [cbn in L; lia|]). apply bytes_ok_cons_inv in B. destruct B as [B1 B]. apply bytes_ok_cons_inv in B. destruct B as [B2 B].
  apply bytes_ok_cons_inv in B. destruct B as [B3 B]. apply bytes_ok_cons_inv in B. destruct B as [B4 B].
  destruct (IH s) as (I1 & I2 & I3 & I4 & I5 & I6); [cbn in L; lia|exact B|]. fold (byte z) in B1. fold (byte z0) in B2. fold (byte z1) in B3. fold (byte z2) in B4.
  destruct (imix_mix_col z z0 z1 z2 B1 B2 B3 B4 _ _ _ _ eq_refl eq_refl eq_refl eq_refl) as (E1 & E2 & E3 & E4).
  destruct (mix_imix_col z z0 z1 z2 B1 B2 B3 B4 _ _ _ _ eq_refl eq_refl eq_refl eq_refl) as (F1 & F2 & F3 & F4).
  assert (W : forall x t, byte x -> bytes_ok t = true -> bytes_ok (x :: t) = true).
  { intros x t X T. rewrite bytes_ok_cons, T, andb_true_r. apply is_byte_spec. exact X. }
  cbn [mix imix length]. rewrite I1, I4, I3, I6, E1, E2, E3, E4, F1, F2, F3, F4.
  repeat split; try lia; repeat (apply W; [auto with bytes|]); assumption.
Qed.

Lemma mix_block : forall s, is_block s -> is_block (mix s) /\ imix (mix s) = s /\ is_block (imix s) /\ mix (imix s) = s.
Proof. intros s [L B]. destruct (mix_cols 4 s L B) as (I1 & I2 & I3 & I4 & I5 & I6). repeat split; assumption. Qed.

(** ** Rounds *)
Lemma round_inv : forall s k, is_block s -> is_block k -> is_block (enc_round s k) /\ dec_round (enc_round s k) k = s /\ is_block (dec_round s k) /\ enc_round (dec_round s k) k = s.
Proof.
  intros s k S K. unfold enc_round, dec_round.
  pose proof (sub_block s S) as S1. pose proof (shift_block _ S1) as S2. destruct (mix_block _ S2) as (S3 & M3 & _).
  assert (L3 : length (mix (shift (map sbox s))) = length k) by (destruct S3 as [-> _], K as [-> _]; reflexivity).
  pose proof (bxor_block s k S K) as T1. destruct (mix_block _ T1) as (_ & _ & T2 & M2). pose proof (ishift_block _ T2) as T3. pose proof (isub_block _ T3) as T4.
  split; [apply bxor_block; assumption|]. split; [|split; [exact T4|]].
  - rewrite bxor_cancel by exact L3. rewrite M3, ishift_shift by exact S1. apply isub_sub. exact S.
  - rewrite sub_isub by exact T3. rewrite shift_ishift by exact T2. rewrite M2. apply bxor_cancel. destruct S as [-> _], K as [-> _]. reflexivity.
Qed.

Lemma rounds_inv : forall ks s, Forall is_block ks -> is_block s ->
  is_block (fold_left enc_round ks s) /\ fold_left dec_round (rev ks) (fold_left enc_round ks s) = s.
Proof.
  induction ks as [|k ks IH]; intros s F S; [split; [exact S|reflexivity]|]. inversion_clear F as [|? ? K F2]. cbn [fold_left rev].
  destruct (round_inv s k S K) as (R1 & R2 & _). destruct (IH _ F2 R1) as [I1 I2]. split; [exact I1|]. rewrite fold_left_app, I2. cbn [fold_left]. exact R2.
Qed.
Lemma rounds_inv2 : forall ks s, Forall is_block ks -> is_block s ->
  is_block (fold_left dec_round (rev ks) s) /\ fold_left enc_round ks (fold_left dec_round (rev ks) s) = s.
Proof.
  induction ks as [|k ks IH]; intros s F S; [split; [exact S|reflexivity]|]. inversion_clear F as [|? ? K F2]. cbn [fold_left rev]. rewrite fold_left_app. cbn [fold_left].
  destruct (IH _ F2 S) as [I1 I2]. destruct (round_inv _ k I1 K) as (_ & _ & R3 & R4). split; [exact R3|]. rewrite R4. exact I2.
Qed.

(** ** Round keys are blocks *)
Definition word (w : bytes) : Prop := length w = 4%nat /\ bytes_ok w = true.
Lemma rcon_byte : forall i, byte (rcon i).
Proof. induction i as [|i IH]; [unfold byte; cbn; lia|]. cbn [rcon]. apply m2_byte. exact IH. Qed.

Lemma bxor_word : forall a b, word a -> word b -> word (bxor a b).
Proof. intros a b [A1 A2] [B1 B2]. split; [rewrite bxor_length; lia|apply bxor_ok; assumption]. Qed.

Lemma nth_word : forall ws i, Forall word ws -> (i < length ws)%nat -> word (nth i ws []).
Proof. intros ws i F I. rewrite Forall_forall in F. apply F. apply nth_In. exact I. Qed.

Lemma next_word_ok : forall nk ws, (0 < nk)%nat -> (nk <= length ws)%nat -> Forall word ws -> word (next_word nk ws).
Proof.
  intros nk ws N L F. unfold next_word. apply bxor_word; [apply nth_word; [exact F|lia]|].
  destruct (nth_word ws (length ws - 1) F ltac:(lia)) as [T1 T2]. set (t := nth (length ws - 1) ws []) in *.
  assert (SB : word (map sbox t)) by (split; [rewrite map_length; exact T1|apply map_byte_ok; [apply sbox_byte|exact T2]]).
  destruct (Nat.eqb (length ws mod nk) 0).
  - destruct (map sbox t) as [|a r]; [destruct SB; discriminate|]. destruct SB as [S1 S2]. apply bytes_ok_cons_inv in S2. destruct S2 as [S2 S3].
    apply bxor_word; split.
    + rewrite app_length. cbn in *. lia.
    + rewrite bytes_ok_app, S3. cbn [bytes_ok forallb]. rewrite (proj2 (is_byte_spec a)) by exact S2. reflexivity.
    + reflexivity.
    + cbn [bytes_ok forallb]. rewrite (proj2 (is_byte_spec (rcon (length ws / nk - 1)))); [reflexivity|apply rcon_byte].
  - destruct (Nat.ltb 6 nk && Nat.eqb (length ws mod nk) 4); [exact SB|split; assumption].
Qed.

Lemma expand_ok : forall n nk ws, (0 < nk)%nat -> (nk <= length ws)%nat -> Forall word ws -> Forall word (expand n nk ws) /\ length (expand n nk ws) = (n + length ws)%nat.
Proof.
  induction n as [|n IH]; intros nk ws N L F; [split; [exact F|reflexivity]|]. cbn [expand]. destruct (IH nk (ws ++ [next_word nk ws]) N) as [I1 I2].
  - rewrite app_length. lia.
  - apply Forall_app. split; [exact F|]. constructor; [|constructor]. apply next_word_ok; assumption.
  - split; [exact I1|]. rewrite I2, app_length. cbn. lia.
Qed.

Lemma words_ok : forall n k, (4 * n <= length k)%nat -> bytes_ok k = true -> Forall word (words n k) /\ length (words n k) = n.
Proof.
  induction n as [|n IH]; intros k L B; [split; [constructor|reflexivity]|]. cbn [words length]. destruct (IH (skipn 4 k)) as [I1 I2].
  - rewrite skipn_length. lia.
  - apply bytes_ok_skipn. exact B.
  - split; [constructor; [split; [rewrite firstn_length; lia|apply bytes_ok_firstn; exact B]|exact I1]|rewrite I2; reflexivity].
Qed.

Lemma concat_words : forall ws, Forall word ws -> length (concat ws) = (4 * length ws)%nat /\ bytes_ok (concat ws) = true.
Proof.
  induction ws as [|w ws IH]; intro F; [split; reflexivity|]. inversion_clear F as [|? ? [W1 W2] F2]. destruct (IH F2) as [I1 I2]. cbn [concat length].
  rewrite app_length, bytes_ok_app, I1, I2, W1, W2. split; [lia|reflexivity].
Qed.

Lemma round_keys_ok : forall key, aes_keysize key = true -> bytes_ok key = true -> Forall is_block (round_keys key) /\ (2 <= length (round_keys key))%nat.
Proof.
  intros key KS B. unfold round_keys. set (nk := (length key / 4)%nat).
  assert (NK : length key = (4 * nk)%nat /\ (4 <= nk)%nat).
  { unfold nk. unfold aes_keysize in KS. apply orb_prop in KS. destruct KS as [KS|KS]; [apply orb_prop in KS; destruct KS as [KS|KS]|]; apply Nat.eqb_eq in KS; rewrite KS; cbn; lia. }
  destruct NK as [NK N4]. destruct (words_ok nk key ltac:(lia) B) as [W1 W2].
  destruct (expand_ok (4 * (nk + 7) - nk) nk (words nk key) ltac:(lia) ltac:(lia) W1) as [E1 E2]. destruct (concat_words _ E1) as [C1 C2].
  split; [|rewrite blocks16_n_length; lia]. apply blocks16_n_ok; [lia|exact C2].
Qed.

Lemma removelast_last : forall (ks : list bytes), ks <> [] -> Forall is_block ks -> Forall is_block (removelast ks) /\ is_block (last ks []).
Proof.
  intros ks N F. rewrite (app_removelast_last [] N) in F. apply Forall_app in F. destruct F as [F1 F2]. inversion_clear F2. split; assumption.
Qed.

Theorem aes_inverse : forall k b, aes_keysize k = true -> bytes_ok k = true -> is_block b ->
  is_block (aes_enc k b) /\ is_block (aes_dec k b) /\ aes_dec k (aes_enc k b) = b /\ aes_enc k (aes_dec k b) = b.
Proof.
  intros k b KS KB B. destruct (round_keys_ok k KS KB) as [F L]. unfold aes_enc, aes_dec. destruct (round_keys k) as [|k0 ks]; [cbn in L; lia|].
  inversion_clear F as [|? ? K0 F2]. destruct (removelast_last ks) as [RL LK]; [intro E; subst; cbn in L; lia|exact F2|].
  set (lk := last ks []) in *. set (mk := removelast ks) in *.
  pose proof (bxor_block b k0 B K0) as B0. destruct (rounds_inv mk _ RL B0) as [E1 E2]. set (s := fold_left enc_round mk (bxor b k0)) in *.
  pose proof (sub_block s E1) as E3. pose proof (shift_block _ E3) as E4.
  pose proof (bxor_block b lk B LK) as D0. pose proof (ishift_block _ D0) as D1. pose proof (isub_block _ D1) as D2.
  destruct (rounds_inv2 mk _ RL D2) as [D3 D4].
  split; [apply bxor_block; assumption|]. split; [apply bxor_block; assumption|]. split.
  - rewrite (bxor_cancel (shift (map sbox s)) lk) by (destruct E4 as [-> _], LK as [-> _]; reflexivity).
    rewrite ishift_shift by exact E3. rewrite isub_sub by exact E1. rewrite E2. apply bxor_cancel. destruct B as [-> _], K0 as [-> _]. reflexivity.
  - set (t := fold_left dec_round (rev mk) (map isbox (ishift (bxor b lk)))) in *. rewrite bxor_cancel by (destruct D3 as [-> _], K0 as [-> _]; reflexivity).
    rewrite D4. rewrite sub_isub by exact D1. rewrite shift_ishift by exact D0. apply bxor_cancel. destruct B as [-> _], LK as [-> _]. reflexivity.
Qed.
