(** Proofs about aes_gcm.py: the table, GHASH, counter mode, encryption and decryption. *)
From Coq Require Import ZArith List Bool Lia ZifyBool.
From Verif Require Import Base BaseProofs Prims KeyWrap KeyWrapProofs Elliptic Ecc EccProofs Extra ExtraProofs Gcm GcmSpec GcmProofs.
Import ListNotations.
Open Scope Z_scope.

Ltac Zify.zify_post_hook ::= Z.div_mod_to_equations.

Lemma rev128_mod : forall x, rev128 (x mod 2 ^ 128) = rev128 x.
Proof.
  intro x. apply Z.bits_inj'. intros i I. rewrite !rev128_spec by lia. destruct (i <? 128) eqn:E; [|reflexivity]. cbn [andb].
  apply Z.mod_pow2_bits_low. lia.
Qed.
Lemma bmul_mod_r : forall x y, bmul x (y mod 2 ^ 128) = bmul x y.
Proof. intros x y. unfold bmul. rewrite rev128_mod. reflexivity. Qed.

Lemma bmul_bound : forall x y, 0 <= bmul x y < 2 ^ 128.
Proof. intros x y. destruct (bmul_ok x y) as [B _]. exact B. Qed.
Lemma bmul_nonneg : forall x y, 0 <= bmul x y.
Proof. intros x y. destruct (bmul_bound x y) as [B _]. exact B. Qed.
Global Opaque bmul.

(** ** The table *)
Definition row (h i : Z) : list Z := map (fun j => bmul h (Z.shiftl j (8 * i))) (zrange 256).
Definition table (h : Z) : list (list Z) := map (row h) (zrange 16).

Lemma mapM_ok_map : forall A B (f : A -> res B) (g : A -> B) l, (forall x, In x l -> f x = Ok (g x)) -> mapM f l = Ok (map g l).
Proof.
  intros A B f g l H. induction l as [|x l IH]; [reflexivity|]. cbn [mapM map]. rewrite H by (left; reflexivity). cbn [bind].
  rewrite IH by (intros y Y; apply H; right; exact Y). reflexivity.
Qed.

Lemma zrange_In : forall n x, In x (zrange n) <-> 0 <= x < Z.of_nat n.
Proof.
  intros n x. unfold zrange. rewrite in_map_iff. split.
  - intros (k & <- & K). apply in_seq in K. lia.
  - intro H. exists (Z.to_nat x). split; [lia|]. apply in_seq. lia.
Qed.

Lemma make_table_ok : forall h, 0 <= h < 2 ^ 128 -> make_table h = Ok (table h).
Proof.
  intros h H. unfold make_table, table. apply mapM_ok_map. intros i I. apply zrange_In in I. apply mapM_ok_map. intros j J. apply zrange_In in J.
  apply gf_mul_bmul; [exact H|]. rewrite Z.shiftl_mul_pow2 by lia. change (Z.of_nat 256) with (2 ^ 8) in J. change (Z.of_nat 16) with 16 in I.
  assert (B : 2 ^ (8 * i) <= 2 ^ 120) by (apply Z.pow_le_mono_r; lia). assert (0 < 2 ^ (8 * i)) by (apply Z.pow_pos_nonneg; lia).
  replace (2 ^ 128) with (2 ^ 8 * 2 ^ 120) by reflexivity. nia.
Qed.

Lemma nth_row : forall h i j, 0 <= j < 256 -> nth (Z.to_nat j) (row h i) 0 = bmul h (Z.shiftl j (8 * i)).
Proof.
  intros h i j J. unfold row, zrange. rewrite map_map.
  rewrite nth_indep with (d' := (fun x => bmul h (Z.shiftl (Z.of_nat x) (8 * i))) 0%nat) by (rewrite map_length, seq_length; lia).
  rewrite (map_nth (fun x => bmul h (Z.shiftl (Z.of_nat x) (8 * i)))), seq_nth by lia. rewrite Nat.add_0_l, Z2Nat.id by lia. reflexivity.
Qed.

Lemma times_rows_ok : forall n k h val res, 0 <= val ->
  times_rows (map (row h) (map Z.of_nat (seq k n))) val res = Z.lxor res (bmul h (Z.shiftl (val mod 2 ^ (8 * Z.of_nat n)) (8 * Z.of_nat k))).
Proof.
  induction n as [|n IH]; intros k h val res V.
  - cbn [seq map times_rows]. replace (2 ^ (8 * Z.of_nat 0)) with 1 by reflexivity. rewrite Z.mod_1_r, Z.shiftl_0_l, bmul_0_r, Z.lxor_0_r. reflexivity.
  - cbn [seq map times_rows]. rewrite IH by (apply Z.shiftr_nonneg; exact V).
    assert (L : 0 <= Z.land val 255 < 256) by (change 255 with (Z.ones 8); rewrite Z.land_ones by lia; apply Z.mod_pos_bound; lia).
    rewrite nth_row by exact L. rewrite Z.lxor_assoc. f_equal. rewrite <- bmul_lxor_r. f_equal.
    apply Z.bits_inj'. intros i I. rewrite Z.lxor_spec, !Z.shiftl_spec by lia.
    destruct (Z.lt_ge_cases i (8 * Z.of_nat k)) as [A|A].
    { rewrite !Z.testbit_neg_r by lia. reflexivity. }
    change 255 with (Z.ones 8). rewrite Z.land_spec.
    destruct (Z.lt_ge_cases i (8 * Z.of_nat k + 8)) as [B|B].
    + rewrite Z.ones_spec_low, andb_true_r by lia. rewrite (Z.testbit_neg_r _ (i - 8 * Z.of_nat (S k))) by lia. rewrite xorb_false_r.
      rewrite Z.mod_pow2_bits_low by lia. reflexivity.
    + rewrite Z.ones_spec_high, andb_false_r by lia. rewrite xorb_false_l.
      destruct (Z.lt_ge_cases i (8 * Z.of_nat k + 8 * Z.of_nat (S n))) as [C|C].
      * rewrite !Z.mod_pow2_bits_low by lia. rewrite Z.shiftr_spec by lia. f_equal. lia.
      * rewrite !Z.mod_pow2_bits_high by lia. reflexivity.
Qed.

Lemma times_table : forall h val, 0 <= val -> times_rows (table h) val 0 = bmul h val.
Proof.
  intros h val V. unfold table, zrange. rewrite times_rows_ok by exact V. rewrite Z.lxor_0_l. change (8 * Z.of_nat 0) with 0. rewrite Z.shiftl_0_r.
  change (8 * Z.of_nat 16) with 128. apply bmul_mod_r.
Qed.

(** ** GHASH *)
Lemma pad16_zpad : forall s, pad16 s = zpad s.
Proof.
  intro s. unfold pad16, zpad. pose proof (Nat.div_mod (length s) 16 ltac:(lia)) as D. pose proof (Nat.mod_upper_bound (length s) 16 ltac:(lia)) as B.
  destruct (Nat.eqb (length s mod 16) 0) eqn:E.
  - apply Nat.eqb_eq in E. replace (Z.to_nat (- Z.of_nat (length s) mod 16)) with 0%nat by lia. cbn [repeat]. rewrite app_nil_r. reflexivity.
  - apply Nat.eqb_neq in E. do 2 f_equal. lia.
Qed.

Lemma zpad_nblocks : forall s, (length (zpad s) = 16 * ((length s + 15) / 16))%nat.
Proof. intro s. unfold zpad. rewrite app_length, repeat_length. pose proof (Nat.div_mod (length s + 15) 16 ltac:(lia)). pose proof (Nat.mod_upper_bound (length s + 15) 16 ltac:(lia)). lia. Qed.

Lemma zpad_length : forall s, (length (zpad s) mod 16 = 0)%nat.
Proof. intro s. rewrite zpad_nblocks, Nat.mul_comm. apply Nat.mod_mul. lia. Qed.
Lemma zpad_ok : forall s, bytes_ok (zpad s) = bytes_ok s.
Proof. intro s. unfold zpad. rewrite bytes_ok_app, bytes_ok_repeat by reflexivity. apply andb_true_r. Qed.

Lemma to_blocks_map : forall n s, to_blocks n s = map be2z (blocks16_n n s).
Proof. induction n as [|n IH]; intro s; [reflexivity|]. cbn [to_blocks blocks16_n map]. rewrite IH. reflexivity. Qed.

Lemma blocks16_n_app : forall n s t, length s = (16 * n)%nat -> length t = 16%nat -> blocks16_n (S n) (s ++ t) = blocks16_n n s ++ [t].
Proof.
  induction n as [|n IH]; intros s t S T.
  - destruct s; [|discriminate]. cbn [blocks16_n app]. rewrite firstn_all2 by lia. reflexivity.
  - change (blocks16_n (Datatypes.S (Datatypes.S n)) (s ++ t)) with (firstn 16 (s ++ t) :: blocks16_n (Datatypes.S n) (skipn 16 (s ++ t))).
    rewrite firstn_app, skipn_app. replace (16 - length s)%nat with 0%nat by lia. rewrite firstn_O, skipn_O, app_nil_r.
    rewrite IH by (rewrite ?skipn_length; lia). reflexivity.
Qed.

Lemma fold_inv : forall (I : Z -> Prop) (f : Z -> Z -> Z), (forall x y, I (f x y)) -> forall bl a, I a -> I (fold_left f bl a).
Proof. intros I f F. induction bl as [|b bl IH]; intros a A; [exact A|]. cbn [fold_left]. apply IH. apply F. Qed.

Lemma fold_lxor_nonneg : forall h bl a, 0 <= a -> 0 <= fold_left (fun y x => bmul (Z.lxor y x) h) bl a.
Proof. intros h bl a A. apply (fold_inv (fun z => 0 <= z)); [|exact A]. intros x y. apply bmul_nonneg. Qed.

Lemma fold_map_eq : forall (I : Z -> Prop) (f : Z -> bytes -> Z) (g : Z -> Z -> Z),
  (forall a b, I a -> is_block b -> f a b = g a (be2z b)) -> (forall a x, I (g a x)) ->
  forall bl a, I a -> Forall is_block bl -> fold_left f bl a = fold_left g (map be2z bl) a.
Proof.
  intros I f g F G. induction bl as [|b bl IH]; intros a A B; [reflexivity|]. inversion_clear B. cbn [map fold_left]. rewrite F by assumption. apply IH; [apply G|assumption].
Qed.

Lemma len_block : forall a b, 0 <= a < 2 ^ 64 -> 0 <= b < 2 ^ 64 -> be2z (z2be 8 a ++ z2be 8 b) = Z.lor (Z.shiftl a 64) b.
Proof.
  intros a b A B. rewrite be2z_app, z2be_length, !be2z_z2be by assumption. change (256 ^ Z.of_nat 8) with (2 ^ 64).
  rewrite Z.shiftl_mul_pow2 by lia. rewrite <- Z.lxor_lor.
  - apply Z.add_nocarry_lxor. rewrite <- Z.shiftl_mul_pow2 by lia. apply Z.bits_inj'. intros i I. rewrite Z.land_spec, Z.testbit_0_l, Z.shiftl_spec by lia.
    destruct (Z.lt_ge_cases i 64); [rewrite Z.testbit_neg_r by lia; reflexivity|]. rewrite (bits_small b 64) by lia. apply andb_false_r.
  - rewrite <- Z.shiftl_mul_pow2 by lia. apply Z.bits_inj'. intros i I. rewrite Z.land_spec, Z.testbit_0_l, Z.shiftl_spec by lia.
    destruct (Z.lt_ge_cases i 64); [rewrite Z.testbit_neg_r by lia; reflexivity|]. rewrite (bits_small b 64) by lia. apply andb_false_r.
Qed.

Lemma ghash_ok : forall g h aad txt, g_table g = table h -> bytes_ok aad = true -> bytes_ok txt = true ->
  8 * Z.of_nat (length aad) < 2 ^ 64 -> 8 * Z.of_nat (length txt) < 2 ^ 64 ->
  ghash g aad txt = ghash_spec h aad txt.
Proof.
  intros g h aad txt T BA BT LA LT. unfold ghash, ghash_spec, ghash_blocks. rewrite !pad16_zpad.
  set (data := zpad aad ++ zpad txt). set (lb := z2be 8 (8 * Z.of_nat (length aad)) ++ z2be 8 (8 * Z.of_nat (length txt))).
  assert (DL : (length data mod 16 = 0)%nat). { unfold data. rewrite app_length, !zpad_nblocks, <- Nat.mul_add_distr_l, Nat.mul_comm. apply Nat.mod_mul. lia. }
  assert (DB : bytes_ok data = true) by (unfold data; rewrite bytes_ok_app, !zpad_ok, BA, BT; reflexivity).
  assert (LL : length lb = 16%nat) by (unfold lb; rewrite app_length, !z2be_length; reflexivity).
  replace (zpad aad ++ zpad txt ++ lb) with (data ++ lb) by (unfold data; rewrite <- app_assoc; reflexivity).
  assert (N : length data = (16 * ((length data + 15) / 16))%nat) by (apply mod16_nblocks; exact DL).
  rewrite app_length, LL. replace ((length data + 16) / 16)%nat with (S ((length data + 15) / 16)).
  2:{ apply (Nat.div_unique _ 16 _ 0); lia. }
  rewrite to_blocks_map, blocks16_n_app by assumption. rewrite map_app, fold_left_app. cbn [map fold_left]. fold (blocks16 data).
  assert (F : forall a b, 0 <= a -> is_block b -> times_auth_key g (Z.lxor a (be2z b)) = bmul (Z.lxor a (be2z b)) h).
  { intros a b A [B1 B2]. unfold times_auth_key. rewrite T, times_table; [apply bmul_comm|]. apply Z.lxor_nonneg. pose proof (be2z_bound b B2). lia. }
  destruct (blocks16_ok data DL DB) as (FB & _ & _).
  rewrite (fold_map_eq (fun z => 0 <= z) _ (fun y x => bmul (Z.lxor y x) h) F) by (try exact FB; try lia; intros; apply bmul_nonneg).
  pose proof (fold_lxor_nonneg h (map be2z (blocks16 data)) 0 ltac:(lia)) as FN.
  set (acc := fold_left (fun y x => bmul (Z.lxor y x) h) (map be2z (blocks16 data)) 0) in *. clearbody acc.
  rewrite <- len_block by lia. fold lb. apply F; [exact FN|]. split; [exact LL|]. unfold lb. rewrite bytes_ok_app, !z2be_ok. reflexivity.
Qed.

(** ** Counter mode *)
Lemma bxor_stream : forall a b, bxor a b = xor_stream a b.
Proof. induction a as [|x a IH]; destruct b as [|y b]; try reflexivity. cbn [bxor]. rewrite IH. reflexivity. Qed.

Lemma bxor_app : forall a b c d, length a = length b -> bxor (a ++ c) (b ++ d) = bxor a b ++ bxor c d.
Proof. induction a as [|x a IH]; destruct b as [|y b]; intros c d L; try discriminate; [reflexivity|]. cbn in *. rewrite IH by lia. reflexivity. Qed.

Lemma bxor_nil_r : forall a, bxor a [] = [].
Proof. destruct a; reflexivity. Qed.
Lemma bxor_app_r : forall a b c, (length a <= length b)%nat -> bxor a (b ++ c) = bxor a b.
Proof. induction a as [|x a IH]; intros b c L; [reflexivity|]. destruct b as [|y b]; [cbn in L; lia|]. cbn in *. rewrite IH by lia. reflexivity. Qed.
Lemma firstn_bxor_app : forall a p b, firstn (length a) (bxor (a ++ p) b) = bxor a b.
Proof. induction a as [|x a IH]; intros p b; [reflexivity|]. destruct b as [|y b]; [reflexivity|]. cbn. rewrite IH. reflexivity. Qed.

Lemma bxor_length_le : forall a b, (length a <= length b)%nat -> length (bxor a b) = length a.
Proof. induction a as [|x a IH]; destruct b; intro H; cbn in *; try lia. rewrite IH; lia. Qed.
Lemma bxor_cancel_le : forall a b, (length a <= length b)%nat -> bxor (bxor a b) b = a.
Proof. induction a as [|x a IH]; destruct b as [|y b]; intro H; cbn in *; try lia; try reflexivity. rewrite lxor_cancel, IH by lia. reflexivity. Qed.

Lemma long_to_bytes_fit : forall n bs, 0 <= n < 256 ^ bs -> 0 < bs -> long_to_bytes n bs = z2be (Z.to_nat bs) n.
Proof.
  intros n bs N B. unfold long_to_bytes. f_equal. f_equal. assert (L : Z.log2 n / 8 + 1 <= bs).
  { destruct (Z.eq_dec n 0) as [->|]; [cbn; lia|]. assert (Z.log2 n < 8 * bs); [|lia]. apply Z.log2_lt_pow2; [lia|].
    rewrite Z.pow_mul_r by lia. apply N. }
  pose proof (Z.log2_nonneg n) as LN.
  replace ((Z.log2 n / 8 + 1 + bs - 1) / bs) with 1; [lia|]. apply (Z.div_unique _ _ _ (Z.log2 n / 8)); lia.
Qed.

Section Gcm.
Variable P : prims.
Hypothesis AES : aes_law P.
Variable key : bytes.
Hypothesis KS : aes_keysize key = true.
Hypothesis KB : bytes_ok key = true.

Lemma ctr_in_block : forall iv c, length iv = 12%nat -> bytes_ok iv = true -> is_block (p_aes_enc P key (iv ++ z2be 4 c)).
Proof.
  intros iv c L B. apply AES; try assumption. split; [rewrite app_length, z2be_length; lia|]. rewrite bytes_ok_app, B, z2be_ok. reflexivity.
Qed.

Definition ks_from (iv : bytes) (c n : nat) : bytes := concat (map (fun i => p_aes_enc P key (iv ++ z2be 4 ((2 + Z.of_nat i) mod 2 ^ 32))) (seq c n)).
Lemma ks_from_length : forall n iv c, length iv = 12%nat -> bytes_ok iv = true -> length (ks_from iv c n) = (16 * n)%nat.
Proof.
  induction n as [|n IH]; intros iv c L B; [reflexivity|]. unfold ks_from in *. cbn [seq map concat]. rewrite app_length, IH by assumption.
  destruct (ctr_in_block iv ((2 + Z.of_nat c) mod 2 ^ 32) L B) as [-> _]. lia.
Qed.
Lemma ks_from_ok : forall n iv c, length iv = 12%nat -> bytes_ok iv = true -> bytes_ok (ks_from iv c n) = true.
Proof.
  induction n as [|n IH]; intros iv c L B; [reflexivity|]. unfold ks_from in *. cbn [seq map concat]. rewrite bytes_ok_app, IH by assumption.
  destruct (ctr_in_block iv ((2 + Z.of_nat c) mod 2 ^ 32) L B) as [_ ->]. reflexivity.
Qed.

Lemma ctr_blocks_ok : forall bl iv c, length iv = 12%nat -> bytes_ok iv = true -> Forall (fun b : bytes => length b = 16%nat) bl ->
  ctr_blocks P key iv (2 + Z.of_nat c) bl = bxor (concat bl) (ks_from iv c (length bl)).
Proof.
  induction bl as [|b bl IH]; intros iv c L B F; [reflexivity|]. inversion_clear F as [|? ? LB F2]. unfold ks_from. cbn [ctr_blocks concat length seq map].
  rewrite bxor_app by (destruct (ctr_in_block iv ((2 + Z.of_nat c) mod 2 ^ 32) L B) as [-> _]; exact LB). f_equal.
  replace (2 + Z.of_nat c + 1) with (2 + Z.of_nat (S c)) by lia. apply IH; assumption.
Qed.

Lemma gctr_ok : forall g iv text, g_key g = key -> 0 <= iv < 2 ^ 96 -> bytes_ok text = true -> Z.of_nat (length text) <= 16 * 2 ^ 32 ->
  gctr P g iv text = Ok (gcm_c P key (z2be 12 iv) text).
Proof.
  intros g iv text GK I B L. unfold gctr, gcm_c. rewrite GK. change (2 ^ 96) with (256 ^ 12) in I. destruct (Nat.ltb 0 (length text)) eqn:E.
  - rewrite long_to_bytes_fit by lia. change (Z.to_nat 12) with 12%nat. unfold ctr_crypt. rewrite KS. cbn [negb].
    rewrite pad16_zpad. pose proof (zpad_nblocks text) as ZN. replace (2 ^ 32 <? (Z.of_nat (length (zpad text)) + 15) / 16) with false.
    2:{ rewrite ZN. pose proof (Nat.div_mod (length text + 15) 16 ltac:(lia)) as DM. pose proof (Nat.mod_upper_bound (length text + 15) 16 ltac:(lia)). change (2 ^ 32) with 4294967296 in *. lia. }
    cbn [bind]. destruct (blocks16_ok (zpad text) (zpad_length text)) as (F & C & LB); [rewrite zpad_ok; exact B|].
    change 2 with (2 + Z.of_nat 0) at 1. rewrite ctr_blocks_ok.
    + rewrite C. unfold zpad at 1. rewrite firstn_bxor_app. f_equal. rewrite <- bxor_stream.
      change (keystream P key (z2be 12 iv)) with (ks_from (z2be 12 iv) 0).
      assert (IL : length (z2be 12 iv) = 12%nat) by apply z2be_length. assert (IB := z2be_ok 12 iv).
      assert (NB : length (blocks16 (zpad text)) = ((length text + 15) / 16)%nat) by lia. rewrite NB.
      pose proof (Nat.div_mod (length text + 15) 16 ltac:(lia)) as DM. pose proof (Nat.mod_upper_bound (length text + 15) 16 ltac:(lia)) as MB.
      pose proof (Nat.div_mod (length text) 16 ltac:(lia)) as DM2. pose proof (Nat.mod_upper_bound (length text) 16 ltac:(lia)) as MB2.
      assert (Q : (length text / 16 + 1 = (length text + 15) / 16 + (length text / 16 + 1 - (length text + 15) / 16))%nat) by lia.
      rewrite Q. unfold ks_from at 2. rewrite seq_app, map_app, concat_app. rewrite bxor_app_r; [reflexivity|].
      fold (ks_from (z2be 12 iv) 0 ((length text + 15) / 16)). rewrite ks_from_length by assumption. lia.
    + apply z2be_length.
    + apply z2be_ok.
    + eapply Forall_impl; [|exact F]. intros a [A _]. exact A.
  - apply Nat.ltb_ge in E. destruct text; [reflexivity|cbn in E; lia].
Qed.

Lemma gcm_c_props : forall iv text, length iv = 12%nat -> bytes_ok iv = true -> bytes_ok text = true ->
  length (gcm_c P key iv text) = length text /\ bytes_ok (gcm_c P key iv text) = true /\ gcm_c P key iv (gcm_c P key iv text) = text.
Proof.
  intros iv text L B BT. unfold gcm_c. rewrite <- !bxor_stream. change (keystream P key iv) with (ks_from iv 0).
  pose proof (Nat.div_mod (length text) 16 ltac:(lia)) as DM2. pose proof (Nat.mod_upper_bound (length text) 16 ltac:(lia)) as MB2.
  assert (KL : (length text <= length (ks_from iv 0 (length text / 16 + 1)))%nat) by (rewrite ks_from_length by assumption; lia).
  rewrite bxor_length_le by exact KL. split; [reflexivity|]. split; [apply bxor_ok; [exact BT|apply ks_from_ok; assumption]|]. apply bxor_cancel_le. exact KL.
Qed.

(** the state the constructor and change_key leave *)
Definition gcm_for (g : gcm) : Prop :=
  g_key g = key /\ g_ecb g = key /\ g_auth g = be2z (p_aes_enc P key (repeat 0 16)) /\ g_table g = table (g_auth g).

Lemma zero_block : is_block (repeat 0 16).
Proof. split; reflexivity. Qed.
Lemma block_bound : forall b, is_block b -> 0 <= be2z b < 2 ^ 128.
Proof. intros b [L B]. pose proof (be2z_bound b B) as H. rewrite L in H. exact H. Qed.

Lemma change_key_ok : forall g k, long_to_bytes k 16 = key -> exists g', change_key P g k = (g', Ok tt) /\ gcm_for g' /\ g_prev g' = None.
Proof.
  intros g k K. unfold change_key. rewrite K, KS. cbn [negb]. rewrite make_table_ok by (apply block_bound; apply AES; try assumption; apply zero_block).
  eexists. split; [reflexivity|]. repeat split.
Qed.

Lemma gcm_new_ok : forall k, long_to_bytes k 16 = key -> exists g, gcm_new P k = Ok g /\ gcm_for g /\ g_prev g = None.
Proof.
  intros k K. unfold gcm_new. destruct (change_key_ok {| g_prev := None; g_key := []; g_ecb := []; g_auth := 0; g_table := [] |} k K) as (g & -> & G). exists g. split; [reflexivity|exact G].
Qed.

Lemma tag_mask_ok : forall g iv, g_ecb g = key -> 0 <= iv < 2 ^ 96 -> tag_mask P g iv = be2z (p_aes_enc P key (z2be 12 iv ++ [0; 0; 0; 1])).
Proof.
  intros g iv GK I. unfold tag_mask. rewrite GK. do 2 f_equal. rewrite long_to_bytes_fit.
  - change (Z.to_nat 16) with 16%nat. apply be2z_inj.
    + rewrite app_length, !z2be_length. reflexivity.
    + apply z2be_ok.
    + rewrite bytes_ok_app, z2be_ok. reflexivity.
    + rewrite be2z_app. change (256 ^ Z.of_nat (length [0; 0; 0; 1])) with (2 ^ 32). change (be2z [0; 0; 0; 1]) with 1.
      assert (E : Z.lor (Z.shiftl iv 32) 1 = iv * 2 ^ 32 + 1).
      { rewrite Z.shiftl_mul_pow2 by lia. rewrite <- Z.lxor_lor; [symmetry; apply Z.add_nocarry_lxor|]; rewrite <- Z.shiftl_mul_pow2 by lia;
        apply Z.bits_inj'; intros i J; rewrite Z.land_spec, Z.testbit_0_l, Z.shiftl_spec by lia;
        (destruct (Z.lt_ge_cases i 32); [rewrite Z.testbit_neg_r by lia; reflexivity|]; rewrite (bits_small 1 1) by (cbn; lia); apply andb_false_r). }
      rewrite E. change (2 ^ 96) with (256 ^ Z.of_nat 12) in I. rewrite !be2z_z2be; [reflexivity|exact I|]. change (256 ^ Z.of_nat 16) with (256 ^ Z.of_nat 12 * 2 ^ 32). change (2 ^ 32) with 4294967296. lia.
  - assert (E : Z.lor (Z.shiftl iv 32) 1 = iv * 2 ^ 32 + 1).
      { rewrite Z.shiftl_mul_pow2 by lia. rewrite <- Z.lxor_lor; [symmetry; apply Z.add_nocarry_lxor|]; rewrite <- Z.shiftl_mul_pow2 by lia;
        apply Z.bits_inj'; intros i J; rewrite Z.land_spec, Z.testbit_0_l, Z.shiftl_spec by lia;
        (destruct (Z.lt_ge_cases i 32); [rewrite Z.testbit_neg_r by lia; reflexivity|]; rewrite (bits_small 1 1) by (cbn; lia); apply andb_false_r). }
    rewrite E. change (256 ^ 16) with (2 ^ 96 * 2 ^ 32). change (2 ^ 32) with 4294967296. lia.
  - lia.
Qed.

Lemma ghash_spec_bound : forall h aad c, 0 <= ghash_spec h aad c < 2 ^ 128.
Proof.
  intros h aad c. unfold ghash_spec, ghash_blocks. set (bl := to_blocks _ _). clearbody bl.
  apply (fold_inv (fun z => 0 <= z < 2 ^ 128)); [|lia]. intros x y. apply bmul_bound.
Qed.

Lemma gcm_t_bound : forall iv aad c, length iv = 12%nat -> bytes_ok iv = true -> 0 <= gcm_t P key iv aad c < 2 ^ 128.
Proof.
  intros iv aad c L B. unfold gcm_t. apply lxor_bound; [lia|apply ghash_spec_bound|]. apply block_bound. change [0; 0; 0; 1] with (z2be 4 1). apply ctr_in_block; assumption.
Qed.

Lemma auth_tag_ok : forall g iv aad c, gcm_for g -> 0 <= iv < 2 ^ 96 -> bytes_ok aad = true -> bytes_ok c = true ->
  8 * Z.of_nat (length aad) < 2 ^ 64 -> 8 * Z.of_nat (length c) < 2 ^ 64 ->
  Z.lxor (ghash g aad c) (tag_mask P g iv) = gcm_t P key (z2be 12 iv) aad c.
Proof.
  intros g iv aad c (G1 & G2 & G3 & G4) I BA BC LA LC. rewrite tag_mask_ok by assumption. rewrite (ghash_ok g (g_auth g)) by assumption. rewrite G3. reflexivity.
Qed.

Lemma gcm_encrypt_ok : forall g iv pt aad, gcm_for g -> 0 <= iv < 2 ^ 96 -> g_prev g <> Some iv -> bytes_ok pt = true -> bytes_ok aad = true ->
  Z.of_nat (length pt) <= 16 * 2 ^ 32 -> 8 * Z.of_nat (length aad) < 2 ^ 64 ->
  exists g', gcm_encrypt P g iv pt aad = (g', Ok (gcm_c P key (z2be 12 iv) pt, gcm_t P key (z2be 12 iv) aad (gcm_c P key (z2be 12 iv) pt))) /\
    gcm_for g' /\ g_prev g' = Some iv.
Proof.
  intros g iv pt aad G I PV BP BA LP LA. unfold gcm_encrypt. replace (iv <? 2 ^ 96) with true by lia. cbn [negb].
  destruct (match g_prev g with Some v => iv =? v | None => false end) eqn:E.
  { destruct (g_prev g) as [v|]; [|discriminate]. exfalso. apply PV. f_equal. lia. }
  clear E. eexists. split; [f_equal|split; [destruct G as (G1 & G2 & G3 & G4); repeat split; assumption|reflexivity]].
  destruct (gcm_c_props (z2be 12 iv) pt (z2be_length 12 iv) (z2be_ok 12 iv) BP) as (CL & CB & _).
  assert (GK : g_key g = key) by apply G. rewrite gctr_ok; [|exact GK|exact I|exact BP|exact LP]. cbn [bind].
  rewrite auth_tag_ok.
  - pose proof (gcm_t_bound (z2be 12 iv) aad (gcm_c P key (z2be 12 iv) pt) (z2be_length 12 iv) (z2be_ok 12 iv)) as TB.
    set (t := gcm_t _ _ _ _ _) in *. clearbody t. replace (t <? 2 ^ 128) with true by lia. reflexivity.
  - destruct G as (G1 & G2 & G3 & G4); repeat split; assumption.
  - exact I.
  - exact BA.
  - exact CB.
  - exact LA.
  - rewrite CL. change (2 ^ 32) with 4294967296 in LP. change (2 ^ 64) with 18446744073709551616. lia.
Qed.

Lemma gcm_decrypt_ok : forall g iv ct tag aad, gcm_for g -> 0 <= iv < 2 ^ 96 -> bytes_ok ct = true -> bytes_ok aad = true ->
  Z.of_nat (length ct) <= 16 * 2 ^ 32 -> 8 * Z.of_nat (length aad) < 2 ^ 64 -> tag < 2 ^ 128 ->
  gcm_decrypt P g iv ct tag aad = if tag =? gcm_t P key (z2be 12 iv) aad ct then Ok (gcm_c P key (z2be 12 iv) ct) else Raise EInvalidTagException.
Proof.
  intros g iv ct tag aad G I BC BA LC LA T. unfold gcm_decrypt. replace (iv <? 2 ^ 96) with true by lia. replace (tag <? 2 ^ 128) with true by lia. cbn [negb].
  rewrite auth_tag_ok; try assumption.
  - destruct (tag =? gcm_t P key (z2be 12 iv) aad ct); [|reflexivity]. cbn [negb]. apply gctr_ok; try assumption. apply G.
  - change (2 ^ 32) with 4294967296 in LC. change (2 ^ 64) with 18446744073709551616. lia.
Qed.
End Gcm.

(** ** Keys *)
Lemma key16 : forall k, length k = 16%nat -> bytes_ok k = true -> long_to_bytes (be2z k) 16 = k.
Proof.
  intros k L B. rewrite long_to_bytes_fit.
  - change (Z.to_nat 16) with 16%nat. rewrite <- L. apply z2be_be2z. exact B.
  - pose proof (be2z_bound k B) as H. rewrite L in H. exact H.
  - lia.
Qed.

Lemma key32 : forall k, length k = 32%nat -> bytes_ok k = true -> firstn 16 k <> repeat 0 16 -> long_to_bytes (be2z k) 16 = k.
Proof.
  intros k L B N. unfold long_to_bytes. assert (LB : 128 <= Z.log2 (be2z k) < 256).
  { rewrite <- (firstn_skipn 16 k). rewrite be2z_app, skipn_length, L. change (256 ^ Z.of_nat (32 - 16)) with (2 ^ 128).
    assert (B1 := bytes_ok_firstn 16 k B). assert (B2 := bytes_ok_skipn 16 k B). pose proof (be2z_bound _ B1) as H1. pose proof (be2z_bound _ B2) as H2.
    rewrite firstn_length, L in H1. rewrite skipn_length, L in H2. change (256 ^ Z.of_nat (Init.Nat.min 16 32)) with (2 ^ 128) in H1. change (256 ^ Z.of_nat (32 - 16)) with (2 ^ 128) in H2.
    assert (be2z (firstn 16 k) <> 0).
    { intro Z0. apply N. apply be2z_inj; [rewrite firstn_length, L; reflexivity|exact B1|reflexivity|]. rewrite Z0. reflexivity. }
    split; [apply Z.log2_le_pow2; lia|apply Z.log2_lt_pow2; [lia|]]. change (2 ^ 256) with (2 ^ 128 * 2 ^ 128). nia. }
  replace (Z.to_nat ((Z.log2 (be2z k) / 8 + 1 + 16 - 1) / 16 * 16)) with (length k) by lia. apply z2be_be2z. exact B.
Qed.

Lemma key_len16 : forall k, exists m, length (long_to_bytes k 16) = (16 * m)%nat.
Proof.
  intro k. unfold long_to_bytes. rewrite z2be_length. pose proof (Z.log2_nonneg k). exists (Z.to_nat ((Z.log2 k / 8 + 1 + 16 - 1) / 16)). lia.
Qed.

Lemma key24 : forall k, length k = 24%nat -> long_to_bytes (be2z k) 16 <> k.
Proof. intros k L E. destruct (key_len16 (be2z k)) as [m M]. rewrite E, L in M. lia. Qed.
