(** The key wrap of aes_key_wrap.py is that of RFC 3394. *)
From Coq Require Import ZArith List Bool Lia ZifyBool.
From Verif Require Import Base BaseProofs Prims KeyWrap KeyWrapProofs RsaProofs.
Import ListNotations.
Open Scope Z_scope.

(** RFC 3394 section 2.2.1, first formulation: in step t the first register is enciphered together with A, the registers are
    shifted and t is added (xor) to the upper half. *)
Definition xor8 (a b : bytes) : bytes := map (fun p => Z.lxor (fst p) (snd p)) (combine a b).
Fixpoint kw_steps (E : bytes -> bytes) (m : nat) (t : Z) (A : bytes) (R : list bytes) : bytes * list bytes :=
  match m, R with
  | S m', x :: r => let B := E (A ++ x) in kw_steps E m' (t + 1) (xor8 (firstn 8 B) (z2be 8 t)) (r ++ [skipn 8 B])
  | _, _ => (A, R)
  end.
Definition rfc3394 (E : bytes -> bytes) (R : list bytes) : bytes :=
  let (A, C) := kw_steps E (6 * length R) 1 (repeat 0xA6 8) R in A ++ concat C.

Lemma z2be_lxor : forall w x y, 0 <= x -> 0 <= y -> z2be w (Z.lxor x y) = xor8 (z2be w x) (z2be w y).
Proof.
  induction w as [|w IH]; intros x y X Y; [reflexivity|]. cbn [z2be].
  assert (D : Z.lxor x y / 256 = Z.lxor (x / 256) (y / 256)) by (change 256 with (2 ^ 8); rewrite <- !Z.shiftr_div_pow2 by lia; apply Z.shiftr_lxor).
  assert (M : Z.lxor x y mod 256 = Z.lxor (x mod 256) (y mod 256)) by (change 256 with (2 ^ 8); apply lxor_mod_pow2; lia).
  rewrite D, M, IH by (apply Z.div_pos; lia). unfold xor8. 
  assert (L : length (z2be w (x / 256)) = length (z2be w (y / 256))) by (rewrite !z2be_length; reflexivity).
  revert L. generalize (z2be w (x / 256)) (z2be w (y / 256)). induction b as [|u b IHb]; intros [|v c] L; try discriminate; [reflexivity|]. cbn [combine map app]. f_equal. apply IHb. cbn in L. lia.
Qed.

Lemma kw_steps_add : forall E m1 m2 t A R, R <> [] ->
  kw_steps E (m1 + m2) t A R = let (A', R') := kw_steps E m1 t A R in kw_steps E m2 (t + Z.of_nat m1) A' R'.
Proof.
  induction m1 as [|m1 IH]; intros m2 t A R NE; [cbn [Nat.add kw_steps]; rewrite Z.add_0_r; destruct R; reflexivity|].
  destruct R as [|x r]; [congruence|]. cbn [Nat.add kw_steps]. rewrite IH by (destruct r; discriminate).
  replace (t + 1 + Z.of_nat m1) with (t + Z.of_nat (S m1)) by lia. reflexivity.
Qed.

Section Spec.
Variable P : prims.
Variable kek : bytes.
Hypothesis AES : aes_law P.
Hypothesis KS : aes_keysize kek = true.
Hypothesis KB : bytes_ok kek = true.

Lemma wrap_row_spec : forall r n j i a a' r' done, Forall blk8 r -> 0 <= a < 2 ^ 64 -> 0 <= n * j + i -> n * j + i + Z.of_nat (length r) <= 2 ^ 64 ->
  wrap_row P kek n j i a r = Ok (a', r') ->
  kw_steps (p_aes_enc P kek) (length r) (n * j + i) (z2be 8 a) (r ++ done) = (z2be 8 a', done ++ r').
Proof.
  induction r as [|x r IH]; intros n j i a a' r' done R A I J H.
  - cbn [wrap_row] in H. injection H as <- <-. cbn [length kw_steps app]. rewrite app_nil_r. destruct done; reflexivity.
  - inversion_clear R as [|? ? X R2]. cbn [wrap_row] in H. rewrite (quad_pack_ok a A) in H. cbn [bind] in H.
    destruct (AES kek (z2be 8 a ++ x) KS KB (halves_block a x A X)) as (B1 & _ & _ & _).
    cbn [length app kw_steps]. set (b := p_aes_enc P kek (z2be 8 a ++ x)) in *. destruct (block_halves b B1) as [H1 H2].
    rewrite (quad_unpack_ok _ H1) in H. cbn [bind] in H. pose proof (be8_bound _ H1) as HB. cbn [length] in J.
    destruct (wrap_row P kek n j (i + 1) (Z.lxor (be2z (firstn 8 b)) (n * j + i)) r) as [[a1 r1]|] eqn:E; [|discriminate]. cbn [bind fst snd] in H. injection H as <- <-.
    rewrite <- (z2be8_be2z _ H1), <- z2be_lxor by lia. replace (n * j + i + 1) with (n * j + (i + 1)) by lia. rewrite <- app_assoc.
    rewrite (IH n j (i + 1) _ a1 r1 (done ++ [skipn 8 b]) R2) by (try exact E; try lia; apply lxor_bound; lia).
    rewrite <- app_assoc. reflexivity.
Qed.

Lemma wrap_rows_spec : forall k j r n a a' r', Forall blk8 r -> 0 <= a < 2 ^ 64 -> n = Z.of_nat (length r) -> r <> [] -> 0 <= j -> n * (j + Z.of_nat k) + 1 <= 2 ^ 64 ->
  wrap_rows P kek n (map (fun x => j + Z.of_nat x) (seq 0 k)) a r = Ok (a', r') ->
  kw_steps (p_aes_enc P kek) (k * length r) (n * j + 1) (z2be 8 a) r = (z2be 8 a', r').
Proof.
  induction k as [|k IH]; intros j r n a a' r' R A N NE J0 J H.
  - cbn [seq map wrap_rows] in H. injection H as <- <-. destruct r; reflexivity.
  - cbn [seq map wrap_rows] in H. rewrite Z.add_0_r in H. destruct (wrap_row_ok P kek AES KS KB r n j 1 a R A) as (a1 & r1 & E & A1 & R1 & L1 & _); [nia|nia|].
    rewrite E in H. cbn [bind fst snd] in H. cbn [Nat.mul]. rewrite kw_steps_add by exact NE.
    pose proof (wrap_row_spec r n j 1 a a1 r1 [] R A ltac:(nia) ltac:(nia) E) as W. rewrite app_nil_r in W. cbn [app] in W. rewrite W.
    rewrite <- L1. replace (n * j + 1 + Z.of_nat (length r1)) with (n * (j + 1) + 1) by nia. apply IH; try assumption; try lia.
    + intros ->. destruct r; [congruence|discriminate].
    + rewrite <- seq_shift, map_map in H. erewrite map_ext; [exact H|]. intro x. cbv beta. lia.
Qed.

(** A key of whole 64-bit blocks wraps to the RFC 3394 result. *)
Lemma wrap_spec : forall R : list bytes, Forall (fun x => length x = 8%nat /\ bytes_ok x = true) R -> R <> [] -> Z.of_nat (length R) < 2 ^ 60 ->
  aes_wrap_key P kek (concat R) = Ok (rfc3394 (p_aes_enc P kek) R).
Proof.
  intros R H NE L. change (2 ^ 60) with 1152921504606846976 in L. destruct (concat_blk8 R H) as [C1 C2]. unfold aes_wrap_key, aes_wrap_key_iv, aes_new. rewrite KS. cbn [bind]. rewrite C1.
  replace (8 * length R / 8)%nat with (length R) by (rewrite Nat.mul_comm, Nat.div_mul; lia).
  pose proof (chunks8_of_concat R [] H) as CC. rewrite app_nil_r in CC. rewrite CC.
  destruct (wrap_rows_ok P kek AES KS KB [0; 1; 2; 3; 4; 5] R (Z.of_nat (length R)) IV0 H ltac:(unfold IV0; lia) eq_refl) as (a & r & E & A & R' & L' & _).
  { clear H CC C1 C2 NE. change (2 ^ 64) with 18446744073709551616. generalize dependent (length R). intros n L. repeat constructor; lia. }
  rewrite E. cbn [bind fst snd]. rewrite (quad_pack_ok a A). cbn [bind]. unfold rfc3394.
  pose proof (wrap_rows_spec 6 0 R (Z.of_nat (length R)) IV0 a r H ltac:(unfold IV0; lia) eq_refl NE ltac:(lia)) as W.
  change (map (fun x => 0 + Z.of_nat x) (seq 0 6)) with [0; 1; 2; 3; 4; 5] in W. rewrite Z.mul_0_r in W. change (0 + 1) with 1 in W. change (z2be 8 IV0) with (repeat 0xA6 8) in W.
  rewrite W; [reflexivity| |exact E]. change (2 ^ 64) with 18446744073709551616. lia.
Qed.

(** Exactly the RFC 3394 results of a key unwrap to it. *)
Lemma unwrap_spec : forall w (R : list bytes), bytes_ok w = true -> Forall (fun x => length x = 8%nat /\ bytes_ok x = true) R -> R <> [] -> Z.of_nat (length R) < 2 ^ 59 -> (length w mod 8 = 0)%nat -> Z.of_nat (length w) < 2 ^ 63 ->
  (aes_unwrap_key P kek w = Ok (concat R) <-> w = rfc3394 (p_aes_enc P kek) R).
Proof.
  intros w R WB H NE L M LW. pose proof (wrap_spec R H NE ltac:(change (2 ^ 59) with 576460752303423488 in L; change (2 ^ 60) with 1152921504606846976; lia)) as S. split; intro X.
  - pose proof (unwrap_integrity P kek AES KS KB w (concat R) WB LW M X) as I. rewrite S in I. injection I as ->. reflexivity.
  - destruct (concat_blk8 R H) as [C1 C2].
    destruct (wrap_unwrap P kek AES KS KB (concat R) C2) as (w' & E & _ & _ & U).
    + rewrite C1. change (2 ^ 59) with 576460752303423488 in L. change (2 ^ 63) with 9223372036854775808. lia.
    + rewrite C1, Nat.mul_comm. apply Nat.mod_mul. lia.
    + rewrite S in E. injection E as E. rewrite X, E. exact U.
Qed.
End Spec.
