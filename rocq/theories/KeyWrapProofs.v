(** Proofs about aes_key_wrap.py. *)
From Coq Require Import ZArith List Bool Lia ZifyBool.
From Verif Require Import Base BaseProofs Prims KeyWrap.
Import ListNotations.
Open Scope Z_scope.

Lemma lxor_bound : forall k x y, 0 <= k -> 0 <= x < 2 ^ k -> 0 <= y < 2 ^ k -> 0 <= Z.lxor x y < 2 ^ k.
Proof.
  intros k x y K X Y. assert (N : 0 <= Z.lxor x y) by (apply Z.lxor_nonneg; lia). split; [exact N|].
  destruct (Z.eq_dec (Z.lxor x y) 0) as [->|NZ]; [apply Z.pow_pos_nonneg; lia|].
  apply Z.log2_lt_pow2; [lia|]. pose proof (Z.log2_lxor x y ltac:(lia) ltac:(lia)) as L.
  assert (K0 : 0 < k). { destruct (Z.eq_dec k 0) as [->|]; [|lia]. change (2 ^ 0) with 1 in *. assert (x = 0) by lia. assert (y = 0) by lia. subst. exfalso. apply NZ. reflexivity. }
  assert (LX : Z.log2 x < k) by (destruct (Z.eq_dec x 0) as [->|]; [exact K0|apply Z.log2_lt_pow2; lia]).
  assert (LY : Z.log2 y < k) by (destruct (Z.eq_dec y 0) as [->|]; [exact K0|apply Z.log2_lt_pow2; lia]).
  lia.
Qed.

Lemma lxor_cancel : forall x t, Z.lxor (Z.lxor x t) t = x.
Proof. intros. rewrite Z.lxor_assoc, Z.lxor_nilpotent, Z.lxor_0_r. reflexivity. Qed.

Definition blk8 (x : bytes) : Prop := length x = 8%nat /\ bytes_ok x = true.

Lemma chunks8_length : forall n s, length (chunks8 n s) = n.
Proof. induction n as [|n IH]; intro s; cbn [chunks8 length]; [reflexivity|]. rewrite IH. reflexivity. Qed.

Lemma chunks8_ok : forall n s, (8 * n <= length s)%nat -> bytes_ok s = true -> Forall blk8 (chunks8 n s).
Proof.
  induction n as [|n IH]; intros s L H; [constructor|]. cbn [chunks8]. constructor.
  - split; [rewrite firstn_length; lia|apply bytes_ok_firstn; exact H].
  - apply IH; [rewrite skipn_length; lia|apply bytes_ok_skipn; exact H].
Qed.

Lemma chunks8_concat : forall n s, concat (chunks8 n s) = firstn (8 * n) s.
Proof.
  induction n as [|n IH]; intro s; [reflexivity|]. cbn [chunks8 concat]. rewrite IH.
  replace (8 * S n)%nat with (8 + 8 * n)%nat by lia.
  rewrite <- (firstn_skipn 8 s) at 3. rewrite firstn_app, firstn_firstn.
  replace (Init.Nat.min (8 + 8 * n) 8) with 8%nat by lia. f_equal.
  destruct (Nat.le_gt_cases 8 (length s)) as [L|L].
  - f_equal. rewrite firstn_length. lia.
  - rewrite skipn_all2 by lia. rewrite !firstn_nil. reflexivity.
Qed.

Lemma chunks8_of_concat : forall r s, Forall blk8 r -> chunks8 (length r) (concat r ++ s) = r.
Proof.
  induction r as [|x r IH]; intros s H; [reflexivity|]. inversion_clear H as [|? ? [L B] H2]. cbn [length chunks8 concat].
  rewrite <- app_assoc. rewrite <- L. rewrite firstn_app, firstn_all, Nat.sub_diag, firstn_O, app_nil_r.
  rewrite skipn_app, skipn_all, Nat.sub_diag, skipn_O. cbn [app]. rewrite IH by exact H2. reflexivity.
Qed.

Lemma concat_blk8 : forall r, Forall blk8 r -> length (concat r) = (8 * length r)%nat /\ bytes_ok (concat r) = true.
Proof.
  induction r as [|x r IH]; intro H; [split; reflexivity|]. inversion_clear H as [|? ? [L B] H2]. destruct (IH H2) as [I1 I2]. cbn [concat length].
  rewrite app_length, bytes_ok_app, L, I1, B, I2. split; [lia|reflexivity].
Qed.

Lemma quad_pack_ok : forall a, 0 <= a < 2 ^ 64 -> quad_pack a = Ok (z2be 8 a).
Proof. intros a H. unfold quad_pack. replace ((0 <=? a) && (a <? 2 ^ 64)) with true by lia. reflexivity. Qed.

Lemma be8_bound : forall b, blk8 b -> 0 <= be2z b < 2 ^ 64.
Proof. intros b [L B]. pose proof (be2z_bound b B) as H. rewrite L in H. exact H. Qed.

Lemma quad_unpack_ok : forall b, blk8 b -> quad_unpack b = Ok (be2z b).
Proof. intros b [L _]. unfold quad_unpack. rewrite L. reflexivity. Qed.

Lemma block_halves : forall b, is_block b -> blk8 (firstn 8 b) /\ blk8 (skipn 8 b).
Proof.
  intros b [L B]. split; (split; [rewrite ?firstn_length, ?skipn_length; lia|]).
  - apply bytes_ok_firstn. exact B.
  - apply bytes_ok_skipn. exact B.
Qed.

Lemma halves_block : forall a x, 0 <= a < 2 ^ 64 -> blk8 x -> is_block (z2be 8 a ++ x).
Proof. intros a x A [L B]. split; [rewrite app_length, z2be_length; lia|]. rewrite bytes_ok_app, z2be_ok, B. reflexivity. Qed.

Lemma z2be8_be2z : forall b, blk8 b -> z2be 8 (be2z b) = b.
Proof. intros b [L B]. rewrite <- L. apply z2be_be2z. exact B. Qed.

Section Wrap.
Variable P : prims.
Variable kek : bytes.
Hypothesis AES : aes_law P.
Hypothesis KS : aes_keysize kek = true.
Hypothesis KB : bytes_ok kek = true.

Lemma wrap_row_ok : forall r n j i a, Forall blk8 r -> 0 <= a < 2 ^ 64 -> 0 <= n * j + i -> n * j + i + Z.of_nat (length r) <= 2 ^ 64 ->
  exists a' r', wrap_row P kek n j i a r = Ok (a', r') /\ 0 <= a' < 2 ^ 64 /\ Forall blk8 r' /\ length r' = length r /\
    unwrap_row P kek n j i a' r' = Ok (a, r).
Proof.
  induction r as [|x r IH]; intros n j i a R A I J.
  - exists a, []. repeat split; try lia; constructor.
  - inversion_clear R as [|? ? X R2]. cbn [wrap_row]. rewrite (quad_pack_ok a A). cbn [bind].
    destruct (AES kek (z2be 8 a ++ x) KS KB (halves_block a x A X)) as (B1 & _ & D & _).
    set (b := p_aes_enc P kek (z2be 8 a ++ x)) in *. destruct (block_halves b B1) as [H1 H2].
    rewrite (quad_unpack_ok _ H1). cbn [bind]. pose proof (be8_bound _ H1) as HB. cbn [length] in J.
    assert (T : 0 <= n * j + i < 2 ^ 64) by lia.
    destruct (IH n j (i + 1) (Z.lxor (be2z (firstn 8 b)) (n * j + i)) R2) as (a' & r' & E & A' & R' & L & U); try lia.
    { apply lxor_bound; lia. }
    rewrite E. cbn [bind fst snd]. exists a', (skipn 8 b :: r'). split; [reflexivity|]. split; [exact A'|].
    split; [constructor; assumption|]. split; [cbn [length]; lia|]. cbn [unwrap_row]. rewrite U. cbn [bind fst snd].
    rewrite lxor_cancel. rewrite (quad_pack_ok _ HB). cbn [bind]. rewrite (z2be8_be2z _ H1), firstn_skipn, D.
    rewrite (firstn_app 8), z2be_length, Nat.sub_diag, firstn_O, app_nil_r, firstn_all2 by (rewrite z2be_length; lia).
    rewrite skipn_app, z2be_length, Nat.sub_diag, skipn_O, skipn_all2 by (rewrite z2be_length; lia).
    unfold quad_unpack. rewrite z2be_length. cbn [Nat.eqb bind app]. rewrite be2z_z2be by exact A. reflexivity.
Qed.

Lemma unwrap_row_ok : forall r n j i a, Forall blk8 r -> 0 <= a < 2 ^ 64 -> 0 <= n * j + i -> n * j + i + Z.of_nat (length r) <= 2 ^ 64 ->
  exists a' r', unwrap_row P kek n j i a r = Ok (a', r') /\ 0 <= a' < 2 ^ 64 /\ Forall blk8 r' /\ length r' = length r /\
    wrap_row P kek n j i a' r' = Ok (a, r).
Proof.
  induction r as [|x r IH]; intros n j i a R A I J.
  - exists a, []. repeat split; try lia; constructor.
  - inversion_clear R as [|? ? X R2]. cbn [unwrap_row]. cbn [length] in J.
    destruct (IH n j (i + 1) a R2 A) as (a1 & r1 & E & A1 & R1 & L1 & W); try lia.
    rewrite E. cbn [bind fst snd]. assert (T : 0 <= n * j + i < 2 ^ 64) by lia.
    assert (LX : 0 <= Z.lxor a1 (n * j + i) < 2 ^ 64) by (apply lxor_bound; lia).
    rewrite (quad_pack_ok _ LX). cbn [bind].
    destruct (AES kek (z2be 8 (Z.lxor a1 (n * j + i)) ++ x) KS KB (halves_block _ x LX X)) as (_ & B1 & _ & D).
    set (b := p_aes_dec P kek (z2be 8 (Z.lxor a1 (n * j + i)) ++ x)) in *. destruct (block_halves b B1) as [H1 H2].
    rewrite (quad_unpack_ok _ H1). cbn [bind]. pose proof (be8_bound _ H1) as HB.
    exists (be2z (firstn 8 b)), (skipn 8 b :: r1). split; [reflexivity|]. split; [exact HB|]. split; [constructor; assumption|].
    split; [cbn [length]; lia|]. cbn [wrap_row]. rewrite (quad_pack_ok _ HB). cbn [bind]. rewrite (z2be8_be2z _ H1), firstn_skipn, D.
    rewrite (firstn_app 8), z2be_length, Nat.sub_diag, firstn_O, app_nil_r, firstn_all2 by (rewrite z2be_length; lia).
    rewrite skipn_app, z2be_length, Nat.sub_diag, skipn_O, skipn_all2 by (rewrite z2be_length; lia).
    unfold quad_unpack at 1. rewrite z2be_length. cbn [Nat.eqb bind app]. rewrite be2z_z2be by exact LX. rewrite lxor_cancel, W. reflexivity.
Qed.

Lemma wrap_rows_ok : forall js r n a, Forall blk8 r -> 0 <= a < 2 ^ 64 -> n = Z.of_nat (length r) ->
  Forall (fun j => 0 <= j /\ n * j + 1 + n <= 2 ^ 64) js ->
  exists a' r', wrap_rows P kek n js a r = Ok (a', r') /\ 0 <= a' < 2 ^ 64 /\ Forall blk8 r' /\ length r' = length r /\
    unwrap_rows P kek n (rev js) a' r' = Ok (a, r).
Proof.
  induction js as [|j js IH]; intros r n a R A N J.
  - exists a, r. cbn. repeat split; try lia; assumption.
  - inversion_clear J as [|? ? [J0 J1] J2]. cbn [wrap_rows].
    destruct (wrap_row_ok r n j 1 a R A) as (a1 & r1 & E & A1 & R1 & L1 & U); try nia. rewrite E. cbn [bind fst snd].
    destruct (IH r1 n a1 R1 A1 ltac:(lia) J2) as (a2 & r2 & E2 & A2 & R2 & L2 & U2).
    exists a2, r2. split; [exact E2|]. split; [exact A2|]. split; [exact R2|]. split; [lia|]. cbn [rev].
    assert (UA : forall js1 js2 a r, unwrap_rows P kek n (js1 ++ js2) a r = bind (unwrap_rows P kek n js1 a r) (fun t => unwrap_rows P kek n js2 (fst t) (snd t))).
    { clear. induction js1 as [|j js1 IH]; intros js2 a r; [reflexivity|]. cbn [app unwrap_rows]. destruct (unwrap_row P kek n j 1 a r); [|reflexivity]. cbn [bind]. apply IH. }
    rewrite UA, U2. cbn [bind fst snd unwrap_rows]. rewrite U. reflexivity.
Qed.

Lemma unwrap_rows_ok : forall js r n a, Forall blk8 r -> 0 <= a < 2 ^ 64 -> n = Z.of_nat (length r) ->
  Forall (fun j => 0 <= j /\ n * j + 1 + n <= 2 ^ 64) js ->
  exists a' r', unwrap_rows P kek n js a r = Ok (a', r') /\ 0 <= a' < 2 ^ 64 /\ Forall blk8 r' /\ length r' = length r /\
    wrap_rows P kek n (rev js) a' r' = Ok (a, r).
Proof.
  induction js as [|j js IH]; intros r n a R A N J.
  - exists a, r. cbn. repeat split; try lia; assumption.
  - inversion_clear J as [|? ? [J0 J1] J2]. cbn [unwrap_rows].
    destruct (unwrap_row_ok r n j 1 a R A) as (a1 & r1 & E & A1 & R1 & L1 & U); try nia. rewrite E. cbn [bind fst snd].
    destruct (IH r1 n a1 R1 A1 ltac:(lia) J2) as (a2 & r2 & E2 & A2 & R2 & L2 & U2).
    exists a2, r2. split; [exact E2|]. split; [exact A2|]. split; [exact R2|]. split; [lia|]. cbn [rev].
    assert (UA : forall js1 js2 a r, wrap_rows P kek n (js1 ++ js2) a r = bind (wrap_rows P kek n js1 a r) (fun t => wrap_rows P kek n js2 (fst t) (snd t))).
    { clear. induction js1 as [|j js1 IH]; intros js2 a r; [reflexivity|]. cbn [app wrap_rows]. destruct (wrap_row P kek n j 1 a r); [|reflexivity]. cbn [bind]. apply IH. }
    rewrite UA, U2. cbn [bind fst snd wrap_rows]. rewrite U. reflexivity.
Qed.

Lemma rounds_small : forall n, 0 <= n -> n < 2 ^ 60 -> Forall (fun j => 0 <= j /\ n * j + 1 + n <= 2 ^ 64) [0; 1; 2; 3; 4; 5].
Proof. intros n N B. change (2 ^ 60) with 1152921504606846976 in B. change (2 ^ 64) with 18446744073709551616. repeat constructor; lia. Qed.

(** Wrapping with any 64-bit initial value: the result, and what unwrapping makes of it. *)
Lemma wrap_ok : forall iv key, bytes_ok key = true -> 0 <= iv < 2 ^ 64 -> Z.of_nat (length key) < 2 ^ 63 ->
  exists w, aes_wrap_key_iv P kek key iv = Ok w /\ bytes_ok w = true /\ length w = (8 * (length key / 8) + 8)%nat /\
    aes_unwrap_key_and_iv P kek w = Ok (firstn (8 * (length key / 8)) key, iv).
Proof.
  intros iv key B I L. unfold aes_wrap_key_iv, aes_new. rewrite KS. cbn [bind].
  set (n := (length key / 8)%nat). assert (NL : (8 * n <= length key)%nat) by (unfold n; apply Nat.mul_div_le; lia).
  pose proof (chunks8_ok n key NL B) as R. pose proof (chunks8_length n key) as RL.
  change (2 ^ 63) with 9223372036854775808 in L.
  destruct (wrap_rows_ok [0; 1; 2; 3; 4; 5] (chunks8 n key) (Z.of_nat n) iv R I) as (a & r & E & A & R' & L' & U).
  { rewrite RL. reflexivity. } { apply rounds_small; [lia|]. change (2 ^ 60) with 1152921504606846976. lia. }
  rewrite E. cbn [bind fst snd]. rewrite (quad_pack_ok a A). cbn [bind]. exists (z2be 8 a ++ concat r).
  destruct (concat_blk8 r R') as [C1 C2]. split; [reflexivity|]. split; [rewrite bytes_ok_app, z2be_ok, C2; reflexivity|].
  split; [rewrite app_length, z2be_length; lia|]. unfold aes_unwrap_key_and_iv.
  replace (length (z2be 8 a ++ concat r) / 8 - 1)%nat with n.
  2:{ rewrite app_length, z2be_length, C1, L', RL. replace (8 + 8 * n)%nat with ((n + 1) * 8)%nat by lia. rewrite Nat.div_mul by lia. lia. }
  rewrite (firstn_app 8), z2be_length, Nat.sub_diag, firstn_O, app_nil_r, firstn_all2 by (rewrite z2be_length; lia).
  rewrite skipn_app, z2be_length, Nat.sub_diag, skipn_O, skipn_all2 by (rewrite z2be_length; lia).
  unfold quad_unpack. rewrite z2be_length. cbn [Nat.eqb bind app]. unfold aes_new. rewrite KS. cbn [bind].
  rewrite be2z_z2be by exact A. rewrite <- (app_nil_r (concat r)). rewrite <- RL, <- L'. rewrite chunks8_of_concat by exact R'.
  cbn [rev app] in U. rewrite L', RL, U. cbn [bind fst snd]. rewrite chunks8_concat. reflexivity.
Qed.

Lemma wrap_unwrap : forall key, bytes_ok key = true -> Z.of_nat (length key) < 2 ^ 63 -> (length key mod 8 = 0)%nat ->
  exists w, aes_wrap_key P kek key = Ok w /\ bytes_ok w = true /\ length w = (length key + 8)%nat /\ aes_unwrap_key P kek w = Ok key.
Proof.
  intros key B L M. destruct (wrap_ok IV0 key B ltac:(unfold IV0; lia) L) as (w & E & WB & WL & U). exists w.
  assert (D : (8 * (length key / 8))%nat = length key) by (pose proof (Nat.div_mod (length key) 8 ltac:(lia)); lia).
  rewrite D in *. split; [exact E|]. split; [exact WB|]. split; [exact WL|]. unfold aes_unwrap_key. rewrite U. cbn [bind fst snd].
  rewrite Z.eqb_refl. cbn [negb]. rewrite firstn_all. reflexivity.
Qed.

Lemma unwrap_exact : forall iv w key, bytes_ok w = true -> Z.of_nat (length w) < 2 ^ 63 -> (length w mod 8 = 0)%nat ->
  aes_unwrap_key_and_iv P kek w = Ok (key, iv) ->
  aes_wrap_key_iv P kek key iv = Ok w /\ bytes_ok key = true /\ (length key + 8)%nat = length w.
Proof.
  intros iv w key B L M H. unfold aes_unwrap_key_and_iv in H. set (n := (length w / 8 - 1)%nat) in H.
  unfold quad_unpack in H. destruct (Nat.eqb (length (firstn 8 w)) 8) eqn:L8; [|discriminate]. cbn [bind] in H.
  apply Nat.eqb_eq in L8. rewrite firstn_length in L8. assert (LW : (8 <= length w)%nat) by lia.
  assert (D : (8 * (length w / 8))%nat = length w) by (pose proof (Nat.div_mod (length w) 8 ltac:(lia)); lia).
  assert (NL : length w = (8 + 8 * n)%nat) by (unfold n; lia).
  unfold aes_new in H. rewrite KS in H. cbn [bind] in H.
  assert (B8 : blk8 (firstn 8 w)) by (split; [rewrite firstn_length; lia|apply bytes_ok_firstn; exact B]).
  assert (R : Forall blk8 (chunks8 n (skipn 8 w))) by (apply chunks8_ok; [rewrite skipn_length; lia|apply bytes_ok_skipn; exact B]).
  change (2 ^ 63) with 9223372036854775808 in L.
  destruct (unwrap_rows_ok [5; 4; 3; 2; 1; 0] _ (Z.of_nat n) _ R (be8_bound _ B8)) as (a & r & E & A & R' & L' & U).
  { rewrite chunks8_length. reflexivity. } { pose proof (rounds_small (Z.of_nat n) ltac:(lia)) as F. change (2 ^ 60) with 1152921504606846976 in F. apply Forall_rev in F; [exact F|lia]. }
  rewrite E in H. cbn [bind fst snd] in H. injection H as <- <-. destruct (concat_blk8 r R') as [C1 C2]. rewrite chunks8_length in L'.
  split; [|split; [exact C2|lia]]. unfold aes_wrap_key_iv, aes_new. rewrite KS. cbn [bind]. rewrite C1, L'.
  replace (8 * n / 8)%nat with n by (rewrite Nat.mul_comm, Nat.div_mul; lia).
  rewrite <- (app_nil_r (concat r)). rewrite <- L' at 2. rewrite chunks8_of_concat by exact R'. cbn [rev app] in U. rewrite U. cbn [bind fst snd].
  rewrite (quad_pack_ok _ (be8_bound _ B8)). cbn [bind]. rewrite (z2be8_be2z _ B8), chunks8_concat.
  rewrite (firstn_all2 (n:=8 * n) (skipn 8 w)) by (rewrite skipn_length; lia). rewrite firstn_skipn. reflexivity.
Qed.

Lemma unwrap_integrity : forall w key, bytes_ok w = true -> Z.of_nat (length w) < 2 ^ 63 -> (length w mod 8 = 0)%nat ->
  aes_unwrap_key P kek w = Ok key -> aes_wrap_key P kek key = Ok w.
Proof.
  intros w key B L M H. unfold aes_unwrap_key in H. destruct (aes_unwrap_key_and_iv P kek w) as [[k iv]|] eqn:E; [|discriminate].
  cbn [bind fst snd] in H. destruct (negb (iv =? IV0)) eqn:EI; [discriminate|]. injection H as <-. assert (iv = IV0) by lia. subst iv.
  apply (unwrap_exact IV0 w k B L M E).
Qed.

(** the only exceptions for well-formed input *)
Lemma unwrap_total : forall w, bytes_ok w = true -> Z.of_nat (length w) < 2 ^ 63 -> (8 <= length w)%nat ->
  (exists key, aes_unwrap_key P kek w = Ok key) \/ aes_unwrap_key P kek w = Raise EValueError.
Proof.
  intros w B L LW. unfold aes_unwrap_key, aes_unwrap_key_and_iv. set (n := (length w / 8 - 1)%nat).
  assert (D : (8 * (length w / 8) <= length w)%nat) by (apply Nat.mul_div_le; lia).
  assert (G1 : (1 <= length w / 8)%nat) by (apply Nat.div_le_lower_bound; lia).
  assert (B8 : blk8 (firstn 8 w)) by (split; [rewrite firstn_length; lia|apply bytes_ok_firstn; exact B]).
  rewrite (quad_unpack_ok _ B8). cbn [bind]. unfold aes_new. rewrite KS. cbn [bind].
  assert (R : Forall blk8 (chunks8 n (skipn 8 w))) by (apply chunks8_ok; [rewrite skipn_length; unfold n; lia|apply bytes_ok_skipn; exact B]).
  change (2 ^ 63) with 9223372036854775808 in L.
  destruct (unwrap_rows_ok [5; 4; 3; 2; 1; 0] _ (Z.of_nat n) _ R (be8_bound _ B8)) as (a & r & E & _).
  { rewrite chunks8_length. reflexivity. } { pose proof (rounds_small (Z.of_nat n) ltac:(lia)) as F. change (2 ^ 60) with 1152921504606846976 in F. apply Forall_rev in F; [exact F|lia]. }
  rewrite E. cbn [bind fst snd]. destruct (negb (a =? IV0)); [right; reflexivity|left; eexists; reflexivity].
Qed.

(** trailing octets are dropped on both sides *)
Lemma chunks8_app : forall n s t, (8 * n <= length s)%nat -> chunks8 n (s ++ t) = chunks8 n s.
Proof.
  induction n as [|n IH]; intros s t L; [reflexivity|]. cbn [chunks8]. rewrite firstn_app, skipn_app.
  replace (8 - length s)%nat with 0%nat by lia. rewrite firstn_O, app_nil_r, skipn_O. rewrite IH by (rewrite skipn_length; lia). reflexivity.
Qed.

Lemma wrap_drops : forall iv key tail, (length key mod 8 = 0)%nat -> (length tail < 8)%nat -> aes_wrap_key_iv P kek (key ++ tail) iv = aes_wrap_key_iv P kek key iv.
Proof.
  intros iv key tail M T. unfold aes_wrap_key_iv.
  assert (D : length key = (8 * (length key / 8))%nat) by (pose proof (Nat.div_mod (length key) 8 ltac:(lia)); lia).
  replace (length (key ++ tail) / 8)%nat with (length key / 8)%nat.
  - rewrite chunks8_app by lia. reflexivity.
  - rewrite app_length. apply (Nat.div_unique (length key + length tail) 8 (length key / 8) (length tail)); lia.
Qed.

Lemma unwrap_drops : forall w tail, (length w mod 8 = 0)%nat -> (8 <= length w)%nat -> (length tail < 8)%nat -> aes_unwrap_key P kek (w ++ tail) = aes_unwrap_key P kek w.
Proof.
  intros w tail M L T. unfold aes_unwrap_key, aes_unwrap_key_and_iv.
  assert (D : length w = (8 * (length w / 8))%nat) by (pose proof (Nat.div_mod (length w) 8 ltac:(lia)); lia).
  assert (Q : (length (w ++ tail) / 8 = length w / 8)%nat).
  { symmetry. rewrite app_length. apply (Nat.div_unique (length w + length tail) 8 (length w / 8) (length tail)); lia. }
  rewrite Q. rewrite firstn_app, skipn_app. replace (8 - length w)%nat with 0%nat by lia. rewrite firstn_O, app_nil_r, skipn_O.
  rewrite chunks8_app by (rewrite skipn_length; lia). reflexivity.
Qed.

(** unwrapping with padding: the wrapping of a padded key under the initial value A65959A6 || length *)
Lemma withpad_ok : forall key pad, bytes_ok key = true -> bytes_ok pad = true -> Z.of_nat (length key) < 2 ^ 32 -> (length pad <= 8)%nat ->
  (length (key ++ pad) mod 8 = 0)%nat ->
  exists w, aes_wrap_key_iv P kek (key ++ pad) (0xA65959A600000000 + Z.of_nat (length key)) = Ok w /\ aes_unwrap_key_withpad P kek w = Ok key.
Proof.
  intros key pad B BP L LP M. change (2 ^ 32) with 4294967296 in L.
  assert (D : length (key ++ pad) = (8 * (length (key ++ pad) / 8))%nat) by (pose proof (Nat.div_mod (length (key ++ pad)) 8 ltac:(lia)); lia).
  assert (LA := app_length key pad).
  destruct (wrap_ok (0xA65959A600000000 + Z.of_nat (length key)) (key ++ pad)) as (w & E & _ & _ & U).
  - rewrite bytes_ok_app, B, BP. reflexivity.
  - lia.
  - rewrite LA. change (2 ^ 63) with 9223372036854775808. lia.
  - exists w. split; [exact E|]. unfold aes_unwrap_key_withpad. rewrite U. cbn [bind]. rewrite <- D, firstn_all.
    replace ((0xA65959A600000000 + Z.of_nat (length key)) / 2 ^ 32) with 0xA65959A6.
    2:{ apply (Z.div_unique _ _ _ (Z.of_nat (length key))); lia. }
    replace ((0xA65959A600000000 + Z.of_nat (length key)) mod 2 ^ 32) with (Z.of_nat (length key)).
    2:{ apply (Z.mod_unique _ _ 0xA65959A6); lia. }
    rewrite Nat2Z.id. cbn [Z.eqb negb Pos.eqb]. rewrite firstn_app, Nat.sub_diag, firstn_O, app_nil_r, firstn_all. reflexivity.
Qed.
End Wrap.
