(** * Functions other parts of the package do not call: hexread, curve_q, compress, ecdh_derive_key, intarr2bin,
    base64url_to_long on text, RSAKey.load and x509_rsa_load (C234-C239). *)
From Coq Require Import ZArith Znumtheory List Bool Lia.
From Verif Require Import Base BaseProofs Utf8 Codec CodecProofs Prims Elliptic EcArith EcProofs Ecc EccProofs EcAux EcSpec Zp EcGroup Nist Extra ExtraProofs Pbkdf2 Pbkdf2Proofs Pbkdf2Proofs2 Jwk Misc Jwe JweProofs JweProofs13.
Import ListNotations.
Open Scope Z_scope.

(** ** Hexadecimal text *)
Definition hex_letters : list Z := lit "0123456789abcdef".
Definition hex_text (b : list Z) : list Z := flat_map (fun x => [nth (Z.to_nat (x / 16)) hex_letters 0; nth (Z.to_nat (x mod 16)) hex_letters 0]) b.

Lemma hex_digit_nth : forall v, 0 <= v < 16 -> hex_digit v = nth (Z.to_nat v) hex_letters 0.
Proof.
  intros v V. assert (C : In v (map Z.of_nat (seq 0 16))) by (apply in_map_iff; exists (Z.to_nat v); split; [lia|]; apply in_seq; lia).
  cbn [map seq] in C. repeat (destruct C as [<-|C]; [reflexivity|]). destruct C.
Qed.
Lemma hexlify_text : forall b, bytes_ok b = true -> hexlify b = hex_text b.
Proof.
  induction b as [|x r IH]; intro B; [reflexivity|]. unfold bytes_ok in B. cbn [forallb] in B. apply andb_true_iff in B. destruct B as [X B]. unfold is_byte in X.
  unfold hexlify, hex_text. cbn [map concat flat_map]. fold (hexlify r). fold (hex_text r). rewrite <- (IH B), !hex_digit_nth by lia. reflexivity.
Qed.
Lemma unhex_digit_hex : forall v, 0 <= v < 16 -> unhex_digit (hex_digit v) = Some v.
Proof.
  intros v V. assert (C : In v (map Z.of_nat (seq 0 16))) by (apply in_map_iff; exists (Z.to_nat v); split; [lia|]; apply in_seq; lia).
  cbn [map seq] in C. repeat (destruct C as [<-|C]; [reflexivity|]). destruct C.
Qed.
Lemma intarr2bin_id : forall b, bytes_ok b = true -> intarr2bin b = Ok b.
Proof.
  induction b as [|x r IH]; intro B; [reflexivity|]. unfold bytes_ok in B. cbn [forallb] in B. apply andb_true_iff in B. destruct B as [X B]. unfold is_byte in X.
  unfold intarr2bin in *. cbn [map concat app unhexlify]. rewrite !unhex_digit_hex by lia. rewrite (IH B). cbn [bind]. f_equal. f_equal. lia.
Qed.

(** ** hexread after any number of reads *)
Section Hex.
Variable P : prims.
Hypothesis HM : hmac_law P.
Definition state_after (o : option pbkdf2) (ns : list Z) : option pbkdf2 := fold_left (fun o n => fst (read P o n)) ns o.
Lemma state_at : forall ns s k, at_pos P s k -> Forall (fun n => 0 <= n) ns -> Z.of_nat k + fold_right Z.add 0 ns <= 20 * 0xffffffff ->
  exists s', state_after (Some s) ns = Some s' /\ at_pos P s' (k + Z.to_nat (fold_right Z.add 0%Z ns)) /\ b_pw s' = b_pw s /\ b_salt s' = b_salt s /\ b_iter s' = b_iter s.
Proof.
  induction ns as [|n ns IH]; intros s k A F L; cbn [state_after fold_left fold_right].
  - exists s. change (Z.to_nat 0) with 0%nat. rewrite Nat.add_0_r. auto.
  - inversion F as [|? ? N1 F']; subst. cbn [fold_right] in L. assert (0 <= fold_right Z.add 0 ns) by (clear -F'; induction F'; cbn [fold_right]; lia).
    destruct (read_step P HM s k n A) as [(s' & v & m & R & A' & E1 & E2 & E3 & _ & M & _)|[_ O]]; [|lia]. rewrite R. cbn [fst].
    specialize (M N1). subst m. destruct (IH s' (k + Z.to_nat n)%nat A' F') as (t & T1 & T2 & T3 & T4 & T5); [lia|]. exists t. split; [exact T1|].
    replace (k + Z.to_nat (n + fold_right Z.add 0%Z ns))%nat with (k + Z.to_nat n + Z.to_nat (fold_right Z.add 0%Z ns))%nat by lia. split; [exact T2|]. rewrite T3, T4, T5. auto.
Qed.
Lemma stream_bytes1 : forall pw salt k m, bytes_ok pw = true -> bytes_ok salt = true -> bytes_ok (map (stream P pw salt 1) (seq k m)) = true.
Proof. intros pw salt k m A B. apply forallb_forall. intros x I. apply in_map_iff in I. destruct I as (i & <- & _). apply (stream_byte1 P HM); assumption. Qed.

Theorem hexread_value : forall v pw salt iters s ns n, pb_new v pw salt iters = Ok s -> Forall (fun n => 0 <= n) ns -> 0 <= n -> fold_right Z.add 0 ns + n <= 20 * 0xffffffff ->
  hexread P (state_after (Some s) ns) n = (state_after (Some s) (ns ++ [n]),
    let o := map (stream P (b_pw s) (b_salt s) (Z.to_nat (b_iter s))) (seq (Z.to_nat (fold_right Z.add 0 ns)) (Z.to_nat n)) in
    if (b_iter s =? 1) || ascii o then Ok (hex_text o) else Raise EUnicodeEncodeError).
Proof.
  intros v pw salt iters s ns n NEW F N L.
  destruct (state_at ns s 0 (fresh P _ _ _ _ _ NEW) F) as (t & T1 & T2 & T3 & T4 & T5); [lia|]. cbn [Nat.add] in T2.
  unfold state_after at 2. rewrite fold_left_app. fold (state_after (Some s) ns). cbn [fold_left]. rewrite T1. unfold hexread.
  assert (0 <= fold_right Z.add 0 ns) by (clear -F; induction F; cbn [fold_right]; lia).
  destruct (read_step P HM t _ n T2) as [(s' & w & m & R & A' & E1 & E2 & E3 & C & M & _ & TY)|[_ O]]; [|lia]. rewrite R. cbn [fst bind]. f_equal.
  specialize (M N). subst m. unfold first_octets in C. rewrite T3, T4, T5 in C. rewrite T5 in TY. set (o := map _ _) in *.
  destruct T2 as [Bp Bs _ _ _ _ _]. rewrite T3 in Bp. rewrite T4 in Bs.
  destruct (b_iter s =? 1) eqn:I; cbn [orb].
  - assert (exists b, w = VBytes b) as [b ->] by (destruct TY as [[b ->]| ->]; eexists; reflexivity). cbn [chars] in C. subst b. rewrite hexlify_text; [reflexivity|].
    apply Z.eqb_eq in I. unfold o. rewrite I. apply stream_bytes1; assumption.
  - destruct TY as [[x ->]| ->]; cbn [chars] in C.
    + subst x. unfold ascii_encode. destruct (ascii o) eqn:A; [|reflexivity]. cbn [bind]. rewrite hexlify_text; [reflexivity|]. apply ascii_bytes. exact A.
    + rewrite <- C. reflexivity.
Qed.
End Hex.

(** ** curve_q and compress *)
Lemma curve_q_through : forall x y p n, 0 < n -> element (Some (x, y)) p (curve_q x y p n) n = true /\ 0 <= curve_q x y p n < n /\
  forall q, 0 <= q < n -> element (Some (x, y)) p q n = true -> q = curve_q x y p n.
Proof.
  intros x y p n N. unfold curve_q, element. set (t := (x * x - p) * x - y * y). pose proof (Z.mod_pos_bound t n N) as B.
  split; [|split; [exact B|]].
  - apply Z.eqb_eq. rewrite Zminus_mod, Zmod_mod, <- Zminus_mod. f_equal. unfold t. ring.
  - intros q Q E. apply Z.eqb_eq in E. rewrite <- (Z.mod_small q n Q). 
    assert (D : (x * x * x - p * x - q - y * y) mod n = 0) by (rewrite Zminus_mod, E, <- Zminus_mod, Z.sub_diag; apply Z.mod_0_l; lia).
    apply Z.mod_divide in D; [|lia]. destruct D as [k D]. replace t with (q + k * n) by (unfold t; lia). rewrite Z.mod_add by lia. reflexivity.
Qed.

Section Compress.
Variables (name : list Z) (c : curve).
Hypothesis H : by_name name = Ok c.
Lemma compress_inj : forall x y x' y', 0 <= y < c_p c -> 0 <= y' < c_p c ->
  element (Some (x, y)) (c_a c) (c_b c) (c_p c) = true -> element (Some (x', y')) (c_a c) (c_b c) (c_p c) = true ->
  compress (Some (x, y)) = compress (Some (x', y')) -> x = x' /\ y = y'.
Proof.
  intros x y x' y' Y Y' E E' Q. destruct (nist_facts name c H) as (PR & _ & P3 & _). unfold compress, sign_bit in Q. injection Q as <- Q. split; [reflexivity|].
  cbn [element] in E, E'. apply Z.eqb_eq in E, E'. rewrite E in E'.
  assert (D : (c_p c | (y - y') * (y + y'))).
  { apply Z.mod_divide; [lia|]. replace ((y - y') * (y + y')) with (y * y - y' * y') by ring. rewrite Zminus_mod, E', Z.sub_diag. apply Z.mod_0_l. lia. }
  assert (ODD : c_p c mod 2 = 1).
  { destruct (Z.eq_dec (c_p c mod 2) 0) as [Z0|]; [|pose proof (Z.mod_pos_bound (c_p c) 2); lia]. apply Z.mod_divide in Z0; [|lia].
    destruct (prime_divisors _ PR 2 Z0) as [|[|[|]]]; lia. }
  destruct (prime_mult _ PR _ _ D) as [[k K]|[k K]].
  - assert (k = 0) by nia. lia.
  - assert (k = 0 \/ k = 1) as [->| ->] by nia; [lia|]. exfalso. assert (y' = c_p c - y) by lia. subst y'. rewrite Zminus_mod in Q.
    pose proof (Z.mod_pos_bound y 2). rewrite ODD in Q. assert (y mod 2 = 0 \/ y mod 2 = 1) as [R|R] by lia; rewrite R in Q; discriminate Q.
Qed.
(** The two points with the same first coordinate have different bits, unless the second coordinate is zero. *)
Lemma compress_neg : forall x y, 0 < y < c_p c -> exists b, compress (Some (x, y)) = Ok (x, b) /\ compress (nega (Some (x, y)) (c_p c)) = Ok (x, 1 - b) /\ (b = 0 \/ b = 1).
Proof.
  intros x y Y. destruct (nist_facts name c H) as (PR & _ & P3 & _). exists (y mod 2). unfold compress, nega, sign_bit.
  assert (ODD : c_p c mod 2 = 1).
  { destruct (Z.eq_dec (c_p c mod 2) 0) as [Z0|]; [|pose proof (Z.mod_pos_bound (c_p c) 2); lia]. apply Z.mod_divide in Z0; [|lia].
    destruct (prime_divisors _ PR 2 Z0) as [|[|[|]]]; lia. }
  split; [reflexivity|]. pose proof (Z.mod_pos_bound y 2 ltac:(lia)). assert (M : y mod 2 = 0 \/ y mod 2 = 1) by lia. split; [|exact M].
  f_equal. f_equal. rewrite (Z.mod_small (c_p c - y) (c_p c)) by lia. rewrite (Zminus_mod (c_p c) y 2), ODD. destruct M as [-> | ->]; reflexivity.
Qed.
End Compress.

(** ** ecdh_derive_key *)
Lemma derive_key_is : forall P c d x y apu apv alg n, derive P c (VInt d) (VInt x) (VInt y) (Some apu) (Some apv) alg n = ecdh_derive_key P c d (x, y) apu apv alg n.
Proof. reflexivity. Qed.
