(** * Specification side of GCM (NIST SP 800-38D), independent of the code. *)
From Coq Require Import ZArith List Bool Lia.
From Verif Require Import Base Prims.
Import ListNotations.
Open Scope Z_scope.

(** A polynomial over GF(2) is a non-negative integer: bit i is the coefficient of X^i. *)

(** Carry-less product: the sum of a·X^i over the terms X^i of b with i < n. *)
Fixpoint psum (n : nat) (a b : Z) : Z :=
  match n with
  | O => 0
  | S m => Z.lxor (psum m a b) (if Z.testbit b (Z.of_nat m) then Z.shiftl a (Z.of_nat m) else 0)
  end.
Definition clmul (a b : Z) : Z := psum (Z.to_nat (Z.log2 b + 1)) a b.

(** 1 + X + X^2 + X^7 + X^128 *)
Definition PP : Z := 2 ^ 128 + 2 ^ 7 + 2 ^ 2 + 2 + 1.

(** Equality modulo PP: the difference is a multiple. *)
Definition pcong (a b : Z) : Prop := exists q, 0 <= q /\ Z.lxor a b = clmul PP q.

(** GCM blocks are bit-reflected: the most significant bit is the coefficient of X^0. *)
Fixpoint frombits (n : nat) (f : Z -> bool) : Z :=
  match n with O => 0 | S m => frombits m f + (if f (Z.of_nat m) then 2 ^ Z.of_nat m else 0) end.
Definition rev128 (x : Z) : Z := frombits 128 (fun i => Z.testbit x (127 - i)).

(** Long division by PP, from degree n + 127 down. *)
Fixpoint pmod (n : nat) (a : Z) : Z :=
  match n with
  | O => a
  | S m => pmod m (if Z.testbit a (128 + Z.of_nat m) then Z.lxor a (Z.shiftl PP (Z.of_nat m)) else a)
  end.

(** The block product of SP 800-38D. *)
Definition bmul (x y : Z) : Z := rev128 (pmod 127 (clmul (rev128 x) (rev128 y))).

(** GHASH_H of a sequence of blocks *)
Definition ghash_blocks (h : Z) (bl : list Z) : Z := fold_left (fun y x => bmul (Z.lxor y x) h) bl 0.

(** the least number of zero octets that completes the last block *)
Definition zpad (s : bytes) : bytes := s ++ repeat 0 (Z.to_nat ((- Z.of_nat (length s)) mod 16)).

(** consecutive 16-octet blocks as numbers *)
Fixpoint to_blocks (n : nat) (s : bytes) : list Z :=
  match n with O => [] | S m => be2z (firstn 16 s) :: to_blocks m (skipn 16 s) end.

(** GHASH(H, A, C) *)
Definition ghash_spec (h : Z) (aad c : bytes) : Z :=
  let s := zpad aad ++ zpad c ++ z2be 8 (8 * Z.of_nat (length aad)) ++ z2be 8 (8 * Z.of_nat (length c)) in
  ghash_blocks h (to_blocks (length s / 16) s).

Section Gcm.
Variable P : prims.

(** E_K(IV || ctr) E_K(IV || ctr+1) ... (n blocks, 32-bit counter) *)
Definition keystream (key iv : bytes) (n : nat) : bytes :=
  concat (map (fun i => p_aes_enc P key (iv ++ z2be 4 ((2 + Z.of_nat i) mod 2 ^ 32))) (seq 0 n)).
(** octet-wise sum, as long as the text *)
Definition xor_stream (text ks : bytes) : bytes := map (fun '(a, b) => Z.lxor a b) (combine text ks).

Definition gcm_c (key iv text : bytes) : bytes := xor_stream text (keystream key iv (length text / 16 + 1)).
Definition gcm_t (key iv aad c : bytes) : Z :=
  Z.lxor (ghash_spec (be2z (p_aes_enc P key (repeat 0 16))) aad c) (be2z (p_aes_enc P key (iv ++ [0; 0; 0; 1]))).
End Gcm.
