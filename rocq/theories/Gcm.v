(** * Model of jwkest/aes_gcm.py *)
From Coq Require Import ZArith List Bool Lia.
From Verif Require Import Base Prims KeyWrap Elliptic Ecc Extra.
Import ListNotations.
Open Scope Z_scope.

Definition R128 : Z := 0xE1000000000000000000000000000000.

(** aes_gcm.py:48-50, the loop [for i in range(127, -1, -1)]; [k] counts the remaining passes, i = k - 1. *)
Fixpoint gf_loop (k : nat) (x y res : Z) : Z :=
  match k with
  | O => res
  | S i => gf_loop i (Z.lxor (Z.shiftr x 1) (Z.land x 1 * R128)) y
             (Z.lxor res (x * Z.land (Z.shiftr y (Z.of_nat i)) 1))
  end.

(** aes_gcm.py:44-52 gf_2_128_mul *)
Definition gf_2_128_mul (x y : Z) : res Z :=
  if negb (x <? 2 ^ 128) then Raise EAssertionError
  else if negb (y <? 2 ^ 128) then Raise EAssertionError
  else let r := gf_loop 128 x y 0 in
       if negb (r <? 2 ^ 128) then Raise EAssertionError else Ok r.

(** aes_gcm.py:69-76: the state of an AES_GCM object; [g_ecb] is the key held by the [_aes_ecb] object. *)
Record gcm := { g_prev : option Z; g_key : bytes; g_ecb : bytes; g_auth : Z; g_table : list (list Z) }.

(** [range(a, b)] *)
Definition zrange (n : nat) : list Z := map Z.of_nat (seq 0 n).

Section Gcm.
Variable P : prims.

(** aes_gcm.py:88-94 *)
Definition make_table (auth : Z) : res (list (list Z)) :=
  mapM (fun i => mapM (fun j => gf_2_128_mul auth (Z.shiftl j (8 * i))) (zrange 256)) (zrange 16).

(** aes_gcm.py:78-96 change_key: returns the object afterwards and the outcome.  When AES.new rejects the key the
    new [_master_key] stays in place and the rest is unchanged. *)
Definition change_key (g : gcm) (master_key : Z) : gcm * res unit :=
  let mk := long_to_bytes master_key 16 in
  if negb (aes_keysize mk)
  then ({| g_prev := g_prev g; g_key := mk; g_ecb := g_ecb g; g_auth := g_auth g; g_table := g_table g |}, Raise EValueError)
  else
    let auth := be2z (p_aes_enc P mk (repeat 0 16)) in
    match make_table auth with
    | Ok t => ({| g_prev := None; g_key := mk; g_ecb := mk; g_auth := auth; g_table := t |}, Ok tt)
    | Raise e => ({| g_prev := g_prev g; g_key := mk; g_ecb := mk; g_auth := auth; g_table := g_table g |}, Raise e)
    end.

(** aes_gcm.py:70-76 __init__ *)
Definition gcm_new (master_key : Z) : res gcm :=
  let '(g, r) := change_key {| g_prev := None; g_key := []; g_ecb := []; g_auth := 0; g_table := [] |} master_key in
  _ <- r;; Ok g.

(** aes_gcm.py:98-103 __times_auth_key.  The table has 16 rows of 256 entries whenever the constructor succeeded, so
    the look-ups cannot fail. *)
Fixpoint times_rows (rows : list (list Z)) (val res : Z) : Z :=
  match rows with
  | [] => res
  | row :: rest => times_rows rest (Z.shiftr val 8) (Z.lxor res (nth (Z.to_nat (Z.land val 255)) row 0))
  end.
Definition times_auth_key (g : gcm) (val : Z) : Z := times_rows (g_table g) val 0.

(** aes_gcm.py:109-117 padding to whole blocks *)
Definition pad16 (s : bytes) : bytes :=
  if Nat.eqb (length s mod 16) 0 then s else s ++ repeat 0 (16 - length s mod 16).

(** aes_gcm.py:105-128 __ghash *)
Definition ghash (g : gcm) (aad txt : bytes) : Z :=
  let data := pad16 aad ++ pad16 txt in
  let tag := fold_left (fun tag b => times_auth_key g (Z.lxor tag (be2z b))) (blocks16 data) 0 in
  let tag := Z.lxor tag (Z.lor (Z.shiftl (8 * Z.of_nat (length aad)) 64) (8 * Z.of_nat (length txt))) in
  times_auth_key g tag.

(** pycryptodome CTR mode with [Counter.new(nbits=32, prefix, initial_value=2)]: the counter wraps modulo 2^32 and
    more than 2^32 blocks raise OverflowError ([allow_wraparound] is ignored). *)
Fixpoint ctr_blocks (key prefix : bytes) (ctr : Z) (bl : list bytes) : bytes :=
  match bl with
  | [] => []
  | b :: r => bxor b (p_aes_enc P key (prefix ++ z2be 4 (ctr mod 2 ^ 32))) ++ ctr_blocks key prefix (ctr + 1) r
  end.
Definition ctr_crypt (key prefix data : bytes) : res bytes :=
  if negb (aes_keysize key) then Raise EValueError
  else if 2 ^ 32 <? (Z.of_nat (length data) + 15) / 16 then Raise EOverflowError
  else Ok (ctr_blocks key prefix 2 (blocks16 data)).

(** aes_gcm.py:138-157 and 180-197: counter mode over the zero-padded text, cut back to its length. *)
Definition gctr (g : gcm) (init_value : Z) (text : bytes) : res bytes :=
  if Nat.ltb 0 (length text)
  then c <- ctr_crypt (g_key g) (long_to_bytes init_value 12) (pad16 text);; Ok (firstn (length text) c)
  else Ok [].

(** aes_gcm.py:161-162, 176-177: E(iv || 1) *)
Definition tag_mask (g : gcm) (init_value : Z) : Z :=
  be2z (p_aes_enc P (g_ecb g) (long_to_bytes (Z.lor (Z.shiftl init_value 32) 1) 16)).

(** aes_gcm.py:130-166 encrypt, for init_value >= 0 *)
Definition gcm_encrypt (g : gcm) (init_value : Z) (plaintext auth_data : bytes) : gcm * res (bytes * Z) :=
  if negb (init_value <? 2 ^ 96) then (g, Raise EInvalidInputException)
  else if match g_prev g with Some v => init_value =? v | None => false end then (g, Raise EInvalidInputException)
  else
    let g := {| g_prev := Some init_value; g_key := g_key g; g_ecb := g_ecb g; g_auth := g_auth g; g_table := g_table g |} in
    (g,
     ciphertext <- gctr g init_value plaintext;;
     let auth_tag := Z.lxor (ghash g auth_data ciphertext) (tag_mask g init_value) in
     if negb (auth_tag <? 2 ^ 128) then Raise EAssertionError else Ok (ciphertext, auth_tag)).

(** aes_gcm.py:168-199 decrypt *)
Definition gcm_decrypt (g : gcm) (init_value : Z) (ciphertext : bytes) (auth_tag : Z) (auth_data : bytes) : res bytes :=
  if negb (init_value <? 2 ^ 96) then Raise EInvalidInputException
  else if negb (auth_tag <? 2 ^ 128) then Raise EInvalidInputException
  else if negb (auth_tag =? Z.lxor (ghash g auth_data ciphertext) (tag_mask g init_value)) then Raise EInvalidTagException
  else gctr g init_value ciphertext.
End Gcm.
