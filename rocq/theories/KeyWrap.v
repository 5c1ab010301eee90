(** * Model of jwkest/aes_key_wrap.py *)
From Coq Require Import ZArith List Bool Lia.
From Verif Require Import Base Prims.
Import ListNotations.
Open Scope Z_scope.

(** aes_key_wrap.py:30 [QUAD = struct.Struct('>Q')] *)
Definition quad_pack (a : Z) : res bytes := if (0 <=? a) && (a <? 2 ^ 64) then Ok (z2be 8 a) else Raise EStructError.
Definition quad_unpack (b : bytes) : res Z := if Nat.eqb (length b) 8 then Ok (be2z b) else Raise EStructError.

(** [[s[i*8:i*8+8] for i in range(0, n)]] *)
Fixpoint chunks8 (n : nat) (s : bytes) : list bytes :=
  match n with O => [] | S m => firstn 8 s :: chunks8 m (skipn 8 s) end.

(** [AES.new(kek, MODE_ECB)] raises ValueError for a key of the wrong size. *)
Definition aes_new (kek : bytes) : res unit := if aes_keysize kek then Ok tt else Raise EValueError.

Section Wrap.
Variable P : prims.

(** aes_key_wrap.py:73-76, the loop over i for one j.  The list is r[i..n]; each pass assigns r[i] once. *)
Fixpoint wrap_row (kek : bytes) (n j i a : Z) (r : list bytes) : res (Z * list bytes) :=
  match r with
  | [] => Ok (a, [])
  | x :: rest =>
      pa <- quad_pack a;;
      let b := p_aes_enc P kek (pa ++ x) in
      h <- quad_unpack (firstn 8 b);;
      t <- wrap_row kek n j (i + 1) (Z.lxor h (n * j + i)) rest;;
      Ok (fst t, skipn 8 b :: snd t)
  end.

(** aes_key_wrap.py:72-76 [for j in range(6)] *)
Fixpoint wrap_rows (kek : bytes) (n : Z) (js : list Z) (a : Z) (r : list bytes) : res (Z * list bytes) :=
  match js with
  | [] => Ok (a, r)
  | j :: js' => t <- wrap_row kek n j 1 a r;; wrap_rows kek n js' (fst t) (snd t)
  end.

Definition IV0 : Z := 0xa6a6a6a6a6a6a6a6.

(** aes_key_wrap.py:67-77 *)
Definition aes_wrap_key_iv (kek plaintext : bytes) (iv : Z) : res bytes :=
  let n := Nat.div (length plaintext) 8 in
  _ <- aes_new kek;;
  t <- wrap_rows kek (Z.of_nat n) [0; 1; 2; 3; 4; 5] iv (chunks8 n plaintext);;
  pa <- quad_pack (fst t);;
  Ok (pa ++ concat (snd t)).
Definition aes_wrap_key (kek plaintext : bytes) : res bytes := aes_wrap_key_iv kek plaintext IV0.

(** aes_key_wrap.py:40-44, the loop over i = n, ..., 1 for one j; the list is r[i..n]. *)
Fixpoint unwrap_row (kek : bytes) (n j i a : Z) (r : list bytes) : res (Z * list bytes) :=
  match r with
  | [] => Ok (a, [])
  | x :: rest =>
      t <- unwrap_row kek n j (i + 1) a rest;;
      pa <- quad_pack (Z.lxor (fst t) (n * j + i));;
      let b := p_aes_dec P kek (pa ++ x) in
      h <- quad_unpack (firstn 8 b);;
      Ok (h, skipn 8 b :: snd t)
  end.

(** aes_key_wrap.py:39-44 [for j in range(5, -1, -1)] *)
Fixpoint unwrap_rows (kek : bytes) (n : Z) (js : list Z) (a : Z) (r : list bytes) : res (Z * list bytes) :=
  match js with
  | [] => Ok (a, r)
  | j :: js' => t <- unwrap_row kek n j 1 a r;; unwrap_rows kek n js' (fst t) (snd t)
  end.

(** aes_key_wrap.py:33-45; for fewer than 8 octets n < 1, the list of blocks is empty and QUAD.unpack raises. *)
Definition aes_unwrap_key_and_iv (kek wrapped : bytes) : res (bytes * Z) :=
  let n := (Nat.div (length wrapped) 8 - 1)%nat in
  a <- quad_unpack (firstn 8 wrapped);;
  _ <- aes_new kek;;
  t <- unwrap_rows kek (Z.of_nat n) [5; 4; 3; 2; 1; 0] a (chunks8 n (skipn 8 wrapped));;
  Ok (concat (snd t), fst t).

(** aes_key_wrap.py:48-54 *)
Definition aes_unwrap_key (kek wrapped : bytes) : res bytes :=
  t <- aes_unwrap_key_and_iv kek wrapped;;
  if negb (snd t =? IV0) then Raise EValueError else Ok (fst t).

(** aes_key_wrap.py:57-64: the text "{0:016X}" of the 64-bit value is cut after 8 digits, that is at bit 32. *)
Definition aes_unwrap_key_withpad (kek wrapped : bytes) : res bytes :=
  t <- aes_unwrap_key_and_iv kek wrapped;;
  let '(key, iv) := t in
  if negb (iv / 2 ^ 32 =? 0xA65959A6) then Raise EValueError
  else Ok (firstn (Z.to_nat (iv mod 2 ^ 32)) key).

(** aes_key_wrap.py:80-83: [plaintext += "\0" * k] with k in 1..8 adds a str to bytes. *)
Definition aes_wrap_key_withpad (kek plaintext : bytes) : res bytes := Raise ETypeError.
End Wrap.
