(** * Model of jwkest/extra.py *)
From Coq Require Import ZArith List Bool Lia.
From Verif Require Import Base Prims Elliptic Ecc.
Import ListNotations.
Open Scope Z_scope.

(** extra.py:32-43 pkcs5pad ([n == 0] cannot hold). *)
Definition pkcs5pad (x : bytes) : bytes :=
  let n := (16 - length x mod 16)%nat in
  let n := if Nat.eqb n 0 then 16%nat else n in
  x ++ repeat (Z.of_nat n) n.

(** Python slice [x[:-n]] for n >= 0: [x[:0]] when n = 0. *)
Definition drop_last (x : bytes) (n : nat) : bytes :=
  match n with O => [] | _ => firstn (length x - n) x end.

(** extra.py:46-58 pkcs5trim; [unpack('B', b'')] raises struct.error. *)
Definition pkcs5trim (x : bytes) : res bytes :=
  match rev x with
  | [] => Raise EStructError
  | n :: _ => if 16 <? n then Raise EException else Ok (drop_last x (Z.to_nat n))
  end.

(** extra.py:19-23 LENMET *)
Definition LENMET (l : nat) : option (nat * hashalg) :=
  if Nat.eqb l 32 then Some (16%nat, SHA256)
  else if Nat.eqb l 48 then Some (24%nat, SHA384)
  else if Nat.eqb l 64 then Some (32%nat, SHA512)
  else None.

(** extra.py:61-76 get_keys_seclen_dgst *)
Definition get_keys_seclen_dgst (key iv : bytes) : res (bytes * bytes * nat * hashalg) :=
  if negb (Nat.eqb (length iv) 16) then Raise EException
  else match LENMET (length key) with
       | None => Raise EException
       | Some (seclen, dgst) => Ok (firstn seclen key, skipn seclen key, seclen, dgst)
       end.

Fixpoint bxor (a b : bytes) : bytes :=
  match a, b with x :: a', y :: b' => Z.lxor x y :: bxor a' b' | _, _ => [] end.

(** [[s[i:i+16] for i in range(0, len(s), 16)]] *)
Fixpoint blocks16_n (n : nat) (s : bytes) : list bytes :=
  match n with O => [] | S m => firstn 16 s :: blocks16_n m (skipn 16 s) end.
Definition blocks16 (s : bytes) : list bytes := blocks16_n ((length s + 15) / 16) s.

Section Extra.
Variable P : prims.

(** CBC mode over the block function (pycryptodome MODE_CBC: ValueError if the data is not a multiple of 16). *)
Fixpoint cbc_enc (ke prev : bytes) (bl : list bytes) : bytes :=
  match bl with
  | [] => []
  | b :: r => let c := p_aes_enc P ke (bxor b prev) in c ++ cbc_enc ke c r
  end.
Fixpoint cbc_dec (ke prev : bytes) (bl : list bytes) : bytes :=
  match bl with
  | [] => []
  | c :: r => bxor (p_aes_dec P ke c) prev ++ cbc_dec ke c r
  end.
Definition cbc_encrypt (ke iv pt : bytes) : res bytes :=
  if Nat.eqb (length pt mod 16) 0 then Ok (cbc_enc ke iv (blocks16 pt)) else Raise EValueError.
Definition cbc_decrypt (ke iv ct : bytes) : res bytes :=
  if Nat.eqb (length ct mod 16) 0 then Ok (cbc_dec ke iv (blocks16 ct)) else Raise EValueError.

(** extra.py:98, 123: [pack("!Q", 8*len(aad))] *)
Definition pack_Q (n : Z) : res bytes := if (0 <=? n) && (n <? 2 ^ 64) then Ok (z2be 8 n) else Raise EStructError.
(** [pack("!I", n)] *)
Definition pack_I (n : Z) : res bytes := if (0 <=? n) && (n <? 2 ^ 32) then Ok (z2be 4 n) else Raise EStructError.

(** extra.py:79-103 aes_cbc_hmac_encrypt *)
Definition aes_cbc_hmac_encrypt (key iv aad pt : bytes) : res (bytes * bytes) :=
  t <- get_keys_seclen_dgst key iv;;
  let '(ka, ke, seclen, dgst) := t in
  ct <- cbc_encrypt ke iv (pkcs5pad pt);;
  al <- pack_Q (8 * Z.of_nat (length aad));;
  let mac_input := aad ++ iv ++ ct ++ al in
  Ok (ct, firstn seclen (p_hmac P dgst ka mac_input)).

(** extra.py:106-137 aes_cbc_hmac_decrypt, for aad of type bytes (jwe.py passes bytes). *)
Definition aes_cbc_hmac_decrypt (key iv aad ct tag : bytes) : res bytes :=
  t <- get_keys_seclen_dgst key iv;;
  let '(ka, ke, seclen, dgst) := t in
  al <- pack_Q (8 * Z.of_nat (length aad));;
  let mac_input := aad ++ iv ++ ct ++ al in
  let candidate := firstn seclen (p_hmac P dgst ka mac_input) in
  if zs_eqb candidate tag
  then pt <- cbc_decrypt ke iv ct;; pkcs5trim pt
  else Raise EVerificationFailure.

(** extra.py:153-158: the loop.  [fuel] bounds the iterations; every iteration adds one digest. *)
Fixpoint concat_loop (fuel : nat) (counter dk_bytes : Z) (dkm secret other_info : bytes) : res bytes :=
  if Z.of_nat (length dkm) <? dk_bytes then
    match fuel with
    | O => Raise OutOfFuel
    | S f =>
        cb <- pack_I (counter + 1);;
        concat_loop f (counter + 1) dk_bytes (dkm ++ p_hash P SHA256 (cb ++ secret ++ other_info)) secret other_info
    end
  else Ok dkm.

(** extra.py:140-159 concat_sha256.  [int(ceil(dk_len / 8.0))] is exact for dk_len < 2^53; Python slices of a
    negative [dk_bytes] are applied to the empty string. *)
Definition concat_sha256 (secret : bytes) (dk_len : Z) (other_info : bytes) : res bytes :=
  let dk_bytes := (dk_len + 7) / 8 in
  dkm <- concat_loop (Z.to_nat dk_bytes) 0 dk_bytes [] secret other_info;;
  Ok (firstn (Z.to_nat dk_bytes) dkm).

(** extra.py:179-182 otherInfo *)
Definition other_info (apu apv alg : bytes) (dk_len : Z) : res bytes :=
  lu <- pack_I (Z.of_nat (length apu));;
  lv <- pack_I (Z.of_nat (length apv));;
  ld <- pack_I dk_len;;
  Ok (alg ++ (lu ++ apu) ++ (lv ++ apv) ++ ld).

(** extra.py:162-183 ecdh_derive_key *)
Definition ecdh_derive_key (c : curve) (key : Z) (epk : Z * Z) (apu apv alg : bytes) (dk_len : Z) : res bytes :=
  z <- dh_z c key (Some epk);;
  oi <- other_info apu apv alg dk_len;;
  concat_sha256 z dk_len oi.
End Extra.
