(** * A concrete RSA: the schemes of RFC 8017 over the hash functions of [Sha.v].
    This is not code of pyjwkest (pycryptodome provides it); it instantiates the record of [Prims.v] so that the laws
    assumed there are theorems about real schemes and not only about toys. *)
From Coq Require Import ZArith Znumtheory Zpow_facts List Bool Lia.
From Verif Require Import Base Prims Sha.
Import ListNotations.
Open Scope Z_scope.

(** RSAEP / RSADP *)
Definition powm (x e n : Z) : Z := Zpow_mod x e n.
Definition mod_bits (k : rsakey) : Z := Z.log2 (r_n k) + 1.
Definition mod_len (k : rsakey) : nat := Z.to_nat ((mod_bits k + 7) / 8).

Definition rsa_public_op (k : rsakey) (m : Z) : res Z :=
  if (0 <=? m) && (m <? r_n k) then Ok (powm m (r_e k) (r_n k)) else Raise EValueError.
Definition rsa_private_op (k : rsakey) (c : Z) : res Z :=
  match r_d k with
  | None => Raise ETypeError
  | Some d => if (0 <=? c) && (c <? r_n k) then Ok (powm c d (r_n k)) else Raise EValueError
  end.

(** randomness: the requested number of octets is read from a supply that is extended with zeros *)
Definition rnd_octets (n : nat) (rnd : bytes) : bytes := map (fun i => nth i rnd 0 mod 256) (seq 0 n).
Definition rnd_nonzero (n : nat) (rnd : bytes) : bytes := map (fun i => nth i rnd 0 mod 255 + 1) (seq 0 n).

Fixpoint sxor (a b : bytes) : bytes :=
  match a, b with x :: a', y :: b' => Z.lxor x y :: sxor a' b' | _, _ => [] end.

(** MGF1 *)
Definition mgf1 (h : hashalg) (seed : bytes) (len : nat) : bytes :=
  firstn len (concat (map (fun i => hash h (seed ++ z2be 4 (Z.of_nat i))) (seq 0 (len / hlen h + 1)))).

(** *** EMSA-PKCS1-v1_5 *)
Definition digest_prefix (h : hashalg) : bytes :=
  match h with
  | SHA1 => z2be 15 0x3021300906052b0e03021a05000414
  | SHA256 => z2be 19 0x3031300d060960864801650304020105000420
  | SHA384 => z2be 19 0x3041300d060960864801650304020205000430
  | SHA512 => z2be 19 0x3051300d060960864801650304020305000440
  end.
Definition emsa_v15 (h : hashalg) (m : bytes) (len : nat) : res bytes :=
  let t := digest_prefix h ++ hash h m in
  if Nat.ltb len (length t + 11) then Raise ETypeError
  else Ok ([0; 1] ++ repeat 255 (len - length t - 3) ++ [0] ++ t).

(** *** EMSA-PSS, salt as long as the digest *)
Definition pss_h (h : hashalg) (m salt : bytes) : bytes := hash h (repeat 0 8 ++ hash h m ++ salt).
(** clear the topmost [z] bits of an octet string *)
Definition clear_top (z : Z) (b : bytes) : bytes :=
  match b with [] => [] | x :: r => x mod 2 ^ (8 - z) :: r end.
Definition emsa_pss (h : hashalg) (m salt : bytes) (embits : Z) : res bytes :=
  let emlen := Z.to_nat ((embits + 7) / 8) in
  if Nat.ltb emlen (2 * hlen h + 2) then Raise EValueError
  else
    let hh := pss_h h m salt in
    let db := repeat 0 (emlen - 2 * hlen h - 2) ++ [1] ++ salt in
    let masked := sxor db (mgf1 h hh (emlen - hlen h - 1)) in
    Ok (clear_top (8 * Z.of_nat emlen - embits) masked ++ hh ++ [188]).
Definition emsa_pss_verify (h : hashalg) (m em : bytes) (embits : Z) : bool :=
  let emlen := Z.to_nat ((embits + 7) / 8) in
  if Nat.ltb emlen (2 * hlen h + 2) then false
  else
    let dblen := (emlen - hlen h - 1)%nat in
    let masked := firstn dblen em in
    let hh := firstn (hlen h) (skipn dblen em) in
    let top := 8 * Z.of_nat emlen - embits in
    if negb (zs_eqb (skipn (dblen + hlen h) em) [188]) then false
    else if negb (zs_eqb (clear_top top masked) masked) then false
    else
      let db := clear_top top (sxor masked (mgf1 h hh dblen)) in
      if negb (zs_eqb (firstn (emlen - 2 * hlen h - 1) db) (repeat 0 (emlen - 2 * hlen h - 2) ++ [1])) then false
      else zs_eqb hh (pss_h h m (skipn (emlen - 2 * hlen h - 1) db)).

Definition rsa_sign (s : sigscheme) (h : hashalg) (k : rsakey) (rnd m : bytes) : res bytes :=
  em <- (match s with
         | PKCS1v15 => emsa_v15 h m (mod_len k)
         | PSS => emsa_pss h m (rnd_octets (hlen h) rnd) (mod_bits k - 1)
         end);;
  x <- rsa_private_op k (be2z em);;
  Ok (z2be (mod_len k) x).

(** pycryptodome's [verify] of the PyCrypto-compatible interface turns ValueError and TypeError into False *)
Definition to_bool (r : res bool) : res bool := match r with Ok b => Ok b | Raise _ => Ok false end.
Definition rsa_verify (s : sigscheme) (h : hashalg) (k : rsakey) (m sg : bytes) : res bool :=
  to_bool
    (if negb (Nat.eqb (length sg) (mod_len k)) then Ok false
     else
       x <- rsa_public_op k (be2z sg);;
       match s with
       | PKCS1v15 => em <- emsa_v15 h m (mod_len k);; Ok (zs_eqb (z2be (mod_len k) x) em)
       | PSS =>
           let emlen := Z.to_nat ((mod_bits k - 1 + 7) / 8) in
           if 256 ^ Z.of_nat emlen <=? x then Ok false
           else Ok (emsa_pss_verify h m (z2be emlen x) (mod_bits k - 1))
       end).

(** *** EME-PKCS1-v1_5 and EME-OAEP (empty label) *)
Definition eme_v15 (m rnd : bytes) (len : nat) : res bytes :=
  if Nat.ltb len (length m + 11) then Raise EValueError
  else Ok ([0; 2] ++ rnd_nonzero (len - length m - 3) rnd ++ [0] ++ m).
(** index of the first zero *)
Fixpoint find0 (b : bytes) : option nat :=
  match b with [] => None | x :: r => if x =? 0 then Some O else option_map S (find0 r) end.
Definition eme_v15_decode (em : bytes) : option bytes :=
  match em with
  | a :: b :: r =>
      if (a =? 0) && (b =? 2) then
        match find0 r with
        | Some i => if Nat.ltb i 8 then None else Some (skipn (S i) r)
        | None => None
        end
      else None
  | _ => None
  end.

Definition eme_oaep (h : hashalg) (m rnd : bytes) (len : nat) : res bytes :=
  if Nat.ltb len (length m + 2 * hlen h + 2) then Raise EValueError
  else
    let db := hash h [] ++ repeat 0 (len - length m - 2 * hlen h - 2) ++ [1] ++ m in
    let seed := rnd_octets (hlen h) rnd in
    let mdb := sxor db (mgf1 h seed (len - hlen h - 1)) in
    Ok ([0] ++ sxor seed (mgf1 h mdb (hlen h)) ++ mdb).
(** first non-zero octet must be 1 *)
Fixpoint after_one (b : bytes) : option bytes :=
  match b with [] => None | x :: r => if x =? 0 then after_one r else if x =? 1 then Some r else None end.
Definition eme_oaep_decode (h : hashalg) (em : bytes) : res bytes :=
  if Nat.ltb (length em) (2 * hlen h + 2) then Raise EValueError
  else
    let mseed := firstn (hlen h) (skipn 1 em) in
    let mdb := skipn (hlen h + 1) em in
    let seed := sxor mseed (mgf1 h mdb (hlen h)) in
    let db := sxor mdb (mgf1 h seed (length em - hlen h - 1)) in
    if negb (zs_eqb (firstn 1 em) [0]) || negb (zs_eqb (firstn (hlen h) db) (hash h [])) then Raise EValueError
    else match after_one (skipn (hlen h) db) with Some m => Ok m | None => Raise EValueError end.

Definition oaep_hash (s : encscheme) : hashalg := match s with OAEP256 => SHA256 | _ => SHA1 end.
Definition rsa_encrypt (s : encscheme) (k : rsakey) (rnd m : bytes) : res bytes :=
  em <- (match s with
         | RSA15 => eme_v15 m rnd (mod_len k)
         | OAEP | OAEP256 => eme_oaep (oaep_hash s) m rnd (mod_len k)
         end);;
  x <- rsa_public_op k (be2z em);;
  Ok (z2be (mod_len k) x).
Definition rsa_decrypt (s : encscheme) (k : rsakey) (ct : bytes) : res (option bytes) :=
  if negb (Nat.eqb (length ct) (mod_len k)) then Raise EValueError
  else
    x <- rsa_private_op k (be2z ct);;
    let em := z2be (mod_len k) x in
    match s with
    | RSA15 => Ok (eme_v15_decode em)
    | OAEP | OAEP256 => m <- eme_oaep_decode (oaep_hash s) em;; Ok (Some m)
    end.
