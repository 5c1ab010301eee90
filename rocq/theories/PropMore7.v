(** * Properties C253 ... C257: how much an ECDSA signature, a public key and a shared secret determine; C258: negative scalars *)
From Coq Require Import ZArith List Bool Lia.
From Verif Require Import Base BaseProofs Elliptic Ecc EccProofs Nist EcAux EcUnique EcNeg.
Import ListNotations.
Open Scope Z_scope.

(** C253: one signature and one public key: at most four hashes (up to truncation, C83), in general at most two. *)
Theorem C253_few_hashes : forall name c, by_name name = Ok c -> forall sg pub l, bytes_ok sg = true -> element pub (c_a c) (c_b c) (c_p c) = true ->
  NoDup (map (fun h => trunc h (c_N c) mod c_N c) l) -> (forall h, In h l -> 0 <= h /\ verify c h sg pub = Ok true) ->
  (length l <= 4)%nat /\ (c_p c <= be2z (firstn (Z.to_nat (c_bytes c)) sg) + c_N c -> (length l <= 2)%nat).
Proof. exact few_hashes_nist. Qed.
Print Assumptions C253_few_hashes.
(** two hashes do occur; the key is - 2 G *)
Definition C253_r : Z := fst (c_G P256).
Definition C253_key : apt := match public_key_for P256 2 with Some (x, y) => Some (x, c_p P256 - y) | None => None end.
Example C253_ex : let sg := int2bytes P256 C253_r ++ int2bytes P256 C253_r in bytes_ok sg = true /\ element C253_key (c_a P256) (c_b P256) (c_p P256) = true /\
  verify P256 ((3 * C253_r) mod c_N P256) sg C253_key = Ok true /\ verify P256 C253_r sg C253_key = Ok true /\ (3 * C253_r) mod c_N P256 <> C253_r.
Proof. vm_compute. repeat split; try reflexivity. intro H. discriminate H. Qed.

(** C254: one signature and one hash: at most four private keys, in general at most two. *)
Theorem C254_few_keys : forall name c, by_name name = Ok c -> forall h sg l, 0 <= h -> bytes_ok sg = true -> NoDup l ->
  (forall d, In d l -> 0 < d < c_N c /\ verify c h sg (public_key_for c d) = Ok true) ->
  (length l <= 4)%nat /\ (c_p c <= be2z (firstn (Z.to_nat (c_bytes c)) sg) + c_N c -> (length l <= 2)%nat).
Proof. exact few_keys_nist. Qed.
Print Assumptions C254_few_keys.
Example C254_ex : match public_key_for P256 2 with
  | Some (x, _) => let sg := int2bytes P256 x ++ int2bytes P256 x in bytes_ok sg = true /\ verify P256 x sg (public_key_for P256 1) = Ok true
  | None => False end.
Proof. vm_compute. split; reflexivity. Qed.

(** C255: one key, one hash and one r: at most four s; in general exactly s and N - s. *)
Theorem C255_few_s : forall name c, by_name name = Ok c -> forall h d r l, 0 <= h -> 0 <= d -> 0 < r < c_N c -> NoDup l ->
  (forall s, In s l -> 0 < s < c_N c /\ verify c h (int2bytes c r ++ int2bytes c s) (public_key_for c d) = Ok true) ->
  (length l <= 4)%nat /\ (c_p c <= r + c_N c -> (length l <= 2)%nat).
Proof. exact few_s_nist. Qed.
Print Assumptions C255_few_s.
Theorem C255_only_opposite : forall name c, by_name name = Ok c -> forall h d r s s', 0 <= h -> 0 <= d -> 0 < r < c_N c -> 0 < s < c_N c -> 0 < s' < c_N c -> c_p c <= r + c_N c ->
  verify c h (int2bytes c r ++ int2bytes c s) (public_key_for c d) = Ok true ->
  (verify c h (int2bytes c r ++ int2bytes c s') (public_key_for c d) = Ok true <-> s' = s \/ s' = c_N c - s).
Proof. exact only_opposite_nist. Qed.
Print Assumptions C255_only_opposite.
Example C255_ex : match public_key_for P256 2 with
  | Some (x, _) => 0 < x < c_N P256 /\ c_p P256 <= x + c_N P256 /\ verify P256 x (int2bytes P256 x ++ int2bytes P256 x) (public_key_for P256 1) = Ok true
  | None => False end.
Proof. vm_compute. split; [split; reflexivity|]. split; [intro H; discriminate H|reflexivity]. Qed.

(** C256: the public key determines the private one, the shared secret determines it up to sign. *)
Theorem C256_public_determines : forall name c, by_name name = Ok c -> forall d d', 0 <= d < c_N c -> 0 <= d' < c_N c -> public_key_for c d = public_key_for c d' -> d = d'.
Proof. exact public_determines_nist. Qed.
Print Assumptions C256_public_determines.
Theorem C256_secret_determines : forall name c, by_name name = Ok c -> forall a a' b, 0 < a < c_N c -> 0 < a' < c_N c -> 0 < b < c_N c ->
  (dh_z c a (public_key_for c b) = dh_z c a' (public_key_for c b) <-> a' = a \/ a' = c_N c - a).
Proof. exact secret_determines_nist. Qed.
Print Assumptions C256_secret_determines.
Example C256_ex : public_key_for P256 1 <> public_key_for P256 2 /\ dh_z P256 1 (public_key_for P256 2) <> dh_z P256 2 (public_key_for P256 2).
Proof. vm_compute. split; intro H; discriminate H. Qed.

(** C257: a known nonce, or a nonce used twice, gives the private key away. *)
Theorem C257_nonce_reveals : forall name c, by_name name = Ok c -> forall fuel h d k rnds sg, 0 < d < c_N c -> 0 <= k -> sign c fuel h d (Some k) rnds = Ok sg ->
  let r := be2z (firstn (Z.to_nat (c_bytes c)) sg) in let s := be2z (skipn (Z.to_nat (c_bytes c)) sg) in
  d = ((s * k - trunc h (c_N c)) * inv r (c_N c)) mod c_N c.
Proof. exact nonce_reveals_nist. Qed.
Print Assumptions C257_nonce_reveals.
Theorem C257_same_nonce_reveals : forall name c, by_name name = Ok c -> forall fuel fuel' h h' d k rnds rnds' sg sg', 0 < d < c_N c -> 0 <= k ->
  sign c fuel h d (Some k) rnds = Ok sg -> sign c fuel' h' d (Some k) rnds' = Ok sg' -> trunc h (c_N c) mod c_N c <> trunc h' (c_N c) mod c_N c ->
  let r := be2z (firstn (Z.to_nat (c_bytes c)) sg) in let s := be2z (skipn (Z.to_nat (c_bytes c)) sg) in let s' := be2z (skipn (Z.to_nat (c_bytes c)) sg') in
  firstn (Z.to_nat (c_bytes c)) sg' = firstn (Z.to_nat (c_bytes c)) sg /\ s <> s' /\
  let k' := ((trunc h (c_N c) - trunc h' (c_N c)) * inv (s - s') (c_N c)) mod c_N c in d = ((s * k' - trunc h (c_N c)) * inv r (c_N c)) mod c_N c.
Proof. exact same_nonce_reveals_nist. Qed.
Print Assumptions C257_same_nonce_reveals.
Example C257_ex : trunc 5 (c_N P256) mod c_N P256 <> trunc 7 (c_N P256) mod c_N P256 /\
  match sign P256 2 5 3 (Some 1) (fun _ => 0), sign P256 2 7 3 (Some 1) (fun _ => 0) with Ok sg, Ok sg' => length sg = 64%nat /\ nth 31 sg 0 = nth 31 sg' 0 | _, _ => False end.
Proof. vm_compute. split; [intro H; discriminate H|split; reflexivity]. Qed.

(** C258: scalars below zero. *)
Theorem C258_mulp : forall p q n x y c, 1 < n -> c < 0 -> mulp p q n (Some (x, y)) c = Some (x mod n, (- y) mod n).
Proof. exact mulp_neg. Qed.
Print Assumptions C258_mulp.
Theorem C258_mul : forall p q n P c, c < 0 -> mul p q n P c = None.
Proof. exact mul_neg. Qed.
Print Assumptions C258_mul.
Theorem C258_muladdp : forall p q n P c Q d, c < -3 \/ d < -3 -> muladdp p q n P c Q d = Raise EIndexError.
Proof. exact muladdp_neg. Qed.
Print Assumptions C258_muladdp.
Example C258_ex : let P := Some (3, 10) in element P (-1) (-1) 23 = true /\ mulp (-1) (-1) 23 P (-2) = Some (3, 13) /\ mulp (-1) (-1) 23 P 2 = Some (7, 12) /\ mul (-1) (-1) 23 P (-2) = None /\
  muladdp (-1) (-1) 23 P (-1) P 0 = Ok (Some (3, 13)) /\ muladdp (-1) (-1) 23 P (-2) P 0 = Ok (Some (3, 10)) /\ muladdp (-1) (-1) 23 P (-4) P 0 = Raise EIndexError.
Proof. vm_compute. repeat split. Qed.
