(** * The primitives pyjwkest imports from pycryptodome and zlib.
    They are the fields of a record that every modelled function takes as an argument; the laws used by theorems are the
    propositions below.  [Inst.v] instantiates them. *)
From Coq Require Import ZArith List Bool Lia.
From Verif Require Import Base.
Import ListNotations.
Open Scope Z_scope.

Inductive hashalg : Set := SHA1 | SHA256 | SHA384 | SHA512.
(** digest sizes in octets *)
Definition hlen (h : hashalg) : nat := match h with SHA1 => 20 | SHA256 => 32 | SHA384 => 48 | SHA512 => 64 end.

(** Cryptodome.PublicKey.RSA key material: modulus, public exponent and, for private keys, the private exponent and
    the two factors. *)
Record rsakey := { r_n : Z; r_e : Z; r_d : option Z; r_pq : option (Z * Z) }.
(** the public part ([key.publickey()]) *)
Definition rsa_pub (k : rsakey) : rsakey := {| r_n := r_n k; r_e := r_e k; r_d := None; r_pq := None |}.
Definition rsa_has_private (k : rsakey) : bool := match r_d k with Some _ => true | None => false end.

(** the two signature schemes and the three encryption schemes *)
Inductive sigscheme : Set := PKCS1v15 | PSS.
Inductive encscheme : Set := RSA15 | OAEP | OAEP256.

Record prims := {
  (* the AES block function: key of 16, 24 or 32 octets, block of 16 octets *)
  p_aes_enc : bytes -> bytes -> bytes;
  p_aes_dec : bytes -> bytes -> bytes;
  p_hash : hashalg -> bytes -> bytes;
  p_hmac : hashalg -> bytes -> bytes -> bytes;          (* key, message *)
  (* Signature.*.new(key).sign(hash object): the random octets are explicit *)
  p_rsa_sign : sigscheme -> hashalg -> rsakey -> bytes -> bytes -> res bytes;    (* key, random, message *)
  p_rsa_verify : sigscheme -> hashalg -> rsakey -> bytes -> bytes -> res bool;   (* key, message, signature *)
  p_rsa_encrypt : encscheme -> rsakey -> bytes -> bytes -> res bytes;            (* key, random, message *)
  (* [None] = the sentinel is returned (RSA15 only) *)
  p_rsa_decrypt : encscheme -> rsakey -> bytes -> res (option bytes);
  p_compress : bytes -> bytes;
  p_decompress : bytes -> res bytes;
  (* RSA.construct on (n, e), (n, e, d), (n, e, d, p) or (n, e, d, p, q) *)
  p_rsa_construct : list Z -> res rsakey;
  (* jwk.der2rsa (DER certificate to RSA key) and an HTTP GET of a key set (the body, or an exception) *)
  p_der2rsa : bytes -> res rsakey;
  p_fetch : ustr -> res ustr
}.

(** AES.new accepts these key sizes *)
Definition aes_keysize (k : bytes) : bool :=
  Nat.eqb (length k) 16 || Nat.eqb (length k) 24 || Nat.eqb (length k) 32.
Definition is_block (b : bytes) : Prop := length b = 16%nat /\ bytes_ok b = true.

(** The block function is a permutation of blocks for every key. *)
Definition aes_law (P : prims) : Prop := forall k b, aes_keysize k = true -> bytes_ok k = true -> is_block b ->
  is_block (p_aes_enc P k b) /\ is_block (p_aes_dec P k b) /\
  p_aes_dec P k (p_aes_enc P k b) = b /\ p_aes_enc P k (p_aes_dec P k b) = b.

(** Digest sizes. *)
Definition hash_law (P : prims) : Prop := forall h m, bytes_ok m = true -> length (p_hash P h m) = hlen h /\ bytes_ok (p_hash P h m) = true.
Definition hmac_law (P : prims) : Prop := forall h k m, bytes_ok k = true -> bytes_ok m = true -> length (p_hmac P h k m) = hlen h /\ bytes_ok (p_hmac P h k m) = true.

(** Compression. *)
Definition zip_law (P : prims) : Prop := forall m, bytes_ok m = true -> bytes_ok (p_compress P m) = true /\ p_decompress P (p_compress P m) = Ok m.

(** An RSA private key that works: what it signs verifies under its public part, what is encrypted for it decrypts.
    (For a key whose modulus is too small the operation raises.) *)
Definition rsa_sign_law (P : prims) (k : rsakey) : Prop := forall s h rnd m sg, bytes_ok m = true ->
  p_rsa_sign P s h k rnd m = Ok sg ->
  bytes_ok sg = true /\ p_rsa_verify P s h k m sg = Ok true /\ p_rsa_verify P s h (rsa_pub k) m sg = Ok true.
Definition rsa_enc_law (P : prims) (k : rsakey) : Prop := forall s rnd m ct, bytes_ok m = true ->
  p_rsa_encrypt P s k rnd m = Ok ct \/ p_rsa_encrypt P s (rsa_pub k) rnd m = Ok ct -> bytes_ok ct = true /\ p_rsa_decrypt P s k ct = Ok (Some m).

(** RSA.construct returns a key with the given components. *)
Definition construct_law (P : prims) : Prop := forall l k, p_rsa_construct P l = Ok k ->
  exists n e r, l = n :: e :: r /\ r_n k = n /\ r_e k = e /\ match r with
    | [] => r_d k = None /\ r_pq k = None
    | [d; p; q] => r_d k = Some d /\ r_pq k = Some (p, q)
    | d :: _ => r_d k = Some d
    end.
