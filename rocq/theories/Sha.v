(** * SHA-1, SHA-256, SHA-384, SHA-512 (FIPS 180-4) and HMAC (RFC 2104): concrete [p_hash] and [p_hmac]. *)
From Coq Require Import ZArith List Bool Lia.
From Verif Require Import Base BaseProofs Prims Extra ExtraProofs.
Import ListNotations.
Open Scope Z_scope.

Definition K256 : list Z :=
  [0x428a2f98; 0x71374491; 0xb5c0fbcf; 0xe9b5dba5; 0x3956c25b; 0x59f111f1; 0x923f82a4; 0xab1c5ed5;
   0xd807aa98; 0x12835b01; 0x243185be; 0x550c7dc3; 0x72be5d74; 0x80deb1fe; 0x9bdc06a7; 0xc19bf174;
   0xe49b69c1; 0xefbe4786; 0xfc19dc6; 0x240ca1cc; 0x2de92c6f; 0x4a7484aa; 0x5cb0a9dc; 0x76f988da;
   0x983e5152; 0xa831c66d; 0xb00327c8; 0xbf597fc7; 0xc6e00bf3; 0xd5a79147; 0x6ca6351; 0x14292967;
   0x27b70a85; 0x2e1b2138; 0x4d2c6dfc; 0x53380d13; 0x650a7354; 0x766a0abb; 0x81c2c92e; 0x92722c85;
   0xa2bfe8a1; 0xa81a664b; 0xc24b8b70; 0xc76c51a3; 0xd192e819; 0xd6990624; 0xf40e3585; 0x106aa070;
   0x19a4c116; 0x1e376c08; 0x2748774c; 0x34b0bcb5; 0x391c0cb3; 0x4ed8aa4a; 0x5b9cca4f; 0x682e6ff3;
   0x748f82ee; 0x78a5636f; 0x84c87814; 0x8cc70208; 0x90befffa; 0xa4506ceb; 0xbef9a3f7; 0xc67178f2].
Definition K512 : list Z :=
  [0x428a2f98d728ae22; 0x7137449123ef65cd; 0xb5c0fbcfec4d3b2f; 0xe9b5dba58189dbbc;
   0x3956c25bf348b538; 0x59f111f1b605d019; 0x923f82a4af194f9b; 0xab1c5ed5da6d8118;
   0xd807aa98a3030242; 0x12835b0145706fbe; 0x243185be4ee4b28c; 0x550c7dc3d5ffb4e2;
   0x72be5d74f27b896f; 0x80deb1fe3b1696b1; 0x9bdc06a725c71235; 0xc19bf174cf692694;
   0xe49b69c19ef14ad2; 0xefbe4786384f25e3; 0xfc19dc68b8cd5b5; 0x240ca1cc77ac9c65;
   0x2de92c6f592b0275; 0x4a7484aa6ea6e483; 0x5cb0a9dcbd41fbd4; 0x76f988da831153b5;
   0x983e5152ee66dfab; 0xa831c66d2db43210; 0xb00327c898fb213f; 0xbf597fc7beef0ee4;
   0xc6e00bf33da88fc2; 0xd5a79147930aa725; 0x6ca6351e003826f; 0x142929670a0e6e70;
   0x27b70a8546d22ffc; 0x2e1b21385c26c926; 0x4d2c6dfc5ac42aed; 0x53380d139d95b3df;
   0x650a73548baf63de; 0x766a0abb3c77b2a8; 0x81c2c92e47edaee6; 0x92722c851482353b;
   0xa2bfe8a14cf10364; 0xa81a664bbc423001; 0xc24b8b70d0f89791; 0xc76c51a30654be30;
   0xd192e819d6ef5218; 0xd69906245565a910; 0xf40e35855771202a; 0x106aa07032bbd1b8;
   0x19a4c116b8d2d0c8; 0x1e376c085141ab53; 0x2748774cdf8eeb99; 0x34b0bcb5e19b48a8;
   0x391c0cb3c5c95a63; 0x4ed8aa4ae3418acb; 0x5b9cca4f7763e373; 0x682e6ff3d6b2b8a3;
   0x748f82ee5defb2fc; 0x78a5636f43172f60; 0x84c87814a1f0ab72; 0x8cc702081a6439ec;
   0x90befffa23631e28; 0xa4506cebde82bde9; 0xbef9a3f7b2c67915; 0xc67178f2e372532b;
   0xca273eceea26619c; 0xd186b8c721c0c207; 0xeada7dd6cde0eb1e; 0xf57d4f7fee6ed178;
   0x6f067aa72176fba; 0xa637dc5a2c898a6; 0x113f9804bef90dae; 0x1b710b35131c471b;
   0x28db77f523047d84; 0x32caab7b40c72493; 0x3c9ebe0a15c9bebc; 0x431d67c49c100d4c;
   0x4cc5d4becb3e42b6; 0x597f299cfc657e2a; 0x5fcb6fab3ad6faec; 0x6c44198c4a475817].

(** words of w bits *)
Definition rotr (w n x : Z) : Z := Z.lor (Z.shiftr x n) (Z.land (Z.shiftl x (w - n)) (Z.ones w)).
Definition wadd (w a b : Z) : Z := Z.land (a + b) (Z.ones w).
Definition wnot (w a : Z) : Z := Z.lxor a (Z.ones w).
Definition ch (w x y z : Z) : Z := Z.lxor (Z.land x y) (Z.land (wnot w x) z).
Definition maj (x y z : Z) : Z := Z.lxor (Z.land x y) (Z.lxor (Z.land x z) (Z.land y z)).

(** the parameters of SHA-2: word size, round constants, the rotation amounts of the four sigma functions *)
Record sha2 := { s_w : Z; s_k : list Z; s_S0 : Z * Z * Z; s_S1 : Z * Z * Z; s_s0 : Z * Z * Z; s_s1 : Z * Z * Z }.
Definition sha2_32 : sha2 :=
  {| s_w := 32; s_k := K256; s_S0 := (2, 13, 22); s_S1 := (6, 11, 25); s_s0 := (7, 18, 3); s_s1 := (17, 19, 10) |}.
Definition sha2_64 : sha2 :=
  {| s_w := 64; s_k := K512; s_S0 := (28, 34, 39); s_S1 := (14, 18, 41); s_s0 := (1, 8, 7); s_s1 := (19, 61, 6) |}.

Definition bigsig (w : Z) (t : Z * Z * Z) (x : Z) : Z :=
  let '(a, b, c) := t in Z.lxor (rotr w a x) (Z.lxor (rotr w b x) (rotr w c x)).
Definition smallsig (w : Z) (t : Z * Z * Z) (x : Z) : Z :=
  let '(a, b, c) := t in Z.lxor (rotr w a x) (Z.lxor (rotr w b x) (Z.shiftr x c)).

Record st := { sa : Z; sb : Z; sc : Z; sd : Z; se : Z; sf : Z; sg : Z; sh : Z }.

Definition round2 (p : sha2) (s : st) (kw : Z * Z) : st :=
  let w := s_w p in
  let t1 := wadd w (wadd w (sh s) (bigsig w (s_S1 p) (se s))) (wadd w (ch w (se s) (sf s) (sg s)) (wadd w (fst kw) (snd kw))) in
  let t2 := wadd w (bigsig w (s_S0 p) (sa s)) (maj (sa s) (sb s) (sc s)) in
  {| sa := wadd w t1 t2; sb := sa s; sc := sb s; sd := sc s; se := wadd w (sd s) t1; sf := se s; sg := sf s; sh := sg s |}.

(** message schedule; the list is kept newest first *)
Fixpoint sched (p : sha2) (n : nat) (ws : list Z) : list Z :=
  match n with
  | O => rev ws
  | S m => let w := s_w p in
           sched p m (wadd w (wadd w (smallsig w (s_s1 p) (nth 1 ws 0)) (nth 6 ws 0)) (wadd w (smallsig w (s_s0 p) (nth 14 ws 0)) (nth 15 ws 0)) :: ws)
  end.

Fixpoint chunk (fuel : nat) (n : nat) (s : bytes) : list bytes :=
  match fuel with O => [] | S f => match s with [] => [] | _ => firstn n s :: chunk f n (skipn n s) end end.
Definition chunks (n : nat) (s : bytes) : list bytes := chunk (length s) n s.

Definition compress2 (p : sha2) (s : st) (block : bytes) : st :=
  let w := s_w p in
  let ws := sched p (length (s_k p) - 16) (rev (map be2z (chunks (Z.to_nat (w / 8)) block))) in
  let t := fold_left (round2 p) (combine (s_k p) ws) s in
  {| sa := wadd w (sa s) (sa t); sb := wadd w (sb s) (sb t); sc := wadd w (sc s) (sc t); sd := wadd w (sd s) (sd t);
     se := wadd w (se s) (se t); sf := wadd w (sf s) (sf t); sg := wadd w (sg s) (sg t); sh := wadd w (sh s) (sh t) |}.

(** padding to blocks of [bs] octets with a length field of [ls] octets *)
Definition mdpad (bs ls : nat) (m : bytes) : bytes :=
  let l := Z.of_nat (length m) in
  let z := Z.to_nat ((- (l + 1 + Z.of_nat ls)) mod Z.of_nat bs) in
  m ++ [128] ++ repeat 0 z ++ z2be ls (8 * l).

Definition sha2_digest (p : sha2) (init : st) (m : bytes) : bytes :=
  let n := Z.to_nat (s_w p / 8) in
  let s := fold_left (compress2 p) (chunks (16 * n) (mdpad (16 * n) (2 * n) m)) init in
  z2be n (sa s) ++ z2be n (sb s) ++ z2be n (sc s) ++ z2be n (sd s) ++ z2be n (se s) ++ z2be n (sf s) ++ z2be n (sg s) ++ z2be n (sh s).

Definition mk (l : list Z) : st :=
  {| sa := nth 0 l 0; sb := nth 1 l 0; sc := nth 2 l 0; sd := nth 3 l 0; se := nth 4 l 0; sf := nth 5 l 0; sg := nth 6 l 0; sh := nth 7 l 0 |}.
Definition sha256 : bytes -> bytes := sha2_digest sha2_32 (mk
  [0x6a09e667; 0xbb67ae85; 0x3c6ef372; 0xa54ff53a; 0x510e527f; 0x9b05688c; 0x1f83d9ab; 0x5be0cd19]).
Definition sha512 : bytes -> bytes := sha2_digest sha2_64 (mk
  [0x6a09e667f3bcc908; 0xbb67ae8584caa73b; 0x3c6ef372fe94f82b; 0xa54ff53a5f1d36f1;
   0x510e527fade682d1; 0x9b05688c2b3e6c1f; 0x1f83d9abfb41bd6b; 0x5be0cd19137e2179]).
Definition sha384 (m : bytes) : bytes := firstn 48 (sha2_digest sha2_64 (mk
  [0xcbbb9d5dc1059ed8; 0x629a292a367cd507; 0x9159015a3070dd17; 0x152fecd8f70e5939;
   0x67332667ffc00b31; 0x8eb44a8768581511; 0xdb0c2e0d64f98fa7; 0x47b5481dbefa4fa4]) m).

(** SHA-1 *)
Definition rotl32 (n x : Z) : Z := rotr 32 (32 - n) x.
Definition sha1_f (t : nat) (b c d : Z) : Z :=
  if Nat.ltb t 20 then ch 32 b c d else if Nat.ltb t 40 then Z.lxor b (Z.lxor c d) else if Nat.ltb t 60 then maj b c d else Z.lxor b (Z.lxor c d).
Definition sha1_k (t : nat) : Z :=
  if Nat.ltb t 20 then 0x5a827999 else if Nat.ltb t 40 then 0x6ed9eba1 else if Nat.ltb t 60 then 0x8f1bbcdc else 0xca62c1d6.
Fixpoint sched1 (n : nat) (ws : list Z) : list Z :=
  match n with
  | O => rev ws
  | S m => sched1 m (rotl32 1 (Z.lxor (Z.lxor (nth 2 ws 0) (nth 7 ws 0)) (Z.lxor (nth 13 ws 0) (nth 15 ws 0))) :: ws)
  end.
Definition round1 (s : Z * Z * Z * Z * Z) (tw : nat * Z) : Z * Z * Z * Z * Z :=
  let '(a, b, c, d, e) := s in
  let t := wadd 32 (wadd 32 (rotl32 5 a) (sha1_f (fst tw) b c d)) (wadd 32 e (wadd 32 (sha1_k (fst tw)) (snd tw))) in
  (t, a, rotl32 30 b, c, d).
Definition compress1 (s : Z * Z * Z * Z * Z) (block : bytes) : Z * Z * Z * Z * Z :=
  let ws := sched1 64 (rev (map be2z (chunks 4 block))) in
  let '(a, b, c, d, e) := s in
  let '(a', b', c', d', e') := fold_left round1 (combine (seq 0 80) ws) s in
  (wadd 32 a a', wadd 32 b b', wadd 32 c c', wadd 32 d d', wadd 32 e e').
Definition sha1 (m : bytes) : bytes :=
  let '(a, b, c, d, e) := fold_left compress1 (chunks 64 (mdpad 64 8 m)) (0x67452301, 0xefcdab89, 0x98badcfe, 0x10325476, 0xc3d2e1f0) in
  z2be 4 a ++ z2be 4 b ++ z2be 4 c ++ z2be 4 d ++ z2be 4 e.

Definition hash (h : hashalg) (m : bytes) : bytes :=
  match h with SHA1 => sha1 m | SHA256 => sha256 m | SHA384 => sha384 m | SHA512 => sha512 m end.
Definition hblock (h : hashalg) : nat := match h with SHA1 | SHA256 => 64 | SHA384 | SHA512 => 128 end.

Definition hmac (h : hashalg) (key m : bytes) : bytes :=
  let k := if Nat.ltb (hblock h) (length key) then hash h key else key in
  let k := k ++ repeat 0 (hblock h - length k) in
  hash h (map (Z.lxor 92) k ++ hash h (map (Z.lxor 54) k ++ m)).

(** ** Test vectors: "abc" (FIPS 180), RFC 4231 test case 2 *)
Example sha1_abc : sha1 (lit "abc") = z2be 20 0xa9993e364706816aba3e25717850c26c9cd0d89d.
Proof. vm_compute. reflexivity. Qed.
Example sha256_abc : sha256 (lit "abc") = z2be 32 0xba7816bf8f01cfea414140de5dae2223b00361a396177a9cb410ff61f20015ad.
Proof. vm_compute. reflexivity. Qed.
Example sha384_abc : sha384 (lit "abc") = z2be 48 0xcb00753f45a35e8bb5a03d699ac65007272c32ab0eded1631a8b605a43ff5bed8086072ba1e7cc2358baeca134c825a7.
Proof. vm_compute. reflexivity. Qed.
Example sha512_abc : sha512 (lit "abc") = z2be 64 0xddaf35a193617abacc417349ae20413112e6fa4e89a97ea20a9eeee64b55d39a2192992a274fc1a836ba3c23a3feebbd454d4423643ce80e2a9ac94fa54ca49f.
Proof. vm_compute. reflexivity. Qed.
Example hmac_rfc4231_2 : hmac SHA256 (lit "Jefe") (lit "what do ya want for nothing?") = z2be 32 0x5bdcc146bf60754e6a042426089575c75a003f089d2739839dec58b964ec3843.
Proof. vm_compute. reflexivity. Qed.

(** ** Digest sizes *)
Lemma sha2_digest_len : forall p init m, length (sha2_digest p init m) = (8 * Z.to_nat (s_w p / 8))%nat /\ bytes_ok (sha2_digest p init m) = true.
Proof.
  intros p init m. unfold sha2_digest. set (s := fold_left _ _ _). rewrite !app_length, !bytes_ok_app, !z2be_length, !z2be_ok. split; [lia|reflexivity].
Qed.

Lemma hash_len : forall h m, length (hash h m) = hlen h /\ bytes_ok (hash h m) = true.
Proof.
  intros h m. destruct h; cbn [hash hlen].
  - unfold sha1. destruct (fold_left _ _ _) as [[[[a b] c] d] e]. rewrite !app_length, !bytes_ok_app, !z2be_length, !z2be_ok. split; reflexivity.
  - unfold sha256. apply (sha2_digest_len sha2_32).
  - unfold sha384. rewrite firstn_length. destruct (sha2_digest_len sha2_64 (mk
  [0xcbbb9d5dc1059ed8; 0x629a292a367cd507; 0x9159015a3070dd17; 0x152fecd8f70e5939;
   0x67332667ffc00b31; 0x8eb44a8768581511; 0xdb0c2e0d64f98fa7; 0x47b5481dbefa4fa4]) m) as [-> B]. split; [reflexivity|]. apply bytes_ok_firstn. exact B.
  - unfold sha512. apply (sha2_digest_len sha2_64).
Qed.
Lemma hmac_len : forall h k m, length (hmac h k m) = hlen h /\ bytes_ok (hmac h k m) = true.
Proof. intros. apply hash_len. Qed.
