(** * Model of jwkest/curves.py and jwkest/ecc.py *)
From Coq Require Import ZArith List Bool Lia.
From Verif Require Import Base Elliptic.
Import ListNotations.
Open Scope Z_scope.

(** curves.py:20-71 [DOMAINS]: (p, order or None, b, x, y) per size. *)
Definition domains (bits : Z) : option (Z * option Z * Z * Z * Z) :=
  if bits =? 192 then Some (0xfffffffffffffffffffffffffffffffeffffffffffffffff, Some 0xffffffffffffffffffffffff99def836146bc9b1b4d22831, 0x64210519e59c80e70fa7e9ab72243049feb8deecc146b9b1, 0x188da80eb03090f67cbf20eb43a18800f4ff0afd82ff1012, 0x7192b95ffc8da78631011ed6b24cdd573f977a11e794811)
  else if bits =? 224 then Some (0xffffffffffffffffffffffffffffffff000000000000000000000001, Some 0xffffffffffffffffffffffffffff16a2e0b8f03e13dd29455c5c2a3d, 0xb4050a850c04b3abf54132565044b0b7d7bfd8ba270b39432355ffb4, 0xb70e0cbd6bb4bf7f321390b94a03c1d356c21122343280d6115c1d21, 0xbd376388b5f723fb4c22dfe6cd4375a05a07476444d5819985007e34)
  else if bits =? 256 then Some (0xffffffff00000001000000000000000000000000ffffffffffffffffffffffff, Some 0xffffffff00000000ffffffffffffffffbce6faada7179e84f3b9cac2fc632551, 0x5ac635d8aa3a93e7b3ebbd55769886bc651d06b0cc53b0f63bce3c3e27d2604b, 0x6b17d1f2e12c4247f8bce6e563a440f277037d812deb33a0f4a13945d898c296, 0x4fe342e2fe1a7f9b8ee7eb4a7c0f9e162bce33576b315ececbb6406837bf51f5)
  else if bits =? 384 then Some (0xfffffffffffffffffffffffffffffffffffffffffffffffffffffffffffffffeffffffff0000000000000000ffffffff, Some 0xffffffffffffffffffffffffffffffffffffffffffffffffc7634d81f4372ddf581a0db248b0a77aecec196accc52973, 0xb3312fa7e23ee7e4988e056be3f82d19181d9c6efe8141120314088f5013875ac656398d8a2ed19d2a85c8edd3ec2aef, 0xaa87ca22be8b05378eb1c71ef320ad746e1d3b628ba79b9859f741e082542a385502f25dbf55296c3a545e3872760ab7, 0x3617de4a96262c6f5d9e98bf9292dc29f8f41dbd289a147ce9da3113b5f0b8c00a60b1ce1d7e819d7a431d7c90ea0e5f)
  else if bits =? 521 then Some (0x1ffffffffffffffffffffffffffffffffffffffffffffffffffffffffffffffffffffffffffffffffffffffffffffffffffffffffffffffffffffffffffffffffff, Some 0x1fffffffffffffffffffffffffffffffffffffffffffffffffffffffffffffffffa51868783bf2f966b7fcc0148f709a5d03bb5c9b8899c47aebb6fb71e91386409, 0x51953eb9618e1c9a1f929a21a0b68540eea2da725b99b315f3b8b489918ef109e156193951ec7e937b1652c0bd3bb1bf073573df883d2c34f1ef451fd46b503f00, 0xc6858e06b70404e9cd9e3ecb662395b4429c648139053fb521f828af606b4d3dbaa14b5e77efe75928fe1dc127a2ffa8de3348b3c1856a429bf97e7e31c2e5bd66, 0x11839296a789a3bc0045c8a5fb42c7d1bd998f54449579b446817afbd17273e662c97ee72995ef42640c550b9013fad0761353c7086a272c24088be94769fd16650)
  else if bits =? 128 then Some (0xffffffffffffffffffffffffffffff61, None, 0xd83d3eb8266a89927d73d5fe263d5f23, 0xa94d2d8531f7af8bde367def12b98ead, 0x9f44e1d671beb68fd2df7f877ab13fa6)
  else if bits =? 160 then Some (0xffffffffffffffffffffffffffffffffffffffd1, None, 0x94bfe70deef7b94742c089ca4db3ca27fbe1f754, 0xcc6562c2969ac57524b8d0f300d1f598c908c121, 0x952ddde80a252683dd7ba90fb5919899b5af69f5)
  else None.

(** curves.py:73 *)
Definition CURVE_P : Z := 3.

(** curves.py:76-83 [get_curve] *)
Definition get_curve (bits : Z) : res (Z * Z * option Z * Z * Z * (Z * Z)) :=
  match domains bits with
  | Some (p, n, b, x, y) => Ok (bits, p, n, CURVE_P, p - b, (x, y))
  | None => Raise EKeyError
  end.

(** ecc.py:26-30 [NISTEllipticCurve.__init__]; only curves with a known group order are modelled (the two weak
    curves have N = None and every operation that uses N then raises TypeError; [by_name] never builds them). *)
Record curve := { c_bits : Z; c_p : Z; c_N : Z; c_a : Z; c_b : Z; c_G : Z * Z }.

Definition nist_curve (bits : Z) : res curve :=
  t <- get_curve bits;;
  let '(bits, p, n, a, b, g) := t in
  match n with
  | Some n => Ok {| c_bits := bits; c_p := p; c_N := n; c_a := a; c_b := b; c_G := g |}
  | None => Raise ETypeError
  end.

(** ecc.py:30 [int(ceil(bits / 8.0))] *)
Definition c_bytes (c : curve) : Z := (c_bits c + 7) / 8.

(** ecc.py:32-41 [by_name]; a name given as bytes behaves like the str with the same characters. *)
Definition by_name (name : list Z) : res curve :=
  if zs_eqb name (lit "P-256") then nist_curve 256
  else if zs_eqb name (lit "P-384") then nist_curve 384
  else if zs_eqb name (lit "P-521") then nist_curve 521
  else Raise EECCException.

(** Cryptodome.Util.number.long_to_bytes(n, blocksize) for n >= 0: minimal big-endian form (at least one octet)
    left-padded with zeros to a multiple of blocksize. *)
Definition long_to_bytes (n blocksize : Z) : bytes :=
  let len := Z.log2 n / 8 + 1 in
  z2be (Z.to_nat ((len + blocksize - 1) / blocksize * blocksize)) n.

(** ecc.py:49-54 *)
Definition int2bytes (c : curve) (x : Z) : bytes := long_to_bytes x (c_bytes c).
Definition bytes2int (x : bytes) : Z := be2z x.

(** ecc.py:57-62; [p[0]] of None is a TypeError. *)
Definition compress (p : apt) : res (Z * Z) :=
  match p with Some (x, y) => Ok (x, sign_bit p) | None => Raise ETypeError end.
Definition uncompress (c : curve) (p : Z * Z) : Z * option Z :=
  (fst p, y_from_x (fst p) (c_a c) (c_b c) (c_p c) (snd p)).

(** ecc.py:70-71 *)
Definition public_key_for (c : curve) (priv : Z) : apt := mulp (c_a c) (c_b c) (c_p c) (Some (c_G c)) priv.

(** ecc.py:65-68; [rnd] is the outcome of getrandbits(bits). *)
Definition key_pair (c : curve) (rnd : Z) : Z * apt :=
  let priv := rnd mod (c_N c - 1) + 1 in (priv, public_key_for c priv).

(** ecc.py:75-76 *)
Definition dh_z (c : curve) (priv : Z) (pub : apt) : res bytes :=
  match mulp (c_a c) (c_b c) (c_p c) pub priv with
  | Some (x, _) => Ok (int2bytes c x)
  | None => Raise ETypeError
  end.

(** ecc.py:78-88 [_sign_loop].  [rnds] is the stream of getrandbits results.  As in the source, a nonce that has
    been drawn is kept for the following iterations.  [OutOfFuel] = the loop is still running. *)
Fixpoint sign_loop (c : curve) (fuel : nat) (r s h : Z) (k : option Z) (priv : Z) (rnds : nat -> Z) (i : nat) : res (Z * Z) :=
  if (r =? 0) || (s =? 0) then
    match fuel with
    | O => Raise OutOfFuel
    | S f =>
        let '(k, i) := match k with Some k => (k, i) | None => (rnds i mod (c_N c - 1) + 1, S i) end in
        let kinv := inv k (c_N c) in
        match mulp (c_a c) (c_b c) (c_p c) (Some (c_G c)) k with
        | None => Raise ETypeError
        | Some (x, _) =>
            let r := x mod c_N c in
            if r =? 0 then sign_loop c f r s h (Some k) priv rnds i
            else sign_loop c f r ((kinv * (h + r * priv)) mod c_N c) h (Some k) priv rnds i
        end
    end
  else Ok (r, s).

(** ecc.py:92-93, 102-103 [while h > N: h >>= 1]; at most log2 h steps for N >= 0. *)
Fixpoint trunc_loop (fuel : nat) (h N : Z) : Z :=
  match fuel with
  | O => h
  | S f => if N <? h then trunc_loop f (Z.shiftr h 1) N else h
  end.
Definition trunc (h N : Z) : Z := trunc_loop (S (Z.to_nat (Z.log2 h))) h N.

(** ecc.py:91-99 [sign] *)
Definition sign (c : curve) (fuel : nat) (h priv : Z) (k : option Z) (rnds : nat -> Z) : res bytes :=
  let h := trunc h (c_N c) in
  rs <- sign_loop c fuel 0 0 h k priv rnds 0;;
  Ok (int2bytes c (fst rs) ++ int2bytes c (snd rs)).

(** ecc.py:101-113 [verify]; unpacking None raises TypeError. *)
Definition verify (c : curve) (h : Z) (sig : bytes) (pub : apt) : res bool :=
  let h := trunc h (c_N c) in
  let r := bytes2int (firstn (Z.to_nat (c_bytes c)) sig) in
  let s := bytes2int (skipn (Z.to_nat (c_bytes c)) sig) in
  if (0 <? r) && (r <? c_N c) && ((0 <? s) && (s <? c_N c)) then
    let w := inv s (c_N c) in
    let u1 := (h * w) mod c_N c in
    let u2 := (r * w) mod c_N c in
    pt <- muladdp (c_a c) (c_b c) (c_p c) (Some (c_G c)) u1 pub u2;;
    match pt with
    | Some (x, _) => Ok (r mod c_N c =? x mod c_N c)
    | None => Raise ETypeError
    end
  else Ok false.
