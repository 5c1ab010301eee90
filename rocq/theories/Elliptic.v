(** * Model of jwkest/elliptic.py: arithmetic on y^2 = x^3 - p*x - q over the integers modulo n.
    A point is [None] or [Some (x, y)]; a projective (Jacobian) point is [None] or [Some (x, y, z, z^2, z^3)].
    A non-empty Python tuple is true, so [if p1] is "p1 is not None".
    Python's [//] and [%] on integers are Coq's [Z.div] and [Z.modulo] (floor division). *)
From Coq Require Import ZArith List Bool Lia.
From Verif Require Import Base.
Import ListNotations.
Open Scope Z_scope.

Definition apt := option (Z * Z).
Definition jpt := option (Z * Z * Z * Z * Z).

(** elliptic.py:85-95 [euclid]: the loop; [None] = the artificial bound is exhausted
    (never happens: [EcProofs.euclid_terminates]). *)
Fixpoint euclid_loop (fuel : nat) (x xx y yy a b : Z) : option (Z * Z * Z) :=
  if b =? 0 then Some (xx, yy, a)
  else match fuel with
       | O => None
       | S f => let q := a / b in euclid_loop f (xx - q * x) x (yy - q * y) y b (a mod b)
       end.

(** elliptic.py:85-95 *)
Definition euclid (a b : Z) : option (Z * Z * Z) :=
  euclid_loop (2 * S (Z.to_nat (Z.log2 (Z.abs b)))) 0 1 1 0 a b.

(** elliptic.py:102-103 [while i < 0: i += n]; bound as above. *)
Fixpoint inv_loop (fuel : nat) (i n : Z) : option Z :=
  if i <? 0 then match fuel with O => None | S f => inv_loop f (i + n) n end else Some i.

(** elliptic.py:98-104 [inv].  For n > 0 neither bound is ever exhausted
    ([EcProofs.euclid_terminates], [EcProofs.inv_loop_terminates]); for n <= 0 the Python loop may not end. *)
Definition inv (a n : Z) : Z :=
  match euclid a n with
  | Some (i, _, _) => match inv_loop (S (Z.to_nat (- i / n))) i n with Some r => r | None => 0 end
  | None => 0
  end.

(** elliptic.py:107-109 *)
Definition curve_q (x y p n : Z) : Z := ((x * x - p) * x - y * y) mod n.

(** elliptic.py:112-118 *)
Definition element (point : apt) (p q n : Z) : bool :=
  match point with
  | Some (x, y) => (x * x * x - p * x - q) mod n =? (y * y) mod n
  | None => true
  end.

(** elliptic.py:121-126 *)
Definition to_projective (p : apt) : jpt :=
  match p with Some (x, y) => Some (x, y, 1, 1, 1) | None => None end.

(** elliptic.py:129-134 *)
Definition from_projective (jp : jpt) (n : Z) : apt :=
  match jp with
  | Some (x, y, _, zs, zc) => Some ((x * inv zs n) mod n, (y * inv zc n) mod n)
  | None => None
  end.

(** elliptic.py:137-139 [neg], on affine and on projective tuples. *)
Definition nega (p : apt) (n : Z) : apt :=
  match p with Some (x, y) => Some (x, (n - y) mod n) | None => None end.
Definition negj (jp : jpt) (n : Z) : jpt :=
  match jp with Some (x, y, z, zs, zc) => Some (x, (n - y) mod n, z, zs, zc) | None => None end.

(** elliptic.py:145-162 [add] *)
Definition add (p q n : Z) (p1 p2 : apt) : apt :=
  match p1, p2 with
  | Some (x1, y1), Some (x2, y2) =>
      if negb ((x1 - x2) mod n =? 0) then
        let s := ((y1 - y2) * inv (x1 - x2) n) mod n in
        let x := (s * s - x1 - x2) mod n in
        Some (x, n - (y1 + s * (x - x1)) mod n)
      else if negb ((y1 + y2) mod n =? 0) then
        let s := ((3 * x1 * x1 - p) * inv (2 * y1) n) mod n in
        let x := (s * s - 2 * x1) mod n in
        Some (x, n - (y1 + s * (x - x1)) mod n)
      else None
  | Some _, None => p1
  | None, _ => p2
  end.

(** elliptic.py:206-222 [doublef] *)
Definition doublef (p q n : Z) (jp : jpt) : jpt :=
  match jp with
  | None => None
  | Some (x1, y1, z1, z1p2, z1p3) =>
      let y1p2 := (y1 * y1) mod n in
      let a := (4 * x1 * y1p2) mod n in
      let b := (3 * x1 * x1 - p * z1p3 * z1) mod n in
      let x3 := (b * b - 2 * a) mod n in
      let y3 := (b * (a - x3) - 8 * y1p2 * y1p2) mod n in
      let z3 := (2 * y1 * z1) mod n in
      let z3p2 := (z3 * z3) mod n in
      Some (x3, y3, z3, z3p2, (z3p2 * z3) mod n)
  end.

(** elliptic.py:167-203 [addf] *)
Definition addf (p q n : Z) (jp1 jp2 : jpt) : jpt :=
  match jp1, jp2 with
  | Some (x1, y1, z1, z1s, z1c), Some (x2, y2, z2, z2s, z2c) =>
      let s1 := (y1 * z2c) mod n in
      let s2 := (y2 * z1c) mod n in
      let u1 := (x1 * z2s) mod n in
      let u2 := (x2 * z1s) mod n in
      if negb ((u1 - u2) mod n =? 0) then
        let h := (u2 - u1) mod n in
        let r := (s2 - s1) mod n in
        let hs := (h * h) mod n in
        let hc := (hs * h) mod n in
        let x3 := (- hc - 2 * u1 * hs + r * r) mod n in
        let y3 := (- s1 * hc + r * (u1 * hs - x3)) mod n in
        let z3 := (z1 * z2 * h) mod n in
        let z3s := (z3 * z3) mod n in
        let z3c := (z3s * z3) mod n in
        Some (x3, y3, z3, z3s, z3c)
      else if negb ((s1 + s2) mod n =? 0) then doublef p q n jp1
      else None
  | Some _, None => jp1
  | None, _ => jp2
  end.

(** elliptic.py:226-234 [mul]: [c & 1], [c >>= 1] by structural recursion on the binary digits of c > 0
    (the last, unused, doubling is dropped). *)
Fixpoint mul_pos (p q n : Z) (res p1 : apt) (c : positive) : apt :=
  match c with
  | xH => add p q n res p1
  | xO c' => mul_pos p q n res (add p q n p1 p1) c'
  | xI c' => mul_pos p q n (add p q n res p1) (add p q n p1 p1) c'
  end.
Definition mul (p q n : Z) (p1 : apt) (c : Z) : apt :=
  match c with Zpos c' => mul_pos p q n None p1 c' | _ => None end.

(** elliptic.py:240-246 [_gbd]; the loop doubles i until it no longer divides n (n > 0), at most log2 n + 1 times. *)
Fixpoint gbd_loop (fuel : nat) (n i : Z) : Z :=
  match fuel with
  | O => i
  | S f => if n mod i =? 0 then gbd_loop f n (2 * i) else i
  end.
Definition gbd (n : Z) : Z :=
  if n <=? 0 then 0 else Z.shiftr (gbd_loop (S (S (Z.to_nat (Z.log2 n)))) n 1) 2.

(** elliptic.py:256-273 [_signed_bin]; digits are consed, so the accumulator is already reversed.
    [None] = bound exhausted (never: [EcProofs.signed_bin_terminates]). *)
Fixpoint signed_bin_loop (fuel : nat) (n : Z) (acc : list Z) : option (list Z) :=
  if n <=? 1 then Some (n :: acc)
  else match fuel with
       | O => None
       | S f =>
           if Z.odd n then
             if gbd (n - 1) <? gbd (n + 1)
             then signed_bin_loop f (Z.shiftr (n + 1) 1) (-1 :: acc)
             else signed_bin_loop f (Z.shiftr (n - 1) 1) (1 :: acc)
           else signed_bin_loop f (Z.shiftr n 1) (0 :: acc)
       end.
Definition signed_bin (n : Z) : list Z :=
  match signed_bin_loop (S (Z.to_nat (Z.log2 n))) n [] with Some r => r | None => [] end.

(** elliptic.py:279-290 [mulf] *)
Definition mulf_step (p q n : Z) (jp1 jp0 : jpt) (res : jpt) (s : Z) : jpt :=
  let res := doublef p q n res in
  if negb (s =? 0) then
    if 0 <? s then addf p q n res jp1 else addf p q n res jp0
  else res.
Definition mulf (p q n : Z) (jp1 : jpt) (c : Z) : jpt :=
  fold_left (mulf_step p q n jp1 (negj jp1 n)) (signed_bin c) None.

(** elliptic.py:293-296 [mulp] *)
Definition mulp (p q n : Z) (p1 : apt) (c : Z) : apt :=
  from_projective (mulf p q n (to_projective p1) c) n.

(** Python indexing of a 3-tuple, negative indices included. *)
Definition idx3 {A} (t : A * A * A) (i : Z) : res A :=
  let '(a, b, c) := t in
  if (i =? 0) || (i =? -3) then Ok a
  else if (i =? 1) || (i =? -2) then Ok b
  else if (i =? 2) || (i =? -1) then Ok c
  else Raise EIndexError.

(** elliptic.py:318-320, one loop iteration of [muladdf] *)
Definition muladdf_step (p q n : Z) (precomp : (jpt * jpt * jpt) * (jpt * jpt * jpt) * (jpt * jpt * jpt))
    (res : res jpt) (ij : Z * Z) : Base.res jpt :=
  r <- res;;
  let r := doublef p q n r in
  if negb (fst ij =? 0) || negb (snd ij =? 0) then
    row <- idx3 precomp (fst ij);;
    e <- idx3 row (snd ij);;
    Ok (addf p q n r e)
  else Ok r.

(** elliptic.py:299-322 [muladdf]; [[0] * diff] with a negative count is the empty list, so both branches of
    the length adjustment can be written unconditionally. *)
Definition muladdf (p q n : Z) (jp1 : jpt) (c1 : Z) (jp2 : jpt) (c2 : Z) : res jpt :=
  let s1 := signed_bin c1 in
  let s2 := signed_bin c2 in
  let s1' := repeat 0 (length s2 - length s1) ++ s1 in
  let s2' := repeat 0 (length s1 - length s2) ++ s2 in
  let jp1p2 := addf p q n jp1 jp2 in
  let jp1n2 := addf p q n jp1 (negj jp2 n) in
  let precomp := ((None, jp2, negj jp2 n),
                  (jp1, jp1p2, jp1n2),
                  (negj jp1 n, negj jp1n2 n, negj jp1p2 n)) in
  fold_left (muladdf_step p q n precomp) (combine s1' s2') (Ok None).

(** elliptic.py:325-329 [muladdp] *)
Definition muladdp (p q n : Z) (p1 : apt) (c1 : Z) (p2 : apt) (c2 : Z) : res apt :=
  j <- muladdf p q n (to_projective p1) c1 (to_projective p2) c2;;
  Ok (from_projective j n).

(** elliptic.py:338-340 *)
Definition sign_bit (p1 : apt) : Z := match p1 with Some (_, y) => y mod 2 | None => 0 end.

(** elliptic.py:344-348 [y_from_x]: computes [a] and then falls off the end of the function, returning None
    ([None : option Z]). *)
Definition y_from_x (x p q n sign : Z) : option Z :=
  let a := (((x * x) mod n - p) * x - q) mod n in None.
