(** * Model of src/jwkest/PBKDF2.py
    setup.py names Python 2.7 and 3.5; this module was written for Python 2, so both are modelled.  A Python 2 [str] and a
    Python 3 [bytes] are [VBytes], a Python 2 [unicode] and a Python 3 [str] are [VStr]. *)
From Coq Require Import ZArith List Bool.
From Verif Require Import Base Utf8 Codec Prims.
Import ListNotations.
Open Scope Z_scope.

Inductive python : Set := Py2 | Py3.

(** The characters (octets or code points) of a string. *)
Definition chars (v : pval) : list Z := match v with VStr t => t | VBytes b => b | _ => [] end.

(** strxor, PBKDF2.py:92-93.  [chr] is that of the package future: the result is a text. *)
Fixpoint zipxor (a b : list Z) : list Z := match a, b with x :: a', y :: b' => Z.lxor x y :: zipxor a' b' | _, _ => [] end.
Definition strxor (a b : pval) : pval := VStr (zipxor (chars a) (chars b)).

(** b64encode, PBKDF2.py:95-97, on Python 2.  The base64 codec takes a text only if it is ASCII.  The line breaks of the codec
    (removed afterwards) are left out. *)
Definition tr_chars (x y c : Z) : Z := if c =? 43 then x else if c =? 47 then y else c.
Definition b64enc (x y : Z) (data : pval) : res bytes :=
  match data with
  | VBytes b => Ok (map (tr_chars x y) (b64encode b))
  | VStr t => b <- ascii_encode t;; Ok (map (tr_chars x y) (b64encode b))
  | _ => Raise EAttributeError
  end.

(** The attributes; macmodule and digestmodule are the default ones (HMAC with SHA-1).  A closed object has none. *)
Record pbkdf2 := { b_pw : bytes; b_salt : bytes; b_iter : Z; b_num : Z; b_buf : pval }.

(** PBKDF2.py:174-181 for one argument: [x.encode("UTF-8")] of a Python 2 str decodes it as ASCII first; a Python 3 text
    becomes bytes, which is then refused. *)
Definition coerce (v : python) (x : pval) : res bytes :=
  match v, x with
  | Py2, VBytes b => if ascii b then Ok b else Raise EUnicodeDecodeError
  | Py3, VStr t => _ <- utf8_encode t;; Raise ETypeError
  | _, _ => Raise ETypeError
  end.
(** [isinstance(x, int)]: a Python 2 long is not an int. *)
Definition py_int (v : python) (x : pval) : res Z :=
  match x with
  | VInt n => match v with Py2 => if (- 2 ^ 63 <=? n) && (n <? 2 ^ 63) then Ok n else Raise ETypeError | Py3 => Ok n end
  | VBool b => Ok (if b then 1 else 0)
  | _ => Raise ETypeError
  end.

(** __init__ and _setup, PBKDF2.py:119-123, 169-199. *)
Definition pb_new (v : python) (pw salt iters : pval) : res pbkdf2 :=
  p <- coerce v pw;;
  s <- coerce v salt;;
  n <- py_int v iters;;
  if n <? 1 then Raise EValueError
  else Ok {| b_pw := p; b_salt := s; b_iter := n; b_num := 0; b_buf := VBytes [] |}.

(** __f, PBKDF2.py:152-160; [xors] is the loop. *)
Fixpoint xors (P : prims) (pw : bytes) (n : nat) (u : bytes) (result : pval) : pval :=
  match n with
  | O => result
  | S m => let u := p_hmac P SHA1 pw u in xors P pw m u (strxor result (VBytes u))
  end.
Definition block (P : prims) (s : pbkdf2) (i : Z) : res pval :=
  if (1 <=? i) && (i <=? 0xffffffff) then
    let u := p_hmac P SHA1 (b_pw s) (b_salt s ++ z2be 4 i) in
    Ok (xors P (b_pw s) (Z.to_nat (b_iter s - 1)) u (VBytes u))
  else Raise EAssertionError.

(** ["".join(l)] on Python 2: a text if one of the strings is, the others being decoded as ASCII. *)
Definition is_text (v : pval) : bool := match v with VStr _ => true | _ => false end.
Definition joined (l : list pval) : res pval :=
  if existsb is_text l then
    if forallb (fun v => is_text v || ascii (chars v)) l then Ok (VStr (concat (map chars l))) else Raise EUnicodeDecodeError
  else Ok (VBytes (concat (map chars l))).

(** [s[:n]] and [s[n:]]. *)
Definition cut (s : list Z) (n : Z) : nat := Z.to_nat (if n <? 0 then Z.of_nat (length s) + n else n).
Definition on_chars (f : list Z -> list Z) (v : pval) : pval := match v with VStr t => VStr (f t) | VBytes b => VBytes (f b) | v => v end.
Definition upto (v : pval) (n : Z) : pval := on_chars (fun s => firstn (cut s n) s) v.
Definition from (v : pval) (n : Z) : pval := on_chars (fun s => skipn (cut s n) s) v.

(** The loop of read, PBKDF2.py:138-146.  Every block has at least one octet, so [fuel] is never exhausted (proved). *)
Fixpoint fill (P : prims) (s : pbkdf2) (n : Z) (fuel : nat) (i size : Z) (blocks : list pval) : res (list pval * Z) :=
  if size <? n then
    match fuel with
    | O => Raise OutOfFuel
    | S f =>
        let i := i + 1 in
        if (i >? 0xffffffff) || (i <? 1) then Raise EOverflowError
        else b <- block P s i;; fill P s n f i (size + Z.of_nat (length (chars b))) (blocks ++ [b])
    end
  else Ok (blocks, i).
(** read, PBKDF2.py:130-150, on Python 2; [None] is a closed object. *)
Definition read (P : prims) (o : option pbkdf2) (n : Z) : option pbkdf2 * res pval :=
  match o with
  | None => (None, Raise EValueError)
  | Some s =>
      let size := Z.of_nat (length (chars (b_buf s))) in
      match (' (blocks, i) <- fill P s n (Z.to_nat (n - size)) (b_num s) size [b_buf s];; b <- joined blocks;; Ok (b, i)) with
      | Ok (b, i) => (Some {| b_pw := b_pw s; b_salt := b_salt s; b_iter := b_iter s; b_num := i; b_buf := from b n |}, Ok (upto b n))
      | Raise e => (Some s, Raise e)
      end
  end.
(** close, PBKDF2.py:201-210. *)
Definition close (o : option pbkdf2) : option pbkdf2 := None.
(** hexread, PBKDF2.py:162-167. *)
Definition hexlify (b : bytes) : bytes := concat (map (fun x => [hex_digit (x / 16); hex_digit (x mod 16)]) b).
Definition hexread (P : prims) (o : option pbkdf2) (n : Z) : option pbkdf2 * res bytes :=
  let (o', r) := read P o n in
  (o', v <- r;; match v with VBytes b => Ok (hexlify b) | VStr t => b <- ascii_encode t;; Ok (hexlify b) | _ => Raise ETypeError end).

(** ** crypt, PBKDF2.py:212-262 *)

(** _makesalt, PBKDF2.py:269-275; the three random numbers are 0..65535, native byte order little endian.  On Python 3
    bytes cannot be joined by a text. *)
Definition makesalt (v : python) (r : Z * Z * Z) : res pval :=
  match v with
  | Py3 => Raise ETypeError
  | Py2 => let '(a, b, c) := r in
           t <- b64enc 46 47 (VBytes [a mod 256; a / 256; b mod 256; b / 256; c mod 256; c / 256]);; Ok (VBytes t)
  end.
(** [salt.encode("us-ascii")], PBKDF2.py:226-229. *)
Definition coerce_salt (v : python) (x : pval) : res bytes :=
  match v, x with
  | Py2, VBytes b => if ascii b then Ok b else Raise EUnicodeDecodeError
  | Py3, VStr t => _ <- ascii_encode t;; Raise ETypeError
  | _, _ => Raise ETypeError
  end.
(** ["%x" % n] *)
Definition percent_x (n : Z) : bytes := if n <? 0 then 45 :: py_hex (- n) else py_hex n.
(** [int(t, 16)] of lower-case digits; other strings are refused by the comparison that follows (PBKDF2.py:244), or by
    [int] itself, with the same exception. *)
Definition low_digit (c : Z) : option Z :=
  if (48 <=? c) && (c <=? 57) then Some (c - 48) else if (97 <=? c) && (c <=? 102) then Some (c - 87) else None.
Fixpoint from_hex (t : bytes) (acc : Z) : res Z :=
  match t with [] => Ok acc | c :: r => match low_digit c with Some d => from_hex r (acc * 16 + d) | None => Raise EValueError end end.
(** PBKDF2.py:237-248: iteration count and salt. *)
Definition PREFIX : bytes := lit "$p5k2$".
Definition salt_parts (salt : bytes) (iters : pval) : res (pval * bytes) :=
  if startswith salt PREFIX then
    match skipn 2 (split 36 salt) with
    | it :: s :: _ :: _ =>
        match it with
        | [] => Ok (VInt 400, s)
        | _ => n <- from_hex it 0;;
               if zs_eqb it (percent_x n) then if n <? 1 then Raise EValueError else Ok (VInt n, s) else Raise EValueError
        end
    | _ => Raise EValueError
    end
  else Ok (iters, salt).
(** PBKDF2.py:251-254 *)
Definition salt_char (c : Z) : bool :=
  ((97 <=? c) && (c <=? 122)) || ((65 <=? c) && (c <=? 90)) || ((48 <=? c) && (c <=? 57)) || (c =? 46) || (c =? 47).

(** crypt; [r] are the random numbers of a generated salt, iterations is None or an integer. *)
Definition crypt (P : prims) (v : python) (r : Z * Z * Z) (word salt iters : pval) : res bytes :=
  salt <- match salt with VNone => makesalt v r | _ => Ok salt end;;
  salt <- coerce_salt v salt;;
  word <- coerce v word;;
  ' (iters, salt) <- salt_parts salt iters;;
  if forallb salt_char salt then
    ' (n, salt) <- match iters with
                   | VNone => Ok (400, PREFIX ++ 36 :: salt)
                   | VInt n => if n =? 400 then Ok (400, PREFIX ++ 36 :: salt) else Ok (n, PREFIX ++ percent_x n ++ 36 :: salt)
                   | _ => Raise ETypeError
                   end;;
    o <- pb_new v (VBytes word) (VBytes salt) (VInt n);;
    raw <- snd (read P (Some o) 24);;
    h <- b64enc 46 47 raw;;
    Ok (salt ++ 36 :: h)
  else Raise EValueError.
