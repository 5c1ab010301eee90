(** * Model of src/jwkest/__init__.py (encoding helpers). *)
From Coq Require Import ZArith List Bool.
From Verif Require Import Base Utf8.
Import ListNotations.
Open Scope Z_scope.

(** ** CPython [binascii.b2a_base64] / [a2b_base64] (stdlib behaviour the helpers rely on) *)

(** Standard alphabet, value to character. *)
Definition b64_chr (v : Z) : Z :=
  if v <? 26 then 65 + v else if v <? 52 then 71 + v else if v <? 62 then v - 4 else if v =? 62 then 43 else 47.

(** Standard alphabet, character to value; [None] for characters outside the alphabet. *)
Definition b64_val (c : Z) : option Z :=
  if (65 <=? c) && (c <=? 90) then Some (c - 65)
  else if (97 <=? c) && (c <=? 122) then Some (c - 71)
  else if (48 <=? c) && (c <=? 57) then Some (c + 4)
  else if c =? 43 then Some 62
  else if c =? 47 then Some 63
  else None.

(** [base64.b64encode(s)]. *)
Fixpoint b64encode (s : bytes) : bytes :=
  match s with
  | [] => []
  | [a] => [b64_chr (a / 4); b64_chr ((a mod 4) * 16); 61; 61]
  | [a; b] => [b64_chr (a / 4); b64_chr ((a mod 4) * 16 + b / 16); b64_chr ((b mod 16) * 4); 61]
  | a :: b :: c :: r =>
      b64_chr (a / 4) :: b64_chr ((a mod 4) * 16 + b / 16) :: b64_chr ((b mod 16) * 4 + c / 64) :: b64_chr (c mod 64)
      :: b64encode r
  end.

(** [binascii.a2b_base64] non-strict: characters outside the alphabet are skipped; ['='] is skipped unless it
    completes a quantum, in which case decoding stops; an incomplete quantum at the end is an error.
    [q] = characters seen in the current quantum, [lc] = left-over bits, [pads] = pads seen in a row. *)
Fixpoint a2b (s : bytes) (q lc pads : Z) : res bytes :=
  match s with
  | [] => if q =? 0 then Ok [] else Raise EBinasciiError
  | c :: r =>
      if c =? 61 then
        if q >=? 2 then
          if q + (pads + 1) >=? 4 then Ok []
          else a2b r q lc (pads + 1)
        else a2b r q lc pads
      else match b64_val c with
           | None => a2b r q lc pads
           | Some v =>
               if q =? 0 then a2b r 1 v 0
               else if q =? 1 then t <- a2b r 2 (v mod 16) 0;; Ok (lc * 4 + v / 16 :: t)
               else if q =? 2 then t <- a2b r 3 (v mod 4) 0;; Ok (lc * 16 + v / 4 :: t)
               else t <- a2b r 0 0 0;; Ok (lc * 64 + v :: t)
           end
  end.

(** [base64.urlsafe_b64encode]: translate '+/' to '-_'. *)
Definition tr_enc (c : Z) : Z := if c =? 43 then 45 else if c =? 47 then 95 else c.
Definition urlsafe_b64encode (s : bytes) : bytes := map tr_enc (b64encode s).
(** [base64.urlsafe_b64decode]: translate '-_' to '+/' and decode. *)
Definition tr_dec (c : Z) : Z := if c =? 45 then 43 else if c =? 95 then 47 else c.
Definition urlsafe_b64decode (s : bytes) : res bytes := a2b (map tr_dec s) 0 0 0.

(** ** Helper functions *)

(** Two lower-case hex digits ["%02x"]. *)
Definition hex_digit (v : Z) : Z := if v <? 10 then 48 + v else 87 + v.
Definition unhex_digit (c : Z) : option Z :=
  if (48 <=? c) && (c <=? 57) then Some (c - 48)
  else if (97 <=? c) && (c <=? 102) then Some (c - 87)
  else if (65 <=? c) && (c <=? 70) then Some (c - 55)
  else None.

(** [binascii.unhexlify]. *)
Fixpoint unhexlify (s : list Z) : res bytes :=
  match s with
  | [] => Ok []
  | [_] => Raise EBinasciiError
  | a :: b :: r =>
      match unhex_digit a, unhex_digit b with
      | Some x, Some y => t <- unhexlify r;; Ok (x * 16 + y :: t)
      | _, _ => Raise EBinasciiError
      end
  end.

(** intarr2bin, __init__.py:82-83, for values 0..255 ("%02x" of a larger value has more than two digits). *)
Definition intarr2bin (arr : list Z) : res bytes :=
  unhexlify (concat (map (fun b => [hex_digit (b / 16); hex_digit (b mod 16)]) arr)).

(** Hex digits of [hex(l)[2:]] for l >= 0 ("0" for 0), most significant first. *)
Fixpoint hex_digits (fuel : nat) (n : Z) (acc : list Z) : list Z :=
  match fuel with
  | O => acc
  | S f => let acc' := hex_digit (n mod 16) :: acc in
           if n / 16 =? 0 then acc' else hex_digits f (n / 16) acc'
  end.
Definition py_hex (n : Z) : list Z := hex_digits (S (Z.to_nat (Z.log2 n))) n [].

(** long2hexseq, __init__.py:86-90.  [unhexlify] on odd-length text raises binascii.Error (a ValueError), which
    the [except TypeError] does not catch.  For negative l, [hex(l)[2:]] starts with 'x': same error. *)
Definition long2hexseq (l : Z) : res bytes :=
  if l <? 0 then Raise EBinasciiError else unhexlify (py_hex l).

(** intarr2long, __init__.py:93-94, for arrays of values 0..255; [int('', 16)] raises ValueError. *)
Definition intarr2long (arr : list Z) : res Z :=
  match arr with [] => Raise EValueError | _ => Ok (be2z arr) end.

(** long2intarr, __init__.py:97-102.  The loop divides by 256 until zero; for a negative argument it never ends
    (Python's divmod floors), shown here as an exhausted bound. *)
Fixpoint l2a (fuel : nat) (n : Z) (acc : list Z) : res (list Z) :=
  if n =? 0 then Ok acc
  else match fuel with
       | O => Raise NonTermination
       | S f => l2a f (n / 256) (n mod 256 :: acc)
       end.
Definition long2intarr (n : Z) : res (list Z) := l2a (S (Z.to_nat (Z.log2 n))) n [].

(** b64e, __init__.py:141-145. *)
Definition b64e (b : bytes) : bytes := rstrip 61 (urlsafe_b64encode b).

(** long_to_base64, __init__.py:105-111.  For 0 the data is the *text* '\x00' and base64 raises TypeError. *)
Definition long_to_base64 (n : Z) : res ustr :=
  bys <- long2intarr n;;
  match bys with
  | [] => Raise ETypeError
  | _ => Ok (b64e bys)
  end.

(** base64_to_long, __init__.py:114-120, on bytes (119-120) and on text (115-116). *)
Definition base64_to_long_b (data : bytes) : res Z :=
  d <- urlsafe_b64decode (data ++ [61; 61]);; intarr2long d.
Definition base64_to_long_s (data : ustr) : res Z :=
  d <- ascii_encode data;; base64_to_long_b d.

(** base64url_to_long, __init__.py:123-136, on bytes. *)
Definition base64url_to_long_b (data : bytes) : res Z :=
  d <- urlsafe_b64decode (data ++ [61; 61]);;
  if existsb (fun c => (c =? 43) || (c =? 47) || (c =? 61)) data then Raise EValueError
  else intarr2long d.
(** On text, [bytes(data)] without encoding raises TypeError on Python 3. *)
Definition base64url_to_long_s (data : ustr) : res Z := Raise ETypeError.

(** [_b64_re = ^[A-Za-z0-9_-]*$], __init__.py:148.  Without MULTILINE, [$] also matches before a final newline. *)
Definition b64url_char (c : Z) : bool :=
  ((65 <=? c) && (c <=? 90)) || ((97 <=? c) && (c <=? 122)) || ((48 <=? c) && (c <=? 57)) || (c =? 45) || (c =? 95).
Definition b64_re_match (s : bytes) : bool :=
  forallb b64url_char s ||
  match rev s with
  | 10 :: r => forallb b64url_char (rev r)
  | _ => false
  end.

(** add_padding, __init__.py:151-162. *)
Definition add_padding (b : bytes) : res bytes :=
  match Z.of_nat (length b) mod 4 with
  | 1 => Raise EBadSyntax
  | 2 => Ok (b ++ [61; 61])
  | 3 => Ok (b ++ [61])
  | _ => Ok b
  end.

(** b64d, __init__.py:165-183. *)
Definition b64d (b : bytes) : res bytes :=
  let cb := rstrip 61 b in
  if negb (b64_re_match cb) then Raise EBadSyntax
  else
    b' <- (if zs_eqb cb b then add_padding b else Ok b);;
    urlsafe_b64decode b'.

(** b64e_enc_dec / b64d_enc_dec, __init__.py:186-191, with their default codecs. *)
Definition b64e_enc_dec (s : ustr) : res ustr := b <- utf8_encode s;; Ok (b64e b).
Definition b64d_enc_dec (s : ustr) : res ustr := b <- ascii_encode s;; d <- b64d b;; utf8_decode d.

(** The accumulator loop of safe_str_cmp / constant_time_compare, __init__.py:195-212. *)
Fixpoint cmp_loop (a b : list Z) (r : Z) : Z :=
  match a, b with
  | c :: a', d :: b' => cmp_loop a' b' (Z.lor r (Z.lxor c d))
  | _, _ => r
  end.
Definition constant_time_compare (a b : list Z) : bool :=
  if negb (Nat.eqb (length a) (length b)) then false else cmp_loop a b 0 =? 0.
Definition safe_str_cmp (a b : ustr) : bool := constant_time_compare a b.

(** as_bytes, __init__.py:215-225: text is encoded, everything else is returned unchanged. *)
Definition as_bytes (v : pval) : res pval :=
  match v with
  | VStr s => b <- utf8_encode s;; Ok (VBytes b)
  | _ => Ok v
  end.

(** as_unicode, __init__.py:228-238: bytes are decoded if they are UTF-8, everything else is unchanged. *)
Definition as_unicode (v : pval) : pval :=
  match v with
  | VBytes b => match utf8_decode b with Ok s => VStr s | Raise _ => v end
  | _ => v
  end.
