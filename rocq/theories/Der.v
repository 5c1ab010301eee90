(** * Model of der2rsa, jwk.py:112-121, with the DER reader of Cryptodome.Util.asn1 (BytesIO_EOF, DerObject, DerSequence, DerInteger, not strict).
    Each function answers as the Python method; RSA.importKey stays a parameter. *)
From Coq Require Import ZArith List Bool Lia.
From Verif Require Import Base BaseProofs Prims.
Import ListNotations.
Open Scope Z_scope.

(** BytesIO_EOF.read (used in jwk.py:115 and 117): ValueError if there are too few octets *)
Definition der_read (n : nat) (s : bytes) : res (bytes * bytes) :=
  if (length s <? n)%nat then Raise EValueError else Ok (firstn n s, skipn n s).

(** DerObject._decodeLen (jwk.py:115, 117).  0x80 reads no octet and looks at its first one. *)
Definition der_len (s : bytes) : res (Z * bytes) :=
  match s with
  | [] => Raise EValueError
  | l :: r =>
      if l <=? 127 then Ok (l, r)
      else ' (e, r') <- der_read (Z.to_nat (l - 128)) r;;
           match e with
           | [] => Raise EIndexError
           | b :: _ => if b =? 0 then Raise EValueError else if be2z e <=? 127 then Raise EValueError else Ok (be2z e, r')
           end
  end.

(** DerObject._decodeFromStream (jwk.py:115, 117): tag, payload and what follows *)
Definition der_item (s : bytes) : res (Z * bytes * bytes) :=
  match s with
  | [] => Raise EValueError
  | t :: r =>
      ' (n, r1) <- der_len r;;
      if Z.of_nat (length r1) <? n then Raise EValueError else Ok (t, firstn (Z.to_nat n) r1, skipn (Z.to_nat n) r1)
  end.

(** DerInteger: two's complement *)
Definition der_int (b : bytes) : Z :=
  match b with [] => 0 | x :: _ => if x <? 128 then be2z b else be2z b - 256 ^ Z.of_nat (length b) end.

(** A member of a DerSequence: an INTEGER is kept as a number, everything else as its octets with tag and length. *)
Inductive member : Set := MInt (n : Z) | MRaw (b : bytes).

(** The loop of DerSequence._decodeFromStream; every turn consumes at least two octets. *)
Fixpoint der_members (fuel : nat) (s : bytes) : res (list member) :=
  match s with
  | [] => Ok []
  | _ :: _ =>
      match fuel with
      | O => Raise OutOfFuel
      | S f =>
          ' (t, v, r) <- der_item s;;
          l <- der_members f r;;
          Ok ((if t =? 2 then MInt (der_int v) else MRaw (firstn (length s - length r) s)) :: l)
      end
  end.

(** DerSequence().decode(der), jwk.py:114-117: tag 0x30, nothing behind it *)
Definition der_seq (s : bytes) : res (list member) :=
  match s with
  | [] => Raise EValueError
  | t :: _ =>
      if negb (t =? 48) then Raise EValueError
      else ' (_, v, r) <- der_item s;;
           l <- der_members (length v) v;;
           match r with [] => Ok l | _ :: _ => Raise EValueError end
  end.

(** der2rsa, jwk.py:112-121; [imp] is RSA.importKey.  decode of an int is a ValueError. *)
Definition der2rsa (imp : member -> res rsakey) (der : bytes) : res rsakey :=
  cert <- der_seq der;;
  match cert with
  | [] => Raise EIndexError
  | MInt _ :: _ => Raise EValueError
  | MRaw t :: _ =>
      tbs <- der_seq t;;
      match nth_error tbs 6 with None => Raise EIndexError | Some m => imp m end
  end.
