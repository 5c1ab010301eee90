(** * Shared vocabulary of the model: results, exceptions, byte strings, text, Python values. *)
From Coq Require Import ZArith List Bool Lia.
From Coq Require String Ascii.
Export Coq.Strings.String.StringSyntax.
Import ListNotations.
Open Scope Z_scope.

(** Python [bytes] (every element in 0..255) and Python [str] (code points). *)
Definition bytes := list Z.
Definition ustr := list Z.

Definition is_byte (z : Z) : bool := (0 <=? z) && (z <? 256).
Definition bytes_ok (b : bytes) : bool := forallb is_byte b.

(** ASCII literals: [lit "abc"] is the list of code points (or octets) of abc. *)
Definition lit (s : String.string) : list Z :=
  map (fun c => Z.of_nat (Ascii.nat_of_ascii c)) (String.list_ascii_of_string s).
Arguments lit s%string_scope.

(** Exceptions, one constructor per Python class that can be observed.  [NonTermination] stands for a loop
    that never ends; [OutOfFuel] for an exhausted artificial bound (excluded by theorems). *)
Inductive exn : Set :=
| ETypeError | EValueError | EKeyError | EIndexError | EAttributeError | EAssertionError
| EBinasciiError        (* binascii.Error, a ValueError *)
| EUnicodeDecodeError   (* a ValueError *)
| EUnicodeEncodeError   (* a ValueError *)
| EJSONDecodeError      (* a ValueError *)
| EStructError          (* struct.error, not a ValueError *)
| EZlibError
| ENotImplementedError
| EOverflowError
| EException            (* a plain Exception *)
(* jwkest/__init__.py:29-76 *)
| EInvalid | EWrongNumberOfParts | EBadSyntax | EBadSignature | EUnknownAlgorithm | EBadType | EMissingKey
| EUnknownKeytype
(* jws.py:57-79 *)
| EJWSException | ENoSuitableSigningKeys | EJwsFormatError | EWrongTypeOfKey | EUnknownSignerAlg | ESignerAlgError
(* jwk.py:44-62 *)
| EJWKException | EFormatError | ESerializationNotPossible | EDeSerializationNotPossible | EHeaderError
(* jwe.py:47-85 *)
| EJWEException | ECannotDecode | ENotSupportedAlgorithm | EMethodNotSupported | EParameterError
| ENoSuitableEncryptionKey | ENoSuitableDecryptionKey | ENoSuitableECDHKey | EDecryptionFailed
| EWrongEncryptionAlgorithm
(* aes_gcm.py:55-66, extra.py:26, ecc.py:21 *)
| EInvalidInputException | EInvalidTagException | EVerificationFailure | EECCException
| NonTermination | OutOfFuel.

Scheme Equality for exn.

(** [except ValueError] catches these. *)
Definition is_ValueError (e : exn) : bool :=
  match e with
  | EValueError | EBinasciiError | EUnicodeDecodeError | EUnicodeEncodeError | EJSONDecodeError => true
  | _ => false
  end.

Inductive res (A : Type) : Type :=
| Ok (a : A)
| Raise (e : exn).
Arguments Ok {A} a.
Arguments Raise {A} e.

Definition bind {A B} (m : res A) (f : A -> res B) : res B :=
  match m with Ok a => f a | Raise e => Raise e end.
Notation "x <- m ;; k" := (bind m (fun x => k)) (at level 61, m at next level, right associativity).
Notation "' p <- m ;; k" := (bind m (fun p => k)) (at level 61, p pattern, m at next level, right associativity, only parsing).

(** [[f x for x in l]] with exceptions. *)
Fixpoint mapM {A B} (f : A -> res B) (l : list A) : res (list B) :=
  match l with
  | [] => Ok []
  | x :: r => y <- f x;; ys <- mapM f r;; Ok (y :: ys)
  end.

(** Equality of byte strings / texts. *)
Fixpoint zs_eqb (a b : list Z) : bool :=
  match a, b with
  | [], [] => true
  | x :: a', y :: b' => (x =? y) && zs_eqb a' b'
  | _, _ => false
  end.

Lemma zs_eqb_eq : forall a b, zs_eqb a b = true <-> a = b.
Proof.
  induction a as [|x a IH]; destruct b as [|y b]; simpl; split; intro H; try congruence; try reflexivity.
  - apply andb_true_iff in H. destruct H as [H1 H2]. apply Z.eqb_eq in H1. apply IH in H2. congruence.
  - inversion H; subst. rewrite Z.eqb_refl. simpl. apply IH. reflexivity.
Qed.

Lemma zs_eqb_refl : forall a, zs_eqb a a = true.
Proof. intro a. apply zs_eqb_eq. reflexivity. Qed.

Lemma zs_eqb_neq : forall a b, zs_eqb a b = false <-> a <> b.
Proof.
  intros a b. split; intro H.
  - intro E. apply zs_eqb_eq in E. congruence.
  - destruct (zs_eqb a b) eqn:E; [apply zs_eqb_eq in E; contradiction | reflexivity].
Qed.

Lemma zs_eq_dec : forall a b : list Z, {a = b} + {a <> b}.
Proof. apply list_eq_dec. apply Z.eq_dec. Qed.

(** Python values that occur in headers, payloads and key dictionaries.  A float is kept as its literal text
    (the code never computes with floats).  Dictionaries are association lists in insertion order. *)
Inductive pval : Type :=
| VNone
| VBool (b : bool)
| VInt (z : Z)
| VFloat (text : list Z)
| VStr (s : ustr)
| VBytes (b : bytes)
| VList (l : list pval)
| VDict (d : list (ustr * pval)).

Definition dict := list (ustr * pval).

(** [d[k]], [d.get(k)], [k in d]. *)
Fixpoint dget {A} (d : list (ustr * A)) (k : ustr) : option A :=
  match d with
  | [] => None
  | (k', v) :: r => if zs_eqb k' k then Some v else dget r k
  end.
Definition dmem {A} (d : list (ustr * A)) (k : ustr) : bool :=
  match dget d k with Some _ => true | None => false end.
(** [d[k] = v]: replaces in place or appends. *)
Fixpoint dset {A} (d : list (ustr * A)) (k : ustr) (v : A) : list (ustr * A) :=
  match d with
  | [] => [(k, v)]
  | (k', v') :: r => if zs_eqb k' k then (k', v) :: r else (k', v') :: dset r k v
  end.
(** [del d[k]]. *)
Fixpoint ddel {A} (d : list (ustr * A)) (k : ustr) : list (ustr * A) :=
  match d with
  | [] => []
  | (k', v') :: r => if zs_eqb k' k then r else (k', v') :: ddel r k
  end.
(** [d.update(e)]. *)
Definition dupd {A} (d e : list (ustr * A)) : list (ustr * A) :=
  fold_left (fun acc kv => dset acc (fst kv) (snd kv)) e d.
Definition dkeys {A} (d : list (ustr * A)) : list ustr := map fst d.

(** Keys of a Python dict are distinct. *)
Fixpoint nodup_keys {A} (d : list (ustr * A)) : bool :=
  match d with
  | [] => true
  | (k, _) :: r => negb (dmem r k) && nodup_keys r
  end.

(** Truth value of a float literal: some non-zero digit before the exponent (underflow to 0.0 ignored). *)
Fixpoint float_truthy (t : list Z) : bool :=
  match t with
  | [] => false
  | c :: r => if (c =? 101) || (c =? 69) then false
              else if ((49 <=? c) && (c <=? 57)) || (c =? 78) || (c =? 73) then true (* 1-9, NaN, Infinity *)
              else float_truthy r
  end.

(** [bool(v)]. *)
Definition truthy (v : pval) : bool :=
  match v with
  | VNone => false
  | VBool b => b
  | VInt z => negb (z =? 0)
  | VFloat t => float_truthy t
  | VStr s => match s with [] => false | _ => true end
  | VBytes s => match s with [] => false | _ => true end
  | VList l => match l with [] => false | _ => true end
  | VDict d => match d with [] => false | _ => true end
  end.

(** [==] on values; [True == 1] as in Python, floats compared by text (simplification). *)
Definition as_int (v : pval) : option Z :=
  match v with VInt z => Some z | VBool b => Some (if b then 1 else 0) | _ => None end.

Fixpoint pval_eqb (a b : pval) {struct a} : bool :=
  match a, b with
  | VNone, VNone => true
  | VBool x, VBool y => Bool.eqb x y
  | VInt x, VInt y => x =? y
  | VBool x, VInt y => (if x then 1 else 0) =? y
  | VInt x, VBool y => x =? (if y then 1 else 0)
  | VFloat x, VFloat y => zs_eqb x y
  | VStr x, VStr y => zs_eqb x y
  | VBytes x, VBytes y => zs_eqb x y
  | VList x, VList y =>
      (fix go (l m : list pval) : bool :=
         match l, m with
         | [], [] => true
         | u :: l', v :: m' => pval_eqb u v && go l' m'
         | _, _ => false
         end) x y
  | VDict x, VDict y =>
      Nat.eqb (length x) (length y) &&
      (fix go (l : list (ustr * pval)) : bool :=
         match l with
         | [] => true
         | (k, u) :: l' => match dget y k with Some v => pval_eqb u v | None => false end && go l'
         end) x
  | _, _ => false
  end.

(** ASCII lower/upper case.  Exact for the comparisons made by the code, because no non-ASCII code point has a
    lower/upper-case mapping equal to one of the ASCII letters compared against ("none", "jwt", "jwe"). *)
Definition lower_c (c : Z) : Z := if (65 <=? c) && (c <=? 90) then c + 32 else c.
Definition lower (s : list Z) : list Z := map lower_c s.
Definition upper_c (c : Z) : Z := if (97 <=? c) && (c <=? 122) then c - 32 else c.
Definition upper (s : list Z) : list Z := map upper_c s.

(** [a.startswith(p)]. *)
Fixpoint startswith (s p : list Z) : bool :=
  match p, s with
  | [], _ => true
  | x :: p', y :: s' => (x =? y) && startswith s' p'
  | _, [] => false
  end.

(** [sep.join(parts)] for a one-element separator. *)
Fixpoint join (sep : Z) (parts : list (list Z)) : list Z :=
  match parts with
  | [] => []
  | [x] => x
  | x :: r => x ++ sep :: join sep r
  end.

(** [s.split(sep)] for a one-element separator. *)
Fixpoint split (sep : Z) (s : list Z) : list (list Z) :=
  match s with
  | [] => [[]]
  | c :: r =>
      if c =? sep then [] :: split sep r
      else match split sep r with
           | h :: t => (c :: h) :: t
           | [] => [[c]]
           end
  end.

(** [s.rstrip(c)]. *)
Fixpoint lstrip (c : Z) (s : list Z) : list Z :=
  match s with
  | [] => []
  | x :: r => if x =? c then lstrip c r else s
  end.
Definition rstrip (c : Z) (s : list Z) : list Z := rev (lstrip c (rev s)).

(** Big-endian value of a byte string, and the fixed-width encoding. *)
Definition be2z (b : bytes) : Z := fold_left (fun a x => a * 256 + x) b 0.
Fixpoint z2be (w : nat) (n : Z) : bytes :=
  match w with
  | O => []
  | S w' => z2be w' (n / 256) ++ [n mod 256]
  end.
