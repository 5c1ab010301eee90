(** * json.dumps / json.loads of CPython 3 (Lib/json, Modules/_json.c), as the package uses them.
    Not part of /repo, but most properties go through it, so it is modelled concretely.  Not modelled: the recursion
    limit and the limit on the number of digits of an int.  A float is kept as its literal text. *)
From Coq Require Import ZArith List Bool Lia.
From Verif Require Import Base Codec Utf8.
Import ListNotations.
Open Scope Z_scope.

(** ** Output *)
(** decimal digits of n >= 0, most significant first *)
Fixpoint dec_digits (fuel : nat) (n : Z) (acc : list Z) : list Z :=
  match fuel with
  | O => acc
  | S f => let acc' := 48 + n mod 10 :: acc in if n / 10 =? 0 then acc' else dec_digits f (n / 10) acc'
  end.
Definition dec_nat (n : Z) : list Z := dec_digits (S (Z.to_nat (Z.log2 n))) n [].
(** [str(z)] *)
Definition dec (z : Z) : list Z := if z <? 0 then 45 :: dec_nat (- z) else dec_nat z.

Definition hex4 (c : Z) : list Z :=
  [hex_digit (c / 4096 mod 16); hex_digit (c / 256 mod 16); hex_digit (c / 16 mod 16); hex_digit (c mod 16)].
Definition u_esc (c : Z) : list Z := 92 :: 117 :: hex4 c.

(** py_encode_basestring_ascii (json/encoder.py:25-58, ensure_ascii=True) for one code point *)
Definition esc_c (c : Z) : list Z :=
  if c =? 34 then [92; 34]
  else if c =? 92 then [92; 92]
  else if c =? 10 then [92; 110]
  else if c =? 13 then [92; 114]
  else if c =? 9 then [92; 116]
  else if c =? 12 then [92; 102]
  else if c =? 8 then [92; 98]
  else if (32 <=? c) && (c <=? 126) then [c]
  else if c <? 65536 then u_esc c
  else u_esc (55296 + (c - 65536) / 1024) ++ u_esc (56320 + (c - 65536) mod 1024).
Definition esc_str (s : ustr) : list Z := 34 :: concat (map esc_c s) ++ [34].

(** separators: [false] is (",", ":"), [true] the default (", ", ": ") *)
Definition sep_item (sp : bool) : list Z := if sp then [44; 32] else [44].
Definition sep_key (sp : bool) : list Z := if sp then [58; 32] else [58].

Fixpoint interc (sep : list Z) (l : list (list Z)) : list Z :=
  match l with
  | [] => []
  | [x] => x
  | x :: r => x ++ sep ++ interc sep r
  end.

(** [json.dumps(v, separators=...)]; bytes are not serializable (TypeError). *)
Fixpoint dumps (sp : bool) (v : pval) : res (list Z) :=
  match v with
  | VNone => Ok (lit "null")
  | VBool true => Ok (lit "true")
  | VBool false => Ok (lit "false")
  | VInt z => Ok (dec z)
  | VFloat t => Ok t
  | VStr s => Ok (esc_str s)
  | VBytes _ => Raise ETypeError
  | VList l =>
      items <- (fix go (l : list pval) : res (list (list Z)) :=
                  match l with [] => Ok [] | x :: r => y <- dumps sp x;; ys <- go r;; Ok (y :: ys) end) l;;
      Ok (91 :: interc (sep_item sp) items ++ [93])
  | VDict d =>
      items <- (fix go (d : list (ustr * pval)) : res (list (list Z)) :=
                  match d with
                  | [] => Ok []
                  | (k, x) :: r => y <- dumps sp x;; ys <- go r;; Ok ((esc_str k ++ sep_key sp ++ y) :: ys)
                  end) d;;
      Ok (123 :: interc (sep_item sp) items ++ [125])
  end.

(** ** Input *)
Definition jws_c (c : Z) : bool := (c =? 32) || (c =? 9) || (c =? 10) || (c =? 13).
Fixpoint skip_ws (s : list Z) : list Z :=
  match s with [] => [] | c :: r => if jws_c c then skip_ws r else s end.

Definition is_digit (c : Z) : bool := (48 <=? c) && (c <=? 57).
(** longest run of digits *)
Fixpoint span_digits (s : list Z) : list Z * list Z :=
  match s with
  | c :: r => if is_digit c then let '(a, b) := span_digits r in (c :: a, b) else ([], s)
  | [] => ([], [])
  end.
Definition undec (ds : list Z) : Z := fold_left (fun a c => 10 * a + (c - 48)) ds 0.

Definition hexval (c : Z) : option Z :=
  if is_digit c then Some (c - 48)
  else if (97 <=? c) && (c <=? 102) then Some (c - 87)
  else if (65 <=? c) && (c <=? 70) then Some (c - 55)
  else None.
Definition unhex4 (a b c d : Z) : option Z :=
  match hexval a, hexval b, hexval c, hexval d with
  | Some x, Some y, Some z, Some w => Some (4096 * x + 256 * y + 16 * z + w)
  | _, _, _, _ => None
  end.

Definition unescape (e : Z) : option Z :=
  if e =? 34 then Some 34 else if e =? 92 then Some 92 else if e =? 47 then Some 47
  else if e =? 98 then Some 8 else if e =? 102 then Some 12 else if e =? 110 then Some 10
  else if e =? 114 then Some 13 else if e =? 116 then Some 9 else None.

(** scanstring_unicode (_json.c), strict mode; the text is after the opening quote.  A low surrogate escape directly
    after a high one is joined with it. *)
Definition is_high (c : Z) : bool := (55296 <=? c) && (c <=? 56319).
Definition is_low (c : Z) : bool := (56320 <=? c) && (c <=? 57343).
Definition surr_join (h l : Z) : Z := 65536 + (h - 55296) * 1024 + (l - 56320).

Fixpoint jstr (s : list Z) : res (ustr * list Z) :=
  match s with
  | [] => Raise EJSONDecodeError
  | c :: r =>
    if c =? 34 then Ok ([], r)
    else if c =? 92 then
      match r with
      | [] => Raise EJSONDecodeError
      | e :: r1 =>
        if e =? 117 then
          match r1 with
          | a :: b :: x :: y :: r2 =>
            match unhex4 a b x y with
            | None => Raise EJSONDecodeError
            | Some u =>
              if is_high u then
                match r2 with
                | e1 :: e2 :: a' :: b' :: x' :: y' :: r3 =>
                  if (e1 =? 92) && (e2 =? 117) then
                    match unhex4 a' b' x' y' with
                    | None => Raise EJSONDecodeError
                    | Some u' =>
                      if is_low u' then t <- jstr r3;; Ok (surr_join u u' :: fst t, snd t)
                      else t <- jstr r2;; Ok (u :: fst t, snd t)
                    end
                  else t <- jstr r2;; Ok (u :: fst t, snd t)
                | _ => t <- jstr r2;; Ok (u :: fst t, snd t)
                end
              else t <- jstr r2;; Ok (u :: fst t, snd t)
            end
          | _ => Raise EJSONDecodeError
          end
        else match unescape e with
             | Some u => t <- jstr r1;; Ok (u :: fst t, snd t)
             | None => Raise EJSONDecodeError
             end
      end
    else if (0 <=? c) && (c <? 32) then Raise EJSONDecodeError
    else t <- jstr r;; Ok (c :: fst t, snd t)
  end.

(** optional fraction and exponent: the text consumed and the rest *)
Definition jfrac (s : list Z) : list Z * list Z :=
  match s with
  | c :: r => if c =? 46 then match span_digits r with ([], _) => ([], s) | (ds, r') => (c :: ds, r') end else ([], s)
  | [] => ([], [])
  end.
Definition jexp (s : list Z) : list Z * list Z :=
  match s with
  | c :: r =>
      if (c =? 101) || (c =? 69) then
        match r with
        | g :: r1 =>
            if (g =? 43) || (g =? 45)
            then match span_digits r1 with ([], _) => ([], s) | (ds, r') => (c :: g :: ds, r') end
            else match span_digits r with ([], _) => ([], s) | (ds, r') => (c :: ds, r') end
        | [] => ([], s)
        end
      else ([], s)
  | [] => ([], [])
  end.

(** _match_number_unicode for text after an optional minus sign *)
Definition jnum (neg : bool) (s : list Z) : res (pval * list Z) :=
  match s with
  | [] => Raise EJSONDecodeError
  | c :: r =>
    let go ds r' :=
      let '(f, r1) := jfrac r' in
      let '(e, r2) := jexp r1 in
      match f ++ e with
      | [] => Ok (VInt (if neg then - undec ds else undec ds), r2)
      | fe => Ok (VFloat ((if neg then [45] else []) ++ ds ++ fe), r2)
      end in
    if c =? 48 then go [48] r
    else if is_digit c then let '(ds, r') := span_digits r in go (c :: ds) r'
    else Raise EJSONDecodeError
  end.

(** skip a given prefix *)
Fixpoint strip (p s : list Z) : option (list Z) :=
  match p, s with
  | [], _ => Some s
  | a :: p', b :: s' => if a =? b then strip p' s' else None
  | _, [] => None
  end.

Definition jatom (s : list Z) : res (pval * list Z) :=
  match strip (lit "null") s with Some r => Ok (VNone, r) | None =>
  match strip (lit "true") s with Some r => Ok (VBool true, r) | None =>
  match strip (lit "false") s with Some r => Ok (VBool false, r) | None =>
  match strip (lit "NaN") s with Some r => Ok (VFloat (lit "NaN"), r) | None =>
  match strip (lit "Infinity") s with Some r => Ok (VFloat (lit "Infinity"), r) | None =>
  match strip (lit "-Infinity") s with Some r => Ok (VFloat (lit "-Infinity"), r) | None =>
  match s with
  | c :: r => if c =? 45 then jnum true r else jnum false s
  | [] => Raise EJSONDecodeError
  end end end end end end end.

(** scan_once_unicode; [jmembers] and [jelems] are the loops of _parse_object_unicode and _parse_array_unicode. *)
Fixpoint jval (n : nat) (s : list Z) : res (pval * list Z) :=
  match n with
  | O => Raise OutOfFuel
  | S m =>
    match s with
    | [] => Raise EJSONDecodeError
    | c :: r =>
      if c =? 34 then t <- jstr r;; Ok (VStr (fst t), snd t)
      else if c =? 123 then
        match skip_ws r with
        | [] => Raise EJSONDecodeError
        | c1 :: r1 => if c1 =? 125 then Ok (VDict [], r1) else jmembers m (c1 :: r1) []
        end
      else if c =? 91 then
        match skip_ws r with
        | [] => Raise EJSONDecodeError
        | c1 :: r1 => if c1 =? 93 then Ok (VList [], r1) else jelems m (c1 :: r1) []
        end
      else jatom s
    end
  end
with jmembers (n : nat) (s : list Z) (acc : dict) : res (pval * list Z) :=
  match n with
  | O => Raise OutOfFuel
  | S m =>
    match s with
    | [] => Raise EJSONDecodeError
    | c :: r =>
      if negb (c =? 34) then Raise EJSONDecodeError
      else
        k <- jstr r;;
        match skip_ws (snd k) with
        | [] => Raise EJSONDecodeError
        | c1 :: r1 =>
          if negb (c1 =? 58) then Raise EJSONDecodeError
          else
            v <- jval m (skip_ws r1);;
            let acc' := dset acc (fst k) (fst v) in
            match skip_ws (snd v) with
            | [] => Raise EJSONDecodeError
            | c2 :: r2 =>
              if c2 =? 125 then Ok (VDict acc', r2)
              else if c2 =? 44 then jmembers m (skip_ws r2) acc'
              else Raise EJSONDecodeError
            end
        end
    end
  end
with jelems (n : nat) (s : list Z) (acc : list pval) : res (pval * list Z) :=
  match n with
  | O => Raise OutOfFuel
  | S m =>
    v <- jval m s;;
    match skip_ws (snd v) with
    | [] => Raise EJSONDecodeError
    | c2 :: r2 =>
      if c2 =? 93 then Ok (VList (acc ++ [fst v]), r2)
      else if c2 =? 44 then jelems m (skip_ws r2) (acc ++ [fst v])
      else Raise EJSONDecodeError
    end
  end.

(** JSONDecoder.decode *)
Definition decode_text (s : ustr) : res pval :=
  t <- jval (S (2 * length s)) (skip_ws s);;
  match skip_ws (snd t) with [] => Ok (fst t) | _ => Raise EJSONDecodeError end.

(** [json.loads(str)]: a leading byte order mark is refused. *)
Definition loads (s : ustr) : res pval :=
  match s with
  | c :: _ => if c =? 65279 then Raise EJSONDecodeError else decode_text s
  | [] => decode_text s
  end.

(** ** [json.loads(bytes)] *)
(** UTF-8 with the surrogatepass error handler: three-octet encodings of surrogates are accepted as well. *)
Fixpoint utf8_decode_pass (b : bytes) : res ustr :=
  match b with
  | [] => Ok []
  | b0 :: r0 =>
    if b0 <? 128 then s <- utf8_decode_pass r0;; Ok (b0 :: s)
    else match r0 with
    | [] => Raise EUnicodeDecodeError
    | b1 :: r1 =>
      if negb (cont b1) then Raise EUnicodeDecodeError
      else if (194 <=? b0) && (b0 <? 224) then
        s <- utf8_decode_pass r1;; Ok (((b0 - 192) * 64 + (b1 - 128)) :: s)
      else match r1 with
      | [] => Raise EUnicodeDecodeError
      | b2 :: r2 =>
        if negb (cont b2) then Raise EUnicodeDecodeError
        else if (224 <=? b0) && (b0 <? 240) then
          let c := (b0 - 224) * 4096 + (b1 - 128) * 64 + (b2 - 128) in
          if c <? 2048 then Raise EUnicodeDecodeError
          else s <- utf8_decode_pass r2;; Ok (c :: s)
        else match r2 with
        | [] => Raise EUnicodeDecodeError
        | b3 :: r3 =>
          if negb (cont b3) then Raise EUnicodeDecodeError
          else if (240 <=? b0) && (b0 <? 245) then
            let c := (b0 - 240) * 262144 + (b1 - 128) * 4096 + (b2 - 128) * 64 + (b3 - 128) in
            if (c <? 65536) || (1114112 <=? c) then Raise EUnicodeDecodeError
            else s <- utf8_decode_pass r3;; Ok (c :: s)
          else Raise EUnicodeDecodeError
        end
      end
    end
  end.

(** UTF-16 code units and their joining; surrogatepass keeps unpaired surrogates. *)
Fixpoint units16 (be : bool) (b : bytes) : res (list Z) :=
  match b with
  | [] => Ok []
  | [_] => Raise EUnicodeDecodeError
  | x :: y :: r => s <- units16 be r;; Ok ((if be then 256 * x + y else 256 * y + x) :: s)
  end.
Fixpoint join16 (u : list Z) : ustr :=
  match u with
  | [] => []
  | h :: r =>
    if is_high h then
      match r with
      | l :: r' => if is_low l then surr_join h l :: join16 r' else h :: join16 r
      | [] => [h]
      end
    else h :: join16 r
  end.
Definition utf16_decode (be : bool) (b : bytes) : res ustr := u <- units16 be b;; Ok (join16 u).
Fixpoint utf32_decode (be : bool) (b : bytes) : res ustr :=
  match b with
  | [] => Ok []
  | w :: x :: y :: z :: r =>
      let c := if be then ((w * 256 + x) * 256 + y) * 256 + z else ((z * 256 + y) * 256 + x) * 256 + w in
      if 1114112 <=? c then Raise EUnicodeDecodeError
      else s <- utf32_decode be r;; Ok (c :: s)
  | _ => Raise EUnicodeDecodeError
  end.

(** json/__init__.py detect_encoding followed by [b.decode(encoding, 'surrogatepass')] *)
Definition detect_decode (b : bytes) : res ustr :=
  if startswith b [0; 0; 254; 255] then utf32_decode true (skipn 4 b)
  else if startswith b [255; 254; 0; 0] then utf32_decode false (skipn 4 b)
  else if startswith b [254; 255] then utf16_decode true (skipn 2 b)
  else if startswith b [255; 254] then utf16_decode false (skipn 2 b)
  else if startswith b [239; 187; 191] then utf8_decode_pass (skipn 3 b)
  else match b with
  | b0 :: b1 :: b2 :: b3 :: _ =>
      if b0 =? 0 then (if b1 =? 0 then utf32_decode true b else utf16_decode true b)
      else if b1 =? 0 then (if (b2 =? 0) && (b3 =? 0) then utf32_decode false b else utf16_decode false b)
      else utf8_decode_pass b
  | [b0; b1] =>
      if b0 =? 0 then utf16_decode true b
      else if b1 =? 0 then utf16_decode false b
      else utf8_decode_pass b
  | _ => utf8_decode_pass b
  end.
Definition loads_bytes (b : bytes) : res pval := s <- detect_decode b;; decode_text s.

(** [json.loads(v)] for any value: only str and bytes are accepted. *)
Definition loads_any (v : pval) : res pval :=
  match v with
  | VStr s => loads s
  | VBytes b => loads_bytes b
  | _ => Raise ETypeError
  end.
