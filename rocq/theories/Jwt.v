(** * The token container of jwt.py *)
From Coq Require Import ZArith List Bool.
From Verif Require Import Base Utf8 Codec Json.
Import ListNotations.
Open Scope Z_scope.

(** split_token, jwt.py:14-18.  [46] is the dot. *)
Definition split_token (token : bytes) : res (list bytes) :=
  if negb (existsb (fun c => c =? 46) token) then Raise EBadSyntax else Ok (split 46 token).

(** b2s_conv, jwt.py:21-31: byte strings become text, recursively through lists and dictionary values.
    [isinstance(item, int)] covers bool.  Dictionary keys stay as they are (text).  A float is refused. *)
Fixpoint b2s_conv (item : pval) : res pval :=
  match item with
  | VBytes b => s <- utf8_decode b;; Ok (VStr s)
  | VNone | VStr _ | VInt _ | VBool _ => Ok item
  | VList l =>
      l' <- (fix go (l : list pval) : res (list pval) :=
               match l with [] => Ok [] | x :: r => y <- b2s_conv x;; ys <- go r;; Ok (y :: ys) end) l;;
      Ok (VList l')
  | VDict d =>
      d' <- (fix go (d : list (ustr * pval)) : res (list (ustr * pval)) :=
               match d with [] => Ok [] | (k, x) :: r => y <- b2s_conv x;; ys <- go r;; Ok ((k, y) :: ys) end) d;;
      Ok (VDict d')
  | VFloat _ => Raise EValueError
  end.

(** b64encode_item, jwt.py:34-43.  [b64e(int)] makes base64 raise TypeError. *)
Definition b64encode_item (item : pval) : res bytes :=
  match item with
  | VBytes b => Ok (b64e b)
  | VStr s => b <- utf8_encode s;; Ok (b64e b)
  | VInt _ | VBool _ => Raise ETypeError
  | _ => v <- b2s_conv item;; t <- dumps false v;; b <- utf8_encode t;; Ok (b64e b)
  end.

(** class JWT, jwt.py:46-52: [headers], [b64part] and [part].  [part] holds byte strings after construction and
    [unpack], and the header dictionary followed by the caller's items after [pack]. *)
Record jwt := { j_headers : pval; j_b64 : list bytes; j_part : list pval }.

(** JWT.__init__, jwt.py:47-52: a falsy or missing alg is replaced by None. *)
Definition jwt_init (headers : dict) : res jwt :=
  let h := if match dget headers (lit "alg") with Some v => truthy v | None => false end
           then headers else dset headers (lit "alg") VNone in
  e <- b64encode_item (VDict h);;
  p <- b64d e;;
  Ok {| j_headers := VDict h; j_b64 := [e]; j_part := [VBytes p] |}.

(** JWT.unpack, jwt.py:54-71.  Text is encoded as UTF-8 first (lone surrogates raise UnicodeEncodeError, which the
    [except UnicodeDecodeError] does not catch).  A token that is neither text nor bytes has no matching [count]
    method (a list has one and no element equal to b".", hence BadSyntax).  The attributes an exception leaves
    half-updated are in State.v. *)
Definition unpack (token : pval) : res jwt :=
  tok <- match token with
         | VStr s => utf8_encode s
         | VBytes b => Ok b
         | VList _ => Raise EBadSyntax
         | _ => Raise EAttributeError
         end;;
  part <- split_token tok;;
  ps <- mapM b64d part;;
  t <- utf8_decode (hd [] ps);;
  h <- loads t;;
  Ok {| j_headers := h; j_b64 := part; j_part := map VBytes ps |}.

(** JWT.pack, jwt.py:73-94. *)
Definition pack (j : jwt) (parts : list pval) (headers : pval) : res (ustr * jwt) :=
  let h := if truthy headers then headers
           else if truthy (j_headers j) then j_headers j else VDict [(lit "alg", VStr (lit "none"))] in
  match parts with
  | [] => ts <- mapM utf8_decode (j_b64 j);; Ok (join 46 ts, j)
  | _ =>
      e <- b64encode_item h;;
      es <- mapM b64encode_item parts;;
      ts <- mapM utf8_decode (e :: es);;
      Ok (join 46 ts, {| j_headers := j_headers j; j_b64 := e :: es; j_part := h :: parts |})
  end.

(** [p in s] for texts. *)
Fixpoint substr (p s : list Z) : bool :=
  startswith s p || match s with [] => false | _ :: r => substr p r end.

(** [k in h] and [h[k]] for a parsed JSON value h and a text k.  (A list or text never has text keys.) *)
Definition py_in (k : ustr) (h : pval) : res bool :=
  match h with
  | VDict d => Ok (dmem d k)
  | VList l => Ok (existsb (pval_eqb (VStr k)) l)
  | VStr s => Ok (substr k s)
  | _ => Raise ETypeError
  end.
Definition py_get (h : pval) (k : ustr) : res pval :=
  match h with
  | VDict d => match dget d k with Some v => Ok v | None => Raise EKeyError end
  | _ => Raise ETypeError
  end.
(** [v.lower()]: text and byte strings only. *)
Definition py_lower (v : pval) : res pval :=
  match v with
  | VStr s => Ok (VStr (lower s))
  | VBytes s => Ok (VBytes (lower s))
  | _ => Raise EAttributeError
  end.

(** JWT.payload, jwt.py:96-108. *)
Definition payload (j : jwt) : res pval :=
  match nth_error (j_part j) 1 with
  | None => Raise EIndexError
  | Some p =>
      let msg := as_unicode p in
      has <- py_in (lit "cty") (j_headers j);;
      other <- (if has then c <- py_get (j_headers j) (lit "cty");; l <- py_lower c;; Ok (negb (pval_eqb l (VStr (lit "jwt")))) else Ok false);;
      if other then Ok msg
      else match loads_any msg with
           | Ok v => Ok v
           | Raise e => if is_ValueError e then Ok msg else Raise e
           end
  end.
