(** * Objects after an exception: JWT.unpack and JWT.pack with the attributes they leave behind *)
From Coq Require Import ZArith List Bool.
From Verif Require Import Base Utf8 Codec Json Jwt.
Import ListNotations.
Open Scope Z_scope.

(** JWT.unpack, jwt.py:54-71, statement by statement: [b64part] is assigned before the segments are decoded, [part]
    before the header is parsed. *)
Definition unpack_on (j : jwt) (token : pval) : jwt * res unit :=
  match (tok <- match token with
                | VStr s => utf8_encode s
                | VBytes b => Ok b
                | VList _ => Raise EBadSyntax
                | _ => Raise EAttributeError
                end;; split_token tok) with
  | Raise e => (j, Raise e)
  | Ok segments =>
      let j := {| j_headers := j_headers j; j_b64 := segments; j_part := j_part j |} in
      match mapM b64d segments with
      | Raise e => (j, Raise e)
      | Ok ps =>
          let j := {| j_headers := j_headers j; j_b64 := segments; j_part := map VBytes ps |} in
          match (t <- utf8_decode (hd [] ps);; loads t) with
          | Raise e => (j, Raise e)
          | Ok h => ({| j_headers := h; j_b64 := segments; j_part := map VBytes ps |}, Ok tt)
          end
      end
  end.

(** JWT.pack, jwt.py:73-94, statement by statement: [part] is assigned before anything is encoded, [b64part] with the header
    alone before the parts are encoded (a list comprehension: nothing is added if one of them fails). *)
Definition pack_on (j : jwt) (parts : list pval) (headers : pval) : jwt * res ustr :=
  let h := if truthy headers then headers
           else if truthy (j_headers j) then j_headers j else VDict [(lit "alg", VStr (lit "none"))] in
  match parts with
  | [] => (j, ts <- mapM utf8_decode (j_b64 j);; Ok (join 46 ts))
  | _ =>
      let j := {| j_headers := j_headers j; j_b64 := j_b64 j; j_part := h :: parts |} in
      match b64encode_item h with
      | Raise e => (j, Raise e)
      | Ok e =>
          let j := {| j_headers := j_headers j; j_b64 := [e]; j_part := h :: parts |} in
          match mapM b64encode_item parts with
          | Raise x => (j, Raise x)
          | Ok es => ({| j_headers := j_headers j; j_b64 := e :: es; j_part := h :: parts |}, ts <- mapM utf8_decode (e :: es);; Ok (join 46 ts))
          end
      end
  end.
