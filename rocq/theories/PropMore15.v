(** * C276: what verify_json can raise *)
From Coq Require Import ZArith List Bool Lia.
From Verif Require Import Base Utf8 Codec Json Jwt Prims Inst Ecc Jwk JwkEx Jws JwsProofs11 JwsEx JsonRaise.
Import ListNotations.
Open Scope Z_scope.

Theorem C276_raises : forall P s text ks an sigalg e, (forall sc h k m sg x, p_rsa_verify P sc h k m sg = Raise x -> is_ValueError x = true) -> ks <> [] -> (forall k, In k ks -> sound_key k) ->
  verify_json P s (VStr text) (Some ks) an sigalg = Raise e ->
  is_ValueError e = true \/
  In e [EBadSyntax; EWrongNumberOfParts; ESignerAlgError; ENoSuitableSigningKeys; EBadSignature; EAssertionError; EKeyError; ETypeError; EAttributeError] \/
  (e = EJwsFormatError /\ exists d, loads text = Ok (VDict d) /\ dget d (lit "payload") = None) \/
  exists d pl sg tok hs, loads text = Ok (VDict d) /\ dget d (lit "payload") = Some pl /\ one_signature d sg /\ json_token pl sg = Ok (tok, hs) /\ key_refused P hs e.
Proof. intros P s text ks an sigalg e Q NE SK H. destruct (verify_json_raises P s text ks an sigalg e Q NE SK H) as [[V|I]|R]; tauto. Qed.
Print Assumptions C276_raises.
Theorem C276_no_payload : forall P s text keys an sigalg d, loads text = Ok (VDict d) -> dget d (lit "payload") = None -> verify_json P s (VStr text) keys an sigalg = Raise EJwsFormatError.
Proof. exact no_payload. Qed.
Print Assumptions C276_no_payload.

(** Every one of these is raised by some text. *)
Definition thrown (t : ustr) : option exn := match verify_json std new_jws (VStr t) (Some [ex_key]) false VNone with Ok _ => None | Raise e => Some e end.
Definition quoted (l : list ustr) : ustr := concat (map (fun t => map (fun c => if c =? 39 then 34 else c) t) l).
Example C276_ex : thrown (lit "x") = Some EJSONDecodeError /\ thrown (lit "{}") = Some EJwsFormatError /\ thrown (lit "[]") = Some ETypeError /\
  thrown (quoted [lit "{'payload':1,'signature':'a'}"]) = Some EAttributeError /\ thrown (quoted [lit "{'payload':'a'}"]) = Some EKeyError /\
  thrown (quoted [lit "{'payload':'a','signature':'a','protected':'*'}"]) = Some EBadSyntax /\
  thrown (quoted [lit "{'payload':'aGk.aGk','signature':'aGk','protected':'eyJhbGciOiJIUzI1NiJ9'}"]) = Some EWrongNumberOfParts /\
  thrown (quoted [lit "{'payload':'aGk','signature':'aGk','protected':'eyJhbGciOiJIUzI1NiJ9'}"]) = Some EBadSignature /\
  thrown (quoted [lit "{'payload':'aGk','signature':'aGk','protected':'eyJhbGciOiJSUzI1NiJ9'}"]) = Some ENoSuitableSigningKeys /\
  thrown (quoted [lit "{'payload':'aGk','signature':'aGk','protected':'eyJhbGciOiJIUzI1NiJ9','header':{'jwk':{'kty':'EC','crv':'P-0','x':'AQ','y':'AQ'}}}"]) = Some EECCException.
Proof. vm_compute. repeat split. Qed.
