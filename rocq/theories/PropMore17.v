(** * C278: what sign_compact can raise *)
From Coq Require Import ZArith List Bool Lia.
From Verif Require Import Base Utf8 Codec Json Jwt Prims Inst Elliptic Ecc Jwk JwkProofs JwkEx Jws JwsEx SignRaise.
Import ListNotations.
Open Scope Z_scope.

Theorem C278_raises : forall P E s ks protected e, ks <> [] -> snd (sign_compact P E s (Some ks) protected) = Raise e ->
  (is_ValueError e = true \/ In e [ENoSuitableSigningKeys; EUnknownAlgorithm; ETypeError; EAttributeError]) \/
  (exists sc h k o m, p_rsa_sign P sc h k o m = Raise e) \/
  (e = EOverflowError /\ exists k v, In k ks /\ get_key k true = Ok (MObj (OVal v)) /\ ((exists t, v = VStr t) \/ exists b, v = VBytes b)) \/
  (e = OutOfFuel /\ exists a, In a [lit "ES256"; lit "ES384"; lit "ES512"] /\ snd (pick_alg s (Some ks)) = VStr a).
Proof. exact sign_compact_raises. Qed.
Print Assumptions C278_raises.

(** Every one of these is raised by some input. *)
Definition with_alg (a : pval) (m : ustr) : jws := {| s_msg := VStr m; s_dict := [(lit "alg", a)]; s_jwk := None; s_jwt := None; s_key := None |}.
Definition an_ec (d : pval) : jwk := match k_data ex_ec with DEc o n x y _ c => fields (VStr (lit "EC")) (VStr []) (VStr (lit "sig")) (VStr []) (DEc o n x y d c) | _ => ex_ec end.
Definition sthrown (a : pval) (m : ustr) (k : jwk) (p : dict) : option exn := match snd (sign_compact std ex_E (with_alg a m) (Some [k]) p) with Ok _ => None | Raise e => Some e end.
Example C278_ex : sthrown (VStr (lit "HS256")) (lit "hello") ex_key [] = None /\
  sthrown (VStr (lit "RS256")) (lit "hello") ex_key [] = Some ENoSuitableSigningKeys /\ sthrown (VStr (lit "NONE")) (lit "hello") ex_key [] = Some EUnknownAlgorithm /\
  sthrown (VInt 5) (lit "hello") ex_key [] = Some EAttributeError /\ sthrown (VStr (lit "HS256")) (lit "hello") ex_key [(lit "self", VInt 1)] = Some ETypeError /\
  sthrown (VStr (lit "HS256")) [55296] ex_key [] = Some EUnicodeEncodeError /\ sthrown (VStr (lit "ES256")) (lit "hello") (an_ec VNone) [] = Some EValueError /\ sthrown (VStr (lit "ES256")) (lit "hello") (an_ec (VStr (lit "1"))) [] = Some EOverflowError.
Proof. vm_compute. repeat split. Qed.
