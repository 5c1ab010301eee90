(** * C280: what sign_json can raise *)
From Coq Require Import ZArith List Bool Lia.
From Verif Require Import Base Utf8 Codec Json Jwt Prims Inst Elliptic Ecc Jwk JwkProofs JwkEx Jws JwsEx JsonRaise SignRaise SignJsonRaise.
Import ListNotations.
Open Scope Z_scope.

(** [p] is the protected header of one of the pairs given; without headers there is one, with the algorithm of the instance. *)
Theorem C280_raises : forall P Es s ks headers flatten e, ks <> [] -> sign_json P Es s (Some ks) headers flatten = Raise e ->
  (is_ValueError e = true \/ In e [ENoSuitableSigningKeys; EUnknownAlgorithm; ETypeError; EAttributeError]) \/
  (exists sc h k o m, p_rsa_sign P sc h k o m = Raise e) \/
  (e = EOverflowError /\ exists k v, In k ks /\ get_key k true = Ok (MObj (OVal v)) /\ ((exists t, v = VStr t) \/ exists b, v = VBytes b)) \/
  exists p u, In (p, u) (match headers with Some l => l | None => [([], [])] end) /\
    ((e = OutOfFuel /\ exists a, In a [lit "ES256"; lit "ES384"; lit "ES512"] /\ match dget p (lit "alg") with Some v => Some v | None => dget (s_dict s) (lit "alg") end = Some (VStr a)) \/
     (exists d, dget p (lit "jwk") = Some (VDict d) /\ keyrep P (VDict d) = Raise e) \/
     (exists t v, dget p (lit "jwk") = Some (VStr t) /\ loads t = Ok v /\ keyrep P v = Raise e)).
Proof.
  intros P Es s ks headers flatten e NE H. destruct (sign_json_raises P Es s ks headers flatten e NE H) as [X|(p & u & I & [X|[X|[X|[X|X]]]])]; [left; exact X|left; exact X|right; left; exact X|right; right; left; exact X| |].
  - do 3 right. exists p, u. split; [exact I|left; exact X].
  - do 3 right. exists p, u. split; [exact I|right; exact X].
Qed.
Print Assumptions C280_raises.

(** Every one of these is raised by some input. *)
Definition alg_of (a : pval) (m : pval) : jws := {| s_msg := m; s_dict := [(lit "alg", a)]; s_jwk := None; s_jwt := None; s_key := None |}.
Definition jthrown (a : pval) (m : pval) (k : jwk) (hs : option (list (dict * dict))) : option exn := match sign_json std (fun _ => ex_E) (alg_of a m) (Some [k]) hs true with Ok _ => None | Raise e => Some e end.
Definition hs256 : pval := VStr (lit "HS256").
Definition hi : pval := VStr (lit "hello").
Definition an_ec_key (d : pval) : jwk := match k_data ex_ec with DEc o n x y _ c => fields (VStr (lit "EC")) (VStr []) (VStr (lit "sig")) (VStr []) (DEc o n x y d c) | _ => ex_ec end.
Example C280_ex : jthrown hs256 hi ex_key None = None /\ jthrown hs256 hi ex_key (Some []) = None /\
  jthrown hs256 (VBytes (lit "hello")) ex_key None = Some EAttributeError /\
  jthrown hs256 hi ex_key (Some [([(lit "alg", VStr (lit "RS256"))], [])]) = Some ENoSuitableSigningKeys /\
  jthrown hs256 hi ex_key (Some [([(lit "alg", VStr (lit "NONE"))], [])]) = Some EUnknownAlgorithm /\
  jthrown hs256 hi ex_key (Some [([(lit "msg", VInt 1)], [])]) = Some ETypeError /\
  jthrown hs256 (VStr [55296]) ex_key None = Some EUnicodeEncodeError /\
  jthrown (VStr (lit "ES256")) hi (an_ec_key (VStr (lit "1"))) None = Some EOverflowError /\
  jthrown hs256 hi ex_key (Some [([(lit "jwk", VDict [(lit "kty", VStr (lit "EC")); (lit "crv", VStr (lit "P-0")); (lit "x", VStr (lit "AQ")); (lit "y", VStr (lit "AQ"))])], [])]) = Some EECCException.
Proof. vm_compute. repeat split. Qed.
