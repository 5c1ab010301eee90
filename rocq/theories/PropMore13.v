(** * C274: secrets and numbers of keys given as JSON values of any type *)
From Coq Require Import ZArith List Bool Lia.
From Verif Require Import Base Utf8 Codec Json Jwt Prims Inst Ecc Jwk Members.
Import ListNotations.
Open Scope Z_scope.

Theorem C274_secret : forall kw s, dmem kw (lit "self") = false -> let v := kwarg kw (lit "k") (VStr []) in truthy v = true ->
  ((exists k k1, sym_new kw VNone = Ok k /\ k_data k = DSym (VBytes s) k1) <-> exists b, stands_for v b /\ b64d b = Ok s).
Proof. exact secret_read. Qed.
Print Assumptions C274_secret.
Theorem C274_none : forall kw, dmem kw (lit "self") = false -> truthy (kwarg kw (lit "k") (VStr [])) = false -> exists k, sym_new kw VNone = Ok k /\ k_data k = DSym VNone (kwarg kw (lit "k") (VStr [])).
Proof. exact no_secret. Qed.
Print Assumptions C274_none.
Theorem C274_raises : forall kw, dmem kw (lit "self") = false ->
  match kwarg kw (lit "k") (VStr []) with
  | VBool true => sym_new kw VNone = Raise EBadSyntax
  | VInt z => (0 < z -> sym_new kw VNone = Raise EBadSyntax) /\ (z < 0 -> sym_new kw VNone = Raise EValueError)
  | VFloat f => truthy (VFloat f) = true -> sym_new kw VNone = Raise ETypeError
  | VDict (_ :: _) => sym_new kw VNone = Raise ETypeError
  | VList l => forall l1 b x l2, l = l1 ++ x :: l2 -> Forall2 octet l1 b ->
      ((forall z, x <> VInt z /\ forall c, x <> VBool c) -> sym_new kw VNone = Raise ETypeError) /\ (forall z, x = VInt z -> ~ 0 <= z < 256 -> sym_new kw VNone = Raise EValueError)
  | _ => True
  end.
Proof. exact secret_raises. Qed.
Print Assumptions C274_raises.
Theorem C274_number : forall v z, deser v = Ok z <-> exists b, stands_for v b /\ base64_to_long_b b = Ok z.
Proof. exact number_read. Qed.
Print Assumptions C274_number.
Example C274_ex : stands_for (VList [VInt 97; VInt 71; VInt 107]) (lit "aGk") /\
  (exists k, sym_new [(lit "k", VList [VInt 97; VInt 71; VInt 107])] VNone = Ok k /\ k_data k = DSym (VBytes (lit "hi")) (VList [VInt 97; VInt 71; VInt 107])) /\
  sym_new [(lit "k", VInt 7)] VNone = Raise EBadSyntax /\ sym_new [(lit "k", VList [VInt 97; VInt 256])] VNone = Raise EValueError /\ sym_new [(lit "k", VList [VInt 97; VStr (lit "G")])] VNone = Raise ETypeError /\
  deser (VList [VInt 65; VInt 81; VInt 65; VInt 66]) = Ok 65537 /\ deser (VInt 3) = Raise EValueError.
Proof.
  split; [change (lit "aGk") with [97; 71; 107]; cbn [stands_for]; repeat (constructor; [split; [lia|left; reflexivity]|]); constructor|]. split; [eexists; split; vm_compute; reflexivity|].
  vm_compute. repeat split.
Qed.
