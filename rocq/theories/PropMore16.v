(** * C277: what loading a key from a JSON object can raise *)
From Coq Require Import ZArith List Bool Lia.
From Verif Require Import Base Utf8 Codec Json Jwt Prims Inst Ecc Jwk JwkEx Jws JwsProofs11 JwsEx JsonRaise KeyRaise PropMore15.
Import ListNotations.
Open Scope Z_scope.

Theorem C277_keyrep : forall P spec e, keyrep P spec = Raise e ->
  is_ValueError e = true \/ In e [EAttributeError; EKeyError; ETypeError; EECCException; EDeSerializationNotPossible; EHeaderError; EBadSyntax] \/
  (exists l, p_rsa_construct P l = Raise e) \/ (exists b, p_der2rsa P b = Raise e).
Proof. intros P spec e H. destruct (keyrep_raises P spec e H) as [[V|I]|R]; tauto. Qed.
Print Assumptions C277_keyrep.

(** With an RSA library that refuses with ValueError only, this is all verify_json can raise. *)
Theorem C277_verify_json : forall P s text ks an sigalg e, (forall sc h k m sg x, p_rsa_verify P sc h k m sg = Raise x -> is_ValueError x = true) ->
  (forall l x, p_rsa_construct P l = Raise x -> is_ValueError x = true) -> (forall b x, p_der2rsa P b = Raise x -> is_ValueError x = true) -> ks <> [] -> (forall k, In k ks -> sound_key k) ->
  verify_json P s (VStr text) (Some ks) an sigalg = Raise e ->
  is_ValueError e = true \/
  In e [EBadSyntax; EWrongNumberOfParts; ESignerAlgError; ENoSuitableSigningKeys; EBadSignature; EAssertionError; EKeyError; ETypeError; EAttributeError; EECCException; EDeSerializationNotPossible; EHeaderError] \/
  (e = EJwsFormatError /\ exists d, loads text = Ok (VDict d) /\ dget d (lit "payload") = None).
Proof.
  intros P s text ks an sigalg e Q C D NE SK H. destruct (C276_raises P s text ks an sigalg e Q NE SK H) as [V|[I|[F|(d & pl & sg & tok & hs & _ & _ & _ & _ & KR)]]]; [tauto| |tauto|].
  - right. left. cbn [In] in *. tauto.
  - assert (K : exists v, keyrep P v = Raise e) by (destruct KR as [(x & _ & K)|(t & v & _ & _ & K)]; eexists; exact K). destruct K as [v K].
    destruct (C277_keyrep P v e K) as [V|[I|[(l & L)|(b & B)]]]; [tauto| |left; exact (C _ _ L)|left; exact (D _ _ B)]. right. left. cbn [In] in *. tauto.
Qed.
Print Assumptions C277_verify_json.
Theorem C277_format_error : forall P s text ks an sigalg, (forall sc h k m sg x, p_rsa_verify P sc h k m sg = Raise x -> is_ValueError x = true) ->
  (forall l x, p_rsa_construct P l = Raise x -> is_ValueError x = true) -> (forall b x, p_der2rsa P b = Raise x -> is_ValueError x = true) -> ks <> [] -> (forall k, In k ks -> sound_key k) ->
  (verify_json P s (VStr text) (Some ks) an sigalg = Raise EJwsFormatError <-> exists d, loads text = Ok (VDict d) /\ dget d (lit "payload") = None).
Proof.
  intros P s text ks an sigalg Q C D NE SK. split.
  - intro H. destruct (C277_verify_json P s text ks an sigalg _ Q C D NE SK H) as [V|[I|[_ F]]]; [discriminate V| |exact F]. exfalso. cbn [In] in I. repeat (destruct I as [I|I]; [discriminate I|]). exact I.
  - intros (d & L & N). exact (C276_no_payload P s text (Some ks) an sigalg d L N).
Qed.
Print Assumptions C277_format_error.

Lemma std_refuses : (forall l x, p_rsa_construct std l = Raise x -> is_ValueError x = true) /\ (forall b x, p_der2rsa std b = Raise x -> is_ValueError x = true).
Proof.
  split.
  - intros l x H. change (p_rsa_construct std l) with (rsa_construct l) in H. unfold rsa_construct in H. destruct l as [|n [|e r]]; try (injection H as <-; reflexivity).
    destruct (_ && _); [|injection H as <-; reflexivity]. destruct r as [|d [|p [|q [|]]]]; try discriminate H; try (injection H as <-; reflexivity). destruct (_ && _); [discriminate H|injection H as <-; reflexivity].
  - intros b x H. destruct b as [|e [|c n]]; cbn in H; try (injection H as <-; reflexivity). discriminate H.
Qed.
(** What objects and other values give; the concrete primitives meet the hypotheses. *)
Definition refused (d : dict) : option exn := match keyrep std (VDict d) with Ok _ => None | Raise e => Some e end.
Example C277_ex : ((forall l x, p_rsa_construct std l = Raise x -> is_ValueError x = true) /\ (forall b x, p_der2rsa std b = Raise x -> is_ValueError x = true)) /\ keyrep std (VStr (lit "key")) = Raise EAttributeError /\ refused [] = Some EKeyError /\ refused [(lit "kty", VStr (lit "oct")); (lit "self", VInt 1)] = Some ETypeError /\
  refused [(lit "kty", VStr (lit "EC")); (lit "crv", VStr (lit "P-0")); (lit "x", VStr (lit "AQ")); (lit "y", VStr (lit "AQ"))] = Some EECCException /\
  refused [(lit "kty", VStr (lit "RSA")); (lit "n", VStr (lit "A")); (lit "e", VStr (lit "AQAB"))] = Some EDeSerializationNotPossible /\
  refused [(lit "kty", VStr (lit "oct")); (lit "k", VStr (lit "*"))] = Some EBadSyntax.
Proof. split; [exact std_refuses|]. vm_compute. repeat split. Qed.
