(** * Example keys used beside the properties of keys *)
From Coq Require Import ZArith List Bool.
From Verif Require Import Base Elliptic Ecc Prims Inst Nist EcAux Jwk JwkProofs.
Import ListNotations.
Open Scope Z_scope.

(** A (tiny) RSA key: 61 * 53, e = 17, d = 2753. *)
Definition ex_nums : dict := map (fun n => (n,
  if zs_eqb n (lit "n") then VInt 3233 else if zs_eqb n (lit "e") then VInt 17 else if zs_eqb n (lit "d") then VInt 2753
  else if zs_eqb n (lit "p") then VInt 61 else if zs_eqb n (lit "q") then VInt 53 else VStr [])) rsa_longs.
Definition ex_rsakey : rsakey := {| r_n := 3233; r_e := 17; r_d := Some 2753; r_pq := Some (61, 53) |}.
Definition ex_rsa : jwk := fields (VStr (lit "RSA")) (VStr (lit "RS256")) (VStr (lit "sig")) (VStr (233 :: lit "1")) (DRsa (ORsa ex_rsakey) ex_nums).

Definition ex_x5c : jwk :=
  {| k_kty := k_kty ex_rsa; k_alg := k_alg ex_rsa; k_use := k_use ex_rsa; k_kid := k_kid ex_rsa; k_x5c := VList [VStr (lit "MIIB")];
     k_x5t := VStr (lit "abc"); k_x5u := VStr (lit "https://example.com/"); k_extra := [(lit "foo", VInt 1)]; k_hash := None; k_data := k_data ex_rsa |}.

(** The generator of P-256 with private value 1. *)
Definition ex_ec : jwk := fields (VStr (lit "EC")) (VStr []) (VStr (lit "enc")) (VStr (lit "ec1"))
  (DEc onone (VStr (lit "P-256")) (VInt (fst (c_G P256))) (VInt (snd (c_G P256))) (VInt 1) (OCurve P256)).

Definition ex_sym : jwk := fields (VStr (lit "oct")) (VStr (lit "HS256")) (VStr []) (VStr []) (DSym (VBytes (lit "secret")) (VBytes (lit "c2VjcmV0"))).

(** As SYMKey(key=...) leaves it. *)
Definition raw_sym (s : bytes) : jwk := fields (VStr (lit "oct")) (VStr []) (VStr []) (VStr []) (DSym (VBytes s) (VStr [])).

Definition with_kid (k : jwk) (kid : pval) : jwk := set_kid k kid.

Lemma ex_nums_ok : rsa_nums_ok ex_nums.
Proof.
  split; [reflexivity|]. intros n I. unfold rsa_longs in I. cbn [In] in I. unfold posnum.
  repeat (destruct I as [<-|I]; [vm_compute; first [left; reflexivity|right; eexists; split; [|reflexivity]; reflexivity]|]). destruct I.
Qed.
Lemma P256_named : named P256.
Proof. vm_compute. reflexivity. Qed.
