(** * JWE: further keys at the end of the list *)
From Coq Require Import ZArith List Bool Lia.
From Verif Require Import Base BaseProofs Codec Json Jwt Prims Elliptic Ecc Extra Jwk JwkProofs Jws JwsProofs JwsProofs2 JwsProofs11 Jwe JweProofs JweProofs2 JweProofs3.
Import ListNotations.
Open Scope Z_scope.

Lemma dec_loop_app : forall A P alg (dec : nat -> material -> res A) ks more i x, dec_loop P alg dec ks i = Ok x -> dec_loop P alg dec (ks ++ more) i = Ok x.
Proof.
  induction ks as [|k ks IH]; intros more i x H; [discriminate H|]. cbn [app dec_loop] in *.
  destruct (key_material P k alg false) as [m|]; [|discriminate H]. cbn [bind] in *.
  destruct (dec i m) as [y|e]; [exact H|]. destruct e; try discriminate H; apply IH; exact H.
Qed.
Lemma cek_first_app : forall A cek (m r r' : res A) x, (r = Ok x -> r' = Ok x) -> cek_first cek m r = Ok x -> cek_first cek m r' = Ok x.
Proof.
  intros A cek m r r' x R H. unfold cek_first in *. destruct (is_nil cek); [auto|]. destruct m as [y|e]; [exact H|]. destruct e; auto.
Qed.

Theorem jwe_more_keys : forall P sent w token ks more alg cek m w', ks <> [] -> jwe_decrypt P sent w token (Some ks) alg cek = Ok (m, w') ->
  jwe_decrypt P sent w token (Some (ks ++ more)) alg cek = Ok (m, w').
Proof.
  intros P sent w token ks more alg cek m w' NE H. unfold jwe_decrypt in *.
  destruct (if truthy token then unpack token else match w_jwt w with Some j => Ok j | None => Raise EException end) as [j|]; [|discriminate H]. cbn [bind] in *.
  destruct (py_get (j_headers j) (lit "alg")) as [a|]; [|discriminate H]. cbn [bind] in *. destruct (truthy alg && negb (pval_eqb alg a)); [discriminate H|].
  assert (J1 : jws_keys P (as_jws w) (Some ks) = Ok (map Some ks)) by (destruct ks; [contradiction NE; reflexivity|reflexivity]).
  assert (J2 : jws_keys P (as_jws w) (Some (ks ++ more)) = Ok (map Some (ks ++ more))) by (destruct ks; [contradiction NE; reflexivity|reflexivity]).
  rewrite J1 in H. rewrite J2. cbn [bind] in *.
  destruct (pick_keys (as_jws w) (map Some ks) (VStr (lit "enc")) a) as [l|] eqn:PK; [|discriminate H]. destruct (pick_app _ _ more _ _ _ PK) as (l' & ->). cbn [bind] in *.
  destruct (is_nil l && is_nil cek) eqn:N; [discriminate H|].
  assert (N' : is_nil (l ++ l') && is_nil cek = false) by (destruct l; [cbn in N |- *; rewrite N; apply andb_false_r|reflexivity]). rewrite N'.
  destruct (family_of a) as [[| |]|]; [| | |discriminate H]; cbn [bind] in *.
  - match type of H with bind ?r _ = _ => destruct r as [[m1 c1]|] eqn:C; [|discriminate H] end. eapply cek_first_app in C; [rewrite C; exact H|]. apply dec_loop_app.
  - match type of H with bind ?r _ = _ => destruct r as [m1|] eqn:C; [|discriminate H] end. eapply cek_first_app in C; [rewrite C; exact H|]. apply dec_loop_app.
  - destruct l as [|k l]; [discriminate H|]. cbn [app]. destruct (ec_dec_setup P j k) as [ck|]; [|discriminate H]. cbn [bind] in *.
    match type of H with bind ?r _ = _ => destruct r as [m1|] eqn:C; [|discriminate H] end. eapply cek_first_app in C; [rewrite C; exact H|].
    change (k :: l ++ l') with ((k :: l) ++ l'). apply dec_loop_app.
Qed.
