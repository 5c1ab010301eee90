(** * C285: key sets with types that are no text *)
From Coq Require Import ZArith List Bool Lia.
From Verif Require Import Base BaseProofs Utf8 Codec Json Jwt Prims Jwk JwkProofs JwkEx.
Import ListNotations.
Open Scope Z_scope.

(** The type of the key is a text or an octet string. *)
Definition named (k : jwk) : Prop := match k_kty k with VStr _ | VBytes _ => True | _ => False end.

Theorem C285_getitem : forall ks item,
  (Forall named ks -> exists l, keys_getitem ks item = Ok l /\ forall k, In k l <-> In k ks /\ exists s, k_kty k = VStr s /\ lower s = lower item) /\
  (~ Forall named ks -> keys_getitem ks item = Raise EAttributeError).
Proof.
  intros ks item. unfold keys_getitem. split.
  - intro F. induction F as [|k ks N F (l & E & I)]; [exists []; split; [reflexivity|]; intro k; split; [intros []|intros [[] _]]|].
    destruct (mapM _ ks) as [m|] eqn:M in E; [|discriminate E]. injection E as <-.
    assert (X : exists v, py_lower (k_kty k) = Ok v /\ (pval_eqb v (VStr (lower item)) = true <-> exists s, k_kty k = VStr s /\ lower s = lower item)).
    { unfold named in N. destruct (k_kty k) as [|b|z|f|s|s|l'|d]; try contradiction; eexists; (split; [reflexivity|]).
      - cbn [pval_eqb]. rewrite zs_eqb_eq. split; [eauto|]. intros (s' & [= <-] & E'). exact E'.
      - cbn [pval_eqb]. split; [discriminate|]. intros (s' & [=] & _). }
    destruct X as (v & P & Q). cbn [mapM]. rewrite P. cbn [bind]. rewrite M. cbn [bind]. eexists. split; [reflexivity|].
    intro k'. cbn [filter snd]. destruct (pval_eqb v (VStr (lower item))) eqn:B; cbn [map fst In].
    + rewrite I. split; [intros [<-|[A C]]; [split; [auto|apply Q; reflexivity]|auto]|]. intros [[A|A] C]; auto.
    + rewrite I. split; [intros [A C]; auto|]. intros [[<-|A] C]; [|auto]. apply Q in C. discriminate C.
  - intro NF. assert (X : mapM (fun k => v <- py_lower (k_kty k);; Ok (k, pval_eqb v (VStr (lower item)))) ks = Raise EAttributeError); [|rewrite X; reflexivity].
    induction ks as [|k ks IH]; [exfalso; apply NF; constructor|]. cbn [mapM].
    assert (D : named k \/ py_lower (k_kty k) = Raise EAttributeError) by (unfold named; destruct (k_kty k); auto).
    destruct D as [N|N]; [|rewrite N; reflexivity]. rewrite IH by (intro F; apply NF; constructor; assumption). unfold named in N. destruct (k_kty k); try contradiction; reflexivity.
Qed.
Print Assumptions C285_getitem.

Theorem C285_as_dict : forall ks, (Forall named ks -> exists m, as_dict ks = Ok m) /\ (~ Forall named ks -> as_dict ks = Raise EAttributeError).
Proof.
  assert (A : forall k, named k -> exists t, norm_kty (k_kty k) = Ok t).
  { intros k N. unfold named in N. unfold norm_kty. destruct (existsb _ _); [eauto|]. destruct (k_kty k) as [|b|z|f|s|s|l'|d]; try contradiction; [|eauto]. destruct (_ || _); eauto. }
  assert (B : forall k, ~ named k -> norm_kty (k_kty k) = Raise EAttributeError) by (intros k N; unfold named in N; unfold norm_kty; destruct (k_kty k); try (exfalso; apply N; exact I); reflexivity).
  intro ks. unfold as_dict. generalize (@nil (pval * list jwk)). induction ks as [|k ks IH]; intro m; cbn [as_dict_loop].
  - split; [eauto|]. intro N. exfalso. apply N. constructor.
  - split.
    + intro F. inversion F as [|? ? N F']; subst. destruct (A k N) as [t E]. rewrite E. cbn [bind]. exact (proj1 (IH _) F').
    + intro NF. assert (D : named k \/ ~ named k) by (unfold named; destruct (k_kty k); auto). destruct D as [N|N]; [|rewrite (B k N); reflexivity].
      destruct (A k N) as [t E]. rewrite E. cbn [bind]. apply (proj2 (IH _)). intro F. apply NF. constructor; assumption.
Qed.
Print Assumptions C285_as_dict.

Theorem C285_key_types : forall ks,
  ((forall k, In k ks -> (forall l, k_kty k <> VList l) /\ forall d, k_kty k <> VDict d) -> exists l, keys_types ks = Ok l) /\
  (forall k, In k ks -> (exists l, k_kty k = VList l) \/ (exists d, k_kty k = VDict d) -> keys_types ks = Raise ETypeError).
Proof.
  intro ks. unfold keys_types. split.
  - intro H. replace (forallb _ ks) with true; [eauto|]. symmetry. apply forallb_forall. intros k I. destruct (H k I) as [A B]. destruct (k_kty k) as [| | | | | |l|d]; try reflexivity; [destruct (A l eq_refl)|destruct (B d eq_refl)].
  - intros k I H. destruct (forallb _ ks) eqn:F; [|reflexivity]. rewrite forallb_forall in F. specialize (F k I). destruct H as [[l E]|[d E]]; rewrite E in F; discriminate F.
Qed.
Print Assumptions C285_key_types.

Definition typed (t : pval) : jwk := fields t (VStr []) (VStr []) (VStr []) (DSym (VBytes (lit "s")) (VStr [])).
Example C285_ex : keys_getitem [typed (VStr (lit "Oct")); typed (VBytes (lit "oct"))] (lit "OCT") = Ok [typed (VStr (lit "Oct"))] /\
  keys_getitem [typed (VStr (lit "oct")); typed VNone] (lit "oct") = Raise EAttributeError /\ as_dict [typed (VInt 1)] = Raise EAttributeError /\
  (exists m, as_dict [typed (VBytes (lit "RSA"))] = Ok [(VBytes (lit "rsa"), m)]) /\ keys_types [typed VNone; typed (VInt 1)] = Ok [VNone; VInt 1] /\ keys_types [typed (VStr []); typed (VList [])] = Raise ETypeError.
Proof. vm_compute. repeat split. eexists. reflexivity. Qed.
