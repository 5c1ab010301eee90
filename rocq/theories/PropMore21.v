(** * C283, C284: which values can be packed and which key sets dumped *)
From Coq Require Import ZArith List Bool Lia.
From Verif Require Import Base Utf8 Codec Json Jwt TextProofs Prims Jwk JwkProofs JwkEx Encodable.
Import ListNotations.
Open Scope Z_scope.

(** A part or header that can be packed: octets, a text without surrogates, null, or a list or dictionary in which no fraction occurs
    and every octet string is UTF-8. *)
Definition can_pack (v : pval) : Prop :=
  match v with
  | VBytes _ => True
  | VStr s => Forall scalar s
  | VInt _ | VBool _ | VFloat _ => False
  | _ => convertible v
  end.
Theorem C283_item : forall v, (exists s, b64encode_item v = Ok s) <-> can_pack v.
Proof.
  intro v. rewrite item_iff. destruct v as [|b|z|f|s|b|l|d]; try reflexivity. cbn [packs can_pack]. split.
  - intros [b E]. pose proof (utf8_encode_fails s EUnicodeEncodeError) as X. rewrite E in X. destruct (scalars s) eqn:S.
    + apply Forall_forall. intros c I. unfold scalars in S. rewrite forallb_forall in S. specialize (S c I). unfold is_scalar in S. unfold scalar. lia.
    + exfalso. assert (N : ~ Forall scalar s).
      { intro F. assert (scalars s = true); [|congruence]. unfold scalars. apply forallb_forall. intros c I. rewrite Forall_forall in F. specialize (F c I). unfold scalar in F. unfold is_scalar. lia. }
      discriminate (proj2 X (conj eq_refl N)).
  - intro F. destruct (utf8_encode s) as [b|e] eqn:E; [eauto|]. apply utf8_encode_fails in E. destruct E as [_ N]. contradiction.
Qed.
Print Assumptions C283_item.
(** pack returns exactly if all parts and the header can be packed: the one given, else that of the instance, else the default. *)
Theorem C283_pack : forall j parts headers h, parts <> [] -> (forall b, In (VBytes b) (h :: parts) -> bytes_ok b = true) ->
  h = (if truthy headers then headers else if truthy (j_headers j) then j_headers j else VDict [(lit "alg", VStr (lit "none"))]) ->
  ((exists t j', pack j parts headers = Ok (t, j')) <-> Forall can_pack (h :: parts)).
Proof.
  intros j parts headers h NE W ->. rewrite (pack_iff j parts headers NE W). fold (header_in_force j headers). split; intro F; (eapply Forall_impl; [|exact F]); intros v; rewrite <- item_iff, <- C283_item; trivial.
Qed.
Print Assumptions C283_pack.
Example C283_ex : let ok := fun v => match b64encode_item v with Ok _ => true | Raise _ => false end in
  ok (VDict [(lit "a", VList [VInt 1; VBytes (lit "x"); VStr [55296]])]) = true /\ ok (VStr [55296]) = false /\ ok (VInt 1) = false /\ ok VNone = true /\
  ok (VDict [(lit "exp", VFloat (lit "1.5"))]) = false /\ ok (VList [VBytes [255]]) = false /\ ok (VBytes [255]) = true.
Proof. vm_compute. repeat split. Qed.

(** The constructor returns exactly if its parameters can be packed, alg being replaced by null if it is missing or false. *)
Theorem C283_constructor : forall d, (exists j, jwt_init d = Ok j) <->
  can_pack (VDict (if match dget d (lit "alg") with Some v => truthy v | None => false end then d else dset d (lit "alg") VNone)).
Proof.
  intro d. rewrite <- C283_item. unfold jwt_init. cbv zeta. split.
  - intros [j H]. match type of H with (bind (b64encode_item ?h) _) = _ => destruct (b64encode_item h) as [e|] eqn:E; [|discriminate H] end. exists e. rewrite <- E. reflexivity.
  - intros [e E]. match goal with |- exists j, (bind (b64encode_item ?h) _) = _ => replace (b64encode_item h) with (Ok e) by (rewrite <- E; reflexivity) end. cbn [bind].
    unfold b64encode_item in E. match type of E with (bind ?m _) = _ => destruct m as [v|]; [cbn [bind] in E|discriminate E] end. match type of E with (bind ?m _) = _ => destruct m as [t|]; [cbn [bind] in E|discriminate E] end.
    destruct (utf8_encode t) as [b|] eqn:U; [|discriminate E]. injection E as <-. rewrite (CodecProofs.b64d_b64e _ (utf8_encode_ok _ _ U)). cbn [bind]. eauto.
Qed.
Print Assumptions C283_constructor.
Example C283_constructor_ex : (exists j, jwt_init [(lit "alg", VFloat (lit "0.0"))] = Ok j) /\ jwt_init [(lit "alg", VFloat (lit "0.5"))] = Raise EValueError.
Proof. split; [eexists; vm_compute; reflexivity|vm_compute; reflexivity]. Qed.

(** C284: a key set can be dumped exactly if every key in it can be serialized to a value that can be written. *)
Theorem C284_dump : forall ks, (exists t, dump_jwks ks = Ok t) <-> Forall (fun k => exists v, serialize k false = Ok v /\ convertible v) ks.
Proof. exact dump_iff. Qed.
Print Assumptions C284_dump.
(** So a set can be dumped exactly if each of its keys can be dumped by itself. *)
Theorem C284_each : forall ks, (exists t, dump_jwks ks = Ok t) <-> forall k, In k ks -> exists t, dump_jwks [k] = Ok t.
Proof.
  intro ks. rewrite dump_iff, Forall_forall. split; intros H k I.
  - apply dump_iff. constructor; [exact (H k I)|constructor].
  - pose proof (H k I) as F. apply dump_iff in F. inversion F; assumption.
Qed.
Print Assumptions C284_each.
Definition oct_kid (v kid : pval) : jwk := fields (VStr (lit "oct")) (VStr []) (VStr []) kid (DSym v (VStr [])).
Example C284_ex : let ok := fun ks => match dump_jwks ks with Ok _ => None | Raise e => Some e end in
  let a := oct_kid (VBytes (lit "s")) (VStr []) in
  ok [] = None /\ ok [a] = None /\ ok [a; oct_kid (VStr (lit "s")) (VStr [])] = Some ETypeError /\ ok [oct_kid (VBytes (lit "s")) (VFloat (lit "1.5")); a] = Some EValueError /\
  ok [oct_kid (VBytes (lit "s")) (VBytes (lit "k")); a] = None.
Proof. vm_compute. repeat split. Qed.
