(** * Secrets and numbers of keys given as JSON values of any type (SYMKey.__init__, jwk.py:665-678; deser, jwk.py:402-408) *)
From Coq Require Import ZArith List Bool Lia ZifyBool.
From Verif Require Import Base BaseProofs Utf8 Codec CodecProofs Json Jwt Prims Elliptic Ecc Jwk JwkProofs B64Num B64Exact.
Import ListNotations.
Open Scope Z_scope.

(** [x] is the octet [z]: an integer, or a boolean as 0 or 1. *)
Definition octet (x : pval) (z : Z) : Prop := 0 <= z < 256 /\ (x = VInt z \/ exists c : bool, x = VBool c /\ z = if c then 1 else 0).
(** The octets of base64 text [v] stands for: those of text in UTF-8, of bytes, and the items of a list. *)
Definition stands_for (v : pval) (b : bytes) : Prop :=
  match v with VStr s => utf8_encode s = Ok b | VBytes c => b = c | VList l => Forall2 octet l b | _ => False end.

Lemma octets_iff : forall l b, octets l = Ok b <-> Forall2 octet l b.
Proof.
  induction l as [|v l IH]; intro b; cbn [octets].
  - split; [intro H; injection H as <-; constructor|intro H; inversion H; reflexivity].
  - split.
    + intro H. destruct (as_int v) as [z|] eqn:A; [|discriminate H]. destruct (is_byte z) eqn:Q; [|discriminate H]. destruct (octets l) as [t|] eqn:O; [|discriminate H]. cbn [bind] in H. injection H as <-.
      constructor; [|apply IH; reflexivity]. unfold is_byte in Q. split; [lia|]. destruct v; try discriminate A; cbn [as_int] in A; injection A as <-; [right; eexists; split; reflexivity|left; reflexivity].
    + intro H. inversion H as [|x z l' t O T E1 E2]. subst. destruct O as [R O]. apply IH in T. rewrite T.
      assert (A : as_int v = Some z) by (destruct O as [->|(c & -> & ->)]; reflexivity). rewrite A. replace (is_byte z) with true by (unfold is_byte; lia). reflexivity.
Qed.
Lemma octets_raises : forall l e, octets l = Raise e <-> exists l1 b x l2, l = l1 ++ x :: l2 /\ Forall2 octet l1 b /\
  ((e = ETypeError /\ forall z, x <> VInt z /\ forall c, x <> VBool c) \/ (e = EValueError /\ exists z, x = VInt z /\ ~ 0 <= z < 256)).
Proof.
  induction l as [|v l IH]; intro e; cbn [octets].
  - split; [discriminate|]. intros (l1 & b & x & l2 & E & _). destruct l1; discriminate E.
  - split.
    + intro H. destruct (as_int v) as [z|] eqn:A.
      2: { injection H as <-. exists [], [], v, l. split; [reflexivity|]. split; [constructor|]. left. split; [reflexivity|]. intro z. destruct v; try discriminate A; (split; [discriminate|intros c X; discriminate X]). }
      destruct (is_byte z) eqn:Q.
      * destruct (octets l) as [t|e'] eqn:O; [discriminate H|]. cbn [bind] in H. injection H as <-. destruct (proj1 (IH e') eq_refl) as (l1 & b & x & l2 & E & F & C).
        exists (v :: l1), (z :: b), x, l2. split; [rewrite E; reflexivity|]. split; [|exact C]. constructor; [|exact F]. unfold is_byte in Q. split; [lia|].
        destruct v; try discriminate A; cbn [as_int] in A; injection A as <-; [right; eexists; split; reflexivity|left; reflexivity].
      * injection H as <-. exists [], [], v, l. split; [reflexivity|]. split; [constructor|]. right. split; [reflexivity|]. unfold is_byte in Q. exists z. split; [|lia].
        destruct v as [|c| | | | | | ]; try discriminate A; cbn [as_int] in A; injection A as <-; [destruct c; discriminate Q|reflexivity].
    + intros (l1 & b & x & l2 & E & F & C). destruct l1 as [|v' l1].
      * cbn [app] in E. injection E as -> ->. destruct C as [[-> N]|(-> & z & -> & N)].
        -- destruct x as [|c|z| | | | |]; try reflexivity; [destruct (proj2 (N 0) c eq_refl)|destruct (proj1 (N z) eq_refl)].
        -- cbn [as_int]. replace (is_byte z) with false by (unfold is_byte; lia). reflexivity.
      * cbn [app] in E. injection E as -> ->. inversion F as [|x' z l' t O T E1 E2]. subst. destruct O as [R O].
        assert (A : as_int v' = Some z) by (destruct O as [->|(c & -> & ->)]; reflexivity). rewrite A. replace (is_byte z) with true by (unfold is_byte; lia).
        replace (octets (l1 ++ x :: l2)) with (@Raise bytes e); [reflexivity|]. symmetry. apply IH. exists l1, t, x, l2. split; [reflexivity|]. split; [exact T|exact C].
Qed.

(** b64d refuses octets that begin with zero. *)
Lemma b64d_zero : forall r, b64d (0 :: r) = Raise EBadSyntax.
Proof.
  intro r. apply b64d_bad_syntax. left. intros x nl k F N E. destruct x as [|c x].
  - destruct N as [-> | ->]; [|discriminate E]. cbn [app] in E. destruct k; discriminate E.
  - injection E as E _. apply Forall_inv in F. subst c. unfold url_char in F. lia.
Qed.
(** and base64_to_long reads no number from zeros. *)
Lemma digits64_zeros : forall n, digits64 (repeat 0 n) = [].
Proof. induction n as [|n IH]; [reflexivity|]. cbn [repeat]. exact IH. Qed.
Lemma long_zeros : forall n, base64_to_long_b (repeat 0 n) = Raise EValueError.
Proof.
  intro n. rewrite to_long by (intro H; apply repeat_spec in H; discriminate H). rewrite digits64_zeros. reflexivity.
Qed.

Theorem number_read : forall v z, deser v = Ok z <-> exists b, stands_for v b /\ base64_to_long_b b = Ok z.
Proof.
  intros v z. split.
  - unfold deser. destruct v as [|c|n|f|s|s|l|d]; cbn [py_bytes bind stands_for]; intro H.
    + discriminate H.
    + replace (if c then [0] else []) with (repeat 0 (if c then 1%nat else O)) in H by (destruct c; reflexivity). rewrite long_zeros in H. discriminate H.
    + destruct (n <? 0); [discriminate H|]. cbn [bind] in H. rewrite long_zeros in H. discriminate H.
    + discriminate H.
    + destruct (utf8_encode s) as [b|] eqn:U; [|discriminate H]. cbn [bind] in H. exists b. split; [reflexivity|exact H].
    + exists s. split; [reflexivity|exact H].
    + destruct (octets l) as [b|] eqn:O; [|discriminate H]. cbn [bind] in H. exists b. split; [apply octets_iff; exact O|exact H].
    + destruct d; [|discriminate H]. cbn [bind] in H. pose proof (long_zeros 0) as X. cbn [repeat] in X. rewrite X in H. discriminate H.
  - intros (b & S & L). unfold deser. destruct v as [|c|n|f|s|s|l|d]; cbn [stands_for] in S; try contradiction.
    + rewrite S. cbn [bind]. exact L.
    + subst b. exact L.
    + apply octets_iff in S. cbn [py_bytes]. rewrite S. exact L.
Qed.

Theorem secret_read : forall kw s, dmem kw (lit "self") = false -> let v := kwarg kw (lit "k") (VStr []) in truthy v = true ->
  ((exists k k1, sym_new kw VNone = Ok k /\ k_data k = DSym (VBytes s) k1) <-> exists b, stands_for v b /\ b64d b = Ok s).
Proof.
  intros kw s N v T. unfold sym_new, key_init. fold v. rewrite N. cbn [as_bytes bind truthy negb andb]. rewrite T. cbn match. split.
  - intros (k & k1 & H & D). destruct v as [|c|n|f|t|t|l|d] eqn:V; cbn [as_bytes bind py_bytes stands_for] in H |- *.
    + discriminate H.
    + destruct c; [|discriminate T]. rewrite b64d_zero in H. discriminate H.
    + cbn [truthy] in T. destruct (Z.ltb_spec n 0) as [L|L]; [discriminate H|]. cbn [bind] in H. destruct (Z.to_nat n) as [|m] eqn:M; [lia|]. cbn [repeat] in H. rewrite b64d_zero in H. discriminate H.
    + discriminate H.
    + destruct (utf8_encode t) as [b|] eqn:U; [|discriminate H]. cbn [bind py_bytes] in H. exists b. split; [reflexivity|]. destruct (b64d b) as [s'|]; [|discriminate H]. cbn [bind] in H. injection H as <-. cbn [set_data k_data] in D. congruence.
    + exists t. split; [reflexivity|]. destruct (b64d t) as [s'|]; [|discriminate H]. cbn [bind] in H. injection H as <-. cbn [set_data k_data] in D. congruence.
    + destruct (octets l) as [b|] eqn:O; [|discriminate H]. cbn [bind] in H. exists b. split; [apply octets_iff; exact O|]. destruct (b64d b) as [s'|]; [|discriminate H]. cbn [bind] in H. injection H as <-. cbn [set_data k_data] in D. congruence.
    + destruct d; [discriminate T|discriminate H].
  - intros (b & S & B). destruct v as [|c|n|f|t|t|l|d] eqn:V; cbn [stands_for] in S; try contradiction; cbn [as_bytes bind py_bytes].
    + rewrite S. cbn [bind py_bytes]. rewrite B. cbn [bind]. do 2 eexists. split; reflexivity.
    + subst b. rewrite B. cbn [bind]. do 2 eexists. split; reflexivity.
    + apply octets_iff in S. rewrite S. cbn [bind]. rewrite B. cbn [bind]. do 2 eexists. split; reflexivity.
Qed.
Theorem no_secret : forall kw, dmem kw (lit "self") = false -> truthy (kwarg kw (lit "k") (VStr [])) = false -> exists k, sym_new kw VNone = Ok k /\ k_data k = DSym VNone (kwarg kw (lit "k") (VStr [])).
Proof. intros kw N T. unfold sym_new, key_init. rewrite N. cbn [as_bytes bind]. rewrite T, andb_false_r. eexists. split; reflexivity. Qed.
(** What the other types raise. *)
Theorem secret_raises : forall kw, dmem kw (lit "self") = false ->
  match kwarg kw (lit "k") (VStr []) with
  | VBool true => sym_new kw VNone = Raise EBadSyntax
  | VInt z => (0 < z -> sym_new kw VNone = Raise EBadSyntax) /\ (z < 0 -> sym_new kw VNone = Raise EValueError)
  | VFloat f => truthy (VFloat f) = true -> sym_new kw VNone = Raise ETypeError
  | VDict (_ :: _) => sym_new kw VNone = Raise ETypeError
  | VList l => forall l1 b x l2, l = l1 ++ x :: l2 -> Forall2 octet l1 b ->
      ((forall z, x <> VInt z /\ forall c, x <> VBool c) -> sym_new kw VNone = Raise ETypeError) /\ (forall z, x = VInt z -> ~ 0 <= z < 256 -> sym_new kw VNone = Raise EValueError)
  | _ => True
  end.
Proof.
  intros kw N. unfold sym_new, key_init. rewrite N. cbn [as_bytes bind truthy negb andb]. set (v := kwarg kw (lit "k") (VStr [])). destruct v as [|[|]|z|f|t|t|l|[|kv d]] eqn:V; try exact I.
  - cbn [truthy as_bytes bind py_bytes]. cbn match. rewrite b64d_zero. reflexivity.
  - split; intro Q; cbn [truthy]; (replace (negb (z =? 0)) with true by lia); cbn [as_bytes bind py_bytes].
    + replace (z <? 0) with false by lia. cbn [bind]. destruct (Z.to_nat z) as [|m] eqn:M; [lia|]. cbn [repeat]. rewrite b64d_zero. reflexivity.
    + replace (z <? 0) with true by lia. reflexivity.
  - intro T. cbn [truthy] in *. rewrite T. reflexivity.
  - intros l1 b x l2 E F. assert (T : truthy (VList l) = true) by (rewrite E; destruct l1; reflexivity). rewrite T. cbn [as_bytes bind py_bytes]. split.
    + intro X. rewrite (proj2 (octets_raises l ETypeError)); [reflexivity|]. exists l1, b, x, l2. split; [exact E|]. split; [exact F|]. left. split; [reflexivity|exact X].
    + intros z X R. rewrite (proj2 (octets_raises l EValueError)); [reflexivity|]. exists l1, b, x, l2. split; [exact E|]. split; [exact F|]. right. split; [reflexivity|]. exists z. split; assumption.
  - reflexivity.
Qed.
