(** * Key identifiers that are not text: what Python takes for false, and True and 1 (jws.py:388-412, jwk.py:402-408, 892-893) *)
From Coq Require Import ZArith List Bool Lia.
From Verif Require Import Base BaseProofs Utf8 Codec Json Jwt Prims Rsa Ecc Jwk Jws.
Import ListNotations.
Open Scope Z_scope.

(** What Python takes for false among the values of JSON: null, false, 0, 0.0, the empty text, list and object. *)
Inductive void : pval -> Prop :=
| void_none : void VNone | void_false : void (VBool false) | void_zero : void (VInt 0)
| void_float : forall m e, (forall c, In c m -> c = 45 \/ c = 46 \/ c = 48) -> (e = [] \/ exists x r, e = x :: r /\ (x = 101 \/ x = 69)) -> void (VFloat (m ++ e))
| void_text : void (VStr []) | void_octets : void (VBytes []) | void_list : void (VList []) | void_object : void (VDict []).

Lemma float_zero : forall m e, (forall c, In c m -> c = 45 \/ c = 46 \/ c = 48) -> (e = [] \/ exists x r, e = x :: r /\ (x = 101 \/ x = 69)) -> float_truthy (m ++ e) = false.
Proof.
  induction m as [|c m IH]; intros e M E; cbn [app].
  - destruct E as [->|(x & r & -> & [-> | ->])]; reflexivity.
  - cbn [float_truthy]. destruct (M c (or_introl eq_refl)) as [-> | [-> | ->]]; cbn; apply IH; try exact E; intros d D; apply M; right; exact D.
Qed.
Lemma float_nonzero : forall m d r, (forall c, In c m -> c = 45 \/ c = 46 \/ c = 48) -> 49 <= d <= 57 -> float_truthy (m ++ d :: r) = true.
Proof.
  induction m as [|c m IH]; intros d r M D; cbn [app float_truthy].
  - replace (d =? 101) with false by lia. replace (d =? 69) with false by lia. replace (49 <=? d) with true by lia. replace (d <=? 57) with true by lia. reflexivity.
  - destruct (M c (or_introl eq_refl)) as [-> | [-> | ->]]; cbn; apply IH; try exact D; intros x X; apply M; right; exact X.
Qed.
Lemma void_falsy : forall v, void v -> truthy v = false.
Proof. intros v H. destruct H; try reflexivity. cbn [truthy]. apply float_zero; assumption. Qed.
(** and nothing else: a float literal has a mantissa and possibly an exponent *)
Lemma falsy_void : forall v, (forall t, v = VFloat t -> exists m e, t = m ++ e /\ (forall c, In c m -> c = 45 \/ c = 46 \/ 48 <= c <= 57) /\ (e = [] \/ exists x r, e = x :: r /\ (x = 101 \/ x = 69))) -> truthy v = false -> void v.
Proof.
  intros v F H. destruct v as [|[]|z|t|[|]|[|]|[|]|[|]]; try discriminate H; try constructor.
  - cbn [truthy] in H. destruct z; try discriminate H. constructor.
  - destruct (F t eq_refl) as (m & e & -> & M & E). constructor; [|exact E]. clear F. induction m as [|c m IH]; [intros c []|].
    cbn [truthy app float_truthy] in H. destruct (M c (or_introl eq_refl)) as [->|[->|R]].
    + cbn in H. intros d [<-|D]; [left; reflexivity|]. apply IH; [exact H|intros x X; apply M; right; exact X|exact D].
    + cbn in H. intros d [<-|D]; [right; left; reflexivity|]. apply IH; [exact H|intros x X; apply M; right; exact X|exact D].
    + replace (c =? 101) with false in H by lia. replace (c =? 69) with false in H by lia. destruct ((49 <=? c) && (c <=? 57)) eqn:B; [discriminate H|].
      assert (c = 48) as -> by lia. cbn in H. intros d [<-|D]; [right; right; reflexivity|]. apply IH; [exact H|intros x X; apply M; right; exact X|exact D].
Qed.

Lemma fits_void : forall v use alg k, truthy v = false -> key_fits v use alg k = key_fits VNone use alg k.
Proof. intros v use alg k H. unfold key_fits. rewrite H. reflexivity. Qed.
Lemma pick_kid : forall s s' keys use alg v v', s_dict s' = s_dict s \/ (dget (s_dict s') (lit "alg") = dget (s_dict s) (lit "alg")) -> kid_in_force s = Ok v -> kid_in_force s' = Ok v' ->
  (forall a k, key_fits v use a k = key_fits v' use a k) -> pick_keys s keys use alg = pick_keys s' keys use alg.
Proof.
  intros s s' keys use alg v v' D K K' F. assert (A : dget (s_dict s') (lit "alg") = dget (s_dict s) (lit "alg")) by (destruct D as [->|D]; [reflexivity|exact D]).
  unfold pick_keys. rewrite A. destruct (if truthy alg then _ else _) as [a|e]; [|reflexivity]. cbn [bind]. destruct (pval_eqb a _); [reflexivity|].
  destruct (alg2keytype a) as [[t|]|]; try reflexivity. cbn [bind]. destruct (real_keys keys) as [ks|]; [|reflexivity]. cbn [bind]. rewrite K, K'. cbn [bind].
  f_equal. apply filter_ext. intro k. apply F.
Qed.
(** a kid that Python takes for false restricts nothing *)
Theorem void_kid : forall s j h h' v keys use alg, dget (s_dict s) (lit "kid") = None -> j_headers j = VDict h -> dget h (lit "kid") = Some v -> void v -> dget h' (lit "kid") = None ->
  pick_keys (set_jwt s j) keys use alg = pick_keys (set_jwt s {| j_headers := VDict h'; j_b64 := j_b64 j; j_part := j_part j |}) keys use alg.
Proof.
  intros s j h h' v keys use alg D J H V H'. apply (pick_kid _ _ keys use alg v VNone).
  - left. reflexivity.
  - unfold kid_in_force. cbn [set_jwt s_dict s_jwt]. rewrite D, J. cbn [py_get]. rewrite H. reflexivity.
  - unfold kid_in_force. cbn [set_jwt s_dict s_jwt j_headers]. rewrite D. cbn [py_get]. rewrite H'. reflexivity.
  - intros a k. apply fits_void. apply void_falsy. exact V.
Qed.
(** true and 1 are the same kid *)
Lemma eqb_true_1 : forall (b : bool) v, pval_eqb (VBool b) v = pval_eqb (VInt (if b then 1 else 0)) v.
Proof. intros b v. destruct v; try reflexivity. cbn [pval_eqb]. destruct b, b0; reflexivity. Qed.
Theorem true_kid : forall s s' keys use alg (b : bool), dget (s_dict s') (lit "alg") = dget (s_dict s) (lit "alg") -> kid_in_force s = Ok (VBool b) -> kid_in_force s' = Ok (VInt (if b then 1 else 0)) ->
  pick_keys s keys use alg = pick_keys s' keys use alg.
Proof.
  intros s s' keys use alg b D K K'. apply (pick_kid s s' keys use alg _ _ (or_intror D) K K'). intros a k. unfold key_fits. rewrite eqb_true_1. destruct b; reflexivity.
Qed.
Theorem true_by_kid : forall ks (b : bool), keys_by_kid ks (VBool b) = keys_by_kid ks (VInt (if b then 1 else 0)).
Proof. intros ks b. unfold keys_by_kid. apply filter_ext. intro k. apply eqb_true_1. Qed.

(** numbers given as lists: true and false are the octets 1 and 0 *)
Definition plain (v : pval) : pval := match v with VBool b => VInt (if b then 1 else 0) | v => v end.
Lemma octets_plain : forall l, octets l = octets (map plain l).
Proof. induction l as [|v l IH]; [reflexivity|]. cbn [octets map]. rewrite IH. destruct v; reflexivity. Qed.
Theorem deser_plain : forall l, deser (VList l) = deser (VList (map plain l)).
Proof. intro l. unfold deser. cbn [py_bytes]. rewrite <- octets_plain. reflexivity. Qed.
Theorem bool_written : forall b : bool, num_to_base64 (VBool b) = (t <- long_to_base64 (if b then 1 else 0);; Ok (VStr t)).
Proof. intro b. reflexivity. Qed.
