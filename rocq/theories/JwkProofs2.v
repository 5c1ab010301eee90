(** * Proofs about keys: leakage, equality, thumbprints, hashes, key sets *)
From Coq Require Import ZArith List Bool Lia ZifyBool Permutation.
From Verif Require Import Base BaseProofs Utf8 Codec CodecProofs Json JsonProofs Jwt JwtProofs Prims Elliptic Ecc PvalEq Jwk JwkProofs.
Import ListNotations.
Open Scope Z_scope.

(** ** Public serialization *)

Definition same_annotations (a b : jwk) : Prop :=
  k_kty a = k_kty b /\ k_alg a = k_alg b /\ k_use a = k_use b /\ k_kid a = k_kid b.

(** The keys have the same public part: annotations and public numbers agree; private numbers, cached key objects and
    everything else may differ.  (Not for symmetric keys.) *)
Definition same_public (a b : jwk) : Prop :=
  same_annotations a b /\
  match k_data a, k_data b with
  | DRsa k1 n1, DRsa k2 n2 => otruthy k1 = otruthy k2 /\ num n1 (lit "n") = num n2 (lit "n") /\ num n1 (lit "e") = num n2 (lit "e")
  | DEc _ crv1 x1 y1 _ c1, DEc _ crv2 x2 y2 _ c2 => crv1 = crv2 /\ x1 = x2 /\ y1 = y2 /\ c1 = c2
  | _, _ => False
  end.

Lemma common_same : forall a b, same_annotations a b -> common a = common b.
Proof. intros a b [A [B [C D]]]. unfold common. rewrite A, B, C, D. reflexivity. Qed.

Theorem serialize_public : forall a b, same_public a b -> serialize a false = serialize b false.
Proof.
  intros a b [A H]. apply common_same in A. unfold serialize.
  destruct (k_data a), (k_data b); try contradiction.
  - destruct H as [H1 [H2 H3]]. rewrite H1, A. cbn [add_nums]. rewrite H2, H3. reflexivity.
  - destruct H as [-> [-> [-> ->]]]. rewrite A. cbn [andb]. reflexivity.
Qed.

Theorem dump_public : forall l m, Forall2 same_public l m -> dump_jwks l = dump_jwks m.
Proof.
  intros l m H. unfold dump_jwks. f_equal. induction H as [|a b l m Hab Hlm IH]; [reflexivity|]. cbn [mapM]. rewrite (serialize_public a b Hab), IH. reflexivity.
Qed.

(** make_public_copy depends on the public part only ... *)
Definition same_public_x (a b : jwk) : Prop := same_public a b /\ k_x5c a = k_x5c b /\ k_x5t a = k_x5t b /\ k_x5u a = k_x5u b.
Theorem public_copy_public : forall a b, same_public_x a b -> make_public_copy a = make_public_copy b.
Proof.
  intros a b [[[A [B [C D]]] H] [X1 [X2 X3]]]. unfold make_public_copy. rewrite A, B, C, D, X1, X2, X3.
  destruct (k_data a), (k_data b); try contradiction.
  - destruct H as [_ [H2 H3]]. rewrite H2, H3. reflexivity.
  - destruct H as [-> [-> [-> _]]]. reflexivity.
Qed.
(** ... and an RSA or EC copy has no private number and no key object. *)
Theorem public_copy_no_private : forall k,
  match k_data (make_public_copy k) with
  | DRsa key nums => key = onone /\ (forall n, In n rsa_longs -> n <> lit "n" -> n <> lit "e" -> num nums n = VStr [])
  | DEc key _ _ _ d _ => key = onone /\ d = VStr []
  | DSym key _ => key = VNone
  | DKey key => key = onone
  end.
Proof.
  intro k. unfold make_public_copy. destruct (k_data k); cbn [k_data]; [reflexivity| |split; reflexivity|reflexivity].
  split; [reflexivity|]. intros n I N1 N2. unfold num, kwarg. rewrite !dget_dset_other by congruence.
  unfold rsa_longs in *. cbn [In] in I. repeat (destruct I as [<-|I]; [vm_compute; reflexivity|]). destruct I.
Qed.

(** The copy of an RSA key can still be used: encryption_key rebuilds the public key. *)
Theorem public_copy_usable : forall P k key nums n e r, k_data k = DRsa key nums -> num nums (lit "n") = VInt n -> num nums (lit "e") = VInt e ->
  0 < n -> 0 < e -> p_rsa_construct P [n; e] = Ok r ->
  exists k', rsa_encryption_key P (make_public_copy k) = Ok (ORsa r, k').
Proof.
  intros P k key nums n e r D Hn He N E C. unfold rsa_encryption_key, make_public_copy. rewrite D. cbn [k_data otruthy onone truthy].
  rewrite Hn, He. unfold rsa_deserialize, num, kwarg. rewrite !dget_dset. lits. cbn match. 
  replace (truthy (VInt n)) with true by (cbn; lia). replace (truthy (VInt e)) with true by (cbn; lia). cbn [andb].
  assert (EN : dset (dset (map (fun name => (name, VStr [])) rsa_longs) (lit "n") (VInt n)) (lit "e") (VInt e) =
    [(lit "n", VInt n); (lit "e", VInt e); (lit "d", VStr []); (lit "p", VStr []); (lit "q", VStr []);
    (lit "dp", VStr []); (lit "dq", VStr []); (lit "di", VStr []); (lit "qi", VStr [])]) by reflexivity.
  rewrite EN. clear EN. cbn [deser_nums]. replace (negb (truthy (VInt n)) || is_int (VInt n)) with true by (cbn; rewrite orb_true_r; reflexivity).
  replace (negb (truthy (VInt e)) || is_int (VInt e)) with true by (cbn; rewrite orb_true_r; reflexivity).
  change (negb (truthy (VStr [])) || is_int (VStr [])) with true. cbn match. cbn [bind].
  match goal with |- context [construct_args ?l] => change (construct_args l) with [n; e] end.
  rewrite C. cbn [bind conv_value_error]. eexists. reflexivity.
Qed.

(** ** Thumbprints *)

Lemma esc_b64 : forall t, forallb b64url_char t = true -> concat (map esc_c t) = t.
Proof.
  induction t as [|c t IH]; intro H; [reflexivity|]. cbn [forallb] in H. apply andb_true_iff in H. destruct H as [H1 H2]. cbn [map concat]. rewrite IH by exact H2.
  assert (E : esc_c c = [c]).
  { unfold b64url_char in H1. unfold esc_c. repeat match goal with |- context [if ?b then _ else _] => destruct b eqn:? end; try reflexivity; exfalso; lia. }
  rewrite E. reflexivity.
Qed.

Definition str_member (name val : list Z) : list Z := (34 :: name) ++ (34 :: 58 :: 34 :: val) ++ [34].

Lemma b64_chars_of_num : forall z t, 0 < z -> long_to_base64 z = Ok t -> forallb b64url_char t = true.
Proof.
  intros z t H E. destruct (long_to_base64_spec z H) as [a [s [H1 [H2 [_ [H4 _]]]]]]. rewrite E in H1. injection H1 as ->. subst s. apply b64e_chars. exact H4.
Qed.

Lemma member_b64 : forall n t, forallb b64url_char t = true -> 34 :: n ++ [34; 58] ++ esc_str t = str_member n t.
Proof. intros n t H. unfold str_member, esc_str. rewrite esc_b64 by exact H. cbn. reflexivity. Qed.

(** What is hashed for an RSA key: RFC 7638, section 3.1. *)
Definition rsa_thumb_text (te tn : list Z) : list Z :=
  lit "{""e"":""" ++ te ++ lit """,""kty"":""RSA"",""n"":""" ++ tn ++ lit """}".

Lemma digest_names : forall name h, In (name, h) [(lit "SHA-256", SHA256); (lit "SHA-384", SHA384); (lit "SHA-512", SHA512)] -> digest_hash name = Some h.
Proof. intros name h I. cbn [In] in I. repeat (destruct I as [I|I]; [injection I as <- <-; reflexivity|]). destruct I. Qed.

Lemma utf8_ascii_ok : forall s, ascii s = true -> utf8_encode s = Ok s. Proof. exact utf8_encode_ascii. Qed.

Theorem rsa_thumbprint : forall P k key nums n e tn te name h, k_data k = DRsa key nums -> otruthy key = true -> k_kty k = VStr (lit "RSA") ->
  num nums (lit "n") = VInt n -> num nums (lit "e") = VInt e -> 0 < n -> 0 < e -> long_to_base64 n = Ok tn -> long_to_base64 e = Ok te ->
  In (name, h) [(lit "SHA-256", SHA256); (lit "SHA-384", SHA384); (lit "SHA-512", SHA512)] ->
  thumbprint P k name = Ok (p_hash P h (rsa_thumb_text te tn)).
Proof.
  intros P k key nums n e tn te name h D T Y Hn He Pn Pe Bn Be N. unfold thumbprint, serialize, required. rewrite D, T. cbn [add_nums]. rewrite Hn, He.
  replace (truthy (VInt n)) with true by (cbn; lia). replace (truthy (VInt e)) with true by (cbn; lia).
  unfold num_to_base64. cbn [as_int]. rewrite Bn, Be. cbn [bind].
  pose proof (b64_chars_of_num n tn Pn Bn) as Cn. pose proof (b64_chars_of_num e te Pe Be) as Ce.
  cbn [members_text]. rewrite !dget_dset. lits. cbn match. rewrite common_get. lits. cbn match. rewrite Y. cbn [dumps bind].
  rewrite (digest_names _ _ N). rewrite !member_b64 by first [exact Cn | exact Ce | reflexivity].
  cbn [join]. assert (E : 123 :: (str_member (lit "e") te ++ 44 :: str_member (lit "kty") (lit "RSA") ++ 44 :: str_member (lit "n") tn) ++ [125] = rsa_thumb_text te tn).
  { unfold str_member, rsa_thumb_text. change (lit "{""e"":""") with [123; 34; 101; 34; 58; 34]. change (lit """,""kty"":""RSA"",""n"":""") with [34; 44; 34; 107; 116; 121; 34; 58; 34; 82; 83; 65; 34; 44; 34; 110; 34; 58; 34].
    change (lit """}") with [34; 125]. change (lit "e") with [101]. change (lit "n") with [110]. change (lit "kty") with [107; 116; 121]. change (lit "RSA") with [82; 83; 65].
    rewrite <- ?app_assoc. cbn [app]. rewrite <- ?app_assoc. cbn [app]. rewrite <- ?app_assoc. reflexivity. }
  rewrite E. rewrite utf8_encode_ascii; [reflexivity|]. unfold rsa_thumb_text. rewrite !ascii_app. rewrite (b64url_ascii _ Cn), (b64url_ascii _ Ce). reflexivity.
Qed.

Definition oct_thumb_text (tk : list Z) : list Z := lit "{""k"":""" ++ tk ++ lit """,""kty"":""oct""}".

Theorem sym_thumbprint : forall P k key kk name h, k_data k = DSym (VBytes key) kk -> bytes_ok key = true -> k_kty k = VStr (lit "oct") ->
  In (name, h) [(lit "SHA-256", SHA256); (lit "SHA-384", SHA384); (lit "SHA-512", SHA512)] ->
  thumbprint P k name = Ok (p_hash P h (oct_thumb_text (b64e key))).
Proof.
  intros P k key kk name h D O Y N. unfold thumbprint, serialize, required. rewrite D. cbn [py_bytes bind].
  assert (C : forallb b64url_char (b64e key) = true) by (apply b64e_chars; exact O).
  rewrite as_unicode_ascii by (apply b64url_ascii; exact C).
  cbn [members_text]. rewrite !dget_dset. lits. cbn match. rewrite common_get. lits. cbn match. rewrite Y. cbn [dumps bind].
  rewrite (digest_names _ _ N). rewrite !member_b64 by first [exact C | reflexivity]. cbn [join].
  assert (E : 123 :: (str_member (lit "k") (b64e key) ++ 44 :: str_member (lit "kty") (lit "oct")) ++ [125] = oct_thumb_text (b64e key)).
  { unfold str_member, oct_thumb_text. change (lit "{""k"":""") with [123; 34; 107; 34; 58; 34]. change (lit """,""kty"":""oct""}") with [34; 44; 34; 107; 116; 121; 34; 58; 34; 111; 99; 116; 34; 125].
    change (lit "k") with [107]. change (lit "kty") with [107; 116; 121]. change (lit "oct") with [111; 99; 116].
    rewrite <- ?app_assoc. cbn [app]. rewrite <- ?app_assoc. cbn [app]. rewrite <- ?app_assoc. reflexivity. }
  rewrite E. rewrite utf8_encode_ascii; [reflexivity|]. unfold oct_thumb_text. rewrite !ascii_app. rewrite (b64url_ascii _ C). reflexivity.
Qed.

(** What is hashed for an EC key: the kty member is missing. *)
Definition ec_thumb_text (name tx ty : list Z) : list Z :=
  lit "{""crv"":""" ++ name ++ lit """,""x"":""" ++ tx ++ lit """,""y"":""" ++ ty ++ lit """}".

Theorem ec_thumbprint : forall P k key crv x y d c tx ty name h, k_data k = DEc key crv (VInt x) (VInt y) d (OCurve c) -> named c ->
  0 < x -> 0 < y -> long_to_base64 x = Ok tx -> long_to_base64 y = Ok ty ->
  In (name, h) [(lit "SHA-256", SHA256); (lit "SHA-384", SHA384); (lit "SHA-512", SHA512)] ->
  thumbprint P k name = Ok (p_hash P h (ec_thumb_text (lit "P-" ++ dec (c_bits c)) tx ty)).
Proof.
  intros P k key crv x y d c tx ty name h D Nc X Y Bx By N. unfold thumbprint, serialize, required. rewrite D.
  replace (negb (truthy crv) && negb (otruthy (OCurve c))) with false by (cbn; rewrite andb_false_r; reflexivity).
  unfold num_to_base64. cbn [as_int]. rewrite Bx, By. cbn [bind andb].
  pose proof (b64_chars_of_num x tx X Bx) as Cx. pose proof (b64_chars_of_num y ty Y By) as Cy.
  set (nm := lit "P-" ++ dec (c_bits c)) in *.
  assert (Cn : forallb b64url_char nm = true).
  { unfold named in Nc. fold nm in Nc. unfold by_name in Nc. destruct (zs_eqb nm (lit "P-256")) eqn:E1; [apply zs_eqb_eq in E1; rewrite E1; reflexivity|].
    destruct (zs_eqb nm (lit "P-384")) eqn:E2; [apply zs_eqb_eq in E2; rewrite E2; reflexivity|].
    destruct (zs_eqb nm (lit "P-521")) eqn:E3; [apply zs_eqb_eq in E3; rewrite E3; reflexivity|discriminate]. }
  cbn [members_text]. rewrite !dget_dset. lits. cbn match. rewrite common_get. lits. cbn match. cbn [dumps bind].
  rewrite (digest_names _ _ N). rewrite !member_b64 by assumption. cbn [join].
  assert (E : 123 :: (str_member (lit "crv") nm ++ 44 :: str_member (lit "x") tx ++ 44 :: str_member (lit "y") ty) ++ [125] = ec_thumb_text nm tx ty).
  { unfold str_member, ec_thumb_text. change (lit "{""crv"":""") with [123; 34; 99; 114; 118; 34; 58; 34]. change (lit """,""x"":""") with [34; 44; 34; 120; 34; 58; 34].
    change (lit """,""y"":""") with [34; 44; 34; 121; 34; 58; 34]. change (lit """}") with [34; 125].
    change (lit "crv") with [99; 114; 118]. change (lit "x") with [120]. change (lit "y") with [121].
    rewrite <- ?app_assoc. cbn [app]. rewrite <- ?app_assoc. cbn [app]. rewrite <- ?app_assoc. cbn [app]. rewrite <- ?app_assoc. reflexivity. }
  rewrite E. rewrite utf8_encode_ascii; [reflexivity|]. unfold ec_thumb_text. rewrite !ascii_app.
  rewrite (b64url_ascii _ Cx), (b64url_ascii _ Cy), (b64url_ascii _ Cn). reflexivity.
Qed.

(** ** Equality *)

(** The public members of a key of class RSAKey (tag 1), ECKey (2) or SYMKey (3), in the order of the class. *)
Definition public_view (k : jwk) : option (Z * list pval) :=
  let shared := [k_kty k; k_alg k; k_use k; k_kid k] in
  match k_data k with
  | DKey _ => None
  | DRsa _ nums => Some (1, shared ++ [k_x5c k; k_x5t k; k_x5u k; num nums (lit "n"); num nums (lit "e")])
  | DEc _ crv x y _ _ => Some (2, shared ++ [crv; x; y])
  | DSym _ kk => Some (3, shared ++ [kk])
  end.

Theorem key_eq_view : forall a b t1 l1 t2 l2, public_view a = Some (t1, l1) -> public_view b = Some (t2, l2) ->
  exists r, key_eq a b = Ok r /\ (r = true <-> t1 = t2 /\ Forall2 (fun u v => pval_eqb v u = true) l1 l2).
Proof.
  intros a b t1 l1 t2 l2 A B. unfold public_view, key_eq in *.
  destruct (k_data a), (k_data b); try discriminate; injection A as <- <-; injection B as <- <-;
    (eexists; split; [reflexivity|]); cbn [app];
    try (split; [discriminate|intros [X _]; discriminate X]).
  - rewrite !andb_true_iff. split; [intros; split; [reflexivity|]; repeat constructor; tauto|].
    intros [_ F]. repeat match goal with H : Forall2 _ (_ :: _) _ |- _ => inversion H; clear H; subst end. tauto.
  - rewrite !andb_true_iff. split; [intros; split; [reflexivity|]; repeat constructor; tauto|].
    intros [_ F]. repeat match goal with H : Forall2 _ (_ :: _) _ |- _ => inversion H; clear H; subst end. tauto.
  - rewrite !andb_true_iff. split; [intros; split; [reflexivity|]; repeat constructor; tauto|].
    intros [_ F]. repeat match goal with H : Forall2 _ (_ :: _) _ |- _ => inversion H; clear H; subst end. tauto.
Qed.

Definition plain_key (k : jwk) : Prop := match public_view k with Some (_, l) => Forall (fun v => plain v = true) l | None => False end.

Lemma view_rel_refl : forall l, Forall (fun v => plain v = true) l -> Forall2 (fun u v => pval_eqb v u = true) l l.
Proof. intros l H. induction H; constructor; [apply pval_eqb_refl; assumption|assumption]. Qed.
Lemma view_rel_sym : forall l m, Forall (fun v => plain v = true) l -> Forall (fun v => plain v = true) m ->
  Forall2 (fun u v => pval_eqb v u = true) l m -> Forall2 (fun u v => pval_eqb v u = true) m l.
Proof.
  intros l m A B H. induction H as [|u v l m E F IH]; [constructor|]. inversion A; inversion B; subst. constructor; [|apply IH; assumption].
  apply pval_eqb_sym1; assumption.
Qed.
Lemma view_rel_trans : forall l m n, Forall2 (fun u v => pval_eqb v u = true) l m -> Forall2 (fun u v => pval_eqb v u = true) m n ->
  Forall2 (fun u v => pval_eqb v u = true) l n.
Proof.
  intros l m n H. revert n. induction H as [|u v l m E F IH]; intros n G; inversion G; subst; constructor; [|apply IH; assumption].
  eapply pval_eqb_trans; eassumption.
Qed.

Theorem key_eq_refl : forall a, plain_key a -> key_eq a a = Ok true.
Proof.
  intros a A. unfold plain_key in A. destruct (public_view a) as [[t l]|] eqn:V; [|contradiction].
  destruct (key_eq_view a a _ _ _ _ V V) as [r [E R]]. rewrite E. f_equal. apply R. split; [reflexivity|apply view_rel_refl; exact A].
Qed.
Theorem key_eq_sym : forall a b, plain_key a -> plain_key b -> key_eq a b = key_eq b a.
Proof.
  intros a b A B. unfold plain_key in A, B. destruct (public_view a) as [[t l]|] eqn:V; [|contradiction]. destruct (public_view b) as [[u m]|] eqn:W; [|contradiction].
  destruct (key_eq_view a b _ _ _ _ V W) as [r [E R]]. destruct (key_eq_view b a _ _ _ _ W V) as [s [F S]]. rewrite E, F. f_equal.
  destruct r, s; try reflexivity.
  - destruct (proj1 R eq_refl) as [-> X]. symmetry. apply S. split; [reflexivity|]. apply view_rel_sym; assumption.
  - destruct (proj1 S eq_refl) as [-> X]. apply R. split; [reflexivity|]. apply view_rel_sym; assumption.
Qed.
Theorem key_eq_trans : forall a b c, plain_key a -> plain_key b -> plain_key c -> key_eq a b = Ok true -> key_eq b c = Ok true -> key_eq a c = Ok true.
Proof.
  intros a b c A B C H K. unfold plain_key in *. destruct (public_view a) as [[t l]|] eqn:V; [|contradiction]. destruct (public_view b) as [[u m]|] eqn:W; [|contradiction].
  destruct (public_view c) as [[v n]|] eqn:X; [|contradiction].
  destruct (key_eq_view a b _ _ _ _ V W) as [r [E R]]. destruct (key_eq_view b c _ _ _ _ W X) as [s [F S]]. destruct (key_eq_view a c _ _ _ _ V X) as [q [G Q]].
  rewrite E in H. injection H as ->. rewrite F in K. injection K as ->. rewrite G. f_equal. apply Q.
  destruct (proj1 R eq_refl) as [-> R']. destruct (proj1 S eq_refl) as [-> S']. split; [reflexivity|]. eapply view_rel_trans; eassumption.
Qed.

(** ** Hashes *)

Definition hash_value (P : prims) (k : jwk) : res Z := ' (h, _) <- key_hash P k;; Ok h.

(** A key whose cached parts agree with its public members, as the constructors leave it. *)
Definition coherent (k : jwk) : Prop :=
  k_hash k = None /\ (exists s, k_kty k = VStr s) /\
  match k_data k with
  | DKey _ => False
  | DRsa key nums => otruthy key = true /\ (exists n, num nums (lit "n") = VInt n /\ 0 < n) /\ (exists e, num nums (lit "e") = VInt e /\ 0 < e)
  | DEc _ crv x y _ c => exists x' y' c', x = VInt x' /\ 0 < x' /\ y = VInt y' /\ 0 < y' /\ c = OCurve c' /\ curve_by_name crv = Ok c' /\ named c'
  | DSym key kk => exists s t, key = VBytes s /\ kk = VBytes t /\ t <> [] /\ b64d t = Ok s
  end.

Lemma fresh_hash : forall P k, k_hash k = None -> hash_value P k = (t <- thumbprint P k (lit "SHA-256");; Ok (be2z t)).
Proof.
  intros P k H. unfold hash_value, key_hash, get_hash, add_kid. rewrite H. destruct (truthy (k_kid k)); destruct (thumbprint P k (lit "SHA-256")); reflexivity.
Qed.

Lemma members_text_ext : forall names s1 s2, (forall n, In n names -> dget s1 n = dget s2 n) -> members_text s1 names = members_text s2 names.
Proof.
  induction names as [|n names IH]; intros s1 s2 H; [reflexivity|]. cbn [members_text]. rewrite (H n (or_introl eq_refl)).
  rewrite (IH s1 s2) by (intros; apply H; right; assumption). reflexivity.
Qed.

Lemma named_bits : forall n c, by_name n = Ok c -> lit "P-" ++ dec (c_bits c) = n.
Proof.
  intros n c H. unfold by_name in H. destruct (zs_eqb n (lit "P-256")) eqn:E1; [apply zs_eqb_eq in E1; subst; injection H as <-; vm_compute; reflexivity|].
  destruct (zs_eqb n (lit "P-384")) eqn:E2; [apply zs_eqb_eq in E2; subst; injection H as <-; vm_compute; reflexivity|].
  destruct (zs_eqb n (lit "P-521")) eqn:E3; [apply zs_eqb_eq in E3; subst; injection H as <-; vm_compute; reflexivity|discriminate].
Qed.
Lemma by_name_named : forall n c, by_name n = Ok c -> named c.
Proof. intros n c H. unfold named. rewrite (named_bits n c H). exact H. Qed.

Theorem equal_hash : forall P a b, coherent a -> coherent b -> key_eq a b = Ok true -> hash_value P a = hash_value P b.
Proof.
  intros P a b [Ha [[sa Ka] Ca]] [Hb [[sb Kb] Cb]] E. rewrite !fresh_hash by assumption. f_equal. unfold key_eq in E. rewrite Ka, Kb in E.
  unfold thumbprint, required, serialize.
  destruct (k_data a) as [|key1 n1|key1 crv1 x1 y1 d1 c1|key1 k1]; [contradiction| | |]; destruct (k_data b) as [|key2 n2|key2 crv2 x2 y2 d2 c2|key2 k2]; try discriminate; try contradiction.
  - destruct Ca as [T1 [[z1 [N1 P1]] [w1 [E1 Q1]]]]. destruct Cb as [T2 [[z2 [N2 P2]] [w2 [E2 Q2]]]]. rewrite N1, N2, E1, E2 in E.
    rewrite T1, T2. cbn [add_nums]. rewrite N1, N2, E1, E2. injection E as E. rewrite !andb_true_iff in E. cbn [pval_eqb] in E.
    destruct E as [[[[[[Es _] _] _] _] En] Ee]. apply Z.eqb_eq in En, Ee. apply zs_eqb_eq in Es. subst.
    destruct (num_b64 z1 P1) as [tz [Z1 _]]. destruct (num_b64 w1 Q1) as [tw [W1 _]].
    replace (truthy (VInt z1)) with true by (cbn; lia). replace (truthy (VInt w1)) with true by (cbn; lia). rewrite Z1, W1. cbn [bind].
    rewrite (members_text_ext [lit "e"; lit "kty"; lit "n"] _ (dset (dset (common b) (lit "n") (VStr tz)) (lit "e") (VStr tw))); [reflexivity|].
    intros n I. cbn [In] in I. repeat (destruct I as [<-|I]; [rewrite !dget_dset; lits; cbn match; rewrite ?common_get; lits; cbn match; rewrite ?Ka, ?Kb; reflexivity|]). destruct I.
  - destruct Ca as [x1' [y1' [c1' [-> [X1 [-> [Y1 [-> [B1 M1]]]]]]]]]. destruct Cb as [x2' [y2' [c2' [-> [X2 [-> [Y2 [-> [B2 M2]]]]]]]]].
    injection E as E. rewrite !andb_true_iff in E. destruct E as [[[[[[Es _] _] _] Ec] Ex] Ey]. cbn [pval_eqb] in *. apply Z.eqb_eq in Ex, Ey. apply zs_eqb_eq in Es. subst.
    assert (EC : c1' = c2').
    { unfold curve_by_name in *. destruct crv1, crv2; try discriminate; cbn [pval_eqb] in Ec; apply zs_eqb_eq in Ec; subst; rewrite B1 in B2; injection B2 as <-; reflexivity. }
    subst c2'.
    replace (negb (truthy crv1) && negb (otruthy (OCurve c1'))) with false by (cbn; rewrite andb_false_r; reflexivity).
    replace (negb (truthy crv2) && negb (otruthy (OCurve c1'))) with false by (cbn; rewrite andb_false_r; reflexivity).
    destruct (num_b64 x1' X1) as [tx [Z1 _]]. destruct (num_b64 y1' Y1) as [ty [W1 _]]. rewrite Z1, W1. cbn [bind andb].
    set (nm := VStr (lit "P-" ++ dec (c_bits c1'))).
    rewrite (members_text_ext [lit "crv"; lit "key"; lit "x"; lit "y"] _ (dset (dset (dset (common b) (lit "crv") nm) (lit "x") (VStr tx)) (lit "y") (VStr ty))); [reflexivity|].
    intros n I. cbn [In] in I. repeat (destruct I as [<-|I]; [rewrite !dget_dset; lits; cbn match; rewrite ?common_get; lits; cbn match; rewrite ?Ka, ?Kb; reflexivity|]). destruct I.
  - destruct Ca as [s1 [t1 [-> [-> [N1 D1]]]]]. destruct Cb as [s2 [t2 [-> [-> [N2 D2]]]]]. injection E as E. rewrite !andb_true_iff in E. cbn [pval_eqb] in E.
    destruct E as [[[[Es _] _] _] Et]. apply zs_eqb_eq in Es, Et. subst. rewrite D1 in D2. injection D2 as <-. cbn [py_bytes bind].
    rewrite (members_text_ext [lit "k"; lit "kty"] _ (dset (common b) (lit "k") (as_unicode (VBytes (b64e s1))))); [reflexivity|].
    intros n I. cbn [In] in I. repeat (destruct I as [<-|I]; [rewrite !dget_dset; lits; cbn match; rewrite ?common_get; lits; cbn match; rewrite ?Ka, ?Kb; reflexivity|]). destruct I.
Qed.

(** Hashing a key that has a kid changes neither side of a comparison. *)
Theorem hash_keeps_eq : forall P a b h a', truthy (k_kid a) = true -> key_hash P a = Ok (h, a') ->
  key_eq a' b = key_eq a b /\ key_eq b a' = key_eq b a.
Proof.
  intros P a b h a' K H. assert (E : a' = a \/ exists x, a' = set_hash a x).
  { unfold key_hash, get_hash in H. rewrite K in H. assert (G : forall m, (t <- m;; Ok (be2z t, set_hash a (Some (be2z t)))) = Ok (h, a') -> exists x, a' = set_hash a x).
    { intros [t|e] G; [|discriminate]. cbn in G. injection G as _ <-. eexists. reflexivity. }
    destruct (k_hash a) as [x|]; [|right; exact (G _ H)]. destruct (x =? 0); [right; exact (G _ H)|left]. injection H as _ <-. reflexivity. }
  destruct E as [->|[x ->]]; split; reflexivity.
Qed.

(** Hashing twice gives the same value. *)
Theorem hash_stable : forall P a h a', key_hash P a = Ok (h, a') -> h <> 0 -> key_hash P a' = Ok (h, a').
Proof.
  intros P a h a' H N.
  assert (G : k_hash a' = Some h).
  { unfold key_hash, get_hash, add_kid in H. destruct (k_hash a) as [x|] eqn:X.
    - destruct (x =? 0).
      + destruct (truthy (k_kid a)); destruct (thumbprint P a (lit "SHA-256")); cbn in H; try discriminate; injection H as <- <-; reflexivity.
      + injection H as <- <-. exact X.
    - destruct (truthy (k_kid a)); destruct (thumbprint P a (lit "SHA-256")); cbn in H; try discriminate; injection H as <- <-; reflexivity. }
  unfold key_hash. rewrite G. replace (h =? 0) with false by lia. reflexivity.
Qed.

(** ** Key sets *)

Lemma load_list_app : forall P l ks, load_list P ks l = (ks ++ fst (load_list P [] l), snd (load_list P [] l)).
Proof.
  intros P l. induction l as [|v l IH]; intro ks; cbn [load_list]; [rewrite app_nil_r; reflexivity|].
  destruct (keyrep P v) as [k|e]; [|cbn; rewrite app_nil_r; reflexivity]. rewrite (IH (ks ++ [k])), (IH ([] ++ [k])). cbn [fst snd app]. rewrite <- app_assoc. reflexivity.
Qed.

Theorem step_appends : forall P ks op, keys_step P ks op = (ks ++ fst (keys_step P [] op), snd (keys_step P [] op)).
Proof.
  intros P ks op. assert (LD : forall v, load_dict P ks v = (ks ++ fst (load_dict P [] v), snd (load_dict P [] v))).
  { intro v. unfold load_dict. destruct v; cbn [fst snd]; try (rewrite app_nil_r; reflexivity). destruct (dget d (lit "keys")) as [w|]; [|cbn; rewrite app_nil_r; reflexivity].
    destruct w; try (cbn; rewrite app_nil_r; reflexivity); apply load_list_app. }
  assert (LJ : forall v, load_jwks P ks v = (ks ++ fst (load_jwks P [] v), snd (load_jwks P [] v))).
  { intro v. unfold load_jwks. destruct (loads_any v); [apply LD|cbn; rewrite app_nil_r; reflexivity]. }
  destruct op; cbn [keys_step]; try apply LD; try apply LJ; try reflexivity.
  - destruct (keyrep P item); cbn; rewrite ?app_nil_r; reflexivity.
  - unfold load_from_url. destruct (p_fetch P url); [apply LJ|cbn; rewrite app_nil_r; reflexivity].
  - destruct (jwk_wrap P key use kid); cbn; rewrite ?app_nil_r; reflexivity.
Qed.

Definition run_ops (P : prims) (ops : list keys_op) : list jwk := fold_left (fun ks op => fst (keys_step P ks op)) ops [].

Theorem run_ops_order : forall P ops, run_ops P ops = concat (map (fun op => fst (keys_step P [] op)) ops).
Proof.
  intros P ops. unfold run_ops. assert (G : forall ks, fold_left (fun ks op => fst (keys_step P ks op)) ops ks = ks ++ concat (map (fun op => fst (keys_step P [] op)) ops)).
  { induction ops as [|op ops IH]; intro ks; cbn [fold_left map concat]; [rewrite app_nil_r; reflexivity|]. rewrite IH, step_appends. cbn [fst]. rewrite <- app_assoc. reflexivity. }
  apply (G []).
Qed.

Lemma filter_app' : forall A (f : A -> bool) l m, filter f (l ++ m) = filter f l ++ filter f m.
Proof. intros. apply filter_app. Qed.

Theorem kids_snoc : forall ks k, keys_kids (ks ++ [k]) = keys_kids ks ++ if truthy (k_kid k) then [k_kid k] else [].
Proof. intros. unfold keys_kids. rewrite map_app, filter_app. cbn. destruct (truthy (k_kid k)); reflexivity. Qed.
Theorem by_kid_snoc : forall ks k kid, keys_by_kid (ks ++ [k]) kid = keys_by_kid ks kid ++ if pval_eqb kid (k_kid k) then [k] else [].
Proof. intros. unfold keys_by_kid. rewrite filter_app. cbn. destruct (pval_eqb kid (k_kid k)); reflexivity. Qed.

Lemma mapM_app : forall A B (f : A -> res B) l m, mapM f (l ++ m) = (a <- mapM f l;; b <- mapM f m;; Ok (a ++ b)).
Proof.
  intros A B f l m. induction l as [|x l IH]; cbn [app mapM]; [destruct (mapM f m); reflexivity|].
  destruct (f x); [|reflexivity]. cbn [bind]. rewrite IH. destruct (mapM f l); [|reflexivity]. cbn. destruct (mapM f m); reflexivity.
Qed.

(** Keys whose type is text. *)
Definition kty_text (k : jwk) : Prop := exists s, k_kty k = VStr s.
Definition has_kty (name : ustr) (k : jwk) : bool := match k_kty k with VStr s => zs_eqb s name | _ => false end.

Theorem getitem_filter : forall ks item, Forall kty_text ks ->
  keys_getitem ks item = Ok (filter (fun k => match k_kty k with VStr s => zs_eqb (lower s) (lower item) | _ => false end) ks).
Proof.
  intros ks item H. unfold keys_getitem. assert (E : mapM (fun k => v <- py_lower (k_kty k);; Ok (k, pval_eqb v (VStr (lower item)))) ks =
    Ok (map (fun k => (k, match k_kty k with VStr s => zs_eqb (lower s) (lower item) | _ => false end)) ks)).
  { induction H as [|k ks [s E] H IH]; [reflexivity|]. cbn [mapM map]. rewrite IH, E. reflexivity. }
  rewrite E. cbn [bind]. f_equal. clear. induction ks as [|k ks IH]; [reflexivity|]. cbn [map filter snd].
  destruct (match k_kty k with VStr s => zs_eqb (lower s) (lower item) | _ => false end); cbn [map fst]; rewrite IH; reflexivity.
Qed.

Lemma pval_eqb_strs : forall s v, pval_eqb (VStr s) v = true <-> v = VStr s.
Proof. intros s v. destruct v; cbn; split; intro H; try discriminate; [apply zs_eqb_eq in H; subst; reflexivity|injection H as ->; apply zs_eqb_refl]. Qed.

Lemma existsb_str : forall s l, existsb (pval_eqb (VStr s)) l = true <-> In (VStr s) l.
Proof.
  intros s l. rewrite existsb_exists. split.
  - intros [x [I E]]. apply pval_eqb_strs in E. subst. exact I.
  - intro I. exists (VStr s). split; [exact I|apply pval_eqb_strs; reflexivity].
Qed.

Lemma dedup_spec : forall l seen, Forall (fun v => exists s, v = VStr s) l ->
  NoDup (dedup l seen) /\ forall v, In v (dedup l seen) <-> In v l /\ ~ In v seen.
Proof.
  induction l as [|v l IH]; intros seen H; cbn [dedup]; [split; [constructor|intro v; split; [intros []|intros [[] _]]]|].
  inversion H as [|? ? [s ->] H']; subst. destruct (existsb (pval_eqb (VStr s)) seen) eqn:E.
  - apply existsb_str in E. destruct (IH seen H') as [A B]. split; [exact A|]. intro v. rewrite B. cbn [In]. split; [tauto|].
    intros [[<-|I] N]; [contradiction|tauto].
  - assert (N : ~ In (VStr s) seen) by (intro I; apply existsb_str in I; congruence).
    destruct (IH (seen ++ [VStr s]) H') as [A B]. split.
    + constructor; [|exact A]. rewrite B. intros [_ X]. apply X. apply in_or_app. right. left. reflexivity.
    + intro v. cbn [In]. rewrite B. split.
      * intros [<-|[I X]]; [tauto|]. split; [tauto|]. intro J. apply X. apply in_or_app. tauto.
      * intros [[<-|I] X]; [tauto|]. destruct v as [| | | |s'| | |]; try (right; split; [exact I|]; intro J; apply in_app_or in J; destruct J as [J|[J|[]]]; [contradiction|discriminate]).
        destruct (zs_eq_dec s s') as [->|D]; [left; reflexivity|]. right. split; [exact I|]. intro J. apply in_app_or in J. destruct J as [J|[J|[]]]; [contradiction|]. injection J as J. contradiction.
Qed.

Theorem key_types_spec : forall ks, Forall kty_text ks -> exists l, keys_types ks = Ok l /\ NoDup l /\ forall t, In t l <-> exists k, In k ks /\ k_kty k = t.
Proof.
  intros ks H. unfold keys_types. replace (forallb (fun k => hashable (k_kty k)) ks) with true.
  - exists (dedup (map k_kty ks) []). split; [reflexivity|]. destruct (dedup_spec (map k_kty ks) []) as [A B].
    + rewrite Forall_map. exact H.
    + split; [exact A|]. intro t. rewrite B, in_map_iff. split.
      * intros [[k [E I]] _]. exists k. tauto.
      * intros [k [I E]]. split; [exists k; tauto|intros []].
  - symmetry. apply forallb_forall. intros k I. rewrite Forall_forall in H. destruct (H k I) as [s E]. rewrite E. reflexivity.
Qed.

(** ** as_dict *)

(** RSA and EC in either case, everything else in lower case. *)
Definition norm_name (s : ustr) : ustr :=
  if zs_eqb s (lit "RSA") || zs_eqb s (lit "rsa") then lit "RSA"
  else if zs_eqb s (lit "EC") || zs_eqb s (lit "ec") then lit "EC"
  else lower s.

Lemma norm_kty_name : forall s, norm_kty (VStr s) = Ok (VStr (norm_name s)).
Proof.
  intro s. unfold norm_kty, norm_name. cbn [existsb pval_eqb].
  destruct (zs_eqb s (lit "RSA")) eqn:E1; [apply zs_eqb_eq in E1; subst; reflexivity|].
  destruct (zs_eqb s (lit "EC")) eqn:E2; [apply zs_eqb_eq in E2; subst; reflexivity|].
  destruct (zs_eqb s (lit "oct")) eqn:E3; [apply zs_eqb_eq in E3; subst; reflexivity|].
  destruct (zs_eqb s (lit "rsa")) eqn:E4; [apply zs_eqb_eq in E4; subst; reflexivity|].
  destruct (zs_eqb s (lit "ec")) eqn:E5; [apply zs_eqb_eq in E5; subst; reflexivity|]. reflexivity.
Qed.

Definition has_norm (t : pval) (k : jwk) : bool := match k_kty k with VStr s => pval_eqb (VStr (norm_name s)) t | _ => false end.

Definition partition (m : list (pval * list jwk)) (ks : list jwk) : Prop :=
  NoDup (map fst m) /\ (forall t l, In (t, l) m -> l = filter (has_norm t) ks /\ l <> []) /\
  (forall k s, In k ks -> k_kty k = VStr s -> In (VStr (norm_name s)) (map fst m)) /\
  Permutation (concat (map snd m)) ks.

Lemma group_add_fst : forall m s k, (exists t, In t (map fst m) /\ t = VStr s) -> map fst (group_add m (VStr s) k) = map fst m.
Proof.
  induction m as [|[t l] m IH]; intros s k [t' [I E]]; [destruct I|]. cbn [group_add]. destruct (pval_eqb t (VStr s)) eqn:Q; [reflexivity|]. cbn. f_equal. apply IH.
  exists t'. split; [|exact E]. destruct I as [I|I]; [|exact I]. cbn in I. subst. rewrite (proj2 (pval_eqb_strs s (VStr s)) eq_refl) in Q. discriminate.
Qed.
Lemma eqb_str_r : forall v s, pval_eqb v (VStr s) = true <-> v = VStr s.
Proof. intros v s. destruct v; cbn; split; intro H; try discriminate; [apply zs_eqb_eq in H; subst; reflexivity|injection H as ->; apply zs_eqb_refl]. Qed.
Lemma group_add_fresh : forall m s k, ~ In (VStr s) (map fst m) -> group_add m (VStr s) k = m ++ [(VStr s, [k])].
Proof.
  induction m as [|[t l] m IH]; intros s k N; [reflexivity|]. cbn [group_add]. destruct (pval_eqb t (VStr s)) eqn:Q.
  - apply eqb_str_r in Q. subst. exfalso. apply N. left. reflexivity.
  - cbn. f_equal. apply IH. intro I. apply N. right. exact I.
Qed.
Lemma group_add_In : forall m s k t l, NoDup (map fst m) -> In (VStr s) (map fst m) -> In (t, l) (group_add m (VStr s) k) ->
  (t = VStr s /\ exists l0, In (t, l0) m /\ l = l0 ++ [k]) \/ (t <> VStr s /\ In (t, l) m).
Proof.
  induction m as [|[t0 l0] m IH]; intros s k t l N M I; [destruct M|]. cbn [map fst] in N, M. inversion N as [|? ? N1 N2]; subst. cbn [group_add] in I.
  destruct (pval_eqb t0 (VStr s)) eqn:Q.
  - apply eqb_str_r in Q. subst t0. destruct I as [I|I].
    + injection I as <- <-. left. split; [reflexivity|]. exists l0. split; [left; reflexivity|reflexivity].
    + right. split; [|right; exact I]. intro X. subst t. apply N1. apply in_map_iff. exists (VStr s, l). split; [reflexivity|exact I].
  - assert (X : t0 <> VStr s) by (intro X; apply eqb_str_r in X; congruence). destruct I as [I|I].
    + injection I as <- <-. right. split; [exact X|left; reflexivity].
    + destruct M as [M|M]; [contradiction|]. destruct (IH s k t l N2 M I) as [[A [l1 [B C]]]|[A B]].
      * left. split; [exact A|]. exists l1. split; [right; exact B|exact C].
      * right. split; [exact A|right; exact B].
Qed.
Lemma group_add_perm : forall m t k, Permutation (concat (map snd (group_add m t k))) (concat (map snd m) ++ [k]).
Proof.
  induction m as [|[t0 l0] m IH]; intros t k; [apply Permutation_refl|]. cbn [group_add]. destruct (pval_eqb t0 t); cbn [map snd concat].
  - rewrite <- !app_assoc. apply Permutation_app_head. apply Permutation_app_comm.
  - rewrite <- app_assoc. apply Permutation_app_head. apply IH.
Qed.

Lemma as_dict_loop_spec : forall ks m pre, Forall kty_text ks -> partition m pre -> exists m', as_dict_loop m ks = Ok m' /\ partition m' (pre ++ ks).
Proof.
  induction ks as [|k ks IH]; intros m pre H Pm; [exists m; split; [reflexivity|rewrite app_nil_r; exact Pm]|].
  inversion H as [|? ? [s K] H']; subst. cbn [as_dict_loop]. rewrite K, norm_kty_name. cbn [bind].
  set (ns := norm_name s).
  destruct (IH (group_add m (VStr ns) k) (pre ++ [k]) H') as [m' [A B]]; [|exists m'; split; [exact A|rewrite <- app_assoc in B; exact B]].
  destruct Pm as [N [F [C Pe]]].
  assert (HN : forall t, has_norm t k = pval_eqb (VStr ns) t) by (intro t; unfold has_norm; rewrite K; reflexivity).
  assert (Old : forall t l, In (t, l) m -> t <> VStr ns -> l = filter (has_norm t) (pre ++ [k])).
  { intros t l I D. rewrite filter_app. cbn [filter]. rewrite HN. destruct (pval_eqb (VStr ns) t) eqn:Q; [apply pval_eqb_strs in Q; contradiction|].
    rewrite app_nil_r. exact (proj1 (F t l I)). }
  assert (DI : In (VStr ns) (map fst m) \/ ~ In (VStr ns) (map fst m)).
  { destruct (existsb (pval_eqb (VStr ns)) (map fst m)) eqn:Q; [left; apply existsb_str; exact Q|right; intro X; apply existsb_str in X; congruence]. }
  destruct DI as [I|I].
  - split; [|split; [|split]].
    + rewrite group_add_fst by (exists (VStr ns); tauto). exact N.
    + intros t l J. destruct (group_add_In m ns k t l N I J) as [[-> [l0 [J0 ->]]]|[D J0]].
      * split; [|intro X; destruct l0; discriminate]. rewrite filter_app. cbn [filter]. rewrite HN, (proj2 (pval_eqb_strs ns (VStr ns)) eq_refl). f_equal. exact (proj1 (F _ _ J0)).
      * split; [apply Old; assumption|exact (proj2 (F _ _ J0))].
    + intros k' s' J K'. rewrite group_add_fst by (exists (VStr ns); tauto). apply in_app_or in J. destruct J as [J|[<-|[]]]; [apply (C k' s'); assumption|].
      rewrite K in K'. injection K' as <-. exact I.
    + eapply Permutation_trans; [apply group_add_perm|]. apply Permutation_app_tail. exact Pe.
  - rewrite group_add_fresh by exact I. split; [|split; [|split]].
    + rewrite map_app. cbn [map fst]. apply NoDup_rev in N. apply (Permutation_NoDup (l := VStr ns :: map fst m)); [apply Permutation_cons_append|]. constructor; [exact I|]. rewrite <- rev_involutive. apply NoDup_rev. exact N.
    + intros t l J. apply in_app_or in J. destruct J as [J|[J|[]]].
      * split; [|exact (proj2 (F _ _ J))]. apply Old; [exact J|]. intro X. subst t. apply I. apply in_map_iff. exists (VStr ns, l). tauto.
      * injection J as <- <-. split; [|discriminate]. rewrite filter_app. cbn [filter]. rewrite HN, (proj2 (pval_eqb_strs ns (VStr ns)) eq_refl).
        assert (Z : filter (has_norm (VStr ns)) pre = []).
        { destruct (filter (has_norm (VStr ns)) pre) as [|k' r] eqn:Q; [reflexivity|]. exfalso. assert (X : In k' (filter (has_norm (VStr ns)) pre)) by (rewrite Q; left; reflexivity).
          apply filter_In in X. destruct X as [X1 X2]. unfold has_norm in X2. destruct (k_kty k') as [| | | |s'| | |] eqn:K'; try discriminate. apply pval_eqb_strs in X2. apply I. rewrite X2. apply (C k' s'); assumption. }
        rewrite Z. reflexivity.
    + intros k' s' J K'. rewrite map_app. apply in_or_app. apply in_app_or in J. destruct J as [J|[<-|[]]]; [left; apply (C k' s'); assumption|right].
      rewrite K in K'. injection K' as <-. left. reflexivity.
    + rewrite map_app, concat_app. cbn. apply Permutation_app_tail. exact Pe.
Qed.

Theorem as_dict_partition : forall ks, Forall kty_text ks -> exists m, as_dict ks = Ok m /\ partition m ks.
Proof.
  intros ks H. apply (as_dict_loop_spec ks [] [] H). split; [constructor|]. split; [intros t l []|]. split; [intros k s []|constructor].
Qed.

(** ** Symmetric encryption keys *)

Theorem enc_key_ok : forall P k key kk alg n, hash_law P -> k_data k = DSym (VBytes key) kk -> bytes_ok key = true -> key <> [] ->
  In (alg, n) [(lit "A128KW", 16%nat); (lit "A192KW", 24%nat); (lit "A256KW", 32%nat); (lit "HS256", 32%nat); (lit "HS384", 48%nat); (lit "HS512", 64%nat)] ->
  exists b, sym_encryption_key P k alg = Ok (b, k) /\ length b = n /\ bytes_ok b = true /\
    b = firstn n (p_hash P (if Nat.leb n 32 then SHA256 else if Nat.leb n 48 then SHA384 else SHA512) key).
Proof.
  intros P k key kk alg n L D O NE I. unfold sym_encryption_key. rewrite D.
  replace (truthy (VBytes key)) with true by (destruct key; [contradiction|reflexivity]). cbn [bind].
  assert (T : dget ALG2KEYLEN alg = Some n).
  { cbn [In] in I. repeat (destruct I as [I|I]; [injection I as <- <-; reflexivity|]). destruct I. }
  rewrite T. set (h := if Nat.leb n 32 then SHA256 else if Nat.leb n 48 then SHA384 else SHA512).
  exists (firstn n (p_hash P h key)). destruct (L h key O) as [L1 L2].
  assert (E : set_data k (DSym (VBytes key) kk) = k) by (destruct k; cbn in *; subst; reflexivity).
  rewrite E. split; [reflexivity|]. split; [|split; [apply bytes_ok_firstn; exact L2|reflexivity]].
  apply firstn_length_le. rewrite L1. subst h. cbn [In] in I. repeat (destruct I as [I|I]; [injection I as <- <-; cbn; lia|]). destruct I.
Qed.

Theorem enc_key_other : forall P k key kk alg, k_data k = DSym (VBytes key) kk -> key <> [] ->
  ~ In alg [lit "A128KW"; lit "A192KW"; lit "A256KW"; lit "HS256"; lit "HS384"; lit "HS512"] -> sym_encryption_key P k alg = Raise EKeyError.
Proof.
  intros P k key kk alg D NE N. unfold sym_encryption_key. rewrite D.
  replace (truthy (VBytes key)) with true by (destruct key; [contradiction|reflexivity]). cbn [bind].
  rewrite dget_none_keys; [reflexivity|]. exact N.
Qed.

(** ** A dumped key set can be loaded again *)

Lemma serialize_nodup : forall k p b, serialize k p = Ok (VDict b) -> nodup_keys b = true.
Proof.
  assert (C : forall k, nodup_keys (common k) = true).
  { intro k. unfold common. destruct (truthy (k_use k)), (truthy (k_kid k)), (truthy (k_alg k)); repeat apply dset_nodup; reflexivity. }
  assert (A : forall names acc nums r, nodup_keys acc = true -> add_nums acc nums names = Ok r -> nodup_keys r = true).
  { induction names as [|n names IH]; intros acc nums r N H; cbn [add_nums] in H; [injection H as <-; exact N|].
    destruct (truthy (num nums n)); cbn [bind] in H; [|apply (IH acc nums r N H)]. destruct (num_to_base64 (num nums n)) as [t|]; cbn [bind] in H; [|discriminate].
    refine (IH _ nums r _ H). apply dset_nodup. exact N. }
  intros k p b H. unfold serialize in H. destruct (k_data k) as [|key nums|key crv x y d c|key kk].
  - discriminate.
  - destruct (otruthy key); [|discriminate]. destruct (add_nums (common k) nums [lit "n"; lit "e"]) as [a|] eqn:E; cbn [bind] in H; [|discriminate].
    apply A in E; [|apply C]. destruct p; cbn [bind] in H; [|injection H as <-; exact E]. destruct (add_nums a nums rsa_longs) as [a'|] eqn:E'; cbn [bind] in H; [|discriminate].
    injection H as <-. exact (A _ _ _ _ E E').
  - destruct (negb (truthy crv) && negb (otruthy c)); [discriminate|]. destruct c; try discriminate.
    destruct (num_to_base64 x); cbn [bind] in H; [|discriminate]. destruct (num_to_base64 y); cbn [bind] in H; [|discriminate].
    destruct (p && truthy d); [|injection H as <-; repeat apply dset_nodup; apply C]. destruct (num_to_base64 d); cbn [bind] in H; [|discriminate].
    injection H as <-. repeat apply dset_nodup. apply C.
  - destruct (py_bytes key); cbn [bind] in H; [|discriminate]. injection H as <-. apply dset_nodup. apply C.
Qed.

Lemma jsonable_text : forall b, nodup_keys b = true -> all_text b -> (forall m, In m (dkeys b) -> scalars m = true) -> jsonable (VDict b) = true.
Proof.
  intros b N T K. cbn [jsonable]. rewrite N. cbn. apply forallb_forall. intros [m v] I. cbn [fst snd]. rewrite K by (apply in_map_iff; exists (m, v); tauto).
  unfold all_text in T. rewrite Forall_forall in T. specialize (T _ I). cbn [snd] in T. destruct v; try discriminate T. exact T.
Qed.

(** What a key becomes when it is published with serialize() and read back with keyrep. *)
Definition republished (P : prims) (k k' : jwk) : Prop :=
  match k_data k with
  | DRsa _ nums => exists r, p_rsa_construct P [int_of (num nums (lit "n")); int_of (num nums (lit "e"))] = Ok r /\
      k' = fields (k_kty k) (k_alg k) (k_use k) (k_kid k) (DRsa (ORsa r) (public_nums nums))
  | DEc _ _ x y _ (OCurve c) => k' = fields (k_kty k) (k_alg k) (k_use k) (k_kid k) (DEc onone (VBytes (lit "P-" ++ dec (c_bits c))) x y (VStr []) (OCurve c))
  | DSym (VBytes s) _ => k' = fields (k_kty k) (k_alg k) (k_use k) (k_kid k) (DSym (VBytes s) (VBytes (b64e s)))
  | _ => False
  end.

(** Keys that can be published. *)
Definition publishable (P : prims) (k : jwk) : Prop :=
  annotated k /\
  match k_data k with
  | DRsa key nums => k_kty k = VStr (lit "RSA") /\ otruthy key = true /\ rsa_nums_ok nums /\
      truthy (num nums (lit "n")) = true /\ truthy (num nums (lit "e")) = true /\
      exists r, p_rsa_construct P [int_of (num nums (lit "n")); int_of (num nums (lit "e"))] = Ok r
  | DEc _ _ x y _ c => k_kty k = VStr (lit "EC") /\ exists x' y' c', x = VInt x' /\ 0 < x' /\ y = VInt y' /\ 0 < y' /\ c = OCurve c' /\ named c'
  | DSym key _ => k_kty k = VStr (lit "oct") /\ exists s, key = VBytes s /\ bytes_ok s = true /\ s <> []
  | DKey _ => False
  end.

Lemma lits_scalars : forall l, forallb scalars l = true -> forall m, In m l -> scalars m = true.
Proof. intros l H m I. rewrite forallb_forall in H. exact (H m I). Qed.

Lemma publish_one : forall P k, publishable P k -> exists b k', serialize k false = Ok (VDict b) /\ jsonable (VDict b) = true /\ keyrep P (VDict b) = Ok k' /\ republished P k k'.
Proof.
  intros P k [A H]. unfold republished. destruct (k_data k) as [|key nums|key crv x y d c|key kk] eqn:D; [contradiction| | |].
  - destruct H as [Y [T [N [Tn [Te [r C]]]]]]. destruct (rsa_roundtrip_public P k key nums r D T N A Y Tn Te C) as [b [S [B R]]].
    exists b, (fields (k_kty k) (k_alg k) (k_use k) (k_kid k) (DRsa (ORsa r) (public_nums nums))). split; [exact S|]. split; [|split; [exact R|exists r; split; [exact C|reflexivity]]].
    apply jsonable_text; [apply (serialize_nodup k false b S)|exact B|]. destruct (rsa_ser_public k key nums D T N A) as [b' [S' [_ [K _]]]]. rewrite S in S'. injection S' as <-.
    intros m I. apply (lits_scalars (four ++ rsa_longs)); [vm_compute; reflexivity|]. apply in_or_app. exact (K m I).
  - destruct H as [Y [x' [y' [c' [-> [X [-> [Y' [-> M]]]]]]]]].
    destruct (ec_ser k key crv x' y' d c' false D X Y') as [b [S [B [K _]]]]; [discriminate|exact M|exact A|].
    destruct (ec_roundtrip P k key crv x' y' d c' false D X Y') as [s [S' R]]; [discriminate|exact M|exact A|exact Y|]. rewrite S in S'. injection S' as <-.
    eexists b, _. split; [exact S|]. split; [|split; [exact R|reflexivity]].
    apply jsonable_text; [apply (serialize_nodup k false b S)|exact B|]. intros m I. apply (lits_scalars (four ++ ec_names false)); [vm_compute; reflexivity|]. apply in_or_app. exact (K m I).
  - destruct H as [Y [s [-> [O NE]]]]. destruct (sym_roundtrip P k s kk D O NE A Y) as [v [S R]].
    assert (S0 : serialize k false = serialize k true) by (unfold serialize; rewrite D; reflexivity).
    assert (Ab : ascii (b64e s) = true) by (apply b64e_ascii; exact O).
    assert (E : serialize k true = Ok (VDict (dset (common k) (lit "k") (VStr (b64e s))))).
    { unfold serialize. rewrite D. cbn [py_bytes bind]. rewrite as_unicode_ascii by exact Ab. reflexivity. }
    rewrite E in S. injection S as <-. eexists _, _. split; [rewrite S0; exact E|]. split; [|split; [exact R|reflexivity]].
    apply jsonable_text; [apply (serialize_nodup k true _ E)|apply all_text_dset; [apply common_text; exact A|apply scalars_ascii; exact Ab]|].
    intros m I. apply dkeys_dset in I. apply (lits_scalars (four ++ [lit "k"])); [vm_compute; reflexivity|]. apply in_or_app. destruct I as [I| ->]; [left; apply common_keys in I; exact I|right; left; reflexivity].
Qed.

Theorem dump_load : forall P ks, Forall (publishable P) ks -> exists t ks', dump_jwks ks = Ok t /\ load_jwks P [] (VStr t) = (ks', None) /\ Forall2 (republished P) ks ks'.
Proof.
  intros P ks H.
  assert (G : exists bs ks', mapM (fun k => s <- serialize k false;; b2s_conv s) ks = Ok bs /\ forallb jsonable bs = true /\
    (forall acc, load_list P acc bs = (acc ++ ks', None)) /\ Forall2 (republished P) ks ks').
  { induction H as [|k ks Hk Hks [bs [ks' [E1 [E2 [E3 E4]]]]]].
    - exists [], []. split; [reflexivity|]. split; [reflexivity|]. split; [intro acc; cbn; rewrite app_nil_r; reflexivity|constructor].
    - destruct (publish_one P k Hk) as [b [k' [S [J [R Q]]]]]. exists (VDict b :: bs), (k' :: ks'). split; [|split; [|split]].
      + cbn [mapM]. rewrite S. cbn [bind]. rewrite b2s_id by exact J. cbn [bind]. rewrite E1. reflexivity.
      + cbn [forallb]. rewrite J, E2. reflexivity.
      + intro acc. cbn [load_list]. rewrite R, E3. rewrite <- app_assoc. reflexivity.
      + constructor; assumption. }
  destruct G as [bs [ks' [E1 [E2 [E3 E4]]]]]. unfold dump_jwks. rewrite E1. cbn [bind].
  destruct (loads_dumps true (VDict [(lit "keys", VList bs)])) as [t [T1 [T2 T3]]].
  { cbn [jsonable]. cbn [forallb nodup_keys fst snd dmem dget]. cbn [jsonable]. rewrite E2. reflexivity. }
  exists t, ks'. split; [exact T1|]. split; [|exact E4]. unfold load_jwks. cbn [loads_any]. rewrite T3. unfold load_dict. cbn [dget]. lits. cbn match. apply (E3 []).
Qed.

(** ** Certificates *)

Lemma key_init_x5 : forall kw dflt c data k, key_init kw dflt c data = Ok k ->
  k_x5c k = (let x := kwarg kw (lit "x5c") VNone in if truthy x then x else VList []) /\ k_x5t k = kwarg kw (lit "x5t") (VStr []) /\ k_data k = data.
Proof. intros kw dflt c data k H. unfold key_init in H. destruct (dmem kw (lit "self")); [discriminate|]. injection H as <-. repeat split. Qed.

Lemma rsa_split_num : forall r nums, exists nums', rsa_split (ORsa r) nums = Ok nums' /\
  num nums' (lit "n") = VInt (r_n r) /\ num nums' (lit "e") = VInt (r_e r).
Proof.
  intros r nums. unfold rsa_split, num, kwarg. eexists. split; [reflexivity|].
  destruct (r_d r) as [d|]; [destruct (r_pq r) as [[p q]|]; [destruct (p =? 0), (q =? 0)|]|]; rewrite !dget_dset; lits; cbn match; split; reflexivity.
Qed.

Theorem x5t_checked : forall P kw k s rest t, dget kw (lit "n") = None -> dget kw (lit "x5c") = Some (VList (VStr s :: rest)) ->
  dget kw (lit "x5t") = Some (VStr t) -> t <> [] -> rsa_new P kw onone = Ok k ->
  exists der h r nums, a2b s 0 0 0 = Ok der /\ b64d t = Ok h /\ h = p_hash P SHA1 der /\ p_der2rsa P der = Ok r /\ k_data k = DRsa (ORsa r) nums /\
    num nums (lit "n") = VInt (r_n r) /\ num nums (lit "e") = VInt (r_e r).
Proof.
  intros P kw k s rest t Hn Hc Ht NE H. unfold rsa_new in H.
  set (nums := map (fun name => (name, kwarg kw name (VStr []))) rsa_longs) in H.
  destruct (key_init kw (lit "RSA") rsa_longs (DRsa onone nums)) as [k0|] eqn:K; cbn [bind] in H; [|discriminate].
  apply key_init_x5 in K. destruct K as [X1 [X2 X3]]. unfold kwarg in X1, X2. rewrite Hc in X1. rewrite Ht in X2. cbn [truthy] in X1. cbv zeta in X1.
  assert (En : num nums (lit "n") = VStr []) by (unfold nums; rewrite num_map by (left; reflexivity); unfold kwarg; rewrite Hn; reflexivity).
  rewrite En in H. cbn [py_len length bind] in H. change (0 <? 0)%nat with false in H. cbv iota in H. cbn [bind] in H. rewrite X1, X2 in H. cbn [py_len length bind] in H.
  change (negb (otruthy onone) && ((0 <? 0)%nat || (0 <? S (length rest))%nat)) with true in H. cbv iota in H.
  unfold rsa_deserialize in H. rewrite En in H. cbn [truthy andb first_cert] in H. unfold ascii_encode in H.
  destruct (ascii s); cbn [bind] in H; [|discriminate]. destruct (a2b s 0 0 0) as [der|] eqn:A; cbn [bind] in H; [|discriminate].
  destruct t as [|c t]; [contradiction|]. cbv iota in H. destruct (ascii (c :: t)) eqn:At; cbn [bind] in H; [|discriminate].
  destruct (b64d (c :: t)) as [h|] eqn:B; cbn [bind] in H; [|discriminate]. destruct (zs_eqb h (p_hash P SHA1 der)) eqn:E; cbn [bind] in H; [|discriminate].
  apply zs_eqb_eq in E. destruct (p_der2rsa P der) as [r|] eqn:R; cbn [bind] in H; [|discriminate]. destruct (rsa_split_num r nums) as [nums' [S1 [S2 S3]]]. rewrite S1 in H. cbn [bind] in H. injection H as <-.
  exists der, h, r, nums'. split; [reflexivity|]. split; [reflexivity|]. split; [exact E|]. split; [exact R|]. split; [reflexivity|]. split; assumption.
Qed.

Theorem x5t_unloadable : forall P s t der, ascii s = true -> a2b s 0 0 0 = Ok der -> scalars t = true -> t <> [] ->
  keyrep P (VDict [(lit "kty", VStr (lit "RSA")); (lit "x5c", VList [VStr s]); (lit "x5t", VStr t)]) = Raise EAttributeError.
Proof.
  intros P s t der A B S NE. unfold keyrep. cbn [enc_values as_bytes]. unfold utf8_encode at 1. change (scalars (lit "RSA")) with true. cbv iota. cbn [bind].
  unfold utf8_encode. rewrite S. cbn [bind dget]. lits. cbn match. unfold dispatch. rewrite pval_eqb_str. lits. cbn match.
  unfold kwarg at 1. cbn [dget]. lits. cbn match. unfold rsa_new, key_init, dmem. cbn [dget]. lits. cbn match. cbn [bind].
  rewrite !num_map by (unfold rsa_longs; cbn [In]; tauto). unfold kwarg. cbn [dget]. lits. cbn match. cbn [py_len length bind k_x5c truthy].
  change (0 <? 0)%nat with false. cbv iota. cbn [bind otruthy truthy negb andb k_x5c py_len length]. change ((0 <? 0)%nat || (0 <? 1)%nat) with true. cbv iota.
  unfold rsa_deserialize. rewrite !num_map by (unfold rsa_longs; cbn [In]; tauto). cbn [dget]. lits. cbn match. cbn [truthy andb k_x5c k_x5t first_cert]. unfold ascii_encode. rewrite A. cbn [bind]. rewrite B. cbn [bind].
  assert (T : exists c r, concat (map utf8_enc_c t) = c :: r).
  { destruct t as [|c t]; [contradiction|]. cbn. pose proof (utf8_enc_c_nonnil c). destruct (utf8_enc_c c) as [|x y]; [congruence|]. exists x, (y ++ concat (map utf8_enc_c t)). reflexivity. }
  destruct T as [c [r T]]. rewrite T. reflexivity.
Qed.
