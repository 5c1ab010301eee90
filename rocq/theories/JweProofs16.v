(** * JWE: which algorithms are accepted, decrypting what factory has read, recognition of values that are no text *)
From Coq Require Import ZArith List Bool Lia.
From Verif Require Import Base BaseProofs Codec Utf8 Json Jwt Prims Elliptic Ecc Extra PvalEq Jwk JwkProofs Jws JwsProofs JwsProofs2 JwsProofs6 JwsProofs11 Jwe JweProofs JweProofs2 JweProofs3 JweProofs8 JweProofs12 JweProofs15 JweEx.
Import ListNotations.
Open Scope Z_scope.

Lemma starts_app : forall p a, startswith a p = true -> exists r, a = p ++ r.
Proof.
  induction p as [|x p IH]; intros a H; [exists a; reflexivity|]. destruct a as [|y a]; [discriminate H|]. cbn [startswith] in H.
  apply andb_true_iff in H as [H1 H2]. apply Z.eqb_eq in H1. subst y. destruct (IH _ H2) as [r ->]. exists r. reflexivity.
Qed.
Lemma ends_KW_app : forall a, ends_KW a = true -> exists r, a = r ++ lit "KW".
Proof.
  intros a H. destruct (starts_app _ _ H) as [r E]. exists (rev r). rewrite <- (rev_involutive a), E, rev_app_distr, rev_involutive. reflexivity.
Qed.

(** The names that are tried at all, whatever keys and content key are given *)
Theorem alg_forms : forall P sent w token keys alg cek m w', truthy token = true -> jwe_decrypt P sent w token keys alg cek = Ok (m, w') ->
  exists j a, unpack token = Ok j /\ py_get (j_headers j) (lit "alg") = Ok (VStr a) /\
   (In a [lit "RSA-OAEP"; lit "RSA-OAEP-256"; lit "RSA1_5"] \/ (exists r, a = lit "A" ++ r ++ lit "KW") \/ exists r, a = lit "ECDH-ES" ++ r).
Proof.
  intros P sent w token keys alg cek m w' T H. destruct (decrypt_accepts P _ _ _ _ _ _ _ _ T H) as (j & a & f & m0 & U & HA & _ & F & _).
  exists j, a. split; [exact U|]. split; [exact HA|]. unfold family_of in F. destruct (in_texts (VStr a) _) eqn:I.
  - left. unfold in_texts in I. cbn [existsb pval_eqb] in I. rewrite !orb_true_iff, !zs_eqb_eq in I. cbn [In]. destruct I as [->|[->|[->|I]]]; [auto|auto|auto|discriminate I].
  - right. destruct (startswith a (lit "A") && ends_KW a) eqn:S1.
    + left. apply andb_true_iff in S1 as [S1 S2]. destruct (starts_app _ _ S1) as [r ->]. change (lit "A" ++ r) with (65 :: r) in S2.
      destruct (ends_KW_app _ S2) as [q E]. destruct q as [|c q].
      * cbn [app] in E. injection E as E _. discriminate E.
      * cbn [app] in E. injection E as _ E2. exists q. rewrite E2. reflexivity.
    + right. destruct (startswith a (lit "ECDH-ES")) eqn:S2; [|discriminate F]. exact (starts_app _ _ S2).
Qed.

Lemma dec_loop_inv : forall A P alg (dec : nat -> material -> res A) ks i x, dec_loop P alg dec ks i = Ok x -> exists k m n, In k ks /\ key_material P k alg false = Ok m /\ dec n m = Ok x.
Proof.
  induction ks as [|k ks IH]; intros i x H; [discriminate H|]. cbn [dec_loop] in H. destruct (key_material P k alg false) as [m|] eqn:K; [|discriminate H]. cbn [bind] in H.
  destruct (dec i m) as [y|e] eqn:D.
  - exists k, m, i. split; [left; reflexivity|]. split; [exact K|]. rewrite D. exact H.
  - destruct e; try discriminate H; destruct (IH _ _ H) as (k' & m' & n & I & R); exists k', m', n; (split; [right; exact I|exact R]).
Qed.

Definition ten_names : list ustr := [lit "RSA1_5"; lit "RSA-OAEP"; lit "RSA-OAEP-256"; lit "A128KW"; lit "A192KW"; lit "A256KW";
  lit "ECDH-ES"; lit "ECDH-ES+A128KW"; lit "ECDH-ES+A192KW"; lit "ECDH-ES+A256KW"].

(** Without a content key of the caller only the ten algorithms are accepted. *)
Theorem known_algs : forall P sent w token ks alg m w', truthy token = true -> ks <> [] -> (forall k, In k ks -> sound_key k) ->
  jwe_decrypt P sent w token (Some ks) alg [] = Ok (m, w') ->
  exists j a, unpack token = Ok j /\ py_get (j_headers j) (lit "alg") = Ok (VStr a) /\ In a ten_names.
Proof.
  intros P sent w token ks alg m w' T NE SK H. destruct (decrypt_accepts P _ _ _ _ _ _ _ _ T H) as (j & a & f & m0 & U & HA & _ & F & _).
  exists j, a. split; [exact U|]. split; [exact HA|]. unfold jwe_decrypt in H. rewrite T, U in H. cbn [bind] in H. rewrite HA in H. cbn [bind] in H.
  destruct (truthy alg && negb (pval_eqb alg (VStr a))); [discriminate H|].
  assert (J1 : jws_keys P (as_jws w) (Some ks) = Ok (map Some ks)) by (destruct ks; [contradiction NE; reflexivity|reflexivity]).
  rewrite J1 in H. cbn [bind] in H. destruct (pick_keys (as_jws w) (map Some ks) (VStr (lit "enc")) (VStr a)) as [l|] eqn:PK; [|discriminate H]. cbn [bind] in H.
  destruct (is_nil l && is_nil []) eqn:N; [discriminate H|]. rewrite F in H. cbn [bind] in H. unfold cek_first in H. cbn [is_nil] in H. destruct f.
  - unfold family_of in F. destruct (in_texts (VStr a) _) eqn:I.
    + unfold in_texts in I. cbn [existsb pval_eqb] in I. rewrite !orb_true_iff, !zs_eqb_eq in I. unfold ten_names. cbn [In]. destruct I as [->|[->|[->|I]]]; [auto|auto|auto|discriminate I].
    + destruct (startswith a (lit "A") && ends_KW a); [discriminate F|]. destruct (startswith a (lit "ECDH-ES")); discriminate F.
  - match type of H with bind ?r _ = _ => destruct r as [m1|] eqn:C; [|discriminate H] end. destruct (dec_loop_inv _ _ _ _ _ _ _ C) as (k & mt & n & I & K & _).
    destruct (pick_keys_inv _ _ _ _ _ _ PK I) as (a' & t & kid & A1 & A2 & _ & I2 & RT & _).
    assert (SS : startswith a (lit "A") && ends_KW a = true).
    { unfold family_of in F. destruct (in_texts (VStr a) _); [discriminate F|]. destruct (startswith a (lit "A") && ends_KW a); [reflexivity|]. destruct (startswith a (lit "ECDH-ES")); discriminate F. }
    apply andb_true_iff in SS as [S1 S2]. destruct (starts_app _ _ S1) as [r Er].
    assert (TA : truthy (VStr a) = true) by (rewrite Er; reflexivity). unfold alg_or in A1. rewrite TA in A1. injection A1 as <-.
    assert (t = lit "oct").
    { unfold alg2keytype in A2. rewrite TA in A2. cbn [negb] in A2. rewrite S1 in A2.
      assert (NN : zs_eqb (lower a) (lit "none") = false) by (rewrite Er; reflexivity). rewrite NN in A2.
      assert (N1 : startswith a (lit "RS") || startswith a (lit "PS") = false) by (rewrite Er; reflexivity). rewrite N1, orb_true_r in A2. injection A2 as <-. reflexivity. }
    subst t. apply in_map_iff in I2 as (k' & E' & I2). injection E' as ->. specialize (SK _ I2). unfold key_material in K. unfold sound_key in SK. unfold right_type in RT.
    change (lower (lit "oct")) with (lit "oct") in RT. change (upper (lit "oct")) with (lit "OCT") in RT.
    destruct (k_data k) as [x|o nn|ok1 crv x y d cv|key kk] eqn:DK; [discriminate K| | |].
    + exfalso. destruct o; try contradiction SK. rewrite SK in RT. destruct RT as [Q|[Q|[Q|Q]]]; discriminate Q.
    + exfalso. destruct x; try contradiction SK. destruct y; try contradiction SK. destruct SK as [SK _]. rewrite SK in RT. destruct RT as [Q|[Q|[Q|Q]]]; discriminate Q.
    + destruct key as [| | | | |b| | ]; try contradiction SK. unfold sym_encryption_key in K. rewrite DK in K.
      destruct (if truthy (VBytes b) then Ok (VBytes b) else _) as [key'|]; [|discriminate K]. cbn [bind] in K.
      destruct (dget ALG2KEYLEN a) as [ts|] eqn:DG; [|discriminate K]. clear - DG S1.
      unfold ALG2KEYLEN in DG. cbn [dget] in DG. unfold ten_names. cbn [In].
      repeat match type of DG with (if zs_eqb ?u ?v then _ else _) = _ => destruct (zs_eqb u v) eqn:Z1; [apply zs_eqb_eq in Z1; subst a; try (discriminate S1); auto 12|clear Z1] end. discriminate DG.
  - destruct l as [|k l]; [discriminate H|]. destruct (ec_dec_setup P j k) as [ck|] eqn:S; [|discriminate H]. clear H. unfold ec_dec_setup in S.
    destruct (part j 2); [|discriminate S]. destruct (part j 3); [|discriminate S]. destruct (part j 4); [|discriminate S]. cbn [bind] in S.
    destruct (py_in (lit "epk") (j_headers j)) as [has|]; [|discriminate S]. cbn [bind] in S.
    match type of S with bind ?r _ = _ => destruct r as [has2|]; [|discriminate S] end. cbn [bind] in S. destruct (negb has2); [discriminate S|].
    destruct (py_get (j_headers j) (lit "epk")) as [e|]; [|discriminate S]. cbn [bind] in S.
    match type of S with bind ?r _ = _ => destruct r as [epk|]; [|discriminate S] end. cbn [bind] in S.
    destruct (text_arg (j_headers j) (lit "apu")); [|discriminate S]. cbn [bind] in S. destruct (text_arg (j_headers j) (lit "apv")); [|discriminate S]. cbn [bind] in S.
    rewrite HA in S. cbn [bind] in S. match type of S with bind ?r _ = _ => destruct r as [[[c x] y]|]; [|discriminate S] end. cbn [bind pval_eqb] in S.
    destruct (zs_eqb a (lit "ECDH-ES")) eqn:E1; [apply zs_eqb_eq in E1; subst a; unfold ten_names; cbn [In]; auto 12|].
    destruct (dget ECDH_KW a) as [[post n]|] eqn:DG; [|discriminate S]. clear - DG. unfold ECDH_KW in DG. cbn [dget] in DG. unfold ten_names. cbn [In].
    repeat match type of DG with (if zs_eqb ?u ?v then _ else _) = _ => destruct (zs_eqb u v) eqn:Z1; [apply zs_eqb_eq in Z1; subst a; auto 12|clear Z1] end. discriminate DG.
Qed.

(** decrypt of what factory has read: the same as decrypting the token with those keys that have its kid *)
Definition kid_of (h : dict) : pval := match dget h (lit "kid") with Some v => v | None => VNone end.
Definition named_key (kid : pval) (k : jwk) : bool := negb (truthy kid) || pval_eqb kid (k_kid k).

Lemma filter_twice : forall A (f g h : A -> bool) l, (forall x, h x = f x && g x) -> filter h l = filter g (filter f l).
Proof. intros A f g h l E. induction l as [|x l IH]; [reflexivity|]. cbn [filter]. rewrite E. destruct (f x); cbn [andb filter]; rewrite IH; destruct (g x); reflexivity. Qed.
Lemma filter_swap : forall A (f g : A -> bool) l, filter f (filter g l) = filter g (filter f l).
Proof. intros A f g l. induction l as [|x l IH]; [reflexivity|]. cbn [filter]. destruct (f x) eqn:F, (g x) eqn:G; cbn [filter]; rewrite ?F, ?G, IH; reflexivity. Qed.

Theorem factory_decrypt : forall P sent token w j h ks alg cek, truthy token = true -> jwe_factory token = Ok (Some w) -> unpack token = Ok j -> j_headers j = VDict h ->
  filter (named_key (kid_of h)) ks <> [] ->
  (r <- jwe_decrypt P sent w VNone (Some ks) alg cek;; Ok (fst r)) =
  (r <- jwe_decrypt P sent new_jwe token (Some (filter (named_key (kid_of h)) ks)) alg cek;; Ok (fst r)).
Proof.
  intros P sent token w j h ks alg cek T F U HD NE. unfold jwe_factory in F. rewrite U in F. cbn [bind] in F. destruct (is_jwe j) as [b|]; [|discriminate F]. cbn [bind] in F.
  destruct b; [|discriminate F]. injection F as <-. unfold jwe_decrypt. rewrite T, U. cbn [truthy w_jwt bind].
  destruct (py_get (j_headers j) (lit "alg")) as [a|]; [|reflexivity]. cbn [bind]. destruct (truthy alg && negb (pval_eqb alg a)); [reflexivity|].
  set (w := {| w_msg := VNone; w_dict := []; w_jwk := None; w_epk := None; w_jwt := Some j |}).
  assert (J1 : jws_keys P (as_jws w) (Some ks) = Ok (map Some ks)) by (destruct ks; [contradiction NE; reflexivity|reflexivity]).
  assert (J2 : jws_keys P (as_jws new_jwe) (Some (filter (named_key (kid_of h)) ks)) = Ok (map Some (filter (named_key (kid_of h)) ks))) by (destruct (filter (named_key (kid_of h)) ks); [contradiction NE; reflexivity|reflexivity]).
  rewrite J1, J2. cbn [bind].
  assert (PE : pick_keys (as_jws w) (map Some ks) (VStr (lit "enc")) a = pick_keys (as_jws new_jwe) (map Some (filter (named_key (kid_of h)) ks)) (VStr (lit "enc")) a).
  { unfold pick_keys. cbn [as_jws w new_jwe w_dict w_msg w_jwk w_jwt s_dict dget]. destruct (truthy a); [|reflexivity]. cbn [bind].
    destruct (pval_eqb a (VStr (lit "none"))); [reflexivity|]. destruct (alg2keytype a) as [[t|]|]; [|reflexivity|reflexivity]. cbn [bind]. rewrite !real_some. cbn [bind].
    unfold kid_in_force. cbn [as_jws w new_jwe w_dict w_jwt s_dict s_jwt dget]. rewrite HD. unfold py_get.
    assert (KF : forall kid, filter (key_fits kid (VStr (lit "enc")) a) (filter (kty_fits t) ks) = filter (key_fits VNone (VStr (lit "enc")) a) (filter (kty_fits t) (filter (named_key kid) ks))).
    { intro kid. rewrite (filter_swap _ (kty_fits t) (named_key kid)). apply filter_twice. intro x. unfold key_fits, named_key. cbn [truthy]. destruct (truthy kid), (pval_eqb kid (k_kid x)); reflexivity. }
    unfold kid_of. destruct (dget h (lit "kid")) as [v|]; cbn [bind]; rewrite <- KF; reflexivity. }
  rewrite PE. destruct (pick_keys (as_jws new_jwe) _ (VStr (lit "enc")) a) as [l|]; [|reflexivity]. cbn [bind]. destruct (is_nil l && is_nil cek); [reflexivity|].
  destruct (family_of a) as [[| |]|]; [| | |reflexivity]; cbn [bind].
  - destruct (cek_first _ _ _) as [[m c]|]; reflexivity.
  - change (sub_dict w SYM_ARGS) with (sub_dict new_jwe SYM_ARGS). destruct (cek_first _ _ _); reflexivity.
  - destruct l as [|k l]; [reflexivity|]. destruct (ec_dec_setup P j k) as [ck|]; [|reflexivity]. cbn [bind]. destruct (cek_first _ _ _); reflexivity.
Qed.

(** is_jws of something that is neither text nor octets *)
Theorem is_jws_no_text : forall s v, (forall t, v <> VStr t) -> (forall t, v <> VBytes t) -> is_jws s v = Raise EAttributeError.
Proof. intros s v N1 N2. unfold is_jws. destruct v; try reflexivity; [destruct (N1 s0 eq_refl)|destruct (N2 b eq_refl)]. Qed.
