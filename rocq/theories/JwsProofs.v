(** * Proofs about JSON Web Signatures: verification *)
From Coq Require Import ZArith List Bool Lia ZifyBool.
From Verif Require Import Base BaseProofs Utf8 Codec CodecProofs Json JsonProofs Jwt JwtProofs Prims Elliptic Ecc PvalEq Jwk JwkProofs JwkProofs2 Jws.
Import ListNotations.
Open Scope Z_scope.

(** The key list in use: the caller's, or what the instance provides. *)
Definition selected (P : prims) (s : jws) (keys : option (list jwk)) (alg : pval) (ks : list jwk) : Prop :=
  exists kl, jws_keys P s keys = Ok kl /\ pick_keys s kl (VStr []) (VStr []) = Ok ks.

Lemma checked_inv : forall P s j keys alg k m, checked P s j keys alg = Ok (k, m) ->
  exists kl ks a g, jws_keys P s keys = Ok kl /\ pick_keys s kl (VStr []) (VStr []) = Ok ks /\ alg = VStr a /\ dget SIGNERS a = Some g /\
    try_keys P g (sign_input j) (signature j) ks = Ok k /\ payload j = Ok m.
Proof.
  intros P s j keys alg k m H. unfold checked in H. destruct (jws_keys P s keys) as [kl|] eqn:E1; [|discriminate]. cbn [bind] in H.
  destruct (pick_keys s kl (VStr []) (VStr [])) as [ks|] eqn:E2; [|discriminate]. cbn [bind] in H. exists kl, ks.
  destruct ks as [|k1 ks]; [discriminate|]. destruct alg as [| | | |a| | |]; try discriminate. destruct (dget SIGNERS a) as [g|] eqn:E3; [|discriminate].
  destruct (try_keys P g (sign_input j) (signature j) (k1 :: ks)) as [k'|] eqn:E4; [|discriminate]. cbn [bind] in H.
  destruct (payload j) as [m'|] eqn:E5; [|discriminate]. cbn [bind] in H. injection H as <- <-. exists a, g. repeat split; assumption.
Qed.

Lemma verify_alg_inv : forall P s j keys sigalg alg s' m ko, verify_alg P s j keys sigalg alg = (s', Ok (m, ko)) ->
  (dmem (s_dict s) (lit "alg") = true -> truthy alg = true -> pval_eqb (kwarg (s_dict s) (lit "alg") VNone) alg = true) /\
  (truthy sigalg = true -> pval_eqb sigalg alg = true) /\
  exists k, ko = Some k /\ checked P (set_alg s alg) j keys alg = Ok (k, m) /\ s' = set_key (set_msg (set_alg s alg) m) k.
Proof.
  intros P s j keys sigalg alg s' m ko H. unfold verify_alg in H.
  destruct (dmem (s_dict s) (lit "alg") && truthy alg && negb (pval_eqb (kwarg (s_dict s) (lit "alg") VNone) alg)) eqn:E1; [discriminate|].
  destruct (truthy sigalg && negb (pval_eqb sigalg alg)) eqn:E2; [discriminate|].
  destruct (checked P (set_alg s alg) j keys alg) as [[k m']|] eqn:E3; [|discriminate]. injection H as <- <- <-.
  split; [intros A B; rewrite A, B in E1; cbn in E1; apply negb_false_iff in E1; exact E1|].
  split; [intros A; rewrite A in E2; cbn in E2; apply negb_false_iff in E2; exact E2|].
  exists k. repeat split.
Qed.

(** What an accepted token looks like. *)
Record accepted_none (s : jws) (token : pval) (s' : jws) (m : pval) (ko : option jwk) (an : bool) (j : jwt) : Prop := {
  an_allowed : an = true;
  an_key : ko = None;
  an_alg : exists d, j_headers j = VDict d /\ (dget d (lit "alg") = Some VNone \/ exists a, dget d (lit "alg") = Some (VStr a) /\ lower a = lit "none");
  an_state : s' = set_msg (set_jwt s j) m
}.
Record accepted_sig (P : prims) (s : jws) (keys : option (list jwk)) (sigalg : pval) (s' : jws) (m : pval) (ko : option jwk) (j : jwt) (d : dict) (a : ustr) (g : signer) (ks : list jwk) (k : jwk) : Prop := {
  as_headers : j_headers j = VDict d;
  as_alg : dget d (lit "alg") = Some (VStr a);
  as_not_none : lower a <> lit "none";
  as_signer : dget SIGNERS a = Some g;
  as_instance : dmem (s_dict s) (lit "alg") = true -> pval_eqb (kwarg (s_dict s) (lit "alg") VNone) (VStr a) = true;
  as_sigalg : truthy sigalg = true -> pval_eqb sigalg (VStr a) = true;
  as_keys : exists kl, jws_keys P (set_alg (set_jwt s j) (VStr a)) keys = Ok kl /\
    pick_keys (set_alg (set_jwt s j) (VStr a)) kl (VStr []) (VStr []) = Ok ks;
  as_tried : try_keys P g (sign_input j) (signature j) ks = Ok k;
  as_key : ko = Some k;
  as_state : s' = set_key (set_msg (set_alg (set_jwt s j) (VStr a)) m) k
}.

Lemma py_get_inv : forall h k v, py_get h k = Ok v -> exists d, h = VDict d /\ dget d k = Some v.
Proof. intros [| | | | | | |d] k v H; try discriminate. cbn in H. exists d. split; [reflexivity|]. destruct (dget d k); congruence. Qed.

Lemma signers_truthy : forall a g, dget SIGNERS a = Some g -> truthy (VStr a) = true.
Proof. intros [|c a] g H; [discriminate|reflexivity]. Qed.

Theorem verify_inv : forall P s token keys an sigalg s' m ko, verify_compact P s token keys an sigalg = (s', Ok (m, ko)) ->
  exists j, unpack token = Ok j /\ length (j_part j) = 3%nat /\ payload j = Ok m /\
  (accepted_none s token s' m ko an j \/ exists d a g ks k, accepted_sig P s keys sigalg s' m ko j d a g ks k).
Proof.
  intros P s token keys an sigalg s' m ko H. unfold verify_compact in H. destruct (unpack token) as [j|] eqn:U; [|discriminate]. cbn [bind] in H.
  destruct (Nat.eqb (length (j_part j)) 3) eqn:L; [|discriminate]. apply Nat.eqb_eq in L. exists j. split; [reflexivity|]. split; [exact L|].
  assert (G : forall alg, verify_alg P (set_jwt s j) j keys sigalg alg = (s', Ok (m, ko)) -> (forall a, alg = VStr a -> exists d, j_headers j = VDict d /\ dget d (lit "alg") = Some (VStr a) /\ lower a <> lit "none") ->
    payload j = Ok m /\ exists d a g ks k, accepted_sig P s keys sigalg s' m ko j d a g ks k).
  { intros alg V K. apply verify_alg_inv in V. destruct V as [V1 [V2 [k [V3 [V4 V5]]]]]. apply checked_inv in V4.
    destruct V4 as (kl & ks & a & g & C1 & C2 & -> & C4 & C5 & C6). split; [exact C6|].
    destruct (K a eq_refl) as [d [K1 [K2 K3]]]. exists d, a, g, ks, k. constructor; try assumption.
    - intro X. apply V1; [exact X|]. eapply signers_truthy; exact C4.
    - exists kl. split; assumption. }
  destruct (py_get (j_headers j) (lit "alg")) as [alg|e] eqn:A.
  - apply py_get_inv in A. destruct A as [d [A1 A2]]. destruct (none_alg alg) as [[|]|] eqn:N; [| |discriminate].
    + destruct an; [|discriminate]. destruct (payload j) as [m'|] eqn:Pl; [|discriminate]. injection H as <- <- <-. split; [reflexivity|]. left.
      constructor; try reflexivity. exists d. split; [exact A1|]. destruct alg as [| | | |a|a| |]; try discriminate N; [left; exact A2|].
      * cbn in N. right. exists a. split; [exact A2|]. injection N as N. apply zs_eqb_eq in N. exact N.
    + apply G in H; [destruct H as [H1 H2]; split; [exact H1|right; exact H2]|]. intros a ->. exists d. split; [exact A1|]. split; [exact A2|].
      cbn in N. injection N as N. apply zs_eqb_neq in N. exact N.
  - destruct e; try discriminate. apply G in H; [destruct H as [H1 H2]; split; [exact H1|right; exact H2]|]. intros a X. discriminate.
Qed.

(** ** Key selection *)

Lemma real_keys_some : forall ks, real_keys (map Some ks) = Ok ks.
Proof. induction ks as [|k ks IH]; [reflexivity|]. cbn. rewrite IH. reflexivity. Qed.
Lemma real_keys_inv : forall l ks, real_keys l = Ok ks -> l = map Some ks.
Proof.
  induction l as [|[k|] l IH]; intros ks H; [injection H as <-; reflexivity| |discriminate]. cbn in H. destruct (real_keys l) as [r|]; [|discriminate].
  injection H as <-. cbn. f_equal. apply IH. reflexivity.
Qed.

(** The documented conditions, independently of the code: type, kid, use, alg. *)
Definition right_type (t : ustr) (k : jwk) : Prop :=
  k_kty k = VStr (lower t) \/ k_kty k = VStr (upper t) \/ k_kty k = VBytes (lower t) \/ k_kty k = VBytes (upper t).
Definition right_kid (kid : pval) (k : jwk) : Prop := truthy kid = true -> pval_eqb kid (k_kid k) = true.
Definition right_use (use : pval) (k : jwk) : Prop := truthy use = true -> truthy (k_use k) = true -> pval_eqb (k_use k) use = true.
Definition right_alg (alg : pval) (k : jwk) : Prop := truthy alg = true -> truthy (k_alg k) = true -> pval_eqb (k_alg k) alg = true.
Definition suitable (t : ustr) (kid use alg : pval) (k : jwk) : Prop := right_type t k /\ right_kid kid k /\ right_use use k /\ right_alg alg k.

Lemma eqb_bytes_r : forall v s, pval_eqb v (VBytes s) = true <-> v = VBytes s.
Proof.
  intros v s. split; [|intros ->; cbn; apply zs_eqb_refl]. destruct v; cbn; try discriminate. intro H. apply zs_eqb_eq in H. congruence.
Qed.

Lemma kty_fits_spec : forall t k, kty_fits t k = true <-> right_type t k.
Proof.
  intros t k. unfold kty_fits, right_type. cbn [existsb]. rewrite !orb_true_iff, !eqb_str_r, !eqb_bytes_r. intuition congruence.
Qed.
Lemma key_fits_spec : forall kid use alg k, key_fits kid use alg k = true <-> right_kid kid k /\ right_use use k /\ right_alg alg k.
Proof.
  intros kid use alg k. unfold key_fits, right_kid, right_use, right_alg.
  destruct (truthy kid), (truthy use), (truthy alg), (truthy (k_use k)), (truthy (k_alg k)), (pval_eqb kid (k_kid k)), (pval_eqb (k_use k) use), (pval_eqb (k_alg k) alg);
    cbn; intuition congruence.
Qed.

Lemma filter_filter' : forall A (f g : A -> bool) l, filter f (filter g l) = filter (fun x => g x && f x) l.
Proof. induction l as [|x l IH]; [reflexivity|]. cbn. destruct (g x); cbn; [destruct (f x); rewrite IH; reflexivity|exact IH]. Qed.

(** The result of selecting by a predicate, in order. *)
Inductive picks {A} (Q : A -> Prop) : list A -> list A -> Prop :=
| picks_nil : picks Q [] []
| picks_take : forall x l m, Q x -> picks Q l m -> picks Q (x :: l) (x :: m)
| picks_skip : forall x l m, ~ Q x -> picks Q l m -> picks Q (x :: l) m.

Lemma picks_filter : forall A (Q : A -> Prop) f l, (forall x, f x = true <-> Q x) -> picks Q l (filter f l).
Proof.
  intros A Q f l H. induction l as [|x l IH]; [constructor|]. cbn. destruct (f x) eqn:E; constructor; try assumption; [apply H; exact E|].
  intro X. apply H in X. congruence.
Qed.
Lemma picks_In : forall A (Q : A -> Prop) l m, picks Q l m -> forall x, In x m <-> In x l /\ Q x.
Proof.
  intros A Q l m H. induction H as [|y l m HQ H IH|y l m HQ H IH]; intro x; cbn; [tauto| |].
  - rewrite IH. split; [intros [->|[]]; auto|intros [[->|I] X]; auto].
  - rewrite IH. split; [intros []; auto|intros [[->|I] X]; [contradiction|auto]].
Qed.

Definition alg_or (s : jws) (alg : pval) : option pval := if truthy alg then Some alg else dget (s_dict s) (lit "alg").

Theorem pick_keys_spec : forall s keys use alg a t kid, alg_or s alg = Some a -> pval_eqb a (VStr (lit "none")) = false -> alg2keytype a = Ok (Some t) ->
  kid_in_force s = Ok kid ->
  exists out, pick_keys s (map Some keys) use alg = Ok out /\ picks (suitable t kid use a) keys out.
Proof.
  intros s keys use alg a t kid A N T K. unfold pick_keys, alg_or in *. destruct (truthy alg); [injection A as ->|rewrite A].
  all: cbn [bind]; rewrite N, T; cbn [bind]; rewrite real_keys_some; cbn [bind]; rewrite K; cbn [bind]; eexists; split; [reflexivity|];
    rewrite filter_filter'; apply picks_filter; intro x; rewrite andb_true_iff, kty_fits_spec, key_fits_spec; unfold suitable; tauto.
Qed.

Lemma pick_keys_inv : forall s kl use alg ks k, pick_keys s kl use alg = Ok ks -> In k ks ->
  exists a t kid, alg_or s alg = Some a /\ alg2keytype a = Ok (Some t) /\ kid_in_force s = Ok kid /\ In (Some k) kl /\ suitable t kid use a k.
Proof.
  intros s kl use alg ks k H I. unfold pick_keys in H. unfold alg_or.
  destruct (if truthy alg then Ok alg else _) as [a|] eqn:E; [|discriminate]. cbn [bind] in H.
  destruct (pval_eqb a (VStr (lit "none"))); [injection H as <-; destruct I|].
  destruct (alg2keytype a) as [[t|]|] eqn:T; cbn [bind] in H; [|injection H as <-; destruct I|discriminate].
  destruct (real_keys kl) as [l|] eqn:R; [|discriminate]. cbn [bind] in H. destruct (kid_in_force s) as [kid|] eqn:K; [|discriminate]. cbn [bind] in H. injection H as <-.
  apply filter_In in I. destruct I as [I F]. apply filter_In in I. destruct I as [I Y]. exists a, t, kid. split.
  { destruct (truthy alg); [congruence|]. destruct (dget (s_dict s) (lit "alg")); congruence. }
  split; [exact T|]. split; [reflexivity|]. split; [apply real_keys_inv in R; rewrite R; apply in_map; exact I|].
  apply kty_fits_spec in Y. apply key_fits_spec in F. unfold suitable. tauto.
Qed.

Lemma try_keys_inv : forall P g i sg ks k, try_keys P g i sg ks = Ok k -> In k ks /\ exists m, get_key k false = Ok m /\ signer_verify P g i sg m = Ok tt.
Proof.
  induction ks as [|k1 ks IH]; intros k H; [discriminate|]. cbn [try_keys] in H.
  destruct (get_key k1 false) as [m|e] eqn:G; cbn [bind] in H.
  - destruct (signer_verify P g i sg m) as [[]|e] eqn:V.
    + injection H as <-. split; [left; reflexivity|]. exists m. split; assumption.
    + assert (X : try_keys P g i sg ks = Ok k) by (destruct e; congruence || exact H). apply IH in X. split; [right; apply X|apply X].
  - assert (X : try_keys P g i sg ks = Ok k) by (destruct e; congruence || exact H). apply IH in X. split; [right; apply X|apply X].
Qed.

(** A key was available: supplied by the caller or, when none was supplied, the instance's own jwk. *)
Definition offered (s : jws) (keys : option (list jwk)) (k : jwk) : Prop :=
  (exists l, keys = Some l /\ In k l) \/ ((keys = None \/ keys = Some []) /\ s_jwk s = Some (JKey k)).

Lemma jws_keys_offered : forall P s keys kl k, jws_keys P s keys = Ok kl -> In (Some k) kl -> offered s keys k.
Proof.
  intros P s keys kl k H I. unfold jws_keys in H.
  assert (G : (keys = None \/ keys = Some []) -> jws_get_keys P s = Ok kl -> offered s keys k).
  { intros K J. right. split; [exact K|]. unfold jws_get_keys in J. destruct (s_jwk s) as [[k'|v]|] eqn:E.
    - injection J as <-. destruct I as [I|[]]. congruence.
    - injection J as <-. destruct I as [I|[]]. congruence.
    - exfalso. destruct (dget (s_dict s) (lit "jku")) as [v|].
      + destruct v; try discriminate. destruct (load_from_url P [] s0) as [ks [e|]]; [discriminate|].
        destruct (as_dict ks) as [m|]; [|discriminate]. cbn [bind] in J. injection J as <-. apply in_map_iff in I. destruct I as [? [I _]]. discriminate.
      + destruct (dmem (s_dict s) (lit "x5u")); injection J as <-; [destruct I as [I|[]]; discriminate|destruct I]. }
  destruct keys as [[|k1 r]|]; [apply G; auto| |apply G; auto].
  injection H as <-. left. exists (k1 :: r). split; [reflexivity|]. change (Some k1 :: map Some r) with (map (@Some jwk) (k1 :: r)) in I. apply in_map_iff in I. destruct I as [x [X1 X2]]. congruence.
Qed.
