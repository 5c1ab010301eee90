(** * Proofs about JSON Web Signatures: what an accepted token tells *)
From Coq Require Import ZArith List Bool Lia ZifyBool.
From Verif Require Import Base BaseProofs Utf8 Codec CodecProofs Json JsonProofs Jwt JwtProofs Prims Elliptic Ecc PvalEq Jwk JwkProofs JwkProofs2 Jws JwsProofs.
Import ListNotations.
Open Scope Z_scope.

(** ** The algorithm table, written out *)

Definition hs_algs : list (ustr * hashalg) := [(lit "HS256", SHA256); (lit "HS384", SHA384); (lit "HS512", SHA512)].
Definition rs_algs : list (ustr * (sigscheme * hashalg)) :=
  [(lit "RS256", (PKCS1v15, SHA256)); (lit "RS384", (PKCS1v15, SHA384)); (lit "RS512", (PKCS1v15, SHA512));
   (lit "PS256", (PSS, SHA256)); (lit "PS384", (PSS, SHA384)); (lit "PS512", (PSS, SHA512))].
Definition es_algs : list (ustr * (hashalg * Z)) := [(lit "ES256", (SHA256, 256)); (lit "ES384", (SHA384, 384)); (lit "ES512", (SHA512, 521))].

(** [sg] is a valid signature of [input] under key [k] for algorithm [a]. *)
Inductive valid_sig (P : prims) (a : ustr) (k : jwk) (input sg : bytes) : Prop :=
| valid_hs : forall h secret, In (a, h) hs_algs -> get_key k false = Ok (MObj (OVal (VBytes secret))) -> sg = p_hmac P h secret input -> valid_sig P a k input sg
| valid_rs : forall sc h key, In (a, (sc, h)) rs_algs -> get_key k false = Ok (MObj (ORsa key)) -> p_rsa_verify P sc h key input sg = Ok true -> valid_sig P a k input sg
| valid_es : forall h bits c m pt, In (a, (h, bits)) es_algs -> nist_curve bits = Ok c -> get_key k false = Ok m -> as_point m = Ok pt ->
    Ecc.verify c (be2z (p_hash P h input)) sg pt = Ok true -> valid_sig P a k input sg.

Lemma signers_cases : forall a g, dget SIGNERS a = Some g ->
  (exists h, g = HMACSigner h /\ In (a, h) hs_algs) \/ (exists s h, g = RSASigner s h /\ In (a, (s, h)) rs_algs) \/ (exists h b, g = DSASigner h b /\ In (a, (h, b)) es_algs).
Proof.
  intros a g H. unfold SIGNERS in H. cbn [dget] in H.
  repeat match type of H with
  | (if zs_eqb ?x ?y then _ else _) = _ =>
      let E := fresh in destruct (zs_eqb x y) eqn:E; [apply zs_eqb_eq in E; subst y; injection H as <-|]
  end; try discriminate;
  first [left; eexists; split; [reflexivity|]; cbn [In hs_algs]; tauto
        |right; left; do 2 eexists; split; [reflexivity|]; cbn [In rs_algs]; tauto
        |right; right; do 2 eexists; split; [reflexivity|]; cbn [In es_algs]; tauto].
Qed.
Lemma signers_hs : forall a h, In (a, h) hs_algs -> dget SIGNERS a = Some (HMACSigner h).
Proof. intros a h H. cbn [In hs_algs] in H. repeat (destruct H as [H|H]; [injection H as <- <-; reflexivity|]). destruct H. Qed.
Lemma signers_rs : forall a s h, In (a, (s, h)) rs_algs -> dget SIGNERS a = Some (RSASigner s h).
Proof. intros a s h H. cbn [In rs_algs] in H. repeat (destruct H as [H|H]; [injection H as <- <- <-; reflexivity|]). destruct H. Qed.
Lemma signers_es : forall a h b, In (a, (h, b)) es_algs -> dget SIGNERS a = Some (DSASigner h b).
Proof. intros a h b H. cbn [In es_algs] in H. repeat (destruct H as [H|H]; [injection H as <- <- <-; reflexivity|]). destruct H. Qed.

Lemma signer_verify_valid : forall P a g k m input sg, dget SIGNERS a = Some g -> get_key k false = Ok m -> signer_verify P g input sg m = Ok tt -> valid_sig P a k input sg.
Proof.
  intros P a g k m input sg G M H. destruct (signers_cases a g G) as [(h & -> & I)|[(s & h & -> & I)|(h & b & -> & I)]]; cbn [signer_verify] in H.
  - destruct m as [[| |[| | | | |b| |]]|]; try discriminate. cbn [as_secret bind] in H. destruct (constant_time_compare (p_hmac P h b input) sg) eqn:E; [|discriminate].
    apply constant_time_compare_eq in E. eapply valid_hs; [exact I|exact M|]. congruence.
  - destruct m as [[r| |]|]; try discriminate. cbn [as_rsa bind] in H. destruct (p_rsa_verify P s h r input sg) as [[|]|e] eqn:E; [| |].
    + eapply valid_rs; eassumption.
    + discriminate.
    + destruct s; [destruct (is_ValueError e)|]; discriminate.
  - destruct (nist_curve b) as [c|] eqn:C; [|discriminate]. cbn [bind] in H. destruct (as_point m) as [p|e] eqn:Pt; [|destruct (in_range c sg); discriminate].
    destruct (Ecc.verify c (be2z (p_hash P h input)) sg p) as [[|]|] eqn:V; try discriminate. eapply valid_es; eassumption.
Qed.
Lemma valid_signer_verify : forall P a k input sg, valid_sig P a k input sg -> exists g m, dget SIGNERS a = Some g /\ get_key k false = Ok m /\ signer_verify P g input sg m = Ok tt.
Proof.
  intros P a k input sg H. destruct H as [h secret I G E|sc h key I G E|h bits c m pt I C G Pt V].
  - exists (HMACSigner h). eexists. split; [apply signers_hs; exact I|]. split; [exact G|]. cbn. rewrite (proj2 (constant_time_compare_eq _ _)) by congruence. reflexivity.
  - exists (RSASigner sc h). eexists. split; [apply signers_rs; exact I|]. split; [exact G|]. cbn. rewrite E. reflexivity.
  - exists (DSASigner h bits), m. split; [apply signers_es; exact I|]. split; [exact G|]. cbn. rewrite C. cbn. rewrite Pt, V. reflexivity.
Qed.

(** ** Segments *)

Lemma three_segments : forall token j, unpack token = Ok j -> length (j_part j) = 3%nat ->
  exists txt h p s64 sg, (token = VStr txt \/ token = VBytes txt) /\ split 46 txt = [h; p; s64] /\ txt = h ++ 46 :: p ++ 46 :: s64 /\
    ~ In 46 h /\ ~ In 46 p /\ ~ In 46 s64 /\ sign_input j = h ++ 46 :: p /\ b64d s64 = Ok sg /\ signature j = sg /\ bytes_ok sg = true.
Proof.
  intros token j U L. pose proof (unpack_inv _ _ U) as (b & parts & ps & t & T & A & S & M & _ & _ & B & Pt).
  destruct (split_token_ok b parts S) as (X1 & X2 & X3 & X4). rewrite Pt, map_length in L. apply mapM_ok_all in M.
  destruct ps as [|p0 [|p1 [|p2 [|]]]]; try discriminate L.
  assert (Q : exists h p s64, parts = [h; p; s64] /\ b64d s64 = Ok p2).
  { inversion M as [|h ? ? ? ? F0]; subst. inversion F0 as [|p ? ? ? ? F1]; subst. inversion F1 as [|q ? ? ? F2 F3]; subst. inversion F3; subst. exists h, p, q. auto. }
  destruct Q as (h & p & s64 & -> & F2). subst b.
  exists (join 46 [h; p; s64]), h, p, s64, p2. split; [tauto|]. split; [exact (eq_sym X1)|]. split; [reflexivity|].
  split; [apply X4; left; reflexivity|]. split; [apply X4; right; left; reflexivity|]. split; [apply X4; right; right; left; reflexivity|].
  unfold sign_input, signature. rewrite B, Pt. cbn [nth map]. repeat split; [exact F2|]. eapply b64d_bytes. exact F2.
Qed.

(** ** What acceptance means *)

(** The JSON value a header segment holds. *)
Definition header_of (seg : ustr) : res pval := b <- b64d seg;; t <- utf8_decode b;; loads t.

(** The header algorithm is null or 'none' in some letter case. *)
Definition none_header (d : dict) : Prop :=
  dget d (lit "alg") = Some VNone \/ exists a, dget d (lit "alg") = Some (VStr a) /\ lower a = lit "none".

Lemma unpack_header : forall token j h, unpack token = Ok j -> hd_error (j_b64 j) = Some h -> header_of h = Ok (j_headers j).
Proof.
  intros token j h U H. apply unpack_inv in U. destruct U as (b & parts & ps & t & _ & _ & _ & M & U & L & B & _). rewrite B in H.
  destruct parts as [|x parts]; [discriminate|]. injection H as ->. cbn [mapM] in M. unfold header_of. destruct (b64d h) as [y|]; [|discriminate]. cbn [bind] in *.
  destruct (mapM b64d parts) as [ys|]; [|discriminate]. injection M as <-. cbn [hd] in U. rewrite U. exact L.
Qed.

Record presented (token : pval) (j : jwt) (h p s64 : ustr) (sg : bytes) (d : dict) : Prop := {
  pr_token : token = VStr (h ++ 46 :: p ++ 46 :: s64) \/ token = VBytes (h ++ 46 :: p ++ 46 :: s64);
  pr_dots : ~ In 46 h /\ ~ In 46 p /\ ~ In 46 s64;
  pr_header : header_of h = Ok (VDict d);
  pr_sig : b64d s64 = Ok sg;
  pr_unpack : unpack token = Ok j;
  pr_dict : j_headers j = VDict d
}.

Lemma segs_of : forall token j, unpack token = Ok j -> length (j_part j) = 3%nat -> forall d, j_headers j = VDict d ->
  exists h p s64 sg, presented token j h p s64 sg d /\ sign_input j = h ++ 46 :: p /\ signature j = sg.
Proof.
  intros token j U L d D. destruct (three_segments _ _ U L) as (txt & h & p & s64 & sg & T & S & J & N1 & N2 & N3 & I & B & G & _). exists h, p, s64, sg.
  split; [|split; assumption]. subst txt. constructor; [exact T|tauto| |exact B|exact U|exact D]. rewrite <- D. apply (unpack_header token j h U).
  destruct (unpack_segments _ _ U) as (txt & T' & B' & _). assert (E : txt = h ++ 46 :: p ++ 46 :: s64) by (destruct T as [->| ->], T' as [X|X]; congruence).
  rewrite B', E, S. reflexivity.
Qed.

Theorem verify_accepted : forall P s token keys an sigalg s' m ko, verify_compact P s token keys an sigalg = (s', Ok (m, ko)) ->
  exists j h p s64 sg d, presented token j h p s64 sg d /\ payload j = Ok m /\
  ((none_header d /\ an = true /\ ko = None) \/
   (exists a k t kid, dget d (lit "alg") = Some (VStr a) /\ lower a <> lit "none" /\ ko = Some k /\ offered s keys k /\
      valid_sig P a k (h ++ 46 :: p) sg /\ alg2keytype (VStr a) = Ok (Some t) /\
      kid = match dget (s_dict s) (lit "kid") with Some v => v | None => kwarg d (lit "kid") VNone end /\
      suitable t kid (VStr []) (VStr a) k /\
      (dmem (s_dict s) (lit "alg") = true -> dget (s_dict s) (lit "alg") = Some (VStr a)) /\ (truthy sigalg = true -> sigalg = VStr a) /\
      dget (s_dict s') (lit "alg") = Some (VStr a))).
Proof.
  intros P s token keys an sigalg s' m ko H. apply verify_inv in H. destruct H as (j & U & L & Pl & [A|(d & a & g & ks & k & A)]).
  - destruct A as [A1 A2 (d & A3 & A4) A5]. destruct (segs_of _ _ U L d A3) as (h & p & s64 & sg & Pr & I & S). exists j, h, p, s64, sg, d. repeat split; auto; apply Pr.
  - destruct A as [D A N G I1 I2 (kl & K1 & K2) T K ->]. destruct (segs_of _ _ U L d D) as (h & p & s64 & sg & Pr & I & S). exists j, h, p, s64, sg, d. split; [exact Pr|]. split; [exact Pl|]. right.
    apply try_keys_inv in T. destruct T as [T (m1 & M1 & M2)]. destruct (pick_keys_inv _ _ _ _ _ _ K2 T) as (a' & t & kid & Q1 & Q2 & Q3 & Q4 & Q5).
    unfold alg_or in Q1. cbn [truthy] in Q1. unfold set_alg in Q1. cbn [s_dict] in Q1. rewrite dget_dset in Q1. change (zs_eqb (lit "alg") (lit "alg")) with true in Q1. injection Q1 as <-.
    exists a, k, t, kid. split; [exact A|]. split; [exact N|]. split; [exact K|]. split.
    { pose proof (jws_keys_offered _ _ _ _ _ K1 Q4) as O. exact O. }
    rewrite <- I, <- S. split; [eapply signer_verify_valid; eassumption|]. split; [exact Q2|]. split.
    { unfold kid_in_force in Q3. unfold set_alg, set_jwt in Q3. cbn [s_dict s_jwt] in Q3. rewrite dget_dset in Q3. change (zs_eqb (lit "alg") (lit "kid")) with false in Q3. cbn match in Q3.
      destruct (dget (s_dict s) (lit "kid")); [congruence|]. rewrite D in Q3. unfold kwarg. cbn [py_get] in Q3. destruct (dget d (lit "kid")); congruence. }
    split; [exact Q5|]. split.
    { intro X. specialize (I1 X). unfold kwarg in I1. unfold dmem in X. destruct (dget (s_dict s) (lit "alg")); [|discriminate]. apply eqb_str_r in I1. congruence. }
    split; [intro X; specialize (I2 X); apply eqb_str_r in I2; exact I2|].
    cbn. rewrite dget_dset. reflexivity.
Qed.

(** C15 *)
Theorem verify_sound : forall P s token keys an sigalg s' m ko, verify_compact P s token keys an sigalg = (s', Ok (m, ko)) ->
  exists j h p s64 sg d, presented token j h p s64 sg d /\ payload j = Ok m /\
  (none_header d \/ exists a k, dget d (lit "alg") = Some (VStr a) /\ ko = Some k /\ offered s keys k /\ valid_sig P a k (h ++ 46 :: p) sg).
Proof.
  intros P s token keys an sigalg s' m ko H. apply verify_accepted in H. destruct H as (j & h & p & s64 & sg & d & Pr & Pl & [(A & _)|(a & k & t & kid & A & _ & K & O & V & _)]);
    exists j, h, p, s64, sg, d; (split; [exact Pr|]; split; [exact Pl|]); [left; exact A|right; exists a, k; auto].
Qed.

Lemma presented_dict : forall token j h p s64 sg d j' d', presented token j h p s64 sg d -> unpack token = Ok j' -> j_headers j' = VDict d' -> d = d'.
Proof. intros token j h p s64 sg d j' d' [_ _ _ _ U D] U' D'. rewrite U in U'. injection U' as <-. congruence. Qed.

(** C16 *)
Theorem none_needs_opt_in : forall P s token keys sigalg j d, unpack token = Ok j -> j_headers j = VDict d ->
  (none_header d \/ dget d (lit "alg") = None) ->
  exists s' e, verify_compact P s token keys false sigalg = (s', Raise e).
Proof.
  intros P s token keys sigalg j d U D N. destruct (verify_compact P s token keys false sigalg) as [s' [[m ko]|e]] eqn:V; [exfalso|eauto].
  apply verify_accepted in V. destruct V as (j' & h & p & s64 & sg & d' & Pr & _ & [(_ & X & _)|(a & k & t & kid & A & B & _)]); [discriminate|].
  rewrite (presented_dict _ _ _ _ _ _ _ _ _ Pr U D) in A. destruct N as [[N|(a' & N & N')]|N]; congruence.
Qed.

(** C17 *)
Definition family (a : ustr) : option ustr :=
  if existsb (fun x => zs_eqb a (fst x)) hs_algs then Some (lit "oct")
  else if existsb (fun x => zs_eqb a (fst x)) rs_algs then Some (lit "RSA")
  else if existsb (fun x => zs_eqb a (fst x)) es_algs then Some (lit "EC") else None.

Lemma family_hs : forall a h, In (a, h) hs_algs -> alg2keytype (VStr a) = Ok (Some (lit "oct")).
Proof. intros a h H. cbn [In hs_algs] in H. repeat (destruct H as [H|H]; [injection H as <- <-; reflexivity|]). destruct H. Qed.
Lemma family_rs : forall a x, In (a, x) rs_algs -> alg2keytype (VStr a) = Ok (Some (lit "RSA")).
Proof. intros a h H. cbn [In rs_algs] in H. repeat (destruct H as [H|H]; [injection H as <- <-; reflexivity|]). destruct H. Qed.
Lemma family_es : forall a x, In (a, x) es_algs -> alg2keytype (VStr a) = Ok (Some (lit "EC")).
Proof. intros a h H. cbn [In es_algs] in H. repeat (destruct H as [H|H]; [injection H as <- <-; reflexivity|]). destruct H. Qed.

Theorem no_key_confusion : forall P s token keys an sigalg s' m k, verify_compact P s token keys an sigalg = (s', Ok (m, Some k)) ->
  exists j d a, unpack token = Ok j /\ j_headers j = VDict d /\ dget d (lit "alg") = Some (VStr a) /\
  (((exists h, In (a, h) hs_algs) /\ right_type (lit "oct") k /\ (exists secret, get_key k false = Ok (MObj (OVal (VBytes secret))))) \/
   ((exists x, In (a, x) rs_algs) /\ right_type (lit "RSA") k /\ (exists r, get_key k false = Ok (MObj (ORsa r)))) \/
   ((exists x, In (a, x) es_algs) /\ right_type (lit "EC") k /\ (exists x pt, get_key k false = Ok x /\ as_point x = Ok pt))).
Proof.
  intros P s token keys an sigalg s' m k H. apply verify_accepted in H. destruct H as (j & h & p & s64 & sg & d & Pr & Pl & [(_ & _ & A)|(a & k' & t & kid & A & N & K & O & V & T & Kd & (S & _) & _)]); [discriminate|].
  injection K as <-. exists j, d, a. split; [apply Pr|]. split; [apply Pr|]. split; [exact A|]. destruct V as [h' secret I G E|sc h' key I G E|h' bits c m' pt I C G Pt V].
  - left. rewrite (family_hs _ _ I) in T. injection T as <-. split; [eauto|]. split; [exact S|]. eauto.
  - right; left. rewrite (family_rs _ _ I) in T. injection T as <-. split; [eauto|]. split; [exact S|]. eauto.
  - right; right. rewrite (family_es _ _ I) in T. injection T as <-. split; [eauto|]. split; [exact S|]. eauto.
Qed.

(** C18 *)
Theorem no_usable_alg : forall P s token keys an sigalg j d, unpack token = Ok j -> j_headers j = VDict d ->
  ~ (exists a g, dget d (lit "alg") = Some (VStr a) /\ In (a, g) SIGNERS) -> (an = false \/ ~ none_header d) ->
  exists s' e, verify_compact P s token keys an sigalg = (s', Raise e).
Proof.
  intros P s token keys an sigalg j d U D N M. destruct (verify_compact P s token keys an sigalg) as [s' [[m ko]|e]] eqn:V; [exfalso|eauto].
  apply verify_accepted in V. destruct V as (j' & h & p & s64 & sg & d' & Pr & _ & [(X & Y & _)|(a & k & t & kid & A & B & _ & _ & V & _)]);
    rewrite (presented_dict _ _ _ _ _ _ _ _ _ Pr U D) in *; [destruct M as [M|M]; [congruence|contradiction]|].
  apply valid_signer_verify in V. destruct V as (g & m' & G & _). apply N. exists a, g. split; [exact A|]. apply dget_In in G. exact G.
Qed.

(** C19 *)
Theorem expected_alg : forall P s token keys an sigalg s' m k, verify_compact P s token keys an sigalg = (s', Ok (m, Some k)) ->
  exists j d a, unpack token = Ok j /\ j_headers j = VDict d /\ dget d (lit "alg") = Some (VStr a) /\
    (truthy sigalg = true -> sigalg = VStr a) /\ (forall v, dget (s_dict s) (lit "alg") = Some v -> v = VStr a) /\ dget (s_dict s') (lit "alg") = Some (VStr a).
Proof.
  intros P s token keys an sigalg s' m k H. apply verify_accepted in H. destruct H as (j & h & p & s64 & sg & d & Pr & Pl & [(_ & _ & A)|(a & k' & t & kid & A & N & K & O & V & T & Kd & S & I1 & I2 & I3)]); [discriminate|].
  exists j, d, a. split; [apply Pr|]. split; [apply Pr|]. split; [exact A|]. split; [exact I2|]. split; [|exact I3]. intros v X. unfold dmem in I1. rewrite X in I1. specialize (I1 eq_refl). congruence.
Qed.

(** C20: a sequence of calls on one instance. *)
Record call := { c_token : pval; c_keys : option (list jwk); c_none : bool; c_sigalg : pval }.
Definition do_call (P : prims) (s : jws) (c : call) : jws * res (pval * option jwk) := verify_compact P s (c_token c) (c_keys c) (c_none c) (c_sigalg c).
Definition after (P : prims) (s : jws) (cs : list call) : jws := fold_left (fun s c => fst (do_call P s c)) cs s.

Definition pinned (A : ustr) (s : jws) : Prop := exists v, dget (s_dict s) (lit "alg") = Some v /\ (v = VStr A \/ truthy v = false).

(** How one call changes the instance's algorithm. *)
Lemma verify_state : forall P s token keys an sigalg s' r, verify_compact P s token keys an sigalg = (s', r) ->
  dget (s_dict s') (lit "alg") = dget (s_dict s) (lit "alg") \/
  exists v, dget (s_dict s') (lit "alg") = Some v /\ (truthy v = true -> dmem (s_dict s) (lit "alg") = true -> pval_eqb (kwarg (s_dict s) (lit "alg") VNone) v = true).
Proof.
  intros P s token keys an sigalg s' r H. unfold verify_compact in H.
  assert (G : forall j alg, verify_alg P (set_jwt s j) j keys sigalg alg = (s', r) -> dget (s_dict s') (lit "alg") = dget (s_dict s) (lit "alg") \/
    exists v, dget (s_dict s') (lit "alg") = Some v /\ (truthy v = true -> dmem (s_dict s) (lit "alg") = true -> pval_eqb (kwarg (s_dict s) (lit "alg") VNone) v = true)).
  { intros j alg V. unfold verify_alg in V. cbn [s_dict set_jwt] in V. destruct (dmem (s_dict s) (lit "alg") && truthy alg && negb (pval_eqb (kwarg (s_dict s) (lit "alg") VNone) alg)) eqn:E1; [injection V as <- <-; left; reflexivity|].
    destruct (truthy sigalg && negb (pval_eqb sigalg alg)); [injection V as <- <-; left; reflexivity|]. right. exists alg.
    split; [destruct (checked _ _ _ _ _) as [[k m]|]; injection V as <- <-; cbn [s_dict set_key set_msg set_alg set_jwt]; rewrite dget_dset; reflexivity|].
    intros A B. rewrite A, B in E1. cbn in E1. apply negb_false_iff in E1. exact E1. }
  destruct (bind _ _) as [j|]; [|injection H as <- <-; left; reflexivity]. destruct (py_get (j_headers j) (lit "alg")) as [alg|e].
  - destruct (none_alg alg) as [[|]|]; [|exact (G j alg H)|injection H as <- <-; left; reflexivity].
    destruct an; [|injection H as <- <-; left; reflexivity]. destruct (payload j); injection H as <- <-; left; reflexivity.
  - destruct e; try (injection H as <- <-; left; reflexivity). exact (G j VNone H).
Qed.

Lemma eqb_truthy : forall v w, pval_eqb v w = true -> truthy v = truthy w.
Proof.
  intros v w E. destruct v as [|[|]|z|f|s|s|l|d], w as [|[|]|z'|f'|s'|s'|l'|d']; cbn [pval_eqb] in E; try discriminate; try reflexivity.
  all: try (apply zs_eqb_eq in E; subst; reflexivity); cbn [truthy]; try (apply Z.eqb_eq in E; subst; reflexivity); try (rewrite Z.eqb_sym in E; destruct z'; try discriminate; reflexivity).
  - destruct l, l'; try discriminate; reflexivity.
  - destruct d, d'; try discriminate; reflexivity.
Qed.

Lemma pinned_step : forall P A s c, pinned A s -> pinned A (fst (do_call P s c)).
Proof.
  intros P A s c (v & D & V). unfold do_call. destruct (verify_compact P s (c_token c) (c_keys c) (c_none c) (c_sigalg c)) as [s' r] eqn:E. cbn [fst].
  apply verify_state in E. destruct E as [E|(w & E & W)]; [exists v; split; [congruence|exact V]|]. exists w. split; [exact E|].
  destruct (truthy w) eqn:T; [|right; reflexivity]. left. unfold dmem, kwarg in W. rewrite D in W. specialize (W eq_refl eq_refl).
  destruct V as [->|V]; [apply pval_eqb_strs in W; exact W|]. apply eqb_truthy in W. congruence.
Qed.
Lemma pinned_after : forall P A cs s, pinned A s -> pinned A (after P s cs).
Proof. induction cs as [|c cs IH]; intros s H; [exact H|]. cbn. apply IH, pinned_step, H. Qed.

Lemma valid_named : forall P a k i sg, valid_sig P a k i sg -> truthy (VStr a) = true.
Proof. intros P a k i sg V. apply valid_signer_verify in V. destruct V as (g & _ & G & _). eapply signers_truthy. exact G. Qed.

Lemma pinned_accepts : forall P A s token keys an sigalg s' m k, pinned A s -> verify_compact P s token keys an sigalg = (s', Ok (m, Some k)) ->
  dget (s_dict s) (lit "alg") = Some (VStr A) /\ exists j d, unpack token = Ok j /\ j_headers j = VDict d /\ dget d (lit "alg") = Some (VStr A).
Proof.
  intros P A s token keys an sigalg s' m k (v & V1 & V2) H. apply verify_accepted in H.
  destruct H as (j & h & p & s64 & sg & d & Pr & Pl & [(_ & _ & X)|(a & k' & t & kid & G & N & K & O & V & T & Kd & S & I1 & _)]); [discriminate|].
  unfold dmem in I1. rewrite V1 in I1. specialize (I1 eq_refl). injection I1 as ->. pose proof (valid_named _ _ _ _ _ V) as W. destruct V2 as [E|E]; [injection E as ->|congruence].
  split; [exact V1|]. exists j, d. split; [apply Pr|]. split; [apply Pr|exact G].
Qed.

(** The token of a call has algorithm [A] and gets past the algorithm checks on instance [s]. *)
Definition gets_past (s : jws) (c : call) (A : ustr) : Prop :=
  exists j d, unpack (c_token c) = Ok j /\ length (j_part j) = 3%nat /\ j_headers j = VDict d /\ dget d (lit "alg") = Some (VStr A) /\ lower A <> lit "none" /\
    (dget (s_dict s) (lit "alg") = None \/ A = [] \/ dget (s_dict s) (lit "alg") = Some (VStr A)) /\ (truthy (c_sigalg c) = false \/ c_sigalg c = VStr A).

Lemma gets_past_sets : forall P s c A, gets_past s c A -> dget (s_dict (fst (do_call P s c))) (lit "alg") = Some (VStr A).
Proof.
  intros P s c A (j & d & U & L & D & G & N & I & S). unfold do_call, verify_compact. rewrite U. cbn [bind]. rewrite L, Nat.eqb_refl, D. cbn [py_get]. rewrite G.
  assert (X : none_alg (VStr A) = Ok false) by (cbn [none_alg py_lower bind pval_eqb]; rewrite (proj2 (zs_eqb_neq _ _) N); reflexivity). rewrite X. unfold verify_alg. cbn [s_dict set_jwt].
  assert (Y : dmem (s_dict s) (lit "alg") && truthy (VStr A) && negb (pval_eqb (kwarg (s_dict s) (lit "alg") VNone) (VStr A)) = false).
  { unfold dmem, kwarg. destruct I as [I|[I|I]]; [rewrite I; reflexivity|subst A; rewrite andb_false_r; reflexivity|rewrite I; cbn; rewrite zs_eqb_refl, andb_false_r; reflexivity]. }
  rewrite Y. assert (Z : truthy (c_sigalg c) && negb (pval_eqb (c_sigalg c) (VStr A)) = false).
  { destruct S as [S|S]; rewrite S; [reflexivity|]. cbn [pval_eqb]. rewrite zs_eqb_refl. apply andb_false_r. }
  rewrite Z. destruct (checked _ _ _ _ _) as [[k m]|]; cbn [fst s_dict set_key set_msg set_alg set_jwt]; rewrite dget_dset; reflexivity.
Qed.

Theorem pinned_alg : forall P s A c0 cs c s' m k, gets_past s c0 A -> do_call P (after P (fst (do_call P s c0)) cs) c = (s', Ok (m, Some k)) ->
  exists j d, unpack (c_token c) = Ok j /\ j_headers j = VDict d /\ dget d (lit "alg") = Some (VStr A).
Proof.
  intros P s A c0 cs c s' m k G H. eapply pinned_accepts; [|exact H]. apply pinned_after. exists (VStr A). split; [apply gets_past_sets; exact G|left; reflexivity].
Qed.

(** After a token without (or with an empty) algorithm the instance accepts no signed token any more. *)
Definition poisoned (s : jws) : Prop := exists v, dget (s_dict s) (lit "alg") = Some v /\ truthy v = false.
Lemma poisoned_step : forall P s c, poisoned s -> poisoned (fst (do_call P s c)).
Proof.
  intros P s c (v & V1 & V2). unfold do_call. destruct (verify_compact P s (c_token c) (c_keys c) (c_none c) (c_sigalg c)) as [s' r] eqn:E. cbn [fst].
  apply verify_state in E. destruct E as [E|(w & E & W)]; [exists v; split; [congruence|exact V2]|]. exists w. split; [exact E|]. destruct (truthy w) eqn:T; [|reflexivity].
  unfold dmem, kwarg in W. rewrite V1 in W. specialize (W eq_refl eq_refl). apply eqb_truthy in W. congruence.
Qed.
Theorem poisoned_for_good : forall P s j d c0 cs c s' r, unpack (c_token c0) = Ok j -> length (j_part j) = 3%nat -> j_headers j = VDict d -> dget d (lit "alg") = None ->
  truthy (c_sigalg c0) = false ->
  do_call P (after P (fst (do_call P s c0)) cs) c = (s', r) -> forall m k, r <> Ok (m, Some k).
Proof.
  intros P s j d c0 cs c s' r U L D G S H m k ->.
  assert (Q : poisoned (fst (do_call P s c0))).
  { unfold do_call, verify_compact. rewrite U. cbn [bind]. rewrite L, Nat.eqb_refl, D. cbn [py_get]. rewrite G. unfold verify_alg. cbn [truthy]. rewrite S, andb_false_r. cbn [andb].
    exists VNone. split; [|reflexivity]. destruct (checked _ _ _ _ _) as [[k' m']|]; cbn [fst s_dict set_key set_msg set_alg set_jwt]; rewrite dget_dset; reflexivity. }
  assert (Q' : poisoned (after P (fst (do_call P s c0)) cs)).
  { generalize (fst (do_call P s c0)) Q. clear. induction cs as [|c cs IH]; intros s Q; [exact Q|]. cbn. apply IH, poisoned_step, Q. }
  destruct Q' as (v & V1 & V2). apply (pinned_accepts P (lit "x")) in H; [|exists v; auto]. destruct H as [H _]. rewrite V1 in H. injection H as ->. discriminate.
Qed.

(** C21, verification side. *)
Theorem verify_key_fits : forall P s token keys an sigalg s' m k, verify_compact P s token keys an sigalg = (s', Ok (m, Some k)) ->
  exists j d a kid, unpack token = Ok j /\ j_headers j = VDict d /\ dget d (lit "alg") = Some (VStr a) /\
    kid = match dget (s_dict s) (lit "kid") with Some v => v | None => kwarg d (lit "kid") VNone end /\ right_kid kid k /\ right_alg (VStr a) k.
Proof.
  intros P s token keys an sigalg s' m k H. apply verify_accepted in H. destruct H as (j & h & p & s64 & sg & d & Pr & Pl & [(_ & _ & A)|(a & k' & t & kid & A & N & K & O & V & T & Kd & (S1 & S2 & S3 & S4) & _)]); [discriminate|].
  injection K as <-. exists j, d, a, kid. split; [apply Pr|]. split; [apply Pr|]. repeat split; assumption.
Qed.

(** C22, the remaining cases. *)
Theorem pick_keys_none : forall s keys use alg, 
  (alg_or s alg = None -> pick_keys s keys use alg = Raise EKeyError) /\
  (alg_or s alg = Some (VStr (lit "none")) -> pick_keys s keys use alg = Ok []) /\
  (forall a, alg_or s alg = Some a -> alg2keytype a = Ok None -> pick_keys s keys use alg = Ok []).
Proof.
  intros s keys use alg. unfold pick_keys, alg_or. destruct (truthy alg); (split; [|split]).
  - discriminate.
  - intro H. injection H as ->. reflexivity.
  - intros a H T. injection H as ->. cbn [bind]. rewrite T. destruct (pval_eqb a (VStr (lit "none"))); reflexivity.
  - intros ->. reflexivity.
  - intros ->. reflexivity.
  - intros a -> T. cbn [bind]. rewrite T. destruct (pval_eqb a (VStr (lit "none"))); reflexivity.
Qed.

(** C23 *)
Theorem hmac_bound : forall P s token k an sigalg s' m ko j d a hh h p s64 sg, verify_compact P s token (Some [k]) an sigalg = (s', Ok (m, ko)) ->
  presented token j h p s64 sg d -> dget d (lit "alg") = Some (VStr a) -> In (a, hh) hs_algs ->
  exists secret, get_key k false = Ok (MObj (OVal (VBytes secret))) /\ b64d s64 = Ok (p_hmac P hh secret (h ++ 46 :: p)).
Proof.
  intros P s token k an sigalg s' m ko j d a hh h p s64 sg H Pr A I. apply verify_accepted in H.
  destruct H as (j' & h' & p' & s64' & sg' & d' & Pr' & _ & [(N & _)|(a' & k' & t & kid & A' & _ & _ & O & V & _)]).
  - exfalso. rewrite (presented_dict _ _ _ _ _ _ _ _ _ Pr' (pr_unpack _ _ _ _ _ _ _ Pr) (pr_dict _ _ _ _ _ _ _ Pr)) in N.
    destruct N as [N|(a' & N1 & N2)]; [congruence|]. rewrite A in N1. injection N1 as <-. cbn [In hs_algs] in I. repeat (destruct I as [I|I]; [injection I as <- <-; discriminate|]). destruct I.
  - rewrite (presented_dict _ _ _ _ _ _ _ _ _ Pr' (pr_unpack _ _ _ _ _ _ _ Pr) (pr_dict _ _ _ _ _ _ _ Pr)) in A'. rewrite A in A'. injection A' as <-.
    assert (E : h' ++ 46 :: p' ++ 46 :: s64' = h ++ 46 :: p ++ 46 :: s64) by (destruct Pr as [[->| ->] _ _ _ _ _], Pr' as [[X|X] _ _ _ _ _]; congruence).
    destruct Pr as [_ (D1 & D2 & D3) _ B _ _], Pr' as [_ (D1' & D2' & D3') _ B' _ _].
    assert (Q : h' = h /\ p' = p /\ s64' = s64).
    { assert (S : split 46 (join 46 [h'; p'; s64']) = split 46 (join 46 [h; p; s64])) by (cbn [join]; f_equal; exact E).
      rewrite !split_join in S; try (intros x [<-|[<-|[<-|[]]]]; assumption); try discriminate. injection S as -> -> ->. auto. }
    destruct Q as (-> & -> & ->). assert (k' = k) as -> by (destruct O as [(l & L & O)|[[O|O] _]]; [injection L as <-; destruct O as [O|[]]; congruence|discriminate|discriminate]).
    rewrite B in B'. injection B' as <-. destruct V as [h0 secret I0 G0 E0|sc h0 key I0 G0 E0|h0 bits c m' pt I0 C G0 Pt V].
    + exists secret. split; [exact G0|]. pose proof (signers_hs _ _ I0) as Y. rewrite (signers_hs _ _ I) in Y. injection Y as <-. congruence.
    + pose proof (signers_rs _ _ _ I0) as Y. rewrite (signers_hs _ _ I) in Y. discriminate.
    + pose proof (signers_es _ _ _ I0) as Y. rewrite (signers_hs _ _ I) in Y. discriminate.
Qed.
Theorem hmac_one_signature : forall P s1 s2 k an1 an2 g1 g2 t1 t2 s1' s2' m1 m2 ko1 ko2 j1 j2 d a hh h p x1 x2 b1 b2,
  verify_compact P s1 t1 (Some [k]) an1 g1 = (s1', Ok (m1, ko1)) -> verify_compact P s2 t2 (Some [k]) an2 g2 = (s2', Ok (m2, ko2)) ->
  presented t1 j1 h p x1 b1 d -> presented t2 j2 h p x2 b2 d -> dget d (lit "alg") = Some (VStr a) -> In (a, hh) hs_algs ->
  b1 = b2 /\ exists secret, get_key k false = Ok (MObj (OVal (VBytes secret))) /\ b1 = p_hmac P hh secret (h ++ 46 :: p).
Proof.
  intros P s1 s2 k an1 an2 g1 g2 t1 t2 s1' s2' m1 m2 ko1 ko2 j1 j2 d a hh h p x1 x2 b1 b2 H1 H2 P1 P2 A I.
  destruct (hmac_bound _ _ _ _ _ _ _ _ _ _ _ _ _ _ _ _ _ H1 P1 A I) as (k1 & K1 & B1). destruct (hmac_bound _ _ _ _ _ _ _ _ _ _ _ _ _ _ _ _ _ H2 P2 A I) as (k2 & K2 & B2).
  rewrite (pr_sig _ _ _ _ _ _ _ P1) in B1. rewrite (pr_sig _ _ _ _ _ _ _ P2) in B2. injection B1 as ->. injection B2 as ->. rewrite K1 in K2. injection K2 as <-. split; [reflexivity|]. exists k1. auto.
Qed.

(** C24 *)
Lemma F2_length : forall A B (R : A -> B -> Prop) l m, Forall2 R l m -> length l = length m.
Proof. intros A B R l m H. induction H; cbn; congruence. Qed.

Theorem three_segments_needed : forall P s txt keys an sigalg token, (token = VStr txt \/ token = VBytes txt) -> length (split 46 txt) <> 3%nat ->
  exists e, verify_compact P s token keys an sigalg = (s, Raise e).
Proof.
  intros P s txt keys an sigalg token T L. unfold verify_compact. destruct (unpack token) as [j|e] eqn:U; [|exists e; reflexivity]. cbn [bind].
  destruct (unpack_segments _ _ U) as (txt' & T' & B & _ & ps & Pt & F & _). assert (txt' = txt) by (destruct T as [->| ->], T' as [E|E]; congruence). subst txt'.
  assert (N : length (j_part j) <> 3%nat) by (rewrite Pt, map_length, <- (F2_length _ _ _ _ _ F), B; exact L). apply Nat.eqb_neq in N. rewrite N. eexists. reflexivity.
Qed.
