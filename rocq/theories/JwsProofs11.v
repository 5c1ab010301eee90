(** * JWS: what verify_compact can raise; more keys; the value of a signature *)
From Coq Require Import ZArith List Bool Lia.
From Verif Require Import Base BaseProofs Utf8 Codec CodecProofs Json JsonProofs Jwt JwtProofs Prims Elliptic Ecc PvalEq Jwk JwkProofs Jws JwsProofs JwsProofs2 JwsProofs3 JwsProofs6.
Import ListNotations.
Open Scope Z_scope.

(** ** Parsed JSON holds no octet strings *)
Definition is_bytes (v : pval) : bool := match v with VBytes _ => true | _ => false end.
Definition plain (v : pval) : bool :=
  match v with VBytes _ => false | VList l => negb (existsb is_bytes l) | VDict d => negb (existsb (fun kv => is_bytes (snd kv)) d) | _ => true end.
Lemma plain_dset : forall (d : dict) k v, existsb (fun kv => is_bytes (snd kv)) d = false -> is_bytes v = false -> existsb (fun kv => is_bytes (snd kv)) (dset d k v) = false.
Proof.
  induction d as [|[k' v'] d IH]; intros k v H V; cbn [dset existsb snd] in *; [rewrite V; reflexivity|]. apply orb_false_iff in H. destruct H as [H1 H2].
  destruct (zs_eqb k' k); cbn [existsb snd]; [rewrite V, H2|rewrite H1, IH by assumption]; reflexivity.
Qed.
Lemma plain_bytes : forall v, plain v = true -> is_bytes v = false.
Proof. intros [] H; cbn in *; congruence. Qed.
Lemma jatom_plain : forall s v r, jatom s = Ok (v, r) -> plain v = true.
Proof.
  intros s v r H. unfold jatom in H. repeat (destruct (strip _ s); [injection H as <- _; reflexivity|]).
  assert (N : forall neg s', jnum neg s' = Ok (v, r) -> plain v = true).
  { intros neg [|c s'] X; [discriminate|]. cbn [jnum] in X. assert (G : forall ds r', (let '(f, r1) := jfrac r' in let '(e, r2) := jexp r1 in
      match f ++ e with [] => Ok (VInt (if neg then - undec ds else undec ds), r2) | fe => Ok (VFloat ((if neg then [45] else []) ++ ds ++ fe), r2) end) = Ok (v, r) -> plain v = true).
    { intros ds r' Y. destruct (jfrac r') as [f r1]. destruct (jexp r1) as [e r2]. destruct (f ++ e); injection Y as <- _; reflexivity. }
    destruct (c =? 48); [eapply G; exact X|]. destruct (is_digit c); [|discriminate]. destruct (span_digits s') as [ds r']. eapply G; exact X. }
  destruct s as [|c s']; [discriminate|]. destruct (c =? 45); eapply N; exact H.
Qed.
Lemma jval_plain : forall n,
  (forall s v r, jval n s = Ok (v, r) -> plain v = true) /\
  (forall s acc v r, existsb (fun kv => is_bytes (snd kv)) acc = false -> jmembers n s acc = Ok (v, r) -> plain v = true) /\
  (forall s acc v r, existsb is_bytes acc = false -> jelems n s acc = Ok (v, r) -> plain v = true).
Proof.
  induction n as [|n (IHv & IHm & IHe)]; [repeat split; intros; discriminate|]. repeat split.
  - intros s v r H. destruct s as [|c s]; [discriminate|]. cbn [jval] in H.
    destruct (c =? 34). { destruct (jstr s) as [[u r1]|]; [|discriminate]. cbn [bind] in H. injection H as <- _. reflexivity. }
    destruct (c =? 123). { destruct (skip_ws s) as [|c1 r1]; [discriminate|]. destruct (c1 =? 125); [injection H as <- _; reflexivity|]. apply (IHm _ [] _ _ eq_refl H). }
    destruct (c =? 91). { destruct (skip_ws s) as [|c1 r1]; [discriminate|]. destruct (c1 =? 93); [injection H as <- _; reflexivity|]. apply (IHe _ [] _ _ eq_refl H). }
    eapply jatom_plain; exact H.
  - intros s acc v r A H. destruct s as [|c s]; [discriminate|]. cbn [jmembers] in H. destruct (negb (c =? 34)); [discriminate|].
    destruct (jstr s) as [[u r1]|]; [|discriminate]. cbn [bind snd fst] in H. destruct (skip_ws r1) as [|c1 r2]; [discriminate|]. destruct (negb (c1 =? 58)); [discriminate|].
    destruct (jval n (skip_ws r2)) as [[w r3]|] eqn:E; [|discriminate]. cbn [bind snd fst] in H. apply IHv in E. destruct (skip_ws r3) as [|c2 r4]; [discriminate|].
    assert (A' : existsb (fun kv => is_bytes (snd kv)) (dset acc u w) = false) by (apply plain_dset; [assumption|apply plain_bytes; exact E]).
    destruct (c2 =? 125); [injection H as <- _; cbn [plain]; rewrite A'; reflexivity|]. destruct (c2 =? 44); [|discriminate]. apply (IHm _ _ _ _ A' H).
  - intros s acc v r A H. cbn [jelems] in H. destruct (jval n s) as [[w r3]|] eqn:E; [|discriminate]. cbn [bind snd fst] in H. apply IHv in E. apply plain_bytes in E.
    destruct (skip_ws r3) as [|c2 r4]; [discriminate|]. assert (A' : existsb is_bytes (acc ++ [w]) = false) by (rewrite existsb_app; cbn [existsb]; rewrite A, E; reflexivity).
    destruct (c2 =? 93); [injection H as <- _; cbn [plain]; rewrite A'; reflexivity|]. destruct (c2 =? 44); [|discriminate]. apply (IHe _ _ _ _ A' H).
Qed.
Lemma decode_text_plain : forall s v, decode_text s = Ok v -> plain v = true.
Proof.
  intros s v H. unfold decode_text in H. destruct (jval _ _) as [[w r]|] eqn:E; [|discriminate]. cbn [bind snd fst] in H. apply jval_plain in E.
  destruct (skip_ws r); [injection H as <-; exact E|discriminate].
Qed.
Theorem loads_plain : forall s v, loads s = Ok v -> plain v = true.
Proof. intros [|c s] v H; unfold loads in H; [eapply decode_text_plain; exact H|]. destruct (c =? 65279); [discriminate|eapply decode_text_plain; exact H]. Qed.
Lemma loads_member : forall s d n v, loads s = Ok (VDict d) -> dget d n = Some v -> forall b, v <> VBytes b.
Proof.
  intros s d n v H G b ->. apply loads_plain in H. cbn [plain] in H. apply negb_true_iff in H. revert G H. induction d as [|[k w] d IH]; [discriminate|]. cbn [dget existsb snd].
  destruct (zs_eqb k n); [intros X; injection X as ->; discriminate|]. intros X Y. apply orb_false_iff in Y. exact (IH X (proj2 Y)).
Qed.

(** ** What verify_compact can raise *)
Definition kind_is (t : ustr) (k : jwk) : Prop := k_kty k = VStr t.
(** A key with everything its type needs. *)
Definition sound_key (k : jwk) : Prop :=
  match k_data k with
  | DRsa (ORsa _) _ => k_kty k = VStr (lit "RSA")
  | DSym (VBytes _) _ => k_kty k = VStr (lit "oct")
  | DEc _ _ (VInt x) (VInt y) _ _ => k_kty k = VStr (lit "EC") /\ x <> 0 /\ y <> 0
  | _ => False
  end.
Lemma muladdp_exn : forall p q n a x b y e, muladdp p q n a x b y = Raise e -> e = EIndexError.
Proof.
  intros p q n a x b y e H. unfold muladdp in H. destruct (muladdf p q n (to_projective a) x (to_projective b) y) as [|e'] eqn:M; [discriminate H|]. cbn [bind] in H. injection H as <-.
  unfold muladdf in M. cbv zeta in M.
  match type of M with fold_left (muladdf_step p q n ?pc) ?l (Ok None) = _ => set (pre := pc) in M; set (ij := l) in M end.
  assert (G : forall l acc, (forall e0, acc = Raise e0 -> e0 = EIndexError) -> forall e0, fold_left (muladdf_step p q n pre) l acc = Raise e0 -> e0 = EIndexError).
  { induction l as [|[i j] l IH]; intros acc A e0 E0; [exact (A e0 E0)|]. cbn [fold_left] in E0. apply IH in E0; [exact E0|]. intros e1 E1. unfold muladdf_step in E1.
    destruct acc as [r|ea]; cbn [bind] in E1; [|injection E1 as <-; apply A; reflexivity]. cbv zeta in E1. cbn [fst snd] in E1. destruct (negb (i =? 0) || negb (j =? 0)); [|discriminate E1].
    assert (I3 : forall B (t : B * B * B) z e2, idx3 t z = Raise e2 -> e2 = EIndexError).
    { intros B [[t1 t2] t3] z e2. unfold idx3. destruct (_ || _); [discriminate|]. destruct (_ || _); [discriminate|]. destruct (_ || _); [discriminate|]. congruence. }
    match type of E1 with bind ?m _ = _ => destruct m as [row|e2] eqn:R end.
    2:{ apply I3 in R. subst e2. cbn [bind] in E1. congruence. }
    cbn [bind] in E1. match type of E1 with bind ?m _ = _ => destruct m as [el|e2] eqn:R2 end; [discriminate E1|]. apply I3 in R2. subst e2. cbn [bind] in E1. congruence. }
  refine (G _ (Ok None) _ _ M). intros e0 X. discriminate X.
Qed.
Lemma ecc_verify_exn : forall c h sg p e, Ecc.verify c h sg p = Raise e -> e = EIndexError \/ e = ETypeError.
Proof.
  intros c h sg p e H. unfold Ecc.verify in H. cbv zeta in H. destruct (_ && _); [|discriminate H]. destruct (muladdp _ _ _ _ _ _ _) as [pt|e'] eqn:M; cbn [bind] in H.
  - destruct pt as [[x y]|]; [discriminate H|]. injection H as <-. right. reflexivity.
  - injection H as <-. left. eapply muladdp_exn. exact M.
Qed.
Definition rsa_quiet (P : prims) : Prop := forall sc h k m sg e, p_rsa_verify P sc h k m sg = Raise e -> is_ValueError e = true.

Lemma try_keys_exn : forall P g i sg ks e, try_keys P g i sg ks = Raise e -> e = EBadSignature \/ (e <> EIndexError /\ exists k, In k ks /\ (m <- get_key k false;; signer_verify P g i sg m) = Raise e).
Proof.
  induction ks as [|k ks IH]; intros e H; [cbn in H; injection H as <-; left; reflexivity|]. cbn [try_keys] in H.
  destruct (m <- get_key k false;; signer_verify P g i sg m) as [u|e1] eqn:V; [discriminate H|].
  assert (C : try_keys P g i sg ks = Raise e \/ (e = e1 /\ e1 <> EIndexError)) by (destruct e1; try (left; exact H); right; split; congruence).
  destruct C as [C|[-> NE]].
  - apply IH in C. destruct C as [C|(N & k' & I & C)]; [left; exact C|right]. split; [exact N|]. exists k'. split; [right; exact I|exact C].
  - right. split; [exact NE|]. exists k. split; [left; reflexivity|exact V].
Qed.
Lemma typed_kind : forall a g t, dget SIGNERS a = Some g -> alg2keytype (VStr a) = Ok (Some t) ->
  match g with HMACSigner _ => t = lit "oct" | RSASigner _ _ => t = lit "RSA" | DSASigner _ _ => t = lit "EC" end.
Proof.
  intros a g t G A. destruct (signers_cases a g G) as [(h & -> & I)|[(sc & h & -> & I)|(h & b & -> & I)]];
  cbn [In hs_algs rs_algs es_algs] in I; repeat (destruct I as [I|I]; [injection I; intros; subst; vm_compute in A; injection A as <-; reflexivity|]); destruct I.
Qed.
Lemma sound_verify_exn : forall P a g t k i sg e, rsa_quiet P -> dget SIGNERS a = Some g -> alg2keytype (VStr a) = Ok (Some t) -> right_type t k -> sound_key k ->
  (m <- get_key k false;; signer_verify P g i sg m) = Raise e -> e = EBadSignature \/ e = EIndexError \/ is_ValueError e = true \/ (e = ETypeError /\ exists h b, g = DSASigner h b).
Proof.
  intros P a g t k i sg e Q G A T S H. pose proof (typed_kind a g t G A) as K. unfold sound_key in S. unfold right_type in T.
  destruct g as [h|sc h|h b]; subst t.
  - destruct (k_data k) as [o|o nums|c1 c2 x y d c3|s kk] eqn:D; try contradiction.
    + destruct o; try contradiction. rewrite S in T. exfalso. vm_compute in T. intuition discriminate.
    + destruct x; try contradiction. destruct y; try contradiction. destruct S as [S _]. rewrite S in T. exfalso. vm_compute in T. intuition discriminate.
    + destruct s; try contradiction. unfold get_key in H. rewrite D in H. cbn [bind signer_verify as_secret] in H. destruct (constant_time_compare _ _); [discriminate H|]. injection H as <-. left. reflexivity.
  - destruct (k_data k) as [o|o nums|c1 c2 x y d c3|s kk] eqn:D; try contradiction.
    + destruct o; try contradiction. unfold get_key in H. rewrite D in H. cbn [bind signer_verify as_rsa] in H. destruct (p_rsa_verify P sc h k0 i sg) as [[|]|e1] eqn:V; [discriminate H|injection H as <-; left; reflexivity|].
      apply Q in V. rewrite V in H. destruct sc; injection H as <-; [left; reflexivity|right; right; left; exact V].
    + destruct x; try contradiction. destruct y; try contradiction. destruct S as [S _]. rewrite S in T. exfalso. vm_compute in T. intuition discriminate.
    + destruct s; try contradiction. rewrite S in T. exfalso. vm_compute in T. intuition discriminate.
  - destruct (k_data k) as [o|o nums|c1 c2 x y d c3|s kk] eqn:D; try contradiction.
    + destruct o; try contradiction. rewrite S in T. exfalso. vm_compute in T. intuition discriminate.
    + destruct x; try contradiction. destruct y; try contradiction. destruct S as (S & X & Y). unfold get_key in H. rewrite D in H. cbn [truthy] in H. apply Z.eqb_neq in X, Y. rewrite X, Y in H. cbn [negb andb bind signer_verify as_point as_int] in H.
      destruct (nist_curve b) as [c|e1] eqn:C.
      * cbn [bind] in H. destruct (Ecc.verify c (be2z (p_hash P h i)) sg (Some (z, z0))) as [[|]|e2] eqn:V; cbn [bind] in H; [discriminate H|injection H as <-; left; reflexivity|].
        injection H as <-. destruct (ecc_verify_exn _ _ _ _ _ V) as [->| ->]; [right; left; reflexivity|]. right. right. right. split; [reflexivity|]. exists h, b. reflexivity.
      * exfalso. destruct (signers_cases a _ G) as [(? & E & _)|[(? & ? & E & _)|(h' & b' & E & I)]]; try discriminate E. injection E as <- <-.
        cbn [In es_algs] in I. repeat (destruct I as [I|I]; [injection I; intros; subst; vm_compute in C; discriminate C|]). destruct I.
    + destruct s; try contradiction. rewrite S in T. exfalso. vm_compute in T. intuition discriminate.
Qed.

Definition not_text (v : pval) : Prop := forall t, v <> VStr t.
Definition twelve : list ustr := map fst hs_algs ++ map fst rs_algs ++ map fst es_algs.
Lemma signers_twelve : forall a, dget SIGNERS a = None -> ~ In a twelve.
Proof.
  intros a H I. unfold twelve in I. rewrite !in_app_iff in I. destruct I as [I|[I|I]]; apply in_map_iff in I; destruct I as ([a' g] & E & I); cbn [fst] in E; subst a'.
  - apply signers_hs in I. congruence.
  - destruct g. apply signers_rs in I. congruence.
  - destruct g. apply signers_es in I. congruence.
Qed.
Lemma payload_exn : forall token j d e, unpack token = Ok j -> length (j_part j) = 3%nat -> j_headers j = VDict d -> payload j = Raise e ->
  e = EAttributeError /\ exists v, dget d (lit "cty") = Some v /\ not_text v.
Proof.
  intros token j d e U L D H. pose proof (unpack_inv _ _ U) as (b & parts & ps & t & _ & _ & _ & _ & T & Lo & _ & Pt). rewrite Pt, map_length in L.
  assert (P1 : exists p, nth_error (j_part j) 1 = Some (VBytes p)). { rewrite Pt. destruct ps as [|p0 [|p1 ps]]; try discriminate L. exists p1. reflexivity. }
  destruct P1 as (p & P1). destruct (dget d (lit "cty")) as [v|] eqn:G.
  - destruct v; try (unfold payload in H; rewrite P1, D in H; cbn [py_in py_get] in H; unfold dmem in H; rewrite G in H; cbn [bind py_lower] in H; injection H as <-; split; [reflexivity|]; eexists; split; [reflexivity|]; intros tt; discriminate).
    + exfalso. destruct (list_eq_dec Z.eq_dec (lower s) (lit "jwt")) as [E|E].
      * destruct (payload_total j d p D P1) as (x & X); [left; right; exists s; split; assumption|congruence].
      * destruct (payload_total j d p D P1) as (x & X); [right; exists s; split; assumption|congruence].
    + exfalso. rewrite D in Lo. exact (loads_member _ _ _ _ Lo G b0 eq_refl).
  - exfalso. destruct (payload_total j d p D P1) as (x & X); [left; left; exact G|congruence].
Qed.

Theorem verify_raises : forall P s token ks an sigalg s' e, rsa_quiet P -> (exists t, token = VStr t \/ token = VBytes t) -> ks <> [] -> (forall k, In k ks -> sound_key k) ->
  verify_compact P s token (Some ks) an sigalg = (s', Raise e) ->
  e = EBadSyntax \/ is_ValueError e = true \/ In e [EWrongNumberOfParts; ESignerAlgError; ENoSuitableSigningKeys; EBadSignature] \/
  exists j, unpack token = Ok j /\
   ((e = ETypeError /\ forall d, j_headers j <> VDict d) \/
    exists d, j_headers j = VDict d /\
     ((e = EAttributeError /\ ((exists v, dget d (lit "alg") = Some v /\ not_text v /\ v <> VNone) \/ (exists v, dget d (lit "cty") = Some v /\ not_text v))) \/
      (e = EKeyError /\ (dget d (lit "alg") = None \/ exists a, dget d (lit "alg") = Some (VStr a) /\ ~ In a twelve)) \/
      (e = ETypeError /\ exists a, dget d (lit "alg") = Some (VStr a) /\ In a (map fst es_algs)))).
Proof.
  intros P s token ks an sigalg s' e Q TT NE SK H. unfold verify_compact in H.
  destruct (unpack token) as [j|eu] eqn:U; cbn [bind] in H.
  2:{ injection H as _ <-. destruct (unpack_exn token eu TT U) as [->|V]; [left; reflexivity|right; left; exact V]. }
  destruct (Nat.eqb (length (j_part j)) 3) eqn:L; [|injection H as _ <-; right; right; left; left; reflexivity]. apply Nat.eqb_eq in L.
  destruct (j_headers j) as [| | | | | | |d] eqn:D; cbn [py_get] in H;
  try (injection H as _ <-; right; right; right; exists j; split; [reflexivity|]; left; split; [reflexivity|]; intro d'; congruence).
  set (s1 := set_jwt s j) in *.
  (* the common case *)
  assert (VA : forall alg, (dget d (lit "alg") = None /\ alg = VNone) \/ (dget d (lit "alg") = Some alg /\ alg <> VNone /\ (exists a, alg = VStr a)) ->
    forall s2, verify_alg P s1 j (Some ks) sigalg alg = (s2, Raise e) ->
    In e [ESignerAlgError; ENoSuitableSigningKeys; EBadSignature] \/ is_ValueError e = true \/
    (e = EAttributeError /\ (exists v, dget d (lit "cty") = Some v /\ not_text v)) \/
    (e = EKeyError /\ (dget d (lit "alg") = None \/ exists a, dget d (lit "alg") = Some (VStr a) /\ ~ In a twelve)) \/
    (e = ETypeError /\ exists a, dget d (lit "alg") = Some (VStr a) /\ In a (map fst es_algs))).
  { intros alg AL s2 V. unfold verify_alg in V. destruct (_ && _ && _); [injection V as _ <-; left; cbn [In]; auto|].
    destruct (truthy sigalg && negb (pval_eqb sigalg alg)).
    { rewrite D in V. cbn [py_get] in V. destruct AL as [[AL _]|[AL _]]; rewrite AL in V; injection V as _ <-; [|left; cbn [In]; auto]. right. right. right. left. split; [reflexivity|]. left. exact AL. }
    cbv zeta in V. destruct (checked P (set_alg s1 alg) j (Some ks) alg) as [[k m]|ec] eqn:CK; [discriminate V|]. injection V as _ ->.
    unfold checked, jws_keys in CK. destruct ks as [|k0 ks0]; [contradiction NE; reflexivity|]. cbn [bind] in CK.
    unfold pick_keys in CK. change (truthy (VStr [])) with false in CK. cbn match in CK.
    assert (GA : dget (s_dict (set_alg s1 alg)) (lit "alg") = Some alg) by (cbn [set_alg s_dict]; rewrite dget_dset, zs_eqb_refl; reflexivity). rewrite GA in CK. cbn [bind] in CK.
    destruct (pval_eqb alg (VStr (lit "none"))) eqn:EN; [cbn [bind] in CK; injection CK as <-; left; cbn [In]; auto|].
    assert (RK : forall l, real_keys (map Some l) = Ok l). { induction l as [|x l IH]; [reflexivity|]. cbn [map real_keys]. rewrite IH. reflexivity. }
    assert (KF : exists kid, kid_in_force (set_alg s1 alg) = Ok kid).
    { unfold kid_in_force. destruct (dget (s_dict (set_alg s1 alg)) (lit "kid")) as [v|]; [exists v; reflexivity|]. change (s_jwt (set_alg s1 alg)) with (Some j). cbn match. rewrite D. cbn [py_get]. destruct (dget d (lit "kid")) as [v|]; [exists v|exists VNone]; reflexivity. }
    destruct KF as (kid & KF).
    assert (AT : (exists t, alg2keytype alg = Ok t)). { destruct AL as [[_ ->]|(_ & _ & a & ->)]; [exists (Some (lit "none")); reflexivity|]. unfold alg2keytype. destruct (negb _); [eexists; reflexivity|]. destruct (zs_eqb _ _); [eexists; reflexivity|]. destruct (_ || _); [eexists; reflexivity|]. destruct (_ || _); [eexists; reflexivity|]. destruct (_ || _); eexists; reflexivity. }
    destruct AT as (ot & AT). rewrite AT in CK. cbn [bind] in CK. destruct ot as [t|]; [|cbn [bind] in CK; injection CK as <-; left; cbn [In]; auto].
    rewrite RK, KF in CK. cbn [bind] in CK.
    destruct (filter (key_fits kid (VStr []) alg) (filter (kty_fits t) (k0 :: ks0))) as [|k1 ks1] eqn:FL; [injection CK as <-; left; cbn [In]; auto|].
    destruct AL as [[AL ->]|(AL & _ & a & ->)].
    { injection CK as <-. right. right. right. left. split; [reflexivity|]. left. exact AL. }
    destruct (dget SIGNERS a) as [g|] eqn:G.
    2:{ injection CK as <-. right. right. right. left. split; [reflexivity|]. right. exists a. split; [exact AL|]. apply signers_twelve. exact G. }
    destruct (try_keys P g (sign_input j) (signature j) (k1 :: ks1)) as [kk|et] eqn:TK; cbn [bind] in CK.
    - destruct (payload j) as [m|ep] eqn:PL; cbn [bind] in CK; [discriminate CK|]. injection CK as <-. destruct (payload_exn token j d ep U L D PL) as (-> & C). right. right. left. split; [reflexivity|exact C].
    - injection CK as <-. apply try_keys_exn in TK. destruct TK as [->|(NI & k & I & TK)]; [left; cbn [In]; auto|].
      rewrite <- FL in I. apply filter_In in I. destruct I as [I _]. apply filter_In in I. destruct I as [I KT]. apply kty_fits_spec in KT.
      destruct (sound_verify_exn P a g t k _ _ _ Q G AT KT (SK k I) TK) as [->|[X|[X|(X & h & b & ->)]]]; [left; cbn [In]; auto|contradiction|right; left; exact X|].
      right. right. right. right. split; [exact X|]. exists a. split; [exact AL|].
      destruct (signers_cases a _ G) as [(? & E & _)|[(? & ? & E & _)|(h' & b' & E & I')]]; try discriminate E. apply in_map_iff. exists (a, (h', b')). split; [reflexivity|exact I']. }
  assert (W : (In e [ESignerAlgError; ENoSuitableSigningKeys; EBadSignature] \/ is_ValueError e = true \/
    (e = EAttributeError /\ ((exists v, dget d (lit "alg") = Some v /\ not_text v /\ v <> VNone) \/ (exists v, dget d (lit "cty") = Some v /\ not_text v))) \/
    (e = EKeyError /\ (dget d (lit "alg") = None \/ exists a, dget d (lit "alg") = Some (VStr a) /\ ~ In a twelve)) \/
    (e = ETypeError /\ exists a, dget d (lit "alg") = Some (VStr a) /\ In a (map fst es_algs)))).
  { destruct (dget d (lit "alg")) as [alg|] eqn:GA.
    2:{ apply (VA VNone (or_introl (conj eq_refl eq_refl))) in H. intuition. }
    destruct (none_alg alg) as [nb|en] eqn:NA.
    - destruct nb.
      + destruct an.
        * destruct (payload j) as [m|ep] eqn:PL; [discriminate H|]. injection H as _ <-. destruct (payload_exn token j d ep U L D PL) as (-> & C). right. right. left. split; [reflexivity|right; exact C].
        * injection H as _ <-. left. cbn [In]. auto.
      + assert (AT : exists a, alg = VStr a).
        { destruct alg; try discriminate NA; [eexists; reflexivity|]. exfalso. pose proof (unpack_inv _ _ U) as (bb & parts & ps & t & _ & _ & _ & _ & T & Lo & _ & _). rewrite D in Lo. exact (loads_member _ _ _ _ Lo GA b eq_refl). }
        apply (VA alg) in H; [intuition|]. right. split; [reflexivity|]. split; [destruct AT as (a & ->); discriminate|exact AT].
    - injection H as _ <-. right. right. left. destruct alg; try discriminate NA; cbn in NA; injection NA as <-; (split; [reflexivity|left; eexists; split; [reflexivity|]; split; [intros ?; discriminate|discriminate]]). }
  destruct W as [W|[W|W]]; [right; right; left; cbn [In] in *; tauto|right; left; exact W|]. right. right. right. exists j. split; [reflexivity|]. right. exists d. split; [exact D|exact W].
Qed.

(** ** More keys *)
Lemma try_keys_app : forall P g i sg ks more k, try_keys P g i sg ks = Ok k -> try_keys P g i sg (ks ++ more) = Ok k.
Proof.
  induction ks as [|k0 ks IH]; intros more k H; [discriminate H|]. cbn [app try_keys] in *.
  destruct (m <- get_key k0 false;; signer_verify P g i sg m) as [u|e]; [exact H|]. destruct e; try discriminate H; apply IH; exact H.
Qed.
Lemma real_some : forall l, real_keys (map Some l) = Ok l.
Proof. induction l as [|x l IH]; [reflexivity|]. cbn [map real_keys]. rewrite IH. reflexivity. Qed.
Lemma pick_app : forall s ks more use alg l, pick_keys s (map Some ks) use alg = Ok l -> exists l', pick_keys s (map Some (ks ++ more)) use alg = Ok (l ++ l').
Proof.
  intros s ks more use alg l H. unfold pick_keys in *. destruct (if truthy alg then Ok alg else _) as [a|]; [|discriminate H]. cbn [bind] in *.
  destruct (pval_eqb a (VStr (lit "none"))); [injection H as <-; exists []; reflexivity|]. destruct (alg2keytype a) as [[t|]|]; [| |discriminate H]; cbn [bind] in *; [|injection H as <-; exists []; reflexivity].
  rewrite real_some in H |- *. cbn [bind] in *. destruct (kid_in_force s) as [kid|]; [|discriminate H]. cbn [bind] in *. injection H as <-. rewrite !filter_app. eexists. reflexivity.
Qed.
Theorem more_keys : forall P s token ks more an sigalg s' m k, ks <> [] -> verify_compact P s token (Some ks) an sigalg = (s', Ok (m, k)) ->
  verify_compact P s token (Some (ks ++ more)) an sigalg = (s', Ok (m, k)).
Proof.
  intros P s token ks more an sigalg s' m k NE H. unfold verify_compact in *.
  destruct (j <- unpack token;; if Nat.eqb (length (j_part j)) 3 then Ok j else Raise EWrongNumberOfParts) as [j|]; [|discriminate H]. cbv zeta in *.
  assert (VA : forall alg, verify_alg P (set_jwt s j) j (Some ks) sigalg alg = (s', Ok (m, k)) -> verify_alg P (set_jwt s j) j (Some (ks ++ more)) sigalg alg = (s', Ok (m, k))).
  { intros alg V. unfold verify_alg in V |- *. clear H. destruct (dmem _ _ && _ && _); [discriminate V|]. destruct (truthy sigalg && _); [discriminate V|]. cbv zeta in V |- *.
    destruct (checked P (set_alg (set_jwt s j) alg) j (Some ks) alg) as [[k1 m1]|] eqn:C; [|discriminate V].
    assert (C' : checked P (set_alg (set_jwt s j) alg) j (Some (ks ++ more)) alg = Ok (k1, m1)).
    { unfold checked, jws_keys in *. destruct ks as [|k0 ks0]; [contradiction NE; reflexivity|]. cbn [app bind] in *.
      destruct (pick_keys (set_alg (set_jwt s j) alg) (map Some (k0 :: ks0)) (VStr []) (VStr [])) as [l|] eqn:PK; [|discriminate C]. cbn [bind] in C.
      destruct (pick_app _ _ more _ _ _ PK) as (l' & PK'). cbn [app] in PK'. rewrite PK'. cbn [bind]. destruct l as [|l0 l]; [discriminate C|]. cbn [app].
      destruct alg; try discriminate C. destruct (dget SIGNERS s0) as [g|]; [|discriminate C]. destruct (try_keys P g (sign_input j) (signature j) (l0 :: l)) as [kk|] eqn:TK; [|discriminate C].
      rewrite (try_keys_app _ _ _ _ _ l' _ TK : try_keys P g (sign_input j) (signature j) (l0 :: l ++ l') = Ok kk). exact C. }
    rewrite C'. exact V. }
  destruct (py_get (j_headers j) (lit "alg")) as [alg|e].
  - destruct (none_alg alg) as [[|]|]; [exact H|apply VA; exact H|discriminate H].
  - destruct e; try discriminate H. apply VA. exact H.
Qed.

(** ** The value of a signature *)
(** What RFC 7518, section 3, asks of the signature [sg] of [input] made with key [k]. *)
Inductive made_sig (P : prims) (E : entropy) (a : ustr) (k : jwk) (input sg : bytes) : Prop :=
| made_hs : forall h secret, In (a, h) hs_algs -> get_key k true = Ok (MObj (OVal (VBytes secret))) -> sg = p_hmac P h secret input -> made_sig P E a k input sg
| made_rs : forall sc h key, In (a, (sc, h)) rs_algs -> get_key k true = Ok (MObj (ORsa key)) -> p_rsa_sign P sc h key (e_oct E) input = Ok sg -> made_sig P E a k input sg
| made_es : forall h bits c m d, In (a, (h, bits)) es_algs -> nist_curve bits = Ok c -> get_key k true = Ok m -> as_priv m = Ok d ->
    Ecc.sign c (e_fuel E) (be2z (p_hash P h input)) d None (e_bits E) = Ok sg -> made_sig P E a k input sg.
Lemma signer_sign_made : forall P E a g k m input sg, dget SIGNERS a = Some g -> get_key k true = Ok m -> signer_sign P g E input m = Ok sg -> made_sig P E a k input sg.
Proof.
  intros P E a g k m input sg G M H. destruct (signers_cases a g G) as [(h & -> & I)|[(s & h & -> & I)|(h & b & -> & I)]]; cbn [signer_sign] in H.
  - destruct m as [[| |[| | | | |b| |]]|]; try discriminate. cbn [as_secret bind] in H. apply Ok_inj in H. eapply made_hs; [exact I|exact M|]. congruence.
  - destruct m as [[r| |]|]; try discriminate. cbn [as_rsa bind] in H. eapply made_rs; eassumption.
  - destruct (nist_curve b) as [c|] eqn:C; [|discriminate]. cbn [bind] in H. destruct (as_priv m) as [d|] eqn:D; [|discriminate]. cbn [bind] in H. eapply made_es; eassumption.
Qed.
From Verif Require Import EcSpec EcProofs EccProofs Nist EcAux JwsProofs4 JwsProofs5.
(** The signature of FIPS 186: r is the x coordinate of k*G modulo N, s the value with s*k = h + r*d modulo N; both are
    written in as many octets as the field has. *)
Theorem ecdsa_value : forall bits c fuel h d rnds sg, nist_curve bits = Ok c -> Ecc.sign c fuel h d None rnds = Ok sg ->
  exists k r s x y, k = rnds 0%nat mod (c_N c - 1) + 1 /\ 1 <= k <= c_N c - 1 /\ 0 <= x < c_p c /\ 0 <= y < c_p c /\ GP (c_p c) x y = gmul (c_p c) (- c_a c) k (den (c_p c) (Some (c_G c))) /\
    r = x mod c_N c /\ 0 < r < c_N c /\ 0 < s < c_N c /\ (s * k) mod c_N c = (trunc h (c_N c) + r * d) mod c_N c /\
    sg = z2be (Z.to_nat (c_bytes c)) r ++ z2be (Z.to_nat (c_bytes c)) s.
Proof.
  intros bits c fuel h d rnds sg C H. pose proof (nist_sound bits c C) as SC. unfold Ecc.sign in H. destruct (sign_loop c fuel 0 0 (trunc h (c_N c)) None d rnds 0) as [[r s]|] eqn:E; [|discriminate H].
  cbn [bind fst snd] in H. apply Ok_inj in H. subst sg. apply (sign_loop_ok c SC) in E; [|discriminate|left; reflexivity].
  destruct E as (k & [E|[_ E]] & K0 & x & y & X & Y & P & R & R0 & SS & S0); [discriminate E|]. pose proof (sc_N c SC) as HN. pose proof (Z.mod_pos_bound x (c_N c) ltac:(lia)). pose proof (Z.mod_pos_bound (rnds 0%nat) (c_N c - 1) ltac:(lia)).
  assert (B : c_N c <= 256 ^ c_bytes c) by (pose proof (sc_Nsize c SC); lia).
  exists k, r, s, x, y. rewrite !(int2bytes_fixed c SC) by lia. repeat split; lia || assumption.
Qed.

(** ** Keys in front *)
Lemma pick_front : forall s pre ks use alg l, pick_keys s (map Some ks) use alg = Ok l -> l <> [] ->
  exists a t lp, (alg_or s alg = Some a) /\ alg2keytype a = Ok (Some t) /\ pick_keys s (map Some (pre ++ ks)) use alg = Ok (lp ++ l) /\ forall k, In k lp -> In k pre /\ right_type t k.
Proof.
  intros s pre ks use alg l H NE. unfold pick_keys in *. unfold alg_or.
  destruct (if truthy alg then Ok alg else match dget (s_dict s) (lit "alg") with Some a => Ok a | None => Raise EKeyError end) as [a|] eqn:A; [|discriminate H]. cbn [bind] in *.
  destruct (pval_eqb a (VStr (lit "none"))); [injection H as <-; contradiction NE; reflexivity|]. destruct (alg2keytype a) as [[t|]|] eqn:T; [| |discriminate H]; cbn [bind] in *; [|injection H as <-; contradiction NE; reflexivity].
  rewrite real_some in H |- *. cbn [bind] in *. destruct (kid_in_force s) as [kid|]; [|discriminate H]. cbn [bind] in *. injection H as <-. rewrite !filter_app.
  exists a, t, (filter (key_fits kid use a) (filter (kty_fits t) pre)). split.
  - destruct (truthy alg); [congruence|]. destruct (dget (s_dict s) (lit "alg")); congruence.
  - split; [exact T|]. split; [reflexivity|]. intros k I. apply filter_In in I. destruct I as [I _]. apply filter_In in I. destruct I as [I J]. split; [exact I|]. apply kty_fits_spec. exact J.
Qed.
Lemma try_front : forall P g i sg pre ks k, (forall x, In x pre -> forall e, (m <- get_key x false;; signer_verify P g i sg m) = Raise e -> e = EBadSignature) ->
  try_keys P g i sg ks = Ok k -> exists k', try_keys P g i sg (pre ++ ks) = Ok k'.
Proof.
  induction pre as [|x pre IH]; intros ks k A H; [exists k; exact H|]. cbn [app try_keys].
  destruct (m <- get_key x false;; signer_verify P g i sg m) as [u|e] eqn:E; [exists x; reflexivity|].
  rewrite (A x (or_introl eq_refl) e E). apply IH with k; [|exact H]. intros y Y. apply A. right. exact Y.
Qed.
Lemma sound_front : forall P a g t k i sg e, (forall sc h r m s b, p_rsa_verify P sc h r m s <> Raise b) -> In a (map fst hs_algs ++ map fst rs_algs) -> dget SIGNERS a = Some g ->
  alg2keytype (VStr a) = Ok (Some t) -> right_type t k -> sound_key k -> (m <- get_key k false;; signer_verify P g i sg m) = Raise e -> e = EBadSignature.
Proof.
  intros P a g t k i sg e Q IA G A T S H. pose proof (typed_kind a g t G A) as K. unfold sound_key in S. unfold right_type in T.
  destruct g as [h|sc h|h b]; subst t.
  - destruct (k_data k) as [o|o nums|c1 c2 x y d c3|s kk] eqn:D; try contradiction.
    + destruct o; try contradiction. rewrite S in T. exfalso. vm_compute in T. intuition discriminate.
    + destruct x; try contradiction. destruct y; try contradiction. destruct S as [S _]. rewrite S in T. exfalso. vm_compute in T. intuition discriminate.
    + destruct s; try contradiction. unfold get_key in H. rewrite D in H. cbn [bind signer_verify as_secret] in H. destruct (constant_time_compare _ _); [discriminate H|]. injection H as <-. reflexivity.
  - destruct (k_data k) as [o|o nums|c1 c2 x y d c3|s kk] eqn:D; try contradiction.
    + destruct o; try contradiction. unfold get_key in H. rewrite D in H. cbn [bind signer_verify as_rsa] in H. destruct (p_rsa_verify P sc h k0 i sg) as [[|]|e1] eqn:V; [discriminate H|injection H as <-; reflexivity|].
      apply Q in V. destruct V.
    + destruct x; try contradiction. destruct y; try contradiction. destruct S as [S _]. rewrite S in T. exfalso. vm_compute in T. intuition discriminate.
    + destruct s; try contradiction. rewrite S in T. exfalso. vm_compute in T. intuition discriminate.
  - exfalso. apply in_app_or in IA. destruct IA as [I|I]; apply in_map_iff in I; destruct I as ([a' x] & E & I); cbn [fst] in E; subst a'.
    + apply signers_hs in I. congruence.
    + destruct x. apply signers_rs in I. congruence.
Qed.
Theorem front_keys : forall P s token j d a pre ks an sigalg s' m k, (forall sc h r m s b, p_rsa_verify P sc h r m s <> Raise b) -> ks <> [] -> (forall x, In x pre -> sound_key x) ->
  unpack token = Ok j -> j_headers j = VDict d -> dget d (lit "alg") = Some (VStr a) -> In a (map fst hs_algs ++ map fst rs_algs) ->
  verify_compact P s token (Some ks) an sigalg = (s', Ok (m, k)) ->
  exists s'' k', verify_compact P s token (Some (pre ++ ks)) an sigalg = (s'', Ok (m, k')).
Proof.
  intros P s token j d a pre ks an sigalg s' m k Q NE SK U D GA IA H. unfold verify_compact in *. rewrite U in *. cbn [bind] in *.
  destruct (Nat.eqb (length (j_part j)) 3); [|discriminate H]. cbv zeta in *. rewrite D in *. cbn [py_get] in *. rewrite GA in *.
  destruct (none_alg (VStr a)) as [[|]|] eqn:NA; [|clear NA|discriminate H].
  { exfalso. apply in_app_or in IA. destruct IA as [I|I]; apply in_map_iff in I; destruct I as ([a' x] & E & I); cbn [fst] in E; subst a'; cbn [In hs_algs rs_algs] in I;
      repeat (destruct I as [I|I]; [injection I; intros; subst; vm_compute in NA; discriminate NA|]); destruct I. }
  unfold verify_alg in *. destruct (dmem _ _ && _ && _); [discriminate H|]. destruct (truthy sigalg && _); [discriminate H|]. cbv zeta in *.
  destruct (checked P (set_alg (set_jwt s j) (VStr a)) j (Some ks) (VStr a)) as [[k1 m1]|] eqn:C; [|discriminate H]. injection H as _ <- _.
  assert (C' : exists k2, checked P (set_alg (set_jwt s j) (VStr a)) j (Some (pre ++ ks)) (VStr a) = Ok (k2, m1)).
  { unfold checked in *. assert (J1 : jws_keys P (set_alg (set_jwt s j) (VStr a)) (Some ks) = Ok (map Some ks)) by (destruct ks; [contradiction NE; reflexivity|reflexivity]).
    assert (J2 : jws_keys P (set_alg (set_jwt s j) (VStr a)) (Some (pre ++ ks)) = Ok (map Some (pre ++ ks))) by (destruct pre; [exact J1|reflexivity]).
    rewrite J1 in C. rewrite J2. cbn [bind] in *.
    destruct (pick_keys (set_alg (set_jwt s j) (VStr a)) (map Some ks) (VStr []) (VStr [])) as [l|] eqn:PK; [|discriminate C]. cbn [bind] in C.
    assert (L : l <> []) by (intros ->; discriminate C).
    destruct (pick_front _ pre _ _ _ _ PK L) as (a' & t & lp & A' & T & PK' & LP). rewrite PK'. cbn [bind].
    assert (a' = VStr a). { unfold alg_or, set_alg in A'. cbn [truthy s_dict] in A'. rewrite dget_dset_same in A'. congruence. } subst a'.
    destruct (lp ++ l) as [|z0 zs] eqn:Z0; [destruct lp; [contradiction L|discriminate Z0]|]. rewrite <- Z0.
    destruct l as [|l0 l]; [contradiction L; reflexivity|]. destruct (dget SIGNERS a) as [g|] eqn:G; [|discriminate C].
    destruct (try_keys P g (sign_input j) (signature j) (l0 :: l)) as [kk|] eqn:TK; [|discriminate C]. cbn [bind] in C.
    destruct (try_front P g (sign_input j) (signature j) lp (l0 :: l) kk) as (k' & TK'); [|exact TK|].
    - intros x X e E. destruct (LP x X) as [X1 X2]. exact (sound_front P a g t x _ _ e Q IA G T X2 (SK x X1) E).
    - rewrite TK'. cbn [bind]. destruct (payload j) as [pl|]; [|discriminate C]. cbn [bind] in *. injection C as _ <-. exists k'. reflexivity. }
  destruct C' as (k2 & ->). eexists _, _. reflexivity.
Qed.

(** ** As stated in PropMore *)
Theorem signature_value : forall P E s keys protected s' tok, sign_compact P E s keys protected = (s', Ok tok) -> chosen s keys <> VStr (lit "none") ->
  exists a k input sg, chosen s keys = VStr a /\ offered s keys k /\ utf8_decode input = Ok (firstn (length tok - S (length (b64e sg))) tok) /\
    tok = firstn (length tok - S (length (b64e sg))) tok ++ 46 :: b64e sg /\
    ((exists h secret, In (a, h) hs_algs /\ get_key k true = Ok (MObj (OVal (VBytes secret))) /\ sg = p_hmac P h secret input) \/
     (exists sc h key, In (a, (sc, h)) rs_algs /\ get_key k true = Ok (MObj (ORsa key)) /\ p_rsa_sign P sc h key (e_oct E) input = Ok sg) \/
     (exists h bits c d m, In (a, (h, bits)) es_algs /\ nist_curve bits = Ok c /\ get_key k true = Ok m /\ as_priv m = Ok d /\
        exists n r t x y, n = e_bits E 0%nat mod (c_N c - 1) + 1 /\ 0 <= x < c_p c /\ 0 <= y < c_p c /\ GP (c_p c) x y = gmul (c_p c) (- c_a c) n (den (c_p c) (Some (c_G c))) /\
          r = x mod c_N c /\ 0 < r < c_N c /\ 0 < t < c_N c /\ (t * n) mod c_N c = (trunc (be2z (p_hash P h input)) (c_N c) + r * d) mod c_N c /\
          sg = z2be (Z.to_nat (c_bytes c)) r ++ z2be (Z.to_nat (c_bytes c)) t)).
Proof.
  intros P E s keys protected s' tok H N. destruct (never_unsigned _ _ _ _ _ _ _ H N) as (a & g & k & t & kid & i & m & sg & C & G & _ & _ & O & _ & GK & SG & U & T).
  exists a, k, i, sg. split; [exact C|]. split; [exact O|]. split; [exact U|]. split; [exact T|].
  destruct (signer_sign_made P E a g k m i sg G GK SG) as [h secret I K S1|sc h key I K S1|h bits c m' d I B K D S1].
  - left. exists h, secret. auto.
  - right; left. exists sc, h, key. auto.
  - right; right. exists h, bits, c, d, m'. split; [exact I|]. split; [exact B|]. split; [exact K|]. split; [exact D|].
    destruct (ecdsa_value bits c _ _ _ _ _ B S1) as (n & r & t' & x & y & E1 & _ & E2). exists n, r, t', x, y. split; [exact E1|exact E2].
Qed.
