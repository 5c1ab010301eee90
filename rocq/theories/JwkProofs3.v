(** * Proofs about keys: the constructors, extra members, wrapping, key material *)
From Coq Require Import ZArith List Bool Lia ZifyBool.
From Verif Require Import Base BaseProofs Utf8 Codec CodecProofs Json JsonProofs Jwt JwtProofs Prims Elliptic Ecc PvalEq Jwk JwkProofs JwkProofs2 ExtraProofs.
Import ListNotations.
Open Scope Z_scope.

(** ** What every constructor keeps *)

(** Names that never become extra members. *)
Definition eight : list ustr := [lit "kty"; lit "alg"; lit "use"; lit "kid"; lit "key"; lit "x5c"; lit "x5t"; lit "x5u"].
Definition own_names (kty : pval) : list ustr :=
  if pval_eqb kty (VStr (lit "RSA")) then [lit "n"; lit "e"; lit "d"; lit "p"; lit "q"; lit "dp"; lit "dq"; lit "di"; lit "qi"]
  else if pval_eqb kty (VStr (lit "oct")) then [lit "k"; lit "mtrl"]
  else if pval_eqb kty (VStr (lit "EC")) then [lit "crv"; lit "x"; lit "y"; lit "d"; lit "curve"]
  else [].

(** [k] was made with the keyword arguments [kw], default type [dflt] and the own names [names]. *)
Definition keeps (kw : dict) (dflt : ustr) (names : list ustr) (k : jwk) : Prop :=
  dmem kw (lit "self") = false /\
  k_kty k = textual (kwarg kw (lit "kty") (VStr dflt)) /\ k_alg k = textual (kwarg kw (lit "alg") (VStr [])) /\
  k_use k = textual (kwarg kw (lit "use") (VStr [])) /\ k_kid k = textual (kwarg kw (lit "kid") (VStr [])) /\
  k_x5c k = (let x := kwarg kw (lit "x5c") VNone in if truthy x then x else VList []) /\
  k_x5t k = kwarg kw (lit "x5t") (VStr []) /\ k_x5u k = kwarg kw (lit "x5u") (VStr []) /\
  k_extra k = filter (fun p => negb (in_names (fst p) (eight ++ names))) kw.

Lemma init_keeps : forall kw dflt names data k, key_init kw dflt names data = Ok k -> keeps kw dflt names k /\ k_data k = data /\ k_hash k = None.
Proof.
  intros kw dflt names data k H. unfold key_init in H. destruct (dmem kw (lit "self")) eqn:S; [discriminate|]. apply Ok_inj in H. subst k. unfold keeps. cbn [k_kty k_alg k_use k_kid k_x5c k_x5t k_x5u k_extra k_data k_hash]. repeat split. exact S.
Qed.
Lemma init_total : forall kw dflt names data, dmem kw (lit "self") = false -> exists k, key_init kw dflt names data = Ok k.
Proof. intros kw dflt names data S. unfold key_init. rewrite S. eauto. Qed.
Lemma keeps_data : forall kw dflt names k d, keeps kw dflt names k -> keeps kw dflt names (set_data k d).
Proof. intros kw dflt names k d H. exact H. Qed.

Lemma rsa_keeps : forall P kw key k, rsa_new P kw key = Ok k -> keeps kw (lit "RSA") (own_names (VStr (lit "RSA"))) k /\ exists o nums, k_data k = DRsa o nums.
Proof.
  intros P kw key k H. unfold rsa_new in H. cbv zeta in H. destruct (key_init kw (lit "RSA") rsa_longs _) as [k0|] eqn:K; [|discriminate]. cbn [bind] in H.
  apply init_keeps in K. destruct K as (K & D & _). change rsa_longs with (own_names (VStr (lit "RSA"))) in K at 1.
  destruct (py_len _) as [ln|]; [|discriminate]. cbn [bind] in H. destruct (if Nat.ltb 0 ln then _ else _) as [le|]; [|discriminate]. cbn [bind] in H. destruct (py_len (k_x5c k0)) as [lx|]; [|discriminate]. cbn [bind] in H.
  destruct (negb (otruthy key) && _).
  - destruct (rsa_deserialize _ _ _ _) as [[o nums]|]; [|discriminate]. cbn [bind] in H. apply Ok_inj in H. subst k. split; [exact K|cbn [set_data k_data]; eauto].
  - destruct (otruthy key && _).
    + destruct (rsa_split _ _) as [nums|]; [|discriminate]. cbn [bind] in H. apply Ok_inj in H. subst k. split; [exact K|cbn [set_data k_data]; eauto].
    + apply Ok_inj in H. subst k. split; [exact K|eauto].
Qed.
Lemma ec_load_data : forall k key rnd k', ec_load_key k key rnd = Ok k' -> exists d, k' = set_data k d /\ match d with DEc _ _ _ _ _ _ => True | _ => False end.
Proof.
  intros k key rnd k' H. unfold ec_load_key in H. destruct key; try discriminate. destruct (k_data k); try discriminate. destruct (key_pair c rnd) as [d0 [[x0 y0]|]]; [|discriminate]. apply Ok_inj in H. subst k'. eexists. split; [reflexivity|exact I].
Qed.
Lemma ec_keeps : forall kw key cv rnd k, ec_new kw key cv rnd = Ok k -> keeps kw (lit "EC") (own_names (VStr (lit "EC"))) k /\ exists o crv x y d c, k_data k = DEc o crv x y d c.
Proof.
  intros kw key cv rnd k H. unfold ec_new in H. cbv zeta in H. destruct (key_init kw (lit "EC") ec_params _) as [k0|] eqn:K; [|discriminate]. cbn [bind] in H.
  apply init_keeps in K. destruct K as (K & D & _). change ec_params with (own_names (VStr (lit "EC"))) in K at 1.
  destruct (truthy _ && negb (otruthy cv)).
  - destruct (verify_loop _) as [[l b]|]; [|discriminate]. cbn [bind] in H. destruct (if b then _ else _) as [u|]; [|discriminate]. cbn [bind] in H. destruct l as [|x1 [|y1 [|d1 [|]]]]; try discriminate.
    destruct (ec_deserialize _ _ _ _) as [[[[x2 y2] d2] c]|]; [|discriminate]. cbn [bind] in H. apply Ok_inj in H. subst k. split; [exact K|cbn [set_data k_data]; eauto 10].
  - destruct (otruthy key && _ && _).
    + apply ec_load_data in H. destruct H as (d & -> & M). split; [exact K|]. destruct d; try contradiction. cbn [set_data k_data]. eauto 10.
    + apply Ok_inj in H. subst k. split; [exact K|rewrite D; eauto 10].
Qed.
Lemma sym_keeps : forall kw key k, sym_new kw key = Ok k -> keeps kw (lit "oct") (own_names (VStr (lit "oct"))) k /\ exists s kk, k_data k = DSym s kk.
Proof.
  intros kw key k H. unfold sym_new in H. cbv zeta in H. destruct (as_bytes key) as [s|]; [|discriminate]. cbn [bind] in H. destruct (key_init kw (lit "oct") sym_params _) as [k0|] eqn:K; [|discriminate]. cbn [bind] in H.
  apply init_keeps in K. destruct K as (K & D & _). change sym_params with (own_names (VStr (lit "oct"))) in K at 1.
  destruct (negb (truthy s) && _).
  - destruct (as_bytes _) as [k1|]; [|discriminate]. cbn [bind] in H. destruct (py_bytes k1); [|discriminate]. cbn [bind] in H. destruct (b64d _); [|discriminate]. cbn [bind] in H. apply Ok_inj in H. subst k. split; [exact K|cbn [set_data k_data]; eauto].
  - apply Ok_inj in H. subst k. split; [exact K|eauto].
Qed.

(** keyrep: the class is chosen by kty. *)
Definition class_of (kty : pval) (k : jwk) : Prop :=
  match k_data k with
  | DRsa _ _ => kty = VStr (lit "RSA")
  | DSym _ _ => kty = VStr (lit "oct")
  | DEc _ _ _ _ _ _ => kty = VStr (lit "EC")
  | DKey _ => kty <> VStr (lit "RSA") /\ kty <> VStr (lit "oct") /\ kty <> VStr (lit "EC")
  end.
Lemma eqb_lit : forall v s, pval_eqb v (VStr s) = true -> v = VStr s.
Proof. intros v s H. destruct v; try discriminate H. cbn [pval_eqb] in H. apply zs_eqb_eq in H. congruence. Qed.
Lemma neqb_lit : forall v s, pval_eqb v (VStr s) = false -> v <> VStr s.
Proof. intros v s H ->. cbn [pval_eqb] in H. rewrite zs_eqb_refl in H. discriminate. Qed.

Theorem keyrep_keeps : forall P d k, keyrep P (VDict d) = Ok k ->
  exists kty kw dflt, dget d (lit "kty") = Some kty /\ enc_values d = Ok kw /\ class_of kty k /\ keeps kw dflt (own_names kty) k.
Proof.
  intros P d k H. unfold keyrep in H. destruct (enc_values d) as [kw|]; [|discriminate]. cbn [bind] in H. destruct (dget d (lit "kty")) as [kty|]; [|discriminate]. unfold dispatch in H. cbv zeta in H. unfold class_of, own_names.
  destruct (pval_eqb kty (VStr (lit "RSA"))) eqn:E1.
  { apply eqb_lit in E1. subst kty. apply rsa_keeps in H. destruct H as (K & o & nums & D). exists (VStr (lit "RSA")), kw, (lit "RSA"). rewrite D. repeat split; apply K. }
  destruct (pval_eqb kty (VStr (lit "oct"))) eqn:E2.
  { apply eqb_lit in E2. subst kty. apply sym_keeps in H. destruct H as (K & s & kk & D). exists (VStr (lit "oct")), kw, (lit "oct"). rewrite D. repeat split; apply K. }
  destruct (pval_eqb kty (VStr (lit "EC"))) eqn:E3.
  { apply eqb_lit in E3. subst kty. apply ec_keeps in H. destruct H as (K & o & crv & x & y & z & c & D). exists (VStr (lit "EC")), kw, (lit "EC"). rewrite D. repeat split; apply K. }
  apply init_keeps in H. destruct H as (K & D & _). exists kty, kw, []. rewrite D. repeat split; try (apply neqb_lit; assumption); try apply K.
  rewrite ?E1, ?E2, ?E3. apply K.
Qed.

Lemma enc_get : forall d kw n, enc_values d = Ok kw -> match dget d n with
  | Some v => exists v', as_bytes v = Ok v' /\ dget kw n = Some v' | None => dget kw n = None end.
Proof.
  induction d as [|[m v] d IH]; intros kw n H; cbn [enc_values] in H; [apply Ok_inj in H; subst kw; reflexivity|].
  destruct (as_bytes v) as [v'|] eqn:V; [|discriminate]. cbn [bind] in H. destruct (enc_values d) as [r|] eqn:R; [|discriminate]. cbn [bind] in H. apply Ok_inj in H. subst kw. cbn [dget].
  destruct (zs_eqb m n); [exists v'; auto|]. apply IH. reflexivity.
Qed.
Lemma enc_keys : forall d kw, enc_values d = Ok kw -> map fst kw = map fst d.
Proof.
  induction d as [|[m v] d IH]; intros kw H; cbn [enc_values] in H; [apply Ok_inj in H; subst kw; reflexivity|].
  destruct (as_bytes v) as [v'|]; [|discriminate]. cbn [bind] in H. destruct (enc_values d) as [r|]; [|discriminate]. cbn [bind] in H. apply Ok_inj in H. subst kw. cbn [map fst]. f_equal. apply IH. reflexivity.
Qed.
Lemma filter_names : forall (d : dict) l n, dget (filter (fun p => negb (in_names (fst p) l)) d) n = if in_names n l then None else dget d n.
Proof.
  induction d as [|[m v] d IH]; intros l n; [destruct (in_names n l); reflexivity|]. cbn [filter fst]. destruct (in_names m l) eqn:M; cbn [negb].
  - rewrite IH. destruct (in_names n l) eqn:N; [reflexivity|]. cbn [dget]. destruct (zs_eqb m n) eqn:E; [apply zs_eqb_eq in E; subst m; congruence|reflexivity].
  - cbn [dget]. destruct (zs_eqb m n) eqn:E; [apply zs_eqb_eq in E; subst m; rewrite M; reflexivity|apply IH].
Qed.
Lemma text_kept : forall d kw n dflt, enc_values d = Ok kw ->
  (forall s, dget d n = Some (VStr s) -> textual (kwarg kw n dflt) = VStr s) /\ (dget d n = None -> kwarg kw n dflt = dflt).
Proof.
  intros d kw n dflt H. pose proof (enc_get d kw n H) as G. unfold kwarg. split.
  - intros s E. rewrite E in G. destruct G as (v' & V & ->). cbn [as_bytes] in V. destruct (utf8_encode s) as [b|] eqn:U; [|discriminate]. cbn [bind] in V. apply Ok_inj in V. subst v'. unfold textual. cbn [is_str as_unicode]. rewrite (utf8_decode_encode _ _ U). reflexivity.
  - intros E. rewrite E in G. rewrite G. reflexivity.
Qed.

Definition annotation_of (k : jwk) (n : ustr) : option pval :=
  dget [(lit "kty", k_kty k); (lit "alg", k_alg k); (lit "use", k_use k); (lit "kid", k_kid k)] n.
Lemma four_cases : forall n, In n [lit "kty"; lit "alg"; lit "use"; lit "kid"] -> n = lit "kty" \/ n = lit "alg" \/ n = lit "use" \/ n = lit "kid".
Proof. intros n I. cbn [In] in I. intuition auto. Qed.

(** A key made of a JSON object: class, annotations, unknown members. *)
Theorem keyrep_attributes : forall P d k, keyrep P (VDict d) = Ok k -> exists kty, dget d (lit "kty") = Some kty /\ class_of kty k /\
  (forall n s, In n [lit "kty"; lit "alg"; lit "use"; lit "kid"] -> dget d n = Some (VStr s) -> annotation_of k n = Some (VStr s)) /\
  (forall n, In n [lit "alg"; lit "use"; lit "kid"] -> dget d n = None -> annotation_of k n = Some (VStr [])) /\
  (forall n, In n (eight ++ own_names kty) \/ dget d n = None -> dget (k_extra k) n = None) /\
  (forall n v, ~ In n (eight ++ own_names kty) -> dget d n = Some v -> exists v', as_bytes v = Ok v' /\ dget (k_extra k) n = Some v').
Proof.
  intros P d k H. destruct (keyrep_keeps P d k H) as (kty & kw & dflt & G & E & C & (S & K1 & K2 & K3 & K4 & _ & _ & _ & X)). exists kty. split; [exact G|]. split; [exact C|]. split; [|split; [|split]].
  - intros n s I D. pose proof (proj1 (text_kept d kw n (VStr dflt) E) s D) as T1. pose proof (proj1 (text_kept d kw n (VStr []) E) s D) as T2. apply four_cases in I. unfold annotation_of. destruct I as [->|[->|[->| ->]]]; cbn [dget]; lits; congruence.
  - intros n I D. pose proof (proj2 (text_kept d kw n (VStr []) E) D) as T. unfold annotation_of. cbn [In] in I. destruct I as [<-|[<-|[<-|[]]]]; cbn [dget]; lits; rewrite ?K2, ?K3, ?K4, T; reflexivity.
  - intros n I. rewrite X, filter_names. destruct (in_names n (eight ++ own_names kty)) eqn:N; [reflexivity|]. destruct I as [I|I]; [apply in_names_In in I; congruence|]. pose proof (enc_get d kw n E) as Q. rewrite I in Q. exact Q.
  - intros n v NI D. rewrite X, filter_names. destruct (in_names n (eight ++ own_names kty)) eqn:N; [apply in_names_In in N; contradiction|]. pose proof (enc_get d kw n E) as Q. rewrite D in Q. exact Q.
Qed.

Lemma nodup_filter : forall A (f : ustr * A -> bool) d, nodup_keys d = true -> nodup_keys (filter f d) = true.
Proof.
  induction d as [|[n v] d IH]; intros H; [reflexivity|]. cbn [nodup_keys] in H. apply andb_true_iff in H. destruct H as [H1 H2]. cbn [filter]. destruct (f (n, v)); [|apply IH; exact H2].
  cbn [nodup_keys]. rewrite IH by exact H2. rewrite andb_true_r. apply negb_true_iff. apply negb_true_iff in H1. unfold dmem in *. destruct (dget (filter f d) n) as [w|] eqn:G; [|reflexivity].
  apply dget_In in G. apply filter_In in G. destruct G as [G _]. apply (in_map fst) in G. cbn [fst] in G. destruct (dget d n) eqn:D; [discriminate|]. exfalso. clear -G D. induction d as [|[m u] d IH]; [contradiction|]. cbn [dget] in D. cbn [map fst In] in G.
  destruct (zs_eqb m n) eqn:E; [discriminate|]. destruct G as [->|G]; [rewrite zs_eqb_refl in E; discriminate|]. apply IH; assumption.
Qed.
Lemma nodup_same : forall A B (d : list (ustr * A)) (e : list (ustr * B)), map fst d = map fst e -> nodup_keys d = nodup_keys e.
Proof.
  induction d as [|[n v] d IH]; intros [|[m w] e] H; try reflexivity; try discriminate. cbn [map fst] in H. injection H as -> H. cbn [nodup_keys]. rewrite (IH e H). f_equal. f_equal.
  clear IH. revert e H. unfold dmem. induction d as [|[n' v'] d IH]; intros [|[m' w'] e] H; try reflexivity; try discriminate. cbn [map fst] in H. injection H as -> H. cbn [dget]. destruct (zs_eqb m' m); [reflexivity|]. apply IH. exact H.
Qed.

(** to_dict: the private form with the extra members over it. *)
Theorem to_dict_members : forall k d, nodup_keys (k_extra k) = true -> to_dict k = Ok d ->
  exists s, serialize k true = Ok (VDict s) /\ forall n, dget d n = match dget (k_extra k) n with Some v => Some v | None => dget s n end.
Proof.
  intros k d N H. unfold to_dict in H. destruct (serialize k true) as [[]|]; try discriminate. cbn [bind] in H. apply Ok_inj in H. subst d. eexists. split; [reflexivity|]. intro n. apply dupd_get. exact N.
Qed.
Theorem keyrep_to_dict : forall P d k t n v, nodup_keys d = true -> keyrep P (VDict d) = Ok k -> to_dict k = Ok t -> dget d n = Some v ->
  (forall kty, dget d (lit "kty") = Some kty -> ~ In n (eight ++ own_names kty)) -> exists v', as_bytes v = Ok v' /\ dget t n = Some v'.
Proof.
  intros P d k t n v N H T D NI. destruct (keyrep_keeps P d k H) as (kty & kw & dflt & G & E & _ & (_ & _ & _ & _ & _ & _ & _ & _ & X)).
  assert (NX : nodup_keys (k_extra k) = true). { rewrite X. apply nodup_filter. rewrite (nodup_same _ _ kw d (enc_keys d kw E)). exact N. }
  destruct (keyrep_attributes P d k H) as (kty' & G' & _ & _ & _ & _ & U). rewrite G in G'. injection G' as <-. destruct (U n v (NI kty G) D) as (v' & V & W). destruct (to_dict_members k t NX T) as (s & _ & M). exists v'. split; [exact V|]. rewrite M, W. reflexivity.
Qed.

(** ** RSAKey with a key object *)
Definition has_numbers (r : rsakey) (nums : dict) (given : ustr -> pval) : Prop :=
  num nums (lit "n") = VInt (r_n r) /\ num nums (lit "e") = VInt (r_e r) /\
  num nums (lit "d") = match r_d r with Some d => VInt d | None => given (lit "d") end /\
  num nums (lit "p") = match r_d r, r_pq r with Some _, Some (p, _) => if p =? 0 then given (lit "p") else VInt p | _, _ => given (lit "p") end /\
  num nums (lit "q") = match r_d r, r_pq r with Some _, Some (_, q) => if q =? 0 then given (lit "q") else VInt q | _, _ => given (lit "q") end /\
  forall n, In n [lit "dp"; lit "dq"; lit "di"; lit "qi"] -> num nums n = given n.
Lemma split_numbers : forall r nums, exists nums', rsa_split (ORsa r) nums = Ok nums' /\ has_numbers r nums' (num nums).
Proof.
  intros r nums. unfold rsa_split. eexists. split; [reflexivity|]. unfold has_numbers, num, kwarg.
  destruct (r_d r) as [d|]; [destruct (r_pq r) as [[p q]|]; [destruct (p =? 0), (q =? 0)|]|]; rewrite !dget_dset; lits; cbn match; (split; [reflexivity|]; split; [reflexivity|]; split; [reflexivity|]; split; [reflexivity|]; split; [reflexivity|]); intros n I; cbn [In] in I; (destruct I as [<-|[<-|[<-|[<-|[]]]]]); rewrite !dget_dset; lits; reflexivity.
Qed.
Definition listy (v : pval) : Prop := v = VNone \/ exists l, v = VList l.
Theorem rsa_of_object : forall P kw r, dmem kw (lit "self") = false -> dget kw (lit "n") = None -> listy (kwarg kw (lit "x5c") VNone) ->
  exists k nums, rsa_new P kw (ORsa r) = Ok k /\ k_data k = DRsa (ORsa r) nums /\ has_numbers r nums (fun n => kwarg kw n (VStr [])) /\ keeps kw (lit "RSA") (own_names (VStr (lit "RSA"))) k.
Proof.
  intros P kw r S N X. assert (H : exists k nums, rsa_new P kw (ORsa r) = Ok k /\ k_data k = DRsa (ORsa r) nums /\ has_numbers r nums (fun n => kwarg kw n (VStr []))).
  { unfold rsa_new. cbv zeta. destruct (init_total kw (lit "RSA") rsa_longs (DRsa (ORsa r) (map (fun name => (name, kwarg kw name (VStr []))) rsa_longs)) S) as (k0 & K). rewrite K. cbn [bind]. apply init_keeps in K. destruct K as ((_ & _ & _ & _ & _ & KX & _) & D & _).
    rewrite num_map by (left; reflexivity). unfold kwarg at 1. rewrite N. cbn [py_len length bind]. change (0 <? 0)%nat with false. cbv iota. cbn [bind].
    assert (L : exists lx, py_len (k_x5c k0) = Ok lx). { rewrite KX. cbv zeta. destruct X as [->|(l & ->)]; cbn [truthy]; [exists 0%nat; reflexivity|]. destruct l; cbn [truthy py_len]; eauto. }
    destruct L as (lx & ->). cbn [bind otruthy negb andb]. replace (kwarg kw (lit "n") (VStr [])) with (VStr []) by (unfold kwarg; rewrite N; reflexivity). cbn [truthy andb negb].
    destruct (split_numbers r (map (fun name => (name, kwarg kw name (VStr []))) rsa_longs)) as (nums' & -> & HN). cbn [bind]. eexists. exists nums'. split; [reflexivity|]. split; [reflexivity|].
    unfold has_numbers in HN |- *. rewrite !num_map in HN by (vm_compute; tauto). destruct HN as (H1 & H2 & H3 & H4 & H5 & H6). split; [exact H1|]. split; [exact H2|]. split; [exact H3|]. split; [exact H4|]. split; [exact H5|].
    intros n I. rewrite (H6 n I). rewrite num_map; [reflexivity|]. cbn [In] in I. destruct I as [<-|[<-|[<-|[<-|[]]]]]; vm_compute; tauto. }
  destruct H as (k & nums & H & D & HN). exists k, nums. split; [exact H|]. split; [exact D|]. split; [exact HN|]. apply (rsa_keeps P kw (ORsa r) k H).
Qed.
(** With the numbers given as well, both are kept as they are. *)
Theorem rsa_of_both : forall P kw r vn ve, dmem kw (lit "self") = false -> dget kw (lit "n") = Some (VStr vn) -> dget kw (lit "e") = Some (VStr ve) -> vn <> [] -> ve <> [] -> listy (kwarg kw (lit "x5c") VNone) ->
  exists k nums, rsa_new P kw (ORsa r) = Ok k /\ k_data k = DRsa (ORsa r) nums /\ forall n, In n rsa_longs -> num nums n = kwarg kw n (VStr []).
Proof.
  intros P kw r vn ve S N E VN VE X. unfold rsa_new. cbv zeta. destruct (init_total kw (lit "RSA") rsa_longs (DRsa (ORsa r) (map (fun name => (name, kwarg kw name (VStr []))) rsa_longs)) S) as (k0 & K). rewrite K. cbn [bind]. apply init_keeps in K. destruct K as ((_ & _ & _ & _ & _ & KX & _) & D & _).
  rewrite !num_map by (vm_compute; tauto). replace (kwarg kw (lit "n") (VStr [])) with (VStr vn) by (unfold kwarg; rewrite N; reflexivity). replace (kwarg kw (lit "e") (VStr [])) with (VStr ve) by (unfold kwarg; rewrite E; reflexivity).
  assert (L : exists lx, py_len (k_x5c k0) = Ok lx). { rewrite KX. cbv zeta. destruct X as [->|(l & ->)]; cbn [truthy]; [exists 0%nat; reflexivity|]. destruct l; cbn [truthy py_len]; eauto. }
  destruct L as (lx & ->). destruct vn as [|a vn]; [contradiction|]. destruct ve as [|b ve]; [contradiction|]. cbn [py_len length bind]. change (0 <? Datatypes.S (length vn))%nat with true. cbv iota. cbn [bind otruthy negb andb truthy].
  exists k0. eexists. split; [reflexivity|]. split; [exact D|]. intros n I. apply num_map. exact I.
Qed.

(** ** ECKey *)
Theorem ec_of_curve : forall kw c rnd d x y, dmem kw (lit "self") = false -> dget kw (lit "crv") = None -> key_pair c rnd = (d, Some (x, y)) ->
  exists k, ec_new kw (OCurve c) onone rnd = Ok k /\ k_data k = DEc (OCurve c) (VStr []) (VInt x) (VInt y) (VInt d) (OCurve c) /\ keeps kw (lit "EC") (own_names (VStr (lit "EC"))) k.
Proof.
  intros kw c rnd d x y S N KP. assert (H : exists k, ec_new kw (OCurve c) onone rnd = Ok k /\ k_data k = DEc (OCurve c) (VStr []) (VInt x) (VInt y) (VInt d) (OCurve c)).
  { unfold ec_new. cbv zeta. match goal with |- context [key_init kw (lit "EC") ec_params ?D] => destruct (init_total kw (lit "EC") ec_params D S) as (k0 & K); rewrite K end. cbn [bind]. apply init_keeps in K. destruct K as (_ & D & _).
    replace (kwarg kw (lit "crv") (VStr [])) with (VStr []) in D |- * by (unfold kwarg; rewrite N; reflexivity). cbn [truthy andb otruthy onone negb]. unfold ec_load_key. rewrite D, KP. eexists. split; reflexivity. }
  destruct H as (k & H & D). exists k. split; [exact H|]. split; [exact D|]. apply (ec_keeps kw (OCurve c) onone rnd k H).
Qed.
Theorem ec_of_given : forall kw key c rnd, dmem kw (lit "self") = false ->
  exists k, ec_new kw key (OCurve c) rnd = Ok k /\ k_data k = DEc key (kwarg kw (lit "crv") (VStr [])) (kwarg kw (lit "x") (VStr [])) (kwarg kw (lit "y") (VStr [])) (kwarg kw (lit "d") (VStr [])) (OCurve c).
Proof.
  intros kw key c rnd S. unfold ec_new. cbv zeta. match goal with |- context [key_init kw (lit "EC") ec_params ?D] => destruct (init_total kw (lit "EC") ec_params D S) as (k0 & K); rewrite K end. cbn [bind]. apply init_keeps in K. destruct K as (_ & D & _).
  cbn [otruthy negb]. rewrite !andb_false_r. exists k0. split; [reflexivity|exact D].
Qed.
(** Numbers given as integers with the name of a curve are kept, and the curve is looked up. *)
Theorem ec_of_numbers : forall kw crv c x y d rnd, dmem kw (lit "self") = false -> dget kw (lit "crv") = Some (VStr crv) -> by_name crv = Ok c ->
  dget kw (lit "x") = Some (VInt x) -> dget kw (lit "y") = Some (VInt y) -> (dget kw (lit "d") = Some (VInt d) \/ dget kw (lit "d") = None) ->
  match kwarg kw (lit "kid") (VStr []) with VStr _ => True | _ => False end ->
  exists k, ec_new kw onone onone rnd = Ok k /\ k_data k = DEc onone (VStr crv) (VInt x) (VInt y) (kwarg kw (lit "d") (VStr [])) (OCurve c).
Proof.
  intros kw crv c x y d rnd S C B X Y Dd KI. unfold ec_new. cbv zeta. match goal with |- context [key_init kw (lit "EC") ec_params ?D] => destruct (init_total kw (lit "EC") ec_params D S) as (k0 & K); rewrite K end. cbn [bind]. apply init_keeps in K. destruct K as ((_ & _ & _ & _ & KK & _) & D & _).
  replace (kwarg kw (lit "crv") (VStr [])) with (VStr crv) in D |- * by (unfold kwarg; rewrite C; reflexivity). replace (kwarg kw (lit "x") (VStr [])) with (VInt x) in D |- * by (unfold kwarg; rewrite X; reflexivity). replace (kwarg kw (lit "y") (VStr [])) with (VInt y) in D |- * by (unfold kwarg; rewrite Y; reflexivity).
  pose proof (by_name_nonnil _ _ B) as NE. destruct crv as [|a crv]; [contradiction|]. cbn [truthy andb otruthy onone negb].
  assert (KS : verify_kid (k_kid k0) = Ok true). { rewrite KK. destruct (kwarg kw (lit "kid") (VStr [])); try contradiction. unfold textual, verify_kid. cbn [is_str negb]. rewrite andb_false_r. reflexivity. }
  assert (V : verify_loop [VInt x; VInt y; kwarg kw (lit "d") (VStr [])] = Ok ([VInt x; VInt y; kwarg kw (lit "d") (VStr [])], true)).
  { unfold kwarg. destruct Dd as [->| ->]; cbn [verify_loop is_int truthy negb orb octet_list]; rewrite ?orb_true_r; reflexivity. }
  rewrite V. cbn [bind]. rewrite KS. cbn [bind].
  assert (E : ec_deserialize (VStr (a :: crv)) (VInt x) (VInt y) (kwarg kw (lit "d") (VStr [])) = Ok (VInt x, VInt y, kwarg kw (lit "d") (VStr []), c)).
  { unfold ec_deserialize. cbn [is_int bind conv_value_error]. cbn [curve_by_name]. rewrite B. cbn [bind]. unfold kwarg. destruct Dd as [->| ->]; [destruct (truthy (VInt d)); reflexivity|reflexivity]. }
  rewrite E. cbn [bind]. eexists. split; reflexivity.
Qed.

(** ** SYMKey *)
Theorem sym_of_secret : forall kw key b, dmem kw (lit "self") = false -> key = VBytes b \/ (exists s, key = VStr s /\ utf8_encode s = Ok b) -> b <> [] ->
  exists k, sym_new kw key = Ok k /\ k_data k = DSym (VBytes b) (kwarg kw (lit "k") (VStr [])) /\ keeps kw (lit "oct") (own_names (VStr (lit "oct"))) k.
Proof.
  intros kw key b S H NE. assert (A : as_bytes key = Ok (VBytes b)). { destruct H as [->|(s & -> & U)]; [reflexivity|]. cbn [as_bytes]. rewrite U. reflexivity. }
  assert (Q : exists k, sym_new kw key = Ok k /\ k_data k = DSym (VBytes b) (kwarg kw (lit "k") (VStr []))).
  { unfold sym_new. cbv zeta. rewrite A. cbn [bind]. match goal with |- context [key_init kw (lit "oct") sym_params ?D] => destruct (init_total kw (lit "oct") sym_params D S) as (k0 & K); rewrite K end. cbn [bind]. apply init_keeps in K. destruct K as (_ & D & _).
    destruct b; [contradiction|]. cbn [truthy negb andb]. exists k0. split; [reflexivity|exact D]. }
  destruct Q as (k & Q & D). exists k. split; [exact Q|]. split; [exact D|]. apply (sym_keeps kw key k Q).
Qed.

(** ** jwk_wrap *)
Lemma wrap_keeps : forall use kid names dflt k, keeps (wrap_kw (VStr use) (VStr kid)) dflt names k ->
  k_kty k = VStr dflt /\ k_use k = VStr use /\ k_kid k = VStr kid /\ k_alg k = VStr [] /\ k_extra k = [].
Proof.
  intros use kid names dflt k (_ & K1 & K2 & K3 & K4 & _ & _ & _ & X). unfold wrap_kw, kwarg in *. cbn [dget] in K1, K2, K3, K4. repeat match type of K1 with context [zs_eqb (lit ?a) (lit ?b)] => change (zs_eqb (lit a) (lit b)) with false in K1 end.
  split; [exact K1|]. split; [exact K3|]. split; [exact K4|]. split; [exact K2|]. rewrite X. cbn [filter fst].
  assert (A : in_names (lit "use") (eight ++ names) = true) by (apply in_names_In; apply in_or_app; left; vm_compute; tauto). assert (B : in_names (lit "kid") (eight ++ names) = true) by (apply in_names_In; apply in_or_app; left; vm_compute; tauto). rewrite A, B. reflexivity.
Qed.
Theorem wrap_rsa : forall P r use kid, 0 < r_n r -> 0 < r_e r -> exists k nums, jwk_wrap P (RawRsa r) (VStr use) (VStr kid) = Ok k /\
  k_data k = DRsa (ORsa r) nums /\ has_numbers r nums (fun _ => VStr []) /\ k_kty k = VStr (lit "RSA") /\ k_use k = VStr use /\ k_kid k = VStr kid /\ k_alg k = VStr [] /\ k_extra k = [].
Proof.
  intros P r use kid Hn He. unfold jwk_wrap.
  set (nums0 := map (fun name => (name, kwarg (wrap_kw (VStr use) (VStr kid)) name (VStr []))) rsa_longs).
  destruct (init_total (wrap_kw (VStr use) (VStr kid)) (lit "RSA") rsa_longs (DRsa onone nums0) eq_refl) as (k0 & K).
  assert (N : rsa_new P (wrap_kw (VStr use) (VStr kid)) onone = Ok k0). { unfold rsa_new. cbv zeta. fold nums0. rewrite K. pose proof (init_keeps _ _ _ _ _ K) as ((_ & _ & _ & _ & _ & X & _) & _). cbn [bind]. rewrite X. reflexivity. }
  rewrite N. cbn [bind]. apply rsa_keeps in N. destruct N as (KP & _). apply init_keeps in K. destruct K as (_ & D & _). rewrite D. destruct (split_numbers r nums0) as (nums & SP & HN). rewrite SP. cbn [bind].
  assert (G : has_numbers r nums (fun _ => VStr [])). { unfold has_numbers in HN |- *. unfold nums0 in HN. rewrite !num_map in HN by (vm_compute; tauto). destruct HN as (H1 & H2 & H3 & H4 & H5 & H6). split; [exact H1|]. split; [exact H2|]. split; [exact H3|]. split; [exact H4|]. split; [exact H5|].
    intros n I. rewrite (H6 n I). rewrite num_map by (cbn [In] in I; destruct I as [<-|[<-|[<-|[<-|[]]]]]; vm_compute; tauto). cbn [In] in I. destruct I as [<-|[<-|[<-|[<-|[]]]]]; reflexivity. }
  apply wrap_keeps in KP. destruct KP as (K1 & K2 & K3 & K4 & K5).
  assert (SE : exists v, serialize (set_data k0 (DRsa (ORsa r) nums)) false = Ok v).
  { unfold serialize. cbn [set_data k_data otruthy add_nums]. destruct G as (G1 & G2 & _). rewrite G1, G2. cbn [truthy]. destruct (Z.eqb_spec (r_n r) 0); [lia|]. destruct (Z.eqb_spec (r_e r) 0); [lia|]. cbn [negb].
    destruct (num_b64 _ Hn) as (t1 & -> & _). destruct (num_b64 _ He) as (t2 & -> & _). cbn [bind]. eauto. }
  destruct SE as (v & SE). assert (D1 : k_data (set_data k0 (DRsa (ORsa r) nums)) = DRsa (ORsa r) nums) by reflexivity. rewrite D1, SE. cbn [bind]. exists (set_data k0 (DRsa (ORsa r) nums)), nums. split; [reflexivity|]. split; [exact D1|]. split; [exact G|]. repeat split; assumption.
Qed.
Theorem wrap_text : forall P s b use kid, utf8_encode s = Ok b -> bytes_ok b = true -> exists k, jwk_wrap P (RawText s) (VStr use) (VStr kid) = Ok k /\
  k_data k = DSym (VBytes b) (VStr []) /\ k_kty k = VStr (lit "oct") /\ k_use k = VStr use /\ k_kid k = VStr kid /\ k_alg k = VStr [] /\ k_extra k = [].
Proof.
  intros P s b use kid U O. unfold jwk_wrap. destruct (init_total (wrap_kw (VStr use) (VStr kid)) (lit "oct") sym_params (DSym (VBytes b) (VStr [])) eq_refl) as (k0 & K).
  assert (N : sym_new (wrap_kw (VStr use) (VStr kid)) (VStr s) = Ok k0). { unfold sym_new. cbv zeta. cbn [as_bytes]. rewrite U. cbn [bind]. change (kwarg (wrap_kw (VStr use) (VStr kid)) (lit "k") (VStr [])) with (VStr []). rewrite K. cbn [bind truthy]. rewrite andb_false_r. reflexivity. }
  rewrite N. cbn [bind]. apply sym_keeps in N. destruct N as (KP & _). apply init_keeps in K. destruct K as (_ & D & _). apply wrap_keeps in KP. destruct KP as (K1 & K2 & K3 & K4 & K5).
  unfold serialize. rewrite D. cbn [py_bytes bind]. exists k0. repeat split; assumption.
Qed.
Theorem wrap_curve : forall P c rnd d x y use kid, key_pair c rnd = (d, Some (x, y)) -> 0 < x -> 0 < y -> exists k, jwk_wrap P (RawCurve c rnd) (VStr use) (VStr kid) = Ok k /\
  k_data k = DEc onone (VStr []) (VInt x) (VInt y) (VInt d) (OCurve c) /\ k_kty k = VStr (lit "EC") /\ k_use k = VStr use /\ k_kid k = VStr kid /\ k_alg k = VStr [] /\ k_extra k = [].
Proof.
  intros P c rnd d x y use kid KP X Y. unfold jwk_wrap. destruct (init_total (wrap_kw (VStr use) (VStr kid)) (lit "EC") ec_params (DEc onone (VStr []) (VStr []) (VStr []) (VStr []) onone) eq_refl) as (k0 & K).
  assert (N : ec_new (wrap_kw (VStr use) (VStr kid)) onone onone 0 = Ok k0). { unfold ec_new. cbv zeta. change (kwarg (wrap_kw (VStr use) (VStr kid)) (lit "crv") (VStr [])) with (VStr []). change (kwarg (wrap_kw (VStr use) (VStr kid)) (lit "x") (VStr [])) with (VStr []).
    change (kwarg (wrap_kw (VStr use) (VStr kid)) (lit "y") (VStr [])) with (VStr []). change (kwarg (wrap_kw (VStr use) (VStr kid)) (lit "d") (VStr [])) with (VStr []). rewrite K. reflexivity. }
  rewrite N. cbn [bind]. apply ec_keeps in N. destruct N as (KE & _). apply init_keeps in K. destruct K as (_ & D & _). apply wrap_keeps in KE. destruct KE as (K1 & K2 & K3 & K4 & K5). unfold ec_load_key. rewrite D, KP. cbn [bind].
  destruct (num_b64 _ X) as (t1 & B1 & _). destruct (num_b64 _ Y) as (t2 & B2 & _). cbn [set_data k_data]. unfold serialize. cbn [set_data k_data truthy negb andb otruthy]. rewrite B1, B2. cbn [bind andb].
  eexists. split; [reflexivity|]. repeat split; assumption.
Qed.

(** ** Loading *)
Lemma load_list_all : forall P l ks new, mapM (keyrep P) l = Ok new -> load_list P ks l = (ks ++ new, None).
Proof.
  induction l as [|v l IH]; intros ks new H; cbn [mapM] in H; [apply Ok_inj in H; subst new; rewrite app_nil_r; reflexivity|].
  destruct (keyrep P v) as [k|] eqn:K; [|discriminate]. cbn [bind] in H. destruct (mapM (keyrep P) l) as [r|] eqn:R; [|discriminate]. cbn [bind] in H. apply Ok_inj in H. subst new. cbn [load_list]. rewrite K, (IH _ r eq_refl), <- app_assoc. reflexivity.
Qed.
Lemma load_list_fail : forall P l1 bad l2 ks new e, mapM (keyrep P) l1 = Ok new -> keyrep P bad = Raise e -> load_list P ks (l1 ++ bad :: l2) = (ks ++ new, Some e).
Proof.
  induction l1 as [|v l IH]; intros bad l2 ks new e H B; cbn [mapM] in H; [apply Ok_inj in H; subst new; rewrite app_nil_r; cbn [app load_list]; rewrite B; reflexivity|].
  destruct (keyrep P v) as [k|] eqn:K; [|discriminate]. cbn [bind] in H. destruct (mapM (keyrep P) l) as [r|] eqn:R; [|discriminate]. cbn [bind] in H. apply Ok_inj in H. subst new. cbn [app load_list]. rewrite K, (IH bad l2 _ r e eq_refl B), <- app_assoc. reflexivity.
Qed.
Theorem load_outcome : forall P ks t,
  (forall e, loads t = Raise e -> load_jwks P ks (VStr t) = (ks, Some e)) /\
  (forall v, loads t = Ok v -> (forall d, v <> VDict d) -> load_jwks P ks (VStr t) = (ks, Some ETypeError)) /\
  (forall d, loads t = Ok (VDict d) -> dget d (lit "keys") = None -> load_jwks P ks (VStr t) = (ks, Some EKeyError)) /\
  (forall d l, loads t = Ok (VDict d) -> dget d (lit "keys") = Some (VList l) ->
     (forall new, mapM (keyrep P) l = Ok new -> load_jwks P ks (VStr t) = (ks ++ new, None)) /\
     (forall l1 bad l2 new e, l = l1 ++ bad :: l2 -> mapM (keyrep P) l1 = Ok new -> keyrep P bad = Raise e -> load_jwks P ks (VStr t) = (ks ++ new, Some e))).
Proof.
  intros P ks t. unfold load_jwks. cbn [loads_any]. split; [intros e ->; reflexivity|]. split; [intros v -> N; destruct v; try reflexivity; destruct (N d eq_refl)|]. split; [intros d -> G; cbn [load_dict]; rewrite G; reflexivity|].
  intros d l -> G. cbn [load_dict]. rewrite G. split; [intros new H; apply load_list_all; exact H|]. intros l1 bad l2 new e -> H B. apply load_list_fail; assumption.
Qed.
Theorem fetch_outcome : forall P ks u, (forall e, p_fetch P u = Raise e -> load_from_url P ks u = (ks, Some e)) /\ (forall t, p_fetch P u = Ok t -> load_from_url P ks u = load_jwks P ks (VStr t)).
Proof. intros P ks u. unfold load_from_url. split; intros x ->; reflexivity. Qed.

(** ** RSAKey.encryption_key *)
Theorem rsa_enc_object : forall P k key nums, k_data k = DRsa key nums -> otruthy key = true -> rsa_encryption_key P k = Ok (key, k).
Proof. intros P k key nums D T. unfold rsa_encryption_key. rewrite D, T. reflexivity. Qed.
Theorem rsa_enc_numbers : forall P k nums n e r, k_data k = DRsa onone nums -> map fst nums = rsa_longs -> num nums (lit "n") = VInt n -> num nums (lit "e") = VInt e -> n <> 0 -> e <> 0 ->
  (forall m, In m rsa_longs -> m <> lit "n" -> m <> lit "e" -> num nums m = VStr []) -> p_rsa_construct P [n; e] = Ok r ->
  rsa_encryption_key P k = Ok (ORsa r, set_data k (DRsa (ORsa r) nums)).
Proof.
  intros P k nums n e r D K N E NN EE O R. unfold rsa_encryption_key. rewrite D. cbn [otruthy onone truthy]. unfold rsa_deserialize. rewrite N, E. cbn [truthy]. destruct (Z.eqb_spec n 0); [contradiction|]. destruct (Z.eqb_spec e 0); [contradiction|]. cbn [negb andb].
  assert (M : nums = map (fun m => (m, num nums m)) rsa_longs). { rewrite <- K. apply dict_by_keys. apply (nodup_keys_of nums rsa_longs K). reflexivity. }
  assert (DN : deser_nums nums = Ok nums).
  { rewrite M. assert (G : forall l, (forall m, In m l -> In m rsa_longs) -> deser_nums (map (fun m => (m, num nums m)) l) = Ok (map (fun m => (m, num nums m)) l)); [|apply G; auto].
    induction l as [|m l IH]; intro I; [reflexivity|]. cbn [map deser_nums]. assert (Q : negb (truthy (num nums m)) || is_int (num nums m) = true).
    { destruct (zs_eqb m (lit "n")) eqn:E1; [apply zs_eqb_eq in E1; subst m; rewrite N; apply orb_true_r|]. destruct (zs_eqb m (lit "e")) eqn:E2; [apply zs_eqb_eq in E2; subst m; rewrite E; apply orb_true_r|].
      rewrite O; [reflexivity|apply I; left; reflexivity| |]; intros ->; rewrite zs_eqb_refl in *; discriminate. }
    rewrite Q. cbn [bind]. rewrite IH by (intros x X; apply I; right; exact X). reflexivity. }
  rewrite DN. cbn [bind]. assert (C : construct_args nums = [n; e]). { unfold construct_args. rewrite N, E, !O by (first [vm_compute; tauto|discriminate]). reflexivity. }
  rewrite C, R. reflexivity.
Qed.
