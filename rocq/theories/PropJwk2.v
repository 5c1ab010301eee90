(** * Properties C196-C209: the constructors of keys and of JWS, unknown members, wrapping and loading keys, Key.verify. *)
From Coq Require Import ZArith List Bool Lia.
From Verif Require Import Base BaseProofs Codec CodecProofs Utf8 Json JsonProofs Jwt JwtProofs Prims Inst Elliptic Ecc Nist EcAux EcSpec EcProofs EccProofs PvalEq Jwk JwkProofs JwkProofs2 JwkProofs3 JwkEx Jws JwsProofs JwsProofs2 JwsProofs3 JwsProofs6 JwsProofs10 JwsEx Jwe Misc Misc2 Misc2Proofs.
Import ListNotations.
Open Scope Z_scope.

(** C196: what keyrep makes of an object *)
Definition common_names : list ustr := [lit "kty"; lit "alg"; lit "use"; lit "kid"; lit "key"; lit "x5c"; lit "x5t"; lit "x5u"].
Definition rsa_names : list ustr := [lit "n"; lit "e"; lit "d"; lit "p"; lit "q"; lit "dp"; lit "dq"; lit "di"; lit "qi"].
Definition ec_names : list ustr := [lit "crv"; lit "x"; lit "y"; lit "d"; lit "curve"].
Definition oct_names : list ustr := [lit "k"; lit "mtrl"].
(** [n] is a name that keys of type [kty] know. *)
Definition known_name (kty : pval) (n : ustr) : Prop :=
  In n common_names \/ (kty = VStr (lit "RSA") /\ In n rsa_names) \/ (kty = VStr (lit "EC") /\ In n ec_names) \/ (kty = VStr (lit "oct") /\ In n oct_names).
Lemma known_own : forall kty n, In n (eight ++ own_names kty) <-> known_name kty n.
Proof.
  intros kty n. rewrite in_app_iff. unfold known_name, own_names. change eight with common_names.
  destruct (pval_eqb kty (VStr (lit "RSA"))) eqn:E1; [apply eqb_lit in E1; subst kty; intuition (try discriminate)|]. apply neqb_lit in E1.
  destruct (pval_eqb kty (VStr (lit "oct"))) eqn:E2; [apply eqb_lit in E2; subst kty; intuition (try discriminate)|]. apply neqb_lit in E2.
  destruct (pval_eqb kty (VStr (lit "EC"))) eqn:E3; [apply eqb_lit in E3; subst kty; intuition (try discriminate)|]. apply neqb_lit in E3. cbn [In]. tauto.
Qed.
Theorem C196_keyrep : forall P d k, keyrep P (VDict d) = Ok k -> exists kty, dget d (lit "kty") = Some kty /\
  match k_data k with
  | DRsa _ _ => kty = VStr (lit "RSA") | DSym _ _ => kty = VStr (lit "oct") | DEc _ _ _ _ _ _ => kty = VStr (lit "EC")
  | DKey _ => kty <> VStr (lit "RSA") /\ kty <> VStr (lit "oct") /\ kty <> VStr (lit "EC")
  end /\
  (forall n s, In n [lit "kty"; lit "alg"; lit "use"; lit "kid"] -> dget d n = Some (VStr s) -> dget [(lit "kty", k_kty k); (lit "alg", k_alg k); (lit "use", k_use k); (lit "kid", k_kid k)] n = Some (VStr s)) /\
  (forall n, In n [lit "alg"; lit "use"; lit "kid"] -> dget d n = None -> dget [(lit "alg", k_alg k); (lit "use", k_use k); (lit "kid", k_kid k)] n = Some (VStr [])) /\
  (forall n, known_name kty n \/ dget d n = None -> dget (k_extra k) n = None) /\
  (forall n v, ~ known_name kty n -> dget d n = Some v -> exists v', as_bytes v = Ok v' /\ dget (k_extra k) n = Some v').
Proof.
  intros P d k H. destruct (keyrep_attributes P d k H) as (kty & G & C & A & B & X & Y). exists kty. split; [exact G|]. split; [exact C|]. split; [exact A|]. split; [|split].
  - intros n I D. specialize (B n I D). cbn [In] in I. destruct I as [<-|[<-|[<-|[]]]]; exact B.
  - intros n I. apply X. destruct I as [I|I]; [left; apply known_own; exact I|right; exact I].
  - intros n v NI D. apply Y; [|exact D]. intro I. apply NI. apply known_own. exact I.
Qed.
Print Assumptions C196_keyrep.
Definition ex_jwk : dict := [(lit "kty", VStr (lit "oct")); (lit "k", VStr (lit "c2VjcmV0")); (lit "kid", VStr (lit "one")); (lit "x5u", VStr (lit "https://example.com/")); (lit "mtrl", VInt 1); (lit "owner", VStr [233]); (lit "n", VInt 5)].
Definition ex_loaded : jwk :=
  {| k_kty := VStr (lit "oct"); k_alg := VStr []; k_use := VStr []; k_kid := VStr (lit "one"); k_x5c := VList []; k_x5t := VStr []; k_x5u := VBytes (lit "https://example.com/");
     k_extra := [(lit "owner", VBytes [195; 169]); (lit "n", VInt 5)]; k_hash := None; k_data := DSym (VBytes (lit "secret")) (VBytes (lit "c2VjcmV0")) |}.
Example C196_ex : keyrep std (VDict ex_jwk) = Ok ex_loaded.
Proof. vm_compute. reflexivity. Qed.

(** C197: to_dict returns the private form and, over it, the unknown members *)
Theorem C197_to_dict : forall k d, nodup_keys (k_extra k) = true -> to_dict k = Ok d ->
  exists s, serialize k true = Ok (VDict s) /\ forall n, dget d n = match dget (k_extra k) n with Some v => Some v | None => dget s n end.
Proof. exact to_dict_members. Qed.
Print Assumptions C197_to_dict.
Theorem C197_unknown_kept : forall P d k t n v, nodup_keys d = true -> keyrep P (VDict d) = Ok k -> to_dict k = Ok t -> dget d n = Some v ->
  (forall kty, dget d (lit "kty") = Some kty -> ~ known_name kty n) -> exists v', as_bytes v = Ok v' /\ dget t n = Some v'.
Proof.
  intros P d k t n v N H T D NI. apply (keyrep_to_dict P d k t n v N H T D). intros kty G I. apply (NI kty G). apply known_own. exact I.
Qed.
Print Assumptions C197_unknown_kept.
(** The known members that are not printed again are lost. *)
Theorem C197_x5u_refuted : exists d k t, keyrep std (VDict d) = Ok k /\ to_dict k = Ok t /\ dmem d (lit "x5u") = true /\ dmem t (lit "x5u") = false.
Proof.
  exists ex_jwk, ex_loaded, [(lit "kty", VStr (lit "oct")); (lit "kid", VStr (lit "one")); (lit "k", VStr (lit "c2VjcmV0")); (lit "owner", VBytes [195; 169]); (lit "n", VInt 5)]. repeat split; vm_compute; reflexivity.
Qed.
Print Assumptions C197_x5u_refuted.

(** C198: RSAKey(key=object) *)
Definition lists_or_none (v : pval) : Prop := v = VNone \/ exists l, v = VList l.
Theorem C198_object : forall P kw r, dmem kw (lit "self") = false -> dget kw (lit "n") = None -> lists_or_none (kwarg kw (lit "x5c") VNone) ->
  exists k nums, rsa_new P kw (ORsa r) = Ok k /\ k_data k = DRsa (ORsa r) nums /\
    num nums (lit "n") = VInt (r_n r) /\ num nums (lit "e") = VInt (r_e r) /\ (forall d, r_d r = Some d -> num nums (lit "d") = VInt d) /\
    (forall d p q, r_d r = Some d -> r_pq r = Some (p, q) -> p <> 0 -> q <> 0 -> num nums (lit "p") = VInt p /\ num nums (lit "q") = VInt q) /\
    (r_d r = None -> forall n, In n [lit "d"; lit "p"; lit "q"] -> num nums n = kwarg kw n (VStr [])) /\
    (forall n, In n [lit "dp"; lit "dq"; lit "di"; lit "qi"] -> num nums n = kwarg kw n (VStr [])).
Proof.
  intros P kw r S N X. destruct (rsa_of_object P kw r S N X) as (k & nums & H & D & (H1 & H2 & H3 & H4 & H5 & H6) & _). exists k, nums. split; [exact H|]. split; [exact D|]. split; [exact H1|]. split; [exact H2|].
  split; [intros d E; rewrite E in H3; exact H3|]. split; [|split; [|exact H6]].
  - intros d p q E1 E2 P0 Q0. rewrite E1, E2 in H4, H5. apply Z.eqb_neq in P0, Q0. rewrite P0 in H4. rewrite Q0 in H5. split; assumption.
  - intros E n I. rewrite E in H3, H4, H5. cbn [In] in I. destruct I as [<-|[<-|[<-|[]]]]; assumption.
Qed.
Print Assumptions C198_object.
Theorem C198_both : forall P kw r vn ve, dmem kw (lit "self") = false -> dget kw (lit "n") = Some (VStr vn) -> dget kw (lit "e") = Some (VStr ve) -> vn <> [] -> ve <> [] -> lists_or_none (kwarg kw (lit "x5c") VNone) ->
  exists k nums, rsa_new P kw (ORsa r) = Ok k /\ k_data k = DRsa (ORsa r) nums /\ forall n, In n rsa_names -> num nums n = kwarg kw n (VStr []).
Proof. exact rsa_of_both. Qed.
Print Assumptions C198_both.
Example C198_ex : (k <- rsa_new std [(lit "kid", VStr (lit "a")); (lit "dp", VInt 7)] (ORsa ex_rsakey);; Ok (k_kid k, k_data k)) =
  Ok (VStr (lit "a"), DRsa (ORsa ex_rsakey) (dset ex_nums (lit "dp") (VInt 7))).
Proof. vm_compute. reflexivity. Qed.

(** C199: ECKey *)
Theorem C199_key_pair : forall name c, by_name name = Ok c -> forall kw rnd, dmem kw (lit "self") = false -> dget kw (lit "crv") = None ->
  exists k x y d, ec_new kw (OCurve c) onone rnd = Ok k /\ k_data k = DEc (OCurve c) (VStr []) (VInt x) (VInt y) (VInt d) (OCurve c) /\ 1 <= d <= c_N c - 1 /\
    element (Some (x, y)) (c_a c) (c_b c) (c_p c) = true /\ GP (c_p c) x y = gmul (c_p c) (- c_a c) d (den (c_p c) (Some (c_G c))).
Proof.
  intros name c B kw rnd S N. destruct (key_pair_nist name c B rnd) as (d & x & y & KP & R & E & _ & _ & G). destruct (ec_of_curve kw c rnd d x y S N KP) as (k & H & D & _). exists k, x, y, d. auto 10.
Qed.
Print Assumptions C199_key_pair.
Theorem C199_given_curve : forall kw key c rnd, dmem kw (lit "self") = false ->
  exists k, ec_new kw key (OCurve c) rnd = Ok k /\ k_data k = DEc key (kwarg kw (lit "crv") (VStr [])) (kwarg kw (lit "x") (VStr [])) (kwarg kw (lit "y") (VStr [])) (kwarg kw (lit "d") (VStr [])) (OCurve c).
Proof. exact ec_of_given. Qed.
Print Assumptions C199_given_curve.
Theorem C199_numbers : forall kw crv c x y d rnd, dmem kw (lit "self") = false -> dget kw (lit "crv") = Some (VStr crv) -> by_name crv = Ok c ->
  dget kw (lit "x") = Some (VInt x) -> dget kw (lit "y") = Some (VInt y) -> (dget kw (lit "d") = Some (VInt d) \/ dget kw (lit "d") = None) ->
  match kwarg kw (lit "kid") (VStr []) with VStr _ => True | _ => False end ->
  exists k, ec_new kw onone onone rnd = Ok k /\ k_data k = DEc onone (VStr crv) (VInt x) (VInt y) (kwarg kw (lit "d") (VStr [])) (OCurve c).
Proof. exact ec_of_numbers. Qed.
Print Assumptions C199_numbers.
Example C199_ex : (k <- ec_new [(lit "use", VStr (lit "sig"))] (OCurve P256) onone 0;; Ok (k_use k, k_data k)) =
  Ok (VStr (lit "sig"), DEc (OCurve P256) (VStr []) (VInt (fst (c_G P256))) (VInt (snd (c_G P256))) (VInt 1) (OCurve P256)) /\
  (k <- ec_new [(lit "crv", VStr (lit "P-256")); (lit "x", VStr (lit "AQ"))] onone (OCurve P384) 0;; Ok (k_data k)) = Ok (DEc onone (VStr (lit "P-256")) (VStr (lit "AQ")) (VStr []) (VStr []) (OCurve P384)).
Proof. split; vm_compute; reflexivity. Qed.

(** C200: SYMKey(key=secret) *)
Theorem C200_secret : forall kw key b, dmem kw (lit "self") = false -> key = VBytes b \/ (exists s, key = VStr s /\ utf8_encode s = Ok b) -> b <> [] ->
  exists k, sym_new kw key = Ok k /\ k_data k = DSym (VBytes b) (kwarg kw (lit "k") (VStr [])) /\ get_key k true = Ok (MObj (OVal (VBytes b))) /\ get_key k false = Ok (MObj (OVal (VBytes b))).
Proof.
  intros kw key b S H N. destruct (sym_of_secret kw key b S H N) as (k & Q & D & _). exists k. split; [exact Q|]. split; [exact D|]. unfold get_key. rewrite D. split; reflexivity.
Qed.
Print Assumptions C200_secret.
Example C200_ex : (k <- sym_new [(lit "k", VStr (lit "b3RoZXI"))] (VStr [233]);; Ok (k_data k)) = Ok (DSym (VBytes [195; 169]) (VStr (lit "b3RoZXI"))).
Proof. vm_compute. reflexivity. Qed.

(** C201: jwk_wrap *)
Theorem C201_rsa : forall P r use kid, 0 < r_n r -> 0 < r_e r -> exists k nums, jwk_wrap P (RawRsa r) (VStr use) (VStr kid) = Ok k /\ k_data k = DRsa (ORsa r) nums /\
  num nums (lit "n") = VInt (r_n r) /\ num nums (lit "e") = VInt (r_e r) /\ num nums (lit "d") = match r_d r with Some d => VInt d | None => VStr [] end /\
  (r_d r = None -> num nums (lit "p") = VStr [] /\ num nums (lit "q") = VStr []) /\
  (forall d p q, r_d r = Some d -> r_pq r = Some (p, q) -> p <> 0 -> q <> 0 -> num nums (lit "p") = VInt p /\ num nums (lit "q") = VInt q) /\
  k_kty k = VStr (lit "RSA") /\ k_use k = VStr use /\ k_kid k = VStr kid /\ k_alg k = VStr [] /\ k_extra k = [].
Proof.
  intros P r use kid N E. destruct (wrap_rsa P r use kid N E) as (k & nums & H & D & (H1 & H2 & H3 & H4 & H5 & H6) & K). exists k, nums. split; [exact H|]. split; [exact D|]. split; [exact H1|]. split; [exact H2|]. split; [exact H3|].
  split; [|split; [|exact K]].
  - intro E0. rewrite E0 in H4, H5. split; assumption.
  - intros d p q E1 E2 P0 Q0. rewrite E1, E2 in H4, H5. apply Z.eqb_neq in P0, Q0. rewrite P0 in H4. rewrite Q0 in H5. split; assumption.
Qed.
Print Assumptions C201_rsa.
Theorem C201_text : forall P s b use kid, utf8_encode s = Ok b -> bytes_ok b = true -> exists k, jwk_wrap P (RawText s) (VStr use) (VStr kid) = Ok k /\
  k_data k = DSym (VBytes b) (VStr []) /\ k_kty k = VStr (lit "oct") /\ k_use k = VStr use /\ k_kid k = VStr kid /\ k_alg k = VStr [] /\ k_extra k = [].
Proof. exact wrap_text. Qed.
Print Assumptions C201_text.
Theorem C201_curve : forall P c rnd d x y use kid, key_pair c rnd = (d, Some (x, y)) -> 0 < x -> 0 < y -> exists k, jwk_wrap P (RawCurve c rnd) (VStr use) (VStr kid) = Ok k /\
  k_data k = DEc onone (VStr []) (VInt x) (VInt y) (VInt d) (OCurve c) /\ k_kty k = VStr (lit "EC") /\ k_use k = VStr use /\ k_kid k = VStr kid /\ k_alg k = VStr [] /\ k_extra k = [].
Proof. exact wrap_curve. Qed.
Print Assumptions C201_curve.
Example C201_ex : (k <- jwk_wrap std (RawRsa ex_rsakey) (VStr (lit "sig")) (VStr (lit "a"));; Ok (k_use k, k_kid k, k_data k)) = Ok (VStr (lit "sig"), VStr (lit "a"), DRsa (ORsa ex_rsakey) ex_nums) /\
  (k <- jwk_wrap std (RawCurve P256 0) (VStr (lit "enc")) (VStr (lit "b"));; Ok (k_use k, k_kid k)) = Ok (VStr (lit "enc"), VStr (lit "b")).
Proof. split; vm_compute; reflexivity. Qed.

(** C202: loading a key set: what stays, what is added, what is raised *)
Theorem C202_load : forall P ks t,
  (forall e, loads t = Raise e -> load_jwks P ks (VStr t) = (ks, Some e)) /\
  (forall v, loads t = Ok v -> (forall d, v <> VDict d) -> load_jwks P ks (VStr t) = (ks, Some ETypeError)) /\
  (forall d, loads t = Ok (VDict d) -> dget d (lit "keys") = None -> load_jwks P ks (VStr t) = (ks, Some EKeyError)) /\
  (forall d l, loads t = Ok (VDict d) -> dget d (lit "keys") = Some (VList l) ->
     (forall new, mapM (keyrep P) l = Ok new -> load_jwks P ks (VStr t) = (ks ++ new, None)) /\
     (forall l1 bad l2 new e, l = l1 ++ bad :: l2 -> mapM (keyrep P) l1 = Ok new -> keyrep P bad = Raise e -> load_jwks P ks (VStr t) = (ks ++ new, Some e))).
Proof. exact load_outcome. Qed.
Print Assumptions C202_load.
Theorem C202_fetch : forall P ks u, (forall e, p_fetch P u = Raise e -> load_from_url P ks u = (ks, Some e)) /\ (forall t, p_fetch P u = Ok t -> load_from_url P ks u = load_jwks P ks (VStr t)).
Proof. exact fetch_outcome. Qed.
Print Assumptions C202_fetch.
Example C202_ex : let t := lit "{""keys"": [{""kty"": ""oct"", ""k"": ""c2VjcmV0""}, {""k"": ""AQ""}, {""kty"": ""oct"", ""k"": ""AQ""}]}" in
  snd (load_jwks std [ex_rsa] (VStr t)) = Some EKeyError /\ map k_kty (fst (load_jwks std [ex_rsa] (VStr t))) = [VStr (lit "RSA"); VStr (lit "oct")] /\
  load_jwks std [ex_rsa] (VStr (lit "{""keys"": [")) = ([ex_rsa], Some EJSONDecodeError).
Proof. cbv zeta. split; [vm_compute; reflexivity|]. split; vm_compute; reflexivity. Qed.

(** C203: encryption_key of an RSA key is its key object, or one made of n and e *)
Theorem C203_object : forall P k key nums, k_data k = DRsa (ORsa key) nums -> rsa_encryption_key P k = Ok (ORsa key, k).
Proof. intros P k key nums D. apply (rsa_enc_object P k (ORsa key) nums D eq_refl). Qed.
Print Assumptions C203_object.
Theorem C203_numbers : forall P k nums n e r, k_data k = DRsa onone nums -> map fst nums = rsa_names -> num nums (lit "n") = VInt n -> num nums (lit "e") = VInt e -> n <> 0 -> e <> 0 ->
  (forall m, In m rsa_names -> m <> lit "n" -> m <> lit "e" -> num nums m = VStr []) -> p_rsa_construct P [n; e] = Ok r ->
  rsa_encryption_key P k = Ok (ORsa r, set_data k (DRsa (ORsa r) nums)).
Proof. exact rsa_enc_numbers. Qed.
Print Assumptions C203_numbers.
Example C203_ex : (' (o, _) <- rsa_encryption_key std (make_public_copy ex_rsa);; Ok o) = Ok (ORsa {| r_n := 3233; r_e := 17; r_d := None; r_pq := None |}) /\ rsa_encryption_key std ex_rsa = Ok (ORsa ex_rsakey, ex_rsa).
Proof. split; vm_compute; reflexivity. Qed.

(** C204: Key.verify *)
Theorem C204_verify_partial : forall k, (Forall number_or_unset (longs_of k) -> forall s, k_kid k = VStr s -> exists k', key_verify k = Ok (k', true)) /\
  (Forall number_or_unset (longs_of k) -> truthy (k_kid k) = true -> (forall s, k_kid k <> VStr s) -> key_verify k = Raise EHeaderError) /\
  (~ Forall number_or_unset (longs_of k) -> (exists k', key_verify k = Ok (k', false)) \/ key_verify k = Raise EUnicodeDecodeError).
Proof. exact verify_answer. Qed.
Print Assumptions C204_verify_partial.
Theorem C204_unchanged_partial : forall k k', match k_data k with DRsa _ nums => map fst nums = rsa_names | _ => True end -> key_verify k = Ok (k', true) -> k' = k.
Proof. exact verify_unchanged. Qed.
Print Assumptions C204_unchanged_partial.
(** For numbers in base64url, which it is meant for, the answer is never True. *)
Theorem C204_wire_refuted : exists k n, longs_of k = [VStr (b64e (z2be 32 n)); VStr (b64e (z2be 32 n)); VStr []] /\ (' (_, b) <- key_verify k;; Ok b) = Ok false.
Proof. exists (fields (VStr (lit "EC")) (VStr []) (VStr []) (VStr []) (DEc onone (VStr (lit "P-256")) (VStr (b64e (z2be 32 5))) (VStr (b64e (z2be 32 5))) (VStr []) onone)), 5. split; vm_compute; reflexivity. Qed.
Print Assumptions C204_wire_refuted.
Example C204_ex : key_verify ex_rsa = Ok (ex_rsa, true) /\ key_verify ex_ec = Ok (ex_ec, true) /\ key_verify (set_kid ex_sym (VInt 5)) = Raise EHeaderError /\
  Forall number_or_unset (longs_of ex_rsa).
Proof. split; [vm_compute; reflexivity|]. split; [vm_compute; reflexivity|]. split; [reflexivity|]. apply Forall_forall. intros v I. vm_compute in I. unfold number_or_unset.
  repeat (destruct I as [<-|I]; [(left; reflexivity) || (right; left; reflexivity)|]). destruct I.
Qed.
Example C204_octets_ex : number_or_unset (VList [VInt 66; VInt 119]) /\ (forall o crv y d c, key_verify (set_data ex_ec (DEc o crv (VList [VInt 66; VInt 119]) (VInt y) (VInt d) c)) =
  Ok (set_data ex_ec (DEc o crv (VList [VInt 66; VInt 119]) (VInt y) (VInt d) c), true)).
Proof.
  assert (N : number_or_unset (VList [VInt 66; VInt 119])) by (right; right; exists [VInt 66; VInt 119], [66; 119], 7; vm_compute; repeat split; reflexivity). split; [exact N|].
  intros o crv y d c. unfold key_verify, longs_of, set_data. cbn [k_data]. rewrite verify_loop_true; [reflexivity|].
  constructor; [exact N|]. constructor; [right; left; reflexivity|]. constructor; [right; left; reflexivity|constructor].
Qed.

(** C205: the constructor of JWS *)
Theorem C205_parameters : forall P msg kw obj s, jws_init P msg kw obj = Ok s -> kw <> [] \/ obj <> None ->
  s_msg s = msg /\ s_jwt s = None /\ s_key s = None /\
  dget (s_dict s) (lit "alg") = Some (match dget kw (lit "alg") with Some a => a | None => VStr (lit "none") end) /\
  (forall n, In n [lit "jku"; lit "x5u"; lit "x5t"; lit "kid"; lit "typ"; lit "cty"] -> dget (s_dict s) n = dget kw n) /\
  (dget kw (lit "crit") = None -> forall v l, dget kw (lit "x5c") = Some v -> v = VList l -> dget (s_dict s) (lit "x5c") = Some v).
Proof.
  intros P msg kw obj s H N. destruct (init_parameters P msg kw obj s H N) as (H1 & H2 & H3 & H4 & H5 & H6 & H7). split; [exact H1|]. split; [exact H2|]. split; [exact H3|]. split; [exact H4|]. split; [exact H5|].
  intros E v l G ->. rewrite E, G in H7. rewrite H7. unfold list_or_empty. destruct l; reflexivity.
Qed.
Print Assumptions C205_parameters.
Theorem C205_empty : forall P msg, exists s, jws_init P msg [] None = Ok s /\ s_msg s = msg /\ s_dict s = [] /\ s_jwk s = None.
Proof. exact init_empty. Qed.
Print Assumptions C205_empty.
Theorem C205_headers : forall P h, (dmem h (lit "self") = true -> init_from P h = Raise ETypeError) /\ (forall s, init_from P h = Ok s -> s_msg s = match dget h (lit "msg") with Some v => v | None => VNone end).
Proof. exact init_headers. Qed.
Print Assumptions C205_headers.
Example C205_ex : (s <- jws_init std (VStr (lit "m")) [(lit "kid", VStr (lit "a")); (lit "x5c", VList [VStr (lit "A")])] None;; Ok (s_dict s)) =
  Ok [(lit "alg", VStr (lit "none")); (lit "x5c", VList [VStr (lit "A")]); (lit "kid", VStr (lit "a"))].
Proof. vm_compute. reflexivity. Qed.

(** C206: crit is stored under the name x5c *)
Theorem C206_crit : forall P msg kw obj s, jws_init P msg kw obj = Ok s -> kw <> [] -> dget (s_dict s) (lit "crit") = None /\
  forall v, dget kw (lit "crit") = Some v -> dget (s_dict s) (lit "x5c") = Some (if truthy v then v else VList []).
Proof.
  intros P msg kw obj s H N. destruct (init_parameters P msg kw obj s H (or_introl N)) as (_ & _ & _ & _ & _ & H6 & H7). split; [exact H6|]. intros v G. rewrite G in H7. exact H7.
Qed.
Print Assumptions C206_crit.
Example C206_ex : (s <- jws_init std (VStr (lit "m")) [(lit "crit", VList [VStr (lit "exp")]); (lit "x5c", VList [VStr (lit "A")])] None;; Ok (s_dict s)) =
  Ok [(lit "alg", VStr (lit "none")); (lit "x5c", VList [VStr (lit "exp")])].
Proof. vm_compute. reflexivity. Qed.

(** C207: the argument jwk of JWS *)
Theorem C207_jwk : forall P msg kw,
  (forall k, exists s, jws_init P msg kw (Some k) = Ok s /\ s_jwk s = Some (JKey k)) /\
  (forall d, dget kw (lit "jwk") = Some (VDict d) -> match keyrep P (VDict d) with
     | Ok k => exists s, jws_init P msg kw None = Ok s /\ s_jwk s = Some (JKey k) | Raise e => jws_init P msg kw None = Raise e end) /\
  (forall t d, dget kw (lit "jwk") = Some (VStr t) -> loads t = Ok (VDict d) -> match keyrep P (VDict d) with
     | Ok k => exists s, jws_init P msg kw None = Ok s /\ s_jwk s = Some (JKey k) | Raise e => jws_init P msg kw None = Raise e end) /\
  (forall t e, dget kw (lit "jwk") = Some (VStr t) -> loads t = Raise e -> jws_init P msg kw None = Raise e) /\
  (forall t v, dget kw (lit "jwk") = Some (VStr t) -> loads t = Ok v -> (forall d, v <> VDict d) -> jws_init P msg kw None = Raise EAttributeError).
Proof. exact init_jwk. Qed.
Print Assumptions C207_jwk.
Example C207_ex : (s <- jws_init std VNone [(lit "jwk", VStr (lit "{""kty"": ""oct"", ""k"": ""c2VjcmV0""}"))] None;; Ok (match s_jwk s with Some (JKey k) => k_data k | _ => DKey onone end)) =
  Ok (DSym (VBytes (lit "secret")) (VBytes (lit "c2VjcmV0"))).
Proof. vm_compute. reflexivity. Qed.

(** C208: an ECDSA algorithm with a key that is no point: refused as bad signature if a half of the signature is out of range *)
Theorem C208_no_point : forall P h bits c msg sg m e, nist_curve bits = Ok c -> as_point m = Raise e ->
  let r := be2z (firstn (Z.to_nat (c_bytes c)) sg) in let s := be2z (skipn (Z.to_nat (c_bytes c)) sg) in
  signer_verify P (DSASigner h bits) msg sg m = Raise (if (0 <? r) && (r <? c_N c) && ((0 <? s) && (s <? c_N c)) then e else EBadSignature).
Proof. exact no_point. Qed.
Print Assumptions C208_no_point.
Example C208_ex : signer_verify std (DSASigner SHA256 256) [] (repeat 1 64) (MObj (ORsa ex_rsakey)) = Raise ETypeError /\
  signer_verify std (DSASigner SHA256 256) [] (repeat 1 32 ++ repeat 255 32) (MObj (ORsa ex_rsakey)) = Raise EBadSignature.
Proof. split; vm_compute; reflexivity. Qed.

(** C209: false for points with x = 0, which are not usable and not printable *)
Definition y0 : Z := 46263761741508638697010950048709651021688891777877937875096931459006746039284.
Theorem C209_zero_refuted : exists k x y, k_data k = DEc onone (VStr (lit "P-256")) (VInt x) (VInt y) (VStr []) (OCurve P256) /\
  element (Some (x, y)) (c_a P256) (c_b P256) (c_p P256) = true /\ 0 <= x < c_p P256 /\ 0 < y < c_p P256 /\
  get_key k false = Raise EValueError /\ serialize k false = Raise ETypeError.
Proof.
  exists (fields (VStr (lit "EC")) (VStr []) (VStr []) (VStr []) (DEc onone (VStr (lit "P-256")) (VInt 0) (VInt y0) (VStr []) (OCurve P256))), 0, y0.
  split; [reflexivity|]. split; [vm_compute; reflexivity|]. split; [split; vm_compute; [discriminate|reflexivity]|]. split; [split; vm_compute; reflexivity|]. split; vm_compute; reflexivity.
Qed.
Print Assumptions C209_zero_refuted.
Theorem C209_other_partial : forall k key crv x y d c, k_data k = DEc key crv (VInt x) (VInt y) d c -> x <> 0 -> y <> 0 ->
  get_key k false = Ok (MPoint (VInt x) (VInt y)) /\ (forall z, d = VInt z -> z <> 0 -> get_key k true = Ok (MObj (OVal (VInt z)))) /\ (truthy d = false -> get_key k true = Raise EValueError).
Proof.
  intros k key crv x y d c D X Y. unfold get_key. rewrite D. cbn [truthy]. apply Z.eqb_neq in X, Y. rewrite X, Y. cbn [negb andb]. split; [reflexivity|]. split.
  - intros z -> Hz. cbn [truthy]. apply Z.eqb_neq in Hz. rewrite Hz. reflexivity.
  - intros ->. reflexivity.
Qed.
Print Assumptions C209_other_partial.
Theorem C209_encryption_key_partial : forall P k key crv x y d c alg, k_data k = DEc key crv (VInt x) (VInt y) (VInt d) c -> x <> 0 -> y <> 0 -> d <> 0 ->
  key_material P k alg false = Ok (MPoint (VInt x) (VInt y)) /\ key_material P k alg true = Ok (MObj (OVal (VInt d))).
Proof.
  intros P k key crv x y d c alg D X Y N. unfold key_material. rewrite D. destruct (C209_other_partial k key crv x y (VInt d) c D X Y) as (H1 & H2 & _). split; [exact H1|apply H2; [reflexivity|exact N]].
Qed.
Print Assumptions C209_encryption_key_partial.
Example C209_ex : (exists x y d, k_data ex_ec = DEc onone (VStr (lit "P-256")) (VInt x) (VInt y) (VInt d) (OCurve P256) /\ x <> 0 /\ y <> 0 /\ d <> 0) /\ get_key (make_public_copy ex_ec) true = Raise EValueError.
Proof. split; [|vm_compute; reflexivity]. do 3 eexists. split; [reflexivity|]. split; [intro E; discriminate E|]. split; intro E; discriminate E. Qed.

(** C164: keys() lists the names of the parameters *)
Theorem C164_keys : forall s, dget (s_dict s) (lit "jwk") = None -> forall n, In n (jwx_keys s) <-> jwx_contains s n = true.
Proof.
  intros s N n. unfold jwx_keys, jwx_contains, jwx_get. rewrite in_app_iff.
  assert (DI : forall (d : dict) m, In m (map fst d) <-> dget d m <> None).
  { intros d m. induction d as [|[a v] d IH]; [cbn; intuition congruence|]. cbn [map fst In dget]. destruct (zs_eqb a m) eqn:E.
    - apply zs_eqb_eq in E. intuition congruence.
    - rewrite IH. split; [intros [->|H]; [rewrite zs_eqb_refl in E; discriminate E|exact H]|right; assumption]. }
  destruct (zs_eqb n (lit "jwk")) eqn:E.
  - apply zs_eqb_eq in E. subst n. rewrite DI, N. destruct (s_jwk s); cbn [In]; intuition congruence.
  - rewrite DI. destruct (dget (s_dict s) n) eqn:G.
    + split; [reflexivity|]. intros _. left. discriminate.
    + split; [|intro X; discriminate X]. intros [X|X]; [congruence|]. destruct (s_jwk s); cbn [In] in X; [|destruct X]. destruct X as [<-|[]]. rewrite zs_eqb_refl in E. discriminate E.
Qed.
Print Assumptions C164_keys.
Example C164_keys_ex : (s <- jws_init std VNone [(lit "kid", VStr (lit "a"))] (Some ex_rsa);; Ok (jwx_keys s, dget (s_dict s) (lit "jwk"))) = Ok ([lit "alg"; lit "kid"; lit "jwk"], None).
Proof. vm_compute. reflexivity. Qed.
