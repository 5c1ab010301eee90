(** * What signing leaves in the caller's dictionary is the header of the token; dictionaries and instances after a refusal *)
From Coq Require Import ZArith List Bool Lia.
From Verif Require Import Base BaseProofs Prims Inst Extra ExtraProofs Utf8 Codec CodecProofs Json Jwt JwtProofs PvalEq Jwk JwkProofs JwkEx Jws JwsProofs JwsProofs3 JwsProofs6 JwsEx JweProofs2 JsonState Caller.
Import ListNotations.
Open Scope Z_scope.

Section Left2.
Variable P : prims.

Lemma jwt_init_truthy : forall x a j, dget x (lit "alg") = Some a -> truthy a = true -> jwt_init x = Ok j -> j_headers j = VDict x.
Proof.
  intros x a j G T H. unfold jwt_init in H. rewrite G, T in H. cbv zeta in H. destruct (b64encode_item (VDict x)) as [e|]; [|discriminate H]. cbn [bind] in H. destruct (b64d e); [|discriminate H]. cbn [bind] in H. apply Ok_inj in H. subst j. reflexivity.
Qed.
Lemma pack_first : forall j d items t j', j_headers j = VDict d -> d <> [] -> items <> [] -> pack j items VNone = Ok (t, j') ->
  exists he r, b64encode_item (VDict d) = Ok he /\ ~ In 46 he /\ t = he ++ 46 :: r.
Proof.
  intros j d items t j' H D I Q. rewrite (pack_items _ _ _ H D I) in Q. destruct (b64encode_item (VDict d)) as [he|] eqn:B; [|discriminate Q]. cbn [bind] in Q.
  destruct (mapM b64encode_item items) as [es|] eqn:M; [|discriminate Q]. cbn [bind] in Q. destruct (header_ascii _ _ B) as (A & N & _).
  cbn [mapM] in Q. rewrite (utf8_decode_ascii _ A) in Q. cbn [bind] in Q. destruct (mapM utf8_decode es) as [ts|] eqn:U; [|discriminate Q]. cbn [bind] in Q. apply Ok_inj in Q. apply (f_equal fst) in Q. cbn [fst] in Q. subst t.
  destruct items as [|x items]; [congruence|]. cbn [mapM] in M. destruct (b64encode_item x) as [e|]; [|discriminate M]. cbn [bind] in M. destruct (mapM b64encode_item items) as [es'|]; [|discriminate M]. cbn [bind] in M. apply Ok_inj in M. subst es.
  cbn [mapM] in U. destruct (utf8_decode e) as [u|]; [|discriminate U]. cbn [bind] in U. destruct (mapM utf8_decode es') as [us|]; [|discriminate U]. cbn [bind] in U. apply Ok_inj in U. subst ts.
  exists he, (join 46 (u :: us)). split; [reflexivity|]. split; [exact N|]. reflexivity.
Qed.
Lemma after_header : forall E msg key x a t, dget x (lit "alg") = Some a -> truthy a = true -> after_keys P E msg key x a = Ok t -> b64encode_item (VDict x) = Ok (hd [] (split 46 t)).
Proof.
  intros E msg key x a t G T H. unfold after_keys in H. destruct (dmem x (lit "self")); [discriminate H|]. destruct (jwt_init x) as [j|] eqn:J; [|discriminate H]. cbn [bind] in H.
  pose proof (jwt_init_truthy _ _ _ G T J) as HJ. assert (NE : x <> []) by (intro X; rewrite X in G; discriminate G).
  destruct (pval_eqb a (VStr (lit "none"))).
  - destruct (pack j [msg; VStr []] VNone) as [[u j']|] eqn:K; [|discriminate H]. cbn [bind] in H. apply Ok_inj in H. subst u.
    destruct (pack_first j x [msg; VStr []] t j' HJ NE ltac:(discriminate) K) as (he & r & B & N & ->). rewrite split_first by exact N. exact B.
  - destruct a; try discriminate H. destruct (dget SIGNERS s) as [g|]; [|discriminate H]. destruct (pack j [msg] VNone) as [[u j']|] eqn:K; [|discriminate H]. cbn [bind] in H.
    destruct (pack_first j x [msg] u j' HJ NE ltac:(discriminate) K) as (he & r & B & N & ->).
    destruct (utf8_encode (he ++ 46 :: r)); [|discriminate H]. cbn [bind] in H. destruct key as [k|]; [|discriminate H]. destruct (get_key k true); [|discriminate H]. cbn [bind] in H. destruct (signer_sign P g E _ _) as [sg|]; [|discriminate H]. cbn [bind] in H. apply Ok_inj in H. subst t.
    rewrite <- app_assoc. cbn [app]. rewrite split_first by exact N. exact B.
Qed.

Lemma named_alg : forall h a ks i, dget (with_typ i (named h a ks)) (lit "alg") = Some a.
Proof. intros h a ks i. unfold with_typ, named. destruct ks as [|k ks]; [|destruct (truthy (k_kid k))]; destruct (dget (s_dict i) (lit "typ")); repeat (rewrite dget_dset_other by ne); apply dget_dset_same. Qed.
Lemma pick_alg_truthy : forall s keys, truthy (snd (pick_alg s keys)) = true.
Proof.
  intros s keys. unfold pick_alg. match goal with |- context [let '(_, _) := ?x in _] => destruct x as [s0 a] end. destruct (truthy a) eqn:T; [exact T|reflexivity].
Qed.

(** A dictionary given to sign_compact is afterwards the header of the token ... *)
Theorem left_is_header : forall E s keys p t, p <> [] -> snd (sign_compact P E s keys p) = Ok t -> b64encode_item (VDict (sign_compact_left P s keys p)) = Ok (hd [] (split 46 t)).
Proof.
  intros E s keys p t NE H. destruct (pick_alg s keys) as [i1 a] eqn:PA. rewrite sign_compact_eq, (alg_keys_eq _ _ _ _ _ _ PA) in H. cbn [snd] in H.
  pose proof (pick_alg_truthy s keys) as T. rewrite PA in T. cbn [snd] in T.
  unfold sign_compact_left. destruct p as [|kv p]; [congruence|]. rewrite (alg_keys_eq _ _ _ _ _ _ PA), (left_eq _ _ _ _ _ _ PA NE).
  destruct (picked P i1 keys a) as [ks|]; [|discriminate H]. cbn [bind] in *. destruct (chosen a ks) as [c|]; [|discriminate H]. cbn [bind] in *.
  apply after_header in H; [exact H|apply named_alg|exact T].
Qed.
(** ... and so is one given to sign_json of the entry made of it. *)
Theorem left_is_protected : forall E s keys p u e, p <> [] -> create_signature P E s keys (p, u) = Ok e ->
  exists h, b64encode_item (VDict (create_signature_left P s keys p)) = Ok h /\ h <> [] /\ dget e (lit "protected") = Some (VStr h).
Proof.
  intros E s keys p u e NE H. destruct (dget (s_dict s) (lit "alg")) as [a|] eqn:A; [|unfold create_signature in H; rewrite A in H; discriminate H].
  rewrite (create_eq _ _ _ _ _ _ _ NE A) in H. cbv zeta in H. destruct (dmem (with_alg p a) (lit "self") || dmem (with_alg p a) (lit "msg")) eqn:SM; [discriminate H|].
  destruct (jws_init P (s_msg s) (ddel (with_alg p a) (lit "with_digest")) None) as [i|] eqn:I; [|discriminate H]. cbn [bind] in H. destruct (snd (sign_compact P E i keys (with_alg p a))) as [t|] eqn:SG; [|discriminate H]. cbn [bind] in H.
  assert (L : create_signature_left P s keys p = sign_compact_left P i keys (with_alg p a)) by (unfold create_signature_left; destruct p; [congruence|]; rewrite A, SM, I; reflexivity).
  rewrite L. pose proof (left_is_header _ _ _ _ _ (with_alg_ne p a) SG) as B. exists (hd [] (split 46 t)). split; [exact B|].
  assert (N : hd [] (split 46 t) <> []).
  { intro X. rewrite X in B. clear -B. unfold b64encode_item in B. destruct (b2s_conv _) as [v|] eqn:V; [|discriminate B]. cbn [bind] in B.
    cbn [b2s_conv] in V. match type of V with bind ?m _ = _ => destruct m as [d|]; [|discriminate V] end. cbn [bind] in V. apply Ok_inj in V. subst v. cbn [dumps] in B.
    match type of B with bind (bind ?m _) _ = _ => destruct m as [it|]; [|discriminate B] end. cbn [bind] in B. destruct (utf8_encode _) as [o|] eqn:U; [|discriminate B]. cbn [bind] in B. apply Ok_inj in B.
    pose proof (utf8_encode_ok _ _ U) as OK. apply b64e_nil in B; [|exact OK]. subst o. apply utf8_decode_encode in U. discriminate U. }
  split; [exact N|]. unfold entry in H. destruct (split 46 t) as [|h [|q [|sg [|]]]]; try discriminate H. apply Ok_inj in H. cbn [hd] in *. subst e. destruct u, h; try congruence; reflexivity.
Qed.

(** If no key fits, alg is assigned and nothing else; if the keys cannot be picked at all, nothing is. *)
Theorem left_refused : forall E s ks p e, p <> [] -> ks <> [] -> snd (alg_keys P s (Some ks) (VStr (lit "sig")) p) = Raise e ->
  snd (sign_compact P E s (Some ks) p) = Raise e /\
  (e = ENoSuitableSigningKeys -> sign_compact_left P s (Some ks) p = dset p (lit "alg") (match dget (s_dict s) (lit "alg"), ks with
     | Some a, _ => if truthy a then a else VStr (lit "none") | None, [k] => if truthy (k_alg k) then k_alg k else VStr (lit "none") | None, _ => VStr (lit "none") end)) /\
  (e <> ENoSuitableSigningKeys -> sign_compact_left P s (Some ks) p = p).
Proof.
  intros E s ks p e NE NK H. destruct (pick_alg s (Some ks)) as [i1 a] eqn:PA.
  assert (A : a = match dget (s_dict s) (lit "alg"), ks with
     | Some a, _ => if truthy a then a else VStr (lit "none") | None, [k] => if truthy (k_alg k) then k_alg k else VStr (lit "none") | None, _ => VStr (lit "none") end).
  { unfold pick_alg in PA. destruct (dget (s_dict s) (lit "alg")) as [b|].
    - destruct (truthy b) eqn:T; congruence.
    - destruct ks as [|k [|]]; [congruence| |]; [destruct (truthy (k_alg k)) eqn:T; cbn [truthy] in PA; [rewrite T in PA|]; congruence|cbn [truthy] in PA; congruence]. }
  rewrite <- A. clear A. rewrite (alg_keys_eq _ _ _ _ _ _ PA) in H. cbn [snd] in H. rewrite sign_compact_eq. unfold sign_compact_left. destruct p as [|kv p]; [congruence|]. rewrite (alg_keys_eq _ _ _ _ _ _ PA), (left_eq _ _ _ _ _ _ PA NE). cbn [snd].
  pose proof (pick_alg_truthy s (Some ks)) as T. rewrite PA in T. cbn [snd] in T.
  destruct (picked P i1 (Some ks) a) as [l|e'] eqn:PI; cbn [bind] in *.
  - destruct (chosen a l) as [c|e'] eqn:CH; [discriminate H|]. cbn [bind] in *. injection H as ->. split; [reflexivity|]. destruct l as [|k l]; [|discriminate CH]. split; [reflexivity|]. intro N. exfalso.
    unfold picked in PI. destruct ks as [|k0 ks]; [congruence|]. cbn [jws_keys bind] in PI. unfold pick_keys in PI. rewrite T in PI. cbn [bind] in PI. unfold chosen in CH.
    destruct (pval_eqb a (VStr (lit "none"))) eqn:Q. { destruct a; try discriminate Q. cbn [pval_eqb] in Q. apply zs_eqb_eq in Q. subst s0. discriminate CH. }
    unfold alg2keytype in PI. rewrite T in PI. cbn [negb] in PI. destruct a; try discriminate PI. cbn [py_lower bind] in CH. destruct (pval_eqb _ _) in CH; congruence.
  - injection H as ->. split; [reflexivity|]. split; [|intros _; reflexivity]. intros ->. exfalso. unfold picked in PI. destruct ks as [|k0 ks]; [congruence|]. cbn [jws_keys bind] in PI. unfold pick_keys in PI. rewrite T in PI. cbn [bind] in PI.
    destruct (pval_eqb a (VStr (lit "none"))); [discriminate PI|]. unfold alg2keytype in PI. rewrite T in PI. cbn [negb] in PI. destruct a; try discriminate PI.
    assert (R : exists l, real_keys (map Some (k0 :: ks)) = Ok l) by (exists (k0 :: ks); clear; generalize (k0 :: ks); induction l as [|x l IH]; [reflexivity|]; cbn [map real_keys]; rewrite IH; reflexivity). destruct R as (l & R). rewrite R in PI.
    assert (K : kid_in_force i1 <> Raise ENoSuitableSigningKeys).
    { unfold kid_in_force. destruct (dget (s_dict i1) (lit "kid")); [discriminate|]. destruct (s_jwt i1) as [j|]; [|discriminate]. unfold py_get. destruct (j_headers j); try discriminate. destruct (dget d (lit "kid")); discriminate. }
    repeat match type of PI with context [if ?b then Ok _ else _] => destruct b; cbn [bind] in PI end; try discriminate PI.
    all: destruct (kid_in_force i1); cbn [bind] in PI; [discriminate PI|congruence].
Qed.
(** sign_json: an entry that is refused before a key is looked for is left with an alg. *)
Theorem entry_refused : forall E s keys p u, p <> [] -> 
  (dget (s_dict s) (lit "alg") = None -> create_signature P E s keys (p, u) = Raise EAttributeError /\ create_signature_left P s keys p = p) /\
  forall a, dget (s_dict s) (lit "alg") = Some a ->
   let ph := if dmem p (lit "alg") then p else p ++ [(lit "alg", a)] in
   (dmem p (lit "self") = true \/ dmem p (lit "msg") = true \/ exists e, jws_init P (s_msg s) (ddel ph (lit "with_digest")) None = Raise e) ->
   (exists e, create_signature P E s keys (p, u) = Raise e) /\ create_signature_left P s keys p = ph.
Proof.
  intros E s keys p u NE. split.
  - intro A. unfold create_signature, create_signature_left. rewrite A. split; [reflexivity|]. destruct p; [congruence|reflexivity].
  - intros a A ph C. assert (W : with_alg p a = ph).
    { unfold with_alg, ph. destruct (dmem p (lit "alg")) eqn:D; [reflexivity|]. clear -D. unfold dmem in D. induction p as [|[n v] p IH]; [reflexivity|]. cbn [dget dset app] in *. destruct (zs_eqb n (lit "alg")); [discriminate D|]. rewrite IH by exact D. reflexivity. }
    rewrite (create_eq _ _ _ _ _ _ _ NE A). unfold create_signature_left. destruct p as [|kv p0]; [congruence|]. rewrite A. cbv zeta. rewrite W.
    assert (O : forall n, n <> lit "alg" -> dmem ph n = dmem (kv :: p0) n) by (intros n N; rewrite <- W; unfold with_alg, dmem; destruct (dget (kv :: p0) (lit "alg")); [reflexivity|]; rewrite dget_dset_other by (apply not_eq_sym; exact N); reflexivity).
    rewrite !O by ne. destruct C as [C|[C|(e & C)]].
    + rewrite C. cbn [orb]. split; [eexists; reflexivity|reflexivity].
    + rewrite C, orb_true_r. split; [eexists; reflexivity|reflexivity].
    + rewrite C. destruct (dmem (kv :: p0) (lit "self") || dmem (kv :: p0) (lit "msg")); (split; [eexists; reflexivity|reflexivity]).
Qed.
Lemma nth_put : forall A (d : A) l i v j, (i < length l)%nat -> nth j (put l i v) d = if Nat.eqb j i then v else nth j l d.
Proof.
  induction l as [|x l IH]; intros i v j L; cbn [length] in L; [lia|]. destruct i as [|i], j as [|j]; cbn [put nth Nat.eqb]; try reflexivity. apply IH. lia.
Qed.
(** The dictionary of a refused entry has been assigned to, the later ones have not. *)
Theorem store_refused : forall Es i s keys (store : list dict) r u t e, (r < length store)%nat -> create_signature P (Es i) s keys (nth r store [], u) = Raise e ->
  exists store', create_signatures_on P Es i s keys store ((r, u) :: t) = (store', Raise e) /\
    forall r', nth r' store' [] = if Nat.eqb r' r then create_signature_left P s keys (nth r store []) else nth r' store [].
Proof. intros Es i s keys store r u t e L H. cbn [create_signatures_on]. cbv zeta. rewrite H. eexists. split; [reflexivity|]. intro r'. apply nth_put. exact L. Qed.

(** ** The instance after verify_json *)
Lemma try_in : forall g i sg ks k, try_keys P g i sg ks = Ok k -> In k ks.
Proof.
  induction ks as [|x ks IH]; intros k H; cbn [try_keys] in H; [discriminate H|]. destruct (m <- get_key x false;; signer_verify P g i sg m) as [v|e].
  - apply Ok_inj in H. subst k. left. reflexivity.
  - right. apply IH. destruct e; try discriminate H; exact H.
Qed.
Lemma compact_key : forall s token ks an sigalg, ks <> [] ->
  s_key (fst (verify_compact P s token (Some ks) an sigalg)) = s_key s /\ (forall m k, snd (verify_compact P s token (Some ks) an sigalg) <> Ok (m, Some k)) \/
  exists k m, In k ks /\ s_key (fst (verify_compact P s token (Some ks) an sigalg)) = Some k /\ snd (verify_compact P s token (Some ks) an sigalg) = Ok (m, Some k).
Proof.
  intros s token ks an sigalg NE. unfold verify_compact. match goal with |- context [match ?x with Ok _ => _ | Raise _ => _ end] => destruct x as [j|e]; [|left; split; [reflexivity|intros m k X; discriminate X]] end. cbv zeta.
  assert (V : forall alg, s_key (fst (verify_alg P (set_jwt s j) j (Some ks) sigalg alg)) = s_key s /\ (forall m k, snd (verify_alg P (set_jwt s j) j (Some ks) sigalg alg) <> Ok (m, Some k)) \/
    exists k m, In k ks /\ s_key (fst (verify_alg P (set_jwt s j) j (Some ks) sigalg alg)) = Some k /\ snd (verify_alg P (set_jwt s j) j (Some ks) sigalg alg) = Ok (m, Some k)).
  { intro alg. unfold verify_alg. match goal with |- context [if ?b then _ else _] => destruct b; [left; split; [reflexivity|intros m k X; discriminate X]|] end. match goal with |- context [if ?b then _ else _] => destruct b; [left; split; [reflexivity|intros m k X; discriminate X]|] end.
    cbv zeta. destruct (checked P (set_alg (set_jwt s j) alg) j (Some ks) alg) as [[k m]|e] eqn:C; [|left; split; [reflexivity|intros m k X; discriminate X]]. right. exists k, m. split; [|split; reflexivity].
    unfold checked in C. destruct ks as [|k0 ks]; [congruence|]. cbn [jws_keys bind] in C. destruct (pick_keys _ _ _ _) as [l|] eqn:PK; [|discriminate C]. cbn [bind] in C. destruct l as [|x l]; [discriminate C|].
    destruct alg; try discriminate C. destruct (dget SIGNERS s0); [|discriminate C]. destruct (try_keys P s1 (sign_input j) (signature j) (x :: l)) as [k'|] eqn:T; [|discriminate C]. cbn [bind] in C. destruct (payload j); [|discriminate C]. cbn [bind] in C. apply Ok_inj in C. injection C as -> _.
    apply try_in in T. unfold pick_keys in PK. match type of PK with bind ?q _ = _ => destruct q as [a'|]; [|discriminate PK] end. cbn [bind] in PK. destruct (pval_eqb a' (VStr (lit "none"))); [apply Ok_inj in PK; discriminate PK|]. destruct (alg2keytype a') as [[kty|]|]; try discriminate PK. cbn [bind] in PK. destruct (real_keys _) as [rk|] eqn:RK; [|discriminate PK]. cbn [bind] in PK. destruct (kid_in_force _) as [kid|]; [|discriminate PK]. cbn [bind] in PK.
    apply Ok_inj in PK. rewrite <- PK in T. apply filter_In in T. destruct T as [T _]. apply filter_In in T. destruct T as [T _]. apply (real_in _ _ _ RK) in T. apply in_map_iff in T. destruct T as (y & Y & T). injection Y as ->. exact T. }
  destruct (py_get (j_headers j) (lit "alg")) as [alg|e].
  - destruct (none_alg alg) as [[|]|e]; [|apply V|left; split; [reflexivity|intros m k X; discriminate X]]. left. destruct an; [|split; [reflexivity|intros m k X; discriminate X]]. destruct (payload j); (split; [reflexivity|intros m k X; discriminate X]).
  - destruct e; try (left; split; [reflexivity|intros m k X; discriminate X]). apply V.
Qed.
(** The attribute key is the one of an earlier call or one the caller has given now. *)
Lemma signs_key : forall ks, ks <> [] -> forall signs s pl an sigalg claim, s_key (fst (verify_signs_on P s pl signs (Some ks) an sigalg claim)) = s_key s \/ exists k, In k ks /\ s_key (fst (verify_signs_on P s pl signs (Some ks) an sigalg claim)) = Some k.
Proof.
  intros ks NE. induction signs as [|sg r IH]; intros s pl an sigalg claim; cbn [verify_signs_on]; [left; reflexivity|]. destruct (json_token pl sg) as [[tok hs]|e]; [|left; reflexivity].
  unfold init_on. destruct (dmem hs (lit "self")); [left; reflexivity|]. destruct (init_from P hs) as [n|e]; [|left; reflexivity].
  assert (C : s_key (fst (verify_compact P (with_key n (s_key s)) (VBytes tok) (Some ks) an sigalg)) = s_key s \/ exists k, In k ks /\ s_key (fst (verify_compact P (with_key n (s_key s)) (VBytes tok) (Some ks) an sigalg)) = Some k).
  { destruct (compact_key (with_key n (s_key s)) (VBytes tok) ks an sigalg NE) as [[K _]|(k & m & I & K & _)]; [left; exact K|right; exists k; split; assumption]. }
  destruct (verify_compact P (with_key n (s_key s)) (VBytes tok) (Some ks) an sigalg) as [s2 [[m k]|e]]; cbn [fst] in C; [|exact C].
  assert (G : forall c, s_key (fst (verify_signs_on P s2 pl r (Some ks) an sigalg c)) = s_key s \/ exists k, In k ks /\ s_key (fst (verify_signs_on P s2 pl r (Some ks) an sigalg c)) = Some k).
  { intro c. destruct (IH s2 pl an sigalg c) as [K|K]; [rewrite K; exact C|right; exact K]. }
  destruct claim; try (destruct (pval_eqb _ m); [apply G|exact C]). apply G.
Qed.
Theorem json_key : forall s text ks an sigalg, ks <> [] ->
  s_key (fst (verify_json_on P s text (Some ks) an sigalg)) = s_key s \/ exists k, In k ks /\ s_key (fst (verify_json_on P s text (Some ks) an sigalg)) = Some k.
Proof. intros s text ks an sigalg NE. unfold verify_json_on. destruct (json_parts text) as [[pl signs]|]; [apply signs_key; exact NE|left; reflexivity]. Qed.

(** A header whose jwk cannot be read replaces what the instance knew. *)
Theorem json_bad_jwk : forall s text pl sg r tok hs keys an sigalg e, json_parts text = Ok (pl, sg :: r) -> json_token pl sg = Ok (tok, hs) -> dmem hs (lit "self") = false -> init_from P hs = Raise e ->
  snd (verify_json_on P s text keys an sigalg) = Raise e /\
  let s' := fst (verify_json_on P s text keys an sigalg) in
  s_key s' = s_key s /\ s_jwk s' = None /\ s_jwt s' = None /\ s_msg s' = match dget hs (lit "msg") with Some m => m | None => VNone end /\
  dget (s_dict s') (lit "alg") = Some (match dget hs (lit "alg") with Some a => a | None => VStr (lit "none") end) /\ dget (s_dict s') (lit "jku") = dget hs (lit "jku") /\
  forall n, n <> lit "alg" -> n <> lit "jku" -> dget (s_dict s') n = None.
Proof.
  intros s text pl sg r tok hs keys an sigalg e J T D I. unfold verify_json_on. rewrite J. cbn [verify_signs_on]. rewrite T. unfold init_on. rewrite D, I. cbn [fst snd s_key s_jwk s_jwt s_msg s_dict]. split; [reflexivity|]. cbv zeta. split; [reflexivity|]. split; [reflexivity|]. split; [reflexivity|]. split; [reflexivity|].
  cbn [init_dict]. change (zs_eqb (lit "alg") (lit "x5c") || zs_eqb (lit "alg") (lit "crit")) with false. change (zs_eqb (lit "jku") (lit "x5c") || zs_eqb (lit "jku") (lit "crit")) with false. change (zs_eqb (lit "alg") (lit "alg")) with true. change (zs_eqb (lit "jku") (lit "alg")) with false. cbv iota.
  destruct (dget hs (lit "alg")) as [a|], (dget hs (lit "jku")) as [u|]; (split; [|split; [|intros n N1 N2]]); repeat first [rewrite dget_dset_same | rewrite dget_dset_other by first [ne|apply not_eq_sym; assumption]]; reflexivity.
Qed.
(** Signatures over payloads that are read differently: the instance holds the second. *)
Theorem json_conflict : forall s text pl a b keys an sigalg s1 m1 s2 m2, json_parts text = Ok (pl, [a; b]) -> 
  verify_signs_on P s pl [a] keys an sigalg VNone = (s1, Ok m1) -> verify_signs_on P s1 pl [b] keys an sigalg VNone = (s2, Ok m2) -> m1 <> VNone -> pval_eqb m1 m2 = false ->
  verify_json_on P s text keys an sigalg = (s2, Raise EAssertionError).
Proof.
  intros s text pl a b keys an sigalg s1 m1 s2 m2 J A B N Q. unfold verify_json_on. rewrite J. cbn [verify_signs_on] in *. destruct (json_token pl a) as [[tok hs]|]; [|discriminate A].
  destruct (init_on P s hs) as [t [u|]]; [|discriminate A]. destruct (verify_compact P t (VBytes tok) keys an sigalg) as [t2 [[m k]|]]; [|discriminate A]. cbn [verify_signs_on] in A. injection A as -> ->.
  destruct (json_token pl b) as [[tok' hs']|]; [|discriminate B]. destruct (init_on P s1 hs') as [t' [u'|]]; [|discriminate B]. destruct (verify_compact P t' (VBytes tok') keys an sigalg) as [t2' [[m' k']|]]; [|discriminate B]. injection B as -> ->.
  destruct m1; try congruence; rewrite Q; reflexivity.
Qed.
End Left2.
