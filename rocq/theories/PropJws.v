(** * Properties C14-C33, C112-C124, C180 and C181: JSON Web Signatures (jws.py).  Example tokens and the refuting cases are in JwsEx.v. *)
From Coq Require Import ZArith List Bool Lia.
From Verif Require Import Base BaseProofs Utf8 Codec CodecProofs Json JsonProofs Jwt JwtProofs Prims Elliptic Ecc Inst EcAux Nist PvalEq Jwk JwkProofs JwkEx Jws JwsProofs JwsProofs2 JwsProofs3 JwsProofs4 JwsProofs5 JwsProofs6 JwsProofs7 JwsProofs8 JwsProofs9 JwsProofs10 JwsEx.
Import ListNotations.
Open Scope Z_scope.

(** C14 sign then verify.  Missing from the full claim: a key without kid when the protected header has a kid, headers
    that are not JSON values, a content type that is not text. *)
Theorem C14_sign_then_verify_partial : forall P E s keys protected s' tok a g t,
  sign_compact P E s (Some keys) protected = (s', Ok tok) -> chosen s (Some keys) = VStr a -> dget SIGNERS a = Some g -> alg2keytype (VStr a) = Ok (Some t) ->
  keys <> [] -> octets_wf (s_msg s) -> json_header protected s (Some keys) -> text_cty protected ->
  (forall k, In k keys -> right_type t k -> works P g k) ->
  (forall k, In k keys -> truthy (k_kid k) = true -> exists x, k_kid k = VStr x) ->
  (forall k, In k keys -> truthy (k_kid k) = false -> truthy (kwarg protected (lit "kid") VNone) = false) ->
  (forall k k', In k keys -> In k' keys -> k' = k \/ ~ right_type t k' \/ clean P g k' \/ (truthy (k_kid k) = true /\ k_kid k' <> k_kid k)) ->
  forall v an sigalg token, token = VStr tok \/ token = VBytes tok -> ready v a -> truthy sigalg = false \/ sigalg = VStr a ->
  exists pb v' k', octets_of (s_msg s) = Ok pb /\ verify_compact P v token (Some keys) an sigalg = (v', Ok (payload_view protected pb, Some k')) /\ In k' keys.
Proof. exact sign_then_verify. Qed.
Print Assumptions C14_sign_then_verify_partial.
Theorem C14_none_then_verify_partial : forall P E s keys protected s' tok,
  sign_compact P E s keys protected = (s', Ok tok) -> chosen s keys = VStr (lit "none") -> octets_wf (s_msg s) -> json_header protected s keys -> text_cty protected ->
  forall v keys' sigalg token, token = VStr tok \/ token = VBytes tok ->
  exists pb v', octets_of (s_msg s) = Ok pb /\ verify_compact P v token keys' true sigalg = (v', Ok (payload_view protected pb, None)).
Proof. exact none_then_verify. Qed.
Print Assumptions C14_none_then_verify_partial.
Theorem C14_kid_conflict_refuted : exists s key protected tok, snd (sign_compact std ex_E s (Some [key]) protected) = Ok tok /\
  dget (s_dict s) (lit "alg") = Some (VStr (lit "HS256")) /\ suitable (lit "oct") VNone (VStr (lit "sig")) (VStr (lit "HS256")) key /\
  snd (verify_compact std new_jws (VStr tok) (Some [key]) false VNone) = Raise ENoSuitableSigningKeys.
Proof. exact kid_conflict_refuted. Qed.
Print Assumptions C14_kid_conflict_refuted.
Example C14_ex : snd (sign_compact std ex_E ex_jws (Some [ex_key]) []) = Ok ex_tok /\ chosen ex_jws (Some [ex_key]) = VStr (lit "HS256") /\
  octets_wf (s_msg ex_jws) /\ json_header [] ex_jws (Some [ex_key]) /\ text_cty [] /\ ready new_jws (lit "HS256") /\ works std (HMACSigner SHA256) ex_key /\
  works std (DSASigner SHA256 256) ex_ec.
Proof.
  split; [exact ex_signed|]. split; [reflexivity|]. split; [intros b X; discriminate X|]. split.
  { split; [reflexivity|]. split; [intros t X; discriminate X|]. intros k [(l & X & I)|[_ X]]; [injection X as <-; destruct I as [<-|[]]; reflexivity|discriminate X]. }
  split; [left; reflexivity|]. split; [split; [left; reflexivity|reflexivity]|]. split; [|exact ex_ec_works].
  apply (kf_works _ _ _ _ _ ex_keys_fit); left; reflexivity.
Qed.

(** C15 soundness: the token is h.p.s64, and [k] checks the octets of s64 against the text h.p. *)
Theorem C15_verify_sound : forall P s token keys an sigalg s' m ko, verify_compact P s token keys an sigalg = (s', Ok (m, ko)) ->
  exists j h p s64 sg d, presented token j h p s64 sg d /\ payload j = Ok m /\
  (none_header d \/ exists a k, dget d (lit "alg") = Some (VStr a) /\ ko = Some k /\ offered s keys k /\ valid_sig P a k (h ++ 46 :: p) sg).
Proof. exact verify_sound. Qed.
Print Assumptions C15_verify_sound.
Example C15_ex : snd (verify_compact std new_jws (VStr ex_tok) (Some [ex_key]) false VNone) = Ok (VStr (lit "hello"), Some ex_key).
Proof. exact ex_verified. Qed.

(** C16 *)
Theorem C16_none_needs_opt_in : forall P s token keys sigalg j d, unpack token = Ok j -> j_headers j = VDict d ->
  (none_header d \/ dget d (lit "alg") = None) ->
  exists s' e, verify_compact P s token keys false sigalg = (s', Raise e).
Proof. exact none_needs_opt_in. Qed.
Print Assumptions C16_none_needs_opt_in.
Example C16_ex : (j <- unpack (VStr (lit "eyJhbGciOiJOb05lIn0.aGVsbG8."));; Ok (j_headers j)) = Ok (VDict [(lit "alg", VStr (lit "NoNe"))]) /\
  none_header [(lit "alg", VStr (lit "NoNe"))].
Proof. split; [vm_compute; reflexivity|]. right. exists (lit "NoNe"). split; reflexivity. Qed.

(** C17 *)
Theorem C17_no_key_confusion : forall P s token keys an sigalg s' m k, verify_compact P s token keys an sigalg = (s', Ok (m, Some k)) ->
  exists j d a, unpack token = Ok j /\ j_headers j = VDict d /\ dget d (lit "alg") = Some (VStr a) /\
  (((exists h, In (a, h) hs_algs) /\ right_type (lit "oct") k /\ (exists secret, get_key k false = Ok (MObj (OVal (VBytes secret))))) \/
   ((exists x, In (a, x) rs_algs) /\ right_type (lit "RSA") k /\ (exists r, get_key k false = Ok (MObj (ORsa r)))) \/
   ((exists x, In (a, x) es_algs) /\ right_type (lit "EC") k /\ (exists x pt, get_key k false = Ok x /\ as_point x = Ok pt))).
Proof. exact no_key_confusion. Qed.
Print Assumptions C17_no_key_confusion.
Example C17_ex : snd (verify_compact std new_jws (VStr ex_tok) (Some [ex_key]) false VNone) = Ok (VStr (lit "hello"), Some ex_key).
Proof. exact ex_verified. Qed.

(** C18: with allow_none a token with algorithm null or "NONE" is accepted though neither is in the table. *)
Theorem C18_no_usable_alg_partial : forall P s token keys an sigalg j d, unpack token = Ok j -> j_headers j = VDict d ->
  ~ (exists a g, dget d (lit "alg") = Some (VStr a) /\ In (a, g) SIGNERS) -> (an = false \/ ~ none_header d) ->
  exists s' e, verify_compact P s token keys an sigalg = (s', Raise e).
Proof. exact no_usable_alg. Qed.
Print Assumptions C18_no_usable_alg_partial.
Theorem C18_not_in_table_refuted : exists token j d, unpack token = Ok j /\ j_headers j = VDict d /\ ~ (exists a g, dget d (lit "alg") = Some (VStr a) /\ In (a, g) SIGNERS) /\
  forall P, snd (verify_compact P new_jws token None true VNone) = Ok (VStr (lit "hello"), None).
Proof. exact not_in_table_refuted. Qed.
Print Assumptions C18_not_in_table_refuted.
Example C18_ex : (j <- unpack (VStr (lit "eyJhbGciOiJIUzEifQ.aGVsbG8."));; Ok (j_headers j)) = Ok (VDict [(lit "alg", VStr (lit "HS1"))]) /\ dget SIGNERS (lit "HS1") = None.
Proof. vm_compute. repeat split; reflexivity. Qed.

(** C19 *)
Theorem C19_expected_alg : forall P s token keys an sigalg s' m k, verify_compact P s token keys an sigalg = (s', Ok (m, Some k)) ->
  exists j d a, unpack token = Ok j /\ j_headers j = VDict d /\ dget d (lit "alg") = Some (VStr a) /\
    (truthy sigalg = true -> sigalg = VStr a) /\ (forall v, dget (s_dict s) (lit "alg") = Some v -> v = VStr a) /\ dget (s_dict s') (lit "alg") = Some (VStr a).
Proof. exact expected_alg. Qed.
Print Assumptions C19_expected_alg.
Example C19_ex : snd (verify_compact std ex_jws (VStr ex_tok) (Some [ex_key]) false (VStr (lit "HS256"))) = Ok (VStr (lit "hello"), Some ex_key).
Proof. vm_compute. reflexivity. Qed.

(** C20: [after] runs the calls [cs] one after the other on the instance. *)
Theorem C20_pinned_alg : forall P s A c0 cs c s' m k, gets_past s c0 A -> do_call P (after P (fst (do_call P s c0)) cs) c = (s', Ok (m, Some k)) ->
  exists j d, unpack (c_token c) = Ok j /\ j_headers j = VDict d /\ dget d (lit "alg") = Some (VStr A).
Proof. exact pinned_alg. Qed.
Print Assumptions C20_pinned_alg.
Example C20_ex : gets_past new_jws {| c_token := VStr (lit "eyJhbGciOiJSUzI1NiJ9.aGVsbG8.AAAA"); c_keys := None; c_none := false; c_sigalg := VNone |} (lit "RS256").
Proof.
  exists {| j_headers := VDict [(lit "alg", VStr (lit "RS256"))]; j_b64 := [lit "eyJhbGciOiJSUzI1NiJ9"; lit "aGVsbG8"; lit "AAAA"];
            j_part := [VBytes (lit "{""alg"":""RS256""}"); VBytes (lit "hello"); VBytes [0; 0; 0]] |}, [(lit "alg", VStr (lit "RS256"))].
  split; [vm_compute; reflexivity|]. split; [reflexivity|]. split; [reflexivity|]. split; [reflexivity|]. split; [intro X; vm_compute in X; discriminate X|].
  split; [left; reflexivity|left; reflexivity].
Qed.

(** C21: verification ignores the use annotation. *)
Theorem C21_verify_key_fits_partial : forall P s token keys an sigalg s' m k, verify_compact P s token keys an sigalg = (s', Ok (m, Some k)) ->
  exists j d a kid, unpack token = Ok j /\ j_headers j = VDict d /\ dget d (lit "alg") = Some (VStr a) /\
    kid = match dget (s_dict s) (lit "kid") with Some v => v | None => kwarg d (lit "kid") VNone end /\ right_kid kid k /\ right_alg (VStr a) k.
Proof. exact verify_key_fits. Qed.
Print Assumptions C21_verify_key_fits_partial.
Theorem C21_sign_key_fits_partial : forall P E s keys protected s' tok, sign_compact P E s keys protected = (s', Ok tok) -> chosen s keys <> VStr (lit "none") ->
  exists a g k t kid i m sg, chosen s keys = VStr a /\ dget SIGNERS a = Some g /\ alg2keytype (VStr a) = Ok (Some t) /\ kid_in_force s = Ok kid /\ offered s keys k /\
    suitable t kid (VStr (lit "sig")) (VStr a) k /\ get_key k true = Ok m /\ signer_sign P g E i m = Ok sg /\ utf8_decode i = Ok (firstn (length tok - S (length (b64e sg))) tok) /\
    tok = firstn (length tok - S (length (b64e sg))) tok ++ 46 :: b64e sg.
Proof. exact never_unsigned. Qed.
Print Assumptions C21_sign_key_fits_partial.
Theorem C21_use_refuted : exists token k, k_use k = VStr (lit "enc") /\ snd (verify_compact std new_jws token (Some [k]) false VNone) = Ok (VStr (lit "hello"), Some k).
Proof. exact enc_key_refuted. Qed.
Print Assumptions C21_use_refuted.
Example C21_ex : snd (sign_compact std ex_E ex_jws (Some [ex_key]) []) = Ok ex_tok /\ snd (verify_compact std new_jws (VStr ex_tok) (Some [ex_key]) false VNone) = Ok (VStr (lit "hello"), Some ex_key).
Proof. split; [exact ex_signed|exact ex_verified]. Qed.

(** C22: [picks Q l m]: m is l without the elements that do not satisfy Q. *)
Theorem C22_pick_keys : forall s keys use alg a t kid, alg_or s alg = Some a -> pval_eqb a (VStr (lit "none")) = false -> alg2keytype a = Ok (Some t) ->
  kid_in_force s = Ok kid ->
  exists out, pick_keys s (map Some keys) use alg = Ok out /\ picks (suitable t kid use a) keys out.
Proof. exact pick_keys_spec. Qed.
Print Assumptions C22_pick_keys.
Theorem C22_pick_keys_none : forall s keys use alg,
  (alg_or s alg = None -> pick_keys s keys use alg = Raise EKeyError) /\
  (alg_or s alg = Some (VStr (lit "none")) -> pick_keys s keys use alg = Ok []) /\
  (forall a, alg_or s alg = Some a -> alg2keytype a = Ok None -> pick_keys s keys use alg = Ok []).
Proof. exact pick_keys_none. Qed.
Print Assumptions C22_pick_keys_none.
Example C22_ex : pick_keys ex_jws (map Some [ex_rsa; ex_key; enc_key; ex_sym]) (VStr (lit "sig")) (VStr []) = Ok [ex_key; ex_sym].
Proof. vm_compute. reflexivity. Qed.

(** C23: the signature octets are determined, the text is not: unused bits of the last character are ignored. *)
Theorem C23_hmac_one_signature_partial : forall P s1 s2 k an1 an2 g1 g2 t1 t2 s1' s2' m1 m2 ko1 ko2 j1 j2 d a hh h p x1 x2 b1 b2,
  verify_compact P s1 t1 (Some [k]) an1 g1 = (s1', Ok (m1, ko1)) -> verify_compact P s2 t2 (Some [k]) an2 g2 = (s2', Ok (m2, ko2)) ->
  presented t1 j1 h p x1 b1 d -> presented t2 j2 h p x2 b2 d -> dget d (lit "alg") = Some (VStr a) -> In (a, hh) hs_algs ->
  b1 = b2 /\ exists secret, get_key k false = Ok (MObj (OVal (VBytes secret))) /\ b1 = p_hmac P hh secret (h ++ 46 :: p).
Proof. exact hmac_one_signature. Qed.
Print Assumptions C23_hmac_one_signature_partial.
Theorem C23_two_texts_refuted : exists h p x1 x2 k m, x1 <> x2 /\ snd (verify_compact std new_jws (VStr (h ++ 46 :: p ++ 46 :: x1)) (Some [k]) false VNone) = Ok m /\
  snd (verify_compact std new_jws (VStr (h ++ 46 :: p ++ 46 :: x2)) (Some [k]) false VNone) = Ok m.
Proof. exact two_texts_refuted. Qed.
Print Assumptions C23_two_texts_refuted.
Example C23_ex : ex_tok <> ex_tok2 /\ snd (verify_compact std new_jws (VStr ex_tok2) (Some [ex_key]) false VNone) = Ok (VStr (lit "hello"), Some ex_key).
Proof. split; [intro X; vm_compute in X; discriminate X|exact ex_verified2]. Qed.

(** C24 *)
Theorem C24_three_segments : forall P s txt keys an sigalg token, (token = VStr txt \/ token = VBytes txt) -> length (split 46 txt) <> 3%nat ->
  exists e, verify_compact P s token keys an sigalg = (s, Raise e).
Proof. exact three_segments_needed. Qed.
Print Assumptions C24_three_segments.
Example C24_ex : length (split 46 (lit "eyJhbGciOiJIUzI1NiJ9.e30.AA.AA")) = 4%nat /\ length (split 46 (lit "eyJhbGciOiJIUzI1NiJ9.e30")) = 2%nat.
Proof. vm_compute. split; reflexivity. Qed.

(** C25: [at_hand] are the caller's keys, else the instance's own key, else none. *)
Theorem C25_sign_refuses : forall P E s keys l protected a kid, at_hand s keys l -> chosen s keys = VStr a -> lower a <> lit "none" -> kid_in_force s = Ok kid ->
  (forall k t, In k l -> alg2keytype (VStr a) = Ok (Some t) -> ~ suitable t kid (VStr (lit "sig")) (VStr a) k) ->
  snd (sign_compact P E s keys protected) = Raise ENoSuitableSigningKeys.
Proof. exact sign_refuses_all. Qed.
Print Assumptions C25_sign_refuses.
Theorem C25_never_unsigned : forall P E s keys protected s' tok, sign_compact P E s keys protected = (s', Ok tok) -> chosen s keys <> VStr (lit "none") ->
  exists a g k t kid i m sg, chosen s keys = VStr a /\ dget SIGNERS a = Some g /\ alg2keytype (VStr a) = Ok (Some t) /\ kid_in_force s = Ok kid /\ offered s keys k /\
    suitable t kid (VStr (lit "sig")) (VStr a) k /\ get_key k true = Ok m /\ signer_sign P g E i m = Ok sg /\ utf8_decode i = Ok (firstn (length tok - S (length (b64e sg))) tok) /\
    tok = firstn (length tok - S (length (b64e sg))) tok ++ 46 :: b64e sg.
Proof. exact never_unsigned. Qed.
Print Assumptions C25_never_unsigned.
Example C25_ex : at_hand ex_jws (Some [ex_rsa; enc_key]) [ex_rsa; enc_key] /\ at_hand ex_jws None [] /\ chosen ex_jws None = VStr (lit "HS256") /\
  snd (sign_compact std ex_E ex_jws (Some [ex_rsa; enc_key]) []) = Raise ENoSuitableSigningKeys /\ snd (sign_compact std ex_E ex_jws None []) = Raise ENoSuitableSigningKeys.
Proof.
  split; [apply hand_given; discriminate|]. split; [apply hand_none; auto|]. split; [reflexivity|]. vm_compute. split; reflexivity.
Qed.

(** C26: [ko] is the key used; without one the algorithm is none. *)
Theorem C26_produced_header : forall P E s keys protected s' tok, sign_compact P E s keys protected = (s', Ok tok) -> octets_wf (s_msg s) -> json_header protected s keys ->
  exists ko h64 rest, tok = h64 ++ 46 :: rest /\ ~ In 46 h64 /\
    header_of h64 = Ok (VDict (sign_header protected (chosen s keys) ko (dget (s_dict s) (lit "typ")))) /\
    match ko with None => chosen s keys = VStr (lit "none") | Some k => chosen s keys <> VStr (lit "none") /\ offered s keys k end.
Proof. exact produced_header. Qed.
Print Assumptions C26_produced_header.
Theorem C26_header_members : forall protected alg ko typ,
  dget (sign_header protected alg ko typ) (lit "alg") = Some alg /\
  dget (sign_header protected alg ko typ) (lit "kid") = match ko with Some k => if truthy (k_kid k) then Some (k_kid k) else dget protected (lit "kid") | None => dget protected (lit "kid") end /\
  dget (sign_header protected alg ko typ) (lit "typ") = match typ with Some t => Some t | None => dget protected (lit "typ") end /\
  (forall n, n <> lit "alg" -> n <> lit "kid" -> n <> lit "typ" -> dget (sign_header protected alg ko typ) n = dget protected n).
Proof. exact sign_header_get. Qed.
Print Assumptions C26_header_members.
Example C26_ex : snd (sign_compact std ex_E ex_jws (Some [ex_key]) []) = Ok ex_tok /\ header_of ex_h = Ok (VDict [(lit "alg", VStr (lit "HS256"))]).
Proof. split; [exact ex_signed|vm_compute; reflexivity]. Qed.

(** C27: [ms] are the payload views of the entries.  Missing: with an empty list of signatures nothing was verified, and
    null views are not compared. *)
Theorem C27_verify_json_all_partial : forall P s text keys an sigalg c s', verify_json P s text keys an sigalg = Ok (c, s') ->
  exists d pl signs ms, loads_any text = Ok (VDict d) /\ dget d (lit "payload") = Some pl /\ entries d signs /\
    Forall2 (entry_verified P keys an sigalg pl) signs ms /\
    Forall (fun m => m = VNone \/ pval_eqb c m = true \/ m = c) ms /\ (In c ms \/ (c = VNone /\ signs = [])).
Proof. exact verify_json_all. Qed.
Print Assumptions C27_verify_json_all_partial.
Theorem C27_no_signature_refuted : exists text, forall P s keys, verify_json P s (VStr text) keys false VNone = Ok (VNone, s).
Proof. exact (ex_intro _ no_sigs no_signature_refuted). Qed.
Print Assumptions C27_no_signature_refuted.
Example C27_ex : (m <- verify_json std new_jws (VStr embedded) (Some [ex_key]) false VNone;; Ok (fst m)) = Ok (VStr (lit "hello")).
Proof. vm_compute. reflexivity. Qed.

(** C28: [usable] header pairs have an algorithm of the table that fits the keys, JSON values, no jwk, and no kid
    outside the protected header. *)
Theorem C28_json_sign_then_verify_partial : forall P Es s keys headers flatten text m, sign_json P Es s (Some keys) headers flatten = Ok text ->
  pairs_of s headers <> [] -> (forall pr, In pr (pairs_of s headers) -> usable P s keys pr) ->
  forall p pb, s_msg s = VStr p -> utf8_encode p = Ok pb ->
  (forall pr, In pr (pairs_of s headers) -> payload_view (fst pr) pb = m) -> pval_eqb m m = true \/ (length (pairs_of s headers) = 1)%nat ->
  forall v an sigalg, truthy sigalg = false -> exists v', verify_json P v (VStr text) (Some keys) an sigalg = Ok (m, v').
Proof. exact json_sign_then_verify. Qed.
Print Assumptions C28_json_sign_then_verify_partial.
Theorem C28_kid_refuted : exists headers text, sign_json std (fun _ => ex_E) ex_jws (Some [ex_key]) (Some headers) false = Ok text /\
  verify_json std new_jws (VStr text) (Some [ex_key]) false VNone = Raise ENoSuitableSigningKeys.
Proof. exact json_kid_refuted. Qed.
Print Assumptions C28_kid_refuted.
Theorem C28_no_headers_refuted : exists text, (forall P Es s, s_msg s = VStr (lit "hello") -> sign_json P Es s (Some [ex_key]) (Some []) false = Ok text) /\
  forall P, verify_json P new_jws (VStr text) (Some [ex_key]) false VNone = Ok (VNone, new_jws).
Proof. exact json_none_refuted. Qed.
Print Assumptions C28_no_headers_refuted.
Example C28_ex : (exists text, sign_json std (fun _ => ex_E) ex_jws (Some [ex_key]) (Some ex_pairs) false = Ok text) /\
  (forall pr, In pr (pairs_of ex_jws (Some ex_pairs)) -> usable std ex_jws [ex_key] pr) /\
  (forall pr, In pr ex_pairs -> payload_view (fst pr) (lit "hello") = VStr (lit "hello")) /\ pval_eqb (VStr (lit "hello")) (VStr (lit "hello")) = true.
Proof.
  split; [|split; [exact ex_usable|split; [intros pr [<-|[<-|[]]]; vm_compute; reflexivity|reflexivity]]].
  set (r := sign_json std (fun _ => ex_E) ex_jws (Some [ex_key]) (Some ex_pairs) false). vm_compute in r. match eval unfold r in r with Ok ?t => exists t end. subst r. vm_compute. reflexivity.
Qed.

(** C29: compact tokens need a key of the caller or the instance; a JSON serialization may bring its own. *)
Theorem C29_compact_partial : forall P s token keys an sigalg s' m k, keys = None \/ keys = Some [] -> verify_compact P s token keys an sigalg = (s', Ok (m, Some k)) -> s_jwk s = Some (JKey k).
Proof. exact no_keys_no_trust. Qed.
Print Assumptions C29_compact_partial.
Theorem C29_embedded_key_refuted : exists text, (m <- verify_json std new_jws (VStr text) None false VNone;; Ok (fst m)) = Ok (VStr (lit "hello")) /\
  s_jwk new_jws = None /\ s_dict new_jws = [].
Proof. exact embedded_key_refuted. Qed.
Print Assumptions C29_embedded_key_refuted.
Definition own_key_jws : jws := {| s_msg := VNone; s_dict := []; s_jwk := Some (JKey ex_key); s_jwt := None; s_key := None |}.
Example C29_ex : snd (verify_compact std own_key_jws (VStr ex_tok) None false VNone) = Ok (VStr (lit "hello"), Some ex_key).
Proof. vm_compute. reflexivity. Qed.

(** C30: crit is not looked at. *)
Theorem C30_crit_refuted : exists token d k, (j <- unpack token;; Ok (j_headers j)) = Ok (VDict d) /\ dget d (lit "crit") = Some (VList [VStr (lit "exp")]) /\
  snd (verify_compact std new_jws token (Some [k]) false VNone) = Ok (VStr (lit "hello"), Some k).
Proof. exact crit_refuted. Qed.
Print Assumptions C30_crit_refuted.

(** C31: JSON that is no object, a header that is no object, an algorithm that is no text. *)
Theorem C31_recognition_refuted : factory (VStr (lit "[]")) = Raise EAttributeError /\ factory (VStr (lit "1.5")) = Raise EAttributeError /\
  factory (VStr (lit "MQ.e30.")) = Raise ETypeError /\ factory (VStr (lit "eyJhbGciOltdfQ.e30.")) = Raise ETypeError.
Proof. exact recognition_refuted. Qed.
Print Assumptions C31_recognition_refuted.
Theorem C31_recognition_total_partial : forall s t, (exists d, loads t = Ok (VDict d)) \/
  (loads t = Raise EJSONDecodeError /\ forall u, unpack (VStr t) = Ok u -> exists d, j_headers u = VDict d /\ forall a, dget d (lit "alg") = Some a -> match a with VList _ | VDict _ => False | _ => True end) ->
  exists b s', is_jws s (VStr t) = Ok (b, s').
Proof. exact recognition_total. Qed.
Print Assumptions C31_recognition_total_partial.
Example C31_ex : loads (lit "{}") = Ok (VDict []) /\ loads (lit "..") = Raise EJSONDecodeError /\ unpack (VStr (lit "..")) = Raise EJSONDecodeError.
Proof. vm_compute. repeat split; reflexivity. Qed.

(** C32 *)
Theorem C32_recognised : forall s t, Forall (fun c => url_char c \/ c = 46) t ->
  (exists s', is_jws s (VStr t) = Ok (true, s')) <-> exists u, unpack (VStr t) = Ok u /\ header_known (j_headers u).
Proof.
  intros s t H. apply recognised. rewrite forallb_forall. rewrite Forall_forall in H. intros c I.
  destruct (H c I) as [U|U]; [apply url_char_iff in U; rewrite U; reflexivity|subst c; apply orb_true_r].
Qed.
Print Assumptions C32_recognised.
Example C32_ex : Forall (fun c => url_char c \/ c = 46) ex_tok /\ (r <- is_jws new_jws (VStr ex_tok);; Ok (fst r)) = Ok true /\
  (r <- is_jws new_jws (VStr (lit "eyJhbGciOiJIUzEifQ.aGVsbG8."));; Ok (fst r)) = Ok false.
Proof.
  split; [|vm_compute; split; reflexivity].
  assert (X : forallb (fun c => b64url_char c || (c =? 46)) ex_tok = true) by (vm_compute; reflexivity).
  rewrite Forall_forall. rewrite forallb_forall in X. intros c I. apply X in I. unfold b64url_char in I. unfold url_char. lia.
Qed.

(** C33: the fetched keys would verify the token, but are never tried. *)
Theorem C33_jku_refuted : exists P s ks token, load_from_url P [] (lit "https://example.com/jwks") = (ks, None) /\ dget (s_dict s) (lit "jku") = Some (VStr (lit "https://example.com/jwks")) /\
  (' (m, _) <- snd (verify_compact P s token (Some ks) false VNone);; Ok m) = Ok (VStr (lit "hello")) /\
  snd (verify_compact P s token None false VNone) = Raise EAttributeError.
Proof. exact jku_refuted. Qed.
Print Assumptions C33_jku_refuted.

(** C112 *)
Theorem C112_no_usable_alg : forall P s token keys an sigalg j d, unpack token = Ok j -> j_headers j = VDict d ->
  ~ (exists a g, dget d (lit "alg") = Some (VStr a) /\ In (a, g) SIGNERS) -> (an = false \/ ~ none_header d) ->
  exists s' e, verify_compact P s token keys an sigalg = (s', Raise e).
Proof. exact no_usable_alg. Qed.
Print Assumptions C112_no_usable_alg.
Example C112_ex : ~ none_header [(lit "alg", VStr (lit "HS1"))] /\ (j <- unpack (VStr (lit "eyJhbGciOiJIUzEifQ.aGVsbG8."));; Ok (j_headers j)) = Ok (VDict [(lit "alg", VStr (lit "HS1"))]).
Proof.
  split; [|vm_compute; reflexivity]. intros [X|(a & X & Y)]; [discriminate X|]. vm_compute in X. injection X as <-. vm_compute in Y. discriminate Y.
Qed.

(** C113 *)
Theorem C113_poisoned : forall P s j d c0 cs c s' r, unpack (c_token c0) = Ok j -> length (j_part j) = 3%nat -> j_headers j = VDict d -> dget d (lit "alg") = None ->
  truthy (c_sigalg c0) = false ->
  do_call P (after P (fst (do_call P s c0)) cs) c = (s', r) -> forall m k, r <> Ok (m, Some k).
Proof. exact poisoned_for_good. Qed.
Print Assumptions C113_poisoned.
Example C113_ex : (j <- unpack (VStr (lit "e30.e30."));; Ok (j_headers j, length (j_part j))) = Ok (VDict [], 3%nat).
Proof. vm_compute. reflexivity. Qed.

(** C114 *)
Theorem C114_verify_key_fits : forall P s token keys an sigalg s' m k, verify_compact P s token keys an sigalg = (s', Ok (m, Some k)) ->
  exists j d a kid, unpack token = Ok j /\ j_headers j = VDict d /\ dget d (lit "alg") = Some (VStr a) /\
    kid = match dget (s_dict s) (lit "kid") with Some v => v | None => kwarg d (lit "kid") VNone end /\ right_kid kid k /\ right_alg (VStr a) k.
Proof. exact verify_key_fits. Qed.
Print Assumptions C114_verify_key_fits.
Example C114_ex : snd (verify_compact std new_jws (VStr ex_tok) (Some [ex_key]) false VNone) = Ok (VStr (lit "hello"), Some ex_key).
Proof. exact ex_verified. Qed.

(** C115 *)
Theorem C115_sign_key_fits : forall P E s keys protected s' tok, sign_compact P E s keys protected = (s', Ok tok) -> chosen s keys <> VStr (lit "none") ->
  exists a g k t kid i m sg, chosen s keys = VStr a /\ dget SIGNERS a = Some g /\ alg2keytype (VStr a) = Ok (Some t) /\ kid_in_force s = Ok kid /\ offered s keys k /\
    suitable t kid (VStr (lit "sig")) (VStr a) k /\ get_key k true = Ok m /\ signer_sign P g E i m = Ok sg /\ utf8_decode i = Ok (firstn (length tok - S (length (b64e sg))) tok) /\
    tok = firstn (length tok - S (length (b64e sg))) tok ++ 46 :: b64e sg.
Proof. exact never_unsigned. Qed.
Print Assumptions C115_sign_key_fits.
Example C115_ex : snd (sign_compact std ex_E ex_jws (Some [ex_key]) []) = Ok ex_tok /\ chosen ex_jws (Some [ex_key]) = VStr (lit "HS256").
Proof. split; [exact ex_signed|reflexivity]. Qed.

(** C116 *)
Theorem C116_hmac_one_signature : forall P s1 s2 k an1 an2 g1 g2 t1 t2 s1' s2' m1 m2 ko1 ko2 j1 j2 d a hh h p x1 x2 b1 b2,
  verify_compact P s1 t1 (Some [k]) an1 g1 = (s1', Ok (m1, ko1)) -> verify_compact P s2 t2 (Some [k]) an2 g2 = (s2', Ok (m2, ko2)) ->
  presented t1 j1 h p x1 b1 d -> presented t2 j2 h p x2 b2 d -> dget d (lit "alg") = Some (VStr a) -> In (a, hh) hs_algs ->
  b1 = b2 /\ exists secret, get_key k false = Ok (MObj (OVal (VBytes secret))) /\ b1 = p_hmac P hh secret (h ++ 46 :: p).
Proof. exact hmac_one_signature. Qed.
Print Assumptions C116_hmac_one_signature.
Example C116_ex : snd (verify_compact std new_jws (VStr ex_tok) (Some [ex_key]) false VNone) = Ok (VStr (lit "hello"), Some ex_key) /\
  snd (verify_compact std new_jws (VStr ex_tok2) (Some [ex_key]) false VNone) = Ok (VStr (lit "hello"), Some ex_key) /\ b64d ex_sig = b64d ex_sig2.
Proof. split; [exact ex_verified|]. split; [exact ex_verified2|]. vm_compute. reflexivity. Qed.

(** C117 *)
Theorem C117_verify_json_all : forall P s text keys an sigalg c s', verify_json P s text keys an sigalg = Ok (c, s') ->
  exists d pl signs ms, loads_any text = Ok (VDict d) /\ dget d (lit "payload") = Some pl /\ entries d signs /\
    Forall2 (entry_verified P keys an sigalg pl) signs ms /\
    Forall (fun m => m = VNone \/ pval_eqb c m = true \/ m = c) ms /\ (In c ms \/ (c = VNone /\ signs = [])).
Proof. exact verify_json_all. Qed.
Print Assumptions C117_verify_json_all.
Example C117_ex : (m <- verify_json std new_jws (VStr embedded) (Some [ex_key]) false VNone;; Ok (fst m)) = Ok (VStr (lit "hello")).
Proof. vm_compute. reflexivity. Qed.

(** C118 *)
Theorem C118_no_keys_no_trust : forall P s token keys an sigalg s' m k, keys = None \/ keys = Some [] -> verify_compact P s token keys an sigalg = (s', Ok (m, Some k)) -> s_jwk s = Some (JKey k).
Proof. exact no_keys_no_trust. Qed.
Print Assumptions C118_no_keys_no_trust.
Theorem C118_no_keys_refused : forall P s token keys sigalg, keys = None \/ keys = Some [] -> s_jwk s = None -> exists s' e, verify_compact P s token keys false sigalg = (s', Raise e).
Proof. exact no_keys_refused. Qed.
Print Assumptions C118_no_keys_refused.
Example C118_ex : snd (verify_compact std own_key_jws (VStr ex_tok) None false VNone) = Ok (VStr (lit "hello"), Some ex_key) /\ s_jwk jku_jws = None.
Proof. split; [exact C29_ex|reflexivity]. Qed.

(** C119 *)
Theorem C119_lower_ec_forgery : forall P, hash_law P -> forall d k a hh bits c, keyrep P (VDict d) = Ok k -> dget d (lit "kty") = Some (VStr (lit "ec")) -> dget d (lit "key") = None ->
  In (a, (hh, bits)) es_algs -> nist_curve bits = Ok c ->
  forall h hd pb, ascii h = true -> loads h = Ok (VDict hd) -> bytes_ok pb = true -> dget hd (lit "alg") = Some (VStr a) -> text_cty hd ->
  right_kid (kwarg hd (lit "kid") VNone) k -> right_alg (VStr a) k ->
  trunc (be2z (p_hash P hh (b64e h ++ 46 :: b64e pb))) (c_N c) mod c_N c <> 0 ->
  forall v an, dget (s_dict v) (lit "alg") = None -> dget (s_dict v) (lit "kid") = None ->
  exists v', verify_compact P v (VStr (forged P c hh h pb)) (Some [k]) an VNone = (v', Ok (payload_view hd pb, Some k)).
Proof. exact lower_ec_forgery. Qed.
Print Assumptions C119_lower_ec_forgery.
Example C119_ex : hash_law std /\ keyrep std (VDict low_ec) = Ok low_key /\ nist_curve 256 = Ok P256 /\
  loads low_h = Ok (VDict [(lit "alg", VStr (lit "ES256")); (lit "kid", VStr (lit "k"))]) /\ right_kid (VStr (lit "k")) low_key /\ right_alg (VStr (lit "ES256")) low_key /\
  trunc (be2z (p_hash std SHA256 (b64e low_h ++ 46 :: b64e (lit "hello")))) (c_N P256) mod c_N P256 <> 0.
Proof.
  split; [exact std_hash_law|]. split; [exact low_key_eq|]. split; [exact P256_eq|]. split; [vm_compute; reflexivity|]. split; [intros _; reflexivity|]. split; [intros _ X; discriminate X|].
  apply Z.eqb_neq. exact low_digest.
Qed.

(** C120 *)
Theorem C120_recognition_raises : forall s t e, is_jws s (VStr t) = Raise e -> e = EAttributeError \/ e = ETypeError.
Proof. exact recognition_raises. Qed.
Print Assumptions C120_recognition_raises.
Theorem C120_recognition_total : forall s t, (exists d, loads t = Ok (VDict d)) \/
  (loads t = Raise EJSONDecodeError /\ forall u, unpack (VStr t) = Ok u -> exists d, j_headers u = VDict d /\ forall a, dget d (lit "alg") = Some a -> match a with VList _ | VDict _ => False | _ => True end) ->
  exists b s', is_jws s (VStr t) = Ok (b, s').
Proof. exact recognition_total. Qed.
Print Assumptions C120_recognition_total.
Example C120_ex : is_jws new_jws (VStr (lit "[]")) = Raise EAttributeError /\ is_jws new_jws (VStr (lit "MQ.e30.")) = Raise ETypeError /\ is_jws new_jws (VStr (lit "..")) = Ok (false, new_jws).
Proof. vm_compute. repeat split; reflexivity. Qed.

(** C121 *)
Theorem C121_unpacked_not_json : forall t u, unpack (VStr t) = Ok u -> loads t = Raise EJSONDecodeError.
Proof. exact unpacked_not_json. Qed.
Print Assumptions C121_unpacked_not_json.
Example C121_ex : (j <- unpack (VStr (lit "MQ.NQ"));; Ok (j_headers j)) = Ok (VInt 1) /\ loads (lit "1.5") = Ok (VFloat (lit "1.5")) /\ unpack (VStr (lit "1.5")) = Raise EBadSyntax.
Proof. vm_compute. repeat split; reflexivity. Qed.

(** C122 *)
Theorem C122_json_sign_then_verify : forall P Es s keys headers flatten text m, sign_json P Es s (Some keys) headers flatten = Ok text ->
  pairs_of s headers <> [] -> (forall pr, In pr (pairs_of s headers) -> usable P s keys pr) ->
  forall p pb, s_msg s = VStr p -> utf8_encode p = Ok pb ->
  (forall pr, In pr (pairs_of s headers) -> payload_view (fst pr) pb = m) -> pval_eqb m m = true \/ (length (pairs_of s headers) = 1)%nat ->
  forall v an sigalg, truthy sigalg = false -> exists v', verify_json P v (VStr text) (Some keys) an sigalg = Ok (m, v').
Proof. exact json_sign_then_verify. Qed.
Print Assumptions C122_json_sign_then_verify.
Example C122_ex : forall pr, In pr (pairs_of ex_jws (Some ex_pairs)) -> usable std ex_jws [ex_key] pr.
Proof. exact ex_usable. Qed.

(** C123 *)
Theorem C123_sign_then_verify : forall P E s keys protected s' tok a g t,
  sign_compact P E s (Some keys) protected = (s', Ok tok) -> chosen s (Some keys) = VStr a -> dget SIGNERS a = Some g -> alg2keytype (VStr a) = Ok (Some t) ->
  keys <> [] -> octets_wf (s_msg s) -> json_header protected s (Some keys) -> text_cty protected ->
  (forall k, In k keys -> right_type t k -> works P g k) ->
  (forall k, In k keys -> truthy (k_kid k) = true -> exists x, k_kid k = VStr x) ->
  (forall k, In k keys -> truthy (k_kid k) = false -> truthy (kwarg protected (lit "kid") VNone) = false) ->
  (forall k k', In k keys -> In k' keys -> k' = k \/ ~ right_type t k' \/ clean P g k' \/ (truthy (k_kid k) = true /\ k_kid k' <> k_kid k)) ->
  forall v an sigalg token, token = VStr tok \/ token = VBytes tok -> ready v a -> truthy sigalg = false \/ sigalg = VStr a ->
  exists pb v' k', octets_of (s_msg s) = Ok pb /\ verify_compact P v token (Some keys) an sigalg = (v', Ok (payload_view protected pb, Some k')) /\ In k' keys.
Proof. exact sign_then_verify. Qed.
Print Assumptions C123_sign_then_verify.
Example C123_ex : snd (sign_compact std ex_E ex_jws (Some [ex_key]) []) = Ok ex_tok /\ works std (HMACSigner SHA256) ex_key /\ works std (DSASigner SHA256 256) ex_ec.
Proof. split; [exact ex_signed|]. split; [apply (kf_works _ _ _ _ _ ex_keys_fit); left; reflexivity|exact ex_ec_works]. Qed.

(** C124: which keys work: what a sound key signs it verifies. *)
Theorem C124_works_hmac : forall P h k secret kk, hmac_law P -> bytes_ok secret = true -> k_data k = DSym (VBytes secret) kk -> works P (HMACSigner h) k.
Proof. exact works_secret. Qed.
Print Assumptions C124_works_hmac.
Theorem C124_works_rsa : forall P s h k key nums, rsa_sign_law P key -> k_data k = DRsa (ORsa key) nums -> works P (RSASigner s h) k.
Proof. exact works_rsa_object. Qed.
Print Assumptions C124_works_rsa.
Theorem C124_works_ec : forall P h bits c k kk crv cv d x y, hash_law P -> In bits [256; 384; 521] -> nist_curve bits = Ok c -> 0 < d < c_N c -> public_key_for c d = Some (x, y) -> x <> 0 -> y <> 0 ->
  k_data k = DEc kk crv (VInt x) (VInt y) (VInt d) cv -> works P (DSASigner h bits) k.
Proof. exact works_ec_numbers. Qed.
Print Assumptions C124_works_ec.
Example C124_ex : works std (HMACSigner SHA256) ex_key /\ works std (DSASigner SHA256 256) ex_ec.
Proof. split; [apply (kf_works _ _ _ _ _ ex_keys_fit); left; reflexivity|exact ex_ec_works]. Qed.

(** C180: the kind of key an algorithm asks for. *)
Theorem C180_key_kind : forall a,
  (alg2keytype (VStr a) = Ok (Some (lit "none")) <-> a = [] \/ none_word a) /\
  (alg2keytype (VStr a) = Ok (Some (lit "RSA")) <-> begins (lit "RS") a \/ begins (lit "PS") a) /\
  (alg2keytype (VStr a) = Ok (Some (lit "oct")) <-> begins (lit "HS") a \/ begins (lit "A") a) /\
  (alg2keytype (VStr a) = Ok (Some (lit "EC")) <-> begins (lit "ES") a \/ begins (lit "ECDH-ES") a) /\
  (alg2keytype (VStr a) = Ok None \/ In (alg2keytype (VStr a)) [Ok (Some (lit "none")); Ok (Some (lit "RSA")); Ok (Some (lit "oct")); Ok (Some (lit "EC"))]).
Proof. exact key_kind. Qed.
Print Assumptions C180_key_kind.
Theorem C180_not_text : forall v, (forall a, v <> VStr a) -> (truthy v = false -> alg2keytype v = Ok (Some (lit "none"))) /\ (truthy v = true -> exists e, alg2keytype v = Raise e).
Proof. exact key_kind_other. Qed.
Print Assumptions C180_not_text.
Example C180_ex : alg2keytype (VStr (lit "rs256")) = Ok None /\ alg2keytype (VStr (lit "NoNe")) = Ok (Some (lit "none")) /\ alg2keytype (VStr (lit "RSA-OAEP")) = Ok (Some (lit "RSA")) /\
  alg2keytype (VStr (lit "ECDH-ES+A128KW")) = Ok (Some (lit "EC")) /\ alg2keytype (VStr (lit "Anything")) = Ok (Some (lit "oct")) /\ alg2keytype VNone = Ok (Some (lit "none")) /\
  alg2keytype (VInt 5) = Raise EAttributeError.
Proof. vm_compute. repeat split; reflexivity. Qed.

(** C181: recognition of every text, and of everything sign_json returns. *)
Theorem C181_recognised : forall s t, (exists s', is_jws s (VStr t) = Ok (true, s')) <-> json_form t \/ exists u, unpack (VStr t) = Ok u /\ header_known (j_headers u).
Proof. exact recognised_any. Qed.
Print Assumptions C181_recognised.
Theorem C181_factory : forall t, (exists s, factory (VStr t) = Ok (Some s)) <-> json_form t \/ exists u, unpack (VStr t) = Ok u /\ header_known (j_headers u).
Proof. exact factory_any. Qed.
Print Assumptions C181_factory.
Theorem C181_json_signed : forall P Es s keys headers flatten text, sign_json P Es s (Some keys) headers flatten = Ok text ->
  pairs_of s headers <> [] -> (forall pr, In pr (pairs_of s headers) -> usable P s keys pr) -> exists v, factory (VStr text) = Ok (Some v).
Proof. intros P Es s keys headers flatten text H NE US. apply factory_any. left. exact (json_signed_form P Es s keys headers flatten text H NE US). Qed.
Print Assumptions C181_json_signed.
Example C181_ex : factory (VStr (lit "{""payload"": 1, ""signature"": 2}")) = Ok (Some new_jws) /\ factory (VStr (lit "{""payload"": 1, ""signatures"": []}")) = Ok (Some new_jws) /\
  factory (VStr (lit "{""payload"": 1}")) = Ok None /\ factory (VStr (lit "{""signature"": 1}")) = Ok None /\
  (exists text, sign_json std (fun _ => ex_E) ex_jws (Some [ex_key]) None true = Ok text /\ factory (VStr text) = Ok (Some new_jws)).
Proof.
  repeat (split; [vm_compute; reflexivity|]).
  set (r := sign_json std (fun _ => ex_E) ex_jws (Some [ex_key]) None true). vm_compute in r. match eval unfold r in r with Ok ?t => exists t end. subst r. split; vm_compute; reflexivity.
Qed.
