(** * Property C252: what decrypt raises; more on C188, C191, C193, C195, C230, C241 and C242 *)
From Coq Require Import ZArith List Bool Lia Permutation.
From Verif Require Import Base BaseProofs Codec Utf8 Json Jwt Prims Inst Rsa Jwk JwkEx Jws JwsEx Jwe JweEx JweProofs17 JsonState Caller Caller2 Script Misc2 ReprProofs PropMisc2.
Import ListNotations.
Open Scope Z_scope.

(** C252: what JWE.decrypt can raise *)
Theorem C252_decrypt_raises : forall P sent w token ks alg e, aes_law P -> hash_law P ->
  (forall sc k ct x, p_rsa_decrypt P sc k ct = Raise x -> is_ValueError x = true \/ x = ETypeError) -> (forall m x, p_decompress P m = Raise x -> x = EZlibError) ->
  w_dict w = [] -> w_jwk w = None -> w_epk w = None -> w_jwt w = None -> (exists t, t <> [] /\ (token = VStr t \/ token = VBytes t)) -> ks <> [] -> (forall k, In k ks -> sound_dec_key k) ->
  jwe_decrypt P sent w token (Some ks) alg [] = Raise e ->
  e = EBadSyntax \/ is_ValueError e = true \/
  In e [EWrongEncryptionAlgorithm; ENoSuitableDecryptionKey; ENotSupportedAlgorithm; EDecryptionFailed; EWrongNumberOfParts;
        EVerificationFailure; EInvalidTagException; EInvalidInputException; EException; EStructError; EOverflowError] \/
  exists j, unpack token = Ok j /\
   ((e = ETypeError /\ forall d, j_headers j <> VDict d) \/
    exists d, j_headers j = VDict d /\
     ((e = EKeyError /\ (dget d (lit "alg") = None \/ exists v, dget d (lit "alg") = Some v /\ (truthy v = false \/
         exists a, v = VStr a /\ startswith a (lit "A") = true /\ startswith (rev a) (rev (lit "KW")) = true /\ ~ In a [lit "A128KW"; lit "A192KW"; lit "A256KW"]))) \/
      (e = EAttributeError /\ exists v, dget d (lit "alg") = Some v /\ forall a, v <> VStr a) \/
      exists a, dget d (lit "alg") = Some (VStr a) /\
       ((In a [lit "RSA-OAEP"; lit "RSA-OAEP-256"; lit "RSA1_5"] /\ (In e [EZlibError; ETypeError] \/ (e = EIndexError /\ (length (j_part j) < 5)%nat))) \/
        (startswith a (lit "ECDH-ES") = true /\
          (In e [ETypeError; EAttributeError; EECCException; EDeSerializationNotPossible; EHeaderError] \/ (e = EIndexError /\ (length (j_part j) < 5)%nat) \/ (e = EKeyError /\ dget d (lit "enc") = None)))))).
Proof. exact decrypt_raises. Qed.
Print Assumptions C252_decrypt_raises.
Lemma std_rsa_dec : rsa_dec_quiet std.
Proof.
  intros sc k ct e H. change (Rsa.rsa_decrypt sc k ct = Raise e) in H. unfold Rsa.rsa_decrypt in H. destruct (negb _); [left; injection H as <-; reflexivity|].
  apply bind_exn in H. destruct H as [H|(x & _ & H)].
  - unfold rsa_private_op in H. repeat match type of H with context [if ?b then _ else _] => destruct b | context [match ?b with Some _ => _ | None => _ end] => destruct b end; first [discriminate H|injection H as <-; auto].
  - cbv zeta in H. destruct sc; [discriminate H| |].
    all: apply bind_exn in H; destruct H as [H|(y & _ & H)]; [|discriminate H]; left; revert H; unfold eme_oaep_decode; cbv zeta; 
      repeat match goal with |- context [if ?b then _ else _] => destruct b | |- context [match ?b with Some _ => _ | None => _ end] => destruct b | |- context [match ?b with [] => _ | _ :: _ => _ end] => destruct b end; intro H; first [discriminate H|injection H as <-; reflexivity].
Qed.
Lemma std_zip : zip_quiet std.
Proof. intros m e H. cbn in H. destruct m as [|x m]; [congruence|]. destruct (x =? 120); congruence. Qed.
Example C252_ex : sound_dec_key (raw_sym (lit "secret")) /\ sound_dec_key enc_rsa /\ sound_dec_key ex_ec /\
  let dec := fun t k => match jwe_decrypt std (fun _ => []) new_jwe (VStr t) (Some [k]) VNone [] with Ok _ => None | Raise e => Some e end in
  dec (lit "eyJhbGciOiJBS1ciLCJlbmMiOiJBMTI4R0NNIn0....") (raw_sym (lit "secret")) = Some EKeyError /\
  dec (lit "eyJhbGciOiJBMTI4S1ciLCJlbmMiOiJBMTI4R0NNIn0....") (raw_sym (lit "secret")) = Some EStructError /\
  dec (lit "MQ....") (raw_sym (lit "secret")) = Some ETypeError /\
  dec (lit "eyJhbGciOjF9....") (raw_sym (lit "secret")) = Some EAttributeError /\
  dec (lit "eyJhbGciOiJSU0ExXzUiLCJlbmMiOiJBMTI4R0NNIn0.") enc_rsa = Some EValueError /\
  dec (lit "eyJhbGciOiJFQ0RILUVTIn0.") ex_ec = Some EIndexError /\
  dec (lit "eyJhbGciOiJFQ0RILUVTIiwiZXBrIjp7ImNydiI6IlAtMSJ9fQ....") ex_ec = Some EDeSerializationNotPossible.
Proof.
  split; [repeat split; discriminate|]. split; [reflexivity|]. split; [split; [reflexivity|split; intro X; vm_compute in X; discriminate X]|]. vm_compute. repeat split.
Qed.

(** C230: the key attribute, a header whose jwk cannot be read, and payloads that are read differently. *)
Theorem C230_key : forall P s text ks an sigalg, ks <> [] ->
  s_key (fst (verify_json_on P s text (Some ks) an sigalg)) = s_key s \/ exists k, In k ks /\ s_key (fst (verify_json_on P s text (Some ks) an sigalg)) = Some k.
Proof. exact json_key. Qed.
Print Assumptions C230_key.
Theorem C230_bad_jwk : forall P s text pl sg r tok hs keys an sigalg e, json_parts text = Ok (pl, sg :: r) -> json_token pl sg = Ok (tok, hs) -> dmem hs (lit "self") = false -> init_from P hs = Raise e ->
  snd (verify_json_on P s text keys an sigalg) = Raise e /\
  let s' := fst (verify_json_on P s text keys an sigalg) in
  s_key s' = s_key s /\ s_jwk s' = None /\ s_jwt s' = None /\ s_msg s' = match dget hs (lit "msg") with Some m => m | None => VNone end /\
  dget (s_dict s') (lit "alg") = Some (match dget hs (lit "alg") with Some a => a | None => VStr (lit "none") end) /\ dget (s_dict s') (lit "jku") = dget hs (lit "jku") /\
  forall n, n <> lit "alg" -> n <> lit "jku" -> dget (s_dict s') n = None.
Proof. exact json_bad_jwk. Qed.
Print Assumptions C230_bad_jwk.
Example C230_bad_jwk_ex : let text := VStr (lit "{""payload"":"""",""protected"":""eyJhbGciOiJIUzI1NiIsImp3ayI6IngifQ"",""signature"":""""}") in
  exists pl sg tok hs e, json_parts text = Ok (pl, [sg]) /\ json_token pl sg = Ok (tok, hs) /\ dmem hs (lit "self") = false /\ init_from std hs = Raise e /\
  s_dict (fst (verify_json_on std pinned_jws text (Some [other_key]) false VNone)) = [(lit "alg", VStr (lit "HS256"))].
Proof. intro text. eexists _, _, _, _, _. split; [cbv; reflexivity|]. split; [cbv; reflexivity|]. split; [reflexivity|]. split; [cbv; reflexivity|]. vm_compute. reflexivity. Qed.
Theorem C230_conflict : forall P s text pl a b keys an sigalg s1 m1 s2 m2, json_parts text = Ok (pl, [a; b]) ->
  verify_signs_on P s pl [a] keys an sigalg VNone = (s1, Ok m1) -> verify_signs_on P s1 pl [b] keys an sigalg VNone = (s2, Ok m2) -> m1 <> VNone -> pval_eqb m1 m2 = false ->
  verify_json_on P s text keys an sigalg = (s2, Raise EAssertionError).
Proof. exact json_conflict. Qed.
Print Assumptions C230_conflict.
(** 1 as JSON and as text. *)
Definition C230_one : jws := {| s_msg := VStr (lit "1"); s_dict := [(lit "alg", VStr (lit "HS256"))]; s_jwk := None; s_jwt := None; s_key := None |}.
Example C230_conflict_ex : (t <- sign_json std (fun _ => ex_E) C230_one (Some [ex_key]) (Some [([(lit "alg", VStr (lit "HS256"))], []); ([(lit "cty", VStr (lit "text"))], [])]) false;;
    let r := verify_json_on std new_jws (VStr t) (Some [ex_key]) false VNone in Ok (s_msg (fst r), match snd r with Ok _ => None | Raise e => Some e end)) = Ok (VStr (lit "1"), Some EAssertionError).
Proof. vm_compute. reflexivity. Qed.

(** C241: the dictionary is afterwards the header of the token or of the entry, *)
Theorem C241_left_is_header : forall P E s keys p t, p <> [] -> snd (sign_compact P E s keys p) = Ok t -> b64encode_item (VDict (sign_compact_left P s keys p)) = Ok (hd [] (split 46 t)).
Proof. exact left_is_header. Qed.
Print Assumptions C241_left_is_header.
Theorem C241_left_is_protected : forall P E s keys p u e, p <> [] -> create_signature P E s keys (p, u) = Ok e ->
  exists h, b64encode_item (VDict (create_signature_left P s keys p)) = Ok h /\ h <> [] /\ dget e (lit "protected") = Some (VStr h).
Proof. exact left_is_protected. Qed.
Print Assumptions C241_left_is_protected.
(** and after a refusal it has the alg if the keys were looked through, *)
Theorem C241_refused : forall P E s ks p e, p <> [] -> ks <> [] -> snd (alg_keys P s (Some ks) (VStr (lit "sig")) p) = Raise e ->
  snd (sign_compact P E s (Some ks) p) = Raise e /\
  (e = ENoSuitableSigningKeys -> sign_compact_left P s (Some ks) p = dset p (lit "alg") (match dget (s_dict s) (lit "alg"), ks with
     | Some a, _ => if truthy a then a else VStr (lit "none") | None, [k] => if truthy (k_alg k) then k_alg k else VStr (lit "none") | None, _ => VStr (lit "none") end)) /\
  (e <> ENoSuitableSigningKeys -> sign_compact_left P s (Some ks) p = p).
Proof. exact left_refused. Qed.
Print Assumptions C241_refused.
(** in sign_json before that. *)
Theorem C241_entry_refused : forall P E s keys p u, p <> [] ->
  (dget (s_dict s) (lit "alg") = None -> create_signature P E s keys (p, u) = Raise EAttributeError /\ create_signature_left P s keys p = p) /\
  forall a, dget (s_dict s) (lit "alg") = Some a ->
   let ph := if dmem p (lit "alg") then p else p ++ [(lit "alg", a)] in
   (dmem p (lit "self") = true \/ dmem p (lit "msg") = true \/ exists e, jws_init P (s_msg s) (ddel ph (lit "with_digest")) None = Raise e) ->
   (exists e, create_signature P E s keys (p, u) = Raise e) /\ create_signature_left P s keys p = ph.
Proof. exact entry_refused. Qed.
Print Assumptions C241_entry_refused.
Definition C241_cty : dict := [(lit "cty", VStr (lit "text"))].
Definition C241_typ : jws := {| s_msg := VStr (lit "hello"); s_dict := [(lit "alg", VStr (lit "HS256")); (lit "typ", VStr (lit "JWT"))]; s_jwk := None; s_jwt := None; s_key := None |}.
Example C241_more_ex : sign_compact_left std C241_typ (Some [ex_key]) C241_cty = C241_cty ++ [(lit "alg", VStr (lit "HS256")); (lit "typ", VStr (lit "JWT"))] /\
  (t <- snd (sign_compact std ex_E C241_typ (Some [ex_key]) C241_cty);; Ok (hd [] (split 46 t))) = Ok (b64e (lit "{""cty"":""text"",""alg"":""HS256"",""typ"":""JWT""}")) /\
  snd (alg_keys std C241_typ (Some [ex_rsa]) (VStr (lit "sig")) C241_cty) = Raise ENoSuitableSigningKeys /\ sign_compact_left std C241_typ (Some [ex_rsa]) C241_cty = C241_cty ++ [(lit "alg", VStr (lit "HS256"))] /\
  create_signature_left std ex_jws (Some [ex_key]) [(lit "msg", VNone)] = [(lit "msg", VNone); (lit "alg", VStr (lit "HS256"))].
Proof. vm_compute. repeat split; reflexivity. Qed.

(** C242: the dictionary of a refused entry has been assigned to, no other one has. *)
Theorem C242_refused : forall P Es i s keys (store : list dict) r u t e, (r < length store)%nat -> create_signature P (Es i) s keys (nth r store [], u) = Raise e ->
  exists store', create_signatures_on P Es i s keys store ((r, u) :: t) = (store', Raise e) /\
    forall r', nth r' store' [] = if Nat.eqb r' r then create_signature_left P s keys (nth r store []) else nth r' store [].
Proof. exact store_refused. Qed.
Print Assumptions C242_refused.
Example C242_refused_ex : create_signature std ex_E ex_jws (Some [ex_rsa]) (C241_cty, []) = Raise ENoSuitableSigningKeys /\
  fst (create_signatures_on std (fun _ => ex_E) 0 ex_jws (Some [ex_rsa]) [[(lit "kid", VNone)]; C241_cty] [(1%nat, []); (0%nat, [])]) = [[(lit "kid", VNone)]; C241_cty ++ [(lit "alg", VStr (lit "HS256"))]].
Proof. vm_compute. split; reflexivity. Qed.

(** C188: the text of a key determines its dictionary: no two keys with different dictionaries are shown alike.  [reprable]: no
    floats, characters are code points. *)
Theorem C188_tells : forall printable k k' t d d', to_dict k = Ok d -> to_dict k' = Ok d' ->
  (forall n x, In (n, x) d -> Forall code_point n /\ reprable x) -> (forall n x, In (n, x) d' -> Forall code_point n /\ reprable x) ->
  key_str printable k = Ok t -> key_str printable k' = Ok t -> d = d'.
Proof. exact key_str_tells. Qed.
Print Assumptions C188_tells.
(** C191: where the hash of texts has no collisions, dicthash has none: it is equal only for the same members in some order. *)
Theorem C191_tells : forall printable hash d d', (forall a b, hash a = hash b -> a = b) ->
  (forall n x, In (n, x) d -> Forall code_point n /\ reprable x) -> (forall n x, In (n, x) d' -> Forall code_point n /\ reprable x) ->
  dicthash printable hash d = dicthash printable hash d' -> Permutation d d'.
Proof. exact dicthash_tells. Qed.
Print Assumptions C191_tells.
Example C191_tells_ex : repr_items (fun _ => true) [(lit "a", VStr (lit "\n"))] = lit "[('a', '\\n')]" /\ repr_items (fun _ => true) [(lit "a", VStr [10])] = lit "[('a', '\n')]" /\
  repr_items (fun _ => true) [(lit "a'", VList [VBytes [0; 39; 34]; VDict [(lit "b", VNone)]; VInt (-12)])] = lit "[(""a'"", [b'\x00\'""', {'b': None}, -12])]" /\
  reprable (VList [VBytes [0; 39; 34]; VDict [(lit "b", VNone)]; VInt (-12)]).
Proof.
  repeat (split; [reflexivity|]). constructor. intros x [<-|[<-|[<-|[]]]].
  - constructor. repeat (constructor; [cbv beta; lia|]). constructor.
  - constructor; intros n y [E|[]]; injection E as <- <-; [|constructor]. unfold lit. cbn. repeat (constructor; [unfold code_point; cbn; lia|]). constructor.
  - constructor.
Qed.

(** C193: with a list of numbers as the key nothing is encrypted or decrypted. *)
Theorem C193_ints : forall P R d j objects msg l cek iv kid, (exists e, sym_decrypt_any P d j (AInts l) [] = Raise e) /\
  (exists e, sym_encrypt_any P R d objects msg (AInts l) cek iv kid = Raise e).
Proof. exact ints_never. Qed.
Print Assumptions C193_ints.
Example C193_ints_ex : (j <- unpack (VStr sym_tok);; sym_decrypt_any std [] j (AInts (lit "sixteen octets!!")) []) = Raise ETypeError /\
  (j <- unpack (VStr sym_tok);; sym_decrypt_any std [] j (AOctets (lit "sixteen octets!!")) []) = Ok (lit "hi").
Proof. split; vm_compute; reflexivity. Qed.

(** C195: line ends around the token in a file do not matter. *)
Theorem C195_file : forall P sent read imp c n s pre post, n <> [] -> read n = Ok (pre ++ s ++ post) ->
  Forall (fun x => x = 10 \/ x = 13) pre -> Forall (fun x => x = 10 \/ x = 13) post -> (forall x r, s = x :: r -> x <> 10 /\ x <> 13 /\ last s 0 <> 10 /\ last s 0 <> 13) ->
  jwdecrypt_x509 P sent read imp c (Some n) None = jwdecrypt_x509 P sent read imp c None (Some s).
Proof.
  intros P sent read imp c n s pre post N RD A B C. apply (x509_file P sent read imp c n s pre post N RD).
  - revert A. apply Forall_impl. intros a [-> | ->]; cbn; auto.
  - revert B. apply Forall_impl. intros a [-> | ->]; cbn; auto.
  - destruct s as [|x r]; [exact I|]. destruct (C x r eq_refl) as (C1 & C2 & C3 & C4). split; intros [E|[E|[]]]; congruence.
Qed.
Print Assumptions C195_file.
Example C195_file_ex : forall sent, jwdecrypt_x509 std sent (fun _ => Ok (kw_tok ++ [13; 10])) (fun _ => Raise EException) (CUrl (lit "https://example.com/")) (Some (lit "token")) None = Failed ENoSuitableDecryptionKey /\
  jwdecrypt_x509 std sent (fun _ => Raise EException) (fun _ => Raise EException) (CUrl (lit "https://example.com/")) None (Some (kw_tok ++ [13; 10])) = Failed EBadSyntax.
Proof. intro sent. split; vm_compute; reflexivity. Qed.
