(** * Properties C259-C262: key identifiers that are not text; headers of the JSON serialization; the self-test of PBKDF2.py *)
From Coq Require Import ZArith List Bool Lia.
From Verif Require Import Base BaseProofs Utf8 Codec Json Jwt Prims Inst Rsa Ecc Jwk JwkEx Jws JwsEx KidProofs JwsProofs5 JsonState JsonHdr PvalEq Caller Caller2 Caller3 Pbkdf2 Pbkdf2Proofs SelfTest.
Import ListNotations.
Open Scope Z_scope.

(** What Python takes for false. *)
Theorem C259_falsy : forall v, (forall t, v = VFloat t -> exists m e, t = m ++ e /\ (forall c, In c m -> c = 45 \/ c = 46 \/ 48 <= c <= 57) /\ (e = [] \/ exists x r, e = x :: r /\ (x = 101 \/ x = 69))) ->
  (truthy v = false <-> void v).
Proof. intros v F. split; [exact (falsy_void v F)|exact (void_falsy v)]. Qed.
Print Assumptions C259_falsy.
(** Such a kid in the header restricts nothing. *)
Theorem C259_void_kid : forall s j h h' v keys use alg, dget (s_dict s) (lit "kid") = None -> j_headers j = VDict h -> dget h (lit "kid") = Some v -> void v -> dget h' (lit "kid") = None ->
  pick_keys (set_jwt s j) keys use alg = pick_keys (set_jwt s {| j_headers := VDict h'; j_b64 := j_b64 j; j_part := j_part j |}) keys use alg.
Proof. exact void_kid. Qed.
Print Assumptions C259_void_kid.
(** True and 1 are the same kid. *)
Theorem C259_true_kid : forall s s' keys use alg (b : bool), dget (s_dict s') (lit "alg") = dget (s_dict s) (lit "alg") -> kid_in_force s = Ok (VBool b) -> kid_in_force s' = Ok (VInt (if b then 1 else 0)) ->
  pick_keys s keys use alg = pick_keys s' keys use alg.
Proof. exact true_kid. Qed.
Print Assumptions C259_true_kid.
Theorem C259_by_kid : forall ks (b : bool), keys_by_kid ks (VBool b) = keys_by_kid ks (VInt (if b then 1 else 0)).
Proof. exact true_by_kid. Qed.
Print Assumptions C259_by_kid.
(** In a number given as a list of octets true and false are the octets 1 and 0. *)
Theorem C259_octets : forall l, deser (VList l) = deser (VList (map (fun v => match v with VBool b => VInt (if b then 1 else 0) | v => v end) l)).
Proof. exact deser_plain. Qed.
Print Assumptions C259_octets.
(** As attribute of a key they are written as the numbers 1 and 0. *)
Theorem C259_written : forall b : bool, num_to_base64 (VBool b) = (t <- long_to_base64 (if b then 1 else 0);; Ok (VStr t)).
Proof. exact bool_written. Qed.
Print Assumptions C259_written.

Definition C259_j (v : pval) : jwt := {| j_headers := VDict [(lit "alg", VStr (lit "HS256")); (lit "kid", v)]; j_b64 := []; j_part := [] |}.
Definition C259_s : jws := {| s_msg := VStr []; s_dict := [(lit "alg", VStr (lit "HS256"))]; s_jwk := None; s_jwt := None; s_key := None |}.
Definition C259_one : jwk := set_kid ex_sym (VInt 1).
Example C259_ex : void (VFloat (lit "-0.0e5")) /\
  pick_keys (set_jwt C259_s (C259_j (VFloat (lit "-0.0e5")))) [Some C259_one; Some ex_sym] (VStr []) (VStr []) = Ok [C259_one; ex_sym] /\
  pick_keys (set_jwt C259_s (C259_j (VBool true))) [Some C259_one; Some ex_sym] (VStr []) (VStr []) = Ok [C259_one] /\
  pick_keys (set_jwt C259_s (C259_j (VFloat (lit "0.5")))) [Some C259_one; Some ex_sym] (VStr []) (VStr []) = Ok [] /\
  keys_by_kid [C259_one; ex_sym] (VBool true) = [C259_one] /\ deser (VList [VBool true; VInt 65; VInt 81]) = Ok 1 /\ num_to_base64 (VBool true) = Ok (VStr (lit "AQ")).
Proof.
  split; [apply (void_float (lit "-0.0") (lit "e5")); [intros c H; vm_compute in H; lia|right; exists 101, (lit "5"); split; [reflexivity|left; reflexivity]]|].
  vm_compute. repeat split.
Qed.

(** C260: what verify_json accepts as a protected header.  The algorithm is that of the protected header; one in the
    unprotected header is never enough. *)
Theorem C260_protected : forall P s text keys an sigalg c s', verify_json P s text keys an sigalg = Ok (c, s') ->
  exists d signs, loads_any text = Ok (VDict d) /\ entries d signs /\
  Forall (fun e => exists ed h t hd, e = VDict ed /\ dget ed (lit "protected") = Some (VStr h) /\ b64d_enc_dec h = Ok t /\ loads t = Ok (VDict hd) /\
    ((exists a g, dget hd (lit "alg") = Some (VStr a) /\ dget SIGNERS a = Some g) \/
     (an = true /\ (dget hd (lit "alg") = Some VNone \/ exists a, dget hd (lit "alg") = Some (VStr a) /\ lower a = lit "none")))) signs.
Proof. exact json_protected. Qed.
Print Assumptions C260_protected.
Theorem C260_only_objects : forall P s text keys an sigalg c s', verify_json P s text keys an sigalg = Ok (c, s') ->
  forall d signs e ed h t w, loads_any text = Ok (VDict d) -> entries d signs -> In e signs -> e = VDict ed -> dget ed (lit "protected") = Some (VStr h) -> b64d_enc_dec h = Ok t -> loads t = Ok w ->
  exists hd, w = VDict hd /\ dget hd (lit "alg") <> None.
Proof. exact only_objects. Qed.
Print Assumptions C260_only_objects.
(** Other JSON values are refused: numbers, booleans and null with TypeError, a text with ValueError, and the instance is
    not touched. *)
Theorem C260_scalar : forall P s pl e w un r keys an sigalg claim, protected_is pl e w un ->
  (w = VNone \/ (exists b, w = VBool b) \/ (exists n, w = VInt n) \/ (exists f, w = VFloat f)) -> verify_signs_on P s pl (e :: r) keys an sigalg claim = (s, Raise ETypeError).
Proof. exact scalar_protected. Qed.
Print Assumptions C260_scalar.
Theorem C260_text : forall P s pl e c t un r keys an sigalg claim, protected_is pl e (VStr (c :: t)) un -> verify_signs_on P s pl (e :: r) keys an sigalg claim = (s, Raise EValueError).
Proof. exact text_protected. Qed.
Print Assumptions C260_text.
(** A list of pairs is merged like an object, before it is refused. *)
Theorem C260_pairs : forall un l, py_update un (VList (map (fun kv => VList [VStr (fst kv); snd kv]) l)) = py_update un (VDict l).
Proof. exact pairs_like_object. Qed.
Print Assumptions C260_pairs.
Definition json_with (protected : ustr) : pval := VStr (lit "{""payload"":""aGVsbG8"",""protected"":""" ++ protected ++ lit """,""header"":{""alg"":""HS256""},""signature"":""UYmO_lPAY5V0Wf4KZsfhiYs1SxqXPhxvjuYqellDV5A""}").
Definition entry_with (protected : ustr) : pval := VDict [(lit "protected", VStr protected); (lit "signature", VStr (lit "AA"))].
Example C260_ex :
  (* {"alg":"HS256"}, 1, "ab", {} and [["alg","HS256"],"kx"] *)
  (m <- verify_json std new_jws (json_with (lit "eyJhbGciOiJIUzI1NiJ9")) (Some [ex_key]) false VNone;; Ok (fst m)) = Ok (VStr (lit "hello")) /\
  verify_json_on std new_jws (json_with (lit "MQ")) (Some [ex_key]) false VNone = (new_jws, Raise ETypeError) /\
  verify_json_on std new_jws (json_with (lit "ImFiIg")) (Some [ex_key]) false VNone = (new_jws, Raise EValueError) /\
  snd (verify_json_on std new_jws (json_with (lit "e30")) (Some [ex_key]) false VNone) = Raise ENoSuitableSigningKeys /\
  (let r := verify_json_on std new_jws (json_with (lit "W1siYWxnIiwiSFMyNTYiXSwia3giXQ")) (Some [ex_key]) false VNone in snd r = Raise ETypeError /\ s_dict (fst r) = [(lit "alg", VStr (lit "HS256"))]) /\
  py_update [] (VList [VList [VStr (lit "a"); VInt 1]; VStr (lit "bc"); VDict [(lit "d", VInt 1); (lit "e", VInt 2)]]) = Ok ([(lit "a", VInt 1); (lit "b", VStr (lit "c")); (lit "d", VStr (lit "e"))], false) /\
  py_update [] (VList [VList [VInt 1; VInt 1]]) = Ok ([], true) /\ py_update [] (VList [VList [VList []; VInt 1]]) = Raise ETypeError /\ py_update [] (VList [VList [VInt 1]]) = Raise EValueError.
Proof. vm_compute. repeat split. Qed.
Example C260_hyp : protected_is (VStr (lit "aGVsbG8")) (entry_with (lit "MQ")) (VInt 1) [] /\ protected_is (VStr (lit "aGVsbG8")) (entry_with (lit "ImFiIg")) (VStr (lit "ab")) [].
Proof.
  split.
  - exists [(lit "protected", VStr (lit "MQ")); (lit "signature", VStr (lit "AA"))], (lit "MQ"), (lit "aGVsbG8"), (lit "AA"), (lit "1"), (lit "MQ"), (lit "aGVsbG8"), (lit "AA"). vm_compute. repeat split.
  - exists [(lit "protected", VStr (lit "ImFiIg")); (lit "signature", VStr (lit "AA"))], (lit "ImFiIg"), (lit "aGVsbG8"), (lit "AA"), (lit """ab"""), (lit "ImFiIg"), (lit "aGVsbG8"), (lit "AA"). vm_compute. repeat split.
Qed.

(** C261: header dictionaries used in several places of one call of sign_json.  [store] are the objects, an entry names its
    protected and its unprotected header; the text is that for copies of the protected headers as they were before and of
    the unprotected headers as they are after the call, *)
Theorem C261_final : forall P s keys, keys <> [] -> (forall k, In k keys -> plain (k_kid k) = true) -> forall Es (store : list dict) hds flatten,
  let r := sign_json_refs P Es s (Some keys) store hds flatten in
  snd r = sign_json P Es s (Some keys) (Some (map (fun h => (nth (fst h) store [], nth (snd h) (fst r) [])) hds)) flatten.
Proof. exact json_refs_final. Qed.
Print Assumptions C261_final.
(** which for a dictionary that is the protected header of an entry is that header, *)
Theorem C261_both : forall P s keys, keys <> [] -> (forall k, In k keys -> plain (k_kid k) = true) -> forall Es (store : list dict) hds flatten t,
  snd (sign_json_refs P Es s (Some keys) store hds flatten) = Ok t -> forall n, (n < length store)%nat -> In n (map fst hds) ->
  nth n (fst (sign_json_refs P Es s (Some keys) store hds flatten)) [] = create_signature_left P s (Some keys) (nth n store []).
Proof. exact json_refs_both. Qed.
Print Assumptions C261_both.
(** so that copies give the same if no dictionary is on both sides, *)
Theorem C261_separate_partial : forall P s keys, keys <> [] -> (forall k, In k keys -> plain (k_kid k) = true) -> forall Es (store : list dict) hds flatten,
  (forall h h', In h hds -> In h' hds -> snd h <> fst h') ->
  snd (sign_json_refs P Es s (Some keys) store hds flatten) = sign_json P Es s (Some keys) (Some (map (fun h => (nth (fst h) store [], nth (snd h) store [])) hds)) flatten.
Proof. exact json_refs_separate. Qed.
Print Assumptions C261_separate_partial.
(** but otherwise a token may come out that the same keys refuse, while they accept the one made with copies. *)
Definition C261_alg (k : jwk) (a : ustr) : jwk :=
  {| k_kty := k_kty k; k_alg := VStr a; k_use := k_use k; k_kid := k_kid k; k_x5c := k_x5c k; k_x5t := k_x5t k; k_x5u := k_x5u k; k_extra := k_extra k; k_hash := k_hash k; k_data := k_data k |}.
Definition C261_keys : list jwk := [C261_alg (raw_sym (lit "secret")) (lit "HS256"); C261_alg (with_kid (raw_sym (lit "other")) (VStr (lit "b"))) (lit "HS512")].
Definition C261_store : list dict := [[(lit "alg", VStr (lit "HS256"))]; [(lit "alg", VStr (lit "HS512"))]; []].
Definition C261_hds : list (nat * nat) := [(0, 1); (1, 2)]%nat.
Theorem C261_copies_refuted : exists keys store hds, keys <> [] /\ (forall k, In k keys -> plain (k_kid k) = true) /\
  (x <- snd (sign_json_refs std (fun _ => ex_E) ex_jws (Some keys) store hds false);; r <- verify_json std new_jws (VStr x) (Some keys) false VNone;; Ok (fst r)) = Raise ENoSuitableSigningKeys /\
  (x <- sign_json std (fun _ => ex_E) ex_jws (Some keys) (Some (map (fun h => (nth (fst h) store [], nth (snd h) store [])) hds)) false;; r <- verify_json std new_jws (VStr x) (Some keys) false VNone;; Ok (fst r)) = Ok (VStr (lit "hello")).
Proof. exists C261_keys, C261_store, C261_hds. split; [discriminate|]. split; [intros k [<-|[<-|[]]]; reflexivity|]. split; vm_compute; reflexivity. Qed.
Print Assumptions C261_copies_refuted.
Example C261_ex : fst (sign_json_refs std (fun _ => ex_E) ex_jws (Some C261_keys) C261_store C261_hds false) = [[(lit "alg", VStr (lit "HS256"))]; [(lit "alg", VStr (lit "HS512")); (lit "kid", VStr (lit "b"))]; []] /\
  (* one dictionary as protected and as unprotected header of the same entry *)
  snd (sign_json_refs std (fun _ => ex_E) ex_jws (Some [ex_key]) [[(lit "cty", VStr (lit "text"))]] [(0, 0)]%nat true) =
    Ok (lit "{""payload"": ""aGVsbG8"", ""signature"": """ ++ match snd (sign_compact std ex_E ex_jws (Some [ex_key]) [(lit "cty", VStr (lit "text"))]) with Ok t => nth 2 (split 46 t) [] | Raise _ => [] end ++
        lit """, ""header"": {""cty"": ""text"", ""alg"": ""HS256""}, ""protected"": ""eyJjdHkiOiJ0ZXh0IiwiYWxnIjoiSFMyNTYifQ""}").
Proof. split; vm_compute; reflexivity. Qed.
Example C261_separate_ex : forall h h', In h [(0, 2); (0, 2); (1, 3)]%nat -> In h' [(0, 2); (0, 2); (1, 3)]%nat -> snd h <> fst h'.
Proof. intros h h' [<-|[<-|[<-|[]]]] [<-|[<-|[<-|[]]]]; cbn; discriminate. Qed.

(** C262: the self-test of PBKDF2.py raises on Python 2 and on Python 3, whatever HMAC-SHA-1 computes: on Python 3 the
    passphrase is refused, on Python 2 the derived octets of the second test are a text that b2a_hex does not take.  The
    first test, with one iteration, passes. *)
Theorem C262_selftest_refuted : forall P, hmac_law P -> forall v, exists e, test_pbkdf2 P v = Raise e.
Proof. exact selftest_never. Qed.
Print Assumptions C262_selftest_refuted.
Theorem C262_second_test_refuted : forall P, hmac_law P -> forall s, pb_new Py2 (VBytes (lit "password")) (VBytes (lit "ATHENA.MIT.EDUraeburn")) (VInt 1200) = Ok s ->
  snd (hexread P (Some s) 32) <> Ok (lit "5c08eb61fdf71e4e4ec3cf6ba1f5512ba7e52ddbc5e5142f708a31e2e62b1e13").
Proof. exact second_test_fails. Qed.
Print Assumptions C262_second_test_refuted.
Example C262_ex : hmac_law std /\ test_pbkdf2 std Py3 = Raise ETypeError /\
  (o <- pb_new Py2 (VBytes (lit "password")) (VBytes (lit "ATHENA.MIT.EDUraeburn")) (VInt 1);; snd (read std (Some o) 16)) = Ok (VBytes (z2be 16 0xcdedb5281bb2f801565a1122b2563515)) /\
  exists s, pb_new Py2 (VBytes (lit "password")) (VBytes (lit "ATHENA.MIT.EDUraeburn")) (VInt 1200) = Ok s.
Proof. split; [exact std_hmac_law|]. split; [reflexivity|]. split; [vm_compute; reflexivity|]. eexists. reflexivity. Qed.
