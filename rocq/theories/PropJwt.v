(** * Properties C10-C13, C102-C105 and C150-C151: the token container (jwt.py). *)
From Coq Require Import ZArith List Bool Lia.
From Verif Require Import Base BaseProofs Codec CodecProofs Utf8 Json JsonProofs Jwt JwtProofs JwtProofs2.
Import ListNotations.
Open Scope Z_scope.

(** C10 JWT pack/unpack round trip.  Proved for a non-empty list of parts; for the empty list [pack] returns the
    stored header segment alone, which [unpack] refuses. *)
Theorem C10_pack_unpack_partial : forall j h parts, jsonable (VDict h) = true -> h <> [] -> forallb bytes_ok parts = true -> parts <> [] ->
  exists tok j' u hdr, pack j (map VBytes parts) (VDict h) = Ok (tok, j') /\ length (split 46 tok) = S (length parts) /\
    unpack (VStr tok) = Ok u /\ j_headers u = VDict h /\ j_part u = VBytes hdr :: map VBytes parts.
Proof.
  intros j h parts J NH B NP. destruct (pack_unpack j h h parts (VDict h) (b2s_id _ J) J NH (or_introl eq_refl) B NP) as (tok & j' & u & t & H1 & H2 & H3 & _ & H5 & H6 & _).
  exists tok, j', u, t. repeat split; assumption.
Qed.
Print Assumptions C10_pack_unpack_partial.
Theorem C10_empty_parts_refuted : exists h j tok, jwt_init h = Ok j /\ pack j [] (VDict h) = Ok (tok, j) /\ unpack (VStr tok) = Raise EBadSyntax.
Proof.
  exists [(lit "alg", VStr (lit "HS256"))].
  exists {| j_headers := VDict [(lit "alg", VStr (lit "HS256"))]; j_b64 := [lit "eyJhbGciOiJIUzI1NiJ9"];
            j_part := [VBytes (lit "{" ++ 34 :: lit "alg" ++ 34 :: 58 :: 34 :: lit "HS256" ++ [34; 125])] |}, (lit "eyJhbGciOiJIUzI1NiJ9").
  split; [|split]; vm_compute; reflexivity.
Qed.
Print Assumptions C10_empty_parts_refuted.
Example C10_ex :
  let h := [(lit "typ", VStr (lit "JWT")); (lit "alg", VStr (lit "HS256")); (lit "x", VList [VInt (-7); VNone; VDict [(lit "q", VStr [233; 8364; 128512; 34; 10])]])] in
  jsonable (VDict h) = true /\
  (r <- pack {| j_headers := VNone; j_b64 := []; j_part := [] |} (map VBytes [[255; 0; 46]; []]) (VDict h);; u <- unpack (VStr (fst r));; Ok (j_headers u, tl (j_part u)))
  = Ok (VDict h, map VBytes [[255; 0; 46]; []]).
Proof. vm_compute. split; reflexivity. Qed.

(** C11 re-packing an unpacked token is the identity. *)
Theorem C11_repack : forall token u h, unpack token = Ok u ->
  exists txt, (token = VStr txt \/ token = VBytes txt) /\ ascii txt = true /\ pack u [] h = Ok (txt, u).
Proof. exact repack. Qed.
Print Assumptions C11_repack.
(** a token whose second segment is not canonical base64 *)
Example C11_ex : (u <- unpack (VStr (lit "eyJhbGciOiJub25lIn0.QR."));; r <- pack u [] VNone;; Ok (fst r, j_part u)) =
  Ok (lit "eyJhbGciOiJub25lIn0.QR.", [VBytes (lit "{" ++ 34 :: lit "alg" ++ 34 :: 58 :: 34 :: lit "none" ++ [34; 125]); VBytes [65]; VBytes []]).
Proof. vm_compute. reflexivity. Qed.

(** C12 split_token loses nothing. *)
Theorem C12_split_token : forall t,
  (split_token t = Raise EBadSyntax /\ ~ In 46 t) \/
  (exists l, split_token t = Ok l /\ (1 < length l)%nat /\ join 46 l = t /\ forall p, In p l -> ~ In 46 p).
Proof. exact split_token_lossless. Qed.
Print Assumptions C12_split_token.
Example C12_ex : split_token (lit ".a..b") = Ok [[]; lit "a"; []; lit "b"] /\ split_token (lit "ab") = Raise EBadSyntax.
Proof. vm_compute. split; reflexivity. Qed.

(** C13 payload interpretation.  Proved for payloads that are UTF-8 text and, for other payloads, when the header's
    cty is not JWT; otherwise json.loads guesses an encoding, so a payload that is not UTF-8 need not come back raw. *)
Theorem C13_payload_text_partial : forall u h b t, j_headers u = VDict h -> nth_error (j_part u) 1 = Some (VBytes b) -> utf8_decode b = Ok t ->
  (json_expected h -> forall v, loads t = Ok v -> payload u = Ok v) /\
  (json_expected h -> forall e, loads t = Raise e -> payload u = Ok (VStr t)) /\
  (other_cty h -> payload u = Ok (VStr t)).
Proof. exact payload_text. Qed.
Print Assumptions C13_payload_text_partial.
Theorem C13_raw_bytes_refuted : exists u h b e v, unpack (VStr (lit "eyJhbGciOiJub25lIn0.__57AH0A.")) = Ok u /\ j_headers u = VDict h /\ json_expected h /\
  nth_error (j_part u) 1 = Some (VBytes b) /\ utf8_decode b = Raise e /\ payload u = Ok v /\ v <> VBytes b.
Proof.
  exists {| j_headers := VDict [(lit "alg", VStr (lit "none"))]; j_b64 := [lit "eyJhbGciOiJub25lIn0"; lit "__57AH0A"; []];
            j_part := [VBytes (lit "{" ++ 34 :: lit "alg" ++ 34 :: 58 :: 34 :: lit "none" ++ [34; 125]); VBytes [255; 254; 123; 0; 125; 0]; VBytes []] |}.
  exists [(lit "alg", VStr (lit "none"))], [255; 254; 123; 0; 125; 0], EUnicodeDecodeError, (VDict []).
  split; [vm_compute; reflexivity|]. split; [reflexivity|]. split; [left; reflexivity|]. split; [reflexivity|]. split; [reflexivity|]. split; [vm_compute; reflexivity|discriminate].
Qed.
Print Assumptions C13_raw_bytes_refuted.
Example C13_ex :
  let u c p := {| j_headers := VDict c; j_b64 := []; j_part := [VNone; VBytes p] |} in
  payload (u [] (lit "[1, true]")) = Ok (VList [VInt 1; VBool true]) /\ payload (u [(lit "cty", VStr (lit "jWt"))] (lit "17")) = Ok (VInt 17) /\
  payload (u [(lit "cty", VStr (lit "text"))] (lit "17")) = Ok (VStr (lit "17")) /\ payload (u [] (lit "hello")) = Ok (VStr (lit "hello")) /\
  json_expected [(lit "cty", VStr (lit "jWt"))] /\ other_cty [(lit "cty", VStr (lit "text"))].
Proof. repeat split; try (vm_compute; reflexivity); [right|]; eexists; (split; [reflexivity|]); [reflexivity|discriminate]. Qed.

(** C102 round trip of the container for any non-empty list of parts: explicit or stored headers, values given as
    byte strings come back as text, the result is the same for text and byte tokens, and packs to itself again. *)
Theorem C102_pack_unpack : forall j d d' parts hdr, b2s_conv (VDict d) = Ok (VDict d') -> jsonable (VDict d') = true -> d <> [] ->
  hdr = VDict d \/ (truthy hdr = false /\ j_headers j = VDict d) -> forallb bytes_ok parts = true -> parts <> [] ->
  exists tok j' u t, pack j (map VBytes parts) hdr = Ok (tok, j') /\ length (split 46 tok) = S (length parts) /\
    unpack (VStr tok) = Ok u /\ unpack (VBytes tok) = Ok u /\ j_headers u = VDict d' /\ j_part u = map VBytes (t :: parts) /\ loads t = Ok (VDict d') /\
    (forall h, pack u [] h = Ok (tok, u)).
Proof. exact pack_unpack. Qed.
Print Assumptions C102_pack_unpack.
Example C102_ex :
  b2s_conv (VDict [(lit "alg", VBytes (lit "none")); (lit "l", VList [VBytes [195; 169]])]) = Ok (VDict [(lit "alg", VStr (lit "none")); (lit "l", VList [VStr [233]])]) /\
  (j <- jwt_init [(lit "alg", VBytes (lit "none")); (lit "l", VList [VBytes [195; 169]])];; r <- pack j (map VBytes [[1]; [2; 3]]) VNone;; u <- unpack (VBytes (fst r));; Ok (j_headers u))
  = Ok (VDict [(lit "alg", VStr (lit "none")); (lit "l", VList [VStr [233]])]).
Proof. vm_compute. split; reflexivity. Qed.

(** C103 payload of bytes that are not UTF-8, and totality. *)
Theorem C103_payload_raw : forall u h b e, j_headers u = VDict h -> nth_error (j_part u) 1 = Some (VBytes b) -> utf8_decode b = Raise e ->
  (json_expected h -> forall v, loads_bytes b = Ok v -> payload u = Ok v) /\
  (json_expected h -> forall e', loads_bytes b = Raise e' -> payload u = Ok (VBytes b)) /\
  (other_cty h -> payload u = Ok (VBytes b)).
Proof. exact payload_raw. Qed.
Print Assumptions C103_payload_raw.
Theorem C103_payload_total : forall u h p, j_headers u = VDict h -> nth_error (j_part u) 1 = Some (VBytes p) -> json_expected h \/ other_cty h ->
  exists v, payload u = Ok v.
Proof. exact payload_total. Qed.
Print Assumptions C103_payload_total.
Example C103_ex :
  let u c p := {| j_headers := VDict c; j_b64 := []; j_part := [VNone; VBytes p] |} in
  payload (u [] [255; 1]) = Ok (VBytes [255; 1]) /\ payload (u [] [254; 255; 0; 55]) = Ok (VInt 7) /\ payload (u [(lit "cty", VStr (lit "x"))] [254; 255; 0; 55]) = Ok (VBytes [254; 255; 0; 55]) /\
  payload (u [(lit "cty", VInt 1)] [255; 1]) = Raise EAttributeError.
Proof. vm_compute. repeat split; reflexivity. Qed.

(** C104 failure modes of unpack. *)
Theorem C104_unpack_exceptions : forall token e, (exists s, token = VStr s \/ token = VBytes s) -> unpack token = Raise e -> e = EBadSyntax \/ is_ValueError e = true.
Proof. exact unpack_exn. Qed.
Print Assumptions C104_unpack_exceptions.
Example C104_ex : unpack (VStr (lit "abc")) = Raise EBadSyntax /\ unpack (VStr (lit "a.b")) = Raise EBadSyntax /\ unpack (VStr (lit "YQ.")) = Raise EJSONDecodeError /\
  unpack (VStr (lit "_w.")) = Raise EUnicodeDecodeError /\ unpack (VStr [55296; 46]) = Raise EUnicodeEncodeError.
Proof. vm_compute. repeat split; reflexivity. Qed.

(** C105 unpack works segment by segment. *)
Theorem C105_unpack_segments : forall token u, unpack token = Ok u -> exists txt, (token = VStr txt \/ token = VBytes txt) /\
  j_b64 u = split 46 txt /\ (2 <= length (j_b64 u))%nat /\
  exists ps, j_part u = map VBytes ps /\ Forall2 (fun seg p => b64d seg = Ok p) (j_b64 u) ps /\ Forall (fun p => bytes_ok p = true) ps /\
  exists t, utf8_decode (hd [] ps) = Ok t /\ loads t = Ok (j_headers u).
Proof. exact unpack_segments. Qed.
Print Assumptions C105_unpack_segments.
Example C105_ex : (u <- unpack (VBytes (lit "MTI.YQ..Yg"));; Ok (j_headers u, j_b64 u, j_part u)) =
  Ok (VInt 12, [lit "MTI"; lit "YQ"; []; lit "Yg"], [VBytes (lit "12"); VBytes (lit "a"); VBytes []; VBytes (lit "b")]).
Proof. vm_compute. reflexivity. Qed.

(** C150 round trip of the container for parts of every kind. *)
Theorem C150_any_parts : forall j d d' parts hdr, b2s_conv (VDict d) = Ok (VDict d') -> jsonable (VDict d') = true -> d <> [] ->
  hdr = VDict d \/ (truthy hdr = false /\ j_headers j = VDict d) -> Forall packable parts -> parts <> [] ->
  exists tok j' u t ps, pack j parts hdr = Ok (tok, j') /\ j_part j' = VDict d :: parts /\ unpack (VStr tok) = Ok u /\ unpack (VBytes tok) = Ok u /\
    j_headers u = VDict d' /\ j_part u = map VBytes (t :: ps) /\ Forall2 comes_back parts ps.
Proof. exact pack_unpack_any. Qed.
Print Assumptions C150_any_parts.
Theorem C150_no_numbers : forall j parts hdr r x, In x parts -> (exists n, x = VInt n) \/ (exists b, x = VBool b) \/ (exists f, x = VFloat f) -> pack j parts hdr = Ok r -> False.
Proof. exact pack_number. Qed.
Print Assumptions C150_no_numbers.
Example C150_ex :
  let parts := [VStr [233; 8364]; VBytes [255]; VDict [(lit "a", VBytes [195; 169])]; VNone; VList [VInt 1; VBool true]] in
  Forall packable parts /\
  (j <- jwt_init [(lit "alg", VStr (lit "none"))];; r <- pack j parts VNone;; u <- unpack (VStr (fst r));; Ok (tl (j_part u)))
  = Ok [VBytes [195; 169; 226; 130; 172]; VBytes [255]; VBytes ([123; 34; 97; 34; 58; 34] ++ lit "\u00e9" ++ [34; 125]); VBytes (lit "null"); VBytes (lit "[1,true]")] /\
  (j <- jwt_init [(lit "alg", VStr (lit "none"))];; pack j [VBytes []; VInt 5] VNone) = Raise ETypeError.
Proof.
  cbv zeta. split; [|split; vm_compute; reflexivity].
  repeat constructor; try reflexivity; [exists (VDict [(lit "a", VStr [233])])|exists VNone|exists (VList [VInt 1; VBool true])]; split; reflexivity.
Qed.

(** C151 the constructor: the headers given, alg recorded as null when missing or false; one segment, which is the
    encoded header. *)
Theorem C151_constructor : forall d j, jwt_init d = Ok j -> exists h t seg, j_headers j = VDict h /\
  (forall k, dget h k = if zs_eqb (lit "alg") k then Some (alg_or_null d) else dget d k) /\
  j_b64 j = [seg] /\ j_part j = [VBytes t] /\ b64d seg = Ok t /\
  (exists v s, b2s_conv (VDict h) = Ok v /\ dumps false v = Ok s /\ utf8_encode s = Ok t /\ (jsonable v = true -> loads s = Ok v)).
Proof. exact jwt_init_ok. Qed.
Print Assumptions C151_constructor.
Theorem C151_succeeds : forall d d', b2s_conv (VDict d) = Ok (VDict d') -> jsonable (VDict d') = true -> exists j, jwt_init d = Ok j.
Proof. exact jwt_init_total. Qed.
Print Assumptions C151_succeeds.
Theorem C151_pack : forall d j h, jwt_init d = Ok j -> exists seg, j_b64 j = [seg] /\ pack j [] h = Ok (seg, j).
Proof. exact jwt_init_pack. Qed.
Print Assumptions C151_pack.
Example C151_ex :
  (j <- jwt_init [(lit "alg", VStr []); (lit "typ", VStr (lit "JWT"))];; Ok (j_headers j)) = Ok (VDict [(lit "alg", VNone); (lit "typ", VStr (lit "JWT"))]) /\
  (j <- jwt_init [(lit "typ", VStr (lit "JWT"))];; Ok (j_headers j)) = Ok (VDict [(lit "typ", VStr (lit "JWT")); (lit "alg", VNone)]) /\
  (j <- jwt_init [(lit "alg", VStr (lit "HS256"))];; r <- pack j [] VNone;; Ok (fst r)) = Ok (lit "eyJhbGciOiJIUzI1NiJ9").
Proof. vm_compute. repeat split; reflexivity. Qed.
