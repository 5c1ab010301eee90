(** * Properties of the text formats: JSON, UTF-8, and what the package does with them (C243-C251). *)
From Coq Require Import ZArith List Bool Lia.
From Verif Require Import Base BaseProofs Codec CodecProofs Utf8 Json JsonProofs Prims Jwt JwtProofs Jwk Jws JsonGrammar TextProofs TextProofs2.
Import ListNotations.
Open Scope Z_scope.

(** C243 *)
Theorem C243_json_accepts : forall s v, loads s = Ok v <-> json_text s v.
Proof. exact loads_grammar. Qed.
Print Assumptions C243_json_accepts.
Theorem C243_json_refuses : forall s, loads s = Raise EJSONDecodeError <-> forall v, ~ json_text s v.
Proof. exact loads_refuses. Qed.
Print Assumptions C243_json_refuses.
Theorem C243_json_written : forall sp v, jsonable v = true -> exists t, dumps sp v = Ok t /\ json_text t v.
Proof. intros sp v J. destruct (loads_dumps sp v J) as (t & D & _ & L). exists t. split; [exact D|]. apply loads_grammar. exact L. Qed.
Print Assumptions C243_json_written.
Example C243_ex :
  json_text ([9; 32] ++ lit "{ ""a"" : [ -12 , 1.50e+3, true ] }" ++ [13; 10]) (VDict [(lit "a", VList [VInt (-12); VFloat (lit "1.50e+3"); VBool true])]) /\
  json_text (lit """\uD83D\ude00\u00e9\n""") (VStr [128512; 233; 10]) /\ (forall v, ~ json_text (lit "01") v) /\ (forall v, ~ json_text (lit "[1,]") v) /\ (forall v, ~ json_text (11 :: lit "1") v).
Proof.
  split; [apply loads_grammar; vm_compute; reflexivity|]. split; [apply loads_grammar; vm_compute; reflexivity|]. split; [|split]; apply loads_refuses; vm_compute; reflexivity.
Qed.

(** C244 *)
Theorem C244_last_member : forall w t ms w' k v, wsp w -> wsp w' -> members t ms ->
  exists d, loads (123 :: w ++ t ++ 125 :: w') = Ok (VDict d) /\
    (dget d k = Some v <-> exists l r, ms = l ++ (k, v) :: r /\ ~ In k (map fst r)) /\ nodup_keys d = true.
Proof.
  intros w t ms w' k v W W' M. exists (object ms). assert (L : loads (123 :: w ++ t ++ 125 :: w') = Ok (VDict (object ms))).
  { apply loads_grammar. exists [], (123 :: w ++ t ++ [125]), w'. split; [cbn [app]; rewrite <- !app_assoc; reflexivity|]. split; [constructor|]. split; [exact W'|]. apply jv_obj; assumption. }
  split; [exact L|]. split; [apply object_last|]. apply loads_vwf in L. cbn [vwf] in L. apply andb_true_iff in L. apply L.
Qed.
Print Assumptions C244_last_member.
Example C244_ex : exists t ms, members t ms /\ t = lit """alg"":""none"",""alg"":""HS256""" /\ object ms = [(lit "alg", VStr (lit "HS256"))].
Proof.
  exists (lit """alg"":""none"",""alg"":""HS256"""), [(lit "alg", VStr (lit "none")); (lit "alg", VStr (lit "HS256"))]. split; [|split; vm_compute; reflexivity].
  assert (P : forall s, forallb (fun c => negb (c =? 34) && negb (c =? 92) && (32 <=? c)) s = true -> chars s s).
  { induction s as [|c s IH]; intro F; [constructor|]. cbn [forallb] in F. apply andb_true_iff in F as [F1 F2]. apply ch_plain; [lia|lia|lia|exact (IH F2)]. }
  assert (V : forall s, forallb (fun c => negb (c =? 34) && negb (c =? 92) && (32 <=? c)) s = true -> jvalue (34 :: s ++ [34]) (VStr s)) by (intros s F; apply jv_str, P, F).
  apply (me_more (lit "alg") (lit "alg") [] [] (34 :: lit "none" ++ [34]) (VStr (lit "none")) [] [] (lit """alg"":""HS256""")); try (apply V; reflexivity); try (apply P; reflexivity); try apply Forall_nil.
  apply (me_one (lit "alg") (lit "alg") [] [] (34 :: lit "HS256" ++ [34]) (VStr (lit "HS256")) []); try (apply V; reflexivity); try (apply P; reflexivity); try apply Forall_nil.
Qed.

(** C245 *)
Theorem C245_utf8_encode : forall s, (forall b, utf8_encode s = Ok b <-> utf8_text b s) /\ (forall e, utf8_encode s = Raise e <-> e = EUnicodeEncodeError /\ ~ Forall scalar s).
Proof. intro s. split; [apply utf8_encode_text|apply utf8_encode_fails]. Qed.
Print Assumptions C245_utf8_encode.
Theorem C245_utf8_decode : forall b, bytes_ok b = true -> (forall s, utf8_decode b = Ok s <-> utf8_text b s) /\ (forall e, utf8_decode b = Raise e <-> e = EUnicodeDecodeError /\ forall s, ~ utf8_text b s).
Proof. intros b B. split; intro; [apply utf8_decode_text|apply utf8_decode_fails]; exact B. Qed.
Print Assumptions C245_utf8_decode.
Example C245_ex : utf8_text [36; 194; 162; 226; 130; 172; 240; 159; 152; 128] [36; 162; 8364; 128512] /\ (forall s, ~ utf8_text [237; 160; 128] s) /\ (forall s, ~ utf8_text [192; 128] s) /\ ~ scalar 55296.
Proof.
  split; [apply utf8_encode_text; vm_compute; reflexivity|]. assert (N : forall b, bytes_ok b = true -> utf8_decode b = Raise EUnicodeDecodeError -> forall s, ~ utf8_text b s) by (intros b B D; apply (utf8_decode_fails b EUnicodeDecodeError B); exact D).
  split; [apply N; vm_compute; reflexivity|]. split; [apply N; vm_compute; reflexivity|]. unfold scalar. lia.
Qed.

(** C246 *)
Theorem C246_as_unicode : forall v,
  (forall b s, v = VBytes b -> bytes_ok b = true -> utf8_text b s -> as_unicode v = VStr s) /\
  (forall b, v = VBytes b -> bytes_ok b = true -> (forall s, ~ utf8_text b s) -> as_unicode v = v) /\
  ((forall b, v <> VBytes b) -> as_unicode v = v).
Proof. exact as_unicode_exact. Qed.
Print Assumptions C246_as_unicode.
Theorem C246_as_bytes : forall v,
  (forall s b, v = VStr s -> utf8_text b s -> as_bytes v = Ok (VBytes b)) /\
  (forall s, v = VStr s -> (exists c, In c s /\ ~ scalar c) -> as_bytes v = Raise EUnicodeEncodeError) /\
  ((forall s, v <> VStr s) -> as_bytes v = Ok v).
Proof. exact as_bytes_exact. Qed.
Print Assumptions C246_as_bytes.
Example C246_ex : as_unicode (VBytes [195; 169]) = VStr [233] /\ as_unicode (VBytes [233]) = VBytes [233] /\ as_bytes (VStr [233]) = Ok (VBytes [195; 169]) /\ as_bytes (VStr [55296]) = Raise EUnicodeEncodeError /\ as_bytes (VInt 3) = Ok (VInt 3).
Proof. vm_compute. repeat split; reflexivity. Qed.

(** C247 *)
Theorem C247_b64_text : forall s t, b64d_enc_dec s = Ok t <-> Forall (fun c => 0 <= c < 128) s /\ exists b, b64d s = Ok b /\ utf8_text b t.
Proof. exact b64d_text_exact. Qed.
Print Assumptions C247_b64_text.
Example C247_ex : b64d_enc_dec (lit "w6k") = Ok [233] /\ b64d_enc_dec (lit "6Q") = Raise EUnicodeDecodeError /\ b64d_enc_dec [233] = Raise EUnicodeEncodeError.
Proof. vm_compute. repeat split; reflexivity. Qed.

(** C248 *)
Theorem C248_json_of_bytes : forall b s v, utf8_text b s -> json_text s v -> loads_bytes b = Ok v.
Proof. exact loads_bytes_utf8. Qed.
Print Assumptions C248_json_of_bytes.
Theorem C248_json_of_bytes_refuted : exists b s v, utf8_text b s /\ loads_bytes b = Ok v /\ forall v', ~ json_text s v'.
Proof.
  exists [49; 0], [49; 0], (VInt 1). split; [apply utf8_encode_text; vm_compute; reflexivity|]. split; [vm_compute; reflexivity|]. apply loads_refuses. vm_compute. reflexivity.
Qed.
Print Assumptions C248_json_of_bytes_refuted.
Example C248_ex : utf8_text (lit "[""" ++ [195; 169] ++ lit """]") (lit "[""" ++ [233] ++ lit """]") /\ json_text (lit "[""" ++ [233] ++ lit """]") (VList [VStr [233]]).
Proof. split; [apply utf8_encode_text|apply loads_grammar]; vm_compute; reflexivity. Qed.

(** C249 *)
Theorem C249_unpack_exact : forall token u,
  unpack token = Ok u <->
   exists parts ps s, token_octets token (join 46 parts) /\ (2 <= length parts)%nat /\ (forall p, In p parts -> ~ In 46 p) /\
     Forall2 (fun p q => b64d p = Ok q) parts ps /\ utf8_text (hd [] ps) s /\ json_text s (j_headers u) /\
     j_b64 u = parts /\ j_part u = map VBytes ps.
Proof. exact unpack_exact. Qed.
Print Assumptions C249_unpack_exact.
Example C249_ex : unpack (VStr (lit "eyJhbGciOiJub25lIn0.w6k")) =
  Ok {| j_headers := VDict [(lit "alg", VStr (lit "none"))]; j_b64 := [lit "eyJhbGciOiJub25lIn0"; lit "w6k"]; j_part := [VBytes (lit "{""alg"":""none""}"); VBytes [195; 169]] |}.
Proof. vm_compute. reflexivity. Qed.

(** C250 *)
Theorem C250_factory_odd : forall t u, unpack (VStr t) = Ok u ->
  (odd_header (j_headers u) -> factory (VStr t) = Raise ETypeError) /\
  (~ odd_header (j_headers u) -> exists o, factory (VStr t) = Ok o).
Proof. exact factory_odd. Qed.
Print Assumptions C250_factory_odd.
Example C250_ex :
  (exists u, unpack (VStr (lit "ImFsZ29yaXRobSI.e30")) = Ok u /\ j_headers u = VStr (lit "algorithm")) /\ factory (VStr (lit "ImFsZ29yaXRobSI.e30")) = Raise ETypeError /\
  factory (VStr (lit "NQ.e30")) = Raise ETypeError /\ factory (VStr (lit "ImFsIg.e30")) = Ok None.
Proof. split; [eexists; split; [vm_compute; reflexivity|reflexivity]|]. vm_compute. repeat split; reflexivity. Qed.

(** C251 *)
Theorem C251_payload_cty : forall u d p, j_headers u = VDict d -> nth_error (j_part u) 1 = Some p ->
  match dget d (lit "cty") with
  | None => payload u = payload {| j_headers := VDict []; j_b64 := j_b64 u; j_part := j_part u |}
  | Some (VStr c) =>
      (lower c = lit "jwt" -> payload u = payload {| j_headers := VDict []; j_b64 := j_b64 u; j_part := j_part u |}) /\
      (lower c <> lit "jwt" -> payload u = Ok (as_unicode p))
  | Some (VBytes _) => payload u = Ok (as_unicode p)
  | Some _ => payload u = Raise EAttributeError
  end.
Proof. exact payload_cty. Qed.
Print Assumptions C251_payload_cty.
Example C251_ex :
  let u c := {| j_headers := VDict [(lit "cty", c)]; j_b64 := []; j_part := [VNone; VBytes (lit "7")] |} in
  payload (u (VStr (lit "JWT"))) = Ok (VInt 7) /\ payload (u (VBytes (lit "JWT"))) = Ok (VStr (lit "7")) /\ payload (u (VStr (lit "text/plain"))) = Ok (VStr (lit "7")) /\ payload (u VNone) = Raise EAttributeError.
Proof. vm_compute. repeat split; reflexivity. Qed.
