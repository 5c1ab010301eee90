(** * Properties C269 and later *)
From Coq Require Import ZArith List Bool Lia.
From Verif Require Import Base BaseProofs Codec CodecProofs B64Num B64Exact Json Jwt Prims Inst Jwk Jws JwsProofs2 JwsEx JwkEx Jwe JweEx TokTexts TokTexts2.
Import ListNotations.
Open Scope Z_scope.

(** ** C269: the octet strings b64d decodes, and what it raises for the others *)
Theorem C269_decodes : forall b d, b64d b = Ok d <->
  exists x nl k, b = x ++ nl ++ repeat 61 k /\ Forall url_char x /\ (nl = [] \/ nl = [10] /\ k <> O) /\
    (let r := Z.of_nat (length x) mod 4 in r = 0 \/ 2 <= r /\ (k = O \/ 4 <= r + Z.of_nat k)) /\
    d = (let n := Z.of_nat (length x) in z2be (Z.to_nat (6 * n / 8)) (number64 (digits64 x) / 2 ^ (6 * n mod 8))).
Proof. exact b64d_exactly. Qed.
Print Assumptions C269_decodes.
Theorem C269_refuses : forall b, b64d b = Raise EBadSyntax <->
  (forall x nl k, Forall url_char x -> nl = [] \/ nl = [10] -> b <> x ++ nl ++ repeat 61 k) \/
  exists x nl, b = x ++ nl /\ Forall url_char x /\ (nl = [] \/ nl = [10]) /\ Z.of_nat (length b) mod 4 = 1.
Proof. exact b64d_bad_syntax. Qed.
Print Assumptions C269_refuses.
Theorem C269_raises : forall b e, b64d b = Raise e -> e = EBadSyntax \/ e = EBinasciiError.
Proof. exact b64d_raises. Qed.
Print Assumptions C269_raises.
Example C269_ex : b64d (lit "aGk") = Ok (lit "hi") /\ b64d (lit "aGk=====") = Ok (lit "hi") /\ b64d (lit "aGk" ++ [10; 61]) = Ok (lit "hi") /\ number64 (digits64 (lit "aGk")) / 2 ^ 2 = 26729 /\ z2be 2 26729 = lit "hi" /\
  b64d (lit "aG=") = Raise EBinasciiError /\ b64d (lit "aGk" ++ [10]) = Raise EBinasciiError /\ b64d (lit "aGlhb") = Raise EBadSyntax /\ b64d (lit "aGlh=") = Ok (lit "hia") /\ b64d (lit "aG=k") = Raise EBadSyntax.
Proof. vm_compute. repeat split. Qed.

(** ** C270: how many texts an octet string has *)
Theorem C270_texts : forall d, bytes_ok d = true -> exists l, NoDup l /\
  Z.of_nat (length l) = (if Z.of_nat (length d) mod 3 =? 0 then 1 else if Z.of_nat (length d) mod 3 =? 1 then 16 else 4) /\
  (forall b, ~ In 61 b /\ b64d b = Ok d <-> In b l).
Proof. exact texts. Qed.
Print Assumptions C270_texts.
Example C270_ex : map b64d [lit "aGg"; lit "aGh"; lit "aGi"; lit "aGj"] = repeat (Ok (lit "hh")) 4 /\ b64d (lit "aGk") = Ok (lit "hi") /\ b64d (lit "aQ") = Ok (lit "i") /\ b64d (lit "af") = Ok (lit "i") /\ b64d (lit "ag") = Ok (lit "j").
Proof. vm_compute. repeat split. Qed.

(** ** C271: the texts of a signature *)
Theorem C271_same_octets : forall P s keys an sigalg h p x x' bh bp b token token',
  token = VStr (h ++ 46 :: p ++ 46 :: x) \/ token = VBytes (h ++ 46 :: p ++ 46 :: x) -> token' = VStr (h ++ 46 :: p ++ 46 :: x') \/ token' = VBytes (h ++ 46 :: p ++ 46 :: x') ->
  b64d h = Ok bh -> b64d p = Ok bp -> b64d x = Ok b -> b64d x' = Ok b ->
  snd (verify_compact P s token keys an sigalg) = snd (verify_compact P s token' keys an sigalg).
Proof. exact same_octets. Qed.
Print Assumptions C271_same_octets.
Theorem C271_texts : forall P, hmac_law P -> forall s k an sigalg token s' m ko j h p x sg d a hh,
  verify_compact P s token (Some [k]) an sigalg = (s', Ok (m, ko)) -> presented token j h p x sg d -> dget d (lit "alg") = Some (VStr a) -> In (a, hh) hs_algs ->
  (forall secret, get_key k false = Ok (MObj (OVal (VBytes secret))) -> bytes_ok secret = true) ->
  exists l, NoDup l /\ length l = (match hh with SHA384 => 1 | SHA512 => 16 | _ => 4 end)%nat /\
    forall y token', token' = VStr (h ++ 46 :: p ++ 46 :: y) \/ token' = VBytes (h ++ 46 :: p ++ 46 :: y) ->
      (~ In 61 y /\ (exists r, snd (verify_compact P s token' (Some [k]) an sigalg) = Ok r) <-> In y l).
Proof. exact hs_texts. Qed.
Print Assumptions C271_texts.
Example C271_ex : exists l, NoDup l /\ length l = 4%nat /\
  (forall y, ~ In 61 y /\ (exists r, snd (verify_compact std new_jws (VStr (ex_h ++ 46 :: ex_p ++ 46 :: y)) (Some [ex_key]) false VNone) = Ok r) <-> In y l) /\ In ex_sig l /\ In ex_sig2 l.
Proof.
  destruct (verify_compact std new_jws (VStr ex_tok) (Some [ex_key]) false VNone) as [s' r] eqn:V. pose proof ex_verified as R. rewrite V in R. cbn [snd] in R. subst r.
  assert (D : b64d ex_sig = b64d ex_sig2) by (vm_compute; reflexivity). destruct (b64d ex_sig) as [sg|] eqn:SG; [|vm_compute in SG; discriminate SG].
  destruct (unpack (VStr ex_tok)) as [j|] eqn:U; [|vm_compute in U; discriminate U].
  assert (Pr : presented (VStr ex_tok) j ex_h ex_p ex_sig sg [(lit "alg", VStr (lit "HS256"))]).
  { constructor; [left; reflexivity| |vm_compute; reflexivity|exact SG|exact U|vm_compute in U; injection U as <-; reflexivity].
    repeat split; intro I; vm_compute in I; repeat (destruct I as [I|I]; [discriminate I|]); exact I. }
  destruct (C271_texts std std_hmac_law _ _ _ _ _ _ _ _ _ _ _ _ _ _ _ SHA256 V Pr eq_refl (or_introl eq_refl)) as (l & ND & L & TX).
  { intros secret G. vm_compute in G. injection G as <-. reflexivity. }
  exists l. split; [exact ND|]. split; [exact L|]. split; [intro y; exact (TX y _ (or_introl eq_refl))|].
  assert (N : forall y, y = ex_sig \/ y = ex_sig2 -> ~ In 61 y) by (intros y [-> | ->] I; vm_compute in I; repeat (destruct I as [I|I]; [discriminate I|]); exact I).
  split; apply (TX _ _ (or_introl eq_refl)); (split; [apply N; auto|]); eexists; [exact ex_verified|exact ex_verified2].
Qed.

(** ** C272: the texts of an encrypted token *)
Theorem C272_same_segments : forall P sent w keys alg cek h segs segs' bh ps token token',
  token = VStr (join 46 (h :: segs)) \/ token = VBytes (join 46 (h :: segs)) -> token' = VStr (join 46 (h :: segs')) \/ token' = VBytes (join 46 (h :: segs')) ->
  segs <> [] -> b64d h = Ok bh -> mapM b64d segs = Ok ps -> mapM b64d segs' = Ok ps ->
  jwe_decrypt P sent w token keys alg cek = jwe_decrypt P sent w token' keys alg cek.
Proof. exact same_segments. Qed.
Print Assumptions C272_same_segments.
Theorem C272_texts : forall P sent w keys alg cek h before x after bh bb b ba, b64d h = Ok bh -> mapM b64d before = Ok bb -> b64d x = Ok b -> mapM b64d after = Ok ba ->
  exists l, NoDup l /\ Z.of_nat (length l) = (if Z.of_nat (length b) mod 3 =? 0 then 1 else if Z.of_nat (length b) mod 3 =? 1 then 16 else 4) /\
    (forall y, ~ In 61 y /\ b64d y = Ok b <-> In y l) /\
    forall y, In y l -> jwe_decrypt P sent w (VStr (join 46 (h :: before ++ y :: after))) keys alg cek = jwe_decrypt P sent w (VStr (join 46 (h :: before ++ x :: after))) keys alg cek.
Proof. exact segment_texts. Qed.
Print Assumptions C272_texts.
(** The token of C51_ex_kw with other unused bits in its ciphertext (16 octets) and tag (16 octets). *)
Example C272_ex : let other := lit "eyJhbGciOiJBMTI4S1ciLCJlbmMiOiJBMTI4Q0JDLUhTMjU2In0.YXKWeRohnePgTsRcBEkSqrFYCEvK9m6lBzzkQuQGpDN_OKJ9tcMj4w.AwQFBgcICQoLDA0ODxAREg.VL72dJesGL2C8CU8CN3B8W.QchCDfj82vyaZukrpn4ZZP" in
  other <> kw_tok /\ forall sent, jwe_decrypt std sent new_jwe (VBytes other) (Some [raw_sym (lit "secret")]) VNone [] = Ok (lit "hi", w_set new_jwe (lit "cek") VNone).
Proof.
  split; [intro X; vm_compute in X; discriminate X|]. intro sent. rewrite <- (kw_opens sent).
  destruct (mapM b64d (tl (split 46 kw_tok))) as [ps|] eqn:E; [|vm_compute in E; discriminate E]. destruct (b64d (hd [] (split 46 kw_tok))) as [bh|] eqn:Eh; [|vm_compute in Eh; discriminate Eh].
  apply (C272_same_segments std sent new_jwe (Some [raw_sym (lit "secret")]) VNone [] (hd [] (split 46 kw_tok))
    [lit "YXKWeRohnePgTsRcBEkSqrFYCEvK9m6lBzzkQuQGpDN_OKJ9tcMj4w"; lit "AwQFBgcICQoLDA0ODxAREg"; lit "VL72dJesGL2C8CU8CN3B8W"; lit "QchCDfj82vyaZukrpn4ZZP"] (tl (split 46 kw_tok)) bh ps);
    [right; vm_compute; reflexivity|left; vm_compute; reflexivity|discriminate|exact Eh| |exact E]. rewrite <- E. vm_compute. reflexivity.
Qed.
