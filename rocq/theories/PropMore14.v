(** * C275: what the length of an encrypted token says about the message *)
From Coq Require Import ZArith List Bool Lia.
From Verif Require Import Base Utf8 Codec Json Jwt Prims Inst Extra ExtraProofs Ecc Jwk JwkEx Jws Jwe JweProofs JweProofs6 JweMsg JweEx HeaderProofs JweProofs8 JweProofs2 JweProofs4 BaseProofs Lengths PropMore9.
Import ListNotations.
Open Scope Z_scope.

Definition cbc_three : list ustr := [lit "A128CBC-HS256"; lit "A192CBC-HS384"; lit "A256CBC-HS512"].
(** The octets a message stands for. *)
Definition message_octets (v : pval) (p : bytes) : Prop := v = VBytes p \/ (exists t, v = VStr t /\ utf8_encode t = Ok p) \/ ((v = VList [] \/ v = VDict []) /\ p = []).
(** The three RSA algorithms compress the message if the instance has the parameter zip; the others never do. *)
Definition plaintext (P : prims) (w : jwe) (m : bytes) : Prop := exists a p, dget (w_dict w) (lit "alg") = Some (VStr a) /\ message_octets (w_msg w) p /\
  (In a [lit "RSA1_5"; lit "RSA-OAEP"; lit "RSA-OAEP-256"] -> (dget (w_dict w) (lit "zip") = None /\ m = p) \/ (dget (w_dict w) (lit "zip") = Some (VStr (lit "DEF")) /\ m = p_compress P p)) /\
  (~ In a [lit "RSA1_5"; lit "RSA-OAEP"; lit "RSA-OAEP-256"] -> m = p).

Theorem C275_lengths : forall P R, aes_law P -> hmac_law P -> hash_law P -> draws_ok R -> (forall b, bytes_ok b = true -> bytes_ok (p_compress P b) = true) ->
  forall w keys cek iv kw tok w', bytes_ok cek = true -> bytes_ok iv = true ->
  (forall b, w_msg w = VBytes b -> bytes_ok b = true) -> (forall b, dget (w_dict w) (lit "cek") = Some (VBytes b) -> bytes_ok b = true) ->
  jwe_encrypt P R w keys cek iv kw = Ok (tok, w') ->
  exists enc m (ck : bytes) e i c t, dget (w_dict w) (lit "enc") = Some (VStr enc) /\ plaintext P w m /\
    (cek = [] -> dget (w_dict w) (lit "cek") = None -> forall kl, In (enc, kl) [(lit "A128GCM", 16); (lit "A192GCM", 24); (lit "A256GCM", 32); (lit "A128CBC-HS256", 32); (lit "A192CBC-HS384", 48); (lit "A256CBC-HS512", 64)]%nat -> length ck = kl) /\
    tok = join 46 [seg tok 0; e; i; c; t] /\
    ((In enc gcm_three /\ Z.of_nat (length c) = (4 * Z.of_nat (length m) + 2) / 3 /\ 2 <= Z.of_nat (length t) <= 22) \/
     (In enc cbc_three /\ Z.of_nat (length c) = (4 * (16 * (Z.of_nat (length m) / 16 + 1)) + 2) / 3 /\ In (length ck, Z.of_nat (length t)) [(32%nat, 22); (48%nat, 32); (64%nat, 43)])).
Proof.
  intros P R AES HM HL DR CP w keys cek iv kw tok w' BC BI BM CO H.
  destruct (message_length P R AES HM HL DR w keys cek iv kw tok w' BC BI BM CO CP H) as (enc & m & ck & e & i & c & t & EN & (a & p & AL & MO & ZZ) & SZ & TK & L).
  assert (X : exists n, enc = VStr n) by (destruct L as [(I & _)|(I & _)]; destruct enc; try discriminate I; eexists; reflexivity). destruct X as [n ->].
  exists n, m, ck, e, i, c, t. split; [exact EN|]. split; [|split; [|split; [exact TK|]]].
  - exists a, p. split; [exact AL|]. assert (MM : message_octets (w_msg w) p).
    { unfold message_octets. destruct (w_msg w) as [| | | |s|b|l|d] eqn:EM; cbn [msg_octets] in MO; try discriminate MO.
      all: try (destruct l; [|discriminate MO]); try (destruct d; [|discriminate MO]); try (apply Ok_inj in MO; subst p); eauto 8. }
    split; [exact MM|]. split; intro I.
    + destruct ZZ as [Z0|[(_ & F & _)|(Z0 & _ & Z1)]]; [left; exact Z0| |right; split; assumption]. exfalso. cbn [In] in I. destruct I as [<-|[<-|[<-|[]]]]; discriminate F.
    + destruct ZZ as [(_ & ->)|[(_ & _ & ->)|(_ & T & _)]]; try reflexivity. exfalso. apply I. unfold RSA_ALGS in T. apply existsb_exists in T. destruct T as (y & Y & E). apply zs_eqb_eq in E. subst y. cbn [In] in *. tauto.
  - intros C0 N kl I. cbn [In] in I. repeat (destruct I as [I|I]; [injection I as <- <-; eapply (SZ C0 N); [reflexivity|reflexivity]|]). destruct I.
  - assert (TL : forall x y, In x [32; 48; 64]%nat -> y = (4 * (Z.of_nat x / 2) + 2) / 3 -> In (x, y) [(32%nat, 22); (48%nat, 32); (64%nat, 43)]) by (intros x y I ->; cbn [In] in I; destruct I as [<-|[<-|[<-|[]]]]; vm_compute; tauto).
    destruct L as [(I & L)|(I & L & L2 & L3)]; [left; split; [|exact L]|right; split; [|split; [exact L|apply TL; assumption]]]; unfold in_texts in I; apply existsb_exists in I; destruct I as (y & Y & E); apply zs_eqb_eq in E; subst y; exact Y.
Qed.
Print Assumptions C275_lengths.
(** So the third segment after the header tells how long the plaintext is: exactly with GCM, up to the block of 16 octets with CBC. *)
Theorem C275_read_off : forall P R, aes_law P -> hmac_law P -> hash_law P -> draws_ok R -> (forall b, bytes_ok b = true -> bytes_ok (p_compress P b) = true) ->
  forall w keys cek iv kw tok w', bytes_ok cek = true -> bytes_ok iv = true ->
  (forall b, w_msg w = VBytes b -> bytes_ok b = true) -> (forall b, dget (w_dict w) (lit "cek") = Some (VBytes b) -> bytes_ok b = true) ->
  jwe_encrypt P R w keys cek iv kw = Ok (tok, w') ->
  exists enc m e i c t, dget (w_dict w) (lit "enc") = Some (VStr enc) /\ plaintext P w m /\ tok = join 46 [seg tok 0; e; i; c; t] /\
    (In enc gcm_three -> Z.of_nat (length m) = 3 * Z.of_nat (length c) / 4) /\
    (In enc cbc_three -> (16 | 3 * Z.of_nat (length c) / 4) /\ 3 * Z.of_nat (length c) / 4 - 16 <= Z.of_nat (length m) < 3 * Z.of_nat (length c) / 4).
Proof.
  intros P R AES HM HL DR CP w keys cek iv kw tok w' BC BI BM CO H.
  destruct (C275_lengths P R AES HM HL DR CP w keys cek iv kw tok w' BC BI BM CO H) as (enc & m & ck & e & i & c & t & EN & PT & _ & TK & L).
  exists enc, m, e, i, c, t. split; [exact EN|]. split; [exact PT|]. split; [exact TK|].
  assert (N : forall n, 0 <= n -> 3 * ((4 * n + 2) / 3) / 4 = n) by (intros n N0; Z.to_euclidean_division_equations; lia).
  destruct L as [(I & L & _)|(I & L & _)]; split; intro J.
  - rewrite L, N by lia. reflexivity.
  - exfalso. unfold gcm_three in I. unfold cbc_three in J. cbn [In] in I, J. destruct I as [<-|[<-|[<-|[]]]]; destruct J as [J|[J|[J|[]]]]; discriminate J.
  - exfalso. unfold cbc_three in I. unfold gcm_three in J. cbn [In] in I, J. destruct I as [<-|[<-|[<-|[]]]]; destruct J as [J|[J|[J|[]]]]; discriminate J.
  - rewrite L, N by (pose proof (Z.div_pos (Z.of_nat (length m)) 16); lia). split; [exists (Z.of_nat (length m) / 16 + 1); lia|].
    pose proof (Z.div_mod (Z.of_nat (length m)) 16 ltac:(lia)). pose proof (Z.mod_pos_bound (Z.of_nat (length m)) 16 ltac:(lia)). lia.
Qed.
Print Assumptions C275_read_off.
(** The message is "hi"; 22 characters stand for one block of 16 octets. *)
Example C275_ex : jwe_encrypt std ex_draws kw_jwe (Some [raw_sym (lit "secret")]) [] [] None = Ok (kw_tok, w_set kw_jwe (lit "cek") VNone) /\ w_msg kw_jwe = VStr (lit "hi") /\
  dget (w_dict kw_jwe) (lit "enc") = Some (VStr (lit "A128CBC-HS256")) /\ map (fun i => length (seg kw_tok i)) [2; 3; 4]%nat = [22; 22; 22]%nat.
Proof. split; [exact kw_made|]. vm_compute. repeat split. Qed.
