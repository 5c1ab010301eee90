(** * Tokens produced by JWE: the five segments, and how they are read *)
From Coq Require Import ZArith List Bool Lia.
From Verif Require Import Base BaseProofs Utf8 Codec CodecProofs Json JsonProofs Jwt JwtProofs Prims Elliptic Ecc KeyWrap KeyWrapProofs Extra ExtraProofs Gcm PvalEq Jwk JwkProofs Jws JwsProofs JwsProofs2 JwsProofs3 JwsProofs4 JwsProofs6 Jwe JweProofs.
Import ListNotations.
Open Scope Z_scope.

(** [tok] is header . encrypted key . iv . ciphertext . tag, the plaintext [m] being encrypted under [cek] and [iv] with
    the text of the header segment as associated data. *)
Record produced (P : prims) (R : draws) (alg enc : pval) (m : bytes) (hd : dict) (he ek iv ct tag cek : bytes) (tok : ustr) : Prop := {
  pd_alg : dget hd (lit "alg") = Some alg;
  pd_enc : dget hd (lit "enc") = Some enc;
  pd_header : b64encode_item (VDict hd) = Ok he;
  pd_content : enc_setup P R enc m he cek iv = Ok (ct, tag, cek);
  pd_segments : exists ts, mapM utf8_decode [b64e ek; b64e iv; b64e ct; b64e tag] = Ok ts /\ tok = join 46 (he :: ts)
}.

(** ** The header segment *)
Lemma header_octets : forall d he, b64encode_item (VDict d) = Ok he -> exists u, he = b64e u /\ bytes_ok u = true.
Proof.
  intros d he H. unfold b64encode_item in H. destruct (b2s_conv (VDict d)) as [v|]; [|discriminate]. cbn [bind] in H. destruct (dumps false v) as [t|]; [|discriminate].
  cbn [bind] in H. destruct (utf8_encode t) as [u|] eqn:U; [|discriminate]. cbn [bind] in H. apply Ok_inj in H. exists u. split; [congruence|]. exact (utf8_encode_ok _ _ U).
Qed.
Lemma header_ascii : forall d he, b64encode_item (VDict d) = Ok he -> ascii he = true /\ ~ In 46 he /\ bytes_ok he = true.
Proof.
  intros d he H. destruct (header_octets d he H) as (u & -> & B). assert (A : ascii (b64e u) = true) by (apply b64e_ascii; exact B).
  split; [exact A|]. split; [|apply ascii_bytes; exact A]. apply (b64e_all_no_dot [u]); [cbn [forallb]; rewrite B; reflexivity|left; reflexivity].
Qed.

Lemma split_first : forall a r, ~ In 46 a -> hd [] (split 46 (a ++ 46 :: r)) = a.
Proof.
  induction a as [|c a IH]; intros r N; [reflexivity|]. cbn [app split]. destruct (c =? 46) eqn:E; [apply Z.eqb_eq in E; subst c; exfalso; apply N; left; reflexivity|].
  specialize (IH r (fun X => N (or_intror X))). destruct (split 46 (a ++ 46 :: r)) as [|x l]; cbn [hd] in *; congruence.
Qed.

(** C50, the producing side. *)
Lemma produced_first : forall P R alg enc m h he ek iv ct tag cek tok, produced P R alg enc m h he ek iv ct tag cek tok -> hd [] (split 46 tok) = he.
Proof.
  intros P R alg enc m h he ek iv ct tag cek tok [_ _ H _ (ts & T & ->)]. destruct (header_ascii _ _ H) as (_ & N & _).
  cbn [mapM] in T. repeat (match type of T with context [bind ?x _] => destruct x; cbn [bind] in T; [|discriminate] end). apply Ok_inj in T. subst ts.
  cbn [join]. apply split_first. exact N.
Qed.

Lemma produced_token : forall P R alg enc m h he ek iv ct tag cek tok hd', produced P R alg enc m h he ek iv ct tag cek tok ->
  forallb bytes_ok [ek; iv; ct; tag] = true -> b2s_conv (VDict h) = Ok (VDict hd') -> jsonable (VDict hd') = true ->
  exists t, he = b64e t /\ forall token, token = VStr tok \/ token = VBytes tok ->
    truthy token = true /\ unpack token = Ok {| j_headers := VDict hd'; j_b64 := map b64e [t; ek; iv; ct; tag]; j_part := map VBytes [t; ek; iv; ct; tag] |}.
Proof.
  intros P R alg enc m h he ek iv ct tag cek tok hd' [_ _ H _ (ts & T & ->)] B C J. destruct (header_encoded _ _ _ H C J) as (t & -> & A & L). exists t. split; [reflexivity|].
  change [b64e ek; b64e iv; b64e ct; b64e tag] with (map b64e [ek; iv; ct; tag]) in T. rewrite mapM_utf8_ascii in T by (apply b64e_all_ascii; exact B). apply Ok_inj in T. subst ts.
  change (join 46 (b64e t :: map b64e [ek; iv; ct; tag])) with (mk_token t [ek; iv; ct; tag]).
  destruct (unpack_mk_token t (VDict hd') [ek; iv; ct; tag] A L B ltac:(discriminate)) as [U1 U2].
  assert (NE : exists c r, mk_token t [ek; iv; ct; tag] = c :: r) by (unfold mk_token; cbn [map join]; destruct (b64e t); eexists _, _; reflexivity).
  intros token [->| ->]; (split; [destruct NE as (c & r & ->); reflexivity|assumption]).
Qed.

(** ** jwenc and pack *)
Lemma jwenc_inv : forall h o j, jwenc h o = Ok j -> match dget h (lit "alg") with Some v => truthy v | None => false end = true ->
  o = false /\ j_headers j = VDict h.
Proof.
  intros h o j H A. unfold jwenc in H. destruct o; [discriminate|]. split; [reflexivity|]. unfold jwt_init in H. rewrite A in H.
  destruct (b64encode_item (VDict h)) as [e|]; [|discriminate]. cbn [bind] in H. destruct (b64d e); [|discriminate]. cbn [bind] in H. injection H as <-. reflexivity.
Qed.

Definition octets_ek (v : pval) (b : bytes) : Prop := v = VBytes b \/ (v = VStr [] /\ b = []).

Lemma pack_five : forall j h ek ekb iv ct tag tok j', j_headers j = VDict h -> h <> [] -> octets_ek ek ekb ->
  pack j [ek; VBytes iv; VBytes ct; VBytes tag] VNone = Ok (tok, j') ->
  exists he, b64encode_item (VDict h) = Ok he /\ exists ts, mapM utf8_decode [b64e ekb; b64e iv; b64e ct; b64e tag] = Ok ts /\ tok = join 46 (he :: ts).
Proof.
  intros j h ek ekb iv ct tag tok j' H N E K. rewrite (pack_items j h _ H N) in K by discriminate.
  destruct (b64encode_item (VDict h)) as [he|] eqn:HE; [|discriminate]. exists he. split; [reflexivity|]. cbn [bind] in K.
  assert (EE : b64encode_item ek = Ok (b64e ekb)) by (destruct E as [-> |[-> ->]]; reflexivity).
  assert (MM : mapM b64encode_item [ek; VBytes iv; VBytes ct; VBytes tag] = Ok [b64e ekb; b64e iv; b64e ct; b64e tag]) by (cbn [mapM]; rewrite EE; reflexivity).
  rewrite MM in K. cbn [bind] in K. change (mapM utf8_decode (he :: ?l)) with (x <- utf8_decode he;; y <- mapM utf8_decode l;; Ok (x :: y)) in K.
  destruct (header_ascii _ _ HE) as (A & _). rewrite utf8_decode_ascii in K by exact A. cbn [bind] in K.
  destruct (mapM utf8_decode [b64e ekb; b64e iv; b64e ct; b64e tag]) as [ts|]; [|discriminate]. cbn [bind] in K. exists ts. split; [reflexivity|]. injection K as <- _. reflexivity.
Qed.

(** ** The dictionaries *)
Lemma take_kw_get : forall kw objs m names acc, m <> lit "x5c" -> m <> lit "crit" -> in_names m objs = false ->
  dget (take_kw kw objs names acc) m = if existsb (zs_eqb m) names then match dget kw m with Some v => Some v | None => if zs_eqb m (lit "alg") then Some (VStr (lit "none")) else dget acc m end else dget acc m.
Proof.
  intros kw objs m names. induction names as [|n names IH]; intros acc N1 N2 O; [reflexivity|]. cbn [take_kw existsb]. rewrite IH by assumption. clear IH.
  destruct (zs_eqb m n) eqn:E.
  - apply zs_eqb_eq in E. subst n. rewrite O. cbn [orb]. rewrite (proj2 (zs_eqb_neq _ _) N1), (proj2 (zs_eqb_neq _ _) N2). cbn [orb].
    destruct (dget kw m) as [v|] eqn:D; [rewrite dget_dset_same; destruct (existsb (zs_eqb m) names); reflexivity|].
    destruct (zs_eqb m (lit "alg")) eqn:A; [rewrite dget_dset_same|]; destruct (existsb (zs_eqb m) names); reflexivity.
  - cbn [orb]. apply zs_eqb_neq, not_eq_sym in E.
    assert (X : dget (if in_names n objs then acc else match dget kw n with None => if zs_eqb n (lit "alg") then dset acc n (VStr (lit "none")) else acc
         | Some v => if zs_eqb n (lit "x5c") || zs_eqb n (lit "crit") then dset acc (lit "x5c") (if truthy v then v else VList []) else dset acc n v end) m = dget acc m).
    { destruct (in_names n objs); [reflexivity|]. destruct (dget kw n) as [v|]; [destruct (zs_eqb n (lit "x5c") || zs_eqb n (lit "crit"))|destruct (zs_eqb n (lit "alg"))]; try rewrite dget_dset_other by (exact E || (apply not_eq_sym; assumption)); reflexivity. }
    destruct (existsb (zs_eqb m) names); [|exact X]. destruct (dget kw m); [reflexivity|]. destruct (zs_eqb m (lit "alg")); [reflexivity|exact X].
Qed.

(** JSON values throughout. *)
Lemma take_kw_json : forall kw objs names acc, (forall n v, In n names -> dget kw n = Some v -> jsonable v = true) -> (forall n, In n names -> scalars n = true) ->
  jsonable (VDict acc) = true -> jsonable (VDict (take_kw kw objs names acc)) = true.
Proof.
  intros kw objs names. induction names as [|n names IH]; intros acc V S J; [exact J|]. cbn [take_kw]. apply IH; [intros; eapply V; [right; eassumption|assumption]|intros; apply S; right; assumption|].
  destruct (in_names n objs); [exact J|]. destruct (dget kw n) as [v|] eqn:D.
  - specialize (V n v (or_introl eq_refl) D). destruct (zs_eqb n (lit "x5c") || zs_eqb n (lit "crit")).
    + apply jsonable_dset; [exact J|reflexivity|]. destruct (truthy v); [exact V|reflexivity].
    + apply jsonable_dset; [exact J|apply S; left; reflexivity|exact V].
  - destruct (zs_eqb n (lit "alg")); [|exact J]. apply jsonable_dset; [exact J|apply S; left; reflexivity|reflexivity].
Qed.

(** The header parameters of the instance are JSON values. *)
Definition json_args (w : jwe) (args : list ustr) : Prop := forall n v, In n args -> dget (w_dict w) n = Some v -> jsonable v = true.

Lemma args_scalars : forall n, In n SYM_ARGS \/ In n JWE_ARGS -> scalars n = true.
Proof. intros n [I|I]; repeat (destruct I as [<-|I]; [reflexivity|]); destruct I. Qed.

Lemma sub_dict_json : forall w args, args = SYM_ARGS \/ args = JWE_ARGS -> json_args w args -> jsonable (VDict (sub_dict w args)) = true.
Proof.
  intros w args A J. unfold sub_dict. assert (S : forall n, In n args -> scalars n = true) by (intros n I; apply args_scalars; destruct A as [-> | ->]; auto).
  assert (X : forall objs, jsonable (VDict (take_kw (w_dict w) objs args [])) = true) by (intro; apply take_kw_json; [exact J|exact S|reflexivity]).
  destruct (w_dict w), (w_jwk w), (w_epk w); try reflexivity; apply X.
Qed.

Definition plain_name (m : ustr) : Prop := m <> lit "x5c" /\ m <> lit "crit" /\ m <> lit "jwk" /\ m <> lit "epk".
Lemma sub_dict_get : forall w args m, plain_name m -> m <> lit "alg" -> existsb (zs_eqb m) args = true -> dget (sub_dict w args) m = dget (w_dict w) m.
Proof.
  intros w args m (N1 & N2 & N3 & N4) NA I. unfold sub_dict.
  assert (X : forall objs, in_names m objs = false -> dget (take_kw (w_dict w) objs args []) m = dget (w_dict w) m).
  { intros objs O. rewrite take_kw_get by assumption. rewrite I, (proj2 (zs_eqb_neq _ _) NA). destruct (dget (w_dict w) m); reflexivity. }
  assert (O : forall a b, in_names m ((match a : option jwk with Some _ => [lit "jwk"] | None => [] end) ++ match b : option jwk with Some _ => [lit "epk"] | None => [] end) = false).
  { intros a b. destruct a, b; unfold in_names; cbn [app existsb]; rewrite ?(proj2 (zs_eqb_neq _ _) N3), ?(proj2 (zs_eqb_neq _ _) N4); reflexivity. }
  destruct (w_dict w) eqn:W, (w_jwk w) eqn:J, (w_epk w) eqn:E; try reflexivity; rewrite <- W in *; apply X; first [apply (O (Some j) (Some j0))|apply (O (Some j) None)|apply (O None (Some j))|apply (O None None)].
Qed.
Lemma sub_dict_none : forall w args m, plain_name m -> m <> lit "alg" -> existsb (zs_eqb m) args = false -> dget (sub_dict w args) m = None.
Proof.
  intros w args m (N1 & N2 & N3 & N4) NA I. unfold sub_dict.
  assert (X : forall objs, in_names m objs = false -> dget (take_kw (w_dict w) objs args []) m = None).
  { intros objs O. rewrite take_kw_get by assumption. rewrite I. reflexivity. }
  assert (O : forall a b, in_names m ((match a : option jwk with Some _ => [lit "jwk"] | None => [] end) ++ match b : option jwk with Some _ => [lit "epk"] | None => [] end) = false).
  { intros a b. destruct a, b; unfold in_names; cbn [app existsb]; rewrite ?(proj2 (zs_eqb_neq _ _) N3), ?(proj2 (zs_eqb_neq _ _) N4); reflexivity. }
  destruct (w_dict w) eqn:W, (w_jwk w) eqn:J, (w_epk w) eqn:E; try reflexivity; rewrite <- W in *; apply X; first [apply (O (Some j) (Some j0))|apply (O (Some j) None)|apply (O None (Some j))|apply (O None None)].
Qed.
Lemma sub_dict_alg : forall w args v, dget (w_dict w) (lit "alg") = Some v -> existsb (zs_eqb (lit "alg")) args = true -> dget (sub_dict w args) (lit "alg") = Some v.
Proof.
  intros w args v D I. unfold sub_dict.
  assert (X : forall objs, in_names (lit "alg") objs = false -> dget (take_kw (w_dict w) objs args []) (lit "alg") = Some v).
  { intros objs O. rewrite take_kw_get by (assumption || ne). rewrite I, D. reflexivity. }
  destruct (w_dict w) eqn:W; [discriminate|]. rewrite <- W in *. apply X. destruct (w_jwk w), (w_epk w); reflexivity.
Qed.

(** The kid of the key, jwe.py:824-825, and of the keyword arguments. *)
Definition named_dict (key : jwk) (d : dict) : dict := if truthy (k_kid key) then dset d (lit "kid") (k_kid key) else d.
Definition kid_dict (kid : option pval) (d : dict) : dict := match kid with Some v => dset d (lit "kid") v | None => d end.
Lemma named_get : forall key d m, m <> lit "kid" -> dget (named_dict key d) m = dget d m.
Proof. intros key d m N. unfold named_dict. destruct (truthy (k_kid key)); [apply dget_dset_other; apply not_eq_sym; exact N|reflexivity]. Qed.
Lemma kid_get : forall kid d m, m <> lit "kid" -> dget (kid_dict kid d) m = dget d m.
Proof. intros kid d m N. destruct kid; [apply dget_dset_other; apply not_eq_sym; exact N|reflexivity]. Qed.
Lemma named_json : forall key d, jsonable (VDict d) = true -> jsonable (k_kid key) = true -> jsonable (VDict (named_dict key d)) = true.
Proof. intros key d J K. unfold named_dict. destruct (truthy (k_kid key)); [apply jsonable_dset; [exact J|reflexivity|exact K]|exact J]. Qed.
Lemma kid_json : forall kid d, jsonable (VDict d) = true -> (forall v, kid = Some v -> jsonable v = true) -> jsonable (VDict (kid_dict kid d)) = true.
Proof. intros [v|] d J K; [apply jsonable_dset; [exact J|reflexivity|apply K; reflexivity]|exact J]. Qed.

(** ** Choosing the key *)
Lemma picked_first : forall w kl use alg k r, pick_keys (as_jws w) kl use alg = Ok (k :: r) ->
  exists a t kid, alg_or (as_jws w) alg = Some a /\ alg2keytype a = Ok (Some t) /\ kid_in_force (as_jws w) = Ok kid /\ In (Some k) kl /\ suitable t kid use a k.
Proof. intros w kl use alg k r H. apply (pick_keys_inv _ _ _ _ _ k H). left. reflexivity. Qed.

Lemma pick_head : forall w keys k rest use alg a t kid, keys = k :: rest -> alg_or (as_jws w) alg = Some a -> pval_eqb a (VStr (lit "none")) = false -> alg2keytype a = Ok (Some t) ->
  kid_in_force (as_jws w) = Ok kid -> suitable t kid use a k ->
  exists out, pick_keys (as_jws w) (map Some keys) use alg = Ok (k :: out).
Proof.
  intros w keys k rest use alg a t kid -> A N T K S. destruct (pick_keys_spec (as_jws w) (k :: rest) use alg a t kid A N T K) as (out & O & Pk).
  inversion Pk as [|x l m Q Pr|x l m Q Pr]; subst; [eexists; exact O|contradiction].
Qed.

(** ** Encryption, inverted *)
Section Inv.
Variables (P : prims) (R : draws).

Lemma enc_setup_key : forall enc m aad cek iv ct tag k, enc_setup P R enc m aad cek iv = Ok (ct, tag, k) -> cek <> [] -> iv <> [] -> k = cek /\ in_texts enc SUPPORTED_ENC = true.
Proof.
  intros enc m aad cek iv ct tag k H C I. unfold enc_setup in H. rewrite generate_given in H by assumption. cbn [bind] in H.
  destruct (in_texts enc GCM_ENCS) eqn:G; [|destruct (in_texts enc CBC_ENCS) eqn:B; [|discriminate]].
  - destruct (gcm_new P (be2z cek)) as [g|]; [|discriminate]. cbn [bind] in H. destruct (snd (gcm_encrypt P g (be2z iv) m aad)) as [[c t]|]; [|discriminate]. cbn [bind] in H.
    apply Ok_inj in H. apply pair_equal_spec in H. split; [symmetry; apply H|]. apply in_texts_In in G. destruct G as (x & X & ->). apply in_texts_In. exists x. split; [|reflexivity].
    unfold GCM_ENCS, SUPPORTED_ENC in *. cbn [In] in *. tauto.
  - destruct (aes_cbc_hmac_encrypt P cek iv aad m) as [[c t]|]; [|discriminate]. cbn [bind] in H.
    apply Ok_inj in H. apply pair_equal_spec in H. split; [symmetry; apply H|]. apply in_texts_In in B. destruct B as (x & X & ->). apply in_texts_In. exists x. split; [|reflexivity].
    unfold CBC_ENCS, SUPPORTED_ENC in *. cbn [In] in *. tauto.
Qed.

(** Generated or given, key and IV are not empty and consist of octets. *)
Lemma generate_ok : draws_ok R -> forall enc cek iv k v, bytes_ok cek = true -> bytes_ok iv = true -> generate_key_and_iv R enc cek iv = Ok (k, v) ->
  k <> [] /\ v <> [] /\ bytes_ok k = true /\ bytes_ok v = true /\ (cek <> [] -> k = cek) /\ (iv <> [] -> v = iv) /\
  (cek = [] -> exists e kl il, enc = VStr e /\ enc_sizes e = Some (kl, il) /\ k = r_cek R kl).
Proof.
  intros D enc cek iv k v BC BI H. destruct (negb (is_nil cek) && negb (is_nil iv)) eqn:E.
  - destruct cek as [|c cek], iv as [|i iv]; try discriminate E. cbn in H. apply Ok_inj in H. apply pair_equal_spec in H. destruct H as [<- <-].
    split; [discriminate|]. split; [discriminate|]. split; [exact BC|]. split; [exact BI|]. split; [reflexivity|]. split; [reflexivity|discriminate].
  - unfold generate_key_and_iv in H. rewrite E in H. destruct enc; try discriminate. rewrite encalg_sizes in H. destruct (enc_sizes s) as [[kl il]|] eqn:S; [|discriminate].
    cbn [bind] in H. apply Ok_inj in H. apply pair_equal_spec in H. destruct H as [<- <-].
    assert (L : kl <> 0%nat /\ il <> 0%nat).
    { unfold enc_sizes in S. repeat match type of S with (if ?b then _ else _) = _ => destruct b; [injection S as <- <-; split; discriminate|] end. discriminate. }
    destruct (do_cek R D kl) as [K1 K2]. destruct (do_iv R D il) as [V1 V2].
    split; [destruct cek; [cbn [is_nil]; intro X; rewrite X in K1; cbn in K1; lia|discriminate]|].
    split; [destruct iv; [cbn [is_nil]; intro X; rewrite X in V1; cbn in V1; lia|discriminate]|].
    split; [destruct cek; assumption|]. split; [destruct iv; assumption|].
    split; [destruct cek; [congruence|reflexivity]|]. split; [destruct iv; [congruence|reflexivity]|].
    intros ->. exists s, kl, il. repeat split. exact S.
Qed.

Lemma sym_inv : draws_ok R -> forall d objs msg key cek iv kid tok alg, bytes_ok cek = true -> bytes_ok iv = true ->
  sym_encrypt P R d objs msg key cek iv kid = Ok tok -> dget d (lit "alg") = Some alg -> truthy alg = true ->
  exists t m enc cek' iv' kek ek he ct tag, objs = false /\ msg = VStr t /\ utf8_encode t = Ok m /\ dget d (lit "enc") = Some enc /\ generate_key_and_iv R enc cek iv = Ok (cek', iv') /\
    as_secret key = Ok kek /\ aes_wrap_key P kek cek' = Ok ek /\ produced P R alg enc m (kid_dict kid d) he ek iv' ct tag cek' tok.
Proof.
  intros D d objs msg key cek iv kid tok alg BC BI H A T. unfold sym_encrypt in H. cbv zeta in H. change (match kid with Some v => dset d (lit "kid") v | None => d end) with (kid_dict kid d) in H.
  assert (A' : dget (kid_dict kid d) (lit "alg") = Some alg) by (rewrite kid_get by ne; exact A).
  destruct (jwenc (kid_dict kid d) objs) as [j|] eqn:J; [|discriminate]. cbn [bind] in H. destruct (jwenc_inv _ _ _ J) as [O JH]; [rewrite A'; exact T|].
  unfold dict_get in H. rewrite kid_get in H by ne. destruct (dget d (lit "enc")) as [enc|] eqn:E; [|discriminate]. cbn [bind] in H.
  destruct (generate_key_and_iv R enc cek iv) as [[cek' iv']|] eqn:G; [|discriminate]. cbn [bind] in H.
  destruct (as_secret key) as [kek|] eqn:K; [|discriminate]. cbn [bind] in H. destruct (aes_wrap_key P kek cek') as [ek|] eqn:W; [|discriminate]. cbn [bind] in H.
  destruct msg as [| | | |t| | |]; try discriminate. destruct (utf8_encode t) as [m|] eqn:U; [|discriminate]. cbn [bind] in H. rewrite JH in H.
  destruct (b64encode_item (VDict (kid_dict kid d))) as [he|] eqn:HE; [|discriminate]. cbn [bind] in H.
  destruct (enc_setup P R enc m he cek' iv') as [[[ct tag] k]|] eqn:S; [|discriminate]. cbn [bind] in H.
  destruct (generate_ok D _ _ _ _ _ BC BI G) as (G1 & G2 & _). destruct (enc_setup_key _ _ _ _ _ _ _ _ S G1 G2) as [-> _].
  destruct (pack j _ VNone) as [[tok' j']|] eqn:PK; [|discriminate]. cbn [bind] in H. apply Ok_inj in H. subst tok'.
  destruct (pack_five j (kid_dict kid d) (VBytes ek) ek iv' ct tag tok j' JH) as (he' & HE' & SG); [intro X; rewrite X in A'; discriminate|left; reflexivity|exact PK|].
  rewrite HE in HE'. apply Ok_inj in HE'. subst he'.
  exists t, m, enc, cek', iv', kek, ek, he, ct, tag. do 7 (split; [first [assumption|reflexivity]|]). constructor; try assumption. rewrite kid_get by ne. exact E.
Qed.
End Inv.
