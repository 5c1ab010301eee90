(** * JWE: encryption succeeds, and JWE with RSA *)
From Coq Require Import ZArith List Bool Lia.
From Verif Require Import Base BaseProofs Utf8 Codec CodecProofs Json JsonProofs Jwt JwtProofs Prims Elliptic Ecc KeyWrap KeyWrapProofs Extra ExtraProofs Gcm PvalEq Jwk JwkProofs JwkProofs2 Jws JwsProofs JwsProofs2 JwsProofs3 JwsProofs4 JwsProofs6 Jwe JweProofs JweProofs2 JweProofs3.
Import ListNotations.
Open Scope Z_scope.

Lemma jwenc_ok : forall h alg, jsonable (VDict h) = true -> dget h (lit "alg") = Some alg -> truthy alg = true ->
  exists j he, jwenc h false = Ok j /\ j_headers j = VDict h /\ b64encode_item (VDict h) = Ok he /\ bytes_ok he = true.
Proof.
  intros h alg J A T. destruct (encode_header h h (b2s_id _ J) J) as (t & _ & TA & _ & E). apply allp_ascii, ascii_bytes in TA. unfold jwenc, jwt_init. rewrite A, T, E. cbn [bind].
  rewrite b64d_b64e by exact TA. cbn [bind]. eexists _, _. do 3 (split; [reflexivity|]). apply (header_ascii h). exact E.
Qed.

Lemma pack_five_ok : forall j h ek ekb iv ct tag he, j_headers j = VDict h -> h <> [] -> octets_ek ek ekb -> b64encode_item (VDict h) = Ok he ->
  forallb bytes_ok [ekb; iv; ct; tag] = true -> exists tok j', pack j [ek; VBytes iv; VBytes ct; VBytes tag] VNone = Ok (tok, j').
Proof.
  intros j h ek ekb iv ct tag he H N E HE B. rewrite (pack_items j h _ H N) by discriminate. rewrite HE. cbn [bind].
  assert (EE : b64encode_item ek = Ok (b64e ekb)) by (destruct E as [-> |[-> ->]]; reflexivity).
  assert (MM : mapM b64encode_item [ek; VBytes iv; VBytes ct; VBytes tag] = Ok (map b64e [ekb; iv; ct; tag])) by (cbn [mapM]; rewrite EE; reflexivity).
  rewrite MM. cbn [bind]. change (mapM utf8_decode (he :: ?l)) with (x <- utf8_decode he;; y <- mapM utf8_decode l;; Ok (x :: y)).
  destruct (header_ascii _ _ HE) as (A & _). rewrite utf8_decode_ascii by exact A. cbn [bind]. rewrite mapM_utf8_ascii by (apply b64e_all_ascii; exact B). cbn [bind]. eexists _, _. reflexivity.
Qed.

(** What the caller may pass as content key and IV: nothing, or octets of the right number. *)
Definition sized (b : bytes) (n : nat) : Prop := b = [] \/ (length b = n /\ bytes_ok b = true).
Lemma generate_sized : forall R e kl il cek iv, draws_ok R -> enc_sizes e = Some (kl, il) -> sized cek kl -> sized iv il ->
  exists k v, generate_key_and_iv R (VStr e) cek iv = Ok (k, v) /\ length k = kl /\ length v = il /\ bytes_ok k = true /\ bytes_ok v = true.
Proof.
  intros R e kl il cek iv D S C I. destruct (generate_known R e kl il cek iv D S) as (k & v & G & G1 & G2 & G3 & G4). exists k, v. split; [exact G|].
  assert (NZ : kl <> 0%nat /\ il <> 0%nat).
  { unfold enc_sizes in S. repeat match type of S with (if ?b then _ else _) = _ => destruct b; [injection S as <- <-; split; discriminate|] end. discriminate. }
  assert (K : length k = kl /\ bytes_ok k = true) by (destruct C as [->|[L B]]; [apply G2; reflexivity|rewrite (G1 ltac:(intros ->; cbn in L; lia)); split; assumption]).
  assert (V : length v = il /\ bytes_ok v = true) by (destruct I as [->|[L B]]; [apply G4; reflexivity|rewrite (G3 ltac:(intros ->; cbn in L; lia)); split; assumption]).
  tauto.
Qed.
Lemma sizes_pos : forall e kl il, enc_sizes e = Some (kl, il) -> (0 < kl <= 64)%nat /\ (0 < il)%nat /\ (kl mod 8 = 0)%nat.
Proof. intros e kl il S. unfold enc_sizes in S. repeat match type of S with (if ?b then _ else _) = _ => destruct b; [injection S as <- <-; repeat split; cbn; lia|] end. discriminate. Qed.

(** The header segment is not astronomically large. *)
Definition header_small (h : dict) : Prop := forall he, b64encode_item (VDict h) = Ok he -> Z.of_nat (length he) < 2 ^ 61.

Section Total.
Variables (P : prims) (R : draws).
Hypotheses (AES : aes_law P) (HM : hmac_law P) (HL : hash_law P) (DR : draws_ok R).

Theorem sym_encrypts : forall w a e kl il t m keys k kid cek iv kw s kk, In a KW_ALGS -> dget (w_dict w) (lit "alg") = Some (VStr a) -> dget (w_dict w) (lit "enc") = Some (VStr e) ->
  enc_sizes e = Some (kl, il) -> w_jwk w = None -> w_msg w = VStr t -> utf8_encode t = Ok m -> Z.of_nat (length m) <= 16 * 2 ^ 32 ->
  json_args w SYM_ARGS -> jsonable (k_kid k) = true -> (forall v, kw = Some v -> jsonable v = true) -> header_small (kid_dict kw (named_dict k (sub_dict w SYM_ARGS))) ->
  kid_in_force (as_jws w) = Ok kid -> first_fit (suitable (lit "oct") kid (VStr (lit "enc")) (VStr a)) keys k ->
  k_data k = DSym (VBytes s) kk -> bytes_ok s = true -> s <> [] -> sized cek kl -> sized iv il ->
  exists tok, jwe_encrypt P R w (Some keys) cek iv kw = Ok (tok, w_set w (lit "cek") VNone).
Proof.
  intros w a e kl il t m keys k kid cek iv kw s kk IA AL EN SZ NJ MT U LM JA JK JKW HS KI FF KD SB SN CS IS.
  destruct (kw_alg a IA) as (KT & FA & NN & TR & n & IN & KLN).
  unfold jwe_encrypt. unfold dict_get at 1. rewrite AL. cbn [bind].
  destruct (pick_first P w keys (VStr (lit "enc")) (VStr []) (VStr a) (lit "oct") kid k AL NN KT KI FF) as [JKY (r & PK)].
  rewrite JKY. cbn [bind]. rewrite PK. cbn [bind]. rewrite FA. cbn [bind]. cbv zeta. rewrite NJ, MT.
  change (if truthy (k_kid k) then dset (sub_dict w SYM_ARGS) (lit "kid") (k_kid k) else sub_dict w SYM_ARGS) with (named_dict k (sub_dict w SYM_ARGS)).
  assert (JH : jsonable (VDict (kid_dict kw (named_dict k (sub_dict w SYM_ARGS)))) = true) by (apply kid_json; [apply named_json; [apply sub_dict_json; [left; reflexivity|exact JA]|exact JK]|exact JKW]).
  unfold key_material. rewrite KD. destruct (enc_key_ok P k s kk a n HL KD SB SN) as (b & EK & LB & BB & _); [cbn [In] in *; tauto|]. rewrite EK. cbn [bind].
  unfold sym_encrypt. cbv zeta. change (match kw with Some v => dset (named_dict k (sub_dict w SYM_ARGS)) (lit "kid") v | None => named_dict k (sub_dict w SYM_ARGS) end) with (kid_dict kw (named_dict k (sub_dict w SYM_ARGS))).
  assert (HA : dget (kid_dict kw (named_dict k (sub_dict w SYM_ARGS))) (lit "alg") = Some (VStr a)) by (rewrite kid_get, named_get by ne; apply sub_dict_alg; [exact AL|reflexivity]).
  destruct (jwenc_ok _ _ JH HA TR) as (j & he & -> & JHD & HE & BH). cbn [bind]. unfold dict_get. rewrite kid_get, named_get, sub_dict_get by (ne || (repeat split; ne) || reflexivity). rewrite EN. cbn [bind].
  destruct (generate_sized R e kl il cek iv DR SZ CS IS) as (ck & vk & -> & L1 & L2 & B1 & B2). cbn [bind as_secret].
  destruct (sizes_pos _ _ _ SZ) as (K1 & K2 & K3).
  assert (KS : aes_keysize b = true) by (unfold aes_keysize; rewrite LB; cbn [In] in IN; repeat (destruct IN as [IN|IN]; [injection IN as _ <-; reflexivity|]); destruct IN).
  destruct (wrap_unwrap P b AES KS BB ck B1) as (ek & -> & BW & _ & _); [rewrite L1; lia|rewrite L1; exact K3|]. cbn [bind]. rewrite U. cbn [bind]. rewrite JHD, HE. cbn [bind].
  destruct (content_total P AES R e kl il m he ck vk SZ L1 L2 B1 B2 (utf8_encode_ok _ _ U) BH LM) as (ct & tag & ES & _); [specialize (HS he HE); lia|].
  rewrite ES. cbn [bind]. assert (NC : ck <> []) by (intros ->; cbn in L1; lia). assert (NI : vk <> []) by (intros ->; cbn in L2; lia).
  destruct (content_ok P AES HM R (VStr e) m he ck vk ct tag ck NC NI B1 B2 (utf8_encode_ok _ _ U) BH ES) as [B3 B4].
  destruct (pack_five_ok j _ (VBytes ek) ek vk ct tag he JHD) as (tok & j' & ->); [intro X; rewrite X in HA; discriminate|left; reflexivity|exact HE|cbn [forallb]; rewrite BW, B2, B3, B4; reflexivity|].
  cbn [bind]. exists tok. reflexivity.
Qed.
End Total.

(** ** RSA *)
Lemma headers_get : forall d jser m names, m <> lit "jwk" -> dget (headers_loop d jser names) m =
  if existsb (zs_eqb m) names then match dget d m with Some v => if truthy v then Some v else None | None => None end else None.
Proof.
  intros d jser m names N. induction names as [|n names IH]; [reflexivity|]. cbn [headers_loop existsb].
  destruct (zs_eqb m n) eqn:E.
  - apply zs_eqb_eq in E. subst n. cbn [orb]. rewrite (proj2 (zs_eqb_neq _ _) N). destruct (dget d m) as [v|] eqn:D; [destruct (truthy v) eqn:T|].
    + cbn [dget]. rewrite zs_eqb_refl. reflexivity.
    + rewrite IH, ?T. destruct (existsb (zs_eqb m) names); reflexivity.
    + rewrite IH. destruct (existsb (zs_eqb m) names); reflexivity.
  - cbn [orb]. assert (X : forall (v : pval) l, dget ((n, v) :: l) m = dget l m) by (intros; cbn [dget]; rewrite zs_eqb_sym, E; reflexivity).
    destruct (if zs_eqb n (lit "jwk") then jser else None); [rewrite X; exact IH|]. destruct (dget d n) as [v|]; [destruct (truthy v)|]; rewrite ?X; exact IH.
Qed.

Lemma headers_keys : forall d jser names n, In n (map fst (headers_loop d jser names)) -> In n names.
Proof.
  intros d jser names. induction names as [|n names IH]; intros x I; [destruct I|]. cbn [headers_loop] in I.
  destruct (if zs_eqb n (lit "jwk") then jser else None); [cbn [map fst In] in I; destruct I as [<-|I]; [left; reflexivity|right; apply IH; exact I]|].
  destruct (dget d n) as [v|]; [destruct (truthy v); [cbn [map fst In] in I; destruct I as [<-|I]; [left; reflexivity|]|]|]; right; apply IH; exact I.
Qed.
Lemma dmem_In : forall A (d : list (ustr * A)) k, dmem d k = true <-> In k (map fst d).
Proof.
  intros A d k. unfold dmem. induction d as [|[n v] d IH]; [split; [discriminate|intros []]|]. cbn [dget map fst In]. destruct (zs_eqb n k) eqn:E.
  - apply zs_eqb_eq in E. split; [left; exact E|reflexivity].
  - rewrite IH. apply zs_eqb_neq in E. tauto.
Qed.
Lemma headers_json : forall d jser names, nodup_keys (map (fun n => (n, tt)) names) = true -> (forall n, In n names -> scalars n = true) ->
  (forall n v, In n names -> dget d n = Some v -> jsonable v = true) -> (forall s, jser = Some s -> jsonable s = true) -> jsonable (VDict (headers_loop d jser names)) = true.
Proof.
  intros d jser names. induction names as [|n names IH]; intros ND S V J; [reflexivity|]. cbn [map nodup_keys] in ND. apply andb_true_iff in ND. destruct ND as [N1 N2].
  assert (NI : forall x, dmem (headers_loop d x names) n = false).
  { intro x. destruct (dmem (headers_loop d x names) n) eqn:E; [|reflexivity]. exfalso. apply dmem_In in E. apply headers_keys in E. apply negb_true_iff in N1.
    assert (X : dmem (map (fun n => (n, tt)) names) n = true) by (apply dmem_In; rewrite map_map; apply in_map_iff; exists n; split; [reflexivity|exact E]). congruence. }
  specialize (IH N2 (fun x I => S x (or_intror I)) (fun x v I => V x v (or_intror I)) J).
  assert (X : forall v, jsonable v = true -> jsonable (VDict ((n, v) :: headers_loop d jser names)) = true).
  { intros v JV. cbn [jsonable] in *. apply andb_true_iff in IH. destruct IH as [I1 I2]. cbn [nodup_keys forallb fst snd]. rewrite NI, I1, I2, JV, (S n (or_introl eq_refl)). reflexivity. }
  cbn [headers_loop]. destruct (if zs_eqb n (lit "jwk") then jser else None) as [s|] eqn:E; [apply X; apply J; destruct (zs_eqb n (lit "jwk")); [exact E|discriminate]|].
  destruct (dget d n) as [v|] eqn:D; [destruct (truthy v); [apply X; apply (V n v (or_introl eq_refl) D)|exact IH]|exact IH].
Qed.

Definition RSA_ALGS : list ustr := [lit "RSA-OAEP"; lit "RSA-OAEP-256"; lit "RSA1_5"].
Lemma rsa_alg : forall a, In a RSA_ALGS -> alg2keytype (VStr a) = Ok (Some (lit "RSA")) /\ family_of (VStr a) = Ok FRsa /\ pval_eqb (VStr a) (VStr (lit "none")) = false /\ truthy (VStr a) = true /\
  exists s, rsa_scheme (VStr a) = Some s.
Proof. intros a I. unfold RSA_ALGS in I. cbn [In] in I. repeat (destruct I as [<-|I]; [repeat split; eexists; reflexivity|]). destruct I. Qed.

Section Rsa.
Variables (P : prims) (R : draws).

(** zip=DEF or no zip parameter. *)
(** The octets a message stands for: UTF-8 of text, bytes as they are, nothing for a list or dictionary without items. *)
Definition msg_octets (m : pval) : res bytes := match m with VStr t => utf8_encode t | VBytes b => Ok b | VList [] | VDict [] => Ok [] | _ => Raise ETypeError end.
Lemma msg_octets_ok : forall m p, msg_octets m = Ok p -> (forall b, m = VBytes b -> bytes_ok b = true) -> bytes_ok p = true.
Proof.
  intros m p H B. destruct m as [| | | |t|b|[|]|[|]]; try discriminate H; try (injection H as <-; reflexivity); [exact (utf8_encode_ok _ _ H)|].
  apply Ok_inj in H. subst p. apply B. reflexivity.
Qed.
Lemma any_inv : forall enc m aad cek iv r, enc_setup_any P R enc m aad cek iv = Ok r -> exists p, (m = VBytes p \/ (p = [] /\ no_items m = true)) /\ enc_setup P R enc p aad cek iv = Ok r.
Proof.
  intros enc m aad cek iv r H. destruct (match m with VBytes _ => true | _ => false end) eqn:B; [destruct m as [| | | | |s| |]; try discriminate B; exists s; split; [left; reflexivity|exact H]|].
  assert (E : (if in_texts enc GCM_ENCS && no_items m then enc_setup P R enc [] aad cek iv
      else
        ' (key, iv) <- generate_key_and_iv R enc cek iv;;
        if in_texts enc GCM_ENCS then
          g <- gcm_new P (be2z key);;
          if negb (be2z iv <? 2 ^ 96) then Raise EInvalidInputException else Raise ETypeError
        else if in_texts enc CBC_ENCS then _ <- get_keys_seclen_dgst key iv;; Raise ETypeError
        else Raise ENotSupportedAlgorithm) = Ok r) by (destruct m; try discriminate B; exact H).
  clear H. destruct (in_texts enc GCM_ENCS && no_items m) eqn:N.
  - exists []. split; [right; split; [reflexivity|apply andb_prop in N; tauto]|exact E].
  - exfalso. destruct (generate_key_and_iv R enc cek iv) as [[key iv0]|]; [|discriminate E]. cbn [bind] in E. destruct (in_texts enc GCM_ENCS).
    + destruct (gcm_new P (be2z key)); [|discriminate E]. cbn [bind] in E. destruct (negb _) in E; discriminate E.
    + destruct (in_texts enc CBC_ENCS); [|discriminate E]. destruct (get_keys_seclen_dgst key iv0); discriminate E.
Qed.
Lemma msg_bytes_octets : forall msg v p, msg_bytes msg = Ok v -> v = VBytes p \/ (p = [] /\ no_items v = true) -> msg_octets msg = Ok p.
Proof.
  intros msg v p H O. destruct msg as [| | | |t|b|l|l]; cbn [msg_bytes] in H; try (apply Ok_inj in H; subst v); try (destruct O as [O|[_ O]]; discriminate O).
  - destruct (utf8_encode t) as [b|] eqn:U; [|discriminate H]. cbn [bind] in H. apply Ok_inj in H. subst v. destruct O as [O|[_ O]]; [injection O as ->; exact U|discriminate O].
  - destruct O as [O|[_ O]]; [injection O as ->; reflexivity|discriminate O].
  - destruct O as [O|[-> O]]; [discriminate O|]. destruct l; [reflexivity|discriminate O].
  - destruct O as [O|[-> O]]; [discriminate O|]. destruct l; [reflexivity|discriminate O].
Qed.

Definition zipped (d : dict) (p m : bytes) : Prop :=
  (dget d (lit "zip") = None /\ m = p) \/ (dget d (lit "zip") = Some (VStr (lit "DEF")) /\ m = p_compress P p).

Lemma rsa_inv : draws_ok R -> forall d jobj eobj msg key cek iv tok c alg, bytes_ok cek = true -> bytes_ok iv = true ->
  rsa_jwe_encrypt P R d jobj eobj msg key cek iv = Ok (tok, c) -> dget d (lit "alg") = Some alg -> truthy alg = true ->
  exists p m enc iv' ek h he ct tag, eobj = None /\ msg_octets msg = Ok p /\ zipped d p m /\ dget d (lit "enc") = Some enc /\ generate_key_and_iv R enc cek iv = Ok (c, iv') /\
    headers d jobj JWE_ARGS = Ok h /\
    ((cek <> [] /\ ek = []) \/ (cek = [] /\ exists s k, rsa_scheme alg = Some s /\ as_rsa key = Ok k /\ rsa_encrypt P false s k (r_pad R) c = Ok ek)) /\
    produced P R alg enc m h he ek iv' ct tag c tok.
Proof.
  intros D d jobj eobj msg key cek iv tok c alg BC BI H A T. unfold rsa_jwe_encrypt in H.
  destruct (msg_bytes msg) as [mv0|] eqn:MB; [|discriminate]. cbn [bind] in H.
  match type of H with (x <- ?z;; _) = _ => destruct z as [mv|] eqn:Z; [|discriminate] end. cbn [bind] in H.
  unfold dict_get in H. destruct (dget d (lit "enc")) as [enc|] eqn:E; [|discriminate]. cbn [bind] in H.
  destruct (generate_key_and_iv R enc cek iv) as [[cek' iv']|] eqn:G; [|discriminate]. cbn [bind] in H. rewrite A in H. cbn [bind] in H.
  destruct (if negb (is_nil cek) then Ok (VStr []) else _) as [ek|] eqn:K; [|discriminate]. cbn [bind] in H.
  destruct (headers d jobj JWE_ARGS) as [h|] eqn:HD; [|discriminate]. cbn [bind] in H.
  assert (SUP : in_texts enc SUPPORTED_ENC = true -> truthy enc = true) by (intro X; apply in_texts_In in X; destruct X as (x & I & ->); cbn [In SUPPORTED_ENC] in I; repeat (destruct I as [<-|I]; [reflexivity|]); destruct I).
  assert (HG : forall n v, n <> lit "jwk" -> existsb (zs_eqb n) JWE_ARGS = true -> dget d n = Some v -> truthy v = true -> dget h n = Some v).
  { intros n v N I DN TN. unfold headers in HD. destruct (match jobj with Some k => _ | None => _ end) as [jser|]; [|discriminate]. cbn [bind] in HD.
    assert (HH : headers_loop d jser JWE_ARGS = h) by (destruct (dget d (lit "kid")) as [[]|]; try discriminate; exact (Ok_inj _ _ _ HD)).
    rewrite <- HH, headers_get by exact N. rewrite I, DN, TN. reflexivity. }
  assert (HA : dget h (lit "alg") = Some alg) by (apply HG; [ne|reflexivity|exact A|exact T]).
  destruct (jwenc h _) as [j|] eqn:J in H; [|discriminate]. cbn [bind] in H. destruct (jwenc_inv _ _ _ J) as [O JH]; [rewrite HA; exact T|]. rewrite JH in H.
  destruct (b64encode_item (VDict h)) as [he|] eqn:HE; [|discriminate]. cbn [bind] in H.
  destruct (enc_setup_any P R enc mv he cek' iv') as [[[ct tag] k]|] eqn:SA; [|discriminate]. cbn [bind] in H.
  destruct (any_inv _ _ _ _ _ _ SA) as (m & MM & S).
  assert (MP : exists p, msg_octets msg = Ok p /\ zipped d p m).
  { unfold zipped. destruct (dget d (lit "zip")) as [z|]; [|apply Ok_inj in Z; subst mv; exists m; split; [exact (msg_bytes_octets _ _ _ MB MM)|left; split; reflexivity]].
    destruct (pval_eqb z (VStr (lit "DEF"))) eqn:EZ; [|discriminate Z]. apply eqb_str_r in EZ. subst z. destruct mv0 as [| | | | |b| |]; try discriminate Z. apply Ok_inj in Z. subst mv.
    exists b. split; [apply (msg_bytes_octets _ _ _ MB); left; reflexivity|]. right. split; [reflexivity|]. destruct MM as [X|[_ X]]; [injection X as <-; reflexivity|discriminate X]. }
  destruct MP as (p & MO & ZZ).
  destruct (generate_ok R D _ _ _ _ _ BC BI G) as (G1 & G2 & _). destruct (enc_setup_key _ _ _ _ _ _ _ _ _ _ S G1 G2) as [-> SE].
  destruct (pack j _ VNone) as [[tok' j']|] eqn:PK; [|discriminate]. cbn [bind] in H. apply Ok_inj in H. apply pair_equal_spec in H. destruct H as [-> ->].
  assert (EK : exists ekb, octets_ek ek ekb /\ ((cek <> [] /\ ekb = []) \/ (cek = [] /\ exists s k, rsa_scheme alg = Some s /\ as_rsa key = Ok k /\ rsa_encrypt P false s k (r_pad R) c = Ok ekb))).
  { destruct cek as [|x cek]; cbn [is_nil negb] in K.
    - destruct (rsa_scheme alg) as [s|]; [|discriminate]. destruct (as_rsa key) as [rk|]; [|discriminate]. cbn [bind] in K. destruct (rsa_encrypt P false s rk (r_pad R) c) as [e|] eqn:RE; [|discriminate].
      cbn [bind] in K. apply Ok_inj in K. subst ek. exists e. split; [left; reflexivity|]. right. split; [reflexivity|]. exists s, rk. repeat split; assumption.
    - apply Ok_inj in K. subst ek. exists []. split; [right; split; reflexivity|]. left. split; [discriminate|reflexivity]. }
  destruct EK as (ekb & OE & EK).
  destruct (pack_five j h ek ekb iv' ct tag tok j' JH) as (he' & HE' & SG); [intro X; rewrite X in HA; discriminate|exact OE|exact PK|].
  rewrite HE in HE'. apply Ok_inj in HE'. subst he'.
  exists p, m, enc, iv', ekb, h, he, ct, tag. split; [destruct eobj; [discriminate|reflexivity]|]. do 6 (split; [first [assumption|reflexivity]|]). constructor; try assumption.
  apply HG; [ne|reflexivity|exact E|apply SUP; exact SE].
Qed.
End Rsa.
