(** * JWE with key wrapping: what is encrypted decrypts *)
From Coq Require Import ZArith List Bool Lia.
From Verif Require Import Base BaseProofs Utf8 Codec CodecProofs Json JsonProofs Jwt JwtProofs Prims Elliptic Ecc KeyWrap KeyWrapProofs Extra ExtraProofs Gcm PvalEq Jwk JwkProofs JwkProofs2 Jws JwsProofs JwsProofs2 JwsProofs3 JwsProofs4 JwsProofs6 Jwe JweProofs JweProofs2.
Import ListNotations.
Open Scope Z_scope.

(** ** The first suitable key of a list *)
Definition first_fit {A} (Q : A -> Prop) (l : list A) (k : A) : Prop := exists pre post, l = pre ++ k :: post /\ Q k /\ Forall (fun x => ~ Q x) pre.

Lemma picks_first : forall A (Q : A -> Prop) l out k, picks Q l out -> first_fit Q l k -> exists r, out = k :: r.
Proof.
  intros A Q l out k H (pre & post & -> & K & N). revert out H. induction pre as [|x pre IH]; intros out H; cbn [app] in H.
  - inversion H as [|? ? m ? ?|]; subst; [eexists; reflexivity|contradiction].
  - inversion N as [|? ? N1 N2]; subst. inversion H; subst; [contradiction|]. apply IH; assumption.
Qed.
Lemma first_fit_ne : forall A (Q : A -> Prop) l k, first_fit Q l k -> exists x r, l = x :: r.
Proof. intros A Q l k (pre & post & -> & _). destruct pre; eexists _, _; reflexivity. Qed.

Lemma pick_first : forall P w keys use alg a t kid k, alg_or (as_jws w) alg = Some a -> pval_eqb a (VStr (lit "none")) = false -> alg2keytype a = Ok (Some t) ->
  kid_in_force (as_jws w) = Ok kid -> first_fit (suitable t kid use a) keys k ->
  jws_keys P (as_jws w) (Some keys) = Ok (map Some keys) /\ exists r, pick_keys (as_jws w) (map Some keys) use alg = Ok (k :: r).
Proof.
  intros P w keys use alg a t kid k A N T K F. split.
  - destruct (first_fit_ne _ _ _ _ F) as (x & r & ->). reflexivity.
  - destruct (pick_keys_spec (as_jws w) keys use alg a t kid A N T K) as (out & O & Pk). destruct (picks_first _ _ _ _ _ Pk F) as (r & ->). exists r. exact O.
Qed.

(** ** The parts of an unpacked token *)
Definition five (hd : dict) (t ek iv ct tag : bytes) : jwt :=
  {| j_headers := VDict hd; j_b64 := map b64e [t; ek; iv; ct; tag]; j_part := map VBytes [t; ek; iv; ct; tag] |}.

(** The algorithms of JWE_SYM that exist. *)
Definition KW_ALGS : list ustr := [lit "A128KW"; lit "A192KW"; lit "A256KW"].
Lemma kw_alg : forall a, In a KW_ALGS -> alg2keytype (VStr a) = Ok (Some (lit "oct")) /\ family_of (VStr a) = Ok FSym /\ pval_eqb (VStr a) (VStr (lit "none")) = false /\ truthy (VStr a) = true /\
  exists n, In (a, n) [(lit "A128KW", 16%nat); (lit "A192KW", 24%nat); (lit "A256KW", 32%nat)] /\ dget ALG2KEYLEN a = Some n.
Proof. intros a I. unfold KW_ALGS in I. cbn [In] in I. repeat (destruct I as [<-|I]; [repeat split; eexists; (split; [cbn [In]; eauto|reflexivity])|]). destruct I. Qed.

(** The wrapping key depends on the secret alone. *)
Lemma kek_of : forall P k a b k2, hash_law P -> In a KW_ALGS -> (forall s kk, k_data k = DSym (VBytes s) kk -> bytes_ok s = true) -> sym_encryption_key P k a = Ok (b, k2) ->
  bytes_ok b = true /\ aes_keysize b = true /\ forall k', k_data k' = k_data k -> exists k3, sym_encryption_key P k' a = Ok (b, k3).
Proof.
  intros P k a b k2 HL I B H. unfold sym_encryption_key in *. destruct (k_data k) as [| | |key kk] eqn:D; try discriminate.
  destruct (kw_alg a I) as (_ & _ & _ & _ & n & In & L). rewrite L in *.
  destruct (if truthy key then Ok key else _) as [key'|] eqn:K; [|discriminate]. cbn [bind] in H.
  destruct key' as [| | | | |s| |]; try discriminate. apply Ok_inj in H. apply pair_equal_spec in H. destruct H as [H _].
  assert (S : bytes_ok s = true).
  { destruct (truthy key); [injection K as ->; exact (B s kk eq_refl)|]. destruct (truthy kk); [|discriminate]. destruct (py_bytes kk) as [x|]; [|discriminate]. cbn [bind] in K.
    destruct (b64d x) as [y|] eqn:Y; [|discriminate]. cbn [bind] in K. injection K as <-. exact (b64d_bytes _ _ Y). }
  assert (E : b = firstn n (p_hash P SHA256 s)) by (rewrite <- H; cbn [List.In] in In; repeat (destruct In as [In|In]; [injection In as _ <-; reflexivity|]); destruct In).
  destruct (HL SHA256 s S) as [L1 L2]. split; [rewrite E; apply bytes_ok_firstn; exact L2|]. split.
  { unfold aes_keysize. rewrite E, firstn_length, L1. cbn [List.In] in In. repeat (destruct In as [In|In]; [injection In as _ <-; reflexivity|]). destruct In. }
  intros k' D'. rewrite D'. rewrite K. cbn [bind]. rewrite H. eexists. reflexivity.
Qed.

Section Sym.
Variables (P : prims) (R : draws).
Hypotheses (AES : aes_law P) (HM : hmac_law P) (HL : hash_law P) (DR : draws_ok R).

(** A content key that can be wrapped. *)
Definition wrappable (cek : bytes) : Prop := Z.of_nat (length cek) < 2 ^ 63 /\ (length cek mod 8 = 0)%nat.

Lemma generated_wrappable : forall e kl il, enc_sizes e = Some (kl, il) -> wrappable (r_cek R kl).
Proof.
  intros e kl il S. destruct (do_cek R DR kl) as [L _]. unfold wrappable. rewrite L. unfold enc_sizes in S.
  repeat match type of S with (if ?b then _ else _) = _ => destruct b; [injection S as <- <-; split; [reflexivity|reflexivity]|] end. discriminate.
Qed.

Lemma produced_opens : forall alg enc m hd he ek iv ct tag cek tok, produced P R alg enc m hd he ek iv ct tag cek tok -> jsonable (VDict hd) = true ->
  cek <> [] -> iv <> [] -> bytes_ok cek = true -> bytes_ok iv = true -> bytes_ok m = true -> bytes_ok ek = true ->
  exists t, he = b64e t /\ content_decrypt P enc cek ct (b64e t) iv tag = Ok m /\ in_texts enc SUPPORTED_ENC = true /\
    forall token, token = VStr tok \/ token = VBytes tok -> truthy token = true /\ unpack token = Ok (five hd t ek iv ct tag).
Proof.
  intros alg enc m h he ek iv ct tag cek tok PR J NC NI BC BI BM BE. destruct (header_ascii _ _ (pd_header _ _ _ _ _ _ _ _ _ _ _ _ _ PR)) as (_ & _ & BH).
  pose proof (pd_content _ _ _ _ _ _ _ _ _ _ _ _ _ PR) as C. destruct (content_inverse P AES R enc m he cek iv ct tag cek NC NI BC BI BM BH C) as [_ CD].
  destruct (content_ok P AES HM R enc m he cek iv ct tag cek NC NI BC BI BM BH C) as [B1 B2].
  destruct (produced_token _ _ _ _ _ _ _ _ _ _ _ _ _ h PR) as (t & -> & U); [cbn [forallb]; rewrite BE, BI, B1, B2; reflexivity|apply b2s_id; exact J|exact J|].
  exists t. split; [reflexivity|]. split; [exact CD|]. split; [exact (proj2 (enc_setup_key _ _ _ _ _ _ _ _ _ _ C NC NI))|exact U].
Qed.

Theorem jwe_sym_roundtrip : forall w a keys k kid cek iv kw tok w', In a KW_ALGS -> dget (w_dict w) (lit "alg") = Some (VStr a) ->
  json_args w SYM_ARGS -> jsonable (k_kid k) = true -> (forall v, kw = Some v -> jsonable v = true) ->
  kid_in_force (as_jws w) = Ok kid -> first_fit (suitable (lit "oct") kid (VStr (lit "enc")) (VStr a)) keys k ->
  forall key kk, k_data k = DSym key kk -> (forall s, key = VBytes s -> bytes_ok s = true) -> bytes_ok cek = true -> bytes_ok iv = true -> wrappable cek ->
  jwe_encrypt P R w (Some keys) cek iv kw = Ok (tok, w') ->
  exists t m, w_msg w = VStr t /\ utf8_encode t = Ok m /\
  forall sent v keys' k' kid' alg token, kid_in_force (as_jws v) = Ok kid' -> first_fit (suitable (lit "oct") kid' (VStr (lit "enc")) (VStr a)) keys' k' -> k_data k' = k_data k ->
    alg = VNone \/ alg = VStr a -> token = VStr tok \/ token = VBytes tok ->
    jwe_decrypt P sent v token (Some keys') alg [] = Ok (m, w_set v (lit "cek") VNone).
Proof.
  intros w a keys k kid cek iv kw tok w' IA AL JA JK JKW KI FF key kk KD SB BC BI WC H.
  destruct (kw_alg a IA) as (KT & FA & NN & TR & _).
  unfold jwe_encrypt in H. unfold dict_get in H at 1. rewrite AL in H. cbn [bind] in H.
  destruct (pick_first P w keys (VStr (lit "enc")) (VStr []) (VStr a) (lit "oct") kid k AL NN KT KI FF) as [JKY (r & PK)].
  rewrite JKY in H. cbn [bind] in H. rewrite PK in H. cbn [bind] in H. rewrite FA in H. cbn [bind] in H. cbv zeta in H. change (if truthy (k_kid k) then dset (sub_dict w SYM_ARGS) (lit "kid") (k_kid k) else sub_dict w SYM_ARGS) with (named_dict k (sub_dict w SYM_ARGS)) in H.
  destruct (key_material P k (VStr a) true) as [mt|] eqn:KM; [|discriminate]. cbn [bind] in H.
  set (ob := match w_jwk w with Some _ => true | None => false end) in H.
  destruct (sym_encrypt P R (named_dict k (sub_dict w SYM_ARGS)) ob (w_msg w) mt cek iv kw) as [tok'|] eqn:SE; [|discriminate]. cbn [bind] in H. apply Ok_inj in H. apply pair_equal_spec in H. destruct H as [-> _].
  apply (sym_inv P R DR) with (alg := VStr a) in SE; [|exact BC|exact BI|rewrite named_get by ne; apply sub_dict_alg; [exact AL|reflexivity]|exact TR].
  destruct SE as (t & m & enc & cek' & iv' & kek & ek & he & ct & tag & O & MT & U & EN & G & SK & WR & PR).
  exists t, m. split; [exact MT|]. split; [exact U|].
  destruct (generate_ok R DR _ _ _ _ _ BC BI G) as (G1 & G2 & G3 & G4 & G5 & _ & G7).
  assert (W' : wrappable cek') by (destruct cek as [|c cek]; [destruct (G7 eq_refl) as (e & kl & il & _ & S & ->); exact (generated_wrappable _ _ _ S)|rewrite (G5 ltac:(discriminate)); exact WC]).
  (* the wrapping key *)
  unfold key_material in KM. rewrite KD in KM. destruct (sym_encryption_key P k a) as [[b k2]|] eqn:EK; [|discriminate]. cbn [bind] in KM. apply Ok_inj in KM. subst mt. cbn [as_secret] in SK. apply Ok_inj in SK. subst b.
  destruct (kek_of P k a kek k2 HL IA) as (KB & KS & SAME); [intros s kk0 E; rewrite KD in E; injection E as -> _; exact (SB s eq_refl)|exact EK|].
  destruct W' as [W1 W2]. destruct (wrap_unwrap P kek AES KS KB cek' G3 W1 W2) as (wk & WK & BW & _ & UW). rewrite WK in WR. apply Ok_inj in WR. subst wk.
  assert (JH : jsonable (VDict (kid_dict kw (named_dict k (sub_dict w SYM_ARGS)))) = true) by (apply kid_json; [apply named_json; [apply sub_dict_json; [left; reflexivity|exact JA]|exact JK]|exact JKW]).
  destruct (produced_opens _ _ _ _ _ _ _ _ _ _ _ PR JH G1 G2 G3 G4 (utf8_encode_ok _ _ U) BW) as (h & -> & CD & SU & UN).
  intros sent v keys' k' kid' alg token KI' FF' KD' AG TK. destruct (UN token TK) as [TT UT]. unfold jwe_decrypt. rewrite TT, UT. cbn [bind].
  cbn [five j_headers py_get]. rewrite (pd_alg _ _ _ _ _ _ _ _ _ _ _ _ _ PR). cbn [bind].
  replace (truthy alg && negb (pval_eqb alg (VStr a))) with false by (destruct AG as [-> | ->]; [reflexivity|rewrite pval_eqb_refl, andb_false_r; reflexivity]).
  destruct (pick_first P v keys' (VStr (lit "enc")) (VStr a) (VStr a) (lit "oct") kid' k') as [JKY' (r' & PK')]; [unfold alg_or; rewrite TR; reflexivity|exact NN|exact KT|exact KI'|exact FF'|].
  rewrite JKY'. cbn [bind]. rewrite PK'. cbn [bind is_nil andb]. rewrite FA. cbn [bind]. unfold cek_first. cbn [is_nil dec_loop].
  unfold key_material. rewrite KD', KD. destruct (SAME k' KD') as (k3 & ->). cbn [bind].
  assert (SD : sym_decrypt P (sub_dict v SYM_ARGS) (five (kid_dict kw (named_dict k (sub_dict w SYM_ARGS))) h ek iv' ct tag) (Some (MObj (OVal (VBytes kek)))) [] = Ok m).
  { unfold sym_decrypt. replace (match kek with [] => is_nil (@nil Z) | _ :: _ => false end) with false by (destruct kek; [discriminate KS|reflexivity]).
    cbn [five j_part map length Nat.eqb negb is_nil part nth_error bind as_secret j_headers b64part j_b64]. rewrite UW. cbn [bind]. unfold py_get. rewrite (pd_enc _ _ _ _ _ _ _ _ _ _ _ _ _ PR). cbn [bind].
    rewrite CD. cbn [bind]. rewrite sub_dict_none; [reflexivity|repeat split; ne|ne|reflexivity]. }
  rewrite SD. reflexivity.
Qed.
End Sym.
