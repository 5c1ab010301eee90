(** * Proofs about the texts of keys, dicthash, streams, JWE_SYM with a key of any kind and the certificate options of jwdecrypt.py *)
From Coq Require Import ZArith List Bool Lia Permutation.
From Verif Require Import Base BaseProofs Utf8 Codec CodecProofs Json JsonProofs Jwt JwtProofs Prims Elliptic Ecc KeyWrap KeyWrapProofs Extra ExtraProofs PvalEq Jwk JwkProofs JwkProofs2 Jws JwsProofs Jwe JweProofs JweProofs2 JweProofs3 Misc MiscProofs Script Misc2.
Import ListNotations.
Open Scope Z_scope.

(** ** Texts of keys *)

Definition contains (part text : list Z) : Prop := exists pre post, text = pre ++ part ++ post.
Lemma contains_refl : forall a, contains a a.
Proof. intro a. exists [], []. rewrite app_nil_r. reflexivity. Qed.
Lemma contains_app : forall a pre x post, contains a x -> contains a (pre ++ x ++ post).
Proof. intros a pre x post (u & v & ->). exists (pre ++ u), (v ++ post). rewrite <- !app_assoc. reflexivity. Qed.
Lemma interc_contains : forall sep l x, In x l -> contains x (interc sep l).
Proof.
  induction l as [|y l IH]; intros x I; [contradiction|]. destruct l as [|z l].
  - destruct I as [->|[]]. apply contains_refl.
  - cbn [interc]. destruct I as [->|I].
    + exists [], (sep ++ interc sep (z :: l)). reflexivity.
    + destruct (IH x I) as (u & v & E). exists (y ++ sep ++ u), v. change (match l with [] => z | _ :: _ => z ++ sep ++ interc sep l end) with (interc sep (z :: l)). rewrite E, <- !app_assoc. reflexivity.
Qed.
Lemma repr_member : forall pr d n v, In (n, v) d -> contains (repr_str pr n ++ lit ": " ++ py_repr pr v) (py_repr pr (VDict d)).
Proof.
  intros pr d n v I. cbn [py_repr]. apply (contains_app _ [123] _ [125]). apply interc_contains.
  apply (in_map (fun p => match p with (n, x) => repr_str pr n ++ lit ": " ++ py_repr pr x end) d (n, v)). exact I.
Qed.

(** A text without quotes, backslashes and control characters is its own repr. *)
Definition plain (s : list Z) : Prop := Forall (fun c => 32 <= c < 127 /\ c <> 39 /\ c <> 92) s.
Lemma plain_repr : forall pr s, plain s -> repr_str pr s = 39 :: s ++ [39].
Proof.
  intros pr s H. unfold repr_str. assert (Q : quote_of s = 39).
  { unfold quote_of. assert (E : existsb (Z.eqb 39) s = false); [|rewrite E; reflexivity]. apply not_true_is_false. intro E. apply existsb_exists in E. destruct E as (x & I & E). apply Z.eqb_eq in E. subst x.
    unfold plain in H. rewrite Forall_forall in H. destruct (H 39 I) as (_ & X & _). congruence. }
  rewrite Q. f_equal. f_equal. induction H as [|c s H1 H IH]; [reflexivity|]. cbn [map concat]. rewrite IH.
  - replace (repr_c pr 39 c) with [c]; [reflexivity|]. unfold repr_c. destruct H1 as (R & N1 & N2).
    repeat match goal with |- context [?a =? ?b] => destruct (Z.eqb_spec a b); [lia|] end. cbn [orb]. destruct (Z.ltb_spec c 32); [lia|]. destruct (Z.ltb_spec c 127); [reflexivity|lia].
  - revert Q. unfold quote_of. cbn [existsb]. destruct H1 as (R & N1 & N2). destruct (Z.eqb_spec 39 c); [congruence|]. cbn [orb]. destruct (existsb (Z.eqb 39) s) eqn:E; [|reflexivity].
    intros _. apply existsb_exists in E. destruct E as (x & I & E). apply Z.eqb_eq in E. subst x. rewrite Forall_forall in H. destruct (H 39 I) as (_ & X & _). congruence.
Qed.
Lemma url_plain : forall s, Forall url_char s -> plain s.
Proof. intros s H. unfold plain. revert H. apply Forall_impl. intros c H. unfold url_char in H. lia. Qed.

Lemma dupd_absent : forall A (e d : list (ustr * A)) n, dget e n = None -> dget (dupd d e) n = dget d n.
Proof.
  induction e as [|[m v] e IH]; intros d n H; [reflexivity|]. cbn [dget] in H. destruct (zs_eqb m n) eqn:E; [discriminate|]. unfold dupd in *. cbn [fold_left fst snd]. rewrite IH by exact H. rewrite dget_dset, E. reflexivity.
Qed.

Theorem str_shows : forall pr k d n t, serialize k true = Ok (VDict d) -> dget d n = Some (VStr t) -> dget (k_extra k) n = None -> plain n -> plain t ->
  exists text, key_str pr k = Ok text /\ contains (39 :: n ++ [39; 58; 32; 39] ++ t ++ [39]) text.
Proof.
  intros pr k d n t S G X PN PT. unfold key_str, to_dict. rewrite S. cbn [bind]. eexists. split; [reflexivity|].
  assert (G' : dget (dupd d (k_extra k)) n = Some (VStr t)) by (rewrite dupd_absent by exact X; exact G).
  apply dget_In in G'. pose proof (repr_member pr _ _ _ G') as C. cbn [py_repr] in C. rewrite !plain_repr in C by assumption.
  assert (E : 39 :: n ++ [39; 58; 32; 39] ++ t ++ [39] = (39 :: n ++ [39]) ++ lit ": " ++ 39 :: t ++ [39]).
  { change (lit ": ") with [58; 32]. cbn [app]. rewrite <- app_assoc. reflexivity. }
  rewrite E. exact C.
Qed.

(** ** dicthash *)
Lemma text_le_refl : forall a, text_le a a = true.
Proof. induction a as [|x a IH]; [reflexivity|]. cbn [text_le]. rewrite Z.ltb_irrefl. exact IH. Qed.
Lemma text_le_total : forall a b, text_le a b = true \/ text_le b a = true.
Proof.
  induction a as [|x a IH]; intros [|y b]; try (left; reflexivity); try (right; reflexivity). cbn [text_le].
  destruct (Z.ltb_spec x y); [left; reflexivity|]. destruct (Z.ltb_spec y x); [right; reflexivity|]. apply IH.
Qed.
Lemma text_le_antisym : forall a b, text_le a b = true -> text_le b a = true -> a = b.
Proof.
  induction a as [|x a IH]; intros [|y b] H1 H2; try reflexivity; try discriminate. cbn [text_le] in *.
  destruct (Z.ltb_spec x y); destruct (Z.ltb_spec y x); try lia; try discriminate. assert (x = y) by lia. subst y. f_equal. apply IH; assumption.
Qed.
Lemma text_le_trans : forall a b c, text_le a b = true -> text_le b c = true -> text_le a c = true.
Proof.
  induction a as [|x a IH]; intros [|y b] [|z c] H1 H2; try reflexivity; try discriminate. cbn [text_le] in *.
  destruct (Z.ltb_spec x y); destruct (Z.ltb_spec y x); destruct (Z.ltb_spec y z); destruct (Z.ltb_spec z y); destruct (Z.ltb_spec x z); destruct (Z.ltb_spec z x); try lia; try discriminate; try reflexivity. exact (IH b c H1 H2).
Qed.
Lemma insert_comm : forall l p q, fst p <> fst q -> insert_item p (insert_item q l) = insert_item q (insert_item p l).
Proof.
  induction l as [|x l IH]; intros p q N.
  - cbn [insert_item]. destruct (text_le (fst p) (fst q)) eqn:A; destruct (text_le (fst q) (fst p)) eqn:B; try reflexivity.
    + destruct (N (text_le_antisym _ _ A B)).
    + destruct (text_le_total (fst p) (fst q)); congruence.
  - cbn [insert_item]. destruct (text_le (fst q) (fst x)) eqn:QX; destruct (text_le (fst p) (fst x)) eqn:PX; cbn [insert_item]; rewrite ?QX, ?PX.
    + destruct (text_le (fst p) (fst q)) eqn:A; destruct (text_le (fst q) (fst p)) eqn:B; cbn [insert_item]; rewrite ?QX, ?PX; try reflexivity.
      * destruct (N (text_le_antisym _ _ A B)).
      * destruct (text_le_total (fst p) (fst q)); congruence.
    + destruct (text_le (fst p) (fst q)) eqn:A; [rewrite (text_le_trans _ _ _ A QX) in PX; discriminate|]. reflexivity.
    + destruct (text_le (fst q) (fst p)) eqn:B; [rewrite (text_le_trans _ _ _ B PX) in QX; discriminate|]. reflexivity.
    + rewrite IH by exact N. reflexivity.
Qed.
Theorem sorted_perm : forall d d', Permutation d d' -> NoDup (map fst d) -> sorted_items d = sorted_items d'.
Proof.
  intros d d' H. induction H as [|x l l' H IH|x y l|a b c H1 IH1 H2 IH2]; intros N.
  - reflexivity.
  - cbn [sorted_items]. cbn [map] in N. inversion N; subst. rewrite IH by assumption. reflexivity.
  - cbn [sorted_items]. apply insert_comm. cbn [map] in N. inversion N as [|? ? X]; subst. intro E. apply X. left. auto.
  - rewrite IH1 by exact N. apply IH2. apply (Permutation_NoDup (l := map fst a)); [apply Permutation_map; exact H1|exact N].
Qed.
Theorem dicthash_order : forall pr hash d d', Permutation d d' -> NoDup (map fst d) -> dicthash pr hash d = dicthash pr hash d'.
Proof. intros pr hash d d' H N. unfold dicthash. rewrite (sorted_perm d d' H N). reflexivity. Qed.

(** ** Streams *)
Theorem filter_once : forall (C : Type) (update : C -> ustr -> res (C * ustr)) final c txt,
  (txt <> [] -> forall c' o1 o2, update c txt = Ok (c', o1) -> final c' = Ok o2 -> aes_enc update final c txt = Ok (o1 ++ o2) /\ aes_dec update final c txt = Ok (o1 ++ o2)) /\
  (txt = [] -> aes_enc update final c txt = final c /\ aes_dec update final c txt = final c).
Proof.
  intros C update final c txt. split.
  - intros NE c' o1 o2 U F. assert (E : cipher_filter update final c (new_io txt) (new_io []) = Ok (o1 ++ o2)); [|split; exact E].
    unfold cipher_filter. cbn [filter_loop io_read new_io io_text io_pos skipn]. destruct txt as [|x txt]; [contradiction|]. rewrite U. cbn [bind]. rewrite skipn_all, F. reflexivity.
  - intros ->. assert (E : cipher_filter update final c (new_io []) (new_io []) = final c); [|split; exact E].
    unfold cipher_filter. cbn [filter_loop io_read new_io io_text io_pos skipn]. destruct (final c); reflexivity.
Qed.

(** ** JWE_SYM *)
Lemma encrypt_octets : forall P R d ob msg b cek iv kid, sym_encrypt_any P R d ob msg (AOctets b) cek iv kid = sym_encrypt P R d ob msg (MObj (OVal (VBytes b))) cek iv kid.
Proof. reflexivity. Qed.
Lemma encrypt_key : forall P R d ob msg k b cek iv kid, key_octets k = Ok b -> sym_encrypt_any P R d ob msg (AKey k) cek iv kid = sym_encrypt_any P R d ob msg (AOctets b) cek iv kid.
Proof. intros. unfold sym_encrypt_any. cbn [enc_octets]. rewrite H. reflexivity. Qed.
Lemma decrypt_octets : forall P d j b cek, sym_decrypt_any P d j (AOctets b) cek = sym_decrypt P d j (Some (MObj (OVal (VBytes b)))) cek.
Proof. intros. unfold sym_decrypt_any, sym_decrypt. destruct b; reflexivity. Qed.
Lemma decrypt_key : forall P d j k b cek, key_octets k = Ok b -> b <> [] -> sym_decrypt_any P d j (AKey k) cek = sym_decrypt_any P d j (AOctets b) cek.
Proof. intros P d j k b cek H N. unfold sym_decrypt_any. rewrite H. destruct b; [contradiction|reflexivity]. Qed.

(** An argument without octets is refused with TypeError wherever octets would have done. *)
Theorem sym_any_refused : forall P R d ob msg b cek iv kid tok k l,
  (forall s x, k_data k <> DSym (VStr s) x) -> (forall s x, k_data k <> DSym (VBytes s) x) -> Forall (fun c => 0 <= c < 256) l ->
  (sym_encrypt_any P R d ob msg (AOctets b) cek iv kid = Ok tok ->
     sym_encrypt_any P R d ob msg (AKey k) cek iv kid = Raise ETypeError /\ sym_encrypt_any P R d ob msg (AInts l) cek iv kid = Raise ETypeError) /\
  (forall d j m, sym_decrypt_any P d j (AOctets b) [] = Ok m ->
     sym_decrypt_any P d j (AKey k) [] = Raise ETypeError /\ sym_decrypt_any P d j (AInts l) [] = Raise (match l with [] => EMissingKey | _ => ETypeError end)).
Proof.
  intros P R d ob msg b cek iv kid tok k l N1 N2 F.
  assert (K : key_octets k = Raise ETypeError).
  { unfold key_octets. destruct (k_data k) as [| | |v x]; try reflexivity.
    destruct v; try reflexivity; [exfalso; eapply N1|exfalso; eapply N2]; reflexivity. }
  assert (I : intarr2str l = Ok l).
  { apply intarr2str_iff. split; [reflexivity|]. eapply Forall_impl; [|exact F]. cbn beta. lia. }
  split.
  - unfold sym_encrypt_any. cbn [enc_octets]. rewrite K, I. cbv zeta.
    destruct (jwenc _ ob) as [j|e]; [|discriminate]. cbn [bind].
    destruct (dict_get _ (lit "enc")) as [enc|e]; [|discriminate]. cbn [bind].
    destruct (generate_key_and_iv R enc cek iv) as [[c i]|e]; [|discriminate]. cbn [bind]. intros _. split; reflexivity.
  - intros d0 j m. unfold sym_decrypt_any. rewrite K. cbn [is_nil].
    destruct b as [|x b]; [discriminate|]. destruct (negb (Nat.eqb (length (j_part j)) 5)); [discriminate|].
    destruct (part j 1) as [jek|e]; [|discriminate]. cbn [bind]. intros _. split; [reflexivity|]. destruct l; reflexivity.
Qed.

(** What was encrypted under a key is decrypted under every argument with the same octets. *)
Theorem sym_any_roundtrip : forall P R, aes_law P -> hmac_law P -> draws_ok R -> forall d ob msg key b cek iv kid tok alg,
  enc_octets key = Ok b -> aes_keysize b = true -> bytes_ok b = true -> bytes_ok cek = true -> bytes_ok iv = true -> wrappable cek ->
  dget d (lit "alg") = Some alg -> truthy alg = true -> jsonable (VDict d) = true -> (forall v, kid = Some v -> jsonable v = true) ->
  sym_encrypt_any P R d ob msg key cek iv kid = Ok tok ->
  exists t m, msg = VStr t /\ utf8_encode t = Ok m /\
    forall d' key' token, dget d' (lit "zip") = None -> enc_octets key' = Ok b -> token = VStr tok \/ token = VBytes tok -> exists j, unpack token = Ok j /\ sym_decrypt_any P d' j key' [] = Ok m.
Proof.
  intros P R AES HM DR d ob msg key b cek iv kid tok alg EO KS KB BC BI WC AL TR JD JK H.
  assert (H' : sym_encrypt P R d ob msg (MObj (OVal (VBytes b))) cek iv kid = Ok tok).
  { rewrite <- encrypt_octets. destruct key as [k|b0|l]; cbn [enc_octets] in EO; [rewrite <- (encrypt_key P R d ob msg k b) by exact EO; exact H|apply Ok_inj in EO; subst b0; exact H|]. destruct (intarr2str l); discriminate EO. }
  apply (sym_inv P R DR) with (alg := alg) in H'; [|exact BC|exact BI|exact AL|exact TR].
  destruct H' as (t & m & enc & cek' & iv' & kek & ek & he & ct & tag & O & MT & U & EN & G & SK & WR & PR). cbn [as_secret] in SK. apply Ok_inj in SK. subst kek.
  exists t, m. split; [exact MT|]. split; [exact U|].
  destruct (generate_ok R DR _ _ _ _ _ BC BI G) as (G1 & G2 & G3 & G4 & G5 & _ & G7).
  assert (W' : wrappable cek') by (destruct cek as [|c cek]; [destruct (G7 eq_refl) as (e & kl & il & _ & S & ->); exact (generated_wrappable R DR _ _ _ S)|rewrite (G5 ltac:(discriminate)); exact WC]).
  destruct W' as [W1 W2]. destruct (wrap_unwrap P b AES KS KB cek' G3 W1 W2) as (wk & WK & BW & _ & UW). rewrite WK in WR. apply Ok_inj in WR. subst wk.
  assert (JH : jsonable (VDict (kid_dict kid d)) = true) by (apply kid_json; assumption).
  destruct (produced_opens P R AES HM _ _ _ _ _ _ _ _ _ _ _ PR JH G1 G2 G3 G4 (utf8_encode_ok _ _ U) BW) as (h & -> & CD & SU & UN).
  intros d' key' token NZ EO' TK. destruct (UN token TK) as [TT UT]. eexists. split; [exact UT|].
  assert (NB : b <> []) by (intros ->; discriminate KS).
  assert (D : sym_decrypt_any P d' (five (kid_dict kid d) h ek iv' ct tag) key' [] = sym_decrypt P d' (five (kid_dict kid d) h ek iv' ct tag) (Some (MObj (OVal (VBytes b)))) []).
  { rewrite <- decrypt_octets. destruct key' as [k|b0|l]; cbn [enc_octets] in EO'; [apply decrypt_key; assumption|apply Ok_inj in EO'; subst b0; reflexivity|]. destruct (intarr2str l); discriminate EO'. }
  rewrite D. unfold sym_decrypt. replace (match b with [] => is_nil (@nil Z) | _ :: _ => false end) with false by (destruct b; [contradiction|reflexivity]).
  cbn [five j_part map length Nat.eqb negb is_nil part nth_error bind as_secret j_headers b64part j_b64]. rewrite UW. cbn [bind]. unfold py_get. rewrite (pd_enc _ _ _ _ _ _ _ _ _ _ _ _ _ PR). cbn [bind].
  rewrite CD. cbn [bind]. rewrite NZ. reflexivity.
Qed.

(** ** jwdecrypt.py -X and -x *)
Lemma list_of_keys : forall P sent w token k r alg cek, jwe_decrypt_list P sent w token (map Some (k :: r)) alg cek = jwe_decrypt P sent w token (Some (k :: r)) alg cek.
Proof. reflexivity. Qed.
Lemma list_no_keys : forall P sent w token alg cek, jwe_decrypt_list P sent w token [] alg cek = jwe_decrypt P sent w token None alg cek.
Proof. reflexivity. Qed.
Lemma foreign_none : forall s n use alg ks, pick_keys s (repeat None n) use alg = Ok ks -> ks = [].
Proof.
  intros s n use alg ks H. unfold pick_keys in H. destruct (if truthy alg then Ok alg else match dget (s_dict s) (lit "alg") with Some a => Ok a | None => Raise EKeyError end) as [a|]; [|discriminate]. cbn [bind] in H.
  destruct (pval_eqb a (VStr (lit "none"))); [apply Ok_inj in H; congruence|]. destruct (alg2keytype a) as [[kty|]|]; cbn [bind] in H; [|apply Ok_inj in H; congruence|discriminate].
  destruct n as [|n]; cbn [repeat real_keys bind] in H; [|discriminate]. destruct (kid_in_force s); [|discriminate]. cbn [bind filter] in H. apply Ok_inj in H. congruence.
Qed.
Theorem foreign_fails : forall P sent token n alg r, jwe_decrypt_list P sent new_jwe token (repeat None n) alg [] <> Ok r.
Proof.
  intros P sent token n alg r H. unfold jwe_decrypt_list in H. destruct (if truthy token then unpack token else match w_jwt new_jwe with Some j => Ok j | None => Raise EException end) as [j|]; [|discriminate]. cbn [bind] in H.
  destruct (py_get (j_headers j) (lit "alg")) as [a|]; [|discriminate]. cbn [bind] in H. destruct (truthy alg && negb (pval_eqb alg a)); [discriminate|].
  match type of H with bind ?m _ = _ => assert (E : m = Ok (repeat (@None jwk) n)) by (destruct n; reflexivity) end.
  rewrite E in H. cbn [bind] in H. destruct (pick_keys (as_jws new_jwe) (repeat None n) (VStr (lit "enc")) a) as [ks|] eqn:PK; [|discriminate]. apply foreign_none in PK. subst ks. cbn [bind is_nil andb] in H. discriminate.
Qed.
Lemma map_none : forall A (l : list A), map (fun _ => @None jwk) l = repeat None (length l).
Proof. induction l as [|x l IH]; [reflexivity|]. cbn [map length repeat]. f_equal. exact IH. Qed.
Theorem x509_never : forall P sent read imp c file msg lines, jwdecrypt_x509 P sent read imp c file msg <> Printed lines.
Proof.
  intros P sent read imp c file msg lines H. unfold jwdecrypt_x509 in H.
  destruct (match c with CUrl u => Ok (map (fun _ => None) (fst (load_x509_cert P imp u []))) | CFile n => _ <- rsa_load read imp n;; Ok [@None jwk] end) as [ks|] eqn:K; [|discriminate]. cbn [run_of] in H.
  assert (E : ks = repeat (@None jwk) (length ks)).
  { destruct c as [u|n].
    - apply Ok_inj in K. subst ks. rewrite map_length. apply map_none.
    - destruct (rsa_load read imp n); [|discriminate]. cbn [bind] in K. apply Ok_inj in K. subst ks. reflexivity. }
  rewrite E in H. match type of H with run_of ?m _ = _ => destruct m as [m'|]; [|discriminate] end. cbn [run_of] in H.
  destruct (jwe_decrypt_list P sent new_jwe m' (repeat None (length ks)) VNone []) as [r|] eqn:D; [|discriminate]. exact (foreign_fails _ _ _ _ _ _ D).
Qed.

(** ** What the text of a key shows *)
Lemma b64_plain : forall b, bytes_ok b = true -> plain (b64e b).
Proof.
  intros b H. apply b64e_chars in H. rewrite forallb_forall in H. apply Forall_forall. intros c I. apply H in I. unfold b64url_char in I. lia.
Qed.
Definition quoted (n t : list Z) : list Z := 39 :: n ++ [39; 58; 32; 39] ++ t ++ [39].
Lemma longs_plain : forall n, In n rsa_longs -> plain n.
Proof. intros n I. unfold rsa_longs in I. cbn [In] in I. repeat (destruct I as [<-|I]; [repeat constructor; try lia; discriminate|]). destruct I. Qed.
Theorem rsa_str : forall pr k key nums n z, k_data k = DRsa key nums -> otruthy key = true -> rsa_nums_ok nums -> annotated k -> In n rsa_longs -> num nums n = VInt z -> dget (k_extra k) n = None ->
  exists a text, be2z a = z /\ bytes_ok a = true /\ key_str pr k = Ok text /\ contains (quoted n (b64e a)) text.
Proof.
  intros pr k key nums n z D T [K PN] A I NZ X. destruct (rsa_ser k key nums D T (conj K PN) A) as (b & S & _ & _ & G & _).
  assert (Hz : 0 < z). { destruct (PN n I) as [E|(z' & Hz & E)]; rewrite NZ in E; [discriminate|]. injection E as <-. exact Hz. }
  destruct (G n I) as (t & N1 & N2); [rewrite NZ; cbn [truthy]; destruct (Z.eqb_spec z 0); [lia|reflexivity]|].
  rewrite NZ in N1. unfold num_to_base64 in N1. cbn [as_int] in N1. destruct (long_to_base64_spec z Hz) as (a & s & L & E & V & O & _). rewrite L in N1. cbn [bind] in N1. apply Ok_inj in N1. injection N1 as <-. subst s.
  exists a. destruct (str_shows pr k b n (b64e a) S N2 X (longs_plain n I) (b64_plain a O)) as (text & KS & C). exists text. split; [exact V|]. split; [exact O|]. split; [exact KS|exact C].
Qed.
Theorem ec_str : forall pr k key crv x y z c, k_data k = DEc key crv (VInt x) (VInt y) (VInt z) (OCurve c) -> 0 < x -> 0 < y -> 0 < z -> named c -> annotated k -> dget (k_extra k) (lit "d") = None ->
  exists a text, be2z a = z /\ bytes_ok a = true /\ key_str pr k = Ok text /\ contains (quoted (lit "d") (b64e a)) text.
Proof.
  intros pr k key crv x y z c D X Y Hz N A EX. destruct (ec_ser k key crv x y (VInt z) c true D X Y (fun _ => ex_intro _ z (conj eq_refl Hz)) N A) as (b & S & _ & _ & _ & _ & _ & _ & (z' & t & E & L' & G)). injection E as <-.
  destruct (long_to_base64_spec z Hz) as (a & s & L & E & V & O & _). rewrite L in L'. apply Ok_inj in L'. subst t s.
  destruct (str_shows pr k b (lit "d") (b64e a) S G EX) as (text & KS & C); [repeat constructor; try lia; discriminate|apply b64_plain; exact O|]. exists a, text. split; [exact V|]. split; [exact O|]. split; [exact KS|exact C].
Qed.
Theorem sym_str : forall pr k key kk, k_data k = DSym (VBytes key) kk -> bytes_ok key = true -> dget (k_extra k) (lit "k") = None ->
  exists text, key_str pr k = Ok text /\ contains (quoted (lit "k") (b64e key)) text.
Proof.
  intros pr k key kk D O X. apply (str_shows pr k (dset (common k) (lit "k") (VStr (b64e key)))); [|rewrite dget_dset, zs_eqb_refl; reflexivity|exact X|repeat constructor; try lia; discriminate|apply b64_plain; exact O].
  unfold serialize. rewrite D. cbn [py_bytes bind]. cbn [as_unicode]. rewrite utf8_decode_ascii by (apply b64e_ascii; exact O). reflexivity.
Qed.

(** A key of unknown type has no text. *)
Theorem base_str : forall P pr d kty k, dget d (lit "kty") = Some kty -> kty <> VStr (lit "RSA") -> kty <> VStr (lit "EC") -> kty <> VStr (lit "oct") -> keyrep P (VDict d) = Ok k ->
  key_str pr k = Raise EAttributeError /\ key_keys k = Raise EAttributeError.
Proof.
  intros P pr d kty k G N1 N2 N3 H. unfold keyrep in H. destruct (enc_values d) as [kw|]; [|discriminate]. cbn [bind] in H. rewrite G in H. unfold dispatch in H. cbv zeta in H.
  assert (E : forall t, kty <> VStr t -> pval_eqb kty (VStr t) = false). { intros t N. apply not_true_is_false. intro E. apply N. destruct kty; try discriminate E. cbn [pval_eqb] in E. apply zs_eqb_eq in E. congruence. }
  rewrite !E in H by assumption. unfold base_new, key_init in H. destruct (dmem kw (lit "self")); [discriminate|]. apply Ok_inj in H. subst k. split; reflexivity.
Qed.

(** The names of an RSA key. *)
Lemma dget_some_keys : forall (d : dict) n, In n (map fst d) <-> exists v, dget d n = Some v.
Proof.
  intros d n. split; [intro I; apply In_dkeys_dget; exact I|]. intros (v & G). apply dget_In in G. apply (in_map fst) in G. exact G.
Qed.
Lemma dset_keys : forall (d : dict) m v n, In n (map fst (dset d m v)) <-> In n (map fst d) \/ n = m.
Proof.
  intros d m v n. rewrite !dget_some_keys. rewrite dget_dset. destruct (zs_eqb m n) eqn:E.
  - apply zs_eqb_eq in E. subst m. split; [intros _; right; reflexivity|intros _; exists v; reflexivity].
  - split; [intro H; left; exact H|]. intros [H|H]; [exact H|]. subst m. rewrite zs_eqb_refl in E. discriminate.
Qed.
Lemma dupd_keys : forall (e d : dict) n, In n (map fst (dupd d e)) <-> In n (map fst d) \/ In n (map fst e).
Proof.
  induction e as [|[m v] e IH]; intros d n; [cbn [map In]; unfold dupd; cbn [fold_left]; tauto|]. unfold dupd in *. cbn [fold_left fst snd map In]. rewrite IH, dset_keys. split; [intros [[H|H]|H]; auto|intros [H|[H|H]]; auto].
Qed.
Theorem rsa_names : forall k key nums, k_data k = DRsa key nums -> otruthy key = true -> rsa_nums_ok nums -> annotated k ->
  exists names, key_keys k = Ok names /\ forall n, In n names <->
    n = lit "kty" \/ (n = lit "use" /\ truthy (k_use k) = true) \/ (n = lit "kid" /\ truthy (k_kid k) = true) \/ (n = lit "alg" /\ truthy (k_alg k) = true) \/
    (In n rsa_longs /\ exists z, num nums n = VInt z) \/ In n (map fst (k_extra k)).
Proof.
  intros k key nums D T [K PN] A. destruct (rsa_ser k key nums D T (conj K PN) A) as (b & S & _ & B & G1 & G2). unfold key_keys, to_dict. rewrite S. cbn [bind]. eexists. split; [reflexivity|].
  assert (C : forall n, (exists v, dget (common k) n = Some v) <-> n = lit "kty" \/ (n = lit "use" /\ truthy (k_use k) = true) \/ (n = lit "kid" /\ truthy (k_kid k) = true) \/ (n = lit "alg" /\ truthy (k_alg k) = true)).
  { intro n. rewrite common_get. unfold opt.
    destruct (zs_eqb (lit "kty") n) eqn:E1; [apply zs_eqb_eq in E1; subst n; split; [auto|intros _; eauto]|].
    assert (N1 : n <> lit "kty") by (intros ->; rewrite zs_eqb_refl in E1; discriminate).
    destruct (zs_eqb (lit "use") n) eqn:E2; [apply zs_eqb_eq in E2; subst n; destruct (truthy (k_use k)); split; [auto|intros _; eauto|intros (v & X); discriminate|intros [X|[[_ X]|[[X _]|[X _]]]]; discriminate]|].
    assert (N2 : n <> lit "use") by (intros ->; rewrite zs_eqb_refl in E2; discriminate).
    destruct (zs_eqb (lit "kid") n) eqn:E3; [apply zs_eqb_eq in E3; subst n; destruct (truthy (k_kid k)); split; [auto|intros _; eauto|intros (v & X); discriminate|intros [X|[[X _]|[[_ X]|[X _]]]]; discriminate]|].
    assert (N3 : n <> lit "kid") by (intros ->; rewrite zs_eqb_refl in E3; discriminate).
    destruct (zs_eqb (lit "alg") n) eqn:E4; [apply zs_eqb_eq in E4; subst n; destruct (truthy (k_alg k)); split; [auto|intros _; eauto|intros (v & X); discriminate|intros [X|[[X _]|[[X _]|[_ X]]]]; discriminate]|].
    assert (N4 : n <> lit "alg") by (intros ->; rewrite zs_eqb_refl in E4; discriminate).
    split; [intros (v & X); discriminate|]. intros [X|[[X _]|[[X _]|[X _]]]]; contradiction. }
  intro n. rewrite dupd_keys. assert (F : In n (map fst b) <-> (exists v, dget (common k) n = Some v) \/ (In n rsa_longs /\ exists z, num nums n = VInt z)).
  { rewrite dget_some_keys. destruct (in_dec (list_eq_dec Z.eq_dec) n rsa_longs) as [I|NI].
    - destruct (PN n I) as [E|(z & Hz & E)].
      + rewrite G2 by (right; rewrite E; reflexivity). split; [auto|]. intros [H|[_ (z & X)]]; [exact H|congruence].
      + destruct (G1 n I) as (t & _ & ->); [rewrite E; cbn [truthy]; destruct (Z.eqb_spec z 0); [lia|reflexivity]|]. split; [intros _; right; eauto|intros _; eauto].
    - rewrite G2 by (left; exact NI). split; [auto|]. intros [H|[X _]]; [exact H|contradiction]. }
  rewrite F, C. tauto.
Qed.

(** ** Key.verify *)
(** (A list of octets that are base64url characters passes, too.) *)
Definition number_or_unset (v : pval) : Prop := truthy v = false \/ is_int v = true \/ exists l b z, v = VList l /\ octets l = Ok b /\ base64_to_long_b b = Ok z.
Lemma octet_list_iff : forall v, octet_list v = true <-> exists l b z, v = VList l /\ octets l = Ok b /\ base64_to_long_b b = Ok z.
Proof.
  intro v. split.
  - intro H. destruct v; try discriminate H. unfold octet_list in H. destruct (octets l) as [b|] eqn:O; cbn [bind] in H; [|discriminate H]. destruct (base64_to_long_b b) as [z|] eqn:B; [|discriminate H]. exists l, b, z. auto.
  - intros (l & b & z & -> & O & B). unfold octet_list. rewrite O. cbn [bind]. rewrite B. reflexivity.
Qed.
Lemma verify_loop_true : forall l, Forall number_or_unset l -> verify_loop l = Ok (l, true).
Proof.
  induction l as [|v l IH]; intro H; [reflexivity|]. inversion H as [|? ? H1 H2]; subst. cbn [verify_loop]. assert (E : negb (truthy v) || is_int v || octet_list v = true) by (destruct H1 as [->|[->|H1]]; [reflexivity|rewrite orb_true_r; reflexivity|apply octet_list_iff in H1; rewrite H1; apply orb_true_r]). rewrite E, IH by exact H2. reflexivity.
Qed.
Lemma verify_loop_false : forall l, ~ Forall number_or_unset l -> (exists l', verify_loop l = Ok (l', false)) \/ verify_loop l = Raise EUnicodeDecodeError.
Proof.
  induction l as [|v l IH]; intro H; [destruct H; constructor|]. cbn [verify_loop]. destruct (negb (truthy v) || is_int v || octet_list v) eqn:E.
  - assert (N : ~ Forall number_or_unset l). { intro F. apply H. constructor; [|exact F]. unfold number_or_unset. destruct (truthy v); [right|left; reflexivity]. cbn [negb orb] in E. apply orb_true_iff in E. rewrite octet_list_iff in E. exact E. }
    destruct (IH N) as [(l' & ->)| ->]; cbn [bind]; [left; eauto|right; reflexivity].
  - destruct v; try (left; eexists; reflexivity). destruct (utf8_decode b) as [s|e] eqn:U; cbn [bind]; [left; eauto|]. right. rewrite (utf8_decode_exn _ _ U). reflexivity.
Qed.
Theorem verify_answer : forall k, (Forall number_or_unset (longs_of k) -> forall s, k_kid k = VStr s -> exists k', key_verify k = Ok (k', true)) /\
  (Forall number_or_unset (longs_of k) -> truthy (k_kid k) = true -> (forall s, k_kid k <> VStr s) -> key_verify k = Raise EHeaderError) /\
  (~ Forall number_or_unset (longs_of k) -> (exists k', key_verify k = Ok (k', false)) \/ key_verify k = Raise EUnicodeDecodeError).
Proof.
  intro k. split; [|split].
  - intros F s K. unfold key_verify. rewrite (verify_loop_true _ F). cbn [bind]. unfold verify_kid. rewrite K. cbn [is_str negb]. rewrite andb_false_r. cbn [bind]. eauto.
  - intros F T N. unfold key_verify. rewrite (verify_loop_true _ F). cbn [bind]. unfold verify_kid. rewrite T. destruct (k_kid k); try reflexivity. destruct (N s eq_refl).
  - intro F. unfold key_verify. destruct (verify_loop_false _ F) as [(l' & ->)| ->]; cbn [bind]; [left; eauto|right; reflexivity].
Qed.
Lemma combine_map : forall A B (f : A -> B) l, combine l (map f l) = map (fun x => (x, f x)) l.
Proof. induction l as [|x l IH]; [reflexivity|]. cbn [map combine]. rewrite IH. reflexivity. Qed.
(** A key that passes is unchanged. *)
Theorem verify_unchanged : forall k k', match k_data k with DRsa _ nums => map fst nums = rsa_longs | _ => True end -> key_verify k = Ok (k', true) -> k' = k.
Proof.
  intros k k' W H. unfold key_verify in H. destruct (verify_loop (longs_of k)) as [[l b]|] eqn:V; [|discriminate]. cbn [bind] in H.
  assert (E : b = true -> l = longs_of k). { clear -V. revert l b V. induction (longs_of k) as [|v r IH]; intros l b V Hb; cbn [verify_loop] in V; [apply Ok_inj in V; congruence|]. destruct (negb (truthy v) || is_int v || octet_list v).
    - destruct (verify_loop r) as [[r' b']|]; [|discriminate]. cbn [bind] in V. apply Ok_inj in V. injection V as <- <-. f_equal. apply (IH r' b' eq_refl Hb).
    - destruct (match v with VBytes b => s <- utf8_decode b;; Ok (VStr s) | _ => Ok v end); [|discriminate]. cbn [bind] in V. apply Ok_inj in V. injection V as _ <-. discriminate Hb. }
  destruct b; [|apply Ok_inj in H; injection H as _ X; discriminate X]. rewrite (E eq_refl) in H. destruct (verify_kid (k_kid k)) as [b|]; [|discriminate]. cbn [bind] in H. apply Ok_inj in H. injection H as <- _.
  unfold set_longs, longs_of. destruct k as [a1 a2 a3 a4 a5 a6 a7 a8 a9 dt]. cbn [k_data] in *. destruct dt as [o|o nums|o crv x y d c|s kk]; try reflexivity.
  rewrite combine_map, <- W. change (map (fun x => (x, num nums x)) (map fst nums)) with (map (fun x => (x, kwarg nums x (VStr []))) (dkeys nums)). rewrite <- dict_by_keys; [reflexivity|]. apply (nodup_keys_of nums rsa_longs W). reflexivity.
Qed.
