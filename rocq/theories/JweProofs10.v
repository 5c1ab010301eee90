(** * JWE: key agreement, further segments, several keys, the GCM tag of a token *)
From Coq Require Import ZArith List Bool Lia ZifyBool.
From Verif Require Import Base BaseProofs Utf8 Codec CodecProofs Json JsonProofs Jwt JwtProofs Prims Elliptic Ecc EccProofs EcAux KeyWrap KeyWrapProofs Extra ExtraProofs Gcm GcmSpec PvalEq Jwk JwkProofs JwkProofs2 Jws JwsProofs JwsProofs2 JwsProofs3 JwsProofs4 JwsProofs6 Jwe JweProofs JweProofs2 JweProofs3 JweProofs4 JweProofs5 JweProofs6 JweProofs7 JweProofs8.
Import ListNotations.
Open Scope Z_scope.

(** ** C59 *)
Section Agree.
Variables (P : prims) (R : draws).
Hypotheses (AES : aes_law P) (HL : hash_law P) (DR : draws_ok R).

(** Whatever the rest of the arguments, valid or not. *)
Theorem derive_same : forall name c, by_name name = Ok c -> forall a b ax ay bx by' apu apv alg n, 0 < a < c_N c -> 0 < b < c_N c ->
  public_key_for c a = Some (ax, ay) -> public_key_for c b = Some (bx, by') ->
  derive P c (VInt a) (VInt bx) (VInt by') apu apv alg n = derive P c (VInt b) (VInt ax) (VInt ay) apu apv alg n.
Proof.
  intros name c BN a b ax ay bx by' apu apv alg n HA HB PA PB. unfold derive. cbn [as_num as_int bind].
  destruct (dh_nist name c BN a b HA HB) as (z & Z1 & Z2 & _). rewrite PB in Z1. rewrite PA in Z2. rewrite Z1, Z2. reflexivity.
Qed.

Theorem ecdh_agree : forall name c, by_name name = Ok c -> forall w k a o crv kx ky d cv dz cek ek iv params, In a EC_ALGS -> dget (w_dict w) (lit "alg") = Some (VStr a) ->
  k_data k = DEc o crv (VInt kx) (VInt ky) d cv -> curve_by_name crv = Ok c -> 0 < dz < c_N c -> public_key_for c dz = Some (kx, ky) -> epk_for c w ->
  (forall b, dget (w_dict w) (lit "cek") = Some (VBytes b) -> bytes_ok b = true /\ wrappable b) ->
  ec_enc_setup P R w k = Ok (cek, ek, iv, params) ->
  exists ekb params', octets_ek ek ekb /\ b2s_conv (VDict params) = Ok (VDict params') /\
  forall j h o' crv' x' y' cv' k' hb ivb ct tag, j_headers j = VDict h -> dget h (lit "alg") = Some (VStr a) -> dget h (lit "enc") = dget (w_dict w) (lit "enc") ->
    (forall n, In n [lit "apu"; lit "apv"; lit "epk"] -> dget h n = dget params' n) -> firstn 5 (j_part j) = map VBytes [hb; ekb; ivb; ct; tag] ->
    k_data k' = DEc o' crv' x' y' (VInt dz) cv' -> ec_dec_setup P j k' = Ok cek.
Proof.
  intros name c BN w k a o crv kx ky d cv dz ck ek iv' params IA AL KD CB DZ PB EF CO ES.
  apply (ec_setup_inv P R DR name c BN w k a o crv (VInt kx) (VInt ky) d cv) in ES; [|exact KD|exact CB|exact EF|intros b X; apply (CO b X)|exact AL].
  destruct ES as (apu & apv & ed & ex & ey & b & enc & ekb & BU & BV & -> & HED & PED & JB & CRV & RD & EN & NI & BI & OE & AG & KWC).
  assert (AU : ascii (b64e apu) = true) by (apply b64e_ascii; exact BU). assert (AV : ascii (b64e apv) = true) by (apply b64e_ascii; exact BV).
  exists ekb, [(lit "apu", VStr (b64e apu)); (lit "apv", VStr (b64e apv)); (lit "epk", VDict b)]. split; [exact OE|]. split.
  { rewrite b2s_VDict. cbn [b2s_dict]. rewrite (b2s_id _ JB). cbn [b2s_conv]. rewrite !utf8_decode_ascii by assumption. reflexivity. }
  set (mine := derive P c (VInt ed) (VInt kx) (VInt ky) (Some apu) (Some apv)) in *.
  set (theirs := derive P c (VInt dz) (VInt ex) (VInt ey) (Some apu) (Some apv)).
  assert (BOTH : forall x n K, bytes_ok x = true -> 0 < n <= 512 -> mine x n = Ok K -> theirs x n = Ok K /\ bytes_ok K = true /\ length K = Z.to_nat ((n + 7) / 8)).
  { intros x n K BX HN E. apply (derive_both P HL name c BN ed dz ex ey kx ky apu apv x n K HED DZ PED PB BU BV BX ltac:(lia) E). }
  intros j h o' crv' x' y' cv' k' hb ivb ct tag JH HA HEN HP FP KD'.
  assert (HU : dget h (lit "apu") = Some (VStr (b64e apu))) by (rewrite HP by (cbn [In]; tauto); reflexivity).
  assert (HV : dget h (lit "apv") = Some (VStr (b64e apv))) by (rewrite HP by (cbn [In]; tauto); reflexivity).
  assert (HEP : dget h (lit "epk") = Some (VDict b)) by (rewrite HP by (cbn [In]; tauto); reflexivity).
  rewrite EN in HEN.
  assert (PT : forall i v, (i < 5)%nat -> nth_error (map VBytes [hb; ekb; ivb; ct; tag]) i = Some (VBytes v) -> part j i = Ok v).
  { intros i v I X. unfold part. rewrite <- FP in X. destruct (j_part j) as [|q0 [|q1 [|q2 [|q3 [|q4 q]]]]]; try discriminate FP.
    do 5 (destruct i as [|i]; [cbn [firstn nth_error] in *; injection X as ->; reflexivity|]). lia. }
  unfold ec_dec_setup. rewrite JH, (PT 2%nat ivb), (PT 3%nat ct), (PT 4%nat tag) by (lia || reflexivity). cbn [bind]. unfold py_in, py_get, dmem at 1. rewrite HEP. cbn [bind]. rewrite CRV. cbn [bind negb].
  destruct RD as (k2 & o2 & cv2 & dd2 & -> & D2). cbn [bind]. unfold text_arg, py_in, py_get, dmem. rewrite HU, HV. cbn [bind]. rewrite !utf8_encode_ascii by assumption. cbn [bind]. rewrite !b64d_b64e by assumption. cbn [bind].
  rewrite HA. cbn [bind]. rewrite D2. cbn [bind]. rewrite pval_eqb_str. unfold key_d. rewrite KD'. cbn [bind]. fold theirs.
  destruct AG as [(A1 & -> & e & n & A2 & A3 & A4)|(A1 & post & n & kek & A2 & A3 & A4)].
  - destruct (keylen e n A3) as (L1 & L2 & _). destruct (BOTH e n ck L2 L1 A4) as (T1 & T2 & T3). rewrite A1, zs_eqb_refl, HEN, A2. cbn [bind]. rewrite A3. exact T1.
  - destruct (ecdh_kw a post n A2) as (L1 & L2). destruct (BOTH post n kek L2 ltac:(lia) A3) as (T1 & T2 & T3).
    destruct (KWC A1) as (C1 & C2 & C3). assert (W : wrappable ck).
    { destruct C3 as [(x & X1 & X2 & ->)|(e & kl & il & _ & S & ->)]; [apply (CO x X1)|exact (generated_wrappable R DR _ _ _ S)]. }
    assert (KS : aes_keysize kek = true) by (unfold aes_keysize; rewrite T3; destruct L1 as [-> |[-> | ->]]; reflexivity).
    destruct W as [W1 W2]. destruct (wrap_unwrap P kek AES KS T2 ck C2 W1 W2) as (wk & WK & BW & _ & UW). rewrite WK in A4. apply Ok_inj in A4. subst wk.
    apply zs_eqb_neq in A1. rewrite A1, A2, T1. cbn [bind]. rewrite (PT 1%nat ekb) by (lia || reflexivity). cbn [bind]. exact UW.
Qed.
End Agree.

(** ** C54: further segments *)
Lemma mapM_app : forall A B (f : A -> res B) l1 l2 r1 r2, mapM f l1 = Ok r1 -> mapM f l2 = Ok r2 -> mapM f (l1 ++ l2) = Ok (r1 ++ r2).
Proof.
  intros A B f l1. induction l1 as [|x l1 IH]; intros l2 r1 r2 H1 H2; cbn [mapM app] in *.
  - injection H1 as <-. exact H2.
  - destruct (f x) as [y|]; [|discriminate]. cbn [bind] in *. destruct (mapM f l1) as [r|]; [|discriminate]. cbn [bind] in H1. injection H1 as <-.
    rewrite (IH l2 r r2 eq_refl H2). reflexivity.
Qed.
Lemma join_snoc : forall c l x, l <> [] -> join c (l ++ [x]) = join c l ++ c :: x.
Proof.
  intros c l x. induction l as [|a l IH]; intro N; [congruence|]. destruct l as [|b l]; [reflexivity|]. cbn [app] in *. change (join c (a :: b :: l ++ [x])) with (a ++ c :: join c (b :: l ++ [x])).
  rewrite IH by discriminate. change (join c (a :: b :: l)) with (a ++ c :: join c (b :: l)). rewrite <- app_assoc. reflexivity.
Qed.

(** A further segment. *)
Definition longer (token : pval) (x : bytes) : pval :=
  match token with VStr t => VStr (t ++ 46 :: b64e x) | VBytes t => VBytes (t ++ 46 :: b64e x) | v => v end.
Lemma unpack_longer : forall token j x, unpack token = Ok j -> bytes_ok x = true ->
  unpack (longer token x) = Ok {| j_headers := j_headers j; j_b64 := j_b64 j ++ [b64e x]; j_part := j_part j ++ [VBytes x] |}.
Proof.
  intros token j x H B. apply unpack_inv in H. destruct H as (b & parts & ps & t & T & A & S & M & U & L & EB & EP).
  destruct (split_token_ok b parts S) as (_ & J & N & D).
  assert (AX : ascii (b64e x) = true) by (apply b64e_ascii; exact B). assert (NX : ~ In 46 (b64e x)) by (apply (b64e_all_no_dot [x]); [cbn [forallb]; rewrite B; reflexivity|left; reflexivity]).
  assert (E : b ++ 46 :: b64e x = join 46 (parts ++ [b64e x])) by (rewrite join_snoc by (intros ->; cbn in N; lia); rewrite J; reflexivity).
  assert (S' : split_token (b ++ 46 :: b64e x) = Ok (parts ++ [b64e x])).
  { rewrite E. apply split_token_join; [rewrite app_length; cbn [length]; lia|]. intros p I. apply in_app_or in I. destruct I as [I|[<-|[]]]; [exact (D p I)|exact NX]. }
  assert (M' : mapM b64d (parts ++ [b64e x]) = Ok (ps ++ [x])) by (apply mapM_app; [exact M|cbn [mapM]; rewrite b64d_b64e by exact B; reflexivity]).
  assert (HD : hd [] (ps ++ [x]) = hd [] ps).
  { destruct ps; [|reflexivity]. destruct parts as [|q parts]; [cbn in N; lia|]. cbn [mapM] in M. destruct (b64d q); [|discriminate]. cbn [bind] in M. destruct (mapM b64d parts); discriminate. }
  assert (G : (part <- split_token (b ++ 46 :: b64e x);; ps <- mapM b64d part;; t <- utf8_decode (hd [] ps);; h <- loads t;; Ok {| j_headers := h; j_b64 := part; j_part := map VBytes ps |}) =
     Ok {| j_headers := j_headers j; j_b64 := j_b64 j ++ [b64e x]; j_part := j_part j ++ [VBytes x] |}).
  { rewrite S'. cbn [bind]. rewrite M'. cbn [bind]. rewrite HD, U. cbn [bind]. rewrite L. cbn [bind]. rewrite EB, EP, map_app. reflexivity. }
  assert (AA : ascii (b ++ 46 :: b64e x) = true).
  { unfold ascii in *. rewrite forallb_app, A. cbn [forallb]. rewrite AX. reflexivity. }
  unfold unpack. destruct T as [-> | ->]; cbn [longer]; [|rewrite utf8_encode_ascii by exact AA]; cbn [bind]; exact G.
Qed.

Section Longer.
Variable P : prims.
Definition more (j : jwt) (x : bytes) : jwt := {| j_headers := j_headers j; j_b64 := j_b64 j ++ [b64e x]; j_part := j_part j ++ [VBytes x] |}.
Lemma part_more : forall j x i, (i < length (j_part j))%nat -> part (more j x) i = part j i.
Proof. intros j x i L. unfold part, more. cbn [j_part]. rewrite nth_error_app1 by exact L. reflexivity. Qed.
Lemma b64part_more : forall j x i, (i < length (j_b64 j))%nat -> b64part (more j x) i = b64part j i.
Proof. intros j x i L. unfold b64part, more. cbn [j_b64]. rewrite nth_error_app1 by exact L. reflexivity. Qed.

Lemma rsa_more : forall s j x k cek, (5 <= length (j_part j))%nat -> (5 <= length (j_b64 j))%nat -> rsa_jwe_decrypt P s (more j x) k cek = rsa_jwe_decrypt P s j k cek.
Proof.
  intros s j x k cek L1 L2. unfold rsa_jwe_decrypt. rewrite !part_more, b64part_more by lia. reflexivity.
Qed.
Lemma ec_more : forall j x cek, (5 <= length (j_part j))%nat -> (5 <= length (j_b64 j))%nat -> ec_decrypt P (more j x) cek = ec_decrypt P j cek.
Proof. intros j x cek L1 L2. unfold ec_decrypt. rewrite !part_more, b64part_more by lia. reflexivity. Qed.
Lemma ec_setup_more : forall j x k, (5 <= length (j_part j))%nat -> ec_dec_setup P (more j x) k = ec_dec_setup P j k.
Proof. intros j x k L1. unfold ec_dec_setup. rewrite !part_more by lia. reflexivity. Qed.
Lemma dec_loop_ext : forall A alg (f g : nat -> material -> res A) ks i, (forall n m, f n m = g n m) -> dec_loop P alg f ks i = dec_loop P alg g ks i.
Proof.
  intros A alg f g ks. induction ks as [|k r IH]; intros i E; [reflexivity|]. cbn [dec_loop]. destruct (key_material P k alg false); [|reflexivity]. cbn [bind]. rewrite E, IH by exact E. reflexivity.
Qed.

Theorem further_segments : forall sent w token keys alg cek m w' x a f, truthy token = true -> jwe_decrypt P sent w token keys alg cek = Ok (m, w') -> bytes_ok x = true ->
  (j <- unpack token;; py_get (j_headers j) (lit "alg")) = Ok a -> family_of a = Ok f -> f <> FSym ->
  jwe_decrypt P sent w (longer token x) keys alg cek = Ok (m, w').
Proof.
  intros sent w token keys alg cek m w' x a f T H B HA FA NS.
  destruct (decrypt_accepts P _ _ _ _ _ _ _ _ T H) as (j & a' & f' & m0 & U & A & _ & _ & O & _). rewrite U in HA. cbn [bind] in HA. rewrite A in HA. apply Ok_inj in HA. subst a.
  destruct (opened_segments P _ _ _ U O) as (tok & TT & L & LP & _).
  assert (LB : length (j_b64 j) = length (split 46 tok)).
  { destruct (unpack_segments _ _ U) as (tok2 & T2 & E2 & _). rewrite E2. destruct TT as [-> | ->], T2 as [X|X]; first [discriminate X|injection X as <-; reflexivity]. }
  assert (L5 : (5 <= length (j_part j))%nat /\ (5 <= length (j_b64 j))%nat) by lia. destruct L5 as [L5 L6].
  assert (T' : truthy (longer token x) = true) by (destruct TT as [-> | ->]; cbn [longer truthy]; destruct tok; reflexivity).
  unfold jwe_decrypt in *. rewrite T in H. rewrite T'. rewrite (unpack_longer _ _ _ U B). rewrite U in H. cbn [bind j_headers] in *. fold (more j x). rewrite A in *. cbn [bind] in *.
  destruct (truthy alg && negb (pval_eqb alg (VStr a'))); [discriminate|].
  destruct (jws_keys P (as_jws w) keys) as [ks|]; [|discriminate]. cbn [bind] in *. destruct (pick_keys (as_jws w) ks (VStr (lit "enc")) (VStr a')) as [ks'|]; [|discriminate]. cbn [bind] in *.
  destruct (is_nil ks' && is_nil cek); [discriminate|]. rewrite FA in *. cbn [bind] in *. destruct f; [|congruence|].
  - rewrite rsa_more by assumption. erewrite dec_loop_ext; [exact H|]. intros n mt. cbv beta. apply rsa_more; assumption.
  - destruct ks' as [|k r]; [discriminate|]. rewrite ec_setup_more by assumption. destruct (ec_dec_setup P j k) as [ck|]; [|discriminate]. cbn [bind] in *. rewrite ec_more by assumption.
    exact H.
Qed.
End Longer.

(** ** C52: keys that are passed over *)
Section Skip.
Variable P : prims.

(** The sentinel does not matter unless it is the content key. *)
Lemma rsa_sentinel : forall s s' j k m c, rsa_jwe_decrypt P s j k [] = Ok (m, c) -> s' <> c -> rsa_jwe_decrypt P s' j k [] = Ok (m, c).
Proof.
  intros s s' j k m c H N. unfold rsa_jwe_decrypt in *. destruct (part j 1) as [jek|]; [|discriminate]. cbn [bind] in *. destruct (py_get (j_headers j) (lit "alg")) as [a|]; [|discriminate]. cbn [bind is_nil negb] in *.
  destruct (rsa_scheme a) as [sch|]; [|discriminate]. destruct (match k with Some m => as_rsa m | None => Raise EAttributeError end) as [rk|]; [|discriminate]. cbn [bind] in *.
  assert (E : forall c', rsa_decrypt P false sch rk s jek = Ok c' -> s' <> c' -> rsa_decrypt P false sch rk s' jek = Ok c').
  { intros c' X NN. unfold rsa_decrypt in *. destruct (p_rsa_decrypt P sch rk jek) as [r|]; [|discriminate]. cbn [bind] in *. destruct sch; try exact X. cbv zeta in *.
    destruct r as [t|]; [|rewrite zs_eqb_refl in X; discriminate]. destruct (zs_eqb t s); [discriminate|]. apply Ok_inj in X. subst t. destruct (zs_eqb c' s') eqn:Z; [apply zs_eqb_eq in Z; congruence|reflexivity]. }
  destruct (rsa_decrypt P false sch rk s jek) as [c'|]; [|discriminate]. cbn [bind] in *.
  assert (c' = c).
  { repeat match type of H with
    | (bind ?e _) = _ => destruct e; [cbn [bind] in H|discriminate]
    | (if ?b then _ else _) = _ => destruct b; [|discriminate]
    end. apply Ok_inj in H. apply pair_equal_spec in H. apply H. }
  subst c'. rewrite (E c eq_refl N). cbn [bind]. exact H.
Qed.

Definition passes (ek : bytes) (k : jwk) : Prop := exists r nums, k_data k = DRsa (ORsa r) nums /\ p_rsa_decrypt P RSA15 r ek = Ok None.

Lemma picks_app : forall A (Q : A -> Prop) l1 l2 out, picks Q (l1 ++ l2) out -> exists o1 o2, out = o1 ++ o2 /\ picks Q l1 o1 /\ picks Q l2 o2.
Proof.
  intros A Q l1. induction l1 as [|x l1 IH]; intros l2 out H; cbn [app] in H.
  - exists [], out. repeat split; [constructor|exact H].
  - inversion H as [|? ? m q H'|? ? m q H']; subst; destruct (IH _ _ H') as (o1 & o2 & -> & P1 & P2).
    + exists (x :: o1), o2. repeat split; [constructor; assumption|exact P2].
    + exists o1, o2. repeat split; [apply picks_skip; assumption|exact P2].
Qed.
Lemma picks_sub : forall A (Q : A -> Prop) l out x, picks Q l out -> In x out -> In x l.
Proof. intros A Q l out x H. induction H; intro I; [destruct I|destruct I as [<-|I]; [left; reflexivity|right; auto]|right; auto]. Qed.

Lemma loop_skips : forall sent j ek ks k r m c i, py_get (j_headers j) (lit "alg") = Ok (VStr (lit "RSA1_5")) -> part j 1 = Ok ek -> (forall x, In x ks -> passes ek x) ->
  (forall n, sent n <> c) -> key_material P k (VStr (lit "RSA1_5")) false = Ok m ->
  forall p, (forall n, rsa_jwe_decrypt P (sent n) j (Some m) [] = Ok (p, c)) ->
  dec_loop P (VStr (lit "RSA1_5")) (fun i k => rsa_jwe_decrypt P (sent i) j (Some k) []) (ks ++ k :: r) i = Ok (p, c).
Proof.
  intros sent j ek ks k r m c i HA HE. revert i. induction ks as [|x ks IH]; intros i PS SN KM p OKS; cbn [app dec_loop].
  - rewrite KM. cbn [bind]. rewrite OKS. reflexivity.
  - destruct (PS x (or_introl eq_refl)) as (rx & nums & KD & RD). unfold key_material at 1. unfold rsa_encryption_key. rewrite KD. cbn [otruthy bind].
    assert (X : rsa_jwe_decrypt P (sent i) j (Some (MObj (ORsa rx))) [] = Raise EDecryptionFailed).
    { unfold rsa_jwe_decrypt. rewrite HE. cbn [bind]. rewrite HA. cbn [bind is_nil negb]. change (rsa_scheme (VStr (lit "RSA1_5"))) with (Some RSA15). cbn [as_rsa bind]. unfold rsa_decrypt. rewrite RD. cbn [bind]. rewrite zs_eqb_refl. reflexivity. }
    rewrite X. apply IH; try assumption. intros y I. apply PS. right. exact I.
Qed.

Theorem decrypt_skips : forall sent sent' v token k alg m c j ek kid pre post, truthy token = true ->
  jwe_decrypt P sent v token (Some [k]) alg [] = Ok (m, w_set v (lit "cek") (VBytes c)) ->
  unpack token = Ok j -> py_get (j_headers j) (lit "alg") = Ok (VStr (lit "RSA1_5")) -> nth_error (j_part j) 1 = Some (VBytes ek) -> kid_in_force (as_jws v) = Ok kid ->
  Forall (passes ek) pre -> (forall n, sent' n <> c) ->
  jwe_decrypt P sent' v token (Some (pre ++ k :: post)) alg [] = Ok (m, w_set v (lit "cek") (VBytes c)).
Proof.
  intros sent sent' v token k alg m c j ek kid pre post T H U A N1 KI PS SN. unfold jwe_decrypt in *. rewrite T, U in *. cbn [bind] in *. rewrite A in *. cbn [bind] in *.
  destruct (truthy alg && negb (pval_eqb alg (VStr (lit "RSA1_5")))); [discriminate|].
  change (jws_keys P (as_jws v) (Some [k])) with (Ok [Some k] : res (list (option jwk))) in H. cbn [bind] in H.
  assert (JK : jws_keys P (as_jws v) (Some (pre ++ k :: post)) = Ok (map Some (pre ++ k :: post))) by (destruct pre; reflexivity). rewrite JK. cbn [bind].
  set (a := VStr (lit "RSA1_5")) in *.
  destruct (pick_keys_spec (as_jws v) [k] (VStr (lit "enc")) a a (lit "RSA") kid eq_refl eq_refl eq_refl KI) as (o1 & O1 & P1). change (map Some [k]) with [Some k] in O1. rewrite O1 in H. cbn [bind] in H.
  destruct (pick_keys_spec (as_jws v) (pre ++ k :: post) (VStr (lit "enc")) a a (lit "RSA") kid eq_refl eq_refl eq_refl KI) as (o2 & O2 & P2). rewrite O2. cbn [bind].
  assert (SK : suitable (lit "RSA") kid (VStr (lit "enc")) a k /\ o1 = [k]).
  { inversion P1 as [|? ? ? Q P1'|? ? ? Q P1']; subst; inversion P1'; subst; [split; [exact Q|reflexivity]|]. discriminate H. }
  destruct SK as [SK ->]. destruct (picks_app _ _ _ _ _ P2) as (q1 & q2 & -> & Q1 & Q2). inversion Q2 as [|? ? r Q Q2'|? ? r Q Q2']; subst; [|contradiction].
  replace (is_nil (q1 ++ k :: r) && is_nil (@nil Z)) with false by (destruct q1; reflexivity). cbn [is_nil andb] in H.
  change (family_of a) with (Ok FRsa) in *. cbn [bind] in *. unfold cek_first in *. cbn [is_nil] in *.
  cbn [dec_loop] in H. destruct (key_material P k a false) as [mt|] eqn:KM; [|discriminate]. cbn [bind] in H.
  destruct (rsa_jwe_decrypt P (sent 1%nat) j (Some mt) []) as [[m1 c1]|e] eqn:D; [|destruct e; discriminate]. cbn [bind] in H. apply Ok_inj in H. apply pair_equal_spec in H. destruct H as [-> H].
  assert (c1 = c).
  { unfold w_set in H. apply (f_equal (fun w => dget (w_dict w) (lit "cek"))) in H. cbn [w_dict] in H. rewrite !dget_dset_same in H. congruence. }
  subst c1. subst a. rewrite (loop_skips sent' j ek q1 k r mt c 1%nat A ltac:(unfold part; rewrite N1; reflexivity)) with (p := m); [reflexivity| |exact SN|exact KM|].
  - intros x I. rewrite Forall_forall in PS. apply PS. exact (picks_sub _ _ _ _ _ Q1 I).
  - intro n. exact (rsa_sentinel _ _ _ _ _ _ D (SN n)).
Qed.
End Skip.


(** ** C48: the tag of a token *)
Theorem sym_token_tag : forall P R, aes_law P -> hmac_law P -> draws_ok R -> forall w keys cek iv kw tok w' a e, bytes_ok cek = true -> bytes_ok iv = true ->
  dget (w_dict w) (lit "alg") = Some (VStr a) -> In a KW_ALGS -> dget (w_dict w) (lit "enc") = Some (VStr e) -> in_texts (VStr e) GCM_ENCS = true ->
  jwe_encrypt P R w keys cek iv kw = Ok (tok, w') ->
  exists t m key iv' ek ct tag, w_msg w = VStr t /\ utf8_encode t = Ok m /\ (cek <> [] -> key = cek) /\ (iv <> [] -> iv' = iv) /\
    tok = join 46 [seg tok 0; ek; b64e iv'; b64e ct; b64e tag] /\ bytes_ok tag = true /\
    (exists ks k r, jws_keys P (as_jws w) keys = Ok ks /\ pick_keys (as_jws w) ks (VStr (lit "enc")) (VStr []) = Ok (k :: r) /\
      b64encode_item (VDict (kid_dict kw (named_dict k (sub_dict w SYM_ARGS)))) = Ok (seg tok 0)) /\
    (8 * Z.of_nat (length (seg tok 0)) < 2 ^ 64 ->
      ct = gcm_c P (long_to_bytes (be2z key) 16) (z2be 12 (be2z iv')) m /\
      be2z tag = gcm_t P (long_to_bytes (be2z key) 16) (z2be 12 (be2z iv')) (seg tok 0) ct /\
      (1 <= length tag <= 16)%nat /\ (hd 0 tag = 0 -> be2z tag = 0)).
Proof.
  intros P R AES HM DR w keys cek iv kw tok w' a e BC BI AL IA EN GE H. unfold jwe_encrypt in H. unfold dict_get in H at 1. rewrite AL in H. cbn [bind] in H.
  destruct (kw_alg a IA) as (_ & FA & _ & TR & _).
  destruct (jws_keys P (as_jws w) keys) as [ks|] eqn:JK; [|discriminate]. cbn [bind] in H. destruct (pick_keys (as_jws w) ks _ _) as [[|k r]|] eqn:PK; try discriminate. cbn [bind] in H. rewrite FA in H. cbn [bind] in H. cbv zeta in H.
  change (if truthy (k_kid k) then dset (sub_dict w SYM_ARGS) (lit "kid") (k_kid k) else sub_dict w SYM_ARGS) with (named_dict k (sub_dict w SYM_ARGS)) in H.
  destruct (key_material P k (VStr a) true) as [mt|]; [|discriminate]. cbn [bind] in H.
  set (ob := match w_jwk w with Some _ => true | None => false end) in H.
  destruct (sym_encrypt P R (named_dict k (sub_dict w SYM_ARGS)) ob (w_msg w) mt cek iv kw) as [tok'|] eqn:SE; [|discriminate]. cbn [bind] in H. apply Ok_inj in H. apply pair_equal_spec in H. destruct H as [-> _].
  apply (sym_inv P R DR) with (alg := VStr a) in SE; [|exact BC|exact BI|rewrite named_get by ne; apply sub_dict_alg; [exact AL|reflexivity]|exact TR].
  destruct SE as (t & m & enc & cek' & iv' & kek & ek & he & ct & tag & O & MT & U & EN' & G & SK & WR & PR).
  rewrite named_get in EN' by ne. rewrite sub_dict_get in EN' by (repeat split; ne || reflexivity). rewrite EN in EN'. injection EN' as <-.
  destruct (generate_ok R DR _ _ _ _ _ BC BI G) as (G1 & G2 & G3 & G4 & G5 & G6 & _).
  pose proof (produced_first _ _ _ _ _ _ _ _ _ _ _ _ _ PR) as F. assert (E : seg tok 0 = he) by (unfold seg; destruct (split 46 tok); exact F). rewrite E in *.
  pose proof (pd_content _ _ _ _ _ _ _ _ _ _ _ _ _ PR) as C. destruct (header_ascii _ _ (pd_header _ _ _ _ _ _ _ _ _ _ _ _ _ PR)) as (_ & _ & BH).
  destruct (content_ok P AES HM R _ _ _ _ _ _ _ _ G1 G2 G3 G4 (utf8_encode_ok _ _ U) BH C) as [B1 B2].
  destruct (pd_segments _ _ _ _ _ _ _ _ _ _ _ _ _ PR) as (ts & TS & J). cbn [mapM] in TS. destruct (utf8_decode (b64e ek)) as [ek'|]; [|discriminate]. cbn [bind] in TS.
  rewrite !utf8_decode_ascii in TS by (apply b64e_ascii; assumption). cbn [bind] in TS. apply Ok_inj in TS. subst ts.
  exists t, m, cek', iv', ek', ct, tag. split; [exact MT|]. split; [exact U|]. split; [exact G5|]. split; [exact G6|]. split; [exact J|]. split; [exact B2|]. split.
  - exists ks, k, r. split; [reflexivity|]. split; [exact PK|]. exact (pd_header _ _ _ _ _ _ _ _ _ _ _ _ _ PR).
  - intro SM. destruct (gcm_tag_form P AES R _ _ _ _ _ _ _ _ GE (utf8_encode_ok _ _ U) BH G3 G4 G1 G2 SM C) as (T1 & T2 & T3 & T4). split; [exact T1|]. split; [exact T2|]. split; [exact T3|]. rewrite T2. exact T4.
Qed.
