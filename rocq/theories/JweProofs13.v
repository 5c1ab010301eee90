(** * JWE: the keys of ECDH-ES, as formulas *)
From Coq Require Import ZArith List Bool Lia ZifyBool.
From Verif Require Import Base BaseProofs Utf8 Codec CodecProofs Json JsonProofs Jwt JwtProofs Prims Elliptic Ecc EccProofs EcAux KeyWrap KeyWrapProofs Extra ExtraProofs SymAux Gcm PvalEq Jwk JwkProofs JwkProofs2 Jws JwsProofs JwsProofs2 JwsProofs3 JwsProofs4 JwsProofs6 Jwe JweProofs JweProofs2 JweProofs3 JweProofs4 JweProofs5 JweProofs6.
Import ListNotations.
Open Scope Z_scope.

(** The first [n] bits of SHA-256(1, z, info), SHA-256(2, z, info). *)
Definition hashed (P : prims) (z info : bytes) (n : Z) : bytes :=
  firstn (Z.to_nat (n / 8)) (p_hash P SHA256 ([0; 0; 0; 1] ++ z ++ info) ++ p_hash P SHA256 ([0; 0; 0; 2] ++ z ++ info)).
(** The number [n] in four octets. *)
Definition be32 (n : Z) : bytes := [n / 2 ^ 24 mod 256; n / 2 ^ 16 mod 256; n / 2 ^ 8 mod 256; n mod 256].
(** What is hashed besides z: name, both parties with their lengths, and the number of bits. *)
Definition party_info (name apu apv : bytes) (n : Z) : bytes :=
  name ++ be32 (Z.of_nat (length apu)) ++ apu ++ be32 (Z.of_nat (length apv)) ++ apv ++ be32 n.

(** Bits of the content key by enc; name and bits of the wrapping key by alg (RFC 7518, sections 4.4, 4.6, 5.1). *)
Definition content_bits : list (ustr * Z) :=
  [(lit "A128GCM", 128); (lit "A192GCM", 192); (lit "A256GCM", 256); (lit "A128CBC-HS256", 256); (lit "A192CBC-HS384", 384); (lit "A256CBC-HS512", 512)].
Definition wrap_bits : list (ustr * (ustr * Z)) :=
  [(lit "ECDH-ES+A128KW", (lit "A128KW", 128)); (lit "ECDH-ES+A192KW", (lit "A192KW", 192)); (lit "ECDH-ES+A256KW", (lit "A256KW", 256))].

Lemma z2be4 : forall n, z2be 4 n = be32 n.
Proof.
  intro n. unfold be32. cbn [z2be app]. rewrite !Z.div_div by lia. reflexivity.
Qed.

Lemma content_bits_in : forall e n, dget KEYLEN e = Some n -> In (e, n) content_bits.
Proof. intros e n H. change KEYLEN with content_bits in H. apply dget_In in H. exact H. Qed.
Lemma wrap_bits_in : forall a p, dget ECDH_KW a = Some p -> In (a, p) wrap_bits.
Proof. intros e n H. change ECDH_KW with wrap_bits in H. apply dget_In in H. exact H. Qed.

Lemma derive_formula : forall P, hash_law P -> forall c d x y apu apv alg n K, derive P c d x y (Some apu) (Some apv) alg n = Ok K ->
  bytes_ok apu = true -> bytes_ok apv = true -> bytes_ok alg = true -> 0 <= n <= 512 -> n mod 8 = 0 ->
  exists d' x' y' z, as_int d = Some d' /\ as_int x = Some x' /\ as_int y = Some y' /\ dh_z c d' (Some (x', y')) = Ok z /\ K = hashed P z (party_info alg apu apv n) n.
Proof.
  intros P HL c d x y apu apv alg n K H BU BV BA HN HM. unfold derive, as_num in H.
  destruct (as_int d) as [d'|]; [|discriminate H]. cbn [bind] in H. destruct (as_int x) as [x'|]; [|discriminate H]. cbn [bind] in H. destruct (as_int y) as [y'|]; [|discriminate H]. cbn [bind] in H.
  destruct (dh_z c d' (Some (x', y'))) as [z|] eqn:Z1; [|discriminate H]. cbn [bind] in H.
  assert (ZB : bytes_ok z = true) by (unfold dh_z in Z1; destruct (mulp _ _ _ _ _) as [[u v]|]; [|discriminate]; apply Ok_inj in Z1; subst z; apply z2be_ok).
  destruct (other_info apu apv alg n) as [oi|] eqn:OI; [|discriminate H]. cbn [bind] in H.
  assert (E : oi = party_info alg apu apv n).
  { unfold other_info, pack_I in OI. repeat match type of OI with context [if ?b then _ else _] => destruct b; cbn [bind] in OI; try discriminate OI end.
    apply Ok_inj in OI. subst oi. unfold party_info. rewrite !z2be4, <- !app_assoc. reflexivity. }
  assert (IB : bytes_ok oi = true).
  { rewrite E. unfold party_info. rewrite !bytes_ok_app, <- !z2be4, !z2be_ok, BU, BV, BA. reflexivity. }
  destruct (concat_sha256_prefix P HL z n oi ZB IB ltac:(lia)) as (dk & C & _ & F). rewrite C in H. apply Ok_inj in H. subst K.
  exists d', x', y', z. repeat (split; [reflexivity || exact Z1|]). rewrite (F 2%nat) by (assert ((n + 255) / 256 < 3) by (apply Z.div_lt_upper_bound; lia); lia).
  unfold hashed. rewrite <- E. cbn [seq map concat]. rewrite app_nil_r. rewrite !z2be4.
  replace ((n + 7) / 8) with (n / 8) by (pose proof (Z.div_mod n 8); pose proof (Z.div_mod (n + 7) 8); pose proof (Z.mod_pos_bound (n + 7) 8); lia). reflexivity.
Qed.

Lemma content_bits_ok : forall e n, In (e, n) content_bits -> bytes_ok e = true /\ 0 <= n <= 512 /\ n mod 8 = 0.
Proof. intros e n I. unfold content_bits in I. cbn [In] in I. repeat (destruct I as [E|I]; [injection E as <- <-; repeat split; discriminate|]). contradiction. Qed.
Lemma wrap_bits_ok : forall a e n, In (a, (e, n)) wrap_bits -> bytes_ok e = true /\ 0 <= n <= 512 /\ n mod 8 = 0.
Proof. intros a e n I. unfold wrap_bits in I. cbn [In] in I. repeat (destruct I as [E|I]; [injection E as _ <- <-; repeat split; discriminate|]). contradiction. Qed.

(** A header parameter apu or apv. *)
Definition party_octets (h : dict) (n : ustr) (b : bytes) : Prop := exists t, dget h n = Some (VStr t) /\ ascii t = true /\ b64d t = Ok b.

Lemma text_arg_party : forall h n r, text_arg (VDict h) n = Ok (Some r) -> party_octets h n r.
Proof.
  intros h n r H. unfold text_arg in H. cbn [py_in py_get bind] in H. unfold dmem in H. destruct (dget h n) as [v|] eqn:D; [|discriminate H]. cbn [bind] in H.
  destruct v as [| | | |t| | |]; try discriminate H. destruct (utf8_encode t) as [u|] eqn:U; [|discriminate H]. cbn [bind] in H. destruct (b64d u) as [x|] eqn:B; [|discriminate H]. cbn [bind] in H.
  injection H as ->. exists t. split; [exact D|]. pose proof (b64d_input_ascii _ _ B) as A. pose proof (utf8_decode_encode _ _ U) as X. rewrite utf8_decode_ascii in X by exact A. injection X as ->.
  split; [exact A|exact B].
Qed.

(** The private value of the receiver's key, a number; the point of the sender's key, and its curve. *)
Definition private_number (key : jwk) (d : Z) : Prop := exists v, key_d key = Ok v /\ as_int v = Some d.
Definition point_on (epk : jwk) (c : curve) (x y : Z) : Prop := exists l crv vx vy d, k_data epk = DEc l crv vx vy d (OCurve c) /\ as_int vx = Some x /\ as_int vy = Some y.

Theorem receiver_key : forall P, hash_law P -> forall j key cek, ec_dec_setup P j key = Ok cek ->
  exists h jwk_of epk c x y d apu apv z, j_headers j = VDict h /\ dget h (lit "epk") = Some (VDict jwk_of) /\
    ec_new jwk_of (OVal (kwarg jwk_of (lit "key") VNone)) (OVal (kwarg jwk_of (lit "curve") VNone)) 0 = Ok epk /\ point_on epk c x y /\ private_number key d /\
    party_octets h (lit "apu") apu /\ party_octets h (lit "apv") apv /\ dh_z c d (Some (x, y)) = Ok z /\
    ((exists e n, dget h (lit "alg") = Some (VStr (lit "ECDH-ES")) /\ dget h (lit "enc") = Some (VStr e) /\ In (e, n) content_bits /\ cek = hashed P z (party_info e apu apv n) n) \/
     (exists a wa n ek, dget h (lit "alg") = Some (VStr a) /\ In (a, (wa, n)) wrap_bits /\ part j 1 = Ok ek /\ aes_unwrap_key P (hashed P z (party_info wa apu apv n) n) ek = Ok cek)).
Proof.
  intros P HL j key cek H. unfold ec_dec_setup in H.
  destruct (part j 2) as [q2|]; [|discriminate H]. cbn [bind] in H. destruct (part j 3) as [q3|]; [|discriminate H]. cbn [bind] in H. destruct (part j 4) as [q4|]; [|discriminate H]. cbn [bind] in H.
  destruct (py_in (lit "epk") (j_headers j)) as [[]|]; [|discriminate H|discriminate H]. cbn [bind] in H.
  destruct (j_headers j) as [| | | | | | |h]; try discriminate H. cbn [py_get] in H. destruct (dget h (lit "epk")) as [e|] eqn:EP; [|discriminate H]. cbn [bind] in H.
  destruct (py_in (lit "crv") e) as [[]|]; [|discriminate H|discriminate H]. cbn [bind negb] in H.
  destruct e as [| | | | | | |kw]; try discriminate H. 
  destruct (ec_new kw (OVal (kwarg kw (lit "key") VNone)) (OVal (kwarg kw (lit "curve") VNone)) 0) as [epk|] eqn:NE; [|discriminate H]. cbn [bind] in H.
  destruct (text_arg (VDict h) (lit "apu")) as [au|] eqn:TU; [|discriminate H]. cbn [bind] in H. destruct (text_arg (VDict h) (lit "apv")) as [av|] eqn:TV; [|discriminate H]. cbn [bind] in H.
  destruct (dget h (lit "alg")) as [alg|] eqn:AL; [|discriminate H]. cbn [bind] in H.
  destruct (k_data epk) as [l|l nums|l crv x y ed cv|l v] eqn:KD; try discriminate H.
  destruct cv as [|c|]; cbn [bind] in H.
  1, 3: exfalso; destruct (pval_eqb alg (VStr (lit "ECDH-ES")));
    [destruct (dget h (lit "enc")) as [[]|]; try discriminate H; cbn [bind] in H; destruct (dget KEYLEN s); [|discriminate H]; destruct (key_d key); discriminate H|
     destruct alg; try discriminate H; destruct (dget ECDH_KW s) as [[]|]; [|discriminate H]; destruct (key_d key); discriminate H].
  assert (G : forall a n K, (d <- key_d key;; derive P c d x y au av a n) = Ok K -> bytes_ok a = true -> 0 <= n <= 512 -> n mod 8 = 0 ->
    exists d' x' y' u v z, private_number key d' /\ as_int x = Some x' /\ as_int y = Some y' /\ au = Some u /\ av = Some v /\ dh_z c d' (Some (x', y')) = Ok z /\ K = hashed P z (party_info a u v n) n).
  { clear H. intros a n K H BA N1 N2. destruct (key_d key) as [d|] eqn:D; [|discriminate H]. cbn [bind] in H.
    destruct au as [u|]; [|unfold derive in H; destruct (as_num d); [|discriminate H]; cbn [bind] in H; destruct (as_num x); [|discriminate H]; cbn [bind] in H; destruct (as_num y); [|discriminate H]; cbn [bind] in H; destruct (dh_z _ _ _); discriminate H].
    destruct av as [v|]; [|unfold derive in H; destruct (as_num d); [|discriminate H]; cbn [bind] in H; destruct (as_num x); [|discriminate H]; cbn [bind] in H; destruct (as_num y); [|discriminate H]; cbn [bind] in H; destruct (dh_z _ _ _); discriminate H].
    apply text_arg_party in TU, TV. destruct TU as (tu & _ & _ & BU). destruct TV as (tv & _ & _ & BV). apply b64d_bytes in BU, BV.
    destruct (derive_formula P HL _ _ _ _ _ _ _ _ _ H BU BV BA N1 N2) as (d' & x' & y' & z & E1 & E2 & E3 & E4 & E5). exists d', x', y', u, v, z.
    repeat split; try assumption. exists d. auto. }
  destruct (pval_eqb alg (VStr (lit "ECDH-ES"))) eqn:AE.
  - destruct alg as [| | | |a| | |]; try discriminate AE. change (zs_eqb a (lit "ECDH-ES") = true) in AE. apply zs_eqb_eq in AE. subst a.
    destruct (dget h (lit "enc")) as [[| | | |e| | |]|] eqn:EN; try discriminate H. cbn [bind] in H. destruct (dget KEYLEN e) as [n|] eqn:KL; [|discriminate H].
    apply content_bits_in in KL. destruct (content_bits_ok _ _ KL) as (B & N1 & N2). destruct (G e n cek H B N1 N2) as (d' & x' & y' & u & v & z & E1 & E2 & E3 & -> & -> & E4 & E5).
    apply text_arg_party in TU, TV. exists h, kw, epk, c, x', y', d', u, v, z. repeat (split; [first [reflexivity|assumption]|]).
    split; [exists l, crv, x, y, ed; auto|]. repeat (split; [assumption|]). left. exists e, n. repeat (split; [first [reflexivity|assumption]|]). exact E5.
  - destruct alg as [| | | |a| | |]; try discriminate H. destruct (dget ECDH_KW a) as [[wa n]|] eqn:KL; [|discriminate H].
    apply wrap_bits_in in KL. destruct (wrap_bits_ok _ _ _ KL) as (B & N1 & N2).
    match type of H with (kek <- ?m;; _) = _ => destruct m as [kek|] eqn:KK; [|discriminate H] end. cbn [bind] in H. destruct (part j 1) as [ek|] eqn:PE; [|discriminate H]. cbn [bind] in H.
    destruct (G wa n kek KK B N1 N2) as (d' & x' & y' & u & v & z & E1 & E2 & E3 & -> & -> & E4 & ->).
    apply text_arg_party in TU, TV. exists h, kw, epk, c, x', y', d', u, v, z. repeat (split; [first [reflexivity|assumption]|]).
    split; [exists l, crv, x, y, ed; auto|]. repeat (split; [assumption|]). right. exists a, wa, n, ek. repeat (split; [first [reflexivity|assumption]|]). exact H.
Qed.

(** The sender's value of apu or apv: the decoded argument, or what was drawn. *)
Definition party_value (w : jwe) (n : ustr) (drawn b : bytes) : Prop :=
  (exists t, dget (w_dict w) n = Some (VBytes t) /\ b64d t = Ok b) \/ dget (w_dict w) n = None /\ b = drawn.

Lemma party_arg : forall w n drawn b, match dget (w_dict w) n with Some v => b64d_arg v | None => Ok drawn end = Ok b -> bytes_ok drawn = true -> party_value w n drawn b /\ bytes_ok b = true.
Proof.
  intros w n drawn b H D. unfold party_value. destruct (dget (w_dict w) n) as [v|]; [|injection H as <-; auto]. destruct v as [| | | | |t| |]; try discriminate H. cbn [b64d_arg] in H.
  split; [left; exists t; auto|apply b64d_bytes in H; exact H].
Qed.

Theorem sender_key : forall P R, hash_law P -> draws_ok R -> forall w key cek ek iv params, ec_enc_setup P R w key = Ok (cek, ek, iv, params) ->
  exists l crv vx vy vd cv x y c epk d apu apv z ser, k_data key = DEc l crv vx vy vd cv /\ as_int vx = Some x /\ as_int vy = Some y /\ curve_by_name crv = Ok c /\
    private_number epk d /\ serialize epk false = Ok ser /\ params = [(lit "apu", VBytes (b64e apu)); (lit "apv", VBytes (b64e apv)); (lit "epk", ser)] /\
    party_value w (lit "apu") (r_apu R) apu /\ party_value w (lit "apv") (r_apv R) apv /\ dh_z c d (Some (x, y)) = Ok z /\
    ((exists e n, dget (w_dict w) (lit "alg") = Some (VStr (lit "ECDH-ES")) /\ dget (w_dict w) (lit "enc") = Some (VStr e) /\ In (e, n) content_bits /\
        cek = hashed P z (party_info e apu apv n) n /\ ek = VStr []) \/
     (exists a wa n ekb, dget (w_dict w) (lit "alg") = Some (VStr a) /\ In (a, (wa, n)) wrap_bits /\ aes_wrap_key P (hashed P z (party_info wa apu apv n) n) cek = Ok ekb /\ ek = VBytes ekb)).
Proof.
  intros P R HL DR w key cek ek iv params H. unfold ec_enc_setup in H.
  match type of H with (x <- ?m;; _) = _ => destruct m as [apu|] eqn:TU; [|discriminate H] end. cbn [bind] in H. apply party_arg in TU; [|apply (do_apu _ DR)]. destruct TU as [TU BU].
  match type of H with (x <- ?m;; _) = _ => destruct m as [apv|] eqn:TV; [|discriminate H] end. cbn [bind] in H. apply party_arg in TV; [|apply (do_apv _ DR)]. destruct TV as [TV BV].
  destruct (k_data key) as [l|l nums|l crv vx vy vd cv|l v] eqn:KD; try discriminate H. cbn [bind] in H.
  destruct (curve_by_name crv) as [c|] eqn:CN; [|discriminate H]. cbn [bind] in H.
  match type of H with (x <- ?m;; _) = _ => destruct m as [epk|] eqn:EP; [|discriminate H] end. cbn [bind] in H.
  destruct (serialize epk false) as [ser|] eqn:SE; [|discriminate H]. cbn [bind] in H.
  match type of H with (x <- ?m;; _) = _ => destruct m as [ck|] eqn:CK; [|discriminate H] end. cbn [bind] in H.
  destruct (dget (sub_dict w SYM_ARGS) (lit "enc")) as [enc|] eqn:DE; [|discriminate H]. cbn [bind] in H.
  rewrite sub_dict_get in DE by (ne || (repeat split; ne) || reflexivity).
  destruct (generate_key_and_iv R enc ck []) as [[ck' iv']|]; [|discriminate H]. cbn [bind] in H.
  destruct (k_data epk) as [?|? ?|l2 crv2 x2 y2 ed cv2|? ?] eqn:KE; try discriminate H. cbn [bind] in H.
  destruct (dget (sub_dict w SYM_ARGS) (lit "alg")) as [alg|] eqn:DA; [|discriminate H]. cbn [bind] in H.
  assert (SA : dget (w_dict w) (lit "alg") = Some alg \/ alg = VStr (lit "none")).
  { destruct (dget (w_dict w) (lit "alg")) as [v|] eqn:W; [left; rewrite (sub_dict_alg w SYM_ARGS v W eq_refl) in DA; congruence|right].
    unfold sub_dict in DA. assert (Q : forall objs, in_names (lit "alg") objs = false -> dget (take_kw (w_dict w) objs SYM_ARGS []) (lit "alg") = Some alg -> alg = VStr (lit "none")).
    { intros objs O Q. rewrite take_kw_get in Q by (ne || exact O). rewrite W in Q. vm_compute in Q. injection Q as <-. reflexivity. }
    revert DA Q. clear. destruct (w_dict w); destruct (w_jwk w), (w_epk w); intros DA Q;
      first [match type of DA with dget (take_kw _ ?o _ _) _ = _ => apply (Q o); [reflexivity|exact DA] end|discriminate DA]. }
  assert (G : forall a n K, derive P c ed vx vy (Some apu) (Some apv) a n = Ok K -> bytes_ok a = true -> 0 <= n <= 512 -> n mod 8 = 0 ->
    exists d' x' y' z, private_number epk d' /\ as_int vx = Some x' /\ as_int vy = Some y' /\ dh_z c d' (Some (x', y')) = Ok z /\ K = hashed P z (party_info a apu apv n) n).
  { clear H. intros a n K H BA N1 N2. destruct (derive_formula P HL _ _ _ _ _ _ _ _ _ H BU BV BA N1 N2) as (d' & x' & y' & z & E1 & E2 & E3 & E4 & E5). exists d', x', y', z.
    repeat (split; [assumption|]) || idtac. split; [exists ed; split; [unfold key_d; rewrite KE; reflexivity|exact E1]|]. auto. }
  destruct (pval_eqb alg (VStr (lit "ECDH-ES"))) eqn:AE.
  - destruct alg as [| | | |a| | |]; try discriminate AE. change (zs_eqb a (lit "ECDH-ES") = true) in AE. apply zs_eqb_eq in AE. subst a.
    destruct SA as [SA|SA]; [|discriminate SA]. destruct enc as [| | | |e| | |]; try discriminate H. destruct (dget KEYLEN e) as [n|] eqn:KL; [|discriminate H].
    apply content_bits_in in KL. destruct (content_bits_ok _ _ KL) as (B & N1 & N2).
    destruct (derive P c ed vx vy (Some apu) (Some apv) e n) as [K|] eqn:DD; [|discriminate H]. cbn [bind] in H. injection H as <- <- <- <-.
    destruct (G e n K DD B N1 N2) as (d' & x' & y' & z & E1 & E2 & E3 & E4 & E5).
    exists l, crv, vx, vy, vd, cv, x', y', c, epk, d', apu, apv, z, ser. repeat (split; [first [reflexivity|assumption]|]). left. exists e, n. repeat (split; [first [reflexivity|assumption]|]). reflexivity.
  - destruct alg as [| | | |a| | |]; try discriminate H. destruct (dget ECDH_KW a) as [[wa n]|] eqn:KL; [|discriminate H].
    apply wrap_bits_in in KL. destruct (wrap_bits_ok _ _ _ KL) as (B & N1 & N2).
    destruct SA as [SA|SA]; [|injection SA as ->; exfalso; revert KL; vm_compute; intuition discriminate].
    destruct (derive P c ed vx vy (Some apu) (Some apv) wa n) as [K|] eqn:DD; [|discriminate H]. cbn [bind] in H. destruct (aes_wrap_key P K ck') as [ekb|] eqn:WR; [|discriminate H]. cbn [bind] in H. injection H as <- <- <- <-.
    destruct (G wa n K DD B N1 N2) as (d' & x' & y' & z & E1 & E2 & E3 & E4 & E5). subst K.
    exists l, crv, vx, vy, vd, cv, x', y', c, epk, d', apu, apv, z, ser. repeat (split; [first [reflexivity|assumption]|]). right. exists a, wa, n, ekb. repeat (split; [first [reflexivity|assumption]|]). reflexivity.
Qed.

(** RFC 7518, section 4.6.2: the AlgorithmID is the value of alg when a key is wrapped, with its length. *)
Definition rfc_info (name apu apv : bytes) (n : Z) : bytes := be32 (Z.of_nat (length name)) ++ party_info name apu apv n.

Theorem wrap_info_differs : forall a wa n apu apv, In (a, (wa, n)) wrap_bits -> party_info wa apu apv n <> rfc_info a apu apv n /\ be32 (Z.of_nat (length wa)) ++ party_info wa apu apv n <> rfc_info a apu apv n.
Proof.
  intros a wa n apu apv I. assert (L : (length wa < length a)%nat) by (unfold wrap_bits in I; cbn [In] in I; repeat (destruct I as [E|I]; [injection E as <- <- <-; cbn; lia|]); contradiction).
  split; intro E; apply (f_equal (@length Z)) in E; unfold rfc_info, party_info, be32 in E; rewrite ?app_length in E; cbn [length] in E; lia.
Qed.
