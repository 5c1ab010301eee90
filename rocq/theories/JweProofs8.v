(** * JWE: the header as associated data, the algorithm asked for, the number of segments *)
From Coq Require Import ZArith List Bool Lia ZifyBool.
From Verif Require Import Base BaseProofs Utf8 Codec CodecProofs Json JsonProofs Jwt JwtProofs Prims Elliptic Ecc EccProofs KeyWrap KeyWrapProofs Extra ExtraProofs Gcm GcmSpec PvalEq Jwk JwkProofs JwkProofs2 Jws JwsProofs JwsProofs2 JwsProofs3 JwsProofs4 JwsProofs6 Jwe JweProofs JweProofs2 JweProofs3 JweProofs4 JweProofs6 JweProofs7.
Import ListNotations.
Open Scope Z_scope.

(** The i-th segment of a token. *)
Definition seg (tok : bytes) (i : nat) : bytes := nth i (split 46 tok) [].

Lemma family_truthy : forall a f, family_of a = Ok f -> truthy a = true /\ exists t, a = VStr t.
Proof.
  intros a f H. unfold family_of in H. destruct (in_texts a _) eqn:I.
  - apply in_texts_In in I. destruct I as (t & I & ->). split; [|eexists; reflexivity]. cbn [In] in I. repeat (destruct I as [<-|I]; [reflexivity|]). destruct I.
  - destruct a as [| | | |t| | |]; try discriminate. split; [|eexists; reflexivity]. destruct t; [discriminate|reflexivity].
Qed.

Section Send.
Variables (P : prims) (R : draws).
Hypotheses (HL : hash_law P) (DR : draws_ok R).

Lemma generate_nonempty : forall enc cek iv k v, generate_key_and_iv R enc cek iv = Ok (k, v) -> k <> [] /\ v <> [].
Proof.
  intros enc cek iv k v H. unfold generate_key_and_iv in H. destruct (negb (is_nil cek) && negb (is_nil iv)) eqn:E.
  - apply Ok_inj in H. apply pair_equal_spec in H. destruct H as [<- <-]. destruct cek, iv; try discriminate E. split; discriminate.
  - destruct enc as [| | | |e| | |]; try discriminate. rewrite encalg_sizes in H. destruct (enc_sizes e) as [[kl il]|] eqn:S; [|discriminate]. cbn [bind] in H. apply Ok_inj in H. apply pair_equal_spec in H. destruct H as [<- <-].
    destruct (sizes_pos _ _ _ S) as (L1 & L2 & _). destruct (do_cek R DR kl) as [C1 _]. destruct (do_iv R DR il) as [C2 _].
    split; [destruct cek; [cbn [is_nil]; intro X; rewrite X in C1; cbn in C1; lia|discriminate]|destruct iv; [cbn [is_nil]; intro X; rewrite X in C2; cbn in C2; lia|discriminate]].
Qed.

Lemma derive_nonempty : forall c d x y u v alg n K, bytes_ok u = true -> bytes_ok v = true -> bytes_ok alg = true -> 0 < n <= 512 ->
  derive P c d x y (Some u) (Some v) alg n = Ok K -> K <> [].
Proof.
  intros c d x y u v alg n K BU BV BA HN H. unfold derive in H. destruct (as_num d) as [dz|]; [|discriminate]. cbn [bind] in H. destruct (as_num x) as [xz|]; [|discriminate]. cbn [bind] in H.
  destruct (as_num y) as [yz|]; [|discriminate]. cbn [bind] in H. destruct (dh_z c dz (Some (xz, yz))) as [z|] eqn:Z1; [|discriminate]. cbn [bind] in H.
  destruct (other_info u v alg n) as [oi|] eqn:OI; [|discriminate]. cbn [bind] in H.
  assert (ZB : bytes_ok z = true) by (unfold dh_z in Z1; destruct (mulp _ _ _ _ _) as [[a b]|]; [|discriminate]; apply Ok_inj in Z1; subst z; apply z2be_ok).
  assert (IB : bytes_ok oi = true).
  { unfold other_info, pack_I in OI. repeat match type of OI with context [if ?b then _ else _] => destruct b; cbn [bind] in OI; try discriminate OI end.
    apply Ok_inj in OI. subst oi. rewrite !bytes_ok_app, !z2be_ok, BU, BV, BA. reflexivity. }
  destruct (concat_sha256_ok P HL z n oi ZB IB ltac:(lia)) as [C1 C2]. rewrite C1 in H. apply Ok_inj in H. intros ->. rewrite H in C2. cbn [length] in C2. lia.
Qed.

Lemma ec_setup_some : forall w k cek ek iv params, ec_enc_setup P R w k = Ok (cek, ek, iv, params) ->
  cek <> [] /\ iv <> [] /\ (exists ekb, octets_ek ek ekb) /\ exists u v e, params = [(lit "apu", u); (lit "apv", v); (lit "epk", e)].
Proof.
  intros w k cek ek iv params H. unfold ec_enc_setup in H.
  destruct (match dget (w_dict w) (lit "apu") with Some v => b64d_arg v | None => Ok (r_apu R) end) as [apu|] eqn:EU; [|discriminate]. cbn [bind] in H.
  destruct (match dget (w_dict w) (lit "apv") with Some v => b64d_arg v | None => Ok (r_apv R) end) as [apv|] eqn:EV; [|discriminate]. cbn [bind] in H.
  assert (BU : bytes_ok apu = true).
  { destruct (dget (w_dict w) (lit "apu")) as [v|]; [destruct v; try discriminate; exact (b64d_bytes _ _ EU)|apply Ok_inj in EU; subst apu; apply (do_apu R DR)]. }
  assert (BV : bytes_ok apv = true).
  { destruct (dget (w_dict w) (lit "apv")) as [v|]; [destruct v; try discriminate; exact (b64d_bytes _ _ EV)|apply Ok_inj in EV; subst apv; apply (do_apv R DR)]. }
  match type of H with (bind ?x _) = _ => destruct x as [[[crv kx] ky]|]; [|discriminate] end. cbn [bind] in H.
  destruct (curve_by_name crv) as [c|]; [|discriminate]. cbn [bind] in H.
  match type of H with (bind ?x _) = _ => destruct x as [epk|]; [|discriminate] end. cbn [bind] in H.
  destruct (serialize epk false) as [ser|]; [|discriminate]. cbn [bind] in H. cbv zeta in H.
  match type of H with (bind ?x _) = _ => destruct x as [cek0|]; [|discriminate] end. cbn [bind] in H.
  match type of H with (bind ?x _) = _ => destruct x as [enc|]; [|discriminate] end. cbn [bind] in H.
  destruct (generate_key_and_iv R enc cek0 []) as [[cek1 iv1]|] eqn:G; [|discriminate]. cbn [bind] in H. destruct (generate_nonempty _ _ _ _ _ G) as [G1 G2].
  match type of H with (bind ?x _) = _ => destruct x as [ed|]; [|discriminate] end. cbn [bind] in H.
  match type of H with (bind ?x _) = _ => destruct x as [alg|]; [|discriminate] end. cbn [bind] in H.
  destruct (pval_eqb alg (VStr (lit "ECDH-ES"))).
  - destruct enc as [| | | |e| | |]; try discriminate. destruct (dget KEYLEN e) as [n|] eqn:KL; [|discriminate]. destruct (keylen e n KL) as (L1 & L2 & _).
    match type of H with (bind ?x _) = _ => destruct x as [K|] eqn:DV; [|discriminate] end. cbn [bind] in H. apply Ok_inj in H. repeat (apply pair_equal_spec in H; let X := fresh in destruct H as [H X]; subst).
    split; [exact (derive_nonempty _ _ _ _ _ _ _ _ _ BU BV L2 L1 DV)|]. split; [exact G2|]. split; [exists []; right; split; reflexivity|eexists _, _, _; reflexivity].
  - destruct alg as [| | | |a| | |]; try discriminate. destruct (dget ECDH_KW a) as [[post n]|]; [|discriminate].
    match type of H with (bind ?x _) = _ => destruct x as [K|]; [|discriminate] end. cbn [bind] in H. destruct (aes_wrap_key P K cek1) as [wk|]; [|discriminate].
    cbn [bind] in H. apply Ok_inj in H. repeat (apply pair_equal_spec in H; let X := fresh in destruct H as [H X]; subst).
    split; [exact G1|]. split; [exact G2|]. split; [exists wk; left; reflexivity|eexists _, _, _; reflexivity].
Qed.

(** Whatever the algorithm: a token is made of five segments, and the text of the first one is the associated data. *)
Theorem encrypt_produced : forall w keys cek iv kw tok w', bytes_ok cek = true -> bytes_ok iv = true ->
  jwe_encrypt P R w keys cek iv kw = Ok (tok, w') ->
  exists alg enc m h he ek iv' ct tag key, dget (w_dict w) (lit "alg") = Some alg /\ produced P R alg enc m h he ek iv' ct tag key tok /\ key <> [] /\ iv' <> [].
Proof.
  intros w keys cek iv kw tok w' BC BI H. unfold jwe_encrypt in H. unfold dict_get in H at 1. destruct (dget (w_dict w) (lit "alg")) as [alg|] eqn:AL; [|discriminate]. cbn [bind] in H.
  destruct (jws_keys P (as_jws w) keys) as [ks|]; [|discriminate]. cbn [bind] in H. destruct (pick_keys (as_jws w) ks _ _) as [[|k r]|]; try discriminate. cbn [bind] in H.
  destruct (family_of alg) as [f|] eqn:FA; [|discriminate]. cbn [bind] in H. destruct (family_truthy _ _ FA) as (TR & _). cbv zeta in H.
  destruct f.
  - change (if truthy (k_kid k) then dset (sub_dict w JWE_ARGS) (lit "kid") (k_kid k) else sub_dict w JWE_ARGS) with (named_dict k (sub_dict w JWE_ARGS)) in H.
    destruct (key_material P k alg true) as [mt|]; [|discriminate]. cbn [bind] in H.
    destruct (rsa_jwe_encrypt P R (named_dict k (sub_dict w JWE_ARGS)) (w_jwk w) (w_epk w) (w_msg w) mt cek iv) as [[tok' c]|] eqn:SE; [|discriminate].
    cbn [bind] in H. apply Ok_inj in H. apply pair_equal_spec in H. destruct H as [-> _].
    apply (rsa_inv P R DR) with (alg := alg) in SE; [|exact BC|exact BI|rewrite named_get by ne; apply sub_dict_alg; [exact AL|reflexivity]|exact TR].
    destruct SE as (p & m & enc & iv' & ek & h & he & ct & tag & O & MT & ZZ & EN & G & HD & EK & PR). destruct (generate_nonempty _ _ _ _ _ G) as [G1 G2].
    exists alg, enc, m, h, he, ek, iv', ct, tag, c. repeat split; try apply PR; assumption.
  - change (if truthy (k_kid k) then dset (sub_dict w SYM_ARGS) (lit "kid") (k_kid k) else sub_dict w SYM_ARGS) with (named_dict k (sub_dict w SYM_ARGS)) in H.
    destruct (key_material P k alg true) as [mt|]; [|discriminate]. cbn [bind] in H.
    set (ob := match w_jwk w with Some _ => true | None => false end) in H.
    destruct (sym_encrypt P R (named_dict k (sub_dict w SYM_ARGS)) ob (w_msg w) mt cek iv kw) as [tok'|] eqn:SE; [|discriminate]. cbn [bind] in H. apply Ok_inj in H. apply pair_equal_spec in H. destruct H as [-> _].
    apply (sym_inv P R DR) with (alg := alg) in SE; [|exact BC|exact BI|rewrite named_get by ne; apply sub_dict_alg; [exact AL|reflexivity]|exact TR].
    destruct SE as (t & m & enc & cek' & iv' & kek & ek & he & ct & tag & O & MT & U & EN & G & SK & WR & PR). destruct (generate_nonempty _ _ _ _ _ G) as [G1 G2].
    eexists alg, enc, m, _, he, ek, iv', ct, tag, cek'. split; [reflexivity|]. split; [exact PR|]. split; assumption.
  - change (if truthy (k_kid k) then dset (sub_dict w SYM_ARGS) (lit "kid") (k_kid k) else sub_dict w SYM_ARGS) with (named_dict k (sub_dict w SYM_ARGS)) in H.
    destruct (ec_enc_setup P R w k) as [[[[ck ek] iv'] params]|] eqn:ES; [|discriminate]. cbn [bind] in H.
    destruct (key_material P k alg true) as [mt|] eqn:KM; [|discriminate]. cbn [bind] in H.
    set (ob := match w_jwk w with Some _ => true | None => false end) in H.
    destruct (ec_encrypt P R (named_dict k (sub_dict w SYM_ARGS)) ob (w_msg w) ck ek iv' params kw) as [tok'|] eqn:SE; [|discriminate]. cbn [bind] in H. apply Ok_inj in H. apply pair_equal_spec in H. destruct H as [-> _].
    destruct (ec_setup_some _ _ _ _ _ _ ES) as (NC & NI & (ekb & OE) & u & v & e & ->).
    apply (ec_inv P R (named_dict k (sub_dict w SYM_ARGS)) ob (w_msg w) ck ek ekb iv' _ _ _ kw tok alg NC NI OE) in SE; [|rewrite named_get by ne; apply sub_dict_alg; [exact AL|reflexivity]|exact TR].
    destruct SE as (p & enc' & he & ct & tag & O & MO & EN' & PR).
    eexists alg, enc', p, _, he, ekb, iv', ct, tag, ck. split; [reflexivity|]. split; [exact PR|]. split; assumption.
Qed.
End Send.

(** C50, the sender. *)
Theorem header_protected : forall P R, hash_law P -> draws_ok R -> forall w keys cek iv kw tok w', bytes_ok cek = true -> bytes_ok iv = true ->
  jwe_encrypt P R w keys cek iv kw = Ok (tok, w') ->
  exists h alg enc m key iv' ct tag rest,
    b64encode_item (VDict h) = Ok (seg tok 0) /\ dget h (lit "alg") = Some alg /\ dget h (lit "enc") = Some enc /\
    enc_setup P R enc m (seg tok 0) key iv' = Ok (ct, tag, key) /\ key <> [] /\ iv' <> [] /\
    mapM utf8_decode [b64e iv'; b64e ct; b64e tag] = Ok rest /\ exists ek, tok = join 46 (seg tok 0 :: ek :: rest).
Proof.
  intros P R HL DR w keys cek iv kw tok w' BC BI H. destruct (encrypt_produced P R HL DR _ _ _ _ _ _ _ BC BI H) as (alg & enc & m & h & he & ek & iv' & ct & tag & key & AL & PR & NK & NI).
  pose proof (produced_first _ _ _ _ _ _ _ _ _ _ _ _ _ PR) as F. assert (E : seg tok 0 = he) by (unfold seg; destruct (split 46 tok); exact F). rewrite E.
  destruct (pd_segments _ _ _ _ _ _ _ _ _ _ _ _ _ PR) as (ts & T & J). change (mapM utf8_decode (b64e ek :: ?l)) with (x <- utf8_decode (b64e ek);; y <- mapM utf8_decode l;; Ok (x :: y)) in T.
  destruct (utf8_decode (b64e ek)) as [ek'|]; [|discriminate]. cbn [bind] in T. set (l := [b64e iv'; b64e ct; b64e tag]) in *. destruct (mapM utf8_decode l) as [rest|] eqn:ML; [|discriminate]. cbn [bind] in T. apply Ok_inj in T.
  exists h, alg, enc, m, key, iv', ct, tag, rest. split; [apply (pd_header _ _ _ _ _ _ _ _ _ _ _ _ _ PR)|]. split; [apply (pd_alg _ _ _ _ _ _ _ _ _ _ _ _ _ PR)|]. split; [apply (pd_enc _ _ _ _ _ _ _ _ _ _ _ _ _ PR)|].
  split; [apply (pd_content _ _ _ _ _ _ _ _ _ _ _ _ _ PR)|]. split; [exact NK|]. split; [exact NI|]. split; [exact ML|]. exists ek'. rewrite J, <- T. reflexivity.
Qed.

(** ** The receiver *)
Section Receive.
Variable P : prims.

(** [m0] is what the content of [j] decrypts to under [key], its first segment being the associated data. *)
Definition opened (j : jwt) (m0 : bytes) : Prop :=
  exists enc key ct iv tag h, py_get (j_headers j) (lit "enc") = Ok enc /\ nth_error (j_b64 j) 0 = Some h /\
    nth_error (j_part j) 2 = Some (VBytes iv) /\ nth_error (j_part j) 3 = Some (VBytes ct) /\ nth_error (j_part j) 4 = Some (VBytes tag) /\
    content_decrypt P enc key ct h iv tag = Ok m0.

Lemma part_inv : forall j i b, part j i = Ok b -> nth_error (j_part j) i = Some (VBytes b).
Proof. intros j i b H. unfold part in H. destruct (nth_error (j_part j) i) as [[]|]; try discriminate. apply Ok_inj in H. congruence. Qed.
Lemma b64part_inv : forall j i b, b64part j i = Ok b -> nth_error (j_b64 j) i = Some b.
Proof. intros j i b H. unfold b64part in H. destruct (nth_error (j_b64 j) i); [|discriminate]. apply Ok_inj in H. congruence. Qed.

Ltac step H x := match type of H with (bind ?e _) = _ => destruct e as [x|] eqn:?; [cbn [bind] in H|discriminate] end.

Lemma sym_decrypt_inv : forall d j key cek m, sym_decrypt P d j key cek = Ok m -> length (j_part j) = 5%nat /\
  exists m0, opened j m0 /\ (dget d (lit "zip") <> Some (VStr (lit "DEF")) -> m = m0).
Proof.
  intros d j key cek m H. unfold sym_decrypt in H. match type of H with (if ?b then _ else _) = _ => destruct b; [discriminate|] end.
  destruct (Nat.eqb (length (j_part j)) 5) eqn:L; [|discriminate]. cbn [negb] in H. split; [apply Nat.eqb_eq; exact L|].
  step H ck. step H enc. step H ct. step H h. step H iv. step H tag. step H m0.
  exists m0. split.
  - exists enc, ck, ct, iv, tag, h. repeat split; try (apply part_inv; assumption); try (apply b64part_inv; assumption); assumption.
  - intro Z. destruct (dget d (lit "zip")) as [z|]; [|apply Ok_inj in H; congruence]. destruct (pval_eqb z (VStr (lit "DEF"))) eqn:E; [|apply Ok_inj in H; congruence].
    exfalso. apply Z. f_equal. destruct z; cbn in E; try discriminate. f_equal. apply zs_eqb_eq. exact E.
Qed.

Lemma rsa_decrypt_inv : forall sentinel j key cek m c, rsa_jwe_decrypt P sentinel j key cek = Ok (m, c) ->
  exists m0, opened j m0 /\ (m = m0 \/ (py_get (j_headers j) (lit "zip") = Ok (VStr (lit "DEF")) /\ p_decompress P m0 = Ok m)).
Proof.
  intros sentinel j key cek m c H. unfold rsa_jwe_decrypt in H. step H jek. step H a. step H ck. step H enc. destruct (in_texts enc SUPPORTED_ENC); [|discriminate].
  step H ct. step H h. step H iv. step H tag. step H m0. step H z. step H m1. apply Ok_inj in H. apply pair_equal_spec in H. destruct H as [-> ->].
  exists m0. split.
  - exists enc, c, ct, iv, tag, h. repeat split; try (apply part_inv; assumption); try (apply b64part_inv; assumption); assumption.
  - destruct z; [|left; match goal with X : Ok m0 = Ok m |- _ => apply Ok_inj in X; congruence end].
    destruct (py_get (j_headers j) (lit "zip")) as [v|]; [|discriminate]. match goal with X : _ = Ok m |- _ => cbn [bind] in X; rename X into Q end.
    destruct (pval_eqb v (VStr (lit "DEF"))) eqn:E; [right|left; apply Ok_inj in Q; congruence]. split; [|exact Q]. f_equal. destruct v; cbn in E; try discriminate. f_equal. apply zs_eqb_eq. exact E.
Qed.

Lemma ec_decrypt_inv : forall j cek m, ec_decrypt P j cek = Ok m -> opened j m.
Proof.
  intros j cek m H. unfold ec_decrypt in H. destruct (is_nil cek); [discriminate|]. step H enc. step H ct. step H h. step H iv. step H tag.
  exists enc, cek, ct, iv, tag, h. repeat split; try (apply part_inv; assumption); try (apply b64part_inv; assumption); assumption.
Qed.

Lemma dec_loop_inv : forall A alg (dec : nat -> material -> res A) ks i x, dec_loop P alg dec ks i = Ok x ->
  exists n k m, nth_error ks n = Some k /\ key_material P k alg false = Ok m /\ dec (i + n)%nat m = Ok x.
Proof.
  intros A alg dec ks. induction ks as [|k r IH]; intros i x H; [discriminate|]. cbn [dec_loop] in H. step H m.
  destruct (dec i m) as [y|e] eqn:D.
  - apply Ok_inj in H. subst y. exists 0%nat, k, m. rewrite Nat.add_0_r. repeat split; assumption.
  - assert (G : dec_loop P alg dec r (S i) = Ok x) by (destruct e; try discriminate; exact H). destruct (IH _ _ G) as (n & k' & m' & N & K & X). exists (S n), k', m'.
    rewrite Nat.add_succ_r. repeat split; assumption.
Qed.

Lemma cek_first_inv : forall A cek (m r : res A) x, cek_first cek m r = Ok x -> (cek <> [] /\ m = Ok x) \/ r = Ok x.
Proof.
  intros A cek m r x H. unfold cek_first in H. destruct cek as [|c cek]; [right; exact H|]. cbn [is_nil] in H. destruct m as [y|e]; [left; split; [discriminate|exact H]|]. right. destruct e; try discriminate; exact H.
Qed.

(** C50, C53, C54: what an accepted token looks like. *)
Theorem decrypt_accepts : forall sent w token keys alg cek m w', truthy token = true -> jwe_decrypt P sent w token keys alg cek = Ok (m, w') ->
  exists j a f m0, unpack token = Ok j /\ py_get (j_headers j) (lit "alg") = Ok (VStr a) /\ (truthy alg = true -> alg = VStr a) /\ family_of (VStr a) = Ok f /\
    opened j m0 /\
    match f with
    | FRsa => m = m0 \/ (py_get (j_headers j) (lit "zip") = Ok (VStr (lit "DEF")) /\ p_decompress P m0 = Ok m)
    | FSym => m = m0 /\ length (j_part j) = 5%nat
    | FEc => m = m0
    end.
Proof.
  intros sent w token keys alg cek m w' T H. unfold jwe_decrypt in H. rewrite T in H. step H j. step H a.
  destruct (truthy alg && negb (pval_eqb alg a)) eqn:AG; [discriminate|]. step H ks. step H ks'. destruct (is_nil ks' && is_nil cek); [discriminate|]. destruct (family_of a) as [f|] eqn:FA; [|discriminate]. cbn [bind] in H. destruct (family_truthy _ _ FA) as (_ & t & ->).
  assert (AA : truthy alg = true -> alg = VStr t).
  { intro X. rewrite X in AG. cbn [andb] in AG. apply negb_false_iff in AG. destruct alg; cbn in AG; try discriminate. f_equal. apply zs_eqb_eq. exact AG. }
  assert (NZ : dget (sub_dict w SYM_ARGS) (lit "zip") <> Some (VStr (lit "DEF"))) by (rewrite sub_dict_none; [discriminate|repeat split; ne|ne|reflexivity]).
  destruct f.
  - match type of H with (bind ?e _) = _ => destruct e as [[m1 c]|] eqn:E; [cbn [bind] in H|discriminate] end. apply Ok_inj in H. apply pair_equal_spec in H. destruct H as [-> _].
    assert (X : exists s k ck, rsa_jwe_decrypt P s j k ck = Ok (m, c)).
    { apply cek_first_inv in E. destruct E as [[_ E]|E]; [eexists _, _, _; exact E|]. apply dec_loop_inv in E. destruct E as (n & k & mt & _ & _ & D). eexists _, _, _. exact D. }
    destruct X as (s & k & ck & X). destruct (rsa_decrypt_inv _ _ _ _ _ _ X) as (m0 & O & Z). exists j, t, FRsa, m0. repeat split; assumption.
  - match type of H with (bind ?e _) = _ => destruct e as [m1|] eqn:E; [cbn [bind] in H|discriminate] end. apply Ok_inj in H. apply pair_equal_spec in H. destruct H as [-> _].
    assert (X : exists k ck, sym_decrypt P (sub_dict w SYM_ARGS) j k ck = Ok m).
    { apply cek_first_inv in E. destruct E as [[_ E]|E]; [eexists _, _; exact E|]. apply dec_loop_inv in E. destruct E as (n & k & mt & _ & _ & D). eexists _, _. exact D. }
    destruct X as (k & ck & X). destruct (sym_decrypt_inv _ _ _ _ _ X) as (L & m0 & O & Z). exists j, t, FSym, m0. repeat split; try assumption. exact (Z NZ).
  - destruct ks' as [|k r]; [discriminate|]. step H ck. match type of H with (bind ?e _) = _ => destruct e as [m1|] eqn:E; [cbn [bind] in H|discriminate] end. apply Ok_inj in H. apply pair_equal_spec in H. destruct H as [-> _].
    assert (X : ec_decrypt P j ck = Ok m).
    { apply cek_first_inv in E. destruct E as [[_ E]|E]; [exact E|]. apply dec_loop_inv in E. destruct E as (n & k' & mt & _ & _ & D). exact D. }
    exists j, t, FEc, m. repeat split; try assumption. exact (ec_decrypt_inv _ _ _ X).
Qed.

Lemma Forall2_len : forall A B (Q : A -> B -> Prop) l l', Forall2 Q l l' -> length l = length l'.
Proof. induction 1; cbn [length]; congruence. Qed.

(** The same, in terms of the segments of the token. *)
Lemma opened_segments : forall token j m0, unpack token = Ok j -> opened j m0 ->
  exists tok, (token = VStr tok \/ token = VBytes tok) /\ (5 <= length (split 46 tok))%nat /\ length (j_part j) = length (split 46 tok) /\
  exists hb t enc key ct iv tag, b64d (seg tok 0) = Ok hb /\ utf8_decode hb = Ok t /\ loads t = Ok (j_headers j) /\ py_get (j_headers j) (lit "enc") = Ok enc /\
    b64d (seg tok 2) = Ok iv /\ b64d (seg tok 3) = Ok ct /\ b64d (seg tok 4) = Ok tag /\
    content_decrypt P enc key ct (seg tok 0) iv tag = Ok m0.
Proof.
  intros token j m0 U (enc & key & ct & iv & tag & h & E & N0 & N2 & N3 & N4 & C). destruct (unpack_segments _ _ U) as (tok & T & B & L & ps & JP & F & _ & t & U8 & LD).
  exists tok. split; [exact T|]. rewrite B in F, N0, L. rewrite JP in N2, N3, N4. rewrite JP, map_length. unfold seg.
  do 5 (destruct ps as [|? ps]; [try discriminate N4|]); cbn [map nth_error] in N2, N3, N4; try discriminate.
  inversion F as [|s0 ? l0 ? Q0 F0 EQ0]; subst. inversion F0 as [|s1 ? l1 ? Q1 F1]; subst. inversion F1 as [|s2 ? l2 ? Q2 F2]; subst. inversion F2 as [|s3 ? l3 ? Q3 F3]; subst. inversion F3 as [|s4 ? l4 ? Q4 F4]; subst.
  rewrite <- EQ0 in *. cbn [nth length nth_error hd] in *. assert (F5 := F4); apply Forall2_len in F5. injection N0 as <-. injection N2 as ->. injection N3 as ->. injection N4 as ->.
  split; [lia|]. split; [exact (f_equal (fun n => S (S (S (S (S n))))) (eq_sym F5))|]. eexists _, t, enc, key, ct, iv, tag. repeat split; eassumption.
Qed.
End Receive.
