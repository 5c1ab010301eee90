(** * JWE with ECDH-ES: both sides derive the same key *)
From Coq Require Import ZArith List Bool Lia ZifyBool.
From Verif Require Import Base BaseProofs Utf8 Codec CodecProofs Json JsonProofs Jwt JwtProofs Prims Elliptic Ecc EccProofs EcAux KeyWrap KeyWrapProofs Extra ExtraProofs Gcm PvalEq Jwk JwkProofs JwkProofs2 Jws JwsProofs JwsProofs2 JwsProofs3 JwsProofs4 JwsProofs6 Jwe JweProofs JweProofs2 JweProofs3 JweProofs4.
Import ListNotations.
Open Scope Z_scope.

Lemma b2s_dict_dset : forall d d' n v v', b2s_dict d = Ok d' -> b2s_conv v = Ok v' -> b2s_dict (dset d n v) = Ok (dset d' n v').
Proof.
  induction d as [|[k x] d IH]; intros d' n v v' E V; cbn [b2s_dict dset] in *.
  - injection E as <-. cbn [dset]. rewrite V. reflexivity.
  - destruct (b2s_conv x) as [y|] eqn:Y; [|discriminate]. cbn [bind] in E. destruct (b2s_dict d) as [e|] eqn:Q; [|discriminate]. cbn [bind] in E. injection E as <-. cbn [dset].
    destruct (zs_eqb k n); cbn [b2s_dict]; [rewrite V, Q; reflexivity|rewrite Y, (IH e n v v' eq_refl V); reflexivity].
Qed.
Lemma b2s_dset : forall d d' n v v', b2s_conv (VDict d) = Ok (VDict d') -> b2s_conv v = Ok v' -> b2s_conv (VDict (dset d n v)) = Ok (VDict (dset d' n v')).
Proof.
  intros d d' n v v' D V. rewrite b2s_VDict in *. destruct (b2s_dict d) as [e|] eqn:E; [|discriminate]. cbn [bind] in D. injection D as ->.
  rewrite (b2s_dict_dset _ _ _ _ _ E V). reflexivity.
Qed.

(** What is published of an ephemeral key is read back by ECKey( **epk). *)
Lemma epk_read : forall e key crv x y d c, k_data e = DEc key crv (VInt x) (VInt y) d (OCurve c) -> 0 < x -> 0 < y -> named c -> annotated e ->
  exists b, serialize e false = Ok (VDict b) /\ jsonable (VDict b) = true /\ dmem b (lit "crv") = true /\
    exists k2 o cv dd, ec_new b (OVal (kwarg b (lit "key") VNone)) (OVal (kwarg b (lit "curve") VNone)) 0 = Ok k2 /\ k_data k2 = DEc o cv (VInt x) (VInt y) dd (OCurve c).
Proof.
  intros k key crv x y d c D X Y N A.
  destruct (ec_ser k key crv x y d c false D X Y ltac:(discriminate) N A) as (b & S & B & K & F4 & GC & (tx & LX & GX) & (ty & LY & GY) & GD).
  exists b. split; [exact S|].
  assert (SC : forall m, In m (dkeys b) -> scalars m = true).
  { intros m I. destruct (K m I) as [J|J]; unfold four, ec_names in J; cbn [In app] in J; repeat (destruct J as [<-|J]; [reflexivity|]); destruct J. }
  split; [apply jsonable_text; [apply (serialize_nodup _ _ _ S)|exact B|exact SC]|]. split; [unfold dmem; rewrite GC; reflexivity|].
  destruct (num_b64 x X) as (tx' & X1 & X2 & X3 & X4 & X5 & X6). rewrite LX in X2. apply Ok_inj in X2. subst tx'.
  destruct (num_b64 y Y) as (ty' & Y1 & Y2 & Y3 & Y4 & Y5 & Y6). rewrite LY in Y2. apply Ok_inj in Y2. subst ty'.
  assert (NO : forall m, ~ In m four -> ~ In m (ec_names false) -> dget b m = None) by (intros m N1 N2; apply dget_none_keys; intro I; destruct (K m I); contradiction).
  assert (Z : forall m, In m [lit "key"; lit "curve"; lit "self"] -> dget b m = None).
  { intros m I. cbn [In] in I. apply NO; intro J; unfold four, ec_names in J; cbn [In app] in J; repeat (destruct I as [<-|I]; [repeat (destruct J as [J|J]; [vm_compute in J; discriminate J|]); exact J|]); exact I. }
  unfold ec_new, kwarg. rewrite (Z (lit "key")), (Z (lit "curve")) by (cbn [In]; tauto). rewrite GC, GX, GY, GD. unfold key_init, dmem. rewrite (Z (lit "self")) by (cbn [In]; tauto). cbv zeta. cbn [bind].
  set (nm := lit "P-" ++ dec (c_bits c)) in *. assert (Nn : nm <> []) by (apply by_name_nonnil with (c := c); exact N).
  assert (TB : forall t, t <> [] -> truthy (VStr t) = true) by (intros []; [contradiction|reflexivity]).
  rewrite (TB nm Nn). cbn [otruthy truthy negb andb]. cbn [verify_loop]. rewrite (TB tx X4). cbn [negb orb is_int octet_list bind].
  unfold ec_deserialize. cbn [is_int]. rewrite X6, Y6. cbn [bind conv_value_error]. unfold curve_by_name. unfold named in N. fold nm in N. rewrite N. cbn [bind truthy].
  eexists _, _, _, _. split; reflexivity.
Qed.

(** ** The derived key *)
Section Ec.
Variables (P : prims) (R : draws).
Hypotheses (AES : aes_law P) (HM : hmac_law P) (HL : hash_law P) (DR : draws_ok R).

Lemma kdf_stream_ok : forall s i m, bytes_ok s = true -> bytes_ok i = true -> bytes_ok (kdf_stream P s i m) = true.
Proof.
  intros s i m SB IB. induction m as [|m IH]; [reflexivity|]. rewrite kdf_stream_S, bytes_ok_app, IH. apply HL. rewrite !bytes_ok_app, z2be_ok, SB, IB. reflexivity.
Qed.

Lemma derive_both : forall name c, by_name name = Ok c -> forall a b ax ay bx by' apu apv alg n K, 0 < a < c_N c -> 0 < b < c_N c ->
  public_key_for c a = Some (ax, ay) -> public_key_for c b = Some (bx, by') -> bytes_ok apu = true -> bytes_ok apv = true -> bytes_ok alg = true -> 0 <= n <= 256 * (2 ^ 24) ->
  derive P c (VInt a) (VInt bx) (VInt by') (Some apu) (Some apv) alg n = Ok K ->
  derive P c (VInt b) (VInt ax) (VInt ay) (Some apu) (Some apv) alg n = Ok K /\ bytes_ok K = true /\ length K = Z.to_nat ((n + 7) / 8).
Proof.
  intros name c BN a b ax ay bx by' apu apv alg n K HA HB PA PB BU BV BA HN H. unfold derive in *. cbn [as_num as_int bind] in *.
  destruct (dh_nist name c BN a b HA HB) as (z & Z1 & Z2 & _). rewrite PB in Z1. rewrite PA in Z2. rewrite Z1 in H. rewrite Z2. cbn [bind] in *.
  split; [exact H|]. destruct (other_info apu apv alg n) as [oi|] eqn:OI; [|discriminate]. cbn [bind] in H.
  assert (ZB : bytes_ok z = true) by (unfold dh_z in Z1; destruct (mulp _ _ _ _ _) as [[u v]|]; [|discriminate]; apply Ok_inj in Z1; subst z; apply z2be_ok).
  assert (IB : bytes_ok oi = true).
  { unfold other_info, pack_I in OI. repeat match type of OI with context [if ?b then _ else _] => destruct b; cbn [bind] in OI; try discriminate OI end.
    apply Ok_inj in OI. subst oi. rewrite !bytes_ok_app, !z2be_ok, BU, BV, BA. reflexivity. }
  destruct (concat_sha256_ok P HL z n oi ZB IB ltac:(lia)) as [C1 C2]. rewrite C1 in H. apply Ok_inj in H. subst K. split; [|exact C2].
  apply bytes_ok_firstn. apply kdf_stream_ok; assumption.
Qed.

Lemma by_name_named : forall name c, by_name name = Ok c -> named c.
Proof.
  intros name c H. assert (E : name = lit "P-256" \/ name = lit "P-384" \/ name = lit "P-521").
  { unfold by_name in H. destruct (zs_eqb name (lit "P-256")) eqn:E1; [left; apply zs_eqb_eq; exact E1|]. destruct (zs_eqb name (lit "P-384")) eqn:E2; [right; left; apply zs_eqb_eq; exact E2|].
    destruct (zs_eqb name (lit "P-521")) eqn:E3; [right; right; apply zs_eqb_eq; exact E3|discriminate]. }
  assert (X : by_name name = Ok c -> forall c0, by_name name = Ok c0 -> c = c0) by (intros A c0 B; rewrite A in B; exact (Ok_inj _ _ _ B)).
  unfold named. destruct E as [-> |[-> | ->]]; [rewrite (X H _ by_name_256); exact by_name_256|rewrite (X H _ by_name_384); exact by_name_384|rewrite (X H _ by_name_521); exact by_name_521].
Qed.

Lemma num_pos : forall z t, 0 <= z -> num_to_base64 (VInt z) = Ok t -> 0 < z.
Proof. intros z t H E. destruct (Z.eq_dec z 0) as [->|]; [discriminate E|lia]. Qed.

Lemma pub_range : forall name c, by_name name = Ok c -> forall d, 0 < d < c_N c -> exists x y, public_key_for c d = Some (x, y) /\ 0 <= x /\ 0 <= y.
Proof.
  intros name c BN d D. destruct (key_pair_nist name c BN (d - 1)) as (d' & x & y & K & _ & _ & X & Y & _). unfold key_pair in K. cbv zeta in K.
  rewrite Z.mod_small in K by lia. replace (d - 1 + 1) with d in K by lia. apply pair_equal_spec in K. destruct K as [_ K]. exists x, y. split; [exact K|lia].
Qed.

Lemma new_pair : forall c rnd, (k <- ec_new [] onone onone 0;; ec_load_key k (OCurve c) rnd) =
  match key_pair c rnd with
  | (d, Some (x, y)) => Ok (fields (VStr (lit "EC")) (VStr []) (VStr []) (VStr []) (DEc onone (VStr []) (VInt x) (VInt y) (VInt d) (OCurve c)))
  | (_, None) => Raise ETypeError
  end.
Proof. reflexivity. Qed.

(** An ephemeral key of the caller: a proper key pair on the curve. *)
Definition epk_for (c : curve) (w : jwe) : Prop :=
  match w_epk w with
  | None => True
  | Some e => exists o crv ex ey ed, k_data e = DEc o crv (VInt ex) (VInt ey) (VInt ed) (OCurve c) /\ 0 < ed < c_N c /\ public_key_for c ed = Some (ex, ey) /\ annotated e
  end.

Definition EC_ALGS : list ustr := [lit "ECDH-ES"; lit "ECDH-ES+A128KW"; lit "ECDH-ES+A192KW"; lit "ECDH-ES+A256KW"].
Lemma ec_alg : forall a, In a EC_ALGS -> alg2keytype (VStr a) = Ok (Some (lit "EC")) /\ family_of (VStr a) = Ok FEc /\ pval_eqb (VStr a) (VStr (lit "none")) = false /\ truthy (VStr a) = true.
Proof. intros a I. unfold EC_ALGS in I. cbn [In] in I. repeat (destruct I as [<-|I]; [repeat split; reflexivity|]). destruct I. Qed.

(** The two ways the content key comes about; [A] derives the key of the given name and length. *)
Definition agreed (A : bytes -> Z -> res bytes) (a : ustr) (enc : pval) (cek ekb : bytes) : Prop :=
  (a = lit "ECDH-ES" /\ ekb = [] /\ exists e n, enc = VStr e /\ dget KEYLEN e = Some n /\ A e n = Ok cek) \/
  (a <> lit "ECDH-ES" /\ exists post n kek, dget ECDH_KW a = Some (post, n) /\ A post n = Ok kek /\ aes_wrap_key P kek cek = Ok ekb).

Lemma ec_setup_inv : forall name c, by_name name = Ok c -> forall w k a o crv kx ky d cv cek ek iv params, k_data k = DEc o crv kx ky d cv -> curve_by_name crv = Ok c -> epk_for c w ->
  (forall b, dget (w_dict w) (lit "cek") = Some (VBytes b) -> bytes_ok b = true) -> dget (w_dict w) (lit "alg") = Some (VStr a) ->
  ec_enc_setup P R w k = Ok (cek, ek, iv, params) ->
  exists apu apv ed ex ey b enc ekb, bytes_ok apu = true /\ bytes_ok apv = true /\
    params = [(lit "apu", VBytes (b64e apu)); (lit "apv", VBytes (b64e apv)); (lit "epk", VDict b)] /\
    0 < ed < c_N c /\ public_key_for c ed = Some (ex, ey) /\ jsonable (VDict b) = true /\ dmem b (lit "crv") = true /\
    (exists k2 o cv dd, ec_new b (OVal (kwarg b (lit "key") VNone)) (OVal (kwarg b (lit "curve") VNone)) 0 = Ok k2 /\ k_data k2 = DEc o cv (VInt ex) (VInt ey) dd (OCurve c)) /\
    dget (w_dict w) (lit "enc") = Some enc /\ iv <> [] /\ bytes_ok iv = true /\ octets_ek ek ekb /\
    agreed (derive P c (VInt ed) kx ky (Some apu) (Some apv)) a enc cek ekb /\
    (a <> lit "ECDH-ES" -> cek <> [] /\ bytes_ok cek = true /\ ((exists x, dget (w_dict w) (lit "cek") = Some (VBytes x) /\ x <> [] /\ cek = x) \/ exists e kl il, enc = VStr e /\ enc_sizes e = Some (kl, il) /\ cek = r_cek R kl)).
Proof.
  intros name c BN w k a o crv kx ky d cv cek ek iv params KD CB EF CO AL H. unfold ec_enc_setup in H. rewrite KD in H.
  destruct (match dget (w_dict w) (lit "apu") with Some v => b64d_arg v | None => Ok (r_apu R) end) as [apu|] eqn:EU; [|discriminate]. cbn [bind] in H.
  destruct (match dget (w_dict w) (lit "apv") with Some v => b64d_arg v | None => Ok (r_apv R) end) as [apv|] eqn:EV; [|discriminate]. cbn [bind] in H.
  assert (BU : bytes_ok apu = true).
  { destruct (dget (w_dict w) (lit "apu")) as [v|]; [destruct v; try discriminate; exact (b64d_bytes _ _ EU)|apply Ok_inj in EU; subst apu; apply (do_apu R DR)]. }
  assert (BV : bytes_ok apv = true).
  { destruct (dget (w_dict w) (lit "apv")) as [v|]; [destruct v; try discriminate; exact (b64d_bytes _ _ EV)|apply Ok_inj in EV; subst apv; apply (do_apv R DR)]. }
  rewrite CB in H. cbn [bind] in H.
  match type of H with (bind ?x _) = _ => destruct x as [epk|] eqn:EE; [|discriminate] end. cbn [bind] in H.
  assert (EP : exists o crv ex ey ed, k_data epk = DEc o crv (VInt ex) (VInt ey) (VInt ed) (OCurve c) /\ 0 < ed < c_N c /\ public_key_for c ed = Some (ex, ey) /\ annotated epk).
  { unfold epk_for in EF. destruct (w_epk w) as [e|].
    - destruct EF as (o1 & crv1 & ex & ey & ed & ED & E2 & E3 & E4). rewrite ED in EE. apply Ok_inj in EE. subst epk. exists o1, crv1, ex, ey, ed. repeat split; try assumption; try lia; apply E4.
    - destruct (dget (w_dict w) (lit "epk")); [discriminate|]. rewrite new_pair in EE. destruct (key_pair_nist name c BN (r_eph R)) as (d' & x & y & K & DR' & _). rewrite K in EE. apply Ok_inj in EE. subst epk.
      unfold key_pair in K. cbv zeta in K. apply pair_equal_spec in K. destruct K as [K1 K2]. rewrite K1 in K2. exists onone, (VStr []), x, y, d'. split; [reflexivity|]. split; [lia|]. split; [exact K2|]. repeat split. }
  destruct EP as (o1 & crv1 & ex & ey & ed & ED & E2 & E3 & E4).
  destruct (serialize epk false) as [ser|] eqn:SR; [|discriminate]. cbn [bind] in H. cbv zeta in H.
  destruct (pub_range name c BN ed E2) as (ex' & ey' & PX & RX & RY). rewrite E3 in PX. injection PX as <- <-.
  assert (POS : 0 < ex /\ 0 < ey).
  { unfold serialize in SR. rewrite ED in SR. destruct (negb (truthy crv1) && negb (otruthy (OCurve c))); [discriminate|]. destruct (num_to_base64 (VInt ex)) eqn:N1; [|discriminate]. cbn [bind] in SR.
    destruct (num_to_base64 (VInt ey)) eqn:N2; [|discriminate]. split; eapply num_pos; eassumption. }
  destruct POS as [PX PY]. destruct (epk_read epk o1 crv1 ex ey (VInt ed) c ED PX PY (by_name_named _ _ BN) E4) as (b & SR' & JB & CB' & RD).
  rewrite SR in SR'. apply Ok_inj in SR'. subst ser.
  match type of H with (bind ?x _) = _ => destruct x as [cek0|] eqn:EC; [|discriminate] end. cbn [bind] in H.
  rewrite sub_dict_get in H by (ne || (repeat split; ne) || reflexivity). destruct (dget (w_dict w) (lit "enc")) as [enc|] eqn:EN; [|discriminate]. cbn [bind] in H.
  assert (BC0 : bytes_ok cek0 = true) by (destruct (dget (w_dict w) (lit "cek")) as [v|]; [destruct v; cbn [truthy] in EC; repeat match type of EC with context [if ?b then _ else _] => destruct b end; try discriminate; apply Ok_inj in EC; subst cek0; try reflexivity; apply CO; reflexivity|apply Ok_inj in EC; subst cek0; reflexivity]).
  destruct (generate_key_and_iv R enc cek0 []) as [[cek1 iv1]|] eqn:G; [|discriminate]. cbn [bind] in H.
  destruct (generate_ok R DR enc cek0 [] cek1 iv1 BC0 eq_refl G) as (G1 & G2 & G3 & G4 & G5 & _ & G7).
  rewrite ED in H. cbn [bind] in H. rewrite (sub_dict_alg w SYM_ARGS (VStr a) AL eq_refl) in H. cbn [bind] in H. rewrite pval_eqb_str in H.
  destruct (zs_eqb a (lit "ECDH-ES")) eqn:EA.
  - apply zs_eqb_eq in EA. destruct enc as [| | | |e| | |]; try discriminate. destruct (dget KEYLEN e) as [n|] eqn:KL; [|discriminate].
    destruct (derive P c (VInt ed) kx ky (Some apu) (Some apv) e n) as [K|] eqn:DV; [|discriminate]. cbn [bind] in H. apply Ok_inj in H. repeat (apply pair_equal_spec in H; let X := fresh in destruct H as [H X]; subst).
    exists apu, apv, ed, ex, ey, b, (VStr e), []. do 3 (split; [first [assumption|reflexivity]|]). split; [exact E2|]. do 7 (split; [first [assumption|reflexivity]|]). split; [right; split; reflexivity|]. split; [|congruence].
    left. split; [reflexivity|]. split; [reflexivity|]. exists e, n. repeat split; assumption.
  - apply zs_eqb_neq in EA. destruct (dget ECDH_KW a) as [[post n]|] eqn:KW; [|discriminate].
    destruct (derive P c (VInt ed) kx ky (Some apu) (Some apv) post n) as [K|] eqn:DV; [|discriminate]. cbn [bind] in H. destruct (aes_wrap_key P K cek1) as [wk|] eqn:WK; [|discriminate].
    cbn [bind] in H. apply Ok_inj in H. repeat (apply pair_equal_spec in H; let X := fresh in destruct H as [H X]; subst).
    exists apu, apv, ed, ex, ey, b, enc, wk. do 3 (split; [first [assumption|reflexivity]|]). split; [exact E2|]. do 7 (split; [first [assumption|reflexivity]|]). split; [left; reflexivity|]. split.
    + right. split; [exact EA|]. exists post, n, K. repeat split; assumption.
    + intros _. split; [exact G1|]. split; [exact G3|]. destruct cek0 as [|x cek0]; [right; exact (G7 eq_refl)|left]. exists (x :: cek0). split; [|split; [discriminate|exact (G5 ltac:(discriminate))]].
      destruct (dget (w_dict w) (lit "cek")) as [v|]; [|discriminate]. destruct v; cbn [truthy] in EC; repeat match type of EC with context [if ?b then _ else _] => destruct b end; try discriminate. congruence.
Qed.
End Ec.
