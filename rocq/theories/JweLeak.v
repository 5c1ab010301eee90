(** * JWE: tokens whose ephemeral key is not on the curve *)
From Coq Require Import ZArith List Bool Lia.
From Verif Require Import Base BaseProofs Utf8 Codec CodecProofs Json Jwt JwtProofs Prims Elliptic Ecc EccProofs Nist EcAux EcLeak Extra ExtraProofs SymAux PvalEq Jwk JwkProofs JwkEx Jws JwsProofs JwsProofs6 Inst.
From Verif Require Import Jwe JweProofs JweProofs2 JweProofs3 JweProofs4 JweProofs5 JweProofs6 JweProofs13 JweEx.
Import ListNotations.
Open Scope Z_scope.

(** The point (3, 4) as JSON web key. *)
Definition leak_jwk (name : ustr) : dict := [(lit "kty", VStr (lit "EC")); (lit "crv", VStr name); (lit "x", VStr (lit "Aw")); (lit "y", VStr (lit "BA"))].
Lemma names3 : forall name c, by_name name = Ok c -> (name = lit "P-256" /\ c = P256) \/ (name = lit "P-384" /\ c = P384) \/ (name = lit "P-521" /\ c = P521).
Proof.
  intros name c H. unfold by_name in H.
  destruct (zs_eqb name _) eqn:E; [|clear E; destruct (zs_eqb name _) eqn:E; [|clear E; destruct (zs_eqb name _) eqn:E; [|discriminate H]]];
    apply zs_eqb_eq in E; rewrite ?P521_eq, ?P384_eq, ?P256_eq in H; injection H as <-; auto.
Qed.

Lemma leak_new : forall name c, by_name name = Ok c -> exists k,
  ec_new (leak_jwk name) (OVal (kwarg (leak_jwk name) (lit "key") VNone)) (OVal (kwarg (leak_jwk name) (lit "curve") VNone)) 0 = Ok k /\
  k_data k = DEc onone (VStr name) (VInt 3) (VInt 4) (VStr []) (OCurve c).
Proof.
  intros name c H. destruct (names3 name c H) as [[-> ->]|[[-> ->]|[-> ->]]];
    (destruct (ec_new _ _ _ _) as [k|] eqn:E in |- *; vm_compute in E; [|discriminate E]; apply Ok_inj in E; subst k; match goal with |- exists k, Ok ?x = Ok k /\ _ => exists x end; split; reflexivity).
Qed.

Lemma party_arg : forall h n b, party_octets h n b -> text_arg (VDict h) n = Ok (Some b) /\ bytes_ok b = true.
Proof.
  intros h n b (t & D & A & B). split; [|exact (b64d_bytes _ _ B)].
  unfold text_arg. cbn [py_in py_get bind]. unfold dmem. rewrite D. cbn [bind]. rewrite utf8_encode_ascii by exact A. cbn [bind]. rewrite B. reflexivity.
Qed.

Lemma derive_three : forall P, hash_law P -> forall name c, by_name name = Ok c -> forall vd d apu apv alg n,
  as_int vd = Some d -> 0 <= d -> bytes_ok apu = true -> bytes_ok apv = true -> bytes_ok alg = true -> 0 <= n <= 512 -> n mod 8 = 0 ->
  Z.of_nat (length apu) < 2 ^ 32 -> Z.of_nat (length apv) < 2 ^ 32 ->
  derive P c vd (VInt 3) (VInt 4) (Some apu) (Some apv) alg n =
    if d mod 3 =? 0 then Raise ETypeError else Ok (hashed P (int2bytes c 3) (party_info alg apu apv n) n).
Proof.
  intros P HL name c BN vd d apu apv alg n HD D0 BU BV BA HN HM LU LV.
  destruct (dh_three name c BN d D0) as [_ E].
  destruct (d mod 3 =? 0) eqn:M.
  - unfold derive, as_num. rewrite HD. cbn [bind as_int]. rewrite E. reflexivity.
  - assert (X : exists K, derive P c vd (VInt 3) (VInt 4) (Some apu) (Some apv) alg n = Ok K).
    { unfold derive, as_num. rewrite HD. cbn [bind as_int]. rewrite E. cbn [bind].
      unfold other_info, pack_I.
      repeat match goal with |- context [if ?b then _ else _] => replace b with true by (symmetry; lia) || replace b with false by (symmetry; lia); cbn [bind] end.
      match goal with |- context [concat_sha256 P ?z ?n ?oi] => destruct (concat_sha256_prefix P HL z n oi) as (dk & C & _ & _) end.
      - apply z2be_ok.
      - rewrite !bytes_ok_app, !z2be_ok, BU, BV, BA. reflexivity.
      - lia.
      - exists dk. exact C. }
    destruct X as [K X]. rewrite X. destruct (derive_formula P HL _ _ _ _ _ _ _ _ _ X BU BV BA HN HM) as (d' & x' & y' & z & E1 & E2 & E3 & E4 & ->).
    rewrite HD in E1. injection E1 as <-. injection E2 as <-. injection E3 as <-. rewrite E in E4. apply Ok_inj in E4. subst z. reflexivity.
Qed.

Lemma leak_setup : forall P, hash_law P -> forall name c, by_name name = Ok c -> forall j h key d apu apv e n,
  j_headers j = VDict h -> dget h (lit "epk") = Some (VDict (leak_jwk name)) -> dget h (lit "alg") = Some (VStr (lit "ECDH-ES")) ->
  dget h (lit "enc") = Some (VStr e) -> In (e, n) content_bits -> party_octets h (lit "apu") apu -> party_octets h (lit "apv") apv ->
  Z.of_nat (length apu) < 2 ^ 32 -> Z.of_nat (length apv) < 2 ^ 32 ->
  (forall i, (2 <= i <= 4)%nat -> exists b, part j i = Ok b) -> private_number key d -> 0 <= d ->
  ec_dec_setup P j key = if d mod 3 =? 0 then Raise ETypeError else Ok (hashed P (int2bytes c 3) (party_info e apu apv n) n).
Proof.
  intros P HL name c BN j h key d apu apv e n HJ HE HA HN HC PU PV LU LV PA (vd & KD & AI) D0.
  unfold ec_dec_setup. destruct (PA 2%nat) as [b2 ->]; [lia|]. destruct (PA 3%nat) as [b3 ->]; [lia|]. destruct (PA 4%nat) as [b4 ->]; [lia|]. cbn [bind].
  rewrite HJ. cbn [py_in py_get bind]. unfold dmem. rewrite HE. cbn [bind py_in].
  change (dmem (leak_jwk name) (lit "crv")) with true. cbn [bind negb].
  destruct (leak_new name c BN) as (k & -> & KK). cbn [bind].
  destruct (party_arg _ _ _ PU) as [TU BU]. destruct (party_arg _ _ _ PV) as [TV BV]. rewrite TU, TV. cbn [bind]. rewrite HA. cbn [bind]. rewrite KK. cbn [bind].
  change (pval_eqb (VStr (lit "ECDH-ES")) (VStr (lit "ECDH-ES"))) with true. cbn match. rewrite HN. cbn [bind].
  assert (KL : dget KEYLEN e = Some n). { cbn [In content_bits] in HC. unfold content_bits in HC. cbn [In] in HC. repeat (destruct HC as [E|HC]; [injection E as <- <-; reflexivity|]). destruct HC. }
  rewrite KL, KD. cbn [bind]. destruct (content_bits_ok _ _ HC) as (BE & N1 & N2).
  apply (derive_three P HL name c BN); assumption.
Qed.

(** ** A token that every receiver whose private value is not a multiple of three opens *)
Definition leak_tok : ustr := lit "eyJhbGciOiJFQ0RILUVTIiwiZW5jIjoiQTEyOENCQy1IUzI1NiIsImFwdSI6IlFRIiwiYXB2IjoiUWciLCJlcGsiOnsia3R5IjoiRUMiLCJjcnYiOiJQLTI1NiIsIngiOiJBdyIsInkiOiJCQSJ9fQ..AQEBAQEBAQEBAQEBAQEBAQ.Po0E2AthFrLxq4gtOZp1ug.FkS4a3a_MvKeeCyjjUq4Hg".
Definition leak_head : dict := [(lit "alg", VStr (lit "ECDH-ES")); (lit "enc", VStr (lit "A128CBC-HS256")); (lit "apu", VStr (lit "QQ")); (lit "apv", VStr (lit "Qg"));
  (lit "epk", VDict (leak_jwk (lit "P-256")))].
Definition leak_jwt : jwt := {| j_headers := VDict leak_head; j_b64 := split 46 leak_tok;
  j_part := map VBytes [lit "{""alg"":""ECDH-ES"",""enc"":""A128CBC-HS256"",""apu"":""QQ"",""apv"":""Qg"",""epk"":{""kty"":""EC"",""crv"":""P-256"",""x"":""Aw"",""y"":""BA""}}"; [];
    repeat 1 16; [62; 141; 4; 216; 11; 97; 22; 178; 241; 171; 136; 45; 57; 154; 117; 186]; [22; 68; 184; 107; 118; 191; 50; 242; 158; 120; 44; 163; 141; 74; 184; 30]] |}.
Lemma leak_unpack : unpack (VStr leak_tok) = Ok leak_jwt.
Proof. vm_compute. reflexivity. Qed.

Theorem leak_opens : forall sent keys key d, first_fit (suitable (lit "EC") VNone (VStr (lit "enc")) (VStr (lit "ECDH-ES"))) keys key -> private_number key d -> 0 <= d ->
  jwe_decrypt std sent new_jwe (VStr leak_tok) (Some keys) VNone [] =
    if d mod 3 =? 0 then Raise ETypeError else Ok (lit "hi", w_set new_jwe (lit "cek") VNone).
Proof.
  intros sent keys key d SU PN D0. unfold jwe_decrypt. change (truthy (VStr leak_tok)) with true. cbn match. rewrite leak_unpack. cbn [bind].
  change (j_headers leak_jwt) with (VDict leak_head). change (py_get (VDict leak_head) (lit "alg")) with (Ok (VStr (lit "ECDH-ES"))). cbn [bind truthy andb].
  destruct (pick_first std new_jwe keys (VStr (lit "enc")) (VStr (lit "ECDH-ES")) (VStr (lit "ECDH-ES")) (lit "EC") VNone key eq_refl eq_refl eq_refl eq_refl SU) as [J1 (r & P1)].
  rewrite J1. cbn [bind]. rewrite P1. cbn [bind is_nil andb].
  change (family_of (VStr (lit "ECDH-ES"))) with (Ok FEc). cbn [bind].
  rewrite (leak_setup std std_hash_law (lit "P-256") P256 eq_refl leak_jwt leak_head key d [65] [66] (lit "A128CBC-HS256") 256); try reflexivity; try assumption.
  - destruct (d mod 3 =? 0); [reflexivity|]. cbn [bind].
    assert (E : ec_decrypt std leak_jwt (hashed std (int2bytes P256 3) (party_info (lit "A128CBC-HS256") [65] [66] 256) 256) = Ok (lit "hi")) by (vm_compute; reflexivity).
    rewrite E. unfold cek_first. destruct (is_nil _) eqn:N; [|reflexivity].
    exfalso. vm_compute in N. discriminate N.
  - cbn; tauto.
  - exists (lit "QQ"). repeat split; reflexivity.
  - exists (lit "Qg"). repeat split; reflexivity.
  - intros i [I1 I2]. destruct i as [|[|[|[|[|i]]]]]; try lia; eexists; reflexivity.
Qed.
