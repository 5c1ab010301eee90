(** * How many texts of a signed token are accepted (jwt.py:54-71, jws.py:519-588) *)
From Coq Require Import ZArith List Bool Lia ZifyBool.
From Verif Require Import Base BaseProofs Utf8 Codec CodecProofs B64Num B64Exact Json Jwt JwtProofs Prims Jwk Jws JwsProofs JwsProofs2.
Import ListNotations.
Open Scope Z_scope.

Lemma url_or_ascii : forall b d, b64d b = Ok d -> ascii b = true.
Proof.
  intros b d H. apply b64d_exactly in H. destruct H as (x & nl & k & -> & F & N & _). unfold ascii. apply forallb_forall. intros c I.
  apply in_app_or in I. destruct I as [I|I]; [rewrite Forall_forall in F; specialize (F c I); unfold url_char in F; lia|]. apply in_app_or in I. destruct I as [I|I].
  - destruct N as [-> |[-> _]]; [destruct I|]. destruct I as [<-|[]]. reflexivity.
  - apply repeat_spec in I. subst c. reflexivity.
Qed.
Lemma decodable_no_dot : forall b d, b64d b = Ok d -> ~ In 46 b.
Proof.
  intros b d H J. apply b64d_exactly in H. destruct H as (x & nl & k & -> & F & N & _). apply in_app_or in J. destruct J as [I|I]; [rewrite Forall_forall in F; specialize (F 46 I); unfold url_char in F; lia|]. apply in_app_or in I. destruct I as [I|I].
  - destruct N as [-> |[-> _]]; [destruct I|]. destruct I as [X|[]]. discriminate X.
  - apply repeat_spec in I. discriminate I.
Qed.

Definition as_token (token : pval) (t : bytes) : Prop := token = VStr t \/ token = VBytes t.
Lemma unpack_three : forall token h p x bh bp b, as_token token (h ++ 46 :: p ++ 46 :: x) -> b64d h = Ok bh -> b64d p = Ok bp -> b64d x = Ok b ->
  unpack token = (t <- utf8_decode bh;; v <- loads t;; Ok {| j_headers := v; j_b64 := [h; p; x]; j_part := [VBytes bh; VBytes bp; VBytes b] |}).
Proof.
  intros token h p x bh bp b T H1 H2 H3. pose proof (decodable_no_dot _ _ H1) as N1. pose proof (decodable_no_dot _ _ H2) as N2. pose proof (decodable_no_dot _ _ H3) as N3.
  assert (A : utf8_encode (h ++ 46 :: p ++ 46 :: x) = Ok (h ++ 46 :: p ++ 46 :: x)).
  { apply utf8_encode_ascii. pose proof (url_or_ascii _ _ H1) as A1. pose proof (url_or_ascii _ _ H2) as A2. pose proof (url_or_ascii _ _ H3) as A3. unfold ascii in *. rewrite !forallb_app. cbn [forallb]. rewrite !forallb_app. cbn [forallb]. rewrite A1, A2, A3. reflexivity. }
  assert (S3 : split_token (h ++ 46 :: p ++ 46 :: x) = Ok [h; p; x]).
  { change (h ++ 46 :: p ++ 46 :: x) with (join 46 [h; p; x]). apply split_token_join; [cbn; lia|]. intros q [<-|[<-|[<-|[]]]]; assumption. }
  unfold unpack. destruct T as [-> | ->]; [rewrite A|]; cbn [bind]; rewrite S3; cbn [bind mapM]; rewrite H1, H2, H3; reflexivity.
Qed.

(** Only the octets of the signature segment matter. *)
Theorem same_octets : forall P s keys an sigalg h p x x' bh bp b token token', as_token token (h ++ 46 :: p ++ 46 :: x) -> as_token token' (h ++ 46 :: p ++ 46 :: x') ->
  b64d h = Ok bh -> b64d p = Ok bp -> b64d x = Ok b -> b64d x' = Ok b ->
  snd (verify_compact P s token keys an sigalg) = snd (verify_compact P s token' keys an sigalg).
Proof.
  intros P s keys an sigalg h p x x' bh bp b token token' T T' H1 H2 H3 H3'. unfold verify_compact. rewrite (unpack_three _ _ _ _ _ _ _ T H1 H2 H3), (unpack_three _ _ _ _ _ _ _ T' H1 H2 H3').
  destruct (utf8_decode bh) as [t|]; [|reflexivity]. cbn [bind]. destruct (loads t) as [v|]; [|reflexivity]. cbn [bind j_part length Nat.eqb j_headers].
  set (j := {| j_headers := v; j_b64 := [h; p; x]; j_part := [VBytes bh; VBytes bp; VBytes b] |}). set (j' := {| j_headers := v; j_b64 := [h; p; x']; j_part := [VBytes bh; VBytes bp; VBytes b] |}).
  assert (PL : payload j = payload j') by reflexivity.
  assert (VA : forall alg, snd (verify_alg P (set_jwt s j) j keys sigalg alg) = snd (verify_alg P (set_jwt s j') j' keys sigalg alg)).
  { intro alg. unfold verify_alg. cbn [set_jwt s_dict]. destruct (dmem (s_dict s) (lit "alg") && truthy alg && negb (pval_eqb (kwarg (s_dict s) (lit "alg") VNone) alg)); [reflexivity|].
    destruct (truthy sigalg && negb (pval_eqb sigalg alg)); [reflexivity|].
    assert (CK : checked P (set_alg (set_jwt s j) alg) j keys alg = checked P (set_alg (set_jwt s j') alg) j' keys alg) by reflexivity. cbv zeta. rewrite CK.
    destruct (checked P (set_alg (set_jwt s j') alg) j' keys alg) as [[k m]|]; reflexivity. }
  destruct (py_get v (lit "alg")) as [alg|e]; [|destruct e; try reflexivity; apply VA].
  destruct (none_alg alg) as [[|]|]; [|apply VA|reflexivity]. destruct an; [|reflexivity]. rewrite PL. destruct (payload j'); reflexivity.
Qed.

Lemma presented_three : forall token j h p x sg d, presented token j h p x sg d -> exists bh bp, b64d h = Ok bh /\ b64d p = Ok bp.
Proof.
  intros token j h p x sg d Pr. destruct (unpack_segments _ _ (pr_unpack _ _ _ _ _ _ _ Pr)) as (txt & T & B & _ & ps & _ & F & _). destruct Pr as [T' (D1 & D2 & D3) _ _ _ _].
  assert (E : txt = h ++ 46 :: p ++ 46 :: x) by (destruct T as [->| ->], T' as [X|X]; congruence).
  rewrite B, E in F. change (h ++ 46 :: p ++ 46 :: x) with (join 46 [h; p; x]) in F. rewrite split_join in F; [|discriminate|intros q [<-|[<-|[<-|[]]]]; assumption].
  inversion F as [|? bh ? ? H1 F1]; subst. inversion F1 as [|? bp ? ? H2 F2]; subst. exists bh, bp. split; assumption.
Qed.

(** The texts without padding of the signature segment that are accepted, for a symmetric algorithm and one key. *)
Theorem hmac_texts : forall P s k an sigalg token s' m ko j h p x sg d a hh,
  verify_compact P s token (Some [k]) an sigalg = (s', Ok (m, ko)) -> presented token j h p x sg d -> dget d (lit "alg") = Some (VStr a) -> In (a, hh) hs_algs ->
  exists l, NoDup l /\ Z.of_nat (length l) = (if Z.of_nat (length sg) mod 3 =? 0 then 1 else if Z.of_nat (length sg) mod 3 =? 1 then 16 else 4) /\
    forall y token', as_token token' (h ++ 46 :: p ++ 46 :: y) -> (~ In 61 y /\ (exists r, snd (verify_compact P s token' (Some [k]) an sigalg) = Ok r) <-> In y l).
Proof.
  intros P s k an sigalg token s' m ko j h p x sg d a hh H Pr A I. destruct (presented_three _ _ _ _ _ _ _ Pr) as (bh & bp & Hh & Hp). pose proof (pr_sig _ _ _ _ _ _ _ Pr) as Hx.
  destruct (texts sg (b64d_bytes _ _ Hx)) as (l & ND & L & TX). exists l. split; [exact ND|]. split; [exact L|]. intros y token' T'. rewrite <- (TX y). clear TX ND L l. split; (intros [N R]; split; [exact N|]).
  - destruct R as ((m2 & ko2) & R). destruct (verify_compact P s token' (Some [k]) an sigalg) as [s2 r2] eqn:V. cbn [snd] in R. subst r2.
    pose proof V as V'. apply verify_accepted in V'. destruct V' as (j2 & h2 & p2 & x2 & sg2 & d2 & Pr2 & _).
    assert (E : h2 ++ 46 :: p2 ++ 46 :: x2 = h ++ 46 :: p ++ 46 :: y) by (destruct T' as [-> | ->], Pr2 as [[X|X] _ _ _ _ _]; congruence).
    pose proof (pr_dots _ _ _ _ _ _ _ Pr) as (D1 & D2 & _). pose proof (pr_dots _ _ _ _ _ _ _ Pr2) as (E1 & E2 & E3).
    pose proof (f_equal (split 46) E) as Q. rewrite !split_app_sep in Q by assumption. injection Q as -> -> _. apply app_inv_head in E. injection E as E. apply app_inv_head in E. injection E as ->.
    assert (d2 = d) as -> by (pose proof (pr_header _ _ _ _ _ _ _ Pr) as Q1; pose proof (pr_header _ _ _ _ _ _ _ Pr2) as Q2; congruence).
    destruct (hmac_one_signature _ _ _ _ _ _ _ _ _ _ _ _ _ _ _ _ _ _ _ _ _ _ _ _ _ _ _ H V Pr Pr2 A I) as [-> _]. exact (pr_sig _ _ _ _ _ _ _ Pr2).
  - rename R into Hy. exists (m, ko). rewrite <- (same_octets P s (Some [k]) an sigalg h p x y bh bp sg token token' (pr_token _ _ _ _ _ _ _ Pr) T' Hh Hp Hx Hy). rewrite H. reflexivity.
Qed.

Theorem hs_texts : forall P, hmac_law P -> forall s k an sigalg token s' m ko j h p x sg d a hh,
  verify_compact P s token (Some [k]) an sigalg = (s', Ok (m, ko)) -> presented token j h p x sg d -> dget d (lit "alg") = Some (VStr a) -> In (a, hh) hs_algs ->
  (forall secret, get_key k false = Ok (MObj (OVal (VBytes secret))) -> bytes_ok secret = true) ->
  exists l, NoDup l /\ length l = (match hh with SHA384 => 1 | SHA512 => 16 | _ => 4 end)%nat /\
    forall y token', as_token token' (h ++ 46 :: p ++ 46 :: y) -> (~ In 61 y /\ (exists r, snd (verify_compact P s token' (Some [k]) an sigalg) = Ok r) <-> In y l).
Proof.
  intros P HL s k an sigalg token s' m ko j h p x sg d a hh H Pr A I SB. destruct (hmac_texts _ _ _ _ _ _ _ _ _ _ _ _ _ _ _ _ _ H Pr A I) as (l & ND & L & TX).
  exists l. split; [exact ND|]. split; [|exact TX]. destruct (hmac_one_signature _ _ _ _ _ _ _ _ _ _ _ _ _ _ _ _ _ _ _ _ _ _ _ _ _ _ _ H H Pr Pr A I) as [_ (secret & G & E)].
  destruct (presented_three _ _ _ _ _ _ _ Pr) as (bh & bp & Hh & Hp).
  assert (BI : bytes_ok (h ++ 46 :: p) = true).
  { pose proof (url_or_ascii _ _ Hh) as A1. pose proof (url_or_ascii _ _ Hp) as A2. unfold bytes_ok, ascii in *. rewrite forallb_forall in *. intros c IC.
    apply in_app_or in IC. destruct IC as [IC|[<-|IC]]; [specialize (A1 c IC)|reflexivity|specialize (A2 c IC)]; unfold is_byte; lia. }
  destruct (HL hh secret (h ++ 46 :: p) (SB secret G) BI) as [LN _]. rewrite <- E in LN. rewrite LN in L. cbn [In hs_algs] in I. destruct I as [I|[I|[I|[]]]]; injection I as <- <-; cbn in L; lia.
Qed.
