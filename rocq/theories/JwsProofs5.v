(** * Proofs about JSON Web Signatures: the JSON serialization *)
From Coq Require Import ZArith List Bool Lia ZifyBool.
From Verif Require Import Base BaseProofs Utf8 Codec CodecProofs Json JsonProofs Jwt JwtProofs Prims Elliptic Ecc PvalEq Jwk JwkProofs JwkProofs2 Jws JwsProofs JwsProofs2 JwsProofs3 JwsProofs4.
Import ListNotations.
Open Scope Z_scope.

(** ** C27 *)

(** The signature entries of a parsed JWS. *)
Inductive entries (d : dict) : list pval -> Prop :=
| entries_list : forall x l, dget d (lit "signatures") = Some x -> py_iter x = Ok l -> entries d l
| entries_flat : forall e, dget d (lit "signatures") = None ->
    (forall n, dget e n = if existsb (zs_eqb n) [lit "protected"; lit "header"; lit "signature"] then dget d n else None) -> entries d [VDict e].

(** One entry: the compact token put together from the protected header, the common payload and the signature passes
    verify_compact, on an instance made from that entry's headers, with payload [m]. *)
Definition entry_verified (P : prims) (keys : option (list jwk)) (an : bool) (sigalg pl : pval) (e m : pval) : Prop :=
  exists ed p h sg tok s1 s2 ko, e = VDict ed /\ pl = VStr p /\ kwarg ed (lit "protected") (VStr []) = VStr h /\ dget ed (lit "signature") = Some (VStr sg) /\
    utf8_encode (h ++ 46 :: p ++ 46 :: sg) = Ok tok /\ verify_compact P s1 (VBytes tok) keys an sigalg = (s2, Ok (m, ko)).

Lemma utf8_encode_join : forall a b c x y z, utf8_encode a = Ok x -> utf8_encode b = Ok y -> utf8_encode c = Ok z -> utf8_encode (a ++ 46 :: b ++ 46 :: c) = Ok (join 46 [x; y; z]).
Proof.
  intros a b c x y z A B C. unfold utf8_encode in *. destruct (scalars a) eqn:SA; [|discriminate]. destruct (scalars b) eqn:SB; [|discriminate]. destruct (scalars c) eqn:SC; [|discriminate].
  injection A as <-. injection B as <-. injection C as <-. unfold scalars in *. rewrite forallb_app. cbn [forallb]. rewrite forallb_app. cbn [forallb]. rewrite SA, SB, SC. cbn [andb]. f_equal.
  rewrite map_app, concat_app. cbn [map concat join]. rewrite map_app, concat_app. cbn [map concat]. reflexivity.
Qed.

Lemma json_token_inv : forall pl e tok hs, json_token pl e = Ok (tok, hs) ->
  exists ed p h sg, e = VDict ed /\ pl = VStr p /\ kwarg ed (lit "protected") (VStr []) = VStr h /\ dget ed (lit "signature") = Some (VStr sg) /\ utf8_encode (h ++ 46 :: p ++ 46 :: sg) = Ok tok.
Proof.
  intros pl e tok hs H. unfold json_token in H. destruct e as [| | | | | | |ed]; try discriminate.
  destruct (py_encode (kwarg ed (lit "protected") (VStr []))) as [ph|] eqn:E1; [|discriminate]. cbn [bind] in H. destruct (py_encode pl) as [pb|] eqn:E2; [|discriminate]. cbn [bind] in H.
  destruct (dget ed (lit "signature")) as [v|] eqn:E3; [|discriminate]. destruct (py_encode v) as [sg|] eqn:E4; [|discriminate]. cbn [bind] in H.
  destruct (kwarg ed (lit "header") (VDict [])) as [| | | | | | |un]; try discriminate. destruct (kwarg ed (lit "protected") (VStr [])) as [| | | |h| | |] eqn:E5; try discriminate.
  destruct (b64d_enc_dec h) as [t|]; [|discriminate]. cbn [bind] in H. destruct t as [|c t]; [discriminate|]. destruct (loads (c :: t)) as [w|]; [|discriminate]. cbn [bind] in H.
  destruct (py_update un w) as [[al [|]]|]; try discriminate. cbn [bind] in H. injection H as <- <-. destruct pl as [| | | |p| | |]; try discriminate. destruct v as [| | | |s| | |]; try discriminate.
  exists ed, p, h, s. repeat split; try assumption. apply utf8_encode_join; assumption.
Qed.

(** The views obtained one after the other agree with the claim returned; an initial run of nulls is overwritten. *)
Inductive agree : pval -> list pval -> pval -> Prop :=
| agree_nil : forall c, agree c [] c
| agree_first : forall m ms c, agree m ms c -> agree VNone (m :: ms) c
| agree_same : forall c0 m ms c, c0 <> VNone -> pval_eqb c0 m = true -> agree c0 ms c -> agree c0 (m :: ms) c.

Lemma verify_signs_inv : forall P pl keys an sigalg signs s claim c s', verify_signs P s pl signs keys an sigalg claim = Ok (c, s') ->
  exists ms, Forall2 (entry_verified P keys an sigalg pl) signs ms /\ agree claim ms c.
Proof.
  intros P pl keys an sigalg. induction signs as [|e signs IH]; intros s claim c s' H; cbn [verify_signs] in H.
  - injection H as <- <-. exists []. split; constructor.
  - destruct (json_token pl e) as [[tok hs]|] eqn:JT; [|discriminate]. cbn [bind] in H. destruct (init_from P hs) as [s1|]; [|discriminate]. cbn [bind] in H.
    destruct (verify_compact P s1 (VBytes tok) keys an sigalg) as [s2 out] eqn:V. destruct out as [[m ko]|]; [|discriminate]. cbn [bind] in H.
    assert (EV : entry_verified P keys an sigalg pl e m).
    { destruct (json_token_inv _ _ _ _ JT) as (ed & p & h & sg & J1 & J2 & J3 & J4 & J5). exists ed, p, h, sg, tok, s1, s2, ko. repeat split; assumption. }
    destruct claim.
    1: { destruct (IH _ _ _ _ H) as (ms & F & A). exists (m :: ms). split; constructor; assumption. }
    all: match type of H with (if pval_eqb ?c0 _ then _ else _) = _ => destruct (pval_eqb c0 m) eqn:E; [|discriminate] end; destruct (IH _ _ _ _ H) as (ms & F & A);
      exists (m :: ms); (split; [constructor; assumption|]); apply agree_same; try discriminate; assumption.
Qed.

Lemma agree_all : forall c0 ms c, agree c0 ms c -> (c0 = c \/ c0 = VNone) /\ Forall (fun m => m = VNone \/ pval_eqb c m = true \/ m = c) ms /\ (ms = [] \/ In c ms \/ c0 <> VNone).
Proof.
  intros c0 ms c H. induction H as [c|m ms c H (I1 & I2 & I3)|c0 m ms c N E H (I1 & I2 & I3)].
  - split; [left; reflexivity|]. split; [constructor|left; reflexivity].
  - split; [right; reflexivity|]. split; [constructor; [|exact I2]; destruct I1; auto|]. right; left.
    destruct I1 as [->|I1]; [left; reflexivity|]. destruct I3 as [->|[I3|I3]]; [|right; exact I3|contradiction]. inversion H; subst. left. reflexivity.
  - destruct I1 as [->|I1]; [|contradiction]. split; [left; reflexivity|]. split; [constructor; [right; left; exact E|exact I2]|]. right; right. exact N.
Qed.

Theorem verify_json_all : forall P s text keys an sigalg c s', verify_json P s text keys an sigalg = Ok (c, s') ->
  exists d pl signs ms, loads_any text = Ok (VDict d) /\ dget d (lit "payload") = Some pl /\ entries d signs /\
    Forall2 (entry_verified P keys an sigalg pl) signs ms /\
    Forall (fun m => m = VNone \/ pval_eqb c m = true \/ m = c) ms /\ (In c ms \/ (c = VNone /\ signs = [])).
Proof.
  intros P s text keys an sigalg c s' H. unfold verify_json in H. destruct (loads_any text) as [v|] eqn:L; [|discriminate]. cbn [bind] in H.
  destruct v as [| | | | | | |d]; try discriminate. cbn [py_get] in H. destruct (dget d (lit "payload")) as [pl|] eqn:Dp; [|discriminate]. cbn [bind] in H.
  assert (E : exists signs, entries d signs /\ verify_signs P s pl signs keys an sigalg VNone = Ok (c, s')).
  { destruct (dget d (lit "signatures")) as [x|] eqn:Ds.
    - destruct (py_iter x) as [l|] eqn:It; [|discriminate]. cbn [bind] in H. exists l. split; [eapply entries_list; eassumption|exact H].
    - cbn [bind] in H. eexists. split; [|exact H]. apply entries_flat; [exact Ds|]. intro n. cbn [flat_map existsb]. rewrite orb_false_r.
      destruct (zs_eqb n (lit "protected")) eqn:E1; [apply zs_eqb_eq in E1; subst n|].
      + cbn [orb]. destruct (dget d (lit "protected")) as [w|] eqn:D1; cbn [app dget]; [rewrite zs_eqb_refl; reflexivity|].
        destruct (dget d (lit "header")), (dget d (lit "signature")); reflexivity.
      + destruct (zs_eqb n (lit "header")) eqn:E2; [apply zs_eqb_eq in E2; subst n|].
        * cbn [orb]. destruct (dget d (lit "header")) as [w|] eqn:D2; destruct (dget d (lit "protected")), (dget d (lit "signature")); reflexivity.
        * destruct (zs_eqb n (lit "signature")) eqn:E3; [apply zs_eqb_eq in E3; subst n|].
          -- cbn [orb]. destruct (dget d (lit "signature")) as [w|] eqn:D3; destruct (dget d (lit "protected")), (dget d (lit "header")); reflexivity.
          -- cbn [orb]. apply zs_eqb_neq, not_eq_sym, zs_eqb_neq in E1. apply zs_eqb_neq, not_eq_sym, zs_eqb_neq in E2. apply zs_eqb_neq, not_eq_sym, zs_eqb_neq in E3. destruct (dget d (lit "protected")), (dget d (lit "header")), (dget d (lit "signature")); cbn [app dget]; rewrite ?E1, ?E2, ?E3; reflexivity. }
  destruct E as (signs & En & V). apply verify_signs_inv in V. destruct V as (ms & F & A). exists d, pl, signs, ms. split; [reflexivity|]. split; [exact Dp|]. split; [exact En|]. split; [exact F|].
  pose proof A as A'. apply agree_all in A. destruct A as (_ & A2 & A3). split; [exact A2|]. destruct A3 as [->|[A3|A3]]; [right; inversion F; inversion A'; auto|left; exact A3|congruence].
Qed.

