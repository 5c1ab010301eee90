(** * Proofs about JSON Web Signatures: the kind of key an algorithm asks for; recognition of every text *)
From Coq Require Import ZArith List Bool Lia ZifyBool.
From Verif Require Import Base BaseProofs Utf8 Codec CodecProofs Json JsonProofs Jwt JwtProofs Prims Elliptic Ecc PvalEq Jwk JwkProofs JwkProofs2 Jws JwsProofs JwsProofs2 JwsProofs3 JwsProofs4 JwsProofs6 JwsProofs7.
Import ListNotations.
Open Scope Z_scope.

(** ** The kind of key *)

(** [a] begins with [p]. *)
Definition begins (p a : ustr) : Prop := exists r, a = p ++ r.

(** The word none in small or capital letters. *)
Definition none_word (a : ustr) : Prop :=
  exists c1 c2 c3 c4, a = [c1; c2; c3; c4] /\ (c1 = 110 \/ c1 = 78) /\ (c2 = 111 \/ c2 = 79) /\ (c3 = 110 \/ c3 = 78) /\ (c4 = 101 \/ c4 = 69).

Lemma begins_iff : forall p a, startswith a p = true <-> begins p a.
Proof.
  induction p as [|x p IH]; intros a; [split; [intros _; exists a; reflexivity|intros _; destruct a; reflexivity]|].
  destruct a as [|y a]; [split; [discriminate|intros (r & H); discriminate H]|]. cbn [startswith]. rewrite andb_true_iff, Z.eqb_eq, IH. split.
  - intros (-> & r & ->). exists r. reflexivity.
  - intros (r & H). injection H as -> ->. split; [reflexivity|]. exists r. reflexivity.
Qed.
Lemma lower_none : forall a, zs_eqb (lower a) (lit "none") = true <-> none_word a.
Proof.
  intro a. rewrite zs_eqb_eq. change (lit "none") with [110; 111; 110; 101]. split.
  - intro H. destruct a as [|c1 [|c2 [|c3 [|c4 [|c5 a]]]]]; try discriminate H. unfold lower in H. cbn [map] in H. injection H as H1 H2 H3 H4. exists c1, c2, c3, c4. split; [reflexivity|].
    unfold lower_c in *. repeat match goal with H : (if ?b then _ else _) = _ |- _ => destruct b eqn:? end; lia.
  - intros (c1 & c2 & c3 & c4 & -> & H1 & H2 & H3 & H4). destruct H1, H2, H3, H4; subst; reflexivity.
Qed.

Lemma key_kind : forall a,
  (alg2keytype (VStr a) = Ok (Some (lit "none")) <-> a = [] \/ none_word a) /\
  (alg2keytype (VStr a) = Ok (Some (lit "RSA")) <-> begins (lit "RS") a \/ begins (lit "PS") a) /\
  (alg2keytype (VStr a) = Ok (Some (lit "oct")) <-> begins (lit "HS") a \/ begins (lit "A") a) /\
  (alg2keytype (VStr a) = Ok (Some (lit "EC")) <-> begins (lit "ES") a \/ begins (lit "ECDH-ES") a) /\
  (alg2keytype (VStr a) = Ok None \/ In (alg2keytype (VStr a)) [Ok (Some (lit "none")); Ok (Some (lit "RSA")); Ok (Some (lit "oct")); Ok (Some (lit "EC"))]).
Proof.
  intro a. rewrite <- !begins_iff, <- lower_none. destruct a as [|c a].
  { vm_compute. intuition discriminate. }
  change (alg2keytype (VStr (c :: a))) with
    (if zs_eqb (lower (c :: a)) (lit "none") then Ok (Some (lit "none"))
     else if startswith (c :: a) (lit "RS") || startswith (c :: a) (lit "PS") then Ok (Some (lit "RSA"))
     else if startswith (c :: a) (lit "HS") || startswith (c :: a) (lit "A") then Ok (Some (lit "oct"))
     else if startswith (c :: a) (lit "ES") || startswith (c :: a) (lit "ECDH-ES") then Ok (Some (lit "EC")) else Ok (@None ustr)).
  destruct (zs_eqb (lower (c :: a)) (lit "none")) eqn:N.
  { apply lower_none in N. destruct N as (c1 & c2 & c3 & c4 & E & H1 & H2 & H3 & H4). injection E as -> ->.
    destruct H1, H2, H3, H4; subst; cbn [In]; vm_compute; intuition discriminate. }
  assert (D : forall p q, In p [lit "RS"; lit "PS"; lit "HS"; lit "A"; lit "ES"; lit "ECDH-ES"] -> In q [lit "RS"; lit "PS"; lit "HS"; lit "A"; lit "ES"; lit "ECDH-ES"] -> p <> q ->
    startswith (c :: a) p = true -> startswith (c :: a) q = false).
  { intros p q IP IQ NE H. apply begins_iff in H. destruct H as (r & ->). cbn [In] in IP, IQ.
    repeat (destruct IP as [<-|IP]; [repeat (destruct IQ as [<-|IQ]; [first [exfalso; apply NE; reflexivity|destruct r as [|? [|? r]]; reflexivity]|]); contradiction|]). contradiction. }
  destruct (startswith (c :: a) (lit "RS")) eqn:S1.
  { rewrite !(D (lit "RS")) by (first [exact S1|cbn [In]; solve [auto 10]|vm_compute; discriminate]). cbn [orb In]. intuition discriminate. }
  destruct (startswith (c :: a) (lit "PS")) eqn:S2.
  { rewrite !(D (lit "PS")) by (first [exact S2|cbn [In]; solve [auto 10]|vm_compute; discriminate]). cbn [orb In]. intuition discriminate. }
  destruct (startswith (c :: a) (lit "HS")) eqn:S3.
  { rewrite !(D (lit "HS")) by (first [exact S3|cbn [In]; solve [auto 10]|vm_compute; discriminate]). cbn [orb In]. intuition discriminate. }
  destruct (startswith (c :: a) (lit "A")) eqn:S4.
  { rewrite !(D (lit "A")) by (first [exact S4|cbn [In]; solve [auto 10]|vm_compute; discriminate]). cbn [orb In]. intuition discriminate. }
  destruct (startswith (c :: a) (lit "ES")) eqn:S5.
  { rewrite !(D (lit "ES")) by (first [exact S5|cbn [In]; solve [auto 10]|vm_compute; discriminate]). cbn [orb In]. intuition discriminate. }
  destruct (startswith (c :: a) (lit "ECDH-ES")); cbn [orb In]; intuition discriminate.
Qed.
Lemma key_kind_other : forall v, (forall a, v <> VStr a) -> (truthy v = false -> alg2keytype v = Ok (Some (lit "none"))) /\ (truthy v = true -> exists e, alg2keytype v = Raise e).
Proof.
  intros v N. unfold alg2keytype. split; intro T; rewrite T; cbn [negb]; [reflexivity|]. destruct v; try (eexists; reflexivity). exfalso. eapply N. reflexivity.
Qed.

(** ** Recognition of every text *)

(** A JSON object with the members of RFC 7515, section 7.2. *)
Definition json_form (t : ustr) : Prop :=
  exists d pl, loads t = Ok (VDict d) /\ dget d (lit "payload") = Some pl /\ ((exists l, dget d (lit "signatures") = Some l) \/ exists g, dget d (lit "signature") = Some g).

Lemma dmem_some : forall A (d : list (ustr * A)) n, dmem d n = true <-> exists v, dget d n = Some v.
Proof. intros A d n. unfold dmem. destruct (dget d n); split; try discriminate; [eexists; reflexivity|reflexivity|intros (v & H); discriminate H]. Qed.

Theorem recognised_any : forall s t, (exists s', is_jws s (VStr t) = Ok (true, s')) <-> json_form t \/ exists u, unpack (VStr t) = Ok u /\ header_known (j_headers u).
Proof.
  intros s t. unfold is_jws. cbn [loads_any]. destruct (loads_total t) as [(v & V)|V]; rewrite V.
  - split.
    + intros (s' & H). left. destruct v as [| | | | | | |d]; try discriminate H. cbn [is_json_jws bind] in H. injection H as H _. apply andb_true_iff in H. destruct H as [H1 H2].
      apply dmem_some in H1. destruct H1 as (pl & H1). exists d, pl. split; [exact V|]. split; [exact H1|]. apply orb_true_iff in H2. destruct H2 as [H2|H2]; apply dmem_some in H2; [left|right]; exact H2.
    + intros [(d & pl & L & H1 & H2)|(u & U & _)]; [|apply unpacked_not_json in U; congruence]. rewrite V in L. apply Ok_inj in L. subst v. cbn [is_json_jws bind].
      assert (M1 : dmem d (lit "payload") = true) by (apply dmem_some; exists pl; exact H1). rewrite M1.
      destruct H2 as [H2|H2]; apply dmem_some in H2; rewrite H2; [|rewrite orb_true_r]; exists s; reflexivity.
  - change (is_ValueError EJSONDecodeError) with true. cbn match. rewrite recognised_compact. split; [intro H; right; exact H|]. intros [(d & pl & L & _)|H]; [congruence|exact H].
Qed.

(** factory gives an object exactly for those. *)
Theorem factory_any : forall t, (exists s, factory (VStr t) = Ok (Some s)) <-> json_form t \/ exists u, unpack (VStr t) = Ok u /\ header_known (j_headers u).
Proof.
  intro t. rewrite <- (recognised_any new_jws). unfold factory. destruct (is_jws new_jws (VStr t)) as [[b s']|]; cbn [bind].
  - destruct b; split; intros (x & H); try discriminate H; [exists s'; reflexivity|exists s'; reflexivity].
  - split; intros (x & H); discriminate H.
Qed.

(** What sign_json returns is recognised. *)
Theorem json_signed_form : forall P Es s keys headers flatten text, sign_json P Es s (Some keys) headers flatten = Ok text ->
  pairs_of s headers <> [] -> (forall pr, In pr (pairs_of s headers) -> usable P s keys pr) -> json_form text.
Proof.
  intros P Es s keys headers flatten text H NE US. unfold sign_json in H. destruct (s_msg s) as [| | | |p| | |] eqn:M; try discriminate H. unfold b64e_enc_dec in H. destruct (utf8_encode p) as [pb|] eqn:U; [|discriminate H]. cbn [bind] in H.
  assert (PA : match headers with Some l => Ok l | None => match dget (s_dict s) (lit "alg") with Some a => Ok [([(lit "alg", a)], [])] | None => Raise EAttributeError end end = Ok (pairs_of s headers)).
  { unfold pairs_of in *. destruct headers as [l|]; [reflexivity|]. destruct (dget (s_dict s) (lit "alg")); [reflexivity|congruence]. }
  rewrite PA in H. clear PA. cbn [bind] in H. set (hs := pairs_of s headers) in *. clearbody hs. clear headers.
  assert (BP : bytes_ok pb = true) by (eapply utf8_bytes; exact U). pose proof (scalars_ascii _ (b64e_ascii _ BP)) as SB.
  set (res := [(lit "payload", VStr (b64e pb))]) in *.
  assert (CASES : (exists E pr e, hs = [pr] /\ create_signature P E s (Some keys) pr = Ok e /\ dumps true (VDict (dupd res e)) = Ok text) \/
                  (exists l, create_signatures P Es 0 s (Some keys) hs = Ok l /\ dumps true (VDict (dset res (lit "signatures") (VList l))) = Ok text)).
  { assert (G' : (out <- (l <- create_signatures P Es 0 s (Some keys) hs;; Ok (dset res (lit "signatures") (VList l)));; dumps true (VDict out)) = Ok text -> exists l, create_signatures P Es 0 s (Some keys) hs = Ok l /\ dumps true (VDict (dset res (lit "signatures") (VList l))) = Ok text).
    { clear H. destruct (create_signatures P Es 0 s (Some keys) hs) as [l|]; [|discriminate]. cbn [bind]. intro X. exists l. auto. }
    destruct flatten; [|right; apply G'; exact H]. destruct hs as [|pr [|pr2 r]]; [congruence| |right; apply G'; exact H].
    left. destruct (create_signature P (Es 0%nat) s (Some keys) pr) as [e|] eqn:C; [|discriminate]. cbn [bind] in H. exists (Es 0%nat), pr, e. auto. }
  clear H. destruct CASES as [(E & pr & e & -> & C & D)|(l & C & D)].
  - destruct (US pr (or_introl eq_refl)) as (a & g & t & A & K & F). destruct pr as [prot unprot]. cbn [fst snd] in *.
    destruct (create_then_verify _ _ _ _ _ _ _ _ _ _ _ _ C M U A K F) as (J & N1 & N2 & ND & _ & R). destruct (R e) as (tok & hs & s1 & T & _); [reflexivity|].
    assert (DG : forall n, dget (dupd res e) n = match dget e n with Some x => Some x | None => dget res n end) by (intro n; apply dupd_get; exact ND).
    assert (JO : jsonable (VDict (dupd res e)) = true).
    { assert (X : forall e0 d, jsonable (VDict e0) = true -> jsonable (VDict d) = true -> jsonable (VDict (dupd d e0)) = true).
      { clear. induction e0 as [|[k0 w0] e0 IH]; intros d J1 J2; [exact J2|]. cbn [jsonable nodup_keys forallb fst snd] in J1. apply andb_true_iff in J1. destruct J1 as [A B]. apply andb_true_iff in A. destruct A as [_ A]. apply andb_true_iff in B. destruct B as [B1 B2]. apply andb_true_iff in B1. destruct B1 as [B0 B1].
        change (dupd d ((k0, w0) :: e0)) with (dupd (dset d k0 w0) e0). apply IH; [cbn [jsonable]; rewrite A, B2; reflexivity|apply jsonable_dset; assumption]. }
      apply X; [exact J|]. unfold res. cbn [jsonable nodup_keys forallb fst snd]. rewrite SB. reflexivity. }
    destruct (loads_dumps true _ JO) as (t' & T1 & _ & T3). rewrite D in T1. apply Ok_inj in T1. subst t'.
    exists (dupd res e), (VStr (b64e pb)). split; [exact T3|]. split; [rewrite DG, N1; reflexivity|]. right.
    unfold json_token in T. destruct (py_encode _); [|discriminate T]. cbn [bind] in T. destruct (py_encode (VStr (b64e pb))); [|discriminate T]. cbn [bind] in T.
    destruct (dget e (lit "signature")) as [sg|] eqn:SG; [|discriminate T]. exists sg. rewrite DG, SG. reflexivity.
  - apply create_all in C. assert (AJ : Forall (fun v => jsonable v = true) l).
    { clear D NE. induction C as [|pr x hs l (E & e & C & ->) C2 IH]; [constructor|]. constructor; [|apply IH; intros q I; apply US; right; exact I].
      destruct (US pr (or_introl eq_refl)) as (a & g & t & A & K & F). destruct pr as [prot unprot]. cbn [fst snd] in *.
      exact (proj1 (create_then_verify _ _ _ _ _ _ _ _ _ _ _ _ C M U A K F)). }
    assert (JO : jsonable (VDict (dset res (lit "signatures") (VList l))) = true).
    { apply jsonable_dset; [|reflexivity|cbn [jsonable]; apply forallb_forall; apply Forall_forall; exact AJ]. unfold res. cbn [jsonable nodup_keys forallb fst snd]. rewrite SB. reflexivity. }
    destruct (loads_dumps true _ JO) as (t' & T1 & _ & T3). rewrite D in T1. apply Ok_inj in T1. subst t'.
    exists (dset res (lit "signatures") (VList l)), (VStr (b64e pb)). split; [exact T3|]. split; [reflexivity|]. left. exists (VList l). reflexivity.
Qed.
