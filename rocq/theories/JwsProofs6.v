(** * Proofs about JSON Web Signatures: what sign_json makes, verify_json accepts *)
From Coq Require Import ZArith List Bool Lia ZifyBool.
From Verif Require Import Base BaseProofs Utf8 Codec CodecProofs Json JsonProofs Jwt JwtProofs Prims Elliptic Ecc PvalEq Jwk JwkProofs JwkProofs2 Jws JwsProofs JwsProofs2 JwsProofs3 JwsProofs4 JwsProofs5.
Import ListNotations.
Open Scope Z_scope.

(** ** C28 *)

Lemma ddel_other : forall A (d : list (ustr * A)) k n, k <> n -> dget (ddel d k) n = dget d n.
Proof.
  induction d as [|[k0 v0] d IH]; intros k n N; [reflexivity|]. cbn [ddel dget]. destruct (zs_eqb k0 k) eqn:E.
  - apply zs_eqb_eq in E. subst k0. rewrite (proj2 (zs_eqb_neq _ _) N). reflexivity.
  - cbn [dget]. rewrite IH by exact N. reflexivity.
Qed.

Lemma init_dict_get : forall kw m names acc, m <> lit "x5c" -> m <> lit "crit" ->
  dget (init_dict kw names acc) m = if existsb (zs_eqb m) names then match dget kw m with Some v => Some v | None => if zs_eqb m (lit "alg") then Some (VStr (lit "none")) else dget acc m end else dget acc m.
Proof.
  intros kw m names. induction names as [|n names IH]; intros acc N1 N2; [reflexivity|]. cbn [init_dict existsb]. rewrite IH by assumption. clear IH.
  destruct (zs_eqb m n) eqn:E.
  - apply zs_eqb_eq in E. subst n. cbn [orb]. rewrite (proj2 (zs_eqb_neq _ _) N1), (proj2 (zs_eqb_neq _ _) N2). cbn [orb].
    destruct (dget kw m) as [v|] eqn:D; [rewrite dget_dset_same; destruct (existsb (zs_eqb m) names); reflexivity|].
    destruct (zs_eqb m (lit "alg")) eqn:A; [rewrite dget_dset_same|]; destruct (existsb (zs_eqb m) names); reflexivity.
  - cbn [orb]. apply zs_eqb_neq, not_eq_sym in E.
    assert (X : dget (match dget kw n with None => if zs_eqb n (lit "alg") then dset acc n (VStr (lit "none")) else acc
         | Some v => if zs_eqb n (lit "x5c") || zs_eqb n (lit "crit") then dset acc (lit "x5c") (if truthy v then v else VList []) else dset acc n v end) m = dget acc m).
    { destruct (dget kw n) as [v|]; [destruct (zs_eqb n (lit "x5c") || zs_eqb n (lit "crit"))|destruct (zs_eqb n (lit "alg"))]; try rewrite dget_dset_other by (exact E || (apply not_eq_sym; assumption)); reflexivity. }
    destruct (existsb (zs_eqb m) names); [|exact X]. destruct (dget kw m); [reflexivity|]. destruct (zs_eqb m (lit "alg")); [reflexivity|exact X].
Qed.

Ltac ne := let X := fresh in intro X; vm_compute in X; discriminate X.

Lemma Ok_inj : forall A (a b : A), Ok a = Ok b -> a = b. Proof. intros A a b H. injection H as H. exact H. Qed.

(** An instance made from keyword arguments. *)
Lemma jws_init_spec : forall P msg kw s, kw <> [] -> dget kw (lit "jwk") = None -> jws_init P msg kw None = Ok s ->
  s_msg s = msg /\ s_jwt s = None /\ s_jwk s = None /\ dget (s_dict s) (lit "alg") = Some (kwarg kw (lit "alg") (VStr (lit "none"))) /\
  dget (s_dict s) (lit "kid") = dget kw (lit "kid") /\ dget (s_dict s) (lit "typ") = dget kw (lit "typ").
Proof.
  intros P msg kw s N J H. unfold jws_init in H. rewrite J in H. cbn [bind] in H. apply Ok_inj in H. subst s. cbn [s_msg s_jwt s_jwk s_dict].
  destruct kw as [|kv0 kw0] eqn:KW; [congruence|]. rewrite <- KW. clear KW N J. 
  rewrite !init_dict_get by ne. unfold kwarg.
  change (existsb (zs_eqb (lit "alg")) plain_args) with true. change (existsb (zs_eqb (lit "kid")) plain_args) with true. change (existsb (zs_eqb (lit "typ")) plain_args) with true. lits. cbn match.
  repeat split.
  - destruct (dget kw (lit "alg")); reflexivity.
  - destruct (dget kw (lit "kid")); reflexivity.
  - destruct (dget kw (lit "typ")); reflexivity.
Qed.
Lemma jws_init_ok : forall P msg kw, dget kw (lit "jwk") = None -> exists s, jws_init P msg kw None = Ok s.
Proof. intros P msg kw J. unfold jws_init. rewrite J. cbn [bind]. eexists. reflexivity. Qed.

Lemma jsonable_get : forall d n v, jsonable (VDict d) = true -> dget d n = Some v -> jsonable v = true.
Proof.
  intros d n v J D. cbn [jsonable] in J. apply andb_true_iff in J. destruct J as [_ J]. induction d as [|[k w] d IH]; [discriminate|]. cbn [dget forallb fst snd] in *.
  apply andb_true_iff in J. destruct J as [J1 J2]. destruct (zs_eqb k n); [injection D as <-; apply andb_true_iff in J1; apply J1|apply IH; assumption].
Qed.

(** The algorithm of a header pair: its own, else the instance's. *)
Definition pair_alg (s : jws) (prot : dict) : option pval :=
  match dget prot (lit "alg") with Some a => Some a | None => dget (s_dict s) (lit "alg") end.

(** The keys are fit for algorithm [a]: what they sign they verify; keys tried before the right one do not get in the
    way; kids are text. *)
Record keys_fit (P : prims) (a : ustr) (g : signer) (t : ustr) (keys : list jwk) : Prop := {
  kf_signer : dget SIGNERS a = Some g;
  kf_type : alg2keytype (VStr a) = Ok (Some t);
  kf_some : keys <> [];
  kf_works : forall k, In k keys -> right_type t k -> works P g k;
  kf_kid : forall k, In k keys -> exists x, k_kid k = VStr x /\ scalars x = true;
  kf_clean : forall k k', In k keys -> In k' keys -> k' = k \/ ~ right_type t k' \/ clean P g k' \/ (truthy (k_kid k) = true /\ k_kid k' <> k_kid k)
}.

(** Header pairs that do not interfere: JSON values, no jwk, no kid outside the protected header, no member "self". *)
Record pair_fit (prot unprot : dict) : Prop := {
  pf_prot : jsonable (VDict prot) = true;
  pf_unprot : jsonable (VDict unprot) = true;
  pf_cty : text_cty prot;
  pf_jwk : dget prot (lit "jwk") = None /\ dget unprot (lit "jwk") = None;
  pf_kid : dget unprot (lit "kid") = None;
  pf_self : dmem unprot (lit "self") = false
}.

Lemma signed_header_nodup : forall p a ko typ, nodup_keys p = true -> nodup_keys (sign_header p a ko typ) = true.
Proof. intros p a ko typ H. unfold sign_header. destruct ko as [k|]; [destruct (truthy (k_kid k))|]; destruct typ; repeat apply dset_nodup; exact H. Qed.

Lemma create_then_verify : forall P E s keys prot unprot e a g t p pb, create_signature P E s (Some keys) (prot, unprot) = Ok e ->
  s_msg s = VStr p -> utf8_encode p = Ok pb -> pair_alg s prot = Some (VStr a) -> keys_fit P a g t keys -> pair_fit prot unprot ->
  jsonable (VDict e) = true /\ dget e (lit "payload") = None /\ dget e (lit "signatures") = None /\ nodup_keys e = true /\ (forall n, existsb (zs_eqb n) [lit "protected"; lit "header"; lit "signature"] = false -> dget e n = None) /\
  forall e', (forall n, existsb (zs_eqb n) [lit "protected"; lit "header"; lit "signature"] = true -> dget e' n = dget e n) ->
  exists tok hs s1, json_token (VStr (b64e pb)) (VDict e') = Ok (tok, hs) /\ init_from P hs = Ok s1 /\
    forall an sigalg, truthy sigalg = false \/ sigalg = VStr a -> exists s2 k', verify_compact P s1 (VBytes tok) (Some keys) an sigalg = (s2, Ok (payload_view prot pb, Some k')).
Proof.
  intros P E s keys prot unprot e a g t p pb H M U A K F. destruct K as [KG KT KN KW KK KC], F as [FP FU FC (FJ1 & FJ2) FK FS].
  unfold create_signature in H. 
  set (ph := if dmem prot (lit "alg") then prot else dset prot (lit "alg") (VStr a)).
  assert (PH : exists al, dget (s_dict s) (lit "alg") = Some al /\ (if dmem prot (lit "alg") then prot else dset prot (lit "alg") al) = ph).
  { destruct (dget (s_dict s) (lit "alg")) as [al|] eqn:D; [|discriminate]. exists al. split; [reflexivity|]. unfold ph, pair_alg, dmem in *. destruct (dget prot (lit "alg")); [reflexivity|]. congruence. }
  destruct PH as (al & D & PH). rewrite D in H. cbn [bind] in H. rewrite PH in H. clear PH.
  assert (PA : dget ph (lit "alg") = Some (VStr a)).
  { unfold ph, pair_alg, dmem in *. destruct (dget prot (lit "alg")) as [x|] eqn:X; [congruence|]. apply dget_dset_same. }
  assert (PO : forall n, n <> lit "alg" -> dget ph n = dget prot n).
  { intros n N. unfold ph. destruct (dmem prot (lit "alg")); [reflexivity|]. apply dget_dset_other. apply not_eq_sym. exact N. }
  destruct (dmem ph (lit "self") || dmem ph (lit "msg")); [discriminate|].
  set (kw := ddel ph (lit "with_digest")) in *.
  assert (KA : dget kw (lit "alg") = Some (VStr a)) by (unfold kw; rewrite ddel_other by ne; exact PA).
  assert (KO : forall n, n <> lit "alg" -> n <> lit "with_digest" -> dget kw n = dget prot n).
  { intros n N1 N2. unfold kw. rewrite ddel_other by (apply not_eq_sym; exact N2). apply PO. exact N1. }
  assert (KNE : kw <> []) by (intro X; rewrite X in KA; discriminate).
  destruct (jws_init P (s_msg s) kw None) as [inner|] eqn:JI; [|discriminate]. cbn [bind] in H.
  destruct (jws_init_spec P (s_msg s) kw inner KNE) as (I1 & I2 & I3 & I4 & I5 & I6); [rewrite KO by ne; exact FJ1|exact JI|].
  unfold kwarg in I4. rewrite KA in I4. rewrite KO in I5, I6 by ne.
  set (prot' := match prot with [] => [] | _ => ph end). match type of H with context[sign_compact P E inner (Some keys) ?q] => change q with prot' in H end.
  assert (P'O : forall n, n <> lit "alg" -> dget prot' n = dget prot n) by (intros n N; unfold prot'; destruct prot; [reflexivity|apply PO; exact N]).
  destruct (sign_compact P E inner (Some keys) prot') as [inner' r] eqn:SC. cbn [snd] in H. destruct r as [tok|]; [|discriminate H]. cbn [bind] in H.
  assert (AS : scalars a = true) by (eapply signers_scalars; exact KG).
  assert (PHJ : jsonable (VDict ph) = true) by (unfold ph; destruct (dmem prot (lit "alg")); [exact FP|apply jsonable_dset; [exact FP|reflexivity|exact AS]]).
  assert (P'J : jsonable (VDict prot') = true) by (unfold prot'; destruct prot; [reflexivity|exact PHJ]).
  assert (CH : chosen inner (Some keys) = VStr a) by (unfold chosen; rewrite I4; rewrite (signers_truthy _ _ KG); reflexivity).
  destruct (sign_then_verify_gen P E inner keys prot' inner' tok a g t SC CH KG KT KN) as (h & pb' & sg & k & O & IK & HA & HL & BP & BS & TK & V).
  { rewrite I1, M. intros b X. discriminate. }
  { split; [exact P'J|]. split.
    - intros ty X. rewrite I6 in X. eapply jsonable_get; [exact FP|exact X].
    - intros k0 [(l & X & I)|[[X|X] _]]; [injection X as <-; destruct (KK k0 I) as (x & -> & S); exact S|discriminate X|congruence]. }
  { unfold text_cty. rewrite P'O by ne. exact FC. }
  { exact KW. }
  { intros k0 I _. destruct (KK k0 I) as (x & X & _). exists x. exact X. }
  { intros k0 kid I KF RK TF. unfold kid_in_force in KF. rewrite I2, I5 in KF. unfold kwarg. rewrite P'O by ne. destruct (dget prot (lit "kid")) as [v|]; [|reflexivity].
    injection KF as <-. destruct (truthy v) eqn:TV; [|reflexivity]. specialize (RK TV). apply eqb_truthy in RK. congruence. }
  { exact KC. }
  cbv zeta in *. set (hd := sign_header prot' (VStr a) (Some k) (dget (s_dict inner) (lit "typ"))) in *.
  rewrite I1, M in O. cbn [octets_of] in O. rewrite U in O. injection O as <-.
  assert (SP : split 46 tok = [b64e h; b64e pb; b64e sg]).
  { rewrite TK. unfold mk_token. cbn [map]. apply split_join; [discriminate|]. intros x [<-|[<-|[<-|[]]]]; apply b64e_no_dot; [apply ascii_bytes; exact HA|exact BP|exact BS]. }
  rewrite SP in H. assert (AH : ascii (b64e h) = true) by (apply b64e_ascii; apply ascii_bytes; exact HA). assert (ASG : ascii (b64e sg) = true) by (apply b64e_ascii; exact BS). assert (APB : ascii (b64e pb) = true) by (apply b64e_ascii; exact BP).
  assert (HNE : b64e h <> []). { intro X. apply b64e_nil in X; [|apply ascii_bytes; exact HA]. subst h. discriminate. }
  assert (EE : e = (lit "signature", VStr (b64e sg)) :: (match unprot with [] => [] | _ => [(lit "header", VDict unprot)] end) ++ [(lit "protected", VStr (b64e h))]).
  { destruct (b64e h) as [|x y] eqn:X; [congruence|]. injection H as <-. reflexivity. }
  destruct (sign_header_get prot' (VStr a) (Some k) (dget (s_dict inner) (lit "typ"))) as (H1 & H2 & H3 & H4). fold hd in H1, H2, H3, H4.
  assert (NDH : nodup_keys hd = true).
  { apply signed_header_nodup. cbn [jsonable] in P'J. apply andb_true_iff in P'J. apply P'J. }
  split.
  { rewrite EE. destruct unprot as [|u0 ur]; cbn [app]; [cbn [jsonable nodup_keys forallb fst snd]; rewrite (scalars_ascii _ ASG), (scalars_ascii _ AH); reflexivity|].
    set (un := u0 :: ur) in *. assert (X : jsonable (VDict [(lit "signature", VStr (b64e sg)); (lit "header", VDict un); (lit "protected", VStr (b64e h))]) = true); [|exact X].
    change (jsonable (VDict [(lit "signature", VStr (b64e sg)); (lit "header", VDict un); (lit "protected", VStr (b64e h))]))
      with (true && ((true && scalars (b64e sg)) && ((true && jsonable (VDict un)) && ((true && scalars (b64e h)) && true)))).
    rewrite FU, (scalars_ascii _ ASG), (scalars_ascii _ AH). reflexivity. }
  split; [rewrite EE; destruct unprot; reflexivity|]. split; [rewrite EE; destruct unprot; reflexivity|]. split; [rewrite EE; destruct unprot; reflexivity|].
  split.
  { intros n N. cbn [existsb] in N. rewrite orb_false_r in N. apply orb_false_iff in N. destruct N as [N1 N]. apply orb_false_iff in N. destruct N as [N2 N3].
    apply zs_eqb_neq, not_eq_sym, zs_eqb_neq in N1. apply zs_eqb_neq, not_eq_sym, zs_eqb_neq in N2. apply zs_eqb_neq, not_eq_sym, zs_eqb_neq in N3.
    rewrite EE. destruct unprot; cbn [app dget]; rewrite ?N1, ?N2, ?N3; reflexivity. }
  intros e' EE'.
  assert (G1 : dget e' (lit "protected") = Some (VStr (b64e h))) by (rewrite EE', EE by reflexivity; destruct unprot; reflexivity).
  assert (G2 : dget e' (lit "signature") = Some (VStr (b64e sg))) by (rewrite EE', EE by reflexivity; destruct unprot; reflexivity).
  assert (G3 : kwarg e' (lit "header") (VDict []) = VDict unprot) by (unfold kwarg; rewrite EE', EE by reflexivity; destruct unprot; reflexivity).
  exists (join 46 [b64e h; b64e pb; b64e sg]), (dupd unprot hd).
  assert (JT : json_token (VStr (b64e pb)) (VDict e') = Ok (join 46 [b64e h; b64e pb; b64e sg], dupd unprot hd)).
  { unfold json_token. assert (G1' : kwarg e' (lit "protected") (VStr []) = VStr (b64e h)) by (unfold kwarg; rewrite G1; reflexivity). rewrite G1', G2, G3. cbn [py_encode].
    rewrite !utf8_encode_ascii by assumption. cbn [bind]. unfold b64d_enc_dec, ascii_encode. rewrite AH. cbn [bind]. rewrite b64d_b64e by (apply ascii_bytes; exact HA). cbn [bind].
    rewrite utf8_decode_ascii by exact HA. cbn [bind]. destruct h as [|c0 h0]; [vm_compute in HL; discriminate|]. rewrite HL. reflexivity. }
  assert (MG : forall n, dget (dupd unprot hd) n = match dget hd n with Some v => Some v | None => dget unprot n end) by (intro n; apply dupd_get; exact NDH).
  assert (MS : dmem (dupd unprot hd) (lit "self") = false).
  { unfold dmem. rewrite MG, H4 by ne. pose proof FS as FS'. unfold dmem in FS'.
    assert (X : dget prot' (lit "self") = None).
    { destruct (dget prot' (lit "self")) eqn:Y; [|reflexivity]. exfalso. unfold sign_compact in SC. destruct (alg_keys P inner (Some keys) (VStr (lit "sig")) prot') as [s1 r1] eqn:AK.
      apply pair_equal_spec in SC. destruct SC as [_ SC]. destruct r1 as [[[ko x] alg1]|]; [|discriminate]. cbn [bind] in SC. apply alg_keys_inv in AK. destruct AK as (_ & _ & -> & _).
      destruct (sign_header_get prot' alg1 ko None) as (_ & _ & _ & Q). 
      assert (Z : dmem (match dget (s_dict s1) (lit "typ") with Some t0 => dset (sign_header prot' alg1 ko None) (lit "typ") t0 | None => sign_header prot' alg1 ko None end) (lit "self") = true).
      { unfold dmem. destruct (dget (s_dict s1) (lit "typ")); rewrite ?dget_dset; lits; cbn match; rewrite Q by ne; rewrite Y; reflexivity. }
      rewrite Z in SC. discriminate. }
    rewrite X. exact FS'. }
  assert (MJ : dget (dupd unprot hd) (lit "jwk") = None) by (rewrite MG, H4 by ne; rewrite P'O by ne; rewrite FJ1; exact FJ2).
  set (kw2 := ddel (ddel (dupd unprot hd) (lit "msg")) (lit "with_digest")).
  assert (K2 : forall n, n <> lit "msg" -> n <> lit "with_digest" -> dget kw2 n = dget (dupd unprot hd) n) by (intros n N1 N2; unfold kw2; rewrite !ddel_other by (apply not_eq_sym; assumption); reflexivity).
  destruct (jws_init_ok P (kwarg (dupd unprot hd) (lit "msg") VNone) kw2) as (s1 & S1); [rewrite K2 by ne; exact MJ|].
  assert (K2A : dget kw2 (lit "alg") = Some (VStr a)) by (rewrite K2, MG, H1 by ne; reflexivity).
  destruct (jws_init_spec P (kwarg (dupd unprot hd) (lit "msg") VNone) kw2 s1) as (_ & _ & _ & Q4 & Q5 & _); [intro X; rewrite X in K2A; discriminate|rewrite K2 by ne; exact MJ|exact S1|].
  exists s1. split; [exact JT|]. split; [unfold init_from; rewrite MS; exact S1|].
  intros an sigalg SA. destruct (V s1 an sigalg (VBytes (join 46 [b64e h; b64e pb; b64e sg]))) as (s2 & k' & V1 & _).
  { right. rewrite TK. reflexivity. }
  { split; [right; rewrite Q4; unfold kwarg; rewrite K2A; reflexivity|]. right. rewrite Q5, K2 by ne. rewrite MG, FK. destruct (dget hd (lit "kid")); reflexivity. }
  { exact SA. }
  exists s2, k'. replace (payload_view prot pb) with (payload_view prot' pb); [exact V1|]. unfold payload_view. rewrite P'O by ne. reflexivity.
Qed.

(** The header pairs sign_json works on. *)
Definition pairs_of (s : jws) (headers : option (list (dict * dict))) : list (dict * dict) :=
  match headers with Some l => l | None => match dget (s_dict s) (lit "alg") with Some a => [([(lit "alg", a)], [])] | None => [] end end.

(** A header pair fit for use with [keys] under instance [s]. *)
Definition usable (P : prims) (s : jws) (keys : list jwk) (pr : dict * dict) : Prop :=
  exists a g t, pair_alg s (fst pr) = Some (VStr a) /\ keys_fit P a g t keys /\ pair_fit (fst pr) (snd pr).

(** One entry read back. *)
Definition reads_back (P : prims) (keys : list jwk) (an : bool) (sigalg : pval) (pb : bytes) (m : pval) (e : pval) : Prop :=
  exists tok hs s1 s2 k', json_token (VStr (b64e pb)) e = Ok (tok, hs) /\ init_from P hs = Ok s1 /\ verify_compact P s1 (VBytes tok) (Some keys) an sigalg = (s2, Ok (m, Some k')).

Lemma verify_signs_ok : forall P keys an sigalg pb m l s claim, Forall (reads_back P keys an sigalg pb m) l -> claim = VNone \/ claim = m -> pval_eqb m m = true \/ (length l <= 1)%nat /\ claim = VNone ->
  exists s', verify_signs P s (VStr (b64e pb)) l (Some keys) an sigalg claim = Ok (match l with [] => claim | _ => m end, s').
Proof.
  intros P keys an sigalg pb m l. induction l as [|e l IH]; intros s claim F C R; [exists s; reflexivity|].
  apply Forall_cons_iff in F. destruct F as [(tok & hs & s1 & s2 & k' & J & I & V) F]. cbn [verify_signs]. rewrite J. cbn [bind]. rewrite I. cbn [bind]. rewrite V. cbn [bind].
  assert (N : exists s', verify_signs P s2 (VStr (b64e pb)) l (Some keys) an sigalg m = Ok (m, s')).
  { destruct l as [|e' l']; [exists s2; reflexivity|]. destruct (IH s2 m F) as (s' & X); [right; reflexivity|destruct R as [R|[R _]]; [left; exact R|cbn [length] in R; lia]|]. exists s'. exact X. }
  destruct N as (s' & N). exists s'. destruct C as [->| ->]; [exact N|].
  destruct m; try exact N; (destruct R as [R|[_ R]]; [rewrite R; exact N|discriminate R]).
Qed.

Lemma create_all : forall P Es i s keys hds l, create_signatures P Es i s keys hds = Ok l -> Forall2 (fun pr v => exists E e, create_signature P E s keys pr = Ok e /\ v = VDict e) hds l.
Proof.
  intros P Es i s keys hds. revert i. induction hds as [|h r IH]; intros i l H; cbn [create_signatures] in H; [injection H as <-; constructor|].
  destruct (create_signature P (Es i) s keys h) as [e|] eqn:C; [|discriminate]. cbn [bind] in H. destruct (create_signatures P Es (S i) s keys r) as [es|] eqn:R; [|discriminate]. cbn [bind] in H. apply Ok_inj in H. subst l.
  constructor; [exists (Es i), e; auto|apply (IH (S i)); exact R].
Qed.

Lemma entry_read : forall P E s keys pr e p pb an sigalg, create_signature P E s (Some keys) pr = Ok e -> s_msg s = VStr p -> utf8_encode p = Ok pb -> usable P s keys pr -> truthy sigalg = false ->
  jsonable (VDict e) = true /\ dget e (lit "payload") = None /\ dget e (lit "signatures") = None /\ nodup_keys e = true /\
  forall e', (forall n, existsb (zs_eqb n) [lit "protected"; lit "header"; lit "signature"] = true -> dget e' n = dget e n) -> reads_back P keys an sigalg pb (payload_view (fst pr) pb) (VDict e').
Proof.
  intros P E s keys [prot unprot] e p pb an sigalg H M U (a & g & t & A & K & F) SA. cbn [fst snd] in *. destruct (create_then_verify _ _ _ _ _ _ _ _ _ _ _ _ H M U A K F) as (J & N1 & N2 & ND & _ & R).
  repeat (split; [assumption|]). intros e' EE. destruct (R e' EE) as (tok & hs & s1 & T & I & V). destruct (V an sigalg (or_introl SA)) as (s2 & k' & V'). exists tok, hs, s1, s2, k'. auto.
Qed.

(** What sign_json makes, in general or flattened form, verify_json accepts, returning the payload. *)
Theorem json_sign_then_verify : forall P Es s keys headers flatten text m, sign_json P Es s (Some keys) headers flatten = Ok text ->
  pairs_of s headers <> [] -> (forall pr, In pr (pairs_of s headers) -> usable P s keys pr) ->
  forall p pb, s_msg s = VStr p -> utf8_encode p = Ok pb ->
  (forall pr, In pr (pairs_of s headers) -> payload_view (fst pr) pb = m) -> pval_eqb m m = true \/ (length (pairs_of s headers) = 1)%nat ->
  forall v an sigalg, truthy sigalg = false -> exists v', verify_json P v (VStr text) (Some keys) an sigalg = Ok (m, v').
Proof.
  intros P Es s keys headers flatten text m H NE US p pb M U VW RF v an sigalg SA. unfold sign_json in H. rewrite M in H. unfold b64e_enc_dec in H. rewrite U in H. cbn [bind] in H.
  assert (PA : match headers with Some l => Ok l | None => match dget (s_dict s) (lit "alg") with Some a => Ok [([(lit "alg", a)], [])] | None => Raise EAttributeError end end = Ok (pairs_of s headers)).
  { unfold pairs_of in *. destruct headers as [l|]; [reflexivity|]. destruct (dget (s_dict s) (lit "alg")); [reflexivity|congruence]. }
  rewrite PA in H. clear PA. cbn [bind] in H. set (hs := pairs_of s headers) in *. clearbody hs. clear headers.
  assert (BP : bytes_ok pb = true) by (eapply utf8_bytes; exact U). pose proof (scalars_ascii _ (b64e_ascii _ BP)) as SB.
  set (res := [(lit "payload", VStr (b64e pb))]) in *.
  assert (CASES : (exists E pr e, hs = [pr] /\ create_signature P E s (Some keys) pr = Ok e /\ dumps true (VDict (dupd res e)) = Ok text) \/
                  (exists l, create_signatures P Es 0 s (Some keys) hs = Ok l /\ dumps true (VDict (dset res (lit "signatures") (VList l))) = Ok text)).
  { assert (G : (l <- create_signatures P Es 0 s (Some keys) hs;; dumps true (VDict (dset res (lit "signatures") (VList l)))) = Ok text -> exists l, create_signatures P Es 0 s (Some keys) hs = Ok l /\ dumps true (VDict (dset res (lit "signatures") (VList l))) = Ok text).
    { clear H. destruct (create_signatures P Es 0 s (Some keys) hs) as [l|]; [|discriminate]. cbn [bind]. intro X. exists l. auto. }
    assert (G' : (out <- (l <- create_signatures P Es 0 s (Some keys) hs;; Ok (dset res (lit "signatures") (VList l)));; dumps true (VDict out)) = Ok text -> exists l, create_signatures P Es 0 s (Some keys) hs = Ok l /\ dumps true (VDict (dset res (lit "signatures") (VList l))) = Ok text).
    { intro X. apply G. destruct (create_signatures P Es 0 s (Some keys) hs); [exact X|discriminate]. }
    destruct flatten; [|right; apply G'; exact H]. destruct hs as [|pr [|pr2 r]]; [congruence| |right; apply G'; exact H].
    left. destruct (create_signature P (Es 0%nat) s (Some keys) pr) as [e|] eqn:C; [|discriminate]. cbn [bind] in H. exists (Es 0%nat), pr, e. auto. }
  clear H. unfold verify_json. cbn [loads_any]. destruct CASES as [(E & pr & e & -> & C & D)|(l & C & D)].
  - destruct (entry_read P E s keys pr e p pb an sigalg C M U (US pr (or_introl eq_refl)) SA) as (J & N1 & N2 & ND & R).
    assert (DG : forall n, dget (dupd res e) n = match dget e n with Some x => Some x | None => dget res n end) by (intro n; apply dupd_get; exact ND).
    assert (JO : jsonable (VDict (dupd res e)) = true).
    { assert (X : forall e0 d, jsonable (VDict e0) = true -> jsonable (VDict d) = true -> jsonable (VDict (dupd d e0)) = true).
      { clear. induction e0 as [|[k0 w0] e0 IH]; intros d J1 J2; [exact J2|]. cbn [jsonable nodup_keys forallb fst snd] in J1. apply andb_true_iff in J1. destruct J1 as [A B]. apply andb_true_iff in A. destruct A as [_ A]. apply andb_true_iff in B. destruct B as [B1 B2]. apply andb_true_iff in B1. destruct B1 as [B0 B1].
        change (dupd d ((k0, w0) :: e0)) with (dupd (dset d k0 w0) e0). apply IH; [cbn [jsonable]; rewrite A, B2; reflexivity|apply jsonable_dset; assumption]. }
      apply X; [exact J|]. unfold res. cbn [jsonable nodup_keys forallb fst snd]. rewrite SB. reflexivity. }
    destruct (loads_dumps true _ JO) as (t & T1 & _ & T3). rewrite D in T1. apply Ok_inj in T1. subst t. rewrite T3. cbn [bind py_get].
    rewrite !DG, N1, N2. change (dget res (lit "payload")) with (Some (VStr (b64e pb))). change (dget res (lit "signatures")) with (@None pval). cbn [bind].
    set (e' := flat_map _ _).
    destruct (verify_signs_ok P keys an sigalg pb m [VDict e'] v VNone) as (s' & X); [|left; reflexivity|right; split; [cbn [length]; lia|reflexivity]|exists s'; exact X].
    constructor; [|constructor]. rewrite <- (VW pr (or_introl eq_refl)). apply R. intros n N. unfold e'. cbn [existsb] in N. rewrite orb_false_r in N.
    assert (DR : dget res n = None).
    { unfold res. cbn [dget]. destruct (zs_eqb (lit "payload") n) eqn:Q; [|reflexivity]. apply zs_eqb_eq in Q. subst n. vm_compute in N. discriminate. }
    assert (DN : dget (dupd res e) n = dget e n) by (rewrite DG, DR; destruct (dget e n); reflexivity). rewrite <- DN.
    cbn [flat_map].     apply orb_true_iff in N. destruct N as [N|N]; [|apply orb_true_iff in N; destruct N as [N|N]]; apply zs_eqb_eq in N; subst n;
      destruct (dget (dupd res e) (lit "protected")), (dget (dupd res e) (lit "header")), (dget (dupd res e) (lit "signature")); reflexivity.
  - apply create_all in C. assert (AR : Forall (fun v => jsonable v = true) l /\ Forall (reads_back P keys an sigalg pb m) l).
    { clear D NE RF. induction C as [|pr x hs l (E & e & C & ->) C2 IH]; [split; constructor|]. destruct (entry_read P E s keys pr e p pb an sigalg C M U (US pr (or_introl eq_refl)) SA) as (J & _ & _ & _ & R).
      destruct IH as [I1 I2]; [intros q I; apply US; right; exact I|intros q I; apply VW; right; exact I|]. split; constructor; try assumption. rewrite <- (VW pr (or_introl eq_refl)). apply R. reflexivity. }
    destruct AR as [AJ AR]. pose proof (F2_length _ _ _ _ _ C) as LEN.
    assert (JO : jsonable (VDict (dset res (lit "signatures") (VList l))) = true).
    { apply jsonable_dset; [|reflexivity|cbn [jsonable]; apply forallb_forall; apply Forall_forall; exact AJ]. unfold res. cbn [jsonable nodup_keys forallb fst snd]. rewrite SB. reflexivity. }
    destruct (loads_dumps true _ JO) as (t & T1 & _ & T3). rewrite D in T1. apply Ok_inj in T1. subst t. rewrite T3. cbn [bind py_get].
    change (dget (dset res (lit "signatures") (VList l)) (lit "payload")) with (Some (VStr (b64e pb))). change (dget (dset res (lit "signatures") (VList l)) (lit "signatures")) with (Some (VList l)). cbn [bind py_iter].
    destruct (verify_signs_ok P keys an sigalg pb m l v VNone AR (or_introl eq_refl)) as (s' & X).
    { destruct RF as [RF|RF]; [left; exact RF|right; split; [lia|reflexivity]]. }
    exists s'. rewrite X. destruct l; [destruct hs; [congruence|discriminate LEN]|reflexivity].
Qed.
