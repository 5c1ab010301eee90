(** * Proofs about JSON Web Signatures: recognition *)
From Coq Require Import ZArith List Bool Lia ZifyBool.
From Verif Require Import Base BaseProofs Utf8 Codec CodecProofs Json JsonProofs Jwt JwtProofs Prims Elliptic Ecc PvalEq Jwk JwkProofs JwkProofs2 Jws JwsProofs JwsProofs2 JwsProofs3 JwsProofs4.
Import ListNotations.
Open Scope Z_scope.

(** ** A token that unpacks is not JSON *)

Lemma skip_ws_keeps : forall l, In 46 l -> skip_ws l <> [].
Proof.
  induction l as [|c l IH]; intro I; [contradiction|]. cbn [skip_ws]. destruct (jws_c c) eqn:W; [|discriminate].
  destruct I as [->|I]; [discriminate W|apply IH; exact I].
Qed.
Lemma strip_app : forall p s r, strip p s = Some r -> s = p ++ r.
Proof.
  induction p as [|a p IH]; intros s r H; [injection H as <-; reflexivity|]. destruct s as [|b s]; [discriminate|]. cbn [strip] in H.
  destruct (a =? b) eqn:E; [|discriminate]. apply Z.eqb_eq in E. subst b. apply IH in H. subst s. reflexivity.
Qed.

(** The first octet of what a segment starting with a digit or '-' decodes to. *)
Lemma a2b_high : forall s lc p d, 52 <= lc -> a2b s 1 lc p = Ok d -> d = [] \/ exists b r, d = b :: r /\ 208 <= b.
Proof.
  induction s as [|c s IH]; intros lc p d L H; [discriminate|]. cbn [a2b] in H. destruct (c =? 61) eqn:C.
  - change (1 >=? 2) with false in H. cbn match in H. eapply IH; eassumption.
  - destruct (b64_val c) as [v|] eqn:V; [|eapply IH; eassumption]. change (1 =? 0) with false in H. change (1 =? 1) with true in H. cbn match in H.
    destruct (a2b s 2 (v mod 16) 0) as [t|]; [|discriminate]. cbn [bind] in H. injection H as <-. right. exists (lc * 4 + v / 16), t. split; [reflexivity|].
    assert (0 <= v). { unfold b64_val in V. repeat match type of V with context[if ?b then _ else _] => destruct b eqn:?; [injection V as <-; lia|] end. discriminate. }
    pose proof (Z.div_pos v 16 H ltac:(lia)). lia.
Qed.
Lemma b64d_high : forall c p d, 48 <= c <= 57 \/ c = 45 -> b64d (c :: p) = Ok d -> d = [] \/ exists b r, d = b :: r /\ 208 <= b.
Proof.
  intros c p d C H. unfold b64d in H. destruct (negb (b64_re_match (rstrip 61 (c :: p)))); [discriminate|].
  assert (X : forall q, urlsafe_b64decode (c :: q) = Ok d -> d = [] \/ exists b r, d = b :: r /\ 208 <= b).
  { intros q Q. unfold urlsafe_b64decode in Q. cbn [map a2b] in Q.
    assert (T : exists v, tr_dec c =? 61 = false /\ b64_val (tr_dec c) = Some v /\ 52 <= v).
    { destruct C as [C| ->]; [|exists 62; repeat split; lia]. exists (c + 4). unfold tr_dec, b64_val.
      repeat match goal with |- context[if ?b then _ else _] => first [replace b with false by lia|replace b with true by lia] end. repeat split; try lia; f_equal; lia. }
    destruct T as (v & T1 & T2 & T3). rewrite T1, T2 in Q. change (0 =? 0) with true in Q. cbn match in Q. eapply a2b_high; eassumption. }
  destruct (zs_eqb (rstrip 61 (c :: p)) (c :: p)); [|cbn [bind] in H; exact (X p H)].
  assert (A : exists q, add_padding (c :: p) = Ok (c :: q) \/ add_padding (c :: p) = Raise EBadSyntax).
  { unfold add_padding. repeat match goal with |- context[match ?b with _ => _ end] => destruct b end; first [eexists; left; reflexivity|exists []; right; reflexivity]. }
  destruct A as (q & [A|A]); rewrite A in H; [exact (X q H)|discriminate].
Qed.
Lemma loads_high : forall c t v, 128 <= c -> loads (c :: t) <> Ok v.
Proof.
  intros c t v C H. unfold loads in H. destruct (c =? 65279); [discriminate|]. unfold decode_text in H.
  rewrite skip_ws_c in H by (unfold jws_c; lia).
  assert (J : forall n, exists e, jval n (c :: t) = Raise e).
  { intros [|n]; [eexists; reflexivity|]. cbn [jval]. replace (c =? 34) with false by lia. replace (c =? 123) with false by lia. replace (c =? 91) with false by lia.
    assert (S : forall a p, a < 128 -> strip (a :: p) (c :: t) = None) by (intros a p A; cbn [strip]; replace (a =? c) with false by lia; reflexivity).
    unfold jatom. change (lit "null") with [110; 117; 108; 108]. change (lit "true") with [116; 114; 117; 101]. change (lit "false") with [102; 97; 108; 115; 101].
    change (lit "NaN") with [78; 97; 78]. change (lit "Infinity") with (73 :: tl (lit "Infinity")). change (lit "-Infinity") with (45 :: tl (lit "-Infinity")). rewrite !S by lia.
    replace (c =? 45) with false by lia. unfold jnum. replace (c =? 48) with false by lia. replace (is_digit c) with false by (unfold is_digit; lia). eexists. reflexivity. }
  destruct (J (S (2 * length (c :: t)))) as (e & E). rewrite E in H. discriminate.
Qed.
Lemma decode_high : forall b r t, bytes_ok (b :: r) = true -> 128 <= b -> utf8_decode (b :: r) = Ok t -> exists c t', t = c :: t' /\ 128 <= c.
Proof.
  intros b r t B H U. pose proof (utf8_encode_decode _ _ B U) as E. destruct t as [|c t]; [discriminate|]. exists c, t. split; [reflexivity|].
  unfold utf8_encode in E. destruct (scalars (c :: t)) eqn:S; [|discriminate]. injection E as E. cbn [map concat] in E. unfold utf8_enc_c in E at 1. destruct (c <? 128) eqn:C; [injection E as E _; lia|lia].
Qed.
Lemma atoms_nodot : forall p, In p [lit "null"; lit "true"; lit "false"; lit "NaN"; lit "Infinity"; lit "-Infinity"] -> ~ In 46 p.
Proof. intros p H I. repeat (destruct H as [<-|H]; [vm_compute in I; intuition discriminate|]). contradiction. Qed.
Lemma loads_dotted : forall c p r v, b64url_char c = true -> loads (c :: p ++ 46 :: r) = Ok v -> 48 <= c <= 57 \/ c = 45.
Proof.
  intros c p r v C H. unfold b64url_char in C. unfold loads in H. replace (c =? 65279) with false in H by lia. unfold decode_text in H.
  rewrite skip_ws_c in H by (unfold jws_c; lia). set (s := c :: p ++ 46 :: r) in *.
  assert (I : In 46 s) by (right; apply in_or_app; right; left; reflexivity).
  destruct (jval (S (2 * length s)) s) as [[w q]|] eqn:J; [|discriminate]. cbn [bind fst snd] in H.
  assert (Q : ~ In 46 q) by (intro Q; apply skip_ws_keeps in Q; destruct (skip_ws q); congruence).
  assert (K : forall a x, strip a s = Some x -> In a [lit "null"; lit "true"; lit "false"; lit "NaN"; lit "Infinity"; lit "-Infinity"] -> In 46 x).
  { intros a x K IA. apply strip_app in K. rewrite K in I. apply in_app_or in I. destruct I as [I|I]; [exfalso; revert I; apply atoms_nodot; exact IA|exact I]. }
  cbn [jval] in J. unfold s in J. replace (c =? 34) with false in J by lia. replace (c =? 123) with false in J by lia. replace (c =? 91) with false in J by lia. fold s in J. unfold jatom in J.
  repeat match type of J with context[strip ?a s] => let E := fresh in destruct (strip a s) as [x|] eqn:E; [exfalso; apply Q; injection J as _ <-; apply (K _ _ E); cbn [In]; auto 10|] end.
  unfold s in J. destruct (c =? 45) eqn:C45; [right; lia|]. unfold jnum in J. destruct (c =? 48) eqn:C48; [left; lia|]. destruct (is_digit c) eqn:D; [unfold is_digit in D; left; lia|discriminate].
Qed.

Lemma a2b_none : forall s l p, Forall (fun c => c = 61 \/ b64_val c = None) s -> a2b s 0 l p = Ok [].
Proof.
  induction s as [|c s IH]; intros l p F; [reflexivity|]. apply Forall_cons_iff in F. destruct F as [C F]. cbn [a2b]. destruct (c =? 61) eqn:E; [change (0 >=? 2) with false; cbn match; apply IH; exact F|].
  destruct C as [->|C]; [discriminate E|]. rewrite C. apply IH. exact F.
Qed.
Lemma b64d_first : forall c p d, b64d (c :: p) = Ok d -> d = [] \/ b64url_char c = true.
Proof.
  intros c p d H. pose proof (b64d_accepts _ _ H) as A. cbv zeta in A. destruct (rstrip_app 61 (c :: p)) as (n & R).
  destruct (rstrip 61 (c :: p)) as [|c' cb] eqn:E.
  - left. assert (X : forall k, urlsafe_b64decode (repeat 61 k) = Ok []).
    { intro k. unfold urlsafe_b64decode. apply a2b_none. apply Forall_forall. intros x I. apply in_map_iff in I. destruct I as (y & <- & I). apply repeat_spec in I. subst y. left. reflexivity. }
    unfold b64d in H. rewrite E in H. change (b64_re_match []) with true in H. cbn [negb zs_eqb bind] in H. rewrite R in H. cbn [app] in H. rewrite X in H. congruence.
  - cbn [app] in R. injection R as <- R. destruct A as [A|(x & A1 & A2)]; [right; cbn [forallb] in A; apply andb_true_iff in A; apply A|].
    destruct x as [|x0 x]; [|right; injection A1 as <- _; cbn [forallb] in A2; apply andb_true_iff in A2; apply A2].
    injection A1 as -> ->. left. cbn [app] in R. subst p.
    assert (X : forall k, urlsafe_b64decode (10 :: repeat 61 k) = Ok []).
    { intro k. unfold urlsafe_b64decode. cbn [map]. apply a2b_none. constructor; [right; reflexivity|]. apply Forall_forall. intros x I. apply in_map_iff in I. destruct I as (y & <- & I). apply repeat_spec in I. subst y. left. reflexivity. }
    unfold b64d in H. rewrite E in H. change (b64_re_match [10]) with true in H. cbn [negb] in H. destruct (zs_eqb [10] (10 :: repeat 61 n)) eqn:Z; [|cbn [bind] in H; rewrite X in H; congruence].
    apply zs_eqb_eq in Z. rewrite <- Z in H. discriminate H.
Qed.

Theorem unpacked_not_json : forall t u, unpack (VStr t) = Ok u -> loads t = Raise EJSONDecodeError.
Proof.
  intros t u H. destruct (unpack_inv _ _ H) as (b & parts & ps & x & T & A & S & M & U & L & _ & _). assert (b = t) by (destruct T as [T|T]; congruence). subst b. clear T H.
  destruct (loads_total t) as [(v & V)|V]; [|exact V]. exfalso.
  destruct (split_token_ok _ _ S) as (_ & J & N & _). destruct parts as [|p0 [|p1 parts]]; cbn [length] in N; [lia|lia|]. cbn [mapM] in M.
  destruct (b64d p0) as [d0|] eqn:D0; [|discriminate]. cbn [bind] in M. assert (HD : hd [] ps = d0).
  { destruct (b64d p1); [|discriminate M]. cbn [bind] in M. destruct (mapM b64d parts); [|discriminate M]. cbn [bind] in M. injection M as <-. reflexivity. }
  rewrite HD in U. assert (D : d0 <> []) by (intros ->; injection U as <-; vm_compute in L; discriminate).
  destruct p0 as [|c p]; [vm_compute in D0; congruence|]. destruct (b64d_first _ _ _ D0) as [X|C]; [contradiction|].
  assert (TT : t = c :: p ++ 46 :: join 46 (p1 :: parts)) by (rewrite <- J; reflexivity). rewrite TT in V. apply loads_dotted in V; [|exact C].
  destruct (b64d_high _ _ _ V D0) as [X|(b & r & -> & B)]; [contradiction|]. apply b64d_bytes in D0. destruct (decode_high b r x D0 ltac:(lia) U) as (c1 & t' & -> & C1). revert L. apply loads_high. exact C1.
Qed.

(** The names of the algorithm table. *)
Definition known_algs : list ustr :=
  [lit "HS256"; lit "HS384"; lit "HS512"; lit "RS256"; lit "RS384"; lit "RS512"; lit "ES256"; lit "ES384"; lit "ES512"; lit "PS256"; lit "PS384"; lit "PS512"; lit "none"].

Lemma in_signers_known : forall a, in_signers a = Ok true <-> exists x, a = VStr x /\ In x known_algs.
Proof.
  intro a. split.
  - intro H. destruct a as [| | | | x | | |]; try discriminate. exists x. split; [reflexivity|]. cbn [in_signers] in H. injection H as H. apply orb_true_iff in H. destruct H as [H|H].
    + unfold dmem in H. destruct (dget SIGNERS x) as [g|] eqn:G; [|discriminate]. clear H. unfold SIGNERS in G.
      repeat (cbn [dget] in G; match type of G with (if zs_eqb ?n x then _ else _) = _ => destruct (zs_eqb n x) eqn:?; [match goal with E : zs_eqb n x = true |- _ => apply zs_eqb_eq in E; subst x; unfold known_algs; cbn [In]; auto 20 end|] end). discriminate.
    + apply zs_eqb_eq in H. subst x. unfold known_algs. cbn [In]. auto 20.
  - intros (x & -> & I). unfold known_algs in I. cbn [In] in I. repeat (destruct I as [<-|I]; [reflexivity|]). contradiction.
Qed.

(** The header names an algorithm of the table, or null. *)
Definition header_known (h : pval) : Prop :=
  exists d a, h = VDict d /\ dget d (lit "alg") = Some a /\ (a = VNone \/ exists x, a = VStr x /\ In x known_algs).

Theorem recognised_compact : forall s token, (exists s', is_compact_jws s token = Ok (true, s')) <-> exists u, unpack token = Ok u /\ header_known (j_headers u).
Proof.
  intros s token. unfold is_compact_jws. destruct (unpack token) as [u|e]; [|split; [intros (s' & H); discriminate|intros (u & H & _); discriminate]]. split.
  - intros (s' & H). exists u. split; [reflexivity|]. destruct (py_in (lit "alg") (j_headers u)) as [b|]; [|discriminate]. cbn [bind] in H. destruct b; [|discriminate].
    destruct (j_headers u) as [| | | | | | |d] eqn:HD; try discriminate. cbn [py_get] in H. destruct (dget d (lit "alg")) as [a|] eqn:A; [|discriminate]. cbn [bind] in H.
    exists d, a. split; [reflexivity|]. split; [exact A|]. destruct a; try (left; reflexivity); right; apply in_signers_known;
      (match type of H with (ok <- in_signers ?v;; _) = _ => destruct (in_signers v) as [[]|] end; [reflexivity|discriminate|discriminate]).
  - intros (u' & X & d & a & HD & A & K). injection X as <-. rewrite HD. cbn [py_in py_get]. unfold dmem. rewrite A. cbn [bind].
    destruct K as [->|(x & -> & K)]; [eexists; reflexivity|]. assert (IS : in_signers (VStr x) = Ok true) by (apply in_signers_known; exists x; auto). rewrite IS. eexists. reflexivity.
Qed.

Lemma loads_object : forall t d, loads t = Ok (VDict d) -> In 123 t.
Proof.
  intros t d H. assert (X : decode_text t = Ok (VDict d)) by (unfold loads in H; destruct t as [|c t]; [exact H|destruct (c =? 65279); [discriminate|exact H]]).
  unfold decode_text in X. assert (W : forall l c, In c (skip_ws l) -> In c l).
  { clear. induction l as [|x l IH]; intros c I; [exact I|]. cbn [skip_ws] in I. destruct (jws_c x); [right; apply IH; exact I|exact I]. }
  apply W. destruct (jval (S (2 * length t)) (skip_ws t)) as [[v q]|] eqn:J; [|discriminate]. cbn [bind fst snd] in X. destruct (skip_ws q); [|discriminate]. injection X as ->.
  cbn [jval] in J. destruct (skip_ws t) as [|c r]; [discriminate|]. destruct (c =? 34) eqn:C1; [destruct (jstr r); discriminate|]. destruct (c =? 123) eqn:C2; [left; lia|]. exfalso.
  destruct (c =? 91) eqn:C3.
  - assert (G : forall n s acc d r, jelems n s acc = Ok (VDict d, r) -> False).
    { clear. induction n as [|n IH]; intros s acc d r H; [discriminate|]. cbn [jelems] in H. destruct (jval n s) as [v|]; [|discriminate]. cbn [bind] in H. destruct (skip_ws (snd v)) as [|c2 r2]; [discriminate|].
      destruct (c2 =? 93); [discriminate|]. destruct (c2 =? 44); [|discriminate]. eapply IH; exact H. }
    destruct (skip_ws r) as [|c1 r1]; [discriminate|]. destruct (c1 =? 93); [discriminate|]. eapply G; exact J.
  - unfold jatom in J. repeat match type of J with context[strip ?a ?s] => destruct (strip a s); [discriminate|] end.
    assert (G : forall b s d r, jnum b s = Ok (VDict d, r) -> False).
    { clear. intros b s d r H. unfold jnum in H. destruct s as [|c s]; [discriminate|]. destruct (c =? 48); [|destruct (is_digit c); [destruct (span_digits s)|discriminate]].
      all: match type of H with context[jfrac ?x] => destruct (jfrac x) as [f r1] end; destruct (jexp r1) as [e r2]; destruct (f ++ e); discriminate. }
    destruct (c =? 45); eapply G; exact J.
Qed.

(** C32 *)
Theorem recognised : forall s t, forallb (fun c => b64url_char c || (c =? 46)) t = true ->
  (exists s', is_jws s (VStr t) = Ok (true, s')) <-> exists u, unpack (VStr t) = Ok u /\ header_known (j_headers u).
Proof.
  intros s t F. unfold is_jws. cbn [loads_any]. destruct (loads_total t) as [(v & V)|V]; rewrite V.
  - split.
    + intros (s' & H). exfalso. destruct v; try discriminate. apply loads_object in V. rewrite forallb_forall in F. specialize (F _ V). discriminate.
    + intros (u & U & _). apply unpacked_not_json in U. congruence.
  - change (is_ValueError EJSONDecodeError) with true. cbn match. apply recognised_compact.
Qed.

(** When recognition raises. *)
Theorem recognition_total : forall s t, (exists d, loads t = Ok (VDict d)) \/
  (loads t = Raise EJSONDecodeError /\ forall u, unpack (VStr t) = Ok u -> exists d, j_headers u = VDict d /\ forall a, dget d (lit "alg") = Some a -> match a with VList _ | VDict _ => False | _ => True end) ->
  exists b s', is_jws s (VStr t) = Ok (b, s').
Proof.
  intros s t H. unfold is_jws. cbn [loads_any]. destruct H as [(d & ->)|(-> & H)]; [eexists; eexists; reflexivity|]. change (is_ValueError EJSONDecodeError) with true. cbn match.
  unfold is_compact_jws. destruct (unpack (VStr t)) as [u|]; [|eexists; eexists; reflexivity]. destruct (H u eq_refl) as (d & -> & A). cbn [py_in py_get]. unfold dmem in *. cbn [bind].
  destruct (dget d (lit "alg")) as [a|]; [|eexists; eexists; reflexivity]. specialize (A a eq_refl). cbn [bind]. destruct a; try contradiction; cbn [in_signers bind]; eexists; eexists; reflexivity.
Qed.
Theorem recognition_raises : forall s t e, is_jws s (VStr t) = Raise e -> e = EAttributeError \/ e = ETypeError.
Proof.
  intros s t e H. unfold is_jws in H. cbn [loads_any] in H. destruct (loads_total t) as [(v & V)|V]; rewrite V in H.
  - destruct v; cbn [is_json_jws bind] in H; try discriminate; injection H as <-; left; reflexivity.
  - change (is_ValueError EJSONDecodeError) with true in H. cbn match in H. unfold is_compact_jws in H. destruct (unpack (VStr t)) as [u|]; [|discriminate].
    destruct (j_headers u) as [| | | | | |l|d] eqn:HD; cbn [py_in py_get bind] in H; try (injection H as <-; auto; fail).
    all: try (match type of H with context[if ?b then _ else _] => destruct b end; [injection H as <-; right; reflexivity|discriminate]).
    unfold dmem in H. destruct (dget d (lit "alg")) as [a|]; [|discriminate]. cbn [bind] in H. destruct a; cbn [in_signers bind] in H; try discriminate; injection H as <-; right; reflexivity.
Qed.
