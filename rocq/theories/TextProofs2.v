(** * What unpack accepts, what factory does with any header, and what payload does with any cty. *)
From Coq Require Import ZArith List Bool Lia ZifyBool.
From Verif Require Import Base BaseProofs Codec CodecProofs Utf8 Json JsonProofs Prims Jwt JwtProofs Jwk Jws JwsProofs7 JsonGrammar TextProofs.
Import ListNotations.
Open Scope Z_scope.

(** ** The last member of a name counts *)
Lemma final_spec : forall r k v, (exists l w r', r = l ++ (k, w) :: r' /\ ~ In k (map fst r') /\ final k v r = w) \/ (~ In k (map fst r) /\ final k v r = v).
Proof.
  induction r as [|[k' w] r IH]; intros k v; [right; split; [intros []|reflexivity]|]. cbn [final]. destruct (zs_eqb k' k) eqn:E.
  - apply zs_eqb_eq in E. subst k'. destruct (IH k w) as [(l & x & r' & -> & N & F)|[N F]]; left.
    + exists ((k, w) :: l), x, r'. repeat split; assumption.
    + exists [], w, r. repeat split; assumption.
  - apply zs_eqb_neq in E. destruct (IH k v) as [(l & x & r' & -> & N & F)|[N F]]; [left|right].
    + exists ((k', w) :: l), x, r'. repeat split; assumption.
    + split; [|exact F]. cbn [map fst In]. intros [X|X]; [congruence|exact (N X)].
Qed.
Lemma dget_filter_other : forall (l : list (ustr * pval)) k k', k <> k' -> dget (filter (fun kv => negb (zs_eqb (fst kv) k)) l) k' = dget l k'.
Proof.
  induction l as [|[a b] l IH]; intros k k' N; [reflexivity|]. cbn [filter fst]. destruct (zs_eqb a k) eqn:E; cbn [negb].
  - apply zs_eqb_eq in E. subst a. cbn [dget]. assert (Q : zs_eqb k k' = false) by (apply zs_eqb_neq; exact N). rewrite Q. apply IH. exact N.
  - cbn [dget]. destruct (zs_eqb a k'); [reflexivity|apply IH; exact N].
Qed.
Theorem object_last : forall ms k v, dget (object ms) k = Some v <-> exists l r, ms = l ++ (k, v) :: r /\ ~ In k (map fst r).
Proof.
  induction ms as [|[k0 v0] ms IH]; intros k v.
  - split; [intro H; discriminate H|intros ([|? ?] & r & E & _); discriminate E].
  - cbn [object dget]. destruct (zs_eqb k0 k) eqn:E.
    + apply zs_eqb_eq in E. subst k0. split.
      * intro H. injection H as <-. destruct (final_spec ms k v0) as [(l & w & r & -> & N & F)|[N F]]; rewrite F.
        -- exists ((k, v0) :: l), r. split; [reflexivity|exact N].
        -- exists [], ms. split; [reflexivity|exact N].
      * intros (l & r & E & N). f_equal. destruct l as [|p l]; cbn [app] in E; injection E as E1 E2.
        -- subst. destruct (final_spec r k v) as [(l' & w & r' & -> & _)|[_ F]]; [|exact F]. exfalso. apply N. rewrite map_app. apply in_or_app. right. left. reflexivity.
        -- subst. assert (L : dget (object (l ++ (k, v) :: r)) k = Some v) by (apply IH; exists l, r; split; [reflexivity|exact N]).
           destruct (final_spec (l ++ (k, v) :: r) k v0) as [(l' & w & r' & E' & N' & F)|[N' _]].
           ++ rewrite F. assert (L' : dget (object (l ++ (k, v) :: r)) k = Some w) by (apply IH; exists l', r'; split; assumption). congruence.
           ++ exfalso. apply N'. rewrite map_app. apply in_or_app. right. left. reflexivity.
    + apply zs_eqb_neq in E. rewrite dget_filter_other by exact E. rewrite IH. split.
      * intros (l & r & -> & N). exists ((k0, v0) :: l), r. split; [reflexivity|exact N].
      * intros ([|p l] & r & Q & N); cbn [app] in Q; injection Q as Q1 Q2; [subst; congruence|]. exists l, r. split; assumption.
Qed.

(** ** unpack *)
Lemma mapM_b64d : forall ps qs, mapM b64d ps = Ok qs <-> Forall2 (fun p q => b64d p = Ok q) ps qs.
Proof.
  induction ps as [|p ps IH]; intro qs; cbn [mapM]; split; intro H.
  - injection H as <-. constructor.
  - inversion H. reflexivity.
  - destruct (b64d p) as [q|] eqn:D; [|discriminate H]. cbn [bind] in H. destruct (mapM b64d ps) as [l|]; [|discriminate H]. cbn [bind] in H. injection H as <-.
    constructor; [exact D|apply IH; reflexivity].
  - inversion H as [|? q ? l D F]; subst. rewrite D. cbn [bind]. apply IH in F. rewrite F. reflexivity.
Qed.

(** the token as octets *)
Definition token_octets (token : pval) (tok : bytes) : Prop :=
  token = VBytes tok \/ exists s, token = VStr s /\ utf8_text tok s.

Lemma split_nodot : forall t p, In p (split 46 t) -> ~ In 46 p.
Proof.
  induction t as [|x t IH]; intros p I; cbn [split] in I.
  - destruct I as [<-|[]]. intros [].
  - destruct (Z.eqb_spec x 46) as [->|N].
    + destruct I as [<-|I]; [intros []|exact (IH p I)].
    + destruct (split 46 t) as [|y l] eqn:S1; [destruct I as [<-|[]]; cbn [In]; intros [X|[]]; congruence|].
      destruct I as [<-|I]; [|apply IH; right; exact I]. intros [X|X]; [congruence|]. exact (IH y (or_introl eq_refl) X).
Qed.
Lemma split_join_nodot : forall l, l <> [] -> (forall p, In p l -> ~ In 46 p) -> split 46 (join 46 l) = l.
Proof.
  assert (P1 : forall p, ~ In 46 p -> split 46 p = [p]).
  { induction p as [|x p IH]; intro N; [reflexivity|]. cbn [split]. destruct (Z.eqb_spec x 46) as [->|]; [exfalso; apply N; left; reflexivity|].
    rewrite IH by (intro I; apply N; right; exact I). reflexivity. }
  assert (P2 : forall p t, ~ In 46 p -> split 46 (p ++ 46 :: t) = p :: split 46 t).
  { induction p as [|x p IH]; intros t N; cbn [app split]; [rewrite Z.eqb_refl; reflexivity|]. destruct (Z.eqb_spec x 46) as [->|]; [exfalso; apply N; left; reflexivity|].
    rewrite IH by (intro I; apply N; right; exact I). reflexivity. }
  induction l as [|p l IH]; intros NE F; [congruence|]. destruct l as [|q l].
  - cbn [join]. apply P1. apply F. left. reflexivity.
  - change (join 46 (p :: q :: l)) with (p ++ 46 :: join 46 (q :: l)). rewrite P2 by (apply F; left; reflexivity). f_equal. apply IH; [discriminate|]. intros r I. apply F. right. exact I.
Qed.
Lemma join_two_dot : forall l, (2 <= length l)%nat -> In 46 (join 46 l).
Proof. intros [|p [|q l]] L; cbn [length] in L; [lia|lia|]. change (join 46 (p :: q :: l)) with (p ++ 46 :: join 46 (q :: l)). apply in_or_app. right. left. reflexivity. Qed.

Theorem unpack_exact : forall token u,
  (unpack token = Ok u <->
   exists parts ps s, token_octets token (join 46 parts) /\ (2 <= length parts)%nat /\ (forall p, In p parts -> ~ In 46 p) /\
     Forall2 (fun p q => b64d p = Ok q) parts ps /\ utf8_text (hd [] ps) s /\ json_text s (j_headers u) /\
     j_b64 u = parts /\ j_part u = map VBytes ps).
Proof.
  intros token u. unfold unpack. split.
  - intro H. match type of H with bind ?m _ = _ => destruct m as [tok|] eqn:T; [|discriminate H] end. cbn [bind] in H.
    destruct (split_token tok) as [parts|] eqn:S1; [|discriminate H]. cbn [bind] in H. destruct (mapM b64d parts) as [ps|] eqn:M; [|discriminate H]. cbn [bind] in H.
    destruct (utf8_decode (hd [] ps)) as [s|] eqn:U; [|discriminate H]. cbn [bind] in H. destruct (loads s) as [h|] eqn:L; [|discriminate H]. cbn [bind] in H. injection H as <-.
    destruct (split_token_ok _ _ S1) as (_ & J & N & ND). apply mapM_b64d in M. exists parts, ps, s. split.
    { rewrite J. unfold token_octets. destruct token; try discriminate T; [right; eexists; split; [reflexivity|apply utf8_encode_text; exact T]|left; congruence]. }
    split; [exact N|]. split; [exact ND|]. split; [exact M|]. split.
    { apply utf8_decode_text; [|exact U]. destruct M as [|p q l l' D _]; [reflexivity|]. exact (b64d_bytes _ _ D). }
    split; [apply loads_grammar; exact L|]. split; reflexivity.
  - intros (parts & ps & s & T & N & ND & M & U & L & B & Q).
    assert (E : match token with VStr s => utf8_encode s | VBytes b => Ok b | VList _ => Raise EBadSyntax | _ => Raise EAttributeError end = Ok (join 46 parts)).
    { destruct T as [->|(t & -> & T)]; [reflexivity|]. apply utf8_encode_text. exact T. }
    rewrite E. cbn [bind]. assert (S1 : split_token (join 46 parts) = Ok parts).
    { unfold split_token. assert (X : existsb (fun c => c =? 46) (join 46 parts) = true) by (apply existsb_exists; exists 46; split; [apply join_two_dot; exact N|reflexivity]).
      rewrite X. cbn [negb]. f_equal. apply split_join_nodot; [intros ->; cbn in N; lia|exact ND]. }
    rewrite S1. cbn [bind]. apply mapM_b64d in M. rewrite M. cbn [bind]. apply utf8_encode_text, utf8_decode_encode in U. rewrite U. cbn [bind]. apply loads_grammar in L. rewrite L. cbn [bind].
    f_equal. destruct u as [h bb pp]. cbn [j_headers j_b64 j_part] in *. congruence.
Qed.

(** ** factory on any header *)
Lemma startswith_iff : forall p s, startswith s p = true <-> exists r, s = p ++ r.
Proof.
  induction p as [|x p IH]; intro s; cbn [startswith].
  - split; [intros _; exists s; reflexivity|destruct s; reflexivity].
  - destruct s as [|y s]; [split; [intro H; discriminate H|intros (r & H); discriminate H]|]. split.
    + intro H. apply andb_true_iff in H as [A B]. apply Z.eqb_eq in A. subst y. apply IH in B as (r & ->). exists r. reflexivity.
    + intros (r & H). cbn [app] in H. injection H as -> ->. apply andb_true_iff. split; [apply Z.eqb_refl|]. apply IH. exists r. reflexivity.
Qed.
Lemma substr_iff : forall p s, substr p s = true <-> exists a b, s = a ++ p ++ b.
Proof.
  intros p s. revert p. induction s as [|c s IH]; intro p; cbn [substr].
  - rewrite orb_false_r, startswith_iff. split; [intros (r & H); exists [], r; exact H|]. intros ([|? ?] & b & H); [exists b; exact H|discriminate H].
  - rewrite orb_true_iff, startswith_iff, IH. split.
    + intros [(r & H)|(a & b & ->)]; [exists [], r; exact H|exists (c :: a), b; reflexivity].
    + intros ([|x a] & b & H); [left; exists b; exact H|right]. cbn [app] in H. injection H as _ H. exists a, b. exact H.
Qed.
Lemma text_in_list : forall k l, existsb (pval_eqb (VStr k)) l = true <-> In (VStr k) l.
Proof.
  intros k l. rewrite existsb_exists. split.
  - intros (x & I & E). destruct x; cbn [pval_eqb] in E; try discriminate E. apply zs_eqb_eq in E. subst. exact I.
  - intro I. exists (VStr k). split; [exact I|]. cbn [pval_eqb]. apply zs_eqb_refl.
Qed.

(** headers on which [_is_compact_jws] raises TypeError *)
Definition odd_header (h : pval) : Prop :=
  match h with
  | VDict d => exists l, dget d (lit "alg") = Some (VList l) \/ exists e, dget d (lit "alg") = Some (VDict e)
  | VList l => In (VStr (lit "alg")) l
  | VStr s => exists a b, s = a ++ lit "alg" ++ b
  | _ => True
  end.

Lemma compact_odd : forall s token u, unpack token = Ok u ->
  (odd_header (j_headers u) -> is_compact_jws s token = Raise ETypeError) /\
  (~ odd_header (j_headers u) -> exists b s', is_compact_jws s token = Ok (b, s')).
Proof.
  intros s token u U. unfold is_compact_jws. rewrite U. destruct (j_headers u) as [| | | |t| |l|d] eqn:H; cbn [py_in py_get odd_header bind]; try (split; [intros _; reflexivity|intro N; destruct (N I)]).
  - destruct (substr (lit "alg") t) eqn:S1; cbn [bind]; (split; [intro O|intro N]).
    + reflexivity.
    + apply substr_iff in S1. destruct (N S1).
    + apply substr_iff in O. congruence.
    + do 2 eexists. reflexivity.
  - destruct (existsb (pval_eqb (VStr (lit "alg"))) l) eqn:S1; cbn [bind]; (split; [intro O|intro N]).
    + reflexivity.
    + apply text_in_list in S1. destruct (N S1).
    + apply text_in_list in O. congruence.
    + do 2 eexists. reflexivity.
  - unfold dmem. destruct (dget d (lit "alg")) as [a|] eqn:A; cbn [bind].
    + split.
      * intros (l & [E|(e & E)]); injection E as ->; reflexivity.
      * intro N. destruct a as [| | | | | |l|e]; cbn [in_signers bind]; try (do 2 eexists; reflexivity).
        -- destruct (N (ex_intro _ l (or_introl eq_refl))).
        -- destruct (N (ex_intro _ [] (or_intror (ex_intro _ e eq_refl)))).
    + split; [intros (l & [E|(e & E)]); discriminate E|intros _; do 2 eexists; reflexivity].
Qed.

Theorem factory_odd : forall t u, unpack (VStr t) = Ok u ->
  (odd_header (j_headers u) -> factory (VStr t) = Raise ETypeError) /\
  (~ odd_header (j_headers u) -> exists o, factory (VStr t) = Ok o).
Proof.
  intros t u U. pose proof (unpacked_not_json t u U) as J. destruct (compact_odd new_jws (VStr t) u U) as [A B].
  assert (R : is_jws new_jws (VStr t) = is_compact_jws new_jws (VStr t)) by (unfold is_jws; cbn [loads_any]; rewrite J; reflexivity).
  unfold factory. rewrite R. split.
  - intro O. rewrite (A O). reflexivity.
  - intro N. destruct (B N) as (b & s' & ->). cbn [bind]. eexists. reflexivity.
Qed.

(** ** payload with any cty *)
(** JSON is expected unless a content type other than JWT is named; a byte string is never the name JWT. *)
Theorem payload_cty : forall u d p, j_headers u = VDict d -> nth_error (j_part u) 1 = Some p ->
  match dget d (lit "cty") with
  | None => payload u = payload {| j_headers := VDict []; j_b64 := j_b64 u; j_part := j_part u |}
  | Some (VStr c) =>
      (lower c = lit "jwt" -> payload u = payload {| j_headers := VDict []; j_b64 := j_b64 u; j_part := j_part u |}) /\
      (lower c <> lit "jwt" -> payload u = Ok (as_unicode p))
  | Some (VBytes _) => payload u = Ok (as_unicode p)
  | Some _ => payload u = Raise EAttributeError
  end.
Proof.
  intros u d p H P. unfold payload. cbn [j_headers j_part]. rewrite H, P. cbn [py_in py_get]. unfold dmem. destruct (dget d (lit "cty")) as [c|]; cbn [dget bind]; [|reflexivity].
  destruct c as [| | | |c| b| |]; cbn [py_lower bind]; try reflexivity. cbn [pval_eqb]. split; intro L.
  - rewrite L, zs_eqb_refl. reflexivity.
  - apply zs_eqb_neq in L. rewrite L. reflexivity.
Qed.
