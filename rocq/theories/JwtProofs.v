(** * Proofs about the token container *)
From Coq Require Import ZArith List Bool Lia ZifyBool.
From Verif Require Import Base BaseProofs Codec CodecProofs Utf8 Json JsonProofs Jwt.
Import ListNotations.
Open Scope Z_scope.
Ltac Zify.zify_post_hook ::= Z.div_mod_to_equations.

Section Loops.
Fixpoint b2s_list (l : list pval) : res (list pval) :=
  match l with [] => Ok [] | x :: r => y <- b2s_conv x;; ys <- b2s_list r;; Ok (y :: ys) end.
Fixpoint b2s_dict (d : list (ustr * pval)) : res (list (ustr * pval)) :=
  match d with [] => Ok [] | (k, x) :: r => y <- b2s_conv x;; ys <- b2s_dict r;; Ok ((k, y) :: ys) end.
End Loops.
Lemma b2s_VList : forall l, b2s_conv (VList l) = (l' <- b2s_list l;; Ok (VList l')).
Proof. reflexivity. Qed.
Lemma b2s_VDict : forall d, b2s_conv (VDict d) = (d' <- b2s_dict d;; Ok (VDict d')).
Proof. reflexivity. Qed.

Lemma b2s_id : forall v, jsonable v = true -> b2s_conv v = Ok v.
Proof.
  induction v using pval_rec'; intro J; try discriminate; try reflexivity.
  - rewrite b2s_VList. replace (b2s_list l) with (Ok l); [reflexivity|]. symmetry. cbn [jsonable] in J.
    induction H as [|x l0 X H IH]; [reflexivity|]. cbn [forallb] in J. apply andb_true_iff in J. cbn [b2s_list]. rewrite X by apply J. cbn [bind]. rewrite IH by apply J. reflexivity.
  - rewrite b2s_VDict. replace (b2s_dict d) with (Ok d); [reflexivity|]. symmetry. cbn [jsonable] in J. apply andb_true_iff in J. destruct J as [_ J].
    induction H as [|[k x] l0 X H IH]; [reflexivity|]. cbn [forallb fst snd] in J. apply andb_true_iff in J. destruct J as [J1 J2]. apply andb_true_iff in J1.
    cbn [b2s_dict]. cbn [snd] in X. rewrite X by apply J1. cbn [bind]. rewrite IH by exact J2. reflexivity.
Qed.

Lemma allp_ascii : forall t, allp t = true -> ascii t = true.
Proof. intros t H. unfold ascii, allp in *. rewrite forallb_forall in *. intros c C. specialize (H c C). unfold printable in H. lia. Qed.
Lemma ascii_bytes : forall t, ascii t = true -> bytes_ok t = true.
Proof. intros t H. unfold ascii, bytes_ok in *. rewrite forallb_forall in *. intros c C. specialize (H c C). unfold is_byte. lia. Qed.
Lemma ascii_app : forall a b, ascii (a ++ b) = ascii a && ascii b.
Proof. intros. apply forallb_app. Qed.
Lemma ascii_join : forall l, forallb ascii l = true -> ascii (join 46 l) = true.
Proof.
  induction l as [|x l IH]; intro H; [reflexivity|]. cbn [forallb] in H. apply andb_true_iff in H. destruct H as [H1 H2]. cbn [join].
  destruct l as [|y l]; [exact H1|]. rewrite ascii_app, H1. cbn [ascii forallb andb]. apply IH. exact H2.
Qed.

(** Encoding a header object. *)
Lemma encode_header : forall d d', b2s_conv (VDict d) = Ok (VDict d') -> jsonable (VDict d') = true ->
  exists t, dumps false (VDict d') = Ok t /\ allp t = true /\ loads t = Ok (VDict d') /\ b64encode_item (VDict d) = Ok (b64e t).
Proof.
  intros d d' C J. destruct (loads_dumps false (VDict d') J) as (t & T1 & T2 & T3). exists t. repeat split; try assumption.
  unfold b64encode_item. rewrite C. cbn [bind]. rewrite T1. cbn [bind]. rewrite utf8_encode_ascii by (apply allp_ascii; exact T2). reflexivity.
Qed.

Lemma mapM_enc_bytes : forall parts, mapM b64encode_item (map VBytes parts) = Ok (map b64e parts).
Proof. induction parts as [|p parts IH]; [reflexivity|]. cbn [map mapM b64encode_item bind]. rewrite IH. reflexivity. Qed.
Lemma mapM_utf8_ascii : forall l, forallb ascii l = true -> mapM utf8_decode l = Ok l.
Proof. induction l as [|x l IH]; intro H; [reflexivity|]. cbn [forallb] in H. apply andb_true_iff in H. cbn [mapM]. rewrite utf8_decode_ascii by apply H. cbn [bind]. rewrite IH by apply H. reflexivity. Qed.
Lemma mapM_b64d : forall l, forallb bytes_ok l = true -> mapM b64d (map b64e l) = Ok l.
Proof. induction l as [|x l IH]; intro H; [reflexivity|]. cbn [forallb] in H. apply andb_true_iff in H. cbn [map mapM]. rewrite b64d_b64e by apply H. cbn [bind]. rewrite IH by apply H. reflexivity. Qed.
Lemma b64e_all_ascii : forall l, forallb bytes_ok l = true -> forallb ascii (map b64e l) = true.
Proof. induction l as [|x l IH]; intro H; [reflexivity|]. cbn [forallb map] in *. apply andb_true_iff in H. rewrite b64e_ascii by apply H. apply IH. apply H. Qed.
Lemma b64e_all_no_dot : forall l p, forallb bytes_ok l = true -> In p (map b64e l) -> ~ In 46 p.
Proof. intros l p H I. apply in_map_iff in I. destruct I as (b & <- & I). apply b64e_no_dot. rewrite forallb_forall in H. apply H. exact I. Qed.

Lemma split_token_join : forall l, (1 < length l)%nat -> (forall p, In p l -> ~ In 46 p) -> split_token (join 46 l) = Ok l.
Proof.
  intros l L N. unfold split_token. destruct l as [|x [|y l]]; [cbn in L; lia|cbn in L; lia|].
  replace (existsb (fun c => c =? 46) (join 46 (x :: y :: l))) with true.
  - cbn [negb]. rewrite split_join by (discriminate || exact N). reflexivity.
  - symmetry. apply existsb_exists. exists 46. split; [|reflexivity]. cbn [join]. apply in_or_app. right. left. reflexivity.
Qed.

(** The text of a token made of segments. *)
Definition mk_token (hdr : list Z) (parts : list bytes) : list Z := join 46 (map b64e (hdr :: parts)).

Lemma mk_token_ascii : forall h parts, ascii h = true -> forallb bytes_ok parts = true -> ascii (mk_token h parts) = true.
Proof. intros h parts H P. apply ascii_join. apply b64e_all_ascii. cbn [forallb]. rewrite ascii_bytes by exact H. exact P. Qed.

Lemma unpack_mk_token : forall h v parts, ascii h = true -> loads h = Ok v -> forallb bytes_ok parts = true -> parts <> [] ->
  unpack (VStr (mk_token h parts)) = Ok {| j_headers := v; j_b64 := map b64e (h :: parts); j_part := map VBytes (h :: parts) |} /\
  unpack (VBytes (mk_token h parts)) = Ok {| j_headers := v; j_b64 := map b64e (h :: parts); j_part := map VBytes (h :: parts) |}.
Proof.
  intros h v parts H L P NE. assert (A : forallb bytes_ok (h :: parts) = true) by (cbn [forallb]; rewrite ascii_bytes by exact H; exact P).
  assert (G : unpack (VBytes (mk_token h parts)) = Ok {| j_headers := v; j_b64 := map b64e (h :: parts); j_part := map VBytes (h :: parts) |}).
  { unfold unpack. cbn [bind]. unfold mk_token. rewrite split_token_join.
    - cbn [bind]. rewrite mapM_b64d by exact A. cbn [bind hd]. rewrite utf8_decode_ascii by exact H. cbn [bind]. rewrite L. reflexivity.
    - destruct parts; [congruence|cbn; lia].
    - intros p I. eapply b64e_all_no_dot; eassumption. }
  split; [|exact G]. unfold unpack in *. rewrite utf8_encode_ascii by (apply mk_token_ascii; assumption). exact G.
Qed.

Lemma pack_bytes : forall j d d' parts hdr, b2s_conv (VDict d) = Ok (VDict d') -> jsonable (VDict d') = true -> d <> [] ->
  hdr = VDict d \/ (truthy hdr = false /\ j_headers j = VDict d) ->
  forallb bytes_ok parts = true -> parts <> [] ->
  exists t, dumps false (VDict d') = Ok t /\ ascii t = true /\ loads t = Ok (VDict d') /\
    pack j (map VBytes parts) hdr = Ok (mk_token t parts, {| j_headers := j_headers j; j_b64 := map b64e (t :: parts); j_part := VDict d :: map VBytes parts |}).
Proof.
  intros j d d' parts hdr C J ND H P NE. destruct (encode_header d d' C J) as (t & T1 & T2 & T3 & T4). exists t.
  pose proof (allp_ascii t T2) as TA. repeat split; try assumption. unfold pack.
  assert (HH : (if truthy hdr then hdr else if truthy (j_headers j) then j_headers j else VDict [(lit "alg", VStr (lit "none"))]) = VDict d).
  { destruct H as [-> | [-> ->]]; destruct d; try congruence; reflexivity. }
  rewrite HH. destruct parts as [|p parts]; [congruence|]. cbn [map]. rewrite T4. cbn [bind]. change (VBytes p :: map VBytes parts) with (map VBytes (p :: parts)).
  rewrite mapM_enc_bytes. cbn [bind]. change (b64e t :: map b64e (p :: parts)) with (map b64e (t :: p :: parts)).
  rewrite mapM_utf8_ascii by (apply b64e_all_ascii; cbn [forallb] in *; rewrite ascii_bytes by exact TA; exact P). reflexivity.
Qed.

(** C10 / C102 *)
Lemma pack_unpack : forall j d d' parts hdr, b2s_conv (VDict d) = Ok (VDict d') -> jsonable (VDict d') = true -> d <> [] ->
  hdr = VDict d \/ (truthy hdr = false /\ j_headers j = VDict d) -> forallb bytes_ok parts = true -> parts <> [] ->
  exists tok j' u t, pack j (map VBytes parts) hdr = Ok (tok, j') /\ length (split 46 tok) = S (length parts) /\
    unpack (VStr tok) = Ok u /\ unpack (VBytes tok) = Ok u /\ j_headers u = VDict d' /\ j_part u = map VBytes (t :: parts) /\ loads t = Ok (VDict d') /\
    (forall h, pack u [] h = Ok (tok, u)).
Proof.
  intros j d d' parts hdr C J ND H P NE. destruct (pack_bytes j d d' parts hdr C J ND H P NE) as (t & T1 & T2 & T3 & T4).
  destruct (unpack_mk_token t (VDict d') parts T2 T3 P NE) as [U1 U2]. assert (A : forallb bytes_ok (t :: parts) = true) by (cbn [forallb]; rewrite ascii_bytes by exact T2; exact P).
  do 4 eexists. split; [exact T4|]. split.
  { unfold mk_token. rewrite split_join; [rewrite map_length; reflexivity|discriminate|]. intros p I. eapply b64e_all_no_dot; eassumption. }
  split; [exact U1|]. split; [exact U2|]. split; [reflexivity|]. split; [reflexivity|]. split; [exact T3|]. intro h. unfold pack. cbn [j_b64]. rewrite mapM_utf8_ascii by (apply b64e_all_ascii; exact A). reflexivity.
Qed.

(** C11 *)
Lemma b64d_input_ascii : forall b d, b64d b = Ok d -> ascii b = true.
Proof.
  intros b d H. pose proof (b64d_accepts b d H) as A. cbv zeta in A. destruct (rstrip_app 61 b) as [n E]. rewrite E, ascii_app.
  assert (R : ascii (repeat 61 n) = true) by (clear; induction n; [reflexivity|exact IHn]). rewrite R, andb_true_r.
  destruct A as [A|(x & -> & A)]; [apply b64url_ascii; exact A|]. rewrite ascii_app, b64url_ascii by exact A. reflexivity.
Qed.
Lemma mapM_b64d_ascii : forall l ps, mapM b64d l = Ok ps -> forallb ascii l = true.
Proof.
  induction l as [|x l IH]; intros ps H; [reflexivity|]. cbn [mapM] in H. destruct (b64d x) eqn:E; [|discriminate]. cbn [bind] in H.
  destruct (mapM b64d l) eqn:F; [|discriminate]. cbn [forallb]. rewrite (b64d_input_ascii _ _ E). eapply IH; reflexivity.
Qed.
Lemma split_token_ok : forall t l, split_token t = Ok l -> l = split 46 t /\ join 46 l = t /\ (1 < length l)%nat /\ (forall p, In p l -> ~ In 46 p).
Proof.
  intros t l H. unfold split_token in H. destruct (existsb (fun c => c =? 46) t) eqn:E; [|discriminate]. cbn [negb] in H. injection H as <-.
  split; [reflexivity|]. split; [apply join_split|]. split.
  - apply existsb_exists in E. destruct E as (c & C1 & C2). apply Z.eqb_eq in C2. subst c. apply in_split in C1. destruct C1 as (a & b & ->).
    clear. induction a as [|x a IH]; cbn [app split]; [rewrite Z.eqb_refl; pose proof (split_nonempty 46 b); destruct (split 46 b); [congruence|cbn; lia]|].
    destruct (x =? 46); [cbn [length]; lia|]. destruct (split 46 (a ++ 46 :: b)); [cbn in IH; lia|exact IH].
  - intros p. apply split_no_sep.
Qed.

Lemma unpack_inv : forall token u, unpack token = Ok u -> exists b parts ps t,
  (token = VBytes b \/ token = VStr b) /\ ascii b = true /\ split_token b = Ok parts /\ mapM b64d parts = Ok ps /\
  utf8_decode (hd [] ps) = Ok t /\ loads t = Ok (j_headers u) /\ j_b64 u = parts /\ j_part u = map VBytes ps.
Proof.
  intros token u H. unfold unpack in H.
  assert (G : forall b, (part <- split_token b;; ps <- mapM b64d part;; t <- utf8_decode (hd [] ps);; h <- loads t;; Ok {| j_headers := h; j_b64 := part; j_part := map VBytes ps |}) = Ok u ->
     exists parts ps t, ascii b = true /\ split_token b = Ok parts /\ mapM b64d parts = Ok ps /\ utf8_decode (hd [] ps) = Ok t /\ loads t = Ok (j_headers u) /\ j_b64 u = parts /\ j_part u = map VBytes ps).
  { intros b X. destruct (split_token b) as [parts|] eqn:S; [|discriminate]. cbn [bind] in X. destruct (mapM b64d parts) as [ps|] eqn:M; [|discriminate]. cbn [bind] in X.
    destruct (utf8_decode (hd [] ps)) as [t|] eqn:U; [|discriminate]. cbn [bind] in X. destruct (loads t) as [h|] eqn:L; [|discriminate]. cbn [bind] in X. injection X as <-.
    exists parts, ps, t. cbn [j_headers j_b64 j_part]. repeat split; try assumption. destruct (split_token_ok b parts S) as (_ & J & _). rewrite <- J. apply ascii_join. eapply mapM_b64d_ascii; exact M. }
  destruct token; try discriminate.
  - destruct (utf8_encode s) as [b|] eqn:E; [|discriminate]. cbn [bind] in H. destruct (G b H) as (parts & ps & t & A & R). exists b, parts, ps, t. split; [|split; [exact A|exact R]].
    right. apply utf8_decode_encode in E. rewrite utf8_decode_ascii in E by exact A. injection E as ->. reflexivity.
  - cbn [bind] in H. destruct (G b H) as (parts & ps & t & A & R). exists b, parts, ps, t. split; [left; reflexivity|split; [exact A|exact R]].
Qed.

Lemma repack : forall token u h, unpack token = Ok u -> exists txt, (token = VStr txt \/ token = VBytes txt) /\ ascii txt = true /\ pack u [] h = Ok (txt, u).
Proof.
  intros token u h H. apply unpack_inv in H. destruct H as (b & parts & ps & t & T & A & S & M & _ & _ & B & _). exists b. split; [tauto|]. split; [exact A|].
  unfold pack. rewrite B. rewrite mapM_utf8_ascii by (eapply mapM_b64d_ascii; exact M). cbn [bind]. destruct (split_token_ok b parts S) as (_ & -> & _). reflexivity.
Qed.

(** C12 *)
Lemma split_token_lossless : forall t,
  (split_token t = Raise EBadSyntax /\ ~ In 46 t) \/
  (exists l, split_token t = Ok l /\ (1 < length l)%nat /\ join 46 l = t /\ forall p, In p l -> ~ In 46 p).
Proof.
  intro t. destruct (split_token t) as [l|e] eqn:E.
  - right. exists l. destruct (split_token_ok t l E) as (_ & A & B & C). tauto.
  - left. unfold split_token in E. destruct (existsb (fun c => c =? 46) t) eqn:X; [discriminate|]. cbn in E. split; [congruence|].
    intro I. assert (existsb (fun c => c =? 46) t = true) by (apply existsb_exists; exists 46; split; [exact I|reflexivity]). congruence.
Qed.

(** C13: the header's cty, as the caller sees it. *)
Definition json_expected (h : dict) : Prop :=
  dget h (lit "cty") = None \/ exists s, dget h (lit "cty") = Some (VStr s) /\ lower s = lit "jwt".
Definition other_cty (h : dict) : Prop := exists s, dget h (lit "cty") = Some (VStr s) /\ lower s <> lit "jwt".

Lemma payload_json_case : forall u h p, j_headers u = VDict h -> nth_error (j_part u) 1 = Some p -> json_expected h ->
  payload u = match loads_any (as_unicode p) with Ok v => Ok v | Raise e => if is_ValueError e then Ok (as_unicode p) else Raise e end.
Proof.
  intros u h p H N J. unfold payload. rewrite N, H. cbn [py_in bind]. unfold dmem. destruct J as [J|(s & J & L)]; rewrite J; [reflexivity|].
  cbn [py_get]. rewrite J. cbn [bind py_lower]. rewrite L. cbn [pval_eqb]. rewrite zs_eqb_refl. reflexivity.
Qed.
Lemma payload_other_case : forall u h p, j_headers u = VDict h -> nth_error (j_part u) 1 = Some p -> other_cty h -> payload u = Ok (as_unicode p).
Proof.
  intros u h p H N (s & J & L). unfold payload. rewrite N, H. cbn [py_in bind]. unfold dmem. rewrite J. cbn [py_get]. rewrite J. cbn [bind py_lower]. cbn [pval_eqb].
  apply zs_eqb_neq in L. rewrite L. reflexivity.
Qed.

Lemma payload_text : forall u h b t, j_headers u = VDict h -> nth_error (j_part u) 1 = Some (VBytes b) -> utf8_decode b = Ok t ->
  (json_expected h -> forall v, loads t = Ok v -> payload u = Ok v) /\
  (json_expected h -> forall e, loads t = Raise e -> payload u = Ok (VStr t)) /\
  (other_cty h -> payload u = Ok (VStr t)).
Proof.
  intros u h b t H N U. assert (A : as_unicode (VBytes b) = VStr t) by (cbn [as_unicode]; rewrite U; reflexivity). repeat split.
  - intros J v L. rewrite (payload_json_case u h _ H N J), A. cbn [loads_any]. rewrite L. reflexivity.
  - intros J e L. rewrite (payload_json_case u h _ H N J), A. cbn [loads_any]. destruct (loads_total t) as [[v X]|X]; rewrite X in *; [discriminate|reflexivity].
  - intro O. rewrite (payload_other_case u h _ H N O), A. reflexivity.
Qed.
Lemma payload_raw : forall u h b e, j_headers u = VDict h -> nth_error (j_part u) 1 = Some (VBytes b) -> utf8_decode b = Raise e ->
  (json_expected h -> forall v, loads_bytes b = Ok v -> payload u = Ok v) /\
  (json_expected h -> forall e', loads_bytes b = Raise e' -> payload u = Ok (VBytes b)) /\
  (other_cty h -> payload u = Ok (VBytes b)).
Proof.
  intros u h b e H N U. assert (A : as_unicode (VBytes b) = VBytes b) by (cbn [as_unicode]; rewrite U; reflexivity). repeat split.
  - intros J v L. rewrite (payload_json_case u h _ H N J), A. cbn [loads_any]. rewrite L. reflexivity.
  - intros J e' L. rewrite (payload_json_case u h _ H N J), A. destruct (loads_any_value_error (VBytes b)) as [[w X]|(x & X & V)]; [right; eexists; reflexivity| |].
    + cbn [loads_any] in X. congruence.
    + rewrite X, V. reflexivity.
  - intro O. rewrite (payload_other_case u h _ H N O), A. reflexivity.
Qed.

(** Failure modes of unpack *)
Lemma a2b_exn : forall s q lc p e, a2b s q lc p = Raise e -> e = EBinasciiError.
Proof.
  induction s as [|c s IH]; intros q lc p e H; cbn [a2b] in H; [destruct (q =? 0); congruence|].
  repeat match type of H with
  | (if ?b then _ else _) = _ => destruct b
  | (match ?m with Some _ => _ | None => _ end) = _ => destruct m
  | bind ?m _ = _ => destruct m eqn:?; cbn [bind] in H
  end; try congruence; try (eapply IH; eassumption).
  all: match goal with X : a2b _ _ _ _ = Raise _ |- _ => apply IH in X; congruence end.
Qed.
Lemma b64d_exn : forall b e, b64d b = Raise e -> e = EBadSyntax \/ e = EBinasciiError.
Proof.
  intros b e H. unfold b64d in H. destruct (negb (b64_re_match (rstrip 61 b))); [left; congruence|].
  destruct (zs_eqb (rstrip 61 b) b).
  all: try (destruct (add_padding b) as [x|e'] eqn:E; cbn [bind] in H; [right; unfold urlsafe_b64decode in H; eapply a2b_exn; exact H|left; unfold add_padding in E; repeat match type of E with (match ?z with _ => _ end) = _ => destruct z end; congruence]).
  all: right; unfold urlsafe_b64decode in H; eapply a2b_exn; exact H.
Qed.
Lemma utf8_decode_exn_aux : forall n b e, (length b <= n)%nat -> utf8_decode b = Raise e -> e = EUnicodeDecodeError.
Proof.
  induction n as [|n IH]; intros b e L H; [destruct b; [discriminate|cbn in L; lia]|].
  destruct b as [|b0 r0]; [discriminate|]. cbn [utf8_decode] in H. cbn [length] in L. cbv zeta in H.
  assert (REC : forall r (c : Z), (length r <= n)%nat -> (s <- utf8_decode r;; Ok (c :: s)) = Raise e -> e = EUnicodeDecodeError).
  { intros r c LR X. destruct (utf8_decode r) eqn:E; [discriminate|]. cbn [bind] in X. apply (IH r e LR). congruence. }
  repeat match type of H with
  | (if ?b then _ else _) = _ => destruct b
  | (match ?l with [] => _ | _ :: _ => _ end) = _ => destruct l; cbn [length] in L
  end; try congruence; (eapply REC; [|exact H]; lia).
Qed.
Lemma utf8_decode_exn : forall b e, utf8_decode b = Raise e -> e = EUnicodeDecodeError.
Proof. intros b e. exact (utf8_decode_exn_aux _ b e (le_n _)). Qed.
Lemma utf8_encode_exn : forall b e, utf8_encode b = Raise e -> e = EUnicodeEncodeError.
Proof. intros b e H. unfold utf8_encode in H. destruct (scalars b); congruence. Qed.
Lemma mapM_exn : forall A B (f : A -> res B) (P : exn -> Prop) l e, (forall x e, f x = Raise e -> P e) -> mapM f l = Raise e -> P e.
Proof.
  induction l as [|x l IH]; intros e F H; [discriminate|]. cbn [mapM] in H. destruct (f x) eqn:E; [|cbn [bind] in H; injection H as <-; eapply F; exact E]. cbn [bind] in H.
  destruct (mapM f l) eqn:M; [discriminate|]. cbn [bind] in H. injection H as <-. apply IH; [exact F|reflexivity].
Qed.
Lemma unpack_exn : forall token e, (exists s, token = VStr s \/ token = VBytes s) -> unpack token = Raise e -> e = EBadSyntax \/ is_ValueError e = true.
Proof.
  intros token e (s & T) H. unfold unpack in H.
  assert (G : forall b, (part <- split_token b;; ps <- mapM b64d part;; t <- utf8_decode (hd [] ps);; h <- loads t;; Ok {| j_headers := h; j_b64 := part; j_part := map VBytes ps |}) = Raise e -> e = EBadSyntax \/ is_ValueError e = true).
  { intros b X. destruct (split_token b) as [parts|] eqn:S; [|cbn [bind] in X; injection X as <-; left; unfold split_token in S; destruct (negb _); congruence].
    cbn [bind] in X. destruct (mapM b64d parts) as [ps|] eqn:M.
    - cbn [bind] in X. destruct (utf8_decode (hd [] ps)) as [t|] eqn:U; [|cbn [bind] in X; injection X as <-; right; apply utf8_decode_exn in U; subst; reflexivity].
      cbn [bind] in X. destruct (loads_total t) as [[v L]|L]; rewrite L in X; cbn [bind] in X; [discriminate|]. injection X as <-. right. reflexivity.
    - cbn [bind] in X. injection X as <-. pose proof (mapM_exn _ _ b64d (fun e => e = EBadSyntax \/ e = EBinasciiError) parts e0 b64d_exn M) as [->| ->]; [left|right]; reflexivity. }
  destruct T as [-> | ->].
  - destruct (utf8_encode s) as [b|] eqn:E; cbn [bind] in H; [apply (G b H)|]. injection H as <-. apply utf8_encode_exn in E. subst. right. reflexivity.
  - cbn [bind] in H. apply (G s H).
Qed.

Lemma unpack_segments : forall token u, unpack token = Ok u -> exists txt, (token = VStr txt \/ token = VBytes txt) /\
  j_b64 u = split 46 txt /\ (2 <= length (j_b64 u))%nat /\
  exists ps, j_part u = map VBytes ps /\ Forall2 (fun seg p => b64d seg = Ok p) (j_b64 u) ps /\ Forall (fun p => bytes_ok p = true) ps /\
  exists t, utf8_decode (hd [] ps) = Ok t /\ loads t = Ok (j_headers u).
Proof.
  intros token u H. apply unpack_inv in H. destruct H as (b & parts & ps & t & T & A & S & M & U & L & B & P). exists b. split; [tauto|].
  destruct (split_token_ok b parts S) as (X1 & X2 & X3 & _). rewrite B. split; [exact X1|]. split; [lia|]. exists ps. split; [exact P|]. apply mapM_ok_all in M. split; [exact M|].
  split; [|exists t; tauto]. clear -M. induction M as [|x y l l' R M IH]; [constructor|]. constructor; [eapply b64d_bytes; exact R|exact IH].
Qed.

Lemma payload_total : forall u h p, j_headers u = VDict h -> nth_error (j_part u) 1 = Some (VBytes p) -> json_expected h \/ other_cty h -> exists v, payload u = Ok v.
Proof.
  intros u h p H N C. destruct (utf8_decode p) as [t|e] eqn:U.
  - destruct (payload_text u h p t H N U) as (A & B & D). destruct C as [C|C]; [|eexists; apply D; exact C].
    destruct (loads t) as [v|e] eqn:L; [exists v; apply A; auto|]. eexists. eapply B; eauto.
  - destruct (payload_raw u h p e H N U) as (A & B & D). destruct C as [C|C]; [|eexists; apply D; exact C].
    destruct (loads_bytes p) as [v|e'] eqn:L; [exists v; apply A; auto|]. eexists. eapply B; eauto.
Qed.
