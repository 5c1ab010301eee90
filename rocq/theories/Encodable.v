(** * Which values can be packed (jwt.py:21-43, 73-94) *)
From Coq Require Import ZArith List Bool Lia.
From Verif Require Import Base BaseProofs Utf8 Codec CodecProofs Json JsonProofs Jwt JwtProofs Prims Jwk JweProofs17.
Import ListNotations.
Open Scope Z_scope.

(** No fraction occurs in the value and every octet string in it is UTF-8. *)
Fixpoint convertible (v : pval) : Prop :=
  match v with
  | VNone | VBool _ | VInt _ | VStr _ => True
  | VFloat _ => False
  | VBytes b => exists s, utf8_decode b = Ok s
  | VList l => (fix go (l : list pval) : Prop := match l with [] => True | x :: r => convertible x /\ go r end) l
  | VDict d => (fix go (d : list (ustr * pval)) : Prop := match d with [] => True | (_, x) :: r => convertible x /\ go r end) d
  end.

Lemma converted : forall sp v, convertible v -> exists w, b2s_conv v = Ok w /\ exists t, dumps sp w = Ok t /\ allp t = true.
Proof.
  intro sp. induction v using pval_rec'; intro C; cbn [convertible] in C; try contradiction.
  - exists VNone. split; [reflexivity|]. eexists. split; reflexivity.
  - exists (VBool b). split; [reflexivity|]. destruct b; eexists; split; reflexivity.
  - exists (VInt z). split; [reflexivity|]. eexists. split; [reflexivity|apply dec_p].
  - exists (VStr s). split; [reflexivity|]. eexists. split; [reflexivity|apply esc_str_p].
  - destruct C as [s E]. exists (VStr s). cbn [b2s_conv]. rewrite E. split; [reflexivity|]. eexists. split; [reflexivity|apply esc_str_p].
  - assert (X : exists ws, b2s_list l = Ok ws /\ exists ts, dumps_list sp ws = Ok ts /\ Forall (fun t => allp t = true) ts).
    { induction H as [|x l0 X H IH]; [exists []; split; [reflexivity|]; exists []; split; [reflexivity|constructor]|]. destruct C as [C1 C2]. destruct (X C1) as (w & W & t & T & A). destruct (IH C2) as (ws & WS & ts & TS & AS).
      exists (w :: ws). cbn [b2s_list]. rewrite W. cbn [bind]. rewrite WS. split; [reflexivity|]. exists (t :: ts). cbn [dumps_list]. rewrite T. cbn [bind]. rewrite TS. split; [reflexivity|constructor; assumption]. }
    destruct X as (ws & WS & ts & TS & AS). exists (VList ws). rewrite b2s_VList, WS. split; [reflexivity|]. rewrite dumps_VList, TS. eexists. split; [reflexivity|].
    change (91 :: interc (sep_item sp) ts ++ [93]) with ([91] ++ interc (sep_item sp) ts ++ [93]). rewrite !allp_app, interc_p by (exact AS || apply sep_item_p). reflexivity.
  - assert (X : exists ws, b2s_dict d = Ok ws /\ exists ts, dumps_dict sp ws = Ok ts /\ Forall (fun t => allp t = true) ts).
    { induction H as [|[k x] l0 X H IH]; [exists []; split; [reflexivity|]; exists []; split; [reflexivity|constructor]|]. destruct C as [C1 C2]. cbn [snd] in X. destruct (X C1) as (w & W & t & T & A). destruct (IH C2) as (ws & WS & ts & TS & AS).
      exists ((k, w) :: ws). cbn [b2s_dict]. rewrite W. cbn [bind]. rewrite WS. split; [reflexivity|]. eexists. cbn [dumps_dict]. rewrite T. cbn [bind]. rewrite TS. split; [reflexivity|].
      constructor; [rewrite !allp_app, esc_str_p, sep_key_p, A; reflexivity|assumption]. }
    destruct X as (ws & WS & ts & TS & AS). exists (VDict ws). rewrite b2s_VDict, WS. split; [reflexivity|]. rewrite dumps_VDict, TS. eexists. split; [reflexivity|].
    change (123 :: interc (sep_item sp) ts ++ [125]) with ([123] ++ interc (sep_item sp) ts ++ [125]). rewrite !allp_app, interc_p by (exact AS || apply sep_item_p). reflexivity.
Qed.
Lemma conv_only : forall v w, b2s_conv v = Ok w -> convertible v.
Proof.
  induction v using pval_rec'; intros w E; cbn [convertible]; try exact I.
  - discriminate E.
  - cbn [b2s_conv] in E. destruct (utf8_decode b); [eauto|discriminate E].
  - rewrite b2s_VList in E. destruct (b2s_list l) as [ws|] eqn:L; [|discriminate E]. clear E w. revert ws L. induction H as [|x l0 X H IH]; intros ws L; [exact I|]. cbn [b2s_list] in L.
    destruct (b2s_conv x) as [y|] eqn:Y; [cbn [bind] in L|discriminate L]. destruct (b2s_list l0) as [ys|]; [|discriminate L]. split; [exact (X y eq_refl)|exact (IH ys eq_refl)].
  - rewrite b2s_VDict in E. destruct (b2s_dict d) as [ws|] eqn:L; [|discriminate E]. clear E w. revert ws L. induction H as [|[k x] l0 X H IH]; intros ws L; [exact I|]. cbn [b2s_dict] in L. cbn [snd] in X.
    destruct (b2s_conv x) as [y|] eqn:Y; [cbn [bind] in L|discriminate L]. destruct (b2s_dict l0) as [ys|]; [|discriminate L]. split; [exact (X y eq_refl)|exact (IH ys eq_refl)].
Qed.

Definition packs (v : pval) : Prop :=
  match v with
  | VBytes _ => True
  | VStr s => exists b, utf8_encode s = Ok b
  | VInt _ | VBool _ => False
  | _ => convertible v
  end.
Lemma item_iff : forall v, (exists s, b64encode_item v = Ok s) <-> packs v.
Proof.
  intro v.
  assert (G : (exists s, (v <- b2s_conv v;; t <- dumps false v;; b <- utf8_encode t;; Ok (b64e b)) = Ok s) <-> convertible v).
  { split.
    - intros [s H]. destruct (b2s_conv v) as [w|] eqn:W; [exact (conv_only v w W)|discriminate H].
    - intro C. destruct (converted false v C) as (w & W & t & T & A). rewrite W. cbn [bind]. rewrite T. cbn [bind]. rewrite utf8_encode_ascii by (apply allp_ascii; exact A). cbn [bind]. eauto. }
  destruct v as [|b|z|f|s|b|l|d]; try exact G; cbn [b64encode_item packs].
  - split; [intros [? X]; discriminate X|contradiction].
  - split; [intros [? X]; discriminate X|contradiction].
  - destruct (utf8_encode s); cbn [bind]; split; intros [? X]; eauto; discriminate X.
  - split; [trivial|eauto].
Qed.
Lemma item_ascii : forall v s, (forall b, v = VBytes b -> bytes_ok b = true) -> b64encode_item v = Ok s -> ascii s = true.
Proof.
  assert (G : forall t b, utf8_encode t = Ok b -> ascii (b64e b) = true) by (intros t b U; exact (b64url_ascii _ (b64e_chars _ (utf8_encode_ok _ _ U)))).
  assert (J : forall w s, (v <- b2s_conv w;; t <- dumps false v;; b <- utf8_encode t;; Ok (b64e b)) = Ok s -> ascii s = true).
  { intros w s H. destruct (b2s_conv w) as [x|]; [cbn [bind] in H|discriminate H]. destruct (dumps false x) as [t|]; [cbn [bind] in H|discriminate H]. destruct (utf8_encode t) as [b|] eqn:U; [|discriminate H]. injection H as <-. exact (G _ _ U). }
  intros v s W H. destruct v as [|b|z|f|t|b|l|d]; try exact (J _ _ H); cbn [b64encode_item] in H; try discriminate H.
  - destruct (utf8_encode t) as [b|] eqn:U; [|discriminate H]. injection H as <-. exact (G _ _ U).
  - injection H as <-. apply b64url_ascii, b64e_chars, W. reflexivity.
Qed.

Definition header_in_force (j : jwt) (headers : pval) : pval :=
  if truthy headers then headers else if truthy (j_headers j) then j_headers j else VDict [(lit "alg", VStr (lit "none"))].
Theorem pack_iff : forall j parts headers, parts <> [] -> (forall b, In (VBytes b) (header_in_force j headers :: parts) -> bytes_ok b = true) ->
  ((exists t j', pack j parts headers = Ok (t, j')) <-> Forall packs (header_in_force j headers :: parts)).
Proof.
  intros j parts headers NE W. set (h := header_in_force j headers) in *.
  assert (S : (exists t j', pack j parts headers = Ok (t, j')) <-> exists es, mapM b64encode_item (h :: parts) = Ok es).
  { unfold pack. fold (header_in_force j headers). fold h. cbv zeta. destruct parts as [|p ps]; [contradiction (NE eq_refl)|]. split.
    - intros (t & j' & H). cbn [mapM]. destruct (b64encode_item h) as [e|]; [cbn [bind] in H |- *|discriminate H]. destruct (mapM b64encode_item (p :: ps)) as [es|] eqn:M; [|discriminate H]. change (mapM b64encode_item (p :: ps)) with (x <- b64encode_item p;; r <- mapM b64encode_item ps;; Ok (x :: r)) in M. rewrite M. cbn [bind]. eauto.
    - intros [es M]. change (mapM b64encode_item (h :: p :: ps)) with (x <- b64encode_item h;; r <- mapM b64encode_item (p :: ps);; Ok (x :: r)) in M.
      destruct (b64encode_item h) as [e|] eqn:E; [cbn [bind] in M|discriminate M]. destruct (mapM b64encode_item (p :: ps)) as [r|] eqn:R; [cbn [bind] in M|discriminate M]. cbn [bind].
      rewrite mapM_utf8_ascii; [cbn [bind]; eauto|]. apply forallb_forall. apply mapM_ok_all in R. intros x [<-|I].
      + refine (item_ascii h e _ E). intros b ->. apply W. left. reflexivity.
      + clear - R I W. assert (W2 : forall b, In (VBytes b) (p :: ps) -> bytes_ok b = true) by (intros b X; apply W; right; exact X). clear W.
        induction R as [|a b la lb X R IH]; [destruct I|]. destruct I as [<-|I]; [refine (item_ascii a _ _ X); intros c ->; apply W2; left; reflexivity|]. apply IH; [exact I|]. intros c Y. apply W2. right. exact Y. }
  rewrite S. clear. generalize (h :: parts). intro l. induction l as [|x l IH]; [split; [constructor|eexists; reflexivity]|]. cbn [mapM]. split.
  - intros [es H]. destruct (b64encode_item x) as [e|] eqn:E; [cbn [bind] in H|discriminate H]. destruct (mapM b64encode_item l) as [r|]; [|discriminate H]. constructor; [apply item_iff; eauto|apply IH; eauto].
  - intro F. inversion F as [|? ? F1 F2]. subst. destruct (proj2 (item_iff x) F1) as [e E]. destruct (proj2 IH F2) as [r R]. rewrite E. cbn [bind]. rewrite R. cbn [bind]. eauto.
Qed.

(** ** Key sets (jwk.py:829-837) *)
Theorem dump_iff : forall ks, (exists t, dump_jwks ks = Ok t) <-> Forall (fun k => exists v, serialize k false = Ok v /\ convertible v) ks.
Proof.
  intro ks. unfold dump_jwks. split.
  - intros [t H]. destruct (mapM _ ks) as [l|] eqn:M; [clear H t|discriminate H]. apply mapM_ok_all in M. induction M as [|k w ks l E M IH]; [constructor|]. constructor; [|exact IH].
    destruct (serialize k false) as [v|]; [cbn [bind] in E|discriminate E]. exists v. split; [reflexivity|exact (conv_only v w E)].
  - intro F. assert (X : exists l, mapM (fun k => s <- serialize k false;; b2s_conv s) ks = Ok l /\ exists ts, dumps_list true l = Ok ts).
    { induction F as [|k ks (v & S & C) F (l & L & ts & T)]; [exists []; split; [reflexivity|]; exists []; reflexivity|]. destruct (converted true v C) as (w & W & t & D & _).
      exists (w :: l). cbn [mapM]. rewrite S. cbn [bind]. rewrite W. cbn [bind]. rewrite L. split; [reflexivity|]. cbn [dumps_list]. rewrite D. cbn [bind]. rewrite T. cbn [bind]. eauto. }
    destruct X as (l & L & ts & T). rewrite L. cbn [bind]. rewrite dumps_VDict. cbn [dumps_dict]. rewrite dumps_VList, T. cbn [bind]. eauto.
Qed.
