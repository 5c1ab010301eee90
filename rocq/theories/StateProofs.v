(** * Objects after an exception and keys after use *)
From Coq Require Import ZArith List Bool Lia.
From Verif Require Import Base BaseProofs Prims Utf8 Codec CodecProofs Json JsonProofs Jwt JwtProofs State Elliptic Ecc Jwk JwkProofs.
Import ListNotations.
Open Scope Z_scope.

(** ** C222 *)
(** the octets of a token *)
Definition token_octets (token : pval) (b : bytes) : Prop := token = VBytes b \/ exists s, token = VStr s /\ utf8_encode s = Ok b.

Theorem unpack_on_agrees : forall j token, match unpack token with
  | Ok u => unpack_on j token = (u, Ok tt)
  | Raise e => exists j', unpack_on j token = (j', Raise e)
  end.
Proof.
  intros j token. unfold unpack, unpack_on.
  match goal with |- context [bind ?x _] => destruct x as [tok|e] end; cbn [bind]; [|eauto].
  destruct (split_token tok) as [sg|e]; cbn [bind]; [|eauto]. destruct (mapM b64d sg) as [ps|e]; cbn [bind]; [|eauto].
  destruct (utf8_decode (hd [] ps)) as [t|e]; cbn [bind]; [|eauto]. destruct (loads t) as [h|e]; cbn [bind]; [reflexivity|eauto].
Qed.

Theorem unpack_on_trace : forall j token j' e, unpack_on j token = (j', Raise e) ->
  j_headers j' = j_headers j /\
  (((forall b, token_octets token b -> ~ In 46 b) /\ j' = j) \/
   (exists b, token_octets token b /\ In 46 b /\ j_b64 j' = split 46 b /\
      match mapM b64d (split 46 b) with
      | Raise _ => j_part j' = j_part j
      | Ok ps => j_part j' = map VBytes ps /\ forall t h, utf8_decode (hd [] ps) = Ok t -> loads t <> Ok h
      end)).
Proof.
  intros j token j' e H. unfold unpack_on in H.
  assert (G : forall b, split_token b = if existsb (fun c => c =? 46) b then Ok (split 46 b) else Raise EBadSyntax).
  { intro b. unfold split_token. destruct (existsb _ b); reflexivity. }
  assert (B : forall b, token_octets token b -> match split_token b with
    | Raise e => (j, Raise e)
    | Ok segments => match mapM b64d segments with
      | Raise e => ({| j_headers := j_headers j; j_b64 := segments; j_part := j_part j |}, Raise e)
      | Ok ps => match (t <- utf8_decode (hd [] ps);; loads t) with
          | Raise e => ({| j_headers := j_headers j; j_b64 := segments; j_part := map VBytes ps |}, Raise e)
          | Ok h => ({| j_headers := h; j_b64 := segments; j_part := map VBytes ps |}, Ok tt)
          end end end = (j', Raise e) ->
    j_headers j' = j_headers j /\ ((~ In 46 b /\ j' = j) \/ (In 46 b /\ j_b64 j' = split 46 b /\ match mapM b64d (split 46 b) with
      | Raise _ => j_part j' = j_part j
      | Ok ps => j_part j' = map VBytes ps /\ forall t h, utf8_decode (hd [] ps) = Ok t -> loads t <> Ok h
      end))).
  { intros b TB X. rewrite G in X. destruct (existsb (fun c => c =? 46) b) eqn:E.
    - apply existsb_exists in E. destruct E as (c & E1 & E2). apply Z.eqb_eq in E2. subst c.
      destruct (mapM b64d (split 46 b)) as [ps|] eqn:M; [|injection X as <- _; split; [reflexivity|]; right; repeat split; assumption].
      destruct (utf8_decode (hd [] ps)) as [t|] eqn:U; cbn [bind] in X.
      + destruct (loads t) as [h|] eqn:L; [discriminate X|]. injection X as <- _. split; [reflexivity|]. right. repeat split; try assumption. intros t' h' Q. injection Q as <-. rewrite L. discriminate.
      + injection X as <- _. split; [reflexivity|]. right. repeat split; try assumption. intros t' h' Q. discriminate Q.
    - injection X as <- _. split; [reflexivity|]. left. split; [|reflexivity]. intro I. assert (Y : existsb (fun c => c =? 46) b = true) by (apply existsb_exists; exists 46; split; [exact I|reflexivity]). congruence. }
  destruct token as [|z|z|f|s|b|l|d]; cbn [bind] in H;
    try (injection H as <- _; split; [reflexivity|]; left; split; [|reflexivity]; intros b [Q|(s & Q & _)]; discriminate Q).
  - destruct (utf8_encode s) as [b|] eqn:E; cbn [bind] in H.
    + destruct (B b (or_intror (ex_intro _ s (conj eq_refl E))) H) as (H1 & [(H2 & H3)|H2]); (split; [exact H1|]).
      * left. split; [|exact H3]. intros b' [Q|(s' & Q & Q')]; [discriminate Q|]. injection Q as <-. congruence.
      * right. exists b. split; [right; exists s; auto|exact H2].
    + injection H as <- _. split; [reflexivity|]. left. split; [|reflexivity]. intros b [Q|(s' & Q & Q')]; [discriminate Q|]. injection Q as <-. congruence.
  - destruct (B b (or_introl eq_refl) H) as (H1 & [(H2 & H3)|H2]); (split; [exact H1|]).
    + left. split; [|exact H3]. intros b' [Q|(s' & Q & Q')]; [|discriminate Q]. injection Q as <-. exact H2.
    + right. exists b. split; [left; reflexivity|exact H2].
Qed.

(** ** C227 *)
Theorem pack_on_agrees : forall j parts headers, match pack j parts headers with
  | Ok (t, j') => pack_on j parts headers = (j', Ok t)
  | Raise e => exists j', pack_on j parts headers = (j', Raise e)
  end.
Proof.
  intros j parts headers. unfold pack, pack_on. set (h := if truthy headers then headers else _). clearbody h.
  destruct parts as [|p parts].
  - destruct (mapM utf8_decode (j_b64 j)); cbn [bind]; [reflexivity|eauto].
  - destruct (b64encode_item h) as [e|]; cbn [bind]; [|eauto]. destruct (mapM b64encode_item (p :: parts)) as [es|]; cbn [bind]; [|eauto].
    destruct (mapM utf8_decode (e :: es)); cbn [bind]; [reflexivity|eauto].
Qed.
Theorem pack_on_trace : forall j parts headers j' e, parts <> [] -> truthy headers = true -> pack_on j parts headers = (j', Raise e) ->
  j_headers j' = j_headers j /\ j_part j' = headers :: parts /\
  (j_b64 j' = j_b64 j /\ b64encode_item headers = Raise e \/
   exists x, b64encode_item headers = Ok x /\ (j_b64 j' = [x] \/ exists es, mapM b64encode_item parts = Ok es /\ j_b64 j' = x :: es)).
Proof.
  intros j parts headers j' e N T H. unfold pack_on in H. rewrite T in H. destruct parts as [|p parts]; [congruence|].
  destruct (b64encode_item headers) as [x|x] eqn:E.
  - destruct (mapM b64encode_item (p :: parts)) as [es|y] eqn:M.
    + injection H as <- _. cbn. split; [reflexivity|]. split; [reflexivity|]. right. exists x. split; [reflexivity|]. right. exists es. auto.
    + injection H as <- _. cbn. split; [reflexivity|]. split; [reflexivity|]. right. exists x. auto.
  - injection H as <- <-. cbn. split; [reflexivity|]. split; [reflexivity|]. left. auto.
Qed.

(** ** C223 *)
Definition plain_nums (nums : dict) : Prop := forall n v, In (n, v) nums -> truthy v = false \/ exists z, v = VInt z.
Lemma deser_plain : forall nums, plain_nums nums -> deser_nums nums = Ok nums.
Proof.
  induction nums as [|[n v] nums IH]; intro H; [reflexivity|]. cbn [deser_nums].
  replace (negb (truthy v) || is_int v) with true by (destruct (H n v (or_introl eq_refl)) as [->|(z & ->)]; [reflexivity|cbn; rewrite orb_true_r; reflexivity]).
  cbn [bind]. rewrite IH by (intros m w I; apply (H m w); right; exact I). reflexivity.
Qed.

Theorem rsa_used : forall P k o k', rsa_encryption_key P k = Ok (o, k') ->
  rsa_encryption_key P k' = Ok (o, k') /\ otruthy o = true /\
  exists key nums nums', k_data k = DRsa key nums /\ k' = set_data k (DRsa o nums') /\
    (otruthy key = true -> o = key /\ nums' = nums) /\
    (plain_nums nums -> truthy (num nums (lit "n")) = true -> truthy (num nums (lit "e")) = true -> nums' = nums).
Proof.
  intros P k o k' H. unfold rsa_encryption_key in H. destruct (k_data k) as [|key nums| |] eqn:D; try discriminate H.
  destruct (otruthy key) eqn:K.
  - injection H as <- <-. split; [unfold rsa_encryption_key; rewrite D, K; reflexivity|]. split; [exact K|]. exists key, nums, nums. split; [reflexivity|].
    split; [destruct k; cbn in *; rewrite D; reflexivity|]. auto.
  - destruct (rsa_deserialize P (k_x5c k) (k_x5t k) nums) as [[key' nums']|] eqn:R; [|discriminate H]. cbn [bind] in H. injection H as <- <-.
    assert (T : exists r, key' = ORsa r).
    { unfold rsa_deserialize in R. destruct (_ && _) in R.
      - destruct (deser_nums nums); [|cbn [bind conv_value_error] in R; destruct (is_ValueError e) in R; discriminate R]. cbn [bind] in R. destruct (p_rsa_construct P _) in R; [|cbn [bind conv_value_error] in R; destruct (is_ValueError e) in R; discriminate R]. cbn in R. injection R as <- _. eauto.
      - destruct (truthy (k_x5c k)); [|discriminate R]. repeat (match type of R with bind ?x _ = _ => destruct x; [cbn [bind] in R|discriminate R] end). injection R as <- _. eauto. }
    destruct T as [r ->]. split; [unfold rsa_encryption_key, set_data; cbn; reflexivity|]. split; [reflexivity|]. exists key, nums, nums'. split; [reflexivity|]. split; [reflexivity|].
    split; [congruence|]. intros PN TN TE. unfold rsa_deserialize in R. rewrite TN, TE in R. cbn [andb] in R. rewrite (deser_plain _ PN) in R. cbn [bind] in R.
    destruct (p_rsa_construct P (construct_args nums)); [|cbn [bind conv_value_error] in R; destruct (is_ValueError e) in R; discriminate R]. cbn in R. injection R as _ <-. reflexivity.
Qed.
Lemma set_data_eq : forall k d c, (match k_data k, d with DRsa _ n, DRsa _ n' => n' = n | DSym _ kk, DSym _ kk' => kk' = kk | _, _ => False end) ->
  key_eq (set_data k d) c = key_eq k c /\ key_eq c (set_data k d) = key_eq c k.
Proof.
  intros k d c H. unfold key_eq. cbn [set_data k_kty k_alg k_use k_kid k_x5c k_x5t k_x5u k_data].
  destruct (k_data k) as [|o n| |o kk], d as [|o' n'| |o' kk']; try destruct H; split; destruct (k_data c); reflexivity.
Qed.
Theorem rsa_used_eq : forall P k key nums o k', k_data k = DRsa key nums -> plain_nums nums -> truthy (num nums (lit "n")) = true -> truthy (num nums (lit "e")) = true ->
  rsa_encryption_key P k = Ok (o, k') -> k' = set_data k (DRsa o nums) /\ forall c, key_eq k' c = key_eq k c /\ key_eq c k' = key_eq c k.
Proof.
  intros P k key nums o k' D PN TN TE H. destruct (rsa_used P k o k' H) as (_ & _ & key0 & nums0 & nums' & D0 & -> & _ & N). rewrite D in D0. injection D0 as <- <-.
  rewrite (N PN TN TE). split; [reflexivity|]. intro c. apply set_data_eq. rewrite D. reflexivity.
Qed.
Theorem sym_used : forall P k a b k', sym_encryption_key P k a = Ok (b, k') ->
  (forall a', (r <- sym_encryption_key P k' a';; Ok (fst r)) = (r <- sym_encryption_key P k a';; Ok (fst r))) /\
  (forall c, key_eq k' c = key_eq k c /\ key_eq c k' = key_eq c k) /\
  exists key kk secret, k_data k = DSym key kk /\ k' = set_data k (DSym (VBytes secret) kk) /\ (truthy key = true -> key = VBytes secret) /\
    (truthy key = false -> exists t, py_bytes kk = Ok t /\ b64d t = Ok secret).
Proof.
  intros P k a b k' H. unfold sym_encryption_key in H. destruct (k_data k) as [| | |key kk] eqn:D; try discriminate H.
  set (src := if truthy key then Ok key else if truthy kk then b <- py_bytes kk;; s <- b64d b;; Ok (VBytes s) else Raise EDeSerializationNotPossible) in H.
  destruct src as [v|] eqn:S1; [|discriminate H]. cbn [bind] in H. destruct (dget ALG2KEYLEN a) as [n|]; [|discriminate H]. cbv zeta in H. destruct v as [| | | | |s| |]; try discriminate H. injection H as _ <-.
  split; [|split].
  - intro a'. unfold sym_encryption_key, set_data. cbn [k_data]. rewrite D. fold src. rewrite S1. cbn [bind].
    assert (Q : (if truthy (VBytes s) then Ok (VBytes s) else if truthy kk then b <- py_bytes kk;; s0 <- b64d b;; Ok (VBytes s0) else Raise EDeSerializationNotPossible) = Ok (VBytes s)).
    { destruct (truthy (VBytes s)) eqn:T; [reflexivity|]. subst src. destruct (truthy key) eqn:TK; [injection S1 as ->; congruence|exact S1]. }
    rewrite Q. cbn [bind]. destruct (dget ALG2KEYLEN a'); reflexivity.
  - intro c. apply set_data_eq. rewrite D. reflexivity.
  - exists key, kk, s. split; [reflexivity|]. split; [reflexivity|]. subst src. split; intro T; rewrite T in S1; [congruence|].
    destruct (truthy kk); [|discriminate S1]. destruct (py_bytes kk) as [t|]; [|discriminate S1]. cbn [bind] in S1. destruct (b64d t) eqn:B; [|discriminate S1]. cbn [bind] in S1. injection S1 as <-. eauto.
Qed.
