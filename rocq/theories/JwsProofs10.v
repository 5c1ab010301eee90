(** * JWS: the constructor; keys of the wrong kind; which keys work, from their numbers *)
From Coq Require Import ZArith List Bool Lia.
From Verif Require Import Base BaseProofs Utf8 Codec CodecProofs Json JsonProofs Jwt JwtProofs Prims Elliptic Ecc PvalEq Jwk JwkProofs Jws JwsProofs JwsProofs2 JwsProofs3 JwsProofs6.
Import ListNotations.
Open Scope Z_scope.

(** ** The constructor *)
Lemma init_dict_x5c : forall kw names acc, dget (init_dict kw names acc) (lit "x5c") =
  fold_left (fun r n => if zs_eqb n (lit "x5c") || zs_eqb n (lit "crit") then match dget kw n with Some v => Some (if truthy v then v else VList []) | None => r end else r) names (dget acc (lit "x5c")).
Proof.
  intros kw names. induction names as [|n names IH]; intro acc; [reflexivity|]. cbn [init_dict fold_left]. rewrite IH. clear IH. f_equal.
  destruct (dget kw n) as [v|] eqn:G.
  - destruct (zs_eqb n (lit "x5c") || zs_eqb n (lit "crit")) eqn:E; rewrite dget_dset; [reflexivity|]. destruct (zs_eqb n (lit "x5c")); [discriminate|reflexivity].
  - destruct (zs_eqb n (lit "alg")) eqn:A; [apply zs_eqb_eq in A; subst n; rewrite dget_dset; lits; reflexivity|]. destruct (zs_eqb n (lit "x5c") || zs_eqb n (lit "crit")); reflexivity.
Qed.
Lemma init_dict_crit : forall kw names acc, dget acc (lit "crit") = None -> dget (init_dict kw names acc) (lit "crit") = None.
Proof.
  intros kw names. induction names as [|n names IH]; intros acc H; [exact H|]. cbn [init_dict]. apply IH. destruct (dget kw n) as [v|].
  - destruct (zs_eqb n (lit "x5c") || zs_eqb n (lit "crit")) eqn:E; rewrite dget_dset; [lits; exact H|]. destruct (zs_eqb n (lit "crit")); [rewrite orb_true_r in E; discriminate|exact H].
  - destruct (zs_eqb n (lit "alg")) eqn:A; [apply zs_eqb_eq in A; subst n; rewrite dget_dset; lits; exact H|exact H].
Qed.

Definition list_or_empty (v : pval) : pval := if truthy v then v else VList [].
Theorem init_parameters : forall P msg kw obj s, jws_init P msg kw obj = Ok s -> kw <> [] \/ obj <> None ->
  s_msg s = msg /\ s_jwt s = None /\ s_key s = None /\
  dget (s_dict s) (lit "alg") = Some (kwarg kw (lit "alg") (VStr (lit "none"))) /\
  (forall n, In n [lit "jku"; lit "x5u"; lit "x5t"; lit "kid"; lit "typ"; lit "cty"] -> dget (s_dict s) n = dget kw n) /\
  dget (s_dict s) (lit "crit") = None /\
  dget (s_dict s) (lit "x5c") = match dget kw (lit "crit"), dget kw (lit "x5c") with Some v, _ => Some (list_or_empty v) | None, Some v => Some (list_or_empty v) | None, None => None end.
Proof.
  intros P msg kw obj s H NE. unfold jws_init in H. match type of H with bind ?m _ = _ => destruct m as [j|]; [|discriminate] end. cbn [bind] in H. apply Ok_inj in H. subst s. cbn [s_msg s_jwt s_key s_dict].
  assert (E : match kw, obj with [], None => [] | _, _ => init_dict kw plain_args [] end = init_dict kw plain_args []). { destruct kw, obj; try reflexivity. destruct NE as [X|X]; contradiction. }
  rewrite E. clear E. split; [reflexivity|]. split; [reflexivity|]. split; [reflexivity|]. split; [|split; [|split]].
  - rewrite init_dict_get by discriminate. unfold kwarg. destruct (dget kw (lit "alg")); reflexivity.
  - intros n I. cbn [In] in I. destruct I as [<-|[<-|[<-|[<-|[<-|[<-|[]]]]]]]; (rewrite init_dict_get by discriminate); (match goal with |- context [dget kw ?n] => destruct (dget kw n) end); reflexivity.
  - apply init_dict_crit. reflexivity.
  - rewrite init_dict_x5c. unfold plain_args. cbn [fold_left dget]. lits. cbn [orb]. unfold list_or_empty. destruct (dget kw (lit "crit")), (dget kw (lit "x5c")); reflexivity.
Qed.
Theorem init_empty : forall P msg, exists s, jws_init P msg [] None = Ok s /\ s_msg s = msg /\ s_dict s = [] /\ s_jwk s = None.
Proof. intros P msg. eexists. repeat split. Qed.

(** the parameter jwk: an object is kept; a dictionary, or a text with one in JSON, is read as a key *)
Theorem init_jwk : forall P msg kw,
  (forall k, exists s, jws_init P msg kw (Some k) = Ok s /\ s_jwk s = Some (JKey k)) /\
  (forall d, dget kw (lit "jwk") = Some (VDict d) -> match keyrep P (VDict d) with
     | Ok k => exists s, jws_init P msg kw None = Ok s /\ s_jwk s = Some (JKey k) | Raise e => jws_init P msg kw None = Raise e end) /\
  (forall t d, dget kw (lit "jwk") = Some (VStr t) -> loads t = Ok (VDict d) -> match keyrep P (VDict d) with
     | Ok k => exists s, jws_init P msg kw None = Ok s /\ s_jwk s = Some (JKey k) | Raise e => jws_init P msg kw None = Raise e end) /\
  (forall t e, dget kw (lit "jwk") = Some (VStr t) -> loads t = Raise e -> jws_init P msg kw None = Raise e) /\
  (forall t v, dget kw (lit "jwk") = Some (VStr t) -> loads t = Ok v -> (forall d, v <> VDict d) -> jws_init P msg kw None = Raise EAttributeError).
Proof.
  intros P msg kw. split; [intro k; eexists; split; reflexivity|]. split; [|split; [|split]].
  - intros d G. unfold jws_init. rewrite G. destruct (keyrep P (VDict d)) as [k|]; cbn [bind]; [eexists; split; reflexivity|reflexivity].
  - intros t d G L. unfold jws_init. rewrite G, L. cbn [bind]. destruct (keyrep P (VDict d)) as [k|]; cbn [bind]; [eexists; split; reflexivity|reflexivity].
  - intros t e G L. unfold jws_init. rewrite G, L. reflexivity.
  - intros t v G L N. unfold jws_init. rewrite G, L. cbn [bind]. destruct v; try reflexivity. destruct (N d eq_refl).
Qed.

(** Headers of a JSON token become arguments: one named self raises, msg replaces the message. *)
Theorem init_headers : forall P h, (dmem h (lit "self") = true -> init_from P h = Raise ETypeError) /\
  (forall s, init_from P h = Ok s -> s_msg s = kwarg h (lit "msg") VNone).
Proof.
  intros P h. split.
  - intro S. unfold init_from. rewrite S. reflexivity.
  - intros s H. unfold init_from in H. destruct (dmem h (lit "self")); [discriminate|]. unfold jws_init in H. match type of H with bind ?m _ = _ => destruct m as [j|]; [|discriminate] end. cbn [bind] in H. apply Ok_inj in H. subst s. reflexivity.
Qed.

(** ** An ECDSA algorithm with a key that is no point *)
Theorem no_point : forall P h bits c msg sg m e, nist_curve bits = Ok c -> as_point m = Raise e ->
  let r := be2z (firstn (Z.to_nat (c_bytes c)) sg) in let s := be2z (skipn (Z.to_nat (c_bytes c)) sg) in
  signer_verify P (DSASigner h bits) msg sg m = Raise (if (0 <? r) && (r <? c_N c) && ((0 <? s) && (s <? c_N c)) then e else EBadSignature).
Proof.
  intros P h bits c msg sg m e C A r s. unfold signer_verify. rewrite C. cbn [bind]. rewrite A. unfold in_range. change (bytes2int (firstn (Z.to_nat (c_bytes c)) sg)) with r. change (bytes2int (skipn (Z.to_nat (c_bytes c)) sg)) with s.
  destruct ((0 <? r) && (r <? c_N c) && ((0 <? s) && (s <? c_N c))); reflexivity.
Qed.

(** ** Which keys work *)
Theorem works_secret : forall P h k secret kk, hmac_law P -> bytes_ok secret = true -> k_data k = DSym (VBytes secret) kk -> works P (HMACSigner h) k.
Proof. intros P h k secret kk L O D. apply (works_hmac P h k secret L O); unfold get_key; rewrite D; reflexivity. Qed.
Theorem works_rsa_object : forall P s h k key nums, rsa_sign_law P key -> k_data k = DRsa (ORsa key) nums -> works P (RSASigner s h) k.
Proof. intros P s h k key nums L D. apply (works_rsa P s h k key L); unfold get_key; rewrite D; reflexivity. Qed.
Theorem works_ec_numbers : forall P h bits c k kk crv cv d x y, hash_law P -> In bits [256; 384; 521] -> nist_curve bits = Ok c -> 0 < d < c_N c -> public_key_for c d = Some (x, y) -> x <> 0 -> y <> 0 ->
  k_data k = DEc kk crv (VInt x) (VInt y) (VInt d) cv -> works P (DSASigner h bits) k.
Proof.
  intros P h bits c k kk crv cv d x y L IB C Hd PK X Y D. apply (works_ec P h bits c k d x y L IB C Hd PK); unfold get_key; rewrite D; cbn [truthy].
  - destruct (Z.eqb_spec d 0); [lia|reflexivity].
  - destruct (Z.eqb_spec x 0); [contradiction|]. destruct (Z.eqb_spec y 0); [contradiction|reflexivity].
Qed.
