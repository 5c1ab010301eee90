(** * The protected headers verify_json accepts and what it does with those that are not objects *)
From Coq Require Import ZArith List Bool Lia Arith.
From Verif Require Import Base BaseProofs Prims Inst Extra Utf8 Codec CodecProofs Json Jwt JwtProofs Jwk JwkProofs Jws JwsProofs JwsProofs5 JsonState ExtraProofs.
Import ListNotations.
Open Scope Z_scope.

Lemma split_count : forall a b, length (split 46 (a ++ 46 :: b)) = (length (split 46 a) + length (split 46 b))%nat.
Proof.
  induction a as [|x a IH]; intro b; cbn [app split]; [rewrite Z.eqb_refl; reflexivity|].
  destruct (x =? 46); [cbn [length]; rewrite IH; reflexivity|]. specialize (IH b). pose proof (split_nonempty 46 a) as N1. pose proof (split_nonempty 46 (a ++ 46 :: b)) as N2.
  destruct (split 46 a) as [|u r]; [congruence|]. destruct (split 46 (a ++ 46 :: b)) as [|u' r']; [congruence|]. cbn [length] in *. lia.
Qed.
Lemma split_one : forall a, length (split 46 a) = 1%nat -> split 46 a = [a].
Proof. intros a H. destruct (split 46 a) as [|u [|v r]] eqn:E; try discriminate H. f_equal. pose proof (join_split 46 a) as J. rewrite E in J. exact J. Qed.
Lemma split_three : forall a b c, length (split 46 (a ++ 46 :: b ++ 46 :: c)) = 3%nat -> split 46 (a ++ 46 :: b ++ 46 :: c) = [a; b; c].
Proof.
  intros a b c H. rewrite !split_count in H.
  assert (N : forall s, (1 <= length (split 46 s))%nat) by (intro s; pose proof (split_nonempty 46 s); destruct (split 46 s); [congruence|cbn [length]; lia]).
  pose proof (N a). pose proof (N b). pose proof (N c). assert (A : split 46 a = [a]) by (apply split_one; lia). assert (B : split 46 b = [b]) by (apply split_one; lia). assert (C : split 46 c = [c]) by (apply split_one; lia).
  assert (NA : ~ In 46 a) by (apply (split_no_sep 46 a); rewrite A; left; reflexivity). assert (NB : ~ In 46 b) by (apply (split_no_sep 46 b); rewrite B; left; reflexivity).
  rewrite split_app_sep by exact NA. rewrite split_app_sep by exact NB. rewrite C. reflexivity.
Qed.

(** What the protected header of an accepted entry is. *)
Definition good_protected (allow_none : bool) (e : pval) : Prop :=
  exists ed h t hd, e = VDict ed /\ dget ed (lit "protected") = Some (VStr h) /\ b64d_enc_dec h = Ok t /\ loads t = Ok (VDict hd) /\
    ((exists a g, dget hd (lit "alg") = Some (VStr a) /\ dget SIGNERS a = Some g) \/
     (allow_none = true /\ (dget hd (lit "alg") = Some VNone \/ exists a, dget hd (lit "alg") = Some (VStr a) /\ lower a = lit "none"))).

Lemma entry_protected : forall P keys an sigalg pl e m, entry_verified P keys an sigalg pl e m -> good_protected an e.
Proof.
  intros P keys an sigalg pl e m (ed & p & h & sg & tok & s1 & s2 & ko & -> & -> & K & _ & U & V).
  apply verify_inv in V. destruct V as (j & UP & L3 & _ & ACC). apply unpack_inv in UP. destruct UP as (b & parts & ps & t & [T|T] & A & SP & M & D & L & B & PT); [|discriminate T].
  injection T as ->. apply utf8_decode_encode in U. rewrite utf8_decode_ascii in U by exact A. apply Ok_inj in U. subst b.
  destruct (split_token_ok _ _ SP) as (S1 & _ & _ & _). rewrite PT, map_length in L3.
  assert (LP : length parts = length ps) by (clear -M; revert ps M; induction parts as [|x r IH]; intros ps M; cbn [mapM] in M; [injection M as <-; reflexivity|]; destruct (b64d x); [|discriminate M]; cbn [bind] in M; destruct (mapM b64d r) as [q|]; [|discriminate M]; cbn [bind] in M; injection M as <-; cbn [length]; f_equal; apply IH; reflexivity).
  rewrite S1 in LP. rewrite L3 in LP. apply split_three in LP. rewrite LP in S1. rewrite S1 in M. clear B SP. cbn [mapM] in M.
  destruct (b64d h) as [hb|] eqn:BH; [|discriminate M]. cbn [bind] in M. destruct (b64d p) as [p1|]; [|discriminate M]. cbn [bind] in M. destruct (b64d sg) as [p2|]; [|discriminate M]. cbn [bind] in M. apply Ok_inj in M. subst ps. cbn [hd] in D.
  assert (DP : dget ed (lit "protected") = Some (VStr h)).
  { unfold kwarg in K. destruct (dget ed (lit "protected")) as [w|]; [rewrite K; reflexivity|]. injection K as <-. vm_compute in BH. apply Ok_inj in BH. subst hb. vm_compute in D. apply Ok_inj in D. subst t. vm_compute in L. discriminate L. }
  assert (E : b64d_enc_dec h = Ok t).
  { unfold b64d_enc_dec, ascii_encode. assert (AH : ascii h = true) by (exact (b64d_input_ascii _ _ BH)). rewrite AH. cbn [bind]. rewrite BH. cbn [bind]. exact D. }
  destruct ACC as [N|(d & a & g & ks & k & N)].
  - destruct N as [N1 _ (d & N2 & N3) _]. rewrite N2 in L. exists ed, h, t, d. repeat (split; [assumption || reflexivity|]). right. split; assumption.
  - destruct N. rewrite as_headers in L. exists ed, h, t, d. repeat (split; [assumption || reflexivity|]). left. exists a, g. split; assumption.
Qed.

Theorem json_protected : forall P s text keys an sigalg c s', verify_json P s text keys an sigalg = Ok (c, s') ->
  exists d signs, loads_any text = Ok (VDict d) /\ entries d signs /\ Forall (good_protected an) signs.
Proof.
  intros P s text keys an sigalg c s' H. apply verify_json_all in H. destruct H as (d & pl & signs & ms & L & _ & E & F & _). exists d, signs. split; [exact L|]. split; [exact E|].
  clear -F. induction F as [|e m es ms V F IH]; constructor; [exact (entry_protected _ _ _ _ _ _ _ V)|exact IH].
Qed.

(** ** Protected headers that are not objects *)

(** An entry all of whose parts can be put together, with protected header [w]. *)
Definition protected_is (pl e w : pval) (un : dict) : Prop :=
  exists ed h p sg t hb pb sb, e = VDict ed /\ pl = VStr p /\ dget ed (lit "protected") = Some (VStr h) /\ dget ed (lit "signature") = Some (VStr sg) /\
    kwarg ed (lit "header") (VDict []) = VDict un /\ utf8_encode h = Ok hb /\ utf8_encode p = Ok pb /\ utf8_encode sg = Ok sb /\ b64d_enc_dec h = Ok t /\ loads t = Ok w.

Lemma token_of : forall pl e w un, protected_is pl e w un -> exists tok,
  json_token pl e = (' (all, odd) <- py_update un w;; if odd : bool then Raise ETypeError else Ok (tok, all)).
Proof.
  intros pl e w un (ed & h & p & sg & t & hb & pb & sb & -> & -> & D1 & D2 & D3 & E1 & E2 & E3 & B & L). exists (join 46 [hb; pb; sb]).
  unfold json_token. assert (K : kwarg ed (lit "protected") (VStr []) = VStr h) by (unfold kwarg; rewrite D1; reflexivity). rewrite K, D2, D3. cbn [py_encode]. rewrite E1. cbn [bind]. rewrite E2. cbn [bind]. rewrite E3. cbn [bind].
  rewrite B. cbn [bind]. destruct t as [|c t]; [vm_compute in L; discriminate L|]. rewrite L. reflexivity.
Qed.

(** Numbers, booleans and null: TypeError; text: ValueError; a list with an element that is not a pair: TypeError or
    ValueError; in all these cases the instance is as it was. *)
Theorem scalar_protected : forall P s pl e w un r keys an sigalg claim, protected_is pl e w un ->
  (w = VNone \/ (exists b, w = VBool b) \/ (exists n, w = VInt n) \/ (exists f, w = VFloat f)) -> verify_signs_on P s pl (e :: r) keys an sigalg claim = (s, Raise ETypeError).
Proof.
  intros P s pl e w un r keys an sigalg claim H W. destruct (token_of _ _ _ _ H) as (tok & T). cbn [verify_signs_on]. rewrite T.
  destruct W as [->|[(b & ->)|[(n & ->)|(f & ->)]]]; reflexivity.
Qed.
Theorem text_protected : forall P s pl e c t un r keys an sigalg claim, protected_is pl e (VStr (c :: t)) un -> verify_signs_on P s pl (e :: r) keys an sigalg claim = (s, Raise EValueError).
Proof.
  intros P s pl e c t un r keys an sigalg claim H. destruct (token_of _ _ _ _ H) as (tok & T). cbn [verify_signs_on]. rewrite T. reflexivity.
Qed.

(** A list of pairs with different text keys, or the empty text or list, is merged like the object with these entries. *)
Lemma update_pairs_obj : forall l d odd, update_pairs d odd (map (fun kv => VList [VStr (fst kv); snd kv]) l) = Ok (dupd d l, odd).
Proof.
  induction l as [|[k v] l IH]; intros d odd; [reflexivity|]. cbn [map update_pairs py_iter bind fst snd]. rewrite IH. reflexivity.
Qed.
Theorem pairs_like_object : forall un l, py_update un (VList (map (fun kv => VList [VStr (fst kv); snd kv]) l)) = py_update un (VDict l).
Proof. intros un l. unfold py_update. cbn [py_iter bind]. apply update_pairs_obj. Qed.

(** In the end nothing but an object is accepted. *)
Theorem only_objects : forall P s text keys an sigalg c s', verify_json P s text keys an sigalg = Ok (c, s') ->
  forall d signs e ed h t w, loads_any text = Ok (VDict d) -> entries d signs -> In e signs -> e = VDict ed -> dget ed (lit "protected") = Some (VStr h) -> b64d_enc_dec h = Ok t -> loads t = Ok w ->
  exists hd, w = VDict hd /\ dget hd (lit "alg") <> None.
Proof.
  intros P s text keys an sigalg c s' H d signs e ed h t w L E I -> D B LW. apply json_protected in H. destruct H as (d' & signs' & L' & E' & F). rewrite L in L'. injection L' as <-.
  assert (Q : forall e, In e signs -> exists e', In e' signs' /\ exists a b, e = VDict a /\ e' = VDict b /\ dget a (lit "protected") = dget b (lit "protected") \/ e = e').
  { intros x X. destruct E as [y l Y1 Y2|q Y1 Y2]; destruct E' as [y' l' Y1' Y2'|q' Y1' Y2']; try congruence.
    - rewrite Y1 in Y1'. injection Y1' as <-. rewrite Y2 in Y2'. apply Ok_inj in Y2'. subst l'. exists x. split; [exact X|]. exists [], []. right. reflexivity.
    - destruct X as [<-|[]]. exists (VDict q'). split; [left; reflexivity|]. exists q, q'. left. split; [reflexivity|]. split; [reflexivity|]. rewrite Y2, Y2'. reflexivity. }
  destruct (Q _ I) as (e' & I' & a & b & [(X1 & -> & X2)|<-]).
  - injection X1 as <-. rewrite Forall_forall in F. destruct (F _ I') as (ed' & h' & t' & hd & Z1 & Z2 & Z3 & Z4 & Z5). injection Z1 as <-. rewrite <- X2, D in Z2. injection Z2 as <-. rewrite B in Z3. apply Ok_inj in Z3. subst t'. rewrite LW in Z4. apply Ok_inj in Z4. subst w.
    exists hd. split; [reflexivity|]. destruct Z5 as [(a0 & g & Z5 & _)|(_ & [Z5|(a0 & Z5 & _)])]; rewrite Z5; discriminate.
  - rewrite Forall_forall in F. destruct (F _ I') as (ed' & h' & t' & hd & Z1 & Z2 & Z3 & Z4 & Z5). injection Z1 as <-. rewrite D in Z2. injection Z2 as <-. rewrite B in Z3. apply Ok_inj in Z3. subst t'. rewrite LW in Z4. apply Ok_inj in Z4. subst w.
    exists hd. split; [reflexivity|]. destruct Z5 as [(a0 & g & Z5 & _)|(_ & [Z5|(a0 & Z5 & _)])]; rewrite Z5; discriminate.
Qed.
