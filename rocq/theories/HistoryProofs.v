(** * Instances that are used several times *)
From Coq Require Import ZArith List Bool Lia.
From Verif Require Import Base BaseProofs Prims PvalEq Extra ExtraProofs Utf8 Codec Json Jwt JwtProofs Jwk Jws JwsProofs Jwe JweProofs JweProofs2 JweProofs3 JweProofs4 JweProofs5.
Import ListNotations.
Open Scope Z_scope.

Section History.
Variable P : prims.

(** What a JWE instance has gone through: calls that returned. *)
Inductive history : jwe -> jwe -> Prop :=
| hist_none w : history w w
| hist_enc w w' R keys cek iv kid tok w'' : history w w' -> jwe_encrypt P R w' keys cek iv kid = Ok (tok, w'') -> history w w''
| hist_dec w w' sent token keys alg cek m w'' : history w w' -> jwe_decrypt P sent w' token keys alg cek = Ok (m, w'') -> history w w''.

(** Instances that differ in the content key they remember only. *)
Definition alike (w w' : jwe) : Prop :=
  w_msg w' = w_msg w /\ w_jwk w' = w_jwk w /\ w_epk w' = w_epk w /\ w_jwt w' = w_jwt w /\ forall n, n <> lit "cek" -> dget (w_dict w') n = dget (w_dict w) n.
Definition remembered (w w' : jwe) : Prop :=
  w' = w \/ exists v, dget (w_dict w') (lit "cek") = Some v /\ (v = VNone \/ exists b, v = VBytes b).

Lemma alike_refl : forall w, alike w w.
Proof. intro w. repeat split. Qed.
Lemma alike_set : forall w w' v, alike w w' -> alike w (w_set w' (lit "cek") v).
Proof.
  intros w w' v (A & B & C & D & E). unfold alike, w_set. cbn [w_msg w_jwk w_epk w_jwt w_dict]. repeat split; try assumption. intros n N. rewrite dget_dset_other by congruence. apply E. exact N.
Qed.

Lemma decrypt_sets : forall sent w token keys alg cek m w', jwe_decrypt P sent w token keys alg cek = Ok (m, w') ->
  exists v, w' = w_set w (lit "cek") v /\ (v = VNone \/ exists b, v = VBytes b).
Proof.
  intros sent w token keys alg cek m w' H. unfold jwe_decrypt in H.
  match type of H with (bind ?x _) = _ => destruct x as [j|]; [cbn [bind] in H|discriminate H] end.
  match type of H with (bind ?x _) = _ => destruct x as [a|]; [cbn [bind] in H|discriminate H] end.
  destruct (truthy alg && negb (pval_eqb alg a)); [discriminate H|].
  match type of H with (bind ?x _) = _ => destruct x as [ks|]; [cbn [bind] in H|discriminate H] end.
  match type of H with (bind ?x _) = _ => destruct x as [ks'|]; [cbn [bind] in H|discriminate H] end.
  destruct (is_nil ks' && is_nil cek); [discriminate H|].
  match type of H with (bind ?x _) = _ => destruct x as [[]|]; [cbn [bind] in H|cbn [bind] in H|cbn [bind] in H|discriminate H] end.
  - match type of H with (bind ?x _) = _ => destruct x as [[m0 c]|]; [cbn [bind] in H|discriminate H] end. apply Ok_inj in H. injection H as _ <-. eauto.
  - match type of H with (bind ?x _) = _ => destruct x as [m0|]; [cbn [bind] in H|discriminate H] end. apply Ok_inj in H. injection H as _ <-. eauto.
  - destruct ks'; [discriminate H|]. match type of H with (bind ?x _) = _ => destruct x as [c|]; [cbn [bind] in H|discriminate H] end.
    match type of H with (bind ?x _) = _ => destruct x as [m0|]; [cbn [bind] in H|discriminate H] end. apply Ok_inj in H. injection H as _ <-. eauto.
Qed.
Lemma encrypt_sets : forall R w keys cek iv kid tok w', jwe_encrypt P R w keys cek iv kid = Ok (tok, w') ->
  exists v, w' = w_set w (lit "cek") v /\ (v = VNone \/ exists b, v = VBytes b).
Proof.
  intros R w keys cek iv kid tok w' H. unfold jwe_encrypt in H.
  do 3 (match type of H with (bind ?x _) = _ => destruct x; [cbn [bind] in H|discriminate H] end). match type of H with match ?x with _ => _ end = _ => destruct x as [|key ks]; [discriminate H|] end.
  match type of H with (bind ?x _) = _ => destruct x as [[]|]; [cbn [bind] in H|cbn [bind] in H|cbn [bind] in H|discriminate H] end; cbv zeta in H.
  - match type of H with (bind ?x _) = _ => destruct x; [cbn [bind] in H|discriminate H] end. match type of H with (bind ?x _) = _ => destruct x as [[t c]|]; [cbn [bind] in H|discriminate H] end. apply Ok_inj in H. injection H as _ <-. eauto.
  - do 2 (match type of H with (bind ?x _) = _ => destruct x; [cbn [bind] in H|discriminate H] end). apply Ok_inj in H. injection H as _ <-. eauto.
  - match type of H with (bind ?x _) = _ => destruct x as [[[[c1 c2] c3] c4]|]; [cbn [bind] in H|discriminate H] end.
    do 2 (match type of H with (bind ?x _) = _ => destruct x; [cbn [bind] in H|discriminate H] end). apply Ok_inj in H. injection H as _ <-. eauto.
Qed.

Lemma history_alike : forall w w', history w w' -> alike w w' /\ remembered w w'.
Proof.
  intros w w' H. induction H as [w|w w' R keys cek iv kid tok w'' H [IA _] E|w w' sent token keys alg cek m w'' H [IA _] E].
  - split; [apply alike_refl|left; reflexivity].
  - destruct (encrypt_sets _ _ _ _ _ _ _ _ E) as (v & -> & V). split; [apply alike_set; exact IA|]. right. exists v. split; [unfold w_set; cbn [w_dict]; apply dget_dset_same|exact V].
  - destruct (decrypt_sets _ _ _ _ _ _ _ _ E) as (v & -> & V). split; [apply alike_set; exact IA|]. right. exists v. split; [unfold w_set; cbn [w_dict]; apply dget_dset_same|exact V].
Qed.

(** ** Decryption does not depend on it. *)
Lemma jws_keys_alike : forall w w' keys, alike w w' -> jws_keys P (as_jws w') keys = jws_keys P (as_jws w) keys.
Proof.
  intros w w' keys (A & B & C & D & E). unfold jws_keys. destruct keys as [[|k r]|]; try reflexivity; unfold jws_get_keys, as_jws, dmem; cbn [s_jwk s_dict];
    rewrite B, !E by (intro X; discriminate X); reflexivity.
Qed.
Lemma pick_alike : forall w w' ks use alg, alike w w' -> pick_keys (as_jws w') ks use alg = pick_keys (as_jws w) ks use alg.
Proof.
  intros w w' ks use alg (A & B & C & D & E). unfold pick_keys, kid_in_force, as_jws. cbn [s_dict s_jwt]. rewrite D, !E by (intro X; discriminate X). reflexivity.
Qed.
Lemma take_only : forall kw objs names acc n, (forall x, In x names -> x <> n) -> (In (lit "crit") names -> n <> lit "x5c") -> dget (take_kw kw objs names acc) n = dget acc n.
Proof.
  intros kw objs names. induction names as [|x r IH]; intros acc n N C; [reflexivity|]. cbn [take_kw]. rewrite IH; [|intros y I; apply N; right; exact I|intro I; apply C; right; exact I].
  assert (X : x <> n) by (apply N; left; reflexivity).
  destruct (in_names x objs); [reflexivity|]. destruct (dget kw x) as [v|].
  - destruct (zs_eqb x (lit "x5c")) eqn:X1; [apply zs_eqb_eq in X1; subst x; cbn [orb]; apply dget_dset_other; exact X|].
    destruct (zs_eqb x (lit "crit")) eqn:X2; cbn [orb]; [|apply dget_dset_other; exact X]. apply zs_eqb_eq in X2. subst x. apply dget_dset_other. specialize (C (or_introl eq_refl)). congruence.
  - destruct (zs_eqb x (lit "alg")); [apply dget_dset_other; exact X|reflexivity].
Qed.
Lemma no_zip : forall w, dget (sub_dict w SYM_ARGS) (lit "zip") = None.
Proof.
  intro w. unfold sub_dict. assert (T : forall objs, dget (take_kw (w_dict w) objs SYM_ARGS []) (lit "zip") = None).
  { intro objs. apply (take_only (w_dict w) objs SYM_ARGS [] (lit "zip")); [|intros _ X; discriminate X]. intros x I. cbn [In SYM_ARGS] in I. repeat (destruct I as [<-|I]; [intro X; discriminate X|]). destruct I. }
  revert T. destruct (w_dict w) as [|p q]; intro T; [|apply T]. destruct (w_jwk w); [apply T|]. destruct (w_epk w); [apply T|reflexivity].
Qed.
Lemma sym_zip : forall d d' j key cek, dget d (lit "zip") = dget d' (lit "zip") -> sym_decrypt P d j key cek = sym_decrypt P d' j key cek.
Proof. intros d d' j key cek E. unfold sym_decrypt. rewrite E. reflexivity. Qed.
Lemma dec_loop_ext : forall A alg (f g : nat -> material -> res A), (forall i m, f i m = g i m) -> forall ks i, dec_loop P alg f ks i = dec_loop P alg g ks i.
Proof.
  intros A alg f g E. induction ks as [|k r IH]; intro i; [reflexivity|]. cbn [dec_loop]. destruct (key_material P k alg false); [|reflexivity]. cbn [bind]. rewrite E, IH. reflexivity.
Qed.

Theorem decrypt_alike : forall w w' sent token keys alg cek, alike w w' ->
  (r <- jwe_decrypt P sent w' token keys alg cek;; Ok (fst r)) = (r <- jwe_decrypt P sent w token keys alg cek;; Ok (fst r)).
Proof.
  intros w w' sent token keys alg cek AL. unfold jwe_decrypt. pose proof AL as (_ & _ & _ & D & _). rewrite D.
  match goal with |- context [if truthy token then ?x else ?y] => destruct (if truthy token then x else y) as [j|]; [cbn [bind]|reflexivity] end.
  destruct (py_get (j_headers j) (lit "alg")) as [a|]; [cbn [bind]|reflexivity]. destruct (truthy alg && negb (pval_eqb alg a)); [reflexivity|].
  rewrite (jws_keys_alike _ _ keys AL). destruct (jws_keys P (as_jws w) keys) as [ks|]; [cbn [bind]|reflexivity].
  rewrite (pick_alike _ _ ks (VStr (lit "enc")) a AL). destruct (pick_keys (as_jws w) ks (VStr (lit "enc")) a) as [ks'|]; [cbn [bind]|reflexivity].
  destruct (is_nil ks' && is_nil cek); [reflexivity|]. destruct (family_of a) as [[]|]; cbn [bind]; [| | |reflexivity].
  - match goal with |- context [cek_first ?a ?b ?c] => destruct (cek_first a b c) as [[m c0]|] end; reflexivity.
  - rewrite (sym_zip (sub_dict w' SYM_ARGS) (sub_dict w SYM_ARGS)) by (rewrite !no_zip; reflexivity).
    rewrite (dec_loop_ext _ a (fun _ k => sym_decrypt P (sub_dict w' SYM_ARGS) j (Some k) []) (fun _ k => sym_decrypt P (sub_dict w SYM_ARGS) j (Some k) [])) by (intros; apply sym_zip; rewrite !no_zip; reflexivity).
    match goal with |- context [cek_first ?a ?b ?c] => destruct (cek_first a b c) end; reflexivity.
  - destruct ks' as [|k r]; [reflexivity|]. destruct (ec_dec_setup P j k) as [c|]; [cbn [bind]|reflexivity].
    match goal with |- context [cek_first ?a ?b ?c] => destruct (cek_first a b c) end; reflexivity.
Qed.

Theorem decrypt_history : forall w w' sent token keys alg cek, history w w' ->
  (r <- jwe_decrypt P sent w' token keys alg cek;; Ok (fst r)) = (r <- jwe_decrypt P sent w token keys alg cek;; Ok (fst r)).
Proof. intros w w' sent token keys alg cek H. apply decrypt_alike. apply history_alike. exact H. Qed.

(** ** Encryption: only key agreement with key wrapping does. *)
Lemma take_alike : forall kw kw' objs names acc, (forall x, In x names -> dget kw' x = dget kw x) -> take_kw kw' objs names acc = take_kw kw objs names acc.
Proof.
  intros kw kw' objs names. induction names as [|x r IH]; intros acc E; [reflexivity|]. cbn [take_kw]. rewrite (E x) by (left; reflexivity). apply IH. intros y I. apply E. right. exact I.
Qed.
Lemma sub_alike : forall w w' args v, alike w w' -> dget (w_dict w) (lit "alg") = Some v -> (forall x, In x args -> x <> lit "cek") -> sub_dict w' args = sub_dict w args.
Proof.
  intros w w' args v (A & B & C & D & E) AL N. unfold sub_dict. rewrite B, C. pose proof AL as AL'. rewrite <- E in AL' by (intro X; discriminate X).
  destruct (w_dict w) as [|p q] eqn:W; [discriminate AL|]. destruct (w_dict w') as [|p' q'] eqn:W'; [discriminate AL'|]. apply take_alike. intros x I. apply E. apply N. exact I.
Qed.
Lemma sym_no_cek : forall x, In x SYM_ARGS -> x <> lit "cek".
Proof. intros x I. cbn [In SYM_ARGS] in I. repeat (destruct I as [<-|I]; [intro X; discriminate X|]). destruct I. Qed.
Lemma jwe_no_cek : forall x, In x JWE_ARGS -> x <> lit "cek".
Proof. intros x I. cbn [In JWE_ARGS] in I. repeat (destruct I as [<-|I]; [intro X; discriminate X|]). destruct I. Qed.

Lemma setup_plain : forall R w w' key v, alike w w' -> remembered w w' -> dget (w_dict w) (lit "alg") = Some v -> dget (w_dict w) (lit "cek") = None ->
  ~ In v [VStr (lit "ECDH-ES+A128KW"); VStr (lit "ECDH-ES+A192KW"); VStr (lit "ECDH-ES+A256KW")] -> ec_enc_setup P R w' key = ec_enc_setup P R w key.
Proof.
  intros R w w' key v AL RE V NC NI. destruct RE as [->|(c & CV & C)]; [reflexivity|]. unfold ec_enc_setup. rewrite (sub_alike w w' SYM_ARGS v AL V sym_no_cek).
  pose proof AL as (_ & _ & EP & _ & EQ). rewrite EP. rewrite !EQ by (intro X; discriminate X). rewrite CV, NC.
  assert (SA : dget (sub_dict w SYM_ARGS) (lit "alg") = Some v) by (apply (sub_dict_alg w SYM_ARGS v V); reflexivity). rewrite SA.
  destruct (match dget (w_dict w) (lit "apu") with Some v0 => b64d_arg v0 | None => Ok (r_apu R) end) as [apu|]; [cbn [bind]|reflexivity].
  destruct (match dget (w_dict w) (lit "apv") with Some v0 => b64d_arg v0 | None => Ok (r_apv R) end) as [apv|]; [cbn [bind]|reflexivity].
  match goal with |- bind ?x _ = _ => destruct x as [[[crv kx] ky]|]; [cbn [bind]|reflexivity] end.
  destruct (curve_by_name crv) as [cv|]; [cbn [bind]|reflexivity].
  match goal with |- bind ?x _ = _ => destruct x as [epk|]; [cbn [bind]|reflexivity] end.
  destruct (serialize epk false) as [ser|]; [cbn [bind]|reflexivity]. cbv zeta.
  assert (X : exists b, (match Some c with Some (VBytes b) => Ok b | Some v0 => if truthy v0 then Raise ETypeError else Ok [] | None => Ok [] end) = Ok b) by (destruct C as [->|(b & ->)]; eexists; reflexivity).
  destruct X as (b & ->). cbn [bind].
  match goal with |- bind ?x _ = _ => destruct x as [enc|]; [cbn [bind]|reflexivity] end.
  unfold generate_key_and_iv. cbn [is_nil negb]. rewrite !andb_false_r.
  match goal with |- (bind (bind ?x _) _) = _ => destruct x as [[kl il]|]; [cbn [bind]|reflexivity] end.
  match goal with |- bind ?x _ = _ => destruct x as [ed|]; [cbn [bind]|reflexivity] end.
  cbn [bind]. destruct (pval_eqb v (VStr (lit "ECDH-ES"))); [reflexivity|]. destruct v as [| | | |t| | |]; try reflexivity.
  unfold ECDH_KW. cbn [dget]. repeat match goal with |- context [zs_eqb ?y ?x] => let N := fresh in destruct (zs_eqb y x) eqn:N; [apply zs_eqb_eq in N; subst t; exfalso; apply NI; cbn [In]; tauto|] end. reflexivity.
Qed.

Theorem encrypt_history : forall R w w' keys cek iv kid v, history w w' -> dget (w_dict w) (lit "cek") = None -> dget (w_dict w) (lit "alg") = Some v ->
  ~ In v [VStr (lit "ECDH-ES+A128KW"); VStr (lit "ECDH-ES+A192KW"); VStr (lit "ECDH-ES+A256KW")] ->
  (r <- jwe_encrypt P R w' keys cek iv kid;; Ok (fst r)) = (r <- jwe_encrypt P R w keys cek iv kid;; Ok (fst r)).
Proof.
  intros R w w' keys cek iv kid v H NC V NI. destruct (history_alike _ _ H) as [AL RE]. pose proof AL as (A & B & C & D & E).
  unfold jwe_encrypt, dict_get. rewrite E by (intro X; discriminate X). rewrite V. cbn [bind].
  rewrite (jws_keys_alike _ _ keys AL). destruct (jws_keys P (as_jws w) keys) as [ks|]; [cbn [bind]|reflexivity].
  rewrite (pick_alike _ _ ks (VStr (lit "enc")) (VStr []) AL). destruct (pick_keys (as_jws w) ks (VStr (lit "enc")) (VStr [])) as [[|key r]|]; cbn [bind]; try reflexivity.
  destruct (family_of v) as [[]|] eqn:F; cbn [bind]; [| | |reflexivity]; cbv zeta; rewrite ?A, ?B, ?C, ?(sub_alike w w' _ v AL V sym_no_cek), ?(sub_alike w w' _ v AL V jwe_no_cek).
  - destruct (key_material P key v true) as [m|]; [cbn [bind]|reflexivity]. match goal with |- context [rsa_jwe_encrypt ?a ?b ?c ?d ?e ?f ?g ?h ?i] => destruct (rsa_jwe_encrypt a b c d e f g h i) as [[t c0]|] end; reflexivity.
  - destruct (key_material P key v true) as [m|]; [cbn [bind]|reflexivity]. match goal with |- context [sym_encrypt ?a ?b ?c ?d ?e ?f ?g ?h ?i] => destruct (sym_encrypt a b c d e f g h i) end; reflexivity.
  - rewrite (setup_plain R w w' key v AL RE V NC NI). destruct (ec_enc_setup P R w key) as [[[[c1 c2] c3] c4]|]; [cbn [bind]|reflexivity].
    destruct (key_material P key v true) as [m|]; [cbn [bind]|reflexivity]. match goal with |- context [ec_encrypt ?a ?b ?c ?d ?e ?f ?g ?h ?i ?j] => destruct (ec_encrypt a b c d e f g h i j) end; reflexivity.
Qed.
End History.

(** ** JWS instances *)
Section JwsHistory.
Variable P : prims.

(** What a JWS instance has gone through: verifications and signatures, whether they returned or raised, and recognitions. *)
Inductive jws_history : jws -> jws -> Prop :=
| jh_none s : jws_history s s
| jh_verify s s' token keys an sigalg s'' r : jws_history s s' -> verify_compact P s' token keys an sigalg = (s'', r) -> jws_history s s''
| jh_sign s s' E keys protected s'' r : jws_history s s' -> sign_compact P E s' keys protected = (s'', r) -> jws_history s s''
| jh_is s s' token b s'' : jws_history s s' -> is_jws s' token = Ok (b, s'') -> jws_history s s''.

Definition same_rest (s s' : jws) : Prop := s_jwk s' = s_jwk s /\ forall n, n <> lit "alg" -> dget (s_dict s') n = dget (s_dict s) n.
(** The algorithm of an instance that has one can only become one that no token has. *)
Definition pinned (s s' : jws) : Prop := forall v, dget (s_dict s) (lit "alg") = Some v ->
  exists v', dget (s_dict s') (lit "alg") = Some v' /\ (v' = v \/ truthy v' = false \/ v' = VStr (lit "none")).

Definition texty (a : pval) : Prop := a = VNone \/ ((exists t, a = VStr t) \/ exists t, a = VBytes t) /\ none_alg a = Ok false.
Lemma text_eq : forall v a, (exists t, a = VStr t) \/ (exists t, a = VBytes t) -> pval_eqb v a = true -> v = a.
Proof.
  intros v a [(t & ->)|(t & ->)] E; destruct v; try discriminate E; cbn [pval_eqb] in E; apply zs_eqb_eq in E; subst; reflexivity.
Qed.

Lemma same_refl : forall s, same_rest s s.
Proof. intro s. split; [reflexivity|intros; reflexivity]. Qed.
Lemma same_alg : forall s s' v, same_rest s s' -> same_rest s (set_alg s' v).
Proof. intros s s' v [A B]. split; [exact A|]. intros n N. unfold set_alg. cbn [s_dict]. rewrite dget_dset_other by congruence. apply B. exact N. Qed.
Lemma pinned_alg_set : forall s s' v, pinned s s' -> (forall x, dget (s_dict s') (lit "alg") = Some x -> v = x \/ truthy v = false \/ v = VStr (lit "none")) -> pinned s (set_alg s' v).
Proof.
  intros s s' v H N x X. destruct (H x X) as (y & Y & C). exists v. split; [unfold set_alg; cbn [s_dict]; apply dget_dset_same|]. destruct (N y Y) as [->|N']; [exact C|right; exact N'].
Qed.

(** What verify_alg leaves behind *)
Lemma verify_alg_state : forall s s' j keys sigalg alg s'' r, texty alg -> same_rest s s' -> pinned s s' -> verify_alg P s' j keys sigalg alg = (s'', r) -> same_rest s s'' /\ pinned s s''.
Proof.
  intros s s' j keys sigalg alg s'' r T SR PI H. unfold verify_alg in H.
  destruct (dmem (s_dict s') (lit "alg") && truthy alg && negb (pval_eqb (kwarg (s_dict s') (lit "alg") VNone) alg)) eqn:C; [injection H as <- _; auto|].
  destruct (truthy sigalg && negb (pval_eqb sigalg alg)); [injection H as <- _; auto|].
  assert (G : same_rest s (set_alg s' alg) /\ pinned s (set_alg s' alg)).
  { split; [apply same_alg; exact SR|]. apply pinned_alg_set; [exact PI|]. intros x X. unfold dmem, kwarg in C. rewrite X in C. cbn [andb] in C.
    destruct (truthy alg) eqn:TA; [|right; left; reflexivity]. cbn [andb] in C. apply negb_false_iff in C. left. destruct T as [->|[T _]]; [discriminate TA|]. symmetry. apply text_eq; assumption. }
  cbv zeta in H. destruct (checked P (set_alg s' alg) j keys alg) as [[k m]|e]; injection H as <- _; exact G.
Qed.
Lemma none_alg_text : forall a b, none_alg a = Ok b -> a = VNone \/ (exists t, a = VStr t) \/ exists t, a = VBytes t.
Proof. intros a b H. destruct a; try discriminate H; eauto. Qed.
Lemma verify_state : forall s s' token keys an sigalg s'' r, same_rest s s' -> pinned s s' -> verify_compact P s' token keys an sigalg = (s'', r) -> same_rest s s'' /\ pinned s s''.
Proof.
  intros s s' token keys an sigalg s'' r SR PI H. unfold verify_compact in H.
  match type of H with match ?x with _ => _ end = _ => destruct x as [j|]; [|injection H as <- _; auto] end. cbv zeta in H.
  assert (SR' : same_rest s (set_jwt s' j)) by exact SR. assert (PI' : pinned s (set_jwt s' j)) by exact PI.
  destruct (py_get (j_headers j) (lit "alg")) as [alg|e].
  - destruct (none_alg alg) as [[|]|e] eqn:N; [|apply (verify_alg_state s (set_jwt s' j) j keys sigalg alg s'' r); try assumption; right; split; [destruct (none_alg_text _ _ N) as [->|X]; [discriminate N|exact X]|exact N]|injection H as <- _; auto].
    destruct an; [|injection H as <- _; auto]. destruct (payload j) as [m|]; injection H as <- _; auto.
  - destruct e; try (injection H as <- _; auto); apply (verify_alg_state s (set_jwt s' j) j keys sigalg VNone s'' r); try assumption; left; reflexivity.
Qed.
Lemma sign_state : forall s s' E keys protected s'' r, same_rest s s' -> pinned s s' -> sign_compact P E s' keys protected = (s'', r) -> same_rest s s'' /\ pinned s s''.
Proof.
  intros s s' E keys protected s'' r SR PI H. unfold sign_compact, alg_keys in H. destruct (pick_alg s' keys) as [s1 alg] eqn:PA. injection H as <- _.
  unfold pick_alg in PA. destruct (dget (s_dict s') (lit "alg")) as [a|] eqn:D.
  - destruct (truthy a); injection PA as <- _; [auto|]. split; [apply same_alg; exact SR|]. apply pinned_alg_set; [exact PI|]. intros x X. right. right. reflexivity.
  - assert (G : forall v, same_rest s (set_alg s' v) /\ pinned s (set_alg s' v)) by (intro v; split; [apply same_alg; exact SR|apply pinned_alg_set; [exact PI|intros x X; congruence]]).
    assert (G2 : forall v u, same_rest s (set_alg (set_alg s' v) u) /\ pinned s (set_alg (set_alg s' v) u)).
    { intros v u. destruct (G v) as [G1 G2]. split; [apply same_alg; exact G1|]. intros x X. destruct (PI x X) as (y & Y & _). congruence. }
    destruct keys as [[|k [|]]|]; cbn [truthy] in PA; try (injection PA as <- _; apply G).
    destruct (truthy (k_alg k)) eqn:T; [rewrite T in PA; injection PA as <- _; apply G|injection PA as <- _; apply G].
Qed.
Lemma is_state : forall s s' token b s'', same_rest s s' -> pinned s s' -> is_jws s' token = Ok (b, s'') -> same_rest s s'' /\ pinned s s''.
Proof.
  intros s s' token b s'' SR PI H. unfold is_jws in H. destruct (loads_any token) as [v|e].
  - destruct (is_json_jws v) as [x|]; [|discriminate H]. cbn [bind] in H. apply Ok_inj in H. injection H as _ <-. auto.
  - destruct (is_ValueError e); [|discriminate H]. unfold is_compact_jws in H. destruct (unpack token) as [j|]; [|apply Ok_inj in H; injection H as _ <-; auto].
    destruct (py_in (lit "alg") (j_headers j)) as [[|]|]; [| |discriminate H]; cbn [bind] in H; [|apply Ok_inj in H; injection H as _ <-; auto].
    destruct (py_get (j_headers j) (lit "alg")) as [a|]; [|discriminate H]. cbn [bind] in H.
    match type of H with (let '(_, _) := ?x in _) = _ => destruct x as [a' j'] end. destruct (in_signers a') as [[|]|]; [| |discriminate H]; cbn [bind] in H; apply Ok_inj in H; injection H as _ <-; auto.
Qed.
Lemma jws_history_state : forall s s', jws_history s s' -> same_rest s s' /\ pinned s s'.
Proof.
  intros s s' H. induction H as [s|s s' token keys an sigalg s'' r H [A B] V|s s' E keys protected s'' r H [A B] V|s s' token b s'' H [A B] V].
  - split; [apply same_refl|]. intros v V. exists v. auto.
  - exact (verify_state _ _ _ _ _ _ _ _ A B V).
  - exact (sign_state _ _ _ _ _ _ _ A B V).
  - exact (is_state _ _ _ _ _ A B V).
Qed.

Lemma checked_same : forall s s' j keys alg, same_rest s s' -> checked P (set_alg (set_jwt s' j) alg) j keys alg = checked P (set_alg (set_jwt s j) alg) j keys alg.
Proof.
  intros s s' j keys alg [A B]. unfold checked.
  assert (K : jws_keys P (set_alg (set_jwt s' j) alg) keys = jws_keys P (set_alg (set_jwt s j) alg) keys).
  { unfold jws_keys. destruct keys as [[|k r]|]; try reflexivity; unfold jws_get_keys, set_alg, set_jwt, dmem; cbn [s_jwk s_dict]; rewrite A; rewrite !dget_dset_other by (intro X; discriminate X); rewrite !B by (intro X; discriminate X); reflexivity. }
  rewrite K. destruct (jws_keys P (set_alg (set_jwt s j) alg) keys) as [ks|]; [cbn [bind]|reflexivity].
  assert (Q : pick_keys (set_alg (set_jwt s' j) alg) ks (VStr []) (VStr []) = pick_keys (set_alg (set_jwt s j) alg) ks (VStr []) (VStr [])).
  { unfold pick_keys, kid_in_force, set_alg, set_jwt. cbn [s_jwt s_dict]. rewrite !dget_dset_same, !dget_dset_other by (intro X; discriminate X). rewrite !B by (intro X; discriminate X). reflexivity. }
  rewrite Q. reflexivity.
Qed.

Lemma verify_alg_less : forall s s' j keys sigalg alg, texty alg -> same_rest s s' -> pinned s s' ->
  snd (verify_alg P (set_jwt s' j) j keys sigalg alg) = snd (verify_alg P (set_jwt s j) j keys sigalg alg) \/
  snd (verify_alg P (set_jwt s' j) j keys sigalg alg) = Raise ESignerAlgError /\ exists v, dget (s_dict s') (lit "alg") = Some v /\ v <> alg.
Proof.
  intros s s' j keys sigalg alg T SR PI. unfold verify_alg.
  change (s_dict (set_jwt s' j)) with (s_dict s'). change (s_dict (set_jwt s j)) with (s_dict s).
  destruct (dmem (s_dict s') (lit "alg") && truthy alg && negb (pval_eqb (kwarg (s_dict s') (lit "alg") VNone) alg)) eqn:C'.
  - right. split; [reflexivity|]. unfold dmem, kwarg in C'. destruct (dget (s_dict s') (lit "alg")) as [v|]; [|discriminate C']. exists v. split; [reflexivity|]. intros ->.
    destruct T as [->|[T _]]; [discriminate C'|]. destruct T as [(t & ->)|(t & ->)]; cbn [pval_eqb] in C'; rewrite zs_eqb_refl, andb_false_r in C'; discriminate C'.
  - left. assert (C : dmem (s_dict s) (lit "alg") && truthy alg && negb (pval_eqb (kwarg (s_dict s) (lit "alg") VNone) alg) = false).
    { destruct (truthy alg) eqn:TA; [|rewrite andb_false_r; reflexivity]. unfold dmem, kwarg in *. destruct (dget (s_dict s) (lit "alg")) as [v|] eqn:D; [|reflexivity].
      destruct (PI v D) as (v' & V' & K). rewrite V' in C'. cbn [andb] in *. apply negb_false_iff in C'. destruct T as [->|[T N]]; [discriminate TA|]. pose proof (text_eq _ _ T C') as ->.
      destruct K as [->|[F|E2]]; [apply negb_false_iff; destruct T as [(t & ->)|(t & ->)]; cbn [pval_eqb]; apply zs_eqb_refl|congruence|]. subst alg. discriminate N. }
    rewrite C. destruct (truthy sigalg && negb (pval_eqb sigalg alg)); [reflexivity|]. cbv zeta. rewrite (checked_same s s' j keys alg SR). destruct (checked P (set_alg (set_jwt s j) alg) j keys alg) as [[k m]|]; reflexivity.
Qed.

(** A used instance answers like the unused one or refuses because of the algorithm. *)
Theorem used_jws : forall s s' token keys an sigalg, jws_history s s' ->
  snd (verify_compact P s' token keys an sigalg) = snd (verify_compact P s token keys an sigalg) \/
  snd (verify_compact P s' token keys an sigalg) = Raise ESignerAlgError /\
    exists j a v, unpack token = Ok j /\ (py_get (j_headers j) (lit "alg") = Ok a \/ py_get (j_headers j) (lit "alg") = Raise EKeyError /\ a = VNone) /\ dget (s_dict s') (lit "alg") = Some v /\ v <> a.
Proof.
  intros s s' token keys an sigalg H. destruct (jws_history_state _ _ H) as [SR PI]. unfold verify_compact.
  destruct (unpack token) as [j|]; [|left; reflexivity]. cbn [bind]. destruct (length (j_part j) =? 3)%nat; [|left; reflexivity]. cbv zeta.
  destruct (py_get (j_headers j) (lit "alg")) as [alg|e] eqn:PG.
  - destruct (none_alg alg) as [[|]|e] eqn:N.
    + left. destruct an; [destruct (payload j)|]; reflexivity.
    + destruct (verify_alg_less s s' j keys sigalg alg) as [E|[E (v & V & NE)]]; try assumption; [right; split; [destruct (none_alg_text _ _ N) as [->|X]; [discriminate N|exact X]|exact N]|left; exact E|].
      right. split; [exact E|]. exists j, alg, v. auto.
    + left. reflexivity.
  - destruct e; try (left; reflexivity). destruct (verify_alg_less s s' j keys sigalg VNone) as [E|[E (v & V & NE)]]; try assumption; [left; reflexivity|left; exact E|].
    right. split; [exact E|]. exists j, VNone, v. auto.
Qed.

(** A new instance accepts what the used one accepts. *)
Corollary used_jws_accepts : forall s s' token keys an sigalg m k, jws_history s s' -> snd (verify_compact P s' token keys an sigalg) = Ok (m, k) -> snd (verify_compact P s token keys an sigalg) = Ok (m, k).
Proof. intros s s' token keys an sigalg m k H V. destruct (used_jws s s' token keys an sigalg H) as [E|[E _]]; congruence. Qed.
End JwsHistory.
