(** Proofs about Misc.v. *)
From Coq Require Import ZArith List Bool Lia ZifyBool.
From Verif Require Import Base BaseProofs Utf8 Codec CodecProofs Json Jwt JwtProofs Prims Elliptic Ecc Jwk JwkProofs JwkProofs2 Jws Misc.
Import ListNotations.
Open Scope Z_scope.

(** ** left_hash *)
Lemma left_hash_ok : forall P, hash_law P -> forall msg b,
  (msg = VBytes b /\ bytes_ok b = true) \/ (exists s, msg = VStr s /\ utf8_encode s = Ok b) ->
  forall name h n, In (name, h, n) [(lit "HS256", SHA256, 16%nat); (lit "HS384", SHA384, 24%nat); (lit "HS512", SHA512, 32%nat)] ->
  exists t, left_hash P msg (VStr name) = Ok (VStr t) /\ b64d t = Ok (firstn n (p_hash P h b)) /\ length (p_hash P h b) = (n + n)%nat.
Proof.
  intros P HL msg b M name h n I.
  assert (B : bytes_ok b = true) by (destruct M as [[_ B]|(s & _ & B)]; [exact B|apply utf8_encode_ok in B; exact B]).
  assert (D : forall h0, sha_digest P h0 msg = Ok (p_hash P h0 b)).
  { intro h0. unfold sha_digest. destruct M as [[-> _]|(s & -> & E)]; cbn [as_bytes bind]; [reflexivity|rewrite E; reflexivity]. }
  destruct (HL h b B) as [L K]. pose proof (bytes_ok_firstn n _ K) as F. exists (b64e (firstn n (p_hash P h b))).
  split; [|split; [apply b64d_b64e; exact F|]].
  - pose proof (as_unicode_ascii _ (b64e_ascii _ F)) as A.
    unfold left_hash. destruct I as [E|[E|[E|[]]]]; injection E as <- <- <-; cbn [pval_eqb];
      repeat match goal with |- context[zs_eqb ?a ?c] => let v := eval vm_compute in (zs_eqb a c) in change (zs_eqb a c) with v end; cbv iota; rewrite D; cbn [bind]; rewrite A; reflexivity.
  - rewrite L. destruct I as [E|[E|[E|[]]]]; injection E as <- <- <-; reflexivity.
Qed.
Lemma left_hash_other : forall P msg name, ~ In name [lit "HS256"; lit "HS384"; lit "HS512"] -> left_hash P msg (VStr name) = Ok VNone.
Proof.
  intros P msg name N. unfold left_hash. cbn [pval_eqb].
  destruct (zs_eqb name (lit "HS256")) eqn:E1; [apply zs_eqb_eq in E1; subst; exfalso; apply N; left; reflexivity|].
  destruct (zs_eqb name (lit "HS384")) eqn:E2; [apply zs_eqb_eq in E2; subst; exfalso; apply N; right; left; reflexivity|].
  destruct (zs_eqb name (lit "HS512")) eqn:E3; [apply zs_eqb_eq in E3; subst; exfalso; apply N; right; right; left; reflexivity|]. reflexivity.
Qed.
Lemma left_hash_type : forall P msg name, (forall s, msg <> VStr s) -> (forall b, msg <> VBytes b) -> In name [lit "HS256"; lit "HS384"; lit "HS512"] ->
  left_hash P msg (VStr name) = Raise ETypeError.
Proof.
  intros P msg name S B I. assert (D : forall h0, sha_digest P h0 msg = Raise ETypeError).
  { intro h0. unfold sha_digest. destruct msg; cbn [as_bytes bind]; try reflexivity; [exfalso; eapply S; reflexivity|exfalso; eapply B; reflexivity]. }
  unfold left_hash. destruct I as [E|[E|[E|[]]]]; rewrite <- E; cbn [pval_eqb];
  repeat match goal with |- context[zs_eqb ?a ?c] => let v := eval vm_compute in (zs_eqb a c) in change (zs_eqb a c) with v end; cbv iota; rewrite D; reflexivity.
Qed.

(** ** mpint *)
Lemma mpint_ok : forall b, Z.of_nat (length b) + 1 < 2 ^ 32 ->
  mpint b = Ok (z2be 4 (Z.of_nat (length b) + 1) ++ b ++ [0]) /\ (m <- mpint b;; mp2bin m) = Ok (b ++ [0]).
Proof.
  intros b L. assert (E : mpint b = Ok (z2be 4 (Z.of_nat (length b) + 1) ++ b ++ [0])).
  { unfold mpint. rewrite app_length. cbn [length]. replace (Z.of_nat (length b + 1)) with (Z.of_nat (length b) + 1) by lia.
    destruct (Z.ltb_spec (Z.of_nat (length b) + 1) (2 ^ 32)); [reflexivity|lia]. }
  split; [exact E|]. rewrite E. cbn [bind]. unfold mp2bin.
  assert (Z4 : length (z2be 4 (Z.of_nat (length b) + 1)) = 4%nat) by apply z2be_length.
  rewrite nth_error_app2 by lia. rewrite Z4. rewrite skipn_app, Z4, skipn_all2 by lia. cbn [Nat.sub skipn app].
  destruct b as [|c b]; reflexivity.
Qed.
Lemma be2z_zero : forall b, be2z (b ++ [0]) = 256 * be2z b.
Proof. intro b. unfold be2z. rewrite fold_left_app. cbn [fold_left]. lia. Qed.

(** ** key_eq *)
Lemma raw_key_eq_text : forall a b, raw_key_eq (OVal (VStr a)) (OVal (VStr b)) = Ok true <-> a = b.
Proof. intros a b. cbn. split; intro H; [injection H as H; apply zs_eqb_eq; exact H|subst; rewrite zs_eqb_refl; reflexivity]. Qed.
Lemma rsa_eq_iff : forall a b, rsa_eq a b = true <-> (r_n a = r_n b /\ r_e a = r_e b).
Proof. intros. unfold rsa_eq. lia. Qed.

(** ** intarr2str *)
Lemma intarr2str_iff : forall l s, intarr2str l = Ok s <-> (s = l /\ Forall (fun c => 0 <= c < 0x110000) l).
Proof.
  unfold intarr2str. induction l as [|c l IH]; intro s; cbn [mapM].
  - split; [intro H; injection H as <-; split; [reflexivity|constructor]|intros [-> _]; reflexivity].
  - unfold py_chr at 1. destruct ((0 <=? c) && (c <? 1114112)) eqn:C.
    + cbn [bind]. destruct (mapM py_chr l) as [r|] eqn:M.
      * cbn [bind]. destruct (IH r) as [I1 I2]. destruct (I1 eq_refl) as [-> F]. split.
        -- intro H. injection H as <-. split; [reflexivity|]. constructor; [lia|exact F].
        -- intros [-> _]. reflexivity.
      * cbn [bind]. split; [discriminate|]. intros [-> F]. inversion_clear F as [|? ? _ F2]. destruct (IH l) as [_ I2]. discriminate (I2 (conj eq_refl F2)).
    + destruct ((- 2 ^ 31 <=? c) && (c <? 2 ^ 31)); cbn [bind]; (split; [discriminate|]; intros [_ F]; inversion_clear F; lia).
Qed.

(** ** RSAKey.load_key *)
Definition fresh_nums (nums : dict) : Prop := forall n, In n rsa_longs -> dget nums n = Some (VStr []).
Lemma rsa_new_blank : forall P, exists k, rsa_new P [] onone = Ok k /\ exists nums, k_data k = DRsa onone nums /\ fresh_nums nums.
Proof.
  intro P. eexists. split; [reflexivity|]. eexists. split; [reflexivity|]. intros n I. unfold rsa_longs in I. repeat destruct I as [<-|I]; try contradiction; reflexivity.
Qed.
Definition key_numbers (r : rsakey) : list (ustr * option Z) :=
  [(lit "n", Some (r_n r)); (lit "e", Some (r_e r)); (lit "d", r_d r);
   (lit "p", match r_d r, r_pq r with Some _, Some (p, _) => if p =? 0 then None else Some p | _, _ => None end);
   (lit "q", match r_d r, r_pq r with Some _, Some (_, q) => if q =? 0 then None else Some q | _, _ => None end)].
(** The attributes after _split: those of the key where it has them, the old ones elsewhere. *)
Lemma rsa_split_get : forall r nums, exists nums', rsa_split (ORsa r) nums = Ok nums' /\
  forall name o, In (name, o) (key_numbers r) -> dget nums' name = match o with Some z => Some (VInt z) | None => dget nums name end.
Proof.
  intros r nums. unfold rsa_split, key_numbers. eexists. split; [reflexivity|]. intros name o I.
  destruct (r_d r) as [d|]; [destruct (r_pq r) as [[p q]|]; [destruct (p =? 0), (q =? 0)|]|];
    repeat destruct I as [I|I]; try contradiction; injection I as <- <-; rewrite !dget_dset; lits; cbn match; reflexivity.
Qed.
Lemma load_key_get : forall k key0 nums r, k_data k = DRsa key0 nums -> exists k' nums', rsa_load_key k (ORsa r) = (k', None) /\ k_data k' = DRsa (ORsa r) nums' /\
  forall name o, In (name, o) (key_numbers r) -> dget nums' name = match o with Some z => Some (VInt z) | None => dget nums name end.
Proof.
  intros k key0 nums r D. destruct (rsa_split_get r nums) as (nums' & E & G). unfold rsa_load_key. rewrite D, E. eexists _, nums'. split; [reflexivity|]. split; [reflexivity|exact G].
Qed.
Lemma rsa_new_key : forall P r, exists k nums, rsa_new P [] (ORsa r) = Ok k /\ k_data k = DRsa (ORsa r) nums /\ k_kty k = VStr (lit "RSA") /\
  forall name o, In (name, o) (key_numbers r) -> dget nums name = match o with Some z => Some (VInt z) | None => Some (VStr []) end.
Proof.
  intros P r. unfold rsa_new. cbn [key_init dmem dget bind]. unfold key_init. cbn [dmem dget bind].
  set (nums0 := map (fun name => (name, kwarg [] name (VStr []))) rsa_longs). destruct (rsa_split_get r nums0) as (nums' & E & G).
  change (num nums0 (lit "n")) with (VStr []). cbn [py_len length bind]. change (0 <? 0)%nat with false. cbv iota. cbn [bind k_x5c].
  change (truthy (kwarg [] (lit "x5c") VNone)) with false. cbv iota. cbn [py_len length bind otruthy negb andb truthy]. rewrite E. cbn [bind].
  eexists _, nums'. split; [reflexivity|]. split; [reflexivity|]. split; [reflexivity|]. intros name o I. rewrite (G name o I). destruct o; [reflexivity|].
  unfold key_numbers in I. repeat destruct I as [I|I]; try contradiction; injection I as <- _; reflexivity.
Qed.

(** ** keyitems2keyreps *)
Lemma mapM_forall2 : forall A B (f : A -> res B) (R : A -> B -> Prop) l, (forall x, In x l -> exists y, f x = Ok y /\ R x y) -> exists ys, mapM f l = Ok ys /\ Forall2 R l ys.
Proof.
  intros A B f R. induction l as [|x l IH]; intro H; [exists []; split; [reflexivity|constructor]|].
  destruct (H x (or_introl eq_refl)) as (y & E & Q). destruct IH as (ys & E2 & Q2); [intros; apply H; right; assumption|].
  exists (y :: ys). split; [cbn [mapM]; rewrite E; cbn [bind]; rewrite E2; reflexivity|constructor; assumption].
Qed.
Lemma forall2_concat : forall A B (R : A -> B -> Prop) l m, Forall2 (Forall2 R) l m -> Forall2 R (concat l) (concat m).
Proof. intros A B R l m H. induction H; [constructor|]. cbn [concat]. apply Forall2_app; assumption. Qed.
Lemma forall2_map_l : forall A B C (f : A -> B) (R : B -> C -> Prop) l m, Forall2 (fun a c => R (f a) c) l m -> Forall2 R (map f l) m.
Proof. intros A B C f R l m H. induction H; constructor; assumption. Qed.

Lemma keyitems_ok : forall P rnd (R : ustr -> kobj -> jwk -> Prop) items,
  (forall t os o, In (t, os) items -> In o os -> exists k, new_of_type P rnd t o = Ok k /\ R t o k) ->
  exists ks, keyitems2keyreps P rnd items = Ok ks /\ Forall2 (fun p k => R (fst p) (snd p) k) (flat_map (fun it => map (pair (fst it)) (snd it)) items) ks.
Proof.
  intros P rnd R items H. unfold keyitems2keyreps.
  destruct (mapM_forall2 _ _ (fun it => mapM (new_of_type P rnd (fst it)) (snd it)) (fun it ks => Forall2 (fun p k => R (fst p) (snd p) k) (map (pair (fst it)) (snd it)) ks) items) as (l & E & F).
  - intros [t os] I. cbn [fst snd]. destruct (mapM_forall2 _ _ (new_of_type P rnd t) (fun o k => R t o k) os) as (ks & E & F); [intros o J; exact (H t os o I J)|].
    exists ks. split; [exact E|]. apply forall2_map_l. exact F.
  - rewrite E. cbn [bind]. exists (concat l). split; [reflexivity|]. rewrite flat_map_concat_map. apply forall2_concat. apply forall2_map_l. exact F.
Qed.

Lemma upper_lower_oct : forall t, lower t = lit "oct" -> upper t = lit "OCT".
Proof.
  intros t H. destruct t as [|a [|b [|c [|d r]]]]; try discriminate H. unfold lower, upper in *. cbn [map] in *. injection H as A B C.
  change (lit "OCT") with [79; 67; 84]. unfold lower_c in *. unfold upper_c.
  assert (X : (a = 111 \/ a = 79) /\ (b = 99 \/ b = 67) /\ (c = 116 \/ c = 84)).
  { destruct ((65 <=? a) && (a <=? 90)) eqn:E1; destruct ((65 <=? b) && (b <=? 90)) eqn:E2; destruct ((65 <=? c) && (c <=? 90)) eqn:E3; lia. }
  destruct X as ([-> | ->] & [-> | ->] & [-> | ->]); reflexivity.
Qed.
Lemma new_rsa : forall P rnd t r, upper t = lit "RSA" -> new_of_type P rnd t (ORsa r) = rsa_new P [] (ORsa r).
Proof. intros P rnd t r H. unfold new_of_type. rewrite H. reflexivity. Qed.
Lemma new_oct : forall P rnd t v b, lower t = lit "oct" -> as_bytes v = Ok (VBytes b) -> exists k, new_of_type P rnd t (OVal v) = Ok k /\ k_data k = DSym (VBytes b) (VStr []) /\ k_kty k = VStr (lit "oct").
Proof.
  intros P rnd t v b H E. unfold new_of_type. rewrite (upper_lower_oct t H), H. change (zs_eqb (lit "OCT") (lit "RSA")) with false. cbv iota. rewrite zs_eqb_refl.
  unfold sym_new. rewrite E. cbn [bind]. unfold key_init. cbn [dmem dget bind kwarg truthy]. eexists.
  split; [destruct b; cbn [negb andb]; reflexivity|]. split; reflexivity.
Qed.
Lemma upper_ec_lower : forall t, upper t = lit "EC" -> length t = 2%nat.
Proof. intros t H. apply (f_equal (@length Z)) in H. unfold upper in H. rewrite map_length in H. exact H. Qed.
Lemma new_ec : forall P rnd t c d x y, upper t = lit "EC" -> key_pair c rnd = (d, Some (x, y)) ->
  exists k, new_of_type P rnd t (OCurve c) = Ok k /\ k_data k = DEc (OCurve c) (VStr []) (VInt x) (VInt y) (VInt d) (OCurve c) /\ k_kty k = VStr (lit "EC").
Proof.
  intros P rnd t c d x y H E. unfold new_of_type. rewrite H. change (zs_eqb (lit "EC") (lit "RSA")) with false. cbv iota.
  destruct (zs_eqb (lower t) (lit "oct")) eqn:O.
  { apply zs_eqb_eq in O. apply (f_equal (@length Z)) in O. unfold lower in O. rewrite map_length, (upper_ec_lower t H) in O. discriminate O. }
  rewrite zs_eqb_refl. unfold ec_new, key_init. cbn [dmem dget bind kwarg truthy negb andb otruthy onone]. unfold ec_load_key. cbn [k_data]. rewrite E.
  eexists. split; [reflexivity|]. split; reflexivity.
Qed.
Lemma new_other : forall P rnd t o, upper t <> lit "RSA" -> lower t <> lit "oct" -> upper t <> lit "EC" -> exists k, new_of_type P rnd t o = Ok k /\ k_data k = DKey o /\ k_kty k = VStr [].
Proof.
  intros P rnd t o A B C. unfold new_of_type. apply zs_eqb_neq in A, B, C. rewrite A, B, C. eexists. split; [reflexivity|]. split; reflexivity.
Qed.

(** ** Certificates *)
Lemma npad_step : forall a b c r, npad (a :: b :: c :: r) = npad r.
Proof.
  intros. unfold npad. change (length (a :: b :: c :: r)) with (3 + length r)%nat. replace (3 + length r)%nat with (length r + 1 * 3)%nat by lia. rewrite Nat.mod_add by lia. reflexivity.
Qed.
Lemma std_enc : forall s, bytes_ok s = true -> b64encode s = map tr_dec (enc_nopad s) ++ repeat 61 (npad s).
Proof.
  induction s as [|a|a b|a b c r IH] using list_ind3; intro H; [reflexivity| | |].
  - apply bytes3 in H. destruct H as [Ha _]. cbn [b64encode enc_nopad map app npad repeat]. rewrite !tr_dec_url_chr by lia. reflexivity.
  - apply bytes3 in H. destruct H as [Ha H]. apply bytes3 in H. destruct H as [Hb _]. cbn [b64encode enc_nopad map app npad repeat]. rewrite !tr_dec_url_chr by lia. reflexivity.
  - apply bytes3 in H. destruct H as [Ha H]. apply bytes3 in H. destruct H as [Hb H]. apply bytes3 in H. destruct H as [Hc H].
    cbn [b64encode enc_nopad map app]. rewrite !tr_dec_url_chr by lia. rewrite IH by exact H. rewrite npad_step. reflexivity.
Qed.
Lemma npad_mod : forall s, Z.of_nat (npad s) = match Z.of_nat (length s) mod 3 with 0 => 0 | 1 => 2 | _ => 1 end.
Proof.
  induction s as [|a|a b|a b c r IH] using list_ind3; try reflexivity. rewrite npad_step, IH. cbn [length]. rewrite !Nat2Z.inj_succ.
  replace (Z.succ (Z.succ (Z.succ (Z.of_nat (length r))))) with (Z.of_nat (length r) + 1 * 3) by lia. rewrite Z.mod_add by lia. reflexivity.
Qed.
Lemma a2b_std : forall s, bytes_ok s = true -> a2b (b64encode s) 0 0 0 = Ok s.
Proof.
  intros s H. rewrite std_enc by exact H. pose proof (npad_mod s) as N. apply a2b_enc_nopad; [exact H| | |]; intro M; rewrite M in N.
  - replace (npad s) with 0%nat by lia. reflexivity.
  - intro lc. replace (npad s) with 2%nat by lia. reflexivity.
  - intro lc. replace (npad s) with 1%nat by lia. reflexivity.
Qed.
Lemma tr_dec_std : forall c, b64url_char c = true -> b64_std_char (tr_dec c) = true.
Proof. intros c H. unfold b64url_char in H. unfold b64_std_char, tr_dec. destruct (c =? 45) eqn:A; [reflexivity|]. destruct (c =? 95) eqn:B; [reflexivity|]. lia. Qed.
Lemma std_ascii : forall s, forallb b64_std_char s = true -> ascii s = true.
Proof. intros s H. unfold ascii. rewrite forallb_forall in *. intros c I. specialize (H c I). unfold b64_std_char in H. lia. Qed.
Lemma filter_all : forall A (f : A -> bool) l, forallb f l = true -> filter f l = l.
Proof. intros A f. induction l as [|x l IH]; intro H; [reflexivity|]. cbn [forallb filter] in *. apply andb_true_iff in H. destruct H as [H1 H2]. rewrite H1, IH by exact H2. reflexivity. Qed.
Lemma enc_std_chars : forall s, bytes_ok s = true -> forallb b64_std_char (map tr_dec (enc_nopad s)) = true.
Proof.
  intros s H. pose proof (enc_nopad_chars s H) as C. rewrite forallb_forall in *. intros c I. apply in_map_iff in I. destruct I as (d & <- & I). apply tr_dec_std. apply C. exact I.
Qed.
Lemma filter_std : forall s, bytes_ok s = true -> filter b64_std_char (b64encode s) = map tr_dec (enc_nopad s).
Proof.
  intros s H. rewrite std_enc by exact H. rewrite filter_app, filter_all by (apply enc_std_chars; exact H).
  assert (Z0 : forall n, filter b64_std_char (repeat 61 n) = []) by (induction n as [|n IH]; [reflexivity|cbn [repeat filter]; rewrite IH; reflexivity]). rewrite Z0, app_nil_r. reflexivity.
Qed.
Lemma der_cert_third : forall P der s, bytes_ok der = true -> filter b64_std_char s = filter b64_std_char (b64encode der) -> Z.of_nat (length der) mod 3 = 0 ->
  der_cert2rsa P (VStr s) = p_der2rsa P der.
Proof.
  intros P der s B F M. unfold der_cert2rsa. rewrite F, filter_std by exact B. unfold a2b_text, ascii_encode.
  rewrite std_ascii by (apply enc_std_chars; exact B). rewrite <- (app_nil_r (map tr_dec (enc_nopad der))).
  rewrite a2b_enc_nopad; [reflexivity|exact B|reflexivity|intro; congruence|intro; congruence].
Qed.
Lemma der_cert_other : forall P der s, bytes_ok der = true -> filter b64_std_char s = filter b64_std_char (b64encode der) -> Z.of_nat (length der) mod 3 <> 0 ->
  der_cert2rsa P (VStr s) = Raise EBinasciiError.
Proof.
  intros P der s B F M. unfold der_cert2rsa. rewrite F, filter_std by exact B. unfold a2b_text, ascii_encode.
  rewrite std_ascii by (apply enc_std_chars; exact B). rewrite <- (app_nil_r (map tr_dec (enc_nopad der))).
  destruct (a2b_alpha (enc_nopad der) [] 0 0 (enc_nopad_chars der B) ltac:(lia)) as (pre & lc & E). rewrite E. cbn [a2b].
  rewrite Z.add_0_l, enc_nopad_len_mod. pose proof (Z.mod_pos_bound (Z.of_nat (length der)) 3 ltac:(lia)).
  assert (D : Z.of_nat (length der) mod 3 = 1 \/ Z.of_nat (length der) mod 3 = 2) by lia. destruct D as [-> | ->]; reflexivity.
Qed.

(** ** PEM files *)
Lemma words_cur : forall a rest cur, forallb (fun c => negb (ws c)) a = true -> words (a ++ rest) cur = words rest (cur ++ a).
Proof.
  induction a as [|c a IH]; intros rest cur H; [rewrite app_nil_r; reflexivity|]. cbn [forallb] in H. apply andb_true_iff in H. destruct H as [H1 H2].
  cbn [app words]. apply negb_true_iff in H1. rewrite H1. rewrite IH by exact H2. rewrite <- app_assoc. reflexivity.
Qed.
Definition nonempty (l : list Z) : bool := match l with [] => false | _ => true end.
Lemma words_skip : forall b rest, forallb ws b = true -> words (b ++ rest) [] = words rest [].
Proof. induction b as [|c b IH]; intros rest H; [reflexivity|]. cbn [forallb] in H. apply andb_true_iff in H. destruct H as [H1 H2]. cbn [app words]. rewrite H1. apply IH. exact H2. Qed.
Lemma words_line : forall a b rest, forallb (fun c => negb (ws c)) a = true -> forallb ws b = true -> b <> [] ->
  words (a ++ b ++ rest) [] = (if nonempty a then [a] else []) ++ words rest [].
Proof.
  intros a b rest H W N. rewrite words_cur by exact H. destruct b as [|c b]; [congruence|]. cbn [forallb] in W. apply andb_true_iff in W. destruct W as [W1 W2].
  cbn [app words]. rewrite W1. rewrite words_skip by exact W2. destruct a; reflexivity.
Qed.
Lemma words_lines : forall ls rest, Forall (fun l => forallb (fun c => negb (ws c)) (fst l) = true /\ forallb ws (snd l) = true /\ snd l <> []) ls ->
  words (concat (map (fun l => fst l ++ snd l) ls) ++ rest) [] = filter nonempty (map fst ls) ++ words rest [].
Proof.
  induction ls as [|[a b] ls IH]; intros rest H; [reflexivity|]. inversion_clear H as [|? ? [H1 [H2 H3]] H4]. cbn [map concat filter fst snd] in *. rewrite <- !app_assoc.
  rewrite words_line by assumption. rewrite IH by exact H4. destruct (nonempty a); reflexivity.
Qed.
Lemma concat_nonempty : forall ls, concat (filter nonempty ls) = concat ls.
Proof. induction ls as [|a ls IH]; [reflexivity|]. cbn [filter]. destruct a; cbn [nonempty concat app]; rewrite IH; reflexivity. Qed.
Definition no_blank (s : list Z) : list Z := filter (fun c => negb (c =? 32)) s.
(** A line of the frame: some visible character, no white space but blanks. *)
Definition frame (s : list Z) : Prop := no_blank s <> [] /\ forallb (fun c => negb (ws c) || (c =? 32)) s = true.
Lemma frame_ws : forall s, frame s -> forallb (fun c => negb (ws c)) (no_blank s) = true.
Proof.
  intros s [_ H]. unfold no_blank. rewrite forallb_forall in *. intros c I. apply filter_In in I. destruct I as [I B]. specialize (H c I). destruct (c =? 32); [discriminate B|]. rewrite orb_false_r in H. exact H.
Qed.
(** White space between two lines, with some character other than a blank in it. *)
Definition line_end (s : list Z) : Prop := no_blank s <> [] /\ forallb ws s = true.
Lemma no_blank_ws : forall s, forallb ws s = true -> forallb ws (no_blank s) = true.
Proof. intros s H. unfold no_blank. rewrite forallb_forall in *. intros c I. apply filter_In in I. apply H. apply I. Qed.
Lemma no_blank_app : forall a b, no_blank (a ++ b) = no_blank a ++ no_blank b.
Proof. intros a b. apply filter_app. Qed.
Lemma no_blank_lines : forall ls, Forall (fun l => forallb (fun c => negb (ws c)) (fst l) = true) ls ->
  no_blank (concat (map (fun l => fst l ++ snd l) ls)) = concat (map (fun l : list Z * list Z => fst l ++ snd l) (map (fun l => (fst l, no_blank (snd l))) ls)).
Proof.
  induction ls as [|[a b] ls IH]; intro H; [reflexivity|]. inversion_clear H as [|? ? H1 H2]. cbn [map concat fst snd] in *. rewrite !no_blank_app, IH by exact H2. f_equal. f_equal.
  apply filter_all. rewrite forallb_forall in *. intros c I. specialize (H1 c I). unfold ws in H1. lia.
Qed.
Lemma pem_ok : forall P read imp name h b0 ls f b1 der k, frame h -> line_end b0 -> Forall (fun l => line_end (snd l)) ls -> frame f -> forallb ws b1 = true ->
  bytes_ok der = true -> concat (map fst ls) = b64encode der ->
  read name = Ok (h ++ b0 ++ concat (map (fun l => fst l ++ snd l) ls) ++ f ++ b1) -> imp (h ++ b0 ++ concat (map (fun l => fst l ++ snd l) ls) ++ f ++ b1) = Ok k ->
  pem_cert2rsa P read imp name = p_der2rsa P der.
Proof.
  intros P read imp name h b0 ls f b1 der k Hh H0 HL Hf H1 B C R I. unfold pem_cert2rsa. rewrite R. cbn [bind]. rewrite I. cbn [bind].
  assert (LS : Forall (fun l => forallb (fun c => negb (ws c)) (fst l) = true) ls).
  { apply Forall_forall. intros a IN. apply forallb_forall. intros c IC. assert (X : In c (b64encode der)) by (rewrite <- C; apply in_concat; exists (fst a); split; [apply in_map; exact IN|exact IC]).
    rewrite std_enc in X by exact B. apply in_app_or in X. destruct X as [X|X].
    - pose proof (enc_std_chars der B) as E. rewrite forallb_forall in E. specialize (E c X). unfold b64_std_char in E. unfold ws. lia.
    - apply repeat_spec in X. subst c. reflexivity. }
  fold (no_blank (h ++ b0 ++ concat (map (fun l => fst l ++ snd l) ls) ++ f ++ b1)).
  rewrite !no_blank_app. rewrite no_blank_lines by exact LS.
  destruct H0 as [H0 W0]. rewrite words_line by (try apply frame_ws; try apply no_blank_ws; assumption).
  rewrite words_lines.
  2:{ apply Forall_forall. intros [x y] IN. apply in_map_iff in IN. destruct IN as ([x' y'] & E & IN). inversion E; subst. cbn [fst snd]. rewrite Forall_forall in HL, LS.
      specialize (HL _ IN). specialize (LS _ IN). destruct HL as [HL1 HL2]. cbn [fst snd] in *. split; [exact LS|]. split; [apply no_blank_ws; exact HL2|exact HL1]. }
  rewrite map_map. cbn [fst].
  assert (W1 : words (no_blank f ++ no_blank b1) [] = [no_blank f]).
  { pose proof (frame_ws f Hf) as F. destruct (no_blank b1) as [|c b] eqn:E.
    - rewrite app_nil_r. rewrite <- (app_nil_r (no_blank f)) at 1. rewrite words_cur by exact F. cbn [app words]. destruct Hf as [Hf _]. destruct (no_blank f); [congruence|reflexivity].
    - rewrite <- E. replace (no_blank b1) with (no_blank b1 ++ []) by apply app_nil_r. rewrite words_line; [|exact F|apply no_blank_ws; exact H1|congruence].
      cbn [words]. rewrite app_nil_r. destruct Hf as [Hf _]. destruct (no_blank f); [congruence|reflexivity]. }
  rewrite W1. destruct Hh as [Hh _]. destruct (no_blank h) as [|c0 h0] eqn:EH; [congruence|]. cbn [nonempty app tl].
  rewrite removelast_last, concat_nonempty. change (map (fun x : list Z * list Z => fst x) ls) with (map fst ls). rewrite C. unfold a2b_text, ascii_encode.
  assert (A : ascii (b64encode der) = true).
  { rewrite std_enc by exact B. unfold ascii. rewrite forallb_app. pose proof (std_ascii _ (enc_std_chars der B)) as E. unfold ascii in E. rewrite E. cbn [andb]. apply forallb_forall. intros c IC. apply repeat_spec in IC. subst c. reflexivity. }
  rewrite A. rewrite a2b_std by exact B. reflexivity.
Qed.

(** ** load_x509_cert *)
Lemma x509_cases : forall P imp url seen, let '(l, seen') := load_x509_cert P imp url seen in
  (l = [] /\ seen' = seen) \/
  (exists cert k, p_fetch P url = Ok cert /\ l = [(lit "rsa", k)] /\ dget seen' cert = Some k /\
     (dget seen cert = Some k /\ seen' = seen \/ dget seen cert = None /\ imp cert = Ok k /\ seen' = dset seen cert k)).
Proof.
  intros P imp url seen. unfold load_x509_cert. destruct (p_fetch P url) as [cert|]; [|left; split; reflexivity].
  destruct (dget seen cert) as [k|] eqn:G; [right; exists cert, k; repeat split; try assumption; left; split; [assumption|reflexivity]|].
  destruct (imp cert) as [k|] eqn:I; [|left; split; reflexivity]. right. exists cert, k. repeat split; [apply dget_dset_same|]. right. repeat split; assumption.
Qed.

(** ** keysize *)
Lemma digit_ws : forall c, is_digit c = true -> ws c = false.
Proof. intros c H. unfold is_digit in H. unfold ws. lia. Qed.
Lemma drop_ws_digit : forall s, Forall (fun c => is_digit c = true) s -> drop_ws s = s.
Proof. intros s H. destruct H as [|c s H _]; [reflexivity|]. cbn [drop_ws]. rewrite digit_ws by exact H. reflexivity. Qed.
Lemma int_digits_ok : forall s acc, Forall (fun c => is_digit c = true) s -> int_digits s acc = Ok (fold_left (fun a c => 10 * a + (c - 48)) s acc).
Proof. intros s acc H. revert acc. induction H as [|c s H1 H2 IH]; intro acc; [reflexivity|]. cbn [int_digits fold_left]. rewrite H1. apply IH. Qed.
Lemma py_int_digits : forall s, Forall (fun c => is_digit c = true) s -> s <> [] -> py_int s = Ok (fold_left (fun a c => 10 * a + (c - 48)) s 0).
Proof.
  intros s H NE. unfold py_int. rewrite (drop_ws_digit s H), (drop_ws_digit (rev s)), rev_involutive by (apply Forall_rev; exact H).
  destruct H as [|c s H1 H2]; [congruence|]. assert (D : (c = 45 -> False) /\ (c = 43 -> False)) by (unfold is_digit in H1; split; intros ->; discriminate).
  assert (M : (match c :: s with 45 :: r => (true, r) | 43 :: r => (false, r) | _ => (false, c :: s) end) = (false, c :: s)).
  { destruct D as [D1 D2]. destruct c as [|p|p]; try reflexivity. do 6 (destruct p as [p|p|]; try reflexivity); exfalso; (apply D1; reflexivity) || (apply D2; reflexivity). }
  rewrite M, H1, int_digits_ok by exact H2. cbn [bind fold_left]. reflexivity.
Qed.
Lemma keysize_hs : forall ds, Forall (fun c => is_digit c = true) ds -> ds <> [] -> keysize (lit "HS" ++ ds) = Ok (fold_left (fun a c => 10 * a + (c - 48)) ds 0) /\ keysize (lit "CS" ++ ds) = Ok (fold_left (fun a c => 10 * a + (c - 48)) ds 0).
Proof.
  intros ds H NE. rewrite <- (py_int_digits ds H NE). destruct ds as [|c ds]; [congruence|]. split; reflexivity.
Qed.
Lemma keysize_a : forall a b c rest, is_digit a = true -> is_digit b = true -> is_digit c = true -> keysize (lit "A" ++ a :: b :: c :: rest) = Ok (100 * (a - 48) + 10 * (b - 48) + (c - 48)).
Proof.
  intros a b c rest A B C. unfold keysize. change (startswith (lit "A" ++ a :: b :: c :: rest) (lit "HS")) with false. change (startswith (lit "A" ++ a :: b :: c :: rest) (lit "CS")) with false. change (startswith (lit "A" ++ a :: b :: c :: rest) (lit "A")) with true. cbv iota.
  change (firstn 3 (skipn 1 (lit "A" ++ a :: b :: c :: rest))) with [a; b; c].
  rewrite py_int_digits by (repeat constructor; assumption || discriminate). cbn [fold_left]. f_equal. lia.
Qed.

(** ** JWx *)
Lemma jwx_set_get : forall s n v m, (n = lit "jwk" \/ exists x, v = JVal x) -> jwx_get (jwx_setitem s n v) m = if zs_eqb n m then Some v else jwx_get s m.
Proof.
  intros s n v m H. unfold jwx_setitem, jwx_get. destruct (zs_eqb n (lit "jwk")) eqn:E.
  - apply zs_eqb_eq in E. subst n. cbn [s_jwk s_dict]. destruct (zs_eqb m (lit "jwk")) eqn:M.
    + apply zs_eqb_eq in M. subst m. rewrite zs_eqb_refl. reflexivity.
    + destruct (zs_eqb (lit "jwk") m) eqn:X; [|reflexivity]. apply zs_eqb_eq in X. subst m. rewrite zs_eqb_refl in M. discriminate.
  - destruct H as [->|[x ->]]; [rewrite zs_eqb_refl in E; discriminate|]. cbn [s_jwk s_dict]. rewrite dget_dset. destruct (zs_eqb m (lit "jwk")) eqn:M.
    + apply zs_eqb_eq in M. subst m. rewrite E. reflexivity.
    + destruct (zs_eqb n m); reflexivity.
Qed.
Lemma dget_flat : forall (f : ustr -> option jwkval) names n, dget (flat_map (fun m => match f m with Some v => [(m, v)] | None => [] end) names) n = if in_names n names then f n else None.
Proof.
  intros f names n. induction names as [|m names IH]; [reflexivity|]. cbn [flat_map in_names existsb]. fold (in_names n names).
  destruct (zs_eqb n m) eqn:E.
  - apply zs_eqb_eq in E. subst m. cbn [orb]. destruct (f n) as [v|] eqn:F; cbn [app dget]; [rewrite zs_eqb_refl; reflexivity|]. rewrite IH. destruct (in_names n names); reflexivity.
  - cbn [orb]. assert (E' : zs_eqb m n = false) by (apply zs_eqb_neq; apply zs_eqb_neq in E; congruence). destruct (f m) as [v|]; cbn [app dget]; [rewrite E'|]; exact IH.
Qed.
Lemma dump_header_get : forall s n, dget (dump_header s) n = if in_names n jwx_args then jwx_get s n else None.
Proof. intros. apply dget_flat. Qed.

Definition merged (s : jws) (extra : dict) (n : ustr) : option pval :=
  match dget extra n with Some v => Some v | None => match dget (s_dict s) n with Some v => if truthy v then Some v else None | None => None end end.
Lemma jwx_loop_get : forall s extra jser names n, dget (jwx_loop s extra jser names) n =
  if in_names n names then if zs_eqb n (lit "jwk") then jser else merged s extra n else None.
Proof.
  intros s extra jser names n. induction names as [|m names IH]; [reflexivity|]. cbn [jwx_loop in_names existsb]. fold (in_names n names). cbv zeta.
  destruct (zs_eqb n m) eqn:E.
  - apply zs_eqb_eq in E. subst m. cbn [orb]. destruct (zs_eqb n (lit "jwk")) eqn:J.
    + destruct jser as [v|]; [cbn [dget]; rewrite zs_eqb_refl; reflexivity|]. rewrite IH. destruct (in_names n names); reflexivity.
    + unfold merged in *. destruct (dget extra n) as [v|]; [cbn [dget]; rewrite zs_eqb_refl; reflexivity|]. destruct (dget (s_dict s) n) as [v|]; [|rewrite IH; destruct (in_names n names); reflexivity].
      destruct (truthy v); [cbn [dget]; rewrite zs_eqb_refl; reflexivity|]. rewrite IH. destruct (in_names n names); reflexivity.
  - cbn [orb]. assert (E' : zs_eqb m n = false) by (apply zs_eqb_neq; apply zs_eqb_neq in E; congruence).
    destruct (zs_eqb m (lit "jwk")); [destruct jser; cbn [dget]; [rewrite E'|]; exact IH|].
    destruct (dget extra m); [cbn [dget]; rewrite E'; exact IH|]. destruct (dget (s_dict s) m) as [v|]; [|exact IH]. destruct (truthy v); [cbn [dget]; rewrite E'|]; exact IH.
Qed.
Lemma ok_inj : forall A (a b : A), Ok a = Ok b -> a = b.
Proof. intros A a b H. congruence. Qed.
Lemma jwx_headers_ok : forall s extra ejwk h, jwx_headers s extra ejwk = Ok h ->
  (forall n, n <> lit "jwk" -> dget h n = if in_names n jwx_args then merged s extra n else None) /\
  match s_jwk s, ejwk with
  | Some (JKey k), _ | None, Some (JKey k) => exists v, serialize k false = Ok v /\ dget h (lit "jwk") = Some v
  | None, None => dget h (lit "jwk") = None
  | _, _ => False
  end /\ (forall v, dget (s_dict s) (lit "kid") = Some v -> exists t, v = VStr t).
Proof.
  intros s extra ejwk h H. unfold jwx_headers in H.
  assert (G : forall j, match dget (s_dict s) (lit "kid") with Some (VStr _) | None => Ok (jwx_loop s extra j jwx_args) | Some _ => Raise EHeaderError end = Ok h ->
    (forall n, n <> lit "jwk" -> dget h n = if in_names n jwx_args then merged s extra n else None) /\ dget h (lit "jwk") = j /\ (forall v, dget (s_dict s) (lit "kid") = Some v -> exists t, v = VStr t)).
  { intros j HJ. assert (HH : h = jwx_loop s extra j jwx_args /\ (forall v, dget (s_dict s) (lit "kid") = Some v -> exists t, v = VStr t)).
    { destruct (dget (s_dict s) (lit "kid")) as [w|]; [destruct w; try discriminate HJ|]; apply ok_inj in HJ; (split; [symmetry; exact HJ|]); intros v Hv; [injection Hv as <-; eexists; reflexivity|discriminate Hv]. }
    destruct HH as [-> K]. split; [|split; [|exact K]].
    - intros n N. rewrite jwx_loop_get. apply zs_eqb_neq in N. rewrite N. reflexivity.
    - rewrite jwx_loop_get. reflexivity. }
  destruct (s_jwk s) as [[k|v]|].
  - destruct (serialize k false) as [w|] eqn:S; [|discriminate H]. cbn [bind] in H. destruct (G (Some w) H) as (A & B & C). split; [exact A|]. split; [exists w; split; [reflexivity|exact B]|exact C].
  - discriminate H.
  - destruct ejwk as [[k|v]|].
    + destruct (serialize k false) as [w|] eqn:S; [|discriminate H]. cbn [bind] in H. destruct (G (Some w) H) as (A & B & C). split; [exact A|]. split; [exists w; split; [reflexivity|exact B]|exact C].
    + discriminate H.
    + cbn [bind] in H. destruct (G None H) as (A & B & C). split; [exact A|]. split; [exact B|exact C].
Qed.

(** ** _decode *)
Lemma decode_plain : forall s m, bytes_ok m = true -> dget (s_dict s) (lit "cty") <> Some (VStr (lit "JWT")) -> jwx_decode s (VBytes (b64e m)) = Ok (VBytes m).
Proof.
  intros s m B N. unfold jwx_decode. cbn [py_bytes bind]. rewrite b64d_b64e by exact B. cbn [bind]. destruct (dget (s_dict s) (lit "cty")) as [c|]; [|reflexivity].
  destruct (pval_eqb c (VStr (lit "JWT"))) eqn:E; [|reflexivity]. exfalso. apply N. f_equal. destruct c; try discriminate E. cbn [pval_eqb] in E. apply zs_eqb_eq in E. subst. reflexivity.
Qed.
Lemma decode_jwt : forall s m, bytes_ok m = true -> dget (s_dict s) (lit "cty") = Some (VStr (lit "JWT")) -> jwx_decode s (VBytes (b64e m)) = loads_any (VBytes m).
Proof. intros s m B N. unfold jwx_decode. cbn [py_bytes bind]. rewrite b64d_b64e by exact B. cbn [bind]. rewrite N. reflexivity. Qed.
