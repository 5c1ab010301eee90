(** * Certificates: what der2rsa reads *)
From Coq Require Import ZArith List Bool Lia.
From Verif Require Import Base BaseProofs Utf8 Codec Prims Der Jwk JwkProofs JwkProofs2.
Import ListNotations.
Open Scope Z_scope.

(** X.690, 8.1.3 and 10.1: a value of [n] octets in definite form with the fewest length octets *)
Inductive tlv (t : Z) (v : bytes) : bytes -> Prop :=
| tlv_short : Z.of_nat (length v) < 128 -> tlv t v (t :: Z.of_nat (length v) :: v)
| tlv_long : forall k, (1 <= k <= 127)%nat -> 128 <= Z.of_nat (length v) -> 256 ^ Z.of_nat (k - 1) <= Z.of_nat (length v) < 256 ^ Z.of_nat k ->
    tlv t v (t :: (128 + Z.of_nat k) :: z2be k (Z.of_nat (length v)) ++ v).
(** the members of a sequence: tag, value, encoding *)
Inductive tlvs : list (Z * bytes * bytes) -> bytes -> Prop :=
| tlvs_nil : tlvs [] []
| tlvs_cons : forall t v e l s, tlv t v e -> tlvs l s -> tlvs ((t, v, e) :: l) (e ++ s).

Lemma z2be_head : forall k n, (1 <= k)%nat -> 256 ^ Z.of_nat (k - 1) <= n < 256 ^ Z.of_nat k -> exists b r, z2be k n = b :: r /\ b <> 0.
Proof.
  intros k n K B. destruct k as [|k]; [lia|]. rewrite z2be_app_high. cbn [app]. eexists. eexists. split; [reflexivity|].
  replace (S k - 1)%nat with k in B by lia. replace (Z.of_nat (S k)) with (Z.of_nat k + 1) in B by lia. rewrite Z.pow_add_r in B by lia.
  change (256 ^ 1) with 256 in B. assert (Q : 0 < 256 ^ Z.of_nat k) by (apply Z.pow_pos_nonneg; lia).
  assert (D1 : 1 <= n / 256 ^ Z.of_nat k) by (apply Z.div_le_lower_bound; lia).
  assert (D2 : n / 256 ^ Z.of_nat k < 256) by (apply Z.div_lt_upper_bound; lia).
  rewrite Z.mod_small by lia. lia.
Qed.

Lemma firstn_app_exact : forall A (a b : list A), firstn (length a) (a ++ b) = a.
Proof. intros A a b. rewrite firstn_app, Nat.sub_diag, firstn_all. cbn [firstn]. apply app_nil_r. Qed.
Lemma skipn_app_exact : forall A (a b : list A), skipn (length a) (a ++ b) = b.
Proof. intros A a b. rewrite skipn_app, Nat.sub_diag, skipn_all. reflexivity. Qed.

Lemma der_item_tlv : forall t v e r, tlv t v e -> der_item (e ++ r) = Ok (t, v, r).
Proof.
  intros t v e r H. inversion H as [L|k K L B]; subst e; clear H.
  - cbn [app der_item]. unfold der_len. rewrite (proj2 (Z.leb_le _ 127)) by lia. cbn [bind].
    rewrite (proj2 (Z.ltb_ge _ _)) by (rewrite app_length; lia). rewrite Nat2Z.id, firstn_app_exact, skipn_app_exact. reflexivity.
  - cbn [app der_item]. unfold der_len. rewrite (proj2 (Z.leb_gt _ 127)) by lia. replace (Z.to_nat (128 + Z.of_nat k - 128)) with k by lia.
    unfold der_read. rewrite <- app_assoc. rewrite (proj2 (Nat.ltb_ge _ _)) by (rewrite app_length, z2be_length; lia). cbn [bind].
    rewrite firstn_app, skipn_app, z2be_length, Nat.sub_diag. cbn [firstn skipn]. rewrite app_nil_r.
    rewrite firstn_all2, skipn_all2 by (rewrite z2be_length; lia). cbn [app].
    destruct (z2be_head k _ (proj1 K) B) as [b [q [E NZ]]]. rewrite E. cbv iota. rewrite <- E. rewrite (proj2 (Z.eqb_neq b 0) NZ).
    rewrite be2z_z2be by lia. rewrite (proj2 (Z.leb_gt _ 127)) by lia. cbn [bind].
    rewrite (proj2 (Z.ltb_ge _ _)) by (rewrite app_length; lia). rewrite Nat2Z.id, firstn_app_exact, skipn_app_exact. reflexivity.
Qed.

Lemma der_item_inv : forall s t v r, bytes_ok s = true -> der_item s = Ok (t, v, r) -> exists e, s = e ++ r /\ tlv t v e.
Proof.
  intros s t v r O H. unfold der_item in H. destruct s as [|t' s]; [discriminate|]. cbn [bytes_ok forallb] in O. apply andb_true_iff in O as [_ O].
  destruct (der_len s) as [[n r1]|] eqn:L; cbn [bind] in H; [|discriminate]. destruct (Z.of_nat (length r1) <? n) eqn:LT; [discriminate|].
  apply Z.ltb_ge in LT. injection H as <- <- <-. unfold der_len in L. destruct s as [|l s]; [discriminate|]. apply andb_true_iff in O as [Ol O].
  unfold is_byte in Ol. apply andb_true_iff in Ol as [Ol1 Ol2]. apply Z.leb_le in Ol1. apply Z.ltb_lt in Ol2.
  destruct (l <=? 127) eqn:S1.
  - apply Z.leb_le in S1. injection L as <- <-. assert (F : length (firstn (Z.to_nat l) s) = Z.to_nat l) by (rewrite firstn_length; lia).
    exists (t' :: l :: firstn (Z.to_nat l) s). split; [cbn [app]; rewrite firstn_skipn; reflexivity|].
    pose proof (tlv_short t' (firstn (Z.to_nat l) s)) as W. rewrite F, Z2Nat.id in W by lia. apply W. lia.
  - apply Z.leb_gt in S1. unfold der_read in L. destruct (length s <? Z.to_nat (l - 128))%nat eqn:S2; cbn [bind] in L; [discriminate|]. apply Nat.ltb_ge in S2.
    set (k := Z.to_nat (l - 128)) in *. destruct (firstn k s) as [|b q] eqn:E; [discriminate|]. destruct (b =? 0) eqn:B0; [discriminate|]. apply Z.eqb_neq in B0.
    destruct (be2z (b :: q) <=? 127) eqn:S3; [discriminate|]. apply Z.leb_gt in S3. injection L as <- <-.
    assert (Lk : length (b :: q) = k) by (rewrite <- E, firstn_length; lia).
    assert (Ob : bytes_ok (b :: q) = true) by (rewrite <- E; apply bytes_ok_firstn; exact O).
    set (n := be2z (b :: q)) in *. assert (F : length (firstn (Z.to_nat n) (skipn k s)) = Z.to_nat n) by (rewrite firstn_length; lia).
    exists (t' :: l :: (b :: q) ++ firstn (Z.to_nat n) (skipn k s)). split.
    + change (t' :: l :: s = t' :: l :: ((b :: q) ++ firstn (Z.to_nat n) (skipn k s)) ++ skipn (Z.to_nat n) (skipn k s)). rewrite <- app_assoc, firstn_skipn, <- E, firstn_skipn. reflexivity.
    + assert (En : Z.of_nat (length (firstn (Z.to_nat n) (skipn k s))) = n) by lia.
      assert (K1 : (1 <= k)%nat) by (rewrite <- Lk; cbn [length]; lia).
      replace l with (128 + Z.of_nat k) by lia. rewrite <- (z2be_be2z _ Ob), Lk. fold n. pose proof (tlv_long t' (firstn (Z.to_nat n) (skipn k s)) k) as W. rewrite En in W. apply W; [lia|lia|]. split.
      * unfold n. rewrite be2z_cons. cbn [length] in Lk. replace (k - 1)%nat with (length q) by lia.
        cbn [bytes_ok forallb] in Ob. apply andb_true_iff in Ob as [Ob1 Ob2]. apply andb_true_iff in Ob1 as [Ob1 _]. apply Z.leb_le in Ob1.
        pose proof (be2z_bound q Ob2). assert (0 < 256 ^ Z.of_nat (length q)) by (apply Z.pow_pos_nonneg; lia). nia.
      * unfold n. rewrite <- Lk. apply be2z_bound. exact Ob.
Qed.

Definition member_of (m : Z * bytes * bytes) : member := let '(t, v, e) := m in if t =? 2 then MInt (der_int v) else MRaw e.

Lemma tlv_len : forall t v e, tlv t v e -> (length v + 2 <= length e)%nat.
Proof. intros t v e H. inversion H; subst; cbn [length]; rewrite ?app_length; lia. Qed.

Lemma members_tlvs : forall l s, tlvs l s -> forall fuel, (length s <= fuel)%nat -> der_members fuel s = Ok (map member_of l).
Proof.
  induction 1 as [|t v e l s H _ IH]; intros fuel F; [destruct fuel; reflexivity|]. pose proof (tlv_len _ _ _ H). rewrite app_length in F.
  destruct fuel as [|f]; [lia|]. cbn [der_members]. destruct (e ++ s) as [|x y] eqn:E; [destruct e; [cbn in *; lia|discriminate]|]. rewrite <- E. clear x y E.
  rewrite (der_item_tlv _ _ _ _ H). cbn [bind]. rewrite IH by lia. cbn [bind map member_of]. rewrite app_length. replace (length e + length s - length s)%nat with (length e) by lia.
  rewrite firstn_app_exact. reflexivity.
Qed.

Lemma members_inv : forall fuel s l, bytes_ok s = true -> der_members fuel s = Ok l -> exists ms, tlvs ms s /\ l = map member_of ms.
Proof.
  induction fuel as [|f IH]; intros s l O H; destruct s as [|x s0]; cbn [der_members] in H; try discriminate; try (injection H as <-; exists []; split; [constructor|reflexivity]).
  set (s := x :: s0) in *. clearbody s. destruct (der_item s) as [[[t v] r]|] eqn:I; cbn [bind] in H; [|discriminate]. destruct (der_item_inv _ _ _ _ O I) as [e [E T]].
  destruct (der_members f r) as [l'|] eqn:M; cbn [bind] in H; [|discriminate]. injection H as <-.
  assert (Or : bytes_ok r = true) by (rewrite E in O; unfold bytes_ok in O; rewrite forallb_app in O; apply andb_true_iff in O; tauto).
  destruct (IH _ _ Or M) as [ms [M1 M2]]. exists ((t, v, e) :: ms). split; [rewrite E; constructor; assumption|]. cbn [map member_of]. rewrite M2. rewrite E at 1 2. rewrite app_length.
  replace (length e + length r - length r)%nat with (length e) by lia. rewrite firstn_app_exact. reflexivity.
Qed.

(** A sequence is read as the list of its members, and nothing but a sequence is read. *)
Lemma der_seq_tlv : forall l v e, tlvs l v -> tlv 48 v e -> der_seq e = Ok (map member_of l).
Proof.
  intros l v e L H. unfold der_seq. pose proof (der_item_tlv _ _ _ [] H) as I. rewrite app_nil_r in I.
  destruct e as [|t e]; [inversion H|]. assert (t = 48) by (inversion H; reflexivity). subst t. change (negb (48 =? 48)) with false. cbv iota. rewrite I. cbn [bind].
  rewrite (members_tlvs _ _ L) by lia. reflexivity.
Qed.
Lemma der_seq_inv : forall s l, bytes_ok s = true -> der_seq s = Ok l -> exists ms v, tlvs ms v /\ tlv 48 v s /\ l = map member_of ms.
Proof.
  intros s l O H. unfold der_seq in H. destruct s as [|t s]; [discriminate|]. destruct (t =? 48) eqn:T; cbn [negb] in H; [|discriminate]. apply Z.eqb_eq in T. subst t.
  destruct (der_item (48 :: s)) as [[[t v] r]|] eqn:I; cbn [bind] in H; [|discriminate]. destruct (der_item_inv _ _ _ _ O I) as [e [E T]].
  destruct (der_members (length v) v) as [l'|] eqn:M; cbn [bind] in H; [|discriminate]. destruct r; [|discriminate]. injection H as <-.
  assert (t = 48) by (rewrite app_nil_r in E; rewrite <- E in T; inversion T; reflexivity). subst t. rewrite app_nil_r in E. rewrite <- E in T.
  assert (Ov : bytes_ok v = true).
  { inversion T as [X EE|k K X B EE]; rewrite <- EE in O; unfold bytes_ok in *; cbn [forallb] in O; rewrite ?forallb_app in O; repeat (apply andb_true_iff in O as [? O]); exact O. }
  destruct (members_inv _ _ _ Ov M) as [ms [M1 M2]]. exists ms, v. repeat split; assumption.
Qed.

(** RFC 5280, 4.1: a certificate of version 2 or 3 *)
Definition certificate (tbs_members : list (Z * bytes * bytes)) (tbs cert : bytes) : Prop :=
  exists tb rest body, tlvs tbs_members tb /\ tlv 48 tb tbs /\ tlvs ((48, tb, tbs) :: rest) body /\ tlv 48 body cert.

Theorem der2rsa_v3 : forall imp version serial alg issuer validity subject spki more tbs cert,
  certificate ((160, fst version, snd version) :: (2, fst serial, snd serial) :: (48, fst alg, snd alg) :: (48, fst issuer, snd issuer) ::
    (48, fst validity, snd validity) :: (48, fst subject, snd subject) :: (48, fst spki, snd spki) :: more) tbs cert ->
  der2rsa imp cert = imp (MRaw (snd spki)).
Proof.
  intros imp version serial alg issuer validity subject spki more tbs cert [tb [rest [body [T1 [T2 [T3 T4]]]]]]. unfold der2rsa.
  rewrite (der_seq_tlv _ _ _ T3 T4). cbn [bind map member_of]. change (48 =? 2) with false. cbv iota. rewrite (der_seq_tlv _ _ _ T1 T2). reflexivity.
Qed.

(** Without the version field, as in every certificate of version 1, the key is one place further to the front. *)
Theorem der2rsa_v1 : forall imp serial alg issuer validity subject spki tbs cert,
  certificate [(2, fst serial, snd serial); (48, fst alg, snd alg); (48, fst issuer, snd issuer); (48, fst validity, snd validity); (48, fst subject, snd subject); (48, fst spki, snd spki)] tbs cert ->
  der2rsa imp cert = Raise EIndexError.
Proof.
  intros imp serial alg issuer validity subject spki tbs cert [tb [rest [body [T1 [T2 [T3 T4]]]]]]. unfold der2rsa.
  rewrite (der_seq_tlv _ _ _ T3 T4). cbn [bind map member_of]. change (48 =? 2) with false. cbv iota. rewrite (der_seq_tlv _ _ _ T1 T2). reflexivity.
Qed.

(** What is accepted *)
Theorem der2rsa_inv : forall imp cert k, bytes_ok cert = true -> der2rsa imp cert = Ok k ->
  exists ms tbs m, certificate ms tbs cert /\ nth_error ms 6 = Some m /\ imp (member_of m) = Ok k.
Proof.
  intros imp cert k O H. unfold der2rsa in H. destruct (der_seq cert) as [l|] eqn:E; cbn [bind] in H; [|discriminate].
  destruct (der_seq_inv _ _ O E) as [ms [v [M1 [M2 M3]]]]. subst l. destruct ms as [|[[t1 v1] e1] ms]; [discriminate|]. cbn [map] in H.
  destruct (member_of (t1, v1, e1)) as [z|b] eqn:Mb; [discriminate|]. unfold member_of in Mb. destruct (t1 =? 2) eqn:T2; [discriminate|]. injection Mb as <-.
  destruct (der_seq e1) as [l|] eqn:E1; cbn [bind] in H; [|discriminate].
  assert (O1 : bytes_ok e1 = true).
  { inversion M1; subst. assert (Ov : bytes_ok (e1 ++ s) = true).
    { inversion M2 as [X EE|kk K X B EE]; rewrite <- EE in O; unfold bytes_ok in *; cbn [forallb] in O; rewrite ?forallb_app in O; repeat (apply andb_true_iff in O as [? O]); rewrite forallb_app; try (apply andb_true_iff; split); assumption. }
    unfold bytes_ok in *. rewrite forallb_app in Ov. apply andb_true_iff in Ov. tauto. }
  destruct (der_seq_inv _ _ O1 E1) as [ms' [v' [N1 [N2 N3]]]]. subst l. destruct (nth_error (map member_of ms') 6) as [m|] eqn:Nth; [|discriminate].
  rewrite nth_error_map in Nth. destruct (nth_error ms' 6) as [m'|] eqn:Nth'; [|discriminate]. injection Nth as <-.
  exists ms', e1, m'. split; [|split; [exact Nth'|exact H]].
  exists v', ms, v. split; [exact N1|]. split; [exact N2|]. split; [|exact M2].
  inversion M1; subst. assert (t1 = 48 /\ v1 = v').
  { pose proof (der_item_tlv _ _ _ [] N2) as A. match goal with H : tlv t1 v1 e1 |- _ => pose proof (der_item_tlv _ _ _ [] H) as B end. rewrite A in B. injection B as <- <-. split; reflexivity. }
  destruct H0 as [-> ->]. exact M1.
Qed.

(** An RSA JWK that is given by a certificate chain has the key of the first certificate. *)
Theorem x5c_key : forall P imp kw s rest cert r version serial alg issuer validity subject spki more tbs, (forall d, p_der2rsa P d = der2rsa imp d) ->
  dmem kw (lit "self") = false -> dget kw (lit "n") = None -> dget kw (lit "x5t") = None -> dget kw (lit "x5c") = Some (VList (VStr s :: rest)) -> ascii s = true -> a2b s 0 0 0 = Ok cert ->
  certificate ((160, fst version, snd version) :: (2, fst serial, snd serial) :: (48, fst alg, snd alg) :: (48, fst issuer, snd issuer) ::
    (48, fst validity, snd validity) :: (48, fst subject, snd subject) :: (48, fst spki, snd spki) :: more) tbs cert ->
  imp (MRaw (snd spki)) = Ok r ->
  exists k nums, rsa_new P kw onone = Ok k /\ k_data k = DRsa (ORsa r) nums /\ num nums (lit "n") = VInt (r_n r) /\ num nums (lit "e") = VInt (r_e r).
Proof.
  intros P imp kw s rest cert r version serial alg issuer validity subject spki more tbs HP Hs Hn Ht Hc A B C I. unfold rsa_new.
  set (nums := map (fun name => (name, kwarg kw name (VStr []))) rsa_longs). destruct (key_init kw (lit "RSA") rsa_longs (DRsa onone nums)) as [k0|] eqn:K.
  2: { unfold key_init in K. rewrite Hs in K. discriminate K. }
  cbn [bind]. apply key_init_x5 in K. destruct K as [X1 [X2 X3]]. unfold kwarg in X1, X2. rewrite Hc in X1. rewrite Ht in X2. cbn [truthy] in X1. cbv zeta in X1.
  assert (En : num nums (lit "n") = VStr []) by (unfold nums; rewrite num_map by (left; reflexivity); unfold kwarg; rewrite Hn; reflexivity).
  rewrite En. cbn [py_len length bind]. change (0 <? 0)%nat with false. cbv iota. cbn [bind]. rewrite X1, X2. cbn [py_len length bind].
  change (negb (otruthy onone) && ((0 <? 0)%nat || (0 <? S (length rest))%nat)) with true. cbv iota.
  unfold rsa_deserialize. rewrite En. cbn [truthy andb first_cert]. unfold ascii_encode. rewrite A. cbn [bind]. rewrite B. cbn [bind].
  rewrite HP, (der2rsa_v3 _ _ _ _ _ _ _ _ _ _ _ C), I. cbn [bind]. destruct (rsa_split_num r nums) as [nums' [S1 [S2 S3]]]. rewrite S1. cbn [bind].
  eexists. exists nums'. split; [reflexivity|]. split; [reflexivity|]. split; assumption.
Qed.

(** C221 *)
Theorem der_int_range : forall b, bytes_ok b = true -> b <> [] ->
  - (256 ^ Z.of_nat (length b)) <= 2 * der_int b < 256 ^ Z.of_nat (length b) /\ (der_int b) mod 256 ^ Z.of_nat (length b) = be2z b.
Proof.
  intros b B N. destruct b as [|x b]; [congruence|]. pose proof (be2z_bound (x :: b) B) as R. unfold der_int. set (w := 256 ^ Z.of_nat (length (x :: b))) in *.
  assert (W : 0 < w) by (apply Z.pow_pos_nonneg; lia). change (bytes_ok (x :: b)) with (is_byte x && bytes_ok b) in B. apply andb_true_iff in B. destruct B as [B1 B2].
  pose proof (be2z_bound b B2) as R2. assert (E : w = 256 * 256 ^ Z.of_nat (length b)).
  { unfold w. cbn [length]. rewrite Nat2Z.inj_succ, Z.pow_succ_r by lia. reflexivity. }
  pose proof (be2z_cons x b) as C. set (u := 256 ^ Z.of_nat (length b)) in *. unfold is_byte in B1.
  destruct (x <? 128) eqn:X.
  - split; [|apply Z.mod_small; lia]. nia.
  - split; [nia|]. rewrite <- (Z.mod_small (be2z (x :: b)) w R) at 2. rewrite <- (Z_mod_plus_full (be2z (x :: b) - w) 1 w). f_equal. lia.
Qed.
