(** * Proofs about the encoding helpers. *)
From Coq Require Import ZArith List Bool Lia ZifyBool.
From Verif Require Import Base BaseProofs Utf8 Codec.
Import ListNotations.
Open Scope Z_scope.
Ltac Zify.zify_post_hook ::= Z.div_mod_to_equations.

Lemma list_ind3 : forall (A : Type) (P : list A -> Prop),
  P [] -> (forall a, P [a]) -> (forall a b, P [a; b]) -> (forall a b c r, P r -> P (a :: b :: c :: r)) -> forall l, P l.
Proof.
  intros A P H0 H1 H2 H3 l.
  assert (G : forall n l, (length l <= n)%nat -> P l).
  { induction n as [|n IH]; intros l0 L.
    - destruct l0; [exact H0|simpl in L; lia].
    - destruct l0 as [|a [|b [|c r]]]; auto. apply H3. apply IH. simpl in L. lia. }
  apply (G (length l)). apply le_n.
Qed.

Lemma list_ind4 : forall (A : Type) (P : list A -> Prop),
  P [] -> (forall a, P [a]) -> (forall a b, P [a; b]) -> (forall a b c, P [a; b; c]) ->
  (forall a b c d r, P r -> P (a :: b :: c :: d :: r)) -> forall l, P l.
Proof.
  intros A P H0 H1 H2 H3 H4 l.
  assert (G : forall n l, (length l <= n)%nat -> P l).
  { induction n as [|n IH]; intros l0 L.
    - destruct l0; [exact H0|simpl in L; lia].
    - destruct l0 as [|a [|b [|c [|d r]]]]; auto. apply H4. apply IH. simpl in L. lia. }
  apply (G (length l)). apply le_n.
Qed.

(** url-safe character of a sextet, and its inverse. *)
Definition url_chr (v : Z) : Z := tr_enc (b64_chr v).

Lemma sweep : forall (f : Z -> bool) (n : nat), forallb f (map Z.of_nat (seq 0 n)) = true ->
  forall v, 0 <= v < Z.of_nat n -> f v = true.
Proof.
  intros f n H v R. rewrite forallb_forall in H. apply H. apply in_map_iff. exists (Z.to_nat v). split; [lia|].
  apply in_seq. lia.
Qed.

Lemma url_chr_char : forall v, 0 <= v < 64 -> b64url_char (url_chr v) = true.
Proof. apply (sweep (fun v => b64url_char (url_chr v)) 64). vm_compute. reflexivity. Qed.

Lemma tr_dec_url_chr : forall v, 0 <= v < 64 -> tr_dec (url_chr v) = b64_chr v.
Proof.
  intros v H. apply Z.eqb_eq. revert v H. apply (sweep (fun v => tr_dec (url_chr v) =? b64_chr v) 64). vm_compute. reflexivity.
Qed.

Lemma b64_val_chr : forall v, 0 <= v < 64 -> b64_val (b64_chr v) = Some v.
Proof.
  intros v H.
  assert (E : match b64_val (b64_chr v) with Some u => u =? v | None => false end = true).
  { revert v H. apply (sweep (fun v => match b64_val (b64_chr v) with Some u => u =? v | None => false end) 64). vm_compute. reflexivity. }
  destruct (b64_val (b64_chr v)); [|discriminate]. apply Z.eqb_eq in E. congruence.
Qed.

Lemma b64_chr_not_pad : forall v, 0 <= v < 64 -> (b64_chr v =? 61) = false.
Proof.
  intros v H. apply negb_true_iff. revert v H. apply (sweep (fun v => negb (b64_chr v =? 61)) 64). vm_compute. reflexivity.
Qed.

(** The unpadded url-safe text, defined directly. *)
Fixpoint enc_nopad (s : bytes) : bytes :=
  match s with
  | [] => []
  | [a] => [url_chr (a / 4); url_chr ((a mod 4) * 16)]
  | [a; b] => [url_chr (a / 4); url_chr ((a mod 4) * 16 + b / 16); url_chr ((b mod 16) * 4)]
  | a :: b :: c :: r =>
      url_chr (a / 4) :: url_chr ((a mod 4) * 16 + b / 16) :: url_chr ((b mod 16) * 4 + c / 64) :: url_chr (c mod 64)
      :: enc_nopad r
  end.

Definition npad (s : bytes) : nat := match (length s mod 3)%nat with 1%nat => 2 | 2%nat => 1 | _ => 0 end.

Lemma urlsafe_enc_nopad : forall s, urlsafe_b64encode s = enc_nopad s ++ repeat 61 (npad s).
Proof.
  unfold urlsafe_b64encode. induction s as [|a|a b|a b c r IH] using list_ind3; try reflexivity.
  cbn [b64encode enc_nopad map app]. f_equal. f_equal. f_equal. f_equal. rewrite IH. f_equal. f_equal.
  unfold npad. change (length (a :: b :: c :: r)) with (3 + length r)%nat.
  replace ((3 + length r) mod 3)%nat with (length r mod 3)%nat; [reflexivity|].
  replace (3 + length r)%nat with (length r + 1 * 3)%nat by lia. rewrite Nat.mod_add by lia. reflexivity.
Qed.

Lemma bytes3 : forall a r, bytes_ok (a :: r) = true -> 0 <= a < 256 /\ bytes_ok r = true.
Proof. intros a r H. rewrite bytes_ok_cons in H. apply andb_true_iff in H. destruct H. split; [apply is_byte_spec|]; assumption. Qed.

Lemma enc_nopad_chars : forall s, bytes_ok s = true -> forallb b64url_char (enc_nopad s) = true.
Proof.
  induction s as [|a|a b|a b c r IH] using list_ind3; intro H; [reflexivity| | |].
  - apply bytes3 in H. destruct H as [Ha _]. cbn [enc_nopad forallb]. rewrite !url_chr_char by lia. reflexivity.
  - apply bytes3 in H. destruct H as [Ha H]. apply bytes3 in H. destruct H as [Hb _].
    cbn [enc_nopad forallb]. rewrite !url_chr_char by lia. reflexivity.
  - apply bytes3 in H. destruct H as [Ha H]. apply bytes3 in H. destruct H as [Hb H]. apply bytes3 in H. destruct H as [Hc H].
    cbn [enc_nopad forallb]. rewrite !url_chr_char by lia. rewrite IH by exact H. reflexivity.
Qed.

Lemma b64url_no_pad : forall s, forallb b64url_char s = true -> ~ In 61 s.
Proof. intros s H I. rewrite forallb_forall in H. apply H in I. vm_compute in I. discriminate. Qed.

Lemma b64e_enc_nopad : forall s, bytes_ok s = true -> b64e s = enc_nopad s.
Proof.
  intros s H. unfold b64e. rewrite urlsafe_enc_nopad, rstrip_app_repeat. apply rstrip_noop.
  apply b64url_no_pad. apply enc_nopad_chars. exact H.
Qed.

Lemma enc_nopad_length : forall s, Z.of_nat (length (enc_nopad s)) = (4 * Z.of_nat (length s) + 2) / 3.
Proof.
  induction s as [|a|a b|a b c r IH] using list_ind3; try reflexivity.
  cbn [enc_nopad length]. rewrite !Nat2Z.inj_succ, IH. lia.
Qed.

(** Decoding the translated text, with any continuation that cannot add output. *)
Lemma a2b_step4 : forall v0 v1 v2 v3 r, 0 <= v0 < 64 -> 0 <= v1 < 64 -> 0 <= v2 < 64 -> 0 <= v3 < 64 ->
  a2b (b64_chr v0 :: b64_chr v1 :: b64_chr v2 :: b64_chr v3 :: r) 0 0 0 =
  (t <- a2b r 0 0 0;; Ok (v0 * 4 + v1 / 16 :: (v1 mod 16) * 16 + v2 / 4 :: (v2 mod 4) * 64 + v3 :: t)).
Proof.
  intros v0 v1 v2 v3 r H0 H1 H2 H3.
  cbn [a2b]. rewrite !b64_chr_not_pad, !b64_val_chr by assumption.
  cbn [Z.eqb Pos.eqb]. destruct (a2b r 0 0 0); reflexivity.
Qed.

Lemma a2b_enc_nopad : forall s t, bytes_ok s = true ->
  (Z.of_nat (length s) mod 3 = 0 -> a2b t 0 0 0 = Ok []) ->
  (Z.of_nat (length s) mod 3 = 1 -> forall lc, a2b t 2 lc 0 = Ok []) ->
  (Z.of_nat (length s) mod 3 = 2 -> forall lc, a2b t 3 lc 0 = Ok []) ->
  a2b (map tr_dec (enc_nopad s) ++ t) 0 0 0 = Ok s.
Proof.
  induction s as [|a|a b|a b c r IH] using list_ind3; intros t H T0 T1 T2.
  - cbn [enc_nopad map app]. apply T0. reflexivity.
  - apply bytes3 in H. destruct H as [Ha _]. cbn [enc_nopad map app]. rewrite !tr_dec_url_chr by lia. cbn [a2b].
    rewrite !b64_chr_not_pad, !b64_val_chr by lia. cbn [Z.eqb Pos.eqb]. rewrite T1 by reflexivity. cbn [bind]. f_equal. f_equal. lia.
  - apply bytes3 in H. destruct H as [Ha H]. apply bytes3 in H. destruct H as [Hb _].
    cbn [enc_nopad map app]. rewrite !tr_dec_url_chr by lia. cbn [a2b].
    rewrite !b64_chr_not_pad, !b64_val_chr by lia. cbn [Z.eqb Pos.eqb]. rewrite T2 by reflexivity. cbn [bind]. f_equal. f_equal; [lia|]. f_equal. lia.
  - apply bytes3 in H. destruct H as [Ha H]. apply bytes3 in H. destruct H as [Hb H]. apply bytes3 in H. destruct H as [Hc H].
    cbn [enc_nopad map app]. rewrite !tr_dec_url_chr by lia. rewrite a2b_step4 by lia.
    cbn [length] in T0, T1, T2. rewrite !Nat2Z.inj_succ in T0, T1, T2.
    rewrite IH; [|exact H|intros E; apply T0; lia|intros E lc; apply T1; lia|intros E lc; apply T2; lia].
    cbn [bind]. f_equal. f_equal; [lia|]. f_equal; [lia|]. f_equal. lia.
Qed.

Lemma tr_dec_pad : map tr_dec [61] = [61] /\ map tr_dec [61; 61] = [61; 61].
Proof. split; reflexivity. Qed.

Lemma enc_nopad_len_mod : forall s, Z.of_nat (length (enc_nopad s)) mod 4 =
  match Z.of_nat (length s) mod 3 with 0 => 0 | 1 => 2 | _ => 3 end.
Proof.
  intro s. rewrite enc_nopad_length. remember (Z.of_nat (length s)) as L. assert (0 <= L) by lia.
  assert (M : L mod 3 = 0 \/ L mod 3 = 1 \/ L mod 3 = 2) by lia.
  destruct M as [M|[M|M]]; rewrite M; lia.
Qed.

(** *** C01 *)
Lemma b64d_b64e : forall b, bytes_ok b = true -> b64d (b64e b) = Ok b.
Proof.
  intros b H. rewrite b64e_enc_nopad by exact H. unfold b64d.
  pose proof (enc_nopad_chars b H) as C. rewrite rstrip_noop by (apply b64url_no_pad; exact C).
  unfold b64_re_match. rewrite C. cbn [orb negb]. rewrite zs_eqb_refl. unfold add_padding.
  rewrite enc_nopad_len_mod. unfold urlsafe_b64decode.
  assert (M : Z.of_nat (length b) mod 3 = 0 \/ Z.of_nat (length b) mod 3 = 1 \/ Z.of_nat (length b) mod 3 = 2) by lia.
  destruct M as [M|[M|M]]; rewrite M; cbn [bind].
  - rewrite <- (app_nil_r (map tr_dec (enc_nopad b))). apply a2b_enc_nopad; try assumption; try reflexivity; intro; exfalso; lia.
  - rewrite map_app. apply a2b_enc_nopad; try assumption; try reflexivity; intro; exfalso; lia.
  - rewrite map_app. apply a2b_enc_nopad; try assumption; try reflexivity; intro; exfalso; lia.
Qed.

(** *** C02 *)
Lemma b64e_alphabet : forall b c, bytes_ok b = true -> In c (b64e b) ->
  (65 <= c <= 90 \/ 97 <= c <= 122 \/ 48 <= c <= 57 \/ c = 45 \/ c = 95).
Proof.
  intros b c H I. rewrite b64e_enc_nopad in I by exact H. pose proof (enc_nopad_chars b H) as C.
  rewrite forallb_forall in C. apply C in I. unfold b64url_char in I. lia.
Qed.

Lemma b64e_length : forall b, bytes_ok b = true -> Z.of_nat (length (b64e b)) = (4 * Z.of_nat (length b) + 2) / 3.
Proof. intros b H. rewrite b64e_enc_nopad by exact H. apply enc_nopad_length. Qed.

Lemma b64e_chars : forall b, bytes_ok b = true -> forallb b64url_char (b64e b) = true.
Proof. intros b H. rewrite b64e_enc_nopad by exact H. apply enc_nopad_chars. exact H. Qed.

Lemma b64url_ascii : forall s, forallb b64url_char s = true -> ascii s = true.
Proof.
  intros s H. unfold ascii. rewrite forallb_forall in *. intros c I. apply H in I. unfold b64url_char in I. lia.
Qed.

Lemma b64e_ascii : forall b, bytes_ok b = true -> ascii (b64e b) = true.
Proof. intros. apply b64url_ascii. apply b64e_chars. assumption. Qed.

Lemma b64e_no_dot : forall b, bytes_ok b = true -> ~ In 46 (b64e b).
Proof. intros b H I. apply b64e_alphabet in I; [lia|exact H]. Qed.

Lemma b64e_inj : forall a b, bytes_ok a = true -> bytes_ok b = true -> b64e a = b64e b -> a = b.
Proof. intros a b Ha Hb E. apply b64d_b64e in Ha. apply b64d_b64e in Hb. rewrite E in Ha. congruence. Qed.

Lemma b64e_nil : forall b, bytes_ok b = true -> b64e b = [] -> b = [].
Proof. intros b H E. apply b64e_inj; [exact H|reflexivity|rewrite E; reflexivity]. Qed.

(** *** C03, C04: what b64d accepts *)
Lemma url_char_chr : forall c, b64url_char c = true -> exists v, 0 <= v < 64 /\ c = url_chr v.
Proof.
  intros c H. unfold b64url_char in H.
  exists (if (65 <=? c) && (c <=? 90) then c - 65 else if (97 <=? c) && (c <=? 122) then c - 71
          else if (48 <=? c) && (c <=? 57) then c + 4 else if c =? 45 then 62 else 63).
  unfold url_chr, b64_chr, tr_enc.
  destruct ((65 <=? c) && (c <=? 90)) eqn:E1; [|destruct ((97 <=? c) && (c <=? 122)) eqn:E2; [|destruct ((48 <=? c) && (c <=? 57)) eqn:E3; [|destruct (c =? 45) eqn:E4]]];
  (split; [lia|]).
  - replace (c - 65 <? 26) with true by lia. replace (65 + (c - 65)) with c by lia.
    replace (c =? 43) with false by lia. replace (c =? 47) with false by lia. reflexivity.
  - replace (c - 71 <? 26) with false by lia. replace (c - 71 <? 52) with true by lia. replace (71 + (c - 71)) with c by lia.
    replace (c =? 43) with false by lia. replace (c =? 47) with false by lia. reflexivity.
  - replace (c + 4 <? 26) with false by lia. replace (c + 4 <? 52) with false by lia. replace (c + 4 <? 62) with true by lia.
    replace (c + 4 - 4) with c by lia. replace (c =? 43) with false by lia. replace (c =? 47) with false by lia. reflexivity.
  - cbn. lia.
  - cbn. lia.
Qed.

(** Alphabet characters advance the decoder by their number modulo 4. *)
Lemma a2b_alpha : forall s t q lc, forallb b64url_char s = true -> 0 <= q < 4 ->
  exists pre lc', a2b (map tr_dec s ++ t) q lc 0 = (o <- a2b t ((q + Z.of_nat (length s)) mod 4) lc' 0;; Ok (pre ++ o)).
Proof.
  induction s as [|c s IH]; intros t q lc H Q.
  - exists [], lc. cbn [map app length]. replace ((q + Z.of_nat 0) mod 4) with q by lia. destruct (a2b t q lc 0); reflexivity.
  - cbn [forallb] in H. apply andb_true_iff in H. destruct H as [Hc Hs].
    destruct (url_char_chr c Hc) as [v [Hv Ev]]. subst c. cbn [map app a2b]. rewrite tr_dec_url_chr, b64_chr_not_pad, b64_val_chr by exact Hv.
    cbn [length]. rewrite Nat2Z.inj_succ.
    assert (Q4 : q = 0 \/ q = 1 \/ q = 2 \/ q = 3) by lia.
    destruct Q4 as [Q4|[Q4|[Q4|Q4]]]; subst q; cbn [Z.eqb Pos.eqb].
    + destruct (IH t 1 v Hs ltac:(lia)) as [pre [lc' E]]. exists pre, lc'. rewrite E. f_equal. f_equal. lia.
    + destruct (IH t 2 (v mod 16) Hs ltac:(lia)) as [pre [lc' E]]. exists (lc * 4 + v / 16 :: pre), lc'. rewrite E.
      replace ((2 + Z.of_nat (length s)) mod 4) with ((1 + Z.succ (Z.of_nat (length s))) mod 4) by (f_equal; lia).
      match goal with |- _ = bind (a2b ?x ?y ?z ?w) _ => destruct (a2b x y z w); reflexivity end.
    + destruct (IH t 3 (v mod 4) Hs ltac:(lia)) as [pre [lc' E]]. exists (lc * 16 + v / 4 :: pre), lc'. rewrite E.
      replace ((3 + Z.of_nat (length s)) mod 4) with ((2 + Z.succ (Z.of_nat (length s))) mod 4) by (f_equal; lia).
      match goal with |- _ = bind (a2b ?x ?y ?z ?w) _ => destruct (a2b x y z w); reflexivity end.
    + destruct (IH t 0 0 Hs ltac:(lia)) as [pre [lc' E]]. exists (lc * 64 + v :: pre), lc'. rewrite E.
      replace ((3 + Z.succ (Z.of_nat (length s))) mod 4) with ((0 + Z.of_nat (length s)) mod 4) by lia.
      match goal with |- _ = bind (a2b ?x ?y ?z ?w) _ => destruct (a2b x y z w); reflexivity end.
Qed.

Lemma b64_re_match_spec : forall s, b64_re_match s = true ->
  forallb b64url_char s = true \/ exists x, s = x ++ [10] /\ forallb b64url_char x = true.
Proof.
  intros s H. unfold b64_re_match in H. apply orb_true_iff in H. destruct H as [H|H]; [left; exact H|right].
  destruct (rev s) as [|c r] eqn:E; [discriminate|]. assert (c = 10).
  { destruct c as [|[[[[?|?|]|[?|?|]|]|[[?|?|]|[?|?|]|]|]|[[[?|?|]|[?|?|]|]|[[?|?|]|[?|?|]|]|]|]|?]; try discriminate; reflexivity. }
  subst. exists (rev r). split; [|exact H]. rewrite <- (rev_involutive s), E. reflexivity.
Qed.

Lemma b64d_accepts : forall b d, b64d b = Ok d ->
  let cb := rstrip 61 b in
  forallb b64url_char cb = true \/ exists x, cb = x ++ [10] /\ forallb b64url_char x = true.
Proof.
  intros b d H. cbv zeta. unfold b64d in H. destruct (b64_re_match (rstrip 61 b)) eqn:E; [|discriminate].
  apply b64_re_match_spec. exact E.
Qed.

(** Unpadded input: nothing outside the alphabet is accepted. *)
Lemma b64d_unpadded_strict : forall b d, rstrip 61 b = b -> b64d b = Ok d -> forallb b64url_char b = true.
Proof.
  intros b d R H. pose proof (b64d_accepts b d H) as A. cbv zeta in A. rewrite R in A. destruct A as [A|[x [A1 A2]]]; [exact A|].
  exfalso. unfold b64d in H. rewrite R in H. rewrite zs_eqb_refl in H. destruct (b64_re_match b); [|discriminate].
  cbn [negb] in H. unfold add_padding in H. subst b. rewrite app_length in H. cbn [length] in H.
  unfold urlsafe_b64decode in H.
  assert (M : Z.of_nat (length x + 1) mod 4 = 0 \/ Z.of_nat (length x + 1) mod 4 = 1 \/
              Z.of_nat (length x + 1) mod 4 = 2 \/ Z.of_nat (length x + 1) mod 4 = 3) by lia.
  destruct M as [M|[M|[M|M]]]; rewrite M in H; cbn [bind] in H; try discriminate.
  - rewrite map_app in H. destruct (a2b_alpha x (map tr_dec [10]) 0 0 A2 ltac:(lia)) as [pre [lc' E]]. rewrite E in H.
    replace ((0 + Z.of_nat (length x)) mod 4) with 3 in H by lia. cbn in H. discriminate.
  - rewrite !map_app, <- app_assoc in H. destruct (a2b_alpha x (map tr_dec [10] ++ map tr_dec [61; 61]) 0 0 A2 ltac:(lia)) as [pre [lc' E]]. rewrite E in H.
    replace ((0 + Z.of_nat (length x)) mod 4) with 1 in H by lia. cbn in H. discriminate.
  - rewrite !map_app, <- app_assoc in H. destruct (a2b_alpha x (map tr_dec [10] ++ map tr_dec [61]) 0 0 A2 ltac:(lia)) as [pre [lc' E]]. rewrite E in H.
    replace ((0 + Z.of_nat (length x)) mod 4) with 2 in H by lia. cbn in H. discriminate.
Qed.

(** Decoding alphabet text of length 4k+r gives bytes whose re-encoding differs at most in the last character. *)
Lemma a2b_reencode : forall s t d, forallb b64url_char s = true ->
  (forall lc, a2b t 0 lc 0 = Ok []) ->
  (forall lc, a2b t 2 lc 0 = Ok []) -> (forall lc, a2b t 3 lc 0 = Ok []) ->
  Z.of_nat (length s) mod 4 <> 1 ->
  a2b (map tr_dec s ++ t) 0 0 0 = Ok d ->
  bytes_ok d = true /\ length (enc_nopad d) = length s /\ removelast (enc_nopad d) = removelast s /\
  (Z.of_nat (length s) mod 4 = 0 -> enc_nopad d = s).
Proof.
  induction s as [|a|a b|a b c|a b c e r IH] using list_ind4; intros t d C T0 T2 T3 M H.
  - cbn [map app] in H. rewrite T0 in H. inversion H. repeat split; reflexivity.
  - cbn [length] in M. exfalso. apply M. reflexivity.
  - cbn [forallb] in C. apply andb_true_iff in C. destruct C as [Ca C]. apply andb_true_iff in C. destruct C as [Cb _].
    apply url_char_chr in Ca. destruct Ca as [va [Va Ea]]. apply url_char_chr in Cb. destruct Cb as [vb [Vb Eb]]. subst a b.
    cbn [map app a2b] in H. rewrite !tr_dec_url_chr, !b64_chr_not_pad, !b64_val_chr in H by assumption. cbn [Z.eqb Pos.eqb] in H.
    rewrite T2 in H. cbn [bind] in H. inversion H. subst d. clear H. split; [|split; [|split]].
    + unfold bytes_ok, is_byte. cbn [forallb]. lia.
    + reflexivity.
    + cbn [enc_nopad removelast]. f_equal. f_equal. lia.
    + cbn. discriminate.
  - cbn [forallb] in C. apply andb_true_iff in C. destruct C as [Ca C]. apply andb_true_iff in C. destruct C as [Cb C]. apply andb_true_iff in C. destruct C as [Cc _].
    apply url_char_chr in Ca. destruct Ca as [va [Va Ea]]. apply url_char_chr in Cb. destruct Cb as [vb [Vb Eb]]. apply url_char_chr in Cc. destruct Cc as [vc [Vc Ec]]. subst a b c.
    cbn [map app a2b] in H. rewrite !tr_dec_url_chr, !b64_chr_not_pad, !b64_val_chr in H by assumption. cbn [Z.eqb Pos.eqb] in H.
    rewrite T3 in H. cbn [bind] in H. inversion H. subst d. clear H. split; [|split; [|split]].
    + unfold bytes_ok, is_byte. cbn [forallb]. lia.
    + reflexivity.
    + cbn [enc_nopad removelast]. f_equal; [f_equal; lia|]. f_equal. f_equal. lia.
    + cbn. discriminate.
  - cbn [forallb] in C. apply andb_true_iff in C. destruct C as [Ca C]. apply andb_true_iff in C. destruct C as [Cb C]. apply andb_true_iff in C. destruct C as [Cc C]. apply andb_true_iff in C. destruct C as [Ce C].
    apply url_char_chr in Ca. destruct Ca as [va [Va Ea]]. apply url_char_chr in Cb. destruct Cb as [vb [Vb Eb]].
    apply url_char_chr in Cc. destruct Cc as [vc [Vc Ec]]. apply url_char_chr in Ce. destruct Ce as [ve [Ve Ee]]. subst a b c e.
    cbn [map app] in H. rewrite !tr_dec_url_chr in H by assumption. rewrite a2b_step4 in H by assumption.
    destruct (a2b (map tr_dec r ++ t) 0 0 0) as [d'|] eqn:D; cbn [bind] in H; [|discriminate].
    inversion H. subst d. clear H. cbn [length] in M. rewrite !Nat2Z.inj_succ in M.
    destruct (IH t d' C T0 T2 T3 ltac:(lia) D) as [I1 [I2 [I3 I4]]].
    assert (E4 : enc_nopad (va * 4 + vb / 16 :: vb mod 16 * 16 + vc / 4 :: vc mod 4 * 64 + ve :: d') =
                 url_chr va :: url_chr vb :: url_chr vc :: url_chr ve :: enc_nopad d').
    { cbn [enc_nopad]. f_equal; [f_equal; lia|]. f_equal; [f_equal; lia|]. f_equal; [f_equal; lia|]. f_equal. f_equal. lia. }
    rewrite E4. split; [|split; [|split]].
    + rewrite !bytes_ok_cons, I1. unfold is_byte. lia.
    + cbn [length]. lia.
    + destruct r as [|x r]; [destruct (enc_nopad d'); [reflexivity|cbn [length] in I2; lia]|].
      destruct (enc_nopad d') as [|y r']; [cbn [length] in I2; lia|].
      cbn [removelast] in *. rewrite I3. reflexivity.
    + intro M0. cbn [length] in M0. rewrite !Nat2Z.inj_succ in M0. rewrite I4 by lia. reflexivity.
Qed.

(** Extra padding after a complete text does not change the result. *)
Lemma a2b_more_pad : forall l q l0 pd o, a2b l q l0 pd = Ok o -> a2b (l ++ [61]) q l0 pd = Ok o.
Proof.
  induction l as [|c l IH]; intros q l0 pd o HH.
  - cbn [a2b] in HH. destruct (q =? 0) eqn:Q; [|discriminate]. inversion HH. apply Z.eqb_eq in Q. subst q. reflexivity.
  - cbn [app a2b] in *. destruct (c =? 61).
    + destruct (q >=? 2); [destruct (q + (pd + 1) >=? 4); [exact HH|]|]; apply IH; exact HH.
    + destruct (b64_val c) as [v|]; [|apply IH; exact HH].
      destruct (q =? 0); [apply IH; exact HH|].
      destruct (q =? 1); [|destruct (q =? 2)].
      * destruct (a2b l 2 (v mod 16) 0) eqn:A; [|discriminate]. rewrite (IH _ _ _ _ A). exact HH.
      * destruct (a2b l 3 (v mod 4) 0) eqn:A; [|discriminate]. rewrite (IH _ _ _ _ A). exact HH.
      * destruct (a2b l 0 0 0) eqn:A; [|discriminate]. rewrite (IH _ _ _ _ A). exact HH.
Qed.

Lemma b64d_unpadded_canonical : forall b d, rstrip 61 b = b -> b64d b = Ok d ->
  bytes_ok d = true /\ length (b64e d) = length b /\ removelast (b64e d) = removelast b /\
  (Z.of_nat (length b) mod 4 = 0 -> b64e d = b).
Proof.
  intros b d R H. pose proof (b64d_unpadded_strict b d R H) as C.
  unfold b64d in H. rewrite R, zs_eqb_refl in H. destruct (b64_re_match b); [|discriminate]. cbn [negb] in H.
  unfold add_padding in H. unfold urlsafe_b64decode in H.
  assert (M : Z.of_nat (length b) mod 4 = 0 \/ Z.of_nat (length b) mod 4 = 1 \/
              Z.of_nat (length b) mod 4 = 2 \/ Z.of_nat (length b) mod 4 = 3) by lia.
  assert (EX : a2b (map tr_dec b ++ [61; 61]) 0 0 0 = Ok d).
  { change [61; 61] with ([61] ++ [61]). rewrite app_assoc.
    destruct M as [M|[M|[M|M]]]; rewrite M in H; cbn [bind] in H; try discriminate.
    - apply a2b_more_pad. apply a2b_more_pad. exact H.
    - rewrite map_app in H. cbn [map] in H. change (tr_dec 61) with 61 in H. rewrite <- app_assoc. exact H.
    - rewrite map_app in H. cbn [map] in H. change (tr_dec 61) with 61 in H. apply a2b_more_pad. exact H. }
  destruct (a2b_reencode b [61; 61] d C) as [K1 [K2 [K3 K4]]]; try reflexivity; [|exact EX|].
  - intro M1. rewrite M1 in H. cbn in H. discriminate.
  - rewrite (b64e_enc_nopad d K1). auto.
Qed.

(** b64d on non-padding '=' forms still yields bytes. *)
Lemma a2b_bytes : forall s q lc p o, 0 <= q < 4 ->
  (q = 1 -> 0 <= lc < 64) -> (q = 2 -> 0 <= lc < 16) -> (q = 3 -> 0 <= lc < 4) ->
  a2b s q lc p = Ok o -> bytes_ok o = true.
Proof.
  assert (V : forall c v, b64_val c = Some v -> 0 <= v < 64).
  { intros c v H. unfold b64_val in H.
    repeat match type of H with (if ?b then _ else _) = _ => destruct b eqn:? end; inversion H; subst; lia. }
  induction s as [|c s IH]; intros q lc p o Q L1 L2 L3 H.
  - cbn [a2b] in H. destruct (q =? 0); inversion H; reflexivity.
  - cbn [a2b] in H. destruct (c =? 61).
    + destruct (q >=? 2); [destruct (q + (p + 1) >=? 4); [inversion H; reflexivity|]|]; eapply IH; eauto.
    + destruct (b64_val c) as [v|] eqn:E; [|eapply IH; eauto]. apply V in E.
      destruct (q =? 0) eqn:Q0; [eapply IH; try exact H; lia|].
      destruct (q =? 1) eqn:Q1; [|destruct (q =? 2) eqn:Q2].
      * destruct (a2b s 2 (v mod 16) 0) eqn:A; cbn [bind] in H; [|discriminate]. inversion H; subst o.
        apply IH in A; try lia. rewrite bytes_ok_cons, A. unfold is_byte. lia.
      * destruct (a2b s 3 (v mod 4) 0) eqn:A; cbn [bind] in H; [|discriminate]. inversion H; subst o.
        apply IH in A; try lia. rewrite bytes_ok_cons, A. unfold is_byte. lia.
      * destruct (a2b s 0 0 0) eqn:A; cbn [bind] in H; [|discriminate]. inversion H; subst o.
        apply IH in A; try lia. rewrite bytes_ok_cons, A. unfold is_byte. lia.
Qed.

Lemma urlsafe_b64decode_bytes : forall s o, urlsafe_b64decode s = Ok o -> bytes_ok o = true.
Proof. intros s o H. unfold urlsafe_b64decode in H. eapply a2b_bytes in H; [exact H|lia..]. Qed.

Lemma b64d_bytes : forall b d, b64d b = Ok d -> bytes_ok d = true.
Proof.
  intros b d H. unfold b64d in H. destruct (negb _); [discriminate|].
  destruct (if zs_eqb (rstrip 61 b) b then add_padding b else Ok b) as [b'|]; cbn [bind] in H; [|discriminate].
  eapply urlsafe_b64decode_bytes. exact H.
Qed.

(** *** C07 *)
Lemma cmp_loop_zero : forall a b r, length a = length b -> (cmp_loop a b r = 0 <-> r = 0 /\ a = b).
Proof.
  induction a as [|x a IH]; destruct b as [|y b]; cbn [cmp_loop length]; intros r L; try discriminate; [tauto|].
  rewrite IH by lia. rewrite Z.lor_eq_0_iff, Z.lxor_eq_0_iff. split; intros H.
  - destruct H as [[H1 H2] H3]. subst. auto.
  - destruct H as [H1 H2]. inversion H2. auto.
Qed.

Lemma constant_time_compare_eq : forall a b, constant_time_compare a b = true <-> a = b.
Proof.
  intros a b. unfold constant_time_compare. destruct (Nat.eqb (length a) (length b)) eqn:E; cbn [negb].
  - apply Nat.eqb_eq in E. rewrite Z.eqb_eq, cmp_loop_zero by exact E. tauto.
  - apply Nat.eqb_neq in E. split; intro H; [discriminate|]. subst. contradiction.
Qed.

(** *** C05, C08 *)
Lemma l2a_spec : forall fuel n acc, 0 <= n < 256 ^ Z.of_nat fuel ->
  exists pre, l2a fuel n acc = Ok (pre ++ acc) /\ be2z pre = n /\ bytes_ok pre = true /\
              (match pre with [] => n = 0 | x :: _ => x <> 0 end).
Proof.
  induction fuel as [|f IH]; intros n acc H.
  - change (256 ^ Z.of_nat 0) with 1 in H. assert (n = 0) by lia. subst. exists []. repeat split; reflexivity.
  - cbn [l2a]. destruct (n =? 0) eqn:E.
    + apply Z.eqb_eq in E. subst. exists []. repeat split; reflexivity.
    + apply Z.eqb_neq in E. rewrite Nat2Z.inj_succ, Z.pow_succ_r in H by lia.
      destruct (IH (n / 256) (n mod 256 :: acc) ltac:(lia)) as [pre [H1 [H2 [H3 H4]]]].
      exists (pre ++ [n mod 256]). rewrite H1, <- app_assoc. split; [reflexivity|]. split; [|split].
      * rewrite be2z_snoc, H2. lia.
      * rewrite bytes_ok_app, H3. cbn. unfold is_byte. lia.
      * destruct pre as [|x pre]; cbn [app]; [lia|exact H4].
Qed.

Lemma log2_fuel : forall n, 0 <= n -> n < 256 ^ Z.of_nat (S (Z.to_nat (Z.log2 n))).
Proof.
  intros n H. destruct (Z.eq_dec n 0) as [->|N]; [vm_compute; reflexivity|].
  assert (L : n < 2 ^ Z.succ (Z.log2 n)) by (apply Z.log2_spec; lia).
  rewrite Nat2Z.inj_succ, Z2Nat.id by apply Z.log2_nonneg.
  eapply Z.lt_le_trans; [exact L|]. apply Z.pow_le_mono_l. pose proof (Z.log2_nonneg n). lia.
Qed.

Lemma long2intarr_spec : forall n, 0 <= n ->
  exists a, long2intarr n = Ok a /\ be2z a = n /\ bytes_ok a = true /\ match a with [] => n = 0 | x :: _ => x <> 0 end.
Proof.
  intros n H. unfold long2intarr.
  destruct (l2a_spec (S (Z.to_nat (Z.log2 n))) n [] (conj H (log2_fuel n H))) as [pre [H1 H2]].
  exists pre. rewrite app_nil_r in H1. split; [exact H1|exact H2].
Qed.

(** Minimal representations are unique. *)
Lemma be2z_min_unique : forall a b, bytes_ok a = true -> bytes_ok b = true ->
  match a with [] => True | x :: _ => x <> 0 end -> match b with [] => True | x :: _ => x <> 0 end ->
  be2z a = be2z b -> a = b.
Proof.
  assert (LB : forall x a, bytes_ok (x :: a) = true -> x <> 0 -> 256 ^ Z.of_nat (length a) <= be2z (x :: a)).
  { intros x a H N. rewrite bytes_ok_cons in H. apply andb_true_iff in H. destruct H as [H1 H2]. apply is_byte_spec in H1.
    rewrite be2z_cons. pose proof (be2z_bound a H2). nia. }
  assert (LE : forall a b, bytes_ok a = true -> bytes_ok b = true ->
    match b with [] => True | x :: _ => x <> 0 end -> be2z a = be2z b -> (length b <= length a)%nat).
  { intros a b Ha Hb Nb E. destruct b as [|y b]; [simpl; lia|]. pose proof (LB y b Hb Nb) as Nb'.
    pose proof (be2z_bound a Ha) as B. rewrite E in B.
    destruct (le_lt_dec (length (y :: b)) (length a)) as [L|L]; [exact L|exfalso].
    assert (256 ^ Z.of_nat (length a) <= 256 ^ Z.of_nat (length b)) by (apply Z.pow_le_mono_r; cbn [length] in L; lia). lia. }
  intros a b Ha Hb Na Nb E. apply be2z_inj; auto.
  pose proof (LE a b Ha Hb Nb E). pose proof (LE b a Hb Ha Na (eq_sym E)). lia.
Qed.

Lemma be2z_lstrip0 : forall a, be2z (lstrip 0 a) = be2z a.
Proof.
  induction a as [|x a IH]; [reflexivity|]. cbn [lstrip]. destruct (x =? 0) eqn:E; [|reflexivity].
  apply Z.eqb_eq in E. subst. rewrite be2z_cons. rewrite IH. ring.
Qed.

Lemma lstrip_bytes : forall c a, bytes_ok a = true -> bytes_ok (lstrip c a) = true.
Proof.
  induction a as [|x a IH]; intro H; [reflexivity|]. cbn [lstrip]. destruct (x =? c); [|exact H].
  apply IH. rewrite bytes_ok_cons in H. apply andb_true_iff in H. tauto.
Qed.

Lemma long2intarr_intarr2long : forall a n, bytes_ok a = true -> intarr2long a = Ok n -> long2intarr n = Ok (lstrip 0 a).
Proof.
  intros a n H E. assert (En : n = be2z a) by (destruct a; [discriminate|inversion E; reflexivity]).
  assert (P : 0 <= n) by (subst; pose proof (be2z_bound a H); lia).
  destruct (long2intarr_spec n P) as [b [H1 [H2 [H3 H4]]]]. rewrite H1. f_equal.
  apply be2z_min_unique; auto.
  - apply lstrip_bytes. exact H.
  - destruct b; [exact I|exact H4].
  - apply lstrip_head.
  - rewrite be2z_lstrip0. congruence.
Qed.

Lemma intarr2long_long2intarr : forall n, 0 < n -> exists a, long2intarr n = Ok a /\ intarr2long a = Ok n /\ bytes_ok a = true.
Proof.
  intros n H. destruct (long2intarr_spec n ltac:(lia)) as [a [H1 [H2 [H3 H4]]]]. exists a. split; [exact H1|split; [|exact H3]].
  destruct a; [lia|]. unfold intarr2long. rewrite H2. reflexivity.
Qed.

Lemma l2a_negative : forall fuel n acc, n < 0 -> l2a fuel n acc = Raise NonTermination.
Proof.
  induction fuel as [|f IH]; intros n acc H; cbn [l2a]; replace (n =? 0) with false by lia; [reflexivity|]. apply IH. lia.
Qed.

Lemma urlsafe_b64decode_b64e_pad2 : forall b, bytes_ok b = true -> urlsafe_b64decode (b64e b ++ [61; 61]) = Ok b.
Proof.
  intros b H. rewrite b64e_enc_nopad by exact H. unfold urlsafe_b64decode. rewrite map_app.
  apply a2b_enc_nopad; try assumption; reflexivity.
Qed.

Lemma long_to_base64_spec : forall n, 0 < n -> exists a s,
  long_to_base64 n = Ok s /\ s = b64e a /\ be2z a = n /\ bytes_ok a = true /\ match a with [] => False | x :: _ => x <> 0 end.
Proof.
  intros n H. destruct (long2intarr_spec n ltac:(lia)) as [a [H1 [H2 [H3 H4]]]].
  unfold long_to_base64. rewrite H1. cbn [bind]. destruct a as [|x a]; [lia|]. exists (x :: a), (b64e (x :: a)). auto.
Qed.

Lemma base64_to_long_long_to_base64 : forall n s, 0 <= n -> long_to_base64 n = Ok s -> base64_to_long_b s = Ok n.
Proof.
  intros n s H E. destruct (Z.eq_dec n 0) as [->|N]; [vm_compute in E; discriminate|].
  destruct (long_to_base64_spec n ltac:(lia)) as [a [s' [H1 [H2 [H3 [H4 H5]]]]]]. rewrite H1 in E. inversion E. subst s.
  unfold base64_to_long_b. rewrite H2, urlsafe_b64decode_b64e_pad2 by exact H4. cbn [bind].
  destruct a; [contradiction|]. unfold intarr2long. rewrite H3. reflexivity.
Qed.

Lemma base64_to_long_s_b : forall s, ascii s = true -> base64_to_long_s s = base64_to_long_b s.
Proof. intros s H. unfold base64_to_long_s, ascii_encode. rewrite H. reflexivity. Qed.

Lemma long_to_base64_ascii : forall n s, 0 <= n -> long_to_base64 n = Ok s -> ascii s = true.
Proof.
  intros n s H E. destruct (Z.eq_dec n 0) as [->|N]; [vm_compute in E; discriminate|].
  destruct (long_to_base64_spec n ltac:(lia)) as [a [s' [H1 [H2 [H3 [H4 H5]]]]]]. rewrite H1 in E. inversion E. subst.
  apply b64e_ascii. exact H4.
Qed.

Lemma base64_to_long_nonneg : forall b n, base64_to_long_b b = Ok n -> 0 <= n.
Proof.
  intros b n H. unfold base64_to_long_b in H. destruct (urlsafe_b64decode (b ++ [61; 61])) as [d|] eqn:D; cbn [bind] in H; [|discriminate].
  apply urlsafe_b64decode_bytes in D. destruct d as [|x d]; [discriminate|]. inversion H. pose proof (be2z_bound _ D). lia.
Qed.

(** *** C06 *)
Lemma base64url_to_long_rejects : forall data c, (c = 43 \/ c = 47 \/ c = 61) -> In c data ->
  exists e, base64url_to_long_b data = Raise e /\ is_ValueError e = true.
Proof.
  intros data c Hc I. unfold base64url_to_long_b.
  destruct (urlsafe_b64decode (data ++ [61; 61])) as [d|e] eqn:D; cbn [bind].
  - assert (E : existsb (fun c => (c =? 43) || (c =? 47) || (c =? 61)) data = true).
    { apply existsb_exists. exists c. split; [exact I|]. lia. }
    rewrite E. exists EValueError. split; reflexivity.
  - exists e. split; [reflexivity|]. clear - D. unfold urlsafe_b64decode in D.
    assert (G : forall s q lc p, a2b s q lc p = Raise e -> e = EBinasciiError).
    { induction s as [|c s IH]; intros q lc p HH; cbn [a2b] in HH.
      - destruct (q =? 0); [discriminate|congruence].
      - destruct (c =? 61); [destruct (q >=? 2); [destruct (q + (p + 1) >=? 4); [discriminate|]|]; eapply IH; eauto|].
        destruct (b64_val c); [|eapply IH; eauto]. destruct (q =? 0); [eapply IH; eauto|].
        destruct (q =? 1); [|destruct (q =? 2)].
        + destruct (a2b s 2 (z mod 16) 0) eqn:A; cbn [bind] in HH; [discriminate|]. inversion HH; subst. eapply IH; eauto.
        + destruct (a2b s 3 (z mod 4) 0) eqn:A; cbn [bind] in HH; [discriminate|]. inversion HH; subst. eapply IH; eauto.
        + destruct (a2b s 0 0 0) eqn:A; cbn [bind] in HH; [discriminate|]. inversion HH; subst. eapply IH; eauto. }
    apply G in D. subst. reflexivity.
Qed.

(** *** C09 *)
Lemma unhex_hex : forall v, 0 <= v < 16 -> unhex_digit (hex_digit v) = Some v.
Proof.
  intros v H. unfold hex_digit, unhex_digit. destruct (v <? 10) eqn:E.
  - replace ((48 <=? 48 + v) && (48 + v <=? 57)) with true by lia. f_equal. lia.
  - replace ((48 <=? 87 + v) && (87 + v <=? 57)) with false by lia.
    replace ((97 <=? 87 + v) && (87 + v <=? 102)) with true by lia. f_equal. lia.
Qed.

Fixpoint hexw (w : nat) (n : Z) : list Z :=
  match w with O => [] | S w' => hexw w' (n / 16) ++ [hex_digit (n mod 16)] end.

Lemma hex_digits_hexw : forall w fuel n acc, (S w <= fuel)%nat -> (w = O \/ 16 ^ Z.of_nat w <= n) -> 0 <= n < 16 ^ Z.of_nat (S w) ->
  hex_digits fuel n acc = hexw (S w) n ++ acc.
Proof.
  induction w as [|w IH]; intros fuel n acc F L H; (destruct fuel as [|fuel]; [lia|]).
  - change (16 ^ Z.of_nat 1) with 16 in H. cbn [hex_digits hexw app]. replace (n / 16 =? 0) with true by lia. reflexivity.
  - destruct L as [L|L]; [discriminate|]. rewrite Nat2Z.inj_succ, Z.pow_succ_r in H, L by lia.
    cbn [hex_digits]. assert (0 < 16 ^ Z.of_nat w) by (apply Z.pow_pos_nonneg; lia).
    replace (n / 16 =? 0) with false by lia.
    rewrite IH; [|lia|right; lia|rewrite Nat2Z.inj_succ, Z.pow_succ_r in * by lia; lia].
    change (hexw (S (S w)) n) with (hexw (S w) (n / 16) ++ [hex_digit (n mod 16)]).
    rewrite <- app_assoc. reflexivity.
Qed.

Lemma hexw_length : forall w n, length (hexw w n) = w.
Proof. induction w; intro n; cbn [hexw]; [reflexivity|]. rewrite app_length, IHw. cbn. lia. Qed.

Lemma hexw_z2be : forall k n, exists l, hexw (2 * k) n = l /\ (forall r d, unhexlify r = Ok d -> unhexlify (l ++ r) = Ok (z2be k n ++ d)).
Proof.
  intros k n. exists (hexw (2 * k) n). split; [reflexivity|]. revert n.
  induction k as [|k IH]; intros n r d H; [exact H|].
  replace (2 * S k)%nat with (S (S (2 * k))) by lia. cbn [hexw z2be]. rewrite <- !app_assoc.
  replace (n / 16 / 16) with (n / 256) by lia. apply IH. cbn [app unhexlify].
  rewrite !unhex_hex by lia. rewrite H. cbn [bind]. f_equal. f_equal. lia.
Qed.

Lemma unhexlify_odd : forall s, Nat.odd (length s) = true -> unhexlify s = Raise EBinasciiError.
Proof.
  intro s. assert (G : forall n s, (length s <= n)%nat -> Nat.odd (length s) = true -> unhexlify s = Raise EBinasciiError).
  { induction n as [|n IH]; intros l L H.
    - destruct l; [discriminate|cbn in L; lia].
    - destruct l as [|a [|b r]]; [discriminate|reflexivity|]. cbn [unhexlify].
      destruct (unhex_digit a), (unhex_digit b); try reflexivity. rewrite IH; [reflexivity|cbn in L; lia|exact H]. }
  apply (G (length s)). apply le_n.
Qed.

Lemma py_hex_hexw : forall w n, (w = O \/ 16 ^ Z.of_nat w <= n) -> 0 <= n < 16 ^ Z.of_nat (S w) -> py_hex n = hexw (S w) n.
Proof.
  intros w n L H. unfold py_hex. rewrite (hex_digits_hexw w); [apply app_nil_r| |exact L|exact H].
  destruct L as [->|L]; [lia|]. assert (P : 0 < 16 ^ Z.of_nat w) by (apply Z.pow_pos_nonneg; lia).
  assert (Z.of_nat w <= Z.log2 n); [|lia].
  apply Z.log2_le_pow2; [lia|]. etransitivity; [|exact L]. apply Z.pow_le_mono_l. lia.
Qed.

Lemma pow256_16 : forall k, 256 ^ Z.of_nat k = 16 ^ Z.of_nat (2 * k).
Proof. intro k. rewrite Nat2Z.inj_mul, Z.pow_mul_r by lia. reflexivity. Qed.

Lemma long2hexseq_even : forall k n, 16 * 256 ^ Z.of_nat k <= n < 256 ^ Z.of_nat (S k) -> long2hexseq n = Ok (z2be (S k) n).
Proof.
  intros k n H. assert (P : 0 < 256 ^ Z.of_nat k) by (apply Z.pow_pos_nonneg; lia).
  unfold long2hexseq. replace (n <? 0) with false by lia.
  rewrite (py_hex_hexw (S (2 * k))).
  - replace (S (S (2 * k))) with (2 * S k)%nat by lia.
    destruct (hexw_z2be (S k) n) as [l [E G]]. rewrite E. specialize (G [] [] eq_refl). rewrite !app_nil_r in G. exact G.
  - right. rewrite Nat2Z.inj_succ, Z.pow_succ_r by lia. rewrite <- pow256_16. lia.
  - replace (S (S (2 * k))) with (2 * S k)%nat by lia. rewrite <- pow256_16. lia.
Qed.

Lemma long2hexseq_odd : forall k n, (k = O \/ 256 ^ Z.of_nat k <= n) -> 0 <= n < 16 * 256 ^ Z.of_nat k -> long2hexseq n = Raise EBinasciiError.
Proof.
  intros k n L H. unfold long2hexseq. destruct (n <? 0); [reflexivity|].
  rewrite (py_hex_hexw (2 * k)).
  - apply unhexlify_odd. rewrite hexw_length. rewrite Nat.odd_succ. apply Nat.even_spec. exists k. lia.
  - destruct L as [->|L]; [left; reflexivity|right]. rewrite <- pow256_16. exact L.
  - rewrite Nat2Z.inj_succ, Z.pow_succ_r, <- pow256_16 by lia. exact H.
Qed.

(** The base64url alphabet of RFC 4648, section 5 (for the statements). *)
Definition url_char (c : Z) : Prop := 65 <= c <= 90 \/ 97 <= c <= 122 \/ 48 <= c <= 57 \/ c = 45 \/ c = 95.
Lemma url_char_iff : forall c, b64url_char c = true <-> url_char c.
Proof. intros c. unfold b64url_char, url_char. lia. Qed.
Lemma url_chars_iff : forall s, forallb b64url_char s = true <-> Forall url_char s.
Proof.
  intros s. rewrite forallb_forall, Forall_forall. split; intros H c I; apply url_char_iff, H, I.
Qed.
Lemma b64d_accepts' : forall b d, b64d b = Ok d -> let cb := rstrip 61 b in
  Forall url_char cb \/ exists x, cb = x ++ [10] /\ Forall url_char x.
Proof.
  intros b d H cb. destruct (b64d_accepts b d H) as [A|[x [A B]]]; [left|right; exists x; split; [exact A|]]; apply url_chars_iff; assumption.
Qed.
Lemma b64d_unpadded_strict' : forall b d, rstrip 61 b = b -> b64d b = Ok d -> Forall url_char b.
Proof. intros b d H1 H2. apply url_chars_iff. exact (b64d_unpadded_strict b d H1 H2). Qed.
