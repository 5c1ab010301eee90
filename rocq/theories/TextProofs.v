(** * UTF-8 against RFC 3629, and what follows for the text conversions of the package. *)
From Coq Require Import ZArith List Bool Lia ZifyBool.
From Verif Require Import Base BaseProofs Codec CodecProofs Utf8 Json JsonProofs JsonGrammar.
Import ListNotations.
Open Scope Z_scope.
Ltac Zify.zify_post_hook ::= Z.div_mod_to_equations.

(** RFC 3629 section 3: the octets of one character, and of a text.  x, y, z and w are the bits between the markers. *)
Inductive utf8_char : bytes -> Z -> Prop :=
| u8_1 : forall c, 0 <= c < 128 -> utf8_char [c] c
| u8_2 : forall x y, 0 <= x < 2 ^ 5 -> 0 <= y < 2 ^ 6 -> 128 <= x * 2 ^ 6 + y -> utf8_char [192 + x; 128 + y] (x * 2 ^ 6 + y)
| u8_3 : forall x y z, 0 <= x < 2 ^ 4 -> 0 <= y < 2 ^ 6 -> 0 <= z < 2 ^ 6 -> 2048 <= x * 2 ^ 12 + y * 2 ^ 6 + z ->
    ~ (55296 <= x * 2 ^ 12 + y * 2 ^ 6 + z <= 57343) -> utf8_char [224 + x; 128 + y; 128 + z] (x * 2 ^ 12 + y * 2 ^ 6 + z)
| u8_4 : forall x y z w, 0 <= x < 2 ^ 3 -> 0 <= y < 2 ^ 6 -> 0 <= z < 2 ^ 6 -> 0 <= w < 2 ^ 6 ->
    65536 <= x * 2 ^ 18 + y * 2 ^ 12 + z * 2 ^ 6 + w <= 1114111 ->
    utf8_char [240 + x; 128 + y; 128 + z; 128 + w] (x * 2 ^ 18 + y * 2 ^ 12 + z * 2 ^ 6 + w).
Inductive utf8_text : bytes -> ustr -> Prop :=
| u8_nil : utf8_text [] []
| u8_cons : forall o c b s, utf8_char o c -> utf8_text b s -> utf8_text (o ++ b) (c :: s).

(** A character that has an encoding. *)
Definition scalar (c : Z) : Prop := 0 <= c <= 1114111 /\ ~ (55296 <= c <= 57343).

Lemma is_scalar_iff : forall c, is_scalar c = true <-> scalar c.
Proof. intro c. unfold is_scalar, scalar. lia. Qed.
Lemma scalars_iff : forall s, scalars s = true <-> Forall scalar s.
Proof.
  intro s. unfold scalars. rewrite forallb_forall, Forall_forall. split; intros H c I; apply is_scalar_iff, H, I.
Qed.

Lemma utf8_char_enc : forall o c, utf8_char o c <-> scalar c /\ o = utf8_enc_c c.
Proof.
  intros o c. unfold scalar, utf8_enc_c. split.
  - intros [c0 A|x y A B C|x y z A B C D E|x y z w A B C D E]; change (2 ^ 3) with 8 in *; change (2 ^ 4) with 16 in *; change (2 ^ 5) with 32 in *; change (2 ^ 6) with 64 in *; change (2 ^ 12) with 4096 in *; change (2 ^ 18) with 262144 in *.
    + replace (c0 <? 128) with true by lia. split; [lia|reflexivity].
    + replace (x * 64 + y <? 128) with false by lia. replace (x * 64 + y <? 2048) with true by lia. split; [lia|]. f_equal; [lia|]. f_equal. lia.
    + replace (x * 4096 + y * 64 + z <? 128) with false by lia. replace (x * 4096 + y * 64 + z <? 2048) with false by lia. replace (x * 4096 + y * 64 + z <? 65536) with true by lia.
      split; [lia|]. f_equal; [lia|]. f_equal; [lia|]. f_equal. lia.
    + replace (x * 262144 + y * 4096 + z * 64 + w <? 128) with false by lia. replace (x * 262144 + y * 4096 + z * 64 + w <? 2048) with false by lia.
      replace (x * 262144 + y * 4096 + z * 64 + w <? 65536) with false by lia.
      split; [lia|]. f_equal; [lia|]. f_equal; [lia|]. f_equal; [lia|]. f_equal. lia.
  - intros [R ->]. destruct (Z.ltb_spec c 128) as [A|A]; [apply u8_1; lia|]. destruct (Z.ltb_spec c 2048) as [B|B].
    { pose proof (u8_2 (c / 64) (c mod 64)) as X. change (2 ^ 5) with 32 in X. change (2 ^ 6) with 64 in X. replace (c / 64 * 64 + c mod 64) with c in X by lia. apply X; lia. }
    destruct (Z.ltb_spec c 65536) as [C|C].
    { pose proof (u8_3 (c / 4096) ((c / 64) mod 64) (c mod 64)) as X. change (2 ^ 4) with 16 in X. change (2 ^ 6) with 64 in X. change (2 ^ 12) with 4096 in X.
      replace (c / 4096 * 4096 + c / 64 mod 64 * 64 + c mod 64) with c in X by lia. apply X; lia. }
    pose proof (u8_4 (c / 262144) ((c / 4096) mod 64) ((c / 64) mod 64) (c mod 64)) as X. change (2 ^ 3) with 8 in X. change (2 ^ 6) with 64 in X. change (2 ^ 12) with 4096 in X. change (2 ^ 18) with 262144 in X.
    replace (c / 262144 * 262144 + c / 4096 mod 64 * 4096 + c / 64 mod 64 * 64 + c mod 64) with c in X by lia. apply X; lia.
Qed.

Theorem utf8_encode_text : forall s b, utf8_encode s = Ok b <-> utf8_text b s.
Proof.
  intros s b. unfold utf8_encode. split.
  - destruct (scalars s) eqn:S1; intro H; [|discriminate H]. injection H as <-. apply scalars_iff in S1. induction S1 as [|c s C _ IH]; [constructor|].
    cbn [map concat]. apply u8_cons; [apply utf8_char_enc; split; [exact C|reflexivity]|exact IH].
  - intro H. assert (X : Forall scalar s /\ concat (map utf8_enc_c s) = b).
    { induction H as [|o c b s O _ [IH1 IH2]]; [split; [constructor|reflexivity]|]. apply utf8_char_enc in O as [C ->]. split; [constructor; assumption|].
      cbn [map concat]. f_equal. exact IH2. }
    destruct X as [X <-]. apply scalars_iff in X. rewrite X. reflexivity.
Qed.
Theorem utf8_encode_fails : forall s e, utf8_encode s = Raise e <-> e = EUnicodeEncodeError /\ ~ Forall scalar s.
Proof.
  intros s e. unfold utf8_encode. rewrite <- scalars_iff. destruct (scalars s); split; intro H.
  - discriminate H.
  - destruct H as [_ H]. destruct (H eq_refl).
  - injection H as <-. split; [reflexivity|]. intro X. discriminate X.
  - destruct H as [-> _]. reflexivity.
Qed.
Theorem utf8_decode_text : forall b s, bytes_ok b = true -> (utf8_decode b = Ok s <-> utf8_text b s).
Proof.
  intros b s B. rewrite <- utf8_encode_text. split; [apply utf8_encode_decode; exact B|apply utf8_decode_encode].
Qed.
Lemma utf8_decode_exn : forall n b e, (length b <= n)%nat -> utf8_decode b = Raise e -> e = EUnicodeDecodeError.
Proof.
  induction n as [|n IH]; intros b e L H; [destruct b; [discriminate H|cbn in L; lia]|].
  destruct b as [|b0 r0]; [discriminate H|]. cbn [utf8_decode] in H. cbn [length] in L.
  assert (REC : forall r c, (length r <= n)%nat -> (s <- utf8_decode r;; Ok (c :: s)) = Raise e -> e = EUnicodeDecodeError).
  { intros r c LR X. destruct (utf8_decode r) as [s|e'] eqn:D; [discriminate X|]. cbn [bind] in X. injection X as <-. exact (IH r e' LR D). }
  destruct (b0 <? 128); [exact (REC r0 _ ltac:(lia) H)|]. destruct r0 as [|b1 r1]; [injection H as <-; reflexivity|]. cbn [length] in L.
  destruct (negb (cont b1)); [injection H as <-; reflexivity|]. destruct ((194 <=? b0) && (b0 <? 224)); [exact (REC r1 _ ltac:(lia) H)|].
  destruct r1 as [|b2 r2]; [injection H as <-; reflexivity|]. cbn [length] in L. destruct (negb (cont b2)); [injection H as <-; reflexivity|]. destruct ((224 <=? b0) && (b0 <? 240)).
  { cbv zeta in H. match type of H with (if ?x then _ else _) = _ => destruct x end; [injection H as <-; reflexivity|exact (REC r2 _ ltac:(lia) H)]. }
  destruct r2 as [|b3 r3]; [injection H as <-; reflexivity|]. cbn [length] in L. destruct (negb (cont b3)); [injection H as <-; reflexivity|]. destruct ((240 <=? b0) && (b0 <? 245)); [|injection H as <-; reflexivity].
  cbv zeta in H. match type of H with (if ?x then _ else _) = _ => destruct x end; [injection H as <-; reflexivity|exact (REC r3 _ ltac:(lia) H)].
Qed.
Theorem utf8_decode_fails : forall b e, bytes_ok b = true -> (utf8_decode b = Raise e <-> e = EUnicodeDecodeError /\ forall s, ~ utf8_text b s).
Proof.
  intros b e B. split.
  - intro H. split; [exact (utf8_decode_exn _ b e (le_n _) H)|]. intros s S1. apply (utf8_decode_text b s B) in S1. congruence.
  - intros [-> N]. destruct (utf8_decode b) as [s|e'] eqn:D; [apply utf8_decode_text in D; [destruct (N s D)|exact B]|]. f_equal. exact (utf8_decode_exn _ b e' (le_n _) D).
Qed.
Theorem utf8_unique : forall b s s', utf8_text b s -> utf8_text b s' -> s = s'.
Proof. intros b s s' A B. apply utf8_encode_text in A, B. apply utf8_decode_encode in A, B. congruence. Qed.

(** ** as_unicode, as_bytes and the base64 text functions *)
Theorem as_unicode_exact : forall v,
  (forall b s, v = VBytes b -> bytes_ok b = true -> utf8_text b s -> as_unicode v = VStr s) /\
  (forall b, v = VBytes b -> bytes_ok b = true -> (forall s, ~ utf8_text b s) -> as_unicode v = v) /\
  ((forall b, v <> VBytes b) -> as_unicode v = v).
Proof.
  intro v. split; [|split].
  - intros b s -> B T. cbn [as_unicode]. apply (utf8_decode_text b s B) in T. rewrite T. reflexivity.
  - intros b -> B N. cbn [as_unicode]. destruct (utf8_decode b) as [s|] eqn:D; [|reflexivity]. apply utf8_decode_text in D; [destruct (N s D)|exact B].
  - intro N. destruct v as [| | | | |b| |]; try reflexivity. destruct (N b eq_refl).
Qed.
Theorem as_bytes_exact : forall v,
  (forall s b, v = VStr s -> utf8_text b s -> as_bytes v = Ok (VBytes b)) /\
  (forall s, v = VStr s -> (exists c, In c s /\ ~ scalar c) -> as_bytes v = Raise EUnicodeEncodeError) /\
  ((forall s, v <> VStr s) -> as_bytes v = Ok v).
Proof.
  intro v. split; [|split].
  - intros s b -> T. cbn [as_bytes]. apply utf8_encode_text in T. rewrite T. reflexivity.
  - intros s -> (c & I & N). cbn [as_bytes]. assert (E : utf8_encode s = Raise EUnicodeEncodeError).
    { apply utf8_encode_fails. split; [reflexivity|]. intro F. rewrite Forall_forall in F. exact (N (F c I)). }
    rewrite E. reflexivity.
  - intro N. destruct v as [| | | |s| | |]; try reflexivity. destruct (N s eq_refl).
Qed.
Theorem b64d_text_exact : forall s t, b64d_enc_dec s = Ok t <-> Forall (fun c => 0 <= c < 128) s /\ exists b, b64d s = Ok b /\ utf8_text b t.
Proof.
  intros s t. unfold b64d_enc_dec. split.
  - intro H. destruct (ascii_encode s) as [a|] eqn:A; [|discriminate H]. cbn [bind] in H. destruct (b64d a) as [b|] eqn:D; [|discriminate H]. cbn [bind] in H.
    unfold ascii_encode in A. destruct (ascii s) eqn:AS; [|discriminate A]. injection A as <-. split.
    + unfold ascii in AS. rewrite forallb_forall in AS. apply Forall_forall. intros c I. specialize (AS c I). lia.
    + exists b. split; [exact D|]. apply utf8_decode_text; [exact (b64d_bytes _ _ D)|exact H].
  - intros (F & b & D & T). assert (AS : ascii s = true) by (unfold ascii; apply forallb_forall; rewrite Forall_forall in F; intros c I; specialize (F c I); lia).
    unfold ascii_encode. rewrite AS. cbn [bind]. rewrite D. cbn [bind]. apply utf8_decode_text; [exact (b64d_bytes _ _ D)|exact T].
Qed.

(** ** json.loads of bytes *)
Lemma wsp_nonul : forall w, wsp w -> ~ In 0 w.
Proof. intros w W I. unfold wsp in W. rewrite Forall_forall in W. specialize (W 0 I). lia. Qed.
Lemma digits_nonul : forall w, digits w -> ~ In 0 w.
Proof. intros w W I. unfold digits in W. rewrite Forall_forall in W. specialize (W 0 I). lia. Qed.
Lemma hex4s_nonul : forall h u, hex4s h u -> ~ In 0 h.
Proof. intros h u H. inversion H as [a b c d x y z w A B C D]; subst. unfold hexd in *. cbn [In]. lia. Qed.
Lemma chars_nonul : forall t s, chars t s -> ~ In 0 t.
Proof.
  intros t s H. induction H as [|c t s A B C T IH|e u t s I T IH|h l u v t s HH HL HI LO T IH|h u t s HH C T IH].
  - intros [].
  - intros [->|I]; [lia|exact (IH I)].
  - assert (E : e <> 0) by (intros ->; cbn [In] in I; repeat (destruct I as [I|I]; [injection I as ? _; lia|]); contradiction). cbn [In]. intros [X|[X|X]]; [lia|congruence|exact (IH X)].
  - cbn [In]. intros [X|[X|X]]; [lia|lia|]. apply in_app_or in X as [X|[X|[X|X]]]; [exact (hex4s_nonul _ _ HH X)|lia|lia|]. apply in_app_or in X as [X|X]; [exact (hex4s_nonul _ _ HL X)|exact (IH X)].
  - cbn [In]. intros [X|[X|X]]; [lia|lia|]. apply in_app_or in X as [X|X]; [exact (hex4s_nonul _ _ HH X)|exact (IH X)].
Qed.
Lemma number_nonul : forall t v, number t v -> ~ In 0 t.
Proof.
  assert (M : forall neg, ~ In 0 (minus neg)) by (intros []; cbn; lia).
  assert (I : forall i, int_part i -> ~ In 0 i) by (intros i [|d ds D DS]; cbn [In]; [lia|]; intros [X|X]; [lia|exact (digits_nonul _ DS X)]).
  assert (F : forall i, frac_part i -> ~ In 0 i) by (intros i [|ds _ DS]; cbn [In]; [tauto|]; intros [X|X]; [lia|exact (digits_nonul _ DS X)]).
  assert (E : forall i, exp_part i -> ~ In 0 i).
  { intros i [|e sg ds C SG _ DS]; cbn [In]; [tauto|]. intros [X|X]; [lia|]. apply in_app_or in X as [X|X]; [|exact (digits_nonul _ DS X)]. destruct SG as [->|[->| ->]]; cbn [In] in X; lia. }
  intros t v [neg i A|neg i f e A B C _] X; apply in_app_or in X as [X|X]; try exact (M _ X).
  - exact (I _ A X).
  - apply in_app_or in X as [X|X]; [exact (I _ A X)|]. apply in_app_or in X as [X|X]; [exact (F _ B X)|exact (E _ C X)].
Qed.
Lemma json_nonul_all :
  (forall t v, jvalue t v -> ~ In 0 t) /\ (forall t l, elements t l -> ~ In 0 t) /\ (forall t ms, members t ms -> ~ In 0 t).
Proof.
  apply json_min; intros; try (vm_compute; lia); try (eapply number_nonul; eassumption);
    repeat match goal with H : chars _ _ |- _ => apply chars_nonul in H | H : wsp _ |- _ => apply wsp_nonul in H end;
    cbn [In]; repeat (rewrite in_app_iff; cbn [In]); intro X; repeat (destruct X as [X|X]); try contradiction; lia.
Qed.
Lemma json_nonul : forall s v, json_text s v -> ~ In 0 s.
Proof.
  intros s v (w & t & w' & -> & W & W' & T) X. apply in_app_or in X as [X|X]; [exact (wsp_nonul _ W X)|]. apply in_app_or in X as [X|X]; [|exact (wsp_nonul _ W' X)].
  destruct json_nonul_all as (J & _). exact (J _ _ T X).
Qed.
Lemma json_head : forall s v, json_text s v -> exists c s', s = c :: s' /\ 0 < c < 128.
Proof.
  intros s v (w & t & w' & -> & W & W' & T). destruct W as [|c w C _]; [|cbn [app]; do 2 eexists; split; [reflexivity|lia]]. cbn [app].
  assert (H : exists c t', t = c :: t' /\ 0 < c < 128).
  { destruct T as [| | | | | |t v NM| | | | |]; try match goal with |- context [lit ?s] => let l := eval vm_compute in (lit s) in change (lit s) with l end;
      try (do 2 eexists; split; [reflexivity|lia]). assert (G : forall neg i x, int_part i -> exists c t', minus neg ++ i ++ x = c :: t' /\ 0 < c < 128).
    { intros neg i x I. destruct neg; cbn [minus app]; [do 2 eexists; split; [reflexivity|lia]|]. destruct I as [|d ds D DS]; cbn [app]; do 2 eexists; (split; [reflexivity|lia]). }
    destruct NM as [neg i I|neg i f e I F E FE]; [|apply G; exact I]. destruct (G neg i [] I) as (c & t' & E & C). rewrite app_nil_r in E. exists c, t'. tauto. }
  destruct H as (c & t' & -> & C). exists c, (t' ++ w'). split; [reflexivity|exact C].
Qed.
Lemma utf8_nonul : forall b s, utf8_text b s -> ~ In 0 s -> ~ In 0 b.
Proof.
  intros b s H. induction H as [|o c b s O T IH]; intros N X; [exact X|]. apply in_app_or in X as [X|X].
  - apply N. left. destruct O as [c0 A|x y A B C|x y z A B C D E|x y z w A B C D E]; cbn [In] in X; lia.
  - apply IH; [|exact X]. intro Y. apply N. right. exact Y.
Qed.
Lemma decode_pass : forall n b s, (length b <= n)%nat -> utf8_decode b = Ok s -> utf8_decode_pass b = Ok s.
Proof.
  induction n as [|n IH]; intros b s L H; [destruct b; [exact H|cbn in L; lia]|].
  destruct b as [|b0 r0]; [exact H|]. cbn [utf8_decode] in H. cbn [utf8_decode_pass]. cbn [length] in L.
  assert (REC : forall r c, (length r <= n)%nat -> (s <- utf8_decode r;; Ok (c :: s)) = Ok s -> (s <- utf8_decode_pass r;; Ok (c :: s)) = Ok s).
  { intros r c LR X. destruct (utf8_decode r) as [s'|e'] eqn:D; [|discriminate X]. rewrite (IH r s' LR D). exact X. }
  destruct (b0 <? 128); [apply REC; [lia|exact H]|]. destruct r0 as [|b1 r1]; [discriminate H|]. cbn [length] in L.
  destruct (negb (cont b1)); [discriminate H|]. destruct ((194 <=? b0) && (b0 <? 224)); [apply REC; [lia|exact H]|].
  destruct r1 as [|b2 r2]; [discriminate H|]. cbn [length] in L. destruct (negb (cont b2)); [discriminate H|]. destruct ((224 <=? b0) && (b0 <? 240)).
  { cbv zeta in H |- *. match type of H with (if (?x || ?y) then _ else _) = _ => destruct x; cbn [orb] in H; [discriminate H|]; destruct y; [discriminate H|] end. apply REC; [lia|exact H]. }
  destruct r2 as [|b3 r3]; [discriminate H|]. cbn [length] in L. destruct (negb (cont b3)); [discriminate H|]. destruct ((240 <=? b0) && (b0 <? 245)); [|discriminate H].
  cbv zeta in H |- *. match type of H with (if ?x then _ else _) = _ => destruct x; [discriminate H|] end. apply REC; [lia|exact H].
Qed.

Theorem loads_bytes_utf8 : forall b s v, utf8_text b s -> json_text s v -> loads_bytes b = Ok v.
Proof.
  intros b s v U J. pose proof (utf8_nonul b s U (json_nonul s v J)) as NN. destruct (json_head s v J) as (c & s' & E & C).
  assert (D : utf8_decode_pass b = Ok s) by (apply (decode_pass _ b s (le_n _)); apply utf8_encode_text in U; apply utf8_decode_encode; exact U).
  assert (H : exists b', b = c :: b').
  { rewrite E in U. inversion U as [|o c0 b1 s1 O T]; subst. inversion O; subst; cbn [app]; try lia. eexists. reflexivity. }
  destruct H as (b' & ->). unfold loads_bytes, detect_decode. cbn [startswith]. replace (0 =? c) with false by lia. replace (255 =? c) with false by lia. replace (254 =? c) with false by lia. replace (239 =? c) with false by lia.
  cbn [andb]. replace (c =? 0) with false by lia.
  assert (R : (s0 <- utf8_decode_pass (c :: b');; decode_text s0) = Ok v) by (rewrite D; cbn [bind]; apply decode_text_grammar; exact J).
  destruct b' as [|b1 [|b2 [|b3 r]]]; try exact R; (assert (N1 : b1 =? 0 = false) by (cbn [In] in NN; lia)); rewrite N1; exact R.
Qed.
