(** * b64d (__init__.py:151-183) on every octet string, and the texts of an octet string *)
From Coq Require Import ZArith List Bool Lia ZifyBool.
From Verif Require Import Base BaseProofs Codec CodecProofs B64Num.
Import ListNotations.
Open Scope Z_scope.

(** Whether [k] padding characters complete a text with [r] digits in its last group. *)
Definition complete (r : Z) (k : nat) : bool := (r =? 0) || ((2 <=? r) && (4 <=? r + Z.of_nat k)).
Lemma pads : forall k q lc pd, 0 <= q <= 3 -> 0 <= pd -> q + pd < 4 -> a2b (repeat 61 k) q lc pd = if (q =? 0) || ((2 <=? q) && (4 <=? q + pd + Z.of_nat k)) then Ok [] else Raise EBinasciiError.
Proof.
  induction k as [|k IH]; intros q lc pd Q D LT4.
  - cbn [repeat a2b]. destruct (q =? 0) eqn:E; [reflexivity|]. cbn [orb]. replace ((2 <=? q) && (4 <=? q + pd + Z.of_nat 0)) with false by lia. reflexivity.
  - cbn [repeat a2b]. change (61 =? 61) with true. cbn iota. destruct (q >=? 2) eqn:G.
    + destruct (q + (pd + 1) >=? 4) eqn:F.
      * replace ((q =? 0) || ((2 <=? q) && (4 <=? q + pd + Z.of_nat (S k)))) with true by lia. reflexivity.
      * rewrite IH by lia. replace (4 <=? q + (pd + 1) + Z.of_nat k) with (4 <=? q + pd + Z.of_nat (S k)) by lia. reflexivity.
    + rewrite IH by lia. replace (2 <=? q) with false by lia. rewrite !andb_false_l. reflexivity.
Qed.
Lemma a2b_pads : forall s k q lc, nopad s -> 0 <= q <= 3 -> a2b (map tr_dec s ++ repeat 61 k) q lc 0 = if complete ((q + Z.of_nat (length (digits64 s))) mod 4) k then dec (digits64 s) q lc else Raise EBinasciiError.
Proof.
  induction s as [|c s IH]; intros k q lc N Q.
  - cbn [map app digits64 dec length]. rewrite pads by lia. replace ((q + Z.of_nat 0) mod 4) with q by (Z.div_mod_to_equations; lia). unfold complete. rewrite Z.add_0_r.
    destruct ((q =? 0) || ((2 <=? q) && (4 <=? q + Z.of_nat k))) eqn:E; [|reflexivity]. destruct (q =? 1) eqn:E1; [|reflexivity]. exfalso. lia.
  - assert (NC : (c =? 61) = false) by (apply Z.eqb_neq; intro X; apply N; left; exact X). assert (NS : nopad s) by (intro X; apply N; right; exact X).
    cbn [map app a2b digits64]. rewrite not_pad, NC, digit_val. destruct (digit64 c) as [v|]; [|apply IH; assumption]. cbn [dec length]. rewrite Nat2Z.inj_succ.
    assert (QQ : q = 0 \/ q = 1 \/ q = 2 \/ q = 3) by lia. destruct QQ as [-> |[-> |[-> | ->]]]; cbn [Z.eqb Pos.eqb]; rewrite IH by (assumption || lia).
    + replace (0 + Z.succ (Z.of_nat (length (digits64 s)))) with (1 + Z.of_nat (length (digits64 s))) by lia. reflexivity.
    + replace (1 + Z.succ (Z.of_nat (length (digits64 s)))) with (2 + Z.of_nat (length (digits64 s))) by lia. destruct (complete _ k); reflexivity.
    + replace (2 + Z.succ (Z.of_nat (length (digits64 s)))) with (3 + Z.of_nat (length (digits64 s))) by lia. destruct (complete _ k); reflexivity.
    + replace ((3 + Z.succ (Z.of_nat (length (digits64 s)))) mod 4) with ((0 + Z.of_nat (length (digits64 s))) mod 4) by (Z.div_mod_to_equations; lia). destruct (complete _ k); reflexivity.
Qed.

(** The octets written by the characters of [x]: their number in base 64 without its unused last bits. *)
Definition octets64 (x : bytes) : bytes := let n := Z.of_nat (length x) in z2be (Z.to_nat (6 * n / 8)) (number64 (digits64 x) / 2 ^ (6 * n mod 8)).

Lemma dec_bytes : forall ds q lc t, Forall (fun v => 0 <= v < 64) ds -> 0 <= q <= 3 -> 0 <= lc < 2 ^ bits q -> dec ds q lc = Ok t -> bytes_ok t = true.
Proof.
  induction ds as [|v ds IH]; intros q lc t F Q L D; cbn [dec] in D.
  - destruct (q =? 1); [discriminate D|]. injection D as <-. reflexivity.
  - inversion F as [|? ? V F']; subst. assert (QQ : q = 0 \/ q = 1 \/ q = 2 \/ q = 3) by lia. clear Q. destruct QQ as [-> |[-> |[-> | ->]]]; cbn [Z.eqb Pos.eqb] in D; cbn in L.
    + apply IH in D; [exact D|exact F'|lia|cbn; lia].
    + destruct (dec ds 2 (v mod 16)) as [u|] eqn:E; [|discriminate D]. cbn [bind] in D. injection D as <-. apply IH in E; [|exact F'|lia|cbn; Z.div_mod_to_equations; lia]. rewrite bytes_ok_cons, E. unfold is_byte. Z.div_mod_to_equations; lia.
    + destruct (dec ds 3 (v mod 4)) as [u|] eqn:E; [|discriminate D]. cbn [bind] in D. injection D as <-. apply IH in E; [|exact F'|lia|cbn; Z.div_mod_to_equations; lia]. rewrite bytes_ok_cons, E. unfold is_byte. Z.div_mod_to_equations; lia.
    + destruct (dec ds 0 0) as [u|] eqn:E; [|discriminate D]. cbn [bind] in D. injection D as <-. apply IH in E; [|exact F'|lia|cbn; lia]. rewrite bytes_ok_cons, E. unfold is_byte. lia.
Qed.

Lemma url_digit : forall c, url_char c -> exists v, digit64 c = Some v.
Proof.
  intros c U. unfold url_char in U. unfold digit64.
  repeat match goal with |- exists v, (if ?b then _ else _) = _ => destruct b eqn:?; [eexists; reflexivity|] end. exfalso. lia.
Qed.
Lemma url_digits : forall x, Forall url_char x -> length (digits64 x) = length x.
Proof. intros x F. induction F as [|c x U F IH]; [reflexivity|]. cbn [digits64]. destruct (url_digit c U) as [v ->]. cbn [length]. rewrite IH. reflexivity. Qed.
Lemma digits_app : forall a b, digits64 (a ++ b) = digits64 a ++ digits64 b.
Proof. induction a as [|c a IH]; intro b; [reflexivity|]. cbn [app digits64]. destruct (digit64 c); rewrite IH; reflexivity. Qed.
Lemma url_nopad : forall x, Forall url_char x -> nopad x.
Proof. intros x F I. rewrite Forall_forall in F. specialize (F 61 I). unfold url_char in F. lia. Qed.

(** The decoder on characters of the alphabet, possibly a newline, and padding. *)
Lemma decode_form : forall x nl k, Forall url_char x -> nl = [] \/ nl = [10] ->
  urlsafe_b64decode (x ++ nl ++ repeat 61 k) = if complete (Z.of_nat (length x) mod 4) k then Ok (octets64 x) else Raise EBinasciiError.
Proof.
  intros x nl k F N. unfold urlsafe_b64decode. rewrite app_assoc, map_app.
  assert (E : map tr_dec (repeat 61 k) = repeat 61 k) by (induction k as [|k IH]; [reflexivity|]; cbn [repeat map]; rewrite IH; reflexivity). rewrite E.
  assert (NP : nopad (x ++ nl)).
  { intro I. apply in_app_or in I. destruct I as [I|I]; [exact (url_nopad x F I)|]. destruct N as [-> | ->]; [destruct I|]. destruct I as [I|[]]. discriminate I. }
  assert (DG : digits64 (x ++ nl) = digits64 x) by (rewrite digits_app; destruct N as [-> | ->]; cbn; apply app_nil_r).
  rewrite a2b_pads by (assumption || lia). rewrite DG, url_digits, Z.add_0_l by exact F. destruct (complete (Z.of_nat (length x) mod 4) k) eqn:C; [|reflexivity].
  pose proof (dec_value (digits64 x) 0 0 (digits_range x) ltac:(lia) ltac:(cbn; lia)) as D. rewrite url_digits in D by exact F. rewrite Z.add_0_l in D. change (bits 0) with 0 in D. rewrite Z.add_0_l in D.
  destruct (Z.of_nat (length x) mod 4 =? 1) eqn:E1; [apply Z.eqb_eq in E1; rewrite E1 in C; cbn in C; discriminate C|].
  destruct D as (t & D & LT & T). rewrite D. f_equal. unfold octets64. rewrite Z.mul_0_l, Z.add_0_l in T.
  assert (B : bytes_ok t = true) by (apply (dec_bytes (digits64 x) 0 0); [apply digits_range|lia|cbn; lia|exact D]).
  rewrite <- T, <- LT, Nat2Z.id. symmetry. apply z2be_be2z. exact B.
Qed.

Lemma rstrip_form : forall x nl k, Forall url_char x -> nl = [] \/ nl = [10] -> rstrip 61 (x ++ nl ++ repeat 61 k) = x ++ nl.
Proof.
  intros x nl k F N. rewrite app_assoc, rstrip_app_repeat. apply rstrip_noop. intro I. apply in_app_or in I. destruct I as [I|I]; [exact (url_nopad x F I)|].
  destruct N as [-> | ->]; [destruct I|]. destruct I as [I|[]]. discriminate I.
Qed.
Lemma re_form : forall x nl, Forall url_char x -> nl = [] \/ nl = [10] -> b64_re_match (x ++ nl) = true.
Proof.
  intros x nl F N. unfold b64_re_match. apply url_chars_iff in F. destruct N as [-> | ->]; [rewrite app_nil_r, F; reflexivity|].
  rewrite rev_app_distr. cbn [rev app]. rewrite rev_involutive, F. apply orb_true_r.
Qed.

(** b64d of every text of this form. *)
Theorem b64d_form : forall x nl k, Forall url_char x -> nl = [] \/ nl = [10] ->
  b64d (x ++ nl ++ repeat 61 k) =
    match k with
    | O => if Z.of_nat (length (x ++ nl)) mod 4 =? 1 then Raise EBadSyntax else match nl with [] => Ok (octets64 x) | _ => Raise EBinasciiError end
    | _ => if complete (Z.of_nat (length x) mod 4) k then Ok (octets64 x) else Raise EBinasciiError
    end.
Proof.
  intros x nl k F N. unfold b64d. rewrite rstrip_form, re_form by assumption. cbn [negb]. destruct k as [|k].
  - cbn [repeat]. rewrite app_nil_r, zs_eqb_refl. unfold add_padding. set (n := Z.of_nat (length (x ++ nl)) mod 4).
    assert (M : n = 0 \/ n = 1 \/ n = 2 \/ n = 3) by (unfold n; Z.div_mod_to_equations; lia).
    assert (LN : Z.of_nat (length (x ++ nl)) = Z.of_nat (length x) + Z.of_nat (length nl)) by (rewrite app_length; lia).
    pose proof (decode_form x nl 0 F N) as D0. pose proof (decode_form x nl 1 F N) as D1. pose proof (decode_form x nl 2 F N) as D2. cbn [repeat] in D0, D1, D2. rewrite app_nil_r in D0.
    destruct N as [-> | ->]; cbn [length] in LN.
    + assert (M' : Z.of_nat (length x) mod 4 = n) by (unfold n; rewrite app_nil_r; reflexivity). rewrite M' in D0, D1, D2. rewrite app_nil_r in *. cbn [app] in *. clearbody n. destruct M as [M|[M|[M|M]]]; rewrite M in *; cbn [bind Z.eqb Pos.eqb]; [exact D0|reflexivity|exact D2|exact D1].
    + assert (M' : Z.of_nat (length x) mod 4 = (n + 3) mod 4) by (unfold n; rewrite LN; Z.div_mod_to_equations; lia). rewrite M' in D0, D1, D2.
      destruct M as [M|[M|[M|M]]]; rewrite M in *; cbn [bind Z.eqb Pos.eqb]; [exact D0|reflexivity| |]; rewrite <- app_assoc; [exact D2|exact D1].
  - assert (NE : zs_eqb (x ++ nl) (x ++ nl ++ repeat 61 (S k)) = false).
    { apply not_true_is_false. intro X. apply zs_eqb_eq in X. apply (f_equal (@length Z)) in X. rewrite !app_length, repeat_length in X. lia. }
    rewrite NE. cbn [bind]. apply decode_form; assumption.
Qed.

(** Everything else is refused. *)
Theorem b64d_other : forall b, (forall x nl k, Forall url_char x -> nl = [] \/ nl = [10] -> b <> x ++ nl ++ repeat 61 k) -> b64d b = Raise EBadSyntax.
Proof.
  intros b H. unfold b64d. destruct (b64_re_match (rstrip 61 b)) eqn:E; [|reflexivity]. exfalso. destruct (rstrip_app 61 b) as [k R]. apply b64_re_match_spec in E.
  destruct E as [E|(x & E & U)].
  - apply url_chars_iff in E. apply (H (rstrip 61 b) [] k E); [left; reflexivity|exact R].
  - apply url_chars_iff in U. apply (H x [10] k U); [right; reflexivity|]. rewrite app_assoc, <- E. exact R.
Qed.

(** The octet strings b64d decodes, and what they decode to. *)
Theorem b64d_exactly : forall b d, b64d b = Ok d <->
  exists x nl k, b = x ++ nl ++ repeat 61 k /\ Forall url_char x /\ (nl = [] \/ nl = [10] /\ k <> O) /\
    (let r := Z.of_nat (length x) mod 4 in r = 0 \/ 2 <= r /\ (k = O \/ 4 <= r + Z.of_nat k)) /\ d = octets64 x.
Proof.
  intros b d. split.
  - intro H. destruct (rstrip_app 61 b) as [k R]. pose proof (b64d_accepts' b d H) as A. cbv zeta in A.
    assert (FM : exists x nl, Forall url_char x /\ (nl = [] \/ nl = [10]) /\ b = x ++ nl ++ repeat 61 k).
    { destruct A as [A|(x & A & U)]; [exists (rstrip 61 b), []; auto|]. exists x, [10]. split; [exact U|]. split; [right; reflexivity|]. rewrite app_assoc, <- A. exact R. }
    destruct FM as (x & nl & F & N & E). exists x, nl, k. split; [exact E|]. split; [exact F|]. rewrite E, b64d_form in H by assumption. destruct k as [|k].
    + destruct (Z.of_nat (length (x ++ nl)) mod 4 =? 1) eqn:E1; [discriminate H|]. destruct nl; [|discriminate H]. rewrite app_nil_r in E1. injection H as <-. split; [left; reflexivity|]. split; [|reflexivity]. cbv zeta. Z.div_mod_to_equations; lia.
    + destruct (complete (Z.of_nat (length x) mod 4) (S k)) eqn:C; [|discriminate H]. injection H as <-. split; [destruct N as [-> | ->]; [left; reflexivity|right; split; [reflexivity|discriminate]]|]. split; [|reflexivity]. unfold complete in C. cbv zeta. lia.
  - intros (x & nl & k & -> & F & N & C & ->). cbv zeta in C. rewrite b64d_form; [|exact F|destruct N as [N|[N _]]; [left|right]; exact N]. destruct k as [|k].
    + destruct N as [-> |[_ N]]; [|congruence]. rewrite app_nil_r. replace (Z.of_nat (length x) mod 4 =? 1) with false by lia. reflexivity.
    + replace (complete (Z.of_nat (length x) mod 4) (S k)) with true by (unfold complete; lia). reflexivity.
Qed.

(** ** The texts of an octet string *)
Fixpoint text64 (w : nat) (n : Z) : bytes := match w with O => [] | S w' => text64 w' (n / 64) ++ [url_chr (n mod 64)] end.
Lemma number_snoc : forall ds v, number64 (ds ++ [v]) = number64 ds * 64 + v.
Proof. intros ds v. unfold number64. rewrite fold_left_app. reflexivity. Qed.
Lemma digit_chr : forall v, 0 <= v < 64 -> digit64 (url_chr v) = Some v.
Proof. intros v V. rewrite <- digit_val, tr_dec_url_chr by exact V. apply b64_val_chr. exact V. Qed.
Lemma text_length : forall w n, length (text64 w n) = w.
Proof. induction w as [|w IH]; intro n; [reflexivity|]. cbn [text64]. rewrite app_length, IH. cbn. lia. Qed.
Lemma text_chars : forall w n, Forall url_char (text64 w n).
Proof.
  induction w as [|w IH]; intro n; [constructor|]. cbn [text64]. apply Forall_app. split; [apply IH|]. constructor; [|constructor].
  apply url_char_iff, url_chr_char. apply Z.mod_pos_bound. lia.
Qed.
Lemma text_number : forall w n, 0 <= n < 64 ^ Z.of_nat w -> number64 (digits64 (text64 w n)) = n.
Proof.
  induction w as [|w IH]; intros n N; [cbn in *; lia|]. rewrite Nat2Z.inj_succ, Z.pow_succ_r in N by lia. cbn [text64].
  rewrite digits_app. cbn [digits64]. rewrite digit_chr by (apply Z.mod_pos_bound; lia). rewrite number_snoc, IH by (Z.div_mod_to_equations; nia). Z.div_mod_to_equations; lia.
Qed.
Lemma text_of_number : forall x, Forall url_char x -> text64 (length x) (number64 (digits64 x)) = x.
Proof.
  induction x as [|c x IH] using rev_ind; intro F; [reflexivity|]. apply Forall_app in F. destruct F as [F U]. inversion U as [|? ? UC _]; subst.
  apply url_char_iff, url_char_chr in UC. destruct UC as (v & V & ->). rewrite app_length. cbn [length]. rewrite Nat.add_1_r. cbn [text64]. rewrite digits_app. cbn [digits64]. rewrite digit_chr by exact V. rewrite number_snoc.
  replace ((number64 (digits64 x) * 64 + v) / 64) with (number64 (digits64 x)) by (Z.div_mod_to_equations; lia). replace ((number64 (digits64 x) * 64 + v) mod 64) with v by (Z.div_mod_to_equations; lia). rewrite IH by exact F. reflexivity.
Qed.
Lemma number_range : forall ds, Forall (fun v => 0 <= v < 64) ds -> 0 <= number64 ds < 64 ^ Z.of_nat (length ds).
Proof. intros ds F. induction F as [|v ds V F IH]; [cbn; lia|]. rewrite number_cons. cbn [length]. rewrite Nat2Z.inj_succ, Z.pow_succ_r by lia. nia. Qed.

Definition spare (len : Z) : Z := if len mod 3 =? 0 then 0 else if len mod 3 =? 1 then 4 else 2.
Lemma octets_iff : forall x d, Forall url_char x -> bytes_ok d = true ->
  (Z.of_nat (length x) mod 4 <> 1 /\ d = octets64 x <->
   Z.of_nat (length x) = (4 * Z.of_nat (length d) + 2) / 3 /\ number64 (digits64 x) / 2 ^ spare (Z.of_nat (length d)) = be2z d).
Proof.
  intros x d F B. pose proof (number_range (digits64 x) (digits_range x)) as R. rewrite url_digits in R by exact F. unfold octets64. cbv zeta. set (n := Z.of_nat (length x)) in *. set (N := number64 (digits64 x)) in *.
  assert (N0 : 0 <= n) by (unfold n; lia). rewrite (Z.pow_mul_r 2 6 n) in * || change 64 with (2 ^ 6) in R. rewrite <- Z.pow_mul_r in R by lia.
  assert (SZ : 0 <= N / 2 ^ (6 * n mod 8) < 256 ^ Z.of_nat (Z.to_nat (6 * n / 8))).
  { rewrite pow256, Z2Nat.id by (Z.div_mod_to_equations; lia). split; [apply Z.div_pos; [lia|apply Z.pow_pos_nonneg; Z.div_mod_to_equations; lia]|].
    apply Z.div_lt_upper_bound; [apply Z.pow_pos_nonneg; Z.div_mod_to_equations; lia|]. rewrite <- Z.pow_add_r by (Z.div_mod_to_equations; lia). replace (6 * n mod 8 + 8 * (6 * n / 8)) with (6 * n) by (Z.div_mod_to_equations; lia). lia. }
  split.
  - intros [M E]. assert (L : Z.of_nat (length d) = 6 * n / 8) by (rewrite E, z2be_length, Z2Nat.id; [reflexivity|Z.div_mod_to_equations; lia]).
    split; [rewrite L; Z.div_mod_to_equations; lia|]. replace (spare (Z.of_nat (length d))) with (6 * n mod 8) by (rewrite L; unfold spare; repeat match goal with |- context [if ?b then _ else _] => destruct b eqn:? end; Z.div_mod_to_equations; lia).
    rewrite E, be2z_z2be by exact SZ. reflexivity.
  - intros [M E]. split; [rewrite M; Z.div_mod_to_equations; lia|].
    assert (L : 6 * n / 8 = Z.of_nat (length d)) by (rewrite M; Z.div_mod_to_equations; lia).
    assert (S' : spare (Z.of_nat (length d)) = 6 * n mod 8) by (rewrite M; unfold spare; repeat match goal with |- context [if ?b then _ else _] => destruct b eqn:? end; Z.div_mod_to_equations; lia).
    rewrite S' in E. rewrite L, Nat2Z.id, E. symmetry. apply z2be_be2z. exact B.
Qed.

(** The texts without padding that b64d decodes to [d]: 1, 16 or 4 of them. *)
Theorem texts : forall d, bytes_ok d = true -> exists l, NoDup l /\
  Z.of_nat (length l) = (if Z.of_nat (length d) mod 3 =? 0 then 1 else if Z.of_nat (length d) mod 3 =? 1 then 16 else 4) /\
  (forall b, ~ In 61 b /\ b64d b = Ok d <-> In b l).
Proof.
  intros d B. set (n := Z.of_nat (length d)). set (e := spare n). set (w := Z.to_nat ((4 * n + 2) / 3)).
  assert (N0 : 0 <= n) by (unfold n; lia). assert (E0 : 0 <= e) by (unfold e, spare; repeat match goal with |- context [if ?b then _ else _] => destruct b end; lia). assert (P : 0 < 2 ^ e) by (apply Z.pow_pos_nonneg; lia).
  assert (W : Z.of_nat w = (4 * n + 2) / 3) by (unfold w; rewrite Z2Nat.id; [reflexivity|Z.div_mod_to_equations; lia]).
  assert (R : 0 <= be2z d < 256 ^ n) by (unfold n; apply be2z_bound; exact B).
  assert (BND : forall j, 0 <= j < 2 ^ e -> 0 <= be2z d * 2 ^ e + j < 64 ^ Z.of_nat w).
  { intros j J. rewrite pow64, W. replace (6 * ((4 * n + 2) / 3)) with (8 * n + e) by (unfold e, spare; repeat match goal with |- context [if ?b then _ else _] => destruct b eqn:? end; Z.div_mod_to_equations; lia).
    rewrite Z.pow_add_r by lia. rewrite Z.pow_mul_r by lia. change (2 ^ 8) with 256. nia. }
  exists (map (fun j => text64 w (be2z d * 2 ^ e + Z.of_nat j)) (seq 0 (Z.to_nat (2 ^ e)))). split; [|split].
  -
    assert (G : forall l, NoDup l -> (forall j, In j l -> Z.of_nat j < 2 ^ e) -> NoDup (map (fun j => text64 w (be2z d * 2 ^ e + Z.of_nat j)) l)).
    { intros l ND. induction ND as [|a l NI ND IH]; intro H; [constructor|]. cbn [map]. constructor; [|apply IH; intros j I; apply H; right; exact I].
      intro I. apply in_map_iff in I. destruct I as (j & E & I). apply NI. replace a with j; [exact I|]. apply (f_equal (fun t => number64 (digits64 t))) in E.
      pose proof (H j (or_intror I)) as J1. pose proof (H a (or_introl eq_refl)) as J2. rewrite !text_number in E by (apply BND; lia). lia. }
    apply G; [apply seq_NoDup|]. intros j I. apply in_seq in I. lia.
  - rewrite map_length, seq_length, Z2Nat.id by lia. unfold e, spare. fold n. destruct (n mod 3 =? 0); [reflexivity|]. destruct (n mod 3 =? 1); reflexivity.
  - intro b. rewrite b64d_exactly. split.
    + intros (NB & x & nl & k & E & F & NL & C & D). assert (k = O) as -> by (destruct k as [|k]; [reflexivity|]; exfalso; apply NB; rewrite E; apply in_or_app; right; apply in_or_app; right; left; reflexivity).
      destruct NL as [-> |[_ NL]]; [|congruence]. cbn [repeat app] in E. rewrite app_nil_r in E. subst b. cbv zeta in C.
      assert (M1 : Z.of_nat (length x) mod 4 <> 1) by (destruct C as [C|[C _]]; lia). destruct (proj1 (octets_iff x d F B) (conj M1 D)) as [L V]. fold n in L, V. fold e in V. apply in_map_iff. exists (Z.to_nat (number64 (digits64 x) mod 2 ^ e)).
      pose proof (Z.mod_pos_bound (number64 (digits64 x)) (2 ^ e) P) as MB. rewrite Z2Nat.id by lia. split; [|apply in_seq; lia].
      rewrite <- V, Z.mul_comm, <- Z.div_mod by lia. replace w with (length x) by (apply Nat2Z.inj; rewrite W; exact L). apply text_of_number. exact F.
    + intro I. apply in_map_iff in I. destruct I as (j & <- & I). apply in_seq in I. assert (J : 0 <= Z.of_nat j < 2 ^ e) by lia. set (x := text64 w (be2z d * 2 ^ e + Z.of_nat j)).
      assert (F : Forall url_char x) by apply text_chars. split; [exact (url_nopad x F)|]. exists x, [], O. split; [cbn [repeat app]; rewrite app_nil_r; reflexivity|]. split; [exact F|]. split; [left; reflexivity|].
      destruct (proj2 (octets_iff x d F B)) as [M D].
      { unfold x. rewrite text_length, text_number by (apply BND; exact J). fold n. fold e. split; [exact W|]. rewrite Z.add_comm, Z.div_add by lia. rewrite Z.div_small by lia. lia. }
      split; [|exact D]. cbv zeta. Z.div_mod_to_equations; lia.
Qed.

(** What b64d raises. *)
Definition formed (b : bytes) : Prop := exists x nl k, Forall url_char x /\ (nl = [] \/ nl = [10]) /\ b = x ++ nl ++ repeat 61 k.
Lemma formed_or_not : forall b, formed b \/ (forall x nl k, Forall url_char x -> nl = [] \/ nl = [10] -> b <> x ++ nl ++ repeat 61 k).
Proof.
  intro b. destruct (b64_re_match (rstrip 61 b)) eqn:E.
  - left. destruct (rstrip_app 61 b) as [k R]. apply b64_re_match_spec in E. destruct E as [E|(x & E & U)].
    + apply url_chars_iff in E. exists (rstrip 61 b), [], k. auto.
    + apply url_chars_iff in U. exists x, [10], k. split; [exact U|]. split; [right; reflexivity|]. rewrite app_assoc, <- E. exact R.
  - right. intros x nl k F N ->. rewrite rstrip_form, re_form in E by assumption. discriminate E.
Qed.
Theorem b64d_bad_syntax : forall b, b64d b = Raise EBadSyntax <->
  (forall x nl k, Forall url_char x -> nl = [] \/ nl = [10] -> b <> x ++ nl ++ repeat 61 k) \/
  exists x nl, b = x ++ nl /\ Forall url_char x /\ (nl = [] \/ nl = [10]) /\ Z.of_nat (length b) mod 4 = 1.
Proof.
  intro b. split.
  - intro H. destruct (formed_or_not b) as [(x & nl & k & F & N & E)|NF]; [right|left; exact NF]. rewrite E, b64d_form in H by assumption. destruct k as [|k].
    + cbn [repeat] in E. rewrite app_nil_r in E. exists x, nl. split; [exact E|]. split; [exact F|]. split; [exact N|]. rewrite E. destruct (Z.of_nat (length (x ++ nl)) mod 4 =? 1) eqn:M; [lia|]. destruct nl; discriminate H.
    + destruct (complete (Z.of_nat (length x) mod 4) (S k)); discriminate H.
  - intros [NF|(x & nl & E & F & N & M)]; [exact (b64d_other b NF)|]. pose proof (b64d_form x nl 0 F N) as D. cbn [repeat] in D. rewrite app_nil_r, <- E in D. rewrite D, M. reflexivity.
Qed.
Theorem b64d_raises : forall b e, b64d b = Raise e -> e = EBadSyntax \/ e = EBinasciiError.
Proof.
  intros b e H. destruct (formed_or_not b) as [(x & nl & k & F & N & E)|NF].
  - rewrite E, b64d_form in H by assumption. destruct k as [|k].
    + destruct (Z.of_nat (length (x ++ nl)) mod 4 =? 1); [injection H as <-; left; reflexivity|]. destruct nl; [discriminate H|]. injection H as <-. right. reflexivity.
    + destruct (complete (Z.of_nat (length x) mod 4) (S k)); [discriminate H|]. injection H as <-. right. reflexivity.
  - rewrite (b64d_other b NF) in H. injection H as <-. left. reflexivity.
Qed.
