(** * Proofs about PBKDF2.crypt *)
From Coq Require Import ZArith List Bool Lia ZifyBool.
From Verif Require Import Base BaseProofs Utf8 Codec CodecProofs Prims Pbkdf2 Pbkdf2Proofs.
Import ListNotations.
Open Scope Z_scope.

(** ** Hexadecimal iteration counts *)
Lemma low_hex : forall v, 0 <= v < 16 -> low_digit (hex_digit v) = Some v.
Proof. intros v H. unfold low_digit, hex_digit. destruct (v <? 10) eqn:E; [replace ((48 <=? 48 + v) && (48 + v <=? 57)) with true by lia; f_equal; lia|]. replace ((48 <=? 87 + v) && (87 + v <=? 57)) with false by lia. replace ((97 <=? 87 + v) && (87 + v <=? 102)) with true by lia. f_equal; lia. Qed.
Lemma from_hex_app : forall a b acc, from_hex (a ++ b) acc = (n <- from_hex a acc;; from_hex b n).
Proof. induction a as [|c a IH]; intros b acc; [reflexivity|]. cbn [app from_hex]. destruct (low_digit c); [apply IH|reflexivity]. Qed.
Lemma from_hexw : forall w n, 0 <= n < 16 ^ Z.of_nat w -> from_hex (hexw w n) 0 = Ok n.
Proof.
  induction w as [|w IH]; intros n H; [change (16 ^ Z.of_nat 0) with 1 in H; cbn; f_equal; lia|]. cbn [hexw].
  rewrite Nat2Z.inj_succ, Z.pow_succ_r in H by lia. rewrite from_hex_app, IH by lia. cbn [bind from_hex]. rewrite low_hex by lia. f_equal. lia.
Qed.
Lemma width : forall n, 0 <= n -> exists w, (w = O \/ 16 ^ Z.of_nat w <= n) /\ 0 <= n < 16 ^ Z.of_nat (S w).
Proof.
  intros n H. assert (G : forall k, 0 <= n < 16 ^ Z.of_nat k -> exists w, (w = O \/ 16 ^ Z.of_nat w <= n) /\ 0 <= n < 16 ^ Z.of_nat (S w)).
  { induction k as [|k IH]; intro L.
    - exists O. split; [left; reflexivity|]. change (16 ^ Z.of_nat 0) with 1 in L. change (16 ^ Z.of_nat 1) with 16. lia.
    - destruct (Z.ltb_spec n (16 ^ Z.of_nat k)); [apply IH; lia|]. exists k. split; [right; assumption|assumption]. }
  apply (G (Z.to_nat n)). split; [exact H|]. rewrite Z2Nat.id by exact H. apply Z.pow_gt_lin_r; lia.
Qed.
Definition hex_char (c : Z) : bool := ((48 <=? c) && (c <=? 57)) || ((97 <=? c) && (c <=? 102)).
Lemma hexw_chars : forall w n, forallb hex_char (hexw w n) = true.
Proof.
  induction w as [|w IH]; intro n; [reflexivity|]. cbn [hexw]. rewrite forallb_app, IH. cbn [forallb andb]. unfold hex_char, hex_digit. destruct (n mod 16 <? 10) eqn:E; lia.
Qed.
Lemma percent_spec : forall n, 1 <= n -> percent_x n <> [] /\ from_hex (percent_x n) 0 = Ok n /\ forallb hex_char (percent_x n) = true.
Proof.
  intros n H. unfold percent_x. replace (n <? 0) with false by lia. destruct (width n ltac:(lia)) as (w & L & B). rewrite (py_hex_hexw w n L B). split; [|split].
  - intro E. apply (f_equal (@length Z)) in E. rewrite hexw_length in E. discriminate E.
  - apply from_hexw. exact B.
  - apply hexw_chars.
Qed.

(** ** The base64 of the hash *)
Definition dot_slash (s : bytes) : bytes := map (tr_chars 46 47) (b64encode s).
Lemma sextet : forall v, 0 <= v < 64 -> salt_char (tr_chars 46 47 (b64_chr v)) = true.
Proof. apply (sweep (fun v => salt_char (tr_chars 46 47 (b64_chr v))) 64). vm_compute. reflexivity. Qed.
Lemma dot_slash_chars : forall s, bytes_ok s = true -> (length s mod 3 = 0)%nat -> forallb salt_char (dot_slash s) = true /\ length (dot_slash s) = (length s / 3 * 4)%nat.
Proof.
  unfold dot_slash. induction s as [|a|a b|a b c r IH] using list_ind3; intros H L; [split; reflexivity|discriminate L|discriminate L|].
  apply bytes3 in H. destruct H as [Ha H]. apply bytes3 in H. destruct H as [Hb H]. apply bytes3 in H. destruct H as [Hc H].
  change (length (a :: b :: c :: r)) with (3 + length r)%nat in *. replace (3 + length r)%nat with (length r + 1 * 3)%nat in * by lia. rewrite Nat.mod_add in L by lia. rewrite Nat.div_add by lia.
  destruct (IH H L) as [I1 I2]. cbn [b64encode map forallb length]. rewrite I1, I2. rewrite !sextet by lia. split; [reflexivity|lia].
Qed.

(** ** The salt string *)
Definition full_salt (n : Z) (salt : bytes) : bytes := PREFIX ++ (if n =? 400 then [] else percent_x n) ++ 36 :: salt.
Lemma not_dollar : forall f l, forallb f l = true -> f 36 = false -> ~ In 36 l.
Proof. intros f l H N I. rewrite forallb_forall in H. rewrite (H _ I) in N. discriminate N. Qed.
Lemma chars_ascii : forall f l, forallb f l = true -> (forall c, f c = true -> 0 <= c < 128) -> ascii l = true.
Proof. intros f l H N. unfold ascii. rewrite forallb_forall in *. intros c I. specialize (N c (H c I)). lia. Qed.
Lemma salt_ascii : forall l, forallb salt_char l = true -> ascii l = true.
Proof. intros l H. apply (chars_ascii _ _ H). unfold salt_char. intros c C. lia. Qed.
Lemma hex_ascii : forall l, forallb hex_char l = true -> ascii l = true.
Proof. intros l H. apply (chars_ascii _ _ H). unfold hex_char. intros c C. lia. Qed.
Lemma ascii_app : forall a b, ascii (a ++ b) = ascii a && ascii b.
Proof. intros. unfold ascii. apply forallb_app. Qed.
Lemma full_ascii : forall n salt, 1 <= n -> forallb salt_char salt = true -> ascii (full_salt n salt) = true.
Proof.
  intros n salt N S. unfold full_salt. rewrite !ascii_app. change (36 :: salt) with ([36] ++ salt). rewrite ascii_app, (salt_ascii _ S). destruct (n =? 400); [reflexivity|].
  rewrite (hex_ascii _ (proj2 (proj2 (percent_spec n N)))). reflexivity.
Qed.
Lemma starts_app : forall p s, startswith (p ++ s) p = true.
Proof. induction p as [|x p IH]; intro s; [destruct s; reflexivity|]. cbn [app startswith]. rewrite Z.eqb_refl. apply IH. Qed.
Lemma zs_refl : forall l, zs_eqb l l = true.
Proof. intro l. apply zs_eqb_eq. reflexivity. Qed.
Lemma parts_of_hash : forall n salt h it, 1 <= n -> forallb salt_char salt = true -> ~ In 36 h ->
  salt_parts (full_salt n salt ++ 36 :: h) it = Ok (VInt n, salt).
Proof.
  intros n salt h it N S H. unfold salt_parts, full_salt. rewrite <- !app_assoc. rewrite starts_app. cbn [app].
  assert (SP : forall c, ~ In 36 c -> split 36 (PREFIX ++ c ++ 36 :: salt ++ 36 :: h) = [] :: lit "p5k2" :: c :: salt :: [h]).
  { intros c C. change (PREFIX ++ c ++ 36 :: salt ++ 36 :: h) with (([] : list Z) ++ 36 :: (lit "p5k2" ++ 36 :: c ++ 36 :: salt ++ 36 :: h)).
    rewrite split_app_sep by intros []. f_equal. rewrite split_app_sep by (apply (not_dollar (fun x => negb (x =? 36))); reflexivity). f_equal.
    rewrite split_app_sep by exact C. f_equal. rewrite split_app_sep by (apply (not_dollar salt_char); [exact S|reflexivity]). f_equal. apply split_no_sep_id. exact H. }
  destruct (n =? 400) eqn:E.
  - pose proof (SP [] ltac:(intros [])) as X. cbn [app] in X |- *. rewrite X. cbn [skipn]. apply Z.eqb_eq in E. subst. reflexivity.
  - destruct (percent_spec n N) as (P1 & P2 & P3). rewrite SP by (apply (not_dollar hex_char); [exact P3|reflexivity]). cbn [skipn].
    destruct (percent_x n) as [|c r] eqn:PX; [congruence|]. rewrite P2. cbn [bind]. rewrite PX, zs_refl. replace (n <? 1) with false by lia. reflexivity.
Qed.

(** ** What crypt returns on Python 2 *)
Section Crypt.
Variable P : prims.
Hypothesis HM : hmac_law P.

Definition octets24 (word salt : bytes) (n : Z) : list Z := map (stream P word salt (Z.to_nat n)) (seq 0 24).
Definition hashed (word salt : bytes) (n : Z) : res bytes :=
  let s := full_salt n salt in
  let o := octets24 word s n in
  if (n =? 1) || ascii o then Ok (s ++ 36 :: dot_slash o) else Raise EUnicodeEncodeError.

Definition crypt_tail (word salt : bytes) (n : Z) : res bytes :=
  o <- pb_new Py2 (VBytes word) (VBytes (full_salt n salt)) (VInt n);; raw <- snd (read P (Some o) 24);; h <- b64enc 46 47 raw;; Ok (full_salt n salt ++ 36 :: h).
Lemma tail_eq : forall word salt n, ascii word = true -> forallb salt_char salt = true -> 1 <= n < 2 ^ 63 -> crypt_tail word salt n = hashed word salt n.
Proof.
  intros word salt n W S N. unfold crypt_tail. pose proof (py2_constructs word (full_salt n salt) n W (full_ascii n salt (proj1 N) S) N) as NEW. rewrite NEW. cbn [bind].
  destruct (read_step P HM _ 0 24 (fresh P _ _ _ _ _ NEW)) as [(s' & v & m & R & _ & _ & _ & _ & C & M & _ & TY)|[_ O]]; [|lia].
  rewrite R. cbn [snd bind]. specialize (M ltac:(lia)). subst m. cbn [b_pw b_salt b_iter] in C, TY. change (first_octets P word (full_salt n salt) (Z.to_nat n) 0 (Z.to_nat 24)) with (octets24 word (full_salt n salt) n) in C.
  unfold hashed. cbv zeta. destruct (n =? 1) eqn:E; cbn [orb].
  - assert (exists b, v = VBytes b) as [b ->] by (destruct TY as [[b ->]| ->]; eexists; reflexivity). cbn [chars] in C. subst b. reflexivity.
  - destruct TY as [[t ->]| ->].
    + cbn [chars] in C. subst t. cbn [b64enc]. unfold ascii_encode. destruct (ascii (octets24 word (full_salt n salt) n)); reflexivity.
    + cbn [chars] in C. apply (f_equal (@length Z)) in C. unfold octets24 in C. rewrite map_length in C. discriminate C.
Qed.
Lemma octets24_ok : forall word salt n, ascii word = true -> ascii salt = true -> 1 <= n -> bytes_ok (octets24 word salt n) = true \/ ascii (octets24 word salt n) = false.
Proof. intros. destruct (ascii (octets24 word salt n)) eqn:A; [left; apply ascii_bytes; exact A|right; reflexivity]. Qed.

Lemma stream_byte1 : forall pw salt k, bytes_ok pw = true -> bytes_ok salt = true -> is_byte (stream P pw salt 1 k) = true.
Proof.
  intros pw salt k Bp Bs. unfold stream, T. set (i := Z.of_nat (k / 20) + 1). pose proof (Nat.mod_upper_bound k 20 ltac:(lia)) as L.
  rewrite (nth_indep _ 0 (fold_right Z.lxor 0 (map (fun j => nth 0 (U P pw salt i j) 0) (seq 0 1)))) by (rewrite map_length, seq_length; exact L).
  rewrite (map_nth (fun k => fold_right Z.lxor 0 (map (fun j => nth k (U P pw salt i j) 0) (seq 0 1)))). rewrite seq_nth by exact L. cbn [Nat.add seq map fold_right].
  rewrite Z.lxor_0_r. destruct (U_ok P HM pw salt i 0 Bp Bs) as [UL UB]. unfold bytes_ok in UB. rewrite forallb_forall in UB. apply UB. apply nth_In. rewrite UL. exact L.
Qed.
Lemma hash_chars : forall word salt n h, ascii word = true -> forallb salt_char salt = true -> 1 <= n -> hashed word salt n = Ok h ->
  exists t, h = full_salt n salt ++ 36 :: t /\ forallb salt_char t = true /\ length t = 32%nat.
Proof.
  intros word salt n h W S N H. unfold hashed in H. cbv zeta in H. destruct ((n =? 1) || ascii (octets24 word (full_salt n salt) n)) eqn:C; [|discriminate]. injection H as <-. eexists. split; [reflexivity|].
  assert (B : bytes_ok (octets24 word (full_salt n salt) n) = true).
  { apply orb_true_iff in C. destruct C as [C|C]; [|apply ascii_bytes; exact C]. apply Z.eqb_eq in C. subst n. unfold bytes_ok, octets24. apply forallb_forall. intros x I. apply in_map_iff in I. destruct I as (k & <- & _).
    apply stream_byte1; apply ascii_bytes; [exact W|apply full_ascii; [lia|exact S]]. }
  assert (L : length (octets24 word (full_salt n salt) n) = 24%nat) by (unfold octets24; rewrite map_length; reflexivity).
  destruct (dot_slash_chars _ B) as [D1 D2]; [rewrite L; reflexivity|]. split; [exact D1|]. rewrite D2, L. reflexivity.
Qed.

(** A salt without parameters: characters of the alphabet only. *)
Lemma no_prefix : forall salt, forallb salt_char salt = true -> startswith salt PREFIX = false.
Proof.
  intros salt S. destruct salt as [|c r]; [reflexivity|]. cbn [startswith]. change PREFIX with (36 :: lit "p5k2$"). cbn [startswith forallb] in *. apply andb_true_iff in S.
  destruct (36 =? c) eqn:E; [|reflexivity]. apply Z.eqb_eq in E. subst c. destruct S as [S _]. discriminate S.
Qed.
Definition count_of (iters : pval) : Z := match iters with VInt n => n | _ => 400 end.
Lemma crypt_body : forall r word salt iters n s, ascii word = true -> ascii salt = true -> salt_parts salt iters = Ok (VInt n, s) \/ (n = 400 /\ salt_parts salt iters = Ok (VNone, s)) -> forallb salt_char s = true ->
  crypt P Py2 r (VBytes word) (VBytes salt) iters = crypt_tail word s n.
Proof.
  intros r word salt iters n s W A SP S. unfold crypt. cbn [bind coerce_salt coerce]. rewrite A, W. cbn [bind].
  destruct SP as [SP|[-> SP]]; rewrite SP; cbn [bind]; rewrite S.
  - unfold crypt_tail, full_salt. destruct (n =? 400) eqn:E; [apply Z.eqb_eq in E; subst n|]; reflexivity.
  - reflexivity.
Qed.
Theorem crypt_result : forall r word salt iters, ascii word = true -> forallb salt_char salt = true -> iters = VNone \/ (exists n, iters = VInt n /\ 1 <= n < 2 ^ 63) ->
  crypt P Py2 r (VBytes word) (VBytes salt) iters = hashed word salt (count_of iters).
Proof.
  intros r word salt iters W S I.
  rewrite <- tail_eq; [|exact W|exact S|destruct I as [->|(n & -> & N)]; cbn [count_of]; [change (2 ^ 63) with 9223372036854775808; lia|exact N]].
  apply crypt_body; [exact W|exact (salt_ascii _ S)| |exact S]. unfold salt_parts. rewrite (no_prefix _ S). destruct I as [->|(n & -> & N)]; [right; split; reflexivity|left; reflexivity].
Qed.

(** The result carries its own salt and count: hashing again gives it back. *)
Lemma parts_inv : forall salt iters it s, salt_parts salt iters = Ok (it, s) -> it = iters \/ exists n, it = VInt n.
Proof.
  intros salt iters it s H. unfold salt_parts in H. destruct (startswith salt PREFIX); [|injection H as <- _; left; reflexivity]. right.
  destruct (skipn 2 (split 36 salt)) as [|x [|y [|z t]]]; try discriminate H.
  destruct x as [|c x]; [injection H as <- _; exists 400; reflexivity|]. destruct (from_hex (c :: x) 0) as [m|]; [|discriminate H]. cbn [bind] in H. destruct (zs_eqb _ _); [|discriminate H]. destruct (m <? 1); [discriminate H|].
  injection H as <- _. exists m. reflexivity.
Qed.
Lemma tail_count : forall word salt n h, crypt_tail word salt n = Ok h -> 1 <= n < 2 ^ 63 /\ ascii word = true.
Proof.
  intros word salt n h H. unfold crypt_tail in H. destruct (pb_new _ _ _ _) as [s|] eqn:E; [|discriminate H]. apply new_inv in E. destruct E as (_ & E1 & _ & A & _ & I & PI & _). injection E1 as ->. split; [|exact A].
  unfold py_int in PI. destruct (andb _ _) eqn:X in PI; [|discriminate PI]. injection PI as PI. change (2 ^ 63) with 9223372036854775808 in *. lia.
Qed.
Lemma crypt_shape : forall r word salt iters h, crypt P Py2 r word salt iters = Ok h ->
  exists w s n, word = VBytes w /\ ascii w = true /\ forallb salt_char s = true /\ 1 <= n < 2 ^ 63 /\ hashed w s n = Ok h.
Proof.
  intros r word salt iters h H. unfold crypt in H. destruct (match salt with VNone => _ | _ => _ end) as [salt'|] in H; [|discriminate H]. cbn [bind] in H.
  destruct (coerce_salt Py2 salt') as [sb|]; [|discriminate H]. cbn [bind] in H. destruct (coerce Py2 word) as [w|] eqn:CW; [|discriminate H]. cbn [bind] in H. apply coerced in CW. destruct CW as (_ & -> & W).
  destruct (salt_parts sb iters) as [[it s]|]; [|discriminate H]. cbn [bind] in H. destruct (forallb salt_char s) eqn:S; [|discriminate H].
  assert (G : exists n, crypt_tail w s n = Ok h).
  { destruct it; try discriminate H.
    - exists 400. exact H.
    - exists z. unfold crypt_tail, full_salt. destruct (z =? 400) eqn:E; cbn [bind] in H; [apply Z.eqb_eq in E; subst z|]; exact H. }
  destruct G as [n G]. destruct (tail_count _ _ _ _ G) as [N _]. exists w, s, n. repeat (split; [solve [reflexivity|assumption|apply N]|]). rewrite <- (tail_eq w s n W S N). exact G.
Qed.
Theorem crypt_again : forall r r' word salt iters iters' h, crypt P Py2 r word salt iters = Ok h -> crypt P Py2 r' word (VBytes h) iters' = Ok h.
Proof.
  intros r r' word salt iters iters' h H. destruct (crypt_shape _ _ _ _ _ H) as (w & s & n & -> & W & S & N & G).
  destruct (hash_chars w s n h W S (proj1 N) G) as (t & -> & T & _).
  rewrite (crypt_body r' w _ iters' n s W); [rewrite (tail_eq w s n W S N); exact G| | |exact S].
  - rewrite ascii_app, (full_ascii n s (proj1 N) S). change (36 :: t) with ([36] ++ t). rewrite ascii_app, (salt_ascii _ T). reflexivity.
  - left. apply parts_of_hash; [apply N|exact S|]. apply (not_dollar salt_char); [exact T|reflexivity].
Qed.
Theorem crypt_format : forall r word salt iters h, crypt P Py2 r word salt iters = Ok h -> exists n s t, 1 <= n /\
  h = lit "$p5k2$" ++ (if n =? 400 then [] else percent_x n) ++ [36] ++ s ++ [36] ++ t /\ forallb salt_char s = true /\ forallb salt_char t = true /\ length t = 32%nat.
Proof.
  intros r word salt iters h H. destruct (crypt_shape _ _ _ _ _ H) as (w & s & n & -> & W & S & N & G). destruct (hash_chars w s n h W S (proj1 N) G) as (t & -> & T & L).
  exists n, s, t. split; [apply N|]. split; [|auto]. unfold full_salt. rewrite <- !app_assoc. reflexivity.
Qed.
(** With one iteration nothing stands in the way. *)
Theorem crypt_one : forall r word salt, ascii word = true -> forallb salt_char salt = true -> exists h, crypt P Py2 r (VBytes word) (VBytes salt) (VInt 1) = Ok h.
Proof.
  intros r word salt W S. rewrite (crypt_result r word salt (VInt 1) W S); [|right; exists 1; split; [reflexivity|change (2 ^ 63) with 9223372036854775808; lia]].
  cbn [count_of]. unfold hashed. cbn [Z.eqb Pos.eqb orb]. eexists. reflexivity.
Qed.
(** A generated salt is accepted as a salt. *)
Theorem made_salt : forall a b c, 0 <= a < 65536 -> 0 <= b < 65536 -> 0 <= c < 65536 -> exists s, makesalt Py2 (a, b, c) = Ok (VBytes s) /\ forallb salt_char s = true /\ length s = 8%nat.
Proof.
  intros a b c A B C. unfold makesalt. cbn [b64enc bind]. eexists. split; [reflexivity|]. fold (dot_slash [a mod 256; a / 256; b mod 256; b / 256; c mod 256; c / 256]).
  apply (dot_slash_chars [a mod 256; a / 256; b mod 256; b / 256; c mod 256; c / 256]); [|reflexivity].
  unfold bytes_ok. cbn [forallb]. unfold is_byte.
  pose proof (Z.mod_pos_bound a 256). pose proof (Z.mod_pos_bound b 256). pose proof (Z.mod_pos_bound c 256).
  assert (forall x, 0 <= x < 65536 -> 0 <= x / 256 < 256) as D by (intros x X; split; [apply Z.div_pos; lia|apply Z.div_lt_upper_bound; lia]).
  pose proof (D a A). pose proof (D b B). pose proof (D c C). lia.
Qed.
Theorem crypt_none : forall a b c word iters, 0 <= a < 65536 -> 0 <= b < 65536 -> 0 <= c < 65536 ->
  exists s, forallb salt_char s = true /\ length s = 8%nat /\ crypt P Py2 (a, b, c) word VNone iters = crypt P Py2 (a, b, c) word (VBytes s) iters.
Proof.
  intros a b c word iters A B C. destruct (made_salt a b c A B C) as (s & M & S & L). exists s. split; [exact S|]. split; [exact L|]. unfold crypt. rewrite M. reflexivity.
Qed.
End Crypt.
