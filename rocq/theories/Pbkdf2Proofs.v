(** * Proofs about PBKDF2.py *)
From Coq Require Import ZArith List Bool Lia ZifyBool.
From Verif Require Import Base BaseProofs Utf8 Codec CodecProofs Prims Pbkdf2.
Import ListNotations.
Open Scope Z_scope.

(** ** PKCS#5: T_i = U_1 xor ... xor U_c, and the stream T_1 T_2 ... *)
Section Spec.
Variable P : prims.
Fixpoint U (pw salt : bytes) (i : Z) (j : nat) : bytes :=
  match j with O => p_hmac P SHA1 pw (salt ++ z2be 4 i) | S m => p_hmac P SHA1 pw (U pw salt i m) end.
Definition T (pw salt : bytes) (c : nat) (i : Z) : list Z :=
  map (fun k => fold_right Z.lxor 0 (map (fun j => nth k (U pw salt i j) 0) (seq 0 c))) (seq 0 20).
Definition stream (pw salt : bytes) (c : nat) (k : nat) : Z := nth (k mod 20) (T pw salt c (Z.of_nat (k / 20) + 1)) 0.

Lemma fold_xor_app : forall l a, fold_right Z.lxor 0 (l ++ [a]) = Z.lxor (fold_right Z.lxor 0 l) a.
Proof. induction l as [|x l IH]; intro a; cbn [app fold_right]; [apply Z.lxor_comm|]. rewrite IH. rewrite Z.lxor_assoc. reflexivity. Qed.
Lemma as_map : forall (u : list Z), u = map (fun k => nth k u 0) (seq 0 (length u)).
Proof.
  induction u as [|x u IH]; [reflexivity|]. cbn [length seq map nth]. f_equal. rewrite <- seq_shift, map_map. exact IH.
Qed.
Lemma zipxor_map : forall (f g : nat -> Z) l, zipxor (map f l) (map g l) = map (fun k => Z.lxor (f k) (g k)) l.
Proof. induction l as [|x l IH]; [reflexivity|]. cbn [map zipxor]. rewrite IH. reflexivity. Qed.

Hypothesis HM : hmac_law P.
Lemma U_ok : forall pw salt i j, bytes_ok pw = true -> bytes_ok salt = true -> length (U pw salt i j) = 20%nat /\ bytes_ok (U pw salt i j) = true.
Proof.
  intros pw salt i j Bp Bs. induction j as [|j IH]; cbn [U]; [|apply (HM SHA1); [exact Bp|apply IH]].
  apply (HM SHA1); [exact Bp|]. rewrite bytes_ok_app, Bs. cbn [andb]. apply z2be_ok.
Qed.
Definition typed (one : bool) (v : pval) : Prop := if one then exists b, v = VBytes b else exists t, v = VStr t.
Lemma xors_spec : forall pw salt i, bytes_ok pw = true -> bytes_ok salt = true -> forall n j r, (exists b, r = VBytes b) \/ (exists t, r = VStr t) ->
  chars r = T pw salt (S j) i -> chars (xors P pw n (U pw salt i j) r) = T pw salt (S (j + n)) i /\
  (n = O -> xors P pw n (U pw salt i j) r = r) /\ (n <> O -> exists t, xors P pw n (U pw salt i j) r = VStr t).
Proof.
  intros pw salt i Bp Bs. induction n as [|n IH]; intros j r TY C; cbn [xors].
  - rewrite Nat.add_0_r. repeat split; [exact C|congruence].
  - change (p_hmac P SHA1 pw (U pw salt i j)) with (U pw salt i (S j)). destruct (IH (S j) (strxor r (VBytes (U pw salt i (S j))))) as (A & B & D).
    + right. eexists. reflexivity.
    + unfold strxor. cbn [chars]. rewrite C. unfold T at 1. rewrite (as_map (U pw salt i (S j))), (proj1 (U_ok pw salt i (S j) Bp Bs)), zipxor_map. unfold T. apply map_ext. intro k.
      rewrite (seq_S (S j) 0), map_app. cbn [map Nat.add]. rewrite fold_xor_app. f_equal.
    + replace (j + S n)%nat with (S j + n)%nat by lia. split; [exact A|]. split; [discriminate|]. intros _. destruct n; [rewrite B by reflexivity; eexists; reflexivity|apply D; discriminate].
Qed.

Theorem block_spec : forall s i, bytes_ok (b_pw s) = true -> bytes_ok (b_salt s) = true -> 1 <= b_iter s -> 1 <= i <= 0xffffffff ->
  exists b, block P s i = Ok b /\ chars b = T (b_pw s) (b_salt s) (Z.to_nat (b_iter s)) i /\ typed (b_iter s =? 1) b.
Proof.
  intros s i Bp Bs I L. unfold block. replace ((1 <=? i) && (i <=? 4294967295)) with true by lia. eexists. split; [reflexivity|].
  change (p_hmac P SHA1 (b_pw s) (b_salt s ++ z2be 4 i)) with (U (b_pw s) (b_salt s) i 0).
  destruct (xors_spec (b_pw s) (b_salt s) i Bp Bs (Z.to_nat (b_iter s - 1)) 0 (VBytes (U (b_pw s) (b_salt s) i 0))) as (A & B & D).
  - left. eexists. reflexivity.
  - cbn [chars]. rewrite (as_map (U _ _ _ 0)) at 1. rewrite (proj1 (U_ok _ _ i 0%nat Bp Bs)). unfold T. apply map_ext. intro k. cbn [seq map fold_right]. rewrite Z.lxor_0_r. reflexivity.
  - rewrite A. replace (S (0 + Z.to_nat (b_iter s - 1))) with (Z.to_nat (b_iter s)) by lia. split; [reflexivity|].
    unfold typed. destruct (b_iter s =? 1) eqn:E.
    + rewrite B by lia. eexists. reflexivity.
    + apply D. lia.
Qed.

Lemma T_length : forall pw salt c i, length (T pw salt c i) = 20%nat.
Proof. intros. unfold T. rewrite map_length, seq_length. reflexivity. Qed.
Lemma T_stream : forall pw salt c i, T pw salt c (Z.of_nat i + 1) = map (stream pw salt c) (seq (20 * i) 20).
Proof.
  intros pw salt c i. rewrite (as_map (T pw salt c (Z.of_nat i + 1))), T_length. replace (20 * i)%nat with (20 * i + 0)%nat by lia.
  assert (S : forall a n m, seq (a + n) m = map (fun k => (a + k)%nat) (seq n m)).
  { intros a n m. revert n. induction m as [|m IH]; intro n; [reflexivity|]. cbn [seq map]. f_equal. rewrite <- IH. f_equal. lia. }
  rewrite S, map_map. apply map_ext_in. intros k I. apply in_seq in I. unfold stream.
  assert (H : ((20 * i + k) / 20 = i)%nat /\ ((20 * i + k) mod 20 = k)%nat).
  { split; symmetry; [apply (Nat.div_unique _ _ _ k)|apply (Nat.mod_unique _ _ i)]; lia. }
  destruct H as [-> ->]. reflexivity.
Qed.

(** ** The state of an object from which [k] octets were read *)
Definition first_octets (pw salt : bytes) (c a n : nat) : list Z := map (stream pw salt c) (seq a n).
Record at_pos (s : pbkdf2) (k : nat) : Prop := {
  ap_pw : bytes_ok (b_pw s) = true; ap_salt : bytes_ok (b_salt s) = true; ap_iter : 1 <= b_iter s; ap_num : 0 <= b_num s <= 0xffffffff;
  ap_buf : chars (b_buf s) = first_octets (b_pw s) (b_salt s) (Z.to_nat (b_iter s)) k (length (chars (b_buf s)));
  ap_end : (k + length (chars (b_buf s)) = 20 * Z.to_nat (b_num s))%nat;
  ap_typed : typed (b_iter s =? 1) (b_buf s) \/ b_buf s = VBytes [] }.

Lemma first_app : forall pw salt c a n m, first_octets pw salt c a n ++ first_octets pw salt c (a + n) m = first_octets pw salt c a (n + m).
Proof. intros. unfold first_octets. rewrite <- map_app, <- seq_app. reflexivity. Qed.
Lemma first_len : forall pw salt c a n, length (first_octets pw salt c a n) = n.
Proof. intros. unfold first_octets. rewrite map_length, seq_length. reflexivity. Qed.

Lemma fill_spec : forall s n k, bytes_ok (b_pw s) = true -> bytes_ok (b_salt s) = true -> 1 <= b_iter s -> forall fuel i blocks,
  0 <= i <= 0xffffffff -> let got := concat (map chars blocks) in
  got = first_octets (b_pw s) (b_salt s) (Z.to_nat (b_iter s)) k (length got) -> (k + length got = 20 * Z.to_nat i)%nat ->
  Forall (fun v => typed (b_iter s =? 1) v \/ v = VBytes []) blocks -> n - Z.of_nat (length got) <= Z.of_nat fuel ->
  (exists blocks' i', fill P s n fuel i (Z.of_nat (length got)) blocks = Ok (blocks', i') /\ 0 <= i' <= 0xffffffff /\
     let got' := concat (map chars blocks') in
     got' = first_octets (b_pw s) (b_salt s) (Z.to_nat (b_iter s)) k (length got') /\ (k + length got' = 20 * Z.to_nat i')%nat /\
     Forall (fun v => typed (b_iter s =? 1) v \/ v = VBytes []) blocks' /\ n <= Z.of_nat (length got') /\ Z.of_nat (length got') < Z.max n (Z.of_nat (length got) - 19) + 20) \/
  (fill P s n fuel i (Z.of_nat (length got)) blocks = Raise EOverflowError /\ 20 * 0xffffffff < Z.of_nat k + n).
Proof.
  intros s n k Bp Bs I. induction fuel as [|fuel IH]; intros i blocks LI got G E F L; cbn [fill].
  - replace (Z.of_nat (length got) <? n) with false by lia. left. exists blocks, i. split; [reflexivity|]. split; [exact LI|]. split; [exact G|]. split; [exact E|]. split; [exact F|]. fold got. lia.
  - destruct (Z.of_nat (length got) <? n) eqn:LT.
    2:{ left. exists blocks, i. split; [reflexivity|]. split; [exact LI|]. split; [exact G|]. split; [exact E|]. split; [exact F|]. fold got. lia. }
    destruct ((i + 1 >? 4294967295) || (i + 1 <? 1)) eqn:O.
    + right. split; [reflexivity|]. lia.
    + destruct (block_spec s (i + 1) Bp Bs I) as (b & B & C & TY); [lia|]. rewrite B. cbn [bind].
      assert (LB : length (chars b) = 20%nat) by (rewrite C; apply T_length).
      assert (GB : concat (map chars (blocks ++ [b])) = got ++ chars b) by (rewrite map_app, concat_app; cbn [map concat]; rewrite app_nil_r; reflexivity).
      assert (LG : length (got ++ chars b) = (length got + 20)%nat) by (rewrite app_length, LB; reflexivity).
      specialize (IH (i + 1) (blocks ++ [b])). cbv zeta in IH. rewrite GB, LG in IH. rewrite LB. rewrite <- Nat2Z.inj_add.
      destruct IH as [(blocks' & i' & H)|[H1 H2]].
      * lia.
      * rewrite G at 1. rewrite C. replace (i + 1) with (Z.of_nat (Z.to_nat i) + 1) by lia. rewrite T_stream. fold (first_octets (b_pw s) (b_salt s) (Z.to_nat (b_iter s)) (20 * Z.to_nat i) 20).
        rewrite <- E. apply first_app.
      * lia.
      * apply Forall_app. split; [exact F|]. constructor; [left; exact TY|constructor].
      * lia.
      * left. exists blocks', i'. destruct H as (H1 & H2 & H3 & H4 & H5 & H6 & H7). split; [exact H1|]. split; [exact H2|]. split; [exact H3|]. split; [exact H4|]. split; [exact H5|]. split; [exact H6|]. lia.
      * right. split; assumption.
Qed.

Lemma joined_spec : forall one blocks, Forall (fun v => typed one v \/ v = VBytes []) blocks ->
  exists v, joined blocks = Ok v /\ chars v = concat (map chars blocks) /\ (typed one v \/ v = VBytes []).
Proof.
  intros one blocks F. unfold joined. destruct (existsb is_text blocks) eqn:X.
  - assert (one = false).
    { apply existsb_exists in X. destruct X as (v & I & V). rewrite Forall_forall in F. destruct (F v I) as [TY| ->]; [|discriminate]. destruct one; [destruct TY as [b ->]; discriminate|reflexivity]. }
    subst one. assert (H : forallb (fun v => is_text v || ascii (chars v)) blocks = true).
    { apply forallb_forall. intros v I. rewrite Forall_forall in F. destruct (F v I) as [[t ->]| ->]; reflexivity. }
    rewrite H. eexists. split; [reflexivity|]. split; [reflexivity|]. left. eexists. reflexivity.
  - eexists. split; [reflexivity|]. split; [reflexivity|]. destruct one; [left; eexists; reflexivity|]. right. f_equal.
    induction F as [|v l V F IH]; [reflexivity|]. cbn [existsb] in X. apply orb_false_iff in X. destruct X as [X1 X2]. cbn [map concat]. rewrite (IH X2).
    destruct V as [[t ->]| ->]; [discriminate|reflexivity].
Qed.

Lemma cut_le : forall s n, n <= Z.of_nat (length s) -> (cut s n <= length s)%nat.
Proof. intros s n H. unfold cut. destruct (n <? 0) eqn:E; lia. Qed.

(** What one call of read does: it returns the next octets, or raises at the end of the stream and changes nothing. *)
Theorem read_step : forall s k n, at_pos s k ->
  (exists s' v m, read P (Some s) n = (Some s', Ok v) /\ at_pos s' (k + m) /\ b_pw s' = b_pw s /\ b_salt s' = b_salt s /\ b_iter s' = b_iter s /\
     chars v = first_octets (b_pw s) (b_salt s) (Z.to_nat (b_iter s)) k m /\ (0 <= n -> m = Z.to_nat n) /\ (n < 0 -> Z.of_nat m = Z.max 0 (Z.of_nat (length (chars (b_buf s))) + n)) /\
     (typed (b_iter s =? 1) v \/ v = VBytes [])) \/
  (read P (Some s) n = (Some s, Raise EOverflowError) /\ 20 * 0xffffffff < Z.of_nat k + n).
Proof.
  intros s k n [Bp Bs I NU BU EN TY].
  assert (G1 : concat (map chars [b_buf s]) = chars (b_buf s)) by (cbn [map concat]; apply app_nil_r).
  pose proof (fill_spec s n k Bp Bs I (Z.to_nat (n - Z.of_nat (length (chars (b_buf s))))) (b_num s) [b_buf s] NU) as H. cbv zeta in H. rewrite G1 in H.
  destruct (H BU EN ltac:(constructor; [exact TY|constructor]) ltac:(lia)) as [(blocks & i & FL & LI & GG & EE & FF & LN & LM)|[FL LN]]; clear H; unfold read; rewrite FL; cbn [bind].
  2:{ right. split; [reflexivity|exact LN]. }
  destruct (joined_spec _ _ FF) as (v & J & CV & TV). rewrite J. cbn [bind]. left.
  set (got := concat (map chars blocks)) in *. pose proof (cut_le got n LN) as CL. set (m := cut got n) in *.
  assert (SPLIT : got = first_octets (b_pw s) (b_salt s) (Z.to_nat (b_iter s)) k m ++ first_octets (b_pw s) (b_salt s) (Z.to_nat (b_iter s)) (k + m) (length got - m)).
  { rewrite first_app. rewrite GG at 1. f_equal. lia. }
  assert (UV : chars (upto v n) = firstn m got) by (unfold m; rewrite <- CV; destruct TV as [TV| ->]; [|reflexivity]; destruct (b_iter s =? 1), TV as [x ->]; reflexivity).
  assert (FV : chars (from v n) = skipn m got) by (unfold m; rewrite <- CV; destruct TV as [TV| ->]; [|reflexivity]; destruct (b_iter s =? 1), TV as [x ->]; reflexivity).
  assert (F1 : firstn m got = first_octets (b_pw s) (b_salt s) (Z.to_nat (b_iter s)) k m).
  { rewrite SPLIT at 1. rewrite firstn_app, first_len, Nat.sub_diag, firstn_O, app_nil_r. apply firstn_all2. rewrite first_len. lia. }
  assert (F2 : skipn m got = first_octets (b_pw s) (b_salt s) (Z.to_nat (b_iter s)) (k + m) (length got - m)).
  { rewrite SPLIT at 1. rewrite skipn_app, first_len, Nat.sub_diag. rewrite skipn_all2 by (rewrite first_len; lia). reflexivity. }
  assert (TT : forall f, typed (b_iter s =? 1) (on_chars (fun x => f x) v) \/ on_chars (fun x => f x) v = VBytes [] \/ v = VBytes []).
  { intro f. destruct TV as [TV| ->]; [|auto]. left. destruct (b_iter s =? 1), TV as [x ->]; eexists; reflexivity. }
  assert (TQ : forall v', v' = upto v n \/ v' = from v n -> typed (b_iter s =? 1) v' \/ v' = VBytes []).
  { intros v' Q. destruct TV as [TV| ->].
    - left. destruct Q as [-> | ->]; destruct (b_iter s =? 1), TV as [x ->]; eexists; reflexivity.
    - right. destruct Q as [-> | ->]; unfold upto, from, on_chars; [rewrite firstn_nil|rewrite skipn_nil]; reflexivity. }
  eexists _, _, m. split; [reflexivity|]. cbn [b_pw b_salt b_iter]. split.
  { split; cbn [b_pw b_salt b_iter b_num b_buf]; try assumption.
    - rewrite FV, F2, first_len. reflexivity.
    - rewrite FV, F2, first_len. lia.
    - apply TQ. right. reflexivity. }
  repeat split.
  - rewrite UV. exact F1.
  - intro Q. unfold m, cut. replace (n <? 0) with false by lia. reflexivity.
  - intro Q. assert (blocks = [b_buf s]).
    { assert (FS : fill P s n (Z.to_nat (n - Z.of_nat (length (chars (b_buf s))))) (b_num s) (Z.of_nat (length (chars (b_buf s)))) [b_buf s] = Ok ([b_buf s], b_num s)).
      { destruct (Z.to_nat (n - Z.of_nat (length (chars (b_buf s))))); cbn [fill]; replace (Z.of_nat (length (chars (b_buf s))) <? n) with false by lia; reflexivity. }
      rewrite FS in FL. injection FL as <- _. reflexivity. }
    subst blocks. unfold m, cut, got. rewrite G1. replace (n <? 0) with true by lia. lia.
  - apply TQ. left. reflexivity.
Qed.

(** ** C88: a sequence of reads *)
Fixpoint reads (o : option pbkdf2) (ns : list Z) : list (res pval) :=
  match ns with [] => [] | n :: r => let (o', x) := read P o n in x :: reads o' r end.
Definition taken (rs : list (res pval)) : list Z := concat (map (fun r => match r with Ok v => chars v | Raise _ => [] end) rs).

Lemma reads_from : forall ns s k, at_pos s k -> exists m, taken (reads (Some s) ns) = first_octets (b_pw s) (b_salt s) (Z.to_nat (b_iter s)) k m.
Proof.
  induction ns as [|n ns IH]; intros s k A; [exists 0%nat; reflexivity|]. cbn [reads].
  destruct (read_step s k n A) as [(s' & v & m & R & A' & E1 & E2 & E3 & C & _)|[R _]]; rewrite R; unfold taken; cbn [map concat].
  - destruct (IH s' _ A') as [m' H]. exists (m + m')%nat. unfold taken in H. rewrite H, E1, E2, E3, C. apply first_app.
  - destruct (IH s _ A) as [m' H]. exists m'. exact H.
Qed.

Lemma coerced : forall v x b, coerce v x = Ok b -> v = Py2 /\ x = VBytes b /\ ascii b = true.
Proof.
  intros v x b H. unfold coerce in H. destruct v, x as [| | | |t|l| |]; try discriminate.
  - destruct (ascii l) eqn:A; [|discriminate]. injection H as <-. auto.
  - destruct (utf8_encode t); discriminate.
Qed.
Lemma ascii_bytes : forall b, ascii b = true -> bytes_ok b = true.
Proof.
  intros b H. unfold ascii in H. unfold bytes_ok. rewrite forallb_forall in *. intros x I. specialize (H x I). unfold is_byte. lia.
Qed.
Lemma new_inv : forall v pw salt iters s, pb_new v pw salt iters = Ok s ->
  v = Py2 /\ pw = VBytes (b_pw s) /\ salt = VBytes (b_salt s) /\ ascii (b_pw s) = true /\ ascii (b_salt s) = true /\ 1 <= b_iter s /\ py_int v iters = Ok (b_iter s) /\ b_num s = 0 /\ b_buf s = VBytes [].
Proof.
  intros v pw salt iters s H. unfold pb_new in H. destruct (coerce v pw) as [p|] eqn:CP; [|discriminate]. cbn [bind] in H. destruct (coerce v salt) as [q|] eqn:CS; [|discriminate]. cbn [bind] in H.
  destruct (py_int v iters) as [n|] eqn:N; [|discriminate]. cbn [bind] in H. destruct (n <? 1) eqn:L; [discriminate|]. injection H as <-. cbn [b_pw b_salt b_iter b_num b_buf].
  apply coerced in CP. apply coerced in CS. destruct CP as (-> & -> & A1), CS as (_ & -> & A2). repeat split; try assumption. lia.
Qed.
Lemma fresh : forall v pw salt iters s, pb_new v pw salt iters = Ok s -> at_pos s 0.
Proof.
  intros v pw salt iters s H. destruct (new_inv _ _ _ _ _ H) as (_ & _ & _ & A1 & A2 & I & _ & N & B).
  split; rewrite ?N, ?B; cbn [chars length]; try (apply ascii_bytes; assumption); try assumption; try reflexivity; [lia|right; reflexivity].
Qed.
Theorem one_stream : forall v pw salt iters s ns, pb_new v pw salt iters = Ok s ->
  exists m, taken (reads (Some s) ns) = map (stream (b_pw s) (b_salt s) (Z.to_nat (b_iter s))) (seq 0 m).
Proof. intros v pw salt iters s ns H. exact (reads_from ns s 0 (fresh _ _ _ _ _ H)). Qed.

(** Reads of a non-negative number of octets return as many, until 20 * (2^32 - 1) octets were read. *)
Lemma reads_sizes : forall ns s k, at_pos s k -> Forall (fun n => 0 <= n) ns -> Z.of_nat k + fold_right Z.add 0 ns <= 20 * 0xffffffff ->
  Forall2 (fun n r => exists v, r = Ok v /\ Z.of_nat (length (chars v)) = n) ns (reads (Some s) ns) /\
  taken (reads (Some s) ns) = first_octets (b_pw s) (b_salt s) (Z.to_nat (b_iter s)) k (Z.to_nat (fold_right Z.add 0 ns)).
Proof.
  induction ns as [|n ns IH]; intros s k A F L; [split; [constructor|reflexivity]|]. inversion F as [|? ? F1 F2]; subst. cbn [fold_right] in L.
  assert (SN : 0 <= fold_right Z.add 0 ns) by (clear - F2; induction F2; cbn [fold_right]; lia). cbn [reads].
  destruct (read_step s k n A) as [(s' & v & m & R & A' & E1 & E2 & E3 & C & M & _)|[R O]]; rewrite R; [|lia]. specialize (M F1).
  destruct (IH s' _ A' F2) as [H1 H2]; [lia|]. split.
  - constructor; [|exact H1]. exists v. split; [reflexivity|]. rewrite C, first_len. lia.
  - unfold taken in *. cbn [map concat]. rewrite H2, C, E1, E2, E3, first_app. f_equal. cbn [fold_right]. lia.
Qed.
Theorem read_sizes : forall v pw salt iters s ns, pb_new v pw salt iters = Ok s -> Forall (fun n => 0 <= n) ns -> fold_right Z.add 0 ns <= 20 * 0xffffffff ->
  Forall2 (fun n r => exists v, r = Ok v /\ Z.of_nat (length (chars v)) = n) ns (reads (Some s) ns) /\
  taken (reads (Some s) ns) = map (stream (b_pw s) (b_salt s) (Z.to_nat (b_iter s))) (seq 0 (Z.to_nat (fold_right Z.add 0 ns))).
Proof. intros v pw salt iters s ns H F L. apply (reads_sizes ns s 0 (fresh _ _ _ _ _ H) F). lia. Qed.
Theorem read_twice : forall v pw salt iters s a b, pb_new v pw salt iters = Ok s -> 0 <= a -> 0 <= b -> a + b <= 20 * 0xffffffff ->
  exists x y z, reads (Some s) [a; b] = [Ok x; Ok y] /\ reads (Some s) [a + b] = [Ok z] /\ chars x ++ chars y = chars z.
Proof.
  intros v pw salt iters s a b H A B L.
  destruct (read_sizes v pw salt iters s [a; b] H) as [F1 T1]; [repeat constructor; assumption|cbn [fold_right]; lia|].
  destruct (read_sizes v pw salt iters s [a + b] H) as [F2 T2]; [repeat constructor; lia|cbn [fold_right]; lia|].
  revert F1 T1 F2 T2. generalize (reads (Some s) [a; b]) (reads (Some s) [a + b]). intros r1 r2 F1 T1 F2 T2.
  inversion F1 as [|? ? ? l1 (x & EX & _) F1']; subst. inversion F1' as [|? ? ? l2 (y & EY & _) F1'']; subst. inversion F1''; subst. inversion F2 as [|? ? ? l3 (z & EZ & _) F2']; subst. inversion F2'; subst.
  exists x, y, z. split; [reflexivity|]. split; [reflexivity|]. unfold taken in T1, T2. cbn [map concat] in T1, T2. rewrite app_nil_r in T1, T2. rewrite T1, T2. cbn [fold_right].
  rewrite !Z.add_0_r. reflexivity.
Qed.
(** No other exception, and nothing after close. *)
Theorem read_raises : forall s k n e o, at_pos s k -> read P (Some s) n = (o, Raise e) -> e = EOverflowError /\ o = Some s /\ 20 * 0xffffffff < Z.of_nat k + n.
Proof. intros s k n e o A H. destruct (read_step s k n A) as [(s' & v & m & R & _)|[R O]]; rewrite R in H; [discriminate|]. injection H as <- <-. auto. Qed.
End Spec.

(** ** C91: Python 3 *)
Theorem py3_never : forall pw salt iters s, pb_new Py3 pw salt iters <> Ok s.
Proof. intros pw salt iters s H. apply new_inv in H. destruct H as [H _]. discriminate H. Qed.
Theorem py3_type_error : forall pw salt iters, (forall t, pw = VStr t -> exists b, utf8_encode t = Ok b) -> pb_new Py3 pw salt iters = Raise ETypeError.
Proof. intros pw salt iters H. unfold pb_new, coerce. destruct pw; try reflexivity. destruct (H _ eq_refl) as [b ->]. reflexivity. Qed.
Theorem py2_constructs : forall pw salt n, ascii pw = true -> ascii salt = true -> 1 <= n < 2 ^ 63 ->
  pb_new Py2 (VBytes pw) (VBytes salt) (VInt n) = Ok {| b_pw := pw; b_salt := salt; b_iter := n; b_num := 0; b_buf := VBytes [] |}.
Proof.
  intros pw salt n A B L. unfold pb_new, coerce, py_int. rewrite A, B. cbn [bind]. change (2 ^ 63) with 9223372036854775808 in *. destruct (andb _ _) eqn:X; [|lia]. cbn [bind].
  replace (n <? 1) with false by lia. reflexivity.
Qed.
Theorem crypt_py3 : forall P r word salt iters h, crypt P Py3 r word salt iters <> Ok h.
Proof.
  intros P r word salt iters h H. unfold crypt in H. destruct salt as [| | | |t| | |]; cbn [makesalt bind coerce_salt] in H; try discriminate H.
  destruct (ascii_encode t); discriminate H.
Qed.
