(** * The grammar of RFC 8259, with the additions of CPython's json module, written without any function of Json.v, and
    the proof that [loads] accepts exactly the texts of the grammar and returns the value the grammar gives them. *)
From Coq Require Import ZArith List Bool Lia ZifyBool.
From Verif Require Import Base BaseProofs Codec Utf8 Json JsonProofs.
Import ListNotations.
Open Scope Z_scope.

(** ** The grammar *)
(** RFC 8259 section 2: white space *)
Definition wsp (w : list Z) : Prop := Forall (fun c => c = 32 \/ c = 9 \/ c = 10 \/ c = 13) w.

(** section 6: numbers *)
Definition digits (ds : list Z) : Prop := Forall (fun c => 48 <= c <= 57) ds.
Fixpoint dval (ds : list Z) : Z :=
  match ds with [] => 0 | d :: r => (d - 48) * 10 ^ Z.of_nat (length r) + dval r end.
Inductive int_part : list Z -> Prop :=
| ip_zero : int_part [48]
| ip_pos : forall d ds, 49 <= d <= 57 -> digits ds -> int_part (d :: ds).
Inductive frac_part : list Z -> Prop :=
| fp_none : frac_part []
| fp_some : forall ds, ds <> [] -> digits ds -> frac_part (46 :: ds).
Inductive exp_part : list Z -> Prop :=
| xp_none : exp_part []
| xp_some : forall e sg ds, e = 101 \/ e = 69 -> sg = [] \/ sg = [43] \/ sg = [45] -> ds <> [] -> digits ds -> exp_part (e :: sg ++ ds).
Definition minus (neg : bool) : list Z := if neg then [45] else [].
(** an int without fraction and exponent, otherwise a float, kept as its text *)
Inductive number : list Z -> pval -> Prop :=
| num_int : forall neg i, int_part i -> number (minus neg ++ i) (VInt (if neg then - dval i else dval i))
| num_float : forall neg i f e, int_part i -> frac_part f -> exp_part e -> f ++ e <> [] ->
    number (minus neg ++ i ++ f ++ e) (VFloat (minus neg ++ i ++ f ++ e)).

(** section 7: strings; the text between the quotes and what it stands for.  Two escapes that form a surrogate pair stand
    for one character, any other escaped surrogate for itself. *)
Definition hexd (c v : Z) : Prop :=
  (48 <= c <= 57 /\ v = c - 48) \/ (97 <= c <= 102 /\ v = c - 97 + 10) \/ (65 <= c <= 70 /\ v = c - 65 + 10).
Inductive hex4s : list Z -> Z -> Prop :=
| h4 : forall a b c d x y z w, hexd a x -> hexd b y -> hexd c z -> hexd d w ->
    hex4s [a; b; c; d] (x * 16 ^ 3 + y * 16 ^ 2 + z * 16 + w).
Definition high (u : Z) : Prop := 55296 <= u <= 56319.
Definition low (u : Z) : Prop := 56320 <= u <= 57343.
Inductive chars : list Z -> ustr -> Prop :=
| ch_end : chars [] []
| ch_plain : forall c t s, c <> 34 -> c <> 92 -> ~ (0 <= c < 32) -> chars t s -> chars (c :: t) (c :: s)
| ch_esc : forall e u t s, In (e, u) [(34, 34); (92, 92); (47, 47); (98, 8); (102, 12); (110, 10); (114, 13); (116, 9)] ->
    chars t s -> chars (92 :: e :: t) (u :: s)
| ch_pair : forall h l u v t s, hex4s h u -> hex4s l v -> high u -> low v -> chars t s ->
    chars (92 :: 117 :: h ++ 92 :: 117 :: l ++ t) (65536 + (u - 55296) * 1024 + (v - 56320) :: s)
| ch_u : forall h u t s, hex4s h u -> (high u -> forall l v t', t = 92 :: 117 :: l ++ t' -> hex4s l v -> ~ low v) -> chars t s ->
    chars (92 :: 117 :: h ++ t) (u :: s).

(** section 4: the members of an object.  A name that is used again keeps its place and gets the later value. *)
Fixpoint final (k : ustr) (v : pval) (r : list (ustr * pval)) : pval :=
  match r with [] => v | (k', w) :: r' => final k (if zs_eqb k' k then w else v) r' end.
Fixpoint object (ms : list (ustr * pval)) : list (ustr * pval) :=
  match ms with
  | [] => []
  | (k, v) :: r => (k, final k v r) :: filter (fun kv => negb (zs_eqb (fst kv) k)) (object r)
  end.

(** sections 3 to 5: values; NaN, Infinity and -Infinity are the additions of CPython *)
Inductive jvalue : list Z -> pval -> Prop :=
| jv_null : jvalue (lit "null") VNone
| jv_true : jvalue (lit "true") (VBool true)
| jv_false : jvalue (lit "false") (VBool false)
| jv_nan : jvalue (lit "NaN") (VFloat (lit "NaN"))
| jv_inf : jvalue (lit "Infinity") (VFloat (lit "Infinity"))
| jv_ninf : jvalue (lit "-Infinity") (VFloat (lit "-Infinity"))
| jv_num : forall t v, number t v -> jvalue t v
| jv_str : forall t s, chars t s -> jvalue (34 :: t ++ [34]) (VStr s)
| jv_arr0 : forall w, wsp w -> jvalue (91 :: w ++ [93]) (VList [])
| jv_arr : forall w t l, wsp w -> elements t l -> jvalue (91 :: w ++ t ++ [93]) (VList l)
| jv_obj0 : forall w, wsp w -> jvalue (123 :: w ++ [125]) (VDict [])
| jv_obj : forall w t ms, wsp w -> members t ms -> jvalue (123 :: w ++ t ++ [125]) (VDict (object ms))
with elements : list Z -> list pval -> Prop :=
| el_one : forall t v w, jvalue t v -> wsp w -> elements (t ++ w) [v]
| el_more : forall t v w w' t' l, jvalue t v -> wsp w -> wsp w' -> elements t' l -> elements (t ++ w ++ 44 :: w' ++ t') (v :: l)
with members : list Z -> list (ustr * pval) -> Prop :=
| me_one : forall k s w1 w2 t v w, chars k s -> wsp w1 -> wsp w2 -> jvalue t v -> wsp w ->
    members (34 :: k ++ 34 :: w1 ++ 58 :: w2 ++ t ++ w) [(s, v)]
| me_more : forall k s w1 w2 t v w w' t' ms, chars k s -> wsp w1 -> wsp w2 -> jvalue t v -> wsp w -> wsp w' -> members t' ms ->
    members (34 :: k ++ 34 :: w1 ++ 58 :: w2 ++ t ++ w ++ 44 :: w' ++ t') ((s, v) :: ms).
(** section 2: a JSON text *)
Definition json_text (s : ustr) (v : pval) : Prop := exists w t w', s = w ++ t ++ w' /\ wsp w /\ wsp w' /\ jvalue t v.

Scheme jvalue_min := Minimality for jvalue Sort Prop
  with elements_min := Minimality for elements Sort Prop
  with members_min := Minimality for members Sort Prop.
Combined Scheme json_min from jvalue_min, elements_min, members_min.

(** ** Objects *)
Definition dfold (ms acc : list (ustr * pval)) : list (ustr * pval) := fold_left (fun a kv => dset a (fst kv) (snd kv)) ms acc.

Lemma map_dset_final : forall (acc : list (ustr * pval)) k v r, nodup_keys acc = true -> dmem acc k = true ->
  map (fun kv => (fst kv, final (fst kv) (snd kv) r)) (dset acc k v) = map (fun kv => (fst kv, final (fst kv) (snd kv) ((k, v) :: r))) acc.
Proof.
  induction acc as [|[k' v'] acc IH]; intros k v r N M; [discriminate M|]. cbn [nodup_keys] in N. apply andb_true_iff in N as [N1 N2].
  cbn [dset]. destruct (zs_eqb k' k) eqn:E.
  - apply zs_eqb_eq in E. subst k'. cbn [map fst snd final]. rewrite zs_eqb_refl. f_equal. apply map_ext_in. intros [a b] I. cbn [fst snd].
    destruct (zs_eqb k a) eqn:Q; [|reflexivity]. apply zs_eqb_eq in Q. subst a. rewrite negb_true_iff in N1.
    assert (X : dget acc k = Some b) by (apply In_dget; assumption). unfold dmem in N1. rewrite X in N1. discriminate N1.
  - cbn [map fst snd final]. assert (Q : zs_eqb k k' = false) by (apply zs_eqb_neq; apply zs_eqb_neq in E; congruence). rewrite Q. f_equal. apply IH; [exact N2|].
    unfold dmem in *. cbn [dget] in M. rewrite E in M. exact M.
Qed.

Lemma filter_filter : forall A (f g : A -> bool) l, filter f (filter g l) = filter (fun x => g x && f x) l.
Proof.
  induction l as [|a l IH]; [reflexivity|]. cbn [filter]. destruct (g a); cbn [filter andb]; [|exact IH]. destruct (f a); [f_equal|]; exact IH.
Qed.

Lemma dfold_spec : forall ms acc, nodup_keys acc = true ->
  dfold ms acc = map (fun kv => (fst kv, final (fst kv) (snd kv) ms)) acc ++ filter (fun kv => negb (dmem acc (fst kv))) (object ms).
Proof.
  induction ms as [|[k v] ms IH]; intros acc N.
  - cbn. rewrite app_nil_r. induction acc as [|[a b] acc IH]; [reflexivity|]. cbn [map fst snd]. f_equal. apply IH.
    cbn [nodup_keys] in N. apply andb_true_iff in N. apply N.
  - change (dfold ((k, v) :: ms) acc) with (dfold ms (dset acc k v)). rewrite IH by (apply dset_nodup; exact N). cbn [object filter fst]. destruct (dmem acc k) eqn:M.
    + rewrite map_dset_final by assumption. cbn [negb]. f_equal. rewrite filter_filter. apply filter_ext. intros [a b]. cbn [fst]. rewrite dmem_dset.
      destruct (zs_eqb k a) eqn:Q.
      * apply zs_eqb_eq in Q. subst a. rewrite zs_eqb_refl. reflexivity.
      * assert (Q' : zs_eqb a k = false) by (apply zs_eqb_neq; apply zs_eqb_neq in Q; congruence). rewrite Q'. reflexivity.
    + cbn [negb]. rewrite dset_fresh by exact M. rewrite map_app. cbn [map fst snd]. rewrite <- app_assoc. cbn [app].
      assert (X : map (fun kv => (fst kv, final (fst kv) (snd kv) ms)) acc = map (fun kv => (fst kv, final (fst kv) (snd kv) ((k, v) :: ms))) acc).
      { apply map_ext_in. intros [a b] I. cbn [fst snd final]. destruct (zs_eqb k a) eqn:Q; [|reflexivity]. apply zs_eqb_eq in Q. subst a.
        assert (Y : dget acc k = Some b) by (apply In_dget; assumption). unfold dmem in M. rewrite Y in M. discriminate M. }
      rewrite X. do 2 f_equal. rewrite filter_filter. apply filter_ext. intros [a b]. cbn [fst]. rewrite dmem_app. unfold dmem at 2. cbn [dget].
      destruct (zs_eqb k a) eqn:Q.
      * apply zs_eqb_eq in Q. subst a. rewrite zs_eqb_refl. rewrite orb_true_r. reflexivity.
      * assert (Q' : zs_eqb a k = false) by (apply zs_eqb_neq; apply zs_eqb_neq in Q; congruence). rewrite Q', orb_false_r. reflexivity.
Qed.

Lemma dfold_object : forall ms, dfold ms [] = object ms.
Proof.
  intro ms. rewrite dfold_spec by reflexivity. cbn [map app]. assert (X : forall l : list (ustr * pval), filter (fun kv => negb (dmem (A := pval) [] (fst kv))) l = l) by (induction l as [|a l IH]; [reflexivity|cbn; f_equal; exact IH]).
  apply X.
Qed.

(** ** White space *)
Lemma wsp_jws : forall c, jws_c c = true <-> c = 32 \/ c = 9 \/ c = 10 \/ c = 13.
Proof. intro c. unfold jws_c. lia. Qed.
Lemma skip_ws_sound : forall s, exists w, s = w ++ skip_ws s /\ wsp w.
Proof.
  induction s as [|c s (w & E & W)]; [exists []; split; [reflexivity|constructor]|]. cbn [skip_ws]. destruct (jws_c c) eqn:J.
  - exists (c :: w). split; [cbn [app]; f_equal; exact E|]. constructor; [apply wsp_jws; exact J|exact W].
  - exists []. split; [reflexivity|constructor].
Qed.
Definition nows (s : list Z) : Prop := match s with [] => True | c :: _ => jws_c c = false end.
Lemma skip_ws_app : forall w s, wsp w -> nows s -> skip_ws (w ++ s) = s.
Proof.
  induction w as [|c w IH]; intros s W N; cbn [app].
  - destruct s as [|c s]; [reflexivity|]. cbn [skip_ws]. cbn in N. rewrite N. reflexivity.
  - inversion W as [|? ? C W']; subst. cbn [skip_ws]. apply wsp_jws in C. rewrite C. apply IH; assumption.
Qed.

(** ** Strings *)
Lemma hexval_hexd : forall c v, hexval c = Some v <-> hexd c v.
Proof.
  intros c v. unfold hexval, hexd, is_digit.
  destruct ((48 <=? c) && (c <=? 57)) eqn:A; [|destruct ((97 <=? c) && (c <=? 102)) eqn:B; [|destruct ((65 <=? c) && (c <=? 70)) eqn:C]];
    (split; [intro H; try discriminate H; injection H as <-; lia|intro H]); f_equal; lia.
Qed.
Lemma Ok_some : forall x y z w u : Z, Some (4096 * x + 256 * y + 16 * z + w) = Some u -> u = x * 16 ^ 3 + y * 16 ^ 2 + z * 16 + w.
Proof. intros x y z w u H. assert (X : 4096 * x + 256 * y + 16 * z + w = u) by congruence. lia. Qed.
Lemma unhex4_hex4s : forall a b c d u, unhex4 a b c d = Some u <-> hex4s [a; b; c; d] u.
Proof.
  intros. unfold unhex4. split.
  - destruct (hexval a) as [x|] eqn:A; [|discriminate]. destruct (hexval b) as [y|] eqn:B; [|discriminate]. destruct (hexval c) as [z|] eqn:C; [|discriminate].
    destruct (hexval d) as [w|] eqn:D; [|discriminate]. intro H. apply Ok_some in H. apply hexval_hexd in A, B, C, D.
    rewrite H. apply h4; assumption.
  - intro H. inversion H as [? ? ? ? x y z w A B C D]; subst. apply hexval_hexd in A, B, C, D. rewrite A, B, C, D. f_equal. lia.
Qed.
Lemma hex4s_four : forall h u, hex4s h u -> exists a b c d, h = [a; b; c; d] /\ unhex4 a b c d = Some u.
Proof. intros h u H. inversion H; subst. do 4 eexists. split; [reflexivity|]. apply unhex4_hex4s. exact H. Qed.
Lemma unescape_table : forall e u, unescape e = Some u <-> In (e, u) [(34, 34); (92, 92); (47, 47); (98, 8); (102, 12); (110, 10); (114, 13); (116, 9)].
Proof.
  intros e u. unfold unescape. split.
  - repeat match goal with |- context [e =? ?k] => destruct (Z.eqb_spec e k) as [->|]; [intro H; injection H as <-; cbn; tauto|] end. intro H. discriminate H.
  - cbn [In]. intro H. repeat (destruct H as [H|H]; [injection H as <- <-; reflexivity|]). contradiction.
Qed.
Lemma is_high_iff : forall u, is_high u = true <-> high u. Proof. intro u. unfold is_high, high. lia. Qed.
Lemma is_low_iff : forall u, is_low u = true <-> low u. Proof. intro u. unfold is_low, low. lia. Qed.

Lemma jstr_sound : forall n s u r, (length s <= n)%nat -> jstr s = Ok (u, r) -> exists t, s = t ++ 34 :: r /\ chars t u.
Proof.
  induction n as [|n IH]; intros s u r L H; [destruct s; [discriminate H|cbn in L; lia]|].
  destruct s as [|c s1]; [discriminate H|]. cbn [length] in L. cbn [jstr] in H.
  destruct (Z.eqb_spec c 34) as [->|N34]. { injection H as <- <-. exists []. split; [reflexivity|constructor]. }
  destruct (Z.eqb_spec c 92) as [->|N92].
  - destruct s1 as [|e r1]; [discriminate H|]. cbn [length] in L. destruct (Z.eqb_spec e 117) as [->|N117].
    + destruct r1 as [|a [|b [|x [|y r2]]]]; try discriminate H. cbn [length] in L. destruct (unhex4 a b x y) as [v|] eqn:V; [|discriminate H].
      apply unhex4_hex4s in V.
      assert (SINGLE : (high v -> forall l w t', r2 = 92 :: 117 :: l ++ t' -> hex4s l w -> ~ low w) -> (t <- jstr r2;; Ok (v :: fst t, snd t)) = Ok (u, r) ->
        exists t, 92 :: 117 :: a :: b :: x :: y :: r2 = t ++ 34 :: r /\ chars t u).
      { intros C X. destruct (jstr r2) as [[u2 r']|] eqn:J; [|discriminate X]. cbn [bind fst snd] in X. injection X as <- <-.
        apply IH in J as (t & -> & T); [|lia]. exists (92 :: 117 :: [a; b; x; y] ++ t). split; [reflexivity|]. apply ch_u; [exact V| |exact T].
        intros HV l w t' -> HL. apply (C HV l w (t' ++ 34 :: r')); [cbn [app]; rewrite <- app_assoc; reflexivity|exact HL]. }
      destruct (is_high v) eqn:HI.
      * assert (SHORT : (length r2 < 6)%nat -> (t <- jstr r2;; Ok (v :: fst t, snd t)) = Ok (u, r) ->
          exists t, 92 :: 117 :: a :: b :: x :: y :: r2 = t ++ 34 :: r /\ chars t u).
        { intros S6. apply SINGLE. intros _ l w t' -> HL. destruct (hex4s_four _ _ HL) as (? & ? & ? & ? & -> & _). cbn [length app] in S6. lia. }
        destruct r2 as [|e1 [|e2 [|a' [|b' [|x' [|y' r3]]]]]]; try (apply SHORT; [cbn [length]; lia|exact H]). clear SHORT.
        destruct ((e1 =? 92) && (e2 =? 117)) eqn:EE.
        -- apply andb_true_iff in EE as [E1 E2]. apply Z.eqb_eq in E1, E2. subst e1 e2. destruct (unhex4 a' b' x' y') as [v'|] eqn:V'; [|discriminate H].
           destruct (is_low v') eqn:LO.
           ++ destruct (jstr r3) as [[u2 r']|] eqn:J; [|discriminate H]. cbn [bind fst snd] in H. injection H as <- <-. cbn [length] in L. apply IH in J as (t & -> & T); [|lia].
              apply unhex4_hex4s in V'. exists (92 :: 117 :: [a; b; x; y] ++ 92 :: 117 :: [a'; b'; x'; y'] ++ t). split; [reflexivity|].
              apply ch_pair; [exact V|exact V'|apply is_high_iff; exact HI|apply is_low_iff; exact LO|exact T].
           ++ apply SINGLE; [|exact H]. intros _ l w t' E HL. destruct (hex4s_four _ _ HL) as (p & q & g & k & -> & U). cbn [app] in E. injection E as <- <- <- <- _.
              rewrite V' in U. injection U as <-. intro LW. apply is_low_iff in LW. rewrite LW in LO. discriminate LO.
        -- apply SINGLE; [|exact H]. intros _ l w t' E HL. cbn [app] in E. injection E as -> -> _. discriminate EE.
      * apply SINGLE; [|exact H]. intros HV. apply is_high_iff in HV. rewrite HV in HI. discriminate HI.
    + destruct (unescape e) as [v|] eqn:V; [|discriminate H]. destruct (jstr r1) as [[u2 r']|] eqn:J; [|discriminate H]. cbn [bind fst snd] in H. injection H as <- <-.
      apply IH in J as (t & -> & T); [|lia]. exists (92 :: e :: t). split; [reflexivity|]. apply ch_esc; [apply unescape_table; exact V|exact T].
  - destruct ((0 <=? c) && (c <? 32)) eqn:CT; [discriminate H|]. destruct (jstr s1) as [[u2 r']|] eqn:J; [|discriminate H]. cbn [bind fst snd] in H. injection H as <- <-.
    apply IH in J as (t & -> & T); [|lia]. exists (c :: t). split; [reflexivity|]. apply ch_plain; try assumption. lia.
Qed.

Lemma jstr_complete : forall t u, chars t u -> forall r, jstr (t ++ 34 :: r) = Ok (u, r).
Proof.
  intros t u H. induction H as [|c t s N34 N92 CT T IH|e u t s I T IH|h l u v t s HH HL HI LO T IH|h u t s HH C T IH]; intro r.
  - reflexivity.
  - cbn [app jstr]. apply Z.eqb_neq in N34, N92. rewrite N34, N92. replace ((0 <=? c) && (c <? 32)) with false by lia. rewrite IH. reflexivity.
  - cbn [app jstr]. change (92 =? 34) with false. rewrite Z.eqb_refl. assert (N : e =? 117 = false) by (cbn [In] in I; repeat (destruct I as [I|I]; [injection I as <- _; reflexivity|]); contradiction).
    apply unescape_table in I. rewrite N, I, IH. reflexivity.
  - destruct (hex4s_four _ _ HH) as (a & b & c & d & -> & U). destruct (hex4s_four _ _ HL) as (a' & b' & c' & d' & -> & V). cbn [app jstr].
    change (92 =? 34) with false. rewrite !Z.eqb_refl. rewrite U, V. apply is_high_iff in HI. apply is_low_iff in LO. rewrite HI, LO. cbn [andb]. rewrite IH. reflexivity.
  - destruct (hex4s_four _ _ HH) as (a & b & c & d & -> & U). cbn [app jstr].
    change (92 =? 34) with false. rewrite !Z.eqb_refl. rewrite U. destruct (is_high u) eqn:HI; [|rewrite IH; reflexivity]. apply is_high_iff in HI. specialize (C HI).
    assert (K : (t0 <- jstr (t ++ 34 :: r);; Ok (u :: fst t0, snd t0)) = Ok (u :: s, r)) by (rewrite IH; reflexivity).
    destruct t as [|e1 t1].
    { cbn [app] in K |- *. destruct r as [|? [|? [|? [|? [|? ?]]]]]; exact K. }
    destruct (Z.eqb_spec e1 92) as [->|N].
    + inversion T as [|? ? ? ? NN|e v t2 s2 I T2|h l v w t2 s2 HH2 HL2 HI2 LO2 T2|h v t2 s2 HH2 C2 T2]; subst.
      * congruence.
      * assert (N : e =? 117 = false) by (cbn [In] in I; repeat (destruct I as [I|I]; [injection I as <- _; reflexivity|]); contradiction).
        cbn [app] in K |- *. destruct (t2 ++ 34 :: r) as [|? [|? [|? [|? ?]]]]; try exact K. rewrite N, andb_false_r. exact K.
      * destruct (hex4s_four _ _ HH2) as (a2 & b2 & c2 & d2 & -> & V). cbn [app] in K |- *. rewrite !Z.eqb_refl, V. cbn [andb].
        assert (LW : is_low v = false) by (unfold is_low, high in *; lia). rewrite LW. exact K.
      * destruct (hex4s_four _ _ HH2) as (a2 & b2 & c2 & d2 & -> & V). cbn [app] in K |- *. rewrite !Z.eqb_refl, V. cbn [andb].
        destruct (is_low v) eqn:LW; [|exact K]. apply is_low_iff in LW. exfalso. exact (C [a2; b2; c2; d2] v t2 eq_refl HH2 LW).
    + cbn [app] in K |- *. apply Z.eqb_neq in N. destruct (t1 ++ 34 :: r) as [|? [|? [|? [|? [|? ?]]]]]; try exact K. rewrite N. exact K.
Qed.

(** ** Numbers *)
Lemma is_digit_iff : forall c, is_digit c = true <-> 48 <= c <= 57. Proof. intro c. unfold is_digit. lia. Qed.
Lemma digits_bool : forall ds, digits ds <-> Forall (fun c => is_digit c = true) ds.
Proof. intro ds. unfold digits. split; apply Forall_impl; intros c H; apply is_digit_iff; exact H. Qed.
Lemma dval_undec : forall ds, undec ds = dval ds.
Proof.
  assert (G : forall ds a, fold_left (fun a c => 10 * a + (c - 48)) ds a = a * 10 ^ Z.of_nat (length ds) + dval ds).
  { induction ds as [|d ds IH]; intro a; [cbn; lia|]. cbn [fold_left length dval]. rewrite IH. rewrite Nat2Z.inj_succ, Z.pow_succ_r by lia. ring. }
  intro ds. unfold undec. rewrite G. lia.
Qed.
Lemma span_sound : forall s a b, span_digits s = (a, b) -> s = a ++ b /\ digits a.
Proof.
  induction s as [|c s IH]; intros a b H; cbn [span_digits] in H; [injection H as <- <-; split; [reflexivity|constructor]|].
  destruct (is_digit c) eqn:D; [|injection H as <- <-; split; [reflexivity|constructor]]. destruct (span_digits s) as [x y]. injection H as <- <-.
  destruct (IH x y eq_refl) as [-> X]. split; [reflexivity|]. constructor; [apply is_digit_iff; exact D|exact X].
Qed.
Lemma jfrac_sound : forall s f r, jfrac s = (f, r) -> s = f ++ r /\ frac_part f.
Proof.
  intros [|c s] f r H; cbn [jfrac] in H; [injection H as <- <-; split; [reflexivity|constructor]|].
  destruct (Z.eqb_spec c 46) as [->|]; [|injection H as <- <-; split; [reflexivity|constructor]].
  destruct (span_digits s) as [ds r'] eqn:S1. apply span_sound in S1 as [-> D]. destruct ds as [|d ds]; injection H as <- <-; (split; [reflexivity|]); [constructor|].
  apply fp_some; [congruence|exact D].
Qed.
Lemma jexp_sound : forall s f r, jexp s = (f, r) -> s = f ++ r /\ exp_part f.
Proof.
  intros [|c s] f r H; cbn [jexp] in H; [injection H as <- <-; split; [reflexivity|constructor]|].
  destruct ((c =? 101) || (c =? 69)) eqn:C; [|injection H as <- <-; split; [reflexivity|constructor]]. assert (C' : c = 101 \/ c = 69) by lia.
  destruct s as [|g r1]; [injection H as <- <-; split; [reflexivity|constructor]|].
  destruct ((g =? 43) || (g =? 45)) eqn:G.
  - destruct (span_digits r1) as [ds r'] eqn:S1. apply span_sound in S1 as [-> D]. destruct ds as [|d ds]; injection H as <- <-; (split; [reflexivity|]); [constructor|].
    apply (xp_some c [g]); [exact C'| |congruence|exact D]. assert (g = 43 \/ g = 45) as [-> | ->] by lia; tauto.
  - destruct (span_digits (g :: r1)) as [ds r'] eqn:S1. apply span_sound in S1 as [E D]. destruct ds as [|d ds]; injection H as <- <-; (split; [first [reflexivity | cbn [app] in *; congruence]|]); [constructor|].
    apply (xp_some c []); [exact C'|tauto|congruence|exact D].
Qed.
Lemma jnum_sound : forall neg s v r, jnum neg s = Ok (v, r) -> exists t, s = t ++ r /\ number (minus neg ++ t) v.
Proof.
  intros neg [|c s] v r H; [discriminate H|]. cbn [jnum] in H.
  assert (G : forall ds r', int_part ds -> (let '(f, r1) := jfrac r' in let '(e, r2) := jexp r1 in
      match f ++ e with [] => Ok (VInt (if neg then - undec ds else undec ds), r2) | fe => Ok (VFloat ((if neg then [45] else []) ++ ds ++ fe), r2) end) = Ok (v, r) ->
      exists t, ds ++ r' = t ++ r /\ number (minus neg ++ t) v).
  { intros ds r' D X. destruct (jfrac r') as [f r1] eqn:F. apply jfrac_sound in F as [-> F]. destruct (jexp r1) as [e r2] eqn:E1. apply jexp_sound in E1 as [-> E1].
    assert (FE : (f ++ e = [] /\ v = VInt (if neg then - undec ds else undec ds) /\ r = r2) \/
                 (f ++ e <> [] /\ v = VFloat (minus neg ++ ds ++ f ++ e) /\ r = r2)).
    { destruct (f ++ e) as [|x l]; injection X as <- <-; [left|right]; (split; [congruence|split; reflexivity]). }
    destruct FE as [(Z0 & -> & ->)|(N & -> & ->)].
    - apply app_eq_nil in Z0 as [-> ->]. exists ds. split; [reflexivity|]. rewrite dval_undec. apply num_int. exact D.
    - exists (ds ++ f ++ e). split; [rewrite <- !app_assoc; reflexivity|]. apply num_float; assumption. }
  destruct (Z.eqb_spec c 48) as [->|N0]. { apply (G [48] s ip_zero H). }
  destruct (is_digit c) eqn:D; [|discriminate H]. destruct (span_digits s) as [ds r'] eqn:S1. apply span_sound in S1 as [-> DS].
  apply is_digit_iff in D. apply (G (c :: ds) r'); [|exact H]. apply ip_pos; [lia|exact DS].
Qed.

Lemma span_complete : forall ds r, digits ds -> nfollow r \/ (exists c r', r = c :: r' /\ (c = 46 \/ c = 101 \/ c = 69)) -> span_digits (ds ++ r) = (ds, r).
Proof.
  intros ds r D F. apply span_digits_app; [apply digits_bool; exact D|]. destruct F as [F|(c & r' & -> & C)]; [apply nfollow_digit; exact F|]. unfold is_digit. lia.
Qed.
Lemma exp_follow : forall e r, exp_part e -> nfollow r -> nfollow (e ++ r) \/ (exists c r', e ++ r = c :: r' /\ (c = 46 \/ c = 101 \/ c = 69)).
Proof. intros e r E N. destruct E as [|e sg ds C]; [left; exact N|right]. cbn [app]. do 2 eexists. split; [reflexivity|]. tauto. Qed.
Lemma frac_follow : forall f e r, frac_part f -> exp_part e -> nfollow r -> nfollow (f ++ e ++ r) \/ (exists c r', f ++ e ++ r = c :: r' /\ (c = 46 \/ c = 101 \/ c = 69)).
Proof. intros f e r F E N. destruct F as [|ds]; [apply (exp_follow e r E N)|right]. cbn [app]. do 2 eexists. split; [reflexivity|]. tauto. Qed.
Lemma jfrac_complete : forall f e r, frac_part f -> exp_part e -> nfollow r -> jfrac (f ++ e ++ r) = (f, e ++ r).
Proof.
  intros f e r F E N. destruct F as [|ds NE D].
  - cbn [app]. destruct E as [|e sg ds C]; [apply jfrac_none; exact N|]. cbn [app jfrac]. destruct (Z.eqb_spec e 46); [lia|reflexivity].
  - cbn [app jfrac]. rewrite Z.eqb_refl. rewrite span_complete by (try assumption; apply exp_follow; assumption). destruct ds; [congruence|reflexivity].
Qed.
Lemma jexp_complete : forall e r, exp_part e -> nfollow r -> jexp (e ++ r) = (e, r).
Proof.
  intros e r E N. destruct E as [|e sg ds C SG NE D]; [apply jexp_none; exact N|]. cbn [app jexp]. replace ((e =? 101) || (e =? 69)) with true by lia.
  destruct ds as [|d ds]; [congruence|]. pose proof (Forall_inv D) as D1. cbn beta in D1.
  assert (S1 : span_digits (d :: ds ++ r) = (d :: ds, r)) by (apply (span_complete (d :: ds) r D); left; exact N).
  destruct SG as [->|[->| ->]]; cbn [app].
  - replace ((d =? 43) || (d =? 45)) with false by lia. rewrite S1. reflexivity.
  - cbn [Z.eqb orb]. rewrite S1. reflexivity.
  - cbn [Z.eqb Pos.eqb orb]. rewrite S1. reflexivity.
Qed.
Lemma jnum_complete : forall neg i f e r, int_part i -> frac_part f -> exp_part e -> nfollow r ->
  jnum neg (i ++ f ++ e ++ r) = Ok (match f ++ e with [] => VInt (if neg then - dval i else dval i) | _ => VFloat (minus neg ++ i ++ f ++ e) end, r).
Proof.
  intros neg i f e r I F E N.
  assert (G : forall ds, (let '(f0, r1) := jfrac (f ++ e ++ r) in let '(e0, r2) := jexp r1 in
      match f0 ++ e0 with [] => Ok (VInt (if neg then - undec ds else undec ds), r2) | fe => Ok (VFloat ((if neg then [45] else []) ++ ds ++ fe), r2) end) =
      Ok (match f ++ e with [] => VInt (if neg then - dval ds else dval ds) | _ => VFloat (minus neg ++ ds ++ f ++ e) end, r)).
  { intro ds. rewrite jfrac_complete, jexp_complete by assumption. rewrite dval_undec. destruct (f ++ e); reflexivity. }
  destruct I as [|d ds D DS]; cbn [app jnum].
  - rewrite Z.eqb_refl. apply (G [48]).
  - destruct (Z.eqb_spec d 48); [lia|]. replace (is_digit d) with true by (unfold is_digit; lia).
    rewrite span_complete by (try assumption; apply frac_follow; assumption). apply (G (d :: ds)).
Qed.

Lemma strip_sound : forall p s r, strip p s = Some r -> s = p ++ r.
Proof.
  induction p as [|a p IH]; intros s r H; cbn [strip] in H; [injection H as <-; reflexivity|]. destruct s as [|b s]; [discriminate H|].
  destruct (Z.eqb_spec a b) as [->|]; [|discriminate H]. apply IH in H. subst s. reflexivity.
Qed.
Lemma strip_complete : forall p r, strip p (p ++ r) = Some r.
Proof. induction p as [|a p IH]; intro r; [reflexivity|]. cbn [app strip]. rewrite Z.eqb_refl. apply IH. Qed.

Lemma jatom_sound : forall s v r, jatom s = Ok (v, r) -> exists t, s = t ++ r /\ jvalue t v.
Proof.
  intros s v r H. unfold jatom in H.
  destruct (strip (lit "null") s) as [x|] eqn:A1. { injection H as <- <-. apply strip_sound in A1. subst s. eexists. split; [reflexivity|constructor]. }
  destruct (strip (lit "true") s) as [x|] eqn:A2. { injection H as <- <-. apply strip_sound in A2. subst s. eexists. split; [reflexivity|constructor]. }
  destruct (strip (lit "false") s) as [x|] eqn:A3. { injection H as <- <-. apply strip_sound in A3. subst s. eexists. split; [reflexivity|constructor]. }
  destruct (strip (lit "NaN") s) as [x|] eqn:A4. { injection H as <- <-. apply strip_sound in A4. subst s. eexists. split; [reflexivity|apply jv_nan]. }
  destruct (strip (lit "Infinity") s) as [x|] eqn:A5. { injection H as <- <-. apply strip_sound in A5. subst s. eexists. split; [reflexivity|apply jv_inf]. }
  destruct (strip (lit "-Infinity") s) as [x|] eqn:A6. { injection H as <- <-. apply strip_sound in A6. subst s. eexists. split; [reflexivity|apply jv_ninf]. }
  clear A1 A2 A3 A4 A5 A6. destruct s as [|c s]; [discriminate H|]. destruct (Z.eqb_spec c 45) as [->|].
  - apply jnum_sound in H as (t & -> & T). exists (45 :: t). split; [reflexivity|]. apply jv_num. exact T.
  - apply jnum_sound in H as (t & -> & T). exists t. split; [reflexivity|]. apply jv_num. exact T.
Qed.

Lemma jatom_num : forall t v r, number t v -> nfollow r -> jatom (t ++ r) = Ok (v, r).
Proof.
  assert (G : forall neg i f e r, int_part i -> frac_part f -> exp_part e -> nfollow r -> jatom (minus neg ++ i ++ f ++ e ++ r) =
     Ok (match f ++ e with [] => VInt (if neg then - dval i else dval i) | _ => VFloat (minus neg ++ i ++ f ++ e) end, r)).
  { intros neg i f e r I F E N. rewrite <- jnum_complete by assumption.
    assert (HD : exists d ds, i = d :: ds /\ 48 <= d <= 57) by (destruct I as [|d ds D DS]; do 2 eexists; (split; [reflexivity|lia])).
    destruct HD as (d & ds & -> & D). unfold jatom.
    change (lit "null") with (110 :: lit "ull"). change (lit "true") with (116 :: lit "rue"). change (lit "false") with (102 :: lit "alse").
    change (lit "NaN") with (78 :: lit "aN"). change (lit "-Infinity") with (45 :: 73 :: lit "nfinity"). change (lit "Infinity") with (73 :: lit "nfinity").
    destruct neg; cbn [minus app].
    - assert (NI : strip (45 :: 73 :: lit "nfinity") (45 :: d :: ds ++ f ++ e ++ r) = None).
      { cbn [strip]. rewrite Z.eqb_refl. destruct (Z.eqb_spec 73 d); [lia|reflexivity]. }
      rewrite NI. rewrite !strip_head by lia. rewrite Z.eqb_refl. reflexivity.
    - rewrite !strip_head by lia. destruct (Z.eqb_spec d 45); [lia|reflexivity]. }
  intros t v r T N. destruct T as [neg i I|neg i f e I F E FE].
  - rewrite <- app_assoc. apply (G neg i [] [] r I fp_none xp_none N).
  - rewrite <- !app_assoc. rewrite G by assumption. destruct (f ++ e); [congruence|reflexivity].
Qed.

(** ** Values *)
Lemma jval_sound : forall n,
  (forall s v r, jval n s = Ok (v, r) -> exists t, s = t ++ r /\ jvalue t v) /\
  (forall s acc v r, jmembers n s acc = Ok (v, r) -> exists t ms, s = t ++ 125 :: r /\ members t ms /\ v = VDict (dfold ms acc)) /\
  (forall s acc v r, jelems n s acc = Ok (v, r) -> exists t l, s = t ++ 93 :: r /\ elements t l /\ v = VList (acc ++ l)).
Proof.
  induction n as [|n (IHv & IHm & IHe)]; [repeat split; intros; match goal with H : _ = Ok _ |- _ => discriminate H end|]. split; [|split].
  - intros s v r H. destruct s as [|c s]; [discriminate H|]. cbn [jval] in H.
    destruct (Z.eqb_spec c 34) as [->|].
    { destruct (jstr s) as [[u r']|] eqn:J; [|discriminate H]. cbn [bind fst snd] in H. injection H as <- <-. apply (jstr_sound _ s _ _ (le_n _)) in J as (t & -> & T).
      exists (34 :: t ++ [34]). split; [cbn [app]; rewrite <- app_assoc; reflexivity|]. apply jv_str. exact T. }
    destruct (Z.eqb_spec c 123) as [->|].
    { destruct (skip_ws_sound s) as (w & E & W). destruct (skip_ws s) as [|c1 r1]; [discriminate H|]. subst s. destruct (Z.eqb_spec c1 125) as [->|].
      - injection H as <- <-. exists (123 :: w ++ [125]). split; [cbn [app]; rewrite <- app_assoc; reflexivity|]. apply jv_obj0. exact W.
      - apply IHm in H as (t & ms & E & M & ->). rewrite E. rewrite dfold_object. exists (123 :: w ++ t ++ [125]).
        split; [cbn [app]; rewrite <- !app_assoc; reflexivity|]. apply jv_obj; assumption. }
    destruct (Z.eqb_spec c 91) as [->|].
    { destruct (skip_ws_sound s) as (w & E & W). destruct (skip_ws s) as [|c1 r1]; [discriminate H|]. subst s. destruct (Z.eqb_spec c1 93) as [->|].
      - injection H as <- <-. exists (91 :: w ++ [93]). split; [cbn [app]; rewrite <- app_assoc; reflexivity|]. apply jv_arr0. exact W.
      - apply IHe in H as (t & l & E & M & ->). rewrite E. exists (91 :: w ++ t ++ [93]).
        split; [cbn [app]; rewrite <- !app_assoc; reflexivity|]. apply jv_arr; assumption. }
    apply jatom_sound. exact H.
  - intros s acc v r H. destruct s as [|c s]; [discriminate H|]. cbn [jmembers] in H. destruct (Z.eqb_spec c 34) as [->|]; [|discriminate H]. cbn [negb] in H.
    destruct (jstr s) as [[k r1]|] eqn:J; [|discriminate H]. cbn [bind fst snd] in H. apply (jstr_sound _ s _ _ (le_n _)) in J as (kt & -> & K).
    destruct (skip_ws_sound r1) as (w1 & E1 & W1). destruct (skip_ws r1) as [|c1 r2]; [discriminate H|]. subst r1. destruct (Z.eqb_spec c1 58) as [->|]; [|discriminate H]. cbn [negb] in H.
    destruct (skip_ws_sound r2) as (w2 & E2 & W2). destruct (jval n (skip_ws r2)) as [[x r3]|] eqn:V; [|discriminate H]. cbn [bind fst snd] in H.
    apply IHv in V as (t & T & TV). rewrite T in E2. subst r2. clear T.
    destruct (skip_ws_sound r3) as (w3 & E3 & W3). destruct (skip_ws r3) as [|c2 r4]; [discriminate H|]. subst r3. destruct (Z.eqb_spec c2 125) as [->|].
    + injection H as <- <-. exists (34 :: kt ++ 34 :: w1 ++ 58 :: w2 ++ t ++ w3), [(k, x)].
      split; [cbn [app]; repeat (rewrite <- app_assoc; cbn [app]); reflexivity|]. split; [apply me_one; assumption|reflexivity].
    + destruct (Z.eqb_spec c2 44) as [->|]; [|discriminate H]. destruct (skip_ws_sound r4) as (w4 & E4 & W4). apply IHm in H as (t' & ms & T' & M & ->). rewrite T' in E4. subst r4.
      exists (34 :: kt ++ 34 :: w1 ++ 58 :: w2 ++ t ++ w3 ++ 44 :: w4 ++ t'), ((k, x) :: ms).
      split; [cbn [app]; repeat (rewrite <- app_assoc; cbn [app]); reflexivity|]. split; [apply me_more; assumption|reflexivity].
  - intros s acc v r H. cbn [jelems] in H. destruct (jval n s) as [[x r3]|] eqn:V; [|discriminate H]. cbn [bind fst snd] in H. apply IHv in V as (t & -> & TV).
    destruct (skip_ws_sound r3) as (w3 & E3 & W3). destruct (skip_ws r3) as [|c2 r4]; [discriminate H|]. subst r3. destruct (Z.eqb_spec c2 93) as [->|].
    + injection H as <- <-. exists (t ++ w3), [x]. split; [rewrite <- app_assoc; reflexivity|]. split; [apply el_one; assumption|reflexivity].
    + destruct (Z.eqb_spec c2 44) as [->|]; [|discriminate H]. destruct (skip_ws_sound r4) as (w4 & E4 & W4). apply IHe in H as (t' & l & T' & M & ->). rewrite T' in E4. subst r4.
      exists (t ++ w3 ++ 44 :: w4 ++ t'), (x :: l). split; [repeat (rewrite <- app_assoc; cbn [app]); reflexivity|]. split; [apply el_more; assumption|].
      rewrite <- app_assoc. reflexivity.
Qed.

(** the first character of a value *)
Lemma jvalue_head : forall t v, jvalue t v -> exists c t', t = c :: t' /\ jws_c c = false /\ c <> 93 /\ c <> 125 /\ c <> 65279.
Proof.
  assert (N : forall t v, number t v -> exists c t', t = c :: t' /\ (c = 45 \/ 48 <= c <= 57)).
  { assert (G : forall neg i x, int_part i -> exists c t', minus neg ++ i ++ x = c :: t' /\ (c = 45 \/ 48 <= c <= 57)).
    { intros neg i x I. destruct neg; cbn [minus app]; [do 2 eexists; split; [reflexivity|lia]|]. destruct I as [|d ds D DS]; cbn [app]; do 2 eexists; (split; [reflexivity|lia]). }
    intros t v [neg i I|neg i f e I F E FE]; [|apply G; exact I]. destruct (G neg i [] I) as (c & t' & E & C). rewrite app_nil_r in E. exists c, t'. tauto. }
  intros t v H. destruct H as [| | | | | |t v NM| | | | |]; try match goal with |- context [lit ?s] => let l := eval vm_compute in (lit s) in change (lit s) with l end; try (do 2 eexists; split; [reflexivity|]; split; [reflexivity|]; lia).
  destruct (N _ _ NM) as (c & t' & -> & C). exists c, t'. split; [reflexivity|]. unfold jws_c. lia.
Qed.

Lemma wsp_follow : forall w c r, wsp w -> nfollow (c :: r) -> nfollow (w ++ c :: r).
Proof.
  intros w c r W N. destruct w as [|x w]; [exact N|]. inversion W as [|? ? X W']; subst. cbn [app nfollow]. unfold is_digit. lia.
Qed.

Lemma jval_complete :
  (forall t v, jvalue t v -> forall n r, (2 * length t <= n)%nat -> nfollow r -> jval n (t ++ r) = Ok (v, r)) /\
  (forall t l, elements t l -> (exists c t', t = c :: t' /\ jws_c c = false /\ c <> 93) /\
     forall n acc r, (2 * length t + 1 <= n)%nat -> jelems n (t ++ 93 :: r) acc = Ok (VList (acc ++ l), r)) /\
  (forall t ms, members t ms -> (exists t', t = 34 :: t') /\
     forall n acc r, (2 * length t + 1 <= n)%nat -> jmembers n (t ++ 125 :: r) acc = Ok (VDict (dfold ms acc), r)).
Proof.
  assert (AT : forall c t v r n, (2 * length (c :: t) <= n)%nat -> c <> 34 -> c <> 123 -> c <> 91 -> jatom (c :: t ++ r) = Ok (v, r) -> jval n ((c :: t) ++ r) = Ok (v, r)).
  { intros c t v r n L A B C J. destruct n as [|n]; [cbn [length] in L; lia|]. cbn [app]. rewrite jval_atom by assumption. exact J. }
  apply json_min.
  - intros n r L _. apply (AT 110 (lit "ull")); [exact L|lia|lia|lia|reflexivity].
  - intros n r L _. apply (AT 116 (lit "rue")); [exact L|lia|lia|lia|reflexivity].
  - intros n r L _. apply (AT 102 (lit "alse")); [exact L|lia|lia|lia|reflexivity].
  - intros n r L _. apply (AT 78 (lit "aN")); [exact L|lia|lia|lia|reflexivity].
  - intros n r L _. apply (AT 73 (lit "nfinity")); [exact L|lia|lia|lia|reflexivity].
  - intros n r L _. apply (AT 45 (lit "Infinity")); [exact L|lia|lia|lia|reflexivity].
  - intros t v T n r L N. pose proof (jatom_num t v r T N) as J.
    assert (HD : exists c t', t = c :: t' /\ (c = 45 \/ 48 <= c <= 57)).
    { assert (G : forall neg i x, int_part i -> exists c t', minus neg ++ i ++ x = c :: t' /\ (c = 45 \/ 48 <= c <= 57)).
      { intros neg i x I. destruct neg; cbn [minus app]; [do 2 eexists; split; [reflexivity|lia]|]. destruct I as [|d ds D DS]; cbn [app]; do 2 eexists; (split; [reflexivity|lia]). }
      destruct T as [neg i I|neg i f e I F E FE]; [|apply G; exact I]. destruct (G neg i [] I) as (c & t' & E & C). rewrite app_nil_r in E. exists c, t'. tauto. }
    destruct HD as (c & t' & -> & C). apply AT; [exact L|lia|lia|lia|exact J].
  - intros t s T n r L _. destruct n as [|n]; [cbn [length] in L; lia|]. cbn [app jval]. rewrite Z.eqb_refl. rewrite <- app_assoc. cbn [app]. rewrite (jstr_complete _ _ T). reflexivity.
  - intros w W n r L _. destruct n as [|n]; [cbn [length] in L; lia|]. cbn [app jval]. change (91 =? 34) with false. change (91 =? 123) with false. rewrite Z.eqb_refl.
    rewrite <- app_assoc. cbn [app]. rewrite skip_ws_app by (exact W || reflexivity). rewrite Z.eqb_refl. reflexivity.
  - intros w t l W _ ((c & t' & E & C1 & C2) & IH) n r L _. destruct n as [|n]; [cbn [length] in L; lia|]. cbn [app jval]. change (91 =? 34) with false. change (91 =? 123) with false. rewrite Z.eqb_refl.
    rewrite <- !app_assoc. cbn [app]. assert (NW : nows (t ++ 93 :: r)) by (rewrite E; exact C1). rewrite skip_ws_app by assumption.
    specialize (IH n [] r ltac:(cbn [length] in L; rewrite !app_length in L; cbn [length] in L; lia)). rewrite E in IH |- *. cbn [app] in IH |- *. apply Z.eqb_neq in C2. rewrite C2. exact IH.
  - intros w W n r L _. destruct n as [|n]; [cbn [length] in L; lia|]. cbn [app jval]. change (123 =? 34) with false. rewrite Z.eqb_refl.
    rewrite <- app_assoc. cbn [app]. rewrite skip_ws_app by (exact W || reflexivity). rewrite Z.eqb_refl. reflexivity.
  - intros w t ms W _ ((t' & E) & IH) n r L _. destruct n as [|n]; [cbn [length] in L; lia|]. cbn [app jval]. change (123 =? 34) with false. rewrite Z.eqb_refl.
    rewrite <- !app_assoc. cbn [app]. assert (NW : nows (t ++ 125 :: r)) by (rewrite E; reflexivity). rewrite skip_ws_app by assumption.
    specialize (IH n [] r ltac:(cbn [length] in L; rewrite !app_length in L; cbn [length] in L; lia)). rewrite dfold_object in IH. rewrite E in IH |- *. cbn [app] in IH |- *.
    change (34 =? 125) with false. exact IH.
  - intros t v w T IH W. destruct (jvalue_head _ _ T) as (c & t' & E & C1 & C2 & _). split; [exists c, (t' ++ w); rewrite E; tauto|].
    intros n acc r L. destruct n as [|n]; [lia|]. rewrite app_length in L. cbn [jelems]. rewrite <- app_assoc.
    rewrite IH by first [lia | apply wsp_follow; [exact W|apply nfollow_93]]. cbn [bind fst snd]. rewrite skip_ws_app by (exact W || reflexivity). rewrite Z.eqb_refl. reflexivity.
  - intros t v w w' t' l T IH W W' EL ((c2 & t2 & E2 & D1 & D2) & IHe). destruct (jvalue_head _ _ T) as (c & t1 & E & C1 & C2 & _). split; [exists c, (t1 ++ w ++ 44 :: w' ++ t'); rewrite E; tauto|].
    intros n acc r L. destruct n as [|n]; [lia|]. rewrite !app_length in L. cbn [length] in L. rewrite app_length in L. cbn [jelems]. rewrite <- !app_assoc. cbn [app]. rewrite <- app_assoc.
    rewrite IH by first [lia | apply wsp_follow; [exact W|apply (nfollow_sep false)]]. cbn [bind fst snd]. rewrite skip_ws_app by (exact W || reflexivity).
    change (44 =? 93) with false. rewrite Z.eqb_refl. assert (NW : nows (t' ++ 93 :: r)) by (rewrite E2; exact D1). rewrite skip_ws_app by assumption. rewrite IHe by lia.
    rewrite <- app_assoc. reflexivity.
  - intros k s w1 w2 t v w K W1 W2 T IH W. split; [eexists; reflexivity|]. destruct (jvalue_head _ _ T) as (c & t1 & E & C1 & _).
    intros n acc r L. destruct n as [|n]; [lia|]. cbn [app jmembers]. rewrite Z.eqb_refl. cbn [negb].
    repeat (rewrite <- app_assoc; cbn [app]). rewrite (jstr_complete _ _ K). cbn [bind fst snd]. rewrite skip_ws_app by (exact W1 || reflexivity). rewrite Z.eqb_refl. cbn [negb].
    assert (NW : nows (t ++ w ++ 125 :: r)) by (rewrite E; exact C1). rewrite skip_ws_app by assumption.
    cbn [length] in L. repeat (rewrite app_length in L; cbn [length] in L).
    rewrite IH by first [lia | apply wsp_follow; [exact W|apply nfollow_125]]. cbn [bind fst snd]. rewrite skip_ws_app by (exact W || reflexivity). rewrite Z.eqb_refl. reflexivity.
  - intros k s w1 w2 t v w w' t' ms K W1 W2 T IH W W' M ((t2 & E2) & IHm). split; [eexists; reflexivity|]. destruct (jvalue_head _ _ T) as (c & t1 & E & C1 & _).
    intros n acc r L. destruct n as [|n]; [lia|]. cbn [app jmembers]. rewrite Z.eqb_refl. cbn [negb].
    repeat (rewrite <- app_assoc; cbn [app]). rewrite (jstr_complete _ _ K). cbn [bind fst snd]. rewrite skip_ws_app by (exact W1 || reflexivity). rewrite Z.eqb_refl. cbn [negb].
    assert (NW : nows (t ++ w ++ 44 :: w' ++ t' ++ 125 :: r)) by (rewrite E; exact C1). rewrite skip_ws_app by assumption.
    cbn [length] in L. repeat (rewrite app_length in L; cbn [length] in L).
    rewrite IH by first [lia | apply wsp_follow; [exact W|apply (nfollow_sep false)]]. cbn [bind fst snd]. rewrite skip_ws_app by (exact W || reflexivity).
    change (44 =? 125) with false. rewrite Z.eqb_refl. assert (NW2 : nows (t' ++ 125 :: r)) by (rewrite E2; reflexivity). rewrite skip_ws_app by assumption. rewrite IHm by lia. reflexivity.
Qed.

Theorem decode_text_grammar : forall s v, decode_text s = Ok v <-> json_text s v.
Proof.
  intros s v. unfold decode_text, json_text. split.
  - destruct (skip_ws_sound s) as (w & E & W). intro H. destruct (jval (S (2 * length s)) (skip_ws s)) as [[x r]|] eqn:V; [|discriminate H]. cbn [bind fst snd] in H.
    apply (jval_sound (S (2 * length s))) in V as (t & T & TV). rewrite T in E. destruct (skip_ws_sound r) as (w' & E' & W'). destruct (skip_ws r); [|discriminate H]. injection H as <-.
    rewrite app_nil_r in E'. subst r. exists w, t, w'. tauto.
  - intros (w & t & w' & E & W & W' & T). destruct (jvalue_head _ _ T) as (c & t1 & E1 & C1 & _).
    assert (NW : nows (t ++ w')) by (rewrite E1; exact C1).
    assert (NF : nfollow w') by (destruct W' as [|x l X _]; [exact I|cbn [nfollow]; unfold is_digit; lia]).
    destruct jval_complete as (JV & _). specialize (JV t v T (S (2 * length s)) w' ltac:(rewrite E, !app_length; lia) NF).
    rewrite E at 2. rewrite skip_ws_app by assumption. rewrite JV. cbn [bind fst snd].
    replace (skip_ws w') with (@nil Z) by (symmetry; rewrite <- (app_nil_r w') at 1; apply skip_ws_app; [exact W'|exact I]). reflexivity.
Qed.

Theorem loads_grammar : forall s v, loads s = Ok v <-> json_text s v.
Proof.
  intros s v. rewrite <- decode_text_grammar. unfold loads. destruct s as [|c s]; [tauto|]. destruct (Z.eqb_spec c 65279) as [->|]; [|tauto].
  split; [intro H; discriminate H|]. intro H. exfalso. apply decode_text_grammar in H as (w & t & w' & E & W & W' & T).
  destruct W as [|x w X]; cbn [app] in E; [|injection E as <- _; lia]. destruct (jvalue_head _ _ T) as (c & t1 & -> & C). cbn [app] in E. injection E as <- _. lia.
Qed.

Corollary json_text_unique : forall s v v', json_text s v -> json_text s v' -> v = v'.
Proof. intros s v v' A B. apply loads_grammar in A, B. congruence. Qed.
Corollary loads_refuses : forall s, loads s = Raise EJSONDecodeError <-> forall v, ~ json_text s v.
Proof.
  intro s. split.
  - intros H v J. apply loads_grammar in J. congruence.
  - intro H. destruct (loads_total s) as [(v & V)|E]; [|exact E]. apply loads_grammar in V. destruct (H v V).
Qed.
