(** * json.loads inverts json.dumps; json.loads terminates and fails only with JSONDecodeError. *)
From Coq Require Import ZArith List Bool Lia ZifyBool.
From Verif Require Import Base BaseProofs Codec CodecProofs Utf8 Json.
Import ListNotations.
Open Scope Z_scope.
Ltac Zify.zify_post_hook ::= Z.div_mod_to_equations.

(** Induction over values, through lists and dictionaries. *)
Section Ind.
Variable Q : pval -> Prop.
Hypothesis HN : Q VNone.
Hypothesis HB : forall b, Q (VBool b).
Hypothesis HI : forall z, Q (VInt z).
Hypothesis HF : forall fl, Q (VFloat fl).
Hypothesis HS : forall s, Q (VStr s).
Hypothesis HY : forall b, Q (VBytes b).
Hypothesis HL : forall l, Forall Q l -> Q (VList l).
Hypothesis HD : forall d, Forall (fun kv => Q (snd kv)) d -> Q (VDict d).
Fixpoint pval_rec' (v : pval) : Q v :=
  match v with
  | VNone => HN | VBool b => HB b | VInt z => HI z | VFloat t => HF t | VStr s => HS s | VBytes b => HY b
  | VList l => HL l ((fix go (l : list pval) : Forall Q l :=
      match l with [] => Forall_nil _ | x :: r => Forall_cons x (pval_rec' x) (go r) end) l)
  | VDict d => HD d ((fix go (d : list (ustr * pval)) : Forall (fun kv => Q (snd kv)) d :=
      match d with [] => Forall_nil _ | x :: r => Forall_cons x (pval_rec' (snd x)) (go r) end) d)
  end.
End Ind.

(** JSON values without floats: what headers may contain. *)
Fixpoint jsonable (v : pval) : bool :=
  match v with
  | VNone | VBool _ | VInt _ => true
  | VStr s => scalars s
  | VFloat _ | VBytes _ => false
  | VList l => forallb jsonable l
  | VDict d => nodup_keys d && forallb (fun kv => scalars (fst kv) && jsonable (snd kv)) d
  end.

(** Every dictionary inside has distinct keys. *)
Fixpoint vwf (v : pval) : bool :=
  match v with
  | VList l => forallb vwf l
  | VDict d => nodup_keys d && forallb (fun kv => vwf (snd kv)) d
  | _ => true
  end.

(** ** Decimal numbers *)
Lemma undec_app : forall a b, undec (a ++ b) = fold_left (fun a c => 10 * a + (c - 48)) b (undec a).
Proof. intros. unfold undec. rewrite fold_left_app. reflexivity. Qed.
Lemma dec_digits_spec : forall fuel n acc, 0 <= n -> n < 10 ^ Z.of_nat fuel -> (0 < fuel)%nat ->
  exists ds, dec_digits fuel n acc = ds ++ acc /\ undec ds = n /\ Forall (fun c => is_digit c = true) ds /\
    ((n = 0 /\ ds = [48]) \/ (0 < n /\ exists c r, ds = c :: r /\ c <> 48)).
Proof.
  induction fuel as [|f IH]; intros n acc N B F; [lia|]. cbn [dec_digits]. cbv zeta. set (c := 48 + n mod 10).
  assert (C : is_digit c = true) by (unfold is_digit, c; lia).
  destruct (Z.eqb_spec (n / 10) 0) as [E|E].
  - exists [c]. split; [reflexivity|]. split; [unfold undec; cbn [fold_left]; unfold c; lia|]. split; [constructor; [exact C|constructor]|].
    destruct (Z.eq_dec n 0) as [->|NZ]; [left; split; reflexivity|]. right. split; [lia|]. exists c, []. split; [reflexivity|]. unfold c. lia.
  - assert (Z.of_nat (S f) = Z.of_nat f + 1) as SF by lia. rewrite SF, Z.pow_add_r, Z.pow_1_r in B by lia.
    assert (f <> 0%nat) by (intros ->; cbn in B; lia).
    destruct (IH (n / 10) (c :: acc)) as (ds & D1 & D2 & D3 & D4); [lia|lia|lia|].
    exists (ds ++ [c]). rewrite <- app_assoc. split; [exact D1|]. split.
    { rewrite undec_app, D2. cbn [fold_left]. unfold c. lia. }
    split; [apply Forall_app; split; [exact D3|constructor; [exact C|constructor]]|].
    right. split; [lia|]. destruct D4 as [[X _]|[_ (a & r & -> & A)]]; [lia|]. exists a, (r ++ [c]). split; [reflexivity|exact A].
Qed.
Lemma dec_nat_spec : forall n, 0 <= n ->
  undec (dec_nat n) = n /\ Forall (fun c => is_digit c = true) (dec_nat n) /\
  ((n = 0 /\ dec_nat n = [48]) \/ (0 < n /\ exists c r, dec_nat n = c :: r /\ c <> 48)).
Proof.
  intros n N. unfold dec_nat. destruct (dec_digits_spec (S (Z.to_nat (Z.log2 n))) n []) as (ds & D1 & D2 & D3 & D4); [lia| |lia|].
  - destruct (Z.eq_dec n 0) as [->|NZ]; [reflexivity|]. pose proof (Z.log2_nonneg n). pose proof (Z.log2_spec n ltac:(lia)) as [_ L].
    eapply Z.lt_le_trans; [exact L|]. replace (Z.of_nat (S (Z.to_nat (Z.log2 n)))) with (Z.succ (Z.log2 n)) by lia.
    apply Z.pow_le_mono_l. lia.
  - rewrite app_nil_r in D1. rewrite D1. repeat split; assumption.
Qed.

Lemma span_digits_app : forall ds r, Forall (fun c => is_digit c = true) ds ->
  match r with [] => True | c :: _ => is_digit c = false end -> span_digits (ds ++ r) = (ds, r).
Proof.
  induction ds as [|c ds IH]; intros r D R; cbn [app span_digits].
  - destruct r as [|c r]; [reflexivity|]. cbn [span_digits]. rewrite R. reflexivity.
  - inversion D as [|? ? C D']; subst. rewrite C, IH by assumption. reflexivity.
Qed.

(** text that may follow a number *)
Definition nfollow (r : list Z) : Prop :=
  match r with [] => True | c :: _ => is_digit c = false /\ c <> 46 /\ c <> 101 /\ c <> 69 end.
Lemma jfrac_none : forall r, nfollow r -> jfrac r = ([], r).
Proof. intros [|c r] H; [reflexivity|]. destruct H as (_ & H & _). cbn [jfrac]. destruct (Z.eqb_spec c 46); [contradiction|reflexivity]. Qed.
Lemma jexp_none : forall r, nfollow r -> jexp r = ([], r).
Proof. intros [|c r] H; [reflexivity|]. destruct H as (_ & _ & H1 & H2). cbn [jexp]. destruct (Z.eqb_spec c 101); [contradiction|]. destruct (Z.eqb_spec c 69); [contradiction|]. reflexivity. Qed.
Lemma nfollow_digit : forall r, nfollow r -> match r with [] => True | c :: _ => is_digit c = false end.
Proof. intros [|c r] H; [exact I|apply H]. Qed.

Lemma jnum_dec : forall neg n r, 0 <= n -> nfollow r -> jnum neg (dec_nat n ++ r) = Ok (VInt (if neg then - n else n), r).
Proof.
  intros neg n r N F. destruct (dec_nat_spec n N) as (U & D & [[-> E]|[P (c & t & E & C)]]).
  - rewrite E. cbn [app jnum]. rewrite Z.eqb_refl. rewrite jfrac_none, jexp_none by exact F. cbn [app]. destruct neg; reflexivity.
  - rewrite E in *. cbn [app jnum]. pose proof (Forall_inv D) as C1. pose proof (Forall_inv_tail D) as D'. cbn beta in C1. destruct (Z.eqb_spec c 48); [contradiction|]. rewrite C1.
    rewrite span_digits_app by (try assumption; apply nfollow_digit; exact F). rewrite jfrac_none, jexp_none by exact F. cbn [app]. rewrite U. reflexivity.
Qed.

Lemma strip_head : forall a p c s, c <> a -> strip (a :: p) (c :: s) = None.
Proof. intros. cbn [strip]. destruct (Z.eqb_spec a c); [congruence|reflexivity]. Qed.

Lemma digit_neq : forall c, is_digit c = true -> 48 <= c <= 57.
Proof. intros c H. unfold is_digit in H. lia. Qed.

Lemma jatom_dec : forall z r, nfollow r -> jatom (dec z ++ r) = Ok (VInt z, r).
Proof.
  intros z r F. unfold dec. destruct (Z.ltb_spec z 0) as [L|L].
  - cbn [app]. destruct (dec_nat_spec (- z) ltac:(lia)) as (_ & D & _).
    assert (NI : strip (lit "-Infinity") (45 :: dec_nat (- z) ++ r) = None).
    { destruct (dec_nat_spec (- z) ltac:(lia)) as (_ & D' & [[X _]|[_ (c & t & E & _)]]); [lia|]. rewrite E in *. inversion D' as [|? ? C _]; subst.
      apply digit_neq in C. change (lit "-Infinity") with (45 :: lit "Infinity"). cbn [strip app]. rewrite Z.eqb_refl.
      change (lit "Infinity") with (73 :: lit "nfinity"). apply strip_head. lia. }
    unfold jatom. rewrite NI. change (lit "null") with (110 :: lit "ull"). change (lit "true") with (116 :: lit "rue"). change (lit "false") with (102 :: lit "alse").
    change (lit "NaN") with (78 :: lit "aN"). change (lit "Infinity") with (73 :: lit "nfinity").
    rewrite !strip_head by lia. rewrite Z.eqb_refl. rewrite jnum_dec by (lia || exact F). cbn. rewrite Z.opp_involutive. reflexivity.
  - assert (G : jatom (dec_nat z ++ r) = jnum false (dec_nat z ++ r)).
    { assert (E : exists c t, dec_nat z = c :: t /\ 48 <= c <= 57).
      { destruct (dec_nat_spec z L) as (_ & D & [[_ E]|[_ (c & t & E & _)]]); rewrite E in *; [exists 48, []|exists c, t]; split; try reflexivity; try lia.
        inversion D; subst. apply digit_neq. assumption. }
      destruct E as (c & t & -> & C). cbn [app]. unfold jatom.
      change (lit "null") with (110 :: lit "ull"). change (lit "true") with (116 :: lit "rue"). change (lit "false") with (102 :: lit "alse").
      change (lit "NaN") with (78 :: lit "aN"). change (lit "-Infinity") with (45 :: lit "Infinity"). change (lit "Infinity") with (73 :: lit "nfinity").
      rewrite !strip_head by lia. destruct (Z.eqb_spec c 45); [lia|reflexivity]. }
    rewrite G. apply jnum_dec; assumption.
Qed.

(** ** Strings *)
Lemma hexval_digit : forall v, 0 <= v < 16 -> hexval (hex_digit v) = Some v.
Proof.
  intros v H. unfold hex_digit, hexval, is_digit. destruct (v <? 10) eqn:E.
  - replace ((48 <=? 48 + v) && (48 + v <=? 57)) with true by lia. f_equal. lia.
  - replace ((48 <=? 87 + v) && (87 + v <=? 57)) with false by lia. replace ((97 <=? 87 + v) && (87 + v <=? 102)) with true by lia. f_equal. lia.
Qed.
Lemma unhex4_hex4 : forall c, 0 <= c < 65536 ->
  unhex4 (hex_digit (c / 4096 mod 16)) (hex_digit (c / 256 mod 16)) (hex_digit (c / 16 mod 16)) (hex_digit (c mod 16)) = Some c.
Proof. intros c H. unfold unhex4. rewrite !hexval_digit by lia. f_equal. lia. Qed.

Lemma jstr_u : forall c r, 0 <= c < 65536 -> is_high c = false -> jstr (u_esc c ++ r) = (t <- jstr r;; Ok (c :: fst t, snd t)).
Proof.
  intros c r H NH. unfold u_esc, hex4. cbn [app jstr]. change (92 =? 34) with false. change (92 =? 92) with true. change (117 =? 117) with true. cbv iota.
  rewrite unhex4_hex4 by exact H. rewrite NH. reflexivity.
Qed.
Lemma jstr_pair : forall h l r, is_high h = true -> is_low l = true -> jstr (u_esc h ++ u_esc l ++ r) = (t <- jstr r;; Ok (surr_join h l :: fst t, snd t)).
Proof.
  intros h l r H L. unfold u_esc, hex4. cbn [app jstr]. change (92 =? 34) with false. change (92 =? 92) with true. change (117 =? 117) with true. cbv iota. cbn [andb].
  rewrite !unhex4_hex4 by (unfold is_high, is_low in *; lia). rewrite H, L. reflexivity.
Qed.

Lemma jstr_esc : forall c r, is_scalar c = true -> jstr (esc_c c ++ r) = (t <- jstr r;; Ok (c :: fst t, snd t)).
Proof.
  intros c r S. unfold is_scalar in S. unfold esc_c.
  destruct (Z.eqb_spec c 34) as [->|N1]; [reflexivity|]. destruct (Z.eqb_spec c 92) as [->|N2]; [reflexivity|].
  destruct (Z.eqb_spec c 10) as [->|N3]; [reflexivity|]. destruct (Z.eqb_spec c 13) as [->|N4]; [reflexivity|].
  destruct (Z.eqb_spec c 9) as [->|N5]; [reflexivity|]. destruct (Z.eqb_spec c 12) as [->|N6]; [reflexivity|].
  destruct (Z.eqb_spec c 8) as [->|N7]; [reflexivity|].
  destruct ((32 <=? c) && (c <=? 126)) eqn:E.
  - cbn [app jstr]. destruct (Z.eqb_spec c 34); [contradiction|]. destruct (Z.eqb_spec c 92); [contradiction|].
    replace ((0 <=? c) && (c <? 32)) with false by lia. reflexivity.
  - destruct (Z.ltb_spec c 65536) as [L|L].
    + apply jstr_u; [lia|]. unfold is_high. lia.
    + rewrite <- app_assoc. rewrite jstr_pair by (unfold is_high, is_low; lia).
      replace (surr_join (55296 + (c - 65536) / 1024) (56320 + (c - 65536) mod 1024)) with c by (unfold surr_join; lia). reflexivity.
Qed.
Lemma jstr_str : forall s r, scalars s = true -> jstr (concat (map esc_c s) ++ 34 :: r) = Ok (s, r).
Proof.
  induction s as [|c s IH]; intros r H; [reflexivity|]. cbn [scalars forallb] in H. apply andb_true_iff in H. destruct H as [H1 H2].
  cbn [map concat]. rewrite <- app_assoc. rewrite jstr_esc by exact H1. rewrite IH by exact H2. reflexivity.
Qed.

(** ** Text produced by dumps is printable ASCII *)
Definition printable (c : Z) : bool := (32 <=? c) && (c <=? 126).
Definition allp (s : list Z) : bool := forallb printable s.
Lemma allp_app : forall a b, allp (a ++ b) = allp a && allp b.
Proof. intros. unfold allp. apply forallb_app. Qed.
Lemma hex_digit_p : forall v, 0 <= v < 16 -> printable (hex_digit v) = true.
Proof. intros v H. unfold hex_digit, printable. destruct (v <? 10) eqn:E; lia. Qed.
Lemma u_esc_p : forall c, allp (u_esc c) = true.
Proof. intro c. unfold u_esc, hex4, allp. cbn [forallb]. rewrite !hex_digit_p by lia. reflexivity. Qed.
Lemma esc_c_p : forall c, allp (esc_c c) = true.
Proof.
  intro c. unfold esc_c. repeat (match goal with |- context [if ?b then _ else _] => destruct b eqn:? end; [try reflexivity|]).
  - unfold allp. cbn [forallb]. unfold printable. lia.
  - apply u_esc_p.
  - rewrite allp_app, !u_esc_p. reflexivity.
Qed.
Lemma esc_str_p : forall s, allp (esc_str s) = true.
Proof.
  intro s. unfold esc_str. change (34 :: concat (map esc_c s) ++ [34]) with ([34] ++ concat (map esc_c s) ++ [34]). rewrite !allp_app.
  replace (allp (concat (map esc_c s))) with true; [reflexivity|]. symmetry. induction s as [|c s IH]; [reflexivity|].
  cbn [map concat]. rewrite allp_app, esc_c_p, IH. reflexivity.
Qed.
Lemma dec_p : forall z, allp (dec z) = true.
Proof.
  intro z. assert (H : forall n, 0 <= n -> allp (dec_nat n) = true).
  { intros n N. destruct (dec_nat_spec n N) as (_ & D & _). unfold allp. apply forallb_forall. intros c C. rewrite Forall_forall in D. specialize (D c C). unfold is_digit, printable in *. lia. }
  unfold dec. destruct (z <? 0) eqn:E; [|apply H; lia]. change (45 :: dec_nat (- z)) with ([45] ++ dec_nat (- z)). rewrite allp_app, H by lia. reflexivity.
Qed.
Lemma sep_item_p : forall sp, allp (sep_item sp) = true. Proof. destruct sp; reflexivity. Qed.
Lemma sep_key_p : forall sp, allp (sep_key sp) = true. Proof. destruct sp; reflexivity. Qed.
Lemma interc_p : forall sep l, allp sep = true -> Forall (fun t => allp t = true) l -> allp (interc sep l) = true.
Proof.
  intros sep l S H. induction H as [|x l X H IH]; [reflexivity|]. cbn [interc]. destruct l as [|y l]; [exact X|]. rewrite !allp_app, X, S, IH. reflexivity.
Qed.

(** the two inner loops of [dumps] *)
Section Loops.
Variable sp : bool.
Fixpoint dumps_list (l : list pval) : res (list (list Z)) :=
  match l with [] => Ok [] | x :: r => y <- dumps sp x;; ys <- dumps_list r;; Ok (y :: ys) end.
Fixpoint dumps_dict (d : list (ustr * pval)) : res (list (list Z)) :=
  match d with
  | [] => Ok []
  | (k, x) :: r => y <- dumps sp x;; ys <- dumps_dict r;; Ok ((esc_str k ++ sep_key sp ++ y) :: ys)
  end.
End Loops.
Lemma dumps_VList : forall sp l, dumps sp (VList l) = (items <- dumps_list sp l;; Ok (91 :: interc (sep_item sp) items ++ [93])).
Proof. reflexivity. Qed.
Lemma dumps_VDict : forall sp d, dumps sp (VDict d) = (items <- dumps_dict sp d;; Ok (123 :: interc (sep_item sp) items ++ [125])).
Proof. reflexivity. Qed.

(** a value text starts with a character that is neither white space nor a closing bracket *)
Definition vstart (t : list Z) : Prop := match t with [] => False | c :: _ => jws_c c = false /\ c <> 93 /\ c <> 125 end.

Lemma dec_vstart : forall z, vstart (dec z).
Proof.
  intro z. assert (H : forall n, 0 <= n -> vstart (dec_nat n)).
  { intros n N. destruct (dec_nat_spec n N) as (_ & D & [[_ ->]|[_ (c & t & E & _)]]); [cbn; unfold jws_c; lia|].
    rewrite E in *. inversion D; subst. match goal with X : is_digit c = true |- _ => apply digit_neq in X end. cbn. unfold jws_c. lia. }
  unfold dec. destruct (z <? 0) eqn:E; [cbn; unfold jws_c; lia|apply H; lia].
Qed.

Lemma dumps_ok : forall sp v, jsonable v = true -> exists t, dumps sp v = Ok t /\ allp t = true /\ vstart t.
Proof.
  intros sp v. induction v using pval_rec'; intro J; try discriminate.
  - eexists. split; [reflexivity|]. split; [reflexivity|cbn; unfold jws_c; lia].
  - destruct b; eexists; (split; [reflexivity|]); (split; [reflexivity|cbn; unfold jws_c; lia]).
  - eexists. split; [reflexivity|]. split; [apply dec_p|apply dec_vstart].
  - eexists. split; [reflexivity|]. split; [apply esc_str_p|cbn; unfold jws_c; lia].
  - rewrite dumps_VList. assert (X : exists items, dumps_list sp l = Ok items /\ Forall (fun t => allp t = true) items).
    { cbn [jsonable] in J. clear -H J. induction H as [|x l X H IH]; [exists []; split; [reflexivity|constructor]|].
      cbn [forallb] in J. apply andb_true_iff in J. destruct J as [J1 J2]. destruct (X J1) as (t & T1 & T2 & _). destruct (IH J2) as (items & I1 & I2).
      exists (t :: items). cbn [dumps_list]. rewrite T1. cbn [bind]. rewrite I1. split; [reflexivity|constructor; assumption]. }
    destruct X as (items & -> & P). eexists. split; [reflexivity|]. split; [|cbn; unfold jws_c; lia].
    change (allp ([91] ++ interc (sep_item sp) items ++ [93]) = true). rewrite !allp_app, interc_p by (apply sep_item_p || exact P). reflexivity.
  - rewrite dumps_VDict. cbn [jsonable] in J. apply andb_true_iff in J. destruct J as [_ J].
    assert (X : exists items, dumps_dict sp d = Ok items /\ Forall (fun t => allp t = true) items).
    { clear -H J. induction H as [|[k x] d X H IH]; [exists []; split; [reflexivity|constructor]|].
      cbn [forallb fst snd] in J. apply andb_true_iff in J. destruct J as [J1 J2]. apply andb_true_iff in J1. destruct J1 as [J0 J1].
      destruct (X J1) as (t & T1 & T2 & _). cbn [snd] in T1. destruct (IH J2) as (items & I1 & I2).
      eexists. cbn [dumps_dict]. rewrite T1. cbn [bind]. rewrite I1. split; [reflexivity|]. constructor; [|exact I2]. rewrite !allp_app, esc_str_p, sep_key_p, T2. reflexivity. }
    destruct X as (items & -> & P). eexists. split; [reflexivity|]. split; [|cbn; unfold jws_c; lia].
    change (allp ([123] ++ interc (sep_item sp) items ++ [125]) = true). rewrite !allp_app, interc_p by (apply sep_item_p || exact P). reflexivity.
Qed.

(** ** Reading back *)
Lemma skip_ws_start : forall t r, vstart t -> skip_ws (t ++ r) = t ++ r.
Proof. intros [|c t] r H; [contradiction|]. cbn [app skip_ws]. rewrite (proj1 H). reflexivity. Qed.
Lemma skip_ws_c : forall c r, jws_c c = false -> skip_ws (c :: r) = c :: r.
Proof. intros c r H. cbn [skip_ws]. rewrite H. reflexivity. Qed.
Lemma jws_not : forall c, c <> 32 -> c <> 9 -> c <> 10 -> c <> 13 -> jws_c c = false.
Proof. intros. unfold jws_c. lia. Qed.

Definition reads (sp : bool) (v : pval) : Prop := forall t, dumps sp v = Ok t -> forall n r, (length t <= n)%nat -> nfollow r -> jval n (t ++ r) = Ok (v, r).

Lemma interc_cons : forall sep x l, l <> [] -> interc sep (x :: l) = x ++ sep ++ interc sep l.
Proof. intros sep x [|y l] H; [congruence|reflexivity]. Qed.

Lemma nfollow_93 : forall r, nfollow (93 :: r). Proof. intro. cbn. repeat split; discriminate. Qed.
Lemma nfollow_125 : forall r, nfollow (125 :: r). Proof. intro. cbn. repeat split; discriminate. Qed.
Lemma nfollow_sep : forall sp r, nfollow (sep_item sp ++ r). Proof. intros [] r; cbn; repeat split; discriminate. Qed.

Lemma jelems_read : forall sp l items, l <> [] -> Forall (reads sp) l -> forallb jsonable l = true -> dumps_list sp l = Ok items ->
  forall n acc r, (length (interc (sep_item sp) items ++ [93%Z]) <= n)%nat ->
  jelems n (interc (sep_item sp) items ++ 93 :: r) acc = Ok (VList (acc ++ l), r).
Proof.
  intros sp l. induction l as [|x l IH]; intros items NE F J D n acc r N; [congruence|].
  inversion F as [|? ? R F']; subst. cbn [forallb] in J. apply andb_true_iff in J. destruct J as [J1 J2].
  cbn [dumps_list] in D. destruct (dumps_ok sp x J1) as (t & T1 & T2 & T3). rewrite T1 in D. cbn [bind] in D.
  destruct (dumps_list sp l) as [its|] eqn:DL; [|discriminate]. cbn [bind] in D. injection D as <-.
  destruct l as [|y l].
  - cbn [dumps_list] in DL. injection DL as <-. cbn [interc] in *. rewrite app_length in N. cbn [length] in N.
    destruct n as [|n]; [destruct t; [contradiction|cbn [length] in N; lia]|]. cbn [jelems].
    rewrite (R t T1 n (93 :: r)) by (lia || apply nfollow_93). cbn [bind fst snd]. rewrite skip_ws_c by reflexivity. rewrite Z.eqb_refl. reflexivity.
  - assert (IN : its <> []). { cbn [dumps_list] in DL. destruct (dumps sp y); [|discriminate]. cbn [bind] in DL. destruct (dumps_list sp l); [|discriminate]. cbn [bind] in DL. injection DL as <-. discriminate. }
    rewrite interc_cons in * by exact IN. rewrite !app_length in N. rewrite <- !app_assoc.
    assert (TL : (1 <= length t)%nat) by (destruct t; [contradiction|cbn [length]; lia]).
    assert (SL : (1 <= length (sep_item sp))%nat) by (destruct sp; cbn; lia). cbn [length] in N.
    destruct n as [|n]; [lia|]. cbn [jelems].
    rewrite (R t T1 n) by (lia || apply nfollow_sep). cbn [bind fst snd].
    assert (E : match sep_item sp ++ interc (sep_item sp) its ++ 93 :: r with [] => False | c2 :: r2 => c2 = 44 /\ skip_ws r2 = interc (sep_item sp) its ++ 93 :: r end).
    { assert (VS : skip_ws (interc (sep_item sp) its ++ 93 :: r) = interc (sep_item sp) its ++ 93 :: r).
      { cbn [dumps_list] in DL. cbn [forallb] in J2. apply andb_true_iff in J2. destruct (dumps_ok sp y (proj1 J2)) as (ty & Y1 & Y2 & Y3). rewrite Y1 in DL. cbn [bind] in DL.
        destruct (dumps_list sp l) as [z|]; [|discriminate]. cbn [bind] in DL. injection DL as <-. destruct z as [|z0 z]; [cbn [interc]; apply skip_ws_start; exact Y3|].
        rewrite interc_cons by discriminate. rewrite <- app_assoc. apply skip_ws_start. exact Y3. }
      destruct sp; cbn [sep_item app]; (split; [reflexivity|]); [change (skip_ws (32 :: interc [44; 32] its ++ 93 :: r)) with (skip_ws (interc [44; 32] its ++ 93 :: r))|]; exact VS. }
    assert (HD : skip_ws (sep_item sp ++ interc (sep_item sp) its ++ 93 :: r) = sep_item sp ++ interc (sep_item sp) its ++ 93 :: r) by (destruct sp; reflexivity).
    rewrite HD. destruct (sep_item sp ++ interc (sep_item sp) its ++ 93 :: r) as [|c2 r2]; [contradiction|]. destruct E as [-> E]. rewrite E.
    change (44 =? 93) with false. rewrite Z.eqb_refl. rewrite (IH its) by (first [assumption | discriminate | reflexivity | rewrite app_length; cbn [length]; lia]).
    rewrite <- app_assoc. reflexivity.
Qed.

Lemma dset_app_fresh : forall (acc : dict) k v, dmem acc k = false -> dset acc k v = acc ++ [(k, v)].
Proof. intros. apply dset_fresh. assumption. Qed.
Lemma dmem_app : forall A (a b : list (ustr * A)) k, dmem (a ++ b) k = dmem a k || dmem b k.
Proof. intros. unfold dmem. rewrite dget_app. destruct (dget a k); reflexivity. Qed.

Lemma jmembers_read : forall sp d items, d <> [] -> Forall (fun kv => reads sp (snd kv)) d ->
  forallb (fun kv => scalars (fst kv) && jsonable (snd kv)) d = true -> dumps_dict sp d = Ok items ->
  forall n acc r, nodup_keys d = true -> (forall k, dmem d k = true -> dmem acc k = false) -> (length (interc (sep_item sp) items ++ [125%Z]) <= n)%nat ->
  jmembers n (interc (sep_item sp) items ++ 125 :: r) acc = Ok (VDict (acc ++ d), r).
Proof.
  intros sp d. induction d as [|[k x] d IH]; intros items NE F J D n acc r ND DJ N; [congruence|].
  inversion F as [|? ? R F']; subst. cbn [snd] in R. cbn [forallb fst snd] in J. apply andb_true_iff in J. destruct J as [J1 J2].
  apply andb_true_iff in J1. destruct J1 as [SK J1]. cbn [nodup_keys] in ND. apply andb_true_iff in ND. destruct ND as [ND1 ND2]. apply negb_true_iff in ND1.
  cbn [dumps_dict] in D. destruct (dumps_ok sp x J1) as (t & T1 & T2 & T3). rewrite T1 in D. cbn [bind] in D.
  destruct (dumps_dict sp d) as [its|] eqn:DL; [|discriminate]. cbn [bind] in D. injection D as <-.
  assert (FR : dmem acc k = false). { apply DJ. unfold dmem. cbn [dget]. rewrite zs_eqb_refl. reflexivity. }
  assert (TL : (1 <= length t)%nat) by (destruct t; [contradiction|cbn [length]; lia]).
  (* one member *)
  assert (ONE : forall m rest, (length t <= m)%nat -> nfollow rest ->
    jmembers (S m) ((esc_str k ++ sep_key sp ++ t) ++ rest) acc =
      match skip_ws rest with
      | [] => Raise EJSONDecodeError
      | c2 :: r2 => if c2 =? 125 then Ok (VDict (acc ++ [(k, x)]), r2)
                    else if c2 =? 44 then jmembers m (skip_ws r2) (acc ++ [(k, x)]) else Raise EJSONDecodeError
      end).
  { intros m rest M NF. unfold esc_str. cbn [app jmembers]. rewrite Z.eqb_refl. cbn [negb].
    rewrite <- !app_assoc. cbn [app]. rewrite jstr_str by exact SK. cbn [bind fst snd].
    assert (X : skip_ws (sep_key sp ++ t ++ rest) = 58 :: (if sp then [32] else []) ++ t ++ rest) by (destruct sp; reflexivity).
    rewrite X. rewrite Z.eqb_refl. cbn [negb].
    assert (Y : skip_ws ((if sp then [32] else []) ++ t ++ rest) = t ++ rest) by (destruct sp; cbn [app]; [change (skip_ws (32 :: t ++ rest)) with (skip_ws (t ++ rest))|]; apply skip_ws_start; exact T3).
    rewrite Y. rewrite (R t T1 m rest M NF). cbn [bind fst snd]. cbv zeta. rewrite dset_app_fresh by exact FR. reflexivity. }
  destruct d as [|[k2 y] d].
  - cbn [dumps_dict] in DL. injection DL as <-. cbn [interc] in *. rewrite !app_length in N. cbn [length] in N. rewrite ?app_length in N.
    destruct n as [|n]; [lia|]. rewrite ONE by (lia || apply nfollow_125). rewrite skip_ws_c by reflexivity. rewrite Z.eqb_refl. reflexivity.
  - assert (IN : its <> [] /\ exists t0 t1, its = t0 :: t1 /\ vstart t0).
    { cbn [dumps_dict] in DL. destruct (dumps sp y); [|discriminate]. cbn [bind] in DL. destruct (dumps_dict sp d); [|discriminate]. cbn [bind] in DL. injection DL as <-.
      split; [discriminate|]. do 2 eexists. split; [reflexivity|]. cbn. unfold jws_c. lia. }
    destruct IN as [IN (t0 & t1 & IE & IV)].
    rewrite interc_cons in * by exact IN. rewrite !app_length in N. rewrite <- (app_assoc (esc_str k ++ sep_key sp ++ t)).
    assert (SL : (1 <= length (sep_item sp))%nat) by (destruct sp; cbn; lia). cbn [length] in N. rewrite ?app_length in N.
    destruct n as [|n]; [lia|]. rewrite ONE by (lia || (rewrite <- app_assoc; apply nfollow_sep)). rewrite <- app_assoc.
    assert (VS : skip_ws (interc (sep_item sp) its ++ 125 :: r) = interc (sep_item sp) its ++ 125 :: r).
    { rewrite IE. destruct t1 as [|t2 t1]; [cbn [interc]; apply skip_ws_start; exact IV|]. rewrite interc_cons by discriminate. rewrite <- app_assoc. apply skip_ws_start. exact IV. }
    assert (E : skip_ws (sep_item sp ++ interc (sep_item sp) its ++ 125 :: r) = 44 :: (if sp then [32] else []) ++ interc (sep_item sp) its ++ 125 :: r) by (destruct sp; reflexivity).
    rewrite E. change (44 =? 125) with false. rewrite Z.eqb_refl.
    assert (E2 : skip_ws ((if sp then [32] else []) ++ interc (sep_item sp) its ++ 125 :: r) = interc (sep_item sp) its ++ 125 :: r).
    { destruct sp; cbn [app]; [change (skip_ws (32 :: interc (sep_item true) its ++ 125 :: r)) with (skip_ws (interc (sep_item true) its ++ 125 :: r))|]; exact VS. }
    rewrite E2. rewrite (IH its).
    + rewrite <- app_assoc. reflexivity.
    + discriminate.
    + exact F'.
    + exact J2.
    + reflexivity.
    + exact ND2.
    + intros k' K'. rewrite dmem_app. rewrite DJ.
      * cbn [orb]. unfold dmem. cbn [dget]. destruct (zs_eqb k k') eqn:KE; [|reflexivity]. apply zs_eqb_eq in KE. subst k'. rewrite ND1 in K'. discriminate.
      * unfold dmem in *. cbn [dget]. destruct (zs_eqb k k'); [reflexivity|exact K'].
    + rewrite app_length. cbn [length]. lia.
Qed.

Lemma jval_atom : forall n c s, c <> 34 -> c <> 123 -> c <> 91 -> jval (S n) (c :: s) = jatom (c :: s).
Proof. intros n c s H1 H2 H3. cbn [jval]. destruct (Z.eqb_spec c 34); [congruence|]. destruct (Z.eqb_spec c 123); [congruence|]. destruct (Z.eqb_spec c 91); [congruence|]. reflexivity. Qed.

Lemma reads_all : forall sp v, jsonable v = true -> reads sp v.
Proof.
  intros sp v. induction v using pval_rec'; intros J t D n r N NF; try discriminate.
  - injection D as <-. destruct n as [|n]; [cbn in N; lia|]. reflexivity.
  - destruct b; injection D as <-; (destruct n as [|n]; [cbn in N; lia|]); reflexivity.
  - injection D as <-. pose proof (dec_vstart z) as V. destruct n as [|n]; [destruct (dec z); [contradiction|cbn in N; lia]|].
    assert (X : exists c s, dec z = c :: s /\ c <> 34 /\ c <> 123 /\ c <> 91).
    { assert (Hn : forall k, 0 <= k -> exists c s, dec_nat k = c :: s /\ 48 <= c <= 57).
      { intros k K. destruct (dec_nat_spec k K) as (_ & DD & [[_ ->]|[_ (c & s & E & _)]]); [exists 48, []; split; [reflexivity|lia]|]. exists c, s. split; [exact E|]. rewrite E in DD. inversion DD; subst. apply digit_neq. assumption. }
      unfold dec. destruct (z <? 0) eqn:E; [exists 45, (dec_nat (- z)); repeat split; lia|]. destruct (Hn z ltac:(lia)) as (c & s & -> & C). exists c, s. repeat split; lia. }
    destruct X as (c & s & E & X1 & X2 & X3). rewrite E. cbn [app]. rewrite jval_atom by assumption. change (c :: s ++ r) with ((c :: s) ++ r). rewrite <- E. apply jatom_dec. exact NF.
  - injection D as <-. destruct n as [|n]; [unfold esc_str in N; cbn in N; lia|]. unfold esc_str. cbn [app jval]. rewrite Z.eqb_refl. rewrite <- app_assoc. cbn [app].
    rewrite jstr_str by exact J. reflexivity.
  - rewrite dumps_VList in D. destruct (dumps_list sp l) as [items|] eqn:DL; [|discriminate]. cbn [bind] in D. injection D as <-.
    cbn [length app] in *. destruct n as [|n]; [lia|]. cbn [jval]. change (91 =? 34) with false. change (91 =? 123) with false. rewrite Z.eqb_refl. cbv iota.
    destruct l as [|x l].
    + injection DL as <-. reflexivity.
    + cbn [jsonable] in J. assert (F : Forall (reads sp) (x :: l)).
      { clear -H J. induction H as [|y l0 Y H IH]; [constructor|]. cbn [forallb] in J. apply andb_true_iff in J. constructor; [apply Y; apply J|apply IH; apply J]. }
      assert (VS : exists c s, interc (sep_item sp) items ++ 93 :: r = c :: s /\ jws_c c = false /\ c <> 93).
      { cbn [dumps_list] in DL. cbn [forallb] in J. apply andb_true_iff in J. destruct (dumps_ok sp x (proj1 J)) as (ty & Y1 & Y2 & Y3). rewrite Y1 in DL. cbn [bind] in DL.
        destruct (dumps_list sp l) as [z|]; [|discriminate]. cbn [bind] in DL. injection DL as <-. destruct ty as [|c ty]; [contradiction|].
        destruct z as [|z0 z]; [|rewrite interc_cons by discriminate]; cbn [interc app]; do 2 eexists; (split; [reflexivity|]); cbn in Y3; tauto. }
      rewrite <- app_assoc. cbn [app]. destruct VS as (c & s & E & V1 & V2). rewrite E. rewrite skip_ws_c by exact V1. destruct (Z.eqb_spec c 93); [congruence|]. rewrite <- E.
      apply (jelems_read sp (x :: l) items) with (acc := []); try assumption; [discriminate|lia].
  - rewrite dumps_VDict in D. destruct (dumps_dict sp d) as [items|] eqn:DL; [|discriminate]. cbn [bind] in D. injection D as <-.
    cbn [length app] in *. destruct n as [|n]; [lia|]. cbn [jval]. change (123 =? 34) with false. rewrite Z.eqb_refl. cbv iota.
    cbn [jsonable] in J. apply andb_true_iff in J. destruct J as [ND J].
    destruct d as [|[k x] d].
    + injection DL as <-. reflexivity.
    + assert (F : Forall (fun kv => reads sp (snd kv)) ((k, x) :: d)).
      { clear -H J. induction H as [|[k0 y] l0 Y H IH]; [constructor|]. cbn [forallb fst snd] in J. apply andb_true_iff in J. destruct J as [J1 J2]. apply andb_true_iff in J1.
        constructor; [apply Y; apply J1|apply IH; apply J2]. }
      assert (VS : exists s, interc (sep_item sp) items ++ 125 :: r = 34 :: s).
      { cbn [dumps_dict] in DL. destruct (dumps sp x); [|discriminate]. cbn [bind] in DL.
        destruct (dumps_dict sp d) as [z|]; [|discriminate]. cbn [bind] in DL. injection DL as <-.
        destruct z as [|z0 z]; [|rewrite interc_cons by discriminate]; unfold esc_str; cbn [interc app]; eexists; reflexivity. }
      rewrite <- app_assoc. cbn [app]. destruct VS as (s & E). rewrite E. rewrite skip_ws_c by reflexivity. change (34 =? 125) with false. cbv iota. rewrite <- E.
      apply (jmembers_read sp ((k, x) :: d) items) with (acc := []); try assumption; [discriminate|intros; reflexivity|lia].
Qed.

Lemma allp_no_bom : forall t c r, allp t = true -> t = c :: r -> c <> 65279.
Proof. intros t c r A ->. unfold allp in A. cbn [forallb] in A. unfold printable in A. lia. Qed.

Theorem loads_dumps : forall sp v, jsonable v = true -> exists t, dumps sp v = Ok t /\ allp t = true /\ loads t = Ok v.
Proof.
  intros sp v J. destruct (dumps_ok sp v J) as (t & T1 & T2 & T3). exists t. split; [exact T1|]. split; [exact T2|].
  assert (DT : decode_text t = Ok v).
  { unfold decode_text. pose proof (skip_ws_start t [] T3) as SW. rewrite app_nil_r in SW. rewrite SW.
    pose proof (reads_all sp v J t T1 (S (2 * length t)) [] ltac:(lia) I) as R. rewrite app_nil_r in R. rewrite R. reflexivity. }
  unfold loads. destruct t as [|c r]; [contradiction|]. destruct (Z.eqb_spec c 65279) as [E|]; [exfalso; exact (allp_no_bom _ _ _ T2 eq_refl E)|]. exact DT.
Qed.

(** ** Termination and failure of loads *)
Lemma skip_ws_le : forall s, (length (skip_ws s) <= length s)%nat.
Proof. induction s as [|c s IH]; [cbn; lia|]. cbn [skip_ws]. destruct (jws_c c); cbn [length]; lia. Qed.

Definition shorter {A} (s : list Z) (m : res (A * list Z)) : Prop :=
  match m with Ok (_, r) => (length r < length s)%nat | Raise e => e = EJSONDecodeError end.

Lemma jstr_ok : forall n s, (length s <= n)%nat -> shorter s (jstr s).
Proof.
  induction n as [|n IH]; intros s L; [destruct s; [reflexivity|cbn in L; lia]|].
  assert (REC : forall (k : ustr * list Z -> ustr * list Z) s' , (length s' < length s)%nat -> (forall t, snd (k t) = snd t) -> shorter s (t <- jstr s';; Ok (k t))).
  { intros k s' LT K. pose proof (IH s' ltac:(lia)) as X. destruct (jstr s') as [[u r]|e]; cbn [shorter bind] in *; [|exact X].
    specialize (K (u, r)). destruct (k (u, r)) as [a b]. cbn [snd] in K. subst b. lia. }
  destruct s as [|c r]; [reflexivity|]. cbn [jstr]. cbn [length] in *.
  destruct (c =? 34); [cbn [shorter length]; lia|].
  destruct (c =? 92).
  - destruct r as [|e r1]; [reflexivity|]. cbn [length] in *. destruct (e =? 117).
    + destruct r1 as [|a [|b [|x [|y r2]]]]; try reflexivity. cbn [length] in *. destruct (unhex4 a b x y) as [u|]; [|reflexivity].
      assert (X : forall v, shorter (c :: e :: a :: b :: x :: y :: r2) (t <- jstr r2;; Ok (v :: fst t, snd t))) by (intro v; apply REC; [cbn [length]; lia|reflexivity]).
      destruct (is_high u); [|apply X]. destruct r2 as [|e1 [|e2 [|a' [|b' [|x' [|y' r3]]]]]]; try apply X.
      destruct ((e1 =? 92) && (e2 =? 117)); [|apply X]. destruct (unhex4 a' b' x' y') as [u'|]; [|reflexivity]. destruct (is_low u'); [|apply X].
      apply REC; [cbn [length]; lia|reflexivity].
    + destruct (unescape e); [|reflexivity]. apply REC; [cbn [length]; lia|reflexivity].
  - destruct ((0 <=? c) && (c <? 32)); [reflexivity|]. apply REC; [cbn [length]; lia|reflexivity].
Qed.

Lemma span_digits_le : forall s, (length (snd (span_digits s)) <= length s)%nat.
Proof. induction s as [|c s IH]; [cbn; lia|]. cbn [span_digits]. destruct (is_digit c); [|cbn; lia]. destruct (span_digits s). cbn [snd length] in *. lia. Qed.
Lemma jfrac_le : forall s, (length (snd (jfrac s)) <= length s)%nat.
Proof.
  intros [|c s]; [cbn; lia|]. cbn [jfrac]. destruct (c =? 46); [|cbn; lia]. pose proof (span_digits_le s). destruct (span_digits s) as [[|d ds] r]; cbn [snd length] in *; lia.
Qed.
Lemma jexp_le : forall s, (length (snd (jexp s)) <= length s)%nat.
Proof.
  intros [|c s]; [cbn; lia|]. cbn [jexp]. destruct ((c =? 101) || (c =? 69)); [|cbn; lia]. destruct s as [|g r]; [cbn; lia|].
  destruct ((g =? 43) || (g =? 45)).
  - pose proof (span_digits_le r). destruct (span_digits r) as [[|d ds] r']; cbn [snd length] in *; lia.
  - pose proof (span_digits_le (g :: r)). destruct (span_digits (g :: r)) as [[|d ds] r']; cbn [snd length] in *; lia.
Qed.
Lemma jnum_ok : forall neg s, shorter s (jnum neg s).
Proof.
  intros neg [|c r]; [reflexivity|]. cbn [jnum].
  assert (G : forall ds r', (length r' <= length r)%nat -> shorter (c :: r) (let '(f, r1) := jfrac r' in let '(e, r2) := jexp r1 in
      match f ++ e with [] => Ok (VInt (if neg then - undec ds else undec ds), r2) | fe => Ok (VFloat ((if neg then [45] else []) ++ ds ++ fe), r2) end)).
  { intros ds r' L. pose proof (jfrac_le r'). destruct (jfrac r') as [f r1]. pose proof (jexp_le r1). destruct (jexp r1) as [e r2]. cbn [snd] in *.
    destruct (f ++ e); cbn [shorter length]; lia. }
  destruct (c =? 48); [apply G; lia|]. destruct (is_digit c); [|reflexivity]. pose proof (span_digits_le r). destruct (span_digits r) as [ds r']. apply G. exact H.
Qed.
Lemma strip_length : forall p s r, strip p s = Some r -> (length r + length p = length s)%nat.
Proof. induction p as [|a p IH]; intros [|b s] r H; cbn [strip] in H; try discriminate; try (injection H as <-; cbn; lia). destruct (a =? b); [|discriminate]. apply IH in H. cbn [length]. lia. Qed.
Lemma jatom_ok : forall s, shorter s (jatom s).
Proof.
  intro s. unfold jatom.
  repeat match goal with |- context [strip ?p s] => destruct (strip p s) eqn:?; [match goal with H : strip _ _ = Some _ |- _ => apply strip_length in H; cbn [length lit] in H end; cbn [shorter]; match goal with H : (_ + length ?l = _)%nat |- _ => let k := eval vm_compute in (length l) in change (length l) with k in H end; lia|] end.
  destruct s as [|c r]; [reflexivity|]. destruct (c =? 45); [|apply jnum_ok]. pose proof (jnum_ok true r) as X. destruct (jnum true r) as [[v r']|e]; cbn [shorter length] in *; [lia|exact X].
Qed.

Lemma jval_ok : forall n,
  (forall s, (2 * length s < n)%nat -> shorter s (jval n s)) /\
  (forall s acc, (2 * length s + 1 < n)%nat -> shorter s (jmembers n s acc)) /\
  (forall s acc, (2 * length s + 1 < n)%nat -> shorter s (jelems n s acc)).
Proof.
  induction n as [|n (IHv & IHm & IHe)]; [repeat split; intros; lia|]. repeat split.
  - intros s L. destruct s as [|c r]; [reflexivity|]. cbn [length] in L. cbn [jval].
    destruct (c =? 34). { pose proof (jstr_ok _ r (le_n _)) as X. destruct (jstr r) as [[u r']|e]; cbn [shorter bind snd fst length] in *; [lia|exact X]. }
    pose proof (skip_ws_le r) as SW.
    destruct (c =? 123).
    { destruct (skip_ws r) as [|c1 r1]; [reflexivity|]. cbn [length] in SW. destruct (c1 =? 125); [cbn [shorter length]; lia|].
      pose proof (IHm (c1 :: r1) [] ltac:(cbn [length]; lia)) as X. destruct (jmembers n (c1 :: r1) []) as [[v r']|e]; cbn [shorter length] in *; [lia|exact X]. }
    destruct (c =? 91).
    { destruct (skip_ws r) as [|c1 r1]; [reflexivity|]. cbn [length] in SW. destruct (c1 =? 93); [cbn [shorter length]; lia|].
      pose proof (IHe (c1 :: r1) [] ltac:(cbn [length]; lia)) as X. destruct (jelems n (c1 :: r1) []) as [[v r']|e]; cbn [shorter length] in *; [lia|exact X]. }
    apply jatom_ok.
  - intros s acc L. destruct s as [|c r]; [reflexivity|]. cbn [length] in L. cbn [jmembers]. destruct (negb (c =? 34)); [reflexivity|].
    pose proof (jstr_ok _ r (le_n _)) as X. destruct (jstr r) as [[u r1]|e]; cbn [shorter bind snd fst] in *; [|exact X].
    pose proof (skip_ws_le r1) as SW. destruct (skip_ws r1) as [|c1 r2]; [reflexivity|]. cbn [length] in SW. destruct (negb (c1 =? 58)); [reflexivity|].
    pose proof (skip_ws_le r2) as SW2. pose proof (IHv (skip_ws r2) ltac:(lia)) as Y. destruct (jval n (skip_ws r2)) as [[v r3]|e]; cbn [shorter bind snd fst] in *; [|exact Y].
    pose proof (skip_ws_le r3) as SW3. destruct (skip_ws r3) as [|c2 r4]; [reflexivity|]. cbn [length] in SW3. destruct (c2 =? 125); [cbn [shorter length]; lia|].
    destruct (c2 =? 44); [|reflexivity]. pose proof (skip_ws_le r4) as SW4. pose proof (IHm (skip_ws r4) (dset acc u v) ltac:(lia)) as W.
    destruct (jmembers n (skip_ws r4) (dset acc u v)) as [[w r5]|e]; cbn [shorter length] in *; [lia|exact W].
  - intros s acc L. cbn [jelems]. pose proof (IHv s ltac:(lia)) as Y. destruct (jval n s) as [[v r3]|e]; cbn [shorter bind snd fst] in *; [|exact Y].
    pose proof (skip_ws_le r3) as SW3. destruct (skip_ws r3) as [|c2 r4]; [reflexivity|]. cbn [length] in SW3. destruct (c2 =? 93); [cbn [shorter length]; lia|].
    destruct (c2 =? 44); [|reflexivity]. pose proof (skip_ws_le r4) as SW4. pose proof (IHe (skip_ws r4) (acc ++ [v]) ltac:(lia)) as W.
    destruct (jelems n (skip_ws r4) (acc ++ [v])) as [[w r5]|e]; cbn [shorter length] in *; [lia|exact W].
Qed.

Lemma decode_text_total : forall s, (exists v, decode_text s = Ok v) \/ decode_text s = Raise EJSONDecodeError.
Proof.
  intro s. unfold decode_text. pose proof (skip_ws_le s) as SW. destruct (jval_ok (S (2 * length s))) as (X & _). specialize (X (skip_ws s) ltac:(lia)).
  destruct (jval (S (2 * length s)) (skip_ws s)) as [[v r]|e]; cbn [shorter bind snd fst] in *; [|right; congruence].
  destruct (skip_ws r); [left; eexists; reflexivity|right; reflexivity].
Qed.
Theorem loads_total : forall s, (exists v, loads s = Ok v) \/ loads s = Raise EJSONDecodeError.
Proof. intros [|c s]; unfold loads; [apply decode_text_total|]. destruct (c =? 65279); [right; reflexivity|apply decode_text_total]. Qed.

Lemma utf8_decode_pass_exn : forall n b e, (length b <= n)%nat -> utf8_decode_pass b = Raise e -> e = EUnicodeDecodeError.
Proof.
  induction n as [|n IH]; intros b e L H; [destruct b; [discriminate|cbn in L; lia]|].
  destruct b as [|b0 r0]; [discriminate|]. cbn [utf8_decode_pass] in H. cbn [length] in L.
  assert (REC : forall r (c : Z), (length r <= n)%nat -> (s <- utf8_decode_pass r;; Ok (c :: s)) = Raise e -> e = EUnicodeDecodeError).
  { intros r c LR X. destruct (utf8_decode_pass r) eqn:E; [discriminate|]. cbn [bind] in X. apply (IH r e LR). congruence. }
  destruct (b0 <? 128); [eapply REC; [|exact H]; lia|]. destruct r0 as [|b1 r1]; [congruence|]. cbn [length] in L.
  destruct (negb (cont b1)); [congruence|]. destruct ((194 <=? b0) && (b0 <? 224)); [eapply REC; [|exact H]; lia|]. destruct r1 as [|b2 r2]; [congruence|]. cbn [length] in L.
  destruct (negb (cont b2)); [congruence|]. destruct ((224 <=? b0) && (b0 <? 240)).
  { cbv zeta in H. destruct (_ <? 2048); [congruence|]. eapply REC; [|exact H]; lia. }
  destruct r2 as [|b3 r3]; [congruence|]. cbn [length] in L. destruct (negb (cont b3)); [congruence|]. destruct ((240 <=? b0) && (b0 <? 245)); [|congruence].
  cbv zeta in H. destruct (_ || _); [congruence|]. eapply REC; [|exact H]; lia.
Qed.
Lemma units16_exn : forall n be b e, (length b <= n)%nat -> units16 be b = Raise e -> e = EUnicodeDecodeError.
Proof.
  induction n as [|n IH]; intros be b e L H; [destruct b; [discriminate|cbn in L; lia]|]. destruct b as [|x [|y r]]; cbn [units16] in H; [discriminate|congruence|].
  destruct (units16 be r) eqn:E; [discriminate|]. cbn [bind] in H. injection H as <-. apply (IH be r); [cbn [length] in L; lia|exact E].
Qed.
Lemma utf32_exn : forall n be b e, (length b <= n)%nat -> utf32_decode be b = Raise e -> e = EUnicodeDecodeError.
Proof.
  induction n as [|n IH]; intros be b e L H; [destruct b; [discriminate|cbn in L; lia]|]. destruct b as [|w [|x [|y [|z r]]]]; cbn [utf32_decode] in H; try discriminate; try congruence.
  cbv zeta in H. destruct (1114112 <=? _); [congruence|]. destruct (utf32_decode be r) eqn:E; [discriminate|]. cbn [bind] in H. injection H as <-. apply (IH be r); [cbn [length] in L; lia|exact E].
Qed.
Lemma detect_exn : forall b e, detect_decode b = Raise e -> e = EUnicodeDecodeError.
Proof.
  intros b e H. assert (A : forall b, utf8_decode_pass b = Raise e -> e = EUnicodeDecodeError) by (intros; eapply utf8_decode_pass_exn; eauto).
  assert (B : forall be b, utf16_decode be b = Raise e -> e = EUnicodeDecodeError).
  { intros be b' X. unfold utf16_decode in X. destruct (units16 be b') eqn:E; [discriminate|]. cbn [bind] in X. injection X as <-. eapply units16_exn; [apply le_n|exact E]. }
  assert (C : forall be b, utf32_decode be b = Raise e -> e = EUnicodeDecodeError) by (intros; eapply utf32_exn; eauto).
  unfold detect_decode in H.
  repeat match type of H with (if ?c then _ else _) = _ => destruct c | (match ?l with [] => _ | _ :: _ => _ end) = _ => destruct l end; eauto.
Qed.
Theorem loads_any_value_error : forall v, (exists s, v = VStr s) \/ (exists b, v = VBytes b) ->
  (exists w, loads_any v = Ok w) \/ (exists e, loads_any v = Raise e /\ is_ValueError e = true).
Proof.
  intros v [[s ->]|[b ->]]; cbn [loads_any].
  - destruct (loads_total s) as [H| ->]; [left; exact H|right]. eexists. split; reflexivity.
  - unfold loads_bytes. destruct (detect_decode b) as [s|e] eqn:E.
    + cbn [bind]. destruct (decode_text_total s) as [H| ->]; [left; exact H|right]. eexists. split; reflexivity.
    + cbn [bind]. right. exists e. split; [reflexivity|]. apply detect_exn in E. subst. reflexivity.
Qed.

(** ** Parsed dictionaries have distinct keys *)
Lemma vwf_dset : forall (d : dict) k v, forallb (fun kv => vwf (snd kv)) d = true -> vwf v = true -> forallb (fun kv => vwf (snd kv)) (dset d k v) = true.
Proof.
  induction d as [|[k' v'] d IH]; intros k v H V; cbn [dset forallb snd] in *; [rewrite V; reflexivity|]. apply andb_true_iff in H. destruct H as [H1 H2].
  destruct (zs_eqb k' k); cbn [forallb snd]; [rewrite V, H2|rewrite H1, IH by assumption]; reflexivity.
Qed.
Lemma jatom_vwf : forall s v r, jatom s = Ok (v, r) -> vwf v = true.
Proof.
  intros s v r H. unfold jatom in H. repeat (destruct (strip _ s); [injection H as <- _; reflexivity|]).
  assert (N : forall neg s', jnum neg s' = Ok (v, r) -> vwf v = true).
  { intros neg [|c s'] X; [discriminate|]. cbn [jnum] in X. assert (G : forall ds r', (let '(f, r1) := jfrac r' in let '(e, r2) := jexp r1 in
      match f ++ e with [] => Ok (VInt (if neg then - undec ds else undec ds), r2) | fe => Ok (VFloat ((if neg then [45] else []) ++ ds ++ fe), r2) end) = Ok (v, r) -> vwf v = true).
    { intros ds r' Y. destruct (jfrac r') as [f r1]. destruct (jexp r1) as [e r2]. destruct (f ++ e); injection Y as <- _; reflexivity. }
    destruct (c =? 48); [eapply G; exact X|]. destruct (is_digit c); [|discriminate]. destruct (span_digits s') as [ds r']. eapply G; exact X. }
  destruct s as [|c s']; [discriminate|]. destruct (c =? 45); eapply N; exact H.
Qed.
Lemma jval_vwf : forall n,
  (forall s v r, jval n s = Ok (v, r) -> vwf v = true) /\
  (forall s acc v r, nodup_keys acc = true -> forallb (fun kv => vwf (snd kv)) acc = true -> jmembers n s acc = Ok (v, r) -> vwf v = true) /\
  (forall s acc v r, forallb vwf acc = true -> jelems n s acc = Ok (v, r) -> vwf v = true).
Proof.
  induction n as [|n (IHv & IHm & IHe)]; [repeat split; intros; discriminate|]. repeat split.
  - intros s v r H. destruct s as [|c s]; [discriminate|]. cbn [jval] in H.
    destruct (c =? 34). { destruct (jstr s) as [[u r1]|]; [|discriminate]. cbn [bind] in H. injection H as <- _. reflexivity. }
    destruct (c =? 123). { destruct (skip_ws s) as [|c1 r1]; [discriminate|]. destruct (c1 =? 125); [injection H as <- _; reflexivity|]. apply (IHm _ [] _ _ eq_refl eq_refl H). }
    destruct (c =? 91). { destruct (skip_ws s) as [|c1 r1]; [discriminate|]. destruct (c1 =? 93); [injection H as <- _; reflexivity|]. apply (IHe _ [] _ _ eq_refl H). }
    eapply jatom_vwf; exact H.
  - intros s acc v r N A H. destruct s as [|c s]; [discriminate|]. cbn [jmembers] in H. destruct (negb (c =? 34)); [discriminate|].
    destruct (jstr s) as [[u r1]|]; [|discriminate]. cbn [bind snd fst] in H. destruct (skip_ws r1) as [|c1 r2]; [discriminate|]. destruct (negb (c1 =? 58)); [discriminate|].
    destruct (jval n (skip_ws r2)) as [[w r3]|] eqn:E; [|discriminate]. cbn [bind snd fst] in H. apply IHv in E. destruct (skip_ws r3) as [|c2 r4]; [discriminate|].
    assert (N' : nodup_keys (dset acc u w) = true) by (apply dset_nodup; exact N).
    assert (A' : forallb (fun kv => vwf (snd kv)) (dset acc u w) = true) by (apply vwf_dset; assumption).
    destruct (c2 =? 125); [injection H as <- _; cbn [vwf]; rewrite N', A'; reflexivity|]. destruct (c2 =? 44); [|discriminate]. apply (IHm _ _ _ _ N' A' H).
  - intros s acc v r A H. cbn [jelems] in H. destruct (jval n s) as [[w r3]|] eqn:E; [|discriminate]. cbn [bind snd fst] in H. apply IHv in E.
    destruct (skip_ws r3) as [|c2 r4]; [discriminate|]. assert (A' : forallb vwf (acc ++ [w]) = true) by (rewrite forallb_app; cbn [forallb]; rewrite A, E; reflexivity).
    destruct (c2 =? 93); [injection H as <- _; exact A'|]. destruct (c2 =? 44); [|discriminate]. apply (IHe _ _ _ _ A' H).
Qed.
Lemma decode_text_vwf : forall s v, decode_text s = Ok v -> vwf v = true.
Proof.
  intros s v H. unfold decode_text in H. destruct (jval _ _) as [[w r]|] eqn:E; [|discriminate]. cbn [bind snd fst] in H. apply jval_vwf in E.
  destruct (skip_ws r); [injection H as <-; exact E|discriminate].
Qed.
Theorem loads_vwf : forall s v, loads s = Ok v -> vwf v = true.
Proof. intros [|c s] v H; unfold loads in H; [eapply decode_text_vwf; exact H|]. destruct (c =? 65279); [discriminate|eapply decode_text_vwf; exact H]. Qed.
