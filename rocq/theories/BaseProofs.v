(** * Lemmas about the shared vocabulary. *)
From Coq Require Import ZArith List Bool Lia ZifyBool.
From Verif Require Import Base.
Import ListNotations.
Open Scope Z_scope.
Ltac Zify.zify_post_hook ::= Z.div_mod_to_equations.

Lemma is_byte_spec : forall z, is_byte z = true <-> 0 <= z < 256.
Proof. intro z. unfold is_byte. lia. Qed.

Lemma bytes_ok_app : forall a b, bytes_ok (a ++ b) = bytes_ok a && bytes_ok b.
Proof. intros. unfold bytes_ok. apply forallb_app. Qed.

Lemma bytes_ok_cons : forall x b, bytes_ok (x :: b) = is_byte x && bytes_ok b.
Proof. reflexivity. Qed.

Lemma bytes_ok_In : forall b x, bytes_ok b = true -> In x b -> 0 <= x < 256.
Proof. intros b x H I. apply is_byte_spec. unfold bytes_ok in H. rewrite forallb_forall in H. auto. Qed.

Lemma bytes_ok_firstn : forall n b, bytes_ok b = true -> bytes_ok (firstn n b) = true.
Proof.
  induction n; destruct b; simpl; auto. intro H. unfold bytes_ok in *. simpl in *.
  apply andb_true_iff in H. destruct H as [H1 H2]. rewrite H1. simpl. apply IHn. exact H2.
Qed.

Lemma bytes_ok_skipn : forall n b, bytes_ok b = true -> bytes_ok (skipn n b) = true.
Proof.
  induction n; destruct b; simpl; auto. intro H. unfold bytes_ok in *. simpl in *.
  apply andb_true_iff in H. destruct H as [H1 H2]. apply IHn. exact H2.
Qed.

Lemma bytes_ok_rev : forall b, bytes_ok (rev b) = bytes_ok b.
Proof.
  induction b as [|x b IH]; [reflexivity|]. simpl rev. rewrite bytes_ok_app, IH, !bytes_ok_cons.
  change (bytes_ok []) with true. rewrite andb_true_r. apply andb_comm.
Qed.

Lemma bytes_ok_repeat : forall x n, is_byte x = true -> bytes_ok (repeat x n) = true.
Proof. induction n; simpl; intro H; [reflexivity|]. rewrite H. simpl. auto. Qed.

(** ** mapM *)
Lemma mapM_ok_length : forall A B (f : A -> res B) l r, mapM f l = Ok r -> length r = length l.
Proof.
  induction l as [|x l IH]; simpl; intros r H; [inversion H; reflexivity|].
  destruct (f x); simpl in H; [|discriminate]. destruct (mapM f l) eqn:E; simpl in H; [|discriminate].
  inversion H; subst. simpl. f_equal. apply IH. reflexivity.
Qed.

Lemma mapM_ok_all : forall A B (f : A -> res B) l r, mapM f l = Ok r -> Forall2 (fun x y => f x = Ok y) l r.
Proof.
  induction l as [|x l IH]; simpl; intros r H; [inversion H; constructor|].
  destruct (f x) eqn:Ex; simpl in H; [|discriminate]. destruct (mapM f l) eqn:E; simpl in H; [|discriminate].
  inversion H; subst. constructor; auto.
Qed.

Lemma mapM_Forall2 : forall A B (f : A -> res B) l r, Forall2 (fun x y => f x = Ok y) l r -> mapM f l = Ok r.
Proof. intros A B f l r H. induction H; simpl; [reflexivity|]. rewrite H, IHForall2. reflexivity. Qed.

Lemma mapM_map : forall A B (f : A -> res B) (g : A -> B) l,
  (forall x, In x l -> f x = Ok (g x)) -> mapM f l = Ok (map g l).
Proof.
  induction l as [|x l IH]; simpl; intro H; [reflexivity|].
  rewrite H by auto. simpl. rewrite IH by auto. reflexivity.
Qed.

(** ** dictionaries *)
Lemma dget_dset_same : forall A (d : list (ustr * A)) k v, dget (dset d k v) k = Some v.
Proof.
  induction d as [|[k' v'] d IH]; simpl; intros k v.
  - rewrite zs_eqb_refl. reflexivity.
  - destruct (zs_eqb k' k) eqn:E; simpl; rewrite E; auto.
Qed.

Lemma dget_dset_other : forall A (d : list (ustr * A)) k k' v, k <> k' -> dget (dset d k v) k' = dget d k'.
Proof.
  induction d as [|[k0 v0] d IH]; simpl; intros k k' v N.
  - destruct (zs_eqb k k') eqn:E; [apply zs_eqb_eq in E; contradiction|reflexivity].
  - destruct (zs_eqb k0 k) eqn:E; simpl.
    + apply zs_eqb_eq in E. subst. destruct (zs_eqb k k') eqn:E'; [apply zs_eqb_eq in E'; contradiction|reflexivity].
    + destruct (zs_eqb k0 k'); auto.
Qed.

Lemma dget_dset : forall A (d : list (ustr * A)) k k' v,
  dget (dset d k v) k' = if zs_eqb k k' then Some v else dget d k'.
Proof.
  intros. destruct (zs_eqb k k') eqn:E.
  - apply zs_eqb_eq in E. subst. apply dget_dset_same.
  - apply dget_dset_other. apply zs_eqb_neq. exact E.
Qed.

Lemma dmem_dset : forall A (d : list (ustr * A)) k k' v, dmem (dset d k v) k' = zs_eqb k k' || dmem d k'.
Proof. intros. unfold dmem. rewrite dget_dset. destruct (zs_eqb k k'); reflexivity. Qed.

Lemma dset_nodup : forall A (d : list (ustr * A)) k v, nodup_keys d = true -> nodup_keys (dset d k v) = true.
Proof.
  induction d as [|[k0 v0] d IH]; simpl; intros k v H; [reflexivity|].
  apply andb_true_iff in H. destruct H as [H1 H2].
  destruct (zs_eqb k0 k) eqn:E; simpl.
  - rewrite H1, H2. reflexivity.
  - rewrite dmem_dset. rewrite IH by exact H2. rewrite andb_true_r.
    destruct (zs_eqb k k0) eqn:E'; [|exact H1].
    apply zs_eqb_eq in E'. subst. rewrite zs_eqb_refl in E. discriminate.
Qed.

Lemma dget_In : forall A (d : list (ustr * A)) k v, dget d k = Some v -> In (k, v) d.
Proof.
  induction d as [|[k0 v0] d IH]; simpl; intros k v H; [discriminate|].
  destruct (zs_eqb k0 k) eqn:E; [apply zs_eqb_eq in E; inversion H; subst; auto|auto].
Qed.

Lemma In_dget : forall A (d : list (ustr * A)) k v, nodup_keys d = true -> In (k, v) d -> dget d k = Some v.
Proof.
  induction d as [|[k0 v0] d IH]; simpl; intros k v H I; [contradiction|].
  apply andb_true_iff in H. destruct H as [H1 H2]. destruct I as [I|I].
  - inversion I; subst. rewrite zs_eqb_refl. reflexivity.
  - destruct (zs_eqb k0 k) eqn:E; [|auto]. apply zs_eqb_eq in E. subst.
    apply IH in I; [|exact H2]. unfold dmem in H1. rewrite I in H1. discriminate.
Qed.

Lemma dset_fresh : forall A (d : list (ustr * A)) k v, dmem d k = false -> dset d k v = d ++ [(k, v)].
Proof.
  induction d as [|[k0 v0] d IH]; simpl; intros k v H; [reflexivity|].
  unfold dmem in H. simpl in H. destruct (zs_eqb k0 k) eqn:E; [discriminate|].
  rewrite IH; [reflexivity|exact H].
Qed.

Lemma dget_app : forall A (d e : list (ustr * A)) k,
  dget (d ++ e) k = match dget d k with Some v => Some v | None => dget e k end.
Proof. induction d as [|[k0 v0] d IH]; simpl; intros; [reflexivity|]. destruct (zs_eqb k0 k); auto. Qed.

Lemma dupd_get : forall A (e d : list (ustr * A)) k, nodup_keys e = true ->
  dget (dupd d e) k = match dget e k with Some v => Some v | None => dget d k end.
Proof.
  induction e as [|[k0 v0] e IH]; simpl; intros d k H; [reflexivity|].
  apply andb_true_iff in H. destruct H as [H1 H2]. unfold dupd in *. simpl. rewrite IH by exact H2.
  rewrite dget_dset. destruct (zs_eqb k0 k) eqn:E; [|reflexivity].
  apply zs_eqb_eq in E. subst. unfold dmem in H1. destruct (dget e k); [discriminate|reflexivity].
Qed.

Lemma dupd_nodup : forall A (e d : list (ustr * A)), nodup_keys d = true -> nodup_keys (dupd d e) = true.
Proof.
  induction e as [|[k0 v0] e IH]; simpl; intros d H; [exact H|]. unfold dupd in *. simpl. apply IH.
  apply dset_nodup. exact H.
Qed.

(** ** split / join *)
Lemma split_nonempty : forall c s, split c s <> [].
Proof. induction s as [|x s IH]; simpl; [discriminate|]. destruct (x =? c); [discriminate|]. destruct (split c s); discriminate. Qed.

Lemma join_split : forall c s, join c (split c s) = s.
Proof.
  induction s as [|x s IH]; [reflexivity|]. simpl. destruct (x =? c) eqn:E.
  - apply Z.eqb_eq in E. subst. destruct (split c s) eqn:Es; [exfalso; eapply split_nonempty; eauto|].
    change (c :: join c (l :: l0) = c :: s). rewrite IH. reflexivity.
  - destruct (split c s) as [|h t] eqn:Es; [exfalso; eapply split_nonempty; eauto|].
    destruct t; simpl in *; rewrite <- IH; reflexivity.
Qed.

Lemma split_no_sep : forall c s p, In p (split c s) -> ~ In c p.
Proof.
  induction s as [|x s IH]; simpl; intros p H.
  - destruct H as [H|[]]. subst. intros [].
  - destruct (x =? c) eqn:E.
    + destruct H as [H|H]; [subst; intros []|apply IH; exact H].
    + apply Z.eqb_neq in E. destruct (split c s) as [|h t] eqn:Es; [exfalso; eapply split_nonempty; eauto|].
      destruct H as [H|H].
      * subst. intros [H|H]; [congruence|]. eapply IH; [left; reflexivity|exact H].
      * apply IH. right. exact H.
Qed.

Lemma split_app_sep : forall c a b, ~ In c a -> split c (a ++ c :: b) = a :: split c b.
Proof.
  induction a as [|x a IH]; simpl; intros b H.
  - rewrite Z.eqb_refl. reflexivity.
  - destruct (x =? c) eqn:E; [apply Z.eqb_eq in E; exfalso; apply H; auto|].
    rewrite IH by auto. reflexivity.
Qed.

Lemma split_no_sep_id : forall c a, ~ In c a -> split c a = [a].
Proof.
  induction a as [|x a IH]; simpl; intros H; [reflexivity|].
  destruct (x =? c) eqn:E; [apply Z.eqb_eq in E; exfalso; apply H; auto|].
  rewrite IH by auto. reflexivity.
Qed.

Lemma split_join : forall c parts, parts <> [] -> (forall p, In p parts -> ~ In c p) ->
  split c (join c parts) = parts.
Proof.
  induction parts as [|p r IH]; intros N H; [contradiction|].
  destruct r as [|q r].
  - simpl. apply split_no_sep_id. apply H. left. reflexivity.
  - change (join c (p :: q :: r)) with (p ++ c :: join c (q :: r)).
    rewrite split_app_sep by (apply H; left; reflexivity). f_equal. apply IH; [discriminate|].
    intros p0 I. apply H. right. exact I.
Qed.

(** ** rstrip *)
Lemma lstrip_repeat : forall c s, exists n, s = repeat c n ++ lstrip c s.
Proof.
  induction s as [|x s IH]; [exists O; reflexivity|]. simpl. destruct (x =? c) eqn:E.
  - apply Z.eqb_eq in E. subst. destruct IH as [n IH]. exists (S n). simpl. f_equal. exact IH.
  - exists O. reflexivity.
Qed.

Lemma rstrip_app : forall c s, exists n, s = rstrip c s ++ repeat c n.
Proof.
  intros c s. unfold rstrip. destruct (lstrip_repeat c (rev s)) as [n H]. exists n.
  rewrite <- (rev_involutive s). rewrite H at 1. rewrite rev_app_distr.
  rewrite (rev_involutive s). f_equal.
  clear. induction n; [reflexivity|]. simpl. rewrite IHn. clear.
  induction n; [reflexivity|]. simpl. f_equal. exact IHn.
Qed.

Lemma lstrip_head : forall c s, match lstrip c s with [] => True | x :: _ => x <> c end.
Proof. induction s as [|x s IH]; simpl; [exact I|]. destruct (x =? c) eqn:E; [exact IH|]. apply Z.eqb_neq. exact E. Qed.

Lemma lstrip_noop : forall c s, (forall x r, s = x :: r -> x <> c) -> lstrip c s = s.
Proof. intros c [|x s] H; [reflexivity|]. simpl. specialize (H x s eq_refl). apply Z.eqb_neq in H. rewrite H. reflexivity. Qed.

Lemma rstrip_noop : forall c s, ~ In c s -> rstrip c s = s.
Proof.
  intros c s H. unfold rstrip. rewrite lstrip_noop; [apply rev_involutive|].
  intros x r E. intro; subst. apply H. rewrite <- (rev_involutive s). rewrite E. apply in_rev. rewrite rev_involutive. left. reflexivity.
Qed.

Lemma lstrip_rep_app : forall c n s, lstrip c (repeat c n ++ s) = lstrip c s.
Proof. induction n; simpl; intros; [reflexivity|]. rewrite Z.eqb_refl. auto. Qed.

Lemma rev_repeat : forall A (x : A) n, rev (repeat x n) = repeat x n.
Proof.
  induction n; [reflexivity|]. simpl. rewrite IHn. clear.
  induction n; [reflexivity|]. simpl. f_equal. exact IHn.
Qed.

Lemma rstrip_app_repeat : forall c s n, rstrip c (s ++ repeat c n) = rstrip c s.
Proof. intros. unfold rstrip. rewrite rev_app_distr, rev_repeat, lstrip_rep_app. reflexivity. Qed.

(** ** big-endian integers *)
Lemma be2z_acc : forall b a, fold_left (fun a x => a * 256 + x) b a = a * 256 ^ Z.of_nat (length b) + be2z b.
Proof.
  unfold be2z. induction b as [|x b IH]; intro a.
  - simpl. lia.
  - simpl fold_left. rewrite (IH (a * 256 + x)), (IH x). simpl length. rewrite Nat2Z.inj_succ, Z.pow_succ_r by lia. ring.
Qed.

Lemma be2z_cons : forall x b, be2z (x :: b) = x * 256 ^ Z.of_nat (length b) + be2z b.
Proof. intros. unfold be2z at 1. simpl. apply be2z_acc. Qed.

Lemma be2z_app : forall a b, be2z (a ++ b) = be2z a * 256 ^ Z.of_nat (length b) + be2z b.
Proof. intros. unfold be2z at 1. rewrite fold_left_app. apply be2z_acc. Qed.

Lemma be2z_nil : be2z [] = 0.
Proof. reflexivity. Qed.

Lemma be2z_snoc : forall a x, be2z (a ++ [x]) = be2z a * 256 + x.
Proof. intros. rewrite be2z_app. change (be2z [x]) with x. change (256 ^ Z.of_nat (length [x])) with 256. reflexivity. Qed.

Lemma be2z_bound : forall b, bytes_ok b = true -> 0 <= be2z b < 256 ^ Z.of_nat (length b).
Proof.
  induction b as [|x b IH]; intro H; [simpl; unfold be2z; simpl; lia|].
  rewrite bytes_ok_cons in H. apply andb_true_iff in H. destruct H as [H1 H2]. apply is_byte_spec in H1.
  specialize (IH H2). rewrite be2z_cons. simpl length. rewrite Nat2Z.inj_succ, Z.pow_succ_r by lia. nia.
Qed.

Lemma z2be_length : forall w n, length (z2be w n) = w.
Proof. induction w; intro n; simpl; [reflexivity|]. rewrite app_length, IHw. simpl. lia. Qed.

Lemma z2be_ok : forall w n, bytes_ok (z2be w n) = true.
Proof.
  induction w; intro n; simpl; [reflexivity|]. rewrite bytes_ok_app, IHw. simpl. rewrite andb_true_r.
  apply is_byte_spec. lia.
Qed.

Lemma be2z_z2be : forall w n, 0 <= n < 256 ^ Z.of_nat w -> be2z (z2be w n) = n.
Proof.
  induction w; intros n H.
  - simpl in H. unfold be2z. simpl. lia.
  - rewrite Nat2Z.inj_succ, Z.pow_succ_r in H by lia. simpl. rewrite be2z_snoc, IHw; lia.
Qed.

Lemma be2z_z2be_mod : forall w n, be2z (z2be w n) = n mod 256 ^ Z.of_nat w.
Proof.
  induction w; intros n.
  - simpl. unfold be2z. simpl. rewrite Z.mod_1_r. reflexivity.
  - simpl z2be. rewrite be2z_snoc, IHw. rewrite Nat2Z.inj_succ, Z.pow_succ_r by lia.
    assert (0 < 256 ^ Z.of_nat w) by (apply Z.pow_pos_nonneg; lia).
    rewrite Z.rem_mul_r by lia. ring.
Qed.

Lemma z2be_be2z : forall b, bytes_ok b = true -> z2be (length b) (be2z b) = b.
Proof.
  intro b. induction b as [|x b IH] using rev_ind; intro H; [reflexivity|].
  rewrite bytes_ok_app in H. apply andb_true_iff in H. destruct H as [H1 H2].
  simpl in H2. rewrite andb_true_r in H2. apply is_byte_spec in H2.
  rewrite app_length. simpl. rewrite Nat.add_comm. simpl. rewrite be2z_snoc.
  replace ((be2z b * 256 + x) / 256) with (be2z b) by lia.
  replace ((be2z b * 256 + x) mod 256) with x by lia. rewrite IH by exact H1. reflexivity.
Qed.

Lemma be2z_inj : forall a b, length a = length b -> bytes_ok a = true -> bytes_ok b = true -> be2z a = be2z b -> a = b.
Proof. intros a b L Ha Hb E. rewrite <- (z2be_be2z a Ha), <- (z2be_be2z b Hb), L, E. reflexivity. Qed.

Lemma z2be_app_high : forall w n, z2be (S w) n = [ (n / 256 ^ Z.of_nat w) mod 256 ] ++ z2be w n.
Proof.
  induction w; intro n.
  - simpl. rewrite Z.div_1_r. reflexivity.
  - change (z2be (S (S w)) n) with (z2be (S w) (n / 256) ++ [n mod 256]). rewrite IHw.
    change (z2be (S w) n) with (z2be w (n / 256) ++ [n mod 256]). rewrite app_assoc. f_equal. f_equal.
    rewrite Nat2Z.inj_succ, Z.pow_succ_r by lia. f_equal. f_equal. rewrite Z.div_div by (try lia; apply Z.pow_pos_nonneg; lia). reflexivity.
Qed.
