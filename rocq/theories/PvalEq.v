(** * [==] on Python values is an equivalence *)
From Coq Require Import ZArith List Bool Lia.
From Verif Require Import Base BaseProofs JsonProofs.
Import ListNotations.
Open Scope Z_scope.

(** Values as they come out of json.loads, without floats (a NaN is not equal to itself): dictionaries have distinct
    keys at every level. *)
Fixpoint plain (v : pval) : bool :=
  match v with
  | VFloat _ => false
  | VList l => forallb plain l
  | VDict d => nodup_keys d && forallb (fun kv => plain (snd kv)) d
  | _ => true
  end.

Fixpoint list_eqb (l m : list pval) : bool :=
  match l, m with [], [] => true | u :: l', v :: m' => pval_eqb u v && list_eqb l' m' | _, _ => false end.
Definition dict_sub (y : dict) := fix go (l : list (ustr * pval)) : bool :=
  match l with [] => true | (k, u) :: l' => match dget y k with Some v => pval_eqb u v | None => false end && go l' end.

Lemma eqb_VList : forall l m, pval_eqb (VList l) (VList m) = list_eqb l m.
Proof. reflexivity. Qed.
Lemma eqb_VDict : forall x y, pval_eqb (VDict x) (VDict y) = Nat.eqb (length x) (length y) && dict_sub y x.
Proof. reflexivity. Qed.

Lemma dict_sub_spec : forall y x, dict_sub y x = true <-> forall k u, In (k, u) x -> exists v, dget y k = Some v /\ pval_eqb u v = true.
Proof.
  intros y x. induction x as [|[k u] x IH]; cbn [dict_sub].
  - split; [intros _ k u []|reflexivity].
  - rewrite andb_true_iff, IH. split.
    + intros [A B] k' u' [E|I].
      * injection E as <- <-. destruct (dget y k) as [v|] eqn:D; [|discriminate]. exists v. split; [reflexivity|exact A].
      * exact (B _ _ I).
    + intro H. split; [|intros k' u' I; apply H; right; exact I].
      destruct (H k u (or_introl eq_refl)) as [v [D E]]. rewrite D. exact E.
Qed.

Lemma nodup_NoDup : forall A (d : list (ustr * A)), nodup_keys d = true -> NoDup (dkeys d).
Proof.
  induction d as [|[k v] d IH]; cbn; intro H; [constructor|]. apply andb_true_iff in H. destruct H as [H1 H2].
  constructor; [|apply IH; exact H2]. intro I. apply negb_true_iff in H1. unfold dmem in H1.
  assert (X : exists v, dget d k = Some v).
  { clear -I. induction d as [|[k' v'] d IH]; [destruct I|]. cbn. destruct (zs_eqb k' k) eqn:E; [eexists; reflexivity|].
    apply IH. destruct I as [I|I]; [cbn in I; subst; rewrite zs_eqb_refl in E; discriminate|exact I]. }
  destruct X as [w X]. rewrite X in H1. discriminate.
Qed.

Lemma In_dkeys_dget : forall A (d : list (ustr * A)) k, In k (dkeys d) -> exists v, dget d k = Some v.
Proof.
  induction d as [|[k' v'] d IH]; cbn; intros k I; [destruct I|]. destruct (zs_eqb k' k) eqn:E; [eexists; reflexivity|].
  apply IH. destruct I as [I|I]; [subst; rewrite zs_eqb_refl in E; discriminate|exact I].
Qed.

Theorem pval_eqb_refl : forall v, plain v = true -> pval_eqb v v = true.
Proof.
  apply (pval_rec' (fun v => plain v = true -> pval_eqb v v = true)); cbn [plain]; intros; try reflexivity.
  - cbn. apply eqb_reflx.
  - cbn. apply Z.eqb_refl.
  - discriminate.
  - cbn. apply zs_eqb_refl.
  - cbn. apply zs_eqb_refl.
  - rewrite eqb_VList. match goal with H : Forall _ ?l, G : forallb plain ?l = true |- _ => rename H into IH, G into P end.
    induction IH as [|x r Hx Hr IHr]; [reflexivity|]. cbn in P |- *. apply andb_true_iff in P. destruct P as [P1 P2].
    rewrite Hx by exact P1. apply IHr. exact P2.
  - rewrite eqb_VDict, Nat.eqb_refl. cbn. apply dict_sub_spec. intros k u I.
    match goal with G : nodup_keys _ && _ = true |- _ => apply andb_true_iff in G; destruct G as [N P] end.
    exists u. split; [apply In_dget; assumption|].
    match goal with H : Forall _ _ |- _ => rewrite Forall_forall in H; apply (H (k, u) I) end.
    rewrite forallb_forall in P. apply (P (k, u) I).
Qed.

Theorem pval_eqb_sym1 : forall a b, plain a = true -> plain b = true -> pval_eqb a b = true -> pval_eqb b a = true.
Proof.
  apply (pval_rec' (fun a => forall b, plain a = true -> plain b = true -> pval_eqb a b = true -> pval_eqb b a = true));
    intros; match goal with |- pval_eqb ?y _ = true => destruct y; try (cbn in *; discriminate) end; try reflexivity.
  - match goal with H : pval_eqb _ _ = true |- _ => cbn in H |- *; apply eqb_prop in H; subst; apply eqb_reflx end.
  - match goal with H : pval_eqb _ _ = true |- _ => cbn in H |- *; rewrite Z.eqb_sym; exact H end.
  - match goal with H : pval_eqb _ _ = true |- _ => cbn in H |- *; rewrite Z.eqb_sym; exact H end.
  - match goal with H : pval_eqb _ _ = true |- _ => cbn in H |- *; rewrite Z.eqb_sym; exact H end.
  - match goal with H : pval_eqb _ _ = true |- _ => cbn in H |- *; apply zs_eqb_eq in H; subst; apply zs_eqb_refl end.
  - match goal with H : pval_eqb _ _ = true |- _ => cbn in H |- *; apply zs_eqb_eq in H; subst; apply zs_eqb_refl end.
  - match goal with H : pval_eqb _ _ = true |- _ => rewrite eqb_VList in H; rename H into E end. rewrite eqb_VList.
    match goal with H : Forall _ ?a, G : plain (VList ?a) = true, G2 : plain (VList ?b) = true |- _ =>
      rename H into IH; cbn [plain] in G, G2; rename G into P1; rename G2 into P2; revert b P2 E end.
    induction IH as [|x r Hx Hr IHr]; intros [|y m] P2 E; cbn in *; try discriminate; [reflexivity|].
    apply andb_true_iff in P1, P2, E. destruct P1 as [P1 P1'], P2 as [P2 P2'], E as [E E'].
    rewrite (Hx y P1 P2 E). apply IHr; assumption.
  - match goal with H : pval_eqb _ _ = true |- _ => rewrite eqb_VDict in H; apply andb_true_iff in H; destruct H as [L E] end.
    rewrite eqb_VDict.
    match goal with H : Forall _ ?a, G : plain (VDict ?a) = true, G2 : plain (VDict ?b) = true |- _ =>
      rename H into IH; cbn [plain] in G, G2; apply andb_true_iff in G, G2; destruct G as [N1 P1]; destruct G2 as [N2 P2];
      set (x := a) in *; set (y := b) in * end.
    rewrite Nat.eqb_sym, L. cbn. apply Nat.eqb_eq in L. rewrite dict_sub_spec in E. apply dict_sub_spec. intros k v I.
    assert (K : incl (dkeys y) (dkeys x)).
    { apply NoDup_length_incl; [apply nodup_NoDup; exact N1|unfold dkeys; rewrite !map_length; lia|].
      intros k' I'. apply in_map_iff in I'. destruct I' as [[k1 u1] [<- I']]. destruct (E _ _ I') as [w [D _]].
      apply dget_In in D. apply in_map_iff. exists (k1, w). split; [reflexivity|exact D]. }
    destruct (In_dkeys_dget _ x k) as [u D]; [apply K; apply in_map_iff; exists (k, v); split; [reflexivity|exact I]|].
    exists u. split; [exact D|]. pose proof (dget_In _ _ _ _ D) as Iu. destruct (E _ _ Iu) as [w [Dw Ew]].
    rewrite (In_dget _ _ _ _ N2 I) in Dw. injection Dw as <-.
    rewrite Forall_forall in IH. rewrite forallb_forall in P1, P2.
    apply (IH (k, u) Iu v (P1 _ Iu) (P2 _ I) Ew).
Qed.

Theorem pval_eqb_sym : forall a b, plain a = true -> plain b = true -> pval_eqb a b = pval_eqb b a.
Proof.
  intros a b A B. destruct (pval_eqb a b) eqn:E.
  - symmetry. apply pval_eqb_sym1; assumption.
  - destruct (pval_eqb b a) eqn:F; [|reflexivity]. rewrite (pval_eqb_sym1 b a B A F) in E. discriminate.
Qed.

Theorem pval_eqb_trans : forall a b c, pval_eqb a b = true -> pval_eqb b c = true -> pval_eqb a c = true.
Proof.
  apply (pval_rec' (fun a => forall b c, pval_eqb a b = true -> pval_eqb b c = true -> pval_eqb a c = true));
    intros; match goal with H1 : pval_eqb _ ?y = true, H2 : pval_eqb ?y ?z = true |- _ =>
      rename H1 into E; rename H2 into F; destruct y; try (cbn in E; discriminate); destruct z; try (cbn in F; discriminate) end;
    try reflexivity.
  1-8: cbn in E, F |- *; repeat match goal with H : bool |- _ => destruct H end; try (exact E); try (exact F); try discriminate;
       rewrite ?Z.eqb_eq in *; lia.
  1-3: cbn in E, F |- *; apply zs_eqb_eq in E, F; subst; apply zs_eqb_refl.
  - rewrite eqb_VList in *. match goal with H : Forall _ ?l |- list_eqb _ ?n = true => rename H into IH; revert n F end.
    match type of E with list_eqb _ ?m = true => revert m E end.
    induction IH as [|x r Hx Hr IHr]; intros [|y m] E [|z n] F; cbn in *; try discriminate; [reflexivity|].
    apply andb_true_iff in E, F. destruct E as [E E'], F as [F F']. rewrite (Hx y z E F). apply (IHr m E' n F').
  - rewrite eqb_VDict in *. apply andb_true_iff in E, F. destruct E as [L E], F as [M F]. apply Nat.eqb_eq in L, M.
    apply andb_true_iff. split; [apply Nat.eqb_eq; lia|]. rewrite dict_sub_spec in *. intros k u I.
    destruct (E _ _ I) as [v [D A]]. destruct (F _ _ (dget_In _ _ _ _ D)) as [w [D2 B]]. exists w. split; [exact D2|].
    match goal with H : Forall _ _ |- _ => rewrite Forall_forall in H; apply (H (k, u) I v w A B) end.
Qed.
