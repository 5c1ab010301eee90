(** * The signed binary form of elliptic.py is non-adjacent and of least weight (C168). *)
From Coq Require Import ZArith List Bool Lia.
From Verif Require Import Base Elliptic.
Import ListNotations.
Open Scope Z_scope.

Lemma gbd_loop_ge : forall f n i, 0 < i -> i <= gbd_loop f n i.
Proof. induction f as [|f IH]; intros n i H; cbn [gbd_loop]; [lia|]. destruct (n mod i =? 0); [|lia]. specialize (IH n (2 * i)). lia. Qed.
Lemma even_of_mod : forall n, (n mod 4) mod 2 = 0 -> n mod 2 = 0.
Proof.
  intros n H. apply Z.mod_divide in H; [|lia]. destruct H as (k & K). apply Z.mod_divide; [lia|]. exists (2 * (n / 4) + k). pose proof (Z.div_mod n 4 ltac:(lia)). lia.
Qed.
Lemma gbd_two : forall n, 0 < n -> n mod 4 = 2 -> gbd n = 1.
Proof.
  intros n H M. unfold gbd. replace (n <=? 0) with false by lia. assert (N2 : 2 <= n) by (assert (n <> 1) by (intro; subst n; discriminate M); lia). assert (L : 1 <= Z.log2 n) by (apply Z.log2_le_pow2; lia).
  remember (Z.to_nat (Z.log2 n)) as f eqn:F. destruct f as [|f]; [lia|]. cbn [gbd_loop]. rewrite Z.mod_1_r. cbn [Z.eqb Z.mul Pos.mul]. 
  assert (E : n mod 2 = 0) by (apply even_of_mod; rewrite M; reflexivity). rewrite E, M. reflexivity.
Qed.
Lemma gbd_four : forall n, 0 < n -> n mod 4 = 0 -> 2 <= gbd n.
Proof.
  intros n H M. unfold gbd. replace (n <=? 0) with false by lia. assert (L : 2 <= Z.log2 n) by (apply Z.log2_le_pow2; [lia|]; apply Z.mod_divide in M; [destruct M; lia|lia]).
  remember (Z.to_nat (Z.log2 n)) as f eqn:F. destruct f as [|[|f]]; [lia|lia|]. cbn [gbd_loop]. rewrite Z.mod_1_r. cbn [Z.eqb Z.mul Pos.mul]. 
  assert (E : n mod 2 = 0) by (apply even_of_mod; rewrite M; reflexivity). rewrite E, M. cbn [Z.eqb].
  rewrite Z.shiftr_div_pow2 by lia. apply Z.div_le_lower_bound; [lia|].
  destruct (n mod 8 =? 0); [|cbn; lia]. pose proof (gbd_loop_ge f n 16). lia.
Qed.
Lemma odd_step : forall n, 1 < n -> Z.odd n = true -> (gbd (n - 1) <? gbd (n + 1)) = (n mod 4 =? 3).
Proof.
  intros n H O. apply Zodd_bool_iff in O. apply Zodd_ex in O. destruct O as (k & ->).
  destruct (Z.Even_or_Odd k) as [(j & ->)|(j & ->)].
  - replace (2 * (2 * j) + 1) with (1 + j * 4) by lia. rewrite Z.mod_add by lia. change (1 mod 4 =? 3) with false.
    rewrite (gbd_two (1 + j * 4 + 1)); [|lia|replace (1 + j * 4 + 1) with (2 + j * 4) by lia; rewrite Z.mod_add by lia; reflexivity].
    pose proof (gbd_four (1 + j * 4 - 1)) as G. replace (1 + j * 4 - 1) with (j * 4) in * by lia. rewrite Z.mod_mul in G by lia. lia.
  - replace (2 * (2 * j + 1) + 1) with (3 + j * 4) by lia. rewrite Z.mod_add by lia. change (3 mod 4 =? 3) with true.
    rewrite (gbd_two (3 + j * 4 - 1)); [|lia|replace (3 + j * 4 - 1) with (2 + j * 4) by lia; rewrite Z.mod_add by lia; reflexivity].
    pose proof (gbd_four (3 + j * 4 + 1)) as G. replace (3 + j * 4 + 1) with ((j + 1) * 4) in * by lia. rewrite Z.mod_mul in G by lia. lia.
Qed.

(** No two neighbours are both non-zero. *)
Fixpoint sparse (l : list Z) : Prop := match l with a :: ((b :: _) as r) => (a = 0 \/ b = 0) /\ sparse r | _ => True end.
Lemma sparse_app : forall l1 a b l2, sparse (l1 ++ a :: b :: l2) -> a = 0 \/ b = 0.
Proof.
  induction l1 as [|x l1 IH]; intros a b l2 H; [exact (proj1 H)|]. apply (IH a b l2). destruct l1; cbn [app] in *; exact (proj2 H).
Qed.
Definition next_even (n : Z) (acc : list Z) : Prop := match acc with d :: _ => d = 0 \/ Z.even n = true | [] => True end.
Lemma loop_sparse : forall f n acc r, signed_bin_loop f n acc = Some r -> 0 <= n -> sparse acc -> next_even n acc -> sparse r.
Proof.
  induction f as [|f IH]; intros n acc r H N S E; cbn [signed_bin_loop] in H; destruct (n <=? 1) eqn:L.
  1, 3: injection H as <-; destruct acc as [|d acc]; [exact I|]; split; [|exact S]; destruct E as [E|E]; [right; exact E|left];
    assert (n = 0 \/ n = 1) as [-> | ->] by lia; [reflexivity|discriminate E].
  - discriminate H.
  - assert (S0 : forall d, next_even n acc -> (d = 0 \/ Z.even n = false) -> sparse (d :: acc)).
    { intros d E' D. destruct acc as [|e acc]; [exact I|]. split; [|exact S]. destruct E' as [E'|E']; [right; exact E'|]. destruct D as [D|D]; [left; exact D|congruence]. }
    destruct (Z.odd n) eqn:O.
    + assert (EV : Z.even n = false) by (rewrite <- Z.negb_odd, O; reflexivity). rewrite odd_step in H by (lia || exact O).
      assert (P : (n mod 4 = 3 /\ Z.even (Z.shiftr (n + 1) 1) = true) \/ (n mod 4 <> 3 /\ Z.even (Z.shiftr (n - 1) 1) = true)).
      { rewrite !Z.shiftr_div_pow2 by lia. change (2 ^ 1) with 2. apply Zodd_bool_iff in O. apply Zodd_ex in O. destruct O as (k & ->). destruct (Z.Even_or_Odd k) as [(j & ->)|(j & ->)].
        - right. replace (2 * (2 * j) + 1 - 1) with (2 * j * 2) by lia. rewrite Z.div_mul by lia. rewrite Z.even_mul. split; [|reflexivity]. replace (2 * (2 * j) + 1) with (1 + j * 4) by lia. rewrite Z.mod_add by lia. discriminate.
        - left. replace (2 * (2 * j + 1) + 1 + 1) with (2 * (j + 1) * 2) by lia. rewrite Z.div_mul by lia. rewrite Z.even_mul. split; [|reflexivity]. replace (2 * (2 * j + 1) + 1) with (3 + j * 4) by lia. rewrite Z.mod_add by lia. reflexivity. }
      destruct P as [(M & P)|(M & P)].
      * rewrite M in H. cbn [Z.eqb Pos.eqb] in H. apply IH in H; [exact H|apply Z.shiftr_nonneg; lia|apply S0; [exact E|right; exact EV]|right; exact P].
      * apply Z.eqb_neq in M. rewrite M in H. apply IH in H; [exact H|apply Z.shiftr_nonneg; lia|apply S0; [exact E|right; exact EV]|right; exact P].
    + apply IH in H; [exact H|apply Z.shiftr_nonneg; lia|apply S0; [exact E|left; reflexivity]|left; reflexivity].
Qed.

(** Least weight: any sparse form has at most as many non-zero digits as any other signed form. *)
Definition val (l : list Z) : Z := fold_right (fun d v => d + 2 * v) 0 l.
Definition wt (l : list Z) : nat := length (filter (fun d => negb (d =? 0)) l).
Definition digits (l : list Z) : Prop := Forall (fun d => d = -1 \/ d = 0 \/ d = 1) l.
(** least weight of [n] plus, minus one: the forms [l] least significant digit first *)
Lemma sparse_cons : forall a l, sparse (a :: l) -> sparse l.
Proof. intros a [|b l] H; [exact I|exact (proj2 H)]. Qed.
Lemma val_small : forall l, digits l -> val l = 0 -> sparse l -> wt l = 0%nat.
Proof.
  induction l as [|d l IH]; intros D V S; [reflexivity|]. inversion_clear D as [|? ? D1 D2]. cbn [val fold_right] in V. fold (val l) in V.
  assert (d = 0) by lia. subst d. unfold wt. cbn [filter Z.eqb negb]. apply IH; [exact D2|lia|exact (sparse_cons _ _ S)].
Qed.
(** A sparse form of [n] against any form [m] of [n], [n - 1] or [n + 1]. *)
Lemma sparse_least : forall m l, digits l -> digits m -> sparse l ->
  (val l = val m -> (wt l <= wt m)%nat) /\ (val l = val m - 1 \/ val l = val m + 1 -> (wt l <= S (wt m))%nat).
Proof.
  assert (W : forall d l, wt (d :: l) = ((if (d =? 0)%Z then 0 else 1) + wt l)%nat) by (intros d l; unfold wt; cbn [filter]; destruct (d =? 0); reflexivity).
  assert (V : forall d l, val (d :: l) = d + 2 * val l) by reflexivity.
  assert (Z0 : forall l, digits l -> sparse l -> val l = 0 -> wt l = 0%nat) by (intros l D S E; exact (val_small l D E S)).
  assert (Z1 : forall l, digits l -> sparse l -> (val l = 1 \/ val l = -1 -> (wt l <= 1)%nat)).
  { induction l as [|d l IH]; intros D S E; [cbn; lia|]. inversion_clear D as [|? ? D1 D2]. rewrite W. rewrite V in E. specialize (IH D2 (sparse_cons _ _ S)).
    destruct (d =? 0) eqn:Ed; [lia|]. assert (G : val l = 0 \/ (val l = 1 \/ val l = -1)) by lia. destruct G as [G|G]; [rewrite (Z0 l D2 (sparse_cons _ _ S) G); lia|].
    destruct l as [|e l]; [cbn in G; lia|]. destruct S as [[S|S] _]; [lia|]. subst e. rewrite V in G. lia. }
  intro m. remember (length m) as k eqn:Ek. assert (Hk : (length m <= k)%nat) by lia. clear Ek. revert m Hk.
  induction k as [|k IH]; intros m Hk l Dl Dm S.
  { destruct m; [|cbn in Hk; lia]. split; intro E; cbn [val fold_right] in E; [rewrite (Z0 l Dl S E); lia|]. specialize (Z1 l Dl S). cbn [wt filter length]. lia. }
  destruct m as [|e m].
  { split; intro E; cbn [val fold_right] in E; [rewrite (Z0 l Dl S E); lia|]. specialize (Z1 l Dl S). cbn [wt filter length]. lia. }
  destruct l as [|d l]; [cbn [wt filter length]; lia|]. cbn [length] in Hk.
  inversion_clear Dm as [|? ? De Dm']. inversion_clear Dl as [|? ? Dd Dl']. pose proof (sparse_cons _ _ S) as S'.
  assert (IHm : forall l, digits l -> sparse l -> (val l = val m -> (wt l <= wt m)%nat) /\ (val l = val m - 1 \/ val l = val m + 1 -> (wt l <= Datatypes.S (wt m))%nat)) by (intros; apply IH; [lia|assumption..]).
  assert (K : d <> 0 -> val l = val m - 1 \/ val l = val m + 1 -> (wt l <= wt m)%nat).
  { intros D0 E. assert (X : exists l', digits l' /\ sparse l' /\ wt l = wt l' /\ val l = 2 * val l').
    { destruct l as [|f l']; [exists []; repeat split; constructor|]. destruct S as [[S|S] _]; [contradiction|]. subst f. inversion_clear Dl'. exists l'. split; [assumption|]. split; [exact (sparse_cons _ _ S')|]. rewrite W, V. split; [reflexivity|lia]. }
    destruct X as (l' & D' & SL & -> & E'). destruct m as [|f m]; [cbn in E; lia|]. inversion_clear Dm' as [|? ? Df Dm]. rewrite W. rewrite V in E. destruct (f =? 0) eqn:Ef; [lia|].
    cbn [length] in Hk. destruct (IH m ltac:(lia) l' D' Dm SL) as [A B]. assert (G : val l' = val m \/ (val l' = val m - 1 \/ val l' = val m + 1)) by lia. destruct G as [G|G]; [specialize (A G)|specialize (B G)]; lia. }
  destruct (IHm l Dl' S') as [A B]. rewrite !W, !V.
  destruct (d =? 0) eqn:Ed, (e =? 0) eqn:Ee.
  - split; intro E; [assert (val l = val m) by lia; lia|lia].
  - split; intro E; [lia|]. assert (G : val l = val m \/ (val l = val m - 1 \/ val l = val m + 1)) by lia. destruct G as [G|G]; [specialize (A G)|specialize (B G)]; lia.
  - split; intro E; [lia|]. assert (G : val l = val m \/ (val l = val m - 1 \/ val l = val m + 1)) by lia. destruct G as [G|G]; [specialize (A G); lia|]. assert (D0 : d <> 0) by lia. specialize (K D0 G). lia.
  - split; intro E; [|lia]. assert (G : val l = val m \/ (val l = val m - 1 \/ val l = val m + 1)) by lia. destruct G as [G|G]; [specialize (A G); lia|]. assert (D0 : d <> 0) by lia. specialize (K D0 G). lia.
Qed.

Lemma val_rev : forall l, fold_left (fun v d => 2 * v + d) l 0 = val (rev l).
Proof.
  intro l. unfold val. rewrite <- fold_left_rev_right. generalize (rev l) as m. induction m as [|d m IH]; [reflexivity|]. cbn [fold_right]. rewrite IH. lia.
Qed.
Lemma filter_rev_length : forall A (f : A -> bool) l, length (filter f (rev l)) = length (filter f l).
Proof. induction l as [|x l IH]; [reflexivity|]. cbn [rev]. rewrite filter_app, app_length, IH. cbn [filter]. destruct (f x); cbn [length]; lia. Qed.
Lemma sparse_iff : forall l, (forall l1 a b l2, l = l1 ++ a :: b :: l2 -> a = 0 \/ b = 0) -> sparse l.
Proof.
  induction l as [|a l IH]; intro H; [exact I|]. destruct l as [|b l]; [exact I|]. split; [exact (H [] a b l eq_refl)|]. apply IH. intros l1 x y l2 E. apply (H (a :: l1) x y l2). rewrite E. reflexivity.
Qed.
Lemma signed_bin_sparse : forall n, 0 <= n -> signed_bin_loop (S (Z.to_nat (Z.log2 n))) n [] = Some (signed_bin n) -> sparse (signed_bin n).
Proof. intros n N H. exact (loop_sparse _ _ _ _ H N I I). Qed.
Lemma least_weight : forall l ds, digits l -> digits ds -> sparse l -> fold_left (fun v d => 2 * v + d) l 0 = fold_left (fun v d => 2 * v + d) ds 0 ->
  (length (filter (fun d => negb (d =? 0)%Z) l) <= length (filter (fun d => negb (d =? 0)%Z) ds))%nat.
Proof.
  intros l ds D1 D2 S E. rewrite !val_rev in E. rewrite <- (filter_rev_length _ _ l), <- (filter_rev_length _ _ ds). apply (sparse_least (rev ds) (rev l)); [apply Forall_rev; exact D1|apply Forall_rev; exact D2| |exact E].
  apply sparse_iff. intros l1 a b l2 X. assert (Y : l = rev l2 ++ b :: a :: rev l1).
  { rewrite <- (rev_involutive l), X, rev_app_distr. cbn [rev]. rewrite <- !app_assoc. reflexivity. }
  rewrite Y in S. apply sparse_app in S. tauto.
Qed.
