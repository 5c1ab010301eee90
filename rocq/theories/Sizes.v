(** * curves.py: implemented_keys *)
From Coq Require Import ZArith List Bool Lia.
From Verif Require Import Base Elliptic Ecc.
Import ListNotations.
Open Scope Z_scope.

(** The keys of DOMAINS in the order of insertion: curves.py:20-56 and, by update, 59-71. *)
Definition DOMAIN_SIZES : list Z := [192; 224; 256; 384; 521; 128; 160].
(** [not must_sign or DOMAINS[k][1]] as a condition, curves.py:87: None and 0 are false. *)
Definition may_sign (must_sign : bool) (k : Z) : bool :=
  negb must_sign || match domains k with Some (_, Some n, _, _, _) => negb (n =? 0) | _ => false end.
(** curves.py:86-87 [implemented_keys] *)
Definition implemented_keys (must_sign : bool) : list Z := filter (may_sign must_sign) DOMAIN_SIZES.

Lemma size_cases : forall b t, domains b = Some t -> In b DOMAIN_SIZES.
Proof.
  intros b t. unfold domains, DOMAIN_SIZES.
  repeat (match goal with |- context [if b =? ?k then _ else _] => destruct (Z.eqb_spec b k) as [->|?]; [intros _; cbn; tauto|] end). discriminate.
Qed.
Lemma all_sizes : forall b, In b (implemented_keys false) <-> exists t, get_curve b = Ok t.
Proof.
  intro b. unfold implemented_keys. rewrite filter_In. split.
  - intros [H _]. cbn [DOMAIN_SIZES In] in H. destruct H as [<-|[<-|[<-|[<-|[<-|[<-|[<-|[]]]]]]]]; eexists; unfold get_curve, domains; cbn [Z.eqb Pos.eqb]; reflexivity.
  - intros [t H]. split; [|reflexivity]. unfold get_curve in H. destruct (domains b) as [u|] eqn:D; [exact (size_cases _ _ D)|discriminate H].
Qed.
Lemma sign_sizes : forall b, In b (implemented_keys true) <-> exists p n a q g, get_curve b = Ok (b, p, Some n, a, q, g).
Proof.
  intro b. unfold implemented_keys. rewrite filter_In. split.
  - intros [H W]. cbn [DOMAIN_SIZES In] in H. destruct H as [<-|[<-|[<-|[<-|[<-|[<-|[<-|[]]]]]]]]; try (vm_compute in W; discriminate W);
      do 5 eexists; unfold get_curve, domains; cbn [Z.eqb Pos.eqb]; reflexivity.
  - intros (p & n & a & q & g & H). unfold get_curve in H. destruct (domains b) as [[[[[p' n'] b'] x'] y']|] eqn:D; [|discriminate H].
    pose proof (size_cases _ _ D) as I. split; [exact I|]. injection H as <- -> <- <- <-. unfold may_sign. rewrite D. cbn [negb orb].
    cbn [DOMAIN_SIZES In] in I. destruct I as [<-|[<-|[<-|[<-|[<-|[<-|[<-|[]]]]]]]]; vm_compute in D; injection D as <- <- <- <- <- || discriminate D; reflexivity.
Qed.
Lemma size_facts : forall b b' p n a q g, get_curve b = Ok (b', p, n, a, q, g) ->
  b' = b /\ a = 3 /\ 2 ^ (b - 1) < p < 2 ^ b /\ 0 < q < p /\ element (Some g) a q p = true /\ forall m, n = Some m -> 2 ^ (b - 1) < m < 2 ^ b.
Proof.
  intros b b' p n a q g H. assert (I : In b (implemented_keys false)) by (apply all_sizes; eexists; exact H).
  unfold implemented_keys in I. rewrite filter_In in I. destruct I as [I _]. cbn [DOMAIN_SIZES In] in I.
  destruct I as [<-|[<-|[<-|[<-|[<-|[<-|[<-|[]]]]]]]]; vm_compute in H; injection H as <- <- <- <- <- <-;
    (split; [reflexivity|]); (split; [reflexivity|]); (split; [split; vm_compute; reflexivity|]); (split; [split; vm_compute; reflexivity|]); (split; [vm_compute; reflexivity|]);
    intros m X; (discriminate X || (injection X as <-; split; vm_compute; reflexivity)).
Qed.
Lemma no_repeats : forall must_sign, NoDup (implemented_keys must_sign).
Proof.
  intro m. apply NoDup_filter. unfold DOMAIN_SIZES. repeat (constructor; [cbn [In]; lia|]). constructor.
Qed.
