(** * Which keys can be serialized (jwk.py:279-314, 488-508, 626-640, 686-689) *)
From Coq Require Import ZArith List Bool Lia.
From Verif Require Import Base BaseProofs Utf8 Codec CodecProofs Json Prims Ecc Jwk JwkProofs JweProofs17.
Import ListNotations.
Open Scope Z_scope.

Definition positive (v : pval) : Prop := exists z, as_int v = Some z /\ 0 < z.
Definition negative (v : pval) : Prop := exists z, as_int v = Some z /\ z < 0.
Lemma l2a_negative : forall f n acc, n < 0 -> l2a f n acc = Raise NonTermination.
Proof.
  induction f as [|f IH]; intros n acc N; cbn [l2a]; rewrite (proj2 (Z.eqb_neq n 0)) by lia; [reflexivity|]. apply IH. apply Z.div_lt_upper_bound; lia.
Qed.
Lemma number_written : forall v, (positive v /\ exists t, num_to_base64 v = Ok t) \/ (negative v /\ num_to_base64 v = Raise NonTermination) \/ (~ positive v /\ ~ negative v /\ num_to_base64 v = Raise ETypeError).
Proof.
  intro v. unfold num_to_base64, positive, negative. destruct (as_int v) as [z|]; [|right; right; repeat split; intros (z & X & _); discriminate X].
  destruct (Z.lt_trichotomy z 0) as [N|[->|N]].
  - right. left. split; [exists z; auto|]. unfold long_to_base64, long2intarr. rewrite l2a_negative by exact N. reflexivity.
  - right. right. split; [intros (z & X & Y); injection X as <-; lia|]. split; [intros (z & X & Y); injection X as <-; lia|]. reflexivity.
  - left. split; [exists z; auto|]. destruct (long_to_base64_spec z N) as (a & s & E & _). rewrite E. cbn [bind]. eauto.
Qed.
Lemma written_iff : forall v, positive v <-> exists t, num_to_base64 v = Ok t.
Proof.
  intro v. destruct (number_written v) as [(N & t & E)|[(N & E)|(X & _ & E)]]; split; try (intros [t' T]; congruence); intro H; eauto; try contradiction.
  destruct H as (z & A & B), N as (z' & A' & B'). rewrite A in A'. injection A' as <-. lia.
Qed.
Lemma written_exn : forall v e, num_to_base64 v = Raise e -> e = ETypeError \/ (e = NonTermination /\ negative v).
Proof. intros v e H. destruct (number_written v) as [(_ & t & E)|[(N & E)|(_ & _ & E)]]; rewrite E in H; [discriminate H|right; split; [congruence|exact N]|left; congruence]. Qed.

Lemma nums_iff : forall nums names acc, (exists d, add_nums acc nums names = Ok d) <-> forall n, In n names -> truthy (num nums n) = true -> positive (num nums n).
Proof.
  intros nums. induction names as [|n names IH]; intro acc; cbn [add_nums].
  - split; [intros _ n []|intros _; eauto].
  - cbv zeta. destruct (truthy (num nums n)) eqn:T; cbn [bind].
    + split.
      * intros [d H]. destruct (num_to_base64 (num nums n)) as [t|] eqn:E; [cbn [bind] in H|discriminate H]. intros m [<-|I] Tm; [apply written_iff; eauto|]. exact (proj1 (IH _) (ex_intro _ d H) m I Tm).
      * intro H. destruct (proj1 (written_iff _) (H n (or_introl eq_refl) T)) as [t E]. rewrite E. cbn [bind]. apply IH. intros m I. apply H. right. exact I.
    + rewrite IH. split; intros H m; [intros [<-|I] Tm; [congruence|exact (H m I Tm)]|intros I Tm; exact (H m (or_intror I) Tm)].
Qed.
Lemma nums_exn : forall nums names acc e, add_nums acc nums names = Raise e -> e = ETypeError \/ (e = NonTermination /\ exists n, In n names /\ negative (num nums n)).
Proof.
  intros nums. induction names as [|n names IH]; intros acc e H; [discriminate H|]. cbn [add_nums] in H. cbv zeta in H. step H.
  - destruct (truthy (num nums n)); [|discriminate H]. step H; [|discriminate H]. destruct (written_exn _ _ H) as [->|(-> & N)]; [left; reflexivity|right; split; [reflexivity|exists n; split; [left; reflexivity|exact N]]].
  - destruct (IH _ _ H) as [->|(-> & m & I & N)]; [left; reflexivity|right; split; [reflexivity|exists m; split; [right; exact I|exact N]]].
Qed.

Definition octet_value (v : pval) : Prop := exists z, as_int v = Some z /\ 0 <= z < 256.
Definition secret (v : pval) : Prop :=
  match v with VBytes _ | VBool _ => True | VInt z => 0 <= z | VList l => Forall octet_value l | VDict d => d = [] | _ => False end.
Lemma octets_iff : forall l, (exists b, octets l = Ok b) <-> Forall octet_value l.
Proof.
  induction l as [|v l IH]; [split; [constructor|intros _; exists []; reflexivity]|]. cbn [octets]. split.
  - intros [b H]. destruct (as_int v) as [z|] eqn:A; [|discriminate H]. destruct (is_byte z) eqn:B; [|discriminate H]. destruct (octets l) as [t|]; [|discriminate H].
    constructor; [exists z; split; [exact A|]; unfold is_byte in B; apply andb_prop in B; destruct B as [B1 B2]; apply Z.leb_le in B1; try apply Z.ltb_lt in B2; try apply Z.leb_le in B2; lia|]. apply IH. eauto.
  - intro F. inversion F as [|? ? (z & A & B) F2]. subst. rewrite A. assert (is_byte z = true) as -> by (unfold is_byte; apply andb_true_intro; split; [apply Z.leb_le; lia|]; first [apply Z.ltb_lt; lia|apply Z.leb_le; lia]).
    destruct (proj2 IH F2) as [b E]. rewrite E. cbn [bind]. eauto.
Qed.
Lemma secret_iff : forall v, (exists b, py_bytes v = Ok b) <-> secret v.
Proof.
  intro v. destruct v as [|b|z|f|s|b|l|d]; cbn [py_bytes secret]; try (split; [intros [? H]; discriminate H|contradiction]); try (split; [exact (fun _ => I)|eauto]).
  - destruct (Z.ltb_spec z 0); split; [intros [? X]; discriminate X|lia|intros _; assumption|eauto].
  - exact (octets_iff l).
  - destruct d; split; [reflexivity|eauto|intros [? X]; discriminate X|discriminate].
Qed.
Lemma octets_exn : forall l e, octets l = Raise e -> e = ETypeError \/ e = EValueError.
Proof.
  induction l as [|v l IH]; intros e H; [discriminate H|]. cbn [octets] in H. destruct (as_int v); [|left; congruence]. destruct (is_byte z); [|right; congruence]. step H; [exact (IH _ H)|discriminate H].
Qed.
Lemma bytes_exn : forall v e, py_bytes v = Raise e -> e = ETypeError \/ e = EValueError.
Proof.
  intros v e H. destruct v as [|b|z|f|s|b|l|d]; cbn [py_bytes] in H; try discriminate H; try (left; congruence); [destruct (z <? 0); [right; congruence|discriminate H]|exact (octets_exn _ _ H)|destruct d; [discriminate H|left; congruence]].
Qed.

(** The numbers written: n and e, with [private] all nine. *)
Definition names_written (private : bool) : list ustr :=
  if private then [lit "n"; lit "e"; lit "d"; lit "p"; lit "q"; lit "dp"; lit "dq"; lit "di"; lit "qi"] else [lit "n"; lit "e"].
Definition writable (k : jwk) (private : bool) : Prop :=
  match k_data k with
  | DKey _ => True
  | DRsa key nums => otruthy key = true /\ forall n, In n (names_written private) -> truthy (num nums n) = true -> positive (num nums n)
  | DEc _ _ x y d curve => (exists c, curve = OCurve c) /\ positive x /\ positive y /\ (private = true -> truthy d = true -> positive d)
  | DSym key _ => secret key
  end.
Theorem serialize_iff : forall k private, (exists v, serialize k private = Ok v) <-> writable k private.
Proof.
  intros k private. unfold serialize, writable. destruct (k_data k) as [o|key nums|o crv x y d curve|key k0].
  - split; eauto.
  - destruct (otruthy key); [|split; [intros [? H]; discriminate H|intros [H _]; discriminate H]]. split.
    + intros [v H]. split; [reflexivity|]. destruct (add_nums (common k) nums [lit "n"; lit "e"]) as [a|] eqn:A; [cbn [bind] in H|discriminate H]. destruct private; cbn [names_written].
      * destruct (add_nums a nums rsa_longs) as [b|] eqn:B; [|discriminate H]. exact (proj1 (nums_iff _ _ _) (ex_intro _ b B)).
      * exact (proj1 (nums_iff _ _ _) (ex_intro _ a A)).
    + intros [_ H]. destruct (proj2 (nums_iff nums [lit "n"; lit "e"] (common k))) as [a A]; [intros n I; apply H; destruct private; [|exact I]; cbn [names_written In] in *; tauto|]. rewrite A. cbn [bind].
      destruct private; [|cbn [bind]; eauto]. destruct (proj2 (nums_iff nums rsa_longs a) H) as [b B]. rewrite B. cbn [bind]. eauto.
  - destruct curve as [r|c|v].
    1,3: (split; [intros [? H]; destruct (_ && _); discriminate H|intros [[c X] _]; discriminate X]).
    cbn [otruthy negb]. rewrite andb_false_r. rewrite !written_iff. split.
    + intros [v H]. destruct (num_to_base64 x) as [x'|]; [cbn [bind] in H|discriminate H]. destruct (num_to_base64 y) as [y'|]; [cbn [bind] in H|discriminate H]. cbv zeta in H.
      split; [eauto|]. split; [eauto|]. split; [eauto|]. intros -> T. rewrite T in H. cbn [andb] in H. destruct (num_to_base64 d); [eauto|discriminate H].
    + intros (_ & [x' X] & [y' Y] & D). rewrite X, Y. cbn [bind]. destruct private; cbn [andb]; [|eauto]. destruct (truthy d); [|eauto]. destruct (D eq_refl eq_refl) as [d' E]. rewrite E. cbn [bind]. eauto.
  - rewrite <- secret_iff. split; [intros [v H]; destruct (py_bytes key); [eauto|discriminate H]|intros [b E]; rewrite E; cbn [bind]; eauto].
Qed.

Theorem serialize_raises : forall k private e, serialize k private = Raise e ->
  match k_data k with
  | DKey _ => False
  | DRsa key nums => if otruthy key then e = ETypeError \/ (e = NonTermination /\ exists n, In n (names_written private) /\ negative (num nums n)) else e = ESerializationNotPossible
  | DEc _ crv x y d curve =>
      match curve with
      | OCurve _ => e = ETypeError \/ (e = NonTermination /\ (negative x \/ negative y \/ (private = true /\ negative d)))
      | o => e = if truthy crv || otruthy o then EAttributeError else ESerializationNotPossible
      end
  | DSym key _ => e = ETypeError \/ e = EValueError
  end.
Proof.
  intros k private e H. unfold serialize in H. destruct (k_data k) as [o|key nums|o crv x y d curve|key k0].
  - discriminate H.
  - destruct (otruthy key); [|congruence]. step H; [|step H; [|discriminate H]].
    + destruct (nums_exn _ _ _ _ H) as [X|(X & n & I & N)]; [left; exact X|right; split; [exact X|]; exists n; split; [|exact N]]. destruct private; [|exact I]. cbn [names_written In] in *. tauto.
    + destruct private; [|discriminate H]. exact (nums_exn _ _ _ _ H).
  - destruct curve as [r|c|v]; [| |]; cbn [otruthy] in *.
    + rewrite andb_false_r in H. rewrite orb_true_r. congruence.
    + cbn [negb] in H. rewrite andb_false_r in H. step H; [destruct (written_exn _ _ H) as [X|[X N]]; [left; exact X|right; split; [exact X|left; exact N]]|].
      step H; [destruct (written_exn _ _ H) as [X|[X N]]; [left; exact X|right; split; [exact X|right; left; exact N]]|]. cbv zeta in H.
      destruct private; cbn [andb] in H; [|discriminate H]. destruct (truthy d); [|discriminate H]. step H; [|discriminate H]. destruct (written_exn _ _ H) as [X|[X N]]; [left; exact X|right; split; [exact X|right; right; split; [reflexivity|exact N]]].
    + destruct (truthy crv), (truthy v); cbn [negb andb orb] in *; congruence.
  - step H; [exact (bytes_exn _ _ H)|discriminate H].
Qed.
Theorem to_dict_iff : forall k, (exists d, to_dict k = Ok d) <-> writable k true /\ forall o, k_data k <> DKey o.
Proof.
  intro k. unfold to_dict. split.
  - intros [d H]. destruct (serialize k true) as [v|] eqn:S; [cbn [bind] in H|discriminate H]. split; [apply serialize_iff; eauto|]. intros o D. unfold serialize in S. rewrite D in S. injection S as <-. discriminate H.
  - intros [W N]. destruct (proj2 (serialize_iff k true) W) as [v S]. rewrite S. cbn [bind]. assert (exists d, v = VDict d) as [d ->]; [|eauto].
    unfold serialize in S. destruct (k_data k) as [o|key nums|o crv x y d curve|key k0]; [contradiction (N o eq_refl)| | |].
    + destruct (otruthy key); [|discriminate S]. destruct (add_nums _ _ _) as [a|]; [cbn [bind] in S|discriminate S]. destruct (add_nums _ _ rsa_longs) as [b|]; [cbn [bind] in S|discriminate S]. injection S as <-. eauto.
    + destruct (_ && _); [discriminate S|]. destruct curve; try discriminate S. destruct (num_to_base64 x); [cbn [bind] in S|discriminate S]. destruct (num_to_base64 y); [cbn [bind] in S|discriminate S]. cbv zeta in S.
      destruct (_ && _); [destruct (num_to_base64 d); [cbn [bind] in S|discriminate S]|]; injection S as <-; eauto.
    + destruct (py_bytes key); [cbn [bind] in S|discriminate S]. injection S as <-. eauto.
Qed.
