(** * What sign_json can raise (jws.py:590-631) *)
From Coq Require Import ZArith List Bool Lia.
From Verif Require Import Base BaseProofs Utf8 Codec CodecProofs Json JsonProofs Jwt JwtProofs Prims Elliptic Ecc Jwk JwkProofs Jws JwsProofs JwsProofs6 JsonRaise SignRaise JweProofs17.
Import ListNotations.
Open Scope Z_scope.

(** The algorithm an entry is signed with: the one of its protected header or that of the
    instance. *)
Definition entry_alg (s : jws) (p : dict) : option pval := match dget p (lit "alg") with Some a => Some a | None => dget (s_dict s) (lit "alg") end.

Definition entry_raises (P : prims) (s : jws) (ks : list jwk) (p : dict) (e : exn) : Prop :=
  signish e \/ (exists sc h k o m, p_rsa_sign P sc h k o m = Raise e) \/
  (e = EOverflowError /\ exists k v, In k ks /\ get_key k true = Ok (MObj (OVal v)) /\ ((exists t, v = VStr t) \/ exists b, v = VBytes b)) \/
  (e = OutOfFuel /\ exists a, In a [lit "ES256"; lit "ES384"; lit "ES512"] /\ entry_alg s p = Some (VStr a)) \/ key_refused P p e.

Lemma entry_exn : forall P E s ks p u e, ks <> [] -> create_signature P E s (Some ks) (p, u) = Raise e -> entry_raises P s ks p e.
Proof.
  intros P E s ks p u e NE H. unfold create_signature in H. step H; [destruct (dget (s_dict s) (lit "alg")); [discriminate H|]; injection H as <-; left; exact sg_at|].
  cbv zeta in H. destruct (dget (s_dict s) (lit "alg")) as [a|] eqn:A; [|discriminate E0]. apply Ok_inj in E0. subst x.
  set (ph := if dmem p (lit "alg") then p else dset p (lit "alg") a) in H.
  assert (PA : dget ph (lit "alg") = entry_alg s p).
  { unfold ph, dmem, entry_alg. destruct (dget p (lit "alg")) eqn:D; [exact D|]. rewrite dget_dset, A, zs_eqb_refl. reflexivity. }
  assert (PJ : dget ph (lit "jwk") = dget p (lit "jwk")).
  { unfold ph, dmem. destruct (dget p (lit "alg")); [reflexivity|]. rewrite dget_dset. reflexivity. }
  destruct (_ || _); [injection H as <-; left; exact sg_ty|]. step H.
  - unfold jws_init in H. rewrite ddel_other, PJ in H by reflexivity. unfold key_refused.
    destruct (dget p (lit "jwk")) as [v|] eqn:J; [|discriminate H]. destruct v as [| | | |t| | |d]; try discriminate H.
    + destruct (loads_total t) as [[v L]|L]; rewrite L in H; cbn [bind] in H; [|injection H as <-; left; left; reflexivity].
      step H; [|discriminate H]. step H; [|discriminate H]. do 4 right. right. exists t, v. repeat split; assumption.
    + step H; [|discriminate H]. step H; [|discriminate H]. do 4 right. left. exists d. split; assumption.
  - step H.
    + destruct (sign_compact_raises _ _ _ _ _ _ NE H) as [X|[X|[X|(-> & al & I & X)]]]; [left; exact X|right; left; exact X|right; right; left; exact X|].
      do 3 right. left. split; [reflexivity|]. exists al. split; [exact I|]. rewrite <- PA.
      assert (IA : exists v, dget ph (lit "alg") = Some v /\ dget (s_dict x) (lit "alg") = Some v).
      { rewrite PA. unfold jws_init in E0. match type of E0 with (bind ?m _) = _ => destruct m; [cbn [bind] in E0|discriminate E0] end. apply Ok_inj in E0. subst x. cbn [s_dict].
        assert (exists v, entry_alg s p = Some v) as [v V] by (unfold entry_alg; rewrite A; destruct (dget p (lit "alg")); eauto). exists v. split; [exact V|].
        assert (D : dget (ddel ph (lit "with_digest")) (lit "alg") = Some v) by (rewrite ddel_other by reflexivity; congruence).
        destruct (ddel ph (lit "with_digest")) eqn:DD; [discriminate D|]. rewrite <- DD in D |- *. rewrite init_dict_get by discriminate. rewrite D. reflexivity. }
      destruct IA as (v & V1 & V2). unfold pick_alg in X. rewrite V2 in X. rewrite V1. f_equal. destruct (truthy v); cbn [snd] in X; [exact X|].
      exfalso. injection X as <-. cbn [In] in I. repeat (destruct I as [I|I]; [discriminate I|]). exact I.
    + destruct (split 46 x0) as [|h [|b [|g [|]]]]; try discriminate H; injection H as <-; left; left; reflexivity.
Qed.
Lemma entries_exn : forall P Es s ks, ks <> [] -> forall hds i e, create_signatures P Es i s (Some ks) hds = Raise e -> exists p u, In (p, u) hds /\ entry_raises P s ks p e.
Proof.
  intros P Es s ks NE. induction hds as [|[p u] r IH]; intros i e H; [discriminate H|]. cbn [create_signatures] in H. step H; [exists p, u; split; [left; reflexivity|exact (entry_exn _ _ _ _ _ _ _ NE H)]|].
  step H; [|discriminate H]. destruct (IH _ _ H) as (p0 & u0 & I & X). exists p0, u0. split; [right; exact I|exact X].
Qed.
Theorem sign_json_raises : forall P Es s ks headers flatten e, ks <> [] -> sign_json P Es s (Some ks) headers flatten = Raise e ->
  signish e \/ exists p u, In (p, u) (match headers with Some l => l | None => [([], [])] end) /\ entry_raises P s ks p e.
Proof.
  intros P Es s ks headers flatten e NE H. unfold sign_json in H.
  step H. { left. destruct (s_msg s); try (injection H as <-; exact sg_at). unfold b64e_enc_dec in H. step H; [apply utf8_encode_exn in H; subst e; left; reflexivity|discriminate H]. }
  step H. { destruct headers; [discriminate H|]. destruct (dget (s_dict s) (lit "alg")); [discriminate H|]. injection H as <-. left. exact sg_at. }
  cbv zeta in H. step H; [|left; rewrite (dumps_exn _ _ _ H); exact sg_ty]. right.
  assert (C : exists p u, In (p, u) x0 /\ entry_raises P s ks p e).
  { assert (M : (l <- create_signatures P Es 0 s (Some ks) x0;; Ok (dset [(lit "payload", VStr x)] (lit "signatures") (VList l))) = Raise e -> exists p u, In (p, u) x0 /\ entry_raises P s ks p e)
      by (intro X; step X; [exact (entries_exn _ _ _ _ NE _ _ _ X)|discriminate X]).
    destruct flatten; [|exact (M H)]. destruct x0 as [|[p u] [|? ?]]; [exact (M H)| |exact (M H)]. step H; [|discriminate H]. exists p, u. split; [left; reflexivity|exact (entry_exn _ _ _ _ _ _ _ NE H)]. }
  destruct headers as [l|]; [apply Ok_inj in E0; subst x0; exact C|]. destruct (dget (s_dict s) (lit "alg")) as [a|] eqn:A; [|discriminate E0]. apply Ok_inj in E0. subst x0.
  destruct C as (p & u & [I|[]] & X). injection I as <- <-. exists [], []. split; [left; reflexivity|].
  destruct X as [X|[X|[X|[(-> & al & I & X)|X]]]]; [left; exact X|right; left; exact X|right; right; left; exact X| |].
  - do 3 right. left. split; [reflexivity|]. exists al. split; [exact I|]. unfold entry_alg in X |- *. cbn [dget] in X |- *. rewrite zs_eqb_refl in X. rewrite A. exact X.
  - exfalso. destruct X as [(d & X & _)|(t & v & X & _)]; discriminate X.
Qed.
