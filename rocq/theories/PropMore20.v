(** * C281, C282: which keys can be serialized and have a thumbprint *)
From Coq Require Import ZArith List Bool Lia.
From Verif Require Import Base Utf8 Codec Json Prims Inst Ecc Jwk JwkProofs JwkEx Writable ThumbRaise.
Import ListNotations.
Open Scope Z_scope.

(** serialize returns for exactly these keys. *)
Theorem C281_serialize : forall k private, (exists v, serialize k private = Ok v) <->
  match k_data k with
  | DKey _ => True
  | DRsa key nums => otruthy key = true /\
      forall n, In n (if private then [lit "n"; lit "e"; lit "d"; lit "p"; lit "q"; lit "dp"; lit "dq"; lit "di"; lit "qi"] else [lit "n"; lit "e"]) ->
        truthy (num nums n) = true -> exists z, as_int (num nums n) = Some z /\ 0 < z
  | DEc _ _ x y d curve => (exists c, curve = OCurve c) /\ (exists z, as_int x = Some z /\ 0 < z) /\ (exists z, as_int y = Some z /\ 0 < z) /\
      (private = true -> truthy d = true -> exists z, as_int d = Some z /\ 0 < z)
  | DSym key _ =>
      match key with
      | VBytes _ | VBool _ => True
      | VInt z => 0 <= z
      | VList l => Forall (fun v => exists z, as_int v = Some z /\ 0 <= z < 256) l
      | VDict d => d = []
      | _ => False
      end
  end.
Proof. exact serialize_iff. Qed.
Print Assumptions C281_serialize.
(** to_dict returns for the same keys but those of the base class. *)
Theorem C281_to_dict : forall k, (exists d, to_dict k = Ok d) <-> (exists v, serialize k true = Ok v) /\ forall o, k_data k <> DKey o.
Proof. intro k. rewrite to_dict_iff, serialize_iff. reflexivity. Qed.
Print Assumptions C281_to_dict.
(** What it raises otherwise, for keys none of whose numbers is a fraction. *)
Theorem C281_raises : forall k private e,
  match k_data k with
  | DRsa _ nums => forall n f, num nums n <> VFloat f
  | DEc _ _ x y d _ => forall f, x <> VFloat f /\ y <> VFloat f /\ d <> VFloat f
  | _ => True
  end ->
  serialize k private = Raise e ->
  match k_data k with
  | DKey _ => False
  | DRsa key nums => if otruthy key then e = ETypeError \/ (e = NonTermination /\ exists n z, In n (if private then [lit "n"; lit "e"; lit "d"; lit "p"; lit "q"; lit "dp"; lit "dq"; lit "di"; lit "qi"] else [lit "n"; lit "e"]) /\ as_int (num nums n) = Some z /\ z < 0)
      else e = ESerializationNotPossible
  | DEc _ crv x y d curve =>
      match curve with
      | OCurve _ => e = ETypeError \/ (e = NonTermination /\ exists v z, as_int v = Some z /\ z < 0 /\ (v = x \/ v = y \/ (private = true /\ v = d)))
      | o => e = if truthy crv || otruthy o then EAttributeError else ESerializationNotPossible
      end
  | DSym _ _ => e = ETypeError \/ e = EValueError
  end.
Proof.
  intros k private e _ H. apply serialize_raises in H. destruct (k_data k) as [o|key nums|o crv x y d curve|key k0]; try exact H.
  - destruct (otruthy key); [|exact H]. destruct H as [H|(H & n & I & z & A & B)]; [left; exact H|right; split; [exact H|]; exists n, z; auto].
  - destruct curve; try exact H. destruct H as [H|(H & [(z & A & B)|[(z & A & B)|(-> & z & A & B)]])]; [left; exact H| | |]; right; (split; [exact H|]); [exists x, z|exists y, z|exists d, z]; auto 6.
Qed.
Print Assumptions C281_raises.

Definition dumped (k : jwk) (private : bool) : option exn := match serialize k private with Ok _ => None | Raise e => Some e end.
Definition ec_with (x d : pval) (c : kobj) : jwk := match k_data ex_ec with DEc o crv _ y _ _ => fields (VStr (lit "EC")) (VStr []) (VStr []) (VStr []) (DEc o crv x y d c) | _ => ex_ec end.
Definition a_curve : kobj := match k_data ex_ec with DEc _ _ _ _ _ c => c | _ => onone end.
Definition oct_with (v : pval) : jwk := fields (VStr (lit "oct")) (VStr []) (VStr []) (VStr []) (DSym v (VStr [])).
Example C281_ex : dumped ex_rsa true = None /\ dumped (ec_with (VInt 5) (VInt 7) a_curve) true = None /\ dumped (oct_with (VBytes (lit "secret"))) true = None /\
  dumped (oct_with (VList [VInt 1; VBool true])) true = None /\ dumped (oct_with (VList [VInt 256])) true = Some EValueError /\ dumped (oct_with (VStr (lit "secret"))) true = Some ETypeError /\
  dumped (ec_with (VInt 0) (VInt 7) a_curve) true = Some ETypeError /\ dumped (ec_with (VInt 5) (VInt (-7)) a_curve) true = Some NonTermination /\ dumped (ec_with (VInt 5) (VInt (-7)) a_curve) false = None /\
  dumped (ec_with (VInt 5) (VInt 7) onone) true = Some EAttributeError /\ dumped (fields (VStr (lit "RSA")) (VStr []) (VStr []) (VStr []) (DRsa onone [])) false = Some ESerializationNotPossible.
Proof. vm_compute. repeat split. Qed.

(** C282: a key whose type is a text has a thumbprint exactly if its public part can be serialized, it is not of the base class and the
    hash has one of three names. *)
Theorem C282_thumbprint : forall P k t name, k_kty k = VStr t -> (forall s x, k_data k = DSym (VBytes s) x -> bytes_ok s = true) ->
  ((exists b, thumbprint P k name = Ok b) <-> (exists v, serialize k false = Ok v) /\ (forall o, k_data k <> DKey o) /\ In name [lit "SHA-256"; lit "SHA-384"; lit "SHA-512"]).
Proof. intros P k t name K O. rewrite serialize_iff. exact (thumbprint_iff P k t name K O). Qed.
Print Assumptions C282_thumbprint.
(** hash(key) returns exactly if the hash is known already or the key has a thumbprint. *)
Theorem C282_hash : forall P k, (exists h k', key_hash P k = Ok (h, k')) <-> (exists h, k_hash k = Some h /\ h <> 0) \/ exists b, thumbprint P k (lit "SHA-256") = Ok b.
Proof.
  intros P k. assert (C : forall c, c = (if truthy (k_kid k) then get_hash P k else k' <- add_kid P k;; Ok (match k_hash k' with Some h => h | None => 0 end, k')) ->
    ((exists h k', c = Ok (h, k')) <-> exists b, thumbprint P k (lit "SHA-256") = Ok b)).
  { intros c ->. unfold get_hash, add_kid. destruct (thumbprint P k (lit "SHA-256")) as [b|e]; cbn [bind].
    - split; [eauto|intros _]. destruct (truthy (k_kid k)); eauto.
    - split; [intros (h & k' & H); destruct (truthy (k_kid k)); discriminate H|intros [b H]; discriminate H]. }
  unfold key_hash. cbv zeta. destruct (k_hash k) as [h|].
  - destruct (Z.eqb_spec h 0) as [->|N]; [|split; [left; eauto|eauto]]. rewrite (C _ eq_refl). split; [auto|]. intros [(h & X & Y)|H]; [injection X as <-; contradiction (Y eq_refl)|exact H].
  - rewrite (C _ eq_refl). split; [auto|]. intros [(h & X & _)|H]; [discriminate X|exact H].
Qed.
Print Assumptions C282_hash.
Example C282_ex : (exists b, thumbprint std ex_rsa (lit "SHA-256") = Ok b) /\ thumbprint std ex_rsa (lit "SHA-1") = Raise EKeyError /\
  thumbprint std (oct_with (VStr (lit "secret"))) (lit "SHA-256") = Raise ETypeError /\ exists b, thumbprint std (oct_with (VBytes (lit "secret"))) (lit "SHA-512") = Ok b.
Proof. split; [eexists; vm_compute; reflexivity|]. split; [vm_compute; reflexivity|]. split; [vm_compute; reflexivity|]. eexists. vm_compute. reflexivity. Qed.
